(** * Specification: values that extend their range by a fixed step

    A stream that starts at some value and then moves, value by value, one step
    beyond the largest or one step below the smallest value so far.  Rising and
    falling sequences with a constant step are the streams that keep moving in one
    direction. *)

From Coq Require Import Reals List.
Import ListNotations.
Local Open Scope R_scope.

Fixpoint spread_from (d lo hi : R) (ups : list bool) : list R :=
  match ups with
  | [] => []
  | true :: t => (hi + d) :: spread_from d lo (hi + d) t
  | false :: t => (lo - d) :: spread_from d (lo - d) hi t
  end.

Definition spread (d a : R) (ups : list bool) : list R := a :: spread_from d a a ups.
