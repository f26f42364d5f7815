(** * Specification vocabulary for inequalities between statistics *)

From Coq Require Import Reals List.
Import ListNotations.
Local Open Scope R_scope.

(** Number of values whose distance from [m] is at least [d]. *)
Definition far (m d : R) (l : list R) : nat :=
  length (filter (fun x => if Rle_dec d (Rabs (x - m)) then true else false) l).

(** All values lie in the interval from [a] to [b]. *)
Definition all_in (a b : R) (l : list R) : Prop := Forall (fun x => a <= x <= b) l.
