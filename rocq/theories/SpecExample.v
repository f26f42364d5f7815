(** * Specification: the line fitted to a table of pairs *)

From Coq Require Import Reals List.
From Verif Require Import SpecStats.
Local Open Scope R_scope.

(** [a + b * x] has the least sum of squared residuals; it is horizontal if all
    [x] are equal (which makes it unique). *)
Definition fitted (a b : R) (l : list (R * R)) : Prop :=
  (forall a' b', sse a b l <= sse a' b' l) /\
  (forall c, constant c (xs l) -> b = 0).

(** One row per pair: the pair, the slope and the intercept of the line fitted to
    the pairs up to there ([recent] selects the pairs that count). *)
Definition row (recent : list (R * R) -> list (R * R)) (l : list (R * R)) (i : nat)
    (x y b a : R) : Prop :=
  nth_error l i = Some (x, y) /\ fitted a b (recent (firstn (S i) l)).
