(** * Specification: results that differ by a constant *)

From Coq Require Import Reals.
From Verif Require Import Arith.

(** [y] is [x] plus [c]; values that are not finite correspond. *)
Definition shifted (c : R) (x y : xreal) : Prop :=
  match x, y with
  | Fin a, Fin b => b = (a + c)%R
  | NonFin, NonFin => True
  | _, _ => False
  end.

(** A value plus [c]; a value that is not finite stays so. *)
Definition plus_c (c : R) (x : xreal) : xreal :=
  match x with
  | Fin a => Fin (a + c)
  | NonFin => NonFin
  end.
Definition plus_c2 (c d : R) (p : xreal * xreal) : xreal * xreal :=
  (plus_c c (fst p), plus_c d (snd p)).
