(** * Histories of window filters over the exact-real instance *)

From Coq Require Import Reals List.
From Verif Require Import Arith History Window ExactRuns.

Section Runs.
Variable eps : R.
Variable W : nat.
Notation F := (exact eps).

Definition run_wmean (ops : list (op R)) : wmean F :=
  run (wmean_push F W) (wmean_clear F) (wmean_init F) (rops eps ops).
Definition run_wvar (ops : list (op R)) : wvar F :=
  run (wvar_push F W) (wvar_clear F) (wvar_init F) (rops eps ops).
Definition run_wcov (ops : list (op (R * R))) : wcov F :=
  run (wcov_push F W) (wcov_clear F) (wcov_init F) (rpops eps ops).
Definition run_wreg (ops : list (op (R * R))) : wreg F :=
  run (wreg_push F W) (wreg_clear F) (wreg_init F) (rpops eps ops).
End Runs.
