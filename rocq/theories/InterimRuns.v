(** * Histories of interim filters over the exact-real instance *)

From Coq Require Import Reals NArith List.
From Verif Require Import Arith History Interim ExactRuns.

Section Runs.
Variable eps : R.
Variable W : nat.
Notation F := (exact eps).

Definition run_imean (ops : list (op R)) : imean F :=
  run (imean_push F (N.of_nat W)) (imean_clear F) (imean_init F) (rops eps ops).
Definition run_ivar (ops : list (op R)) : ivar F :=
  run (ivar_push F (N.of_nat W)) (ivar_clear F) (ivar_init F) (rops eps ops).
Definition run_iskew (ops : list (op R)) : iskew F :=
  run (iskew_push F (N.of_nat W)) (iskew_clear F) (iskew_init F) (rops eps ops).
Definition run_ikurt (ops : list (op R)) : ikurt F :=
  run (ikurt_push F (N.of_nat W)) (ikurt_clear F) (ikurt_init F) (rops eps ops).
Definition run_icov (ops : list (op (R * R))) : icov F :=
  run (icov_push F (N.of_nat W)) (icov_clear F) (icov_init F) (rpops eps ops).
Definition run_ireg (ops : list (op (R * R))) : ireg F :=
  run (ireg_push F (N.of_nat W)) (ireg_clear F) (ireg_init F) (rpops eps ops).
End Runs.
