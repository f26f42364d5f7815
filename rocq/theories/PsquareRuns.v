(** * Histories of the P-square estimator over the exact-real instance *)

From Coq Require Import Reals List.
From Verif Require Import Arith History Psquare ExactRuns.

Section Runs.
Variable eps : R.
Notation F := (exact eps).

Definition rqs (qs : list R) : list F := map Fin qs.
Definition run_psq (qs : list R) (ops : list (op R)) : psq F :=
  run (psq_push F (rqs qs)) (psq_clear F (rqs qs)) (psq_init F (rqs qs)) (rops eps ops).
End Runs.
