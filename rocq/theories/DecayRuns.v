(** * Histories of decay filters over the exact-real instance *)

From Coq Require Import Reals List.
From Verif Require Import Arith History Decay ExactRuns.

Section Runs.
Variable eps : R.
Notation F := (exact eps).

Definition run_dmean (fm : R) (ops : list (op R)) : dmean F :=
  run (dmean_push F) (dmean_clear F) (dmean_init F (Fin fm)) (rops eps ops).
Definition run_dvar (fm fv : R) (ops : list (op R)) : dvar F :=
  run (dvar_push F) (dvar_clear F) (dvar_init F (Fin fm) (Fin fv)) (rops eps ops).
Definition run_dskew (fm fv fs : R) (ops : list (op R)) : dskew F :=
  run (dskew_push F) (dskew_clear F) (dskew_init F (Fin fm) (Fin fv) (Fin fs))
      (rops eps ops).
Definition run_dkurt (fm fv fs fk : R) (ops : list (op R)) : dkurt F :=
  run (dkurt_push F) (dkurt_clear F)
      (dkurt_init F (Fin fm) (Fin fv) (Fin fs) (Fin fk)) (rops eps ops).
End Runs.
