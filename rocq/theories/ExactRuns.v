(** * Histories over the exact-real instance

    Vocabulary of the theorem statements: histories of real numbers (or pairs)
    run on the model instantiated with exact real arithmetic. *)

From Coq Require Import Reals NArith List.
From Verif Require Import Arith History Cumulative.

(** The number of values fits a size_t. *)
Definition fits {A} (l : list A) : Prop := (N.of_nat (length l) < szmod)%N.

Definition rops (eps : R) (ops : list (op R)) : list (op (exact eps)) :=
  map (op_map Fin) ops.
Definition rpops (eps : R) (ops : list (op (R * R)))
  : list (op (exact eps * exact eps)) :=
  map (op_map (fun p => (Fin (fst p), Fin (snd p)))) ops.

Section Runs.
Variable eps : R.
Notation F := (exact eps).

Definition run_cmean (ops : list (op R)) : cmean F :=
  run (cmean_push F) (cmean_clear F) (cmean_init F) (rops eps ops).
Definition run_cvar (ops : list (op R)) : cvar F :=
  run (cvar_push F) (cvar_clear F) (cvar_init F) (rops eps ops).
Definition run_cskew (ops : list (op R)) : cskew F :=
  run (cskew_push F) (cskew_clear F) (cskew_init F) (rops eps ops).
Definition run_ckurt (ops : list (op R)) : ckurt F :=
  run (ckurt_push F) (ckurt_clear F) (ckurt_init F) (rops eps ops).
Definition run_ccov (ops : list (op (R * R))) : ccov F :=
  run (ccov_push F) (ccov_clear F) (ccov_init F) (rpops eps ops).
Definition run_ccorr (ops : list (op (R * R))) : ccorr F :=
  run (ccorr_push F) (ccorr_clear F) (ccorr_init F) (rpops eps ops).
Definition run_creg (ops : list (op (R * R))) : creg F :=
  run (creg_push F) (creg_clear F) (creg_init F) (rpops eps ops).
Definition run_ctrend (ops : list (op R)) : ctrend F :=
  run (ctrend_push F) (ctrend_clear F) (ctrend_init F) (rops eps ops).
End Runs.

(** numeric_limits<double>::epsilon() *)
Definition eps64 : R := (/ 4503599627370496)%R.
