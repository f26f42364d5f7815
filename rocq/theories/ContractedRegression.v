(** * The cumulative regression and correlation filters compiled with contracted expressions *)

From Coq Require Import List.
From Verif Require Import Arith Cumulative Contracted.
Local Open Scope num_scope.

(** cumulative/detail/regression.ipp:38-43, the pushes of the three moments fused *)
Definition creg_push_fma (F : num) (U : fused F) (s : creg F) (p : F * F) : creg F :=
  CReg F (ccov_push_fma F U (cg_co F s) p) (cvar_push_fma F U (cg_x F s) (fst p))
       (cvar_push_fma F U (cg_y F s) (snd p)).

(** cumulative/detail/regression.ipp:46-49; slope() (52-58) contains no product *)
Definition creg_at_fma (F : num) (U : fused F) (s : creg F) (position : F) : F :=
  fnma U (creg_slope F s) (cvar_mean F (cg_x F s) - position) (cvar_mean F (cg_y F s)).

(** cumulative/detail/correlation.ipp:36-41, the pushes of the three moments fused; the
    product in value() (44-50) feeds a comparison and a square root, not an addition *)
Definition ccorr_push_fma (F : num) (U : fused F) (s : ccorr F) (p : F * F) : ccorr F :=
  CCorr F (ccov_push_fma F U (cr_co F s) p) (cvar_push_fma F U (cr_x F s) (fst p))
        (cvar_push_fma F U (cr_y F s) (snd p)).
