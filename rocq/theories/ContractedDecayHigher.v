(** * The decay skewness and kurtosis compiled with contracted expressions

    As Contracted.v: every product that is added or subtracted is fused. *)

From Coq Require Import List NArith ZArith.
From Verif Require Import Arith History Decay Contracted.
Import ListNotations.
Local Open Scope num_scope.

Section DecayHigher.
Variable F : num.
Variable U : fused F.

(** decay/detail/moment.ipp:133-140 *)
Definition dskew_push_fma (s : dskew F) (input : F) : dskew F :=
  let super := dvar_push_fma F U (ds_super F s) input in
  let mean := dvar_mean F super in
  let delta := input - mean in
  DSkew F super (ds_factor F s)
    (fma U (ds_factor F s) (n1 - ds_norm F s) (ds_norm F s))
    (fma U (ds_factor F s) (fms U (delta * delta) delta (ds_sum F s)) (ds_sum F s)).

(** decay/detail/moment.ipp:179-186 *)
Definition dkurt_push_fma (s : dkurt F) (input : F) : dkurt F :=
  let super := dskew_push_fma (dk_super F s) input in
  let mean := dskew_mean F super in
  let delta := input - mean in
  DKurt F super (dk_factor F s)
    (fma U (dk_factor F s) (n1 - dk_norm F s) (dk_norm F s))
    (fma U (dk_factor F s) (fms U ((delta * delta) * delta) delta (dk_sum F s)) (dk_sum F s)).
End DecayHigher.
