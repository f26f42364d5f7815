(** * The cumulative skewness and kurtosis compiled with contracted expressions

    As Contracted.v.  Where two products are subtracted or added, the compiler
    can fuse only one of them; the flags say which. *)

From Coq Require Import List NArith ZArith.
From Verif Require Import Arith History Cumulative Contracted.
Import ListNotations.
Local Open Scope num_scope.

Section Higher.
Variable F : num.
Variable U : fused F.

(** cumulative/detail/moment.ipp:126-137; [left] fuses the product
    [... * (n - 2)] of line 134, otherwise [3 * super::sum.variance] is fused. *)
Definition cskew_push_fma (left : bool) (s : cskew F) (input : F) : cskew F :=
  let count := cvar_size F (cs_super F s) in
  let delta := input - cvar_mean F (cs_super F s) in
  let n := szadd count 1 in
  let delta_over_n := delta / nofsz n in
  let square := (delta * delta_over_n) * nofsz (szsub n 1) in
  let diff :=
    if left
    then fms U square (nofsz (szsub n 2)) (nofz 3%Z * cv_sum F (cs_super F s))
    else fnma U (nofz 3%Z) (cv_sum F (cs_super F s)) (square * nofsz (szsub n 2)) in
  CSkew F (cvar_push_fma F U (cs_super F s) input)
    (fma U diff delta_over_n (cs_sum F s)).

(** cumulative/detail/moment.ipp:171-185; [leftv] fuses the product of line 179
    into the addition of line 182, otherwise that of line 180; [lefts] fuses
    [(expr + var_expr) * delta_over_n], otherwise the product of line 181. *)
Definition ckurt_push_fma (left leftv lefts : bool) (s : ckurt F) (input : F) : ckurt F :=
  let count := cskew_size F (ck_super F s) in
  let delta := input - cskew_mean F (ck_super F s) in
  let n := szadd count 1 in
  let delta_over_n := delta / nofsz n in
  let square := (delta * delta_over_n) * nofsz (szsub n 1) in
  let factor := nofsz (szadd (szmul n (szsub n 3)) 3) in
  let variance := cv_sum F (cs_super F (ck_super F s)) in
  let inner :=
    if leftv
    then fma U square factor (nofz 6%Z * variance)
    else fma U (nofz 6%Z) variance (square * factor) in
  let diff :=
    if lefts
    then fms U inner delta_over_n (nofz 4%Z * cs_sum F (ck_super F s))
    else fnma U (nofz 4%Z) (cs_sum F (ck_super F s)) (inner * delta_over_n) in
  CKurt F (cskew_push_fma left (ck_super F s) input)
    (fma U diff delta_over_n (ck_sum F s)).

(** cumulative/detail/moment.ipp:159-168; [leftk] fuses the product
    [(count + 1) * kurtosis()], otherwise [value_type(3) * (count - 1)]. *)
Definition ckurt_unbiased_kurtosis_fma (leftk : bool) (s : ckurt F) : F :=
  let count := ckurt_size F s in
  if N.ltb count 4 then n0
  else if ck_sum F s <? neps then n0
  else
    let diff :=
      if leftk
      then fms U (nofsz (szadd count 1)) (ckurt_kurtosis F s) (nofz 3%Z * nofsz (szsub count 1))
      else fnma U (nofz 3%Z) (nofsz (szsub count 1)) (nofsz (szadd count 1) * ckurt_kurtosis F s) in
    fma U (nofsz (szsub count 1) / nofsz (szmul (szsub count 2) (szsub count 3))) diff (nofz 3%Z).
End Higher.
