(** * Model of include/trial/online/cumulative/ *)

From Coq Require Import ZArith NArith Bool List.
From Verif Require Import Arith.
Import ListNotations.

Section Cumulative.
Variable F : num.
Local Open Scope num_scope.

(** ** basic_moment<T, with::mean> *)

(** include/trial/online/cumulative/moment.hpp:71-75 ([struct member]) *)
Record cmean : Type := CMean { cm_mean : F; cm_count : N }.

(** cumulative/moment.hpp:73-74, default member initialisers *)
Definition cmean_init : cmean := CMean n0 0.

(** cumulative/detail/moment.ipp:26-30 *)
Definition cmean_clear (s : cmean) : cmean := CMean n0 0.

(** cumulative/detail/moment.ipp:33-36 *)
Definition cmean_size (s : cmean) : N := cm_count s.

(** cumulative/detail/moment.ipp:39-42 *)
Definition cmean_empty (s : cmean) : bool := N.eqb (cmean_size s) 0.

(** cumulative/detail/moment.ipp:45-48 *)
Definition cmean_mean (s : cmean) : F := cm_mean s.

(** cumulative/detail/moment.ipp:51-54 *)
Definition cmean_unbiased_mean (s : cmean) : F :=
  (cm_mean s * nofsz (cm_count s)) / nofsz (szsub (cm_count s) 1).

(** cumulative/detail/moment.ipp:57-61 *)
Definition cmean_push (s : cmean) (input : F) : cmean :=
  let count := szadd (cm_count s) 1 in
  CMean (cm_mean s + (input - cm_mean s) / nofsz count) count.

(** ** basic_moment<T, with::variance> *)

(** cumulative/moment.hpp:81-82,117-120 (base class and [struct sum]) *)
Record cvar : Type := CVar { cv_super : cmean; cv_sum : F }.

(** cumulative/moment.hpp:119 *)
Definition cvar_init : cvar := CVar cmean_init n0.

(** cumulative/detail/moment.ipp:68-72 *)
Definition cvar_clear (s : cvar) : cvar := CVar (cmean_clear (cv_super s)) n0.

(** cumulative/moment.hpp:99-102 ([using super::...]) *)
Definition cvar_size (s : cvar) : N := cmean_size (cv_super s).
(** cumulative/moment.hpp:100 *)
Definition cvar_empty (s : cvar) : bool := cmean_empty (cv_super s).
(** cumulative/moment.hpp:101 *)
Definition cvar_mean (s : cvar) : F := cmean_mean (cv_super s).
(** cumulative/moment.hpp:102 *)
Definition cvar_unbiased_mean (s : cvar) : F :=
  cmean_unbiased_mean (cv_super s).

(** cumulative/detail/moment.ipp:75-78 *)
Definition cvar_variance (s : cvar) : F :=
  cv_sum s / nofsz (cm_count (cv_super s)).

(** cumulative/detail/moment.ipp:81-84 *)
Definition cvar_unbiased_variance (s : cvar) : F :=
  cv_sum s / nofsz (szsub (cm_count (cv_super s)) 1).

(** cumulative/detail/moment.ipp:87-92 *)
Definition cvar_push (s : cvar) (input : F) : cvar :=
  let diff := input - cmean_mean (cv_super s) in
  let super := cmean_push (cv_super s) input in
  CVar super (cv_sum s + diff * (input - cmean_mean super)).

(** ** basic_moment<T, with::skewness> *)

(** cumulative/moment.hpp:126-127,149-152 *)
Record cskew : Type := CSkew { cs_super : cvar; cs_sum : F }.

(** cumulative/moment.hpp:151 *)
Definition cskew_init : cskew := CSkew cvar_init n0.

(** cumulative/detail/moment.ipp:99-103 *)
Definition cskew_clear (s : cskew) : cskew :=
  CSkew (cvar_clear (cs_super s)) n0.

(** cumulative/moment.hpp:139-144 ([using super::...]) *)
Definition cskew_size (s : cskew) : N := cvar_size (cs_super s).
(** cumulative/moment.hpp:140 *)
Definition cskew_empty (s : cskew) : bool := cvar_empty (cs_super s).
(** cumulative/moment.hpp:141 *)
Definition cskew_mean (s : cskew) : F := cvar_mean (cs_super s).
(** cumulative/moment.hpp:142 *)
Definition cskew_unbiased_mean (s : cskew) : F :=
  cvar_unbiased_mean (cs_super s).
(** cumulative/moment.hpp:143 *)
Definition cskew_variance (s : cskew) : F := cvar_variance (cs_super s).
(** cumulative/moment.hpp:144 *)
Definition cskew_unbiased_variance (s : cskew) : F :=
  cvar_unbiased_variance (cs_super s).

(** cumulative/detail/moment.ipp:106-111.  [std::sqrt] of a size_t converts
    to double first; the model takes [value_type] to be double. *)
Definition cskew_skewness (s : cskew) : F :=
  if cs_sum s <? neps then n0
  else (nsqrt (nofsz (cskew_size s)) * cs_sum s)
       / (nsqrt (cv_sum (cs_super s)) * cv_sum (cs_super s)).

(** cumulative/detail/moment.ipp:114-123 *)
Definition cskew_unbiased_skewness (s : cskew) : F :=
  let count := cskew_size s in
  if N.ltb count 2 then n0
  else if cs_sum s <? neps then n0
  else (cskew_skewness s * nsqrt (nofsz (szmul count (szsub count 1))))
       / nofsz (szsub count 2).

(** cumulative/detail/moment.ipp:126-137 *)
Definition cskew_push (s : cskew) (input : F) : cskew :=
  let count := cvar_size (cs_super s) in
  let delta := input - cvar_mean (cs_super s) in
  let n := szadd count 1 in
  let delta_over_n := delta / nofsz n in
  let sum := cs_sum s
    + ((((delta * delta_over_n) * nofsz (szsub n 1)) * nofsz (szsub n 2))
       - nofz 3 * cv_sum (cs_super s)) * delta_over_n in
  CSkew (cvar_push (cs_super s) input) sum.

(** ** basic_moment<T, with::kurtosis> *)

(** cumulative/moment.hpp:158-159,183-186 *)
Record ckurt : Type := CKurt { ck_super : cskew; ck_sum : F }.

(** cumulative/moment.hpp:185 *)
Definition ckurt_init : ckurt := CKurt cskew_init n0.

(** cumulative/detail/moment.ipp:144-148 *)
Definition ckurt_clear (s : ckurt) : ckurt :=
  CKurt (cskew_clear (ck_super s)) n0.

(** cumulative/moment.hpp:171-178 ([using super::...]) *)
Definition ckurt_size (s : ckurt) : N := cskew_size (ck_super s).
(** cumulative/moment.hpp:172 *)
Definition ckurt_empty (s : ckurt) : bool := cskew_empty (ck_super s).
(** cumulative/moment.hpp:173 *)
Definition ckurt_mean (s : ckurt) : F := cskew_mean (ck_super s).
(** cumulative/moment.hpp:174 *)
Definition ckurt_unbiased_mean (s : ckurt) : F :=
  cskew_unbiased_mean (ck_super s).
(** cumulative/moment.hpp:175 *)
Definition ckurt_variance (s : ckurt) : F := cskew_variance (ck_super s).
(** cumulative/moment.hpp:176 *)
Definition ckurt_unbiased_variance (s : ckurt) : F :=
  cskew_unbiased_variance (ck_super s).
(** cumulative/moment.hpp:177 *)
Definition ckurt_skewness (s : ckurt) : F := cskew_skewness (ck_super s).
(** cumulative/moment.hpp:178 *)
Definition ckurt_unbiased_skewness (s : ckurt) : F :=
  cskew_unbiased_skewness (ck_super s).

(** cumulative/detail/moment.ipp:151-156 *)
Definition ckurt_kurtosis (s : ckurt) : F :=
  if ck_sum s <? neps then n0
  else let v := cv_sum (cs_super (ck_super s)) in
       (nofsz (ckurt_size s) * ck_sum s) / (v * v).

(** cumulative/detail/moment.ipp:159-168 *)
Definition ckurt_unbiased_kurtosis (s : ckurt) : F :=
  let count := ckurt_size s in
  if N.ltb count 4 then n0
  else if ck_sum s <? neps then n0
  else nofz 3
       + (nofsz (szsub count 1)
          / nofsz (szmul (szsub count 2) (szsub count 3)))
         * ((nofsz (szadd count 1) * ckurt_kurtosis s)
            - nofz 3 * nofsz (szsub count 1)).

(** cumulative/detail/moment.ipp:171-185.  The factor
    [n * (n - 3) + 3] is a size_t expression and wraps. *)
Definition ckurt_push (s : ckurt) (input : F) : ckurt :=
  let count := cskew_size (ck_super s) in
  let delta := input - cskew_mean (ck_super s) in
  let n := szadd count 1 in
  let delta_over_n := delta / nofsz n in
  let expr := ((delta * delta_over_n) * nofsz (szsub n 1))
              * nofsz (szadd (szmul n (szsub n 3)) 3) in
  let var_expr := nofz 6 * cv_sum (cs_super (ck_super s)) in
  let skewness_expr := nofz 4 * cs_sum (ck_super s) in
  let sum := ck_sum s
    + ((expr + var_expr) * delta_over_n - skewness_expr) * delta_over_n in
  CKurt (cskew_push (ck_super s) input) sum.

(** ** basic_comoment<T, with::variance>, covariance<T> *)

(** cumulative/comoment.hpp:46-48 *)
Record ccov : Type := CCov { cc_x : cmean; cc_y : cmean; cc_center : F }.

(** cumulative/comoment.hpp:46-48, default initialisation *)
Definition ccov_init : ccov := CCov cmean_init cmean_init n0.

(** cumulative/detail/comoment.ipp:25-30 *)
Definition ccov_clear (s : ccov) : ccov :=
  CCov (cmean_clear (cc_x s)) (cmean_clear (cc_y s)) n0.

(** cumulative/detail/comoment.ipp:33-39 *)
Definition ccov_push (s : ccov) (p : F * F) : ccov :=
  let (x, y) := p in
  let xc := cmean_push (cc_x s) x in
  let center := cc_center s
    + (x - cmean_mean xc) * (y - cmean_mean (cc_y s)) in
  CCov xc (cmean_push (cc_y s) y) center.

(** cumulative/detail/comoment.ipp:42-47.  The assertion is modelled
    separately by [ccov_size_assert]. *)
Definition ccov_size (s : ccov) : N := cmean_size (cc_x s).

(** cumulative/detail/comoment.ipp:44 *)
Definition ccov_size_assert (s : ccov) : bool :=
  N.eqb (cmean_size (cc_x s)) (cmean_size (cc_y s)).

(** cumulative/detail/comoment.ipp:50-55 *)
Definition ccov_variance (s : ccov) : F :=
  if N.ltb 0 (ccov_size s) then cc_center s / nofsz (ccov_size s) else n0.

(** cumulative/detail/comoment.ipp:58-64 *)
Definition ccov_unbiased_variance (s : ccov) : F :=
  if N.ltb 1 (ccov_size s)
  then cc_center s / nofsz (szsub (ccov_size s) 1) else n0.

(** ** correlation<T> *)

(** cumulative/correlation.hpp:53-55 (co_moment, x_moment, y_moment) *)
Record ccorr : Type := CCorr { cr_co : ccov; cr_x : cvar; cr_y : cvar }.

(** cumulative/correlation.hpp:53-55, default initialisation *)
Definition ccorr_init : ccorr := CCorr ccov_init cvar_init cvar_init.

(** cumulative/detail/correlation.ipp:22-27 *)
Definition ccorr_clear (s : ccorr) : ccorr :=
  CCorr (ccov_clear (cr_co s)) (cvar_clear (cr_x s)) (cvar_clear (cr_y s)).

(** cumulative/detail/correlation.ipp:30-33 *)
Definition ccorr_size (s : ccorr) : N := ccov_size (cr_co s).

(** cumulative/detail/correlation.ipp:36-41 *)
Definition ccorr_push (s : ccorr) (p : F * F) : ccorr :=
  CCorr (ccov_push (cr_co s) p) (cvar_push (cr_x s) (fst p))
        (cvar_push (cr_y s) (snd p)).

(** cumulative/detail/correlation.ipp:44-50 *)
Definition ccorr_value (s : ccorr) : F :=
  let variance_product := cvar_variance (cr_x s) * cvar_variance (cr_y s) in
  if variance_product <? neps then n1
  else ccov_variance (cr_co s) / nsqrt variance_product.

(** ** regression<T> *)

(** cumulative/regression.hpp:71-73 (co_moment, x_moment, y_moment) *)
Record creg : Type := CReg { cg_co : ccov; cg_x : cvar; cg_y : cvar }.

(** cumulative/regression.hpp:71-73, default initialisation *)
Definition creg_init : creg := CReg ccov_init cvar_init cvar_init.

(** cumulative/detail/regression.ipp:22-27 *)
Definition creg_clear (s : creg) : creg :=
  CReg (ccov_clear (cg_co s)) (cvar_clear (cg_x s)) (cvar_clear (cg_y s)).

(** cumulative/detail/regression.ipp:30-35 *)
Definition creg_size (s : creg) : N := cvar_size (cg_x s).

(** cumulative/detail/regression.ipp:32 *)
Definition creg_size_assert (s : creg) : bool :=
  N.eqb (cvar_size (cg_x s)) (cvar_size (cg_y s)).

(** cumulative/detail/regression.ipp:38-43 *)
Definition creg_push (s : creg) (p : F * F) : creg :=
  CReg (ccov_push (cg_co s) p) (cvar_push (cg_x s) (fst p))
       (cvar_push (cg_y s) (snd p)).

(** cumulative/detail/regression.ipp:52-58 *)
Definition creg_slope (s : creg) : F :=
  let divisor := cvar_variance (cg_x s) in
  if divisor =? n0 then n0 else ccov_variance (cg_co s) / divisor.

(** cumulative/detail/regression.ipp:46-49 *)
Definition creg_at (s : creg) (position : F) : F :=
  cvar_mean (cg_y s) - creg_slope s * (cvar_mean (cg_x s) - position).

(** ** basic_trend<T, with::mean> *)

(** cumulative/trend.hpp:40-41 (center, grand) *)
Record ctrend : Type := CTrend { ct_center : cmean; ct_grand : cmean }.

(** cumulative/trend.hpp:40-41, default initialisation *)
Definition ctrend_init : ctrend := CTrend cmean_init cmean_init.

(** cumulative/detail/trend.ipp:19-23 *)
Definition ctrend_clear (s : ctrend) : ctrend :=
  CTrend (cmean_clear (ct_center s)) (cmean_clear (ct_grand s)).

(** cumulative/detail/trend.ipp:26-30 *)
Definition ctrend_push (s : ctrend) (input : F) : ctrend :=
  let center := cmean_push (ct_center s) input in
  CTrend center (cmean_push (ct_grand s) (cmean_mean center)).

(** cumulative/detail/trend.ipp:33-36 *)
Definition ctrend_size (s : ctrend) : N := cmean_size (ct_center s).

(** cumulative/detail/trend.ipp:39-47 *)
Definition ctrend_value (s : ctrend) : F :=
  cmean_mean (ct_center s)
  + nofz 2 * (cmean_mean (ct_center s) - cmean_mean (ct_grand s)).

End Cumulative.
