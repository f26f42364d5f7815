(** * Model of include/trial/online/decay/ *)

From Coq Require Import ZArith NArith Bool List.
From Verif Require Import Arith.
Import ListNotations.

Section Decay.
Variable F : num.
Local Open Scope num_scope.

(** ** basic_moment<T, with::mean> *)

(** decay/moment.hpp:53-58 (const factor, normalization, sum.mean) *)
Record dmean : Type := DMean { dm_factor : F; dm_norm : F; dm_sum : F }.

(** decay/detail/moment.ipp:27-32, decay/moment.hpp:54,57 *)
Definition dmean_init (mean_factor : F) : dmean := DMean mean_factor n0 n0.

(** decay/detail/moment.ipp:30-31 (and 67-68, 108-109, 154-155): the
    constructor's assertions. *)
Definition factor_ok (f : F) : bool := (n0 <? f) && (f <=? n1).

(** decay/detail/moment.ipp:35-39 *)
Definition dmean_clear (s : dmean) : dmean := DMean (dm_factor s) n0 n0.

(** decay/detail/moment.ipp:42-47 *)
Definition dmean_mean (s : dmean) : F :=
  if n0 <? dm_norm s then dm_sum s / dm_norm s else n0.

(** decay/detail/moment.ipp:50-55 *)
Definition dmean_push (s : dmean) (input : F) : dmean :=
  DMean (dm_factor s)
        (dm_norm s + dm_factor s * (n1 - dm_norm s))
        (dm_sum s + dm_factor s * (input - dm_sum s)).

(** ** basic_moment<T, with::variance> *)

(** decay/moment.hpp:65,87-92; [normalization] hides the base's member of the
    same name. *)
Record dvar : Type :=
  DVar { dv_super : dmean; dv_factor : F; dv_norm : F; dv_sum : F }.

(** decay/detail/moment.ipp:62-69 *)
Definition dvar_init (mean_factor var_factor : F) : dvar :=
  DVar (dmean_init mean_factor) var_factor n0 n0.

(** decay/detail/moment.ipp:72-76; the derived [normalization] is kept. *)
Definition dvar_clear (s : dvar) : dvar :=
  DVar (dmean_clear (dv_super s)) (dv_factor s) (dv_norm s) n0.

(** decay/moment.hpp:83 *)
Definition dvar_mean (s : dvar) : F := dmean_mean (dv_super s).

(** decay/detail/moment.ipp:79-84 *)
Definition dvar_variance (s : dvar) : F :=
  if n0 <? dv_norm s then dv_sum s / dv_norm s else n0.

(** decay/detail/moment.ipp:87-95 *)
Definition dvar_push (s : dvar) (input : F) : dvar :=
  let super := dmean_push (dv_super s) input in
  let mean := dmean_mean super in
  let delta := input - mean in
  DVar super (dv_factor s)
       (dv_norm s + dv_factor s * (n1 - dv_norm s))
       (dv_sum s + dv_factor s * (delta * delta - dv_sum s)).

(** ** basic_moment<T, with::skewness> *)

(** decay/moment.hpp:99,122-127 *)
Record dskew : Type :=
  DSkew { ds_super : dvar; ds_factor : F; ds_norm : F; ds_sum : F }.

(** decay/detail/moment.ipp:102-110 *)
Definition dskew_init (mean_factor var_factor skewness_factor : F) : dskew :=
  DSkew (dvar_init mean_factor var_factor) skewness_factor n0 n0.

(** decay/detail/moment.ipp:113-117 *)
Definition dskew_clear (s : dskew) : dskew :=
  DSkew (dvar_clear (ds_super s)) (ds_factor s) (ds_norm s) n0.

(** decay/moment.hpp:117-118 *)
Definition dskew_mean (s : dskew) : F := dvar_mean (ds_super s).
(** decay/moment.hpp:118 *)
Definition dskew_variance (s : dskew) : F := dvar_variance (ds_super s).

(** decay/detail/moment.ipp:120-130 *)
Definition dskew_skewness (s : dskew) : F :=
  if n0 <? ds_norm s
  then let var := dvar_variance (ds_super s) in
       if neps <? var
       then (ds_sum s / (var * nsqrt var)) / ds_norm s
       else n0
  else n0.

(** decay/detail/moment.ipp:133-140 *)
Definition dskew_push (s : dskew) (input : F) : dskew :=
  let super := dvar_push (ds_super s) input in
  let mean := dvar_mean super in
  let delta := input - mean in
  DSkew super (ds_factor s)
        (ds_norm s + ds_factor s * (n1 - ds_norm s))
        (ds_sum s + ds_factor s * ((delta * delta) * delta - ds_sum s)).

(** ** basic_moment<T, with::kurtosis> *)

(** decay/moment.hpp:134,158-163 *)
Record dkurt : Type :=
  DKurt { dk_super : dskew; dk_factor : F; dk_norm : F; dk_sum : F }.

(** decay/detail/moment.ipp:147-156 *)
Definition dkurt_init (mean_factor var_factor skewness_factor kurtosis_factor : F)
  : dkurt :=
  DKurt (dskew_init mean_factor var_factor skewness_factor) kurtosis_factor n0 n0.

(** decay/detail/moment.ipp:159-163 *)
Definition dkurt_clear (s : dkurt) : dkurt :=
  DKurt (dskew_clear (dk_super s)) (dk_factor s) (dk_norm s) n0.

(** decay/moment.hpp:152-154 *)
Definition dkurt_mean (s : dkurt) : F := dskew_mean (dk_super s).
(** decay/moment.hpp:153 *)
Definition dkurt_variance (s : dkurt) : F := dskew_variance (dk_super s).
(** decay/moment.hpp:154 *)
Definition dkurt_skewness (s : dkurt) : F := dskew_skewness (dk_super s).

(** decay/detail/moment.ipp:166-176 *)
Definition dkurt_kurtosis (s : dkurt) : F :=
  if n0 <? dk_norm s
  then let var := dskew_variance (dk_super s) in
       if neps <? var
       then (dk_sum s / (var * var)) / dk_norm s
       else n0
  else n0.

(** decay/detail/moment.ipp:179-186 *)
Definition dkurt_push (s : dkurt) (input : F) : dkurt :=
  let super := dskew_push (dk_super s) input in
  let mean := dskew_mean super in
  let delta := input - mean in
  DKurt super (dk_factor s)
        (dk_norm s + dk_factor s * (n1 - dk_norm s))
        (dk_sum s + dk_factor s * (((delta * delta) * delta) * delta - dk_sum s)).

End Decay.
