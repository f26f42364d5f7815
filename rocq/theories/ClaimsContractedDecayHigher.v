(** * Claim C123: accuracy of the decay skewness and kurtosis with fused multiply-adds *)

From Coq Require Import Reals ZArith NArith List Bool.
From Coq Require Import Floats.SpecFloat.
From Flocq Require Import Core.
From Verif Require Import Arith History SpecStats SpecDecay Decay Binary64 Ieee Contracted IeeeFused ContractedDecayHigher.
Import ListNotations.
Local Open Scope R_scope.
(** The arithmetic of float. *)
Local Notation f32num := (ieee 24 128).
(** The fused operations on double ([ieee 53 1024] is [b64num], C110_double) and on float. *)
Local Notation fused64 := (ieee_fused 53 1024 : fused b64num).
Local Notation fused32 := (ieee_fused 24 128).
(* @end-header *)
From Coq Require Import Lia Lra Psatz.
From Flocq Require Import IEEE754.BinarySingleNaN.
From Verif Require Import HistoryLemmas StatsLemmas Binary64Cumulative Approx ApproxInstances IeeeProofs
  AccuracyProofs AccuracyVariance AccuracyRegression AccuracyHigher AccuracyDecayHigher ClaimsAccuracy ClaimsFormats ClaimsFormatsCorrelation
  ClaimsRegression ClaimsHigher ContractedDecayHigherProofs.
From Verif Require ClaimsDecayHigher ClaimsFloatDecay.

(** @prop C123_decay_skewness: with fused multiply-adds over double, skewness() of the decay
    filter keeps the bound of C108_skewness_binary64, and is zero in the same cases. *)
Lemma c123_decay_skewness : forall (fm fv fs : b64) (l : list b64) (M : R),
  let u := bpow radix2 (-53) in
  let mf := b64_real fm in
  let vf := b64_real fv in
  let sf := b64_real fs in
  b64_finite fm -> b64_finite fv -> b64_finite fs ->
  bpow radix2 (-40) <= mf <= 1 -> bpow radix2 (-40) <= vf <= 1 -> bpow radix2 (-40) <= sf <= 1 ->
  l <> [] -> bpow radix2 (-200) <= M <= bpow radix2 200 ->
  Forall (fun x => b64_finite x /\ Rabs (b64_real x) <= M) l ->
  let lv := map b64_real l in
  let V := emoment 2 mf vf lv in
  0 < V -> 256 * (4 * (62 * / vf + 79 * / mf) * (M * M / V)) * u <= 1 ->
  let r := dskew_skewness b64num (run (dskew_push_fma b64num fused64) (dskew_clear b64num) (dskew_init b64num fm fv fs) (pushes l)) in
  (65 / 64 * bpow radix2 (-52) <= V ->
   b64_finite r /\
   Rabs (b64_real r - emoment 3 mf sf lv / (V * sqrt V)) <=
     (10200 * / mf + 4700 * / vf + 2100 * / sf) * (M * M / V) * (u * (M * (M * M) / (V * sqrt V)))) /\
  (V <= 63 / 64 * bpow radix2 (-52) -> r = S754_zero false).
Proof.
  intros fm fv fs l M u mf vf sf Fm Fv Fs Hm Hv Hs NE HM HF lv V VP HA r.
  destruct (b64_magn M l HF) as [Hfin Hmag]. fold lv in Hmag. pose proof (denotes_list l Hfin) as DL. fold lv in DL.
  destruct (ClaimsDecayHigher.side_b64 M HM) as [E T U1 UM U2M U2 U3 U4 MP]. pose proof (bp (-40)) as P.
  assert (FM : @fac b64num denotes (bpow radix2 (-40)) fm mf) by (split; [split; [exact Fm|reflexivity]|exact Hm]).
  assert (FV : @fac b64num denotes (bpow radix2 (-40)) fv vf) by (split; [split; [exact Fv|reflexivity]|exact Hv]).
  assert (FS : @fac b64num denotes (bpow radix2 (-40)) fs sf) by (split; [split; [exact Fs|reflexivity]|exact Hs]).
  assert (Er : r = dskew_skewness b64num (fold_left (dskew_push_fma b64num fused64) l (dskew_init b64num fm fv fs))).
  { unfold r, pushes. rewrite run_map_push. reflexivity. }
  split; intros HV.
  - destruct (rho_ge approx_b64 _ P E T U1 fm mf M FM UM U2M U2 l lv DL Hmag NE fv vf FV VP) as (R4 & _).
    destruct (ClaimsDecayHigher.v_side M V mf vf HM VP ltac:(lra) ltac:(lra) R4 HA) as (TV & BV & B3 & _).
    destruct (decay_skewness_fma 53 1024 ltac:(lia) ltac:(lia) _ P E T U1 fm mf M FM UM U2M U2 U3 sqrt_b64 _ eps_b64 l lv DL Hmag NE fv vf FV VP HA TV BV fs sf FS (bp _) HV B3)
      as (x & (Fx & Ex) & H).
    rewrite Er. split; [exact Fx|]. rewrite <- Ex in H. exact H.
  - rewrite Er. exact (decay_skewness_zero_fma 53 1024 ltac:(lia) ltac:(lia) _ P E T U1 fm mf M FM UM U2M U2 _ eps_b64 l lv DL Hmag NE fv vf FV VP HA fs sf FS HV).
Qed.

(** @ex C123_decay_skewness_ex: an instance of the hypotheses: factors 1/2, values 1, 2, 4. *)
Lemma c123_decay_skewness_ex :
  let half := @ndiv b64num (b64_of_Z 1) (b64_of_Z 2) in
  let f := b64_real half in
  let l := map b64_of_Z [1; 2; 4]%Z in
  let V := emoment 2 f f (map b64_real l) in
  b64_finite half /\ f = / 2 /\ bpow radix2 (-40) <= f <= 1 /\ l <> [] /\ bpow radix2 (-200) <= 4 <= bpow radix2 200 /\
  Forall (fun x => b64_finite x /\ Rabs (b64_real x) <= 4) l /\ V = 38 / 63 /\
  256 * (4 * (62 * / f + 79 * / f) * (4 * 4 / V)) * bpow radix2 (-53) <= 1 /\ 65 / 64 * bpow radix2 (-52) <= V.
Proof. exact ClaimsDecayHigher.c108_skewness_ex. Qed.

(** @prop C123_decay_kurtosis: with fused multiply-adds over double, kurtosis() of the decay
    filter keeps the bound of C108_kurtosis_binary64, and is zero in the same cases. *)
Lemma c123_decay_kurtosis : forall (fm fv fs fk : b64) (l : list b64) (M : R),
  let u := bpow radix2 (-53) in
  let mf := b64_real fm in
  let vf := b64_real fv in
  let kf := b64_real fk in
  b64_finite fm -> b64_finite fv -> b64_finite fk ->
  bpow radix2 (-40) <= mf <= 1 -> bpow radix2 (-40) <= vf <= 1 -> bpow radix2 (-40) <= kf <= 1 ->
  l <> [] -> bpow radix2 (-200) <= M <= bpow radix2 200 ->
  Forall (fun x => b64_finite x /\ Rabs (b64_real x) <= M) l ->
  let lv := map b64_real l in
  let V := emoment 2 mf vf lv in
  0 < V -> 256 * (4 * (62 * / vf + 79 * / mf) * (M * M / V)) * u <= 1 ->
  let r := dkurt_kurtosis b64num (run (dkurt_push_fma b64num fused64) (dkurt_clear b64num) (dkurt_init b64num fm fv fs fk) (pushes l)) in
  (65 / 64 * bpow radix2 (-52) <= V ->
   b64_finite r /\
   Rabs (b64_real r - emoment 4 mf kf lv / (V * V)) <=
     (23100 * / mf + 9400 * / vf + 4100 * / kf) * (M * M / V) * (u * (M * M * (M * M) / (V * V)))) /\
  (V <= 63 / 64 * bpow radix2 (-52) -> r = S754_zero false).
Proof.
  intros fm fv fs fk l M u mf vf kf Fm Fv Fs Hm Hv Hs NE HM HF lv V VP HA r.
  destruct (b64_magn M l HF) as [Hfin Hmag]. fold lv in Hmag. pose proof (denotes_list l Hfin) as DL. fold lv in DL.
  destruct (ClaimsDecayHigher.side_b64 M HM) as [E T U1 UM U2M U2 U3 U4 MP]. pose proof (bp (-40)) as P.
  assert (FM : @fac b64num denotes (bpow radix2 (-40)) fm mf) by (split; [split; [exact Fm|reflexivity]|exact Hm]).
  assert (FV : @fac b64num denotes (bpow radix2 (-40)) fv vf) by (split; [split; [exact Fv|reflexivity]|exact Hv]).
  assert (FK : @fac b64num denotes (bpow radix2 (-40)) fk kf) by (split; [split; [exact Fs|reflexivity]|exact Hs]).
  assert (Er : r = dkurt_kurtosis b64num (fold_left (dkurt_push_fma b64num fused64) l (dkurt_init b64num fm fv fs fk))).
  { unfold r, pushes. rewrite run_map_push. reflexivity. }
  split; intros HV.
  - destruct (rho_ge approx_b64 _ P E T U1 fm mf M FM UM U2M U2 l lv DL Hmag NE fv vf FV VP) as (R4 & _).
    destruct (ClaimsDecayHigher.v_side M V mf vf HM VP ltac:(lra) ltac:(lra) R4 HA) as (TV & BV & _ & B4).
    destruct (decay_kurtosis_fma 53 1024 ltac:(lia) ltac:(lia) _ P E T U1 fm mf M FM UM U2M U2 U3 U4 _ eps_b64 l lv DL Hmag NE fv vf FV VP HA TV BV fs fk kf FK (bp _) HV B4)
      as (x & (Fx & Ex) & H).
    rewrite Er. split; [exact Fx|]. rewrite <- Ex in H. exact H.
  - rewrite Er. exact (decay_kurtosis_zero_fma 53 1024 ltac:(lia) ltac:(lia) _ P E T U1 fm mf M FM UM U2M U2 _ eps_b64 l lv DL Hmag NE fv vf FV VP HA fs fk kf FK HV).
Qed.

(** @ex C123_decay_kurtosis_ex: an instance of the hypotheses: factors 1/2, values 1, 2, 4. *)
Lemma c123_decay_kurtosis_ex :
  let half := @ndiv b64num (b64_of_Z 1) (b64_of_Z 2) in
  let f := b64_real half in
  let l := map b64_of_Z [1; 2; 4]%Z in
  let V := emoment 2 f f (map b64_real l) in
  V = 38 / 63 /\ 256 * (4 * (62 * / f + 79 * / f) * (4 * 4 / V)) * bpow radix2 (-53) <= 1 /\ 65 / 64 * bpow radix2 (-52) <= V.
Proof. exact ClaimsDecayHigher.c108_kurtosis_ex. Qed.

(** @prop C123_decay_skewness_float: the same over float (C108_skewness_float). *)
Lemma c123_decay_skewness_float : forall (fm fv fs : spec_float) (l : list spec_float) (M : R),
  let u := bpow radix2 (-24) in
  let mf := ieee_real fm in
  let vf := ieee_real fv in
  let sf := ieee_real fs in
  ieee_finite 24 128 fm -> ieee_finite 24 128 fv -> ieee_finite 24 128 fs ->
  bpow radix2 (-11) <= mf <= 1 -> bpow radix2 (-11) <= vf <= 1 -> bpow radix2 (-11) <= sf <= 1 ->
  l <> [] -> bpow radix2 (-24) <= M <= bpow radix2 28 ->
  Forall (fun x => ieee_finite 24 128 x /\ Rabs (ieee_real x) <= M) l ->
  let lv := map ieee_real l in
  let V := emoment 2 mf vf lv in
  0 < V -> 256 * (4 * (62 * / vf + 79 * / mf) * (M * M / V)) * u <= 1 ->
  let r := dskew_skewness f32num (run (dskew_push_fma f32num fused32) (dskew_clear f32num) (dskew_init f32num fm fv fs) (pushes l)) in
  (65 / 64 * bpow radix2 (-23) <= V ->
   ieee_finite 24 128 r /\
   Rabs (ieee_real r - emoment 3 mf sf lv / (V * sqrt V)) <=
     (10200 * / mf + 4700 * / vf + 2100 * / sf) * (M * M / V) * (u * (M * (M * M) / (V * sqrt V)))) /\
  (V <= 63 / 64 * bpow radix2 (-23) -> r = S754_zero false).
Proof.
  intros fm fv fs l M u mf vf sf Fm Fv Fs Hm Hv Hs NE HM HF lv V VP HA r.
  destruct (ieee_magn 24 128 M l HF) as [Hfin Hmag]. fold lv in Hmag. pose proof (fdenotes_list 24 128 l Hfin) as DL. fold lv in DL.
  destruct (ClaimsFloatDecay.side_f32 M HM) as [E T U1 UM U2M U2 U3 U4 MP]. pose proof (bp (-11)) as P.
  assert (FM : @fac f32num (fdenotes 24 128) (bpow radix2 (-11)) fm mf) by (split; [split; [exact Fm|reflexivity]|exact Hm]).
  assert (FV : @fac f32num (fdenotes 24 128) (bpow radix2 (-11)) fv vf) by (split; [split; [exact Fv|reflexivity]|exact Hv]).
  assert (FS : @fac f32num (fdenotes 24 128) (bpow radix2 (-11)) fs sf) by (split; [split; [exact Fs|reflexivity]|exact Hs]).
  assert (Er : r = dskew_skewness f32num (fold_left (dskew_push_fma f32num fused32) l (dskew_init f32num fm fv fs))).
  { unfold r, pushes. rewrite run_map_push. reflexivity. }
  split; intros HV.
  - destruct (rho_ge (approx_ieee 24 128 ltac:(lia) ltac:(lia)) _ P E T U1 fm mf M FM UM U2M U2 l lv DL Hmag NE fv vf FV VP) as (R4 & _).
    destruct (ClaimsFloatDecay.v_side M V mf vf HM VP ltac:(lra) ltac:(lra) R4 HA) as (TV & BV & B3 & _).
    destruct (decay_skewness_fma 24 128 ltac:(lia) ltac:(lia) _ P E T U1 fm mf M FM UM U2M U2 U3 (sqrt_ieee 24 128 ltac:(lia) ltac:(lia)) _ (eps_ieee 24 128 ltac:(lia)) l lv DL Hmag NE fv vf FV VP HA TV BV fs sf FS (bp _) HV B3)
      as (x & (Fx & Ex) & H).
    rewrite Er. split; [exact Fx|]. rewrite <- Ex in H. exact H.
  - rewrite Er. exact (decay_skewness_zero_fma 24 128 ltac:(lia) ltac:(lia) _ P E T U1 fm mf M FM UM U2M U2 _ (eps_ieee 24 128 ltac:(lia)) l lv DL Hmag NE fv vf FV VP HA fs sf FS HV).
Qed.

(** @ex C123_decay_skewness_float_ex: an instance of the hypotheses: factors 1/2, values 1, 2, 4. *)
Lemma c123_decay_skewness_float_ex :
  let half := @ndiv f32num (ieee_of_Z 24 128 1) (ieee_of_Z 24 128 2) in
  let f := ieee_real half in
  let l := map (ieee_of_Z 24 128) [1; 2; 4]%Z in
  let V := emoment 2 f f (map ieee_real l) in
  ieee_finite 24 128 half /\ f = / 2 /\ bpow radix2 (-11) <= f <= 1 /\ l <> [] /\ bpow radix2 (-24) <= 4 <= bpow radix2 28 /\
  Forall (fun x => ieee_finite 24 128 x /\ Rabs (ieee_real x) <= 4) l /\ V = 38 / 63 /\
  256 * (4 * (62 * / f + 79 * / f) * (4 * 4 / V)) * bpow radix2 (-24) <= 1 /\ 65 / 64 * bpow radix2 (-23) <= V.
Proof. exact ClaimsFloatDecay.c108_skewness_float_ex. Qed.

(** @prop C123_decay_kurtosis_float: the same over float (C108_kurtosis_float). *)
Lemma c123_decay_kurtosis_float : forall (fm fv fs fk : spec_float) (l : list spec_float) (M : R),
  let u := bpow radix2 (-24) in
  let mf := ieee_real fm in
  let vf := ieee_real fv in
  let kf := ieee_real fk in
  ieee_finite 24 128 fm -> ieee_finite 24 128 fv -> ieee_finite 24 128 fk ->
  bpow radix2 (-11) <= mf <= 1 -> bpow radix2 (-11) <= vf <= 1 -> bpow radix2 (-11) <= kf <= 1 ->
  l <> [] -> bpow radix2 (-24) <= M <= bpow radix2 28 ->
  Forall (fun x => ieee_finite 24 128 x /\ Rabs (ieee_real x) <= M) l ->
  let lv := map ieee_real l in
  let V := emoment 2 mf vf lv in
  0 < V -> 256 * (4 * (62 * / vf + 79 * / mf) * (M * M / V)) * u <= 1 ->
  let r := dkurt_kurtosis f32num (run (dkurt_push_fma f32num fused32) (dkurt_clear f32num) (dkurt_init f32num fm fv fs fk) (pushes l)) in
  (65 / 64 * bpow radix2 (-23) <= V ->
   ieee_finite 24 128 r /\
   Rabs (ieee_real r - emoment 4 mf kf lv / (V * V)) <=
     (23100 * / mf + 9400 * / vf + 4100 * / kf) * (M * M / V) * (u * (M * M * (M * M) / (V * V)))) /\
  (V <= 63 / 64 * bpow radix2 (-23) -> r = S754_zero false).
Proof.
  intros fm fv fs fk l M u mf vf kf Fm Fv Fs Hm Hv Hs NE HM HF lv V VP HA r.
  destruct (ieee_magn 24 128 M l HF) as [Hfin Hmag]. fold lv in Hmag. pose proof (fdenotes_list 24 128 l Hfin) as DL. fold lv in DL.
  destruct (ClaimsFloatDecay.side_f32 M HM) as [E T U1 UM U2M U2 U3 U4 MP]. pose proof (bp (-11)) as P.
  assert (FM : @fac f32num (fdenotes 24 128) (bpow radix2 (-11)) fm mf) by (split; [split; [exact Fm|reflexivity]|exact Hm]).
  assert (FV : @fac f32num (fdenotes 24 128) (bpow radix2 (-11)) fv vf) by (split; [split; [exact Fv|reflexivity]|exact Hv]).
  assert (FK : @fac f32num (fdenotes 24 128) (bpow radix2 (-11)) fk kf) by (split; [split; [exact Fs|reflexivity]|exact Hs]).
  assert (Er : r = dkurt_kurtosis f32num (fold_left (dkurt_push_fma f32num fused32) l (dkurt_init f32num fm fv fs fk))).
  { unfold r, pushes. rewrite run_map_push. reflexivity. }
  split; intros HV.
  - destruct (rho_ge (approx_ieee 24 128 ltac:(lia) ltac:(lia)) _ P E T U1 fm mf M FM UM U2M U2 l lv DL Hmag NE fv vf FV VP) as (R4 & _).
    destruct (ClaimsFloatDecay.v_side M V mf vf HM VP ltac:(lra) ltac:(lra) R4 HA) as (TV & BV & _ & B4).
    destruct (decay_kurtosis_fma 24 128 ltac:(lia) ltac:(lia) _ P E T U1 fm mf M FM UM U2M U2 U3 U4 _ (eps_ieee 24 128 ltac:(lia)) l lv DL Hmag NE fv vf FV VP HA TV BV fs fk kf FK (bp _) HV B4)
      as (x & (Fx & Ex) & H).
    rewrite Er. split; [exact Fx|]. rewrite <- Ex in H. exact H.
  - rewrite Er. exact (decay_kurtosis_zero_fma 24 128 ltac:(lia) ltac:(lia) _ P E T U1 fm mf M FM UM U2M U2 _ (eps_ieee 24 128 ltac:(lia)) l lv DL Hmag NE fv vf FV VP HA fs fk kf FK HV).
Qed.

(** @ex C123_decay_kurtosis_float_ex: an instance of the hypotheses: factors 1/2, values 1, 2, 4. *)
Lemma c123_decay_kurtosis_float_ex :
  let half := @ndiv f32num (ieee_of_Z 24 128 1) (ieee_of_Z 24 128 2) in
  let f := ieee_real half in
  let l := map (ieee_of_Z 24 128) [1; 2; 4]%Z in
  let V := emoment 2 f f (map ieee_real l) in
  V = 38 / 63 /\ 256 * (4 * (62 * / f + 79 * / f) * (4 * 4 / V)) * bpow radix2 (-24) <= 1 /\ 65 / 64 * bpow radix2 (-23) <= V.
Proof. exact ClaimsFloatDecay.c108_kurtosis_float_ex. Qed.

(** @ex C123_decay_higher_visible_ex: over float with factors 1/3, skewness() and kurtosis() of
    1, 2, 4 differ in the last digits between the plain and the contracted code. *)
Lemma c123_decay_higher_visible_ex :
  let third := @ndiv f32num (ieee_of_Z 24 128 1) (ieee_of_Z 24 128 3) in
  let ops := pushes (map (ieee_of_Z 24 128) [1; 2; 4]%Z) in
  let s := dkurt_init f32num third third third third in
  let plain := run (dkurt_push f32num) (dkurt_clear f32num) s ops in
  let contracted := run (dkurt_push_fma f32num fused32) (dkurt_clear f32num) s ops in
  dkurt_skewness f32num plain = S754_finite false 11295025 (-23) /\
  dkurt_skewness f32num contracted = S754_finite false 11295024 (-23) /\
  dkurt_kurtosis f32num plain = S754_finite false 15663705 (-23) /\
  dkurt_kurtosis f32num contracted = S754_finite false 15663699 (-23).
Proof. repeat split; vm_compute; reflexivity. Qed.
