(** * Property theorems: ContractedDecayHigher

    Statements only; every proof is [exact] of a lemma in ClaimsContractedDecayHigher.v.
    Generated by tools/mkprops.py. *)

From Coq Require Import Reals ZArith NArith List Bool.
From Coq Require Import Floats.SpecFloat.
From Flocq Require Import Core.
From Verif Require Import Arith History SpecStats SpecDecay Decay Binary64 Ieee Contracted IeeeFused ContractedDecayHigher.
Import ListNotations.
Local Open Scope R_scope.
(** The arithmetic of float. *)
Local Notation f32num := (ieee 24 128).
(** The fused operations on double ([ieee 53 1024] is [b64num], C110_double) and on float. *)
Local Notation fused64 := (ieee_fused 53 1024 : fused b64num).
Local Notation fused32 := (ieee_fused 24 128).
From Verif Require Import ClaimsContractedDecayHigher.

(** C123_decay_skewness: with fused multiply-adds over double, skewness() of the decay
    filter keeps the bound of C108_skewness_binary64, and is zero in the same cases. *)
Theorem C123_decay_skewness : forall (fm fv fs : b64) (l : list b64) (M : R),
  let u := bpow radix2 (-53) in
  let mf := b64_real fm in
  let vf := b64_real fv in
  let sf := b64_real fs in
  b64_finite fm -> b64_finite fv -> b64_finite fs ->
  bpow radix2 (-40) <= mf <= 1 -> bpow radix2 (-40) <= vf <= 1 -> bpow radix2 (-40) <= sf <= 1 ->
  l <> [] -> bpow radix2 (-200) <= M <= bpow radix2 200 ->
  Forall (fun x => b64_finite x /\ Rabs (b64_real x) <= M) l ->
  let lv := map b64_real l in
  let V := emoment 2 mf vf lv in
  0 < V -> 256 * (4 * (62 * / vf + 79 * / mf) * (M * M / V)) * u <= 1 ->
  let r := dskew_skewness b64num (run (dskew_push_fma b64num fused64) (dskew_clear b64num) (dskew_init b64num fm fv fs) (pushes l)) in
  (65 / 64 * bpow radix2 (-52) <= V ->
   b64_finite r /\
   Rabs (b64_real r - emoment 3 mf sf lv / (V * sqrt V)) <=
     (10200 * / mf + 4700 * / vf + 2100 * / sf) * (M * M / V) * (u * (M * (M * M) / (V * sqrt V)))) /\
  (V <= 63 / 64 * bpow radix2 (-52) -> r = S754_zero false).
Proof. exact c123_decay_skewness. Qed.
Print Assumptions C123_decay_skewness.

(** C123_decay_skewness_ex: an instance of the hypotheses: factors 1/2, values 1, 2, 4. *)
Example C123_decay_skewness_ex :
  let half := @ndiv b64num (b64_of_Z 1) (b64_of_Z 2) in
  let f := b64_real half in
  let l := map b64_of_Z [1; 2; 4]%Z in
  let V := emoment 2 f f (map b64_real l) in
  b64_finite half /\ f = / 2 /\ bpow radix2 (-40) <= f <= 1 /\ l <> [] /\ bpow radix2 (-200) <= 4 <= bpow radix2 200 /\
  Forall (fun x => b64_finite x /\ Rabs (b64_real x) <= 4) l /\ V = 38 / 63 /\
  256 * (4 * (62 * / f + 79 * / f) * (4 * 4 / V)) * bpow radix2 (-53) <= 1 /\ 65 / 64 * bpow radix2 (-52) <= V.
Proof. exact c123_decay_skewness_ex. Qed.

(** C123_decay_kurtosis: with fused multiply-adds over double, kurtosis() of the decay
    filter keeps the bound of C108_kurtosis_binary64, and is zero in the same cases. *)
Theorem C123_decay_kurtosis : forall (fm fv fs fk : b64) (l : list b64) (M : R),
  let u := bpow radix2 (-53) in
  let mf := b64_real fm in
  let vf := b64_real fv in
  let kf := b64_real fk in
  b64_finite fm -> b64_finite fv -> b64_finite fk ->
  bpow radix2 (-40) <= mf <= 1 -> bpow radix2 (-40) <= vf <= 1 -> bpow radix2 (-40) <= kf <= 1 ->
  l <> [] -> bpow radix2 (-200) <= M <= bpow radix2 200 ->
  Forall (fun x => b64_finite x /\ Rabs (b64_real x) <= M) l ->
  let lv := map b64_real l in
  let V := emoment 2 mf vf lv in
  0 < V -> 256 * (4 * (62 * / vf + 79 * / mf) * (M * M / V)) * u <= 1 ->
  let r := dkurt_kurtosis b64num (run (dkurt_push_fma b64num fused64) (dkurt_clear b64num) (dkurt_init b64num fm fv fs fk) (pushes l)) in
  (65 / 64 * bpow radix2 (-52) <= V ->
   b64_finite r /\
   Rabs (b64_real r - emoment 4 mf kf lv / (V * V)) <=
     (23100 * / mf + 9400 * / vf + 4100 * / kf) * (M * M / V) * (u * (M * M * (M * M) / (V * V)))) /\
  (V <= 63 / 64 * bpow radix2 (-52) -> r = S754_zero false).
Proof. exact c123_decay_kurtosis. Qed.
Print Assumptions C123_decay_kurtosis.

(** C123_decay_kurtosis_ex: an instance of the hypotheses: factors 1/2, values 1, 2, 4. *)
Example C123_decay_kurtosis_ex :
  let half := @ndiv b64num (b64_of_Z 1) (b64_of_Z 2) in
  let f := b64_real half in
  let l := map b64_of_Z [1; 2; 4]%Z in
  let V := emoment 2 f f (map b64_real l) in
  V = 38 / 63 /\ 256 * (4 * (62 * / f + 79 * / f) * (4 * 4 / V)) * bpow radix2 (-53) <= 1 /\ 65 / 64 * bpow radix2 (-52) <= V.
Proof. exact c123_decay_kurtosis_ex. Qed.

(** C123_decay_skewness_float: the same over float (C108_skewness_float). *)
Theorem C123_decay_skewness_float : forall (fm fv fs : spec_float) (l : list spec_float) (M : R),
  let u := bpow radix2 (-24) in
  let mf := ieee_real fm in
  let vf := ieee_real fv in
  let sf := ieee_real fs in
  ieee_finite 24 128 fm -> ieee_finite 24 128 fv -> ieee_finite 24 128 fs ->
  bpow radix2 (-11) <= mf <= 1 -> bpow radix2 (-11) <= vf <= 1 -> bpow radix2 (-11) <= sf <= 1 ->
  l <> [] -> bpow radix2 (-24) <= M <= bpow radix2 28 ->
  Forall (fun x => ieee_finite 24 128 x /\ Rabs (ieee_real x) <= M) l ->
  let lv := map ieee_real l in
  let V := emoment 2 mf vf lv in
  0 < V -> 256 * (4 * (62 * / vf + 79 * / mf) * (M * M / V)) * u <= 1 ->
  let r := dskew_skewness f32num (run (dskew_push_fma f32num fused32) (dskew_clear f32num) (dskew_init f32num fm fv fs) (pushes l)) in
  (65 / 64 * bpow radix2 (-23) <= V ->
   ieee_finite 24 128 r /\
   Rabs (ieee_real r - emoment 3 mf sf lv / (V * sqrt V)) <=
     (10200 * / mf + 4700 * / vf + 2100 * / sf) * (M * M / V) * (u * (M * (M * M) / (V * sqrt V)))) /\
  (V <= 63 / 64 * bpow radix2 (-23) -> r = S754_zero false).
Proof. exact c123_decay_skewness_float. Qed.
Print Assumptions C123_decay_skewness_float.

(** C123_decay_skewness_float_ex: an instance of the hypotheses: factors 1/2, values 1, 2, 4. *)
Example C123_decay_skewness_float_ex :
  let half := @ndiv f32num (ieee_of_Z 24 128 1) (ieee_of_Z 24 128 2) in
  let f := ieee_real half in
  let l := map (ieee_of_Z 24 128) [1; 2; 4]%Z in
  let V := emoment 2 f f (map ieee_real l) in
  ieee_finite 24 128 half /\ f = / 2 /\ bpow radix2 (-11) <= f <= 1 /\ l <> [] /\ bpow radix2 (-24) <= 4 <= bpow radix2 28 /\
  Forall (fun x => ieee_finite 24 128 x /\ Rabs (ieee_real x) <= 4) l /\ V = 38 / 63 /\
  256 * (4 * (62 * / f + 79 * / f) * (4 * 4 / V)) * bpow radix2 (-24) <= 1 /\ 65 / 64 * bpow radix2 (-23) <= V.
Proof. exact c123_decay_skewness_float_ex. Qed.

(** C123_decay_kurtosis_float: the same over float (C108_kurtosis_float). *)
Theorem C123_decay_kurtosis_float : forall (fm fv fs fk : spec_float) (l : list spec_float) (M : R),
  let u := bpow radix2 (-24) in
  let mf := ieee_real fm in
  let vf := ieee_real fv in
  let kf := ieee_real fk in
  ieee_finite 24 128 fm -> ieee_finite 24 128 fv -> ieee_finite 24 128 fk ->
  bpow radix2 (-11) <= mf <= 1 -> bpow radix2 (-11) <= vf <= 1 -> bpow radix2 (-11) <= kf <= 1 ->
  l <> [] -> bpow radix2 (-24) <= M <= bpow radix2 28 ->
  Forall (fun x => ieee_finite 24 128 x /\ Rabs (ieee_real x) <= M) l ->
  let lv := map ieee_real l in
  let V := emoment 2 mf vf lv in
  0 < V -> 256 * (4 * (62 * / vf + 79 * / mf) * (M * M / V)) * u <= 1 ->
  let r := dkurt_kurtosis f32num (run (dkurt_push_fma f32num fused32) (dkurt_clear f32num) (dkurt_init f32num fm fv fs fk) (pushes l)) in
  (65 / 64 * bpow radix2 (-23) <= V ->
   ieee_finite 24 128 r /\
   Rabs (ieee_real r - emoment 4 mf kf lv / (V * V)) <=
     (23100 * / mf + 9400 * / vf + 4100 * / kf) * (M * M / V) * (u * (M * M * (M * M) / (V * V)))) /\
  (V <= 63 / 64 * bpow radix2 (-23) -> r = S754_zero false).
Proof. exact c123_decay_kurtosis_float. Qed.
Print Assumptions C123_decay_kurtosis_float.

(** C123_decay_kurtosis_float_ex: an instance of the hypotheses: factors 1/2, values 1, 2, 4. *)
Example C123_decay_kurtosis_float_ex :
  let half := @ndiv f32num (ieee_of_Z 24 128 1) (ieee_of_Z 24 128 2) in
  let f := ieee_real half in
  let l := map (ieee_of_Z 24 128) [1; 2; 4]%Z in
  let V := emoment 2 f f (map ieee_real l) in
  V = 38 / 63 /\ 256 * (4 * (62 * / f + 79 * / f) * (4 * 4 / V)) * bpow radix2 (-24) <= 1 /\ 65 / 64 * bpow radix2 (-23) <= V.
Proof. exact c123_decay_kurtosis_float_ex. Qed.

(** C123_decay_higher_visible_ex: over float with factors 1/3, skewness() and kurtosis() of
    1, 2, 4 differ in the last digits between the plain and the contracted code. *)
Example C123_decay_higher_visible_ex :
  let third := @ndiv f32num (ieee_of_Z 24 128 1) (ieee_of_Z 24 128 3) in
  let ops := pushes (map (ieee_of_Z 24 128) [1; 2; 4]%Z) in
  let s := dkurt_init f32num third third third third in
  let plain := run (dkurt_push f32num) (dkurt_clear f32num) s ops in
  let contracted := run (dkurt_push_fma f32num fused32) (dkurt_clear f32num) s ops in
  dkurt_skewness f32num plain = S754_finite false 11295025 (-23) /\
  dkurt_skewness f32num contracted = S754_finite false 11295024 (-23) /\
  dkurt_kurtosis f32num plain = S754_finite false 15663705 (-23) /\
  dkurt_kurtosis f32num contracted = S754_finite false 15663699 (-23).
Proof. exact c123_decay_higher_visible_ex. Qed.
