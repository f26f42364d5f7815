(** * Property theorems: DecayHigher

    Statements only; every proof is [exact] of a lemma in ClaimsDecayHigher.v.
    Generated by tools/mkprops.py. *)

From Coq Require Import Reals ZArith NArith List Bool.
From Coq Require Import Floats.SpecFloat.
From Flocq Require Import Core.
From Verif Require Import Arith History SpecStats SpecDecay Decay Binary64.
Import ListNotations.
Local Open Scope R_scope.
From Verif Require Import ClaimsDecayHigher.

(** C108_skewness_binary64: skewness() of a new decay filter in binary64, for
    factors from 2^-40 to 1, any number of finite values of magnitude at most [M]
    (between 2^-200 and 2^200) whose exponentially weighted variance is [V > 0]. As
    long as the variance is not lost in its own rounding error: if [V] exceeds
    epsilon by a 64th, skewness() is finite and within
    [(10200/fm + 4700/fv + 2100/fs) (M^2/V) u (M^3/V^(3/2))] of the weighted third
    moment over [V^(3/2)], however many values were pushed; if [V] is below
    epsilon by a 64th, skewness() is zero. *)
Theorem C108_skewness_binary64 : forall (fm fv fs : b64) (l : list b64) (M : R),
  let u := bpow radix2 (-53) in
  let mf := b64_real fm in
  let vf := b64_real fv in
  let sf := b64_real fs in
  b64_finite fm -> b64_finite fv -> b64_finite fs ->
  bpow radix2 (-40) <= mf <= 1 -> bpow radix2 (-40) <= vf <= 1 -> bpow radix2 (-40) <= sf <= 1 ->
  l <> [] -> bpow radix2 (-200) <= M <= bpow radix2 200 ->
  Forall (fun x => b64_finite x /\ Rabs (b64_real x) <= M) l ->
  let lv := map b64_real l in
  let V := emoment 2 mf vf lv in
  0 < V -> 256 * (4 * (62 * / vf + 79 * / mf) * (M * M / V)) * u <= 1 ->
  let r := dskew_skewness b64num (run (dskew_push b64num) (dskew_clear b64num) (dskew_init b64num fm fv fs) (pushes l)) in
  (65 / 64 * bpow radix2 (-52) <= V ->
   b64_finite r /\
   Rabs (b64_real r - emoment 3 mf sf lv / (V * sqrt V)) <=
     (10200 * / mf + 4700 * / vf + 2100 * / sf) * (M * M / V) * (u * (M * (M * M) / (V * sqrt V)))) /\
  (V <= 63 / 64 * bpow radix2 (-52) -> r = S754_zero false).
Proof. exact c108_skewness. Qed.
Print Assumptions C108_skewness_binary64.

(** C108_kurtosis_binary64: kurtosis() likewise, within
    [(23100/fm + 9400/fv + 4100/fk) (M^2/V) u (M^2/V)^2] of the weighted fourth
    moment over [V^2]. *)
Theorem C108_kurtosis_binary64 : forall (fm fv fs fk : b64) (l : list b64) (M : R),
  let u := bpow radix2 (-53) in
  let mf := b64_real fm in
  let vf := b64_real fv in
  let kf := b64_real fk in
  b64_finite fm -> b64_finite fv -> b64_finite fk ->
  bpow radix2 (-40) <= mf <= 1 -> bpow radix2 (-40) <= vf <= 1 -> bpow radix2 (-40) <= kf <= 1 ->
  l <> [] -> bpow radix2 (-200) <= M <= bpow radix2 200 ->
  Forall (fun x => b64_finite x /\ Rabs (b64_real x) <= M) l ->
  let lv := map b64_real l in
  let V := emoment 2 mf vf lv in
  0 < V -> 256 * (4 * (62 * / vf + 79 * / mf) * (M * M / V)) * u <= 1 ->
  let r := dkurt_kurtosis b64num (run (dkurt_push b64num) (dkurt_clear b64num) (dkurt_init b64num fm fv fs fk) (pushes l)) in
  (65 / 64 * bpow radix2 (-52) <= V ->
   b64_finite r /\
   Rabs (b64_real r - emoment 4 mf kf lv / (V * V)) <=
     (23100 * / mf + 9400 * / vf + 4100 * / kf) * (M * M / V) * (u * (M * M * (M * M) / (V * V)))) /\
  (V <= 63 / 64 * bpow radix2 (-52) -> r = S754_zero false).
Proof. exact c108_kurtosis. Qed.
Print Assumptions C108_kurtosis_binary64.

(** C108_skewness_binary64_ex: factors 1/2, values 1, 2, 4: the weighted
    variance is 38/63. *)
Example C108_skewness_binary64_ex :
  let half := @ndiv b64num (b64_of_Z 1) (b64_of_Z 2) in
  let f := b64_real half in
  let l := map b64_of_Z [1; 2; 4]%Z in
  let V := emoment 2 f f (map b64_real l) in
  b64_finite half /\ f = / 2 /\ bpow radix2 (-40) <= f <= 1 /\ l <> [] /\ bpow radix2 (-200) <= 4 <= bpow radix2 200 /\
  Forall (fun x => b64_finite x /\ Rabs (b64_real x) <= 4) l /\ V = 38 / 63 /\
  256 * (4 * (62 * / f + 79 * / f) * (4 * 4 / V)) * bpow radix2 (-53) <= 1 /\ 65 / 64 * bpow radix2 (-52) <= V.
Proof. exact c108_skewness_ex. Qed.

(** C108_kurtosis_binary64_ex: the same values. *)
Example C108_kurtosis_binary64_ex :
  let half := @ndiv b64num (b64_of_Z 1) (b64_of_Z 2) in
  let f := b64_real half in
  let l := map b64_of_Z [1; 2; 4]%Z in
  let V := emoment 2 f f (map b64_real l) in
  V = 38 / 63 /\ 256 * (4 * (62 * / f + 79 * / f) * (4 * 4 / V)) * bpow radix2 (-53) <= 1 /\ 65 / 64 * bpow radix2 (-52) <= V.
Proof. exact c108_kurtosis_ex. Qed.
