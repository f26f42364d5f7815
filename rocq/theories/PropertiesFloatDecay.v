(** * Property theorems: FloatDecay

    Statements only; every proof is [exact] of a lemma in ClaimsFloatDecay.v.
    Generated by tools/mkprops.py. *)

From Coq Require Import Reals ZArith NArith List Bool.
From Coq Require Import Floats.SpecFloat.
From Flocq Require Import Core.
From Verif Require Import Arith History SpecStats SpecDecay Decay Ieee.
Import ListNotations.
Local Open Scope R_scope.
(** The arithmetic of float. *)
Local Notation f32num := (ieee 24 128).
From Verif Require Import ClaimsFloatDecay.

(** C108_skewness_float: skewness() of a new decay filter over float, for
    factors from 2^-11 to 1, any number of finite values of magnitude at most [M]
    (between 2^-24 and 2^28) whose exponentially weighted variance is [V > 0]. As
    long as the variance is not lost in its own rounding error: if [V] exceeds
    epsilon by a 64th, skewness() is finite and within
    [(10200/fm + 4700/fv + 2100/fs) (M^2/V) u (M^3/V^(3/2))] of the weighted third
    moment over [V^(3/2)], however many values were pushed; if [V] is below
    epsilon by a 64th, skewness() is zero. *)
Theorem C108_skewness_float : forall (fm fv fs : spec_float) (l : list spec_float) (M : R),
  let u := bpow radix2 (-24) in
  let mf := ieee_real fm in
  let vf := ieee_real fv in
  let sf := ieee_real fs in
  ieee_finite 24 128 fm -> ieee_finite 24 128 fv -> ieee_finite 24 128 fs ->
  bpow radix2 (-11) <= mf <= 1 -> bpow radix2 (-11) <= vf <= 1 -> bpow radix2 (-11) <= sf <= 1 ->
  l <> [] -> bpow radix2 (-24) <= M <= bpow radix2 28 ->
  Forall (fun x => ieee_finite 24 128 x /\ Rabs (ieee_real x) <= M) l ->
  let lv := map ieee_real l in
  let V := emoment 2 mf vf lv in
  0 < V -> 256 * (4 * (62 * / vf + 79 * / mf) * (M * M / V)) * u <= 1 ->
  let r := dskew_skewness f32num (run (dskew_push f32num) (dskew_clear f32num) (dskew_init f32num fm fv fs) (pushes l)) in
  (65 / 64 * bpow radix2 (-23) <= V ->
   ieee_finite 24 128 r /\
   Rabs (ieee_real r - emoment 3 mf sf lv / (V * sqrt V)) <=
     (10200 * / mf + 4700 * / vf + 2100 * / sf) * (M * M / V) * (u * (M * (M * M) / (V * sqrt V)))) /\
  (V <= 63 / 64 * bpow radix2 (-23) -> r = S754_zero false).
Proof. exact c108_skewness_float. Qed.
Print Assumptions C108_skewness_float.

(** C108_kurtosis_float: kurtosis() likewise, within
    [(23100/fm + 9400/fv + 4100/fk) (M^2/V) u (M^2/V)^2] of the weighted fourth
    moment over [V^2]. *)
Theorem C108_kurtosis_float : forall (fm fv fs fk : spec_float) (l : list spec_float) (M : R),
  let u := bpow radix2 (-24) in
  let mf := ieee_real fm in
  let vf := ieee_real fv in
  let kf := ieee_real fk in
  ieee_finite 24 128 fm -> ieee_finite 24 128 fv -> ieee_finite 24 128 fk ->
  bpow radix2 (-11) <= mf <= 1 -> bpow radix2 (-11) <= vf <= 1 -> bpow radix2 (-11) <= kf <= 1 ->
  l <> [] -> bpow radix2 (-24) <= M <= bpow radix2 28 ->
  Forall (fun x => ieee_finite 24 128 x /\ Rabs (ieee_real x) <= M) l ->
  let lv := map ieee_real l in
  let V := emoment 2 mf vf lv in
  0 < V -> 256 * (4 * (62 * / vf + 79 * / mf) * (M * M / V)) * u <= 1 ->
  let r := dkurt_kurtosis f32num (run (dkurt_push f32num) (dkurt_clear f32num) (dkurt_init f32num fm fv fs fk) (pushes l)) in
  (65 / 64 * bpow radix2 (-23) <= V ->
   ieee_finite 24 128 r /\
   Rabs (ieee_real r - emoment 4 mf kf lv / (V * V)) <=
     (23100 * / mf + 9400 * / vf + 4100 * / kf) * (M * M / V) * (u * (M * M * (M * M) / (V * V)))) /\
  (V <= 63 / 64 * bpow radix2 (-23) -> r = S754_zero false).
Proof. exact c108_kurtosis_float. Qed.
Print Assumptions C108_kurtosis_float.

(** C108_skewness_float_ex: factors 1/2, values 1, 2, 4: the weighted
    variance is 38/63. *)
Example C108_skewness_float_ex :
  let half := @ndiv f32num (ieee_of_Z 24 128 1) (ieee_of_Z 24 128 2) in
  let f := ieee_real half in
  let l := map (ieee_of_Z 24 128) [1; 2; 4]%Z in
  let V := emoment 2 f f (map ieee_real l) in
  ieee_finite 24 128 half /\ f = / 2 /\ bpow radix2 (-11) <= f <= 1 /\ l <> [] /\ bpow radix2 (-24) <= 4 <= bpow radix2 28 /\
  Forall (fun x => ieee_finite 24 128 x /\ Rabs (ieee_real x) <= 4) l /\ V = 38 / 63 /\
  256 * (4 * (62 * / f + 79 * / f) * (4 * 4 / V)) * bpow radix2 (-24) <= 1 /\ 65 / 64 * bpow radix2 (-23) <= V.
Proof. exact c108_skewness_float_ex. Qed.

(** C108_kurtosis_float_ex: the same values. *)
Example C108_kurtosis_float_ex :
  let half := @ndiv f32num (ieee_of_Z 24 128 1) (ieee_of_Z 24 128 2) in
  let f := ieee_real half in
  let l := map (ieee_of_Z 24 128) [1; 2; 4]%Z in
  let V := emoment 2 f f (map ieee_real l) in
  V = 38 / 63 /\ 256 * (4 * (62 * / f + 79 * / f) * (4 * 4 / V)) * bpow radix2 (-24) <= 1 /\ 65 / 64 * bpow radix2 (-23) <= V.
Proof. exact c108_kurtosis_float_ex. Qed.
