(** * Property theorems: Mixed

    Statements only; every proof is [exact] of a lemma in ClaimsMixed.v.
    Generated by tools/mkprops.py. *)

From Coq Require Import Reals ZArith NArith List Bool.
From Coq Require Import Floats.SpecFloat.
From Flocq Require Import Core.
From Verif Require Import Arith History SpecStats Cumulative Ieee Mixed.
Import ListNotations.
Local Open Scope R_scope.
(** The kurtosis filter over a value type of [prec] bits after a history. *)
Definition run_mixed (prec emax : Z) (ops : list (op spec_float)) : ckurt (mixed prec emax) :=
  let X := mixed prec emax in
  run (ckurt_push X) (ckurt_clear X) (ckurt_init X) (map (op_map OfT) ops).
(** A float of an integer. *)
Local Notation f32 z := (ieee_of_Z 24 128 z).
(** A number of 113 bits (long double on AArch64) of an integer. *)
Local Notation f113 z := (ieee_of_Z 113 16384 z).
From Verif Require Import ClaimsMixed.

(** C118_others: the count, the means, variances and kurtoses are those of the
    arithmetic of T alone (C110); skewness() is the only result in which double
    takes part, for a narrower T as the conversion of a quotient of doubles. *)
Theorem C118_others : forall (prec emax : Z) (ops : list (op spec_float)),
  let X := mixed prec emax in
  let T := ieee prec emax in
  let s := run_mixed prec emax ops in
  let t := run (ckurt_push T) (ckurt_clear T) (ckurt_init T) ops in
  let f := as_T prec emax in
  ckurt_size X s = ckurt_size T t /\
  f (ckurt_mean X s) = ckurt_mean T t /\ f (ckurt_unbiased_mean X s) = ckurt_unbiased_mean T t /\
  f (ckurt_variance X s) = ckurt_variance T t /\ f (ckurt_unbiased_variance X s) = ckurt_unbiased_variance T t /\
  f (ckurt_kurtosis X s) = ckurt_kurtosis T t /\ f (ckurt_unbiased_kurtosis X s) = ckurt_unbiased_kurtosis T t /\
  ((prec < 53)%Z ->
   let S2 := cv_sum T (cs_super T (ck_super T t)) in
   let S3 := cs_sum T (ck_super T t) in
   let n := ieee_of_Z 53 1024 (Z.of_N (ckurt_size T t)) in
   mskew_skewness prec emax (ck_super X s) =
     if SFltb S3 (@neps T) then ieee_of_Z prec emax 0
     else convert prec emax
       (SFdiv 53 1024 (SFmul 53 1024 (SFsqrt 53 1024 n) (convert 53 1024 S3))
                      (convert 53 1024 (SFmul prec emax (SFsqrt prec emax S2) S2)))).
Proof. exact c118_others. Qed.
Print Assumptions C118_others.

(** C118_others_ex: the floats 0, 0, 3 of skewness sqrt(1/2), which is reported one unit
    in the last place too small. *)
Example C118_others_ex :
  let ops := [Push (f32 5); Clear; Push (f32 0); Push (f32 0); Push (f32 3)] in
  (24 < 53)%Z /\
  mskew_skewness 24 128 (ck_super (mixed 24 128) (run_mixed 24 128 ops)) = S754_finite false 11863282 (-24) /\
  as_T 24 128 (ckurt_mean (mixed 24 128) (run_mixed 24 128 ops)) = f32 1.
Proof. exact c118_others_ex. Qed.

(** C118_float_partial: over float, for up to 2^13 finite values of magnitude at
    most [M] (between 2^-20 and 2^20) since the last clear with variance [V > 0]: if
    [M^2 / V] is below about 2^24 / (3584 n) and the third central sum exceeds epsilon
    (2^-23) by the bound for its own error, then skewness() is finite and within
    [(406 n + 9303) u (M / sigma)^3] of the skewness of the values, [u = 2^-24].
    Missing, because false: value types of more than 53 bits. *)
Theorem C118_float_partial : forall (ops : list (op spec_float)) (M : R),
  let l := since_clear ops in
  let n := INR (length l) in
  let u := bpow radix2 (- 24) in
  l <> [] -> (Z.of_nat (length l) <= 2 ^ 13)%Z -> bpow radix2 (-20) <= M <= bpow radix2 20 ->
  Forall (fun x => ieee_finite 24 128 x /\ Rabs (ieee_real x) <= M) l ->
  let lv := map ieee_real l in
  let V := variance lv in
  0 < V -> 128 * ((28 * n + 618) * (M * M / V)) * u <= 1 ->
  bpow radix2 (-23) + 9 / 8 * n * ((229 * n + 5441) * (u * (M * (M * M)))) <= csum 3 lv ->
  let r := mskew_skewness 24 128 (ck_super (mixed 24 128) (run_mixed 24 128 ops)) in
  ieee_finite 24 128 r /\
  Rabs (ieee_real r - skewness lv) <= (406 * n + 9303) * (u * (M / sqrt V * (M / sqrt V) * (M / sqrt V))).
Proof. exact c118_float. Qed.
Print Assumptions C118_float_partial.

(** C118_float_partial_ex: 0, 0, 3 after another value and a clear; the bound is below 1/100. *)
Example C118_float_partial_ex :
  let l := since_clear (Push (f32 9) :: Clear :: map Push (map (fun z => f32 z) [0; 0; 3]%Z)) in
  let n := INR (length l) in
  let u := bpow radix2 (- 24) in
  let lv := map ieee_real l in
  length l = 3%nat /\ bpow radix2 (-20) <= 3 <= bpow radix2 20 /\
  Forall (fun x => ieee_finite 24 128 x /\ Rabs (ieee_real x) <= 3) l /\
  variance lv = 2 /\ 128 * ((28 * n + 618) * (3 * 3 / 2)) * u <= 1 /\
  bpow radix2 (-23) + 9 / 8 * n * ((229 * n + 5441) * (u * (3 * (3 * 3)))) <= csum 3 lv /\
  (406 * n + 9303) * (u * (3 / sqrt 2 * (3 / sqrt 2) * (3 / sqrt 2))) <= / 100.
Proof. exact c118_float_ex. Qed.

(** C118_unbiased_partial: over float, under the conditions of C118_float_partial with
    three or more values, unbiased_skewness() is finite and within
    [(406 n + 9313) u (M / sigma)^3 k] of [k] times the skewness of the values, where
    [k = sqrt (n (n - 1)) / (n - 2)] is the correction for bias. *)
Theorem C118_unbiased_partial : forall (ops : list (op spec_float)) (M : R),
  let l := since_clear ops in
  let n := INR (length l) in
  let u := bpow radix2 (- 24) in
  (3 <= length l)%nat -> (Z.of_nat (length l) <= 2 ^ 13)%Z -> bpow radix2 (-20) <= M <= bpow radix2 20 ->
  Forall (fun x => ieee_finite 24 128 x /\ Rabs (ieee_real x) <= M) l ->
  let lv := map ieee_real l in
  let V := variance lv in
  0 < V -> 128 * ((28 * n + 618) * (M * M / V)) * u <= 1 ->
  bpow radix2 (-23) + 9 / 8 * n * ((229 * n + 5441) * (u * (M * (M * M)))) <= csum 3 lv ->
  let r := mskew_unbiased_skewness 24 128 (ck_super (mixed 24 128) (run_mixed 24 128 ops)) in
  let k := sqrt (n * (n - 1)) / (n - 2) in
  ieee_finite 24 128 r /\
  Rabs (ieee_real r - k * skewness lv) <= (406 * n + 9313) * (u * (M / sqrt V * (M / sqrt V) * (M / sqrt V))) * k.
Proof. exact c118_unbiased. Qed.
Print Assumptions C118_unbiased_partial.

(** C118_unbiased_partial_ex: 0, 0, 3 as above; the correction is sqrt 6, the corrected
    skewness sqrt 3, reported one unit in the last place too small. *)
Example C118_unbiased_partial_ex :
  let ops := Push (f32 9) :: Clear :: map Push (map (fun z => f32 z) [0; 0; 3]%Z) in
  let l := since_clear ops in
  let n := INR (length l) in
  let u := bpow radix2 (- 24) in
  let lv := map ieee_real l in
  (3 <= length l)%nat /\ bpow radix2 (-20) <= 3 <= bpow radix2 20 /\
  Forall (fun x => ieee_finite 24 128 x /\ Rabs (ieee_real x) <= 3) l /\
  variance lv = 2 /\ 128 * ((28 * n + 618) * (3 * 3 / 2)) * u <= 1 /\
  bpow radix2 (-23) + 9 / 8 * n * ((229 * n + 5441) * (u * (3 * (3 * 3)))) <= csum 3 lv /\
  mskew_unbiased_skewness 24 128 (ck_super (mixed 24 128) (run_mixed 24 128 ops)) = S754_finite false 14529494 (-23).
Proof. exact c118_unbiased_ex. Qed.

(** C118_wide_refuted: for a value type of 113 bits the corresponding statement,
    with its own [u = 2^-113], is false: the square root of the count has the
    accuracy of double. The skewness of 0, 0, 3 is wrong by more than 2^-55, which is
    more than 2^41 times the bound. *)
Theorem C118_wide_refuted : exists (ops : list (op spec_float)) (M : R),
  let l := since_clear ops in
  let n := INR (length l) in
  let u := bpow radix2 (- 113) in
  length l = 3%nat /\ bpow radix2 (-20) <= M <= bpow radix2 20 /\
  Forall (fun x => ieee_finite 113 16384 x /\ Rabs (ieee_real x) <= M) l /\
  let lv := map ieee_real l in
  let V := variance lv in
  0 < V /\ 128 * ((28 * n + 618) * (M * M / V)) * u <= 1 /\
  bpow radix2 (-112) + 9 / 8 * n * ((229 * n + 5441) * (u * (M * (M * M)))) <= csum 3 lv /\
  let r := mskew_skewness 113 16384 (ck_super (mixed 113 16384) (run_mixed 113 16384 ops)) in
  ieee_finite 113 16384 r /\
  bpow radix2 (-55) < Rabs (ieee_real r - skewness lv) /\
  bpow radix2 41 * ((406 * n + 9303) * (u * (M / sqrt V * (M / sqrt V) * (M / sqrt V)))) < Rabs (ieee_real r - skewness lv).
Proof. exact c118_wide_refuted. Qed.
Print Assumptions C118_wide_refuted.
