(** * Property theorems: HigherInterim

    Statements only; every proof is [exact] of a lemma in ClaimsHigherInterim.v.
    Generated by tools/mkprops.py. *)

From Coq Require Import Reals ZArith NArith List Bool.
From Coq Require Import Floats.SpecFloat.
From Flocq Require Import Core.
From Verif Require Import Arith History SpecStats SpecBlocks Cumulative Interim Binary64.
Import ListNotations.
Local Open Scope R_scope.
From Verif Require Import ClaimsHigherInterim.

(** C88_skewness_binary64: in binary64, windows up to 2^40, the last 2W values
    at most [M] in magnitude (between 2^-200 and 2^200), the variances of the two
    blocks at least [V > 0] (the current block only once it has two values) with [M^2
    / V] below about 2^53 / (3584 W): skewness() is finite and within [(664 W +
    15520) u (M^2 / V)^(3/2) + 2^-51 / V^(3/2)] of the weighted average of the
    skewnesses of the two blocks, negative ones replaced by zero, for every number
    of pushes. *)
Theorem C88_skewness_binary64 : forall (W : nat) (ops : list (op b64)) (M V : R),
  let l := since_clear ops in
  let u := bpow radix2 (-53) in
  let g c := Rmax 0 (skewness (map b64_real c)) in
  l <> [] -> (0 < W)%nat -> (Z.of_nat W <= 2 ^ 40)%Z -> bpow radix2 (-200) <= M <= bpow radix2 200 ->
  Forall (fun x => b64_finite x /\ Rabs (b64_real x) <= M) (lastn (2 * W) l) ->
  0 < V -> 128 * ((28 * INR W + 618) * (M * M / V)) * u <= 1 ->
  ((W < length l)%nat -> V <= variance (map b64_real (prev_block W l))) ->
  ((length l <= W)%nat \/ (2 <= length (cur_block W l))%nat -> V <= variance (map b64_real (cur_block W l))) ->
  let w := N.of_nat W in
  let r := iskew_skewness b64num w (run (iskew_push b64num w) (iskew_clear b64num) (iskew_init b64num) ops) in
  let s := card (cur_block W l) in
  let wp := INR W - s + 1 in
  let wa := 2 * (s - 1) in
  let z := M / sqrt V in
  let bound := (664 * INR W + 15520) * (u * (z * z * z)) + 2 * (bpow radix2 (-52) / (V * sqrt V)) in
  b64_finite r /\
  ((length l <= W)%nat -> Rabs (b64_real r - g l) <= bound) /\
  ((W < length l)%nat -> Rabs (b64_real r - (wp * g (prev_block W l) + wa * g (cur_block W l)) / (wp + wa)) <= bound).
Proof. exact c88_skewness_binary64. Qed.
Print Assumptions C88_skewness_binary64.

(** C88_skewness_binary64_ex: W = 4 after ten values, the first a NaN; the blocks 0, 0, 0,
    8 and 0, 8 have variances 12 and 16, and the bound is below 1e-9. *)
Example C88_skewness_binary64_ex :
  let ops := Push S754_nan :: map Push (map b64_of_Z [1; 2; 3; 0; 0; 0; 8; 0; 8]%Z) in
  let l := since_clear ops in
  let u := bpow radix2 (-53) in
  let z := 8 / sqrt 12 in
  l <> [] /\ (0 < 4)%nat /\ (Z.of_nat 4 <= 2 ^ 40)%Z /\ bpow radix2 (-200) <= 8 <= bpow radix2 200 /\
  Forall (fun x => b64_finite x /\ Rabs (b64_real x) <= 8) (lastn (2 * 4) l) /\
  128 * ((28 * INR 4 + 618) * (8 * 8 / 12)) * u <= 1 /\
  (4 < length l)%nat /\ 12 <= variance (map b64_real (prev_block 4 l)) /\
  (2 <= length (cur_block 4 l))%nat /\ 12 <= variance (map b64_real (cur_block 4 l)) /\
  (664 * INR 4 + 15520) * (u * (z * z * z)) + 2 * (bpow radix2 (-52) / (12 * sqrt 12)) <= / 10 ^ 9.
Proof. exact c88_skewness_binary64_ex. Qed.

(** C88_kurtosis_binary64: likewise for kurtosis(), windows up to 2^26 and [M^2 /
    V] below about 2^53 / (28672 W): within [(4140 W + 96040) u (M^2 / V)^2 + 2^-51
    / V^2] of the weighted average of the kurtoses of the two blocks. *)
Theorem C88_kurtosis_binary64 : forall (W : nat) (ops : list (op b64)) (M V : R),
  let l := since_clear ops in
  let u := bpow radix2 (-53) in
  let k c := kurtosis (map b64_real c) in
  l <> [] -> (0 < W)%nat -> (Z.of_nat W <= 2 ^ 26)%Z -> bpow radix2 (-200) <= M <= bpow radix2 200 ->
  Forall (fun x => b64_finite x /\ Rabs (b64_real x) <= M) (lastn (2 * W) l) ->
  0 < V -> 1024 * ((28 * INR W + 618) * (M * M / V)) * u <= 1 ->
  ((W < length l)%nat -> V <= variance (map b64_real (prev_block W l))) ->
  ((length l <= W)%nat \/ (2 <= length (cur_block W l))%nat -> V <= variance (map b64_real (cur_block W l))) ->
  let w := N.of_nat W in
  let r := ikurt_kurtosis b64num w (run (ikurt_push b64num w) (ikurt_clear b64num) (ikurt_init b64num) ops) in
  let s := card (cur_block W l) in
  let wp := INR W - s + 1 in
  let wa := 2 * (s - 1) in
  let bound := (4140 * INR W + 96040) * (u * (M * M / V * (M * M / V))) + 2 * (bpow radix2 (-52) / (V * V)) in
  b64_finite r /\
  ((length l <= W)%nat -> Rabs (b64_real r - k l) <= bound) /\
  ((W < length l)%nat -> Rabs (b64_real r - (wp * k (prev_block W l) + wa * k (cur_block W l)) / (wp + wa)) <= bound).
Proof. exact c88_kurtosis_binary64. Qed.
Print Assumptions C88_kurtosis_binary64.

(** C88_kurtosis_binary64_ex: the same ten values. *)
Example C88_kurtosis_binary64_ex :
  let ops := Push S754_nan :: map Push (map b64_of_Z [1; 2; 3; 0; 0; 0; 8; 0; 8]%Z) in
  let l := since_clear ops in
  let u := bpow radix2 (-53) in
  l <> [] /\ (0 < 4)%nat /\ (Z.of_nat 4 <= 2 ^ 26)%Z /\ bpow radix2 (-200) <= 8 <= bpow radix2 200 /\
  Forall (fun x => b64_finite x /\ Rabs (b64_real x) <= 8) (lastn (2 * 4) l) /\
  1024 * ((28 * INR 4 + 618) * (8 * 8 / 12)) * u <= 1 /\
  (4 < length l)%nat /\ 12 <= variance (map b64_real (prev_block 4 l)) /\
  (2 <= length (cur_block 4 l))%nat /\ 12 <= variance (map b64_real (cur_block 4 l)) /\
  (4140 * INR 4 + 96040) * (u * (8 * 8 / 12 * (8 * 8 / 12))) + 2 * (bpow radix2 (-52) / (12 * 12)) <= / 10 ^ 9.
Proof. exact c88_kurtosis_binary64_ex. Qed.
