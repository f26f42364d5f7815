(** * Property theorems: ContractedHigher

    Statements only; every proof is [exact] of a lemma in ClaimsContractedHigher.v.
    Generated by tools/mkprops.py. *)

From Coq Require Import Reals ZArith NArith List Bool.
From Coq Require Import Floats.SpecFloat.
From Flocq Require Import Core.
From Verif Require Import Arith History SpecStats Cumulative Binary64 Ieee Contracted IeeeFused ContractedHigher.
Import ListNotations.
Local Open Scope R_scope.
(** The fused operations on double ([ieee 53 1024] is [b64num], C110_double). *)
Local Notation fused64 := (ieee_fused 53 1024 : fused b64num).
(** The kurtosis filter over float with fused multiply-adds after a history. *)
Definition run_fused_float (left leftv lefts : bool) (ops : list (op spec_float)) : ckurt (ieee 24 128) :=
  run (ckurt_push_fma (ieee 24 128) (ieee_fused 24 128) left leftv lefts) (ckurt_clear (ieee 24 128)) (ckurt_init (ieee 24 128)) ops.
(** A float of an integer. *)
Local Notation f32 z := (ieee_of_Z 24 128 z).
From Verif Require Import ClaimsContractedHigher.

(** C123_skewness: with fused multiply-adds over double, whichever of the two products
    that are subtracted the compiler fuses, skewness() of the cumulative filter keeps the
    bound of C94_skewness_any. *)
Theorem C123_skewness : forall (left : bool) (ops : list (op b64)) (M : R),
  let l := since_clear ops in
  let n := INR (length l) in
  let u := bpow radix2 (-53) in
  l <> [] -> (Z.of_nat (length l) <= 2 ^ 40)%Z -> bpow radix2 (-200) <= M <= bpow radix2 200 ->
  Forall (fun x => b64_finite x /\ Rabs (b64_real x) <= M) l ->
  let lv := map b64_real l in
  let V := variance lv in
  0 < V -> 128 * ((28 * n + 618) * (M * M / V)) * u <= 1 ->
  let r := cskew_skewness b64num (run (cskew_push_fma b64num fused64 left) (cskew_clear b64num) (cskew_init b64num) ops) in
  b64_finite r /\
  Rabs (b64_real r - Rmax 0 (skewness lv)) <=
    (664 * n + 15500) * (u * (M / sqrt V * (M / sqrt V) * (M / sqrt V))) + bpow radix2 (-52) / (n * (V * sqrt V)).
Proof. exact c123_skewness. Qed.
Print Assumptions C123_skewness.

(** C123_skewness_ex: 0, 0, 0, -8, of negative skewness: the result is within 1e-9 of zero. *)
Example C123_skewness_ex :
  let l := since_clear (map Push (map b64_of_Z [0; 0; 0; -8]%Z)) in
  let n := INR (length l) in
  let u := bpow radix2 (-53) in
  let lv := map b64_real l in
  let z := 8 / sqrt 12 in
  length l = 4%nat /\ bpow radix2 (-200) <= 8 <= bpow radix2 200 /\
  Forall (fun x => b64_finite x /\ Rabs (b64_real x) <= 8) l /\
  variance lv = 12 /\ 128 * ((28 * n + 618) * (8 * 8 / 12)) * u <= 1 /\ skewness lv < -1 /\
  (664 * n + 15500) * (u * (z * z * z)) + bpow radix2 (-52) / (n * (12 * sqrt 12)) <= / 10 ^ 9.
Proof. exact c123_skewness_ex. Qed.

(** C123_kurtosis: likewise kurtosis(), with the bound of C94_kurtosis_any, whichever of
    the products of each sum and difference are fused. *)
Theorem C123_kurtosis : forall (left leftv lefts : bool) (ops : list (op b64)) (M : R),
  let l := since_clear ops in
  let n := INR (length l) in
  let u := bpow radix2 (-53) in
  l <> [] -> (Z.of_nat (length l) <= 2 ^ 26)%Z -> bpow radix2 (-200) <= M <= bpow radix2 200 ->
  Forall (fun x => b64_finite x /\ Rabs (b64_real x) <= M) l ->
  let lv := map b64_real l in
  let V := variance lv in
  0 < V -> 1024 * ((28 * n + 618) * (M * M / V)) * u <= 1 ->
  let r := ckurt_kurtosis b64num (run (ckurt_push_fma b64num fused64 left leftv lefts) (ckurt_clear b64num) (ckurt_init b64num) ops) in
  b64_finite r /\
  Rabs (b64_real r - kurtosis lv) <=
    (4140 * n + 96000) * (u * (M * M / V * (M * M / V))) + bpow radix2 (-52) / (n * (V * V)).
Proof. exact c123_kurtosis. Qed.
Print Assumptions C123_kurtosis.

(** C123_kurtosis_ex: 0, 0, 0, 8. *)
Example C123_kurtosis_ex :
  let l := since_clear (map Push (map b64_of_Z [0; 0; 0; 8]%Z)) in
  let n := INR (length l) in
  let u := bpow radix2 (-53) in
  let lv := map b64_real l in
  length l = 4%nat /\ bpow radix2 (-200) <= 8 <= bpow radix2 200 /\
  Forall (fun x => b64_finite x /\ Rabs (b64_real x) <= 8) l /\
  variance lv = 12 /\ 1024 * ((28 * n + 618) * (8 * 8 / 12)) * u <= 1 /\ kurtosis lv = 7 / 3 /\
  (4140 * n + 96000) * (u * (8 * 8 / 12 * (8 * 8 / 12))) + bpow radix2 (-52) / (n * (12 * 12)) <= / 10 ^ 9.
Proof. exact c123_kurtosis_ex. Qed.

(** C123_unbiased_skewness: likewise unbiased_skewness(), with the bound of C94_unbiased_skewness. *)
Theorem C123_unbiased_skewness : forall (left : bool) (ops : list (op b64)) (M : R),
  let l := since_clear ops in
  let n := INR (length l) in
  let u := bpow radix2 (-53) in
  (3 <= length l)%nat -> (Z.of_nat (length l) <= 2 ^ 26)%Z -> bpow radix2 (-200) <= M <= bpow radix2 200 ->
  Forall (fun x => b64_finite x /\ Rabs (b64_real x) <= M) l ->
  let lv := map b64_real l in
  let V := variance lv in
  0 < V -> 128 * ((28 * n + 618) * (M * M / V)) * u <= 1 ->
  let r := cskew_unbiased_skewness b64num (run (cskew_push_fma b64num fused64 left) (cskew_clear b64num) (cskew_init b64num) ops) in
  b64_finite r /\
  Rabs (b64_real r - Rmax 0 (sample_skewness lv)) <=
    3 * ((664 * n + 15508) * (u * (M / sqrt V * (M / sqrt V) * (M / sqrt V))) + bpow radix2 (-52) / (n * (V * sqrt V))).
Proof. exact c123_unbiased_skewness. Qed.
Print Assumptions C123_unbiased_skewness.

(** C123_unbiased_skewness_ex: 0, 0, 0, 8, whose bias-corrected skewness is 2. *)
Example C123_unbiased_skewness_ex :
  let l := since_clear (map Push (map b64_of_Z [0; 0; 0; 8]%Z)) in
  let n := INR (length l) in
  let u := bpow radix2 (-53) in
  let lv := map b64_real l in
  let z := 8 / sqrt 12 in
  length l = 4%nat /\ bpow radix2 (-200) <= 8 <= bpow radix2 200 /\
  Forall (fun x => b64_finite x /\ Rabs (b64_real x) <= 8) l /\
  variance lv = 12 /\ 128 * ((28 * n + 618) * (8 * 8 / 12)) * u <= 1 /\ sample_skewness lv = 2 /\
  3 * ((664 * n + 15508) * (u * (z * z * z)) + bpow radix2 (-52) / (n * (12 * sqrt 12))) <= / 10 ^ 9.
Proof. exact c123_unbiased_skewness_ex. Qed.

(** C123_unbiased_kurtosis: likewise unbiased_kurtosis(), with the bound of
    C94_unbiased_kurtosis_binary64; [leftk] says which product of its own difference is fused. *)
Theorem C123_unbiased_kurtosis : forall (left leftv lefts leftk : bool) (ops : list (op b64)) (M : R),
  let l := since_clear ops in
  let n := INR (length l) in
  let u := bpow radix2 (-53) in
  (4 <= length l)%nat -> (Z.of_nat (length l) <= 2 ^ 26)%Z -> bpow radix2 (-200) <= M <= bpow radix2 200 ->
  Forall (fun x => b64_finite x /\ Rabs (b64_real x) <= M) l ->
  let lv := map b64_real l in
  let V := variance lv in
  0 < V -> 1024 * ((28 * n + 618) * (M * M / V)) * u <= 1 ->
  let bound := (4140 * n + 96000) * (u * (M * M / V * (M * M / V))) + bpow radix2 (-52) / (n * (V * V)) in
  bound <= / 16 ->
  let r := ckurt_unbiased_kurtosis_fma b64num fused64 leftk (run (ckurt_push_fma b64num fused64 left leftv lefts) (ckurt_clear b64num) (ckurt_init b64num) ops) in
  b64_finite r /\
  Rabs (b64_real r - sample_kurtosis lv) <= 8 * (bound + 90 * (u * (M * M / V))).
Proof. exact c123_unbiased_kurtosis. Qed.
Print Assumptions C123_unbiased_kurtosis.

(** C123_unbiased_kurtosis_ex: 0, 0, 0, 8, whose bias-corrected kurtosis is 7. *)
Example C123_unbiased_kurtosis_ex :
  let l := since_clear (map Push (map b64_of_Z [0; 0; 0; 8]%Z)) in
  let n := INR (length l) in
  let u := bpow radix2 (-53) in
  let lv := map b64_real l in
  let bound := (4140 * n + 96000) * (u * (8 * 8 / 12 * (8 * 8 / 12))) + bpow radix2 (-52) / (n * (12 * 12)) in
  length l = 4%nat /\ bpow radix2 (-200) <= 8 <= bpow radix2 200 /\
  Forall (fun x => b64_finite x /\ Rabs (b64_real x) <= 8) l /\
  variance lv = 12 /\ 1024 * ((28 * n + 618) * (8 * 8 / 12)) * u <= 1 /\ sample_kurtosis lv = 7 /\
  bound <= / 16 /\ 8 * (bound + 90 * (u * (8 * 8 / 12))) <= / 10 ^ 8.
Proof. exact c123_unbiased_kurtosis_ex. Qed.

(** C123_kurtosis_float: over float, kurtosis() keeps the bound of C121 with fused multiply-adds. *)
Theorem C123_kurtosis_float : forall (left leftv lefts : bool) (ops : list (op spec_float)) (M : R),
  let l := since_clear ops in
  let n := INR (length l) in
  let u := bpow radix2 (- 24) in
  l <> [] -> (Z.of_nat (length l) <= 2 ^ 12)%Z -> bpow radix2 (-20) <= M <= bpow radix2 20 ->
  Forall (fun x => ieee_finite 24 128 x /\ Rabs (ieee_real x) <= M) l ->
  let lv := map ieee_real l in
  let V := variance lv in
  0 < V -> 1024 * ((28 * n + 618) * (M * M / V)) * u <= 1 ->
  let r := ckurt_kurtosis (ieee 24 128) (run_fused_float left leftv lefts ops) in
  ieee_finite 24 128 r /\
  Rabs (ieee_real r - kurtosis lv) <=
    (4140 * n + 96000) * (u * (M * M / V * (M * M / V))) + bpow radix2 (-23) / (n * (V * V)).
Proof. exact c123_kurtosis_float. Qed.
Print Assumptions C123_kurtosis_float.

(** C123_kurtosis_float_ex: 0, 0, 0, 8 after another value and a clear. *)
Example C123_kurtosis_float_ex :
  let ops := Push (f32 5) :: Clear :: map Push (map (fun z => f32 z) [0; 0; 0; 8]%Z) in
  let l := since_clear ops in
  let n := INR (length l) in
  let u := bpow radix2 (- 24) in
  let lv := map ieee_real l in
  length l = 4%nat /\ bpow radix2 (-20) <= 8 <= bpow radix2 20 /\
  Forall (fun x => ieee_finite 24 128 x /\ Rabs (ieee_real x) <= 8) l /\
  variance lv = 12 /\ 1024 * ((28 * n + 618) * (8 * 8 / 12)) * u <= 1 /\ kurtosis lv = 7 / 3 /\
  ckurt_kurtosis (ieee 24 128) (run_fused_float true false true ops) = S754_finite false 9786709 (-22).
Proof. exact c123_kurtosis_float_ex. Qed.

(** C123_higher_visible_ex: which product is fused can be observed: for 3, 10, 1, 5, 77
    the skewness differs in the last bit. *)
Example C123_higher_visible_ex :
  let ops := map Push (map b64_of_Z [3; 10; 1; 5; 77]%Z) in
  let skew left := cskew_skewness b64num (run (cskew_push_fma b64num fused64 left) (cskew_clear b64num) (cskew_init b64num) ops) in
  skew true = S754_finite false 6580190456432958 (-52) /\ skew false = S754_finite false 6580190456432959 (-52).
Proof. exact c123_higher_visible_ex. Qed.
