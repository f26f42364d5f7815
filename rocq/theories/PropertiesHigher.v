(** * Property theorems: Higher

    Statements only; every proof is [exact] of a lemma in ClaimsHigher.v.
    Generated by tools/mkprops.py. *)

From Coq Require Import Reals ZArith NArith List Bool.
From Coq Require Import Floats.SpecFloat.
From Flocq Require Import Core.
From Verif Require Import Arith History SpecStats Cumulative Binary64.
Import ListNotations.
Local Open Scope R_scope.
From Verif Require Import ClaimsHigher.

(** C94_skewness_binary64: in binary64, for up to 2^40 finite values of
    magnitude at most [M] (between 2^-200 and 2^200) since the last clear with
    variance [V > 0]: if [M^2 / V] is below about 2^53 / (3584 n) and the third
    central sum exceeds epsilon (2^-52) by the bound for its own error, then
    skewness() is finite and within [(406 n + 9300) u (M / sigma)^3] of the
    skewness of the values. *)
Theorem C94_skewness_binary64 : forall (ops : list (op b64)) (M : R),
  let l := since_clear ops in
  let n := INR (length l) in
  let u := bpow radix2 (-53) in
  l <> [] -> (Z.of_nat (length l) <= 2 ^ 40)%Z -> bpow radix2 (-200) <= M <= bpow radix2 200 ->
  Forall (fun x => b64_finite x /\ Rabs (b64_real x) <= M) l ->
  let lv := map b64_real l in
  let V := variance lv in
  0 < V -> 128 * ((28 * n + 618) * (M * M / V)) * u <= 1 ->
  bpow radix2 (-52) + 9 / 8 * n * ((229 * n + 5441) * (u * (M * (M * M)))) <= csum 3 lv ->
  let r := cskew_skewness b64num (run (cskew_push b64num) (cskew_clear b64num) (cskew_init b64num) ops) in
  b64_finite r /\
  Rabs (b64_real r - skewness lv) <= (406 * n + 9300) * (u * (M / sqrt V * (M / sqrt V) * (M / sqrt V))).
Proof. exact c94_skewness. Qed.
Print Assumptions C94_skewness_binary64.

(** C94_skewness_binary64_ex: 0, 0, 0, 8 after other values and a clear; the
    bound is below 10^-10. *)
Example C94_skewness_binary64_ex :
  let l := since_clear (Push (b64_of_Z 99) :: Clear :: map Push (map b64_of_Z [0; 0; 0; 8]%Z)) in
  let n := INR (length l) in
  let u := bpow radix2 (-53) in
  let lv := map b64_real l in
  length l = 4%nat /\ bpow radix2 (-200) <= 8 <= bpow radix2 200 /\
  Forall (fun x => b64_finite x /\ Rabs (b64_real x) <= 8) l /\
  variance lv = 12 /\ 128 * ((28 * n + 618) * (8 * 8 / 12)) * u <= 1 /\
  bpow radix2 (-52) + 9 / 8 * n * ((229 * n + 5441) * (u * (8 * (8 * 8)))) <= csum 3 lv /\
  (406 * n + 9300) * (u * (8 / sqrt 12 * (8 / sqrt 12) * (8 / sqrt 12))) <= / 10 ^ 10.
Proof. exact c94_skewness_ex. Qed.

(** C94_skewness_zero: in the same situation (whatever the variance), if the
    third central sum is below epsilon by more than the bound for its error, as
    for all clearly left-skewed data, skewness() is exactly zero. *)
Theorem C94_skewness_zero : forall (ops : list (op b64)) (M : R),
  let l := since_clear ops in
  let n := INR (length l) in
  let u := bpow radix2 (-53) in
  l <> [] -> (Z.of_nat (length l) <= 2 ^ 40)%Z -> bpow radix2 (-200) <= M <= bpow radix2 200 ->
  Forall (fun x => b64_finite x /\ Rabs (b64_real x) <= M) l ->
  csum 3 (map b64_real l) + 9 / 8 * n * ((229 * n + 5441) * (u * (M * (M * M)))) < bpow radix2 (-52) ->
  cskew_skewness b64num (run (cskew_push b64num) (cskew_clear b64num) (cskew_init b64num) ops) = S754_zero false.
Proof. exact c94_skewness_zero. Qed.
Print Assumptions C94_skewness_zero.

(** C94_skewness_zero_ex: 0, 0, 0, -8, whose skewness is -1.15. *)
Example C94_skewness_zero_ex :
  let l := since_clear (map Push (map b64_of_Z [0; 0; 0; -8]%Z)) in
  let n := INR (length l) in
  let u := bpow radix2 (-53) in
  length l = 4%nat /\ bpow radix2 (-200) <= 8 <= bpow radix2 200 /\
  Forall (fun x => b64_finite x /\ Rabs (b64_real x) <= 8) l /\
  csum 3 (map b64_real l) = -192 /\
  -192 + 9 / 8 * n * ((229 * n + 5441) * (u * (8 * (8 * 8)))) < bpow radix2 (-52).
Proof. exact c94_skewness_zero_ex. Qed.

(** C94_kurtosis_binary64: for up to 2^26 values: if [M^2 / V] is below about
    2^53 / (28672 n) and the fourth central sum exceeds epsilon by the bound for
    its error, then kurtosis() is finite and within [(4140 n + 96000) u (M^2 /
    V)^2] of the kurtosis of the values. *)
Theorem C94_kurtosis_binary64 : forall (ops : list (op b64)) (M : R),
  let l := since_clear ops in
  let n := INR (length l) in
  let u := bpow radix2 (-53) in
  l <> [] -> (Z.of_nat (length l) <= 2 ^ 26)%Z -> bpow radix2 (-200) <= M <= bpow radix2 200 ->
  Forall (fun x => b64_finite x /\ Rabs (b64_real x) <= M) l ->
  let lv := map b64_real l in
  let V := variance lv in
  0 < V -> 1024 * ((28 * n + 618) * (M * M / V)) * u <= 1 ->
  bpow radix2 (-52) + 9 / 8 * n * ((3242 * n + 75362) * (u * (M * M * (M * M)))) <= csum 4 lv ->
  let r := ckurt_kurtosis b64num (run (ckurt_push b64num) (ckurt_clear b64num) (ckurt_init b64num) ops) in
  b64_finite r /\
  Rabs (b64_real r - kurtosis lv) <= (4140 * n + 96000) * (u * (M * M / V * (M * M / V))).
Proof. exact c94_kurtosis. Qed.
Print Assumptions C94_kurtosis_binary64.

(** C94_kurtosis_binary64_ex: 0, 0, 0, 8. *)
Example C94_kurtosis_binary64_ex :
  let l := since_clear (map Push (map b64_of_Z [0; 0; 0; 8]%Z)) in
  let n := INR (length l) in
  let u := bpow radix2 (-53) in
  let lv := map b64_real l in
  length l = 4%nat /\ bpow radix2 (-200) <= 8 <= bpow radix2 200 /\
  Forall (fun x => b64_finite x /\ Rabs (b64_real x) <= 8) l /\
  variance lv = 12 /\ 1024 * ((28 * n + 618) * (8 * 8 / 12)) * u <= 1 /\
  bpow radix2 (-52) + 9 / 8 * n * ((3242 * n + 75362) * (u * (8 * 8 * (8 * 8)))) <= csum 4 lv /\
  (4140 * n + 96000) * (u * (8 * 8 / 12 * (8 * 8 / 12))) <= / 10 ^ 9.
Proof. exact c94_kurtosis_ex. Qed.

(** C94_skewness_any_binary64: without the condition on the third central sum,
    skewness() is finite and within [(664 n + 15500) u (M / sigma)^3 + epsilon /
    (n V^(3/2))] of the skewness of the values, or of zero if that is negative. *)
Theorem C94_skewness_any_binary64 : forall (ops : list (op b64)) (M : R),
  let l := since_clear ops in
  let n := INR (length l) in
  let u := bpow radix2 (-53) in
  l <> [] -> (Z.of_nat (length l) <= 2 ^ 40)%Z -> bpow radix2 (-200) <= M <= bpow radix2 200 ->
  Forall (fun x => b64_finite x /\ Rabs (b64_real x) <= M) l ->
  let lv := map b64_real l in
  let V := variance lv in
  0 < V -> 128 * ((28 * n + 618) * (M * M / V)) * u <= 1 ->
  let r := cskew_skewness b64num (run (cskew_push b64num) (cskew_clear b64num) (cskew_init b64num) ops) in
  b64_finite r /\
  Rabs (b64_real r - Rmax 0 (skewness lv)) <=
    (664 * n + 15500) * (u * (M / sqrt V * (M / sqrt V) * (M / sqrt V))) + bpow radix2 (-52) / (n * (V * sqrt V)).
Proof. exact c94_skewness_any. Qed.
Print Assumptions C94_skewness_any_binary64.

(** C94_skewness_any_binary64_ex: 0, 0, 0, -8, of negative skewness: the result is
    within 1e-9 of zero. *)
Example C94_skewness_any_binary64_ex :
  let l := since_clear (map Push (map b64_of_Z [0; 0; 0; -8]%Z)) in
  let n := INR (length l) in
  let u := bpow radix2 (-53) in
  let lv := map b64_real l in
  let z := 8 / sqrt 12 in
  length l = 4%nat /\ bpow radix2 (-200) <= 8 <= bpow radix2 200 /\
  Forall (fun x => b64_finite x /\ Rabs (b64_real x) <= 8) l /\
  variance lv = 12 /\ 128 * ((28 * n + 618) * (8 * 8 / 12)) * u <= 1 /\ skewness lv < -1 /\
  (664 * n + 15500) * (u * (z * z * z)) + bpow radix2 (-52) / (n * (12 * sqrt 12)) <= / 10 ^ 9.
Proof. exact c94_skewness_any_ex. Qed.

(** C94_kurtosis_any_binary64: without the condition on the fourth central sum,
    kurtosis() is finite and within [(4140 n + 96000) u (M^2 / V)^2 + epsilon / (n
    V^2)] of the kurtosis of the values. *)
Theorem C94_kurtosis_any_binary64 : forall (ops : list (op b64)) (M : R),
  let l := since_clear ops in
  let n := INR (length l) in
  let u := bpow radix2 (-53) in
  l <> [] -> (Z.of_nat (length l) <= 2 ^ 26)%Z -> bpow radix2 (-200) <= M <= bpow radix2 200 ->
  Forall (fun x => b64_finite x /\ Rabs (b64_real x) <= M) l ->
  let lv := map b64_real l in
  let V := variance lv in
  0 < V -> 1024 * ((28 * n + 618) * (M * M / V)) * u <= 1 ->
  let r := ckurt_kurtosis b64num (run (ckurt_push b64num) (ckurt_clear b64num) (ckurt_init b64num) ops) in
  b64_finite r /\
  Rabs (b64_real r - kurtosis lv) <=
    (4140 * n + 96000) * (u * (M * M / V * (M * M / V))) + bpow radix2 (-52) / (n * (V * V)).
Proof. exact c94_kurtosis_any. Qed.
Print Assumptions C94_kurtosis_any_binary64.

(** C94_kurtosis_any_binary64_ex: 0, 0, 0, 8. *)
Example C94_kurtosis_any_binary64_ex :
  let l := since_clear (map Push (map b64_of_Z [0; 0; 0; 8]%Z)) in
  let n := INR (length l) in
  let u := bpow radix2 (-53) in
  let lv := map b64_real l in
  length l = 4%nat /\ bpow radix2 (-200) <= 8 <= bpow radix2 200 /\
  Forall (fun x => b64_finite x /\ Rabs (b64_real x) <= 8) l /\
  variance lv = 12 /\ 1024 * ((28 * n + 618) * (8 * 8 / 12)) * u <= 1 /\ kurtosis lv = 7 / 3 /\
  (4140 * n + 96000) * (u * (8 * 8 / 12 * (8 * 8 / 12))) + bpow radix2 (-52) / (n * (12 * 12)) <= / 10 ^ 9.
Proof. exact c94_kurtosis_any_ex. Qed.

(** C94_unbiased_skewness_binary64: for 3 to 2^26 values, unbiased_skewness() is
    finite and within [3 ((664 n + 15508) u (M / sigma)^3 + epsilon / (n V^(3/2)))]
    of the bias-corrected skewness, or of zero if that is negative. *)
Theorem C94_unbiased_skewness_binary64 : forall (ops : list (op b64)) (M : R),
  let l := since_clear ops in
  let n := INR (length l) in
  let u := bpow radix2 (-53) in
  (3 <= length l)%nat -> (Z.of_nat (length l) <= 2 ^ 26)%Z -> bpow radix2 (-200) <= M <= bpow radix2 200 ->
  Forall (fun x => b64_finite x /\ Rabs (b64_real x) <= M) l ->
  let lv := map b64_real l in
  let V := variance lv in
  0 < V -> 128 * ((28 * n + 618) * (M * M / V)) * u <= 1 ->
  let r := cskew_unbiased_skewness b64num (run (cskew_push b64num) (cskew_clear b64num) (cskew_init b64num) ops) in
  b64_finite r /\
  Rabs (b64_real r - Rmax 0 (sample_skewness lv)) <=
    3 * ((664 * n + 15508) * (u * (M / sqrt V * (M / sqrt V) * (M / sqrt V))) + bpow radix2 (-52) / (n * (V * sqrt V))).
Proof. exact c94_unbiased_skewness. Qed.
Print Assumptions C94_unbiased_skewness_binary64.

(** C94_unbiased_skewness_binary64_ex: 0, 0, 0, 8, whose bias-corrected skewness is 2. *)
Example C94_unbiased_skewness_binary64_ex :
  let l := since_clear (map Push (map b64_of_Z [0; 0; 0; 8]%Z)) in
  let n := INR (length l) in
  let u := bpow radix2 (-53) in
  let lv := map b64_real l in
  let z := 8 / sqrt 12 in
  length l = 4%nat /\ bpow radix2 (-200) <= 8 <= bpow radix2 200 /\
  Forall (fun x => b64_finite x /\ Rabs (b64_real x) <= 8) l /\
  variance lv = 12 /\ 128 * ((28 * n + 618) * (8 * 8 / 12)) * u <= 1 /\ sample_skewness lv = 2 /\
  3 * ((664 * n + 15508) * (u * (z * z * z)) + bpow radix2 (-52) / (n * (12 * sqrt 12))) <= / 10 ^ 9.
Proof. exact c94_unbiased_skewness_ex. Qed.

(** C94_unbiased_kurtosis_binary64: for 4 to 2^26 values, if the bound of
    kurtosis() is at most 1/16, unbiased_kurtosis() is finite and within eight times
    that bound plus [720 u M^2 / V] of the bias-corrected kurtosis. *)
Theorem C94_unbiased_kurtosis_binary64 : forall (ops : list (op b64)) (M : R),
  let l := since_clear ops in
  let n := INR (length l) in
  let u := bpow radix2 (-53) in
  (4 <= length l)%nat -> (Z.of_nat (length l) <= 2 ^ 26)%Z -> bpow radix2 (-200) <= M <= bpow radix2 200 ->
  Forall (fun x => b64_finite x /\ Rabs (b64_real x) <= M) l ->
  let lv := map b64_real l in
  let V := variance lv in
  0 < V -> 1024 * ((28 * n + 618) * (M * M / V)) * u <= 1 ->
  let bound := (4140 * n + 96000) * (u * (M * M / V * (M * M / V))) + bpow radix2 (-52) / (n * (V * V)) in
  bound <= / 16 ->
  let r := ckurt_unbiased_kurtosis b64num (run (ckurt_push b64num) (ckurt_clear b64num) (ckurt_init b64num) ops) in
  b64_finite r /\
  Rabs (b64_real r - sample_kurtosis lv) <= 8 * (bound + 90 * (u * (M * M / V))).
Proof. exact c94_unbiased_kurtosis. Qed.
Print Assumptions C94_unbiased_kurtosis_binary64.

(** C94_unbiased_kurtosis_binary64_ex: 0, 0, 0, 8, whose bias-corrected kurtosis is 7. *)
Example C94_unbiased_kurtosis_binary64_ex :
  let l := since_clear (map Push (map b64_of_Z [0; 0; 0; 8]%Z)) in
  let n := INR (length l) in
  let u := bpow radix2 (-53) in
  let lv := map b64_real l in
  let bound := (4140 * n + 96000) * (u * (8 * 8 / 12 * (8 * 8 / 12))) + bpow radix2 (-52) / (n * (12 * 12)) in
  length l = 4%nat /\ bpow radix2 (-200) <= 8 <= bpow radix2 200 /\
  Forall (fun x => b64_finite x /\ Rabs (b64_real x) <= 8) l /\
  variance lv = 12 /\ 1024 * ((28 * n + 618) * (8 * 8 / 12)) * u <= 1 /\ sample_kurtosis lv = 7 /\
  bound <= / 16 /\ 8 * (bound + 90 * (u * (8 * 8 / 12))) <= / 10 ^ 8.
Proof. exact c94_unbiased_kurtosis_ex. Qed.
