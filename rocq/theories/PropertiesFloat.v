(** * Property theorems: Float

    Statements only; every proof is [exact] of a lemma in ClaimsFloat.v.
    Generated by tools/mkprops.py. *)

From Coq Require Import Reals ZArith NArith List Bool.
From Coq Require Import Floats.SpecFloat.
From Flocq Require Import Core.
From Verif Require Import Arith History SpecStats Cumulative Ieee.
Import ListNotations.
Local Open Scope R_scope.
(** The kurtosis filter over float after a history. *)
Definition run_float (ops : list (op spec_float)) : ckurt (ieee 24 128) :=
  run (ckurt_push (ieee 24 128)) (ckurt_clear (ieee 24 128)) (ckurt_init (ieee 24 128)) ops.
(** A float of an integer. *)
Local Notation f32 z := (ieee_of_Z 24 128 z).
From Verif Require Import ClaimsFloat.

(** C121_kurtosis: over float, for up to 2^12 finite values of magnitude at most [M]
    (between 2^-20 and 2^20) since the last clear with variance [V > 0]: if [M^2 / V] is
    below about 2^24 / (28672 n), then kurtosis() is finite and within
    [(4140 n + 96000) u (M^2 / V)^2 + epsilon / (n V^2)] of the kurtosis of the values,
    [u = 2^-24] and [epsilon = 2^-23]. *)
Theorem C121_kurtosis : forall (ops : list (op spec_float)) (M : R),
  let l := since_clear ops in
  let n := INR (length l) in
  let u := bpow radix2 (- 24) in
  l <> [] -> (Z.of_nat (length l) <= 2 ^ 12)%Z -> bpow radix2 (-20) <= M <= bpow radix2 20 ->
  Forall (fun x => ieee_finite 24 128 x /\ Rabs (ieee_real x) <= M) l ->
  let lv := map ieee_real l in
  let V := variance lv in
  0 < V -> 1024 * ((28 * n + 618) * (M * M / V)) * u <= 1 ->
  let r := ckurt_kurtosis (ieee 24 128) (run_float ops) in
  ieee_finite 24 128 r /\
  Rabs (ieee_real r - kurtosis lv) <=
    (4140 * n + 96000) * (u * (M * M / V * (M * M / V))) + bpow radix2 (-23) / (n * (V * V)).
Proof. exact c121_kurtosis. Qed.
Print Assumptions C121_kurtosis.

(** C121_unbiased: for 4 or more values, if that bound is at most 1/16,
    unbiased_kurtosis() is finite and within eight times the bound plus [720 u M^2 / V]
    of the bias-corrected kurtosis. *)
Theorem C121_unbiased : forall (ops : list (op spec_float)) (M : R),
  let l := since_clear ops in
  let n := INR (length l) in
  let u := bpow radix2 (- 24) in
  (4 <= length l)%nat -> (Z.of_nat (length l) <= 2 ^ 12)%Z -> bpow radix2 (-20) <= M <= bpow radix2 20 ->
  Forall (fun x => ieee_finite 24 128 x /\ Rabs (ieee_real x) <= M) l ->
  let lv := map ieee_real l in
  let V := variance lv in
  0 < V -> 1024 * ((28 * n + 618) * (M * M / V)) * u <= 1 ->
  let bound := (4140 * n + 96000) * (u * (M * M / V * (M * M / V))) + bpow radix2 (-23) / (n * (V * V)) in
  bound <= / 16 ->
  let r := ckurt_unbiased_kurtosis (ieee 24 128) (run_float ops) in
  ieee_finite 24 128 r /\
  Rabs (ieee_real r - sample_kurtosis lv) <= 8 * (bound + 90 * (u * (M * M / V))).
Proof. exact c121_unbiased. Qed.
Print Assumptions C121_unbiased.

(** C121_kurtosis_ex: 0, 0, 0, 8 after another value and a clear; the kurtosis 7/3 is
    rounded to nearest. *)
Example C121_kurtosis_ex :
  let ops := Push (f32 5) :: Clear :: map Push (map (fun z => f32 z) [0; 0; 0; 8]%Z) in
  let l := since_clear ops in
  let n := INR (length l) in
  let u := bpow radix2 (- 24) in
  let lv := map ieee_real l in
  length l = 4%nat /\ bpow radix2 (-20) <= 8 <= bpow radix2 20 /\
  Forall (fun x => ieee_finite 24 128 x /\ Rabs (ieee_real x) <= 8) l /\
  variance lv = 12 /\ 1024 * ((28 * n + 618) * (8 * 8 / 12)) * u <= 1 /\ kurtosis lv = 7 / 3 /\
  ckurt_kurtosis (ieee 24 128) (run_float ops) = S754_finite false 9786709 (-22).
Proof. exact c121_kurtosis_ex. Qed.

(** C121_unbiased_ex: 1, -1, 1, -1, whose bias-corrected kurtosis is -3; the bound is
    below 1/16. *)
Example C121_unbiased_ex :
  let ops := Push (f32 5) :: Clear :: map Push (map (fun z => f32 z) [1; -1; 1; -1]%Z) in
  let l := since_clear ops in
  let n := INR (length l) in
  let u := bpow radix2 (- 24) in
  let lv := map ieee_real l in
  let bound := (4140 * n + 96000) * (u * (1 * 1 / 1 * (1 * 1 / 1))) + bpow radix2 (-23) / (n * (1 * 1)) in
  length l = 4%nat /\ bpow radix2 (-20) <= 1 <= bpow radix2 20 /\
  Forall (fun x => ieee_finite 24 128 x /\ Rabs (ieee_real x) <= 1) l /\
  variance lv = 1 /\ 1024 * ((28 * n + 618) * (1 * 1 / 1)) * u <= 1 /\ bound <= / 16 /\ sample_kurtosis lv = -3 /\
  ckurt_unbiased_kurtosis (ieee 24 128) (run_float ops) = f32 (-3).
Proof. exact c121_unbiased_ex. Qed.
