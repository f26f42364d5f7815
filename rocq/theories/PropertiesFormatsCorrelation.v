(** * Property theorems: FormatsCorrelation

    Statements only; every proof is [exact] of a lemma in ClaimsFormatsCorrelation.v.
    Generated by tools/mkprops.py. *)

From Coq Require Import Reals ZArith NArith List Bool.
From Coq Require Import Floats.SpecFloat.
From Flocq Require Import Core.
From Verif Require Import Arith History SpecStats SpecError Cumulative ExactRuns Ieee ClaimsFormatsMore.
Import ListNotations.
Local Open Scope R_scope.
(** A float of an integer. *)
Local Notation f32 z := (ieee_of_Z 24 128 z).
From Verif Require Import ClaimsFormatsCorrelation.

(** C110_correlation: value() of the correlation filter, with the bound of C93, if
    the product of the variances exceeds epsilon of the value type by the bound [Ep] for
    its error, its square root is at least twice the bound [Ed], and [Er] is at most 1. *)
Theorem C110_correlation : forall (prec emax : Z) (ops : list (op (spec_float * spec_float))) (Mx My : R),
  (1 < prec < emax)%Z ->
  let l := since_clear ops in
  let n := INR (length l) in
  let u := bpow radix2 (- prec) in
  let eta := bpow radix2 (2 - emax - prec) in
  let big := bpow radix2 (emax - 1) in
  l <> [] -> (N.of_nat (length l) < szmod)%N ->
  64 * n * u <= 1 -> 32 * n * eta <= Mx -> 32 * n * eta <= My ->
  16 * Mx + 60 * n * eta <= big -> 16 * My + 60 * n * eta <= big ->
  64 * n * (Mx * Mx) + 16 * n * eta <= big -> 64 * n * (My * My) + 16 * n * eta <= big -> 64 * n * (Mx * My) + 16 * n * eta <= big ->
  Forall (ieee_within prec emax Mx My) l ->
  let lv := map ieee_pair l in
  let X := variance (xs lv) in
  let Y := variance (ys lv) in
  let r := pearson lv in
  let Ex := 5 * ((14 * n + 308) * u * (Mx * Mx) + (3 * n + 13) * (10 * Mx) * eta + 3 * eta) in
  let Ey := 5 * ((14 * n + 308) * u * (My * My) + (3 * n + 13) * (10 * My) * eta + 3 * eta) in
  let Ec := 5 * ((14 * n + 308) * u * (Mx * My) + (3 * n + 13) * (4 * Mx + 6 * My) * eta + 3 * eta) in
  let Ep := slack u eta (X * Y) (X * Ey + Y * Ex + Ex * Ey) in
  let Ed := slack u eta (sqrt (X * Y)) (Ep / sqrt (X * Y)) in
  let Er := 2 * (Ec + Rabs r * Ed) / sqrt (X * Y) in
  X * Y + (X * Ey + Y * Ex + Ex * Ey) <= big ->
  bpow radix2 (1 - prec) + Ep <= X * Y -> 2 * Ed <= sqrt (X * Y) -> Er <= 1 ->
  let F := ieee prec emax in
  let value := ccorr_value F (run (ccorr_push F) (ccorr_clear F) (ccorr_init F) ops) in
  ieee_finite prec emax value /\ Rabs (ieee_real value - r) <= slack u eta r Er /\
  Rabs (ieee_real value) <= 1 + (Er + u * (1 + Er) + eta).
Proof. exact c110_correlation. Qed.
Print Assumptions C110_correlation.

(** C110_correlation_ex: the points (0,0), (4,8), (8,4), (4,4) over float, correlation 1/2. *)
Example C110_correlation_ex :
  let l := since_clear [Push (f32 0, f32 0); Push (f32 4, f32 8); Push (f32 8, f32 4); Push (f32 4, f32 4)] in
  let n := INR 4 in
  let u := bpow radix2 (-24) in
  let eta := bpow radix2 (2 - 128 - 24) in
  let big := bpow radix2 (128 - 1) in
  let lv := map ieee_pair l in
  length l = 4%nat /\ Forall (ieee_within 24 128 8 8) l /\
  variance (xs lv) = 8 /\ variance (ys lv) = 8 /\ pearson lv = 1 / 2 /\ sqrt (8 * 8) = 8 /\
  (64 * n * u <= 1 /\ 32 * n * eta <= 8 /\ 16 * 8 + 60 * n * eta <= big /\ 64 * n * (8 * 8) + 16 * n * eta <= big) /\
  let r := 1 / 2 in
  let Ex := 5 * ((14 * n + 308) * u * (8 * 8) + (3 * n + 13) * (10 * 8) * eta + 3 * eta) in
  let Ec := 5 * ((14 * n + 308) * u * (8 * 8) + (3 * n + 13) * (4 * 8 + 6 * 8) * eta + 3 * eta) in
  let Ep := slack u eta (8 * 8) (8 * Ex + 8 * Ex + Ex * Ex) in
  let Ed := slack u eta 8 (Ep / 8) in
  let Er := 2 * (Ec + Rabs r * Ed) / 8 in
  8 * 8 + (8 * Ex + 8 * Ex + Ex * Ex) <= big /\
  bpow radix2 (1 - 24) + Ep <= 8 * 8 /\ 2 * Ed <= 8 /\ Er <= / 20.
Proof. exact c110_correlation_ex. Qed.
