(** * Property theorems: ContractedRegression

    Statements only; every proof is [exact] of a lemma in ClaimsContractedRegression.v.
    Generated by tools/mkprops.py. *)

From Coq Require Import Reals ZArith NArith List Bool.
From Coq Require Import Floats.SpecFloat.
From Flocq Require Import Core.
From Verif Require Import Arith History SpecStats SpecError Cumulative Ieee Contracted IeeeFused ContractedRegression.
Import ListNotations.
Local Open Scope R_scope.
(** A float of an integer. *)
Local Notation f32 z := (ieee_of_Z 24 128 z).
From Verif Require Import ClaimsContractedRegression.

(** C123_ieee_slope: with fused multiply-adds in an IEEE format, slope() of the cumulative
    regression filter keeps the bound of C110. *)
Theorem C123_ieee_slope : forall (prec emax : Z) (ops : list (op (spec_float * spec_float))) (Mx My : R),
  (1 < prec < emax)%Z ->
  let l := since_clear ops in
  let n := INR (length l) in
  let u := bpow radix2 (- prec) in
  let eta := bpow radix2 (2 - emax - prec) in
  let big := bpow radix2 (emax - 1) in
  l <> [] -> (N.of_nat (length l) < szmod)%N ->
  64 * n * u <= 1 -> 32 * n * eta <= Mx -> 32 * n * eta <= My ->
  16 * Mx + 60 * n * eta <= big -> 16 * My + 60 * n * eta <= big ->
  64 * n * (Mx * Mx) + 16 * n * eta <= big -> 64 * n * (Mx * My) + 16 * n * eta <= big ->
  Forall (fun p => (ieee_finite prec emax (fst p) /\ Rabs (ieee_real (fst p)) <= Mx) /\
                   (ieee_finite prec emax (snd p) /\ Rabs (ieee_real (snd p)) <= My)) l ->
  let lv := map (fun p => (ieee_real (fst p), ieee_real (snd p))) l in
  let V := variance (xs lv) in
  let S := covariance lv / V in
  let Ev := 5 * ((14 * n + 308) * u * (Mx * Mx) + (3 * n + 13) * (10 * Mx) * eta + 3 * eta) in
  let Ec := 5 * ((14 * n + 308) * u * (Mx * My) + (3 * n + 13) * (4 * Mx + 6 * My) * eta + 3 * eta) in
  let Es := 2 * (Ec + Rabs S * Ev) / V in
  2 * Ev <= V -> Rabs S + Es <= big ->
  let F := ieee prec emax in
  let slope := creg_slope F (run (creg_push_fma F (ieee_fused prec emax)) (creg_clear F) (creg_init F) ops) in
  ieee_finite prec emax slope /\ Rabs (ieee_real slope - S) <= slack u eta S Es.
Proof. exact c123_ieee_slope. Qed.
Print Assumptions C123_ieee_slope.

(** C123_ieee_slope_ex: four points over float; the error is at most 1/100. *)
Example C123_ieee_slope_ex :
  let l := since_clear [Push (f32 99, f32 99); Clear; Push (f32 0, f32 0); Push (f32 4, f32 8); Push (f32 8, f32 4); Push (f32 4, f32 4)] in
  let n := INR 4 in
  let u := bpow radix2 (-24) in
  let eta := bpow radix2 (2 - 128 - 24) in
  let big := bpow radix2 (128 - 1) in
  let lv := map (fun p => (ieee_real (fst p), ieee_real (snd p))) l in
  length l = 4%nat /\ 64 * n * u <= 1 /\ 32 * n * eta <= 8 /\ 16 * 8 + 60 * n * eta <= big /\ 64 * n * (8 * 8) + 16 * n * eta <= big /\
  Forall (fun p => (ieee_finite 24 128 (fst p) /\ Rabs (ieee_real (fst p)) <= 8) /\
                   (ieee_finite 24 128 (snd p) /\ Rabs (ieee_real (snd p)) <= 8)) l /\
  variance (xs lv) = 8 /\ covariance lv = 4 /\
  let S := 4 / 8 in
  let Ev := 5 * ((14 * n + 308) * u * (8 * 8) + (3 * n + 13) * (10 * 8) * eta + 3 * eta) in
  let Ec := 5 * ((14 * n + 308) * u * (8 * 8) + (3 * n + 13) * (4 * 8 + 6 * 8) * eta + 3 * eta) in
  let Es := 2 * (Ec + Rabs S * Ev) / 8 in
  2 * Ev <= 8 /\ Rabs S + Es <= big /\ slack u eta S Es <= / 100.
Proof. exact c123_ieee_slope_ex. Qed.

(** C123_ieee_at: at(p) likewise, with slope and distance multiplied in a fused operation. *)
Theorem C123_ieee_at : forall (prec emax : Z) (ops : list (op (spec_float * spec_float))) (Mx My : R) (p : spec_float),
  (1 < prec < emax)%Z ->
  let l := since_clear ops in
  let n := INR (length l) in
  let u := bpow radix2 (- prec) in
  let eta := bpow radix2 (2 - emax - prec) in
  let big := bpow radix2 (emax - 1) in
  l <> [] -> (N.of_nat (length l) < szmod)%N -> ieee_finite prec emax p ->
  64 * n * u <= 1 -> 32 * n * eta <= Mx -> 32 * n * eta <= My ->
  16 * Mx + 60 * n * eta <= big -> 16 * My + 60 * n * eta <= big ->
  64 * n * (Mx * Mx) + 16 * n * eta <= big -> 64 * n * (Mx * My) + 16 * n * eta <= big ->
  Forall (fun p => (ieee_finite prec emax (fst p) /\ Rabs (ieee_real (fst p)) <= Mx) /\
                   (ieee_finite prec emax (snd p) /\ Rabs (ieee_real (snd p)) <= My)) l ->
  let lv := map (fun p => (ieee_real (fst p), ieee_real (snd p))) l in
  let V := variance (xs lv) in
  let S := covariance lv / V in
  let D := mean (xs lv) - ieee_real p in
  let Ev := 5 * ((14 * n + 308) * u * (Mx * Mx) + (3 * n + 13) * (10 * Mx) * eta + 3 * eta) in
  let Ec := 5 * ((14 * n + 308) * u * (Mx * My) + (3 * n + 13) * (4 * Mx + 6 * My) * eta + 3 * eta) in
  let Es := 2 * (Ec + Rabs S * Ev) / V in
  let Eb := slack u eta S Es in
  let Ex := (n + 25) * u * Mx + (3 * n + 11) * eta in
  let Ey := (n + 25) * u * My + (3 * n + 11) * eta in
  let Ed := slack u eta D Ex in
  let Em := Rabs S * Ed + Rabs D * Eb + Eb * Ed in
  let Ea := Ey + slack u eta (S * D) Em in
  2 * Ev <= V -> Rabs S + Es <= big -> Rabs D + Ex <= big ->
  Rabs (S * D) + Em <= big -> Rabs (mean (ys lv) - S * D) + Ea <= big ->
  let F := ieee prec emax in
  let at_p := creg_at_fma F (ieee_fused prec emax) (run (creg_push_fma F (ieee_fused prec emax)) (creg_clear F) (creg_init F) ops) p in
  ieee_finite prec emax at_p /\
  Rabs (ieee_real at_p - (mean (ys lv) + S * (ieee_real p - mean (xs lv)))) <= slack u eta (mean (ys lv) - S * D) Ea.
Proof. exact c123_ieee_at. Qed.
Print Assumptions C123_ieee_at.

(** C123_ieee_at_ex: the same floats at position 12, where the line has the value 8. *)
Example C123_ieee_at_ex :
  let l := since_clear [Push (f32 0, f32 0); Push (f32 4, f32 8); Push (f32 8, f32 4); Push (f32 4, f32 4)] in
  let n := INR 4 in
  let u := bpow radix2 (-24) in
  let eta := bpow radix2 (2 - 128 - 24) in
  let big := bpow radix2 (128 - 1) in
  let lv := map (fun p => (ieee_real (fst p), ieee_real (snd p))) l in
  length l = 4%nat /\ ieee_finite 24 128 (f32 12) /\ ieee_real (f32 12) = 12 /\ Forall (fun p => (ieee_finite 24 128 (fst p) /\ Rabs (ieee_real (fst p)) <= 8) /\
                   (ieee_finite 24 128 (snd p) /\ Rabs (ieee_real (snd p)) <= 8)) l /\
  variance (xs lv) = 8 /\ covariance lv = 4 /\ mean (xs lv) = 4 /\ mean (ys lv) = 4 /\
  let S := 4 / 8 in
  let D := 4 - 12 in
  let Ev := 5 * ((14 * n + 308) * u * (8 * 8) + (3 * n + 13) * (10 * 8) * eta + 3 * eta) in
  let Ec := 5 * ((14 * n + 308) * u * (8 * 8) + (3 * n + 13) * (4 * 8 + 6 * 8) * eta + 3 * eta) in
  let Es := 2 * (Ec + Rabs S * Ev) / 8 in
  let Eb := slack u eta S Es in
  let Ex := (n + 25) * u * 8 + (3 * n + 11) * eta in
  let Ed := slack u eta D Ex in
  let Em := Rabs S * Ed + Rabs D * Eb + Eb * Ed in
  let Ea := Ex + slack u eta (S * D) Em in
  2 * Ev <= 8 /\ Rabs S + Es <= big /\ Rabs D + Ex <= big /\
  Rabs (S * D) + Em <= big /\ Rabs (4 - S * D) + Ea <= big /\
  slack u eta (4 - S * D) Ea <= / 10.
Proof. exact c123_ieee_at_ex. Qed.

(** C123_ieee_correlation: with fused multiply-adds in an IEEE format, value() of the
    correlation filter keeps the bound of C110. *)
Theorem C123_ieee_correlation : forall (prec emax : Z) (ops : list (op (spec_float * spec_float))) (Mx My : R),
  (1 < prec < emax)%Z ->
  let l := since_clear ops in
  let n := INR (length l) in
  let u := bpow radix2 (- prec) in
  let eta := bpow radix2 (2 - emax - prec) in
  let big := bpow radix2 (emax - 1) in
  l <> [] -> (N.of_nat (length l) < szmod)%N ->
  64 * n * u <= 1 -> 32 * n * eta <= Mx -> 32 * n * eta <= My ->
  16 * Mx + 60 * n * eta <= big -> 16 * My + 60 * n * eta <= big ->
  64 * n * (Mx * Mx) + 16 * n * eta <= big -> 64 * n * (My * My) + 16 * n * eta <= big -> 64 * n * (Mx * My) + 16 * n * eta <= big ->
  Forall (fun p => (ieee_finite prec emax (fst p) /\ Rabs (ieee_real (fst p)) <= Mx) /\
                   (ieee_finite prec emax (snd p) /\ Rabs (ieee_real (snd p)) <= My)) l ->
  let lv := map (fun p => (ieee_real (fst p), ieee_real (snd p))) l in
  let X := variance (xs lv) in
  let Y := variance (ys lv) in
  let r := pearson lv in
  let Ex := 5 * ((14 * n + 308) * u * (Mx * Mx) + (3 * n + 13) * (10 * Mx) * eta + 3 * eta) in
  let Ey := 5 * ((14 * n + 308) * u * (My * My) + (3 * n + 13) * (10 * My) * eta + 3 * eta) in
  let Ec := 5 * ((14 * n + 308) * u * (Mx * My) + (3 * n + 13) * (4 * Mx + 6 * My) * eta + 3 * eta) in
  let Ep := slack u eta (X * Y) (X * Ey + Y * Ex + Ex * Ey) in
  let Ed := slack u eta (sqrt (X * Y)) (Ep / sqrt (X * Y)) in
  let Er := 2 * (Ec + Rabs r * Ed) / sqrt (X * Y) in
  X * Y + (X * Ey + Y * Ex + Ex * Ey) <= big ->
  bpow radix2 (1 - prec) + Ep <= X * Y -> 2 * Ed <= sqrt (X * Y) -> Er <= 1 ->
  let F := ieee prec emax in
  let value := ccorr_value F (run (ccorr_push_fma F (ieee_fused prec emax)) (ccorr_clear F) (ccorr_init F) ops) in
  ieee_finite prec emax value /\ Rabs (ieee_real value - r) <= slack u eta r Er /\
  Rabs (ieee_real value) <= 1 + (Er + u * (1 + Er) + eta).
Proof. exact c123_ieee_correlation. Qed.
Print Assumptions C123_ieee_correlation.

(** C123_ieee_correlation_ex: the points (0,0), (4,8), (8,4), (4,4) over float, correlation 1/2. *)
Example C123_ieee_correlation_ex :
  let l := since_clear [Push (f32 0, f32 0); Push (f32 4, f32 8); Push (f32 8, f32 4); Push (f32 4, f32 4)] in
  let n := INR 4 in
  let u := bpow radix2 (-24) in
  let eta := bpow radix2 (2 - 128 - 24) in
  let big := bpow radix2 (128 - 1) in
  let lv := map (fun p => (ieee_real (fst p), ieee_real (snd p))) l in
  length l = 4%nat /\ Forall (fun p => (ieee_finite 24 128 (fst p) /\ Rabs (ieee_real (fst p)) <= 8) /\
                   (ieee_finite 24 128 (snd p) /\ Rabs (ieee_real (snd p)) <= 8)) l /\
  variance (xs lv) = 8 /\ variance (ys lv) = 8 /\ pearson lv = 1 / 2 /\ sqrt (8 * 8) = 8 /\
  (64 * n * u <= 1 /\ 32 * n * eta <= 8 /\ 16 * 8 + 60 * n * eta <= big /\ 64 * n * (8 * 8) + 16 * n * eta <= big) /\
  let r := 1 / 2 in
  let Ex := 5 * ((14 * n + 308) * u * (8 * 8) + (3 * n + 13) * (10 * 8) * eta + 3 * eta) in
  let Ec := 5 * ((14 * n + 308) * u * (8 * 8) + (3 * n + 13) * (4 * 8 + 6 * 8) * eta + 3 * eta) in
  let Ep := slack u eta (8 * 8) (8 * Ex + 8 * Ex + Ex * Ex) in
  let Ed := slack u eta 8 (Ep / 8) in
  let Er := 2 * (Ec + Rabs r * Ed) / 8 in
  8 * 8 + (8 * Ex + 8 * Ex + Ex * Ex) <= big /\
  bpow radix2 (1 - 24) + Ep <= 8 * 8 /\ 2 * Ed <= 8 /\ Er <= / 20.
Proof. exact c123_ieee_correlation_ex. Qed.
