(** * Property theorems: FormatsMore

    Statements only; every proof is [exact] of a lemma in ClaimsFormatsMore.v.
    Generated by tools/mkprops.py. *)

From Coq Require Import Reals ZArith NArith List Bool.
From Coq Require Import Floats.SpecFloat.
From Flocq Require Import Core.
From Verif Require Import Arith History SpecStats SpecImpulse SpecError Cumulative Window Impulse ImpulseRuns ExactRuns Binary64 Ieee.
Import ListNotations.
Local Open Scope R_scope.
(** A float of an integer. *)
Local Notation f32 z := (ieee_of_Z 24 128 z).
(** The numbers of a pair. *)
Definition ieee_pair (p : spec_float * spec_float) : R * R := (ieee_real (fst p), ieee_real (snd p)).
(** A pair of finite numbers of magnitude at most [Mx] and [My]. *)
Definition ieee_within (prec emax : Z) (Mx My : R) (p : spec_float * spec_float) : Prop :=
  (ieee_finite prec emax (fst p) /\ Rabs (ieee_real (fst p)) <= Mx) /\
  (ieee_finite prec emax (snd p) /\ Rabs (ieee_real (snd p)) <= My).
From Verif Require Import ClaimsFormatsMore.

(** C110_trend: the trend, within 13 times the bound for the mean (C99). *)
Theorem C110_trend : forall (prec emax : Z) (ops : list (op spec_float)) (M : R),
  (1 < prec < emax)%Z ->
  let l := since_clear ops in
  let n := INR (length l) in
  let u := bpow radix2 (- prec) in
  let eta := bpow radix2 (2 - emax - prec) in
  let big := bpow radix2 (emax - 1) in
  l <> [] -> (N.of_nat (length l) < szmod)%N ->
  16 * n * u <= 1 -> 48 * M + 284 * n * eta <= big ->
  Forall (fun x => ieee_finite prec emax x /\ Rabs (ieee_real x) <= M) l ->
  let F := ieee prec emax in
  let v := ctrend_value F (run (ctrend_push F) (ctrend_clear F) (ctrend_init F) ops) in
  ieee_finite prec emax v /\
  Rabs (ieee_real v - (3 * mean (map ieee_real l) - 2 * mean (running_means (map ieee_real l)))) <=
    13 * ((n + 25) * u * M + (3 * n + 11) * eta).
Proof. exact c110_trend. Qed.
Print Assumptions C110_trend.

(** C110_trend_ex: four floats. *)
Example C110_trend_ex :
  let l := since_clear [Push (f32 9); Clear; Push (f32 1000); Push (f32 (-7)); Push (f32 3); Push (f32 5)] in
  l = [f32 1000; f32 (-7); f32 3; f32 5] /\ 16 * 4 * bpow radix2 (- 24) <= 1 /\
  48 * 1000 + 284 * 4 * bpow radix2 (2 - 128 - 24) <= bpow radix2 (128 - 1) /\
  Forall (fun x => ieee_finite 24 128 x /\ Rabs (ieee_real x) <= 1000) l.
Proof. exact c110_trend_ex. Qed.

(** C110_iir: the infinite impulse response filter whose feedback coefficients
    sum to less than the scale in magnitude, with the bound of C69. *)
Theorem C110_iir : forall (prec emax : Z) (b a : list spec_float) (scale : spec_float) (ops : list (op spec_float)) (M : R) (y : list R),
  (1 < prec < emax)%Z ->
  let l := since_clear ops in
  let bv := map ieee_real b in
  let av := map ieee_real a in
  let s := Rabs (ieee_real scale) in
  let u := bpow radix2 (- prec) in
  let eta := bpow radix2 (2 - emax - prec) in
  let big := bpow radix2 (emax - 1) in
  b <> [] -> a <> [] -> l <> [] ->
  Forall (ieee_finite prec emax) b -> Forall (ieee_finite prec emax) a -> ieee_finite prec emax scale ->
  Forall (fun x => ieee_finite prec emax x /\ Rabs (ieee_real x) <= M) l ->
  abs_sum av < s ->
  difference_equation bv av (ieee_real scale) (map ieee_real l) y ->
  let r := INR (length b + length a) in
  let rho := abs_sum av / s in
  let Y := abs_sum bv * M / (s - abs_sum av) in
  let E := 2 * ((8 * r + 19) * u * Y + (24 * r + 2) * eta / s + eta) / (1 - rho) in
  2 * (8 * r + 19) * u <= 1 - rho ->
  4 * (s * (Y + E)) + (12 * r + 2) * eta <= big ->
  4 * (Y + E) + (12 * r + 2) * eta / s <= big ->
  let F := ieee prec emax in
  let v := iir_value F (iir_run F b a scale ops) in
  ieee_finite prec emax v /\ Rabs (ieee_real v - last y 0) <= E.
Proof. exact c110_iir. Qed.
Print Assumptions C110_iir.

(** C110_iir_ex: feedback one half in float; the error bound is below 10^-3. *)
Example C110_iir_ex :
  let half := @ndiv (ieee 24 128) (f32 1) (f32 2) in
  let ops := [Push (f32 99); Clear; Push (f32 1); Push (f32 (-10)); Push (f32 3)] in
  let y := [1; -21 / 2; 33 / 4] in
  let u := bpow radix2 (-24) in
  let eta := bpow radix2 (2 - 128 - 24) in
  ieee_finite 24 128 half /\ ieee_finite 24 128 (f32 1) /\
  Forall (fun x => ieee_finite 24 128 x /\ Rabs (ieee_real x) <= 10) (since_clear ops) /\
  abs_sum (map ieee_real [half]) = / 2 /\ abs_sum (map ieee_real [f32 1]) = 1 /\ Rabs (ieee_real (f32 1)) = 1 /\
  difference_equation (map ieee_real [f32 1]) (map ieee_real [half]) (ieee_real (f32 1))
    (map ieee_real (since_clear ops)) y /\
  let r := INR 2 in
  let Y := 1 * 10 / (1 - / 2) in
  let E := 2 * ((8 * r + 19) * u * Y + (24 * r + 2) * eta / 1 + eta) / (1 - / 2 / 1) in
  2 * (8 * r + 19) * u <= 1 - / 2 / 1 /\
  4 * (1 * (Y + E)) + (12 * r + 2) * eta <= bpow radix2 (128 - 1) /\ E < 1 / 1000.
Proof. exact c110_iir_ex. Qed.

(** C110_window_covariance: the window covariance over [k] pairs, after [n]
    pushes within [n (64 u Mx My + 10 (Mx + My) eta + 26 eta)] (C96). *)
Theorem C110_window_covariance : forall (prec emax : Z) (W : nat) (ops : list (op (spec_float * spec_float))) (Mx My : R),
  (1 < prec < emax)%Z ->
  let l := since_clear ops in
  let n := INR (length l) in
  let k := INR (length (lastn W l)) in
  let u := bpow radix2 (- prec) in
  let eta := bpow radix2 (2 - emax - prec) in
  let big := bpow radix2 (emax - 1) in
  (0 < W)%nat -> (Z.of_nat W <= 2 ^ prec)%Z -> l <> [] ->
  64 * n * u <= 1 -> 64 * n * eta <= Mx -> 64 * n * eta <= My ->
  16 * k * Mx <= big -> 16 * k * My <= big -> 16 * (k * k) * (Mx * My) <= big -> 16 * k * (Mx * My) + 32 * n * eta <= big ->
  Forall (ieee_within prec emax Mx My) l ->
  let F := ieee prec emax in
  let v := wcov_variance F (run (wcov_push F W) (wcov_clear F) (wcov_init F) ops) in
  ieee_finite prec emax v /\
  Rabs (ieee_real v - covariance (lastn W (map ieee_pair l))) <= n * (64 * u * (Mx * My) + 10 * (Mx + My) * eta + 26 * eta).
Proof. exact c110_window_covariance. Qed.
Print Assumptions C110_window_covariance.

(** C110_window_covariance_ex: a window of two pairs of floats. *)
Example C110_window_covariance_ex :
  let l := since_clear [Push (f32 9, f32 9); Clear; Push (f32 1000, f32 (-7)); Push (f32 2, f32 8); Push (f32 (-5), f32 1)] in
  lastn 2 l = [(f32 2, f32 8); (f32 (-5), f32 1)] /\ length l = 3%nat /\ 64 * 3 * bpow radix2 (- 24) <= 1 /\
  64 * 3 * bpow radix2 (2 - 128 - 24) <= 8 /\ 16 * 2 * 1000 <= bpow radix2 (128 - 1) /\ 16 * (2 * 2) * (1000 * 8) <= bpow radix2 (128 - 1) /\
  16 * 2 * (1000 * 8) + 32 * 3 * bpow radix2 (2 - 128 - 24) <= bpow radix2 (128 - 1) /\
  Forall (ieee_within 24 128 1000 8) l.
Proof. exact c110_window_covariance_ex. Qed.

(** C110_slope: slope() of the cumulative regression filter, with the bound of
    C92, if the variance of x is at least twice the bound for its error. *)
Theorem C110_slope : forall (prec emax : Z) (ops : list (op (spec_float * spec_float))) (Mx My : R),
  (1 < prec < emax)%Z ->
  let l := since_clear ops in
  let n := INR (length l) in
  let u := bpow radix2 (- prec) in
  let eta := bpow radix2 (2 - emax - prec) in
  let big := bpow radix2 (emax - 1) in
  l <> [] -> (N.of_nat (length l) < szmod)%N ->
  64 * n * u <= 1 -> 32 * n * eta <= Mx -> 32 * n * eta <= My ->
  16 * Mx + 60 * n * eta <= big -> 16 * My + 60 * n * eta <= big ->
  64 * n * (Mx * Mx) + 16 * n * eta <= big -> 64 * n * (Mx * My) + 16 * n * eta <= big ->
  Forall (ieee_within prec emax Mx My) l ->
  let lv := map ieee_pair l in
  let V := variance (xs lv) in
  let S := covariance lv / V in
  let Ev := 5 * ((14 * n + 308) * u * (Mx * Mx) + (3 * n + 13) * (10 * Mx) * eta + 3 * eta) in
  let Ec := 5 * ((14 * n + 308) * u * (Mx * My) + (3 * n + 13) * (4 * Mx + 6 * My) * eta + 3 * eta) in
  let Es := 2 * (Ec + Rabs S * Ev) / V in
  2 * Ev <= V -> Rabs S + Es <= big ->
  let F := ieee prec emax in
  let slope := creg_slope F (run (creg_push F) (creg_clear F) (creg_init F) ops) in
  ieee_finite prec emax slope /\ Rabs (ieee_real slope - S) <= slack u eta S Es.
Proof. exact c110_slope. Qed.
Print Assumptions C110_slope.

(** C110_at: at(p) likewise, with the bound of C92. *)
Theorem C110_at : forall (prec emax : Z) (ops : list (op (spec_float * spec_float))) (Mx My : R) (p : spec_float),
  (1 < prec < emax)%Z ->
  let l := since_clear ops in
  let n := INR (length l) in
  let u := bpow radix2 (- prec) in
  let eta := bpow radix2 (2 - emax - prec) in
  let big := bpow radix2 (emax - 1) in
  l <> [] -> (N.of_nat (length l) < szmod)%N -> ieee_finite prec emax p ->
  64 * n * u <= 1 -> 32 * n * eta <= Mx -> 32 * n * eta <= My ->
  16 * Mx + 60 * n * eta <= big -> 16 * My + 60 * n * eta <= big ->
  64 * n * (Mx * Mx) + 16 * n * eta <= big -> 64 * n * (Mx * My) + 16 * n * eta <= big ->
  Forall (ieee_within prec emax Mx My) l ->
  let lv := map ieee_pair l in
  let V := variance (xs lv) in
  let S := covariance lv / V in
  let D := mean (xs lv) - ieee_real p in
  let Ev := 5 * ((14 * n + 308) * u * (Mx * Mx) + (3 * n + 13) * (10 * Mx) * eta + 3 * eta) in
  let Ec := 5 * ((14 * n + 308) * u * (Mx * My) + (3 * n + 13) * (4 * Mx + 6 * My) * eta + 3 * eta) in
  let Es := 2 * (Ec + Rabs S * Ev) / V in
  let Eb := slack u eta S Es in
  let Ex := (n + 25) * u * Mx + (3 * n + 11) * eta in
  let Ey := (n + 25) * u * My + (3 * n + 11) * eta in
  let Ed := slack u eta D Ex in
  let Em := Rabs S * Ed + Rabs D * Eb + Eb * Ed in
  let Ea := Ey + slack u eta (S * D) Em in
  2 * Ev <= V -> Rabs S + Es <= big -> Rabs D + Ex <= big ->
  Rabs (S * D) + Em <= big -> Rabs (mean (ys lv) - S * D) + Ea <= big ->
  let F := ieee prec emax in
  let at_p := creg_at F (run (creg_push F) (creg_clear F) (creg_init F) ops) p in
  ieee_finite prec emax at_p /\
  Rabs (ieee_real at_p - (mean (ys lv) + S * (ieee_real p - mean (xs lv)))) <= slack u eta (mean (ys lv) - S * D) Ea.
Proof. exact c110_at. Qed.
Print Assumptions C110_at.

(** C110_slope_ex: four points of floats with slope one half; the bound is below
    one in a hundred. *)
Example C110_slope_ex :
  let l := since_clear [Push (f32 99, f32 99); Clear; Push (f32 0, f32 0); Push (f32 4, f32 8); Push (f32 8, f32 4); Push (f32 4, f32 4)] in
  let n := INR 4 in
  let u := bpow radix2 (-24) in
  let eta := bpow radix2 (2 - 128 - 24) in
  let big := bpow radix2 (128 - 1) in
  let lv := map ieee_pair l in
  length l = 4%nat /\ 64 * n * u <= 1 /\ 32 * n * eta <= 8 /\ 16 * 8 + 60 * n * eta <= big /\ 64 * n * (8 * 8) + 16 * n * eta <= big /\
  Forall (ieee_within 24 128 8 8) l /\
  variance (xs lv) = 8 /\ covariance lv = 4 /\
  let S := 4 / 8 in
  let Ev := 5 * ((14 * n + 308) * u * (8 * 8) + (3 * n + 13) * (10 * 8) * eta + 3 * eta) in
  let Ec := 5 * ((14 * n + 308) * u * (8 * 8) + (3 * n + 13) * (4 * 8 + 6 * 8) * eta + 3 * eta) in
  let Es := 2 * (Ec + Rabs S * Ev) / 8 in
  2 * Ev <= 8 /\ Rabs S + Es <= big /\ slack u eta S Es <= / 100.
Proof. exact c110_slope_ex. Qed.

(** C110_at_ex: the same floats at position 12, where the line has the value 8. *)
Example C110_at_ex :
  let l := since_clear [Push (f32 0, f32 0); Push (f32 4, f32 8); Push (f32 8, f32 4); Push (f32 4, f32 4)] in
  let n := INR 4 in
  let u := bpow radix2 (-24) in
  let eta := bpow radix2 (2 - 128 - 24) in
  let big := bpow radix2 (128 - 1) in
  let lv := map ieee_pair l in
  length l = 4%nat /\ ieee_finite 24 128 (f32 12) /\ ieee_real (f32 12) = 12 /\ Forall (ieee_within 24 128 8 8) l /\
  variance (xs lv) = 8 /\ covariance lv = 4 /\ mean (xs lv) = 4 /\ mean (ys lv) = 4 /\
  let S := 4 / 8 in
  let D := 4 - 12 in
  let Ev := 5 * ((14 * n + 308) * u * (8 * 8) + (3 * n + 13) * (10 * 8) * eta + 3 * eta) in
  let Ec := 5 * ((14 * n + 308) * u * (8 * 8) + (3 * n + 13) * (4 * 8 + 6 * 8) * eta + 3 * eta) in
  let Es := 2 * (Ec + Rabs S * Ev) / 8 in
  let Eb := slack u eta S Es in
  let Ex := (n + 25) * u * 8 + (3 * n + 11) * eta in
  let Ed := slack u eta D Ex in
  let Em := Rabs S * Ed + Rabs D * Eb + Eb * Ed in
  let Ea := Ex + slack u eta (S * D) Em in
  2 * Ev <= 8 /\ Rabs S + Es <= big /\ Rabs D + Ex <= big /\
  Rabs (S * D) + Em <= big /\ Rabs (4 - S * D) + Ea <= big /\
  slack u eta (4 - S * D) Ea <= / 10.
Proof. exact c110_at_ex. Qed.
