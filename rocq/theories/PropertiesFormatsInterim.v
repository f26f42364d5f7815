(** * Property theorems: FormatsInterim

    Statements only; every proof is [exact] of a lemma in ClaimsFormatsInterim.v.
    Generated by tools/mkprops.py. *)

From Coq Require Import Reals ZArith NArith List Bool.
From Coq Require Import Floats.SpecFloat.
From Flocq Require Import Core.
From Verif Require Import Arith History SpecStats SpecBlocks Cumulative Window Interim Decay Psquare ExactRuns Ieee.
Import ListNotations.
Local Open Scope R_scope.
(** A float of an integer. *)
Local Notation f32 z := (ieee_of_Z 24 128 z).
From Verif Require Import ClaimsFormatsInterim.

(** C110_interim_mean: the interim mean with window W, if the last 2W values since the
    last clear are finite and at most [M] in magnitude: within
    [(W + 46) u M + (3 W + 29) eta] of the weighted mean of the two blocks (of the mean
    while at most W values were pushed), for every number of pushes (C88). *)
Theorem C110_interim_mean : forall (prec emax : Z) (W : nat) (ops : list (op spec_float)) (M : R),
  (1 < prec < emax)%Z ->
  let l := since_clear ops in
  let u := bpow radix2 (- prec) in
  let eta := bpow radix2 (2 - emax - prec) in
  let big := bpow radix2 (emax - 1) in
  l <> [] -> (0 < W)%nat -> (2 * N.of_nat W < szmod)%N -> 16 * INR W * u <= 1 ->
  16 * M + 60 * INR W * eta <= big -> 24 * INR W * M + 112 * (INR W * INR W * eta) + 5 * eta <= big ->
  Forall (fun x => ieee_finite prec emax x /\ Rabs (ieee_real x) <= M) (lastn (2 * W) l) ->
  let F := ieee prec emax in
  let w := N.of_nat W in
  let m := imean_mean F w (run (imean_push F w) (imean_clear F) (imean_init F) ops) in
  let p := mean (map ieee_real (prev_block W l)) in
  let a := mean (map ieee_real (cur_block W l)) in
  let s := card (cur_block W l) in
  let bound := (INR W + 46) * u * M + (3 * INR W + 29) * eta in
  ieee_finite prec emax m /\
  ((length l <= W)%nat -> Rabs (ieee_real m - mean (map ieee_real l)) <= bound) /\
  ((W < length l)%nat -> Rabs (ieee_real m - (p * (INR W - s) + a * (2 * s)) / (INR W + s)) <= bound).
Proof. exact c110_interim_mean. Qed.
Print Assumptions C110_interim_mean.

(** C110_interim_mean_ex: window 2 over float after a NaN, an infinity and five numbers. *)
Example C110_interim_mean_ex :
  let l := since_clear [Push S754_nan; Push (S754_infinity false); Push (f32 3); Push (f32 5); Push (f32 8); Push (f32 1); Push (f32 6)] in
  l <> [] /\ (2 * N.of_nat 2 < szmod)%N /\ 16 * INR 2 * bpow radix2 (- 24) <= 1 /\
  16 * 8 + 60 * INR 2 * bpow radix2 (2 - 128 - 24) <= bpow radix2 (128 - 1) /\
  24 * INR 2 * 8 + 112 * (INR 2 * INR 2 * bpow radix2 (2 - 128 - 24)) + 5 * bpow radix2 (2 - 128 - 24) <= bpow radix2 (128 - 1) /\
  Forall (fun x => ieee_finite 24 128 x /\ Rabs (ieee_real x) <= 8) (lastn (2 * 2) l) /\
  cur_block 2 l = [f32 6] /\ prev_block 2 l = [f32 8; f32 1].
Proof. exact c110_interim_mean_ex. Qed.

(** C110_interim_variance: the interim variance, within
    [5 ((14 W + 454) u M^2 + (3 W + 13) 10 M eta + 27 eta)] of the weighted average of the
    variances of the two blocks, for windows of at most the square root of 2^prec. *)
Theorem C110_interim_variance : forall (prec emax : Z) (W : nat) (ops : list (op spec_float)) (M : R),
  (1 < prec < emax)%Z ->
  let l := since_clear ops in
  let u := bpow radix2 (- prec) in
  let eta := bpow radix2 (2 - emax - prec) in
  let big := bpow radix2 (emax - 1) in
  l <> [] -> (0 < W)%nat -> (N.of_nat W <= 2 ^ 32)%N -> 64 * INR W * u <= 1 -> INR W * INR W * u <= 1 ->
  32 * INR W * eta <= M -> 16 * M + 60 * INR W * eta <= big -> 64 * INR W * (M * M) + 16 * INR W * eta <= big ->
  416 * (INR W * INR W * (M * M)) + 60 * (INR W * INR W * eta) + 5 * eta <= big ->
  Forall (fun x => ieee_finite prec emax x /\ Rabs (ieee_real x) <= M) (lastn (2 * W) l) ->
  let F := ieee prec emax in
  let w := N.of_nat W in
  let v := ivar_variance F w (run (ivar_push F w) (ivar_clear F) (ivar_init F) ops) in
  let vp := variance (map ieee_real (prev_block W l)) in
  let va := variance (map ieee_real (cur_block W l)) in
  let s := card (cur_block W l) in
  let wp := (INR W - s + 1) ^ 2 in
  let wa := 2 * (s - 1) in
  let bound := 5 * ((14 * INR W + 454) * u * (M * M) + (3 * INR W + 13) * (10 * M) * eta + 27 * eta) in
  ieee_finite prec emax v /\
  ((length l <= W)%nat -> Rabs (ieee_real v - variance (map ieee_real l)) <= bound) /\
  ((W < length l)%nat -> Rabs (ieee_real v - (wp * vp + wa * va) / (wp + wa)) <= bound).
Proof. exact c110_interim_variance. Qed.
Print Assumptions C110_interim_variance.

(** C110_interim_variance_ex: window 4 over float after nine values, the first a NaN. *)
Example C110_interim_variance_ex :
  let l := since_clear (Push S754_nan :: map (fun k => Push (f32 k)) [3; 5; 8; 1; 6; -7; 2; 9]%Z) in
  let eta := bpow radix2 (2 - 128 - 24) in
  let big := bpow radix2 (128 - 1) in
  l <> [] /\ (N.of_nat 4 <= 2 ^ 32)%N /\ 64 * INR 4 * bpow radix2 (- 24) <= 1 /\ INR 4 * INR 4 * bpow radix2 (- 24) <= 1 /\
  32 * INR 4 * eta <= 10 /\ 16 * 10 + 60 * INR 4 * eta <= big /\ 64 * INR 4 * (10 * 10) + 16 * INR 4 * eta <= big /\
  416 * (INR 4 * INR 4 * (10 * 10)) + 60 * (INR 4 * INR 4 * eta) + 5 * eta <= big /\
  Forall (fun x => ieee_finite 24 128 x /\ Rabs (ieee_real x) <= 10) (lastn (2 * 4) l) /\ cur_block 4 l = [f32 9].
Proof. exact c110_interim_variance_ex. Qed.

(** C110_interim_covariance: the interim covariance, with separate bounds for the two
    coordinates. *)
Theorem C110_interim_covariance : forall (prec emax : Z) (W : nat) (ops : list (op (spec_float * spec_float))) (Mx My : R),
  (1 < prec < emax)%Z ->
  let l := since_clear ops in
  let u := bpow radix2 (- prec) in
  let eta := bpow radix2 (2 - emax - prec) in
  let big := bpow radix2 (emax - 1) in
  l <> [] -> (0 < W)%nat -> (N.of_nat W <= 2 ^ 32)%N -> 64 * INR W * u <= 1 -> INR W * INR W * u <= 1 ->
  32 * INR W * eta <= Mx -> 32 * INR W * eta <= My ->
  16 * Mx + 60 * INR W * eta <= big -> 16 * My + 60 * INR W * eta <= big ->
  64 * INR W * (Mx * My) + 16 * INR W * eta <= big ->
  416 * (INR W * INR W * (Mx * My)) + 60 * (INR W * INR W * eta) + 5 * eta <= big ->
  Forall (fun p => (ieee_finite prec emax (fst p) /\ Rabs (ieee_real (fst p)) <= Mx) /\
                   (ieee_finite prec emax (snd p) /\ Rabs (ieee_real (snd p)) <= My)) (lastn (2 * W) l) ->
  let real p := (ieee_real (fst p), ieee_real (snd p)) in
  let F := ieee prec emax in
  let w := N.of_nat W in
  let v := icov_variance F w (run (icov_push F w) (icov_clear F) (icov_init F) ops) in
  let vp := covariance (map real (prev_block W l)) in
  let va := covariance (map real (cur_block W l)) in
  let s := card (cur_block W l) in
  let wp := (INR W - s + 1) ^ 2 in
  let wa := 2 * (s - 1) in
  let bound := 5 * ((14 * INR W + 454) * u * (Mx * My) + (3 * INR W + 13) * (4 * Mx + 6 * My) * eta + 27 * eta) in
  ieee_finite prec emax v /\
  ((length l <= W)%nat -> Rabs (ieee_real v - covariance (map real l)) <= bound) /\
  ((W < length l)%nat -> Rabs (ieee_real v - (wp * vp + wa * va) / (wp + wa)) <= bound).
Proof. exact c110_interim_covariance. Qed.
Print Assumptions C110_interim_covariance.

(** C110_interim_covariance_ex: window 2 over float after five pairs. *)
Example C110_interim_covariance_ex :
  let l := since_clear (map Push [(f32 3, f32 9); (f32 5, f32 25); (f32 8, f32 64); (f32 1, f32 1); (f32 (-6), f32 36)]) in
  let eta := bpow radix2 (2 - 128 - 24) in
  let big := bpow radix2 (128 - 1) in
  l <> [] /\ (N.of_nat 2 <= 2 ^ 32)%N /\ 64 * INR 2 * bpow radix2 (- 24) <= 1 /\ INR 2 * INR 2 * bpow radix2 (- 24) <= 1 /\
  32 * INR 2 * eta <= 8 /\ 32 * INR 2 * eta <= 64 /\ 16 * 8 + 60 * INR 2 * eta <= big /\ 16 * 64 + 60 * INR 2 * eta <= big /\
  64 * INR 2 * (8 * 64) + 16 * INR 2 * eta <= big /\
  416 * (INR 2 * INR 2 * (8 * 64)) + 60 * (INR 2 * INR 2 * eta) + 5 * eta <= big /\
  Forall (fun p => (ieee_finite 24 128 (fst p) /\ Rabs (ieee_real (fst p)) <= 8) /\
                   (ieee_finite 24 128 (snd p) /\ Rabs (ieee_real (snd p)) <= 64)) (lastn (2 * 2) l) /\
  prev_block 2 l = [(f32 8, f32 64); (f32 1, f32 1)].
Proof. exact c110_interim_covariance_ex. Qed.

(** C122_interim_mean: in every IEEE format mean() of the interim filter stays within
    the range of the last 2W values up to the error bound of C110; values before those
    may be anything, NaN and infinities included. *)
Theorem C122_interim_mean : forall (prec emax : Z) (W : nat) (ops : list (op spec_float)) (M lo hi : R),
  (1 < prec < emax)%Z ->
  let l := since_clear ops in
  let u := bpow radix2 (- prec) in
  let eta := bpow radix2 (2 - emax - prec) in
  let big := bpow radix2 (emax - 1) in
  l <> [] -> (0 < W)%nat -> (2 * N.of_nat W < szmod)%N -> 16 * INR W * u <= 1 ->
  16 * M + 60 * INR W * eta <= big -> 24 * INR W * M + 112 * (INR W * INR W * eta) + 5 * eta <= big ->
  Forall (fun x => ieee_finite prec emax x /\ Rabs (ieee_real x) <= M) (lastn (2 * W) l) ->
  Forall (fun x => lo <= ieee_real x <= hi) (lastn (2 * W) l) ->
  let F := ieee prec emax in
  let w := N.of_nat W in
  let m := ieee_real (imean_mean F w (run (imean_push F w) (imean_clear F) (imean_init F) ops)) in
  let E := (INR W + 46) * u * M + (3 * INR W + 29) * eta in
  lo - E <= m <= hi + E.
Proof. exact c122_interim_mean. Qed.
Print Assumptions C122_interim_mean.

(** C122_interim_mean_ex: window 2 over float, the last four values between 1 and 8. *)
Example C122_interim_mean_ex :
  let l := since_clear [Push S754_nan; Push (S754_infinity false); Push (f32 3); Push (f32 5); Push (f32 8); Push (f32 1); Push (f32 6)] in
  Forall (fun x => ieee_finite 24 128 x /\ Rabs (ieee_real x) <= 8) (lastn (2 * 2) l) /\
  Forall (fun x => 1 <= ieee_real x <= 8) (lastn (2 * 2) l).
Proof. exact c122_interim_mean_ex. Qed.

(** C122_window_mean: likewise mean() of the window filter, within the range of the last
    W values up to the drift [n (26 u M + 14 eta)] after [n] pushes. *)
Theorem C122_window_mean : forall (prec emax : Z) (W : nat) (ops : list (op spec_float)) (M lo hi : R),
  (1 < prec < emax)%Z ->
  let l := since_clear ops in
  let n := INR (length l) in
  let u := bpow radix2 (- prec) in
  let eta := bpow radix2 (2 - emax - prec) in
  let big := bpow radix2 (emax - 1) in
  (0 < W)%nat -> (Z.of_nat W <= 2 ^ prec)%Z -> (N.of_nat W < szmod)%N ->
  l <> [] -> 16 * n * u <= 1 -> 16 * M + 60 * n * eta <= big ->
  Forall (fun x => ieee_finite prec emax x /\ Rabs (ieee_real x) <= M) l ->
  Forall (fun x => lo <= ieee_real x <= hi) (lastn W l) ->
  let F := ieee prec emax in
  let m := ieee_real (wmean_mean F (run (wmean_push F W) (wmean_clear F) (wmean_init F) ops)) in
  let E := n * (26 * u * M + 14 * eta) in
  lo - E <= m <= hi + E.
Proof. exact c122_window_mean. Qed.
Print Assumptions C122_window_mean.

(** C122_window_mean_ex: window 2 over float, the last two values 8 and 1. *)
Example C122_window_mean_ex :
  let l := since_clear [Push S754_nan; Clear; Push (f32 200); Push (f32 5); Push (f32 8); Push (f32 1)] in
  (Z.of_nat 2 <= 2 ^ 24)%Z /\ (N.of_nat 2 < szmod)%N /\ l <> [] /\ 16 * INR (length l) * bpow radix2 (- 24) <= 1 /\
  16 * 200 + 60 * INR (length l) * bpow radix2 (2 - 128 - 24) <= bpow radix2 (128 - 1) /\
  Forall (fun x => ieee_finite 24 128 x /\ Rabs (ieee_real x) <= 200) l /\
  Forall (fun x => 1 <= ieee_real x <= 8) (lastn 2 l).
Proof. exact c122_window_mean_ex. Qed.

(** C122_decay_mean: likewise mean() of the decay filter, within the range of the pushed
    values up to [209 u M / f + 57 eta (1 + M) / f^2], however many values are pushed. *)
Theorem C122_decay_mean : forall (prec emax : Z) (f : spec_float) (l : list spec_float) (M lo hi : R),
  (1 < prec < emax)%Z ->
  let u := bpow radix2 (- prec) in
  let eta := bpow radix2 (2 - emax - prec) in
  let big := bpow radix2 (emax - 1) in
  let fv := ieee_real f in
  ieee_finite prec emax f -> 0 < fv <= 1 -> 104 * u <= fv -> 56 * eta <= fv * fv ->
  l <> [] -> 16 * (M + 1) <= big -> 32 <= big ->
  Forall (fun x => ieee_finite prec emax x /\ Rabs (ieee_real x) <= M) l ->
  Forall (fun x => lo <= ieee_real x <= hi) l ->
  let F := ieee prec emax in
  let m := ieee_real (dmean_mean F (run (dmean_push F) (dmean_clear F) (dmean_init F f) (pushes l))) in
  let E := 209 * u * M / fv + 57 * eta * (1 + M) / (fv * fv) in
  lo - E <= m <= hi + E.
Proof. exact c122_decay_mean. Qed.
Print Assumptions C122_decay_mean.

(** C122_decay_mean_ex: factor 1/2 over float, values between -7 and 1000. *)
Example C122_decay_mean_ex :
  let f := @ndiv (ieee 24 128) (f32 1) (f32 2) in
  ieee_finite 24 128 f /\ ieee_real f = / 2 /\ 104 * bpow radix2 (- 24) <= / 2 /\ 56 * bpow radix2 (2 - 128 - 24) <= / 2 * / 2 /\
  16 * (1000 + 1) <= bpow radix2 (128 - 1) /\ 32 <= bpow radix2 (128 - 1) /\
  Forall (fun x => ieee_finite 24 128 x /\ Rabs (ieee_real x) <= 1000) [f32 1000; f32 (-7)] /\
  Forall (fun x => -7 <= ieee_real x <= 1000) [f32 1000; f32 (-7)].
Proof. exact c122_decay_mean_ex. Qed.

(** C122_psquare_safe: in every IEEE format with at least 8 bits in which size_t is
    in range, for quantiles between 0 and 1 - 2^(3-prec) and every history of values, NaN and
    infinities included: get<i> reads no element outside of the array, and while the
    values are stored an interpolated estimate is computed from two stored values. *)
Theorem C122_psquare_safe : forall (prec emax : Z) (qs : list spec_float) (ops : list (op spec_float)) (index : nat),
  (8 <= prec < emax)%Z -> (65 <= emax)%Z ->
  Forall (fun q => ieee_finite prec emax q /\ 0 <= ieee_real q <= 1 - bpow radix2 (3 - prec)) qs ->
  (Z.of_nat (2 * length qs + 3) <= 2 ^ prec)%Z -> (N.of_nat (2 * length qs + 3) < 2 ^ 62)%N ->
  let l := since_clear ops in
  (N.of_nat (length l) < szmod)%N -> (index <= length qs + 1)%nat ->
  let F := ieee prec emax in
  let s := run (psq_push F qs) (psq_clear F qs) (psq_init F qs) ops in
  let h := ps_heights F s in
  (exists x, psq_get F qs s index = Some x) /\
  (forall i, index = S i -> (i < length qs)%nat -> (2 <= length l <= 2 * length qs + 3)%nat ->
   exists j k w, (j < length l)%nat /\ (k < length l)%nat /\
     psq_get F qs s index = Some (@nadd F (nth j h n0) (@nmul F w (@nsub F (nth k h n0) (nth j h n0))))).
Proof. exact c122_safe. Qed.
Print Assumptions C122_psquare_safe.

(** C122_psquare_safe_ex: over float, the median of a NaN and an infinity, which is NaN,
    after a clear. *)
Example C122_psquare_safe_ex :
  let half := S754_finite false 8388608 (-24) in
  Forall (fun q => ieee_finite 24 128 q /\ 0 <= ieee_real q <= 1 - bpow radix2 (3 - 24)) [half] /\
  (Z.of_nat (2 * length [half] + 3) <= 2 ^ 24)%Z /\ (N.of_nat (2 * length [half] + 3) < 2 ^ 62)%N /\
  let F := ieee 24 128 in
  let ops := [Push (f32 3); Clear; Push S754_nan; Push (S754_infinity false)] in
  (N.of_nat (length (since_clear ops)) < szmod)%N /\ (1 <= length [half] + 1)%nat /\
  psq_get F [half] (run (psq_push F [half]) (psq_clear F [half]) (psq_init F [half]) ops) 1 = Some S754_nan.
Proof. exact c122_safe_ex. Qed.
