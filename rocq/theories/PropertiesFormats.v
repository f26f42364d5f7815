(** * Property theorems: Formats

    Statements only; every proof is [exact] of a lemma in ClaimsFormats.v.
    Generated by tools/mkprops.py. *)

From Coq Require Import Reals ZArith NArith List Bool.
From Coq Require Import Floats.SpecFloat.
From Flocq Require Import Core.
From Verif Require Import Arith History SpecStats SpecDecay SpecImpulse Cumulative Window Decay Impulse ImpulseRuns Binary64 Ieee.
Import ListNotations.
Local Open Scope R_scope.
(** A float of an integer. *)
Local Notation f32 z := (ieee_of_Z 24 128 z).
From Verif Require Import ClaimsFormats.

(** C110_double: the instance of 53 bits and exponents up to 1024 is the
    arithmetic on double of all other claims. *)
Theorem C110_double : ieee 53 1024 = b64num.
Proof. exact c110_double. Qed.
Print Assumptions C110_double.

(** C110_double_ex: a tenth in both. *)
Example C110_double_ex : @ndiv (ieee 53 1024) (ieee_of_Z 53 1024 1) (ieee_of_Z 53 1024 10) = S754_finite false 7205759403792794 (-56).
Proof. exact c110_double_ex. Qed.

(** C110_mean: the cumulative mean over a value type with [prec] bits and
    exponents up to [emax], for [u = 2^-prec], smallest error [eta = 2^(2-emax-prec)]
    and [big = 2^(emax-1)]: after [n] finite values of magnitude at most [M],
    [16 n u <= 1] and [16 M + 60 n eta <= big], mean() is finite and within
    [(n + 25) u M + (3 n + 11) eta] of the arithmetic mean. *)
Theorem C110_mean : forall (prec emax : Z) (ops : list (op spec_float)) (M : R),
  (1 < prec < emax)%Z ->
  let l := since_clear ops in
  let n := INR (length l) in
  let u := bpow radix2 (- prec) in
  let eta := bpow radix2 (2 - emax - prec) in
  let big := bpow radix2 (emax - 1) in
  l <> [] -> (N.of_nat (length l) < szmod)%N ->
  16 * n * u <= 1 -> 16 * M + 60 * n * eta <= big ->
  Forall (fun x => ieee_finite prec emax x /\ Rabs (ieee_real x) <= M) l ->
  let F := ieee prec emax in
  let m := cmean_mean F (run (cmean_push F) (cmean_clear F) (cmean_init F) ops) in
  ieee_finite prec emax m /\
  Rabs (ieee_real m - mean (map ieee_real l)) <= (n + 25) * u * M + (3 * n + 11) * eta.
Proof. exact c110_mean. Qed.
Print Assumptions C110_mean.

(** C110_mean_ex: three floats. *)
Example C110_mean_ex :
  let l := since_clear [Push (f32 9); Clear; Push (f32 1000000); Push (f32 (-7)); Push (f32 33554432)] in
  (1 < 24 < 128)%Z /\ l = [f32 1000000; f32 (-7); f32 33554432] /\ (N.of_nat (length l) < szmod)%N /\
  16 * INR (length l) * bpow radix2 (- 24) <= 1 /\
  16 * 33554432 + 60 * INR (length l) * bpow radix2 (2 - 128 - 24) <= bpow radix2 (128 - 1) /\
  Forall (fun x => ieee_finite 24 128 x /\ Rabs (ieee_real x) <= 33554432) l.
Proof. exact c110_mean_ex. Qed.

(** C110_window_mean: the window mean, after [n] pushes since the last clear
    within [n (26 u M + 14 eta)] of the mean of the last [W] values. *)
Theorem C110_window_mean : forall (prec emax : Z) (W : nat) (ops : list (op spec_float)) (M : R),
  (1 < prec < emax)%Z ->
  let l := since_clear ops in
  let n := INR (length l) in
  let u := bpow radix2 (- prec) in
  let eta := bpow radix2 (2 - emax - prec) in
  let big := bpow radix2 (emax - 1) in
  (0 < W)%nat -> (Z.of_nat W <= 2 ^ prec)%Z -> (N.of_nat W < szmod)%N ->
  l <> [] -> 16 * n * u <= 1 -> 16 * M + 60 * n * eta <= big ->
  Forall (fun x => ieee_finite prec emax x /\ Rabs (ieee_real x) <= M) l ->
  let F := ieee prec emax in
  let m := wmean_mean F (run (wmean_push F W) (wmean_clear F) (wmean_init F) ops) in
  ieee_finite prec emax m /\
  Rabs (ieee_real m - mean (lastn W (map ieee_real l))) <= n * (26 * u * M + 14 * eta).
Proof. exact c110_window_mean. Qed.
Print Assumptions C110_window_mean.

(** C110_window_mean_ex: a window of two floats. *)
Example C110_window_mean_ex :
  let l := since_clear [Push (f32 9); Clear; Push (f32 1000000); Push (f32 (-7)); Push (f32 33554432)] in
  (0 < 2)%nat /\ (Z.of_nat 2 <= 2 ^ 24)%Z /\ lastn 2 l = [f32 (-7); f32 33554432] /\
  Forall (fun x => ieee_finite 24 128 x /\ Rabs (ieee_real x) <= 33554432) l.
Proof. exact c110_window_mean_ex. Qed.

(** C110_decay_mean: the exponential mean, for a factor [f] that is not smaller
    than [104 u], however many values are pushed, within
    [209 u M / f + 57 eta (1 + M) / f^2] of the exponentially weighted mean. *)
Theorem C110_decay_mean : forall (prec emax : Z) (f : spec_float) (l : list spec_float) (M : R),
  (1 < prec < emax)%Z ->
  let u := bpow radix2 (- prec) in
  let eta := bpow radix2 (2 - emax - prec) in
  let big := bpow radix2 (emax - 1) in
  let fv := ieee_real f in
  ieee_finite prec emax f -> 0 < fv <= 1 -> 104 * u <= fv -> 56 * eta <= fv * fv ->
  l <> [] -> 16 * (M + 1) <= big -> 32 <= big ->
  Forall (fun x => ieee_finite prec emax x /\ Rabs (ieee_real x) <= M) l ->
  let F := ieee prec emax in
  let m := dmean_mean F (run (dmean_push F) (dmean_clear F) (dmean_init F f) (pushes l)) in
  ieee_finite prec emax m /\
  Rabs (ieee_real m - ewma fv (map ieee_real l)) <= 209 * u * M / fv + 57 * eta * (1 + M) / (fv * fv).
Proof. exact c110_decay_mean. Qed.
Print Assumptions C110_decay_mean.

(** C110_decay_mean_ex: factor 1/2 over floats. *)
Example C110_decay_mean_ex :
  let f := @ndiv (ieee 24 128) (f32 1) (f32 2) in
  ieee_finite 24 128 f /\ ieee_real f = / 2 /\ 104 * bpow radix2 (- 24) <= / 2 /\ 56 * bpow radix2 (2 - 128 - 24) <= / 2 * / 2 /\
  16 * (1000000 + 1) <= bpow radix2 (128 - 1) /\ 32 <= bpow radix2 (128 - 1) /\
  Forall (fun x => ieee_finite 24 128 x /\ Rabs (ieee_real x) <= 1000000) [f32 1000000; f32 (-7)].
Proof. exact c110_decay_mean_ex. Qed.

(** C110_variance: the cumulative variance, within
    [5 ((14 n + 308) u M^2 + 10 (3 n + 13) M eta + 3 eta)] of the variance. *)
Theorem C110_variance : forall (prec emax : Z) (ops : list (op spec_float)) (M : R),
  (1 < prec < emax)%Z ->
  let l := since_clear ops in
  let n := INR (length l) in
  let u := bpow radix2 (- prec) in
  let eta := bpow radix2 (2 - emax - prec) in
  let big := bpow radix2 (emax - 1) in
  l <> [] -> (N.of_nat (length l) < szmod)%N ->
  64 * n * u <= 1 -> 32 * n * eta <= M -> 16 * M + 60 * n * eta <= big -> 64 * n * (M * M) + 16 * n * eta <= big ->
  Forall (fun x => ieee_finite prec emax x /\ Rabs (ieee_real x) <= M) l ->
  let F := ieee prec emax in
  let v := cvar_variance F (run (cvar_push F) (cvar_clear F) (cvar_init F) ops) in
  ieee_finite prec emax v /\
  Rabs (ieee_real v - variance (map ieee_real l)) <=
    5 * ((14 * n + 308) * u * (M * M) + (3 * n + 13) * (10 * M) * eta + 3 * eta).
Proof. exact c110_variance. Qed.
Print Assumptions C110_variance.

(** C110_variance_ex: three floats. *)
Example C110_variance_ex :
  let l := since_clear [Push (f32 9); Clear; Push (f32 1000); Push (f32 (-7)); Push (f32 3)] in
  l = [f32 1000; f32 (-7); f32 3] /\ 64 * 3 * bpow radix2 (- 24) <= 1 /\ 32 * 3 * bpow radix2 (2 - 128 - 24) <= 1000 /\
  16 * 1000 + 60 * 3 * bpow radix2 (2 - 128 - 24) <= bpow radix2 (128 - 1) /\
  64 * 3 * (1000 * 1000) + 16 * 3 * bpow radix2 (2 - 128 - 24) <= bpow radix2 (128 - 1) /\
  Forall (fun x => ieee_finite 24 128 x /\ Rabs (ieee_real x) <= 1000) l.
Proof. exact c110_variance_ex. Qed.

(** C110_window_variance: the window variance over [k] values, after [n] pushes
    within [9 (n / k) ((264 n + 62) u M^2 + (140 n + 20) M eta + 3 eta)]. *)
Theorem C110_window_variance : forall (prec emax : Z) (W : nat) (ops : list (op spec_float)) (M : R),
  (1 < prec < emax)%Z ->
  let l := since_clear ops in
  let n := INR (length l) in
  let k := INR (length (lastn W l)) in
  let u := bpow radix2 (- prec) in
  let eta := bpow radix2 (2 - emax - prec) in
  let big := bpow radix2 (emax - 1) in
  (0 < W)%nat -> (Z.of_nat W <= 2 ^ prec)%Z -> (N.of_nat W < szmod)%N -> l <> [] ->
  64 * n * u <= 1 -> 32 * n * eta <= M -> 16 * M + 60 * n * eta <= big -> 80 * n * (M * M) + 16 * n * eta <= big ->
  Forall (fun x => ieee_finite prec emax x /\ Rabs (ieee_real x) <= M) l ->
  let F := ieee prec emax in
  let v := wvar_variance F (run (wvar_push F W) (wvar_clear F) (wvar_init F) ops) in
  ieee_finite prec emax v /\
  Rabs (ieee_real v - variance (lastn W (map ieee_real l))) <=
    9 * (n / k) * ((264 * n + 62) * u * (M * M) + (140 * n + 20) * M * eta + 3 * eta).
Proof. exact c110_window_variance. Qed.
Print Assumptions C110_window_variance.

(** C110_window_variance_ex: a window of two floats. *)
Example C110_window_variance_ex :
  let l := since_clear [Push (f32 9); Clear; Push (f32 1000); Push (f32 (-7)); Push (f32 3)] in
  lastn 2 l = [f32 (-7); f32 3] /\ 80 * 3 * (1000 * 1000) + 16 * 3 * bpow radix2 (2 - 128 - 24) <= bpow radix2 (128 - 1) /\
  Forall (fun x => ieee_finite 24 128 x /\ Rabs (ieee_real x) <= 1000) l.
Proof. exact c110_window_variance_ex. Qed.

(** C110_decay_variance: the exponential variance, within the distance of C72
    however many values are pushed. *)
Theorem C110_decay_variance : forall (prec emax : Z) (fm fv : spec_float) (l : list spec_float) (M : R),
  (1 < prec < emax)%Z ->
  let u := bpow radix2 (- prec) in
  let eta := bpow radix2 (2 - emax - prec) in
  let big := bpow radix2 (emax - 1) in
  let mf := ieee_real fm in
  let vf := ieee_real fv in
  ieee_finite prec emax fm -> ieee_finite prec emax fv -> 0 < mf <= 1 -> 0 < vf <= 1 ->
  104 * u <= mf -> 104 * u <= vf -> 56 * eta <= mf * mf -> 56 * eta <= vf * vf ->
  let D := fun m f => 209 * u * m / f + 57 * eta * (1 + m) / (f * f) in
  let g := D M mf + u * (2 * M + D M mf) + eta in
  g <= M -> 16 * (M + 1) <= big -> 16 * (10 * (M * M) + eta + 1) <= big -> 32 <= big ->
  l <> [] -> Forall (fun x => ieee_finite prec emax x /\ Rabs (ieee_real x) <= M) l ->
  let F := ieee prec emax in
  let v := dvar_variance F (run (dvar_push F) (dvar_clear F) (dvar_init F fm fv) (pushes l)) in
  ieee_finite prec emax v /\
  Rabs (ieee_real v - emoment 2 mf vf (map ieee_real l)) <=
    D (10 * (M * M) + eta) vf + (5 * M * g + 9 * u * (M * M) + eta).
Proof. exact c110_decay_variance. Qed.
Print Assumptions C110_decay_variance.

(** C110_fir: the finite impulse response filter with [p] coefficients, within
    [(2 p + 4) u S + 6 p eta] of the convolution, [S] being the convolution of the
    magnitudes. *)
Theorem C110_fir : forall (prec emax : Z) (c : list spec_float) (ops : list (op spec_float)),
  (1 < prec < emax)%Z ->
  let l := since_clear ops in
  let p := INR (length c) in
  let u := bpow radix2 (- prec) in
  let eta := bpow radix2 (2 - emax - prec) in
  let big := bpow radix2 (emax - 1) in
  c <> [] -> l <> [] -> Forall (ieee_finite prec emax) c -> Forall (ieee_finite prec emax) l ->
  let cv := map ieee_real c in
  let lv := map ieee_real l in
  let S := convolution (map Rabs cv) (map Rabs lv) (Nat.pred (length lv)) in
  (2 * p + 4) * u <= 1 -> 3 * S + (6 * p + 1) * eta <= big ->
  let F := ieee prec emax in
  let v := fir_value F (fir_run F c ops) in
  ieee_finite prec emax v /\
  Rabs (ieee_real v - convolution cv lv (Nat.pred (length lv))) <= (2 * p + 4) * u * S + 6 * p * eta.
Proof. exact c110_fir. Qed.
Print Assumptions C110_fir.

(** C110_fir_ex: coefficients 3 and -2 over floats. *)
Example C110_fir_ex :
  let c := [f32 3; f32 (-2)] in
  let l := since_clear [Push (f32 9); Clear; Push (f32 1000); Push (f32 (-7)); Push (f32 4)] in
  let cv := map ieee_real c in
  let lv := map ieee_real l in
  let S := convolution (map Rabs cv) (map Rabs lv) (Nat.pred (length lv)) in
  Forall (ieee_finite 24 128) c /\ Forall (ieee_finite 24 128) l /\ S = 26 /\
  (2 * INR (length c) + 4) * bpow radix2 (- 24) <= 1 /\
  3 * S + (6 * INR (length c) + 1) * bpow radix2 (2 - 128 - 24) <= bpow radix2 (128 - 1).
Proof. exact c110_fir_ex. Qed.

(** C110_covariance: the cumulative covariance of pairs of magnitudes at most
    [Mx] and [My], within
    [5 ((14 n + 308) u Mx My + (3 n + 13) (4 Mx + 6 My) eta + 3 eta)]. *)
Theorem C110_covariance : forall (prec emax : Z) (ops : list (op (spec_float * spec_float))) (Mx My : R),
  (1 < prec < emax)%Z ->
  let l := since_clear ops in
  let n := INR (length l) in
  let u := bpow radix2 (- prec) in
  let eta := bpow radix2 (2 - emax - prec) in
  let big := bpow radix2 (emax - 1) in
  l <> [] -> (N.of_nat (length l) < szmod)%N ->
  64 * n * u <= 1 -> 32 * n * eta <= Mx -> 32 * n * eta <= My ->
  16 * Mx + 60 * n * eta <= big -> 16 * My + 60 * n * eta <= big -> 64 * n * (Mx * My) + 16 * n * eta <= big ->
  Forall (fun p => (ieee_finite prec emax (fst p) /\ Rabs (ieee_real (fst p)) <= Mx) /\
                   (ieee_finite prec emax (snd p) /\ Rabs (ieee_real (snd p)) <= My)) l ->
  let F := ieee prec emax in
  let v := ccov_variance F (run (ccov_push F) (ccov_clear F) (ccov_init F) ops) in
  ieee_finite prec emax v /\
  Rabs (ieee_real v - covariance (map (fun p => (ieee_real (fst p), ieee_real (snd p))) l)) <=
    5 * ((14 * n + 308) * u * (Mx * My) + (3 * n + 13) * (4 * Mx + 6 * My) * eta + 3 * eta).
Proof. exact c110_covariance. Qed.
Print Assumptions C110_covariance.

(** C110_covariance_ex: two pairs of floats. *)
Example C110_covariance_ex :
  let l := since_clear [Push (f32 9, f32 9); Clear; Push (f32 1000, f32 (-7)); Push (f32 2, f32 8)] in
  l = [(f32 1000, f32 (-7)); (f32 2, f32 8)] /\ 64 * 2 * bpow radix2 (- 24) <= 1 /\ 32 * 2 * bpow radix2 (2 - 128 - 24) <= 8 /\
  16 * 1000 + 60 * 2 * bpow radix2 (2 - 128 - 24) <= bpow radix2 (128 - 1) /\
  64 * 2 * (1000 * 8) + 16 * 2 * bpow radix2 (2 - 128 - 24) <= bpow radix2 (128 - 1) /\
  Forall (fun p => (ieee_finite 24 128 (fst p) /\ Rabs (ieee_real (fst p)) <= 1000) /\
                   (ieee_finite 24 128 (snd p) /\ Rabs (ieee_real (snd p)) <= 8)) l.
Proof. exact c110_covariance_ex. Qed.

(** C110_decay_variance_ex: factors 1/2 and 1/4 over floats of magnitude at most
    1000. *)
Example C110_decay_variance_ex :
  let fm := @ndiv (ieee 24 128) (f32 1) (f32 2) in
  let fv := @ndiv (ieee 24 128) (f32 1) (f32 4) in
  let u := bpow radix2 (- 24) in
  let eta := bpow radix2 (2 - 128 - 24) in
  let big := bpow radix2 (128 - 1) in
  ieee_finite 24 128 fm /\ ieee_finite 24 128 fv /\ ieee_real fm = / 2 /\ ieee_real fv = / 4 /\
  104 * u <= / 4 /\ 56 * eta <= / 4 * / 4 /\
  let D := 209 * u * 1000 / (/ 2) + 57 * eta * (1 + 1000) / (/ 2 * / 2) in
  D + u * (2 * 1000 + D) + eta <= 1000 /\ 16 * (1000 + 1) <= big /\ 16 * (10 * (1000 * 1000) + eta + 1) <= big /\ 32 <= big /\
  Forall (fun x => ieee_finite 24 128 x /\ Rabs (ieee_real x) <= 1000) [f32 1000; f32 (-7)].
Proof. exact c110_decay_variance_ex. Qed.
