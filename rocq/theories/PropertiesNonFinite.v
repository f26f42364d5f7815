(** * Property theorems: NonFinite

    Statements only; every proof is [exact] of a lemma in ClaimsNonFinite.v.
    Generated by tools/mkprops.py. *)

From Coq Require Import Reals ZArith NArith List Bool.
From Coq Require Import Floats.SpecFloat.
From Verif Require Import Arith History SpecStats SpecNonFinite Cumulative Window Decay Interim Impulse
  ImpulseRuns Binary64.
Import ListNotations.
From Verif Require Import ClaimsNonFinite.

(** C95_cumulative: if any value since the last clear is an infinity or NaN, then
    mean() and unbiased_mean() of the cumulative moment filters are not finite,
    variance() and unbiased_variance() are NaN, kurtosis() is NaN and so is
    unbiased_kurtosis() from the fourth value on; whatever was pushed before and
    after. *)
Theorem C95_cumulative : forall ops : list (op b64), Exists nonfinite (since_clear ops) ->
  let m := run (cmean_push b64num) (cmean_clear b64num) (cmean_init b64num) ops in
  let v := run (cvar_push b64num) (cvar_clear b64num) (cvar_init b64num) ops in
  let s := run (cskew_push b64num) (cskew_clear b64num) (cskew_init b64num) ops in
  let k := run (ckurt_push b64num) (ckurt_clear b64num) (ckurt_init b64num) ops in
  (nonfinite (cmean_mean b64num m) /\ nonfinite (cvar_mean b64num v) /\
   nonfinite (cskew_mean b64num s) /\ nonfinite (ckurt_mean b64num k)) /\
  nonfinite (cmean_unbiased_mean b64num m) /\
  (cvar_variance b64num v = S754_nan /\ cvar_unbiased_variance b64num v = S754_nan) /\
  (cskew_variance b64num s = S754_nan /\ ckurt_variance b64num k = S754_nan) /\
  ckurt_kurtosis b64num k = S754_nan /\
  ((4 <= ckurt_size b64num k)%N -> ckurt_unbiased_kurtosis b64num k = S754_nan).
Proof. exact c95_cumulative. Qed.
Print Assumptions C95_cumulative.

(** C95_cumulative_ex: an infinity, then ordinary values: from the second push on
    mean() is NaN. *)
Example C95_cumulative_ex :
  let ops := [Push (b64_of_Z 3); Push (S754_infinity false); Push (b64_of_Z 1); Push (b64_of_Z 2)] in
  Exists nonfinite (since_clear ops) /\
  (4 <= ckurt_size b64num (run (ckurt_push b64num) (ckurt_clear b64num) (ckurt_init b64num) ops))%N.
Proof. exact c95_cumulative_ex. Qed.

(** C95_mean_settles: one more push turns an infinite mean() into NaN: if a value
    other than the newest is an infinity or NaN, mean() is NaN, even where the
    true mean is an infinity. *)
Theorem C95_mean_settles : forall ops : list (op b64), Exists nonfinite (removelast (since_clear ops)) ->
  cmean_mean b64num (run (cmean_push b64num) (cmean_clear b64num) (cmean_init b64num) ops) = S754_nan.
Proof. exact c95_mean_settles. Qed.
Print Assumptions C95_mean_settles.

(** C95_mean_settles_ex: infinity, 1: mean() is infinite after the first push and NaN
    after the second. *)
Example C95_mean_settles_ex :
  let ops := [Push (S754_infinity false); Push (b64_of_Z 1)] in
  Exists nonfinite (removelast (since_clear ops)) /\
  cmean_mean b64num (run (cmean_push b64num) (cmean_clear b64num) (cmean_init b64num) [Push (S754_infinity false)]) = S754_infinity false.
Proof. exact c95_mean_settles_ex. Qed.

(** C95_skewness_partial: skewness() is NaN, and so is unbiased_skewness() from the
    second value on, if an infinity or NaN is among the values since the last
    clear, except that nothing is claimed when the only such value is a minus
    infinity pushed last. *)
Theorem C95_skewness_partial : forall ops : list (op b64),
  let l := since_clear ops in
  Exists nonfinite (removelast l) \/ last l (b64_of_Z 0) = S754_infinity false \/ last l (b64_of_Z 0) = S754_nan ->
  let s := run (cskew_push b64num) (cskew_clear b64num) (cskew_init b64num) ops in
  cskew_skewness b64num s = S754_nan /\
  ((2 <= cskew_size b64num s)%N -> cskew_unbiased_skewness b64num s = S754_nan).
Proof. exact c95_skewness. Qed.
Print Assumptions C95_skewness_partial.

(** C95_skewness_partial_ex: a plus infinity pushed last; a minus infinity in between. *)
Example C95_skewness_partial_ex :
  last (since_clear [Push (b64_of_Z 0); Push (b64_of_Z 1); Push (S754_infinity false)]) (b64_of_Z 0) = S754_infinity false /\
  Exists nonfinite (removelast (since_clear [Push (b64_of_Z 0); Push (S754_infinity true); Push (b64_of_Z 1)])).
Proof. exact c95_skewness_ex. Qed.

(** C95_skewness_refuted: skewness() does not show a minus infinity just pushed: it is
    0 for the values 0, 1 and minus infinity. *)
Theorem C95_skewness_refuted : exists ops : list (op b64),
  Exists nonfinite (since_clear ops) /\
  cskew_skewness b64num (run (cskew_push b64num) (cskew_clear b64num) (cskew_init b64num) ops) = b64_of_Z 0.
Proof. exact c95_skewness_refuted. Qed.
Print Assumptions C95_skewness_refuted.

(** C95_pairs: if a component of any pair since the last clear is an infinity or NaN,
    then for fewer than 2^64 pairs the covariance is not finite, the correlation
    coefficient is NaN and the regression line is not finite anywhere; the slope
    is NaN if the first component is concerned. *)
Theorem C95_pairs : forall ops : list (op (b64 * b64)),
  let l := since_clear ops in
  Exists (fun p => nonfinite (fst p) \/ nonfinite (snd p)) l ->
  let c := run (ccov_push b64num) (ccov_clear b64num) (ccov_init b64num) ops in
  let r := run (ccorr_push b64num) (ccorr_clear b64num) (ccorr_init b64num) ops in
  let g := run (creg_push b64num) (creg_clear b64num) (creg_init b64num) ops in
  ((0 < ccov_size b64num c)%N -> nonfinite (ccov_variance b64num c)) /\
  ((2 <= ccov_size b64num c)%N -> nonfinite (ccov_unbiased_variance b64num c)) /\
  ccorr_value b64num r = S754_nan /\
  (forall x, nonfinite (creg_at b64num g x)) /\
  (Exists (fun p => nonfinite (fst p)) l -> creg_slope b64num g = S754_nan).
Proof. exact c95_pairs. Qed.
Print Assumptions C95_pairs.

(** C95_pairs_ex: an infinite y among three pairs. *)
Example C95_pairs_ex :
  let ops := [Push (b64_of_Z 1, b64_of_Z 2); Push (b64_of_Z 2, S754_infinity false); Push (b64_of_Z 3, b64_of_Z 1)] in
  Exists (fun p => nonfinite (fst p) \/ nonfinite (snd p)) (since_clear ops) /\
  (2 <= ccov_size b64num (run (ccov_push b64num) (ccov_clear b64num) (ccov_init b64num) ops))%N.
Proof. exact c95_pairs_ex. Qed.

(** C95_trend: the trend value is not finite if any value since the last clear is an
    infinity or NaN. *)
Theorem C95_trend : forall ops : list (op b64), Exists nonfinite (since_clear ops) ->
  nonfinite (ctrend_value b64num (run (ctrend_push b64num) (ctrend_clear b64num) (ctrend_init b64num) ops)).
Proof. exact c95_trend. Qed.
Print Assumptions C95_trend.

(** C95_trend_ex: 1, infinity, 2. *)
Example C95_trend_ex : Exists nonfinite (since_clear [Push (b64_of_Z 1); Push (S754_infinity true); Push (b64_of_Z 2)]).
Proof. exact c95_trend_ex. Qed.

(** C95_window: for every capacity: mean() of the window filters is not finite if any
    value since the last clear is an infinity or NaN, even one that has left the
    window; likewise the window covariance, and the window regression line
    anywhere. *)
Theorem C95_window : forall (W : nat) (ops : list (op b64)) (pairs : list (op (b64 * b64))), (0 < W)%nat ->
  let l := since_clear ops in
  let p := since_clear pairs in
  let c := run (wcov_push b64num W) (wcov_clear b64num) (wcov_init b64num) pairs in
  let g := run (wreg_push b64num W) (wreg_clear b64num) (wreg_init b64num) pairs in
  (Exists nonfinite l ->
   nonfinite (wmean_mean b64num (run (wmean_push b64num W) (wmean_clear b64num) (wmean_init b64num) ops)) /\
   nonfinite (wvar_mean b64num (run (wvar_push b64num W) (wvar_clear b64num) (wvar_init b64num) ops))) /\
  (Exists (fun q => nonfinite (fst q) \/ nonfinite (snd q)) p ->
   nonfinite (wcov_variance b64num c) /\
   ((2 <= wcov_size b64num c)%N -> nonfinite (wcov_unbiased_variance b64num c)) /\
   (forall x, nonfinite (wreg_at b64num g x))).
Proof. exact c95_window. Qed.
Print Assumptions C95_window.

(** C95_window_ex: capacity 2; the infinity has left the window. *)
Example C95_window_ex :
  let ops := [Push (S754_infinity false); Push (b64_of_Z 1); Push (b64_of_Z 2)] in
  let pairs := [Push (b64_of_Z 1, S754_infinity false); Push (b64_of_Z 1, b64_of_Z 2); Push (b64_of_Z 3, b64_of_Z 2)] in
  (0 < 2)%nat /\ Exists nonfinite (since_clear ops) /\
  Exists (fun q => nonfinite (fst q) \/ nonfinite (snd q)) (since_clear pairs) /\
  wc_window b64num (run (wcov_push b64num 2) (wcov_clear b64num) (wcov_init b64num) pairs) =
  [(b64_of_Z 1, b64_of_Z 2); (b64_of_Z 3, b64_of_Z 2)].
Proof. exact c95_window_ex. Qed.

(** C95_window_slope_refuted: the slope of the window regression does not show it: it
    is 0 for the pairs (infinity, 1), (1, 2) and (3, 2). *)
Theorem C95_window_slope_refuted : exists (W : nat) (ops : list (op (b64 * b64))), (0 < W)%nat /\
  Exists (fun q => nonfinite (fst q) \/ nonfinite (snd q)) (since_clear ops) /\
  wreg_slope b64num (run (wreg_push b64num W) (wreg_clear b64num) (wreg_init b64num) ops) = b64_of_Z 0.
Proof. exact c95_window_slope. Qed.
Print Assumptions C95_window_slope_refuted.

(** C95_decay: for all factors accepted by the constructors: if any value since the
    last clear is an infinity or NaN, mean() of each decay filter is not finite and
    variance() is NaN. *)
Theorem C95_decay : forall (fm fv fs fk : b64) (ops : list (op b64)),
  b64_finite fm -> factor_ok b64num fm = true -> b64_finite fv -> factor_ok b64num fv = true ->
  Exists nonfinite (since_clear ops) ->
  let m := run (dmean_push b64num) (dmean_clear b64num) (dmean_init b64num fm) ops in
  let v := run (dvar_push b64num) (dvar_clear b64num) (dvar_init b64num fm fv) ops in
  let s := run (dskew_push b64num) (dskew_clear b64num) (dskew_init b64num fm fv fs) ops in
  let k := run (dkurt_push b64num) (dkurt_clear b64num) (dkurt_init b64num fm fv fs fk) ops in
  (nonfinite (dmean_mean b64num m) /\ nonfinite (dvar_mean b64num v) /\
   nonfinite (dskew_mean b64num s) /\ nonfinite (dkurt_mean b64num k)) /\
  dvar_variance b64num v = S754_nan /\ dskew_variance b64num s = S754_nan /\ dkurt_variance b64num k = S754_nan.
Proof. exact c95_decay. Qed.
Print Assumptions C95_decay.

(** C95_decay_ex: the factors 1/4 and 1. *)
Example C95_decay_ex :
  let f := S754_finite false 4503599627370496 (-54) in
  b64_finite f /\ factor_ok b64num f = true /\
  b64_finite (b64_of_Z 1) /\ factor_ok b64num (b64_of_Z 1) = true /\
  Exists nonfinite (since_clear [Push (b64_of_Z 3); Push (S754_infinity true); Push (b64_of_Z 1)]).
Proof. exact c95_decay_ex. Qed.

(** C95_decay_hidden: skewness() and kurtosis() of the decay filters hide it: they are
    exactly 0 whenever an infinity or NaN was pushed since the last clear. *)
Theorem C95_decay_hidden : forall (fm fv fs fk : b64) (ops : list (op b64)),
  b64_finite fm -> factor_ok b64num fm = true -> b64_finite fv -> factor_ok b64num fv = true ->
  Exists nonfinite (since_clear ops) ->
  let s := run (dskew_push b64num) (dskew_clear b64num) (dskew_init b64num fm fv fs) ops in
  let k := run (dkurt_push b64num) (dkurt_clear b64num) (dkurt_init b64num fm fv fs fk) ops in
  dskew_skewness b64num s = b64_of_Z 0 /\ dkurt_skewness b64num k = b64_of_Z 0 /\ dkurt_kurtosis b64num k = b64_of_Z 0.
Proof. exact c95_decay_hidden. Qed.
Print Assumptions C95_decay_hidden.

(** C95_decay_hidden_ex: the same factors and values. *)
Example C95_decay_hidden_ex :
  let f := S754_finite false 4503599627370496 (-54) in
  b64_finite f /\ factor_ok b64num f = true /\
  b64_finite (b64_of_Z 1) /\ factor_ok b64num (b64_of_Z 1) = true /\
  Exists nonfinite (since_clear [Push (b64_of_Z 3); Push (S754_infinity true); Push (b64_of_Z 1)]).
Proof. exact c95_decay_hidden_ex. Qed.

(** C95_interim: interim mean() with window W is not finite while an infinity or NaN
    is among the last W+1 values since the last clear; variance() and kurtosis(),
    which disregard the newest value of a block, and the covariance likewise while
    it is among the last W+1 without the newest. *)
Theorem C95_interim : forall (W : nat) (ops : list (op b64)) (pairs : list (op (b64 * b64))),
  (0 < W)%nat -> (2 * N.of_nat W < szmod)%N ->
  let w := N.of_nat W in
  let l := lastn (W + 1) (since_clear ops) in
  let p := lastn (W + 1) (since_clear pairs) in
  (Exists nonfinite l ->
   nonfinite (imean_mean b64num w (run (imean_push b64num w) (imean_clear b64num) (imean_init b64num) ops))) /\
  (Exists nonfinite (removelast l) ->
   nonfinite (ivar_variance b64num w (run (ivar_push b64num w) (ivar_clear b64num) (ivar_init b64num) ops)) /\
   nonfinite (ikurt_kurtosis b64num w (run (ikurt_push b64num w) (ikurt_clear b64num) (ikurt_init b64num) ops))) /\
  (Exists (fun q => nonfinite (fst q) \/ nonfinite (snd q)) (removelast p) ->
   nonfinite (icov_variance b64num w (run (icov_push b64num w) (icov_clear b64num) (icov_init b64num) pairs))).
Proof. exact c95_interim. Qed.
Print Assumptions C95_interim.

(** C95_interim_ex: window 2; an infinity followed by two values. *)
Example C95_interim_ex :
  let ops := [Push (b64_of_Z 5); Push (S754_infinity false); Push (b64_of_Z 1); Push (b64_of_Z 2)] in
  let pairs := [Push (b64_of_Z 5, b64_of_Z 1); Push (b64_of_Z 1, S754_infinity false); Push (b64_of_Z 1, b64_of_Z 2)] in
  (0 < 2)%nat /\ (2 * N.of_nat 2 < szmod)%N /\
  Exists nonfinite (removelast (lastn (2 + 1) (since_clear ops))) /\
  Exists (fun q => nonfinite (fst q) \/ nonfinite (snd q)) (removelast (lastn (2 + 1) (since_clear pairs))).
Proof. exact c95_interim_ex. Qed.

(** C95_impulse: value() of a finite impulse response filter with P coefficients is
    not finite while an infinity or NaN is among the last P values; that of a
    filter with feedback stays so until the next clear. *)
Theorem C95_impulse : forall (c b a : list b64) (scale : b64) (ops : list (op b64)),
  (c <> [] -> Exists nonfinite (lastn (length c) (since_clear ops)) -> nonfinite (fir_value b64num (fir_run b64num c ops))) /\
  (b <> [] -> a <> [] -> Exists nonfinite (since_clear ops) -> nonfinite (iir_value b64num (iir_run b64num b a scale ops))).
Proof. exact c95_impulse. Qed.
Print Assumptions C95_impulse.

(** C95_impulse_ex: two coefficients; y = x + y' / 2. *)
Example C95_impulse_ex :
  let c := [b64_of_Z 1; b64_of_Z 1] in
  let ops := [Push (b64_of_Z 2); Push (S754_infinity false); Push (b64_of_Z 1)] in
  c <> [] /\ Exists nonfinite (lastn (length c) (since_clear ops)) /\ Exists nonfinite (since_clear ops) /\
  iir_value b64num (iir_run b64num [b64_of_Z 2] [b64_of_Z (-1)] (b64_of_Z 2) [Push (b64_of_Z 2)]) = b64_of_Z 2.
Proof. exact c95_impulse_ex. Qed.

(** C95_overflow_refuted: the converse fails: mean() of the finite values M, -M, 0 is
    NaN for M = 3 * 2^1022, whose double exceeds the largest number. (Below 2^1023
    it does not, C12_binary64.) *)
Theorem C95_overflow_refuted : exists M : b64, b64_finite M /\ b64_finite (SFopp M) /\
  cmean_mean b64num (run (cmean_push b64num) (cmean_clear b64num) (cmean_init b64num)
    [Push M; Push (SFopp M); Push (b64_of_Z 0)]) = S754_nan.
Proof. exact c95_overflow. Qed.
Print Assumptions C95_overflow_refuted.
