(** * Property theorems: Unbiased

    Statements only; every proof is [exact] of a lemma in ClaimsUnbiased.v.
    Generated by tools/mkprops.py. *)

From Coq Require Import Reals ZArith NArith List Bool.
From Verif Require Import Arith History SpecStats SpecExpectation Cumulative Window Interim Decay ExactRuns WindowRuns InterimRuns DecayRuns.
Import ListNotations.
Local Open Scope R_scope.
From Verif Require Import ClaimsUnbiased.

(** C100_mean: for every finite distribution and every number of
    independent observations pushed after a clear(): the expected value of mean()
    of the cumulative, window, interim and decay filters is the mean of the
    distribution. *)
Theorem C100_mean : forall (eps : R) (D : dist R) (n W : nat) (f : R) (h : list (op R)),
  probability D -> (0 < n)%nat -> (N.of_nat n < szmod)%N ->
  (0 < W)%nat -> (2 * N.of_nat W < szmod)%N -> 0 < f <= 1 ->
  let observe l := h ++ Clear :: pushes l in
  let same := repeat D n in
  expected same (fun l => cmean_mean _ (run_cmean eps (observe l))) (pop_mean D) /\
  expected same (fun l => wmean_mean _ (run_wmean eps W (observe l))) (pop_mean D) /\
  expected same (fun l => imean_mean _ (N.of_nat W) (run_imean eps W (observe l))) (pop_mean D) /\
  expected same (fun l => dmean_mean _ (run_dmean eps f (observe l))) (pop_mean D).
Proof. exact c100_mean. Qed.
Print Assumptions C100_mean.

(** C100_mean_ex: a loaded die with three sides; its mean is 9/4. *)
Example C100_mean_ex :
  let D := [(/ 2, 1); (/ 4, 3); (/ 4, 4)] in
  probability D /\ pop_mean D = 9 / 4 /\ (0 < 10)%nat /\ (N.of_nat 10 < szmod)%N /\ (2 * N.of_nat 4 < szmod)%N /\ 0 < / 10 <= 1.
Proof. exact c100_mean_ex. Qed.

(** C100_variance: the expected value of unbiased_variance() is the
    variance of the distribution, that of variance() is (n-1)/n times it, for the
    cumulative filter and, with the smaller of window length and number of
    observations instead of n, for the window filter. *)
Theorem C100_variance : forall (eps : R) (D : dist R) (n W : nat) (h : list (op R)),
  probability D -> (2 <= n)%nat -> (N.of_nat n < szmod)%N ->
  (2 <= W)%nat -> (N.of_nat W < szmod)%N ->
  let observe l := h ++ Clear :: pushes l in
  let same := repeat D n in
  let m := INR (Nat.min W n) in
  expected same (fun l => cvar_unbiased_variance _ (run_cvar eps (observe l))) (pop_variance D) /\
  expected same (fun l => cvar_variance _ (run_cvar eps (observe l))) ((INR n - 1) / INR n * pop_variance D) /\
  expected same (fun l => wvar_unbiased_variance _ (run_wvar eps W (observe l))) (pop_variance D) /\
  expected same (fun l => wvar_variance _ (run_wvar eps W (observe l))) ((m - 1) / m * pop_variance D).
Proof. exact c100_variance. Qed.
Print Assumptions C100_variance.

(** C100_variance_ex: the loaded die; its variance is 27/16. *)
Example C100_variance_ex :
  let D := [(/ 2, 1); (/ 4, 3); (/ 4, 4)] in
  probability D /\ pop_variance D = 27 / 16 /\ (2 <= 10)%nat /\ (N.of_nat 10 < szmod)%N /\ (2 <= 4)%nat /\ (N.of_nat 4 < szmod)%N.
Proof. exact c100_variance_ex. Qed.

(** C100_mean_error: the expected squared distance of the cumulative mean()
    from the mean of the distribution is the variance of the distribution over
    the number of observations. *)
Theorem C100_mean_error : forall (eps : R) (D : dist R) (n : nat) (h : list (op R)),
  probability D -> (0 < n)%nat -> (N.of_nat n < szmod)%N ->
  expected (repeat D n)
    (fun l => let d := nsub (cmean_mean _ (run_cmean eps (h ++ Clear :: pushes l))) (Fin (pop_mean D) : exact eps) in nmul d d)
    (pop_variance D / INR n).
Proof. exact c100_mean_error. Qed.
Print Assumptions C100_mean_error.

(** C100_mean_error_ex: a hundred observations of the loaded die. *)
Example C100_mean_error_ex :
  let D := [(/ 2, 1); (/ 4, 3); (/ 4, 4)] in
  probability D /\ (0 < 100)%nat /\ (N.of_nat 100 < szmod)%N /\ pop_variance D / INR 100 = 27 / 1600.
Proof. exact c100_mean_error_ex. Qed.

(** C100_covariance: the same for pairs: the expected value of
    unbiased_variance() of the covariance filters is the covariance of the
    distribution, that of variance() is (n-1)/n times it. *)
Theorem C100_covariance : forall (eps : R) (D : dist (R * R)) (n W : nat) (h : list (op (R * R))),
  probability D -> (2 <= n)%nat -> (N.of_nat n < szmod)%N ->
  (2 <= W)%nat -> (N.of_nat W < szmod)%N ->
  let observe l := h ++ Clear :: pushes l in
  let same := repeat D n in
  let m := INR (Nat.min W n) in
  expected same (fun l => ccov_unbiased_variance _ (run_ccov eps (observe l))) (pop_covariance D) /\
  expected same (fun l => ccov_variance _ (run_ccov eps (observe l))) ((INR n - 1) / INR n * pop_covariance D) /\
  expected same (fun l => wcov_unbiased_variance _ (run_wcov eps W (observe l))) (pop_covariance D) /\
  expected same (fun l => wcov_variance _ (run_wcov eps W (observe l))) ((m - 1) / m * pop_covariance D).
Proof. exact c100_covariance. Qed.
Print Assumptions C100_covariance.

(** C100_covariance_ex: a distribution on three points with covariance 11/4. *)
Example C100_covariance_ex :
  let D := [(/ 2, (0, 1)); (/ 4, (2, 3)); (/ 4, (4, 5))] in
  probability D /\ pop_covariance D = 11 / 4 /\ (2 <= 10)%nat /\ (N.of_nat 10 < szmod)%N /\ (2 <= 4)%nat /\ (N.of_nat 4 < szmod)%N.
Proof. exact c100_covariance_ex. Qed.

(** C100_regression: for given x, not all equal, and independent
    observations of y, each from its own distribution, whose means lie on a line
    a + b x: the expected value of slope() is b and that of at(p) is a + b p, for
    the cumulative regression and, if the last W values of x are not all equal,
    for the window regression. *)
Theorem C100_regression : forall (eps a b p : R) (X : list R) (Ds : list (dist R)) (W : nat) (h : list (op (R * R))),
  Forall probability Ds -> Forall2 (fun x D => pop_mean D = a + b * x) X Ds ->
  (N.of_nat (length X) < szmod)%N -> (0 < W)%nat -> (N.of_nat W < szmod)%N ->
  let observe Y := h ++ Clear :: pushes (combine X Y) in
  ((forall c, ~ constant c X) ->
   expected Ds (fun Y => creg_slope _ (run_creg eps (observe Y))) b /\
   expected Ds (fun Y => creg_at _ (run_creg eps (observe Y)) (Fin p)) (a + b * p)) /\
  ((forall c, ~ constant c (lastn W X)) ->
   expected Ds (fun Y => wreg_slope _ (run_wreg eps W (observe Y))) b /\
   expected Ds (fun Y => wreg_at _ (run_wreg eps W (observe Y)) (Fin p)) (a + b * p)).
Proof. exact c100_regression. Qed.
Print Assumptions C100_regression.

(** C100_regression_ex: four points on 1 + 2 x, each with an error of one
    up or down, the last with an error of its own kind. *)
Example C100_regression_ex :
  let noisy y := [(/ 2, y - 1); (/ 2, y + 1)] in
  let X := [0; 1; 2; 3] in
  let Ds := [noisy 1; noisy 3; noisy 5; [(/ 4, 4); (3 / 4, 8)]] in
  Forall probability Ds /\ Forall2 (fun x D => pop_mean D = 1 + 2 * x) X Ds /\
  (N.of_nat (length X) < szmod)%N /\ (N.of_nat 2 < szmod)%N /\
  (forall c, ~ constant c X) /\ (forall c, ~ constant c (lastn 2 X)).
Proof. exact c100_regression_ex. Qed.

(** C100_unbiased_mean_refuted: unbiased_mean() is not an unbiased
    estimator of the mean: two observations of a constant 1 give 2. *)
Theorem C100_unbiased_mean_refuted : exists (D : dist R) (n : nat) (v : R),
  probability D /\ (2 <= n)%nat /\
  expected (repeat D n) (fun l => cmean_unbiased_mean _ (run_cmean eps64 (pushes l))) v /\
  v <> pop_mean D.
Proof. exact c100_unbiased_mean_refuted. Qed.
Print Assumptions C100_unbiased_mean_refuted.

(** C100_unbiased_skewness_refuted: nor is unbiased_skewness() of the
    skewness: three tosses of a fair coin, which is symmetric, have a positive
    expected unbiased_skewness(), because left-skewed samples are reported as
    0. *)
Theorem C100_unbiased_skewness_refuted : exists (D : dist R) (n : nat) (v : R),
  probability D /\ pop_skewness D = 0 /\
  expected (repeat D n) (fun l => cskew_unbiased_skewness _ (run_cskew eps64 (pushes l))) v /\
  0 < v.
Proof. exact c100_unbiased_skewness_refuted. Qed.
Print Assumptions C100_unbiased_skewness_refuted.
