(** * Property theorems: Noise

    Statements only; every proof is [exact] of a lemma in ClaimsNoise.v.
    Generated by tools/mkprops.py. *)

From Coq Require Import Reals ZArith NArith List Bool.
From Verif Require Import Arith History SpecStats SpecExpectation SpecNoise Cumulative Window Interim Decay Impulse ExactRuns WindowRuns InterimRuns DecayRuns ImpulseRuns.
Import ListNotations.
Local Open Scope R_scope.
From Verif Require Import ClaimsNoise.

(** C105_means: for every finite distribution and every number n of
    independent observations pushed after a clear(): every mean() has the mean of
    the distribution as expected value, and its variance is that of the
    distribution divided by n (cumulative) or by min(n, W) (window and, although
    it weighs the values of two blocks differently, interim); decay:
    multiplied by f/(2-f) (1+(1-f)^n)/(1-(1-f)^n). *)
Theorem C105_means : forall (eps : R) (D : dist R) (n W : nat) (f : R) (h : list (op R)),
  probability D -> (0 < n)%nat -> (N.of_nat n < szmod)%N ->
  (0 < W)%nat -> (2 * N.of_nat W < szmod)%N -> 0 < f <= 1 ->
  let observe l := h ++ Clear :: pushes l in
  let same := repeat D n in
  noise same (fun l => cmean_mean _ (run_cmean eps (observe l))) (pop_mean D) (pop_variance D / INR n) /\
  noise same (fun l => wmean_mean _ (run_wmean eps W (observe l))) (pop_mean D) (pop_variance D / INR (Nat.min n W)) /\
  noise same (fun l => imean_mean _ (N.of_nat W) (run_imean eps W (observe l))) (pop_mean D) (pop_variance D / INR (Nat.min n W)) /\
  noise same (fun l => dmean_mean _ (run_dmean eps f (observe l))) (pop_mean D)
    (pop_variance D * (f / (2 - f)) * ((1 + (1 - f) ^ n) / (1 - (1 - f) ^ n))).
Proof. exact c105_means. Qed.
Print Assumptions C105_means.

(** C105_means_ex: ten observations of a die with three sides, window of four
    values, decay factor 1/10. *)
Example C105_means_ex :
  let D := [(/ 2, 1); (/ 4, 3); (/ 4, 4)] in
  probability D /\ pop_variance D = 27 / 16 /\ (0 < 10)%nat /\ (N.of_nat 10 < szmod)%N /\ (2 * N.of_nat 4 < szmod)%N /\ 0 < / 10 <= 1.
Proof. exact c105_means_ex. Qed.

(** C105_decay_span: the usual correspondence of smoothing factors: with
    factor 2/(W+1) the variance of the decay mean is never below that of a window
    of W values, and comes arbitrarily close to it with the number of
    observations. *)
Theorem C105_decay_span : forall (eps : R) (D : dist R) (W : nat) (h : list (op R)),
  probability D -> (0 < W)%nat ->
  let f := 2 / (INR W + 1) in
  let out l := dmean_mean _ (run_dmean eps f (h ++ Clear :: pushes l)) in
  (forall n, (0 < n)%nat -> (N.of_nat n < szmod)%N ->
   exists v, noise (repeat D n) out (pop_mean D) v /\ pop_variance D / INR W <= v) /\
  (forall d, 0 < d -> exists n0, forall n, (n0 <= n)%nat -> (0 < n)%nat -> (N.of_nat n < szmod)%N ->
   exists v, noise (repeat D n) out (pop_mean D) v /\ v <= pop_variance D / INR W + d).
Proof. exact c105_span. Qed.
Print Assumptions C105_decay_span.

(** C105_decay_span_ex: a span of 19 observations is the factor 1/10. *)
Example C105_decay_span_ex :
  probability [(/ 2, 1); (/ 4, 3); (/ 4, 4)] /\ (0 < 19)%nat /\ 2 / (INR 19 + 1) = / 10.
Proof. exact c105_span_ex. Qed.

(** C105_fir: finite impulse response: the expected value is the mean of the
    distribution times the sum of the coefficients reached so far, the variance
    that of the distribution times the sum of their squares. *)
Theorem C105_fir : forall (eps : R) (D : dist R) (c : list R) (n : nat) (h : list (op R)),
  probability D -> (0 < n)%nat -> c <> [] ->
  noise (repeat D n) (fun l => fir_value _ (run_fir eps c (h ++ Clear :: pushes l)))
    (pop_mean D * Rsum (firstn n c)) (pop_variance D * energy (firstn n c)).
Proof. exact c105_fir. Qed.
Print Assumptions C105_fir.

(** C105_fir_ex: the average of neighbours halves the variance. *)
Example C105_fir_ex :
  probability [(/ 2, 1); (/ 4, 3); (/ 4, 4)] /\ (0 < 5)%nat /\ [/ 2; / 2] <> [] /\
  Rsum (firstn 5 [/ 2; / 2]) = 1 /\ energy (firstn 5 [/ 2; / 2]) = / 2.
Proof. exact c105_fir_ex. Qed.

(** C105_regression: observations of y at given x, on a line a + b x up to
    independent errors of mean 0 and variance s2: the variance of slope() is
    s2 / sum (x - mean x)^2, that of at(p) is s2 (1/n + (p - mean x)^2 / sum
    (x - mean x)^2): cumulative regression. *)
Theorem C105_regression : forall (eps a b p s2 : R) (X : list R) (Ds : list (dist R)) (h : list (op (R * R))),
  Forall probability Ds -> Forall (fun D => pop_variance D = s2) Ds ->
  Forall2 (fun x D => pop_mean D = a + b * x) X Ds ->
  (N.of_nat (length X) < szmod)%N -> (forall c, ~ constant c X) ->
  let observe Y := h ++ Clear :: pushes (combine X Y) in
  let Sxx := Rsum (map (fun x => (x - mean X) ^ 2) X) in
  noise Ds (fun Y => creg_slope _ (run_creg eps (observe Y))) b (s2 / Sxx) /\
  noise Ds (fun Y => creg_at _ (run_creg eps (observe Y)) (Fin p)) (a + b * p)
    (s2 * (/ INR (length X) + (p - mean X) ^ 2 / Sxx)).
Proof. exact c105_regression. Qed.
Print Assumptions C105_regression.

(** C105_regression_ex: three points on 1 + 2 x with errors of one up or
    down; the sum of squares of x is 2. *)
Example C105_regression_ex :
  let noisy y := [(/ 2, y - 1); (/ 2, y + 1)] in
  let X := [0; 1; 2] in
  let Ds := [noisy 1; noisy 3; noisy 5] in
  Forall probability Ds /\ Forall (fun D => pop_variance D = 1) Ds /\
  Forall2 (fun x D => pop_mean D = 1 + 2 * x) X Ds /\
  (N.of_nat (length X) < szmod)%N /\ (forall c, ~ constant c X) /\
  Rsum (map (fun x => (x - mean X) ^ 2) X) = 2.
Proof. exact c105_regression_ex. Qed.

(** C105_chance: the chance that a mean() is off by t or more is at most its
    variance over t^2; hence for every t and d, after s2/(d t^2) observations the
    cumulative mean() is off by t or more with a chance of at most d. *)
Theorem C105_chance : forall (eps : R) (D : dist R) (n W : nat) (t d : R) (h : list (op R)),
  probability D -> (0 < n)%nat -> (N.of_nat n < szmod)%N ->
  (0 < W)%nat -> (2 * N.of_nat W < szmod)%N -> 0 < t -> 0 < d ->
  let observe l := h ++ Clear :: pushes l in
  let same := repeat D n in
  (exists p, chance_off same (fun l => wmean_mean _ (run_wmean eps W (observe l))) (pop_mean D) t p /\
             0 <= p <= pop_variance D / INR (Nat.min n W) / (t * t)) /\
  (exists p, chance_off same (fun l => imean_mean _ (N.of_nat W) (run_imean eps W (observe l))) (pop_mean D) t p /\
             0 <= p <= pop_variance D / INR (Nat.min n W) / (t * t)) /\
  (exists p, chance_off same (fun l => cmean_mean _ (run_cmean eps (observe l))) (pop_mean D) t p /\
             0 <= p <= pop_variance D / INR n / (t * t) /\
             (pop_variance D / (d * (t * t)) <= INR n -> p <= d)).
Proof. exact c105_chance. Qed.
Print Assumptions C105_chance.

(** C105_chance_ex: three thousand observations of the die are enough for an
    error below 1/10 with probability 9/10. *)
Example C105_chance_ex :
  let D := [(/ 2, 1); (/ 4, 3); (/ 4, 4)] in
  probability D /\ (0 < 3000)%nat /\ (N.of_nat 3000 < szmod)%N /\ (0 < 4)%nat /\ (2 * N.of_nat 4 < szmod)%N /\
  0 < / 10 /\ pop_variance D / (/ 10 * (/ 10 * / 10)) <= INR 3000.
Proof. exact c105_chance_ex. Qed.
