(** * Property theorems: Cumulative

    Statements only; every proof is [exact] of a lemma in ClaimsCumulative.v.
    Generated by tools/mkprops.py. *)

From Coq Require Import Reals ZArith NArith Bool List Permutation.
From Coq Require Import Floats.SpecFloat.
From Verif Require Import Arith History SpecStats Cumulative ExactRuns.
Import ListNotations.
Local Open Scope R_scope.
From Verif Require Import ClaimsCumulative.

(** C01_cumulative_mean: after any history, size() is the number of values
    since the last clear() and mean() their arithmetic mean, for all four
    classes of cumulative moments; unbiased_mean() is n/(n-1) times the mean. *)
Theorem C01_cumulative_mean : forall (eps : R) (ops : list (op R)),
  let l := since_clear ops in
  let n := N.of_nat (length l) in
  fits l ->
  (cmean_size _ (run_cmean eps ops) = n /\
   cvar_size _ (run_cvar eps ops) = n /\
   cskew_size _ (run_cskew eps ops) = n /\
   ckurt_size _ (run_ckurt eps ops) = n) /\
  (let e := match l with [] => true | _ => false end in
   cmean_empty _ (run_cmean eps ops) = e /\
   cvar_empty _ (run_cvar eps ops) = e /\
   cskew_empty _ (run_cskew eps ops) = e /\
   ckurt_empty _ (run_ckurt eps ops) = e) /\
  (l <> [] ->
   cmean_mean _ (run_cmean eps ops) = Fin (mean l) /\
   cvar_mean _ (run_cvar eps ops) = Fin (mean l) /\
   cskew_mean _ (run_cskew eps ops) = Fin (mean l) /\
   ckurt_mean _ (run_ckurt eps ops) = Fin (mean l)) /\
  ((2 <= length l)%nat ->
   let u := Fin (card l * mean l / (card l - 1)) in
   cmean_unbiased_mean _ (run_cmean eps ops) = u /\
   cvar_unbiased_mean _ (run_cvar eps ops) = u /\
   cskew_unbiased_mean _ (run_cskew eps ops) = u /\
   ckurt_unbiased_mean _ (run_ckurt eps ops) = u).
Proof. exact c01. Qed.
Print Assumptions C01_cumulative_mean.

(** C01_cumulative_mean_ex: a history with a clear in the middle. *)
Example C01_cumulative_mean_ex :
  let ops := [Push 7; Clear; Push 1; Push 2; Push 6] in
  fits (since_clear ops) /\ since_clear ops = [1; 2; 6] /\
  (2 <= length (since_clear ops))%nat /\ mean (since_clear ops) = 3.
Proof. exact c01_ex. Qed.

(** C02_cumulative_variance: variance() is the population variance and
    unbiased_variance() the sample variance of the values since the last
    clear(); neither is negative. *)
Theorem C02_cumulative_variance : forall (eps : R) (ops : list (op R)),
  let l := since_clear ops in
  fits l ->
  (l <> [] ->
   cvar_variance _ (run_cvar eps ops) = Fin (variance l) /\
   cskew_variance _ (run_cskew eps ops) = Fin (variance l) /\
   ckurt_variance _ (run_ckurt eps ops) = Fin (variance l) /\
   0 <= variance l) /\
  ((2 <= length l)%nat ->
   cvar_unbiased_variance _ (run_cvar eps ops) = Fin (sample_variance l) /\
   cskew_unbiased_variance _ (run_cskew eps ops) = Fin (sample_variance l) /\
   ckurt_unbiased_variance _ (run_ckurt eps ops) = Fin (sample_variance l) /\
   0 <= sample_variance l).
Proof. exact c02. Qed.
Print Assumptions C02_cumulative_variance.

(** C02_cumulative_variance_ex: data with non-zero variance. *)
Example C02_cumulative_variance_ex :
  let ops := [Push 7; Clear; Push 1; Push 2; Push 6] in
  fits (since_clear ops) /\ since_clear ops <> [] /\
  variance (since_clear ops) = 14 / 3 /\ sample_variance (since_clear ops) = 7.
Proof. exact c02_ex. Qed.

(** C03_cumulative_skewness_partial: skewness() is the biased sample
    skewness whenever the third central sum is at least epsilon; otherwise it is
    0. Missing for the full property: data with third central sum below
    epsilon, in particular all left-skewed data (see C03_..._refuted). *)
Theorem C03_cumulative_skewness_partial : forall (eps : R) (ops : list (op R)),
  0 < eps ->
  let l := since_clear ops in
  fits l ->
  (eps <= csum 3 l ->
   cskew_skewness _ (run_cskew eps ops) = Fin (skewness l) /\
   ckurt_skewness _ (run_ckurt eps ops) = Fin (skewness l)) /\
  (csum 3 l < eps ->
   cskew_skewness _ (run_cskew eps ops) = Fin 0 /\
   ckurt_skewness _ (run_ckurt eps ops) = Fin 0).
Proof. exact c03_partial. Qed.
Print Assumptions C03_cumulative_skewness_partial.

(** C03_cumulative_skewness_partial_ex: right-skewed data above epsilon. *)
Example C03_cumulative_skewness_partial_ex :
  let l := since_clear [Push 0; Push 0; Push 0; Push 4] in
  fits l /\ eps64 <= csum 3 l.
Proof. exact c03_ex. Qed.

(** C03_cumulative_skewness_refuted: for every left-skewed data set the
    true skewness is negative but skewness() returns 0; such data exist. *)
Theorem C03_cumulative_skewness_refuted :
  (forall ops : list (op R),
     let l := since_clear ops in
     fits l -> csum 3 l < 0 ->
     skewness l < 0 /\
     cskew_skewness _ (run_cskew eps64 ops) = Fin 0) /\
  (exists ops : list (op R),
     let l := since_clear ops in
     fits l /\ csum 3 l < 0 /\ 0 < variance l /\
     cskew_skewness _ (run_cskew eps64 ops) <> Fin (skewness l)).
Proof. exact c03_refuted. Qed.
Print Assumptions C03_cumulative_skewness_refuted.

(** C04_cumulative_kurtosis_partial: up to 2^32+1 values, kurtosis() is
    the biased sample kurtosis whenever the fourth central sum is at least
    epsilon, otherwise 0. Missing: more values (size_t wrap-around) and data of
    small scale. *)
Theorem C04_cumulative_kurtosis_partial : forall (eps : R) (ops : list (op R)),
  0 < eps ->
  let l := since_clear ops in
  (N.of_nat (length l) <= 4294967297)%N ->
  (eps <= csum 4 l ->
   ckurt_kurtosis _ (run_ckurt eps ops) = Fin (kurtosis l)) /\
  (csum 4 l < eps ->
   ckurt_kurtosis _ (run_ckurt eps ops) = Fin 0).
Proof. exact c04_partial. Qed.
Print Assumptions C04_cumulative_kurtosis_partial.

(** C04_cumulative_kurtosis_partial_ex: ordinary data above epsilon. *)
Example C04_cumulative_kurtosis_partial_ex :
  let l := since_clear [Push 0; Push 0; Push 0; Push 4] in
  (N.of_nat (length l) <= 4294967297)%N /\ eps64 <= csum 4 l /\
  kurtosis l = 7 / 3.
Proof. exact c04_ex. Qed.

(** C04_cumulative_kurtosis_refuted: (1) after 2^32+2 values of which one
    is 1 and the others 0 the true kurtosis exceeds four billion, but the
    size_t product n*(n-3)+3 has wrapped and kurtosis() returns less than 2;
    (2) four values of small scale with kurtosis 7/3 give 0. *)
Theorem C04_cumulative_kurtosis_refuted :
  (exists (ops : list (op R)) (k : R),
     let l := since_clear ops in
     fits l /\ eps64 <= csum 4 l /\
     ckurt_kurtosis _ (run_ckurt eps64 ops) = Fin k /\
     k < 2 /\ 4000000000 < kurtosis l) /\
  (exists (ops : list (op R)),
     let l := since_clear ops in
     fits l /\ 0 < variance l /\ kurtosis l = 7 / 3 /\
     ckurt_kurtosis _ (run_ckurt eps64 ops) = Fin 0).
Proof. exact c04_refuted. Qed.
Print Assumptions C04_cumulative_kurtosis_refuted.

(** C05_bias_corrected_partial: up to 2^32 values, unbiased_skewness() and
    unbiased_kurtosis() always return a finite number: the bias-corrected
    statistic when there are enough values and the central sum reaches epsilon,
    otherwise 0; the divisors count-2 and count-3 are never zero when used.
    Missing: more than 2^32 values (wrap-around) and the epsilon cut-off. *)
Theorem C05_bias_corrected_partial : forall (eps : R) (ops : list (op R)),
  0 < eps ->
  let l := since_clear ops in
  (N.of_nat (length l) <= 4294967296)%N ->
  (csum 3 l < eps -> cskew_unbiased_skewness _ (run_cskew eps ops) = Fin 0) /\
  (eps <= csum 3 l ->
   (3 <= length l)%nat /\
   cskew_unbiased_skewness _ (run_cskew eps ops) = Fin (sample_skewness l) /\
   ckurt_unbiased_skewness _ (run_ckurt eps ops) = Fin (sample_skewness l)) /\
  ((length l < 4)%nat \/ csum 4 l < eps ->
   ckurt_unbiased_kurtosis _ (run_ckurt eps ops) = Fin 0) /\
  ((4 <= length l)%nat -> eps <= csum 4 l ->
   ckurt_unbiased_kurtosis _ (run_ckurt eps ops) = Fin (sample_kurtosis l)).
Proof. exact c05_partial. Qed.
Print Assumptions C05_bias_corrected_partial.

(** C05_bias_corrected_partial_ex: four values reaching both cut-offs. *)
Example C05_bias_corrected_partial_ex :
  let l := since_clear [Push 0; Push 0; Push 0; Push 4] in
  (N.of_nat (length l) <= 4294967296)%N /\ (4 <= length l)%nat /\
  eps64 <= csum 3 l /\ eps64 <= csum 4 l /\ sample_kurtosis l = 7.
Proof. exact c05_ex. Qed.

(** C05_bias_corrected_refuted: after 2^32+1 values (one 1, the others 0)
    the product count*(count-1) wraps and unbiased_skewness() is smaller than
    the corrected skewness by a factor of more than 60000. *)
Theorem C05_bias_corrected_refuted :
  exists (ops : list (op R)) (u : R),
    let l := since_clear ops in
    fits l /\ eps64 <= csum 3 l /\
    cskew_unbiased_skewness _ (run_cskew eps64 ops) = Fin u /\
    0 < u /\ 60000 * u < sample_skewness l.
Proof. exact c05_refuted. Qed.
Print Assumptions C05_bias_corrected_refuted.

(** C06_cumulative_covariance: variance() of cumulative::covariance is the
    population covariance (0 when empty), unbiased_variance() the sample
    covariance (0 below two points); size() counts the points and its internal
    assertion holds. *)
Theorem C06_cumulative_covariance : forall (eps : R) (ops : list (op (R * R))),
  let l := since_clear ops in
  fits l ->
  ccov_size _ (run_ccov eps ops) = N.of_nat (length l) /\
  ccov_size_assert _ (run_ccov eps ops) = true /\
  ccov_variance _ (run_ccov eps ops) =
    Fin (match l with [] => 0 | _ => covariance l end) /\
  ccov_unbiased_variance _ (run_ccov eps ops) =
    Fin (match l with [] | [_] => 0 | _ => sample_covariance l end).
Proof. exact c06. Qed.
Print Assumptions C06_cumulative_covariance.

(** C06_cumulative_covariance_ex: three points after a clear. *)
Example C06_cumulative_covariance_ex :
  let l := since_clear [Push (9, 9); Clear; Push (1, 2); Push (2, 4); Push (6, 0)] in
  fits l /\ covariance l = -8 / 3 /\ sample_covariance l = -4.
Proof. exact c06_ex. Qed.

(** C07_covariance_algebra: for every list of points (x,y,z) pushed as
    pairs: covariance is symmetric, additive and homogeneous in an argument,
    invariant under offsets, zero against a constant, and the covariance of a
    stream with itself is its variance. *)
Theorem C07_covariance_algebra : forall (eps : R) (l : list (R * R)) (t : list (R * R * R)) (a b c d : R),
  fits l -> fits t ->
  let cov := fun l => ccov_variance _ (run_ccov eps (pushes l)) in
  cov (map (fun p => (snd p, fst p)) l) = cov l /\
  (forall k, cov l = Fin k ->
     cov (map (fun p => (a * fst p + c, b * snd p + d)) l) = Fin (a * b * k)) /\
  (forall k1 k2,
     cov (map (fun p => (fst (fst p), snd p)) t) = Fin k1 ->
     cov (map (fun p => (snd (fst p), snd p)) t) = Fin k2 ->
     cov (map (fun p => (fst (fst p) + snd (fst p), snd p)) t) = Fin (k1 + k2)) /\
  cov (map (fun p => (fst p, c)) l) = Fin 0 /\
  (l <> [] ->
   cov (map (fun p => (fst p, fst p)) l) =
   cvar_variance _ (run_cvar eps (pushes (map fst l)))).
Proof. exact c07. Qed.
Print Assumptions C07_covariance_algebra.

(** C07_covariance_algebra_ex: the hypotheses hold of concrete lists and
    the covariances involved are not zero. *)
Example C07_covariance_algebra_ex :
  fits [(1, 2); (2, 4); (6, 0)] /\ fits [((1, 5), 2); ((2, 3), 4)] /\
  ccov_variance _ (run_ccov eps64 (pushes [(1, 2); (2, 4); (6, 0)])) = Fin (-8 / 3).
Proof. exact c07_ex. Qed.

(** C08_correlation_partial: for every non-empty history value() lies in
    [-1,1]; it is Pearson's coefficient when the product of the variances is at
    least epsilon, and 1 otherwise. Missing: small-scale data and rounding (see
    the two refutations). *)
Theorem C08_correlation_partial : forall (eps : R) (ops : list (op (R * R))),
  0 < eps ->
  let l := since_clear ops in
  fits l -> l <> [] ->
  (exists r, ccorr_value _ (run_ccorr eps ops) = Fin r /\ -1 <= r <= 1) /\
  (eps <= variance (xs l) * variance (ys l) ->
   ccorr_value _ (run_ccorr eps ops) = Fin (pearson l)) /\
  (variance (xs l) * variance (ys l) < eps ->
   ccorr_value _ (run_ccorr eps ops) = Fin 1) /\
  ccorr_size _ (run_ccorr eps ops) = N.of_nat (length l).
Proof. exact c08_partial. Qed.
Print Assumptions C08_correlation_partial.

(** C08_correlation_partial_ex: points with variance product above epsilon
    and correlation strictly between -1 and 0. *)
Example C08_correlation_partial_ex :
  let l := since_clear [Push (1, 2); Push (2, 4); Push (6, 0)] in
  fits l /\ l <> [] /\ eps64 <= variance (xs l) * variance (ys l) /\ covariance l < 0.
Proof. exact c08_ex. Qed.

(** C08_correlation_refuted: two perfectly anti-correlated points of
    small scale (Pearson coefficient -1) give +1. *)
Theorem C08_correlation_refuted :
  exists ops : list (op (R * R)),
    let l := since_clear ops in
    fits l /\ 0 < variance (xs l) /\ 0 < variance (ys l) /\
    pearson l = -1 /\
    ccorr_value _ (run_ccorr eps64 ops) = Fin 1.
Proof. exact c08_refuted. Qed.
Print Assumptions C08_correlation_refuted.

(** C08_correlation_binary64_refuted: in binary64 the three collinear
    points (8,24), (1,3), (2,6) have a reported correlation greater than 1. *)
Theorem C08_correlation_binary64_refuted :
  exists l : list (b64num * b64num),
    l = [(b64_of_Z 8, b64_of_Z 24); (b64_of_Z 1, b64_of_Z 3); (b64_of_Z 2, b64_of_Z 6)] /\
    nlt (n1 : b64num)
        (ccorr_value b64num (fold_left (ccorr_push b64num) l (ccorr_init b64num)))
    = true.
Proof. exact c08_b64. Qed.
Print Assumptions C08_correlation_binary64_refuted.

(** C09_cumulative_regression: for every non-empty history slope() and
    at() describe a line a + b*x that minimises the sum of squared residuals
    over all lines; it is the only minimiser unless all x are equal, in which
    case slope() is 0 and at() is the mean of y everywhere; collinear points are
    recovered exactly. *)
Theorem C09_cumulative_regression : forall (eps : R) (ops : list (op (R * R))),
  let l := since_clear ops in
  let s := run_creg eps ops in
  fits l -> l <> [] ->
  creg_size _ s = N.of_nat (length l) /\ creg_size_assert _ s = true /\
  exists a b,
    creg_slope _ s = Fin b /\
    (forall p, creg_at _ s (Fin p) = Fin (a + b * p)) /\
    (forall a' b', sse a b l <= sse a' b' l) /\
    (forall c, constant c (xs l) -> b = 0 /\ a = mean (ys l)) /\
    ((forall c, ~ constant c (xs l)) ->
     (forall a' b', sse a' b' l = sse a b l -> a' = a /\ b' = b) /\
     (forall a' b', collinear a' b' l -> a' = a /\ b' = b)).
Proof. exact c09. Qed.
Print Assumptions C09_cumulative_regression.

(** C09_cumulative_regression_ex: non-constant x, not collinear. *)
Example C09_cumulative_regression_ex :
  let l := since_clear [Push (0, 0); Push (1, 3); Push (2, 0)] in
  fits l /\ l <> [] /\ (forall c, ~ constant c (xs l)) /\
  (forall a b, ~ collinear a b l).
Proof. exact c09_ex. Qed.

(** C10_trend: value() is 3*mean - 2*(mean of the running means); on an
    arithmetic progression of any length, start and step it is exactly the last
    value pushed. *)
Theorem C10_trend : forall (eps : R) (ops : list (op R)),
  let l := since_clear ops in
  fits l ->
  ctrend_size _ (run_ctrend eps ops) = N.of_nat (length l) /\
  ctrend_value _ (run_ctrend eps ops) =
    Fin (3 * mean l - 2 * mean (running_means l)) /\
  (forall a st n,
     l = map (fun i => a + st * INR i) (seq 0 (S n)) ->
     ctrend_value _ (run_ctrend eps ops) = Fin (a + st * INR n)).
Proof. exact c10. Qed.
Print Assumptions C10_trend.

(** C10_trend_ex: the progression 5, 8, 11, 14 after a clear. *)
Example C10_trend_ex :
  let l := since_clear [Push 9; Clear; Push 5; Push 8; Push 11; Push 14] in
  fits l /\ l = map (fun i => 5 + 3 * INR i) (seq 0 4).
Proof. exact c10_ex. Qed.

(** C11_order_irrelevant_partial: in exact arithmetic permuting the data
    does not change the state of a cumulative mean, variance, skewness,
    kurtosis (up to 2^32+1 values), covariance, correlation or regression
    filter, hence no observable. Missing: floating-point, where it is false
    (C11_..._refuted). *)
Theorem C11_order_irrelevant_partial : forall (eps : R) (l1 l2 : list R) (p1 p2 : list (R * R)),
  fits l1 -> fits p1 -> Permutation l1 l2 -> Permutation p1 p2 ->
  run_cmean eps (pushes l1) = run_cmean eps (pushes l2) /\
  run_cvar eps (pushes l1) = run_cvar eps (pushes l2) /\
  run_cskew eps (pushes l1) = run_cskew eps (pushes l2) /\
  ((N.of_nat (length l1) <= 4294967297)%N ->
   run_ckurt eps (pushes l1) = run_ckurt eps (pushes l2)) /\
  run_ccov eps (pushes p1) = run_ccov eps (pushes p2) /\
  run_ccorr eps (pushes p1) = run_ccorr eps (pushes p2) /\
  run_creg eps (pushes p1) = run_creg eps (pushes p2).
Proof. exact c11_partial. Qed.
Print Assumptions C11_order_irrelevant_partial.

(** C11_order_irrelevant_partial_ex: a non-trivial permutation. *)
Example C11_order_irrelevant_partial_ex :
  fits [1; 2; 3] /\ fits [(1, 2); (3, 4)] /\
  Permutation [1; 2; 3] [3; 1; 2] /\ Permutation [(1, 2); (3, 4)] [(3, 4); (1, 2)].
Proof. exact c11_ex. Qed.

(** C11_order_irrelevant_refuted: in binary64 the mean of 0,0,1 depends on
    the order in which they are pushed. *)
Theorem C11_order_irrelevant_refuted :
  exists l1 l2 : list b64num,
    Permutation l1 l2 /\
    neq (cmean_mean b64num (fold_left (cmean_push b64num) l1 (cmean_init b64num)))
        (cmean_mean b64num (fold_left (cmean_push b64num) l2 (cmean_init b64num)))
    = false.
Proof. exact c11_refuted. Qed.
Print Assumptions C11_order_irrelevant_refuted.

(** C14_cumulative_clear: for every arithmetic, a cumulative filter that
    is cleared after any history and then used further is in exactly the same
    state as a new filter used the same way. *)
Theorem C14_cumulative_clear : forall (F : num) (h1 h2 : list (op F)) (p1 p2 : list (op (F * F))),
  run (cmean_push F) (cmean_clear F) (cmean_init F) (h1 ++ Clear :: h2) =
  run (cmean_push F) (cmean_clear F) (cmean_init F) h2 /\
  run (cvar_push F) (cvar_clear F) (cvar_init F) (h1 ++ Clear :: h2) =
  run (cvar_push F) (cvar_clear F) (cvar_init F) h2 /\
  run (cskew_push F) (cskew_clear F) (cskew_init F) (h1 ++ Clear :: h2) =
  run (cskew_push F) (cskew_clear F) (cskew_init F) h2 /\
  run (ckurt_push F) (ckurt_clear F) (ckurt_init F) (h1 ++ Clear :: h2) =
  run (ckurt_push F) (ckurt_clear F) (ckurt_init F) h2 /\
  run (ctrend_push F) (ctrend_clear F) (ctrend_init F) (h1 ++ Clear :: h2) =
  run (ctrend_push F) (ctrend_clear F) (ctrend_init F) h2 /\
  run (ccov_push F) (ccov_clear F) (ccov_init F) (p1 ++ Clear :: p2) =
  run (ccov_push F) (ccov_clear F) (ccov_init F) p2 /\
  run (ccorr_push F) (ccorr_clear F) (ccorr_init F) (p1 ++ Clear :: p2) =
  run (ccorr_push F) (ccorr_clear F) (ccorr_init F) p2 /\
  run (creg_push F) (creg_clear F) (creg_init F) (p1 ++ Clear :: p2) =
  run (creg_push F) (creg_clear F) (creg_init F) p2.
Proof. exact c14. Qed.
Print Assumptions C14_cumulative_clear.

(** C14_cumulative_clear_ex: clearing matters: without it the state
    differs (binary64). *)
Example C14_cumulative_clear_ex :
  cmean_mean b64num (run (cmean_push b64num) (cmean_clear b64num) (cmean_init b64num)
     [Push (b64_of_Z 5); Clear; Push (b64_of_Z 1)]) = b64_of_Z 1 /\
  cmean_mean b64num (run (cmean_push b64num) (cmean_clear b64num) (cmean_init b64num)
     [Push (b64_of_Z 5); Push (b64_of_Z 1)]) = b64_of_Z 3.
Proof. exact c14_ex. Qed.
