(** * Property theorems: Inequality

    Statements only; every proof is [exact] of a lemma in ClaimsInequality.v.
    Generated by tools/mkprops.py. *)

From Coq Require Import Reals ZArith NArith Bool List.
From Verif Require Import Arith History SpecStats SpecBlocks SpecDecay SpecInequality Buffer Cumulative Window
  Interim Decay ExactRuns WindowRuns InterimRuns DecayRuns.
Import ListNotations.
Local Open Scope R_scope.
From Verif Require Import ClaimsInequality.

(** C97_cumulative: for the values since the last clear(), mean() lies between the
    smallest and the largest value and variance() is at most (max - mean)(mean - min) and at
    most a quarter of the squared range; every single value is within sqrt(n-1) standard
    deviations of mean() (Samuelson); and the number of values further than d from
    mean() is at most n variance() / d^2 (Chebyshev). *)
Theorem C97_cumulative : forall (eps : R) (ops : list (op R)),
  let l := since_clear ops in
  fits l -> l <> [] ->
  exists m v, cmean_mean _ (run_cmean eps ops) = Fin m /\ cvar_mean _ (run_cvar eps ops) = Fin m /\
    cvar_variance _ (run_cvar eps ops) = Fin v /\ cskew_variance _ (run_cskew eps ops) = Fin v /\
    ckurt_variance _ (run_ckurt eps ops) = Fin v /\
    (forall a b, all_in a b l -> a <= m <= b /\ v <= (b - m) * (m - a) /\ v <= (b - a) ^ 2 / 4) /\
    (forall x, In x l -> (x - m) ^ 2 <= (card l - 1) * v) /\
    (forall d, 0 <= d -> INR (far m d l) * d ^ 2 <= card l * v).
Proof. exact c97_cumulative. Qed.
Print Assumptions C97_cumulative.

(** C97_cumulative_ex: 1, 2, 9 have mean 4 and variance 38/3; one value is at least 5
    away from the mean. *)
Example C97_cumulative_ex :
  let l := since_clear [Push 7; Clear; Push 1; Push 2; Push 9] in
  fits l /\ l <> [] /\ all_in 1 9 l /\ mean l = 4 /\ variance l = 38 / 3 /\ far 4 5 l = 1%nat.
Proof. exact c97_cumulative_ex. Qed.

(** C97_window: the same for the window filters and the values in the window. *)
Theorem C97_window : forall (eps : R) (W : nat) (ops : list (op R)),
  (0 < W)%nat -> (N.of_nat W < szmod)%N ->
  let l := lastn W (since_clear ops) in
  l <> [] ->
  exists m v, wmean_mean _ (run_wmean eps W ops) = Fin m /\ wvar_mean _ (run_wvar eps W ops) = Fin m /\
    wvar_variance _ (run_wvar eps W ops) = Fin v /\
    (forall a b, all_in a b l -> a <= m <= b /\ v <= (b - m) * (m - a) /\ v <= (b - a) ^ 2 / 4) /\
    (forall x, In x l -> (x - m) ^ 2 <= (card l - 1) * v) /\
    (forall d, 0 <= d -> INR (far m d l) * d ^ 2 <= card l * v).
Proof. exact c97_window. Qed.
Print Assumptions C97_window.

(** C97_window_ex: the last three of five values. *)
Example C97_window_ex :
  let l := lastn 3 (since_clear [Push 7; Push 8; Push 1; Push 2; Push 9]) in
  l <> [] /\ all_in 1 9 l /\ mean l = 4 /\ variance l = 38 / 3.
Proof. exact c97_window_ex. Qed.

(** C97_kurtosis: up to 2^32+1 values kurtosis() is either 0 (the cut-off) or lies
    between skewness()^2 + 1 (Pearson's inequality) and the number of values; in particular
    skewness() is then at most sqrt(n-1). *)
Theorem C97_kurtosis : forall (eps : R) (ops : list (op R)),
  0 < eps ->
  let l := since_clear ops in
  (N.of_nat (length l) <= 4294967297)%N ->
  exists s k, ckurt_skewness _ (run_ckurt eps ops) = Fin s /\ cskew_skewness _ (run_cskew eps ops) = Fin s /\
    ckurt_kurtosis _ (run_ckurt eps ops) = Fin k /\
    0 <= s /\ (k = 0 \/ s ^ 2 + 1 <= k <= card l).
Proof. exact c97_kurtosis. Qed.
Print Assumptions C97_kurtosis.

(** C97_kurtosis_ex: for 0, 0, 0, 4 skewness squared is 4/3 and kurtosis 7/3: equality. *)
Example C97_kurtosis_ex :
  let l := since_clear [Push 0; Push 0; Push 0; Push 4] in
  (N.of_nat (length l) <= 4294967297)%N /\ eps64 <= csum 3 l /\ eps64 <= csum 4 l /\
  kurtosis l = 7 / 3 /\ card l = 4.
Proof. exact c97_kurtosis_ex. Qed.

(** C97_pairs: for pairs since the last clear(), the square of the covariance is at
    most the product of the two variances; if both variances are positive, slope() is
    covariance over variance, the product of the slopes of y on x and of x on y is between 0
    and 1, and, above the cut-off, it is the square of the correlation coefficient. *)
Theorem C97_pairs : forall (eps : R) (ops : list (op (R * R))),
  0 < eps ->
  let l := since_clear ops in
  let xops := map (op_map fst) ops in
  let yops := map (op_map snd) ops in
  let swap p : R * R := (snd p, fst p) in
  fits l -> l <> [] ->
  exists c vx vy b b' r,
    ccov_variance _ (run_ccov eps ops) = Fin c /\
    cvar_variance _ (run_cvar eps xops) = Fin vx /\ cvar_variance _ (run_cvar eps yops) = Fin vy /\
    creg_slope _ (run_creg eps ops) = Fin b /\ creg_slope _ (run_creg eps (map (op_map swap) ops)) = Fin b' /\
    ccorr_value _ (run_ccorr eps ops) = Fin r /\
    c ^ 2 <= vx * vy /\
    (0 < vx -> b * vx = c) /\ (0 < vy -> b' * vy = c) /\ 0 <= b * b' <= 1 /\
    (eps <= vx * vy -> r ^ 2 = b * b').
Proof. exact c97_pairs. Qed.
Print Assumptions C97_pairs.

(** C97_pairs_ex: four points with covariance 5, variances 5 and 11: slopes 1 and 5/11. *)
Example C97_pairs_ex :
  let l := since_clear [Push (0, 0); Push (2, 4); Push (4, 0); Push (6, 8)] in
  fits l /\ l <> [] /\ variance (xs l) = 5 /\ variance (ys l) = 11 /\ covariance l = 5.
Proof. exact c97_pairs_ex. Qed.

(** C97_interim: window sizes up to 2^32: the variance of the interim filters is at
    most a quarter of the squared range of the last 2W values, and the square of the interim
    covariance is at most the product of the interim variances of the two coordinates. *)
Theorem C97_interim : forall (eps : R) (W : nat) (ops : list (op (R * R))),
  (0 < W)%nat -> (N.of_nat W <= 4294967296)%N ->
  let w := N.of_nat W in
  let l := since_clear ops in
  let xops := map (op_map fst) ops in
  let yops := map (op_map snd) ops in
  l <> [] ->
  exists c vx vy,
    icov_variance _ w (run_icov eps W ops) = Fin c /\
    ivar_variance _ w (run_ivar eps W xops) = Fin vx /\ ivar_variance _ w (run_ivar eps W yops) = Fin vy /\
    (forall a b, all_in a b (lastn (2 * W) (xs l)) -> vx <= (b - a) ^ 2 / 4) /\
    c ^ 2 <= vx * vy.
Proof. exact c97_interim. Qed.
Print Assumptions C97_interim.

(** C97_interim_ex: windows of two, four points in two blocks. *)
Example C97_interim_ex :
  let l := since_clear [Push (0, 0); Push (4, 8); Push (8, 4); Push (4, 4)] in
  l <> [] /\ (2 < length l)%nat /\ all_in 0 8 (lastn (2 * 2) (xs l)) /\
  covariance (prev_block 2 l) = 8 /\ covariance (cur_block 2 l) = 0.
Proof. exact c97_interim_ex. Qed.

(** C97_decay: the decayed variance is at most the squared range of all values
    pushed; if variance, skewness and kurtosis use the same factor and the variance
    exceeds epsilon, kurtosis() is at least 1 and at least the square of skewness(). *)
Theorem C97_decay : forall (eps fm f : R) (l : list R),
  0 < eps -> 0 < fm <= 1 -> 0 < f <= 1 -> l <> [] ->
  let F := exact eps in
  exists v s k,
    dkurt_variance F (run_dkurt eps fm f f f (pushes l)) = Fin v /\
    dkurt_skewness F (run_dkurt eps fm f f f (pushes l)) = Fin s /\
    dkurt_kurtosis F (run_dkurt eps fm f f f (pushes l)) = Fin k /\
    (forall a b, all_in a b l -> v <= (b - a) ^ 2) /\
    (eps < v -> 1 <= k /\ s ^ 2 <= k).
Proof. exact c97_decay. Qed.
Print Assumptions C97_decay.

(** C97_decay_ex: factors 1/2, values 1 and 4: variance 2/3, skewness and kurtosis
    moments 2/3. *)
Example C97_decay_ex :
  0 < 1 / 2 <= 1 /\ all_in 1 4 [1; 4] /\ eps64 < emoment 2 (1 / 2) (1 / 2) [1; 4].
Proof. exact c97_decay_ex. Qed.
