(** * Property theorems: Pooling

    Statements only; every proof is [exact] of a lemma in ClaimsPooling.v.
    Generated by tools/mkprops.py. *)

From Coq Require Import Reals ZArith NArith List Bool.
From Verif Require Import Arith History SpecStats Cumulative ExactRuns.
Import ListNotations.
Local Open Scope R_scope.

(** The average of [a] and [b] over parts of [n1] and [n2] values. *)
Definition pooled (n1 n2 a b : R) : R := (n1 * a + n2 * b) / (n1 + n2).
From Verif Require Import ClaimsPooling.

(** C117_mean_variance: two cumulative filters that received parts of the data
    report the mean and the variance of all the data, as reported by a filter that
    received everything: the mean is the average of the means over the two sizes, and
    the variance the average of the variances plus a term in the distance of the
    means. *)
Theorem C117_mean_variance : forall (eps : R) (ops1 ops2 ops : list (op R)),
  let l1 := since_clear ops1 in
  let l2 := since_clear ops2 in
  since_clear ops = l1 ++ l2 -> fits (l1 ++ l2) -> l1 <> [] -> l2 <> [] ->
  exists m1 m2 v1 v2,
    cvar_mean _ (run_cvar eps ops1) = Fin m1 /\ cvar_variance _ (run_cvar eps ops1) = Fin v1 /\
    cvar_mean _ (run_cvar eps ops2) = Fin m2 /\ cvar_variance _ (run_cvar eps ops2) = Fin v2 /\
    let n1 := IZR (Z.of_N (cvar_size _ (run_cvar eps ops1))) in
    let n2 := IZR (Z.of_N (cvar_size _ (run_cvar eps ops2))) in
    cvar_mean _ (run_cvar eps ops) = Fin (pooled n1 n2 m1 m2) /\
    cvar_variance _ (run_cvar eps ops) = Fin (pooled n1 n2 v1 v2 + n1 * n2 * ((m1 - m2) / (n1 + n2)) ^ 2).
Proof. exact c117_mean_variance. Qed.
Print Assumptions C117_mean_variance.

(** C117_mean_variance_ex: parts of two and three values. *)
Example C117_mean_variance_ex :
  let l1 := since_clear [Push 5; Clear; Push 1; Push 3] in
  let l2 := since_clear (pushes [4; 7; 10]) in
  fits (l1 ++ l2) /\ l1 <> [] /\ l2 <> [] /\ mean (l1 ++ l2) = 5 /\ variance (l1 ++ l2) = 10.
Proof. exact c117_mean_variance_ex. Qed.

(** C117_higher: likewise skewness and kurtosis from size, mean, variance,
    skewness and kurtosis of the parts, when none of the central sums is below the
    cut-off of C03 and C04: the third and fourth central moments [g v sqrt v] and
    [k v^2] are averages of those of the parts, moved to the common mean. *)
Theorem C117_higher : forall (eps : R) (ops1 ops2 ops : list (op R)),
  let l1 := since_clear ops1 in
  let l2 := since_clear ops2 in
  0 < eps -> since_clear ops = l1 ++ l2 -> (N.of_nat (length (l1 ++ l2)) <= 4294967297)%N ->
  eps <= csum 3 l1 -> eps <= csum 3 l2 -> eps <= csum 3 (l1 ++ l2) ->
  eps <= csum 4 l1 -> eps <= csum 4 l2 -> eps <= csum 4 (l1 ++ l2) ->
  exists m1 m2 m v1 v2 v g1 g2 g k1 k2 k,
    (let s := run_ckurt eps ops1 in
     ckurt_mean _ s = Fin m1 /\ ckurt_variance _ s = Fin v1 /\ ckurt_skewness _ s = Fin g1 /\ ckurt_kurtosis _ s = Fin k1) /\
    (let s := run_ckurt eps ops2 in
     ckurt_mean _ s = Fin m2 /\ ckurt_variance _ s = Fin v2 /\ ckurt_skewness _ s = Fin g2 /\ ckurt_kurtosis _ s = Fin k2) /\
    (let s := run_ckurt eps ops in
     ckurt_mean _ s = Fin m /\ ckurt_variance _ s = Fin v /\ ckurt_skewness _ s = Fin g /\ ckurt_kurtosis _ s = Fin k) /\
    let n1 := IZR (Z.of_N (ckurt_size _ (run_ckurt eps ops1))) in
    let n2 := IZR (Z.of_N (ckurt_size _ (run_ckurt eps ops2))) in
    let third g v := g * (v * sqrt v) in
    let fourth k v := k * v ^ 2 in
    third g v = pooled n1 n2 (third g1 v1 + 3 * (m1 - m) * v1 + (m1 - m) ^ 3)
                             (third g2 v2 + 3 * (m2 - m) * v2 + (m2 - m) ^ 3) /\
    fourth k v = pooled n1 n2 (fourth k1 v1 + 4 * (m1 - m) * third g1 v1 + 6 * (m1 - m) ^ 2 * v1 + (m1 - m) ^ 4)
                              (fourth k2 v2 + 4 * (m2 - m) * third g2 v2 + 6 * (m2 - m) ^ 2 * v2 + (m2 - m) ^ 4).
Proof. exact c117_higher. Qed.
Print Assumptions C117_higher.

(** C117_higher_ex: two right-skewed parts. *)
Example C117_higher_ex :
  let l1 := since_clear (pushes [0; 0; 3]) in
  let l2 := since_clear (pushes [1; 1; 1; 5]) in
  eps64 <= csum 3 l1 /\ eps64 <= csum 3 l2 /\ eps64 <= csum 3 (l1 ++ l2) /\
  eps64 <= csum 4 l1 /\ eps64 <= csum 4 l2 /\ eps64 <= csum 4 (l1 ++ l2).
Proof. exact c117_higher_ex. Qed.

(** C117_covariance: the covariance of all pairs from size, means and covariance
    of the parts. *)
Theorem C117_covariance : forall (eps : R) (ops1 ops2 ops : list (op (R * R))),
  let l1 := since_clear ops1 in
  let l2 := since_clear ops2 in
  let mx o := cmean_mean _ (run_cmean eps (map (op_map fst) o)) in
  let my o := cmean_mean _ (run_cmean eps (map (op_map snd) o)) in
  since_clear ops = l1 ++ l2 -> fits (l1 ++ l2) -> l1 <> [] -> l2 <> [] ->
  exists c1 c2 x1 x2 y1 y2,
    ccov_variance _ (run_ccov eps ops1) = Fin c1 /\ mx ops1 = Fin x1 /\ my ops1 = Fin y1 /\
    ccov_variance _ (run_ccov eps ops2) = Fin c2 /\ mx ops2 = Fin x2 /\ my ops2 = Fin y2 /\
    let n1 := IZR (Z.of_N (ccov_size _ (run_ccov eps ops1))) in
    let n2 := IZR (Z.of_N (ccov_size _ (run_ccov eps ops2))) in
    ccov_variance _ (run_ccov eps ops) =
      Fin (pooled n1 n2 c1 c2 + n1 * n2 * ((x1 - x2) / (n1 + n2)) * ((y1 - y2) / (n1 + n2))).
Proof. exact c117_covariance. Qed.
Print Assumptions C117_covariance.

(** C117_covariance_ex: parts of one and two pairs. *)
Example C117_covariance_ex :
  let l1 := since_clear (pushes [(1, 2)]) in
  let l2 := since_clear (pushes [(3, 8); (5, 2)]) in
  fits (l1 ++ l2) /\ l1 <> [] /\ l2 <> [] /\ covariance (l1 ++ l2) = 0.
Proof. exact c117_covariance_ex. Qed.

(** C117_residuals: the mean squared distance of the data from the line reported
    by the regression filter is the variance of y less slope times covariance; above
    the cut-off of C08 it is the variance of y times one minus the squared correlation
    coefficient. *)
Theorem C117_residuals : forall (eps : R) (ops : list (op (R * R))),
  0 < eps ->
  let l := since_clear ops in
  fits l -> l <> [] ->
  exists at_ b c vx vy r,
    (forall p, creg_at _ (run_creg eps ops) (Fin p) = Fin (at_ p)) /\ creg_slope _ (run_creg eps ops) = Fin b /\
    ccov_variance _ (run_ccov eps ops) = Fin c /\
    cvar_variance _ (run_cvar eps (map (op_map fst) ops)) = Fin vx /\
    cvar_variance _ (run_cvar eps (map (op_map snd) ops)) = Fin vy /\ ccorr_value _ (run_ccorr eps ops) = Fin r /\
    let residual := mean (map (fun p => (snd p - at_ (fst p)) ^ 2) l) in
    residual = vy - b * c /\ (eps <= vx * vy -> residual = vy * (1 - r ^ 2)).
Proof. exact c117_residuals. Qed.
Print Assumptions C117_residuals.

(** C117_residuals_ex: the four points of C97_pairs_ex, residual 6. *)
Example C117_residuals_ex :
  let l := since_clear (pushes [(0, 0); (2, 4); (4, 0); (6, 8)]) in
  fits l /\ l <> [] /\ eps64 <= variance (xs l) * variance (ys l).
Proof. exact c117_residuals_ex. Qed.
