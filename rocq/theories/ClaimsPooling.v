(** * Claim C117: statistics of two parts combine to those of the whole *)

From Coq Require Import Reals ZArith NArith List Bool.
From Verif Require Import Arith History SpecStats Cumulative ExactRuns.
Import ListNotations.
Local Open Scope R_scope.

(** The average of [a] and [b] over parts of [n1] and [n2] values. *)
Definition pooled (n1 n2 a b : R) : R := (n1 * a + n2 * b) / (n1 + n2).
(* @end-header *)
From Coq Require Import Lia Lra Psatz.
From Flocq Require Import Core.Raux.
From Verif Require Import HistoryLemmas StatsLemmas CumulativeProofs CumulativeStats ClaimsCumulative.

Lemma pool_mean a b : a <> [] -> b <> [] -> mean (a ++ b) = pooled (card a) (card b) (mean a) (mean b).
Proof.
  intros Ha Hb. unfold pooled. rewrite !mean_card. unfold mean. rewrite Rsum_app, card_app. reflexivity.
Qed.

Lemma psum_app k c a b : psum k c (a ++ b) = psum k c a + psum k c b.
Proof. unfold psum. rewrite map_app, Rsum_app. reflexivity. Qed.

Lemma psum_2_at m l : psum 2 m l = csum 2 l + card l * (mean l - m) ^ 2.
Proof. rewrite csum_psum. pose proof (psum_2_shift (mean l) (m - mean l) l) as E. replace (mean l + (m - mean l)) with m in E by ring. rewrite E, psum_1_mean. ring. Qed.
Lemma psum_3_at m l : psum 3 m l = csum 3 l + 3 * (mean l - m) * csum 2 l + card l * (mean l - m) ^ 3.
Proof. rewrite !csum_psum. pose proof (psum_3_shift (mean l) (m - mean l) l) as E. replace (mean l + (m - mean l)) with m in E by ring. rewrite E, psum_1_mean. ring. Qed.
Lemma psum_4_at m l : psum 4 m l = csum 4 l + 4 * (mean l - m) * csum 3 l + 6 * (mean l - m) ^ 2 * csum 2 l + card l * (mean l - m) ^ 4.
Proof. rewrite !csum_psum. pose proof (psum_4_shift (mean l) (m - mean l) l) as E. replace (mean l + (m - mean l)) with m in E by ring. rewrite E, psum_1_mean. ring. Qed.

Lemma qsum_at mx my l : qsum mx my l = cosum l + card l * ((mean (xs l) - mx) * (mean (ys l) - my)).
Proof.
  rewrite cosum_qsum. pose proof (qsum_shift (mean (xs l)) (mean (ys l)) (mx - mean (xs l)) (my - mean (ys l)) l) as E.
  replace (mean (xs l) + (mx - mean (xs l))) with mx in E by ring. replace (mean (ys l) + (my - mean (ys l))) with my in E by ring.
  rewrite E, !psum_1_mean. ring.
Qed.

Section Two.
Variables a b : list R.
Hypothesis Ha : a <> [].
Hypothesis Hb : b <> [].
Let n1 := card a.
Let n2 := card b.
Lemma n12 : 1 <= n1 /\ 1 <= n2. Proof. split; apply card_pos; assumption. Qed.

Lemma pool_variance : variance (a ++ b) = pooled n1 n2 (variance a) (variance b) + n1 * n2 * ((mean a - mean b) / (n1 + n2)) ^ 2.
Proof.
  destruct n12 as [H1 H2]. unfold variance at 1. rewrite csum_psum, psum_app, !psum_2_at, pool_mean, card_app by assumption. fold n1 n2.
  unfold pooled, variance. fold n1 n2. field. lra.
Qed.

Lemma pool_moments : let m := mean (a ++ b) in
  cmoment 3 (a ++ b) = pooled n1 n2 (cmoment 3 a + 3 * (mean a - m) * variance a + (mean a - m) ^ 3)
                                    (cmoment 3 b + 3 * (mean b - m) * variance b + (mean b - m) ^ 3) /\
  cmoment 4 (a ++ b) = pooled n1 n2 (cmoment 4 a + 4 * (mean a - m) * cmoment 3 a + 6 * (mean a - m) ^ 2 * variance a + (mean a - m) ^ 4)
                                    (cmoment 4 b + 4 * (mean b - m) * cmoment 3 b + 6 * (mean b - m) ^ 2 * variance b + (mean b - m) ^ 4).
Proof.
  destruct n12 as [H1 H2]. cbv zeta. set (m := mean (a ++ b)). unfold cmoment at 1 4. rewrite (csum_psum 3 (a ++ b)), (csum_psum 4 (a ++ b)). fold m.
  rewrite !psum_app, !psum_3_at, !psum_4_at, card_app. fold n1 n2. unfold pooled, variance, cmoment. fold n1 n2. split; field; lra.
Qed.
End Two.

Lemma pool_covariance (a b : list (R * R)) : a <> [] -> b <> [] ->
  let n1 := card a in let n2 := card b in
  covariance (a ++ b) = pooled n1 n2 (covariance a) (covariance b) +
    n1 * n2 * ((mean (xs a) - mean (xs b)) / (n1 + n2)) * ((mean (ys a) - mean (ys b)) / (n1 + n2)).
Proof.
  intros Ha Hb n1 n2. pose proof (card_pos a Ha) as H1. pose proof (card_pos b Hb) as H2. fold n1 in H1. fold n2 in H2.
  unfold covariance at 1. rewrite cosum_qsum.
  assert (Q : forall c d, qsum c d (a ++ b) = qsum c d a + qsum c d b) by (intros; unfold qsum; rewrite map_app, Rsum_app; reflexivity).
  rewrite Q, !qsum_at.
  assert (Nx : forall l : list (R * R), l <> [] -> xs l <> [] /\ ys l <> []) by (intros l; destruct l; cbn; split; congruence).
  unfold xs at 2 4, ys at 2 4. rewrite !map_app. fold (xs a) (xs b) (ys a) (ys b).
  rewrite !pool_mean by (apply Nx; assumption). rewrite !card_xs, !card_ys, card_app. fold n1 n2. unfold pooled, covariance. fold n1 n2. field. lra.
Qed.

(** @prop C117_mean_variance: two cumulative filters that received parts of the data
    report the mean and the variance of all the data, as reported by a filter that
    received everything: the mean is the average of the means over the two sizes, and
    the variance the average of the variances plus a term in the distance of the
    means. *)
Lemma c117_mean_variance : forall (eps : R) (ops1 ops2 ops : list (op R)),
  let l1 := since_clear ops1 in
  let l2 := since_clear ops2 in
  since_clear ops = l1 ++ l2 -> fits (l1 ++ l2) -> l1 <> [] -> l2 <> [] ->
  exists m1 m2 v1 v2,
    cvar_mean _ (run_cvar eps ops1) = Fin m1 /\ cvar_variance _ (run_cvar eps ops1) = Fin v1 /\
    cvar_mean _ (run_cvar eps ops2) = Fin m2 /\ cvar_variance _ (run_cvar eps ops2) = Fin v2 /\
    let n1 := IZR (Z.of_N (cvar_size _ (run_cvar eps ops1))) in
    let n2 := IZR (Z.of_N (cvar_size _ (run_cvar eps ops2))) in
    cvar_mean _ (run_cvar eps ops) = Fin (pooled n1 n2 m1 m2) /\
    cvar_variance _ (run_cvar eps ops) = Fin (pooled n1 n2 v1 v2 + n1 * n2 * ((m1 - m2) / (n1 + n2)) ^ 2).
Proof.
  intros eps ops1 ops2 ops l1 l2 E Hf H1 H2.
  assert (F1 : fits l1) by (unfold fits in *; rewrite app_length in Hf; lia).
  assert (F2 : fits l2) by (unfold fits in *; rewrite app_length in Hf; lia).
  assert (H : l1 ++ l2 <> []) by (destruct l1; [congruence|discriminate]).
  destruct (c01 eps ops1 F1) as ((_ & S1 & _) & _ & M1 & _). destruct (M1 H1) as (_ & M1' & _).
  destruct (c01 eps ops2 F2) as ((_ & S2 & _) & _ & M2 & _). destruct (M2 H2) as (_ & M2' & _).
  destruct (c01 eps ops) as (_ & _ & M & _); [rewrite E; exact Hf|]. rewrite E in M. destruct (M H) as (_ & M' & _).
  destruct (c02 eps ops1 F1) as (V1 & _). destruct (V1 H1) as (V1' & _).
  destruct (c02 eps ops2 F2) as (V2 & _). destruct (V2 H2) as (V2' & _).
  destruct (c02 eps ops) as (V & _); [rewrite E; exact Hf|]. rewrite E in V. destruct (V H) as (V' & _).
  exists (mean l1), (mean l2), (variance l1), (variance l2).
  split; [exact M1'|]. split; [exact V1'|]. split; [exact M2'|]. split; [exact V2'|]. cbv zeta.
  rewrite S1, S2. fold l1 l2.
  assert (C : forall l : list R, IZR (Z.of_N (N.of_nat (length l))) = card l) by (intros l; unfold card; rewrite INR_IZR_INZ, nat_N_Z; reflexivity).
  rewrite !C. split; [rewrite M'; f_equal; apply pool_mean; assumption|rewrite V'; f_equal; apply pool_variance; assumption].
Qed.

(** @ex C117_mean_variance_ex: parts of two and three values. *)
Lemma c117_mean_variance_ex :
  let l1 := since_clear [Push 5; Clear; Push 1; Push 3] in
  let l2 := since_clear (pushes [4; 7; 10]) in
  fits (l1 ++ l2) /\ l1 <> [] /\ l2 <> [] /\ mean (l1 ++ l2) = 5 /\ variance (l1 ++ l2) = 10.
Proof.
  cbv zeta. split; [vm_compute; reflexivity|]. split; [discriminate|]. split; [discriminate|].
  unfold variance, csum, mean, card; cbn; split; field.
Qed.

(** @prop C117_higher: likewise skewness and kurtosis from size, mean, variance,
    skewness and kurtosis of the parts, when none of the central sums is below the
    cut-off of C03 and C04: the third and fourth central moments [g v sqrt v] and
    [k v^2] are averages of those of the parts, moved to the common mean. *)
Lemma c117_higher : forall (eps : R) (ops1 ops2 ops : list (op R)),
  let l1 := since_clear ops1 in
  let l2 := since_clear ops2 in
  0 < eps -> since_clear ops = l1 ++ l2 -> (N.of_nat (length (l1 ++ l2)) <= 4294967297)%N ->
  eps <= csum 3 l1 -> eps <= csum 3 l2 -> eps <= csum 3 (l1 ++ l2) ->
  eps <= csum 4 l1 -> eps <= csum 4 l2 -> eps <= csum 4 (l1 ++ l2) ->
  exists m1 m2 m v1 v2 v g1 g2 g k1 k2 k,
    (let s := run_ckurt eps ops1 in
     ckurt_mean _ s = Fin m1 /\ ckurt_variance _ s = Fin v1 /\ ckurt_skewness _ s = Fin g1 /\ ckurt_kurtosis _ s = Fin k1) /\
    (let s := run_ckurt eps ops2 in
     ckurt_mean _ s = Fin m2 /\ ckurt_variance _ s = Fin v2 /\ ckurt_skewness _ s = Fin g2 /\ ckurt_kurtosis _ s = Fin k2) /\
    (let s := run_ckurt eps ops in
     ckurt_mean _ s = Fin m /\ ckurt_variance _ s = Fin v /\ ckurt_skewness _ s = Fin g /\ ckurt_kurtosis _ s = Fin k) /\
    let n1 := IZR (Z.of_N (ckurt_size _ (run_ckurt eps ops1))) in
    let n2 := IZR (Z.of_N (ckurt_size _ (run_ckurt eps ops2))) in
    let third g v := g * (v * sqrt v) in
    let fourth k v := k * v ^ 2 in
    third g v = pooled n1 n2 (third g1 v1 + 3 * (m1 - m) * v1 + (m1 - m) ^ 3)
                             (third g2 v2 + 3 * (m2 - m) * v2 + (m2 - m) ^ 3) /\
    fourth k v = pooled n1 n2 (fourth k1 v1 + 4 * (m1 - m) * third g1 v1 + 6 * (m1 - m) ^ 2 * v1 + (m1 - m) ^ 4)
                              (fourth k2 v2 + 4 * (m2 - m) * third g2 v2 + 6 * (m2 - m) ^ 2 * v2 + (m2 - m) ^ 4).
Proof.
  intros eps ops1 ops2 ops l1 l2 He E Hf A1 A2 A B1 B2 B.
  assert (H1 : l1 <> []) by (apply (csum_nonzero_nonempty 3); lra).
  assert (H2 : l2 <> []) by (apply (csum_nonzero_nonempty 3); lra).
  assert (H : l1 ++ l2 <> []) by (destruct l1; [congruence|discriminate]).
  assert (W : forall o : list (op R), (N.of_nat (length (since_clear o)) <= 4294967297)%N -> since_clear o <> [] ->
    eps <= csum 3 (since_clear o) -> eps <= csum 4 (since_clear o) ->
    let s := run_ckurt eps o in let l := since_clear o in
    ckurt_size _ s = N.of_nat (length l) /\
    ckurt_mean _ s = Fin (mean l) /\ ckurt_variance _ s = Fin (variance l) /\ ckurt_skewness _ s = Fin (skewness l) /\ ckurt_kurtosis _ s = Fin (kurtosis l) /\
    skewness l * (variance l * sqrt (variance l)) = cmoment 3 l /\ kurtosis l * variance l ^ 2 = cmoment 4 l).
  { intros o Ho Hn Q3 Q4. cbv zeta. assert (Fo : fits (since_clear o)) by (unfold fits, szmod; lia).
    destruct (c01 eps o Fo) as ((_ & _ & _ & S) & _ & M & _). destruct (M Hn) as (_ & _ & _ & M').
    destruct (c02 eps o Fo) as (V & _). destruct (V Hn) as (_ & _ & V' & _).
    destruct (c03_partial eps o He Fo) as (G & _). destruct (G Q3) as (_ & G').
    destruct (c04_partial eps o He Ho) as (K & _). pose proof (K Q4) as K'.
    split; [exact S|]. split; [exact M'|]. split; [exact V'|]. split; [exact G'|]. split; [exact K'|].
    assert (P : 0 < variance (since_clear o)).
    { unfold variance. apply Rdiv_lt_0_compat; [apply csum_2_pos_of_3; lra|]. pose proof (card_pos _ Hn). lra. }
    unfold skewness, kurtosis. change (cmoment 2 (since_clear o)) with (variance (since_clear o)).
    pose proof (sqrt_lt_R0 _ P). split; field; lra. }
  rewrite app_length in Hf.
  destruct (W ops1) as (S1 & M1 & V1 & G1 & K1 & T1 & Q1); try assumption; [fold l1; lia|]. fold l1 in S1, M1, V1, G1, K1, T1, Q1.
  destruct (W ops2) as (S2 & M2 & V2 & G2 & K2 & T2 & Q2); try assumption; [fold l2; lia|]. fold l2 in S2, M2, V2, G2, K2, T2, Q2.
  destruct (W ops) as (_ & M & V & G & K & T & Q); rewrite E in *; try assumption; [rewrite app_length; lia|].
  exists (mean l1), (mean l2), (mean (l1 ++ l2)), (variance l1), (variance l2), (variance (l1 ++ l2)),
    (skewness l1), (skewness l2), (skewness (l1 ++ l2)), (kurtosis l1), (kurtosis l2), (kurtosis (l1 ++ l2)).
  split; [auto|]. split; [auto|]. split; [auto|]. cbv zeta. rewrite S1, S2, T1, T2, T, Q1, Q2, Q.
  assert (C : forall l : list R, IZR (Z.of_N (N.of_nat (length l))) = card l) by (intros l; unfold card; rewrite INR_IZR_INZ, nat_N_Z; reflexivity).
  rewrite !C. apply pool_moments; assumption.
Qed.

(** @ex C117_higher_ex: two right-skewed parts. *)
Lemma c117_higher_ex :
  let l1 := since_clear (pushes [0; 0; 3]) in
  let l2 := since_clear (pushes [1; 1; 1; 5]) in
  eps64 <= csum 3 l1 /\ eps64 <= csum 3 l2 /\ eps64 <= csum 3 (l1 ++ l2) /\
  eps64 <= csum 4 l1 /\ eps64 <= csum 4 l2 /\ eps64 <= csum 4 (l1 ++ l2).
Proof. cbv zeta. unfold csum, mean, card, eps64; cbn; repeat split; lra. Qed.

(** @prop C117_covariance: the covariance of all pairs from size, means and covariance
    of the parts. *)
Lemma c117_covariance : forall (eps : R) (ops1 ops2 ops : list (op (R * R))),
  let l1 := since_clear ops1 in
  let l2 := since_clear ops2 in
  let mx o := cmean_mean _ (run_cmean eps (map (op_map fst) o)) in
  let my o := cmean_mean _ (run_cmean eps (map (op_map snd) o)) in
  since_clear ops = l1 ++ l2 -> fits (l1 ++ l2) -> l1 <> [] -> l2 <> [] ->
  exists c1 c2 x1 x2 y1 y2,
    ccov_variance _ (run_ccov eps ops1) = Fin c1 /\ mx ops1 = Fin x1 /\ my ops1 = Fin y1 /\
    ccov_variance _ (run_ccov eps ops2) = Fin c2 /\ mx ops2 = Fin x2 /\ my ops2 = Fin y2 /\
    let n1 := IZR (Z.of_N (ccov_size _ (run_ccov eps ops1))) in
    let n2 := IZR (Z.of_N (ccov_size _ (run_ccov eps ops2))) in
    ccov_variance _ (run_ccov eps ops) =
      Fin (pooled n1 n2 c1 c2 + n1 * n2 * ((x1 - x2) / (n1 + n2)) * ((y1 - y2) / (n1 + n2))).
Proof.
  intros eps ops1 ops2 ops l1 l2 mx my E Hf H1 H2.
  assert (F1 : fits l1) by (unfold fits in *; rewrite app_length in Hf; lia).
  assert (F2 : fits l2) by (unfold fits in *; rewrite app_length in Hf; lia).
  assert (W : forall o : list (op (R * R)), fits (since_clear o) -> since_clear o <> [] ->
    ccov_variance _ (run_ccov eps o) = Fin (covariance (since_clear o)) /\ ccov_size _ (run_ccov eps o) = N.of_nat (length (since_clear o)) /\
    mx o = Fin (mean (xs (since_clear o))) /\ my o = Fin (mean (ys (since_clear o)))).
  { intros o Fo No. destruct (c06 eps o Fo) as (S & _ & C & _). split; [rewrite C; destruct (since_clear o); [congruence|reflexivity]|]. split; [exact S|].
    assert (G : forall f : R * R -> R, cmean_mean _ (run_cmean eps (map (op_map f) o)) = Fin (mean (map f (since_clear o)))).
    { intros f. destruct (c01 eps (map (op_map f) o)) as (_ & _ & M & _); rewrite since_clear_op_map in *; [unfold fits; rewrite map_length; exact Fo|].
      apply M. destruct (since_clear o); [congruence|discriminate]. }
    split; apply G. }
  destruct (W ops1 F1 H1) as (C1 & S1 & X1 & Y1). destruct (W ops2 F2 H2) as (C2 & S2 & X2 & Y2).
  destruct (W ops) as (C & _); [rewrite E; exact Hf|rewrite E; destruct l1; [congruence|discriminate]|]. rewrite E in C.
  exists (covariance l1), (covariance l2), (mean (xs l1)), (mean (xs l2)), (mean (ys l1)), (mean (ys l2)).
  repeat (split; [assumption|]). cbv zeta. rewrite S1, S2, C. fold l1 l2.
  assert (Cn : forall l : list (R * R), IZR (Z.of_N (N.of_nat (length l))) = card l) by (intros l; unfold card; rewrite INR_IZR_INZ, nat_N_Z; reflexivity).
  rewrite !Cn. f_equal. apply pool_covariance; assumption.
Qed.

(** @ex C117_covariance_ex: parts of one and two pairs. *)
Lemma c117_covariance_ex :
  let l1 := since_clear (pushes [(1, 2)]) in
  let l2 := since_clear (pushes [(3, 8); (5, 2)]) in
  fits (l1 ++ l2) /\ l1 <> [] /\ l2 <> [] /\ covariance (l1 ++ l2) = 0.
Proof.
  cbv zeta. split; [vm_compute; reflexivity|]. split; [discriminate|]. split; [discriminate|].
  unfold covariance, cosum, xs, ys, mean, card; cbn; field.
Qed.

(** @prop C117_residuals: the mean squared distance of the data from the line reported
    by the regression filter is the variance of y less slope times covariance; above
    the cut-off of C08 it is the variance of y times one minus the squared correlation
    coefficient. *)
Lemma c117_residuals : forall (eps : R) (ops : list (op (R * R))),
  0 < eps ->
  let l := since_clear ops in
  fits l -> l <> [] ->
  exists at_ b c vx vy r,
    (forall p, creg_at _ (run_creg eps ops) (Fin p) = Fin (at_ p)) /\ creg_slope _ (run_creg eps ops) = Fin b /\
    ccov_variance _ (run_ccov eps ops) = Fin c /\
    cvar_variance _ (run_cvar eps (map (op_map fst) ops)) = Fin vx /\
    cvar_variance _ (run_cvar eps (map (op_map snd) ops)) = Fin vy /\ ccorr_value _ (run_ccorr eps ops) = Fin r /\
    let residual := mean (map (fun p => (snd p - at_ (fst p)) ^ 2) l) in
    residual = vy - b * c /\ (eps <= vx * vy -> residual = vy * (1 - r ^ 2)).
Proof.
  intros eps ops He l Hf Hl.
  assert (Ex : since_clear (map (op_map fst) ops) = xs l) by apply since_clear_op_map.
  assert (Ey : since_clear (map (op_map snd) ops) = ys l) by apply since_clear_op_map.
  assert (NE : forall {B} (f : R * R -> B), map f l <> []) by (intros; destruct l; [congruence|discriminate]).
  pose proof (card_pos l Hl) as Hc.
  assert (C : ccov_variance _ (run_ccov eps ops) = Fin (covariance l)).
  { destruct (c06 eps ops Hf) as (_ & _ & E & _). rewrite E. fold l. destruct l; [congruence|reflexivity]. }
  assert (Fm : forall f : R * R -> R, fits (map f l)) by (intros f; unfold fits; rewrite map_length; exact Hf).
  destruct (c02 eps (map (op_map fst) ops)) as (Vx & _); [rewrite Ex; apply Fm|]. rewrite Ex in Vx. destruct (Vx (NE _ _)) as (Vx1 & _).
  destruct (c02 eps (map (op_map snd) ops)) as (Vy & _); [rewrite Ey; apply Fm|]. rewrite Ey in Vy. destruct (Vy (NE _ _)) as (Vy1 & _).
  destruct (creg_obs eps ops Hf Hl) as (_ & B & A). fold l in A, B.
  destruct (c08_partial eps ops He Hf Hl) as ((r & Er & _) & R1 & _). fold l in R1.
  exists (fun p => ls_intercept l + ls_slope l * p), (ls_slope l), (covariance l), (variance (xs l)), (variance (ys l)), r.
  repeat (split; [assumption|]). cbv zeta.
  assert (M : mean (map (fun p => (snd p - (ls_intercept l + ls_slope l * fst p)) ^ 2) l) = variance (ys l) - ls_slope l * covariance l).
  { unfold mean. rewrite card_map. change (Rsum _) with (sse (ls_intercept l) (ls_slope l) l). rewrite sse_expand. unfold ls_intercept.
    replace (mean (ys l) - (mean (ys l) - ls_slope l * mean (xs l)) - ls_slope l * mean (xs l)) with 0 by ring.
    unfold variance, covariance. rewrite card_ys. unfold ls_slope. destruct (Req_EM_T (csum 2 (xs l)) 0) as [Z|Z].
    - field. lra.
    - field. split; [lra|exact Z]. }
  rewrite M. split; [reflexivity|]. intros H. pose proof (R1 H) as R2. rewrite Er in R2. injection R2 as ->.
  assert (P1 : 0 <= variance (xs l)) by apply variance_nonneg. assert (P2 : 0 <= variance (ys l)) by apply variance_nonneg.
  assert (Q : 0 < variance (xs l)) by (destruct P1 as [P1|P1]; [exact P1|rewrite <- P1 in H; lra]).
  assert (Q' : 0 < variance (ys l)) by (destruct P2 as [P2|P2]; [exact P2|rewrite <- P2 in H; lra]).
  assert (S : ls_slope l = covariance l / variance (xs l)).
  { unfold ls_slope, covariance, variance in *. rewrite card_xs in *. destruct (Req_EM_T (csum 2 (xs l)) 0) as [Z|Z].
    - rewrite Z in Q. unfold Rdiv in Q. lra.
    - field. split; [lra|exact Z]. }
  rewrite S. unfold pearson. pose proof (sqrt_sqrt _ P1) as E1. pose proof (sqrt_sqrt _ P2) as E2.
  pose proof (sqrt_lt_R0 _ Q) as L1. pose proof (sqrt_lt_R0 _ Q') as L2.
  rewrite <- E1 at 1. rewrite <- E2 at 1 2. set (sx := sqrt (variance (xs l))) in *. set (sy := sqrt (variance (ys l))) in *. field. lra.
Qed.

(** @ex C117_residuals_ex: the four points of C97_pairs_ex, residual 6. *)
Lemma c117_residuals_ex :
  let l := since_clear (pushes [(0, 0); (2, 4); (4, 0); (6, 8)]) in
  fits l /\ l <> [] /\ eps64 <= variance (xs l) * variance (ys l).
Proof.
  cbv zeta. split; [vm_compute; reflexivity|]. split; [discriminate|].
  unfold variance, csum, xs, ys, mean, card, eps64; cbn. lra.
Qed.
