(** * Claims C97: inequalities between the reported statistics *)

From Coq Require Import Reals ZArith NArith Bool List.
From Verif Require Import Arith History SpecStats SpecBlocks SpecDecay SpecInequality Buffer Cumulative Window
  Interim Decay ExactRuns WindowRuns InterimRuns DecayRuns.
Import ListNotations.
Local Open Scope R_scope.
(* @end-header *)
From Coq Require Import Lia Lra Psatz.
From Flocq Require Import Core.Raux.
From Verif Require Import HistoryLemmas StatsLemmas CumulativeProofs CumulativeStats WindowProofs WindowStats
  BlockLemmas InterimStats DecayProofs InequalityProofs AccuracyInterim ClaimsCumulative ClaimsWindow ClaimsInterim ClaimsDecay.

Lemma three_inequalities l : l <> [] ->
  (forall a b, all_in a b l -> a <= mean l <= b /\ variance l <= (b - mean l) * (mean l - a) /\ variance l <= (b - a) ^ 2 / 4) /\
  (forall x, In x l -> (x - mean l) ^ 2 <= (card l - 1) * variance l) /\
  (forall d, 0 <= d -> INR (far (mean l) d l) * d ^ 2 <= card l * variance l).
Proof.
  intros Hl. pose proof (card_pos l Hl) as Hc. split; [|split].
  - intros a b H. split; [apply mean_bounds; assumption|]. split; [|apply popoviciu; assumption].
    pose proof (bhatia_davis a b l H) as B. unfold variance. apply (Rmult_le_reg_r (card l)); [lra|].
    unfold Rdiv. rewrite Rmult_assoc, Rinv_l, Rmult_1_r by lra. lra.
  - intros x Hx. apply samuelson, Hx.
  - intros d Hd. apply chebyshev, Hd.
Qed.

(** @prop C97_cumulative: for the values since the last clear(), mean() lies between the
    smallest and the largest value and variance() is at most (max - mean)(mean - min) and at
    most a quarter of the squared range; every single value is within sqrt(n-1) standard
    deviations of mean() (Samuelson); and the number of values further than d from
    mean() is at most n variance() / d^2 (Chebyshev). *)
Lemma c97_cumulative : forall (eps : R) (ops : list (op R)),
  let l := since_clear ops in
  fits l -> l <> [] ->
  exists m v, cmean_mean _ (run_cmean eps ops) = Fin m /\ cvar_mean _ (run_cvar eps ops) = Fin m /\
    cvar_variance _ (run_cvar eps ops) = Fin v /\ cskew_variance _ (run_cskew eps ops) = Fin v /\
    ckurt_variance _ (run_ckurt eps ops) = Fin v /\
    (forall a b, all_in a b l -> a <= m <= b /\ v <= (b - m) * (m - a) /\ v <= (b - a) ^ 2 / 4) /\
    (forall x, In x l -> (x - m) ^ 2 <= (card l - 1) * v) /\
    (forall d, 0 <= d -> INR (far m d l) * d ^ 2 <= card l * v).
Proof.
  intros eps ops l Hf Hl. exists (mean l), (variance l).
  destruct (c01 eps ops Hf) as (_ & _ & M & _). destruct (M Hl) as (M1 & M2 & _).
  destruct (c02 eps ops Hf) as (V & _). destruct (V Hl) as (V1 & V2 & V3 & _).
  repeat (split; [assumption|]). exact (three_inequalities l Hl).
Qed.

(** @ex C97_cumulative_ex: 1, 2, 9 have mean 4 and variance 38/3; one value is at least 5
    away from the mean. *)
Lemma c97_cumulative_ex :
  let l := since_clear [Push 7; Clear; Push 1; Push 2; Push 9] in
  fits l /\ l <> [] /\ all_in 1 9 l /\ mean l = 4 /\ variance l = 38 / 3 /\ far 4 5 l = 1%nat.
Proof.
  cbv zeta. split; [vm_compute; reflexivity|]. split; [discriminate|].
  split; [unfold all_in; cbn; repeat constructor; lra|].
  split; [unfold mean, card; cbn; lra|]. split; [unfold variance, csum, mean, card; cbn; lra|].
  unfold far. cbn. rewrite (Rabs_left (1 - 4)), (Rabs_left (2 - 4)), (Rabs_pos_eq (9 - 4)) by lra.
  destruct (Rle_dec 5 (- (1 - 4))); [lra|]. destruct (Rle_dec 5 (- (2 - 4))); [lra|].
  destruct (Rle_dec 5 (9 - 4)); [reflexivity|lra].
Qed.

(** @prop C97_window: the same for the window filters and the values in the window. *)
Lemma c97_window : forall (eps : R) (W : nat) (ops : list (op R)),
  (0 < W)%nat -> (N.of_nat W < szmod)%N ->
  let l := lastn W (since_clear ops) in
  l <> [] ->
  exists m v, wmean_mean _ (run_wmean eps W ops) = Fin m /\ wvar_mean _ (run_wvar eps W ops) = Fin m /\
    wvar_variance _ (run_wvar eps W ops) = Fin v /\
    (forall a b, all_in a b l -> a <= m <= b /\ v <= (b - m) * (m - a) /\ v <= (b - a) ^ 2 / 4) /\
    (forall x, In x l -> (x - m) ^ 2 <= (card l - 1) * v) /\
    (forall d, 0 <= d -> INR (far m d l) * d ^ 2 <= card l * v).
Proof.
  intros eps W ops HW HW64 l Hl. exists (mean l), (variance l).
  destruct (c15 eps W ops HW HW64) as (_ & M & _). destruct (M Hl) as (M1 & M2).
  destruct (c16 eps W ops HW HW64) as (V & _). specialize (V Hl).
  repeat (split; [assumption|]). exact (three_inequalities l Hl).
Qed.

(** @ex C97_window_ex: the last three of five values. *)
Lemma c97_window_ex :
  let l := lastn 3 (since_clear [Push 7; Push 8; Push 1; Push 2; Push 9]) in
  l <> [] /\ all_in 1 9 l /\ mean l = 4 /\ variance l = 38 / 3.
Proof.
  cbv zeta. split; [discriminate|]. split; [unfold all_in; cbn; repeat constructor; lra|].
  split; [unfold mean, card; cbn; lra|unfold variance, csum, mean, card; cbn; lra].
Qed.

(** @prop C97_kurtosis: up to 2^32+1 values kurtosis() is either 0 (the cut-off) or lies
    between skewness()^2 + 1 (Pearson's inequality) and the number of values; in particular
    skewness() is then at most sqrt(n-1). *)
Lemma c97_kurtosis : forall (eps : R) (ops : list (op R)),
  0 < eps ->
  let l := since_clear ops in
  (N.of_nat (length l) <= 4294967297)%N ->
  exists s k, ckurt_skewness _ (run_ckurt eps ops) = Fin s /\ cskew_skewness _ (run_cskew eps ops) = Fin s /\
    ckurt_kurtosis _ (run_ckurt eps ops) = Fin k /\
    0 <= s /\ (k = 0 \/ s ^ 2 + 1 <= k <= card l).
Proof.
  intros eps ops He l Hn.
  assert (Hf : fits l) by (unfold fits, szmod; lia).
  destruct (c03_partial eps ops He Hf) as (S1 & S2). fold l in S1, S2.
  destruct (c04_partial eps ops He Hn) as (K1 & K2). fold l in K1, K2.
  set (s := if Rlt_dec (csum 3 l) eps then 0 else skewness l).
  set (k := if Rlt_dec (csum 4 l) eps then 0 else kurtosis l).
  assert (P : 0 < csum 2 l -> eps <= csum 3 l -> 0 <= skewness l).
  { intros H H3. rewrite <- skewness_formula by exact H.
    apply Rmult_le_pos; [apply Rmult_le_pos; [apply sqrt_pos|lra]|].
    apply Rlt_le, Rinv_0_lt_compat, Rmult_lt_0_compat; [apply sqrt_lt_R0|]; exact H. }
  exists s, k.
  split; [unfold s; destruct (Rlt_dec (csum 3 l) eps); [apply S2|apply S1]; lra|].
  split; [unfold s; destruct (Rlt_dec (csum 3 l) eps); [apply S2|apply S1]; lra|].
  split; [unfold k; destruct (Rlt_dec (csum 4 l) eps); [apply K2|apply K1]; lra|].
  split.
  - unfold s. destruct (Rlt_dec (csum 3 l) eps); [lra|]. apply P; [apply csum_2_pos_of_3|]; lra.
  - unfold k. destruct (Rlt_dec (csum 4 l) eps) as [|H4]; [left; reflexivity|]. right.
    assert (H2 : 0 < csum 2 l) by (apply csum_2_pos_of_4; lra).
    pose proof (pearson_inequality l H2) as Q. split; [|apply kurtosis_le_card, H2].
    unfold s. destruct (Rlt_dec (csum 3 l) eps); [|exact Q]. pose proof (pow2_ge_0 (skewness l)). lra.
Qed.

(** @ex C97_kurtosis_ex: for 0, 0, 0, 4 skewness squared is 4/3 and kurtosis 7/3: equality. *)
Lemma c97_kurtosis_ex :
  let l := since_clear [Push 0; Push 0; Push 0; Push 4] in
  (N.of_nat (length l) <= 4294967297)%N /\ eps64 <= csum 3 l /\ eps64 <= csum 4 l /\
  kurtosis l = 7 / 3 /\ card l = 4.
Proof.
  cbv zeta; split; [vm_compute; discriminate|].
  unfold kurtosis, cmoment, csum, mean, card, eps64; cbn; repeat split; try lra; field.
Qed.

(** @prop C97_pairs: for pairs since the last clear(), the square of the covariance is at
    most the product of the two variances; if both variances are positive, slope() is
    covariance over variance, the product of the slopes of y on x and of x on y is between 0
    and 1, and, above the cut-off, it is the square of the correlation coefficient. *)
Lemma c97_pairs : forall (eps : R) (ops : list (op (R * R))),
  0 < eps ->
  let l := since_clear ops in
  let xops := map (op_map fst) ops in
  let yops := map (op_map snd) ops in
  let swap p : R * R := (snd p, fst p) in
  fits l -> l <> [] ->
  exists c vx vy b b' r,
    ccov_variance _ (run_ccov eps ops) = Fin c /\
    cvar_variance _ (run_cvar eps xops) = Fin vx /\ cvar_variance _ (run_cvar eps yops) = Fin vy /\
    creg_slope _ (run_creg eps ops) = Fin b /\ creg_slope _ (run_creg eps (map (op_map swap) ops)) = Fin b' /\
    ccorr_value _ (run_ccorr eps ops) = Fin r /\
    c ^ 2 <= vx * vy /\
    (0 < vx -> b * vx = c) /\ (0 < vy -> b' * vy = c) /\ 0 <= b * b' <= 1 /\
    (eps <= vx * vy -> r ^ 2 = b * b').
Proof.
  intros eps ops He l xops yops swap Hf Hl.
  assert (Ex : since_clear xops = xs l) by apply since_clear_op_map.
  assert (Ey : since_clear yops = ys l) by apply since_clear_op_map.
  assert (Es : since_clear (map (op_map swap) ops) = map StatsLemmas.swap l) by apply since_clear_op_map.
  assert (NE : forall {B} (f : R * R -> B), map f l <> []) by (intros; destruct l; [congruence|discriminate]).
  pose proof (card_pos l Hl) as Hc.
  assert (C : ccov_variance _ (run_ccov eps ops) = Fin (covariance l)).
  { destruct (c06 eps ops Hf) as (_ & _ & E & _). rewrite E. fold l. destruct l; [congruence|reflexivity]. }
  destruct (c02 eps xops) as (Vx & _); [rewrite Ex; apply fits_map, Hf|]. rewrite Ex in Vx. destruct (Vx (NE _ _)) as (Vx1 & _).
  destruct (c02 eps yops) as (Vy & _); [rewrite Ey; apply fits_map, Hf|]. rewrite Ey in Vy. destruct (Vy (NE _ _)) as (Vy1 & _).
  destruct (creg_obs eps ops Hf Hl) as (_ & B & _). fold l in B.
  destruct (creg_obs eps (map (op_map swap) ops)) as (_ & B' & _); [rewrite Es; apply fits_map, Hf|rewrite Es; apply NE|].
  rewrite Es in B'.
  destruct (c08_partial eps ops He Hf Hl) as ((r & Er & _) & R1 & _). fold l in Er, R1.
  exists (covariance l), (variance (xs l)), (variance (ys l)), (ls_slope l), (ls_slope (map StatsLemmas.swap l)), r.
  assert (E1 : 0 < variance (xs l) -> ls_slope l * variance (xs l) = covariance l).
  { unfold variance, covariance. rewrite card_xs. intros H. unfold ls_slope. destruct (Req_EM_T _ _) as [E|E].
    - rewrite E in H. unfold Rdiv in H. rewrite Rmult_0_l in H. lra.
    - field. lra. }
  assert (E2 : 0 < variance (ys l) -> ls_slope (map StatsLemmas.swap l) * variance (ys l) = covariance l).
  { unfold variance, covariance. rewrite card_ys. intros H. unfold ls_slope. rewrite xs_swap, cosum_swap.
    destruct (Req_EM_T _ _) as [E|E].
    - rewrite E in H. unfold Rdiv in H. rewrite Rmult_0_l in H. lra.
    - field. lra. }
  pose proof (covariance_sq l) as CS.
  assert (P1 : 0 <= variance (xs l)) by apply variance_nonneg. assert (P2 : 0 <= variance (ys l)) by apply variance_nonneg.
  assert (Z1 : variance (xs l) = 0 -> ls_slope l = 0).
  { intros Z. unfold ls_slope. destruct (Req_EM_T _ _) as [E|E]; [reflexivity|]. exfalso. apply E.
    unfold variance in Z. rewrite card_xs in Z. apply (Rmult_eq_reg_r (/ card l)); [|apply Rinv_neq_0_compat; lra].
    rewrite Rmult_0_l. exact Z. }
  assert (Z2 : variance (ys l) = 0 -> ls_slope (map StatsLemmas.swap l) = 0).
  { intros Z. unfold ls_slope. rewrite xs_swap. destruct (Req_EM_T _ _) as [E|E]; [reflexivity|]. exfalso. apply E.
    unfold variance in Z. rewrite card_ys in Z. apply (Rmult_eq_reg_r (/ card l)); [|apply Rinv_neq_0_compat; lra].
    rewrite Rmult_0_l. exact Z. }
  assert (PR : 0 < variance (xs l) -> 0 < variance (ys l) ->
    ls_slope l * ls_slope (map StatsLemmas.swap l) = covariance l ^ 2 / (variance (xs l) * variance (ys l))).
  { intros Q1 Q2. rewrite <- (E1 Q1) at 1. replace ((ls_slope l * variance (xs l)) ^ 2) with
      (ls_slope l * variance (xs l) * (ls_slope l * variance (xs l))) by ring.
    rewrite (E1 Q1) at 2. rewrite <- (E2 Q2). field. lra. }
  split; [exact C|]. split; [exact Vx1|]. split; [exact Vy1|]. split; [exact B|]. split; [exact B'|].
  split; [exact Er|]. split; [exact CS|]. split; [exact E1|]. split; [exact E2|]. split.
  - destruct (Req_dec (variance (xs l)) 0) as [Q|Q]; [rewrite (Z1 Q); lra|].
    destruct (Req_dec (variance (ys l)) 0) as [Q'|Q']; [rewrite (Z2 Q'); lra|].
    rewrite PR by lra. assert (0 < variance (xs l) * variance (ys l)) by (apply Rmult_lt_0_compat; lra).
    pose proof (pow2_ge_0 (covariance l)). split.
    + apply Rmult_le_pos; [lra|]. apply Rlt_le, Rinv_0_lt_compat. lra.
    + apply (Rmult_le_reg_r (variance (xs l) * variance (ys l))); [lra|].
      unfold Rdiv. rewrite Rmult_assoc, Rinv_l, Rmult_1_r, Rmult_1_l by lra. exact CS.
  - intros H. pose proof (R1 H) as R2. rewrite Er in R2. injection R2 as ->.
    assert (Q : variance (xs l) <> 0) by (intros Q; rewrite Q in H; lra).
    assert (Q' : variance (ys l) <> 0) by (intros Q'; rewrite Q' in H; lra).
    rewrite PR by lra. unfold pearson.
    rewrite <- (pow2_sqrt (variance (xs l)) P1) at 2. rewrite <- (pow2_sqrt (variance (ys l)) P2) at 2.
    field. split; apply Rgt_not_eq, sqrt_lt_R0; lra.
Qed.

(** @ex C97_pairs_ex: four points with covariance 5, variances 5 and 11: slopes 1 and 5/11. *)
Lemma c97_pairs_ex :
  let l := since_clear [Push (0, 0); Push (2, 4); Push (4, 0); Push (6, 8)] in
  fits l /\ l <> [] /\ variance (xs l) = 5 /\ variance (ys l) = 11 /\ covariance l = 5.
Proof.
  cbv zeta. split; [vm_compute; reflexivity|]. split; [discriminate|].
  unfold covariance, cosum, variance, csum, xs, ys, mean, card; cbn; repeat split; field.
Qed.

(** @prop C97_interim: window sizes up to 2^32: the variance of the interim filters is at
    most a quarter of the squared range of the last 2W values, and the square of the interim
    covariance is at most the product of the interim variances of the two coordinates. *)
Lemma c97_interim : forall (eps : R) (W : nat) (ops : list (op (R * R))),
  (0 < W)%nat -> (N.of_nat W <= 4294967296)%N ->
  let w := N.of_nat W in
  let l := since_clear ops in
  let xops := map (op_map fst) ops in
  let yops := map (op_map snd) ops in
  l <> [] ->
  exists c vx vy,
    icov_variance _ w (run_icov eps W ops) = Fin c /\
    ivar_variance _ w (run_ivar eps W xops) = Fin vx /\ ivar_variance _ w (run_ivar eps W yops) = Fin vy /\
    (forall a b, all_in a b (lastn (2 * W) (xs l)) -> vx <= (b - a) ^ 2 / 4) /\
    c ^ 2 <= vx * vy.
Proof.
  intros eps W ops HW H2 w l xops yops Hl.
  assert (Ex : since_clear xops = xs l) by apply since_clear_op_map.
  assert (Ey : since_clear yops = ys l) by apply since_clear_op_map.
  assert (NE : forall {B} (f : R * R -> B), map f l <> []) by (intros; destruct l; [congruence|discriminate]).
  destruct (c27 eps W ops HW H2) as (_ & C1 & C2 & _). fold w l in C1, C2.
  destruct (c25 eps W xops _ HW H2 ltac:(rewrite Ex; apply NE) (or_introl eq_refl)) as (X1 & X2 & _). rewrite Ex in X1, X2.
  destruct (c25 eps W yops _ HW H2 ltac:(rewrite Ey; apply NE) (or_introl eq_refl)) as (Y1 & Y2 & _). rewrite Ey in Y1, Y2.
  fold w in X1, X2, Y1, Y2. unfold xs, ys in X1, X2, Y1, Y2. rewrite map_length in X1, X2, Y1, Y2.
  destruct (Nat.leb_spec (length l) W) as [L|L].
  - exists (covariance l), (variance (xs l)), (variance (ys l)). split; [exact (C1 Hl L)|].
    split; [exact (X1 L)|]. split; [exact (Y1 L)|]. split; [|apply covariance_sq].
    intros a b H. apply popoviciu; [apply NE|]. rewrite lastn_short in H by (unfold xs; rewrite map_length; lia). exact H.
  - destruct (C2 L) as (EC & Hp & Ha). destruct (X2 L) as (EX & _). destruct (Y2 L) as (EY & _).
    rewrite !cur_block_map, !prev_block_map in EX, EY. rewrite card_map in EX, EY.
    fold (xs (prev_block W l)) (xs (cur_block W l)) in EX. fold (ys (prev_block W l)) (ys (cur_block W l)) in EY.
    set (s := card (cur_block W l)) in *. set (wp := (INR W - s + 1) ^ 2) in *. set (wa := 2 * (s - 1)) in *.
    set (p := prev_block W l) in *. set (q := cur_block W l) in *.
    assert (T : 0 < wp + wa) by lra.
    eexists. eexists. eexists. split; [exact EC|]. split; [exact EX|]. split; [exact EY|]. split.
    + intros a b H.
      assert (B : Forall (fun x => a <= x <= b) (cur_block W (xs l)) /\ Forall (fun x => a <= x <= b) (prev_block W (xs l))).
      { unfold all_in in H. rewrite Forall_forall in H. split; apply Forall_forall; intros x Hx; apply H;
          [apply (cur_block_In W HW), Hx|apply (prev_block_In W HW), Hx]. }
      unfold xs in B. rewrite cur_block_map, prev_block_map in B. fold p q in B. fold (xs p) (xs q) in B. destruct B as [B1 B2].
      assert (Q1 : q <> []) by (pose proof (cur_block_pos W HW l Hl) as Z; fold q in Z; destruct q; [cbn in Z; lia|discriminate]).
      assert (Q2 : p <> []) by (pose proof (long_prev W HW l L) as Z; fold p in Z; destruct p; [cbn in Z; lia|discriminate]).
      assert (V1 : variance (xs q) <= (b - a) ^ 2 / 4) by (apply popoviciu; [destruct q; [congruence|discriminate]|exact B1]).
      assert (V2 : variance (xs p) <= (b - a) ^ 2 / 4) by (apply popoviciu; [destruct p; [congruence|discriminate]|exact B2]).
      apply (Rmult_le_reg_r (wp + wa)); [exact T|].
      unfold Rdiv at 1. rewrite Rmult_assoc, Rinv_l, Rmult_1_r by lra.
      assert (wp * variance (xs p) <= wp * ((b - a) ^ 2 / 4)) by (apply Rmult_le_compat_l; lra).
      assert (wa * variance (xs q) <= wa * ((b - a) ^ 2 / 4)) by (apply Rmult_le_compat_l; lra). lra.
    + pose proof (cov_average wp wa (covariance p) (covariance q) (variance (xs p)) (variance (xs q)) (variance (ys p)) (variance (ys q))
        ltac:(lra) ltac:(lra) (variance_nonneg _) (variance_nonneg _) (variance_nonneg _) (variance_nonneg _)
        (covariance_sq p) (covariance_sq q)) as K.
      unfold Rdiv. rewrite Rpow_mult_distr.
      replace ((wp * variance (xs p) + wa * variance (xs q)) * / (wp + wa) * ((wp * variance (ys p) + wa * variance (ys q)) * / (wp + wa)))
        with ((wp * variance (xs p) + wa * variance (xs q)) * (wp * variance (ys p) + wa * variance (ys q)) * (/ (wp + wa)) ^ 2) by ring.
      apply Rmult_le_compat_r; [apply pow2_ge_0|exact K].
Qed.

(** @ex C97_interim_ex: windows of two, four points in two blocks. *)
Lemma c97_interim_ex :
  let l := since_clear [Push (0, 0); Push (4, 8); Push (8, 4); Push (4, 4)] in
  l <> [] /\ (2 < length l)%nat /\ all_in 0 8 (lastn (2 * 2) (xs l)) /\
  covariance (prev_block 2 l) = 8 /\ covariance (cur_block 2 l) = 0.
Proof.
  cbv zeta. split; [discriminate|]. split; [cbn; lia|].
  split; [unfold all_in; cbn; repeat constructor; lra|].
  unfold covariance, cosum, xs, ys, mean, card, prev_block, cur_block, lastn; cbn; split; field.
Qed.

(** @prop C97_decay: the decayed variance is at most the squared range of all values
    pushed; if variance, skewness and kurtosis use the same factor and the variance
    exceeds epsilon, kurtosis() is at least 1 and at least the square of skewness(). *)
Lemma c97_decay : forall (eps fm f : R) (l : list R),
  0 < eps -> 0 < fm <= 1 -> 0 < f <= 1 -> l <> [] ->
  let F := exact eps in
  exists v s k,
    dkurt_variance F (run_dkurt eps fm f f f (pushes l)) = Fin v /\
    dkurt_skewness F (run_dkurt eps fm f f f (pushes l)) = Fin s /\
    dkurt_kurtosis F (run_dkurt eps fm f f f (pushes l)) = Fin k /\
    (forall a b, all_in a b l -> v <= (b - a) ^ 2) /\
    (eps < v -> 1 <= k /\ s ^ 2 <= k).
Proof.
  intros eps fm f l He Hm Hf Hl F.
  destruct (c32 eps fm f f f l He Hm Hf Hf Hf Hl) as ((_ & _ & V) & (_ & S) & K & _).
  eexists. eexists. eexists. split; [exact V|]. split; [exact S|]. split; [exact K|]. split.
  - intros a b H. apply emoment_2_range; assumption.
  - intros H. destruct (Rlt_dec eps (emoment 2 fm f l)) as [_|N]; [|contradiction].
    pose proof (emoment_4_2 fm f l Hf (deviations_ne fm l Hl)) as A.
    pose proof (emoment_3_sq fm f l Hf (deviations_ne fm l Hl) ltac:(lra)) as B.
    set (v := emoment 2 fm f l) in *. set (s := emoment 3 fm f l) in *. set (k := emoment 4 fm f l) in *.
    assert (P : 0 < v ^ 2) by (apply pow_lt; lra). split.
    + apply (Rmult_le_reg_r (v ^ 2)); [exact P|]. unfold Rdiv. rewrite Rmult_assoc, Rinv_l, Rmult_1_r by lra. lra.
    + assert (Q : 0 < sqrt v) by (apply sqrt_lt_R0; lra).
      replace ((s / (v * sqrt v)) ^ 2) with (s ^ 2 / (v ^ 2 * sqrt v ^ 2)) by (field; lra).
      rewrite pow2_sqrt by lra. apply (Rmult_le_reg_r (v ^ 2 * v)); [apply Rmult_lt_0_compat; lra|].
      replace (s ^ 2 / (v ^ 2 * v) * (v ^ 2 * v)) with (s ^ 2) by (field; lra).
      replace (k / v ^ 2 * (v ^ 2 * v)) with (v * k) by (field; lra). exact B.
Qed.

(** @ex C97_decay_ex: factors 1/2, values 1 and 4: variance 2/3, skewness and kurtosis
    moments 2/3. *)
Lemma c97_decay_ex :
  0 < 1 / 2 <= 1 /\ all_in 1 4 [1; 4] /\ eps64 < emoment 2 (1 / 2) (1 / 2) [1; 4].
Proof.
  split; [lra|]. split; [unfold all_in; repeat constructor; lra|].
  destruct c32_ex as (_ & E & _). rewrite E. unfold eps64. lra.
Qed.
