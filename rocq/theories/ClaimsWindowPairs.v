(** * Claim C96: accuracy of window covariance and of window and interim regression *)

From Coq Require Import Reals ZArith NArith List Bool.
From Coq Require Import Floats.SpecFloat.
From Flocq Require Import Core.
From Verif Require Import Arith History SpecStats SpecBlocks SpecError Window Interim Binary64.
Import ListNotations.
Local Open Scope R_scope.
(* @end-header *)
From Coq Require Import Lia Lra Psatz.
From Flocq Require Import IEEE754.BinarySingleNaN.
From Verif Require Import HistoryLemmas StatsLemmas BlockLemmas InterimStats WindowProofs Binary64Cumulative Approx ApproxInstances
  AccuracyProofs AccuracyVariance AccuracyRegression AccuracyComoment ClaimsAccuracy ClaimsAccuracyInterim ClaimsRegression ClaimsAgreement.

Lemma co_b64 (Mx My n w : R) : 1 <= n <= bpow radix2 47 -> 1 <= w <= n ->
  bpow radix2 (-1000) <= Mx <= bpow radix2 460 -> bpow radix2 (-1000) <= My <= bpow radix2 460 ->
  @cosmall (bpow radix2 1023) (bpow radix2 (-53)) (bpow radix2 (-1075)) Mx My n w.
Proof.
  intros Hn Hw HX HY. pose proof (bp (-1000)) as P. assert (T : 0 < bpow radix2 (-1075)) by apply bp.
  assert (NT : n * bpow radix2 (-1075) <= bpow radix2 (47 + -1075)).
  { rewrite <- bp_mul. apply Rmult_le_compat_r; lra. }
  assert (A : 64 * bpow radix2 (47 + -1075) <= bpow radix2 (-1000)).
  { change 64 with (bpow radix2 6). rewrite bp_mul. apply bp_le. lia. }
  assert (G : 64 * n * bpow radix2 (-53) <= 1).
  { apply Rle_trans with (bpow radix2 6 * bpow radix2 47 * bpow radix2 (-53)).
    - apply Rmult_le_compat_r; [apply Rlt_le, bp|]. change (bpow radix2 6) with 64. lra.
    - rewrite !bp_mul. cbn. lra. }
  assert (WX : w * Mx <= bpow radix2 507).
  { change 507%Z with (47 + 460)%Z. rewrite <- bp_mul. apply Rmult_le_compat; lra. }
  assert (WY : w * My <= bpow radix2 507).
  { change 507%Z with (47 + 460)%Z. rewrite <- bp_mul. apply Rmult_le_compat; lra. }
  assert (X0 : 0 <= w * Mx) by (apply Rmult_le_pos; lra). assert (Y0 : 0 <= w * My) by (apply Rmult_le_pos; lra).
  assert (WW : w * w * (Mx * My) <= bpow radix2 1014).
  { change 1014%Z with (507 + 507)%Z. rewrite <- bp_mul. replace (w * w * (Mx * My)) with (w * Mx * (w * My)) by ring.
    apply Rmult_le_compat; lra. }
  assert (P0 : 0 <= Mx * My) by (apply Rmult_le_pos; lra).
  assert (W1 : w * (Mx * My) <= w * w * (Mx * My)).
  { apply Rmult_le_compat_r; [exact P0|]. rewrite <- (Rmult_1_l w) at 1. apply Rmult_le_compat_r; lra. }
  assert (B1 : 512 * bpow radix2 1014 <= bpow radix2 1023).
  { change 512 with (bpow radix2 9). rewrite bp_mul. apply bp_le. lia. }
  assert (B2 : bpow radix2 507 <= bpow radix2 1014) by (apply bp_le; lia).
  assert (B3 : bpow radix2 (-1000) <= bpow radix2 1014) by (apply bp_le; lia).
  unfold cosmall. repeat split; try lra.
Qed.

Lemma pairs_denote Mx My l : Forall (boundp Mx My) l ->
  Forall2 (@pval b64num denotes) l (map realp l) /\
  Forall (fun p => Rabs (fst p) <= Mx /\ Rabs (snd p) <= My) (map realp l).
Proof.
  induction 1 as [|p l [[F1 B1] [F2 B2]] _ [I1 I2]]; cbn [map]; [split; constructor|]. split; constructor; try assumption.
  - split; split; try assumption; reflexivity.
  - split; assumption.
Qed.

Lemma wpairs_ne (W : nat) (l : list (b64 * b64)) : (0 < W)%nat -> l <> [] -> 1 <= INR (length (lastn W l)) <= INR (length l).
Proof.
  intros HW NE. rewrite lastn_length. split; [apply (le_INR 1)|apply le_INR]; destruct l; cbn in *; try congruence; lia.
Qed.

(** The window covariance and the mean of y in double. *)
Lemma wcov_b64 (W : nat) (ops : list (op (b64 * b64))) (Mx My : R) :
  let l := since_clear ops in
  let n := INR (length l) in
  let u := bpow radix2 (-53) in
  let eta := bpow radix2 (-1075) in
  (0 < W)%nat -> (Z.of_nat W <= 2 ^ 53)%Z -> l <> [] -> (Z.of_nat (length l) <= 2 ^ 47)%Z ->
  bpow radix2 (-1000) <= Mx <= bpow radix2 460 -> bpow radix2 (-1000) <= My <= bpow radix2 460 ->
  Forall (boundp Mx My) l ->
  let lv := lastn W (map realp l) in
  let s := run (wcov_push b64num W) (wcov_clear b64num) (wcov_init b64num) ops in
  let m : b64num := ndiv (wc_y b64num s) (nofsz (wcov_size b64num s)) in
  (b64_finite (wcov_variance b64num s) /\
   Rabs (b64_real (wcov_variance b64num s) - covariance lv) <=
     n * (64 * u * (Mx * My) + 10 * (Mx + My) * eta + 26 * eta)) /\
  (b64_finite m /\ Rabs (b64_real m - mean (ys lv)) <= n * (12 * u * My + 8 * eta)).
Proof.
  intros l n u eta HW HK NE Hn HX HY HF lv s m.
  destruct (pairs_denote Mx My l HF) as [D1 D2].
  pose proof (inr_le l 47 ltac:(lia) Hn) as Hn'. fold n in Hn'.
  destruct (wpairs_ne W l HW NE) as [L1 L2]. fold n in L2.
  pose proof (co_b64 Mx My n (INR (length (lastn W l))) ltac:(lra) ltac:(lra) HX HY) as Co.
  destruct (wcov_stat_accuracy approx_b64 Mx My n _ W HW Co l (map realp l) D1 D2 NE (Rle_refl _) eq_refl)
    as [(v & (Fv & Ev) & Hv) (q & (Fq & Eq) & Hq)].
  { change (Z.to_N (2 ^ 53)) with (2 ^ 53)%N. lia. }
  assert (Es : s = fold_left (wcov_push b64num W) l (wcov_init b64num)).
  { unfold s. rewrite (run_since_clear _ _ _ (wcov_clear_init b64num)). reflexivity. }
  unfold m. rewrite Es. split.
  - split; [exact Fv|]. rewrite Ev. rewrite <- Rmult_assoc in Hv. exact Hv.
  - split; [exact Fq|]. rewrite Eq. rewrite <- Rmult_assoc in Hq. exact Hq.
Qed.

(** ** C96 *)

(** @prop C96_covariance_binary64: the window covariance is computed from running sums
    that are corrected when a pair leaves the window, so rounding errors of old
    pairs remain. In binary64 they add up at most linearly: after [n] (at most
    2^47) pairs of finite values of magnitude at most [Mx] and [My] (between 2^-1000
    and 2^460) since the last clear, variance() of the window covariance filter is
    finite and within [n (64 u Mx My + 10 (Mx + My) eta + 26 eta)] of the covariance
    of the last [W] pairs. *)
Lemma c96_covariance : forall (W : nat) (ops : list (op (b64 * b64))) (Mx My : R),
  let l := since_clear ops in
  let n := INR (length l) in
  let u := bpow radix2 (-53) in
  let eta := bpow radix2 (-1075) in
  (0 < W)%nat -> (Z.of_nat W <= 2 ^ 53)%Z -> l <> [] -> (Z.of_nat (length l) <= 2 ^ 47)%Z ->
  bpow radix2 (-1000) <= Mx <= bpow radix2 460 -> bpow radix2 (-1000) <= My <= bpow radix2 460 ->
  Forall (fun p => (b64_finite (fst p) /\ Rabs (b64_real (fst p)) <= Mx) /\
                   (b64_finite (snd p) /\ Rabs (b64_real (snd p)) <= My)) l ->
  let lv := map (fun p => (b64_real (fst p), b64_real (snd p))) l in
  let v := wcov_variance b64num (run (wcov_push b64num W) (wcov_clear b64num) (wcov_init b64num) ops) in
  b64_finite v /\
  Rabs (b64_real v - covariance (lastn W lv)) <= n * (64 * u * (Mx * My) + 10 * (Mx + My) * eta + 26 * eta).
Proof. intros W ops Mx My l n u eta HW HK NE Hn HX HY HF lv v. apply (wcov_b64 W ops Mx My HW HK NE Hn HX HY HF). Qed.

Lemma bounds8w : bpow radix2 (-1000) <= 8 <= bpow radix2 460.
Proof. change 8 with (bpow radix2 3). split; apply bp_le; lia. Qed.

(** The last three of the four points (0,0), (4,8), (8,4), (4,4) *)
Lemma points3 :
  let l := [(0, 0); (4, 8); (8, 4); (4, 4)] in
  lastn 3 l = [(4, 8); (8, 4); (4, 4)] /\ variance (xs (lastn 3 l)) = 32 / 9 /\ covariance (lastn 3 l) = - 16 / 9 /\
  mean (xs (lastn 3 l)) = 16 / 3 /\ mean (ys (lastn 3 l)) = 16 / 3.
Proof. unfold variance, covariance, cosum, csum, xs, ys, mean, card, lastn. cbn. repeat split; field. Qed.

(** @ex C96_covariance_binary64_ex: four points, window of three. *)
Lemma c96_covariance_ex :
  let z := b64_of_Z in
  let l := since_clear [Push (z 99, z 99); Clear; Push (z 0, z 0); Push (z 4, z 8); Push (z 8, z 4); Push (z 4, z 4)]%Z in
  (0 < 3)%nat /\ (Z.of_nat 3 <= 2 ^ 53)%Z /\ l <> [] /\ (Z.of_nat (length l) <= 2 ^ 47)%Z /\
  bpow radix2 (-1000) <= 8 <= bpow radix2 460 /\
  Forall (fun p => (b64_finite (fst p) /\ Rabs (b64_real (fst p)) <= 8) /\
                   (b64_finite (snd p) /\ Rabs (b64_real (snd p)) <= 8)) l /\
  covariance (lastn 3 (map (fun p => (b64_real (fst p), b64_real (snd p))) l)) = - 16 / 9.
Proof.
  cbn zeta. cbn [since_clear since_clear_from app]. split; [lia|]. split; [lia|]. split; [discriminate|]. split; [cbn; lia|].
  split; [exact bounds8w|]. split; [exact points_bound|]. rewrite points_real. apply points3.
Qed.

(** Parts of the window regression *)
Lemma wreg_parts (W : nat) (ops : list (op (b64 * b64))) :
  let s := run (wreg_push b64num W) (wreg_clear b64num) (wreg_init b64num) ops in
  wr_cov b64num s = run (wcov_push b64num W) (wcov_clear b64num) (wcov_init b64num) ops /\
  wr_x b64num s = run (wvar_push b64num W) (wvar_clear b64num) (wvar_init b64num) (map (op_map fst) ops).
Proof.
  cbv zeta. rewrite (run_since_clear _ _ _ (wreg_clear_init b64num)).
  rewrite (run_since_clear _ _ _ (wcov_clear_init b64num)), (run_since_clear _ _ _ (wvar_clear_init b64num)).
  rewrite wreg_fold, since_clear_op_map. split; reflexivity.
Qed.

Lemma wvar_mean_run (W : nat) (ops : list (op b64)) : (0 < W)%nat ->
  wvar_mean b64num (run (wvar_push b64num W) (wvar_clear b64num) (wvar_init b64num) ops) =
  wmean_mean b64num (run (wmean_push b64num W) (wmean_clear b64num) (wmean_init b64num) ops).
Proof.
  intros HW. rewrite (run_since_clear _ _ _ (wvar_clear_init b64num)), (run_since_clear _ _ _ (wmean_clear_init b64num)).
  unfold wvar_mean. rewrite (wvar_fold_super b64num W HW). reflexivity.
Qed.

Lemma lastn_xs (W : nat) l : lastn W (map b64_real (map fst l)) = xs (lastn W (map realp l)).
Proof. rewrite <- xs_real. unfold xs. rewrite lastn_pairs. reflexivity. Qed.

(** @prop C96_slope_binary64: in the same situation, if the variance [V] of x over the
    window is at least twice the bound [Ev] of C71 for its error, slope() of the
    window regression is finite and differs from the slope [S] of the
    least-squares line through the last [W] points by at most
    [2 (Ec + |S| Ev) / V] and the rounding error of one division. *)
Lemma c96_slope : forall (W : nat) (ops : list (op (b64 * b64))) (Mx My : R),
  let l := since_clear ops in
  let n := INR (length l) in
  let k := INR (length (lastn W l)) in
  let u := bpow radix2 (-53) in
  let eta := bpow radix2 (-1075) in
  (0 < W)%nat -> (Z.of_nat W <= 2 ^ 53)%Z -> l <> [] -> (Z.of_nat (length l) <= 2 ^ 47)%Z ->
  bpow radix2 (-1000) <= Mx <= bpow radix2 460 -> bpow radix2 (-1000) <= My <= bpow radix2 460 ->
  Forall (fun p => (b64_finite (fst p) /\ Rabs (b64_real (fst p)) <= Mx) /\
                   (b64_finite (snd p) /\ Rabs (b64_real (snd p)) <= My)) l ->
  let lv := lastn W (map (fun p => (b64_real (fst p), b64_real (snd p))) l) in
  let V := variance (xs lv) in
  let S := covariance lv / V in
  let Ev := 9 * (n / k) * ((264 * n + 62) * u * (Mx * Mx) + (140 * n + 20) * Mx * eta + 3 * eta) in
  let Ec := n * (64 * u * (Mx * My) + 10 * (Mx + My) * eta + 26 * eta) in
  let Es := 2 * (Ec + Rabs S * Ev) / V in
  0 < V -> 2 * Ev <= V -> Rabs S + Es <= bpow radix2 1023 ->
  let slope := wreg_slope b64num (run (wreg_push b64num W) (wreg_clear b64num) (wreg_init b64num) ops) in
  b64_finite slope /\ Rabs (b64_real slope - S) <= slack u eta S Es.
Proof.
  intros W ops Mx My l n k u eta HW HK NE Hn HX HY HF lv V S Ev Ec Es V0 HV HB slope.
  destruct (wreg_parts W ops) as (Pc & Px).
  destruct (c96_covariance W ops Mx My HW HK NE Hn HX HY HF) as (Fc & Ac). fold l n u eta Ec in Fc, Ac.
  change (covariance (lastn W _)) with (covariance lv) in Ac.
  pose proof (c71_binary64 W (map (op_map fst) ops) Mx) as H71. rewrite since_clear_op_map in H71. fold l in H71.
  cbv zeta in H71. rewrite (lastn_pairs (@fst b64 b64) W l), !map_length in H71. fold n k u eta in H71.
  assert (HX' : bpow radix2 (-1000) <= Mx <= bpow radix2 480).
  { split; [apply HX|]. apply Rle_trans with (bpow radix2 460); [apply HX|apply bp_le; lia]. }
  destruct (H71 HW HK (map_ne _ _ NE) Hn HX' (bound_x _ _ _ HF)) as (Fv & Av). clear H71.
  rewrite lastn_xs in Av. change (lastn W (map realp l)) with lv in Av. fold V Ev in Av.
  unfold slope, wreg_slope. rewrite Pc, Px.
  destruct (div_err approx_b64 _ _ _ _ (covariance lv) V Ec Ev (denotes_fin _ Fc) (denotes_fin _ Fv) Ac Av V0 HV HB)
    as (NZ & r & (Fr & Er) & Hr).
  rewrite (nonzero_eq _ _ (denotes_fin _ Fv) NZ). split; [exact Fr|]. rewrite Er. exact Hr.
Qed.

(** @ex C96_slope_binary64_ex: the last three of four points have slope -1/2; the bound
    is below 10^-8. *)
Lemma c96_slope_ex :
  let z := b64_of_Z in
  let l := since_clear [Push (z 99, z 99); Clear; Push (z 0, z 0); Push (z 4, z 8); Push (z 8, z 4); Push (z 4, z 4)]%Z in
  let n := INR 4 in
  let k := INR 3 in
  let u := bpow radix2 (-53) in
  let eta := bpow radix2 (-1075) in
  let lv := lastn 3 (map (fun p => (b64_real (fst p), b64_real (snd p))) l) in
  length l = 4%nat /\ length (lastn 3 l) = 3%nat /\ bpow radix2 (-1000) <= 8 <= bpow radix2 460 /\
  Forall (fun p => (b64_finite (fst p) /\ Rabs (b64_real (fst p)) <= 8) /\
                   (b64_finite (snd p) /\ Rabs (b64_real (snd p)) <= 8)) l /\
  variance (xs lv) = 32 / 9 /\ covariance lv = - 16 / 9 /\
  let V := 32 / 9 in
  let S := (- 16 / 9) / V in
  let Ev := 9 * (n / k) * ((264 * n + 62) * u * (8 * 8) + (140 * n + 20) * 8 * eta + 3 * eta) in
  let Ec := n * (64 * u * (8 * 8) + 10 * (8 + 8) * eta + 26 * eta) in
  let Es := 2 * (Ec + Rabs S * Ev) / V in
  0 < V /\ 2 * Ev <= V /\ Rabs S + Es <= bpow radix2 1023 /\ slack u eta S Es <= / 10 ^ 8.
Proof.
  cbn zeta. cbn [since_clear since_clear_from app]. rewrite points_real.
  destruct points3 as (_ & H1 & H2 & _).
  split; [reflexivity|]. split; [reflexivity|]. split; [exact bounds8w|]. split; [exact points_bound|]. split; [exact H1|]. split; [exact H2|].
  replace (- 16 / 9 / (32 / 9)) with (- (1 / 2)) by field.
  unfold slack. rewrite Rabs_Ropp, (Rabs_pos_eq (1 / 2)) by lra. destruct small_constants as (-> & T & B).
  revert T B. generalize (bpow radix2 (-1075)) (bpow radix2 1023). intros t B' T B. cbn in T |- *. lra.
Qed.

(** @prop C96_at_binary64: at(p) of the window regression for a finite position p is within
    an explicit bound of the least-squares line through the last [W] points at p:
    the error of the slope times the distance of p from the mean of x, the errors
    of both means, and the rounding errors of the three operations. *)
Lemma c96_at : forall (W : nat) (ops : list (op (b64 * b64))) (Mx My : R) (p : b64),
  let l := since_clear ops in
  let n := INR (length l) in
  let k := INR (length (lastn W l)) in
  let u := bpow radix2 (-53) in
  let eta := bpow radix2 (-1075) in
  (0 < W)%nat -> (Z.of_nat W <= 2 ^ 53)%Z -> l <> [] -> (Z.of_nat (length l) <= 2 ^ 47)%Z -> b64_finite p ->
  bpow radix2 (-1000) <= Mx <= bpow radix2 460 -> bpow radix2 (-1000) <= My <= bpow radix2 460 ->
  Forall (fun p => (b64_finite (fst p) /\ Rabs (b64_real (fst p)) <= Mx) /\
                   (b64_finite (snd p) /\ Rabs (b64_real (snd p)) <= My)) l ->
  let lv := lastn W (map (fun p => (b64_real (fst p), b64_real (snd p))) l) in
  let V := variance (xs lv) in
  let S := covariance lv / V in
  let D := mean (xs lv) - b64_real p in
  let Ev := 9 * (n / k) * ((264 * n + 62) * u * (Mx * Mx) + (140 * n + 20) * Mx * eta + 3 * eta) in
  let Ec := n * (64 * u * (Mx * My) + 10 * (Mx + My) * eta + 26 * eta) in
  let Es := 2 * (Ec + Rabs S * Ev) / V in
  let Eb := slack u eta S Es in
  let Ex := n * (26 * u * Mx + 14 * eta) in
  let Ey := n * (12 * u * My + 8 * eta) in
  let Ed := slack u eta D Ex in
  let Em := Rabs S * Ed + Rabs D * Eb + Eb * Ed in
  let Ea := Ey + slack u eta (S * D) Em in
  0 < V -> 2 * Ev <= V -> Rabs S + Es <= bpow radix2 1023 -> Rabs D + Ex <= bpow radix2 1023 ->
  Rabs (S * D) + Em <= bpow radix2 1023 -> Rabs (mean (ys lv) - S * D) + Ea <= bpow radix2 1023 ->
  let at_p := wreg_at b64num (run (wreg_push b64num W) (wreg_clear b64num) (wreg_init b64num) ops) p in
  b64_finite at_p /\
  Rabs (b64_real at_p - (mean (ys lv) + S * (b64_real p - mean (xs lv)))) <= slack u eta (mean (ys lv) - S * D) Ea.
Proof.
  intros W ops Mx My p l n k u eta HW HK NE Hn Fp HX HY HF lv V S D Ev Ec Es Eb Ex Ey Ed Em Ea V0 HV HB1 HB2 HB3 HB4 at_p.
  destruct (c96_slope W ops Mx My HW HK NE Hn HX HY HF V0 HV HB1) as (Fs & As).
  fold l n k u eta in As. fold lv V S Ev Ec Es Eb in Fs, As.
  destruct (wreg_parts W ops) as (Pc & Px).
  destruct (wcov_b64 W ops Mx My HW HK NE Hn HX HY HF) as (_ & Fy & Ay). fold l n u eta Ey in Fy, Ay.
  change (lastn W (map realp l)) with lv in Ay.
  assert (Hn49 : (Z.of_nat (length l) <= 2 ^ 49)%Z) by (eapply Z.le_trans; [exact Hn|lia]).
  assert (B460 : bpow radix2 460 <= bpow radix2 1018) by (apply bp_le; lia).
  pose proof (c66_binary64 W (map (op_map fst) ops) Mx) as H66. rewrite since_clear_op_map in H66. fold l in H66.
  cbv zeta in H66. rewrite !map_length in H66. fold n u eta in H66.
  destruct (H66 HW HK (map_ne _ _ NE) Hn49 ltac:(lra) (bound_x _ _ _ HF)) as (Fx & Ax). clear H66.
  rewrite lastn_xs in Ax. change (lastn W (map realp l)) with lv in Ax. fold Ex in Ax.
  unfold at_p, wreg_at.
  set (sl := wreg_slope b64num _) in *. rewrite Pc, Px, (wvar_mean_run W _ HW). cbv zeta.
  set (mx := wmean_mean b64num (run (wmean_push b64num W) (wmean_clear b64num) (wmean_init b64num) (map (op_map fst) ops))) in *.
  set (cst := run (wcov_push b64num W) (wcov_clear b64num) (wcov_init b64num) ops) in *.
  set (my := ndiv (wc_y b64num cst) (nofsz (wcov_size b64num cst))) in *.
  destruct (sub_err approx_b64 mx p _ _ (mean (xs lv)) (b64_real p) Ex 0 (denotes_fin _ Fx) (denotes_fin _ Fp) Ax)
    as (d & Vd & Hd).
  { rewrite Rminus_eq_0, Rabs_R0. lra. }
  { fold D. rewrite Rplus_0_r. exact HB2. }
  rewrite Rplus_0_r in Hd. fold D u eta Ed in Hd.
  destruct (mul_err approx_b64 sl (nsub mx p) _ d S D Eb Ed (denotes_fin _ Fs) Vd As Hd HB3) as (m & Vm & Hm).
  fold u eta in Hm. change (merr2 S D Eb Ed) with Em in Hm.
  destruct (sub_err approx_b64 my (nmul sl (nsub mx p)) _ m (mean (ys lv)) (S * D) Ey (slack u eta (S * D) Em)
    (denotes_fin _ Fy) Vm Ay Hm HB4) as (r & (Fr & Er) & Hr).
  split; [exact Fr|].
  replace (mean (ys lv) + S * (b64_real p - mean (xs lv))) with (mean (ys lv) - S * D) by (unfold D; ring).
  rewrite Er. exact Hr.
Qed.

(** @ex C96_at_binary64_ex: the same points at position 28/3, where the line has the value
    10/3; the position is taken as 9. *)
Lemma c96_at_ex :
  let z := b64_of_Z in
  let l := since_clear [Push (z 0, z 0); Push (z 4, z 8); Push (z 8, z 4); Push (z 4, z 4)]%Z in
  let n := INR 4 in
  let k := INR 3 in
  let u := bpow radix2 (-53) in
  let eta := bpow radix2 (-1075) in
  let lv := lastn 3 (map (fun p => (b64_real (fst p), b64_real (snd p))) l) in
  length l = 4%nat /\ length (lastn 3 l) = 3%nat /\ b64_finite (z 9%Z) /\ b64_real (z 9%Z) = 9 /\
  bpow radix2 (-1000) <= 8 <= bpow radix2 460 /\
  Forall (fun p => (b64_finite (fst p) /\ Rabs (b64_real (fst p)) <= 8) /\
                   (b64_finite (snd p) /\ Rabs (b64_real (snd p)) <= 8)) l /\
  variance (xs lv) = 32 / 9 /\ covariance lv = - 16 / 9 /\ mean (xs lv) = 16 / 3 /\ mean (ys lv) = 16 / 3 /\
  let V := 32 / 9 in
  let S := (- 16 / 9) / V in
  let D := 16 / 3 - 9 in
  let Ev := 9 * (n / k) * ((264 * n + 62) * u * (8 * 8) + (140 * n + 20) * 8 * eta + 3 * eta) in
  let Ec := n * (64 * u * (8 * 8) + 10 * (8 + 8) * eta + 26 * eta) in
  let Es := 2 * (Ec + Rabs S * Ev) / V in
  let Eb := slack u eta S Es in
  let Ex := n * (26 * u * 8 + 14 * eta) in
  let Ey := n * (12 * u * 8 + 8 * eta) in
  let Ed := slack u eta D Ex in
  let Em := Rabs S * Ed + Rabs D * Eb + Eb * Ed in
  let Ea := Ey + slack u eta (S * D) Em in
  2 * Ev <= V /\ Rabs S + Es <= bpow radix2 1023 /\ Rabs D + Ex <= bpow radix2 1023 /\
  Rabs (S * D) + Em <= bpow radix2 1023 /\ Rabs (16 / 3 - S * D) + Ea <= bpow radix2 1023 /\
  slack u eta (16 / 3 - S * D) Ea <= / 10 ^ 7.
Proof.
  cbn zeta. cbn [since_clear since_clear_from app]. rewrite points_real.
  destruct points3 as (_ & H1 & H2 & H3 & H4).
  split; [reflexivity|]. split; [reflexivity|]. split; [split; vm_compute; reflexivity|]. split.
  { match goal with |- b64_real ?x = _ => let y := eval vm_compute in x in change x with y end.
    unfold b64_real, SF2R, F2R. cbn. lra. }
  split; [exact bounds8w|]. split; [exact points_bound|]. split; [exact H1|]. split; [exact H2|].
  split; [exact H3|]. split; [exact H4|].
  replace (- 16 / 9 / (32 / 9)) with (- (1 / 2)) by field. replace (16 / 3 - 9) with (- (11 / 3)) by field.
  replace (- (1 / 2) * - (11 / 3)) with (11 / 6) by field. replace (16 / 3 - 11 / 6) with (7 / 2) by field.
  destruct small_constants as (-> & T & B).
  set (Eb := slack _ _ (- (1 / 2)) _).
  set (Ed := slack _ _ (- (11 / 3)) _).
  assert (HEb : 0 <= Eb <= / 10 ^ 8).
  { unfold Eb, slack. rewrite Rabs_Ropp, (Rabs_pos_eq (1 / 2)) by lra. clear -T.
    revert T. generalize (bpow radix2 (-1075)). intros t T. cbn in T |- *. lra. }
  assert (HEd : 0 <= Ed <= / 10 ^ 11).
  { unfold Ed, slack. rewrite Rabs_Ropp, (Rabs_pos_eq (11 / 3)) by lra. clear -T.
    revert T. generalize (bpow radix2 (-1075)). intros t T. cbn in T |- *. lra. }
  assert (HP : 0 <= Eb * Ed <= / 10 ^ 19).
  { split; [apply Rmult_le_pos; lra|]. replace (/ 10 ^ 19) with (/ 10 ^ 8 * / 10 ^ 11) by (cbn; lra).
    apply Rmult_le_compat; lra. }
  clearbody Eb Ed. generalize dependent (Eb * Ed). intros P HP.
  unfold slack. rewrite !Rabs_Ropp, (Rabs_pos_eq (1 / 2)), (Rabs_pos_eq (11 / 3)), (Rabs_pos_eq (11 / 6)), (Rabs_pos_eq (7 / 2)) by lra.
  revert T B. generalize (bpow radix2 (-1075)) (bpow radix2 1023). intros t B' T B. cbn in * |- *. lra.
Qed.

(** ** Interim regression *)

Lemma ireg_parts (w : N) (ops : list (op (b64 * b64))) :
  let s := run (ireg_push b64num w) (ireg_clear b64num) (ireg_init b64num) ops in
  ir_cov b64num s = run (icov_push b64num w) (icov_clear b64num) (icov_init b64num) ops /\
  ir_x b64num s = run (ivar_push b64num w) (ivar_clear b64num) (ivar_init b64num) (map (op_map fst) ops).
Proof.
  cbv zeta. induction ops as [|o ops [I1 I2]] using rev_ind; [split; reflexivity|].
  rewrite map_app, !run_app, <- I1, <- I2. destruct o as [p|]; split; reflexivity.
Qed.

Lemma blocks_map {A C} (f : A -> C) W l : cur_block W (map f l) = map f (cur_block W l) /\ prev_block W (map f l) = map f (prev_block W l).
Proof. split; [apply cur_block_map|apply prev_block_map]. Qed.

(** @prop C96_interim_slope_binary64: in binary64, windows up to 2^26, the last 2W pairs of
    magnitude at most [Mx] and [My]: with [C] and [V] the weighted averages of the
    covariances and of the variances of x of the two blocks (C88), if [V] is at
    least twice the bound [Ev] of C88 for its error, slope() of the interim
    regression is finite and within [2 (Ec + |S| Ev) / V] and one rounding of
    [S = C / V], for every number of pushes. *)
Lemma c96_interim_slope : forall (W : nat) (ops : list (op (b64 * b64))) (Mx My C V : R),
  let l := since_clear ops in
  let u := bpow radix2 (-53) in
  let eta := bpow radix2 (-1075) in
  l <> [] -> (0 < W)%nat -> (Z.of_nat W <= 2 ^ 26)%Z ->
  bpow radix2 (-1000) <= Mx <= bpow radix2 480 -> bpow radix2 (-1000) <= My <= bpow radix2 480 ->
  Forall (fun p => (b64_finite (fst p) /\ Rabs (b64_real (fst p)) <= Mx) /\
                   (b64_finite (snd p) /\ Rabs (b64_real (snd p)) <= My)) (lastn (2 * W) l) ->
  let real p := (b64_real (fst p), b64_real (snd p)) in
  let p := map real (prev_block W l) in
  let a := map real (cur_block W l) in
  let s := card (cur_block W l) in
  let wp := (INR W - s + 1) ^ 2 in
  let wa := 2 * (s - 1) in
  ((length l <= W)%nat -> C = covariance (map real l) /\ V = variance (xs (map real l))) ->
  ((W < length l)%nat -> C = (wp * covariance p + wa * covariance a) / (wp + wa) /\
                         V = (wp * variance (xs p) + wa * variance (xs a)) / (wp + wa)) ->
  let S := C / V in
  let Ev := 5 * ((14 * INR W + 454) * u * (Mx * Mx) + (3 * INR W + 13) * (10 * Mx) * eta + 27 * eta) in
  let Ec := 5 * ((14 * INR W + 454) * u * (Mx * My) + (3 * INR W + 13) * (4 * Mx + 6 * My) * eta + 27 * eta) in
  let Es := 2 * (Ec + Rabs S * Ev) / V in
  0 < V -> 2 * Ev <= V -> Rabs S + Es <= bpow radix2 1023 ->
  let w := N.of_nat W in
  let slope := ireg_slope b64num w (run (ireg_push b64num w) (ireg_clear b64num) (ireg_init b64num) ops) in
  b64_finite slope /\ Rabs (b64_real slope - S) <= slack u eta S Es.
Proof.
  intros W ops Mx My C V l u eta NE HW HWb HX HY HF real p a s wp wa H1 H2 S Ev Ec Es V0 HV HB w slope.
  destruct (ireg_parts w ops) as (Pc & Px).
  destruct (c88_covariance_binary64 W ops Mx My NE HW HWb HX HY HF) as (Fc & Ac1 & Ac2).
  fold l in Ac1, Ac2. fold w u eta s wp wa Ec in Fc, Ac1, Ac2.
  pose proof (c88_variance_binary64 W (map (op_map fst) ops) Mx) as H88. rewrite since_clear_op_map in H88. fold l in H88.
  cbv zeta in H88. destruct (blocks_map (@fst b64 b64) W l) as [B1 B2].
  rewrite B1, B2, lastn_pairs, !map_length in H88. fold w u eta in H88.
  destruct (H88 (map_ne _ _ NE) HW HWb HX (bound_x _ _ _ HF)) as (Fv & Av1 & Av2). clear H88.
  replace (card (map fst (cur_block W l))) with s in Av2 by (unfold s, card; rewrite map_length; reflexivity).
  fold wp wa Ev in Av1, Av2.
  assert (X1 : forall q, map b64_real (map fst q) = xs (map real q)) by (intros q; unfold xs; rewrite !map_map; reflexivity).
  rewrite X1 in Av1. rewrite (X1 (prev_block W l)) in Av2. rewrite (X1 (cur_block W l)) in Av2. fold p a in Ac2, Av2.
  assert (Ac : Rabs (b64_real (icov_variance b64num w (run (icov_push b64num w) (icov_clear b64num) (icov_init b64num) ops)) - C) <= Ec).
  { destruct (Nat.leb_spec (length l) W) as [L|L].
    - destruct (H1 L) as [E _]. rewrite E. exact (Ac1 L).
    - destruct (H2 L) as [E _]. rewrite E. exact (Ac2 L). }
  assert (Av : Rabs (b64_real (ivar_variance b64num w (run (ivar_push b64num w) (ivar_clear b64num) (ivar_init b64num) (map (op_map fst) ops))) - V) <= Ev).
  { destruct (Nat.leb_spec (length l) W) as [L|L].
    - destruct (H1 L) as [_ E]. rewrite E. exact (Av1 L).
    - destruct (H2 L) as [_ E]. rewrite E. exact (Av2 L). }
  unfold slope, ireg_slope. rewrite Pc, Px.
  destruct (div_err approx_b64 _ _ _ _ C V Ec Ev (denotes_fin _ Fc) (denotes_fin _ Fv) Ac Av V0 HV HB)
    as (NZ & r & (Fr & Er) & Hr).
  rewrite (nonzero_eq _ _ (denotes_fin _ Fv) NZ). split; [exact Fr|]. rewrite Er. exact Hr.
Qed.

(** @ex C96_interim_slope_binary64_ex: windows of two, the blocks {(0,0), (4,8)} and
    {(8,4), (4,4)}: the weights are 1 and 2, the covariances 8 and 0, the variances 4
    and 4, the slope 2/3. *)
Lemma c96_interim_slope_ex :
  let z := b64_of_Z in
  let l := since_clear [Push (z 99, S754_nan : b64); Clear; Push (z 0, z 0); Push (z 4, z 8); Push (z 8, z 4); Push (z 4, z 4)]%Z in
  let u := bpow radix2 (-53) in
  let eta := bpow radix2 (-1075) in
  let real p := (b64_real (fst p), b64_real (snd p)) in
  let p := map real (prev_block 2 l) in
  let a := map real (cur_block 2 l) in
  let s := card (cur_block 2 l) in
  let wp := (INR 2 - s + 1) ^ 2 in
  let wa := 2 * (s - 1) in
  bpow radix2 (-1000) <= 8 <= bpow radix2 480 /\ (2 < length l)%nat /\
  Forall (fun p => (b64_finite (fst p) /\ Rabs (b64_real (fst p)) <= 8) /\
                   (b64_finite (snd p) /\ Rabs (b64_real (snd p)) <= 8)) (lastn (2 * 2) l) /\
  8 / 3 = (wp * covariance p + wa * covariance a) / (wp + wa) /\
  4 = (wp * variance (xs p) + wa * variance (xs a)) / (wp + wa) /\
  let S := 8 / 3 / 4 in
  let Ev := 5 * ((14 * INR 2 + 454) * u * (8 * 8) + (3 * INR 2 + 13) * (10 * 8) * eta + 27 * eta) in
  let Ec := 5 * ((14 * INR 2 + 454) * u * (8 * 8) + (3 * INR 2 + 13) * (4 * 8 + 6 * 8) * eta + 27 * eta) in
  let Es := 2 * (Ec + Rabs S * Ev) / 4 in
  2 * Ev <= 4 /\ Rabs S + Es <= bpow radix2 1023 /\ slack u eta S Es <= / 10 ^ 10.
Proof.
  cbn zeta. cbn [since_clear since_clear_from app].
  split; [exact bounds8|]. split; [cbn; lia|]. split; [exact points_bound|].
  set (l := [_; _; _; _]). set (real := fun p => (b64_real (fst p), b64_real (snd p))).
  rewrite <- (cur_block_map real 2 l), <- (prev_block_map real 2 l).
  replace (card (cur_block 2 l)) with 2 by (unfold card, cur_block, lastn, l; cbn; ring).
  pose proof points_real as PR. cbv zeta in PR. fold real in PR. fold l in PR. rewrite PR.
  split.
  { unfold covariance, cosum, xs, ys, mean, card, cur_block, prev_block, lastn. cbn. field. }
  split.
  { unfold variance, csum, xs, mean, card, cur_block, prev_block, lastn. cbn. field. }
  unfold slack. rewrite (Rabs_pos_eq (8 / 3 / 4)) by lra. destruct small_constants as (-> & T & B).
  revert T B. generalize (bpow radix2 (-1075)) (bpow radix2 1023). intros t B' T B. cbn in T |- *. lra.
Qed.

(** The y filter of the interim regression is not cleared (C29); without clear it has the
    same values. *)
Lemma ireg_y (w : N) (l : list (b64 * b64)) :
  ir_y b64num (run (ireg_push b64num w) (ireg_clear b64num) (ireg_init b64num) (pushes l)) =
  run (imean_push b64num w) (imean_clear b64num) (imean_init b64num) (pushes (map snd l)).
Proof.
  induction l as [|q l IH] using rev_ind; [reflexivity|].
  unfold pushes in *. rewrite !map_app, !run_app, <- IH. reflexivity.
Qed.

Lemma since_clear_pushes {A} (l : list A) : since_clear (pushes l) = l.
Proof.
  induction l as [|a l IH] using rev_ind; [reflexivity|].
  unfold pushes in *. rewrite map_app. cbn [map]. rewrite since_clear_snoc_push, IH. reflexivity.
Qed.

(** @prop C96_interim_at_binary64: as long as clear() is not called, at(p) of the interim
    regression for a finite position p is within an explicit bound of
    [my + S (p - mx)] with the weighted means of the two blocks of C88, for every
    number of pushes. *)
Lemma c96_interim_at : forall (W : nat) (l : list (b64 * b64)) (Mx My C V mx my : R) (q : b64),
  let u := bpow radix2 (-53) in
  let eta := bpow radix2 (-1075) in
  l <> [] -> (0 < W)%nat -> (Z.of_nat W <= 2 ^ 26)%Z -> b64_finite q ->
  bpow radix2 (-1000) <= Mx <= bpow radix2 480 -> bpow radix2 (-1000) <= My <= bpow radix2 480 ->
  Forall (fun p => (b64_finite (fst p) /\ Rabs (b64_real (fst p)) <= Mx) /\
                   (b64_finite (snd p) /\ Rabs (b64_real (snd p)) <= My)) (lastn (2 * W) l) ->
  let real p := (b64_real (fst p), b64_real (snd p)) in
  let p := map real (prev_block W l) in
  let a := map real (cur_block W l) in
  let s := card (cur_block W l) in
  let wp := (INR W - s + 1) ^ 2 in
  let wa := 2 * (s - 1) in
  let average f := (f p * (INR W - s) + f a * (2 * s)) / (INR W + s) in
  ((length l <= W)%nat -> C = covariance (map real l) /\ V = variance (xs (map real l)) /\
     mx = mean (xs (map real l)) /\ my = mean (ys (map real l))) ->
  ((W < length l)%nat -> C = (wp * covariance p + wa * covariance a) / (wp + wa) /\
     V = (wp * variance (xs p) + wa * variance (xs a)) / (wp + wa) /\
     mx = average (fun b => mean (xs b)) /\ my = average (fun b => mean (ys b))) ->
  let S := C / V in
  let D := mx - b64_real q in
  let Ev := 5 * ((14 * INR W + 454) * u * (Mx * Mx) + (3 * INR W + 13) * (10 * Mx) * eta + 27 * eta) in
  let Ec := 5 * ((14 * INR W + 454) * u * (Mx * My) + (3 * INR W + 13) * (4 * Mx + 6 * My) * eta + 27 * eta) in
  let Es := 2 * (Ec + Rabs S * Ev) / V in
  let Eb := slack u eta S Es in
  let Ex := (INR W + 46) * u * Mx + (3 * INR W + 29) * eta in
  let Ey := (INR W + 46) * u * My + (3 * INR W + 29) * eta in
  let Ed := slack u eta D Ex in
  let Em := Rabs S * Ed + Rabs D * Eb + Eb * Ed in
  let Ea := Ey + slack u eta (S * D) Em in
  0 < V -> 2 * Ev <= V -> Rabs S + Es <= bpow radix2 1023 -> Rabs D + Ex <= bpow radix2 1023 ->
  Rabs (S * D) + Em <= bpow radix2 1023 -> Rabs (my - S * D) + Ea <= bpow radix2 1023 ->
  let w := N.of_nat W in
  let at_q := ireg_at b64num w (run (ireg_push b64num w) (ireg_clear b64num) (ireg_init b64num) (pushes l)) q in
  b64_finite at_q /\
  Rabs (b64_real at_q - (my + S * (b64_real q - mx))) <= slack u eta (my - S * D) Ea.
Proof.
  intros W l Mx My C V mx my q u eta NE HW HWb Fq HX HY HF real p a s wp wa average H1 H2
    S D Ev Ec Es Eb Ex Ey Ed Em Ea V0 HV HB1 HB2 HB3 HB4 w at_q.
  pose proof (c96_interim_slope W (pushes l) Mx My C V) as HS. cbv zeta in HS. rewrite since_clear_pushes in HS.
  destruct (HS NE HW HWb HX HY HF) as (Fs & As); try assumption.
  { intros L. destruct (H1 L) as (E1 & E2 & _). split; [exact E1|exact E2]. }
  { intros L. destruct (H2 L) as (E1 & E2 & _). split; [exact E1|exact E2]. }
  clear HS. fold u eta w in Fs, As. fold S Ev Ec in As. fold Es in As. fold Eb in As.
  assert (HW49 : (Z.of_nat W <= 2 ^ 49)%Z) by (eapply Z.le_trans; [exact HWb|lia]).
  assert (B480 : bpow radix2 480 <= bpow radix2 960) by (apply bp_le; lia).
  destruct (blocks_map (@fst b64 b64) W l) as [B1 B2]. destruct (blocks_map (@snd b64 b64) W l) as [B3 B4].
  assert (X1 : forall q, map b64_real (map fst q) = xs (map real q)) by (intros z; unfold xs; rewrite !map_map; reflexivity).
  assert (Y1 : forall q, map b64_real (map snd q) = ys (map real q)) by (intros z; unfold ys; rewrite !map_map; reflexivity).
  assert (Cx : card (map fst (cur_block W l)) = s) by (unfold s, card; rewrite map_length; reflexivity).
  assert (Cy : card (map snd (cur_block W l)) = s) by (unfold s, card; rewrite map_length; reflexivity).
  (* means *)
  pose proof (c88_mean_binary64 W (pushes (map fst l)) Mx) as HMx. cbv zeta in HMx.
  rewrite since_clear_pushes in HMx. rewrite B1, B2, lastn_pairs in HMx. rewrite Cx in HMx.
  destruct (HMx (map_ne _ _ NE) HW HW49 ltac:(lra) (bound_x _ _ _ HF)) as (Fx & Ax1 & Ax2). clear HMx.
  pose proof (c88_mean_binary64 W (pushes (map snd l)) My) as HMy. cbv zeta in HMy.
  rewrite since_clear_pushes in HMy. rewrite B3, B4, lastn_pairs in HMy. rewrite Cy in HMy.
  destruct (HMy (map_ne _ _ NE) HW HW49 ltac:(lra) (bound_y _ _ _ HF)) as (Fy & Ay1 & Ay2). clear HMy.
  rewrite map_length in Ax1, Ax2, Ay1, Ay2.
  rewrite X1 in Ax1. rewrite (X1 (prev_block W l)), (X1 (cur_block W l)) in Ax2.
  rewrite Y1 in Ay1. rewrite (Y1 (prev_block W l)), (Y1 (cur_block W l)) in Ay2.
  fold w u eta in Fx, Fy, Ax1, Ax2, Ay1, Ay2. fold Ex in Ax1, Ax2. fold Ey in Ay1, Ay2. fold p a in Ax2, Ay2.
  set (mX := imean_mean b64num w (run (imean_push b64num w) (imean_clear b64num) (imean_init b64num) (pushes (map fst l)))) in *.
  set (mY := imean_mean b64num w (run (imean_push b64num w) (imean_clear b64num) (imean_init b64num) (pushes (map snd l)))) in *.
  assert (Ax : Rabs (b64_real mX - mx) <= Ex).
  { destruct (Nat.leb_spec (length l) W) as [L|L].
    - destruct (H1 L) as (_ & _ & E & _). rewrite E. exact (Ax1 L).
    - destruct (H2 L) as (_ & _ & E & _). rewrite E. exact (Ax2 L). }
  assert (Ay : Rabs (b64_real mY - my) <= Ey).
  { destruct (Nat.leb_spec (length l) W) as [L|L].
    - destruct (H1 L) as (_ & _ & _ & E). rewrite E. exact (Ay1 L).
    - destruct (H2 L) as (_ & _ & _ & E). rewrite E. exact (Ay2 L). }
  destruct (ireg_parts w (pushes l)) as (_ & Px).
  unfold at_q, ireg_at.
  set (sl := ireg_slope b64num w _) in *. rewrite Px, ireg_y.
  assert (PP : map (op_map fst) (pushes l) = pushes (map (@fst b64 b64) l)) by (unfold pushes; rewrite !map_map; reflexivity).
  rewrite PP.
  destruct (c80_others b64num 1 w (n0 : b64num) (n0 : b64num) (n0 : b64num) (n0 : b64num) (pushes (map (@fst b64 b64) l)) ltac:(lia)) as (_ & (EM & _) & _).
  rewrite EM. fold mX mY.
  destruct (sub_err approx_b64 mX q _ _ mx (b64_real q) Ex 0 (denotes_fin _ Fx) (denotes_fin _ Fq) Ax)
    as (d & Vd & Hd).
  { rewrite Rminus_eq_0, Rabs_R0. lra. }
  { fold D. rewrite Rplus_0_r. exact HB2. }
  rewrite Rplus_0_r in Hd. fold D u eta Ed in Hd.
  destruct (mul_err approx_b64 sl (nsub mX q) _ d S D Eb Ed (denotes_fin _ Fs) Vd As Hd HB3) as (m & Vm & Hm).
  fold u eta in Hm. change (merr2 S D Eb Ed) with Em in Hm.
  destruct (sub_err approx_b64 mY (nmul sl (nsub mX q)) _ m my (S * D) Ey (slack u eta (S * D) Em)
    (denotes_fin _ Fy) Vm Ay Hm HB4) as (r & (Fr & Er) & Hr).
  split; [exact Fr|].
  replace (my + S * (b64_real q - mx)) with (my - S * D) by (unfold D; ring).
  rewrite Er. exact Hr.
Qed.

(** @ex C96_interim_at_binary64_ex: the blocks {(0,0), (4,8)} and {(8,4), (4,4)} have the
    weighted means 6 and 4 and slope 2/3; at 9 the line has the value 6. *)
Lemma c96_interim_at_ex :
  let z := b64_of_Z in
  let l := [(z 0, z 0); (z 4, z 8); (z 8, z 4); (z 4, z 4)]%Z in
  let u := bpow radix2 (-53) in
  let eta := bpow radix2 (-1075) in
  let real p := (b64_real (fst p), b64_real (snd p)) in
  let p := map real (prev_block 2 l) in
  let a := map real (cur_block 2 l) in
  let s := card (cur_block 2 l) in
  let wp := (INR 2 - s + 1) ^ 2 in
  let wa := 2 * (s - 1) in
  let average f := (f p * (INR 2 - s) + f a * (2 * s)) / (INR 2 + s) in
  bpow radix2 (-1000) <= 8 <= bpow radix2 480 /\ (2 < length l)%nat /\ b64_finite (z 9%Z) /\ b64_real (z 9%Z) = 9 /\
  Forall (fun p => (b64_finite (fst p) /\ Rabs (b64_real (fst p)) <= 8) /\
                   (b64_finite (snd p) /\ Rabs (b64_real (snd p)) <= 8)) (lastn (2 * 2) l) /\
  8 / 3 = (wp * covariance p + wa * covariance a) / (wp + wa) /\
  4 = (wp * variance (xs p) + wa * variance (xs a)) / (wp + wa) /\
  6 = average (fun b => mean (xs b)) /\ 4 = average (fun b => mean (ys b)) /\
  let S := 8 / 3 / 4 in
  let D := 6 - 9 in
  let Ev := 5 * ((14 * INR 2 + 454) * u * (8 * 8) + (3 * INR 2 + 13) * (10 * 8) * eta + 27 * eta) in
  let Ec := 5 * ((14 * INR 2 + 454) * u * (8 * 8) + (3 * INR 2 + 13) * (4 * 8 + 6 * 8) * eta + 27 * eta) in
  let Es := 2 * (Ec + Rabs S * Ev) / 4 in
  let Eb := slack u eta S Es in
  let Ex := (INR 2 + 46) * u * 8 + (3 * INR 2 + 29) * eta in
  let Ed := slack u eta D Ex in
  let Em := Rabs S * Ed + Rabs D * Eb + Eb * Ed in
  let Ea := Ex + slack u eta (S * D) Em in
  2 * Ev <= 4 /\ Rabs S + Es <= bpow radix2 1023 /\ Rabs D + Ex <= bpow radix2 1023 /\
  Rabs (S * D) + Em <= bpow radix2 1023 /\ Rabs (4 - S * D) + Ea <= bpow radix2 1023 /\
  slack u eta (4 - S * D) Ea <= / 10 ^ 9.
Proof.
  cbn zeta. split; [exact bounds8|]. split; [cbn; lia|]. split; [split; vm_compute; reflexivity|]. split.
  { match goal with |- b64_real ?x = _ => let y := eval vm_compute in x in change x with y end.
    unfold b64_real, SF2R, F2R. cbn. lra. }
  split; [exact points_bound|].
  set (l := [_; _; _; _]). set (real := fun p => (b64_real (fst p), b64_real (snd p))).
  rewrite <- (cur_block_map real 2 l), <- (prev_block_map real 2 l).
  replace (card (cur_block 2 l)) with 2 by (unfold card, cur_block, lastn, l; cbn; ring).
  pose proof points_real as PR. cbv zeta in PR. fold real in PR. fold l in PR. rewrite PR.
  split.
  { unfold covariance, cosum, xs, ys, mean, card, cur_block, prev_block, lastn. cbn. field. }
  split.
  { unfold variance, csum, xs, mean, card, cur_block, prev_block, lastn. cbn. field. }
  split.
  { unfold xs, mean, card, cur_block, prev_block, lastn. cbn. field. }
  split.
  { unfold ys, mean, card, cur_block, prev_block, lastn. cbn. field. }
  replace (8 / 3 / 4) with (2 / 3) by field. replace (6 - 9) with (- 3) by ring.
  replace (2 / 3 * -3) with (- 2) by field. replace (4 - -2) with 6 by ring.
  destruct small_constants as (-> & T & B).
  set (Eb := slack _ _ (2 / 3) _). set (Ed := slack _ _ (-3) _).
  assert (HEb : 0 <= Eb <= / 10 ^ 10).
  { unfold Eb, slack. rewrite (Rabs_pos_eq (2 / 3)) by lra. clear -T.
    revert T. generalize (bpow radix2 (-1075)). intros t T. cbn in T |- *. lra. }
  assert (HEd : 0 <= Ed <= / 10 ^ 12).
  { unfold Ed, slack. rewrite (Rabs_left (-3)) by lra. clear -T.
    revert T. generalize (bpow radix2 (-1075)). intros t T. cbn in T |- *. lra. }
  assert (HP : 0 <= Eb * Ed <= / 10 ^ 22).
  { split; [apply Rmult_le_pos; lra|]. replace (/ 10 ^ 22) with (/ 10 ^ 10 * / 10 ^ 12) by (cbn; lra).
    apply Rmult_le_compat; lra. }
  clearbody Eb Ed. generalize dependent (Eb * Ed). intros P HP.
  unfold slack. rewrite (Rabs_pos_eq (2 / 3)), (Rabs_left (-3)), (Rabs_left (-2)), (Rabs_pos_eq 6) by lra.
  revert T B. generalize (bpow radix2 (-1075)) (bpow radix2 1023). intros t B' T B. cbn in * |- *. lra.
Qed.
