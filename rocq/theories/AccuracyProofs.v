(** * Error bounds for means computed with bounded errors *)

From Coq Require Import Reals ZArith NArith Bool List Lra Lia Psatz.
From Flocq Require Import Core.
From Verif Require Import Arith History HistoryLemmas SpecStats StatsLemmas Buffer Cumulative
  CumulativeProofs Window WindowProofs Decay SpecDecay DecayProofs Approx.
Import ListNotations.
Local Open Scope R_scope.

Section Accuracy.
Context {F : num} {val : F -> R -> Prop} {B e t : R} {K : N}.
Hypothesis AP : approx F val B e t K.

Local Notation He := (ap_e _ _ _ _ _ _ AP).
Local Notation Ht := (ap_t _ _ _ _ _ _ AP).

Lemma forall2_len {A C} (P : A -> C -> Prop) l1 l2 : Forall2 P l1 l2 -> length l1 = length l2.
Proof. induction 1; cbn; congruence. Qed.

Lemma near_abs x r : near e t x r -> Rabs r <= (1 + e) * Rabs x + t.
Proof.
  unfold near. intros H. replace r with ((r - x) + x) by ring.
  eapply Rle_trans; [apply Rabs_triang|]. lra.
Qed.

(** Error of m + (x - f) / k. *)
Definition qerr (D k : R) : R := (3 * e * D + 2 * t) / k + t.

Lemma update_err m x f c mv xv fv k D Y :
  val m mv -> val x xv -> val f fv -> val c k -> 1 <= k ->
  Rabs (xv - fv) <= D -> Rabs (mv + (xv - fv) / k) <= Y -> 0 <= D ->
  Y + 3 * D + 3 * t <= B -> 2 * D + t <= B ->
  e * t <= t ->
  exists r, val (nadd m (ndiv (nsub x f) c)) r /\
    Rabs (r - (mv + (xv - fv) / k)) <= 2 * qerr D k + e * Y + t.
Proof.
  intros Vm Vx Vf Vc Hk HD HY D0 HB HB2 Het. pose proof He as [E0 E1]. pose proof Ht as T0.
  assert (Y0 : 0 <= Y) by (eapply Rle_trans; [apply Rabs_pos|exact HY]).
  destruct (ap_sub _ _ _ _ _ _ AP _ _ _ _ Vx Vf) as (d & Vd & Nd); [lra|].
  pose proof (near_abs _ _ Nd) as Ad. unfold near in Nd.
  assert (Ed : Rabs (d - (xv - fv)) <= e * D + t).
  { eapply Rle_trans; [exact Nd|]. apply Rplus_le_compat_r, Rmult_le_compat_l; assumption. }
  assert (Bd : Rabs d <= (1 + e) * D + t).
  { eapply Rle_trans; [exact Ad|]. apply Rplus_le_compat_r, Rmult_le_compat_l; lra. }
  assert (IK : 0 < / k <= 1).
  { split; [apply Rinv_0_lt_compat; lra|]. rewrite <- Rinv_1. apply Rinv_le; lra. }
  assert (DK : forall z, Rabs (z / k) = Rabs z / k).
  { intros z. unfold Rdiv. rewrite Rabs_mult, (Rabs_pos_eq (/ k)) by lra. reflexivity. }
  assert (Bdk : Rabs (d / k) <= ((1 + e) * D + t) / k).
  { rewrite DK. apply Rmult_le_compat_r; [lra|exact Bd]. }
  assert (LE : forall z, 0 <= z -> z / k <= z).
  { intros z Hz. unfold Rdiv. rewrite <- (Rmult_1_r z) at 2. apply Rmult_le_compat_l; lra. }
  assert (ED : 0 <= e * D <= D).
  { split; [apply Rmult_le_pos; lra|]. rewrite <- (Rmult_1_l D) at 2. apply Rmult_le_compat_r; lra. }
  assert (EED : 0 <= e * (e * D) <= e * D).
  { split; [apply Rmult_le_pos; lra|]. rewrite <- (Rmult_1_l (e * D)) at 2. apply Rmult_le_compat_r; lra. }
  destruct (ap_div _ _ _ _ _ _ AP _ _ _ _ Vd Vc) as (q & Vq & Nq); [lra| |].
  { eapply Rle_trans; [exact Bdk|]. eapply Rle_trans; [apply LE|]; lra. }
  unfold near in Nq.
  assert (Eq : Rabs (q - (xv - fv) / k) <= qerr D k).
  { replace (q - (xv - fv) / k) with ((q - d / k) + (d - (xv - fv)) / k) by (unfold Rdiv; ring).
    eapply Rle_trans; [apply Rabs_triang|]. rewrite DK.
    assert (X1 : Rabs (q - d / k) <= (e * ((1 + e) * D + t)) / k + t).
    { eapply Rle_trans; [exact Nq|]. apply Rplus_le_compat_r. unfold Rdiv at 2. rewrite Rmult_assoc.
      apply Rmult_le_compat_l; [lra|exact Bdk]. }
    assert (X2 : Rabs (d - (xv - fv)) / k <= (e * D + t) / k).
    { apply Rmult_le_compat_r; [lra|exact Ed]. }
    assert (X3 : (e * ((1 + e) * D + t)) / k + (e * D + t) / k <= (3 * e * D + 2 * t) / k).
    { unfold Rdiv. rewrite <- Rmult_plus_distr_r. apply Rmult_le_compat_r; [lra|].
      replace (e * ((1 + e) * D + t) + (e * D + t)) with (2 * (e * D) + e * (e * D) + e * t + t) by ring. lra. }
    unfold qerr. lra. }
  assert (QB : qerr D k <= 3 * D + 3 * t).
  { unfold qerr. pose proof (LE (3 * e * D + 2 * t)). lra. }
  assert (Yq : Rabs (mv + q) <= Y + qerr D k).
  { replace (mv + q) with ((mv + (xv - fv) / k) + (q - (xv - fv) / k)) by ring.
    eapply Rle_trans; [apply Rabs_triang|]. lra. }
  destruct (ap_add _ _ _ _ _ _ AP _ _ _ _ Vm Vq) as (r & Vr & Nr); [lra|].
  unfold near in Nr. exists r. split; [exact Vr|].
  replace (r - (mv + (xv - fv) / k)) with ((r - (mv + q)) + (q - (xv - fv) / k)) by ring.
  eapply Rle_trans; [apply Rabs_triang|].
  assert (e * Rabs (mv + q) <= e * Y + qerr D k).
  { eapply Rle_trans; [apply Rmult_le_compat_l; [lra|exact Yq]|]. rewrite Rmult_plus_distr_l.
    apply Rplus_le_compat_l. rewrite <- (Rmult_1_l (qerr D k)) at 2.
    apply Rmult_le_compat_r; [|lra]. eapply Rle_trans; [apply Rabs_pos|exact Eq]. }
  lra.
Qed.

(** ** Cumulative mean *)

Variable M : R.
Hypothesis M0 : 0 <= M.

Definition bstep (k : R) : R := (k + 12) * (e * M) + (3 * k + 4) * t.
Definition bsum (n : R) : R := (n * (n + 1) / 2 + 12 * n) * (e * M) + (3 * (n * (n + 1) / 2) + 4 * n) * t.

Lemma eM0 : 0 <= e * M.
Proof. pose proof He. apply Rmult_le_pos; lra. Qed.

Lemma bsum_succ n : bsum (n + 1) = bsum n + bstep (n + 1).
Proof. unfold bsum, bstep. field. Qed.

Lemma bsum_bound n : 0 <= n -> 0 <= bsum n <= n * bstep (n + 1).
Proof.
  intros H. pose proof eM0. pose proof Ht. unfold bsum, bstep.
  assert (0 <= n * n) by nra. split.
  - apply Rplus_le_le_0_compat; apply Rmult_le_pos; nra.
  - replace (n * ((n + 1 + 12) * (e * M) + (3 * (n + 1) + 4) * t)) with
      ((n * n + 13 * n) * (e * M) + (3 * (n * n) + 7 * n) * t) by ring.
    apply Rplus_le_compat; apply Rmult_le_compat_r; lra.
Qed.

Lemma bsum_mean n : 1 <= n -> 2 * bsum n / n = (n + 25) * (e * M) + (3 * n + 11) * t.
Proof. intros H. unfold bsum. field. lra. Qed.

Lemma bsum_size n : 1 <= n -> 16 * n * e <= 1 -> 2 * bsum n / n <= 2 * M + 14 * n * t.
Proof.
  intros H1 H2. rewrite bsum_mean by exact H1. pose proof He as [E0 _]. pose proof Ht.
  assert (26 * n * e <= 2) by lra.
  assert ((n + 25) * e <= 2) by nra.
  assert ((n + 25) * (e * M) <= 2 * M) by (rewrite <- Rmult_assoc; apply Rmult_le_compat_r; lra).
  assert ((3 * n + 11) * t <= 14 * n * t) by (apply Rmult_le_compat_r; lra). lra.
Qed.

Lemma e_small n : 1 <= n -> 16 * n * e <= 1 -> e * t <= t.
Proof. intros. pose proof He as [E0 E1]. pose proof Ht. rewrite <- (Rmult_1_l t) at 2. apply Rmult_le_compat_r; lra. Qed.

Lemma Rsum_abs l : Forall (fun x => Rabs x <= M) l -> Rabs (Rsum l) <= INR (length l) * M.
Proof.
  induction 1 as [|x l Hx _ IH]; [cbn; rewrite Rabs_R0; lra|].
  change (length (x :: l)) with (S (length l)). rewrite S_INR. cbn [Rsum]. eapply Rle_trans; [apply Rabs_triang|]. lra.
Qed.

Lemma inr_count n : IZR (Z.of_N (N.of_nat n)) = INR n.
Proof. rewrite nat_N_Z, <- INR_IZR_INZ. reflexivity. Qed.

Definition merr (n : R) : R := if Req_EM_T n 0 then 0 else 2 * bsum n / n.

Lemma merr_mul n : n * merr n = 2 * bsum n.
Proof.
  unfold merr. destruct (Req_EM_T n 0) as [->|H]; [unfold bsum; field|]. field. exact H.
Qed.

Lemma inr_cases k : INR k = 0 \/ 1 <= INR k.
Proof.
  destruct k; [left; reflexivity|right]. rewrite S_INR. pose proof (pos_INR k). lra.
Qed.

Lemma merr_size k : 16 * INR k * e <= 1 -> 0 <= merr (INR k) <= 2 * M + 14 * INR k * t.
Proof.
  intros H. unfold merr. pose proof Ht. destruct (inr_cases k) as [Z|P].
  - rewrite Z. destruct (Req_EM_T 0 0) as [_|N]; [lra|contradiction].
  - destruct (Req_EM_T (INR k) 0) as [N|_]; [lra|]. split; [|apply bsum_size; assumption].
    destruct (bsum_bound (INR k)) as [S0 _]; [lra|].
    apply Rmult_le_pos; [lra|]. left. apply Rinv_0_lt_compat. lra.
Qed.

Lemma cstep_absorb k : 16 * (INR k + 1) * e <= 1 ->
  6 * e * merr (INR k) + 2 * e * bsum (INR k) <= bstep (INR k + 1).
Proof.
  intros H. pose proof He as [E0 _]. set (n := INR k) in *. pose proof (merr_mul n) as Mu.
  assert (n0' : 0 <= n) by apply pos_INR.
  destruct (bsum_bound n n0') as [S0 S1].
  assert (b0 : 0 <= bstep (n + 1)).
  { unfold bstep. pose proof eM0. pose proof Ht. apply Rplus_le_le_0_compat; apply Rmult_le_pos; lra. }
  assert (X : merr n <= 2 * bsum n).
  { destruct (inr_cases k) as [Z|P]; [change (INR k) with n in Z|change (INR k) with n in P].
    - unfold merr. destruct (Req_EM_T n 0) as [_|N]; [lra|]. rewrite Z in N; contradiction.
    - unfold merr. destruct (Req_EM_T n 0) as [Z|_]; [lra|]. unfold Rdiv.
      rewrite <- (Rmult_1_r (2 * bsum n)) at 2. apply Rmult_le_compat_l; [lra|].
      rewrite <- Rinv_1. apply Rinv_le; lra. }
  assert (Y : e * merr n <= 2 * (e * (n * bstep (n + 1)))).
  { replace (2 * (e * (n * bstep (n + 1)))) with (e * (2 * (n * bstep (n + 1)))) by ring.
    apply Rmult_le_compat_l; lra. }
  assert (Z : e * bsum n <= e * (n * bstep (n + 1))) by (apply Rmult_le_compat_l; lra).
  assert (W : 14 * (e * (n * bstep (n + 1))) <= bstep (n + 1)).
  { replace (14 * (e * (n * bstep (n + 1)))) with ((14 * n * e) * bstep (n + 1)) by ring.
    rewrite <- (Rmult_1_l (bstep (n + 1))) at 2. apply Rmult_le_compat_r; nra. }
  lra.
Qed.

Lemma cmean_acc l lv : Forall2 val l lv -> Forall (fun x => Rabs x <= M) lv ->
  (N.of_nat (length l) <= K)%N -> (N.of_nat (length l) < szmod)%N ->
  16 * INR (length l) * e <= 1 -> 16 * M + 60 * INR (length l) * t <= B ->
  exists r, val (cm_mean F (fold_left (cmean_push F) l (cmean_init F))) r /\
    cm_count F (fold_left (cmean_push F) l (cmean_init F)) = N.of_nat (length l) /\
    (l = [] -> r = 0) /\
    Rabs (INR (length l) * r - Rsum lv) <= 2 * bsum (INR (length l)).
Proof.
  revert lv. induction l as [|x l IH] using rev_ind; intros lv V HM HK HS H16 HB.
  - inversion V; subst. exists 0. cbn. split; [apply (ap_0 _ _ _ _ _ _ AP)|]. split; [reflexivity|]. split; [reflexivity|].
    rewrite Rmult_0_l, Rminus_0_r, Rabs_R0. unfold bsum. lra.
  - apply Forall2_app_inv_l in V. destruct V as (lv' & xv' & V & Vx & ->).
    inversion Vx as [|? xv ? ? Vxv Vnil]; subst. inversion Vnil; subst. clear Vx Vnil.
    apply Forall_app in HM. destruct HM as [HM Hx]. inversion Hx as [|? ? Hxv _]; subst.
    assert (LL : length (l ++ [x]) = S (length l)) by (rewrite app_length; cbn; lia).
    rewrite LL in *. set (n := INR (length l)) in *. rewrite S_INR in *. fold n in H16, HB |- *.
    assert (n0' : 0 <= n) by apply pos_INR.
    pose proof He as [E0 E1]. pose proof Ht as T0.
    assert (nt : 0 <= n * t) by (apply Rmult_le_pos; lra).
    destruct (IH lv' V HM) as (m & Vm & Cm & Zm & Gm); [lia|lia|nra|fold n; lra|].
    clear IH. rewrite fold_left_app. cbn [fold_left]. fold n in Gm.
    set (s := fold_left (cmean_push F) l (cmean_init F)) in *.
    unfold cmean_push. cbn [cm_mean cm_count]. rewrite Cm, szadd_small by lia.
    destruct (bsum_bound n n0') as [S0 S1].
    assert (HA : Rabs (Rsum lv') <= n * M).
    { unfold n. rewrite (forall2_len _ _ _ V). apply Rsum_abs. exact HM. }
    destruct (merr_size (length l)) as [R0 R1]; [fold n; nra|]. fold n in R0, R1.
    pose proof (cstep_absorb (length l) H16) as AB. fold n in AB.
    (* the running mean *)
    assert (Hm : Rabs m <= M + merr n).
    { destruct (inr_cases (length l)) as [Z|P]; [change (INR (length l)) with n in Z|change (INR (length l)) with n in P].
      - rewrite Zm; [rewrite Rabs_R0; lra|]. destruct l; [reflexivity|].
        unfold n in Z. change (length (c :: l)) with (S (length l)) in Z. rewrite S_INR in Z. pose proof (pos_INR (length l)). lra.
      - apply Rmult_le_reg_l with n; [lra|]. rewrite Rmult_plus_distr_l, merr_mul.
        rewrite <- (Rabs_pos_eq n) at 1 by lra. rewrite <- Rabs_mult.
        replace (n * m) with (Rsum lv' + (n * m - Rsum lv')) by ring.
        eapply Rle_trans; [apply Rabs_triang|]. lra. }
    assert (HY : Rabs (m + (xv - m) / (n + 1)) <= M + 2 * bsum n / (n + 1)).
    { replace (m + (xv - m) / (n + 1)) with (((Rsum lv' + xv) + (n * m - Rsum lv')) / (n + 1)) by (field; lra).
      unfold Rdiv at 1. rewrite Rabs_mult, (Rabs_pos_eq (/ (n + 1))) by (left; apply Rinv_0_lt_compat; lra).
      replace (M + 2 * bsum n / (n + 1)) with (((n + 1) * M + 2 * bsum n) * / (n + 1)) by (field; lra).
      apply Rmult_le_compat_r; [left; apply Rinv_0_lt_compat; lra|].
      eapply Rle_trans; [apply Rabs_triang|]. pose proof (Rabs_triang (Rsum lv') xv). lra. }
    assert (SY : 2 * bsum n / (n + 1) <= merr n).
    { rewrite <- merr_mul. apply Rmult_le_reg_r with (n + 1); [lra|].
      replace (n * merr n / (n + 1) * (n + 1)) with (n * merr n) by (field; lra). nra. }
    assert (Vc : val (nofsz (N.of_nat (length l) + 1)) (n + 1)).
    { replace (n + 1) with (IZR (Z.of_N (N.of_nat (length l) + 1))).
      - apply (ap_count _ _ _ _ _ _ AP). lia.
      - rewrite N2Z.inj_add, plus_IZR, inr_count. reflexivity. }
    destruct (update_err _ _ _ _ m xv m (n + 1) (2 * M + merr n) (M + 2 * bsum n / (n + 1)) Vm Vxv Vm Vc) as (r & Vr & Er);
      [lra| |exact HY|lra|lra|lra|apply (e_small (n + 1)); lra|].
    { unfold Rminus. eapply Rle_trans; [apply Rabs_triang|]. rewrite Rabs_Ropp. lra. }
    exists r. split; [exact Vr|]. split; [lia|]. split; [intros X; destruct l; discriminate|].
    rewrite Rsum_snoc, bsum_succ.
    replace ((n + 1) * r - (Rsum lv' + xv)) with
      ((n * m - Rsum lv') + (n + 1) * (r - (m + (xv - m) / (n + 1)))) by (field; lra).
    eapply Rle_trans; [apply Rabs_triang|]. rewrite Rabs_mult, (Rabs_pos_eq (n + 1)) by lra.
    assert (Fin : (n + 1) * (2 * qerr (2 * M + merr n) (n + 1) + e * (M + 2 * bsum n / (n + 1)) + t) =
      bstep (n + 1) + (6 * e * merr n + 2 * e * bsum n)).
    { unfold qerr, bstep. field. lra. }
    assert ((n + 1) * Rabs (r - (m + (xv - m) / (n + 1))) <=
      (n + 1) * (2 * qerr (2 * M + merr n) (n + 1) + e * (M + 2 * bsum n / (n + 1)) + t)).
    { apply Rmult_le_compat_l; [lra|exact Er]. }
    lra.
Qed.

Lemma cmean_accuracy l lv : Forall2 val l lv -> Forall (fun x => Rabs x <= M) lv -> l <> [] ->
  (N.of_nat (length l) <= K)%N -> (N.of_nat (length l) < szmod)%N ->
  16 * INR (length l) * e <= 1 -> 16 * M + 60 * INR (length l) * t <= B ->
  exists r, val (cm_mean F (fold_left (cmean_push F) l (cmean_init F))) r /\
    Rabs (r - mean lv) <= (INR (length l) + 25) * e * M + (3 * INR (length l) + 11) * t.
Proof.
  intros V HM NE HK HS H16 HB.
  destruct (cmean_acc l lv V HM HK HS H16 HB) as (r & Vr & _ & _ & G).
  exists r. split; [exact Vr|].
  assert (P : 1 <= INR (length l)).
  { destruct (inr_cases (length l)) as [Z|P]; [|exact P]. destruct l; [contradiction|].
    change (length (c :: l)) with (S (length l)) in Z. rewrite S_INR in Z. pose proof (pos_INR (length l)). lra. }
  set (n := INR (length l)) in *.
  replace (r - mean lv) with ((n * r - Rsum lv) * / n).
  - rewrite Rabs_mult, (Rabs_pos_eq (/ n)) by (left; apply Rinv_0_lt_compat; lra).
    rewrite Rmult_assoc, <- bsum_mean by exact P. apply Rmult_le_compat_r; [left; apply Rinv_0_lt_compat; lra|exact G].
  - unfold mean, card. rewrite <- (forall2_len _ _ _ V). fold n. field. lra.
Qed.

Lemma mean_abs l : l <> [] -> Forall (fun x => Rabs x <= M) l -> Rabs (mean l) <= M.
Proof.
  intros NE H. pose proof (Rsum_abs l H) as A. unfold mean, card.
  assert (P : 0 < INR (length l)) by (apply lt_0_INR; destruct l; [contradiction|cbn; lia]).
  unfold Rdiv. rewrite Rabs_mult, (Rabs_pos_eq (/ _)) by (left; apply Rinv_0_lt_compat; exact P).
  apply Rmult_le_reg_r with (INR (length l)); [exact P|].
  rewrite Rmult_assoc, Rinv_l by lra. lra.
Qed.

(** ** Window mean *)

Section WindowMean.
Variable W : nat.
Hypothesis HW : (0 < W)%nat.

Definition wstep : R := 13 * (e * M) + 7 * t.

Lemma wmean_filling l : (length l <= W)%nat ->
  wm_mean F (fold_left (wmean_push F W) l (wmean_init F)) =
  cm_mean F (fold_left (cmean_push F) l (cmean_init F)) /\
  cm_count F (fold_left (cmean_push F) l (cmean_init F)) = sz (N.of_nat (length l)).
Proof.
  induction l as [|x l IH] using rev_ind; intros HL; [split; reflexivity|].
  rewrite length_snoc in *. destruct IH as [I1 I2]; [lia|].
  rewrite !fold_left_app. cbn [fold_left]. pose proof (wmean_fold_window F W HW l) as HWin.
  set (s := fold_left (wmean_push F W) l (wmean_init F)) in *.
  set (c := fold_left (cmean_push F) l (cmean_init F)) in *.
  unfold wmean_push, cmean_push. cbn [wm_mean cm_mean cm_count].
  rewrite <- I1, I2. unfold wmean_full, wmean_size. rewrite HWin.
  rewrite lastn_short by lia. unfold rb_full. rewrite (proj2 (Nat.leb_gt _ _)) by lia.
  assert (E : szadd (sz (N.of_nat (length l))) 1 = szadd (rb_size l) 1).
  { unfold szadd, sz, rb_size. rewrite N.add_mod_idemp_l; [reflexivity|discriminate]. }
  rewrite E. split; [reflexivity|]. unfold szadd, rb_size. f_equal. lia.
Qed.

Lemma Forall2_lastn l lv n : Forall2 val l lv -> Forall2 val (lastn n l) (lastn n lv).
Proof.
  intros V. unfold lastn. rewrite <- (forall2_len _ _ _ V).
  generalize (length l - n)%nat as k. induction V as [|a b l lv Hab V IH]; intros k; [rewrite !skipn_nil; constructor|].
  destruct k; [constructor; assumption|apply IH].
Qed.

Lemma Forall_lastn (P : R -> Prop) n l : Forall P l -> Forall P (lastn n l).
Proof. rewrite !Forall_forall. intros H x Hx. apply H, (lastn_In n), Hx. Qed.

Lemma wstep0 : 0 <= wstep.
Proof. unfold wstep. pose proof eM0. pose proof Ht. lra. Qed.

Lemma wmean_acc l lv : Forall2 val l lv -> Forall (fun x => Rabs x <= M) lv -> l <> [] ->
  (N.of_nat W <= K)%N -> (N.of_nat W < szmod)%N ->
  16 * INR (length l) * e <= 1 -> 16 * M + 60 * INR (length l) * t <= B ->
  exists r, val (wm_mean F (fold_left (wmean_push F W) l (wmean_init F))) r /\
    Rabs (r - mean (lastn W lv)) <= 2 * INR (length l) * wstep.
Proof.
  intros V HM NE HK HS H16 HB. revert lv V HM NE H16 HB.
  induction l as [|x l IH] using rev_ind; intros lv V HM NE H16 HB; [contradiction|].
  pose proof He as [E0 E1]. pose proof Ht as T0.
  assert (n0' : 1 <= INR (length (l ++ [x]))).
  { rewrite length_snoc, S_INR. pose proof (pos_INR (length l)). lra. }
  destruct (Nat.le_gt_cases (length (l ++ [x])) W) as [C|C].
  - destruct (wmean_filling (l ++ [x]) C) as [-> _].
    destruct (cmean_accuracy (l ++ [x]) lv V HM NE) as (r & Vr & Er); [lia|lia|exact H16|exact HB|].
    exists r. split; [exact Vr|].
    assert (E : lastn W lv = lv).
    { apply lastn_short. rewrite <- (forall2_len _ _ _ V). exact C. }
    rewrite E. eapply Rle_trans; [exact Er|]. unfold wstep.
    set (n := INR (length (l ++ [x]))) in *. pose proof eM0.
    replace ((n + 25) * e * M) with ((n + 25) * (e * M)) by ring.
    replace (2 * n * (13 * (e * M) + 7 * t)) with ((26 * n) * (e * M) + (14 * n) * t) by ring.
    apply Rplus_le_compat; apply Rmult_le_compat_r; lra.
  - apply Forall2_app_inv_l in V. destruct V as (lv' & xv' & V & Vx & ->).
    inversion Vx as [|? xv ? ? Vxv Vnil]; subst. inversion Vnil; subst. clear Vx Vnil.
    apply Forall_app in HM. destruct HM as [HM Hx]. inversion Hx as [|? ? Hxv _]; subst.
    rewrite length_snoc in *. set (n := INR (length l)) in *. rewrite S_INR in *.
    change (INR (length l)) with n in IH, H16, HB, n0' |- *.
    assert (LL : length lv' = length l) by (symmetry; apply (forall2_len _ _ _ V)).
    assert (NEl : l <> []) by (intros ->; cbn in C; lia).
    assert (nn : 0 <= n) by apply pos_INR.
    assert (nt : 0 <= n * t) by (apply Rmult_le_pos; lra).
    destruct (IH lv' V HM NEl) as (m & Vm & Em); [nra|lra|]. clear IH.
    rewrite fold_left_app. cbn [fold_left]. pose proof (wmean_fold_window F W HW l) as HWin.
    set (s := fold_left (wmean_push F W) l (wmean_init F)) in *.
    unfold wmean_push. cbn [wm_mean].
    unfold wmean_full, wmean_size. rewrite HWin.
    assert (L1 : length (lastn W l) = W) by (rewrite lastn_length; lia).
    assert (L2 : length (lastn W lv') = W) by (rewrite lastn_length; lia).
    assert (FU : rb_full W (lastn W l) = true) by (unfold rb_full; rewrite L1; apply Nat.leb_refl).
    rewrite FU. pose proof (Forall2_lastn l lv' W V) as VW. pose proof (Forall_lastn _ W _ HM) as MW.
    rewrite (lastn_snoc W lv' xv HW).
    rewrite (proj2 (Nat.leb_le W (length lv'))) by lia.
    destruct (lastn W l) as [|f w] eqn:EW; [cbn in L1; lia|].
    destruct (lastn W lv') as [|fv wv] eqn:EE2; [cbn in L2; lia|]. symmetry in EE2.
    assert (Vf : val f fv) by (inversion VW; assumption).
    cbn [rb_front hd_error]. unfold rb_size. rewrite L1.
    set (k := IZR (Z.of_N (N.of_nat W))).
    assert (k1 : 1 <= k).
    { unfold k. change 1 with (IZR 1). apply IZR_le. lia. }
    assert (Vc : val (nofsz (N.of_nat W)) k) by (apply (ap_count _ _ _ _ _ _ AP); lia).
    assert (TGT : mean (wv ++ [xv]) = mean (fv :: wv) + (xv - fv) / k).
    { cbn [tl]. unfold mean, card. rewrite length_snoc. cbn [length]. rewrite Rsum_snoc. cbn [Rsum].
      assert (EK : k = INR (S (length wv))).
      { unfold k. rewrite inr_count. f_equal. rewrite <- L2. reflexivity. }
      rewrite <- EK. field. lra. }
    cbn [tl]. rewrite TGT.
    set (A := mean (fv :: wv)) in *. set (b := wstep) in *.
    assert (b0 : 0 <= b) by apply wstep0.
    assert (HA : Rabs (A + (xv - fv) / k) <= M).
    { rewrite <- TGT. apply mean_abs; [destruct wv; discriminate|].
      apply Forall_app. split; [|exact Hx]. inversion MW; assumption. }
    assert (Hf : Rabs fv <= M) by (inversion MW; assumption).
    set (E := 2 * n * b) in *.
    assert (ne : n * e <= / 16) by nra.
    assert (EA : e * E <= b).
    { unfold E. replace (e * (2 * n * b)) with ((2 * (n * e)) * b) by ring.
      rewrite <- (Rmult_1_l b) at 2. apply Rmult_le_compat_r; lra. }
    assert (ES : 0 <= E <= 2 * M + 14 * n * t).
    { split; [unfold E; nra|]. unfold E, b, wstep.
      replace (2 * n * (13 * (e * M) + 7 * t)) with ((26 * (n * e)) * M + 14 * n * t) by ring.
      apply Rplus_le_compat_r. apply Rmult_le_compat_r; lra. }
    destruct (update_err _ _ _ _ m xv fv k (2 * M) (M + E) Vm Vxv Vf Vc) as (r & Vr & Er);
      [exact k1| | |lra|lra|lra|apply (e_small (n + 1)); lra|].
    { unfold Rminus. eapply Rle_trans; [apply Rabs_triang|]. rewrite Rabs_Ropp. lra. }
    { replace (m + (xv - fv) / k) with ((A + (xv - fv) / k) + (m - A)) by ring.
      eapply Rle_trans; [apply Rabs_triang|]. lra. }
    exists r. split; [exact Vr|].
    assert (QE : qerr (2 * M) k <= 6 * (e * M) + 3 * t).
    { unfold qerr. assert (X : (3 * e * (2 * M) + 2 * t) / k <= 3 * e * (2 * M) + 2 * t); [|lra].
      unfold Rdiv. rewrite <- (Rmult_1_r (3 * e * (2 * M) + 2 * t)) at 2.
      pose proof eM0. apply Rmult_le_compat_l; [lra|]. rewrite <- Rinv_1. apply Rinv_le; lra. }
    replace (r - (A + (xv - fv) / k)) with ((r - (m + (xv - fv) / k)) + (m - A)) by ring.
    eapply Rle_trans; [apply Rabs_triang|].
    assert (BB : 2 * qerr (2 * M) k + e * M + t <= b) by (unfold b, wstep; lra).
    replace (2 * (n + 1) * b) with (E + 2 * b) by (unfold E; ring). lra.
Qed.

End WindowMean.

End Accuracy.
