(** * Error bounds for the window and decay variance *)

From Coq Require Import Reals ZArith NArith Bool List Lra Lia Psatz.
From Flocq Require Import Core.
From Verif Require Import Arith History HistoryLemmas SpecStats StatsLemmas Buffer Cumulative CumulativeProofs
  Window WindowProofs Decay SpecDecay DecayProofs Approx AccuracyProofs AccuracyFilters AccuracyVariance.
Import ListNotations.
Local Open Scope R_scope.

Section WindowVariance.
Context {F : num} {val : F -> R -> Prop} {B e t : R} {K : N}.
Hypothesis AP : approx F val B e t K.

Local Notation He := (ap_e _ _ _ _ _ _ AP).
Local Notation Ht := (ap_t _ _ _ _ _ _ AP).

Lemma gen_step (sg : bool) M E g N Es x m1 m2 xv r1 r2 mv1 mv2 s sv S :
  val s sv -> val x xv -> val m1 r1 -> val m2 r2 -> Rabs (r1 - mv1) <= E -> Rabs (r2 - mv2) <= E ->
  Rabs (xv - mv1) <= 2 * M -> Rabs (xv - mv2) <= 2 * M -> 2 * M + E <= B -> 9 * (M * M) <= B ->
  E + e * (2 * M + E) + t <= g -> g <= M ->
  let h := @perr e t M M g g in let X := 2 * h + e * N + t in
  Rabs (sv - S) <= Es -> e * Es <= X -> N + Es + h <= B ->
  Rabs (if sg then S + (xv - mv1) * (xv - mv2) else S - (xv - mv1) * (xv - mv2)) <= N ->
  exists r, val (if sg then nadd s (nmul (nsub x m1) (nsub x m2)) else nsub s (nmul (nsub x m1) (nsub x m2))) r /\
    Rabs (r - (if sg then S + (xv - mv1) * (xv - mv2) else S - (xv - mv1) * (xv - mv2))) <= Es + 2 * X.
Proof.
  intros Vs Vx V1 V2 E1 E2 D1 D2 HB1 HB2 HG GM h X HS HE HB3 HN.
  destruct (dev_err AP x m1 xv r1 mv1 M E Vx V1 E1 D1 HB1) as (d1 & Vd1 & Ed1).
  destruct (dev_err AP x m2 xv r2 mv2 M E Vx V2 E2 D2 HB1) as (d2 & Vd2 & Ed2).
  destruct (prod_err AP _ _ d1 d2 (xv - mv1) (xv - mv2) M M g g Vd1 Vd2) as (p & Vp & Ep & _); [lra|lra|assumption..|].
  destruct (acc_err AP sg s _ sv p S _ Es h N Vs Vp HS Ep HN HB3) as (r & Vr & Er).
  exists r. split; [exact Vr|]. fold X in Er. lra.
Qed.

Variable M : R.
Variable n : R.   (* bound of the number of values *)
Variable W : nat.
Hypothesis HW : (0 < W)%nat.

Definition wdev : R := 2 * n * (13 * (e * M) + 7 * t).
Definition gwin : R := (26 * n + 4) * (e * M) + (14 * n + 2) * t.
Definition wverr : R := 2 * @perr e t M M gwin gwin + e * (4 * (n + 1) * (M * M)) + t.

Lemma wverr_closed : wverr = (264 * n + 62) * (e * (M * M)) + (140 * n + 20) * M * t + 3 * t.
Proof. unfold wverr, perr, gwin. ring. Qed.

Definition wfine : Prop :=
  0 <= M /\ 1 <= n /\ 64 * n * e <= 1 /\ 32 * n * t <= M /\ 16 * M + 60 * n * t <= B /\ 80 * n * (M * M) + 16 * n * t <= B.

Hypothesis Fi : wfine.

Lemma wdev_size : 0 <= wdev <= 2 * M + 14 * n * t.
Proof.
  destruct Fi as (M0 & N1 & H64 & TM & BM & BMM). pose proof He as [E0 _]. pose proof Ht as T0. unfold wdev.
  assert (0 <= e * M) by (apply Rmult_le_pos; lra). split; [nra|].
  replace (2 * n * (13 * (e * M) + 7 * t)) with ((26 * (n * e)) * M + 14 * n * t) by ring.
  apply Rplus_le_compat_r, Rmult_le_compat_r; lra.
Qed.

Lemma gwin_wdev : wdev + e * (2 * M + wdev) + t <= gwin.
Proof.
  destruct Fi as (M0 & N1 & H64 & TM & BM & BMM). pose proof He as [E0 _]. pose proof Ht as T0.
  destruct wdev_size as [_ D1].
  assert (X : e * (2 * M + wdev) <= e * (4 * M + 14 * n * t)) by (apply Rmult_le_compat_l; lra).
  assert (Y : e * (14 * n * t) <= t).
  { replace (e * (14 * n * t)) with ((14 * n * e) * t) by ring. apply scale_le; lra. }
  replace (e * (4 * M + 14 * n * t)) with (4 * (e * M) + e * (14 * n * t)) in X by ring.
  unfold gwin. unfold wdev at 1. lra.
Qed.

Lemma gwin_le : 0 <= gwin <= M.
Proof.
  destruct Fi as (M0 & N1 & H64 & TM & BM & BMM). pose proof He as [E0 _]. pose proof Ht as T0. unfold gwin.
  assert (0 <= e * M) by (apply Rmult_le_pos; lra).
  split; [apply Rplus_le_le_0_compat; apply Rmult_le_pos; lra|].
  assert (X : (26 * n + 4) * e <= / 2) by nra.
  assert ((26 * n + 4) * (e * M) <= / 2 * M) by (rewrite <- Rmult_assoc; apply Rmult_le_compat_r; lra).
  assert ((14 * n + 2) * t <= 16 * n * t) by (apply Rmult_le_compat_r; lra). lra.
Qed.

Lemma wverr_size : 0 <= @perr e t M M gwin gwin <= 6 * (M * M) + t /\ 0 <= wverr <= 13 * (M * M) + 3 * t /\
  4 * n * (e * (M * M)) + t <= wverr.
Proof.
  destruct Fi as (M0 & N1 & H64 & TM & BM & BMM). pose proof He as [E0 _]. pose proof Ht as T0.
  destruct gwin_le as [G0 G1]. assert (P : 0 <= M * M) by (apply Rmult_le_pos; lra).
  assert (eP : 0 <= e * (M * M)) by (apply Rmult_le_pos; lra).
  assert (neP : 64 * (n * (e * (M * M))) <= M * M).
  { replace (64 * (n * (e * (M * M)))) with (64 * n * e * (M * M)) by ring. apply scale_le; lra. }
  assert (neP0 : e * (M * M) <= n * (e * (M * M))) by (rewrite <- (Rmult_1_l (e * (M * M))) at 1; apply Rmult_le_compat_r; lra).
  assert (MG : 0 <= M * gwin <= M * M) by (split; [apply Rmult_le_pos|apply Rmult_le_compat_l]; lra).
  unfold wverr, perr. replace (e * (4 * (n + 1) * (M * M))) with (4 * (n * (e * (M * M))) + 4 * (e * (M * M))) by ring.
  lra.
Qed.

Lemma window_mean_near l lv : Forall2 val l lv -> Forall (fun x => Rabs x <= M) lv ->
  (N.of_nat W <= K)%N -> (N.of_nat W < szmod)%N -> INR (length l) <= n ->
  exists r, val (wm_mean F (fold_left (wmean_push F W) l (wmean_init F))) r /\ Rabs (r - mean (lastn W lv)) <= wdev.
Proof.
  intros V HM HK HS HN. destruct Fi as (M0 & N1 & H64 & TM & BM & BMM). pose proof He as [E0 _]. pose proof Ht as T0.
  pose proof (pos_INR (length l)) as L0.
  destruct l as [|x l].
  - inversion V; subst. exists 0. split; [apply (ap_0 _ _ _ _ _ _ AP)|].
    replace (mean (lastn W [])) with 0 by (unfold mean, lastn; rewrite skipn_nil; cbn; unfold Rdiv; ring).
    rewrite Rminus_0_r, Rabs_R0. apply wdev_size.
  - destruct (wmean_acc AP M M0 W HW (x :: l) lv V HM) as (r & Vr & Er); [discriminate|exact HK|exact HS|nra|nra|].
    exists r. split; [exact Vr|]. eapply Rle_trans; [exact Er|]. unfold wstep, wdev.
    assert (0 <= e * M) by (apply Rmult_le_pos; lra). apply Rmult_le_compat_r; lra.
Qed.

Lemma wvar_acc l lv : Forall2 val l lv -> Forall (fun x => Rabs x <= M) lv ->
  (N.of_nat W <= K)%N -> (N.of_nat W < szmod)%N -> INR (length l) <= n ->
  exists r, val (wv_sum F (fold_left (wvar_push F W) l (wvar_init F))) r /\
    Rabs (r - csum 2 (lastn W lv)) <= 4 * INR (length l) * wverr.
Proof.
  intros V HM HK HS HN. revert lv V HM HN.
  pose proof Fi as (M0 & N1 & H64 & TM & BM & BMM). pose proof He as [E0 _]. pose proof Ht as T0.
  pose proof wverr_size as ([h0 h1] & [X0 X1] & X2). pose proof gwin_wdev as GW. destruct gwin_le as [_ GM].
  pose proof wdev_size as [_ WD].
  assert (P : 0 <= M * M) by (apply Rmult_le_pos; lra).
  assert (nt : t <= n * t) by (rewrite <- (Rmult_1_l t) at 1; apply Rmult_le_compat_r; lra).
  assert (nP : M * M <= n * (M * M)) by (rewrite <- (Rmult_1_l (M * M)) at 1; apply Rmult_le_compat_r; lra).
  assert (B9 : 9 * (M * M) <= B) by lra.
  assert (EsB : forall k, 0 <= k <= n -> 0 <= 4 * k * wverr /\ e * (4 * k * wverr) <= wverr /\
    4 * (n + 1) * (M * M) + 4 * k * wverr + @perr e t M M gwin gwin <= B).
  { intros k Hk. split; [nra|]. split.
    - replace (e * (4 * k * wverr)) with (4 * (k * e) * wverr) by ring. apply scale_le; [lra|nra].
    - assert (4 * k * wverr <= 4 * n * wverr) by (apply Rmult_le_compat_r; lra).
      assert (4 * n * wverr <= 4 * n * (13 * (M * M) + 3 * t)) by (apply Rmult_le_compat_l; lra). nra. }
  induction l as [|x l IH] using rev_ind; intros lv V HM HN.
  - inversion V; subst. exists 0. split; [apply (ap_0 _ _ _ _ _ _ AP)|].
    unfold lastn. rewrite skipn_nil. cbn. rewrite Rminus_0_r, Rabs_R0. lra.
  - pose proof V as V0. pose proof HM as HM0. apply Forall2_app_inv_l in V. destruct V as (lv' & pv' & V & Vp & ->).
    inversion Vp as [|? xv ? ? Vx Vnil]; subst. inversion Vnil; subst. clear Vp Vnil.
    apply Forall_app in HM. destruct HM as [HM Hp]. inversion Hp as [|? ? Hx _]; subst.
    rewrite length_snoc in *. rewrite S_INR in *. set (k := INR (length l)) in *. assert (k0 : 0 <= k) by apply pos_INR.
    assert (LL : length lv' = length l) by (symmetry; apply (forall2_len _ _ _ V)).
    destruct (IH lv' V HM) as (s & Vs & Es); [lra|]. clear IH.
    destruct (window_mean_near _ _ V HM HK HS ltac:(fold k; lra)) as (m1 & Vm1 & Em1).
    destruct (window_mean_near _ _ V0 HM0 HK HS) as (m2 & Vm2 & Em2); [rewrite length_snoc, S_INR; fold k; lra|].
    rewrite fold_left_app in Vm2. cbn [fold_left] in Vm2. rewrite fold_left_app. cbn [fold_left].
    pose proof (wmean_fold_window F W HW l) as WIN. pose proof (wvar_fold_super F W HW l (wvar_init F)) as SUP.
    set (mst := fold_left (wmean_push F W) l (wmean_init F)) in *.
    set (st := fold_left (wvar_push F W) l (wvar_init F)) in *.
    cbn [wvar_init wv_super] in SUP. fold mst in SUP.
    assert (HWn : Forall (fun x => Rabs x <= M) (lastn W lv')) by (apply Forall_lastn; exact HM).
    assert (HWn' : Forall (fun x => Rabs x <= M) (lastn W (lv' ++ [xv]))) by (apply Forall_lastn; exact HM0).
    assert (CB : forall q, Forall (fun x => Rabs x <= M) q -> card q <= n -> Rabs (csum 2 q) <= 4 * n * (M * M)).
    { intros q Hq Hc. eapply Rle_trans; [apply csum_bound; [exact M0|exact Hq]|]. apply Rmult_le_compat_r; lra. }
    assert (C1 : card (lastn W lv') <= n).
    { unfold card. rewrite lastn_length. apply Rle_trans with k; [apply le_INR; lia|lra]. }
    assert (C2 : card (lastn W (lv' ++ [xv])) <= n).
    { unfold card. rewrite lastn_length, length_snoc. apply Rle_trans with (INR (S (length l))); [apply le_INR; lia|].
      rewrite S_INR. exact HN. }
    pose proof (CB _ HWn C1) as CB1. pose proof (CB _ HWn' C2) as CB2.
    pose proof (Forall2_lastn (val := val) l lv' W V) as VW.
    unfold wmean_push in Vm2. cbn [wm_mean] in Vm2. unfold wmean_full, wmean_size in Vm2. rewrite WIN in Vm2.
    unfold wvar_push. rewrite SUP. unfold wmean_full, wvar_size, wmean_size, wmean_mean. rewrite SUP, WIN.
    rewrite (lastn_snoc W lv' xv HW) in *. rewrite LL in *.
    destruct (EsB k) as (Q1 & Q2 & Q3); [lra|].
    destruct (Nat.leb_spec W (length l)) as [C|C].
    + (* full *)
      assert (FU : rb_full W (lastn W l) = true) by (rewrite rb_full_lastn; apply Nat.leb_le; exact C).
      rewrite FU in *. destruct (rb_full_front W HW _ FU) as (o & w & EW). rewrite EW in *.
      destruct (lastn W lv') as [|ov wv] eqn:EV; [inversion VW|].
      assert (Vo : val o ov) by (inversion VW; assumption).
      assert (Ho : Rabs ov <= M) by (inversion HWn; assumption).
      cbn [tl rb_front hd_error] in *. cbn [wv_sum].
      rewrite (csum_2_replace ov wv xv) in *. cbv zeta in *.
      set (A1 := mean (ov :: wv)) in *. set (A2 := mean (wv ++ [xv])) in *.
      assert (DX1 : Rabs (xv - A1) <= 2 * M) by (apply dev_abs; assumption).
      assert (DX2 : Rabs (xv - A2) <= 2 * M) by (apply dev_abs; assumption).
      assert (DO1 : Rabs (ov - A1) <= 2 * M) by (apply dev_abs; assumption).
      assert (DO2 : Rabs (ov - A2) <= 2 * M) by (apply dev_abs; assumption).
      unfold wvar_delta.
      destruct (gen_step true M wdev gwin (4 * (n + 1) * (M * M)) (4 * k * wverr) x _ _ xv m1 m2 A1 A2 _ s (csum 2 (ov :: wv))
        Vs Vx Vm1 Vm2 Em1 Em2 DX1 DX2) as (s1 & Vs1 & Es1); [lra|exact B9|exact GW|exact GM|exact Es|exact Q2|exact Q3| |].
      { eapply Rle_trans; [apply Rabs_triang|].
        assert (Rabs ((xv - A1) * (xv - A2)) <= 4 * (M * M)).
        { rewrite Rabs_mult. replace (4 * (M * M)) with ((2 * M) * (2 * M)) by ring.
          apply Rmult_le_compat; try apply Rabs_pos; assumption. }
        lra. }
      change (2 * perr M M gwin gwin + e * (4 * (n + 1) * (M * M)) + t) with wverr in Es1.
      destruct (EsB (k + / 2)) as (Q1' & Q2' & Q3'); [lra|].
      assert (Es1' : Rabs (s1 - (csum 2 (ov :: wv) + (xv - A1) * (xv - A2))) <= 4 * (k + / 2) * wverr) by lra.
      destruct (gen_step false M wdev gwin (4 * (n + 1) * (M * M)) (4 * (k + / 2) * wverr) o _ _ ov m1 m2 A1 A2 _ s1
        (csum 2 (ov :: wv) + (xv - A1) * (xv - A2))
        Vs1 Vo Vm1 Vm2 Em1 Em2 DO1 DO2) as (s2 & Vs2 & Es2); [lra|exact B9|exact GW|exact GM|exact Es1'|exact Q2'|exact Q3'| |].
      { eapply Rle_trans; [exact CB2|]. lra. }
      change (2 * perr M M gwin gwin + e * (4 * (n + 1) * (M * M)) + t) with wverr in Es2.
      exists s2. split; [exact Vs2|]. eapply Rle_trans; [exact Es2|]. lra.
    + (* filling *)
      assert (FU : rb_full W (lastn W l) = false) by (rewrite rb_full_lastn; apply Nat.leb_gt; exact C).
      rewrite FU in *. cbn [wv_sum]. unfold wvar_delta.
      rewrite (lastn_short W lv') in * by lia. rewrite csum_step in *.
      destruct (gen_step true M wdev gwin (4 * (n + 1) * (M * M)) (4 * k * wverr) x _ _ xv m1 m2 (mean lv') (mean (lv' ++ [xv])) _ s (csum 2 lv')
        Vs Vx Vm1 Vm2 Em1 Em2) as (s1 & Vs1 & Es1);
        [apply dev_abs; assumption|apply dev_abs; assumption|lra|exact B9|exact GW|exact GM|exact Es|exact Q2|exact Q3|lra|].
      change (2 * perr M M gwin gwin + e * (4 * (n + 1) * (M * M)) + t) with wverr in Es1.
      exists s1. split; [exact Vs1|]. lra.
Qed.

Lemma csum2_nonneg l : 0 <= csum 2 l.
Proof. unfold csum. generalize (mean l) as m. intros m. induction l; cbn; [lra|]. pose proof (Rle_0_sqr (a - m)) as Q. unfold Rsqr in Q. cbn in IHl. lra. Qed.

Lemma wvar_accuracy l lv : Forall2 val l lv -> Forall (fun x => Rabs x <= M) lv -> l <> [] -> n = INR (length l) ->
  (N.of_nat W <= K)%N -> (N.of_nat W < szmod)%N ->
  exists r, val (wvar_variance F (fold_left (wvar_push F W) l (wvar_init F))) r /\
    Rabs (r - variance (lastn W lv)) <= 9 * (n / card (lastn W lv)) * wverr.
Proof.
  intros V HM NE EN HK HS.
  pose proof Fi as (M0 & N1 & H64 & TM & BM & BMM). pose proof He as [E0 E1]. pose proof Ht as T0.
  destruct (wvar_acc l lv V HM HK HS) as (s & Vs & Es); [lra|]. rewrite <- EN in Es.
  unfold wvar_variance, wvar_size, wmean_size. rewrite (wvar_fold_super F W HW). cbn [wvar_init wv_super].
  rewrite (wmean_fold_window F W HW). unfold rb_size.
  assert (LL : length (lastn W lv) = length (lastn W l)).
  { rewrite !lastn_length, (forall2_len _ _ _ V). reflexivity. }
  assert (NEW : lastn W l <> []) by (apply lastn_nonempty; assumption).
  assert (NZ : (0 <? N.of_nat (length (lastn W l)))%N = true) by (apply N.ltb_lt; destruct (lastn W l); [contradiction|cbn; lia]).
  rewrite NZ. unfold variance, card. rewrite LL. set (w := INR (length (lastn W l))) in *.
  assert (w1 : 1 <= w) by (apply inr_ge1; exact NEW).
  assert (wn : w <= n) by (unfold w; rewrite EN; apply le_INR; rewrite lastn_length; lia).
  assert (Vw : val (nofsz (N.of_nat (length (lastn W l)))) w).
  { apply (count_val AP); [exact NEW|]. rewrite lastn_length. lia. }
  assert (HWn : Forall (fun x => Rabs x <= M) (lastn W lv)) by (apply Forall_lastn; exact HM).
  pose proof (csum_bound M _ M0 HWn) as CB. unfold card in CB. rewrite LL in CB. fold w in CB.
  pose proof (csum2_nonneg (lastn W lv)) as S0. set (S := csum 2 (lastn W lv)) in *.
  pose proof wverr_size as (_ & [X0 X1] & X2).
  assert (P : 0 <= M * M) by (apply Rmult_le_pos; lra).
  assert (eP : 0 <= e * (M * M)) by (apply Rmult_le_pos; lra).
  assert (nP : M * M <= n * (M * M)) by (rewrite <- (Rmult_1_l (M * M)) at 1; apply Rmult_le_compat_r; lra).
  assert (neP : e * (M * M) <= n * (e * (M * M))) by (rewrite <- (Rmult_1_l (e * (M * M))) at 1; apply Rmult_le_compat_r; lra).
  assert (iw : 0 < / w <= 1).
  { split; [apply Rinv_0_lt_compat; lra|]. rewrite <- Rinv_1. apply Rinv_le; lra. }
  assert (DN : forall z, Rabs (z / w) = Rabs z * / w).
  { intros z. unfold Rdiv. rewrite Rabs_mult, (Rabs_pos_eq (/ w)) by lra. reflexivity. }
  set (Z := n / w * wverr).
  assert (nw : 1 <= n / w).
  { apply Rmult_le_reg_r with w; [lra|]. unfold Rdiv. rewrite Rmult_assoc, Rinv_l by lra. lra. }
  assert (ZX : wverr <= Z) by (unfold Z; rewrite <- (Rmult_1_l wverr) at 1; apply Rmult_le_compat_r; lra).
  assert (ZN : Z <= n * wverr).
  { unfold Z. apply Rmult_le_compat_r; [lra|]. unfold Rdiv. rewrite <- (Rmult_1_r n) at 2. apply Rmult_le_compat_l; lra. }
  assert (SN : Rabs (S / w) <= 4 * (M * M)).
  { rewrite DN. apply Rmult_le_reg_r with w; [lra|]. rewrite Rmult_assoc, Rinv_l by lra. lra. }
  assert (SD : Rabs (s / w - S / w) <= 4 * Z).
  { replace (s / w - S / w) with ((s - S) / w) by (unfold Rdiv; ring). rewrite DN. unfold Z.
    replace (4 * (n / w * wverr)) with (4 * n * wverr * / w) by (unfold Rdiv; ring). apply Rmult_le_compat_r; lra. }
  assert (SV : Rabs (s / w) <= 4 * (M * M) + 4 * Z).
  { replace (s / w) with (S / w + (s / w - S / w)) by ring. eapply Rle_trans; [apply Rabs_triang|]. lra. }
  destruct (ap_div _ _ _ _ _ _ AP _ _ _ _ Vs Vw) as (r & Vr & Nr); [lra| |].
  { eapply Rle_trans; [exact SV|].
    assert (n * wverr <= n * (13 * (M * M) + 3 * t)) by (apply Rmult_le_compat_l; lra). nra. }
  unfold near in Nr.
  assert (G : Rabs (r - S / w) <= 9 * (n / w) * wverr).
  { replace (9 * (n / w) * wverr) with (9 * Z) by (unfold Z; ring).
    replace (r - S / w) with ((r - s / w) + (s / w - S / w)) by ring.
    eapply Rle_trans; [apply Rabs_triang|].
    assert (Y1 : e * Rabs (s / w) <= 4 * (e * (M * M)) + 4 * Z).
    { eapply Rle_trans; [apply Rmult_le_compat_l; [lra|exact SV]|].
      assert (e * (4 * Z) <= 4 * Z) by (apply scale_le; lra). lra. }
    lra. }
  assert (V0 : 0 <= S / w) by (apply Rmult_le_pos; lra).
  unfold nmax. rewrite (ap_lt _ _ _ _ _ _ AP _ _ _ _ (ap_0 _ _ _ _ _ _ AP) Vr).
  destruct (Rlt_bool_spec 0 r) as [Pr|Pr].
  - exists r. split; [exact Vr|exact G].
  - exists 0. split; [apply (ap_0 _ _ _ _ _ _ AP)|]. eapply Rle_trans; [|exact G].
    rewrite Rminus_0_l, Rabs_Ropp, (Rabs_pos_eq (S / w)) by exact V0.
    rewrite Rabs_left1 by lra. lra.
Qed.

End WindowVariance.

Section DecayVariance.
Context {F : num} {val : F -> R -> Prop} {B e t : R} {K : N}.
Hypothesis AP : approx F val B e t K.

Local Notation He := (ap_e _ _ _ _ _ _ AP).
Local Notation Ht := (ap_t _ _ _ _ _ _ AP).

Lemma ewma_diff f h u v : 0 < f <= 1 -> u <> [] -> Forall2 (fun a b => Rabs (a - b) <= h) u v -> Rabs (ewma f u - ewma f v) <= h.
Proof.
  intros Hf NE H. pose proof (forall2_len _ _ _ H) as L.
  assert (E : map (fun _ : R => 1) v = map (fun _ : R => 1) u).
  { clear - H. induction H; cbn; congruence. }
  unfold ewma. rewrite E.
  assert (G : Rabs (esum (1 - f) u - esum (1 - f) v) <= h * esum (1 - f) (map (fun _ => 1) u)).
  { clear NE E L. induction H as [|a b u v Hab HF IH]; [cbn; rewrite Rminus_0_r, Rabs_R0; lra|].
    cbn [esum map]. rewrite map_length. rewrite <- (forall2_len _ _ _ HF).
    pose proof (pow_le (1 - f) (length u) ltac:(lra)) as Q. set (q := (1 - f) ^ length u) in *.
    replace (q * a + esum (1 - f) u - (q * b + esum (1 - f) v)) with
      (q * (a - b) + (esum (1 - f) u - esum (1 - f) v)) by ring.
    eapply Rle_trans; [apply Rabs_triang|]. rewrite Rabs_mult, (Rabs_pos_eq q) by exact Q.
    assert (q * Rabs (a - b) <= q * h) by (apply Rmult_le_compat_l; lra). lra. }
  pose proof (esum_ones_pos (1 - f) u ltac:(lra) NE) as P.
  set (d := esum (1 - f) (map (fun _ => 1) u)) in *.
  replace (esum (1 - f) u / d - esum (1 - f) v / d) with ((esum (1 - f) u - esum (1 - f) v) * / d) by (unfold Rdiv; ring).
  rewrite Rabs_mult, (Rabs_pos_eq (/ d)) by (left; apply Rinv_0_lt_compat; exact P).
  apply Rmult_le_reg_r with d; [exact P|]. rewrite Rmult_assoc, Rinv_l by lra. lra.
Qed.

Definition ddev (M f : R) : R := 209 * e * M / f + 57 * t * (1 + M) / (f * f).
Definition gdec (M f : R) : R := ddev M f + e * (2 * M + ddev M f) + t.

Lemma dvar_fold_super fm fv l : dv_super F (fold_left (dvar_push F) l (dvar_init F fm fv)) =
  fold_left (dmean_push F) l (dmean_init F fm).
Proof.
  induction l as [|x l IH] using rev_ind; [reflexivity|]. rewrite !fold_left_app. cbn [fold_left].
  rewrite <- IH. reflexivity.
Qed.

(** The squared deviations fed to the second average. *)
Lemma dvar_devs fm fv fmv M l lv : val fm fmv -> 0 < fmv <= 1 -> 0 <= M ->
  Forall2 val l lv -> Forall (fun x => Rabs x <= M) lv ->
  104 * e <= fmv -> 56 * t <= fmv * fmv -> 16 * (M + 1) <= B -> 32 <= B -> 9 * (M * M) <= B ->
  gdec M fmv <= M ->
  exists ps pv, Forall2 val ps pv /\ length ps = length l /\
    Forall2 (fun a b => Rabs (a - b) <= @perr e t M M (gdec M fmv) (gdec M fmv)) pv (map (fun d => d ^ 2) (deviations fmv lv)) /\
    dv_sum F (fold_left (dvar_push F) l (dvar_init F fm fv)) = dm_sum F (fold_left (dmean_push F) ps (dmean_init F fv)) /\
    dv_norm F (fold_left (dvar_push F) l (dvar_init F fm fv)) = dm_norm F (fold_left (dmean_push F) ps (dmean_init F fv)) /\
    dv_factor F (fold_left (dvar_push F) l (dvar_init F fm fv)) = fv.
Proof.
  intros Vf Hf M0 V HM He1 Ht1 HB HB32 HB9 HG. pose proof He as [E0 E1]. pose proof Ht as T0.
  revert lv V HM. induction l as [|x l IH] using rev_ind; intros lv V HM.
  - inversion V; subst. exists [], []. split; [constructor|]. split; [reflexivity|]. split; [constructor|]. repeat split.
  - pose proof V as V0. pose proof HM as HM0. apply Forall2_app_inv_l in V. destruct V as (lv' & pv' & V & Vp & ->).
    inversion Vp as [|? xv ? ? Vx Vnil]; subst. inversion Vnil; subst. clear Vp Vnil.
    apply Forall_app in HM. destruct HM as [HM Hp]. inversion Hp as [|? ? Hx _]; subst.
    destruct (IH lv' V HM) as (ps & pv & Vps & Lps & Dps & Sps & Nps & Fps). clear IH.
    assert (NE : l ++ [x] <> []) by (destruct l; discriminate).
    destruct (dmean_acc AP fm fmv M (l ++ [x]) _ Vf Hf M0 V0 HM0 NE He1 Ht1 HB HB32) as (m & Vm & Em).
    fold (ddev M fmv) in Em.
    assert (NEv : lv' ++ [xv] <> []) by (destruct lv'; discriminate).
    assert (AM : Rabs (ewma fmv (lv' ++ [xv])) <= M).
    { apply Rabs_le. apply ewma_bounds; [exact Hf|exact NEv|]. eapply Forall_impl; [|exact HM0]. intros a Ha.
      apply Rabs_le_inv. exact Ha. }
    assert (DV : Rabs (xv - ewma fmv (lv' ++ [xv])) <= 2 * M).
    { unfold Rminus. eapply Rle_trans; [apply Rabs_triang|]. rewrite Rabs_Ropp. lra. }
    assert (dd : 0 <= ddev M fmv) by (eapply Rle_trans; [apply Rabs_pos|exact Em]).
    assert (ddM : ddev M fmv <= M).
    { unfold gdec in HG. assert (0 <= e * (2 * M + ddev M fmv)) by (apply Rmult_le_pos; lra). lra. }
    destruct (dev_err AP x _ xv m _ M (ddev M fmv) Vx Vm Em DV) as (d & Vd & Ed); [lra|].
    fold (gdec M fmv) in Ed.
    destruct (prod_err AP _ _ d d _ _ M M _ _ Vd Vd Ed Ed DV DV HG HG HB9) as (p & Vp & Ep & _).
    rewrite fold_left_app in Vp. cbn [fold_left] in Vp.
    rewrite fold_left_app. cbn [fold_left].
    pose proof (dvar_fold_super fm fv l) as SUP.
    set (st := fold_left (dvar_push F) l (dvar_init F fm fv)) in *.
    set (mst := fold_left (dmean_push F) l (dmean_init F fm)) in *.
    set (q := nmul (nsub x (dmean_mean F (dmean_push F mst x))) (nsub x (dmean_mean F (dmean_push F mst x)))) in *.
    exists (ps ++ [q]), (pv ++ [p]).
    split; [apply Forall2_app; [exact Vps|constructor; [exact Vp|constructor]]|].
    split; [rewrite !length_snoc, Lps; reflexivity|].
    split. { rewrite deviations_snoc, map_app. apply Forall2_app; [exact Dps|]. constructor; [|constructor].
      replace ((xv - ewma fmv (lv' ++ [xv])) ^ 2) with ((xv - ewma fmv (lv' ++ [xv])) * (xv - ewma fmv (lv' ++ [xv]))) by ring.
      exact Ep. }
    rewrite fold_left_app. cbn [fold_left].
    destruct (dmean_fold fv ps) as (DF & _ & _).
    set (dst := fold_left (dmean_push F) ps (dmean_init F fv)) in *.
    unfold dvar_push, dmean_push. cbn [dv_sum dv_norm dv_factor dm_sum dm_norm].
    rewrite Sps, Nps, Fps, DF. repeat split. rewrite SUP. reflexivity.
Qed.

Definition dsq (M : R) : R := 10 * (M * M) + t.

Lemma dvar_accuracy fm fv fmv fvv M l lv : val fm fmv -> val fv fvv -> 0 < fmv <= 1 -> 0 < fvv <= 1 -> 0 <= M ->
  Forall2 val l lv -> Forall (fun x => Rabs x <= M) lv -> l <> [] ->
  104 * e <= fmv -> 104 * e <= fvv -> 56 * t <= fmv * fmv -> 56 * t <= fvv * fvv ->
  16 * (M + 1) <= B -> 16 * (dsq M + 1) <= B -> 32 <= B -> gdec M fmv <= M ->
  exists r, val (dvar_variance F (fold_left (dvar_push F) l (dvar_init F fm fv))) r /\
    Rabs (r - emoment 2 fmv fvv lv) <= ddev (dsq M) fvv + @perr e t M M (gdec M fmv) (gdec M fmv).
Proof.
  intros Vfm Vfv Hfm Hfv M0 V HM NE He1 He2 Ht1 Ht2 HB1 HB2 HB3 HG.
  pose proof He as [E0 E1]. pose proof Ht as T0.
  assert (P : 0 <= M * M) by (apply Rmult_le_pos; lra). unfold dsq in HB2.
  destruct (dvar_devs fm fv fmv M l lv Vfm Hfm M0 V HM He1 Ht1 HB1 HB3 ltac:(lra) HG) as (ps & pv & Vps & Lps & Dps & Sps & Nps & _).
  set (h := @perr e t M M (gdec M fmv) (gdec M fmv)) in *.
  assert (NEp : ps <> []) by (intros ->; destruct l; [contradiction|discriminate]).
  assert (NEpv : pv <> []) by (intros ->; inversion Vps; subst; contradiction).
  assert (hB : h <= 6 * (M * M) + t).
  { unfold h, perr. assert (M * gdec M fmv <= M * M) by (apply Rmult_le_compat_l; assumption).
    assert (9 * e * (M * M) <= M * M) by (apply scale_le; lra). lra. }
  assert (HP : Forall (fun x => Rabs x <= dsq M) pv).
  { assert (DB : Forall (fun d => Rabs (d ^ 2) <= 4 * (M * M)) (deviations fmv lv)).
    { clear - HM Hfm M0. induction lv as [|x lv IH] using rev_ind; [constructor|].
      rewrite deviations_snoc. pose proof HM as HM0. apply Forall_app in HM. destruct HM as [HM Hx].
      apply Forall_app. split; [apply IH; exact HM|]. constructor; [|constructor].
      inversion Hx as [|? ? Hxv _]; subst.
      assert (AM : Rabs (ewma fmv (lv ++ [x])) <= M).
      { apply Rabs_le. apply ewma_bounds; [exact Hfm|destruct lv; discriminate|]. eapply Forall_impl; [|exact HM0]. intros a Ha.
        apply Rabs_le_inv. exact Ha. }
      set (w := ewma fmv (lv ++ [x])) in *. rewrite <- RPow_abs.
      assert (Rabs (x - w) <= 2 * M).
      { unfold Rminus. eapply Rle_trans; [apply Rabs_triang|]. rewrite Rabs_Ropp. lra. }
      pose proof (Rabs_pos (x - w)). nra. }
    clear - Dps DB hB T0 P. remember (map (fun d => d ^ 2) (deviations fmv lv)) as q eqn:Eq.
    revert Eq DB. generalize (deviations fmv lv) as ds. induction Dps as [|a b pv q Hab _ IH]; intros ds Eq DB; [constructor|].
    destruct ds as [|d ds]; [discriminate|]. cbn in Eq. injection Eq as Eb Eq. inversion DB as [|? ? Hd DB']; subst.
    constructor; [|apply (IH ds eq_refl DB')].
    replace a with (d ^ 2 + (a - d ^ 2)) by ring. eapply Rle_trans; [apply Rabs_triang|].
    unfold dsq. cbn [pow] in *. lra. }
  destruct (dmean_acc AP fv fvv (dsq M) ps pv Vfv Hfv ltac:(unfold dsq; lra) Vps HP NEp He2 Ht2 HB2 HB3) as (r & Vr & Er).
  unfold dvar_variance. rewrite Sps, Nps.
  exists r. split; [exact Vr|]. fold (ddev (dsq M) fvv) in Er.
  pose proof (ewma_diff fvv h pv _ Hfv NEpv Dps) as Ed. fold (emoment 2 fmv fvv lv) in Ed.
  replace (r - emoment 2 fmv fvv lv) with ((r - ewma fvv pv) + (ewma fvv pv - emoment 2 fmv fvv lv)) by ring.
  eapply Rle_trans; [apply Rabs_triang|]. lra.
Qed.

End DecayVariance.
