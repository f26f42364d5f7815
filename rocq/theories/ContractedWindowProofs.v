(** * Error bounds for the window covariance with fused multiply-adds *)

From Coq Require Import Reals ZArith NArith Bool List Lra Lia Psatz.
From Flocq Require Import Core.
From Verif Require Import Arith History HistoryLemmas SpecStats StatsLemmas Buffer Window WindowProofs
  Approx AccuracyProofs AccuracyFilters AccuracyVariance AccuracyComoment Contracted ContractedWindow.
Import ListNotations.
Local Open Scope R_scope.

(** The fused operations err as one operation. *)
Record approx_fused (F : num) (val : F -> R -> Prop) (B e t : R) (U : fused F) : Prop := {
  af_fma : forall x y z a b c, val x a -> val y b -> val z c -> Rabs (a * b + c) <= B ->
    exists r, val (fma U x y z) r /\ near e t (a * b + c) r;
  af_fms : forall x y z a b c, val x a -> val y b -> val z c -> Rabs (a * b - c) <= B ->
    exists r, val (fms U x y z) r /\ near e t (a * b - c) r;
  af_fnma : forall x y z a b c, val x a -> val y b -> val z c -> Rabs (c - a * b) <= B ->
    exists r, val (fnma U x y z) r /\ near e t (c - a * b) r
}.

Section WindowFused.
Context {F : num} {val : F -> R -> Prop} {B e t : R} {K : N}.
Hypothesis AP : approx F val B e t K.
Variable U : fused F.
Hypothesis AF : approx_fused F val B e t U.
Variable first : bool.
Variables Mx My n w : R.
Variable W : nat.
Hypothesis HW : (0 < W)%nat.
Hypothesis Co : @cosmall B e t Mx My n w.

Local Notation He := (ap_e _ _ _ _ _ _ AP).
Local Notation Ht := (ap_t _ _ _ _ _ _ AP).
Local Notation xstep := (@xsum_step e t w).
Local Notation pstep := (@psum_step e t Mx My w).

Lemma fma_fill k s sv S x y xv yv : 0 <= k <= n ->
  val s sv -> Rabs (sv - S) <= 2 * k * pstep -> val x xv -> val y yv -> Rabs xv <= Mx -> Rabs yv <= My ->
  Rabs (S + xv * yv) <= w * (Mx * My) ->
  exists r, val (fma U x y s) r /\ Rabs (r - (S + xv * yv)) <= 2 * (k + 1) * pstep.
Proof.
  intros Hk Vs Hs Vx Vy Hx Hy HS. destruct (prod_sizes AP Mx My n w Co k Hk) as (P0 & P1 & P2 & tn & KE & BB).
  pose proof Ht as T0. pose proof (ne1 AP Mx My n w Co) as [E0 E1]. set (P := Mx * My) in *.
  assert (A : Rabs (xv * yv + sv) <= w * P + 2 * k * pstep).
  { replace (xv * yv + sv) with ((S + xv * yv) + (sv - S)) by ring. eapply Rle_trans; [apply Rabs_triang|]. lra. }
  destruct (af_fma _ _ _ _ _ _ AF x y s xv yv sv Vx Vy Vs) as (r & Vr & Nr); [lra|].
  exists r. split; [exact Vr|]. unfold near in Nr.
  assert (X0 : 0 <= w * P) by lra.
  assert (S0 : e * (w * P) + t <= pstep).
  { unfold psum_step. fold P. replace (e * (w * P)) with (w * (e * P)) by ring. lra. }
  assert (Q0 : 0 <= pstep) by (assert (0 <= e * (w * P)) by (apply Rmult_le_pos; lra); lra).
  assert (e * Rabs (xv * yv + sv) <= e * (w * P + 2 * k * pstep)) by (apply Rmult_le_compat_l; lra).
  assert (e * (2 * k * pstep) <= pstep).
  { replace (e * (2 * k * pstep)) with (2 * k * e * pstep) by ring. apply scale_le; assumption. }
  rewrite Rmult_plus_distr_l in H.
  replace (r - (S + xv * yv)) with ((r - (xv * yv + sv)) + (sv - S)) by ring.
  eapply Rle_trans; [apply Rabs_triang|]. lra.
Qed.

Lemma fma_replace k s sv S x y xv yv o q ov qv : 0 <= k <= n ->
  val s sv -> Rabs (sv - S) <= 2 * k * pstep -> val x xv -> val y yv -> Rabs xv <= Mx -> Rabs yv <= My ->
  val o ov -> val q qv -> Rabs ov <= Mx -> Rabs qv <= My ->
  Rabs (S + (xv * yv - ov * qv)) <= w * (Mx * My) ->
  exists r, val (nadd s (if first then fms U x y (nmul o q) else fnma U o q (nmul x y))) r /\
    Rabs (r - (S + (xv * yv - ov * qv))) <= 2 * (k + 1) * pstep.
Proof.
  intros Hk Vs Hs Vx Vy Hx Hy Vo Vq Ho Hq HS. destruct (prod_sizes AP Mx My n w Co k Hk) as (P0 & P1 & P2 & tn & KE & BB).
  pose proof Ht as T0. pose proof (ne1 AP Mx My n w Co) as [E0 E1].
  pose proof (abs_mult_le _ _ _ _ Hx Hy) as HP1. pose proof (abs_mult_le _ _ _ _ Ho Hq) as HP2.
  set (P := Mx * My) in *.
  destruct (prod1 AP Mx My n w Co x y xv yv Vx Vy Hx Hy) as (d & Vd & Ed).
  destruct (prod1 AP Mx My n w Co o q ov qv Vo Vq Ho Hq) as (d' & Vd' & Ed'). fold P in Ed, Ed'.
  assert (BP : 16 * (w * P) <= B) by (destruct Co as (_ & _ & _ & _ & _ & _ & _ & _ & _ & _ & BQ); fold P in BQ; lra).
  assert (et : 0 <= e * t <= t / 64).
  { split; [apply Rmult_le_pos; lra|]. replace (t / 64) with (1 / 64 * t) by field. apply Rmult_le_compat_r; lra. }
  assert (eP : 0 <= e * (e * P) <= e * P / 64).
  { split; [apply Rmult_le_pos; lra|]. replace (e * P / 64) with (1 / 64 * (e * P)) by field. apply Rmult_le_compat_r; lra. }
  assert (TB : t <= B / 32) by (destruct Co as (_ & _ & _ & _ & _ & _ & _ & _ & _ & _ & BQ); fold P in BQ; lra).
  (* the fused difference of one exact and one rounded product *)
  assert (G : forall f z, Rabs (f - z) <= e * Rabs z + t -> Rabs (z - (xv * yv - ov * qv)) <= e * P + t ->
    Rabs (f - (xv * yv - ov * qv)) <= 5 * (e * P) + 4 * t).
  { intros f z H1 H2. assert (Az : Rabs z <= 2 * P + (e * P + t)).
    { replace z with ((xv * yv - ov * qv) + (z - (xv * yv - ov * qv))) by ring. eapply Rle_trans; [apply Rabs_triang|].
      apply Rplus_le_compat; [|exact H2]. unfold Rminus. eapply Rle_trans; [apply Rabs_triang|]. rewrite Rabs_Ropp. lra. }
    assert (e * Rabs z <= e * (2 * P + (e * P + t))) by (apply Rmult_le_compat_l; lra).
    replace (f - (xv * yv - ov * qv)) with ((f - z) + (z - (xv * yv - ov * qv))) by ring.
    eapply Rle_trans; [apply Rabs_triang|]. replace (e * (2 * P + (e * P + t))) with (2 * (e * P) + (e * (e * P) + e * t)) in H by ring. lra. }
  assert (Z1 : Rabs (xv * yv - d' - (xv * yv - ov * qv)) <= e * P + t).
  { replace (xv * yv - d' - (xv * yv - ov * qv)) with (- (d' - ov * qv)) by ring. rewrite Rabs_Ropp. exact Ed'. }
  assert (Z2 : Rabs (d - ov * qv - (xv * yv - ov * qv)) <= e * P + t).
  { replace (d - ov * qv - (xv * yv - ov * qv)) with (d - xv * yv) by ring. exact Ed. }
  assert (ZB : forall z, Rabs (z - (xv * yv - ov * qv)) <= e * P + t -> Rabs z <= B).
  { intros z H2. replace z with ((xv * yv - ov * qv) + (z - (xv * yv - ov * qv))) by ring. eapply Rle_trans; [apply Rabs_triang|].
    assert (Rabs (xv * yv - ov * qv) <= 2 * P).
    { unfold Rminus. eapply Rle_trans; [apply Rabs_triang|]. rewrite Rabs_Ropp. lra. }
    lra. }
  assert (FV : exists f, val (if first then fms U x y (nmul o q) else fnma U o q (nmul x y)) f /\
    Rabs (f - (xv * yv - ov * qv)) <= 5 * (e * P) + 4 * t).
  { destruct first.
    - destruct (af_fms _ _ _ _ _ _ AF x y _ xv yv d' Vx Vy Vd' (ZB _ Z1)) as (f & Vf & Nf). exists f. split; [exact Vf|]. exact (G f _ Nf Z1).
    - destruct (af_fnma _ _ _ _ _ _ AF o q _ ov qv d Vo Vq Vd (ZB _ Z2)) as (f & Vf & Nf). exists f. split; [exact Vf|]. exact (G f _ Nf Z2). }
  destruct FV as (f & Vf & Ef).
  rewrite (psum_step_eq Mx My w) in *. fold P in BB, Hs |- *.
  apply (sum_step AP s sv S _ f (xv * yv - ov * qv) (5 * (e * P) + 4 * t) (w * P) k); try assumption; try lra.
Qed.

Lemma wcov_fma_window_any (l : list (F * F)) (s1 s2 : wcov F) : wc_window F s1 = wc_window F s2 ->
  wc_window F (fold_left (wcov_push_fma F U first W) l s1) = wc_window F (fold_left (wcov_push F W) l s2).
Proof.
  revert s1 s2. induction l as [|[x y] l IH]; intros s1 s2 E; [exact E|]. cbn [fold_left]. apply IH.
  unfold wcov_push_fma, wcov_push. rewrite E. destruct (rb_full W (wc_window F s2)); [|reflexivity].
  destruct (rb_front (wc_window F s2)) as [[o q]|]; [reflexivity|exact E].
Qed.

Lemma wcov_fma_window l : wc_window F (fold_left (wcov_push_fma F U first W) l (wcov_init F)) = lastn W l.
Proof. rewrite <- (wcov_fold_window F W HW l). apply wcov_fma_window_any. reflexivity. Qed.

Lemma wcov_fma_acc l lv : Forall2 (@pval F val) l lv -> Forall (fun p => Rabs (fst p) <= Mx /\ Rabs (snd p) <= My) lv ->
  INR (length l) <= n -> INR (length (lastn W l)) <= w ->
  let s := fold_left (wcov_push_fma F U first W) l (wcov_init F) in
  let k := INR (length l) in
  exists a b c, val (wc_x F s) a /\ val (wc_y F s) b /\ val (wc_xy F s) c /\
    Rabs (a - Rsum (xs (lastn W lv))) <= 2 * k * xstep Mx /\
    Rabs (b - Rsum (ys (lastn W lv))) <= 2 * k * xstep My /\
    Rabs (c - psum_xy (lastn W lv)) <= 2 * k * pstep.
Proof.
  revert lv. induction l as [|[x y] l IH] using rev_ind; intros lv V HM HN HL.
  - inversion V; subst. exists 0, 0, 0. pose proof (ap_0 _ _ _ _ _ _ AP) as V0.
    repeat (split; [exact V0|]). unfold lastn, psum_xy. rewrite skipn_nil. cbn. rewrite Rminus_0_r, Rabs_R0. lra.
  - pose proof V as V0. pose proof HM as HM0. apply Forall2_app_inv_l in V. destruct V as (lv' & pv' & V & Vp & ->).
    inversion Vp as [|? [xv yv] ? ? [Vx Vy] Vnil]; subst. inversion Vnil; subst. clear Vp Vnil. cbn [fst snd] in Vx, Vy.
    apply Forall_app in HM. destruct HM as [HM Hp]. inversion Hp as [|? ? [Hx Hy] _]; subst. cbn [fst snd] in Hx, Hy.
    assert (LL : length lv' = length l) by (symmetry; apply (forall2_len _ _ _ V)).
    pose proof HL as HL0. rewrite length_snoc in *. rewrite S_INR in *. set (k := INR (length l)) in *.
    assert (k0 : 0 <= k) by apply pos_INR.
    destruct (IH lv' V HM) as (a & b & c & Va & Vb & Vc & Ea & Eb & Ec); [lra| |].
    { eapply Rle_trans; [apply le_INR|exact HL]. rewrite !lastn_length, length_snoc. lia. }
    clear IH. rewrite fold_left_app. cbn [fold_left].
    pose proof (wcov_fma_window l) as WIN.
    set (st := fold_left (wcov_push_fma F U first W) l (wcov_init F)) in *.
    destruct (sums_abs Mx My n w Co (lastn W (lv' ++ [(xv, yv)]))) as (S1 & S2 & S3).
    { apply pbound_lastn. exact HM0. }
    { rewrite lastn_length, length_snoc, LL. rewrite lastn_length, length_snoc in HL. exact HL. }
    pose proof (pairs_lastn W l lv' V) as VW. pose proof (pbound_lastn Mx My W lv' HM) as HWn.
    pose proof Co as (X0 & Y0 & W1 & N1 & H64 & TX & TY & BX & BY & BP & BQ).
    cbn zeta. unfold wcov_push_fma. rewrite WIN. rewrite (lastn_snoc W lv' (xv, yv) HW) in *. rewrite LL in *.
    rewrite rb_full_lastn.
    destruct (Nat.leb_spec W (length l)) as [C|C].
    + destruct (lastn W l) as [|[o q] wl] eqn:EW.
      { exfalso. assert (L0 : length (lastn W l) = 0%nat) by (rewrite EW; reflexivity). rewrite lastn_length in L0. lia. }
      destruct (lastn W lv') as [|[ov qv] wv] eqn:EV; [inversion VW|].
      assert (Vo : val o ov /\ val q qv) by (inversion VW; assumption). destruct Vo as [Vo Vq].
      assert (Ho : Rabs ov <= Mx /\ Rabs qv <= My) by (inversion HWn; assumption). destruct Ho as [Ho Hq].
      cbn [rb_front hd_error tl wc_x wc_y wc_xy] in *.
      assert (R1 : Rsum (xs (wv ++ [(xv, yv)])) = Rsum (xs ((ov, qv) :: wv)) + (xv - ov)).
      { rewrite xs_snoc, Rsum_snoc. unfold xs. cbn [map Rsum fst]. ring. }
      assert (R2 : Rsum (ys (wv ++ [(xv, yv)])) = Rsum (ys ((ov, qv) :: wv)) + (yv - qv)).
      { rewrite ys_snoc, Rsum_snoc. unfold ys. cbn [map Rsum snd]. ring. }
      assert (R3 : psum_xy (wv ++ [(xv, yv)]) = psum_xy ((ov, qv) :: wv) + (xv * yv - ov * qv)).
      { unfold psum_xy. rewrite map_app, Rsum_app. cbn [map Rsum fst snd]. ring. }
      rewrite R1 in *. rewrite R2 in *. rewrite R3 in *.
      destruct (one_replace AP Mx My n w Co Mx k _ a _ x xv o ov X0 TX BX ltac:(lra) Va Ea Vx Vo Hx Ho S1) as (a' & Va' & Ea').
      destruct (one_replace AP Mx My n w Co My k _ b _ y yv q qv Y0 TY BY ltac:(lra) Vb Eb Vy Vq Hy Hq S2) as (b' & Vb' & Eb').
      destruct (fma_replace k _ c _ x y xv yv o q ov qv ltac:(lra) Vc Ec Vx Vy Hx Hy Vo Vq Ho Hq S3) as (c' & Vc' & Ec').
      exists a', b', c'. auto 10.
    + cbn [wc_x wc_y wc_xy]. rewrite (lastn_short W lv') in * by lia.
      rewrite xs_snoc, Rsum_snoc in *. rewrite ys_snoc, Rsum_snoc in *. cbn [fst snd] in *.
      assert (R3 : psum_xy (lv' ++ [(xv, yv)]) = psum_xy lv' + xv * yv).
      { unfold psum_xy. rewrite map_app, Rsum_app. cbn [map Rsum fst snd]. ring. }
      rewrite R3 in *.
      destruct (one_fill AP Mx My n w Co Mx k _ a _ x xv X0 TX BX ltac:(lra) Va Ea Vx S1) as (a' & Va' & Ea').
      destruct (one_fill AP Mx My n w Co My k _ b _ y yv Y0 TY BY ltac:(lra) Vb Eb Vy S2) as (b' & Vb' & Eb').
      destruct (fma_fill k _ c _ x y xv yv ltac:(lra) Vc Ec Vx Vy Hx Hy S3) as (c' & Vc' & Ec').
      exists a', b', c'. auto 10.
Qed.


Lemma wcov_fma_accuracy l lv : Forall2 (@pval F val) l lv -> Forall (fun p => Rabs (fst p) <= Mx /\ Rabs (snd p) <= My) lv ->
  l <> [] -> INR (length l) <= n -> w = INR (length (lastn W l)) -> (N.of_nat W <= K)%N ->
  let s := fold_left (wcov_push_fma F U first W) l (wcov_init F) in
  (exists v, val (wcov_variance F s) v /\
    Rabs (v - covariance (lastn W lv)) <= n * (64 * (e * (Mx * My)) + 10 * (Mx + My) * t + 26 * t)) /\
  (exists m, val (ndiv (wc_y F s) (nofsz (wcov_size F s))) m /\
    Rabs (m - mean (ys (lastn W lv))) <= n * (12 * (e * My) + 8 * t)).
Proof.
  intros V HM NE HN Ew HK s. destruct (wcov_fma_acc l lv V HM HN ltac:(lra)) as (a & b & c & Va & Vb & Vc & Ea & Eb & Ec).
  fold s in Va, Vb, Vc.
  pose proof Co as (X0 & Y0 & W1 & N1 & H64 & TX & TY & BX & BY & BP & BQ). pose proof (ne1 AP Mx My n w Co) as [E0 E1]. pose proof Ht as T0.
  pose proof (pos_INR (length l)) as L0.
  destruct (xsum_bound AP Mx My n w Co Mx (INR (length l)) X0 ltac:(lra) TX) as [[_ Ax] Ax4].
  destruct (xsum_bound AP Mx My n w Co My (INR (length l)) Y0 ltac:(lra) TY) as [[_ Ay] Ay4].
  destruct (psum_bound AP Mx My n w Co (INR (length l)) ltac:(lra)) as [[_ Ap] _].
  set (q := lastn W lv) in *.
  assert (Lq : INR (length q) = w).
  { rewrite Ew. unfold q. rewrite !lastn_length, (forall2_len _ _ _ V). reflexivity. }
  assert (Cx : card (xs q) = w) by (unfold card, xs; rewrite map_length; exact Lq).
  assert (Cy : card (ys q) = w) by (unfold card, ys; rewrite map_length; exact Lq).
  assert (Cq : card q = w) by exact Lq.
  assert (Hq : Forall (fun p => Rabs (fst p) <= Mx /\ Rabs (snd p) <= My) q) by (apply pbound_lastn; exact HM).
  assert (Hmx : Rabs (mean (xs q)) <= Mx).
  { apply mean_abs0; [exact X0|]. unfold xs. apply Forall_map. eapply Forall_impl; [|exact Hq]. intros z Hz. apply Hz. }
  assert (Hmy : Rabs (mean (ys q)) <= My).
  { apply mean_abs0; [exact Y0|]. unfold ys. apply Forall_map. eapply Forall_impl; [|exact Hq]. intros z Hz. apply Hz. }
  rewrite <- (mean_card (xs q)), Cx in Ea. rewrite <- (mean_card (ys q)), Cy in Eb.
  assert (P0 : 0 <= Mx * My) by (apply Rmult_le_pos; lra).
  destruct (sums_abs Mx My n w Co q Hq ltac:(lra)) as (_ & _ & SP).
  set (Q := psum_xy q / w).
  assert (EQ : psum_xy q = w * Q) by (unfold Q; field; lra).
  assert (HQ : Rabs Q <= Mx * My).
  { unfold Q, Rdiv. rewrite Rabs_mult, (Rabs_pos_eq (/ w)) by (left; apply Rinv_0_lt_compat; lra).
    apply (Rmult_le_reg_r w); [lra|]. replace (Rabs (psum_xy q) * / w * w) with (Rabs (psum_xy q)) by (field; lra). lra. }
  rewrite EQ in Ec.
  assert (WIN : wcov_size F s = N.of_nat (length (lastn W l))).
  { unfold wcov_size, s. rewrite (wcov_fma_window). reflexivity. }
  assert (Lw : (1 <= length (lastn W l) <= W)%nat).
  { rewrite lastn_length. destruct l; [congruence|]. cbn. lia. }
  assert (Vn : val (nofsz (wcov_size F s)) w).
  { rewrite WIN, Ew. rewrite INR_IZR_INZ, <- nat_N_Z. apply (ap_count _ _ _ _ _ _ AP). lia. }
  assert (PZ : (0 <? wcov_size F s)%N = true) by (rewrite WIN; apply N.ltb_lt; lia).
  assert (nt0 : 0 <= n * t) by (apply Rmult_le_pos; lra).
  assert (nt : t <= n * t) by (rewrite <- (Rmult_1_l t) at 1; apply Rmult_le_compat_r; lra).
  assert (wP : Mx * My <= w * (Mx * My)) by (rewrite <- (Rmult_1_l (Mx * My)) at 1; apply Rmult_le_compat_r; lra).
  split.
  - unfold wcov_variance. rewrite PZ. unfold wcov_cosum.
    destruct (cosum_err AP Mx My n w Co (wc_x F s) (wc_y F s) (wc_xy F s) _ a b c (mean (xs q)) (mean (ys q)) Q Vn Va Vb Vc Hmx Hmy HQ) as (r & Vr & Er);
      try (eapply Rle_trans; eassumption).
    assert (CV : covariance q = Q - mean (xs q) * mean (ys q)).
    { unfold covariance. rewrite cosum_expand, Cq. fold (psum_xy q). rewrite EQ. field. lra. }
    set (P := Mx * My) in *.
    set (H := n * (56 * (e * P) + 8 * (Mx + My) * t + 23 * t)) in *.
    assert (eP : 0 <= e * P <= P / 64).
    { split; [apply Rmult_le_pos; lra|]. replace (P / 64) with (1 / 64 * P) by field. apply Rmult_le_compat_r; lra. }
    assert (neP : e * P <= n * (e * P)) by (rewrite <- (Rmult_1_l (e * P)) at 1; apply Rmult_le_compat_r; lra).
    assert (NE' : 64 * (n * (e * P)) <= P).
    { replace (64 * (n * (e * P))) with (64 * n * e * P) by ring. apply scale_le; assumption. }
    assert (H1 : H = 56 * (n * (e * P)) + 8 * (Mx * (n * t)) + 8 * (My * (n * t)) + 23 * (n * t)) by (unfold H; ring).
    assert (MXt : 0 <= Mx * (n * t)) by (apply Rmult_le_pos; lra).
    assert (MYt : 0 <= My * (n * t)) by (apply Rmult_le_pos; lra).
    assert (MXt' : Mx * (n * t) <= P / 64).
    { replace (P / 64) with (Mx * (My / 64)) by (unfold P; field). apply Rmult_le_compat_l; lra. }
    assert (MYt' : My * (n * t) <= P / 64).
    { replace (P / 64) with (My * (Mx / 64)) by (unfold P; field). apply Rmult_le_compat_l; lra. }
    assert (C2 : Rabs (covariance q) <= 2 * P).
    { rewrite CV. unfold Rminus. eapply Rle_trans; [apply Rabs_triang|]. rewrite Rabs_Ropp.
      pose proof (abs_mult_le _ _ _ _ Hmx Hmy) as AM. fold P in AM. lra. }
    rewrite <- CV in Er.
    destruct (quot_err AP Mx My n w Co _ _ r (covariance q) H Vn Vr Er) as (v & Vv & Ev); [lra|].
    exists v. split; [exact Vv|]. eapply Rle_trans; [exact Ev|].
    assert (e * (Rabs (covariance q) + H) <= e * (2 * P) + 1 / 64 * H).
    { rewrite Rmult_plus_distr_l. apply Rplus_le_compat; [apply Rmult_le_compat_l; lra|].
      apply Rmult_le_compat_r; lra. }
    replace (n * (64 * (e * P) + 10 * (Mx + My) * t + 26 * t)) with
      (64 * (n * (e * P)) + 10 * (Mx * (n * t)) + 10 * (My * (n * t)) + 26 * (n * t)) by ring.
    lra.
  - assert (Eb' : Rabs (b - w * mean (ys q)) <= w * (n * (10 * (e * My) + 6 * t))) by lra.
    assert (My <= w * My) by (rewrite <- (Rmult_1_l My) at 1; apply Rmult_le_compat_r; lra).
    destruct (quot_err AP Mx My n w Co _ _ b _ _ Vn Vb Eb') as (m & Vm & Em); [lra|].
    exists m. split; [exact Vm|]. eapply Rle_trans; [exact Em|].
    assert (EY : 0 <= e * My) by (apply Rmult_le_pos; lra).
    assert (nEY : e * My <= n * (e * My)) by (rewrite <- (Rmult_1_l (e * My)) at 1; apply Rmult_le_compat_r; lra).
    assert (e * (Rabs (mean (ys q)) + n * (10 * (e * My) + 6 * t)) <= e * (5 / 4 * My)) by (apply Rmult_le_compat_l; lra).
    lra.
Qed.

End WindowFused.
