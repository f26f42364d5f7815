(** * Error bounds for the decay skewness and kurtosis with fused multiply-adds

    The bounds of AccuracyDecayHigher.v over the arithmetic with deferred products
    (IeeeDeferred.v): a sum with fused products is the plain sum over the deferred
    products. *)

From Coq Require Import Reals ZArith NArith Bool List Lra Lia Psatz.
From Coq Require Import Floats.SpecFloat.
From Flocq Require Import Core.
From Verif Require Import Arith History HistoryLemmas SpecStats StatsLemmas Decay SpecDecay DecayProofs
  Approx ApproxInstances AccuracyProofs AccuracyVariance AccuracyRegression AccuracyFilters AccuracyWindow AccuracyHigher AccuracyDecayHigher
  Ieee IeeeProofs Contracted IeeeFused IeeeFusedProofs IeeeDeferred ContractedDecayHigher.
Import ListNotations.
Local Open Scope R_scope.

Section DecayHigherFused.
Variables prec emax : Z.
Hypothesis Hp : (1 < prec)%Z.
Hypothesis Hm : (prec < emax)%Z.
Notation F := (ieee prec emax).
Notation U := (ieee_fused prec emax).
Notation D := (deferred prec emax).
Local Notation B := (bpow radix2 (emax - 1)).
Local Notation e := (bpow radix2 (- prec)).
Local Notation t := (bpow radix2 (2 - emax - prec)).
Local Notation AD := (approx_deferred prec emax Hp Hm).
Local Notation AI := (approx_ieee prec emax Hp Hm).
Local Notation qf := (@q F (fdenotes prec emax) e).
Local Notation qd := (@q D (dden prec emax) e).

Lemma q_val (x : spec_float) X V c : qd (Val x) X V c <-> qf x X V c.
Proof. split; intros H; exact H. Qed.

(** ** The state as sums over deferred products *)

Fixpoint devs_fma (s : dmean F) (l : list F) : list F :=
  match l with
  | [] => []
  | x :: l' => let s' := dmean_push_fma F U s x in @nsub F x (dmean_mean F s') :: devs_fma s' l'
  end.

Lemma devs_fma_snoc s l x :
  devs_fma s (l ++ [x]) = devs_fma s l ++ [@nsub F x (dmean_mean F (fold_left (dmean_push_fma F U) (l ++ [x]) s))].
Proof. revert s. induction l as [|y l IH]; intros s; [reflexivity|]. cbn [app devs_fma fold_left]. rewrite IH. reflexivity. Qed.

Lemma devs_fma_length s l : length (devs_fma s l) = length l.
Proof. revert s. induction l as [|y l IH]; intros s; [reflexivity|]. cbn [devs_fma length]. rewrite IH. reflexivity. Qed.

Lemma devs_deferred s l : @fdevs D (dm_d prec emax s) (map Val l) = map Val (devs_fma s l).
Proof.
  revert s. induction l as [|x l IH]; intros s; [reflexivity|]. cbn [map fdevs devs_fma].
  rewrite <- dm_step_d, IH, dm_mean_d. reflexivity.
Qed.

Definition cube (d : F) : D := Prod (@nmul F d d) d.
Definition fourth (d : F) : D := Prod (@nmul F (@nmul F d d) d) d.

Lemma dvar_super_fma fm fv l : dv_super F (fold_left (dvar_push_fma F U) l (dvar_init F fm fv)) = fold_left (dmean_push_fma F U) l (dmean_init F fm).
Proof. induction l as [|x l IH] using rev_ind; [reflexivity|]. rewrite !fold_left_app. cbn [fold_left]. rewrite <- IH. reflexivity. Qed.

Lemma dskew_super_fma fm fv fs l : ds_super F (fold_left (dskew_push_fma F U) l (dskew_init F fm fv fs)) = fold_left (dvar_push_fma F U) l (dvar_init F fm fv).
Proof. induction l as [|x l IH] using rev_ind; [reflexivity|]. rewrite !fold_left_app. cbn [fold_left]. rewrite <- IH. reflexivity. Qed.

Lemma dkurt_super_fma fm fv fs fk l : dk_super F (fold_left (dkurt_push_fma F U) l (dkurt_init F fm fv fs fk)) = fold_left (dskew_push_fma F U) l (dskew_init F fm fv fs).
Proof. induction l as [|x l IH] using rev_ind; [reflexivity|]. rewrite !fold_left_app. cbn [fold_left]. rewrite <- IH. reflexivity. Qed.

Lemma dskew_parts_fma fm fv fs l : let s := fold_left (dskew_push_fma F U) l (dskew_init F fm fv fs) in
  ds_factor F s = fs /\ @blend D (Val fs) (map cube (devs_fma (dmean_init F fm) l)) = Val (ds_sum F s) /\
  @blend D (Val fs) (map (fun _ => @n1 D) (map Val l)) = Val (ds_norm F s).
Proof.
  cbv zeta. induction l as [|x l (I1 & I2 & I3)] using rev_ind; [repeat split|].
  rewrite devs_fma_snoc, !map_app. cbn [map]. rewrite !blend_snoc, I2, !fold_left_app. cbn [fold_left].
  pose proof (dskew_super_fma fm fv fs l) as S2. pose proof (dvar_super_fma fm fv l) as S.
  set (s := fold_left (dskew_push_fma F U) l (dskew_init F fm fv fs)) in *.
  rewrite <- S, <- S2, <- I1. split; [reflexivity|]. split; [reflexivity|].
  assert (G : forall z : D, z = Val (ds_norm F s) -> @nadd D z (@nmul D (Val fs) (@nsub D (@n1 D) z)) = Val (ds_norm F (dskew_push_fma F U s x)))
    by (intros z ->; rewrite <- I1; reflexivity).
  rewrite I1. exact (G _ I3).
Qed.

Lemma dkurt_parts_fma fm fv fs fk l : let s := fold_left (dkurt_push_fma F U) l (dkurt_init F fm fv fs fk) in
  dk_factor F s = fk /\ @blend D (Val fk) (map fourth (devs_fma (dmean_init F fm) l)) = Val (dk_sum F s) /\
  @blend D (Val fk) (map (fun _ => @n1 D) (map Val l)) = Val (dk_norm F s).
Proof.
  cbv zeta. induction l as [|x l (I1 & I2 & I3)] using rev_ind; [repeat split|].
  rewrite devs_fma_snoc, !map_app. cbn [map]. rewrite !blend_snoc, I2, !fold_left_app. cbn [fold_left].
  pose proof (dkurt_super_fma fm fv fs fk l) as S3. pose proof (dskew_super_fma fm fv fs l) as S2. pose proof (dvar_super_fma fm fv l) as S.
  set (s := fold_left (dkurt_push_fma F U) l (dkurt_init F fm fv fs fk)) in *.
  rewrite <- S, <- S2, <- S3, <- I1. split; [reflexivity|]. split; [reflexivity|].
  assert (G : forall z : D, z = Val (dk_norm F s) -> @nadd D z (@nmul D (Val fk) (@nsub D (@n1 D) z)) = Val (dk_norm F (dkurt_push_fma F U s x)))
    by (intros z ->; rewrite <- I1; reflexivity).
  rewrite I1. exact (G _ I3).
Qed.

(** The variance. *)
Lemma var_deferred fm fv l :
  dvar_variance D (fold_left (dvar_push D) (map Val l) (dvar_init D (Val fm) (Val fv))) =
  Val (dvar_variance F (fold_left (dvar_push_fma F U) l (dvar_init F fm fv))).
Proof.
  rewrite <- dv_var_d. f_equal. change (dvar_init D (Val fm) (Val fv)) with (dv_d prec emax (dvar_init F fm fv)).
  generalize (dvar_init F fm fv). induction l as [|x l IH]; intros s; [reflexivity|].
  cbn [map fold_left]. rewrite <- dv_step_d. apply IH.
Qed.

(** ** Powers of the deviations *)
Variable phi : R.
Hypothesis P0 : 0 < phi.
Hypothesis Pe : 8192 * e <= phi.
Hypothesis Pt : 64 * t <= phi * phi.
Local Notation size := (@sz B e t phi).
Local Notation factor := (@fac F (fdenotes prec emax) phi).
Local Notation dfactor := (@fac D (dden prec emax) phi).
Hypothesis S1 : size 1.
Variables (fm : spec_float) (fmv M : R).
Hypothesis FM : factor fm fmv.
Hypothesis SM : size M.
Hypothesis SM2 : size (2 * M).
Hypothesis U2 : size (4 * (M * M)).
Let a := / fmv.

Lemma dfac f fr : factor f fr -> dfactor (Val f) fr.
Proof. intros H. exact H. Qed.

Lemma power_sizes : 1 <= a /\ 8192 * (a * e) <= 1 /\ phi <= 1.
Proof. destruct (fac_inv phi P0 Pe _ _ FM) as (H1 & H2 & H3 & H4). fold a in H2, H3. repeat split; lra. Qed.

Lemma dden_all l lv : Forall2 (fdenotes prec emax) l lv -> Forall2 (dden prec emax) (map Val l) lv.
Proof. induction 1; cbn [map]; [apply Forall2_nil|apply Forall2_cons; assumption]. Qed.

Lemma devs_fma_q l lv : Forall2 (fdenotes prec emax) l lv -> Forall (fun x => Rabs x <= M) lv ->
  Forall2 (fun d X => qf d X (2 * M) (34 * a)) (devs_fma (dmean_init F fm) l) (deviations fmv lv).
Proof.
  intros V HM.
  pose proof (dden_all l lv V) as VD.
  pose proof (devs_q AD phi P0 Pe Pt S1 (Val fm) fmv M (dfac _ _ FM) SM SM2 _ _ VD HM) as H.
  change (dmean_init D (Val fm)) with (dm_d prec emax (dmean_init F fm)) in H. rewrite devs_deferred in H. fold a in H.
  clear - H. revert H. generalize (devs_fma (dmean_init F fm) l) (deviations fmv lv).
  induction l0 as [|d ds IH]; intros Ds H; inversion H; subst; constructor; [assumption|apply IH; assumption].
Qed.

Lemma sq_q d X : qf d X (2 * M) (34 * a) -> qf (@nmul F d d) (X * X) (4 * (M * M)) (72 * a).
Proof.
  intros Q. destruct power_sizes as (Ha & Hae & Hp1).
  pose proof U2 as (UP & _). destruct (sz_rel AI phi _ 1 U2) as (X1 & X2); [lra|lra|]. rewrite Rmult_1_r in X1, X2.
  pose proof (ap_t _ _ _ _ _ _ AI) as T0.
  eapply q_eq; [eapply (q_mul AI _ _ _ _ _ _ _ _ (72 * a) Q Q); try lra|ring|ring].
Qed.

Hypothesis U3 : size (8 * (M * (M * M))).

Lemma cube_q d X : qf d X (2 * M) (34 * a) ->
  qd (cube d) (X ^ 3) (8 * (M * (M * M))) (110 * a) /\ qf (@nmul F (@nmul F d d) d) (X ^ 3) (8 * (M * (M * M))) (110 * a).
Proof.
  intros Q. pose proof (sq_q d X Q) as Q2. destruct power_sizes as (Ha & Hae & Hp1).
  pose proof U3 as (UP & _). destruct (sz_rel AI phi _ 1 U3) as (X1 & X2); [lra|lra|]. rewrite Rmult_1_r in X1, X2.
  pose proof (ap_t _ _ _ _ _ _ AI) as T0. split.
  - change (cube d) with (@nmul D (Val (@nmul F d d)) (Val d)). apply q_val in Q, Q2.
    eapply q_eq; [eapply (q_mul AD _ _ _ _ _ _ _ _ (110 * a) Q2 Q); try lra|ring|ring].
  - eapply q_eq; [eapply (q_mul AI _ _ _ _ _ _ _ _ (110 * a) Q2 Q); try lra|ring|ring].
Qed.

Hypothesis U4 : size (16 * (M * M * (M * M))).

Lemma fourth_q d X : qf d X (2 * M) (34 * a) -> qd (fourth d) (X ^ 4) (16 * (M * M * (M * M))) (148 * a).
Proof.
  intros Q. destruct (cube_q d X Q) as [_ Q3]. destruct power_sizes as (Ha & Hae & Hp1).
  pose proof U4 as (UP & _). destruct (sz_rel AI phi _ 1 U4) as (X1 & X2); [lra|lra|]. rewrite Rmult_1_r in X1, X2.
  pose proof (ap_t _ _ _ _ _ _ AI) as T0.
  change (fourth d) with (@nmul D (Val (@nmul F (@nmul F d d) d)) (Val d)). apply q_val in Q, Q3.
  eapply q_eq; [eapply (q_mul AD _ _ _ _ _ _ _ _ (148 * a) Q3 Q); try lra|ring|ring].
Qed.

(** ** Observables *)
Hypothesis ap_sqrt : forall x r, fdenotes prec emax x r -> 0 <= r -> exists s, fdenotes prec emax (@nsqrt F x) s /\ near e t (sqrt r) s.
Variable ep : R.
Hypothesis Veps : fdenotes prec emax (@neps F) ep.

Variables (l : list spec_float) (lv : list R).
Hypothesis V : Forall2 (fdenotes prec emax) l lv.
Hypothesis HM : Forall (fun x => Rabs x <= M) lv.
Hypothesis NE : l <> [].
Variables (fv : spec_float) (fvv : R).
Hypothesis FV : factor fv fvv.
Let v := emoment 2 fmv fvv lv.
Hypothesis v0 : 0 < v.
Let b := / fvv.
Let rho := M * M / v.
Let A := 4 * (62 * b + 79 * a) * rho.
Hypothesis HA : 256 * A * e <= 1.
Hypothesis TV : 16 * t <= e * sqrt v /\ 16 * t <= e * (v * sqrt v) /\ 16 * t <= e * (v * v) /\ 16 * t <= e * phi.
Hypothesis BV : 2 * sqrt v <= B /\ 2 * (v * sqrt v) <= B /\ 2 * (v * v) <= B.

Local Notation vr := (dvar_variance F (fold_left (dvar_push_fma F U) l (dvar_init F fm fv))).

Lemma VD : Forall2 (dden prec emax) (map Val l) lv.
Proof. exact (dden_all l lv V). Qed.
Lemma NED : map Val l <> [].
Proof. destruct l; [contradiction|discriminate]. Qed.
Lemma len_fma : length l = length lv.
Proof. exact (forall2_len _ _ _ V). Qed.

Lemma var_fma_rel : qf vr v v A.
Proof.
  pose proof (var_rel AD phi P0 Pe Pt S1 (Val fm) fmv M (dfac _ _ FM) SM SM2 U2 (map Val l) lv VD HM NED (Val fv) fvv (dfac _ _ FV) v0) as H.
  rewrite var_deferred in H. exact H.
Qed.

Lemma sizes_fma : (62 * b + 79 * a <= A /\ 141 <= A /\ 0 <= A * e /\ 1 <= a /\ 1 <= b /\ 8192 * (a * e) <= 1 /\ 8192 * (b * e) <= 1) /\
  / 4 <= rho /\ 0 < M * M /\ v <= 4 * (M * M).
Proof.
  split; [exact (A_ge AD phi P0 Pe Pt S1 (Val fm) fmv M (dfac _ _ FM) SM SM2 U2 (map Val l) lv VD HM NED (Val fv) fvv (dfac _ _ FV) v0)|].
  destruct (rho_ge AD phi P0 Pe Pt S1 (Val fm) fmv M (dfac _ _ FM) SM SM2 U2 (map Val l) lv VD HM NED (Val fv) fvv (dfac _ _ FV) v0) as (R1 & R2).
  destruct (var_q AD phi P0 Pe Pt S1 (Val fm) fmv M (dfac _ _ FM) SM SM2 U2 (map Val l) lv VD HM NED (Val fv) fvv (dfac _ _ FV)) as (H & _).
  fold v in H. rewrite Rabs_pos_eq in H by lra. repeat split; assumption.
Qed.

Lemma var_fma_cut :
  (65 / 64 * ep <= v -> 0 < ep -> @nlt F (@neps F) vr = true) /\ (v <= 63 / 64 * ep -> @nlt F (@neps F) vr = false).
Proof.
  pose proof var_fma_rel as (_ & w & Vw & Ew). rewrite (ap_lt _ _ _ _ _ _ AI _ _ _ _ Veps Vw).
  assert (A * (e * v) <= / 256 * v) by (rewrite <- Rmult_assoc; apply Rmult_le_compat_r; lra). apply Rabs_le_inv in Ew.
  split; [intros H1 H2; apply Rlt_bool_true; lra|intros H1; apply Rlt_bool_false; lra].
Qed.

Lemma sqrt_fma : qf (@nsqrt F vr) (sqrt v) (sqrt v) (A + 5 / 4).
Proof.
  destruct sizes_fma as ((_ & A1 & A2 & _) & _). pose proof (ap_e _ _ _ _ _ _ AI) as [E0 _].
  destruct var_fma_rel as (_ & r & Vr & Er).
  assert (Hr : 0 <= r).
  { assert (A * (e * v) <= / 256 * v) by (rewrite <- Rmult_assoc; apply Rmult_le_compat_r; lra). apply Rabs_le_inv in Er. lra. }
  pose proof (sqrt_lt_R0 v v0) as SP. destruct TV as (T1 & _). destruct BV as (B1 & _).
  apply (q_round AI (sqrt r) _ _ _ A); try assumption; [rewrite Rabs_pos_eq; lra| |lra| |lra].
  - eapply Rle_trans; [apply (sqrt_close r v _ v0 Hr Er)|]. right. rewrite <- (sqrt_sqrt v) at 1 by lra. field. lra.
  - intros _. apply ap_sqrt; assumption.
Qed.

Lemma norm_fma f fr n : factor f fr -> @blend D (Val f) (map (fun _ => @n1 D) (map Val l)) = Val n -> @nlt F (@n0 F) n = true.
Proof.
  intros HF E. pose proof (norm_positive AD phi P0 Pe Pt S1 (Val f) fr (map Val l) lv (dfac _ _ HF)) as H.
  assert (G : forall z : D, z = Val n -> @nlt D (@n0 D) z = true -> @nlt F (@n0 F) n = true) by (intros z -> G; exact G).
  apply (G _ E), H; [rewrite map_length; exact len_fma|exact NED].
Qed.

Lemma quotient_q (b1 b2 : D) s y n X W c : b1 = Val s -> b2 = Val n ->
  qd (@ndiv D (@ndiv D b1 (Val y)) b2) X W c -> qf (@ndiv F (@ndiv F s y) n) X W c.
Proof. intros -> -> H. exact H. Qed.

Lemma powers_q (g : spec_float -> D) n W c :
  (forall d X, qf d X (2 * M) (34 * a) -> qd (g d) (X ^ n) W c) ->
  Forall2 (fun p X => qd p X W c) (map g (devs_fma (dmean_init F fm) l)) (map (fun d => d ^ n) (deviations fmv lv)).
Proof.
  intros H. pose proof (devs_fma_q l lv V HM) as Q. induction Q; constructor; [apply H; assumption|assumption].
Qed.

Lemma powers_ne (g : spec_float -> D) : map g (devs_fma (dmean_init F fm) l) <> [].
Proof. intros E. pose proof (map_length g (devs_fma (dmean_init F fm) l)) as L. rewrite E, devs_fma_length in L. destruct l; [contradiction|discriminate]. Qed.

Lemma decay_skewness_fma fs fsv : factor fs fsv -> 0 < ep -> 65 / 64 * ep <= v -> 16 * (M * (M * M)) / (v * sqrt v) <= B ->
  exists r, fdenotes prec emax (dskew_skewness F (fold_left (dskew_push_fma F U) l (dskew_init F fm fv fs))) r /\
    Rabs (r - emoment 3 fmv fsv lv / (v * sqrt v)) <=
      (10200 * a + 4700 * b + 2100 * / fsv) * rho * (e * (M * (M * M) / (v * sqrt v))).
Proof.
  intros FS E0 Hv HB. destruct sizes_fma as ((A1 & A2 & A3 & Ha & Hb & Hae & Hbe) & R4 & MM & VM).
  destruct (fac_inv phi P0 Pe _ _ FS) as (Hf & Hc & Hce & _). pose proof SM as (M0 & _). pose proof (sqrt_lt_R0 v v0) as SP.
  assert (Y0 : 0 < v * sqrt v) by (apply Rmult_lt_0_compat; lra).
  destruct (dskew_parts_fma fm fv fs l) as (_ & D2 & D3). pose proof (dskew_super_fma fm fv fs l) as DS.
  unfold dskew_skewness. rewrite DS, (norm_fma fs fsv _ FS D3).
  destruct var_fma_cut as (VC & _). rewrite VC by assumption.
  destruct TV as (T1 & T2 & T3 & T4). destruct BV as (B1 & B2 & B3).
  assert (QY : qf (@nmul F vr (@nsqrt F vr)) (v * sqrt v) (v * sqrt v) (33 / 16 * A + 5 / 2)).
  { pose proof (ap_e _ _ _ _ _ _ AI) as [X _]. assert (e <= a * e) by (rewrite <- (Rmult_1_l e) at 1; apply Rmult_le_compat_r; lra).
    eapply (q_mulr AI); [exact var_fma_rel|exact sqrt_fma|lra|lra| | |exact T2|exact B2|lra].
    - replace (16 * ((A + 5 / 4) * e)) with (16 * (A * e) + 20 * e) by field. lra.
    - replace (16 * ((17 / 16 * A + (A + 5 / 4)) * e)) with (33 * (A * e) + 20 * e) by field. lra. }
  pose (Z := 8 * (M * (M * M)) / (v * sqrt v)).
  assert (Z1 : / 4 <= Z).
  { unfold Z. apply Rmult_le_reg_r with (v * sqrt v); [exact Y0|].
    replace (8 * (M * (M * M)) / (v * sqrt v) * (v * sqrt v)) with (8 * (M * (M * M))) by (field; lra).
    assert (SV : sqrt v <= 2 * M).
    { replace (2 * M) with (sqrt ((2 * M) * (2 * M))) by (apply sqrt_square; lra). apply sqrt_le_1; lra. }
    assert (v * sqrt v <= 4 * (M * M) * (2 * M)) by (apply Rmult_le_compat; lra). lra. }
  pose proof (stat_q AD phi P0 Pe Pt S1 (Val fm) fmv M (dfac _ _ FM) SM SM2 U2 (map Val l) lv VD HM NED (Val fv) fvv (dfac _ _ FV) v0 HA TV
    (Val fs) fsv (8 * (M * (M * M))) (110 * a) _ _ _ (Val (@nmul F vr (@nsqrt F vr))) _ Z (dfac _ _ FS) U3 ltac:(lra) ltac:(fold a; lra) (powers_ne cube) (len_devs fmv lv _)
    (powers_q cube 3 _ _ (fun d X Q => proj1 (cube_q d X Q))) QY eq_refl Y0 eq_refl Z1) as Q.
  assert (ZB : 2 * Z <= B) by (unfold Z; lra). specialize (Q ZB).
  destruct (quotient_q _ _ _ _ _ _ _ _ D2 D3 Q) as (_ & r & Vr & Er). clear Q ZB.
  exists r. split; [exact Vr|]. fold (emoment 3 fmv fsv lv) in Er. eapply Rle_trans; [exact Er|].
  set (k := M * (M * M) / (v * sqrt v)) in *. assert (EZ : Z = 8 * k) by (unfold Z, k; field; lra). rewrite EZ in *.
  pose proof (ap_e _ _ _ _ _ _ AI) as [X _]. replace (e * (8 * k)) with (8 * (e * k)) by ring.
  assert (0 <= e * k) by (apply Rmult_le_pos; lra). rewrite <- Rmult_assoc. apply Rmult_le_compat_r; [assumption|].
  assert (G : (64 * / fsv + 256 / 225 * (110 * a) + 47 / 20 * A + 11 / 2) * 8 <= (10200 * a + 4700 * b + 2100 * / fsv) * rho); [|exact G]. unfold A.
  assert (R1 : forall x, 0 <= x -> x <= 4 * (x * rho)) by (intros x Hx; nra).
  pose proof (R1 a ltac:(lra)). pose proof (R1 (/ fsv) ltac:(lra)).
  replace ((10200 * a + 4700 * b + 2100 * / fsv) * rho) with (10200 * (a * rho) + 4700 * (b * rho) + 2100 * (/ fsv * rho)) by ring.
  replace (4 * (62 * b + 79 * a) * rho) with (248 * (b * rho) + 316 * (a * rho)) by ring.
  assert (0 <= b * rho) by (apply Rmult_le_pos; lra). lra.
Qed.

Lemma decay_skewness_zero_fma fs fsv : factor fs fsv -> v <= 63 / 64 * ep ->
  dskew_skewness F (fold_left (dskew_push_fma F U) l (dskew_init F fm fv fs)) = @n0 F.
Proof.
  intros FS Hv. destruct (dskew_parts_fma fm fv fs l) as (_ & D2 & D3). pose proof (dskew_super_fma fm fv fs l) as DS.
  unfold dskew_skewness. rewrite DS, (norm_fma fs fsv _ FS D3).
  destruct var_fma_cut as (_ & VC). rewrite VC by assumption. reflexivity.
Qed.

Lemma decay_kurtosis_fma fs fk fkv : factor fk fkv -> 0 < ep -> 65 / 64 * ep <= v -> 32 * (M * M * (M * M)) / (v * v) <= B ->
  exists r, fdenotes prec emax (dkurt_kurtosis F (fold_left (dkurt_push_fma F U) l (dkurt_init F fm fv fs fk))) r /\
    Rabs (r - emoment 4 fmv fkv lv / (v * v)) <=
      (23100 * a + 9400 * b + 4100 * / fkv) * rho * (e * (M * M * (M * M) / (v * v))).
Proof.
  intros FK E0 Hv HB. destruct sizes_fma as ((A1 & A2 & A3 & Ha & Hb & Hae & Hbe) & R4 & MM & VM).
  destruct (fac_inv phi P0 Pe _ _ FK) as (Hf & Hc & Hce & _). pose proof SM as (M0 & _).
  assert (Y0 : 0 < v * v) by (apply Rmult_lt_0_compat; lra).
  destruct (dkurt_parts_fma fm fv fs fk l) as (_ & D2 & D3). pose proof (dkurt_super_fma fm fv fs fk l) as DK. pose proof (dskew_super_fma fm fv fs l) as DS.
  unfold dkurt_kurtosis, dskew_variance. rewrite DK, DS, (norm_fma fk fkv _ FK D3).
  destruct var_fma_cut as (VC & _). rewrite VC by assumption.
  destruct TV as (T1 & T2 & T3 & T4). destruct BV as (B1 & B2 & B3).
  assert (QY : qf (@nmul F vr vr) (v * v) (v * v) (33 / 16 * A + 5 / 2)).
  { eapply (q_mulr AI); [exact var_fma_rel|exact var_fma_rel|lra|lra|lra|lra|exact T3|exact B3|lra]. }
  pose (Z := 16 * (M * M * (M * M)) / (v * v)).
  assert (Z1 : / 4 <= Z).
  { unfold Z. apply Rmult_le_reg_r with (v * v); [exact Y0|].
    replace (16 * (M * M * (M * M)) / (v * v) * (v * v)) with (16 * (M * M * (M * M))) by (field; lra).
    assert (v * v <= 4 * (M * M) * (4 * (M * M))) by (apply Rmult_le_compat; lra). lra. }
  pose proof (stat_q AD phi P0 Pe Pt S1 (Val fm) fmv M (dfac _ _ FM) SM SM2 U2 (map Val l) lv VD HM NED (Val fv) fvv (dfac _ _ FV) v0 HA TV
    (Val fk) fkv (16 * (M * M * (M * M))) (148 * a) _ _ _ (Val (@nmul F vr vr)) _ Z (dfac _ _ FK) U4 ltac:(lra) ltac:(fold a; lra) (powers_ne fourth) (len_devs fmv lv _)
    (powers_q fourth 4 _ _ fourth_q) QY eq_refl Y0 eq_refl Z1) as Q.
  assert (ZB : 2 * Z <= B) by (unfold Z; lra). specialize (Q ZB).
  destruct (quotient_q _ _ _ _ _ _ _ _ D2 D3 Q) as (_ & r & Vr & Er). clear Q ZB.
  exists r. split; [exact Vr|]. fold (emoment 4 fmv fkv lv) in Er. eapply Rle_trans; [exact Er|].
  set (k := M * M * (M * M) / (v * v)) in *. assert (EZ : Z = 16 * k) by (unfold Z, k; field; lra). rewrite EZ in *.
  pose proof (ap_e _ _ _ _ _ _ AI) as [X _]. replace (e * (16 * k)) with (16 * (e * k)) by ring.
  assert (0 <= e * k) by (apply Rmult_le_pos; lra). rewrite <- Rmult_assoc. apply Rmult_le_compat_r; [assumption|].
  assert (G : (64 * / fkv + 256 / 225 * (148 * a) + 47 / 20 * A + 11 / 2) * 16 <= (23100 * a + 9400 * b + 4100 * / fkv) * rho); [|exact G]. unfold A.
  assert (R1 : forall x, 0 <= x -> x <= 4 * (x * rho)) by (intros x Hx; nra).
  pose proof (R1 a ltac:(lra)). pose proof (R1 (/ fkv) ltac:(lra)).
  replace ((23100 * a + 9400 * b + 4100 * / fkv) * rho) with (23100 * (a * rho) + 9400 * (b * rho) + 4100 * (/ fkv * rho)) by ring.
  replace (4 * (62 * b + 79 * a) * rho) with (248 * (b * rho) + 316 * (a * rho)) by ring.
  assert (0 <= b * rho) by (apply Rmult_le_pos; lra). lra.
Qed.

Lemma decay_kurtosis_zero_fma fs fk fkv : factor fk fkv -> v <= 63 / 64 * ep ->
  dkurt_kurtosis F (fold_left (dkurt_push_fma F U) l (dkurt_init F fm fv fs fk)) = @n0 F.
Proof.
  intros FK Hv. destruct (dkurt_parts_fma fm fv fs fk l) as (_ & D2 & D3).
  pose proof (dkurt_super_fma fm fv fs fk l) as DK. pose proof (dskew_super_fma fm fv fs l) as DS.
  unfold dkurt_kurtosis, dskew_variance. rewrite DK, DS, (norm_fma fk fkv _ FK D3).
  destruct var_fma_cut as (_ & VC). rewrite VC by assumption. reflexivity.
Qed.
End DecayHigherFused.
