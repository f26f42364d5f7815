(** * Error bounds for the skewness and kurtosis of decay filters *)

From Coq Require Import Reals ZArith NArith Bool List Lra Lia Psatz.
From Flocq Require Import Core.
From Verif Require Import Arith History HistoryLemmas SpecStats StatsLemmas Decay SpecDecay DecayProofs
  Approx AccuracyProofs AccuracyVariance AccuracyRegression AccuracyFilters AccuracyWindow AccuracyHigher.
Import ListNotations.
Local Open Scope R_scope.

Section DecayHigher.
Context {F : num} {val : F -> R -> Prop} {B e t : R} {K : N}.
Hypothesis AP : approx F val B e t K.
Variable phi : R.
Hypothesis P0 : 0 < phi.
Hypothesis Pe : 8192 * e <= phi.
Hypothesis Pt : 64 * t <= phi * phi.

Local Notation He := (ap_e _ _ _ _ _ _ AP).
Local Notation Ht := (ap_t _ _ _ _ _ _ AP).
Local Notation q := (@q F val e).

(** An admissible factor, and an admissible magnitude. *)
Definition fac (f : F) (fv : R) : Prop := val f fv /\ phi <= fv <= 1.
Definition sz (U : R) : Prop := 0 < U /\ 64 * (U + 1) <= B /\ 64 * t <= e * (phi * U).

Lemma fac_inv f fv : fac f fv -> 0 < fv <= 1 /\ 1 <= / fv /\ 8192 * (/ fv * e) <= 1 /\ phi <= fv.
Proof.
  intros (_ & H1 & H2). assert (H : 0 < fv) by lra. pose proof (Rinv_0_lt_compat fv H) as I.
  split; [lra|]. split; [rewrite <- Rinv_1; apply Rinv_le_contravar; lra|]. split; [|exact H1].
  apply Rmult_le_reg_r with fv; [exact H|]. replace (8192 * (/ fv * e) * fv) with (8192 * e) by (field; lra). lra.
Qed.

Definition blend (f : F) (l : list F) : F := fold_left (fun s x => nadd s (nmul f (nsub x s))) l n0.

Lemma sz_rel U n : sz U -> phi <= n -> n <= 1 -> 64 * t <= e * (U * n) /\ 64 * (U * n + 1) <= B.
Proof.
  intros (U0 & UB & UT) H1 H2. pose proof He as [E0 _]. split.
  - eapply Rle_trans; [exact UT|]. apply Rmult_le_compat_l; [exact E0|]. rewrite Rmult_comm. apply Rmult_le_compat_l; lra.
  - assert (U * n <= U * 1) by (apply Rmult_le_compat_l; lra). lra.
Qed.

Lemma blend_q f fv U c ps Xs : fac f fv -> sz U -> 0 <= c -> 16 * (c * e) <= 1 -> ps <> [] ->
  Forall2 (fun p X => q p X U c) ps Xs ->
  q (blend f ps) (fv * esum (1 - fv) Xs) (U * nrm fv (length Xs)) (29 * / fv + c).
Proof.
  intros HF (U0 & UB & UT) C0 C1 NE H. destruct (fac_inv _ _ HF) as (Hf & Ha & Hae & Hp). destruct HF as (Vf & _).
  pose proof He as [E0 E1]. pose proof Ht as T0.
  assert (Hl : length ps = length Xs) by (clear - H; induction H; cbn; congruence).
  assert (HX : Forall (fun x => Rabs x <= U) Xs) by (clear - H; induction H as [|p X ps Xs (Q & _) _ IH]; constructor; assumption).
  assert (G : exists pv, Forall2 val ps pv /\ Forall (fun x => Rabs x <= 17 / 16 * U) pv /\ Forall2 (fun a b => Rabs (a - b) <= c * (e * U)) pv Xs).
  { clear - H C1. induction H as [|p X ps Xs Q _ (pv & I1 & I2 & I3)]; [exists []; repeat split; constructor|].
    destruct (q_abs _ _ _ _ Q C1) as (r & Vr & Er & Ar). exists (r :: pv). repeat split; constructor; assumption. }
  destruct G as (pv & V1 & V2 & V3).
  assert (NEX : Xs <> []) by (intros ->; destruct ps; [contradiction|discriminate]).
  assert (NEp : pv <> []) by (intros ->; inversion V1; subst; contradiction).
  assert (Lp : length pv = length Xs) by (clear - V3; induction V3; cbn; congruence).
  assert (F2 : phi * phi <= fv * fv) by (apply Rmult_le_compat; lra).
  destruct (decay_sum_acc AP f fv (17 / 16 * U) ps pv Vf Hf ltac:(lra) V1 V2 ltac:(lra) ltac:(lra) ltac:(lra)) as (r & Vr & Er).
  split; [apply decayed_bound; assumption|]. exists r. split; [exact Vr|].
  pose proof (ewma_diff fv _ pv Xs Hf NEp V3) as D. rewrite <- !ewma_nrm in D by assumption. rewrite Lp in *.
  assert (NG : fv <= nrm fv (length Xs)) by (destruct Xs; [contradiction|apply nrm_ge; exact Hf]).
  pose proof (nrm_le1 fv (length Xs) Hf) as N1. set (nr := nrm fv (length Xs)) in *.
  set (S := fv * esum (1 - fv) pv) in *. set (S' := fv * esum (1 - fv) Xs) in *.
  assert (D' : Rabs (S - S') <= c * (e * U) * nr).
  { replace (S - S') with ((S / nr - S' / nr) * nr) by (field; lra). rewrite Rabs_mult, (Rabs_pos_eq nr) by lra.
    apply Rmult_le_compat_r; lra. }
  replace (r - S') with ((r - S) + (S - S')) by ring. eapply Rle_trans; [apply Rabs_triang|].
  unfold dbound in Er. assert (eU : 0 <= e * U) by (apply Rmult_le_pos; lra).
  assert (TT : 14 * t / fv <= / fv * (e * U) * nr).
  { assert (14 * t <= e * U * nr).
    { eapply Rle_trans; [|apply (Rmult_le_compat_l (e * U) phi nr); lra]. replace (e * U * phi) with (e * (phi * U)) by ring. lra. }
    unfold Rdiv. replace (/ fv * (e * U) * nr) with (e * U * nr * / fv) by ring. apply Rmult_le_compat_r; lra. }
  replace (26 * (e * (17 / 16 * U)) / fv * nr) with (26 * 17 / 16 * (/ fv * (e * U) * nr)) in Er by (field; lra).
  assert (0 <= / fv * (e * U) * nr) by (apply Rmult_le_pos; [apply Rmult_le_pos; lra|lra]).
  replace ((29 * / fv + c) * (e * (U * nr))) with (29 * (/ fv * (e * U) * nr) + c * (e * U) * nr) by ring. lra.
Qed.

Hypothesis S1 : sz 1.

Lemma norm_q f fv (l : list F) (lv : list R) : fac f fv -> length l = length lv -> l <> [] ->
  let nr := nrm fv (length lv) in
  q (blend f (map (fun _ => n1) l)) nr nr (29 * / fv) /\ phi <= nr <= 1.
Proof.
  intros HF HL NE nr. destruct (fac_inv _ _ HF) as (Hf & Ha & Hae & Hp).
  pose proof He as [E0 _]. split.
  - assert (Q : Forall2 (fun p X => q p X 1 0) (map (fun _ : F => n1) l) (map (fun _ : R => 1) lv)).
    { clear NE. revert lv HL nr. induction l as [|x l IH]; intros [|y lv] HL nr; try discriminate; [constructor|].
      cbn [map]. constructor; [|apply IH; injection HL as ->; reflexivity].
      apply q_exact; [apply (ap_1 _ _ _ _ _ _ AP)|rewrite Rabs_R1; lra]. }
    assert (NE1 : map (fun _ : F => @n1 F) l <> []) by (intros E; apply map_eq_nil in E; contradiction).
    pose proof (blend_q f fv 1 0 _ _ HF S1 ltac:(lra) ltac:(lra) NE1 Q) as H.
    rewrite map_length in H. fold nr in H. pose proof (esum_ones (1 - fv) lv) as E. replace (1 - (1 - fv)) with fv in E by ring.
    rewrite E in H. fold (nrm fv (length lv)) in H. fold nr in H. rewrite Rmult_1_l, Rplus_0_r in H. exact H.
  - assert (fv <= nr) by (unfold nr; destruct lv; [destruct l; [contradiction|discriminate]|apply nrm_ge; exact Hf]).
    pose proof (nrm_le1 fv (length lv) Hf). unfold nr in *. lra.
Qed.

(** Sum over norm. *)
Lemma ratio_q f fv U c ps Xs : fac f fv -> sz U -> 0 <= c -> 64 * (c * e) <= 1 -> ps <> [] ->
  Forall2 (fun p X => q p X U c) ps Xs ->
  q (ndiv (blend f ps) (blend f (map (fun _ => n1) ps))) (ewma fv Xs) U (62 * / fv + 16 / 15 * c + 5 / 4).
Proof.
  intros HF SU C0 C1 NE H. pose proof SU as (U0 & UB & UT). destruct (fac_inv _ _ HF) as (Hf & Ha & Hae & Hp).
  pose proof He as [E0 E1].
  assert (Hl : length ps = length Xs) by (clear - H; induction H; cbn; congruence).
  pose proof (blend_q f fv U c ps Xs HF SU C0 ltac:(lra) NE H) as Q.
  destruct (norm_q f fv ps Xs HF Hl NE) as (N & NR & N1). set (nr := nrm fv (length Xs)) in *.
  assert (NEX : Xs <> []) by (intros ->; destruct ps; [contradiction|discriminate]).
  rewrite <- (ewma_nrm fv Xs Hf NEX). fold nr.
  assert (EU : U * nr / nr = U) by (field; lra).
  assert (U4 : 16 * t <= e * U).
  { destruct (sz_rel U 1 SU) as (X & _); [lra|lra|]. rewrite Rmult_1_r in X. pose proof Ht. lra. }
  eapply (q_div AP _ _ _ _ _ _ _ U); [exact Q|exact N|lra|lra|lra|lra| |lra|lra| | |exact U4|lra].
  - destruct Q as (Q & _). exact Q.
  - rewrite EU. replace (62 * / fv + 16 / 15 * c + 5 / 4 - 5 / 4) with (62 * / fv + 16 / 15 * c) by ring.
    replace (((29 * / fv + c) * U + 29 * / fv * U) * (16 / 15)) with ((58 * / fv + c) * (16 / 15) * U) by ring.
    apply Rmult_le_compat_r; lra.
  - replace (16 * ((62 * / fv + 16 / 15 * c + 5 / 4 - 5 / 4) * e)) with (16 * 62 * (/ fv * e) + 16 * 16 / 15 * (c * e)) by (field; lra). lra.
Qed.

(** ** The deviations *)

Fixpoint fdevs (s : dmean F) (l : list F) : list F :=
  match l with
  | [] => []
  | x :: l' => let s' := dmean_push F s x in nsub x (dmean_mean F s') :: fdevs s' l'
  end.

Lemma fdevs_snoc s l x : fdevs s (l ++ [x]) = fdevs s l ++ [nsub x (dmean_mean F (fold_left (dmean_push F) (l ++ [x]) s))].
Proof. revert s. induction l as [|y l IH]; intros s; [reflexivity|]. cbn [app fdevs fold_left]. rewrite IH. reflexivity. Qed.

Lemma fdevs_length s l : length (fdevs s l) = length l.
Proof. revert s. induction l as [|y l IH]; intros s; [reflexivity|]. cbn [fdevs length]. rewrite IH. reflexivity. Qed.

Lemma blend_snoc f l x : blend f (l ++ [x]) = nadd (blend f l) (nmul f (nsub x (blend f l))).
Proof. unfold blend. rewrite fold_left_app. reflexivity. Qed.

Lemma ones_devs s l : map (fun _ : F => @n1 F) (fdevs s l) = map (fun _ => n1) l.
Proof. revert s. induction l as [|y l IH]; intros s; [reflexivity|]. cbn [fdevs map]. rewrite IH. reflexivity. Qed.

Lemma dvar_parts fm fv l : let s := fold_left (dvar_push F) l (dvar_init F fm fv) in
  dv_factor F s = fv /\ dv_sum F s = blend fv (map (fun d => nmul d d) (fdevs (dmean_init F fm) l)) /\
  dv_norm F s = blend fv (map (fun _ => n1) l).
Proof.
  cbv zeta. induction l as [|x l (I1 & I2 & I3)] using rev_ind; [repeat split|].
  rewrite fdevs_snoc, !map_app. cbn [map]. rewrite !blend_snoc, fold_left_app. cbn [fold_left].
  pose proof (dvar_fold_super fm fv l) as S. set (s := fold_left (dvar_push F) l (dvar_init F fm fv)) in *.
  unfold dvar_push. cbn [dv_factor dv_sum dv_norm]. rewrite I1, I2, I3, S, fold_left_app. repeat split.
Qed.

Lemma dskew_super fm fv fs l : ds_super F (fold_left (dskew_push F) l (dskew_init F fm fv fs)) = fold_left (dvar_push F) l (dvar_init F fm fv).
Proof. induction l as [|x l IH] using rev_ind; [reflexivity|]. rewrite !fold_left_app. cbn [fold_left]. rewrite <- IH. reflexivity. Qed.

Lemma dskew_parts fm fv fs l : let s := fold_left (dskew_push F) l (dskew_init F fm fv fs) in
  ds_factor F s = fs /\ ds_sum F s = blend fs (map (fun d => nmul (nmul d d) d) (fdevs (dmean_init F fm) l)) /\
  ds_norm F s = blend fs (map (fun _ => n1) l).
Proof.
  cbv zeta. induction l as [|x l (I1 & I2 & I3)] using rev_ind; [repeat split|].
  rewrite fdevs_snoc, !map_app. cbn [map]. rewrite !blend_snoc, fold_left_app. cbn [fold_left].
  pose proof (dskew_super fm fv fs l) as S2. pose proof (dvar_fold_super fm fv l) as S.
  set (s := fold_left (dskew_push F) l (dskew_init F fm fv fs)) in *.
  unfold dskew_push, dvar_mean. cbn [ds_factor ds_sum ds_norm dvar_push dv_super]. rewrite I1, I2, I3, S2, S, fold_left_app. repeat split.
Qed.

Lemma dkurt_super fm fv fs fk l : dk_super F (fold_left (dkurt_push F) l (dkurt_init F fm fv fs fk)) = fold_left (dskew_push F) l (dskew_init F fm fv fs).
Proof. induction l as [|x l IH] using rev_ind; [reflexivity|]. rewrite !fold_left_app. cbn [fold_left]. rewrite <- IH. reflexivity. Qed.

Lemma dkurt_parts fm fv fs fk l : let s := fold_left (dkurt_push F) l (dkurt_init F fm fv fs fk) in
  dk_factor F s = fk /\ dk_sum F s = blend fk (map (fun d => nmul (nmul (nmul d d) d) d) (fdevs (dmean_init F fm) l)) /\
  dk_norm F s = blend fk (map (fun _ => n1) l).
Proof.
  cbv zeta. induction l as [|x l (I1 & I2 & I3)] using rev_ind; [repeat split|].
  rewrite fdevs_snoc, !map_app. cbn [map]. rewrite !blend_snoc, fold_left_app. cbn [fold_left].
  pose proof (dkurt_super fm fv fs fk l) as S3. pose proof (dskew_super fm fv fs l) as S2. pose proof (dvar_fold_super fm fv l) as S.
  set (s := fold_left (dkurt_push F) l (dkurt_init F fm fv fs fk)) in *.
  unfold dkurt_push, dskew_mean, dvar_mean. cbn [dk_factor dk_sum dk_norm dskew_push ds_super dvar_push dv_super].
  rewrite I1, I2, I3, S3, S2, S, fold_left_app. repeat split.
Qed.

Section Data.
Variables (fm : F) (fmv M : R).
Hypothesis FM : fac fm fmv.
Hypothesis SM : sz M.
Hypothesis SM2 : sz (2 * M).

Let a := / fmv.

Lemma norm_positive f fv (l : list F) (lv : list R) : fac f fv -> length l = length lv -> l <> [] ->
  nlt n0 (blend f (map (fun _ => n1) l)) = true.
Proof.
  intros HF HL NE. destruct (norm_q f fv l lv HF HL NE) as ((_ & r & Vr & Er) & N & _).
  destruct (fac_inv _ _ HF) as (Hf & Ha & Hae & Hp). pose proof He as [E0 _].
  rewrite (ap_lt _ _ _ _ _ _ AP _ _ _ _ (ap_0 _ _ _ _ _ _ AP) Vr). apply Rlt_bool_true.
  apply Rabs_le_inv in Er. set (nr := nrm fv (length lv)) in *.
  assert (29 * / fv * (e * nr) <= / 2 * nr).
  { replace (29 * / fv * (e * nr)) with (29 * (/ fv * e) * nr) by ring. apply Rmult_le_compat_r; lra. }
  lra.
Qed.

Lemma mean_q l lv : Forall2 val l lv -> Forall (fun x => Rabs x <= M) lv -> l <> [] ->
  q (dmean_mean F (fold_left (dmean_push F) l (dmean_init F fm))) (ewma fmv lv) M (64 * a).
Proof.
  intros V HM NE. destruct (fac_inv _ _ FM) as (Hf & Ha & Hae & Hp). fold a in Ha, Hae.
  assert (Hl : length l = length lv) by (clear - V; induction V; cbn; congruence).
  destruct (dmean_fold fm l) as (_ & D2 & D3). unfold dmean_mean. rewrite D2, D3.
  fold (blend fm (map (fun _ : F => n1) l)). fold (blend fm l). rewrite (norm_positive fm fmv l lv FM Hl NE).
  eapply (q_weaken AP); [apply (ratio_q fm fmv M 0 l lv FM SM); try lra; [exact NE|]|fold a; lra].
  clear - V HM. induction V; [constructor|]. inversion HM; subst. constructor; [apply q_exact; assumption|auto].
Qed.

Lemma devs_q l lv : Forall2 val l lv -> Forall (fun x => Rabs x <= M) lv ->
  Forall2 (fun d D => q d D (2 * M) (34 * a)) (fdevs (dmean_init F fm) l) (deviations fmv lv).
Proof.
  intros V HM. revert lv V HM. induction l as [|x l IH] using rev_ind; intros lv V HM; [inversion V; subst; constructor|].
  pose proof V as V0. pose proof HM as HM0. apply Forall2_app_inv_l in V. destruct V as (lv' & pv' & V & Vp & ->).
  inversion Vp as [|? xv ? ? Vx Vnil]; subst. inversion Vnil; subst. clear Vp Vnil.
  apply Forall_app in HM. destruct HM as [HM Hp]. inversion Hp as [|? ? Hx _]; subst.
  rewrite fdevs_snoc, deviations_snoc. apply Forall2_app; [apply IH; assumption|]. constructor; [|constructor].
  destruct (fac_inv _ _ FM) as (Hf & Ha & Hae & _). fold a in Ha, Hae.
  pose proof (mean_q (l ++ [x]) _ V0 HM0 ltac:(destruct l; discriminate)) as Q. pose proof He as [E0 _]. pose proof Ht as T0.
  destruct (sz_rel (2 * M) 1 SM2) as (X1 & X2); [destruct (fac_inv _ _ FM); lra|lra|]. rewrite Rmult_1_r in X1, X2.
  destruct SM as (M0 & _).
  apply (q_addg AP false _ _ _ _ M M (2 * M) 0 (64 * a) (32 * a)); [apply q_exact; assumption|exact Q|lra|lra| |lra| |lra|lra|lra].
  - destruct Q as (Q & _). unfold Rminus. eapply Rle_trans; [apply Rabs_triang|]. rewrite Rabs_Ropp. lra.
  - replace (16 * (32 * a * e)) with (512 * (a * e)) by ring. lra.
Qed.

Hypothesis U2 : sz (4 * (M * M)).

Lemma sqs_q l lv : Forall2 val l lv -> Forall (fun x => Rabs x <= M) lv ->
  Forall2 (fun d D => q d D (4 * (M * M)) (72 * a)) (map (fun d => nmul d d) (fdevs (dmean_init F fm) l)) (map (fun d => d ^ 2) (deviations fmv lv)).
Proof.
  intros V HM. pose proof (devs_q l lv V HM) as H. destruct (fac_inv _ _ FM) as (Hf & Ha & Hae & Hp). fold a in Ha, Hae.
  pose proof U2 as (UP & _). destruct (sz_rel _ 1 U2) as (X1 & X2); [lra|lra|]. rewrite Rmult_1_r in X1, X2. pose proof Ht as T0.
  induction H as [|d D ds Ds Q _ IH]; [constructor|]. cbn [map]. constructor; [|exact IH].
  eapply q_eq; [eapply (q_mul AP _ _ _ _ _ _ _ _ (72 * a) Q Q); try lra|ring|ring].
Qed.

Hypothesis U3 : sz (8 * (M * (M * M))).

Lemma cubes_q l lv : Forall2 val l lv -> Forall (fun x => Rabs x <= M) lv ->
  Forall2 (fun d D => q d D (8 * (M * (M * M))) (110 * a)) (map (fun d => nmul (nmul d d) d) (fdevs (dmean_init F fm) l)) (map (fun d => d ^ 3) (deviations fmv lv)).
Proof.
  intros V HM. pose proof (devs_q l lv V HM) as H. pose proof (sqs_q l lv V HM) as H2. destruct (fac_inv _ _ FM) as (Hf & Ha & Hae & Hp). fold a in Ha, Hae.
  pose proof U3 as (UP & _). destruct (sz_rel _ 1 U3) as (X1 & X2); [lra|lra|]. rewrite Rmult_1_r in X1, X2. pose proof Ht as T0.
  induction H as [|d D ds Ds Q _ IH]; [constructor|]. cbn [map] in *. inversion H2 as [|? ? ? ? Q2 H2']; subst. constructor; [|apply IH; exact H2'].
  eapply q_eq; [eapply (q_mul AP _ _ _ _ _ _ _ _ (110 * a) Q2 Q); try lra|ring|ring].
Qed.

Hypothesis U4 : sz (16 * (M * M * (M * M))).

Lemma fourths_q l lv : Forall2 val l lv -> Forall (fun x => Rabs x <= M) lv ->
  Forall2 (fun d D => q d D (16 * (M * M * (M * M))) (148 * a)) (map (fun d => nmul (nmul (nmul d d) d) d) (fdevs (dmean_init F fm) l)) (map (fun d => d ^ 4) (deviations fmv lv)).
Proof.
  intros V HM. pose proof (devs_q l lv V HM) as H. pose proof (cubes_q l lv V HM) as H2. destruct (fac_inv _ _ FM) as (Hf & Ha & Hae & Hp). fold a in Ha, Hae.
  pose proof U4 as (UP & _). destruct (sz_rel _ 1 U4) as (X1 & X2); [lra|lra|]. rewrite Rmult_1_r in X1, X2. pose proof Ht as T0.
  induction H as [|d D ds Ds Q _ IH]; [constructor|]. cbn [map] in *. inversion H2 as [|? ? ? ? Q2 H2']; subst. constructor; [|apply IH; exact H2'].
  eapply q_eq; [eapply (q_mul AP _ _ _ _ _ _ _ _ (148 * a) Q2 Q); try lra|ring|ring].
Qed.

(** ** Observables *)

Hypothesis ap_sqrt : forall x a, val x a -> 0 <= a -> exists r, val (nsqrt x) r /\ near e t (sqrt a) r.
Variable ep : R.
Hypothesis Veps : val neps ep.

Variables (l : list F) (lv : list R).
Hypothesis V : Forall2 val l lv.
Hypothesis HM : Forall (fun x => Rabs x <= M) lv.
Hypothesis NE : l <> [].
Variables (fv : F) (fvv : R).
Hypothesis FV : fac fv fvv.
Let v := emoment 2 fmv fvv lv.
Hypothesis v0 : 0 < v.
Let b := / fvv.
Let rho := M * M / v.
Let A := 4 * (62 * b + 79 * a) * rho.
Hypothesis HA : 256 * A * e <= 1.

Lemma len : length l = length lv.
Proof. exact (forall2_len _ _ _ V). Qed.

Lemma len_devs {T} (g : R -> T) : length (map g (deviations fmv lv)) = length lv.
Proof. rewrite map_length. apply deviations_length. Qed.

Lemma devs_ne {T} (g : R -> T) : map g (deviations fmv lv) <> [].
Proof. intros E. pose proof (len_devs g) as L. rewrite E, <- len in L. destruct l; [contradiction|discriminate]. Qed.

Lemma fdevs_ne {T} (g : F -> T) : map g (fdevs (dmean_init F fm) l) <> [].
Proof. intros E. pose proof (map_length g (fdevs (dmean_init F fm) l)) as L. rewrite E, fdevs_length in L. destruct l; [contradiction|discriminate]. Qed.

Lemma var_q : q (dvar_variance F (fold_left (dvar_push F) l (dvar_init F fm fv))) v (4 * (M * M)) (62 * b + 79 * a).
Proof.
  destruct (fac_inv _ _ FM) as (_ & Ha & Hae & Hp). fold a in Ha, Hae.
  destruct (dvar_parts fm fv l) as (_ & D2 & D3). unfold dvar_variance. rewrite D2, D3, (norm_positive fv fvv l lv FV len NE).
  pose proof (ratio_q fv fvv (4 * (M * M)) (72 * a) _ _ FV U2 ltac:(lra) ltac:(lra) (fdevs_ne _) (sqs_q l lv V HM)) as Q.
  rewrite map_map in Q. rewrite (ones_devs (dmean_init F fm) l) in Q. fold b in Q. eapply (q_weaken AP); [exact Q|lra].
Qed.

Lemma rho_ge : / 4 <= rho /\ 0 < M * M.
Proof.
  destruct var_q as (H & _). rewrite Rabs_pos_eq in H by lra. destruct SM as (M0 & _).
  assert (0 < M * M) by (apply Rmult_lt_0_compat; exact M0). split; [|assumption].
  unfold rho. apply Rmult_le_reg_r with v; [exact v0|]. replace (M * M / v * v) with (M * M) by (field; lra). lra.
Qed.

Lemma A_ge : 62 * b + 79 * a <= A /\ 141 <= A /\ 0 <= A * e /\ 1 <= a /\ 1 <= b /\ 8192 * (a * e) <= 1 /\ 8192 * (b * e) <= 1.
Proof.
  destruct (fac_inv _ _ FM) as (_ & Ha & Hae & _). fold a in Ha, Hae. destruct (fac_inv _ _ FV) as (_ & Hb & Hbe & _). fold b in Hb, Hbe.
  destruct rho_ge as (R & _). pose proof He as [E0 _].
  assert (62 * b + 79 * a <= A).
  { unfold A. replace (4 * (62 * b + 79 * a) * rho) with ((62 * b + 79 * a) * (4 * rho)) by ring. rewrite <- (Rmult_1_r (62 * b + 79 * a)) at 1.
    apply Rmult_le_compat_l; lra. }
  repeat split; try assumption; try lra. apply Rmult_le_pos; lra.
Qed.

Lemma var_rel : q (dvar_variance F (fold_left (dvar_push F) l (dvar_init F fm fv))) v v A.
Proof.
  destruct var_q as (_ & r & Vr & Er). split; [rewrite Rabs_pos_eq; lra|]. exists r. split; [exact Vr|]. eapply Rle_trans; [exact Er|].
  right. unfold A, rho. field. lra.
Qed.

Hypothesis TV : 16 * t <= e * sqrt v /\ 16 * t <= e * (v * sqrt v) /\ 16 * t <= e * (v * v) /\ 16 * t <= e * phi.
Hypothesis BV : 2 * sqrt v <= B /\ 2 * (v * sqrt v) <= B /\ 2 * (v * v) <= B.

Lemma sqrt_var : q (nsqrt (dvar_variance F (fold_left (dvar_push F) l (dvar_init F fm fv)))) (sqrt v) (sqrt v) (A + 5 / 4).
Proof.
  destruct A_ge as (_ & A1 & A2 & _). pose proof He as [E0 _].
  destruct var_rel as (_ & r & Vr & Er).
  assert (Hr : 0 <= r).
  { assert (A * (e * v) <= / 256 * v) by (rewrite <- Rmult_assoc; apply Rmult_le_compat_r; lra). apply Rabs_le_inv in Er. lra. }
  pose proof (sqrt_lt_R0 v v0) as SP. destruct TV as (T1 & _). destruct BV as (B1 & _).
  apply (q_round AP (sqrt r) _ _ _ A); try assumption; [rewrite Rabs_pos_eq; lra| |lra| |lra].
  - eapply Rle_trans; [apply (sqrt_close r v _ v0 Hr Er)|]. right. rewrite <- (sqrt_sqrt v) at 1 by lra. field. lra.
  - intros _. apply ap_sqrt; assumption.
Qed.

Lemma var_cut r : val (dvar_variance F (fold_left (dvar_push F) l (dvar_init F fm fv))) r ->
  (65 / 64 * ep <= v -> 0 < ep -> nlt neps (dvar_variance F (fold_left (dvar_push F) l (dvar_init F fm fv))) = true) /\
  (v <= 63 / 64 * ep -> nlt neps (dvar_variance F (fold_left (dvar_push F) l (dvar_init F fm fv))) = false).
Proof.
  intros _. destruct var_rel as (_ & w & Vw & Ew). rewrite (ap_lt _ _ _ _ _ _ AP _ _ _ _ Veps Vw).
  assert (A * (e * v) <= / 256 * v) by (rewrite <- Rmult_assoc; apply Rmult_le_compat_r; lra). apply Rabs_le_inv in Ew.
  split; [intros H1 H2; apply Rlt_bool_true; lra|intros H1; apply Rlt_bool_false; lra].
Qed.

(** Division of a moment by a power [Y] of the variance, then by the norm. *)
Lemma stat_q f fr U c ps Xs D y Y Z : fac f fr -> sz U -> 0 <= c -> c <= 148 * a -> ps <> [] -> length Xs = length lv ->
  Forall2 (fun p X => q p X U c) ps Xs ->
  q y Y Y D -> D = 33 / 16 * A + 5 / 2 -> 0 < Y -> Z = U / Y -> / 4 <= Z -> 2 * Z <= B ->
  q (ndiv (ndiv (blend f ps) y) (blend f (map (fun _ => n1) l))) (ewma fr Xs / Y) Z (64 * / fr + 256 / 225 * c + 47 / 20 * A + 11 / 2).
Proof.
  intros HF SU C0 C1 NEp LX H Qy DD Y0 ZE Z4 ZB. destruct A_ge as (A1 & A2 & A3 & Ha & Hb & Hae & Hbe).
  destruct (fac_inv _ _ HF) as (Hf & Hc & Hce & Hp). pose proof He as [E0 E1]. pose proof Ht as T0.
  assert (ce : 0 <= c * e <= 148 * (a * e)).
  { split; [apply Rmult_le_pos; lra|]. rewrite <- Rmult_assoc. apply Rmult_le_compat_r; lra. }
  pose proof (blend_q f fr U c ps Xs HF SU C0 ltac:(lra) NEp H) as Q. rewrite LX in Q.
  destruct (norm_q f fr l lv HF len NE) as (N & NR & N1). set (nr := nrm fr (length lv)) in *.
  pose proof SU as (U0 & _).
  assert (NEX : Xs <> []) by (intros E; rewrite E, <- len in LX; destruct l; [contradiction|discriminate]).
  rewrite <- (ewma_nrm fr Xs Hf NEX), LX. fold nr.
  assert (ZU : Z * Y = U) by (rewrite ZE; field; lra).
  destruct TV as (_ & _ & _ & T4).
  assert (Q1 : q (ndiv (blend f ps) y) (fr * esum (1 - fr) Xs / Y) (Z * nr) (16 / 15 * (29 * / fr + c + D) + 5 / 4)).
  { eapply (q_div AP _ _ _ _ _ _ _ (Z * nr)); [exact Q|exact Qy|exact Y0|lra|lra| | | | apply Rle_refl| | | |].
    - rewrite DD. lra.
    - destruct Q as (Q & _). replace (Z * nr * Y) with (U * nr) by (rewrite <- ZU; ring). exact Q.
    - apply Rmult_le_pos; lra.
    - right. replace (U * nr / Y) with (Z * nr) by (rewrite ZE; field; lra). ring.
    - replace (16 * ((16 / 15 * (29 * / fr + c + D) + 5 / 4 - 5 / 4) * e)) with (256 / 15 * (29 * (/ fr * e) + c * e + D * e)) by (field; lra).
      assert (D * e = 33 / 16 * (A * e) + 5 / 2 * e) by (rewrite DD; ring). lra.
    - destruct S1 as (_ & _ & S1'). assert (phi * / 4 <= Z * nr) by (rewrite (Rmult_comm Z); apply Rmult_le_compat; lra).
      assert (e * (phi * / 4) <= e * (Z * nr)) by (apply Rmult_le_compat_l; lra). lra.
    - assert (Z * nr <= Z * 1) by (apply Rmult_le_compat_l; lra). lra. }
  replace (fr * esum (1 - fr) Xs / nr / Y) with (fr * esum (1 - fr) Xs / Y / nr) by (field; lra).
  eapply (q_div AP _ _ _ _ _ _ _ Z); [exact Q1|exact N|lra| |lra|lra| |lra|apply Rle_refl| | | |exact ZB].
  - rewrite DD. lra.
  - destruct Q1 as (Q1 & _). exact Q1.
  - replace (Z * nr / nr) with Z by (field; lra).
    replace (((16 / 15 * (29 * / fr + c + D) + 5 / 4) * Z + 29 * / fr * Z) * (16 / 15)) with (((16 / 15 * (29 * / fr + c + D) + 5 / 4) + 29 * / fr) * (16 / 15) * Z) by ring.
    apply Rmult_le_compat_r; [lra|]. rewrite DD. lra.
  - replace (16 * ((64 * / fr + 256 / 225 * c + 47 / 20 * A + 11 / 2 - 5 / 4) * e)) with
      (16 * (64 * (/ fr * e) + 256 / 225 * (c * e) + 47 / 20 * (A * e) + 17 / 4 * e)) by (field; lra). lra.
  - assert (e * (phi * / 4) <= e * Z). { apply Rmult_le_compat_l; [lra|]. assert (phi <= 1) by lra. lra. } 
    destruct S1 as (_ & _ & S1'). lra.
Qed.

Lemma decay_skewness_acc fs fsv : fac fs fsv -> 0 < ep -> 65 / 64 * ep <= v -> 16 * (M * (M * M)) / (v * sqrt v) <= B ->
  exists r, val (dskew_skewness F (fold_left (dskew_push F) l (dskew_init F fm fv fs))) r /\
    Rabs (r - emoment 3 fmv fsv lv / (v * sqrt v)) <=
      (10200 * a + 4700 * b + 2100 * / fsv) * rho * (e * (M * (M * M) / (v * sqrt v))).
Proof.
  intros FS E0 Hv HB. destruct A_ge as (A1 & A2 & A3 & Ha & Hb & Hae & Hbe). destruct rho_ge as (R4 & MM).
  destruct (fac_inv _ _ FS) as (Hf & Hc & Hce & _). pose proof SM as (M0 & _). pose proof (sqrt_lt_R0 v v0) as SP.
  assert (Y0 : 0 < v * sqrt v) by (apply Rmult_lt_0_compat; lra).
  destruct (dskew_parts fm fv fs l) as (_ & D2 & D3). pose proof (dskew_super fm fv fs l) as DS.
  unfold dskew_skewness. rewrite D2, D3, DS, (norm_positive fs fsv l lv FS len NE).
  destruct var_rel as (_ & w & Vw & _). destruct (var_cut w Vw) as (VC & _). rewrite VC by assumption.
  destruct TV as (T1 & T2 & T3 & T4). destruct BV as (B1 & B2 & B3).
  assert (QY : q (nmul (dvar_variance F (fold_left (dvar_push F) l (dvar_init F fm fv))) (nsqrt (dvar_variance F (fold_left (dvar_push F) l (dvar_init F fm fv)))))
    (v * sqrt v) (v * sqrt v) (33 / 16 * A + 5 / 2)).
  { pose proof He as [X _]. assert (e <= a * e) by (rewrite <- (Rmult_1_l e) at 1; apply Rmult_le_compat_r; lra).
    eapply (q_mulr AP); [exact var_rel|exact sqrt_var|lra|lra| | |exact T2|exact B2|lra].
    - replace (16 * ((A + 5 / 4) * e)) with (16 * (A * e) + 20 * e) by field. lra.
    - replace (16 * ((17 / 16 * A + (A + 5 / 4)) * e)) with (33 * (A * e) + 20 * e) by field. lra. }
  pose (Z := 8 * (M * (M * M)) / (v * sqrt v)).
  assert (Z1 : / 4 <= Z).
  { unfold Z. apply Rmult_le_reg_r with (v * sqrt v); [exact Y0|].
    replace (8 * (M * (M * M)) / (v * sqrt v) * (v * sqrt v)) with (8 * (M * (M * M))) by (field; lra).
    assert (VM : v <= 4 * (M * M)). { destruct var_q as (H & _). rewrite Rabs_pos_eq in H by lra. exact H. }
    assert (SV : sqrt v <= 2 * M).
    { replace (2 * M) with (sqrt ((2 * M) * (2 * M))) by (apply sqrt_square; lra). apply sqrt_le_1; lra. }
    assert (v * sqrt v <= 4 * (M * M) * (2 * M)) by (apply Rmult_le_compat; lra). lra. }
  pose proof (stat_q fs fsv (8 * (M * (M * M))) (110 * a) _ _ _ _ _ Z FS U3 ltac:(lra) ltac:(lra) (fdevs_ne _) (len_devs _) (cubes_q l lv V HM) QY eq_refl Y0 eq_refl Z1) as Q.
  destruct Q as (_ & r & Vr & Er). { unfold Z. lra. }
  exists r. split; [exact Vr|]. fold (emoment 3 fmv fsv lv) in Er. eapply Rle_trans; [exact Er|].
  set (k := M * (M * M) / (v * sqrt v)) in *. assert (EZ : Z = 8 * k) by (unfold Z, k; field; lra). rewrite EZ in *.
  pose proof He as [X _]. replace (e * (8 * k)) with (8 * (e * k)) by ring.
  assert (0 <= e * k) by (apply Rmult_le_pos; lra). rewrite <- Rmult_assoc. apply Rmult_le_compat_r; [assumption|].
  unfold A.
  assert (R1 : forall x, 0 <= x -> x <= 4 * (x * rho)) by (intros x Hx; nra).
  pose proof (R1 a ltac:(lra)). pose proof (R1 (/ fsv) ltac:(lra)).
  replace ((10200 * a + 4700 * b + 2100 * / fsv) * rho) with (10200 * (a * rho) + 4700 * (b * rho) + 2100 * (/ fsv * rho)) by ring.
  replace (4 * (62 * b + 79 * a) * rho) with (248 * (b * rho) + 316 * (a * rho)) by ring.
  assert (0 <= b * rho) by (apply Rmult_le_pos; lra). lra.
Qed.

Lemma decay_skewness_zero fs fsv : fac fs fsv -> v <= 63 / 64 * ep ->
  dskew_skewness F (fold_left (dskew_push F) l (dskew_init F fm fv fs)) = n0.
Proof.
  intros FS Hv.
  destruct (dskew_parts fm fv fs l) as (_ & D2 & D3). pose proof (dskew_super fm fv fs l) as DS.
  unfold dskew_skewness. rewrite D3, DS, (norm_positive fs fsv l lv FS len NE).
  destruct var_rel as (_ & w & Vw & _). destruct (var_cut w Vw) as (_ & VC). rewrite VC by assumption. reflexivity.
Qed.

Lemma decay_kurtosis_acc fs fk fkv : fac fk fkv -> 0 < ep -> 65 / 64 * ep <= v -> 32 * (M * M * (M * M)) / (v * v) <= B ->
  exists r, val (dkurt_kurtosis F (fold_left (dkurt_push F) l (dkurt_init F fm fv fs fk))) r /\
    Rabs (r - emoment 4 fmv fkv lv / (v * v)) <=
      (23100 * a + 9400 * b + 4100 * / fkv) * rho * (e * (M * M * (M * M) / (v * v))).
Proof.
  intros FK E0 Hv HB. destruct A_ge as (A1 & A2 & A3 & Ha & Hb & Hae & Hbe). destruct rho_ge as (R4 & MM).
  destruct (fac_inv _ _ FK) as (Hf & Hc & Hce & _). pose proof SM as (M0 & _).
  assert (Y0 : 0 < v * v) by (apply Rmult_lt_0_compat; lra).
  destruct (dkurt_parts fm fv fs fk l) as (_ & D2 & D3). pose proof (dkurt_super fm fv fs fk l) as DK. pose proof (dskew_super fm fv fs l) as DS.
  unfold dkurt_kurtosis, dskew_variance. rewrite D2, D3, DK, DS, (norm_positive fk fkv l lv FK len NE).
  destruct var_rel as (_ & w & Vw & _). destruct (var_cut w Vw) as (VC & _). rewrite VC by assumption.
  destruct TV as (T1 & T2 & T3 & T4). destruct BV as (B1 & B2 & B3).
  assert (QY : q (nmul (dvar_variance F (fold_left (dvar_push F) l (dvar_init F fm fv))) (dvar_variance F (fold_left (dvar_push F) l (dvar_init F fm fv))))
    (v * v) (v * v) (33 / 16 * A + 5 / 2)).
  { eapply (q_mulr AP); [exact var_rel|exact var_rel|lra|lra|lra|lra|exact T3|exact B3|lra]. }
  pose (Z := 16 * (M * M * (M * M)) / (v * v)).
  assert (Z1 : / 4 <= Z).
  { unfold Z. apply Rmult_le_reg_r with (v * v); [exact Y0|].
    replace (16 * (M * M * (M * M)) / (v * v) * (v * v)) with (16 * (M * M * (M * M))) by (field; lra).
    assert (VM : v <= 4 * (M * M)). { destruct var_q as (H & _). rewrite Rabs_pos_eq in H by lra. exact H. }
    assert (v * v <= 4 * (M * M) * (4 * (M * M))) by (apply Rmult_le_compat; lra). lra. }
  pose proof (stat_q fk fkv (16 * (M * M * (M * M))) (148 * a) _ _ _ _ _ Z FK U4 ltac:(lra) ltac:(lra) (fdevs_ne _) (len_devs _) (fourths_q l lv V HM) QY eq_refl Y0 eq_refl Z1) as Q.
  destruct Q as (_ & r & Vr & Er). { unfold Z. lra. }
  exists r. split; [exact Vr|]. fold (emoment 4 fmv fkv lv) in Er. eapply Rle_trans; [exact Er|].
  set (k := M * M * (M * M) / (v * v)) in *. assert (EZ : Z = 16 * k) by (unfold Z, k; field; lra). rewrite EZ in *.
  pose proof He as [X _]. replace (e * (16 * k)) with (16 * (e * k)) by ring.
  assert (0 <= e * k) by (apply Rmult_le_pos; lra). rewrite <- Rmult_assoc. apply Rmult_le_compat_r; [assumption|].
  unfold A.
  assert (R1 : forall x, 0 <= x -> x <= 4 * (x * rho)) by (intros x Hx; nra).
  pose proof (R1 a ltac:(lra)). pose proof (R1 (/ fkv) ltac:(lra)).
  replace ((23100 * a + 9400 * b + 4100 * / fkv) * rho) with (23100 * (a * rho) + 9400 * (b * rho) + 4100 * (/ fkv * rho)) by ring.
  replace (4 * (62 * b + 79 * a) * rho) with (248 * (b * rho) + 316 * (a * rho)) by ring.
  assert (0 <= b * rho) by (apply Rmult_le_pos; lra). lra.
Qed.

Lemma decay_kurtosis_zero fs fk fkv : fac fk fkv -> v <= 63 / 64 * ep ->
  dkurt_kurtosis F (fold_left (dkurt_push F) l (dkurt_init F fm fv fs fk)) = n0.
Proof.
  intros FK Hv.
  destruct (dkurt_parts fm fv fs fk l) as (_ & D2 & D3). pose proof (dkurt_super fm fv fs fk l) as DK. pose proof (dskew_super fm fv fs l) as DS.
  unfold dkurt_kurtosis, dskew_variance. rewrite D3, DK, DS, (norm_positive fk fkv l lv FK len NE).
  destruct var_rel as (_ & w & Vw & _). destruct (var_cut w Vw) as (_ & VC). rewrite VC by assumption. reflexivity.
Qed.

End Data.
End DecayHigher.
