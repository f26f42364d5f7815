(** * Error bound for the trend *)

From Coq Require Import Reals ZArith NArith Bool List Lra Lia Psatz.
From Flocq Require Import Core.
From Verif Require Import Arith History HistoryLemmas SpecStats StatsLemmas Buffer Cumulative CumulativeProofs
  Approx SpecError AccuracyProofs AccuracyRegression.
Import ListNotations.
Local Open Scope R_scope.

Section Trend.
Context {F : num} {val : F -> R -> Prop} {B e t : R} {K : N}.
Hypothesis AP : approx F val B e t K.
Hypothesis two : val (nofz 2) 2.

Local Notation He := (ap_e _ _ _ _ _ _ AP).
Local Notation Ht := (ap_t _ _ _ _ _ _ AP).

(** The means computed along the way. *)
Fixpoint cmeans (s : cmean F) (l : list F) : list F :=
  match l with
  | [] => []
  | x :: l' => cm_mean F (cmean_push F s x) :: cmeans (cmean_push F s x) l'
  end.

Lemma cmeans_snoc l : forall s x,
  cmeans s (l ++ [x]) = cmeans s l ++ [cm_mean F (fold_left (cmean_push F) (l ++ [x]) s)].
Proof. induction l as [|y l IH]; intros s x; cbn; [reflexivity|]. rewrite IH. reflexivity. Qed.

Lemma cmeans_length l : forall s, length (cmeans s l) = length l.
Proof. induction l as [|y l IH]; intros s; cbn; [reflexivity|]. rewrite IH. reflexivity. Qed.

Lemma ctrend_fold l : forall s,
  fold_left (ctrend_push F) l s =
  CTrend F (fold_left (cmean_push F) l (ct_center F s)) (fold_left (cmean_push F) (cmeans (ct_center F s) l) (ct_grand F s)).
Proof. induction l as [|x l IH]; intros s; cbn; [destruct s; reflexivity|]. rewrite IH. reflexivity. Qed.

Variable M : R.
Hypothesis M0 : 0 <= M.

Definition terr (n : R) : R := (n + 25) * e * M + (3 * n + 11) * t.

Lemma eM_pos : 0 <= e * M.
Proof. pose proof He. apply Rmult_le_pos; lra. Qed.

Lemma terr_mono n m : n <= m -> terr n <= terr m.
Proof.
  intros H. pose proof eM_pos. pose proof Ht. unfold terr.
  assert (n * (e * M) <= m * (e * M)) by (apply Rmult_le_compat_r; lra).
  assert (n * t <= m * t) by (apply Rmult_le_compat_r; lra). lra.
Qed.

Lemma mean_close (E : R) l lv : length l = length lv -> l <> [] ->
  Forall2 (fun a b => Rabs (a - b) <= E) l lv -> Rabs (mean l - mean lv) <= E.
Proof.
  intros HL NE H. unfold mean, card. rewrite HL.
  assert (P : 0 < INR (length lv)) by (rewrite <- HL; apply lt_0_INR; destruct l; [contradiction|cbn; lia]).
  replace (Rsum l / INR (length lv) - Rsum lv / INR (length lv)) with ((Rsum l - Rsum lv) * / INR (length lv)) by (field; lra).
  rewrite Rabs_mult, (Rabs_pos_eq (/ _)) by (left; apply Rinv_0_lt_compat; exact P).
  assert (G : Rabs (Rsum l - Rsum lv) <= E * INR (length lv)).
  { clear HL NE P. induction H as [|a b l lv Hab H IH]; cbn [Rsum length].
    - change (Rabs (0 - 0) <= E * INR 0). rewrite Rminus_0_r, Rabs_R0. cbn. lra.
    - rewrite S_INR. change (Rsum (a :: l)) with (a + Rsum l). change (Rsum (b :: lv)) with (b + Rsum lv).
      replace (a + Rsum l - (b + Rsum lv)) with ((a - b) + (Rsum l - Rsum lv)) by ring.
      eapply Rle_trans; [apply Rabs_triang|]. lra. }
  apply (Rmult_le_compat_r (/ INR (length lv))) in G; [|left; apply Rinv_0_lt_compat; exact P].
  eapply Rle_trans; [exact G|]. right. field. lra.
Qed.

(** Every mean computed along the way is close to the running mean. *)
Lemma cmeans_accuracy l : forall lv, Forall2 val l lv -> Forall (fun x => Rabs x <= M) lv ->
  (N.of_nat (length l) <= K)%N -> (N.of_nat (length l) < szmod)%N ->
  16 * INR (length l) * e <= 1 -> 16 * M + 60 * INR (length l) * t <= B ->
  exists rs, Forall2 val (cmeans (cmean_init F) l) rs /\
    Forall2 (fun a b => Rabs (a - b) <= terr (INR (length l))) rs (running_means lv).
Proof.
  pose proof He as [E0 _]. pose proof Ht as T0.
  induction l as [|x l IH] using rev_ind; intros lv V HM HK HS H16 HB.
  - inversion V; subst. exists []. split; constructor.
  - apply Forall2_app_inv_l in V. destruct V as (l1 & l2 & V1 & V2 & ->).
    inversion V2 as [|? xv ? l0 Vx V0]; subst. inversion V0; subst. clear V2 V0.
    assert (HL : INR (length l) <= INR (length (l ++ [x]))) by (apply le_INR; rewrite app_length; lia).
    pose proof (pos_INR (length l)) as NP.
    destruct (IH l1 V1) as (rs & R1 & R2).
    + apply Forall_app in HM. tauto.
    + rewrite app_length in HK. cbn in HK. lia.
    + rewrite app_length in HS. cbn in HS. lia.
    + assert (INR (length l) * e <= INR (length (l ++ [x])) * e) by (apply Rmult_le_compat_r; lra). lra.
    + assert (INR (length l) * t <= INR (length (l ++ [x])) * t) by (apply Rmult_le_compat_r; lra). lra.
    + assert (V' : Forall2 val (l ++ [x]) (l1 ++ [xv])) by (apply Forall2_app; [exact V1|constructor; [exact Vx|constructor]]).
      destruct (cmean_accuracy AP M M0 (l ++ [x]) (l1 ++ [xv]) V' HM) as (r & Vr & Hr); try assumption.
      { destruct l; discriminate. }
      exists (rs ++ [r]). rewrite cmeans_snoc, running_means_snoc. split.
      * apply Forall2_app; [exact R1|]. constructor; [exact Vr|constructor].
      * apply Forall2_app; [|constructor; [exact Hr|constructor]].
        clear - R2 HL M0 AP. revert R2. generalize (running_means l1). intros ms R2.
        induction R2 as [|a b rs ms H R2 IH2]; constructor; [|exact IH2].
        eapply Rle_trans; [exact H|]. apply terr_mono; exact HL.
Qed.

Lemma running_means_abs l : Forall (fun x => Rabs x <= M) l -> Forall (fun x => Rabs x <= M) (running_means l).
Proof.
  induction l as [|x l IH] using rev_ind; intros H; [constructor|].
  rewrite running_means_snoc. apply Forall_app. split.
  - apply IH. apply Forall_app in H. tauto.
  - constructor; [|constructor]. apply mean_abs; [destruct l; discriminate|exact H].
Qed.

Lemma ctrend_accuracy l lv : Forall2 val l lv -> Forall (fun x => Rabs x <= M) lv -> l <> [] ->
  (N.of_nat (length l) <= K)%N -> (N.of_nat (length l) < szmod)%N ->
  16 * INR (length l) * e <= 1 -> 48 * M + 284 * INR (length l) * t <= B ->
  exists r, val (ctrend_value F (fold_left (ctrend_push F) l (ctrend_init F))) r /\
    Rabs (r - (3 * mean lv - 2 * mean (running_means lv))) <= 13 * terr (INR (length l)).
Proof.
  intros V HM NE HK HS H16 HB. pose proof He as [E0 E1]. pose proof Ht as T0. pose proof eM_pos as EM.
  pose proof (forall2_len _ _ _ V) as LV.
  assert (NEV : lv <> []) by (destruct l, lv; cbn in LV; congruence).
  assert (NER : running_means lv <> []).
  { intros Z. apply (f_equal (@length R)) in Z. rewrite running_means_length, <- LV in Z. destruct l; [contradiction|discriminate]. }
  assert (P : 1 <= INR (length l)).
  { destruct (inr_cases (length l)) as [Z|P]; [|exact P]. destruct l; [contradiction|].
    change (length (c :: l)) with (S (length l)) in Z. rewrite S_INR in Z. pose proof (pos_INR (length l)). lra. }
  set (n := INR (length l)) in *.
  assert (NT : t <= n * t) by (rewrite <- (Rmult_1_l t) at 1; apply Rmult_le_compat_r; lra).
  assert (NE' : e <= n * e) by (rewrite <- (Rmult_1_l e) at 1; apply Rmult_le_compat_r; lra).
  set (E := terr n).
  assert (EL : 26 * (e * M) + 14 * t <= E).
  { unfold E, terr. assert (e * M <= n * (e * M)) by (rewrite <- (Rmult_1_l (e * M)) at 1; apply Rmult_le_compat_r; lra). lra. }
  assert (EP : 0 <= E) by lra.
  assert (EU : E <= 2 * M + 14 * (n * t)).
  { unfold E, terr. assert ((n + 25) * e * M <= 2 * M) by (apply Rmult_le_compat_r; lra). lra. }
  assert (EE : e * E <= / 16 * E) by (apply Rmult_le_compat_r; lra).
  assert (NEE : (n + 25) * e * E <= 26 / 16 * E) by (apply Rmult_le_compat_r; lra).
  destruct (cmean_accuracy AP M M0 l lv V HM NE HK HS H16) as (c & Vc & Hc); [fold n; lra|]. fold n in Hc. fold (terr n) in Hc. fold E in Hc.
  destruct (cmeans_accuracy l lv V HM HK HS H16) as (rs & VR & HR); [fold n; lra|]. fold n in HR. fold E in HR.
  pose proof (running_means_abs lv HM) as RA.
  assert (RB : Forall (fun x => Rabs x <= M + E) rs).
  { clear - HR RA. revert RA. induction HR as [|a b rs ms Hab H IH]; intros RA; constructor.
    - inversion RA; subst. pose proof (close_abs _ _ _ Hab). lra.
    - apply IH. inversion RA; assumption. }
  assert (LR : length rs = length l) by (rewrite <- (forall2_len _ _ _ VR); apply cmeans_length).
  destruct (cmean_accuracy AP (M + E) ltac:(lra) (cmeans (cmean_init F) l) rs VR RB) as (g & Vg & Hg);
    try rewrite cmeans_length; try assumption.
  { intros Z. apply (f_equal (@length F)) in Z. rewrite cmeans_length in Z. destruct l; [contradiction|discriminate]. }
  { fold n. lra. }
  rewrite cmeans_length in Hg. fold n in Hg.
  pose proof (mean_close E rs (running_means lv) (forall2_len _ _ _ HR)) as Hm.
  specialize (Hm ltac:(intros Z; subst; destruct l; [contradiction|discriminate]) HR).
  pose proof (mean_abs M lv NEV HM) as Ac. pose proof (mean_abs M _ NER RA) as Ag.
  set (mc := mean lv) in *. set (mg := mean (running_means lv)) in *.
  assert (Hg' : Rabs (g - mg) <= 58 / 16 * E).
  { replace (g - mg) with ((g - mean rs) + (mean rs - mg)) by ring. eapply Rle_trans; [apply Rabs_triang|].
    assert ((n + 25) * e * (M + E) + (3 * n + 11) * t <= E + 26 / 16 * E).
    { replace ((n + 25) * e * (M + E) + (3 * n + 11) * t) with (terr n + (n + 25) * e * E) by (unfold terr; ring).
      fold E. lra. }
    lra. }
  assert (AX : Rabs (mc - mg) <= 2 * M).
  { unfold Rminus. eapply Rle_trans; [apply Rabs_triang|]. rewrite Rabs_Ropp. lra. }
  destruct (sub_err AP _ _ _ _ mc mg E (58 / 16 * E) Vc Vg Hc Hg') as (d & Vd & Hd); [lra|].
  assert (Hd' : Rabs (d - (mc - mg)) <= 5 * E).
  { eapply Rle_trans; [exact Hd|]. unfold slack.
    assert (e * Rabs (mc - mg) <= e * (2 * M)) by (apply Rmult_le_compat_l; lra). lra. }
  destruct (mul_err AP _ _ _ _ 2 (mc - mg) 0 (5 * E) two Vd) as (p & Vp & Hp).
  { replace (2 - 2) with 0 by ring. rewrite Rabs_R0. lra. }
  { exact Hd'. }
  { unfold merr2. rewrite Rabs_mult, (Rabs_pos_eq 2) by lra. lra. }
  assert (Hp' : Rabs (p - 2 * (mc - mg)) <= 11 * E).
  { eapply Rle_trans; [exact Hp|]. unfold slack, merr2. rewrite Rabs_mult, (Rabs_pos_eq 2) by lra.
    assert (e * Rabs (mc - mg) <= e * (2 * M)) by (apply Rmult_le_compat_l; lra). lra. }
  assert (Hs : Rabs ((c + p) - (3 * mc - 2 * mg)) <= 12 * E).
  { replace ((c + p) - (3 * mc - 2 * mg)) with ((c - mc) + (p - 2 * (mc - mg))) by ring.
    eapply Rle_trans; [apply Rabs_triang|]. lra. }
  assert (A3 : Rabs (3 * mc - 2 * mg) <= 5 * M).
  { replace (3 * mc - 2 * mg) with (mc + 2 * (mc - mg)) by ring. eapply Rle_trans; [apply Rabs_triang|].
    rewrite Rabs_mult, (Rabs_pos_eq 2) by lra. lra. }
  pose proof (close_abs _ _ _ Hs) as As.
  destruct (ap_add _ _ _ _ _ _ AP _ _ _ _ Vc Vp) as (r & Vr & Hr); [lra|].
  exists r. split.
  - rewrite ctrend_fold. exact Vr.
  - unfold near in Hr. replace (r - (3 * mc - 2 * mg)) with ((r - (c + p)) + ((c + p) - (3 * mc - 2 * mg))) by ring.
    eapply Rle_trans; [apply Rabs_triang|].
    assert (e * Rabs (c + p) <= e * (5 * M + 12 * E)) by (apply Rmult_le_compat_l; lra). lra.
Qed.

End Trend.
