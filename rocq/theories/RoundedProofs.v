(** * Proofs about rounded arithmetic *)

From Coq Require Import Reals ZArith NArith Bool List Lia Lra Psatz.
From Flocq Require Import Core.
From Verif Require Import Arith History HistoryLemmas Cumulative CumulativeProofs Rounded ExactRuns.
Import ListNotations.
Local Open Scope R_scope.

Section Format.
Variables emin prec : Z.
Context {prec_gt_0_ : Prec_gt_0 prec}.
Hypothesis emin_le_0 : (emin <= 0)%Z.
Notation fexp := (FLT_exp emin prec).
Notation fmt := (generic_format radix2 fexp).

Lemma representable_fmt x : representable emin prec x <-> fmt x.
Proof.
  split; [apply generic_format_FLT|apply FLT_format_generic]; exact prec_gt_0_.
Qed.

Lemma fmt_double x : fmt x -> fmt (x * 2).
Proof.
  intros H. apply FLT_format_generic in H; [|exact prec_gt_0_].
  destruct H as [f Hf Hm He]. apply generic_format_FLT.
  apply (FLT_spec _ _ _ _ (Float radix2 (Fnum f) (Fexp f + 1))); cbn [Fnum Fexp]; [|exact Hm|lia].
  rewrite Hf. unfold F2R. cbn [Fnum Fexp]. rewrite bpow_plus. change (bpow radix2 1) with 2. ring.
Qed.

Lemma fmt_1 : fmt 1.
Proof. change 1 with (bpow radix2 0). apply generic_format_FLT_bpow; [exact prec_gt_0_|exact emin_le_0]. Qed.

Lemma fmt_2 : fmt 2.
Proof. replace 2 with (1 * 2) by ring. apply fmt_double. apply fmt_1. Qed.

(** The difference of two distinct format numbers is at least 2^emin. *)
Lemma fmt_gap x m : fmt x -> fmt m -> m < x -> bpow radix2 emin <= x - m.
Proof.
  intros Hx Hm L.
  apply generic_format_FIX_FLT in Hx. apply generic_format_FIX_FLT in Hm.
  apply FIX_format_generic in Hx. apply FIX_format_generic in Hm.
  destruct Hx as [[a ea] Ea Fa]. destruct Hm as [[b eb] Eb Fb]. cbn in Fa, Fb. subst ea eb.
  rewrite Ea, Eb in *. unfold F2R in *. cbn [Fnum Fexp] in *.
  assert (Hab : (b < a)%Z).
  { apply lt_IZR. apply Rmult_lt_reg_r with (bpow radix2 emin); [apply bpow_gt_0|exact L]. }
  assert (1 <= IZR a - IZR b). { rewrite <- minus_IZR. apply IZR_le. lia. }
  pose proof (bpow_gt_0 radix2 emin). nra.
Qed.

Section Mode.
Variable mode : R -> Z.
Context {valid_mode : Valid_rnd mode}.
Notation rnd := (rounding emin prec mode).

Lemma rnd_mono x y : x <= y -> rnd x <= rnd y.
Proof. apply round_le; [apply FLT_exp_valid; exact prec_gt_0_|exact valid_mode]. Qed.
Lemma rnd_fix x : fmt x -> rnd x = x.
Proof. apply round_generic. exact valid_mode. Qed.
Lemma rnd_fmt x : fmt (rnd x).
Proof. apply generic_format_round; [apply FLT_exp_valid; exact prec_gt_0_|exact valid_mode]. Qed.
Lemma rnd_zero : rnd 0 = 0.
Proof. apply round_0. exact valid_mode. Qed.
Lemma rnd_pos x : 0 <= x -> 0 <= rnd x.
Proof. intros H. rewrite <- rnd_zero. apply rnd_mono. exact H. Qed.
Lemma rnd_neg x : x <= 0 -> rnd x <= 0.
Proof. intros H. rewrite <- rnd_zero. apply rnd_mono. exact H. Qed.
Lemma rnd_ge1 x : 1 <= x -> 1 <= rnd x.
Proof. intros H. rewrite <- (rnd_fix 1 fmt_1). apply rnd_mono. exact H. Qed.
Lemma rnd_ge2 x : 2 <= x -> 2 <= rnd x.
Proof. intros H. rewrite <- (rnd_fix 2 fmt_2). apply rnd_mono. exact H. Qed.

(** One step of the running mean moves towards the new value but not past it. *)
Lemma step_up m x c : fmt m -> fmt x -> m <= x -> 2 <= c ->
  m <= rnd (m + rnd (rnd (x - m) / c)) <= x.
Proof.
  intros Hm Hx L Hc. destruct (Req_dec m x) as [E|NE].
  - subst m. rewrite Rminus_diag_eq, rnd_zero by reflexivity.
    replace (0 / c) with 0 by (field; lra). rewrite rnd_zero, Rplus_0_r, rnd_fix by exact Hx. lra.
  - assert (LT : m < x) by lra.
    set (y := x - m). assert (Y0 : bpow radix2 emin <= y) by (apply fmt_gap; assumption).
    pose proof (bpow_gt_0 radix2 emin) as B0.
    set (yd := round radix2 fexp Zfloor y).
    assert (Yd : bpow radix2 emin <= yd).
    { unfold yd. rewrite <- (round_generic radix2 fexp Zfloor (bpow radix2 emin)).
      - apply round_le; [apply FLT_exp_valid; exact prec_gt_0_|apply valid_rnd_DN|exact Y0].
      - apply generic_format_FLT_bpow; [exact prec_gt_0_|lia]. }
    assert (Yle : yd <= y).
    { apply round_DN_pt. apply FLT_exp_valid. exact prec_gt_0_. }
    assert (Fyd : fmt yd).
    { apply generic_format_round; [apply FLT_exp_valid; exact prec_gt_0_|apply valid_rnd_DN]. }
    assert (Y2 : y <= yd * 2).
    { assert (U : ulp radix2 fexp yd <= yd).
      { apply ulp_le_id; [lra|exact Fyd]. }
      assert (U' : ulp radix2 fexp yd = ulp radix2 fexp y).
      { apply ulp_DN; try exact _. fold yd; lra. }
      assert (Er : Rabs (yd - y) < ulp radix2 fexp y).
      { apply error_lt_ulp; try exact _. lra. }
      apply Rabs_lt_inv in Er. lra. }
    assert (D : rnd y <= yd * 2).
    { rewrite <- (rnd_fix (yd * 2)) by (apply fmt_double; exact Fyd). apply rnd_mono. exact Y2. }
    assert (D0 : 0 <= rnd y) by (apply rnd_pos; lra).
    assert (Q : rnd (rnd y / c) <= yd).
    { rewrite <- (rnd_fix yd Fyd). apply rnd_mono.
      apply Rmult_le_reg_r with c; [lra|]. unfold Rdiv. rewrite Rmult_assoc, Rinv_l by lra. nra. }
    assert (Q0 : 0 <= rnd (rnd y / c)).
    { apply rnd_pos. apply Rmult_le_pos; [exact D0|]. apply Rlt_le, Rinv_0_lt_compat. lra. }
    split.
    + apply Rle_trans with (rnd m); [rewrite (rnd_fix m Hm); lra|]. apply rnd_mono. lra.
    + apply Rle_trans with (rnd x); [|rewrite (rnd_fix x Hx); lra]. apply rnd_mono. unfold y in *. lra.
Qed.
End Mode.

Lemma rounding_opp mode x : rounding emin prec mode (- x) = - rounding emin prec (Zrnd_opp mode) x.
Proof. unfold rounding. apply round_opp. Qed.

Lemma step_down (mode : R -> Z) (valid_mode : Valid_rnd mode) m x c : fmt m -> fmt x -> x <= m -> 2 <= c ->
  x <= rounding emin prec mode (m + rounding emin prec mode (rounding emin prec mode (x - m) / c)) <= m.
Proof.
  intros Hm Hx L Hc.
  pose proof (@step_up (Zrnd_opp mode) (valid_rnd_opp mode) (- m) (- x) c) as S.
  assert (S' := S (generic_format_opp _ _ _ Hm) (generic_format_opp _ _ _ Hx) ltac:(lra) Hc).
  clear S. set (r := rounding emin prec mode) in *. set (r' := rounding emin prec (Zrnd_opp mode)) in *.
  assert (O : forall z, r' z = - r (- z)).
  { intros z. unfold r, r'. rewrite rounding_opp, Ropp_involutive. reflexivity. }
  rewrite !O in S'.
  replace (- (- x - - m)) with (x - m) in S' by ring.
  replace (- (- r (x - m) / c)) with (r (x - m) / c) in S' by (field; lra).
  replace (- (- m + - r (r (x - m) / c))) with (m + r (r (x - m) / c)) in S' by ring.
  lra.
Qed.

Section Cumulative.
Variable mode : R -> Z.
Context {valid_mode : Valid_rnd mode}.
Notation rnd := (rounding emin prec mode).
Notation F := (rounded emin prec mode).

Definition ffins : list R -> list F := map Fin.

Lemma count_fin (k : N) : (1 <= k)%N -> exists c, @nofsz F k = Fin c /\ c = rnd (IZR (Z.of_N k)) /\ 1 <= c /\ ((2 <= k)%N -> 2 <= c).
Proof.
  intros H. exists (rnd (IZR (Z.of_N k))). split; [reflexivity|]. split; [reflexivity|]. split.
  - apply rnd_ge1; [exact valid_mode|]. apply (IZR_le 1). lia.
  - intros H2. apply rnd_ge2; [exact valid_mode|]. apply (IZR_le 2). lia.
Qed.

(** The new mean of one push, as a real. *)
Definition mean_step (m x c : R) : R := rnd (m + rnd (rnd (x - m) / c)).

Lemma cmean_push_fin m k x : (k + 1 < szmod)%N ->
  exists c, c = rnd (IZR (Z.of_N (k + 1))) /\ 1 <= c /\ ((1 <= k)%N -> 2 <= c) /\
  cmean_push F (CMean F (Fin m) k) (Fin x) = CMean F (Fin (mean_step m x c)) (k + 1)%N.
Proof.
  intros H. destruct (count_fin (k + 1)) as (c & E & Ec & C1 & C2); [lia|].
  exists c. split; [exact Ec|]. split; [exact C1|]. split; [intros K; apply C2; lia|].
  unfold cmean_push. cbn [cm_count cm_mean]. rewrite szadd_small by exact H. rewrite E.
  f_equal. cbn. rewrite Req_bool_false by lra. reflexivity.
Qed.

Lemma mean_step_1 x : fmt x -> mean_step 0 x (rnd 1) = x.
Proof.
  intros H. unfold mean_step. rewrite Rminus_0_r, (rnd_fix mode x H), (rnd_fix mode 1 fmt_1).
  replace (x / 1) with x by field. rewrite (rnd_fix mode x H), Rplus_0_l. apply rnd_fix; assumption.
Qed.

Lemma mean_step_between m x c : fmt m -> fmt x -> 2 <= c ->
  Rmin m x <= mean_step m x c <= Rmax m x.
Proof.
  intros Hm Hx Hc. unfold mean_step. destruct (Rle_dec m x) as [L|L].
  - rewrite Rmin_left, Rmax_right by lra. apply step_up; assumption.
  - rewrite Rmin_right, Rmax_left by lra. apply step_down; try assumption. lra.
Qed.

Lemma mean_step_fmt m x c : fmt (mean_step m x c).
Proof. apply rnd_fmt. exact valid_mode. Qed.

(** Invariant of the running mean. *)
Lemma cmean_rounded l : l <> [] -> (N.of_nat (length l) < szmod)%N -> Forall fmt l ->
  exists m, fold_left (cmean_push F) (ffins l) (cmean_init F) = CMean F (Fin m) (N.of_nat (length l)) /\
    fmt m /\ in_hull m l.
Proof.
  induction l as [|x l IH] using rev_ind; intros NE HL HF; [congruence|]. clear NE.
  rewrite length_snoc in *. apply Forall_app in HF. destruct HF as [HF Hx]. inversion Hx as [|? ? Fx _]; subst.
  assert (ST : fold_left (cmean_push F) (ffins (l ++ [x])) (cmean_init F) =
    cmean_push F (fold_left (cmean_push F) (ffins l) (cmean_init F)) (Fin x)).
  { unfold ffins. rewrite map_app, fold_left_app. reflexivity. }
  rewrite ST. clear ST. destruct l as [|y l'].
  - change (fold_left (cmean_push F) (ffins []) (cmean_init F)) with (CMean F (Fin (rnd 0)) 0).
    rewrite (rnd_zero mode).
    destruct (cmean_push_fin 0 0 x) as (c & Ec & _ & _ & E); [reflexivity|]. rewrite E.
    change (IZR (Z.of_N (0 + 1))) with 1 in Ec. subst c. rewrite (mean_step_1 x Fx).
    exists x. split; [reflexivity|]. split; [exact Fx|].
    split; exists x; (split; [left; reflexivity|lra]).
  - destruct IH as (m & E & Fm & Hh); [discriminate|lia|exact HF|]. rewrite E.
    destruct (cmean_push_fin m (N.of_nat (length (y :: l'))) x) as (c & _ & _ & C2 & E'); [lia|].
    rewrite E'. exists (mean_step m x c). split; [f_equal; lia|]. split; [apply mean_step_fmt|].
    destruct (mean_step_between m x c Fm Fx) as [B1 B2]; [apply C2; cbn; lia|].
    destruct Hh as [(a & Ia & La) (b & Ib & Lb)]. split.
    + unfold Rmin in B1. destruct (Rle_dec m x).
      * exists a. split; [apply in_or_app; left; exact Ia|lra].
      * exists x. split; [apply in_or_app; right; left; reflexivity|lra].
    + unfold Rmax in B2. destruct (Rle_dec m x).
      * exists x. split; [apply in_or_app; right; left; reflexivity|lra].
      * exists b. split; [apply in_or_app; left; exact Ib|lra].
Qed.

(** The increment of the sum of squares. *)
Definition sum_step (s m m' x : R) : R := rnd (s + rnd (rnd (x - m) * rnd (x - m'))).

Lemma sum_step_nonneg s m m' x : 0 <= s -> Rmin m x <= m' <= Rmax m x -> 0 <= sum_step s m m' x.
Proof.
  intros Hs [B1 B2]. apply rnd_pos; [exact valid_mode|].
  assert (0 <= rnd (rnd (x - m) * rnd (x - m'))); [|lra].
  apply rnd_pos; [exact valid_mode|]. unfold Rmin, Rmax in *. destruct (Rle_dec m x).
  - apply Rmult_le_pos; (apply rnd_pos; [exact valid_mode|lra]).
  - assert (A1 : rnd (x - m) <= 0) by (apply rnd_neg; [exact valid_mode|lra]).
    assert (A2 : rnd (x - m') <= 0) by (apply rnd_neg; [exact valid_mode|lra]). nra.
Qed.

Lemma cvar_rounded l : l <> [] -> (N.of_nat (length l) < szmod)%N -> Forall fmt l ->
  exists m s, fold_left (cvar_push F) (ffins l) (cvar_init F) =
      CVar F (CMean F (Fin m) (N.of_nat (length l))) (Fin s) /\
    fmt m /\ in_hull m l /\ fmt s /\ 0 <= s.
Proof.
  induction l as [|x l IH] using rev_ind; intros NE HL HF; [congruence|]. clear NE.
  pose proof (cmean_rounded (l ++ [x])) as HM.
  destruct HM as (m' & Em & Fm' & Hm'); [destruct l; discriminate|exact HL|exact HF|].
  rewrite length_snoc in *. apply Forall_app in HF. destruct HF as [HF Hx]. inversion Hx as [|? ? Fx _]; subst.
  assert (ST : fold_left (cvar_push F) (ffins (l ++ [x])) (cvar_init F) =
    cvar_push F (fold_left (cvar_push F) (ffins l) (cvar_init F)) (Fin x)).
  { unfold ffins. rewrite map_app, fold_left_app. reflexivity. }
  assert (SM : fold_left (cmean_push F) (ffins (l ++ [x])) (cmean_init F) =
    cmean_push F (fold_left (cmean_push F) (ffins l) (cmean_init F)) (Fin x)).
  { unfold ffins. rewrite map_app, fold_left_app. reflexivity. }
  rewrite ST. rewrite SM in Em. clear ST SM.
  destruct l as [|y l'].
  - exists m', (rnd (rnd 0 + rnd (rnd (x - rnd 0) * rnd (x - m')))).
    change (fold_left (cmean_push F) (ffins []) (cmean_init F)) with (cmean_init F) in Em.
    change (fold_left (cvar_push F) (ffins []) (cvar_init F)) with (cvar_init F).
    unfold cvar_push. change (cv_super F (cvar_init F)) with (cmean_init F). rewrite Em.
    split; [reflexivity|]. split; [exact Fm'|]. split; [exact Hm'|]. split; [apply rnd_fmt; exact valid_mode|].
    rewrite (rnd_zero mode). apply (sum_step_nonneg 0 0 m' x); [lra|].
    destruct Hm' as [(a & [<-|[]] & La) (b & [<-|[]] & Lb)].
    assert (m' = x) by lra. subst m'. split; [apply Rmin_r|apply Rmax_r].
  - destruct IH as (m & s & E & Fm & Hh & Fs & Ps); [discriminate|lia|exact HF|].
    exists m', (sum_step s m m' x).
    pose proof (cvar_fold_super F (ffins (y :: l')) (cvar_init F)) as Sup. rewrite E in Sup.
    change (cv_super F (cvar_init F)) with (cmean_init F) in Sup. cbn [cv_super] in Sup.
    rewrite <- Sup in Em. rewrite E. unfold cvar_push. cbn [cv_super cmean_mean cm_mean cv_sum]. rewrite Em.
    split; [reflexivity|]. split; [exact Fm'|]. split; [exact Hm'|]. split; [apply rnd_fmt; exact valid_mode|].
    apply sum_step_nonneg; [exact Ps|].
    destruct (cmean_push_fin m (N.of_nat (length (y :: l'))) x) as (c & _ & _ & C2 & E'); [lia|].
    rewrite E' in Em. injection Em as <- _. apply mean_step_between; [assumption..|].
    apply C2. cbn. lia.
Qed.
End Cumulative.
End Format.
