(** * Adding a constant to the data

    Exact arithmetic: adding a constant to every pushed value adds it to means
    and predictions and leaves the statistics of spread unchanged. *)

From Coq Require Import ZArith NArith Bool List Lia Reals Lra.
From Flocq Require Import Core.Raux.
From Verif Require Import Arith History HistoryLemmas Buffer
  Cumulative Window Interim Decay Psquare Scaling SpecOrigin.
Import ListNotations.

(** ** Both runs are in the initial state, or a push happened since. *)
Lemma run_first {S S' A A' : Type} (P srel : S -> S' -> Prop) (arel : A -> A' -> Prop)
  push clear push' clear' ops ops' s0 s0' :
  (forall s s' a a', P s s' \/ srel s s' -> arel a a' -> srel (push s a) (push' s' a')) ->
  (forall s s', P s s' \/ srel s s' -> P (clear s) (clear' s')) ->
  Forall2 (op_rel arel) ops ops' -> P s0 s0' ->
  let s := run push clear s0 ops in
  let s' := run push' clear' s0' ops' in
  (P s s' \/ srel s s') /\ (since_clear ops <> [] -> srel s s').
Proof.
  intros Hp Hc H; revert s0 s0'.
  assert (G : forall acc s s', P s s' \/ srel s s' -> (acc <> [] -> srel s s') ->
     let t := run push clear s ops in let t' := run push' clear' s' ops' in
     (P t t' \/ srel t t') /\ (since_clear_from acc ops <> [] -> srel t t')).
  { induction H as [|o o' ops ops' Ho _ IH]; intros acc s s' Hs Ha; [split; [exact Hs|exact Ha]|].
    unfold run; cbn [fold_left].
    destruct o, o'; cbn [op_rel] in Ho; try contradiction; cbn [History.step since_clear_from].
    - apply IH; [right|intros _]; auto.
    - apply IH; [left; auto|congruence]. }
  intros s0 s0' H0; apply G; [left; auto|congruence].
Qed.

Lemma ops_plus c ops : Forall2 (op_rel (shifted c)) ops (map (op_map (plus_c c)) ops).
Proof.
  induction ops as [|o ops IH]; constructor; [|exact IH].
  destruct o as [[a|]|]; cbn; auto.
Qed.
Definition pair_sh (c d : R) (p p' : xreal * xreal) : Prop :=
  shifted c (fst p) (fst p') /\ shifted d (snd p) (snd p').
Lemma ops_plus2 c d ops : Forall2 (op_rel (pair_sh c d)) ops (map (op_map (plus_c2 c d)) ops).
Proof.
  induction ops as [|o ops IH]; constructor; [|exact IH].
  destruct o as [[[a|] [b|]]|]; cbn; unfold pair_sh; cbn; auto.
Qed.

Section Origin.
Variable eps : R.
Notation F := (exact eps).

Ltac xd x := destruct x as [?|].

Lemma sh_sub c x x' y y' : shifted c x x' -> shifted c y y' ->
  nsub (n := F) x y = nsub (n := F) x' y'.
Proof. intros H1 H2; xd x; xd x'; try contradiction; xd y; xd y'; try contradiction; cbn in *; try reflexivity; f_equal; lra. Qed.

Lemma sh_add c d x x' y y' : shifted c x x' -> shifted d y y' ->
  shifted (c + d) (nadd (n := F) x y) (nadd (n := F) x' y').
Proof. intros H1 H2; xd x; xd x'; try contradiction; xd y; xd y'; try contradiction; cbn in *; try exact I; lra. Qed.

Lemma sh_addr c x x' y : shifted c x x' -> shifted c (nadd (n := F) x y) (nadd (n := F) x' y).
Proof. intros H1; xd x; xd x'; try contradiction; xd y; cbn in *; try exact I; lra. Qed.

Lemma sh_refl x : shifted 0 x x.
Proof. xd x; cbn; [lra|exact I]. Qed.

Lemma sh_eq c d x y : c = d -> shifted c x y -> shifted d x y.
Proof. intros ->; auto. Qed.

Lemma sh_minus c x x' y : shifted c x x' -> shifted c (nsub (n := F) x y) (nsub (n := F) x' y).
Proof. intros H1; xd x; xd x'; try contradiction; xd y; cbn in *; try exact I; lra. Qed.

Lemma sh_mulr c x x' k : shifted c x x' -> shifted (c * k) (nmul (n := F) x (Fin k)) (nmul (n := F) x' (Fin k)).
Proof. intros H1; xd x; xd x'; try contradiction; cbn in *; try exact I; nra. Qed.

Lemma sh_divr c x x' k : shifted c x x' -> shifted (c / k) (ndiv (n := F) x (Fin k)) (ndiv (n := F) x' (Fin k)).
Proof.
  intros H1; xd x; xd x'; try contradiction; cbn in *; [|exact I].
  destruct (Req_bool_spec k 0); [exact I|subst; cbn; field; assumption].
Qed.

Lemma sh_lt c x x' y y' : shifted c x x' -> shifted c y y' ->
  nlt (n := F) x y = nlt (n := F) x' y'.
Proof.
  intros H1 H2; xd x; xd x'; try contradiction; xd y; xd y'; try contradiction; cbn in *; try reflexivity.
  subst; destruct (Rlt_bool_spec r r1), (Rlt_bool_spec (r + c) (r1 + c)); auto; lra.
Qed.

Lemma sh_le c x x' y y' : shifted c x x' -> shifted c y y' ->
  nle (n := F) x y = nle (n := F) x' y'.
Proof.
  intros H1 H2; xd x; xd x'; try contradiction; xd y; xd y'; try contradiction; cbn in *; try reflexivity.
  subst; destruct (Rle_bool_spec r r1), (Rle_bool_spec (r + c) (r1 + c)); auto; lra.
Qed.

Lemma first_mean (x : xreal) : nadd (n := F) n0 (ndiv (n := F) (nsub (n := F) x n0) (nofsz (szadd 0 1))) = x.
Proof.
  xd x; [|reflexivity].
  cbn; change (szadd 0 1) with 1%N; cbn; rewrite Req_bool_false by lra; f_equal; field.
Qed.

(** A product with the distance of the first value to itself. *)
Lemma first_dev x x' y y' c d : shifted c x x' -> shifted d y y' ->
  nmul (n := F) (nsub (n := F) x x) y = nmul (n := F) (nsub (n := F) x' x') y'.
Proof. intros H1 H2; xd x; xd x'; try contradiction; xd y; xd y'; try contradiction; cbn in *; try reflexivity; f_equal; ring. Qed.
Lemma first_dev' x x' y y' c d : shifted c x x' -> shifted d y y' ->
  nmul (n := F) y (nsub (n := F) x x) = nmul (n := F) y' (nsub (n := F) x' x').
Proof. intros H1 H2; xd x; xd x'; try contradiction; xd y; xd y'; try contradiction; cbn in *; try reflexivity; f_equal; ring. Qed.

(** ** Cumulative filters *)
Section C.
Variable c : R.

Definition cm_sh (s s' : cmean F) : Prop :=
  cm_count F s = cm_count F s' /\ shifted c (cm_mean F s) (cm_mean F s').

Lemma cm_push_sh s s' x x' :
  (s = cmean_init F /\ s' = cmean_init F) \/ cm_sh s s' -> shifted c x x' ->
  cm_sh (cmean_push F s x) (cmean_push F s' x').
Proof.
  intros [[-> ->]|[E H]] Hx; split; cbn [cm_count cm_mean cmean_push cmean_init]; try congruence.
  - rewrite !first_mean; exact Hx.
  - rewrite E, (sh_sub c x x' _ (cm_mean F s')) by assumption; apply sh_addr; exact H.
Qed.

Definition cv_sh (s s' : cvar F) : Prop :=
  cm_sh (cv_super F s) (cv_super F s') /\ cv_sum F s = cv_sum F s'.

Lemma cv_push_sh s s' x x' :
  (s = cvar_init F /\ s' = cvar_init F) \/ cv_sh s s' -> shifted c x x' ->
  cv_sh (cvar_push F s x) (cvar_push F s' x').
Proof.
  intros H Hx.
  assert (Hm : cm_sh (cmean_push F (cv_super F s) x) (cmean_push F (cv_super F s') x')).
  { apply cm_push_sh; [|exact Hx]. destruct H as [[-> ->]|[H _]]; [left; auto|right; exact H]. }
  split; cbn [cvar_push cv_super cv_sum]; [exact Hm|].
  destruct Hm as [_ Hm]; unfold cmean_mean; destruct H as [[-> ->]|[[_ H] E]].
  - cbn [cvar_init cv_super cv_sum cmean_init cm_mean cm_count cmean_push].
    rewrite !first_mean. f_equal. apply (first_dev' x x' _ _ c c Hx).
    apply sh_minus; exact Hx.
  - rewrite E, (sh_sub c x x' _ (cm_mean F (cv_super F s'))) by assumption.
    rewrite (sh_sub c x x' _ _ Hx Hm); reflexivity.
Qed.

Definition cs_sh (s s' : cskew F) : Prop :=
  cv_sh (cs_super F s) (cs_super F s') /\ cs_sum F s = cs_sum F s'.

Lemma cs_push_sh s s' x x' :
  (s = cskew_init F /\ s' = cskew_init F) \/ cs_sh s s' -> shifted c x x' ->
  cs_sh (cskew_push F s x) (cskew_push F s' x').
Proof.
  intros H Hx.
  assert (Hm : cv_sh (cvar_push F (cs_super F s) x) (cvar_push F (cs_super F s') x')).
  { apply cv_push_sh; [|exact Hx]. destruct H as [[-> ->]|[H _]]; [left; auto|right; exact H]. }
  split; cbn [cskew_push cs_super cs_sum]; [exact Hm|].
  destruct H as [[-> ->]|[[[E1 H] E2] E3]].
  - destruct x as [x|], x' as [x'|]; try contradiction; [|reflexivity].
    cbn; change (szadd 0 1) with 1%N; change (szsub 1 1) with 0%N; cbn;
      rewrite Req_bool_false by lra; cbn; f_equal; field.
  - unfold cvar_mean, cmean_mean, cvar_size, cmean_size.
    rewrite E1, E2, E3, (sh_sub c x x' _ _ Hx H); reflexivity.
Qed.

Definition ck_sh (s s' : ckurt F) : Prop :=
  cs_sh (ck_super F s) (ck_super F s') /\ ck_sum F s = ck_sum F s'.

Lemma ck_push_sh s s' x x' :
  (s = ckurt_init F /\ s' = ckurt_init F) \/ ck_sh s s' -> shifted c x x' ->
  ck_sh (ckurt_push F s x) (ckurt_push F s' x').
Proof.
  intros H Hx.
  assert (Hm : cs_sh (cskew_push F (ck_super F s) x) (cskew_push F (ck_super F s') x')).
  { apply cs_push_sh; [|exact Hx]. destruct H as [[-> ->]|[H _]]; [left; auto|right; exact H]. }
  split; cbn [ckurt_push ck_super ck_sum]; [exact Hm|].
  destruct H as [[-> ->]|[[[[E1 H] E2] E3] E4]].
  - destruct x as [x|], x' as [x'|]; try contradiction; [|reflexivity].
    cbn; change (szadd 0 1) with 1%N; change (szsub 1 1) with 0%N; cbn;
      rewrite Req_bool_false by lra; cbn; f_equal; field.
  - unfold cskew_mean, cvar_mean, cmean_mean, cskew_size, cvar_size, cmean_size.
    rewrite E1, E2, E3, E4, (sh_sub c x x' _ _ Hx H); reflexivity.
Qed.

(** What does not depend on the mean. *)
Lemma cv_stats s s' : cv_sh s s' ->
  cvar_variance F s = cvar_variance F s' /\ cvar_unbiased_variance F s = cvar_unbiased_variance F s'.
Proof.
  intros [[E _] E']; unfold cvar_variance, cvar_unbiased_variance.
  rewrite E, E'; auto.
Qed.
Lemma cs_stats s s' : cs_sh s s' ->
  cskew_skewness F s = cskew_skewness F s' /\ cskew_unbiased_skewness F s = cskew_unbiased_skewness F s'.
Proof.
  intros [[[E _] E'] E3]; unfold cskew_skewness, cskew_unbiased_skewness, cskew_skewness, cskew_size, cvar_size, cmean_size.
  rewrite E, E', E3; auto.
Qed.
Lemma ck_stats s s' : ck_sh s s' ->
  ckurt_kurtosis F s = ckurt_kurtosis F s' /\ ckurt_unbiased_kurtosis F s = ckurt_unbiased_kurtosis F s'.
Proof.
  intros [[[[E _] E'] E3] E4]; unfold ckurt_kurtosis, ckurt_unbiased_kurtosis, ckurt_kurtosis, ckurt_size, cskew_size, cvar_size, cmean_size.
  rewrite E, E', E4; auto.
Qed.

Definition ct_sh (s s' : ctrend F) : Prop :=
  cm_sh (ct_center F s) (ct_center F s') /\ cm_sh (ct_grand F s) (ct_grand F s').
Lemma ct_push_sh s s' x x' :
  (s = ctrend_init F /\ s' = ctrend_init F) \/ ct_sh s s' -> shifted c x x' ->
  ct_sh (ctrend_push F s x) (ctrend_push F s' x').
Proof.
  intros H Hx.
  assert (Hm : cm_sh (cmean_push F (ct_center F s) x) (cmean_push F (ct_center F s') x')).
  { apply cm_push_sh; [|exact Hx]. destruct H as [[-> ->]|[H _]]; [left; auto|right; exact H]. }
  split; cbn [ctrend_push ct_center ct_grand]; [exact Hm|].
  apply cm_push_sh; [|exact (proj2 Hm)].
  destruct H as [[-> ->]|[_ H]]; [left; auto|right; exact H].
Qed.
Lemma ct_value_sh s s' : ct_sh s s' -> shifted c (ctrend_value F s) (ctrend_value F s').
Proof.
  intros [[_ H1] [_ H2]]; unfold ctrend_value, cmean_mean.
  rewrite (sh_sub c _ _ _ _ H1 H2); apply sh_addr; exact H1.
Qed.
End C.

(** ** Pairs *)
Section CD.
Variables c d : R.

Definition cc_sh (s s' : ccov F) : Prop :=
  cm_sh c (cc_x F s) (cc_x F s') /\ cm_sh d (cc_y F s) (cc_y F s') /\ cc_center F s = cc_center F s'.
Lemma cc_push_sh s s' p p' :
  (s = ccov_init F /\ s' = ccov_init F) \/ cc_sh s s' -> pair_sh c d p p' ->
  cc_sh (ccov_push F s p) (ccov_push F s' p').
Proof.
  destruct p as [x y], p' as [x' y']; intros H [Hx Hy]; cbn [fst snd] in Hx, Hy.
  assert (H1 : cm_sh c (cmean_push F (cc_x F s) x) (cmean_push F (cc_x F s') x')).
  { apply cm_push_sh; [|exact Hx]. destruct H as [[-> ->]|[H _]]; [left; auto|right; exact H]. }
  assert (H2 : cm_sh d (cmean_push F (cc_y F s) y) (cmean_push F (cc_y F s') y')).
  { apply cm_push_sh; [|exact Hy]. destruct H as [[-> ->]|[_ [H _]]]; [left; auto|right; exact H]. }
  split; [exact H1|split; [exact H2|]]; cbn [ccov_push cc_center cc_x cc_y].
  destruct H as [[-> ->]|[[_ Hx'] [[_ Hy'] E]]]; unfold cmean_mean.
  - cbn [ccov_init cc_x cc_y cc_center cmean_init cmean_push cm_mean cm_count].
    rewrite !first_mean; f_equal; apply (first_dev _ _ _ _ c d Hx), sh_minus, Hy.
  - rewrite E, (sh_sub c x x' _ _ Hx (proj2 H1)), (sh_sub d y y' _ _ Hy Hy'); reflexivity.
Qed.
Lemma cc_stats s s' : cc_sh s s' ->
  ccov_variance F s = ccov_variance F s' /\ ccov_unbiased_variance F s = ccov_unbiased_variance F s'.
Proof.
  intros [[E _] [_ E']]; unfold ccov_variance, ccov_unbiased_variance, ccov_size, cmean_size.
  rewrite E, E'; auto.
Qed.

Definition cr_sh (s s' : ccorr F) : Prop :=
  cc_sh (cr_co F s) (cr_co F s') /\ cv_sh c (cr_x F s) (cr_x F s') /\ cv_sh d (cr_y F s) (cr_y F s').
Lemma cr_push_sh s s' p p' :
  (s = ccorr_init F /\ s' = ccorr_init F) \/ cr_sh s s' -> pair_sh c d p p' ->
  cr_sh (ccorr_push F s p) (ccorr_push F s' p').
Proof.
  intros H Hp; split; [|split]; cbn [ccorr_push cr_co cr_x cr_y].
  - apply cc_push_sh; [|exact Hp]; destruct H as [[-> ->]|[H _]]; [left; auto|right; exact H].
  - apply cv_push_sh; [|exact (proj1 Hp)]; destruct H as [[-> ->]|[_ [H _]]]; [left; auto|right; exact H].
  - apply cv_push_sh; [|exact (proj2 Hp)]; destruct H as [[-> ->]|[_ [_ H]]]; [left; auto|right; exact H].
Qed.
Lemma cr_value_sh s s' : cr_sh s s' -> ccorr_value F s = ccorr_value F s'.
Proof.
  intros [H1 [H2 H3]]; unfold ccorr_value.
  rewrite (proj1 (cc_stats _ _ H1)), (proj1 (cv_stats _ _ _ H2)), (proj1 (cv_stats _ _ _ H3)); reflexivity.
Qed.

Definition cg_sh (s s' : creg F) : Prop :=
  cc_sh (cg_co F s) (cg_co F s') /\ cv_sh c (cg_x F s) (cg_x F s') /\ cv_sh d (cg_y F s) (cg_y F s').
Lemma cg_push_sh s s' p p' :
  (s = creg_init F /\ s' = creg_init F) \/ cg_sh s s' -> pair_sh c d p p' ->
  cg_sh (creg_push F s p) (creg_push F s' p').
Proof.
  intros H Hp; split; [|split]; cbn [creg_push cg_co cg_x cg_y].
  - apply cc_push_sh; [|exact Hp]; destruct H as [[-> ->]|[H _]]; [left; auto|right; exact H].
  - apply cv_push_sh; [|exact (proj1 Hp)]; destruct H as [[-> ->]|[_ [H _]]]; [left; auto|right; exact H].
  - apply cv_push_sh; [|exact (proj2 Hp)]; destruct H as [[-> ->]|[_ [_ H]]]; [left; auto|right; exact H].
Qed.
Lemma cg_slope_sh s s' : cg_sh s s' -> creg_slope F s = creg_slope F s'.
Proof.
  intros [H1 [H2 H3]]; unfold creg_slope.
  rewrite (proj1 (cc_stats _ _ H1)), (proj1 (cv_stats _ _ _ H2)); reflexivity.
Qed.
Lemma cg_at_sh s s' p p' : cg_sh s s' -> shifted c p p' ->
  shifted d (creg_at F s p) (creg_at F s' p').
Proof.
  intros H Hp; unfold creg_at; rewrite (cg_slope_sh _ _ H).
  destruct H as [_ [[[_ Hx] _] [[_ Hy] _]]]; unfold cvar_mean, cmean_mean.
  rewrite (sh_sub c _ _ p p' Hx Hp); apply sh_minus; exact Hy.
Qed.
End CD.

(** ** Windows *)
Section Win.
Variable W : nat.
Hypothesis HW : (0 < W)%nat.

Lemma rb_full_len {A B} (l : list A) (l' : list B) : length l = length l' -> rb_full W l = rb_full W l'.
Proof. unfold rb_full; intros ->; reflexivity. Qed.
Lemma rb_full_nil {A} : rb_full W (@nil A) = false.
Proof. unfold rb_full; cbn; destruct W; [lia|reflexivity]. Qed.
Lemma rb_size_len {A B} (l : list A) (l' : list B) : length l = length l' -> rb_size l = rb_size l'.
Proof. unfold rb_size; intros ->; reflexivity. Qed.

Section C.
Variable c : R.
Definition wm_sh (s s' : wmean F) : Prop :=
  Forall2 (shifted c) (wm_window F s) (wm_window F s') /\ shifted c (wm_mean F s) (wm_mean F s').

Lemma wm_push_sh s s' x x' :
  (s = wmean_init F /\ s' = wmean_init F) \/ wm_sh s s' -> shifted c x x' ->
  wm_sh (wmean_push F W s x) (wmean_push F W s' x').
Proof.
  intros [[-> ->]|[H Hm]] Hx; split; cbn [wmean_push wm_window wm_mean wmean_init]; unfold wmean_full, wmean_size.
  - unfold rb_push_back; rewrite (rb_full_nil (A := F)); cbn; auto.
  - cbn [wm_window wm_mean wmean_init]; rewrite (rb_full_nil (A := F)); cbn [rb_size length N.of_nat]; rewrite !first_mean; exact Hx.
  - apply rb_push_back_rel; auto.
  - pose proof (Forall2_len _ _ _ H) as L.
    rewrite <- (rb_full_len (A := F) (B := F) _ _ L), <- (rb_size_len (A := F) (B := F) _ _ L).
    destruct (rb_full W (wm_window F s)) eqn:E.
    + inversion H as [E1 E2|y y' t t' Hy Ht E1 E2]; cbn [rb_front hd_error].
      * rewrite <- E1 in E; discriminate (eq_trans (eq_sym E) (rb_full_nil (A := F))).
      * rewrite (sh_sub c _ _ _ _ Hx Hy); apply sh_addr; exact Hm.
    + rewrite (sh_sub c _ _ _ _ Hx Hm); apply sh_addr; exact Hm.
Qed.

Definition wv_sh (s s' : wvar F) : Prop :=
  wm_sh (wv_super F s) (wv_super F s') /\ wv_sum F s = wv_sum F s'.

Lemma wv_push_sh s s' x x' :
  (s = wvar_init F /\ s' = wvar_init F) \/ wv_sh s s' -> shifted c x x' ->
  wv_sh (wvar_push F W s x) (wvar_push F W s' x').
Proof.
  intros H Hx.
  assert (Hm : wm_sh (wmean_push F W (wv_super F s) x) (wmean_push F W (wv_super F s') x')).
  { apply wm_push_sh; [|exact Hx]. destruct H as [[-> ->]|[H _]]; [left; auto|right; exact H]. }
  destruct H as [[-> ->]|[[H Hs] E]].
  - revert Hm; unfold wvar_push, wvar_init, wmean_push, wvar_size, wmean_size, wmean_full, wmean_mean, wmean_init.
    cbn [wv_super wv_sum wm_window wm_mean].
    rewrite (rb_full_nil (A := F)); intros Hm; split; cbn [wv_super wv_sum]; [exact Hm|].
    unfold rb_size; cbn [length N.of_nat]; rewrite !first_mean; unfold wvar_delta; f_equal.
    apply (first_dev' _ _ _ _ c c Hx), sh_minus, Hx.
  - pose proof (Forall2_len _ _ _ H) as L.
    revert Hm; unfold wvar_push, wvar_size, wmean_size, wmean_full, wmean_mean, wmean_push, wmean_full, wmean_size.
    rewrite <- (rb_full_len (A := F) (B := F) _ _ L), <- (rb_size_len (A := F) (B := F) _ _ L), <- E.
    destruct (rb_full W (wm_window F (wv_super F s))) eqn:Ef.
    + inversion H as [E1 E2|y y' t t' Hy Ht E1 E2]; cbn [rb_front hd_error].
      * rewrite <- E1 in Ef; discriminate (eq_trans (eq_sym Ef) (rb_full_nil (A := F))).
      * intros Hm; split; cbn [wv_super wv_sum]; [exact Hm|].
        destruct Hm as [_ Hm]; cbn [wm_mean] in Hm; unfold wvar_delta.
        rewrite (sh_sub c x x' _ _ Hx Hs), (sh_sub c x x' _ _ Hx Hm),
          (sh_sub c y y' _ _ Hy Hs), (sh_sub c y y' _ _ Hy Hm); reflexivity.
    + intros Hm; split; cbn [wv_super wv_sum]; [exact Hm|].
      destruct Hm as [_ Hm]; cbn [wm_mean] in Hm; unfold wvar_delta.
      rewrite (sh_sub c x x' _ _ Hx Hm), (sh_sub c x x' _ _ Hx Hs); reflexivity.
Qed.

Lemma wv_stats s s' : wv_sh s s' ->
  wvar_variance F s = wvar_variance F s' /\ wvar_unbiased_variance F s = wvar_unbiased_variance F s'.
Proof.
  intros [[H _] E]; unfold wvar_variance, wvar_unbiased_variance, wvar_size, wmean_size.
  rewrite (rb_size_len (A := F) (B := F) _ _ (Forall2_len _ _ _ H)), E; auto.
Qed.
End C.

Section CD.
Variables c d : R.

Definition raw_sh (n : R) (x y z z' : xreal) : Prop :=
  match x, y, z, z' with
  | Fin x, Fin y, Fin z, Fin z' => z' = (z + c * y + d * x + c * d * n)%R
  | _, _, NonFin, NonFin => True
  | _, _, _, _ => False
  end.

Definition wc_sh (s s' : wcov F) : Prop :=
  Forall2 (pair_sh c d) (wc_window F s) (wc_window F s') /\
  let n := INR (length (wc_window F s)) in
  shifted (c * n) (wc_x F s) (wc_x F s') /\ shifted (d * n) (wc_y F s) (wc_y F s') /\
  raw_sh n (wc_x F s) (wc_y F s) (wc_xy F s) (wc_xy F s').

Lemma wc_init_sh : wc_sh (wcov_init F) (wcov_init F).
Proof. split; [constructor|]; cbn; repeat split; ring. Qed.

Lemma rb_push_len {A} (l : list A) a : length (rb_push_back W l a) =
  if rb_full W l then length l else S (length l).
Proof.
  unfold rb_push_back; destruct (rb_full W l) eqn:E.
  - destruct l; [rewrite rb_full_nil in E; discriminate|].
    cbn [tl]; rewrite app_length; cbn; lia.
  - rewrite app_length; cbn; lia.
Qed.

Lemma wc_intro (w w' : list (F * F)) X X' Y Y' Z Z' n :
  Forall2 (pair_sh c d) w w' -> INR (length w) = n ->
  shifted (c * n) X X' -> shifted (d * n) Y Y' -> raw_sh n X Y Z Z' ->
  wc_sh (WCov F w X Y Z) (WCov F w' X' Y' Z').
Proof. intros H <- H1 H2 H3; split; [exact H|split; [exact H1|split; [exact H2|exact H3]]]. Qed.

Lemma wc_push_sh s s' p p' : wc_sh s s' -> pair_sh c d p p' ->
  wc_sh (wcov_push F W s p) (wcov_push F W s' p').
Proof.
  destruct p as [x y], p' as [x' y']; intros [H [Hx [Hy Hz]]] [Px Py]; cbn [fst snd] in Px, Py.
  pose proof (Forall2_len _ _ _ H) as L.
  assert (Hw : Forall2 (pair_sh c d) (rb_push_back W (wc_window F s) (x, y)) (rb_push_back W (wc_window F s') (x', y')))
    by (apply rb_push_back_rel; [exact H|split; assumption]).
  pose proof (rb_push_len (A := F * F) (wc_window F s) (x, y)) as Ln.
  unfold wcov_push; rewrite <- (rb_full_len (A := F * F) (B := F * F) _ _ L).
  destruct (rb_full W (wc_window F s)) eqn:Ef.
  - assert (Hh : exists a b a' b', rb_front (wc_window F s) = Some (a, b) /\ rb_front (wc_window F s') = Some (a', b')
        /\ shifted c a a' /\ shifted d b b').
    { destruct H as [|[a b] [a' b'] t t' [Ha Hb] Ht]; [discriminate (eq_trans (eq_sym Ef) (rb_full_nil (A := F * F)))|].
      exists a, b, a', b'; auto. }
    destruct Hh as [a [b [a' [b' [E1 [E2 [Ha Hb]]]]]]]; rewrite E1, E2.
    apply (wc_intro _ _ _ _ _ _ _ _ (INR (length (wc_window F s))) Hw).
    { f_equal; exact Ln. }
    all: revert Hx Hy Hz; generalize (INR (length (wc_window F s))); intros n.
    all: generalize (wc_x F s) (wc_x F s') (wc_y F s) (wc_y F s') (wc_xy F s) (wc_xy F s'); intros X X' Y Y' Z Z' Hx Hy Hz.
    + xd X; xd X'; try contradiction; xd x; xd x'; try contradiction; xd a; xd a'; try contradiction; cbn in *; try exact I; lra.
    + xd Y; xd Y'; try contradiction; xd y; xd y'; try contradiction; xd b; xd b'; try contradiction; cbn in *; try exact I; lra.
    + xd X; xd X'; try contradiction; xd Y; xd Y'; try contradiction;
        xd x; xd x'; try contradiction; xd y; xd y'; try contradiction;
        xd a; xd a'; try contradiction; xd b; xd b'; try contradiction; xd Z; xd Z'; try contradiction;
        cbn in *; try exact I; subst; ring.
  - apply (wc_intro _ _ _ _ _ _ _ _ (INR (length (wc_window F s)) + 1)%R Hw).
    { rewrite <- S_INR; f_equal; exact Ln. }
    all: revert Hx Hy Hz; generalize (INR (length (wc_window F s))); intros n.
    all: generalize (wc_x F s) (wc_x F s') (wc_y F s) (wc_y F s') (wc_xy F s) (wc_xy F s'); intros X X' Y Y' Z Z' Hx Hy Hz.
    + xd X; xd X'; try contradiction; xd x; xd x'; try contradiction; cbn in *; try exact I; lra.
    + xd Y; xd Y'; try contradiction; xd y; xd y'; try contradiction; cbn in *; try exact I; lra.
    + xd X; xd X'; try contradiction; xd Y; xd Y'; try contradiction;
      xd x; xd x'; try contradiction; xd y; xd y'; try contradiction; xd Z; xd Z'; try contradiction;
      cbn in *; try exact I; subst; ring.
Qed.

Lemma wc_size_sh s s' : wc_sh s s' -> wcov_size F s = wcov_size F s'.
Proof. intros [H _]; unfold wcov_size; apply (rb_size_len (A := F * F) (B := F * F)), (Forall2_len _ _ _ H). Qed.

Lemma wc_cosum_sh s s' : wc_sh s s' -> wcov_size F s <> 0%N -> wcov_cosum F s = wcov_cosum F s'.
Proof.
  intros H Hn; unfold wcov_cosum; rewrite <- (wc_size_sh _ _ H).
  assert (E : nofsz (n := F) (wcov_size F s) = Fin (INR (length (wc_window F s)))).
  { cbn; f_equal; unfold wcov_size, rb_size; apply IZR_of_nat. }
  rewrite E; destruct H as [_ [Hx [Hy Hz]]].
  assert (N0 : INR (length (wc_window F s)) <> 0%R).
  { apply not_0_INR; intros e; apply Hn; unfold wcov_size, rb_size; rewrite e; reflexivity. }
  revert Hx Hy Hz N0; generalize (INR (length (wc_window F s))); intros n.
  generalize (wc_x F s) (wc_x F s') (wc_y F s) (wc_y F s') (wc_xy F s) (wc_xy F s'); intros X X' Y Y' Z Z' Hx Hy Hz N0.
  xd X; xd X'; try contradiction; xd Y; xd Y'; try contradiction; xd Z; xd Z'; try contradiction; cbn in *; try reflexivity;
    rewrite ?Req_bool_false by assumption; try reflexivity; subst; f_equal; field; assumption.
Qed.

Lemma wc_stats s s' : wc_sh s s' ->
  wcov_variance F s = wcov_variance F s' /\ wcov_unbiased_variance F s = wcov_unbiased_variance F s'.
Proof.
  intros H; pose proof (wc_cosum_sh _ _ H) as E; unfold wcov_variance, wcov_unbiased_variance.
  rewrite <- (wc_size_sh _ _ H).
  split; [destruct (N.ltb_spec 0 (wcov_size F s))|destruct (N.ltb_spec 1 (wcov_size F s))]; try reflexivity;
    rewrite E by lia; reflexivity.
Qed.

Definition wr_sh (s s' : wreg F) : Prop :=
  wc_sh (wr_cov F s) (wr_cov F s') /\ wv_sh c (wr_x F s) (wr_x F s') /\ wcov_size F (wr_cov F s) <> 0%N.
Lemma wr_push_sh s s' p p' :
  (s = wreg_init F /\ s' = wreg_init F) \/ wr_sh s s' -> pair_sh c d p p' ->
  wr_sh (wreg_push F W s p) (wreg_push F W s' p').
Proof.
  intros H Hp; split; [|split]; cbn [wreg_push wr_cov wr_x].
  - apply wc_push_sh; [|exact Hp]; destruct H as [[-> ->]|[H _]]; [apply wc_init_sh|exact H].
  - apply wv_push_sh; [|exact (proj1 Hp)]; destruct H as [[-> ->]|[_ [H _]]]; [left; auto|right; exact H].
  - destruct p as [x y]; unfold wcov_push, wcov_size, rb_size.
    pose proof (rb_push_len (A := F * F) (wc_window F (wr_cov F s)) (x, y)) as Ln.
    destruct (rb_full W (wc_window F (wr_cov F s))) eqn:Ef.
    + unfold rb_front; destruct (wc_window F (wr_cov F s)) as [|[a b] t] eqn:E.
      * rewrite rb_full_nil in Ef; discriminate Ef.
      * cbn [hd_error wc_window]; intros e; apply Nat2N.inj_iff with (n' := O) in e.
        pose proof (eq_trans (eq_sym Ln) e) as e'; cbn in e'; lia.
    + cbn [wc_window]; intros e; apply Nat2N.inj_iff with (n' := O) in e.
      pose proof (eq_trans (eq_sym Ln) e) as e'; lia.
Qed.
Lemma wr_slope_sh s s' : wr_sh s s' -> wreg_slope F s = wreg_slope F s'.
Proof.
  intros [H1 [H2 _]]; unfold wreg_slope.
  rewrite (proj1 (wc_stats _ _ H1)), (proj1 (wv_stats _ _ _ H2)); reflexivity.
Qed.
Lemma wr_at_sh s s' p p' : wr_sh s s' -> shifted c p p' ->
  shifted d (wreg_at F s p) (wreg_at F s' p').
Proof.
  intros H Hp; unfold wreg_at; rewrite (wr_slope_sh _ _ H).
  destruct H as [H [[[_ Hx] _] N0]]; unfold wvar_mean, wmean_mean.
  rewrite (sh_sub c _ _ p p' Hx Hp); apply sh_minus.
  rewrite <- (wc_size_sh _ _ H).
  assert (E : nofsz (n := F) (wcov_size F (wr_cov F s)) = Fin (INR (length (wc_window F (wr_cov F s))))).
  { cbn; f_equal; unfold wcov_size, rb_size; apply IZR_of_nat. }
  rewrite E; destruct H as [_ [_ [Hy _]]].
  eapply sh_eq; [|apply (sh_divr _ _ _ _ Hy)].
  field; apply not_0_INR; intros e; apply N0; unfold wcov_size, rb_size; rewrite e; reflexivity.
Qed.
End CD.
End Win.

(** ** Interim filters *)
Section Int.
Variable W : N.
Hypothesis HW : (0 < W)%N.
Hypothesis HB : (2 * W < szmod)%N.

Section Duo.
Context {S A : Type}.
Variable init : S.
Variable clear : S -> S.
Variable push : S -> A -> S.
Variable size : S -> N.
Variable empty : S -> bool.
Variable arel : A -> A -> Prop.
Variable srel : S -> S -> Prop.
Hypothesis h_clear : forall s, clear s = init.
Hypothesis h_push : forall s s' a a', (s = init /\ s' = init) \/ srel s s' -> arel a a' ->
  srel (push s a) (push s' a').
Hypothesis h_size : forall s s', srel s s' -> size s = size s'.
Hypothesis h_size0 : size init = 0%N.
Hypothesis h_pushed : forall s a, (size s < W)%N -> size (push s a) = (size s + 1)%N.
Hypothesis h_empty : forall s, empty s = (size s =? 0)%N.

Definition either (s s' : S) : Prop := (s = init /\ s' = init) \/ srel s s'.
(** [duo_push] ends with a push to the active half. *)
Definition duo_sh (u u' : duo S) : Prop :=
  srel (active u) (active u') /\ either (passive u) (passive u') /\ (size (active u) <= W)%N.

Lemma duo_push_sh u u' a a' :
  (u = duo_init init /\ u' = duo_init init) \/ duo_sh u u' -> arel a a' ->
  duo_sh (duo_push W clear push size u a) (duo_push W clear push size u' a').
Proof.
  intros H Ha; unfold duo_push.
  assert (E : size (active u) = size (active u')).
  { destruct H as [[-> ->]|[H _]]; [reflexivity|auto]. }
  rewrite <- E; destruct (N.leb_spec W (size (active u))).
  - rewrite !h_clear; cbn [active passive]; split; [|split]; cbn [active passive].
    + apply h_push; auto.
    + destruct H as [[-> ->]|[H _]]; [left; auto|right; exact H].
    + rewrite h_pushed by (rewrite h_size0; lia); rewrite h_size0; lia.
  - cbn [active passive]; split; [|split]; cbn [active passive].
    + apply h_push; [|exact Ha]; destruct H as [[-> ->]|[H _]]; [left; auto|right; exact H].
    + destruct H as [[-> ->]|[_ [H _]]]; [left; auto|exact H].
    + rewrite h_pushed by lia; lia.
Qed.

Lemma duo_clear_init u : duo_clear clear u = duo_init init.
Proof. unfold duo_clear; rewrite !h_clear; reflexivity. Qed.

Lemma either_size s s' : either s s' -> size s = size s'.
Proof. intros [[-> ->]|H]; auto. Qed.

Lemma duo_same (f : S -> F) : (forall s s', srel s s' -> f s = f s') ->
  forall u u', duo_sh u u' ->
  duo_variance F W size empty f u = duo_variance F W size empty f u' /\
  duo_stat F W size empty f u = duo_stat F W size empty f u'.
Proof.
  intros Hf u u' [H1 [H2 _]]; unfold duo_variance, duo_stat; rewrite !h_empty.
  rewrite (either_size _ _ H2), (h_size _ _ H1), (Hf _ _ H1).
  assert (E : f (passive u) = f (passive u')) by (destruct H2 as [[-> ->]|H2]; auto).
  rewrite E; auto.
Qed.

Lemma duo_mean_sh c (f : S -> F) : (forall s s', srel s s' -> shifted c (f s) (f s')) ->
  forall u u', duo_sh u u' ->
  shifted c (duo_mean F W size empty f u) (duo_mean F W size empty f u').
Proof.
  intros Hf u u' [H1 [H2 Hs]]; unfold duo_mean; rewrite !h_empty.
  rewrite <- (either_size _ _ H2), <- (h_size _ _ H1).
  destruct (N.eqb_spec (size (passive u)) 0) as [e|e]; [apply Hf; exact H1|].
  assert (Hp : srel (passive u) (passive u')).
  { destruct H2 as [[E _]|H2]; [rewrite E, h_size0 in e; congruence|exact H2]. }
  pose proof (Hf _ _ H1) as Fa; pose proof (Hf _ _ Hp) as Fp.
  rewrite szsub_small, szmul_small, szadd_small by lia.
  set (n := size (active u)) in *.
  cbn [nofsz xnum]. 
  eapply sh_eq; [|apply sh_divr, sh_add; [apply sh_mulr, Fp|apply sh_mulr, Fa]].
  rewrite N2Z.inj_sub, N2Z.inj_mul, N2Z.inj_add by lia.
  rewrite minus_IZR, mult_IZR, plus_IZR.
  assert (0 < IZR (Z.of_N W))%R by (apply IZR_lt; lia).
  assert (0 <= IZR (Z.of_N n))%R by (apply IZR_le; lia).
  change (IZR (Z.of_N 2)) with 2%R; field; lra.
Qed.
End Duo.
End Int.

(** ** Decay filters *)
Section D.
Variable c : R.

(** Factors the constructors accept. *)
Definition dfac (f : xreal) : Prop := exists r, f = Fin r /\ (0 < r <= 1)%R.

Definition dm_sh (s s' : dmean F) : Prop :=
  dm_factor F s = dm_factor F s' /\ dfac (dm_factor F s) /\ dm_norm F s = dm_norm F s' /\
  exists n, dm_norm F s = Fin n /\ (0 <= n)%R /\ shifted (c * n) (dm_sum F s) (dm_sum F s').
(** The filter has seen a value since the last [clear]. *)
Definition dpos (s : dmean F) : Prop := exists n, dm_norm F s = Fin n /\ (0 < n)%R.

Lemma dm_init_sh f : dfac f -> dm_sh (dmean_init F f) (dmean_init F f).
Proof.
  intros H; split; [reflexivity|]; split; [exact H|]; split; [reflexivity|].
  exists 0%R; cbn; repeat split; lra.
Qed.
Lemma dm_clear_sh s s' : dm_sh s s' -> dm_sh (dmean_clear F s) (dmean_clear F s').
Proof.
  intros [E [H _]]; split; [exact E|]; split; [exact H|]; split; [reflexivity|].
  exists 0%R; cbn; repeat split; lra.
Qed.
Lemma dm_push_sh s s' x x' : dm_sh s s' -> shifted c x x' ->
  dm_sh (dmean_push F s x) (dmean_push F s' x') /\ dpos (dmean_push F s x).
Proof.
  intros [E [[f [Ef Hf]] [En [n [Hn [Pn Hs]]]]]] Hx.
  assert (P : (0 < n + f * (1 - n))%R) by nra.
  split; [split; [exact E|split; [exists f; auto|split]]|].
  - cbn [dmean_push dm_norm]; rewrite E, En; reflexivity.
  - exists (n + f * (1 - n))%R; cbn [dmean_push dm_norm dm_sum].
    rewrite <- E, Hn, Ef; split; [reflexivity|split; [lra|]].
    revert Hs; generalize (dm_sum F s) (dm_sum F s'); intros t t' Hs.
    xd t; xd t'; try contradiction; xd x; xd x'; try contradiction; cbn in *; try exact I; subst; ring.
  - exists (n + f * (1 - n))%R; cbn [dmean_push dm_norm]; rewrite Hn, Ef; split; [reflexivity|exact P].
Qed.
Lemma dm_mean_sh s s' : dm_sh s s' -> dpos s -> shifted c (dmean_mean F s) (dmean_mean F s').
Proof.
  intros [_ [_ [En [n [Hn [_ Hs]]]]]] [n' [Hn' P]]; unfold dmean_mean; rewrite <- En, Hn.
  rewrite Hn in Hn'; injection Hn' as <-.
  assert (E : nlt (n := F) n0 (Fin n) = true) by (cbn; apply Rlt_bool_true, P).
  rewrite E.
  eapply sh_eq; [|apply sh_divr, Hs]; field; lra.
Qed.

Definition dv_sh (s s' : dvar F) : Prop :=
  dm_sh (dv_super F s) (dv_super F s') /\ dv_factor F s = dv_factor F s' /\
  dv_norm F s = dv_norm F s' /\ dv_sum F s = dv_sum F s'.
Lemma dv_init_sh f g : dfac f -> dv_sh (dvar_init F f g) (dvar_init F f g).
Proof. intros H; split; [apply dm_init_sh, H|auto]. Qed.
Lemma dv_clear_sh s s' : dv_sh s s' -> dv_sh (dvar_clear F s) (dvar_clear F s').
Proof. intros [H [E1 [E2 E3]]]; split; [apply dm_clear_sh, H|auto]. Qed.
Lemma dv_push_sh s s' x x' : dv_sh s s' -> shifted c x x' ->
  dv_sh (dvar_push F s x) (dvar_push F s' x') /\ dpos (dv_super F (dvar_push F s x)).
Proof.
  intros [H [E1 [E2 E3]]] Hx; destruct (dm_push_sh _ _ _ _ H Hx) as [H' P].
  split; [|exact P]; split; [exact H'|]; cbn [dvar_push dv_factor dv_norm dv_sum].
  rewrite E1, E2, E3, (sh_sub c x x' _ _ Hx (dm_mean_sh _ _ H' P)); auto.
Qed.
Lemma dv_stats s s' : dv_sh s s' -> dvar_variance F s = dvar_variance F s'.
Proof. intros [_ [_ [E1 E2]]]; unfold dvar_variance; rewrite E1, E2; reflexivity. Qed.

Definition ds_sh (s s' : dskew F) : Prop :=
  dv_sh (ds_super F s) (ds_super F s') /\ ds_factor F s = ds_factor F s' /\
  ds_norm F s = ds_norm F s' /\ ds_sum F s = ds_sum F s'.
Lemma ds_init_sh f g h : dfac f -> ds_sh (dskew_init F f g h) (dskew_init F f g h).
Proof. intros H; split; [apply dv_init_sh, H|auto]. Qed.
Lemma ds_clear_sh s s' : ds_sh s s' -> ds_sh (dskew_clear F s) (dskew_clear F s').
Proof. intros [H [E1 [E2 E3]]]; split; [apply dv_clear_sh, H|auto]. Qed.
Lemma ds_push_sh s s' x x' : ds_sh s s' -> shifted c x x' ->
  ds_sh (dskew_push F s x) (dskew_push F s' x') /\ dpos (dv_super F (ds_super F (dskew_push F s x))).
Proof.
  intros [H [E1 [E2 E3]]] Hx; destruct (dv_push_sh _ _ _ _ H Hx) as [H' P].
  split; [|exact P]; split; [exact H'|]; cbn [dskew_push ds_factor ds_norm ds_sum].
  unfold dvar_mean; rewrite E1, E2, E3, (sh_sub c x x' _ _ Hx (dm_mean_sh _ _ (proj1 H') P)); auto.
Qed.
Lemma ds_stats s s' : ds_sh s s' -> dskew_skewness F s = dskew_skewness F s'.
Proof. intros [H [_ [E1 E2]]]; unfold dskew_skewness; rewrite E1, E2, (dv_stats _ _ H); reflexivity. Qed.

Definition dk_sh (s s' : dkurt F) : Prop :=
  ds_sh (dk_super F s) (dk_super F s') /\ dk_factor F s = dk_factor F s' /\
  dk_norm F s = dk_norm F s' /\ dk_sum F s = dk_sum F s'.
Lemma dk_init_sh f g h i : dfac f -> dk_sh (dkurt_init F f g h i) (dkurt_init F f g h i).
Proof. intros H; split; [apply ds_init_sh, H|auto]. Qed.
Lemma dk_clear_sh s s' : dk_sh s s' -> dk_sh (dkurt_clear F s) (dkurt_clear F s').
Proof. intros [H [E1 [E2 E3]]]; split; [apply ds_clear_sh, H|auto]. Qed.
Lemma dk_push_sh s s' x x' : dk_sh s s' -> shifted c x x' ->
  dk_sh (dkurt_push F s x) (dkurt_push F s' x') /\
  dpos (dv_super F (ds_super F (dk_super F (dkurt_push F s x)))).
Proof.
  intros [H [E1 [E2 E3]]] Hx; destruct (ds_push_sh _ _ _ _ H Hx) as [H' P].
  split; [|exact P]; split; [exact H'|]; cbn [dkurt_push dk_factor dk_norm dk_sum].
  unfold dskew_mean, dvar_mean; rewrite E1, E2, E3, (sh_sub c x x' _ _ Hx (dm_mean_sh _ _ (proj1 (proj1 H')) P)); auto.
Qed.
Lemma dk_stats s s' : dk_sh s s' -> dkurt_kurtosis F s = dkurt_kurtosis F s'.
Proof.
  intros [H [_ [E1 E2]]]; unfold dkurt_kurtosis, dskew_variance.
  rewrite E1, E2, (dv_stats _ _ (proj1 H)); reflexivity.
Qed.
End D.
End Origin.
