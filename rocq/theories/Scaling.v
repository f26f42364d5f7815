(** * Multiplying the data by a constant

    A relation [rel c x y], read "y is c times x", that the arithmetic operations
    respect is respected by the filters: the mean is multiplied by c, the variance
    by c * c, and so on.  Layer A: any arithmetic. *)

From Coq Require Import ZArith NArith Bool List Lia Reals Lra.
From Verif Require Import Arith History HistoryLemmas Buffer
  Cumulative Window Interim Decay Impulse Psquare.
Import ListNotations.

(** What the operations have to satisfy, for the factors in [adm]. *)
Record scaling (F : num) (adm : R -> Prop) (rel : R -> F -> F -> Prop) : Prop := {
  sc_one : adm 1%R;
  sc_mult : forall c d, adm c -> adm d -> adm (c * d)%R;
  sc_div : forall c d, adm c -> adm d -> adm (c / d)%R;
  sc_abs : forall c, adm c -> adm (Rabs c);
  sc_nonzero : forall c, adm c -> c <> 0%R;
  sc_refl : forall x, rel 1%R x x;
  sc_zero : forall c, adm c -> rel c n0 n0;
  sc_add : forall c x x' y y', adm c -> rel c x x' -> rel c y y' ->
    rel c (nadd x y) (nadd x' y');
  sc_sub : forall c x x' y y', adm c -> rel c x x' -> rel c y y' ->
    rel c (nsub x y) (nsub x' y');
  sc_mul : forall c d x x' y y', adm c -> adm d -> rel c x x' -> rel d y y' ->
    rel (c * d)%R (nmul x y) (nmul x' y');
  sc_by : forall c x x' y, adm c -> rel c x x' -> rel c (ndiv x y) (ndiv x' y);
  sc_quot : forall c d x x' y y', adm c -> adm d -> rel c x x' -> rel d y y' ->
    neq y n0 = false -> rel (c / d)%R (ndiv x y) (ndiv x' y');
  sc_quot_sq : forall c d x x' y y', adm c -> adm d -> rel c x x' -> rel d y y' ->
    rel (c / (d * d))%R (ndiv x (nmul y y)) (ndiv x' (nmul y' y'));
  sc_quot_root : forall c d x x' y y', adm c -> adm d -> (0 < d)%R ->
    rel c x x' -> rel (d * d)%R y y' ->
    nlt y neps = false -> nlt y' neps = false ->
    rel (c / d)%R (ndiv x (nsqrt y)) (ndiv x' (nsqrt y'));
  sc_quot_pow : forall c d x x' y y', adm c -> adm d -> (0 < d)%R ->
    rel c x x' -> rel (d * d)%R y y' ->
    rel (c / (d * d * d))%R (ndiv x (nmul (nsqrt y) y)) (ndiv x' (nmul (nsqrt y') y'));
  sc_quot_pow' : forall c d x x' y y', adm c -> adm d -> (0 < d)%R ->
    rel c x x' -> rel (d * d)%R y y' ->
    rel (c / (d * d * d))%R (ndiv x (nmul y (nsqrt y))) (ndiv x' (nmul y' (nsqrt y')));
  sc_lt : forall c x x' y y', adm c -> (0 < c)%R -> rel c x x' -> rel c y y' ->
    nlt x y = nlt x' y';
  sc_le : forall c x x' y y', adm c -> (0 < c)%R -> rel c x x' -> rel c y y' ->
    nle x y = nle x' y';
  sc_eq : forall c x x', adm c -> rel c x x' -> neq x n0 = neq x' n0;
  sc_pos : forall x : F, nlt n0 x = true -> neq x n0 = false
}.

(** Histories whose pushed values are related. *)
Definition op_rel {A B : Type} (rel : A -> B -> Prop) (o : op A) (o' : op B) : Prop :=
  match o, o' with
  | Push a, Push b => rel a b
  | Clear, Clear => True
  | _, _ => False
  end.

Lemma run_rel {S S' A A' : Type} (srel : S -> S' -> Prop) (arel : A -> A' -> Prop)
  push clear push' clear' ops ops' :
  (forall s s' a a', srel s s' -> arel a a' -> srel (push s a) (push' s' a')) ->
  (forall s s', srel s s' -> srel (clear s) (clear' s')) ->
  Forall2 (op_rel arel) ops ops' ->
  forall s s', srel s s' -> srel (run push clear s ops) (run push' clear' s' ops').
Proof.
  intros Hp Hc H; induction H as [|o o' ops ops' Ho _ IH]; intros s s' Hs; [exact Hs|].
  unfold run; cbn [fold_left]; apply IH.
  destruct o, o'; cbn [op_rel] in Ho; try contradiction; cbn [History.step]; auto.
Qed.

Lemma Forall2_len {A B : Type} (r : A -> B -> Prop) l l' : Forall2 r l l' -> length l = length l'.
Proof. induction 1; cbn; congruence. Qed.

Lemma abs_sq c : (c * c = Rabs c * Rabs c)%R.
Proof. rewrite <- Rabs_mult; symmetry; apply Rabs_pos_eq; nra. Qed.

Lemma abs_one c : (c * c = 1)%R -> Rabs c = 1%R.
Proof.
  intros H; assert (E : c = 1%R \/ c = (-1)%R) by (assert ((c - 1) * (c + 1) = 0)%R by nra;
    destruct (Rmult_integral _ _ H0); [left|right]; lra).
  destruct E as [-> | ->]; [apply Rabs_R1|rewrite Rabs_left; lra].
Qed.

Section Filters.
Variable F : num.
Variable adm : R -> Prop.
Variable rel : R -> F -> F -> Prop.
Hypothesis sc : scaling F adm rel.

Lemma rel_eq c d x y : c = d -> rel c x y -> rel d x y.
Proof. intros ->; exact (fun H => H). Qed.

Local Lemma a1 : adm 1%R. Proof. exact (sc_one _ _ _ sc). Qed.
Local Lemma am c d : adm c -> adm d -> adm (c * d)%R. Proof. exact (sc_mult _ _ _ sc c d). Qed.
Local Lemma ad c d : adm c -> adm d -> adm (c / d)%R. Proof. exact (sc_div _ _ _ sc c d). Qed.
Local Lemma ab c : adm c -> adm (Rabs c). Proof. exact (sc_abs _ _ _ sc c). Qed.
Local Lemma rr x : rel 1%R x x. Proof. exact (sc_refl _ _ _ sc x). Qed.
Local Lemma rz c : adm c -> rel c n0 n0. Proof. exact (sc_zero _ _ _ sc c). Qed.
Local Lemma ra c x x' y y' : adm c -> rel c x x' -> rel c y y' -> rel c (nadd x y) (nadd x' y').
Proof. exact (sc_add _ _ _ sc c x x' y y'). Qed.
Local Lemma rs c x x' y y' : adm c -> rel c x x' -> rel c y y' -> rel c (nsub x y) (nsub x' y').
Proof. exact (sc_sub _ _ _ sc c x x' y y'). Qed.
Local Lemma rb c x x' y : adm c -> rel c x x' -> rel c (ndiv x y) (ndiv x' y).
Proof. exact (sc_by _ _ _ sc c x x' y). Qed.
Hint Resolve a1 am ad ab rr rz ra rs rb : scaling.

Lemma rel_const c x x' k : adm c -> rel c x x' -> rel c (nmul k x) (nmul k x').
Proof.
  intros Hc H; apply (rel_eq (1 * c)); [ring|]; apply (sc_mul _ _ _ sc); auto with scaling.
Qed.

Lemma rel_const' c x x' k : adm c -> rel c x x' -> rel c (nmul x k) (nmul x' k).
Proof.
  intros Hc H; apply (rel_eq (c * 1)); [ring|]; apply (sc_mul _ _ _ sc); auto with scaling.
Qed.

Hint Resolve rel_const rel_const' : scaling.

Lemma rel_mul c d e x x' y y' : adm c -> adm d -> e = (c * d)%R ->
  rel c x x' -> rel d y y' -> rel e (nmul x y) (nmul x' y').
Proof. intros; subst; apply (sc_mul _ _ _ sc); assumption. Qed.

(** ** Cumulative *)
Section C.
Variable c : R.
Hypothesis Hc : adm c.
Local Lemma hc2 : adm (c * c)%R. Proof. auto with scaling. Qed.
Local Lemma hc3 : adm (c * c * c)%R. Proof. auto with scaling. Qed.
Local Lemma hc4 : adm (c * c * c * c)%R. Proof. auto with scaling. Qed.
Hint Resolve hc2 hc3 hc4 : scaling.

Definition cmean_rel (s s' : cmean F) : Prop :=
  rel c (cm_mean F s) (cm_mean F s') /\ cm_count F s = cm_count F s'.

Lemma cmean_push_rel s s' x x' : cmean_rel s s' -> rel c x x' ->
  cmean_rel (cmean_push F s x) (cmean_push F s' x').
Proof.
  intros [Hm Hn] Hx; split; cbn [cmean_push cm_mean cm_count]; [|congruence].
  rewrite Hn; auto with scaling.
Qed.

Lemma cmean_init_rel : cmean_rel (cmean_init F) (cmean_init F).
Proof. split; cbn; auto with scaling. Qed.

Lemma cmean_clear_rel s s' : cmean_rel s s' -> cmean_rel (cmean_clear F s) (cmean_clear F s').
Proof. intros _; exact cmean_init_rel. Qed.

Lemma cmean_unbiased_rel s s' : cmean_rel s s' ->
  rel c (cmean_unbiased_mean F s) (cmean_unbiased_mean F s').
Proof.
  intros [Hm Hn]; unfold cmean_unbiased_mean; rewrite Hn; auto with scaling.
Qed.

Definition cvar_rel (s s' : cvar F) : Prop :=
  cmean_rel (cv_super F s) (cv_super F s') /\ rel (c * c) (cv_sum F s) (cv_sum F s').

Lemma cvar_init_rel : cvar_rel (cvar_init F) (cvar_init F).
Proof. split; [exact cmean_init_rel|cbn; auto with scaling]. Qed.

Lemma cvar_clear_rel s s' : cvar_rel s s' -> cvar_rel (cvar_clear F s) (cvar_clear F s').
Proof. intros _; exact cvar_init_rel. Qed.

Lemma cvar_push_rel s s' x x' : cvar_rel s s' -> rel c x x' ->
  cvar_rel (cvar_push F s x) (cvar_push F s' x').
Proof.
  intros [Hs Hv] Hx; pose proof (cmean_push_rel _ _ _ _ Hs Hx) as Hp.
  split; [exact Hp|]; cbn [cvar_push cv_sum]; unfold cmean_mean.
  destruct Hs as [Hm _], Hp as [Hq _].
  apply (sc_add _ _ _ sc); auto with scaling; apply (rel_mul c c); auto with scaling.
Qed.

Lemma cvar_variance_rel s s' : cvar_rel s s' ->
  rel (c * c) (cvar_variance F s) (cvar_variance F s').
Proof. intros [[_ Hn] Hv]; unfold cvar_variance; rewrite Hn; auto with scaling. Qed.

Lemma cvar_unbiased_rel s s' : cvar_rel s s' ->
  rel (c * c) (cvar_unbiased_variance F s) (cvar_unbiased_variance F s').
Proof. intros [[_ Hn] Hv]; unfold cvar_unbiased_variance; rewrite Hn; auto with scaling. Qed.

Definition cskew_rel (s s' : cskew F) : Prop :=
  cvar_rel (cs_super F s) (cs_super F s') /\ rel (c * c * c) (cs_sum F s) (cs_sum F s').

Lemma cskew_init_rel : cskew_rel (cskew_init F) (cskew_init F).
Proof. split; [exact cvar_init_rel|cbn; auto with scaling]. Qed.

Lemma cskew_clear_rel s s' : cskew_rel s s' -> cskew_rel (cskew_clear F s) (cskew_clear F s').
Proof. intros _; exact cskew_init_rel. Qed.

Lemma cskew_push_rel s s' x x' : cskew_rel s s' -> rel c x x' ->
  cskew_rel (cskew_push F s x) (cskew_push F s' x').
Proof.
  intros [Hs Hv] Hx; split; [exact (cvar_push_rel _ _ _ _ Hs Hx)|].
  cbn [cskew_push cs_sum]; unfold cvar_size, cmean_size, cvar_mean, cmean_mean.
  destruct Hs as [[Hm Hn] Hw]; rewrite Hn.
  apply (sc_add _ _ _ sc); auto with scaling; apply (rel_mul (c * c) c); auto with scaling.
  apply (sc_sub _ _ _ sc); auto with scaling.
  apply rel_const'; auto with scaling; apply rel_const'; auto with scaling; apply (rel_mul c c); auto with scaling.
Qed.

Lemma cskew_value_rel s s' : cskew_rel s s' ->
  cskew_skewness F s = n0 \/ cskew_skewness F s' = n0 \/
  rel (c * c * c / (Rabs c * Rabs c * Rabs c)) (cskew_skewness F s) (cskew_skewness F s').
Proof.
  intros [[[Hm Hn] Hw] Hv]; unfold cskew_skewness, cskew_size, cvar_size, cmean_size.
  destruct (nlt (cs_sum F s) neps); [left; reflexivity|].
  destruct (nlt (cs_sum F s') neps); [right; left; reflexivity|].
  right; right; rewrite Hn.
  apply (sc_quot_pow _ _ _ sc); auto with scaling.
  - apply Rabs_pos_lt, (sc_nonzero _ _ _ sc), Hc.
  - revert Hw; apply rel_eq, abs_sq.
Qed.

Lemma cskew_unbiased_rel s s' : cskew_rel s s' ->
  cskew_unbiased_skewness F s = n0 \/ cskew_unbiased_skewness F s' = n0 \/
  rel (c * c * c / (Rabs c * Rabs c * Rabs c))
    (cskew_unbiased_skewness F s) (cskew_unbiased_skewness F s').
Proof.
  intros [[[Hm Hn] Hw] Hv]; unfold cskew_unbiased_skewness, cskew_skewness,
    cskew_size, cvar_size, cmean_size.
  rewrite Hn; destruct (N.ltb _ _); [left; reflexivity|].
  destruct (nlt (cs_sum F s) neps); [left; reflexivity|].
  destruct (nlt (cs_sum F s') neps); [right; left; reflexivity|].
  right; right; assert (0 < Rabs c)%R by apply Rabs_pos_lt, (sc_nonzero _ _ _ sc), Hc.
  apply rb; [auto 7 with scaling|]; apply rel_const'; [auto 7 with scaling|].
  apply (sc_quot_pow _ _ _ sc); auto with scaling.
  revert Hw; apply rel_eq, abs_sq.
Qed.

Definition ckurt_rel (s s' : ckurt F) : Prop :=
  cskew_rel (ck_super F s) (ck_super F s') /\ rel (c * c * c * c) (ck_sum F s) (ck_sum F s').

Lemma ckurt_init_rel : ckurt_rel (ckurt_init F) (ckurt_init F).
Proof. split; [exact cskew_init_rel|cbn; auto with scaling]. Qed.

Lemma ckurt_clear_rel s s' : ckurt_rel s s' -> ckurt_rel (ckurt_clear F s) (ckurt_clear F s').
Proof. intros _; exact ckurt_init_rel. Qed.

Lemma ckurt_push_rel s s' x x' : ckurt_rel s s' -> rel c x x' ->
  ckurt_rel (ckurt_push F s x) (ckurt_push F s' x').
Proof.
  intros [Hs Hv] Hx; split; [exact (cskew_push_rel _ _ _ _ Hs Hx)|].
  cbn [ckurt_push ck_sum]; unfold cskew_size, cvar_size, cmean_size, cskew_mean, cvar_mean, cmean_mean.
  destruct Hs as [[[Hm Hn] Hw] Hu]; rewrite Hn.
  apply ra; auto with scaling; apply (rel_mul (c * c * c) c); auto with scaling.
  apply rs; auto with scaling.
  apply (rel_mul (c * c) c); auto with scaling.
  apply ra; auto with scaling.
  apply rel_const'; auto with scaling; apply rel_const'; auto with scaling; apply (rel_mul c c); auto with scaling.
Qed.

Lemma ckurt_ratio s s' : ckurt_rel s s' -> forall k,
  rel 1 (ndiv (nmul k (ck_sum F s)) (nmul (cv_sum F (cs_super F (ck_super F s)))
                                       (cv_sum F (cs_super F (ck_super F s)))))
        (ndiv (nmul k (ck_sum F s')) (nmul (cv_sum F (cs_super F (ck_super F s')))
                                       (cv_sum F (cs_super F (ck_super F s'))))).
Proof.
  intros [[[_ Hw] _] Hv] k.
  apply (rel_eq (c * c * c * c / (c * c * (c * c)))).
  { field; exact (sc_nonzero _ _ _ sc c Hc). }
  apply (sc_quot_sq _ _ _ sc); auto with scaling.
Qed.

Lemma ckurt_value_rel s s' : ckurt_rel s s' ->
  ckurt_kurtosis F s = n0 \/ ckurt_kurtosis F s' = n0 \/
  rel 1 (ckurt_kurtosis F s) (ckurt_kurtosis F s').
Proof.
  intros H; pose proof (ckurt_ratio _ _ H) as Hr; destruct H as [[[[Hm Hn] Hw] Hu] Hv].
  unfold ckurt_kurtosis, ckurt_size, cskew_size, cvar_size, cmean_size.
  destruct (nlt (ck_sum F s) neps); [left; reflexivity|].
  destruct (nlt (ck_sum F s') neps); [right; left; reflexivity|].
  right; right; rewrite Hn; apply Hr.
Qed.

(** When the factor is 1 or -1 the cut-offs are unaffected. *)
Lemma ckurt_value_unit s s' : (c * c = 1)%R -> ckurt_rel s s' ->
  rel 1 (ckurt_kurtosis F s) (ckurt_kurtosis F s').
Proof.
  intros C H; pose proof (ckurt_ratio _ _ H) as Hr; destruct H as [[[[Hm Hn] Hw] Hu] Hv].
  unfold ckurt_kurtosis, ckurt_size, cskew_size, cvar_size, cmean_size.
  rewrite (sc_lt _ _ _ sc 1 _ (ck_sum F s') neps neps); auto with scaling; [|lra|].
  - destruct (nlt (ck_sum F s') neps); [auto with scaling|]; rewrite Hn; apply Hr.
  - revert Hv; apply rel_eq; rewrite C, Rmult_1_l; exact C.
Qed.

Lemma ckurt_unbiased_unit s s' : (c * c = 1)%R -> ckurt_rel s s' ->
  rel 1 (ckurt_unbiased_kurtosis F s) (ckurt_unbiased_kurtosis F s').
Proof.
  intros C H; pose proof (ckurt_value_unit _ _ C H) as Hr; destruct H as [[[[Hm Hn] Hw] Hu] Hv].
  unfold ckurt_unbiased_kurtosis.
  unfold ckurt_size, cskew_size, cvar_size, cmean_size; rewrite Hn.
  destruct (N.ltb _ _); [auto with scaling|].
  rewrite (sc_lt _ _ _ sc 1 _ (ck_sum F s') neps neps); auto with scaling; [|lra|].
  - destruct (nlt (ck_sum F s') neps); auto with scaling.
  - revert Hv; apply rel_eq; rewrite C, Rmult_1_l; exact C.
Qed.

Definition ctrend_rel (s s' : ctrend F) : Prop :=
  cmean_rel (ct_center F s) (ct_center F s') /\ cmean_rel (ct_grand F s) (ct_grand F s').

Lemma ctrend_init_rel : ctrend_rel (ctrend_init F) (ctrend_init F).
Proof. split; exact cmean_init_rel. Qed.
Lemma ctrend_clear_rel s s' : ctrend_rel s s' -> ctrend_rel (ctrend_clear F s) (ctrend_clear F s').
Proof. intros [H H']; split; apply cmean_clear_rel; assumption. Qed.

Lemma ctrend_push_rel s s' x x' : ctrend_rel s s' -> rel c x x' ->
  ctrend_rel (ctrend_push F s x) (ctrend_push F s' x').
Proof.
  intros [Hs Hg] Hx; pose proof (cmean_push_rel _ _ _ _ Hs Hx) as Hp; split; [exact Hp|].
  cbn [ctrend_push ct_grand]; apply cmean_push_rel; [exact Hg|exact (proj1 Hp)].
Qed.

Lemma ctrend_value_rel s s' : ctrend_rel s s' -> rel c (ctrend_value F s) (ctrend_value F s').
Proof.
  intros [[Hs _] [Hg _]]; unfold ctrend_value, cmean_mean; auto with scaling.
Qed.
End C.

(** ** Two variables, multiplied by [c] and [d] *)
Section CD.
Variables c d : R.
Hypothesis Hc : adm c.
Hypothesis Hd : adm d.

Definition pair_rel (p p' : F * F) : Prop := rel c (fst p) (fst p') /\ rel d (snd p) (snd p').

Definition ccov_rel (s s' : ccov F) : Prop :=
  cmean_rel c (cc_x F s) (cc_x F s') /\ cmean_rel d (cc_y F s) (cc_y F s')
  /\ rel (c * d) (cc_center F s) (cc_center F s').

Lemma ccov_init_rel : ccov_rel (ccov_init F) (ccov_init F).
Proof. repeat split; cbn; auto with scaling. Qed.

Lemma ccov_clear_rel s s' : ccov_rel s s' -> ccov_rel (ccov_clear F s) (ccov_clear F s').
Proof. intros _; exact ccov_init_rel. Qed.

Lemma ccov_push_rel s s' p p' : ccov_rel s s' -> pair_rel p p' ->
  ccov_rel (ccov_push F s p) (ccov_push F s' p').
Proof.
  destruct p as [x y], p' as [x' y']; intros [Hx [Hy Hs]] [Px Py]; cbn [fst snd] in Px, Py.
  pose proof (cmean_push_rel c Hc _ _ _ _ Hx Px) as Qx.
  pose proof (cmean_push_rel d Hd _ _ _ _ Hy Py) as Qy.
  split; [exact Qx|split; [exact Qy|]]; cbn [ccov_push cc_center]; unfold cmean_mean.
  destruct Qx as [Qx _], Hy as [Hy _].
  apply ra; auto with scaling; apply (sc_mul _ _ _ sc); auto with scaling.
Qed.

Lemma ccov_variance_rel s s' : ccov_rel s s' ->
  rel (c * d) (ccov_variance F s) (ccov_variance F s').
Proof.
  intros [[_ Hn] [_ Hs]]; unfold ccov_variance, ccov_size, cmean_size; rewrite Hn.
  destruct (N.ltb _ _); auto with scaling.
Qed.

Lemma ccov_unbiased_rel s s' : ccov_rel s s' ->
  rel (c * d) (ccov_unbiased_variance F s) (ccov_unbiased_variance F s').
Proof.
  intros [[_ Hn] [_ Hs]]; unfold ccov_unbiased_variance, ccov_size, cmean_size; rewrite Hn.
  destruct (N.ltb _ _); auto with scaling.
Qed.

Definition ccorr_rel (s s' : ccorr F) : Prop :=
  ccov_rel (cr_co F s) (cr_co F s') /\ cvar_rel c (cr_x F s) (cr_x F s')
  /\ cvar_rel d (cr_y F s) (cr_y F s').

Lemma ccorr_init_rel : ccorr_rel (ccorr_init F) (ccorr_init F).
Proof. split; [exact ccov_init_rel|split; apply cvar_init_rel; assumption]. Qed.

Lemma ccorr_clear_rel s s' : ccorr_rel s s' -> ccorr_rel (ccorr_clear F s) (ccorr_clear F s').
Proof. intros _; exact ccorr_init_rel. Qed.

Lemma ccorr_push_rel s s' p p' : ccorr_rel s s' -> pair_rel p p' ->
  ccorr_rel (ccorr_push F s p) (ccorr_push F s' p').
Proof.
  intros [H [Hx Hy]] Hp; split; [apply ccov_push_rel; assumption|].
  split; apply cvar_push_rel; auto; apply Hp.
Qed.

Lemma vp_rel s s' : ccorr_rel s s' ->
  rel (Rabs c * Rabs d * (Rabs c * Rabs d))
    (nmul (cvar_variance F (cr_x F s)) (cvar_variance F (cr_y F s)))
    (nmul (cvar_variance F (cr_x F s')) (cvar_variance F (cr_y F s'))).
Proof.
  intros [_ [Hx Hy]].
  apply (rel_mul (c * c) (d * d)); auto with scaling.
  - replace (c * c)%R with (Rabs c * Rabs c)%R by (rewrite <- abs_sq; reflexivity).
    replace (d * d)%R with (Rabs d * Rabs d)%R by (rewrite <- abs_sq; reflexivity); ring.
  - apply cvar_variance_rel; assumption.
  - apply cvar_variance_rel; assumption.
Qed.

Lemma cd_pos : (0 < Rabs c * Rabs d)%R.
Proof. apply Rmult_lt_0_compat; apply Rabs_pos_lt, (sc_nonzero _ _ _ sc); assumption. Qed.

Lemma ccorr_value_rel s s' : ccorr_rel s s' ->
  ccorr_value F s = n1 \/ ccorr_value F s' = n1 \/
  rel (c * d / (Rabs c * Rabs d)) (ccorr_value F s) (ccorr_value F s').
Proof.
  intros H; pose proof (vp_rel _ _ H) as Hv; pose proof cd_pos as P; destruct H as [H [Hx Hy]].
  unfold ccorr_value.
  destruct (nlt _ neps) eqn:E; [left; reflexivity|].
  destruct (nlt (nmul (cvar_variance F (cr_x F s')) _) neps) eqn:E'; [right; left; reflexivity|].
  right; right; apply (sc_quot_root _ _ _ sc); auto with scaling.
  apply ccov_variance_rel, H.
Qed.

Lemma ccorr_value_unit s s' : (c * c = 1)%R -> (d * d = 1)%R -> ccorr_rel s s' ->
  (ccorr_value F s = n1 /\ ccorr_value F s' = n1) \/
  rel (c * d) (ccorr_value F s) (ccorr_value F s').
Proof.
  intros C D H; pose proof (vp_rel _ _ H) as Hv; pose proof cd_pos as P; destruct H as [H [Hx Hy]].
  assert (U : (Rabs c * Rabs d = 1)%R).
  { replace (Rabs c) with 1%R by (symmetry; apply abs_one, C).
    replace (Rabs d) with 1%R by (symmetry; apply abs_one, D); ring. }
  unfold ccorr_value.
  assert (E : nlt (nmul (cvar_variance F (cr_x F s)) (cvar_variance F (cr_y F s))) neps
            = nlt (nmul (cvar_variance F (cr_x F s')) (cvar_variance F (cr_y F s'))) neps).
  { apply (sc_lt _ _ _ sc 1); auto with scaling; [lra|].
    revert Hv; apply rel_eq; rewrite U; ring. }
  rewrite E; destruct (nlt (nmul (cvar_variance F (cr_x F s')) _) neps) eqn:E'; [left; split; reflexivity|].
  right; apply (rel_eq (c * d / (Rabs c * Rabs d))); [rewrite U; field|].
  apply (sc_quot_root _ _ _ sc); auto with scaling.
  apply ccov_variance_rel, H.
Qed.

Definition creg_rel (s s' : creg F) : Prop :=
  ccov_rel (cg_co F s) (cg_co F s') /\ cvar_rel c (cg_x F s) (cg_x F s')
  /\ cvar_rel d (cg_y F s) (cg_y F s').

Lemma creg_init_rel : creg_rel (creg_init F) (creg_init F).
Proof. split; [exact ccov_init_rel|split; apply cvar_init_rel; assumption]. Qed.

Lemma creg_clear_rel s s' : creg_rel s s' -> creg_rel (creg_clear F s) (creg_clear F s').
Proof. intros _; exact creg_init_rel. Qed.

Lemma creg_push_rel s s' p p' : creg_rel s s' -> pair_rel p p' ->
  creg_rel (creg_push F s p) (creg_push F s' p').
Proof.
  intros [H [Hx Hy]] Hp; split; [apply ccov_push_rel; assumption|].
  split; apply cvar_push_rel; auto; apply Hp.
Qed.

Lemma slope_rel v v' w w' : rel (c * c) v v' -> rel (c * d) w w' ->
  rel (d / c) (if neq v n0 then n0 else ndiv w v) (if neq v' n0 then n0 else ndiv w' v').
Proof.
  intros Hv Hw; pose proof (sc_nonzero _ _ _ sc c Hc) as Z.
  rewrite (sc_eq _ _ _ sc (c * c) v v') by auto with scaling.
  destruct (neq v' n0) eqn:E; [auto with scaling|].
  apply (rel_eq (c * d / (c * c))); [field; exact Z|].
  apply (sc_quot _ _ _ sc); auto with scaling.
  rewrite (sc_eq _ _ _ sc (c * c) v v') by auto with scaling; exact E.
Qed.

Lemma at_rel m m' b b' x x' p p' : rel d m m' -> rel (d / c) b b' -> rel c x x' -> rel c p p' ->
  rel d (nsub m (nmul b (nsub x p))) (nsub m' (nmul b' (nsub x' p'))).
Proof.
  intros Hm Hb Hx Hp; apply rs; auto with scaling; apply (rel_mul (d / c) c); auto with scaling.
  field; exact (sc_nonzero _ _ _ sc c Hc).
Qed.

Lemma creg_slope_rel s s' : creg_rel s s' -> rel (d / c) (creg_slope F s) (creg_slope F s').
Proof.
  intros [H [Hx Hy]]; apply slope_rel; [apply cvar_variance_rel|apply ccov_variance_rel]; assumption.
Qed.

Lemma creg_at_rel s s' p p' : creg_rel s s' -> rel c p p' ->
  rel d (creg_at F s p) (creg_at F s' p').
Proof.
  intros H Hp; pose proof (creg_slope_rel _ _ H); destruct H as [H [[[Hx _] _] [[Hy _] _]]].
  apply at_rel; assumption.
Qed.
End CD.

(** ** Window *)
Section W.
Variable W : nat.

Lemma rb_push_back_rel {A B : Type} (r : A -> B -> Prop) l l' a b :
  Forall2 r l l' -> r a b -> Forall2 r (rb_push_back W l a) (rb_push_back W l' b).
Proof.
  intros H Hr; unfold rb_push_back, rb_full; rewrite (Forall2_len _ _ _ H).
  destruct (Nat.leb _ _); apply Forall2_app; auto; inversion H; subst; auto.
Qed.

Section C.
Variable c : R.
Hypothesis Hc : adm c.

Definition wmean_rel (s s' : wmean F) : Prop :=
  Forall2 (rel c) (wm_window F s) (wm_window F s') /\ rel c (wm_mean F s) (wm_mean F s').

Lemma wmean_init_rel : wmean_rel (wmean_init F) (wmean_init F).
Proof. split; cbn; auto with scaling. Qed.

Lemma wmean_clear_rel s s' : wmean_rel s s' -> wmean_rel (wmean_clear F s) (wmean_clear F s').
Proof. intros _; exact wmean_init_rel. Qed.

Lemma wmean_push_rel s s' x x' : wmean_rel s s' -> rel c x x' ->
  wmean_rel (wmean_push F W s x) (wmean_push F W s' x').
Proof.
  intros [Hw Hm] Hx; split; cbn [wmean_push wm_window wm_mean]; [apply rb_push_back_rel; assumption|].
  unfold wmean_full, wmean_size, rb_full, rb_size, rb_front; rewrite (Forall2_len _ _ _ Hw).
  destruct (Nat.leb _ _); [|auto with scaling].
  inversion Hw as [|f f' t t' Hf Ht E E']; cbn [hd_error]; auto with scaling.
Qed.

Definition wvar_rel (s s' : wvar F) : Prop :=
  wmean_rel (wv_super F s) (wv_super F s') /\ rel (c * c) (wv_sum F s) (wv_sum F s').

Lemma wvar_init_rel : wvar_rel (wvar_init F) (wvar_init F).
Proof. split; [exact wmean_init_rel|cbn; auto with scaling]. Qed.

Lemma wvar_clear_rel s s' : wvar_rel s s' -> wvar_rel (wvar_clear F s) (wvar_clear F s').
Proof. intros _; exact wvar_init_rel. Qed.

Lemma wvar_delta_rel x x' o o' n n' : rel c x x' -> rel c o o' -> rel c n n' ->
  rel (c * c) (wvar_delta F x o n) (wvar_delta F x' o' n').
Proof. intros; apply (sc_mul _ _ _ sc); auto with scaling. Qed.

Lemma wvar_push_rel s s' x x' : wvar_rel s s' -> rel c x x' ->
  wvar_rel (wvar_push F W s x) (wvar_push F W s' x').
Proof.
  intros Hs Hx; pose proof Hs as [[Hw Hm] Hv]; unfold wvar_push, wvar_size.
  pose proof (Forall2_len _ _ _ Hw) as HL.
  unfold wmean_full, wmean_size, rb_full, rb_size, rb_front, wmean_mean.
  rewrite HL; destruct (Nat.leb _ _).
  - destruct (wm_window F (wv_super F s)) as [|f t], (wm_window F (wv_super F s')) as [|f' t'];
      try (inversion Hw; fail); cbn [hd_error]; [exact Hs|].
    assert (Hf : rel c f f') by (inversion Hw; assumption).
    assert (Hn : rel c (nadd (wm_mean F (wv_super F s)) (ndiv (nsub x f) (nofsz (N.of_nat (length (f' :: t'))))))
                       (nadd (wm_mean F (wv_super F s')) (ndiv (nsub x' f') (nofsz (N.of_nat (length (f' :: t')))))))
      by auto with scaling.
    split; [split; [apply (rb_push_back_rel (rel c)); assumption|exact Hn]|].
    cbn [wv_sum]; auto using wvar_delta_rel with scaling.
  - assert (Hn : rel c (nadd (wm_mean F (wv_super F s)) (ndiv (nsub x (wm_mean F (wv_super F s)))
                           (nofsz (szadd (N.of_nat (length (wm_window F (wv_super F s')))) 1))))
                       (nadd (wm_mean F (wv_super F s')) (ndiv (nsub x' (wm_mean F (wv_super F s')))
                           (nofsz (szadd (N.of_nat (length (wm_window F (wv_super F s')))) 1)))))
      by auto with scaling.
    split; [split; [apply (rb_push_back_rel (rel c)); assumption|exact Hn]|].
    cbn [wv_sum]; auto using wvar_delta_rel with scaling.
Qed.

Lemma nmax0_rel e x x' : adm e -> (0 < e)%R -> rel e x x' -> rel e (nmax n0 x) (nmax n0 x').
Proof.
  intros He P H; unfold nmax; rewrite (sc_lt _ _ _ sc e n0 n0 x x') by auto with scaling.
  destruct (nlt n0 x'); auto with scaling.
Qed.

Lemma sq_pos : (0 < c * c)%R.
Proof. pose proof (sc_nonzero _ _ _ sc c Hc); nra. Qed.

Lemma wvar_variance_rel s s' : wvar_rel s s' ->
  rel (c * c) (wvar_variance F s) (wvar_variance F s').
Proof.
  intros [[Hw _] Hv]; unfold wvar_variance, wvar_size, wmean_size, rb_size.
  rewrite (Forall2_len _ _ _ Hw); destruct (N.ltb _ _); auto with scaling.
  apply nmax0_rel; auto using sq_pos with scaling.
Qed.

Lemma wvar_unbiased_rel s s' : wvar_rel s s' ->
  rel (c * c) (wvar_unbiased_variance F s) (wvar_unbiased_variance F s').
Proof.
  intros [[Hw _] Hv]; unfold wvar_unbiased_variance, wvar_size, wmean_size, rb_size.
  rewrite (Forall2_len _ _ _ Hw); destruct (N.ltb _ _); auto with scaling.
  apply nmax0_rel; auto using sq_pos with scaling.
Qed.
End C.

Section CD.
Variables c d : R.
Hypothesis Hc : adm c.
Hypothesis Hd : adm d.

Definition wcov_rel (s s' : wcov F) : Prop :=
  Forall2 (pair_rel c d) (wc_window F s) (wc_window F s') /\ rel c (wc_x F s) (wc_x F s')
  /\ rel d (wc_y F s) (wc_y F s') /\ rel (c * d) (wc_xy F s) (wc_xy F s').

Lemma wcov_init_rel : wcov_rel (wcov_init F) (wcov_init F).
Proof. repeat split; cbn; auto with scaling. Qed.

Lemma wcov_clear_rel s s' : wcov_rel s s' -> wcov_rel (wcov_clear F s) (wcov_clear F s').
Proof. intros _; exact wcov_init_rel. Qed.

Lemma wcov_push_rel s s' p p' : wcov_rel s s' -> pair_rel c d p p' ->
  wcov_rel (wcov_push F W s p) (wcov_push F W s' p').
Proof.
  intros Hs Hp; pose proof Hs as [Hw [Hx [Hy Hxy]]]; unfold wcov_push.
  pose proof (rb_push_back_rel (pair_rel c d) _ _ p p' Hw Hp) as Hb.
  destruct p as [x y], p' as [x' y'], Hp as [Px Py]; cbn [fst snd] in Px, Py.
  unfold rb_full; rewrite (Forall2_len _ _ _ Hw); destruct (Nat.leb _ _).
  - destruct (wc_window F s) as [|[f g] t], (wc_window F s') as [|[f' g'] t'];
      try (inversion Hw; fail); unfold rb_front; cbn [hd_error]; [exact Hs|].
    assert (Hf : pair_rel c d (f, g) (f', g')) by (inversion Hw; assumption).
    destruct Hf as [Hf Hg]; cbn [fst snd] in Hf, Hg.
    split; [exact Hb|]; cbn [wc_x wc_y wc_xy].
    repeat split; auto 6 with scaling.
    apply ra; auto with scaling; apply rs; auto with scaling; apply (sc_mul _ _ _ sc); auto.
  - split; [exact Hb|]; cbn [wc_x wc_y wc_xy]; repeat split; auto with scaling.
    apply ra; auto with scaling; apply (sc_mul _ _ _ sc); auto.
Qed.

Lemma wcov_cosum_rel s s' : wcov_rel s s' -> rel (c * d) (wcov_cosum F s) (wcov_cosum F s').
Proof.
  intros [Hw [Hx [Hy Hxy]]]; unfold wcov_cosum, wcov_size, rb_size; rewrite (Forall2_len _ _ _ Hw).
  apply rs; auto with scaling; apply rb; auto with scaling; apply (sc_mul _ _ _ sc); auto.
Qed.

Lemma wcov_variance_rel s s' : wcov_rel s s' ->
  rel (c * d) (wcov_variance F s) (wcov_variance F s').
Proof.
  intros H; pose proof (wcov_cosum_rel _ _ H); unfold wcov_variance, wcov_size, rb_size.
  rewrite (Forall2_len _ _ _ (proj1 H)); destruct (N.ltb _ _); auto with scaling.
Qed.

Lemma wcov_unbiased_rel s s' : wcov_rel s s' ->
  rel (c * d) (wcov_unbiased_variance F s) (wcov_unbiased_variance F s').
Proof.
  intros H; pose proof (wcov_cosum_rel _ _ H); unfold wcov_unbiased_variance, wcov_size, rb_size.
  rewrite (Forall2_len _ _ _ (proj1 H)); destruct (N.ltb _ _); auto with scaling.
Qed.

Definition wreg_rel (s s' : wreg F) : Prop :=
  wcov_rel (wr_cov F s) (wr_cov F s') /\ wvar_rel c (wr_x F s) (wr_x F s').

Lemma wreg_init_rel : wreg_rel (wreg_init F) (wreg_init F).
Proof. split; [exact wcov_init_rel|apply wvar_init_rel, Hc]. Qed.

Lemma wreg_clear_rel s s' : wreg_rel s s' -> wreg_rel (wreg_clear F s) (wreg_clear F s').
Proof. intros _; exact wreg_init_rel. Qed.

Lemma wreg_push_rel s s' p p' : wreg_rel s s' -> pair_rel c d p p' ->
  wreg_rel (wreg_push F W s p) (wreg_push F W s' p').
Proof.
  intros [H Hx] Hp; split; [apply wcov_push_rel; assumption|].
  apply wvar_push_rel; auto; apply Hp.
Qed.

Lemma wreg_slope_rel s s' : wreg_rel s s' -> rel (d / c) (wreg_slope F s) (wreg_slope F s').
Proof.
  intros [H Hx]; apply slope_rel; auto; [apply wvar_variance_rel|apply wcov_variance_rel]; assumption.
Qed.

Lemma wreg_at_rel s s' p p' : wreg_rel s s' -> rel c p p' ->
  rel d (wreg_at F s p) (wreg_at F s' p').
Proof.
  intros H Hp; pose proof (wreg_slope_rel _ _ H); destruct H as [[Hw [_ [Hy _]]] [[_ Hm] _]].
  unfold wreg_at; apply (at_rel c d); auto; unfold wcov_size, rb_size; rewrite (Forall2_len _ _ _ Hw); auto with scaling.
Qed.
End CD.
End W.

(** ** Interim *)
Section I.
Variable W : N.

Section Duo.
Context {S A : Type}.
Variable srel : S -> S -> Prop.
Variable arel : A -> A -> Prop.
Variable init : S.
Variable clear : S -> S.
Variable push : S -> A -> S.
Variable size : S -> N.
Variable empty : S -> bool.
Hypothesis Hinit : srel init init.
Hypothesis Hclear : forall s s', srel s s' -> srel (clear s) (clear s').
Hypothesis Hpush : forall s s' a a', srel s s' -> arel a a' -> srel (push s a) (push s' a').
Hypothesis Hsize : forall s s', srel s s' -> size s = size s'.
Hypothesis Hempty : forall s s', srel s s' -> empty s = empty s'.

Definition duo_rel (u u' : duo S) : Prop :=
  srel (active u) (active u') /\ srel (passive u) (passive u').

Lemma duo_init_rel : duo_rel (duo_init init) (duo_init init).
Proof. split; exact Hinit. Qed.

Lemma duo_clear_rel u u' : duo_rel u u' -> duo_rel (duo_clear clear u) (duo_clear clear u').
Proof. intros [Ha Hp]; split; cbn; auto. Qed.

Lemma duo_push_rel u u' a a' : duo_rel u u' -> arel a a' ->
  duo_rel (duo_push W clear push size u a) (duo_push W clear push size u' a').
Proof.
  intros [Ha Hp] Hr; unfold duo_push; rewrite (Hsize _ _ Ha).
  destruct (N.leb _ _); split; cbn [active passive]; auto.
Qed.

Variable c : R.
Hypothesis Hc : adm c.
Variable stat : S -> F.
Hypothesis Hstat : forall s s', srel s s' -> rel c (stat s) (stat s').

Lemma duo_mean_rel u u' : duo_rel u u' ->
  rel c (duo_mean F W size empty stat u) (duo_mean F W size empty stat u').
Proof.
  intros [Ha Hp]; unfold duo_mean; rewrite (Hempty _ _ Hp), (Hsize _ _ Ha).
  destruct (empty (passive u')); auto 7 with scaling.
Qed.

Lemma duo_variance_rel u u' : duo_rel u u' ->
  rel c (duo_variance F W size empty stat u) (duo_variance F W size empty stat u').
Proof.
  intros [Ha Hp]; unfold duo_variance; rewrite (Hempty _ _ Hp), (Hsize _ _ Ha).
  destruct (empty (passive u')); auto; destruct (N.leb _ _); auto 7 with scaling.
Qed.

Lemma duo_stat_rel u u' : duo_rel u u' ->
  rel c (duo_stat F W size empty stat u) (duo_stat F W size empty stat u').
Proof.
  intros [Ha Hp]; unfold duo_stat; rewrite (Hempty _ _ Hp), (Hsize _ _ Ha).
  destruct (empty (passive u')); auto; destruct (N.leb _ _); auto 7 with scaling.
Qed.
End Duo.

Section CD.
Variables c d : R.
Hypothesis Hc : adm c.
Hypothesis Hd : adm d.

Definition imean_rel := duo_rel (cmean_rel c).
Definition ivar_rel := duo_rel (cvar_rel c).
Definition ikurt_rel := duo_rel (ckurt_rel c).
Definition icov_rel := duo_rel (ccov_rel c d).

Lemma imean_init_rel : imean_rel (imean_init F) (imean_init F).
Proof. apply duo_init_rel, cmean_init_rel, Hc. Qed.
Lemma imean_clear_rel s s' : imean_rel s s' -> imean_rel (imean_clear F s) (imean_clear F s').
Proof. apply duo_clear_rel; intros; eapply cmean_clear_rel; eassumption. Qed.
Lemma imean_push_rel s s' x x' : imean_rel s s' -> rel c x x' ->
  imean_rel (imean_push F W s x) (imean_push F W s' x').
Proof.
  intros H Hx; unfold imean_push; eapply (duo_push_rel (cmean_rel c) (rel c)); try eassumption.
  - intros; eapply cmean_clear_rel; eassumption.
  - intros; apply cmean_push_rel; assumption.
  - intros t t' [_ E]; exact E.
Qed.
Lemma imean_mean_rel s s' : imean_rel s s' -> rel c (imean_mean F W s) (imean_mean F W s').
Proof.
  intros H; unfold imean_mean; eapply (duo_mean_rel (cmean_rel c)); try eassumption.
  - intros t t' [_ E]; exact E.
  - intros t t' [_ E]; unfold cmean_empty, cmean_size; rewrite E; reflexivity.
  - intros t t' [E _]; exact E.
Qed.

Lemma ivar_init_rel : ivar_rel (ivar_init F) (ivar_init F).
Proof. apply duo_init_rel, cvar_init_rel, Hc. Qed.
Lemma ivar_clear_rel s s' : ivar_rel s s' -> ivar_rel (ivar_clear F s) (ivar_clear F s').
Proof. apply duo_clear_rel; intros; eapply cvar_clear_rel; eassumption. Qed.
Lemma ivar_push_rel s s' x x' : ivar_rel s s' -> rel c x x' ->
  ivar_rel (ivar_push F W s x) (ivar_push F W s' x').
Proof.
  intros H Hx; unfold ivar_push; eapply (duo_push_rel (cvar_rel c) (rel c)); try eassumption.
  - intros; eapply cvar_clear_rel; eassumption.
  - intros; apply cvar_push_rel; assumption.
  - intros t t' [[_ E] _]; exact E.
Qed.
Lemma ivar_variance_rel s s' : ivar_rel s s' ->
  rel (c * c) (ivar_variance F W s) (ivar_variance F W s').
Proof.
  intros H; unfold ivar_variance; eapply (duo_variance_rel (cvar_rel c)); try eassumption.
  - intros t t' [[_ E] _]; exact E.
  - intros t t' [[_ E] _]; unfold cvar_empty, cmean_empty, cmean_size; rewrite E; reflexivity.
  - auto with scaling.
  - intros; apply cvar_variance_rel; assumption.
Qed.
Lemma ivar_mean_rel s s' : ivar_rel s s' -> rel c (ivar_mean F W s) (ivar_mean F W s').
Proof.
  intros H; unfold ivar_mean; eapply (duo_mean_rel (cvar_rel c)); try eassumption.
  - intros t t' [[_ E] _]; exact E.
  - intros t t' [[_ E] _]; unfold cvar_empty, cmean_empty, cmean_size; rewrite E; reflexivity.
  - intros t t' [[E _] _]; exact E.
Qed.

Lemma ikurt_init_rel : ikurt_rel (ikurt_init F) (ikurt_init F).
Proof. apply duo_init_rel, ckurt_init_rel, Hc. Qed.
Lemma ikurt_clear_rel s s' : ikurt_rel s s' -> ikurt_rel (ikurt_clear F s) (ikurt_clear F s').
Proof. apply duo_clear_rel; intros; eapply ckurt_clear_rel; eassumption. Qed.
Lemma ikurt_push_rel s s' x x' : ikurt_rel s s' -> rel c x x' ->
  ikurt_rel (ikurt_push F W s x) (ikurt_push F W s' x').
Proof.
  intros H Hx; unfold ikurt_push; eapply (duo_push_rel (ckurt_rel c) (rel c)); try eassumption.
  - intros; eapply ckurt_clear_rel; eassumption.
  - intros; apply ckurt_push_rel; assumption.
  - intros t t' [[[[_ E] _] _] _]; exact E.
Qed.
Lemma ikurt_kurtosis_unit s s' : (c * c = 1)%R -> ikurt_rel s s' ->
  rel 1 (ikurt_kurtosis F W s) (ikurt_kurtosis F W s').
Proof.
  intros C H; unfold ikurt_kurtosis; eapply (duo_stat_rel (ckurt_rel c)); try eassumption.
  - intros t t' [[[[_ E] _] _] _]; exact E.
  - intros t t' [[[[_ E] _] _] _]; unfold ckurt_empty, cskew_empty, cvar_empty, cmean_empty, cmean_size;
      rewrite E; reflexivity.
  - auto with scaling.
  - intros; apply (ckurt_value_unit c); assumption.
Qed.

Lemma icov_init_rel : icov_rel (icov_init F) (icov_init F).
Proof. apply duo_init_rel, ccov_init_rel; assumption. Qed.
Lemma icov_clear_rel s s' : icov_rel s s' -> icov_rel (icov_clear F s) (icov_clear F s').
Proof. apply duo_clear_rel; intros; eapply ccov_clear_rel; eassumption. Qed.
Lemma icov_push_rel s s' p p' : icov_rel s s' -> pair_rel c d p p' ->
  icov_rel (icov_push F W s p) (icov_push F W s' p').
Proof.
  intros H Hx; unfold icov_push; eapply (duo_push_rel (ccov_rel c d) (pair_rel c d)); try eassumption.
  - intros; eapply ccov_clear_rel; eassumption.
  - intros; apply ccov_push_rel; assumption.
  - intros t t' [[_ E] _]; exact E.
Qed.
Lemma icov_variance_rel s s' : icov_rel s s' ->
  rel (c * d) (icov_variance F W s) (icov_variance F W s').
Proof.
  intros H; unfold icov_variance; eapply (duo_variance_rel (ccov_rel c d)); try eassumption.
  - intros t t' [[_ E] _]; exact E.
  - intros t t' [[_ E] _]; unfold ccov_size0, ccov_size, cmean_size; rewrite E; reflexivity.
  - auto with scaling.
  - intros; apply ccov_variance_rel; assumption.
Qed.
End CD.

Section Reg.
Variables c d : R.
Hypothesis Hc : adm c.
Hypothesis Hd : adm d.

Definition ireg_rel (s s' : ireg F) : Prop :=
  icov_rel c d (ir_cov F s) (ir_cov F s') /\ ivar_rel c (ir_x F s) (ir_x F s')
  /\ imean_rel d (ir_y F s) (ir_y F s').

Lemma ireg_init_rel : ireg_rel (ireg_init F) (ireg_init F).
Proof.
  split; [exact (icov_init_rel c d Hc Hd)|split; [exact (ivar_init_rel c Hc)|exact (imean_init_rel d Hd)]].
Qed.
Lemma ireg_clear_rel s s' : ireg_rel s s' -> ireg_rel (ireg_clear F s) (ireg_clear F s').
Proof.
  intros [H [Hx Hy]]; split; [exact (icov_clear_rel c d Hc Hd _ _ H)|split; [|exact Hy]].
  exact (ivar_clear_rel c Hc _ _ Hx).
Qed.
Lemma ireg_push_rel s s' p p' : ireg_rel s s' -> pair_rel c d p p' ->
  ireg_rel (ireg_push F W s p) (ireg_push F W s' p').
Proof.
  intros [H [Hx Hy]] Hp; split; [apply icov_push_rel; assumption|split].
  - apply ivar_push_rel; auto; apply Hp.
  - apply imean_push_rel; auto; apply Hp.
Qed.
Lemma ireg_slope_rel s s' : ireg_rel s s' -> rel (d / c) (ireg_slope F W s) (ireg_slope F W s').
Proof.
  intros [H [Hx Hy]]; apply slope_rel; auto; [apply ivar_variance_rel|apply icov_variance_rel]; assumption.
Qed.
Lemma ireg_at_rel s s' p p' : ireg_rel s s' -> rel c p p' ->
  rel d (ireg_at F W s p) (ireg_at F W s' p').
Proof.
  intros H Hp; pose proof (ireg_slope_rel _ _ H); destruct H as [H [Hx Hy]].
  unfold ireg_at; apply (at_rel c d); auto using imean_mean_rel, ivar_mean_rel.
Qed.
End Reg.
End I.

(** ** Decay *)
Section D.
Variable c : R.
Hypothesis Hc : adm c.
Local Lemma hd2 : adm (c * c)%R. Proof. auto with scaling. Qed.
Local Lemma hd3 : adm (c * c * c)%R. Proof. auto with scaling. Qed.
Local Lemma hd4 : adm (c * c * c * c)%R. Proof. auto with scaling. Qed.
Hint Resolve hd2 hd3 hd4 : scaling.

Definition dmean_rel (s s' : dmean F) : Prop :=
  dm_factor F s = dm_factor F s' /\ dm_norm F s = dm_norm F s' /\ rel c (dm_sum F s) (dm_sum F s').

Lemma dmean_init_rel f : dmean_rel (dmean_init F f) (dmean_init F f).
Proof. repeat split; cbn; auto with scaling. Qed.
Lemma dmean_clear_rel s s' : dmean_rel s s' -> dmean_rel (dmean_clear F s) (dmean_clear F s').
Proof. intros [Hf _]; repeat split; cbn; auto with scaling. Qed.
Lemma dmean_push_rel s s' x x' : dmean_rel s s' -> rel c x x' ->
  dmean_rel (dmean_push F s x) (dmean_push F s' x').
Proof.
  intros [Hf [Hn Hs]] Hx; unfold dmean_push; rewrite Hf, Hn; repeat split; cbn [dm_sum].
  auto with scaling.
Qed.
Lemma dmean_mean_rel s s' : dmean_rel s s' -> rel c (dmean_mean F s) (dmean_mean F s').
Proof.
  intros [Hf [Hn Hs]]; unfold dmean_mean; rewrite Hn; destruct (nlt _ _); auto with scaling.
Qed.

Definition dvar_rel (s s' : dvar F) : Prop :=
  dmean_rel (dv_super F s) (dv_super F s') /\ dv_factor F s = dv_factor F s'
  /\ dv_norm F s = dv_norm F s' /\ rel (c * c) (dv_sum F s) (dv_sum F s').

Lemma dvar_init_rel f g : dvar_rel (dvar_init F f g) (dvar_init F f g).
Proof. split; [apply dmean_init_rel|repeat split; cbn; auto with scaling]. Qed.
Lemma dvar_clear_rel s s' : dvar_rel s s' -> dvar_rel (dvar_clear F s) (dvar_clear F s').
Proof.
  intros [Hs [Hf [Hn _]]]; split; [apply dmean_clear_rel, Hs|]; repeat split; cbn; auto with scaling.
Qed.
Lemma dvar_push_rel s s' x x' : dvar_rel s s' -> rel c x x' ->
  dvar_rel (dvar_push F s x) (dvar_push F s' x').
Proof.
  intros [Hs [Hf [Hn Hv]]] Hx; pose proof (dmean_push_rel _ _ _ _ Hs Hx) as Hp.
  pose proof (dmean_mean_rel _ _ Hp) as Hm.
  unfold dvar_push; rewrite Hf, Hn; split; [exact Hp|]; repeat split; cbn [dv_sum].
  apply ra; auto with scaling; apply rel_const; auto with scaling; apply rs; auto with scaling.
  apply (rel_mul c c); auto with scaling.
Qed.
Lemma dvar_variance_rel s s' : dvar_rel s s' -> rel (c * c) (dvar_variance F s) (dvar_variance F s').
Proof.
  intros [Hs [Hf [Hn Hv]]]; unfold dvar_variance; rewrite Hn; destruct (nlt _ _); auto with scaling.
Qed.

Definition dskew_rel (s s' : dskew F) : Prop :=
  dvar_rel (ds_super F s) (ds_super F s') /\ ds_factor F s = ds_factor F s'
  /\ ds_norm F s = ds_norm F s' /\ rel (c * c * c) (ds_sum F s) (ds_sum F s').

Lemma dskew_init_rel f g h : dskew_rel (dskew_init F f g h) (dskew_init F f g h).
Proof. split; [apply dvar_init_rel|repeat split; cbn; auto with scaling]. Qed.
Lemma dskew_clear_rel s s' : dskew_rel s s' -> dskew_rel (dskew_clear F s) (dskew_clear F s').
Proof.
  intros [Hs [Hf [Hn _]]]; split; [apply dvar_clear_rel, Hs|]; repeat split; cbn; auto with scaling.
Qed.
Lemma dskew_push_rel s s' x x' : dskew_rel s s' -> rel c x x' ->
  dskew_rel (dskew_push F s x) (dskew_push F s' x').
Proof.
  intros [Hs [Hf [Hn Hv]]] Hx; pose proof (dvar_push_rel _ _ _ _ Hs Hx) as Hp.
  pose proof (dmean_mean_rel _ _ (proj1 Hp)) as Hm.
  unfold dskew_push; rewrite Hf, Hn; split; [exact Hp|]; repeat split; cbn [ds_sum].
  apply ra; auto with scaling; apply rel_const; auto with scaling; apply rs; auto with scaling.
  apply (rel_mul (c * c) c); auto with scaling; apply (rel_mul c c); auto with scaling.
Qed.

Lemma dskew_ratio v v' t t' k : rel (c * c) v v' -> rel (c * c * c) t t' ->
  rel (c * c * c / (Rabs c * Rabs c * Rabs c))
    (ndiv (ndiv t (nmul v (nsqrt v))) k) (ndiv (ndiv t' (nmul v' (nsqrt v'))) k).
Proof.
  intros Hv Ht; assert (0 < Rabs c)%R by apply Rabs_pos_lt, (sc_nonzero _ _ _ sc), Hc.
  apply rb; [auto 7 with scaling|]; apply (sc_quot_pow' _ _ _ sc); auto with scaling.
  revert Hv; apply rel_eq, abs_sq.
Qed.

Lemma dskew_value_rel s s' : dskew_rel s s' ->
  dskew_skewness F s = n0 \/ dskew_skewness F s' = n0 \/
  rel (c * c * c / (Rabs c * Rabs c * Rabs c)) (dskew_skewness F s) (dskew_skewness F s').
Proof.
  intros [Hs [Hf [Hn Hv]]]; pose proof (dvar_variance_rel _ _ Hs) as Hw.
  unfold dskew_skewness; rewrite Hn; destruct (nlt n0 _); [|left; reflexivity].
  destruct (nlt neps (dvar_variance F (ds_super F s))); [|left; reflexivity].
  destruct (nlt neps (dvar_variance F (ds_super F s'))); [|right; left; reflexivity].
  right; right; apply dskew_ratio; assumption.
Qed.

Lemma dskew_value_unit s s' : (c * c = 1)%R -> dskew_rel s s' ->
  rel c (dskew_skewness F s) (dskew_skewness F s').
Proof.
  intros C [Hs [Hf [Hn Hv]]]; pose proof (dvar_variance_rel _ _ Hs) as Hw.
  unfold dskew_skewness; rewrite Hn; destruct (nlt n0 _); [|auto with scaling].
  rewrite (sc_lt _ _ _ sc 1 neps neps _ (dvar_variance F (ds_super F s'))); auto with scaling;
    [|lra|revert Hw; apply rel_eq, C].
  destruct (nlt neps (dvar_variance F (ds_super F s'))); [|auto with scaling].
  apply (rel_eq (c * c * c / (Rabs c * Rabs c * Rabs c))); [|apply dskew_ratio; assumption].
  rewrite (abs_one _ C), C; field.
Qed.

Definition dkurt_rel (s s' : dkurt F) : Prop :=
  dskew_rel (dk_super F s) (dk_super F s') /\ dk_factor F s = dk_factor F s'
  /\ dk_norm F s = dk_norm F s' /\ rel (c * c * c * c) (dk_sum F s) (dk_sum F s').

Lemma dkurt_init_rel f g h i : dkurt_rel (dkurt_init F f g h i) (dkurt_init F f g h i).
Proof. split; [apply dskew_init_rel|repeat split; cbn; auto with scaling]. Qed.
Lemma dkurt_clear_rel s s' : dkurt_rel s s' -> dkurt_rel (dkurt_clear F s) (dkurt_clear F s').
Proof.
  intros [Hs [Hf [Hn _]]]; split; [apply dskew_clear_rel, Hs|]; repeat split; cbn; auto with scaling.
Qed.
Lemma dkurt_push_rel s s' x x' : dkurt_rel s s' -> rel c x x' ->
  dkurt_rel (dkurt_push F s x) (dkurt_push F s' x').
Proof.
  intros [Hs [Hf [Hn Hv]]] Hx; pose proof (dskew_push_rel _ _ _ _ Hs Hx) as Hp.
  pose proof (dmean_mean_rel _ _ (proj1 (proj1 Hp))) as Hm.
  unfold dkurt_push; rewrite Hf, Hn; split; [exact Hp|]; repeat split; cbn [dk_sum].
  apply ra; auto with scaling; apply rel_const; auto with scaling; apply rs; auto with scaling.
  apply (rel_mul (c * c * c) c); auto with scaling.
  apply (rel_mul (c * c) c); auto with scaling; apply (rel_mul c c); auto with scaling.
Qed.

Lemma dkurt_ratio v v' t t' k : rel (c * c) v v' -> rel (c * c * c * c) t t' ->
  rel 1 (ndiv (ndiv t (nmul v v)) k) (ndiv (ndiv t' (nmul v' v')) k).
Proof.
  intros Hv Ht; apply rb; [auto with scaling|].
  apply (rel_eq (c * c * c * c / (c * c * (c * c)))).
  { field; exact (sc_nonzero _ _ _ sc c Hc). }
  apply (sc_quot_sq _ _ _ sc); auto with scaling.
Qed.

Lemma dkurt_value_rel s s' : dkurt_rel s s' ->
  dkurt_kurtosis F s = n0 \/ dkurt_kurtosis F s' = n0 \/
  rel 1 (dkurt_kurtosis F s) (dkurt_kurtosis F s').
Proof.
  intros [Hs [Hf [Hn Hv]]]; pose proof (dvar_variance_rel _ _ (proj1 Hs)) as Hw.
  unfold dkurt_kurtosis, dskew_variance; rewrite Hn; destruct (nlt n0 _); [|left; reflexivity].
  destruct (nlt neps (dvar_variance F (ds_super F (dk_super F s)))); [|left; reflexivity].
  destruct (nlt neps (dvar_variance F (ds_super F (dk_super F s')))); [|right; left; reflexivity].
  right; right; apply dkurt_ratio; assumption.
Qed.

Lemma dkurt_value_unit s s' : (c * c = 1)%R -> dkurt_rel s s' ->
  rel 1 (dkurt_kurtosis F s) (dkurt_kurtosis F s').
Proof.
  intros C [Hs [Hf [Hn Hv]]]; pose proof (dvar_variance_rel _ _ (proj1 Hs)) as Hw.
  unfold dkurt_kurtosis, dskew_variance; rewrite Hn; destruct (nlt n0 _); [|auto with scaling].
  rewrite (sc_lt _ _ _ sc 1 neps neps _ (dvar_variance F (ds_super F (dk_super F s'))));
    auto with scaling; [|lra|revert Hw; apply rel_eq, C].
  destruct (nlt neps _); [|auto with scaling]; apply dkurt_ratio; assumption.
Qed.
End D.

(** ** Impulse *)
Section Imp.
Variable c : R.
Hypothesis Hc : adm c.

Lemma rb_push_front_rel {A B : Type} (r : A -> B -> Prop) n l l' a b :
  Forall2 r l l' -> r a b -> Forall2 r (rb_push_front n l a) (rb_push_front n l' b).
Proof.
  intros H Hr; unfold rb_push_front, rb_full; rewrite (Forall2_len _ _ _ H).
  destruct (Nat.leb _ _); constructor; auto; clear -H.
  induction H as [|x y l l' Hx H IH]; [constructor|].
  destruct H; cbn [removelast]; constructor; auto.
Qed.

Lemma inner_product_rel w w' k : Forall2 (rel c) w w' ->
  rel c (inner_product F w k) (inner_product F w' k).
Proof.
  intros H; unfold inner_product.
  assert (G : forall k a a', rel c a a' ->
    rel c (fold_left (fun acc p => nadd acc (nmul (fst p) (snd p))) (combine w k) a)
          (fold_left (fun acc p => nadd acc (nmul (fst p) (snd p))) (combine w' k) a')).
  { induction H as [|x y l l' Hx H IH]; intros [|e k'] a a' Ha; cbn [combine fold_left]; auto.
    apply IH; cbn [fst snd]; auto with scaling. }
  apply G; auto with scaling.
Qed.

Definition fir_rel (s s' : fir F) : Prop :=
  Forall2 (rel c) (fir_input s) (fir_input s') /\ rel c (fir_output s) (fir_output s')
  /\ fir_coefficients s = fir_coefficients s'.

Lemma fir_new_rel k : fir_rel (fir_new F k) (fir_new F k).
Proof. repeat split; cbn; auto with scaling. Qed.
Lemma fir_clear_rel s s' : fir_rel s s' -> fir_rel (fir_clear F s) (fir_clear F s').
Proof. intros [_ [Ho Hk]]; repeat split; cbn; auto with scaling. Qed.
Lemma fir_push_rel s s' x x' : fir_rel s s' -> rel c x x' ->
  fir_rel (fir_push F s x) (fir_push F s' x').
Proof.
  intros [Hi [Ho Hk]] Hx; unfold fir_push; rewrite Hk.
  pose proof (rb_push_front_rel (rel c) (length (fir_coefficients s')) _ _ _ _ Hi Hx) as Hw.
  split; [exact Hw|split; [apply inner_product_rel, Hw|reflexivity]].
Qed.

Definition iir_rel (s s' : iir F) : Prop :=
  Forall2 (rel c) (iir_input s) (iir_input s') /\ Forall2 (rel c) (iir_output s) (iir_output s')
  /\ iir_input_coefficients s = iir_input_coefficients s'
  /\ iir_output_coefficients s = iir_output_coefficients s' /\ iir_scale s = iir_scale s'.

Lemma iir_new_rel b a k : iir_rel (iir_new F b a k) (iir_new F b a k).
Proof. repeat split; cbn; auto. Qed.
Lemma iir_clear_rel s s' : iir_rel s s' -> iir_rel (iir_clear F s) (iir_clear F s').
Proof. intros [_ [_ [H1 [H2 H3]]]]; repeat split; cbn; auto. Qed.
Lemma iir_push_rel s s' x x' : iir_rel s s' -> rel c x x' ->
  iir_rel (iir_push F s x) (iir_push F s' x').
Proof.
  intros [Hi [Ho [H1 [H2 H3]]]] Hx; unfold iir_push; rewrite H1, H2, H3.
  pose proof (rb_push_front_rel (rel c) (length (iir_input_coefficients s')) _ _ _ _ Hi Hx) as Hw.
  split; [exact Hw|split; [|repeat split]].
  apply rb_push_front_rel; [exact Ho|].
  apply rb; auto; apply rs; auto with scaling; apply inner_product_rel; assumption.
Qed.
Lemma iir_value_rel s s' : iir_rel s s' -> rel c (iir_value F s) (iir_value F s').
Proof.
  intros [_ [Ho _]]; unfold iir_value, rb_front; destruct Ho; cbn [hd_error]; auto with scaling.
Qed.
End Imp.

(** ** P-square, for positive factors *)
Section Psq.
Variable c : R.
Hypothesis Hc : adm c.
Hypothesis Pc : (0 < c)%R.
Variable qs : list F.

Lemma aset_rel h h' i v v' : Forall2 (rel c) h h' -> rel c v v' ->
  Forall2 (rel c) (aset h i v) (aset h' i v').
Proof.
  intros H Hv; revert i; induction H as [|x y l l' Hx H IH]; intros [|i]; cbn [aset]; auto.
Qed.

Lemma hat_rel h h' i : Forall2 (rel c) h h' -> rel c (hat F h i) (hat F h' i).
Proof.
  intros H; unfold hat; revert i; induction H as [|x y l l' Hx H IH]; intros [|i]; cbn [nth];
    auto with scaling.
Qed.

Lemma psq_linear_rel p h h' i s : Forall2 (rel c) h h' ->
  rel c (psq_linear F p h i s) (psq_linear F p h' i s).
Proof.
  intros H; unfold psq_linear; pose proof (hat_rel _ _ i H);
  pose proof (hat_rel _ _ (idx_shift i s) H); auto with scaling.
Qed.

Lemma psq_parabolic_rel p h h' i s : Forall2 (rel c) h h' ->
  rel c (psq_parabolic F p h i s) (psq_parabolic F p h' i s).
Proof.
  intros H; unfold psq_parabolic; pose proof (hat_rel _ _ i H);
  pose proof (hat_rel _ _ (i - 1) H); pose proof (hat_rel _ _ (i + 1) H); auto 7 with scaling.
Qed.

Lemma psq_adjust_rel desired p h h' i : Forall2 (rel c) h h' ->
  fst (psq_adjust F desired (p, h) i) = fst (psq_adjust F desired (p, h') i)
  /\ Forall2 (rel c) (snd (psq_adjust F desired (p, h) i)) (snd (psq_adjust F desired (p, h') i)).
Proof.
  intros H; unfold psq_adjust.
  set (s := if nlt n0 _ then _ else _).
  destruct (_ || _); [|split; [reflexivity|exact H]].
  pose proof (psq_parabolic_rel p _ _ i s H) as Hp.
  cbn [fst snd]; split; [reflexivity|].
  rewrite (sc_lt _ _ _ sc c (hat F h (i - 1)) (hat F h' (i - 1)) _ (psq_parabolic F p h' i s) Hc Pc
    (hat_rel _ _ _ H) Hp).
  rewrite (sc_lt _ _ _ sc c (psq_parabolic F p h i s) (psq_parabolic F p h' i s) (hat F h (i + 1)) (hat F h' (i + 1))
    Hc Pc Hp (hat_rel _ _ _ H)).
  destruct (_ && _); auto using aset_rel, psq_linear_rel.
Qed.

Lemma psq_fold_rel desired idx : forall p h h', Forall2 (rel c) h h' ->
  fst (fold_left (psq_adjust F desired) idx (p, h)) = fst (fold_left (psq_adjust F desired) idx (p, h'))
  /\ Forall2 (rel c) (snd (fold_left (psq_adjust F desired) idx (p, h)))
       (snd (fold_left (psq_adjust F desired) idx (p, h'))).
Proof.
  induction idx as [|i idx IH]; intros p h h' H; [split; [reflexivity|exact H]|].
  cbn [fold_left]; destruct (psq_adjust_rel desired p h h' i H) as [E H'].
  destruct (psq_adjust F desired (p, h) i) as [q g], (psq_adjust F desired (p, h') i) as [q' g'].
  cbn [fst snd] in E, H'; subst q'; apply IH, H'.
Qed.

Lemma upper_bound_rel h h' x x' : Forall2 (rel c) h h' -> rel c x x' ->
  upper_bound F h x = upper_bound F h' x'.
Proof.
  intros H Hx; induction H as [|y y' l l' Hy H IH]; [reflexivity|].
  cbn [upper_bound]; rewrite (sc_lt _ _ _ sc c x x' y y') by auto; rewrite IH; reflexivity.
Qed.

Lemma psq_cell_rel h h' x x' : Forall2 (rel c) h h' -> rel c x x' ->
  fst (psq_cell F qs h x) = fst (psq_cell F qs h' x')
  /\ Forall2 (rel c) (snd (psq_cell F qs h x)) (snd (psq_cell F qs h' x')).
Proof.
  intros H Hx; unfold psq_cell.
  rewrite (sc_lt _ _ _ sc c x x' (hat F h 0) (hat F h' 0) Hc Pc Hx (hat_rel _ _ _ H)).
  destruct (nlt _ _); [split; [reflexivity|apply aset_rel; assumption]|].
  rewrite (sc_le _ _ _ sc c _ _ x x' Hc Pc (hat_rel _ _ (parameter_length F qs - 1) H) Hx).
  destruct (nle _ _); [split; [reflexivity|apply aset_rel; assumption]|].
  split; [apply upper_bound_rel; assumption|exact H].
Qed.

Lemma insert_at_rel x x' : rel c x x' -> forall k h h', Forall2 (rel c) h h' ->
  Forall2 (rel c) (insert_at F h k x) (insert_at F h' k x').
Proof.
  intros Hx; induction k as [|k IH]; intros h h' H; cbn [insert_at]; [apply aset_rel; assumption|].
  rewrite (sc_lt _ _ _ sc c x x' _ _ Hc Pc Hx (hat_rel _ _ k H)).
  destruct (nlt _ _); [apply IH|]; apply aset_rel; auto using hat_rel.
Qed.

Definition psq_rel (s s' : psq F) : Prop :=
  ps_count F s = ps_count F s' /\ ps_positions F s = ps_positions F s'
  /\ ps_desired F s = ps_desired F s' /\ ps_deltas F s = ps_deltas F s'
  /\ Forall2 (rel c) (ps_heights F s) (ps_heights F s').

Lemma psq_init_rel : psq_rel (psq_init F qs) (psq_init F qs).
Proof.
  repeat split; cbn [psq_init psq_initialize ps_heights].
  induction (parameter_length F qs); cbn [repeat]; auto with scaling.
Qed.

Lemma psq_clear_rel s s' : psq_rel s s' -> psq_rel (psq_clear F qs s) (psq_clear F qs s').
Proof. intros _; exact psq_init_rel. Qed.

Lemma psq_push_rel s s' x x' : psq_rel s s' -> rel c x x' ->
  psq_rel (psq_push F qs s x) (psq_push F qs s' x').
Proof.
  intros [E1 [E2 [E3 [E4 H]]]] Hx; unfold psq_push; rewrite E1, E2, E3, E4.
  destruct (N.leb _ _).
  - destruct (psq_cell_rel _ _ _ _ H Hx) as [E H'].
    destruct (psq_cell F qs (ps_heights F s) x) as [k h], (psq_cell F qs (ps_heights F s') x') as [k' h'].
    cbn [fst snd] in E, H'; subst k'.
    destruct (psq_fold_rel (add_deltas F (ps_desired F s') (ps_deltas F s'))
                (seq 1 (parameter_length F qs - 2)) (bump_from k (ps_positions F s')) _ _ H') as [E H''].
    repeat split; cbn [ps_positions ps_heights]; assumption.
  - repeat split; cbn [ps_heights]; apply insert_at_rel; assumption.
Qed.

Definition opt_rel (a b : option F) : Prop :=
  match a, b with
  | Some x, Some y => rel c x y
  | None, None => True
  | _, _ => False
  end.

Lemma nth_error_rel h h' i : Forall2 (rel c) h h' -> opt_rel (nth_error h i) (nth_error h' i).
Proof.
  intros H; revert i; induction H as [|x y l l' Hx H IH]; intros [|i];
    cbn [nth_error opt_rel]; auto.
Qed.

Lemma psq_get_rel s s' i : psq_rel s s' -> opt_rel (psq_get F qs s i) (psq_get F qs s' i).
Proof.
  intros [E1 [_ [_ [_ H]]]]; unfold psq_get; rewrite E1.
  destruct (N.ltb _ _); [apply nth_error_rel, H|].
  destruct (N.ltb _ _); [|destruct (N.ltb _ _); [apply nth_error_rel, H|cbn [opt_rel]; auto with scaling]].
  destruct (Nat.eqb _ _); [apply nth_error_rel, H|].
  destruct (Nat.eqb _ _); [apply nth_error_rel, H|].
  destruct (nth_error qs (i - 1)) as [q|]; [|exact I].
  set (a := ntosz _); set (b := ntosz _).
  assert (G : forall j, opt_rel (hread F (ps_heights F s) j) (hread F (ps_heights F s') j)).
  { intros [j|]; [apply nth_error_rel, H|exact I]. }
  pose proof (G a) as Ga; pose proof (G b) as Gb.
  destruct (hread F (ps_heights F s) a), (hread F (ps_heights F s') a); cbn [opt_rel] in Ga;
    try contradiction; [|exact I].
  destruct (hread F (ps_heights F s) b), (hread F (ps_heights F s') b); cbn [opt_rel] in Gb;
    try contradiction; cbn [opt_rel]; auto with scaling.
Qed.
End Psq.
End Filters.
