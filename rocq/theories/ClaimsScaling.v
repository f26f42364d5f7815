(** * Claims C77 and C78: change of unit and change of sign *)

From Coq Require Import Reals ZArith NArith List Bool.
From Coq Require Import Floats.SpecFloat.
From Flocq Require Import Core.
From Verif Require Import Arith History ExactRuns SpecStats Cumulative Window Interim Decay Impulse Psquare SpecScaling.
Import ListNotations.
Local Open Scope R_scope.
(* @end-header *)
From Coq Require Import Lia Lra Psatz.
From Verif Require Import HistoryLemmas StatsLemmas CumulativeProofs CumulativeStats ClaimsCumulative Scaling ScalingInst.

Lemma times_scaled c x : scaled c x (times c x).
Proof. destruct x; cbn; [reflexivity|exact I]. Qed.

Lemma history_map {A : Type} (r : A -> A -> Prop) f (ops : list (op A)) :
  (forall x, r x (f x)) -> Forall2 (op_rel r) ops (map (op_map f) ops).
Proof.
  intros H; induction ops as [|[a|] ops IH]; [constructor| |]; (constructor; [|exact IH]);
    cbn; [apply H|exact I].
Qed.

Lemma history_times c (ops : list (op xreal)) :
  Forall2 (op_rel (scaled c)) ops (map (op_map (times c)) ops).
Proof. apply history_map, times_scaled. Qed.

Lemma history_times2 c d rnd eps tiny (ops : list (op (xreal * xreal))) :
  Forall2 (op_rel (pair_rel (xnum rnd eps tiny) scaled c d)) ops (map (op_map (times2 c d)) ops).
Proof. apply history_map; intros x; split; apply times_scaled. Qed.

Lemma sq_factor c : c <> 0 -> c * c * c / (Rabs c * Rabs c * Rabs c) = c / Rabs c.
Proof.
  intros N; assert (A : Rabs c <> 0) by (apply Rabs_no_R0, N).
  transitivity ((c * c) * c / ((Rabs c * Rabs c) * Rabs c)); [reflexivity|].
  rewrite <- abs_sq; field; split; assumption.
Qed.

Lemma signed_neg b x : signed (unit_of b) x (neg_if b x).
Proof. exists b; split; reflexivity. Qed.

Lemma history_neg b (ops : list (op b64)) :
  Forall2 (op_rel (signed (unit_of b))) ops (map (op_map (neg_if b)) ops).
Proof. apply history_map, signed_neg. Qed.

Lemma history_neg2 b d (ops : list (op (b64 * b64))) :
  Forall2 (op_rel (pair_rel b64num signed (unit_of b) (unit_of d))) ops (map (op_map (neg_if2 b d)) ops).
Proof. apply history_map; intros x; split; apply signed_neg. Qed.

Lemma signed_is b x y : signed (unit_of b) x y -> same_double (neg_if b x) y.
Proof. intros [b' [E H]]; apply unit_inj in E; subst b'; exact H. Qed.

Lemma signed_sq b x y : signed (unit_of b * unit_of b) x y -> same_double x y.
Proof. rewrite unit_mult, xorb_nilpotent; exact (signed_is false x y). Qed.

Lemma unit_sq b : unit_of b * unit_of b = 1.
Proof. destruct b; cbn; ring. Qed.

Lemma unit_adm b : exists b', unit_of b = unit_of b'.
Proof. exists b; reflexivity. Qed.
#[local] Hint Resolve unit_adm : core.


Lemma skew_0004 : 0 < skewness [0; 0; 0; 4].
Proof.
  assert (V : csum 2 [0; 0; 0; 4] = 12) by (unfold csum, mean, card; cbn; lra).
  assert (T : csum 3 [0; 0; 0; 4] = 24) by (unfold csum, mean, card; cbn; lra).
  rewrite <- skewness_formula, V, T by (rewrite V; lra).
  assert (0 < sqrt 12) by (apply sqrt_lt_R0; lra).
  assert (0 < sqrt (card [0; 0; 0; 4])) by (apply sqrt_lt_R0; unfold card; cbn; lra).
  apply Rdiv_lt_0_compat; nra.
Qed.

(** ** C77: change of unit *)

(** @prop C77_cumulative: multiplying every value by a factor that the rounding is
    indifferent to multiplies mean and trend by the factor and variance by its
    square, without any further error.  Skewness and kurtosis are unchanged, up
    to the sign of the factor, unless one of the two is cut off at 0. *)
Lemma c77_cumulative : forall (rnd : R -> R) (eps tiny c : R) (ops : list (op xreal)),
  scalable rnd c ->
  let F := xnum rnd eps tiny in
  let final o := run (ckurt_push F) (ckurt_clear F) (ckurt_init F) o in
  let s := final ops in
  let s' := final (map (op_map (times c)) ops) in
  let trend o := ctrend_value F (run (ctrend_push F) (ctrend_clear F) (ctrend_init F) o) in
  scaled c (ckurt_mean F s) (ckurt_mean F s') /\
  scaled c (ckurt_unbiased_mean F s) (ckurt_unbiased_mean F s') /\
  scaled (c * c) (ckurt_variance F s) (ckurt_variance F s') /\
  scaled (c * c) (ckurt_unbiased_variance F s) (ckurt_unbiased_variance F s') /\
  (ckurt_skewness F s = n0 \/ ckurt_skewness F s' = n0 \/
   scaled (c / Rabs c) (ckurt_skewness F s) (ckurt_skewness F s')) /\
  (ckurt_kurtosis F s = n0 \/ ckurt_kurtosis F s' = n0 \/
   scaled 1 (ckurt_kurtosis F s) (ckurt_kurtosis F s')) /\
  scaled c (trend ops) (trend (map (op_map (times c)) ops)).
Proof.
  intros rnd eps tiny c ops Hc F final s s' trend.
  pose proof (scalable_scaling rnd eps tiny c Hc) as sc.
  assert (H : ckurt_rel F scaled c s s').
  { apply (run_rel (ckurt_rel F scaled c) (scaled c)).
    - intros; eapply ckurt_push_rel; eassumption.
    - intros; eapply ckurt_clear_rel; eassumption.
    - apply history_times.
    - eapply ckurt_init_rel; eassumption. }
  assert (T : ctrend_rel F scaled c (run (ctrend_push F) (ctrend_clear F) (ctrend_init F) ops)
    (run (ctrend_push F) (ctrend_clear F) (ctrend_init F) (map (op_map (times c)) ops))).
  { apply (run_rel (ctrend_rel F scaled c) (scaled c)).
    - intros; eapply ctrend_push_rel; eassumption.
    - intros; eapply ctrend_clear_rel; eassumption.
    - apply history_times.
    - eapply ctrend_init_rel; eassumption. }
  pose proof (proj1 H) as K; pose proof (proj1 K) as V; pose proof (proj1 V) as M.
  repeat split.
  - exact (proj1 M).
  - exact (cmean_unbiased_rel _ _ _ sc _ Hc _ _ M).
  - exact (cvar_variance_rel _ _ _ sc _ Hc _ _ V).
  - exact (cvar_unbiased_rel _ _ _ sc _ Hc _ _ V).
  - rewrite <- sq_factor by (eapply scalable_nonzero; eassumption).
    exact (cskew_value_rel _ _ _ sc _ Hc _ _ K).
  - eapply ckurt_value_rel; eassumption.
  - eapply ctrend_value_rel; eassumption.
Qed.

(** @ex C77_cumulative_ex: 1024 and -1024 with 53 bits and ties to even; the exact
    mean of 1 and 4 and of 3 and 12. *)
Lemma c77_cumulative_ex :
  scalable (round radix2 (FLX_exp 53) ZnearestE) 1024 /\
  scalable (round radix2 (FLX_exp 53) ZnearestE) (-1024) /\ scalable (fun x => x) 3 /\
  ckurt_mean (exact 1) (run (ckurt_push (exact 1)) (ckurt_clear (exact 1)) (ckurt_init (exact 1))
    [Push NonFin; Clear; Push (Fin 1); Push (Fin 4)]) = Fin (5 / 2) /\
  map (op_map (times 3)) [Push NonFin; Clear; Push (Fin 1); Push (Fin 4)]
    = [Push NonFin; Clear; Push (Fin (3 * 1)); Push (Fin (3 * 4))].
Proof.
  assert (E : bpow radix2 10 = 1024) by (cbn; lra).
  split; [|split; [|split; [|split]]].
  - right; exists 53%Z, ZnearestE; split; [typeclasses eauto|]; split; [reflexivity|].
    exists 10%Z; left; symmetry; exact E.
  - right; exists 53%Z, ZnearestE; split; [typeclasses eauto|]; split; [reflexivity|].
    exists 10%Z; right; split; [rewrite E; ring|intros x; apply round_NE_opp].
  - left; split; [reflexivity|lra].
  - cbn. rewrite !Req_bool_false by lra. cbn. rewrite !Req_bool_false by lra. cbn. f_equal. field.
  - reflexivity.
Qed.

(** @prop C77_magnified: when the factor is at least 1 the cut-offs do not
    interfere: a skewness, kurtosis or correlation that is not at its cut-off
    value keeps its value. *)
Lemma c77_magnified : forall (rnd : R -> R) (eps tiny c d : R) (ops : list (op xreal))
    (ops2 : list (op (xreal * xreal))),
  0 <= eps -> 1 <= c -> 1 <= d -> scalable rnd c -> scalable rnd d ->
  let F := xnum rnd eps tiny in
  let final o := run (ckurt_push F) (ckurt_clear F) (ckurt_init F) o in
  let corr o := ccorr_value F (run (ccorr_push F) (ccorr_clear F) (ccorr_init F) o) in
  let s := final ops in
  let s' := final (map (op_map (times c)) ops) in
  (ckurt_skewness F s <> n0 -> scaled 1 (ckurt_skewness F s) (ckurt_skewness F s')) /\
  (ckurt_kurtosis F s <> n0 -> scaled 1 (ckurt_kurtosis F s) (ckurt_kurtosis F s')) /\
  (corr ops2 <> n1 -> scaled 1 (corr ops2) (corr (map (op_map (times2 c d)) ops2))).
Proof.
  intros rnd eps tiny c d ops ops2 He Lc Ld Hc Hd F final corr s s'.
  pose proof (scalable_scaling rnd eps tiny c Hc) as sc.
  assert (Up : forall k (x x' : xreal), 1 <= k -> scaled k x x' ->
            @nlt F x (@neps F) = false -> @nlt F x' (@neps F) = false).
  { intros k [x|] [x'|] Hk; cbn [scaled nlt neps F xnum xcmp]; try contradiction; try reflexivity.
    intros ->; destruct (Rlt_bool_spec x eps); [discriminate|]; intros _.
    apply Rlt_bool_false; nra. }
  assert (H : ckurt_rel F scaled c s s').
  { apply (run_rel (ckurt_rel F scaled c) (scaled c)).
    - intros; eapply ckurt_push_rel; eassumption.
    - intros; eapply ckurt_clear_rel; eassumption.
    - apply history_times.
    - eapply ckurt_init_rel; eassumption. }
  assert (G : ccorr_rel F scaled c d
    (run (ccorr_push F) (ccorr_clear F) (ccorr_init F) ops2)
    (run (ccorr_push F) (ccorr_clear F) (ccorr_init F) (map (op_map (times2 c d)) ops2))).
  { apply (run_rel (ccorr_rel F scaled c d) (pair_rel F scaled c d)).
    - intros; eapply ccorr_push_rel; eassumption.
    - intros; eapply ccorr_clear_rel; eassumption.
    - apply history_times2.
    - eapply ccorr_init_rel; eassumption. }
  assert (L2 : 1 <= c * c) by nra. assert (L3 : 1 <= c * c * c) by nra.
  assert (L4 : 1 <= c * c * c * c) by nra.
  pose proof (proj1 H) as K.
  assert (A1 : Rabs c = c) by (apply Rabs_pos_eq; lra).
  assert (A2 : Rabs d = d) by (apply Rabs_pos_eq; lra).
  repeat split.
  - intros N.
    pose proof (cskew_value_rel _ _ _ sc _ Hc _ _ K) as [E|[E|E]]; [contradiction| |].
    2:{ revert E; apply rel_eq; rewrite A1; field; lra. }
    unfold ckurt_skewness in *; revert N.
    pose proof K as [[[Hm Hn] Hw] Hv].
    unfold cskew_skewness, cskew_size, cvar_size, cmean_size.
    destruct (nlt (cs_sum F (ck_super F s)) neps) eqn:B; [intros N; exfalso; apply N; reflexivity|].
    rewrite (Up (c * c * c) _ _ L3 Hv B); intros _; rewrite Hn.
    apply (rel_eq F scaled (c * c * c / (Rabs c * Rabs c * Rabs c))); [rewrite A1; field; lra|].
    apply (sc_quot_pow _ _ _ sc).
    + apply scalable_mult; [apply scalable_mult|]; exact Hc.
    + apply scalable_abs, Hc.
    + lra.
    + eapply rel_const; try eassumption; apply scalable_mult; [apply scalable_mult|]; exact Hc.
    + revert Hw; apply rel_eq, abs_sq.
  - intros N.
    pose proof (ckurt_ratio _ _ _ sc _ Hc _ _ H) as Hr; revert N.
    pose proof H as [[[[Hm Hn] Hw] Hu] Hv].
    unfold ckurt_kurtosis, ckurt_size, cskew_size, cvar_size, cmean_size.
    destruct (nlt (ck_sum F s) neps) eqn:B; [intros N; exfalso; apply N; reflexivity|].
    rewrite (Up (c * c * c * c) _ _ L4 Hv B); intros _; rewrite Hn; apply Hr.
  - intros N; unfold corr in *; revert N.
    pose proof (vp_rel _ _ _ sc _ _ Hc Hd _ _ G) as Hv.
    pose proof (ccov_variance_rel _ _ _ sc _ _ Hc Hd _ _ (proj1 G)) as Hw.
    unfold ccorr_value.
    destruct (nlt (nmul (cvar_variance F (cr_x F (run (ccorr_push F) (ccorr_clear F) (ccorr_init F) ops2))) _) neps)
      eqn:B; [intros N; exfalso; apply N; reflexivity|].
    assert (B' : nlt (nmul (cvar_variance F (cr_x F (run (ccorr_push F) (ccorr_clear F) (ccorr_init F)
        (map (op_map (times2 c d)) ops2))))
      (cvar_variance F (cr_y F (run (ccorr_push F) (ccorr_clear F) (ccorr_init F)
        (map (op_map (times2 c d)) ops2))))) neps = false).
    { refine (Up _ _ _ _ Hv B); rewrite A1, A2; nra. }
    rewrite B'; intros _.
    apply (rel_eq F scaled (c * d / (Rabs c * Rabs d))); [rewrite A1, A2; field; lra|].
    apply (sc_quot_root _ _ _ sc); try assumption.
    + apply scalable_mult; assumption.
    + apply scalable_mult; apply scalable_abs; assumption.
    + rewrite A1, A2; nra.
Qed.

(** @ex C77_magnified_ex: 0, 0, 0 and 4 have a skewness above the cut-off; 8 and 1
    are factors for 53-bit arithmetic. *)
Lemma c77_magnified_ex :
  0 <= eps64 /\ 1 <= 8 /\ 1 <= 1 /\
  scalable (round radix2 (FLX_exp 53) ZnearestE) 8 /\
  scalable (round radix2 (FLX_exp 53) ZnearestE) 1 /\
  (let F := exact eps64 in
   ckurt_skewness F (run (ckurt_push F) (ckurt_clear F) (ckurt_init F)
     [Push (Fin 0); Push (Fin 0); Push (Fin 0); Push (Fin 4)]) <> n0).
Proof.
  assert (E : bpow radix2 3 = 8) by (cbn; lra).
  assert (P : 0 < eps64) by (unfold eps64; lra).
  assert (Q : scalable (round radix2 (FLX_exp 53) ZnearestE) 8).
  { right; exists 53%Z, ZnearestE; split; [typeclasses eauto|]; split; [reflexivity|].
    exists 3%Z; left; symmetry; exact E. }
  split; [lra|]. split; [lra|]. split; [lra|]. split; [exact Q|].
  split; [exact (scalable_one _ _ Q)|].
  cbn zeta.
  destruct (c03_partial eps64 [Push 0; Push 0; Push 0; Push 4] P) as [H _]; [vm_compute; reflexivity|].
  destruct H as [_ H]; [unfold csum, mean, card, eps64; cbn; lra|].
  change (run_ckurt eps64 [Push 0; Push 0; Push 0; Push 4]) with
    (run (ckurt_push (exact eps64)) (ckurt_clear (exact eps64)) (ckurt_init (exact eps64))
       [Push (Fin 0); Push (Fin 0); Push (Fin 0); Push (Fin 4)]) in H.
  rewrite H; intros K; injection K; cbn [since_clear rev app].
  apply Rgt_not_eq, skew_0004.
Qed.

(** @prop C77_cutoff_refuted: without that restriction the claim fails: for the
    values 0, 0, 0, 4 in exact arithmetic with the epsilon of double, the unit
    decides whether a skewness is reported at all. *)
Lemma c77_cutoff_refuted : exists (c : R) (l : list R),
  0 < c /\ scalable (fun x => x) c /\
  let F := exact eps64 in
  let skew l := ckurt_skewness F (run (ckurt_push F) (ckurt_clear F) (ckurt_init F)
                  (map (op_map Fin) (map Push l))) in
  skew l <> n0 /\ skew (map (Rmult c) l) = n0.
Proof.
  exists (/ 1048576), [0; 0; 0; 4].
  assert (P : 0 < eps64) by (unfold eps64; lra).
  split; [lra|]. split; [left; split; [reflexivity|lra]|].
  destruct c77_magnified_ex as [_ [_ [_ [_ [_ H]]]]].
  split; [exact H|].
  destruct (c03_partial eps64 (map Push (map (Rmult (/ 1048576)) [0; 0; 0; 4])) P) as [_ G];
    [vm_compute; reflexivity|].
  destruct G as [_ G]; [unfold csum, mean, card, eps64; cbn; lra|].
  exact G.
Qed.

(** @prop C77_decimal_refuted: for double and the factor 10 the mean is not
    multiplied exactly: ten times the mean of 1, 1, 2 differs from the mean of
    10, 10, 20. *)
Lemma c77_decimal_refuted : exists (c : Z) (l : list Z),
  let F := b64num in
  let mean l := cmean_mean F (run (cmean_push F) (cmean_clear F) (cmean_init F) (map Push (map b64_of_Z l))) in
  SFeqb (nmul (n := F) (b64_of_Z c) (mean l)) (mean (map (Z.mul c) l)) = false.
Proof. exists 10%Z, [1; 1; 2]%Z. vm_compute. reflexivity. Qed.

(** @prop C77_pairs: multiplying the first components by one factor and the second
    components by another multiplies covariance by both, the slope of the
    regression by the second over the first, and regression predictions at the
    multiplied positions by the second.  The correlation only takes the sign. *)
Lemma c77_pairs : forall (rnd : R -> R) (eps tiny c d : R) (ops : list (op (xreal * xreal))) (p : xreal),
  scalable rnd c -> scalable rnd d ->
  let F := xnum rnd eps tiny in
  let ops' := map (op_map (times2 c d)) ops in
  let cov o := run (ccov_push F) (ccov_clear F) (ccov_init F) o in
  let corr o := ccorr_value F (run (ccorr_push F) (ccorr_clear F) (ccorr_init F) o) in
  let reg o := run (creg_push F) (creg_clear F) (creg_init F) o in
  scaled (c * d) (ccov_variance F (cov ops)) (ccov_variance F (cov ops')) /\
  scaled (c * d) (ccov_unbiased_variance F (cov ops)) (ccov_unbiased_variance F (cov ops')) /\
  scaled (d / c) (creg_slope F (reg ops)) (creg_slope F (reg ops')) /\
  scaled d (creg_at F (reg ops) p) (creg_at F (reg ops') (times c p)) /\
  (corr ops = n1 \/ corr ops' = n1 \/ scaled (c * d / (Rabs c * Rabs d)) (corr ops) (corr ops')).
Proof.
  intros rnd eps tiny c d ops p Hc Hd F ops' cov corr reg.
  pose proof (scalable_scaling rnd eps tiny c Hc) as sc.
  assert (A : ccov_rel F scaled c d (cov ops) (cov ops')).
  { apply (run_rel (ccov_rel F scaled c d) (pair_rel F scaled c d)).
    - intros; eapply ccov_push_rel; eassumption.
    - intros; eapply ccov_clear_rel; eassumption.
    - apply history_times2.
    - eapply ccov_init_rel; eassumption. }
  assert (B : ccorr_rel F scaled c d
    (run (ccorr_push F) (ccorr_clear F) (ccorr_init F) ops)
    (run (ccorr_push F) (ccorr_clear F) (ccorr_init F) ops')).
  { apply (run_rel (ccorr_rel F scaled c d) (pair_rel F scaled c d)).
    - intros; eapply ccorr_push_rel; eassumption.
    - intros; eapply ccorr_clear_rel; eassumption.
    - apply history_times2.
    - eapply ccorr_init_rel; eassumption. }
  assert (C : creg_rel F scaled c d (reg ops) (reg ops')).
  { apply (run_rel (creg_rel F scaled c d) (pair_rel F scaled c d)).
    - intros; eapply creg_push_rel; eassumption.
    - intros; eapply creg_clear_rel; eassumption.
    - apply history_times2.
    - eapply creg_init_rel; eassumption. }
  repeat split.
  - eapply ccov_variance_rel; eassumption.
  - eapply ccov_unbiased_rel; eassumption.
  - eapply creg_slope_rel; eassumption.
  - exact (creg_at_rel _ _ _ sc _ _ Hc Hd _ _ _ _ C (times_scaled c p)).
  - eapply ccorr_value_rel; eassumption.
Qed.

(** @ex C77_pairs_ex: factors 4 and -1/2 with 24 bits and ties to even; the exact
    covariance of (1, 2) and (3, 6) is 2, that of (2, -2) and (6, -6) is -4. *)
Lemma c77_pairs_ex :
  scalable (round radix2 (FLX_exp 24) ZnearestE) 4 /\
  scalable (round radix2 (FLX_exp 24) ZnearestE) (- / 2) /\
  (let F := exact 1 in
   let cov o := ccov_variance F (run (ccov_push F) (ccov_clear F) (ccov_init F) o) in
   cov [Push (Fin 1, Fin 2); Push (Fin 3, Fin 6)] = Fin 2 /\
   cov [Push (Fin 2, Fin (-2)); Push (Fin 6, Fin (-6))] = Fin (2 * -1 * 2)).
Proof.
  split; [|split].
  - right; exists 24%Z, ZnearestE; split; [typeclasses eauto|]; split; [reflexivity|].
    exists 2%Z; left; cbn; lra.
  - right; exists 24%Z, ZnearestE; split; [typeclasses eauto|]; split; [reflexivity|].
    exists (-1)%Z; right; split; [cbn; lra|intros x; apply round_NE_opp].
  - split; cbn; repeat (rewrite Req_bool_false by lra; cbn); f_equal; field.
Qed.

(** @prop C77_window: the same for the filters over the last W values. *)
Lemma c77_window : forall (rnd : R -> R) (eps tiny c d : R) (W : nat) (ops : list (op xreal))
    (ops2 : list (op (xreal * xreal))) (p : xreal),
  scalable rnd c -> scalable rnd d ->
  let F := xnum rnd eps tiny in
  let ops' := map (op_map (times c)) ops in
  let ops2' := map (op_map (times2 c d)) ops2 in
  let var o := run (wvar_push F W) (wvar_clear F) (wvar_init F) o in
  let cov o := run (wcov_push F W) (wcov_clear F) (wcov_init F) o in
  let reg o := run (wreg_push F W) (wreg_clear F) (wreg_init F) o in
  scaled c (wvar_mean F (var ops)) (wvar_mean F (var ops')) /\
  scaled (c * c) (wvar_variance F (var ops)) (wvar_variance F (var ops')) /\
  scaled (c * c) (wvar_unbiased_variance F (var ops)) (wvar_unbiased_variance F (var ops')) /\
  scaled (c * d) (wcov_variance F (cov ops2)) (wcov_variance F (cov ops2')) /\
  scaled (c * d) (wcov_unbiased_variance F (cov ops2)) (wcov_unbiased_variance F (cov ops2')) /\
  scaled (d / c) (wreg_slope F (reg ops2)) (wreg_slope F (reg ops2')) /\
  scaled d (wreg_at F (reg ops2) p) (wreg_at F (reg ops2') (times c p)).
Proof.
  intros rnd eps tiny c d W ops ops2 p Hc Hd F ops' ops2' var cov reg.
  pose proof (scalable_scaling rnd eps tiny c Hc) as sc.
  assert (A : wvar_rel F scaled c (var ops) (var ops')).
  { apply (run_rel (wvar_rel F scaled c) (scaled c)).
    - intros; eapply wvar_push_rel; eassumption.
    - intros; eapply wvar_clear_rel; eassumption.
    - apply history_times.
    - eapply wvar_init_rel; eassumption. }
  assert (B : wcov_rel F scaled c d (cov ops2) (cov ops2')).
  { apply (run_rel (wcov_rel F scaled c d) (pair_rel F scaled c d)).
    - intros; eapply wcov_push_rel; eassumption.
    - intros; eapply wcov_clear_rel; eassumption.
    - apply history_times2.
    - eapply wcov_init_rel; eassumption. }
  assert (C : wreg_rel F scaled c d (reg ops2) (reg ops2')).
  { apply (run_rel (wreg_rel F scaled c d) (pair_rel F scaled c d)).
    - intros; eapply wreg_push_rel; eassumption.
    - intros; eapply wreg_clear_rel; eassumption.
    - apply history_times2.
    - eapply wreg_init_rel; eassumption. }
  repeat split.
  - exact (proj2 (proj1 A)).
  - eapply wvar_variance_rel; eassumption.
  - eapply wvar_unbiased_rel; eassumption.
  - eapply wcov_variance_rel; eassumption.
  - eapply wcov_unbiased_rel; eassumption.
  - eapply wreg_slope_rel; eassumption.
  - exact (wreg_at_rel _ _ _ sc _ _ Hc Hd _ _ _ _ C (times_scaled c p)).
Qed.

(** @ex C77_window_ex: factors 1/3 and -7 in exact arithmetic; in a window of two
    values 1, 2, 4 has mean 3. *)
Lemma c77_window_ex :
  scalable (fun x => x) (/ 3) /\ scalable (fun x => x) (-7) /\
  (let F := exact 1 in
   wvar_mean F (run (wvar_push F 2) (wvar_clear F) (wvar_init F)
     [Push (Fin 1); Push (Fin 2); Push (Fin 4)]) = Fin 3).
Proof.
  split; [left; split; [reflexivity|lra]|]. split; [left; split; [reflexivity|lra]|].
  cbn. repeat (rewrite Req_bool_false by lra; cbn). f_equal; field.
Qed.

(** @prop C77_interim: the same for the interim filters. *)
Lemma c77_interim : forall (rnd : R -> R) (eps tiny c d : R) (W : N) (ops : list (op xreal))
    (ops2 : list (op (xreal * xreal))) (p : xreal),
  scalable rnd c -> scalable rnd d ->
  let F := xnum rnd eps tiny in
  let ops' := map (op_map (times c)) ops in
  let ops2' := map (op_map (times2 c d)) ops2 in
  let mean o := run (imean_push F W) (imean_clear F) (imean_init F) o in
  let var o := run (ivar_push F W) (ivar_clear F) (ivar_init F) o in
  let cov o := run (icov_push F W) (icov_clear F) (icov_init F) o in
  let reg o := run (ireg_push F W) (ireg_clear F) (ireg_init F) o in
  scaled c (imean_mean F W (mean ops)) (imean_mean F W (mean ops')) /\
  scaled c (ivar_mean F W (var ops)) (ivar_mean F W (var ops')) /\
  scaled (c * c) (ivar_variance F W (var ops)) (ivar_variance F W (var ops')) /\
  scaled (c * d) (icov_variance F W (cov ops2)) (icov_variance F W (cov ops2')) /\
  scaled (d / c) (ireg_slope F W (reg ops2)) (ireg_slope F W (reg ops2')) /\
  scaled d (ireg_at F W (reg ops2) p) (ireg_at F W (reg ops2') (times c p)).
Proof.
  intros rnd eps tiny c d W ops ops2 p Hc Hd F ops' ops2' mean var cov reg.
  pose proof (scalable_scaling rnd eps tiny c Hc) as sc.
  assert (A0 : imean_rel F scaled c (mean ops) (mean ops')).
  { apply (run_rel (imean_rel F scaled c) (scaled c)).
    - intros; eapply imean_push_rel; eassumption.
    - intros; eapply imean_clear_rel; eassumption.
    - apply history_times.
    - eapply imean_init_rel; eassumption. }
  assert (A : ivar_rel F scaled c (var ops) (var ops')).
  { apply (run_rel (ivar_rel F scaled c) (scaled c)).
    - intros; eapply ivar_push_rel; eassumption.
    - intros; eapply ivar_clear_rel; eassumption.
    - apply history_times.
    - eapply ivar_init_rel; eassumption. }
  assert (B : icov_rel F scaled c d (cov ops2) (cov ops2')).
  { apply (run_rel (icov_rel F scaled c d) (pair_rel F scaled c d)).
    - intros; eapply icov_push_rel; eassumption.
    - intros; eapply icov_clear_rel; eassumption.
    - apply history_times2.
    - eapply icov_init_rel; eassumption. }
  assert (C : ireg_rel F scaled c d (reg ops2) (reg ops2')).
  { apply (run_rel (ireg_rel F scaled c d) (pair_rel F scaled c d)).
    - intros; eapply ireg_push_rel; eassumption.
    - intros; eapply ireg_clear_rel; eassumption.
    - apply history_times2.
    - eapply ireg_init_rel; eassumption. }
  repeat split.
  - eapply imean_mean_rel; eassumption.
  - eapply ivar_mean_rel; eassumption.
  - eapply ivar_variance_rel; eassumption.
  - eapply icov_variance_rel; eassumption.
  - eapply ireg_slope_rel; eassumption.
  - exact (ireg_at_rel _ _ _ sc _ _ _ Hc Hd _ _ _ _ C (times_scaled c p)).
Qed.

(** @ex C77_interim_ex: factors 2^-40 and 2^70, rounding upwards with 11 bits; in
    a window of two values 1, 2, 4 has mean 19/6. *)
Lemma c77_interim_ex :
  scalable (round radix2 (FLX_exp 11) Zceil) (bpow radix2 (-40)) /\
  scalable (round radix2 (FLX_exp 11) Zceil) (bpow radix2 70) /\
  (let F := exact 1 in
   imean_mean F 2 (run (imean_push F 2) (imean_clear F) (imean_init F)
     [Push (Fin 1); Push (Fin 2); Push (Fin 4)]) = Fin (19 / 6)).
Proof.
  split; [|split].
  - right; exists 11%Z, Zceil; split; [typeclasses eauto|]; split; [reflexivity|].
    exists (-40)%Z; left; reflexivity.
  - right; exists 11%Z, Zceil; split; [typeclasses eauto|]; split; [reflexivity|].
    exists 70%Z; left; reflexivity.
  - cbn. repeat (rewrite Req_bool_false by lra; cbn). f_equal; field.
Qed.

(** @prop C77_decay: the same for the decay filters, for all factors of decay. *)
Lemma c77_decay : forall (rnd : R -> R) (eps tiny c : R) (f1 f2 f3 f4 : xreal) (ops : list (op xreal)),
  scalable rnd c ->
  let F := xnum rnd eps tiny in
  let final o := run (dkurt_push F) (dkurt_clear F) (dkurt_init F f1 f2 f3 f4) o in
  let s := final ops in
  let s' := final (map (op_map (times c)) ops) in
  scaled c (dkurt_mean F s) (dkurt_mean F s') /\
  scaled (c * c) (dkurt_variance F s) (dkurt_variance F s') /\
  (dkurt_skewness F s = n0 \/ dkurt_skewness F s' = n0 \/
   scaled (c / Rabs c) (dkurt_skewness F s) (dkurt_skewness F s')) /\
  (dkurt_kurtosis F s = n0 \/ dkurt_kurtosis F s' = n0 \/
   scaled 1 (dkurt_kurtosis F s) (dkurt_kurtosis F s')).
Proof.
  intros rnd eps tiny c f1 f2 f3 f4 ops Hc F final s s'.
  pose proof (scalable_scaling rnd eps tiny c Hc) as sc.
  assert (H : dkurt_rel F scaled c s s').
  { apply (run_rel (dkurt_rel F scaled c) (scaled c)).
    - intros; eapply dkurt_push_rel; eassumption.
    - intros; eapply dkurt_clear_rel; eassumption.
    - apply history_times.
    - eapply dkurt_init_rel; eassumption. }
  pose proof (proj1 H) as K; pose proof (proj1 K) as V; pose proof (proj1 V) as M.
  repeat split.
  - exact (dmean_mean_rel _ _ _ sc _ Hc _ _ M).
  - exact (dvar_variance_rel _ _ _ sc _ Hc _ _ V).
  - rewrite <- sq_factor by (eapply scalable_nonzero; eassumption).
    exact (dskew_value_rel _ _ _ sc _ Hc _ _ K).
  - eapply dkurt_value_rel; eassumption.
Qed.

(** @ex C77_decay_ex: factor 1000 in exact arithmetic; with decay 1/2 the values 1
    and 4 have mean 3. *)
Lemma c77_decay_ex :
  scalable (fun x => x) 1000 /\
  (let F := exact 1 in
   dkurt_mean F (run (dkurt_push F) (dkurt_clear F)
     (dkurt_init F (Fin (1 / 2)) (Fin 1) (Fin 1) (Fin 1)) [Push (Fin 1); Push (Fin 4)]) = Fin 3).
Proof.
  split; [left; split; [reflexivity|lra]|].
  unfold dkurt_mean, dskew_mean, dvar_mean, dmean_mean.
  cbn [run fold_left step dkurt_push dskew_push dvar_push dmean_push dkurt_init dskew_init dvar_init dmean_init
    dk_super ds_super dv_super dm_norm dm_sum dm_factor].
  cbn. rewrite Rlt_bool_true by lra. rewrite Req_bool_false by lra. f_equal; field.
Qed.

(** @prop C77_impulse: the output of an impulse response filter is multiplied by
    the factor, for all coefficients. *)
Lemma c77_impulse : forall (rnd : R -> R) (eps tiny c : R) (ks bs as_ : list xreal) (k : xreal)
    (ops : list (op xreal)),
  scalable rnd c ->
  let F := xnum rnd eps tiny in
  let ops' := map (op_map (times c)) ops in
  let finite o := run (fir_push F) (fir_clear F) (fir_new F ks) o in
  let infinite o := run (iir_push F) (iir_clear F) (iir_new F bs as_ k) o in
  scaled c (fir_value F (finite ops)) (fir_value F (finite ops')) /\
  scaled c (iir_value F (infinite ops)) (iir_value F (infinite ops')).
Proof.
  intros rnd eps tiny c ks bs as_ k ops Hc F ops' finite infinite.
  pose proof (scalable_scaling rnd eps tiny c Hc) as sc.
  assert (A : fir_rel F scaled c (finite ops) (finite ops')).
  { apply (run_rel (fir_rel F scaled c) (scaled c)).
    - intros; eapply fir_push_rel; eassumption.
    - intros; eapply fir_clear_rel; eassumption.
    - apply history_times.
    - eapply fir_new_rel; eassumption. }
  assert (B : iir_rel F scaled c (infinite ops) (infinite ops')).
  { apply (run_rel (iir_rel F scaled c) (scaled c)).
    - intros; eapply iir_push_rel; eassumption.
    - intros; eapply iir_clear_rel; eassumption.
    - apply history_times.
    - eapply iir_new_rel; eassumption. }
  split.
  - exact (proj1 (proj2 A)).
  - eapply iir_value_rel; eassumption.
Qed.

(** @ex C77_impulse_ex: factor -16 with 53 bits and ties to even; coefficients 2
    and 3 give 13 for 3 and 2. *)
Lemma c77_impulse_ex :
  scalable (round radix2 (FLX_exp 53) ZnearestE) (-16) /\
  (let F := exact 1 in
   fir_value F (run (fir_push F) (fir_clear F) (fir_new F [Fin 2; Fin 3])
     [Push (Fin 3); Push (Fin 2)]) = Fin 13).
Proof.
  split.
  - right; exists 53%Z, ZnearestE; split; [typeclasses eauto|]; split; [reflexivity|].
    exists 4%Z; right; split; [cbn; lra|intros x; apply round_NE_opp].
  - cbn. f_equal; ring.
Qed.

(** @prop C77_psquare: multiplying by a positive factor that the rounding is
    indifferent to multiplies every estimate of the P-square filter by the
    factor, for every list of quantiles. *)
Lemma c77_psquare : forall (rnd : R -> R) (eps tiny c : R) (qs : list xreal) (ops : list (op xreal)) (i : nat),
  scalable rnd c -> 0 < c ->
  let F := xnum rnd eps tiny in
  let get o := psq_get F qs (run (psq_push F qs) (psq_clear F qs) (psq_init F qs) o) i in
  match get ops, get (map (op_map (times c)) ops) with
  | Some x, Some y => scaled c x y
  | None, None => True
  | _, _ => False
  end.
Proof.
  intros rnd eps tiny c qs ops i Hc Pc F get.
  pose proof (scalable_scaling rnd eps tiny c Hc) as sc.
  apply (psq_get_rel F (scalable rnd) scaled sc c Hc).
  apply (run_rel (psq_rel F scaled c) (scaled c)).
  - intros; eapply psq_push_rel; eassumption.
  - intros; eapply psq_clear_rel; eassumption.
  - apply history_times.
  - eapply psq_init_rel; eassumption.
Qed.

(** @ex C77_psquare_ex: factor 1/256 with 53 bits and ties to even. *)
Lemma c77_psquare_ex :
  scalable (round radix2 (FLX_exp 53) ZnearestE) (/ 256) /\ 0 < / 256 /\
  map (op_map (times (/ 256))) [Push (Fin 512); Clear; Push NonFin]
    = [Push (Fin (/ 256 * 512)); Clear; Push NonFin].
Proof.
  split; [|split; [lra|reflexivity]].
  right; exists 53%Z, ZnearestE; split; [typeclasses eauto|]; split; [reflexivity|].
  exists (-8)%Z; left; cbn; lra.
Qed.

(** ** C78: change of sign, on binary64 with all its special values *)

(** @prop C78_cumulative: negating every value pushed to a cumulative filter over
    double negates mean and trend and leaves variance and kurtosis unchanged, to
    the last bit (up to the sign of zero), NaN and infinities included. *)
Lemma c78_cumulative : forall (b : bool) (ops : list (op b64)),
  let F := b64num in
  let final o := run (ckurt_push F) (ckurt_clear F) (ckurt_init F) o in
  let s := final ops in
  let s' := final (map (op_map (neg_if b)) ops) in
  let trend o := ctrend_value F (run (ctrend_push F) (ctrend_clear F) (ctrend_init F) o) in
  same_double (neg_if b (ckurt_mean F s)) (ckurt_mean F s') /\
  same_double (neg_if b (ckurt_unbiased_mean F s)) (ckurt_unbiased_mean F s') /\
  same_double (ckurt_variance F s) (ckurt_variance F s') /\
  same_double (ckurt_unbiased_variance F s) (ckurt_unbiased_variance F s') /\
  same_double (ckurt_kurtosis F s) (ckurt_kurtosis F s') /\
  same_double (ckurt_unbiased_kurtosis F s) (ckurt_unbiased_kurtosis F s') /\
  same_double (neg_if b (trend ops)) (trend (map (op_map (neg_if b)) ops)).
Proof.
  intros b ops F final s s' trend. pose proof binary64_scaling as sc.
  pose proof (unit_adm b) as Hb.
  assert (H : ckurt_rel b64num signed (unit_of b) s s').
  { apply (run_rel (ckurt_rel b64num signed (unit_of b)) (signed (unit_of b))).
    - intros; eapply ckurt_push_rel; eauto.
    - intros; eapply ckurt_clear_rel; eauto.
    - apply history_neg.
    - eapply ckurt_init_rel; eauto. }
  assert (T : ctrend_rel b64num signed (unit_of b) (run (ctrend_push F) (ctrend_clear F) (ctrend_init F) ops) (run (ctrend_push F) (ctrend_clear F) (ctrend_init F) (map (op_map (neg_if b)) ops))).
  { apply (run_rel (ctrend_rel b64num signed (unit_of b)) (signed (unit_of b))).
    - intros; eapply ctrend_push_rel; eauto.
    - intros; eapply ctrend_clear_rel; eauto.
    - apply history_neg.
    - eapply ctrend_init_rel; eauto. }
  pose proof (proj1 H) as K; pose proof (proj1 K) as V; pose proof (proj1 V) as M.
  repeat split.
  - apply signed_is; exact (proj1 M).
  - apply signed_is; exact (cmean_unbiased_rel _ _ _ sc _ Hb _ _ M).
  - apply (signed_sq b); exact (cvar_variance_rel _ _ _ sc _ Hb _ _ V).
  - apply (signed_sq b); exact (cvar_unbiased_rel _ _ _ sc _ Hb _ _ V).
  - apply (signed_is false); exact (ckurt_value_unit _ _ _ sc _ Hb _ _ (unit_sq b) H).
  - apply (signed_is false); exact (ckurt_unbiased_unit _ _ _ sc _ Hb _ _ (unit_sq b) H).
  - apply signed_is; exact (ctrend_value_rel _ _ _ sc _ Hb _ _ T).
Qed.

(** @ex C78_cumulative_ex: 1, 2 and 4 against -1, -2 and -4. *)
Lemma c78_cumulative_ex :
  let F := b64num in
  let mean l := ckurt_mean F (run (ckurt_push F) (ckurt_clear F) (ckurt_init F) (map Push (map b64_of_Z l))) in
  SFeqb (mean [1; 2; 4]%Z) (b64_of_Z 2) = false /\
  SFeqb (mean [-1; -2; -4]%Z) (SFopp (mean [1; 2; 4]%Z)) = true.
Proof. split; vm_compute; reflexivity. Qed.

(** @prop C78_skewness_refuted: cumulative skewness does not change its sign with
    the data: 0, 0, 0, 4 has positive skewness, 0, 0, 0, -4 has skewness 0. *)
Lemma c78_skewness_refuted : exists l : list b64,
  let F := b64num in
  let skew l := ckurt_skewness F (run (ckurt_push F) (ckurt_clear F) (ckurt_init F) (map Push l)) in
  SFltb (b64_of_Z 1) (skew l) = true /\ skew (map SFopp l) = S754_zero false.
Proof. exists (map b64_of_Z [0; 0; 0; 4]%Z). split; vm_compute; reflexivity. Qed.

(** @prop C78_pairs: negating the first components, the second, or both negates
    covariance, slope and correlation once for each, and the prediction at the
    correspondingly negated position once for the second; a correlation at its
    cut-off value 1 stays there. *)
Lemma c78_pairs : forall (b d : bool) (ops : list (op (b64 * b64))) (p : b64),
  let F := b64num in
  let ops' := map (op_map (neg_if2 b d)) ops in
  let cov o := run (ccov_push F) (ccov_clear F) (ccov_init F) o in
  let corr o := ccorr_value F (run (ccorr_push F) (ccorr_clear F) (ccorr_init F) o) in
  let reg o := run (creg_push F) (creg_clear F) (creg_init F) o in
  same_double (neg_if (xorb b d) (ccov_variance F (cov ops))) (ccov_variance F (cov ops')) /\
  same_double (neg_if (xorb b d) (ccov_unbiased_variance F (cov ops))) (ccov_unbiased_variance F (cov ops')) /\
  same_double (neg_if (xorb b d) (creg_slope F (reg ops))) (creg_slope F (reg ops')) /\
  same_double (neg_if d (creg_at F (reg ops) p)) (creg_at F (reg ops') (neg_if b p)) /\
  ((corr ops = n1 /\ corr ops' = n1) \/ same_double (neg_if (xorb b d) (corr ops)) (corr ops')).
Proof.
  intros b d ops p F ops' cov corr reg. pose proof binary64_scaling as sc.
  pose proof (unit_adm b) as Hb. pose proof (unit_adm d) as Hd.
  assert (A : ccov_rel b64num signed (unit_of b) (unit_of d) (cov ops) (cov ops')).
  { apply (run_rel (ccov_rel b64num signed (unit_of b) (unit_of d)) (pair_rel b64num signed (unit_of b) (unit_of d))).
    - intros; eapply ccov_push_rel; eauto.
    - intros; eapply ccov_clear_rel; eauto.
    - apply history_neg2.
    - eapply ccov_init_rel; eauto. }
  assert (B : ccorr_rel b64num signed (unit_of b) (unit_of d) (run (ccorr_push F) (ccorr_clear F) (ccorr_init F) ops) (run (ccorr_push F) (ccorr_clear F) (ccorr_init F) ops')).
  { apply (run_rel (ccorr_rel b64num signed (unit_of b) (unit_of d)) (pair_rel b64num signed (unit_of b) (unit_of d))).
    - intros; eapply ccorr_push_rel; eauto.
    - intros; eapply ccorr_clear_rel; eauto.
    - apply history_neg2.
    - eapply ccorr_init_rel; eauto. }
  assert (C : creg_rel b64num signed (unit_of b) (unit_of d) (reg ops) (reg ops')).
  { apply (run_rel (creg_rel b64num signed (unit_of b) (unit_of d)) (pair_rel b64num signed (unit_of b) (unit_of d))).
    - intros; eapply creg_push_rel; eauto.
    - intros; eapply creg_clear_rel; eauto.
    - apply history_neg2.
    - eapply creg_init_rel; eauto. }
  repeat split.
  - apply signed_is; rewrite <- unit_mult; exact (ccov_variance_rel _ _ _ sc _ _ Hb Hd _ _ A).
  - apply signed_is; rewrite <- unit_mult; exact (ccov_unbiased_rel _ _ _ sc _ _ Hb Hd _ _ A).
  - apply signed_is; rewrite xorb_comm, <- unit_div; exact (creg_slope_rel _ _ _ sc _ _ Hb Hd _ _ C).
  - apply signed_is; exact (creg_at_rel _ _ _ sc _ _ Hb Hd _ _ _ _ C (signed_neg b p)).
  - destruct (ccorr_value_unit _ _ _ sc _ _ Hb Hd _ _ (unit_sq b) (unit_sq d) B) as [E|E]; [left; exact E|].
    right; apply signed_is; rewrite <- unit_mult; exact E.
Qed.

(** @ex C78_pairs_ex: the covariance of (1, 2), (3, 7), (4, 8) and the opposite
    one. *)
Lemma c78_pairs_ex :
  let F := b64num in
  let cov l := ccov_variance F (run (ccov_push F) (ccov_clear F) (ccov_init F)
    (map Push (map (fun p => (b64_of_Z (fst p), b64_of_Z (snd p))) l))) in
  SFltb (b64_of_Z 1) (cov [(1, 2); (3, 7); (4, 8)]%Z) = true /\
  SFeqb (cov [(-1, 2); (-3, 7); (-4, 8)]%Z) (SFopp (cov [(1, 2); (3, 7); (4, 8)]%Z)) = true.
Proof. split; vm_compute; reflexivity. Qed.

(** @prop C78_window: the same for the filters over the last W values. *)
Lemma c78_window : forall (b d : bool) (W : nat) (ops : list (op b64))
    (ops2 : list (op (b64 * b64))) (p : b64),
  let F := b64num in
  let ops' := map (op_map (neg_if b)) ops in
  let ops2' := map (op_map (neg_if2 b d)) ops2 in
  let var o := run (wvar_push F W) (wvar_clear F) (wvar_init F) o in
  let cov o := run (wcov_push F W) (wcov_clear F) (wcov_init F) o in
  let reg o := run (wreg_push F W) (wreg_clear F) (wreg_init F) o in
  same_double (neg_if b (wvar_mean F (var ops))) (wvar_mean F (var ops')) /\
  same_double (wvar_variance F (var ops)) (wvar_variance F (var ops')) /\
  same_double (wvar_unbiased_variance F (var ops)) (wvar_unbiased_variance F (var ops')) /\
  same_double (neg_if (xorb b d) (wcov_variance F (cov ops2))) (wcov_variance F (cov ops2')) /\
  same_double (neg_if (xorb b d) (wcov_unbiased_variance F (cov ops2))) (wcov_unbiased_variance F (cov ops2')) /\
  same_double (neg_if (xorb b d) (wreg_slope F (reg ops2))) (wreg_slope F (reg ops2')) /\
  same_double (neg_if d (wreg_at F (reg ops2) p)) (wreg_at F (reg ops2') (neg_if b p)).
Proof.
  intros b d W ops ops2 p F ops' ops2' var cov reg. pose proof binary64_scaling as sc.
  pose proof (unit_adm b) as Hb. pose proof (unit_adm d) as Hd.
  assert (A : wvar_rel b64num signed (unit_of b) (var ops) (var ops')).
  { apply (run_rel (wvar_rel b64num signed (unit_of b)) (signed (unit_of b))).
    - intros; eapply wvar_push_rel; eauto.
    - intros; eapply wvar_clear_rel; eauto.
    - apply history_neg.
    - eapply wvar_init_rel; eauto. }
  assert (B : wcov_rel b64num signed (unit_of b) (unit_of d) (cov ops2) (cov ops2')).
  { apply (run_rel (wcov_rel b64num signed (unit_of b) (unit_of d)) (pair_rel b64num signed (unit_of b) (unit_of d))).
    - intros; eapply wcov_push_rel; eauto.
    - intros; eapply wcov_clear_rel; eauto.
    - apply history_neg2.
    - eapply wcov_init_rel; eauto. }
  assert (C : wreg_rel b64num signed (unit_of b) (unit_of d) (reg ops2) (reg ops2')).
  { apply (run_rel (wreg_rel b64num signed (unit_of b) (unit_of d)) (pair_rel b64num signed (unit_of b) (unit_of d))).
    - intros; eapply wreg_push_rel; eauto.
    - intros; eapply wreg_clear_rel; eauto.
    - apply history_neg2.
    - eapply wreg_init_rel; eauto. }
  repeat split.
  - apply signed_is; exact (proj2 (proj1 A)).
  - apply (signed_sq b); exact (wvar_variance_rel _ _ _ sc _ Hb _ _ A).
  - apply (signed_sq b); exact (wvar_unbiased_rel _ _ _ sc _ Hb _ _ A).
  - apply signed_is; rewrite <- unit_mult; exact (wcov_variance_rel _ _ _ sc _ _ Hb Hd _ _ B).
  - apply signed_is; rewrite <- unit_mult; exact (wcov_unbiased_rel _ _ _ sc _ _ Hb Hd _ _ B).
  - apply signed_is; rewrite xorb_comm, <- unit_div; exact (wreg_slope_rel _ _ _ sc _ _ Hb Hd _ _ C).
  - apply signed_is; exact (wreg_at_rel _ _ _ sc _ _ Hb Hd _ _ _ _ C (signed_neg b p)).
Qed.

(** @ex C78_window_ex: a window of two values, with an infinity that left it. *)
Lemma c78_window_ex :
  let F := b64num in
  let var l := wvar_variance F (run (wvar_push F 2) (wvar_clear F) (wvar_init F) (map Push l)) in
  let l := [S754_infinity true; b64_of_Z 1; b64_of_Z 2; b64_of_Z 7] in
  map SFopp l = [S754_infinity false; b64_of_Z (-1); b64_of_Z (-2); b64_of_Z (-7)] /\
  SFeqb (var (tl l)) (b64_of_Z 6) = false /\ SFeqb (var (tl l)) (var (map SFopp (tl l))) = true.
Proof. split; [|split]; vm_compute; reflexivity. Qed.

(** @prop C78_interim: the same for the interim filters. *)
Lemma c78_interim : forall (b d : bool) (W : N) (ops : list (op b64))
    (ops2 : list (op (b64 * b64))) (p : b64),
  let F := b64num in
  let ops' := map (op_map (neg_if b)) ops in
  let ops2' := map (op_map (neg_if2 b d)) ops2 in
  let mean o := run (imean_push F W) (imean_clear F) (imean_init F) o in
  let var o := run (ivar_push F W) (ivar_clear F) (ivar_init F) o in
  let kurt o := run (ikurt_push F W) (ikurt_clear F) (ikurt_init F) o in
  let cov o := run (icov_push F W) (icov_clear F) (icov_init F) o in
  let reg o := run (ireg_push F W) (ireg_clear F) (ireg_init F) o in
  same_double (neg_if b (imean_mean F W (mean ops))) (imean_mean F W (mean ops')) /\
  same_double (ivar_variance F W (var ops)) (ivar_variance F W (var ops')) /\
  same_double (ikurt_kurtosis F W (kurt ops)) (ikurt_kurtosis F W (kurt ops')) /\
  same_double (neg_if (xorb b d) (icov_variance F W (cov ops2))) (icov_variance F W (cov ops2')) /\
  same_double (neg_if (xorb b d) (ireg_slope F W (reg ops2))) (ireg_slope F W (reg ops2')) /\
  same_double (neg_if d (ireg_at F W (reg ops2) p)) (ireg_at F W (reg ops2') (neg_if b p)).
Proof.
  intros b d W ops ops2 p F ops' ops2' mean var kurt cov reg. pose proof binary64_scaling as sc.
  pose proof (unit_adm b) as Hb. pose proof (unit_adm d) as Hd.
  assert (A0 : imean_rel b64num signed (unit_of b) (mean ops) (mean ops')).
  { apply (run_rel (imean_rel b64num signed (unit_of b)) (signed (unit_of b))).
    - intros; eapply imean_push_rel; eauto.
    - intros; eapply imean_clear_rel; eauto.
    - apply history_neg.
    - eapply imean_init_rel; eauto. }
  assert (A : ivar_rel b64num signed (unit_of b) (var ops) (var ops')).
  { apply (run_rel (ivar_rel b64num signed (unit_of b)) (signed (unit_of b))).
    - intros; eapply ivar_push_rel; eauto.
    - intros; eapply ivar_clear_rel; eauto.
    - apply history_neg.
    - eapply ivar_init_rel; eauto. }
  assert (K : ikurt_rel b64num signed (unit_of b) (kurt ops) (kurt ops')).
  { apply (run_rel (ikurt_rel b64num signed (unit_of b)) (signed (unit_of b))).
    - intros; eapply ikurt_push_rel; eauto.
    - intros; eapply ikurt_clear_rel; eauto.
    - apply history_neg.
    - eapply ikurt_init_rel; eauto. }
  assert (B : icov_rel b64num signed (unit_of b) (unit_of d) (cov ops2) (cov ops2')).
  { apply (run_rel (icov_rel b64num signed (unit_of b) (unit_of d)) (pair_rel b64num signed (unit_of b) (unit_of d))).
    - intros; eapply icov_push_rel; eauto.
    - intros; eapply icov_clear_rel; eauto.
    - apply history_neg2.
    - eapply icov_init_rel; eauto. }
  assert (C : ireg_rel b64num signed (unit_of b) (unit_of d) (reg ops2) (reg ops2')).
  { apply (run_rel (ireg_rel b64num signed (unit_of b) (unit_of d)) (pair_rel b64num signed (unit_of b) (unit_of d))).
    - intros; eapply ireg_push_rel; eauto.
    - intros; eapply ireg_clear_rel; eauto.
    - apply history_neg2.
    - eapply ireg_init_rel; eauto. }
  repeat split.
  - apply signed_is; eapply imean_mean_rel; eauto.
  - apply (signed_sq b); eapply ivar_variance_rel; eauto.
  - apply (signed_is false); eapply (ikurt_kurtosis_unit b64num _ signed sc W (unit_of b)); eauto using unit_sq.
  - apply signed_is; rewrite <- unit_mult; eapply icov_variance_rel; eauto.
  - apply signed_is; rewrite xorb_comm, <- unit_div; eapply ireg_slope_rel; eauto.
  - apply signed_is; exact (ireg_at_rel _ _ _ sc _ _ _ Hb Hd _ _ _ _ C (signed_neg b p)).
Qed.

(** @ex C78_interim_ex: 1, 2, 4 in a window of two values, and the negatives. *)
Lemma c78_interim_ex :
  let F := b64num in
  let mean l := imean_mean F 2 (run (imean_push F 2) (imean_clear F) (imean_init F) (map Push (map b64_of_Z l))) in
  SFltb (b64_of_Z 3) (mean [1; 2; 4]%Z) = true /\
  SFeqb (mean [-1; -2; -4]%Z) (SFopp (mean [1; 2; 4]%Z)) = true.
Proof. split; vm_compute; reflexivity. Qed.

(** @prop C78_decay: the decay filters treat both signs alike: mean and skewness
    are negated, variance and kurtosis are unchanged, for all factors. *)
Lemma c78_decay : forall (b : bool) (f1 f2 f3 f4 : b64) (ops : list (op b64)),
  let F := b64num in
  let final o := run (dkurt_push F) (dkurt_clear F) (dkurt_init F f1 f2 f3 f4) o in
  let s := final ops in
  let s' := final (map (op_map (neg_if b)) ops) in
  same_double (neg_if b (dkurt_mean F s)) (dkurt_mean F s') /\
  same_double (dkurt_variance F s) (dkurt_variance F s') /\
  same_double (neg_if b (dkurt_skewness F s)) (dkurt_skewness F s') /\
  same_double (dkurt_kurtosis F s) (dkurt_kurtosis F s').
Proof.
  intros b f1 f2 f3 f4 ops F final s s'. pose proof binary64_scaling as sc.
  pose proof (unit_adm b) as Hb.
  assert (H : dkurt_rel b64num signed (unit_of b) s s').
  { apply (run_rel (dkurt_rel b64num signed (unit_of b)) (signed (unit_of b))).
    - intros; eapply dkurt_push_rel; eauto.
    - intros; eapply dkurt_clear_rel; eauto.
    - apply history_neg.
    - eapply dkurt_init_rel; eauto. }
  pose proof (proj1 H) as K; pose proof (proj1 K) as V; pose proof (proj1 V) as M.
  repeat split.
  - apply signed_is; exact (dmean_mean_rel _ _ _ sc _ Hb _ _ M).
  - apply (signed_sq b); exact (dvar_variance_rel _ _ _ sc _ Hb _ _ V).
  - apply signed_is; exact (dskew_value_unit _ _ _ sc _ Hb _ _ (unit_sq b) K).
  - apply (signed_is false); exact (dkurt_value_unit _ _ _ sc _ Hb _ _ (unit_sq b) H).
Qed.

(** @ex C78_decay_ex: skewness of 0, 0, 0, 4 with factors 1/2, and of the negatives. *)
Lemma c78_decay_ex :
  let F := b64num in
  let half := @ndiv b64num (b64_of_Z 1) (b64_of_Z 2) in
  let skew l := dkurt_skewness F (run (dkurt_push F) (dkurt_clear F)
     (dkurt_init F half half half half) (map Push (map b64_of_Z l))) in
  SFltb (b64_of_Z 0) (skew [0; 0; 0; 4]%Z) = true /\
  SFeqb (skew [0; 0; 0; -4]%Z) (SFopp (skew [0; 0; 0; 4]%Z)) = true.
Proof. split; vm_compute; reflexivity. Qed.

(** @prop C78_impulse: the output of an impulse response filter is negated. *)
Lemma c78_impulse : forall (b : bool) (ks bs as_ : list b64) (k : b64) (ops : list (op b64)),
  let F := b64num in
  let ops' := map (op_map (neg_if b)) ops in
  let finite o := run (fir_push F) (fir_clear F) (fir_new F ks) o in
  let infinite o := run (iir_push F) (iir_clear F) (iir_new F bs as_ k) o in
  same_double (neg_if b (fir_value F (finite ops))) (fir_value F (finite ops')) /\
  same_double (neg_if b (iir_value F (infinite ops))) (iir_value F (infinite ops')).
Proof.
  intros b ks bs as_ k ops F ops' finite infinite. pose proof binary64_scaling as sc.
  pose proof (unit_adm b) as Hb.
  assert (A : fir_rel b64num signed (unit_of b) (finite ops) (finite ops')).
  { apply (run_rel (fir_rel b64num signed (unit_of b)) (signed (unit_of b))).
    - intros; eapply fir_push_rel; eauto.
    - intros; eapply fir_clear_rel; eauto.
    - apply history_neg.
    - eapply fir_new_rel; eauto. }
  assert (B : iir_rel b64num signed (unit_of b) (infinite ops) (infinite ops')).
  { apply (run_rel (iir_rel b64num signed (unit_of b)) (signed (unit_of b))).
    - intros; eapply iir_push_rel; eauto.
    - intros; eapply iir_clear_rel; eauto.
    - apply history_neg.
    - eapply iir_new_rel; eauto. }
  split.
  - apply signed_is; exact (proj1 (proj2 A)).
  - apply signed_is; eapply iir_value_rel; eauto.
Qed.

(** @ex C78_impulse_ex: y = 2 x - y', for 1 and 3 and for -1 and -3. *)
Lemma c78_impulse_ex :
  let F := b64num in
  let out l := iir_value F (run (iir_push F) (iir_clear F) (iir_new F [b64_of_Z 2] [b64_of_Z 1] (b64_of_Z 1))
     (map Push (map b64_of_Z l))) in
  SFeqb (out [1; 3]%Z) (b64_of_Z 0) = false /\
  SFeqb (out [-1; -3]%Z) (SFopp (out [1; 3]%Z)) = true.
Proof. split; vm_compute; reflexivity. Qed.
