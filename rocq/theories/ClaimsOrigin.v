(** * Claims: change of origin *)

From Coq Require Import Reals List ZArith NArith Bool Floats.SpecFloat.
From Verif Require Import Arith History Cumulative Window Interim Decay Psquare SpecOrigin.
Import ListNotations.
Local Open Scope R_scope.
(* @end-header *)
From Coq Require Import Lra Lia.
From Flocq Require Import Core.Raux.
From Verif Require Import HistoryLemmas Buffer Scaling Origin OriginPsquare.

(** Both halves are in the initial state. *)
Definition start {S : Type} (i : S) (s s' : duo S) : Prop := s = duo_init i /\ s' = duo_init i.
Lemma start_clear {S : Type} (i : S) (clear : S -> S) (r : duo S -> duo S -> Prop) : (forall s, clear s = i) ->
  forall s s' : duo S, start i s s' \/ r s s' -> start i (duo_clear clear s) (duo_clear clear s').
Proof. intros H s s' _; split; apply duo_clear_init, H. Qed.

Lemma either_eq {S B : Type} (f : S -> B) (s0 : S) (r : S -> S -> Prop) a b :
  (a = s0 /\ b = s0) \/ r a b -> (forall a b, r a b -> f a = f b) -> f a = f b.
Proof. intros [[-> ->]|H] E; auto. Qed.

(** @prop C83_cumulative: exact arithmetic, every history: adding a constant to
    every pushed value adds it to mean() and to the trend, provided a value was
    pushed since the last clear, and leaves variance, skewness and kurtosis and
    their unbiased versions exactly as they were. *)
Lemma c83_cumulative : forall (eps c : R) (ops : list (op xreal)),
  let F := exact eps in
  let ops' := map (op_map (plus_c c)) ops in
  let mean o := run (cmean_push F) (cmean_clear F) (cmean_init F) o in
  let var o := run (cvar_push F) (cvar_clear F) (cvar_init F) o in
  let skew o := run (cskew_push F) (cskew_clear F) (cskew_init F) o in
  let kurt o := run (ckurt_push F) (ckurt_clear F) (ckurt_init F) o in
  let trend o := run (ctrend_push F) (ctrend_clear F) (ctrend_init F) o in
  (since_clear ops <> [] ->
   shifted c (cmean_mean F (mean ops)) (cmean_mean F (mean ops')) /\
   shifted c (cvar_mean F (var ops)) (cvar_mean F (var ops')) /\
   shifted c (cskew_mean F (skew ops)) (cskew_mean F (skew ops')) /\
   shifted c (ckurt_mean F (kurt ops)) (ckurt_mean F (kurt ops')) /\
   shifted c (ctrend_value F (trend ops)) (ctrend_value F (trend ops'))) /\
  cvar_variance F (var ops) = cvar_variance F (var ops') /\
  cvar_unbiased_variance F (var ops) = cvar_unbiased_variance F (var ops') /\
  cskew_variance F (skew ops) = cskew_variance F (skew ops') /\
  cskew_skewness F (skew ops) = cskew_skewness F (skew ops') /\
  cskew_unbiased_skewness F (skew ops) = cskew_unbiased_skewness F (skew ops') /\
  ckurt_variance F (kurt ops) = ckurt_variance F (kurt ops') /\
  ckurt_skewness F (kurt ops) = ckurt_skewness F (kurt ops') /\
  ckurt_kurtosis F (kurt ops) = ckurt_kurtosis F (kurt ops') /\
  ckurt_unbiased_kurtosis F (kurt ops) = ckurt_unbiased_kurtosis F (kurt ops').
Proof.
  intros eps c ops F ops'; cbv zeta.
  pose proof (ops_plus c ops) as HO.
  destruct (run_first (fun s s' => s = cmean_init F /\ s' = cmean_init F) (cm_sh eps c) (shifted c)
    (cmean_push F) (cmean_clear F) (cmean_push F) (cmean_clear F) ops ops' (cmean_init F) (cmean_init F)
    (cm_push_sh eps c) (fun s s' _ => conj eq_refl eq_refl) HO (conj eq_refl eq_refl)) as [_ M].
  destruct (run_first (fun s s' => s = cvar_init F /\ s' = cvar_init F) (cv_sh eps c) (shifted c)
    (cvar_push F) (cvar_clear F) (cvar_push F) (cvar_clear F) ops ops' (cvar_init F) (cvar_init F)
    (cv_push_sh eps c) (fun s s' _ => conj eq_refl eq_refl) HO (conj eq_refl eq_refl)) as [V V'].
  destruct (run_first (fun s s' => s = cskew_init F /\ s' = cskew_init F) (cs_sh eps c) (shifted c)
    (cskew_push F) (cskew_clear F) (cskew_push F) (cskew_clear F) ops ops' (cskew_init F) (cskew_init F)
    (cs_push_sh eps c) (fun s s' _ => conj eq_refl eq_refl) HO (conj eq_refl eq_refl)) as [K K'].
  destruct (run_first (fun s s' => s = ckurt_init F /\ s' = ckurt_init F) (ck_sh eps c) (shifted c)
    (ckurt_push F) (ckurt_clear F) (ckurt_push F) (ckurt_clear F) ops ops' (ckurt_init F) (ckurt_init F)
    (ck_push_sh eps c) (fun s s' _ => conj eq_refl eq_refl) HO (conj eq_refl eq_refl)) as [Q Q'].
  destruct (run_first (fun s s' => s = ctrend_init F /\ s' = ctrend_init F) (ct_sh eps c) (shifted c)
    (ctrend_push F) (ctrend_clear F) (ctrend_push F) (ctrend_clear F) ops ops' (ctrend_init F) (ctrend_init F)
    (ct_push_sh eps c) (fun s s' _ => conj eq_refl eq_refl) HO (conj eq_refl eq_refl)) as [_ T].
  split; [|].
  { intros Hn; repeat split.
    - exact (proj2 (M Hn)).
    - exact (proj2 (proj1 (V' Hn))).
    - exact (proj2 (proj1 (proj1 (K' Hn)))).
    - exact (proj2 (proj1 (proj1 (proj1 (Q' Hn))))).
    - apply ct_value_sh, (T Hn). }
  clear M V' K' Q' T.
  unfold cskew_variance, ckurt_variance, cskew_variance, ckurt_skewness.
  repeat apply conj.
  - exact (either_eq (cvar_variance F) _ _ _ _ V (fun _ _ H => proj1 (cv_stats _ _ _ _ H))).
  - exact (either_eq (cvar_unbiased_variance F) _ _ _ _ V (fun _ _ H => proj2 (cv_stats _ _ _ _ H))).
  - exact (either_eq (cskew_variance F) _ _ _ _ K (fun _ _ H => proj1 (cv_stats _ _ _ _ (proj1 H)))).
  - exact (either_eq (cskew_skewness F) _ _ _ _ K (fun _ _ H => proj1 (cs_stats _ _ _ _ H))).
  - exact (either_eq (cskew_unbiased_skewness F) _ _ _ _ K (fun _ _ H => proj2 (cs_stats _ _ _ _ H))).
  - exact (either_eq (ckurt_variance F) _ _ _ _ Q (fun _ _ H => proj1 (cv_stats _ _ _ _ (proj1 (proj1 H))))).
  - exact (either_eq (ckurt_skewness F) _ _ _ _ Q (fun _ _ H => proj1 (cs_stats _ _ _ _ (proj1 H)))).
  - exact (either_eq (ckurt_kurtosis F) _ _ _ _ Q (fun _ _ H => proj1 (ck_stats _ _ _ _ H))).
  - exact (either_eq (ckurt_unbiased_kurtosis F) _ _ _ _ Q (fun _ _ H => proj2 (ck_stats _ _ _ _ H))).
Qed.

(** @ex C83_cumulative_ex: a history with a clear; the values 2 and 4 have
    variance 1 and mean 3, and so have 1000002 and 1000004, up to the origin. *)
Lemma c83_cumulative_ex :
  let F := exact 1 in
  let var o := run (cvar_push F) (cvar_clear F) (cvar_init F) o in
  let ops := [Push (Fin 9); Clear; Push (Fin 2); Push (Fin 4)] in
  since_clear ops <> [] /\
  cvar_mean F (var ops) = Fin 3 /\ cvar_variance F (var ops) = Fin 1 /\
  cvar_variance F (var (map (op_map (plus_c 1000000)) ops)) = Fin 1.
Proof.
  split; [discriminate|].
  split; [|split]; cbn; repeat (rewrite Req_bool_false by lra; cbn); f_equal; field.
Qed.

(** @prop C83_unbiased_mean_refuted: unbiased_mean() does not move with the
    origin: adding 1 to the values 1 and 3 adds 2 to it. *)
Lemma c83_unbiased_mean_refuted : exists (c : R) (ops : list (op xreal)),
  let F := exact 1 in
  let um o := cmean_unbiased_mean F (run (cmean_push F) (cmean_clear F) (cmean_init F) o) in
  ~ shifted c (um ops) (um (map (op_map (plus_c c)) ops)).
Proof.
  exists 1, [Push (Fin 1); Push (Fin 3)]; cbn.
  repeat (rewrite Req_bool_false by lra; cbn); lra.
Qed.

(** @prop C83_double_refuted: for double the variance depends on the origin:
    0 and 1 have variance 1/4; after adding 2^52 to both values, which are then
    still exact doubles, variance() is 1/2. *)
Lemma c83_double_refuted : exists (c : Z) (l : list Z),
  let F := b64num in
  let var l := cvar_variance F (run (cvar_push F) (cvar_clear F) (cvar_init F) (map Push (map b64_of_Z l))) in
  (forall x, In x l -> (Z.abs x <= 2 ^ 53 /\ Z.abs (c + x) <= 2 ^ 53)%Z) /\
  var l = ndiv (n := F) (nofz 1) (nofz 4) /\
  var (map (Z.add c) l) = ndiv (n := F) (nofz 1) (nofz 2) /\
  SFeqb (var l) (var (map (Z.add c) l)) = false.
Proof.
  exists 4503599627370496%Z, [0; 1]%Z; cbv zeta.
  split; [intros x [<-|[<-|[]]]; lia|].
  split; [vm_compute; reflexivity|split; vm_compute; reflexivity].
Qed.

(** @prop C83_pairs: exact arithmetic: adding one constant to the first and
    another to the second components leaves covariance, correlation and slope
    exactly as they were and moves the regression line along: its value at the
    moved position moves by the second constant. *)
Lemma c83_pairs : forall (eps c d : R) (ops : list (op (xreal * xreal))) (p : xreal),
  let F := exact eps in
  let ops' := map (op_map (plus_c2 c d)) ops in
  let cov o := run (ccov_push F) (ccov_clear F) (ccov_init F) o in
  let corr o := ccorr_value F (run (ccorr_push F) (ccorr_clear F) (ccorr_init F) o) in
  let reg o := run (creg_push F) (creg_clear F) (creg_init F) o in
  ccov_variance F (cov ops) = ccov_variance F (cov ops') /\
  ccov_unbiased_variance F (cov ops) = ccov_unbiased_variance F (cov ops') /\
  corr ops = corr ops' /\
  creg_slope F (reg ops) = creg_slope F (reg ops') /\
  (since_clear ops <> [] ->
   shifted d (creg_at F (reg ops) p) (creg_at F (reg ops') (plus_c c p))).
Proof.
  intros eps c d ops p F ops'; cbv zeta.
  pose proof (ops_plus2 c d ops) as HO.
  destruct (run_first (fun s s' => s = ccov_init F /\ s' = ccov_init F) (cc_sh eps c d) (pair_sh c d)
    (ccov_push F) (ccov_clear F) (ccov_push F) (ccov_clear F) ops ops' (ccov_init F) (ccov_init F)
    (cc_push_sh eps c d) (fun s s' _ => conj eq_refl eq_refl) HO (conj eq_refl eq_refl)) as [V _].
  destruct (run_first (fun s s' => s = ccorr_init F /\ s' = ccorr_init F) (cr_sh eps c d) (pair_sh c d)
    (ccorr_push F) (ccorr_clear F) (ccorr_push F) (ccorr_clear F) ops ops' (ccorr_init F) (ccorr_init F)
    (cr_push_sh eps c d) (fun s s' _ => conj eq_refl eq_refl) HO (conj eq_refl eq_refl)) as [K _].
  destruct (run_first (fun s s' => s = creg_init F /\ s' = creg_init F) (cg_sh eps c d) (pair_sh c d)
    (creg_push F) (creg_clear F) (creg_push F) (creg_clear F) ops ops' (creg_init F) (creg_init F)
    (cg_push_sh eps c d) (fun s s' _ => conj eq_refl eq_refl) HO (conj eq_refl eq_refl)) as [G G'].
  split; [exact (either_eq (ccov_variance F) _ _ _ _ V (fun _ _ H => proj1 (cc_stats _ _ _ _ _ H)))|].
  split; [exact (either_eq (ccov_unbiased_variance F) _ _ _ _ V (fun _ _ H => proj2 (cc_stats _ _ _ _ _ H)))|].
  split; [exact (either_eq (ccorr_value F) _ _ _ _ K (fun _ _ H => cr_value_sh _ _ _ _ _ H))|].
  split; [exact (either_eq (creg_slope F) _ _ _ _ G (fun _ _ H => cg_slope_sh _ _ _ _ _ H))|].
  intros Hn; apply (cg_at_sh eps c d _ _ _ _ (G' Hn)).
  destruct p; cbn; auto.
Qed.

(** @ex C83_pairs_ex: the line through (0, 1) and (2, 5), moved by (10, -3). *)
Lemma c83_pairs_ex :
  let F := exact 1 in
  let reg o := run (creg_push F) (creg_clear F) (creg_init F) o in
  let ops := [Push (Fin 0, Fin 1); Push (Fin 2, Fin 5)] in
  since_clear ops <> [] /\
  creg_slope F (reg ops) = Fin 2 /\ creg_at F (reg ops) (Fin 1) = Fin 3 /\
  creg_at F (reg (map (op_map (plus_c2 10 (-3))) ops)) (Fin 11) = Fin 0.
Proof.
  split; [discriminate|].
  split; [|split]; unfold creg_at, creg_slope; cbn;
    repeat (rewrite Req_bool_false by lra; cbn); f_equal; lra.
Qed.

(** @prop C83_window: the same for the filters over the last W values. *)
Lemma c83_window : forall (eps c d : R) (W : nat) (ops : list (op xreal))
    (ops2 : list (op (xreal * xreal))) (p : xreal),
  (0 < W)%nat ->
  let F := exact eps in
  let ops' := map (op_map (plus_c c)) ops in
  let ops2' := map (op_map (plus_c2 c d)) ops2 in
  let mean o := run (wmean_push F W) (wmean_clear F) (wmean_init F) o in
  let var o := run (wvar_push F W) (wvar_clear F) (wvar_init F) o in
  let cov o := run (wcov_push F W) (wcov_clear F) (wcov_init F) o in
  let reg o := run (wreg_push F W) (wreg_clear F) (wreg_init F) o in
  (since_clear ops <> [] ->
   shifted c (wmean_mean F (mean ops)) (wmean_mean F (mean ops')) /\
   shifted c (wvar_mean F (var ops)) (wvar_mean F (var ops'))) /\
  wvar_variance F (var ops) = wvar_variance F (var ops') /\
  wvar_unbiased_variance F (var ops) = wvar_unbiased_variance F (var ops') /\
  wcov_variance F (cov ops2) = wcov_variance F (cov ops2') /\
  wcov_unbiased_variance F (cov ops2) = wcov_unbiased_variance F (cov ops2') /\
  wreg_slope F (reg ops2) = wreg_slope F (reg ops2') /\
  (since_clear ops2 <> [] ->
   shifted d (wreg_at F (reg ops2) p) (wreg_at F (reg ops2') (plus_c c p))).
Proof.
  intros eps c d W ops ops2 p HW F ops' ops2'; cbv zeta.
  pose proof (ops_plus c ops) as HO; pose proof (ops_plus2 c d ops2) as HO2.
  destruct (run_first (fun s s' => s = wmean_init F /\ s' = wmean_init F) (wm_sh eps c) (shifted c)
    (wmean_push F W) (wmean_clear F) (wmean_push F W) (wmean_clear F) ops ops' (wmean_init F) (wmean_init F)
    (wm_push_sh eps W HW c) (fun s s' _ => conj eq_refl eq_refl) HO (conj eq_refl eq_refl)) as [_ M].
  destruct (run_first (fun s s' => s = wvar_init F /\ s' = wvar_init F) (wv_sh eps c) (shifted c)
    (wvar_push F W) (wvar_clear F) (wvar_push F W) (wvar_clear F) ops ops' (wvar_init F) (wvar_init F)
    (wv_push_sh eps W HW c) (fun s s' _ => conj eq_refl eq_refl) HO (conj eq_refl eq_refl)) as [V V'].
  pose proof (run_rel (wc_sh eps c d) (pair_sh c d) (wcov_push F W) (wcov_clear F) (wcov_push F W) (wcov_clear F)
    ops2 ops2' (wc_push_sh eps W HW c d) (fun s s' _ => wc_init_sh eps c d) HO2 _ _ (wc_init_sh eps c d)) as C.
  destruct (run_first (fun s s' => s = wreg_init F /\ s' = wreg_init F) (wr_sh eps c d) (pair_sh c d)
    (wreg_push F W) (wreg_clear F) (wreg_push F W) (wreg_clear F) ops2 ops2' (wreg_init F) (wreg_init F)
    (wr_push_sh eps W HW c d) (fun s s' _ => conj eq_refl eq_refl) HO2 (conj eq_refl eq_refl)) as [G G'].
  split; [intros Hn; split; [exact (proj2 (M Hn))|exact (proj2 (proj1 (V' Hn)))]|].
  split; [exact (either_eq (wvar_variance F) _ _ _ _ V (fun _ _ H => proj1 (wv_stats _ _ _ _ H)))|].
  split; [exact (either_eq (wvar_unbiased_variance F) _ _ _ _ V (fun _ _ H => proj2 (wv_stats _ _ _ _ H)))|].
  split; [eapply wc_stats; [exact HW|exact C]|].
  split; [eapply wc_stats; [exact HW|exact C]|].
  split; [exact (either_eq (wreg_slope F) _ _ _ _ G (fun _ _ H => ltac:(eapply wr_slope_sh; [exact HW|exact H])))|].
  intros Hn; eapply wr_at_sh; [exact HW|exact (G' Hn)|].
  destruct p; cbn; auto.
Qed.

(** @ex C83_window_ex: the last two of 9, 2, 4 have mean 3 and variance 1, and
    after adding 100 mean 103. *)
Lemma c83_window_ex :
  let F := exact 1 in
  let var o := run (wvar_push F 2) (wvar_clear F) (wvar_init F) o in
  let ops := [Push (Fin 9); Push (Fin 2); Push (Fin 4)] in
  since_clear ops <> [] /\
  wvar_mean F (var ops) = Fin 3 /\ wvar_mean F (var (map (op_map (plus_c 100)) ops)) = Fin 103.
Proof.
  split; [discriminate|].
  split; cbn; repeat (rewrite Req_bool_false by lra; cbn); f_equal; lra.
Qed.

Lemma ireg_slope_eq eps W (s s' : ireg (exact eps)) :
  ivar_variance (exact eps) W (ir_x _ s) = ivar_variance (exact eps) W (ir_x _ s') ->
  icov_variance (exact eps) W (ir_cov _ s) = icov_variance (exact eps) W (ir_cov _ s') ->
  ireg_slope (exact eps) W s = ireg_slope (exact eps) W s'.
Proof. intros E1 E2; unfold ireg_slope; rewrite E1, E2; reflexivity. Qed.

Lemma ireg_at_shifted eps c d W (s s' : ireg (exact eps)) p p' :
  ireg_slope (exact eps) W s = ireg_slope (exact eps) W s' ->
  shifted d (imean_mean (exact eps) W (ir_y _ s)) (imean_mean (exact eps) W (ir_y _ s')) ->
  shifted c (ivar_mean (exact eps) W (ir_x _ s)) (ivar_mean (exact eps) W (ir_x _ s')) ->
  shifted c p p' ->
  shifted d (ireg_at (exact eps) W s p) (ireg_at (exact eps) W s' p').
Proof.
  intros E Hy Hx Hp; unfold ireg_at; rewrite E, (sh_sub eps c _ _ _ _ Hx Hp).
  apply sh_minus; exact Hy.
Qed.

(** @prop C83_interim: the same for the interim filters, for every window below
    2^63. *)
Lemma c83_interim : forall (eps c d : R) (W : N) (ops : list (op xreal))
    (ops2 : list (op (xreal * xreal))) (p : xreal),
  (0 < W)%N -> (2 * W < szmod)%N ->
  let F := exact eps in
  let ops' := map (op_map (plus_c c)) ops in
  let ops2' := map (op_map (plus_c2 c d)) ops2 in
  let mean o := run (imean_push F W) (imean_clear F) (imean_init F) o in
  let var o := run (ivar_push F W) (ivar_clear F) (ivar_init F) o in
  let skew o := run (iskew_push F W) (iskew_clear F) (iskew_init F) o in
  let kurt o := run (ikurt_push F W) (ikurt_clear F) (ikurt_init F) o in
  let cov o := run (icov_push F W) (icov_clear F) (icov_init F) o in
  let reg o := run (ireg_push F W) (ireg_clear F) (ireg_init F) o in
  (since_clear ops <> [] ->
   shifted c (imean_mean F W (mean ops)) (imean_mean F W (mean ops')) /\
   shifted c (ivar_mean F W (var ops)) (ivar_mean F W (var ops')) /\
   shifted c (iskew_mean F W (skew ops)) (iskew_mean F W (skew ops')) /\
   shifted c (ikurt_mean F W (kurt ops)) (ikurt_mean F W (kurt ops'))) /\
  ivar_variance F W (var ops) = ivar_variance F W (var ops') /\
  iskew_skewness F W (skew ops) = iskew_skewness F W (skew ops') /\
  ikurt_kurtosis F W (kurt ops) = ikurt_kurtosis F W (kurt ops') /\
  icov_variance F W (cov ops2) = icov_variance F W (cov ops2') /\
  (since_clear ops2 <> [] ->
   ireg_slope F W (reg ops2) = ireg_slope F W (reg ops2') /\
   shifted d (ireg_at F W (reg ops2) p) (ireg_at F W (reg ops2') (plus_c c p))).
Proof.
  intros eps c d W ops ops2 p HW HB F ops' ops2'; cbv zeta.
  pose proof (ops_plus c ops) as HO; pose proof (ops_plus2 c d ops2) as HO2.
  assert (SZ : forall n, (n < W)%N -> szadd n 1 = (n + 1)%N) by (intros n Hn; apply szadd_small; lia).
  pose proof (duo_push_sh W HW HB (cmean_init F) (cmean_clear F) (cmean_push F) (cmean_size F) (shifted c) (cm_sh eps c)
    (fun _ => eq_refl) (cm_push_sh eps c) (fun _ _ H => proj1 H) eq_refl (fun s a H => SZ _ H)) as PM.
  pose proof (duo_push_sh W HW HB (cmean_init F) (cmean_clear F) (cmean_push F) (cmean_size F) (shifted d) (cm_sh eps d)
    (fun _ => eq_refl) (cm_push_sh eps d) (fun _ _ H => proj1 H) eq_refl (fun s a H => SZ _ H)) as PN.
  pose proof (duo_push_sh W HW HB (cvar_init F) (cvar_clear F) (cvar_push F) (cvar_size F) (shifted c) (cv_sh eps c)
    (fun _ => eq_refl) (cv_push_sh eps c) (fun _ _ H => proj1 (proj1 H)) eq_refl (fun s a H => SZ _ H)) as PV.
  pose proof (duo_push_sh W HW HB (cskew_init F) (cskew_clear F) (cskew_push F) (cskew_size F) (shifted c) (cs_sh eps c)
    (fun _ => eq_refl) (cs_push_sh eps c) (fun _ _ H => proj1 (proj1 (proj1 H))) eq_refl (fun s a H => SZ _ H)) as PS.
  pose proof (duo_push_sh W HW HB (ckurt_init F) (ckurt_clear F) (ckurt_push F) (ckurt_size F) (shifted c) (ck_sh eps c)
    (fun _ => eq_refl) (ck_push_sh eps c) (fun _ _ H => proj1 (proj1 (proj1 (proj1 H)))) eq_refl (fun s a H => SZ _ H)) as PK.
  pose proof (duo_push_sh W HW HB (ccov_init F) (ccov_clear F) (ccov_push F) (ccov_size F) (pair_sh c d) (cc_sh eps c d)
    (fun _ => eq_refl) (cc_push_sh eps c d) (fun _ _ H => proj1 (proj1 H)) eq_refl
    (fun s a => match a with (x, y) => fun H => SZ _ H end)) as PC.
  destruct (run_first (start (cmean_init F)) _ _ (imean_push F W) (imean_clear F) (imean_push F W) (imean_clear F)
    ops ops' (imean_init F) (imean_init F) PM (start_clear (cmean_init F) (cmean_clear F) _ (fun _ => eq_refl))
    HO (conj eq_refl eq_refl)) as [_ M].
  destruct (run_first (start (cvar_init F)) _ _ (ivar_push F W) (ivar_clear F) (ivar_push F W) (ivar_clear F)
    ops ops' (ivar_init F) (ivar_init F) PV (start_clear (cvar_init F) (cvar_clear F) _ (fun _ => eq_refl))
    HO (conj eq_refl eq_refl)) as [V V'].
  destruct (run_first (start (cskew_init F)) _ _ (iskew_push F W) (iskew_clear F) (iskew_push F W) (iskew_clear F)
    ops ops' (iskew_init F) (iskew_init F) PS (start_clear (cskew_init F) (cskew_clear F) _ (fun _ => eq_refl))
    HO (conj eq_refl eq_refl)) as [K K'].
  destruct (run_first (start (ckurt_init F)) _ _ (ikurt_push F W) (ikurt_clear F) (ikurt_push F W) (ikurt_clear F)
    ops ops' (ikurt_init F) (ikurt_init F) PK (start_clear (ckurt_init F) (ckurt_clear F) _ (fun _ => eq_refl))
    HO (conj eq_refl eq_refl)) as [Q Q'].
  destruct (run_first (start (ccov_init F)) _ _ (icov_push F W) (icov_clear F) (icov_push F W) (icov_clear F)
    ops2 ops2' (icov_init F) (icov_init F) PC (start_clear (ccov_init F) (ccov_clear F) _ (fun _ => eq_refl))
    HO2 (conj eq_refl eq_refl)) as [C _].
  assert (ZM : forall s, cmean_empty F s = (cmean_size F s =? 0)%N) by reflexivity.
  assert (ZV : forall s, cvar_empty F s = (cvar_size F s =? 0)%N) by reflexivity.
  assert (ZS : forall s, cskew_empty F s = (cskew_size F s =? 0)%N) by reflexivity.
  assert (ZK : forall s, ckurt_empty F s = (ckurt_size F s =? 0)%N) by reflexivity.
  assert (ZC : forall s, ccov_size0 F s = (ccov_size F s =? 0)%N) by reflexivity.
  pose proof (duo_same eps W (cvar_init F) (cvar_size F) (cvar_empty F) (cv_sh eps c)
    (fun _ _ H => proj1 (proj1 H)) ZV (cvar_variance F) (fun _ _ H => proj1 (cv_stats _ _ _ _ H))) as EV.
  pose proof (duo_same eps W (ccov_init F) (ccov_size F) (ccov_size0 F) (cc_sh eps c d)
    (fun _ _ H => proj1 (proj1 H)) ZC (ccov_variance F) (fun _ _ H => proj1 (cc_stats _ _ _ _ _ H))) as EC.
  pose proof (duo_mean_sh eps W HW HB (cmean_init F) (cmean_size F) (cmean_empty F) (cm_sh eps c)
    (fun _ _ H => proj1 H) eq_refl ZM c (cmean_mean F) (fun _ _ H => proj2 H)) as EM.
  pose proof (duo_mean_sh eps W HW HB (cmean_init F) (cmean_size F) (cmean_empty F) (cm_sh eps d)
    (fun _ _ H => proj1 H) eq_refl ZM d (cmean_mean F) (fun _ _ H => proj2 H)) as EN.
  pose proof (duo_mean_sh eps W HW HB (cvar_init F) (cvar_size F) (cvar_empty F) (cv_sh eps c)
    (fun _ _ H => proj1 (proj1 H)) eq_refl ZV c (cvar_mean F) (fun _ _ H => proj2 (proj1 H))) as EVM.
  split.
  { intros Hn; split; [|split; [|split]].
    - exact (EM _ _ (M Hn)).
    - exact (EVM _ _ (V' Hn)).
    - exact (duo_mean_sh eps W HW HB (cskew_init F) (cskew_size F) (cskew_empty F) (cs_sh eps c)
        (fun _ _ H => proj1 (proj1 (proj1 H))) eq_refl ZS c (cskew_mean F) (fun _ _ H => proj2 (proj1 (proj1 H)))
        _ _ (K' Hn)).
    - exact (duo_mean_sh eps W HW HB (ckurt_init F) (ckurt_size F) (ckurt_empty F) (ck_sh eps c)
        (fun _ _ H => proj1 (proj1 (proj1 (proj1 H)))) eq_refl ZK c (ckurt_mean F)
        (fun _ _ H => proj2 (proj1 (proj1 (proj1 H)))) _ _ (Q' Hn)). }
  split; [exact (either_eq (ivar_variance F W) _ _ _ _ V (fun _ _ H => proj1 (EV _ _ H)))|].
  split; [exact (either_eq (iskew_skewness F W) _ _ _ _ K
    (fun _ _ H => proj2 (duo_same eps W (cskew_init F) (cskew_size F) (cskew_empty F) (cs_sh eps c)
      (fun _ _ H => proj1 (proj1 (proj1 H))) ZS (cskew_skewness F) (fun _ _ H => proj1 (cs_stats _ _ _ _ H)) _ _ H)))|].
  split; [exact (either_eq (ikurt_kurtosis F W) _ _ _ _ Q
    (fun _ _ H => proj2 (duo_same eps W (ckurt_init F) (ckurt_size F) (ckurt_empty F) (ck_sh eps c)
      (fun _ _ H => proj1 (proj1 (proj1 (proj1 H)))) ZK (ckurt_kurtosis F) (fun _ _ H => proj1 (ck_stats _ _ _ _ H)) _ _ H)))|].
  split; [exact (either_eq (icov_variance F W) _ _ _ _ C (fun _ _ H => proj1 (EC _ _ H)))|].
  intros Hn.
  pose (rc := duo_sh W (ccov_init F) (ccov_size F) (cc_sh eps c d)).
  pose (rv := duo_sh W (cvar_init F) (cvar_size F) (cv_sh eps c)).
  pose (rm := duo_sh W (cmean_init F) (cmean_size F) (cm_sh eps d)).
  destruct (run_first
    (fun s s' : ireg F => start (ccov_init F) (ir_cov F s) (ir_cov F s') /\ start (cvar_init F) (ir_x F s) (ir_x F s') /\
       (start (cmean_init F) (ir_y F s) (ir_y F s') \/ rm (ir_y F s) (ir_y F s')))
    (fun s s' : ireg F => rc (ir_cov F s) (ir_cov F s') /\ rv (ir_x F s) (ir_x F s') /\ rm (ir_y F s) (ir_y F s'))
    (pair_sh c d) (ireg_push F W) (ireg_clear F) (ireg_push F W) (ireg_clear F)
    ops2 ops2' (ireg_init F) (ireg_init F)) as [_ R].
  - intros s s' a a' H Ha; split; [|split]; cbn [ireg_push ir_cov ir_x ir_y].
    + apply PC; [|exact Ha]; destruct H as [[H _]|[H _]]; [left|right]; exact H.
    + apply PV; [|exact (proj1 Ha)]; destruct H as [[_ [H _]]|[_ [H _]]]; [left|right]; exact H.
    + apply PN; [|exact (proj2 Ha)]; destruct H as [[_ [_ H]]|[_ [_ H]]]; [exact H|right; exact H].
  - intros s s' H; split; [|split]; cbn [ireg_clear ir_cov ir_x ir_y].
    + split; reflexivity.
    + split; reflexivity.
    + destruct H as [[_ [_ H]]|[_ [_ H]]]; [exact H|right; exact H].
  - exact HO2.
  - repeat split; left; repeat split.
  - destruct (R Hn) as [H1 [H2 H3]].
    pose proof (ireg_slope_eq eps W (run (ireg_push F W) (ireg_clear F) (ireg_init F) ops2)
      (run (ireg_push F W) (ireg_clear F) (ireg_init F) ops2') (proj1 (EV _ _ H2)) (proj1 (EC _ _ H1))) as ES.
    split; [exact ES|].
    apply (ireg_at_shifted eps c d W _ _ _ _ ES (EN _ _ H3) (EVM _ _ H2)).
    destruct p; cbn; auto.
Qed.

(** @ex C83_interim_ex: window 2; after 9, 2, 4 the interim mean is 9/2, and
    10 more when 10 is added to every value. *)
Lemma c83_interim_ex :
  let F := exact 1 in
  let mean o := run (imean_push F 2) (imean_clear F) (imean_init F) o in
  let ops := [Push (Fin 9); Push (Fin 2); Push (Fin 4)] in
  (0 < 2)%N /\ (2 * 2 < szmod)%N /\ since_clear ops <> [] /\
  imean_mean F 2 (mean ops) = Fin (9 / 2) /\
  imean_mean F 2 (mean (map (op_map (plus_c 10)) ops)) = Fin (29 / 2).
Proof.
  split; [reflexivity|]. split; [reflexivity|]. split; [discriminate|].
  split; cbn; repeat (rewrite Req_bool_false by lra; cbn); f_equal; lra.
Qed.

(** @prop C83_decay: the same for the decay filters with factors in (0, 1]. *)
Lemma c83_decay : forall (eps c f g h i : R) (ops : list (op xreal)),
  0 < f <= 1 ->
  let F := exact eps in
  let ops' := map (op_map (plus_c c)) ops in
  let mean o := run (dmean_push F) (dmean_clear F) (dmean_init F (Fin f)) o in
  let var o := run (dvar_push F) (dvar_clear F) (dvar_init F (Fin f) (Fin g)) o in
  let skew o := run (dskew_push F) (dskew_clear F) (dskew_init F (Fin f) (Fin g) (Fin h)) o in
  let kurt o := run (dkurt_push F) (dkurt_clear F) (dkurt_init F (Fin f) (Fin g) (Fin h) (Fin i)) o in
  (since_clear ops <> [] ->
   shifted c (dmean_mean F (mean ops)) (dmean_mean F (mean ops')) /\
   shifted c (dvar_mean F (var ops)) (dvar_mean F (var ops')) /\
   shifted c (dskew_mean F (skew ops)) (dskew_mean F (skew ops')) /\
   shifted c (dkurt_mean F (kurt ops)) (dkurt_mean F (kurt ops'))) /\
  dvar_variance F (var ops) = dvar_variance F (var ops') /\
  dskew_variance F (skew ops) = dskew_variance F (skew ops') /\
  dskew_skewness F (skew ops) = dskew_skewness F (skew ops') /\
  dkurt_variance F (kurt ops) = dkurt_variance F (kurt ops') /\
  dkurt_skewness F (kurt ops) = dkurt_skewness F (kurt ops') /\
  dkurt_kurtosis F (kurt ops) = dkurt_kurtosis F (kurt ops').
Proof.
  intros eps c f g h i ops Hf F ops'; cbv zeta.
  pose proof (ops_plus c ops) as HO.
  assert (Df : dfac (Fin f)) by (exists f; auto).
  destruct (run_first (dm_sh eps c) (fun s s' => dm_sh eps c s s' /\ dpos eps s) (shifted c)
    (dmean_push F) (dmean_clear F) (dmean_push F) (dmean_clear F) ops ops' (dmean_init F (Fin f)) (dmean_init F (Fin f)))
    as [M M']; [intros s s' a a' [H|[H _]] Ha; apply dm_push_sh; assumption
               |intros s s' [H|[H _]]; apply dm_clear_sh; exact H|exact HO|apply dm_init_sh, Df|].
  destruct (run_first (dv_sh eps c) (fun s s' => dv_sh eps c s s' /\ dpos eps (dv_super _ s)) (shifted c)
    (dvar_push F) (dvar_clear F) (dvar_push F) (dvar_clear F) ops ops' (dvar_init F (Fin f) (Fin g)) (dvar_init F (Fin f) (Fin g)))
    as [V V']; [intros s s' a a' [H|[H _]] Ha; apply dv_push_sh; assumption
               |intros s s' [H|[H _]]; apply dv_clear_sh; exact H|exact HO|apply dv_init_sh, Df|].
  destruct (run_first (ds_sh eps c) (fun s s' => ds_sh eps c s s' /\ dpos eps (dv_super _ (ds_super _ s))) (shifted c)
    (dskew_push F) (dskew_clear F) (dskew_push F) (dskew_clear F) ops ops'
    (dskew_init F (Fin f) (Fin g) (Fin h)) (dskew_init F (Fin f) (Fin g) (Fin h)))
    as [K K']; [intros s s' a a' [H|[H _]] Ha; apply ds_push_sh; assumption
               |intros s s' [H|[H _]]; apply ds_clear_sh; exact H|exact HO|apply ds_init_sh, Df|].
  destruct (run_first (dk_sh eps c) (fun s s' => dk_sh eps c s s' /\ dpos eps (dv_super _ (ds_super _ (dk_super _ s)))) (shifted c)
    (dkurt_push F) (dkurt_clear F) (dkurt_push F) (dkurt_clear F) ops ops'
    (dkurt_init F (Fin f) (Fin g) (Fin h) (Fin i)) (dkurt_init F (Fin f) (Fin g) (Fin h) (Fin i)))
    as [Q Q']; [intros s s' a a' [H|[H _]] Ha; apply dk_push_sh; assumption
               |intros s s' [H|[H _]]; apply dk_clear_sh; exact H|exact HO|apply dk_init_sh, Df|].
  split.
  { intros Hn; split; [|split; [|split]].
    - exact (dm_mean_sh eps c _ _ (proj1 (M' Hn)) (proj2 (M' Hn))).
    - exact (dm_mean_sh eps c _ _ (proj1 (proj1 (V' Hn))) (proj2 (V' Hn))).
    - exact (dm_mean_sh eps c _ _ (proj1 (proj1 (proj1 (K' Hn)))) (proj2 (K' Hn))).
    - exact (dm_mean_sh eps c _ _ (proj1 (proj1 (proj1 (proj1 (Q' Hn))))) (proj2 (Q' Hn))). }
  assert (V0 := match V with or_introl H => H | or_intror H => proj1 H end).
  assert (K0 := match K with or_introl H => H | or_intror H => proj1 H end).
  assert (Q0 := match Q with or_introl H => H | or_intror H => proj1 H end).
  split; [exact (dv_stats _ _ _ _ V0)|].
  split; [exact (dv_stats _ _ _ _ (proj1 K0))|].
  split; [exact (ds_stats _ _ _ _ K0)|].
  split; [exact (dv_stats _ _ _ _ (proj1 (proj1 Q0)))|].
  split; [exact (ds_stats _ _ _ _ (proj1 Q0))|exact (dk_stats _ _ _ _ Q0)].
Qed.

(** @ex C83_decay_ex: factor 1/2; the mean of 3, 6 is 5, and 1 less when 1 is
    subtracted from both. *)
Lemma c83_decay_ex :
  let F := exact 1 in
  let mean o := dmean_mean F (run (dmean_push F) (dmean_clear F) (dmean_init F (Fin (/ 2))) o) in
  let ops := [Push (Fin 3); Push (Fin 6)] in
  0 < / 2 <= 1 /\ since_clear ops <> [] /\ mean ops = Fin 5 /\
  mean (map (op_map (plus_c (-1))) ops) = Fin 4.
Proof.
  split; [lra|]. split; [discriminate|].
  unfold dmean_mean; split; cbn; rewrite Rlt_bool_true by lra; cbn; rewrite Req_bool_false by lra; f_equal; field.
Qed.

(** @prop C83_psquare: exact arithmetic: adding a constant to every value pushed
    to the P-square estimator adds it to every estimate, for ratios in [0, 1),
    in all three phases (one value, fewer values than markers, markers full);
    reads outside the markers correspond too. *)
Lemma c83_psquare : forall (eps c : R) (qs : list R) (ops : list (op xreal)) (i : nat),
  Forall (fun q => 0 <= q < 1) qs ->
  let F := exact eps in
  let q := map Fin qs in
  let final o := run (psq_push F q) (psq_clear F q) (psq_init F q) o in
  psq_size F (final ops) <> 0%N ->
  match psq_get F q (final ops) i, psq_get F q (final (map (op_map (plus_c c)) ops)) i with
  | Some x, Some y => shifted c x y
  | None, None => True
  | _, _ => False
  end.
Proof.
  intros eps c qs ops i Hq F q final Hs.
  pose proof (run_rel (fun s s' => psq_sh eps c q s s' /\ (ps_count F s < szmod)%N) (shifted c)
    (psq_push F q) (psq_clear F q) (psq_push F q) (psq_clear F q) ops (map (op_map (plus_c c)) ops)) as H.
  destruct (H) with (s := psq_init F q) (s' := psq_init F q) as [H1 H2].
  - intros s s' a a' [Hr _] Ha; split; [apply psq_push_sh; assumption|].
    unfold psq_push; destruct (_ <=? _)%N; [destruct (psq_cell _ _ _ _)|]; cbn [ps_count]; apply sz_lt.
  - intros s s' _; split; [apply psq_init_sh|reflexivity].
  - apply ops_plus.
  - split; [apply psq_init_sh|reflexivity].
  - apply (psq_get_sh eps c q) with (s := final ops) (s' := final (map (op_map (plus_c c)) ops)); try assumption.
    unfold q; clear -Hq; induction Hq as [|a l Ha _ IH]; constructor; [exists a; auto|exact IH].
Qed.

(** @ex C83_psquare_ex: the median of 5, 1, 2, read before the markers are
    full. *)
Lemma c83_psquare_ex :
  let F := exact 1 in
  let q := map Fin [/ 2] in
  let final o := run (psq_push F q) (psq_clear F q) (psq_init F q) o in
  Forall (fun q => 0 <= q < 1) [/ 2] /\
  psq_size F (final [Push (Fin 5); Push (Fin 1); Push (Fin 2)]) <> 0%N /\
  psq_get F q (final [Push (Fin 5); Push (Fin 1); Push (Fin 2)]) 0 = Some (Fin 1) /\
  psq_get F q (final (map (op_map (plus_c 7)) [Push (Fin 5); Push (Fin 1); Push (Fin 2)])) 0 = Some (Fin (1 + 7)).
Proof.
  split; [repeat constructor; lra|]. split; [discriminate|].
  split; cbn; change (Pos.to_nat 1) with 1%nat; change (Pos.to_nat 2) with 2%nat; cbn;
    repeat (first [rewrite Rlt_bool_true by lra|rewrite Rlt_bool_false by lra]; cbn); reflexivity.
Qed.
