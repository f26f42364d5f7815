(** * Claim C95: infinities and NaN in the data show in the results, binary64 *)

From Coq Require Import Reals ZArith NArith List Bool.
From Coq Require Import Floats.SpecFloat.
From Verif Require Import Arith History SpecStats SpecNonFinite Cumulative Window Decay Interim Impulse
  ImpulseRuns Binary64.
Import ListNotations.
(* @end-header *)
From Coq Require Import Lia Lra.
From Verif Require Import HistoryLemmas Buffer CumulativeProofs WindowProofs SpecBlocks BlockLemmas InterimStats
  DecayProofs NaNProofs NonFiniteProofs ClaimsAccuracyInterim ClaimsHigherInterim.

(** The push after an infinity or NaN. *)
Lemma settle {S A} (push : S -> A -> S) clear init (Bad Worse : S -> Prop) (P : A -> Prop) :
  (forall s v, P v -> Bad (push s v)) -> (forall s a, Bad s -> Bad (push s a)) ->
  (forall s a, Bad s -> Worse (push s a)) ->
  forall ops, Exists P (removelast (since_clear ops)) -> Worse (run push clear init ops).
Proof.
  intros H1 H2 H3 ops. destruct ops as [|o ops] using rev_ind; [intros H; inversion H|]. clear IHops.
  rewrite run_app. destruct o as [a|]; cbn [run fold_left step].
  - rewrite since_clear_snoc_push, removelast_last. intros H. apply H3.
    apply (sticky_ex0 push clear init Bad P); assumption.
  - rewrite since_clear_snoc_clear. intros H. inversion H.
Qed.

Lemma cv_bad_run ops : Exists bad (since_clear ops) ->
  cv_bad (run (cvar_push b64num) (cvar_clear b64num) (cvar_init b64num) ops).
Proof. apply (sticky_ex0 _ _ _ cv_bad bad); [intros; apply cvar_push_bad; assumption|apply cvar_push_bad_stays]. Qed.
Lemma cs_bad_run ops : Exists bad (since_clear ops) ->
  cs_bad (run (cskew_push b64num) (cskew_clear b64num) (cskew_init b64num) ops).
Proof. apply (sticky_ex0 _ _ _ cs_bad bad); intros; [apply cvar_push_bad; assumption|apply cvar_push_bad_stays; assumption]. Qed.
Lemma ck_bad_run ops : Exists bad (since_clear ops) ->
  ck_bad (run (ckurt_push b64num) (ckurt_clear b64num) (ckurt_init b64num) ops).
Proof. apply (sticky_ex0 _ _ _ ck_bad bad); intros; [apply ckurt_push_bad; assumption|apply ckurt_push_bad_stays; assumption]. Qed.

(** ** C95 *)

(** @prop C95_cumulative: if any value since the last clear is an infinity or NaN, then
    mean() and unbiased_mean() of the cumulative moment filters are not finite,
    variance() and unbiased_variance() are NaN, kurtosis() is NaN and so is
    unbiased_kurtosis() from the fourth value on; whatever was pushed before and
    after. *)
Lemma c95_cumulative : forall ops : list (op b64), Exists nonfinite (since_clear ops) ->
  let m := run (cmean_push b64num) (cmean_clear b64num) (cmean_init b64num) ops in
  let v := run (cvar_push b64num) (cvar_clear b64num) (cvar_init b64num) ops in
  let s := run (cskew_push b64num) (cskew_clear b64num) (cskew_init b64num) ops in
  let k := run (ckurt_push b64num) (ckurt_clear b64num) (ckurt_init b64num) ops in
  (nonfinite (cmean_mean b64num m) /\ nonfinite (cvar_mean b64num v) /\
   nonfinite (cskew_mean b64num s) /\ nonfinite (ckurt_mean b64num k)) /\
  nonfinite (cmean_unbiased_mean b64num m) /\
  (cvar_variance b64num v = S754_nan /\ cvar_unbiased_variance b64num v = S754_nan) /\
  (cskew_variance b64num s = S754_nan /\ ckurt_variance b64num k = S754_nan) /\
  ckurt_kurtosis b64num k = S754_nan /\
  ((4 <= ckurt_size b64num k)%N -> ckurt_unbiased_kurtosis b64num k = S754_nan).
Proof.
  intros ops H m v s k.
  assert (Hm : bad (cm_mean _ m)).
  { refine (sticky_ex0 _ _ _ (fun s => bad (cm_mean _ s)) bad _ _ ops H);
      intros; [apply cmean_push_bad|apply cmean_push_bad_stays]; assumption. }
  pose proof (cv_bad_run ops H) as Hv. pose proof (cs_bad_run ops H) as Hs. pose proof (ck_bad_run ops H) as Hk.
  fold v in Hv. fold s in Hs. fold k in Hk.
  split; [split; [exact Hm|]; split; [apply Hv|]; split; [apply Hs|apply Hk]|].
  split; [apply bad_div_l, bad_mul_l, Hm|].
  split.
  { split; [apply cvar_bad_variance; exact Hv|]. destruct Hv as [_ E]. unfold cvar_unbiased_variance. rewrite E. apply div_nan_l. }
  split; [split; [apply cvar_bad_variance; exact Hs|apply cvar_bad_variance; apply Hk]|].
  split; [apply ckurt_nan; exact Hk|]. intros L. apply ckurt_unbiased_nan; assumption.
Qed.

(** @ex C95_cumulative_ex: an infinity, then ordinary values: from the second push on
    mean() is NaN. *)
Lemma c95_cumulative_ex :
  let ops := [Push (b64_of_Z 3); Push (S754_infinity false); Push (b64_of_Z 1); Push (b64_of_Z 2)] in
  Exists nonfinite (since_clear ops) /\
  (4 <= ckurt_size b64num (run (ckurt_push b64num) (ckurt_clear b64num) (ckurt_init b64num) ops))%N.
Proof. split; [right; left; right; eexists; reflexivity|vm_compute; discriminate]. Qed.

(** @prop C95_mean_settles: one more push turns an infinite mean() into NaN: if a value
    other than the newest is an infinity or NaN, mean() is NaN, even where the
    true mean is an infinity. *)
Lemma c95_mean_settles : forall ops : list (op b64), Exists nonfinite (removelast (since_clear ops)) ->
  cmean_mean b64num (run (cmean_push b64num) (cmean_clear b64num) (cmean_init b64num) ops) = S754_nan.
Proof.
  intros ops. refine (settle _ _ _ (fun s => bad (cm_mean _ s)) (fun s => cm_mean _ s = nan64) bad _ _ _ ops); intros.
  - apply cmean_push_bad; assumption.
  - apply cmean_push_bad_stays; assumption.
  - apply cmean_push_again; assumption.
Qed.

(** @ex C95_mean_settles_ex: infinity, 1: mean() is infinite after the first push and NaN
    after the second. *)
Lemma c95_mean_settles_ex :
  let ops := [Push (S754_infinity false); Push (b64_of_Z 1)] in
  Exists nonfinite (removelast (since_clear ops)) /\
  cmean_mean b64num (run (cmean_push b64num) (cmean_clear b64num) (cmean_init b64num) [Push (S754_infinity false)]) = S754_infinity false.
Proof. split; [left; right; eexists; reflexivity|vm_compute; reflexivity]. Qed.

(** @prop C95_skewness_partial: skewness() is NaN, and so is unbiased_skewness() from the
    second value on, if an infinity or NaN is among the values since the last
    clear, except that nothing is claimed when the only such value is a minus
    infinity pushed last. *)
Lemma c95_skewness : forall ops : list (op b64),
  let l := since_clear ops in
  Exists nonfinite (removelast l) \/ last l (b64_of_Z 0) = S754_infinity false \/ last l (b64_of_Z 0) = S754_nan ->
  let s := run (cskew_push b64num) (cskew_clear b64num) (cskew_init b64num) ops in
  cskew_skewness b64num s = S754_nan /\
  ((2 <= cskew_size b64num s)%N -> cskew_unbiased_skewness b64num s = S754_nan).
Proof.
  intros ops l H s.
  assert (N : cs_nan s).
  { destruct H as [H|H].
    - revert H. apply (settle _ _ _ cs_bad cs_nan bad); intros.
      + apply cvar_push_bad; assumption.
      + apply cvar_push_bad_stays; assumption.
      + split; [apply cvar_push_bad_stays; assumption|]. left. apply cskew_sum_again. assumption.
    - subst s l. destruct ops as [|o ops] using rev_ind; [destruct H; discriminate|]. clear IHops.
      rewrite run_app. destruct o as [a|]; cbn [run fold_left step].
      + rewrite since_clear_snoc_push, last_last in H.
        assert (I : isinf false a) by (destruct H as [->| ->]; [right|left]; reflexivity).
        split; [apply cvar_push_bad; apply (isinf_bad false); exact I|]. apply cskew_sum_inf. exact I.
      + rewrite since_clear_snoc_clear in H. destruct H; discriminate. }
  split; [apply cskew_nan; exact N|]. intros L. unfold cskew_unbiased_skewness. rewrite (cskew_nan s N).
  replace (N.ltb (cskew_size _ s) 2) with false by (symmetry; apply N.ltb_ge; exact L).
  destruct N as [_ N]. rewrite ii_not_lt_eps by exact N. nans. reflexivity.
Qed.

(** @ex C95_skewness_partial_ex: a plus infinity pushed last; a minus infinity in between. *)
Lemma c95_skewness_ex :
  last (since_clear [Push (b64_of_Z 0); Push (b64_of_Z 1); Push (S754_infinity false)]) (b64_of_Z 0) = S754_infinity false /\
  Exists nonfinite (removelast (since_clear [Push (b64_of_Z 0); Push (S754_infinity true); Push (b64_of_Z 1)])).
Proof. split; [reflexivity|]. right. left. right. eexists. reflexivity. Qed.

(** @prop C95_skewness_refuted: skewness() does not show a minus infinity just pushed: it is
    0 for the values 0, 1 and minus infinity. *)
Lemma c95_skewness_refuted : exists ops : list (op b64),
  Exists nonfinite (since_clear ops) /\
  cskew_skewness b64num (run (cskew_push b64num) (cskew_clear b64num) (cskew_init b64num) ops) = b64_of_Z 0.
Proof.
  exists [Push (b64_of_Z 0); Push (b64_of_Z 1); Push (S754_infinity true)].
  split; [right; right; left; right; eexists; reflexivity|]. vm_compute. reflexivity.
Qed.

(** @prop C95_pairs: if a component of any pair since the last clear is an infinity or NaN,
    then for fewer than 2^64 pairs the covariance is not finite, the correlation
    coefficient is NaN and the regression line is not finite anywhere; the slope
    is NaN if the first component is concerned. *)
Lemma c95_pairs : forall ops : list (op (b64 * b64)),
  let l := since_clear ops in
  Exists (fun p => nonfinite (fst p) \/ nonfinite (snd p)) l ->
  let c := run (ccov_push b64num) (ccov_clear b64num) (ccov_init b64num) ops in
  let r := run (ccorr_push b64num) (ccorr_clear b64num) (ccorr_init b64num) ops in
  let g := run (creg_push b64num) (creg_clear b64num) (creg_init b64num) ops in
  ((0 < ccov_size b64num c)%N -> nonfinite (ccov_variance b64num c)) /\
  ((2 <= ccov_size b64num c)%N -> nonfinite (ccov_unbiased_variance b64num c)) /\
  ccorr_value b64num r = S754_nan /\
  (forall x, nonfinite (creg_at b64num g x)) /\
  (Exists (fun p => nonfinite (fst p)) l -> creg_slope b64num g = S754_nan).
Proof.
  intros ops l H c r g.
  assert (Hc : cc_bad c).
  { refine (sticky_ex0 _ _ _ cc_bad bad2 _ _ ops H); intros; [apply ccov_push_bad|apply ccov_push_bad_stays]; assumption. }
  assert (SP : Exists (fun p => nonfinite (fst p)) l \/ Exists (fun p => nonfinite (snd p)) l) by (apply Exists_or_inv; exact H).
  assert (Rx : Exists (fun p => nonfinite (fst p)) l -> cv_bad (cr_x _ r)).
  { apply (sticky_ex0 _ _ _ (fun s => cv_bad (cr_x _ s)) (fun p => nonfinite (fst p)));
      intros; [apply cvar_push_bad|apply cvar_push_bad_stays]; assumption. }
  assert (Ry : Exists (fun p => nonfinite (snd p)) l -> cv_bad (cr_y _ r)).
  { apply (sticky_ex0 _ _ _ (fun s => cv_bad (cr_y _ s)) (fun p => nonfinite (snd p)));
      intros; [apply cvar_push_bad|apply cvar_push_bad_stays]; assumption. }
  assert (Gx : Exists (fun p => nonfinite (fst p)) l -> cv_bad (cg_x _ g)).
  { apply (sticky_ex0 _ _ _ (fun s => cv_bad (cg_x _ s)) (fun p => nonfinite (fst p)));
      intros; [apply cvar_push_bad|apply cvar_push_bad_stays]; assumption. }
  assert (Gy : Exists (fun p => nonfinite (snd p)) l -> cv_bad (cg_y _ g)).
  { apply (sticky_ex0 _ _ _ (fun s => cv_bad (cg_y _ s)) (fun p => nonfinite (snd p)));
      intros; [apply cvar_push_bad|apply cvar_push_bad_stays]; assumption. }
  split.
  { intros L. unfold ccov_variance. replace (N.ltb 0 (ccov_size _ c)) with true by (symmetry; apply N.ltb_lt; exact L).
    apply bad_div_l. exact Hc. }
  split.
  { intros L. unfold ccov_unbiased_variance. replace (N.ltb 1 (ccov_size _ c)) with true by (symmetry; apply N.ltb_lt; lia).
    apply bad_div_l. exact Hc. }
  split; [apply ccorr_bad_value; destruct SP; auto|].
  split; [intros x; apply creg_bad_at; destruct SP; auto|].
  intros HX. unfold creg_slope. rewrite (cvar_bad_variance _ (Gx HX)), eq_nan. nans. reflexivity.
Qed.

(** @ex C95_pairs_ex: an infinite y among three pairs. *)
Lemma c95_pairs_ex :
  let ops := [Push (b64_of_Z 1, b64_of_Z 2); Push (b64_of_Z 2, S754_infinity false); Push (b64_of_Z 3, b64_of_Z 1)] in
  Exists (fun p => nonfinite (fst p) \/ nonfinite (snd p)) (since_clear ops) /\
  (2 <= ccov_size b64num (run (ccov_push b64num) (ccov_clear b64num) (ccov_init b64num) ops))%N.
Proof. split; [right; left; right; right; eexists; reflexivity|vm_compute; discriminate]. Qed.

(** @prop C95_trend: the trend value is not finite if any value since the last clear is an
    infinity or NaN. *)
Lemma c95_trend : forall ops : list (op b64), Exists nonfinite (since_clear ops) ->
  nonfinite (ctrend_value b64num (run (ctrend_push b64num) (ctrend_clear b64num) (ctrend_init b64num) ops)).
Proof.
  intros ops H. apply bad_add_l.
  refine (sticky_ex0 _ _ _ (fun s => bad (cm_mean _ (ct_center _ s))) bad _ _ ops H);
    intros; [apply cmean_push_bad|apply cmean_push_bad_stays]; assumption.
Qed.

(** @ex C95_trend_ex: 1, infinity, 2. *)
Lemma c95_trend_ex : Exists nonfinite (since_clear [Push (b64_of_Z 1); Push (S754_infinity true); Push (b64_of_Z 2)]).
Proof. right; left; right; eexists; reflexivity. Qed.

(** @prop C95_window: for every capacity: mean() of the window filters is not finite if any
    value since the last clear is an infinity or NaN, even one that has left the
    window; likewise the window covariance, and the window regression line
    anywhere. *)
Lemma c95_window : forall (W : nat) (ops : list (op b64)) (pairs : list (op (b64 * b64))), (0 < W)%nat ->
  let l := since_clear ops in
  let p := since_clear pairs in
  let c := run (wcov_push b64num W) (wcov_clear b64num) (wcov_init b64num) pairs in
  let g := run (wreg_push b64num W) (wreg_clear b64num) (wreg_init b64num) pairs in
  (Exists nonfinite l ->
   nonfinite (wmean_mean b64num (run (wmean_push b64num W) (wmean_clear b64num) (wmean_init b64num) ops)) /\
   nonfinite (wvar_mean b64num (run (wvar_push b64num W) (wvar_clear b64num) (wvar_init b64num) ops))) /\
  (Exists (fun q => nonfinite (fst q) \/ nonfinite (snd q)) p ->
   nonfinite (wcov_variance b64num c) /\
   ((2 <= wcov_size b64num c)%N -> nonfinite (wcov_unbiased_variance b64num c)) /\
   (forall x, nonfinite (wreg_at b64num g x))).
Proof.
  intros W ops pairs HW l p c g. split.
  { intros H. split.
    - refine (sticky_ex0 _ _ _ (fun s => bad (wm_mean _ s)) bad _ _ ops H);
        intros; [apply wmean_push_bad|apply wmean_push_bad_stays]; assumption.
    - refine (sticky_ex0 _ _ _ (fun s => bad (wm_mean _ (wv_super _ s))) bad _ _ ops H);
        intros; [apply wvar_push_bad|apply wvar_push_bad_stays]; assumption. }
  intros H. apply Exists_or_inv in H.
  assert (G : bad (wcov_variance b64num c) /\ ((2 <= wcov_size b64num c)%N -> bad (wcov_unbiased_variance b64num c))).
  { destruct H as [H|H].
    - apply (wcov_bad_variance W HW (fun x _ => bad x)).
      refine (sticky_ex0 _ _ _ (wc_bad (fun x _ => bad x)) (fun q => bad (fst q)) _ _ pairs H);
        intros; [apply wcov_push_bad_x|apply wcov_push_stays_x]; assumption.
    - apply (wcov_bad_variance W HW (fun _ y => bad y)).
      refine (sticky_ex0 _ _ _ (wc_bad (fun _ y => bad y)) (fun q => bad (snd q)) _ _ pairs H);
        intros; [apply wcov_push_bad_y|apply wcov_push_stays_y]; assumption. }
  split; [apply G|]. split; [apply G|]. intros x. unfold wreg_at. destruct H as [H|H].
  - assert (B : bad (wm_mean _ (wv_super _ (wr_x _ g)))).
    { refine (sticky_ex0 _ _ _ (fun s => bad (wm_mean _ (wv_super _ (wr_x _ s)))) (fun q => bad (fst q)) _ _ pairs H);
        intros; [apply wvar_push_bad|apply wvar_push_bad_stays]; assumption. }
    apply bad_sub_r, bad_mul_r, bad_sub_l. exact B.
  - assert (B : wc_bad (fun _ y => bad y) (wr_cov _ g)).
    { refine (sticky_ex0 _ _ _ (fun s => wc_bad (fun _ y => bad y) (wr_cov _ s)) (fun q => bad (snd q)) _ _ pairs H);
        intros; [apply wcov_push_bad_y|apply wcov_push_stays_y]; assumption. }
    apply bad_sub_l, bad_div_l. apply B.
Qed.

(** @ex C95_window_ex: capacity 2; the infinity has left the window. *)
Lemma c95_window_ex :
  let ops := [Push (S754_infinity false); Push (b64_of_Z 1); Push (b64_of_Z 2)] in
  let pairs := [Push (b64_of_Z 1, S754_infinity false); Push (b64_of_Z 1, b64_of_Z 2); Push (b64_of_Z 3, b64_of_Z 2)] in
  (0 < 2)%nat /\ Exists nonfinite (since_clear ops) /\
  Exists (fun q => nonfinite (fst q) \/ nonfinite (snd q)) (since_clear pairs) /\
  wc_window b64num (run (wcov_push b64num 2) (wcov_clear b64num) (wcov_init b64num) pairs) =
  [(b64_of_Z 1, b64_of_Z 2); (b64_of_Z 3, b64_of_Z 2)].
Proof.
  split; [lia|]. split; [left; right; eexists; reflexivity|].
  split; [left; right; right; eexists; reflexivity|reflexivity].
Qed.

(** @prop C95_window_slope_refuted: the slope of the window regression does not show it: it
    is 0 for the pairs (infinity, 1), (1, 2) and (3, 2). *)
Lemma c95_window_slope : exists (W : nat) (ops : list (op (b64 * b64))), (0 < W)%nat /\
  Exists (fun q => nonfinite (fst q) \/ nonfinite (snd q)) (since_clear ops) /\
  wreg_slope b64num (run (wreg_push b64num W) (wreg_clear b64num) (wreg_init b64num) ops) = b64_of_Z 0.
Proof.
  exists 2%nat, [Push (S754_infinity false, b64_of_Z 1); Push (b64_of_Z 1, b64_of_Z 2); Push (b64_of_Z 3, b64_of_Z 2)].
  split; [lia|]. split; [left; left; right; eexists; reflexivity|]. vm_compute. reflexivity.
Qed.

(** @prop C95_decay: for all factors accepted by the constructors: if any value since the
    last clear is an infinity or NaN, mean() of each decay filter is not finite and
    variance() is NaN. *)
Lemma c95_decay : forall (fm fv fs fk : b64) (ops : list (op b64)),
  b64_finite fm -> factor_ok b64num fm = true -> b64_finite fv -> factor_ok b64num fv = true ->
  Exists nonfinite (since_clear ops) ->
  let m := run (dmean_push b64num) (dmean_clear b64num) (dmean_init b64num fm) ops in
  let v := run (dvar_push b64num) (dvar_clear b64num) (dvar_init b64num fm fv) ops in
  let s := run (dskew_push b64num) (dskew_clear b64num) (dskew_init b64num fm fv fs) ops in
  let k := run (dkurt_push b64num) (dkurt_clear b64num) (dkurt_init b64num fm fv fs fk) ops in
  (nonfinite (dmean_mean b64num m) /\ nonfinite (dvar_mean b64num v) /\
   nonfinite (dskew_mean b64num s) /\ nonfinite (dkurt_mean b64num k)) /\
  dvar_variance b64num v = S754_nan /\ dskew_variance b64num s = S754_nan /\ dkurt_variance b64num k = S754_nan.
Proof.
  intros fm fv fs fk ops F1 F2 F3 F4 H m v s k.
  assert (I0 : dv_inv (dvar_init b64num fm fv)).
  { split; [split; [apply factor_okf; assumption|apply okn_0]|].
    split; [apply factor_okf; assumption|apply okn_0]. }
  assert (Bm : dm_bad' m).
  { refine (sticky_ex _ _ _ dm_inv dm_bad' bad (proj1 I0) _ _ _ _ ops H);
      intros; [apply dm_inv_push|apply dm_inv_clear|apply dm_push_bad|apply dm_push_bad_stays]; assumption. }
  assert (Bv : dv_bad' v).
  { refine (sticky_ex _ _ _ dv_inv dv_bad' bad I0 _ _ _ _ ops H);
      intros; [apply dv_inv_push|apply dv_inv_clear|apply dv_push_bad|apply dv_push_bad_stays]; assumption. }
  assert (Bs : dv_bad' (ds_super _ s)).
  { refine (sticky_ex _ _ (dskew_init b64num fm fv fs) (fun s => dv_inv (ds_super _ s)) (fun s => dv_bad' (ds_super _ s)) bad I0 _ _ _ _ ops H);
      intros; [apply dv_inv_push|apply dv_inv_clear|apply dv_push_bad|apply dv_push_bad_stays]; assumption. }
  assert (Bk : dv_bad' (ds_super _ (dk_super _ k))).
  { refine (sticky_ex _ _ (dkurt_init b64num fm fv fs fk) (fun s => dv_inv (ds_super _ (dk_super _ s)))
      (fun s => dv_bad' (ds_super _ (dk_super _ s))) bad I0 _ _ _ _ ops H);
      intros; [apply dv_inv_push|apply dv_inv_clear|apply dv_push_bad|apply dv_push_bad_stays]; assumption. }
  split.
  - split; [apply dm_bad_mean'; exact Bm|]. split; [apply dm_bad_mean', Bv|]. split; [apply dm_bad_mean', Bs|apply dm_bad_mean', Bk].
  - split; [apply dv_bad_variance'; exact Bv|]. split; [apply dv_bad_variance'; exact Bs|apply dv_bad_variance'; exact Bk].
Qed.

(** @ex C95_decay_ex: the factors 1/4 and 1. *)
Lemma c95_decay_ex :
  let f := S754_finite false 4503599627370496 (-54) in
  b64_finite f /\ factor_ok b64num f = true /\
  b64_finite (b64_of_Z 1) /\ factor_ok b64num (b64_of_Z 1) = true /\
  Exists nonfinite (since_clear [Push (b64_of_Z 3); Push (S754_infinity true); Push (b64_of_Z 1)]).
Proof. repeat split. right. left. right. eexists. reflexivity. Qed.

(** @prop C95_decay_hidden: skewness() and kurtosis() of the decay filters hide it: they are
    exactly 0 whenever an infinity or NaN was pushed since the last clear. *)
Lemma c95_decay_hidden : forall (fm fv fs fk : b64) (ops : list (op b64)),
  b64_finite fm -> factor_ok b64num fm = true -> b64_finite fv -> factor_ok b64num fv = true ->
  Exists nonfinite (since_clear ops) ->
  let s := run (dskew_push b64num) (dskew_clear b64num) (dskew_init b64num fm fv fs) ops in
  let k := run (dkurt_push b64num) (dkurt_clear b64num) (dkurt_init b64num fm fv fs fk) ops in
  dskew_skewness b64num s = b64_of_Z 0 /\ dkurt_skewness b64num k = b64_of_Z 0 /\ dkurt_kurtosis b64num k = b64_of_Z 0.
Proof.
  intros fm fv fs fk ops F1 F2 F3 F4 H s k.
  destruct (c95_decay fm fv fs fk ops F1 F2 F3 F4 H) as (_ & _ & E1 & E2).
  split; [apply dskew_hides; exact E1|]. split; [apply dskew_hides; exact E2|apply dkurt_hides; exact E2].
Qed.

(** @ex C95_decay_hidden_ex: the same factors and values. *)
Lemma c95_decay_hidden_ex :
  let f := S754_finite false 4503599627370496 (-54) in
  b64_finite f /\ factor_ok b64num f = true /\
  b64_finite (b64_of_Z 1) /\ factor_ok b64num (b64_of_Z 1) = true /\
  Exists nonfinite (since_clear [Push (b64_of_Z 3); Push (S754_infinity true); Push (b64_of_Z 1)]).
Proof. exact c95_decay_ex. Qed.

(** @prop C95_interim: interim mean() with window W is not finite while an infinity or NaN
    is among the last W+1 values since the last clear; variance() and kurtosis(),
    which disregard the newest value of a block, and the covariance likewise while
    it is among the last W+1 without the newest. *)
Lemma c95_interim : forall (W : nat) (ops : list (op b64)) (pairs : list (op (b64 * b64))),
  (0 < W)%nat -> (2 * N.of_nat W < szmod)%N ->
  let w := N.of_nat W in
  let l := lastn (W + 1) (since_clear ops) in
  let p := lastn (W + 1) (since_clear pairs) in
  (Exists nonfinite l ->
   nonfinite (imean_mean b64num w (run (imean_push b64num w) (imean_clear b64num) (imean_init b64num) ops))) /\
  (Exists nonfinite (removelast l) ->
   nonfinite (ivar_variance b64num w (run (ivar_push b64num w) (ivar_clear b64num) (ivar_init b64num) ops)) /\
   nonfinite (ikurt_kurtosis b64num w (run (ikurt_push b64num w) (ikurt_clear b64num) (ikurt_init b64num) ops))) /\
  (Exists (fun q => nonfinite (fst q) \/ nonfinite (snd q)) (removelast p) ->
   nonfinite (icov_variance b64num w (run (icov_push b64num w) (icov_clear b64num) (icov_init b64num) pairs))).
Proof.
  intros W ops pairs HW HS w l p.
  assert (HS1 : (N.of_nat W < szmod)%N) by lia.
  pose proof (cur_block_le W HW (since_clear ops)) as Lc. pose proof (prev_block_le W HW (since_clear ops)) as Lp.
  pose proof (cur_block_le W HW (since_clear pairs)) as Lc2. pose proof (prev_block_le W HW (since_clear pairs)) as Lp2.
  assert (Sc : (N.of_nat (length (cur_block W (since_clear ops))) < szmod)%N) by lia.
  assert (Sp : (N.of_nat (length (prev_block W (since_clear ops))) < szmod)%N) by lia.
  assert (Zp : Exists nonfinite (prev_block W (since_clear ops)) -> N.eqb (N.of_nat (length (prev_block W (since_clear ops)))) 0 = false).
  { intros H. destruct (prev_block W (since_clear ops)); [inversion H|reflexivity]. }
  assert (Zc : (2 <= length (cur_block W (since_clear ops)))%nat -> (2 <= N.of_nat (length (cur_block W (since_clear ops))))%N) by lia.
  split; [|split].
  - intros H. unfold w. rewrite imean_run_state by assumption. apply recent_ex in H; [|exact HW].
    apply duo_mean_bad. cbn [active passive].
    assert (G : forall c : list b64num, Exists bad c -> bad (cmean_mean _ (fold_left (cmean_push b64num) c (cmean_init b64num)))).
    { intros c. apply (fold_ex _ (fun s => bad (cm_mean _ s)) bad); intros; [apply cmean_push_bad|apply cmean_push_bad_stays]; assumption. }
    destruct H as [H|H]; [left|right; apply G; exact H]. split; [|apply G; exact H].
    unfold cmean_empty. rewrite cmean_csize by exact Sp. exact (Zp H).
  - intros H. apply older_ex in H; [|exact HW]. split.
    + unfold w. rewrite ivar_run_state by assumption. apply duo_variance_bad. cbn [active passive].
      assert (G : forall c : list b64num, Exists bad c -> bad (cvar_variance _ (fold_left (cvar_push b64num) c (cvar_init b64num)))).
      { intros c Hc. rewrite cvar_bad_variance; [apply bad_nan|]. revert Hc.
        apply (fold_ex _ cv_bad bad); intros; [apply cvar_push_bad|apply cvar_push_bad_stays]; assumption. }
      destruct H as [H|[H L]].
      * left. split; [|apply G; exact H]. unfold cvar_empty, cmean_empty. change (cmean_size b64num (cv_super b64num ?x)) with (cvar_size b64num x).
        rewrite cvar_csize by exact Sp. exact (Zp H).
      * right. split; [apply G; exact H|]. right. rewrite cvar_csize by exact Sc. exact (Zc L).
    + unfold w. rewrite ikurt_run_state by assumption. apply duo_stat_bad. cbn [active passive].
      assert (G : forall c : list b64num, Exists bad c -> bad (ckurt_kurtosis _ (fold_left (ckurt_push b64num) c (ckurt_init b64num)))).
      { intros c Hc. rewrite ckurt_nan; [apply bad_nan|]. revert Hc.
        apply (fold_ex _ ck_bad bad); intros; [apply ckurt_push_bad|apply ckurt_push_bad_stays]; assumption. }
      destruct H as [H|[H L]].
      * left. split; [|apply G; exact H]. match goal with |- ckurt_empty _ ?x = _ => change (N.eqb (ckurt_size b64num x) 0 = false) end.
        rewrite ckurt_csize by exact Sp. exact (Zp H).
      * right. split; [apply G; exact H|]. right. rewrite ckurt_csize by exact Sc. exact (Zc L).
  - intros H. apply older_ex in H; [|exact HW]. unfold w. rewrite icov_run_state by assumption. apply duo_variance_bad. cbn [active passive].
    assert (G : forall c : list (b64num * b64num), Exists bad2 c -> (N.of_nat (length c) < szmod)%N ->
      bad (ccov_variance _ (fold_left (ccov_push b64num) c (ccov_init b64num))) /\
      N.eqb (ccov_size _ (fold_left (ccov_push b64num) c (ccov_init b64num))) 0 = false).
    { intros c Hc Hl.
      assert (E : ccov_size _ (fold_left (ccov_push b64num) c (ccov_init b64num)) = N.of_nat (length c)) by (apply ccov_csize; exact Hl).
      assert (L : (0 < N.of_nat (length c))%N) by (destruct c; [inversion Hc|cbn [length]; lia]).
      unfold ccov_variance. rewrite E. split; [|apply N.eqb_neq; lia].
      replace (N.ltb 0 (N.of_nat (length c))) with true by (symmetry; apply N.ltb_lt; lia). apply bad_div_l.
      revert Hc. apply (fold_ex _ cc_bad bad2); intros; [apply ccov_push_bad|apply ccov_push_bad_stays]; assumption. }
    assert (Sc2 : (N.of_nat (length (cur_block W (since_clear pairs))) < szmod)%N) by lia.
    assert (Sp2 : (N.of_nat (length (prev_block W (since_clear pairs))) < szmod)%N) by lia.
    destruct H as [H|[H L]].
    * left. split; [apply (G _ H Sp2)|apply (G _ H Sp2)].
    * right. split; [apply (G _ H Sc2)|]. right. rewrite ccov_csize by exact Sc2.
      assert (Z : (2 <= N.of_nat (length (cur_block W (since_clear pairs))))%N) by lia. exact Z.
Qed.

(** @ex C95_interim_ex: window 2; an infinity followed by two values. *)
Lemma c95_interim_ex :
  let ops := [Push (b64_of_Z 5); Push (S754_infinity false); Push (b64_of_Z 1); Push (b64_of_Z 2)] in
  let pairs := [Push (b64_of_Z 5, b64_of_Z 1); Push (b64_of_Z 1, S754_infinity false); Push (b64_of_Z 1, b64_of_Z 2)] in
  (0 < 2)%nat /\ (2 * N.of_nat 2 < szmod)%N /\
  Exists nonfinite (removelast (lastn (2 + 1) (since_clear ops))) /\
  Exists (fun q => nonfinite (fst q) \/ nonfinite (snd q)) (removelast (lastn (2 + 1) (since_clear pairs))).
Proof.
  split; [lia|]. split; [reflexivity|]. split; [left; right; eexists; reflexivity|].
  right; left; right; right; eexists; reflexivity.
Qed.

(** @prop C95_impulse: value() of a finite impulse response filter with P coefficients is
    not finite while an infinity or NaN is among the last P values; that of a
    filter with feedback stays so until the next clear. *)
Lemma c95_impulse : forall (c b a : list b64) (scale : b64) (ops : list (op b64)),
  (c <> [] -> Exists nonfinite (lastn (length c) (since_clear ops)) -> nonfinite (fir_value b64num (fir_run b64num c ops))) /\
  (b <> [] -> a <> [] -> Exists nonfinite (since_clear ops) -> nonfinite (iir_value b64num (iir_run b64num b a scale ops))).
Proof. intros c b a scale ops. split; [exact (fir_bad c ops)|exact (iir_bad b a scale ops)]. Qed.

(** @ex C95_impulse_ex: two coefficients; y = x + y' / 2. *)
Lemma c95_impulse_ex :
  let c := [b64_of_Z 1; b64_of_Z 1] in
  let ops := [Push (b64_of_Z 2); Push (S754_infinity false); Push (b64_of_Z 1)] in
  c <> [] /\ Exists nonfinite (lastn (length c) (since_clear ops)) /\ Exists nonfinite (since_clear ops) /\
  iir_value b64num (iir_run b64num [b64_of_Z 2] [b64_of_Z (-1)] (b64_of_Z 2) [Push (b64_of_Z 2)]) = b64_of_Z 2.
Proof.
  split; [discriminate|]. split; [left; right; eexists; reflexivity|].
  split; [right; left; right; eexists; reflexivity|reflexivity].
Qed.

(** @prop C95_overflow_refuted: the converse fails: mean() of the finite values M, -M, 0 is
    NaN for M = 3 * 2^1022, whose double exceeds the largest number. (Below 2^1023
    it does not, C12_binary64.) *)
Lemma c95_overflow : exists M : b64, b64_finite M /\ b64_finite (SFopp M) /\
  cmean_mean b64num (run (cmean_push b64num) (cmean_clear b64num) (cmean_init b64num)
    [Push M; Push (SFopp M); Push (b64_of_Z 0)]) = S754_nan.
Proof.
  exists (S754_finite false (3 * 2 ^ 51) 971). split; [split; reflexivity|]. split; [split; reflexivity|]. vm_compute. reflexivity.
Qed.
