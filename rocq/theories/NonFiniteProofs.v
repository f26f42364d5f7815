(** * Propagation of infinities and NaN in binary64 *)

From Coq Require Import Reals ZArith NArith Bool List Arith Lia Lra.
From Coq Require Import Floats.SpecFloat.
From Flocq Require Import Core.
From Flocq Require Import IEEE754.BinarySingleNaN.
From Verif Require Import Arith History HistoryLemmas Buffer Cumulative CumulativeProofs
  Window WindowProofs Decay Interim SpecBlocks BlockLemmas InterimStats Impulse ImpulseRuns
  ImpulseProofs Binary64 Binary64Cumulative DecayProofs NaNProofs SpecNonFinite.
Import ListNotations.

Notation bad := (nonfinite : carrier b64num -> Prop).

Lemma bad_nan : bad nan64. Proof. left. reflexivity. Qed.
Lemma bad_inf s : bad (S754_infinity s). Proof. right. exists s. reflexivity. Qed.
#[export] Hint Resolve bad_nan bad_inf : nonfinite.

Ltac cases_bad := intros [->|[[] ->]].

(** ** Operations: an infinity or NaN is absorbed by every operation except as a divisor *)

Lemma bad_add_l (x y : b64num) : bad x -> bad (nadd x y).
Proof. cases_bad; destruct y as [[]|[]| |[]]; cbn; auto with nonfinite. Qed.
Lemma bad_add_r (x y : b64num) : bad y -> bad (nadd x y).
Proof. cases_bad; destruct x as [[]|[]| |[]]; cbn; auto with nonfinite. Qed.
Lemma bad_sub_l (x y : b64num) : bad x -> bad (nsub x y).
Proof. cases_bad; destruct y as [[]|[]| |[]]; cbn; auto with nonfinite. Qed.
Lemma bad_sub_r (x y : b64num) : bad y -> bad (nsub x y).
Proof. cases_bad; destruct x as [[]|[]| |[]]; cbn; auto with nonfinite. Qed.
Lemma bad_mul_l (x y : b64num) : bad x -> bad (nmul x y).
Proof. cases_bad; destruct y as [[]|[]| |[]]; cbn; auto with nonfinite. Qed.
Lemma bad_mul_r (x y : b64num) : bad y -> bad (nmul x y).
Proof. cases_bad; destruct x as [[]|[]| |[]]; cbn; auto with nonfinite. Qed.
Lemma bad_div_l (x y : b64num) : bad x -> bad (ndiv x y).
Proof. cases_bad; destruct y as [[]|[]| |[]]; cbn; auto with nonfinite. Qed.

(** ** Infinities of a known sign, up to NaN *)

Definition isinf (s : bool) (x : b64num) : Prop := x = nan64 \/ x = S754_infinity s.

Lemma bad_isinf x : bad x -> exists s, isinf s x.
Proof. intros [->|[s ->]]; [exists false; left|exists s; right]; reflexivity. Qed.
Lemma isinf_bad s x : isinf s x -> bad x.
Proof. intros [->| ->]; auto with nonfinite. Qed.

Lemma ii_sub s (x y : b64num) : isinf s x -> isinf s (nsub x y).
Proof. intros [->| ->]; destruct s, y as [[]|[]| |[]]; cbn; unfold isinf; auto. Qed.
Lemma ii_add_l s (x y : b64num) : isinf s x -> isinf s (nadd x y).
Proof. intros [->| ->]; destruct s, y as [[]|[]| |[]]; cbn; unfold isinf; auto. Qed.
Lemma ii_add_r s (x y : b64num) : isinf s y -> isinf s (nadd x y).
Proof. intros [->| ->]; destruct s, x as [[]|[]| |[]]; cbn; unfold isinf; auto. Qed.
Lemma ii_mul s t (x y : b64num) : isinf s x -> isinf t y -> isinf (xorb s t) (nmul x y).
Proof. intros [->| ->] [->| ->]; destruct s, t; cbn; unfold isinf; auto. Qed.

(** Not negative (NaN included). *)
Definition nneg (k : b64num) : Prop :=
  match k with S754_zero s | S754_infinity s | S754_finite s _ _ => s = false | S754_nan => True end.

Lemma nneg_count n : nneg (nofsz n).
Proof.
  change (nneg (SpecFloat.binary_normalize 53 1024 (Z.of_N n) 0 false)).
  destruct n as [|p]; [reflexivity|]. cbn [Z.of_N SpecFloat.binary_normalize]. unfold SpecFloat.binary_round.
  destruct (SpecFloat.shl_align _ _ _) as [m e]. unfold SpecFloat.binary_round_aux.
  destruct (SpecFloat.shr_fexp 53 1024 (Z.pos m) e loc_Exact) as [r e'].
  destruct (SpecFloat.shr_fexp 53 1024 _ e' loc_Exact) as [r2 e2].
  destruct (SpecFloat.shr_m r2); [reflexivity| |exact I].
  destruct (Z.leb _ _); reflexivity.
Qed.

Lemma nneg_pos (k : b64num) r : denotes k r -> (0 < r)%R -> nneg k.
Proof.
  intros [_ E] H. destruct k as [[]|[]| |[] m e]; try reflexivity; cbn in E; try lra.
  exfalso. unfold F2R in E. cbn [Fnum Fexp] in E. pose proof (bpow_gt_0 radix2 e).
  assert (IZR (Z.neg m) < 0)%R by (apply (IZR_lt _ 0); lia). nra.
Qed.

Lemma ii_mul_nneg_r s (x y : b64num) : isinf s x -> nneg y -> isinf s (nmul x y).
Proof. intros [->| ->]; destruct s, y as [[]|[]| |[]]; cbn; unfold isinf; intros; try discriminate; auto. Qed.
Lemma ii_mul_nneg_l s (x y : b64num) : isinf s y -> nneg x -> isinf s (nmul x y).
Proof. intros [->| ->]; destruct s, x as [[]|[]| |[]]; cbn; unfold isinf; intros; try discriminate; auto. Qed.
Lemma ii_div_nneg s (x y : b64num) : isinf s x -> nneg y -> isinf s (ndiv x y).
Proof. intros [->| ->]; destruct s, y as [[]|[]| |[]]; cbn; unfold isinf; intros; try discriminate; auto. Qed.

(** Infinities of the same sign cancel to NaN. *)
Lemma ii_sub_nan s (x y : b64num) : isinf s x -> isinf s y -> nsub x y = nan64.
Proof. intros [->| ->] [->| ->]; destruct s; reflexivity. Qed.
Lemma ii_not_lt_eps (x : b64num) : isinf false x -> nlt x neps = false.
Proof. intros [->| ->]; reflexivity. Qed.

(** Seen from an infinite or NaN input, the updated mean is at distance NaN. *)
Lemma target_nan (x m k : b64num) : bad x -> nneg k -> nsub x (nadd m (ndiv (nsub x m) k)) = nan64.
Proof.
  intros H K. destruct (bad_isinf x H) as [s Hs]. apply (ii_sub_nan s); [exact Hs|].
  apply ii_add_r, ii_div_nneg; [apply ii_sub; exact Hs|exact K].
Qed.

(** The second update of an infinite or NaN mean gives NaN. *)
Lemma again_nan (x m k : b64num) : bad m -> nneg k -> nadd m (ndiv (nsub x m) k) = nan64.
Proof.
  intros [->|[[] ->]]; destruct x as [[]|[]| |[]], k as [[]|[]| |[]]; cbn; intros K; try discriminate; reflexivity.
Qed.

Ltac bads := solve [ repeat first
  [ assumption | apply bad_nan | apply bad_inf | apply bad_div_l
  | (apply bad_add_l; bads) | (apply bad_add_r; bads)
  | (apply bad_sub_l; bads) | (apply bad_sub_r; bads)
  | (apply bad_mul_l; bads) | (apply bad_mul_r; bads) ] ].

(** ** Sticky states *)

Lemma sticky_ex {S A} (push : S -> A -> S) clear init (Inv Bad : S -> Prop) (P : A -> Prop) :
  Inv init -> (forall s a, Inv s -> Inv (push s a)) -> (forall s, Inv s -> Inv (clear s)) ->
  (forall s v, P v -> Inv s -> Bad (push s v)) -> (forall s a, Inv s -> Bad s -> Bad (push s a)) ->
  forall ops, Exists P (since_clear ops) -> Bad (run push clear init ops).
Proof.
  intros Hi Hp Hc Hv Hs ops H. apply Exists_exists in H. destruct H as (v & H & Pv).
  apply (sticky push clear init Inv Bad v); auto.
Qed.

Lemma sticky_ex0 {S A} (push : S -> A -> S) clear init (Bad : S -> Prop) (P : A -> Prop) :
  (forall s v, P v -> Bad (push s v)) -> (forall s a, Bad s -> Bad (push s a)) ->
  forall ops, Exists P (since_clear ops) -> Bad (run push clear init ops).
Proof. intros H1 H2. apply (sticky_ex push clear init (fun _ => True)); auto. Qed.

Lemma fold_ex {S A} (push : S -> A -> S) (Bad : S -> Prop) (P : A -> Prop) init :
  (forall s v, P v -> Bad (push s v)) -> (forall s a, Bad s -> Bad (push s a)) ->
  forall l, Exists P l -> Bad (fold_left push l init).
Proof.
  intros H1 H2 l H. apply Exists_exists in H. destruct H as (v & H & Pv).
  apply (fold_nan push Bad v); auto.
Qed.

(** ** Cumulative *)

Lemma cmean_push_bad (s : cmean b64num) x : bad x -> bad (cm_mean _ (cmean_push _ s x)).
Proof. intros H. cbn [cmean_push cm_mean]. bads. Qed.
Lemma cmean_push_bad_stays (s : cmean b64num) x : bad (cm_mean _ s) -> bad (cm_mean _ (cmean_push _ s x)).
Proof. intros H. cbn [cmean_push cm_mean]. bads. Qed.
Lemma cmean_push_again (s : cmean b64num) x : bad (cm_mean _ s) -> cm_mean _ (cmean_push _ s x) = nan64.
Proof. intros H. cbn [cmean_push cm_mean]. apply again_nan; [exact H|apply nneg_count]. Qed.

Definition cv_bad (s : cvar b64num) : Prop := bad (cm_mean _ (cv_super _ s)) /\ cv_sum _ s = nan64.

Lemma cvar_push_bad s x : bad x -> cv_bad (cvar_push _ s x).
Proof.
  intros H. split; [apply cmean_push_bad; exact H|]. unfold cvar_push, cmean_push, cmean_mean. cbn [cv_sum cm_mean].
  rewrite target_nan; [nans; reflexivity|exact H|apply nneg_count].
Qed.
Lemma cvar_push_bad_stays s x : cv_bad s -> cv_bad (cvar_push _ s x).
Proof.
  intros [H1 H2]. split; [apply cmean_push_bad_stays; exact H1|]. unfold cvar_push. cbn [cv_sum].
  rewrite H2. nans. reflexivity.
Qed.

Definition cs_bad (s : cskew b64num) : Prop := cv_bad (cs_super _ s).
Definition cs_nan (s : cskew b64num) : Prop := cv_bad (cs_super _ s) /\ isinf false (cs_sum _ s).

Lemma cskew_sum_inf (s : cskew b64num) x b : isinf b x -> isinf b (cs_sum _ (cskew_push _ s x)).
Proof.
  intros H. unfold cskew_push. cbn [cs_sum].
  set (d := nsub x (cvar_mean _ (cs_super _ s))).
  assert (D : isinf b d) by (apply ii_sub, H).
  set (k := nofsz _) at 1. assert (K : nneg k) by apply nneg_count.
  assert (Q : isinf b (ndiv d k)) by (apply ii_div_nneg; assumption).
  apply ii_add_r. replace b with (xorb false b) at 1 by (destruct b; reflexivity).
  apply ii_mul; [|exact Q]. apply ii_sub. apply ii_mul_nneg_r; [|apply nneg_count]. apply ii_mul_nneg_r; [|apply nneg_count].
  replace false with (xorb b b) by (destruct b; reflexivity). apply ii_mul; assumption.
Qed.
Lemma cskew_sum_again (s : cskew b64num) x : cv_bad (cs_super _ s) -> cs_sum _ (cskew_push _ s x) = nan64.
Proof. intros [H1 H2]. unfold cskew_push. cbn [cs_sum]. rewrite H2. nans. reflexivity. Qed.

Lemma cskew_nan s : cs_nan s -> cskew_skewness _ s = nan64.
Proof.
  intros [[_ H1] H2]. unfold cskew_skewness. rewrite ii_not_lt_eps by exact H2. rewrite H1. nans. reflexivity.
Qed.

Definition ck_bad (s : ckurt b64num) : Prop := cv_bad (cs_super _ (ck_super _ s)) /\ isinf false (ck_sum _ s).

Lemma ckurt_push_bad s x : bad x -> ck_bad (ckurt_push _ s x).
Proof.
  intros H. split; [apply cvar_push_bad; exact H|]. destruct (bad_isinf x H) as [b Hb].
  unfold ckurt_push. cbn [ck_sum].
  set (d := nsub x (cskew_mean _ (ck_super _ s))).
  assert (D : isinf b d) by (apply ii_sub, Hb).
  set (k := nofsz (szadd (cskew_size _ (ck_super _ s)) 1)). assert (K : nneg k) by apply nneg_count.
  assert (Q : isinf b (ndiv d k)) by (apply ii_div_nneg; assumption).
  apply ii_add_r. replace false with (xorb b b) by (destruct b; reflexivity). apply ii_mul; [|exact Q]. apply ii_sub.
  replace b with (xorb false b) at 1 by (destruct b; reflexivity). apply ii_mul; [|exact Q]. apply ii_add_l.
  apply ii_mul_nneg_r; [|apply nneg_count]. apply ii_mul_nneg_r; [|apply nneg_count].
  replace false with (xorb b b) by (destruct b; reflexivity). apply ii_mul; assumption.
Qed.
Lemma ckurt_push_bad_stays s x : ck_bad s -> ck_bad (ckurt_push _ s x).
Proof.
  intros [H1 H2]. split; [apply cvar_push_bad_stays; exact H1|]. destruct H1 as [_ H1].
  unfold ckurt_push. cbn [ck_sum]. rewrite H1. nans. left. reflexivity.
Qed.
Lemma ckurt_nan s : ck_bad s -> ckurt_kurtosis _ s = nan64.
Proof.
  intros [[_ H1] H2]. unfold ckurt_kurtosis. rewrite ii_not_lt_eps by exact H2. rewrite H1. nans. reflexivity.
Qed.
Lemma ckurt_unbiased_nan s : ck_bad s -> (4 <= ckurt_size _ s)%N -> ckurt_unbiased_kurtosis _ s = nan64.
Proof.
  intros H L. unfold ckurt_unbiased_kurtosis. rewrite (ckurt_nan s H). destruct H as [_ H].
  replace (N.ltb (ckurt_size _ s) 4) with false by (symmetry; apply N.ltb_ge; exact L).
  rewrite ii_not_lt_eps by exact H. nans. reflexivity.
Qed.

(** ** Pairs *)

Definition bad2 (p : b64num * b64num) : Prop := bad (fst p) \/ bad (snd p).

Definition cc_bad (s : ccov b64num) : Prop := bad (cc_center _ s).
Lemma ccov_push_bad s p : bad2 p -> cc_bad (ccov_push _ s p).
Proof.
  destruct p as [x y]. unfold bad2, cc_bad. cbn [fst snd]. intros [H|H]; unfold ccov_push; cbn [cc_center].
  - unfold cmean_mean, cmean_push. cbn [cm_mean]. rewrite target_nan; [nans; bads|exact H|apply nneg_count].
  - bads.
Qed.
Lemma ccov_push_bad_stays s p : cc_bad s -> cc_bad (ccov_push _ s p).
Proof. destruct p as [x y]. unfold cc_bad. intros H. unfold ccov_push; cbn [cc_center]. bads. Qed.

Lemma eq_nan (y : b64num) : neq nan64 y = false. Proof. destruct y; reflexivity. Qed.
Lemma lt_nan_l (y : b64num) : nlt nan64 y = false. Proof. destruct y; reflexivity. Qed.
Lemma lt_nan_r (y : b64num) : nlt y nan64 = false. Proof. destruct y as [[]|[]| |[]]; reflexivity. Qed.

Lemma cvar_bad_variance s : cv_bad s -> cvar_variance _ s = nan64.
Proof. intros [_ H]. unfold cvar_variance. rewrite H. nans. reflexivity. Qed.

Lemma ccorr_bad_value (s : ccorr b64num) : cv_bad (cr_x _ s) \/ cv_bad (cr_y _ s) -> ccorr_value _ s = nan64.
Proof.
  unfold ccorr_value. intros [H|H]; rewrite (cvar_bad_variance _ H); nans; rewrite lt_nan_l;
    change (nsqrt nan64) with nan64; nans; reflexivity.
Qed.

Lemma creg_bad_at (s : creg b64num) p : cv_bad (cg_x _ s) \/ cv_bad (cg_y _ s) -> bad (creg_at _ s p).
Proof.
  unfold creg_at. intros [H|H].
  - assert (E : creg_slope _ s = nan64).
    { unfold creg_slope. rewrite (cvar_bad_variance _ H), eq_nan. nans. reflexivity. }
    rewrite E. nans. bads.
  - apply bad_sub_l. apply H.
Qed.

(** ** Window *)

Section Window.
Variable W : nat.
Hypothesis HW : (0 < W)%nat.

Lemma wmean_push_bad (s : wmean b64num) x : bad x -> bad (wm_mean _ (wmean_push _ W s x)).
Proof.
  intros H. cbn [wmean_push wm_mean]. destruct (wmean_full _ W s) eqn:E.
  - destruct (full_front W HW _ E) as (a & ->). bads.
  - bads.
Qed.
Lemma wmean_push_bad_stays (s : wmean b64num) x : bad (wm_mean _ s) -> bad (wm_mean _ (wmean_push _ W s x)).
Proof.
  intros H. cbn [wmean_push wm_mean]. destruct (wmean_full _ W s) eqn:E.
  - destruct (full_front W HW _ E) as (a & ->). bads.
  - bads.
Qed.
Lemma wvar_push_bad (s : wvar b64num) x : bad x -> bad (wm_mean _ (wv_super _ (wvar_push _ W s x))).
Proof.
  intros H. unfold wvar_push. destruct (wmean_full _ W (wv_super _ s)) eqn:E.
  - destruct (full_front W HW _ E) as (a & ->). cbn [wv_super wm_mean]. bads.
  - cbn [wv_super wm_mean]. bads.
Qed.
Lemma wvar_push_bad_stays (s : wvar b64num) x : bad (wm_mean _ (wv_super _ s)) ->
  bad (wm_mean _ (wv_super _ (wvar_push _ W s x))).
Proof.
  intros H. unfold wvar_push. destruct (wmean_full _ W (wv_super _ s)) eqn:E.
  - destruct (full_front W HW _ E) as (a & ->). cbn [wv_super wm_mean]. bads.
  - cbn [wv_super wm_mean]. bads.
Qed.

Definition wc_bad (P : b64num -> b64num -> Prop) (s : wcov b64num) : Prop :=
  wc_window _ s <> [] /\ bad (wc_xy _ s) /\ P (wc_x _ s) (wc_y _ s).

Lemma push_back_ne {A} (w : list A) x : rb_push_back W w x <> [].
Proof. unfold rb_push_back. destruct (rb_full W w); intros E; apply app_eq_nil in E; destruct E; discriminate. Qed.

Lemma wcov_push_bad_x s p : bad (fst p) -> wc_bad (fun x _ => bad x) (wcov_push _ W s p).
Proof.
  destruct p as [x y]. cbn [fst]. intros H. unfold wcov_push. destruct (rb_full W (wc_window _ s)) eqn:E.
  - destruct (full_front W HW _ E) as ([a b] & ->). split; [apply push_back_ne|]. split; cbn; bads.
  - split; [apply push_back_ne|]. split; cbn; bads.
Qed.
Lemma wcov_push_bad_y s p : bad (snd p) -> wc_bad (fun _ y => bad y) (wcov_push _ W s p).
Proof.
  destruct p as [x y]. cbn [snd]. intros H. unfold wcov_push. destruct (rb_full W (wc_window _ s)) eqn:E.
  - destruct (full_front W HW _ E) as ([a b] & ->). split; [apply push_back_ne|]. split; cbn; bads.
  - split; [apply push_back_ne|]. split; cbn; bads.
Qed.
Lemma wcov_push_stays_x s p : wc_bad (fun x _ => bad x) s -> wc_bad (fun x _ => bad x) (wcov_push _ W s p).
Proof.
  destruct p as [x y]. intros (H1 & H2 & H3). unfold wcov_push. destruct (rb_full W (wc_window _ s)) eqn:E.
  - destruct (full_front W HW _ E) as ([a b] & ->). split; [apply push_back_ne|]. split; cbn; bads.
  - split; [apply push_back_ne|]. split; cbn; bads.
Qed.
Lemma wcov_push_stays_y s p : wc_bad (fun _ y => bad y) s -> wc_bad (fun _ y => bad y) (wcov_push _ W s p).
Proof.
  destruct p as [x y]. intros (H1 & H2 & H3). unfold wcov_push. destruct (rb_full W (wc_window _ s)) eqn:E.
  - destruct (full_front W HW _ E) as ([a b] & ->). split; [apply push_back_ne|]. split; cbn; bads.
  - split; [apply push_back_ne|]. split; cbn; bads.
Qed.

Lemma wcov_bad_variance P s : wc_bad P s -> bad (wcov_variance _ s) /\ ((2 <= wcov_size _ s)%N -> bad (wcov_unbiased_variance _ s)).
Proof.
  intros (H1 & H2 & _). unfold wcov_variance, wcov_unbiased_variance. split.
  - replace (N.ltb 0 (wcov_size _ s)) with true.
    + unfold wcov_cosum. bads.
    + symmetry. apply N.ltb_lt. unfold wcov_size, rb_size. destruct (wc_window _ s); [congruence|cbn; lia].
  - intros L. replace (N.ltb 1 (wcov_size _ s)) with true by (symmetry; apply N.ltb_lt; lia). unfold wcov_cosum. bads.
Qed.
End Window.

(** ** Decay *)

Definition dm_bad' (s : dmean b64num) : Prop := bad (dm_sum _ s) /\ posn (dm_norm _ s).

Lemma dm_push_bad s x : bad x -> dm_inv s -> dm_bad' (dmean_push _ s x).
Proof.
  intros H [H1 H2]. split; [|apply norm_step; assumption]. cbn [dmean_push dm_sum]. bads.
Qed.
Lemma dm_push_bad_stays s x : dm_inv s -> dm_bad' s -> dm_bad' (dmean_push _ s x).
Proof.
  intros [H1 H2] [H3 H4]. split; [|apply norm_step; assumption]. cbn [dmean_push dm_sum]. bads.
Qed.
Lemma dm_bad_mean' s : dm_bad' s -> bad (dmean_mean _ s).
Proof.
  intros [H1 H2]. unfold dmean_mean. rewrite posn_ltb by exact H2. bads.
Qed.

Lemma posn_nneg n : posn n -> nneg n.
Proof. intros (r & D & H). apply (nneg_pos n r D). lra. Qed.
Lemma okf_nneg f : okf f -> nneg f.
Proof. intros [Ff H]. apply (nneg_pos f (b64_real f)); [split; [exact Ff|reflexivity]|lra]. Qed.

(** The distance of an infinite or NaN input from the updated mean. *)
Lemma dm_target s x : bad x -> dm_inv s -> nsub x (dmean_mean _ (dmean_push _ s x)) = nan64.
Proof.
  intros H [H1 H2]. destruct (bad_isinf x H) as [b Hb]. apply (ii_sub_nan b); [exact Hb|].
  assert (PN : posn (dm_norm _ (dmean_push _ s x))) by (apply norm_step; assumption).
  unfold dmean_mean. rewrite posn_ltb by exact PN. apply ii_div_nneg; [|apply posn_nneg; exact PN].
  cbn [dmean_push dm_sum]. apply ii_add_r. apply ii_mul_nneg_l; [apply ii_sub; exact Hb|apply okf_nneg; exact H1].
Qed.

Definition dv_bad' (s : dvar b64num) : Prop := dm_bad' (dv_super _ s) /\ dv_sum _ s = nan64 /\ posn (dv_norm _ s).

Lemma dv_push_bad s x : bad x -> dv_inv s -> dv_bad' (dvar_push _ s x).
Proof.
  intros H (H1 & H2 & H3). split; [apply dm_push_bad; assumption|]. split; [|apply norm_step; assumption].
  unfold dvar_push. cbn [dv_sum]. rewrite dm_target by assumption. nans. reflexivity.
Qed.
Lemma dv_push_bad_stays s x : dv_inv s -> dv_bad' s -> dv_bad' (dvar_push _ s x).
Proof.
  intros (H1 & H2 & H3) (B1 & B2 & B3). split; [apply dm_push_bad_stays; assumption|]. split; [|apply norm_step; assumption].
  unfold dvar_push. cbn [dv_sum]. rewrite B2. nans. reflexivity.
Qed.
Lemma dv_bad_variance' s : dv_bad' s -> dvar_variance _ s = nan64.
Proof.
  intros (_ & H1 & H2). unfold dvar_variance. rewrite posn_ltb by exact H2. rewrite H1. nans. reflexivity.
Qed.

Lemma dskew_hides (s : dskew b64num) : dvar_variance _ (ds_super _ s) = nan64 -> dskew_skewness _ s = n0.
Proof. intros H. unfold dskew_skewness. rewrite H, lt_nan_r. destruct (nlt _ _); reflexivity. Qed.
Lemma dkurt_hides (s : dkurt b64num) : dskew_variance _ (dk_super _ s) = nan64 -> dkurt_kurtosis _ s = n0.
Proof. intros H. unfold dkurt_kurtosis. rewrite H, lt_nan_r. destruct (nlt _ _); reflexivity. Qed.

(** ** Interim *)

(** Where the last W+1 values are. *)
Lemma recent_suffix {A} (W : nat) (l : list A) : (0 < W)%nat ->
  exists u, prev_block W l ++ cur_block W l = u ++ lastn (W + 1) l.
Proof.
  intros HW. destruct (Nat.le_gt_cases (length l) W) as [L|L].
  - destruct (short_blocks W HW l L) as [-> ->]. exists []. rewrite lastn_short by lia. reflexivity.
  - rewrite blocks_recent by exact HW. rewrite long_prev by assumption.
    pose proof (cur_block_pos W HW l ltac:(intros E; rewrite E in L; cbn in L; lia)) as P.
    set (c := length (cur_block W l)) in *. unfold lastn.
    exists (firstn (length l - (W + 1) - (length l - (W + c))) (skipn (length l - (W + c)) l)).
    rewrite <- (firstn_skipn (length l - (W + 1) - (length l - (W + c))) (skipn (length l - (W + c)) l)) at 1.
    f_equal. rewrite skipn_skipn. f_equal. lia.
Qed.

Lemma recent_ex {A} (P : A -> Prop) (W : nat) (l : list A) : (0 < W)%nat ->
  Exists P (lastn (W + 1) l) -> Exists P (prev_block W l) \/ Exists P (cur_block W l).
Proof.
  intros HW H. destruct (recent_suffix W l HW) as [u E].
  assert (G : Exists P (prev_block W l ++ cur_block W l)) by (rewrite E; apply Exists_app; right; exact H).
  apply Exists_app in G. exact G.
Qed.

Lemma older_ex {A} (P : A -> Prop) (W : nat) (l : list A) : (0 < W)%nat ->
  Exists P (removelast (lastn (W + 1) l)) ->
  Exists P (prev_block W l) \/ (Exists P (cur_block W l) /\ (2 <= length (cur_block W l))%nat).
Proof.
  intros HW H. destruct (recent_suffix W l HW) as [u E].
  assert (NL : lastn (W + 1) l <> []) by (intros Z; rewrite Z in H; inversion H).
  assert (NE : l <> []) by (intros Z; apply NL; rewrite Z; reflexivity).
  pose proof (cur_block_pos W HW l NE) as Pc.
  assert (NC : cur_block W l <> []) by (intros Z; rewrite Z in Pc; cbn in Pc; lia).
  destruct (exists_last NL) as (r & y & Er). destruct (exists_last NC) as (c & z & Ec).
  rewrite Er, removelast_last in H. rewrite Er, Ec, !app_assoc in E.
  apply app_inj_tail in E. destruct E as [E _].
  assert (G : Exists P (prev_block W l ++ c)) by (rewrite E; apply Exists_app; right; exact H).
  apply Exists_app in G. destruct G as [G|G]; [left; exact G|right]. rewrite Ec. split.
  - apply Exists_app. left. exact G.
  - rewrite app_length. cbn [length]. destruct c; [inversion G|cbn [length]; lia].
Qed.

Lemma duo_mean_bad {S} (W : N) csize cempty (g : S -> b64num) (d : duo S) :
  (cempty (passive d) = false /\ bad (g (passive d))) \/ bad (g (active d)) ->
  bad (duo_mean b64num W csize cempty g d).
Proof.
  unfold duo_mean. intros [[-> H]|H]; [|destruct (cempty (passive d)); [exact H|]]; bads.
Qed.
Lemma duo_variance_bad {S} (W : N) csize cempty (g : S -> b64num) (d : duo S) :
  (cempty (passive d) = false /\ bad (g (passive d))) \/
  (bad (g (active d)) /\ (cempty (passive d) = true \/ (2 <= csize (active d))%N)) ->
  bad (duo_variance b64num W csize cempty g d).
Proof.
  unfold duo_variance. intros [[-> H]|[H L]].
  - destruct (N.leb _ 1); [exact H|]. bads.
  - destruct (cempty (passive d)); [exact H|]. destruct L as [L|L]; [discriminate|].
    replace (N.leb (csize (active d)) 1) with false by (symmetry; apply N.leb_gt; lia). bads.
Qed.
Lemma duo_stat_bad {S} (W : N) csize cempty (g : S -> b64num) (d : duo S) :
  (cempty (passive d) = false /\ bad (g (passive d))) \/
  (bad (g (active d)) /\ (cempty (passive d) = true \/ (2 <= csize (active d))%N)) ->
  bad (duo_stat b64num W csize cempty g d).
Proof.
  unfold duo_stat. intros [[-> H]|[H L]].
  - destruct (N.leb _ 1); [exact H|]. bads.
  - destruct (cempty (passive d)); [exact H|]. destruct L as [L|L]; [discriminate|].
    replace (N.leb (csize (active d)) 1) with false by (symmetry; apply N.leb_gt; lia). bads.
Qed.

(** ** Impulse response *)

Lemma inner_product_bad (w c : list b64num) : Exists bad (firstn (length c) w) -> bad (inner_product b64num w c).
Proof.
  intros H. unfold inner_product.
  assert (E : exists p, In p (combine w c) /\ bad (fst p)).
  { clear -H. revert c H. induction w as [|a w IH]; intros c H; [rewrite firstn_nil in H; inversion H|].
    destruct c as [|b c]; [inversion H|]. cbn in H |- *. inversion H; subst.
    - exists (a, b). auto.
    - destruct (IH c ltac:(assumption)) as (p & H1' & H2'). exists p. auto. }
  destruct E as (p & H1 & H2). apply in_split in H1. destruct H1 as (u & v & ->).
  rewrite fold_left_app. cbn [fold_left].
  assert (G : forall v a, bad a -> bad (fold_left (fun acc p => nadd acc (nmul (fst p) (snd p))) v a)).
  { clear. induction v as [|q v IH]; intros a H; [exact H|]. cbn [fold_left]. apply IH. bads. }
  apply G. bads.
Qed.

Lemma fir_bad (c : list b64num) (ops : list (op b64num)) : c <> [] ->
  Exists bad (lastn (length c) (since_clear ops)) -> bad (fir_value b64num (fir_run b64num c ops)).
Proof.
  intros Hc H. apply Exists_exists in H. destruct H as (v & H & Hv).
  destruct (fir_state b64num c ops Hc) as (_ & _ & E). unfold fir_value.
  assert (NE : since_clear ops <> []).
  { intros X. rewrite X in H. unfold lastn in H. rewrite skipn_nil in H. destruct H. }
  rewrite (E NE). rewrite <- inner_product_recent by lia. rewrite firstn_all.
  apply inner_product_bad. apply Exists_exists. exists v. split; [|exact Hv].
  rewrite firstn_firstn, Nat.min_id.
  apply in_rev in H. unfold lastn in H. rewrite <- (rev_involutive (since_clear ops)) in H. rewrite skipn_rev in H.
  rewrite !rev_involutive, !rev_length in H.
  destruct (Nat.le_gt_cases (length (since_clear ops)) (length c)) as [L|L].
  - replace (length (since_clear ops) - (length (since_clear ops) - length c))%nat
      with (length (since_clear ops)) in H by lia.
    rewrite firstn_all2 in H by (rewrite rev_length; lia).
    rewrite firstn_all2 by (rewrite rev_length; lia). exact H.
  - replace (length (since_clear ops) - (length (since_clear ops) - length c))%nat
      with (length c) in H by lia. exact H.
Qed.

Lemma iir_bad (b a : list b64num) scale (ops : list (op b64num)) : b <> [] -> a <> [] ->
  Exists bad (since_clear ops) -> bad (iir_value b64num (iir_run b64num b a scale ops)).
Proof.
  intros Hb Ha.
  assert (Pb : (0 < length b)%nat) by (destruct b; [congruence|cbn; lia]).
  assert (Pa : (0 < length a)%nat) by (destruct a; [congruence|cbn; lia]).
  assert (V : forall s, (exists y t, iir_output s = y :: t /\ bad y) -> bad (iir_value b64num s)).
  { intros s (y & t & E & H). unfold iir_value. rewrite E. exact H. }
  intros H. apply V. revert H. unfold iir_run.
  apply (sticky_ex _ _ _ (fun s => iir_input_coefficients s = b /\ iir_output_coefficients s = a)
    (fun s => exists y t, iir_output s = y :: t /\ bad y)).
  - split; reflexivity.
  - intros s x [H1 H2]. split; assumption.
  - intros s [H1 H2]. split; assumption.
  - intros s v Hv [H1 H2]. unfold iir_push. cbn [iir_output]. rewrite H1, H2.
    assert (E : exists t, rb_push_front (length b) (iir_input s) v = v :: t).
    { unfold rb_push_front. destruct (rb_full _ _); eexists; reflexivity. }
    destruct E as (t & ->).
    assert (B : bad (inner_product b64num (v :: t) b)).
    { apply inner_product_bad. destruct b; [cbn in Pb; lia|]. left. exact Hv. }
    unfold rb_push_front. destruct (rb_full _ _); (do 2 eexists; split; [reflexivity|bads]).
  - intros s x [H1 H2] (y & t & E & Hy). unfold iir_push. cbn [iir_output]. rewrite H1, H2.
    assert (B : bad (inner_product b64num (iir_output s) a)).
    { apply inner_product_bad. rewrite E. destruct a; [cbn in Pa; lia|]. left. exact Hy. }
    unfold rb_push_front. destruct (rb_full _ _); (do 2 eexists; split; [reflexivity|bads]).
Qed.
