(** * Constant streams in an arithmetic where x - x is zero

    The proofs are done once over the algebraic facts they need and
    instantiated with rounded arithmetic and with binary64. *)

From Coq Require Import Reals ZArith NArith Bool List Arith Lia Lra.
From Coq Require Import Floats.SpecFloat.
From Flocq Require Import Core.
From Flocq Require Import IEEE754.BinarySingleNaN.
From Verif Require Import Arith History HistoryLemmas Cumulative CumulativeProofs
  Buffer Window WindowProofs Rounded RoundedProofs Binary64 Binary64Cumulative.
Import ListNotations.

Section Abstract.
Variable F : num.
Local Open Scope num_scope.
Variable x : F.
(** Equal to the constant, equal to zero, finite. *)
Variables isC isZ fin : F -> Prop.

Hypothesis C_first : isC (n0 + (x - n0) / nofsz 1).
Hypothesis C_again : forall m k, isC m -> (1 <= k < szmod)%N -> isC (m + (x - m) / nofsz k).
Hypothesis C_replace : forall m k, isC m -> (1 <= k < szmod)%N -> isC (m + (x - x) / nofsz k).
Hypothesis Z_init : isZ n0.
Hypothesis Z_diff : forall m, isC m -> isZ (x - m).
Hypothesis F_first : fin (x - n0).
Hypothesis Z_fin : forall a, isZ a -> fin a.
Hypothesis Z_add : forall s a b, isZ s -> fin a -> isZ b -> isZ (s + a * b).
Hypothesis Z_sub : forall s a b, isZ s -> fin a -> isZ b -> isZ (s - a * b).
Hypothesis Z_div : forall s k, isZ s -> (1 <= k < szmod)%N -> isZ (s / nofsz k).
Hypothesis Z_max : forall s, isZ s -> isZ (nmax n0 s).

Lemma repeat_snoc {A} (a : A) n : repeat a (S n) = repeat a n ++ [a].
Proof. induction n as [|n IH]; [reflexivity|]. cbn in *. rewrite IH at 1. reflexivity. Qed.

Lemma cmean_const n : (N.of_nat (S n) < szmod)%N ->
  isC (cm_mean F (fold_left (cmean_push F) (repeat x (S n)) (cmean_init F))).
Proof.
  induction n as [|n IH]; intros H.
  - cbn -[nofsz szadd]. exact C_first.
  - rewrite repeat_snoc, fold_left_app. cbn [fold_left cmean_push cm_mean].
    pose proof (cmean_fold_size F (repeat x (S n))) as SZ. rewrite repeat_length in SZ.
    unfold cmean_size in SZ. rewrite SZ, szadd_small by lia. apply C_again; [apply IH|]; lia.
Qed.

Lemma cvar_const n : (N.of_nat (S n) < szmod)%N ->
  isZ (cv_sum F (fold_left (cvar_push F) (repeat x (S n)) (cvar_init F))).
Proof.
  induction n as [|n IH]; intros H.
  - cbn -[nofsz szadd]. apply Z_add; [exact Z_init|exact F_first|]. apply Z_diff. exact C_first.
  - pose proof (cmean_const (S n) H) as CM. specialize (IH ltac:(lia)).
    pose proof (cvar_fold_super F (repeat x (S n)) (cvar_init F)) as Sup.
    rewrite (repeat_snoc x (S n)), fold_left_app in CM |- *.
    set (s := fold_left (cvar_push F) (repeat x (S n)) (cvar_init F)) in *.
    change (cv_super F (cvar_init F)) with (cmean_init F) in Sup.
    cbn [fold_left] in CM |- *. unfold cvar_push. cbn [cv_sum]. rewrite Sup.
    apply Z_add; [exact IH| |].
    + apply Z_fin, Z_diff. apply (cmean_const n). lia.
    + apply Z_diff. exact CM.
Qed.

Lemma cvar_const_variance n : (N.of_nat (S n) < szmod)%N ->
  isZ (cvar_variance F (fold_left (cvar_push F) (repeat x (S n)) (cvar_init F))).
Proof.
  intros H. unfold cvar_variance. rewrite cvar_fold_super.
  pose proof (cmean_fold_size F (repeat x (S n))) as SZ. rewrite repeat_length in SZ.
  unfold cmean_size in SZ. change (cv_super F (cvar_init F)) with (cmean_init F).
  rewrite SZ by exact H. apply Z_div; [apply cvar_const; exact H|lia].
Qed.

Lemma cvar_const_unbiased n : (1 <= n)%nat -> (N.of_nat (S n) < szmod)%N ->
  isZ (cvar_unbiased_variance F (fold_left (cvar_push F) (repeat x (S n)) (cvar_init F))).
Proof.
  intros H1 H. unfold cvar_unbiased_variance. rewrite cvar_fold_super.
  pose proof (cmean_fold_size F (repeat x (S n))) as SZ. rewrite repeat_length in SZ.
  unfold cmean_size in SZ. change (cv_super F (cvar_init F)) with (cmean_init F).
  rewrite SZ by exact H. rewrite szsub_small by lia. apply Z_div; [apply cvar_const; exact H|lia].
Qed.

(** ** Window *)
Variable W : nat.
Hypothesis HW : (0 < W)%nat.
Hypothesis HW64 : (N.of_nat W < szmod)%N.

Lemma lastn_repeat {A} (a : A) n : lastn W (repeat a n) = repeat a (Nat.min W n).
Proof.
  unfold lastn. rewrite repeat_length.
  destruct (le_lt_dec n W).
  - replace (n - W)%nat with 0%nat by lia. rewrite Nat.min_r by lia. reflexivity.
  - replace (repeat a n) with (repeat a (n - W) ++ repeat a W)
      by (rewrite <- repeat_app; f_equal; lia).
    rewrite skipn_app, skipn_all2, repeat_length, Nat.sub_diag, Nat.min_l
      by (rewrite ?repeat_length; lia). reflexivity.
Qed.

Lemma wmean_const n :
  isC (wm_mean F (fold_left (wmean_push F W) (repeat x (S n)) (wmean_init F))).
Proof.
  induction n as [|n IH].
  - cbn -[nofsz szadd]. unfold wmean_full, rb_full. cbn [wm_window wmean_init length].
    destruct (Nat.leb_spec W 0); [lia|]. exact C_first.
  - rewrite repeat_snoc, fold_left_app. cbn [fold_left wmean_push wm_mean].
    unfold wmean_full, wmean_size. rewrite (wmean_fold_window F W HW), lastn_repeat.
    destruct (rb_full W (repeat x (Nat.min W (S n)))) eqn:E.
    + unfold rb_full in E. rewrite repeat_length in E. apply Nat.leb_le in E.
      destruct (Nat.min W (S n)) as [|k] eqn:Ek; [lia|]. cbn [repeat rb_front hd_error].
      apply C_replace; [exact IH|]. unfold rb_size. cbn [length]. rewrite repeat_length. lia.
    + unfold rb_full in E. rewrite repeat_length in E. apply Nat.leb_gt in E.
      apply C_again; [exact IH|]. unfold rb_size. rewrite repeat_length, szadd_small; lia.
Qed.

Lemma wvar_const n :
  isZ (wv_sum F (fold_left (wvar_push F W) (repeat x (S n)) (wvar_init F))).
Proof.
  induction n as [|n IH].
  - cbn -[nofsz szadd]. unfold wvar_push, wmean_full, rb_full. cbn [wm_window wmean_init wv_super wvar_init length].
    destruct (Nat.leb_spec W 0); [lia|]. cbn [wv_sum]. unfold wvar_delta.
    apply Z_add; [exact Z_init|exact F_first|]. apply Z_diff. exact C_first.
  - pose proof (wmean_const n) as M0. pose proof (wmean_const (S n)) as M1.
    rewrite (repeat_snoc x (S n)), fold_left_app in M1 |- *.
    set (s := fold_left (wvar_push F W) (repeat x (S n)) (wvar_init F)) in *.
    cbn [fold_left] in M1 |- *.
    assert (Sup : wv_super F s = fold_left (wmean_push F W) (repeat x (S n)) (wmean_init F))
      by (apply (wvar_fold_super F W HW)).
    rewrite <- Sup in M0, M1.
    assert (Win : wm_window F (wv_super F s) = repeat x (Nat.min W (S n))).
    { rewrite Sup, (wmean_fold_window F W HW), lastn_repeat. reflexivity. }
    unfold wvar_push, wmean_push, wmean_full, wvar_size, wmean_size in *. rewrite Win in *.
    destruct (rb_full W (repeat x (Nat.min W (S n)))) eqn:E.
    + destruct (Nat.min W (S n)) as [|k] eqn:Ek; [lia|]. cbn [repeat rb_front hd_error wv_sum wm_mean] in *.
      unfold wvar_delta.
      apply Z_sub; [apply Z_add; [exact IH| |]| |].
      * apply Z_fin, Z_diff. exact M0.
      * apply Z_diff. exact M1.
      * apply Z_fin, Z_diff. exact M0.
      * apply Z_diff. exact M1.
    + cbn [wv_sum wm_mean] in *. unfold wvar_delta.
      apply Z_add; [exact IH|apply Z_fin, Z_diff; exact M0|apply Z_diff; exact M1].
Qed.

Lemma wvar_const_variance n :
  isZ (wvar_variance F (fold_left (wvar_push F W) (repeat x (S n)) (wvar_init F))).
Proof.
  unfold wvar_variance, wvar_size, wmean_size. rewrite (wvar_fold_window F W HW), lastn_repeat.
  unfold rb_size. rewrite repeat_length.
  destruct (N.ltb_spec 0 (N.of_nat (Nat.min W (S n)))); [|lia].
  apply Z_max, Z_div; [apply wvar_const|lia].
Qed.

Lemma wvar_const_unbiased n :
  isZ (wvar_unbiased_variance F (fold_left (wvar_push F W) (repeat x (S n)) (wvar_init F))).
Proof.
  unfold wvar_unbiased_variance, wvar_size, wmean_size. rewrite (wvar_fold_window F W HW), lastn_repeat.
  unfold rb_size. rewrite repeat_length.
  destruct (N.ltb_spec 1 (N.of_nat (Nat.min W (S n)))); [|exact Z_init].
  rewrite szsub_small by lia.
  apply Z_max, Z_div; [apply wvar_const|lia].
Qed.
End Abstract.

(** ** Cumulative covariance *)
Section AbstractCov.
Variable F : num.
Local Open Scope num_scope.
Variables x y : F.
Variables isX isY isZ fin : F -> Prop.
Hypothesis X_first : isX (n0 + (x - n0) / nofsz 1).
Hypothesis X_again : forall m k, isX m -> (1 <= k < szmod)%N -> isX (m + (x - m) / nofsz k).
Hypothesis Y_first : isY (n0 + (y - n0) / nofsz 1).
Hypothesis Y_again : forall m k, isY m -> (1 <= k < szmod)%N -> isY (m + (y - m) / nofsz k).
Hypothesis Z_init : isZ n0.
Hypothesis X_diff : forall m, isX m -> isZ (x - m).
Hypothesis Y_diff : forall m, isY m -> isZ (y - m).
Hypothesis F_first : fin (y - n0).
Hypothesis Z_fin : forall a, isZ a -> fin a.
Hypothesis Z_add' : forall s a b, isZ s -> isZ a -> fin b -> isZ (s + a * b).
Hypothesis Z_div : forall s k, isZ s -> (1 <= k < szmod)%N -> isZ (s / nofsz k).

Lemma map_repeat {A B} (f : A -> B) a n : map f (repeat a n) = repeat (f a) n.
Proof. induction n as [|n IH]; cbn; [|rewrite IH]; reflexivity. Qed.

Lemma ccov_const n : (N.of_nat (S n) < szmod)%N ->
  isZ (cc_center F (fold_left (ccov_push F) (repeat (x, y) (S n)) (ccov_init F))).
Proof.
  induction n as [|n IH]; intros H.
  - cbn -[nofsz szadd]. apply Z_add'; [exact Z_init| |exact F_first]. apply X_diff. exact X_first.
  - pose proof (cmean_const F x isX X_first X_again (S n) H) as MX.
    specialize (IH ltac:(lia)).
    pose proof (ccov_fold_x F (repeat (x, y) (S n)) (ccov_init F)) as SX.
    pose proof (ccov_fold_y F (repeat (x, y) (S n)) (ccov_init F)) as SY.
    rewrite map_repeat in SX, SY.
    change (cc_x F (ccov_init F)) with (cmean_init F) in SX. change (cc_y F (ccov_init F)) with (cmean_init F) in SY.
    rewrite (repeat_snoc (x, y) (S n)), fold_left_app. rewrite (repeat_snoc x (S n)), fold_left_app in MX.
    set (s := fold_left (ccov_push F) (repeat (x, y) (S n)) (ccov_init F)) in *.
    cbn [fold_left] in MX |- *. unfold ccov_push. cbn [cc_center]. rewrite SX, SY. cbn [fst snd].
    apply Z_add'; [exact IH| |].
    + apply X_diff. exact MX.
    + apply Z_fin, Y_diff. apply (cmean_const F y isY Y_first Y_again n). lia.
Qed.

Lemma ccov_const_size n : (N.of_nat (S n) < szmod)%N ->
  ccov_size F (fold_left (ccov_push F) (repeat (x, y) (S n)) (ccov_init F)) = N.of_nat (S n).
Proof.
  intros H. unfold ccov_size. rewrite ccov_fold_x, map_repeat.
  pose proof (cmean_fold_size F (repeat x (S n))) as SZ. rewrite repeat_length in SZ.
  exact (SZ H).
Qed.

Lemma ccov_const_variance n : (N.of_nat (S n) < szmod)%N ->
  isZ (ccov_variance F (fold_left (ccov_push F) (repeat (x, y) (S n)) (ccov_init F))).
Proof.
  intros H. unfold ccov_variance. rewrite ccov_const_size by exact H.
  destruct (N.ltb_spec 0 (N.of_nat (S n))); [|lia]. apply Z_div; [apply ccov_const; exact H|lia].
Qed.

Lemma ccov_const_unbiased n : (N.of_nat (S n) < szmod)%N ->
  isZ (ccov_unbiased_variance F (fold_left (ccov_push F) (repeat (x, y) (S n)) (ccov_init F))).
Proof.
  intros H. unfold ccov_unbiased_variance. rewrite ccov_const_size by exact H.
  destruct (N.ltb_spec 1 (N.of_nat (S n))); [|exact Z_init].
  rewrite szsub_small by lia. apply Z_div; [apply ccov_const; exact H|lia].
Qed.
End AbstractCov.

(** ** Rounded arithmetic meets the hypotheses *)
Section RoundedInst.
Local Open Scope R_scope.
Variables emin prec : Z.
Context {prec_gt_0_ : Prec_gt_0 prec}.
Hypothesis emin_le_0 : (emin <= 0)%Z.
Variable mode : R -> Z.
Context {valid_mode : Valid_rnd mode}.
Notation rnd := (rounding emin prec mode).
Notation F := (rounded emin prec mode).
Variable c : R.
Hypothesis Hc : generic_format radix2 (FLT_exp emin prec) c.

Lemma r_n0 : @n0 F = Fin 0.
Proof. unfold n0. cbn. f_equal. apply rnd_zero. exact valid_mode. Qed.

Lemma r_div a k : (1 <= k < szmod)%N ->
  @ndiv F (Fin a) (nofsz k) = Fin (rnd (a / rnd (IZR (Z.of_N k)))).
Proof.
  intros H. destruct (count_fin emin prec emin_le_0 mode k) as (r & E & Er & R1 & _); [lia|].
  rewrite E, <- Er. cbn. rewrite Req_bool_false by lra. reflexivity.
Qed.

Lemma r_zero_div k : (1 <= k < szmod)%N -> @ndiv F (Fin 0) (nofsz k) = Fin 0.
Proof.
  intros H. rewrite r_div by exact H.
  destruct (count_fin emin prec emin_le_0 mode k) as (r & E & Er & R1 & _); [lia|].
  rewrite <- Er. replace (0 / r) with 0 by (field; lra). rewrite rnd_zero by exact valid_mode. reflexivity.
Qed.

Lemma r_sub_self : @nsub F (Fin c) (Fin c) = Fin 0.
Proof. cbn. f_equal. rewrite Rminus_diag_eq by reflexivity. apply rnd_zero. exact valid_mode. Qed.

Lemma r_add_0 : @nadd F (Fin c) (Fin 0) = Fin c.
Proof. cbn. f_equal. rewrite Rplus_0_r. apply rnd_fix; assumption. Qed.

Lemma r_first : @nadd F n0 (@ndiv F (@nsub F (Fin c) n0) (nofsz 1)) = Fin c.
Proof.
  rewrite r_n0. change (@nsub F (Fin c) (Fin 0)) with (Fin (rnd (c - 0))).
  rewrite r_div by (split; reflexivity || discriminate). change (IZR (Z.of_N 1)) with 1.
  cbn. f_equal. apply (mean_step_1 emin prec emin_le_0 mode c Hc).
Qed.

Lemma r_again m k : m = Fin c -> (1 <= k < szmod)%N ->
  @nadd F m (@ndiv F (@nsub F (Fin c) m) (nofsz k)) = Fin c.
Proof. intros -> H. rewrite r_sub_self, r_zero_div, r_add_0 by exact H. reflexivity. Qed.

Lemma r_replace m k : m = Fin c -> (1 <= k < szmod)%N ->
  @nadd F m (@ndiv F (@nsub F (Fin c) (Fin c)) (nofsz k)) = Fin c.
Proof. intros -> H. rewrite r_sub_self, r_zero_div, r_add_0 by exact H. reflexivity. Qed.

Definition r_fin (a : F) : Prop := exists r, a = Fin r.

Lemma r_zadd s a b : s = Fin 0 -> r_fin a -> b = Fin 0 -> @nadd F s (@nmul F a b) = Fin 0.
Proof.
  intros -> (r & ->) ->. cbn. rewrite Rmult_0_r, (rnd_zero _ _ mode), Rplus_0_r, (rnd_zero _ _ mode). reflexivity.
Qed.
Lemma r_zadd' s a b : s = Fin 0 -> a = Fin 0 -> r_fin b -> @nadd F s (@nmul F a b) = Fin 0.
Proof.
  intros -> -> (r & ->). cbn. rewrite Rmult_0_l, (rnd_zero _ _ mode), Rplus_0_r, (rnd_zero _ _ mode). reflexivity.
Qed.
Lemma r_zsub s a b : s = Fin 0 -> r_fin a -> b = Fin 0 -> @nsub F s (@nmul F a b) = Fin 0.
Proof.
  intros -> (r & ->) ->. cbn. rewrite Rmult_0_r, (rnd_zero _ _ mode), Rminus_0_r, (rnd_zero _ _ mode). reflexivity.
Qed.
Lemma r_max s : s = Fin 0 -> @nmax F n0 s = Fin 0.
Proof. intros ->. rewrite r_n0. unfold nmax. destruct (nlt _ _); reflexivity. Qed.
End RoundedInst.

(** ** Binary64 meets the hypotheses *)
Section B64Inst.
Local Open Scope R_scope.
Variable x : b64num.
Hypothesis Fx : b64_finite x.
Definition isc (m : b64num) : Prop := denotes m (b64_real x).
Definition is0 (m : b64num) : Prop := denotes m 0.
Definition isf (m : b64num) : Prop := b64_finite m.

Lemma dx : denotes x (b64_real x).
Proof. split; [exact Fx|reflexivity]. Qed.

Lemma b_count k : (1 <= k < szmod)%N -> exists c, denotes (@nofsz b64num k) c /\ 1 <= c.
Proof.
  intros H. exists (rnd64 (IZR (Z.of_N k))). split; [apply count_denotes; lia|].
  apply (rnd_ge1 (-1074) 53 ltac:(lia) ZnearestE). apply (IZR_le 1). lia.
Qed.

Lemma b_range0 : in_range 0.
Proof. unfold in_range. rewrite Rabs_R0. apply bpow_gt_0. Qed.

Lemma b_zdiv s k : is0 s -> (1 <= k < szmod)%N -> is0 (@ndiv b64num s (nofsz k)).
Proof.
  intros H K. destruct (b_count k K) as (c & Dc & C1).
  assert (E : rnd64 (0 / c) = 0). { replace (0 / c) with 0 by (field; lra). apply rnd64_0. }
  unfold is0. rewrite <- E. apply denotes_div; [exact H|exact Dc|lra|]. rewrite E. apply b_range0.
Qed.

Lemma b_diff m : isc m -> is0 (@nsub b64num x m).
Proof.
  intros H. assert (E : rnd64 (b64_real x - b64_real x) = 0).
  { rewrite Rminus_diag_eq by reflexivity. apply rnd64_0. }
  unfold is0. rewrite <- E. apply denotes_sub; [exact dx|exact H|]. rewrite E. apply b_range0.
Qed.

Lemma b_add0 m z : isc m -> is0 z -> isc (@nadd b64num m z).
Proof.
  intros H Z. assert (E : rnd64 (b64_real x + 0) = b64_real x).
  { rewrite Rplus_0_r. apply rnd64_rep, b64_real_rep, Fx. }
  unfold isc. rewrite <- E. apply denotes_add; [exact H|exact Z|]. rewrite E. apply b64_real_bound, Fx.
Qed.

Lemma b_again m k : isc m -> (1 <= k < szmod)%N -> isc (@nadd b64num m (@ndiv b64num (@nsub b64num x m) (nofsz k))).
Proof. intros H K. apply b_add0; [exact H|]. apply b_zdiv; [apply b_diff; exact H|exact K]. Qed.

Lemma b_replace m k : isc m -> (1 <= k < szmod)%N -> isc (@nadd b64num m (@ndiv b64num (@nsub b64num x x) (nofsz k))).
Proof. intros H K. apply b_add0; [exact H|]. apply b_zdiv; [apply b_diff; exact dx|exact K]. Qed.

Lemma b_init : is0 (@n0 b64num).
Proof. apply denotes_zero. Qed.

Lemma b_sub_0 : isc (@nsub b64num x n0).
Proof.
  assert (E : rnd64 (b64_real x - 0) = b64_real x).
  { rewrite Rminus_0_r. apply rnd64_rep, b64_real_rep, Fx. }
  unfold isc. rewrite <- E. apply denotes_sub; [exact dx|exact b_init|]. rewrite E. apply b64_real_bound, Fx.
Qed.

Lemma b_first : isc (@nadd b64num n0 (@ndiv b64num (@nsub b64num x n0) (nofsz 1))).
Proof.
  assert (D1 : denotes (@nofsz b64num 1) 1) by (apply (of_Z_exact 1); reflexivity || discriminate).
  assert (E : rnd64 (b64_real x / 1) = b64_real x).
  { replace (b64_real x / 1) with (b64_real x) by field. apply rnd64_rep, b64_real_rep, Fx. }
  assert (D2 : denotes (@ndiv b64num (@nsub b64num x n0) (nofsz 1)) (b64_real x)).
  { rewrite <- E. apply denotes_div; [exact b_sub_0|exact D1|lra|]. rewrite E. apply b64_real_bound, Fx. }
  assert (E' : rnd64 (0 + b64_real x) = b64_real x).
  { rewrite Rplus_0_l. apply rnd64_rep, b64_real_rep, Fx. }
  unfold isc. rewrite <- E'. apply denotes_add; [exact b_init|exact D2|]. rewrite E'. apply b64_real_bound, Fx.
Qed.
End B64Inst.

Local Open Scope R_scope.
Lemma b_mul0 a b : isf a -> is0 b -> is0 (@nmul b64num a b).
Proof.
  intros H Z. assert (E : rnd64 (b64_real a * 0) = 0) by (rewrite Rmult_0_r; apply rnd64_0).
  unfold is0. rewrite <- E. apply denotes_mul; [split; [exact H|reflexivity]|exact Z|]. rewrite E. apply b_range0.
Qed.
Lemma b_mul0' a b : is0 a -> isf b -> is0 (@nmul b64num a b).
Proof.
  intros Z H. assert (E : rnd64 (0 * b64_real b) = 0) by (rewrite Rmult_0_l; apply rnd64_0).
  unfold is0. rewrite <- E. apply denotes_mul; [exact Z|split; [exact H|reflexivity]|]. rewrite E. apply b_range0.
Qed.
Lemma b_add00 a b : is0 a -> is0 b -> is0 (@nadd b64num a b).
Proof.
  intros A B. assert (E : rnd64 (0 + 0) = 0) by (rewrite Rplus_0_l; apply rnd64_0).
  unfold is0. rewrite <- E. apply denotes_add; [exact A|exact B|]. rewrite E. apply b_range0.
Qed.
Lemma b_sub00 a b : is0 a -> is0 b -> is0 (@nsub b64num a b).
Proof.
  intros A B. assert (E : rnd64 (0 - 0) = 0) by (rewrite Rminus_0_r; apply rnd64_0).
  unfold is0. rewrite <- E. apply denotes_sub; [exact A|exact B|]. rewrite E. apply b_range0.
Qed.
Lemma b_zadd s a b : is0 s -> isf a -> is0 b -> is0 (@nadd b64num s (@nmul b64num a b)).
Proof. intros S A B. apply b_add00; [exact S|]. apply b_mul0; assumption. Qed.
Lemma b_zadd' s a b : is0 s -> is0 a -> isf b -> is0 (@nadd b64num s (@nmul b64num a b)).
Proof. intros S A B. apply b_add00; [exact S|]. apply b_mul0'; assumption. Qed.
Lemma b_zsub s a b : is0 s -> isf a -> is0 b -> is0 (@nsub b64num s (@nmul b64num a b)).
Proof. intros S A B. apply b_sub00; [exact S|]. apply b_mul0; assumption. Qed.
Lemma b_max s : is0 s -> is0 (@nmax b64num n0 s).
Proof. intros S. unfold nmax. destruct (nlt _ _); [exact S|apply b_init]. Qed.
Lemma b_fin a : is0 a -> isf a.
Proof. intros [H _]. exact H. Qed.
Lemma b_cfin x m : isc x m -> isf m.
Proof. intros [H _]. exact H. Qed.
