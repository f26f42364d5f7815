(** * Signs of decayed and interim statistics in floating point *)

From Coq Require Import Reals ZArith NArith Bool List Lia Lra Psatz.
From Coq Require Import Floats.SpecFloat.
From Flocq Require Import Core.
From Flocq Require Import IEEE754.BinarySingleNaN.
From Verif Require Import Arith History HistoryLemmas Cumulative CumulativeProofs Decay Interim
  Rounded RoundedProofs Binary64 Binary64Cumulative SpecStats SpecBlocks BlockLemmas InterimStats.
Import ListNotations.
Local Open Scope R_scope.

(** NaN, or of the given sign (true: negative) or zero. *)
Definition signed (b : bool) (v : b64) : Prop :=
  v = S754_nan \/ (b64_finite v /\ (if b then b64_real v <= 0 else 0 <= b64_real v)) \/ v = S754_infinity b.

Lemma signed_ltb v : signed false v -> SFltb v (S754_zero false) = false.
Proof.
  intros [-> |[[F H]| ->]]; try reflexivity.
  rewrite ltb_real; [|exact F|split; reflexivity]. apply Rlt_bool_false. exact H.
Qed.

Lemma signed_some v : b64_valid v -> exists b, signed b v.
Proof.
  intros V. destruct v as [s|s| |s m e].
  - exists false. right. left. split; [split; reflexivity|]. cbn. lra.
  - exists s. right. right. reflexivity.
  - exists false. left. reflexivity.
  - assert (Fv : b64_finite (S754_finite s m e)) by (split; [exact V|reflexivity]).
    destruct (Rle_lt_dec (b64_real (S754_finite s m e)) 0) as [H|H].
    + exists true. right. left. split; assumption.
    + exists false. right. left. split; [exact Fv|lra].
Qed.

Lemma signed_valid b v : signed b v -> b64_valid v.
Proof. intros [-> |[[F _]| ->]]; [reflexivity|apply b64_finite_valid; exact F|reflexivity]. Qed.

Lemma rnd64_neg x : x <= 0 -> rnd64 x <= 0.
Proof. intros H. rewrite <- rnd64_0. apply rnd64_le. exact H. Qed.

Lemma real_sign (b : bool) x : b64_finite x -> (if b then b64_real x < 0 else 0 < b64_real x) -> sign_SF x = b.
Proof. intros F H. destruct b; [apply sign_neg|apply sign_real]; assumption. Qed.

Lemma signed_zero v b : b64_finite v -> b64_real v = 0 -> signed b v.
Proof. intros F H. right. left. split; [exact F|]. rewrite H. destruct b; lra. Qed.

Lemma mul_inf s y : signed s y -> forall b, signed (xorb b s) (SFmul 53 1024 (S754_infinity b) y).
Proof.
  intros H b. destruct y as [sy|sy| |sy m e]; cbn.
  - left. reflexivity.
  - destruct H as [H|[[[_ H] _]|H]]; try discriminate. injection H as <-. right. right. reflexivity.
  - left. reflexivity.
  - destruct H as [H|[[F H]|H]]; try discriminate. right. right. f_equal. f_equal.
    assert (Z : b64_real (S754_finite sy m e) <> 0).
    { unfold b64_real; cbn. destruct sy; cbn.
      - apply Rlt_not_eq. apply F2R_lt_0. reflexivity.
      - apply Rgt_not_eq. apply F2R_gt_0. reflexivity. }
    apply (real_sign s (S754_finite sy m e) F). destruct s; lra.
Qed.

Lemma SFmul_comm_inf b x : SFmul 53 1024 x (S754_infinity b) = SFmul 53 1024 (S754_infinity b) x.
Proof. destruct x as [s|s| |s m e]; cbn; try reflexivity; rewrite xorb_comm; reflexivity. Qed.

Lemma signed_mul a b x y : signed a x -> signed b y -> signed (xorb a b) (SFmul 53 1024 x y).
Proof.
  intros Hx Hy. destruct Hx as [-> |[[Fx Px]| ->]].
  - left. reflexivity.
  - destruct Hy as [-> |[[Fy Py]| ->]].
    + left. destruct x; reflexivity.
    + assert (P : if xorb a b then b64_real x * b64_real y <= 0 else 0 <= b64_real x * b64_real y).
      { destruct a, b; cbn [xorb]; nra. }
      destruct (in_range_dec (rnd64 (b64_real x * b64_real y))) as [I|I].
      * destruct (mul_real x y Fx Fy I) as (F & R). right. left. split; [exact F|]. rewrite R.
        destruct (xorb a b); [apply rnd64_neg|apply rnd64_pos]; exact P.
      * right. right. rewrite mul_overflow by assumption. f_equal.
        assert (NZ : b64_real x * b64_real y <> 0).
        { intros E. apply I. rewrite E, rnd64_0. unfold in_range. rewrite Rabs_R0. apply bpow_gt_0. }
        assert (Nx : b64_real x <> 0) by (intros E; apply NZ; rewrite E; ring).
        assert (Ny : b64_real y <> 0) by (intros E; apply NZ; rewrite E; ring).
        rewrite (real_sign a x Fx) by (destruct a; lra). rewrite (real_sign b y Fy) by (destruct b; lra). reflexivity.
    + rewrite SFmul_comm_inf, xorb_comm. apply mul_inf. right. left. split; assumption.
  - apply mul_inf. exact Hy.
Qed.

Lemma signed_square x : b64_valid x -> signed false (SFmul 53 1024 x x).
Proof. intros V. destruct (signed_some x V) as [b H]. rewrite <- (xorb_nilpotent b). apply signed_mul; exact H. Qed.

Lemma signed_fourth x : b64_valid x ->
  signed false (SFmul 53 1024 (SFmul 53 1024 (SFmul 53 1024 x x) x) x).
Proof.
  intros V. destruct (signed_some x V) as [b H].
  pose proof (signed_mul _ _ _ _ (signed_square x V) H) as H3. rewrite xorb_false_l in H3.
  pose proof (signed_mul _ _ _ _ H3 H) as H4. rewrite xorb_nilpotent in H4. exact H4.
Qed.

Lemma signed_add x y : signed false x -> signed false y -> signed false (SFadd 53 1024 x y).
Proof.
  intros Hx Hy.
  assert (A : forall v, signed false v -> v = S754_nan \/ nonneg64 v).
  { intros v [H|[H|H]]; [left; exact H|right; left; exact H|right; right; exact H]. }
  destruct (A x Hx) as [-> |Nx]; [left; reflexivity|].
  destruct (A y Hy) as [-> |Ny]; [left; destruct x; reflexivity|].
  right. apply nonneg64_add; assumption.
Qed.

(** Division by something that is not negative nor a negative zero. *)
Lemma signed_div x y : signed false x -> b64_valid y -> sign_SF y = false -> signed false (SFdiv 53 1024 x y).
Proof.
  intros Hx Vy Sy. destruct y as [s|s| |s m e]; cbn in Sy; subst.
  - destruct Hx as [-> |[[F H]| ->]]; [left; reflexivity| |right; right; reflexivity].
    destruct x as [s|s| |s m e]; try (destruct F; discriminate); cbn; [left; reflexivity|].
    right. right. f_equal. rewrite xorb_false_r. destruct s; [|reflexivity]. exfalso.
    pose proof (F2R_lt_0 radix2 (Float radix2 (Zneg m) e) eq_refl) as L. unfold b64_real in H. cbn in H. cbn in L. lra.
  - destruct Hx as [-> |[[F H]| ->]]; [left; reflexivity| |left; reflexivity].
    destruct x as [s|s| |s m e]; try (destruct F; discriminate); cbn.
    + right. left. split; [split; reflexivity|]. cbn. lra.
    + right. left. split; [split; reflexivity|]. cbn. lra.
  - left. destruct x; reflexivity.
  - destruct Hx as [-> |[[F H]| ->]]; [left; reflexivity| |right; right; reflexivity].
    assert (Fy : b64_finite (S754_finite false m e)) by (split; [exact Vy|reflexivity]).
    assert (Py : 0 < b64_real (S754_finite false m e)) by (apply F2R_gt_0; reflexivity).
    assert (Q : 0 <= b64_real x / b64_real (S754_finite false m e)).
    { apply Rmult_le_pos; [exact H|]. apply Rlt_le, Rinv_0_lt_compat, Py. }
    destruct (in_range_dec (rnd64 (b64_real x / b64_real (S754_finite false m e)))) as [I|I].
    + destruct (div_real x _ F Fy ltac:(lra) I) as (F' & R). right. left. split; [exact F'|]. rewrite R.
      apply rnd64_pos. exact Q.
    + right. right.
      assert (Px : 0 < b64_real x).
      { destruct H as [H|H]; [exact H|]. exfalso. apply I. rewrite <- H. unfold Rdiv. rewrite Rmult_0_l, rnd64_0.
        unfold in_range. rewrite Rabs_R0. apply bpow_gt_0. }
      pose proof (sign_real x F Px) as Sx.
      destruct (b64_finite_B x F) as (a & <- & Fa), (b64_finite_B _ Fy) as (b & Eb & Fb).
      rewrite <- Eb in *. rewrite div_B, !B_real in *.
      pose proof (Bdiv_correct 53 1024 (eq_refl : FLX.Prec_gt_0 53) (eq_refl : Prec_lt_emax 53 1024) mode_NE a b ltac:(lra)) as C.
      rewrite Rlt_bool_false in C. 2:{ apply Rnot_lt_le. exact I. }
      assert (Sa : Bsign a = false) by (clear - Sx; destruct a; first [reflexivity|exact Sx]).
      assert (Sb : Bsign b = false) by (clear - Eb; destruct b; cbn in Eb; try discriminate; injection Eb as ->; reflexivity).
      rewrite Sa, Sb in C. exact C.
Qed.

(** The update of a decayed average of values that are not negative. *)
Lemma signed_decay f s t : b64_finite f -> 0 <= b64_real f <= 1 -> signed false s -> signed false t ->
  signed false (SFadd 53 1024 s (SFmul 53 1024 f (SFsub 53 1024 t s))).
Proof.
  intros Ff Hf [-> |[[Fs Ps]| ->]] Ht.
  - left. reflexivity.
  - destruct Ht as [-> |[[Ft Pt]| ->]].
    + left. destruct f, s; reflexivity.
    + assert (Rs := b64_real_rep s Fs). assert (Rt := b64_real_rep t Ft).
      assert (Bs := b64_real_bound s Fs). assert (Bt := b64_real_bound t Ft).
      rewrite Rabs_pos_eq in Bs, Bt by assumption.
      assert (I1 : in_range (rnd64 (b64_real t - b64_real s))).
      { apply (in_range_rnd _ (Rmax (b64_real s) (b64_real t))).
        - unfold Rmax. destruct Rle_dec; assumption.
        - unfold Rmax. destruct Rle_dec; apply Rabs_le; lra.
        - unfold Rmax. destruct Rle_dec; assumption. }
      destruct (sub_real t s Ft Fs I1) as (Fd & Ed).
      set (d := SFsub 53 1024 t s) in *.
      assert (Dl : - b64_real s <= b64_real d).
      { rewrite Ed. rewrite <- (rnd64_rep (- b64_real s)) by (apply rep64_opp; exact Rs). apply rnd64_le. lra. }
      assert (I2 : in_range (rnd64 (b64_real f * b64_real d))).
      { apply (in_range_rnd _ (Rabs (b64_real d))).
        - apply rep64_abs, b64_real_rep, Fd.
        - rewrite Rabs_mult, (Rabs_pos_eq (b64_real f)) by lra. pose proof (Rabs_pos (b64_real d)). nra.
        - apply b64_real_bound, Fd. }
      destruct (mul_real f d Ff Fd I2) as (Fp & Ep). set (p := SFmul 53 1024 f d) in *.
      assert (Pl : - b64_real s <= b64_real p).
      { rewrite Ep. rewrite <- (rnd64_rep (- b64_real s)) by (apply rep64_opp; exact Rs). apply rnd64_le. nra. }
      destruct (in_range_dec (rnd64 (b64_real s + b64_real p))) as [I|I].
      * destruct (add_real s p Fs Fp I) as (F & R). right. left. split; [exact F|]. rewrite R. apply rnd64_pos. lra.
      * right. right. apply add_overflow_pos; [exact Fs|exact Fp|exact Ps| |exact I].
        apply Rnot_lt_le. intros N. apply I. apply (in_range_rnd _ (b64_real s)); [exact Rs| |exact Bs].
        apply Rabs_le. lra.
    + destruct s as [s|s| |s m e]; try (destruct Fs; discriminate);
        (destruct f as [sf|sf| |sf mf ef]; try (destruct Ff; discriminate); cbn;
         [left; reflexivity|]);
        (destruct sf; cbn;
         [exfalso; pose proof (F2R_lt_0 radix2 (Float radix2 (Zneg mf) ef) eq_refl) as L;
          unfold b64_real in Hf; cbn in Hf; cbn in L; lra|right; right; reflexivity]).
  - destruct Ht as [-> |[[Ft Pt]| ->]].
    + left. destruct f; reflexivity.
    + left. destruct t as [s|s| |s m e]; try (destruct Ft; discriminate);
      destruct f as [sf|sf| |sf mf ef]; try (destruct Ff; discriminate); cbn; try reflexivity;
      destruct sf; cbn; try reflexivity;
      exfalso; pose proof (F2R_lt_0 radix2 (Float radix2 (Zneg mf) ef) eq_refl) as L;
      unfold b64_real in Hf; cbn in Hf; cbn in L; lra.
    + left. destruct f; reflexivity.
Qed.

Lemma guard_sign y : @nlt b64num (@n0 b64num) y = true -> sign_SF y = false.
Proof. destruct y as [s|s| |s m e]; cbn; intros H; try reflexivity; destruct s; try reflexivity; discriminate. Qed.

Lemma eps_sign y : @nlt b64num (@neps b64num) y = true -> sign_SF y = false.
Proof. destruct y as [s|s| |s m e]; cbn; intros H; try reflexivity; destruct s; try reflexivity; discriminate. Qed.

Lemma round_zero_sign sx m e l s : SpecFloat.binary_round_aux 53 1024 sx m e l = S754_zero s -> s = sx.
Proof.
  unfold SpecFloat.binary_round_aux. destruct (shr_fexp 53 1024 m e l) as [r e'].
  destruct (shr_fexp 53 1024 (round_nearest_even (shr_m r) (loc_of_shr_record r)) e' loc_Exact) as [r' e''].
  destruct (shr_m r'); [intros H; injection H as <-; reflexivity| |discriminate].
  destruct (e'' <=? 1024 - 53)%Z; discriminate.
Qed.

Lemma sign_square y : b64_valid y -> sign_SF y = false -> b64_valid (SFmul 53 1024 y y) /\ sign_SF (SFmul 53 1024 y y) = false.
Proof.
  intros V S. split; [apply mul_valid; exact V|].
  destruct y as [s|s| |s m e]; cbn in S; subst; try reflexivity.
  pose proof (signed_square _ V) as [E|[[F H]|E]]; try (rewrite E; reflexivity).
  destruct (SFmul 53 1024 (S754_finite false m e) (S754_finite false m e)) as [s|s| |s m' e'] eqn:EQ;
    try (destruct F; discriminate).
  - (* zero: the sign of an underflowing product *)
    cbn [SFmul xorb] in EQ. rewrite (round_zero_sign _ _ _ _ _ EQ). reflexivity.
  - destruct s; [|reflexivity]. exfalso.
    pose proof (F2R_lt_0 radix2 (Float radix2 (Zneg m') e') eq_refl) as L. unfold b64_real in H. cbn in H. cbn in L. lra.
Qed.

(** ** Decay filters over double *)

Lemma run_invariant {S A : Type} (push : S -> A -> S) (clear : S -> S) (P : S -> Prop) (ok : A -> Prop) s ops :
  P s -> (forall s a, P s -> ok a -> P (push s a)) -> (forall s, P s -> P (clear s)) ->
  all_pushed ok ops -> P (run push clear s ops).
Proof.
  intros H0 HP HC. unfold run. revert s H0. induction ops as [|[a|] ops IH]; intros s H0 OK; cbn [fold_left step].
  - exact H0.
  - apply IH; [apply HP; [exact H0|apply OK; left; reflexivity]|]. intros x Hx. apply OK. right. exact Hx.
  - apply IH; [apply HC; exact H0|]. intros x Hx. apply OK. right. exact Hx.
Qed.

Definition unit64 (f : b64) : Prop := b64_finite f /\ 0 <= b64_real f <= 1.

Definition dm_ok (s : dmean b64num) : Prop :=
  b64_valid (dm_factor b64num s) /\ b64_valid (dm_norm b64num s) /\ b64_valid (dm_sum b64num s).
Definition dv_ok (s : dvar b64num) : Prop :=
  dm_ok (dv_super b64num s) /\ unit64 (dv_factor b64num s) /\ b64_valid (dv_norm b64num s) /\
  signed false (dv_sum b64num s).
Definition ds_ok (s : dskew b64num) : Prop :=
  dv_ok (ds_super b64num s) /\ b64_valid (ds_factor b64num s) /\ b64_valid (ds_norm b64num s) /\
  b64_valid (ds_sum b64num s).
Definition dk_ok (s : dkurt b64num) : Prop :=
  ds_ok (dk_super b64num s) /\ unit64 (dk_factor b64num s) /\ b64_valid (dk_norm b64num s) /\
  signed false (dk_sum b64num s).

Lemma zero_valid : b64_valid (@n0 b64num).
Proof. reflexivity. Qed.
Lemma zero_signed : signed false (@n0 b64num).
Proof. apply signed_zero; [split; reflexivity|reflexivity]. Qed.

Lemma unit_valid f : unit64 f -> b64_valid f.
Proof. intros [F _]. apply b64_finite_valid. exact F. Qed.

Lemma blend_valid f n t : b64_valid f -> b64_valid n -> b64_valid t ->
  b64_valid (@nadd b64num n (@nmul b64num f (@nsub b64num t n))).
Proof. intros. apply add_valid; [assumption|]. apply mul_valid; [assumption|]. apply sub_valid; assumption. Qed.

Lemma dm_mean_valid s : dm_ok s -> b64_valid (dmean_mean b64num s).
Proof.
  intros (_ & Hn & Hs). unfold dmean_mean. destruct (@nlt b64num _ _); [apply div_valid; assumption|apply zero_valid].
Qed.

Lemma dm_push_ok s x : dm_ok s -> b64_valid x -> dm_ok (dmean_push b64num s x).
Proof.
  intros (Hf & Hn & Hs) Hx. split; [exact Hf|].
  split; [apply blend_valid; [exact Hf|exact Hn|reflexivity]|apply blend_valid; assumption].
Qed.

Lemma dv_push_ok s x : dv_ok s -> b64_valid x -> dv_ok (dvar_push b64num s x).
Proof.
  intros (Hm & Hf & Hn & Hs) Hx.
  pose proof (dm_push_ok _ _ Hm Hx) as Hm'. pose proof (dm_mean_valid _ Hm') as Vm.
  split; [exact Hm'|]. split; [exact Hf|].
  split; [apply blend_valid; [apply unit_valid; exact Hf|exact Hn|reflexivity]|].
  destruct Hf as [Ff Hf]. apply signed_decay; [exact Ff|exact Hf|exact Hs|].
  apply signed_square. apply sub_valid; assumption.
Qed.

Lemma ds_push_ok s x : ds_ok s -> b64_valid x -> ds_ok (dskew_push b64num s x).
Proof.
  intros (Hv & Hf & Hn & Hs) Hx.
  pose proof (dv_push_ok _ _ Hv Hx) as Hv'. pose proof (dm_mean_valid _ (proj1 Hv')) as Vm.
  split; [exact Hv'|]. split; [exact Hf|]. split; [apply blend_valid; [exact Hf|exact Hn|reflexivity]|].
  assert (Vd := sub_valid _ _ Hx Vm).
  apply blend_valid; [exact Hf|exact Hs|]. apply mul_valid; [apply mul_valid|]; exact Vd.
Qed.

Lemma dk_push_ok s x : dk_ok s -> b64_valid x -> dk_ok (dkurt_push b64num s x).
Proof.
  intros (Hv & Hf & Hn & Hs) Hx.
  pose proof (ds_push_ok _ _ Hv Hx) as Hv'. pose proof (dm_mean_valid _ (proj1 (proj1 Hv'))) as Vm.
  split; [exact Hv'|]. split; [exact Hf|].
  split; [apply blend_valid; [apply unit_valid; exact Hf|exact Hn|reflexivity]|].
  destruct Hf as [Ff Hf]. apply signed_decay; [exact Ff|exact Hf|exact Hs|].
  apply signed_fourth. apply sub_valid; assumption.
Qed.

Lemma dv_clear_ok s : dv_ok s -> dv_ok (dvar_clear b64num s).
Proof.
  intros ((Hm & _) & Hf & Hn & _). split; [split; [exact Hm|split; reflexivity]|].
  split; [exact Hf|]. split; [exact Hn|apply zero_signed].
Qed.
Lemma ds_clear_ok s : ds_ok s -> ds_ok (dskew_clear b64num s).
Proof.
  intros (Hv & Hf & Hn & _). split; [apply dv_clear_ok; exact Hv|]. split; [exact Hf|]. split; [exact Hn|reflexivity].
Qed.
Lemma dk_clear_ok s : dk_ok s -> dk_ok (dkurt_clear b64num s).
Proof.
  intros (Hv & Hf & Hn & _). split; [apply ds_clear_ok; exact Hv|]. split; [exact Hf|]. split; [exact Hn|apply zero_signed].
Qed.

Lemma dv_variance_signed s : dv_ok s -> signed false (dvar_variance b64num s) /\ b64_valid (dvar_variance b64num s).
Proof.
  intros (_ & _ & Hn & Hs).
  assert (H : signed false (dvar_variance b64num s)).
  { unfold dvar_variance. destruct (@nlt b64num _ _) eqn:E; [|apply zero_signed].
    apply signed_div; [exact Hs|exact Hn|]. apply guard_sign. exact E. }
  split; [exact H|]. apply (signed_valid false). exact H.
Qed.

Lemma dk_kurtosis_signed s : dk_ok s -> signed false (dkurt_kurtosis b64num s).
Proof.
  intros (Hv & _ & Hn & Hs). unfold dkurt_kurtosis, dskew_variance.
  destruct (@nlt b64num _ (dk_norm b64num s)) eqn:E; [|apply zero_signed].
  destruct (@nlt b64num _ (dvar_variance b64num (ds_super b64num (dk_super b64num s)))) eqn:Ev; [|apply zero_signed].
  destruct (dv_variance_signed _ (proj1 Hv)) as [_ Vv].
  destruct (sign_square _ Vv (eps_sign _ Ev)) as [Vq Sq].
  apply signed_div; [|exact Hn|apply guard_sign; exact E].
  apply signed_div; assumption.
Qed.

(** ** Decay filters in every format *)

Section Formats.
Variables emin prec : Z.
Context {prec_gt_0_ : Prec_gt_0 prec}.
Hypothesis emin_le : (emin <= 0)%Z.
Variable mode : R -> Z.
Context {valid_mode : Valid_rnd mode}.
Let F := rounded emin prec mode.
Notation rnd := (rounding emin prec mode).
Notation fmt := (generic_format radix2 (FLT_exp emin prec)).

Definition fin_ge0 (x : F) : Prop := exists r, x = Fin r /\ fmt r /\ 0 <= r.
Definition fin (x : F) : Prop := exists r, x = Fin r.

Lemma decay_ge0 f s t : 0 <= f <= 1 -> fin_ge0 s -> fin_ge0 t ->
  fin_ge0 (@nadd F s (@nmul F (Fin f) (@nsub F t s))).
Proof.
  intros Hf (a & -> & Fa & Pa) (b & -> & Fb & Pb). eexists. split; [reflexivity|].
  split; [apply (@rnd_fmt emin prec _ mode _)|].
  assert (D : - a <= rnd (b - a)).
  { rewrite <- (@rnd_fix emin prec mode _ (- a)) by (apply generic_format_opp; exact Fa).
    apply (@rnd_mono emin prec _ mode _). lra. }
  assert (P : - a <= rnd (f * rnd (b - a))).
  { rewrite <- (@rnd_fix emin prec mode _ (- a)) at 1 by (apply generic_format_opp; exact Fa).
    apply (@rnd_mono emin prec _ mode _). nra. }
  apply (@rnd_pos emin prec _ mode _). lra.
Qed.

Definition unitF (f : F) : Prop := exists r, f = Fin r /\ 0 <= r <= 1.

Definition dm_fin (s : dmean F) : Prop := fin (dm_factor F s) /\ fin (dm_norm F s) /\ fin (dm_sum F s).
Definition dv_fin (s : dvar F) : Prop :=
  dm_fin (dv_super F s) /\ unitF (dv_factor F s) /\ fin (dv_norm F s) /\ fin_ge0 (dv_sum F s).
Definition ds_fin (s : dskew F) : Prop :=
  dv_fin (ds_super F s) /\ fin (ds_factor F s) /\ fin (ds_norm F s) /\ fin (ds_sum F s).
Definition dk_fin (s : dkurt F) : Prop :=
  ds_fin (dk_super F s) /\ unitF (dk_factor F s) /\ fin (dk_norm F s) /\ fin_ge0 (dk_sum F s).

Lemma blend_fin (f n t : F) : fin f -> fin n -> fin t -> fin (@nadd F n (@nmul F f (@nsub F t n))).
Proof. intros (a & ->) (b & ->) (c & ->). eexists. reflexivity. Qed.

Lemma unit_fin (f : F) : unitF f -> fin f.
Proof. intros (r & -> & _). eexists. reflexivity. Qed.

Lemma zero_fin : @n0 F = Fin 0.
Proof. unfold n0. cbn. f_equal. apply (@rnd_zero emin prec mode _). Qed.

Lemma zero_ge0 : fin_ge0 (@n0 F).
Proof. exists 0. split; [apply zero_fin|]. split; [apply generic_format_0|lra]. Qed.

(** Guarded division. *)
Lemma guarded (x n : F) : fin x -> fin n -> fin (if @nlt F (@n0 F) n then @ndiv F x n else @n0 F).
Proof.
  intros (a & ->) (b & ->). rewrite zero_fin. cbn. case Rlt_bool_spec; intros H; [|exists 0; reflexivity].
  rewrite Req_bool_neq by lra. eexists. reflexivity.
Qed.

Lemma guarded_ge0 (x n : F) : fin_ge0 x -> fin n -> fin_ge0 (if @nlt F (@n0 F) n then @ndiv F x n else @n0 F).
Proof.
  intros (a & -> & Fa & Pa) (b & ->). rewrite zero_fin. cbn.
  case Rlt_bool_spec; intros H.
  - rewrite Req_bool_neq by lra. eexists. split; [reflexivity|]. split; [apply (@rnd_fmt emin prec _ mode _)|].
    apply (@rnd_pos emin prec _ mode _). apply Rmult_le_pos; [exact Pa|]. apply Rlt_le, Rinv_0_lt_compat, H.
  - rewrite <- zero_fin. apply zero_ge0.
Qed.

Lemma one_fin : fin (@n1 F).
Proof. eexists. reflexivity. Qed.

Lemma dm_push_fin s x : dm_fin s -> fin x -> dm_fin (dmean_push F s x).
Proof.
  intros (Hf & Hn & Hs) Hx. split; [exact Hf|].
  split; [apply blend_fin; [exact Hf|exact Hn|apply one_fin]|apply blend_fin; assumption].
Qed.

Lemma delta_fin s x : dm_fin s -> fin x -> fin (@nsub F x (dmean_mean F s)).
Proof.
  intros (_ & Hn & Hs) (a & ->). destruct (guarded _ _ Hs Hn) as (m & E).
  unfold dmean_mean. rewrite E. eexists. reflexivity.
Qed.

Lemma square_ge0 (d : F) : fin d -> fin_ge0 (@nmul F d d).
Proof.
  intros (a & ->). eexists. split; [reflexivity|]. split; [apply (@rnd_fmt emin prec _ mode _)|].
  apply (@rnd_pos emin prec _ mode _). nra.
Qed.

Lemma fourth_ge0 (d : F) : fin d -> fin_ge0 (@nmul F (@nmul F (@nmul F d d) d) d).
Proof.
  intros (a & ->). eexists. split; [reflexivity|]. split; [apply (@rnd_fmt emin prec _ mode _)|].
  apply (@rnd_pos emin prec _ mode _).
  assert (S : 0 <= rnd (a * a)) by (apply (@rnd_pos emin prec _ mode _); nra).
  destruct (Rle_lt_dec 0 a) as [H|H].
  - apply Rmult_le_pos; [|exact H]. apply (@rnd_pos emin prec _ mode _). apply Rmult_le_pos; assumption.
  - assert (N : rnd (rnd (a * a) * a) <= 0) by (apply (@rnd_neg emin prec _ mode _); nra). nra.
Qed.

Lemma dv_push_fin s x : dv_fin s -> fin x -> dv_fin (dvar_push F s x).
Proof.
  intros (Hm & Hf & Hn & Hs) Hx. pose proof (dm_push_fin _ _ Hm Hx) as Hm'.
  split; [exact Hm'|]. split; [exact Hf|].
  split; [apply blend_fin; [apply unit_fin; exact Hf|exact Hn|apply one_fin]|].
  cbn [dvar_push dv_sum]. destruct Hf as (f & -> & Hf). apply decay_ge0; [exact Hf|exact Hs|].
  apply square_ge0. apply delta_fin; assumption.
Qed.

Lemma ds_push_fin s x : ds_fin s -> fin x -> ds_fin (dskew_push F s x).
Proof.
  intros (Hv & Hf & Hn & Hs) Hx. pose proof (dv_push_fin _ _ Hv Hx) as Hv'.
  split; [exact Hv'|]. split; [exact Hf|]. split; [apply blend_fin; [exact Hf|exact Hn|apply one_fin]|].
  cbn [dskew_push ds_sum]. apply blend_fin; [exact Hf|exact Hs|].
  destruct (delta_fin _ _ (proj1 Hv') Hx) as (d & E).
  unfold dvar_mean. rewrite E. eexists. reflexivity.
Qed.

Lemma dk_push_fin s x : dk_fin s -> fin x -> dk_fin (dkurt_push F s x).
Proof.
  intros (Hv & Hf & Hn & Hs) Hx. pose proof (ds_push_fin _ _ Hv Hx) as Hv'.
  split; [exact Hv'|]. split; [exact Hf|].
  split; [apply blend_fin; [apply unit_fin; exact Hf|exact Hn|apply one_fin]|].
  cbn [dkurt_push dk_sum]. destruct Hf as (f & -> & Hf). apply decay_ge0; [exact Hf|exact Hs|].
  apply fourth_ge0. apply (delta_fin _ _ (proj1 (proj1 Hv'))). exact Hx.
Qed.

Lemma zfin : fin (@n0 F).
Proof. exists 0. apply zero_fin. Qed.

Lemma dv_clear_fin s : dv_fin s -> dv_fin (dvar_clear F s).
Proof.
  intros ((Hm & _) & Hf & Hn & _). split; [split; [exact Hm|split; apply zfin]|].
  split; [exact Hf|]. split; [exact Hn|apply zero_ge0].
Qed.
Lemma ds_clear_fin s : ds_fin s -> ds_fin (dskew_clear F s).
Proof.
  intros (Hv & Hf & Hn & _). split; [apply dv_clear_fin; exact Hv|]. split; [exact Hf|]. split; [exact Hn|apply zfin].
Qed.
Lemma dk_clear_fin s : dk_fin s -> dk_fin (dkurt_clear F s).
Proof.
  intros (Hv & Hf & Hn & _). split; [apply ds_clear_fin; exact Hv|]. split; [exact Hf|]. split; [exact Hn|apply zero_ge0].
Qed.

Lemma dv_variance_ge0 s : dv_fin s -> fin_ge0 (dvar_variance F s).
Proof. intros (_ & _ & Hn & Hs). apply guarded_ge0; assumption. Qed.

(** Above epsilon the square of the variance does not underflow. *)
Lemma square_pos v : (emin <= 2 - 2 * prec)%Z -> bpow radix2 (1 - prec) < v -> 0 < rnd (v * v).
Proof.
  intros He Hv. pose proof (bpow_gt_0 radix2 (1 - prec)) as B.
  apply Rlt_le_trans with (bpow radix2 (2 - 2 * prec)); [apply bpow_gt_0|].
  rewrite <- (@rnd_fix emin prec mode _ (bpow radix2 (2 - 2 * prec))).
  - apply (@rnd_mono emin prec _ mode _). replace (2 - 2 * prec)%Z with ((1 - prec) + (1 - prec))%Z by ring.
    rewrite bpow_plus. apply Rmult_le_compat; lra.
  - apply generic_format_FLT_bpow; [exact prec_gt_0_|exact He].
Qed.

Lemma dk_kurtosis_ge0 s : (emin <= 2 - 2 * prec)%Z -> dk_fin s -> fin_ge0 (dkurt_kurtosis F s).
Proof.
  intros He (Hv & _ & Hn & Hs). unfold dkurt_kurtosis, dskew_variance.
  destruct (dv_variance_ge0 _ (proj1 Hv)) as (v & Ev & _ & Pv). rewrite Ev.
  change (@neps F) with (Fin (bpow radix2 (1 - prec))). cbn [nlt F rounded xnum xcmp].
  case Rlt_bool_spec; intros Hv2.
  - change (fin_ge0 (if @nlt F (@n0 F) (dk_norm F s)
      then @ndiv F (@ndiv F (dk_sum F s) (@nmul F (Fin v) (Fin v))) (dk_norm F s) else @n0 F)).
    apply guarded_ge0; [|exact Hn]. destruct Hs as (k & -> & _ & Pk).
    pose proof (square_pos v He Hv2) as SP. cbn. rewrite Req_bool_neq by lra.
    eexists. split; [reflexivity|]. split; [apply (@rnd_fmt emin prec _ mode _)|].
    apply (@rnd_pos emin prec _ mode _). apply Rmult_le_pos; [exact Pk|]. apply Rlt_le, Rinv_0_lt_compat, SP.
  - match goal with |- fin_ge0 (if ?b then _ else _) => destruct b; apply zero_ge0 end.
Qed.
End Formats.

(** ** Interim variance over double *)

Lemma cvar_variance_nonneg (l : list b64num) : okl l -> l <> [] -> (N.of_nat (length l) < szmod)%N ->
  nonneg64 (cvar_variance b64num (fold_left (cvar_push b64num) l (cvar_init b64num))).
Proof.
  intros OK NE HL. unfold cvar_variance. rewrite cvar_fold_super.
  change (cv_super b64num (cvar_init b64num)) with (cmean_init b64num).
  destruct (cmean_b64 l OK HL) as (m & r & E & _). rewrite E. cbn [cm_count].
  assert (H1 : (1 <= N.of_nat (length l))%N) by (destruct l; [congruence|cbn [length]; lia]).
  apply (nonneg64_div _ _ (rnd64 (IZR (Z.of_N (N.of_nat (length l)))))).
  - apply cvar_b64; assumption.
  - apply count_denotes; assumption.
  - apply (@rnd_ge1 (-1074) 53 _ ltac:(lia) ZnearestE _). apply IZR_le. lia.
Qed.

Lemma weight_nonneg k v : (1 <= k)%N -> (k < szmod)%N -> nonneg64 v ->
  nonneg64 (@nmul b64num (@nofsz b64num k) v).
Proof.
  intros H1 H2 H. destruct (count_denotes k H1 H2) as [F R].
  assert (G : 1 <= rnd64 (IZR (Z.of_N k))).
  { apply (@rnd_ge1 (-1074) 53 _ ltac:(lia) ZnearestE _). apply IZR_le. lia. }
  destruct H as [[Fv Pv]| ->].
  - apply nonneg64_mul; [exact F|exact Fv|]. rewrite R. nra.
  - right. pose proof (sign_real _ F ltac:(rewrite R; lra)) as S. change (@nmul b64num) with (SFmul 53 1024).
    rewrite <- R in G. destruct (@nofsz b64num k) as [s|s| |s m e]; try (destruct F; discriminate).
    + unfold b64_real in G. cbn in G. lra.
    + cbn in S. subst s. reflexivity.
Qed.

Lemma cvar_csize64 (l : list b64num) : (N.of_nat (length l) < szmod)%N ->
  cvar_size b64num (fold_left (cvar_push b64num) l (cvar_init b64num)) = N.of_nat (length l).
Proof. apply InterimStats.cvar_csize. Qed.

Lemma ivar_nonneg W (ops : list (op b64num)) : (0 < W)%nat -> (N.of_nat W <= 4294967296)%N ->
  let l := since_clear ops in l <> [] -> okl (lastn (2 * W) l) ->
  nonneg64 (ivar_variance b64num (N.of_nat W)
    (run (ivar_push b64num (N.of_nat W)) (ivar_clear b64num) (ivar_init b64num) ops)).
Proof.
  intros HW H32 l NE OK.
  assert (HS : (N.of_nat W < szmod)%N) by (unfold szmod; lia).
  pose proof (duo_run (A := b64num) W HW (cvar b64num) (cvar_init b64num) (cvar_clear b64num) (cvar_push b64num) (cvar_size b64num)
    HS (cvar_clear_init b64num) cvar_csize64 ops) as ER.
  set (d := run (ivar_push b64num (N.of_nat W)) (ivar_clear b64num) (ivar_init b64num) ops).
  change (d = Duo (fold_left (cvar_push b64num) (cur_block W l) (cvar_init b64num))
                  (fold_left (cvar_push b64num) (prev_block W l) (cvar_init b64num))) in ER.
  rewrite ER. clear ER d.
  assert (Bc : okl (cur_block W l) /\ okl (prev_block W l)).
  { unfold okl in *. rewrite Forall_forall in OK. split; apply Forall_forall; intros x Hx; apply OK.
    - apply (cur_block_In W HW); exact Hx.
    - apply (prev_block_In W HW); exact Hx. }
  destruct Bc as [Oc Op].
  pose proof (cur_block_le W HW l) as Lc. pose proof (prev_block_le W HW l) as Lp.
  assert (Nc : (1 <= length (cur_block W l))%nat).
  { rewrite (cur_block_length W HW). destruct l; [congruence|]. lia. }
  assert (NEc : cur_block W l <> []) by (intros E; rewrite E in Nc; cbn in Nc; lia).
  pose proof (cvar_variance_nonneg _ Oc NEc ltac:(lia)) as Vc.
  assert (Vp : prev_block W l <> [] ->
    nonneg64 (cvar_variance b64num (fold_left (cvar_push b64num) (prev_block W l) (cvar_init b64num)))).
  { intros E. apply cvar_variance_nonneg; [exact Op|exact E|lia]. }
  assert (Ec := cvar_csize64 (cur_block W l) ltac:(lia)).
  assert (Ep := cvar_csize64 (prev_block W l) ltac:(lia)).
  set (c := fold_left (cvar_push b64num) (cur_block W l) (cvar_init b64num)) in *.
  set (q := fold_left (cvar_push b64num) (prev_block W l) (cvar_init b64num)) in *.
  unfold ivar_variance, duo_variance. cbn [active passive].
  change (cvar_empty b64num q) with (N.eqb (cvar_size b64num q) 0). rewrite Ec, Ep.
  destruct (N.eqb_spec (N.of_nat (length (prev_block W l))) 0) as [Z|Z]; [exact Vc|].
  assert (NEp : prev_block W l <> []) by (intros E; rewrite E in Z; cbn in Z; lia).
  specialize (Vp NEp).
  destruct (N.leb_spec (N.of_nat (length (cur_block W l))) 1) as [H1|H1]; [exact Vp|].
  set (k := N.of_nat (length (cur_block W l))) in *.
  rewrite (szsub_small k 1) by lia. rewrite (szsub_small (N.of_nat W) (k - 1)) by lia.
  assert (B1 : (1 <= N.of_nat W - (k - 1) <= 4294967295)%N) by lia.
  assert (B2 : (1 <= (N.of_nat W - (k - 1)) * (N.of_nat W - (k - 1)) <= 4294967295 * 4294967295)%N).
  { split; [|apply N.mul_le_mono; lia]. change 1%N with (1 * 1)%N. apply N.mul_le_mono; lia. }
  rewrite (szmul_small (N.of_nat W - (k - 1)) _) by (unfold szmod; lia).
  rewrite (szmul_small 2 (k - 1)) by (unfold szmod; lia).
  rewrite szadd_small by (unfold szmod; lia).
  set (wp := ((N.of_nat W - (k - 1)) * (N.of_nat W - (k - 1)))%N) in *.
  assert (T1 : (1 <= wp + 2 * (k - 1))%N) by lia.
  assert (T2 : (wp + 2 * (k - 1) < szmod)%N) by (unfold szmod; lia).
  apply (nonneg64_div _ _ (rnd64 (IZR (Z.of_N (wp + 2 * (k - 1)))))).
  - apply nonneg64_add; apply weight_nonneg; try assumption; unfold szmod; lia.
  - apply count_denotes; assumption.
  - apply (@rnd_ge1 (-1074) 53 _ ltac:(lia) ZnearestE _). apply IZR_le. lia.
Qed.
