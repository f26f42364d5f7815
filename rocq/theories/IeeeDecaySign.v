(** * The sign of decayed variances in every IEEE format

    As [SignProofs], for any precision and exponent range. *)

From Coq Require Import Reals ZArith NArith Bool List Lia Lra Psatz.
From Coq Require Import Floats.SpecFloat.
From Flocq Require Import Core.
From Flocq Require Import IEEE754.BinarySingleNaN.
From Verif Require Import Arith History HistoryLemmas Cumulative CumulativeProofs Decay Interim
  Rounded RoundedProofs Ieee IeeeProofs IeeeSign SignProofs.
Import ListNotations.
Local Open Scope R_scope.

Section Format.
Variables prec emax : Z.
Hypothesis Hp : (1 < prec)%Z.
Hypothesis Hm : (prec < emax)%Z.
Local Notation Hprec := (IeeeProofs.Hprec prec Hp).
Local Notation Hmax := (IeeeProofs.Hmax prec emax Hm).
Local Instance precf : FLX.Prec_gt_0 prec := Hprec.
Local Notation emin := (3 - emax - prec)%Z.
Local Notation fexp := (FLT_exp emin prec).
Local Instance vexpf : Valid_exp fexp. Proof. apply FLT_exp_valid. exact Hprec. Qed.
Local Instance mexpf : Monotone_exp fexp. Proof. apply FLT_exp_monotone. Qed.
Local Instance validf : Valid_rnd ZnearestE := valid_rnd_N _.
Local Notation FN := (ieee prec emax).
Local Notation FF := (rounded emin prec ZnearestE).
Local Notation rndf := (rndf prec emax).
Local Notation repf := (repf prec emax).
Local Notation in_range := (in_range emax).
Local Notation of_Z_small := (of_Z_small prec emax Hp Hm).
Local Notation of_Z_real := (of_Z_real prec emax Hp Hm).
Local Notation add_real := (add_real prec emax Hp Hm).
Local Notation sub_real := (sub_real prec emax Hp Hm).
Local Notation mul_real := (mul_real prec emax Hp Hm).
Local Notation div_real := (div_real prec emax Hp Hm).
Local Notation leb_real := (leb_real prec emax).
Local Notation ltb_real := (ltb_real prec emax).
Local Notation rnd_le := (rnd_le prec emax Hp).
Local Notation rnd_rep := (rnd_rep prec emax).
Local Notation rnd_0 := (rnd_0 prec emax).
Local Notation rnd_abs := (rnd_abs prec emax Hp).
Local Notation fr_rep := (fr_rep prec emax).
Local Notation fr_bound := (fr_bound prec emax).
Local Notation repf_bpow := (repf_bpow prec emax Hp).
Local Notation ff_B := (ff_B prec emax).

Local Notation sign_real := (sign_real prec emax).
Local Notation sign_neg := (sign_neg prec emax).
Local Notation mul_overflow := (mul_overflow prec emax Hp Hm).
Local Notation add_overflow_pos := (add_overflow_pos prec emax Hp Hm).
Local Notation in_range_rnd := (in_range_rnd prec emax Hp).
Local Notation rnd_posf := (rnd_posf prec emax Hp).
Local Notation add_valid := (add_valid prec emax Hp Hm).
Local Notation sub_valid := (sub_valid prec emax Hp Hm).
Local Notation mul_valid := (mul_valid prec emax Hp Hm).
Local Notation div_valid := (div_valid prec emax Hp Hm).
Local Notation nonneg_f := (nonneg_f prec emax).
Local Notation nonneg_f_add := (nonneg_f_add prec emax Hp Hm).
Local Notation in_range_dec := (in_range_dec emax).
Local Notation ff_valid := (ff_valid prec emax).
Local Notation fv_B := (fv_B prec emax).

Definition signed (b : bool) (v : spec_float) : Prop :=
  v = S754_nan \/ (ieee_finite prec emax v /\ (if b then ieee_real v <= 0 else 0 <= ieee_real v)) \/ v = S754_infinity b.

Lemma signed_ltb v : signed false v -> SFltb v (S754_zero false) = false.
Proof.
  intros [-> |[[F H]| ->]]; try reflexivity.
  rewrite ltb_real; [|exact F|split; reflexivity]. apply Rlt_bool_false. exact H.
Qed.

Lemma signed_some v : ieee_valid prec emax v -> exists b, signed b v.
Proof.
  intros V. destruct v as [s|s| |s m e].
  - exists false. right. left. split; [split; reflexivity|]. cbn. lra.
  - exists s. right. right. reflexivity.
  - exists false. left. reflexivity.
  - assert (Fv : ieee_finite prec emax (S754_finite s m e)) by (split; [exact V|reflexivity]).
    destruct (Rle_lt_dec (ieee_real (S754_finite s m e)) 0) as [H|H].
    + exists true. right. left. split; assumption.
    + exists false. right. left. split; [exact Fv|lra].
Qed.

Lemma signed_valid b v : signed b v -> ieee_valid prec emax v.
Proof. intros [-> |[[F _]| ->]]; [reflexivity|apply ff_valid; exact F|reflexivity]. Qed.

Lemma rnd_negf x : x <= 0 -> rndf x <= 0.
Proof. intros H. rewrite <- rnd_0. apply rnd_le. exact H. Qed.

Lemma real_sign (b : bool) x : ieee_finite prec emax x -> (if b then ieee_real x < 0 else 0 < ieee_real x) -> sign_SF x = b.
Proof. intros F H. destruct b; [apply sign_neg|apply sign_real]; assumption. Qed.

Lemma signed_zero v b : ieee_finite prec emax v -> ieee_real v = 0 -> signed b v.
Proof. intros F H. right. left. split; [exact F|]. rewrite H. destruct b; lra. Qed.

Lemma mul_inf s y : signed s y -> forall b, signed (xorb b s) (SFmul prec emax (S754_infinity b) y).
Proof.
  intros H b. destruct y as [sy|sy| |sy m e]; cbn.
  - left. reflexivity.
  - destruct H as [H|[[[_ H] _]|H]]; try discriminate. injection H as <-. right. right. reflexivity.
  - left. reflexivity.
  - destruct H as [H|[[F H]|H]]; try discriminate. right. right. f_equal. f_equal.
    assert (Z : ieee_real (S754_finite sy m e) <> 0).
    { unfold ieee_real; cbn. destruct sy; cbn.
      - apply Rlt_not_eq. apply F2R_lt_0. reflexivity.
      - apply Rgt_not_eq. apply F2R_gt_0. reflexivity. }
    apply (real_sign s (S754_finite sy m e) F). destruct s; lra.
Qed.

Lemma SFmul_comm_inf b x : SFmul prec emax x (S754_infinity b) = SFmul prec emax (S754_infinity b) x.
Proof. destruct x as [s|s| |s m e]; cbn; try reflexivity; rewrite xorb_comm; reflexivity. Qed.

Lemma signed_mul a b x y : signed a x -> signed b y -> signed (xorb a b) (SFmul prec emax x y).
Proof.
  intros Hx Hy. destruct Hx as [-> |[[Fx Px]| ->]].
  - left. reflexivity.
  - destruct Hy as [-> |[[Fy Py]| ->]].
    + left. destruct x; reflexivity.
    + assert (P : if xorb a b then ieee_real x * ieee_real y <= 0 else 0 <= ieee_real x * ieee_real y).
      { destruct a, b; cbn [xorb]; nra. }
      destruct (in_range_dec (rndf (ieee_real x * ieee_real y))) as [I|I].
      * destruct (mul_real x y Fx Fy I) as (F & R). right. left. split; [exact F|]. rewrite R.
        destruct (xorb a b); [apply rnd_negf|apply rnd_posf]; exact P.
      * right. right. rewrite mul_overflow by assumption. f_equal.
        assert (NZ : ieee_real x * ieee_real y <> 0).
        { intros E. apply I. rewrite E, rnd_0. unfold in_range. rewrite Rabs_R0. apply bpow_gt_0. }
        assert (Nx : ieee_real x <> 0) by (intros E; apply NZ; rewrite E; ring).
        assert (Ny : ieee_real y <> 0) by (intros E; apply NZ; rewrite E; ring).
        rewrite (real_sign a x Fx) by (destruct a; lra). rewrite (real_sign b y Fy) by (destruct b; lra). reflexivity.
    + rewrite SFmul_comm_inf, xorb_comm. apply mul_inf. right. left. split; assumption.
  - apply mul_inf. exact Hy.
Qed.

Lemma signed_square x : ieee_valid prec emax x -> signed false (SFmul prec emax x x).
Proof. intros V. destruct (signed_some x V) as [b H]. rewrite <- (xorb_nilpotent b). apply signed_mul; exact H. Qed.

Lemma signed_fourth x : ieee_valid prec emax x ->
  signed false (SFmul prec emax (SFmul prec emax (SFmul prec emax x x) x) x).
Proof.
  intros V. destruct (signed_some x V) as [b H].
  pose proof (signed_mul _ _ _ _ (signed_square x V) H) as H3. rewrite xorb_false_l in H3.
  pose proof (signed_mul _ _ _ _ H3 H) as H4. rewrite xorb_nilpotent in H4. exact H4.
Qed.

Lemma signed_add x y : signed false x -> signed false y -> signed false (SFadd prec emax x y).
Proof.
  intros Hx Hy.
  assert (A : forall v, signed false v -> v = S754_nan \/ nonneg_f v).
  { intros v [H|[H|H]]; [left; exact H|right; left; exact H|right; right; exact H]. }
  destruct (A x Hx) as [-> |Nx]; [left; reflexivity|].
  destruct (A y Hy) as [-> |Ny]; [left; destruct x; reflexivity|].
  right. apply nonneg_f_add; assumption.
Qed.

(** Division by something that is not negative nor a negative zero. *)
Lemma signed_div x y : signed false x -> ieee_valid prec emax y -> sign_SF y = false -> signed false (SFdiv prec emax x y).
Proof.
  intros Hx Vy Sy. destruct y as [s|s| |s m e]; cbn in Sy; subst.
  - destruct Hx as [-> |[[F H]| ->]]; [left; reflexivity| |right; right; reflexivity].
    destruct x as [s|s| |s m e]; try (destruct F; discriminate); cbn; [left; reflexivity|].
    right. right. f_equal. rewrite xorb_false_r. destruct s; [|reflexivity]. exfalso.
    pose proof (F2R_lt_0 radix2 (Float radix2 (Zneg m) e) eq_refl) as L. unfold ieee_real in H. cbn in H. cbn in L. lra.
  - destruct Hx as [-> |[[F H]| ->]]; [left; reflexivity| |left; reflexivity].
    destruct x as [s|s| |s m e]; try (destruct F; discriminate); cbn.
    + right. left. split; [split; reflexivity|]. cbn. lra.
    + right. left. split; [split; reflexivity|]. cbn. lra.
  - left. destruct x; reflexivity.
  - destruct Hx as [-> |[[F H]| ->]]; [left; reflexivity| |right; right; reflexivity].
    assert (Fy : ieee_finite prec emax (S754_finite false m e)) by (split; [exact Vy|reflexivity]).
    assert (Py : 0 < ieee_real (S754_finite false m e)) by (apply F2R_gt_0; reflexivity).
    assert (Q : 0 <= ieee_real x / ieee_real (S754_finite false m e)).
    { apply Rmult_le_pos; [exact H|]. apply Rlt_le, Rinv_0_lt_compat, Py. }
    destruct (in_range_dec (rndf (ieee_real x / ieee_real (S754_finite false m e)))) as [I|I].
    + destruct (div_real x _ F Fy ltac:(lra) I) as (F' & R). right. left. split; [exact F'|]. rewrite R.
      apply rnd_posf. exact Q.
    + right. right.
      assert (Px : 0 < ieee_real x).
      { destruct H as [H|H]; [exact H|]. exfalso. apply I. rewrite <- H. unfold Rdiv. rewrite Rmult_0_l, rnd_0.
        unfold in_range. rewrite Rabs_R0. apply bpow_gt_0. }
      pose proof (sign_real x F Px) as Sx.
      destruct (ff_B x F) as (a & <- & Fa), (ff_B _ Fy) as (b & Eb & Fb).
      rewrite <- Eb in *. rewrite (div_B prec emax Hp Hm), !B_real in *.
      pose proof (Bdiv_correct prec emax Hprec Hmax mode_NE a b ltac:(lra)) as C.
      rewrite Rlt_bool_false in C. 2:{ apply Rnot_lt_le. exact I. }
      assert (Sa : Bsign a = false) by (clear - Sx; destruct a; first [reflexivity|exact Sx]).
      assert (Sb : Bsign b = false) by (clear - Eb; destruct b; cbn in Eb; try discriminate; injection Eb as ->; reflexivity).
      rewrite Sa, Sb in C. exact C.
Qed.

(** The update of a decayed average of values that are not negative. *)
Lemma signed_decay f s t : ieee_finite prec emax f -> 0 <= ieee_real f <= 1 -> signed false s -> signed false t ->
  signed false (SFadd prec emax s (SFmul prec emax f (SFsub prec emax t s))).
Proof.
  intros Ff Hf [-> |[[Fs Ps]| ->]] Ht.
  - left. reflexivity.
  - destruct Ht as [-> |[[Ft Pt]| ->]].
    + left. destruct f, s; reflexivity.
    + assert (Rs := fr_rep s Fs). assert (Rt := fr_rep t Ft).
      assert (Bs := fr_bound s Fs). assert (Bt := fr_bound t Ft).
      rewrite Rabs_pos_eq in Bs, Bt by assumption.
      assert (I1 : in_range (rndf (ieee_real t - ieee_real s))).
      { apply (in_range_rnd _ (Rmax (ieee_real s) (ieee_real t))).
        - unfold Rmax. destruct Rle_dec; assumption.
        - unfold Rmax. destruct Rle_dec; apply Rabs_le; lra.
        - unfold Rmax. destruct Rle_dec; assumption. }
      destruct (sub_real t s Ft Fs I1) as (Fd & Ed).
      set (d := SFsub prec emax t s) in *.
      assert (Dl : - ieee_real s <= ieee_real d).
      { rewrite Ed. rewrite <- (rnd_rep (- ieee_real s)) by (apply generic_format_opp; exact Rs). apply rnd_le. lra. }
      assert (I2 : in_range (rndf (ieee_real f * ieee_real d))).
      { apply (in_range_rnd _ (Rabs (ieee_real d))).
        - apply repf_abs, fr_rep, Fd.
        - rewrite Rabs_mult, (Rabs_pos_eq (ieee_real f)) by lra. pose proof (Rabs_pos (ieee_real d)). nra.
        - apply fr_bound, Fd. }
      destruct (mul_real f d Ff Fd I2) as (Fp & Ep). set (p := SFmul prec emax f d) in *.
      assert (Pl : - ieee_real s <= ieee_real p).
      { rewrite Ep. rewrite <- (rnd_rep (- ieee_real s)) by (apply generic_format_opp; exact Rs). apply rnd_le. nra. }
      destruct (in_range_dec (rndf (ieee_real s + ieee_real p))) as [I|I].
      * destruct (add_real s p Fs Fp I) as (F & R). right. left. split; [exact F|]. rewrite R. apply rnd_posf. lra.
      * right. right. apply add_overflow_pos; [exact Fs|exact Fp|exact Ps| |exact I].
        apply Rnot_lt_le. intros N. apply I. apply (in_range_rnd _ (ieee_real s)); [exact Rs| |exact Bs].
        apply Rabs_le. lra.
    + destruct s as [s|s| |s m e]; try (destruct Fs; discriminate);
        (destruct f as [sf|sf| |sf mf ef]; try (destruct Ff; discriminate); cbn;
         [left; reflexivity|]);
        (destruct sf; cbn;
         [exfalso; pose proof (F2R_lt_0 radix2 (Float radix2 (Zneg mf) ef) eq_refl) as L;
          unfold ieee_real in Hf; cbn in Hf; cbn in L; lra|right; right; reflexivity]).
  - destruct Ht as [-> |[[Ft Pt]| ->]].
    + left. destruct f; reflexivity.
    + left. destruct t as [s|s| |s m e]; try (destruct Ft; discriminate);
      destruct f as [sf|sf| |sf mf ef]; try (destruct Ff; discriminate); cbn; try reflexivity;
      destruct sf; cbn; try reflexivity;
      exfalso; pose proof (F2R_lt_0 radix2 (Float radix2 (Zneg mf) ef) eq_refl) as L;
      unfold ieee_real in Hf; cbn in Hf; cbn in L; lra.
    + left. destruct f; reflexivity.
Qed.

Lemma guard_sign y : @nlt FN (@n0 FN) y = true -> sign_SF y = false.
Proof. destruct y as [s|s| |s m e]; cbn; intros H; try reflexivity; destruct s; try reflexivity; discriminate. Qed.

Lemma eps_sign y : @nlt FN (@neps FN) y = true -> sign_SF y = false.
Proof. destruct y as [s|s| |s m e]; cbn; intros H; try reflexivity; destruct s; try reflexivity; discriminate. Qed.

Lemma round_zero_sign sx m e l s : SpecFloat.binary_round_aux prec emax sx m e l = S754_zero s -> s = sx.
Proof.
  unfold SpecFloat.binary_round_aux. destruct (shr_fexp prec emax m e l) as [r e'].
  destruct (shr_fexp prec emax (round_nearest_even (shr_m r) (loc_of_shr_record r)) e' loc_Exact) as [r' e''].
  destruct (shr_m r'); [intros H; injection H as <-; reflexivity| |discriminate].
  destruct (e'' <=? emax - prec)%Z; discriminate.
Qed.

Lemma sign_square y : ieee_valid prec emax y -> sign_SF y = false -> ieee_valid prec emax (SFmul prec emax y y) /\ sign_SF (SFmul prec emax y y) = false.
Proof.
  intros V S. split; [apply mul_valid; exact V|].
  destruct y as [s|s| |s m e]; cbn in S; subst; try reflexivity.
  pose proof (signed_square _ V) as [E|[[F H]|E]]; try (rewrite E; reflexivity).
  destruct (SFmul prec emax (S754_finite false m e) (S754_finite false m e)) as [s|s| |s m' e'] eqn:EQ;
    try (destruct F; discriminate).
  - (* zero: the sign of an underflowing product *)
    cbn [SFmul xorb] in EQ. rewrite (round_zero_sign _ _ _ _ _ EQ). reflexivity.
  - destruct s; [|reflexivity]. exfalso.
    pose proof (F2R_lt_0 radix2 (Float radix2 (Zneg m') e') eq_refl) as L. unfold ieee_real in H. cbn in H. cbn in L. lra.
Qed.

(** ** Decay filters *)

Definition unit_ff (f : spec_float) : Prop := ieee_finite prec emax f /\ 0 <= ieee_real f <= 1.

Definition dm_ok (s : dmean FN) : Prop :=
  ieee_valid prec emax (dm_factor FN s) /\ ieee_valid prec emax (dm_norm FN s) /\ ieee_valid prec emax (dm_sum FN s).
Definition dv_ok (s : dvar FN) : Prop :=
  dm_ok (dv_super FN s) /\ unit_ff (dv_factor FN s) /\ ieee_valid prec emax (dv_norm FN s) /\
  signed false (dv_sum FN s).
Definition ds_ok (s : dskew FN) : Prop :=
  dv_ok (ds_super FN s) /\ ieee_valid prec emax (ds_factor FN s) /\ ieee_valid prec emax (ds_norm FN s) /\
  ieee_valid prec emax (ds_sum FN s).
Definition dk_ok (s : dkurt FN) : Prop :=
  ds_ok (dk_super FN s) /\ unit_ff (dk_factor FN s) /\ ieee_valid prec emax (dk_norm FN s) /\
  signed false (dk_sum FN s).

Lemma zero_valid : ieee_valid prec emax (@n0 FN).
Proof. reflexivity. Qed.
Lemma one_valid : ieee_valid prec emax (@n1 FN).
Proof. apply ff_valid, (of_Z_small 1). pose proof (Z.pow_pos_nonneg 2 prec). lia. Qed.
Lemma zero_signed : signed false (@n0 FN).
Proof. apply signed_zero; [split; reflexivity|reflexivity]. Qed.

Lemma unit_valid f : unit_ff f -> ieee_valid prec emax f.
Proof. intros [F _]. apply ff_valid. exact F. Qed.

Lemma blend_valid f n t : ieee_valid prec emax f -> ieee_valid prec emax n -> ieee_valid prec emax t ->
  ieee_valid prec emax (@nadd FN n (@nmul FN f (@nsub FN t n))).
Proof. intros. apply add_valid; [assumption|]. apply mul_valid; [assumption|]. apply sub_valid; assumption. Qed.

Lemma dm_mean_valid s : dm_ok s -> ieee_valid prec emax (dmean_mean FN s).
Proof.
  intros (_ & Hn & Hs). unfold dmean_mean. destruct (@nlt FN _ _); [apply div_valid; assumption|apply zero_valid].
Qed.

Lemma dm_push_ok s x : dm_ok s -> ieee_valid prec emax x -> dm_ok (dmean_push FN s x).
Proof.
  intros (Hf & Hn & Hs) Hx. split; [exact Hf|].
  split; [apply blend_valid; [exact Hf|exact Hn|exact one_valid]|apply blend_valid; assumption].
Qed.

Lemma dv_push_ok s x : dv_ok s -> ieee_valid prec emax x -> dv_ok (dvar_push FN s x).
Proof.
  intros (Hq & Hf & Hn & Hs) Hx.
  pose proof (dm_push_ok _ _ Hq Hx) as Hq'. pose proof (dm_mean_valid _ Hq') as Vm.
  split; [exact Hq'|]. split; [exact Hf|].
  split; [apply blend_valid; [apply unit_valid; exact Hf|exact Hn|exact one_valid]|].
  destruct Hf as [Ff Hf]. apply signed_decay; [exact Ff|exact Hf|exact Hs|].
  apply signed_square. apply sub_valid; assumption.
Qed.

Lemma ds_push_ok s x : ds_ok s -> ieee_valid prec emax x -> ds_ok (dskew_push FN s x).
Proof.
  intros (Hv & Hf & Hn & Hs) Hx.
  pose proof (dv_push_ok _ _ Hv Hx) as Hv'. pose proof (dm_mean_valid _ (proj1 Hv')) as Vm.
  split; [exact Hv'|]. split; [exact Hf|]. split; [apply blend_valid; [exact Hf|exact Hn|exact one_valid]|].
  assert (Vd := sub_valid _ _ Hx Vm).
  apply blend_valid; [exact Hf|exact Hs|]. apply mul_valid; [apply mul_valid|]; exact Vd.
Qed.

Lemma dk_push_ok s x : dk_ok s -> ieee_valid prec emax x -> dk_ok (dkurt_push FN s x).
Proof.
  intros (Hv & Hf & Hn & Hs) Hx.
  pose proof (ds_push_ok _ _ Hv Hx) as Hv'. pose proof (dm_mean_valid _ (proj1 (proj1 Hv'))) as Vm.
  split; [exact Hv'|]. split; [exact Hf|].
  split; [apply blend_valid; [apply unit_valid; exact Hf|exact Hn|exact one_valid]|].
  destruct Hf as [Ff Hf]. apply signed_decay; [exact Ff|exact Hf|exact Hs|].
  apply signed_fourth. apply sub_valid; assumption.
Qed.

Lemma dv_clear_ok s : dv_ok s -> dv_ok (dvar_clear FN s).
Proof.
  intros ((Hq & _) & Hf & Hn & _). split; [split; [exact Hq|split; reflexivity]|].
  split; [exact Hf|]. split; [exact Hn|apply zero_signed].
Qed.
Lemma ds_clear_ok s : ds_ok s -> ds_ok (dskew_clear FN s).
Proof.
  intros (Hv & Hf & Hn & _). split; [apply dv_clear_ok; exact Hv|]. split; [exact Hf|]. split; [exact Hn|reflexivity].
Qed.
Lemma dk_clear_ok s : dk_ok s -> dk_ok (dkurt_clear FN s).
Proof.
  intros (Hv & Hf & Hn & _). split; [apply ds_clear_ok; exact Hv|]. split; [exact Hf|]. split; [exact Hn|apply zero_signed].
Qed.

Lemma dv_variance_signed s : dv_ok s -> signed false (dvar_variance FN s) /\ ieee_valid prec emax (dvar_variance FN s).
Proof.
  intros (_ & _ & Hn & Hs).
  assert (H : signed false (dvar_variance FN s)).
  { unfold dvar_variance. destruct (@nlt FN _ _) eqn:E; [|apply zero_signed].
    apply signed_div; [exact Hs|exact Hn|]. apply guard_sign. exact E. }
  split; [exact H|]. apply (signed_valid false). exact H.
Qed.

Lemma dk_kurtosis_signed s : dk_ok s -> signed false (dkurt_kurtosis FN s).
Proof.
  intros (Hv & _ & Hn & Hs). unfold dkurt_kurtosis, dskew_variance.
  destruct (@nlt FN _ (dk_norm FN s)) eqn:E; [|apply zero_signed].
  destruct (@nlt FN _ (dvar_variance FN (ds_super FN (dk_super FN s)))) eqn:Ev; [|apply zero_signed].
  destruct (dv_variance_signed _ (proj1 Hv)) as [_ Vv].
  destruct (sign_square _ Vv (eps_sign _ Ev)) as [Vq Sq].
  apply signed_div; [|exact Hn|apply guard_sign; exact E].
  apply signed_div; assumption.
Qed.


End Format.
