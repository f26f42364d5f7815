(** * IEEE binary interchange formats as rounded real arithmetic *)

From Coq Require Import Reals ZArith NArith Bool Lia Lra.
From Coq Require Import Floats.SpecFloat.
From Flocq Require Import Core.
From Flocq Require Import IEEE754.BinarySingleNaN.
From Verif Require Import Arith Ieee Approx ApproxInstances.
Local Open Scope R_scope.

Section Format.
Variables prec emax : Z.
Hypothesis Hp : (1 < prec)%Z.
Hypothesis Hm : (prec < emax)%Z.
Local Instance Hprec : FLX.Prec_gt_0 prec. Proof. red. lia. Qed.
Local Instance Hmax : Prec_lt_emax prec emax. Proof. exact Hm. Qed.
Local Notation emin := (3 - emax - prec)%Z.
Local Notation fexp := (FLT_exp emin prec).
Local Instance vexpf : Valid_exp fexp. Proof. apply FLT_exp_valid. exact Hprec. Qed.
Local Instance mexpf : Monotone_exp fexp. Proof. apply FLT_exp_monotone. Qed.
Definition rndf (x : R) : R := round radix2 fexp ZnearestE x.
Definition repf (x : R) : Prop := generic_format radix2 fexp x.

Lemma rne_equiv s m l : round_nearest_even m l = choice_mode mode_NE s m l.
Proof.
  case l; [reflexivity|intro c]. case c; [|reflexivity..].
  now simpl; unfold Round.cond_incr; case Z.even.
Qed.

Lemma bra_equiv sx mx ex lx :
  SpecFloat.binary_round_aux prec emax sx mx ex lx
  = binary_round_aux prec emax mode_NE sx mx ex lx.
Proof.
  unfold SpecFloat.binary_round_aux, binary_round_aux.
  set (mrse' := shr_fexp _ _ _). case mrse'; intros mrs' e'; simpl.
  now rewrite (rne_equiv sx).
Qed.

Lemma br_equiv s m e :
  SpecFloat.binary_round prec emax s m e = binary_round prec emax mode_NE s m e.
Proof.
  unfold SpecFloat.binary_round, binary_round, shl_align_fexp.
  set (mez := shl_align _ _ _); case mez as [mz ez]. apply bra_equiv.
Qed.

Lemma bn_equiv m e szero :
  SpecFloat.binary_normalize prec emax m e szero
  = B2SF (binary_normalize prec emax Hprec Hmax mode_NE m e szero).
Proof.
  case m as [ | p | p].
  - now simpl.
  - simpl; rewrite B2SF_SF2B; apply br_equiv.
  - simpl; rewrite B2SF_SF2B; apply br_equiv.
Qed.

Lemma mul_B (x y : binary_float prec emax) :
  SFmul prec emax (B2SF x) (B2SF y) = B2SF (Bmult mode_NE x y).
Proof.
  case x as [sx|sx| |sx mx ex Bx]; case y as [sy|sy| |sy my ey By]; [now trivial..|].
  simpl. rewrite B2SF_SF2B. apply bra_equiv.
Qed.

Lemma add_B (x y : binary_float prec emax) :
  SFadd prec emax (B2SF x) (B2SF y) = B2SF (Bplus mode_NE x y).
Proof.
  case x as [sx|sx| |sx mx ex Bx]; case y as [sy|sy| |sy my ey By];
    [now (trivial || simpl; case Bool.eqb)..|].
  apply bn_equiv.
Qed.

Lemma sub_B (x y : binary_float prec emax) :
  SFsub prec emax (B2SF x) (B2SF y) = B2SF (Bminus mode_NE x y).
Proof.
  case x as [sx|sx| |sx mx ex Bx]; case y as [sy|sy| |sy my ey By];
    [now (trivial || simpl; case Bool.eqb)..|].
  simpl. unfold Zminus. rewrite <- cond_Zopp_negb. apply bn_equiv.
Qed.

Lemma div_B (x y : binary_float prec emax) :
  SFdiv prec emax (B2SF x) (B2SF y) = B2SF (Bdiv mode_NE x y).
Proof.
  case x as [sx|sx| |sx mx ex Bx]; case y as [sy|sy| |sy my ey By];
    [now (trivial || simpl; case Bool.eqb)..|].
  simpl. rewrite B2SF_SF2B.
  set (melz := SFdiv_core_binary _ _ _ _ _ _). case melz as [[mz ez] lz].
  apply bra_equiv.
Qed.

Lemma sqrt_B (x : binary_float prec emax) :
  SFsqrt prec emax (B2SF x) = B2SF (Bsqrt mode_NE x).
Proof.
  case x as [sx|sx| |sx mx ex Bx]; [now (trivial || case sx)..|].
  case sx; [reflexivity|]. simpl. rewrite B2SF_SF2B.
  set (melz := SFsqrt_core_binary _ _ _ _). case melz as [[mz ez] lz].
  apply bra_equiv.
Qed.

(** Every valid double is the image of a Flocq double. *)
Lemma fv_B x : ieee_valid prec emax x -> exists b : binary_float prec emax, B2SF b = x.
Proof. intros H. exists (SF2B x H). apply B2SF_SF2B. Qed.

Lemma B_valid (b : binary_float prec emax) : ieee_valid prec emax (B2SF b).
Proof. apply valid_binary_B2SF. Qed.

Lemma ff_valid x : ieee_finite prec emax x -> ieee_valid prec emax x.
Proof. intros H. apply H. Qed.

Lemma ff_B x : ieee_finite prec emax x ->
  exists b : binary_float prec emax, B2SF b = x /\ is_finite b = true.
Proof.
  intros [H F]. exists (SF2B x H). rewrite B2SF_SF2B. split; [reflexivity|].
  now rewrite is_finite_SF2B.
Qed.

Lemma B_real (b : binary_float prec emax) : ieee_real (B2SF b) = B2R b.
Proof. apply SF2R_B2SF. Qed.

Lemma B_finite (b : binary_float prec emax) : ieee_finite prec emax (B2SF b) <-> is_finite b = true.
Proof.
  unfold ieee_finite. rewrite is_finite_SF_B2SF. split; [tauto|].
  intros H. split; [apply valid_binary_B2SF|exact H].
Qed.

Lemma fr_rep x : ieee_finite prec emax x -> repf (ieee_real x).
Proof.
  intros H. destruct (ff_B x H) as (b & <- & _). rewrite B_real.
  apply (generic_format_B2R prec emax b).
Qed.

Lemma fr_bound x : ieee_finite prec emax x -> Rabs (ieee_real x) < bpow radix2 emax.
Proof.
  intros H. destruct (ff_B x H) as (b & <- & _). rewrite B_real.
  apply abs_B2R_lt_emax.
Qed.

(** Validity is preserved by every operation. *)
Lemma add_valid x y : ieee_valid prec emax x -> ieee_valid prec emax y -> ieee_valid prec emax (SFadd prec emax x y).
Proof.
  intros H1 H2. destruct (fv_B x H1) as (a & <-), (fv_B y H2) as (b & <-).
  rewrite add_B. apply B_valid.
Qed.
Lemma sub_valid x y : ieee_valid prec emax x -> ieee_valid prec emax y -> ieee_valid prec emax (SFsub prec emax x y).
Proof.
  intros H1 H2. destruct (fv_B x H1) as (a & <-), (fv_B y H2) as (b & <-).
  rewrite sub_B. apply B_valid.
Qed.
Lemma mul_valid x y : ieee_valid prec emax x -> ieee_valid prec emax y -> ieee_valid prec emax (SFmul prec emax x y).
Proof.
  intros H1 H2. destruct (fv_B x H1) as (a & <-), (fv_B y H2) as (b & <-).
  rewrite mul_B. apply B_valid.
Qed.
Lemma div_valid x y : ieee_valid prec emax x -> ieee_valid prec emax y -> ieee_valid prec emax (SFdiv prec emax x y).
Proof.
  intros H1 H2. destruct (fv_B x H1) as (a & <-), (fv_B y H2) as (b & <-).
  rewrite div_B. apply B_valid.
Qed.

(** The operations on finite arguments. *)
Definition in_range (r : R) : Prop := Rabs r < bpow radix2 emax.

Lemma add_real x y : ieee_finite prec emax x -> ieee_finite prec emax y ->
  in_range (rndf (ieee_real x + ieee_real y)) ->
  ieee_finite prec emax (SFadd prec emax x y) /\
  ieee_real (SFadd prec emax x y) = rndf (ieee_real x + ieee_real y).
Proof.
  intros H1 H2 HR. destruct (ff_B x H1) as (a & <- & Fa), (ff_B y H2) as (b & <- & Fb).
  rewrite add_B, B_finite, !B_real in *.
  pose proof (Bplus_correct prec emax Hprec Hmax mode_NE a b Fa Fb) as C.
  rewrite Rlt_bool_true in C by exact HR. destruct C as (C1 & C2 & _).
  split; [exact C2|exact C1].
Qed.

Lemma sub_real x y : ieee_finite prec emax x -> ieee_finite prec emax y ->
  in_range (rndf (ieee_real x - ieee_real y)) ->
  ieee_finite prec emax (SFsub prec emax x y) /\
  ieee_real (SFsub prec emax x y) = rndf (ieee_real x - ieee_real y).
Proof.
  intros H1 H2 HR. destruct (ff_B x H1) as (a & <- & Fa), (ff_B y H2) as (b & <- & Fb).
  rewrite sub_B, B_finite, !B_real in *.
  pose proof (Bminus_correct prec emax Hprec Hmax mode_NE a b Fa Fb) as C.
  rewrite Rlt_bool_true in C by exact HR. destruct C as (C1 & C2 & _).
  split; [exact C2|exact C1].
Qed.

Lemma mul_real x y : ieee_finite prec emax x -> ieee_finite prec emax y ->
  in_range (rndf (ieee_real x * ieee_real y)) ->
  ieee_finite prec emax (SFmul prec emax x y) /\
  ieee_real (SFmul prec emax x y) = rndf (ieee_real x * ieee_real y).
Proof.
  intros H1 H2 HR. destruct (ff_B x H1) as (a & <- & Fa), (ff_B y H2) as (b & <- & Fb).
  rewrite mul_B, B_finite, !B_real in *.
  pose proof (Bmult_correct prec emax Hprec Hmax mode_NE a b) as C.
  rewrite Rlt_bool_true in C by exact HR. destruct C as (C1 & C2 & _).
  split; [rewrite C2, Fa, Fb; reflexivity|exact C1].
Qed.

Lemma div_real x y : ieee_finite prec emax x -> ieee_finite prec emax y -> ieee_real y <> 0 ->
  in_range (rndf (ieee_real x / ieee_real y)) ->
  ieee_finite prec emax (SFdiv prec emax x y) /\
  ieee_real (SFdiv prec emax x y) = rndf (ieee_real x / ieee_real y).
Proof.
  intros H1 H2 H0 HR. destruct (ff_B x H1) as (a & <- & Fa), (ff_B y H2) as (b & <- & Fb).
  rewrite div_B, B_finite, !B_real in *.
  pose proof (Bdiv_correct prec emax Hprec Hmax mode_NE a b H0) as C.
  rewrite Rlt_bool_true in C by exact HR. destruct C as (C1 & C2 & _).
  split; [rewrite C2; exact Fa|exact C1].
Qed.

Lemma sqrt_real x : ieee_finite prec emax x -> 0 <= ieee_real x ->
  ieee_finite prec emax (SFsqrt prec emax x) /\
  ieee_real (SFsqrt prec emax x) = rndf (sqrt (ieee_real x)).
Proof.
  intros H1 H0. destruct (ff_B x H1) as (a & <- & Fa).
  rewrite sqrt_B, B_finite, !B_real in *.
  pose proof (Bsqrt_correct prec emax Hprec Hmax mode_NE a) as (C1 & C2 & _).
  split; [|exact C1]. rewrite C2.
  destruct a as [s|s| |s m e B]; try reflexivity; try discriminate.
  destruct s; [|reflexivity]. exfalso. cbn in H0.
  apply (Rlt_not_le _ _ (F2R_lt_0 radix2 (Float radix2 (Zneg m) e) eq_refl)). exact H0.
Qed.

Lemma abs_real x : ieee_finite prec emax x ->
  ieee_finite prec emax (SFabs x) /\ ieee_real (SFabs x) = Rabs (ieee_real x).
Proof.
  intros H1. destruct (ff_B x H1) as (a & <- & Fa).
  replace (SFabs (B2SF a)) with (B2SF (Babs a)) by (destruct a; reflexivity).
  rewrite B_finite, !B_real, is_finite_Babs. split; [exact Fa|apply B2R_Babs].
Qed.

Lemma ltb_real x y : ieee_finite prec emax x -> ieee_finite prec emax y ->
  SFltb x y = Rlt_bool (ieee_real x) (ieee_real y).
Proof.
  intros H1 H2. destruct (ff_B x H1) as (a & <- & Fa), (ff_B y H2) as (b & <- & Fb).
  rewrite !B_real. apply (Bltb_correct prec emax a b Fa Fb).
Qed.

Lemma leb_real x y : ieee_finite prec emax x -> ieee_finite prec emax y ->
  SFleb x y = Rle_bool (ieee_real x) (ieee_real y).
Proof.
  intros H1 H2. destruct (ff_B x H1) as (a & <- & Fa), (ff_B y H2) as (b & <- & Fb).
  rewrite !B_real. apply (Bleb_correct prec emax a b Fa Fb).
Qed.

Lemma eqb_real x y : ieee_finite prec emax x -> ieee_finite prec emax y ->
  SFeqb x y = Req_bool (ieee_real x) (ieee_real y).
Proof.
  intros H1 H2. destruct (ff_B x H1) as (a & <- & Fa), (ff_B y H2) as (b & <- & Fb).
  rewrite !B_real. apply (Beqb_correct prec emax a b Fa Fb).
Qed.

(** Integers. *)
Lemma of_Z_real z : in_range (rndf (IZR z)) ->
  ieee_finite prec emax (ieee_of_Z prec emax z) /\ ieee_real (ieee_of_Z prec emax z) = rndf (IZR z).
Proof.
  intros HR. unfold ieee_of_Z. rewrite bn_equiv, B_finite, B_real.
  pose proof (binary_normalize_correct prec emax Hprec Hmax mode_NE z 0 false) as C. cbv zeta in C.
  replace (F2R (Float radix2 z 0)) with (IZR z) in C by (unfold F2R; cbn; ring).
  rewrite Rlt_bool_true in C by exact HR. destruct C as (C1 & C2 & _).
  split; [exact C2|exact C1].
Qed.

(** Rounding. *)
Lemma rnd_le x y : x <= y -> rndf x <= rndf y.
Proof. apply round_le; [exact vexpf|apply valid_rnd_N]. Qed.

Lemma rnd_rep x : repf x -> rndf x = x.
Proof. apply round_generic. apply valid_rnd_N. Qed.

Lemma rnd_is_rep x : repf (rndf x).
Proof. apply generic_format_round; [exact vexpf|apply valid_rnd_N]. Qed.

Lemma rnd_opp x : rndf (- x) = - rndf x.
Proof. apply round_NE_opp. Qed.

Lemma rnd_0 : rndf 0 = 0.
Proof. apply round_0. apply valid_rnd_N. Qed.

Lemma rnd_abs x : rndf (Rabs x) = Rabs (rndf x).
Proof. apply round_NE_abs. exact vexpf. Qed.


Lemma repf_bpow e : (emin <= e)%Z -> repf (bpow radix2 e).
Proof. intros H. apply generic_format_FLT_bpow; [exact Hprec|exact H]. Qed.

Lemma rnd_range x : Rabs x <= bpow radix2 (emax - 1) -> in_range (rndf x).
Proof.
  intros H. unfold in_range. rewrite <- rnd_abs. apply Rle_lt_trans with (bpow radix2 (emax - 1)); [|apply bpow_lt; lia].
  rewrite <- (rnd_rep (bpow radix2 (emax - 1))) by (apply repf_bpow; lia). apply rnd_le. exact H.
Qed.

(** A number of the format and the real it denotes. *)
Definition fdenotes (x : spec_float) (r : R) : Prop := ieee_finite prec emax x /\ ieee_real x = r.

Lemma of_Z_small z : (Z.abs z <= 2 ^ prec)%Z -> fdenotes (ieee_of_Z prec emax z) (IZR z).
Proof.
  intros H. assert (E : rndf (IZR z) = IZR z).
  { apply (integer_exact emin prec ltac:(lia) ltac:(lia) ZnearestE z); [apply valid_rnd_N|exact H]. }
  unfold fdenotes. rewrite <- E. apply of_Z_real. rewrite E. unfold in_range. rewrite <- abs_IZR.
  apply Rle_lt_trans with (IZR (2 ^ prec)); [apply IZR_le; exact H|].
  change (2 ^ prec)%Z with (Zpower radix2 prec). rewrite IZR_Zpower by lia. apply bpow_lt. lia.
Qed.

Lemma approx_ieee : approx (ieee prec emax) fdenotes (bpow radix2 (emax - 1)) (bpow radix2 (- prec)) (bpow radix2 (2 - emax - prec)) (Z.to_N (2 ^ prec)).
Proof.
  assert (P1 : (2 <= 2 ^ prec)%Z). { change 2%Z with (2 ^ 1)%Z at 1. apply Z.pow_le_mono_r; lia. }
  assert (N : forall x, near (bpow radix2 (- prec)) (bpow radix2 (2 - emax - prec)) x (rndf x)).
  { intros x. replace (2 - emax - prec)%Z with (emin - 1)%Z by lia. apply (rounding_nearest emin prec); lia. }
  constructor.
  - split; [apply bpow_ge_0|]. change 1 with (bpow radix2 0). apply bpow_le. lia.
  - apply bpow_ge_0.
  - apply of_Z_small. lia.
  - apply of_Z_small. lia.
  - intros k Hk. apply of_Z_small. lia.
  - intros x y a b [D <-] [E <-] H. eexists. split; [apply add_real; [exact D|exact E|apply rnd_range; exact H]|apply N].
  - intros x y a b [D <-] [E <-] H. eexists. split; [apply sub_real; [exact D|exact E|apply rnd_range; exact H]|apply N].
  - intros x y a b [D <-] [E <-] H. eexists. split; [apply mul_real; [exact D|exact E|apply rnd_range; exact H]|apply N].
  - intros x y a b [D <-] [E <-] Z H. eexists. split; [apply div_real; [exact D|exact E|exact Z|apply rnd_range; exact H]|apply N].
  - intros x y a b [Fx <-] [Fy <-]. apply ltb_real; assumption.
Qed.

Lemma fdenotes_list (l : list spec_float) : List.Forall (ieee_finite prec emax) l -> List.Forall2 fdenotes l (List.map ieee_real l).
Proof. induction 1 as [|x l Hx _ IH]; constructor; [split; [exact Hx|reflexivity]|exact IH]. Qed.
End Format.
