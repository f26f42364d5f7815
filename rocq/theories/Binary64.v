(** * Binary64 as rounded real arithmetic

    Relates the executable binary64 instance [b64num] of Arith.v (SpecFloat
    from the standard library) to real numbers through Flocq: on finite
    arguments every operation is the correctly rounded real operation, unless
    the rounded result is out of range. *)

From Coq Require Import Reals ZArith NArith Bool Lia Lra.
From Coq Require Import Floats.SpecFloat.
From Flocq Require Import Core.
From Flocq Require Import IEEE754.BinarySingleNaN.
From Verif Require Import Arith.
Local Open Scope R_scope.

(** A finite double: zero or m * 2^e with the canonical mantissa and exponent
    of the format. *)
Definition b64_finite (x : b64) : Prop :=
  valid_binary 53 1024 x = true /\ is_finite_SF x = true.

(** A double: finite, an infinity or NaN. *)
Definition b64_valid (x : b64) : Prop := valid_binary 53 1024 x = true.

(** The real number denoted by a finite double. *)
Definition b64_real (x : b64) : R := SF2R radix2 x.

(** Rounding to nearest, ties to even, in the format with 53 bits of precision
    and smallest positive number 2^-1074; no upper bound. *)
Definition rnd64 (x : R) : R := round radix2 (FLT_exp (-1074) 53) ZnearestE x.

(** The numbers of that format. *)
Definition rep64 (x : R) : Prop := generic_format radix2 (FLT_exp (-1074) 53) x.

Local Instance Hprec : FLX.Prec_gt_0 53 := eq_refl _.
Local Instance Hmax : Prec_lt_emax 53 1024 := eq_refl _.
#[global] Instance vexp64 : Valid_exp (FLT_exp (-1074) 53).
Proof. apply FLT_exp_valid. exact Hprec. Qed.
#[global] Instance mexp64 : Monotone_exp (FLT_exp (-1074) 53).
Proof. apply FLT_exp_monotone. Qed.

Lemma rne_equiv s m l : round_nearest_even m l = choice_mode mode_NE s m l.
Proof.
  case l; [reflexivity|intro c]. case c; [|reflexivity..].
  now simpl; unfold Round.cond_incr; case Z.even.
Qed.

Lemma bra_equiv sx mx ex lx :
  SpecFloat.binary_round_aux 53 1024 sx mx ex lx
  = binary_round_aux 53 1024 mode_NE sx mx ex lx.
Proof.
  unfold SpecFloat.binary_round_aux, binary_round_aux.
  set (mrse' := shr_fexp _ _ _). case mrse'; intros mrs' e'; simpl.
  now rewrite (rne_equiv sx).
Qed.

Lemma br_equiv s m e :
  SpecFloat.binary_round 53 1024 s m e = binary_round 53 1024 mode_NE s m e.
Proof.
  unfold SpecFloat.binary_round, binary_round, shl_align_fexp.
  set (mez := shl_align _ _ _); case mez as [mz ez]. apply bra_equiv.
Qed.

Lemma bn_equiv m e szero :
  SpecFloat.binary_normalize 53 1024 m e szero
  = B2SF (binary_normalize 53 1024 Hprec Hmax mode_NE m e szero).
Proof.
  case m as [ | p | p].
  - now simpl.
  - simpl; rewrite B2SF_SF2B; apply br_equiv.
  - simpl; rewrite B2SF_SF2B; apply br_equiv.
Qed.

Lemma mul_B (x y : binary_float 53 1024) :
  SFmul 53 1024 (B2SF x) (B2SF y) = B2SF (Bmult mode_NE x y).
Proof.
  case x as [sx|sx| |sx mx ex Bx]; case y as [sy|sy| |sy my ey By]; [now trivial..|].
  simpl. rewrite B2SF_SF2B. apply bra_equiv.
Qed.

Lemma add_B (x y : binary_float 53 1024) :
  SFadd 53 1024 (B2SF x) (B2SF y) = B2SF (Bplus mode_NE x y).
Proof.
  case x as [sx|sx| |sx mx ex Bx]; case y as [sy|sy| |sy my ey By];
    [now (trivial || simpl; case Bool.eqb)..|].
  apply bn_equiv.
Qed.

Lemma sub_B (x y : binary_float 53 1024) :
  SFsub 53 1024 (B2SF x) (B2SF y) = B2SF (Bminus mode_NE x y).
Proof.
  case x as [sx|sx| |sx mx ex Bx]; case y as [sy|sy| |sy my ey By];
    [now (trivial || simpl; case Bool.eqb)..|].
  simpl. unfold Zminus. rewrite <- cond_Zopp_negb. apply bn_equiv.
Qed.

Lemma div_B (x y : binary_float 53 1024) :
  SFdiv 53 1024 (B2SF x) (B2SF y) = B2SF (Bdiv mode_NE x y).
Proof.
  case x as [sx|sx| |sx mx ex Bx]; case y as [sy|sy| |sy my ey By];
    [now (trivial || simpl; case Bool.eqb)..|].
  simpl. rewrite B2SF_SF2B.
  set (melz := SFdiv_core_binary _ _ _ _ _ _). case melz as [[mz ez] lz].
  apply bra_equiv.
Qed.

Lemma sqrt_B (x : binary_float 53 1024) :
  SFsqrt 53 1024 (B2SF x) = B2SF (Bsqrt mode_NE x).
Proof.
  case x as [sx|sx| |sx mx ex Bx]; [now (trivial || case sx)..|].
  case sx; [reflexivity|]. simpl. rewrite B2SF_SF2B.
  set (melz := SFsqrt_core_binary _ _ _ _). case melz as [[mz ez] lz].
  apply bra_equiv.
Qed.

(** Every valid double is the image of a Flocq double. *)
Lemma b64_valid_B x : b64_valid x -> exists b : binary_float 53 1024, B2SF b = x.
Proof. intros H. exists (SF2B x H). apply B2SF_SF2B. Qed.

Lemma B_valid (b : binary_float 53 1024) : b64_valid (B2SF b).
Proof. apply valid_binary_B2SF. Qed.

Lemma b64_finite_valid x : b64_finite x -> b64_valid x.
Proof. intros H. apply H. Qed.

Lemma b64_finite_B x : b64_finite x ->
  exists b : binary_float 53 1024, B2SF b = x /\ is_finite b = true.
Proof.
  intros [H F]. exists (SF2B x H). rewrite B2SF_SF2B. split; [reflexivity|].
  now rewrite is_finite_SF2B.
Qed.

Lemma B_real (b : binary_float 53 1024) : b64_real (B2SF b) = B2R b.
Proof. apply SF2R_B2SF. Qed.

Lemma B_finite (b : binary_float 53 1024) : b64_finite (B2SF b) <-> is_finite b = true.
Proof.
  unfold b64_finite. rewrite is_finite_SF_B2SF. split; [tauto|].
  intros H. split; [apply valid_binary_B2SF|exact H].
Qed.

Lemma b64_real_rep x : b64_finite x -> rep64 (b64_real x).
Proof.
  intros H. destruct (b64_finite_B x H) as (b & <- & _). rewrite B_real.
  apply (generic_format_B2R 53 1024 b).
Qed.

Lemma b64_real_bound x : b64_finite x -> Rabs (b64_real x) < bpow radix2 1024.
Proof.
  intros H. destruct (b64_finite_B x H) as (b & <- & _). rewrite B_real.
  apply abs_B2R_lt_emax.
Qed.

(** Validity is preserved by every operation. *)
Lemma add_valid x y : b64_valid x -> b64_valid y -> b64_valid (SFadd 53 1024 x y).
Proof.
  intros H1 H2. destruct (b64_valid_B x H1) as (a & <-), (b64_valid_B y H2) as (b & <-).
  rewrite add_B. apply B_valid.
Qed.
Lemma sub_valid x y : b64_valid x -> b64_valid y -> b64_valid (SFsub 53 1024 x y).
Proof.
  intros H1 H2. destruct (b64_valid_B x H1) as (a & <-), (b64_valid_B y H2) as (b & <-).
  rewrite sub_B. apply B_valid.
Qed.
Lemma mul_valid x y : b64_valid x -> b64_valid y -> b64_valid (SFmul 53 1024 x y).
Proof.
  intros H1 H2. destruct (b64_valid_B x H1) as (a & <-), (b64_valid_B y H2) as (b & <-).
  rewrite mul_B. apply B_valid.
Qed.
Lemma div_valid x y : b64_valid x -> b64_valid y -> b64_valid (SFdiv 53 1024 x y).
Proof.
  intros H1 H2. destruct (b64_valid_B x H1) as (a & <-), (b64_valid_B y H2) as (b & <-).
  rewrite div_B. apply B_valid.
Qed.

(** The operations on finite arguments. *)
Definition in_range (r : R) : Prop := Rabs r < bpow radix2 1024.

Lemma add_real x y : b64_finite x -> b64_finite y ->
  in_range (rnd64 (b64_real x + b64_real y)) ->
  b64_finite (SFadd 53 1024 x y) /\
  b64_real (SFadd 53 1024 x y) = rnd64 (b64_real x + b64_real y).
Proof.
  intros H1 H2 HR. destruct (b64_finite_B x H1) as (a & <- & Fa), (b64_finite_B y H2) as (b & <- & Fb).
  rewrite add_B, B_finite, !B_real in *.
  pose proof (Bplus_correct 53 1024 Hprec Hmax mode_NE a b Fa Fb) as C.
  rewrite Rlt_bool_true in C by exact HR. destruct C as (C1 & C2 & _).
  split; [exact C2|exact C1].
Qed.

Lemma sub_real x y : b64_finite x -> b64_finite y ->
  in_range (rnd64 (b64_real x - b64_real y)) ->
  b64_finite (SFsub 53 1024 x y) /\
  b64_real (SFsub 53 1024 x y) = rnd64 (b64_real x - b64_real y).
Proof.
  intros H1 H2 HR. destruct (b64_finite_B x H1) as (a & <- & Fa), (b64_finite_B y H2) as (b & <- & Fb).
  rewrite sub_B, B_finite, !B_real in *.
  pose proof (Bminus_correct 53 1024 Hprec Hmax mode_NE a b Fa Fb) as C.
  rewrite Rlt_bool_true in C by exact HR. destruct C as (C1 & C2 & _).
  split; [exact C2|exact C1].
Qed.

Lemma mul_real x y : b64_finite x -> b64_finite y ->
  in_range (rnd64 (b64_real x * b64_real y)) ->
  b64_finite (SFmul 53 1024 x y) /\
  b64_real (SFmul 53 1024 x y) = rnd64 (b64_real x * b64_real y).
Proof.
  intros H1 H2 HR. destruct (b64_finite_B x H1) as (a & <- & Fa), (b64_finite_B y H2) as (b & <- & Fb).
  rewrite mul_B, B_finite, !B_real in *.
  pose proof (Bmult_correct 53 1024 Hprec Hmax mode_NE a b) as C.
  rewrite Rlt_bool_true in C by exact HR. destruct C as (C1 & C2 & _).
  split; [rewrite C2, Fa, Fb; reflexivity|exact C1].
Qed.

Lemma div_real x y : b64_finite x -> b64_finite y -> b64_real y <> 0 ->
  in_range (rnd64 (b64_real x / b64_real y)) ->
  b64_finite (SFdiv 53 1024 x y) /\
  b64_real (SFdiv 53 1024 x y) = rnd64 (b64_real x / b64_real y).
Proof.
  intros H1 H2 H0 HR. destruct (b64_finite_B x H1) as (a & <- & Fa), (b64_finite_B y H2) as (b & <- & Fb).
  rewrite div_B, B_finite, !B_real in *.
  pose proof (Bdiv_correct 53 1024 Hprec Hmax mode_NE a b H0) as C.
  rewrite Rlt_bool_true in C by exact HR. destruct C as (C1 & C2 & _).
  split; [rewrite C2; exact Fa|exact C1].
Qed.

Lemma sqrt_real x : b64_finite x -> 0 <= b64_real x ->
  b64_finite (SFsqrt 53 1024 x) /\
  b64_real (SFsqrt 53 1024 x) = rnd64 (sqrt (b64_real x)).
Proof.
  intros H1 H0. destruct (b64_finite_B x H1) as (a & <- & Fa).
  rewrite sqrt_B, B_finite, !B_real in *.
  pose proof (Bsqrt_correct 53 1024 Hprec Hmax mode_NE a) as (C1 & C2 & _).
  split; [|exact C1]. rewrite C2.
  destruct a as [s|s| |s m e B]; try reflexivity; try discriminate.
  destruct s; [|reflexivity]. exfalso. cbn in H0.
  apply (Rlt_not_le _ _ (F2R_lt_0 radix2 (Float radix2 (Zneg m) e) eq_refl)). exact H0.
Qed.

Lemma abs_real x : b64_finite x ->
  b64_finite (SFabs x) /\ b64_real (SFabs x) = Rabs (b64_real x).
Proof.
  intros H1. destruct (b64_finite_B x H1) as (a & <- & Fa).
  replace (SFabs (B2SF a)) with (B2SF (Babs a)) by (destruct a; reflexivity).
  rewrite B_finite, !B_real, is_finite_Babs. split; [exact Fa|apply B2R_Babs].
Qed.

Lemma ltb_real x y : b64_finite x -> b64_finite y ->
  SFltb x y = Rlt_bool (b64_real x) (b64_real y).
Proof.
  intros H1 H2. destruct (b64_finite_B x H1) as (a & <- & Fa), (b64_finite_B y H2) as (b & <- & Fb).
  rewrite !B_real. apply (Bltb_correct 53 1024 a b Fa Fb).
Qed.

Lemma leb_real x y : b64_finite x -> b64_finite y ->
  SFleb x y = Rle_bool (b64_real x) (b64_real y).
Proof.
  intros H1 H2. destruct (b64_finite_B x H1) as (a & <- & Fa), (b64_finite_B y H2) as (b & <- & Fb).
  rewrite !B_real. apply (Bleb_correct 53 1024 a b Fa Fb).
Qed.

Lemma eqb_real x y : b64_finite x -> b64_finite y ->
  SFeqb x y = Req_bool (b64_real x) (b64_real y).
Proof.
  intros H1 H2. destruct (b64_finite_B x H1) as (a & <- & Fa), (b64_finite_B y H2) as (b & <- & Fb).
  rewrite !B_real. apply (Beqb_correct 53 1024 a b Fa Fb).
Qed.

(** Integers. *)
Lemma of_Z_real z : in_range (rnd64 (IZR z)) ->
  b64_finite (b64_of_Z z) /\ b64_real (b64_of_Z z) = rnd64 (IZR z).
Proof.
  intros HR. unfold b64_of_Z. rewrite bn_equiv, B_finite, B_real.
  pose proof (binary_normalize_correct 53 1024 Hprec Hmax mode_NE z 0 false) as C. cbv zeta in C.
  replace (F2R (Float radix2 z 0)) with (IZR z) in C by (unfold F2R; cbn; ring).
  rewrite Rlt_bool_true in C by exact HR. destruct C as (C1 & C2 & _).
  split; [exact C2|exact C1].
Qed.

(** Overflow. *)
Lemma sub_overflow x y : b64_finite x -> b64_finite y ->
  ~ in_range (rnd64 (b64_real x - b64_real y)) ->
  exists s, SFsub 53 1024 x y = S754_infinity s.
Proof.
  intros H1 H2 HR. destruct (b64_finite_B x H1) as (a & <- & Fa), (b64_finite_B y H2) as (b & <- & Fb).
  rewrite sub_B, !B_real in *.
  pose proof (Bminus_correct 53 1024 Hprec Hmax mode_NE a b Fa Fb) as C.
  rewrite Rlt_bool_false in C. 2:{ apply Rnot_lt_le. exact HR. }
  destruct C as (C1 & _). exists (Bsign a). exact C1.
Qed.

Lemma mul_overflow x y : b64_finite x -> b64_finite y ->
  ~ in_range (rnd64 (b64_real x * b64_real y)) ->
  SFmul 53 1024 x y = S754_infinity (xorb (sign_SF x) (sign_SF y)).
Proof.
  intros H1 H2 HR. destruct (b64_finite_B x H1) as (a & <- & Fa), (b64_finite_B y H2) as (b & <- & Fb).
  rewrite mul_B, !B_real in *.
  pose proof (Bmult_correct 53 1024 Hprec Hmax mode_NE a b) as C.
  rewrite Rlt_bool_false in C. 2:{ apply Rnot_lt_le. exact HR. }
  cbn [binary_overflow overflow_to_inf] in C. etransitivity; [exact C|].
  destruct a, b; reflexivity.
Qed.

Lemma sign_real x : b64_finite x -> 0 < b64_real x -> sign_SF x = false.
Proof.
  intros _. destruct x as [s|s| |s m e]; cbn [b64_real SF2R]; try (intros H; unfold b64_real in H; cbn in H; lra).
  destruct s; [|reflexivity]. unfold b64_real. cbn. intros H. exfalso.
  pose proof (F2R_lt_0 radix2 (Float radix2 (Zneg m) e) eq_refl). lra.
Qed.

(** Rounding. *)
Lemma rnd64_le x y : x <= y -> rnd64 x <= rnd64 y.
Proof. apply round_le; [exact vexp64|apply valid_rnd_N]. Qed.

Lemma rnd64_rep x : rep64 x -> rnd64 x = x.
Proof. apply round_generic. apply valid_rnd_N. Qed.

Lemma rnd64_is_rep x : rep64 (rnd64 x).
Proof. apply generic_format_round; [exact vexp64|apply valid_rnd_N]. Qed.

Lemma rnd64_opp x : rnd64 (- x) = - rnd64 x.
Proof. apply round_NE_opp. Qed.

Lemma rnd64_0 : rnd64 0 = 0.
Proof. apply round_0. apply valid_rnd_N. Qed.

Lemma rnd64_abs x : rnd64 (Rabs x) = Rabs (rnd64 x).
Proof. apply round_NE_abs. exact vexp64. Qed.

Lemma rep64_IZR z : (Z.abs z <= 2 ^ 53)%Z -> rep64 (IZR z).
Proof.
  intros H. apply generic_format_FLT.
  destruct (Z.eq_dec (Z.abs z) (2 ^ 53)) as [E|E].
  - apply (FLT_spec _ _ _ _ (Float radix2 (Z.sgn z * 2 ^ 52) 1)); cbn [Fnum Fexp].
    + unfold F2R. cbn [Fnum Fexp]. change (bpow radix2 1) with (IZR 2). rewrite <- mult_IZR.
      f_equal. lia.
    + destruct z; cbn; lia.
    + lia.
  - apply (FLT_spec _ _ _ _ (Float radix2 z 0)); cbn [Fnum Fexp].
    + unfold F2R. cbn. ring.
    + change (Zpower radix2 53) with (2 ^ 53)%Z. lia.
    + lia.
Qed.

Lemma rep64_bpow e : (-1074 <= e)%Z -> rep64 (bpow radix2 e).
Proof. intros H. apply generic_format_FLT_bpow; [exact Hprec|exact H]. Qed.

Lemma rep64_0 : rep64 0.
Proof. apply generic_format_0. Qed.

Lemma rep64_opp x : rep64 x -> rep64 (- x).
Proof. apply generic_format_opp. Qed.

Lemma rep64_abs x : rep64 x -> rep64 (Rabs x).
Proof. apply generic_format_abs. Qed.

(** Small integers are exact. *)
Lemma of_Z_exact z : (Z.abs z <= 2 ^ 53)%Z ->
  b64_finite (b64_of_Z z) /\ b64_real (b64_of_Z z) = IZR z.
Proof.
  intros H. pose proof (rnd64_rep _ (rep64_IZR z H)) as E. rewrite <- E.
  apply of_Z_real. unfold in_range. rewrite E, <- abs_IZR.
  apply Rle_lt_trans with (IZR (2 ^ 53)); [apply IZR_le; exact H|].
  change (2 ^ 53)%Z with (Zpower radix2 53). rewrite IZR_Zpower by lia.
  apply bpow_lt. lia.
Qed.
