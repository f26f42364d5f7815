(** * The rounded formats and binary64 have bounded errors *)

From Coq Require Import Reals ZArith NArith Bool List Lra Lia.
From Coq Require Import Floats.SpecFloat.
From Flocq Require Import Core Relative.
From Verif Require Import Arith Rounded RoundedProofs Binary64 Binary64Cumulative Approx.
Import ListNotations.
Local Open Scope R_scope.

Section Rounded.
Variables emin prec : Z.
Hypothesis prec_pos : (0 < prec)%Z.
Hypothesis emin_neg : (emin <= 0)%Z.
Instance precgt : Prec_gt_0 prec := prec_pos.

Notation fexp := (FLT_exp emin prec).

Lemma ulp_bound x : ulp radix2 fexp x <= bpow radix2 (1 - prec) * Rabs x + bpow radix2 emin.
Proof.
  pose proof (bpow_gt_0 radix2 emin) as P.
  pose proof (Rmult_le_pos _ _ (bpow_ge_0 radix2 (1 - prec)) (Rabs_pos x)) as Q.
  destruct (Rlt_or_le (Rabs x) (bpow radix2 (emin + prec - 1))) as [L|L].
  - rewrite ulp_FLT_small; [lra|exact prec_pos|]. apply Rlt_le_trans with (1 := L). apply bpow_le. lia.
  - pose proof (ulp_FLT_le radix2 emin prec x L) as U. lra.
Qed.

Lemma rounding_any (mode : R -> Z) : Valid_rnd mode -> forall x,
  near (bpow radix2 (1 - prec)) (bpow radix2 emin) x (rounding emin prec mode x).
Proof.
  intros V x. unfold near, rounding. eapply Rle_trans; [apply error_le_ulp; [typeclasses eauto|exact V]|].
  apply ulp_bound.
Qed.

Lemma rounding_nearest x :
  near (bpow radix2 (- prec)) (bpow radix2 (emin - 1)) x (rounding emin prec ZnearestE x).
Proof.
  unfold near, rounding. eapply Rle_trans; [apply error_le_half_ulp; typeclasses eauto|].
  pose proof (ulp_bound x) as U.
  replace (bpow radix2 (- prec)) with (/ 2 * bpow radix2 (1 - prec)).
  replace (bpow radix2 (emin - 1)) with (/ 2 * bpow radix2 emin). lra.
  - unfold Zminus. rewrite bpow_plus. change (bpow radix2 (-(1))) with (/ 2). lra.
  - replace (- prec)%Z with ((1 - prec) + -(1))%Z by lia. rewrite bpow_plus.
    change (bpow radix2 (-(1))) with (/ 2). lra.
Qed.

Lemma integer_exact mode z : Valid_rnd mode -> (Z.abs z <= 2 ^ prec)%Z -> rounding emin prec mode (IZR z) = IZR z.
Proof.
  intros V H. apply round_generic; [exact V|].
  destruct (Z.eq_dec (Z.abs z) (2 ^ prec)) as [E|E].
  - assert (generic_format radix2 fexp (bpow radix2 prec)) as G.
    { apply generic_format_FLT_bpow; [exact prec_pos|lia]. }
    rewrite <- (IZR_Zpower radix2) in G by lia. change (radix2 ^ prec)%Z with (2 ^ prec)%Z in G.
    rewrite <- E in G. destruct (Z_le_gt_dec 0 z).
    + rewrite Z.abs_eq in G by lia. exact G.
    + replace z with (- Z.abs z)%Z by lia. rewrite opp_IZR. apply generic_format_opp. exact G.
  - apply generic_format_FLT. exists (Float radix2 z 0); cbn [Fnum Fexp].
    + unfold F2R. cbn. lra.
    + change (radix2 ^ prec)%Z with (2 ^ prec)%Z. lia.
    + exact emin_neg.
Qed.

Definition fval {emin prec mode} (x : rounded emin prec mode) (r : R) : Prop := x = Fin r.

Lemma approx_rounded (mode : R -> Z) (B e t : R) : Valid_rnd mode -> 0 <= e <= 1 -> 0 <= t ->
  (forall x, near e t x (rounding emin prec mode x)) ->
  approx (rounded emin prec mode) fval B e t (Z.to_N (2 ^ prec)).
Proof.
  intros V He Ht N.
  assert (P2 : (2 <= 2 ^ prec)%Z). { change 2%Z with (2 ^ 1)%Z at 1. apply Z.pow_le_mono_r; lia. }
  constructor; try assumption.
  - unfold fval. change (Fin (rounding emin prec mode (IZR 0)) = Fin 0). f_equal. apply integer_exact; [exact V|lia].
  - unfold fval. change (Fin (rounding emin prec mode (IZR 1)) = Fin 1). f_equal. apply integer_exact; [exact V|lia].
  - intros k Hk. unfold fval. change (Fin (rounding emin prec mode (IZR (Z.of_N k))) = Fin (IZR (Z.of_N k))).
    f_equal. apply integer_exact; [exact V|lia].
  - intros x y a b -> -> _. eexists. split; [reflexivity|]. apply N.
  - intros x y a b -> -> _. eexists. split; [reflexivity|]. apply N.
  - intros x y a b -> -> _. eexists. split; [reflexivity|]. apply N.
  - intros x y a b -> -> Hb _. cbn. rewrite Req_bool_false by exact Hb. eexists. split; [reflexivity|]. apply N.
  - intros x y a b -> ->. reflexivity.
Qed.

Lemma approx_any (mode : R -> Z) (B : R) : Valid_rnd mode ->
  approx (rounded emin prec mode) fval B (bpow radix2 (1 - prec)) (bpow radix2 emin) (Z.to_N (2 ^ prec)).
Proof.
  intros V. apply approx_rounded; [exact V| |apply bpow_ge_0|apply rounding_any; exact V].
  split; [apply bpow_ge_0|]. change 1 with (bpow radix2 0). apply bpow_le. lia.
Qed.

Lemma approx_nearest (B : R) :
  approx (rounded emin prec ZnearestE) fval B (bpow radix2 (- prec)) (bpow radix2 (emin - 1)) (Z.to_N (2 ^ prec)).
Proof.
  apply approx_rounded; [typeclasses eauto| |apply bpow_ge_0|exact rounding_nearest].
  split; [apply bpow_ge_0|]. change 1 with (bpow radix2 0). apply bpow_le. lia.
Qed.

End Rounded.

Lemma approx_b64 : approx b64num denotes (bpow radix2 1023) (bpow radix2 (-53)) (bpow radix2 (-1075)) (Z.to_N (2 ^ 53)).
Proof.
  assert (N : forall x, near (bpow radix2 (-53)) (bpow radix2 (-1075)) x (rnd64 x)).
  { intros x. apply (rounding_nearest (-1074) 53); lia. }
  assert (I : forall x, Rabs x <= bpow radix2 1023 -> in_range (rnd64 x)).
  { intros x H. apply (in_range_rnd _ (bpow radix2 1023)); [apply rep64_bpow; lia|exact H|apply bpow_lt; lia]. }
  constructor.
  - split; [apply bpow_ge_0|]. change 1 with (bpow radix2 0). apply bpow_le. lia.
  - apply bpow_ge_0.
  - apply denotes_zero.
  - apply of_Z_exact. lia.
  - intros k Hk. apply of_Z_exact. lia.
  - intros x y a b D E H. eexists. split; [apply denotes_add; [exact D|exact E|apply I; exact H]|apply N].
  - intros x y a b D E H. eexists. split; [apply denotes_sub; [exact D|exact E|apply I; exact H]|apply N].
  - intros x y a b D E H. eexists. split; [apply denotes_mul; [exact D|exact E|apply I; exact H]|apply N].
  - intros x y a b D E Z H. eexists. split; [apply denotes_div; [exact D|exact E|exact Z|apply I; exact H]|apply N].
  - intros x y a b [Fx <-] [Fy <-]. apply ltb_real; assumption.
Qed.
