(** * Correctly rounded arithmetic

    A value type in which every operation whose exact result is at most [B] in
    magnitude returns the nearest number of a binary floating-point format.  The
    rounded formats and binary64 are instances. *)

From Coq Require Import Reals ZArith NArith Bool List Lia Lra.
From Coq Require Import Floats.SpecFloat.
From Flocq Require Import Core BinarySingleNaN.
From Verif Require Import Arith Rounded RoundedProofs Binary64 Binary64Cumulative ApproxInstances SpecOrder.
Local Open Scope R_scope.

Record correct (F : num) (val : F -> R -> Prop) (emin prec : Z) (B : R) : Prop := Correct {
  co_fmt : forall x a, val x a -> generic_format radix2 (FLT_exp emin prec) a;
  co_inj : forall x a b, val x a -> val x b -> a = b;
  co_add : forall x y a b, val x a -> val y b -> Rabs (a + b) <= B ->
    val (nadd x y) (rounding emin prec ZnearestE (a + b));
  co_sub : forall x y a b, val x a -> val y b -> Rabs (a - b) <= B ->
    val (nsub x y) (rounding emin prec ZnearestE (a - b));
  co_mul : forall x y a b, val x a -> val y b -> Rabs (a * b) <= B ->
    val (nmul x y) (rounding emin prec ZnearestE (a * b));
  co_div : forall x y a b, val x a -> val y b -> b <> 0 -> Rabs (a / b) <= B ->
    val (ndiv x y) (rounding emin prec ZnearestE (a / b));
  co_ofsz : forall k, (k < szmod)%N ->
    val (nofsz k) (rounding emin prec ZnearestE (IZR (Z.of_N k)));
  co_ofz : forall z, (Z.abs z <= 2)%Z -> val (nofz z) (IZR z);
  co_lt : forall x y a b, val x a -> val y b -> nlt x y = Rlt_bool a b;
  co_le : forall x y a b, val x a -> val y b -> nle x y = Rle_bool a b;
  co_floor : forall x a, val x a -> 0 <= a <= bpow radix2 prec -> val (nfloor x) (IZR (Zfloor a));
  co_tosz : forall x a, val x a -> 0 <= a < bpow radix2 63 -> ntosz x = Some (Z.to_N (Zfloor a))
}.

(** The numbers of the format *)
Definition rval {emin prec mode} (x : rounded emin prec mode) (r : R) : Prop :=
  x = Fin r /\ generic_format radix2 (FLT_exp emin prec) r.

Lemma correct_rounded emin prec B : (0 < prec)%Z -> (emin <= 0)%Z ->
  correct (rounded emin prec ZnearestE) rval emin prec B.
Proof.
  intros Hp He.
  assert (G : Prec_gt_0 prec) by exact Hp.
  assert (X : forall x, generic_format radix2 (FLT_exp emin prec) (rounding emin prec ZnearestE x)).
  { intros x. apply rnd_fmt; typeclasses eauto. }
  assert (P2 : (2 <= 2 ^ prec)%Z). { change 2%Z with (2 ^ 1)%Z at 1. apply Z.pow_le_mono_r; lia. }
  constructor.
  - intros x a [_ H]. exact H.
  - intros x a b [-> _] [H _]. injection H as ->. reflexivity.
  - intros x y a b [-> _] [-> _] _. split; [reflexivity|apply X].
  - intros x y a b [-> _] [-> _] _. split; [reflexivity|apply X].
  - intros x y a b [-> _] [-> _] _. split; [reflexivity|apply X].
  - intros x y a b [-> _] [-> _] N _. split; [|apply X]. cbn. rewrite Req_bool_false by exact N. reflexivity.
  - intros k _. split; [reflexivity|apply X].
  - intros z Hz. pose proof (integer_exact emin prec Hp He ZnearestE z ltac:(typeclasses eauto) ltac:(lia)) as E.
    split; [|rewrite <- E; apply X]. change (Fin (rounding emin prec ZnearestE (IZR z)) = Fin (IZR z)).
    rewrite E. reflexivity.
  - intros x y a b [-> _] [-> _]. reflexivity.
  - intros x y a b [-> _] [-> _]. reflexivity.
  - intros x a [-> _] [A0 A1]. split; [reflexivity|].
    pose proof (Zfloor_lb a) as Lb.
    rewrite <- (integer_exact emin prec Hp He ZnearestE (Zfloor a)); [apply X|typeclasses eauto|].
    assert (Z0 : (0 <= Zfloor a)%Z) by (apply Zfloor_lub; exact A0).
    rewrite Z.abs_eq by exact Z0. apply le_IZR. change (2 ^ prec)%Z with (radix2 ^ prec)%Z.
    rewrite IZR_Zpower by lia. lra.
  - intros x a [-> _] [A0 A1]. cbn. unfold xtosz.
    assert (Z0 : (0 <= Zfloor a)%Z) by (apply Zfloor_lub; exact A0).
    rewrite Ztrunc_floor by exact A0. rewrite (proj2 (Z.leb_le _ _) Z0).
    rewrite (proj2 (Z.ltb_lt _ _)); [reflexivity|].
    apply Z.lt_trans with (2 ^ 63)%Z; [|reflexivity].
    apply lt_IZR. apply Rle_lt_trans with a; [apply Zfloor_lb|exact A1].
Qed.

(** [std::floor] and the conversion to size_t in binary64 *)
Lemma zfloor_pos m e : (e < 0)%Z -> Zfloor (F2R (Float radix2 (Zpos m) e)) = (Zpos m / 2 ^ (- e))%Z.
Proof.
  intros He. rewrite <- (Zfloor_div (Zpos m) (2 ^ (- e))) by (apply Z.pow_nonzero; lia).
  f_equal. unfold F2R. cbn [Fnum Fexp]. unfold Rdiv. f_equal.
  replace e with (- - e)%Z at 1 by lia. rewrite bpow_opp. f_equal.
  change (2 ^ (- e))%Z with (radix2 ^ (- e))%Z. rewrite IZR_Zpower by lia. reflexivity.
Qed.

Lemma zfloor_int m e : (0 <= e)%Z -> F2R (Float radix2 (Zpos m) e) = IZR (Zpos m * 2 ^ e).
Proof.
  intros He. unfold F2R. cbn [Fnum Fexp]. rewrite mult_IZR. f_equal.
  change (2 ^ e)%Z with (radix2 ^ e)%Z. rewrite IZR_Zpower by lia. reflexivity.
Qed.

Lemma denotes_floor x a : denotes x a -> 0 <= a <= bpow radix2 53 ->
  denotes (b64_floor x) (IZR (Zfloor a)).
Proof.
  intros [Fx Rx] [A0 A1]. pose proof Fx as Fx'.
  destruct x as [s|s| |s m e]; try (destruct Fx; discriminate).
  - unfold b64_real in Rx. cbn in Rx. subst a. rewrite (Zfloor_IZR 0). split; [exact Fx'|reflexivity].
  - unfold b64_real in Rx. cbn [SF2R] in Rx. destruct s.
    { exfalso. assert (F2R (Float radix2 (cond_Zopp true (Zpos m)) e) < 0) by (apply F2R_lt_0; reflexivity). lra. }
    cbn [cond_Zopp] in Rx. unfold b64_floor. destruct (Z.leb_spec 0 e) as [He|He].
    + split; [exact Fx'|]. unfold b64_real. cbn [SF2R cond_Zopp].
      rewrite <- Rx, zfloor_int by exact He. rewrite Zfloor_IZR. reflexivity.
    + cbn [cond_Zopp]. rewrite <- (zfloor_pos m e He), Rx. apply of_Z_exact.
      assert (Z0 : (0 <= Zfloor a)%Z) by (apply Zfloor_lub; exact A0).
      rewrite Z.abs_eq by exact Z0. apply le_IZR. change (2 ^ 53)%Z with (radix2 ^ 53)%Z.
      rewrite IZR_Zpower by lia. pose proof (Zfloor_lb a). lra.
Qed.

Lemma denotes_tosz x a : denotes x a -> 0 <= a < bpow radix2 63 ->
  b64_tosz x = Some (Z.to_N (Zfloor a)).
Proof.
  intros [Fx Rx] [A0 A1].
  destruct x as [s|s| |s m e]; try (destruct Fx; discriminate).
  - unfold b64_real in Rx. cbn in Rx. subst a. rewrite (Zfloor_IZR 0). reflexivity.
  - unfold b64_real in Rx. cbn [SF2R] in Rx. destruct s.
    { exfalso. assert (F2R (Float radix2 (cond_Zopp true (Zpos m)) e) < 0) by (apply F2R_lt_0; reflexivity). lra. }
    cbn [cond_Zopp] in Rx. unfold b64_tosz.
    assert (E : (if (0 <=? e)%Z then (Zpos m * 2 ^ e)%Z else (Zpos m / 2 ^ (- e))%Z) = Zfloor a).
    { destruct (Z.leb_spec 0 e) as [He|He].
      - rewrite <- Rx, zfloor_int by exact He. rewrite Zfloor_IZR. reflexivity.
      - rewrite <- Rx. symmetry. apply zfloor_pos. exact He. }
    rewrite E. rewrite (proj2 (Z.ltb_lt _ _)); [reflexivity|].
    apply Z.lt_trans with (2 ^ 63)%Z; [|reflexivity].
    apply lt_IZR. apply Rle_lt_trans with a; [apply Zfloor_lb|exact A1].
Qed.

Lemma correct_b64 : correct b64num denotes (-1074) 53 (bpow radix2 1023).
Proof.
  assert (I : forall x, Rabs x <= bpow radix2 1023 -> in_range (rnd64 x)).
  { intros x H. apply (in_range_rnd _ (bpow radix2 1023)); [apply rep64_bpow; lia|exact H|apply bpow_lt; lia]. }
  constructor.
  - intros x a D. apply (denotes_rep x a D).
  - intros x a b [_ <-] [_ <-]. reflexivity.
  - intros x y a b D E H. apply denotes_add; [exact D|exact E|apply I; exact H].
  - intros x y a b D E H. apply denotes_sub; [exact D|exact E|apply I; exact H].
  - intros x y a b D E H. apply denotes_mul; [exact D|exact E|apply I; exact H].
  - intros x y a b D E Z H. apply denotes_div; [exact D|exact E|exact Z|apply I; exact H].
  - intros k Hk. apply (of_Z_real (Z.of_N k)). apply I.
    rewrite Rabs_pos_eq by (apply IZR_le; lia).
    apply Rle_trans with (bpow radix2 64); [|apply bpow_le; lia].
    rewrite <- szmod_bpow. apply IZR_le. lia.
  - intros z Hz. apply of_Z_exact. lia.
  - intros x y a b [Fx <-] [Fy <-]. apply ltb_real; assumption.
  - intros x y a b [Fx <-] [Fy <-]. apply leb_real; assumption.
  - exact denotes_floor.
  - exact denotes_tosz.
Qed.

Lemma correct_total F val emin prec B : correct F val emin prec B ->
  total_on F (fun x => exists a, val x a).
Proof.
  intros C. constructor.
  - intros x y [a A] [b E]. rewrite (co_le _ _ _ _ _ C x y a b A E), (co_lt _ _ _ _ _ C y x b a E A).
    destruct (Rle_bool_spec a b), (Rlt_bool_spec b a); cbn; try reflexivity; lra.
  - intros x y [a A] [b E]. rewrite (co_lt _ _ _ _ _ C x y a b A E), (co_lt _ _ _ _ _ C y x b a E A).
    destruct (Rlt_bool_spec a b), (Rlt_bool_spec b a); intros; try congruence; lra.
  - intros x y z [a A] [b E] [c G].
    rewrite (co_le _ _ _ _ _ C x y a b A E), (co_le _ _ _ _ _ C y z b c E G), (co_le _ _ _ _ _ C x z a c A G).
    destruct (Rle_bool_spec a b), (Rle_bool_spec b c), (Rle_bool_spec a c); intros; try congruence; lra.
Qed.
