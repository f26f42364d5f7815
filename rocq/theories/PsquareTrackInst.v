(** * P-square positions: the arithmetics that follow the quantiles *)

From Coq Require Import QArith.
From Coq Require Import Reals ZArith NArith Bool List Lia Lra Sorting.Sorted SpecFloat.
From Flocq Require Import Core Plus_error Mult_error Relative IEEE754.BinarySingleNaN.
From Verif Require Import Arith History HistoryLemmas Psquare PsquareLemmas PsquareGeneric SpecOrder Ieee IeeeProofs StallProofs
  PsquareTrack PsquareTrackRounded.
Import ListNotations.
Local Open Scope R_scope.

Lemma steady_exact eps : steady (exact eps) (fun x r => x = Fin r) (fun x => x) 0 (IZR (Z.of_N szmod)).
Proof.
  constructor; try (intros; subst; reflexivity); try (intros; lra).
  - intros x a -> _. cbn. unfold xdiv. destruct (Req_bool_spec 2 0) as [H|H]; [lra|reflexivity].
  - intros a _. rewrite Rminus_diag_eq by reflexivity. rewrite Rabs_R0. lra.
  - intros x y a b -> -> _ _. cbn. unfold xcmp. split.
    + destruct (Rlt_bool_spec 0 (a - b)); split; intros; try lra; try reflexivity; discriminate.
    + destruct (Rlt_bool_spec (a - b) 0); split; intros; try lra; try reflexivity; discriminate.
Qed.

Section Formats.
Variables prec emax : Z.
Hypothesis Hp : (1 < prec)%Z.
Hypothesis Hm : (prec < emax)%Z.
Local Notation F := (ieee prec emax).
Local Notation rnd := (rndf prec emax).
Local Notation emin := (3 - emax - prec)%Z.
Local Instance Hprec3 : FLX.Prec_gt_0 prec. Proof. red. lia. Qed.

Lemma steady_ieee : steady F (fdenotes prec emax) rnd (bpow radix2 (- prec)) (bpow radix2 prec).
Proof.
  assert (KB : bpow radix2 prec <= bpow radix2 (emax - 1)) by (apply bpow_le; lia).
  assert (K0 : 4 <= bpow radix2 prec) by (change 4 with (bpow radix2 2); apply bpow_le; lia).
  assert (Two : fdenotes prec emax (ieee_of_Z prec emax 2) 2).
  { apply (of_Z_small prec emax Hp Hm 2). assert (2 ^ 1 <= 2 ^ prec)%Z by (apply Z.pow_le_mono_r; lia). lia. }
  constructor.
  - intros x y a b X Y A B H. apply den_add; try assumption. rewrite Rabs_right; lra.
  - intros x y a b X Y A B H. apply den_mul; try assumption. pose proof (Rmult_le_pos _ _ A B). rewrite Rabs_right; lra.
  - intros x a X H. apply den_div; try assumption; [lra|]. rewrite Rabs_right; lra.
  - intros q H. apply (of_Z_small prec emax Hp Hm). rewrite <- (IZR_Zpower radix2 prec) in H by lia. apply le_IZR in H.
    change (radix_val radix2) with 2%Z in H. lia.
  - apply den_zero; lia.
  - apply den_one; lia.
  - intros x a [X <-]. apply rnd_rep, fr_rep; assumption.
  - intros a b H. apply rnd_le; assumption.
  - intros a H. destruct (error_N_FLT radix2 emin prec Hprec3 (fun z => negb (Z.even z)) a) as (e & t & He & Ht & Het & E).
    unfold rndf. unfold rndf in E. change (round radix2 (FLT_exp emin prec) ZnearestE a = a * (1 + e) + t) in E.
    match goal with |- Rabs (?r - _) <= _ => replace r with (a * (1 + e) + t) by (symmetry; exact E) end.
    replace (a * (1 + e) + t - a) with (a * e + t) by ring.
    rewrite bpow_plus in He. change (bpow radix2 1) with 2 in He.
    pose proof (bpow_gt_0 radix2 (- prec)) as U0.
    pose proof (Rmax_l 1 a) as M1. pose proof (Rmax_r 1 a) as M2.
    destruct (Rmult_integral _ _ Het) as [->| ->].
    + rewrite Rmult_0_r, Rplus_0_l.
      assert (T : / 2 * bpow radix2 emin <= bpow radix2 (- prec)).
      { change (/ 2) with (bpow radix2 (-1)). rewrite <- bpow_plus. apply bpow_le. lia. }
      apply Rle_trans with (bpow radix2 (- prec) * 1); [lra|apply Rmult_le_compat_l; lra].
    + rewrite Rplus_0_r, Rabs_mult, (Rabs_right a) by lra. rewrite Rmult_comm.
      apply Rmult_le_compat; [apply Rabs_pos|lra|lra|exact M2].
  - intros x a [X <-] _. apply rnd_rep. pose proof (fr_rep prec emax x X) as R1. unfold repf in *.
    replace (ieee_real x + ieee_real x) with (ieee_real x * bpow radix2 1) by (change (bpow radix2 1) with 2; ring).
    apply mult_bpow_pos_exact_FLT; [exact R1|lia].
  - apply bpow_ge_0.
  - intros x y a b X Y A B.
    assert (Rg : Rabs (a - b) <= bpow radix2 (emax - 1)) by (apply Rabs_le; lra).
    destruct (den_sub prec emax Hp Hm x y a b X Y Rg) as [Z1 Z2]. destruct (den_zero prec emax Hp Hm) as [W1 W2].
    assert (Nz : a <> b -> rnd (a - b) <> 0).
    { intros N. destruct X as [X1 <-], Y as [Y1 <-]. unfold rndf, Rminus.
      apply (round_plus_neq_0 radix2 (FLT_exp emin prec) ZnearestE).
      - apply (fr_rep prec emax x X1).
      - apply generic_format_opp. apply (fr_rep prec emax y Y1).
      - lra. }
    assert (Pos : b <= a -> 0 <= rnd (a - b)) by (intros H; rewrite <- (rnd_0 prec emax); apply rnd_le; [exact Hp|lra]).
    assert (Neg : a <= b -> rnd (a - b) <= 0) by (intros H; rewrite <- (rnd_0 prec emax); apply rnd_le; [exact Hp|lra]).
    pose proof (ltb_real prec emax _ _ W1 Z1) as L1. pose proof (ltb_real prec emax _ _ Z1 W1) as L2. rewrite Z2, W2 in L1, L2. split.
    + match goal with |- ?g = true <-> _ => replace g with (Rlt_bool 0 (rnd (a - b))) by (symmetry; exact L1) end.
      destruct (Rlt_bool_spec 0 (rnd (a - b))) as [H|H]; split; intros H1; try reflexivity; try discriminate.
      * destruct (Rle_or_lt a b) as [G|G]; [specialize (Neg G); lra|exact G].
      * exfalso. specialize (Pos ltac:(lra)). apply Nz; lra.
    + match goal with |- ?g = true <-> _ => replace g with (Rlt_bool (rnd (a - b)) 0) by (symmetry; exact L2) end.
      destruct (Rlt_bool_spec (rnd (a - b)) 0) as [H|H]; split; intros H1; try reflexivity; try discriminate.
      * destruct (Rle_or_lt b a) as [G|G]; [specialize (Pos G); lra|exact G].
      * exfalso. specialize (Neg ltac:(lra)). apply Nz; lra.
Qed.
End Formats.
