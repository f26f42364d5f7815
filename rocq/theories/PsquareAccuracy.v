(** * P-square in rounded arithmetic: accuracy of the interpolation *)

From Coq Require Import Reals ZArith NArith Bool List Lia Lra Psatz Sorting.Sorted Sorting.Permutation.
From Flocq Require Import Core.
From Verif Require Import Arith History HistoryLemmas Psquare PsquareLemmas PsquareGeneric SpecOrder SpecPsquare
  PsquareStats Rounded RoundedProofs ApproxInstances CorrectRounding PsquareFloat PsquareOrdered PsquareFew.
Import ListNotations.
Local Open Scope R_scope.

Section Accuracy.
Variables emin prec : Z.
Hypothesis prec8 : (8 <= prec)%Z.
Hypothesis normal : (emin + prec <= 0)%Z.
Local Lemma prec_pos : (0 < prec)%Z. Proof. lia. Qed.
Local Instance precgt4 : Prec_gt_0 prec := prec_pos.
Notation fexp := (FLT_exp emin prec).
Notation fmt := (generic_format radix2 fexp).
Notation rnd := (rounding emin prec ZnearestE).
Notation u := (bpow radix2 (- prec)).
Notation eta := (bpow radix2 emin).

Lemma nearest_half x : Rabs (rnd x - x) <= u * Rabs x + eta / 2.
Proof.
  exact (nearest_err emin prec prec8 x).
Qed.

(** The computed rank and the exact rank have the same integer part, and so have
    their successors. *)
Lemma rank_close n w : (2 <= n)%Z -> (n <= 2 ^ prec)%Z -> 0 <= w <= 1 - 8 * u ->
  let r := IZR (n - 1) * w in
  let rank := rnd r in
  r <= IZR (Zfloor r) + 1 - 4 * IZR n * u ->
  Zfloor rank = Zfloor r /\ Zfloor (rnd (rank + 1)) = (Zfloor r + 1)%Z /\ Rabs (rank - r) <= IZR n * u.
Proof.
  intros N2 Np W r rank Hr.
  assert (u0 : 0 < u) by apply bpow_gt_0.
  assert (e0 : 0 < eta <= u) by (split; [apply bpow_gt_0|apply bpow_le; lia]).
  assert (I : forall z, (0 <= z <= 2 ^ prec)%Z -> rnd (IZR z) = IZR z).
  { intros z Hz. apply integer_exact; [lia|lia|typeclasses eauto|lia]. }
  assert (N1 : 2 <= IZR n) by (apply IZR_le; lia).
  assert (En : IZR (n - 1) = IZR n - 1) by apply minus_IZR.
  assert (r0 : 0 <= r) by (unfold r; apply Rmult_le_pos; lra).
  assert (rn : r <= IZR n - 1) by (unfold r; rewrite En; nra).
  assert (J0 : (0 <= Zfloor r)%Z) by (apply Zfloor_lub; exact r0).
  assert (J1 : (Zfloor r + 1 < n)%Z).
  { assert (r < IZR (n - 1)) by (unfold r; rewrite En; nra).
    assert (Zfloor r < n - 1)%Z; [|lia]. apply lt_IZR. pose proof (Zfloor_lb r). lra. }
  pose proof (Zfloor_lb r) as Fl. pose proof (Zfloor_ub r) as Fu.
  set (j := Zfloor r) in *.
  assert (Lo : IZR j <= rank).
  { rewrite <- (I j) by lia. apply rmono; [exact prec8|exact Fl]. }
  assert (Er : Rabs (rank - r) <= IZR n * u).
  { apply Rle_trans with (1 := nearest_half r). rewrite Rabs_pos_eq by exact r0. nra. }
  pose proof (Rabs_le_inv _ _ Er) as [E1 E2].
  assert (Hi : rank <= IZR j + 1 - 3 * (IZR n * u)) by nra.
  assert (Pn : 0 < IZR n * u) by (apply Rmult_lt_0_compat; lra).
  split; [|split; [|exact Er]].
  - apply Zfloor_imp. rewrite plus_IZR. lra.
  - apply Zfloor_imp. rewrite !plus_IZR. split.
    + rewrite <- plus_IZR, <- (I (j + 1)%Z) by lia. apply rmono; [exact prec8|]. rewrite plus_IZR. lra.
    + pose proof (nearest_half (rank + 1)) as E3. apply Rabs_le_inv in E3.
      rewrite Rabs_pos_eq in E3 by (pose proof (IZR_le 0 j J0); lra).
      assert (u * (rank + 1) <= u * (IZR n)).
      { apply Rmult_le_compat_l; [lra|]. pose proof (IZR_le (j + 1) n ltac:(lia)) as G. rewrite plus_IZR in G.
        pose proof (IZR_le (j + 2) n ltac:(lia)) as G'. rewrite plus_IZR in G'. lra. }
      nra.
Qed.

Lemma interpolation_error a b s s' M n : Rabs a <= M -> Rabs b <= M -> 0 <= s < 1 -> 0 <= n -> Rabs (s - s') <= n * u ->
  Rabs (rnd (a + rnd (s * rnd (b - a))) - (a + s' * (b - a))) <= (2 * n + 9) * u * M + 2 * eta.
Proof.
  intros Ha Hb S01 N0 Hs.
  assert (u0 : 0 < u <= / 256).
  { split; [apply bpow_gt_0|]. change (/ 256) with (bpow radix2 (-8)). apply bpow_le. lia. }
  assert (e0 : 0 < eta) by apply bpow_gt_0.
  assert (M0 : 0 <= M) by (pose proof (Rabs_pos a); lra).
  set (D := rnd (b - a)). set (P := rnd (s * D)).
  assert (Bd : Rabs (b - a) <= 2 * M).
  { apply Rle_trans with (1 := Rabs_triang _ _). rewrite Rabs_Ropp. lra. }
  assert (E1 : Rabs (D - (b - a)) <= u * (2 * M) + eta / 2).
  { apply Rle_trans with (1 := nearest_half _). pose proof (Rmult_le_compat_l u _ _ ltac:(lra) Bd). lra. }
  assert (uM : u * M <= M / 256) by nra.
  assert (ue : u * eta <= eta / 256) by nra.
  assert (DM : Rabs D <= 2 * M + 2 * (u * M) + eta / 2).
  { replace D with ((D - (b - a)) + (b - a)) by ring. apply Rle_trans with (1 := Rabs_triang _ _). lra. }
  assert (SD : Rabs (s * D) <= Rabs D).
  { rewrite Rabs_mult, (Rabs_pos_eq s) by lra. pose proof (Rabs_pos D). nra. }
  assert (uD : u * Rabs D <= 2 * (u * M) + 2 * (u * M) / 256 + eta / 512).
  { pose proof (Rmult_le_compat_l u _ _ ltac:(lra) DM) as G.
    assert (u * (u * M) <= u * M / 256) by nra. lra. }
  assert (E2 : Rabs (P - s * D) <= 2 * (u * M) + 2 * (u * M) / 256 + eta / 512 + eta / 2).
  { apply Rle_trans with (1 := nearest_half _). pose proof (Rmult_le_compat_l u _ _ ltac:(lra) SD). lra. }
  assert (PM : Rabs P <= 3 * M + 2 * eta).
  { replace P with ((P - s * D) + s * D) by ring. apply Rle_trans with (1 := Rabs_triang _ _). lra. }
  assert (AP : Rabs (a + P) <= 4 * M + 2 * eta) by (apply Rle_trans with (1 := Rabs_triang _ _); lra).
  assert (E3 : Rabs (rnd (a + P) - (a + P)) <= 4 * (u * M) + eta / 128 + eta / 2).
  { apply Rle_trans with (1 := nearest_half _). pose proof (Rmult_le_compat_l u _ _ ltac:(lra) AP). lra. }
  assert (E4 : Rabs (s * (D - (b - a))) <= 2 * (u * M) + eta / 2).
  { rewrite Rabs_mult, (Rabs_pos_eq s) by lra. pose proof (Rabs_pos (D - (b - a))). nra. }
  assert (E5 : Rabs ((s - s') * (b - a)) <= 2 * n * (u * M)).
  { rewrite Rabs_mult. replace (2 * n * (u * M)) with (n * u * (2 * M)) by ring.
    apply Rmult_le_compat; try apply Rabs_pos; assumption. }
  assert (uM0 : 0 <= u * M) by (apply Rmult_le_pos; lra).
  replace (rnd (a + P) - (a + s' * (b - a)))
    with ((rnd (a + P) - (a + P)) + ((P - s * D) + (s * (D - (b - a)) + (s - s') * (b - a)))) by ring.
  apply Rle_trans with (1 := Rabs_triang _ _).
  pose proof (Rabs_triang (P - s * D) (s * (D - (b - a)) + (s - s') * (b - a))).
  pose proof (Rabs_triang (s * (D - (b - a))) ((s - s') * (b - a))).
  replace ((2 * n + 9) * u * M) with (2 * n * (u * M) + 9 * (u * M)) by ring. lra.
Qed.

Variable F : num.
Variable val : F -> R -> Prop.
Variable B : R.
Hypothesis emin34 : (emin <= -34)%Z.
Hypothesis C : correct F val emin prec B.
Variable k : Z.
Hypothesis k_emin : (emin <= k)%Z.
Hypothesis k_B : bpow radix2 (k + 30) <= B.
Hypothesis one_B : bpow radix2 30 <= B.
Variable qs : list F.

Lemma few_accuracy l vs i q w M m : m = length l -> nth_error qs i = Some q -> val q w -> 0 <= w <= 1 - 8 * u ->
  room prec (length l) -> Forall2 val l vs ->
  Forall (fun v => Rabs v <= bpow radix2 k) vs -> Forall (fun v => Rabs v <= M) vs ->
  (2 <= length l <= parameter_length F qs)%nat ->
  let n := INR m in
  let r := INR (m - 1) * w in
  r <= IZR (Int_part r) + 1 - 4 * n * u ->
  forall os, order_statistics vs os ->
  exists x v, psq_get F qs (st F qs l) (S i) = Some x /\ val x v /\
    Rabs (v - interpolate os r) <= (2 * n + 9) * u * M + 2 * eta.
Proof.
  intros -> Eq Vq Wb Hr H2 Hb HM Hl n r Hi os Hos.
  destruct (few_value emin prec prec8 emin34 normal F val B C k k_emin k_B one_B qs l vs i q w Eq Vq Wb Hr H2 Hb Hl)
    as (os' & Hos' & Z0 & Z1 & Fs & Fa & Fb & Hab & x & Ex & Vx).
  assert (os' = os).
  { apply order_statistics_unique in Hos. apply order_statistics_unique in Hos'. congruence. }
  subst os'. destruct Hos as [Ho _].
  assert (Er : r = IZR (Z.of_nat (length l) - 1) * w).
  { unfold r. rewrite INR_IZR_INZ. f_equal. f_equal. lia. }
  assert (En : n = IZR (Z.of_nat (length l))) by apply INR_IZR_INZ.
  rewrite Int_part_floor in Hi. destruct Hr as [R1 R2].
  pose proof (rank_close (Z.of_nat (length l)) w ltac:(lia) R2 Wb) as RC. cbv zeta in RC.
  rewrite <- Er, <- En in RC. destruct (RC Hi) as (C1 & C2 & C3).
  rewrite <- Er in *.
  assert (Los : length os = length l).
  { rewrite <- (Permutation_length Ho), <- (forall2_length F val _ _ H2). reflexivity. }
  assert (Bd : forall t, (t < length l)%nat -> Rabs (nth t os 0) <= M).
  { intros t Ht. rewrite Forall_forall in HM. apply HM. apply (Permutation_in _ (Permutation_sym Ho)). apply nth_In. lia. }
  exists x. eexists. split; [exact Ex|]. split; [exact Vx|].
  rewrite C1, C2.
  unfold interpolate. change (Int_part r) with (Zfloor r).
  replace (S (Z.to_nat (Zfloor r))) with (Z.to_nat (Zfloor r + 1)) by lia.
  pose proof (Zfloor_lb (rnd r)) as L1. pose proof (Zfloor_ub (rnd r)) as L2. rewrite C1 in L1, L2.
  apply interpolation_error.
  - apply Bd. lia.
  - apply Bd. lia.
  - lra.
  - unfold n. apply pos_INR.
  - replace (rnd r - IZR (Zfloor r) - (r - IZR (Zfloor r))) with (rnd r - r) by ring. exact C3.
Qed.

End Accuracy.
