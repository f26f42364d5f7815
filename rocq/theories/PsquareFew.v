(** * P-square in rounded arithmetic: interpolation between few observations *)

From Coq Require Import Reals ZArith NArith Bool List Lia Lra Psatz Sorting.Sorted Sorting.Permutation.
From Flocq Require Import Core Relative Plus_error.
From Verif Require Import Arith History HistoryLemmas Psquare PsquareLemmas PsquareGeneric SpecOrder SpecPsquare
  Rounded RoundedProofs ApproxInstances CorrectRounding PsquareFloat PsquareOrdered.
Import ListNotations.
Local Open Scope R_scope.

Section Few.
Variables emin prec : Z.
Hypothesis prec8 : (8 <= prec)%Z.
Hypothesis emin34 : (emin <= -34)%Z.
(** 1 is a normal number. *)
Hypothesis normal : (emin + prec <= 0)%Z.

Local Lemma prec_pos : (0 < prec)%Z. Proof. lia. Qed.
Local Lemma emin_neg : (emin <= 0)%Z. Proof. lia. Qed.
Local Instance precgt3 : Prec_gt_0 prec := prec_pos.
Notation fexp := (FLT_exp emin prec).
Notation fmt := (generic_format radix2 fexp).
Notation rnd := (rounding emin prec ZnearestE).
Notation u := (bpow radix2 (- prec)).

Lemma below_one s : fmt s -> s < 1 -> s <= 1 - u.
Proof.
  intros Fs H. assert (F1 : fmt 1) by (change 1 with (bpow radix2 0); apply generic_format_FLT_bpow; [exact prec_pos|lia]).
  pose proof (pred_ge_gt radix2 fexp s 1 Fs F1 H) as P.
  change 1 with (bpow radix2 0) in P at 1. rewrite pred_bpow in P.
  replace (fexp 0) with (- prec)%Z in P by (unfold FLT_exp; lia). exact P.
Qed.

Lemma mag_bound D : 0 < D ->
  bpow radix2 (mag_val radix2 D (mag radix2 D) - 1) <= Rabs D < bpow radix2 (mag_val radix2 D (mag radix2 D)).
Proof. intros H. destruct (mag radix2 D) as [e He]. apply He. lra. Qed.

(** Linear interpolation with a representable weight below 1 does not leave the
    interval. *)
Lemma interpolation a b s : fmt a -> fmt b -> a <= b -> fmt s -> 0 <= s < 1 ->
  a <= rnd (a + rnd (s * rnd (b - a))) <= b.
Proof.
  intros Fa Fb Hab Fs [S0 S1].
  pose proof (below_one s Fs S1) as Su.
  set (D := rnd (b - a)). assert (D0 : 0 <= D) by (apply rpos; [exact prec8|lra]).
  assert (FD : fmt D) by (apply rfmt; exact prec8).
  assert (P0 : 0 <= rnd (s * D)) by (apply rpos; [exact prec8|apply Rmult_le_pos; assumption]).
  assert (E8 : 0 < u) by apply bpow_gt_0.
  assert (P1 : rnd (s * D) <= b - a).
  { destruct (Rle_or_lt D (b - a)) as [Ok|Up].
    - apply Rle_trans with (2 := Ok). apply Rle_trans with (rnd D); [apply rmono; [exact prec8|nra]|].
      rewrite rfix by assumption. lra.
    - assert (Nf : ~ fmt (b - a)).
      { intros Fba. unfold D in Up. rewrite rfix in Up by assumption. lra. }
      assert (Large : bpow radix2 (prec + emin) < b - a).
      { apply Rnot_le_lt. intros H. apply Nf. unfold Rminus. apply FLT_format_plus_small; try typeclasses eauto.
        - exact Fb.
        - apply generic_format_opp. exact Fa.
        - rewrite Rabs_pos_eq by lra. exact H. }
      assert (Dp : 0 < D) by (pose proof (bpow_gt_0 radix2 (prec + emin)); lra).
      assert (Q : pred radix2 fexp D <= b - a).
      { apply Rnot_lt_le. intros H. assert (G : D <= pred radix2 fexp D).
        { apply Rle_trans with (rnd (pred radix2 fexp D)); [apply rmono; [exact prec8|lra]|].
          rewrite (rfix emin prec); [lra|apply generic_format_pred; [typeclasses eauto|exact FD]]. }
        pose proof (pred_lt_id radix2 fexp D ltac:(lra)). lra. }
      apply Rle_trans with (2 := Q).
      assert (SD : s * D <= D - u * D) by nra.
      assert (Fp : fmt (pred radix2 fexp D)) by (apply generic_format_pred; [typeclasses eauto|exact FD]).
      set (m := mag_val radix2 D (mag radix2 D)).
      assert (Mb : bpow radix2 (m - 1) <= D < bpow radix2 m).
      { rewrite <- (Rabs_pos_eq D) by exact D0. exact (mag_bound D Dp). }
      destruct Mb as [Mlo Mhi].
      assert (Mn : (prec + emin < m)%Z).
      { apply (lt_bpow radix2). apply Rlt_trans with (2 := Mhi). lra. }
      destruct (Req_bool_spec D (bpow radix2 (m - 1))) as [E|E].
      + apply Rle_trans with (rnd (pred radix2 fexp D)); [apply rmono; [exact prec8|]|rewrite (rfix emin prec); [lra|exact Fp]].
        rewrite E at 2. rewrite pred_bpow.
        replace (fexp (m - 1)) with (- prec + (m - 1))%Z by (unfold FLT_exp; lia).
        rewrite bpow_plus, <- E. exact SD.
      + assert (PD : pred radix2 fexp D = D - ulp radix2 fexp D).
        { rewrite pred_eq_pos by exact D0. unfold pred_pos. fold m. rewrite Req_bool_false by exact E. reflexivity. }
        apply (round_N_le_midp radix2 fexp (fun x => negb (Z.even x))); [exact Fp|].
        rewrite succ_pred by (try typeclasses eauto; exact FD). rewrite PD.
        assert (U : ulp radix2 fexp D = 2 * (u * bpow radix2 (m - 1))).
        { rewrite ulp_neq_0 by lra. unfold cexp. fold m.
          replace (fexp m) with (1 + (- prec + (m - 1)))%Z by (unfold FLT_exp; lia).
          rewrite !bpow_plus. change (bpow radix2 1) with 2. ring. }
        assert (u * bpow radix2 (m - 1) < u * D) by (apply Rmult_lt_compat_l; lra).
        lra. }
  split.
  - apply Rle_trans with (rnd a); [rewrite rfix by assumption; lra|apply rmono; [exact prec8|lra]].
  - apply Rle_trans with (rnd b); [apply rmono; [exact prec8|lra]|rewrite rfix by assumption; lra].
Qed.

(** The fractional part of a number is a number. *)
Lemma fraction_fmt x : fmt x -> 0 <= x -> fmt (x - IZR (Zfloor x)).
Proof.
  intros Fx X0. apply FLT_format_generic in Fx; [|exact prec_pos].
  destruct Fx as [[m e] Ex Hm He]. cbn [Fnum Fexp] in *.
  destruct (Z_le_gt_dec 0 e) as [He0|He0].
  - assert (E : x = IZR (m * 2 ^ e)).
    { rewrite Ex. unfold F2R. cbn [Fnum Fexp]. rewrite mult_IZR. f_equal.
      change (2 ^ e)%Z with (radix2 ^ e)%Z. rewrite IZR_Zpower by lia. reflexivity. }
    rewrite E, Zfloor_IZR, Rminus_diag_eq by reflexivity. apply generic_format_0.
  - pose proof (Zfloor_lb x) as Lb. pose proof (Zfloor_ub x) as Ub.
    assert (Z0 : (0 <= Zfloor x)%Z) by (apply Zfloor_lub; exact X0).
    set (z := Zfloor x) in *.
    assert (E : x - IZR z = F2R (Float radix2 (m - z * 2 ^ (- e)) e)).
    { rewrite Ex. unfold F2R. cbn [Fnum Fexp]. rewrite minus_IZR, mult_IZR.
      change (2 ^ (- e))%Z with (radix2 ^ (- e))%Z. rewrite IZR_Zpower by lia.
      rewrite Rmult_minus_distr_r, Rmult_assoc, <- bpow_plus.
      replace (- e + e)%Z with 0%Z by lia. cbn. ring. }
    rewrite E. apply generic_format_FLT. apply (FLT_spec _ _ _ _ (Float radix2 (m - z * 2 ^ (- e)) e)); cbn [Fnum Fexp]; [reflexivity| |exact He].
    assert (G : (0 <= m - z * 2 ^ (- e))%Z).
    { apply (ge_0_F2R radix2 _ e). rewrite <- E. lra. }
    assert (P : (0 <= z * 2 ^ (- e))%Z) by (apply Z.mul_nonneg_nonneg; [exact Z0|apply Z.pow_nonneg; lia]).
    lia.
Qed.

(** The rank of a quantile among [n] values *)
Lemma rank_bounds n q : (2 <= n)%Z -> (n <= 2 ^ prec)%Z -> 0 <= q <= 1 - 8 * u ->
  let rank := rnd (IZR (n - 1) * q) in
  0 <= rank < IZR (n - 1) /\ IZR (Zfloor rank) + 1 <= rnd (rank + 1) < IZR n.
Proof.
  intros N2 Np [Q0 Q1] rank.
  assert (E8 : 0 < u <= / 256).
  { split; [apply bpow_gt_0|]. change (/ 256) with (bpow radix2 (-8)). apply bpow_le. lia. }
  assert (I : forall z, (0 <= z <= 2 ^ prec)%Z -> rnd (IZR z) = IZR z).
  { intros z Hz. apply integer_exact; [lia|lia|typeclasses eauto|lia]. }
  assert (N1 : 1 <= IZR (n - 1)) by (apply IZR_le; lia).
  assert (En : IZR n = IZR (n - 1) + 1) by (rewrite minus_IZR; ring).
  assert (R0 : 0 <= rank) by (apply rpos; [exact prec8|apply Rmult_le_pos; lra]).
  assert (Rel : forall x, / 2 <= x -> Rabs (rnd x - x) <= u * x).
  { intros x Hx. pose proof (relative_error_N_FLT radix2 emin prec prec_pos (fun x => negb (Z.even x)) x) as E.
    rewrite (Rabs_pos_eq x) in E by lra.
    replace (/ 2 * bpow radix2 (- prec + 1) * x) with (u * x) in E.
    - apply E. apply Rle_trans with (2 := Hx). change (/ 2) with (bpow radix2 (-1)). apply bpow_le. lia.
    - rewrite bpow_plus. change (bpow radix2 1) with 2. field. }
  assert (Top : rnd (rank + 1) < IZR n).
  { destruct (Rle_or_lt rank (/ 2)) as [Small|Large].
    - apply Rle_lt_trans with (rnd (1 + / 2)); [apply rmono; [exact prec8|lra]|].
      rewrite (rfix emin prec); [lra|].
      apply generic_format_FLT. apply (FLT_spec _ _ _ _ (Float radix2 3 (-1))); cbn [Fnum Fexp]; [| |lia].
      + unfold F2R. cbn. lra.
      + change (radix2 ^ prec)%Z with (2 ^ prec)%Z. apply Z.lt_le_trans with (2 ^ 8)%Z; [reflexivity|]. apply Z.pow_le_mono_r; lia.
    - assert (X : / 2 <= IZR (n - 1) * q).
      { apply Rnot_lt_le. intros H. assert (rank <= / 2).
        { apply Rle_trans with (rnd (/ 2)); [apply rmono; [exact prec8|lra]|]. rewrite (rfix emin prec); [lra|].
          change (/ 2) with (bpow radix2 (-1)). apply generic_format_FLT_bpow; [exact prec_pos|lia]. }
        lra. }
      pose proof (Rel _ X) as E1. fold rank in E1. apply Rabs_le_inv in E1.
      pose proof (Rel (rank + 1) ltac:(lra)) as E2. apply Rabs_le_inv in E2.
      set (N := IZR (n - 1)) in *.
      assert (Nq : N * q <= N - 8 * (u * N)) by nra.
      assert (uNq : u * (N * q) <= u * N) by (apply Rmult_le_compat_l; [lra|nra]).
      assert (Ra : rank <= N - 7 * (u * N)) by lra.
      assert (uN : u <= u * N) by nra.
      assert (u * (rank + 1) <= u * N + u) by nra.
      rewrite En. lra. }
  assert (RN : rank < IZR (n - 1)).
  { apply Rnot_le_lt. intros H.
    assert (G : rnd (IZR n) <= rnd (rank + 1)) by (apply rmono; [exact prec8|lra]).
    rewrite I in G by lia. lra. }
  split; [lra|split; [|exact Top]].
  assert (Z0 : (0 <= Zfloor rank)%Z) by (apply Zfloor_lub; exact R0).
  assert (Z1 : (Zfloor rank < n - 1)%Z).
  { apply lt_IZR. apply Rle_lt_trans with rank; [apply Zfloor_lb|exact RN]. }
  rewrite <- plus_IZR. rewrite <- I by lia. apply rmono; [exact prec8|].
  rewrite plus_IZR. pose proof (Zfloor_lb rank). lra.
Qed.

Variable F : num.
Variable val : F -> R -> Prop.
Variable B : R.
Hypothesis C : correct F val emin prec B.
Variable k : Z.
Hypothesis k_emin : (emin <= k)%Z.
Hypothesis k_B : bpow radix2 (k + 30) <= B.
Hypothesis one_B : bpow radix2 30 <= B.
Variable qs : list F.
Notation L := (parameter_length F qs).

(** The listed quantiles, as numbers *)
Definition weights_ok : Prop := Forall (fun q => exists v, val q v /\ 0 <= v <= 1 - 8 * u) qs.

Lemma nth_error_asc (l : list F) n : (n < length l)%nat ->
  nth_error (asc F l ++ repeat n0 (L - length l)) n = Some (nth n (asc F l) n0).
Proof.
  intros H. rewrite <- (asc_length F l) in H. rewrite nth_error_app1 by exact H. apply nth_error_nth'. exact H.
Qed.

(** The stored values as order statistics *)
Lemma ordered_values l vs : Forall2 val l vs ->
  exists os, order_statistics vs os /\ Forall2 val (asc F l) os.
Proof.
  intros H2.
  assert (TP : total_on F (fun x => exists v, val x v)) by (apply (correct_total F val emin prec B C)).
  assert (FP : Forall (fun x => exists v, val x v) l).
  { clear - H2. induction H2; constructor; eauto. }
  destruct (Permutation_Forall2 (asc_perm F l) H2) as (os & P & A2).
  exists os. split; [|exact A2]. split; [exact P|].
  assert (Hle : forall i j, (i < j)%nat -> (j < length (asc F l))%nat ->
    nle (nth i (asc F l) n0) (nth j (asc F l) n0) = true).
  { intros i j Hij Hj. unfold asc in *. rewrite rev_length in Hj. rewrite !rev_nth by lia.
    apply (sorted_rev_nth F); [|lia|lia]. apply (desc_sorted F _ TP). exact FP. }
  clear - A2 Hle C. induction A2 as [|x v t ot V A2 IH]; constructor.
  - apply IH. intros i j Hij Hj. apply (Hle (S i) (S j)); cbn; lia.
  - rewrite Forall_forall. intros w Hw. destruct (In_nth _ _ 0 Hw) as (j & Hj & <-).
    pose proof (forall2_length F val _ _ A2) as Ht.
    pose proof (Hle 0%nat (S j) ltac:(lia) ltac:(cbn; lia)) as O. cbn [nth] in O.
    rewrite (co_le _ _ _ _ _ C _ _ _ _ V (forall2_nth F val _ _ j A2 ltac:(lia))) in O.
    destruct (Rle_bool_spec v (nth j ot 0)); [assumption|discriminate].
Qed.

(** What get<i> computes from two or more observations before the markers are in
    use *)
Lemma few_value l vs i q w : nth_error qs i = Some q -> val q w -> 0 <= w <= 1 - 8 * u ->
  room prec (length l) -> Forall2 val l vs ->
  Forall (fun v => Rabs v <= bpow radix2 k) vs -> (2 <= length l <= L)%nat ->
  exists os, order_statistics vs os /\
  let rank := rnd (IZR (Z.of_nat (length l) - 1) * w) in
  let a := nth (Z.to_nat (Zfloor rank)) os 0 in
  let b := nth (Z.to_nat (Zfloor (rnd (rank + 1)))) os 0 in
  (0 <= Zfloor rank)%Z /\ (Zfloor rank < Zfloor (rnd (rank + 1)) < Z.of_nat (length l))%Z /\
  fmt (rank - IZR (Zfloor rank)) /\ fmt a /\ fmt b /\ a <= b /\
  exists x, psq_get F qs (st F qs l) (S i) = Some x /\
            val x (rnd (a + rnd ((rank - IZR (Zfloor rank)) * rnd (b - a)))).
Proof.
  intros Eq Vq Wb Hr H2 Hb Hl.
  pose proof (room_fits prec F l Hr) as Hfit. unfold fits in Hfit.
  destruct (ordered_values l vs H2) as (os & [Ho So] & A2).
  exists os. split; [split; assumption|]. intros rank a b.
  pose proof (forall2_length F val _ _ A2) as Los. rewrite asc_length in Los.
  destruct Hr as [R1 R2].
  pose proof (rank_bounds (Z.of_nat (length l)) w ltac:(lia) R2 Wb) as RB. cbv zeta in RB. fold rank in RB.
  assert (u0 : 0 < u) by apply bpow_gt_0.
  assert (N27 : IZR (Z.of_nat (length l)) <= 134217728) by (apply IZR_le; lia).
  assert (Enn : IZR (Z.of_nat (length l)) = IZR (Z.of_nat (length l) - 1) + 1) by (rewrite minus_IZR; ring).
  assert (Nn : 1 <= IZR (Z.of_nat (length l) - 1)) by (apply IZR_le; lia).
  change (bpow radix2 30) with 1073741824 in one_B.
  assert (Vn : val (nofsz (N.of_nat (length l - 1))) (IZR (Z.of_nat (length l) - 1))).
  { replace (Z.of_nat (length l) - 1)%Z with (Z.of_N (N.of_nat (length l - 1))) by lia.
    rewrite <- (integer_exact emin prec prec_pos emin_neg ZnearestE (Z.of_N _)) by (try typeclasses eauto; lia).
    apply (co_ofsz _ _ _ _ _ C). unfold szmod. lia. }
  destruct RB as [[Ra0 Ra1] [Rb0 Rb1]].
  assert (Vr : val (nmul (nofsz (N.of_nat (length l - 1))) q) rank).
  { apply (co_mul _ _ _ _ _ C); [exact Vn|exact Vq|]. rewrite Rabs_pos_eq by nra. nra. }
  assert (V1 : val n1 1) by (apply (co_ofz _ _ _ _ _ C 1%Z); lia).
  assert (Vr1 : val (nadd (nmul (nofsz (N.of_nat (length l - 1))) q) n1) (rnd (rank + 1))).
  { apply (co_add _ _ _ _ _ C); [exact Vr|exact V1|]. rewrite Rabs_pos_eq by lra. lra. }
  assert (P27 : IZR (Z.of_nat (length l)) <= bpow radix2 prec).
  { rewrite <- IZR_Zpower by lia. apply IZR_le. exact R2. }
  assert (Vf : val (nfloor (nmul (nofsz (N.of_nat (length l - 1))) q)) (IZR (Zfloor rank))).
  { apply (co_floor _ _ _ _ _ C); [exact Vr|]. lra. }
  assert (B63 : IZR (Z.of_nat (length l)) < bpow radix2 63).
  { apply Rle_lt_trans with (1 := N27). change (bpow radix2 63) with 9223372036854775808. lra. }
  pose proof (Zfloor_lb rank) as F0. pose proof (Zfloor_ub rank) as F0'.
  assert (Z0 : (0 <= Zfloor rank)%Z) by (apply Zfloor_lub; exact Ra0).
  assert (Z1 : (Zfloor rank + 1 <= Zfloor (rnd (rank + 1)))%Z) by (apply Zfloor_lub; rewrite plus_IZR; exact Rb0).
  assert (Z2 : (Zfloor (rnd (rank + 1)) < Z.of_nat (length l))%Z).
  { apply lt_IZR. apply Rle_lt_trans with (2 := Rb1). apply Zfloor_lb. }
  assert (Fr : fmt rank) by (apply (co_fmt _ _ _ _ _ C _ _ Vr)).
  assert (Fs : fmt (rank - IZR (Zfloor rank))) by (apply fraction_fmt; assumption).
  assert (Va : val (nth (Z.to_nat (Zfloor rank)) (asc F l) n0) a).
  { apply (forall2_nth F val); [exact A2|rewrite asc_length; lia]. }
  assert (Vb : val (nth (Z.to_nat (Zfloor (rnd (rank + 1)))) (asc F l) n0) b).
  { apply (forall2_nth F val); [exact A2|rewrite asc_length; lia]. }
  assert (Fa : fmt a) by exact (co_fmt _ _ _ _ _ C _ _ Va).
  assert (Fb : fmt b) by exact (co_fmt _ _ _ _ _ C _ _ Vb).
  assert (Hab : a <= b).
  { assert (G : forall t, StronglySorted Rle t -> forall i j, (i <= j)%nat -> (j < length t)%nat -> nth i t 0 <= nth j t 0).
    { induction 1 as [|x t H1 IH H3]; intros i' j' Hij Hbt; [cbn in Hbt; lia|].
      destruct i' as [|i'], j' as [|j']; cbn [nth]; cbn in Hbt; [lra| |lia|apply IH; lia].
      rewrite Forall_forall in H3. apply H3. apply nth_In. lia. }
    apply G; [exact So|lia|lia]. }
  split; [exact Z0|]. split; [lia|]. split; [exact Fs|]. split; [exact Fa|]. split; [exact Fb|]. split; [exact Hab|].
  rewrite Forall_forall in Hb.
  assert (Ba : Rabs a <= bpow radix2 k).
  { apply Hb. apply (Permutation_in _ (Permutation_sym Ho)). apply nth_In. lia. }
  assert (Bb : Rabs b <= bpow radix2 k).
  { apply Hb. apply (Permutation_in _ (Permutation_sym Ho)). apply nth_In. lia. }
  rewrite st_short by lia. unfold psq_get. cbn [ps_count ps_heights].
  destruct (N.ltb_spec (N.of_nat L) (N.of_nat (length l))); [lia|].
  assert (Ecnt : szsub (N.of_nat (length l)) 1 = N.of_nat (length l - 1)).
  { rewrite szsub_small by (unfold szmod in *; lia). lia. }
  rewrite Ecnt.
  destruct (N.ltb_spec 1 (N.of_nat (length l))) as [G|G]; [|lia].
  assert (Li : (i < length qs)%nat) by (apply nth_error_Some; rewrite Eq; discriminate).
  destruct (Nat.eqb_spec (S i) 0) as [I0|I0]; [lia|].
  destruct (Nat.eqb_spec (S i) (1 + quantile_length F qs)) as [I1|I1]; [unfold quantile_length in I1; lia|].
  replace (S i - 1)%nat with i by lia. rewrite Eq.
  rewrite (co_tosz _ _ _ _ _ C _ _ Vr) by lra.
  rewrite (co_tosz _ _ _ _ _ C _ _ Vr1) by (pose proof (rpos emin prec prec8 (rank + 1) ltac:(lra)); lra).
  cbn [hread]. rewrite !nth_error_asc by lia. rewrite !Z_N_nat.
  set (s := rank - IZR (Zfloor rank)) in *.
  assert (S01 : 0 <= s < 1) by (unfold s; lra).
  assert (Vs : val (nsub (nmul (nofsz (N.of_nat (length l - 1))) q)
                         (nfloor (nmul (nofsz (N.of_nat (length l - 1))) q))) s).
  { rewrite <- (rfix emin prec s Fs).
    apply (co_sub _ _ _ _ _ C); [exact Vr|exact Vf|]. fold s. rewrite Rabs_pos_eq by lra. lra. }
  assert (VD : vb F val (nsub (nth (Z.to_nat (Zfloor (rnd (rank + 1)))) (asc F l) n0) (nth (Z.to_nat (Zfloor rank)) (asc F l) n0)) (rnd (b - a)) (k + 1)).
  { apply (vb_sub emin prec prec8 F val B C k k_emin k_B); [lia|lia|split; assumption|split; assumption]. }
  assert (VP : vb F val (nmul (nsub (nmul (nofsz (N.of_nat (length l - 1))) q)
                         (nfloor (nmul (nofsz (N.of_nat (length l - 1))) q)))
                         (nsub (nth (Z.to_nat (Zfloor (rnd (rank + 1)))) (asc F l) n0) (nth (Z.to_nat (Zfloor rank)) (asc F l) n0)))
                        (rnd (s * rnd (b - a))) (0 + (k + 1))).
  { apply (vb_mul emin prec prec8 F val B C k k_B); [lia|lia| |exact VD].
    split; [exact Vs|]. rewrite Rabs_pos_eq by lra. change (bpow radix2 0) with 1. lra. }
  eexists. split; [reflexivity|].
  refine (proj1 (vb_add emin prec prec8 F val B C k k_emin k_B _ _ _ _ (k + 1) _ _ _ VP)); [lia|lia|].
  split; [exact Va|]. apply Rle_trans with (1 := Ba). apply bpow_le. lia.
Qed.

Lemma few_get l vs index : weights_ok -> room prec (length l) -> Forall2 val l vs ->
  Forall (fun v => Rabs v <= bpow radix2 k) vs -> (1 <= length l <= L)%nat -> (index <= length qs + 1)%nat ->
  exists x v, psq_get F qs (st F qs l) index = Some x /\ val x v /\ in_hull v vs.
Proof.
  intros Hq Hr H2 Hb Hl Hi.
  pose proof (room_fits prec F l Hr) as Hfit. unfold fits in Hfit.
  destruct (ordered_values l vs H2) as (os & [Ho So] & A2).
  pose proof (forall2_length F val _ _ A2) as Los. rewrite asc_length in Los.
  assert (One : forall j, (j < length l)%nat -> exists x v, Some (nth j (asc F l) n0) = Some x /\ val x v /\ in_hull v vs).
  { intros j Hj. exists (nth j (asc F l) n0), (nth j os 0). split; [reflexivity|].
    split; [apply (forall2_nth F val); [exact A2|rewrite asc_length; exact Hj]|].
    assert (Iv : In (nth j os 0) vs) by (apply (Permutation_in _ (Permutation_sym Ho)); apply nth_In; lia).
    split; exists (nth j os 0); split; (exact Iv || lra). }
  destruct (Nat.eq_dec index 0) as [->|I0].
  { rewrite st_short by lia. unfold psq_get. cbn [ps_count ps_heights].
    destruct (N.ltb_spec (N.of_nat L) (N.of_nat (length l))); [lia|].
    assert (Ecnt : szsub (N.of_nat (length l)) 1 = N.of_nat (length l - 1)).
    { rewrite szsub_small by (unfold szmod in *; lia). lia. }
    rewrite Ecnt. destruct (N.ltb_spec 1 (N.of_nat (length l))).
    - cbn [Nat.eqb]. rewrite nth_error_asc by lia. apply One. lia.
    - destruct (N.ltb_spec 0 (N.of_nat (length l))); [|lia]. rewrite Nat2N.id, nth_error_asc by lia. apply One. lia. }
  destruct (Nat.le_gt_cases (length l) 1) as [Le1|Gt1]; [|destruct (Nat.eq_dec index (1 + quantile_length F qs)) as [Ei|I1]].
  1,2: rewrite st_short by lia; unfold psq_get; cbn [ps_count ps_heights];
    destruct (N.ltb_spec (N.of_nat L) (N.of_nat (length l))); [lia|];
    (assert (Ecnt : szsub (N.of_nat (length l)) 1 = N.of_nat (length l - 1)) by
      (rewrite szsub_small by (unfold szmod in *; lia); lia));
    rewrite Ecnt.
  { destruct (N.ltb_spec 1 (N.of_nat (length l))); [lia|].
    destruct (N.ltb_spec 0 (N.of_nat (length l))); [|lia]. rewrite Nat2N.id, nth_error_asc by lia. apply One. lia. }
  { destruct (N.ltb_spec 1 (N.of_nat (length l))); [|lia].
    destruct (Nat.eqb_spec index 0); [contradiction|]. destruct (Nat.eqb_spec index (1 + quantile_length F qs)); [|contradiction].
    rewrite Nat2N.id, nth_error_asc by lia. apply One. lia. }
  unfold quantile_length in I1. destruct index as [|i]; [contradiction|].
  destruct (nth_error qs i) as [q|] eqn:Eq.
  2:{ apply nth_error_None in Eq. lia. }
  pose proof (nth_error_In _ _ Eq) as Iq. unfold weights_ok in Hq. rewrite Forall_forall in Hq.
  destruct (Hq q Iq) as (w & Vq & Wb).
  destruct (few_value l vs i q w Eq Vq Wb Hr H2 Hb ltac:(lia)) as (os' & [Ho' _] & Z0 & Z1 & Fs & Fa & Fb & Hab & x & Ex & Vx).
  assert (Los' : length os' = length l).
  { rewrite <- (Permutation_length Ho'), <- (forall2_length F val _ _ H2). reflexivity. }
  eexists _, _. split; [exact Ex|]. split; [exact Vx|].
  set (rank := rnd (IZR (Z.of_nat (length l) - 1) * w)) in *.
  pose proof (Zfloor_lb rank). pose proof (Zfloor_ub rank).
  destruct (interpolation _ _ _ Fa Fb Hab Fs ltac:(lra)) as [I2 I3].
  split; eexists; (split; [|first [exact I2|exact I3]]); apply (Permutation_in _ (Permutation_sym Ho')); apply nth_In; lia.
Qed.

(** Every observer, before and after the markers are in use *)
Lemma float_get l vs index : weights_ok -> room prec (length l) -> Forall2 val l vs ->
  Forall (fun v => Rabs v <= bpow radix2 k) vs -> l <> [] -> (index <= length qs + 1)%nat ->
  exists x v, psq_get F qs (st F qs l) index = Some x /\ val x v /\ in_hull v vs.
Proof.
  intros Hq Hr H2 Hb Hne Hi.
  destruct (Nat.le_gt_cases (length l) L) as [Le|Gt].
  - apply few_get; try assumption. destruct l; [congruence|cbn in *; lia].
  - assert (B1 : 1 <= B) by (change (bpow radix2 30) with 1073741824 in one_B; lra).
    destruct (float_heights emin prec prec8 emin34 F val B C k k_emin k_B B1 qs l vs Hr H2 Hb ltac:(lia)) as (hs & V & _ & Hull).
    unfold psq_get. rewrite (st_count F qs l (room_fits prec F l Hr)).
    destruct (N.ltb_spec (N.of_nat L) (N.of_nat (length l))); [|lia].
    pose proof (st_lengths F qs l) as [_ Lh].
    assert (Li : (2 * index < L)%nat) by (unfold parameter_length, quantile_length; lia).
    rewrite (nth_error_nth' _ n0) by lia.
    exists (nth (2 * index) (ps_heights F (st F qs l)) n0), (nth (2 * index) hs 0).
    split; [reflexivity|]. split; [apply (forall2_nth F val); [exact V|lia]|].
    rewrite Forall_forall in Hull. apply Hull. apply nth_In.
    rewrite <- (forall2_length F val _ _ V). lia.
Qed.

(** After the markers are in use the estimates are in the order of their
    positions. *)
Lemma float_get_ordered l vs i j : room prec (length l) -> Forall2 val l vs ->
  Forall (fun v => Rabs v <= bpow radix2 k) vs -> (L < length l)%nat -> (i <= j)%nat -> (j <= length qs + 1)%nat ->
  exists x y v w, psq_get F qs (st F qs l) i = Some x /\ psq_get F qs (st F qs l) j = Some y /\
    val x v /\ val y w /\ v <= w.
Proof.
  intros Hr H2 Hb Gt Hij Hj.
  assert (B1 : 1 <= B) by (change (bpow radix2 30) with 1073741824 in one_B; lra).
  destruct (float_heights emin prec prec8 emin34 F val B C k k_emin k_B B1 qs l vs Hr H2 Hb ltac:(lia)) as (hs & V & So & _).
  unfold psq_get. rewrite (st_count F qs l (room_fits prec F l Hr)).
  destruct (N.ltb_spec (N.of_nat L) (N.of_nat (length l))); [|lia].
  pose proof (st_lengths F qs l) as [_ Lh].
  assert (Lj : (2 * j < L)%nat) by (unfold parameter_length, quantile_length; lia).
  rewrite !(nth_error_nth' _ n0) by lia.
  exists (nth (2 * i) (ps_heights F (st F qs l)) n0), (nth (2 * j) (ps_heights F (st F qs l)) n0), (nth (2 * i) hs 0), (nth (2 * j) hs 0).
  split; [reflexivity|]. split; [reflexivity|].
  split; [apply (forall2_nth F val); [exact V|lia]|]. split; [apply (forall2_nth F val); [exact V|lia]|].
  assert (Lhs : (2 * j < length hs)%nat) by (rewrite <- (forall2_length F val _ _ V); lia).
  assert (G : forall t, StronglySorted Rle t -> forall a b, (a <= b)%nat -> (b < length t)%nat -> nth a t 0 <= nth b t 0).
  { induction 1 as [|x t H1 IH H3]; intros a b Hab Hbt; [cbn in Hbt; lia|].
    destruct a as [|a], b as [|b]; cbn [nth]; cbn in Hbt; [lra| |lia|apply IH; lia].
    rewrite Forall_forall in H3. apply H3. apply nth_In. lia. }
  apply G; [exact So|lia|exact Lhs].
Qed.

End Few.
