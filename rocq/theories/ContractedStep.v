(** * One marker adjustment of P-square with contracted expressions

    The argument of PsquareFloat.v ([down_step]) when any of the three products
    of parabolic() is not rounded. *)

From Coq Require Import Reals ZArith NArith Bool List Lia Lra Psatz.
From Flocq Require Import Core Plus_error Relative.
From Verif Require Import Arith Approx Rounded RoundedProofs ApproxInstances PsquareFloat PsquareFew.
Import ListNotations.
Local Open Scope R_scope.

Section Step.
Variables emin prec : Z.
Hypothesis prec8 : (8 <= prec)%Z.
Hypothesis emin34 : (emin <= -34)%Z.
Local Lemma prec_pos : (0 < prec)%Z. Proof. lia. Qed.
Local Instance precgt4 : Prec_gt_0 prec := prec_pos.
Notation fexp := (FLT_exp emin prec).
Notation fmt := (generic_format radix2 fexp).
Notation rnd := (rounding emin prec ZnearestE).
Notation eta := (bpow radix2 emin).
Let rpos := PsquareFloat.rpos emin prec prec8.
Let rmono := PsquareFloat.rmono emin prec prec8.
Let rfix := PsquareFloat.rfix emin prec.
Let rfmt := PsquareFloat.rfmt emin prec prec8.
Let nearest_rel := PsquareFloat.nearest_rel emin prec prec8.
Let nearest_bounds := PsquareFloat.nearest_bounds emin prec prec8.
Let moved_small := PsquareFloat.moved_small emin prec prec8.
Let nearest_err := PsquareFloat.nearest_err emin prec prec8.

(** A product that is fused ([true]) is not rounded. *)
Definition sel (fuse : bool) (x : R) : R := if fuse then x else rnd x.

Lemma sel_pos b x : 0 <= x -> 0 <= sel b x.
Proof. destruct b; [trivial|apply rpos]. Qed.
Lemma sel_bounds b x : 0 <= x -> sel b x <= 257 / 256 * x + eta / 2.
Proof.
  intros H. pose proof (eta_pos emin). destruct b; cbn [sel]; [lra|]. apply nearest_bounds. exact H.
Qed.
Lemma sel_rel b x : 64 * eta <= x -> 63 / 64 * x <= sel b x <= 65 / 64 * x.
Proof.
  intros H. pose proof (eta_pos emin). destruct b; cbn [sel]; [lra|]. apply nearest_rel. exact H.
Qed.

Lemma down_step_fused b1 b2 b3 a c b f g K :
  fmt a -> fmt c -> fmt b -> a <= c -> c <= b ->
  1 <= f -> 2 <= g -> f + g <= bpow radix2 27 -> bpow radix2 63 <= K ->
  let x1 := rnd (c - a) in
  let u := rnd (x1 / K) in
  let w := sel b3 (rnd (1 / (f + g)) *
                rnd (sel b1 ((g - 1) * rnd (rnd (b - c) / f)) + sel b2 ((f + 1) * rnd (x1 / g)))) in
  let y := rnd (c - w) in
  (a < y /\ y < b) \/ (c <= rnd (c + u) <= b).
Proof.
  intros Fa Fc Fb Hac Hcb Hf Hg Ht HK x1 u w y.
  pose proof (eta_pos emin) as E0.
  assert (K0 : 0 < K) by (pose proof (bpow_gt_0 radix2 63); lra).
  assert (X1 : 0 <= x1) by (apply rpos; lra).
  assert (V0 : 0 <= x1 / K) by (apply Rmult_le_pos; [exact X1|apply Rlt_le, Rinv_0_lt_compat; exact K0]).
  assert (U0 : 0 <= u) by (apply rpos; exact V0).
  assert (Up : c <= rnd (c + u)).
  { apply Rle_trans with (rnd c); [rewrite (rfix c Fc); lra|]. apply rmono; lra. }
  destruct (Rle_or_lt (rnd (c + u)) b) as [OK|BAD]; [right; lra|left].
  assert (Mv : c < rnd (c + u)) by lra.
  pose proof (moved_small c u Fc U0 Mv) as Small.
  assert (Ug : b - c < u).
  { apply Rnot_le_lt. intros H. apply (Rlt_irrefl b). apply Rlt_le_trans with (1 := BAD).
    apply Rle_trans with (rnd b); [apply rmono; lra|rewrite (rfix b Fb); lra]. }
  assert (Un : u <> 0).
  { intros E. rewrite E, Rplus_0_r, (rfix c Fc) in Mv. lra. }
  assert (Ue : eta <= u).
  { rewrite <- (Rminus_0_r u). apply (fmt_gap emin prec); [apply rfmt|apply generic_format_0|lra]. }
  set (D := c - a) in *.
  assert (D0 : 0 <= D) by (unfold D; lra).
  (* the increment is tiny compared with the distance to the lower neighbour *)
  assert (Big : 2305843009213693952 * u <= D).
  { pose proof (nearest_bounds (x1 / K) V0) as [_ B1]. fold u in B1.
    pose proof (nearest_bounds D D0) as [_ B2]. fold x1 in B2.
    assert (B3 : x1 / K <= x1 / 9223372036854775808).
    { apply Rmult_le_compat_l; [exact X1|]. apply Rinv_le; [lra|].
      change 9223372036854775808 with (bpow radix2 63). exact HK. }
    lra. }
  assert (t0 : 0 < f + g) by lra.
  change (bpow radix2 27) with 134217728 in Ht.
  assert (R1 : 63 / 64 * D <= x1 <= 65 / 64 * D) by (apply nearest_rel; lra).
  set (x2 := rnd (x1 / g)) in *.
  assert (Ix : D / 134217728 * (63 / 64) <= x1 / g).
  { apply Rle_trans with (x1 / 134217728); [lra|].
    apply Rmult_le_compat_l; [exact X1|]. apply Rinv_le; lra. }
  assert (R2 : 63 / 64 * (x1 / g) <= x2 <= 65 / 64 * (x1 / g)) by (apply nearest_rel; lra).
  set (q := D / g) in *.
  assert (Q : 63 / 64 * q <= x1 / g <= 65 / 64 * q).
  { assert (G : 0 < / g) by (apply Rinv_0_lt_compat; lra). unfold q, Rdiv. split; nra. }
  assert (Qg : q * g = D) by (unfold q; field; lra).
  assert (Q0 : 0 < q) by nra.
  set (z := (f + 1) * x2) in *.
  set (B := sel b2 z) in *.
  assert (Zb : (63/64)*(63/64) * ((f + 1) * q) <= z <= (65/64)*(65/64) * ((f + 1) * q)).
  { unfold z. split; nra. }
  assert (Fq : 2 * q <= (f + 1) * q) by nra.
  assert (qbig : D / 134217728 <= q).
  { unfold q. apply Rmult_le_compat_l; [exact D0|]. apply Rinv_le; lra. }
  assert (R3 : 63 / 64 * z <= B <= 65 / 64 * z) by (apply sel_rel; lra).
  (* the other summand *)
  set (gb := rnd (b - c)) in *.
  assert (G0 : 0 <= gb) by (apply rpos; lra).
  pose proof (nearest_bounds (b - c) ltac:(lra)) as [_ G1]. fold gb in G1.
  assert (G2 : 0 <= gb / f <= gb).
  { split; [apply Rmult_le_pos; [exact G0|apply Rlt_le, Rinv_0_lt_compat; lra]|].
    apply Rle_trans with (gb * / 1); [|lra]. apply Rmult_le_compat_l; [exact G0|]. apply Rinv_le; lra. }
  set (gf := rnd (gb / f)) in *.
  assert (G3 : 0 <= gf) by (apply rpos; lra).
  pose proof (nearest_bounds (gb / f) ltac:(lra)) as [_ G4]. fold gf in G4.
  assert (G5 : gf <= 4 * u) by lra.
  assert (G6 : 0 <= (g - 1) * gf) by nra.
  set (A := sel b1 ((g - 1) * gf)) in *.
  assert (A0 : 0 <= A) by (apply sel_pos; exact G6).
  pose proof (sel_bounds b1 _ G6) as A1. fold A in A1.
  assert (A2 : A <= 5 * u * g) by nra.
  set (S := rnd (A + B)) in *.
  assert (R4 : 63 / 64 * (A + B) <= S <= 65 / 64 * (A + B)) by (apply nearest_rel; lra).
  set (r := rnd (1 / (f + g))) in *.
  assert (I1 : / 134217728 <= 1 / (f + g)).
  { unfold Rdiv. rewrite Rmult_1_l. apply Rinv_le; lra. }
  assert (E34 : eta <= / 17179869184).
  { change (/ 17179869184) with (bpow radix2 (-34)). apply bpow_le. exact emin34. }
  assert (R5 : 63 / 64 * (1 / (f + g)) <= r <= 65 / 64 * (1 / (f + g))) by (apply nearest_rel; lra).
  set (i := 1 / (f + g)) in *.
  assert (It : i * (f + g) = 1) by (unfold i; field; lra).
  assert (I0 : 0 < i) by lra.
  (* the exact prediction of the movement *)
  set (m := i * ((f + 1) * q)) in *.
  assert (M1 : m <= / 2 * D).
  { unfold m. assert (i * (f + 1) <= 1) by nra. assert (q <= / 2 * D) by nra. nra. }
  assert (M2 : D / 9007199254740992 <= m).
  { unfold m. assert (H1 : / 134217728 * (2 * (D / 134217728)) <= i * ((f + 1) * q)).
    { apply Rmult_le_compat; lra. }
    lra. }
  assert (Ai : i * A <= 5 * u).
  { assert (i * A <= i * (5 * u * g)) by (apply Rmult_le_compat_l; lra).
    assert (i * g <= 1) by nra. nra. }
  assert (iB : (63/64)*(63/64)*(63/64) * m <= i * B <= (65/64)*(65/64)*(65/64) * m).
  { unfold m. split.
    - apply Rle_trans with (i * (63 / 64 * ((63/64)*(63/64) * ((f + 1) * q)))); [right; ring|].
      apply Rmult_le_compat_l; lra.
    - apply Rle_trans with (i * (65 / 64 * ((65/64)*(65/64) * ((f + 1) * q)))); [|right; ring].
      apply Rmult_le_compat_l; lra. }
  assert (iA : 0 <= i * A) by (apply Rmult_le_pos; lra).
  assert (rS : (63/64)*(63/64) * (i * A + i * B) <= r * S <= (65/64)*(65/64) * (i * A + i * B)).
  { split.
    - apply Rle_trans with ((63/64 * i) * (63/64 * (A + B))); [right; ring|].
      apply Rmult_le_compat; lra.
    - apply Rle_trans with ((65/64 * i) * (65/64 * (A + B))); [|right; ring].
      apply Rmult_le_compat; lra. }
  assert (R6 : 63 / 64 * (r * S) <= w <= 65 / 64 * (r * S)) by (apply sel_rel; lra).
  assert (W1 : w <= 6 / 10 * D) by lra.
  assert (W2 : 200 * u <= w) by lra.
  (* the rounding error of the result *)
  pose proof (nearest_err (c - w)) as Er. fold y in Er.
  pose proof (Rabs_triang c (- w)) as Tr. fold (c - w) in Tr.
  rewrite Rabs_Ropp, (Rabs_pos_eq w) in Tr by lra.
  destruct (unit_small prec prec8) as [e0 e1].
  set (e := bpow radix2 (- prec)) in *.
  assert (Er2 : e * Rabs (c - w) <= 4 * u + / 256 * w).
  { apply Rle_trans with (e * (Rabs c + w)); [apply Rmult_le_compat_l; assumption|].
    assert (e * w <= / 256 * w) by (apply Rmult_le_compat_r; lra). lra. }
  apply Rabs_le_inv in Er. unfold D in *. lra.
Qed.

Hypothesis normal : (emin + prec <= 0)%Z.
Notation u := (bpow radix2 (- prec)).

(** Linear interpolation with a representable weight below 1 and a fused product
    does not leave the interval. *)
Lemma interpolation_fused a b s : fmt a -> fmt b -> a <= b -> fmt s -> 0 <= s < 1 ->
  a <= rnd (a + s * rnd (b - a)) <= b.
Proof.
  intros Fa Fb Hab Fs [S0 S1].
  assert (Su : s <= 1 - u) by (eapply below_one; eassumption).
  set (D := rnd (b - a)). assert (D0 : 0 <= D) by (apply rpos; lra).
  assert (P0 : 0 <= s * D) by (apply Rmult_le_pos; assumption).
  assert (E8 : 0 < u) by apply bpow_gt_0.
  assert (P1 : s * D <= b - a).
  { destruct (Rle_or_lt D (b - a)) as [Ok|Up]; [nra|].
    assert (Nf : ~ fmt (b - a)).
    { intros Fba. unfold D in Up. rewrite rfix in Up by assumption. lra. }
    assert (Large : bpow radix2 (prec + emin) < b - a).
    { apply Rnot_le_lt. intros H. apply Nf. unfold Rminus. apply FLT_format_plus_small; try typeclasses eauto.
      - exact Fb.
      - apply generic_format_opp. exact Fa.
      - rewrite Rabs_pos_eq by lra. exact H. }
    pose proof (error_le_half_ulp_round radix2 fexp (fun x => negb (Z.even x)) (b - a)) as Er.
    change (round radix2 fexp (Znearest (fun x => negb (Z.even x))) (b - a)) with D in Er.
    rewrite (Rabs_pos_eq (D - (b - a))) in Er by lra.
    pose proof (ulp_FLT_le radix2 emin prec D) as Ul. rewrite (Rabs_pos_eq D D0) in Ul.
    assert (B0 : bpow radix2 (emin + prec - 1) <= bpow radix2 (prec + emin)) by (apply bpow_le; lia).
    specialize (Ul ltac:(lra)).
    replace (1 - prec)%Z with (1 + - prec)%Z in Ul by lia. rewrite bpow_plus in Ul. change (bpow radix2 1) with 2 in Ul.
    assert (s * D <= (1 - u) * D) by (apply Rmult_le_compat_r; assumption). lra. }
  split.
  - apply Rle_trans with (rnd a); [rewrite rfix by assumption; lra|apply rmono; lra].
  - apply Rle_trans with (rnd b); [apply rmono; lra|rewrite rfix by assumption; lra].
Qed.

End Step.
