(** * P-square in rounded arithmetic: one marker adjustment

    The marker heights stay in order because the parabolic prediction is only
    used when it lies between the neighbours, and the linear prediction that is
    used otherwise does not pass a neighbour.  The second fact is not obvious
    for a marker that moves down: the code then divides by 2^64 - d and moves
    the height up by a small amount. *)

From Coq Require Import Reals ZArith NArith Bool List Lia Lra Psatz.
From Flocq Require Import Core.
From Verif Require Import Arith Approx Rounded RoundedProofs ApproxInstances.
Import ListNotations.
Local Open Scope R_scope.

Section Step.
Variables emin prec : Z.
Hypothesis prec8 : (8 <= prec)%Z.
Hypothesis emin34 : (emin <= -34)%Z.
Local Lemma prec_pos : (0 < prec)%Z. Proof. lia. Qed.
Local Lemma emin_neg : (emin <= 0)%Z. Proof. lia. Qed.
Local Instance precgt' : Prec_gt_0 prec := prec_pos.
Notation fexp := (FLT_exp emin prec).
Notation fmt := (generic_format radix2 fexp).
Notation rnd := (rounding emin prec ZnearestE).
Notation eta := (bpow radix2 emin).

Lemma rpos x : 0 <= x -> 0 <= rnd x.
Proof. apply rnd_pos; typeclasses eauto. Qed.
Lemma rmono x y : x <= y -> rnd x <= rnd y.
Proof. apply rnd_mono; typeclasses eauto. Qed.
Lemma rfix x : fmt x -> rnd x = x.
Proof. apply rnd_fix; typeclasses eauto. Qed.
Lemma rfmt x : fmt (rnd x).
Proof. apply rnd_fmt; typeclasses eauto. Qed.

Lemma eta_pos : 0 < eta.
Proof. apply bpow_gt_0. Qed.

Lemma unit_small : 0 <= bpow radix2 (- prec) <= / 256.
Proof.
  split; [apply bpow_ge_0|]. change (/ 256) with (bpow radix2 (-8)). apply bpow_le. lia.
Qed.

Lemma nearest_err x : Rabs (rnd x - x) <= bpow radix2 (- prec) * Rabs x + eta / 2.
Proof.
  pose proof (rounding_nearest emin prec prec_pos x) as H. unfold near in H.
  replace (bpow radix2 (emin - 1)) with (eta / 2) in H; [exact H|].
  unfold Zminus. rewrite bpow_plus. change (bpow radix2 (-(1))) with (/ 2). lra.
Qed.

Lemma nearest_bounds x : 0 <= x -> 255 / 256 * x - eta / 2 <= rnd x <= 257 / 256 * x + eta / 2.
Proof.
  intros H. pose proof (nearest_err x) as E. rewrite (Rabs_pos_eq x H) in E.
  apply Rabs_le_inv in E. destruct unit_small as [_ U].
  assert (bpow radix2 (- prec) * x <= / 256 * x) by (apply Rmult_le_compat_r; assumption). lra.
Qed.

Lemma nearest_rel x : 64 * eta <= x -> 63 / 64 * x <= rnd x <= 65 / 64 * x.
Proof. intros H. pose proof eta_pos. pose proof (nearest_bounds x ltac:(lra)). lra. Qed.

Lemma succ_gap c : fmt c -> ulp radix2 fexp c / 2 <= succ radix2 fexp c - c.
Proof.
  intros Fc. pose proof (ulp_ge_0 radix2 fexp c) as U.
  destruct (Rle_or_lt 0 c) as [P|P].
  - rewrite succ_eq_pos by exact P. lra.
  - unfold succ. rewrite Rle_bool_false by exact P. unfold pred_pos.
    destruct (Req_bool_spec (- c) (bpow radix2 (mag radix2 (- c) - 1))) as [E|E].
    + assert (B : ulp radix2 fexp c / 2 <= bpow radix2 (fexp (mag radix2 (- c) - 1))).
      { rewrite ulp_neq_0 by lra. unfold cexp. rewrite <- (mag_opp radix2 c).
        set (m := mag_val radix2 (- c) (mag radix2 (- c))).
        replace (bpow radix2 (fexp m) / 2) with (bpow radix2 (fexp m + -(1))).
        - apply bpow_le. unfold FLT_exp. lia.
        - rewrite bpow_plus. change (bpow radix2 (-(1))) with (/ 2). reflexivity. }
      lra.
    + rewrite ulp_opp. lra.
Qed.

(** If a small increment [u] is not rounded away then [c] is not large. *)
Lemma moved_small c u : fmt c -> 0 <= u -> c < rnd (c + u) ->
  Rabs c * bpow radix2 (- prec) < 4 * u.
Proof.
  intros Fc Hu L.
  assert (Z : rnd (c + u) <= c + 2 * u).
  { destruct (round_N_pt radix2 fexp (fun x => negb (Z.even x)) (c + u)) as [_ N].
    specialize (N c Fc). change (round radix2 fexp ZnearestE (c + u)) with (rnd (c + u)) in N.
    replace (c - (c + u)) with (- u) in N by ring. rewrite Rabs_Ropp, (Rabs_pos_eq u) in N by exact Hu.
    apply Rabs_le_inv in N. lra. }
  assert (S : succ radix2 fexp c <= rnd (c + u)).
  { apply succ_le_lt; [exact _|exact Fc| |exact L]. apply rfmt. }
  pose proof (succ_gap c Fc) as G.
  pose proof (ulp_FLT_gt radix2 emin prec c) as T. lra.
Qed.

(** The two predictions of a marker that moves down: [a], [c], [b] are the
    heights of the marker and its neighbours, [f] and [g] the distances between
    their positions, [K] the divisor used by linear(). *)
Lemma down_step a c b f g K :
  fmt a -> fmt c -> fmt b -> a <= c -> c <= b ->
  1 <= f -> 2 <= g -> f + g <= bpow radix2 27 -> bpow radix2 63 <= K ->
  let x1 := rnd (c - a) in
  let u := rnd (x1 / K) in
  let w := rnd (rnd (1 / (f + g)) *
                rnd (rnd ((g - 1) * rnd (rnd (b - c) / f)) + rnd ((f + 1) * rnd (x1 / g)))) in
  let y := rnd (c - w) in
  (a < y /\ y < b) \/ (c <= rnd (c + u) <= b).
Proof.
  intros Fa Fc Fb Hac Hcb Hf Hg Ht HK x1 u w y.
  pose proof eta_pos as E0.
  assert (K0 : 0 < K) by (pose proof (bpow_gt_0 radix2 63); lra).
  assert (X1 : 0 <= x1) by (apply rpos; lra).
  assert (V0 : 0 <= x1 / K) by (apply Rmult_le_pos; [exact X1|apply Rlt_le, Rinv_0_lt_compat; exact K0]).
  assert (U0 : 0 <= u) by (apply rpos; exact V0).
  assert (Up : c <= rnd (c + u)).
  { apply Rle_trans with (rnd c); [rewrite (rfix c Fc); lra|]. apply rmono; lra. }
  destruct (Rle_or_lt (rnd (c + u)) b) as [OK|BAD]; [right; lra|left].
  assert (Mv : c < rnd (c + u)) by lra.
  pose proof (moved_small c u Fc U0 Mv) as Small.
  assert (Ug : b - c < u).
  { apply Rnot_le_lt. intros H. apply (Rlt_irrefl b). apply Rlt_le_trans with (1 := BAD).
    apply Rle_trans with (rnd b); [apply rmono; lra|rewrite (rfix b Fb); lra]. }
  assert (Un : u <> 0).
  { intros E. rewrite E, Rplus_0_r, (rfix c Fc) in Mv. lra. }
  assert (Ue : eta <= u).
  { rewrite <- (Rminus_0_r u). apply (fmt_gap emin prec); [apply rfmt|apply generic_format_0|lra]. }
  set (D := c - a) in *.
  assert (D0 : 0 <= D) by (unfold D; lra).
  (* the increment is tiny compared with the distance to the lower neighbour *)
  assert (Big : 2305843009213693952 * u <= D).
  { pose proof (nearest_bounds (x1 / K) V0) as [_ B1]. fold u in B1.
    pose proof (nearest_bounds D D0) as [_ B2]. fold x1 in B2.
    assert (B3 : x1 / K <= x1 / 9223372036854775808).
    { apply Rmult_le_compat_l; [exact X1|]. apply Rinv_le; [lra|].
      change 9223372036854775808 with (bpow radix2 63). exact HK. }
    lra. }
  assert (t0 : 0 < f + g) by lra.
  change (bpow radix2 27) with 134217728 in Ht.
  assert (R1 : 63 / 64 * D <= x1 <= 65 / 64 * D) by (apply nearest_rel; lra).
  set (x2 := rnd (x1 / g)) in *.
  assert (Ix : D / 134217728 * (63 / 64) <= x1 / g).
  { apply Rle_trans with (x1 / 134217728); [lra|].
    apply Rmult_le_compat_l; [exact X1|]. apply Rinv_le; lra. }
  assert (R2 : 63 / 64 * (x1 / g) <= x2 <= 65 / 64 * (x1 / g)) by (apply nearest_rel; lra).
  set (q := D / g) in *.
  assert (Q : 63 / 64 * q <= x1 / g <= 65 / 64 * q).
  { assert (G : 0 < / g) by (apply Rinv_0_lt_compat; lra). unfold q, Rdiv. split; nra. }
  assert (Qg : q * g = D) by (unfold q; field; lra).
  assert (Q0 : 0 < q) by nra.
  set (z := (f + 1) * x2) in *.
  set (B := rnd z) in *.
  assert (Zb : (63/64)*(63/64) * ((f + 1) * q) <= z <= (65/64)*(65/64) * ((f + 1) * q)).
  { unfold z. split; nra. }
  assert (Fq : 2 * q <= (f + 1) * q) by nra.
  assert (qbig : D / 134217728 <= q).
  { unfold q. apply Rmult_le_compat_l; [exact D0|]. apply Rinv_le; lra. }
  assert (R3 : 63 / 64 * z <= B <= 65 / 64 * z) by (apply nearest_rel; lra).
  (* the other summand *)
  set (gb := rnd (b - c)) in *.
  assert (G0 : 0 <= gb) by (apply rpos; lra).
  pose proof (nearest_bounds (b - c) ltac:(lra)) as [_ G1]. fold gb in G1.
  assert (G2 : 0 <= gb / f <= gb).
  { split; [apply Rmult_le_pos; [exact G0|apply Rlt_le, Rinv_0_lt_compat; lra]|].
    apply Rle_trans with (gb * / 1); [|lra]. apply Rmult_le_compat_l; [exact G0|]. apply Rinv_le; lra. }
  set (gf := rnd (gb / f)) in *.
  assert (G3 : 0 <= gf) by (apply rpos; lra).
  pose proof (nearest_bounds (gb / f) ltac:(lra)) as [_ G4]. fold gf in G4.
  assert (G5 : gf <= 4 * u) by lra.
  assert (G6 : 0 <= (g - 1) * gf) by nra.
  set (A := rnd ((g - 1) * gf)) in *.
  assert (A0 : 0 <= A) by (apply rpos; exact G6).
  pose proof (nearest_bounds _ G6) as [_ A1]. fold A in A1.
  assert (A2 : A <= 5 * u * g) by nra.
  set (S := rnd (A + B)) in *.
  assert (R4 : 63 / 64 * (A + B) <= S <= 65 / 64 * (A + B)) by (apply nearest_rel; lra).
  set (r := rnd (1 / (f + g))) in *.
  assert (I1 : / 134217728 <= 1 / (f + g)).
  { unfold Rdiv. rewrite Rmult_1_l. apply Rinv_le; lra. }
  assert (E34 : eta <= / 17179869184).
  { change (/ 17179869184) with (bpow radix2 (-34)). apply bpow_le. exact emin34. }
  assert (R5 : 63 / 64 * (1 / (f + g)) <= r <= 65 / 64 * (1 / (f + g))) by (apply nearest_rel; lra).
  set (i := 1 / (f + g)) in *.
  assert (It : i * (f + g) = 1) by (unfold i; field; lra).
  assert (I0 : 0 < i) by lra.
  (* the exact prediction of the movement *)
  set (m := i * ((f + 1) * q)) in *.
  assert (M1 : m <= / 2 * D).
  { unfold m. assert (i * (f + 1) <= 1) by nra. assert (q <= / 2 * D) by nra. nra. }
  assert (M2 : D / 9007199254740992 <= m).
  { unfold m. assert (H1 : / 134217728 * (2 * (D / 134217728)) <= i * ((f + 1) * q)).
    { apply Rmult_le_compat; lra. }
    lra. }
  assert (Ai : i * A <= 5 * u).
  { assert (i * A <= i * (5 * u * g)) by (apply Rmult_le_compat_l; lra).
    assert (i * g <= 1) by nra. nra. }
  assert (iB : (63/64)*(63/64)*(63/64) * m <= i * B <= (65/64)*(65/64)*(65/64) * m).
  { unfold m. split.
    - apply Rle_trans with (i * (63 / 64 * ((63/64)*(63/64) * ((f + 1) * q)))); [right; ring|].
      apply Rmult_le_compat_l; lra.
    - apply Rle_trans with (i * (65 / 64 * ((65/64)*(65/64) * ((f + 1) * q)))); [|right; ring].
      apply Rmult_le_compat_l; lra. }
  assert (iA : 0 <= i * A) by (apply Rmult_le_pos; lra).
  assert (rS : (63/64)*(63/64) * (i * A + i * B) <= r * S <= (65/64)*(65/64) * (i * A + i * B)).
  { split.
    - apply Rle_trans with ((63/64 * i) * (63/64 * (A + B))); [right; ring|].
      apply Rmult_le_compat; lra.
    - apply Rle_trans with ((65/64 * i) * (65/64 * (A + B))); [|right; ring].
      apply Rmult_le_compat; lra. }
  assert (R6 : 63 / 64 * (r * S) <= w <= 65 / 64 * (r * S)) by (apply nearest_rel; lra).
  assert (W1 : w <= 6 / 10 * D) by lra.
  assert (W2 : 200 * u <= w) by lra.
  (* the rounding error of the result *)
  pose proof (nearest_err (c - w)) as Er. fold y in Er.
  pose proof (Rabs_triang c (- w)) as Tr. fold (c - w) in Tr.
  rewrite Rabs_Ropp, (Rabs_pos_eq w) in Tr by lra.
  destruct unit_small as [e0 e1].
  set (e := bpow radix2 (- prec)) in *.
  assert (Er2 : e * Rabs (c - w) <= 4 * u + / 256 * w).
  { apply Rle_trans with (e * (Rabs c + w)); [apply Rmult_le_compat_l; assumption|].
    assert (e * w <= / 256 * w) by (apply Rmult_le_compat_r; lra). lra. }
  apply Rabs_le_inv in Er. unfold D in *. lra.
Qed.

End Step.
