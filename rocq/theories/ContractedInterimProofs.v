(** * Error bounds for the interim filters with fused multiply-adds *)

From Coq Require Import Reals ZArith NArith Bool List Lra Lia Psatz.
From Flocq Require Import Core.
From Verif Require Import Arith History HistoryLemmas SpecStats StatsLemmas SpecBlocks BlockLemmas Buffer Cumulative
  CumulativeProofs CumulativeStats Window WindowProofs Interim InterimStats Approx AccuracyProofs AccuracyVariance AccuracyInterim
  Contracted ContractedInterim ContractedWindowProofs.
Import ListNotations.
Local Open Scope R_scope.

Section Accuracy.
Context {F : num} {val : F -> R -> Prop} {B e t : R} {K : N}.
Hypothesis AP : approx F val B e t K.
Hypothesis V0 : val (nofsz 0) 0.
Variable U : fused F.
Hypothesis AF : approx_fused F val B e t U.
Variable first : bool.

Local Notation He := (ap_e _ _ _ _ _ _ AP).
Local Notation Ht := (ap_t _ _ _ _ _ _ AP).

(** The weighted average of two values. *)
Lemma wavg_fma_err (x1 y1 x2 y2 c : F) a1 b1 a2 b2 p a wp wa X :
  val x1 a1 -> val y1 b1 -> val x2 a2 -> val y2 b2 -> a1 * b1 = p * wp -> a2 * b2 = a * wa -> val c (wp + wa) ->
  Rabs p <= X -> Rabs a <= X -> 0 <= wp -> 0 <= wa -> 1 <= wp + wa ->
  4 * (wp + wa) * X + 5 * t <= B ->
  exists r, val (ndiv (sum_fma F U first x1 y1 x2 y2) c) r /\
    Rabs (r - (p * wp + a * wa) / (wp + wa)) <= 7 * (e * X) + 11 * t.
Proof.
  intros V1 V1' V2 V2' Q1 Q2 Vc Hp Ha Wp Wa WD HB. pose proof He as [E0 E1]. pose proof Ht as T0.
  assert (X0 : 0 <= X) by (eapply Rle_trans; [apply Rabs_pos|exact Hp]).
  set (D := wp + wa) in *. set (S := p * wp + a * wa).
  assert (ET : 0 <= e * t <= t) by nra.
  assert (XP : Rabs (p * wp) <= X * wp).
  { rewrite Rabs_mult, (Rabs_pos_eq wp) by exact Wp. apply Rmult_le_compat_r; assumption. }
  assert (XA : Rabs (a * wa) <= X * wa).
  { rewrite Rabs_mult, (Rabs_pos_eq wa) by exact Wa. apply Rmult_le_compat_r; assumption. }
  assert (XD : 0 <= X * D) by (apply Rmult_le_pos; lra).
  assert (EXD : 0 <= e * (X * D) <= X * D) by nra.
  assert (EED : 0 <= e * (e * (X * D)) <= e * (X * D)) by nra.
  assert (S1 : Rabs S <= X * D).
  { unfold S, D. eapply Rle_trans; [apply Rabs_triang|]. lra. }
  assert (XW : X * wp <= X * D /\ X * wa <= X * D) by (unfold D; nra).
  assert (Es : exists s, val (sum_fma F U first x1 y1 x2 y2) s /\ Rabs (s - S) <= 3 * (e * (X * D)) + 5 * t).
  { assert (G : forall z s r, Rabs z <= X * D -> Rabs (r - z) <= e * Rabs z + t ->
      Rabs (s - (S - z + r)) <= e * Rabs (S - z + r) + t -> Rabs (s - S) <= 3 * (e * (X * D)) + 5 * t).
    { intros z s r Hz Hr Hs.
      assert (e * Rabs z <= e * (X * D)) by (apply Rmult_le_compat_l; assumption).
      assert (Rabs (S - z + r) <= X * D + (e * (X * D) + t)).
      { replace (S - z + r) with (S + (r - z)) by ring. eapply Rle_trans; [apply Rabs_triang|]. lra. }
      assert (e * Rabs (S - z + r) <= e * (X * D + (e * (X * D) + t))) by (apply Rmult_le_compat_l; assumption).
      replace (s - S) with ((s - (S - z + r)) + (r - z)) by ring. eapply Rle_trans; [apply Rabs_triang|]. lra. }
    assert (GB : forall z r, Rabs z <= X * D -> Rabs (r - z) <= e * Rabs z + t -> Rabs (S - z + r) <= B).
    { intros z r Hz Hr. assert (e * Rabs z <= e * (X * D)) by (apply Rmult_le_compat_l; assumption).
      replace (S - z + r) with (S + (r - z)) by ring. eapply Rle_trans; [apply Rabs_triang|]. lra. }
    unfold sum_fma. destruct first.
    - destruct (ap_mul _ _ _ _ _ _ AP _ _ _ _ V2 V2') as (r & Vr & Nr); [rewrite Q2; lra|]. rewrite Q2 in Nr. unfold near in Nr.
      assert (A : a1 * b1 + r = S - a * wa + r) by (unfold S; rewrite Q1; ring).
      destruct (af_fma _ _ _ _ _ _ AF _ _ _ _ _ _ V1 V1' Vr) as (s & Vs & Ns); [rewrite A; apply GB; [lra|exact Nr]|].
      exists s. split; [exact Vs|]. rewrite A in Ns. apply (G (a * wa) s r); [lra|exact Nr|exact Ns].
    - destruct (ap_mul _ _ _ _ _ _ AP _ _ _ _ V1 V1') as (r & Vr & Nr); [rewrite Q1; lra|]. rewrite Q1 in Nr. unfold near in Nr.
      assert (A : a2 * b2 + r = S - p * wp + r) by (unfold S; rewrite Q2; ring).
      destruct (af_fma _ _ _ _ _ _ AF _ _ _ _ _ _ V2 V2' Vr) as (s & Vs & Ns); [rewrite A; apply GB; [lra|exact Nr]|].
      exists s. split; [exact Vs|]. rewrite A in Ns. apply (G (p * wp) s r); [lra|exact Nr|exact Ns]. }
  destruct Es as (s & Vs & Es).
  assert (Bs : Rabs s <= X * D + 3 * (e * (X * D)) + 5 * t).
  { replace s with (S + (s - S)) by ring. eapply Rle_trans; [apply Rabs_triang|]. lra. }
  assert (ID : 0 < / D <= 1).
  { split; [apply Rinv_0_lt_compat; lra|]. rewrite <- Rinv_1. apply Rinv_le; lra. }
  assert (DK : forall z, Rabs (z / D) = Rabs z / D).
  { intros z. unfold Rdiv. rewrite Rabs_mult, (Rabs_pos_eq (/ D)) by lra. reflexivity. }
  assert (LE : forall x y z, z <= x * D + y -> 0 <= y -> z / D <= x + y).
  { intros x y z H Hy. apply Rmult_le_reg_r with D; [lra|]. unfold Rdiv. rewrite Rmult_assoc, Rinv_l by lra. nra. }
  assert (EX : 0 <= e * X <= X) by nra.
  assert (Bq : Rabs (s / D) <= 4 * X + 5 * t).
  { rewrite DK. apply LE; lra. }
  destruct (ap_div _ _ _ _ _ _ AP _ _ _ _ Vs Vc) as (q & Vq & Nq); [lra| |].
  { eapply Rle_trans; [exact Bq|]. nra. }
  unfold near in Nq. exists q. split; [exact Vq|].
  replace (q - S / D) with ((q - s / D) + (s - S) / D) by (unfold Rdiv; ring).
  eapply Rle_trans; [apply Rabs_triang|].
  assert (Z1 : e * Rabs (s / D) <= e * (4 * X + 5 * t)) by (apply Rmult_le_compat_l; assumption).
  assert (Z2 : Rabs ((s - S) / D) <= 3 * (e * X) + 5 * t).
  { rewrite DK. apply LE; lra. }
  lra.
Qed.

Section Duo.
Variable W : nat.
Hypothesis HW : (0 < W)%nat.
Context {S : Type}.
Variables (csize : S -> N) (cempty : S -> bool) (g : S -> F) (d : duo S) (s : nat) (p a E X : R).
Hypothesis Hs : csize (active d) = N.of_nat s.
Hypothesis Hp : @within F val (g (passive d)) p E X.
Hypothesis Ha : @within F val (g (active d)) a E X.
Hypothesis Hne : cempty (passive d) = false.

Lemma duo_mean_fma_err : (1 <= s <= W)%nat -> (2 * N.of_nat W < szmod)%N -> (2 * N.of_nat W <= K)%N ->
  8 * INR W * X + 5 * t <= B ->
  exists r, val (duo_mean_fma F U first (N.of_nat W) csize cempty g d) r /\
    Rabs (r - (p * (INR W - INR s) + a * (2 * INR s)) / (INR W + INR s)) <= E + 7 * (e * X) + 11 * t.
Proof.
  intros Hb H2 HK HB. pose proof He as [E0 E1]. pose proof Ht as T0.
  unfold duo_mean_fma. rewrite Hne, Hs.
  rewrite szsub_small, szmul_small, szadd_small by lia.
  destruct Hp as (pv & Vp & Ep & Xp). destruct Ha as (av & Va & Ea & Xa).
  assert (X0 : 0 <= X) by (eapply Rle_trans; [apply Rabs_pos|exact Xp]).
  assert (I0 : 1 <= INR s) by (apply (le_INR 1); lia).
  assert (I1 : INR s <= INR W) by (apply le_INR; lia).
  assert (C1 : IZR (Z.of_N (N.of_nat W - N.of_nat s)) = INR W - INR s).
  { rewrite <- Nat2N.inj_sub, inr_count, minus_INR by lia. reflexivity. }
  assert (C2 : IZR (Z.of_N (2 * N.of_nat s)) = 2 * INR s).
  { rewrite N2Z.inj_mul, mult_IZR, inr_count. reflexivity. }
  assert (C3 : IZR (Z.of_N (N.of_nat W + N.of_nat s)) = INR W - INR s + 2 * INR s).
  { rewrite <- Nat2N.inj_add, inr_count, plus_INR. ring. }
  pose proof (weight_val AP V0 (N.of_nat W - N.of_nat s) ltac:(lia)) as V1. rewrite C1 in V1.
  pose proof (weight_val AP V0 (2 * N.of_nat s) ltac:(lia)) as V2. rewrite C2 in V2.
  pose proof (weight_val AP V0 (N.of_nat W + N.of_nat s) ltac:(lia)) as V3. rewrite C3 in V3.
  destruct (wavg_fma_err _ _ _ _ _ pv (INR W - INR s) av (2 * INR s) pv av (INR W - INR s) (2 * INR s) X Vp V1 Va V2 eq_refl eq_refl V3) as (r & Vr & Er);
    try assumption; try lra.
  { replace (INR W - INR s + 2 * INR s) with (INR W + INR s) by ring. nra. }
  exists r. split; [exact Vr|].
  pose proof (wavg_diff pv av p a (INR W - INR s) (2 * INR s) E Ep Ea ltac:(lra) ltac:(lra) ltac:(lra)) as Df.
  replace (INR W + INR s) with (INR W - INR s + 2 * INR s) by ring.
  set (x := (pv * (INR W - INR s) + av * (2 * INR s)) / (INR W - INR s + 2 * INR s)) in *.
  set (y := (p * (INR W - INR s) + a * (2 * INR s)) / (INR W - INR s + 2 * INR s)) in *.
  replace (r - y) with ((r - x) + (x - y)) by ring. eapply Rle_trans; [apply Rabs_triang|]. lra.
Qed.

Lemma duo_variance_fma_err : (1 <= s <= W)%nat -> (N.of_nat W <= 4294967296)%N -> (N.of_nat W * N.of_nat W <= K)%N ->
  4 * (INR W * INR W) * X + 5 * t <= B ->
  let wp := (INR W - INR s + 1) ^ 2 in
  let wa := 2 * (INR s - 1) in
  exists r, val (duo_variance_fma F U first (N.of_nat W) csize cempty g d) r /\
    Rabs (r - (wp * p + wa * a) / (wp + wa)) <= E + 7 * (e * X) + 11 * t.
Proof.
  intros Hb H2 HK HB wp wa. pose proof He as [E0 E1]. pose proof Ht as T0.
  unfold duo_variance_fma. rewrite Hne, Hs.
  destruct Hp as (pv & Vp & Ep & Xp). destruct Ha as (av & Va & Ea & Xa).
  assert (X0 : 0 <= X) by (eapply Rle_trans; [apply Rabs_pos|exact Xp]).
  assert (EX : 0 <= e * X) by (apply Rmult_le_pos; lra).
  assert (I1 : 1 <= INR s <= INR W) by (split; [apply (le_INR 1)|apply le_INR]; lia).
  destruct (N.leb_spec (N.of_nat s) 1) as [H3|H3].
  { assert (s = 1%nat) by lia. subst s. exists pv. split; [exact Vp|].
    replace ((wp * p + wa * a) / (wp + wa)) with p; [lra|].
    unfold wp, wa. change (INR 1) with 1. cbn in I1. field. nra. }
  unfold szmod in *.
  assert (Hk : (N.of_nat W - (N.of_nat s - 1) <= 4294967295)%N) by lia.
  assert (Hk1 : (1 <= N.of_nat W - (N.of_nat s - 1))%N) by lia.
  set (k := (N.of_nat W - (N.of_nat s - 1))%N) in *. set (j := (N.of_nat s - 1)%N) in *.
  assert (Hj : (1 <= j /\ k + j = N.of_nat W)%N) by (unfold j, k; lia).
  assert (Hsq : (k * k + 2 * j <= N.of_nat W * N.of_nat W)%N).
  { destruct Hj as [J1 <-]. nia. }
  assert (Hw : (k * k + 2 * j < szmod)%N).
  { unfold szmod. nia. }
  rewrite (szsub_small (N.of_nat s) 1) by (unfold szmod; lia). fold j.
  rewrite (szsub_small (N.of_nat W)) by (unfold szmod, j; lia). fold k.
  rewrite !szmul_small by lia. rewrite szadd_small by lia.
  assert (Ck : IZR (Z.of_N k) = INR W - INR s + 1).
  { replace k with (N.of_nat (W - (s - 1))) by (unfold k, j; lia). rewrite inr_count.
    rewrite (minus_INR W (s - 1)), (minus_INR s 1) by lia. cbn [INR]. ring. }
  assert (Cj : IZR (Z.of_N j) = INR s - 1).
  { replace j with (N.of_nat (s - 1)) by (unfold j; lia). rewrite inr_count, (minus_INR s 1) by lia. reflexivity. }
  assert (C1 : IZR (Z.of_N (k * k)) = wp) by (rewrite N2Z.inj_mul, mult_IZR, Ck; unfold wp; ring).
  assert (C2 : IZR (Z.of_N (2 * j)) = wa) by (rewrite N2Z.inj_mul, mult_IZR, Cj; reflexivity).
  assert (C3 : IZR (Z.of_N (k * k + 2 * j)) = wp + wa) by (rewrite N2Z.inj_add, plus_IZR, C1, C2; reflexivity).
  pose proof (weight_val AP V0 (k * k) ltac:(lia)) as V1. rewrite C1 in V1.
  pose proof (weight_val AP V0 (2 * j) ltac:(lia)) as V2. rewrite C2 in V2.
  pose proof (weight_val AP V0 (k * k + 2 * j) ltac:(lia)) as V3. rewrite C3 in V3.
  assert (P1 : 1 <= wp) by (unfold wp; nra).
  assert (P2 : 0 <= wa) by (unfold wa; lra).
  assert (P3 : wp + wa <= INR W * INR W).
  { rewrite <- C3, <- !inr_count, <- mult_IZR, <- N2Z.inj_mul. apply IZR_le. lia. }
  assert (P4 : (wp + wa) * X <= INR W * INR W * X) by (apply Rmult_le_compat_r; assumption).
  assert (P5 : 0 <= wp * X) by (apply Rmult_le_pos; lra).
  assert (P6 : 0 <= wa * X) by (apply Rmult_le_pos; lra).
  destruct (wavg_fma_err _ _ _ _ _ wp pv wa av pv av wp wa X V1 Vp V2 Va (Rmult_comm _ _) (Rmult_comm _ _) V3) as (r & Vr & Er);
    try assumption; try lra.
  exists r. split; [exact Vr|].
  pose proof (wavg_diff pv av p a wp wa E Ep Ea ltac:(lra) ltac:(lra) ltac:(lra)) as Df.
  rewrite (Rmult_comm wp p), (Rmult_comm wa a).
  set (x := (pv * wp + av * wa) / (wp + wa)) in *.
  set (y := (p * wp + a * wa) / (wp + wa)) in *.
  replace (r - y) with ((r - x) + (x - y)) by ring. eapply Rle_trans; [apply Rabs_triang|]. lra.
Qed.
End Duo.

Variable f : F -> R.

Lemma imean_fma_accuracy W M l : (0 < W)%nat -> 0 <= M -> l <> [] -> Forall (@tame F val f M) (lastn (2 * W) l) ->
  (2 * N.of_nat W <= K)%N -> (2 * N.of_nat W < szmod)%N -> 16 * INR W * e <= 1 ->
  16 * M + 60 * INR W * t <= B -> 24 * INR W * M + 112 * (INR W * INR W * t) + 5 * t <= B ->
  let c := map f (cur_block W l) in
  let q := map f (prev_block W l) in
  let bound := (INR W + 46) * (e * M) + (3 * INR W + 29) * t in
  exists r, val (imean_mean_fma F U first (N.of_nat W) (Duo (fold_left (cmean_push F) (cur_block W l) (cmean_init F))
                                               (fold_left (cmean_push F) (prev_block W l) (cmean_init F)))) r /\
    ((length l <= W)%nat -> Rabs (r - mean (map f l)) <= bound) /\
    ((W < length l)%nat ->
     Rabs (r - (mean q * (INR W - card c) + mean c * (2 * card c)) / (INR W + card c)) <= bound).
Proof.
  intros HW M0 NE HT HK HS H16 HB HB2 c q bound. pose proof He as [E0 E1]. pose proof Ht as T0.
  destruct (recent_blocks (@tame F val f M) W l HW HT) as [Tc Tp].
  pose proof (cur_block_le W HW l) as Lc. pose proof (prev_block_le W HW l) as Lp.
  pose proof (cur_block_pos W HW l NE) as Pc.
  assert (NEc : cur_block W l <> []) by (destruct (cur_block W l); [cbn in Pc; lia|congruence]).
  assert (W1 : 1 <= INR W) by (apply (le_INR 1); lia).
  assert (EM : 0 <= e * M) by (apply Rmult_le_pos; lra).
  assert (WT : 0 <= INR W * t) by (apply Rmult_le_pos; lra).
  pose proof (block_mean AP f W M _ M0 NEc Lc Tc ltac:(lia) ltac:(lia) H16 HB) as Hc.
  unfold imean_mean_fma. destruct (Nat.le_gt_cases (length l) W) as [H|H].
  - destruct (short_blocks W HW l H) as [E1' E2']. rewrite E1' in Hc. rewrite E1', E2'.
    destruct Hc as (r & Vr & Er & _). exists r. split; [exact Vr|]. split; [|lia]. intros _.
    unfold bound. lra.
  - pose proof (long_prev W HW l H) as Lq.
    assert (NEp : prev_block W l <> []) by (intros Z; rewrite Z in Lq; cbn in Lq; lia).
    pose proof (block_mean AP f W M _ M0 NEp Lp Tp ltac:(lia) ltac:(lia) H16 HB) as Hp.
    destruct (duo_mean_fma_err W HW (cmean_size F) (cmean_empty F) (cmean_mean F)
      (Duo (fold_left (cmean_push F) (cur_block W l) (cmean_init F)) (fold_left (cmean_push F) (prev_block W l) (cmean_init F)))
      (length (cur_block W l)) (mean q) (mean c) _ _
      ltac:(cbn [active]; apply cmean_csize; lia) Hp Hc) as (r & Vr & Er).
    + unfold cmean_empty. cbn [passive].
      change (N.eqb (cmean_size F (fold_left (cmean_push F) (prev_block W l) (cmean_init F))) 0 = false).
      rewrite cmean_csize by lia. apply N.eqb_neq. lia.
    + lia. + lia. + lia.
    + replace (8 * INR W * (3 * M + 14 * INR W * t)) with (24 * INR W * M + 112 * (INR W * INR W * t)) by ring. exact HB2.
    + exists r. split; [exact Vr|]. split; [lia|]. intros _. unfold card.
      replace (length c) with (length (cur_block W l)) by (unfold c; rewrite map_length; reflexivity).
      eapply Rle_trans; [exact Er|].
      assert (98 * (e * (INR W * t)) <= 7 * t).
      { replace (98 * (e * (INR W * t))) with ((98 / 16) * ((16 * INR W * e) * t)) by field.
        assert (16 * INR W * e * t <= 1 * t) by (apply Rmult_le_compat_r; assumption). lra. }
      unfold bound. lra.
Qed.

Lemma duo_block_fma_accuracy {S A C : Type} (W : nat) (Mx My : R) (l : list A)
  (cpush : S -> A -> S) (cinit : S) (csize : S -> N) (cempty : S -> bool) (g : S -> F) (h : list A -> list C) (v : list C -> R) :
  (0 < W)%nat -> l <> [] -> @fine B e t Mx My (INR W) ->
  (N.of_nat W * N.of_nat W <= K)%N -> (N.of_nat W <= 4294967296)%N ->
  416 * (INR W * INR W * (Mx * My)) + 60 * (INR W * INR W * t) + 5 * t <= B ->
  (forall c, (length c <= W)%nat -> csize (fold_left cpush c cinit) = N.of_nat (length c)) ->
  (forall s, cempty s = N.eqb (csize s) 0) ->
  (forall c, c = cur_block W l \/ c = prev_block W l -> c <> [] -> (length c <= W)%nat ->
     Rabs (v (h c)) <= 4 * (Mx * My) /\
     exists r, val (g (fold_left cpush c cinit)) r /\ Rabs (r - v (h c)) <= 5 * @verr e t Mx My (INR (length c))) ->
  let s := INR (length (cur_block W l)) in
  let wp := (INR W - s + 1) ^ 2 in
  let wa := 2 * (s - 1) in
  let bound := 5 * ((14 * INR W + 454) * (e * (Mx * My)) + (3 * INR W + 13) * (4 * Mx + 6 * My) * t + 27 * t) in
  exists r, val (duo_variance_fma F U first (N.of_nat W) csize cempty g
      (Duo (fold_left cpush (cur_block W l) cinit) (fold_left cpush (prev_block W l) cinit))) r /\
    ((length l <= W)%nat -> Rabs (r - v (h l)) <= bound) /\
    ((W < length l)%nat -> Rabs (r - (wp * v (h (prev_block W l)) + wa * v (h (cur_block W l))) / (wp + wa)) <= bound).
Proof.
  intros HW NE Fi HK H32 HB Hsz Hem Hacc s wp wa bound. pose proof He as [E0 E1]. pose proof Ht as T0.
  pose proof (cur_block_le W HW l) as Lc. pose proof (prev_block_le W HW l) as Lp.
  pose proof (cur_block_pos W HW l NE) as Pc.
  assert (NEc : cur_block W l <> []) by (destruct (cur_block W l); [cbn in Pc; lia|congruence]).
  destruct Fi as (X0 & Y0 & Fi'). assert (Fi : @fine B e t Mx My (INR W)) by (split; [exact X0|split; [exact Y0|exact Fi']]).
  assert (P : 0 <= Mx * My) by (apply Rmult_le_pos; lra).
  assert (Q : 0 <= e * (Mx * My)) by (apply Rmult_le_pos; lra).
  assert (ET : 0 <= e * t <= t) by nra.
  assert (BK : forall c, c = cur_block W l \/ c = prev_block W l -> c <> [] -> (length c <= W)%nat ->
    @within F val (g (fold_left cpush c cinit)) (v (h c)) (5 * @verr e t Mx My (INR W)) (104 * (Mx * My) + 15 * t)).
  { intros c Hc1 Hc2 Hc3. destruct (Hacc c Hc1 Hc2 Hc3) as [Bv Ex].
    apply (block_within AP _ _ (INR (length c))); [split; [apply inr_ge1; exact Hc2|apply le_INR; exact Hc3]|exact Fi|exact Bv|exact Ex]. }
  pose proof (BK _ (or_introl eq_refl) NEc Lc) as Hc.
  destruct (Nat.le_gt_cases (length l) W) as [H|H].
  - destruct (short_blocks W HW l H) as [E1' E2']. rewrite E1' in Hc. rewrite E1', E2'.
    unfold duo_variance_fma. cbn [active passive]. rewrite Hem, Hsz by (cbn; lia). cbn [length N.of_nat N.eqb].
    destruct Hc as (r & Vr & Er & _). exists r. split; [exact Vr|]. split; [|lia]. intros _.
    unfold bound. rewrite verr_closed in Er. lra.
  - pose proof (long_prev W HW l H) as Lq.
    assert (NEp : prev_block W l <> []) by (intros Z; rewrite Z in Lq; cbn in Lq; lia).
    pose proof (BK _ (or_intror eq_refl) NEp Lp) as Hp.
    destruct (duo_variance_fma_err W HW csize cempty g
      (Duo (fold_left cpush (cur_block W l) cinit) (fold_left cpush (prev_block W l) cinit))
      (length (cur_block W l)) _ _ _ _
      ltac:(cbn [active]; apply Hsz; lia) Hp Hc) as (r & Vr & Er).
    + cbn [passive]. rewrite Hem, Hsz by lia. apply N.eqb_neq. lia.
    + lia. + exact H32. + exact HK.
    + replace (4 * (INR W * INR W) * (104 * (Mx * My) + 15 * t))
        with (416 * (INR W * INR W * (Mx * My)) + 60 * (INR W * INR W * t)) by ring. exact HB.
    + exists r. split; [exact Vr|]. split; [lia|]. intros _. eapply Rle_trans; [exact Er|].
      unfold bound. rewrite verr_closed. lra.
Qed.
End Accuracy.
