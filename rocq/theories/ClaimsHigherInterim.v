(** * Claim C88, continued: accuracy of interim skewness and kurtosis in binary64 *)

From Coq Require Import Reals ZArith NArith List Bool.
From Coq Require Import Floats.SpecFloat.
From Flocq Require Import Core.
From Verif Require Import Arith History SpecStats SpecBlocks Cumulative Interim Binary64.
Import ListNotations.
Local Open Scope R_scope.
(* @end-header *)
From Coq Require Import Lia Lra Psatz.
From Flocq Require Import BinarySingleNaN.
From Verif Require Import HistoryLemmas StatsLemmas BlockLemmas CumulativeProofs WindowProofs InterimStats
  Binary64Cumulative Approx ApproxInstances AccuracyProofs AccuracyVariance AccuracyRegression AccuracyHigher
  AccuracyInterim AccuracyInterimHigher ClaimsAccuracy ClaimsRegression ClaimsHigher.

Lemma iskew_run_state (F : num) W ops : (0 < W)%nat -> (N.of_nat W < szmod)%N ->
  run (iskew_push F (N.of_nat W)) (iskew_clear F) (iskew_init F) ops =
  Duo (fold_left (cskew_push F) (cur_block W (since_clear ops)) (cskew_init F))
      (fold_left (cskew_push F) (prev_block W (since_clear ops)) (cskew_init F)).
Proof.
  intros HW HS. unfold iskew_push, iskew_clear, iskew_init.
  apply (duo_run W HW); [lia|reflexivity|apply cskew_csize].
Qed.

Lemma ikurt_run_state (F : num) W ops : (0 < W)%nat -> (N.of_nat W < szmod)%N ->
  run (ikurt_push F (N.of_nat W)) (ikurt_clear F) (ikurt_init F) ops =
  Duo (fold_left (ckurt_push F) (cur_block W (since_clear ops)) (ckurt_init F))
      (fold_left (ckurt_push F) (prev_block W (since_clear ops)) (ckurt_init F)).
Proof.
  intros HW HS. unfold ikurt_push, ikurt_clear, ikurt_init.
  apply (duo_run W HW); [lia|reflexivity|apply ckurt_csize].
Qed.

Section Block.
Variables (M V : R) (W : nat) (c : list b64).
Let u : R := bpow radix2 (-53).
Let z : R := M / sqrt V.
Let rho : R := M * M / V.
Hypothesis NE : c <> [].
Hypothesis LW : (length c <= W)%nat.
Hypothesis HM : bpow radix2 (-200) <= M <= bpow radix2 200.
Hypothesis HF : Forall (fun x => b64_finite x /\ Rabs (b64_real x) <= M) c.
Hypothesis VP : 0 < V.
Hypothesis HV : V <= variance (map b64_real c).

Lemma M_p : 0 < M. Proof. pose proof (bp (-200)). lra. Qed.

Lemma rho_mono : 0 < M * M / variance (map b64_real c) <= rho.
Proof.
  pose proof M_p. assert (0 < M * M) by (apply Rmult_lt_0_compat; lra). split; [apply Rdiv_lt_0_compat; lra|].
  unfold rho, Rdiv. apply Rmult_le_compat_l; [lra|]. apply Rinv_le_contravar; lra.
Qed.

Lemma z_mono : 0 < M / sqrt (variance (map b64_real c)) <= z.
Proof.
  pose proof M_p. pose proof (sqrt_lt_R0 V VP). pose proof (sqrt_lt_R0 (variance (map b64_real c)) ltac:(lra)).
  split; [apply Rdiv_lt_0_compat; lra|]. unfold z, Rdiv. apply Rmult_le_compat_l; [lra|].
  apply Rinv_le_contravar; [lra|]. apply sqrt_le_1; lra.
Qed.

Lemma cond_mono k : 0 <= k -> k * ((28 * INR W + 618) * rho) * u <= 1 ->
  k * ((28 * INR (length c) + 618) * (M * M / variance (map b64_real c))) * u <= 1.
Proof.
  intros K0 H. eapply Rle_trans; [|exact H]. apply Rmult_le_compat_r; [left; apply bp|].
  apply Rmult_le_compat_l; [exact K0|]. pose proof rho_mono. pose proof (le_INR _ _ LW). pose proof (pos_INR (length c)).
  apply Rmult_le_compat; lra.
Qed.

Lemma v_size : M * M / V <= bpow radix2 53 -> bpow radix2 (-453) <= V.
Proof.
  intros R1. destruct (pow_bound M _ _ HM) as (P2 & _). change (2 * -200)%Z with (-400)%Z in P2. pose proof (bp (-400)).
  apply (Rmult_le_reg_l (M * M / V)); [apply Rdiv_lt_0_compat; lra|]. replace (M * M / V * V) with (M * M) by (field; lra).
  apply Rle_trans with (bpow radix2 53 * bpow radix2 (-453)); [apply Rmult_le_compat_r; [left; apply bp|exact R1]|].
  rewrite bp_mul. change (53 + -453)%Z with (-400)%Z. lra.
Qed.

Definition skew_bound : R := (664 * INR W + 15500) * (u * (z * z * z)) + bpow radix2 (-52) / (V * sqrt V).
Definition kurt_bound : R := (4140 * INR W + 96000) * (u * (rho * rho)) + bpow radix2 (-52) / (V * V).

Lemma close_within (x : b64) v E Y r : denotes x r -> Rabs (r - v) <= E -> 0 <= v <= Y ->
  within (F := b64num) (val := denotes) x v E (Y + E).
Proof.
  intros D H Hv. exists r. split; [exact D|]. split; [exact H|]. pose proof (close_abs _ _ _ H) as A.
  rewrite (Rabs_pos_eq v) in A by lra. lra.
Qed.

Lemma inv_mono a b : 0 < a -> a <= b -> bpow radix2 (-52) / b <= bpow radix2 (-52) / a.
Proof. intros A H. unfold Rdiv. apply Rmult_le_compat_l; [left; apply bp|]. apply Rinv_le_contravar; lra. Qed.

Lemma skew_block : (Z.of_nat W <= 2 ^ 40)%Z -> 128 * ((28 * INR W + 618) * rho) * u <= 1 ->
  within (F := b64num) (val := denotes) (cskew_skewness b64num (fold_left (cskew_push b64num) c (cskew_init b64num)))
    (Rmax 0 (skewness (map b64_real c))) skew_bound (2 * z + skew_bound) /\ 1 <= z.
Proof.
  intros Hn HR. set (lv := map b64_real c) in *. set (n := INR (length c)).
  assert (Hc : (Z.of_nat (length c) <= 2 ^ 40)%Z) by lia.
  assert (VP' : 0 < variance lv) by lra.
  pose proof (cond_mono 128 ltac:(lra) HR) as HR'. fold lv n in HR'.
  destruct (skew_side M c NE Hc HM HF VP' HR') as (DL & Hmag & TR & BR & ZB & _).
  fold lv in ZB. pose proof (inr_le c 40 ltac:(lia) Hc) as Hn'. fold n in Hn'.
  assert (N1 : 1 <= n) by (apply inr_ge1; exact NE).
  pose proof (tame_b64 M n (conj N1 Hn') HM) as TM.
  assert (HK : (N.of_nat (length (c : list b64num)) <= Z.to_N (2 ^ 53))%N) by (apply (b64_count c 40); [lia|exact Hc]).
  assert (HS : (N.of_nat (length (c : list b64num)) < szmod)%N) by (apply (b64_small c 40); [lia|exact Hc]).
  pose proof z_mono as Zm. fold lv in Zm. pose proof (le_INR _ _ LW) as NW. fold n in NW.
  destruct (z_1 (F := b64num) (val := denotes) _ M c lv TM DL Hmag VP') as (Z1 & _ & _).
  destruct (skew_clip approx_b64 e16 lit_b64 zero_b64 _ wrap_b64 sqrt_b64 _ eps_b64 M c lv TM DL Hmag HK HS VP' HR' TR BR) as (f & D & H).
  - eapply Rle_trans; [exact ZB|]. apply bp_le. lia.
  - left. apply bp.
  - exact denotes_zero.
  - split; [|lra]. apply (close_within _ _ _ (2 * z) f D).
    + eapply Rle_trans; [exact H|]. unfold skew_err, skew_bound. fold u lv. repeat match goal with |- context [INR (length ?x)] => change (INR (length x)) with n end.
      pose proof (sqrt_lt_R0 V VP) as SP. assert (SM : sqrt V <= sqrt (variance lv)) by (apply sqrt_le_1; lra).
      set (y := M / sqrt (variance lv)) in *.
      assert (Z2 : 0 <= y * y <= z * z) by (split; [apply Rmult_le_pos|apply Rmult_le_compat]; lra).
      assert (Z3 : 0 <= y * y * y <= z * z * z) by (split; [apply Rmult_le_pos|apply Rmult_le_compat]; lra).
      pose proof (bp (-53)) as U0. fold u in U0.
      assert (uZ : 0 <= u * (y * y * y) <= u * (z * z * z)) by (split; [apply Rmult_le_pos|apply Rmult_le_compat_l]; lra).
      apply Rplus_le_compat; [apply Rmult_le_compat; lra|].
      assert (VS : V * sqrt V <= variance lv * sqrt (variance lv)) by (apply Rmult_le_compat; lra).
      assert (V0 : 0 < V * sqrt V) by (apply Rmult_lt_0_compat; lra).
      apply inv_mono; [exact V0|]. rewrite <- (Rmult_1_l (V * sqrt V)). apply Rmult_le_compat; lra.
    + split; [apply Rmax_l|]. eapply Rle_trans; [apply (skew_size (F := b64num) (val := denotes) _ M c lv TM DL Hmag VP')|].
      apply Rmult_le_compat_l; lra.
Qed.

Lemma kurt_block : (Z.of_nat W <= 2 ^ 26)%Z -> 1024 * ((28 * INR W + 618) * rho) * u <= 1 ->
  within (F := b64num) (val := denotes) (ckurt_kurtosis b64num (fold_left (ckurt_push b64num) c (ckurt_init b64num)))
    (kurtosis (map b64_real c)) kurt_bound (4 * rho + kurt_bound) /\ 1 <= rho.
Proof.
  intros Hn HR. set (lv := map b64_real c) in *. set (n := INR (length c)).
  assert (Hc : (Z.of_nat (length c) <= 2 ^ 26)%Z) by lia.
  assert (VP' : 0 < variance lv) by lra.
  pose proof (cond_mono 1024 ltac:(lra) HR) as HR'. fold lv n in HR'.
  destruct (kurt_side M c NE Hc HM HF VP' HR') as ((DL & Hmag & TR & BR & ZB & _) & HR2 & H1 & H2 & H3 & H4 & H5 & H6 & H7 & H8 & N1 & Hn').
  change (1 <= n) in N1. change (n <= bpow radix2 40) in Hn'.
  pose proof (tame_b64 M n (conj N1 Hn') HM) as TM.
  assert (HK : (N.of_nat (length (c : list b64num)) <= Z.to_N (2 ^ 53))%N) by (apply (b64_count c 26); [lia|exact Hc]).
  assert (HS : (N.of_nat (length (c : list b64num)) < szmod)%N) by (apply (b64_small c 26); [lia|exact Hc]).
  pose proof rho_mono as Rm. fold lv in Rm. pose proof (le_INR _ _ LW) as NW. fold n in NW.
  pose proof (rho_1 (F := b64num) (val := denotes) _ M c lv TM DL Hmag VP') as R1.
  destruct (kurt_all approx_b64 e16 lit_b64 zero_b64 _ wrap_b64 _ eps_b64 M c lv TM DL Hmag) as (f & D & H); try assumption.
  - left. apply bp.
  - exact denotes_zero.
  - split; [|lra]. apply (close_within _ _ _ (4 * rho) f D).
    + eapply Rle_trans; [exact H|]. unfold kurt_err, kurt_bound. fold u lv. repeat match goal with |- context [INR (length ?x)] => change (INR (length x)) with n end.
      set (y := M * M / variance lv) in *.
      assert (Z2 : 0 <= y * y <= rho * rho) by (split; [apply Rmult_le_pos|apply Rmult_le_compat]; lra).
      pose proof (bp (-53)) as U0. fold u in U0.
      assert (uZ : 0 <= u * (y * y) <= u * (rho * rho)) by (split; [apply Rmult_le_pos|apply Rmult_le_compat_l]; lra).
      apply Rplus_le_compat; [apply Rmult_le_compat; lra|].
      assert (VS : V * V <= variance lv * variance lv) by (apply Rmult_le_compat; lra).
      assert (V0 : 0 < V * V) by (apply Rmult_lt_0_compat; lra).
      apply inv_mono; [exact V0|]. rewrite <- (Rmult_1_l (V * V)). apply Rmult_le_compat; lra.
    + pose proof (kurt_range (F := b64num) (val := denotes) _ M c lv TM DL Hmag VP') as KR. lra.
Qed.
End Block.

(** Sizes for the weighted average. *)
Lemma skew_sizes (M V : R) (W : nat) : (0 < W)%nat -> (Z.of_nat W <= 2 ^ 40)%Z -> bpow radix2 (-200) <= M <= bpow radix2 200 -> 0 < V ->
  128 * ((28 * INR W + 618) * (M * M / V)) * bpow radix2 (-53) <= 1 -> 1 <= M / sqrt V ->
  let u := bpow radix2 (-53) in
  let t := bpow radix2 (-1075) in
  let z := M / sqrt V in
  let P := bpow radix2 (-52) / (V * sqrt V) in
  let E := skew_bound M V W in
  8 * INR W * (2 * z + E) + 5 * t <= bpow radix2 1023 /\
  0 <= E <= (664 * INR W + 15520) * (u * (z * z * z)) + 2 * P /\
  E + 7 * (u * (2 * z + E)) + 11 * t <= (664 * INR W + 15520) * (u * (z * z * z)) + 2 * P.
Proof.
  intros HW HWb HM VP HR Z1 u t z P E. fold z in Z1. fold u in HR.
  assert (W1 : 1 <= INR W) by (apply (le_INR 1); lia).
  assert (WB : INR W <= bpow radix2 40).
  { rewrite INR_IZR_INZ. change (bpow radix2 40) with (IZR (2 ^ 40)). apply IZR_le. exact HWb. }
  pose proof (sqrt_lt_R0 V VP) as SP. pose proof (bp (-53)) as U0. fold u in U0. pose proof (bp (-1075)) as T0. fold t in T0.
  assert (Z2 : z * z = M * M / V). { unfold z. rewrite <- (sqrt_sqrt V) at 3 by lra. field. lra. }
  rewrite <- Z2 in HR. set (r := z * z) in *.
  assert (R1 : 1 <= r) by (unfold r; rewrite <- (Rmult_1_l 1); apply Rmult_le_compat; lra).
  assert (A1 : (28 * INR W + 618) * u <= / 128).
  { assert ((28 * INR W + 618) * 1 * u <= (28 * INR W + 618) * r * u).
    { apply Rmult_le_compat_r; [lra|]. apply Rmult_le_compat_l; lra. } lra. }
  assert (R53 : r <= bpow radix2 53).
  { apply (Rmult_le_reg_r u); [exact U0|]. unfold u at 2. rewrite bp_mul. change (53 + -53)%Z with 0%Z. change (bpow radix2 0) with 1.
    assert (1 * r * u <= (28 * INR W + 618) * r * u) by (apply Rmult_le_compat_r; [lra|apply Rmult_le_compat_r; lra]). lra. }
  assert (VL : bpow radix2 (-453) <= V) by (apply (v_size M V HM VP); rewrite <- Z2; exact R53).
  assert (SL : bpow radix2 (-227) <= sqrt V).
  { replace (bpow radix2 (-227)) with (sqrt (bpow radix2 (-454))).
    - apply sqrt_le_1; [left; apply bp|lra|]. eapply Rle_trans; [|exact VL]. apply bp_le. lia.
    - change (-454)%Z with (-227 + -227)%Z. rewrite bpow_plus. apply sqrt_square. left. apply bp. }
  assert (DL : bpow radix2 (-680) <= V * sqrt V) by (apply (lb _ _ (-453) (-227)); [exact VL|exact SL|lia]).
  pose proof (bp (-680)) as B680.
  assert (P0 : 0 <= P <= bpow radix2 628).
  { split; [apply Rmult_le_pos; [left; apply bp|left; apply Rinv_0_lt_compat; lra]|].
    apply (Rmult_le_reg_r (V * sqrt V)); [lra|]. unfold P.
    replace (bpow radix2 (-52) / (V * sqrt V) * (V * sqrt V)) with (bpow radix2 (-52)) by (field; lra).
    apply (lb _ _ 628 (-680)); [lra|exact DL|lia]. }
  assert (zr : z <= r) by (unfold r; rewrite <- (Rmult_1_l z) at 1; apply Rmult_le_compat_r; lra).
  assert (rz : z <= r * z <= bpow radix2 106).
  { split; [rewrite <- (Rmult_1_l z) at 1; apply Rmult_le_compat_r; lra|]. apply (ub _ _ 53 53); lra || lia. }
  change (z * z * z) with (r * z). set (q := r * z) in *.
  assert (uq : 0 <= u * q) by (apply Rmult_le_pos; lra).
  assert (EE : E = (664 * INR W + 15500) * (u * q) + P) by reflexivity.
  assert (E1 : 0 <= (664 * INR W + 15500) * (u * q) <= / 4 * q).
  { split; [apply Rmult_le_pos; lra|]. rewrite <- Rmult_assoc. apply Rmult_le_compat_r; [lra|].
    assert ((664 * INR W + 15500) * u <= 26 * ((28 * INR W + 618) * u)).
    { rewrite <- Rmult_assoc. apply Rmult_le_compat_r; lra. } lra. }
  assert (X0 : 0 <= 2 * z + E <= bpow radix2 630).
  { assert (bpow radix2 106 <= bpow radix2 628) by (apply bp_le; lia).
    assert (4 * bpow radix2 628 = bpow radix2 630) by (change 4 with (bpow radix2 2); apply bp_mul). lra. }
  split; [|split; [lra|]].
  - assert (T1 : 5 * t <= bpow radix2 1022).
    { apply Rle_trans with (bpow radix2 3 * t); [apply Rmult_le_compat_r; [lra|cbn; lra]|]. unfold t. rewrite bp_mul. apply bp_le. lia. }
    assert (T2 : 8 * INR W * (2 * z + E) <= bpow radix2 1022).
    { apply (ub _ _ 43 630); [lra|lra| |lra|lia]. change 8 with (bpow radix2 3). apply (ub _ _ 3 40); [left; apply bp|lra|lra|lra|lia]. }
    assert (bpow radix2 1023 = 2 * bpow radix2 1022) by (change 1023%Z with (1 + 1022)%Z; rewrite bpow_plus; reflexivity). lra.
  - assert (U1 : 7 * u <= / 100) by (unfold u; cbn; lra).
    assert (uE : 7 * (u * E) <= 14 / 8 * (u * q) + / 100 * P).
    { rewrite EE. assert (7 * u * P <= / 100 * P) by (apply Rmult_le_compat_r; lra).
      assert (u * ((664 * INR W + 15500) * (u * q)) <= u * (/ 4 * q)) by (apply Rmult_le_compat_l; lra). lra. }
    assert (uz : u * z <= u * q) by (apply Rmult_le_compat_l; lra).
    assert (tq : 11 * t <= u * q).
    { apply Rle_trans with (u * 1); [|apply Rmult_le_compat_l; lra]. rewrite Rmult_1_r.
      apply Rle_trans with (bpow radix2 4 * t); [apply Rmult_le_compat_r; [lra|cbn; lra]|]. unfold t, u. rewrite bp_mul. apply bp_le. lia. }
    lra.
Qed.

Lemma kurt_sizes (M V : R) (W : nat) : (0 < W)%nat -> (Z.of_nat W <= 2 ^ 26)%Z -> bpow radix2 (-200) <= M <= bpow radix2 200 -> 0 < V ->
  1024 * ((28 * INR W + 618) * (M * M / V)) * bpow radix2 (-53) <= 1 -> 1 <= M * M / V ->
  let u := bpow radix2 (-53) in
  let t := bpow radix2 (-1075) in
  let r := M * M / V in
  let P := bpow radix2 (-52) / (V * V) in
  let E := kurt_bound M V W in
  8 * INR W * (4 * r + E) + 5 * t <= bpow radix2 1023 /\
  0 <= E <= (4140 * INR W + 96040) * (u * (r * r)) + 2 * P /\
  E + 7 * (u * (4 * r + E)) + 11 * t <= (4140 * INR W + 96040) * (u * (r * r)) + 2 * P.
Proof.
  intros HW HWb HM VP HR R1 u t r P E. fold r in R1. fold u r in HR.
  assert (W1 : 1 <= INR W) by (apply (le_INR 1); lia).
  assert (WB : INR W <= bpow radix2 40).
  { rewrite INR_IZR_INZ. change (bpow radix2 40) with (IZR (2 ^ 40)). apply IZR_le. lia. }
  pose proof (bp (-53)) as U0. fold u in U0. pose proof (bp (-1075)) as T0. fold t in T0.
  assert (A1 : (28 * INR W + 618) * u <= / 1024).
  { assert ((28 * INR W + 618) * 1 * u <= (28 * INR W + 618) * r * u).
    { apply Rmult_le_compat_r; [lra|]. apply Rmult_le_compat_l; lra. } lra. }
  assert (R53 : r <= bpow radix2 53).
  { apply (Rmult_le_reg_r u); [exact U0|]. unfold u at 2. rewrite bp_mul. change (53 + -53)%Z with 0%Z. change (bpow radix2 0) with 1.
    assert (1 * r * u <= (28 * INR W + 618) * r * u) by (apply Rmult_le_compat_r; [lra|apply Rmult_le_compat_r; lra]). lra. }
  assert (VL : bpow radix2 (-453) <= V) by (apply (v_size M V HM VP); exact R53).
  assert (DL : bpow radix2 (-906) <= V * V) by (apply (lb _ _ (-453) (-453)); [exact VL|exact VL|lia]).
  pose proof (bp (-906)) as B906.
  assert (P0 : 0 <= P <= bpow radix2 854).
  { split; [apply Rmult_le_pos; [left; apply bp|left; apply Rinv_0_lt_compat; lra]|].
    apply (Rmult_le_reg_r (V * V)); [lra|]. unfold P.
    replace (bpow radix2 (-52) / (V * V) * (V * V)) with (bpow radix2 (-52)) by (field; lra).
    apply (lb _ _ 854 (-906)); [lra|exact DL|lia]. }
  assert (rz : r <= r * r <= bpow radix2 106).
  { split; [rewrite <- (Rmult_1_l r) at 1; apply Rmult_le_compat_r; lra|]. apply (ub _ _ 53 53); lra || lia. }
  set (q := r * r) in *.
  assert (uq : 0 <= u * q) by (apply Rmult_le_pos; lra).
  assert (EE : E = (4140 * INR W + 96000) * (u * q) + P) by reflexivity.
  assert (E1 : 0 <= (4140 * INR W + 96000) * (u * q) <= / 4 * q).
  { split; [apply Rmult_le_pos; lra|]. rewrite <- Rmult_assoc. apply Rmult_le_compat_r; [lra|].
    assert ((4140 * INR W + 96000) * u <= 156 * ((28 * INR W + 618) * u)).
    { rewrite <- Rmult_assoc. apply Rmult_le_compat_r; lra. } lra. }
  assert (X0 : 0 <= 4 * r + E <= bpow radix2 857).
  { assert (bpow radix2 106 <= bpow radix2 854) by (apply bp_le; lia).
    assert (8 * bpow radix2 854 = bpow radix2 857) by (change 8 with (bpow radix2 3); apply bp_mul). lra. }
  split; [|split; [lra|]].
  - assert (T1 : 5 * t <= bpow radix2 1022).
    { apply Rle_trans with (bpow radix2 3 * t); [apply Rmult_le_compat_r; [lra|cbn; lra]|]. unfold t. rewrite bp_mul. apply bp_le. lia. }
    assert (T2 : 8 * INR W * (4 * r + E) <= bpow radix2 1022).
    { apply (ub _ _ 43 857); [lra|lra| |lra|lia]. change 8 with (bpow radix2 3). apply (ub _ _ 3 40); [left; apply bp|lra|lra|lra|lia]. }
    assert (bpow radix2 1023 = 2 * bpow radix2 1022) by (change 1023%Z with (1 + 1022)%Z; rewrite bpow_plus; reflexivity). lra.
  - assert (U1 : 7 * u <= / 100) by (unfold u; cbn; lra).
    assert (uE : 7 * (u * E) <= 14 / 8 * (u * q) + / 100 * P).
    { rewrite EE. assert (7 * u * P <= / 100 * P) by (apply Rmult_le_compat_r; lra).
      assert (u * ((4140 * INR W + 96000) * (u * q)) <= u * (/ 4 * q)) by (apply Rmult_le_compat_l; lra). lra. }
    assert (uz : u * r <= u * q) by (apply Rmult_le_compat_l; lra).
    assert (tq : 11 * t <= u * q).
    { apply Rle_trans with (u * 1); [|apply Rmult_le_compat_l; lra]. rewrite Rmult_1_r.
      apply Rle_trans with (bpow radix2 4 * t); [apply Rmult_le_compat_r; [lra|cbn; lra]|]. unfold t, u. rewrite bp_mul. apply bp_le. lia. }
    lra.
Qed.

(** ** C88 *)

(** @prop C88_skewness_binary64: in binary64, windows up to 2^40, the last 2W values
    at most [M] in magnitude (between 2^-200 and 2^200), the variances of the two
    blocks at least [V > 0] (the current block only once it has two values) with [M^2
    / V] below about 2^53 / (3584 W): skewness() is finite and within [(664 W +
    15520) u (M^2 / V)^(3/2) + 2^-51 / V^(3/2)] of the weighted average of the
    skewnesses of the two blocks, negative ones replaced by zero, for every number
    of pushes. *)
Lemma c88_skewness_binary64 : forall (W : nat) (ops : list (op b64)) (M V : R),
  let l := since_clear ops in
  let u := bpow radix2 (-53) in
  let g c := Rmax 0 (skewness (map b64_real c)) in
  l <> [] -> (0 < W)%nat -> (Z.of_nat W <= 2 ^ 40)%Z -> bpow radix2 (-200) <= M <= bpow radix2 200 ->
  Forall (fun x => b64_finite x /\ Rabs (b64_real x) <= M) (lastn (2 * W) l) ->
  0 < V -> 128 * ((28 * INR W + 618) * (M * M / V)) * u <= 1 ->
  ((W < length l)%nat -> V <= variance (map b64_real (prev_block W l))) ->
  ((length l <= W)%nat \/ (2 <= length (cur_block W l))%nat -> V <= variance (map b64_real (cur_block W l))) ->
  let w := N.of_nat W in
  let r := iskew_skewness b64num w (run (iskew_push b64num w) (iskew_clear b64num) (iskew_init b64num) ops) in
  let s := card (cur_block W l) in
  let wp := INR W - s + 1 in
  let wa := 2 * (s - 1) in
  let z := M / sqrt V in
  let bound := (664 * INR W + 15520) * (u * (z * z * z)) + 2 * (bpow radix2 (-52) / (V * sqrt V)) in
  b64_finite r /\
  ((length l <= W)%nat -> Rabs (b64_real r - g l) <= bound) /\
  ((W < length l)%nat -> Rabs (b64_real r - (wp * g (prev_block W l) + wa * g (cur_block W l)) / (wp + wa)) <= bound).
Proof.
  intros W ops M V l u g NE HW HWb HM HF VP HR HVp HVc w r s wp wa z bound.
  assert (HS : (N.of_nat W < szmod)%N) by (unfold szmod; lia).
  destruct (recent_blocks _ W l HW HF) as [Tc Tp].
  pose proof (cur_block_le W HW l) as Lc. pose proof (prev_block_le W HW l) as Lp.
  pose proof (cur_block_pos W HW l NE) as Pc.
  assert (NEc : cur_block W l <> []) by (intros Z; rewrite Z in Pc; cbn in Pc; lia).
  assert (NEp : (W < length l)%nat -> prev_block W l <> []).
  { intros H Z. pose proof (long_prev W HW l H) as Lq. rewrite Z in Lq. cbn in Lq. lia. }
  assert (Z1 : 1 <= z).
  { destruct (Nat.le_gt_cases (length l) W) as [H|H].
    - apply (skew_block M V W (cur_block W l)); try assumption. apply HVc. left. exact H.
    - apply (skew_block M V W (prev_block W l)); try assumption; auto. }
  destruct (skew_sizes M V W HW HWb HM VP HR Z1) as (S1 & S2 & S3). fold u z in S1, S2, S3.
  destruct (duo_stat_accuracy approx_b64 denotes_zero W l (cskew_push b64num) (cskew_init b64num)
    (cskew_size b64num) (cskew_empty b64num) (cskew_skewness b64num) g (skew_bound M V W) (2 * z + skew_bound M V W)) as (f & (Ff & Ef) & H1 & H2);
    try assumption.
  - unfold szmod. lia.
  - change (Z.to_N (2 ^ 53)) with (2 ^ 53)%N. lia.
  - intros c Hc. assert (Hc' : (N.of_nat (length c) < szmod)%N) by (unfold szmod; lia). apply cskew_csize. exact Hc'.
  - reflexivity.
  - intros H. apply (skew_block M V W (prev_block W l)); try assumption; auto.
  - intros H. apply (skew_block M V W (cur_block W l)); try assumption; auto.
  - unfold r, w. rewrite (iskew_run_state b64num W ops HW HS). fold l. unfold iskew_skewness.
    match goal with |- b64_finite ?x /\ _ => change (b64_finite x) in Ff; change (b64_real x = f) in Ef; set (y := x) in * end.
    split; [exact Ff|]. rewrite Ef. split; intros L; [specialize (H1 L)|specialize (H2 L)].
    + eapply Rle_trans; [exact H1|]. unfold bound. apply S2.
    + eapply Rle_trans; [exact H2|]. exact S3.
Qed.

(** W = 4 after ten values, the first a NaN: the blocks 0, 0, 0, 8 and 0, 8. *)
Lemma two_blocks :
  let ops := Push S754_nan :: map Push (map b64_of_Z [1; 2; 3; 0; 0; 0; 8; 0; 8]%Z) in
  let l := since_clear ops in
  l <> [] /\ (0 < 4)%nat /\ bpow radix2 (-200) <= 8 <= bpow radix2 200 /\
  Forall (fun x => b64_finite x /\ Rabs (b64_real x) <= 8) (lastn (2 * 4) l) /\
  prev_block 4 l = map b64_of_Z [0; 0; 0; 8]%Z /\ cur_block 4 l = map b64_of_Z [0; 8]%Z /\
  map b64_real (prev_block 4 l) = [0; 0; 0; 8] /\ map b64_real (cur_block 4 l) = [0; 8].
Proof.
  cbn zeta. split; [discriminate|]. split; [lia|]. split; [exact bounds8'|]. split; [vm_compute lastn; magnitudes|].
  split; [reflexivity|]. split; [reflexivity|].
  split.
  - match goal with |- map _ ?x = _ => let y := eval vm_compute in x in change x with y end.
    unfold b64_real, SF2R, F2R; cbn; repeat (f_equal; try lra).
  - match goal with |- map _ ?x = _ => let y := eval vm_compute in x in change x with y end.
    unfold b64_real, SF2R, F2R; cbn; repeat (f_equal; try lra).
Qed.

(** @ex C88_skewness_binary64_ex: W = 4 after ten values, the first a NaN; the blocks 0, 0, 0,
    8 and 0, 8 have variances 12 and 16, and the bound is below 1e-9. *)
Lemma c88_skewness_binary64_ex :
  let ops := Push S754_nan :: map Push (map b64_of_Z [1; 2; 3; 0; 0; 0; 8; 0; 8]%Z) in
  let l := since_clear ops in
  let u := bpow radix2 (-53) in
  let z := 8 / sqrt 12 in
  l <> [] /\ (0 < 4)%nat /\ (Z.of_nat 4 <= 2 ^ 40)%Z /\ bpow radix2 (-200) <= 8 <= bpow radix2 200 /\
  Forall (fun x => b64_finite x /\ Rabs (b64_real x) <= 8) (lastn (2 * 4) l) /\
  128 * ((28 * INR 4 + 618) * (8 * 8 / 12)) * u <= 1 /\
  (4 < length l)%nat /\ 12 <= variance (map b64_real (prev_block 4 l)) /\
  (2 <= length (cur_block 4 l))%nat /\ 12 <= variance (map b64_real (cur_block 4 l)) /\
  (664 * INR 4 + 15520) * (u * (z * z * z)) + 2 * (bpow radix2 (-52) / (12 * sqrt 12)) <= / 10 ^ 9.
Proof.
  destruct two_blocks as (A1 & A2 & A3 & A4 & A5 & A6 & A7 & A8). cbn zeta.
  split; [exact A1|]. split; [exact A2|]. split; [lia|]. split; [exact A3|]. split; [exact A4|]. split; [cbn; lra|].
  split; [cbn; lia|]. rewrite A7, A8. split; [unfold variance, csum, mean, card; cbn; lra|].
  split; [rewrite A6; cbn; lia|]. split; [unfold variance, csum, mean, card; cbn; lra|].
  assert (S12 : 3 <= sqrt 12 <= 7 / 2).
  { split; [rewrite <- (sqrt_square 3) by lra|rewrite <- (sqrt_square (7 / 2)) by lra]; apply sqrt_le_1; lra. }
  assert (Z : 0 <= 8 / sqrt 12 <= 8 / 3).
  { split; [apply Rlt_le, Rdiv_lt_0_compat; lra|]. unfold Rdiv. apply Rmult_le_compat_l; [lra|]. apply Rinv_le_contravar; lra. }
  generalize dependent (8 / sqrt 12). intros z Z.
  assert (Z2 : 0 <= z * z <= 8 / 3 * (8 / 3)) by (split; [apply Rmult_le_pos|apply Rmult_le_compat]; lra).
  assert (Z3 : 0 <= z * z * z <= 8 / 3 * (8 / 3) * (8 / 3)) by (split; [apply Rmult_le_pos|apply Rmult_le_compat]; lra).
  set (w := z * z * z) in *. clearbody w. cbn [INR].
  assert (Q : bpow radix2 (-52) / (12 * sqrt 12) <= bpow radix2 (-52)).
  { unfold Rdiv. rewrite <- (Rmult_1_r (bpow radix2 (-52))) at 2. apply Rmult_le_compat_l; [left; apply bp|].
    rewrite <- Rinv_1. apply Rinv_le_contravar; lra. }
  eapply Rle_trans; [apply Rplus_le_compat_l, Rmult_le_compat_l; [lra|exact Q]|]. cbn. lra.
Qed.

(** @prop C88_kurtosis_binary64: likewise for kurtosis(), windows up to 2^26 and [M^2 /
    V] below about 2^53 / (28672 W): within [(4140 W + 96040) u (M^2 / V)^2 + 2^-51
    / V^2] of the weighted average of the kurtoses of the two blocks. *)
Lemma c88_kurtosis_binary64 : forall (W : nat) (ops : list (op b64)) (M V : R),
  let l := since_clear ops in
  let u := bpow radix2 (-53) in
  let k c := kurtosis (map b64_real c) in
  l <> [] -> (0 < W)%nat -> (Z.of_nat W <= 2 ^ 26)%Z -> bpow radix2 (-200) <= M <= bpow radix2 200 ->
  Forall (fun x => b64_finite x /\ Rabs (b64_real x) <= M) (lastn (2 * W) l) ->
  0 < V -> 1024 * ((28 * INR W + 618) * (M * M / V)) * u <= 1 ->
  ((W < length l)%nat -> V <= variance (map b64_real (prev_block W l))) ->
  ((length l <= W)%nat \/ (2 <= length (cur_block W l))%nat -> V <= variance (map b64_real (cur_block W l))) ->
  let w := N.of_nat W in
  let r := ikurt_kurtosis b64num w (run (ikurt_push b64num w) (ikurt_clear b64num) (ikurt_init b64num) ops) in
  let s := card (cur_block W l) in
  let wp := INR W - s + 1 in
  let wa := 2 * (s - 1) in
  let bound := (4140 * INR W + 96040) * (u * (M * M / V * (M * M / V))) + 2 * (bpow radix2 (-52) / (V * V)) in
  b64_finite r /\
  ((length l <= W)%nat -> Rabs (b64_real r - k l) <= bound) /\
  ((W < length l)%nat -> Rabs (b64_real r - (wp * k (prev_block W l) + wa * k (cur_block W l)) / (wp + wa)) <= bound).
Proof.
  intros W ops M V l u k NE HW HWb HM HF VP HR HVp HVc w r s wp wa bound.
  assert (HS : (N.of_nat W < szmod)%N) by (unfold szmod; lia).
  destruct (recent_blocks _ W l HW HF) as [Tc Tp].
  pose proof (cur_block_le W HW l) as Lc. pose proof (prev_block_le W HW l) as Lp.
  pose proof (cur_block_pos W HW l NE) as Pc.
  assert (NEc : cur_block W l <> []) by (intros Z; rewrite Z in Pc; cbn in Pc; lia).
  assert (NEp : (W < length l)%nat -> prev_block W l <> []).
  { intros H Z. pose proof (long_prev W HW l H) as Lq. rewrite Z in Lq. cbn in Lq. lia. }
  assert (R1 : 1 <= M * M / V).
  { destruct (Nat.le_gt_cases (length l) W) as [H|H].
    - apply (kurt_block M V W (cur_block W l)); try assumption. apply HVc. left. exact H.
    - apply (kurt_block M V W (prev_block W l)); try assumption; auto. }
  destruct (kurt_sizes M V W HW HWb HM VP HR R1) as (S1 & S2 & S3). fold u in S1, S2, S3.
  destruct (duo_stat_accuracy approx_b64 denotes_zero W l (ckurt_push b64num) (ckurt_init b64num)
    (ckurt_size b64num) (ckurt_empty b64num) (ckurt_kurtosis b64num) k (kurt_bound M V W) (4 * (M * M / V) + kurt_bound M V W)) as (f & (Ff & Ef) & H1 & H2);
    try assumption.
  - unfold szmod. lia.
  - change (Z.to_N (2 ^ 53)) with (2 ^ 53)%N. lia.
  - intros c Hc. assert (Hc' : (N.of_nat (length c) < szmod)%N) by (unfold szmod; lia). apply ckurt_csize. exact Hc'.
  - reflexivity.
  - intros H. apply (kurt_block M V W (prev_block W l)); try assumption; auto.
  - intros H. apply (kurt_block M V W (cur_block W l)); try assumption; auto.
  - unfold r, w. rewrite (ikurt_run_state b64num W ops HW HS). fold l. unfold ikurt_kurtosis.
    match goal with |- b64_finite ?x /\ _ => change (b64_finite x) in Ff; change (b64_real x = f) in Ef; set (y := x) in * end.
    split; [exact Ff|]. rewrite Ef. split; intros L; [specialize (H1 L)|specialize (H2 L)].
    + eapply Rle_trans; [exact H1|]. unfold bound. apply S2.
    + eapply Rle_trans; [exact H2|]. exact S3.
Qed.

(** @ex C88_kurtosis_binary64_ex: the same ten values. *)
Lemma c88_kurtosis_binary64_ex :
  let ops := Push S754_nan :: map Push (map b64_of_Z [1; 2; 3; 0; 0; 0; 8; 0; 8]%Z) in
  let l := since_clear ops in
  let u := bpow radix2 (-53) in
  l <> [] /\ (0 < 4)%nat /\ (Z.of_nat 4 <= 2 ^ 26)%Z /\ bpow radix2 (-200) <= 8 <= bpow radix2 200 /\
  Forall (fun x => b64_finite x /\ Rabs (b64_real x) <= 8) (lastn (2 * 4) l) /\
  1024 * ((28 * INR 4 + 618) * (8 * 8 / 12)) * u <= 1 /\
  (4 < length l)%nat /\ 12 <= variance (map b64_real (prev_block 4 l)) /\
  (2 <= length (cur_block 4 l))%nat /\ 12 <= variance (map b64_real (cur_block 4 l)) /\
  (4140 * INR 4 + 96040) * (u * (8 * 8 / 12 * (8 * 8 / 12))) + 2 * (bpow radix2 (-52) / (12 * 12)) <= / 10 ^ 9.
Proof.
  destruct two_blocks as (A1 & A2 & A3 & A4 & A5 & A6 & A7 & A8). cbn zeta.
  split; [exact A1|]. split; [exact A2|]. split; [lia|]. split; [exact A3|]. split; [exact A4|]. split; [cbn; lra|].
  split; [cbn; lia|]. rewrite A7, A8. split; [unfold variance, csum, mean, card; cbn; lra|].
  split; [rewrite A6; cbn; lia|]. split; [unfold variance, csum, mean, card; cbn; lra|]. cbn. lra.
Qed.
