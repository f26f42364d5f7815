(** * Claim C94: accuracy of cumulative skewness and kurtosis in binary64 *)

From Coq Require Import Reals ZArith NArith List Bool.
From Coq Require Import Floats.SpecFloat.
From Flocq Require Import Core.
From Verif Require Import Arith History SpecStats Cumulative Binary64.
Import ListNotations.
Local Open Scope R_scope.
(* @end-header *)
From Coq Require Import Lia Lra Psatz.
From Flocq Require Import IEEE754.BinarySingleNaN.
From Verif Require Import HistoryLemmas StatsLemmas CumulativeProofs Binary64Cumulative Approx ApproxInstances
  AccuracyProofs AccuracyVariance AccuracyRegression AccuracyHigher ClaimsAccuracy ClaimsRegression.

Lemma lit_b64 z : (0 <= z <= 6)%Z -> denotes (nofz (z : Z) : b64num) (IZR z).
Proof. intros H. apply of_Z_exact. lia. Qed.

Lemma zero_b64 : denotes (nofsz 0 : b64num) 0.
Proof. exact denotes_zero. Qed.

(** The largest size_t rounds to 2^64. *)
Lemma wrap_b64 : denotes (nofsz (szmod - 1) : b64num) (bpow radix2 64).
Proof.
  assert (E : (nofsz (szmod - 1) : b64num) = S754_finite false 4503599627370496 12) by (vm_compute; reflexivity).
  rewrite E. split; [split; vm_compute; reflexivity|]. unfold b64_real, SF2R, F2R. cbn. lra.
Qed.

Lemma eps_b64 : denotes (neps : b64num) (bpow radix2 (-52)).
Proof.
  split; [split; vm_compute; reflexivity|]. change (b64_real (S754_finite false 4503599627370496 (-104)) = bpow radix2 (-52)).
  unfold b64_real, SF2R, F2R. cbn. lra.
Qed.

Lemma e16 : 16 * bpow radix2 (-53) <= 1.
Proof. change 16 with (bpow radix2 4). rewrite bp_mul. apply (bp_le _ 0). lia. Qed.

Lemma pow_bound (M : R) a b : bpow radix2 a <= M <= bpow radix2 b ->
  bpow radix2 (2 * a) <= M * M <= bpow radix2 (2 * b) /\
  bpow radix2 (3 * a) <= M * (M * M) <= bpow radix2 (3 * b) /\
  bpow radix2 (4 * a) <= M * M * (M * M) <= bpow radix2 (4 * b).
Proof.
  intros [H1 H2]. pose proof (bp a). pose proof (bp b).
  assert (Q : bpow radix2 (2 * a) <= M * M <= bpow radix2 (2 * b)).
  { replace (2 * a)%Z with (a + a)%Z by lia. replace (2 * b)%Z with (b + b)%Z by lia. rewrite !bpow_plus.
    split; apply Rmult_le_compat; lra. }
  pose proof (bp (2 * a)). pose proof (bp (2 * b)).
  split; [exact Q|]. split.
  - replace (3 * a)%Z with (a + 2 * a)%Z by lia. replace (3 * b)%Z with (b + 2 * b)%Z by lia. rewrite !(bpow_plus radix2 _ (2 * _)).
    split; apply Rmult_le_compat; lra.
  - replace (4 * a)%Z with (2 * a + 2 * a)%Z by lia. replace (4 * b)%Z with (2 * b + 2 * b)%Z by lia.
    rewrite !(bpow_plus radix2 (2 * _) (2 * _)). split; apply Rmult_le_compat; lra.
Qed.

Lemma ub x y a b c : 0 <= x -> 0 <= y -> x <= bpow radix2 a -> y <= bpow radix2 b -> (a + b <= c)%Z -> x * y <= bpow radix2 c.
Proof.
  intros X0 Y0 X1 Y1 H. apply Rle_trans with (bpow radix2 (a + b)); [|apply bp_le; exact H].
  rewrite <- bp_mul. apply Rmult_le_compat; assumption.
Qed.

Lemma lb x y a b c : bpow radix2 a <= x -> bpow radix2 b <= y -> (c <= a + b)%Z -> bpow radix2 c <= x * y.
Proof.
  intros X1 Y1 H. apply Rle_trans with (bpow radix2 (a + b)); [apply bp_le; exact H|].
  rewrite <- bp_mul. pose proof (bp a). pose proof (bp b). apply Rmult_le_compat; lra.
Qed.

Lemma tame_b64 (M n : R) : 1 <= n <= bpow radix2 40 -> bpow radix2 (-200) <= M <= bpow radix2 200 ->
  tame (B := bpow radix2 1023) (e := bpow radix2 (-53)) (t := bpow radix2 (-1075)) (bpow radix2 64) M n.
Proof.
  intros [N1 N2] HM. destruct (pow_bound M _ _ HM) as (P2 & P3 & _). change (2 * -200)%Z with (-400)%Z in P2. change (2 * 200)%Z with 400%Z in P2.
  change (3 * -200)%Z with (-600)%Z in P3. change (3 * 200)%Z with 600%Z in P3.
  assert (M0 : 0 < M) by (pose proof (bp (-200)); lra).
  assert (N0 : 0 <= n) by lra.
  assert (Q2 : 0 < M * M) by (apply Rmult_lt_0_compat; lra). assert (Q3 : 0 < M * (M * M)) by (apply Rmult_lt_0_compat; lra).
  assert (C : forall k, 0 <= bpow radix2 k) by (intros k; left; apply bp).
  assert (tn : 256 * n * bpow radix2 (-1075) <= bpow radix2 (-1027)).
  { apply (ub _ _ 48 (-1075)); [nra|apply C| |lra|lia]. change 256 with (bpow radix2 8). apply (ub _ _ 8 40); [apply C|lra|lra|lra|lia]. }
  unfold tame. repeat split; try lra.
  - apply (ub _ _ 53 (-53) 0); [nra|apply C| |lra|lia]. change 1024 with (bpow radix2 10).
    apply (ub _ _ 10 41); [apply C|lra|lra| |lia]. change 64 with (bpow radix2 6).
    assert (bpow radix2 6 <= bpow radix2 40) by (apply bp_le; lia). change 41%Z with (40 + 1)%Z. rewrite bpow_plus. change (bpow radix2 1) with 2. lra.
  - eapply Rle_trans; [exact tn|]. apply (lb _ _ (-53) (-200)); [lra|lra|lia].
  - eapply Rle_trans; [exact tn|]. apply (lb _ _ (-53) (-400)); [lra|lra|lia].
  - apply Rle_trans with (256 * n * bpow radix2 (-1075)); [apply Rmult_le_compat_r; [apply C|lra]|].
    eapply Rle_trans; [exact tn|]. apply (lb _ _ (-53) (-600)); [lra|lra|lia].
  - rewrite Rabs_pos_eq by apply C. apply Rle_trans with (bpow radix2 (-1000)); [|apply (lb _ _ (-53) (-400)); [lra|lra|lia]].
    change 64 with (bpow radix2 6) at 1. apply (ub _ _ 71 (-1075)); [|apply C| |lra|lia].
    + apply Rmult_le_pos; [apply C|]. pose proof (C 64%Z). lra.
    + apply (ub _ _ 6 65); [apply C|pose proof (C 64%Z); lra|lra| |lia]. change 65%Z with (64 + 1)%Z. rewrite bpow_plus. change (bpow radix2 1) with 2.
      assert (bpow radix2 0 <= bpow radix2 64) by (apply bp_le; lia). change (bpow radix2 0) with 1 in *. lra.
  - change 128 with (bpow radix2 7). apply (ub _ _ 7 500); [apply C|nra|lra| |lia].
    apply (ub _ _ 80 401); [nra|lra| | |lia].
    + apply (ub _ _ 40 40); lra || lia.
    + assert (bpow radix2 0 <= bpow radix2 400) by (apply bp_le; lia). change (bpow radix2 0) with 1 in *.
      change 401%Z with (400 + 1)%Z. rewrite bpow_plus. change (bpow radix2 1) with 2. lra.
  - change 1024 with (bpow radix2 10). apply (ub _ _ 10 640); [apply C|nra|lra| |lia].
    apply (ub _ _ 40 600); lra || lia.
Qed.

Lemma skew_bounds (M n S2 : R) : 1 <= n <= bpow radix2 40 -> bpow radix2 (-200) <= M <= bpow radix2 200 -> 0 < S2 ->
  128 * ((28 * n + 618) * (M * M / S2)) * bpow radix2 (-53) <= 1 ->
  bpow radix2 (-440) <= n * S2 /\ bpow radix2 (-220) <= sqrt (n * S2) /\ M * M / S2 <= bpow radix2 53 /\ bpow radix2 (-440) <= S2.
Proof.
  intros [N1 N2] HM SP H. destruct (pow_bound M _ _ HM) as (P2 & _). change (2 * -200)%Z with (-400)%Z in P2.
  pose proof (bp (-400)) as Bp.
  assert (RP : 0 < M * M / S2) by (apply Rdiv_lt_0_compat; lra).
  assert (R1 : M * M / S2 <= bpow radix2 40).
  { assert (A : bpow radix2 13 * (M * M / S2) <= 128 * ((28 * n + 618) * (M * M / S2))).
    { change (bpow radix2 13) with 8192. nra. }
    assert (bpow radix2 13 * (M * M / S2) * bpow radix2 (-53) <= 1).
    { eapply Rle_trans; [|exact H]. apply Rmult_le_compat_r; [left; apply bp|exact A]. }
    apply (Rmult_le_reg_r (bpow radix2 (-40))); [apply bp|]. rewrite bp_mul. change (40 + -40)%Z with 0%Z. change (bpow radix2 0) with 1.
    replace (-40)%Z with (13 + -53)%Z by reflexivity. rewrite bpow_plus. lra. }
  assert (S1 : bpow radix2 (-440) <= S2).
  { apply (Rmult_le_reg_l (M * M / S2)); [exact RP|]. replace (M * M / S2 * S2) with (M * M) by (field; lra).
    apply Rle_trans with (bpow radix2 40 * bpow radix2 (-440)); [apply Rmult_le_compat_r; [left; apply bp|exact R1]|].
    rewrite bp_mul. change (40 + -440)%Z with (-400)%Z. lra. }
  assert (S3 : bpow radix2 (-440) <= n * S2).
  { eapply Rle_trans; [exact S1|]. rewrite <- (Rmult_1_l S2) at 1. apply Rmult_le_compat_r; lra. }
  split; [exact S3|]. split.
  - replace (bpow radix2 (-220)) with (sqrt (bpow radix2 (-440))).
    + apply sqrt_le_1; [left; apply bp|left; eapply Rlt_le_trans; [apply bp|exact S3]|exact S3].
    + change (-440)%Z with (-220 + -220)%Z. rewrite bpow_plus. apply sqrt_square. left. apply bp.
  - split; [|exact S1]. eapply Rle_trans; [exact R1|]. apply bp_le. lia.
Qed.

(** The side conditions of the error bounds, for a list of values. *)
Lemma skew_side (M : R) (l : list b64) :
  let n := INR (length l) in
  let lv := map b64_real l in
  let V := variance lv in
  let z := M / sqrt V in
  l <> [] -> (Z.of_nat (length l) <= 2 ^ 40)%Z -> bpow radix2 (-200) <= M <= bpow radix2 200 ->
  Forall (fun x => b64_finite x /\ Rabs (b64_real x) <= M) l -> 0 < V ->
  128 * ((28 * n + 618) * (M * M / V)) * bpow radix2 (-53) <= 1 ->
  Forall2 denotes l lv /\ Forall (fun x => Rabs x <= M) lv /\
  (16 * bpow radix2 (-1075) <= bpow radix2 (-53) * sqrt (csum 2 lv) /\
   16 * bpow radix2 (-1075) <= bpow radix2 (-53) * (sqrt (csum 2 lv) * csum 2 lv) /\ 16 * bpow radix2 (-1075) <= bpow radix2 (-53)) /\
  (2 * sqrt (csum 2 lv) <= bpow radix2 1023 /\ 2 * (sqrt (csum 2 lv) * csum 2 lv) <= bpow radix2 1023 /\
   16 * (sqrt n * n * (M * (M * M))) <= bpow radix2 1023) /\
  2 * (2 * (z * z * z)) <= bpow radix2 200 /\ bpow radix2 (-440) <= V /\ csum 2 lv = n * V /\ n * V <= bpow radix2 442 /\ z * z = M * M / V /\ 0 < z.
Proof.
  intros n lv V z NE Hn HM HF VP HR.
  destruct (b64_magn M l HF) as [Hfin Hmag]. fold lv in Hmag.
  pose proof (inr_le l 40 ltac:(lia) Hn) as Hn'. fold n in Hn'.
  assert (N1 : 1 <= n) by (apply inr_ge1; exact NE).
  destruct (skew_bounds M n V (conj N1 Hn') HM VP HR) as (S1 & S3 & R1 & S0).
  destruct (pow_bound M _ _ HM) as (P2 & P3 & _). change (2 * 200)%Z with 400%Z in P2. change (3 * 200)%Z with 600%Z in P3.
  assert (C2 : csum 2 lv = n * V).
  { unfold V, variance, card, lv. rewrite map_length. fold n. field. lra. }
  assert (M0 : 0 < M) by (pose proof (bp (-200)); lra).
  pose proof (bp (3 * -200)) as B3. pose proof (bp (2 * -200)) as B2'.
  assert (U2 : n * V <= bpow radix2 442).
  { rewrite <- C2. pose proof (csum_bound M lv ltac:(lra) Hmag) as CB. unfold card, lv in CB. rewrite map_length in CB. fold n lv in CB.
    apply Rabs_le_inv in CB. eapply Rle_trans; [apply CB|]. apply (ub _ _ 42 400); [lra|lra| |lra|lia].
    change 4 with (bpow radix2 2). apply (ub _ _ 2 40); lra || (left; apply bp) || lia. }
  pose proof (bp (-440)) as B440. pose proof (bp (-220)) as B220.
  assert (U1 : sqrt (n * V) <= bpow radix2 221).
  { replace (bpow radix2 221) with (sqrt (bpow radix2 442)).
    - apply sqrt_le_1; [lra|left; apply bp|exact U2].
    - change 442%Z with (221 + 221)%Z. rewrite bpow_plus. apply sqrt_square. left. apply bp. }
  assert (T16 : 16 * bpow radix2 (-1075) = bpow radix2 (-1071)) by (change 16 with (bpow radix2 4); apply bp_mul).
  assert (SP : 0 < sqrt V) by (apply sqrt_lt_R0; exact VP).
  assert (Z2 : z * z = M * M / V).
  { unfold z. rewrite <- (sqrt_sqrt V) at 3 by lra. field. lra. }
  assert (Zp : 0 < z) by (apply Rdiv_lt_0_compat; lra).
  split; [apply denotes_list; exact Hfin|]. split; [exact Hmag|].
  split; [|split; [|split; [|split; [exact S0|split; [exact C2|split; [exact U2|split; [exact Z2|exact Zp]]]]]]].
  - rewrite C2, T16. split; [|split].
    + apply (lb _ _ (-53) (-220)); [lra|exact S3|lia].
    + apply (lb _ _ (-53) (-660)); [lra| |lia]. apply (lb _ _ (-220) (-440)); [exact S3|exact S1|lia].
    + apply bp_le. lia.
  - rewrite C2. change 2 with (bpow radix2 1). change 16 with (bpow radix2 4).
    split; [|split].
    + apply (ub _ _ 1 221); [left; apply bp|lra|lra|exact U1|lia].
    + apply (ub _ _ 1 663); [left; apply bp|apply Rmult_le_pos; lra|lra| |lia]. apply (ub _ _ 221 442); [lra|lra|exact U1|exact U2|lia].
    + assert (SN : 0 <= sqrt n <= bpow radix2 40).
      { split; [apply sqrt_pos|]. eapply Rle_trans; [|exact Hn']. rewrite <- (sqrt_square n) at 2 by lra.
        apply sqrt_le_1; [lra|apply Rmult_le_pos; lra|]. rewrite <- (Rmult_1_l n) at 1. apply Rmult_le_compat_r; lra. }
      apply (ub _ _ 4 680); [left; apply bp| |lra| |lia].
      * apply Rmult_le_pos; [apply Rmult_le_pos; lra|lra].
      * apply (ub _ _ 80 600); [apply Rmult_le_pos; lra|lra| |lra|lia]. apply (ub _ _ 40 40); lra || lia.
  - assert (Zb : z <= bpow radix2 53).
    { destruct (Rle_or_lt z 1) as [L|G].
      - eapply Rle_trans; [exact L|]. change 1 with (bpow radix2 0). apply bp_le. lia.
      - eapply Rle_trans; [|exact R1]. rewrite <- Z2. rewrite <- (Rmult_1_l z) at 1. apply Rmult_le_compat_r; lra. }
    change 2 with (bpow radix2 1). apply (ub _ _ 1 107); [left; apply bp| |lra| |lia].
    + apply Rmult_le_pos; [left; apply bp|]. apply Rmult_le_pos; [apply Rmult_le_pos|]; lra.
    + apply (ub _ _ 1 106); [left; apply bp| |lra| |lia].
      * apply Rmult_le_pos; [apply Rmult_le_pos|]; lra.
      * rewrite Z2. apply (ub _ _ 53 53); [left; apply Rdiv_lt_0_compat; lra|lra|exact R1|exact Zb|lia].
Qed.

Lemma kurt_side (M : R) (l : list b64) :
  let n := INR (length l) in
  let lv := map b64_real l in
  let V := variance lv in
  let z := M / sqrt V in
  l <> [] -> (Z.of_nat (length l) <= 2 ^ 26)%Z -> bpow radix2 (-200) <= M <= bpow radix2 200 ->
  Forall (fun x => b64_finite x /\ Rabs (b64_real x) <= M) l -> 0 < V ->
  1024 * ((28 * n + 618) * (M * M / V)) * bpow radix2 (-53) <= 1 ->
  (Forall2 denotes l lv /\ Forall (fun x => Rabs x <= M) lv /\
  (16 * bpow radix2 (-1075) <= bpow radix2 (-53) * sqrt (csum 2 lv) /\
   16 * bpow radix2 (-1075) <= bpow radix2 (-53) * (sqrt (csum 2 lv) * csum 2 lv) /\ 16 * bpow radix2 (-1075) <= bpow radix2 (-53)) /\
  (2 * sqrt (csum 2 lv) <= bpow radix2 1023 /\ 2 * (sqrt (csum 2 lv) * csum 2 lv) <= bpow radix2 1023 /\
   16 * (sqrt n * n * (M * (M * M))) <= bpow radix2 1023) /\
  2 * (2 * (z * z * z)) <= bpow radix2 200 /\ bpow radix2 (-440) <= V /\ csum 2 lv = n * V /\ n * V <= bpow radix2 442 /\ z * z = M * M / V /\ 0 < z) /\
  128 * ((28 * n + 618) * (M * M / V)) * bpow radix2 (-53) <= 1 /\
  (N.of_nat (length l) * N.of_nat (length l) <= Z.to_N (2 ^ 53))%N /\ (N.of_nat (length l) <= 2 ^ 32)%N /\
  1024 * (n * (M * M * (M * M))) <= bpow radix2 1023 /\ 256 * bpow radix2 (-1075) <= bpow radix2 (-53) * (M * M * (M * M)) /\
  16 * bpow radix2 (-1075) <= bpow radix2 (-53) * (csum 2 lv * csum 2 lv) /\ 2 * (csum 2 lv * csum 2 lv) <= bpow radix2 1023 /\
  32 * (n * n * (M * M * (M * M))) <= bpow radix2 1023 /\ 8 * (M * M / V * (M * M / V)) <= bpow radix2 1023 /\ 1 <= n /\ n <= bpow radix2 40.
Proof.
  intros n lv V z NE Hn HM HF VP HR.
  destruct (pow_bound M _ _ HM) as (P2 & P3 & P4). change (2 * 200)%Z with 400%Z in P2. change (3 * 200)%Z with 600%Z in P3.
  change (4 * 200)%Z with 800%Z in P4. change (4 * -200)%Z with (-800)%Z in P4.
  assert (M0 : 0 < M) by (pose proof (bp (-200)); lra).
  assert (Q2 : 0 < M * M) by (apply Rmult_lt_0_compat; lra).
  assert (RP : 0 < M * M / V) by (apply Rdiv_lt_0_compat; lra).
  pose proof (inr_le l 26 ltac:(lia) Hn) as Hn0. fold n in Hn0.
  assert (Hn' : n <= bpow radix2 40) by (eapply Rle_trans; [exact Hn0|apply bp_le; lia]).
  assert (N1 : 1 <= n) by (apply inr_ge1; exact NE).
  assert (HR' : 128 * ((28 * n + 618) * (M * M / V)) * bpow radix2 (-53) <= 1).
  { eapply Rle_trans; [|exact HR]. apply Rmult_le_compat_r; [left; apply bp|]. apply Rmult_le_compat_r; [|lra]. apply Rmult_le_pos; lra. }
  assert (Hn40 : (Z.of_nat (length l) <= 2 ^ 40)%Z) by lia.
  pose proof (skew_side M l NE Hn40 HM HF VP HR') as SD. split; [exact SD|].
  destruct SD as (_ & _ & _ & _ & _ & S0 & C2 & U2 & _). fold lv V in S0, C2, U2. fold n in C2, U2.
  destruct (skew_bounds M n V (conj N1 Hn') HM VP HR') as (S1 & S3 & R1 & _).
  assert (Q4 : 0 < M * M * (M * M)) by (apply Rmult_lt_0_compat; lra).
  assert (T16 : 16 * bpow radix2 (-1075) = bpow radix2 (-1071)) by (change 16 with (bpow radix2 4); apply bp_mul).
  pose proof (bp (-440)) as B440.
  split; [exact HR'|]. split; [|split; [|split; [|split; [|split; [|split; [|split; [|split; [|split; [exact N1|exact Hn']]]]]]]]].
  - change (Z.to_N (2 ^ 53)) with (2 ^ 53)%N.
    assert ((Z.of_nat (length l) * Z.of_nat (length l) <= 2 ^ 26 * 2 ^ 26)%Z) by (apply Z.mul_le_mono_nonneg; lia).
    apply N2Z.inj_le. rewrite N2Z.inj_mul, !nat_N_Z. eapply Z.le_trans; [exact H|]. vm_compute. discriminate.
  - lia.
  - change 1024 with (bpow radix2 10). apply (ub _ _ 10 840); [left; apply bp|apply Rmult_le_pos; lra|lra| |lia].
    apply (ub _ _ 40 800); lra || lia.
  - change 256 with (bpow radix2 8). rewrite bp_mul. apply (lb _ _ (-53) (-800)); [lra|lra|lia].
  - rewrite C2, T16. apply (lb _ _ (-53) (-880)); [lra| |lia]. apply (lb _ _ (-440) (-440)); [exact S1|exact S1|lia].
  - rewrite C2. change 2 with (bpow radix2 1). apply (ub _ _ 1 884); [left; apply bp|apply Rmult_le_pos; lra|lra| |lia].
    apply (ub _ _ 442 442); lra || lia.
  - change 32 with (bpow radix2 5). apply (ub _ _ 5 880); [left; apply bp|apply Rmult_le_pos; [apply Rmult_le_pos|]; lra|lra| |lia].
    apply (ub _ _ 80 800); [apply Rmult_le_pos; lra|lra| |lra|lia]. apply (ub _ _ 40 40); lra || lia.
  - change 8 with (bpow radix2 3). apply (ub _ _ 3 106); [left; apply bp|apply Rmult_le_pos; lra|lra| |lia].
    apply (ub _ _ 53 53); lra || lia.
Qed.

(** ** C94 *)

(** Three zeroes and +-8: mean +-2, variance 12, central sums +-192 and 1344. *)
Lemma spike_stats : forall c, c = 8 \/ c = -8 ->
  let l := [0; 0; 0; c] in
  variance l = 12 /\ csum 3 l = 24 * c /\ csum 4 l = 1344.
Proof. intros c [-> | ->]; unfold variance, csum, mean, card; cbn; repeat split; field. Qed.

Lemma spike_real (k : Z) : k = 8%Z \/ k = (-8)%Z -> map b64_real (map b64_of_Z [0; 0; 0; k]%Z) = [0; 0; 0; IZR k].
Proof.
  intros [-> | ->];
  match goal with |- map _ ?x = _ => let y := eval vm_compute in x in change x with y end;
  unfold b64_real, SF2R, F2R; cbn; repeat (f_equal; try lra).
Qed.

Lemma spike_bound (k : Z) : k = 8%Z \/ k = (-8)%Z ->
  Forall (fun x => b64_finite x /\ Rabs (b64_real x) <= 8) (map b64_of_Z [0; 0; 0; k]%Z).
Proof.
  intros [-> | ->];
  match goal with |- Forall _ ?x => let y := eval vm_compute in x in change x with y end; magnitudes.
Qed.

Lemma bounds8' : bpow radix2 (-200) <= 8 <= bpow radix2 200.
Proof. change 8 with (bpow radix2 3). split; apply bp_le; lia. Qed.

(** @prop C94_skewness_binary64: in binary64, for up to 2^40 finite values of
    magnitude at most [M] (between 2^-200 and 2^200) since the last clear with
    variance [V > 0]: if [M^2 / V] is below about 2^53 / (3584 n) and the third
    central sum exceeds epsilon (2^-52) by the bound for its own error, then
    skewness() is finite and within [(406 n + 9300) u (M / sigma)^3] of the
    skewness of the values. *)
Lemma c94_skewness : forall (ops : list (op b64)) (M : R),
  let l := since_clear ops in
  let n := INR (length l) in
  let u := bpow radix2 (-53) in
  l <> [] -> (Z.of_nat (length l) <= 2 ^ 40)%Z -> bpow radix2 (-200) <= M <= bpow radix2 200 ->
  Forall (fun x => b64_finite x /\ Rabs (b64_real x) <= M) l ->
  let lv := map b64_real l in
  let V := variance lv in
  0 < V -> 128 * ((28 * n + 618) * (M * M / V)) * u <= 1 ->
  bpow radix2 (-52) + 9 / 8 * n * ((229 * n + 5441) * (u * (M * (M * M)))) <= csum 3 lv ->
  let r := cskew_skewness b64num (run (cskew_push b64num) (cskew_clear b64num) (cskew_init b64num) ops) in
  b64_finite r /\
  Rabs (b64_real r - skewness lv) <= (406 * n + 9300) * (u * (M / sqrt V * (M / sqrt V) * (M / sqrt V))).
Proof.
  intros ops M l n u NE Hn HM HF lv V VP HR HE r.
  destruct (b64_magn M l HF) as [Hfin Hmag]. fold lv in Hmag.
  pose proof (inr_le l 40 ltac:(lia) Hn) as Hn'. fold n in Hn'.
  assert (N1 : 1 <= n) by (apply inr_ge1; exact NE).
  pose proof (tame_b64 M n (conj N1 Hn') HM) as TM.
  destruct (skew_bounds M n V (conj N1 Hn') HM VP HR) as (S1 & S3 & R1 & _).
  destruct (pow_bound M _ _ HM) as (P2 & P3 & _). change (2 * 200)%Z with 400%Z in P2. change (3 * 200)%Z with 600%Z in P3.
  assert (DL : Forall2 denotes l lv) by (apply denotes_list; exact Hfin).
  assert (C2 : csum 2 lv = n * V).
  { unfold V, variance, card, lv. rewrite map_length. fold n. field. lra. }
  assert (M0 : 0 < M) by (pose proof (bp (-200)); lra).
  pose proof (bp (3 * -200)) as B3. pose proof (bp (2 * -200)) as B2'.
  assert (U2 : n * V <= bpow radix2 442).
  { rewrite <- C2. pose proof (csum_bound M lv ltac:(lra) Hmag) as CB. unfold card, lv in CB. rewrite map_length in CB. fold n lv in CB.
    apply Rabs_le_inv in CB. eapply Rle_trans; [apply CB|]. apply (ub _ _ 42 400); [lra|lra| |lra|lia].
    change 4 with (bpow radix2 2). apply (ub _ _ 2 40); lra || (left; apply bp) || lia. }
  pose proof (bp (-440)) as B440. pose proof (bp (-220)) as B220.
  assert (U1 : sqrt (n * V) <= bpow radix2 221).
  { replace (bpow radix2 221) with (sqrt (bpow radix2 442)).
    - apply sqrt_le_1; [lra|left; apply bp|exact U2].
    - change 442%Z with (221 + 221)%Z. rewrite bpow_plus. apply sqrt_square. left. apply bp. }
  assert (T16 : 16 * bpow radix2 (-1075) = bpow radix2 (-1071)) by (change 16 with (bpow radix2 4); apply bp_mul).
  destruct (skew_obs approx_b64 e16 lit_b64 zero_b64 _ wrap_b64 sqrt_b64 _ eps_b64 M l lv TM DL Hmag) as (f & (Ff & Ef) & H).
  - apply (b64_count l 40); [lia|exact Hn].
  - apply (b64_small l 40); [lia|exact Hn].
  - exact VP.
  - exact HR.
  - rewrite C2, T16. split; [|split].
    + apply (lb _ _ (-53) (-220)); [lra|exact S3|lia].
    + apply (lb _ _ (-53) (-660)); [lra| |lia]. apply (lb _ _ (-220) (-440)); [exact S3|exact S1|lia].
    + apply bp_le. lia.
  - rewrite C2. change 2 with (bpow radix2 1). change 16 with (bpow radix2 4). repeat match goal with |- context [INR (length ?x)] => change (INR (length x)) with n end.
    split; [|split].
    + apply (ub _ _ 1 221); [left; apply bp|lra|lra|exact U1|lia].
    + apply (ub _ _ 1 663); [left; apply bp|apply Rmult_le_pos; lra|lra| |lia]. apply (ub _ _ 221 442); [lra|lra|exact U1|exact U2|lia].
    + assert (SN : 0 <= sqrt n <= bpow radix2 40).
      { split; [apply sqrt_pos|]. eapply Rle_trans; [|exact Hn']. rewrite <- (sqrt_square n) at 2 by lra.
        apply sqrt_le_1; [lra|apply Rmult_le_pos; lra|]. rewrite <- (Rmult_1_l n) at 1. apply Rmult_le_compat_r; lra. }
      apply (ub _ _ 4 680); [left; apply bp| |lra| |lia].
      * apply Rmult_le_pos; [apply Rmult_le_pos; lra|lra].
      * apply (ub _ _ 80 600); [apply Rmult_le_pos; lra|lra| |lra|lia]. apply (ub _ _ 40 40); lra || lia.
  - fold n V. unfold err3. exact HE.
  - fold V. assert (SP : 0 < sqrt V) by (apply sqrt_lt_R0; exact VP).
    assert (Z2 : M / sqrt V * (M / sqrt V) = M * M / V).
    { rewrite <- (sqrt_sqrt V) at 3 by lra. field. lra. }
    assert (Zp : 0 < M / sqrt V) by (apply Rdiv_lt_0_compat; lra).
    assert (Zb : M / sqrt V <= bpow radix2 53).
    { destruct (Rle_or_lt (M / sqrt V) 1) as [L|G].
      - eapply Rle_trans; [exact L|]. change 1 with (bpow radix2 0). apply bp_le. lia.
      - eapply Rle_trans; [|exact R1]. rewrite <- Z2. rewrite <- (Rmult_1_l (M / sqrt V)) at 1. apply Rmult_le_compat_r; lra. }
    change 2 with (bpow radix2 1). apply (ub _ _ 1 107); [left; apply bp| |lra| |lia].
    + apply Rmult_le_pos; [left; apply bp|]. apply Rmult_le_pos; [apply Rmult_le_pos|]; lra.
    + apply (ub _ _ 1 106); [left; apply bp| |lra| |lia].
      * apply Rmult_le_pos; [apply Rmult_le_pos|]; lra.
      * rewrite Z2. apply (ub _ _ 53 53); [left; apply Rdiv_lt_0_compat; lra|lra|exact R1|exact Zb|lia].
  - assert (Em : r = cskew_skewness b64num (fold_left (cskew_push b64num) l (cskew_init b64num))).
    { unfold r. rewrite (run_since_clear _ _ _ (cskew_clear_init b64num)). reflexivity. }
    rewrite Em. split; [exact Ff|]. rewrite Ef. exact H.
Qed.

(** @ex C94_skewness_binary64_ex: 0, 0, 0, 8 after other values and a clear; the
    bound is below 10^-10. *)
Lemma c94_skewness_ex :
  let l := since_clear (Push (b64_of_Z 99) :: Clear :: map Push (map b64_of_Z [0; 0; 0; 8]%Z)) in
  let n := INR (length l) in
  let u := bpow radix2 (-53) in
  let lv := map b64_real l in
  length l = 4%nat /\ bpow radix2 (-200) <= 8 <= bpow radix2 200 /\
  Forall (fun x => b64_finite x /\ Rabs (b64_real x) <= 8) l /\
  variance lv = 12 /\ 128 * ((28 * n + 618) * (8 * 8 / 12)) * u <= 1 /\
  bpow radix2 (-52) + 9 / 8 * n * ((229 * n + 5441) * (u * (8 * (8 * 8)))) <= csum 3 lv /\
  (406 * n + 9300) * (u * (8 / sqrt 12 * (8 / sqrt 12) * (8 / sqrt 12))) <= / 10 ^ 10.
Proof.
  cbn zeta. change (since_clear (Push (b64_of_Z 99) :: Clear :: map Push (map b64_of_Z [0; 0; 0; 8]%Z))) with (map b64_of_Z [0; 0; 0; 8]%Z).
  rewrite (spike_real 8) by (left; reflexivity). destruct (spike_stats 8 (or_introl eq_refl)) as (H1 & H2 & _).
  split; [reflexivity|]. split; [exact bounds8'|]. split; [apply spike_bound; left; reflexivity|].
  split; [exact H1|]. rewrite H2. cbn [length map].
  split; [cbn; lra|]. split; [cbn; lra|].
  assert (S : 3 <= sqrt 12) by (rewrite <- (sqrt_square 3) by lra; apply sqrt_le_1; lra).
  assert (Z : 0 <= 8 / sqrt 12 <= 8 / 3).
  { split; [apply Rlt_le, Rdiv_lt_0_compat; lra|]. unfold Rdiv. apply Rmult_le_compat_l; [lra|]. apply Rinv_le_contravar; lra. }
  generalize dependent (8 / sqrt 12). intros z Z.
  assert (Z2 : 0 <= z * z <= 8 / 3 * (8 / 3)) by (split; [apply Rmult_le_pos|apply Rmult_le_compat]; lra).
  assert (Z3 : 0 <= z * z * z <= 8 / 3 * (8 / 3) * (8 / 3)) by (split; [apply Rmult_le_pos|apply Rmult_le_compat]; lra).
  set (w := z * z * z) in *. clearbody w. cbn. lra.
Qed.

(** @prop C94_skewness_zero: in the same situation (whatever the variance), if the
    third central sum is below epsilon by more than the bound for its error, as
    for all clearly left-skewed data, skewness() is exactly zero. *)
Lemma c94_skewness_zero : forall (ops : list (op b64)) (M : R),
  let l := since_clear ops in
  let n := INR (length l) in
  let u := bpow radix2 (-53) in
  l <> [] -> (Z.of_nat (length l) <= 2 ^ 40)%Z -> bpow radix2 (-200) <= M <= bpow radix2 200 ->
  Forall (fun x => b64_finite x /\ Rabs (b64_real x) <= M) l ->
  csum 3 (map b64_real l) + 9 / 8 * n * ((229 * n + 5441) * (u * (M * (M * M)))) < bpow radix2 (-52) ->
  cskew_skewness b64num (run (cskew_push b64num) (cskew_clear b64num) (cskew_init b64num) ops) = S754_zero false.
Proof.
  intros ops M l n u NE Hn HM HF HE.
  destruct (b64_magn M l HF) as [Hfin Hmag].
  pose proof (inr_le l 40 ltac:(lia) Hn) as Hn'. fold n in Hn'.
  assert (N1 : 1 <= n) by (apply inr_ge1; exact NE).
  pose proof (tame_b64 M n (conj N1 Hn') HM) as TM.
  rewrite (run_since_clear _ _ _ (cskew_clear_init b64num)).
  apply (skew_zero approx_b64 e16 lit_b64 zero_b64 _ wrap_b64 _ eps_b64 M l (map b64_real l) TM); [apply denotes_list; exact Hfin|exact Hmag| | |exact HE].
  - apply (b64_count l 40); [lia|exact Hn].
  - apply (b64_small l 40); [lia|exact Hn].
Qed.

(** @ex C94_skewness_zero_ex: 0, 0, 0, -8, whose skewness is -1.15. *)
Lemma c94_skewness_zero_ex :
  let l := since_clear (map Push (map b64_of_Z [0; 0; 0; -8]%Z)) in
  let n := INR (length l) in
  let u := bpow radix2 (-53) in
  length l = 4%nat /\ bpow radix2 (-200) <= 8 <= bpow radix2 200 /\
  Forall (fun x => b64_finite x /\ Rabs (b64_real x) <= 8) l /\
  csum 3 (map b64_real l) = -192 /\
  -192 + 9 / 8 * n * ((229 * n + 5441) * (u * (8 * (8 * 8)))) < bpow radix2 (-52).
Proof.
  cbn zeta. change (since_clear (map Push (map b64_of_Z [0; 0; 0; -8]%Z))) with (map b64_of_Z [0; 0; 0; -8]%Z).
  rewrite (spike_real (-8)) by (right; reflexivity). destruct (spike_stats (-8) (or_intror eq_refl)) as (_ & H2 & _).
  split; [reflexivity|]. split; [exact bounds8'|]. split; [apply spike_bound; right; reflexivity|].
  split; [rewrite H2; lra|]. cbn. lra.
Qed.

(** @prop C94_kurtosis_binary64: for up to 2^26 values: if [M^2 / V] is below about
    2^53 / (28672 n) and the fourth central sum exceeds epsilon by the bound for
    its error, then kurtosis() is finite and within [(4140 n + 96000) u (M^2 /
    V)^2] of the kurtosis of the values. *)
Lemma c94_kurtosis : forall (ops : list (op b64)) (M : R),
  let l := since_clear ops in
  let n := INR (length l) in
  let u := bpow radix2 (-53) in
  l <> [] -> (Z.of_nat (length l) <= 2 ^ 26)%Z -> bpow radix2 (-200) <= M <= bpow radix2 200 ->
  Forall (fun x => b64_finite x /\ Rabs (b64_real x) <= M) l ->
  let lv := map b64_real l in
  let V := variance lv in
  0 < V -> 1024 * ((28 * n + 618) * (M * M / V)) * u <= 1 ->
  bpow radix2 (-52) + 9 / 8 * n * ((3242 * n + 75362) * (u * (M * M * (M * M)))) <= csum 4 lv ->
  let r := ckurt_kurtosis b64num (run (ckurt_push b64num) (ckurt_clear b64num) (ckurt_init b64num) ops) in
  b64_finite r /\
  Rabs (b64_real r - kurtosis lv) <= (4140 * n + 96000) * (u * (M * M / V * (M * M / V))).
Proof.
  intros ops M l n u NE Hn HM HF lv V VP HR HE r.
  destruct (b64_magn M l HF) as [Hfin Hmag]. fold lv in Hmag.
  pose proof (inr_le l 26 ltac:(lia) Hn) as Hn0. fold n in Hn0.
  assert (Hn' : n <= bpow radix2 40) by (eapply Rle_trans; [exact Hn0|apply bp_le; lia]).
  assert (N1 : 1 <= n) by (apply inr_ge1; exact NE).
  pose proof (tame_b64 M n (conj N1 Hn') HM) as TM.
  destruct (pow_bound M _ _ HM) as (P2 & P3 & P4). change (2 * 200)%Z with 400%Z in P2. change (3 * 200)%Z with 600%Z in P3.
  change (4 * 200)%Z with 800%Z in P4. change (4 * -200)%Z with (-800)%Z in P4.
  assert (M0 : 0 < M) by (pose proof (bp (-200)); lra).
  assert (Q2 : 0 < M * M) by (apply Rmult_lt_0_compat; lra).
  assert (RP : 0 < M * M / V) by (apply Rdiv_lt_0_compat; lra).
  assert (HR' : 128 * ((28 * n + 618) * (M * M / V)) * u <= 1).
  { eapply Rle_trans; [|exact HR]. apply Rmult_le_compat_r; [left; apply bp|]. apply Rmult_le_compat_r; [|lra]. apply Rmult_le_pos; lra. }
  destruct (skew_bounds M n V (conj N1 Hn') HM VP HR') as (S1 & S3 & R1 & _).
  assert (DL : Forall2 denotes l lv) by (apply denotes_list; exact Hfin).
  assert (C2 : csum 2 lv = n * V).
  { unfold V, variance, card, lv. rewrite map_length. fold n. field. lra. }
  assert (Q4 : 0 < M * M * (M * M)) by (apply Rmult_lt_0_compat; lra).
  assert (U2 : n * V <= bpow radix2 442).
  { rewrite <- C2. pose proof (csum_bound M lv ltac:(lra) Hmag) as CB. unfold card, lv in CB. rewrite map_length in CB. fold n lv in CB.
    apply Rabs_le_inv in CB. eapply Rle_trans; [apply CB|]. apply (ub _ _ 42 400); [lra|lra| |lra|lia].
    change 4 with (bpow radix2 2). apply (ub _ _ 2 40); lra || (left; apply bp) || lia. }
  pose proof (bp (-440)) as B440. pose proof (bp (-220)) as B220.
  assert (U1 : sqrt (n * V) <= bpow radix2 221).
  { replace (bpow radix2 221) with (sqrt (bpow radix2 442)).
    - apply sqrt_le_1; [lra|left; apply bp|exact U2].
    - change 442%Z with (221 + 221)%Z. rewrite bpow_plus. apply sqrt_square. left. apply bp. }
  assert (T16 : 16 * bpow radix2 (-1075) = bpow radix2 (-1071)) by (change 16 with (bpow radix2 4); apply bp_mul).
  assert (M3 : 0 < M * (M * M)) by (apply Rmult_lt_0_compat; lra).
  destruct (kurt_obs approx_b64 e16 lit_b64 zero_b64 _ wrap_b64 _ eps_b64 M l lv TM DL Hmag) as (f & (Ff & Ef) & H);
    repeat match goal with |- context [INR (length ?x)] => change (INR (length x)) with n end.
  - apply (b64_count l 26); [lia|exact Hn].
  - apply (b64_small l 26); [lia|exact Hn].
  - exact VP.
  - exact HR'.
  - rewrite C2, T16. split; [|split].
    + apply (lb _ _ (-53) (-220)); [lra|exact S3|lia].
    + apply (lb _ _ (-53) (-660)); [lra| |lia]. apply (lb _ _ (-220) (-440)); [exact S3|exact S1|lia].
    + apply bp_le. lia.
  - rewrite C2. change 2 with (bpow radix2 1). change 16 with (bpow radix2 4). repeat match goal with |- context [INR (length ?x)] => change (INR (length x)) with n end.
    split; [|split].
    + apply (ub _ _ 1 221); [left; apply bp|lra|lra|exact U1|lia].
    + apply (ub _ _ 1 663); [left; apply bp|apply Rmult_le_pos; lra|lra| |lia]. apply (ub _ _ 221 442); [lra|lra|exact U1|exact U2|lia].
    + assert (SN : 0 <= sqrt n <= bpow radix2 40).
      { split; [apply sqrt_pos|]. eapply Rle_trans; [|exact Hn']. rewrite <- (sqrt_square n) at 2 by lra.
        apply sqrt_le_1; [lra|apply Rmult_le_pos; lra|]. rewrite <- (Rmult_1_l n) at 1. apply Rmult_le_compat_r; lra. }
      apply (ub _ _ 4 680); [left; apply bp| |lra| |lia].
      * apply Rmult_le_pos; [apply Rmult_le_pos; lra|lra].
      * apply (ub _ _ 80 600); [apply Rmult_le_pos; lra|lra| |lra|lia]. apply (ub _ _ 40 40); lra || lia.
  - change (Z.to_N (2 ^ 53)) with (2 ^ 53)%N.
    assert ((Z.of_nat (length l) * Z.of_nat (length l) <= 2 ^ 26 * 2 ^ 26)%Z) by (apply Z.mul_le_mono_nonneg; lia).
    apply N2Z.inj_le. rewrite N2Z.inj_mul, !nat_N_Z. eapply Z.le_trans; [exact H|]. vm_compute. discriminate.
  - change (Z.of_nat (length l)) with (Z.of_nat (@length (carrier b64num) l)) in *. lia.
  - change 1024 with (bpow radix2 10). apply (ub _ _ 10 840); [left; apply bp|apply Rmult_le_pos; lra|lra| |lia].
    apply (ub _ _ 40 800); lra || lia.
  - change 256 with (bpow radix2 8). rewrite bp_mul. apply (lb _ _ (-53) (-800)); [lra|lra|lia].
  - unfold err4. exact HE.
  - exact HR.
  - rewrite C2, T16. apply (lb _ _ (-53) (-880)); [lra| |lia]. apply (lb _ _ (-440) (-440)); [exact S1|exact S1|lia].
  - rewrite C2. change 2 with (bpow radix2 1). apply (ub _ _ 1 884); [left; apply bp|apply Rmult_le_pos; lra|lra| |lia].
    apply (ub _ _ 442 442); lra || lia.
  - change 32 with (bpow radix2 5). apply (ub _ _ 5 880); [left; apply bp|apply Rmult_le_pos; [apply Rmult_le_pos|]; lra|lra| |lia].
    apply (ub _ _ 80 800); [apply Rmult_le_pos; lra|lra| |lra|lia]. apply (ub _ _ 40 40); lra || lia.
  - fold V. change 8 with (bpow radix2 3). apply (ub _ _ 3 106); [left; apply bp|apply Rmult_le_pos; lra|lra| |lia].
    apply (ub _ _ 53 53); lra || lia.
  - assert (Em : r = ckurt_kurtosis b64num (fold_left (ckurt_push b64num) l (ckurt_init b64num))).
    { unfold r. rewrite (run_since_clear _ _ _ (ckurt_clear_init b64num)). reflexivity. }
    rewrite Em. split; [exact Ff|]. rewrite Ef. exact H.
Qed.

(** @ex C94_kurtosis_binary64_ex: 0, 0, 0, 8. *)
Lemma c94_kurtosis_ex :
  let l := since_clear (map Push (map b64_of_Z [0; 0; 0; 8]%Z)) in
  let n := INR (length l) in
  let u := bpow radix2 (-53) in
  let lv := map b64_real l in
  length l = 4%nat /\ bpow radix2 (-200) <= 8 <= bpow radix2 200 /\
  Forall (fun x => b64_finite x /\ Rabs (b64_real x) <= 8) l /\
  variance lv = 12 /\ 1024 * ((28 * n + 618) * (8 * 8 / 12)) * u <= 1 /\
  bpow radix2 (-52) + 9 / 8 * n * ((3242 * n + 75362) * (u * (8 * 8 * (8 * 8)))) <= csum 4 lv /\
  (4140 * n + 96000) * (u * (8 * 8 / 12 * (8 * 8 / 12))) <= / 10 ^ 9.
Proof.
  cbn zeta. change (since_clear (map Push (map b64_of_Z [0; 0; 0; 8]%Z))) with (map b64_of_Z [0; 0; 0; 8]%Z).
  rewrite (spike_real 8) by (left; reflexivity). destruct (spike_stats 8 (or_introl eq_refl)) as (H1 & _ & H3).
  split; [reflexivity|]. split; [exact bounds8'|]. split; [apply spike_bound; left; reflexivity|].
  split; [exact H1|]. rewrite H3. cbn [length map].
  split; [cbn; lra|]. split; [cbn; lra|]. cbn. lra.
Qed.

(** @prop C94_skewness_any_binary64: without the condition on the third central sum,
    skewness() is finite and within [(664 n + 15500) u (M / sigma)^3 + epsilon /
    (n V^(3/2))] of the skewness of the values, or of zero if that is negative. *)
Lemma c94_skewness_any : forall (ops : list (op b64)) (M : R),
  let l := since_clear ops in
  let n := INR (length l) in
  let u := bpow radix2 (-53) in
  l <> [] -> (Z.of_nat (length l) <= 2 ^ 40)%Z -> bpow radix2 (-200) <= M <= bpow radix2 200 ->
  Forall (fun x => b64_finite x /\ Rabs (b64_real x) <= M) l ->
  let lv := map b64_real l in
  let V := variance lv in
  0 < V -> 128 * ((28 * n + 618) * (M * M / V)) * u <= 1 ->
  let r := cskew_skewness b64num (run (cskew_push b64num) (cskew_clear b64num) (cskew_init b64num) ops) in
  b64_finite r /\
  Rabs (b64_real r - Rmax 0 (skewness lv)) <=
    (664 * n + 15500) * (u * (M / sqrt V * (M / sqrt V) * (M / sqrt V))) + bpow radix2 (-52) / (n * (V * sqrt V)).
Proof.
  intros ops M l n u NE Hn HM HF lv V VP HR r.
  destruct (skew_side M l NE Hn HM HF VP HR) as (DL & Hmag & TR & BR & ZB & _).
  pose proof (inr_le l 40 ltac:(lia) Hn) as Hn'. fold n in Hn'.
  assert (N1 : 1 <= n) by (apply inr_ge1; exact NE).
  pose proof (tame_b64 M n (conj N1 Hn') HM) as TM.
  destruct (skew_clip approx_b64 e16 lit_b64 zero_b64 _ wrap_b64 sqrt_b64 _ eps_b64 M l lv TM DL Hmag) as (f & (Ff & Ef) & H).
  - apply (b64_count l 40); [lia|exact Hn].
  - apply (b64_small l 40); [lia|exact Hn].
  - exact VP.
  - exact HR.
  - exact TR.
  - exact BR.
  - eapply Rle_trans; [exact ZB|]. apply bp_le. lia.
  - left. apply bp.
  - exact denotes_zero.
  - assert (Em : r = cskew_skewness b64num (fold_left (cskew_push b64num) l (cskew_init b64num))).
    { unfold r. rewrite (run_since_clear _ _ _ (cskew_clear_init b64num)). reflexivity. }
    rewrite Em. split; [exact Ff|]. rewrite Ef. exact H.
Qed.

(** @ex C94_skewness_any_binary64_ex: 0, 0, 0, -8, of negative skewness: the result is
    within 1e-9 of zero. *)
Lemma c94_skewness_any_ex :
  let l := since_clear (map Push (map b64_of_Z [0; 0; 0; -8]%Z)) in
  let n := INR (length l) in
  let u := bpow radix2 (-53) in
  let lv := map b64_real l in
  let z := 8 / sqrt 12 in
  length l = 4%nat /\ bpow radix2 (-200) <= 8 <= bpow radix2 200 /\
  Forall (fun x => b64_finite x /\ Rabs (b64_real x) <= 8) l /\
  variance lv = 12 /\ 128 * ((28 * n + 618) * (8 * 8 / 12)) * u <= 1 /\ skewness lv < -1 /\
  (664 * n + 15500) * (u * (z * z * z)) + bpow radix2 (-52) / (n * (12 * sqrt 12)) <= / 10 ^ 9.
Proof.
  cbn zeta. change (since_clear (map Push (map b64_of_Z [0; 0; 0; -8]%Z))) with (map b64_of_Z [0; 0; 0; -8]%Z).
  rewrite (spike_real (-8)) by (right; reflexivity). destruct (spike_stats (-8) (or_intror eq_refl)) as (H1 & H2 & _).
  split; [reflexivity|]. split; [exact bounds8'|]. split; [apply spike_bound; right; reflexivity|].
  split; [exact H1|]. cbn [length map]. split; [cbn; lra|].
  assert (S12 : 3 <= sqrt 12 <= 7 / 2).
  { split; [rewrite <- (sqrt_square 3) by lra|rewrite <- (sqrt_square (7 / 2)) by lra]; apply sqrt_le_1; lra. }
  split.
  - unfold skewness, cmoment. rewrite H2. assert (C2 : csum 2 [0; 0; 0; -8] / card [0; 0; 0; -8] = 12) by exact H1. rewrite C2.
    unfold card. cbn [length INR]. apply (Rmult_lt_reg_r (12 * sqrt 12)); [lra|].
    match goal with |- ?a / _ * _ < _ => replace (a / (12 * sqrt 12) * (12 * sqrt 12)) with a by (field; lra) end.
    lra.
  - assert (Z : 0 <= 8 / sqrt 12 <= 8 / 3).
    { split; [apply Rlt_le, Rdiv_lt_0_compat; lra|]. unfold Rdiv. apply Rmult_le_compat_l; [lra|]. apply Rinv_le_contravar; lra. }
    generalize dependent (8 / sqrt 12). intros z Z.
    assert (Z2 : 0 <= z * z <= 8 / 3 * (8 / 3)) by (split; [apply Rmult_le_pos|apply Rmult_le_compat]; lra).
    assert (Z3 : 0 <= z * z * z <= 8 / 3 * (8 / 3) * (8 / 3)) by (split; [apply Rmult_le_pos|apply Rmult_le_compat]; lra).
    set (w := z * z * z) in *. clearbody w. cbn [INR].
    assert (Q : bpow radix2 (-52) / ((1 + 1 + 1 + 1) * (12 * sqrt 12)) <= bpow radix2 (-52)).
    { unfold Rdiv. rewrite <- (Rmult_1_r (bpow radix2 (-52))) at 2. apply Rmult_le_compat_l; [left; apply bp|].
      rewrite <- Rinv_1. apply Rinv_le_contravar; lra. }
    eapply Rle_trans; [apply Rplus_le_compat_l; exact Q|]. cbn. lra.
Qed.

(** @prop C94_kurtosis_any_binary64: without the condition on the fourth central sum,
    kurtosis() is finite and within [(4140 n + 96000) u (M^2 / V)^2 + epsilon / (n
    V^2)] of the kurtosis of the values. *)
Lemma c94_kurtosis_any : forall (ops : list (op b64)) (M : R),
  let l := since_clear ops in
  let n := INR (length l) in
  let u := bpow radix2 (-53) in
  l <> [] -> (Z.of_nat (length l) <= 2 ^ 26)%Z -> bpow radix2 (-200) <= M <= bpow radix2 200 ->
  Forall (fun x => b64_finite x /\ Rabs (b64_real x) <= M) l ->
  let lv := map b64_real l in
  let V := variance lv in
  0 < V -> 1024 * ((28 * n + 618) * (M * M / V)) * u <= 1 ->
  let r := ckurt_kurtosis b64num (run (ckurt_push b64num) (ckurt_clear b64num) (ckurt_init b64num) ops) in
  b64_finite r /\
  Rabs (b64_real r - kurtosis lv) <=
    (4140 * n + 96000) * (u * (M * M / V * (M * M / V))) + bpow radix2 (-52) / (n * (V * V)).
Proof.
  intros ops M l n u NE Hn HM HF lv V VP HR r.
  destruct (kurt_side M l NE Hn HM HF VP HR) as ((DL & Hmag & TR & BR & ZB & _) & HR' & H1 & H2 & H3 & H4 & H5 & H6 & H7 & H8 & N1 & Hn').
  change (1 <= n) in N1. change (n <= bpow radix2 40) in Hn'.
  pose proof (tame_b64 M n (conj N1 Hn') HM) as TM.
  destruct (kurt_all approx_b64 e16 lit_b64 zero_b64 _ wrap_b64 _ eps_b64 M l lv TM DL Hmag) as (f & (Ff & Ef) & H); try assumption.
  - apply (b64_count l 26); [lia|exact Hn].
  - apply (b64_small l 26); [lia|exact Hn].
  - left. apply bp.
  - exact denotes_zero.
  - assert (Em : r = ckurt_kurtosis b64num (fold_left (ckurt_push b64num) l (ckurt_init b64num))).
    { unfold r. rewrite (run_since_clear _ _ _ (ckurt_clear_init b64num)). reflexivity. }
    rewrite Em. split; [exact Ff|]. rewrite Ef. exact H.
Qed.

(** @ex C94_kurtosis_any_binary64_ex: 0, 0, 0, 8. *)
Lemma c94_kurtosis_any_ex :
  let l := since_clear (map Push (map b64_of_Z [0; 0; 0; 8]%Z)) in
  let n := INR (length l) in
  let u := bpow radix2 (-53) in
  let lv := map b64_real l in
  length l = 4%nat /\ bpow radix2 (-200) <= 8 <= bpow radix2 200 /\
  Forall (fun x => b64_finite x /\ Rabs (b64_real x) <= 8) l /\
  variance lv = 12 /\ 1024 * ((28 * n + 618) * (8 * 8 / 12)) * u <= 1 /\ kurtosis lv = 7 / 3 /\
  (4140 * n + 96000) * (u * (8 * 8 / 12 * (8 * 8 / 12))) + bpow radix2 (-52) / (n * (12 * 12)) <= / 10 ^ 9.
Proof.
  cbn zeta. change (since_clear (map Push (map b64_of_Z [0; 0; 0; 8]%Z))) with (map b64_of_Z [0; 0; 0; 8]%Z).
  rewrite (spike_real 8) by (left; reflexivity). destruct (spike_stats 8 (or_introl eq_refl)) as (H1 & _ & H3).
  split; [reflexivity|]. split; [exact bounds8'|]. split; [apply spike_bound; left; reflexivity|].
  split; [exact H1|]. cbn [length map].
  split; [cbn; lra|]. split; [|cbn; lra].
  unfold kurtosis, cmoment. rewrite H3. assert (C2 : csum 2 [0; 0; 0; 8] / card [0; 0; 0; 8] = 12) by exact H1. rewrite C2.
  unfold card. cbn. lra.
Qed.

(** @prop C94_unbiased_skewness_binary64: for 3 to 2^26 values, unbiased_skewness() is
    finite and within [3 ((664 n + 15508) u (M / sigma)^3 + epsilon / (n V^(3/2)))]
    of the bias-corrected skewness, or of zero if that is negative. *)
Lemma c94_unbiased_skewness : forall (ops : list (op b64)) (M : R),
  let l := since_clear ops in
  let n := INR (length l) in
  let u := bpow radix2 (-53) in
  (3 <= length l)%nat -> (Z.of_nat (length l) <= 2 ^ 26)%Z -> bpow radix2 (-200) <= M <= bpow radix2 200 ->
  Forall (fun x => b64_finite x /\ Rabs (b64_real x) <= M) l ->
  let lv := map b64_real l in
  let V := variance lv in
  0 < V -> 128 * ((28 * n + 618) * (M * M / V)) * u <= 1 ->
  let r := cskew_unbiased_skewness b64num (run (cskew_push b64num) (cskew_clear b64num) (cskew_init b64num) ops) in
  b64_finite r /\
  Rabs (b64_real r - Rmax 0 (sample_skewness lv)) <=
    3 * ((664 * n + 15508) * (u * (M / sqrt V * (M / sqrt V) * (M / sqrt V))) + bpow radix2 (-52) / (n * (V * sqrt V))).
Proof.
  intros ops M l n u L3 Hn26 HM HF lv V VP HR r.
  assert (NE : l <> []) by (intros Z; fold l in L3; rewrite Z in L3; cbn in L3; lia).
  assert (Hn : (Z.of_nat (length l) <= 2 ^ 40)%Z) by lia.
  destruct (skew_side M l NE Hn HM HF VP HR) as (DL & Hmag & TR & BR & ZB & S0 & C2 & U2 & Z2 & Zp).
  fold lv V in ZB, S0, C2, U2, Z2, Zp. fold n in U2.
  pose proof (inr_le l 40 ltac:(lia) Hn) as Hn'. fold n in Hn'.
  assert (N1 : 1 <= n) by (apply inr_ge1; exact NE).
  assert (N3 : 3 <= n) by (unfold n; replace 3 with (INR 3) by (cbn; lra); apply le_INR; exact L3).
  pose proof (tame_b64 M n (conj N1 Hn') HM) as TM.
  destruct (unb_skew approx_b64 e16 lit_b64 zero_b64 _ wrap_b64 sqrt_b64 _ eps_b64 M l lv TM DL Hmag) as (f & (Ff & Ef) & H).
  - apply (b64_count l 40); [lia|exact Hn].
  - apply (b64_small l 40); [lia|exact Hn].
  - exact VP.
  - exact HR.
  - exact TR.
  - exact BR.
  - eapply Rle_trans; [exact ZB|]. apply bp_le. lia.
  - left. apply bp.
  - exact denotes_zero.
  - exact L3.
  - change (Z.to_N (2 ^ 53)) with (2 ^ 53)%N.
    assert ((Z.of_nat (length l) * Z.of_nat (length l) <= 2 ^ 26 * 2 ^ 26)%Z) by (apply Z.mul_le_mono_nonneg; lia).
    apply N2Z.inj_le. rewrite N2Z.inj_mul, !nat_N_Z. eapply Z.le_trans; [exact H|]. vm_compute. discriminate.
  - change (Z.of_nat (length l)) with (Z.of_nat (@length (carrier b64num) l)) in *. lia.
  - fold lv V. repeat match goal with |- context [INR (length ?x)] => change (INR (length x)) with n end.
    set (z := M / sqrt V) in *. unfold skew_err. fold lv V. repeat match goal with |- context [INR (length ?x)] => change (INR (length x)) with n end.
    fold z. pose proof (bp (-440)) as B440.
    assert (SV : bpow radix2 (-220) <= sqrt V).
    { replace (bpow radix2 (-220)) with (sqrt (bpow radix2 (-440))).
      - apply sqrt_le_1; lra.
      - change (-440)%Z with (-220 + -220)%Z. rewrite bpow_plus. apply sqrt_square. left. apply bp. }
    pose proof (bp (-220)) as B220.
    assert (D1 : bpow radix2 (-660) <= n * (V * sqrt V)).
    { apply Rle_trans with (1 * (V * sqrt V)).
      - rewrite Rmult_1_l. apply (lb _ _ (-440) (-220)); [exact S0|exact SV|lia].
      - apply Rmult_le_compat_r; [apply Rmult_le_pos; lra|exact N1]. }
    pose proof (bp (-660)) as B660.
    assert (Q1 : bpow radix2 (-52) / (n * (V * sqrt V)) <= bpow radix2 608).
    { apply (Rmult_le_reg_r (n * (V * sqrt V))); [lra|].
      replace (bpow radix2 (-52) / (n * (V * sqrt V)) * (n * (V * sqrt V))) with (bpow radix2 (-52)) by (field; pose proof (sqrt_lt_R0 V VP); lra).
      apply (lb _ _ 608 (-660)); [lra|exact D1|lia]. }
    assert (Z3 : 0 <= z * z * z) by (apply Rmult_le_pos; [apply Rmult_le_pos|]; lra).
    assert (Q2 : (664 * n + 15500) * (bpow radix2 (-53) * (z * z * z)) <= bpow radix2 608).
    { apply (ub _ _ 60 200); [lra|apply Rmult_le_pos; [left; apply bp|exact Z3]| | |lia].
      - apply Rle_trans with (bpow radix2 20 * bpow radix2 40); [|rewrite bp_mul; apply bp_le; lia].
        assert (16164 * n <= 16164 * bpow radix2 40) by lra.
        assert (16164 <= bpow radix2 20) by (cbn; lra).
        assert (16164 * bpow radix2 40 <= bpow radix2 20 * bpow radix2 40) by (apply Rmult_le_compat_r; [left; apply bp|lra]). lra.
      - apply (ub _ _ 0 200); [left; apply bp|exact Z3|apply bp_le; lia|lra|lia]. }
    assert (Q3 : 2 * (z * z * z) <= bpow radix2 608).
    { apply Rle_trans with (bpow radix2 200); [lra|apply bp_le; lia]. }
    assert (Q4 : bpow radix2 608 * 3 <= bpow radix2 610).
    { change 610%Z with (608 + 2)%Z. rewrite bpow_plus. apply Rmult_le_compat_l; [left; apply bp|]. cbn. lra. }
    apply (ub _ _ 41 610); [lra| | | |lia].
    + apply Rplus_le_le_0_compat; [lra|]. apply Rplus_le_le_0_compat.
      * apply Rmult_le_pos; [lra|]. apply Rmult_le_pos; [left; apply bp|exact Z3].
      * apply Rmult_le_pos; [left; apply bp|]. left. apply Rinv_0_lt_compat. lra.
    + change 41%Z with (40 + 1)%Z. rewrite bpow_plus. change (bpow radix2 1) with 2. lra.
    + lra.
  - assert (Em : r = cskew_unbiased_skewness b64num (fold_left (cskew_push b64num) l (cskew_init b64num))).
    { unfold r. rewrite (run_since_clear _ _ _ (cskew_clear_init b64num)). reflexivity. }
    rewrite Em. split; [exact Ff|]. rewrite Ef.
    unfold sample_skewness, card. replace (length lv) with (length l) by (unfold lv; rewrite map_length; reflexivity). fold n.
    unfold skew_err in H. fold lv V in H.
    repeat match type of H with context [INR (length ?x)] => change (INR (length x)) with n in H end.
    assert (FP : 0 <= sqrt (n * (n - 1)) / (n - 2)).
    { apply Rmult_le_pos; [apply sqrt_pos|]. left. apply Rinv_0_lt_compat. lra. }
    replace (Rmax 0 (sqrt (n * (n - 1)) / (n - 2) * skewness lv)) with (Rmax 0 (skewness lv) * sqrt (n * (n - 1)) / (n - 2)).
    + eapply Rle_trans; [exact H|]. fold u. lra.
    + replace (Rmax 0 (skewness lv) * sqrt (n * (n - 1)) / (n - 2)) with (sqrt (n * (n - 1)) / (n - 2) * Rmax 0 (skewness lv)) by (field; lra).
      rewrite <- RmaxRmult by exact FP. rewrite Rmult_0_r. reflexivity.
Qed.

(** @ex C94_unbiased_skewness_binary64_ex: 0, 0, 0, 8, whose bias-corrected skewness is 2. *)
Lemma c94_unbiased_skewness_ex :
  let l := since_clear (map Push (map b64_of_Z [0; 0; 0; 8]%Z)) in
  let n := INR (length l) in
  let u := bpow radix2 (-53) in
  let lv := map b64_real l in
  let z := 8 / sqrt 12 in
  length l = 4%nat /\ bpow radix2 (-200) <= 8 <= bpow radix2 200 /\
  Forall (fun x => b64_finite x /\ Rabs (b64_real x) <= 8) l /\
  variance lv = 12 /\ 128 * ((28 * n + 618) * (8 * 8 / 12)) * u <= 1 /\ sample_skewness lv = 2 /\
  3 * ((664 * n + 15508) * (u * (z * z * z)) + bpow radix2 (-52) / (n * (12 * sqrt 12))) <= / 10 ^ 9.
Proof.
  cbn zeta. change (since_clear (map Push (map b64_of_Z [0; 0; 0; 8]%Z))) with (map b64_of_Z [0; 0; 0; 8]%Z).
  rewrite (spike_real 8) by (left; reflexivity). destruct (spike_stats 8 (or_introl eq_refl)) as (H1 & H2 & _).
  split; [reflexivity|]. split; [exact bounds8'|]. split; [apply spike_bound; left; reflexivity|].
  split; [exact H1|]. cbn [length map]. split; [cbn; lra|].
  assert (S12 : 3 <= sqrt 12 <= 7 / 2).
  { split; [rewrite <- (sqrt_square 3) by lra|rewrite <- (sqrt_square (7 / 2)) by lra]; apply sqrt_le_1; lra. }
  split.
  - unfold sample_skewness, skewness, cmoment. rewrite H2. assert (C2 : csum 2 [0; 0; 0; 8] / card [0; 0; 0; 8] = 12) by exact H1. rewrite C2.
    unfold card. cbn [length INR]. replace ((1 + 1 + 1 + 1) * (1 + 1 + 1 + 1 - 1)) with 12 by ring. field. lra.
  - assert (Z : 0 <= 8 / sqrt 12 <= 8 / 3).
    { split; [apply Rlt_le, Rdiv_lt_0_compat; lra|]. unfold Rdiv. apply Rmult_le_compat_l; [lra|]. apply Rinv_le_contravar; lra. }
    generalize dependent (8 / sqrt 12). intros z Z.
    assert (Z2 : 0 <= z * z <= 8 / 3 * (8 / 3)) by (split; [apply Rmult_le_pos|apply Rmult_le_compat]; lra).
    assert (Z3 : 0 <= z * z * z <= 8 / 3 * (8 / 3) * (8 / 3)) by (split; [apply Rmult_le_pos|apply Rmult_le_compat]; lra).
    set (w := z * z * z) in *. clearbody w. cbn [INR].
    assert (Q : bpow radix2 (-52) / ((1 + 1 + 1 + 1) * (12 * sqrt 12)) <= bpow radix2 (-52)).
    { unfold Rdiv. rewrite <- (Rmult_1_r (bpow radix2 (-52))) at 2. apply Rmult_le_compat_l; [left; apply bp|].
      rewrite <- Rinv_1. apply Rinv_le_contravar; lra. }
    eapply Rle_trans; [apply Rmult_le_compat_l; [lra|apply Rplus_le_compat_l; exact Q]|]. cbn. lra.
Qed.

(** @prop C94_unbiased_kurtosis_binary64: for 4 to 2^26 values, if the bound of
    kurtosis() is at most 1/16, unbiased_kurtosis() is finite and within eight times
    that bound plus [720 u M^2 / V] of the bias-corrected kurtosis. *)
Lemma c94_unbiased_kurtosis : forall (ops : list (op b64)) (M : R),
  let l := since_clear ops in
  let n := INR (length l) in
  let u := bpow radix2 (-53) in
  (4 <= length l)%nat -> (Z.of_nat (length l) <= 2 ^ 26)%Z -> bpow radix2 (-200) <= M <= bpow radix2 200 ->
  Forall (fun x => b64_finite x /\ Rabs (b64_real x) <= M) l ->
  let lv := map b64_real l in
  let V := variance lv in
  0 < V -> 1024 * ((28 * n + 618) * (M * M / V)) * u <= 1 ->
  let bound := (4140 * n + 96000) * (u * (M * M / V * (M * M / V))) + bpow radix2 (-52) / (n * (V * V)) in
  bound <= / 16 ->
  let r := ckurt_unbiased_kurtosis b64num (run (ckurt_push b64num) (ckurt_clear b64num) (ckurt_init b64num) ops) in
  b64_finite r /\
  Rabs (b64_real r - sample_kurtosis lv) <= 8 * (bound + 90 * (u * (M * M / V))).
Proof.
  intros ops M l n u L4 Hn HM HF lv V VP HR bound HE r.
  assert (NE : l <> []) by (intros Z; fold l in L4; rewrite Z in L4; cbn in L4; lia).
  destruct (kurt_side M l NE Hn HM HF VP HR) as ((DL & Hmag & TR & BR & ZB & _) & HR' & H1 & H2 & H3 & H4 & H5 & H6 & H7 & H8 & N1 & Hn').
  change (1 <= n) in N1. change (n <= bpow radix2 40) in Hn'.
  pose proof (tame_b64 M n (conj N1 Hn') HM) as TM.
  destruct (unb_kurt approx_b64 e16 lit_b64 zero_b64 _ wrap_b64 _ eps_b64 M l lv TM DL Hmag) as (f & (Ff & Ef) & H); try assumption.
  - apply (b64_count l 26); [lia|exact Hn].
  - apply (b64_small l 26); [lia|exact Hn].
  - left. apply bp.
  - repeat match goal with |- context [INR (length ?x)] => change (INR (length x)) with n end.
    apply Rle_trans with (bpow radix2 (44 + -1075)); [|apply bp_le; lia]. rewrite bpow_plus. apply Rmult_le_compat_r; [left; apply bp|].
    change (44)%Z with (4 + 40)%Z. rewrite bpow_plus. change (bpow radix2 4) with 16. lra.
  - repeat match goal with |- context [INR (length ?x)] => change (INR (length x)) with n end. fold V. assert (0 < M * M / V).
    { apply Rdiv_lt_0_compat; [|exact VP]. pose proof (bp (-200)). apply Rmult_lt_0_compat; lra. }
    apply Rle_trans with (bpow radix2 (6 + (40 + 53))); [|apply bp_le; lia]. rewrite !bpow_plus. change (bpow radix2 6) with 64.
    apply Rmult_le_compat_l; [lra|]. destruct (skew_bounds M n V (conj N1 Hn') HM VP HR') as (_ & _ & R1 & _). apply Rmult_le_compat; lra.
  - assert (Em : r = ckurt_unbiased_kurtosis b64num (fold_left (ckurt_push b64num) l (ckurt_init b64num))).
    { unfold r. rewrite (run_since_clear _ _ _ (ckurt_clear_init b64num)). reflexivity. }
    rewrite Em. split; [exact Ff|]. rewrite Ef.
    unfold sample_kurtosis, card. replace (length lv) with (length l) by (unfold lv; rewrite map_length; reflexivity). fold n.
    exact H.
Qed.

(** @ex C94_unbiased_kurtosis_binary64_ex: 0, 0, 0, 8, whose bias-corrected kurtosis is 7. *)
Lemma c94_unbiased_kurtosis_ex :
  let l := since_clear (map Push (map b64_of_Z [0; 0; 0; 8]%Z)) in
  let n := INR (length l) in
  let u := bpow radix2 (-53) in
  let lv := map b64_real l in
  let bound := (4140 * n + 96000) * (u * (8 * 8 / 12 * (8 * 8 / 12))) + bpow radix2 (-52) / (n * (12 * 12)) in
  length l = 4%nat /\ bpow radix2 (-200) <= 8 <= bpow radix2 200 /\
  Forall (fun x => b64_finite x /\ Rabs (b64_real x) <= 8) l /\
  variance lv = 12 /\ 1024 * ((28 * n + 618) * (8 * 8 / 12)) * u <= 1 /\ sample_kurtosis lv = 7 /\
  bound <= / 16 /\ 8 * (bound + 90 * (u * (8 * 8 / 12))) <= / 10 ^ 8.
Proof.
  cbn zeta. change (since_clear (map Push (map b64_of_Z [0; 0; 0; 8]%Z))) with (map b64_of_Z [0; 0; 0; 8]%Z).
  rewrite (spike_real 8) by (left; reflexivity). destruct (spike_stats 8 (or_introl eq_refl)) as (H1 & _ & H3).
  split; [reflexivity|]. split; [exact bounds8'|]. split; [apply spike_bound; left; reflexivity|].
  split; [exact H1|]. cbn [length map].
  split; [cbn; lra|]. split; [|split; cbn; lra].
  unfold sample_kurtosis, kurtosis, cmoment. rewrite H3. assert (C2 : csum 2 [0; 0; 0; 8] / card [0; 0; 0; 8] = 12) by exact H1. rewrite C2.
  unfold card. cbn. lra.
Qed.
