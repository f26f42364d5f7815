(** * Claim C121: accuracy of the kurtosis over float *)

From Coq Require Import Reals ZArith NArith List Bool.
From Coq Require Import Floats.SpecFloat.
From Flocq Require Import Core.
From Verif Require Import Arith History SpecStats Cumulative Ieee.
Import ListNotations.
Local Open Scope R_scope.
(** The kurtosis filter over float after a history. *)
Definition run_float (ops : list (op spec_float)) : ckurt (ieee 24 128) :=
  run (ckurt_push (ieee 24 128)) (ckurt_clear (ieee 24 128)) (ckurt_init (ieee 24 128)) ops.
(** A float of an integer. *)
Local Notation f32 z := (ieee_of_Z 24 128 z).
(* @end-header *)
From Coq Require Import Lia Lra Psatz.
From Flocq Require Import IEEE754.BinarySingleNaN.
From Verif Require Import HistoryLemmas StatsLemmas Approx ApproxInstances CumulativeProofs
  AccuracyProofs AccuracyVariance AccuracyHigher IeeeProofs Mixed MixedProofs ClaimsAccuracy ClaimsFormats ClaimsHigher ClaimsMixed.

Local Notation fd := (fdenotes 24 128).
Lemma flit z : (0 <= z <= 6)%Z -> fd (@nofz (ieee 24 128) z) (IZR z).
Proof. intros H. apply (of_Z_small 24 128); [lia|lia|]. cbn. lia. Qed.
Lemma fzero : fd (@nofsz (ieee 24 128) 0) 0.
Proof. apply (of_Z_small 24 128 ltac:(lia) ltac:(lia) 0). cbn. lia. Qed.
Lemma fwrap : fd (@nofsz (ieee 24 128) (szmod - 1)) (bpow radix2 64).
Proof. apply wrap_f32. Qed.
Lemma feps : fd (@neps (ieee 24 128)) (bpow radix2 (-23)).
Proof. apply eps_f32. Qed.

(** The side conditions of the error bounds. *)
Lemma kurt_side_f32 (M : R) (l : list spec_float) :
  let n := INR (length l) in
  let u := bpow radix2 (- 24) in
  let t := bpow radix2 (2 - 128 - 24) in
  let B := bpow radix2 (128 - 1) in
  let lv := map ieee_real l in
  let V := variance lv in
  l <> [] -> (Z.of_nat (length l) <= 2 ^ 12)%Z -> bpow radix2 (-20) <= M <= bpow radix2 20 ->
  Forall (fun x => ieee_finite 24 128 x /\ Rabs (ieee_real x) <= M) l -> 0 < V ->
  1024 * ((28 * n + 618) * (M * M / V)) * u <= 1 ->
  Forall2 fd l lv /\ Forall (fun x => Rabs x <= M) lv /\
  (16 * t <= u * sqrt (csum 2 lv) /\ 16 * t <= u * (sqrt (csum 2 lv) * csum 2 lv) /\ 16 * t <= u) /\
  (2 * sqrt (csum 2 lv) <= B /\ 2 * (sqrt (csum 2 lv) * csum 2 lv) <= B /\ 16 * (sqrt n * n * (M * (M * M))) <= B) /\
  128 * ((28 * n + 618) * (M * M / V)) * u <= 1 /\
  (N.of_nat (length l) * N.of_nat (length l) <= Z.to_N (2 ^ 24))%N /\ (N.of_nat (length l) <= 2 ^ 32)%N /\
  1024 * (n * (M * M * (M * M))) <= B /\ 256 * t <= u * (M * M * (M * M)) /\
  16 * t <= u * (csum 2 lv * csum 2 lv) /\ 2 * (csum 2 lv * csum 2 lv) <= B /\
  32 * (n * n * (M * M * (M * M))) <= B /\ 8 * (M * M / V * (M * M / V)) <= B /\ 1 <= n /\ n <= bpow radix2 13 /\ M * M / V <= bpow radix2 8 /\ 0 < M * M / V.
Proof.
  intros n u t B lv V NE Hn HM HF VP HR.
  destruct (ieee_magn 24 128 M l HF) as [Hfin Hmag]. fold lv in Hmag.
  assert (Hn13 : (Z.of_nat (length l) <= 2 ^ 13)%Z) by lia.
  pose proof (inr_le l 13 ltac:(lia) Hn13) as Hn'. fold n in Hn'.
  assert (N1 : 1 <= n) by (apply inr_ge1; exact NE).
  destruct (pow_bound M _ _ HM) as (P2 & P3 & P4). change (2 * 20)%Z with 40%Z in P2. change (3 * 20)%Z with 60%Z in P3.
  change (4 * 20)%Z with 80%Z in P4. change (4 * -20)%Z with (-80)%Z in P4.
  assert (M0 : 0 < M) by (pose proof (bp (-20)); lra).
  assert (Q2 : 0 < M * M) by (apply Rmult_lt_0_compat; lra).
  assert (Q3 : 0 < M * (M * M)) by (apply Rmult_lt_0_compat; lra).
  assert (Q4 : 0 < M * M * (M * M)) by (apply Rmult_lt_0_compat; lra).
  assert (RP : 0 < M * M / V) by (apply Rdiv_lt_0_compat; lra).
  assert (Up : 0 < u) by apply bp.
  assert (HR' : 128 * ((28 * n + 618) * (M * M / V)) * u <= 1).
  { eapply Rle_trans; [|exact HR]. apply Rmult_le_compat_r; [lra|]. apply Rmult_le_compat_r; [|lra]. apply Rmult_le_pos; lra. }
  destruct (skew_bounds_f32 M n V (conj N1 Hn') HM VP HR') as (S1 & S3 & R1).
  assert (C2 : csum 2 lv = n * V).
  { unfold V, variance, card, lv. rewrite map_length. fold n. field. lra. }
  assert (U2 : n * V <= bpow radix2 55).
  { rewrite <- C2. pose proof (csum_bound M lv ltac:(lra) Hmag) as CB. unfold card, lv in CB. rewrite map_length in CB. fold n lv in CB.
    apply Rabs_le_inv in CB. eapply Rle_trans; [apply CB|]. apply (ub _ _ 15 40); [lra|lra| |lra|lia].
    change 4 with (bpow radix2 2). apply (ub _ _ 2 13); lra || (left; apply bp) || lia. }
  pose proof (bp (-48)) as B48. pose proof (bp (-24)) as B24.
  assert (U1 : sqrt (n * V) <= bpow radix2 28).
  { replace (bpow radix2 28) with (sqrt (bpow radix2 56)).
    - apply sqrt_le_1; [lra|left; apply bp|]. eapply Rle_trans; [exact U2|apply bp_le; lia].
    - change 56%Z with (28 + 28)%Z. rewrite bpow_plus. apply sqrt_square. left. apply bp. }
  assert (T16 : 16 * t = bpow radix2 (-146)) by (unfold t; change 16 with (bpow radix2 4); apply bp_mul).
  assert (U24 : bpow radix2 (-24) <= u) by (unfold u; lra).
  split; [unfold lv; clear - Hfin; induction Hfin; cbn; constructor; [split; [assumption|reflexivity]|assumption]|]. split; [exact Hmag|].
  rewrite C2, T16.
  split; [split; [|split]|].
  { apply (lb _ _ (-24) (-24)); [lra|exact S3|lia]. }
  { apply (lb _ _ (-24) (-72)); [lra| |lia]. apply (lb _ _ (-24) (-48)); [exact S3|exact S1|lia]. }
  { unfold u. apply bp_le. lia. }
  split; [split; [|split]|].
  { change 2 with (bpow radix2 1). apply (ub _ _ 1 28); [left; apply bp|lra|lra|exact U1|lia]. }
  { change 2 with (bpow radix2 1). apply (ub _ _ 1 83); [left; apply bp|apply Rmult_le_pos; lra|lra| |lia]. apply (ub _ _ 28 55); [lra|lra|exact U1|exact U2|lia]. }
  { assert (SN : 0 <= sqrt n <= bpow radix2 13).
    { split; [apply sqrt_pos|]. eapply Rle_trans; [|exact Hn']. rewrite <- (sqrt_square n) at 2 by lra.
      apply sqrt_le_1; [lra|apply Rmult_le_pos; lra|]. rewrite <- (Rmult_1_l n) at 1. apply Rmult_le_compat_r; lra. }
    change 16 with (bpow radix2 4). apply (ub _ _ 4 86); [left; apply bp| |lra| |lia].
    + apply Rmult_le_pos; [apply Rmult_le_pos; lra|lra].
    + apply (ub _ _ 26 60); [apply Rmult_le_pos; lra|lra| |lra|lia]. apply (ub _ _ 13 13); lra || lia. }
  split; [exact HR'|].
  split.
  { change (Z.to_N (2 ^ 24)) with (2 ^ 24)%N.
    assert ((Z.of_nat (length l) * Z.of_nat (length l) <= 2 ^ 12 * 2 ^ 12)%Z) by (apply Z.mul_le_mono_nonneg; lia).
    apply N2Z.inj_le. rewrite N2Z.inj_mul, !nat_N_Z. eapply Z.le_trans; [exact H|]. vm_compute. discriminate. }
  split; [lia|].
  split.
  { change 1024 with (bpow radix2 10). apply (ub _ _ 10 93); [left; apply bp|apply Rmult_le_pos; lra|lra| |lia].
    apply (ub _ _ 13 80); lra || lia. }
  split.
  { unfold t. change 256 with (bpow radix2 8). rewrite bp_mul. apply (lb _ _ (-24) (-80)); [lra|lra|lia]. }
  split.
  { apply (lb _ _ (-24) (-96)); [lra| |lia]. apply (lb _ _ (-48) (-48)); [exact S1|exact S1|lia]. }
  split.
  { change 2 with (bpow radix2 1). apply (ub _ _ 1 110); [left; apply bp|apply Rmult_le_pos; lra|lra| |lia].
    apply (ub _ _ 55 55); lra || lia. }
  split.
  { change 32 with (bpow radix2 5). apply (ub _ _ 5 106); [left; apply bp|apply Rmult_le_pos; [apply Rmult_le_pos|]; lra|lra| |lia].
    apply (ub _ _ 26 80); [apply Rmult_le_pos; lra|lra| |lra|lia]. apply (ub _ _ 13 13); lra || lia. }
  split.
  { change 8 with (bpow radix2 3). apply (ub _ _ 3 16); [left; apply bp|apply Rmult_le_pos; lra|lra| |lia].
    apply (ub _ _ 8 8); lra || lia. }
  repeat split; assumption.
Qed.

Lemma e16_f32 : 16 * bpow radix2 (- 24) <= 1.
Proof. rewrite two24. lra. Qed.
Lemma count_f32 (l : list spec_float) : (Z.of_nat (length l) <= 2 ^ 12)%Z -> (N.of_nat (length l) <= Z.to_N (2 ^ 24))%N /\ (N.of_nat (length l) < szmod)%N.
Proof. intros H. change (Z.to_N (2 ^ 24)) with (2 ^ 24)%N. unfold szmod. lia. Qed.

(** @prop C121_kurtosis: over float, for up to 2^12 finite values of magnitude at most [M]
    (between 2^-20 and 2^20) since the last clear with variance [V > 0]: if [M^2 / V] is
    below about 2^24 / (28672 n), then kurtosis() is finite and within
    [(4140 n + 96000) u (M^2 / V)^2 + epsilon / (n V^2)] of the kurtosis of the values,
    [u = 2^-24] and [epsilon = 2^-23]. *)
Lemma c121_kurtosis : forall (ops : list (op spec_float)) (M : R),
  let l := since_clear ops in
  let n := INR (length l) in
  let u := bpow radix2 (- 24) in
  l <> [] -> (Z.of_nat (length l) <= 2 ^ 12)%Z -> bpow radix2 (-20) <= M <= bpow radix2 20 ->
  Forall (fun x => ieee_finite 24 128 x /\ Rabs (ieee_real x) <= M) l ->
  let lv := map ieee_real l in
  let V := variance lv in
  0 < V -> 1024 * ((28 * n + 618) * (M * M / V)) * u <= 1 ->
  let r := ckurt_kurtosis (ieee 24 128) (run_float ops) in
  ieee_finite 24 128 r /\
  Rabs (ieee_real r - kurtosis lv) <=
    (4140 * n + 96000) * (u * (M * M / V * (M * M / V))) + bpow radix2 (-23) / (n * (V * V)).
Proof.
  intros ops M l n u NE Hn HM HF lv V VP HR r.
  destruct (kurt_side_f32 M l NE Hn HM HF VP HR) as (DL & Hmag & TR & BR & HR' & H1 & H2 & H3 & H4 & H5 & H6 & H7 & H8 & N1 & Hn' & _).
  destruct (count_f32 l Hn) as [K1 K2].
  destruct (kurt_all (approx_ieee 24 128 ltac:(lia) ltac:(lia)) e16_f32 flit fzero _ fwrap _ feps M l lv (tame_f32 M n (conj N1 Hn') HM) DL Hmag
    K1 K2 VP HR' TR BR H1 H2 H3 H4 HR H5 H6 H7 H8 ltac:(left; apply bp) (ap_0 _ _ _ _ _ _ (approx_ieee 24 128 ltac:(lia) ltac:(lia)))) as (f & (Ff & Ef) & H).
  assert (Em : r = ckurt_kurtosis (ieee 24 128) (fold_left (ckurt_push (ieee 24 128)) l (ckurt_init (ieee 24 128)))).
  { unfold r, run_float. rewrite (run_since_clear _ _ _ (ckurt_clear_init (ieee 24 128))). reflexivity. }
  rewrite Em. split; [exact Ff|]. rewrite Ef. exact H.
Qed.

(** @prop C121_unbiased: for 4 or more values, if that bound is at most 1/16,
    unbiased_kurtosis() is finite and within eight times the bound plus [720 u M^2 / V]
    of the bias-corrected kurtosis. *)
Lemma c121_unbiased : forall (ops : list (op spec_float)) (M : R),
  let l := since_clear ops in
  let n := INR (length l) in
  let u := bpow radix2 (- 24) in
  (4 <= length l)%nat -> (Z.of_nat (length l) <= 2 ^ 12)%Z -> bpow radix2 (-20) <= M <= bpow radix2 20 ->
  Forall (fun x => ieee_finite 24 128 x /\ Rabs (ieee_real x) <= M) l ->
  let lv := map ieee_real l in
  let V := variance lv in
  0 < V -> 1024 * ((28 * n + 618) * (M * M / V)) * u <= 1 ->
  let bound := (4140 * n + 96000) * (u * (M * M / V * (M * M / V))) + bpow radix2 (-23) / (n * (V * V)) in
  bound <= / 16 ->
  let r := ckurt_unbiased_kurtosis (ieee 24 128) (run_float ops) in
  ieee_finite 24 128 r /\
  Rabs (ieee_real r - sample_kurtosis lv) <= 8 * (bound + 90 * (u * (M * M / V))).
Proof.
  intros ops M l n u L4 Hn HM HF lv V VP HR bound HE r.
  assert (NE : l <> []) by (intros Z; fold l in L4; rewrite Z in L4; cbn in L4; lia).
  destruct (kurt_side_f32 M l NE Hn HM HF VP HR) as (DL & Hmag & TR & BR & HR' & H1 & H2 & H3 & H4 & H5 & H6 & H7 & H8 & N1 & Hn' & R1 & RP).
  destruct (count_f32 l Hn) as [K1 K2]. fold n in N1, Hn'. fold lv V in R1, RP.
  assert (X1 : 16 * n * bpow radix2 (2 - 128 - 24) <= u).
  { apply Rle_trans with (bpow radix2 (17 + (2 - 128 - 24))); [|apply bp_le; lia]. rewrite bpow_plus. apply Rmult_le_compat_r; [left; apply bp|].
    change (17)%Z with (4 + 13)%Z. rewrite bpow_plus. change (bpow radix2 4) with 16. lra. }
  assert (X2 : 64 * (n * (M * M / V)) <= bpow radix2 (128 - 1)).
  { apply Rle_trans with (bpow radix2 (6 + (13 + 8))); [|apply bp_le; lia]. rewrite !bpow_plus. change (bpow radix2 6) with 64.
    apply Rmult_le_compat_l; [lra|]. apply Rmult_le_compat; lra. }
  destruct (unb_kurt (approx_ieee 24 128 ltac:(lia) ltac:(lia)) e16_f32 flit fzero _ fwrap _ feps M l lv (tame_f32 M n (conj N1 Hn') HM) DL Hmag
    K1 K2 VP HR' TR BR H1 H2 H3 H4 HR H5 H6 H7 H8 ltac:(left; apply bp) L4 HE X1 X2) as (f & (Ff & Ef) & H).
  assert (Em : r = ckurt_unbiased_kurtosis (ieee 24 128) (fold_left (ckurt_push (ieee 24 128)) l (ckurt_init (ieee 24 128)))).
  { unfold r, run_float. rewrite (run_since_clear _ _ _ (ckurt_clear_init (ieee 24 128))). reflexivity. }
  rewrite Em. split; [exact Ff|]. rewrite Ef.
  unfold sample_kurtosis, card. replace (length lv) with (length l) by (unfold lv; rewrite map_length; reflexivity). fold n.
  exact H.
Qed.

Lemma spike_f32 : map ieee_real (map (fun z => f32 z) [0; 0; 0; 8]%Z) = [0; 0; 0; 8] /\
  Forall (fun x => ieee_finite 24 128 x /\ Rabs (ieee_real x) <= 8) (map (fun z => f32 z) [0; 0; 0; 8]%Z).
Proof.
  destruct (of_Z_small 24 128 ltac:(lia) ltac:(lia) 0 ltac:(lia)) as [F0 E0]. destruct (of_Z_small 24 128 ltac:(lia) ltac:(lia) 8 ltac:(lia)) as [F3 E3].
  split; cbn [map].
  - rewrite E0, E3. reflexivity.
  - repeat apply Forall_cons; try apply Forall_nil; (split; [assumption|]); rewrite ?E0, ?E3, Rabs_pos_eq; lra.
Qed.

(** @ex C121_kurtosis_ex: 0, 0, 0, 8 after another value and a clear; the kurtosis 7/3 is
    rounded to nearest. *)
Lemma c121_kurtosis_ex :
  let ops := Push (f32 5) :: Clear :: map Push (map (fun z => f32 z) [0; 0; 0; 8]%Z) in
  let l := since_clear ops in
  let n := INR (length l) in
  let u := bpow radix2 (- 24) in
  let lv := map ieee_real l in
  length l = 4%nat /\ bpow radix2 (-20) <= 8 <= bpow radix2 20 /\
  Forall (fun x => ieee_finite 24 128 x /\ Rabs (ieee_real x) <= 8) l /\
  variance lv = 12 /\ 1024 * ((28 * n + 618) * (8 * 8 / 12)) * u <= 1 /\ kurtosis lv = 7 / 3 /\
  ckurt_kurtosis (ieee 24 128) (run_float ops) = S754_finite false 9786709 (-22).
Proof.
  cbn zeta. match goal with |- context [since_clear ?x] => change (since_clear x) with (map (fun z => f32 z) [0; 0; 0; 8]%Z) end.
  destruct spike_f32 as [E EF]. rewrite E. destruct (spike_stats 8 (or_introl eq_refl)) as (H1 & _ & H3).
  split; [reflexivity|]. split; [change 8 with (bpow radix2 3); split; apply bp_le; lia|]. split; [exact EF|].
  split; [exact H1|]. split; [cbn; lra|]. split; [|vm_compute; reflexivity].
  unfold kurtosis, cmoment. rewrite H3. assert (C2 : csum 2 [0; 0; 0; 8] / card [0; 0; 0; 8] = 12) by exact H1. rewrite C2.
  unfold card. cbn. lra.
Qed.

(** @ex C121_unbiased_ex: 1, -1, 1, -1, whose bias-corrected kurtosis is -3; the bound is
    below 1/16. *)
Lemma c121_unbiased_ex :
  let ops := Push (f32 5) :: Clear :: map Push (map (fun z => f32 z) [1; -1; 1; -1]%Z) in
  let l := since_clear ops in
  let n := INR (length l) in
  let u := bpow radix2 (- 24) in
  let lv := map ieee_real l in
  let bound := (4140 * n + 96000) * (u * (1 * 1 / 1 * (1 * 1 / 1))) + bpow radix2 (-23) / (n * (1 * 1)) in
  length l = 4%nat /\ bpow radix2 (-20) <= 1 <= bpow radix2 20 /\
  Forall (fun x => ieee_finite 24 128 x /\ Rabs (ieee_real x) <= 1) l /\
  variance lv = 1 /\ 1024 * ((28 * n + 618) * (1 * 1 / 1)) * u <= 1 /\ bound <= / 16 /\ sample_kurtosis lv = -3 /\
  ckurt_unbiased_kurtosis (ieee 24 128) (run_float ops) = f32 (-3).
Proof.
  cbn zeta. match goal with |- context [since_clear ?x] => change (since_clear x) with (map (fun z => f32 z) [1; -1; 1; -1]%Z) end.
  assert (E : map ieee_real (map (fun z => f32 z) [1; -1; 1; -1]%Z) = [1; -1; 1; -1] /\
    Forall (fun x => ieee_finite 24 128 x /\ Rabs (ieee_real x) <= 1) (map (fun z => f32 z) [1; -1; 1; -1]%Z)).
  { destruct (of_Z_small 24 128 ltac:(lia) ltac:(lia) 1 ltac:(lia)) as [F0 E0]. destruct (of_Z_small 24 128 ltac:(lia) ltac:(lia) (-1) ltac:(lia)) as [F3 E3].
    split; cbn [map].
    - rewrite E0, E3. reflexivity.
    - repeat apply Forall_cons; try apply Forall_nil; (split; [assumption|]); rewrite ?E0, ?E3; apply Rabs_le; lra. }
  destruct E as [E EF]. rewrite E.
  assert (Me : mean [1; -1; 1; -1] = 0) by (unfold mean, card; cbn; lra).
  assert (C2 : csum 2 [1; -1; 1; -1] = 4) by (unfold csum; rewrite Me; cbn; lra).
  assert (C4 : csum 4 [1; -1; 1; -1] = 4) by (unfold csum; rewrite Me; cbn; lra).
  split; [reflexivity|]. split; [change 1 with (bpow radix2 0); split; apply bp_le; lia|]. split; [exact EF|].
  split; [unfold variance, cmoment; rewrite C2; unfold card; cbn; lra|]. split; [cbn; lra|]. split; [cbn; lra|]. split; [|vm_compute; reflexivity].
  unfold sample_kurtosis, kurtosis, cmoment. rewrite C2, C4. unfold card. cbn. lra.
Qed.
