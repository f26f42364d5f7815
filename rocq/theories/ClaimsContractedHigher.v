(** * Claim C123: accuracy of skewness and kurtosis with fused multiply-adds *)

From Coq Require Import Reals ZArith NArith List Bool.
From Coq Require Import Floats.SpecFloat.
From Flocq Require Import Core.
From Verif Require Import Arith History SpecStats Cumulative Binary64 Ieee Contracted IeeeFused ContractedHigher.
Import ListNotations.
Local Open Scope R_scope.
(** The fused operations on double ([ieee 53 1024] is [b64num], C110_double). *)
Local Notation fused64 := (ieee_fused 53 1024 : fused b64num).
(** The kurtosis filter over float with fused multiply-adds after a history. *)
Definition run_fused_float (left leftv lefts : bool) (ops : list (op spec_float)) : ckurt (ieee 24 128) :=
  run (ckurt_push_fma (ieee 24 128) (ieee_fused 24 128) left leftv lefts) (ckurt_clear (ieee 24 128)) (ckurt_init (ieee 24 128)) ops.
(** A float of an integer. *)
Local Notation f32 z := (ieee_of_Z 24 128 z).
(* @end-header *)
From Coq Require Import Lia Lra Psatz.
From Flocq Require Import IEEE754.BinarySingleNaN.
From Verif Require Import HistoryLemmas StatsLemmas CumulativeProofs Binary64Cumulative Approx ApproxInstances
  AccuracyProofs AccuracyVariance AccuracyRegression IeeeProofs ClaimsAccuracy ClaimsRegression ClaimsFormats ClaimsHigher ClaimsMixed ClaimsFloat
  ClaimsContractedWindow ContractedWindowProofs ContractedHigherProofs.

Lemma af_b64 : approx_fused b64num denotes (bpow radix2 1023) (bpow radix2 (-53)) (bpow radix2 (-1075)) (ieee_fused 53 1024 : fused b64num).
Proof. exact (af_ieee 53 1024 ltac:(lia) ltac:(lia)). Qed.

(** @prop C123_skewness: with fused multiply-adds over double, whichever of the two products
    that are subtracted the compiler fuses, skewness() of the cumulative filter keeps the
    bound of C94_skewness_any. *)
Lemma c123_skewness : forall (left : bool) (ops : list (op b64)) (M : R),
  let l := since_clear ops in
  let n := INR (length l) in
  let u := bpow radix2 (-53) in
  l <> [] -> (Z.of_nat (length l) <= 2 ^ 40)%Z -> bpow radix2 (-200) <= M <= bpow radix2 200 ->
  Forall (fun x => b64_finite x /\ Rabs (b64_real x) <= M) l ->
  let lv := map b64_real l in
  let V := variance lv in
  0 < V -> 128 * ((28 * n + 618) * (M * M / V)) * u <= 1 ->
  let r := cskew_skewness b64num (run (cskew_push_fma b64num fused64 left) (cskew_clear b64num) (cskew_init b64num) ops) in
  b64_finite r /\
  Rabs (b64_real r - Rmax 0 (skewness lv)) <=
    (664 * n + 15500) * (u * (M / sqrt V * (M / sqrt V) * (M / sqrt V))) + bpow radix2 (-52) / (n * (V * sqrt V)).
Proof.
  intros lf ops M l n u NE Hn HM HF lv V VP HR r.
  destruct (skew_side M l NE Hn HM HF VP HR) as (DL & Hmag & TR & BR & ZB & _).
  pose proof (inr_le l 40 ltac:(lia) Hn) as Hn'. fold n in Hn'.
  assert (N1 : 1 <= n) by (apply inr_ge1; exact NE).
  pose proof (tame_b64 M n (conj N1 Hn') HM) as TM.
  destruct (skew_clip approx_b64 _ af_b64 lf lit_b64 zero_b64 _ wrap_b64 sqrt_b64 _ eps_b64 M l lv TM DL Hmag) as (f & (Ff & Ef) & H).
  - apply (b64_count l 40); [lia|exact Hn].
  - apply (b64_small l 40); [lia|exact Hn].
  - exact VP.
  - exact HR.
  - exact TR.
  - exact BR.
  - eapply Rle_trans; [exact ZB|]. apply bp_le. lia.
  - left. apply bp.
  - exact denotes_zero.
  - assert (Em : r = cskew_skewness b64num (fold_left (cskew_push_fma b64num fused64 lf) l (cskew_init b64num))).
    { unfold r. rewrite (run_since_clear _ _ _ (cskew_clear_init b64num)). reflexivity. }
    rewrite Em. split; [exact Ff|]. rewrite Ef. exact H.
Qed.

(** @ex C123_skewness_ex: 0, 0, 0, -8, of negative skewness: the result is within 1e-9 of zero. *)
Lemma c123_skewness_ex :
  let l := since_clear (map Push (map b64_of_Z [0; 0; 0; -8]%Z)) in
  let n := INR (length l) in
  let u := bpow radix2 (-53) in
  let lv := map b64_real l in
  let z := 8 / sqrt 12 in
  length l = 4%nat /\ bpow radix2 (-200) <= 8 <= bpow radix2 200 /\
  Forall (fun x => b64_finite x /\ Rabs (b64_real x) <= 8) l /\
  variance lv = 12 /\ 128 * ((28 * n + 618) * (8 * 8 / 12)) * u <= 1 /\ skewness lv < -1 /\
  (664 * n + 15500) * (u * (z * z * z)) + bpow radix2 (-52) / (n * (12 * sqrt 12)) <= / 10 ^ 9.
Proof. exact c94_skewness_any_ex. Qed.

(** @prop C123_kurtosis: likewise kurtosis(), with the bound of C94_kurtosis_any, whichever of
    the products of each sum and difference are fused. *)
Lemma c123_kurtosis : forall (left leftv lefts : bool) (ops : list (op b64)) (M : R),
  let l := since_clear ops in
  let n := INR (length l) in
  let u := bpow radix2 (-53) in
  l <> [] -> (Z.of_nat (length l) <= 2 ^ 26)%Z -> bpow radix2 (-200) <= M <= bpow radix2 200 ->
  Forall (fun x => b64_finite x /\ Rabs (b64_real x) <= M) l ->
  let lv := map b64_real l in
  let V := variance lv in
  0 < V -> 1024 * ((28 * n + 618) * (M * M / V)) * u <= 1 ->
  let r := ckurt_kurtosis b64num (run (ckurt_push_fma b64num fused64 left leftv lefts) (ckurt_clear b64num) (ckurt_init b64num) ops) in
  b64_finite r /\
  Rabs (b64_real r - kurtosis lv) <=
    (4140 * n + 96000) * (u * (M * M / V * (M * M / V))) + bpow radix2 (-52) / (n * (V * V)).
Proof.
  intros lf lv1 lv2 ops M l n u NE Hn HM HF lv V VP HR r.
  destruct (kurt_side M l NE Hn HM HF VP HR) as ((DL & Hmag & TR & BR & ZB & _) & HR' & H1 & H2 & H3 & H4 & H5 & H6 & H7 & H8 & N1 & Hn').
  change (1 <= n) in N1. change (n <= bpow radix2 40) in Hn'.
  pose proof (tame_b64 M n (conj N1 Hn') HM) as TM.
  destruct (kurt_all approx_b64 _ af_b64 lf lv1 lv2 lit_b64 zero_b64 _ wrap_b64 _ eps_b64 M l lv TM DL Hmag) as (f & (Ff & Ef) & H); try assumption.
  - apply (b64_count l 26); [lia|exact Hn].
  - apply (b64_small l 26); [lia|exact Hn].
  - left. apply bp.
  - exact denotes_zero.
  - assert (Em : r = ckurt_kurtosis b64num (fold_left (ckurt_push_fma b64num fused64 lf lv1 lv2) l (ckurt_init b64num))).
    { unfold r. rewrite (run_since_clear _ _ _ (ckurt_clear_init b64num)). reflexivity. }
    rewrite Em. split; [exact Ff|]. rewrite Ef. exact H.
Qed.

(** @ex C123_kurtosis_ex: 0, 0, 0, 8. *)
Lemma c123_kurtosis_ex :
  let l := since_clear (map Push (map b64_of_Z [0; 0; 0; 8]%Z)) in
  let n := INR (length l) in
  let u := bpow radix2 (-53) in
  let lv := map b64_real l in
  length l = 4%nat /\ bpow radix2 (-200) <= 8 <= bpow radix2 200 /\
  Forall (fun x => b64_finite x /\ Rabs (b64_real x) <= 8) l /\
  variance lv = 12 /\ 1024 * ((28 * n + 618) * (8 * 8 / 12)) * u <= 1 /\ kurtosis lv = 7 / 3 /\
  (4140 * n + 96000) * (u * (8 * 8 / 12 * (8 * 8 / 12))) + bpow radix2 (-52) / (n * (12 * 12)) <= / 10 ^ 9.
Proof. exact c94_kurtosis_any_ex. Qed.

(** @prop C123_unbiased_skewness: likewise unbiased_skewness(), with the bound of C94_unbiased_skewness. *)
Lemma c123_unbiased_skewness : forall (left : bool) (ops : list (op b64)) (M : R),
  let l := since_clear ops in
  let n := INR (length l) in
  let u := bpow radix2 (-53) in
  (3 <= length l)%nat -> (Z.of_nat (length l) <= 2 ^ 26)%Z -> bpow radix2 (-200) <= M <= bpow radix2 200 ->
  Forall (fun x => b64_finite x /\ Rabs (b64_real x) <= M) l ->
  let lv := map b64_real l in
  let V := variance lv in
  0 < V -> 128 * ((28 * n + 618) * (M * M / V)) * u <= 1 ->
  let r := cskew_unbiased_skewness b64num (run (cskew_push_fma b64num fused64 left) (cskew_clear b64num) (cskew_init b64num) ops) in
  b64_finite r /\
  Rabs (b64_real r - Rmax 0 (sample_skewness lv)) <=
    3 * ((664 * n + 15508) * (u * (M / sqrt V * (M / sqrt V) * (M / sqrt V))) + bpow radix2 (-52) / (n * (V * sqrt V))).
Proof.
  intros lf ops M l n u L3 Hn26 HM HF lv V VP HR r.
  assert (NE : l <> []) by (intros Z; fold l in L3; rewrite Z in L3; cbn in L3; lia).
  assert (Hn : (Z.of_nat (length l) <= 2 ^ 40)%Z) by lia.
  destruct (skew_side M l NE Hn HM HF VP HR) as (DL & Hmag & TR & BR & ZB & S0 & C2 & U2 & Z2 & Zp).
  fold lv V in ZB, S0, C2, U2, Z2, Zp. fold n in U2.
  pose proof (inr_le l 40 ltac:(lia) Hn) as Hn'. fold n in Hn'.
  assert (N1 : 1 <= n) by (apply inr_ge1; exact NE).
  assert (N3 : 3 <= n) by (unfold n; replace 3 with (INR 3) by (cbn; lra); apply le_INR; exact L3).
  pose proof (tame_b64 M n (conj N1 Hn') HM) as TM.
  destruct (unb_skew approx_b64 _ af_b64 lf lit_b64 zero_b64 _ wrap_b64 sqrt_b64 _ eps_b64 M l lv TM DL Hmag) as (f & (Ff & Ef) & H).
  - apply (b64_count l 40); [lia|exact Hn].
  - apply (b64_small l 40); [lia|exact Hn].
  - exact VP.
  - exact HR.
  - exact TR.
  - exact BR.
  - eapply Rle_trans; [exact ZB|]. apply bp_le. lia.
  - left. apply bp.
  - exact denotes_zero.
  - exact L3.
  - change (Z.to_N (2 ^ 53)) with (2 ^ 53)%N.
    assert ((Z.of_nat (length l) * Z.of_nat (length l) <= 2 ^ 26 * 2 ^ 26)%Z) by (apply Z.mul_le_mono_nonneg; lia).
    apply N2Z.inj_le. rewrite N2Z.inj_mul, !nat_N_Z. eapply Z.le_trans; [exact H|]. vm_compute. discriminate.
  - change (Z.of_nat (length l)) with (Z.of_nat (@length (carrier b64num) l)) in *. lia.
  - fold lv V. repeat match goal with |- context [INR (length ?x)] => change (INR (length x)) with n end.
    set (z := M / sqrt V) in *. unfold skew_err. fold lv V. repeat match goal with |- context [INR (length ?x)] => change (INR (length x)) with n end.
    fold z. pose proof (bp (-440)) as B440.
    assert (SV : bpow radix2 (-220) <= sqrt V).
    { replace (bpow radix2 (-220)) with (sqrt (bpow radix2 (-440))).
      - apply sqrt_le_1; lra.
      - change (-440)%Z with (-220 + -220)%Z. rewrite bpow_plus. apply sqrt_square. left. apply bp. }
    pose proof (bp (-220)) as B220.
    assert (D1 : bpow radix2 (-660) <= n * (V * sqrt V)).
    { apply Rle_trans with (1 * (V * sqrt V)).
      - rewrite Rmult_1_l. apply (lb _ _ (-440) (-220)); [exact S0|exact SV|lia].
      - apply Rmult_le_compat_r; [apply Rmult_le_pos; lra|exact N1]. }
    pose proof (bp (-660)) as B660.
    assert (Q1 : bpow radix2 (-52) / (n * (V * sqrt V)) <= bpow radix2 608).
    { apply (Rmult_le_reg_r (n * (V * sqrt V))); [lra|].
      replace (bpow radix2 (-52) / (n * (V * sqrt V)) * (n * (V * sqrt V))) with (bpow radix2 (-52)) by (field; pose proof (sqrt_lt_R0 V VP); lra).
      apply (lb _ _ 608 (-660)); [lra|exact D1|lia]. }
    assert (Z3 : 0 <= z * z * z) by (apply Rmult_le_pos; [apply Rmult_le_pos|]; lra).
    assert (Q2 : (664 * n + 15500) * (bpow radix2 (-53) * (z * z * z)) <= bpow radix2 608).
    { apply (ub _ _ 60 200); [lra|apply Rmult_le_pos; [left; apply bp|exact Z3]| | |lia].
      - apply Rle_trans with (bpow radix2 20 * bpow radix2 40); [|rewrite bp_mul; apply bp_le; lia].
        assert (16164 * n <= 16164 * bpow radix2 40) by lra.
        assert (16164 <= bpow radix2 20) by (cbn; lra).
        assert (16164 * bpow radix2 40 <= bpow radix2 20 * bpow radix2 40) by (apply Rmult_le_compat_r; [left; apply bp|lra]). lra.
      - apply (ub _ _ 0 200); [left; apply bp|exact Z3|apply bp_le; lia|lra|lia]. }
    assert (Q3 : 2 * (z * z * z) <= bpow radix2 608).
    { apply Rle_trans with (bpow radix2 200); [lra|apply bp_le; lia]. }
    assert (Q4 : bpow radix2 608 * 3 <= bpow radix2 610).
    { change 610%Z with (608 + 2)%Z. rewrite bpow_plus. apply Rmult_le_compat_l; [left; apply bp|]. cbn. lra. }
    apply (ub _ _ 41 610); [lra| | | |lia].
    + apply Rplus_le_le_0_compat; [lra|]. apply Rplus_le_le_0_compat.
      * apply Rmult_le_pos; [lra|]. apply Rmult_le_pos; [left; apply bp|exact Z3].
      * apply Rmult_le_pos; [left; apply bp|]. left. apply Rinv_0_lt_compat. lra.
    + change 41%Z with (40 + 1)%Z. rewrite bpow_plus. change (bpow radix2 1) with 2. lra.
    + lra.
  - assert (Em : r = cskew_unbiased_skewness b64num (fold_left (cskew_push_fma b64num fused64 lf) l (cskew_init b64num))).
    { unfold r. rewrite (run_since_clear _ _ _ (cskew_clear_init b64num)). reflexivity. }
    rewrite Em. split; [exact Ff|]. rewrite Ef.
    unfold sample_skewness, card. replace (length lv) with (length l) by (unfold lv; rewrite map_length; reflexivity). fold n.
    unfold skew_err in H. fold lv V in H.
    repeat match type of H with context [INR (length ?x)] => change (INR (length x)) with n in H end.
    assert (FP : 0 <= sqrt (n * (n - 1)) / (n - 2)).
    { apply Rmult_le_pos; [apply sqrt_pos|]. left. apply Rinv_0_lt_compat. lra. }
    replace (Rmax 0 (sqrt (n * (n - 1)) / (n - 2) * skewness lv)) with (Rmax 0 (skewness lv) * sqrt (n * (n - 1)) / (n - 2)).
    + eapply Rle_trans; [exact H|]. fold u. lra.
    + replace (Rmax 0 (skewness lv) * sqrt (n * (n - 1)) / (n - 2)) with (sqrt (n * (n - 1)) / (n - 2) * Rmax 0 (skewness lv)) by (field; lra).
      rewrite <- RmaxRmult by exact FP. rewrite Rmult_0_r. reflexivity.
Qed.

(** @ex C123_unbiased_skewness_ex: 0, 0, 0, 8, whose bias-corrected skewness is 2. *)
Lemma c123_unbiased_skewness_ex :
  let l := since_clear (map Push (map b64_of_Z [0; 0; 0; 8]%Z)) in
  let n := INR (length l) in
  let u := bpow radix2 (-53) in
  let lv := map b64_real l in
  let z := 8 / sqrt 12 in
  length l = 4%nat /\ bpow radix2 (-200) <= 8 <= bpow radix2 200 /\
  Forall (fun x => b64_finite x /\ Rabs (b64_real x) <= 8) l /\
  variance lv = 12 /\ 128 * ((28 * n + 618) * (8 * 8 / 12)) * u <= 1 /\ sample_skewness lv = 2 /\
  3 * ((664 * n + 15508) * (u * (z * z * z)) + bpow radix2 (-52) / (n * (12 * sqrt 12))) <= / 10 ^ 9.
Proof. exact c94_unbiased_skewness_ex. Qed.

(** @prop C123_unbiased_kurtosis: likewise unbiased_kurtosis(), with the bound of
    C94_unbiased_kurtosis_binary64; [leftk] says which product of its own difference is fused. *)
Lemma c123_unbiased_kurtosis : forall (left leftv lefts leftk : bool) (ops : list (op b64)) (M : R),
  let l := since_clear ops in
  let n := INR (length l) in
  let u := bpow radix2 (-53) in
  (4 <= length l)%nat -> (Z.of_nat (length l) <= 2 ^ 26)%Z -> bpow radix2 (-200) <= M <= bpow radix2 200 ->
  Forall (fun x => b64_finite x /\ Rabs (b64_real x) <= M) l ->
  let lv := map b64_real l in
  let V := variance lv in
  0 < V -> 1024 * ((28 * n + 618) * (M * M / V)) * u <= 1 ->
  let bound := (4140 * n + 96000) * (u * (M * M / V * (M * M / V))) + bpow radix2 (-52) / (n * (V * V)) in
  bound <= / 16 ->
  let r := ckurt_unbiased_kurtosis_fma b64num fused64 leftk (run (ckurt_push_fma b64num fused64 left leftv lefts) (ckurt_clear b64num) (ckurt_init b64num) ops) in
  b64_finite r /\
  Rabs (b64_real r - sample_kurtosis lv) <= 8 * (bound + 90 * (u * (M * M / V))).
Proof.
  intros lf lv1 lv2 lk ops M l n u L4 Hn HM HF lv V VP HR bound HE r.
  assert (NE : l <> []) by (intros Z; fold l in L4; rewrite Z in L4; cbn in L4; lia).
  destruct (kurt_side M l NE Hn HM HF VP HR) as ((DL & Hmag & TR & BR & ZB & _) & HR' & H1 & H2 & H3 & H4 & H5 & H6 & H7 & H8 & N1 & Hn').
  change (1 <= n) in N1. change (n <= bpow radix2 40) in Hn'.
  pose proof (tame_b64 M n (conj N1 Hn') HM) as TM.
  pose proof (unb_kurt approx_b64 _ af_b64 lf lv1 lv2 lit_b64 zero_b64 _ wrap_b64 _ eps_b64 M l lv TM DL Hmag) as W.
  assert (W2 : exists f, denotes r f /\ Rabs (f - (3 + (n - 1) / ((n - 2) * (n - 3)) * ((n + 1) * kurtosis lv - 3 * (n - 1)))) <= 8 * (bound + 90 * (u * (M * M / V)))).
  { assert (Em : r = ckurt_unbiased_kurtosis_fma b64num fused64 lk (fold_left (ckurt_push_fma b64num fused64 lf lv1 lv2) l (ckurt_init b64num))).
    { unfold r. rewrite (run_since_clear _ _ _ (ckurt_clear_init b64num)). reflexivity. }
    rewrite Em. apply W; clear W; try assumption.
  - apply (b64_count l 26); [lia|exact Hn].
  - apply (b64_small l 26); [lia|exact Hn].
  - left. apply bp.
  - repeat match goal with |- context [INR (length ?x)] => change (INR (length x)) with n end.
    apply Rle_trans with (bpow radix2 (44 + -1075)); [|apply bp_le; lia]. rewrite bpow_plus. apply Rmult_le_compat_r; [left; apply bp|].
    change (44)%Z with (4 + 40)%Z. rewrite bpow_plus. change (bpow radix2 4) with 16. lra.
  - repeat match goal with |- context [INR (length ?x)] => change (INR (length x)) with n end. fold V. assert (0 < M * M / V).
    { apply Rdiv_lt_0_compat; [|exact VP]. pose proof (bp (-200)). apply Rmult_lt_0_compat; lra. }
    apply Rle_trans with (bpow radix2 (6 + (40 + 53))); [|apply bp_le; lia]. rewrite !bpow_plus. change (bpow radix2 6) with 64.
    apply Rmult_le_compat_l; [lra|]. destruct (skew_bounds M n V (conj N1 Hn') HM VP HR') as (_ & _ & R1 & _). apply Rmult_le_compat; lra. }
  destruct W2 as (f & (Ff & Ef) & H).
  split; [exact Ff|]. rewrite Ef.
    unfold sample_kurtosis, card. replace (length lv) with (length l) by (unfold lv; rewrite map_length; reflexivity). fold n.
    exact H.
Qed.

(** @ex C123_unbiased_kurtosis_ex: 0, 0, 0, 8, whose bias-corrected kurtosis is 7. *)
Lemma c123_unbiased_kurtosis_ex :
  let l := since_clear (map Push (map b64_of_Z [0; 0; 0; 8]%Z)) in
  let n := INR (length l) in
  let u := bpow radix2 (-53) in
  let lv := map b64_real l in
  let bound := (4140 * n + 96000) * (u * (8 * 8 / 12 * (8 * 8 / 12))) + bpow radix2 (-52) / (n * (12 * 12)) in
  length l = 4%nat /\ bpow radix2 (-200) <= 8 <= bpow radix2 200 /\
  Forall (fun x => b64_finite x /\ Rabs (b64_real x) <= 8) l /\
  variance lv = 12 /\ 1024 * ((28 * n + 618) * (8 * 8 / 12)) * u <= 1 /\ sample_kurtosis lv = 7 /\
  bound <= / 16 /\ 8 * (bound + 90 * (u * (8 * 8 / 12))) <= / 10 ^ 8.
Proof. exact c94_unbiased_kurtosis_ex. Qed.

(** @prop C123_kurtosis_float: over float, kurtosis() keeps the bound of C121 with fused multiply-adds. *)
Lemma c123_kurtosis_float : forall (left leftv lefts : bool) (ops : list (op spec_float)) (M : R),
  let l := since_clear ops in
  let n := INR (length l) in
  let u := bpow radix2 (- 24) in
  l <> [] -> (Z.of_nat (length l) <= 2 ^ 12)%Z -> bpow radix2 (-20) <= M <= bpow radix2 20 ->
  Forall (fun x => ieee_finite 24 128 x /\ Rabs (ieee_real x) <= M) l ->
  let lv := map ieee_real l in
  let V := variance lv in
  0 < V -> 1024 * ((28 * n + 618) * (M * M / V)) * u <= 1 ->
  let r := ckurt_kurtosis (ieee 24 128) (run_fused_float left leftv lefts ops) in
  ieee_finite 24 128 r /\
  Rabs (ieee_real r - kurtosis lv) <=
    (4140 * n + 96000) * (u * (M * M / V * (M * M / V))) + bpow radix2 (-23) / (n * (V * V)).
Proof.
  intros lf lv1 lv2 ops M l n u NE Hn HM HF lv V VP HR r.
  destruct (kurt_side_f32 M l NE Hn HM HF VP HR) as (DL & Hmag & TR & BR & HR' & H1 & H2 & H3 & H4 & H5 & H6 & H7 & H8 & N1 & Hn' & _).
  destruct (count_f32 l Hn) as [K1 K2].
  destruct (kurt_all (approx_ieee 24 128 ltac:(lia) ltac:(lia)) _ (af_ieee 24 128 ltac:(lia) ltac:(lia)) lf lv1 lv2 flit fzero _ fwrap _ feps M l lv (tame_f32 M n (conj N1 Hn') HM) DL Hmag
    K1 K2 VP HR' TR BR H1 H2 H3 H4 HR H5 H6 H7 H8 ltac:(left; apply bp) (ap_0 _ _ _ _ _ _ (approx_ieee 24 128 ltac:(lia) ltac:(lia)))) as (f & (Ff & Ef) & H).
  assert (Em : r = ckurt_kurtosis (ieee 24 128) (fold_left (ckurt_push_fma (ieee 24 128) (ieee_fused 24 128) lf lv1 lv2) l (ckurt_init (ieee 24 128)))).
  { unfold r, run_fused_float. rewrite (run_since_clear _ _ _ (ckurt_clear_init (ieee 24 128))). reflexivity. }
  rewrite Em. split; [exact Ff|]. rewrite Ef. exact H.
Qed.

(** @ex C123_kurtosis_float_ex: 0, 0, 0, 8 after another value and a clear. *)
Lemma c123_kurtosis_float_ex :
  let ops := Push (f32 5) :: Clear :: map Push (map (fun z => f32 z) [0; 0; 0; 8]%Z) in
  let l := since_clear ops in
  let n := INR (length l) in
  let u := bpow radix2 (- 24) in
  let lv := map ieee_real l in
  length l = 4%nat /\ bpow radix2 (-20) <= 8 <= bpow radix2 20 /\
  Forall (fun x => ieee_finite 24 128 x /\ Rabs (ieee_real x) <= 8) l /\
  variance lv = 12 /\ 1024 * ((28 * n + 618) * (8 * 8 / 12)) * u <= 1 /\ kurtosis lv = 7 / 3 /\
  ckurt_kurtosis (ieee 24 128) (run_fused_float true false true ops) = S754_finite false 9786709 (-22).
Proof.
  destruct c121_kurtosis_ex as (H1 & H2 & H3 & H4 & H5 & H6 & _).
  repeat (split; [assumption|]). vm_compute. reflexivity.
Qed.

(** @ex C123_higher_visible_ex: which product is fused can be observed: for 3, 10, 1, 5, 77
    the skewness differs in the last bit. *)
Lemma c123_higher_visible_ex :
  let ops := map Push (map b64_of_Z [3; 10; 1; 5; 77]%Z) in
  let skew left := cskew_skewness b64num (run (cskew_push_fma b64num fused64 left) (cskew_clear b64num) (cskew_init b64num) ops) in
  skew true = S754_finite false 6580190456432958 (-52) /\ skew false = S754_finite false 6580190456432959 (-52).
Proof. split; vm_compute; reflexivity. Qed.
