(** * Claim C108: decay skewness and kurtosis do not accumulate rounding errors *)

From Coq Require Import Reals ZArith NArith List Bool.
From Coq Require Import Floats.SpecFloat.
From Flocq Require Import Core.
From Verif Require Import Arith History SpecStats SpecDecay Decay Binary64.
Import ListNotations.
Local Open Scope R_scope.
(* @end-header *)
From Coq Require Import Lia Lra Psatz.
From Flocq Require Import IEEE754.BinarySingleNaN.
From Verif Require Import HistoryLemmas StatsLemmas Binary64Cumulative Approx ApproxInstances
  AccuracyProofs AccuracyVariance AccuracyRegression AccuracyHigher AccuracyDecayHigher ClaimsAccuracy ClaimsRegression ClaimsHigher.

Local Notation u := (bpow radix2 (-53)).
Local Notation eta := (bpow radix2 (-1075)).
Local Notation phi := (bpow radix2 (-40)).
Local Notation size := (@sz (bpow radix2 1023) u eta phi).
Local Notation factor := (@fac b64num denotes phi).

Lemma size_b64 U a b : bpow radix2 a <= U <= bpow radix2 b -> (-900 <= a)%Z -> (0 <= b <= 1000)%Z -> size U.
Proof.
  intros [HU1 HU2] Ha Hb. pose proof (bp a) as P. split; [lra|]. change 64 with (bpow radix2 6). split.
  - assert (B0 : 1 <= bpow radix2 b) by (apply (bp_le 0 b); lia).
    apply (ub _ _ 6 (b + 1)); [left; apply bp|lra|lra| |lia]. rewrite bpow_plus. change (bpow radix2 1) with 2. lra.
  - rewrite bp_mul. apply (lb _ _ (-53) (-40 + a)); [lra| |lia]. apply (lb _ _ (-40) a); [lra|exact HU1|lia].
Qed.

Record side (M : R) : Prop := Side {
  side_e : 8192 * u <= phi; side_t : 64 * eta <= phi * phi; side_1 : size 1; side_M : size M; side_2M : size (2 * M);
  side_2 : size (4 * (M * M)); side_3 : size (8 * (M * (M * M))); side_4 : size (16 * (M * M * (M * M))); side_p : 0 < M }.

Lemma side_b64 M : bpow radix2 (-200) <= M <= bpow radix2 200 -> side M.
Proof.
  intros HM. destruct (pow_bound M _ _ HM) as (P2 & P3 & P4). pose proof (bp (-200)).
  change (2 * -200)%Z with (-400)%Z in P2. change (3 * -200)%Z with (-600)%Z in P3. change (4 * -200)%Z with (-800)%Z in P4.
  change (2 * 200)%Z with 400%Z in P2. change (3 * 200)%Z with 600%Z in P3. change (4 * 200)%Z with 800%Z in P4.
  assert (S : forall x a b k, (-900 <= a)%Z -> (0 <= b)%Z -> (0 <= k)%Z -> (b + k <= 1000)%Z -> bpow radix2 a <= x <= bpow radix2 b -> size (bpow radix2 k * x)).
  { intros x a b k Ha Hb Hk Hbk Hx. pose proof (bp a) as Pa. apply (size_b64 _ a (b + k)); [|exact Ha|lia]. split.
    - assert (1 <= bpow radix2 k) by (apply (bp_le 0 k); exact Hk). rewrite <- (Rmult_1_l (bpow radix2 a)). apply Rmult_le_compat; lra.
    - apply (ub _ _ k b); [left; apply bp|lra|lra|lra|lia]. }
  constructor.
  - change 8192 with (bpow radix2 13). rewrite bp_mul. apply bp_le. lia.
  - change 64 with (bpow radix2 6). rewrite !bp_mul. apply bp_le. lia.
  - apply (size_b64 1 0 0); [|lia|lia]. change (bpow radix2 0) with 1. lra.
  - apply (size_b64 M (-200) 200); [exact HM|lia|lia].
  - change 2 with (bpow radix2 1). apply (S M (-200)%Z 200%Z); [lia..|exact HM].
  - change 4 with (bpow radix2 2). apply (S _ (-400)%Z 400%Z); [lia..|exact P2].
  - change 8 with (bpow radix2 3). apply (S _ (-600)%Z 600%Z); [lia..|exact P3].
  - change 16 with (bpow radix2 4). apply (S _ (-800)%Z 800%Z); [lia..|exact P4].
  - lra.
Qed.

Lemma v_side (M v fm fv : R) : bpow radix2 (-200) <= M <= bpow radix2 200 -> 0 < v -> 0 < fm <= 1 -> 0 < fv <= 1 -> / 4 <= M * M / v ->
  256 * (4 * (62 * / fv + 79 * / fm) * (M * M / v)) * u <= 1 ->
  (16 * eta <= u * sqrt v /\ 16 * eta <= u * (v * sqrt v) /\ 16 * eta <= u * (v * v) /\ 16 * eta <= u * phi) /\
  (2 * sqrt v <= bpow radix2 1023 /\ 2 * (v * sqrt v) <= bpow radix2 1023 /\ 2 * (v * v) <= bpow radix2 1023) /\
  16 * (M * (M * M)) / (v * sqrt v) <= bpow radix2 1023 /\ 32 * (M * M * (M * M)) / (v * v) <= bpow radix2 1023.
Proof.
  intros HM v0 Hm Hv R4 H. destruct (pow_bound M _ _ HM) as (P2 & P3 & P4). pose proof (bp (-200)).
  change (2 * -200)%Z with (-400)%Z in P2. change (2 * 200)%Z with 400%Z in P2. pose proof (bp (-400)).
  set (rho := M * M / v) in *. assert (ER : M * M = rho * v) by (unfold rho; field; lra).
  assert (I1 : 1 <= / fv) by (rewrite <- Rinv_1; apply Rinv_le_contravar; lra).
  assert (I2 : 1 <= / fm) by (rewrite <- Rinv_1; apply Rinv_le_contravar; lra).
  assert (R40 : rho <= bpow radix2 40).
  { assert (A : bpow radix2 13 * rho * u <= 1).
    { eapply Rle_trans; [|exact H]. apply Rmult_le_compat_r; [left; apply bp|]. change (bpow radix2 13) with 8192. nra. }
    apply (Rmult_le_reg_r (bpow radix2 (-40))); [apply bp|]. rewrite bp_mul. change (40 + -40)%Z with 0%Z. change (bpow radix2 0) with 1.
    replace (-40)%Z with (13 + -53)%Z by reflexivity. rewrite bpow_plus. lra. }
  assert (V1 : bpow radix2 (-440) <= v).
  { apply (Rmult_le_reg_l rho); [lra|]. rewrite <- ER. apply Rle_trans with (bpow radix2 40 * bpow radix2 (-440)).
    - apply Rmult_le_compat_r; [left; apply bp|exact R40].
    - rewrite bp_mul. change (40 + -440)%Z with (-400)%Z. lra. }
  assert (V2 : v <= bpow radix2 402).
  { assert (v <= 4 * (M * M)) by (rewrite ER; nra). eapply Rle_trans; [eassumption|]. change 4 with (bpow radix2 2).
    apply (ub _ _ 2 400); [left; apply bp|lra|lra|lra|lia]. }
  assert (S1 : bpow radix2 (-220) <= sqrt v).
  { replace (bpow radix2 (-220)) with (sqrt (bpow radix2 (-440))).
    - apply sqrt_le_1; [left; apply bp|lra|exact V1].
    - change (-440)%Z with (-220 + -220)%Z. rewrite bpow_plus. apply sqrt_square. left. apply bp. }
  assert (S2 : sqrt v <= bpow radix2 201).
  { replace (bpow radix2 201) with (sqrt (bpow radix2 402)).
    - apply sqrt_le_1; [lra|left; apply bp|exact V2].
    - change 402%Z with (201 + 201)%Z. rewrite bpow_plus. apply sqrt_square. left. apply bp. }
  assert (S0 : 0 < sqrt v) by (apply sqrt_lt_R0; exact v0).
  assert (M0 : 0 < M) by lra.
  split; [|split; [|split]].
  - assert (T16 : 16 * eta = bpow radix2 (-1071)) by (change 16 with (bpow radix2 4); apply bp_mul). rewrite T16.
    split; [|split; [|split]].
    + apply (lb _ _ (-53) (-220)); [lra|exact S1|lia].
    + apply (lb _ _ (-53) (-660)); [lra| |lia]. apply (lb _ _ (-440) (-220)); [exact V1|exact S1|lia].
    + apply (lb _ _ (-53) (-880)); [lra| |lia]. apply (lb _ _ (-440) (-440)); [exact V1|exact V1|lia].
    + rewrite bp_mul. apply bp_le. lia.
  - change 2 with (bpow radix2 1). split; [|split].
    + apply (ub _ _ 1 201); [left; apply bp|lra|lra|exact S2|lia].
    + apply (ub _ _ 1 603); [left; apply bp|apply Rmult_le_pos; lra|lra| |lia]. apply (ub _ _ 402 201); [lra|lra|exact V2|exact S2|lia].
    + apply (ub _ _ 1 804); [left; apply bp|apply Rmult_le_pos; lra|lra| |lia]. apply (ub _ _ 402 402); [lra|lra|exact V2|exact V2|lia].
  - replace (16 * (M * (M * M)) / (v * sqrt v)) with (16 * rho * (M * / sqrt v)) by (unfold rho; field; lra).
    assert (IS : / sqrt v <= bpow radix2 220).
    { replace (bpow radix2 220) with (/ bpow radix2 (-220)) by (rewrite <- bpow_opp; reflexivity).
      apply Rinv_le_contravar; [apply bp|exact S1]. }
    assert (IS0 : 0 < / sqrt v) by (apply Rinv_0_lt_compat; exact S0).
    apply (ub _ _ 44 420); [lra|apply Rmult_le_pos; lra| | |lia].
    + change 16 with (bpow radix2 4). apply (ub _ _ 4 40); [left; apply bp|lra|lra|exact R40|lia].
    + apply (ub _ _ 200 220); lra || lia.
  - replace (32 * (M * M * (M * M)) / (v * v)) with (32 * rho * rho) by (unfold rho; field; lra).
    apply (ub _ _ 45 40); [lra|lra| |exact R40|lia].
    change 32 with (bpow radix2 5). apply (ub _ _ 5 40); [left; apply bp|lra|lra|exact R40|lia].
Qed.

(** @prop C108_skewness_binary64: skewness() of a new decay filter in binary64, for
    factors from 2^-40 to 1, any number of finite values of magnitude at most [M]
    (between 2^-200 and 2^200) whose exponentially weighted variance is [V > 0]. As
    long as the variance is not lost in its own rounding error: if [V] exceeds
    epsilon by a 64th, skewness() is finite and within
    [(10200/fm + 4700/fv + 2100/fs) (M^2/V) u (M^3/V^(3/2))] of the weighted third
    moment over [V^(3/2)], however many values were pushed; if [V] is below
    epsilon by a 64th, skewness() is zero. *)
Lemma c108_skewness : forall (fm fv fs : b64) (l : list b64) (M : R),
  let u := bpow radix2 (-53) in
  let mf := b64_real fm in
  let vf := b64_real fv in
  let sf := b64_real fs in
  b64_finite fm -> b64_finite fv -> b64_finite fs ->
  bpow radix2 (-40) <= mf <= 1 -> bpow radix2 (-40) <= vf <= 1 -> bpow radix2 (-40) <= sf <= 1 ->
  l <> [] -> bpow radix2 (-200) <= M <= bpow radix2 200 ->
  Forall (fun x => b64_finite x /\ Rabs (b64_real x) <= M) l ->
  let lv := map b64_real l in
  let V := emoment 2 mf vf lv in
  0 < V -> 256 * (4 * (62 * / vf + 79 * / mf) * (M * M / V)) * u <= 1 ->
  let r := dskew_skewness b64num (run (dskew_push b64num) (dskew_clear b64num) (dskew_init b64num fm fv fs) (pushes l)) in
  (65 / 64 * bpow radix2 (-52) <= V ->
   b64_finite r /\
   Rabs (b64_real r - emoment 3 mf sf lv / (V * sqrt V)) <=
     (10200 * / mf + 4700 * / vf + 2100 * / sf) * (M * M / V) * (u * (M * (M * M) / (V * sqrt V)))) /\
  (V <= 63 / 64 * bpow radix2 (-52) -> r = S754_zero false).
Proof.
  intros fm fv fs l M u mf vf sf Fm Fv Fs Hm Hv Hs NE HM HF lv V VP HA r.
  destruct (b64_magn M l HF) as [Hfin Hmag]. fold lv in Hmag. pose proof (denotes_list l Hfin) as DL. fold lv in DL.
  destruct (side_b64 M HM) as [E T U1 UM U2M U2 U3 U4 MP]. pose proof (bp (-40)) as P.
  assert (FM : factor fm mf) by (split; [split; [exact Fm|reflexivity]|exact Hm]).
  assert (FV : factor fv vf) by (split; [split; [exact Fv|reflexivity]|exact Hv]).
  assert (FS : factor fs sf) by (split; [split; [exact Fs|reflexivity]|exact Hs]).
  assert (Er : r = dskew_skewness b64num (fold_left (dskew_push b64num) l (dskew_init b64num fm fv fs))).
  { unfold r, pushes. rewrite run_map_push. reflexivity. }
  split; intros HV.
  - destruct (rho_ge approx_b64 _ P E T U1 fm mf M FM UM U2M U2 l lv DL Hmag NE fv vf FV VP) as (R4 & _).
    destruct (v_side M V mf vf HM VP ltac:(lra) ltac:(lra) R4 HA) as (TV & BV & B3 & _).
    destruct (decay_skewness_acc approx_b64 _ P E T U1 fm mf M FM UM U2M U2 U3 sqrt_b64 _ eps_b64 l lv DL Hmag NE fv vf FV VP HA TV BV fs sf FS (bp _) HV B3)
      as (x & (Fx & Ex) & H).
    rewrite Er. split; [exact Fx|]. rewrite Ex. exact H.
  - rewrite Er. exact (decay_skewness_zero approx_b64 _ P E T U1 fm mf M FM UM U2M U2 _ eps_b64 l lv DL Hmag NE fv vf FV VP HA fs sf FS HV).
Qed.

(** @prop C108_kurtosis_binary64: kurtosis() likewise, within
    [(23100/fm + 9400/fv + 4100/fk) (M^2/V) u (M^2/V)^2] of the weighted fourth
    moment over [V^2]. *)
Lemma c108_kurtosis : forall (fm fv fs fk : b64) (l : list b64) (M : R),
  let u := bpow radix2 (-53) in
  let mf := b64_real fm in
  let vf := b64_real fv in
  let kf := b64_real fk in
  b64_finite fm -> b64_finite fv -> b64_finite fk ->
  bpow radix2 (-40) <= mf <= 1 -> bpow radix2 (-40) <= vf <= 1 -> bpow radix2 (-40) <= kf <= 1 ->
  l <> [] -> bpow radix2 (-200) <= M <= bpow radix2 200 ->
  Forall (fun x => b64_finite x /\ Rabs (b64_real x) <= M) l ->
  let lv := map b64_real l in
  let V := emoment 2 mf vf lv in
  0 < V -> 256 * (4 * (62 * / vf + 79 * / mf) * (M * M / V)) * u <= 1 ->
  let r := dkurt_kurtosis b64num (run (dkurt_push b64num) (dkurt_clear b64num) (dkurt_init b64num fm fv fs fk) (pushes l)) in
  (65 / 64 * bpow radix2 (-52) <= V ->
   b64_finite r /\
   Rabs (b64_real r - emoment 4 mf kf lv / (V * V)) <=
     (23100 * / mf + 9400 * / vf + 4100 * / kf) * (M * M / V) * (u * (M * M * (M * M) / (V * V)))) /\
  (V <= 63 / 64 * bpow radix2 (-52) -> r = S754_zero false).
Proof.
  intros fm fv fs fk l M u mf vf kf Fm Fv Fs Hm Hv Hs NE HM HF lv V VP HA r.
  destruct (b64_magn M l HF) as [Hfin Hmag]. fold lv in Hmag. pose proof (denotes_list l Hfin) as DL. fold lv in DL.
  destruct (side_b64 M HM) as [E T U1 UM U2M U2 U3 U4 MP]. pose proof (bp (-40)) as P.
  assert (FM : factor fm mf) by (split; [split; [exact Fm|reflexivity]|exact Hm]).
  assert (FV : factor fv vf) by (split; [split; [exact Fv|reflexivity]|exact Hv]).
  assert (FK : factor fk kf) by (split; [split; [exact Fs|reflexivity]|exact Hs]).
  assert (Er : r = dkurt_kurtosis b64num (fold_left (dkurt_push b64num) l (dkurt_init b64num fm fv fs fk))).
  { unfold r, pushes. rewrite run_map_push. reflexivity. }
  split; intros HV.
  - destruct (rho_ge approx_b64 _ P E T U1 fm mf M FM UM U2M U2 l lv DL Hmag NE fv vf FV VP) as (R4 & _).
    destruct (v_side M V mf vf HM VP ltac:(lra) ltac:(lra) R4 HA) as (TV & BV & _ & B4).
    destruct (decay_kurtosis_acc approx_b64 _ P E T U1 fm mf M FM UM U2M U2 U3 U4 _ eps_b64 l lv DL Hmag NE fv vf FV VP HA TV BV fs fk kf FK (bp _) HV B4)
      as (x & (Fx & Ex) & H).
    rewrite Er. split; [exact Fx|]. rewrite Ex. exact H.
  - rewrite Er. exact (decay_kurtosis_zero approx_b64 _ P E T U1 fm mf M FM UM U2M U2 _ eps_b64 l lv DL Hmag NE fv vf FV VP HA fs fk kf FK HV).
Qed.

(** @ex C108_skewness_binary64_ex: factors 1/2, values 1, 2, 4: the weighted
    variance is 38/63. *)
Lemma c108_skewness_ex :
  let half := @ndiv b64num (b64_of_Z 1) (b64_of_Z 2) in
  let f := b64_real half in
  let l := map b64_of_Z [1; 2; 4]%Z in
  let V := emoment 2 f f (map b64_real l) in
  b64_finite half /\ f = / 2 /\ bpow radix2 (-40) <= f <= 1 /\ l <> [] /\ bpow radix2 (-200) <= 4 <= bpow radix2 200 /\
  Forall (fun x => b64_finite x /\ Rabs (b64_real x) <= 4) l /\ V = 38 / 63 /\
  256 * (4 * (62 * / f + 79 * / f) * (4 * 4 / V)) * bpow radix2 (-53) <= 1 /\ 65 / 64 * bpow radix2 (-52) <= V.
Proof.
  intros half f l V.
  assert (Ef : f = / 2).
  { unfold f. match goal with |- b64_real ?x = _ => let y := eval vm_compute in x in change x with y end. unfold b64_real, SF2R, F2R. cbn. lra. }
  assert (El : map b64_real l = [1; 2; 4]).
  { unfold l. match goal with |- map b64_real ?x = _ => let y := eval vm_compute in x in change x with y end.
    unfold b64_real, SF2R, F2R. cbn. repeat f_equal; lra. }
  assert (EV : V = 38 / 63).
  { unfold V. rewrite El, Ef. unfold emoment, ewma, deviations. cbn. unfold ewma. cbn. field. }
  assert (L : bpow radix2 (-40) <= / 2) by (apply (bp_le (-40) (-1)); lia).
  assert (L2 : bpow radix2 (-200) <= 4) by (apply (bp_le (-200) 2); lia).
  assert (U : 4 <= bpow radix2 200) by (apply (bp_le 2 200); lia).
  split; [split; vm_compute; reflexivity|]. split; [exact Ef|]. split; [rewrite Ef; lra|]. split; [discriminate|]. split; [lra|]. split.
  { unfold l. match goal with |- Forall _ ?x => let y := eval vm_compute in x in change x with y end. magnitudes. }
  split; [exact EV|]. rewrite EV, Ef. split.
  - replace (/ / 2) with 2 by field. assert (1073741824 * 8388608 * u = 1).
    { change (1073741824 * 8388608) with (bpow radix2 30 * bpow radix2 23). rewrite !bp_mul. reflexivity. }
    lra.
  - assert (bpow radix2 (-52) <= / 4) by (apply (bp_le (-52) (-2)); lia). lra.
Qed.

(** @ex C108_kurtosis_binary64_ex: the same values. *)
Lemma c108_kurtosis_ex :
  let half := @ndiv b64num (b64_of_Z 1) (b64_of_Z 2) in
  let f := b64_real half in
  let l := map b64_of_Z [1; 2; 4]%Z in
  let V := emoment 2 f f (map b64_real l) in
  V = 38 / 63 /\ 256 * (4 * (62 * / f + 79 * / f) * (4 * 4 / V)) * bpow radix2 (-53) <= 1 /\ 65 / 64 * bpow radix2 (-52) <= V.
Proof. destruct c108_skewness_ex as (_ & _ & _ & _ & _ & _ & H). exact H. Qed.
