(** * Claim C118: skewness of value types other than double *)

From Coq Require Import Reals ZArith NArith List Bool.
From Coq Require Import Floats.SpecFloat.
From Flocq Require Import Core.
From Verif Require Import Arith History SpecStats Cumulative Ieee Mixed.
Import ListNotations.
Local Open Scope R_scope.
(** The kurtosis filter over a value type of [prec] bits after a history. *)
Definition run_mixed (prec emax : Z) (ops : list (op spec_float)) : ckurt (mixed prec emax) :=
  let X := mixed prec emax in
  run (ckurt_push X) (ckurt_clear X) (ckurt_init X) (map (op_map OfT) ops).
(** A float of an integer. *)
Local Notation f32 z := (ieee_of_Z 24 128 z).
(** A number of 113 bits (long double on AArch64) of an integer. *)
Local Notation f113 z := (ieee_of_Z 113 16384 z).
(* @end-header *)
From Coq Require Import Lia Lra Psatz.
From Flocq Require Import IEEE754.BinarySingleNaN.
From Verif Require Import HistoryLemmas StatsLemmas Approx ApproxInstances CumulativeProofs
  AccuracyProofs AccuracyVariance AccuracyHigher IeeeProofs MixedProofs ClaimsAccuracy ClaimsFormats ClaimsHigher.

(** @prop C118_others: the count, the means, variances and kurtoses are those of the
    arithmetic of T alone (C110); skewness() is the only result in which double
    takes part, for a narrower T as the conversion of a quotient of doubles. *)
Lemma c118_others : forall (prec emax : Z) (ops : list (op spec_float)),
  let X := mixed prec emax in
  let T := ieee prec emax in
  let s := run_mixed prec emax ops in
  let t := run (ckurt_push T) (ckurt_clear T) (ckurt_init T) ops in
  let f := as_T prec emax in
  ckurt_size X s = ckurt_size T t /\
  f (ckurt_mean X s) = ckurt_mean T t /\ f (ckurt_unbiased_mean X s) = ckurt_unbiased_mean T t /\
  f (ckurt_variance X s) = ckurt_variance T t /\ f (ckurt_unbiased_variance X s) = ckurt_unbiased_variance T t /\
  f (ckurt_kurtosis X s) = ckurt_kurtosis T t /\ f (ckurt_unbiased_kurtosis X s) = ckurt_unbiased_kurtosis T t /\
  ((prec < 53)%Z ->
   let S2 := cv_sum T (cs_super T (ck_super T t)) in
   let S3 := cs_sum T (ck_super T t) in
   let n := ieee_of_Z 53 1024 (Z.of_N (ckurt_size T t)) in
   mskew_skewness prec emax (ck_super X s) =
     if SFltb S3 (@neps T) then ieee_of_Z prec emax 0
     else convert prec emax
       (SFdiv 53 1024 (SFmul 53 1024 (SFsqrt 53 1024 n) (convert 53 1024 S3))
                      (convert 53 1024 (SFmul prec emax (SFsqrt prec emax S2) S2)))).
Proof.
  intros prec emax ops X T s t f.
  assert (E : s = emb_kurt prec emax t) by apply run_kurt. rewrite E. clearbody t. clear E s. unfold f, X, T in *.
  destruct t as [[[[m c] v] k] q].
  split; [reflexivity|]. split; [reflexivity|]. split; [reflexivity|]. split; [reflexivity|]. split; [reflexivity|].
  split; [|split].
  - unfold ckurt_kurtosis. cbn -[SFltb]. unfold liftb, lift. cbn -[SFltb]. destruct (SFltb q _); reflexivity.
  - unfold ckurt_unbiased_kurtosis, ckurt_kurtosis. cbn -[SFltb N.ltb]. unfold liftb, lift. cbn -[SFltb N.ltb].
    destruct (N.ltb _ 4); [reflexivity|]. destruct (SFltb q _); reflexivity.
  - intros Hs. cbv zeta. unfold mskew_skewness, cskew_skewness. cbn -[SFltb convert ieee_of_Z]. unfold liftb, lift, in_double. cbn -[SFltb Z.ltb convert ieee_of_Z].
    destruct (SFltb k _); [reflexivity|]. cbn -[Z.ltb convert ieee_of_Z]. apply Z.ltb_lt in Hs. rewrite !Hs. cbn -[Z.ltb convert ieee_of_Z]. rewrite ?Hs. reflexivity.
Qed.

(** @ex C118_others_ex: the floats 0, 0, 3 of skewness sqrt(1/2), which is reported one unit
    in the last place too small. *)
Lemma c118_others_ex :
  let ops := [Push (f32 5); Clear; Push (f32 0); Push (f32 0); Push (f32 3)] in
  (24 < 53)%Z /\
  mskew_skewness 24 128 (ck_super (mixed 24 128) (run_mixed 24 128 ops)) = S754_finite false 11863282 (-24) /\
  as_T 24 128 (ckurt_mean (mixed 24 128) (run_mixed 24 128 ops)) = f32 1.
Proof. cbv zeta. split; [lia|]. split; vm_compute; reflexivity. Qed.

Lemma two24 : bpow radix2 (- 24) = / 16777216. Proof. reflexivity. Qed.

Lemma tame_f32 (M n : R) : 1 <= n <= bpow radix2 13 -> bpow radix2 (-20) <= M <= bpow radix2 20 ->
  tame (B := bpow radix2 (128 - 1)) (e := bpow radix2 (- 24)) (t := bpow radix2 (2 - 128 - 24)) (bpow radix2 64) M n.
Proof.
  intros [N1 N2] HM. destruct (pow_bound M _ _ HM) as (P2 & P3 & _). change (2 * -20)%Z with (-40)%Z in P2. change (2 * 20)%Z with 40%Z in P2.
  change (3 * -20)%Z with (-60)%Z in P3. change (3 * 20)%Z with 60%Z in P3.
  change (2 - 128 - 24)%Z with (-150)%Z. change (128 - 1)%Z with 127%Z. change (- 24)%Z with (-24)%Z.
  assert (M0 : 0 < M) by (pose proof (bp (-20)); lra).
  assert (Q2 : 0 < M * M) by (apply Rmult_lt_0_compat; lra). assert (Q3 : 0 < M * (M * M)) by (apply Rmult_lt_0_compat; lra).
  assert (C : forall k, 0 <= bpow radix2 k) by (intros k; left; apply bp).
  assert (tn : 256 * n * bpow radix2 (-150) <= bpow radix2 (-129)).
  { apply (ub _ _ 21 (-150)); [nra|apply C| |lra|lia]. change 256 with (bpow radix2 8). apply (ub _ _ 8 13); [apply C|lra|lra|lra|lia]. }
  unfold tame. repeat split; try lra.
  - apply (ub _ _ 24 (-24) 0); [nra|apply C| |lra|lia]. change 1024 with (bpow radix2 10).
    apply (ub _ _ 10 14); [apply C|lra|lra| |lia]. change (bpow radix2 13) with 8192 in N2. change (bpow radix2 14) with 16384. lra.
  - eapply Rle_trans; [exact tn|]. apply (lb _ _ (-24) (-20)); [lra|lra|lia].
  - eapply Rle_trans; [exact tn|]. apply (lb _ _ (-24) (-40)); [lra|lra|lia].
  - apply Rle_trans with (256 * n * bpow radix2 (-150)); [apply Rmult_le_compat_r; [apply C|lra]|].
    eapply Rle_trans; [exact tn|]. apply (lb _ _ (-24) (-60)); [lra|lra|lia].
  - rewrite Rabs_pos_eq by apply C. apply Rle_trans with (bpow radix2 (-78)); [|apply (lb _ _ (-24) (-40)); [lra|lra|lia]].
    change 64 with (bpow radix2 6) at 1. apply (ub _ _ 71 (-150)); [|apply C| |lra|lia].
    + apply Rmult_le_pos; [apply C|]. pose proof (C 64%Z). lra.
    + apply (ub _ _ 6 65); [apply C|pose proof (C 64%Z); lra|lra| |lia]. change 65%Z with (64 + 1)%Z. rewrite bpow_plus. change (bpow radix2 1) with 2.
      assert (bpow radix2 0 <= bpow radix2 64) by (apply bp_le; lia). change (bpow radix2 0) with 1 in *. lra.
  - change 128 with (bpow radix2 7). apply (ub _ _ 7 67); [apply C|nra|lra| |lia].
    apply (ub _ _ 26 41); [nra|lra| | |lia].
    + apply (ub _ _ 13 13); lra || lia.
    + assert (bpow radix2 0 <= bpow radix2 40) by (apply bp_le; lia). change (bpow radix2 0) with 1 in *.
      change 41%Z with (40 + 1)%Z. rewrite bpow_plus. change (bpow radix2 1) with 2. lra.
  - change 1024 with (bpow radix2 10). apply (ub _ _ 10 73); [apply C|nra|lra| |lia].
    apply (ub _ _ 13 60); lra || lia.
Qed.

Lemma skew_bounds_f32 (M n S2 : R) : 1 <= n <= bpow radix2 13 -> bpow radix2 (-20) <= M <= bpow radix2 20 -> 0 < S2 ->
  128 * ((28 * n + 618) * (M * M / S2)) * bpow radix2 (- 24) <= 1 ->
  bpow radix2 (-48) <= n * S2 /\ bpow radix2 (-24) <= sqrt (n * S2) /\ M * M / S2 <= bpow radix2 8.
Proof.
  intros [N1 N2] HM SP H. destruct (pow_bound M _ _ HM) as (P2 & _). change (2 * -20)%Z with (-40)%Z in P2.
  pose proof (bp (-40)) as Bp.
  assert (RP : 0 < M * M / S2) by (apply Rdiv_lt_0_compat; lra).
  assert (R1 : M * M / S2 <= bpow radix2 8).
  { rewrite two24 in H. change (bpow radix2 8) with 256.
    assert (A : 65536 * (M * M / S2) <= 128 * ((28 * n + 618) * (M * M / S2))) by nra. lra. }
  assert (S1 : bpow radix2 (-48) <= S2).
  { apply (Rmult_le_reg_l (M * M / S2)); [exact RP|]. replace (M * M / S2 * S2) with (M * M) by (field; lra).
    apply Rle_trans with (bpow radix2 8 * bpow radix2 (-48)); [apply Rmult_le_compat_r; [left; apply bp|exact R1]|].
    rewrite bp_mul. change (8 + -48)%Z with (-40)%Z. lra. }
  assert (S3 : bpow radix2 (-48) <= n * S2).
  { eapply Rle_trans; [exact S1|]. rewrite <- (Rmult_1_l S2) at 1. apply Rmult_le_compat_r; lra. }
  split; [exact S3|]. split; [|exact R1].
  replace (bpow radix2 (-24)) with (sqrt (bpow radix2 (-48))).
  - apply sqrt_le_1; [left; apply bp|left; eapply Rlt_le_trans; [apply bp|exact S3]|exact S3].
  - change (-48)%Z with (-24 + -24)%Z. rewrite bpow_plus. apply sqrt_square. left. apply bp.
Qed.

Lemma lit_f32 z : (0 <= z <= 6)%Z -> mval 24 128 (@nofz (mixed 24 128) z) (IZR z).
Proof. intros H. apply (of_Z_small 24 128); [lia|lia|]. cbn. lia. Qed.
Lemma zero_f32 : mval 24 128 (@nofsz (mixed 24 128) 0) 0.
Proof. split; [apply (of_Z_small 24 128 ltac:(lia) ltac:(lia) 0)|apply (of_Z_small 53 1024 ltac:(lia) ltac:(lia) 0)]; cbn; lia. Qed.
Lemma wrap_f32 : mval 24 128 (@nofsz (mixed 24 128) (szmod - 1)) (bpow radix2 64).
Proof.
  assert (E1 : ieee_of_Z 24 128 (Z.of_N (szmod - 1)) = S754_finite false 8388608 41) by (vm_compute; reflexivity).
  assert (E2 : ieee_of_Z 53 1024 (Z.of_N (szmod - 1)) = S754_finite false 4503599627370496 12) by (vm_compute; reflexivity).
  cbn [nofsz mixed mval]. rewrite E1, E2. split; (split; [split; vm_compute; reflexivity|]; unfold ieee_real, SF2R, F2R; cbn; lra).
Qed.
Lemma eps_f32 : mval 24 128 (@neps (mixed 24 128)) (bpow radix2 (-23)).
Proof. split; [split; vm_compute; reflexivity|]. unfold ieee_real, SF2R, F2R. cbn. lra. Qed.

Lemma mixed_run_list (prec emax : Z) (ops : list (op spec_float)) :
  ck_super (mixed prec emax) (run_mixed prec emax ops) = fold_left (cskew_push (mixed prec emax)) (map OfT (since_clear ops)) (cskew_init (mixed prec emax)).
Proof.
  unfold run_mixed. rewrite (run_since_clear _ _ _ (ckurt_clear_init (mixed prec emax))), since_clear_op_map.
  rewrite ckurt_fold_super. reflexivity.
Qed.

(** With the sizes the next claims need. *)
Lemma c118_core : forall (ops : list (op spec_float)) (M : R),
  let l := since_clear ops in
  let n := INR (length l) in
  let u := bpow radix2 (- 24) in
  l <> [] -> (Z.of_nat (length l) <= 2 ^ 13)%Z -> bpow radix2 (-20) <= M <= bpow radix2 20 ->
  Forall (fun x => ieee_finite 24 128 x /\ Rabs (ieee_real x) <= M) l ->
  let lv := map ieee_real l in
  let V := variance lv in
  0 < V -> 128 * ((28 * n + 618) * (M * M / V)) * u <= 1 ->
  bpow radix2 (-23) + 9 / 8 * n * ((229 * n + 5441) * (u * (M * (M * M)))) <= csum 3 lv ->
  let r := mskew_skewness 24 128 (ck_super (mixed 24 128) (run_mixed 24 128 ops)) in
  ieee_finite 24 128 r /\
  Rabs (ieee_real r - skewness lv) <= (406 * n + 9303) * (u * (M / sqrt V * (M / sqrt V) * (M / sqrt V))) /\
  1 <= M / sqrt V <= M / sqrt V * (M / sqrt V) * (M / sqrt V) /\ 0 <= skewness lv <= 2 * (M / sqrt V) /\
  (406 * n + 9300) * (u * (M / sqrt V * (M / sqrt V) * (M / sqrt V))) <= 1 / 8 * (M / sqrt V) /\ M / sqrt V <= 16.
Proof.
  intros ops M l n u NE Hn HM HF lv V VP HR HE r.
  destruct (ieee_magn 24 128 M l HF) as [Hfin Hmag]. fold lv in Hmag.
  pose proof (inr_le l 13 ltac:(lia) Hn) as Hn'. fold n in Hn'.
  assert (N1 : 1 <= n) by (apply inr_ge1; exact NE).
  pose proof (tame_f32 M n (conj N1 Hn') HM) as TM.
  destruct (skew_bounds_f32 M n V (conj N1 Hn') HM VP HR) as (S1 & S3 & R1).
  destruct (pow_bound M _ _ HM) as (P2 & P3 & _). change (2 * 20)%Z with 40%Z in P2. change (3 * 20)%Z with 60%Z in P3.
  set (X := mixed 24 128). set (xl := map OfT l).
  assert (DL : Forall2 (mval 24 128) xl lv).
  { unfold xl, lv. clear - Hfin. induction Hfin as [|x l' Fx _ IH]; cbn; constructor; [split; [exact Fx|reflexivity]|exact IH]. }
  assert (LX : length xl = length l) by (unfold xl; apply map_length).
  assert (C2 : csum 2 lv = n * V).
  { unfold V, variance, card, lv. rewrite map_length. fold n. field. lra. }
  assert (M0 : 0 < M) by (pose proof (bp (-20)); lra).
  pose proof (bp (3 * -20)) as B3. pose proof (bp (2 * -20)) as B2'.
  assert (U2 : n * V <= bpow radix2 55).
  { rewrite <- C2. pose proof (csum_bound M lv ltac:(lra) Hmag) as CB. unfold card, lv in CB. rewrite map_length in CB. fold n lv in CB.
    apply Rabs_le_inv in CB. eapply Rle_trans; [apply CB|]. apply (ub _ _ 15 40); [lra|lra| |lra|lia].
    change 4 with (bpow radix2 2). apply (ub _ _ 2 13); lra || (left; apply bp) || lia. }
  pose proof (bp (-48)) as B48. pose proof (bp (-24)) as B24.
  assert (U1 : sqrt (n * V) <= bpow radix2 28).
  { replace (bpow radix2 28) with (sqrt (bpow radix2 56)).
    - apply sqrt_le_1; [lra|left; apply bp|]. eapply Rle_trans; [exact U2|apply bp_le; lia].
    - change 56%Z with (28 + 28)%Z. rewrite bpow_plus. apply sqrt_square. left. apply bp. }
  assert (T16 : 16 * bpow radix2 (2 - 128 - 24) = bpow radix2 (-146)) by (change 16 with (bpow radix2 4); apply bp_mul).
  assert (SP : 0 < sqrt V) by (apply sqrt_lt_R0; exact VP).
  set (z := M / sqrt V) in *.
  assert (Z2 : z * z = M * M / V).
  { unfold z. rewrite <- (sqrt_sqrt V) at 3 by lra. field. lra. }
  assert (Zp : 0 < z) by (apply Rdiv_lt_0_compat; lra).
  assert (Zb : z <= 16).
  { apply Rnot_lt_le. intros L. change (bpow radix2 8) with 256 in R1. rewrite <- Z2 in R1. nra. }
  assert (BZ : 2 * (2 * (z * z * z)) <= bpow radix2 (128 - 1)).
  { apply Rle_trans with (bpow radix2 14); [|apply bp_le; lia]. change (bpow radix2 14) with 16384. rewrite Z2.
    change (bpow radix2 8) with 256 in R1. assert (0 < M * M / V) by (rewrite <- Z2; nra). nra. }
  assert (AP := approx_mixed 24 128 ltac:(lia) ltac:(lia) ltac:(lia) ltac:(lia) ltac:(lia)).
  assert (E16 : 16 * bpow radix2 (- 24) <= 1) by (rewrite two24; lra).
  assert (TMx : tame (B := bpow radix2 (128 - 1)) (e := bpow radix2 (- 24)) (t := bpow radix2 (2 - 128 - 24)) (bpow radix2 64) M (INR (length xl))) by (rewrite LX; exact TM).
  assert (SQ := mixed_sqrt 24 128 ltac:(lia) ltac:(lia) ltac:(lia) ltac:(lia) ltac:(lia)).
  assert (TR : 16 * bpow radix2 (2 - 128 - 24) <= bpow radix2 (- 24) * sqrt (csum 2 lv) /\
    16 * bpow radix2 (2 - 128 - 24) <= bpow radix2 (- 24) * (sqrt (csum 2 lv) * csum 2 lv) /\ 16 * bpow radix2 (2 - 128 - 24) <= bpow radix2 (- 24)).
  { rewrite C2, T16. split; [|split].
    - apply (lb _ _ (-24) (-24)); [lra|exact S3|lia].
    - apply (lb _ _ (-24) (-72)); [lra| |lia]. apply (lb _ _ (-24) (-48)); [exact S3|exact S1|lia].
    - apply bp_le. lia. }
  assert (BR : 2 * sqrt (csum 2 lv) <= bpow radix2 (128 - 1) /\ 2 * (sqrt (csum 2 lv) * csum 2 lv) <= bpow radix2 (128 - 1) /\
    16 * (sqrt (INR (length xl)) * INR (length xl) * (M * (M * M))) <= bpow radix2 (128 - 1)).
  { rewrite C2, LX. fold n.
    split; [|split]; [change 2 with (bpow radix2 1) at 1|change 2 with (bpow radix2 1) at 1|change 16 with (bpow radix2 4)].
    - apply (ub _ _ 1 28); [left; apply bp|lra|lra|exact U1|lia].
    - apply (ub _ _ 1 83); [left; apply bp|apply Rmult_le_pos; lra|lra| |lia]. apply (ub _ _ 28 55); [lra|lra|exact U1|exact U2|lia].
    - assert (SN : 0 <= sqrt n <= bpow radix2 13).
      { split; [apply sqrt_pos|]. eapply Rle_trans; [|exact Hn']. rewrite <- (sqrt_square n) at 2 by lra.
        apply sqrt_le_1; [lra|apply Rmult_le_pos; lra|]. rewrite <- (Rmult_1_l n) at 1. apply Rmult_le_compat_r; lra. }
      apply (ub _ _ 4 86); [left; apply bp| |lra| |lia].
      + apply Rmult_le_pos; [apply Rmult_le_pos; lra|lra].
      + apply (ub _ _ 26 60); [apply Rmult_le_pos; lra|lra| |lra|lia]. apply (ub _ _ 13 13); lra || lia. }
  assert (HK : (N.of_nat (length xl) <= Z.to_N (2 ^ 24))%N) by (rewrite LX; change (Z.to_N (2 ^ 24)) with (2 ^ 24)%N; lia).
  assert (HS : (N.of_nat (length xl) < szmod)%N) by (rewrite LX; unfold szmod; lia).
  assert (Hrho : 128 * ((28 * INR (length xl) + 618) * (M * M / variance lv)) * bpow radix2 (- 24) <= 1) by (rewrite LX; exact HR).
  assert (HE' : bpow radix2 (-23) + 9 / 8 * INR (length xl) * err3 (e := bpow radix2 (- 24)) M (INR (length xl)) <= csum 3 lv).
  { rewrite LX. fold n. unfold err3. exact HE. }
  destruct (z_1 (F := mixed 24 128) (val := mval 24 128) _ M xl lv TMx DL Hmag VP) as (Z1 & _ & Z3). fold V z in Z1, Z3.
  pose proof (skew_size (F := mixed 24 128) (val := mval 24 128) _ M xl lv TMx DL Hmag VP) as SZ. fold V z in SZ.
  destruct (skew_obs AP E16 lit_f32 zero_f32 _ wrap_f32 SQ _ eps_f32 M xl lv TMx DL Hmag HK HS VP Hrho TR BR HE' BZ) as (f & Vf & H).
  fold V z in H. change (@length (carrier (mixed 24 128)) xl) with (@length cval xl) in H. rewrite LX in H. fold n in H. change (bpow radix2 (- (24))) with u in *. fold u in HR, HE.
  assert (U0 : u = / 16777216) by exact two24.
  assert (SG : 0 <= skewness lv).
  { assert (C3p : 0 <= csum 3 lv).
    { eapply Rle_trans; [|exact HE]. pose proof (bp (-23)).
      assert (0 <= 9 / 8 * n * ((229 * n + 5441) * (u * (M * (M * M))))); [|lra].
      repeat apply Rmult_le_pos; lra. }
    unfold skewness, cmoment. change (csum 2 lv / card lv) with V. unfold card, lv at 2. rewrite map_length. fold n.
    apply Rmult_le_pos; [apply Rmult_le_pos; [exact C3p|left; apply Rinv_0_lt_compat; lra]|].
    left. apply Rinv_0_lt_compat. apply Rmult_lt_0_compat; lra. }
  assert (Q1 : (406 * n + 9300) * (u * (z * z * z)) <= 1 / 8 * z).
  { rewrite <- Z2 in HR.
    replace ((406 * n + 9300) * (u * (z * z * z))) with ((406 * n + 9300) * (z * z) * u * z) by ring.
    apply Rmult_le_compat_r; [lra|]. assert (W : 0 <= z * z * u) by (rewrite U0; apply Rmult_le_pos; [nra|lra]).
    clear - HR W N1. assert (0 <= n * (z * z * u)) by (apply Rmult_le_pos; lra). lra. }
  assert (FB : Rabs f <= 9 / 4 * z).
  { pose proof (Rmax_r 0 (skewness lv)). apply Rabs_le_inv in H. apply Rabs_le. lra. }
  assert (FR : Rabs f <= bpow radix2 (128 - 1)).
  { eapply Rle_trans; [exact FB|]. apply Rle_trans with (bpow radix2 6); [change (bpow radix2 6) with 64; clear - Zb; lra|apply bp_le; lia]. }
  destruct (as_T_near 24 128 ltac:(lia) ltac:(lia) _ f Vf FR) as (g & (Fg & Eg) & NG).
  unfold r, mskew_skewness. rewrite mixed_run_list. fold l xl.
  split; [exact Fg|]. rewrite Eg. unfold near in NG. split; [|pose proof (Rmax_r 0 (skewness lv)); fold z; repeat split; (lra || assumption)]. fold u in NG.
  assert (TU : bpow radix2 (2 - 128 - 24) <= / 4 * u).
  { change (/ 4) with (bpow radix2 (-2)). unfold u. rewrite bp_mul. apply bp_le. lia. }
  assert (NG' : Rabs (g - f) <= 3 * (u * (z * z * z))).
  { apply Rle_trans with (u * Rabs f + bpow radix2 (2 - 128 - 24)); [exact NG|]. assert (Up : 0 <= u) by (left; apply bp).
    pose proof (Rmult_le_compat_l _ _ _ Up FB) as A1. pose proof (Rmult_le_compat_l _ _ _ Up Z3) as A2. pose proof (Rmult_le_compat_l _ _ _ Up Z1) as A3.
    set (w := u * (z * z * z)) in *. clearbody w. clear - A1 A2 A3 TU Up. lra. }
  replace (g - skewness lv) with ((g - f) + (f - skewness lv)) by ring.
  eapply Rle_trans; [apply Rabs_triang|]. clear - NG' H. lra.
Qed.

(** @prop C118_float_partial: over float, for up to 2^13 finite values of magnitude at
    most [M] (between 2^-20 and 2^20) since the last clear with variance [V > 0]: if
    [M^2 / V] is below about 2^24 / (3584 n) and the third central sum exceeds epsilon
    (2^-23) by the bound for its own error, then skewness() is finite and within
    [(406 n + 9303) u (M / sigma)^3] of the skewness of the values, [u = 2^-24].
    Missing, because false: value types of more than 53 bits. *)
Lemma c118_float : forall (ops : list (op spec_float)) (M : R),
  let l := since_clear ops in
  let n := INR (length l) in
  let u := bpow radix2 (- 24) in
  l <> [] -> (Z.of_nat (length l) <= 2 ^ 13)%Z -> bpow radix2 (-20) <= M <= bpow radix2 20 ->
  Forall (fun x => ieee_finite 24 128 x /\ Rabs (ieee_real x) <= M) l ->
  let lv := map ieee_real l in
  let V := variance lv in
  0 < V -> 128 * ((28 * n + 618) * (M * M / V)) * u <= 1 ->
  bpow radix2 (-23) + 9 / 8 * n * ((229 * n + 5441) * (u * (M * (M * M)))) <= csum 3 lv ->
  let r := mskew_skewness 24 128 (ck_super (mixed 24 128) (run_mixed 24 128 ops)) in
  ieee_finite 24 128 r /\
  Rabs (ieee_real r - skewness lv) <= (406 * n + 9303) * (u * (M / sqrt V * (M / sqrt V) * (M / sqrt V))).
Proof.
  intros ops M l n u NE Hn HM HF lv V VP HR HE r.
  destruct (c118_core ops M NE Hn HM HF VP HR HE) as (H1 & H2 & _). split; assumption.
Qed.

Lemma skew_count (F : num) (l : list F) : (N.of_nat (length l) < szmod)%N ->
  cskew_size F (fold_left (cskew_push F) l (cskew_init F)) = N.of_nat (length l).
Proof.
  intros H. pose proof (cskew_fold_super F l (cskew_init F)) as SX. cbn [cskew_init cs_super] in SX.
  unfold cskew_size, cvar_size, cmean_size. rewrite SX. rewrite (cvar_fold_super F l (cvar_init F)). cbn [cvar_init cv_super].
  apply cmean_fold_count. exact H.
Qed.

(** The factor of the bias correction applied to a skewness [r] *)
Lemma unbiased_f32 (s : cskew (mixed 24 128)) (r : R) :
  let n := INR (N.to_nat (cskew_size (mixed 24 128) s)) in
  let u := bpow radix2 (- 24) in
  let k := sqrt (n * (n - 1)) / (n - 2) in
  (3 <= cskew_size (mixed 24 128) s <= 2 ^ 13)%N -> fdenotes 24 128 (mskew_skewness 24 128 s) r -> Rabs r <= bpow radix2 20 ->
  exists g, fdenotes 24 128 (mskew_unbiased_skewness 24 128 s) g /\ 1 <= k /\ Rabs (g - r * k) <= 43 / 10 * u * (Rabs r * k) + 7 * bpow radix2 (-130).
Proof.
  set (X := mixed 24 128). set (c := cskew_size X s). intros n u k Hc Vr HR.
  assert (U0 : u = / 16777216) by exact two24.
  assert (En : n = IZR (Z.of_N c)) by (unfold n; rewrite INR_IZR_INZ, N_nat_Z; reflexivity).
  assert (N3 : 3 <= n) by (rewrite En; apply (IZR_le 3); lia).
  assert (NB : n <= bpow radix2 13) by (rewrite En; change (bpow radix2 13) with (IZR (2 ^ 13)); apply IZR_le; lia).
  assert (E1 : szsub c 1 = (c - 1)%N) by (apply szsub_small; unfold szmod; lia).
  assert (E2 : szsub c 2 = (c - 2)%N) by (apply szsub_small; unfold szmod; lia).
  assert (Bp : (c * (c - 1) <= 2 ^ 26)%N) by (change (2 ^ 26)%N with (2 ^ 13 * 2 ^ 13)%N; apply N.mul_le_mono; lia).
  assert (E3 : szmul c (c - 1) = (c * (c - 1))%N) by (unfold szmul; apply N.mod_small; unfold szmod; lia).
  set (Q := sqrt (n * (n - 1))). assert (PQ : 4 <= n * (n - 1)) by nra.
  assert (Q2 : 2 <= Q) by (unfold Q; replace 2 with (sqrt (2 * 2)) by (apply sqrt_square; lra); apply sqrt_le_1; lra).
  assert (QB : Q <= bpow radix2 13).
  { unfold Q. rewrite <- (sqrt_square (bpow radix2 13)) by (left; apply bp). apply sqrt_le_1; [lra|apply Rle_0_sqr|]. change (bpow radix2 13) with 8192 in *. nra. }
  assert (K1 : 1 <= k).
  { unfold k. fold Q. apply (Rmult_le_reg_r (n - 2)); [lra|]. replace (Q / (n - 2) * (n - 2)) with Q by (field; lra).
    unfold Q. rewrite <- (sqrt_square (1 * (n - 2))) by lra. apply sqrt_le_1; nra. }
  unfold mskew_unbiased_skewness. fold X c. rewrite E1, E2, E3. destruct (N.ltb_spec c 2) as [L|_]; [lia|].
  destruct (nlt (cs_sum X s) neps) eqn:Elt.
  { exists 0. split; [apply (of_Z_small 24 128 ltac:(lia) ltac:(lia) 0); cbn; lia|]. split; [exact K1|].
    assert (Er : r = 0).
    { destruct Vr as [_ <-]. unfold mskew_skewness, cskew_skewness. fold X. rewrite Elt.
      apply (of_Z_small 24 128 ltac:(lia) ltac:(lia) 0). cbn. lia. }
    rewrite Er, Rmult_0_l, Rminus_0_r, Rabs_R0. pose proof (bp (-130)). lra. }
  assert (AP := approx_mixed 24 128 ltac:(lia) ltac:(lia) ltac:(lia) ltac:(lia) ltac:(lia)).
  change (- (24))%Z with (-24)%Z in AP. change (2 - 128 - 24)%Z with (-150)%Z in AP. fold u in AP. set (t := bpow radix2 (-150)) in *.
  set (t' := bpow radix2 (-130)). assert (Tp : 0 < t) by apply bp.
  assert (TT : t' = 1048576 * t) by (unfold t', t; change 1048576 with (bpow radix2 20); rewrite bp_mul; reflexivity).
  (* the square root, in double *)
  assert (VQ : exists q, mval 24 128 (@nsqrt X (@nofsz X (c * (c - 1))%N)) q /\ Rabs (q - Q) <= u * Q + t).
  { cbn [nsqrt nofsz X mixed as_double]. destruct (of_Z_small 53 1024 ltac:(lia) ltac:(lia) (Z.of_N (c * (c - 1)))) as [Fc Ec]; [lia|].
    assert (Ep : IZR (Z.of_N (c * (c - 1))) = n * (n - 1)).
    { rewrite N2Z.inj_mul, N2Z.inj_sub by lia. rewrite mult_IZR, minus_IZR, <- En. reflexivity. }
    rewrite Ep in Ec. destruct (sqrt_real 53 1024 ltac:(lia) ltac:(lia) _ Fc ltac:(rewrite Ec; lra)) as [F1 S1]. rewrite Ec in S1. fold Q in S1.
    eexists. split; [split; [exact F1|exact S1]|].
    pose proof (near_weaken 24 128 ltac:(lia) ltac:(lia) _ _ ltac:(lia) (rounding_nearest (-1074) 53 ltac:(lia) Q)) as NQ.
    unfold near in NQ. rewrite (Rabs_pos_eq Q) in NQ by lra. exact NQ. }
  destruct VQ as (q & Vq & Nq).
  assert (VD : mval 24 128 (OfT (as_T 24 128 (@nofsz X (c - 2)%N))) (n - 2)).
  { cbn [mval as_T nofsz X mixed]. replace (n - 2) with (IZR (Z.of_N (c - 2))) by (rewrite N2Z.inj_sub by lia; rewrite minus_IZR, <- En; reflexivity).
    apply of_Z_small; lia. }
  set (A := Rabs r * Q). assert (Ar : 0 <= Rabs r) by apply Rabs_pos. assert (A0 : 0 <= A) by (apply Rmult_le_pos; lra).
  assert (T1 : Rabs r * t <= t').
  { rewrite TT. change (bpow radix2 20) with 1048576 in HR. apply Rmult_le_compat_r; lra. }
  assert (D1 : Rabs (r * q - r * Q) <= u * A + t').
  { rewrite <- Rmult_minus_distr_l, Rabs_mult. eapply Rle_trans; [apply Rmult_le_compat_l; [exact Ar|exact Nq]|]. unfold A. lra. }
  assert (RQ : Rabs (r * Q) = A) by (rewrite Rabs_mult, (Rabs_pos_eq Q) by lra; reflexivity).
  assert (D1' : Rabs (r * q) <= A + u * A + t').
  { replace (r * q) with ((r * q - r * Q) + r * Q) by ring. eapply Rle_trans; [apply Rabs_triang|]. rewrite RQ. lra. }
  assert (AB : A <= bpow radix2 33).
  { unfold A. apply (ub _ _ 20 13); [apply Rabs_pos|lra|exact HR|exact QB|lia]. }
  assert (tB : t' <= 1) by (unfold t'; change 1 with (bpow radix2 0); apply bp_le; lia).
  assert (BIG : 4 * bpow radix2 33 + 16 <= bpow radix2 (128 - 1)).
  { apply Rle_trans with (bpow radix2 36); [cbn; lra|apply bp_le; lia]. }
  assert (B33 := bp 33).
  destruct (ap_mul _ _ _ _ _ _ AP (OfT (mskew_skewness 24 128 s)) _ r q Vr Vq) as (p & Vp & Np).
  { eapply Rle_trans; [exact D1'|]. rewrite U0 in *. lra. }
  unfold near in Np.
  assert (D2 : Rabs (p - r * Q) <= 21 / 10 * u * A + 3 * t').
  { replace (p - r * Q) with ((p - r * q) + (r * q - r * Q)) by ring. eapply Rle_trans; [apply Rabs_triang|].
    assert (u * Rabs (r * q) <= u * (A + u * A + t')) by (apply Rmult_le_compat_l; [rewrite U0; lra|exact D1']). rewrite U0 in *. lra. }
  set (D := n - 2) in *. assert (D3 : 1 <= D) by (unfold D; lra).
  assert (DI : 0 < / D <= 1) by (split; [apply Rinv_0_lt_compat; lra|rewrite <- Rinv_1; apply Rinv_le_contravar; lra]).
  set (K := Rabs r * k). assert (EK : K = A * / D) by (unfold K, A, k, Rdiv; fold Q D; ring).
  assert (K0 : 0 <= K) by (unfold K; apply Rmult_le_pos; lra).
  assert (RK : r * k = r * Q * / D) by (unfold k, Rdiv; fold Q D; ring).
  assert (RKa : Rabs (r * k) = K) by (unfold K; rewrite Rabs_mult, (Rabs_pos_eq k) by lra; reflexivity).
  assert (KB : K <= bpow radix2 33).
  { rewrite EK. rewrite <- (Rmult_1_r (bpow radix2 33)). apply Rmult_le_compat; lra. }
  assert (D4 : Rabs (p / D - r * k) <= 21 / 10 * u * K + 3 * t').
  { rewrite RK. unfold Rdiv at 1. rewrite <- Rmult_minus_distr_r, Rabs_mult, (Rabs_pos_eq (/ D)) by lra.
    eapply Rle_trans; [apply Rmult_le_compat_r; [lra|exact D2]|]. rewrite EK.
    assert (3 * t' * / D <= 3 * t' * 1) by (apply Rmult_le_compat_l; lra). lra. }
  assert (D4' : Rabs (p / D) <= K + 21 / 10 * u * K + 3 * t').
  { replace (p / D) with ((p / D - r * k) + r * k) by ring. eapply Rle_trans; [apply Rabs_triang|]. rewrite RKa. lra. }
  destruct (ap_div _ _ _ _ _ _ AP _ _ p D Vp VD ltac:(lra)) as (d & Vd & Nd).
  { eapply Rle_trans; [exact D4'|]. rewrite U0 in *. lra. }
  unfold near in Nd.
  assert (D5 : Rabs (d - r * k) <= 32 / 10 * u * K + 5 * t').
  { replace (d - r * k) with ((d - p / D) + (p / D - r * k)) by ring. eapply Rle_trans; [apply Rabs_triang|].
    assert (u * Rabs (p / D) <= u * (K + 21 / 10 * u * K + 3 * t')) by (apply Rmult_le_compat_l; [rewrite U0; lra|exact D4']). rewrite U0 in *. lra. }
  assert (D5' : Rabs d <= K + 32 / 10 * u * K + 5 * t').
  { replace d with ((d - r * k) + r * k) by ring. eapply Rle_trans; [apply Rabs_triang|]. rewrite RKa. lra. }
  destruct (as_T_near 24 128 ltac:(lia) ltac:(lia) _ d Vd) as (g & Vg & Ng).
  { eapply Rle_trans; [exact D5'|]. rewrite U0 in *. lra. }
  unfold near in Ng. change (- (24))%Z with (-24)%Z in Ng. change (2 - 128 - 24)%Z with (-150)%Z in Ng. fold u t in Ng.
  exists g. split; [exact Vg|]. split; [exact K1|]. fold K t'.
  replace (g - r * k) with ((g - d) + (d - r * k)) by ring. eapply Rle_trans; [apply Rabs_triang|].
  assert (u * Rabs d <= u * (K + 32 / 10 * u * K + 5 * t')) by (apply Rmult_le_compat_l; [rewrite U0; lra|exact D5']). rewrite U0 in *. lra.
Qed.


Lemma small_stats : variance [0; 0; 3] = 2 /\ csum 3 [0; 0; 3] = 6 /\ skewness [0; 0; 3] = / sqrt 2.
Proof.
  assert (M : mean [0; 0; 3] = 1) by (unfold mean, card; cbn; lra).
  assert (C2 : csum 2 [0; 0; 3] = 6) by (unfold csum; rewrite M; cbn; lra).
  assert (C3 : csum 3 [0; 0; 3] = 6) by (unfold csum; rewrite M; cbn; lra).
  assert (S : 0 < sqrt 2) by (apply sqrt_lt_R0; lra).
  split; [unfold variance, cmoment, card; rewrite C2; cbn; lra|]. split; [exact C3|].
  unfold skewness, cmoment, card. rewrite C2, C3. replace (6 / INR (length [0; 0; 3])) with 2 by (cbn; lra). field. lra.
Qed.

Lemma small_list (prec emax : Z) : (2 < prec)%Z -> (prec < emax)%Z ->
  let l := map (fun z => ieee_of_Z prec emax z) [0; 0; 3]%Z in
  map ieee_real l = [0; 0; 3] /\ Forall (fun x => ieee_finite prec emax x /\ Rabs (ieee_real x) <= 3) l.
Proof.
  intros Hp Hm l. assert (B : (2 ^ 2 <= 2 ^ prec)%Z) by (apply Z.pow_le_mono_r; lia). change (2 ^ 2)%Z with 4%Z in B.
  destruct (of_Z_small prec emax ltac:(lia) Hm 0 ltac:(lia)) as [F0 E0]. destruct (of_Z_small prec emax ltac:(lia) Hm 3 ltac:(lia)) as [F3 E3].
  split; unfold l; cbn [map].
  - rewrite E0, E3. reflexivity.
  - repeat apply Forall_cons; try apply Forall_nil; (split; [assumption|]); rewrite ?E0, ?E3, Rabs_pos_eq; lra.
Qed.

(** @ex C118_float_partial_ex: 0, 0, 3 after another value and a clear; the bound is below 1/100. *)
Lemma c118_float_ex :
  let l := since_clear (Push (f32 9) :: Clear :: map Push (map (fun z => f32 z) [0; 0; 3]%Z)) in
  let n := INR (length l) in
  let u := bpow radix2 (- 24) in
  let lv := map ieee_real l in
  length l = 3%nat /\ bpow radix2 (-20) <= 3 <= bpow radix2 20 /\
  Forall (fun x => ieee_finite 24 128 x /\ Rabs (ieee_real x) <= 3) l /\
  variance lv = 2 /\ 128 * ((28 * n + 618) * (3 * 3 / 2)) * u <= 1 /\
  bpow radix2 (-23) + 9 / 8 * n * ((229 * n + 5441) * (u * (3 * (3 * 3)))) <= csum 3 lv /\
  (406 * n + 9303) * (u * (3 / sqrt 2 * (3 / sqrt 2) * (3 / sqrt 2))) <= / 100.
Proof.
  cbn zeta. match goal with |- context [since_clear ?x] => change (since_clear x) with (map (fun z => f32 z) [0; 0; 3]%Z) end.
  destruct (small_list 24 128 ltac:(lia) ltac:(lia)) as [E EF]. rewrite E. destruct small_stats as (H1 & H2 & _).
  split; [reflexivity|]. split; [cbn; lra|]. split; [exact EF|].
  split; [exact H1|]. rewrite H2. cbn [length map].
  split; [cbn; lra|]. split; [cbn; lra|].
  assert (S : 1 <= sqrt 2) by (rewrite <- (sqrt_square 1) by lra; apply sqrt_le_1; lra).
  assert (Z : 0 <= 3 / sqrt 2 <= 3).
  { split; [apply Rlt_le, Rdiv_lt_0_compat; lra|]. replace 3 with (3 * / 1) at 2 by lra. unfold Rdiv. apply Rmult_le_compat_l; [lra|]. apply Rinv_le_contravar; lra. }
  assert (Z2 : 3 / sqrt 2 * (3 / sqrt 2) = 9 / 2).
  { replace (9 / 2) with (9 / (sqrt 2 * sqrt 2)) by (rewrite sqrt_sqrt; lra). field. lra. }
  rewrite Z2. generalize dependent (3 / sqrt 2). intros z Z _. cbn. lra.
Qed.

(** @prop C118_unbiased_partial: over float, under the conditions of C118_float_partial with
    three or more values, unbiased_skewness() is finite and within
    [(406 n + 9313) u (M / sigma)^3 k] of [k] times the skewness of the values, where
    [k = sqrt (n (n - 1)) / (n - 2)] is the correction for bias. *)
Lemma c118_unbiased : forall (ops : list (op spec_float)) (M : R),
  let l := since_clear ops in
  let n := INR (length l) in
  let u := bpow radix2 (- 24) in
  (3 <= length l)%nat -> (Z.of_nat (length l) <= 2 ^ 13)%Z -> bpow radix2 (-20) <= M <= bpow radix2 20 ->
  Forall (fun x => ieee_finite 24 128 x /\ Rabs (ieee_real x) <= M) l ->
  let lv := map ieee_real l in
  let V := variance lv in
  0 < V -> 128 * ((28 * n + 618) * (M * M / V)) * u <= 1 ->
  bpow radix2 (-23) + 9 / 8 * n * ((229 * n + 5441) * (u * (M * (M * M)))) <= csum 3 lv ->
  let r := mskew_unbiased_skewness 24 128 (ck_super (mixed 24 128) (run_mixed 24 128 ops)) in
  let k := sqrt (n * (n - 1)) / (n - 2) in
  ieee_finite 24 128 r /\
  Rabs (ieee_real r - k * skewness lv) <= (406 * n + 9313) * (u * (M / sqrt V * (M / sqrt V) * (M / sqrt V))) * k.
Proof.
  intros ops M l n u N3 Hn HM HF lv V VP HR HE r k.
  assert (NE : l <> []) by (intros E; rewrite E in N3; cbn in N3; lia).
  destruct (c118_core ops M NE Hn HM HF VP HR HE) as (F0 & H & Z13 & SG & Q1 & Zb). fold l n u lv V in F0, H, Z13, SG, Q1, Zb.
  set (z := M / sqrt V) in *. set (s := ck_super (mixed 24 128) (run_mixed 24 128 ops)) in *.
  assert (ES : cskew_size (mixed 24 128) s = N.of_nat (length l)).
  { unfold s. rewrite mixed_run_list. fold l. rewrite (skew_count (mixed 24 128)); [rewrite map_length; reflexivity|]. rewrite map_length. unfold szmod. lia. }
  assert (U0 : u = / 16777216) by exact two24.
  set (w := u * (z * z * z)) in *. assert (W0 : 0 < w) by (unfold w; rewrite U0; nra).
  assert (W3 : 3 * w <= 1 / 8) by (assert (z * z <= 256) by nra; assert (z * z * z <= 4096) by nra; unfold w; rewrite U0; lra).
  set (x := ieee_real (mskew_skewness 24 128 s)) in *.
  assert (XB : Rabs x <= 9 / 4 * z + 3 * w).
  { replace x with ((x - skewness lv) + skewness lv) by ring. eapply Rle_trans; [apply Rabs_triang|]. rewrite (Rabs_pos_eq (skewness lv)) by lra. lra. }
  destruct (unbiased_f32 s x) as (g & (Fg & Eg) & K1 & G); [rewrite ES; lia|split; [exact F0|reflexivity]| |].
  { eapply Rle_trans; [exact XB|]. change (bpow radix2 20) with 1048576. lra. }
  rewrite ES, Nat2N.id in K1, G. fold n u in K1, G. fold k in K1, G. split; [exact Fg|]. fold r in Eg. rewrite Eg.
  replace (g - k * skewness lv) with ((g - x * k) + (x - skewness lv) * k) by ring. eapply Rle_trans; [apply Rabs_triang|].
  rewrite Rabs_mult, (Rabs_pos_eq k) by lra.
  assert (A1 : Rabs (x - skewness lv) * k <= (406 * n + 9303) * w * k) by (apply Rmult_le_compat_r; [lra|exact H]).
  assert (A2 : 43 / 10 * u * (Rabs x * k) <= 98 / 10 * (w * k)).
  { assert (43 / 10 * u * Rabs x <= 98 / 10 * w); [|replace (43 / 10 * u * (Rabs x * k)) with (43 / 10 * u * Rabs x * k) by ring; rewrite <- Rmult_assoc; apply Rmult_le_compat_r; lra].
    assert (u * Rabs x <= u * (9 / 4 * (z * z * z) + 3 * w)) by (apply Rmult_le_compat_l; [rewrite U0; lra|lra]).
    assert (u * w <= / 16777216 * w) by (rewrite U0; lra). unfold w in *. lra. }
  assert (A3 : 7 * bpow radix2 (-130) <= 2 / 10 * (w * k)).
  { assert (w <= w * k) by (rewrite <- (Rmult_1_r w) at 1; apply Rmult_le_compat_l; lra).
    assert (u <= w) by (unfold w; rewrite <- (Rmult_1_r u) at 1; apply Rmult_le_compat_l; [rewrite U0|]; lra).
    assert (bpow radix2 (-130) <= bpow radix2 (-30) ) by (apply bp_le; lia).
    change (bpow radix2 (-30)) with (/ 1073741824) in *. lra. }
  replace ((406 * n + 9313) * w * k) with ((406 * n + 9303) * w * k + 10 * (w * k)) by ring. lra.
Qed.

(** @ex C118_unbiased_partial_ex: 0, 0, 3 as above; the correction is sqrt 6, the corrected
    skewness sqrt 3, reported one unit in the last place too small. *)
Lemma c118_unbiased_ex :
  let ops := Push (f32 9) :: Clear :: map Push (map (fun z => f32 z) [0; 0; 3]%Z) in
  let l := since_clear ops in
  let n := INR (length l) in
  let u := bpow radix2 (- 24) in
  let lv := map ieee_real l in
  (3 <= length l)%nat /\ bpow radix2 (-20) <= 3 <= bpow radix2 20 /\
  Forall (fun x => ieee_finite 24 128 x /\ Rabs (ieee_real x) <= 3) l /\
  variance lv = 2 /\ 128 * ((28 * n + 618) * (3 * 3 / 2)) * u <= 1 /\
  bpow radix2 (-23) + 9 / 8 * n * ((229 * n + 5441) * (u * (3 * (3 * 3)))) <= csum 3 lv /\
  mskew_unbiased_skewness 24 128 (ck_super (mixed 24 128) (run_mixed 24 128 ops)) = S754_finite false 14529494 (-23).
Proof.
  destruct c118_float_ex as (H1 & H2 & H3 & H4 & H5 & H6 & _). cbv zeta.
  split; [rewrite H1; constructor|]. do 5 (split; [assumption|]). vm_compute. reflexivity.
Qed.

(** @prop C118_wide_refuted: for a value type of 113 bits the corresponding statement,
    with its own [u = 2^-113], is false: the square root of the count has the
    accuracy of double. The skewness of 0, 0, 3 is wrong by more than 2^-55, which is
    more than 2^41 times the bound. *)
Lemma c118_wide_refuted : exists (ops : list (op spec_float)) (M : R),
  let l := since_clear ops in
  let n := INR (length l) in
  let u := bpow radix2 (- 113) in
  length l = 3%nat /\ bpow radix2 (-20) <= M <= bpow radix2 20 /\
  Forall (fun x => ieee_finite 113 16384 x /\ Rabs (ieee_real x) <= M) l /\
  let lv := map ieee_real l in
  let V := variance lv in
  0 < V /\ 128 * ((28 * n + 618) * (M * M / V)) * u <= 1 /\
  bpow radix2 (-112) + 9 / 8 * n * ((229 * n + 5441) * (u * (M * (M * M)))) <= csum 3 lv /\
  let r := mskew_skewness 113 16384 (ck_super (mixed 113 16384) (run_mixed 113 16384 ops)) in
  ieee_finite 113 16384 r /\
  bpow radix2 (-55) < Rabs (ieee_real r - skewness lv) /\
  bpow radix2 41 * ((406 * n + 9303) * (u * (M / sqrt V * (M / sqrt V) * (M / sqrt V)))) < Rabs (ieee_real r - skewness lv).
Proof.
  exists (map Push (map (fun z => f113 z) [0; 0; 3]%Z)), 3. cbn zeta.
  match goal with |- context [since_clear ?x] => change (since_clear x) with (map (fun z => f113 z) [0; 0; 3]%Z) end.
  destruct (small_list 113 16384 ltac:(lia) ltac:(lia)) as [E EF]. rewrite E. destruct small_stats as (H1 & H2 & H3). rewrite H1, H2, H3. cbn [length map].
  match goal with |- context [mskew_skewness ?a ?b ?c] => set (r := mskew_skewness a b c) end.
  assert (Er : r = S754_finite false 7343016637207168505991376393250727 (-113)) by (vm_compute; reflexivity).
  assert (Vr : ieee_real r = 7343016637207168505991376393250727 / 10384593717069655257060992658440192).
  { rewrite Er. unfold ieee_real, SF2R, F2R. cbn. lra. }
  assert (Fr : ieee_finite 113 16384 r) by (rewrite Er; split; vm_compute; reflexivity).
  clearbody r. rewrite Vr. clear Er Vr E.
  assert (SP : 0 < sqrt 2) by (apply sqrt_lt_R0; lra). assert (SS : sqrt 2 * sqrt 2 = 2) by (apply sqrt_sqrt; lra).
  assert (S1 : 15 / 11 <= sqrt 2) by nra.
  assert (S2 : sqrt 2 * (7343016637207168505991376393250727 / 10384593717069655257060992658440192 + 1 / 36028797018963968) < 1) by nra.
  assert (D : 1 / 36028797018963968 < Rabs (7343016637207168505991376393250727 / 10384593717069655257060992658440192 - / sqrt 2)).
  { rewrite Rabs_left1.
    - assert (7343016637207168505991376393250727 / 10384593717069655257060992658440192 + 1 / 36028797018963968 < / sqrt 2); [|lra].
      apply (Rmult_lt_reg_l (sqrt 2)); [exact SP|]. rewrite Rinv_r by lra. exact S2.
    - assert (7343016637207168505991376393250727 / 10384593717069655257060992658440192 < / sqrt 2); [|lra].
      apply (Rmult_lt_reg_l (sqrt 2)); [exact SP|]. rewrite Rinv_r by lra. lra. }
  assert (Z : 0 <= 3 / sqrt 2 <= 11 / 5).
  { split; [apply Rlt_le, Rdiv_lt_0_compat; lra|]. replace (11 / 5) with (3 * / (15 / 11)) by lra. unfold Rdiv at 1. apply Rmult_le_compat_l; [lra|]. apply Rinv_le_contravar; lra. }
  assert (Z2 : 3 / sqrt 2 * (3 / sqrt 2) = 9 / 2).
  { replace (9 / 2) with (9 / (sqrt 2 * sqrt 2)) by (rewrite sqrt_sqrt; lra). field. lra. }
  split; [reflexivity|]. split; [cbn; lra|]. split; [exact EF|]. split; [lra|].
  split; [cbn; lra|]. split; [cbn; lra|]. split; [exact Fr|]. split; [eapply Rle_lt_trans; [|exact D]; cbn; lra|].
  eapply Rle_lt_trans; [|exact D]. rewrite Z2. generalize dependent (3 / sqrt 2). intros z Z _. cbn. lra.
Qed.
