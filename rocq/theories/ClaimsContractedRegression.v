(** * Claim C123: accuracy of the regression line and the correlation with fused multiply-adds *)

From Coq Require Import Reals ZArith NArith List Bool.
From Coq Require Import Floats.SpecFloat.
From Flocq Require Import Core.
From Verif Require Import Arith History SpecStats SpecError Cumulative Ieee Contracted IeeeFused ContractedRegression.
Import ListNotations.
Local Open Scope R_scope.
(** A float of an integer. *)
Local Notation f32 z := (ieee_of_Z 24 128 z).
(* @end-header *)
From Coq Require Import Lia Lra Psatz.
From Flocq Require Import IEEE754.BinarySingleNaN.
From Verif Require Import HistoryLemmas StatsLemmas Approx ApproxInstances CumulativeProofs CumulativeStats
  AccuracyProofs AccuracyVariance AccuracyRegression AccuracyComoment IeeeProofs ClaimsAccuracy ClaimsRegression ClaimsFormats ClaimsFormatsMore ClaimsFormatsCorrelation
  ClaimsHigher IeeeFusedProofs IeeeDeferred ClaimsContractedAccuracy.

Lemma creg_fma_fold (F : num) (U : fused F) (l : list (F * F)) s :
  fold_left (creg_push_fma F U) l s =
  CReg F (fold_left (ccov_push_fma F U) l (cg_co F s)) (fold_left (cvar_push_fma F U) (map fst l) (cg_x F s))
    (fold_left (cvar_push_fma F U) (map snd l) (cg_y F s)).
Proof. revert s. induction l as [|p l IH]; intros s; [destruct s; reflexivity|]. cbn [fold_left map]. rewrite IH. reflexivity. Qed.

Lemma creg_fma_parts (F : num) (U : fused F) (ops : list (op (F * F))) :
  let s := run (creg_push_fma F U) (creg_clear F) (creg_init F) ops in
  cg_co F s = run (ccov_push_fma F U) (ccov_clear F) (ccov_init F) ops /\
  cg_x F s = run (cvar_push_fma F U) (cvar_clear F) (cvar_init F) (map (op_map fst) ops) /\
  cg_y F s = run (cvar_push_fma F U) (cvar_clear F) (cvar_init F) (map (op_map snd) ops).
Proof.
  cbv zeta. rewrite (run_since_clear (creg_push_fma F U) (creg_clear F) (creg_init F)) by reflexivity.
  rewrite (run_since_clear (ccov_push_fma F U) (ccov_clear F) (ccov_init F)) by reflexivity.
  rewrite !(run_since_clear (cvar_push_fma F U) (cvar_clear F) (cvar_init F)) by reflexivity.
  rewrite creg_fma_fold, !since_clear_op_map. cbn [cg_co cg_x cg_y creg_init]. split; [|split]; reflexivity.
Qed.

Lemma creg_slope_fma_run (F : num) (U : fused F) (ops : list (op (F * F))) :
  let c := ccov_variance F (run (ccov_push_fma F U) (ccov_clear F) (ccov_init F) ops) in
  let v := cvar_variance F (run (cvar_push_fma F U) (cvar_clear F) (cvar_init F) (map (op_map fst) ops)) in
  neq v n0 = false -> creg_slope F (run (creg_push_fma F U) (creg_clear F) (creg_init F) ops) = ndiv c v.
Proof. destruct (creg_fma_parts F U ops) as (Pc & Px & _). cbv zeta. intros H. unfold creg_slope. rewrite Pc, Px, H. reflexivity. Qed.

Lemma cvar_mean_fma_run (F : num) (U : fused F) (ops : list (op F)) :
  cvar_mean F (run (cvar_push_fma F U) (cvar_clear F) (cvar_init F) ops) =
  cmean_mean F (run (cmean_push F) (cmean_clear F) (cmean_init F) ops).
Proof.
  rewrite (run_since_clear (cvar_push_fma F U) (cvar_clear F) (cvar_init F)) by reflexivity.
  rewrite (run_since_clear (cmean_push F) (cmean_clear F) (cmean_init F)) by reflexivity.
  unfold cvar_mean. rewrite cvar_fma_fold_super. reflexivity.
Qed.

(** @prop C123_ieee_slope: with fused multiply-adds in an IEEE format, slope() of the cumulative
    regression filter keeps the bound of C110. *)
Lemma c123_ieee_slope : forall (prec emax : Z) (ops : list (op (spec_float * spec_float))) (Mx My : R),
  (1 < prec < emax)%Z ->
  let l := since_clear ops in
  let n := INR (length l) in
  let u := bpow radix2 (- prec) in
  let eta := bpow radix2 (2 - emax - prec) in
  let big := bpow radix2 (emax - 1) in
  l <> [] -> (N.of_nat (length l) < szmod)%N ->
  64 * n * u <= 1 -> 32 * n * eta <= Mx -> 32 * n * eta <= My ->
  16 * Mx + 60 * n * eta <= big -> 16 * My + 60 * n * eta <= big ->
  64 * n * (Mx * Mx) + 16 * n * eta <= big -> 64 * n * (Mx * My) + 16 * n * eta <= big ->
  Forall (fun p => (ieee_finite prec emax (fst p) /\ Rabs (ieee_real (fst p)) <= Mx) /\
                   (ieee_finite prec emax (snd p) /\ Rabs (ieee_real (snd p)) <= My)) l ->
  let lv := map (fun p => (ieee_real (fst p), ieee_real (snd p))) l in
  let V := variance (xs lv) in
  let S := covariance lv / V in
  let Ev := 5 * ((14 * n + 308) * u * (Mx * Mx) + (3 * n + 13) * (10 * Mx) * eta + 3 * eta) in
  let Ec := 5 * ((14 * n + 308) * u * (Mx * My) + (3 * n + 13) * (4 * Mx + 6 * My) * eta + 3 * eta) in
  let Es := 2 * (Ec + Rabs S * Ev) / V in
  2 * Ev <= V -> Rabs S + Es <= big ->
  let F := ieee prec emax in
  let slope := creg_slope F (run (creg_push_fma F (ieee_fused prec emax)) (creg_clear F) (creg_init F) ops) in
  ieee_finite prec emax slope /\ Rabs (ieee_real slope - S) <= slack u eta S Es.
Proof.
  intros prec emax ops Mx My Hp l n u eta big NE Hs Hn Htx Hty HMx HMy HMM HMM' HF lv V S Ev Ec Es HV HB F slope.
  assert (Hp1 : (1 < prec)%Z) by lia. assert (Hp2 : (prec < emax)%Z) by lia.
  destruct (c123_ieee_covariance prec emax ops Mx My Hp NE Hs Hn Htx Hty HMx HMy HMM' HF) as (Fc & Ac). fold l n u eta Ec in Fc, Ac.
  change (covariance (map _ l)) with (covariance lv) in Ac.
  pose proof (c123_ieee_variance prec emax (map (op_map fst) ops) Mx Hp) as H70. rewrite since_clear_op_map in H70. fold l in H70.
  cbv zeta in H70. rewrite !map_length in H70. fold n u eta big in H70.
  destruct (H70 (map_ne _ _ NE) Hs Hn Htx HMx HMM (within_x _ _ _ _ _ HF)) as (Fv & Av). clear H70.
  rewrite ieee_xs in Av. change (xs (map ieee_pair l)) with (xs lv) in Av. fold V Ev in Av.
  assert (E0 : 0 < Ev).
  { unfold Ev. assert (0 < u) by apply bp. assert (0 < eta) by apply bp.
    assert (N0 : 1 <= n) by (apply inr_ge1; exact NE). assert (0 <= n * eta) by (apply Rmult_le_pos; lra).
    assert (0 <= Mx) by lra. assert (0 <= Mx * Mx) by (apply Rmult_le_pos; lra).
    assert (0 <= (14 * n + 308) * u * (Mx * Mx)) by (apply Rmult_le_pos; [apply Rmult_le_pos|]; lra).
    assert (0 <= (3 * n + 13) * (10 * Mx) * eta) by (apply Rmult_le_pos; [apply Rmult_le_pos|]; lra). lra. }
  destruct (div_err (approx_ieee prec emax Hp1 Hp2) _ _ _ _ (covariance lv) V Ec Ev (conj Fc eq_refl) (conj Fv eq_refl) Ac Av
    ltac:(lra) HV HB) as (NZ & r & (Fr & Er) & Hr).
  assert (Eq : slope = @ndiv F (ccov_variance F (run (ccov_push_fma F (ieee_fused prec emax)) (ccov_clear F) (ccov_init F) ops)) (cvar_variance F (run (cvar_push_fma F (ieee_fused prec emax)) (cvar_clear F) (cvar_init F) (map (op_map fst) ops)))).
  { apply (creg_slope_fma_run F (ieee_fused prec emax) ops). exact (nonzero_ieee prec emax Hp1 Hp2 _ _ (conj Fv eq_refl) NZ). }
  rewrite Eq. split; [exact Fr|]. unfold F. rewrite Er. exact Hr.
Qed.

(** @ex C123_ieee_slope_ex: four points over float; the error is at most 1/100. *)
Lemma c123_ieee_slope_ex :
  let l := since_clear [Push (f32 99, f32 99); Clear; Push (f32 0, f32 0); Push (f32 4, f32 8); Push (f32 8, f32 4); Push (f32 4, f32 4)] in
  let n := INR 4 in
  let u := bpow radix2 (-24) in
  let eta := bpow radix2 (2 - 128 - 24) in
  let big := bpow radix2 (128 - 1) in
  let lv := map (fun p => (ieee_real (fst p), ieee_real (snd p))) l in
  length l = 4%nat /\ 64 * n * u <= 1 /\ 32 * n * eta <= 8 /\ 16 * 8 + 60 * n * eta <= big /\ 64 * n * (8 * 8) + 16 * n * eta <= big /\
  Forall (fun p => (ieee_finite 24 128 (fst p) /\ Rabs (ieee_real (fst p)) <= 8) /\
                   (ieee_finite 24 128 (snd p) /\ Rabs (ieee_real (snd p)) <= 8)) l /\
  variance (xs lv) = 8 /\ covariance lv = 4 /\
  let S := 4 / 8 in
  let Ev := 5 * ((14 * n + 308) * u * (8 * 8) + (3 * n + 13) * (10 * 8) * eta + 3 * eta) in
  let Ec := 5 * ((14 * n + 308) * u * (8 * 8) + (3 * n + 13) * (4 * 8 + 6 * 8) * eta + 3 * eta) in
  let Es := 2 * (Ec + Rabs S * Ev) / 8 in
  2 * Ev <= 8 /\ Rabs S + Es <= big /\ slack u eta S Es <= / 100.
Proof. exact c110_slope_ex. Qed.

(** @prop C123_ieee_at: at(p) likewise, with slope and distance multiplied in a fused operation. *)
Lemma c123_ieee_at : forall (prec emax : Z) (ops : list (op (spec_float * spec_float))) (Mx My : R) (p : spec_float),
  (1 < prec < emax)%Z ->
  let l := since_clear ops in
  let n := INR (length l) in
  let u := bpow radix2 (- prec) in
  let eta := bpow radix2 (2 - emax - prec) in
  let big := bpow radix2 (emax - 1) in
  l <> [] -> (N.of_nat (length l) < szmod)%N -> ieee_finite prec emax p ->
  64 * n * u <= 1 -> 32 * n * eta <= Mx -> 32 * n * eta <= My ->
  16 * Mx + 60 * n * eta <= big -> 16 * My + 60 * n * eta <= big ->
  64 * n * (Mx * Mx) + 16 * n * eta <= big -> 64 * n * (Mx * My) + 16 * n * eta <= big ->
  Forall (fun p => (ieee_finite prec emax (fst p) /\ Rabs (ieee_real (fst p)) <= Mx) /\
                   (ieee_finite prec emax (snd p) /\ Rabs (ieee_real (snd p)) <= My)) l ->
  let lv := map (fun p => (ieee_real (fst p), ieee_real (snd p))) l in
  let V := variance (xs lv) in
  let S := covariance lv / V in
  let D := mean (xs lv) - ieee_real p in
  let Ev := 5 * ((14 * n + 308) * u * (Mx * Mx) + (3 * n + 13) * (10 * Mx) * eta + 3 * eta) in
  let Ec := 5 * ((14 * n + 308) * u * (Mx * My) + (3 * n + 13) * (4 * Mx + 6 * My) * eta + 3 * eta) in
  let Es := 2 * (Ec + Rabs S * Ev) / V in
  let Eb := slack u eta S Es in
  let Ex := (n + 25) * u * Mx + (3 * n + 11) * eta in
  let Ey := (n + 25) * u * My + (3 * n + 11) * eta in
  let Ed := slack u eta D Ex in
  let Em := Rabs S * Ed + Rabs D * Eb + Eb * Ed in
  let Ea := Ey + slack u eta (S * D) Em in
  2 * Ev <= V -> Rabs S + Es <= big -> Rabs D + Ex <= big ->
  Rabs (S * D) + Em <= big -> Rabs (mean (ys lv) - S * D) + Ea <= big ->
  let F := ieee prec emax in
  let at_p := creg_at_fma F (ieee_fused prec emax) (run (creg_push_fma F (ieee_fused prec emax)) (creg_clear F) (creg_init F) ops) p in
  ieee_finite prec emax at_p /\
  Rabs (ieee_real at_p - (mean (ys lv) + S * (ieee_real p - mean (xs lv)))) <= slack u eta (mean (ys lv) - S * D) Ea.
Proof.
  intros prec emax ops Mx My p Hp l n u eta big NE Hs Fp Hn Htx Hty HMx HMy HMM HMM' HF lv V S D Ev Ec Es Eb Ex Ey Ed Em Ea HV HB1 HB2 HB3 HB4 F at_p.
  assert (Hp1 : (1 < prec)%Z) by lia. assert (Hp2 : (prec < emax)%Z) by lia.
  destruct (c123_ieee_slope prec emax ops Mx My Hp NE Hs Hn Htx Hty HMx HMy HMM HMM' HF HV HB1) as (Fs & As). fold l n u eta lv V S Ev Ec Es Eb F in Fs, As.
  destruct (creg_fma_parts F (ieee_fused prec emax) ops) as (_ & Px & Py).
  assert (U0 : 0 < u) by apply bp. assert (N1 : 1 <= n) by (apply inr_ge1; exact NE).
  assert (NU : 0 <= n * u) by (apply Rmult_le_pos; lra). assert (Hn16 : 16 * n * u <= 1) by lra.
  pose proof (c110_mean prec emax (map (op_map fst) ops) Mx Hp) as H65. rewrite since_clear_op_map in H65. fold l in H65.
  cbv zeta in H65. rewrite !map_length in H65. fold n u eta big F in H65.
  destruct (H65 (map_ne _ _ NE) Hs Hn16 HMx (within_x _ _ _ _ _ HF)) as (Fx & Ax). clear H65.
  pose proof (c110_mean prec emax (map (op_map snd) ops) My Hp) as H65. rewrite since_clear_op_map in H65. fold l in H65.
  cbv zeta in H65. rewrite !map_length in H65. fold n u eta big F in H65.
  destruct (H65 (map_ne _ _ NE) Hs Hn16 HMy (within_y _ _ _ _ _ HF)) as (Fy & Ay). clear H65.
  rewrite ieee_xs in Ax. rewrite ieee_ys in Ay. change (map ieee_pair l) with lv in Ax, Ay. fold Ex in Ax. fold Ey in Ay.
  unfold at_p, creg_at_fma.
  set (sl := creg_slope F _) in *. rewrite Px, Py, !cvar_mean_fma_run.
  set (mx := cmean_mean F (run (cmean_push F) (cmean_clear F) (cmean_init F) (map (op_map fst) ops))) in *.
  set (my := cmean_mean F (run (cmean_push F) (cmean_clear F) (cmean_init F) (map (op_map snd) ops))) in *.
  pose proof (approx_deferred prec emax Hp1 Hp2) as AP. fold u eta big in AP.
  set (D0 := deferred prec emax) in *.
  destruct (sub_err AP (Val mx : D0) (Val p) _ _ (mean (xs lv)) (ieee_real p) Ex 0 (conj Fx eq_refl : dden prec emax (Val mx) (ieee_real mx)) (conj Fp eq_refl : dden prec emax (Val p) (ieee_real p)) Ax)
    as (d & Vd & Hd).
  { rewrite Rminus_eq_0, Rabs_R0. lra. }
  { fold D. rewrite Rplus_0_r. exact HB2. }
  rewrite Rplus_0_r in Hd. fold D Ed in Hd.
  destruct (mul_err AP (Val sl : D0) (@nsub D0 (Val mx) (Val p)) _ d S D Eb Ed (conj Fs eq_refl : dden prec emax (Val sl) (ieee_real sl)) Vd As Hd HB3) as (m & Vm & Hm).
  change (merr2 S D Eb Ed) with Em in Hm.
  destruct (sub_err AP (Val my : D0) (@nmul D0 (Val sl) (@nsub D0 (Val mx) (Val p))) _ m (mean (ys lv)) (S * D) Ey (slack u eta (S * D) Em)
    (conj Fy eq_refl : dden prec emax (Val my) (ieee_real my)) Vm Ay Hm HB4) as (r & (Fr & Er) & Hr).
  split; [exact Fr|].
  replace (mean (ys lv) + S * (ieee_real p - mean (xs lv))) with (mean (ys lv) - S * D) by (unfold D; ring).
  rewrite <- Er in Hr. exact Hr.
Qed.

(** @ex C123_ieee_at_ex: the same floats at position 12, where the line has the value 8. *)
Lemma c123_ieee_at_ex :
  let l := since_clear [Push (f32 0, f32 0); Push (f32 4, f32 8); Push (f32 8, f32 4); Push (f32 4, f32 4)] in
  let n := INR 4 in
  let u := bpow radix2 (-24) in
  let eta := bpow radix2 (2 - 128 - 24) in
  let big := bpow radix2 (128 - 1) in
  let lv := map (fun p => (ieee_real (fst p), ieee_real (snd p))) l in
  length l = 4%nat /\ ieee_finite 24 128 (f32 12) /\ ieee_real (f32 12) = 12 /\ Forall (fun p => (ieee_finite 24 128 (fst p) /\ Rabs (ieee_real (fst p)) <= 8) /\
                   (ieee_finite 24 128 (snd p) /\ Rabs (ieee_real (snd p)) <= 8)) l /\
  variance (xs lv) = 8 /\ covariance lv = 4 /\ mean (xs lv) = 4 /\ mean (ys lv) = 4 /\
  let S := 4 / 8 in
  let D := 4 - 12 in
  let Ev := 5 * ((14 * n + 308) * u * (8 * 8) + (3 * n + 13) * (10 * 8) * eta + 3 * eta) in
  let Ec := 5 * ((14 * n + 308) * u * (8 * 8) + (3 * n + 13) * (4 * 8 + 6 * 8) * eta + 3 * eta) in
  let Es := 2 * (Ec + Rabs S * Ev) / 8 in
  let Eb := slack u eta S Es in
  let Ex := (n + 25) * u * 8 + (3 * n + 11) * eta in
  let Ed := slack u eta D Ex in
  let Em := Rabs S * Ed + Rabs D * Eb + Eb * Ed in
  let Ea := Ex + slack u eta (S * D) Em in
  2 * Ev <= 8 /\ Rabs S + Es <= big /\ Rabs D + Ex <= big /\
  Rabs (S * D) + Em <= big /\ Rabs (4 - S * D) + Ea <= big /\
  slack u eta (4 - S * D) Ea <= / 10.
Proof. exact c110_at_ex. Qed.

Lemma ccorr_fma_fold (F : num) (U : fused F) (l : list (F * F)) s :
  fold_left (ccorr_push_fma F U) l s =
  CCorr F (fold_left (ccov_push_fma F U) l (cr_co F s)) (fold_left (cvar_push_fma F U) (map fst l) (cr_x F s))
    (fold_left (cvar_push_fma F U) (map snd l) (cr_y F s)).
Proof. revert s. induction l as [|p l IH]; intros s; [destruct s; reflexivity|]. cbn [fold_left map]. rewrite IH. reflexivity. Qed.

Lemma ccorr_value_fma_run (F : num) (U : fused F) (ops : list (op (F * F))) :
  let c := ccov_variance F (run (ccov_push_fma F U) (ccov_clear F) (ccov_init F) ops) in
  let vx := cvar_variance F (run (cvar_push_fma F U) (cvar_clear F) (cvar_init F) (map (op_map fst) ops)) in
  let vy := cvar_variance F (run (cvar_push_fma F U) (cvar_clear F) (cvar_init F) (map (op_map snd) ops)) in
  nlt (nmul vx vy) neps = false -> ccorr_value F (run (ccorr_push_fma F U) (ccorr_clear F) (ccorr_init F) ops) = ndiv c (nsqrt (nmul vx vy)).
Proof.
  cbv zeta. rewrite (run_since_clear (ccorr_push_fma F U) (ccorr_clear F) (ccorr_init F)) by reflexivity.
  rewrite (run_since_clear (ccov_push_fma F U) (ccov_clear F) (ccov_init F)) by reflexivity.
  rewrite !(run_since_clear (cvar_push_fma F U) (cvar_clear F) (cvar_init F)) by reflexivity.
  rewrite ccorr_fma_fold, !since_clear_op_map. intros H. unfold ccorr_value. cbn [cr_co cr_x cr_y ccorr_init]. rewrite H. reflexivity.
Qed.

(** @prop C123_ieee_correlation: with fused multiply-adds in an IEEE format, value() of the
    correlation filter keeps the bound of C110. *)
Lemma c123_ieee_correlation : forall (prec emax : Z) (ops : list (op (spec_float * spec_float))) (Mx My : R),
  (1 < prec < emax)%Z ->
  let l := since_clear ops in
  let n := INR (length l) in
  let u := bpow radix2 (- prec) in
  let eta := bpow radix2 (2 - emax - prec) in
  let big := bpow radix2 (emax - 1) in
  l <> [] -> (N.of_nat (length l) < szmod)%N ->
  64 * n * u <= 1 -> 32 * n * eta <= Mx -> 32 * n * eta <= My ->
  16 * Mx + 60 * n * eta <= big -> 16 * My + 60 * n * eta <= big ->
  64 * n * (Mx * Mx) + 16 * n * eta <= big -> 64 * n * (My * My) + 16 * n * eta <= big -> 64 * n * (Mx * My) + 16 * n * eta <= big ->
  Forall (fun p => (ieee_finite prec emax (fst p) /\ Rabs (ieee_real (fst p)) <= Mx) /\
                   (ieee_finite prec emax (snd p) /\ Rabs (ieee_real (snd p)) <= My)) l ->
  let lv := map (fun p => (ieee_real (fst p), ieee_real (snd p))) l in
  let X := variance (xs lv) in
  let Y := variance (ys lv) in
  let r := pearson lv in
  let Ex := 5 * ((14 * n + 308) * u * (Mx * Mx) + (3 * n + 13) * (10 * Mx) * eta + 3 * eta) in
  let Ey := 5 * ((14 * n + 308) * u * (My * My) + (3 * n + 13) * (10 * My) * eta + 3 * eta) in
  let Ec := 5 * ((14 * n + 308) * u * (Mx * My) + (3 * n + 13) * (4 * Mx + 6 * My) * eta + 3 * eta) in
  let Ep := slack u eta (X * Y) (X * Ey + Y * Ex + Ex * Ey) in
  let Ed := slack u eta (sqrt (X * Y)) (Ep / sqrt (X * Y)) in
  let Er := 2 * (Ec + Rabs r * Ed) / sqrt (X * Y) in
  X * Y + (X * Ey + Y * Ex + Ex * Ey) <= big ->
  bpow radix2 (1 - prec) + Ep <= X * Y -> 2 * Ed <= sqrt (X * Y) -> Er <= 1 ->
  let F := ieee prec emax in
  let value := ccorr_value F (run (ccorr_push_fma F (ieee_fused prec emax)) (ccorr_clear F) (ccorr_init F) ops) in
  ieee_finite prec emax value /\ Rabs (ieee_real value - r) <= slack u eta r Er /\
  Rabs (ieee_real value) <= 1 + (Er + u * (1 + Er) + eta).
Proof.
  intros prec emax ops Mx My Hp l n u eta big NE Hs Hn Htx Hty HMx HMy HXX HYY HMM' HF lv X Y r Ex Ey Ec Ep Ed Er HB1 HE HD HR F value.
  assert (Hp1 : (1 < prec)%Z) by lia. assert (Hp2 : (prec < emax)%Z) by lia.
  assert (AP := approx_ieee prec emax Hp1 Hp2).
  destruct (c123_ieee_covariance prec emax ops Mx My Hp NE Hs Hn Htx Hty HMx HMy HMM' HF) as (Fc & Ac). fold l n u eta Ec in Fc, Ac.
  change (covariance (map _ l)) with (covariance lv) in Ac.
  pose proof (c123_ieee_variance prec emax (map (op_map fst) ops) Mx Hp) as H70. rewrite since_clear_op_map in H70. fold l in H70.
  cbv zeta in H70. rewrite !map_length in H70. fold n u eta big in H70.
  destruct (H70 (map_ne _ _ NE) Hs Hn Htx HMx HXX (within_x _ _ _ _ _ HF)) as (Fx & Ax). clear H70.
  pose proof (c123_ieee_variance prec emax (map (op_map snd) ops) My Hp) as H70. rewrite since_clear_op_map in H70. fold l in H70.
  cbv zeta in H70. rewrite !map_length in H70. fold n u eta big in H70.
  destruct (H70 (map_ne _ _ NE) Hs Hn Hty HMy HYY (within_y _ _ _ _ _ HF)) as (Fy & Ay). clear H70.
  rewrite ieee_xs in Ax. rewrite ieee_ys in Ay. change (map ieee_pair l) with lv in Ax, Ay. fold X Ex in Ax. fold Y Ey in Ay.
  pose proof (ccorr_value_fma_run F (ieee_fused prec emax) ops) as CV. cbv zeta in CV.
  set (vx := cvar_variance F (run (cvar_push_fma F (ieee_fused prec emax)) (cvar_clear F) (cvar_init F) (map (op_map fst) ops))) in *.
  set (vy := cvar_variance F (run (cvar_push_fma F (ieee_fused prec emax)) (cvar_clear F) (cvar_init F) (map (op_map snd) ops))) in *.
  set (vc := ccov_variance F _) in *.
  assert (X0 : 0 <= X) by apply variance_nonneg. assert (Y0 : 0 <= Y) by apply variance_nonneg.
  destruct (mul_err AP vx vy _ _ X Y Ex Ey (conj Fx eq_refl) (conj Fy eq_refl) Ax Ay) as (p & Vp & Hpp).
  { unfold merr2. rewrite Rabs_mult, !(Rabs_pos_eq X), !(Rabs_pos_eq Y) by assumption. exact HB1. }
  unfold merr2 in Hpp. rewrite !(Rabs_pos_eq X), !(Rabs_pos_eq Y) in Hpp by assumption. fold u eta Ep in Hpp.
  assert (P52 : 0 < bpow radix2 (1 - prec)) by apply bp.
  assert (EP0 : 0 <= Ep) by (pose proof (Rabs_pos (p - X * Y)); lra).
  assert (Pp : bpow radix2 (1 - prec) <= p) by (apply Rabs_le_inv in Hpp; lra).
  pose proof (ap_lt _ _ _ _ _ _ AP _ _ _ _ Vp (eps_ieee prec emax Hp)) as LT. rewrite Rlt_bool_false in LT by exact Pp.
  specialize (CV LT).
  destruct (sqrt_err AP (sqrt_ieee prec emax Hp1 Hp2) _ p (X * Y) Ep Vp ltac:(lra) ltac:(lra) Hpp) as (d & Vd & Hd).
  fold u eta Ed in Hd.
  assert (SP : 0 < sqrt (X * Y)) by (apply sqrt_lt_R0; lra).
  assert (Er' : covariance lv / sqrt (X * Y) = r).
  { unfold r, pearson. fold X Y. rewrite <- sqrt_mult by assumption. reflexivity. }
  assert (R1 : Rabs r <= 1) by (apply Rabs_le; apply pearson_bounds).
  destruct (div_err AP vc _ _ d (covariance lv) (sqrt (X * Y)) Ec Ed (conj Fc eq_refl) Vd Ac Hd SP HD)
    as (NZ & q & (Fq & Eq) & Hq).
  { rewrite Er'. fold Er. assert (bpow radix2 1 <= bpow radix2 (emax - 1)) by (apply bp_le; lia). change (bpow radix2 1) with 2 in H. lra. }
  rewrite Er' in Hq. fold u eta Er in Hq. rewrite <- Eq in Hq. assert (VE : value = ndiv vc (nsqrt (nmul vx vy) : F)) by exact CV. rewrite VE.
  split; [exact Fq|]. split; [exact Hq|].
  assert (U0 : 0 < u) by apply bp.
  assert (Er0 : slack u eta r Er <= Er + u * (1 + Er) + eta).
  { unfold slack. assert (u * (Rabs r + Er) <= u * (1 + Er)) by (apply Rmult_le_compat_l; lra). lra. }
  pose proof (close_abs _ _ _ Hq) as CA. eapply Rle_trans; [exact CA|]. lra.
Qed.

(** @ex C123_ieee_correlation_ex: the points (0,0), (4,8), (8,4), (4,4) over float, correlation 1/2. *)
Lemma c123_ieee_correlation_ex :
  let l := since_clear [Push (f32 0, f32 0); Push (f32 4, f32 8); Push (f32 8, f32 4); Push (f32 4, f32 4)] in
  let n := INR 4 in
  let u := bpow radix2 (-24) in
  let eta := bpow radix2 (2 - 128 - 24) in
  let big := bpow radix2 (128 - 1) in
  let lv := map (fun p => (ieee_real (fst p), ieee_real (snd p))) l in
  length l = 4%nat /\ Forall (fun p => (ieee_finite 24 128 (fst p) /\ Rabs (ieee_real (fst p)) <= 8) /\
                   (ieee_finite 24 128 (snd p) /\ Rabs (ieee_real (snd p)) <= 8)) l /\
  variance (xs lv) = 8 /\ variance (ys lv) = 8 /\ pearson lv = 1 / 2 /\ sqrt (8 * 8) = 8 /\
  (64 * n * u <= 1 /\ 32 * n * eta <= 8 /\ 16 * 8 + 60 * n * eta <= big /\ 64 * n * (8 * 8) + 16 * n * eta <= big) /\
  let r := 1 / 2 in
  let Ex := 5 * ((14 * n + 308) * u * (8 * 8) + (3 * n + 13) * (10 * 8) * eta + 3 * eta) in
  let Ec := 5 * ((14 * n + 308) * u * (8 * 8) + (3 * n + 13) * (4 * 8 + 6 * 8) * eta + 3 * eta) in
  let Ep := slack u eta (8 * 8) (8 * Ex + 8 * Ex + Ex * Ex) in
  let Ed := slack u eta 8 (Ep / 8) in
  let Er := 2 * (Ec + Rabs r * Ed) / 8 in
  8 * 8 + (8 * Ex + 8 * Ex + Ex * Ex) <= big /\
  bpow radix2 (1 - 24) + Ep <= 8 * 8 /\ 2 * Ed <= 8 /\ Er <= / 20.
Proof. exact c110_correlation_ex. Qed.
