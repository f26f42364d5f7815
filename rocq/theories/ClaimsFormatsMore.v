(** * Claim C110, continued: trend, impulse response, covariance and regression *)

From Coq Require Import Reals ZArith NArith List Bool.
From Coq Require Import Floats.SpecFloat.
From Flocq Require Import Core.
From Verif Require Import Arith History SpecStats SpecImpulse SpecError Cumulative Window Impulse ImpulseRuns ExactRuns Binary64 Ieee.
Import ListNotations.
Local Open Scope R_scope.
(** A float of an integer. *)
Local Notation f32 z := (ieee_of_Z 24 128 z).
(** The numbers of a pair. *)
Definition ieee_pair (p : spec_float * spec_float) : R * R := (ieee_real (fst p), ieee_real (snd p)).
(** A pair of finite numbers of magnitude at most [Mx] and [My]. *)
Definition ieee_within (prec emax : Z) (Mx My : R) (p : spec_float * spec_float) : Prop :=
  (ieee_finite prec emax (fst p) /\ Rabs (ieee_real (fst p)) <= Mx) /\
  (ieee_finite prec emax (snd p) /\ Rabs (ieee_real (snd p)) <= My).
(* @end-header *)
From Coq Require Import Lia Lra Psatz.
From Flocq Require Import IEEE754.BinarySingleNaN.
From Verif Require Import HistoryLemmas StatsLemmas Approx ApproxInstances CumulativeProofs CumulativeStats WindowProofs ImpulseProofs
  AccuracyProofs AccuracyVariance AccuracyWindow AccuracyFilters AccuracyTrend AccuracyRegression AccuracyComoment IeeeProofs
  ClaimsAccuracy ClaimsTrend ClaimsRegression ClaimsFormats ClaimsHigher.

Lemma creg_parts_any (F : num) (ops : list (op (F * F))) :
  let s := run (creg_push F) (creg_clear F) (creg_init F) ops in
  cg_co F s = run (ccov_push F) (ccov_clear F) (ccov_init F) ops /\
  cg_x F s = run (cvar_push F) (cvar_clear F) (cvar_init F) (map (op_map fst) ops) /\
  cg_y F s = run (cvar_push F) (cvar_clear F) (cvar_init F) (map (op_map snd) ops).
Proof.
  cbv zeta. rewrite (run_since_clear (creg_push F) (creg_clear F) (creg_init F)) by reflexivity.
  rewrite (run_since_clear (ccov_push F) (ccov_clear F) (ccov_init F)) by reflexivity.
  rewrite !(run_since_clear (cvar_push F) (cvar_clear F) (cvar_init F)) by reflexivity.
  rewrite creg_fold, !since_clear_op_map. cbn [cg_co cg_x cg_y creg_init]. split; [|split]; reflexivity.
Qed.

Lemma cvar_mean_run_any (F : num) (ops : list (op F)) :
  cvar_mean F (run (cvar_push F) (cvar_clear F) (cvar_init F) ops) =
  cmean_mean F (run (cmean_push F) (cmean_clear F) (cmean_init F) ops).
Proof.
  rewrite (run_since_clear (cvar_push F) (cvar_clear F) (cvar_init F)) by reflexivity.
  rewrite (run_since_clear (cmean_push F) (cmean_clear F) (cmean_init F)) by reflexivity.
  unfold cvar_mean. rewrite cvar_fold_super. reflexivity.
Qed.

Lemma wcov_run_any (F : num) (W : nat) (ops : list (op (F * F))) :
  run (wcov_push F W) (wcov_clear F) (wcov_init F) ops = fold_left (wcov_push F W) (since_clear ops) (wcov_init F).
Proof. apply run_since_clear. reflexivity. Qed.

(** @prop C110_trend: the trend, within 13 times the bound for the mean (C99). *)
Lemma c110_trend : forall (prec emax : Z) (ops : list (op spec_float)) (M : R),
  (1 < prec < emax)%Z ->
  let l := since_clear ops in
  let n := INR (length l) in
  let u := bpow radix2 (- prec) in
  let eta := bpow radix2 (2 - emax - prec) in
  let big := bpow radix2 (emax - 1) in
  l <> [] -> (N.of_nat (length l) < szmod)%N ->
  16 * n * u <= 1 -> 48 * M + 284 * n * eta <= big ->
  Forall (fun x => ieee_finite prec emax x /\ Rabs (ieee_real x) <= M) l ->
  let F := ieee prec emax in
  let v := ctrend_value F (run (ctrend_push F) (ctrend_clear F) (ctrend_init F) ops) in
  ieee_finite prec emax v /\
  Rabs (ieee_real v - (3 * mean (map ieee_real l) - 2 * mean (running_means (map ieee_real l)))) <=
    13 * ((n + 25) * u * M + (3 * n + 11) * eta).
Proof.
  intros prec emax ops M Hp l n u eta big NE Hs Hn HM HF F v.
  destruct (ieee_magn prec emax M l HF) as [Hfin Hmag]. pose proof (ieee_pos prec emax M l NE HF) as M0. assert (Hp1 : (1 < prec)%Z) by lia. assert (Hp2 : (prec < emax)%Z) by lia.
  assert (Two : fdenotes prec emax (nofz 2%Z : ieee prec emax) 2).
  { apply (of_Z_small prec emax Hp1 Hp2 2). assert ((2 ^ 1 <= 2 ^ prec)%Z) by (apply Z.pow_le_mono_r; lia). cbn. lia. }
  destruct (ctrend_accuracy (approx_ieee prec emax Hp1 Hp2) Two M M0 l (map ieee_real l)) as (r & (Fr & Er) & H); try assumption.
  - apply fdenotes_list; exact Hfin.
  - apply count_le; [lia|]. change (n * u <= 1). pose proof (bp (- prec)) as U0. fold u in U0. pose proof (pos_INR (length l)) as N0. fold n in N0.
    assert (N2 : 0 <= n * u) by (apply Rmult_le_pos; lra). clearbody n u. lra.
  - assert (Em : v = ctrend_value F (fold_left (ctrend_push F) l (ctrend_init F))).
    { unfold v. rewrite ctrend_run. reflexivity. }
    rewrite Em. split; [exact Fr|]. unfold F. rewrite Er. exact H.
Qed.

(** @ex C110_trend_ex: four floats. *)
Lemma c110_trend_ex :
  let l := since_clear [Push (f32 9); Clear; Push (f32 1000); Push (f32 (-7)); Push (f32 3); Push (f32 5)] in
  l = [f32 1000; f32 (-7); f32 3; f32 5] /\ 16 * 4 * bpow radix2 (- 24) <= 1 /\
  48 * 1000 + 284 * 4 * bpow radix2 (2 - 128 - 24) <= bpow radix2 (128 - 1) /\
  Forall (fun x => ieee_finite 24 128 x /\ Rabs (ieee_real x) <= 1000) l.
Proof.
  cbv zeta. pose proof float_tiny. pose proof float_big. split; [reflexivity|]. split; [cbn; lra|]. split; [lra|].
  change (since_clear _) with [f32 1000; f32 (-7); f32 3; f32 5]. fmags.
Qed.

(** @prop C110_iir: the infinite impulse response filter whose feedback coefficients
    sum to less than the scale in magnitude, with the bound of C69. *)
Lemma c110_iir : forall (prec emax : Z) (b a : list spec_float) (scale : spec_float) (ops : list (op spec_float)) (M : R) (y : list R),
  (1 < prec < emax)%Z ->
  let l := since_clear ops in
  let bv := map ieee_real b in
  let av := map ieee_real a in
  let s := Rabs (ieee_real scale) in
  let u := bpow radix2 (- prec) in
  let eta := bpow radix2 (2 - emax - prec) in
  let big := bpow radix2 (emax - 1) in
  b <> [] -> a <> [] -> l <> [] ->
  Forall (ieee_finite prec emax) b -> Forall (ieee_finite prec emax) a -> ieee_finite prec emax scale ->
  Forall (fun x => ieee_finite prec emax x /\ Rabs (ieee_real x) <= M) l ->
  abs_sum av < s ->
  difference_equation bv av (ieee_real scale) (map ieee_real l) y ->
  let r := INR (length b + length a) in
  let rho := abs_sum av / s in
  let Y := abs_sum bv * M / (s - abs_sum av) in
  let E := 2 * ((8 * r + 19) * u * Y + (24 * r + 2) * eta / s + eta) / (1 - rho) in
  2 * (8 * r + 19) * u <= 1 - rho ->
  4 * (s * (Y + E)) + (12 * r + 2) * eta <= big ->
  4 * (Y + E) + (12 * r + 2) * eta / s <= big ->
  let F := ieee prec emax in
  let v := iir_value F (iir_run F b a scale ops) in
  ieee_finite prec emax v /\ Rabs (ieee_real v - last y 0) <= E.
Proof.
  intros prec emax b a scale ops M y Hp l bv av s u eta big NB NA NE Fb Fa Fs HF HA HD r rho Y E Hu HB1 HB2 F v.
  destruct (ieee_magn prec emax M l HF) as [Hfin HM]. pose proof (ieee_pos prec emax M l NE HF) as M0. assert (Hp1 : (1 < prec)%Z) by lia. assert (Hp2 : (prec < emax)%Z) by lia.
  assert (S0 : 0 < s).
  { pose proof (abs_sum_pos av). lra. }
  assert (R1 : 0 < 1 - rho).
  { unfold rho. apply Rmult_lt_reg_r with s; [exact S0|]. field_simplify; lra. }
  assert (Y0 : 0 <= Y).
  { unfold Y. apply Rmult_le_pos; [|apply Rlt_le, Rinv_0_lt_compat; lra]. apply Rmult_le_pos; [apply abs_sum_pos|exact M0]. }
  destruct (iir_acc (approx_ieee prec emax Hp1 Hp2) b a scale bv av (ieee_real scale) ops (map ieee_real l) y M Y E)
    as (w & (Fw & Ew) & H); try assumption.
  - apply fdenotes_list; exact Fb.
  - apply fdenotes_list; exact Fa.
  - split; [exact Fs|reflexivity].
  - apply fdenotes_list; exact Hfin.
  - intros i Hi. rewrite Forall_forall in HM. apply HM, nth_In, Hi.
  - unfold Y. fold s. field. lra.
  - fold s. unfold E, iir_local. fold u eta. change (abs_sum av / s) with rho.
    change (INR (length b + length a)) with r. field. split; lra.
  - fold s. apply Rle_trans with (2 := HB2). apply Req_le. change (INR (length b + length a)) with r.
    fold eta. field. lra.
  - unfold l in NE. destruct (since_clear ops); [congruence|discriminate].
  - unfold v. split; [exact Fw|]. unfold F. rewrite Ew. exact H.
Qed.

Ltac freal := match goal with |- ieee_real ?x = _ => let y := eval vm_compute in x in change x with y end;
  unfold ieee_real, SF2R, F2R; cbn; lra.

(** @ex C110_iir_ex: feedback one half in float; the error bound is below 10^-3. *)
Lemma c110_iir_ex :
  let half := @ndiv (ieee 24 128) (f32 1) (f32 2) in
  let ops := [Push (f32 99); Clear; Push (f32 1); Push (f32 (-10)); Push (f32 3)] in
  let y := [1; -21 / 2; 33 / 4] in
  let u := bpow radix2 (-24) in
  let eta := bpow radix2 (2 - 128 - 24) in
  ieee_finite 24 128 half /\ ieee_finite 24 128 (f32 1) /\
  Forall (fun x => ieee_finite 24 128 x /\ Rabs (ieee_real x) <= 10) (since_clear ops) /\
  abs_sum (map ieee_real [half]) = / 2 /\ abs_sum (map ieee_real [f32 1]) = 1 /\ Rabs (ieee_real (f32 1)) = 1 /\
  difference_equation (map ieee_real [f32 1]) (map ieee_real [half]) (ieee_real (f32 1))
    (map ieee_real (since_clear ops)) y /\
  let r := INR 2 in
  let Y := 1 * 10 / (1 - / 2) in
  let E := 2 * ((8 * r + 19) * u * Y + (24 * r + 2) * eta / 1 + eta) / (1 - / 2 / 1) in
  2 * (8 * r + 19) * u <= 1 - / 2 / 1 /\
  4 * (1 * (Y + E)) + (12 * r + 2) * eta <= bpow radix2 (128 - 1) /\ E < 1 / 1000.
Proof.
  cbv zeta. pose proof float_tiny as T. pose proof float_big as B.
  assert (H1 : ieee_real (f32 1) = 1) by freal.
  assert (H2 : ieee_real (@ndiv (ieee 24 128) (f32 1) (f32 2)) = / 2) by freal.
  change (since_clear _) with [f32 1; f32 (-10); f32 3].
  assert (H3 : map ieee_real [f32 1; f32 (-10); f32 3] = [1; -10; 3]).
  { assert (A : ieee_real (f32 (-10)) = -10) by freal. assert (C : ieee_real (f32 3) = 3) by freal. cbn [map]. rewrite H1, A, C. reflexivity. }
  split; [split; vm_compute; reflexivity|]. split; [split; vm_compute; reflexivity|]. split; [fmags|].
  cbn [map]. rewrite H1, H2. cbn [map] in H3. rewrite H1 in H3. rewrite H3.
  split; [unfold abs_sum; cbn; rewrite Rabs_pos_eq; lra|]. split; [unfold abs_sum; cbn; rewrite Rabs_R1; lra|]. split; [apply Rabs_R1|].
  split.
  { split; [reflexivity|]. intros n Hn. cbn in Hn. destruct n as [|[|[|n]]]; [| | |lia]; cbn; lra. }
  cbn [INR]. change (bpow radix2 (-24)) with (/ 16777216). revert T B. generalize (bpow radix2 (2 - 128 - 24)) (bpow radix2 (128 - 1)). intros t B' T B. cbn. lra.
Qed.

(** @prop C110_window_covariance: the window covariance over [k] pairs, after [n]
    pushes within [n (64 u Mx My + 10 (Mx + My) eta + 26 eta)] (C96). *)
Lemma c110_window_covariance : forall (prec emax : Z) (W : nat) (ops : list (op (spec_float * spec_float))) (Mx My : R),
  (1 < prec < emax)%Z ->
  let l := since_clear ops in
  let n := INR (length l) in
  let k := INR (length (lastn W l)) in
  let u := bpow radix2 (- prec) in
  let eta := bpow radix2 (2 - emax - prec) in
  let big := bpow radix2 (emax - 1) in
  (0 < W)%nat -> (Z.of_nat W <= 2 ^ prec)%Z -> l <> [] ->
  64 * n * u <= 1 -> 64 * n * eta <= Mx -> 64 * n * eta <= My ->
  16 * k * Mx <= big -> 16 * k * My <= big -> 16 * (k * k) * (Mx * My) <= big -> 16 * k * (Mx * My) + 32 * n * eta <= big ->
  Forall (ieee_within prec emax Mx My) l ->
  let F := ieee prec emax in
  let v := wcov_variance F (run (wcov_push F W) (wcov_clear F) (wcov_init F) ops) in
  ieee_finite prec emax v /\
  Rabs (ieee_real v - covariance (lastn W (map ieee_pair l))) <= n * (64 * u * (Mx * My) + 10 * (Mx + My) * eta + 26 * eta).
Proof.
  intros prec emax W ops Mx My Hp l n k u eta big HW HK NE Hn Htx Hty B1 B2 B3 B4 HF F v.
  assert (Hp1 : (1 < prec)%Z) by lia. assert (Hp2 : (prec < emax)%Z) by lia.
  assert (N1 : 1 <= n) by (apply inr_ge1; exact NE).
  assert (M0 : 0 <= Mx /\ 0 <= My).
  { clear - NE HF. destruct HF as [|p l' ((A1 & A2) & C1 & C2) _]; [contradiction|].
    pose proof (Rabs_pos (ieee_real (fst p))). pose proof (Rabs_pos (ieee_real (snd p))). lra. }
  assert (K1 : 1 <= k) by (apply inr_ge1; unfold lastn; intro E; apply (f_equal (@length _)) in E; rewrite skipn_length in E; destruct l; [congruence|cbn [length] in E; lia]).
  assert (Co : @cosmall big u eta Mx My n k) by (unfold cosmall; repeat split; try assumption; apply M0).
  destruct (wcov_stat_accuracy (approx_ieee prec emax Hp1 Hp2) Mx My n k W HW Co l (map ieee_pair l)) as ((r & (Fr & Er) & H) & _); try assumption.
  - clear - HF. induction HF as [|p l' ((A1 & A2) & C1 & C2) _ IH]; cbn; constructor; [|assumption]. split; split; cbn; auto.
  - clear - HF. induction HF as [|p l' ((A1 & A2) & C1 & C2) _ IH]; cbn; constructor; [cbn; auto|assumption].
  - apply Rle_refl.
  - reflexivity.
  - lia.
  - assert (Em : v = wcov_variance F (fold_left (wcov_push F W) l (wcov_init F))).
    { unfold v. rewrite wcov_run_any. reflexivity. }
    rewrite Em. split; [exact Fr|]. unfold F. rewrite Er. rewrite <- Rmult_assoc in H. exact H.
Qed.

(** @ex C110_window_covariance_ex: a window of two pairs of floats. *)
Lemma c110_window_covariance_ex :
  let l := since_clear [Push (f32 9, f32 9); Clear; Push (f32 1000, f32 (-7)); Push (f32 2, f32 8); Push (f32 (-5), f32 1)] in
  lastn 2 l = [(f32 2, f32 8); (f32 (-5), f32 1)] /\ length l = 3%nat /\ 64 * 3 * bpow radix2 (- 24) <= 1 /\
  64 * 3 * bpow radix2 (2 - 128 - 24) <= 8 /\ 16 * 2 * 1000 <= bpow radix2 (128 - 1) /\ 16 * (2 * 2) * (1000 * 8) <= bpow radix2 (128 - 1) /\
  16 * 2 * (1000 * 8) + 32 * 3 * bpow radix2 (2 - 128 - 24) <= bpow radix2 (128 - 1) /\
  Forall (ieee_within 24 128 1000 8) l.
Proof.
  cbv zeta. pose proof float_tiny. pose proof float_big. split; [reflexivity|]. split; [reflexivity|]. split; [cbn; lra|].
  split; [lra|]. split; [lra|]. split; [lra|]. split; [lra|].
  change (since_clear _) with [(f32 1000, f32 (-7)); (f32 2, f32 8); (f32 (-5), f32 1)]. repeat (apply Forall_cons; [split; fmag|]). apply Forall_nil.
Qed.

Lemma ieee_xs l : map ieee_real (map fst l) = xs (map ieee_pair l).
Proof. unfold xs. rewrite !map_map. reflexivity. Qed.
Lemma ieee_ys l : map ieee_real (map snd l) = ys (map ieee_pair l).
Proof. unfold ys. rewrite !map_map. reflexivity. Qed.
Lemma within_x prec emax Mx My l : Forall (ieee_within prec emax Mx My) l -> Forall (fun x => ieee_finite prec emax x /\ Rabs (ieee_real x) <= Mx) (map fst l).
Proof. intros H. apply Forall_map. eapply Forall_impl; [|exact H]. intros p Hp. apply Hp. Qed.
Lemma within_y prec emax Mx My l : Forall (ieee_within prec emax Mx My) l -> Forall (fun x => ieee_finite prec emax x /\ Rabs (ieee_real x) <= My) (map snd l).
Proof. intros H. apply Forall_map. eapply Forall_impl; [|exact H]. intros p Hp. apply Hp. Qed.

Lemma nonzero_ieee prec emax (Hp1 : (1 < prec)%Z) (Hp2 : (prec < emax)%Z) (x : ieee prec emax) r : fdenotes prec emax x r -> r <> 0 -> neq x (n0 : ieee prec emax) = false.
Proof.
  intros [Fx Ex] H. change (SFeqb x (ieee_of_Z prec emax 0) = false).
  destruct (of_Z_small prec emax Hp1 Hp2 0) as [F0 E0]; [cbn; lia|]. rewrite (eqb_real prec emax) by assumption. rewrite Ex, E0. apply Req_bool_false. exact H.
Qed.

Lemma creg_slope_run (F : num) (ops : list (op (F * F))) :
  let c := ccov_variance F (run (ccov_push F) (ccov_clear F) (ccov_init F) ops) in
  let v := cvar_variance F (run (cvar_push F) (cvar_clear F) (cvar_init F) (map (op_map fst) ops)) in
  neq v n0 = false -> creg_slope F (run (creg_push F) (creg_clear F) (creg_init F) ops) = ndiv c v.
Proof. destruct (creg_parts_any F ops) as (Pc & Px & _). cbv zeta. intros H. unfold creg_slope. rewrite Pc, Px, H. reflexivity. Qed.

(** @prop C110_slope: slope() of the cumulative regression filter, with the bound of
    C92, if the variance of x is at least twice the bound for its error. *)
Lemma c110_slope : forall (prec emax : Z) (ops : list (op (spec_float * spec_float))) (Mx My : R),
  (1 < prec < emax)%Z ->
  let l := since_clear ops in
  let n := INR (length l) in
  let u := bpow radix2 (- prec) in
  let eta := bpow radix2 (2 - emax - prec) in
  let big := bpow radix2 (emax - 1) in
  l <> [] -> (N.of_nat (length l) < szmod)%N ->
  64 * n * u <= 1 -> 32 * n * eta <= Mx -> 32 * n * eta <= My ->
  16 * Mx + 60 * n * eta <= big -> 16 * My + 60 * n * eta <= big ->
  64 * n * (Mx * Mx) + 16 * n * eta <= big -> 64 * n * (Mx * My) + 16 * n * eta <= big ->
  Forall (ieee_within prec emax Mx My) l ->
  let lv := map ieee_pair l in
  let V := variance (xs lv) in
  let S := covariance lv / V in
  let Ev := 5 * ((14 * n + 308) * u * (Mx * Mx) + (3 * n + 13) * (10 * Mx) * eta + 3 * eta) in
  let Ec := 5 * ((14 * n + 308) * u * (Mx * My) + (3 * n + 13) * (4 * Mx + 6 * My) * eta + 3 * eta) in
  let Es := 2 * (Ec + Rabs S * Ev) / V in
  2 * Ev <= V -> Rabs S + Es <= big ->
  let F := ieee prec emax in
  let slope := creg_slope F (run (creg_push F) (creg_clear F) (creg_init F) ops) in
  ieee_finite prec emax slope /\ Rabs (ieee_real slope - S) <= slack u eta S Es.
Proof.
  intros prec emax ops Mx My Hp l n u eta big NE Hs Hn Htx Hty HMx HMy HMM HMM' HF lv V S Ev Ec Es HV HB F slope.
  assert (Hp1 : (1 < prec)%Z) by lia. assert (Hp2 : (prec < emax)%Z) by lia.
  destruct (c110_covariance prec emax ops Mx My Hp NE Hs Hn Htx Hty HMx HMy HMM' HF) as (Fc & Ac). fold l n u eta Ec in Fc, Ac.
  change (covariance (map _ l)) with (covariance lv) in Ac.
  pose proof (c110_variance prec emax (map (op_map fst) ops) Mx Hp) as H70. rewrite since_clear_op_map in H70. fold l in H70.
  cbv zeta in H70. rewrite !map_length in H70. fold n u eta big in H70.
  destruct (H70 (map_ne _ _ NE) Hs Hn Htx HMx HMM (within_x _ _ _ _ _ HF)) as (Fv & Av). clear H70.
  rewrite ieee_xs in Av. fold lv V Ev in Av.
  assert (E0 : 0 < Ev).
  { unfold Ev. assert (0 < u) by apply bp. assert (0 < eta) by apply bp.
    assert (N0 : 1 <= n) by (apply inr_ge1; exact NE). assert (0 <= n * eta) by (apply Rmult_le_pos; lra).
    assert (0 <= Mx) by lra. assert (0 <= Mx * Mx) by (apply Rmult_le_pos; lra).
    assert (0 <= (14 * n + 308) * u * (Mx * Mx)) by (apply Rmult_le_pos; [apply Rmult_le_pos|]; lra).
    assert (0 <= (3 * n + 13) * (10 * Mx) * eta) by (apply Rmult_le_pos; [apply Rmult_le_pos|]; lra). lra. }
  destruct (div_err (approx_ieee prec emax Hp1 Hp2) _ _ _ _ (covariance lv) V Ec Ev (conj Fc eq_refl) (conj Fv eq_refl) Ac Av
    ltac:(lra) HV HB) as (NZ & r & (Fr & Er) & Hr).
  assert (Eq : slope = @ndiv F (ccov_variance F (run (ccov_push F) (ccov_clear F) (ccov_init F) ops)) (cvar_variance F (run (cvar_push F) (cvar_clear F) (cvar_init F) (map (op_map fst) ops)))).
  { apply (creg_slope_run F ops). exact (nonzero_ieee prec emax Hp1 Hp2 _ _ (conj Fv eq_refl) NZ). }
  rewrite Eq. split; [exact Fr|]. unfold F. rewrite Er. exact Hr.
Qed.

(** @prop C110_at: at(p) likewise, with the bound of C92. *)
Lemma c110_at : forall (prec emax : Z) (ops : list (op (spec_float * spec_float))) (Mx My : R) (p : spec_float),
  (1 < prec < emax)%Z ->
  let l := since_clear ops in
  let n := INR (length l) in
  let u := bpow radix2 (- prec) in
  let eta := bpow radix2 (2 - emax - prec) in
  let big := bpow radix2 (emax - 1) in
  l <> [] -> (N.of_nat (length l) < szmod)%N -> ieee_finite prec emax p ->
  64 * n * u <= 1 -> 32 * n * eta <= Mx -> 32 * n * eta <= My ->
  16 * Mx + 60 * n * eta <= big -> 16 * My + 60 * n * eta <= big ->
  64 * n * (Mx * Mx) + 16 * n * eta <= big -> 64 * n * (Mx * My) + 16 * n * eta <= big ->
  Forall (ieee_within prec emax Mx My) l ->
  let lv := map ieee_pair l in
  let V := variance (xs lv) in
  let S := covariance lv / V in
  let D := mean (xs lv) - ieee_real p in
  let Ev := 5 * ((14 * n + 308) * u * (Mx * Mx) + (3 * n + 13) * (10 * Mx) * eta + 3 * eta) in
  let Ec := 5 * ((14 * n + 308) * u * (Mx * My) + (3 * n + 13) * (4 * Mx + 6 * My) * eta + 3 * eta) in
  let Es := 2 * (Ec + Rabs S * Ev) / V in
  let Eb := slack u eta S Es in
  let Ex := (n + 25) * u * Mx + (3 * n + 11) * eta in
  let Ey := (n + 25) * u * My + (3 * n + 11) * eta in
  let Ed := slack u eta D Ex in
  let Em := Rabs S * Ed + Rabs D * Eb + Eb * Ed in
  let Ea := Ey + slack u eta (S * D) Em in
  2 * Ev <= V -> Rabs S + Es <= big -> Rabs D + Ex <= big ->
  Rabs (S * D) + Em <= big -> Rabs (mean (ys lv) - S * D) + Ea <= big ->
  let F := ieee prec emax in
  let at_p := creg_at F (run (creg_push F) (creg_clear F) (creg_init F) ops) p in
  ieee_finite prec emax at_p /\
  Rabs (ieee_real at_p - (mean (ys lv) + S * (ieee_real p - mean (xs lv)))) <= slack u eta (mean (ys lv) - S * D) Ea.
Proof.
  intros prec emax ops Mx My p Hp l n u eta big NE Hs Fp Hn Htx Hty HMx HMy HMM HMM' HF lv V S D Ev Ec Es Eb Ex Ey Ed Em Ea HV HB1 HB2 HB3 HB4 F at_p.
  assert (Hp1 : (1 < prec)%Z) by lia. assert (Hp2 : (prec < emax)%Z) by lia.
  destruct (c110_slope prec emax ops Mx My Hp NE Hs Hn Htx Hty HMx HMy HMM HMM' HF HV HB1) as (Fs & As). fold l n u eta lv V S Ev Ec Es Eb F in Fs, As.
  destruct (creg_parts_any F ops) as (_ & Px & Py).
  assert (U0 : 0 < u) by apply bp. assert (N1 : 1 <= n) by (apply inr_ge1; exact NE).
  assert (NU : 0 <= n * u) by (apply Rmult_le_pos; lra). assert (Hn16 : 16 * n * u <= 1) by lra.
  pose proof (c110_mean prec emax (map (op_map fst) ops) Mx Hp) as H65. rewrite since_clear_op_map in H65. fold l in H65.
  cbv zeta in H65. rewrite !map_length in H65. fold n u eta big F in H65.
  destruct (H65 (map_ne _ _ NE) Hs Hn16 HMx (within_x _ _ _ _ _ HF)) as (Fx & Ax). clear H65.
  pose proof (c110_mean prec emax (map (op_map snd) ops) My Hp) as H65. rewrite since_clear_op_map in H65. fold l in H65.
  cbv zeta in H65. rewrite !map_length in H65. fold n u eta big F in H65.
  destruct (H65 (map_ne _ _ NE) Hs Hn16 HMy (within_y _ _ _ _ _ HF)) as (Fy & Ay). clear H65.
  rewrite ieee_xs in Ax. rewrite ieee_ys in Ay. fold lv Ex in Ax. fold lv Ey in Ay.
  unfold at_p, creg_at.
  set (sl := creg_slope F _) in *. rewrite Px, Py, !cvar_mean_run_any.
  set (mx := cmean_mean F (run (cmean_push F) (cmean_clear F) (cmean_init F) (map (op_map fst) ops))) in *.
  set (my := cmean_mean F (run (cmean_push F) (cmean_clear F) (cmean_init F) (map (op_map snd) ops))) in *.
  pose proof (approx_ieee prec emax Hp1 Hp2) as AP. fold F u eta big in AP.
  destruct (sub_err AP mx p _ _ (mean (xs lv)) (ieee_real p) Ex 0 (conj Fx eq_refl) (conj Fp eq_refl) Ax)
    as (d & Vd & Hd).
  { rewrite Rminus_eq_0, Rabs_R0. lra. }
  { fold D. rewrite Rplus_0_r. exact HB2. }
  rewrite Rplus_0_r in Hd. fold D Ed in Hd.
  destruct (mul_err AP sl (nsub mx p) _ d S D Eb Ed (conj Fs eq_refl) Vd As Hd HB3) as (m & Vm & Hm).
  change (merr2 S D Eb Ed) with Em in Hm.
  destruct (sub_err AP my (nmul sl (nsub mx p)) _ m (mean (ys lv)) (S * D) Ey (slack u eta (S * D) Em)
    (conj Fy eq_refl) Vm Ay Hm HB4) as (r & (Fr & Er) & Hr).
  split; [exact Fr|].
  replace (mean (ys lv) + S * (ieee_real p - mean (xs lv))) with (mean (ys lv) - S * D) by (unfold D; ring).
  rewrite <- Er in Hr. exact Hr.
Qed.

Lemma fpoints_real : map ieee_pair [(f32 0, f32 0); (f32 4, f32 8); (f32 8, f32 4); (f32 4, f32 4)] = [(0, 0); (4, 8); (8, 4); (4, 4)].
Proof.
  match goal with |- map _ ?x = _ => let y := eval vm_compute in x in change x with y end.
  unfold ieee_pair, ieee_real, SF2R, F2R. cbn. repeat (f_equal; try lra).
Qed.
Lemma fpoints_bound : Forall (ieee_within 24 128 8 8) [(f32 0, f32 0); (f32 4, f32 8); (f32 8, f32 4); (f32 4, f32 4)].
Proof. repeat (apply Forall_cons; [split; fmag|]). apply Forall_nil. Qed.

(** @ex C110_slope_ex: four points of floats with slope one half; the bound is below
    one in a hundred. *)
Lemma c110_slope_ex :
  let l := since_clear [Push (f32 99, f32 99); Clear; Push (f32 0, f32 0); Push (f32 4, f32 8); Push (f32 8, f32 4); Push (f32 4, f32 4)] in
  let n := INR 4 in
  let u := bpow radix2 (-24) in
  let eta := bpow radix2 (2 - 128 - 24) in
  let big := bpow radix2 (128 - 1) in
  let lv := map ieee_pair l in
  length l = 4%nat /\ 64 * n * u <= 1 /\ 32 * n * eta <= 8 /\ 16 * 8 + 60 * n * eta <= big /\ 64 * n * (8 * 8) + 16 * n * eta <= big /\
  Forall (ieee_within 24 128 8 8) l /\
  variance (xs lv) = 8 /\ covariance lv = 4 /\
  let S := 4 / 8 in
  let Ev := 5 * ((14 * n + 308) * u * (8 * 8) + (3 * n + 13) * (10 * 8) * eta + 3 * eta) in
  let Ec := 5 * ((14 * n + 308) * u * (8 * 8) + (3 * n + 13) * (4 * 8 + 6 * 8) * eta + 3 * eta) in
  let Es := 2 * (Ec + Rabs S * Ev) / 8 in
  2 * Ev <= 8 /\ Rabs S + Es <= big /\ slack u eta S Es <= / 100.
Proof.
  cbv zeta. pose proof float_tiny as T. pose proof float_big as B.
  change (since_clear _) with [(f32 0, f32 0); (f32 4, f32 8); (f32 8, f32 4); (f32 4, f32 4)].
  destruct points_stats as (H1 & _ & H3 & _).
  split; [reflexivity|]. cbn [INR]. change (bpow radix2 (-24)) with (/ 16777216). split; [lra|]. split; [lra|]. split; [lra|]. split; [lra|].
  split; [exact fpoints_bound|]. rewrite fpoints_real. split; [exact H1|]. split; [exact H3|].
  unfold slack. rewrite (Rabs_pos_eq (4 / 8)) by lra. lra.
Qed.

(** @ex C110_at_ex: the same floats at position 12, where the line has the value 8. *)
Lemma c110_at_ex :
  let l := since_clear [Push (f32 0, f32 0); Push (f32 4, f32 8); Push (f32 8, f32 4); Push (f32 4, f32 4)] in
  let n := INR 4 in
  let u := bpow radix2 (-24) in
  let eta := bpow radix2 (2 - 128 - 24) in
  let big := bpow radix2 (128 - 1) in
  let lv := map ieee_pair l in
  length l = 4%nat /\ ieee_finite 24 128 (f32 12) /\ ieee_real (f32 12) = 12 /\ Forall (ieee_within 24 128 8 8) l /\
  variance (xs lv) = 8 /\ covariance lv = 4 /\ mean (xs lv) = 4 /\ mean (ys lv) = 4 /\
  let S := 4 / 8 in
  let D := 4 - 12 in
  let Ev := 5 * ((14 * n + 308) * u * (8 * 8) + (3 * n + 13) * (10 * 8) * eta + 3 * eta) in
  let Ec := 5 * ((14 * n + 308) * u * (8 * 8) + (3 * n + 13) * (4 * 8 + 6 * 8) * eta + 3 * eta) in
  let Es := 2 * (Ec + Rabs S * Ev) / 8 in
  let Eb := slack u eta S Es in
  let Ex := (n + 25) * u * 8 + (3 * n + 11) * eta in
  let Ed := slack u eta D Ex in
  let Em := Rabs S * Ed + Rabs D * Eb + Eb * Ed in
  let Ea := Ex + slack u eta (S * D) Em in
  2 * Ev <= 8 /\ Rabs S + Es <= big /\ Rabs D + Ex <= big /\
  Rabs (S * D) + Em <= big /\ Rabs (4 - S * D) + Ea <= big /\
  slack u eta (4 - S * D) Ea <= / 10.
Proof.
  cbv zeta. pose proof float_tiny as T. pose proof float_big as B.
  change (since_clear _) with [(f32 0, f32 0); (f32 4, f32 8); (f32 8, f32 4); (f32 4, f32 4)].
  destruct points_stats as (H1 & _ & H3 & H4 & H5). rewrite fpoints_real.
  split; [reflexivity|]. split; [split; vm_compute; reflexivity|]. split; [freal|]. split; [exact fpoints_bound|].
  split; [exact H1|]. split; [exact H3|]. split; [exact H4|]. split; [exact H5|].
  replace (4 - 12) with (-8) by ring. replace (4 / 8 * -8) with (-4) by field. replace (4 - -4) with 8 by ring.
  cbn [INR]. change (bpow radix2 (-24)) with (/ 16777216).
  set (Eb := slack _ _ (4 / 8) _).
  set (Ed := slack _ _ (-8) _).
  assert (HEb : 0 <= Eb <= / 100) by (unfold Eb, slack; rewrite (Rabs_pos_eq (4 / 8)) by lra; lra).
  assert (HEd : 0 <= Ed <= / 10000) by (unfold Ed, slack; rewrite (Rabs_left (-8)) by lra; lra).
  assert (HP : 0 <= Eb * Ed <= / 1000000).
  { split; [apply Rmult_le_pos; lra|]. replace (/ 1000000) with (/ 100 * / 10000) by lra.
    apply Rmult_le_compat; lra. }
  split; [lra|]. split; [rewrite (Rabs_pos_eq (4 / 8)) by lra; lra|].
  clearbody Eb Ed. generalize dependent (Eb * Ed). intros P HP.
  unfold slack. rewrite (Rabs_pos_eq (4 / 8)), (Rabs_left (-8)), (Rabs_left (-4)), (Rabs_pos_eq 8) by lra. lra.
Qed.
