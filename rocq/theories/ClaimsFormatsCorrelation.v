(** * Claim C110, continued: correlation *)

From Coq Require Import Reals ZArith NArith List Bool.
From Coq Require Import Floats.SpecFloat.
From Flocq Require Import Core.
From Verif Require Import Arith History SpecStats SpecError Cumulative ExactRuns Ieee ClaimsFormatsMore.
Import ListNotations.
Local Open Scope R_scope.
(** A float of an integer. *)
Local Notation f32 z := (ieee_of_Z 24 128 z).
(* @end-header *)
From Coq Require Import Lia Lra Psatz.
From Flocq Require Import IEEE754.BinarySingleNaN.
From Verif Require Import HistoryLemmas StatsLemmas Approx ApproxInstances CumulativeProofs CumulativeStats
  AccuracyProofs AccuracyVariance AccuracyRegression AccuracyComoment IeeeProofs
  ClaimsAccuracy ClaimsRegression ClaimsFormats ClaimsHigher.

Lemma ccorr_parts_any (F : num) (ops : list (op (F * F))) :
  let s := run (ccorr_push F) (ccorr_clear F) (ccorr_init F) ops in
  cr_co F s = run (ccov_push F) (ccov_clear F) (ccov_init F) ops /\
  cr_x F s = run (cvar_push F) (cvar_clear F) (cvar_init F) (map (op_map fst) ops) /\
  cr_y F s = run (cvar_push F) (cvar_clear F) (cvar_init F) (map (op_map snd) ops).
Proof.
  cbv zeta. rewrite (run_since_clear (ccorr_push F) (ccorr_clear F) (ccorr_init F)) by reflexivity.
  rewrite (run_since_clear (ccov_push F) (ccov_clear F) (ccov_init F)) by reflexivity.
  rewrite !(run_since_clear (cvar_push F) (cvar_clear F) (cvar_init F)) by reflexivity.
  rewrite ccorr_fold, !since_clear_op_map. cbn [cr_co cr_x cr_y ccorr_init]. split; [|split]; reflexivity.
Qed.

Lemma ccorr_value_run (F : num) (ops : list (op (F * F))) :
  let c := ccov_variance F (run (ccov_push F) (ccov_clear F) (ccov_init F) ops) in
  let vx := cvar_variance F (run (cvar_push F) (cvar_clear F) (cvar_init F) (map (op_map fst) ops)) in
  let vy := cvar_variance F (run (cvar_push F) (cvar_clear F) (cvar_init F) (map (op_map snd) ops)) in
  nlt (nmul vx vy) neps = false -> ccorr_value F (run (ccorr_push F) (ccorr_clear F) (ccorr_init F) ops) = ndiv c (nsqrt (nmul vx vy)).
Proof. destruct (ccorr_parts_any F ops) as (Pc & Px & Py). cbv zeta. intros H. unfold ccorr_value. rewrite Pc, Px, Py, H. reflexivity. Qed.

Lemma eps_ieee prec emax : (1 < prec < emax)%Z -> fdenotes prec emax (@neps (ieee prec emax)) (bpow radix2 (1 - prec)).
Proof.
  intros H. assert (P : (0 < 2 ^ (prec - 1))%Z) by (apply Z.pow_pos_nonneg; lia).
  change (@neps (ieee prec emax)) with (S754_finite false (Z.to_pos (2 ^ (prec - 1))) (2 - 2 * prec)). split; [split; [|reflexivity]|].
  - cbn [valid_binary]. unfold bounded, canonical_mantissa. apply andb_true_intro. split; [|apply Z.leb_le; lia].
    apply Zeq_is_eq_bool. rewrite Digits.Zpos_digits2_pos, Z2Pos.id by exact P. change 2%Z with (radix_val radix2) at 1.
    rewrite Digits.Zdigits_Zpower by lia. unfold fexp, emin. lia.
  - unfold ieee_real, SF2R, F2R. cbn [Fnum Fexp cond_Zopp]. rewrite Z2Pos.id by exact P. change 2%Z with (radix_val radix2) at 1.
    rewrite IZR_Zpower, <- bpow_plus by lia. f_equal. lia.
Qed.

Lemma sqrt_ieee prec emax (Hp1 : (1 < prec)%Z) (Hp2 : (prec < emax)%Z) (x : ieee prec emax) a : fdenotes prec emax x a -> 0 <= a ->
  exists r, fdenotes prec emax (nsqrt x) r /\ near (bpow radix2 (- prec)) (bpow radix2 (2 - emax - prec)) (sqrt a) r.
Proof.
  intros [Fx Ex] H. subst a. destruct (IeeeProofs.sqrt_real prec emax Hp1 Hp2 x Fx H) as [F1 E1].
  exists (rndf prec emax (sqrt (ieee_real x))). split; [split; [exact F1|exact E1]|].
  replace (2 - emax - prec)%Z with ((3 - emax - prec) - 1)%Z by lia. apply (rounding_nearest (3 - emax - prec) prec); lia.
Qed.

(** @prop C110_correlation: value() of the correlation filter, with the bound of C93, if
    the product of the variances exceeds epsilon of the value type by the bound [Ep] for
    its error, its square root is at least twice the bound [Ed], and [Er] is at most 1. *)
Lemma c110_correlation : forall (prec emax : Z) (ops : list (op (spec_float * spec_float))) (Mx My : R),
  (1 < prec < emax)%Z ->
  let l := since_clear ops in
  let n := INR (length l) in
  let u := bpow radix2 (- prec) in
  let eta := bpow radix2 (2 - emax - prec) in
  let big := bpow radix2 (emax - 1) in
  l <> [] -> (N.of_nat (length l) < szmod)%N ->
  64 * n * u <= 1 -> 32 * n * eta <= Mx -> 32 * n * eta <= My ->
  16 * Mx + 60 * n * eta <= big -> 16 * My + 60 * n * eta <= big ->
  64 * n * (Mx * Mx) + 16 * n * eta <= big -> 64 * n * (My * My) + 16 * n * eta <= big -> 64 * n * (Mx * My) + 16 * n * eta <= big ->
  Forall (ieee_within prec emax Mx My) l ->
  let lv := map ieee_pair l in
  let X := variance (xs lv) in
  let Y := variance (ys lv) in
  let r := pearson lv in
  let Ex := 5 * ((14 * n + 308) * u * (Mx * Mx) + (3 * n + 13) * (10 * Mx) * eta + 3 * eta) in
  let Ey := 5 * ((14 * n + 308) * u * (My * My) + (3 * n + 13) * (10 * My) * eta + 3 * eta) in
  let Ec := 5 * ((14 * n + 308) * u * (Mx * My) + (3 * n + 13) * (4 * Mx + 6 * My) * eta + 3 * eta) in
  let Ep := slack u eta (X * Y) (X * Ey + Y * Ex + Ex * Ey) in
  let Ed := slack u eta (sqrt (X * Y)) (Ep / sqrt (X * Y)) in
  let Er := 2 * (Ec + Rabs r * Ed) / sqrt (X * Y) in
  X * Y + (X * Ey + Y * Ex + Ex * Ey) <= big ->
  bpow radix2 (1 - prec) + Ep <= X * Y -> 2 * Ed <= sqrt (X * Y) -> Er <= 1 ->
  let F := ieee prec emax in
  let value := ccorr_value F (run (ccorr_push F) (ccorr_clear F) (ccorr_init F) ops) in
  ieee_finite prec emax value /\ Rabs (ieee_real value - r) <= slack u eta r Er /\
  Rabs (ieee_real value) <= 1 + (Er + u * (1 + Er) + eta).
Proof.
  intros prec emax ops Mx My Hp l n u eta big NE Hs Hn Htx Hty HMx HMy HXX HYY HMM' HF lv X Y r Ex Ey Ec Ep Ed Er HB1 HE HD HR F value.
  assert (Hp1 : (1 < prec)%Z) by lia. assert (Hp2 : (prec < emax)%Z) by lia.
  assert (AP := approx_ieee prec emax Hp1 Hp2).
  destruct (c110_covariance prec emax ops Mx My Hp NE Hs Hn Htx Hty HMx HMy HMM' HF) as (Fc & Ac). fold l n u eta Ec in Fc, Ac.
  change (covariance (map _ l)) with (covariance lv) in Ac.
  pose proof (c110_variance prec emax (map (op_map fst) ops) Mx Hp) as H70. rewrite since_clear_op_map in H70. fold l in H70.
  cbv zeta in H70. rewrite !map_length in H70. fold n u eta big in H70.
  destruct (H70 (map_ne _ _ NE) Hs Hn Htx HMx HXX (within_x _ _ _ _ _ HF)) as (Fx & Ax). clear H70.
  pose proof (c110_variance prec emax (map (op_map snd) ops) My Hp) as H70. rewrite since_clear_op_map in H70. fold l in H70.
  cbv zeta in H70. rewrite !map_length in H70. fold n u eta big in H70.
  destruct (H70 (map_ne _ _ NE) Hs Hn Hty HMy HYY (within_y _ _ _ _ _ HF)) as (Fy & Ay). clear H70.
  rewrite ieee_xs in Ax. rewrite ieee_ys in Ay. fold lv X Ex in Ax. fold lv Y Ey in Ay.
  pose proof (ccorr_value_run F ops) as CV. cbv zeta in CV.
  set (vx := cvar_variance F (run (cvar_push F) (cvar_clear F) (cvar_init F) (map (op_map fst) ops))) in *.
  set (vy := cvar_variance F (run (cvar_push F) (cvar_clear F) (cvar_init F) (map (op_map snd) ops))) in *.
  set (vc := ccov_variance F _) in *.
  assert (X0 : 0 <= X) by apply variance_nonneg. assert (Y0 : 0 <= Y) by apply variance_nonneg.
  destruct (mul_err AP vx vy _ _ X Y Ex Ey (conj Fx eq_refl) (conj Fy eq_refl) Ax Ay) as (p & Vp & Hpp).
  { unfold merr2. rewrite Rabs_mult, !(Rabs_pos_eq X), !(Rabs_pos_eq Y) by assumption. exact HB1. }
  unfold merr2 in Hpp. rewrite !(Rabs_pos_eq X), !(Rabs_pos_eq Y) in Hpp by assumption. fold u eta Ep in Hpp.
  assert (P52 : 0 < bpow radix2 (1 - prec)) by apply bp.
  assert (EP0 : 0 <= Ep) by (pose proof (Rabs_pos (p - X * Y)); lra).
  assert (Pp : bpow radix2 (1 - prec) <= p) by (apply Rabs_le_inv in Hpp; lra).
  pose proof (ap_lt _ _ _ _ _ _ AP _ _ _ _ Vp (eps_ieee prec emax Hp)) as LT. rewrite Rlt_bool_false in LT by exact Pp.
  specialize (CV LT).
  destruct (sqrt_err AP (sqrt_ieee prec emax Hp1 Hp2) _ p (X * Y) Ep Vp ltac:(lra) ltac:(lra) Hpp) as (d & Vd & Hd).
  fold u eta Ed in Hd.
  assert (SP : 0 < sqrt (X * Y)) by (apply sqrt_lt_R0; lra).
  assert (Er' : covariance lv / sqrt (X * Y) = r).
  { unfold r, pearson. fold X Y. rewrite <- sqrt_mult by assumption. reflexivity. }
  assert (R1 : Rabs r <= 1) by (apply Rabs_le; apply pearson_bounds).
  destruct (div_err AP vc _ _ d (covariance lv) (sqrt (X * Y)) Ec Ed (conj Fc eq_refl) Vd Ac Hd SP HD)
    as (NZ & q & (Fq & Eq) & Hq).
  { rewrite Er'. fold Er. assert (bpow radix2 1 <= bpow radix2 (emax - 1)) by (apply bp_le; lia). change (bpow radix2 1) with 2 in H. lra. }
  rewrite Er' in Hq. fold u eta Er in Hq. rewrite <- Eq in Hq. assert (VE : value = ndiv vc (nsqrt (nmul vx vy) : F)) by exact CV. rewrite VE.
  split; [exact Fq|]. split; [exact Hq|].
  assert (U0 : 0 < u) by apply bp.
  assert (Er0 : slack u eta r Er <= Er + u * (1 + Er) + eta).
  { unfold slack. assert (u * (Rabs r + Er) <= u * (1 + Er)) by (apply Rmult_le_compat_l; lra). lra. }
  pose proof (close_abs _ _ _ Hq) as CA. eapply Rle_trans; [exact CA|]. lra.
Qed.

(** @ex C110_correlation_ex: the points (0,0), (4,8), (8,4), (4,4) over float, correlation 1/2. *)
Lemma c110_correlation_ex :
  let l := since_clear [Push (f32 0, f32 0); Push (f32 4, f32 8); Push (f32 8, f32 4); Push (f32 4, f32 4)] in
  let n := INR 4 in
  let u := bpow radix2 (-24) in
  let eta := bpow radix2 (2 - 128 - 24) in
  let big := bpow radix2 (128 - 1) in
  let lv := map ieee_pair l in
  length l = 4%nat /\ Forall (ieee_within 24 128 8 8) l /\
  variance (xs lv) = 8 /\ variance (ys lv) = 8 /\ pearson lv = 1 / 2 /\ sqrt (8 * 8) = 8 /\
  (64 * n * u <= 1 /\ 32 * n * eta <= 8 /\ 16 * 8 + 60 * n * eta <= big /\ 64 * n * (8 * 8) + 16 * n * eta <= big) /\
  let r := 1 / 2 in
  let Ex := 5 * ((14 * n + 308) * u * (8 * 8) + (3 * n + 13) * (10 * 8) * eta + 3 * eta) in
  let Ec := 5 * ((14 * n + 308) * u * (8 * 8) + (3 * n + 13) * (4 * 8 + 6 * 8) * eta + 3 * eta) in
  let Ep := slack u eta (8 * 8) (8 * Ex + 8 * Ex + Ex * Ex) in
  let Ed := slack u eta 8 (Ep / 8) in
  let Er := 2 * (Ec + Rabs r * Ed) / 8 in
  8 * 8 + (8 * Ex + 8 * Ex + Ex * Ex) <= big /\
  bpow radix2 (1 - 24) + Ep <= 8 * 8 /\ 2 * Ed <= 8 /\ Er <= / 20.
Proof.
  cbv zeta. pose proof float_tiny as T. pose proof float_big as B.
  change (since_clear _) with [(f32 0, f32 0); (f32 4, f32 8); (f32 8, f32 4); (f32 4, f32 4)].
  destruct points_stats as (H1 & H2 & H3 & _). rewrite fpoints_real.
  assert (SQ : sqrt (8 * 8) = 8) by (apply sqrt_square; lra).
  split; [reflexivity|]. split; [exact fpoints_bound|]. split; [exact H1|]. split; [exact H2|].
  split.
  { unfold pearson. rewrite H1, H2, H3, sqrt_sqrt by lra. field. }
  split; [exact SQ|].
  cbn [INR]. change (bpow radix2 (-24)) with (/ 16777216). change (bpow radix2 (1 - 24)) with (/ 8388608).
  split; [lra|].
  set (Ex := 5 * (_ + (3 * (1 + 1 + 1 + 1) + 13) * (10 * 8) * _ + _)).
  assert (HEx : 0 <= Ex <= / 50) by (unfold Ex; lra).
  assert (HP : 0 <= Ex * Ex <= / 2500).
  { split; [apply Rmult_le_pos; lra|]. replace (/ 2500) with (/ 50 * / 50) by lra. apply Rmult_le_compat; lra. }
  clearbody Ex. generalize dependent (Ex * Ex). intros P HP.
  unfold slack. replace (8 * 8) with 64 by ring. rewrite (Rabs_pos_eq (1 / 2)), (Rabs_pos_eq 64), (Rabs_pos_eq 8) by lra.
  lra.
Qed.
