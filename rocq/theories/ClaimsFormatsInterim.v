(** * Claims C110 and C122, continued: interim filters, range of the means and reads
    of the quantile estimator in every IEEE value type *)

From Coq Require Import Reals ZArith NArith List Bool.
From Coq Require Import Floats.SpecFloat.
From Flocq Require Import Core.
From Verif Require Import Arith History SpecStats SpecBlocks Cumulative Window Interim Decay Psquare ExactRuns Ieee.
Import ListNotations.
Local Open Scope R_scope.
(** A float of an integer. *)
Local Notation f32 z := (ieee_of_Z 24 128 z).
(* @end-header *)
From Coq Require Import Lia Lra Psatz.
From Flocq Require Import IEEE754.BinarySingleNaN.
From Verif Require Import HistoryLemmas StatsLemmas BlockLemmas CumulativeProofs WindowProofs InterimStats SpecDecay DecayProofs
  Approx ApproxInstances AccuracyProofs AccuracyVariance AccuracyInterim IeeeProofs CorrectRounding PsquareLemmas PsquareGeneric
  PsquareFew IeeeSign ClaimsAccuracy ClaimsAccuracyInterim ClaimsFormats ClaimsSign ClaimsQuantileSafety.

Lemma ieee_tame prec emax M (c : list spec_float) : Forall (fun x => ieee_finite prec emax x /\ Rabs (ieee_real x) <= M) c ->
  Forall (@tame (ieee prec emax) (fdenotes prec emax) ieee_real M) c.
Proof. apply Forall_impl. intros x [H1 H2]. split; [split; [exact H1|reflexivity]|exact H2]. Qed.

Lemma fzero prec emax : (1 < prec)%Z -> (prec < emax)%Z -> fdenotes prec emax (@nofsz (ieee prec emax) 0%N) 0.
Proof.
  intros H1 H2. apply (of_Z_small prec emax H1 H2 0). pose proof (Z.pow_pos_nonneg 2 prec ltac:(lia) ltac:(lia)). cbn. lia.
Qed.

Lemma count2_le (prec : Z) (W : nat) : (0 <= prec)%Z -> 16 * INR W * bpow radix2 (- prec) <= 1 ->
  (2 * N.of_nat W <= Z.to_N (2 ^ prec))%N.
Proof.
  intros Hp H. replace (2 * N.of_nat W)%N with (N.of_nat (2 * W)) by lia. apply count_le; [exact Hp|].
  rewrite mult_INR. change (INR 2) with 2. pose proof (bp (- prec)) as U. pose proof (pos_INR W) as P.
  assert (0 <= INR W * bpow radix2 (- prec)) by (apply Rmult_le_pos; lra). lra.
Qed.

(** @prop C110_interim_mean: the interim mean with window W, if the last 2W values since the
    last clear are finite and at most [M] in magnitude: within
    [(W + 46) u M + (3 W + 29) eta] of the weighted mean of the two blocks (of the mean
    while at most W values were pushed), for every number of pushes (C88). *)
Lemma c110_interim_mean : forall (prec emax : Z) (W : nat) (ops : list (op spec_float)) (M : R),
  (1 < prec < emax)%Z ->
  let l := since_clear ops in
  let u := bpow radix2 (- prec) in
  let eta := bpow radix2 (2 - emax - prec) in
  let big := bpow radix2 (emax - 1) in
  l <> [] -> (0 < W)%nat -> (2 * N.of_nat W < szmod)%N -> 16 * INR W * u <= 1 ->
  16 * M + 60 * INR W * eta <= big -> 24 * INR W * M + 112 * (INR W * INR W * eta) + 5 * eta <= big ->
  Forall (fun x => ieee_finite prec emax x /\ Rabs (ieee_real x) <= M) (lastn (2 * W) l) ->
  let F := ieee prec emax in
  let w := N.of_nat W in
  let m := imean_mean F w (run (imean_push F w) (imean_clear F) (imean_init F) ops) in
  let p := mean (map ieee_real (prev_block W l)) in
  let a := mean (map ieee_real (cur_block W l)) in
  let s := card (cur_block W l) in
  let bound := (INR W + 46) * u * M + (3 * INR W + 29) * eta in
  ieee_finite prec emax m /\
  ((length l <= W)%nat -> Rabs (ieee_real m - mean (map ieee_real l)) <= bound) /\
  ((W < length l)%nat -> Rabs (ieee_real m - (p * (INR W - s) + a * (2 * s)) / (INR W + s)) <= bound).
Proof.
  intros prec emax W ops M [Hp1 Hp2] l u eta big NE HW HS Hn HM1 HM2 HF F w m p a s bound.
  assert (M0 : 0 <= M) by (apply (ieee_pos prec emax M (lastn (2 * W) l)); [apply recent_nil; assumption|exact HF]).
  destruct (imean_accuracy (approx_ieee prec emax Hp1 Hp2) (fzero prec emax Hp1 Hp2) ieee_real W M l) as (r & (Fr & Er) & H1 & H2);
    try assumption.
  - apply ieee_tame. exact HF.
  - apply count2_le; [lia|exact Hn].
  - assert (Em : m = imean_mean F w (Duo (fold_left (cmean_push F) (cur_block W l) (cmean_init F))
        (fold_left (cmean_push F) (prev_block W l) (cmean_init F)))).
    { unfold m, w. f_equal. exact (imean_run_state F W ops HW HS). }
    rewrite Em. subst r. split; [exact Fr|]. unfold bound. rewrite !(Rmult_assoc _ _ M).
    split; [exact H1|]. intros L. specialize (H2 L). unfold card in H2. rewrite !map_length in H2. exact H2.
Qed.

(** @ex C110_interim_mean_ex: window 2 over float after a NaN, an infinity and five numbers. *)
Lemma c110_interim_mean_ex :
  let l := since_clear [Push S754_nan; Push (S754_infinity false); Push (f32 3); Push (f32 5); Push (f32 8); Push (f32 1); Push (f32 6)] in
  l <> [] /\ (2 * N.of_nat 2 < szmod)%N /\ 16 * INR 2 * bpow radix2 (- 24) <= 1 /\
  16 * 8 + 60 * INR 2 * bpow radix2 (2 - 128 - 24) <= bpow radix2 (128 - 1) /\
  24 * INR 2 * 8 + 112 * (INR 2 * INR 2 * bpow radix2 (2 - 128 - 24)) + 5 * bpow radix2 (2 - 128 - 24) <= bpow radix2 (128 - 1) /\
  Forall (fun x => ieee_finite 24 128 x /\ Rabs (ieee_real x) <= 8) (lastn (2 * 2) l) /\
  cur_block 2 l = [f32 6] /\ prev_block 2 l = [f32 8; f32 1].
Proof.
  cbv zeta. pose proof float_tiny. pose proof float_big. split; [discriminate|]. split; [reflexivity|]. split; [cbn; lra|].
  split; [cbn [INR]; lra|]. split; [cbn [INR]; lra|]. split; [|split; reflexivity].
  vm_compute lastn. fmags.
Qed.

Lemma square_le (prec : Z) (W : nat) : (0 <= prec)%Z -> INR W * INR W * bpow radix2 (- prec) <= 1 ->
  (N.of_nat W * N.of_nat W <= Z.to_N (2 ^ prec))%N.
Proof.
  intros Hp H. replace (N.of_nat W * N.of_nat W)%N with (N.of_nat (W * W)) by lia. apply count_le; [exact Hp|].
  rewrite mult_INR. exact H.
Qed.

(** @prop C110_interim_variance: the interim variance, within
    [5 ((14 W + 454) u M^2 + (3 W + 13) 10 M eta + 27 eta)] of the weighted average of the
    variances of the two blocks, for windows of at most the square root of 2^prec. *)
Lemma c110_interim_variance : forall (prec emax : Z) (W : nat) (ops : list (op spec_float)) (M : R),
  (1 < prec < emax)%Z ->
  let l := since_clear ops in
  let u := bpow radix2 (- prec) in
  let eta := bpow radix2 (2 - emax - prec) in
  let big := bpow radix2 (emax - 1) in
  l <> [] -> (0 < W)%nat -> (N.of_nat W <= 2 ^ 32)%N -> 64 * INR W * u <= 1 -> INR W * INR W * u <= 1 ->
  32 * INR W * eta <= M -> 16 * M + 60 * INR W * eta <= big -> 64 * INR W * (M * M) + 16 * INR W * eta <= big ->
  416 * (INR W * INR W * (M * M)) + 60 * (INR W * INR W * eta) + 5 * eta <= big ->
  Forall (fun x => ieee_finite prec emax x /\ Rabs (ieee_real x) <= M) (lastn (2 * W) l) ->
  let F := ieee prec emax in
  let w := N.of_nat W in
  let v := ivar_variance F w (run (ivar_push F w) (ivar_clear F) (ivar_init F) ops) in
  let vp := variance (map ieee_real (prev_block W l)) in
  let va := variance (map ieee_real (cur_block W l)) in
  let s := card (cur_block W l) in
  let wp := (INR W - s + 1) ^ 2 in
  let wa := 2 * (s - 1) in
  let bound := 5 * ((14 * INR W + 454) * u * (M * M) + (3 * INR W + 13) * (10 * M) * eta + 27 * eta) in
  ieee_finite prec emax v /\
  ((length l <= W)%nat -> Rabs (ieee_real v - variance (map ieee_real l)) <= bound) /\
  ((W < length l)%nat -> Rabs (ieee_real v - (wp * vp + wa * va) / (wp + wa)) <= bound).
Proof.
  intros prec emax W ops M [Hp1 Hp2] l u eta big NE HW H32 Hn HK Ht HM1 HM2 HM3 HF F w v vp va s wp wa bound.
  change (2 ^ 32)%N with 4294967296%N in H32.
  assert (HS : (N.of_nat W < szmod)%N) by (unfold szmod; lia).
  assert (M0 : 0 <= M) by (apply (ieee_pos prec emax M (lastn (2 * W) l)); [apply recent_nil; assumption|exact HF]).
  assert (W1 : 1 <= INR W) by (apply (le_INR 1); lia).
  pose proof (approx_ieee prec emax Hp1 Hp2) as AP.
  assert (KK : (N.of_nat W * N.of_nat W <= Z.to_N (2 ^ prec))%N) by (apply square_le; [lia|exact HK]).
  assert (Fi : @fine big u eta M M (INR W)) by (unfold fine; repeat split; assumption).
  destruct (recent_blocks _ W l HW (ieee_tame prec emax M _ HF)) as [Tc Tp].
  destruct (duo_block_accuracy AP (fzero prec emax Hp1 Hp2) W M M l (cvar_push F) (cvar_init F)
    (cvar_size F) (cvar_empty F) (cvar_variance F) (map ieee_real) variance) as (r & (Fr & Er) & H1 & H2); try assumption.
  - intros c Hc. assert (Hc' : (N.of_nat (length c) < szmod)%N) by lia. apply cvar_csize. exact Hc'.
  - reflexivity.
  - intros c Hc NEc Lc.
    assert (Tb : Forall (@tame F (fdenotes prec emax) ieee_real M) c) by (destruct Hc; subst c; assumption).
    destruct (tame_vals (F := F) ieee_real M c Tb) as [Vc Mc].
    assert (NEm : map ieee_real c <> []) by (destruct c; [congruence|discriminate]).
    split; [apply variance_abs; [lra|exact NEm|exact Mc]|].
    apply (cvar_accuracy AP M c (map ieee_real c)); try assumption.
    + apply (fine_le AP M M _ (INR W)); [split; [apply (inr_ge1 c); exact NEc|apply le_INR; exact Lc]|exact Fi].
    + assert (1 <= N.of_nat W)%N by lia. assert (N.of_nat (length c) <= N.of_nat W * N.of_nat W)%N by nia.
      assert (Z : (N.of_nat (length c) <= Z.to_N (2 ^ prec))%N) by lia. exact Z.
    + assert (Z : (N.of_nat (length c) < szmod)%N) by lia. exact Z.
  - assert (Em : v = ivar_variance F w (Duo (fold_left (cvar_push F) (cur_block W l) (cvar_init F))
        (fold_left (cvar_push F) (prev_block W l) (cvar_init F)))).
    { unfold v, w. f_equal. exact (ivar_run_state F W ops HW HS). }
    rewrite Em. subst r. split; [exact Fr|]. fold u eta in H1, H2.
    split; intros L; [specialize (H1 L)|specialize (H2 L)]; unfold bound.
    + eapply Rle_trans; [exact H1|]. lra.
    + eapply Rle_trans; [exact H2|]. lra.
Qed.

(** @ex C110_interim_variance_ex: window 4 over float after nine values, the first a NaN. *)
Lemma c110_interim_variance_ex :
  let l := since_clear (Push S754_nan :: map (fun k => Push (f32 k)) [3; 5; 8; 1; 6; -7; 2; 9]%Z) in
  let eta := bpow radix2 (2 - 128 - 24) in
  let big := bpow radix2 (128 - 1) in
  l <> [] /\ (N.of_nat 4 <= 2 ^ 32)%N /\ 64 * INR 4 * bpow radix2 (- 24) <= 1 /\ INR 4 * INR 4 * bpow radix2 (- 24) <= 1 /\
  32 * INR 4 * eta <= 10 /\ 16 * 10 + 60 * INR 4 * eta <= big /\ 64 * INR 4 * (10 * 10) + 16 * INR 4 * eta <= big /\
  416 * (INR 4 * INR 4 * (10 * 10)) + 60 * (INR 4 * INR 4 * eta) + 5 * eta <= big /\
  Forall (fun x => ieee_finite 24 128 x /\ Rabs (ieee_real x) <= 10) (lastn (2 * 4) l) /\ cur_block 4 l = [f32 9].
Proof.
  cbv zeta. pose proof float_tiny. pose proof float_big. split; [discriminate|]. split; [vm_compute; discriminate|].
  split; [cbn; lra|]. split; [cbn; lra|]. cbn [INR].
  split; [lra|]. split; [lra|]. split; [lra|]. split; [lra|]. split; [|reflexivity].
  vm_compute lastn. fmags.
Qed.

(** @prop C110_interim_covariance: the interim covariance, with separate bounds for the two
    coordinates. *)
Lemma c110_interim_covariance : forall (prec emax : Z) (W : nat) (ops : list (op (spec_float * spec_float))) (Mx My : R),
  (1 < prec < emax)%Z ->
  let l := since_clear ops in
  let u := bpow radix2 (- prec) in
  let eta := bpow radix2 (2 - emax - prec) in
  let big := bpow radix2 (emax - 1) in
  l <> [] -> (0 < W)%nat -> (N.of_nat W <= 2 ^ 32)%N -> 64 * INR W * u <= 1 -> INR W * INR W * u <= 1 ->
  32 * INR W * eta <= Mx -> 32 * INR W * eta <= My ->
  16 * Mx + 60 * INR W * eta <= big -> 16 * My + 60 * INR W * eta <= big ->
  64 * INR W * (Mx * My) + 16 * INR W * eta <= big ->
  416 * (INR W * INR W * (Mx * My)) + 60 * (INR W * INR W * eta) + 5 * eta <= big ->
  Forall (fun p => (ieee_finite prec emax (fst p) /\ Rabs (ieee_real (fst p)) <= Mx) /\
                   (ieee_finite prec emax (snd p) /\ Rabs (ieee_real (snd p)) <= My)) (lastn (2 * W) l) ->
  let real p := (ieee_real (fst p), ieee_real (snd p)) in
  let F := ieee prec emax in
  let w := N.of_nat W in
  let v := icov_variance F w (run (icov_push F w) (icov_clear F) (icov_init F) ops) in
  let vp := covariance (map real (prev_block W l)) in
  let va := covariance (map real (cur_block W l)) in
  let s := card (cur_block W l) in
  let wp := (INR W - s + 1) ^ 2 in
  let wa := 2 * (s - 1) in
  let bound := 5 * ((14 * INR W + 454) * u * (Mx * My) + (3 * INR W + 13) * (4 * Mx + 6 * My) * eta + 27 * eta) in
  ieee_finite prec emax v /\
  ((length l <= W)%nat -> Rabs (ieee_real v - covariance (map real l)) <= bound) /\
  ((W < length l)%nat -> Rabs (ieee_real v - (wp * vp + wa * va) / (wp + wa)) <= bound).
Proof.
  intros prec emax W ops Mx My [Hp1 Hp2] l u eta big NE HW H32 Hn HK Htx Hty HMx HMy HM2 HM3 HF real F w v vp va s wp wa bound.
  change (2 ^ 32)%N with 4294967296%N in H32.
  assert (HS : (N.of_nat W < szmod)%N) by (unfold szmod; lia).
  assert (W1 : 1 <= INR W) by (apply (le_INR 1); lia).
  assert (T0 : 0 < eta) by apply bp.
  assert (WT : 0 <= INR W * eta) by (apply Rmult_le_pos; lra).
  assert (X0 : 0 <= Mx) by lra. assert (Y0 : 0 <= My) by lra.
  pose proof (approx_ieee prec emax Hp1 Hp2) as AP.
  assert (KK : (N.of_nat W * N.of_nat W <= Z.to_N (2 ^ prec))%N) by (apply square_le; [lia|exact HK]).
  assert (Fi : @fine big u eta Mx My (INR W)) by (unfold fine; repeat split; assumption).
  destruct (recent_blocks _ W l HW HF) as [Tc Tp].
  destruct (duo_block_accuracy AP (fzero prec emax Hp1 Hp2) W Mx My l (ccov_push F) (ccov_init F)
    (ccov_size F) (ccov_size0 F) (ccov_variance F) (map real) covariance) as (r & (Fr & Er) & H1 & H2); try assumption.
  - intros c Hc. assert (Hc' : (N.of_nat (length c) < szmod)%N) by lia. apply ccov_csize. exact Hc'.
  - reflexivity.
  - intros c Hc NEc Lc.
    assert (Tb : Forall (fun p => (ieee_finite prec emax (fst p) /\ Rabs (ieee_real (fst p)) <= Mx) /\
                   (ieee_finite prec emax (snd p) /\ Rabs (ieee_real (snd p)) <= My)) c) by (destruct Hc; subst c; assumption).
    assert (Vc : Forall2 (@pval F (fdenotes prec emax)) c (map real c)).
    { clear - Tb. induction Tb as [|x c [[A1 _] [A2 _]] _ IH]; cbn; constructor; [|exact IH].
      split; (split; [assumption|reflexivity]). }
    assert (Mc : Forall (fun p => Rabs (fst p) <= Mx /\ Rabs (snd p) <= My) (map real c)).
    { apply Forall_map. eapply Forall_impl; [|exact Tb]. cbn. tauto. }
    assert (NEm : map real c <> []) by (destruct c; [congruence|discriminate]).
    split; [apply covariance_abs; [lra|lra|exact NEm|exact Mc]|].
    apply (ccov_accuracy AP Mx My c (map real c)); try assumption.
    + apply (fine_le AP Mx My _ (INR W)); [split; [apply (inr_ge1 c); exact NEc|apply le_INR; exact Lc]|exact Fi].
    + assert (1 <= N.of_nat W)%N by lia. assert (N.of_nat (length c) <= N.of_nat W * N.of_nat W)%N by nia.
      assert (Z : (N.of_nat (length c) <= Z.to_N (2 ^ prec))%N) by lia. exact Z.
    + assert (Z : (N.of_nat (length c) < szmod)%N) by lia. exact Z.
  - assert (Em : v = icov_variance F w (Duo (fold_left (ccov_push F) (cur_block W l) (ccov_init F))
        (fold_left (ccov_push F) (prev_block W l) (ccov_init F)))).
    { unfold v, w. f_equal. exact (icov_run_state F W ops HW HS). }
    rewrite Em. subst r. split; [exact Fr|]. fold u eta in H1, H2.
    split; intros L; [specialize (H1 L)|specialize (H2 L)]; unfold bound.
    + eapply Rle_trans; [exact H1|]. lra.
    + eapply Rle_trans; [exact H2|]. lra.
Qed.

(** @ex C110_interim_covariance_ex: window 2 over float after five pairs. *)
Lemma c110_interim_covariance_ex :
  let l := since_clear (map Push [(f32 3, f32 9); (f32 5, f32 25); (f32 8, f32 64); (f32 1, f32 1); (f32 (-6), f32 36)]) in
  let eta := bpow radix2 (2 - 128 - 24) in
  let big := bpow radix2 (128 - 1) in
  l <> [] /\ (N.of_nat 2 <= 2 ^ 32)%N /\ 64 * INR 2 * bpow radix2 (- 24) <= 1 /\ INR 2 * INR 2 * bpow radix2 (- 24) <= 1 /\
  32 * INR 2 * eta <= 8 /\ 32 * INR 2 * eta <= 64 /\ 16 * 8 + 60 * INR 2 * eta <= big /\ 16 * 64 + 60 * INR 2 * eta <= big /\
  64 * INR 2 * (8 * 64) + 16 * INR 2 * eta <= big /\
  416 * (INR 2 * INR 2 * (8 * 64)) + 60 * (INR 2 * INR 2 * eta) + 5 * eta <= big /\
  Forall (fun p => (ieee_finite 24 128 (fst p) /\ Rabs (ieee_real (fst p)) <= 8) /\
                   (ieee_finite 24 128 (snd p) /\ Rabs (ieee_real (snd p)) <= 64)) (lastn (2 * 2) l) /\
  prev_block 2 l = [(f32 8, f32 64); (f32 1, f32 1)].
Proof.
  cbv zeta. pose proof float_tiny. pose proof float_big. split; [discriminate|]. split; [vm_compute; discriminate|].
  split; [cbn; lra|]. split; [cbn; lra|]. cbn [INR].
  split; [lra|]. split; [lra|]. split; [lra|]. split; [lra|]. split; [lra|]. split; [lra|]. split; [|reflexivity].
  vm_compute lastn. repeat (apply Forall_cons; [split; fmag|]); apply Forall_nil.
Qed.

(** ** Range *)

Lemma ireal_within lo hi (l : list spec_float) : Forall (fun x => lo <= ieee_real x <= hi) l ->
  Forall (fun x => lo <= x <= hi) (map ieee_real l).
Proof. intros H. apply Forall_map. exact H. Qed.

(** @prop C122_interim_mean: in every IEEE format mean() of the interim filter stays within
    the range of the last 2W values up to the error bound of C110; values before those
    may be anything, NaN and infinities included. *)
Lemma c122_interim_mean : forall (prec emax : Z) (W : nat) (ops : list (op spec_float)) (M lo hi : R),
  (1 < prec < emax)%Z ->
  let l := since_clear ops in
  let u := bpow radix2 (- prec) in
  let eta := bpow radix2 (2 - emax - prec) in
  let big := bpow radix2 (emax - 1) in
  l <> [] -> (0 < W)%nat -> (2 * N.of_nat W < szmod)%N -> 16 * INR W * u <= 1 ->
  16 * M + 60 * INR W * eta <= big -> 24 * INR W * M + 112 * (INR W * INR W * eta) + 5 * eta <= big ->
  Forall (fun x => ieee_finite prec emax x /\ Rabs (ieee_real x) <= M) (lastn (2 * W) l) ->
  Forall (fun x => lo <= ieee_real x <= hi) (lastn (2 * W) l) ->
  let F := ieee prec emax in
  let w := N.of_nat W in
  let m := ieee_real (imean_mean F w (run (imean_push F w) (imean_clear F) (imean_init F) ops)) in
  let E := (INR W + 46) * u * M + (3 * INR W + 29) * eta in
  lo - E <= m <= hi + E.
Proof.
  intros prec emax W ops M lo hi Hp l u eta big NE HW HS Hn HM1 HM2 HF HR F w m E.
  destruct (c110_interim_mean prec emax W ops M Hp NE HW HS Hn HM1 HM2 HF) as (_ & A & B). fold l in A, B.
  assert (HC : Forall (fun x => lo <= ieee_real x <= hi) (cur_block W l) /\
               Forall (fun x => lo <= ieee_real x <= hi) (prev_block W l)).
  { rewrite Forall_forall in HR. split; apply Forall_forall; intros x Hx; apply HR.
    - apply (cur_block_In W HW); exact Hx.
    - apply (prev_block_In W HW); exact Hx. }
  destruct HC as [HC HP].
  assert (Nc : (1 <= length (cur_block W l))%nat).
  { rewrite (cur_block_length W HW). destruct l; [congruence|]. lia. }
  assert (NEc : map ieee_real (cur_block W l) <> []) by (destruct (cur_block W l); [cbn in Nc; lia|discriminate]).
  pose proof (mean_bounds lo hi _ NEc (ireal_within _ _ _ HC)) as Ba.
  destruct (Nat.le_gt_cases (length l) W) as [H|H].
  - specialize (A H). destruct (short_blocks W HW l H) as [Ec _]. rewrite Ec in Ba.
    exact (leave _ _ _ _ _ A Ba).
  - specialize (B H). eapply leave; [exact B|].
    assert (NEp : map ieee_real (prev_block W l) <> []).
    { pose proof (long_prev W HW l H) as LP. destruct (prev_block W l); [cbn in LP; lia|discriminate]. }
    pose proof (mean_bounds lo hi _ NEp (ireal_within _ _ _ HP)) as Bp.
    set (p := mean (map ieee_real (prev_block W l))) in *. set (a := mean (map ieee_real (cur_block W l))) in *.
    pose proof (cur_block_le W HW l) as Lc. set (s := card (cur_block W l)).
    assert (S1 : 1 <= s <= INR W).
    { unfold s, card. split; [apply (le_INR 1); exact Nc|apply le_INR; exact Lc]. }
    assert (D : 0 < INR W + s) by lra.
    split; apply Rmult_le_reg_r with (INR W + s); try exact D; unfold Rdiv; rewrite Rmult_assoc, Rinv_l, Rmult_1_r by lra; nra.
Qed.

(** @ex C122_interim_mean_ex: window 2 over float, the last four values between 1 and 8. *)
Lemma c122_interim_mean_ex :
  let l := since_clear [Push S754_nan; Push (S754_infinity false); Push (f32 3); Push (f32 5); Push (f32 8); Push (f32 1); Push (f32 6)] in
  Forall (fun x => ieee_finite 24 128 x /\ Rabs (ieee_real x) <= 8) (lastn (2 * 2) l) /\
  Forall (fun x => 1 <= ieee_real x <= 8) (lastn (2 * 2) l).
Proof.
  cbv zeta. split; vm_compute lastn; [fmags|].
  repeat (apply Forall_cons; [unfold ieee_real, SF2R, F2R; cbn; lra|]). apply Forall_nil.
Qed.

(** @prop C122_window_mean: likewise mean() of the window filter, within the range of the last
    W values up to the drift [n (26 u M + 14 eta)] after [n] pushes. *)
Lemma c122_window_mean : forall (prec emax : Z) (W : nat) (ops : list (op spec_float)) (M lo hi : R),
  (1 < prec < emax)%Z ->
  let l := since_clear ops in
  let n := INR (length l) in
  let u := bpow radix2 (- prec) in
  let eta := bpow radix2 (2 - emax - prec) in
  let big := bpow radix2 (emax - 1) in
  (0 < W)%nat -> (Z.of_nat W <= 2 ^ prec)%Z -> (N.of_nat W < szmod)%N ->
  l <> [] -> 16 * n * u <= 1 -> 16 * M + 60 * n * eta <= big ->
  Forall (fun x => ieee_finite prec emax x /\ Rabs (ieee_real x) <= M) l ->
  Forall (fun x => lo <= ieee_real x <= hi) (lastn W l) ->
  let F := ieee prec emax in
  let m := ieee_real (wmean_mean F (run (wmean_push F W) (wmean_clear F) (wmean_init F) ops)) in
  let E := n * (26 * u * M + 14 * eta) in
  lo - E <= m <= hi + E.
Proof.
  intros prec emax W ops M lo hi Hp l n u eta big HW HK Hs NE Hn HM HF HR F m E.
  destruct (c110_window_mean prec emax W ops M Hp HW HK Hs NE Hn HM HF) as (_ & A). eapply leave; [exact A|].
  fold l. apply mean_bounds.
  - intros Z. apply (f_equal (@length R)) in Z. rewrite lastn_length, map_length in Z.
    destruct l; [congruence|cbn in Z; lia].
  - rewrite lastn_map. apply ireal_within. exact HR.
Qed.

(** @ex C122_window_mean_ex: window 2 over float, the last two values 8 and 1. *)
Lemma c122_window_mean_ex :
  let l := since_clear [Push S754_nan; Clear; Push (f32 200); Push (f32 5); Push (f32 8); Push (f32 1)] in
  (Z.of_nat 2 <= 2 ^ 24)%Z /\ (N.of_nat 2 < szmod)%N /\ l <> [] /\ 16 * INR (length l) * bpow radix2 (- 24) <= 1 /\
  16 * 200 + 60 * INR (length l) * bpow radix2 (2 - 128 - 24) <= bpow radix2 (128 - 1) /\
  Forall (fun x => ieee_finite 24 128 x /\ Rabs (ieee_real x) <= 200) l /\
  Forall (fun x => 1 <= ieee_real x <= 8) (lastn 2 l).
Proof.
  cbv zeta. pose proof float_tiny. pose proof float_big. split; [lia|]. split; [reflexivity|]. split; [discriminate|].
  change (since_clear _) with [f32 200; f32 5; f32 8; f32 1]. cbn [length INR].
  split; [cbn; lra|]. split; [lra|]. split; [fmags|].
  vm_compute lastn. repeat (apply Forall_cons; [unfold ieee_real, SF2R, F2R; cbn; lra|]). apply Forall_nil.
Qed.

(** @prop C122_decay_mean: likewise mean() of the decay filter, within the range of the pushed
    values up to [209 u M / f + 57 eta (1 + M) / f^2], however many values are pushed. *)
Lemma c122_decay_mean : forall (prec emax : Z) (f : spec_float) (l : list spec_float) (M lo hi : R),
  (1 < prec < emax)%Z ->
  let u := bpow radix2 (- prec) in
  let eta := bpow radix2 (2 - emax - prec) in
  let big := bpow radix2 (emax - 1) in
  let fv := ieee_real f in
  ieee_finite prec emax f -> 0 < fv <= 1 -> 104 * u <= fv -> 56 * eta <= fv * fv ->
  l <> [] -> 16 * (M + 1) <= big -> 32 <= big ->
  Forall (fun x => ieee_finite prec emax x /\ Rabs (ieee_real x) <= M) l ->
  Forall (fun x => lo <= ieee_real x <= hi) l ->
  let F := ieee prec emax in
  let m := ieee_real (dmean_mean F (run (dmean_push F) (dmean_clear F) (dmean_init F f) (pushes l))) in
  let E := 209 * u * M / fv + 57 * eta * (1 + M) / (fv * fv) in
  lo - E <= m <= hi + E.
Proof.
  intros prec emax f l M lo hi Hp u eta big fv Ff Hf Hu He NE HM H32 HF HR F m E.
  destruct (c110_decay_mean prec emax f l M Hp Ff Hf Hu He NE HM H32 HF) as (_ & A). eapply leave; [exact A|].
  apply ewma_bounds; [exact Hf| |apply ireal_within; exact HR].
  destruct l; [congruence|discriminate].
Qed.

(** @ex C122_decay_mean_ex: factor 1/2 over float, values between -7 and 1000. *)
Lemma c122_decay_mean_ex :
  let f := @ndiv (ieee 24 128) (f32 1) (f32 2) in
  ieee_finite 24 128 f /\ ieee_real f = / 2 /\ 104 * bpow radix2 (- 24) <= / 2 /\ 56 * bpow radix2 (2 - 128 - 24) <= / 2 * / 2 /\
  16 * (1000 + 1) <= bpow radix2 (128 - 1) /\ 32 <= bpow radix2 (128 - 1) /\
  Forall (fun x => ieee_finite 24 128 x /\ Rabs (ieee_real x) <= 1000) [f32 1000; f32 (-7)] /\
  Forall (fun x => -7 <= ieee_real x <= 1000) [f32 1000; f32 (-7)].
Proof.
  cbv zeta. pose proof float_tiny. pose proof float_big. split; [split; vm_compute; reflexivity|]. split.
  { match goal with |- ieee_real ?x = _ => let y := eval vm_compute in x in change x with y end. unfold ieee_real, SF2R, F2R. cbn. lra. }
  split; [cbn; lra|]. split; [lra|]. split; [lra|]. split; [lra|]. split; [fmags|].
  match goal with |- Forall _ ?x => let y := eval vm_compute in x in change x with y end.
  repeat (apply Forall_cons; [unfold ieee_real, SF2R, F2R; cbn; lra|]). apply Forall_nil.
Qed.

(** ** Reads of the quantile estimator *)

(** @prop C122_psquare_safe: in every IEEE format with at least 8 bits in which size_t is
    in range, for quantiles between 0 and 1 - 2^(3-prec) and every history of values, NaN and
    infinities included: get<i> reads no element outside of the array, and while the
    values are stored an interpolated estimate is computed from two stored values. *)
Lemma c122_safe : forall (prec emax : Z) (qs : list spec_float) (ops : list (op spec_float)) (index : nat),
  (8 <= prec < emax)%Z -> (65 <= emax)%Z ->
  Forall (fun q => ieee_finite prec emax q /\ 0 <= ieee_real q <= 1 - bpow radix2 (3 - prec)) qs ->
  (Z.of_nat (2 * length qs + 3) <= 2 ^ prec)%Z -> (N.of_nat (2 * length qs + 3) < 2 ^ 62)%N ->
  let l := since_clear ops in
  (N.of_nat (length l) < szmod)%N -> (index <= length qs + 1)%nat ->
  let F := ieee prec emax in
  let s := run (psq_push F qs) (psq_clear F qs) (psq_init F qs) ops in
  let h := ps_heights F s in
  (exists x, psq_get F qs s index = Some x) /\
  (forall i, index = S i -> (i < length qs)%nat -> (2 <= length l <= 2 * length qs + 3)%nat ->
   exists j k w, (j < length l)%nat /\ (k < length l)%nat /\
     psq_get F qs s index = Some (@nadd F (nth j h n0) (@nmul F w (@nsub F (nth k h n0) (nth j h n0))))).
Proof.
  intros prec emax qs ops index [Hp8 Hm] H65 Hq HL HL2 l Hf Hi F s h. assert (Hp : (1 < prec)%Z) by lia.
  unfold h, s. rewrite PsquareGeneric.run_psq. fold l.
  apply (safe_get (3 - emax - prec) prec Hp8 ltac:(lia) ltac:(lia) F (fdenotes prec emax) _ (correct_ieee prec emax Hp Hm H65)
    ltac:(apply bpow_le; lia) qs l index).
  - eapply Forall_impl; [|exact Hq]. intros q [Fq Qb]. exists (ieee_real q).
    split; [split; [exact Fq|reflexivity]|].
    replace (3 - prec)%Z with (3 + - prec)%Z in Qb by lia. rewrite bpow_plus in Qb.
    change (bpow radix2 3) with 8 in Qb. exact Qb.
  - exact Hf.
  - exact HL.
  - exact HL2.
  - exact Hi.
Qed.

(** @ex C122_psquare_safe_ex: over float, the median of a NaN and an infinity, which is NaN,
    after a clear. *)
Lemma c122_safe_ex :
  let half := S754_finite false 8388608 (-24) in
  Forall (fun q => ieee_finite 24 128 q /\ 0 <= ieee_real q <= 1 - bpow radix2 (3 - 24)) [half] /\
  (Z.of_nat (2 * length [half] + 3) <= 2 ^ 24)%Z /\ (N.of_nat (2 * length [half] + 3) < 2 ^ 62)%N /\
  let F := ieee 24 128 in
  let ops := [Push (f32 3); Clear; Push S754_nan; Push (S754_infinity false)] in
  (N.of_nat (length (since_clear ops)) < szmod)%N /\ (1 <= length [half] + 1)%nat /\
  psq_get F [half] (run (psq_push F [half]) (psq_clear F [half]) (psq_init F [half]) ops) 1 = Some S754_nan.
Proof.
  intros half. split.
  - change (bpow radix2 (3 - 24)) with (/ 2097152). apply Forall_cons; [|apply Forall_nil].
    split; [split; reflexivity|]. unfold half, ieee_real. cbn [SF2R]. unfold F2R. cbn [Fnum Fexp cond_Zopp].
    change (bpow radix2 (-24)) with (/ 16777216). lra.
  - split; [cbn; lia|]. split; [vm_compute; reflexivity|]. intros F ops. split; [reflexivity|]. split; [cbn; lia|]. vm_compute. reflexivity.
Qed.
