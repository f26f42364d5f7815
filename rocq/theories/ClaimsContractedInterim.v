(** * Claim C123: accuracy of the interim filters with fused multiply-adds *)

From Coq Require Import Reals ZArith NArith List Bool.
From Coq Require Import Floats.SpecFloat.
From Flocq Require Import Core.
From Verif Require Import Arith History SpecStats SpecBlocks Cumulative Interim ExactRuns Ieee Contracted IeeeFused ContractedInterim.
Import ListNotations.
Local Open Scope R_scope.
(** A float of an integer. *)
Local Notation f32 z := (ieee_of_Z 24 128 z).
(* @end-header *)
From Coq Require Import Lia Lra Psatz.
From Flocq Require Import IEEE754.BinarySingleNaN.
From Verif Require Import HistoryLemmas StatsLemmas BlockLemmas CumulativeProofs WindowProofs InterimStats
  Approx ApproxInstances AccuracyProofs AccuracyVariance AccuracyInterim IeeeProofs ClaimsAccuracy ClaimsAccuracyInterim
  ClaimsFormats ClaimsFormatsInterim IeeeFusedProofs IeeeDeferred ContractedWindowProofs ContractedInterimProofs
  ClaimsContractedAccuracy ClaimsContractedWindow.

Lemma cvar_fma_csize (G : num) (U : fused G) (l : list G) : (N.of_nat (length l) < szmod)%N ->
  cvar_size G (fold_left (cvar_push_fma G U) l (cvar_init G)) = N.of_nat (length l).
Proof.
  intros H. unfold cvar_size. replace (cv_super G (fold_left (cvar_push_fma G U) l (cvar_init G))) with (fold_left (cmean_push G) l (cmean_init G)); [apply cmean_csize, H|].
  change (cmean_init G) with (cv_super G (cvar_init G)). generalize (cvar_init G). clear. induction l as [|x l IH]; intros s; [reflexivity|]. cbn [fold_left]. rewrite <- IH. reflexivity.
Qed.

Lemma ccov_fma_csize (G : num) (U : fused G) (l : list (G * G)) : (N.of_nat (length l) < szmod)%N ->
  ccov_size G (fold_left (ccov_push_fma G U) l (ccov_init G)) = N.of_nat (length l).
Proof.
  intros H. unfold ccov_size. replace (cc_x G (fold_left (ccov_push_fma G U) l (ccov_init G))) with (fold_left (cmean_push G) (map fst l) (cmean_init G)).
  { rewrite cmean_csize; rewrite map_length; [reflexivity|exact H]. }
  change (cmean_init G) with (cc_x G (ccov_init G)). generalize (ccov_init G). clear. induction l as [|[x y] l IH]; intros s; [reflexivity|]. cbn [fold_left map fst]. rewrite <- IH. reflexivity.
Qed.

Lemma ivar_fma_run_state (F : num) (U : fused F) W ops : (0 < W)%nat -> (N.of_nat W < szmod)%N ->
  run (ivar_push_fma F U (N.of_nat W)) (ivar_clear F) (ivar_init F) ops =
  Duo (fold_left (cvar_push_fma F U) (cur_block W (since_clear ops)) (cvar_init F))
      (fold_left (cvar_push_fma F U) (prev_block W (since_clear ops)) (cvar_init F)).
Proof.
  intros HW HS. unfold ivar_push_fma, ivar_clear, ivar_init.
  apply (duo_run W HW); [lia|reflexivity|apply cvar_fma_csize].
Qed.

Lemma icov_fma_run_state (F : num) (U : fused F) W ops : (0 < W)%nat -> (N.of_nat W < szmod)%N ->
  run (icov_push_fma F U (N.of_nat W)) (icov_clear F) (icov_init F) ops =
  Duo (fold_left (ccov_push_fma F U) (cur_block W (since_clear ops)) (ccov_init F))
      (fold_left (ccov_push_fma F U) (prev_block W (since_clear ops)) (ccov_init F)).
Proof.
  intros HW HS. unfold icov_push_fma, icov_clear, icov_init.
  apply (duo_run W HW); [lia|reflexivity|apply ccov_fma_csize].
Qed.

(** @prop C123_ieee_interim_mean: with fused multiply-adds in an IEEE format, whichever of the
    two products is fused, the interim mean keeps the bound of C110. *)
Lemma c123_ieee_interim_mean : forall (prec emax : Z) (first : bool) (W : nat) (ops : list (op spec_float)) (M : R),
  (1 < prec < emax)%Z ->
  let l := since_clear ops in
  let u := bpow radix2 (- prec) in
  let eta := bpow radix2 (2 - emax - prec) in
  let big := bpow radix2 (emax - 1) in
  l <> [] -> (0 < W)%nat -> (2 * N.of_nat W < szmod)%N -> 16 * INR W * u <= 1 ->
  16 * M + 60 * INR W * eta <= big -> 24 * INR W * M + 112 * (INR W * INR W * eta) + 5 * eta <= big ->
  Forall (fun x => ieee_finite prec emax x /\ Rabs (ieee_real x) <= M) (lastn (2 * W) l) ->
  let F := ieee prec emax in
  let w := N.of_nat W in
  let m := imean_mean_fma F (ieee_fused prec emax) first w (run (imean_push F w) (imean_clear F) (imean_init F) ops) in
  let p := mean (map ieee_real (prev_block W l)) in
  let a := mean (map ieee_real (cur_block W l)) in
  let s := card (cur_block W l) in
  let bound := (INR W + 46) * u * M + (3 * INR W + 29) * eta in
  ieee_finite prec emax m /\
  ((length l <= W)%nat -> Rabs (ieee_real m - mean (map ieee_real l)) <= bound) /\
  ((W < length l)%nat -> Rabs (ieee_real m - (p * (INR W - s) + a * (2 * s)) / (INR W + s)) <= bound).
Proof.
  intros prec emax first W ops M [Hp1 Hp2] l u eta big NE HW HS Hn HM1 HM2 HF F w m p a s bound.
  assert (M0 : 0 <= M) by (apply (ieee_pos prec emax M (lastn (2 * W) l)); [apply recent_nil; assumption|exact HF]).
  destruct (imean_fma_accuracy (approx_ieee prec emax Hp1 Hp2) (fzero prec emax Hp1 Hp2) (ieee_fused prec emax) (af_ieee prec emax Hp1 Hp2) first ieee_real W M l) as (r & (Fr & Er) & H1 & H2);
    try assumption.
  - apply ieee_tame. exact HF.
  - apply count2_le; [lia|exact Hn].
  - assert (Em : m = imean_mean_fma F (ieee_fused prec emax) first w (Duo (fold_left (cmean_push F) (cur_block W l) (cmean_init F))
        (fold_left (cmean_push F) (prev_block W l) (cmean_init F)))).
    { unfold m, w. f_equal. exact (imean_run_state F W ops HW HS). }
    rewrite Em. subst r. split; [exact Fr|]. unfold bound. rewrite !(Rmult_assoc _ _ M).
    split; [exact H1|]. intros L. specialize (H2 L). unfold card in H2. rewrite !map_length in H2. exact H2.
Qed.

(** @ex C123_ieee_interim_mean_ex: window 2 over float after a NaN, an infinity and five numbers. *)
Lemma c123_ieee_interim_mean_ex :
  let l := since_clear [Push S754_nan; Push (S754_infinity false); Push (f32 3); Push (f32 5); Push (f32 8); Push (f32 1); Push (f32 6)] in
  l <> [] /\ (2 * N.of_nat 2 < szmod)%N /\ 16 * INR 2 * bpow radix2 (- 24) <= 1 /\
  16 * 8 + 60 * INR 2 * bpow radix2 (2 - 128 - 24) <= bpow radix2 (128 - 1) /\
  24 * INR 2 * 8 + 112 * (INR 2 * INR 2 * bpow radix2 (2 - 128 - 24)) + 5 * bpow radix2 (2 - 128 - 24) <= bpow radix2 (128 - 1) /\
  Forall (fun x => ieee_finite 24 128 x /\ Rabs (ieee_real x) <= 8) (lastn (2 * 2) l) /\
  cur_block 2 l = [f32 6] /\ prev_block 2 l = [f32 8; f32 1].
Proof. exact c110_interim_mean_ex. Qed.

(** @prop C123_ieee_interim_variance: likewise the interim variance, the products in the
    cumulative variances of the blocks fused as well. *)
Lemma c123_ieee_interim_variance : forall (prec emax : Z) (first : bool) (W : nat) (ops : list (op spec_float)) (M : R),
  (1 < prec < emax)%Z ->
  let l := since_clear ops in
  let u := bpow radix2 (- prec) in
  let eta := bpow radix2 (2 - emax - prec) in
  let big := bpow radix2 (emax - 1) in
  l <> [] -> (0 < W)%nat -> (N.of_nat W <= 2 ^ 32)%N -> 64 * INR W * u <= 1 -> INR W * INR W * u <= 1 ->
  32 * INR W * eta <= M -> 16 * M + 60 * INR W * eta <= big -> 64 * INR W * (M * M) + 16 * INR W * eta <= big ->
  416 * (INR W * INR W * (M * M)) + 60 * (INR W * INR W * eta) + 5 * eta <= big ->
  Forall (fun x => ieee_finite prec emax x /\ Rabs (ieee_real x) <= M) (lastn (2 * W) l) ->
  let F := ieee prec emax in
  let w := N.of_nat W in
  let v := ivar_variance_fma F (ieee_fused prec emax) first w (run (ivar_push_fma F (ieee_fused prec emax) w) (ivar_clear F) (ivar_init F) ops) in
  let vp := variance (map ieee_real (prev_block W l)) in
  let va := variance (map ieee_real (cur_block W l)) in
  let s := card (cur_block W l) in
  let wp := (INR W - s + 1) ^ 2 in
  let wa := 2 * (s - 1) in
  let bound := 5 * ((14 * INR W + 454) * u * (M * M) + (3 * INR W + 13) * (10 * M) * eta + 27 * eta) in
  ieee_finite prec emax v /\
  ((length l <= W)%nat -> Rabs (ieee_real v - variance (map ieee_real l)) <= bound) /\
  ((W < length l)%nat -> Rabs (ieee_real v - (wp * vp + wa * va) / (wp + wa)) <= bound).
Proof.
  intros prec emax first W ops M [Hp1 Hp2] l u eta big NE HW H32 Hn HK Ht HM1 HM2 HM3 HF F w v vp va s wp wa bound.
  change (2 ^ 32)%N with 4294967296%N in H32.
  assert (HS : (N.of_nat W < szmod)%N) by (unfold szmod; lia).
  assert (M0 : 0 <= M) by (apply (ieee_pos prec emax M (lastn (2 * W) l)); [apply recent_nil; assumption|exact HF]).
  assert (W1 : 1 <= INR W) by (apply (le_INR 1); lia).
  pose proof (approx_ieee prec emax Hp1 Hp2) as AP.
  assert (KK : (N.of_nat W * N.of_nat W <= Z.to_N (2 ^ prec))%N) by (apply square_le; [lia|exact HK]).
  assert (Fi : @fine big u eta M M (INR W)) by (unfold fine; repeat split; assumption).
  destruct (recent_blocks _ W l HW (ieee_tame prec emax M _ HF)) as [Tc Tp].
  destruct (duo_block_fma_accuracy AP (fzero prec emax Hp1 Hp2) (ieee_fused prec emax) (af_ieee prec emax Hp1 Hp2) first W M M l (cvar_push_fma F (ieee_fused prec emax)) (cvar_init F)
    (cvar_size F) (cvar_empty F) (cvar_variance F) (map ieee_real) variance) as (r & (Fr & Er) & H1 & H2); try assumption.
  - intros c Hc. assert (Hc' : (N.of_nat (length c) < szmod)%N) by lia. apply cvar_fma_csize. exact Hc'.
  - reflexivity.
  - intros c Hc NEc Lc.
    assert (Tb : Forall (@tame F (fdenotes prec emax) ieee_real M) c) by (destruct Hc; subst c; assumption).
    destruct (tame_vals (F := F) ieee_real M c Tb) as [Vc Mc].
    assert (NEm : map ieee_real c <> []) by (destruct c; [congruence|discriminate]).
    split; [apply variance_abs; [lra|exact NEm|exact Mc]|].
    pose proof (fine_le AP M M _ (INR W) (conj (inr_ge1 c NEc) (le_INR _ _ Lc)) Fi) as (_ & _ & _ & G1 & G2 & G3 & G4 & G5 & G6).
    assert (Z : (N.of_nat (length c) < szmod)%N) by lia.
    destruct (c123_ieee_variance prec emax (pushes c) M (conj Hp1 Hp2)) as [A1 A2]; rewrite ?since_clear_pushes; try assumption.
    { eapply Forall_impl; [|exact Tb]. intros x [[A1 _] A2]. split; assumption. }
    cbv zeta in A1, A2. rewrite since_clear_pushes in A2. unfold pushes in A1, A2. rewrite run_map_push in A1, A2.
    eexists. split; [split; [exact A1|reflexivity]|]. eapply Rle_trans; [exact A2|]. rewrite verr_closed. unfold u, eta. lra.
  - assert (Em : v = ivar_variance_fma F (ieee_fused prec emax) first w (Duo (fold_left (cvar_push_fma F (ieee_fused prec emax)) (cur_block W l) (cvar_init F))
        (fold_left (cvar_push_fma F (ieee_fused prec emax)) (prev_block W l) (cvar_init F)))).
    { unfold v, w. f_equal. exact (ivar_fma_run_state F (ieee_fused prec emax) W ops HW HS). }
    rewrite Em. subst r. split; [exact Fr|]. fold u eta in H1, H2.
    split; intros L; [specialize (H1 L)|specialize (H2 L)]; unfold bound.
    + eapply Rle_trans; [exact H1|]. lra.
    + eapply Rle_trans; [exact H2|]. lra.
Qed.

(** @ex C123_ieee_interim_variance_ex: an instance of the hypotheses over float. *)
Lemma c123_ieee_interim_variance_ex :
  let l := since_clear (Push S754_nan :: map (fun k => Push (f32 k)) [3; 5; 8; 1; 6; -7; 2; 9]%Z) in
  let eta := bpow radix2 (2 - 128 - 24) in
  let big := bpow radix2 (128 - 1) in
  l <> [] /\ (N.of_nat 4 <= 2 ^ 32)%N /\ 64 * INR 4 * bpow radix2 (- 24) <= 1 /\ INR 4 * INR 4 * bpow radix2 (- 24) <= 1 /\
  32 * INR 4 * eta <= 10 /\ 16 * 10 + 60 * INR 4 * eta <= big /\ 64 * INR 4 * (10 * 10) + 16 * INR 4 * eta <= big /\
  416 * (INR 4 * INR 4 * (10 * 10)) + 60 * (INR 4 * INR 4 * eta) + 5 * eta <= big /\
  Forall (fun x => ieee_finite 24 128 x /\ Rabs (ieee_real x) <= 10) (lastn (2 * 4) l) /\ cur_block 4 l = [f32 9].
Proof. exact c110_interim_variance_ex. Qed.

(** @prop C123_ieee_interim_covariance: likewise the interim covariance. *)
Lemma c123_ieee_interim_covariance : forall (prec emax : Z) (first : bool) (W : nat) (ops : list (op (spec_float * spec_float))) (Mx My : R),
  (1 < prec < emax)%Z ->
  let l := since_clear ops in
  let u := bpow radix2 (- prec) in
  let eta := bpow radix2 (2 - emax - prec) in
  let big := bpow radix2 (emax - 1) in
  l <> [] -> (0 < W)%nat -> (N.of_nat W <= 2 ^ 32)%N -> 64 * INR W * u <= 1 -> INR W * INR W * u <= 1 ->
  32 * INR W * eta <= Mx -> 32 * INR W * eta <= My ->
  16 * Mx + 60 * INR W * eta <= big -> 16 * My + 60 * INR W * eta <= big ->
  64 * INR W * (Mx * My) + 16 * INR W * eta <= big ->
  416 * (INR W * INR W * (Mx * My)) + 60 * (INR W * INR W * eta) + 5 * eta <= big ->
  Forall (fun p => (ieee_finite prec emax (fst p) /\ Rabs (ieee_real (fst p)) <= Mx) /\
                   (ieee_finite prec emax (snd p) /\ Rabs (ieee_real (snd p)) <= My)) (lastn (2 * W) l) ->
  let real p := (ieee_real (fst p), ieee_real (snd p)) in
  let F := ieee prec emax in
  let w := N.of_nat W in
  let v := icov_variance_fma F (ieee_fused prec emax) first w (run (icov_push_fma F (ieee_fused prec emax) w) (icov_clear F) (icov_init F) ops) in
  let vp := covariance (map real (prev_block W l)) in
  let va := covariance (map real (cur_block W l)) in
  let s := card (cur_block W l) in
  let wp := (INR W - s + 1) ^ 2 in
  let wa := 2 * (s - 1) in
  let bound := 5 * ((14 * INR W + 454) * u * (Mx * My) + (3 * INR W + 13) * (4 * Mx + 6 * My) * eta + 27 * eta) in
  ieee_finite prec emax v /\
  ((length l <= W)%nat -> Rabs (ieee_real v - covariance (map real l)) <= bound) /\
  ((W < length l)%nat -> Rabs (ieee_real v - (wp * vp + wa * va) / (wp + wa)) <= bound).
Proof.
  intros prec emax first W ops Mx My [Hp1 Hp2] l u eta big NE HW H32 Hn HK Htx Hty HMx HMy HM2 HM3 HF real F w v vp va s wp wa bound.
  change (2 ^ 32)%N with 4294967296%N in H32.
  assert (HS : (N.of_nat W < szmod)%N) by (unfold szmod; lia).
  assert (W1 : 1 <= INR W) by (apply (le_INR 1); lia).
  assert (T0 : 0 < eta) by apply bp.
  assert (WT : 0 <= INR W * eta) by (apply Rmult_le_pos; lra).
  assert (X0 : 0 <= Mx) by lra. assert (Y0 : 0 <= My) by lra.
  pose proof (approx_ieee prec emax Hp1 Hp2) as AP.
  assert (KK : (N.of_nat W * N.of_nat W <= Z.to_N (2 ^ prec))%N) by (apply square_le; [lia|exact HK]).
  assert (Fi : @fine big u eta Mx My (INR W)) by (unfold fine; repeat split; assumption).
  destruct (recent_blocks _ W l HW HF) as [Tc Tp].
  destruct (duo_block_fma_accuracy AP (fzero prec emax Hp1 Hp2) (ieee_fused prec emax) (af_ieee prec emax Hp1 Hp2) first W Mx My l (ccov_push_fma F (ieee_fused prec emax)) (ccov_init F)
    (ccov_size F) (ccov_size0 F) (ccov_variance F) (map real) covariance) as (r & (Fr & Er) & H1 & H2); try assumption.
  - intros c Hc. assert (Hc' : (N.of_nat (length c) < szmod)%N) by lia. apply ccov_fma_csize. exact Hc'.
  - reflexivity.
  - intros c Hc NEc Lc.
    assert (Tb : Forall (fun p => (ieee_finite prec emax (fst p) /\ Rabs (ieee_real (fst p)) <= Mx) /\
                   (ieee_finite prec emax (snd p) /\ Rabs (ieee_real (snd p)) <= My)) c) by (destruct Hc; subst c; assumption).
    assert (Vc : Forall2 (@pval F (fdenotes prec emax)) c (map real c)).
    { clear - Tb. induction Tb as [|x c [[A1 _] [A2 _]] _ IH]; cbn; constructor; [|exact IH].
      split; (split; [assumption|reflexivity]). }
    assert (Mc : Forall (fun p => Rabs (fst p) <= Mx /\ Rabs (snd p) <= My) (map real c)).
    { apply Forall_map. eapply Forall_impl; [|exact Tb]. cbn. tauto. }
    assert (NEm : map real c <> []) by (destruct c; [congruence|discriminate]).
    split; [apply covariance_abs; [lra|lra|exact NEm|exact Mc]|].
    pose proof (fine_le AP Mx My _ (INR W) (conj (inr_ge1 c NEc) (le_INR _ _ Lc)) Fi) as (_ & _ & _ & G1 & G2 & G3 & G4 & G5 & G6).
    assert (Z : (N.of_nat (length c) < szmod)%N) by lia.
    destruct (c123_ieee_covariance prec emax (pushes c) Mx My (conj Hp1 Hp2)) as [A1 A2]; rewrite ?since_clear_pushes; try assumption.
    cbv zeta in A1, A2. rewrite since_clear_pushes in A2. unfold pushes in A1, A2. rewrite run_map_push in A1, A2.
    eexists. split; [split; [exact A1|reflexivity]|]. eapply Rle_trans; [exact A2|]. rewrite verr_closed. unfold u, eta. lra.
  - assert (Em : v = icov_variance_fma F (ieee_fused prec emax) first w (Duo (fold_left (ccov_push_fma F (ieee_fused prec emax)) (cur_block W l) (ccov_init F))
        (fold_left (ccov_push_fma F (ieee_fused prec emax)) (prev_block W l) (ccov_init F)))).
    { unfold v, w. f_equal. exact (icov_fma_run_state F (ieee_fused prec emax) W ops HW HS). }
    rewrite Em. subst r. split; [exact Fr|]. fold u eta in H1, H2.
    split; intros L; [specialize (H1 L)|specialize (H2 L)]; unfold bound.
    + eapply Rle_trans; [exact H1|]. lra.
    + eapply Rle_trans; [exact H2|]. lra.
Qed.

(** @ex C123_ieee_interim_covariance_ex: an instance of the hypotheses over float. *)
Lemma c123_ieee_interim_covariance_ex :
  let l := since_clear (map Push [(f32 3, f32 9); (f32 5, f32 25); (f32 8, f32 64); (f32 1, f32 1); (f32 (-6), f32 36)]) in
  let eta := bpow radix2 (2 - 128 - 24) in
  let big := bpow radix2 (128 - 1) in
  l <> [] /\ (N.of_nat 2 <= 2 ^ 32)%N /\ 64 * INR 2 * bpow radix2 (- 24) <= 1 /\ INR 2 * INR 2 * bpow radix2 (- 24) <= 1 /\
  32 * INR 2 * eta <= 8 /\ 32 * INR 2 * eta <= 64 /\ 16 * 8 + 60 * INR 2 * eta <= big /\ 16 * 64 + 60 * INR 2 * eta <= big /\
  64 * INR 2 * (8 * 64) + 16 * INR 2 * eta <= big /\
  416 * (INR 2 * INR 2 * (8 * 64)) + 60 * (INR 2 * INR 2 * eta) + 5 * eta <= big /\
  Forall (fun p => (ieee_finite 24 128 (fst p) /\ Rabs (ieee_real (fst p)) <= 8) /\
                   (ieee_finite 24 128 (snd p) /\ Rabs (ieee_real (snd p)) <= 64)) (lastn (2 * 2) l) /\
  prev_block 2 l = [(f32 8, f32 64); (f32 1, f32 1)].
Proof. exact c110_interim_covariance_ex. Qed.

(** @ex C123_ieee_interim_visible_ex: which product is fused is visible in the result: window 8
    over float. *)
Lemma c123_ieee_interim_visible_ex :
  let F := ieee 24 128 in
  let ops := map Push [f32 18; f32 1; f32 1; f32 3; f32 1; f32 1; f32 1; f32 2; f32 1; f32 5; f32 5] in
  let s := run (imean_push F 8) (imean_clear F) (imean_init F) ops in
  SFeqb (imean_mean_fma F (ieee_fused 24 128) true 8 s) (imean_mean_fma F (ieee_fused 24 128) false 8 s) = false.
Proof. vm_compute. reflexivity. Qed.
