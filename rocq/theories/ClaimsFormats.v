(** * Claim C110: the error bounds for float and every other IEEE value type *)

From Coq Require Import Reals ZArith NArith List Bool.
From Coq Require Import Floats.SpecFloat.
From Flocq Require Import Core.
From Verif Require Import Arith History SpecStats SpecDecay SpecImpulse Cumulative Window Decay Impulse ImpulseRuns Binary64 Ieee.
Import ListNotations.
Local Open Scope R_scope.
(** A float of an integer. *)
Local Notation f32 z := (ieee_of_Z 24 128 z).
(* @end-header *)
From Coq Require Import Lia Lra Psatz.
From Flocq Require Import IEEE754.BinarySingleNaN.
From Verif Require Import HistoryLemmas StatsLemmas Approx ApproxInstances CumulativeProofs WindowProofs DecayProofs ImpulseProofs
  AccuracyProofs AccuracyVariance AccuracyWindow AccuracyFilters IeeeProofs ClaimsAccuracy.

(** @prop C110_double: the instance of 53 bits and exponents up to 1024 is the
    arithmetic on double of all other claims. *)
Lemma c110_double : ieee 53 1024 = b64num.
Proof. reflexivity. Qed.

(** @ex C110_double_ex: a tenth in both. *)
Lemma c110_double_ex : @ndiv (ieee 53 1024) (ieee_of_Z 53 1024 1) (ieee_of_Z 53 1024 10) = S754_finite false 7205759403792794 (-56).
Proof. vm_compute. reflexivity. Qed.

Lemma count_le (prec : Z) (k : nat) : (0 <= prec)%Z -> INR k * bpow radix2 (- prec) <= 1 -> (N.of_nat k <= Z.to_N (2 ^ prec))%N.
Proof.
  intros Hp H. assert (A : INR k <= bpow radix2 prec).
  { apply (Rmult_le_reg_r (bpow radix2 (- prec))); [apply bp|]. rewrite bp_mul, Z.add_opp_diag_r. exact H. }
  rewrite INR_IZR_INZ, <- (IZR_Zpower radix2) in A by exact Hp. apply le_IZR in A. change (Zpower radix2 prec) with (2 ^ prec)%Z in A. lia.
Qed.

Section Aux.
Variables prec emax : Z.
Lemma ieee_magn (M : R) (l : list spec_float) :
  Forall (fun x => ieee_finite prec emax x /\ Rabs (ieee_real x) <= M) l ->
  Forall (ieee_finite prec emax) l /\ Forall (fun x => Rabs x <= M) (map ieee_real l).
Proof.
  intros H. split; [eapply Forall_impl; [|exact H]; cbn; tauto|].
  apply Forall_forall. intros x Hx. apply in_map_iff in Hx as (y & <- & Hy).
  rewrite Forall_forall in H. apply H. exact Hy.
Qed.
Lemma ieee_pos (M : R) (l : list spec_float) : l <> [] ->
  Forall (fun x => ieee_finite prec emax x /\ Rabs (ieee_real x) <= M) l -> 0 <= M.
Proof. intros NE HF. apply (magn_pos ieee_real M l NE). eapply Forall_impl; [|exact HF]; cbn; tauto. Qed.
End Aux.

(** @prop C110_mean: the cumulative mean over a value type with [prec] bits and
    exponents up to [emax], for [u = 2^-prec], smallest error [eta = 2^(2-emax-prec)]
    and [big = 2^(emax-1)]: after [n] finite values of magnitude at most [M],
    [16 n u <= 1] and [16 M + 60 n eta <= big], mean() is finite and within
    [(n + 25) u M + (3 n + 11) eta] of the arithmetic mean. *)
Lemma c110_mean : forall (prec emax : Z) (ops : list (op spec_float)) (M : R),
  (1 < prec < emax)%Z ->
  let l := since_clear ops in
  let n := INR (length l) in
  let u := bpow radix2 (- prec) in
  let eta := bpow radix2 (2 - emax - prec) in
  let big := bpow radix2 (emax - 1) in
  l <> [] -> (N.of_nat (length l) < szmod)%N ->
  16 * n * u <= 1 -> 16 * M + 60 * n * eta <= big ->
  Forall (fun x => ieee_finite prec emax x /\ Rabs (ieee_real x) <= M) l ->
  let F := ieee prec emax in
  let m := cmean_mean F (run (cmean_push F) (cmean_clear F) (cmean_init F) ops) in
  ieee_finite prec emax m /\
  Rabs (ieee_real m - mean (map ieee_real l)) <= (n + 25) * u * M + (3 * n + 11) * eta.
Proof.
  intros prec emax ops M Hp l n u eta big NE Hs Hn HM HF F m.
  destruct (ieee_magn prec emax M l HF) as [Hfin Hmag]. pose proof (ieee_pos prec emax M l NE HF) as M0. assert (Hp1 : (1 < prec)%Z) by lia. assert (Hp2 : (prec < emax)%Z) by lia.
  destruct (cmean_accuracy (approx_ieee prec emax Hp1 Hp2) M M0 l (map ieee_real l)) as (r & (Fr & Er) & H); try assumption.
  - apply fdenotes_list; exact Hfin.
  - apply count_le; [lia|]. change (n * u <= 1). pose proof (bp (- prec)) as U0. fold u in U0. pose proof (pos_INR (length l)) as N0. fold n in N0.
    assert (N2 : 0 <= n * u) by (apply Rmult_le_pos; lra). clearbody n u. lra.
  - assert (Em : m = cm_mean F (fold_left (cmean_push F) l (cmean_init F))).
    { unfold m. rewrite (run_since_clear _ _ _ (cmean_clear_init F)). reflexivity. }
    rewrite Em. split; [exact Fr|]. unfold F. rewrite Er. exact H.
Qed.

Ltac fmag := split; [split; vm_compute; reflexivity|match goal with |- Rabs (ieee_real ?x) <= _ => let y := eval vm_compute in x in change x with y end;
  unfold ieee_real, SF2R, F2R; cbn; apply Rabs_le; lra].
Ltac fmags := repeat (apply Forall_cons; [fmag|]); apply Forall_nil.

Lemma float_tiny : 0 < bpow radix2 (2 - 128 - 24) <= / 1048576.
Proof. split; [apply bp|apply (bp_le (2 - 128 - 24) (-20)); lia]. Qed.
Lemma float_big : 1073741824 <= bpow radix2 (128 - 1).
Proof. apply (bp_le 30 (128 - 1)); lia. Qed.

(** @ex C110_mean_ex: three floats. *)
Lemma c110_mean_ex :
  let l := since_clear [Push (f32 9); Clear; Push (f32 1000000); Push (f32 (-7)); Push (f32 33554432)] in
  (1 < 24 < 128)%Z /\ l = [f32 1000000; f32 (-7); f32 33554432] /\ (N.of_nat (length l) < szmod)%N /\
  16 * INR (length l) * bpow radix2 (- 24) <= 1 /\
  16 * 33554432 + 60 * INR (length l) * bpow radix2 (2 - 128 - 24) <= bpow radix2 (128 - 1) /\
  Forall (fun x => ieee_finite 24 128 x /\ Rabs (ieee_real x) <= 33554432) l.
Proof.
  cbv zeta. pose proof float_tiny. pose proof float_big. split; [lia|]. split; [reflexivity|]. split; [reflexivity|]. split; [cbn; lra|]. split.
  - cbn [since_clear fold_left length INR app]. match goal with |- context [INR ?x] => let y := eval vm_compute in x in change x with y end. cbn [INR]. lra.
  - change (since_clear _) with [f32 1000000; f32 (-7); f32 33554432]. fmags.
Qed.

(** @prop C110_window_mean: the window mean, after [n] pushes since the last clear
    within [n (26 u M + 14 eta)] of the mean of the last [W] values. *)
Lemma c110_window_mean : forall (prec emax : Z) (W : nat) (ops : list (op spec_float)) (M : R),
  (1 < prec < emax)%Z ->
  let l := since_clear ops in
  let n := INR (length l) in
  let u := bpow radix2 (- prec) in
  let eta := bpow radix2 (2 - emax - prec) in
  let big := bpow radix2 (emax - 1) in
  (0 < W)%nat -> (Z.of_nat W <= 2 ^ prec)%Z -> (N.of_nat W < szmod)%N ->
  l <> [] -> 16 * n * u <= 1 -> 16 * M + 60 * n * eta <= big ->
  Forall (fun x => ieee_finite prec emax x /\ Rabs (ieee_real x) <= M) l ->
  let F := ieee prec emax in
  let m := wmean_mean F (run (wmean_push F W) (wmean_clear F) (wmean_init F) ops) in
  ieee_finite prec emax m /\
  Rabs (ieee_real m - mean (lastn W (map ieee_real l))) <= n * (26 * u * M + 14 * eta).
Proof.
  intros prec emax W ops M Hp l n u eta big HW HK Hs NE Hn HM HF F m.
  destruct (ieee_magn prec emax M l HF) as [Hfin Hmag]. pose proof (ieee_pos prec emax M l NE HF) as M0. assert (Hp1 : (1 < prec)%Z) by lia. assert (Hp2 : (prec < emax)%Z) by lia.
  destruct (wmean_acc (approx_ieee prec emax Hp1 Hp2) M M0 W HW l (map ieee_real l)) as (r & (Fr & Er) & H); try assumption.
  - apply fdenotes_list; exact Hfin.
  - lia.
  - assert (Em : m = wm_mean F (fold_left (wmean_push F W) l (wmean_init F))).
    { unfold m. rewrite (run_since_clear _ _ _ (wmean_clear_init F)). reflexivity. }
    rewrite Em. split; [exact Fr|]. unfold F. rewrite Er. change (INR (length l)) with n in H. unfold wstep in H. fold u eta in H. lra.
Qed.

(** @ex C110_window_mean_ex: a window of two floats. *)
Lemma c110_window_mean_ex :
  let l := since_clear [Push (f32 9); Clear; Push (f32 1000000); Push (f32 (-7)); Push (f32 33554432)] in
  (0 < 2)%nat /\ (Z.of_nat 2 <= 2 ^ 24)%Z /\ lastn 2 l = [f32 (-7); f32 33554432] /\
  Forall (fun x => ieee_finite 24 128 x /\ Rabs (ieee_real x) <= 33554432) l.
Proof.
  cbv zeta. split; [lia|]. split; [lia|]. split; [reflexivity|].
  change (since_clear _) with [f32 1000000; f32 (-7); f32 33554432]. fmags.
Qed.

(** @prop C110_decay_mean: the exponential mean, for a factor [f] that is not smaller
    than [104 u], however many values are pushed, within
    [209 u M / f + 57 eta (1 + M) / f^2] of the exponentially weighted mean. *)
Lemma c110_decay_mean : forall (prec emax : Z) (f : spec_float) (l : list spec_float) (M : R),
  (1 < prec < emax)%Z ->
  let u := bpow radix2 (- prec) in
  let eta := bpow radix2 (2 - emax - prec) in
  let big := bpow radix2 (emax - 1) in
  let fv := ieee_real f in
  ieee_finite prec emax f -> 0 < fv <= 1 -> 104 * u <= fv -> 56 * eta <= fv * fv ->
  l <> [] -> 16 * (M + 1) <= big -> 32 <= big ->
  Forall (fun x => ieee_finite prec emax x /\ Rabs (ieee_real x) <= M) l ->
  let F := ieee prec emax in
  let m := dmean_mean F (run (dmean_push F) (dmean_clear F) (dmean_init F f) (pushes l)) in
  ieee_finite prec emax m /\
  Rabs (ieee_real m - ewma fv (map ieee_real l)) <= 209 * u * M / fv + 57 * eta * (1 + M) / (fv * fv).
Proof.
  intros prec emax f l M Hp u eta big fv Ff Hf Hu He NE HM H32 HF F m.
  destruct (ieee_magn prec emax M l HF) as [Hfin Hmag]. pose proof (ieee_pos prec emax M l NE HF) as M0. assert (Hp1 : (1 < prec)%Z) by lia. assert (Hp2 : (prec < emax)%Z) by lia.
  destruct (dmean_acc (approx_ieee prec emax Hp1 Hp2) f fv M l (map ieee_real l)) as (r & (Fr & Er) & H); try assumption.
  - split; [exact Ff|reflexivity].
  - apply fdenotes_list; exact Hfin.
  - assert (Em : m = dmean_mean F (fold_left (dmean_push F) l (dmean_init F f))).
    { unfold m, pushes. rewrite run_map_push. reflexivity. }
    rewrite Em. split; [exact Fr|]. unfold F. rewrite Er. exact H.
Qed.

(** @ex C110_decay_mean_ex: factor 1/2 over floats. *)
Lemma c110_decay_mean_ex :
  let f := @ndiv (ieee 24 128) (f32 1) (f32 2) in
  ieee_finite 24 128 f /\ ieee_real f = / 2 /\ 104 * bpow radix2 (- 24) <= / 2 /\ 56 * bpow radix2 (2 - 128 - 24) <= / 2 * / 2 /\
  16 * (1000000 + 1) <= bpow radix2 (128 - 1) /\ 32 <= bpow radix2 (128 - 1) /\
  Forall (fun x => ieee_finite 24 128 x /\ Rabs (ieee_real x) <= 1000000) [f32 1000000; f32 (-7)].
Proof.
  cbv zeta. pose proof float_tiny. pose proof float_big. split; [split; vm_compute; reflexivity|]. split.
  { match goal with |- ieee_real ?x = _ => let y := eval vm_compute in x in change x with y end. unfold ieee_real, SF2R, F2R. cbn. lra. }
  split; [cbn; lra|]. split; [lra|]. split; [lra|]. split; [lra|]. fmags.
Qed.

(** @prop C110_variance: the cumulative variance, within
    [5 ((14 n + 308) u M^2 + 10 (3 n + 13) M eta + 3 eta)] of the variance. *)
Lemma c110_variance : forall (prec emax : Z) (ops : list (op spec_float)) (M : R),
  (1 < prec < emax)%Z ->
  let l := since_clear ops in
  let n := INR (length l) in
  let u := bpow radix2 (- prec) in
  let eta := bpow radix2 (2 - emax - prec) in
  let big := bpow radix2 (emax - 1) in
  l <> [] -> (N.of_nat (length l) < szmod)%N ->
  64 * n * u <= 1 -> 32 * n * eta <= M -> 16 * M + 60 * n * eta <= big -> 64 * n * (M * M) + 16 * n * eta <= big ->
  Forall (fun x => ieee_finite prec emax x /\ Rabs (ieee_real x) <= M) l ->
  let F := ieee prec emax in
  let v := cvar_variance F (run (cvar_push F) (cvar_clear F) (cvar_init F) ops) in
  ieee_finite prec emax v /\
  Rabs (ieee_real v - variance (map ieee_real l)) <=
    5 * ((14 * n + 308) * u * (M * M) + (3 * n + 13) * (10 * M) * eta + 3 * eta).
Proof.
  intros prec emax ops M Hp l n u eta big NE Hs Hn Ht HM HMM HF F v.
  destruct (ieee_magn prec emax M l HF) as [Hfin Hmag]. pose proof (ieee_pos prec emax M l NE HF) as M0. assert (Hp1 : (1 < prec)%Z) by lia. assert (Hp2 : (prec < emax)%Z) by lia.
  assert (N1 : 1 <= n) by (apply inr_ge1; exact NE).
  destruct (cvar_accuracy (approx_ieee prec emax Hp1 Hp2) M l (map ieee_real l)) as (r & (Fr & Er) & H); try assumption.
  - unfold fine. fold n u eta big. repeat split; assumption.
  - apply fdenotes_list; exact Hfin.
  - apply count_le; [lia|]. change (n * u <= 1). pose proof (bp (- prec)) as U0. fold u in U0. pose proof (pos_INR (length l)) as N0. fold n in N0.
    assert (N2 : 0 <= n * u) by (apply Rmult_le_pos; lra). clearbody n u. lra.
  - assert (Em : v = cvar_variance F (fold_left (cvar_push F) l (cvar_init F))).
    { unfold v. rewrite (run_since_clear _ _ _ (cvar_clear_init F)). reflexivity. }
    rewrite Em. split; [exact Fr|]. unfold F. rewrite Er. change (INR (length l)) with n in H. rewrite verr_closed in H. fold u eta in H. lra.
Qed.

(** @ex C110_variance_ex: three floats. *)
Lemma c110_variance_ex :
  let l := since_clear [Push (f32 9); Clear; Push (f32 1000); Push (f32 (-7)); Push (f32 3)] in
  l = [f32 1000; f32 (-7); f32 3] /\ 64 * 3 * bpow radix2 (- 24) <= 1 /\ 32 * 3 * bpow radix2 (2 - 128 - 24) <= 1000 /\
  16 * 1000 + 60 * 3 * bpow radix2 (2 - 128 - 24) <= bpow radix2 (128 - 1) /\
  64 * 3 * (1000 * 1000) + 16 * 3 * bpow radix2 (2 - 128 - 24) <= bpow radix2 (128 - 1) /\
  Forall (fun x => ieee_finite 24 128 x /\ Rabs (ieee_real x) <= 1000) l.
Proof.
  cbv zeta. pose proof float_tiny. pose proof float_big. split; [reflexivity|]. split; [cbn; lra|]. split; [lra|]. split; [lra|]. split; [lra|].
  change (since_clear _) with [f32 1000; f32 (-7); f32 3]. fmags.
Qed.

(** @prop C110_window_variance: the window variance over [k] values, after [n] pushes
    within [9 (n / k) ((264 n + 62) u M^2 + (140 n + 20) M eta + 3 eta)]. *)
Lemma c110_window_variance : forall (prec emax : Z) (W : nat) (ops : list (op spec_float)) (M : R),
  (1 < prec < emax)%Z ->
  let l := since_clear ops in
  let n := INR (length l) in
  let k := INR (length (lastn W l)) in
  let u := bpow radix2 (- prec) in
  let eta := bpow radix2 (2 - emax - prec) in
  let big := bpow radix2 (emax - 1) in
  (0 < W)%nat -> (Z.of_nat W <= 2 ^ prec)%Z -> (N.of_nat W < szmod)%N -> l <> [] ->
  64 * n * u <= 1 -> 32 * n * eta <= M -> 16 * M + 60 * n * eta <= big -> 80 * n * (M * M) + 16 * n * eta <= big ->
  Forall (fun x => ieee_finite prec emax x /\ Rabs (ieee_real x) <= M) l ->
  let F := ieee prec emax in
  let v := wvar_variance F (run (wvar_push F W) (wvar_clear F) (wvar_init F) ops) in
  ieee_finite prec emax v /\
  Rabs (ieee_real v - variance (lastn W (map ieee_real l))) <=
    9 * (n / k) * ((264 * n + 62) * u * (M * M) + (140 * n + 20) * M * eta + 3 * eta).
Proof.
  intros prec emax W ops M Hp l n k u eta big HW HK Hs NE Hn Ht HM HMM HF F v.
  destruct (ieee_magn prec emax M l HF) as [Hfin Hmag]. pose proof (ieee_pos prec emax M l NE HF) as M0. assert (Hp1 : (1 < prec)%Z) by lia. assert (Hp2 : (prec < emax)%Z) by lia.
  assert (N1 : 1 <= n) by (apply inr_ge1; exact NE).
  destruct (wvar_accuracy (approx_ieee prec emax Hp1 Hp2) M n W HW ltac:(unfold wfine; fold u eta big; repeat split; assumption) l (map ieee_real l))
    as (r & (Fr & Er) & H); try assumption.
  - apply fdenotes_list; exact Hfin.
  - reflexivity.
  - lia.
  - assert (Em : v = wvar_variance F (fold_left (wvar_push F W) l (wvar_init F))).
    { unfold v. rewrite (run_since_clear _ _ _ (wvar_clear_init F)). reflexivity. }
    rewrite Em. split; [exact Fr|]. unfold F. rewrite Er. rewrite wverr_closed in H. fold u eta in H.
    assert (Ek : card (lastn W (map ieee_real l)) = k).
    { unfold card, k. f_equal. unfold lastn. rewrite !skipn_length, map_length. reflexivity. }
    rewrite Ek in H. rewrite <- Rmult_assoc in H. exact H.
Qed.

(** @ex C110_window_variance_ex: a window of two floats. *)
Lemma c110_window_variance_ex :
  let l := since_clear [Push (f32 9); Clear; Push (f32 1000); Push (f32 (-7)); Push (f32 3)] in
  lastn 2 l = [f32 (-7); f32 3] /\ 80 * 3 * (1000 * 1000) + 16 * 3 * bpow radix2 (2 - 128 - 24) <= bpow radix2 (128 - 1) /\
  Forall (fun x => ieee_finite 24 128 x /\ Rabs (ieee_real x) <= 1000) l.
Proof.
  cbv zeta. pose proof float_tiny. pose proof float_big. split; [reflexivity|]. split; [lra|].
  change (since_clear _) with [f32 1000; f32 (-7); f32 3]. fmags.
Qed.

(** @prop C110_decay_variance: the exponential variance, within the distance of C72
    however many values are pushed. *)
Lemma c110_decay_variance : forall (prec emax : Z) (fm fv : spec_float) (l : list spec_float) (M : R),
  (1 < prec < emax)%Z ->
  let u := bpow radix2 (- prec) in
  let eta := bpow radix2 (2 - emax - prec) in
  let big := bpow radix2 (emax - 1) in
  let mf := ieee_real fm in
  let vf := ieee_real fv in
  ieee_finite prec emax fm -> ieee_finite prec emax fv -> 0 < mf <= 1 -> 0 < vf <= 1 ->
  104 * u <= mf -> 104 * u <= vf -> 56 * eta <= mf * mf -> 56 * eta <= vf * vf ->
  let D := fun m f => 209 * u * m / f + 57 * eta * (1 + m) / (f * f) in
  let g := D M mf + u * (2 * M + D M mf) + eta in
  g <= M -> 16 * (M + 1) <= big -> 16 * (10 * (M * M) + eta + 1) <= big -> 32 <= big ->
  l <> [] -> Forall (fun x => ieee_finite prec emax x /\ Rabs (ieee_real x) <= M) l ->
  let F := ieee prec emax in
  let v := dvar_variance F (run (dvar_push F) (dvar_clear F) (dvar_init F fm fv) (pushes l)) in
  ieee_finite prec emax v /\
  Rabs (ieee_real v - emoment 2 mf vf (map ieee_real l)) <=
    D (10 * (M * M) + eta) vf + (5 * M * g + 9 * u * (M * M) + eta).
Proof.
  intros prec emax fm fv l M Hp u eta big mf vf Ffm Ffv Hm Hv Hum Huv Hem Hev D g Hg HM HMM H32 NE HF F v.
  destruct (ieee_magn prec emax M l HF) as [Hfin Hmag]. pose proof (ieee_pos prec emax M l NE HF) as M0. assert (Hp1 : (1 < prec)%Z) by lia. assert (Hp2 : (prec < emax)%Z) by lia.
  destruct (dvar_accuracy (approx_ieee prec emax Hp1 Hp2) fm fv mf vf M l (map ieee_real l))
    as (r & (Fr & Er) & H); try assumption.
  - split; [exact Ffm|reflexivity].
  - split; [exact Ffv|reflexivity].
  - apply fdenotes_list; exact Hfin.
  - assert (Em : v = dvar_variance F (fold_left (dvar_push F) l (dvar_init F fm fv))).
    { unfold v, pushes. rewrite run_map_push. reflexivity. }
    rewrite Em. split; [exact Fr|]. unfold F. rewrite Er. eapply Rle_trans; [exact H|].
    apply Req_le. unfold ddev, dsq, perr, gdec, ddev. fold u eta. unfold D, g, D. ring_simplify. ring.
Qed.

(** @prop C110_fir: the finite impulse response filter with [p] coefficients, within
    [(2 p + 4) u S + 6 p eta] of the convolution, [S] being the convolution of the
    magnitudes. *)
Lemma c110_fir : forall (prec emax : Z) (c : list spec_float) (ops : list (op spec_float)),
  (1 < prec < emax)%Z ->
  let l := since_clear ops in
  let p := INR (length c) in
  let u := bpow radix2 (- prec) in
  let eta := bpow radix2 (2 - emax - prec) in
  let big := bpow radix2 (emax - 1) in
  c <> [] -> l <> [] -> Forall (ieee_finite prec emax) c -> Forall (ieee_finite prec emax) l ->
  let cv := map ieee_real c in
  let lv := map ieee_real l in
  let S := convolution (map Rabs cv) (map Rabs lv) (Nat.pred (length lv)) in
  (2 * p + 4) * u <= 1 -> 3 * S + (6 * p + 1) * eta <= big ->
  let F := ieee prec emax in
  let v := fir_value F (fir_run F c ops) in
  ieee_finite prec emax v /\
  Rabs (ieee_real v - convolution cv lv (Nat.pred (length lv))) <= (2 * p + 4) * u * S + 6 * p * eta.
Proof.
  intros prec emax c ops Hp l p u eta big NC NE Fc Fl cv lv S Hn HS F v.
  assert (NE' : lv <> []) by (unfold lv; destruct l; [congruence|discriminate]).
  assert (Hp1 : (1 < prec)%Z) by lia. assert (Hp2 : (prec < emax)%Z) by lia.
  destruct (fir_acc (approx_ieee prec emax Hp1 Hp2) c l cv lv ops S) as (r & (Fr & Er) & H); try assumption.
  - apply fdenotes_list; exact Fc.
  - reflexivity.
  - apply fdenotes_list; exact Fl.
  - apply Req_le. apply dotA_conv. exact NE'.
  - unfold v. split; [exact Fr|]. unfold F. rewrite Er. rewrite <- dotR_conv by exact NE'. exact H.
Qed.

(** @ex C110_fir_ex: coefficients 3 and -2 over floats. *)
Lemma c110_fir_ex :
  let c := [f32 3; f32 (-2)] in
  let l := since_clear [Push (f32 9); Clear; Push (f32 1000); Push (f32 (-7)); Push (f32 4)] in
  let cv := map ieee_real c in
  let lv := map ieee_real l in
  let S := convolution (map Rabs cv) (map Rabs lv) (Nat.pred (length lv)) in
  Forall (ieee_finite 24 128) c /\ Forall (ieee_finite 24 128) l /\ S = 26 /\
  (2 * INR (length c) + 4) * bpow radix2 (- 24) <= 1 /\
  3 * S + (6 * INR (length c) + 1) * bpow radix2 (2 - 128 - 24) <= bpow radix2 (128 - 1).
Proof.
  cbv zeta. pose proof float_tiny. pose proof float_big.
  split; [repeat (apply Forall_cons; [split; vm_compute; reflexivity|]); apply Forall_nil|].
  split; [repeat (apply Forall_cons; [split; vm_compute; reflexivity|]); apply Forall_nil|].
  assert (E : convolution (map Rabs (map ieee_real [f32 3; f32 (-2)]))
    (map Rabs (map ieee_real (since_clear [Push (f32 9); Clear; Push (f32 1000); Push (f32 (-7)); Push (f32 4)])))
    (Nat.pred (length (map ieee_real (since_clear [Push (f32 9); Clear; Push (f32 1000); Push (f32 (-7)); Push (f32 4)])))) = 26).
  { unfold convolution, sumto, back.
    match goal with |- context [map ieee_real [?x; ?y]] => let x' := eval vm_compute in x in let y' := eval vm_compute in y in change x with x'; change y with y' end.
    match goal with |- context [map ieee_real (since_clear ?x)] =>
      let y := eval vm_compute in (since_clear x) in change (since_clear x) with y end.
    unfold ieee_real, SF2R, F2R. cbn. unfold Rabs. repeat destruct (Rcase_abs _); lra. }
  rewrite E. split; [reflexivity|]. cbn [length INR]. split; [cbn; lra|lra].
Qed.

(** @prop C110_covariance: the cumulative covariance of pairs of magnitudes at most
    [Mx] and [My], within
    [5 ((14 n + 308) u Mx My + (3 n + 13) (4 Mx + 6 My) eta + 3 eta)]. *)
Lemma c110_covariance : forall (prec emax : Z) (ops : list (op (spec_float * spec_float))) (Mx My : R),
  (1 < prec < emax)%Z ->
  let l := since_clear ops in
  let n := INR (length l) in
  let u := bpow radix2 (- prec) in
  let eta := bpow radix2 (2 - emax - prec) in
  let big := bpow radix2 (emax - 1) in
  l <> [] -> (N.of_nat (length l) < szmod)%N ->
  64 * n * u <= 1 -> 32 * n * eta <= Mx -> 32 * n * eta <= My ->
  16 * Mx + 60 * n * eta <= big -> 16 * My + 60 * n * eta <= big -> 64 * n * (Mx * My) + 16 * n * eta <= big ->
  Forall (fun p => (ieee_finite prec emax (fst p) /\ Rabs (ieee_real (fst p)) <= Mx) /\
                   (ieee_finite prec emax (snd p) /\ Rabs (ieee_real (snd p)) <= My)) l ->
  let F := ieee prec emax in
  let v := ccov_variance F (run (ccov_push F) (ccov_clear F) (ccov_init F) ops) in
  ieee_finite prec emax v /\
  Rabs (ieee_real v - covariance (map (fun p => (ieee_real (fst p), ieee_real (snd p))) l)) <=
    5 * ((14 * n + 308) * u * (Mx * My) + (3 * n + 13) * (4 * Mx + 6 * My) * eta + 3 * eta).
Proof.
  intros prec emax ops Mx My Hp l n u eta big NE Hs Hn Htx Hty HMx HMy HMM HF F v.
  assert (Hp1 : (1 < prec)%Z) by lia. assert (Hp2 : (prec < emax)%Z) by lia.
  assert (N1 : 1 <= n) by (apply inr_ge1; exact NE).
  assert (M0 : 0 <= Mx /\ 0 <= My).
  { clear - NE HF. destruct HF as [|p l' ((A1 & A2) & B1 & B2) _]; [contradiction|].
    pose proof (Rabs_pos (ieee_real (fst p))). pose proof (Rabs_pos (ieee_real (snd p))). lra. }
  set (f := fun p : spec_float * spec_float => (ieee_real (fst p), ieee_real (snd p))).
  destruct (ccov_accuracy (approx_ieee prec emax Hp1 Hp2) Mx My l (map f l)) as (r & (Fr & Er) & H); try assumption.
  - unfold fine. fold n u eta big. repeat split; try assumption; apply M0.
  - clear - HF. induction HF as [|p l' ((A1 & A2) & B1 & B2) _ IH]; cbn; constructor; [|assumption].
    split; split; cbn; auto.
  - clear - HF. induction HF as [|p l' ((A1 & A2) & B1 & B2) _ IH]; cbn; constructor; [cbn; auto|assumption].
  - apply count_le; [lia|]. change (n * u <= 1). pose proof (bp (- prec)) as U0. fold u in U0.
    assert (N2 : 0 <= n * u) by (apply Rmult_le_pos; lra). clearbody n u. lra.
  - assert (Em : v = ccov_variance F (fold_left (ccov_push F) l (ccov_init F))).
    { unfold v. rewrite (run_since_clear _ _ _ (ccov_clear_init F)). reflexivity. }
    rewrite Em. split; [exact Fr|]. unfold F. rewrite Er. change (INR (length l)) with n in H.
    rewrite verr_closed in H. fold u eta in H. lra.
Qed.

(** @ex C110_covariance_ex: two pairs of floats. *)
Lemma c110_covariance_ex :
  let l := since_clear [Push (f32 9, f32 9); Clear; Push (f32 1000, f32 (-7)); Push (f32 2, f32 8)] in
  l = [(f32 1000, f32 (-7)); (f32 2, f32 8)] /\ 64 * 2 * bpow radix2 (- 24) <= 1 /\ 32 * 2 * bpow radix2 (2 - 128 - 24) <= 8 /\
  16 * 1000 + 60 * 2 * bpow radix2 (2 - 128 - 24) <= bpow radix2 (128 - 1) /\
  64 * 2 * (1000 * 8) + 16 * 2 * bpow radix2 (2 - 128 - 24) <= bpow radix2 (128 - 1) /\
  Forall (fun p => (ieee_finite 24 128 (fst p) /\ Rabs (ieee_real (fst p)) <= 1000) /\
                   (ieee_finite 24 128 (snd p) /\ Rabs (ieee_real (snd p)) <= 8)) l.
Proof.
  cbv zeta. pose proof float_tiny. pose proof float_big. split; [reflexivity|]. split; [cbn; lra|]. split; [lra|]. split; [lra|]. split; [lra|].
  change (since_clear _) with [(f32 1000, f32 (-7)); (f32 2, f32 8)]. repeat (apply Forall_cons; [split; fmag|]). apply Forall_nil.
Qed.

(** @ex C110_decay_variance_ex: factors 1/2 and 1/4 over floats of magnitude at most
    1000. *)
Lemma c110_decay_variance_ex :
  let fm := @ndiv (ieee 24 128) (f32 1) (f32 2) in
  let fv := @ndiv (ieee 24 128) (f32 1) (f32 4) in
  let u := bpow radix2 (- 24) in
  let eta := bpow radix2 (2 - 128 - 24) in
  let big := bpow radix2 (128 - 1) in
  ieee_finite 24 128 fm /\ ieee_finite 24 128 fv /\ ieee_real fm = / 2 /\ ieee_real fv = / 4 /\
  104 * u <= / 4 /\ 56 * eta <= / 4 * / 4 /\
  let D := 209 * u * 1000 / (/ 2) + 57 * eta * (1 + 1000) / (/ 2 * / 2) in
  D + u * (2 * 1000 + D) + eta <= 1000 /\ 16 * (1000 + 1) <= big /\ 16 * (10 * (1000 * 1000) + eta + 1) <= big /\ 32 <= big /\
  Forall (fun x => ieee_finite 24 128 x /\ Rabs (ieee_real x) <= 1000) [f32 1000; f32 (-7)].
Proof.
  cbv zeta. pose proof float_tiny. pose proof float_big.
  split; [split; vm_compute; reflexivity|]. split; [split; vm_compute; reflexivity|].
  split; [match goal with |- ieee_real ?x = _ => let y := eval vm_compute in x in change x with y end; unfold ieee_real, SF2R, F2R; cbn; lra|].
  split; [match goal with |- ieee_real ?x = _ => let y := eval vm_compute in x in change x with y end; unfold ieee_real, SF2R, F2R; cbn; lra|].
  change (bpow radix2 (- 24)) with (/ 16777216).
  split; [lra|]. split; [lra|]. split; [|split; [lra|]; split; [lra|]; split; [lra|fmags]].
  set (t := bpow radix2 (2 - 128 - 24)) in *.
  replace (209 * / 16777216 * 1000 / / 2) with (418000 / 16777216) by field.
  replace (57 * t * (1 + 1000) / (/ 2 * / 2)) with (228228 * t) by field. lra.
Qed.
