(** * Claim C123: accuracy and sign when the compiler contracts expressions *)

From Coq Require Import Reals ZArith NArith List Bool.
From Flocq Require Import Core.
From Verif Require Import Arith History SpecStats SpecDecay SpecImpulse Cumulative Window Decay Impulse ImpulseRuns Rounded ExactRuns Contracted.
Import ListNotations.
Local Open Scope R_scope.
(* @end-header *)
From Coq Require Import Lia Lra Psatz.
From Verif Require Import HistoryLemmas StatsLemmas CumulativeProofs WindowProofs DecayProofs ImpulseProofs RoundedProofs
  Approx ApproxInstances AccuracyProofs AccuracyFilters AccuracyVariance AccuracyWindow SignProofs ClaimsAccuracy ContractedProofs.

(** @prop C123_variance: with every product fused into the following addition, variance() of the cumulative
    filter keeps the bound of C70, in every format and rounding mode. *)
Lemma c123_variance : forall (emin prec : Z) (mode : R -> Z) (ops : list (op R)) (M : R),
  (0 < prec)%Z -> (emin <= 0)%Z -> Valid_rnd mode ->
  let l := since_clear ops in
  let n := INR (length l) in
  let u := bpow radix2 (1 - prec) in
  let eta := bpow radix2 emin in
  l <> [] -> fits l -> (Z.of_nat (length l) <= 2 ^ prec)%Z -> 64 * n * u <= 1 -> 32 * n * eta <= M ->
  Forall (fun x => Rabs x <= M) l ->
  let F := rounded emin prec mode in
  let s := run (cvar_push_fma F (rounded_fused emin prec mode)) (cvar_clear F) (cvar_init F) (fops emin prec mode ops) in
  exists v, cvar_variance F s = Fin v /\
    Rabs (v - variance l) <= 5 * ((14 * n + 308) * u * (M * M) + (3 * n + 13) * (10 * M) * eta + 3 * eta).
Proof.
  intros emin prec mode ops M Hp He Hv l n u eta NE Hf HK Hu Ht HM F s.
  assert (N1 : 1 <= n) by (apply inr_ge1; exact NE).
  assert (T : 0 < eta) by apply bp.
  assert (M0 : 0 <= M). { apply (magn_pos (fun x => x) M l); assumption. }
  assert (NM : 0 <= n * (M * M)) by (apply Rmult_le_pos; [lra|apply Rmult_le_pos; exact M0]).
  assert (NT : 0 <= n * eta) by (apply Rmult_le_pos; lra).
  destruct (cvar_accuracy (@approx_lazy emin prec mode (16 * M + 60 * n * eta + 64 * n * (M * M) + 16 * n * eta) Hp He Hv)
    M (map Fin l) l) as (r & Er & H); try rewrite map_length; try assumption.
  - change (INR (length l)) with n. fold u eta. unfold fine. repeat split; lra.
  - apply lval_list.
  - apply (lin_nil emin prec mode); exact NE.
  - lia.
  - rewrite map_length in H. change (INR (length l)) with n in H. exists r. split.
    + change (cvar_variance (lazy emin prec mode) (cv_l emin prec mode s) = Fin r). unfold s, F, fops. rewrite cv_run.
      rewrite (run_since_clear _ _ _ (cvar_clear_init (lazy emin prec mode))), since_clear_op_map. exact Er.
    + rewrite verr_closed in H. fold u eta in H. lra.
Qed.

(** @ex C123_variance_ex: an instance of the hypotheses. *)
Lemma c123_variance_ex :
  (0 < 20)%Z /\ (-20 <= 0)%Z /\ Valid_rnd Ztrunc /\
  let ops := [Push 99; Clear; Push 1; Push (-10); Push 3; Push 7; Push 2] in
  since_clear ops = [1; -10; 3; 7; 2] /\ fits (since_clear ops) /\
  (Z.of_nat (length (since_clear ops)) <= 2 ^ 20)%Z /\
  64 * INR (length (since_clear ops)) * bpow radix2 (1 - 20) <= 1 /\
  32 * INR (length (since_clear ops)) * bpow radix2 (-20) <= 10 /\
  Forall (fun x => Rabs x <= 10) (since_clear ops).
Proof.
  split; [lia|]. split; [lia|]. split; [typeclasses eauto|]. cbn zeta.
  split; [reflexivity|]. split; [reflexivity|]. split; [cbn; lia|]. split; [cbn; lra|]. split; [cbn; lra|].
  cbn. repeat (apply Forall_cons; [apply Rabs_le; lra|]). apply Forall_nil.
Qed.

(** @prop C123_covariance: the same for the cumulative covariance. *)
Lemma c123_covariance : forall (emin prec : Z) (mode : R -> Z) (ops : list (op (R * R))) (Mx My : R),
  (0 < prec)%Z -> (emin <= 0)%Z -> Valid_rnd mode ->
  let l := since_clear ops in
  let n := INR (length l) in
  let u := bpow radix2 (1 - prec) in
  let eta := bpow radix2 emin in
  l <> [] -> fits l -> (Z.of_nat (length l) <= 2 ^ prec)%Z -> 64 * n * u <= 1 ->
  32 * n * eta <= Mx -> 32 * n * eta <= My ->
  Forall (fun p => Rabs (fst p) <= Mx /\ Rabs (snd p) <= My) l ->
  let F := rounded emin prec mode in
  let s := run (ccov_push_fma F (rounded_fused emin prec mode)) (ccov_clear F) (ccov_init F)
    (map (op_map (fun p => (Fin (fst p), Fin (snd p)) : F * F)) ops) in
  exists v, ccov_variance F s = Fin v /\
    Rabs (v - covariance l) <=
      5 * ((14 * n + 308) * u * (Mx * My) + (3 * n + 13) * (4 * Mx + 6 * My) * eta + 3 * eta).
Proof.
  intros emin prec mode ops Mx My Hp He Hv l n u eta NE Hf HK Hu Htx Hty HM F s.
  assert (N1 : 1 <= n) by (apply inr_ge1; exact NE).
  assert (T : 0 < eta) by apply bp.
  assert (NT : 0 <= n * eta) by (apply Rmult_le_pos; lra).
  assert (NM : 0 <= n * (Mx * My)) by (apply Rmult_le_pos; [lra|apply Rmult_le_pos; lra]).
  set (f := fun p : R * R => (Fin (fst p), Fin (snd p)) : F * F).
  destruct (ccov_accuracy (@approx_lazy emin prec mode (16 * Mx + 16 * My + 60 * n * eta + 64 * n * (Mx * My) + 16 * n * eta) Hp He Hv)
    Mx My (map f l) l) as (r & Er & H); try rewrite map_length; try assumption.
  - change (INR (length l)) with n. fold u eta. unfold fine. repeat split; lra.
  - clear. induction l; cbn; constructor; [split; reflexivity|assumption].
  - destruct l; [congruence|discriminate].
  - lia.
  - rewrite map_length in H. change (INR (length l)) with n in H. exists r. split.
    + change (ccov_variance (lazy emin prec mode) (cc_l emin prec mode s) = Fin r). unfold s, F. rewrite cc_run. fold F f.
      rewrite (run_since_clear _ _ _ (ccov_clear_init (lazy emin prec mode))), since_clear_op_map. exact Er.
    + rewrite verr_closed in H. fold u eta in H. lra.
Qed.

(** @ex C123_covariance_ex: an instance of the hypotheses. *)
Lemma c123_covariance_ex :
  (0 < 20)%Z /\ (-20 <= 0)%Z /\ Valid_rnd Ztrunc /\
  let ops := [Push (99, 99); Clear; Push (1, 500); Push (-10, 3); Push (3, -1)] in
  let l := since_clear ops in
  l = [(1, 500); (-10, 3); (3, -1)] /\ fits l /\ (Z.of_nat (length l) <= 2 ^ 20)%Z /\
  64 * INR (length l) * bpow radix2 (1 - 20) <= 1 /\ 32 * INR (length l) * bpow radix2 (-20) <= 10 /\
  Forall (fun p => Rabs (fst p) <= 10 /\ Rabs (snd p) <= 500) l.
Proof.
  split; [lia|]. split; [lia|]. split; [typeclasses eauto|]. cbn zeta.
  split; [reflexivity|]. split; [reflexivity|]. split; [cbn; lia|]. split; [cbn; lra|]. split; [cbn; lra|].
  cbn. repeat (apply Forall_cons; [split; apply Rabs_le; cbn; lra|]). apply Forall_nil.
Qed.

(** @prop C123_window_variance: the same for the window variance, with the bound of C71. *)
Lemma c123_window_variance : forall (emin prec : Z) (mode : R -> Z) (W : nat) (ops : list (op R)) (M : R),
  (0 < prec)%Z -> (emin <= 0)%Z -> Valid_rnd mode ->
  let l := since_clear ops in
  let n := INR (length l) in
  let k := INR (length (lastn W l)) in
  let u := bpow radix2 (1 - prec) in
  let eta := bpow radix2 emin in
  (0 < W)%nat -> (Z.of_nat W <= 2 ^ prec)%Z -> (N.of_nat W < szmod)%N ->
  l <> [] -> 64 * n * u <= 1 -> 32 * n * eta <= M -> Forall (fun x => Rabs x <= M) l ->
  let F := rounded emin prec mode in
  let s := run (wvar_push_fma F (rounded_fused emin prec mode) W) (wvar_clear F) (wvar_init F) (fops emin prec mode ops) in
  exists v, wvar_variance F s = Fin v /\
    Rabs (v - variance (lastn W l)) <=
      9 * (n / k) * ((264 * n + 62) * u * (M * M) + (140 * n + 20) * M * eta + 3 * eta).
Proof.
  intros emin prec mode W ops M Hp He Hv l n k u eta HW HK Hs NE Hu Ht HM F s.
  assert (N1 : 1 <= n) by (apply inr_ge1; exact NE).
  assert (T : 0 < eta) by apply bp.
  assert (M0 : 0 <= M). { apply (magn_pos (fun x => x) M l); assumption. }
  assert (NM : 0 <= n * (M * M)) by (apply Rmult_le_pos; [lra|apply Rmult_le_pos; exact M0]).
  assert (NT : 0 <= n * eta) by (apply Rmult_le_pos; lra).
  destruct (wvar_accuracy (@approx_lazy emin prec mode (16 * M + 60 * n * eta + 80 * n * (M * M) + 16 * n * eta) Hp He Hv)
    M n W HW ltac:(fold u eta; unfold wfine; repeat split; lra) (map Fin l) l) as (r & Er & H);
    try rewrite map_length; try assumption.
  - apply lval_list.
  - apply (lin_nil emin prec mode); exact NE.
  - reflexivity.
  - lia.
  - exists r. split.
    + change (wvar_variance (lazy emin prec mode) (wv_l emin prec mode s) = Fin r). unfold s, F, fops. rewrite wv_run.
      rewrite (run_since_clear _ _ _ (wvar_clear_init (lazy emin prec mode))), since_clear_op_map. exact Er.
    + rewrite wverr_closed in H. fold u eta in H. change (card (lastn W l)) with k in H.
      rewrite <- Rmult_assoc in H. exact H.
Qed.

(** @ex C123_window_variance_ex: an instance of the hypotheses. *)
Lemma c123_window_variance_ex :
  (0 < 20)%Z /\ (-20 <= 0)%Z /\ Valid_rnd Zceil /\
  (0 < 2)%nat /\ (Z.of_nat 2 <= 2 ^ 20)%Z /\ (N.of_nat 2 < szmod)%N /\
  let ops := [Push 99; Clear; Push 1; Push (-10); Push 3; Push 7; Push 2] in
  since_clear ops = [1; -10; 3; 7; 2] /\ lastn 2 (since_clear ops) = [7; 2] /\
  64 * INR (length (since_clear ops)) * bpow radix2 (1 - 20) <= 1 /\
  32 * INR (length (since_clear ops)) * bpow radix2 (-20) <= 10 /\
  Forall (fun x => Rabs x <= 10) (since_clear ops).
Proof.
  split; [lia|]. split; [lia|]. split; [typeclasses eauto|]. split; [lia|]. split; [cbn; lia|].
  split; [reflexivity|]. cbn zeta. split; [reflexivity|]. split; [reflexivity|]. split; [cbn; lra|].
  split; [cbn; lra|].
  cbn. repeat (apply Forall_cons; [apply Rabs_le; lra|]). apply Forall_nil.
Qed.

(** @prop C123_decay_mean: the same for the decay mean, with the bound of C67 for any number of
    values. *)
Lemma c123_decay_mean : forall (emin prec : Z) (mode : R -> Z) (f : R) (l : list R) (M : R),
  (0 < prec)%Z -> (emin <= 0)%Z -> Valid_rnd mode ->
  let u := bpow radix2 (1 - prec) in
  let eta := bpow radix2 emin in
  0 < f <= 1 -> 104 * u <= f -> 56 * eta <= f * f ->
  l <> [] -> Forall (fun x => Rabs x <= M) l ->
  let F := rounded emin prec mode in
  let s := run (dmean_push_fma F (rounded_fused emin prec mode)) (dmean_clear F) (dmean_init F (Fin f)) (pushes (map Fin l)) in
  exists m, dmean_mean F s = Fin m /\
    Rabs (m - ewma f l) <= 209 * u * M / f + 57 * eta * (1 + M) / (f * f).
Proof.
  intros emin prec mode f l M Hp He Hv u eta Hf Hu Ht NE HM F s.
  assert (M0 : 0 <= M) by (apply (magn_pos (fun x => x) M l); assumption).
  destruct (dmean_acc (@approx_lazy emin prec mode (16 * (M + 1) + 32) Hp He Hv) (Fin f) f M
    (map Fin l) l) as (r & Er & H); try assumption; try lra.
  - reflexivity.
  - apply lval_list.
  - apply (lin_nil emin prec mode); exact NE.
  - exists r. split; [|exact H]. change (dmean_mean (lazy emin prec mode) (dm_l emin prec mode s) = Fin r). unfold s, F. rewrite dm_run. unfold pushes. rewrite run_map_push. exact Er.
Qed.

(** @ex C123_decay_mean_ex: an instance of the hypotheses. *)
Lemma c123_decay_mean_ex :
  (0 < 12)%Z /\ (-20 <= 0)%Z /\ Valid_rnd Zfloor /\
  0 < / 8 <= 1 /\ 104 * bpow radix2 (1 - 12) <= / 8 /\ 56 * bpow radix2 (-20) <= / 8 * / 8 /\
  Forall (fun x => Rabs x <= 10) [1; -10; 3] /\ ewma (/ 8) [1; -10; 3] = -319 / 169.
Proof.
  split; [lia|]. split; [lia|]. split; [typeclasses eauto|]. split; [lra|]. split; [cbn; lra|].
  split; [cbn; lra|]. split.
  - repeat (apply Forall_cons; [apply Rabs_le; lra|]). apply Forall_nil.
  - unfold ewma. cbn. field.
Qed.

(** @prop C123_decay_variance: the same for the decay variance, with the bound of C72. *)
Lemma c123_decay_variance : forall (emin prec : Z) (mode : R -> Z) (fm fv : R) (l : list R) (M : R),
  (0 < prec)%Z -> (emin <= 0)%Z -> Valid_rnd mode ->
  let u := bpow radix2 (1 - prec) in
  let eta := bpow radix2 emin in
  0 < fm <= 1 -> 0 < fv <= 1 -> 104 * u <= fm -> 104 * u <= fv ->
  56 * eta <= fm * fm -> 56 * eta <= fv * fv ->
  let D := fun m f => 209 * u * m / f + 57 * eta * (1 + m) / (f * f) in
  let g := D M fm + u * (2 * M + D M fm) + eta in
  g <= M ->
  l <> [] -> Forall (fun x => Rabs x <= M) l ->
  let F := rounded emin prec mode in
  let s := run (dvar_push_fma F (rounded_fused emin prec mode)) (dvar_clear F) (dvar_init F (Fin fm) (Fin fv)) (pushes (map Fin l)) in
  exists v, dvar_variance F s = Fin v /\
    Rabs (v - emoment 2 fm fv l) <=
      D (10 * (M * M) + eta) fv + (5 * M * g + 9 * u * (M * M) + eta).
Proof.
  intros emin prec mode fm fv l M Hp He Hv u eta Hfm Hfv Hum Huv Htm Htv D g Hg NE HM F s.
  assert (M0 : 0 <= M) by (apply (magn_pos (fun x => x) M l); assumption).
  assert (T : 0 < eta) by apply bp.
  assert (MM : 0 <= M * M) by (apply Rmult_le_pos; exact M0).
  destruct (dvar_accuracy (@approx_lazy emin prec mode (16 * (M + 1) + 16 * (10 * (M * M) + eta + 1) + 32) Hp He Hv)
    (Fin fm) (Fin fv) fm fv M (map Fin l) l) as (r & Er & H); try assumption; try (unfold dsq; fold eta; lra).
  - reflexivity.
  - reflexivity.
  - apply lval_list.
  - apply (lin_nil emin prec mode); exact NE.
  - exists r. split.
    + change (dvar_variance (lazy emin prec mode) (dv_l emin prec mode s) = Fin r). unfold s, F. rewrite dv_run. unfold pushes. rewrite run_map_push. exact Er.
    + unfold perr, gdec, ddev, dsq in H. fold u eta in H. unfold g, D. lra.
Qed.

(** @ex C123_decay_variance_ex: an instance of the hypotheses. *)
Lemma c123_decay_variance_ex :
  (0 < 20)%Z /\ (-40 <= 0)%Z /\ Valid_rnd Zfloor /\
  let u := bpow radix2 (1 - 20) in
  let eta := bpow radix2 (-40) in
  0 < / 4 <= 1 /\ 0 < / 8 <= 1 /\ 104 * u <= / 4 /\ 104 * u <= / 8 /\
  56 * eta <= / 4 * / 4 /\ 56 * eta <= / 8 * / 8 /\
  let D := fun m f => 209 * u * m / f + 57 * eta * (1 + m) / (f * f) in
  D 10 (/ 4) + u * (2 * 10 + D 10 (/ 4)) + eta <= 10 /\
  Forall (fun x => Rabs x <= 10) [1; -10; 3].
Proof.
  split; [lia|]. split; [lia|]. split; [typeclasses eauto|]. cbn zeta. cbn.
  split; [lra|]. split; [lra|]. split; [lra|]. split; [lra|]. split; [lra|]. split; [lra|]. split; [lra|].
  repeat (apply Forall_cons; [apply Rabs_le; lra|]). apply Forall_nil.
Qed.

(** @prop C123_finite: the finite filter with fused products keeps the bound of C68. *)
Lemma c123_finite : forall (emin prec : Z) (mode : R -> Z) (c : list R) (ops : list (op R)),
  (0 < prec)%Z -> (emin <= 0)%Z -> Valid_rnd mode ->
  let l := since_clear ops in
  let p := INR (length c) in
  let u := bpow radix2 (1 - prec) in
  let eta := bpow radix2 emin in
  c <> [] -> l <> [] -> (2 * p + 4) * u <= 1 ->
  let F := rounded emin prec mode in
  let S := convolution (map Rabs c) (map Rabs l) (Nat.pred (length l)) in
  exists v, fir_value F (run (fir_push_fma F (rounded_fused emin prec mode)) (fir_clear F) (fir_new F (map Fin c)) (fops emin prec mode ops)) = Fin v /\
    Rabs (v - convolution c l (Nat.pred (length l))) <= (2 * p + 4) * u * S + 6 * p * eta.
Proof.
  intros emin prec mode c ops Hp He Hv l p u eta NC NE Hu F S.
  destruct (fir_acc (@approx_lazy emin prec mode (3 * S + (6 * p + 1) * eta) Hp He Hv) (map Fin c) (map Fin l) c l
    (fops emin prec mode ops) S) as (r & Er & H); try rewrite map_length; try assumption.
  - apply lval_list.
  - apply (lin_nil emin prec mode); exact NC.
  - unfold fops. apply since_clear_op_map.
  - apply (lin_nil emin prec mode); exact NE.
  - apply lval_list.
  - apply Req_le. apply dotA_conv. exact NE.
  - apply Rle_refl.
  - rewrite map_length in H. exists r. split.
    { rewrite <- (fir_run_l emin prec mode) in Er. exact Er. } rewrite <- dotR_conv by exact NE. exact H.
Qed.

(** @ex C123_finite_ex: an instance of the hypotheses. *)
Lemma c123_finite_ex :
  (0 < 12)%Z /\ (-20 <= 0)%Z /\ Valid_rnd Zfloor /\
  let ops := [Push 99; Clear; Push 1; Push (-10); Push 3] in
  since_clear ops = [1; -10; 3] /\ (2 * INR (length [1; 2]) + 4) * bpow radix2 (1 - 12) <= 1 /\
  convolution [1; 2] (since_clear ops) 2 = -17 /\
  convolution (map Rabs [1; 2]) (map Rabs (since_clear ops)) 2 = 23.
Proof.
  split; [lia|]. split; [lia|]. split; [typeclasses eauto|]. cbn zeta. split; [reflexivity|].
  split; [cbn; lra|]. split.
  - unfold convolution, sumto, back. cbn. ring.
  - unfold convolution, sumto, back. cbn. rewrite (Rabs_left (-10)), !Rabs_right by lra. ring.
Qed.

(** @prop C123_infinite: the infinite filter with fused products keeps the bound of C69. *)
Lemma c123_infinite : forall (emin prec : Z) (mode : R -> Z) (b a : list R) (scale : R)
    (ops : list (op R)) (M : R) (y : list R),
  (0 < prec)%Z -> (emin <= 0)%Z -> Valid_rnd mode ->
  let l := since_clear ops in
  let u := bpow radix2 (1 - prec) in
  let eta := bpow radix2 emin in
  b <> [] -> a <> [] -> l <> [] -> Forall (fun x => Rabs x <= M) l ->
  abs_sum a < Rabs scale ->
  difference_equation b a scale l y ->
  let r := INR (length b + length a) in
  let rho := abs_sum a / Rabs scale in
  let Y := abs_sum b * M / (Rabs scale - abs_sum a) in
  let E := 2 * ((8 * r + 19) * u * Y + (24 * r + 2) * eta / Rabs scale + eta) / (1 - rho) in
  2 * (8 * r + 19) * u <= 1 - rho ->
  let F := rounded emin prec mode in
  exists v, iir_value F (run (iir_push_fma F (rounded_fused emin prec mode)) (iir_clear F) (iir_new F (map Fin b) (map Fin a) (Fin scale)) (fops emin prec mode ops)) = Fin v /\
    Rabs (v - last y 0) <= E.
Proof.
  intros emin prec mode b a scale ops M y Hp He Hv l u eta NB NA NE HM HA HD r rho Y E Hu F.
  assert (M0 : 0 <= M) by (apply (magn_pos (fun x => x) M l); assumption).
  assert (S0 : 0 < Rabs scale).
  { pose proof (abs_sum_pos a). lra. }
  assert (R1 : 0 < 1 - rho).
  { unfold rho. apply Rmult_lt_reg_r with (Rabs scale); [exact S0|]. field_simplify; lra. }
  assert (Y0 : 0 <= Y).
  { unfold Y. apply Rmult_le_pos; [|apply Rlt_le, Rinv_0_lt_compat; lra]. apply Rmult_le_pos; [apply abs_sum_pos|exact M0]. }
  destruct (iir_acc (@approx_lazy emin prec mode (Rmax (4 * (Rabs scale * (Y + E)) + (12 * r + 2) * eta)
            ((4 * (Rabs scale * (Y + E)) + (12 * r + 2) * eta) / Rabs scale)) Hp He Hv)
      (map Fin b) (map Fin a) (Fin scale) b a scale (fops emin prec mode ops) l y M Y E)
    as (v & Ev & H); try rewrite !map_length; try assumption.
  - apply lval_list.
  - apply lval_list.
  - reflexivity.
  - apply (lin_nil emin prec mode); exact NB.
  - apply (lin_nil emin prec mode); exact NA.
  - unfold fops. rewrite since_clear_op_map. apply lval_list.
  - intros i Hi. rewrite Forall_forall in HM. apply HM, nth_In, Hi.
  - unfold Y. field. lra.
  - unfold E, iir_local. fold u eta r. change (abs_sum a / Rabs scale) with rho. field. split; lra.
  - apply Rmax_l.
  - apply Rmax_r.
  - exists v. split; [|exact H]. rewrite <- (iir_run_l emin prec mode) in Ev. exact Ev.
Qed.

(** @ex C123_infinite_ex: an instance of the hypotheses. *)
Lemma c123_infinite_ex :
  (0 < 20)%Z /\ (-20 <= 0)%Z /\ Valid_rnd Zfloor /\
  let ops := [Push 99; Clear; Push 1; Push (-10); Push 3] in
  let y := [1; -21 / 2; 33 / 4] in
  Forall (fun x => Rabs x <= 10) (since_clear ops) /\
  abs_sum [/ 2] < Rabs 1 /\ difference_equation [1] [/ 2] 1 (since_clear ops) y /\
  2 * (8 * INR (length [1] + length [/ 2]) + 19) * bpow radix2 (1 - 20) <= 1 - abs_sum [/ 2] / Rabs 1.
Proof.
  split; [lia|]. split; [lia|]. split; [typeclasses eauto|]. cbn zeta.
  assert (A : abs_sum [/ 2] = / 2). { unfold abs_sum. cbn. rewrite Rabs_right by lra. ring. }
  rewrite A, Rabs_R1. split; [|split; [lra|split]].
  - cbn. repeat (apply Forall_cons; [apply Rabs_le; lra|]). apply Forall_nil.
  - split; [reflexivity|]. change (since_clear _) with [1; -10; 3]. intros n Hn. cbn in Hn.
    unfold sumto, back. destruct n as [|[|[|n]]]; [cbn; field..|lia].
  - cbn. lra.
Qed.

Section Sign.
Variables emin prec : Z.
Context {prec_gt_0_ : Prec_gt_0 prec}.
Hypothesis emin_le_0 : (emin <= 0)%Z.
Variable mode : R -> Z.
Context {valid_mode : Valid_rnd mode}.
Notation rnd := (rounding emin prec mode).
Notation F := (rounded emin prec mode).
Notation U := (rounded_fused emin prec mode).
Notation ffins := (ffins emin prec mode).

Local Notation cmean_rounded' := (@cmean_rounded emin prec prec_gt_0_ emin_le_0 mode valid_mode).
Local Notation cmean_push_fin' := (@cmean_push_fin emin prec prec_gt_0_ emin_le_0 mode valid_mode).
Local Notation mean_step_between' := (@mean_step_between emin prec prec_gt_0_ mode valid_mode).
Local Notation rnd_zero' := (@rnd_zero emin prec mode valid_mode).

Definition fma_step (s m m' x : R) : R := rnd (rnd (x - m) * rnd (x - m') + s).

Lemma fma_step_nonneg s m m' x : 0 <= s -> Rmin m x <= m' <= Rmax m x -> 0 <= fma_step s m m' x.
Proof.
  intros Hs [B1 B2]. apply rnd_pos; [assumption..|].
  assert (0 <= rnd (x - m) * rnd (x - m')); [|lra].
  unfold Rmin, Rmax in *. destruct (Rle_dec m x).
  - apply Rmult_le_pos; (apply rnd_pos; [assumption..|lra]).
  - assert (A1 : rnd (x - m) <= 0) by (apply rnd_neg; [assumption..|lra]).
    assert (A2 : rnd (x - m') <= 0) by (apply rnd_neg; [assumption..|lra]). nra.
Qed.

Lemma cvar_fma_super l s :
  cv_super F (fold_left (cvar_push_fma F U) l s) = fold_left (cmean_push F) l (cv_super F s).
Proof. revert s; induction l as [|x l IH]; intros s; cbn; auto; rewrite IH; reflexivity. Qed.

Lemma cvar_fma_rounded l : l <> [] -> (N.of_nat (length l) < szmod)%N -> Forall (generic_format radix2 (FLT_exp emin prec)) l ->
  exists m s, fold_left (cvar_push_fma F U) (ffins l) (cvar_init F) =
      CVar F (CMean F (Fin m) (N.of_nat (length l))) (Fin s) /\
    (generic_format radix2 (FLT_exp emin prec)) m /\ in_hull m l /\ (generic_format radix2 (FLT_exp emin prec)) s /\ 0 <= s.
Proof.
  induction l as [|x l IH] using rev_ind; intros NE HL HF; [congruence|]. clear NE.
  pose proof (cmean_rounded' (l ++ [x])) as HM.
  destruct HM as (m' & Em & Fm' & Hm'); [destruct l; discriminate|exact HL|exact HF|].
  rewrite length_snoc in *. apply Forall_app in HF. destruct HF as [HF Hx]. inversion Hx as [|? ? Fx _]; subst.
  assert (ST : fold_left (cvar_push_fma F U) (ffins (l ++ [x])) (cvar_init F) =
    cvar_push_fma F U (fold_left (cvar_push_fma F U) (ffins l) (cvar_init F)) (Fin x)).
  { unfold ffins. rewrite map_app, fold_left_app. reflexivity. }
  assert (SM : fold_left (cmean_push F) (ffins (l ++ [x])) (cmean_init F) =
    cmean_push F (fold_left (cmean_push F) (ffins l) (cmean_init F)) (Fin x)).
  { unfold ffins. rewrite map_app, fold_left_app. reflexivity. }
  rewrite ST. rewrite SM in Em. clear ST SM.
  destruct l as [|y l'].
  - exists m', (rnd (rnd (x - rnd 0) * rnd (x - m') + rnd 0)).
    change (fold_left (cmean_push F) (ffins []) (cmean_init F)) with (cmean_init F) in Em.
    change (fold_left (cvar_push_fma F U) (ffins []) (cvar_init F)) with (cvar_init F).
    unfold cvar_push_fma. change (cv_super F (cvar_init F)) with (cmean_init F). rewrite Em.
    split; [reflexivity|]. split; [exact Fm'|]. split; [exact Hm'|]. split; [apply (@rnd_fmt emin prec _ mode _)|].
    rewrite rnd_zero'. apply (fma_step_nonneg 0 0 m' x); [lra|].
    destruct Hm' as [(a & [<-|[]] & La) (b & [<-|[]] & Lb)].
    assert (m' = x) by lra. subst m'. split; [apply Rmin_r|apply Rmax_r].
  - destruct IH as (m & s & E & Fm & Hh & Fs & Ps); [discriminate|lia|exact HF|].
    exists m', (fma_step s m m' x).
    pose proof (cvar_fma_super (ffins (y :: l')) (cvar_init F)) as Sup. rewrite E in Sup.
    change (cv_super F (cvar_init F)) with (cmean_init F) in Sup. cbn [cv_super] in Sup.
    rewrite <- Sup in Em. rewrite E. unfold cvar_push_fma. cbn [cv_super cmean_mean cm_mean cv_sum]. rewrite Em.
    split; [reflexivity|]. split; [exact Fm'|]. split; [exact Hm'|]. split; [apply (@rnd_fmt emin prec _ mode _)|].
    apply fma_step_nonneg; [exact Ps|].
    destruct (cmean_push_fin' m (N.of_nat (length (y :: l'))) x) as (c & _ & _ & C2 & E'); [lia|].
    rewrite E' in Em. injection Em as <- _. apply mean_step_between'; [assumption..|].
    apply C2. cbn. lia.
Qed.

Lemma dv_fma_fin s x : dv_fin emin prec mode s -> fin emin prec mode x ->
  dv_fin emin prec mode (dvar_push_fma F U s x).
Proof.
  intros ((Hmf & Hmn & Hms) & Hf & Hn & Hs) Hx.
  assert (Hm' : dm_fin emin prec mode (dmean_push_fma F U (dv_super F s) x)).
  { destruct Hmf as (f & Ef), Hmn as (n & En), Hms as (m & Em), Hx as (r & ->).
    split; [exists f; exact Ef|]. cbn [dmean_push_fma dm_factor dm_norm dm_sum]. rewrite Ef, En, Em.
    split; eexists; reflexivity. }
  split; [exact Hm'|]. split; [exact Hf|].
  destruct (@delta_fin emin prec mode _ _ x Hm' Hx) as (d & Ed).
  cbn [dvar_push_fma dv_super dv_factor dv_norm dv_sum]. rewrite Ed.
  destruct Hf as (f & -> & Hf), Hn as (n & ->), Hs as (a & -> & Fa & Pa).
  split; [eexists; reflexivity|]. eexists. split; [reflexivity|]. split; [apply (@rnd_fmt emin prec _ mode _)|].
  assert (D : - a <= rnd (d * d - a)).
  { rewrite <- (@rnd_fix emin prec mode _ (- a)) by (apply generic_format_opp; exact Fa).
    apply (@rnd_mono emin prec _ mode _). nra. }
  apply (@rnd_pos emin prec _ mode _). nra.
Qed.
End Sign.

(** @prop C123_variance_sign: with the products fused, in every format and
    rounding mode and for values of the format, mean() of the cumulative filter
    stays in the range of the values and the variances are not negative, as in
    C12. *)
Lemma c123_variance_sign : forall (emin prec : Z) (mode : R -> Z) (ops : list (op R)),
  (0 < prec)%Z -> (emin <= 0)%Z -> Valid_rnd mode ->
  let l := since_clear ops in
  l <> [] -> fits l -> Forall (representable emin prec) l ->
  let F := rounded emin prec mode in
  let s := run (cvar_push_fma F (rounded_fused emin prec mode)) (cvar_clear F) (cvar_init F) (fops emin prec mode ops) in
  exists m v, cvar_mean F s = Fin m /\ representable emin prec m /\ in_hull m l /\
    cvar_variance F s = Fin v /\ 0 <= v /\
    ((2 <= length l)%nat -> exists u, cvar_unbiased_variance F s = Fin u /\ 0 <= u).
Proof.
  intros emin prec mode ops Hp He Hv l NE Hf HF F s.
  assert (HF' : Forall (generic_format radix2 (FLT_exp emin prec)) l).
  { eapply Forall_impl; [|exact HF]. intros a. apply (@representable_fmt emin prec Hp). }
  destruct (@cvar_fma_rounded emin prec Hp He mode Hv l NE Hf HF') as (m & v & E & Fm & Hm & Fv & Pv).
  assert (Es : s = CVar F (CMean F (Fin m) (N.of_nat (length l))) (Fin v)).
  { unfold s, fops. rewrite (run_since_clear _ _ _ (cvar_clear_init F)), since_clear_op_map. exact E. }
  rewrite Es. assert (HL : (1 <= N.of_nat (length l))%N) by (destruct l; cbn; [congruence|lia]).
  destruct (@count_fin emin prec Hp He mode Hv _ HL) as (c & Ec & _ & C1 & _).
  exists m, (rounding emin prec mode (v / c)).
  split; [reflexivity|]. split; [apply (@representable_fmt emin prec Hp); exact Fm|]. split; [exact Hm|].
  assert (D : forall a, 1 <= a -> 0 <= rounding emin prec mode (v / a)).
  { intros a Ha. apply (@rnd_pos emin prec Hp mode Hv). apply Rmult_le_pos; [exact Pv|].
    apply Rlt_le, Rinv_0_lt_compat. lra. }
  split.
  - unfold cvar_variance. cbn [cv_sum cv_super cm_count]. unfold F. rewrite Ec. cbn.
    rewrite Req_bool_false by lra. reflexivity.
  - split; [apply D; exact C1|]. intros H2.
    assert (HL2 : (1 <= N.of_nat (length l) - 1)%N) by lia.
    destruct (@count_fin emin prec Hp He mode Hv _ HL2) as (d & Ed & _ & D1 & _).
    exists (rounding emin prec mode (v / d)). split; [|apply D; exact D1].
    unfold cvar_unbiased_variance. cbn [cv_sum cv_super cm_count].
    rewrite szsub_small by (unfold fits in Hf; lia). unfold F. rewrite Ed. cbn.
    rewrite Req_bool_false by lra. reflexivity.
Qed.

(** @ex C123_variance_sign_ex: three bits, rounding downwards. *)
Lemma c123_variance_sign_ex :
  (0 < 3)%Z /\ (-4 <= 0)%Z /\ Valid_rnd Zfloor /\
  let ops := [Push 7; Clear; Push 5; Push (-6)] in
  since_clear ops = [5; -6] /\ fits (since_clear ops) /\ Forall (representable (-4) 3) (since_clear ops).
Proof.
  split; [lia|]. split; [lia|]. split; [typeclasses eauto|]. cbn zeta. split; [reflexivity|]. split; [reflexivity|].
  cbn. constructor; [|constructor; [|constructor]].
  - exists (Float radix2 5 0); cbn; [unfold F2R; cbn; lra|lia|lia].
  - exists (Float radix2 (-6) 0); cbn; [unfold F2R; cbn; lra|lia|lia].
Qed.

(** @prop C123_decay_sign: with the products fused, variance() of the decay
    filter is not negative after any history of pushes and clears. *)
Lemma c123_decay_sign : forall (emin prec : Z) (mode : R -> Z) (fm fv : R) (ops : list (op R)),
  (0 < prec)%Z -> (emin <= 0)%Z -> Valid_rnd mode -> 0 <= fv <= 1 ->
  let F := rounded emin prec mode in
  let s := run (dvar_push_fma F (rounded_fused emin prec mode)) (dvar_clear F) (dvar_init F (Fin fm) (Fin fv)) (fops emin prec mode ops) in
  exists v, dvar_variance F s = Fin v /\ 0 <= v.
Proof.
  intros emin prec mode fm fv ops Hp He Hv Hfv F s.
  assert (OK : all_pushed (fin emin prec mode) (fops emin prec mode ops)).
  { intros a Ha. unfold fops in Ha. apply in_map_iff in Ha. destruct Ha as ([r|] & E & _); try discriminate.
    injection E as <-. exists r. reflexivity. }
  assert (Z := @zfin emin prec mode Hv). assert (Z0 := @zero_ge0 emin prec mode Hv).
  assert (I : dv_fin emin prec mode (dvar_init F (Fin fm) (Fin fv))).
  { split; [split; [exists fm; reflexivity|split; exact Z]|]. split; [exists fv; auto|]. split; [exact Z|exact Z0]. }
  assert (Hs : dv_fin emin prec mode s).
  { apply (run_invariant _ _ _ (fin emin prec mode)); [exact I| | |exact OK].
    - intros. apply (@dv_fma_fin emin prec Hp mode Hv); assumption.
    - intros. apply (@dv_clear_fin emin prec mode Hv); assumption. }
  destruct (@dv_variance_ge0 emin prec Hp mode Hv s Hs) as (v & E & _ & P). exists v. auto.
Qed.

(** @ex C123_decay_sign_ex: eleven bits, rounding downwards. *)
Lemma c123_decay_sign_ex :
  (0 < 11)%Z /\ (-24 <= 0)%Z /\ Valid_rnd Zfloor /\ 0 <= 1 / 3 <= 1.
Proof. repeat split; try lia; try lra; apply valid_rnd_DN. Qed.

(** Rounding downwards to three bits. *)
Lemma floor3 (z : Z) (e : Z) (x : R) : bpow radix2 (e - 1) <= Rabs x < bpow radix2 e -> (-4 <= e - 3)%Z ->
  Zfloor (x * bpow radix2 (- (e - 3))) = z -> rounding (-4) 3 Zfloor x = IZR z * bpow radix2 (e - 3).
Proof.
  intros Hm He Hz. unfold rounding, round, scaled_mantissa, cexp. rewrite (mag_unique radix2 x e Hm).
  unfold FLT_exp. rewrite Z.max_l by lia. rewrite Hz. reflexivity.
Qed.

Lemma fix3 (m e : Z) (x : R) : x = IZR m * bpow radix2 e -> (Z.abs m < 8)%Z -> (-4 <= e)%Z -> rounding (-4) 3 Zfloor x = x.
Proof.
  intros E Hm He. apply round_generic; [typeclasses eauto|]. apply generic_format_FLT.
  exists (Float radix2 m e); [exact E|exact Hm|exact He].
Qed.

(** @prop C123_visible: contraction can be observed: a finite filter whose value is
    exactly 0 when products are rounded gives 1 when they are fused. *)
Lemma c123_visible : exists (emin prec : Z) (mode : R -> Z) (c l : list R),
  Forall (representable emin prec) c /\ Forall (representable emin prec) l /\
  let F := rounded emin prec mode in
  fir_value F (run (fir_push F) (fir_clear F) (fir_new F (map Fin c)) (pushes (map Fin l))) = Fin 0 /\
  fir_value F (run (fir_push_fma F (rounded_fused emin prec mode)) (fir_clear F) (fir_new F (map Fin c)) (pushes (map Fin l))) = Fin 1.
Proof.
  exists (-4)%Z, 3%Z, Zfloor, [1; 5], [5; -24].
  assert (R1 : representable (-4) 3 1) by (exists (Float radix2 1 0); cbn; [unfold F2R; cbn; lra|lia|lia]).
  assert (R5 : representable (-4) 3 5) by (exists (Float radix2 5 0); cbn; [unfold F2R; cbn; lra|lia|lia]).
  assert (R24 : representable (-4) 3 (-24)) by (exists (Float radix2 (-6) 2); cbn; [unfold F2R; cbn; lra|lia|lia]).
  split; [repeat constructor; assumption|]. split; [repeat constructor; assumption|].
  assert (Z : rounding (-4) 3 Zfloor 0 = 0) by (apply (fix3 0 0); cbn; [lra|lia|lia]).
  assert (A : rounding (-4) 3 Zfloor (-24) = -24) by (apply (fix3 (-6) 2); cbn; [lra|lia|lia]).
  assert (O : rounding (-4) 3 Zfloor 1 = 1) by (apply (fix3 1 0); cbn; [lra|lia|lia]).
  assert (P : rounding (-4) 3 Zfloor 25 = 24).
  { rewrite (floor3 6 5); [cbn; lra| |lia|].
    - rewrite Rabs_right by lra. cbn. lra.
    - apply Zfloor_imp. cbn. lra. }
  cbn zeta. split; cbn.
  - rewrite Z. replace (-24 * 1) with (-24) by ring. rewrite A, Rplus_0_l, A.
    replace (5 * 5) with 25 by ring. rewrite P. f_equal. replace (-24 + 24) with 0 by ring. exact Z.
  - rewrite Z. replace (-24 * 1 + 0) with (-24) by ring. rewrite A.
    f_equal. replace (5 * 5 + -24) with 1 by ring. exact O.
Qed.
