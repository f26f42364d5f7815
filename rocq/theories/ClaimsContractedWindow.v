(** * Claim C123: accuracy of the window covariance with fused multiply-adds *)

From Coq Require Import Reals ZArith NArith List Bool.
From Coq Require Import Floats.SpecFloat.
From Flocq Require Import Core.
From Verif Require Import Arith History SpecStats Window Rounded Ieee Contracted IeeeFused ContractedWindow.
Import ListNotations.
Local Open Scope R_scope.
(** A float of an integer. *)
Local Notation f32 z := (ieee_of_Z 24 128 z).
(* @end-header *)
From Coq Require Import Lia Lra Psatz.
From Flocq Require Import IEEE754.BinarySingleNaN.
From Verif Require Import HistoryLemmas StatsLemmas Approx ApproxInstances WindowProofs RoundedProofs
  AccuracyProofs AccuracyVariance AccuracyComoment IeeeProofs ClaimsAccuracy ClaimsFormats ClaimsFormatsMore IeeeFusedProofs IeeeDeferred
  ContractedWindowProofs.

Lemma af_rounded (emin prec : Z) (mode : R -> Z) (B e t : R) : (forall x, near e t x (rounding emin prec mode x)) ->
  approx_fused (rounded emin prec mode) fval B e t (rounded_fused emin prec mode).
Proof.
  intros N. constructor; intros x y z a b c -> -> -> _; (eexists; split; [reflexivity|apply N]).
Qed.

Lemma af_ieee (prec emax : Z) : (1 < prec)%Z -> (prec < emax)%Z ->
  approx_fused (ieee prec emax) (fdenotes prec emax) (bpow radix2 (emax - 1)) (bpow radix2 (- prec)) (bpow radix2 (2 - emax - prec))
    (ieee_fused prec emax).
Proof.
  intros Hp Hm.
  assert (N : forall x, near (bpow radix2 (- prec)) (bpow radix2 (2 - emax - prec)) x (rndf prec emax x)).
  { intros x. replace (2 - emax - prec)%Z with (3 - emax - prec - 1)%Z by lia. apply (rounding_nearest (3 - emax - prec) prec); lia. }
  constructor; intros x y z a b c Vx Vy Vz H.
  - eexists. split; [exact (denotes_fma prec emax Hp Hm x y z a b c Vx Vy Vz H)|apply N].
  - eexists. split; [exact (denotes_fma prec emax Hp Hm x y _ a b _ Vx Vy (denotes_opp prec emax z c Vz) H)|apply N].
  - replace (c - a * b) with (- a * b + c) in * by ring.
    eexists. split; [exact (denotes_fma prec emax Hp Hm _ y z _ b c (denotes_opp prec emax x a Vx) Vy Vz H)|apply N].
Qed.

Lemma window_ne {A} (W : nat) (l : list A) : (0 < W)%nat -> l <> [] -> 1 <= INR (length (lastn W l)).
Proof.
  intros HW NE. apply inr_ge1. unfold lastn. intro E. apply (f_equal (@length _)) in E. rewrite skipn_length in E.
  destruct l; [congruence|cbn [length] in E; lia].
Qed.

(** @prop C123_window_covariance: the window covariance of [k] pairs after [n] pushes since the
    last clear keeps the bound of C96 with fused products, whichever of the two products that
    are subtracted the compiler fuses, in every format and rounding mode. *)
Lemma c123_window_covariance : forall (emin prec : Z) (mode : R -> Z) (first : bool) (W : nat) (ops : list (op (R * R))) (Mx My : R),
  (0 < prec)%Z -> (emin <= 0)%Z -> Valid_rnd mode ->
  let l := since_clear ops in
  let n := INR (length l) in
  let u := bpow radix2 (1 - prec) in
  let eta := bpow radix2 emin in
  (0 < W)%nat -> (Z.of_nat W <= 2 ^ prec)%Z -> l <> [] -> 64 * n * u <= 1 -> 64 * n * eta <= Mx -> 64 * n * eta <= My ->
  Forall (fun p => Rabs (fst p) <= Mx /\ Rabs (snd p) <= My) l ->
  let F := rounded emin prec mode in
  let s := run (wcov_push_fma F (rounded_fused emin prec mode) first W) (wcov_clear F) (wcov_init F)
    (map (op_map (fun p => (Fin (fst p), Fin (snd p)) : F * F)) ops) in
  exists v, wcov_variance F s = Fin v /\
    Rabs (v - covariance (lastn W l)) <= n * (64 * u * (Mx * My) + 10 * (Mx + My) * eta + 26 * eta).
Proof.
  intros emin prec mode first W ops Mx My Hp He Hv l n u eta HW HK NE Hu Htx Hty HM F s.
  assert (N1 : 1 <= n) by (apply inr_ge1; exact NE).
  pose proof (window_ne W l HW NE) as K1. set (k := INR (length (lastn W l))) in *.
  assert (T : 0 < eta) by apply bp.
  assert (NT : 0 <= n * eta) by (apply Rmult_le_pos; lra).
  assert (X0 : 0 <= Mx) by lra. assert (Y0 : 0 <= My) by lra.
  assert (P0 : 0 <= Mx * My) by (apply Rmult_le_pos; lra).
  assert (A1 : 0 <= k * Mx) by (apply Rmult_le_pos; lra). assert (A2 : 0 <= k * My) by (apply Rmult_le_pos; lra).
  assert (A3 : 0 <= k * k * (Mx * My)) by (apply Rmult_le_pos; [apply Rmult_le_pos; lra|exact P0]).
  assert (A4 : 0 <= k * (Mx * My)) by (apply Rmult_le_pos; lra).
  set (B := 16 * k * Mx + 16 * k * My + 16 * (k * k) * (Mx * My) + 16 * k * (Mx * My) + 32 * n * eta).
  assert (Co : @cosmall B u eta Mx My n k) by (unfold cosmall, B; repeat split; lra).
  set (f := fun p : R * R => (Fin (fst p), Fin (snd p)) : F * F).
  destruct (wcov_fma_accuracy (@approx_any emin prec Hp He mode B Hv) (rounded_fused emin prec mode)
    (af_rounded emin prec mode B u eta (@rounding_any emin prec Hp mode Hv)) first Mx My n k W HW Co (map f l) l)
    as ((r & Er & H) & _); try assumption.
  - clear. induction l; cbn; constructor; [split; reflexivity|assumption].
  - destruct l; [congruence|discriminate].
  - rewrite map_length. apply Rle_refl.
  - unfold k, lastn. rewrite !skipn_length, map_length. reflexivity.
  - lia.
  - exists r. split.
    + rewrite <- Er. unfold s. rewrite run_since_clear by reflexivity. rewrite since_clear_op_map. reflexivity.
    + fold u eta in H. rewrite <- Rmult_assoc in H. exact H.
Qed.

(** @ex C123_window_covariance_ex: a window of two pairs out of three. *)
Lemma c123_window_covariance_ex :
  (0 < 20)%Z /\ (-20 <= 0)%Z /\ Valid_rnd Ztrunc /\
  let ops := [Push (99, 99); Clear; Push (1, 500); Push (-10, 3); Push (3, -1)] in
  let l := since_clear ops in
  l = [(1, 500); (-10, 3); (3, -1)] /\ lastn 2 l = [(-10, 3); (3, -1)] /\ (Z.of_nat 2 <= 2 ^ 20)%Z /\
  64 * INR (length l) * bpow radix2 (1 - 20) <= 1 /\ 64 * INR (length l) * bpow radix2 (-20) <= 10 /\
  Forall (fun p => Rabs (fst p) <= 10 /\ Rabs (snd p) <= 500) l.
Proof.
  split; [lia|]. split; [lia|]. split; [typeclasses eauto|]. cbn zeta.
  split; [reflexivity|]. split; [reflexivity|]. split; [cbn; lia|]. split; [cbn; lra|]. split; [cbn; lra|].
  cbn. repeat (apply Forall_cons; [split; apply Rabs_le; cbn; lra|]). apply Forall_nil.
Qed.

(** @prop C123_ieee_window_covariance: the same in every IEEE format, with the bound of C110. *)
Lemma c123_ieee_window_covariance : forall (prec emax : Z) (first : bool) (W : nat) (ops : list (op (spec_float * spec_float))) (Mx My : R),
  (1 < prec < emax)%Z ->
  let l := since_clear ops in
  let n := INR (length l) in
  let k := INR (length (lastn W l)) in
  let u := bpow radix2 (- prec) in
  let eta := bpow radix2 (2 - emax - prec) in
  let big := bpow radix2 (emax - 1) in
  (0 < W)%nat -> (Z.of_nat W <= 2 ^ prec)%Z -> l <> [] ->
  64 * n * u <= 1 -> 64 * n * eta <= Mx -> 64 * n * eta <= My ->
  16 * k * Mx <= big -> 16 * k * My <= big -> 16 * (k * k) * (Mx * My) <= big -> 16 * k * (Mx * My) + 32 * n * eta <= big ->
  Forall (fun p => (ieee_finite prec emax (fst p) /\ Rabs (ieee_real (fst p)) <= Mx) /\
                   (ieee_finite prec emax (snd p) /\ Rabs (ieee_real (snd p)) <= My)) l ->
  let F := ieee prec emax in
  let v := wcov_variance F (run (wcov_push_fma F (ieee_fused prec emax) first W) (wcov_clear F) (wcov_init F) ops) in
  ieee_finite prec emax v /\
  Rabs (ieee_real v - covariance (lastn W (map (fun p => (ieee_real (fst p), ieee_real (snd p))) l))) <=
    n * (64 * u * (Mx * My) + 10 * (Mx + My) * eta + 26 * eta).
Proof.
  intros prec emax first W ops Mx My Hp l n k u eta big HW HK NE Hn Htx Hty B1 B2 B3 B4 HF F v.
  assert (Hp1 : (1 < prec)%Z) by lia. assert (Hp2 : (prec < emax)%Z) by lia.
  assert (N1 : 1 <= n) by (apply inr_ge1; exact NE).
  assert (M0 : 0 <= Mx /\ 0 <= My).
  { clear - NE HF. destruct HF as [|p l' ((A1 & A2) & C1 & C2) _]; [contradiction|].
    pose proof (Rabs_pos (ieee_real (fst p))). pose proof (Rabs_pos (ieee_real (snd p))). lra. }
  pose proof (window_ne W l HW NE : 1 <= k) as K1.
  assert (Co : @cosmall big u eta Mx My n k) by (unfold cosmall; repeat split; try assumption; apply M0).
  set (g := fun p : spec_float * spec_float => (ieee_real (fst p), ieee_real (snd p))).
  destruct (wcov_fma_accuracy (approx_ieee prec emax Hp1 Hp2) (ieee_fused prec emax) (af_ieee prec emax Hp1 Hp2) first
    Mx My n k W HW Co l (map g l)) as ((r & (Fr & Er) & H) & _); try assumption.
  - clear - HF. induction HF as [|p l' ((A1 & A2) & C1 & C2) _ IH]; cbn; constructor; [|assumption]. split; split; cbn; auto.
  - clear - HF. induction HF as [|p l' ((A1 & A2) & C1 & C2) _ IH]; cbn; constructor; [cbn; auto|assumption].
  - apply Rle_refl.
  - reflexivity.
  - lia.
  - assert (Em : v = wcov_variance F (fold_left (wcov_push_fma F (ieee_fused prec emax) first W) l (wcov_init F))).
    { unfold v. rewrite run_since_clear by reflexivity. reflexivity. }
    rewrite Em. split; [exact Fr|]. unfold F. rewrite Er. rewrite <- Rmult_assoc in H. exact H.
Qed.

(** @ex C123_ieee_window_covariance_ex: a window of two pairs of floats. *)
Lemma c123_ieee_window_covariance_ex :
  let l := since_clear [Push (f32 9, f32 9); Clear; Push (f32 1000, f32 (-7)); Push (f32 2, f32 8); Push (f32 (-5), f32 1)] in
  lastn 2 l = [(f32 2, f32 8); (f32 (-5), f32 1)] /\ length l = 3%nat /\ 64 * 3 * bpow radix2 (- 24) <= 1 /\
  64 * 3 * bpow radix2 (2 - 128 - 24) <= 8 /\ 16 * 2 * 1000 <= bpow radix2 (128 - 1) /\ 16 * (2 * 2) * (1000 * 8) <= bpow radix2 (128 - 1) /\
  16 * 2 * (1000 * 8) + 32 * 3 * bpow radix2 (2 - 128 - 24) <= bpow radix2 (128 - 1) /\
  Forall (fun p => (ieee_finite 24 128 (fst p) /\ Rabs (ieee_real (fst p)) <= 1000) /\
                   (ieee_finite 24 128 (snd p) /\ Rabs (ieee_real (snd p)) <= 8)) l.
Proof. exact c110_window_covariance_ex. Qed.

(** @ex C123_window_covariance_visible_ex: which of the two products is fused can be seen in the
    result.  The pairs (x, y), (-x, y), (x, y) with x = 1/3 and y = 1/7 over float and a window
    of two: the covariance is 0, which one choice returns and the other does not. *)
Lemma c123_window_covariance_visible_ex :
  let F := ieee 24 128 in
  let x := @ndiv F (f32 1) (f32 3) in
  let x' := @ndiv F (f32 (-1)) (f32 3) in
  let y := @ndiv F (f32 1) (f32 7) in
  let v := fun first => wcov_variance F (run (wcov_push_fma F (ieee_fused 24 128) first 2) (wcov_clear F) (wcov_init F)
             [Push (x, y); Push (x', y); Push (x, y)]) in
  SFeqb (v true) (S754_zero false) = true /\ SFeqb (v false) (S754_zero false) = false.
Proof. split; vm_compute; reflexivity. Qed.
