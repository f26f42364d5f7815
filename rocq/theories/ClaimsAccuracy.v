(** * Claims C65-C72: accuracy in rounded arithmetic *)

From Coq Require Import Reals ZArith NArith List Bool.
From Coq Require Import Floats.SpecFloat.
From Flocq Require Import Core.
From Verif Require Import Arith History SpecStats SpecDecay SpecImpulse Cumulative Window Decay Impulse ImpulseRuns Rounded Binary64 ExactRuns.
Import ListNotations.
Local Open Scope R_scope.
(* @end-header *)
From Coq Require Import Lia Lra Psatz.
From Flocq Require Import BinarySingleNaN.
From Verif Require Import HistoryLemmas StatsLemmas CumulativeProofs WindowProofs DecayProofs ImpulseProofs RoundedProofs Binary64Cumulative
  Approx ApproxInstances AccuracyProofs AccuracyFilters AccuracyVariance AccuracyWindow.

Lemma fval_list emin prec mode (l : list R) :
  Forall2 (@fval emin prec mode) (map Fin l) l.
Proof. induction l; cbn; constructor; [reflexivity|assumption]. Qed.

Lemma denotes_list (l : list b64) : Forall b64_finite l -> Forall2 denotes l (map b64_real l).
Proof. induction 1; cbn; constructor; [split; [assumption|reflexivity]|assumption]. Qed.

Lemma prec_count prec (k : N) : (Z.of_N k <= 2 ^ prec)%Z -> (k <= Z.to_N (2 ^ prec))%N.
Proof. lia. Qed.

Lemma inr_le {A} (l : list A) (k : Z) : (0 <= k)%Z -> (Z.of_nat (length l) <= 2 ^ k)%Z -> INR (length l) <= bpow radix2 k.
Proof.
  intros Hk H. rewrite INR_IZR_INZ. change radix2 with (Build_radix 2 (refl_equal true)).
  rewrite <- IZR_Zpower by exact Hk. apply IZR_le. exact H.
Qed.

Lemma fin_nil {emin prec mode} (l : list R) : l <> [] -> map (@Fin) l <> ([] : list (rounded emin prec mode)).
Proof. destruct l; [congruence|discriminate]. Qed.

Lemma b64_magn (M : R) (l : list b64) :
  Forall (fun x => b64_finite x /\ Rabs (b64_real x) <= M) l ->
  Forall b64_finite l /\ Forall (fun x => Rabs x <= M) (map b64_real l).
Proof.
  intros H. split; [eapply Forall_impl; [|exact H]; cbn; tauto|].
  apply Forall_forall. intros x Hx. apply in_map_iff in Hx as (y & <- & Hy).
  rewrite Forall_forall in H. apply H. exact Hy.
Qed.

Lemma magn_pos {A} (f : A -> R) M l : l <> [] -> Forall (fun x => Rabs (f x) <= M) l -> 0 <= M.
Proof. intros NE H. destruct H as [|x l H]; [congruence|]. pose proof (Rabs_pos (f x)). lra. Qed.

Lemma fops_since emin prec mode ops : since_clear (fops emin prec mode ops) = map Fin (since_clear ops).
Proof. apply since_clear_op_map. Qed.

Lemma run_map_push {A S} (push : S -> A -> S) clear s l : run push clear s (map Push l) = fold_left push l s.
Proof. revert s. induction l; intros s; [reflexivity|]. cbn. apply IHl. Qed.

(** Powers of two used below. *)
Lemma bp (k : Z) : 0 < bpow radix2 k. Proof. apply bpow_gt_0. Qed.
Lemma bp_mul (j k : Z) : bpow radix2 j * bpow radix2 k = bpow radix2 (j + k).
Proof. symmetry. apply bpow_plus. Qed.
Lemma bp_le (j k : Z) : (j <= k)%Z -> bpow radix2 j <= bpow radix2 k.
Proof. apply bpow_le. Qed.

Lemma b64_count {A} (l : list A) (k : Z) :
  (0 <= k <= 53)%Z -> (Z.of_nat (length l) <= 2 ^ k)%Z -> (N.of_nat (length l) <= Z.to_N (2 ^ 53))%N.
Proof.
  intros Hk H. change (Z.to_N (2 ^ 53)) with (2 ^ 53)%N.
  assert (2 ^ k <= 2 ^ 53)%Z by (apply Z.pow_le_mono_r; lia). lia.
Qed.

Lemma b64_small {A} (l : list A) (k : Z) : (0 <= k < 64)%Z -> (Z.of_nat (length l) <= 2 ^ k)%Z -> fits l.
Proof.
  intros Hk H. unfold fits, szmod.
  assert (2 ^ k < 2 ^ 64)%Z by (apply Z.pow_lt_mono_r; lia). lia.
Qed.

Lemma bp_double (k : Z) : bpow radix2 (1 + k) = 2 * bpow radix2 k.
Proof. rewrite bpow_plus. f_equal. Qed.

Lemma b64_lin (n : R) : n <= bpow radix2 49 -> 16 * n * bpow radix2 (-53) <= 1.
Proof.
  intros H. apply Rle_trans with (bpow radix2 4 * bpow radix2 49 * bpow radix2 (-53)).
  - apply Rmult_le_compat_r; [apply Rlt_le, bp|]. change (bpow radix2 4) with 16. lra.
  - rewrite !bp_mul. cbn. lra.
Qed.

Lemma b64_room (n M : R) : n <= bpow radix2 49 -> M <= bpow radix2 1018 ->
  16 * M + 60 * n * bpow radix2 (-1075) <= bpow radix2 1023.
Proof.
  intros H HM. apply Rle_trans with (bpow radix2 4 * bpow radix2 1018 + bpow radix2 6 * bpow radix2 49 * bpow radix2 (-1075)).
  - pose proof (bp 49). apply Rplus_le_compat.
    + change (bpow radix2 4) with 16. lra.
    + apply Rmult_le_compat_r; [apply Rlt_le, bp|]. change (bpow radix2 6) with 64. lra.
  - rewrite !bp_mul. change 1023%Z with (1 + 1022)%Z. rewrite bp_double.
    pose proof (bp_le (4 + 1018) 1022 ltac:(lia)). pose proof (bp_le (6 + 49 + -1075) 1022 ltac:(lia)). lra.
Qed.

Ltac magnitude := split; [split; vm_compute; reflexivity|unfold b64_real, SF2R, F2R; cbn; apply Rabs_le; lra].
Ltac magnitudes := repeat (apply Forall_cons; [magnitude|]); apply Forall_nil.

(** ** C65 *)

(** @prop C65_rounded: in every binary format with gradual underflow, every
    rounding function with relative error below [u] and absolute error below
    [eta] when subnormal: after [n] pushes of numbers of magnitude at most [M]
    since the last clear, mean() is a number within
    [(n + 25) u M + (3 n + 11) eta] of the arithmetic mean. *)
Lemma c65_rounded : forall (emin prec : Z) (mode : R -> Z) (ops : list (op R)) (M : R),
  (0 < prec)%Z -> (emin <= 0)%Z -> Valid_rnd mode ->
  let l := since_clear ops in
  let n := INR (length l) in
  let u := bpow radix2 (1 - prec) in
  let eta := bpow radix2 emin in
  l <> [] -> fits l -> (Z.of_nat (length l) <= 2 ^ prec)%Z -> 16 * n * u <= 1 ->
  Forall (fun x => Rabs x <= M) l ->
  let F := rounded emin prec mode in
  let s := run (cmean_push F) (cmean_clear F) (cmean_init F) (fops emin prec mode ops) in
  exists m, cmean_mean F s = Fin m /\
    Rabs (m - mean l) <= (n + 25) * u * M + (3 * n + 11) * eta.
Proof.
  intros emin prec mode ops M Hp He Hv l n u eta NE Hf HK Hn HM F s.
  assert (M0 : 0 <= M) by (apply (magn_pos (fun x => x) M l); assumption).
  destruct (cmean_accuracy (@approx_any emin prec Hp He mode (16 * M + 60 * n * eta) Hv) M M0
    (map Fin l) l) as (r & Er & H); try rewrite map_length; try assumption.
  - apply fval_list.
  - apply fin_nil; exact NE.
  - lia.
  - apply Rle_refl.
  - rewrite map_length in H. exists r. split; [|exact H].
    unfold s, fops. rewrite (run_since_clear _ _ _ (cmean_clear_init F)), since_clear_op_map. exact Er.
Qed.

(** @ex C65_rounded_ex: a format of twelve bits rounding towards zero; five
    values at most 10 in magnitude. *)
Lemma c65_rounded_ex :
  (0 < 12)%Z /\ (-20 <= 0)%Z /\ Valid_rnd Ztrunc /\
  let ops := [Push 99; Clear; Push 1; Push (-10); Push 3; Push 7; Push 2] in
  since_clear ops = [1; -10; 3; 7; 2] /\ fits (since_clear ops) /\
  (Z.of_nat (length (since_clear ops)) <= 2 ^ 12)%Z /\
  16 * INR (length (since_clear ops)) * bpow radix2 (1 - 12) <= 1 /\
  Forall (fun x => Rabs x <= 10) (since_clear ops).
Proof.
  split; [lia|]. split; [lia|]. split; [typeclasses eauto|]. cbn zeta.
  split; [reflexivity|]. split; [reflexivity|]. split; [cbn; lia|]. split; [cbn; lra|].
  cbn. repeat (apply Forall_cons; [apply Rabs_le; lra|]). apply Forall_nil.
Qed.

(** @prop C65_binary64: in binary64, up to 2^49 finite values of magnitude at
    most [M <= 2^1018]: mean() is finite and within
    [(n + 25) 2^-53 M + (3 n + 11) 2^-1075] of the arithmetic mean. *)
Lemma c65_binary64 : forall (ops : list (op b64)) (M : R),
  let l := since_clear ops in
  let n := INR (length l) in
  l <> [] -> (Z.of_nat (length l) <= 2 ^ 49)%Z -> M <= bpow radix2 1018 ->
  Forall (fun x => b64_finite x /\ Rabs (b64_real x) <= M) l ->
  let s := run (cmean_push b64num) (cmean_clear b64num) (cmean_init b64num) ops in
  let m := cmean_mean b64num s in
  b64_finite m /\
  Rabs (b64_real m - mean (map b64_real l)) <=
    (n + 25) * bpow radix2 (-53) * M + (3 * n + 11) * bpow radix2 (-1075).
Proof.
  intros ops M l n NE Hn HM HF s m.
  destruct (b64_magn M l HF) as [Hfin Hmag].
  assert (M0 : 0 <= M).
  { apply (magn_pos b64_real M l NE). eapply Forall_impl; [|exact HF]; cbn; tauto. }
  pose proof (inr_le l 49 ltac:(lia) Hn) as Hn'. fold n in Hn'.
  pose proof (pos_INR (length l)) as N0. fold n in N0.
  destruct (cmean_accuracy approx_b64 M M0 l (map b64_real l)) as (r & (Fr & Er) & H); try assumption.
  - apply denotes_list; exact Hfin.
  - apply (b64_count l 49); [lia|exact Hn].
  - apply (b64_small l 49); [lia|exact Hn].
  - exact (b64_lin n Hn').
  - exact (b64_room n M Hn' HM).
  - assert (Em : m = cm_mean b64num (fold_left (cmean_push b64num) l (cmean_init b64num))).
    { unfold m, s. rewrite (run_since_clear _ _ _ (cmean_clear_init b64num)). reflexivity. }
    rewrite Em. split; [exact Fr|]. rewrite Er. exact H.
Qed.

(** @ex C65_binary64_ex: tenths up to a million in magnitude satisfy the
    hypotheses; the bound for a million values at most 1 in magnitude is below
    1.2e-10. *)
Lemma c65_binary64_ex :
  let d k := @ndiv b64num (b64_of_Z k) (b64_of_Z 10) in
  let ops := [Push (d 3%Z); Clear; Push (d 1%Z); Push (d (-70)%Z); Push (d 9999999%Z)] in
  since_clear ops = [d 1%Z; d (-70)%Z; d 9999999%Z] /\
  (Z.of_nat (length (since_clear ops)) <= 2 ^ 49)%Z /\
  1000000 <= bpow radix2 1018 /\
  Forall (fun x => b64_finite x /\ Rabs (b64_real x) <= 1000000) (since_clear ops) /\
  (10 ^ 6 + 25) * bpow radix2 (-53) * 1 + (3 * 10 ^ 6 + 11) * bpow radix2 (-1075) < 12 / 10 ^ 11.
Proof.
  cbn zeta. split; [reflexivity|]. split; [cbn; lia|]. split.
  { apply Rle_trans with (bpow radix2 20); [cbn; lra|apply bp_le; lia]. } split.
  { vm_compute since_clear. magnitudes. }
  apply Rle_lt_trans with ((10 ^ 6 + 25) * bpow radix2 (-53) * 1 + (3 * 10 ^ 6 + 11) * bpow radix2 (-80)).
  { apply Rplus_le_compat_l, Rmult_le_compat_l; [lra|apply bp_le; lia]. }
  cbn. lra.
Qed.

(** ** C66 *)

(** @prop C66_rounded: the window mean is updated incrementally, so rounding
    errors of values that have left the window stay in the sum. In every format
    and rounding mode they add up at most linearly: after [n] pushes since the
    last clear mean() is within [n (26 u M + 14 eta)] of the arithmetic mean of
    the last [W] values. *)
Lemma c66_rounded : forall (emin prec : Z) (mode : R -> Z) (W : nat) (ops : list (op R)) (M : R),
  (0 < prec)%Z -> (emin <= 0)%Z -> Valid_rnd mode ->
  let l := since_clear ops in
  let n := INR (length l) in
  let u := bpow radix2 (1 - prec) in
  let eta := bpow radix2 emin in
  (0 < W)%nat -> (Z.of_nat W <= 2 ^ prec)%Z -> (N.of_nat W < szmod)%N ->
  l <> [] -> 16 * n * u <= 1 -> Forall (fun x => Rabs x <= M) l ->
  let F := rounded emin prec mode in
  let s := run (wmean_push F W) (wmean_clear F) (wmean_init F) (fops emin prec mode ops) in
  exists m, wmean_mean F s = Fin m /\
    Rabs (m - mean (lastn W l)) <= n * (26 * u * M + 14 * eta).
Proof.
  intros emin prec mode W ops M Hp He Hv l n u eta HW HK Hs NE Hn HM F s.
  assert (M0 : 0 <= M) by (apply (magn_pos (fun x => x) M l); assumption).
  destruct (wmean_acc (@approx_any emin prec Hp He mode (16 * M + 60 * n * eta) Hv) M M0 W HW
    (map Fin l) l) as (r & Er & H); try rewrite map_length; try assumption.
  - apply fval_list.
  - apply fin_nil; exact NE.
  - lia.
  - apply Rle_refl.
  - rewrite map_length in H. change (INR (length l)) with n in H. exists r. split.
    + unfold s, fops. rewrite (run_since_clear _ _ _ (wmean_clear_init F)), since_clear_op_map. exact Er.
    + unfold wstep in H. fold u eta in H. lra.
Qed.

(** @ex C66_rounded_ex: a window of two in a format of twelve bits rounding
    upwards. *)
Lemma c66_rounded_ex :
  (0 < 12)%Z /\ (-20 <= 0)%Z /\ Valid_rnd Zceil /\
  (0 < 2)%nat /\ (Z.of_nat 2 <= 2 ^ 12)%Z /\ (N.of_nat 2 < szmod)%N /\
  let ops := [Push 99; Clear; Push 1; Push (-10); Push 3; Push 7; Push 2] in
  since_clear ops = [1; -10; 3; 7; 2] /\ lastn 2 (since_clear ops) = [7; 2] /\
  16 * INR (length (since_clear ops)) * bpow radix2 (1 - 12) <= 1 /\
  Forall (fun x => Rabs x <= 10) (since_clear ops).
Proof.
  split; [lia|]. split; [lia|]. split; [typeclasses eauto|]. split; [lia|]. split; [cbn; lia|].
  split; [reflexivity|]. cbn zeta. split; [reflexivity|]. split; [reflexivity|]. split; [cbn; lra|].
  cbn. repeat (apply Forall_cons; [apply Rabs_le; lra|]). apply Forall_nil.
Qed.

(** @prop C66_binary64: the same in binary64 for up to 2^49 values of magnitude
    at most [M <= 2^1018] and windows of at most 2^53. *)
Lemma c66_binary64 : forall (W : nat) (ops : list (op b64)) (M : R),
  let l := since_clear ops in
  let n := INR (length l) in
  (0 < W)%nat -> (Z.of_nat W <= 2 ^ 53)%Z ->
  l <> [] -> (Z.of_nat (length l) <= 2 ^ 49)%Z -> M <= bpow radix2 1018 ->
  Forall (fun x => b64_finite x /\ Rabs (b64_real x) <= M) l ->
  let s := run (wmean_push b64num W) (wmean_clear b64num) (wmean_init b64num) ops in
  let m := wmean_mean b64num s in
  b64_finite m /\
  Rabs (b64_real m - mean (lastn W (map b64_real l))) <=
    n * (26 * bpow radix2 (-53) * M + 14 * bpow radix2 (-1075)).
Proof.
  intros W ops M l n HW HK NE Hn HM HF s m.
  destruct (b64_magn M l HF) as [Hfin Hmag].
  assert (M0 : 0 <= M).
  { apply (magn_pos b64_real M l NE). eapply Forall_impl; [|exact HF]; cbn; tauto. }
  pose proof (inr_le l 49 ltac:(lia) Hn) as Hn'. fold n in Hn'.
  destruct (wmean_acc approx_b64 M M0 W HW l (map b64_real l)) as (r & (Fr & Er) & H); try assumption.
  - apply denotes_list; exact Hfin.
  - change (Z.to_N (2 ^ 53)) with (2 ^ 53)%N. lia.
  - unfold szmod. lia.
  - exact (b64_lin n Hn').
  - exact (b64_room n M Hn' HM).
  - assert (Em : m = wm_mean b64num (fold_left (wmean_push b64num W) l (wmean_init b64num))).
    { unfold m, s. rewrite (run_since_clear _ _ _ (wmean_clear_init b64num)). reflexivity. }
    rewrite Em. split; [exact Fr|]. rewrite Er. change (INR (length l)) with n in H. unfold wstep in H. lra.
Qed.

(** @ex C66_binary64_ex: a window of two tenths; and the error is not 0: after
    1e16, 1 and 1 in a window of two the mean of the last two is not 1. *)
Lemma c66_binary64_ex :
  let d k := @ndiv b64num (b64_of_Z k) (b64_of_Z 10) in
  let ops := [Push (d 3%Z); Clear; Push (d 1%Z); Push (d (-70)%Z); Push (d 9999999%Z)] in
  (0 < 2)%nat /\ (Z.of_nat 2 <= 2 ^ 53)%Z /\ 1000000 <= bpow radix2 1018 /\
  (Z.of_nat (length (since_clear ops)) <= 2 ^ 49)%Z /\
  Forall (fun x => b64_finite x /\ Rabs (b64_real x) <= 1000000) (since_clear ops) /\
  let w := [Push (b64_of_Z (10 ^ 16)); Push (b64_of_Z 1); Push (b64_of_Z 1)] in
  SFeqb (wmean_mean b64num (run (wmean_push b64num 2) (wmean_clear b64num) (wmean_init b64num) w))
    (b64_of_Z 1) = false.
Proof.
  cbn zeta. split; [lia|]. split; [lia|]. split.
  { apply Rle_trans with (bpow radix2 20); [cbn; lra|apply bp_le; lia]. } split; [cbn; lia|]. split.
  { vm_compute since_clear. magnitudes. }
  vm_compute. reflexivity.
Qed.

(** ** C67 *)

(** @prop C67_rounded: exponential averages forget their rounding errors: for a
    factor [f] that is not smaller than 104 u, however many values are pushed,
    mean() stays within [209 u M / f + 57 eta (1 + M) / f^2] of the exponentially
    weighted mean. *)
Lemma c67_rounded : forall (emin prec : Z) (mode : R -> Z) (f : R) (l : list R) (M : R),
  (0 < prec)%Z -> (emin <= 0)%Z -> Valid_rnd mode ->
  let u := bpow radix2 (1 - prec) in
  let eta := bpow radix2 emin in
  0 < f <= 1 -> 104 * u <= f -> 56 * eta <= f * f ->
  l <> [] -> Forall (fun x => Rabs x <= M) l ->
  let F := rounded emin prec mode in
  let s := run (dmean_push F) (dmean_clear F) (dmean_init F (Fin f)) (pushes (map Fin l)) in
  exists m, dmean_mean F s = Fin m /\
    Rabs (m - ewma f l) <= 209 * u * M / f + 57 * eta * (1 + M) / (f * f).
Proof.
  intros emin prec mode f l M Hp He Hv u eta Hf Hu Ht NE HM F s.
  assert (M0 : 0 <= M) by (apply (magn_pos (fun x => x) M l); assumption).
  destruct (dmean_acc (@approx_any emin prec Hp He mode (16 * (M + 1) + 32) Hv) (Fin f) f M
    (map Fin l) l) as (r & Er & H); try assumption; try lra.
  - reflexivity.
  - apply fval_list.
  - apply fin_nil; exact NE.
  - exists r. split; [|exact H]. unfold s. unfold pushes. rewrite run_map_push. exact Er.
Qed.

(** @ex C67_rounded_ex: factor 1/8 in a format of twelve bits, three values. *)
Lemma c67_rounded_ex :
  (0 < 12)%Z /\ (-20 <= 0)%Z /\ Valid_rnd Zfloor /\
  0 < / 8 <= 1 /\ 104 * bpow radix2 (1 - 12) <= / 8 /\ 56 * bpow radix2 (-20) <= / 8 * / 8 /\
  Forall (fun x => Rabs x <= 10) [1; -10; 3] /\ ewma (/ 8) [1; -10; 3] = -319 / 169.
Proof.
  split; [lia|]. split; [lia|]. split; [typeclasses eauto|]. split; [lra|]. split; [cbn; lra|].
  split; [cbn; lra|]. split.
  - repeat (apply Forall_cons; [apply Rabs_le; lra|]). apply Forall_nil.
  - unfold ewma. cbn. field.
Qed.

(** @prop C67_binary64: the same in binary64 for factors from 2^-46 to 1 and
    finite values of magnitude at most [M <= 2^1018]. *)
Lemma c67_binary64 : forall (f : b64) (l : list b64) (M : R),
  b64_finite f -> bpow radix2 (-46) <= b64_real f <= 1 ->
  l <> [] -> M <= bpow radix2 1018 ->
  Forall (fun x => b64_finite x /\ Rabs (b64_real x) <= M) l ->
  let s := run (dmean_push b64num) (dmean_clear b64num) (dmean_init b64num f) (pushes l) in
  let m := dmean_mean b64num s in
  b64_finite m /\
  Rabs (b64_real m - ewma (b64_real f) (map b64_real l)) <=
    209 * bpow radix2 (-53) * M / b64_real f +
    57 * bpow radix2 (-1075) * (1 + M) / (b64_real f * b64_real f).
Proof.
  intros f l M Ff Hf NE HM HF s m.
  destruct (b64_magn M l HF) as [Hfin Hmag].
  assert (M0 : 0 <= M).
  { apply (magn_pos b64_real M l NE). eapply Forall_impl; [|exact HF]; cbn; tauto. }
  pose proof (bp (-46)) as P46.
  assert (B10 : 1024 <= bpow radix2 1018).
  { apply Rle_trans with (bpow radix2 10); [cbn; lra|apply bp_le; lia]. }
  assert (E5 : bpow radix2 1023 = 32 * bpow radix2 1018).
  { change 1023%Z with (5 + 1018)%Z. rewrite bpow_plus. f_equal. }
  destruct (dmean_acc approx_b64 f (b64_real f) M l (map b64_real l)) as (r & (Fr & Er) & H); try assumption.
  - split; [exact Ff|reflexivity].
  - lra.
  - apply denotes_list; exact Hfin.
  - apply Rle_trans with (bpow radix2 7 * bpow radix2 (-53)).
    + apply Rmult_le_compat_r; [apply Rlt_le, bp|]. change (bpow radix2 7) with 128. lra.
    + rewrite bp_mul. exact (proj1 Hf).
  - apply Rle_trans with (bpow radix2 (-46) * bpow radix2 (-46)); [|apply Rmult_le_compat; lra].
    apply Rle_trans with (bpow radix2 6 * bpow radix2 (-1075)).
    + apply Rmult_le_compat_r; [apply Rlt_le, bp|]. change (bpow radix2 6) with 64. lra.
    + rewrite !bp_mul. apply bp_le. lia.
  - rewrite E5. lra.
  - rewrite E5. lra.
  - assert (Em : m = dmean_mean b64num (fold_left (dmean_push b64num) l (dmean_init b64num f))).
    { unfold m, s, pushes. rewrite run_map_push. reflexivity. }
    rewrite Em. split; [exact Fr|]. rewrite Er. exact H.
Qed.

(** @ex C67_binary64_ex: factor 1/8 and values at most 10^6; the bound for values at
    most 1 in magnitude is below 2e-13. *)
Lemma c67_binary64_ex :
  let f := @ndiv b64num (b64_of_Z 1) (b64_of_Z 8) in
  let d k := @ndiv b64num (b64_of_Z k) (b64_of_Z 10) in
  let l := [d 1%Z; d (-70)%Z; d 9999999%Z] in
  b64_finite f /\ bpow radix2 (-46) <= b64_real f <= 1 /\ 1000000 <= bpow radix2 1018 /\
  Forall (fun x => b64_finite x /\ Rabs (b64_real x) <= 1000000) l /\
  209 * bpow radix2 (-53) * 1 / (/ 8) + 57 * bpow radix2 (-1075) * (1 + 1) / (/ 8 * / 8) < 2 / 10 ^ 13.
Proof.
  cbn zeta. split; [split; vm_compute; reflexivity|]. split.
  { replace (b64_real _) with (/ 8); [cbn; lra|]. unfold b64_real.
    match goal with |- _ = SF2R _ ?x => let y := eval vm_compute in x in change x with y end.
    unfold SF2R, F2R. cbn. lra. } split.
  { apply Rle_trans with (bpow radix2 20); [cbn; lra|apply bp_le; lia]. } split.
  { match goal with |- Forall _ ?x => let y := eval vm_compute in x in change x with y end. magnitudes. }
  apply Rle_lt_trans with (209 * bpow radix2 (-53) * 1 / (/ 8) + 57 * bpow radix2 (-80) * (1 + 1) / (/ 8 * / 8)).
  { apply Rplus_le_compat_l. apply Rmult_le_compat_r; [lra|]. apply Rmult_le_compat_r; [lra|].
    apply Rmult_le_compat_l; [lra|apply bp_le; lia]. }
  cbn. lra.
Qed.

(** ** C68 *)

Lemma dotA_conv cv hv : hv <> [] ->
  dotA cv hv (length hv) = convolution (map Rabs cv) (map Rabs hv) (Nat.pred (length hv)).
Proof.
  intros NE. unfold dotA, convolution. rewrite map_length. unfold sumto. f_equal. apply map_ext. intros i.
  rewrite Rabs_mult. f_equal.
  - rewrite <- Rabs_R0 at 2. rewrite map_nth. reflexivity.
  - destruct hv as [|h hv]; [congruence|]. set (k := h :: hv). change (length k) with (S (length hv)). cbn [Nat.pred].
    unfold back. cbn [Nat.leb Nat.sub]. destruct (i <=? length hv)%nat; [|apply Rabs_R0].
    rewrite <- Rabs_R0 at 2. rewrite map_nth. reflexivity.
Qed.

Lemma dotR_conv cv hv : hv <> [] -> dotR cv hv (length hv) = convolution cv hv (Nat.pred (length hv)).
Proof. intros NE. destruct hv as [|h hv]; [congruence|]. reflexivity. Qed.

(** @prop C68_rounded: a finite impulse response filter with [p] coefficients
    makes an error relative to the sum of the absolute values of the products
    and independent of the length of the history: value() is within
    [(2 p + 4) u S + 6 p eta] of the convolution, where [S] is the convolution
    of the absolute values. *)
Lemma c68_rounded : forall (emin prec : Z) (mode : R -> Z) (c : list R) (ops : list (op R)),
  (0 < prec)%Z -> (emin <= 0)%Z -> Valid_rnd mode ->
  let l := since_clear ops in
  let p := INR (length c) in
  let u := bpow radix2 (1 - prec) in
  let eta := bpow radix2 emin in
  c <> [] -> l <> [] -> (2 * p + 4) * u <= 1 ->
  let F := rounded emin prec mode in
  let S := convolution (map Rabs c) (map Rabs l) (Nat.pred (length l)) in
  exists v, fir_value F (fir_run F (map Fin c) (fops emin prec mode ops)) = Fin v /\
    Rabs (v - convolution c l (Nat.pred (length l))) <= (2 * p + 4) * u * S + 6 * p * eta.
Proof.
  intros emin prec mode c ops Hp He Hv l p u eta NC NE Hu F S.
  destruct (fir_acc (@approx_any emin prec Hp He mode (3 * S + (6 * p + 1) * eta) Hv) (map Fin c) (map Fin l) c l
    (fops emin prec mode ops) S) as (r & Er & H); try rewrite map_length; try assumption.
  - apply fval_list.
  - apply fin_nil; exact NC.
  - unfold fops. apply since_clear_op_map.
  - apply fin_nil; exact NE.
  - apply fval_list.
  - apply Req_le. apply dotA_conv. exact NE.
  - apply Rle_refl.
  - rewrite map_length in H. exists r. split; [exact Er|]. rewrite <- dotR_conv by exact NE. exact H.
Qed.

(** @ex C68_rounded_ex: two coefficients, three values since the last clear. *)
Lemma c68_rounded_ex :
  (0 < 12)%Z /\ (-20 <= 0)%Z /\ Valid_rnd Zfloor /\
  let ops := [Push 99; Clear; Push 1; Push (-10); Push 3] in
  since_clear ops = [1; -10; 3] /\ (2 * INR (length [1; 2]) + 4) * bpow radix2 (1 - 12) <= 1 /\
  convolution [1; 2] (since_clear ops) 2 = -17 /\
  convolution (map Rabs [1; 2]) (map Rabs (since_clear ops)) 2 = 23.
Proof.
  split; [lia|]. split; [lia|]. split; [typeclasses eauto|]. cbn zeta. split; [reflexivity|].
  split; [cbn; lra|]. split.
  - unfold convolution, sumto, back. cbn. ring.
  - unfold convolution, sumto, back. cbn. rewrite (Rabs_left (-10)), !Rabs_right by lra. ring.
Qed.

(** @prop C68_binary64: the same in binary64 for up to 2^50 coefficients, when
    the convolution of absolute values is at most 2^1021. *)
Lemma c68_binary64 : forall (c : list b64) (ops : list (op b64)),
  let l := since_clear ops in
  let p := INR (length c) in
  c <> [] -> l <> [] -> (Z.of_nat (length c) <= 2 ^ 50)%Z ->
  Forall b64_finite c -> Forall b64_finite l ->
  let cv := map b64_real c in
  let lv := map b64_real l in
  let S := convolution (map Rabs cv) (map Rabs lv) (Nat.pred (length lv)) in
  S <= bpow radix2 1021 ->
  let v := fir_value b64num (fir_run b64num c ops) in
  b64_finite v /\
  Rabs (b64_real v - convolution cv lv (Nat.pred (length lv))) <=
    (2 * p + 4) * bpow radix2 (-53) * S + 6 * p * bpow radix2 (-1075).
Proof.
  intros c ops l p NC NE Hn Fc Fl cv lv S HS v.
  pose proof (inr_le c 50 ltac:(lia) Hn) as Hn'. fold p in Hn'.
  assert (NE' : lv <> []) by (unfold lv; destruct l; [congruence|discriminate]).
  destruct (fir_acc approx_b64 c l cv lv ops S) as (r & (Fr & Er) & H); try assumption.
  - apply denotes_list; exact Fc.
  - reflexivity.
  - apply denotes_list; exact Fl.
  - apply Req_le. apply dotA_conv. exact NE'.
  - change (INR (length c)) with p. apply Rle_trans with (bpow radix2 2 * bpow radix2 50 * bpow radix2 (-53)); [|rewrite !bp_mul; cbn; lra].
    apply Rmult_le_compat_r; [apply Rlt_le, bp|]. change (bpow radix2 2) with 4.
    assert (4 <= bpow radix2 50) by (apply (bp_le 2 50); lia). lra.
  - change (INR (length c)) with p. change 1023%Z with (2 + 1021)%Z.
    rewrite bpow_plus. change (bpow radix2 2) with 4.
    assert (4 <= bpow radix2 50) by (apply (bp_le 2 50); lia).
    apply Rle_trans with (3 * bpow radix2 1021 + bpow radix2 3 * bpow radix2 50 * bpow radix2 (-1075)).
    + apply Rplus_le_compat; [lra|]. apply Rmult_le_compat_r; [apply Rlt_le, bp|]. change (bpow radix2 3) with 8. lra.
    + rewrite !bp_mul. assert (bpow radix2 (3 + 50 + -1075) <= bpow radix2 1021) by (apply bp_le; lia). lra.
  - unfold v. split; [exact Fr|]. rewrite Er. rewrite <- dotR_conv by exact NE'. exact H.
Qed.

(** @ex C68_binary64_ex: coefficients 1/10 and 2/10. *)
Lemma c68_binary64_ex :
  let d k := @ndiv b64num (b64_of_Z k) (b64_of_Z 10) in
  let c := [d 1%Z; d 2%Z] in
  let ops := [Push (d 3%Z); Clear; Push (d 1%Z); Push (d (-70)%Z); Push (d 9999999%Z)] in
  (Z.of_nat (length c) <= 2 ^ 50)%Z /\ Forall b64_finite c /\ Forall b64_finite (since_clear ops) /\
  let cv := map b64_real c in
  let lv := map b64_real (since_clear ops) in
  convolution (map Rabs cv) (map Rabs lv) (Nat.pred (length lv)) <= bpow radix2 1021.
Proof.
  cbn zeta. split; [cbn; lia|].
  split; [repeat (apply Forall_cons; [split; vm_compute; reflexivity|]); apply Forall_nil|].
  split; [repeat (apply Forall_cons; [split; vm_compute; reflexivity|]); apply Forall_nil|].
  apply Rle_trans with (bpow radix2 20); [|apply bp_le; lia].
  unfold convolution, sumto, back.
  match goal with |- context [map b64_real ?x] => let y := eval vm_compute in x in change x with y end.
  match goal with |- context [map b64_real (since_clear ?x)] =>
    let y := eval vm_compute in (since_clear x) in change (since_clear x) with y end.
  unfold b64_real, SF2R, F2R. cbn.
  repeat (rewrite (Rabs_right (_ * _)) by lra). rewrite (Rabs_left (_ * _)) by lra. lra.
Qed.

Lemma abs_sum_pos c : 0 <= abs_sum c.
Proof. unfold abs_sum. induction c as [|x c IH]; cbn; [lra|]. pose proof (Rabs_pos x). lra. Qed.

(** ** C69 *)

(** @prop C69_rounded: an infinite impulse response filter whose feedback
    coefficients are smaller than [|scale|] in total does not accumulate
    rounding errors: however long the history, value() is within a bound [E]
    of the exact solution of the difference equation, for values of magnitude at
    most [M]. [r] is the number of coefficients, [rho] the feedback gain, [Y]
    the largest magnitude of the exact output. *)
Lemma c69_rounded : forall (emin prec : Z) (mode : R -> Z) (b a : list R) (scale : R)
    (ops : list (op R)) (M : R) (y : list R),
  (0 < prec)%Z -> (emin <= 0)%Z -> Valid_rnd mode ->
  let l := since_clear ops in
  let u := bpow radix2 (1 - prec) in
  let eta := bpow radix2 emin in
  b <> [] -> a <> [] -> l <> [] -> Forall (fun x => Rabs x <= M) l ->
  abs_sum a < Rabs scale ->
  difference_equation b a scale l y ->
  let r := INR (length b + length a) in
  let rho := abs_sum a / Rabs scale in
  let Y := abs_sum b * M / (Rabs scale - abs_sum a) in
  let E := 2 * ((8 * r + 19) * u * Y + (24 * r + 2) * eta / Rabs scale + eta) / (1 - rho) in
  2 * (8 * r + 19) * u <= 1 - rho ->
  let F := rounded emin prec mode in
  exists v, iir_value F (iir_run F (map Fin b) (map Fin a) (Fin scale) (fops emin prec mode ops)) = Fin v /\
    Rabs (v - last y 0) <= E.
Proof.
  intros emin prec mode b a scale ops M y Hp He Hv l u eta NB NA NE HM HA HD r rho Y E Hu F.
  assert (M0 : 0 <= M) by (apply (magn_pos (fun x => x) M l); assumption).
  assert (S0 : 0 < Rabs scale).
  { pose proof (abs_sum_pos a). lra. }
  assert (R1 : 0 < 1 - rho).
  { unfold rho. apply Rmult_lt_reg_r with (Rabs scale); [exact S0|]. field_simplify; lra. }
  assert (Y0 : 0 <= Y).
  { unfold Y. apply Rmult_le_pos; [|apply Rlt_le, Rinv_0_lt_compat; lra]. apply Rmult_le_pos; [apply abs_sum_pos|exact M0]. }
  destruct (iir_acc (@approx_any emin prec Hp He mode
      (Rmax (4 * (Rabs scale * (Y + E)) + (12 * r + 2) * eta)
            ((4 * (Rabs scale * (Y + E)) + (12 * r + 2) * eta) / Rabs scale)) Hv)
      (map Fin b) (map Fin a) (Fin scale) b a scale (fops emin prec mode ops) l y M Y E)
    as (v & Ev & H); try rewrite !map_length; try assumption.
  - apply fval_list.
  - apply fval_list.
  - reflexivity.
  - apply fin_nil; exact NB.
  - apply fin_nil; exact NA.
  - unfold fops. rewrite since_clear_op_map. apply fval_list.
  - intros i Hi. rewrite Forall_forall in HM. apply HM, nth_In, Hi.
  - unfold Y. field. lra.
  - unfold E, iir_local. fold u eta r. change (abs_sum a / Rabs scale) with rho. field. split; lra.
  - apply Rmax_l.
  - apply Rmax_r.
  - exists v. split; [exact Ev|exact H].
Qed.

(** @ex C69_rounded_ex: a feedback of one half in a format of 20 bits. *)
Lemma c69_rounded_ex :
  (0 < 20)%Z /\ (-20 <= 0)%Z /\ Valid_rnd Zfloor /\
  let ops := [Push 99; Clear; Push 1; Push (-10); Push 3] in
  let y := [1; -21 / 2; 33 / 4] in
  Forall (fun x => Rabs x <= 10) (since_clear ops) /\
  abs_sum [/ 2] < Rabs 1 /\ difference_equation [1] [/ 2] 1 (since_clear ops) y /\
  2 * (8 * INR (length [1] + length [/ 2]) + 19) * bpow radix2 (1 - 20) <= 1 - abs_sum [/ 2] / Rabs 1.
Proof.
  split; [lia|]. split; [lia|]. split; [typeclasses eauto|]. cbn zeta.
  assert (A : abs_sum [/ 2] = / 2). { unfold abs_sum. cbn. rewrite Rabs_right by lra. ring. }
  rewrite A, Rabs_R1. split; [|split; [lra|split]].
  - cbn. repeat (apply Forall_cons; [apply Rabs_le; lra|]). apply Forall_nil.
  - split; [reflexivity|]. change (since_clear _) with [1; -10; 3]. intros n Hn. cbn in Hn.
    unfold sumto, back. destruct n as [|[|[|n]]]; [cbn; field..|lia].
  - cbn. lra.
Qed.

(** @prop C69_binary64: the same in binary64, with two conditions that exclude
    overflow. *)
Lemma c69_binary64 : forall (b a : list b64) (scale : b64) (ops : list (op b64)) (M : R) (y : list R),
  let l := since_clear ops in
  let bv := map b64_real b in
  let av := map b64_real a in
  let s := Rabs (b64_real scale) in
  let u := bpow radix2 (-53) in
  let eta := bpow radix2 (-1075) in
  b <> [] -> a <> [] -> l <> [] ->
  Forall b64_finite b -> Forall b64_finite a -> b64_finite scale ->
  Forall (fun x => b64_finite x /\ Rabs (b64_real x) <= M) l ->
  abs_sum av < s ->
  difference_equation bv av (b64_real scale) (map b64_real l) y ->
  let r := INR (length b + length a) in
  let rho := abs_sum av / s in
  let Y := abs_sum bv * M / (s - abs_sum av) in
  let E := 2 * ((8 * r + 19) * u * Y + (24 * r + 2) * eta / s + eta) / (1 - rho) in
  2 * (8 * r + 19) * u <= 1 - rho ->
  4 * (s * (Y + E)) + (12 * r + 2) * eta <= bpow radix2 1023 ->
  4 * (Y + E) + (12 * r + 2) * eta / s <= bpow radix2 1023 ->
  let v := iir_value b64num (iir_run b64num b a scale ops) in
  b64_finite v /\ Rabs (b64_real v - last y 0) <= E.
Proof.
  intros b a scale ops M y l bv av s u eta NB NA NE Fb Fa Fs HF HA HD r rho Y E Hu HB1 HB2 v.
  destruct (b64_magn M l HF) as [Hfin HM].
  assert (M0 : 0 <= M).
  { apply (magn_pos b64_real M l NE). eapply Forall_impl; [|exact HF]; cbn; tauto. }
  assert (S0 : 0 < s).
  { pose proof (abs_sum_pos av). lra. }
  assert (R1 : 0 < 1 - rho).
  { unfold rho. apply Rmult_lt_reg_r with s; [exact S0|]. field_simplify; lra. }
  assert (Y0 : 0 <= Y).
  { unfold Y. apply Rmult_le_pos; [|apply Rlt_le, Rinv_0_lt_compat; lra]. apply Rmult_le_pos; [apply abs_sum_pos|exact M0]. }
  destruct (iir_acc approx_b64 b a scale bv av (b64_real scale) ops (map b64_real l) y M Y E)
    as (w & (Fw & Ew) & H); try assumption.
  - apply denotes_list; exact Fb.
  - apply denotes_list; exact Fa.
  - split; [exact Fs|reflexivity].
  - apply denotes_list; exact Hfin.
  - intros i Hi. rewrite Forall_forall in HM. apply HM, nth_In, Hi.
  - unfold Y. fold s. field. lra.
  - fold s. unfold E, iir_local. fold u eta. change (abs_sum av / s) with rho.
    change (INR (length b + length a)) with r. field. split; lra.
  - fold s. apply Rle_trans with (2 := HB2). apply Req_le. change (INR (length b + length a)) with r.
    fold eta. field. lra.
  - unfold l in NE. destruct (since_clear ops); [congruence|discriminate].
  - unfold v. split; [exact Fw|]. rewrite Ew. exact H.
Qed.

(** @ex C69_binary64_ex: the exponential smoother with feedback one half. *)
Lemma c69_binary64_ex :
  let z := b64_of_Z in
  let half := @ndiv b64num (z 1%Z) (z 2%Z) in
  let ops := [Push (z 99%Z); Clear; Push (z 1%Z); Push (z (-10)%Z); Push (z 3%Z)] in
  let y := [1; -21 / 2; 33 / 4] in
  let u := bpow radix2 (-53) in
  let eta := bpow radix2 (-1075) in
  b64_finite half /\ b64_finite (z 1%Z) /\
  Forall (fun x => b64_finite x /\ Rabs (b64_real x) <= 10) (since_clear ops) /\
  abs_sum (map b64_real [half]) = / 2 /\ abs_sum (map b64_real [z 1%Z]) = 1 /\ Rabs (b64_real (z 1%Z)) = 1 /\
  difference_equation (map b64_real [z 1%Z]) (map b64_real [half]) (b64_real (z 1%Z))
    (map b64_real (since_clear ops)) y /\
  let r := INR 2 in
  let Y := 1 * 10 / (1 - / 2) in
  let E := 2 * ((8 * r + 19) * u * Y + (24 * r + 2) * eta / 1 + eta) / (1 - / 2 / 1) in
  2 * (8 * r + 19) * u <= 1 - / 2 / 1 /\
  4 * (1 * (Y + E)) + (12 * r + 2) * eta <= bpow radix2 1023 /\ E < 1 / 10 ^ 12.
Proof.
  cbn zeta.
  assert (H1 : b64_real (b64_of_Z 1) = 1).
  { unfold b64_real. match goal with |- SF2R _ ?x = _ => let y := eval vm_compute in x in change x with y end.
    unfold SF2R, F2R. cbn. lra. }
  assert (H2 : b64_real (@ndiv b64num (b64_of_Z 1) (b64_of_Z 2)) = / 2).
  { unfold b64_real. match goal with |- SF2R _ ?x = _ => let y := eval vm_compute in x in change x with y end.
    unfold SF2R, F2R. cbn. lra. }
  assert (H3 : map b64_real (since_clear [Push (b64_of_Z 99); Clear; Push (b64_of_Z 1); Push (b64_of_Z (-10)); Push (b64_of_Z 3)]) = [1; -10; 3]).
  { match goal with |- map _ ?x = _ => let y := eval vm_compute in x in change x with y end.
    unfold b64_real, SF2R, F2R. cbn. f_equal; [lra|]. f_equal; [lra|]. f_equal. lra. }
  split; [split; vm_compute; reflexivity|]. split; [split; vm_compute; reflexivity|]. split.
  { match goal with |- Forall _ ?x => let y := eval vm_compute in x in change x with y end. magnitudes. }
  rewrite H3. cbn [map]. rewrite H1, H2. unfold abs_sum. cbn [map Rsum fold_right]. rewrite !Rabs_R1, (Rabs_right (/ 2)) by lra.
  split; [cbn; ring|]. split; [cbn; ring|]. split; [reflexivity|]. split.
  - split; [reflexivity|]. intros n Hn. cbn in Hn.
    unfold sumto, back. destruct n as [|[|[|n]]]; [cbn; field..|lia].
  - assert (T : 0 < bpow radix2 (-1075) <= bpow radix2 (-80)) by (split; [apply bp|apply bp_le; lia]).
    assert (B : bpow radix2 10 <= bpow radix2 1023) by (apply bp_le; lia).
    change (bpow radix2 (-80)) with (/ IZR (Z.pow_pos 2 80)) in T. change (bpow radix2 10) with 1024 in B.
    revert T B. generalize (bpow radix2 (-1075)) (bpow radix2 1023). intros t B' T B. cbn in T |- *. lra.
Qed.

(** ** C70 *)

Lemma b64_fine (Mx My n : R) : 1 <= n -> n <= bpow radix2 47 ->
  bpow radix2 (-1000) <= Mx <= bpow radix2 480 -> bpow radix2 (-1000) <= My <= bpow radix2 480 ->
  @fine (bpow radix2 1023) (bpow radix2 (-53)) (bpow radix2 (-1075)) Mx My n /\
  80 * n * (Mx * My) + 16 * n * bpow radix2 (-1075) <= bpow radix2 1023.
Proof.
  intros N1 Hn HX HY. pose proof (bp (-1000)) as P.
  assert (T : 0 < bpow radix2 (-1075)) by apply bp.
  assert (NT : n * bpow radix2 (-1075) <= bpow radix2 (47 + -1075)).
  { rewrite <- bp_mul. apply Rmult_le_compat_r; [lra|exact Hn]. }
  assert (MM : Mx * My <= bpow radix2 960).
  { change 960%Z with (480 + 480)%Z. rewrite <- bp_mul. apply Rmult_le_compat; lra. }
  assert (NM : n * (Mx * My) <= bpow radix2 1007).
  { change 1007%Z with (47 + 960)%Z. rewrite <- bp_mul. apply Rmult_le_compat; try lra.
    apply Rmult_le_pos; lra. }
  assert (A : 32 * bpow radix2 (47 + -1075) <= bpow radix2 (-1000)).
  { change 32 with (bpow radix2 5). rewrite bp_mul. apply bp_le. lia. }
  assert (B : 1024 * bpow radix2 1007 <= bpow radix2 1023).
  { change 1024 with (bpow radix2 10). rewrite bp_mul. apply bp_le. lia. }
  assert (C : bpow radix2 480 <= bpow radix2 1007) by (apply bp_le; lia).
  assert (D : bpow radix2 (-1000) <= bpow radix2 1007) by (apply bp_le; lia).
  assert (G : 64 * n * bpow radix2 (-53) <= 1).
  { apply Rle_trans with (bpow radix2 6 * bpow radix2 47 * bpow radix2 (-53)).
    - apply Rmult_le_compat_r; [apply Rlt_le, bp|]. change (bpow radix2 6) with 64. lra.
    - rewrite !bp_mul. cbn. lra. }
  unfold fine. repeat split; try lra.
Qed.

(** @prop C70_rounded: Welford's algorithm in every format and rounding mode:
    after [n] pushes of numbers of magnitude at most [M] since the last clear,
    variance() is within [5 ((14 n + 308) u M^2 + (3 n + 13) 10 M eta + 3 eta)] of the
    variance; [M] may be any bound that is not in the underflow range. *)
Lemma c70_rounded : forall (emin prec : Z) (mode : R -> Z) (ops : list (op R)) (M : R),
  (0 < prec)%Z -> (emin <= 0)%Z -> Valid_rnd mode ->
  let l := since_clear ops in
  let n := INR (length l) in
  let u := bpow radix2 (1 - prec) in
  let eta := bpow radix2 emin in
  l <> [] -> fits l -> (Z.of_nat (length l) <= 2 ^ prec)%Z -> 64 * n * u <= 1 -> 32 * n * eta <= M ->
  Forall (fun x => Rabs x <= M) l ->
  let F := rounded emin prec mode in
  let s := run (cvar_push F) (cvar_clear F) (cvar_init F) (fops emin prec mode ops) in
  exists v, cvar_variance F s = Fin v /\
    Rabs (v - variance l) <= 5 * ((14 * n + 308) * u * (M * M) + (3 * n + 13) * (10 * M) * eta + 3 * eta).
Proof.
  intros emin prec mode ops M Hp He Hv l n u eta NE Hf HK Hu Ht HM F s.
  assert (N1 : 1 <= n) by (apply inr_ge1; exact NE).
  assert (T : 0 < eta) by apply bp.
  assert (M0 : 0 <= M). { apply (magn_pos (fun x => x) M l); assumption. }
  assert (NM : 0 <= n * (M * M)) by (apply Rmult_le_pos; [lra|apply Rmult_le_pos; exact M0]).
  assert (NT : 0 <= n * eta) by (apply Rmult_le_pos; lra).
  destruct (cvar_accuracy (@approx_any emin prec Hp He mode (16 * M + 60 * n * eta + 64 * n * (M * M) + 16 * n * eta) Hv)
    M (map Fin l) l) as (r & Er & H); try rewrite map_length; try assumption.
  - change (INR (length l)) with n. fold u eta. unfold fine. repeat split; lra.
  - apply fval_list.
  - apply fin_nil; exact NE.
  - lia.
  - rewrite map_length in H. change (INR (length l)) with n in H. exists r. split.
    + unfold s, fops. rewrite (run_since_clear _ _ _ (cvar_clear_init F)), since_clear_op_map. exact Er.
    + rewrite verr_closed in H. fold u eta in H. lra.
Qed.

(** @ex C70_rounded_ex: five values in a format of twenty bits. *)
Lemma c70_rounded_ex :
  (0 < 20)%Z /\ (-20 <= 0)%Z /\ Valid_rnd Ztrunc /\
  let ops := [Push 99; Clear; Push 1; Push (-10); Push 3; Push 7; Push 2] in
  since_clear ops = [1; -10; 3; 7; 2] /\ fits (since_clear ops) /\
  (Z.of_nat (length (since_clear ops)) <= 2 ^ 20)%Z /\
  64 * INR (length (since_clear ops)) * bpow radix2 (1 - 20) <= 1 /\
  32 * INR (length (since_clear ops)) * bpow radix2 (-20) <= 10 /\
  Forall (fun x => Rabs x <= 10) (since_clear ops).
Proof.
  split; [lia|]. split; [lia|]. split; [typeclasses eauto|]. cbn zeta.
  split; [reflexivity|]. split; [reflexivity|]. split; [cbn; lia|]. split; [cbn; lra|]. split; [cbn; lra|].
  cbn. repeat (apply Forall_cons; [apply Rabs_le; lra|]). apply Forall_nil.
Qed.

(** @prop C70_binary64: the same in binary64 for up to 2^47 values, with a bound
    [M] between 2^-1000 and 2^480. *)
Lemma c70_binary64 : forall (ops : list (op b64)) (M : R),
  let l := since_clear ops in
  let n := INR (length l) in
  let u := bpow radix2 (-53) in
  let eta := bpow radix2 (-1075) in
  l <> [] -> (Z.of_nat (length l) <= 2 ^ 47)%Z -> bpow radix2 (-1000) <= M <= bpow radix2 480 ->
  Forall (fun x => b64_finite x /\ Rabs (b64_real x) <= M) l ->
  let s := run (cvar_push b64num) (cvar_clear b64num) (cvar_init b64num) ops in
  let v := cvar_variance b64num s in
  b64_finite v /\
  Rabs (b64_real v - variance (map b64_real l)) <=
    5 * ((14 * n + 308) * u * (M * M) + (3 * n + 13) * (10 * M) * eta + 3 * eta).
Proof.
  intros ops M l n u eta NE Hn HM HF s v.
  destruct (b64_magn M l HF) as [Hfin Hmag].
  pose proof (inr_le l 47 ltac:(lia) Hn) as Hn'. fold n in Hn'.
  assert (N1 : 1 <= n) by (apply inr_ge1; exact NE).
  destruct (cvar_accuracy approx_b64 M l (map b64_real l)) as (r & (Fr & Er) & H); try assumption.
  - exact (proj1 (b64_fine M M n N1 Hn' HM HM)).
  - apply denotes_list; exact Hfin.
  - apply (b64_count l 47); [lia|exact Hn].
  - apply (b64_small l 47); [lia|exact Hn].
  - assert (Em : v = cvar_variance b64num (fold_left (cvar_push b64num) l (cvar_init b64num))).
    { unfold v, s. rewrite (run_since_clear _ _ _ (cvar_clear_init b64num)). reflexivity. }
    rewrite Em. split; [exact Fr|]. rewrite Er. change (INR (length l)) with n in H.
    rewrite verr_closed in H. fold u eta in H. lra.
Qed.

(** @ex C70_binary64_ex: three values at most 10^6 in magnitude; for a thousand
    values at most 1 in magnitude the bound is below 1e-11. *)
Lemma c70_binary64_ex :
  let d k := @ndiv b64num (b64_of_Z k) (b64_of_Z 10) in
  let ops := [Push (d 3%Z); Clear; Push (d 1%Z); Push (d (-70)%Z); Push (d 9999999%Z)] in
  let u := bpow radix2 (-53) in
  let eta := bpow radix2 (-1075) in
  (Z.of_nat (length (since_clear ops)) <= 2 ^ 47)%Z /\
  bpow radix2 (-1000) <= 1000000 <= bpow radix2 480 /\
  Forall (fun x => b64_finite x /\ Rabs (b64_real x) <= 1000000) (since_clear ops) /\
  5 * ((14 * 1000 + 308) * u * (1 * 1) + (3 * 1000 + 13) * (10 * 1) * eta + 3 * eta) < 1 / 10 ^ 11.
Proof.
  cbn zeta. split; [cbn; lia|]. split.
  { split; [apply Rle_trans with (bpow radix2 0); [apply bp_le; lia|cbn; lra]|].
    apply Rle_trans with (bpow radix2 20); [cbn; lra|apply bp_le; lia]. } split.
  { vm_compute since_clear. magnitudes. }
  assert (T : 0 < bpow radix2 (-1075) <= bpow radix2 (-80)) by (split; [apply bp|apply bp_le; lia]).
  revert T. generalize (bpow radix2 (-1075)). intros t T. cbn in T |- *. lra.
Qed.

(** @prop C70_covariance_rounded: cumulative covariance, with separate bounds for
    the two coordinates. *)
Lemma c70_covariance_rounded : forall (emin prec : Z) (mode : R -> Z) (ops : list (op (R * R))) (Mx My : R),
  (0 < prec)%Z -> (emin <= 0)%Z -> Valid_rnd mode ->
  let l := since_clear ops in
  let n := INR (length l) in
  let u := bpow radix2 (1 - prec) in
  let eta := bpow radix2 emin in
  l <> [] -> fits l -> (Z.of_nat (length l) <= 2 ^ prec)%Z -> 64 * n * u <= 1 ->
  32 * n * eta <= Mx -> 32 * n * eta <= My ->
  Forall (fun p => Rabs (fst p) <= Mx /\ Rabs (snd p) <= My) l ->
  let F := rounded emin prec mode in
  let s := run (ccov_push F) (ccov_clear F) (ccov_init F)
    (map (op_map (fun p => (Fin (fst p), Fin (snd p)) : F * F)) ops) in
  exists v, ccov_variance F s = Fin v /\
    Rabs (v - covariance l) <=
      5 * ((14 * n + 308) * u * (Mx * My) + (3 * n + 13) * (4 * Mx + 6 * My) * eta + 3 * eta).
Proof.
  intros emin prec mode ops Mx My Hp He Hv l n u eta NE Hf HK Hu Htx Hty HM F s.
  assert (N1 : 1 <= n) by (apply inr_ge1; exact NE).
  assert (T : 0 < eta) by apply bp.
  assert (NT : 0 <= n * eta) by (apply Rmult_le_pos; lra).
  assert (NM : 0 <= n * (Mx * My)) by (apply Rmult_le_pos; [lra|apply Rmult_le_pos; lra]).
  set (f := fun p : R * R => (Fin (fst p), Fin (snd p)) : F * F).
  destruct (ccov_accuracy (@approx_any emin prec Hp He mode
      (16 * Mx + 16 * My + 60 * n * eta + 64 * n * (Mx * My) + 16 * n * eta) Hv)
    Mx My (map f l) l) as (r & Er & H); try rewrite map_length; try assumption.
  - change (INR (length l)) with n. fold u eta. unfold fine. repeat split; lra.
  - clear. induction l; cbn; constructor; [split; reflexivity|assumption].
  - destruct l; [congruence|discriminate].
  - lia.
  - rewrite map_length in H. change (INR (length l)) with n in H. exists r. split.
    + unfold s. fold f. rewrite (run_since_clear _ _ _ (ccov_clear_init F)), since_clear_op_map. exact Er.
    + rewrite verr_closed in H. fold u eta in H. lra.
Qed.

(** @ex C70_covariance_rounded_ex: three pairs on different scales. *)
Lemma c70_covariance_rounded_ex :
  (0 < 20)%Z /\ (-20 <= 0)%Z /\ Valid_rnd Ztrunc /\
  let ops := [Push (99, 99); Clear; Push (1, 500); Push (-10, 3); Push (3, -1)] in
  let l := since_clear ops in
  l = [(1, 500); (-10, 3); (3, -1)] /\ fits l /\ (Z.of_nat (length l) <= 2 ^ 20)%Z /\
  64 * INR (length l) * bpow radix2 (1 - 20) <= 1 /\ 32 * INR (length l) * bpow radix2 (-20) <= 10 /\
  Forall (fun p => Rabs (fst p) <= 10 /\ Rabs (snd p) <= 500) l.
Proof.
  split; [lia|]. split; [lia|]. split; [typeclasses eauto|]. cbn zeta.
  split; [reflexivity|]. split; [reflexivity|]. split; [cbn; lia|]. split; [cbn; lra|]. split; [cbn; lra|].
  cbn. repeat (apply Forall_cons; [split; apply Rabs_le; cbn; lra|]). apply Forall_nil.
Qed.

(** @prop C70_covariance_binary64: cumulative covariance in binary64. *)
Lemma c70_covariance_binary64 : forall (ops : list (op (b64 * b64))) (Mx My : R),
  let l := since_clear ops in
  let n := INR (length l) in
  let u := bpow radix2 (-53) in
  let eta := bpow radix2 (-1075) in
  l <> [] -> (Z.of_nat (length l) <= 2 ^ 47)%Z ->
  bpow radix2 (-1000) <= Mx <= bpow radix2 480 -> bpow radix2 (-1000) <= My <= bpow radix2 480 ->
  Forall (fun p => (b64_finite (fst p) /\ Rabs (b64_real (fst p)) <= Mx) /\
                   (b64_finite (snd p) /\ Rabs (b64_real (snd p)) <= My)) l ->
  let s := run (ccov_push b64num) (ccov_clear b64num) (ccov_init b64num) ops in
  let v := ccov_variance b64num s in
  b64_finite v /\
  Rabs (b64_real v - covariance (map (fun p => (b64_real (fst p), b64_real (snd p))) l)) <=
    5 * ((14 * n + 308) * u * (Mx * My) + (3 * n + 13) * (4 * Mx + 6 * My) * eta + 3 * eta).
Proof.
  intros ops Mx My l n u eta NE Hn HX HY HF s v.
  pose proof (inr_le l 47 ltac:(lia) Hn) as Hn'. fold n in Hn'.
  assert (N1 : 1 <= n) by (apply inr_ge1; exact NE).
  set (f := fun p : b64 * b64 => (b64_real (fst p), b64_real (snd p))).
  destruct (ccov_accuracy approx_b64 Mx My l (map f l)) as (r & (Fr & Er) & H); try assumption.
  - exact (proj1 (b64_fine Mx My n N1 Hn' HX HY)).
  - clear - HF. induction HF as [|p l' ((A1 & A2) & B1 & B2) _ IH]; cbn; constructor; [|assumption].
    split; split; cbn; auto.
  - clear - HF. induction HF as [|p l' ((A1 & A2) & B1 & B2) _ IH]; cbn; constructor; [cbn; auto|assumption].
  - apply (b64_count l 47); [lia|exact Hn].
  - apply (b64_small l 47); [lia|exact Hn].
  - assert (Em : v = ccov_variance b64num (fold_left (ccov_push b64num) l (ccov_init b64num))).
    { unfold v, s. rewrite (run_since_clear _ _ _ (ccov_clear_init b64num)). reflexivity. }
    rewrite Em. split; [exact Fr|]. rewrite Er. change (INR (length l)) with n in H.
    rewrite verr_closed in H. fold u eta in H. lra.
Qed.

(** @ex C70_covariance_binary64_ex: two pairs of doubles. *)
Lemma c70_covariance_binary64_ex :
  let d k := @ndiv b64num (b64_of_Z k) (b64_of_Z 10) in
  let ops := [Push (d 3%Z, d 3%Z); Clear; Push (d 1%Z, d (-70)%Z); Push (d 9999999%Z, d 2%Z)] in
  (Z.of_nat (length (since_clear ops)) <= 2 ^ 47)%Z /\
  bpow radix2 (-1000) <= 1000000 <= bpow radix2 480 /\ bpow radix2 (-1000) <= 8 <= bpow radix2 480 /\
  Forall (fun p => (b64_finite (fst p) /\ Rabs (b64_real (fst p)) <= 1000000) /\
                   (b64_finite (snd p) /\ Rabs (b64_real (snd p)) <= 8)) (since_clear ops).
Proof.
  cbn zeta. split; [cbn; lia|].
  assert (L : bpow radix2 (-1000) <= 1) by (apply (bp_le (-1000) 0); lia).
  assert (U : 1048576 <= bpow radix2 480) by (apply (bp_le 20 480); lia).
  split; [lra|]. split; [lra|].
  vm_compute since_clear. repeat (apply Forall_cons; [split; magnitude|]). apply Forall_nil.
Qed.

(** ** C71 *)

(** @prop C71_rounded: the window variance is a running sum, so its rounding
    errors add up: after [n] pushes since the last clear variance() is within
    [9 (n / k) ((264 n + 62) u M^2 + (140 n + 20) M eta + 3 eta)] of the variance of
    the [k] values in the window. *)
Lemma c71_rounded : forall (emin prec : Z) (mode : R -> Z) (W : nat) (ops : list (op R)) (M : R),
  (0 < prec)%Z -> (emin <= 0)%Z -> Valid_rnd mode ->
  let l := since_clear ops in
  let n := INR (length l) in
  let k := INR (length (lastn W l)) in
  let u := bpow radix2 (1 - prec) in
  let eta := bpow radix2 emin in
  (0 < W)%nat -> (Z.of_nat W <= 2 ^ prec)%Z -> (N.of_nat W < szmod)%N ->
  l <> [] -> 64 * n * u <= 1 -> 32 * n * eta <= M -> Forall (fun x => Rabs x <= M) l ->
  let F := rounded emin prec mode in
  let s := run (wvar_push F W) (wvar_clear F) (wvar_init F) (fops emin prec mode ops) in
  exists v, wvar_variance F s = Fin v /\
    Rabs (v - variance (lastn W l)) <=
      9 * (n / k) * ((264 * n + 62) * u * (M * M) + (140 * n + 20) * M * eta + 3 * eta).
Proof.
  intros emin prec mode W ops M Hp He Hv l n k u eta HW HK Hs NE Hu Ht HM F s.
  assert (N1 : 1 <= n) by (apply inr_ge1; exact NE).
  assert (T : 0 < eta) by apply bp.
  assert (M0 : 0 <= M). { apply (magn_pos (fun x => x) M l); assumption. }
  assert (NM : 0 <= n * (M * M)) by (apply Rmult_le_pos; [lra|apply Rmult_le_pos; exact M0]).
  assert (NT : 0 <= n * eta) by (apply Rmult_le_pos; lra).
  destruct (wvar_accuracy (@approx_any emin prec Hp He mode (16 * M + 60 * n * eta + 80 * n * (M * M) + 16 * n * eta) Hv)
    M n W HW ltac:(fold u eta; unfold wfine; repeat split; lra) (map Fin l) l) as (r & Er & H);
    try rewrite map_length; try assumption.
  - apply fval_list.
  - apply fin_nil; exact NE.
  - reflexivity.
  - lia.
  - exists r. split.
    + unfold s, fops. rewrite (run_since_clear _ _ _ (wvar_clear_init F)), since_clear_op_map. exact Er.
    + rewrite wverr_closed in H. fold u eta in H. change (card (lastn W l)) with k in H.
      rewrite <- Rmult_assoc in H. exact H.
Qed.

(** @ex C71_rounded_ex: a window of two in a format of twenty bits. *)
Lemma c71_rounded_ex :
  (0 < 20)%Z /\ (-20 <= 0)%Z /\ Valid_rnd Zceil /\
  (0 < 2)%nat /\ (Z.of_nat 2 <= 2 ^ 20)%Z /\ (N.of_nat 2 < szmod)%N /\
  let ops := [Push 99; Clear; Push 1; Push (-10); Push 3; Push 7; Push 2] in
  since_clear ops = [1; -10; 3; 7; 2] /\ lastn 2 (since_clear ops) = [7; 2] /\
  64 * INR (length (since_clear ops)) * bpow radix2 (1 - 20) <= 1 /\
  32 * INR (length (since_clear ops)) * bpow radix2 (-20) <= 10 /\
  Forall (fun x => Rabs x <= 10) (since_clear ops).
Proof.
  split; [lia|]. split; [lia|]. split; [typeclasses eauto|]. split; [lia|]. split; [cbn; lia|].
  split; [reflexivity|]. cbn zeta. split; [reflexivity|]. split; [reflexivity|]. split; [cbn; lra|].
  split; [cbn; lra|].
  cbn. repeat (apply Forall_cons; [apply Rabs_le; lra|]). apply Forall_nil.
Qed.

(** @prop C71_binary64: the same in binary64 for up to 2^47 values, windows up to
    2^53 and a bound [M] between 2^-1000 and 2^480. *)
Lemma c71_binary64 : forall (W : nat) (ops : list (op b64)) (M : R),
  let l := since_clear ops in
  let n := INR (length l) in
  let k := INR (length (lastn W l)) in
  let u := bpow radix2 (-53) in
  let eta := bpow radix2 (-1075) in
  (0 < W)%nat -> (Z.of_nat W <= 2 ^ 53)%Z ->
  l <> [] -> (Z.of_nat (length l) <= 2 ^ 47)%Z -> bpow radix2 (-1000) <= M <= bpow radix2 480 ->
  Forall (fun x => b64_finite x /\ Rabs (b64_real x) <= M) l ->
  let s := run (wvar_push b64num W) (wvar_clear b64num) (wvar_init b64num) ops in
  let v := wvar_variance b64num s in
  b64_finite v /\
  Rabs (b64_real v - variance (lastn W (map b64_real l))) <=
    9 * (n / k) * ((264 * n + 62) * u * (M * M) + (140 * n + 20) * M * eta + 3 * eta).
Proof.
  intros W ops M l n k u eta HW HK NE Hn HM HF s v.
  destruct (b64_magn M l HF) as [Hfin Hmag].
  pose proof (inr_le l 47 ltac:(lia) Hn) as Hn'. fold n in Hn'.
  assert (N1 : 1 <= n) by (apply inr_ge1; exact NE).
  destruct (b64_fine M M n N1 Hn' HM HM) as [(G1 & _ & G2 & G3 & G4 & _ & G5 & _) G6].
  destruct (wvar_accuracy approx_b64 M n W HW ltac:(repeat split; assumption) l (map b64_real l))
    as (r & (Fr & Er) & H); try assumption.
  - apply denotes_list; exact Hfin.
  - reflexivity.
  - change (Z.to_N (2 ^ 53)) with (2 ^ 53)%N. lia.
  - unfold szmod. lia.
  - assert (Em : v = wvar_variance b64num (fold_left (wvar_push b64num W) l (wvar_init b64num))).
    { unfold v, s. rewrite (run_since_clear _ _ _ (wvar_clear_init b64num)). reflexivity. }
    rewrite Em. split; [exact Fr|]. rewrite Er.
    rewrite wverr_closed in H. fold u eta in H.
    assert (Ek : card (lastn W (map b64_real l)) = k).
    { unfold card, k. f_equal. unfold lastn. rewrite !skipn_length, map_length. reflexivity. }
    rewrite Ek in H. rewrite <- Rmult_assoc in H. exact H.
Qed.

(** @ex C71_binary64_ex: a window of two doubles. *)
Lemma c71_binary64_ex :
  let d k := @ndiv b64num (b64_of_Z k) (b64_of_Z 10) in
  let ops := [Push (d 3%Z); Clear; Push (d 1%Z); Push (d (-70)%Z); Push (d 9999999%Z)] in
  (0 < 2)%nat /\ (Z.of_nat 2 <= 2 ^ 53)%Z /\ (Z.of_nat (length (since_clear ops)) <= 2 ^ 47)%Z /\
  bpow radix2 (-1000) <= 1000000 <= bpow radix2 480 /\
  Forall (fun x => b64_finite x /\ Rabs (b64_real x) <= 1000000) (since_clear ops).
Proof.
  cbn zeta. split; [lia|]. split; [lia|]. split; [cbn; lia|].
  assert (L : bpow radix2 (-1000) <= 1) by (apply (bp_le (-1000) 0); lia).
  assert (U : 1048576 <= bpow radix2 480) by (apply (bp_le 20 480); lia).
  split; [lra|]. vm_compute since_clear. magnitudes.
Qed.

(** ** C72 *)

(** @prop C72_rounded: exponential variance forgets its rounding errors: however
    many values are pushed, variance() stays within a fixed distance of the
    exponentially weighted mean of the squared deviations. [D m f] is the
    distance for an exponential mean of values of magnitude [m] with factor
    [f] (C67) and [g] the error of one deviation. *)
Lemma c72_rounded : forall (emin prec : Z) (mode : R -> Z) (fm fv : R) (l : list R) (M : R),
  (0 < prec)%Z -> (emin <= 0)%Z -> Valid_rnd mode ->
  let u := bpow radix2 (1 - prec) in
  let eta := bpow radix2 emin in
  0 < fm <= 1 -> 0 < fv <= 1 -> 104 * u <= fm -> 104 * u <= fv ->
  56 * eta <= fm * fm -> 56 * eta <= fv * fv ->
  let D := fun m f => 209 * u * m / f + 57 * eta * (1 + m) / (f * f) in
  let g := D M fm + u * (2 * M + D M fm) + eta in
  g <= M ->
  l <> [] -> Forall (fun x => Rabs x <= M) l ->
  let F := rounded emin prec mode in
  let s := run (dvar_push F) (dvar_clear F) (dvar_init F (Fin fm) (Fin fv)) (pushes (map Fin l)) in
  exists v, dvar_variance F s = Fin v /\
    Rabs (v - emoment 2 fm fv l) <=
      D (10 * (M * M) + eta) fv + (5 * M * g + 9 * u * (M * M) + eta).
Proof.
  intros emin prec mode fm fv l M Hp He Hv u eta Hfm Hfv Hum Huv Htm Htv D g Hg NE HM F s.
  assert (M0 : 0 <= M) by (apply (magn_pos (fun x => x) M l); assumption).
  assert (T : 0 < eta) by apply bp.
  assert (MM : 0 <= M * M) by (apply Rmult_le_pos; exact M0).
  destruct (dvar_accuracy (@approx_any emin prec Hp He mode (16 * (M + 1) + 16 * (10 * (M * M) + eta + 1) + 32) Hv)
    (Fin fm) (Fin fv) fm fv M (map Fin l) l) as (r & Er & H); try assumption; try (unfold dsq; fold eta; lra).
  - reflexivity.
  - reflexivity.
  - apply fval_list.
  - apply fin_nil; exact NE.
  - exists r. split.
    + unfold s. unfold pushes. rewrite run_map_push. exact Er.
    + unfold perr, gdec, ddev, dsq in H. fold u eta in H. unfold g, D. lra.
Qed.

(** @ex C72_rounded_ex: factors 1/4 and 1/8 in a format of 20 bits. *)
Lemma c72_rounded_ex :
  (0 < 20)%Z /\ (-40 <= 0)%Z /\ Valid_rnd Zfloor /\
  let u := bpow radix2 (1 - 20) in
  let eta := bpow radix2 (-40) in
  0 < / 4 <= 1 /\ 0 < / 8 <= 1 /\ 104 * u <= / 4 /\ 104 * u <= / 8 /\
  56 * eta <= / 4 * / 4 /\ 56 * eta <= / 8 * / 8 /\
  let D := fun m f => 209 * u * m / f + 57 * eta * (1 + m) / (f * f) in
  D 10 (/ 4) + u * (2 * 10 + D 10 (/ 4)) + eta <= 10 /\
  Forall (fun x => Rabs x <= 10) [1; -10; 3].
Proof.
  split; [lia|]. split; [lia|]. split; [typeclasses eauto|]. cbn zeta. cbn.
  split; [lra|]. split; [lra|]. split; [lra|]. split; [lra|]. split; [lra|]. split; [lra|]. split; [lra|].
  repeat (apply Forall_cons; [apply Rabs_le; lra|]). apply Forall_nil.
Qed.

(** @prop C72_binary64: the same in binary64 for factors from 2^-40 to 1 and a
    bound [M] between 2^-900 and 2^480. *)
Lemma c72_binary64 : forall (fm fv : b64) (l : list b64) (M : R),
  let u := bpow radix2 (-53) in
  let eta := bpow radix2 (-1075) in
  b64_finite fm -> b64_finite fv ->
  bpow radix2 (-40) <= b64_real fm <= 1 -> bpow radix2 (-40) <= b64_real fv <= 1 ->
  let D := fun m f => 209 * u * m / f + 57 * eta * (1 + m) / (f * f) in
  let g := D M (b64_real fm) + u * (2 * M + D M (b64_real fm)) + eta in
  l <> [] -> bpow radix2 (-900) <= M <= bpow radix2 480 ->
  Forall (fun x => b64_finite x /\ Rabs (b64_real x) <= M) l ->
  let s := run (dvar_push b64num) (dvar_clear b64num) (dvar_init b64num fm fv) (pushes l) in
  let v := dvar_variance b64num s in
  b64_finite v /\
  Rabs (b64_real v - emoment 2 (b64_real fm) (b64_real fv) (map b64_real l)) <=
    D (10 * (M * M) + eta) (b64_real fv) + (5 * M * g + 9 * u * (M * M) + eta).
Proof.
  intros fm fv l M u eta Ffm Ffv Hfm Hfv D g NE HM HF s v.
  destruct (b64_magn M l HF) as [Hfin Hmag].
  pose proof (bp (-40)) as P40. pose proof (bp (-900)) as P900.
  assert (T : 0 < eta) by apply bp. assert (U : 0 < u) by apply bp.
  assert (M0 : 0 <= M) by lra.
  assert (U40 : 8192 * u <= bpow radix2 (-40)).
  { change 8192 with (bpow radix2 13). unfold u. rewrite bp_mul. apply bp_le. lia. }
  assert (T40 : 1024 * eta <= bpow radix2 (-40) * bpow radix2 (-40)).
  { change 1024 with (bpow radix2 10). unfold eta. rewrite !bp_mul. apply bp_le. lia. }
  assert (Sq : forall f, bpow radix2 (-40) <= f -> bpow radix2 (-40) * bpow radix2 (-40) <= f * f).
  { intros f Hf. apply Rmult_le_compat; lra. }
  assert (HB : 1048576 * bpow radix2 960 <= bpow radix2 1023).
  { change 1048576 with (bpow radix2 20). rewrite bp_mul. apply bp_le. lia. }
  assert (B480 : bpow radix2 480 <= bpow radix2 960) by (apply bp_le; lia).
  assert (B0 : 1 <= bpow radix2 960) by (apply (bp_le 0 960); lia).
  assert (MM : 0 <= M * M <= bpow radix2 960).
  { split; [apply Rmult_le_pos; exact M0|]. change 960%Z with (480 + 480)%Z. rewrite <- bp_mul.
    apply Rmult_le_compat; lra. }
  assert (TM : 1024 * eta <= bpow radix2 (-900) * (bpow radix2 (-40) * bpow radix2 (-40))).
  { change 1024 with (bpow radix2 10). unfold eta. rewrite !bp_mul. apply bp_le. lia. }
  assert (E1 : eta <= bpow radix2 (-900)) by (apply bp_le; lia).
  assert (E2 : eta <= 1) by (apply (bp_le (-1075) 0); lia).
  assert (DM : D M (b64_real fm) <= M / 4).
  { unfold D. set (f := b64_real fm) in *.
    assert (f0 : 0 < f) by lra. pose proof (Sq f (proj1 Hfm)) as SF.
    assert (A : 209 * u * M / f <= M / 8).
    { apply Rmult_le_reg_r with f; [exact f0|]. replace (209 * u * M / f * f) with (209 * u * M) by (field; lra).
      apply Rle_trans with (f / 8 * M); [|lra]. apply Rmult_le_compat_r; lra. }
    assert (B : 57 * eta * (1 + M) / (f * f) <= M / 8).
    { assert (ff0 : 0 < f * f) by (apply Rmult_lt_0_compat; exact f0).
      apply Rmult_le_reg_r with (f * f); [exact ff0|].
      replace (57 * eta * (1 + M) / (f * f) * (f * f)) with (57 * eta + 57 * eta * M) by (field; lra).
      assert (B1 : 57 * eta <= M / 16 * (f * f)).
      { apply Rle_trans with (/ 16 * (bpow radix2 (-900) * (bpow radix2 (-40) * bpow radix2 (-40)))); [lra|].
        unfold Rdiv. rewrite (Rmult_comm M (/ 16)), Rmult_assoc. apply Rmult_le_compat_l; [lra|].
        apply Rmult_le_compat; try lra. }
      assert (B2 : 57 * eta * M <= (f * f) / 16 * M) by (apply Rmult_le_compat_r; lra).
      lra. }
    lra. }
  assert (D0 : 0 <= D M (b64_real fm)).
  { unfold D. set (f := b64_real fm) in *. assert (f0 : 0 < f) by lra.
    assert (i0 : 0 < / f) by (apply Rinv_0_lt_compat; exact f0).
    assert (i1 : 0 < / (f * f)) by (apply Rinv_0_lt_compat, Rmult_lt_0_compat; exact f0).
    apply Rplus_le_le_0_compat; (apply Rmult_le_pos; [|lra]); repeat apply Rmult_le_pos; lra. }
  assert (Hg : g <= M).
  { unfold g.
    assert (u8 : u <= / 8192). { assert (bpow radix2 (-40) <= 1) by (apply (bp_le (-40) 0); lia). lra. }
    assert (K : u * (2 * M + D M (b64_real fm)) <= / 8192 * (2 * M + D M (b64_real fm))) by (apply Rmult_le_compat_r; lra).
    assert (E3 : 1024 * eta <= bpow radix2 (-900)).
    { change 1024 with (bpow radix2 10). unfold eta. rewrite bp_mul. apply bp_le. lia. }
    lra. }
  destruct (dvar_accuracy approx_b64 fm fv (b64_real fm) (b64_real fv) M l (map b64_real l))
    as (r & (Fr & Er) & H); try assumption.
  - split; [exact Ffm|reflexivity].
  - split; [exact Ffv|reflexivity].
  - lra.
  - lra.
  - apply denotes_list; exact Hfin.
  - fold u. lra.
  - fold u. lra.
  - fold eta. pose proof (Sq _ (proj1 Hfm)). lra.
  - fold eta. pose proof (Sq _ (proj1 Hfv)). lra.
  - lra.
  - unfold dsq. fold eta. lra.
  - lra.
  - assert (Em : v = dvar_variance b64num (fold_left (dvar_push b64num) l (dvar_init b64num fm fv))).
    { unfold v, s, pushes. rewrite run_map_push. reflexivity. }
    rewrite Em. split; [exact Fr|]. rewrite Er.
    unfold perr, gdec, ddev, dsq in H. fold u eta in H. unfold g, D. lra.
Qed.

(** @ex C72_binary64_ex: factors 1/8 and 1/10. *)
Lemma c72_binary64_ex :
  let d k := @ndiv b64num (b64_of_Z k) (b64_of_Z 10) in
  let fm := @ndiv b64num (b64_of_Z 1) (b64_of_Z 8) in
  let fv := d 1%Z in
  let l := [d 1%Z; d (-70)%Z; d 9999999%Z] in
  b64_finite fm /\ b64_finite fv /\
  bpow radix2 (-40) <= b64_real fm <= 1 /\ bpow radix2 (-40) <= b64_real fv <= 1 /\
  bpow radix2 (-900) <= 1000000 <= bpow radix2 480 /\
  Forall (fun x => b64_finite x /\ Rabs (b64_real x) <= 1000000) l.
Proof.
  cbn zeta. split; [split; vm_compute; reflexivity|]. split; [split; vm_compute; reflexivity|].
  assert (L : bpow radix2 (-900) <= 1) by (apply (bp_le (-900) 0); lia).
  assert (U : 1048576 <= bpow radix2 480) by (apply (bp_le 20 480); lia).
  split; [|split; [|split; [lra|]]].
  - match goal with |- _ <= b64_real ?x <= _ => let y := eval vm_compute in x in change x with y end.
    unfold b64_real, SF2R, F2R. cbn. lra.
  - match goal with |- _ <= b64_real ?x <= _ => let y := eval vm_compute in x in change x with y end.
    unfold b64_real, SF2R, F2R. cbn. lra.
  - match goal with |- Forall _ ?x => let y := eval vm_compute in x in change x with y end. magnitudes.
Qed.
