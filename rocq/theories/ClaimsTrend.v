(** * Claim C99: accuracy of the trend *)

From Coq Require Import Reals ZArith NArith List Bool.
From Coq Require Import Floats.SpecFloat.
From Flocq Require Import Core.
From Verif Require Import Arith History SpecStats Cumulative Rounded Binary64 ExactRuns.
Import ListNotations.
Local Open Scope R_scope.
(* @end-header *)
From Coq Require Import Lia Lra Psatz.
From Flocq Require Import BinarySingleNaN.
From Verif Require Import HistoryLemmas StatsLemmas CumulativeProofs RoundedProofs Binary64Cumulative
  Approx ApproxInstances AccuracyProofs AccuracyTrend ClaimsAccuracy ClaimsHigher.

Lemma ctrend_run (F : num) (ops : list (op F)) :
  run (ctrend_push F) (ctrend_clear F) (ctrend_init F) ops = fold_left (ctrend_push F) (since_clear ops) (ctrend_init F).
Proof. apply run_since_clear. reflexivity. Qed.

Lemma two_rounded emin prec mode : (0 < prec)%Z -> (emin <= 0)%Z -> Valid_rnd mode ->
  @fval emin prec mode (nofz 2) 2.
Proof.
  intros Hp He Hv. unfold fval. cbn. f_equal. apply round_generic; [exact Hv|].
  change 2 with (bpow radix2 1). apply generic_format_bpow. unfold FLT_exp. lia.
Qed.

(** @prop C99_rounded: in every binary format with gradual underflow and every
    rounding direction, as long as nothing overflows: after [n] pushes of numbers
    of magnitude at most [M] since the last clear, value() is a number within 13
    times the error bound of mean() (C65) of three times the mean minus twice the
    mean of the running means. *)
Lemma c99_rounded : forall (emin prec : Z) (mode : R -> Z) (ops : list (op R)) (M : R),
  (0 < prec)%Z -> (emin <= 0)%Z -> Valid_rnd mode ->
  let l := since_clear ops in
  let n := INR (length l) in
  let u := bpow radix2 (1 - prec) in
  let eta := bpow radix2 emin in
  l <> [] -> fits l -> (Z.of_nat (length l) <= 2 ^ prec)%Z -> 16 * n * u <= 1 ->
  Forall (fun x => Rabs x <= M) l ->
  let F := rounded emin prec mode in
  let s := run (ctrend_push F) (ctrend_clear F) (ctrend_init F) (fops emin prec mode ops) in
  exists v, ctrend_value F s = Fin v /\
    Rabs (v - (3 * mean l - 2 * mean (running_means l))) <= 13 * ((n + 25) * u * M + (3 * n + 11) * eta).
Proof.
  intros emin prec mode ops M Hp He Hv l n u eta NE Hf HK Hn HM F s.
  assert (M0 : 0 <= M) by (apply (magn_pos (fun x => x) M l); assumption).
  destruct (ctrend_accuracy (@approx_any emin prec Hp He mode (48 * M + 284 * n * eta) Hv)
    (two_rounded emin prec mode Hp He Hv) M M0 (map Fin l) l) as (r & Er & H); try rewrite map_length; try assumption.
  - apply fval_list.
  - apply fin_nil; exact NE.
  - lia.
  - apply Rle_refl.
  - rewrite map_length in H. exists r. split; [|exact H].
    unfold s, fops. rewrite ctrend_run, since_clear_op_map. exact Er.
Qed.

(** @ex C99_rounded_ex: a format of twelve bits rounding towards zero; five
    values at most 10 in magnitude. *)
Lemma c99_rounded_ex :
  (0 < 12)%Z /\ (-20 <= 0)%Z /\ Valid_rnd Ztrunc /\
  let ops := [Push 99; Clear; Push 1; Push (-10); Push 3; Push 7; Push 2] in
  since_clear ops = [1; -10; 3; 7; 2] /\ fits (since_clear ops) /\
  (Z.of_nat (length (since_clear ops)) <= 2 ^ 12)%Z /\
  16 * INR (length (since_clear ops)) * bpow radix2 (1 - 12) <= 1 /\
  Forall (fun x => Rabs x <= 10) (since_clear ops).
Proof. exact c65_rounded_ex. Qed.

(** @prop C99_binary64: in binary64, up to 2^49 finite values of magnitude at
    most [M <= 2^1016]: value() is finite and within 13 times the error bound of
    mean() of three times the mean minus twice the mean of the running means; if
    the values form an arithmetic progression, value() is that close to the last
    of them. *)
Lemma c99_binary64 : forall (ops : list (op b64)) (M : R),
  let l := since_clear ops in
  let n := INR (length l) in
  let E := 13 * ((n + 25) * bpow radix2 (-53) * M + (3 * n + 11) * bpow radix2 (-1075)) in
  l <> [] -> (Z.of_nat (length l) <= 2 ^ 49)%Z -> M <= bpow radix2 1016 ->
  Forall (fun x => b64_finite x /\ Rabs (b64_real x) <= M) l ->
  let v := ctrend_value b64num (run (ctrend_push b64num) (ctrend_clear b64num) (ctrend_init b64num) ops) in
  b64_finite v /\
  Rabs (b64_real v - (3 * mean (map b64_real l) - 2 * mean (running_means (map b64_real l)))) <= E /\
  (forall a st k, map b64_real l = map (fun i => a + st * INR i) (seq 0 (S k)) ->
     Rabs (b64_real v - (a + st * INR k)) <= E).
Proof.
  intros ops M l n E NE Hn HM HF v.
  destruct (b64_magn M l HF) as [Hfin Hmag].
  assert (M0 : 0 <= M).
  { apply (magn_pos b64_real M l NE). eapply Forall_impl; [|exact HF]; cbn; tauto. }
  pose proof (inr_le l 49 ltac:(lia) Hn) as Hn'. fold n in Hn'.
  pose proof (pos_INR (length l)) as N0. fold n in N0.
  assert (Two : denotes (nofz 2%Z : b64num) 2) by (apply (lit_b64 2); lia).
  assert (Room : 48 * M + 284 * n * bpow radix2 (-1075) <= bpow radix2 1023).
  { assert (4 * M <= bpow radix2 1018).
    { change 1018%Z with (1 + (1 + 1016))%Z. rewrite !bp_double. lra. }
    pose proof (b64_room n (4 * M) Hn' H) as R1.
    assert (H2 : 224 * n * bpow radix2 (-1075) <= bpow radix2 8 * bpow radix2 49 * bpow radix2 (-1075)).
    { apply Rmult_le_compat_r; [apply Rlt_le, bp|]. change (bpow radix2 8) with 256. pose proof (bp 49). lra. }
    assert (H3 : 48 * M <= 48 * bpow radix2 1016) by lra.
    rewrite !bp_mul in H2. pose proof (bp_le (8 + 49 + -1075) 1016 ltac:(lia)).
    assert (H5 : 60 * n * bpow radix2 (-1075) <= bpow radix2 6 * bpow radix2 49 * bpow radix2 (-1075)).
    { apply Rmult_le_compat_r; [apply Rlt_le, bp|]. change (bpow radix2 6) with 64. pose proof (bp 49). lra. }
    rewrite !bp_mul in H5. pose proof (bp_le (6 + 49 + -1075) 1016 ltac:(lia)).
    change 1023%Z with (7 + 1016)%Z. rewrite (bpow_plus radix2 7 1016). change (bpow radix2 7) with 128. lra. }
  destruct (ctrend_accuracy approx_b64 Two M M0 l (map b64_real l)) as (r & (Fr & Er) & H); try assumption.
  - apply denotes_list; exact Hfin.
  - apply (b64_count l 49); [lia|exact Hn].
  - apply (b64_small l 49); [lia|exact Hn].
  - exact (b64_lin n Hn').
  - assert (Ev : v = ctrend_value b64num (fold_left (ctrend_push b64num) l (ctrend_init b64num))).
    { unfold v. rewrite ctrend_run. reflexivity. }
    rewrite Ev. split; [exact Fr|]. rewrite Er. split; [exact H|].
    intros a st k Ek. rewrite Ek in H. fold (progression a st (S k)) in H.
    rewrite progression_mean, progression_running in H.
    replace (a + st * INR k) with (3 * (a + st * INR k / 2) - 2 * (a + st * INR k / 4)) by field. exact H.
Qed.

(** @ex C99_binary64_ex: the progression 1/2, 1, 3/2, 2; value() is computed as
    exactly 2; the bound for a million values at most 1 in magnitude is below
    1.6e-9. *)
Lemma c99_binary64_ex :
  let d k := @ndiv b64num (b64_of_Z k) (b64_of_Z 2) in
  let ops := [Push (d 3%Z); Clear; Push (d 1%Z); Push (d 2%Z); Push (d 3%Z); Push (d 4%Z)] in
  since_clear ops = [d 1%Z; d 2%Z; d 3%Z; d 4%Z] /\
  (Z.of_nat (length (since_clear ops)) <= 2 ^ 49)%Z /\
  2 <= bpow radix2 1016 /\
  Forall (fun x => b64_finite x /\ Rabs (b64_real x) <= 2) (since_clear ops) /\
  map b64_real (since_clear ops) = map (fun i => / 2 + / 2 * INR i) (seq 0 4) /\
  SFeqb (ctrend_value b64num (run (ctrend_push b64num) (ctrend_clear b64num) (ctrend_init b64num) ops)) (b64_of_Z 2) = true /\
  13 * ((10 ^ 6 + 25) * bpow radix2 (-53) * 1 + (3 * 10 ^ 6 + 11) * bpow radix2 (-1075)) < 16 / 10 ^ 10.
Proof.
  cbn zeta. split; [reflexivity|]. split; [cbn; lia|]. split.
  { apply Rle_trans with (bpow radix2 20); [cbn; lra|apply bp_le; lia]. } split.
  { vm_compute since_clear. magnitudes. } split.
  { vm_compute since_clear. unfold b64_real, SF2R, F2R. cbn. repeat (f_equal; try lra). } split.
  { vm_compute. reflexivity. }
  apply Rle_lt_trans with (13 * ((10 ^ 6 + 25) * bpow radix2 (-53) * 1 + (3 * 10 ^ 6 + 11) * bpow radix2 (-80))).
  { apply Rmult_le_compat_l; [lra|]. apply Rplus_le_compat_l, Rmult_le_compat_l; [lra|apply bp_le; lia]. }
  cbn. lra.
Qed.
