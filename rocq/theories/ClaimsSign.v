(** * Claims C13, C89, C90: sign and range of decayed and interim statistics in
    floating point *)

From Coq Require Import Reals ZArith NArith List Bool.
From Coq Require Import Floats.SpecFloat.
From Flocq Require Import Core.
From Verif Require Import Arith History SpecStats SpecBlocks Cumulative Window Interim Decay Rounded Binary64.
Import ListNotations.
Local Open Scope R_scope.
(* @end-header *)
From Coq Require Import Lia Lra Psatz.
From Flocq Require Import IEEE754.BinarySingleNaN.
From Verif Require Import HistoryLemmas WindowProofs BlockLemmas InterimStats SpecDecay DecayProofs Binary64Cumulative SignProofs
  ClaimsAccuracy ClaimsAccuracyInterim.

(** ** C89 *)

(** @prop C89_decay_rounded: in every binary format with gradual underflow and
    every rounding function, for every history of pushes of real numbers and
    clears and factors between 0 and 1: variance() of the decay filters is a
    number and not negative, and so is kurtosis() if the format has room for the
    square of its epsilon. *)
Lemma c89_decay_rounded : forall (emin prec : Z) (mode : R -> Z) (fm fv fs fk : R) (ops : list (op R)),
  (0 < prec)%Z -> (emin <= 0)%Z -> Valid_rnd mode -> 0 <= fv <= 1 -> 0 <= fk <= 1 ->
  let F := rounded emin prec mode in
  let s := run (dvar_push F) (dvar_clear F) (dvar_init F (Fin fm) (Fin fv)) (fops emin prec mode ops) in
  let k := run (dkurt_push F) (dkurt_clear F) (dkurt_init F (Fin fm) (Fin fv) (Fin fs) (Fin fk)) (fops emin prec mode ops) in
  (exists v, dvar_variance F s = Fin v /\ 0 <= v) /\
  (exists v, dkurt_variance F k = Fin v /\ 0 <= v) /\
  ((emin <= 2 - 2 * prec)%Z -> exists v, dkurt_kurtosis F k = Fin v /\ 0 <= v).
Proof.
  intros emin prec mode fm fv fs fk ops Hp He Hv Hfv Hfk F s k.
  assert (OK : all_pushed (fin emin prec mode) (fops emin prec mode ops)).
  { intros a Ha. unfold fops in Ha. apply in_map_iff in Ha. destruct Ha as ([r|] & E & _); try discriminate.
    injection E as <-. exists r. reflexivity. }
  assert (Z := @zfin emin prec mode Hv). assert (Z0 := @zero_ge0 emin prec mode Hv).
  assert (I : dv_fin emin prec mode (dvar_init F (Fin fm) (Fin fv))).
  { split; [split; [exists fm; reflexivity|split; exact Z]|]. split; [exists fv; auto|]. split; [exact Z|exact Z0]. }
  assert (Ik : dk_fin emin prec mode (dkurt_init F (Fin fm) (Fin fv) (Fin fs) (Fin fk))).
  { split; [split; [exact I|]|].
    - split; [exists fs; reflexivity|]. split; exact Z.
    - split; [exists fk; auto|]. split; [exact Z|exact Z0]. }
  assert (Hs : dv_fin emin prec mode s).
  { apply (run_invariant _ _ _ (fin emin prec mode)); [exact I| | |exact OK].
    - intros. apply (@dv_push_fin emin prec Hp mode Hv); assumption.
    - intros. apply (@dv_clear_fin emin prec mode Hv); assumption. }
  assert (Hk : dk_fin emin prec mode k).
  { apply (run_invariant _ _ _ (fin emin prec mode)); [exact Ik| | |exact OK].
    - intros. apply (@dk_push_fin emin prec Hp mode Hv); assumption.
    - intros. apply (@dk_clear_fin emin prec mode Hv); assumption. }
  split; [|split].
  - destruct (@dv_variance_ge0 emin prec Hp mode Hv s Hs) as (v & E & _ & P). exists v. auto.
  - destruct (@dv_variance_ge0 emin prec Hp mode Hv _ (proj1 (proj1 Hk))) as (v & E & _ & P). exists v. auto.
  - intros He'. destruct (@dk_kurtosis_ge0 emin prec Hp mode Hv k He' Hk) as (v & E & _ & P). exists v. auto.
Qed.

(** @ex C89_decay_rounded_ex: eleven bits, rounding downwards; binary64, binary32
    and half precision have room for the square of epsilon. *)
Lemma c89_decay_rounded_ex :
  (0 < 11)%Z /\ (-24 <= 0)%Z /\ Valid_rnd Zfloor /\ 0 <= 1 / 3 <= 1 /\ 0 <= 1 <= 1 /\
  (-24 <= 2 - 2 * 11)%Z /\ (-149 <= 2 - 2 * 24)%Z /\ (-1074 <= 2 - 2 * 53)%Z.
Proof. repeat split; try lia; try lra; apply valid_rnd_DN. Qed.

(** @prop C89_decay_binary64: in binary64, for every history of doubles, NaN and
    infinities included, and every finite factor between 0 and 1: variance() and
    kurtosis() of the decay filters never compare less than zero. *)
Lemma c89_decay_binary64 : forall (fm fv fs fk : b64) (ops : list (op b64)),
  b64_valid fm -> b64_valid fs ->
  b64_finite fv -> 0 <= b64_real fv <= 1 -> b64_finite fk -> 0 <= b64_real fk <= 1 ->
  all_pushed b64_valid ops ->
  let s := run (dvar_push b64num) (dvar_clear b64num) (dvar_init b64num fm fv) ops in
  let k := run (dkurt_push b64num) (dkurt_clear b64num) (dkurt_init b64num fm fv fs fk) ops in
  SFltb (dvar_variance b64num s) (S754_zero false) = false /\
  SFltb (dkurt_variance b64num k) (S754_zero false) = false /\
  SFltb (dkurt_kurtosis b64num k) (S754_zero false) = false.
Proof.
  intros fm fv fs fk ops Vm Vs Fv Hv Fk Hk OK s k.
  assert (I : dv_ok (dvar_init b64num fm fv)).
  { split; [split; [exact Vm|split; reflexivity]|]. split; [split; assumption|]. split; [reflexivity|apply zero_signed]. }
  assert (Ik : dk_ok (dkurt_init b64num fm fv fs fk)).
  { split; [split; [exact I|]|].
    - split; [exact Vs|]. split; reflexivity.
    - split; [split; assumption|]. split; [reflexivity|apply zero_signed]. }
  assert (Hs : dv_ok s).
  { apply (run_invariant _ _ _ b64_valid); [exact I|apply dv_push_ok|apply dv_clear_ok|exact OK]. }
  assert (Hk' : dk_ok k).
  { apply (run_invariant _ _ _ b64_valid); [exact Ik|apply dk_push_ok|apply dk_clear_ok|exact OK]. }
  split; [apply signed_ltb, dv_variance_signed, Hs|].
  split; [apply signed_ltb, dv_variance_signed, (proj1 (proj1 Hk'))|].
  apply signed_ltb, dk_kurtosis_signed, Hk'.
Qed.

(** @ex C89_decay_binary64_ex: factors 0.1; a stream with an infinity, whose
    variance becomes NaN, and one with a positive variance. *)
Lemma c89_decay_binary64_ex :
  let d k := @ndiv b64num (b64_of_Z k) (b64_of_Z 10) in
  let f := d 1%Z in
  let ops := [Push (d 3%Z); Push (S754_infinity true); Push (d 4%Z)] in
  let ops' := [Push (d 3%Z); Clear; Push (d 70%Z); Push (d (-4)%Z)] in
  let v ops := dvar_variance b64num (run (dvar_push b64num) (dvar_clear b64num) (dvar_init b64num f f) ops) in
  b64_finite f /\ 0 <= b64_real f <= 1 /\ all_pushed b64_valid ops /\ all_pushed b64_valid ops' /\
  v ops = S754_nan /\ SFltb (S754_zero false) (v ops') = true.
Proof.
  cbn zeta. split; [split; vm_compute; reflexivity|]. split.
  { match goal with |- _ <= b64_real ?x <= _ => let y := eval vm_compute in x in change x with y end.
    unfold b64_real, SF2R, F2R. cbn. lra. }
  split; [|split].
  - intros a H. cbn in H. repeat (destruct H as [H|H]; [injection H as <-; vm_compute; reflexivity|]). contradiction.
  - intros a H. cbn in H. repeat (destruct H as [H|H]; [try discriminate; injection H as <-; vm_compute; reflexivity|]). contradiction.
  - split; vm_compute; reflexivity.
Qed.

(** @prop C89_interim_binary64: in binary64, for every window up to 2^32 and
    every history whose last 2W values since the last clear() are finite and
    smaller than 2^1023 in magnitude: variance() of the interim filter compares
    greater or equal to zero (it is never NaN). *)
Lemma c89_interim_binary64 : forall (W : nat) (ops : list (op b64)),
  (0 < W)%nat -> (N.of_nat W <= 2 ^ 32)%N ->
  let l := since_clear ops in
  l <> [] -> Forall (fun x => b64_finite x /\ Rabs (b64_real x) < bpow radix2 1023) (lastn (2 * W) l) ->
  let w := N.of_nat W in
  let d := run (ivar_push b64num w) (ivar_clear b64num) (ivar_init b64num) ops in
  SFleb (S754_zero false) (ivar_variance b64num w d) = true.
Proof.
  intros W ops HW H32 l NE OK w d. apply nonneg64_leb. apply (ivar_nonneg W ops HW H32 NE OK).
Qed.

(** @ex C89_interim_binary64_ex: W = 2; NaN is out of reach of the last four
    values. *)
Lemma c89_interim_binary64_ex :
  let d k := @ndiv b64num (b64_of_Z k) (b64_of_Z 10) in
  let ops := [Push S754_nan; Push (d 3%Z); Push (d 30%Z); Push (d 1%Z); Push (d 1%Z)] in
  let l := since_clear ops in
  (0 < 2)%nat /\ (N.of_nat 2 <= 2 ^ 32)%N /\ l <> [] /\
  Forall (fun x => b64_finite x /\ Rabs (b64_real x) < bpow radix2 1023) (lastn (2 * 2) l).
Proof.
  cbn zeta. split; [lia|]. split; [vm_compute; discriminate|]. split; [discriminate|].
  assert (B : 8 <= bpow radix2 1023) by (apply (bp_le 3 1023); lia).
  match goal with |- Forall _ ?x => let y := eval vm_compute in x in change x with y end.
  repeat (apply Forall_cons; [split; [split; vm_compute; reflexivity|
    apply Rlt_le_trans with 8; [unfold b64_real, SF2R, F2R; cbn; apply Rabs_lt; lra|exact B]]|]).
  apply Forall_nil.
Qed.

(** ** C13, C90 *)

(** @prop C13_interim_refuted: over double, six times 0.1 in an interim filter of
    window 3 does not give the mean 0.1. *)
Lemma c13_interim_refuted : exists (c : b64) (n : nat),
  b64_finite c /\
  let d := run (imean_push b64num 3) (imean_clear b64num) (imean_init b64num) (pushes (repeat c n)) in
  SFeqb (imean_mean b64num 3 d) c = false.
Proof.
  exists (@ndiv b64num (b64_of_Z 1) (b64_of_Z 10)), 6%nat.
  split; [split; vm_compute; reflexivity|]. vm_compute. reflexivity.
Qed.

(** @prop C13_decay_refuted: over double, the decay filter with factor 0.1 fed 0.1
    once does not give the mean 0.1, and its variance is positive. *)
Lemma c13_decay_refuted : exists c f : b64,
  b64_finite c /\ b64_finite f /\
  let s := run (dvar_push b64num) (dvar_clear b64num) (dvar_init b64num f f) (pushes (repeat c 1)) in
  SFeqb (dvar_mean b64num s) c = false /\ SFltb (S754_zero false) (dvar_variance b64num s) = true.
Proof.
  exists (@ndiv b64num (b64_of_Z 1) (b64_of_Z 10)), (@ndiv b64num (b64_of_Z 1) (b64_of_Z 10)).
  split; [split; vm_compute; reflexivity|]. split; [split; vm_compute; reflexivity|].
  vm_compute. split; reflexivity.
Qed.

(** @prop C90_refuted: over double the means of the window, interim and decay
    filters can leave the range of the data: window 2 fed 0.1, 0.3, 0.1, 0.1,
    interim with window 3 fed 0.1 six times, decay with factor 0.1 fed 0.1. *)
Lemma c90_refuted :
  let outside (m : b64) (l : list b64) := b64_finite m /\ Forall b64_finite l /\ l <> [] /\
    (Forall (fun x => SFltb x m = true) l \/ Forall (fun x => SFltb m x = true) l) in
  (exists l, outside (wmean_mean b64num (run (wmean_push b64num 2) (wmean_clear b64num) (wmean_init b64num) (pushes l))) (lastn 2 l)) /\
  (exists l, outside (imean_mean b64num 3 (run (imean_push b64num 3) (imean_clear b64num) (imean_init b64num) (pushes l))) l) /\
  (exists f l, outside (dmean_mean b64num (run (dmean_push b64num) (dmean_clear b64num) (dmean_init b64num f) (pushes l))) l).
Proof.
  pose (d := fun k => @ndiv b64num (b64_of_Z k) (b64_of_Z 10)).
  cbv zeta. split; [|split].
  - exists [d 1%Z; d 3%Z; d 1%Z; d 1%Z]. split; [split; vm_compute; reflexivity|].
    split; [repeat constructor; vm_compute; reflexivity|]. split; [discriminate|].
    left. repeat constructor.
  - exists (repeat (d 1%Z) 6). split; [split; vm_compute; reflexivity|].
    split; [repeat constructor; vm_compute; reflexivity|]. split; [discriminate|].
    left. repeat constructor.
  - exists (d 1%Z), [d 1%Z]. split; [split; vm_compute; reflexivity|].
    split; [repeat constructor; vm_compute; reflexivity|]. split; [discriminate|].
    left. repeat constructor.
Qed.

Lemma leave m v lo hi E : Rabs (m - v) <= E -> lo <= v <= hi -> lo - E <= m <= hi + E.
Proof. intros H1 H2. apply Rabs_le_inv in H1. lra. Qed.

Lemma real_within lo hi (l : list b64) : Forall (fun x => lo <= b64_real x <= hi) l ->
  Forall (fun x => lo <= x <= hi) (map b64_real l).
Proof. intros H. apply Forall_map. exact H. Qed.

(** @prop C90_interim_partial: in binary64 mean() of the interim filter stays
    within the range of the last 2W values up to the error bound of C88. *)
Lemma c90_interim_partial : forall (W : nat) (ops : list (op b64)) (M lo hi : R),
  let l := since_clear ops in
  l <> [] -> (0 < W)%nat -> (Z.of_nat W <= 2 ^ 49)%Z -> M <= bpow radix2 960 ->
  Forall (fun x => b64_finite x /\ Rabs (b64_real x) <= M) (lastn (2 * W) l) ->
  Forall (fun x => lo <= b64_real x <= hi) (lastn (2 * W) l) ->
  let w := N.of_nat W in
  let m := b64_real (imean_mean b64num w (run (imean_push b64num w) (imean_clear b64num) (imean_init b64num) ops)) in
  let E := (INR W + 46) * bpow radix2 (-53) * M + (3 * INR W + 29) * bpow radix2 (-1075) in
  lo - E <= m <= hi + E.
Proof.
  intros W ops M lo hi l NE HW HWb HM HF HR w m E.
  destruct (c88_mean_binary64 W ops M NE HW HWb HM HF) as (_ & A & B). fold l in A, B. fold w in A, B.
  assert (HC : Forall (fun x => lo <= b64_real x <= hi) (cur_block W l) /\
               Forall (fun x => lo <= b64_real x <= hi) (prev_block W l)).
  { rewrite Forall_forall in HR. split; apply Forall_forall; intros x Hx; apply HR.
    - apply (cur_block_In W HW); exact Hx.
    - apply (prev_block_In W HW); exact Hx. }
  destruct HC as [HC HP].
  assert (Nc : (1 <= length (cur_block W l))%nat).
  { rewrite (cur_block_length W HW). destruct l; [congruence|]. lia. }
  assert (NEc : map b64_real (cur_block W l) <> []) by (destruct (cur_block W l); [cbn in Nc; lia|discriminate]).
  pose proof (mean_bounds lo hi _ NEc (real_within _ _ _ HC)) as Ba.
  destruct (Nat.le_gt_cases (length l) W) as [H|H].
  - specialize (A H). destruct (short_blocks W HW l H) as [Ec _]. rewrite Ec in Ba.
    exact (leave _ _ _ _ _ A Ba).
  - specialize (B H). eapply leave; [exact B|].
    assert (NEp : map b64_real (prev_block W l) <> []).
    { pose proof (long_prev W HW l H) as LP. destruct (prev_block W l); [cbn in LP; lia|discriminate]. }
    pose proof (mean_bounds lo hi _ NEp (real_within _ _ _ HP)) as Bp.
    set (p := mean (map b64_real (prev_block W l))) in *. set (a := mean (map b64_real (cur_block W l))) in *.
    pose proof (cur_block_le W HW l) as Lc. set (s := card (cur_block W l)).
    assert (S1 : 1 <= s <= INR W).
    { unfold s, card. split; [apply (le_INR 1); exact Nc|apply le_INR; exact Lc]. }
    assert (D : 0 < INR W + s) by lra.
    split; apply Rmult_le_reg_r with (INR W + s); try exact D; unfold Rdiv; rewrite Rmult_assoc, Rinv_l, Rmult_1_r by lra; nra.
Qed.

(** @ex C90_interim_partial_ex: W = 2, the last four values 1.5, 2.5, 4, 0.5. *)
Lemma c90_interim_partial_ex :
  let d k := @ndiv b64num (b64_of_Z k) (b64_of_Z 2) in
  let l := since_clear [Push S754_nan; Push (d 3%Z); Push (d 5%Z); Push (d 8%Z); Push (d 1%Z)] in
  l <> [] /\ (0 < 2)%nat /\ (Z.of_nat 2 <= 2 ^ 49)%Z /\ 4 <= bpow radix2 960 /\
  Forall (fun x => b64_finite x /\ Rabs (b64_real x) <= 4) (lastn (2 * 2) l) /\
  Forall (fun x => 1 / 2 <= b64_real x <= 4) (lastn (2 * 2) l).
Proof.
  cbn zeta. split; [discriminate|]. split; [lia|]. split; [cbn; lia|]. split; [apply (bp_le 2 960); lia|].
  split; vm_compute lastn; [magnitudes|].
  repeat (apply Forall_cons; [unfold b64_real, SF2R, F2R; cbn; lra|]). apply Forall_nil.
Qed.

(** @prop C90_decay_partial: in binary64 mean() of the decay filter stays within
    the range of the pushed values up to the error bound of C67. *)
Lemma c90_decay_partial : forall (f : b64) (l : list b64) (M lo hi : R),
  b64_finite f -> bpow radix2 (-46) <= b64_real f <= 1 -> l <> [] -> M <= bpow radix2 1018 ->
  Forall (fun x => b64_finite x /\ Rabs (b64_real x) <= M) l ->
  Forall (fun x => lo <= b64_real x <= hi) l ->
  let m := b64_real (dmean_mean b64num (run (dmean_push b64num) (dmean_clear b64num) (dmean_init b64num f) (pushes l))) in
  let E := 209 * bpow radix2 (-53) * M / b64_real f +
    57 * bpow radix2 (-1075) * (1 + M) / (b64_real f * b64_real f) in
  lo - E <= m <= hi + E.
Proof.
  intros f l M lo hi Ff Hf NE HM HF HR m E.
  destruct (c67_binary64 f l M Ff Hf NE HM HF) as (_ & A). eapply leave; [exact A|].
  apply ewma_bounds; [pose proof (bp (-46)); lra| |apply real_within; exact HR].
  destruct l; [congruence|discriminate].
Qed.

(** @ex C90_decay_partial_ex: factor 1/8, values 1.5, 2.5, 4, 0.5. *)
Lemma c90_decay_partial_ex :
  let d k := @ndiv b64num (b64_of_Z k) (b64_of_Z 8) in
  let l := [d 12%Z; d 20%Z; d 32%Z; d 4%Z] in
  b64_finite (d 1%Z) /\ bpow radix2 (-46) <= b64_real (d 1%Z) <= 1 /\ l <> [] /\ 4 <= bpow radix2 1018 /\
  Forall (fun x => b64_finite x /\ Rabs (b64_real x) <= 4) l /\
  Forall (fun x => 1 / 2 <= b64_real x <= 4) l.
Proof.
  cbn zeta. split; [split; vm_compute; reflexivity|]. split.
  { replace (b64_real (@ndiv b64num (b64_of_Z 1) (b64_of_Z 8))) with (bpow radix2 (-3)).
    - split; [apply bp_le; lia|cbn; lra].
    - vm_compute ndiv. unfold b64_real, SF2R, F2R. cbn. lra. }
  split; [discriminate|]. split; [apply (bp_le 2 1018); lia|].
  match goal with |- Forall _ ?x /\ _ => let y := eval vm_compute in x in change x with y end.
  split; [magnitudes|].
  repeat (apply Forall_cons; [unfold b64_real, SF2R, F2R; cbn; lra|]). apply Forall_nil.
Qed.

(** @prop C90_window_partial: in binary64 mean() of the window filter stays within
    the range of the last W values up to the drift bound of C66. *)
Lemma c90_window_partial : forall (W : nat) (ops : list (op b64)) (M lo hi : R),
  let l := since_clear ops in
  let n := INR (length l) in
  (0 < W)%nat -> (Z.of_nat W <= 2 ^ 53)%Z ->
  l <> [] -> (Z.of_nat (length l) <= 2 ^ 49)%Z -> M <= bpow radix2 1018 ->
  Forall (fun x => b64_finite x /\ Rabs (b64_real x) <= M) l ->
  Forall (fun x => lo <= b64_real x <= hi) (lastn W l) ->
  let m := b64_real (wmean_mean b64num (run (wmean_push b64num W) (wmean_clear b64num) (wmean_init b64num) ops)) in
  let E := n * (26 * bpow radix2 (-53) * M + 14 * bpow radix2 (-1075)) in
  lo - E <= m <= hi + E.
Proof.
  intros W ops M lo hi l n HW HK NE Hn HM HF HR m E.
  destruct (c66_binary64 W ops M HW HK NE Hn HM HF) as (_ & A). eapply leave; [exact A|].
  fold l. apply mean_bounds.
  - intros Z. apply (f_equal (@length R)) in Z. rewrite lastn_length, map_length in Z.
    destruct l; [congruence|cbn in Z; lia].
  - rewrite lastn_map. apply real_within. exact HR.
Qed.

(** @ex C90_window_partial_ex: W = 2, the last two values 4 and 0.5. *)
Lemma c90_window_partial_ex :
  let d k := @ndiv b64num (b64_of_Z k) (b64_of_Z 2) in
  let l := since_clear [Push S754_nan; Clear; Push (d 200%Z); Push (d 5%Z); Push (d 8%Z); Push (d 1%Z)] in
  (0 < 2)%nat /\ (Z.of_nat 2 <= 2 ^ 53)%Z /\ l <> [] /\ (Z.of_nat (length l) <= 2 ^ 49)%Z /\ 100 <= bpow radix2 1018 /\
  Forall (fun x => b64_finite x /\ Rabs (b64_real x) <= 100) l /\
  Forall (fun x => 1 / 2 <= b64_real x <= 4) (lastn 2 l).
Proof.
  cbn zeta. split; [lia|]. split; [cbn; lia|]. split; [discriminate|]. split; [cbn; lia|].
  split; [apply Rle_trans with (bpow radix2 7); [cbn; lra|apply bp_le; lia]|].
  split.
  - match goal with |- Forall _ ?x => let y := eval vm_compute in x in change x with y end. magnitudes.
  - match goal with |- Forall _ ?x => let y := eval vm_compute in x in change x with y end.
    repeat (apply Forall_cons; [unfold b64_real, SF2R, F2R; cbn; lra|]). apply Forall_nil.
Qed.
