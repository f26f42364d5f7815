(** * Claims C59, C61: NaN in binary64 *)

From Coq Require Import Reals ZArith NArith List Bool.
From Coq Require Import Floats.SpecFloat.
From Verif Require Import Arith History SpecStats Cumulative Window Decay Interim Impulse
  ImpulseRuns Binary64.
Import ListNotations.
(* @end-header *)
From Coq Require Import Lia Lra.
From Verif Require Import HistoryLemmas Buffer CumulativeProofs WindowProofs NaNProofs.

(** ** C59 *)

(** @prop C59_cumulative_nan: mean() of each of the four cumulative moment
    filters is NaN whenever a NaN was pushed since the last clear, whatever was
    pushed before and after it. *)
Lemma c59_cumulative : forall ops : list (op b64),
  In S754_nan (since_clear ops) ->
  cmean_mean b64num (run (cmean_push b64num) (cmean_clear b64num) (cmean_init b64num) ops) = S754_nan /\
  cvar_mean b64num (run (cvar_push b64num) (cvar_clear b64num) (cvar_init b64num) ops) = S754_nan /\
  cskew_mean b64num (run (cskew_push b64num) (cskew_clear b64num) (cskew_init b64num) ops) = S754_nan /\
  ckurt_mean b64num (run (ckurt_push b64num) (ckurt_clear b64num) (ckurt_init b64num) ops) = S754_nan.
Proof.
  intros ops H. repeat split.
  - refine (sticky0 _ _ _ (fun s => cm_mean _ s = nan64) nan64 _ _ ops H);
      [apply cmean_push_nan|intros; apply cmean_push_stays; assumption].
  - refine (sticky0 _ _ _ (fun s => cm_mean _ (cv_super _ s) = nan64) nan64 _ _ ops H);
      [intros; apply cmean_push_nan|intros; apply cmean_push_stays; assumption].
  - refine (sticky0 _ _ _ (fun s => cm_mean _ (cv_super _ (cs_super _ s)) = nan64) nan64 _ _ ops H);
      [intros; apply cmean_push_nan|intros; apply cmean_push_stays; assumption].
  - refine (sticky0 _ _ _ (fun s => cm_mean _ (cv_super _ (cs_super _ (ck_super _ s))) = nan64) nan64 _ _ ops H);
      [intros; apply cmean_push_nan|intros; apply cmean_push_stays; assumption].
Qed.

(** @ex C59_cumulative_nan_ex: a NaN followed by three ordinary values. *)
Lemma c59_cumulative_ex :
  In S754_nan (since_clear [Push (b64_of_Z 4); Clear; Push S754_nan; Push (b64_of_Z 1);
                            Push (b64_of_Z 2); Push (b64_of_Z 3)]).
Proof. left. reflexivity. Qed.

(** @prop C59_window_nan: for every window capacity, mean() of the window filters
    is NaN whenever a NaN was pushed since the last clear, even after the NaN
    itself has left the window. *)
Lemma c59_window : forall (W : nat) (ops : list (op b64)), (0 < W)%nat ->
  In S754_nan (since_clear ops) ->
  wmean_mean b64num (run (wmean_push b64num W) (wmean_clear b64num) (wmean_init b64num) ops) = S754_nan /\
  wvar_mean b64num (run (wvar_push b64num W) (wvar_clear b64num) (wvar_init b64num) ops) = S754_nan.
Proof.
  intros W ops HW H. split.
  - refine (sticky0 _ _ _ (fun s => wm_mean _ s = nan64) nan64 _ _ ops H);
      [apply wmean_push_nan, HW|intros; apply wmean_push_stays; assumption].
  - refine (proj1 (sticky0 _ _ _ (fun s => wm_mean _ (wv_super _ s) = nan64 /\ wv_sum _ s = nan64) nan64 _ _ ops H));
      [apply wvar_push_nan, HW|intros; apply wvar_push_stays; assumption].
Qed.

(** @ex C59_window_nan_ex: capacity 2; the window holds 1 and 2 but the history
    contains the NaN. *)
Lemma c59_window_ex :
  let ops := [Push S754_nan; Push (b64_of_Z 1); Push (b64_of_Z 2)] in
  (0 < 2)%nat /\ In S754_nan (since_clear ops) /\
  wm_window b64num (run (wmean_push b64num 2) (wmean_clear b64num) (wmean_init b64num) ops) =
  [b64_of_Z 1; b64_of_Z 2].
Proof. split; [lia|]. split; [left; reflexivity|vm_compute; reflexivity]. Qed.

(** @prop C59_decay_nan: for all factors accepted by the constructors, mean() of
    each decay filter is NaN whenever a NaN was pushed since the last clear. *)
Lemma c59_decay : forall (fm fv fs fk : b64) (ops : list (op b64)),
  b64_finite fm -> factor_ok b64num fm = true ->
  In S754_nan (since_clear ops) ->
  dmean_mean b64num (run (dmean_push b64num) (dmean_clear b64num) (dmean_init b64num fm) ops) = S754_nan /\
  dvar_mean b64num (run (dvar_push b64num) (dvar_clear b64num) (dvar_init b64num fm fv) ops) = S754_nan /\
  dskew_mean b64num (run (dskew_push b64num) (dskew_clear b64num) (dskew_init b64num fm fv fs) ops) = S754_nan /\
  dkurt_mean b64num (run (dkurt_push b64num) (dkurt_clear b64num) (dkurt_init b64num fm fv fs fk) ops) = S754_nan.
Proof.
  intros fm fv fs fk ops Hf Hk H. pose proof (factor_okf fm Hf Hk) as HF.
  assert (I0 : dm_inv (dmean_init b64num fm)) by (split; [exact HF|apply okn_0]).
  repeat split; apply dm_bad_mean.
  - refine (sticky _ _ _ dm_inv dm_bad nan64 I0 _ _ _ _ ops H);
      [intros; apply dm_inv_push|apply dm_inv_clear|apply dm_push_nan|apply dm_push_stays]; assumption.
  - refine (sticky _ _ (dvar_init b64num fm fv) (fun s => dm_inv (dv_super _ s)) (fun s => dm_bad (dv_super _ s)) nan64 I0 _ _ _ _ ops H);
      intros; [apply dm_inv_push|apply dm_inv_clear|apply dm_push_nan|apply dm_push_stays]; assumption.
  - refine (sticky _ _ (dskew_init b64num fm fv fs) (fun s => dm_inv (dv_super _ (ds_super _ s)))
      (fun s => dm_bad (dv_super _ (ds_super _ s))) nan64 I0 _ _ _ _ ops H);
      intros; [apply dm_inv_push|apply dm_inv_clear|apply dm_push_nan|apply dm_push_stays]; assumption.
  - refine (sticky _ _ (dkurt_init b64num fm fv fs fk) (fun s => dm_inv (dv_super _ (ds_super _ (dk_super _ s))))
      (fun s => dm_bad (dv_super _ (ds_super _ (dk_super _ s)))) nan64 I0 _ _ _ _ ops H);
      intros; [apply dm_inv_push|apply dm_inv_clear|apply dm_push_nan|apply dm_push_stays]; assumption.
Qed.

(** @ex C59_decay_nan_ex: the factor 1/4. *)
Lemma c59_decay_ex :
  let f := S754_finite false 4503599627370496 (-54) in
  b64_finite f /\ factor_ok b64num f = true /\
  In S754_nan (since_clear [Push (b64_of_Z 3); Push S754_nan; Push (b64_of_Z 1)]).
Proof.
  split; [split; reflexivity|]. split; [reflexivity|]. right. left. reflexivity.
Qed.

(** @prop C59_iir_nan: value() of an infinite impulse response filter with
    feedback is NaN whenever a NaN was pushed since the last clear. *)
Lemma c59_iir : forall (b a : list b64) (scale : b64) (ops : list (op b64)),
  b <> [] -> a <> [] ->
  In S754_nan (since_clear ops) ->
  iir_value b64num (iir_run b64num b a scale ops) = S754_nan.
Proof. exact iir_nan. Qed.

(** @ex C59_iir_nan_ex: y = x + y' / 2. *)
Lemma c59_iir_ex :
  let b := [b64_of_Z 2] in let a := [b64_of_Z (-1)] in
  b <> [] /\ a <> [] /\
  In S754_nan (since_clear [Push (b64_of_Z 3); Push S754_nan; Push (b64_of_Z 1)]) /\
  iir_value b64num (iir_run b64num b a (b64_of_Z 2) [Push (b64_of_Z 3)]) = b64_of_Z 3.
Proof. repeat split; try discriminate. right. left. reflexivity. Qed.

(** @prop C59_fir_nan: value() of a finite impulse response filter with P
    coefficients is NaN while a NaN is among the last P values since the last
    clear; once it is not, value() is that of a filter given only the last P
    values (which contain no NaN). *)
Lemma c59_fir : forall (c : list b64) (ops : list (op b64)), c <> [] ->
  let l := lastn (length c) (since_clear ops) in
  (In S754_nan l -> fir_value b64num (fir_run b64num c ops) = S754_nan) /\
  ((length c <= length (since_clear ops))%nat ->
   fir_value b64num (fir_run b64num c ops) = fir_value b64num (fir_run b64num c (pushes l))).
Proof.
  intros c ops Hc l. split; [exact (fir_nan c ops Hc)|exact (fir_recovers b64num c ops Hc)].
Qed.

(** @ex C59_fir_nan_ex: two coefficients 1, 1: NaN while it is one of the last
    two values, 3 afterwards. *)
Lemma c59_fir_ex :
  let c := [b64_of_Z 1; b64_of_Z 1] in
  let ops := [Push S754_nan; Push (b64_of_Z 1)] in
  let ops' := [Push S754_nan; Push (b64_of_Z 1); Push (b64_of_Z 2)] in
  c <> [] /\ In S754_nan (lastn (length c) (since_clear ops)) /\
  (length c <= length (since_clear ops'))%nat /\
  fir_value b64num (fir_run b64num c ops') = b64_of_Z 3.
Proof. repeat split; try discriminate; [left; reflexivity|cbn; lia]. Qed.

(** @prop C59_interim_nan: interim mean() with window W is NaN while a NaN is
    among the last W+1 values since the last clear. *)
Lemma c59_interim : forall (W : nat) (ops : list (op b64)),
  (0 < W)%nat -> (N.of_nat W < szmod)%N ->
  In S754_nan (lastn (W + 1) (since_clear ops)) ->
  imean_mean b64num (N.of_nat W)
    (run (imean_push b64num (N.of_nat W)) (imean_clear b64num) (imean_init b64num) ops) = S754_nan.
Proof. exact imean_nan. Qed.

(** @ex C59_interim_nan_ex: window 2, NaN first of three values. *)
Lemma c59_interim_ex :
  (0 < 2)%nat /\ (N.of_nat 2 < szmod)%N /\
  In S754_nan (lastn (2 + 1) (since_clear [Push S754_nan; Push (b64_of_Z 1); Push (b64_of_Z 2)])).
Proof. split; [lia|]. split; [reflexivity|]. left. reflexivity. Qed.

(** @prop C59_interim_recovers: for every arithmetic, two histories with the same
    number of values since the last clear and the same last 2W of them give the
    same mean(): once the NaN is older than 2W values it has no effect, mean() is
    as if an ordinary value had been pushed instead. *)
Lemma c59_interim_recovers : forall (F : num) (W : nat) (ops1 ops2 : list (op F)),
  (0 < W)%nat -> (N.of_nat W < szmod)%N ->
  length (since_clear ops1) = length (since_clear ops2) ->
  lastn (2 * W) (since_clear ops1) = lastn (2 * W) (since_clear ops2) ->
  imean_mean F (N.of_nat W)
    (run (imean_push F (N.of_nat W)) (imean_clear F) (imean_init F) ops1) =
  imean_mean F (N.of_nat W)
    (run (imean_push F (N.of_nat W)) (imean_clear F) (imean_init F) ops2).
Proof. intros. f_equal. apply imean_recovers; assumption. Qed.

(** @ex C59_interim_recovers_ex: window 2: a NaN, then 1, 2, 4 and 6; mean() is 5
    again. *)
Lemma c59_interim_recovers_ex :
  let ops1 := [Push S754_nan; Push (b64_of_Z 1); Push (b64_of_Z 2); Push (b64_of_Z 4); Push (b64_of_Z 6)] in
  let ops2 := [Push (b64_of_Z 7); Push (b64_of_Z 1); Push (b64_of_Z 2); Push (b64_of_Z 4); Push (b64_of_Z 6)] in
  (0 < 2)%nat /\ (N.of_nat 2 < szmod)%N /\
  length (since_clear ops1) = length (since_clear ops2) /\
  lastn (2 * 2) (since_clear ops1) = lastn (2 * 2) (since_clear ops2) /\
  imean_mean b64num 2
    (run (imean_push b64num 2) (imean_clear b64num) (imean_init b64num) ops1) = b64_of_Z 5.
Proof. repeat split. lia. Qed.

(** ** C61 *)

(** @prop C61_cumulative_variance_nan: variance() and unbiased_variance() of the
    cumulative filter are NaN whenever a NaN was pushed since the last clear. *)
Lemma c61_cumulative : forall ops : list (op b64),
  In S754_nan (since_clear ops) ->
  let s := run (cvar_push b64num) (cvar_clear b64num) (cvar_init b64num) ops in
  cvar_variance b64num s = S754_nan /\ cvar_unbiased_variance b64num s = S754_nan.
Proof.
  intros ops H s.
  assert (E : cv_sum _ s = nan64).
  { refine (proj2 (sticky0 _ _ _ (fun s => cm_mean _ (cv_super _ s) = nan64 /\ cv_sum _ s = nan64) nan64 _ _ ops H));
      [apply cvar_push_nan|intros; apply cvar_push_stays; assumption]. }
  unfold cvar_variance, cvar_unbiased_variance. rewrite E. split; apply div_nan_l.
Qed.

(** @ex C61_cumulative_variance_nan_ex: a NaN between ordinary values. *)
Lemma c61_cumulative_ex :
  In S754_nan (since_clear [Push (b64_of_Z 4); Push S754_nan; Push (b64_of_Z 1)]).
Proof. right. left. reflexivity. Qed.

(** @prop C61_decay_variance_nan: variance() of the decay filter is NaN whenever
    a NaN was pushed since the last clear, for all factors accepted by the
    constructor. *)
Lemma c61_decay : forall (fm fv : b64) (ops : list (op b64)),
  b64_finite fm -> factor_ok b64num fm = true ->
  b64_finite fv -> factor_ok b64num fv = true ->
  In S754_nan (since_clear ops) ->
  dvar_variance b64num (run (dvar_push b64num) (dvar_clear b64num) (dvar_init b64num fm fv) ops) = S754_nan.
Proof.
  intros fm fv ops H1 H2 H3 H4 H. apply dv_bad_variance.
  assert (I0 : dv_inv (dvar_init b64num fm fv)).
  { split; [split; [apply factor_okf; assumption|apply okn_0]|].
    split; [apply factor_okf; assumption|apply okn_0]. }
  refine (sticky _ _ _ dv_inv dv_bad nan64 I0 _ _ _ _ ops H);
    intros; [apply dv_inv_push|apply dv_inv_clear|apply dv_push_nan|apply dv_push_stays]; assumption.
Qed.

(** @ex C61_decay_variance_nan_ex: the factors 1/4 and 1. *)
Lemma c61_decay_ex :
  let f := S754_finite false 4503599627370496 (-54) in
  b64_finite f /\ factor_ok b64num f = true /\
  b64_finite (b64_of_Z 1) /\ factor_ok b64num (b64_of_Z 1) = true /\
  In S754_nan (since_clear [Push (b64_of_Z 3); Push S754_nan; Push (b64_of_Z 1)]).
Proof.
  repeat split. right. left. reflexivity.
Qed.

(** @prop C61_window_variance_zero: window variance() and unbiased_variance()
    hide the NaN: for every capacity they are exactly 0 whenever a NaN was pushed
    since the last clear, because the clamping maximum with zero discards it. *)
Lemma c61_window_zero : forall (W : nat) (ops : list (op b64)), (0 < W)%nat ->
  In S754_nan (since_clear ops) ->
  let s := run (wvar_push b64num W) (wvar_clear b64num) (wvar_init b64num) ops in
  wvar_variance b64num s = b64_of_Z 0 /\ wvar_unbiased_variance b64num s = b64_of_Z 0.
Proof.
  intros W ops HW H s.
  assert (E : wv_sum _ s = nan64).
  { refine (proj2 (sticky0 _ _ _ (fun s => wm_mean _ (wv_super _ s) = nan64 /\ wv_sum _ s = nan64) nan64 _ _ ops H));
      [apply wvar_push_nan, HW|intros; apply wvar_push_stays; assumption]. }
  unfold wvar_variance, wvar_unbiased_variance. rewrite E.
  split; (destruct (N.ltb _ _); [|reflexivity]); rewrite div_nan_l; reflexivity.
Qed.

(** @ex C61_window_variance_zero_ex: capacity 3. *)
Lemma c61_window_zero_ex :
  (0 < 3)%nat /\
  In S754_nan (since_clear [Push (b64_of_Z 4); Push S754_nan; Push (b64_of_Z 1)]).
Proof. split; [lia|]. right. left. reflexivity. Qed.

(** @prop C61_window_variance_refuted: window variance() is not NaN after a NaN
    was pushed: with capacity 2 and the values NaN, 1 it is 0. *)
Lemma c61_window : exists (W : nat) (ops : list (op b64)),
  (0 < W)%nat /\ In S754_nan (since_clear ops) /\
  wvar_variance b64num (run (wvar_push b64num W) (wvar_clear b64num) (wvar_init b64num) ops) <> S754_nan.
Proof.
  exists 2%nat, [Push S754_nan; Push (b64_of_Z 1)]. split; [lia|]. split; [left; reflexivity|].
  vm_compute. discriminate.
Qed.
