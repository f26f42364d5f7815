(** * Property theorems: NaN

    Statements only; every proof is [exact] of a lemma in ClaimsNaN.v.
    Generated by tools/mkprops.py. *)

From Coq Require Import Reals ZArith NArith List Bool.
From Coq Require Import Floats.SpecFloat.
From Verif Require Import Arith History SpecStats Cumulative Window Decay Interim Impulse
  ImpulseRuns Binary64.
Import ListNotations.
From Verif Require Import ClaimsNaN.

(** C59_cumulative_nan: mean() of each of the four cumulative moment
    filters is NaN whenever a NaN was pushed since the last clear, whatever was
    pushed before and after it. *)
Theorem C59_cumulative_nan : forall ops : list (op b64),
  In S754_nan (since_clear ops) ->
  cmean_mean b64num (run (cmean_push b64num) (cmean_clear b64num) (cmean_init b64num) ops) = S754_nan /\
  cvar_mean b64num (run (cvar_push b64num) (cvar_clear b64num) (cvar_init b64num) ops) = S754_nan /\
  cskew_mean b64num (run (cskew_push b64num) (cskew_clear b64num) (cskew_init b64num) ops) = S754_nan /\
  ckurt_mean b64num (run (ckurt_push b64num) (ckurt_clear b64num) (ckurt_init b64num) ops) = S754_nan.
Proof. exact c59_cumulative. Qed.
Print Assumptions C59_cumulative_nan.

(** C59_cumulative_nan_ex: a NaN followed by three ordinary values. *)
Example C59_cumulative_nan_ex :
  In S754_nan (since_clear [Push (b64_of_Z 4); Clear; Push S754_nan; Push (b64_of_Z 1);
                            Push (b64_of_Z 2); Push (b64_of_Z 3)]).
Proof. exact c59_cumulative_ex. Qed.

(** C59_window_nan: for every window capacity, mean() of the window filters
    is NaN whenever a NaN was pushed since the last clear, even after the NaN
    itself has left the window. *)
Theorem C59_window_nan : forall (W : nat) (ops : list (op b64)), (0 < W)%nat ->
  In S754_nan (since_clear ops) ->
  wmean_mean b64num (run (wmean_push b64num W) (wmean_clear b64num) (wmean_init b64num) ops) = S754_nan /\
  wvar_mean b64num (run (wvar_push b64num W) (wvar_clear b64num) (wvar_init b64num) ops) = S754_nan.
Proof. exact c59_window. Qed.
Print Assumptions C59_window_nan.

(** C59_window_nan_ex: capacity 2; the window holds 1 and 2 but the history
    contains the NaN. *)
Example C59_window_nan_ex :
  let ops := [Push S754_nan; Push (b64_of_Z 1); Push (b64_of_Z 2)] in
  (0 < 2)%nat /\ In S754_nan (since_clear ops) /\
  wm_window b64num (run (wmean_push b64num 2) (wmean_clear b64num) (wmean_init b64num) ops) =
  [b64_of_Z 1; b64_of_Z 2].
Proof. exact c59_window_ex. Qed.

(** C59_decay_nan: for all factors accepted by the constructors, mean() of
    each decay filter is NaN whenever a NaN was pushed since the last clear. *)
Theorem C59_decay_nan : forall (fm fv fs fk : b64) (ops : list (op b64)),
  b64_finite fm -> factor_ok b64num fm = true ->
  In S754_nan (since_clear ops) ->
  dmean_mean b64num (run (dmean_push b64num) (dmean_clear b64num) (dmean_init b64num fm) ops) = S754_nan /\
  dvar_mean b64num (run (dvar_push b64num) (dvar_clear b64num) (dvar_init b64num fm fv) ops) = S754_nan /\
  dskew_mean b64num (run (dskew_push b64num) (dskew_clear b64num) (dskew_init b64num fm fv fs) ops) = S754_nan /\
  dkurt_mean b64num (run (dkurt_push b64num) (dkurt_clear b64num) (dkurt_init b64num fm fv fs fk) ops) = S754_nan.
Proof. exact c59_decay. Qed.
Print Assumptions C59_decay_nan.

(** C59_decay_nan_ex: the factor 1/4. *)
Example C59_decay_nan_ex :
  let f := S754_finite false 4503599627370496 (-54) in
  b64_finite f /\ factor_ok b64num f = true /\
  In S754_nan (since_clear [Push (b64_of_Z 3); Push S754_nan; Push (b64_of_Z 1)]).
Proof. exact c59_decay_ex. Qed.

(** C59_iir_nan: value() of an infinite impulse response filter with
    feedback is NaN whenever a NaN was pushed since the last clear. *)
Theorem C59_iir_nan : forall (b a : list b64) (scale : b64) (ops : list (op b64)),
  b <> [] -> a <> [] ->
  In S754_nan (since_clear ops) ->
  iir_value b64num (iir_run b64num b a scale ops) = S754_nan.
Proof. exact c59_iir. Qed.
Print Assumptions C59_iir_nan.

(** C59_iir_nan_ex: y = x + y' / 2. *)
Example C59_iir_nan_ex :
  let b := [b64_of_Z 2] in let a := [b64_of_Z (-1)] in
  b <> [] /\ a <> [] /\
  In S754_nan (since_clear [Push (b64_of_Z 3); Push S754_nan; Push (b64_of_Z 1)]) /\
  iir_value b64num (iir_run b64num b a (b64_of_Z 2) [Push (b64_of_Z 3)]) = b64_of_Z 3.
Proof. exact c59_iir_ex. Qed.

(** C59_fir_nan: value() of a finite impulse response filter with P
    coefficients is NaN while a NaN is among the last P values since the last
    clear; once it is not, value() is that of a filter given only the last P
    values (which contain no NaN). *)
Theorem C59_fir_nan : forall (c : list b64) (ops : list (op b64)), c <> [] ->
  let l := lastn (length c) (since_clear ops) in
  (In S754_nan l -> fir_value b64num (fir_run b64num c ops) = S754_nan) /\
  ((length c <= length (since_clear ops))%nat ->
   fir_value b64num (fir_run b64num c ops) = fir_value b64num (fir_run b64num c (pushes l))).
Proof. exact c59_fir. Qed.
Print Assumptions C59_fir_nan.

(** C59_fir_nan_ex: two coefficients 1, 1: NaN while it is one of the last
    two values, 3 afterwards. *)
Example C59_fir_nan_ex :
  let c := [b64_of_Z 1; b64_of_Z 1] in
  let ops := [Push S754_nan; Push (b64_of_Z 1)] in
  let ops' := [Push S754_nan; Push (b64_of_Z 1); Push (b64_of_Z 2)] in
  c <> [] /\ In S754_nan (lastn (length c) (since_clear ops)) /\
  (length c <= length (since_clear ops'))%nat /\
  fir_value b64num (fir_run b64num c ops') = b64_of_Z 3.
Proof. exact c59_fir_ex. Qed.

(** C59_interim_nan: interim mean() with window W is NaN while a NaN is
    among the last W+1 values since the last clear. *)
Theorem C59_interim_nan : forall (W : nat) (ops : list (op b64)),
  (0 < W)%nat -> (N.of_nat W < szmod)%N ->
  In S754_nan (lastn (W + 1) (since_clear ops)) ->
  imean_mean b64num (N.of_nat W)
    (run (imean_push b64num (N.of_nat W)) (imean_clear b64num) (imean_init b64num) ops) = S754_nan.
Proof. exact c59_interim. Qed.
Print Assumptions C59_interim_nan.

(** C59_interim_nan_ex: window 2, NaN first of three values. *)
Example C59_interim_nan_ex :
  (0 < 2)%nat /\ (N.of_nat 2 < szmod)%N /\
  In S754_nan (lastn (2 + 1) (since_clear [Push S754_nan; Push (b64_of_Z 1); Push (b64_of_Z 2)])).
Proof. exact c59_interim_ex. Qed.

(** C59_interim_recovers: for every arithmetic, two histories with the same
    number of values since the last clear and the same last 2W of them give the
    same mean(): once the NaN is older than 2W values it has no effect, mean() is
    as if an ordinary value had been pushed instead. *)
Theorem C59_interim_recovers : forall (F : num) (W : nat) (ops1 ops2 : list (op F)),
  (0 < W)%nat -> (N.of_nat W < szmod)%N ->
  length (since_clear ops1) = length (since_clear ops2) ->
  lastn (2 * W) (since_clear ops1) = lastn (2 * W) (since_clear ops2) ->
  imean_mean F (N.of_nat W)
    (run (imean_push F (N.of_nat W)) (imean_clear F) (imean_init F) ops1) =
  imean_mean F (N.of_nat W)
    (run (imean_push F (N.of_nat W)) (imean_clear F) (imean_init F) ops2).
Proof. exact c59_interim_recovers. Qed.
Print Assumptions C59_interim_recovers.

(** C59_interim_recovers_ex: window 2: a NaN, then 1, 2, 4 and 6; mean() is 5
    again. *)
Example C59_interim_recovers_ex :
  let ops1 := [Push S754_nan; Push (b64_of_Z 1); Push (b64_of_Z 2); Push (b64_of_Z 4); Push (b64_of_Z 6)] in
  let ops2 := [Push (b64_of_Z 7); Push (b64_of_Z 1); Push (b64_of_Z 2); Push (b64_of_Z 4); Push (b64_of_Z 6)] in
  (0 < 2)%nat /\ (N.of_nat 2 < szmod)%N /\
  length (since_clear ops1) = length (since_clear ops2) /\
  lastn (2 * 2) (since_clear ops1) = lastn (2 * 2) (since_clear ops2) /\
  imean_mean b64num 2
    (run (imean_push b64num 2) (imean_clear b64num) (imean_init b64num) ops1) = b64_of_Z 5.
Proof. exact c59_interim_recovers_ex. Qed.

(** C61_cumulative_variance_nan: variance() and unbiased_variance() of the
    cumulative filter are NaN whenever a NaN was pushed since the last clear. *)
Theorem C61_cumulative_variance_nan : forall ops : list (op b64),
  In S754_nan (since_clear ops) ->
  let s := run (cvar_push b64num) (cvar_clear b64num) (cvar_init b64num) ops in
  cvar_variance b64num s = S754_nan /\ cvar_unbiased_variance b64num s = S754_nan.
Proof. exact c61_cumulative. Qed.
Print Assumptions C61_cumulative_variance_nan.

(** C61_cumulative_variance_nan_ex: a NaN between ordinary values. *)
Example C61_cumulative_variance_nan_ex :
  In S754_nan (since_clear [Push (b64_of_Z 4); Push S754_nan; Push (b64_of_Z 1)]).
Proof. exact c61_cumulative_ex. Qed.

(** C61_decay_variance_nan: variance() of the decay filter is NaN whenever
    a NaN was pushed since the last clear, for all factors accepted by the
    constructor. *)
Theorem C61_decay_variance_nan : forall (fm fv : b64) (ops : list (op b64)),
  b64_finite fm -> factor_ok b64num fm = true ->
  b64_finite fv -> factor_ok b64num fv = true ->
  In S754_nan (since_clear ops) ->
  dvar_variance b64num (run (dvar_push b64num) (dvar_clear b64num) (dvar_init b64num fm fv) ops) = S754_nan.
Proof. exact c61_decay. Qed.
Print Assumptions C61_decay_variance_nan.

(** C61_decay_variance_nan_ex: the factors 1/4 and 1. *)
Example C61_decay_variance_nan_ex :
  let f := S754_finite false 4503599627370496 (-54) in
  b64_finite f /\ factor_ok b64num f = true /\
  b64_finite (b64_of_Z 1) /\ factor_ok b64num (b64_of_Z 1) = true /\
  In S754_nan (since_clear [Push (b64_of_Z 3); Push S754_nan; Push (b64_of_Z 1)]).
Proof. exact c61_decay_ex. Qed.

(** C61_window_variance_zero: window variance() and unbiased_variance()
    hide the NaN: for every capacity they are exactly 0 whenever a NaN was pushed
    since the last clear, because the clamping maximum with zero discards it. *)
Theorem C61_window_variance_zero : forall (W : nat) (ops : list (op b64)), (0 < W)%nat ->
  In S754_nan (since_clear ops) ->
  let s := run (wvar_push b64num W) (wvar_clear b64num) (wvar_init b64num) ops in
  wvar_variance b64num s = b64_of_Z 0 /\ wvar_unbiased_variance b64num s = b64_of_Z 0.
Proof. exact c61_window_zero. Qed.
Print Assumptions C61_window_variance_zero.

(** C61_window_variance_zero_ex: capacity 3. *)
Example C61_window_variance_zero_ex :
  (0 < 3)%nat /\
  In S754_nan (since_clear [Push (b64_of_Z 4); Push S754_nan; Push (b64_of_Z 1)]).
Proof. exact c61_window_zero_ex. Qed.

(** C61_window_variance_refuted: window variance() is not NaN after a NaN
    was pushed: with capacity 2 and the values NaN, 1 it is 0. *)
Theorem C61_window_variance_refuted : exists (W : nat) (ops : list (op b64)),
  (0 < W)%nat /\ In S754_nan (since_clear ops) /\
  wvar_variance b64num (run (wvar_push b64num W) (wvar_clear b64num) (wvar_init b64num) ops) <> S754_nan.
Proof. exact c61_window. Qed.
Print Assumptions C61_window_variance_refuted.
