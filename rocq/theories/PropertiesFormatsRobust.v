(** * Property theorems: FormatsRobust

    Statements only; every proof is [exact] of a lemma in ClaimsFormatsRobust.v.
    Generated by tools/mkprops.py. *)

From Coq Require Import Reals ZArith NArith List Bool.
From Coq Require Import Floats.SpecFloat.
From Flocq Require Import Core.
From Verif Require Import Arith History SpecStats SpecDecay SpecInequality SpecSensitivity Cumulative Window Decay Ieee.
Import ListNotations.
Local Open Scope R_scope.
(** A float of an integer. *)
Local Notation f32 z := (ieee_of_Z 24 128 z).
From Verif Require Import ClaimsFormatsRobust.

(** C97_ieee: in every IEEE format, with the error bounds [Em] and [Ev] of C110 for mean()
    and variance(): mean() exceeds the range of the values by at most [Em]; variance() is at
    most a quarter of the squared range plus [Ev]; every value is within
    sqrt((n-1)(variance() + Ev)) + Em of mean(); and at most n (variance() + Ev) / d^2 values
    are further than d + Em from mean(). *)
Theorem C97_ieee : forall (prec emax : Z) (ops : list (op spec_float)) (M : R),
  (1 < prec < emax)%Z ->
  let l := since_clear ops in
  let n := INR (length l) in
  let u := bpow radix2 (- prec) in
  let eta := bpow radix2 (2 - emax - prec) in
  let big := bpow radix2 (emax - 1) in
  l <> [] -> (N.of_nat (length l) < szmod)%N ->
  64 * n * u <= 1 -> 32 * n * eta <= M -> 16 * M + 60 * n * eta <= big -> 64 * n * (M * M) + 16 * n * eta <= big ->
  Forall (fun x => ieee_finite prec emax x /\ Rabs (ieee_real x) <= M) l ->
  let F := ieee prec emax in
  let s := run (cvar_push F) (cvar_clear F) (cvar_init F) ops in
  let m := ieee_real (cvar_mean F s) in
  let v := ieee_real (cvar_variance F s) in
  let Em := (n + 25) * u * M + (3 * n + 11) * eta in
  let Ev := 5 * ((14 * n + 308) * u * (M * M) + (3 * n + 13) * (10 * M) * eta + 3 * eta) in
  let lv := map ieee_real l in
  ieee_finite prec emax (cvar_mean F s) /\ ieee_finite prec emax (cvar_variance F s) /\
  (forall a b, all_in a b lv -> a - Em <= m <= b + Em /\ v <= (b - a) ^ 2 / 4 + Ev) /\
  (forall x, In x lv -> Rabs (x - m) <= sqrt ((n - 1) * (v + Ev)) + Em) /\
  (forall d, 0 <= d -> INR (far m (d + Em) lv) * d ^ 2 <= n * (v + Ev)).
Proof. exact c97_ieee. Qed.
Print Assumptions C97_ieee.

(** C97_ieee_ex: the floats 1, 2, 9: the mean is 4, one value is 5 away from it. *)
Example C97_ieee_ex :
  let l := since_clear [Push (f32 7); Clear; Push (f32 1); Push (f32 2); Push (f32 9)] in
  l = [f32 1; f32 2; f32 9] /\ 64 * 3 * bpow radix2 (- 24) <= 1 /\ 32 * 3 * bpow radix2 (2 - 128 - 24) <= 9 /\
  16 * 9 + 60 * 3 * bpow radix2 (2 - 128 - 24) <= bpow radix2 (128 - 1) /\
  64 * 3 * (9 * 9) + 16 * 3 * bpow radix2 (2 - 128 - 24) <= bpow radix2 (128 - 1) /\
  Forall (fun x => ieee_finite 24 128 x /\ Rabs (ieee_real x) <= 9) l /\
  all_in 1 9 (map ieee_real l) /\ far 4 5 (map ieee_real l) = 1%nat.
Proof. exact c97_ieee_ex. Qed.

(** C103_ieee_mean: in every IEEE format, for two histories whose values differ by at
    most d: the cumulative means differ by at most d, and the standard deviations by at most d,
    plus twice the rounding errors of C110. *)
Theorem C103_ieee_mean : forall (prec emax : Z) (d : R) (ops ops' : list (op spec_float)) (M : R),
  (1 < prec < emax)%Z ->
  perturbed d (map (op_map ieee_real) ops) (map (op_map ieee_real) ops') ->
  let l := since_clear ops in
  let n := INR (length l) in
  let u := bpow radix2 (- prec) in
  let eta := bpow radix2 (2 - emax - prec) in
  let big := bpow radix2 (emax - 1) in
  l <> [] -> (N.of_nat (length l) < szmod)%N ->
  64 * n * u <= 1 -> 32 * n * eta <= M -> 16 * M + 60 * n * eta <= big -> 64 * n * (M * M) + 16 * n * eta <= big ->
  Forall (fun x => ieee_finite prec emax x /\ Rabs (ieee_real x) <= M) l ->
  Forall (fun x => ieee_finite prec emax x /\ Rabs (ieee_real x) <= M) (since_clear ops') ->
  let F := ieee prec emax in
  let s := run (cvar_push F) (cvar_clear F) (cvar_init F) ops in
  let s' := run (cvar_push F) (cvar_clear F) (cvar_init F) ops' in
  let Em := (n + 25) * u * M + (3 * n + 11) * eta in
  let Ev := 5 * ((14 * n + 308) * u * (M * M) + (3 * n + 13) * (10 * M) * eta + 3 * eta) in
  Rabs (ieee_real (cvar_mean F s) - ieee_real (cvar_mean F s')) <= d + 2 * Em /\
  Rabs (sqrt (ieee_real (cvar_variance F s)) - sqrt (ieee_real (cvar_variance F s'))) <= d + 2 * sqrt Ev.
Proof. exact c103_ieee_mean. Qed.
Print Assumptions C103_ieee_mean.

(** C103_ieee_mean_ex: three floats, the second history off by at most 1. *)
Example C103_ieee_mean_ex :
  let ops := [Push (f32 7); Clear; Push (f32 1); Push (f32 2); Push (f32 9)] in
  let ops' := [Push (f32 7); Clear; Push (f32 1); Push (f32 3); Push (f32 8)] in
  perturbed 1 (map (op_map ieee_real) ops) (map (op_map ieee_real) ops') /\
  since_clear ops = [f32 1; f32 2; f32 9] /\ 64 * 3 * bpow radix2 (- 24) <= 1 /\ 32 * 3 * bpow radix2 (2 - 128 - 24) <= 9 /\
  16 * 9 + 60 * 3 * bpow radix2 (2 - 128 - 24) <= bpow radix2 (128 - 1) /\
  64 * 3 * (9 * 9) + 16 * 3 * bpow radix2 (2 - 128 - 24) <= bpow radix2 (128 - 1) /\
  Forall (fun x => ieee_finite 24 128 x /\ Rabs (ieee_real x) <= 9) (since_clear ops) /\
  Forall (fun x => ieee_finite 24 128 x /\ Rabs (ieee_real x) <= 9) (since_clear ops').
Proof. exact c103_ieee_mean_ex. Qed.

(** C103_ieee_window_mean: likewise the window mean, after [n] pushes since the last
    clear, with the rounding errors of C110. *)
Theorem C103_ieee_window_mean : forall (prec emax : Z) (W : nat) (d : R) (ops ops' : list (op spec_float)) (M : R),
  (1 < prec < emax)%Z ->
  perturbed d (map (op_map ieee_real) ops) (map (op_map ieee_real) ops') ->
  let l := since_clear ops in
  let n := INR (length l) in
  let u := bpow radix2 (- prec) in
  let eta := bpow radix2 (2 - emax - prec) in
  let big := bpow radix2 (emax - 1) in
  (0 < W)%nat -> (Z.of_nat W <= 2 ^ prec)%Z -> (N.of_nat W < szmod)%N ->
  l <> [] -> 16 * n * u <= 1 -> 16 * M + 60 * n * eta <= big ->
  Forall (fun x => ieee_finite prec emax x /\ Rabs (ieee_real x) <= M) l ->
  Forall (fun x => ieee_finite prec emax x /\ Rabs (ieee_real x) <= M) (since_clear ops') ->
  let F := ieee prec emax in
  let m := wmean_mean F (run (wmean_push F W) (wmean_clear F) (wmean_init F) ops) in
  let m' := wmean_mean F (run (wmean_push F W) (wmean_clear F) (wmean_init F) ops') in
  Rabs (ieee_real m - ieee_real m') <= d + 2 * (n * (26 * u * M + 14 * eta)).
Proof. exact c103_ieee_window_mean. Qed.
Print Assumptions C103_ieee_window_mean.

(** C103_ieee_window_mean_ex: a window of two floats. *)
Example C103_ieee_window_mean_ex :
  let ops := [Push (f32 7); Clear; Push (f32 1); Push (f32 2); Push (f32 9)] in
  let ops' := [Push (f32 7); Clear; Push (f32 1); Push (f32 3); Push (f32 8)] in
  perturbed 1 (map (op_map ieee_real) ops) (map (op_map ieee_real) ops') /\
  (Z.of_nat 2 <= 2 ^ 24)%Z /\ lastn 2 (since_clear ops) = [f32 2; f32 9] /\ 16 * 3 * bpow radix2 (- 24) <= 1 /\
  16 * 9 + 60 * 3 * bpow radix2 (2 - 128 - 24) <= bpow radix2 (128 - 1) /\
  Forall (fun x => ieee_finite 24 128 x /\ Rabs (ieee_real x) <= 9) (since_clear ops) /\
  Forall (fun x => ieee_finite 24 128 x /\ Rabs (ieee_real x) <= 9) (since_clear ops').
Proof. exact c103_ieee_window_mean_ex. Qed.

(** C103_ieee_decay_mean: likewise the mean of the decay filter, however many values are
    pushed. *)
Theorem C103_ieee_decay_mean : forall (prec emax : Z) (f : spec_float) (d : R) (l l' : list spec_float) (M : R),
  (1 < prec < emax)%Z ->
  let u := bpow radix2 (- prec) in
  let eta := bpow radix2 (2 - emax - prec) in
  let big := bpow radix2 (emax - 1) in
  let fv := ieee_real f in
  ieee_finite prec emax f -> 0 < fv <= 1 -> 104 * u <= fv -> 56 * eta <= fv * fv ->
  l <> [] -> 16 * (M + 1) <= big -> 32 <= big ->
  nearby d (map ieee_real l) (map ieee_real l') ->
  Forall (fun x => ieee_finite prec emax x /\ Rabs (ieee_real x) <= M) l ->
  Forall (fun x => ieee_finite prec emax x /\ Rabs (ieee_real x) <= M) l' ->
  let F := ieee prec emax in
  let m := dmean_mean F (run (dmean_push F) (dmean_clear F) (dmean_init F f) (pushes l)) in
  let m' := dmean_mean F (run (dmean_push F) (dmean_clear F) (dmean_init F f) (pushes l')) in
  Rabs (ieee_real m - ieee_real m') <= d + 2 * (209 * u * M / fv + 57 * eta * (1 + M) / (fv * fv)).
Proof. exact c103_ieee_decay_mean. Qed.
Print Assumptions C103_ieee_decay_mean.

(** C103_ieee_decay_mean_ex: factor 1/2, two floats. *)
Example C103_ieee_decay_mean_ex :
  let f := @ndiv (ieee 24 128) (f32 1) (f32 2) in
  ieee_finite 24 128 f /\ ieee_real f = / 2 /\ 104 * bpow radix2 (- 24) <= / 2 /\ 56 * bpow radix2 (2 - 128 - 24) <= / 2 * / 2 /\
  16 * (1000000 + 1) <= bpow radix2 (128 - 1) /\ 32 <= bpow radix2 (128 - 1) /\
  nearby 2 (map ieee_real [f32 1000000; f32 (-7)]) (map ieee_real [f32 999999; f32 (-5)]) /\
  Forall (fun x => ieee_finite 24 128 x /\ Rabs (ieee_real x) <= 1000000) [f32 1000000; f32 (-7)] /\
  Forall (fun x => ieee_finite 24 128 x /\ Rabs (ieee_real x) <= 1000000) [f32 999999; f32 (-5)].
Proof. exact c103_ieee_decay_mean_ex. Qed.
