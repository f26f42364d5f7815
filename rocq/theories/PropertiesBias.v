(** * Property theorems: Bias

    Statements only; every proof is [exact] of a lemma in ClaimsBias.v.
    Generated by tools/mkprops.py. *)

From Coq Require Import Reals ZArith NArith List Bool.
From Verif Require Import Arith History SpecStats SpecExpectation SpecDecay Interim Decay ExactRuns InterimRuns DecayRuns.
Import ListNotations.
Local Open Scope R_scope.
From Verif Require Import ClaimsBias.

(** C106_interim: n independent observations after a clear(), more than W of
    them, s in the current block: the expected value of variance() of the interim
    filter is the variance of the distribution times the weighted average, with
    weights (W-s+1)^2 and 2(s-1), of (W-1)/W and (s-1)/s; with up to W
    observations it is (n-1)/n times the variance. *)
Theorem C106_interim : forall (eps : R) (D : dist R) (n W : nat) (h : list (op R)),
  probability D -> (0 < n)%nat -> (0 < W)%nat -> (N.of_nat W <= 4294967296)%N ->
  let out l := ivar_variance _ (N.of_nat W) (run_ivar eps W (h ++ Clear :: pushes l)) in
  let s := INR ((n - 1) mod W + 1) in
  let wp := (INR W - s + 1) ^ 2 in
  let wa := 2 * (s - 1) in
  ((n <= W)%nat -> expected (repeat D n) out ((INR n - 1) / INR n * pop_variance D)) /\
  ((W < n)%nat -> expected (repeat D n) out
    ((wp * ((INR W - 1) / INR W) + wa * ((s - 1) / s)) / (wp + wa) * pop_variance D)).
Proof. exact c106_interim. Qed.
Print Assumptions C106_interim.

(** C106_interim_ex: window of four values, six observations: weights 9 and 2. *)
Example C106_interim_ex :
  let D := [(/ 2, 1); (/ 4, 3); (/ 4, 4)] in
  probability D /\ (4 < 6)%nat /\ (N.of_nat 4 <= 4294967296)%N /\ ((6 - 1) mod 4 + 1 = 2)%nat.
Proof. exact c106_interim_ex. Qed.

(** C106_decay: n independent observations pushed to a new decay filter: the
    expected value of variance() is the variance of the distribution times the
    weighted mean, with the factor of the variance, of the numbers
    1 - f (3-2f-(1-f)^i) / ((2-f) (1-(1-f)^i)), where f is the factor of the mean
    and i = 1 .. n. *)
Theorem C106_decay : forall (eps : R) (D : dist R) (n : nat) (f fv : R),
  0 < eps -> probability D -> (0 < n)%nat -> 0 < f <= 1 -> 0 < fv <= 1 ->
  expected (repeat D n) (fun l => dvar_variance _ (run_dvar eps f fv (pushes l)))
    (pop_variance D * ewma fv (map (fun i => 1 - f * (3 - 2 * f - (1 - f) ^ i) / ((2 - f) * (1 - (1 - f) ^ i))) (seq 1 n))).
Proof. exact c106_decay. Qed.
Print Assumptions C106_decay.

(** C106_decay_ex: both factors 1/2, three observations: the terms are 0, 2/9
    and 2/7. *)
Example C106_decay_ex :
  let f := / 2 in
  probability [(/ 2, 1); (/ 4, 3); (/ 4, 4)] /\ 0 < f <= 1 /\
  map (fun i => 1 - f * (3 - 2 * f - (1 - f) ^ i) / ((2 - f) * (1 - (1 - f) ^ i))) (seq 1 3) = [0; 2 / 9; 2 / 7].
Proof. exact c106_decay_ex. Qed.

(** C106_decay_low: hence variance() of a decay filter underestimates: its
    expected value never exceeds 2 (1-f)^2 / (2-f) times the variance of the
    distribution, however many observations. *)
Theorem C106_decay_low : forall (eps : R) (D : dist R) (n : nat) (f fv : R),
  0 < eps -> probability D -> (0 < n)%nat -> 0 < f <= 1 -> 0 < fv <= 1 ->
  exists v, expected (repeat D n) (fun l => dvar_variance _ (run_dvar eps f fv (pushes l))) v /\
    0 <= v <= 2 * (1 - f) ^ 2 / (2 - f) * pop_variance D.
Proof. exact c106_low. Qed.
Print Assumptions C106_decay_low.

(** C106_decay_low_ex: with factor 1/2 at most a third of the variance. *)
Example C106_decay_low_ex :
  probability [(/ 2, 1); (/ 4, 3); (/ 4, 4)] /\ (0 < 1000)%nat /\ 0 < / 2 <= 1 /\ 2 * (1 - / 2) ^ 2 / (2 - / 2) = / 3.
Proof. exact c106_low_ex. Qed.

(** C106_decay_limit: the bound is sharp: with enough observations the
    expected value of variance() is as close to 2 (1-f)^2 / (2-f) times the
    variance of the distribution as desired. *)
Theorem C106_decay_limit : forall (eps : R) (D : dist R) (f fv d : R),
  0 < eps -> probability D -> 0 < f <= 1 -> 0 < fv <= 1 -> 0 < d ->
  exists n0, forall n, (n0 <= n)%nat -> exists v,
    expected (repeat D n) (fun l => dvar_variance _ (run_dvar eps f fv (pushes l))) v /\
    2 * (1 - f) ^ 2 / (2 - f) * pop_variance D - d <= v.
Proof. exact c106_limit. Qed.
Print Assumptions C106_decay_limit.

(** C106_decay_limit_ex: factor 1/10, distance 1/100. *)
Example C106_decay_limit_ex :
  0 < 1 /\ probability [(/ 2, 1); (/ 4, 3); (/ 4, 4)] /\ 0 < / 10 <= 1 /\ 0 < / 100 /\
  2 * (1 - / 10) ^ 2 / (2 - / 10) = 81 / 95.
Proof. exact c106_limit_ex. Qed.
