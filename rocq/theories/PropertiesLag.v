(** * Property theorems: Lag

    Statements only; every proof is [exact] of a lemma in ClaimsLag.v.
    Generated by tools/mkprops.py. *)

From Coq Require Import Reals ZArith NArith Bool List.
From Verif Require Import Arith History SpecStats SpecLine Cumulative Window Interim Decay Impulse
  ExactRuns WindowRuns InterimRuns DecayRuns ImpulseRuns.
Import ListNotations.
Local Open Scope R_scope.
From Verif Require Import ClaimsLag.

(** C107_jump: the data jump to a new level b and stay there for k pushes,
    after p values of any kind with mean m (weighted mean, for decay) since the
    last clear. Cumulative mean(): b + p/(p+k) (m - b). Decay mean(), with
    q = 1 - f: b + q^k (1-q^p)/(1-q^(p+k)) (m - b). Window mean(): exactly b from k = W on,
    interim mean(): exactly b from k = 2W on. Finite impulse response: b times the
    sum of the coefficients from k = their number on. *)
Theorem C107_jump : forall (eps f b : R) (W k : nat) (c : list R) (h : list (op R)),
  let l := since_clear h in
  let p := length l in
  let ops := h ++ pushes (repeat b k) in
  (0 < p)%nat -> (0 < k)%nat -> (N.of_nat (p + k) < szmod)%N -> (0 < W)%nat -> (2 * N.of_nat W < szmod)%N ->
  0 < f <= 1 -> c <> [] ->
  (exists m, cmean_mean _ (run_cmean eps h) = Fin m /\
     cmean_mean _ (run_cmean eps ops) = Fin (b + INR p / INR (p + k) * (m - b))) /\
  (exists m, dmean_mean _ (run_dmean eps f h) = Fin m /\
     dmean_mean _ (run_dmean eps f ops) =
       Fin (b + (1 - f) ^ k * (1 - (1 - f) ^ p) / (1 - (1 - f) ^ (p + k)) * (m - b))) /\
  ((W <= k)%nat -> wmean_mean _ (run_wmean eps W ops) = Fin b) /\
  ((2 * W <= k)%nat -> imean_mean _ (N.of_nat W) (run_imean eps W ops) = Fin b) /\
  ((length c <= k)%nat -> fir_value _ (run_fir eps c ops) = Fin (b * Rsum c)).
Proof. exact c107_jump. Qed.
Print Assumptions C107_jump.

(** C107_jump_ex: two values before the jump to 5, eight after it. *)
Example C107_jump_ex :
  let h := [Push 9; Clear; Push 1; Push 3] in
  length (since_clear h) = 2%nat /\ (0 < 8)%nat /\ (N.of_nat (2 + 8) < szmod)%N /\ (2 * 4 <= 8)%nat /\
  (2 * N.of_nat 4 < szmod)%N /\ 0 < / 2 <= 1 /\ [1; 2] <> [] /\ mean (since_clear h) = 2 /\ 5 + INR 2 / INR (2 + 8) * (2 - 5) = 22 / 5.
Proof. exact c107_jump_ex. Qed.

(** C107_ramp: the data grow by b from one value to the next, n of them since
    the last clear, x the latest: the cumulative mean() lags behind by b (n-1)/2,
    the window and interim mean() by b (min(n,W)-1)/2, the decay mean() by
    b ((1-f)/f - n (1-f)^n / (1-(1-f)^n)), and a finite impulse response with
    coefficients c_i reports x sum c_i - b sum i c_i once n reaches their number. *)
Theorem C107_ramp : forall (eps a b f : R) (W : nat) (c : list R) (ops : list (op R)),
  let l := since_clear ops in
  let n := length l in
  let x := a + b * (INR n - 1) in
  on_line a b l -> (0 < n)%nat -> (N.of_nat n < szmod)%N -> (0 < W)%nat -> (2 * N.of_nat W < szmod)%N ->
  0 < f <= 1 -> c <> [] ->
  cmean_mean _ (run_cmean eps ops) = Fin (x - b * ((INR n - 1) / 2)) /\
  wmean_mean _ (run_wmean eps W ops) = Fin (x - b * ((INR (Nat.min n W) - 1) / 2)) /\
  imean_mean _ (N.of_nat W) (run_imean eps W ops) = Fin (x - b * ((INR (Nat.min n W) - 1) / 2)) /\
  dmean_mean _ (run_dmean eps f ops) = Fin (x - b * ((1 - f) / f - INR n * (1 - f) ^ n / (1 - (1 - f) ^ n))) /\
  ((length c <= n)%nat ->
   fir_value _ (run_fir eps c ops) = Fin (x * Rsum c - b * Rsum (map (fun p => INR (fst p) * snd p) (combine (seq 0 (length c)) c)))).
Proof. exact c107_ramp. Qed.
Print Assumptions C107_ramp.

(** C107_ramp_ex: 1, 3, 5, 7 after a clear; coefficients 1/2, 1/2 report the
    value half a step ago. *)
Example C107_ramp_ex :
  let ops := [Push 9; Clear; Push 1; Push 3; Push 5; Push 7] in
  let c := [/ 2; / 2] in
  on_line 1 2 (since_clear ops) /\ length (since_clear ops) = 4%nat /\ (N.of_nat 4 < szmod)%N /\ (2 * N.of_nat 3 < szmod)%N /\
  0 < / 2 <= 1 /\ c <> [] /\
  (1 + 2 * (INR 4 - 1)) * Rsum c - 2 * Rsum (map (fun p => INR (fst p) * snd p) (combine (seq 0 (length c)) c)) = 6.
Proof. exact c107_ramp_ex. Qed.
