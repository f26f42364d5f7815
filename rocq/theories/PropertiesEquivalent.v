(** * Property theorems: Equivalent

    Statements only; every proof is [exact] of a lemma in ClaimsEquivalent.v.
    Generated by tools/mkprops.py. *)

From Coq Require Import Reals ZArith NArith List.
From Coq Require Import Floats.SpecFloat.
From Flocq Require Import Core.
From Verif Require Import Arith History SpecStats SpecBlocks SpecDecay SpecImpulse Cumulative Window Interim Decay Impulse Rounded Binary64 ExactRuns WindowRuns InterimRuns DecayRuns ImpulseRuns.
Import ListNotations.
Local Open Scope R_scope.
From Verif Require Import ClaimsEquivalent.

(** C120_window_mean: the finite filter with [W] coefficients [1/W] gives the mean of
    window::moment over [W] values once it is full, and before that the mean times the
    filled part of the window. *)
Theorem C120_window_mean : forall (eps : R) (W : nat) (ops : list (op R)),
  (0 < W)%nat -> (N.of_nat W < szmod)%N -> since_clear ops <> [] ->
  let n := length (since_clear ops) in
  let s := run_wmean eps W ops in
  exists m : R,
    wmean_mean _ s = Fin m /\
    fir_value _ (run_fir eps (repeat (/ INR W) W) ops) = Fin (INR (Nat.min W n) / INR W * m) /\
    (wmean_full _ W s = true -> fir_value _ (run_fir eps (repeat (/ INR W) W) ops) = Fin m).
Proof. exact c120_window. Qed.
Print Assumptions C120_window_mean.

(** C120_window_mean_ex: windows of 4 after a clear: after 2, 4 the mean is 3 and the
    filter gives 3/2; after 1, 2, 3, 4, 6 both give 15/4. *)
Example C120_window_mean_ex :
  let ops := [Push 9; Clear; Push 1; Push 2; Push 3; Push 4; Push 6] in
  (0 < 4)%nat /\ (N.of_nat 4 < szmod)%N /\ since_clear ops <> [] /\
  mean (lastn 4 (since_clear ops)) = 15 / 4 /\ mean (lastn 4 [2; 4]) = 3 /\ INR (Nat.min 4 2) / INR 4 * 3 = 3 / 2.
Proof. exact c120_window_ex. Qed.

(** C120_window_mean_binary64: in double, with coefficients that are [1/W] up to
    a relative error of 2^-53 (the quotient 1.0 / W is), a full window of at most 2^49
    values since the last clear, of magnitude at most [M <= 2^1018], both results are
    finite and differ by at most [(30 n + 9) 2^-53 M + 20 n 2^-1075]. *)
Theorem C120_window_mean_binary64 : forall (W : nat) (c : list b64) (ops : list (op b64)) (M : R),
  let l := since_clear ops in
  let n := INR (length l) in
  length c = W -> (0 < W <= length l)%nat -> (Z.of_nat (length l) <= 2 ^ 49)%Z -> M <= bpow radix2 1018 ->
  Forall (fun k => b64_finite k /\ Rabs (INR W * b64_real k - 1) <= bpow radix2 (-53)) c ->
  Forall (fun x => b64_finite x /\ Rabs (b64_real x) <= M) l ->
  let m := wmean_mean b64num (run (wmean_push b64num W) (wmean_clear b64num) (wmean_init b64num) ops) in
  let v := fir_value b64num (fir_run b64num c ops) in
  b64_finite m /\ b64_finite v /\
  Rabs (b64_real v - b64_real m) <= (30 * n + 9) * bpow radix2 (-53) * M + 20 * n * bpow radix2 (-1075).
Proof. exact c120_binary64. Qed.
Print Assumptions C120_window_mean_binary64.

(** C120_window_mean_binary64_ex: coefficients 1.0 / 3 and four values, window 3. *)
Example C120_window_mean_binary64_ex :
  let c := repeat (@ndiv b64num (b64_of_Z 1) (b64_of_Z 3)) 3 in
  let l := since_clear (Push (b64_of_Z 9) :: Clear :: map Push (map b64_of_Z [1; 2; 4; 8]%Z)) in
  length c = 3%nat /\ (0 < 3 <= length l)%nat /\ (Z.of_nat (length l) <= 2 ^ 49)%Z /\ 8 <= bpow radix2 1018 /\
  Forall (fun k => b64_finite k /\ Rabs (INR 3 * b64_real k - 1) <= bpow radix2 (-53)) c /\
  Forall (fun x => b64_finite x /\ Rabs (b64_real x) <= 8) l.
Proof. exact c120_binary64_ex. Qed.

(** C120_decay_mean: the infinite filter y = f x + (1 - f) y' gives the mean of
    decay::moment with factor [f] times [1 - (1 - f)^n]: the decay filter is this smoother
    without the start-up bias. *)
Theorem C120_decay_mean : forall (eps f : R) (ops : list (op R)),
  0 < f <= 1 -> since_clear ops <> [] ->
  let n := length (since_clear ops) in
  exists m : R,
    dmean_mean _ (run_dmean eps f ops) = Fin m /\
    iir_value _ (run_iir eps [f] [- (1 - f)] 1 ops) = Fin ((1 - (1 - f) ^ n) * m).
Proof. exact c120_decay. Qed.
Print Assumptions C120_decay_mean.

(** C120_decay_mean_ex: factor 1/2 after a clear: 1, 4 have the mean 3; the smoother
    gives 9/4. *)
Example C120_decay_mean_ex :
  let ops := [Push 7; Clear; Push 1; Push 4] in
  0 < 1 / 2 <= 1 /\ since_clear ops <> [] /\
  difference_equation [1 / 2] [- (1 - 1 / 2)] 1 [1; 4] [1 / 2; 9 / 4] /\ (1 - (1 - 1 / 2) ^ 2) * 3 = 9 / 4.
Proof. exact c120_decay_ex. Qed.

(** C120_superposition: the means of all filters and the trend are linear: with
    [u x + v y] they report [u] times what they report for [x] plus [v] times what they
    report for [y], for every history of pairs (x, y) of which one filter is given the
    first, one the second member and one the combination. *)
Theorem C120_superposition : forall (eps u v f : R) (W : nat) (ops : list (op (R * R))),
  (0 < W)%nat -> (2 * N.of_nat W < szmod)%N -> 0 < f <= 1 -> fits (since_clear ops) -> since_clear ops <> [] ->
  let X := map (op_map fst) ops in
  let Y := map (op_map snd) ops in
  let Z := map (op_map (fun p => u * fst p + v * snd p)) ops in
  let superposed (report : list (op R) -> xreal) :=
    exists a b, report X = Fin a /\ report Y = Fin b /\ report Z = Fin (u * a + v * b) in
  superposed (fun h => cmean_mean _ (run_cmean eps h)) /\
  superposed (fun h => wmean_mean _ (run_wmean eps W h)) /\
  superposed (fun h => imean_mean _ (N.of_nat W) (run_imean eps W h)) /\
  superposed (fun h => dmean_mean _ (run_dmean eps f h)) /\
  superposed (fun h => ctrend_value _ (run_ctrend eps h)).
Proof. exact c120_superposition. Qed.
Print Assumptions C120_superposition.

(** C120_superposition_ex: windows of 2 and factor 1/2 with 2 x - y for three pairs
    after a clear. *)
Example C120_superposition_ex :
  let ops := [Push (9, 9); Clear; Push (1, 2); Push (3, 0); Push (5, 4)] in
  (0 < 2)%nat /\ (2 * N.of_nat 2 < szmod)%N /\ 0 < 1 / 2 <= 1 /\ fits (since_clear ops) /\ since_clear ops <> [] /\
  since_clear (map (op_map (fun p => 2 * fst p + -1 * snd p)) ops) = [0; 6; 6].
Proof. exact c120_superposition_ex. Qed.

(** C120_regression: the fitted line is linear in y: with the same positions [x] and
    values [u y + v z], slope() and at() are the combinations of those for [y] and [z]. *)
Theorem C120_regression : forall (eps u v : R) (ops : list (op (R * (R * R)))),
  fits (since_clear ops) -> since_clear ops <> [] ->
  let Y := map (op_map (fun p => (fst p, fst (snd p)))) ops in
  let Z := map (op_map (fun p => (fst p, snd (snd p)))) ops in
  let C := map (op_map (fun p => (fst p, u * fst (snd p) + v * snd (snd p)))) ops in
  let superposed (report : list (op (R * R)) -> xreal) :=
    exists a b, report Y = Fin a /\ report Z = Fin b /\ report C = Fin (u * a + v * b) in
  superposed (fun h => creg_slope _ (run_creg eps h)) /\
  forall p, superposed (fun h => creg_at _ (run_creg eps h) (Fin p)).
Proof. exact c120_regression. Qed.
Print Assumptions C120_regression.

(** C120_regression_ex: three positions with two sets of values; one set is on
    a line, the other is not. *)
Example C120_regression_ex :
  let ops := [Push (9, (9, 9)); Clear; Push (0, (1, 5)); Push (1, (3, 2)); Push (2, (5, 7))] in
  let slope := fun g : R * (R * R) -> R => let l := map (fun p => (fst p, g p)) (since_clear ops) in covariance l / variance (xs l) in
  fits (since_clear ops) /\ since_clear ops <> [] /\
  slope (fun p => fst (snd p)) = 2 /\ slope (fun p => snd (snd p)) = 1 /\ slope (fun p => 3 * fst (snd p) + -1 * snd (snd p)) = 5.
Proof. exact c120_regression_ex. Qed.
