(** * Property theorems: Frequency

    Statements only; every proof is [exact] of a lemma in ClaimsFrequency.v.
    Generated by tools/mkprops.py. *)

From Coq Require Import Reals ZArith NArith List Bool.
From Verif Require Import Arith History SpecStats SpecDecay SpecImpulse SpecFrequency Window WindowRuns Decay DecayRuns Impulse ImpulseRuns.
Import ListNotations.
Local Open Scope R_scope.
From Verif Require Import ClaimsFrequency.

(** C101_fir: a finite filter that, after any history, has received at least
    as many samples of a sinusoid as it has coefficients returns a sinusoid of
    the same frequency, of amplitude at most [|A|] times the modulus of
    [sum_k c_k exp(-i w k)]. *)
Theorem C101_fir : forall (eps : R) (c : list R) (ops : list (op R)) (A w phi : R) (m : nat),
  c <> [] -> (length c <= m)%nat ->
  let th := w * INR (m - 1) + phi in
  let v := A * (cos_part c 0 w * cos th + sin_part c 0 w * sin th) in
  fir_value (exact eps) (run_fir eps c (ops ++ pushes (sinusoid A w phi m))) = Fin v /\
  Rabs v <= Rabs A * magnitude c w.
Proof. exact c101_fir. Qed.
Print Assumptions C101_fir.

(** C101_fir_ex: the difference of neighbours amplifies the alternating
    sinusoid (frequency pi) by two. *)
Example C101_fir_ex :
  let c := [1; -1] in
  c <> [] /\ (length c <= 5)%nat /\ magnitude c PI = 2 /\
  3 * (cos_part c 0 PI * cos (PI * INR (5 - 1) + 0) + sin_part c 0 PI * sin (PI * INR (5 - 1) + 0)) = 6.
Proof. exact c101_fir_ex. Qed.

(** C101_iir: a recursive filter whose feedback coefficients are smaller than
    [|scale|] in total settles at a sinusoid of the same frequency: its value
    approaches [A (p cos th + q sin th)], where [p - i q] is the quotient
    [sum_k b_k exp(-i w k) / (scale + sum_j a_j exp(-i w (j + 1)))], so the
    amplitude is the ratio of the moduli. Each further [length a] samples reduce
    the distance by the factor [sum |a| / |scale|], whatever the filter has seen
    before. *)
Theorem C101_iir : forall (eps : R) (b a : list R) (scale : R) (ops : list (op R)) (A w phi : R) (m : nat) (M : R) (i : nat),
  b <> [] -> a <> [] -> abs_sum a < Rabs scale ->
  Forall (fun x => Rabs x <= M) (since_clear ops) -> Rabs A <= M ->
  (length b + i * length a <= m)%nat ->
  let th := w * INR (m - 1) + phi in
  let p := in_phase b a scale w in
  let q := quadrature b a scale w in
  0 < feedback_norm a scale w /\
  sqrt (p² + q²) = magnitude b w / sqrt (feedback_norm a scale w) /\
  exists v,
    iir_value (exact eps) (run_iir eps b a scale (ops ++ pushes (sinusoid A w phi m))) = Fin v /\
    Rabs (v - A * (p * cos th + q * sin th)) <=
      (abs_sum a / Rabs scale) ^ S i * (2 * (abs_sum b * M / (Rabs scale - abs_sum a))).
Proof. exact c101_iir. Qed.
Print Assumptions C101_iir.

(** C101_iir_ex: y_n = (x_n + y_(n-1)) / 2 passes the alternating sinusoid with
    a third of its amplitude. *)
Example C101_iir_ex :
  [1] <> [] /\ [-1] <> [] /\ abs_sum [-1] < Rabs 2 /\
  Forall (fun x => Rabs x <= 8) (since_clear [Push 9; Clear; Push (-8)]) /\ Rabs 6 <= 8 /\
  (1 + 10 * 1 <= 11)%nat /\
  in_phase [1] [-1] 2 PI = 1 / 3 /\ quadrature [1] [-1] 2 PI = 0.
Proof. exact c101_iir_ex. Qed.

(** C101_window_mean: once a window mean has received a full window of a
    sinusoid, mean() is a sinusoid of the same frequency, in phase with the
    middle of the window, with amplitude
    [A sin (W w / 2) / (W sin (w / 2))]; it is zero when the window spans a whole
    number of periods. *)
Theorem C101_window_mean : forall (eps : R) (W : nat) (ops : list (op R)) (A w phi : R) (m : nat),
  (0 < W)%nat -> (N.of_nat W < szmod)%N -> (W <= m)%nat -> sin (w / 2) <> 0 ->
  let value := wmean_mean _ (run_wmean eps W (ops ++ pushes (sinusoid A w phi m))) in
  value = Fin (A * (sin (INR W * w / 2) / (INR W * sin (w / 2))) *
               cos (w * (INR (m - 1) - (INR W - 1) / 2) + phi)) /\
  (forall j : Z, INR W * w = 2 * PI * IZR j -> value = Fin 0).
Proof. exact c101_window_mean. Qed.
Print Assumptions C101_window_mean.

(** C101_window_mean_ex: the alternating sinusoid in windows of three and of
    four. *)
Example C101_window_mean_ex :
  sin (PI / 2) <> 0 /\ (3 <= 7)%nat /\
  5 * (sin (INR 3 * PI / 2) / (INR 3 * sin (PI / 2))) * cos (PI * (INR (7 - 1) - (INR 3 - 1) / 2) + 0) = 5 / 3 /\
  INR 4 * PI = 2 * PI * IZR 2.
Proof. exact c101_window_mean_ex. Qed.

(** C101_decay_mean: the decay mean settles at the sinusoid that passes the
    first-order smoother with feedback [q = 1 - f]; after [m] samples, whatever
    it has seen before, it is within [3 M q^m] of it. *)
Theorem C101_decay_mean : forall (eps f M : R) (ops : list (op R)) (A w phi : R) (m : nat),
  0 < f <= 1 -> (0 < m)%nat ->
  Forall (fun x => Rabs x <= M) (since_clear ops) -> Rabs A <= M ->
  let q := 1 - f in
  let D := 1 - 2 * q * cos w + q * q in
  let th := w * INR (m - 1) + phi in
  0 < D /\
  exists v,
    dmean_mean (exact eps) (run_dmean eps f (ops ++ pushes (sinusoid A w phi m))) = Fin v /\
    Rabs (v - A * (f * (1 - q * cos w) / D * cos th + f * q * sin w / D * sin th)) <= 3 * M * q ^ m.
Proof. exact c101_decay_mean. Qed.
Print Assumptions C101_decay_mean.

(** C101_decay_mean_ex: factor 1/2 passes a third of the alternating sinusoid. *)
Example C101_decay_mean_ex :
  0 < 1 / 2 <= 1 /\ (0 < 9)%nat /\
  Forall (fun x => Rabs x <= 8) (since_clear [Push 9; Clear; Push (-8)]) /\ Rabs 6 <= 8 /\
  let q := 1 - 1 / 2 in
  let D := 1 - 2 * q * cos PI + q * q in
  1 / 2 * (1 - q * cos PI) / D = 1 / 3 /\ 1 / 2 * q * sin PI / D = 0.
Proof. exact c101_decay_mean_ex. Qed.
