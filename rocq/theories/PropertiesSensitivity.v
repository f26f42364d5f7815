(** * Property theorems: Sensitivity

    Statements only; every proof is [exact] of a lemma in ClaimsSensitivity.v.
    Generated by tools/mkprops.py. *)

From Coq Require Import Reals ZArith NArith Bool List QArith.
From Coq Require Import Floats.SpecFloat.
From Verif Require Import Arith History SpecStats SpecImpulse SpecSensitivity StatsLemmas Cumulative Window Interim Decay Impulse Psquare
  ExactRuns WindowRuns InterimRuns DecayRuns ImpulseRuns PsquareRuns.
Import ListNotations.
Local Open Scope R_scope.
From Verif Require Import ClaimsSensitivity.

(** C103_means: exact arithmetic, every two histories whose values differ by
    at most d: every mean of the cumulative, window, interim and decay filters
    differs by at most d, the trend by at most 5 d. *)
Theorem C103_means : forall (eps f d : R) (W : nat) (ops ops' : list (op R)),
  perturbed d ops ops' -> since_clear ops <> [] ->
  fits (since_clear ops) -> (0 < W)%nat -> (2 * N.of_nat W < szmod)%N -> 0 < f <= 1 ->
  let w := N.of_nat W in
  apart d (cmean_mean _ (run_cmean eps ops)) (cmean_mean _ (run_cmean eps ops')) /\
  apart d (wmean_mean _ (run_wmean eps W ops)) (wmean_mean _ (run_wmean eps W ops')) /\
  apart d (imean_mean _ w (run_imean eps W ops)) (imean_mean _ w (run_imean eps W ops')) /\
  apart d (dmean_mean _ (run_dmean eps f ops)) (dmean_mean _ (run_dmean eps f ops')) /\
  apart (5 * d) (ctrend_value _ (run_ctrend eps ops)) (ctrend_value _ (run_ctrend eps ops')).
Proof. exact c103_means. Qed.
Print Assumptions C103_means.

(** C103_means_ex: 1, 5, 2 and 1.5, 5, 1.5 after a clear. *)
Example C103_means_ex :
  let ops := [Push 9; Clear; Push 1; Push 5; Push 2] in
  let ops' := [Push 9; Clear; Push (3 / 2); Push 5; Push (3 / 2)] in
  perturbed (1 / 2) ops ops' /\ since_clear ops <> [] /\ fits (since_clear ops) /\
  (0 < 2)%nat /\ (2 * N.of_nat 2 < szmod)%N /\ 0 < 1 / 2 <= 1.
Proof. exact c103_means_ex. Qed.

(** C103_means_sharp: the bound for the means is attained, whatever the
    data: adding d to every value adds d to every mean. *)
Theorem C103_means_sharp : forall (eps d : R) (l : list R), fits l -> l <> [] -> 0 <= d ->
  perturbed d (pushes l) (pushes (map (fun x => x + d) l)) /\
  exists m, cmean_mean _ (run_cmean eps (pushes l)) = Fin m /\
    cmean_mean _ (run_cmean eps (pushes (map (fun x => x + d) l))) = Fin (m + d).
Proof. exact c103_sharp. Qed.
Print Assumptions C103_means_sharp.

(** C103_means_sharp_ex: two values. *)
Example C103_means_sharp_ex : fits [3; 4] /\ [3; 4] <> [] /\ 0 <= 1 / 8.
Proof. exact c103_sharp_ex. Qed.

(** C103_deviation: exact arithmetic: the square root of variance(), the
    standard deviation, changes by at most d for the cumulative, window and
    interim filters, and by at most 2 d for the decay filter. *)
Theorem C103_deviation : forall (eps d : R) (W : nat) (ops ops' : list (op R)),
  perturbed d ops ops' -> since_clear ops <> [] ->
  fits (since_clear ops) -> (0 < W)%nat -> (N.of_nat W <= 4294967296)%N ->
  let w := N.of_nat W in
  roots_apart d (cvar_variance _ (run_cvar eps ops)) (cvar_variance _ (run_cvar eps ops')) /\
  roots_apart d (wvar_variance _ (run_wvar eps W ops)) (wvar_variance _ (run_wvar eps W ops')) /\
  roots_apart d (ivar_variance _ w (run_ivar eps W ops)) (ivar_variance _ w (run_ivar eps W ops')) /\
  (forall fm fv l l', 0 < eps -> 0 < fm <= 1 -> 0 < fv <= 1 -> l <> [] -> nearby d l l' ->
   roots_apart (2 * d) (dvar_variance _ (run_dvar eps fm fv (pushes l))) (dvar_variance _ (run_dvar eps fm fv (pushes l')))).
Proof. exact c103_deviation. Qed.
Print Assumptions C103_deviation.

(** C103_deviation_ex: the same histories, and decay with factors 1/2 and 1/3. *)
Example C103_deviation_ex :
  let ops := [Push 9; Clear; Push 1; Push 5; Push 2] in
  let ops' := [Push 9; Clear; Push (3 / 2); Push 5; Push (3 / 2)] in
  perturbed (1 / 2) ops ops' /\ since_clear ops <> [] /\ fits (since_clear ops) /\
  (0 < 2)%nat /\ (N.of_nat 2 <= 4294967296)%N /\
  (0 < 1 / 4 /\ 0 < 1 / 2 <= 1 /\ 0 < 1 / 3 <= 1 /\ nearby (1 / 2) [1; 5; 2] [3 / 2; 5; 3 / 2]).
Proof. exact c103_deviation_ex. Qed.

(** C103_covariance: exact arithmetic: if the first components differ by at
    most d and the second ones by at most e, the cumulative and the window
    covariance change by at most d times the standard deviation of the second
    components of the first data plus e times that of the first components of the
    second data. *)
Theorem C103_covariance : forall (eps d e : R) (W : nat) (ops ops' : list (op (R * R))),
  perturbed2 d e ops ops' -> since_clear ops <> [] ->
  fits (since_clear ops) -> (0 < W)%nat -> (N.of_nat W < szmod)%N ->
  let l := since_clear ops in
  let l' := since_clear ops' in
  apart (d * sqrt (variance (ys l)) + e * sqrt (variance (xs l')))
    (ccov_variance _ (run_ccov eps ops)) (ccov_variance _ (run_ccov eps ops')) /\
  apart (d * sqrt (variance (ys (lastn W l))) + e * sqrt (variance (xs (lastn W l'))))
    (wcov_variance _ (run_wcov eps W ops)) (wcov_variance _ (run_wcov eps W ops')).
Proof. exact c103_covariance. Qed.
Print Assumptions C103_covariance.

(** C103_covariance_ex: three pairs after a clear. *)
Example C103_covariance_ex :
  let ops := [Push (9, 9); Clear; Push (1, 2); Push (5, 3); Push (2, 8)] in
  let ops' := [Push (9, 9); Clear; Push (3 / 2, 2); Push (5, 10 / 3); Push (2, 8)] in
  perturbed2 (1 / 2) (1 / 3) ops ops' /\ since_clear ops <> [] /\ fits (since_clear ops) /\
  (0 < 2)%nat /\ (N.of_nat 2 < szmod)%N.
Proof. exact c103_covariance_ex. Qed.

(** C103_slope: exact arithmetic: errors of at most e in the dependent
    variable change the slope of the regression line by at most e divided by the
    standard deviation of the independent variable. *)
Theorem C103_slope : forall (eps e : R) (W : nat) (ops ops' : list (op (R * R))),
  perturbed2 0 e ops ops' ->
  fits (since_clear ops) -> (0 < W)%nat -> (N.of_nat W < szmod)%N ->
  let l := since_clear ops in
  (l <> [] -> 0 < variance (xs l) ->
   apart (e / sqrt (variance (xs l))) (creg_slope _ (run_creg eps ops)) (creg_slope _ (run_creg eps ops'))) /\
  (lastn W l <> [] -> 0 < variance (xs (lastn W l)) ->
   apart (e / sqrt (variance (xs (lastn W l)))) (wreg_slope _ (run_wreg eps W ops)) (wreg_slope _ (run_wreg eps W ops'))).
Proof. exact c103_slope. Qed.
Print Assumptions C103_slope.

(** C103_slope_ex: x = 0, 2 with y = 0, 1 and y = 1, 0: the deviation of x is
    1 and the slope changes from 1/2 to -1/2, the bound with e = 1. *)
Example C103_slope_ex :
  let ops := [Push (0, 0); Push (2, 1)] in
  let ops' := [Push (0, 1); Push (2, 0)] in
  perturbed2 0 1 ops ops' /\ fits (since_clear ops) /\ (0 < 2)%nat /\ (N.of_nat 2 < szmod)%N /\
  variance (xs (since_clear ops)) = 1 /\ lastn 2 (since_clear ops) = since_clear ops /\
  ls_slope (since_clear ops) = 1 / 2 /\ ls_slope (since_clear ops') = - (1 / 2).
Proof. exact c103_slope_ex. Qed.

(** C103_impulse: exact arithmetic: the FIR filter changes by at most d times
    the sum of the magnitudes of the coefficients; a recursive filter whose
    feedback coefficients have magnitudes that sum to less than that of the scale
    changes by at most d times the sum of the magnitudes of the forward
    coefficients divided by the difference, however long it runs. *)
Theorem C103_impulse : forall (eps d : R) (c b a : list R) (scale : R) (ops ops' : list (op R)),
  perturbed d ops ops' -> since_clear ops <> [] -> c <> [] -> b <> [] -> a <> [] -> abs_sum a < Rabs scale ->
  apart (abs_sum c * d) (fir_value _ (run_fir eps c ops)) (fir_value _ (run_fir eps c ops')) /\
  apart (abs_sum b * d / (Rabs scale - abs_sum a))
    (iir_value _ (run_iir eps b a scale ops)) (iir_value _ (run_iir eps b a scale ops')).
Proof. exact c103_impulse. Qed.
Print Assumptions C103_impulse.

(** C103_impulse_ex: b = 2, a = -1/2, scale 1. *)
Example C103_impulse_ex :
  perturbed (1 / 2) [Push 1; Push 5; Push 2] [Push (3 / 2); Push 5; Push (3 / 2)] /\
  abs_sum [- (1 / 2)] < Rabs 1 /\ abs_sum [2] * (1 / 2) / (Rabs 1 - abs_sum [- (1 / 2)]) = 2.
Proof. exact c103_impulse_ex. Qed.

(** C103_few_values: exact arithmetic: as long as the quantile estimator
    stores its values (at most 2Q+3 for Q ratios) every estimate changes by at most
    d. *)
Theorem C103_few_values : forall (eps d : R) (qs : list R) (ops ops' : list (op R)) (i : nat),
  Forall (fun q => 0 <= q < 1) qs -> (N.of_nat (2 * length qs + 3) < szmod)%N ->
  perturbed d ops ops' -> since_clear ops <> [] ->
  (length (since_clear ops) <= 2 * length qs + 3)%nat -> (i <= length qs + 1)%nat ->
  exists v v', psq_get _ (rqs eps qs) (run_psq eps qs ops) i = Some v /\
    psq_get _ (rqs eps qs) (run_psq eps qs ops') i = Some v' /\ apart d v v'.
Proof. exact c103_few. Qed.
Print Assumptions C103_few_values.

(** C103_few_values_ex: three values and the median. *)
Example C103_few_values_ex :
  Forall (fun q => 0 <= q < 1) [1 / 2] /\ (N.of_nat (2 * length [1 / 2] + 3) < szmod)%N /\
  perturbed (1 / 2) [Push 1; Push 5; Push 2] [Push (3 / 2); Push 5; Push (3 / 2)] /\
  (length (since_clear [Push 1; Push 5; Push 2]) <= 2 * length [1 / 2]%R + 3)%nat /\ (1 <= length [1 / 2]%R + 1)%nat.
Proof. exact c103_few_ex. Qed.

(** C103_psquare_refuted: with more values it fails badly: eight values of
    which one is changed by 2^-49 of a tenth of the range; the estimated median
    (double) drops from more than 8 tenths of the range to less than 4 tenths. *)
Theorem C103_psquare_refuted : exists (l l' : list Z) (u : Z),
  let F := b64num in
  let q := ratio_value F (1 # 2) in
  let est l := psq_get F [q] (run (psq_push F [q]) (psq_clear F [q]) (psq_init F [q]) (pushes (map b64_of_Z l))) 1 in
  Forall (fun n => 0 <= n <= 10 * u)%Z (l ++ l') /\ (u = 2 ^ 49)%Z /\
  Forall2 (fun a b => Z.abs (a - b) <= 1)%Z l l' /\
  exists v v' : F, est l = Some v /\ est l' = Some v' /\
    nlt (b64_of_Z (8 * u) : F) v = true /\ nlt v' (b64_of_Z (4 * u) : F) = true.
Proof. exact c103_psquare_refuted. Qed.
Print Assumptions C103_psquare_refuted.
