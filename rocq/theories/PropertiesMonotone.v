(** * Property theorems: Monotone

    Statements only; every proof is [exact] of a lemma in ClaimsMonotone.v.
    Generated by tools/mkprops.py. *)

From Coq Require Import Reals ZArith NArith Bool List.
From Coq Require Import Floats.SpecFloat.
From Flocq Require Import Core.
From Verif Require Import Arith History SpecStats SpecMonotone Cumulative Window Interim Decay Impulse Psquare
  ExactRuns WindowRuns InterimRuns DecayRuns ImpulseRuns PsquareRuns Rounded.
Import ListNotations.
Local Open Scope R_scope.
From Verif Require Import ClaimsMonotone.

(** C85_mean: exact arithmetic, every pair of histories in which the values
    of the second are at least those of the first: every mean of the second is at
    least that of the first, for the cumulative, window, interim and decay
    filters. *)
Theorem C85_mean : forall (eps f : R) (W : nat) (ops ops' : list (op R)),
  raised ops ops' ->
  fits (since_clear ops) -> (0 < W)%nat -> (2 * N.of_nat W < szmod)%N -> 0 < f <= 1 ->
  let w := N.of_nat W in
  (since_clear ops <> [] ->
   at_most (cmean_mean _ (run_cmean eps ops)) (cmean_mean _ (run_cmean eps ops'))) /\
  at_most (wmean_mean _ (run_wmean eps W ops)) (wmean_mean _ (run_wmean eps W ops')) /\
  at_most (imean_mean _ w (run_imean eps W ops)) (imean_mean _ w (run_imean eps W ops')) /\
  at_most (dmean_mean _ (run_dmean eps f ops)) (dmean_mean _ (run_dmean eps f ops')).
Proof. exact c85_mean. Qed.
Print Assumptions C85_mean.

(** C85_mean_ex: 1, 5, 2 and 1, 6, 2 after a clear. *)
Example C85_mean_ex :
  let ops := [Push 9; Clear; Push 1; Push 5; Push 2] in
  let ops' := [Push 9; Clear; Push 1; Push 6; Push 2] in
  raised ops ops' /\ fits (since_clear ops) /\ since_clear ops <> [] /\
  (0 < 2)%nat /\ (2 * N.of_nat 2 < szmod)%N /\ 0 < 1 / 2 <= 1 /\
  mean (since_clear ops) < mean (since_clear ops').
Proof. exact c85_mean_ex. Qed.

(** C85_last: rounded arithmetic, every format and rounding mode: a larger
    last value never gives a smaller cumulative or window mean. *)
Theorem C85_last : forall (emin prec : Z) (mode : R -> Z) (W : nat) (ops : list (op R)) (x y : R),
  (0 < prec)%Z -> (emin <= 0)%Z -> Valid_rnd mode ->
  (0 < W)%nat -> (N.of_nat W < szmod)%N -> x <= y ->
  let F := rounded emin prec mode in
  let cm o := cmean_mean F (run (cmean_push F) (cmean_clear F) (cmean_init F) (fops emin prec mode o)) in
  let wm o := wmean_mean F (run (wmean_push F W) (wmean_clear F) (wmean_init F) (fops emin prec mode o)) in
  (fits (since_clear (ops ++ [Push x])) -> at_most (cm (ops ++ [Push x])) (cm (ops ++ [Push y]))) /\
  at_most (wm (ops ++ [Push x])) (wm (ops ++ [Push y])).
Proof. exact c85_last. Qed.
Print Assumptions C85_last.

(** C85_last_ex: binary64 format, round to nearest even, 1 and 2 after 1, 1/2. *)
Example C85_last_ex :
  (0 < 53)%Z /\ (-1074 <= 0)%Z /\ Valid_rnd ZnearestE /\ (0 < 2)%nat /\ (N.of_nat 2 < szmod)%N /\ 1 <= 2 /\
  fits (since_clear ([Push 1; Push (1 / 2)] ++ [Push 1])).
Proof. exact c85_last_ex. Qed.

(** C85_impulse: any arithmetic whose rounding keeps order (exact, or rounded
    in any format and mode): with input coefficients that are not negative, and
    for the infinite filter output coefficients that are not positive and a
    positive scale, larger inputs never give a smaller response. *)
Theorem C85_impulse : forall (rnd : R -> R) (eps tiny : R) (b a : list R) (k : R) (ops ops' : list (op R)),
  (forall x y, x <= y -> rnd x <= rnd y) ->
  Forall (fun r => 0 <= r) b -> Forall (fun r => r <= 0) a -> 0 < k -> raised ops ops' ->
  let F := xnum rnd eps tiny in
  let fin o := map (op_map Fin) o : list (op F) in
  at_most (fir_value F (fir_run F (map Fin b) (fin ops))) (fir_value F (fir_run F (map Fin b) (fin ops'))) /\
  at_most (iir_value F (iir_run F (map Fin b) (map Fin a) (Fin k) (fin ops)))
          (iir_value F (iir_run F (map Fin b) (map Fin a) (Fin k) (fin ops'))).
Proof. exact c85_impulse. Qed.
Print Assumptions C85_impulse.

(** C85_impulse_ex: input coefficients 1, 1/2, output coefficient -1/2, scale
    2, rounding in the binary64 format. *)
Example C85_impulse_ex :
  (forall x y, x <= y -> rounding (-1074) 53 ZnearestE x <= rounding (-1074) 53 ZnearestE y) /\
  Forall (fun r => 0 <= r) [1; 1 / 2] /\ Forall (fun r => r <= 0) [-1 / 2] /\ 0 < 2 /\
  raised [Push 1; Clear; Push 3] [Push 1; Clear; Push 4].
Proof. exact c85_impulse_ex. Qed.

(** C85_few_values: exact arithmetic: while the P-square estimator holds at
    most 2Q+3 values, larger values never give a smaller estimate. *)
Theorem C85_few_values : forall (eps : R) (qs : list R) (ops ops' : list (op R)) (i : nat),
  Forall (fun q => 0 <= q < 1) qs -> (N.of_nat (2 * length qs + 3) < szmod)%N ->
  raised ops ops' -> since_clear ops <> [] ->
  (length (since_clear ops) <= 2 * length qs + 3)%nat -> (i <= length qs + 1)%nat ->
  exists v v', psq_get _ (rqs eps qs) (run_psq eps qs ops) i = Some v /\
    psq_get _ (rqs eps qs) (run_psq eps qs ops') i = Some v' /\ at_most v v'.
Proof. exact c85_few. Qed.
Print Assumptions C85_few_values.

(** C85_few_values_ex: the median of 4, 1, 3 and of 4, 2, 3. *)
Example C85_few_values_ex :
  Forall (fun q => 0 <= q < 1) [1 / 2] /\ (N.of_nat (2 * length [1 / 2] + 3) < szmod)%N /\
  raised [Push 4; Push 1; Push 3] [Push 4; Push 2; Push 3] /\
  since_clear [Push 4; Push 1; Push 3] <> [] /\
  (length (since_clear [Push 4; Push 1; Push 3]) <= 2 * length [1 / 2]%R + 3)%nat /\ (1 <= length [1 / 2]%R + 1)%nat.
Proof. exact c85_few_ex. Qed.

(** C85_mean_refuted: for double a larger value can give a smaller mean:
    cumulative, decay (factor 3/4) and window (one value). *)
Theorem C85_mean_refuted : exists (l l' d d' w w' : list Z),
  let F := b64num in
  let z := map (fun n => Push (b64_of_Z n)) in
  let cm l := cmean_mean F (run (cmean_push F) (cmean_clear F) (cmean_init F) (z l)) in
  let dm l := dmean_mean F (run (dmean_push F) (dmean_clear F)
                (dmean_init F (ndiv (b64_of_Z 3 : F) (b64_of_Z 4))) (z l)) in
  let wm l := wmean_mean F (run (wmean_push F 1) (wmean_clear F) (wmean_init F) (z l)) in
  Forall (fun n => 0 <= n <= 2 ^ 60)%Z (l ++ l' ++ d ++ d' ++ w ++ w') /\
  Forall2 Z.le l l' /\ nlt (cm l') (cm l) = true /\
  Forall2 Z.le d d' /\ nlt (dm d') (dm d) = true /\
  Forall2 Z.le w w' /\ nlt (wm w') (wm w) = true.
Proof. exact c85_mean_refuted. Qed.
Print Assumptions C85_mean_refuted.

(** C85_psquare_refuted: with six values a larger value can lower the
    estimated median by a fifth: 0, 2, 0, 2, 1, 1 gives 5/3, and with the first
    value raised to 1 the estimate is 4/3 (double, rounded). *)
Theorem C85_psquare_refuted : exists l l' : list Z,
  let F := b64num in
  let half := ndiv (b64_of_Z 1 : F) (b64_of_Z 2) in
  let est l := psq_get F [half] (run (psq_push F [half]) (psq_clear F [half]) (psq_init F [half])
                 (map (fun n => Push (b64_of_Z n)) l)) 1 in
  Forall2 Z.le l l' /\
  exists v v', est l = Some v /\ est l' = Some v' /\
    nlt (b64_of_Z 8 : F) (nmul v (b64_of_Z 5)) = true /\ nlt (nmul v' (b64_of_Z 5)) (b64_of_Z 7 : F) = true.
Proof. exact c85_psquare_refuted. Qed.
Print Assumptions C85_psquare_refuted.
