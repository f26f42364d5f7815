(** * Property theorems: Decay

    Statements only; every proof is [exact] of a lemma in ClaimsDecay.v.
    Generated by tools/mkprops.py. *)

From Coq Require Import Reals ZArith NArith Bool List.
From Coq Require Import Floats.SpecFloat.
From Verif Require Import Arith History SpecStats SpecDecay Decay ExactRuns DecayRuns.
Import ListNotations.
Local Open Scope R_scope.
From Verif Require Import ClaimsDecay.

(** C31_decay_mean: for every factor accepted by the constructor and
    every history of pushes and clears, mean() of each of the four decay filters
    is the normalised exponentially weighted mean of the values since the last
    clear; it lies within every interval containing those values (hence equals a
    constant input) and is 0 when there are none. *)
Theorem C31_decay_mean : forall (eps fm fv fs fk : R) (ops : list (op R)),
  0 < fm <= 1 ->
  let l := since_clear ops in
  exists m : R,
    dmean_mean (exact eps) (run_dmean eps fm ops) = Fin m /\
    dvar_mean (exact eps) (run_dvar eps fm fv ops) = Fin m /\
    dskew_mean (exact eps) (run_dskew eps fm fv fs ops) = Fin m /\
    dkurt_mean (exact eps) (run_dkurt eps fm fv fs fk ops) = Fin m /\
    (l <> [] -> m = ewma fm l) /\
    (l = [] -> m = 0) /\
    (forall lo hi, l <> [] -> (forall x, In x l -> lo <= x <= hi) -> lo <= m <= hi).
Proof. exact c31. Qed.
Print Assumptions C31_decay_mean.

(** C31_decay_mean_ex: factor 1/2; 1 and 4 after a clear: the weights are
    1/2 and 1, the mean is 3. *)
Example C31_decay_mean_ex :
  let ops := [Push 7; Clear; Push 1; Push 4] in
  0 < 1 / 2 <= 1 /\ since_clear ops = [1; 4] /\ ewma (1 / 2) [1; 4] = 3.
Proof. exact c31_ex. Qed.

(** C32_decay_moments: for every choice of factors accepted by the
    constructors and every non-empty sequence of pushes, variance() is the
    exponentially weighted mean of the squared deviations from the running
    weighted mean, skewness() and kurtosis() are the corresponding third and
    fourth moments over variance^(3/2) and variance^2 (0 when the variance does
    not exceed epsilon); variance() and kurtosis() are not negative. *)
Theorem C32_decay_moments : forall (eps fm fv fs fk : R) (l : list R),
  0 < eps -> 0 < fm <= 1 -> 0 < fv <= 1 -> 0 < fs <= 1 -> 0 < fk <= 1 ->
  l <> [] ->
  let F := exact eps in
  let v := emoment 2 fm fv l in
  let s := emoment 3 fm fs l in
  let k := emoment 4 fm fk l in
  let skew := if Rlt_dec eps v then s / (v * sqrt v) else 0 in
  let kurt := if Rlt_dec eps v then k / v ^ 2 else 0 in
  (dvar_variance F (run_dvar eps fm fv (pushes l)) = Fin v /\
   dskew_variance F (run_dskew eps fm fv fs (pushes l)) = Fin v /\
   dkurt_variance F (run_dkurt eps fm fv fs fk (pushes l)) = Fin v) /\
  (dskew_skewness F (run_dskew eps fm fv fs (pushes l)) = Fin skew /\
   dkurt_skewness F (run_dkurt eps fm fv fs fk (pushes l)) = Fin skew) /\
  dkurt_kurtosis F (run_dkurt eps fm fv fs fk (pushes l)) = Fin kurt /\
  0 <= v /\ 0 <= kurt.
Proof. exact c32. Qed.
Print Assumptions C32_decay_moments.

(** C32_decay_moments_ex: factors 1/2, values 1 and 4: the deviations from
    the running means 1 and 3 are 0 and 1, so the variance is 2/3. *)
Example C32_decay_moments_ex :
  deviations (1 / 2) [1; 4] = [0; 1] /\
  emoment 2 (1 / 2) (1 / 2) [1; 4] = 2 / 3 /\
  emoment 3 (1 / 2) (1 / 2) [1; 4] = 2 / 3.
Proof. exact c32_ex. Qed.

(** C33_decay_clear_refuted: decay variance filter on binary64 with both
    factors 1/2: pushing 0, clearing and pushing 0 and 3 gives a smaller
    variance than a new filter given 0 and 3, because clear() keeps the
    normalisation of the variance; with factor 1/2 also skewness and kurtosis
    differ. *)
Theorem C33_decay_clear_refuted :
  exists (f : b64num) (past future : list b64num),
    factor_ok b64num f = true /\
    let B := b64num in
    let ops := pushes past ++ [Clear] ++ pushes future in
    let v := run (dvar_push B) (dvar_clear B) (dvar_init B f f) in
    let s := run (dskew_push B) (dskew_clear B) (dskew_init B f f f) in
    let k := run (dkurt_push B) (dkurt_clear B) (dkurt_init B f f f f) in
    nlt (dvar_variance B (v ops)) (dvar_variance B (v (pushes future))) = true /\
    neq (dskew_skewness B (s ops)) (dskew_skewness B (s (pushes future))) = false /\
    neq (dkurt_kurtosis B (k ops)) (dkurt_kurtosis B (k (pushes future))) = false.
Proof. exact c33_refuted. Qed.
Print Assumptions C33_decay_clear_refuted.

(** C33_decay_clear_refuted_ex: the two variances of the witness are
    4/2 over 7/8 and over 3/4. *)
Example C33_decay_clear_refuted_ex :
  let B := b64num in
  let half := @ndiv B (b64_of_Z 1) (b64_of_Z 2) in
  let v := run (dvar_push B) (dvar_clear B) (dvar_init B half half) in
  let future := [Push (b64_of_Z 0); Push (b64_of_Z 3)] in
  dv_sum B (v future) = dv_sum B (v (Push (b64_of_Z 0) :: Clear :: future)) /\
  dv_norm B (v future) = @ndiv B (b64_of_Z 3) (b64_of_Z 4) /\
  dv_norm B (v (Push (b64_of_Z 0) :: Clear :: future)) = @ndiv B (b64_of_Z 7) (b64_of_Z 8).
Proof. exact c33_refuted_ex. Qed.

(** C33_decay_clear_partial: for every arithmetic, after clear() the
    mean-only filter is in the state of a new one, and mean() of all decay
    filters evolves as for new ones; in exact arithmetic the variance after
    clear() is the correct one scaled by (1-q^n)/(1-q^(N+n)), where n and N
    count the values pushed after and before the clear and q = 1-factor.
    Missing: variance, skewness and kurtosis equal to those of a new filter,
    which is false. *)
Theorem C33_decay_clear_partial :
  (forall (F : num) (mf vf sf kf : F) (before after : list (op F)),
    let ops := before ++ [Clear] ++ after in
    let m := run (dmean_push F) (dmean_clear F) (dmean_init F mf) in
    let v := run (dvar_push F) (dvar_clear F) (dvar_init F mf vf) in
    let s := run (dskew_push F) (dskew_clear F) (dskew_init F mf vf sf) in
    let k := run (dkurt_push F) (dkurt_clear F) (dkurt_init F mf vf sf kf) in
    m ops = m after /\
    dvar_mean F (v ops) = dvar_mean F (v after) /\
    dskew_mean F (s ops) = dskew_mean F (s after) /\
    dkurt_mean F (k ops) = dkurt_mean F (k after)) /\
  (forall (eps fm fv : R) (before : list (op R)) (l : list R),
    0 < fm <= 1 -> 0 < fv <= 1 -> l <> [] ->
    let q := 1 - fv in
    dvar_variance (exact eps) (run_dvar eps fm fv (before ++ [Clear] ++ pushes l)) =
    Fin (emoment 2 fm fv l * ((1 - q ^ length l) / (1 - q ^ (pushed before + length l))))).
Proof. exact c33_partial. Qed.
Print Assumptions C33_decay_clear_partial.

(** C33_decay_clear_partial_ex: in the example the scaling factor is
    (3/4)/(7/8). *)
Example C33_decay_clear_partial_ex :
  let q := 1 - 1 / 2 in
  pushed [Push 0] = 1%nat /\
  (1 - q ^ length [0; 3]) / (1 - q ^ (pushed [Push 0] + length [0; 3])) = 6 / 7.
Proof. exact c33_partial_ex. Qed.
