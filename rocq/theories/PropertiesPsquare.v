(** * Property theorems: Psquare

    Statements only; every proof is [exact] of a lemma in ClaimsPsquare.v.
    Generated by tools/mkprops.py. *)

From Coq Require Import Reals ZArith NArith Bool List QArith Sorting.Sorted.
From Coq Require Import Floats.SpecFloat.
From Verif Require Import Arith History SpecPsquare SpecOrder SpecParameters Psquare ExactRuns PsquareRuns.
From Verif Require Binary64.
Import ListNotations.
Local Open Scope R_scope.
From Verif Require Import ClaimsPsquare.

(** C34_few_observations: for every list of Q quantiles below 1 and every
    history with 1 to 2Q+3 values since the last clear, get<0> is the minimum,
    get<Q+1> the maximum and get<i> the interpolated order statistic of rank
    (n-1)*q_i; no read is out of bounds. *)
Theorem C34_few_observations : forall (eps : R) (qs : list R) (ops : list (op R)) (s : list R),
  Forall (fun q => 0 <= q < 1) qs ->
  (N.of_nat (2 * length qs + 3) < szmod)%N ->
  let l := since_clear ops in
  order_statistics l s ->
  l <> [] -> (length l <= 2 * length qs + 3)%nat ->
  let get := psq_get (exact eps) (rqs eps qs) (run_psq eps qs ops) in
  get 0%nat = Some (Fin (nth 0 s 0)) /\
  get (length qs + 1)%nat = Some (Fin (nth (length l - 1) s 0)) /\
  forall i q, nth_error qs i = Some q ->
    get (S i) = Some (Fin (interpolate s (INR (length l - 1) * q))).
Proof. exact c34. Qed.
Print Assumptions C34_few_observations.

(** C34_few_observations_ex: three values for the quartiles; the median of
    7, 1, 4 is 4 and the first quartile 5/2. *)
Example C34_few_observations_ex :
  let qs := [1 / 4; 1 / 2; 3 / 4] in
  let ops := [Push 3; Clear; Push 7; Push 1; Push 4] in
  Forall (fun q => 0 <= q < 1) qs /\
  order_statistics (since_clear ops) [1; 4; 7] /\
  interpolate [1; 4; 7] (INR 2 * (1 / 2)) = 4 /\
  interpolate [1; 4; 7] (INR 2 * (1 / 4)) = 5 / 2.
Proof. exact c34_ex. Qed.

(** C35_positions: for every arithmetic whose comparisons form a total
    order on the pushed values, every quantile list and every history, the 2Q+3
    positions in parameters() are strictly increasing and start at 1; once 2Q+3
    values were pushed the last equals size(). *)
Theorem C35_positions : forall (F : num) (P : F -> Prop) (qs : list F) (ops : list (op F)),
  total_on F P ->
  let l := since_clear ops in
  Forall P l -> fits l -> (N.of_nat (2 * length qs + 3) < szmod)%N ->
  let s := run (psq_push F qs) (psq_clear F qs) (psq_init F qs) ops in
  let p := map fst (psq_parameters F s) in
  length p = (2 * length qs + 3)%nat /\
  StronglySorted N.lt p /\
  nth_error p 0 = Some 1%N /\
  (2 * length qs + 3 <= length l ->
   nth_error p (2 * length qs + 2) = Some (N.of_nat (length l)) /\
   psq_size F s = N.of_nat (length l))%nat.
Proof. exact c35. Qed.
Print Assumptions C35_positions.

(** C35_positions_ex: binary64 without NaN is totally ordered; median of
    seven values (with ties and an infinity), positions 1, 2, 4, 6, 7. *)
Example C35_positions_ex :
  let h := S754_infinity false in
  let l := map b64_of_Z [3; 1; 1; 2; 9; 9]%Z ++ [h] in
  total_on b64num not_nan /\ Forall not_nan (l : list b64num) /\
  map fst (psq_parameters b64num
    (run (psq_push b64num [ratio_value b64num (1 # 2)])
         (psq_clear b64num [ratio_value b64num (1 # 2)])
         (psq_init b64num [ratio_value b64num (1 # 2)]) (pushes l)))
  = [1; 2; 4; 6; 7]%N.
Proof. exact c35_ex. Qed.

(** C35_steps: during a push beyond the first 2Q+3 values the positions
    are strictly increasing before and after the adjustment of every marker, so
    that the unsigned step lengths never wrap and no divisor is zero; the cell
    index is between 1 and 2Q+2 and the arrays keep their length. *)
Theorem C35_steps : forall (F : num) (P : F -> Prop) (qs : list F) (ops : list (op F)) (x : F)
  (j : nat),
  total_on F P ->
  let l := since_clear ops in
  Forall P l -> P x -> fits (l ++ [x]) ->
  (2 * length qs + 3 <= length l)%nat -> (j <= 2 * length qs + 1)%nat ->
  let s := run (psq_push F qs) (psq_clear F qs) (psq_init F qs) ops in
  let (k, h) := psq_cell F qs (ps_heights F s) x in
  let (p', h') := fold_left
    (psq_adjust F (add_deltas F (ps_desired F s) (ps_deltas F s))) (seq 1 j)
    (bump_from k (ps_positions F s), h) in
  (1 <= k <= 2 * length qs + 2)%nat /\
  length p' = (2 * length qs + 3)%nat /\ length h' = (2 * length qs + 3)%nat /\
  forall i, (S i < 2 * length qs + 3)%nat -> (nth i p' 0 < nth (S i) p' 0 < szmod)%N.
Proof. exact c35_steps. Qed.
Print Assumptions C35_steps.

(** C35_steps_ex: a sixth value for a median estimator. *)
Example C35_steps_ex :
  let l := map b64_of_Z [3; 1; 1; 2; 9]%Z in
  total_on b64num not_nan /\ Forall not_nan (l : list b64num) /\
  not_nan (S754_infinity false) /\ length l = (2 * 1 + 3)%nat.
Proof. exact c35_steps_ex. Qed.

(** C36_extremes: for every arithmetic whose comparisons form a total
    order on the pushed values, every quantile list and every non-empty history,
    get<0> is the smallest and get<Q+1> the largest value since the last
    clear. *)
Theorem C36_extremes : forall (F : num) (P : F -> Prop) (qs : list F) (ops : list (op F)),
  total_on F P ->
  let l := since_clear ops in
  Forall P l -> fits l -> l <> [] ->
  let s := run (psq_push F qs) (psq_clear F qs) (psq_init F qs) ops in
  exists lo hi,
    psq_get F qs s 0 = Some lo /\ is_min F l lo /\
    psq_get F qs s (length qs + 1) = Some hi /\ is_max F l hi.
Proof. exact c36. Qed.
Print Assumptions C36_extremes.

(** C36_extremes_ex: exact reals and binary64 without NaN are totally
    ordered; a binary64 median over eight values with an infinity. *)
Example C36_extremes_ex :
  let qs := [ratio_value b64num (1 # 2)] in
  let l := map b64_of_Z [3; 1; -5; 2; 9; 9; 4]%Z ++ [S754_infinity true] in
  let s := run (psq_push b64num qs) (psq_clear b64num qs) (psq_init b64num qs) (pushes l) in
  (forall eps, total_on (exact eps) finite_value) /\
  total_on b64num not_nan /\ Forall not_nan (l : list b64num) /\
  psq_get b64num qs s 0 = Some (S754_infinity true) /\
  psq_get b64num qs s 2 = Some (b64_of_Z 9).
Proof. exact c36_ex. Qed.

(** C37_ordered: for every list of quantiles below 1 and every non-empty
    history, every get<i> is a number within every interval that contains the
    values; it does not decrease with i (beyond 2Q+3 values for any listing
    order, before that if the quantiles are listed in ascending order); and from
    2Q+3 values on the heights in parameters() are sorted. *)
Theorem C37_ordered : forall (eps : R) (qs : list R) (ops : list (op R)),
  Forall (fun q => 0 <= q < 1) qs ->
  (N.of_nat (2 * length qs + 3) < szmod)%N ->
  let l := since_clear ops in
  l <> [] -> fits l ->
  let s := run_psq eps qs ops in
  exists est : nat -> R,
    (forall i, (i <= length qs + 1)%nat ->
       psq_get (exact eps) (rqs eps qs) s i = Some (Fin (est i))) /\
    (forall i lo hi, (i <= length qs + 1)%nat ->
       (forall x, In x l -> lo <= x <= hi) -> lo <= est i <= hi) /\
    ((2 * length qs + 3 < length l)%nat \/ StronglySorted Rle qs ->
       forall i j, (i <= j <= length qs + 1)%nat -> est i <= est j) /\
    ((2 * length qs + 3 <= length l)%nat ->
       exists h, map snd (psq_parameters (exact eps) s) = map Fin h /\
                 length h = (2 * length qs + 3)%nat /\ StronglySorted Rle h).
Proof. exact c37. Qed.
Print Assumptions C37_ordered.

(** C37_ordered_ex: seven values between 1 and 9 for the quartiles, and ten
    values. *)
Example C37_ordered_ex :
  let qs := [1 / 4; 1 / 2; 3 / 4] in
  let l := [5; 1; 9; 2; 2; 7; 3; 8; 4; 6] in
  Forall (fun q => 0 <= q < 1) qs /\ StronglySorted Rle qs /\
  (2 * length qs + 3 <= length l)%nat /\ forall x, In x l -> 1 <= x <= 9.
Proof. exact c37_ex. Qed.

(** C38_published_algorithm_partial: in exact arithmetic the markers
    in parameters() after any history with at least 2Q+3 values are those of the
    published algorithm with two changes: a marker moves as soon as it is not at
    its desired position (published: when it is off by 1 or more), and the
    linear prediction divides by the distance modulo 2^64.  The latter is the
    published formula for every upward adjustment, and is wrong for every
    downward one, where the distance -d is taken as 2^64-d.  Missing: the
    threshold (C38_threshold_refuted) and the downward linear formula
    (C38_published_algorithm_refuted). *)
Theorem C38_published_algorithm_partial : forall (eps : R) (qs : list R) (ops : list (op R)) (s : list R),
  (N.of_nat (2 * length qs + 3) < szmod)%N ->
  let l := since_clear ops in
  let len := (2 * length qs + 3)%nat in
  fits l -> (len <= length l)%nat -> order_statistics (firstn len l) s ->
  exists linear : Z -> R -> R -> Z -> R,
    (forall sg h h' d, (0 < d < 2 ^ 64)%Z ->
       linear sg h h' d = published_linear sg h h' d) /\
    (forall sg h h' d, (- 2 ^ 64 < d < 0)%Z ->
       linear sg h h' d = published_linear sg h h' (2 ^ 64 + d)) /\
    let m := p2_run linear far_any len (p2_delta qs) s (skipn len l) in
    psq_parameters (exact eps) (run_psq eps qs ops) =
    map (fun i => (Z.to_N (mk_n m i), Fin (mk_h m i))) (seq 0 len).
Proof. exact c38_partial. Qed.
Print Assumptions C38_published_algorithm_partial.

(** C38_published_algorithm_partial_ex: a sixth value for the median. *)
Example C38_published_algorithm_partial_ex :
  let l := [21; 11; 12; 20; 10; 9] in
  (2 * length [1 / 2] + 3 <= length l)%nat /\
  order_statistics (firstn (2 * length [1 / 2] + 3) l) [10; 11; 12; 20; 21].
Proof. exact c38_partial_ex. Qed.

(** C38_published_algorithm_refuted: the values 10, 11, 12, 20, 21, 9 and
    the median: with the published formulas (and markers that move whenever they
    are not at their desired position) the median marker moves down to 11, the
    estimator reports 12 (in exact arithmetic slightly more than 12, whereas
    every published adjustment there lowers the height). *)
Theorem C38_published_algorithm_refuted : exists (l : list Z),
  let m := p2_run published_linear far_any 5 (p2_delta [1 / 2])
             (map IZR (firstn 5 l)) (map IZR (skipn 5 l)) in
  let q := ratio_value b64num (1 # 2) in
  let s := run (psq_push b64num [q]) (psq_clear b64num [q]) (psq_init b64num [q])
             (pushes (map b64_of_Z l)) in
  mk_h m 2%nat = 11 /\ psq_get b64num [q] s 1 = Some (b64_of_Z 12) /\
  forall eps, exists h, psq_get (exact eps) (rqs eps [1 / 2])
    (run_psq eps [1 / 2] (pushes (map IZR l))) 1 = Some (Fin h) /\ 12 < h.
Proof. exact c38_refuted. Qed.
Print Assumptions C38_published_algorithm_refuted.

(** C38_threshold_refuted: the values 1 to 7 and the median: in the published
    algorithm the median marker is still at 3 (it is off by one only after the
    marker above it made room), the estimator reports 4. *)
Theorem C38_threshold_refuted : exists (l : list Z),
  let m := p2_run published_linear far_published 5 (p2_delta [1 / 2])
             (map IZR (firstn 5 l)) (map IZR (skipn 5 l)) in
  let q := ratio_value b64num (1 # 2) in
  let s := run (psq_push b64num [q]) (psq_clear b64num [q]) (psq_init b64num [q])
             (pushes (map b64_of_Z l)) in
  mk_h m 2%nat = 3 /\ psq_get b64num [q] s 1 = Some (b64_of_Z 4).
Proof. exact c38_threshold_refuted. Qed.
Print Assumptions C38_threshold_refuted.

(** C39_value_by_ratio_partial: if the ratios are listed in strictly
    ascending order between 0 and 1, value<q_i>() is get<i>(), value<0>() the
    minimum and value<1>() the maximum, for every arithmetic and every state.
    Missing: other listing orders (C39_value_by_ratio_refuted). *)
Theorem C39_value_by_ratio_partial : forall (F : num) (of_ratio : Q -> F) (ratios : list Q) (s : psq F),
  StronglySorted Qlt (0%Q :: ratios ++ [1%Q]) ->
  let get := psq_get F (map of_ratio ratios) s in
  let value := psq_value F of_ratio ratios s in
  (forall i q, nth_error ratios i = Some q -> value q = get (S i)) /\
  value 0%Q = get 0%nat /\ value 1%Q = get (length ratios + 1)%nat.
Proof. exact c39_partial. Qed.
Print Assumptions C39_value_by_ratio_partial.

(** C39_value_by_ratio_partial_ex: the quartiles. *)
Example C39_value_by_ratio_partial_ex :
  StronglySorted Qlt (0 :: [1 # 4; 1 # 2; 3 # 4] ++ [1])%Q.
Proof. exact c39_partial_ex. Qed.

(** C39_default: if the ratios are listed in strictly ascending order,
    value() and get() without argument are value<q>() for the middle ratio q,
    the upper one of the two in the middle of an even number of ratios. *)
Theorem C39_default : forall (F : num) (of_ratio : Q -> F) (below above : list Q) (q : Q) (s : psq F),
  let ratios := below ++ q :: above in
  StronglySorted Qlt (0%Q :: ratios ++ [1%Q]) ->
  (length below = length above \/ length below = S (length above)) ->
  psq_value_default F of_ratio ratios s = psq_value F of_ratio ratios s q /\
  psq_get_default F (map of_ratio ratios) s = psq_value F of_ratio ratios s q.
Proof. exact c39_default. Qed.
Print Assumptions C39_default.

(** C39_default_ex: the quartiles; the default is the median. *)
Example C39_default_ex :
  StronglySorted Qlt (0 :: ([1 # 4] ++ (1 # 2) :: [3 # 4]) ++ [1])%Q /\
  length [1 # 4]%Q = length [3 # 4]%Q.
Proof. exact c39_default_ex. Qed.

(** C39_value_few: for ratios listed in strictly ascending order and a
    history of 1 to 2Q+3 values since the last clear, value<q>() is the
    interpolated order statistic of rank (n-1)*q, q the ratio as a real
    number. *)
Theorem C39_value_few : forall (eps : R) (ratios : list Q) (ops : list (op R)) (s : list R) (q : Q),
  StronglySorted Qlt (0%Q :: ratios ++ [1%Q]) ->
  (N.of_nat (2 * length ratios + 3) < szmod)%N ->
  let l := since_clear ops in
  order_statistics l s ->
  l <> [] -> (length l <= 2 * length ratios + 3)%nat ->
  In q ratios ->
  let qs := map (ratio_value (exact eps)) ratios in
  psq_value (exact eps) (ratio_value (exact eps)) ratios
    (run (psq_push (exact eps) qs) (psq_clear (exact eps) qs) (psq_init (exact eps) qs)
       (map (op_map Fin) ops)) q
  = Some (Fin (interpolate s (INR (length l - 1) * Q2R q))).
Proof. exact c39_few. Qed.
Print Assumptions C39_value_few.

(** C39_value_few_ex: the quartiles of three values after a clear. *)
Example C39_value_few_ex :
  let ratios := [1 # 4; 1 # 2; 3 # 4]%Q in
  let ops := [Push 9; Clear; Push 3; Push 1; Push 2] in
  StronglySorted Qlt (0%Q :: ratios ++ [1%Q]) /\
  order_statistics (since_clear ops) [1; 2; 3] /\ In (3 # 4)%Q ratios /\
  interpolate [1; 2; 3] (INR (length (since_clear ops) - 1) * Q2R (3 # 4)) = 5 / 2.
Proof. exact c39_few_ex. Qed.

(** C39_ratio_binary64: in binary64 a ratio n/d with magnitudes up to 2^53
    and at most 1 becomes the double nearest to it (ties to even). *)
Theorem C39_ratio_binary64 : forall q : Q,
  (0 <= q)%Q -> (q <= 1)%Q -> (Zpos (Qden q) <= 2 ^ 53)%Z ->
  Binary64.b64_finite (ratio_value b64num q) /\
  Binary64.b64_real (ratio_value b64num q) = Binary64.rnd64 (Q2R q).
Proof. exact c39_ratio64. Qed.
Print Assumptions C39_ratio_binary64.

(** C39_ratio_binary64_ex: one tenth. *)
Example C39_ratio_binary64_ex :
  (0 <= 1 # 10)%Q /\ (1 # 10 <= 1)%Q /\ (10 <= 2 ^ 53)%Z /\
  ratio_value b64num (1 # 10) = S754_finite false 7205759403792794 (-56).
Proof. exact c39_ratio64_ex. Qed.

(** C39_value_by_ratio_refuted: with the ratios listed as 3/4, 1/4 the
    estimator over 1, 2, 3, 4, 5 returns 2 for value<3/4>() and 4 for
    value<1/4>(). *)
Theorem C39_value_by_ratio_refuted : exists (ratios : list Q) (l : list b64num),
  let qs := map (ratio_value b64num) ratios in
  let s := run (psq_push b64num qs) (psq_clear b64num qs) (psq_init b64num qs) (pushes l) in
  ratios = [3 # 4; 1 # 4]%Q /\ l = map b64_of_Z [1; 2; 3; 4; 5]%Z /\
  psq_value b64num (ratio_value b64num) ratios s (3 # 4)%Q = Some (b64_of_Z 2) /\
  psq_value b64num (ratio_value b64num) ratios s (1 # 4)%Q = Some (b64_of_Z 4).
Proof. exact c39_refuted. Qed.
Print Assumptions C39_value_by_ratio_refuted.

(** C40_affine: for every list of quantiles below 1, every non-empty
    history and every a > 0 and b, pushing a*x+b instead of x changes every
    estimate v to a*v+b; if all values are equal every estimate is that
    value. *)
Theorem C40_affine : forall (eps a b : R) (qs : list R) (ops : list (op R)) (i : nat),
  0 < a -> Forall (fun q => 0 <= q < 1) qs ->
  (N.of_nat (2 * length qs + 3) < szmod)%N ->
  let l := since_clear ops in
  l <> [] -> fits l -> (i <= length qs + 1)%nat ->
  let F := exact eps in
  exists v,
    psq_get F (rqs eps qs) (run_psq eps qs ops) i = Some (Fin v) /\
    psq_get F (rqs eps qs)
      (run_psq eps qs (map (op_map (fun x => a * x + b)) ops)) i = Some (Fin (a * v + b)) /\
    forall c, (forall x, In x l -> x = c) -> v = c.
Proof. exact c40. Qed.
Print Assumptions C40_affine.

(** C40_affine_ex: six values, beyond the exact phase of a median. *)
Example C40_affine_ex :
  let ops := [Push 1; Clear; Push 5; Push 2; Push 8; Push 9; Push 1; Push 3] in
  since_clear ops = [5; 2; 8; 9; 1; 3] /\ since_clear ops <> [] /\ fits (since_clear ops) /\
  Forall (fun q => 0 <= q < 1) [1 / 2] /\
  (2 * length [1 / 2] + 3 < length (since_clear ops))%nat.
Proof. exact c40_ex. Qed.

(** C41_restore_partial: for every arithmetic, every history (NaN
    included) and every target estimator, if counts up to the number of values
    (and up to 2Q+3) survive the conversion to the value type and back, restoring
    parameters() is defined and reproduces them; if exactly 2Q+3 values were
    pushed all estimates are reproduced, and if more were pushed the minimum and
    the maximum.  Missing: the other estimates (C41_restore_refuted), larger
    counts (C41_restore_float_refuted). *)
Theorem C41_restore_partial : forall (F : num) (qs : list F) (ops : list (op F)) (t : psq F),
  let l := since_clear ops in
  fits l -> (N.of_nat (2 * length qs + 3) < szmod)%N ->
  counts_convert F (N.max (N.of_nat (length l)) (N.of_nat (2 * length qs + 3))) ->
  let s := run (psq_push F qs) (psq_clear F qs) (psq_init F qs) ops in
  exists r, psq_restore F qs t (psq_parameters F s) = Some r /\
  psq_parameters F r = psq_parameters F s /\
  psq_size F r = N.of_nat (2 * length qs + 3) /\
  (length l = 2 * length qs + 3 -> forall i, psq_get F qs r i = psq_get F qs s i)%nat /\
  (2 * length qs + 3 <= length l ->
     psq_get F qs r 0 = psq_get F qs s 0 /\
     psq_get F qs r (length qs + 1) = psq_get F qs s (length qs + 1))%nat.
Proof. exact c41_partial. Qed.
Print Assumptions C41_restore_partial.

(** C41_restore_partial_ex: as many values as markers and more values, in
    exact arithmetic (for double see C41_restore_double). *)
Example C41_restore_partial_ex :
  let l := [1; 2; 3; 4; 5] in
  length (since_clear (pushes l)) = (2 * length [1 / 2] + 3)%nat /\
  fits (since_clear (pushes (l ++ [0]))) /\
  counts_convert (exact 0) (N.max (N.of_nat (length (l ++ [0]))) (N.of_nat (2 * length [1 / 2] + 3))).
Proof. exact c41_partial_ex. Qed.

(** C41_restore_state: for every arithmetic, what a restored estimator
    reports from then on depends on the restored data and the values pushed
    afterwards only, not on what was pushed to it before: for any two target
    histories, any data and any further history, restoring is defined for both
    or for neither, and all estimates, size() and parameters() agree. *)
Theorem C41_restore_state : forall (F : num) (qs : list F) (ops1 ops2 more : list (op F)) (data : list (N * F)),
  let target ops := run (psq_push F qs) (psq_clear F qs) (psq_init F qs) ops in
  let after r := run (psq_push F qs) (psq_clear F qs) r more in
  (psq_restore F qs (target ops1) data = None <-> psq_restore F qs (target ops2) data = None) /\
  forall r1 r2, psq_restore F qs (target ops1) data = Some r1 ->
    psq_restore F qs (target ops2) data = Some r2 ->
    psq_parameters F (after r1) = psq_parameters F (after r2) /\
    psq_size F (after r1) = psq_size F (after r2) /\
    forall i, psq_get F qs (after r1) i = psq_get F qs (after r2) i.
Proof. exact c41_state. Qed.
Print Assumptions C41_restore_state.

(** C41_restore_state_ex: a used and a new estimator of the first quartile,
    both restored from the parameters of a third; after one more value both
    report the same, not trivial, parameters. *)
Example C41_restore_state_ex :
  let q := ratio_value b64num (1 # 4) in
  let target l := run (psq_push b64num [q]) (psq_clear b64num [q]) (psq_init b64num [q])
                    (pushes (map b64_of_Z l)) in
  let data := psq_parameters b64num (target [1; 2; 3; 4; 5; 6; 7; 8]%Z) in
  let after l := option_map (fun r => psq_parameters b64num (psq_push b64num [q] r (b64_of_Z 0)))
                   (psq_restore b64num [q] (target l) data) in
  after [] = after [5; 5; 5; 9; 9; 9; 9]%Z /\
  option_map (map fst) (after []) = Some [1; 2; 3; 5; 9]%N.
Proof. exact c41_state_ex. Qed.

(** C41_restore_even_partial: in exact arithmetic every estimate is
    reproduced if the quantiles are evenly spaced, q_i = i/(Q+1) (in particular
    for a single median), and at least 2Q+3 values were pushed. *)
Theorem C41_restore_even_partial : forall (eps : R) (qs : list R) (ops : list (op R)) (t : psq (exact eps)) (i : nat),
  (N.of_nat (2 * length qs + 3) < szmod)%N ->
  let l := since_clear ops in
  fits l -> (2 * length qs + 3 <= length l)%nat ->
  (forall k q, nth_error qs k = Some q -> q = INR (S k) / INR (S (length qs))) ->
  (i <= length qs + 1)%nat ->
  let F := exact eps in
  let s := run_psq eps qs ops in
  exists v r, psq_get F (rqs eps qs) s i = Some (Fin v) /\
    psq_restore F (rqs eps qs) t (psq_parameters F s) = Some r /\
    psq_get F (rqs eps qs) r i = Some (Fin v).
Proof. exact c41_even. Qed.
Print Assumptions C41_restore_even_partial.

(** C41_restore_even_partial_ex: the quartiles and ten values. *)
Example C41_restore_even_partial_ex :
  let qs := [1 / 4; 1 / 2; 3 / 4] in
  (forall k q, nth_error qs k = Some q -> q = INR (S k) / INR (S (length qs))) /\
  (2 * length qs + 3 <= length [5; 1; 9; 2; 2; 7; 3; 8; 4; 6])%nat.
Proof. exact c41_even_ex. Qed.

(** C41_restore_refuted: an estimator of the first quartile, a new one and
    the restored parameters: after 1..6 the estimate is 3, restored it is 2;
    after 1..3 the maximum is 3, restored it is 0. *)
Theorem C41_restore_refuted : exists (q : b64num) (l l' : list b64num),
  let run l := run (psq_push b64num [q]) (psq_clear b64num [q]) (psq_init b64num [q])
                 (pushes l) in
  let restored l := psq_restore b64num [q] (psq_init b64num [q])
                      (psq_parameters b64num (run l)) in
  let get := psq_get b64num [q] in
  let get_restored l i := match restored l with Some r => get r i | None => None end in
  q = ratio_value b64num (1 # 4) /\
  l = map b64_of_Z [1; 2; 3; 4; 5; 6]%Z /\ l' = map b64_of_Z [1; 2; 3]%Z /\
  get (run l) 1%nat = Some (b64_of_Z 3) /\ get_restored l 1%nat = Some (b64_of_Z 2) /\
  get (run l') 2%nat = Some (b64_of_Z 3) /\ get_restored l' 2%nat = Some (b64_of_Z 0).
Proof. exact c41_refuted. Qed.
Print Assumptions C41_restore_refuted.

(** C42_bookkeeping: for every arithmetic, quantile list and history,
    size() counts the values since the last clear, empty() says whether there are
    none, get() and value() of an empty estimator are 0 for every index, and
    after clear() the estimator equals a new one. *)
Theorem C42_bookkeeping : forall (F : num) (qs : list F) (ops : list (op F)),
  let l := since_clear ops in
  fits l ->
  let clear := psq_clear F qs in
  let s := run (psq_push F qs) clear (psq_init F qs) ops in
  psq_size F s = N.of_nat (length l) /\
  psq_empty F s = (match l with [] => true | _ => false end) /\
  (l = [] -> forall i, psq_get F qs s i = Some n0) /\
  clear s = psq_init F qs /\
  (l = [] -> s = psq_init F qs).
Proof. exact c42. Qed.
Print Assumptions C42_bookkeeping.

(** C42_bookkeeping_ex: binary64 with a NaN before the clear. *)
Example C42_bookkeeping_ex :
  let ops := [Push S754_nan; Clear; Push (b64_of_Z 1); Push (b64_of_Z 2)] in
  since_clear ops = [b64_of_Z 1; b64_of_Z 2] /\ fits (since_clear ops).
Proof. exact c42_ex. Qed.
