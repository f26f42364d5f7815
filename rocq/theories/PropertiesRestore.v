(** * Property theorems: Restore

    Statements only; every proof is [exact] of a lemma in ClaimsRestore.v.
    Generated by tools/mkprops.py. *)

From Coq Require Import QArith_base Reals ZArith NArith List Bool Sorting.Sorted.
From Coq Require Import Floats.SpecFloat.
From Flocq Require Import Core.
From Verif Require Import Arith History SpecOrder SpecParameters Psquare Ieee Binary64 Rounded.
Import ListNotations.
Local Open Scope R_scope.
From Verif Require Import ClaimsRestore.

(** C41_restore_formats: in every IEEE value type with [prec] bits (at most
    62), for every list of Q quantiles, every history (NaN and infinities
    included) with at most 2^prec values since the last clear and every target
    estimator, restoring parameters() is defined and reproduces them. *)
Theorem C41_restore_formats : forall (prec emax : Z),
  (1 < prec)%Z -> (prec < emax)%Z -> (prec <= 62)%Z ->
  let F := ieee prec emax in
  forall (qs : list F) (ops : list (op F)) (t : psq F),
  (Z.of_nat (length (since_clear ops)) <= 2 ^ prec)%Z -> (Z.of_nat (2 * length qs + 3) <= 2 ^ prec)%Z ->
  let s := run (psq_push F qs) (psq_clear F qs) (psq_init F qs) ops in
  exists r, psq_restore F qs t (psq_parameters F s) = Some r /\
    psq_parameters F r = psq_parameters F s.
Proof. exact c41_formats. Qed.
Print Assumptions C41_restore_formats.

(** C41_restore_formats_ex: float, ten values, quartiles. *)
Example C41_restore_formats_ex :
  let ops := map (fun z => Push (ieee_of_Z 24 128 z)) [3; 1; 4; 1; 5; 9; 2; 6; 5; 3]%Z in
  (1 < 24)%Z /\ (24 < 128)%Z /\ (24 <= 62)%Z /\
  (Z.of_nat (length (since_clear ops)) <= 2 ^ 24)%Z /\ (Z.of_nat (2 * 3 + 3) <= 2 ^ 24)%Z.
Proof. exact c41_formats_ex. Qed.

(** C41_restore_float_refuted: in every IEEE value type with [prec] bits (float
    included), after 2^prec+1 finite values, whatever they are and whatever the
    quantiles, the saved position of the last marker is 2^prec+1 but the restored
    one is 2^prec: parameters() of the restored estimator is not what was
    saved. *)
Theorem C41_restore_float_refuted : forall (prec emax : Z),
  (1 < prec)%Z -> (64 < emax)%Z -> (prec <= 62)%Z ->
  let F := ieee prec emax in
  forall (qs : list F) (ops : list (op F)) (t : psq F),
  let l := since_clear ops in
  Forall (ieee_finite prec emax) l -> Z.of_nat (length l) = (2 ^ prec + 1)%Z -> (2 * length qs + 3 <= length l)%nat ->
  let s := run (psq_push F qs) (psq_clear F qs) (psq_init F qs) ops in
  nth_error (map fst (psq_parameters F s)) (2 * length qs + 2) = Some (Z.to_N (2 ^ prec + 1)) /\
  exists r, psq_restore F qs t (psq_parameters F s) = Some r /\
    nth_error (map fst (psq_parameters F r)) (2 * length qs + 2) = Some (Z.to_N (2 ^ prec)) /\
    psq_parameters F r <> psq_parameters F s.
Proof. exact c41_float_refuted. Qed.
Print Assumptions C41_restore_float_refuted.

(** C41_restore_float_refuted_ex: float, a median, 2^24+1 ones. *)
Example C41_restore_float_refuted_ex : exists l : list (ieee 24 128),
  (1 < 24)%Z /\ (64 < 128)%Z /\ (24 <= 62)%Z /\
  Forall (ieee_finite 24 128) (since_clear (pushes l)) /\ Z.of_nat (length (since_clear (pushes l))) = (2 ^ 24 + 1)%Z /\
  (2 * length [ratio_value (ieee 24 128) (1 # 2)] + 3 <= length (since_clear (pushes l)))%nat.
Proof. exact c41_float_refuted_ex. Qed.

(** C113_extremes: for every arithmetic whose comparisons form a total order
    on the values, every list of Q quantiles, any history with at least 2Q+3 values
    [l], and counts that survive the conversion to the value type: save
    parameters(), restore them into any estimator, push any further values [m].
    Then get<0> is the smallest and get<Q+1> the largest of all the values, before
    and after; the positions in parameters() increase from 1 to the number of all
    the values; size() counts 2Q+3 and the values in [m]. *)
Theorem C113_extremes : forall (F : num) (P : F -> Prop) (qs : list F) (ops : list (op F)) (t r : psq F) (m : list F),
  total_on F P ->
  let l := since_clear ops in
  Forall P l -> Forall P m -> (2 * length qs + 3 <= length l)%nat ->
  (N.of_nat (length (l ++ m)) < szmod)%N -> counts_convert F (N.of_nat (length l)) ->
  let s := run (psq_push F qs) (psq_clear F qs) (psq_init F qs) ops in
  psq_restore F qs t (psq_parameters F s) = Some r ->
  let c := run (psq_push F qs) (psq_clear F qs) r (pushes m) in
  let p := map fst (psq_parameters F c) in
  (exists lo hi, psq_get F qs c 0 = Some lo /\ is_min F (l ++ m) lo /\
     psq_get F qs c (length qs + 1) = Some hi /\ is_max F (l ++ m) hi) /\
  length p = (2 * length qs + 3)%nat /\ StronglySorted N.lt p /\
  nth_error p 0 = Some 1%N /\ nth_error p (2 * length qs + 2) = Some (N.of_nat (length (l ++ m))) /\
  psq_size F c = N.of_nat (2 * length qs + 3 + length m).
Proof. exact c113_extremes. Qed.
Print Assumptions C113_extremes.

(** C113_extremes_ex: a double estimator of the first quartile, eight values,
    restored into a used estimator, three more. *)
Example C113_extremes_ex :
  let q := ratio_value b64num (1 # 4) in
  let target l := run (psq_push b64num [q]) (psq_clear b64num [q]) (psq_init b64num [q])
                    (pushes (map b64_of_Z l)) in
  let l := [5; 2; 8; 1; 6; 7; 3; 4]%Z in
  (exists r, psq_restore b64num [q] (target [9; 9]%Z) (psq_parameters b64num (target l)) = Some r) /\
  Forall not_nan (map b64_of_Z l) /\ total_on b64num not_nan /\ counts_convert b64num 8 /\ (2 * length [q] + 3 <= length l)%nat.
Proof. exact c113_extremes_ex. Qed.

(** C113_ordered: in double, for every list of Q quantiles: save the
    parameters() of an estimator with at least 2Q+3 finite values, restore them into
    any estimator and push more, at most 2^27 values altogether and of magnitude at
    most 2^980.  The restored heights and those after every further value are
    finite, in ascending order and between the smallest and the largest of all the
    values, before and after. *)
Theorem C113_ordered : forall (qs : list b64num) (ops : list (op b64num)) (t r : psq b64num) (m : list b64num),
  let l := since_clear ops in
  Forall (fun x : b64num => b64_finite x /\ Rabs (b64_real x) <= bpow radix2 980) (l ++ m) ->
  (2 * length qs + 3 <= length l)%nat -> (N.of_nat (length (l ++ m)) <= 2 ^ 27)%N ->
  let s := run (psq_push b64num qs) (psq_clear b64num qs) (psq_init b64num qs) ops in
  psq_restore b64num qs t (psq_parameters b64num s) = Some r ->
  let c := run (psq_push b64num qs) (psq_clear b64num qs) r (pushes m) in
  let h := map snd (psq_parameters b64num c) in
  length h = (2 * length qs + 3)%nat /\
  Forall b64_finite h /\ StronglySorted Rle (map b64_real h) /\
  Forall (fun v => in_hull v (map b64_real (l ++ m))) (map b64_real h).
Proof. exact c113_ordered. Qed.
Print Assumptions C113_ordered.

(** C113_ordered_ex: a median of six values, restored and continued with three
    values of very different size. *)
Example C113_ordered_ex :
  let q := ratio_value b64num (1 # 2) in
  let l := map b64_of_Z [3; 1; 2; 5; 4; 9]%Z in
  let m := map b64_of_Z [-1000000; 4; 1000000]%Z in
  Forall (fun x : b64num => b64_finite x /\ Rabs (b64_real x) <= bpow radix2 980) (since_clear (pushes l) ++ m) /\
  (2 * length [q] + 3 <= length l)%nat /\ (N.of_nat (length (l ++ m)) <= 2 ^ 27)%N /\
  exists r, psq_restore b64num [q] (psq_init b64num [q])
    (psq_parameters b64num (run (psq_push b64num [q]) (psq_clear b64num [q]) (psq_init b64num [q]) (pushes l))) = Some r.
Proof. exact c113_ordered_ex. Qed.

(** C113_refuted: parameters() saved before 2Q+3 values were pushed cannot be
    continued: the median of 5, 6 and 7 is 6, but if the parameters are saved after
    5 and 6, restored and continued with 7, it is 0, outside the range of the
    values; size() is 6 instead of 3. *)
Theorem C113_refuted : exists (l m : list b64num),
  let q := ratio_value b64num (1 # 2) in
  let s := run (psq_push b64num [q]) (psq_clear b64num [q]) (psq_init b64num [q]) (pushes l) in
  l = map b64_of_Z [5; 6]%Z /\ m = [b64_of_Z 7] /\
  exists r, psq_restore b64num [q] (psq_init b64num [q]) (psq_parameters b64num s) = Some r /\
  let c := run (psq_push b64num [q]) (psq_clear b64num [q]) r (pushes m) in
  psq_get b64num [q] c 1 = Some (b64_of_Z 0) /\ psq_size b64num c = 6%N /\
  psq_get b64num [q] (run (psq_push b64num [q]) (psq_clear b64num [q]) (psq_init b64num [q]) (pushes (l ++ m))) 1 = Some (b64_of_Z 6).
Proof. exact c113_refuted. Qed.
Print Assumptions C113_refuted.

(** C113_defined: for every arithmetic, restoring is defined only if the data
    has at least 2Q+3 elements, and then if all its positions survive the conversion
    to the value type and back (as counts up to 2^prec do). *)
Theorem C113_defined : forall (F : num) (qs : list F) (t : psq F) (data : list (N * F)) (n : N),
  ((length data < 2 * length qs + 3)%nat -> psq_restore F qs t data = None) /\
  ((2 * length qs + 3 <= length data)%nat -> counts_convert F n -> Forall (fun e => (fst e <= n)%N) data ->
   exists r, psq_restore F qs t data = Some r /\ psq_parameters F r = firstn (2 * length qs + 3) data).
Proof. exact c113_defined. Qed.
Print Assumptions C113_defined.

(** C113_defined_ex: the parameters of a median estimator (5 elements) are not
    enough for quartiles (9 elements); those of quartiles are enough for a
    median. *)
Example C113_defined_ex :
  let h := ratio_value b64num (1 # 2) in
  let qs := map (ratio_value b64num) [(1 # 4)%Q; (1 # 2)%Q; (3 # 4)%Q] in
  (length (psq_parameters b64num (psq_init b64num [h])) < 2 * length qs + 3)%nat /\
  (2 * length [h] + 3 <= length (psq_parameters b64num (psq_init b64num qs)))%nat /\
  counts_convert b64num 9 /\
  Forall (fun e => (fst e <= 9)%N) (psq_parameters b64num (psq_init b64num qs)).
Proof. exact c113_defined_ex. Qed.
