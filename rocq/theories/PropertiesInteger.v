(** * Property theorems: Integer

    Statements only; every proof is [exact] of a lemma in ClaimsInteger.v.
    Generated by tools/mkprops.py. *)

From Coq Require Import ZArith NArith List Bool.
From Verif Require Import History Arith CInt IntMoments SpecInt.
Import ListNotations.
Local Open Scope Z_scope.
From Verif Require Import ClaimsInteger.

(** C58_mean_partial: for every integer type and history such that, after
    every prefix, the number of values since the last clear does not exceed the
    largest value of the type and the difference of any two of them is
    representable in the promoted type: no push has undefined behaviour, mean()
    lies between the smallest and the largest value since the last clear, and
    differs from the true mean by at most (n-1)/2 after n values. *)
Theorem C58_mean_partial : forall (T : ity) (ops : list (op Z)), In T all_ity ->
  (forall pre post, ops = pre ++ post ->
    let l := since_clear pre in
    Z.of_nat (length l) <= imax T /\
    Forall (fun x => imin T <= x <= imax T) l /\
    forall x y, In x l -> In y l -> imin (promote T) <= x - y <= imax (promote T)) ->
  let l := since_clear ops in
  let n := Z.of_nat (length l) in
  exists s, run_opt (icm_push T) icm_clear icm_init ops = Some s /\
    icm_count s = N.of_nat (length l) /\
    (l = [] -> icm_mean s = 0) /\
    (l <> [] -> zhull (icm_mean s) l) /\
    2 * Z.abs (n * icm_mean s - zsum l) <= n * (n - 1).
Proof. exact c58_mean. Qed.
Print Assumptions C58_mean_partial.

(** C58_mean_partial_ex: the bounds are attained in 8-bit: 0, 1, 2, 3 after a
    clear; the mean is 0, the true mean 3/2. *)
Example C58_mean_partial_ex :
  let ops := [Push (-100); Push 100; Clear; Push 0; Push 1; Push 2; Push 3] in
  In int8 all_ity /\
  (forall pre post, ops = pre ++ post ->
    let l := since_clear pre in
    Z.of_nat (length l) <= imax int8 /\
    Forall (fun x => imin int8 <= x <= imax int8) l /\
    forall x y, In x l -> In y l -> imin (promote int8) <= x - y <= imax (promote int8)) /\
  run_opt (icm_push int8) icm_clear icm_init ops = Some (ICM 0 4) /\
  zsum (since_clear ops) = 6.
Proof. exact c58_mean_ex. Qed.

(** C58_accuracy_refuted: in every integer type, for every bound K that
    fits, there are histories of values in range for which mean() is defined but
    further than K from the true mean. *)
Theorem C58_accuracy_refuted : forall (T : ity) (K : Z), In T all_ity -> 0 <= K -> 2 * K + 2 <= imax T ->
  exists (l : list Z) (s : icm),
    Forall (fun x => imin T <= x <= imax T) l /\
    run_opt (icm_push T) icm_clear icm_init (pushes l) = Some s /\
    K * Z.of_nat (length l) < Z.abs (Z.of_nat (length l) * icm_mean s - zsum l).
Proof. exact c58_accuracy. Qed.
Print Assumptions C58_accuracy_refuted.

(** C58_accuracy_refuted_ex: more than fifty units off in 8-bit. *)
Example C58_accuracy_refuted_ex : In int8 all_ity /\ 0 <= 50 /\ 2 * 50 + 2 <= imax int8.
Proof. exact c58_accuracy_ex. Qed.

(** C58_count_ub: in every integer type, whatever the values: a history
    with 2^bits or more pushes since the last clear has undefined behaviour (the
    count converts to the divisor 0). *)
Theorem C58_count_ub : forall (T : ity) (ops : list (op Z)), In T all_ity ->
  2 ^ ibits T <= Z.of_nat (length (since_clear ops)) ->
  run_opt (icm_push T) icm_clear icm_init ops = None.
Proof. exact c58_count. Qed.
Print Assumptions C58_count_ub.

(** C58_count_ub_ex: 256 pushes to an 8-bit filter. *)
Example C58_count_ub_ex :
  In int8 all_ity /\ 2 ^ ibits int8 <= Z.of_nat (length (since_clear (pushes (repeat 1 256)))).
Proof. exact c58_count_ex. Qed.

(** C58_no_ub_refuted: push() has undefined behaviour for 256 equal 8-bit
    values, and for the two int values 2^31-1, -2. *)
Theorem C58_no_ub_refuted : exists l1 l2 : list Z,
  Forall (fun x => imin int8 <= x <= imax int8) l1 /\
  run_opt (icm_push int8) icm_clear icm_init (pushes l1) = None /\
  Forall (fun x => imin int32 <= x <= imax int32) l2 /\
  run_opt (icm_push int32) icm_clear icm_init (pushes l2) = None.
Proof. exact c58_no_ub. Qed.
Print Assumptions C58_no_ub_refuted.

(** C58_hull_refuted: mean() can leave the range of the values without
    undefined behaviour: 127 times -100 then 100 in 8-bit gives -101; 2 then 0 in
    32-bit unsigned gives 2^31+1. *)
Theorem C58_hull_refuted : exists l1 l2 : list Z,
  Forall (fun x => imin int8 <= x <= imax int8) l1 /\
  (exists s, run_opt (icm_push int8) icm_clear icm_init (pushes l1) = Some s /\
    ~ zhull (icm_mean s) l1) /\
  Forall (fun x => imin uint32 <= x <= imax uint32) l2 /\
  (exists s, run_opt (icm_push uint32) icm_clear icm_init (pushes l2) = Some s /\
    ~ zhull (icm_mean s) l2).
Proof. exact c58_hull. Qed.
Print Assumptions C58_hull_refuted.

(** C22_drift_refuted: in every signed integer type and for every k with
    2k <= 2^(bits-1) there is a history of 2+6k values between -2 and 0, ending
    with 0, 0, after which the window of capacity 2 holds 0, 0 but mean() is -2k:
    the error grows without bound. *)
Theorem C22_drift_refuted : forall (T : ity) (k : nat), In T all_ity -> isigned T = true ->
  2 * Z.of_nat k <= 2 ^ (ibits T - 1) ->
  exists l : list Z,
    length l = (2 + 6 * k)%nat /\ Forall (fun x => -2 <= x <= 0) l /\
    lastn 2 l = [0; 0] /\
    exists s, run_opt (iwm_push T 2) iwm_clear iwm_init (pushes l) = Some s /\
      iwm_window s = [0; 0] /\ iwm_mean s = - (2 * Z.of_nat k).
Proof. exact c22_drift. Qed.
Print Assumptions C22_drift_refuted.

(** C22_drift_refuted_ex: a thousand rounds in int: mean() is -2000 for a
    window of zeros. *)
Example C22_drift_refuted_ex :
  In int32 all_ity /\ isigned int32 = true /\ 2 * Z.of_nat 1000 <= 2 ^ (ibits int32 - 1).
Proof. exact c22_drift_ex. Qed.

(** C22_drift_partial: for every integer type and capacity W, if after
    every prefix the n values since the last clear lie in [lo,hi] with n units of
    room on both sides and their differences are representable: no push has
    undefined behaviour, the window holds the last W values, mean() is within
    their range until the window has filled, and afterwards the error is less
    than one unit per value pushed. *)
Theorem C22_drift_partial : forall (T : ity) (W : nat) (lo hi : Z) (ops : list (op Z)),
  In T all_ity -> (0 < W)%nat -> Z.of_nat W <= imax T ->
  (forall pre post, ops = pre ++ post ->
    let l := since_clear pre in
    Forall (fun x => lo <= x <= hi) l /\
    imin T <= lo - Z.of_nat (length l) /\ hi + Z.of_nat (length l) <= imax T /\
    forall x y, In x l -> In y l -> imin (promote T) <= x - y <= imax (promote T)) ->
  let l := since_clear ops in
  let w := lastn W l in
  let k := Z.of_nat (length w) in
  exists s, run_opt (iwm_push T W) iwm_clear iwm_init ops = Some s /\
    iwm_window s = w /\
    ((length l <= W)%nat -> l <> [] -> zhull (iwm_mean s) l) /\
    (l <> [] -> Z.abs (k * iwm_mean s - zsum w) <= Z.of_nat (length l) * (k - 1)).
Proof. exact c22_bound. Qed.
Print Assumptions C22_drift_partial.

(** C22_drift_partial_ex: capacity 2 over int with values between -2 and 0. *)
Example C22_drift_partial_ex :
  let ops := [Push 0; Push 0; Push (-2); Push (-2); Push (-1)] in
  In int32 all_ity /\ (0 < 2)%nat /\ Z.of_nat 2 <= imax int32 /\
  (forall pre post, ops = pre ++ post ->
    let l := since_clear pre in
    Forall (fun x => -2 <= x <= 0) l /\
    imin int32 <= -2 - Z.of_nat (length l) /\ 0 + Z.of_nat (length l) <= imax int32 /\
    forall x y, In x l -> In y l -> imin (promote int32) <= x - y <= imax (promote int32)).
Proof. exact c22_bound_ex. Qed.

(** C30_negative_refuted: interim::moment<int, 2> given -1, -1, -1 reports
    mean() = 1431655764: the weighted sum is computed in std::size_t and divided
    as an unsigned number. *)
Theorem C30_negative_refuted : exists l s m,
  Forall (fun x => imin int32 <= x <= imax int32) l /\
  run_opt (iim_push int32 2) iim_clear iim_init (pushes l) = Some s /\
  iim_mean int32 2 s = Some m /\ ~ zhull m (lastn 4 l).
Proof. exact c30_negative. Qed.
Print Assumptions C30_negative_refuted.

(** C30_nonnegative_partial: for every integer type and window W with 2W
    representable, and histories of values between 0 and hi whose differences are
    representable, where hi * 2W < 2^64: no undefined behaviour, and mean() lies
    between the smallest and the largest of the last 2W values since the last
    clear. *)
Theorem C30_nonnegative_partial : forall (T : ity) (W : nat) (hi : Z) (ops : list (op Z)),
  In T all_ity -> (0 < W)%nat -> 2 * Z.of_nat W <= imax T -> hi <= imax T ->
  hi * (2 * Z.of_nat W) < 2 ^ 64 ->
  (forall pre post, ops = pre ++ post ->
    let l := since_clear pre in
    Forall (fun x => 0 <= x <= hi) l /\
    forall x y, In x l -> In y l -> imin (promote T) <= x - y <= imax (promote T)) ->
  since_clear ops <> [] ->
  exists s m, run_opt (iim_push T (N.of_nat W)) iim_clear iim_init ops = Some s /\
    iim_mean T (N.of_nat W) s = Some m /\ zhull m (lastn (2 * W) (since_clear ops)).
Proof. exact c30_nonnegative. Qed.
Print Assumptions C30_nonnegative_partial.

(** C30_nonnegative_partial_ex: window 2 over int: 10, 20, 40; mean() is
    31. *)
Example C30_nonnegative_partial_ex :
  let ops := [Push 10; Push 20; Push 40] in
  In int32 all_ity /\ (0 < 2)%nat /\ 2 * Z.of_nat 2 <= imax int32 /\ 100 <= imax int32 /\
  100 * (2 * Z.of_nat 2) < 2 ^ 64 /\
  (forall pre post, ops = pre ++ post ->
    let l := since_clear pre in
    Forall (fun x => 0 <= x <= 100) l /\
    forall x y, In x l -> In y l -> imin (promote int32) <= x - y <= imax (promote int32)) /\
  since_clear ops <> [] /\
  bind (run_opt (iim_push int32 2) iim_clear iim_init ops) (iim_mean int32 2) = Some 31.
Proof. exact c30_nonnegative_ex. Qed.

(** C62_fir_modular: for every integer type, coefficients and history
    without undefined behaviour, value() of the finite impulse response filter is
    the value of the type congruent to the inner product of the coefficients with
    the most recent values, newest first, modulo 2^bits. *)
Theorem C62_fir_modular : forall (T : ity) (c : list Z) (ops : list (op Z)) (s : ifir),
  In T all_ity -> c <> [] ->
  run_opt (ifir_push T) ifir_clear (ifir_new c) ops = Some s ->
  let l := since_clear ops in l <> [] ->
  imin T <= ifir_output s <= imax T /\
  exists q, ifir_output s = zdot (rev l) c + q * 2 ^ ibits T.
Proof. exact c62_modular. Qed.
Print Assumptions C62_fir_modular.

(** C62_fir_modular_ex: 8-bit coefficients 100, 1: the input 3, 2 gives
    203 - 256 = -53. *)
Example C62_fir_modular_ex :
  In int8 all_ity /\ [100; 1] <> [] /\
  run_opt (ifir_push int8) ifir_clear (ifir_new [100; 1]) [Push 3; Push 2] = Some (IFIR [2; 3] (-53) [100; 1]) /\
  since_clear [Push 3; Push 2] <> [].
Proof. exact c62_modular_ex. Qed.

(** C62_fir_clear: for every integer type and history without undefined
    behaviour, a further clear() is defined and forgets the values pushed, but
    leaves value() as it was (so that C46 fails for integers as well). *)
Theorem C62_fir_clear : forall (T : ity) (c : list Z) (ops : list (op Z)) (s : ifir),
  run_opt (ifir_push T) ifir_clear (ifir_new c) ops = Some s ->
  exists s', run_opt (ifir_push T) ifir_clear (ifir_new c) (ops ++ [Clear]) = Some s' /\
    ifir_output s' = ifir_output s /\ ifir_input s' = [].
Proof. exact c62_clear. Qed.
Print Assumptions C62_fir_clear.

(** C62_fir_clear_ex: 8-bit coefficients 2, 1: the input 3 gives 6, also
    after clear(), while a new filter gives 0. *)
Example C62_fir_clear_ex :
  run_opt (ifir_push int8) ifir_clear (ifir_new [2; 1]) [Push 3] = Some (IFIR [3] 6 [2; 1]) /\
  ifir_output (ifir_new [2; 1]) = 0.
Proof. exact c62_clear_ex. Qed.

(** C62_fir_defined_partial: for the 8-bit types, signed 16-bit and the
    32- and 64-bit unsigned types no push has undefined behaviour, for all
    coefficients and values of the type. *)
Theorem C62_fir_defined_partial : forall (T : ity) (c : list Z) (ops : list (op Z)),
  In T [int8; int16; uint8; uint32; uint64] -> c <> [] ->
  Forall (fun x => imin T <= x <= imax T) c ->
  (forall pre post, ops = pre ++ post -> Forall (fun x => imin T <= x <= imax T) (since_clear pre)) ->
  exists s, run_opt (ifir_push T) ifir_clear (ifir_new c) ops = Some s.
Proof. exact c62_defined. Qed.
Print Assumptions C62_fir_defined_partial.

(** C62_fir_defined_partial_ex: the extreme values of signed 16-bit. *)
Example C62_fir_defined_partial_ex :
  let ops := [Push (-32768); Push 32767] in
  In int16 [int8; int16; uint8; uint32; uint64] /\ [-32768; -32768] <> [] /\
  Forall (fun x => imin int16 <= x <= imax int16) [-32768; -32768] /\
  (forall pre post, ops = pre ++ post -> Forall (fun x => imin int16 <= x <= imax int16) (since_clear pre)).
Proof. exact c62_defined_ex. Qed.

(** C62_fir_exact: for every integer type: if no value exceeds M in
    magnitude and M times the sum of the magnitudes of the coefficients fits the
    type (nothing negative for an unsigned type), then no push has undefined
    behaviour and value() is exactly the inner product of the coefficients with
    the most recent values. *)
Theorem C62_fir_exact : forall (T : ity) (c : list Z) (ops : list (op Z)) (M : Z),
  In T all_ity -> c <> [] ->
  M * zsum (map Z.abs c) <= imax T ->
  (isigned T = false -> Forall (fun x => 0 <= x) c) ->
  (forall pre post, ops = pre ++ post ->
     Forall (fun x => Z.abs x <= M /\ (isigned T = false -> 0 <= x)) (since_clear pre)) ->
  exists s, run_opt (ifir_push T) ifir_clear (ifir_new c) ops = Some s /\
    let l := since_clear ops in
    (l <> [] -> ifir_output s = zdot (rev l) c).
Proof. exact c62_exact. Qed.
Print Assumptions C62_fir_exact.

(** C62_fir_exact_ex: int, coefficients 1000000, -2, 3 and values up to
    2000. *)
Example C62_fir_exact_ex :
  let ops := [Push 2000; Clear; Push (-2000); Push 1] in
  In int32 all_ity /\ [1000000; -2; 3] <> [] /\
  2000 * zsum (map Z.abs [1000000; -2; 3]) <= imax int32 /\
  (isigned int32 = false -> Forall (fun x => 0 <= x) [1000000; -2; 3]) /\
  (forall pre post, ops = pre ++ post ->
     Forall (fun x => Z.abs x <= 2000 /\ (isigned int32 = false -> 0 <= x)) (since_clear pre)) /\
  zdot (rev (since_clear ops)) [1000000; -2; 3] = 1004000.
Proof. exact c62_exact_ex. Qed.

(** C62_int_refuted: for int a single push of a value of the type is
    undefined behaviour when the product overflows: 2 times 2147483647. *)
Theorem C62_int_refuted : exists c x : Z,
  imin int32 <= c <= imax int32 /\ imin int32 <= x <= imax int32 /\
  run_opt (ifir_push int32) ifir_clear (ifir_new [c]) [Push x] = None.
Proof. exact c62_int. Qed.
Print Assumptions C62_int_refuted.

(** C62_uint16_refuted: for unsigned 16-bit a single push is undefined
    behaviour: 65535 * 65535 overflows the promoted type int. *)
Theorem C62_uint16_refuted : exists c x : Z,
  imin uint16 <= c <= imax uint16 /\ imin uint16 <= x <= imax uint16 /\
  run_opt (ifir_push uint16) ifir_clear (ifir_new [c]) [Push x] = None.
Proof. exact c62_uint16. Qed.
Print Assumptions C62_uint16_refuted.

(** C63_variance_nonnegative_partial: for int and the signed 64-bit type, in
    every history without undefined behaviour and with at most the largest value
    of the type pushes between clears, variance() is not negative. *)
Theorem C63_variance_nonnegative_partial : forall (T : ity) (ops : list (op Z)) (s : icv) (v : Z),
  T = int32 \/ T = int64 ->
  (forall pre post, ops = pre ++ post -> Z.of_nat (length (since_clear pre)) <= imax T) ->
  run_opt (icv_push T) icv_clear icv_init ops = Some s ->
  icv_variance T s = Some v -> 0 <= v.
Proof. exact c63_variance. Qed.
Print Assumptions C63_variance_nonnegative_partial.

(** C63_variance_nonnegative_partial_ex: 0, 20 over int: variance 100. *)
Example C63_variance_nonnegative_partial_ex :
  let ops := [Push 0; Push 20] in
  (int32 = int32 \/ int32 = int64) /\
  (forall pre post, ops = pre ++ post -> Z.of_nat (length (since_clear pre)) <= imax int32) /\
  run_opt (icv_push int32) icv_clear icv_init ops = Some (ICV (ICM 10 2) 200) /\
  icv_variance int32 (ICV (ICM 10 2) 200) = Some 100.
Proof. exact c63_variance_ex. Qed.

(** C63_int8_refuted: in 8-bit the same values 0, 20 give variance() =
    -28: the sum is converted to the value type. *)
Theorem C63_int8_refuted : exists l s v,
  Forall (fun x => imin int8 <= x <= imax int8) l /\
  run_opt (icv_push int8) icv_clear icv_init (pushes l) = Some s /\
  icv_variance int8 s = Some v /\ v < 0.
Proof. exact c63_int8. Qed.
Print Assumptions C63_int8_refuted.

(** C63_covariance_refuted: covariance<int> of the decreasing points (0,0),
    (2,-2), (1,-1) is positive, 1431655764: a negative co-moment is divided by a
    std::size_t. *)
Theorem C63_covariance_refuted : exists l s v,
  (forall x y, In (x, y) l -> y = - x) /\
  run_opt (icc_push int32) icc_clear icc_init (pushes l) = Some s /\
  icc_variance int32 s = Some v /\ 0 < v.
Proof. exact c63_covariance. Qed.
Print Assumptions C63_covariance_refuted.

(** C64_unbiased_mean_refuted: for int, four values -3 have mean() = -3 but
    unbiased_mean() = 1431655761 instead of -4. *)
Theorem C64_unbiased_mean_refuted : exists l s m,
  run_opt (icm_push int32) icm_clear icm_init (pushes l) = Some s /\
  icm_unbiased_mean int32 s = Some m /\
  m <> Z.quot (icm_mean s * Z.of_nat (length l)) (Z.of_nat (length l) - 1).
Proof. exact c64_negative. Qed.
Print Assumptions C64_unbiased_mean_refuted.

(** C64_unbiased_mean_partial: for every integer type and history of at
    least two values without undefined behaviour: if mean() is not negative, the
    count fits the type and the result fits too, unbiased_mean() is
    mean() * n / (n - 1) rounded towards zero. *)
Theorem C64_unbiased_mean_partial : forall (T : ity) (ops : list (op Z)) (s : icm),
  In T all_ity ->
  run_opt (icm_push T) icm_clear icm_init ops = Some s ->
  let n := Z.of_nat (length (since_clear ops)) in
  2 <= n -> n <= imax T -> 0 <= icm_mean s -> icm_mean s * n < 2 ^ 64 ->
  Z.quot (icm_mean s * n) (n - 1) <= imax T ->
  icm_unbiased_mean T s = Some (Z.quot (icm_mean s * n) (n - 1)).
Proof. exact c64_nonnegative. Qed.
Print Assumptions C64_unbiased_mean_partial.

(** C64_unbiased_mean_partial_ex: 3, 3, 3, 3 over int: 4. *)
Example C64_unbiased_mean_partial_ex :
  let ops := pushes [3; 3; 3; 3] in let s := ICM 3 4 in
  In int32 all_ity /\ run_opt (icm_push int32) icm_clear icm_init ops = Some s /\
  2 <= Z.of_nat (length (since_clear ops)) <= imax int32 /\ 0 <= icm_mean s /\
  icm_mean s * 4 < 2 ^ 64 /\ Z.quot (icm_mean s * 4) (4 - 1) <= imax int32 /\
  icm_unbiased_mean int32 s = Some 4.
Proof. exact c64_nonnegative_ex. Qed.

(** C73_mean: for every integer type and history such that, after every
    prefix, the values since the last clear have an integer mean, are not more
    than the largest value of the type and have representable differences:
    mean() is exactly their mean. *)
Theorem C73_mean : forall (T : ity) (ops : list (op Z)), In T all_ity ->
  (forall pre post, ops = pre ++ post ->
    let l := since_clear pre in
    (Z.of_nat (length l) <= imax T /\
     Forall (fun x => imin T <= x <= imax T) l /\
     forall x y, In x l -> In y l -> imin (promote T) <= x - y <= imax (promote T)) /\
    integral_mean l) ->
  let l := since_clear ops in
  exists s, run_opt (icm_push T) icm_clear icm_init ops = Some s /\
    icm_count s = N.of_nat (length l) /\ Z.of_nat (length l) * icm_mean s = zsum l.
Proof. exact c73_mean. Qed.
Print Assumptions C73_mean.

(** C73_mean_ex: 8-bit values 7, -3, -1, 9 after a clear; mean 3. *)
Example C73_mean_ex :
  let ops := [Push 5; Clear; Push 7; Push (-3); Push (-1); Push 9] in
  In int8 all_ity /\
  (forall pre post, ops = pre ++ post ->
    let l := since_clear pre in
    (Z.of_nat (length l) <= imax int8 /\
     Forall (fun x => imin int8 <= x <= imax int8) l /\
     forall x y, In x l -> In y l -> imin (promote int8) <= x - y <= imax (promote int8)) /\
    integral_mean l) /\
  run_opt (icm_push int8) icm_clear icm_init ops = Some (ICM 3 4).
Proof. exact c73_mean_ex. Qed.

(** C73_variance: if moreover twice the sum of the squared deviations from
    the mean is representable after every prefix, then variance() is that sum
    divided by the number of values, rounded down. *)
Theorem C73_variance : forall (T : ity) (ops : list (op Z)), In T all_ity ->
  (forall pre post, ops = pre ++ post ->
    let l := since_clear pre in
    (Z.of_nat (length l) <= imax T /\
     Forall (fun x => imin T <= x <= imax T) l /\
     forall x y, In x l -> In y l -> imin (promote T) <= x - y <= imax (promote T)) /\
    integral_mean l /\
    2 * zsum (map (fun x => (x - zmean l) ^ 2) l) <= imax T) ->
  let l := since_clear ops in
  l <> [] ->
  exists s, run_opt (icv_push T) icv_clear icv_init ops = Some s /\
    icv_variance T s = Some (zsum (map (fun x => (x - zmean l) ^ 2) l) / Z.of_nat (length l)).
Proof. exact c73_variance. Qed.
Print Assumptions C73_variance.

(** C73_variance_ex: 16-bit values 7, -3, -1, 9 after a clear; the squared
    deviations sum to 104, variance 26. *)
Example C73_variance_ex :
  let ops := [Push 5; Clear; Push 7; Push (-3); Push (-1); Push 9] in
  In int16 all_ity /\
  (forall pre post, ops = pre ++ post ->
    let l := since_clear pre in
    (Z.of_nat (length l) <= imax int16 /\
     Forall (fun x => imin int16 <= x <= imax int16) l /\
     forall x y, In x l -> In y l -> imin (promote int16) <= x - y <= imax (promote int16)) /\
    integral_mean l /\
    2 * zsum (map (fun x => (x - zmean l) ^ 2) l) <= imax int16) /\
  exists s, run_opt (icv_push int16) icv_clear icv_init ops = Some s /\ icv_variance int16 s = Some 26.
Proof. exact c73_variance_ex. Qed.

(** C73_covariance: likewise for pairs: if after every prefix both
    coordinates have integer means and representable differences, and twice the
    sum C of the products of the deviations is representable, then covariance()
    is C divided by the number of values, rounded down, whenever C is not
    negative (C63 covers negative sums). *)
Theorem C73_covariance : forall (T : ity) (ops : list (op (Z * Z))), In T all_ity ->
  (forall pre post, ops = pre ++ post ->
    let l := since_clear pre in
    let fits := fun u : list Z =>
      Z.of_nat (length u) <= imax T /\
      Forall (fun x => imin T <= x <= imax T) u /\
      forall x y, In x u -> In y u -> imin (promote T) <= x - y <= imax (promote T) in
    let C := zcodev (zmean (map fst l)) (zmean (map snd l)) l in
    fits (map fst l) /\ fits (map snd l) /\
    integral_mean (map fst l) /\ integral_mean (map snd l) /\
    2 * Z.abs C <= imax T /\ imin T <= C) ->
  let l := since_clear ops in
  let C := zcodev (zmean (map fst l)) (zmean (map snd l)) l in
  l <> [] -> 0 <= C ->
  exists s, run_opt (icc_push T) icc_clear icc_init ops = Some s /\
    icc_variance T s = Some (C / Z.of_nat (length l)).
Proof. exact c73_covariance. Qed.
Print Assumptions C73_covariance.

(** C73_covariance_ex: 16-bit pairs (7,2), (-3,6), (-1,4), (9,20) after a
    clear; the deviations multiply to 4*(-6) + (-6)*(-2) + (-4)*(-4) + 6*12 = 76,
    covariance 19. *)
Example C73_covariance_ex :
  let ops := [Push (5, 1); Clear; Push (7, 2); Push (-3, 6); Push (-1, 4); Push (9, 20)] in
  In int16 all_ity /\
  (forall pre post, ops = pre ++ post ->
    let l := since_clear pre in
    let fits := fun u : list Z =>
      Z.of_nat (length u) <= imax int16 /\
      Forall (fun x => imin int16 <= x <= imax int16) u /\
      forall x y, In x u -> In y u -> imin (promote int16) <= x - y <= imax (promote int16) in
    let C := zcodev (zmean (map fst l)) (zmean (map snd l)) l in
    fits (map fst l) /\ fits (map snd l) /\
    integral_mean (map fst l) /\ integral_mean (map snd l) /\
    2 * Z.abs C <= imax int16 /\ imin int16 <= C) /\
  exists s, run_opt (icc_push int16) icc_clear icc_init ops = Some s /\ icc_variance int16 s = Some 19.
Proof. exact c73_covariance_ex. Qed.

(** C73_window_mean: for every signed integer type and window size, if
    after every prefix the values since the last clear are at most B in absolute
    value, with 2B representable, and the values in the window have an integer
    mean: the window holds the last values and mean() is exactly their mean. *)
Theorem C73_window_mean : forall (T : ity) (W : nat) (B : Z) (ops : list (op Z)),
  In T all_ity -> isigned T = true -> (0 < W)%nat -> Z.of_nat W <= imax T -> 2 * B <= imax T ->
  (forall pre post, ops = pre ++ post ->
    let l := since_clear pre in
    Forall (fun x => Z.abs x <= B) l /\ integral_mean (lastn W l)) ->
  let w := lastn W (since_clear ops) in
  exists s, run_opt (iwm_push T W) iwm_clear iwm_init ops = Some s /\
    iwm_window s = w /\ Z.of_nat (length w) * iwm_mean s = zsum w.
Proof. exact c73_window_mean. Qed.
Print Assumptions C73_window_mean.

(** C73_window_mean_ex: 8-bit values 1, 3, 5, -1 in a window of two, after a
    clear; mean 2. *)
Example C73_window_mean_ex :
  let ops := [Push 6; Clear; Push 1; Push 3; Push 5; Push (-1)] in
  In int8 all_ity /\ isigned int8 = true /\ (0 < 2)%nat /\ Z.of_nat 2 <= imax int8 /\ 2 * 6 <= imax int8 /\
  (forall pre post, ops = pre ++ post ->
    let l := since_clear pre in
    Forall (fun x => Z.abs x <= 6) l /\ integral_mean (lastn 2 l)) /\
  run_opt (iwm_push int8 2) iwm_clear iwm_init ops = Some (IWM [5; -1] 2).
Proof. exact c73_window_mean_ex. Qed.

(** C73_window_variance: if moreover the type is a signed 32 or 64 bit integer
    and (W+1) * 4B^2 is representable, then variance() is the sum of the squared
    deviations of the values in the window from their mean, divided by their
    number and rounded down. *)
Theorem C73_window_variance : forall (T : ity) (W : nat) (B : Z) (ops : list (op Z)),
  In T [int32; int64] -> (0 < W)%nat -> Z.of_nat W <= imax T -> 2 * B <= imax T ->
  (Z.of_nat W + 1) * (4 * (B * B)) <= imax T ->
  (forall pre post, ops = pre ++ post ->
    let l := since_clear pre in
    Forall (fun x => Z.abs x <= B) l /\ integral_mean (lastn W l)) ->
  let w := lastn W (since_clear ops) in
  w <> [] ->
  exists s, run_opt (iwv_push T W) iwv_clear iwv_init ops = Some s /\
    iwv_variance T s = Some (zsum (map (fun x => (x - zmean w) ^ 2) w) / Z.of_nat (length w)).
Proof. exact c73_window_variance. Qed.
Print Assumptions C73_window_variance.

(** C73_window_variance_ex: values 1, 3, 5, -1 over int in a window of two,
    after a clear; variance 9. *)
Example C73_window_variance_ex :
  let ops := [Push 6; Clear; Push 1; Push 3; Push 5; Push (-1)] in
  In int32 [int32; int64] /\ (0 < 2)%nat /\ Z.of_nat 2 <= imax int32 /\ 2 * 6 <= imax int32 /\
  (Z.of_nat 2 + 1) * (4 * (6 * 6)) <= imax int32 /\
  (forall pre post, ops = pre ++ post ->
    let l := since_clear pre in
    Forall (fun x => Z.abs x <= 6) l /\ integral_mean (lastn 2 l)) /\
  exists s, run_opt (iwv_push int32 2) iwv_clear iwv_init ops = Some s /\ iwv_variance int32 s = Some 9.
Proof. exact c73_window_variance_ex. Qed.
