(** * Property theorems: Impulse

    Statements only; every proof is [exact] of a lemma in ClaimsImpulse.v.
    Generated by tools/mkprops.py. *)

From Coq Require Import Reals ZArith NArith Bool List.
From Coq Require Import Floats.SpecFloat.
From Verif Require Import Arith History SpecStats SpecImpulse Impulse ExactRuns ImpulseRuns.
Import ListNotations.
Local Open Scope R_scope.
From Verif Require Import ClaimsImpulse.

(** C45_fir_convolution: for every non-empty coefficient array and every
    history of pushes and clears, value() of the finite filter is the
    convolution of the coefficients with the values since the last clear (as
    soon as there is one), read at the latest of them. *)
Theorem C45_fir_convolution : forall (eps : R) (c : list R) (ops : list (op R)),
  c <> [] -> since_clear ops <> [] ->
  fir_value (exact eps) (run_fir eps c ops) =
  Fin (convolution c (since_clear ops) (length (since_clear ops) - 1)).
Proof. exact c45. Qed.
Print Assumptions C45_fir_convolution.

(** C45_fir_convolution_ex: coefficients 2, 3, 5; after a clear 1, 10, 100,
    1000 give 2*1000 + 3*100 + 5*10 = 2350. *)
Example C45_fir_convolution_ex :
  let c := [2; 3; 5] in
  let ops := [Push 7; Clear; Push 1; Push 10; Push 100; Push 1000] in
  c <> [] /\ since_clear ops = [1; 10; 100; 1000] /\
  convolution c [1; 10; 100; 1000] 3 = 2350.
Proof. exact c45_ex. Qed.

(** C45_fir_order: in every arithmetic (hence bit for bit in binary64)
    value() is the sum of the products of the latest values with the
    coefficients, added from the newest value to the oldest, starting at 0. *)
Theorem C45_fir_order : forall (F : num) (c : list F) (ops : list (op F)),
  c <> [] -> since_clear ops <> [] ->
  let h := since_clear ops in
  fir_value F (fir_run F c ops) = dot_before F c h (length h).
Proof. exact c45_any. Qed.
Print Assumptions C45_fir_order.

(** C45_fir_order_ex: in binary64 with all coefficients 1, pushing 1, then
    1e16, then -1e16 gives 1 (newest first), whereas adding oldest first would
    give 0. *)
Example C45_fir_order_ex :
  let z := fun k => b64_of_Z k : b64num in
  let c := [z 1%Z; z 1%Z; z 1%Z] in
  let h := [z 1%Z; z 10000000000000000%Z; z (-10000000000000000)%Z] in
  c <> [] /\ since_clear (pushes h) <> [] /\
  dot_before b64num c h 3 = z 1%Z /\
  fold_left (@nadd b64num) h n0 = z 0%Z.
Proof. exact c45_any_ex. Qed.

(** C45_fir_bookkeeping: in every arithmetic, after any history with n
    values since the last clear and P coefficients, size() is min(P, n),
    empty() holds when n = 0, full() when n >= P, and capacity() is P. *)
Theorem C45_fir_bookkeeping : forall (F : num) (c : list F) (ops : list (op F)),
  c <> [] ->
  let s := fir_run F c ops in
  let n := length (since_clear ops) in
  fir_size F s = N.of_nat (Nat.min (length c) n) /\
  (fir_empty F s = true <-> n = 0%nat) /\
  (fir_full F s = true <-> (length c <= n)%nat) /\
  fir_capacity F s = N.of_nat (length c).
Proof. exact c45_size. Qed.
Print Assumptions C45_fir_bookkeeping.

(** C45_fir_bookkeeping_ex: two coefficients, three pushes: full with size
    2. *)
Example C45_fir_bookkeeping_ex :
  let z := fun k => b64_of_Z k : b64num in
  let s := fir_run b64num [z 1%Z; z 2%Z] (pushes [z 1%Z; z 2%Z; z 3%Z]) in
  fir_size b64num s = 2%N /\ fir_full b64num s = true /\ fir_empty b64num s = false.
Proof. exact c45_size_ex. Qed.

(** C45_fir_linear: the response to a linear combination of two input
    sequences of equal length is the linear combination of the responses. *)
Theorem C45_fir_linear : forall (eps : R) (c : list R) (u v : R) (x y : list R),
  c <> [] -> x <> [] -> length x = length y ->
  exists p q : R,
    fir_value (exact eps) (run_fir eps c (pushes x)) = Fin p /\
    fir_value (exact eps) (run_fir eps c (pushes y)) = Fin q /\
    fir_value (exact eps) (run_fir eps c (pushes (combination u v x y))) = Fin (u * p + v * q).
Proof. exact c45_linear. Qed.
Print Assumptions C45_fir_linear.

(** C45_fir_linear_ex: 2*(1,2) - (3,0) is (-1,4). *)
Example C45_fir_linear_ex :
  [1; 2] <> [] /\ length [1; 2] = length [3; 0] /\ combination 2 (-1) [1; 2] [3; 0] = [-1; 4].
Proof. exact c45_linear_ex. Qed.

(** C45_fir_memory: in every arithmetic, value() depends only on the
    last P values: any two histories whose values since the last clear end with
    the same P values agree. *)
Theorem C45_fir_memory : forall (F : num) (c : list F) (ops1 ops2 : list (op F)) (p q l : list F),
  c <> [] -> (length c <= length l)%nat ->
  since_clear ops1 = p ++ l -> since_clear ops2 = q ++ l ->
  fir_value F (fir_run F c ops1) = fir_value F (fir_run F c ops2).
Proof. exact c45_memory. Qed.
Print Assumptions C45_fir_memory.

(** C45_fir_memory_ex: two histories that end with 3, 4. *)
Example C45_fir_memory_ex :
  since_clear [Push 9; Clear; Push 1; Push 3; Push 4] = [1] ++ [3; 4] /\
  since_clear [Push 5; Push 6; Push 3; Push 4] = [5; 6] ++ [3; 4] /\
  (length [1; 1] <= length [3; 4])%nat.
Proof. exact c45_memory_ex. Qed.

(** C45_fir_delay: the filter is shift invariant: preceding the input by
    any number of zeros does not change the response. *)
Theorem C45_fir_delay : forall (eps : R) (c x : list R) (k : nat),
  c <> [] -> x <> [] ->
  fir_value (exact eps) (run_fir eps c (pushes (repeat 0 k ++ x))) =
  fir_value (exact eps) (run_fir eps c (pushes x)).
Proof. exact c45_delay. Qed.
Print Assumptions C45_fir_delay.

(** C45_fir_delay_ex: 3, 4 delayed by two zeros. *)
Example C45_fir_delay_ex : repeat 0 2 ++ [3; 4] = [0; 0; 3; 4] /\ [1; 2] <> [] /\ [3; 4] <> [].
Proof. exact c45_delay_ex. Qed.

(** C45_fir_impulse_response: after an impulse (a 1 followed by k zeros)
    value() is the coefficient of index k, and 0 once k reaches the number of
    coefficients. *)
Theorem C45_fir_impulse_response : forall (eps : R) (c : list R) (k : nat),
  c <> [] ->
  fir_value (exact eps) (run_fir eps c (pushes (1 :: repeat 0 k))) = Fin (nth k c 0).
Proof. exact c45_impulse. Qed.
Print Assumptions C45_fir_impulse_response.

(** C45_fir_impulse_response_ex: the third response of 2, 3, 5 is 5, the
    fourth is 0. *)
Example C45_fir_impulse_response_ex : [2; 3; 5] <> [] /\ nth 2 [2; 3; 5] 0 = 5 /\ nth 3 [2; 3; 5] 0 = 0.
Proof. exact c45_impulse_ex. Qed.

(** C45_fir_bounded: if every value since the last clear is at most M in
    magnitude then so is value() up to the sum of the magnitudes of the
    coefficients. *)
Theorem C45_fir_bounded : forall (eps : R) (c : list R) (ops : list (op R)) (M : R),
  c <> [] -> since_clear ops <> [] ->
  (forall x, In x (since_clear ops) -> Rabs x <= M) ->
  exists v, fir_value (exact eps) (run_fir eps c ops) = Fin v /\ Rabs v <= abs_sum c * M.
Proof. exact c45_bound. Qed.
Print Assumptions C45_fir_bounded.

(** C45_fir_bounded_ex: coefficients 2, -3 and values in [-1, 1]: the bound
    5 is attained by -1, 1. *)
Example C45_fir_bounded_ex :
  abs_sum [2; -3] * 1 = 5 /\ convolution [2; -3] [-1; 1] 1 = 5 /\
  (forall x, In x [-1; 1] -> Rabs x <= 1).
Proof. exact c45_bound_ex. Qed.

(** C46_fir_clear_refuted: clear() does not reset value(): there are
    coefficients and a push after which clear() leaves value() unlike that of
    any new filter. *)
Theorem C46_fir_clear_refuted :
  exists (c : list b64num) (x : b64num),
    c <> [] /\
    fir_value b64num (fir_run b64num c [Push x; Clear]) <>
    fir_value b64num (fir_new b64num c) /\
    fir_value b64num (fir_run b64num c [Push x; Clear]) =
    fir_value b64num (fir_run b64num c [Push x]) /\
    fir_empty b64num (fir_run b64num c [Push x; Clear]) = true.
Proof. exact c46_refuted. Qed.
Print Assumptions C46_fir_clear_refuted.

(** C46_fir_clear_partial: what does hold of clear(), in every
    arithmetic.  size(), empty(), full() and capacity() after clear() and any
    further calls equal those of a new filter given the same further calls, and
    so does value() once one value has been pushed after the last clear().
    Missing: value() between clear() and the next push. *)
Theorem C46_fir_clear_partial : forall (F : num) (c : list F) (ops ops' : list (op F)),
  c <> [] ->
  let s := fir_run F c (ops ++ Clear :: ops') in
  let s' := fir_run F c ops' in
  fir_size F s = fir_size F s' /\
  fir_empty F s = fir_empty F s' /\
  fir_full F s = fir_full F s' /\
  fir_capacity F s = fir_capacity F s' /\
  (since_clear ops' <> [] -> fir_value F s = fir_value F s').
Proof. exact c46_partial. Qed.
Print Assumptions C46_fir_clear_partial.

(** C46_fir_clear_partial_ex: values before the clear do not leak into a
    filter with two coefficients. *)
Example C46_fir_clear_partial_ex :
  let z := fun k => b64_of_Z k : b64num in
  since_clear [Push (z 3%Z)] <> [] /\
  fir_value b64num (fir_run b64num [z 1%Z; z 1%Z] [Push (z 5%Z); Clear; Push (z 3%Z)]) = z 3%Z.
Proof. exact c46_partial_ex. Qed.

(** C47_iir_difference_equation: for all coefficient arrays, every scale
    other than 0 and every history, the difference equation with zero initial
    conditions has exactly one solution over the values since the last clear,
    and value() of the infinite filter is its last term (0 when there is
    none). *)
Theorem C47_iir_difference_equation : forall (eps : R) (b a : list R) (scale : R) (ops : list (op R)),
  b <> [] -> a <> [] -> scale <> 0 ->
  exists y,
    difference_equation b a scale (since_clear ops) y /\
    (forall y', difference_equation b a scale (since_clear ops) y' -> y' = y) /\
    iir_value (exact eps) (run_iir eps b a scale ops) = Fin (last y 0).
Proof. exact c47. Qed.
Print Assumptions C47_iir_difference_equation.

(** C47_iir_difference_equation_ex: y_n = (x_n + y_(n-1)) / 2 on 4, 8 gives
    2, 5. *)
Example C47_iir_difference_equation_ex :
  [1] <> [] /\ [-1] <> [] /\ 2 <> 0 /\ difference_equation [1] [-1] 2 [4; 8] [2; 5].
Proof. exact c47_ex. Qed.

(** C47_iir_order: in every arithmetic (hence bit for bit in binary64)
    the outputs follow the recursion y_n = (sum_i b_i x_(n-i) - sum_j a_j
    y_(n-1-j)) / scale with both sums added from the newest term to the
    oldest. *)
Theorem C47_iir_order : forall (F : num) (b a : list F) (scale : F) (ops : list (op F)),
  b <> [] -> a <> [] ->
  exists y,
    length y = length (since_clear ops) /\
    iir_value F (iir_run F b a scale ops) = last y n0 /\
    forall n, (n < length y)%nat ->
      nth n y n0 =
      ndiv (nsub (dot_before F b (since_clear ops) (S n)) (dot_before F a y n)) scale.
Proof. exact c47_any. Qed.
Print Assumptions C47_iir_order.

(** C47_iir_order_ex: y_n = x_n - y_(n-1)/2 in binary64 on 8, 8, 8 gives
    8, 4, 6. *)
Example C47_iir_order_ex :
  let z := fun k => b64_of_Z k : b64num in
  let half := ndiv (z 1%Z) (z 2%Z) in
  let f := fun l => iir_value b64num (iir_run b64num [z 1%Z] [half] (z 1%Z) (pushes l)) in
  [z 1%Z] <> [] /\ [half] <> [] /\
  f [z 8%Z; z 8%Z] = z 4%Z /\ f [z 8%Z; z 8%Z; z 8%Z] = z 6%Z.
Proof. exact c47_any_ex. Qed.

(** C47_iir_clear: in every arithmetic, clear() after any history leaves
    exactly the state of a new filter with the same coefficients and scale, so
    value() is 0, empty() holds and all later behaviour is that of a new
    filter; otherwise empty() holds just when nothing has been pushed since. *)
Theorem C47_iir_clear : forall (F : num) (b a : list F) (scale : F) (ops ops' : list (op F)),
  b <> [] -> a <> [] ->
  iir_run F b a scale (ops ++ [Clear]) = iir_new F b a scale /\
  iir_value F (iir_new F b a scale) = n0 /\
  iir_value F (iir_run F b a scale (ops ++ Clear :: ops')) =
  iir_value F (iir_run F b a scale ops') /\
  (iir_empty F (iir_run F b a scale ops) = true <-> since_clear ops = []).
Proof. exact c47_clear. Qed.
Print Assumptions C47_iir_clear.

(** C47_iir_clear_ex: an output before the clear would otherwise be fed
    back. *)
Example C47_iir_clear_ex :
  let z := fun k => b64_of_Z k : b64num in
  let f := fun ops => iir_value b64num (iir_run b64num [z 1%Z] [z 1%Z] (z 1%Z) ops) in
  f [Push (z 5%Z); Push (z 3%Z)] = z (-2)%Z /\
  f [Push (z 5%Z); Clear; Push (z 3%Z)] = z 3%Z /\
  f [Push (z 5%Z); Clear] = z 0%Z.
Proof. exact c47_clear_ex. Qed.

(** C47_iir_linear: the response to a linear combination of two input
    sequences of equal length is the linear combination of the responses, and
    preceding the input by any number of zeros does not change the response. *)
Theorem C47_iir_linear : forall (eps : R) (b a : list R) (scale u v : R) (x y : list R) (k : nat),
  b <> [] -> a <> [] -> scale <> 0 -> length x = length y ->
  exists p q : R,
    iir_value (exact eps) (run_iir eps b a scale (pushes x)) = Fin p /\
    iir_value (exact eps) (run_iir eps b a scale (pushes y)) = Fin q /\
    iir_value (exact eps) (run_iir eps b a scale (pushes (combination u v x y))) =
    Fin (u * p + v * q) /\
    iir_value (exact eps) (run_iir eps b a scale (pushes (repeat 0 k ++ x))) = Fin p.
Proof. exact c47_linear. Qed.
Print Assumptions C47_iir_linear.

(** C47_iir_linear_ex: a filter with scale 2. *)
Example C47_iir_linear_ex : [1] <> [] /\ [-1] <> [] /\ 2 <> 0 /\ length [4; 8] = length [0; 1].
Proof. exact c47_linear_ex. Qed.
