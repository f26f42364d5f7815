(** * Property theorems: Utility

    Statements only; every proof is [exact] of a lemma in ClaimsUtility.v.
    Generated by tools/mkprops.py. *)

From Coq Require Import List Arith NArith ZArith Reals Bool.
From Coq Require Import Floats.SpecFloat.
From Flocq Require Import Core.
From Verif Require Import Arith PushIterator SpecPushAll CloseTo Binary64 Cumulative.
Import ListNotations.
Local Open Scope R_scope.
From Verif Require Import ClaimsUtility.

(** C56_copy: for every filter type and push function, every memory of
    filters and every filter in it: std::copy (and std::move) through
    push_inserter succeeds exactly when pushing the values one by one does, and
    then leaves that filter in the state those pushes produce and every other
    filter alone. *)
Theorem C56_copy : forall (S A : Type) (push : S -> A -> option S)
    (xs : list A) (mem : list S) (a : nat) (s : S),
  nth_error mem a = Some s ->
  match push_all push s xs with
  | Some s' => exists mem', std_copy push xs mem (push_inserter a) = Some (mem', push_inserter a) /\
                            only_changed mem mem' a s'
  | None => std_copy push xs mem (push_inserter a) = None
  end.
Proof. exact c56_copy. Qed.
Print Assumptions C56_copy.

(** C56_copy_ex: copying 1, 2, 6 into the second of two binary64 cumulative
    means gives it mean 3 and leaves the first at its initial state. *)
Example C56_copy_ex :
  let push := fun (s : cmean b64num) x => Some (cmean_push b64num s x) in
  let mem := [cmean_init b64num; cmean_init b64num] in
  match std_copy push [b64_of_Z 1; b64_of_Z 2; b64_of_Z 6] mem (push_inserter 1) with
  | Some (mem', _) => map (fun s => (cmean_mean b64num s : b64, cmean_size b64num s)) mem' =
                      [(b64_of_Z 0, 0%N); (b64_of_Z 3, 3%N)]
  | None => False
  end.
Proof. exact c56_copy_ex. Qed.

(** C56_copy_if: std::copy_if through push_inserter pushes exactly the
    selected values, in order. *)
Theorem C56_copy_if : forall (S A : Type) (push : S -> A -> option S) (p : A -> bool)
    (xs : list A) (mem : list S) (a : nat) (s : S),
  nth_error mem a = Some s ->
  match push_all push s (filter p xs) with
  | Some s' => exists mem', std_copy_if push p xs mem (push_inserter a) = Some (mem', push_inserter a) /\
                            only_changed mem mem' a s'
  | None => std_copy_if push p xs mem (push_inserter a) = None
  end.
Proof. exact c56_copy_if. Qed.
Print Assumptions C56_copy_if.

(** C56_copy_if_ex: only the even values arrive. *)
Example C56_copy_if_ex :
  std_copy_if (fun (s : list nat) x => Some (s ++ [x])) Nat.even [1; 2; 3; 4; 6]%nat
    [[]; [0]]%nat (push_inserter 1) = Some ([[]; [0; 2; 4; 6]]%nat, push_inserter 1).
Proof. exact c56_copy_if_ex. Qed.

(** C56_transform: std::transform through push_inserter pushes the
    transformed values in order. *)
Theorem C56_transform : forall (S A B : Type) (push : S -> A -> option S) (f : B -> A)
    (xs : list B) (mem : list S) (a : nat) (s : S),
  nth_error mem a = Some s ->
  match push_all push s (map f xs) with
  | Some s' => exists mem', std_transform push f xs mem (push_inserter a) = Some (mem', push_inserter a) /\
                            only_changed mem mem' a s'
  | None => std_transform push f xs mem (push_inserter a) = None
  end.
Proof. exact c56_transform. Qed.
Print Assumptions C56_transform.

(** C56_transform_ex: squares arrive in order. *)
Example C56_transform_ex :
  std_transform (fun (s : list nat) x => Some (s ++ [x])) (fun x => x * x)%nat [1; 2; 3]%nat
    [[]] (push_inserter 0) = Some ([[1; 4; 9]]%nat, push_inserter 0).
Proof. exact c56_transform_ex. Qed.

(** C56_postfix: loops written with postfix increments ( *it++ = x ) have
    the same effect as std::copy, for every iterator, valid or not. *)
Theorem C56_postfix : forall (S A : Type) (push : S -> A -> option S)
    (xs : list A) (mem : list S) (it : piter),
  post_copy push xs mem it = std_copy push xs mem it.
Proof. exact c56_postfix. Qed.
Print Assumptions C56_postfix.

(** C56_postfix_ex: two values through a postfix loop. *)
Example C56_postfix_ex :
  post_copy (fun (s : list nat) x => Some (s ++ [x])) [7; 8]%nat [[]] (push_inserter 0) =
  Some ([[7; 8]]%nat, push_inserter 0).
Proof. exact c56_postfix_ex. Qed.

(** C56_interleaved: a program writing through any number of push
    iterators in any interleaving pushes to every filter exactly the values
    written through iterators for it, in program order. *)
Theorem C56_interleaved : forall (S A : Type) (push : S -> A -> option S)
    (os : list pi_op) (ws : list (nat * A)) (mem : list S),
  Forall2 write_of os ws ->
  Forall (fun w => (fst w < length mem)%nat) ws ->
  (forall a s, nth_error mem a = Some s -> push_all push s (written a ws) <> None) ->
  exists mem', pi_program push mem os = Some mem' /\
    length mem' = length mem /\
    forall a s, nth_error mem a = Some s -> nth_error mem' a = push_all push s (written a ws).
Proof. exact c56_interleaved. Qed.
Print Assumptions C56_interleaved.

(** C56_interleaved_ex: writes alternating between two containers. *)
Example C56_interleaved_ex :
  let push := fun (s : list nat) x => Some (s ++ [x]) in
  let ws := [(0, 5); (1, 6); (0, 7)]%nat in
  let os := [Write (push_inserter 0) 5; WriteInc (push_inserter 1) 6;
             WriteInc (push_inserter 0) 7]%nat in
  Forall2 write_of os ws /\ written 0 ws = [5; 7]%nat /\
  pi_program push [[]; []] os = Some [[5; 7]; [6]]%nat.
Proof. exact c56_interleaved_ex. Qed.

(** C56_null: a write through a default constructed iterator is
    undefined; copying an empty range through one is not. *)
Theorem C56_null : forall (S A : Type) (push : S -> A -> option S) (xs : list A) (mem : list S),
  std_copy push xs mem pi_null = match xs with [] => Some (mem, pi_null) | _ => None end.
Proof. exact c56_null. Qed.
Print Assumptions C56_null.

(** C56_null_ex: one value. *)
Example C56_null_ex :
  std_copy (fun (s : list nat) x => Some (s ++ [x])) [1]%nat [[]] pi_null = None.
Proof. exact c56_null_ex. Qed.

(** C57_symmetric: on doubles, NaN and infinities included, and for all
    tolerances, the order of the arguments does not matter. *)
Theorem C57_symmetric : forall (t : closeness b64num) (x y : b64),
  close_to t x y = close_to t y x.
Proof. exact c57_symmetric. Qed.
Print Assumptions C57_symmetric.

(** C57_symmetric_ex: 100 and 101 are close at 2 percent and apart at
    half a percent, either way round. *)
Example C57_symmetric_ex :
  let two_percent := @ndiv b64num (b64_of_Z 2) (b64_of_Z 100) in
  let half_percent := @ndiv b64num (b64_of_Z 1) (b64_of_Z 200) in
  close_to (n := b64num) (ct_relative_only two_percent) (b64_of_Z 100) (b64_of_Z 101) = true /\
  close_to (n := b64num) (ct_relative_only two_percent) (b64_of_Z 101) (b64_of_Z 100) = true /\
  close_to (n := b64num) (ct_relative_only half_percent) (b64_of_Z 100) (b64_of_Z 101) = false /\
  close_to (n := b64num) (ct_relative_only half_percent) (b64_of_Z 101) (b64_of_Z 100) = false.
Proof. exact c57_symmetric_ex. Qed.

(** C57_never_close: NaN and the infinities are close to nothing, not
    even to themselves, whatever the tolerances. *)
Theorem C57_never_close : forall (t : closeness b64num) (x y : b64),
  x = S754_nan \/ (exists s, x = S754_infinity s) ->
  close_to t x y = false /\ close_to t y x = false.
Proof. exact c57_never_close. Qed.
Print Assumptions C57_never_close.

(** C57_never_close_ex: NaN, +inf with infinite tolerances. *)
Example C57_never_close_ex :
  close_to (n := b64num) (Closeness (n := b64num) (S754_infinity false) (S754_infinity false))
    (S754_infinity false) (S754_infinity false) = false /\
  close_to (n := b64num) ct_default S754_nan S754_nan = false.
Proof. exact c57_never_close_ex. Qed.

(** C57_equal: finite doubles that denote the same number are close for
    every finite nonnegative relative and finite positive absolute tolerance. *)
Theorem C57_equal : forall r a x y : b64,
  b64_finite r -> b64_finite a -> b64_finite x -> b64_finite y ->
  0 <= b64_real r -> 0 < b64_real a -> b64_real x = b64_real y ->
  close_to (n := b64num) (Closeness (n := b64num) r a) x y = true.
Proof. exact c57_equal. Qed.
Print Assumptions C57_equal.

(** C57_equal_ex: +0 and -0, and the largest double with itself, with the
    default tolerances, which meet the hypotheses. *)
Example C57_equal_ex :
  let big := S754_finite false 9007199254740991 971 in
  close_to (n := b64num) ct_default (S754_zero false) (S754_zero true) = true /\
  close_to (n := b64num) ct_default big big = true /\
  b64_finite (@neps b64num) /\ b64_finite (@nmin b64num) /\
  0 <= b64_real (@neps b64num) /\ 0 < b64_real (@nmin b64num).
Proof. exact c57_equal_ex. Qed.

(** C57_apart: finite doubles farther apart than both tolerances are
    rejected; the distance, the relative tolerance and their comparison are
    those of the real numbers, so rounding never turns a rejection into an
    acceptance. *)
Theorem C57_apart : forall r a x y : b64,
  b64_finite r -> b64_finite a -> b64_finite x -> b64_finite y ->
  0 <= b64_real r ->
  let distance := Rabs (b64_real x - b64_real y) in
  b64_real r * Rmax (Rabs (b64_real x)) (Rabs (b64_real y)) <= distance ->
  b64_real a <= distance ->
  close_to (n := b64num) (Closeness (n := b64num) r a) x y = false.
Proof. exact c57_apart. Qed.
Print Assumptions C57_apart.

(** C57_apart_ex: 2 and 3 with relative tolerance 1/4. *)
Example C57_apart_ex :
  let r := @ndiv b64num (b64_of_Z 1) (b64_of_Z 4) in
  b64_finite r /\ b64_finite (b64_of_Z 2) /\
  close_to (n := b64num) (ct_relative_only r) (b64_of_Z 2) (b64_of_Z 3) = false.
Proof. exact c57_apart_ex. Qed.

(** C57_exact: in exact arithmetic the test accepts precisely the pairs
    that differ by less than the relative tolerance times the larger magnitude
    or by less than the absolute tolerance. *)
Theorem C57_exact : forall eps r a x y : R,
  close_to (n := exact eps) (Closeness (n := exact eps) (Fin r) (Fin a)) (Fin x) (Fin y) = true <->
  Rabs (x - y) < r * Rabs x \/ Rabs (x - y) < r * Rabs y \/ Rabs (x - y) < a.
Proof. exact c57_exact. Qed.
Print Assumptions C57_exact.

(** C57_exact_ex: 99 and 100 at two percent. *)
Example C57_exact_ex :
  close_to (n := exact 1) (Closeness (n := exact 1) (Fin (2 / 100)) (Fin 0)) (Fin 99) (Fin 100) = true.
Proof. exact c57_exact_ex. Qed.

(** C57_accept_partial: in binary64 acceptance holds with a margin for the
    rounding of the two products: finite doubles whose distance, increased by
    one part in 2^51, is within the relative tolerance are accepted, unless the
    tolerance is below 2^-1021 or the distance is not a finite double. *)
Theorem C57_accept_partial : forall r a x y : b64,
  b64_finite r -> b64_finite a -> b64_finite x -> b64_finite y ->
  0 <= b64_real r ->
  let distance := Rabs (b64_real x - b64_real y) in
  let tolerance := b64_real r * Rmax (Rabs (b64_real x)) (Rabs (b64_real y)) in
  distance * (1 + bpow radix2 (-51)) <= tolerance ->
  bpow radix2 (-1021) <= tolerance ->
  distance < bpow radix2 1023 ->
  close_to (n := b64num) (Closeness (n := b64num) r a) x y = true.
Proof. exact c57_accept. Qed.
Print Assumptions C57_accept_partial.

(** C57_accept_partial_ex: 2 and 3 with relative tolerance 1/2. *)
Example C57_accept_partial_ex :
  let r := @ndiv b64num (b64_of_Z 1) (b64_of_Z 2) in
  close_to (n := b64num) (ct_relative_only r) (b64_of_Z 2) (b64_of_Z 3) = true /\
  Rabs (2 - 3) * (1 + bpow radix2 (-51)) <= / 2 * Rmax (Rabs 2) (Rabs 3).
Proof. exact c57_accept_ex. Qed.

(** C57_accept_refuted: without the margin acceptance fails in binary64:
    there are finite doubles strictly within the relative tolerance that are
    rejected, because the product is rounded down onto the distance. *)
Theorem C57_accept_refuted : exists r x y : b64,
  b64_finite r /\ b64_finite x /\ b64_finite y /\
  Rabs (b64_real x - b64_real y) < b64_real r * Rmax (Rabs (b64_real x)) (Rabs (b64_real y)) /\
  close_to (n := b64num) (ct_relative_only (r : b64num)) x y = false.
Proof. exact c57_accept_refuted. Qed.
Print Assumptions C57_accept_refuted.

(** C57_accept_refuted_ex: the same witness is accepted once the tolerance
    is increased by one unit in the last place. *)
Example C57_accept_refuted_ex :
  close_to (n := b64num) (ct_relative_only (S754_finite false 4503599627370498 (-52) : b64num))
    (S754_finite false 4503599627370497 (-52)) (S754_finite true 4503599627370496 (-104)) = true.
Proof. exact c57_accept_refuted_ex. Qed.

(** C57_default: close_to without arguments has relative tolerance 2^-52
    and absolute tolerance 2^-1022 in binary64; with one argument that is the
    relative tolerance.  So for finite doubles, with the distance computed in
    binary64, the default test is: the distance is finite and below the rounding
    of 2^-52 times the larger magnitude, or below 2^-1022. *)
Theorem C57_default : forall r x y : b64,
  b64_finite r -> b64_finite x -> b64_finite y -> 0 <= b64_real r ->
  let distance := rnd64 (Rabs (b64_real x - b64_real y)) in
  let larger := Rmax (Rabs (b64_real x)) (Rabs (b64_real y)) in
  (close_to (n := b64num) ct_default x y = true <->
   in_range distance /\
   (distance < rnd64 (bpow radix2 (-52) * larger) \/ distance < bpow radix2 (-1022))) /\
  (close_to (n := b64num) (ct_relative_only (n := b64num) r) x y = true <->
   in_range distance /\
   (distance < rnd64 (b64_real r * larger) \/ distance < bpow radix2 (-1022))).
Proof. exact c57_default. Qed.
Print Assumptions C57_default.

(** C57_default_ex: 1 is close to the next larger double 1 + 2^-52 by
    default, but not to the second next. *)
Example C57_default_ex :
  close_to (n := b64num) ct_default (b64_of_Z 1) (S754_finite false 4503599627370497 (-52)) = true /\
  close_to (n := b64num) ct_default (b64_of_Z 1) (S754_finite false 4503599627370498 (-52)) = false.
Proof. exact c57_default_ex. Qed.
