(** * Property theorems: Parameters

    Statements only; every proof is [exact] of a lemma in ClaimsParameters.v.
    Generated by tools/mkprops.py. *)

From Coq Require Import Reals ZArith NArith QArith_base List Bool.
From Coq Require Import Floats.SpecFloat.
From Flocq Require Import Core.
From Verif Require Import Arith History Psquare PsquareParameters Binary64.
Import ListNotations.
Local Open Scope R_scope.
From Verif Require Import ClaimsParameters.

(** C41_equality: in double, two saved parameter lists compare equal exactly
    if they have the same number of elements and element by element the same
    position and the same height: the same real number (+0 and -0 alike) or
    the same infinity; NaN is never equal. *)
Theorem C41_equality : forall a b : list (N * b64num),
  Forall (fun p => valid_binary 53 1024 (snd p) = true) a ->
  Forall (fun p => valid_binary 53 1024 (snd p) = true) b ->
  parameters_eq b64num a b = true <->
  Forall2 (fun p q => fst p = fst q /\
    ((b64_finite (snd p) /\ b64_finite (snd q) /\ b64_real (snd p) = b64_real (snd q)) \/
     exists s, snd p = S754_infinity s /\ snd q = S754_infinity s)) a b.
Proof. exact c41_equality. Qed.
Print Assumptions C41_equality.

(** C41_equality_ex: two lists that differ in the sign of a zero, and two
    that differ in a position. *)
Example C41_equality_ex :
  let a : list (N * b64num) := [(1%N, S754_zero true); (2%N, S754_infinity true)] in
  let b : list (N * b64num) := [(1%N, S754_zero false); (2%N, S754_infinity true)] in
  let c : list (N * b64num) := [(1%N, S754_zero false); (3%N, S754_infinity true)] in
  Forall (fun p => valid_binary 53 1024 (snd p) = true) (a ++ b ++ c) /\
  parameters_eq b64num a b = true /\ parameters_eq b64num b c = false /\ parameters_eq b64num a [] = false.
Proof. exact c41_equality_ex. Qed.

(** C41_restore_double: in double, for every list of Q quantiles, every
    history (NaN and infinities included) with at most 2^53 values since the last
    clear and every target estimator, restoring parameters() is defined and
    reproduces them. *)
Theorem C41_restore_double : forall (qs : list b64num) (ops : list (op b64num)) (t : psq b64num),
  (N.of_nat (length (since_clear ops)) <= 2 ^ 53)%N -> (N.of_nat (2 * length qs + 3) <= 2 ^ 53)%N ->
  let s := run (psq_push b64num qs) (psq_clear b64num qs) (psq_init b64num qs) ops in
  exists r, psq_restore b64num qs t (psq_parameters b64num s) = Some r /\
    psq_parameters b64num r = psq_parameters b64num s /\
    psq_size b64num r = N.of_nat (2 * length qs + 3).
Proof. exact c41_double. Qed.
Print Assumptions C41_restore_double.

(** C41_restore_double_ex: a NaN among the values; the parameters are not
    trivial. *)
Example C41_restore_double_ex :
  let q := ratio_value b64num (1 # 2) in
  let ops := map Push [b64_of_Z 3; b64_of_Z 1; S754_nan; b64_of_Z 5; b64_of_Z 4; b64_of_Z 2; b64_of_Z 2] in
  let s := run (psq_push b64num [q]) (psq_clear b64num [q]) (psq_init b64num [q]) ops in
  (N.of_nat (length (since_clear ops)) <= 2 ^ 53)%N /\
  map fst (psq_parameters b64num s) <> [1; 2; 3; 4; 5]%N.
Proof. exact c41_double_ex. Qed.

(** C41_equality_restored: in double, after 2Q+3 to 2^27 finite values of
    magnitude at most 2^980 since the last clear, for every list of Q quantiles,
    parameters() compares equal to itself and to the parameters() of any
    estimator restored from it. *)
Theorem C41_equality_restored : forall (qs : list b64num) (ops : list (op b64num)) (t : psq b64num),
  let l := since_clear ops in
  Forall (fun x : b64num => b64_finite x /\ Rabs (b64_real x) <= bpow radix2 980) l ->
  (2 * length qs + 3 <= length l)%nat -> (N.of_nat (length l) <= 2 ^ 27)%N ->
  let s := run (psq_push b64num qs) (psq_clear b64num qs) (psq_init b64num qs) ops in
  let saved := psq_parameters b64num s in
  parameters_eq b64num saved saved = true /\
  exists r, psq_restore b64num qs t saved = Some r /\
    parameters_eq b64num (psq_parameters b64num r) saved = true.
Proof. exact c41_equality_restored. Qed.
Print Assumptions C41_equality_restored.

(** C41_equality_restored_ex: six values after a clear, median. *)
Example C41_equality_restored_ex :
  let ops := [Push S754_nan; Clear] ++ map (fun z => Push (b64_of_Z z)) [3; 1; 2; 5; 4; 9]%Z in
  let l : list b64num := since_clear ops in
  Forall (fun x : b64num => b64_finite x /\ Rabs (b64_real x) <= bpow radix2 980) l /\
  (2 * length [ratio_value b64num (1 # 2)] + 3 <= length l)%nat /\ (N.of_nat (length l) <= 2 ^ 27)%N.
Proof. exact c41_equality_restored_ex. Qed.

(** C41_equality_refuted: after a NaN parameters() does not compare equal
    even to itself, nor do those of an estimator restored from them, although
    position and height agree element by element (C41_restore_partial). *)
Theorem C41_equality_refuted : exists (qs : list b64num) (l : list b64num),
  let s := run (psq_push b64num qs) (psq_clear b64num qs) (psq_init b64num qs) (pushes l) in
  let saved := psq_parameters b64num s in
  length l = (2 * length qs + 3)%nat /\
  parameters_eq b64num saved saved = false /\
  exists r, psq_restore b64num qs (psq_init b64num qs) saved = Some r /\
    parameters_eq b64num (psq_parameters b64num r) saved = false.
Proof. exact c41_equality_refuted. Qed.
Print Assumptions C41_equality_refuted.
