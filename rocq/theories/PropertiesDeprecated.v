(** * Property theorems: Deprecated

    Statements only; every proof is [exact] of a lemma in ClaimsDeprecated.v.
    Generated by tools/mkprops.py. *)

From Coq Require Import Reals ZArith NArith QArith_base Qreals List Bool.
From Coq Require Import Floats.SpecFloat.
From Flocq Require Import Core.
From Verif Require Import Arith History SpecStats SpecDecay Decay Window Deprecated ExactRuns Binary64.
Import ListNotations.
Local Open Scope R_scope.
From Verif Require Import ClaimsDeprecated.

(** C76_exponential: for every ratio in (0, 1] the constructor's assertion
    holds, and after every history of pushes and clears value() is the
    exponentially weighted mean, with the ratio as factor, of the values since
    the last clear, and 0 when there are none. *)
Theorem C76_exponential : forall (eps : R) (p : Q) (ops : list (op R)),
  (0 < Qnum p <= Zpos (Qden p))%Z ->
  let F := exact eps in
  let l := since_clear ops in
  exists s0 m, exponential_new F p = Some s0 /\
    exponential_value F (run (exponential_push F) (exponential_clear F) s0 (rops eps ops)) = Fin m /\
    (l <> [] -> m = ewma (Q2R p) l) /\ (l = [] -> m = 0).
Proof. exact c76_exponential. Qed.
Print Assumptions C76_exponential.

(** C76_exponential_ex: ratio 1/2; 1 and 4 after a clear give 3. *)
Example C76_exponential_ex :
  (0 < Qnum (1 # 2) <= Zpos (Qden (1 # 2)))%Z /\
  since_clear [Push 7; Clear; Push 1; Push 4] = [1; 4] /\ ewma (Q2R (1 # 2)) [1; 4] = 3.
Proof. exact c76_exponential_ex. Qed.

(** C76_assertion: on binary64 a ratio with numerator and denominator up to
    2^53 in magnitude passes the constructor's assertion exactly if it lies in
    (0, 1]. *)
Theorem C76_assertion : forall p : Q,
  (Z.abs (Qnum p) <= 2 ^ 53)%Z -> (Zpos (Qden p) <= 2 ^ 53)%Z ->
  ((exists s, exponential_new b64num p = Some s) <-> 0 < Q2R p <= 1).
Proof. exact c76_assertion. Qed.
Print Assumptions C76_assertion.

(** C76_assertion_ex: the largest ratio below 1 and the smallest above 1 with
    a denominator of 2^53 - 1. *)
Example C76_assertion_ex :
  (Z.abs 9007199254740990 <= 2 ^ 53)%Z /\ (9007199254740991 <= 2 ^ 53)%Z /\
  (exists s, exponential_new b64num (9007199254740990 # 9007199254740991) = Some s) /\
  exponential_new b64num (9007199254740992 # 9007199254740991) = None.
Proof. exact c76_assertion_ex. Qed.

(** C76_large_partial: binary64 and every std::ratio, whose numerator and
    denominator are 64-bit integers: ratios in (0, 1] pass the assertion, ratios
    that are 0, negative, or at least 1 + 2^-51 do not. *)
Theorem C76_large_partial : forall p : Q,
  (Z.abs (Qnum p) < 2 ^ 63)%Z -> (Zpos (Qden p) < 2 ^ 63)%Z ->
  (0 < Q2R p <= 1 -> exists s, exponential_new b64num p = Some s) /\
  (Q2R p <= 0 \/ 1 + bpow radix2 (-51) <= Q2R p -> exponential_new b64num p = None).
Proof. exact c76_large. Qed.
Print Assumptions C76_large_partial.

(** C76_large_partial_ex: a ratio just below 1 whose terms double does not
    represent, and one above 1. *)
Example C76_large_partial_ex :
  let p := (9223372036854775806 # 9223372036854775807)%Q in
  let q := (9223372036854775807 # 9223372036854771000)%Q in
  (Z.abs (Qnum p) < 2 ^ 63)%Z /\ (Zpos (Qden p) < 2 ^ 63)%Z /\ 0 < Q2R p <= 1 /\
  (Z.abs (Qnum q) < 2 ^ 63)%Z /\ (Zpos (Qden q) < 2 ^ 63)%Z /\ 1 + bpow radix2 (-51) <= Q2R q.
Proof. exact c76_large_ex. Qed.

(** C76_large_refuted: accepting exactly the ratios in (0, 1] is false of
    numerators beyond 2^53: (2^53+1)/2^53 is greater than 1 and accepted, because
    both terms are converted to double first. *)
Theorem C76_large_refuted : exists p : Q,
  (Z.abs (Qnum p) < 2 ^ 63)%Z /\ (Zpos (Qden p) < 2 ^ 63)%Z /\
  1 < Q2R p /\ exists s, exponential_new b64num p = Some s.
Proof. exact c76_large_refuted. Qed.
Print Assumptions C76_large_refuted.

(** C76_accuracy_binary64: on binary64, for every ratio from 2^-46 to 1 with
    numerator and denominator up to 2^53 and every history with finite values of
    magnitude at most [M <= 2^1018] since the last clear, value() is finite and
    differs from the exponentially weighted mean whose factor is the exact ratio
    by at most 215 rounding units of M divided by the ratio; the bound does not
    depend on the number of values. *)
Theorem C76_accuracy_binary64 : forall (p : Q) (ops : list (op b64)) (M : R),
  (Z.abs (Qnum p) <= 2 ^ 53)%Z -> (Zpos (Qden p) <= 2 ^ 53)%Z ->
  bpow radix2 (-46) <= Q2R p <= 1 ->
  let l := since_clear ops in
  l <> [] -> M <= bpow radix2 1018 ->
  Forall (fun x => b64_finite x /\ Rabs (b64_real x) <= M) l ->
  exists s0, exponential_new b64num p = Some s0 /\
  let v := exponential_value b64num (run (exponential_push b64num) (exponential_clear b64num) s0 ops) in
  b64_finite v /\
  Rabs (b64_real v - ewma (Q2R p) (map b64_real l)) <=
    215 * bpow radix2 (-53) * M / Q2R p + 58 * bpow radix2 (-1075) * (1 + M) / (Q2R p * Q2R p).
Proof. exact c76_accuracy. Qed.
Print Assumptions C76_accuracy_binary64.

(** C76_accuracy_binary64_ex: ratio 1/10, which is not a double, and the values
    1 and -70 after a clear. *)
Example C76_accuracy_binary64_ex :
  let p := (1 # 10)%Q in
  let ops := [Push S754_nan; Clear; Push (b64_of_Z 1); Push (b64_of_Z (-70))] in
  let l := since_clear ops in
  (Z.abs (Qnum p) <= 2 ^ 53)%Z /\ (Zpos (Qden p) <= 2 ^ 53)%Z /\
  bpow radix2 (-46) <= Q2R p <= 1 /\ l <> [] /\ 70 <= bpow radix2 1018 /\
  Forall (fun x => b64_finite x /\ Rabs (b64_real x) <= 70) l.
Proof. exact c76_accuracy_ex. Qed.

(** C76_arithmetic: moment::arithmetic<T, N> and
    moment::arithmetic_variance<T, N> report the mean and the variance of the
    last N values since the last clear. *)
Theorem C76_arithmetic : forall (eps : R) (W : nat) (ops : list (op R)),
  (0 < W)%nat -> (N.of_nat W < szmod)%N ->
  let F := exact eps in
  let w := lastn W (since_clear ops) in
  w <> [] ->
  let s := run (arithmetic_push F W) (arithmetic_clear F) (arithmetic_init F) (rops eps ops) in
  let sv := run (arithmetic_variance_push F W) (arithmetic_variance_clear F) (arithmetic_variance_init F) (rops eps ops) in
  arithmetic_mean F s = Fin (mean w) /\ arithmetic_variance_mean F sv = Fin (mean w) /\
  arithmetic_variance_variance F sv = Fin (variance w).
Proof. exact c76_arithmetic. Qed.
Print Assumptions C76_arithmetic.

(** C76_arithmetic_ex: window 3, five values after a clear. *)
Example C76_arithmetic_ex :
  let ops := [Push 9; Clear; Push 1; Push 2; Push 6; Push 4; Push 8] in
  let w := lastn 3 (since_clear ops) in
  (0 < 3)%nat /\ (N.of_nat 3 < szmod)%N /\ w <> [] /\ mean w = 6 /\ variance w = 8 / 3.
Proof. exact c76_arithmetic_ex. Qed.
