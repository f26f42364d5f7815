(** * Property theorems: Nearly

    Statements only; every proof is [exact] of a lemma in ClaimsNearly.v.
    Generated by tools/mkprops.py. *)

From Coq Require Import Reals ZArith NArith List Bool Permutation.
From Coq Require Import Floats.SpecFloat.
From Flocq Require Import Core.
From Verif Require Import Arith History SpecStats Cumulative Binary64.
Import ListNotations.
Local Open Scope R_scope.
From Verif Require Import ClaimsNearly.

(** C11_binary64: in binary64, up to 2^47 values of magnitude at most [M]:
    pushing the same values in another order changes mean() and variance() by at
    most twice the error bounds of C65 and C70. *)
Theorem C11_binary64 : forall (ops ops' : list (op b64)) (M : R),
  let l := since_clear ops in
  let n := INR (length l) in
  let u := bpow radix2 (-53) in
  let eta := bpow radix2 (-1075) in
  l <> [] -> Permutation l (since_clear ops') -> (Z.of_nat (length l) <= 2 ^ 47)%Z ->
  bpow radix2 (-1000) <= M <= bpow radix2 480 ->
  Forall (fun x => b64_finite x /\ Rabs (b64_real x) <= M) l ->
  let m ops := b64_real (cmean_mean b64num (run (cmean_push b64num) (cmean_clear b64num) (cmean_init b64num) ops)) in
  let v ops := b64_real (cvar_variance b64num (run (cvar_push b64num) (cvar_clear b64num) (cvar_init b64num) ops)) in
  Rabs (m ops' - m ops) <= 2 * ((n + 25) * u * M + (3 * n + 11) * eta) /\
  Rabs (v ops' - v ops) <= 10 * ((14 * n + 308) * u * (M * M) + (3 * n + 13) * (10 * M) * eta + 3 * eta).
Proof. exact c11_binary64. Qed.
Print Assumptions C11_binary64.

(** C11_binary64_ex: 0.1, -7, 999999.9 in two orders. *)
Example C11_binary64_ex :
  let d k := @ndiv b64num (b64_of_Z k) (b64_of_Z 10) in
  let ops := [Push (d 3%Z); Clear; Push (d 1%Z); Push (d (-70)%Z); Push (d 9999999%Z)] in
  let ops' := [Push (d 9999999%Z); Push (d 1%Z); Push (d (-70)%Z)] in
  since_clear ops <> [] /\ Permutation (since_clear ops) (since_clear ops') /\
  (Z.of_nat (length (since_clear ops)) <= 2 ^ 47)%Z /\
  bpow radix2 (-1000) <= 1000000 <= bpow radix2 480 /\
  Forall (fun x => b64_finite x /\ Rabs (b64_real x) <= 1000000) (since_clear ops).
Proof. exact c11_binary64_ex. Qed.

(** C83_binary64: in binary64, up to 2^47 values: if every value of the
    second stream is the value of the first plus [c] exactly, and [M], [M'] bound
    the magnitudes, then mean() moves by [c] and variance() stays, up to the error
    bounds of C65 and C70 for the two streams. *)
Theorem C83_binary64 : forall (ops ops' : list (op b64)) (c M M' : R),
  let l := since_clear ops in
  let l' := since_clear ops' in
  let n := INR (length l) in
  let u := bpow radix2 (-53) in
  let eta := bpow radix2 (-1075) in
  l <> [] -> Forall2 (fun x y => b64_real y = b64_real x + c) l l' ->
  (Z.of_nat (length l) <= 2 ^ 47)%Z ->
  bpow radix2 (-1000) <= M <= bpow radix2 480 -> bpow radix2 (-1000) <= M' <= bpow radix2 480 ->
  Forall (fun x => b64_finite x /\ Rabs (b64_real x) <= M) l ->
  Forall (fun x => b64_finite x /\ Rabs (b64_real x) <= M') l' ->
  let m ops := b64_real (cmean_mean b64num (run (cmean_push b64num) (cmean_clear b64num) (cmean_init b64num) ops)) in
  let v ops := b64_real (cvar_variance b64num (run (cvar_push b64num) (cvar_clear b64num) (cvar_init b64num) ops)) in
  Rabs (m ops' - (m ops + c)) <= (n + 25) * u * (M + M') + 2 * (3 * n + 11) * eta /\
  Rabs (v ops' - v ops) <=
    5 * ((14 * n + 308) * u * (M * M + M' * M') + (3 * n + 13) * (10 * (M + M')) * eta + 6 * eta).
Proof. exact c83_binary64. Qed.
Print Assumptions C83_binary64.

(** C83_binary64_ex: 1, 2.5, -3 moved by a million. *)
Example C83_binary64_ex :
  let d k := @ndiv b64num (b64_of_Z k) (b64_of_Z 2) in
  let ops := map (fun k => Push (d k)) [2; 5; -6]%Z in
  let ops' := map (fun k => Push (d k)) [2000002; 2000005; 1999994]%Z in
  since_clear ops <> [] /\
  Forall2 (fun x y => b64_real y = b64_real x + 1000000) (since_clear ops) (since_clear ops') /\
  (Z.of_nat (length (since_clear ops)) <= 2 ^ 47)%Z /\
  bpow radix2 (-1000) <= 3 <= bpow radix2 480 /\ bpow radix2 (-1000) <= 2000000 <= bpow radix2 480 /\
  Forall (fun x => b64_finite x /\ Rabs (b64_real x) <= 3) (since_clear ops) /\
  Forall (fun x => b64_finite x /\ Rabs (b64_real x) <= 2000000) (since_clear ops').
Proof. exact c83_binary64_ex. Qed.

(** C85_binary64: in binary64, up to 2^49 values of magnitude at most [M]:
    if every value of the second stream is at least that of the first, its mean()
    falls short of the mean() of the first by at most twice the error bound of
    C65. *)
Theorem C85_binary64 : forall (ops ops' : list (op b64)) (M : R),
  let l := since_clear ops in
  let l' := since_clear ops' in
  let n := INR (length l) in
  l <> [] -> Forall2 (fun x y => b64_real x <= b64_real y) l l' ->
  (Z.of_nat (length l) <= 2 ^ 49)%Z -> M <= bpow radix2 1018 ->
  Forall (fun x => b64_finite x /\ Rabs (b64_real x) <= M) l ->
  Forall (fun x => b64_finite x /\ Rabs (b64_real x) <= M) l' ->
  let m ops := b64_real (cmean_mean b64num (run (cmean_push b64num) (cmean_clear b64num) (cmean_init b64num) ops)) in
  m ops <= m ops' + 2 * ((n + 25) * bpow radix2 (-53) * M + (3 * n + 11) * bpow radix2 (-1075)).
Proof. exact c85_binary64. Qed.
Print Assumptions C85_binary64.

(** C85_binary64_ex: 1, 2.5, -3 and 1, 3, -2. *)
Example C85_binary64_ex :
  let d k := @ndiv b64num (b64_of_Z k) (b64_of_Z 2) in
  let ops := map (fun k => Push (d k)) [2; 5; -6]%Z in
  let ops' := map (fun k => Push (d k)) [2; 6; -4]%Z in
  since_clear ops <> [] /\
  Forall2 (fun x y => b64_real x <= b64_real y) (since_clear ops) (since_clear ops') /\
  (Z.of_nat (length (since_clear ops)) <= 2 ^ 49)%Z /\ 3 <= bpow radix2 1018 /\
  Forall (fun x => b64_finite x /\ Rabs (b64_real x) <= 3) (since_clear ops) /\
  Forall (fun x => b64_finite x /\ Rabs (b64_real x) <= 3) (since_clear ops').
Proof. exact c85_binary64_ex. Qed.
