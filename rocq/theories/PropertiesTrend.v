(** * Property theorems: Trend

    Statements only; every proof is [exact] of a lemma in ClaimsTrend.v.
    Generated by tools/mkprops.py. *)

From Coq Require Import Reals ZArith NArith List Bool.
From Coq Require Import Floats.SpecFloat.
From Flocq Require Import Core.
From Verif Require Import Arith History SpecStats Cumulative Rounded Binary64 ExactRuns.
Import ListNotations.
Local Open Scope R_scope.
From Verif Require Import ClaimsTrend.

(** C99_rounded: in every binary format with gradual underflow and every
    rounding direction, as long as nothing overflows: after [n] pushes of numbers
    of magnitude at most [M] since the last clear, value() is a number within 13
    times the error bound of mean() (C65) of three times the mean minus twice the
    mean of the running means. *)
Theorem C99_rounded : forall (emin prec : Z) (mode : R -> Z) (ops : list (op R)) (M : R),
  (0 < prec)%Z -> (emin <= 0)%Z -> Valid_rnd mode ->
  let l := since_clear ops in
  let n := INR (length l) in
  let u := bpow radix2 (1 - prec) in
  let eta := bpow radix2 emin in
  l <> [] -> fits l -> (Z.of_nat (length l) <= 2 ^ prec)%Z -> 16 * n * u <= 1 ->
  Forall (fun x => Rabs x <= M) l ->
  let F := rounded emin prec mode in
  let s := run (ctrend_push F) (ctrend_clear F) (ctrend_init F) (fops emin prec mode ops) in
  exists v, ctrend_value F s = Fin v /\
    Rabs (v - (3 * mean l - 2 * mean (running_means l))) <= 13 * ((n + 25) * u * M + (3 * n + 11) * eta).
Proof. exact c99_rounded. Qed.
Print Assumptions C99_rounded.

(** C99_rounded_ex: a format of twelve bits rounding towards zero; five
    values at most 10 in magnitude. *)
Example C99_rounded_ex :
  (0 < 12)%Z /\ (-20 <= 0)%Z /\ Valid_rnd Ztrunc /\
  let ops := [Push 99; Clear; Push 1; Push (-10); Push 3; Push 7; Push 2] in
  since_clear ops = [1; -10; 3; 7; 2] /\ fits (since_clear ops) /\
  (Z.of_nat (length (since_clear ops)) <= 2 ^ 12)%Z /\
  16 * INR (length (since_clear ops)) * bpow radix2 (1 - 12) <= 1 /\
  Forall (fun x => Rabs x <= 10) (since_clear ops).
Proof. exact c99_rounded_ex. Qed.

(** C99_binary64: in binary64, up to 2^49 finite values of magnitude at
    most [M <= 2^1016]: value() is finite and within 13 times the error bound of
    mean() of three times the mean minus twice the mean of the running means; if
    the values form an arithmetic progression, value() is that close to the last
    of them. *)
Theorem C99_binary64 : forall (ops : list (op b64)) (M : R),
  let l := since_clear ops in
  let n := INR (length l) in
  let E := 13 * ((n + 25) * bpow radix2 (-53) * M + (3 * n + 11) * bpow radix2 (-1075)) in
  l <> [] -> (Z.of_nat (length l) <= 2 ^ 49)%Z -> M <= bpow radix2 1016 ->
  Forall (fun x => b64_finite x /\ Rabs (b64_real x) <= M) l ->
  let v := ctrend_value b64num (run (ctrend_push b64num) (ctrend_clear b64num) (ctrend_init b64num) ops) in
  b64_finite v /\
  Rabs (b64_real v - (3 * mean (map b64_real l) - 2 * mean (running_means (map b64_real l)))) <= E /\
  (forall a st k, map b64_real l = map (fun i => a + st * INR i) (seq 0 (S k)) ->
     Rabs (b64_real v - (a + st * INR k)) <= E).
Proof. exact c99_binary64. Qed.
Print Assumptions C99_binary64.

(** C99_binary64_ex: the progression 1/2, 1, 3/2, 2; value() is computed as
    exactly 2; the bound for a million values at most 1 in magnitude is below
    1.6e-9. *)
Example C99_binary64_ex :
  let d k := @ndiv b64num (b64_of_Z k) (b64_of_Z 2) in
  let ops := [Push (d 3%Z); Clear; Push (d 1%Z); Push (d 2%Z); Push (d 3%Z); Push (d 4%Z)] in
  since_clear ops = [d 1%Z; d 2%Z; d 3%Z; d 4%Z] /\
  (Z.of_nat (length (since_clear ops)) <= 2 ^ 49)%Z /\
  2 <= bpow radix2 1016 /\
  Forall (fun x => b64_finite x /\ Rabs (b64_real x) <= 2) (since_clear ops) /\
  map b64_real (since_clear ops) = map (fun i => / 2 + / 2 * INR i) (seq 0 4) /\
  SFeqb (ctrend_value b64num (run (ctrend_push b64num) (ctrend_clear b64num) (ctrend_init b64num) ops)) (b64_of_Z 2) = true /\
  13 * ((10 ^ 6 + 25) * bpow radix2 (-53) * 1 + (3 * 10 ^ 6 + 11) * bpow radix2 (-1075)) < 16 / 10 ^ 10.
Proof. exact c99_binary64_ex. Qed.
