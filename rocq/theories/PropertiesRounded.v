(** * Property theorems: Rounded

    Statements only; every proof is [exact] of a lemma in ClaimsRounded.v.
    Generated by tools/mkprops.py. *)

From Coq Require Import Reals ZArith NArith List Bool.
From Coq Require Import Floats.SpecFloat.
From Flocq Require Import Core.
From Verif Require Import Arith History Cumulative Window Rounded Binary64 ExactRuns.
Import ListNotations.
Local Open Scope R_scope.
From Verif Require Import ClaimsRounded.

(** C12_rounded: for every binary floating-point format with gradual
    underflow (precision [prec], exponents from [emin <= 0]), every rounding
    function and every history whose values since the last clear are
    representable: mean() is a number of the format between the smallest and
    the largest of them and variance() is not negative. *)
Theorem C12_rounded : forall (emin prec : Z) (mode : R -> Z) (ops : list (op R)),
  (0 < prec)%Z -> (emin <= 0)%Z -> Valid_rnd mode ->
  let l := since_clear ops in
  l <> [] -> fits l -> Forall (representable emin prec) l ->
  let F := rounded emin prec mode in
  let s := run (cvar_push F) (cvar_clear F) (cvar_init F) (fops emin prec mode ops) in
  exists m v, cvar_mean F s = Fin m /\ representable emin prec m /\ in_hull m l /\
    cvar_variance F s = Fin v /\ 0 <= v /\
    ((2 <= length l)%nat -> exists u, cvar_unbiased_variance F s = Fin u /\ 0 <= u).
Proof. exact c12_rounded. Qed.
Print Assumptions C12_rounded.

(** C12_rounded_ex: two-bit precision with rounding towards +infinity; the
    values 1, 2, 3 are representable. *)
Example C12_rounded_ex :
  (0 < 2)%Z /\ (-3 <= 0)%Z /\ Valid_rnd Zceil /\
  let ops := [Push 100; Clear; Push 1; Push 2; Push 3] in
  since_clear ops <> [] /\ fits (since_clear ops) /\
  Forall (representable (-3) 2) (since_clear ops).
Proof. exact c12_rounded_ex. Qed.

(** C12_binary64: in binary64, overflow included: if the values pushed
    since the last clear are finite and smaller than 2^1023 in magnitude, mean()
    is finite and between the smallest and the largest of them, and variance()
    compares greater or equal to zero (it is a finite nonnegative number or
    +infinity, never NaN). *)
Theorem C12_binary64 : forall ops : list (op b64),
  let l := since_clear ops in
  l <> [] -> fits l ->
  Forall (fun x => b64_finite x /\ Rabs (b64_real x) < bpow radix2 1023) l ->
  let s := run (cvar_push b64num) (cvar_clear b64num) (cvar_init b64num) ops in
  b64_finite (cvar_mean b64num s) /\
  in_hull (b64_real (cvar_mean b64num s)) (map b64_real l) /\
  SFleb (S754_zero false) (cvar_variance b64num s) = true.
Proof. exact c12_binary64. Qed.
Print Assumptions C12_binary64.

(** C12_binary64_ex: 1/10, 2/10, 7/10 after a clear; and two doubles of
    opposite sign beyond the bound, whose mean overflows to an infinity. *)
Example C12_binary64_ex :
  let d k := @ndiv b64num (b64_of_Z k) (b64_of_Z 10) in
  let ops := [Push (b64_of_Z 5); Clear; Push (d 1%Z); Push (d 2%Z); Push (d 7%Z)] in
  let s := run (cvar_push b64num) (cvar_clear b64num) (cvar_init b64num) ops in
  SFltb (d 1%Z) (cvar_mean b64num s) = true /\ SFltb (cvar_mean b64num s) (d 7%Z) = true /\
  SFltb (S754_zero false) (cvar_variance b64num s) = true /\
  let big := S754_finite false 9007199254740991 971 in
  let ops' := [Push big; Push (SFopp big)] in
  cvar_mean b64num (run (cvar_push b64num) (cvar_clear b64num) (cvar_init b64num) ops') =
  S754_infinity true.
Proof. exact c12_binary64_ex. Qed.

(** C13_cumulative: in every format and rounding mode, after any positive
    number of pushes of one representable value c since the last clear the
    cumulative mean() is exactly c and variance() exactly 0. *)
Theorem C13_cumulative : forall (emin prec : Z) (mode : R -> Z) (ops : list (op R)) (c : R) (n : nat),
  (0 < prec)%Z -> (emin <= 0)%Z -> Valid_rnd mode -> representable emin prec c ->
  since_clear ops = repeat c (S n) -> fits (since_clear ops) ->
  let F := rounded emin prec mode in
  let s := run (cvar_push F) (cvar_clear F) (cvar_init F) (fops emin prec mode ops) in
  cvar_mean F s = Fin c /\ cvar_variance F s = Fin 0 /\
  ((1 <= n)%nat -> cvar_unbiased_variance F s = Fin 0).
Proof. exact c13_cumulative. Qed.
Print Assumptions C13_cumulative.

(** C13_cumulative_ex: -3/8 with two bits of precision, rounding down. *)
Example C13_cumulative_ex :
  (0 < 2)%Z /\ (-3 <= 0)%Z /\ Valid_rnd Zfloor /\ representable (-3) 2 (- 3 / 8) /\
  since_clear [Push 1; Clear; Push (- 3 / 8); Push (- 3 / 8)] = repeat (- 3 / 8) 2.
Proof. exact c13_cumulative_ex. Qed.

(** C13_window: the same for the window moments, however many values have
    been pushed; for less than two values in the window unbiased_variance() is
    0 as well. *)
Theorem C13_window : forall (emin prec : Z) (mode : R -> Z) (W : nat) (ops : list (op R)) (c : R) (n : nat),
  (0 < prec)%Z -> (emin <= 0)%Z -> Valid_rnd mode -> representable emin prec c ->
  (0 < W)%nat -> (N.of_nat W < szmod)%N ->
  since_clear ops = repeat c (S n) ->
  let F := rounded emin prec mode in
  let s := run (wvar_push F W) (wvar_clear F) (wvar_init F) (fops emin prec mode ops) in
  wvar_mean F s = Fin c /\ wvar_variance F s = Fin 0 /\ wvar_unbiased_variance F s = Fin 0.
Proof. exact c13_window. Qed.
Print Assumptions C13_window.

(** C13_window_ex: three equal values through a window of two. *)
Example C13_window_ex :
  (0 < 2)%nat /\ (N.of_nat 2 < szmod)%N /\ representable (-3) 2 (3 / 8) /\
  since_clear [Push 1; Clear; Push (3 / 8); Push (3 / 8); Push (3 / 8)] = repeat (3 / 8) 3.
Proof. exact c13_window_ex. Qed.

(** C13_covariance: cumulative covariance of a constant pair is exactly 0,
    in every format and rounding mode. *)
Theorem C13_covariance : forall (emin prec : Z) (mode : R -> Z) (ops : list (op (R * R))) (cx cy : R) (n : nat),
  (0 < prec)%Z -> (emin <= 0)%Z -> Valid_rnd mode ->
  representable emin prec cx -> representable emin prec cy ->
  since_clear ops = repeat (cx, cy) (S n) -> fits (since_clear ops) ->
  let F := rounded emin prec mode in
  let s := run (ccov_push F) (ccov_clear F) (ccov_init F)
             (map (op_map (fun p => (Fin (fst p), Fin (snd p)))) ops) in
  ccov_variance F s = Fin 0 /\ ccov_unbiased_variance F s = Fin 0.
Proof. exact c13_covariance. Qed.
Print Assumptions C13_covariance.

(** C13_covariance_ex: a pair of one-bit values. *)
Example C13_covariance_ex :
  representable (-3) 2 1 /\ representable (-3) 2 (1 / 8) /\
  since_clear [Push (1, 1 / 8); Push (1, 1 / 8)] = repeat (1, 1 / 8) 2.
Proof. exact c13_covariance_ex. Qed.

(** C13_binary64: the cumulative, window and covariance statements in
    binary64 for every finite double, the largest included: the results are
    finite and denote exactly the pushed value and zero. *)
Theorem C13_binary64 : forall (W : nat) (c d : b64) (n : nat),
  b64_finite c -> b64_finite d -> (0 < W)%nat -> (N.of_nat W < szmod)%N ->
  let same x y := b64_finite x /\ b64_real x = y in
  (forall ops : list (op b64), since_clear ops = repeat c (S n) -> fits (since_clear ops) ->
     let s := run (cvar_push b64num) (cvar_clear b64num) (cvar_init b64num) ops in
     same (cvar_mean b64num s) (b64_real c) /\ same (cvar_variance b64num s) 0) /\
  (forall ops : list (op b64), since_clear ops = repeat c (S n) ->
     let s := run (wvar_push b64num W) (wvar_clear b64num) (wvar_init b64num) ops in
     same (wvar_mean b64num s) (b64_real c) /\ same (wvar_variance b64num s) 0) /\
  (forall ops : list (op (b64 * b64)), since_clear ops = repeat (c, d) (S n) -> fits (since_clear ops) ->
     let s := run (ccov_push b64num) (ccov_clear b64num) (ccov_init b64num) ops in
     same (ccov_variance b64num s) 0).
Proof. exact c13_binary64. Qed.
Print Assumptions C13_binary64.

(** C13_binary64_ex: the largest double, three times, window of two. *)
Example C13_binary64_ex :
  let big := S754_finite false 9007199254740991 971 in
  b64_finite big /\ since_clear (pushes [big; big; big]) = repeat big 3 /\
  wvar_mean b64num (run (wvar_push b64num 2) (wvar_clear b64num) (wvar_init b64num)
                      (pushes [big; big; big])) = big.
Proof. exact c13_binary64_ex. Qed.

(** C13_window_covariance_refuted: window covariance is computed from
    running sums of products and is not exact on a constant stream: three times
    the pair (1/10, 1/10) in a window of four gives a covariance below zero. *)
Theorem C13_window_covariance_refuted : exists (W : nat) (c : b64) (n : nat),
  b64_finite c /\ (n <= W)%nat /\
  SFltb (wcov_variance b64num (run (wcov_push b64num W) (wcov_clear b64num) (wcov_init b64num)
                                 (pushes (repeat (c, c) n)))) (S754_zero false) = true.
Proof. exact c13_window_covariance_refuted. Qed.
Print Assumptions C13_window_covariance_refuted.

(** C13_window_covariance_refuted_ex: with a fourth push of the same pair
    the error happens to vanish. *)
Example C13_window_covariance_refuted_ex :
  let c := @ndiv b64num (b64_of_Z 1) (b64_of_Z 10) in
  SFeqb (wcov_variance b64num (run (wcov_push b64num 4) (wcov_clear b64num) (wcov_init b64num)
                                 (pushes (repeat (c, c) 4)))) (S754_zero false) = true.
Proof. exact c13_window_covariance_refuted_ex. Qed.
