(** * Property theorems: ContractedWindow

    Statements only; every proof is [exact] of a lemma in ClaimsContractedWindow.v.
    Generated by tools/mkprops.py. *)

From Coq Require Import Reals ZArith NArith List Bool.
From Coq Require Import Floats.SpecFloat.
From Flocq Require Import Core.
From Verif Require Import Arith History SpecStats Window Rounded Ieee Contracted IeeeFused ContractedWindow.
Import ListNotations.
Local Open Scope R_scope.
(** A float of an integer. *)
Local Notation f32 z := (ieee_of_Z 24 128 z).
From Verif Require Import ClaimsContractedWindow.

(** C123_window_covariance: the window covariance of [k] pairs after [n] pushes since the
    last clear keeps the bound of C96 with fused products, whichever of the two products that
    are subtracted the compiler fuses, in every format and rounding mode. *)
Theorem C123_window_covariance : forall (emin prec : Z) (mode : R -> Z) (first : bool) (W : nat) (ops : list (op (R * R))) (Mx My : R),
  (0 < prec)%Z -> (emin <= 0)%Z -> Valid_rnd mode ->
  let l := since_clear ops in
  let n := INR (length l) in
  let u := bpow radix2 (1 - prec) in
  let eta := bpow radix2 emin in
  (0 < W)%nat -> (Z.of_nat W <= 2 ^ prec)%Z -> l <> [] -> 64 * n * u <= 1 -> 64 * n * eta <= Mx -> 64 * n * eta <= My ->
  Forall (fun p => Rabs (fst p) <= Mx /\ Rabs (snd p) <= My) l ->
  let F := rounded emin prec mode in
  let s := run (wcov_push_fma F (rounded_fused emin prec mode) first W) (wcov_clear F) (wcov_init F)
    (map (op_map (fun p => (Fin (fst p), Fin (snd p)) : F * F)) ops) in
  exists v, wcov_variance F s = Fin v /\
    Rabs (v - covariance (lastn W l)) <= n * (64 * u * (Mx * My) + 10 * (Mx + My) * eta + 26 * eta).
Proof. exact c123_window_covariance. Qed.
Print Assumptions C123_window_covariance.

(** C123_window_covariance_ex: a window of two pairs out of three. *)
Example C123_window_covariance_ex :
  (0 < 20)%Z /\ (-20 <= 0)%Z /\ Valid_rnd Ztrunc /\
  let ops := [Push (99, 99); Clear; Push (1, 500); Push (-10, 3); Push (3, -1)] in
  let l := since_clear ops in
  l = [(1, 500); (-10, 3); (3, -1)] /\ lastn 2 l = [(-10, 3); (3, -1)] /\ (Z.of_nat 2 <= 2 ^ 20)%Z /\
  64 * INR (length l) * bpow radix2 (1 - 20) <= 1 /\ 64 * INR (length l) * bpow radix2 (-20) <= 10 /\
  Forall (fun p => Rabs (fst p) <= 10 /\ Rabs (snd p) <= 500) l.
Proof. exact c123_window_covariance_ex. Qed.

(** C123_ieee_window_covariance: the same in every IEEE format, with the bound of C110. *)
Theorem C123_ieee_window_covariance : forall (prec emax : Z) (first : bool) (W : nat) (ops : list (op (spec_float * spec_float))) (Mx My : R),
  (1 < prec < emax)%Z ->
  let l := since_clear ops in
  let n := INR (length l) in
  let k := INR (length (lastn W l)) in
  let u := bpow radix2 (- prec) in
  let eta := bpow radix2 (2 - emax - prec) in
  let big := bpow radix2 (emax - 1) in
  (0 < W)%nat -> (Z.of_nat W <= 2 ^ prec)%Z -> l <> [] ->
  64 * n * u <= 1 -> 64 * n * eta <= Mx -> 64 * n * eta <= My ->
  16 * k * Mx <= big -> 16 * k * My <= big -> 16 * (k * k) * (Mx * My) <= big -> 16 * k * (Mx * My) + 32 * n * eta <= big ->
  Forall (fun p => (ieee_finite prec emax (fst p) /\ Rabs (ieee_real (fst p)) <= Mx) /\
                   (ieee_finite prec emax (snd p) /\ Rabs (ieee_real (snd p)) <= My)) l ->
  let F := ieee prec emax in
  let v := wcov_variance F (run (wcov_push_fma F (ieee_fused prec emax) first W) (wcov_clear F) (wcov_init F) ops) in
  ieee_finite prec emax v /\
  Rabs (ieee_real v - covariance (lastn W (map (fun p => (ieee_real (fst p), ieee_real (snd p))) l))) <=
    n * (64 * u * (Mx * My) + 10 * (Mx + My) * eta + 26 * eta).
Proof. exact c123_ieee_window_covariance. Qed.
Print Assumptions C123_ieee_window_covariance.

(** C123_ieee_window_covariance_ex: a window of two pairs of floats. *)
Example C123_ieee_window_covariance_ex :
  let l := since_clear [Push (f32 9, f32 9); Clear; Push (f32 1000, f32 (-7)); Push (f32 2, f32 8); Push (f32 (-5), f32 1)] in
  lastn 2 l = [(f32 2, f32 8); (f32 (-5), f32 1)] /\ length l = 3%nat /\ 64 * 3 * bpow radix2 (- 24) <= 1 /\
  64 * 3 * bpow radix2 (2 - 128 - 24) <= 8 /\ 16 * 2 * 1000 <= bpow radix2 (128 - 1) /\ 16 * (2 * 2) * (1000 * 8) <= bpow radix2 (128 - 1) /\
  16 * 2 * (1000 * 8) + 32 * 3 * bpow radix2 (2 - 128 - 24) <= bpow radix2 (128 - 1) /\
  Forall (fun p => (ieee_finite 24 128 (fst p) /\ Rabs (ieee_real (fst p)) <= 1000) /\
                   (ieee_finite 24 128 (snd p) /\ Rabs (ieee_real (snd p)) <= 8)) l.
Proof. exact c123_ieee_window_covariance_ex. Qed.

(** C123_window_covariance_visible_ex: which of the two products is fused can be seen in the
    result.  The pairs (x, y), (-x, y), (x, y) with x = 1/3 and y = 1/7 over float and a window
    of two: the covariance is 0, which one choice returns and the other does not. *)
Example C123_window_covariance_visible_ex :
  let F := ieee 24 128 in
  let x := @ndiv F (f32 1) (f32 3) in
  let x' := @ndiv F (f32 (-1)) (f32 3) in
  let y := @ndiv F (f32 1) (f32 7) in
  let v := fun first => wcov_variance F (run (wcov_push_fma F (ieee_fused 24 128) first 2) (wcov_clear F) (wcov_init F)
             [Push (x, y); Push (x', y); Push (x, y)]) in
  SFeqb (v true) (S754_zero false) = true /\ SFeqb (v false) (S754_zero false) = false.
Proof. exact c123_window_covariance_visible_ex. Qed.
