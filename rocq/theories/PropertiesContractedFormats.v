(** * Property theorems: ContractedFormats

    Statements only; every proof is [exact] of a lemma in ClaimsContractedFormats.v.
    Generated by tools/mkprops.py. *)

From Coq Require Import Reals ZArith NArith List Bool Sorting.Sorted.
From Coq Require Import Floats.SpecFloat.
From Flocq Require Import Core.
From Verif Require Import Arith History SpecStats SpecOrder Cumulative Psquare Ieee Rounded Contracted ContractedPsquare IeeeFused.
Import ListNotations.
Local Open Scope R_scope.
(** A float of an integer. *)
Local Notation f32 z := (ieee_of_Z 24 128 z).
From Verif Require Import ClaimsContractedFormats.

(** C123_variance_sign_formats: with the products fused, in every IEEE format in
    which size_t is in range, overflow included: if the values pushed since the last
    clear are finite and smaller than half of the range, mean() of the cumulative
    filter is finite and between the smallest and the largest of them, and
    variance() compares greater or equal to zero (it is never NaN). *)
Theorem C123_variance_sign_formats : forall (prec emax : Z) (ops : list (op spec_float)),
  (1 < prec < emax)%Z -> (65 <= emax)%Z ->
  let l := since_clear ops in
  l <> [] -> (N.of_nat (length l) < szmod)%N ->
  Forall (fun x => ieee_finite prec emax x /\ Rabs (ieee_real x) < bpow radix2 (emax - 1)) l ->
  let F := ieee prec emax in
  let s := run (cvar_push_fma F (ieee_fused prec emax)) (cvar_clear F) (cvar_init F) ops in
  ieee_finite prec emax (cvar_mean F s) /\
  in_hull (ieee_real (cvar_mean F s)) (map ieee_real l) /\
  SFleb (S754_zero false) (cvar_variance F s) = true.
Proof. exact c123_formats. Qed.
Print Assumptions C123_variance_sign_formats.

(** C123_variance_sign_formats_ex: over float, values after a clear; 2^126 with
    opposite signs, whose variance overflows to infinity; and values for which the
    fused and the rounded variance differ. *)
Example C123_variance_sign_formats_ex :
  let F := ieee 24 128 in
  let U := ieee_fused 24 128 in
  let d k := @ndiv F (f32 k) (f32 10) in
  let ops := [Push (f32 5); Clear; Push (d 1%Z); Push (d 2%Z); Push (d 7%Z)] in
  let s := run (cvar_push_fma F U) (cvar_clear F) (cvar_init F) ops in
  Forall (fun x => ieee_finite 24 128 x) (since_clear ops) /\
  SFltb (d 1%Z) (cvar_mean F s) = true /\ SFltb (cvar_mean F s) (d 7%Z) = true /\
  SFltb (S754_zero false) (cvar_variance F s) = true /\
  (let big := f32 (2 ^ 126) in
   cvar_variance F (run (cvar_push_fma F U) (cvar_clear F) (cvar_init F) [Push big; Push (SFopp big)]) = S754_infinity false) /\
  let v := map d [2; 3; 8]%Z in
  cvar_variance F (run (cvar_push_fma F U) (cvar_clear F) (cvar_init F) (pushes v)) <>
  cvar_variance F (run (cvar_push F) (cvar_clear F) (cvar_init F) (pushes v)).
Proof. exact c123_formats_ex. Qed.

(** C124_order_formats: in every IEEE format with at least 8 bits in which size_t is
    in range, the parabola fused either way, every list of Q quantiles (NaN and
    infinities included) and every history with 2Q+3 to 2^27 values, but not more
    than 2^prec, that are finite and at most 2^(emax-31) in magnitude: the marker
    heights reported by parameters() are finite, in ascending order and between the
    smallest and the largest value. *)
Theorem C124_order_formats : forall (prec emax : Z) (first : bool) (qs : list spec_float) (ops : list (op spec_float)),
  (8 <= prec < emax)%Z -> (65 <= emax)%Z ->
  let l := since_clear ops in
  Forall (fun x => ieee_finite prec emax x /\ Rabs (ieee_real x) <= bpow radix2 (emax - 31)) l ->
  (2 * length qs + 3 <= length l)%nat -> (N.of_nat (length l) <= 2 ^ 27)%N -> (Z.of_nat (length l) <= 2 ^ prec)%Z ->
  let F := ieee prec emax in
  let s := run (psq_push_fma F (ieee_fused prec emax) qs first) (psq_clear F qs) (psq_init F qs) ops in
  let h := map snd (psq_parameters F s) in
  length h = (2 * length qs + 3)%nat /\
  Forall (ieee_finite prec emax) h /\ StronglySorted Rle (map ieee_real h) /\
  Forall (fun v => in_hull v (map ieee_real l)) (map ieee_real h).
Proof. exact c124_order_formats. Qed.
Print Assumptions C124_order_formats.

(** C124_order_formats_ex: floats in which the first marker makes a linear step
    down, with a NaN for the quantile. *)
Example C124_order_formats_ex :
  let ops := map Push [f32 10; f32 11; f32 12; f32 20; f32 21; f32 9] in
  let l := since_clear ops in
  (8 <= 24 < 128)%Z /\ (65 <= 128)%Z /\
  Forall (fun x => ieee_finite 24 128 x /\ Rabs (ieee_real x) <= bpow radix2 (128 - 31)) l /\
  (2 * length [S754_nan] + 3 <= length l)%nat /\ (N.of_nat (length l) <= 2 ^ 27)%N /\ (Z.of_nat (length l) <= 2 ^ 24)%Z.
Proof. exact c124_order_formats_ex. Qed.

(** C124_range_formats: in the same formats, for quantiles between 0 and
    1 - 2^(3-prec) and 1 to 2^27 (and not more than 2^prec) such values: get<i> is defined
    for every index and returns a finite number between the smallest and the largest of them. *)
Theorem C124_range_formats : forall (prec emax : Z) (first : bool) (qs : list spec_float) (ops : list (op spec_float)) (index : nat),
  (8 <= prec < emax)%Z -> (65 <= emax)%Z ->
  Forall (fun q => ieee_finite prec emax q /\ 0 <= ieee_real q <= 1 - bpow radix2 (3 - prec)) qs ->
  let l := since_clear ops in
  Forall (fun x => ieee_finite prec emax x /\ Rabs (ieee_real x) <= bpow radix2 (emax - 31)) l ->
  l <> [] -> (N.of_nat (length l) <= 2 ^ 27)%N -> (Z.of_nat (length l) <= 2 ^ prec)%Z -> (index <= length qs + 1)%nat ->
  let F := ieee prec emax in
  let U := ieee_fused prec emax in
  let s := run (psq_push_fma F U qs first) (psq_clear F qs) (psq_init F qs) ops in
  exists x, psq_get_fma F U qs s index = Some x /\ ieee_finite prec emax x /\ in_hull (ieee_real x) (map ieee_real l).
Proof. exact c124_range_formats. Qed.
Print Assumptions C124_range_formats.

(** C124_range_formats_ex: the median and the third quartile of three floats. *)
Example C124_range_formats_ex :
  let half := S754_finite false 8388608 (-24) in
  let q3 := S754_finite false 12582912 (-24) in
  Forall (fun q => ieee_finite 24 128 q /\ 0 <= ieee_real q <= 1 - bpow radix2 (3 - 24)) [half; q3] /\
  let ops := [Push S754_nan; Clear; Push (f32 3); Push (f32 1); Push (f32 7)] in
  let l := since_clear ops in
  Forall (fun x => ieee_finite 24 128 x /\ Rabs (ieee_real x) <= bpow radix2 (128 - 31)) l /\
  l <> [] /\ (N.of_nat (length l) <= 2 ^ 27)%N /\ (3 <= length [half; q3] + 1)%nat /\
  let F := ieee 24 128 in
  let U := ieee_fused 24 128 in
  psq_get_fma F U [half; q3] (run (psq_push_fma F U [half; q3] true) (psq_clear F [half; q3]) (psq_init F [half; q3]) ops) 2 = Some (f32 5).
Proof. exact c124_range_formats_ex. Qed.

(** C124_estimates_order_formats: in the same formats, once more than 2Q+3 such
    values have been pushed, the estimates are finite and in the order of their
    indices. *)
Theorem C124_estimates_order_formats : forall (prec emax : Z) (first : bool) (qs : list spec_float) (ops : list (op spec_float)) (i j : nat),
  (8 <= prec < emax)%Z -> (65 <= emax)%Z ->
  let l := since_clear ops in
  Forall (fun x => ieee_finite prec emax x /\ Rabs (ieee_real x) <= bpow radix2 (emax - 31)) l ->
  (2 * length qs + 3 < length l)%nat -> (N.of_nat (length l) <= 2 ^ 27)%N -> (Z.of_nat (length l) <= 2 ^ prec)%Z ->
  (i <= j)%nat -> (j <= length qs + 1)%nat ->
  let F := ieee prec emax in
  let U := ieee_fused prec emax in
  let s := run (psq_push_fma F U qs first) (psq_clear F qs) (psq_init F qs) ops in
  exists x y, psq_get_fma F U qs s i = Some x /\ psq_get_fma F U qs s j = Some y /\
    ieee_finite prec emax x /\ ieee_finite prec emax y /\ SFleb x y = true.
Proof. exact c124_estimates_formats. Qed.
Print Assumptions C124_estimates_order_formats.

(** C124_estimates_order_formats_ex: six floats, one quantile, and the first two
    estimates. *)
Example C124_estimates_order_formats_ex :
  let ops := map Push [f32 10; f32 11; f32 12; f32 20; f32 21; f32 9] in
  let l := since_clear ops in
  (8 <= 24 < 128)%Z /\ (65 <= 128)%Z /\
  Forall (fun x => ieee_finite 24 128 x /\ Rabs (ieee_real x) <= bpow radix2 (128 - 31)) l /\
  (2 * length [S754_nan] + 3 < length l)%nat /\ (N.of_nat (length l) <= 2 ^ 27)%N /\ (Z.of_nat (length l) <= 2 ^ 24)%Z /\
  (0 <= 1)%nat /\ (1 <= length [S754_nan] + 1)%nat.
Proof. exact c124_estimates_formats_ex. Qed.

(** C124_cross_statement_double: the witness of C124_cross_statement computed with
    the operations of double: the quantile 1/3 of 0, 0, 2^60 and 2^60 is 0, and -64 when
    the product of the rank is fused across statements. *)
Theorem C124_cross_statement_double : exists (q : spec_float) (l : list spec_float),
  let F := ieee 53 1024 in
  let U := ieee_fused 53 1024 in
  q = SFdiv 53 1024 (ieee_of_Z 53 1024 1) (ieee_of_Z 53 1024 3) /\
  Forall (fun x => SFleb (ieee_of_Z 53 1024 0) x = true) l /\
  let s := run (psq_push_fma F U [q] true) (psq_clear F [q]) (psq_init F [q]) (pushes l) in
  psq_get_fma F U [q] s 1 = Some (ieee_of_Z 53 1024 0) /\
  psq_get_cross F U [q] s 1 = Some (ieee_of_Z 53 1024 (-64)).
Proof. exact c124_cross_double. Qed.
Print Assumptions C124_cross_statement_double.
