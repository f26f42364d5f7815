(** * Property theorems: PsquareFloat

    Statements only; every proof is [exact] of a lemma in ClaimsPsquareFloat.v.
    Generated by tools/mkprops.py. *)

From Coq Require Import Reals ZArith NArith QArith_base Qreals List Bool Sorting.Sorted.
From Coq Require Import Floats.SpecFloat.
From Flocq Require Import Core.
From Verif Require Import Arith History Psquare Rounded Binary64 SpecPsquare.
Import ListNotations.
Local Open Scope R_scope.
From Verif Require Import ClaimsPsquareFloat.

(** C74_order_rounded: for every binary floating-point format with at least
    8 bits of precision, round to nearest and no overflow, every list of Q
    quantiles of the value type (of any kind, not only numbers between 0 and
    1) and every history with 2Q+3 to 2^27 (and at most 2^precision)
    representable values since the last clear: the marker heights reported by
    parameters() are numbers of the format in ascending order between the
    smallest and the largest value. *)
Theorem C74_order_rounded : forall (emin prec : Z) (ops : list (op R)),
  (8 <= prec)%Z -> (emin <= -34)%Z ->
  let F := rounded emin prec ZnearestE in
  forall qs : list F,
  let l := since_clear ops in
  Forall (representable emin prec) l ->
  (2 * length qs + 3 <= length l)%nat -> (N.of_nat (length l) <= 2 ^ 27)%N -> (Z.of_nat (length l) <= 2 ^ prec)%Z ->
  let s := run (psq_push F qs) (psq_clear F qs) (psq_init F qs) (fops emin prec ZnearestE ops) in
  exists hs : list R, map snd (psq_parameters F s) = map Fin hs /\
    StronglySorted Rle hs /\ Forall (representable emin prec) hs /\ Forall (fun h => in_hull h l) hs.
Proof. exact c74_order_rounded. Qed.
Print Assumptions C74_order_rounded.

(** C74_order_rounded_ex: single precision, median; seven values after a
    clear, one quantile that is not a number. *)
Example C74_order_rounded_ex :
  (8 <= 24)%Z /\ (-149 <= -34)%Z /\
  let ops := [Push 100; Clear; Push 3; Push 1; Push 2; Push 5; Push 4; Push 7; Push 6] in
  let l := since_clear ops in
  Forall (representable (-149) 24) l /\ (2 * length [@NonFin] + 3 <= length l)%nat /\
  (N.of_nat (length l) <= 2 ^ 27)%N /\ (Z.of_nat (length l) <= 2 ^ 24)%Z.
Proof. exact c74_order_rounded_ex. Qed.

(** C74_range_rounded: in the same formats (in which 1 is a normal number),
    if every quantile is representable and between 0 and 1 - 2^(3-precision),
    then after one or more values, however few, get<i> is defined for every
    index and its result is a number between the smallest and the largest value
    since the last clear. *)
Theorem C74_range_rounded : forall (emin prec : Z) (qs : list R) (ops : list (op R)) (index : nat),
  (8 <= prec)%Z -> (emin <= -34)%Z -> (emin + prec <= 0)%Z ->
  Forall (fun q => representable emin prec q /\ 0 <= q <= 1 - bpow radix2 (3 - prec)) qs ->
  let l := since_clear ops in
  Forall (representable emin prec) l -> l <> [] ->
  (N.of_nat (length l) <= 2 ^ 27)%N -> (Z.of_nat (length l) <= 2 ^ prec)%Z ->
  (index <= length qs + 1)%nat ->
  let F := rounded emin prec ZnearestE in
  let s := run (psq_push F (map Fin qs)) (psq_clear F (map Fin qs)) (psq_init F (map Fin qs))
               (fops emin prec ZnearestE ops) in
  exists v, psq_get F (map Fin qs) s index = Some (Fin v) /\ representable emin prec v /\ in_hull v l.
Proof. exact c74_range_rounded. Qed.
Print Assumptions C74_range_rounded.

(** C74_range_rounded_ex: single precision, quartiles; two values. *)
Example C74_range_rounded_ex :
  (8 <= 24)%Z /\ (-149 <= -34)%Z /\ (-149 + 24 <= 0)%Z /\
  Forall (fun q => representable (-149) 24 q /\ 0 <= q <= 1 - bpow radix2 (3 - 24)) [/ 4; / 2; 3 / 4] /\
  let ops := [Push 3; Push (-1)] in
  let l := since_clear ops in
  Forall (representable (-149) 24) l /\ l <> [] /\ (N.of_nat (length l) <= 2 ^ 27)%N /\
  (Z.of_nat (length l) <= 2 ^ 24)%Z /\ (4 <= length [/ 4; / 2; 3 / 4]%R + 1)%nat.
Proof. exact c74_range_rounded_ex. Qed.

(** C74_order_binary64: for double, every list of Q quantiles (NaN and
    infinities included) and every history with 2Q+3 to 2^27 finite values of
    magnitude at most 2^980 since the last clear: the marker heights reported
    by parameters() are finite, in ascending order and between the smallest and
    the largest value; hence std::upper_bound is only called on a sorted range. *)
Theorem C74_order_binary64 : forall (qs : list b64num) (ops : list (op b64num)),
  let l := since_clear ops in
  Forall (fun x : b64num => b64_finite x /\ Rabs (b64_real x) <= bpow radix2 980) l ->
  (2 * length qs + 3 <= length l)%nat -> (N.of_nat (length l) <= 2 ^ 27)%N ->
  let s := run (psq_push b64num qs) (psq_clear b64num qs) (psq_init b64num qs) ops in
  let h := map snd (psq_parameters b64num s) in
  length h = (2 * length qs + 3)%nat /\
  Forall b64_finite h /\ StronglySorted Rle (map b64_real h) /\
  Forall (fun v => in_hull v (map b64_real l)) (map b64_real h).
Proof. exact c74_order_binary64. Qed.
Print Assumptions C74_order_binary64.

(** C74_order_binary64_ex: the values 10, 11, 12, 20, 21, 9 of the example of
    C38, in which the first marker makes a linear step down. *)
Example C74_order_binary64_ex :
  let ops := map Push [d64 10; d64 11; d64 12; d64 20; d64 21; d64 9] in
  let l := since_clear ops in
  Forall (fun x : b64num => b64_finite x /\ Rabs (b64_real x) <= bpow radix2 980) l /\
  (2 * length [S754_nan] + 3 <= length l)%nat /\ (N.of_nat (length l) <= 2 ^ 27)%N.
Proof. exact c74_order_binary64_ex. Qed.

(** C74_range_binary64: for double, quantiles between 0 and 1 - 2^-50 and
    every history with 1 to 2^27 finite values of magnitude at most 2^980 since
    the last clear: get<i> is defined for every index and returns a finite
    value between the smallest and the largest of them. *)
Theorem C74_range_binary64 : forall (qs : list b64num) (ops : list (op b64num)) (index : nat),
  Forall (fun q : b64num => b64_finite q /\ 0 <= b64_real q <= 1 - bpow radix2 (-50)) qs ->
  let l := since_clear ops in
  Forall (fun x : b64num => b64_finite x /\ Rabs (b64_real x) <= bpow radix2 980) l ->
  l <> [] -> (N.of_nat (length l) <= 2 ^ 27)%N -> (index <= length qs + 1)%nat ->
  let s := run (psq_push b64num qs) (psq_clear b64num qs) (psq_init b64num qs) ops in
  exists x, psq_get b64num qs s index = Some x /\ b64_finite x /\ in_hull (b64_real x) (map b64_real l).
Proof. exact c74_range_binary64. Qed.
Print Assumptions C74_range_binary64.

(** C74_range_binary64_ex: the median and the 90th percentile of three
    values. *)
Example C74_range_binary64_ex :
  let half := S754_finite false 4503599627370496 (-53) in
  let p90 := ratio_value b64num (Qmake 9 10) in
  Forall (fun q : b64num => b64_finite q /\ 0 <= b64_real q <= 1 - bpow radix2 (-50)) [half; p90] /\
  let ops := [Push S754_nan; Clear; Push (d64 3); Push (d64 1); Push (d64 7)] in
  let l := since_clear ops in
  Forall (fun x : b64num => b64_finite x /\ Rabs (b64_real x) <= bpow radix2 980) l /\
  l <> [] /\ (N.of_nat (length l) <= 2 ^ 27)%N /\ (3 <= length [half; p90] + 1)%nat.
Proof. exact c74_range_binary64_ex. Qed.

(** C75_overflow_refuted: without the bound on the magnitude the claim is
    false for double: with the quantile 1/10, five times 1.7e308 and then
    -1.7e308, all finite, the markers are -1.7e308, inf, -inf, inf, 1.7e308 and
    the estimate is -inf. *)
Theorem C75_overflow_refuted : exists (qs : list b64num) (ops : list (op b64num)),
  Forall (fun q : b64num => b64_finite q) qs /\ Forall (fun x : b64num => b64_finite x) (since_clear ops) /\
  let s := run (psq_push b64num qs) (psq_clear b64num qs) (psq_init b64num qs) ops in
  exists a b, nth_error (map snd (psq_parameters b64num s)) 1 = Some a /\
    nth_error (map snd (psq_parameters b64num s)) 2 = Some b /\ SFltb b a = true /\
    psq_get b64num qs s 1 = Some (S754_infinity true) /\
    Forall (fun x => SFltb (S754_infinity true) x = true) (since_clear ops).
Proof. exact c74_order_refuted. Qed.
Print Assumptions C75_overflow_refuted.

(** C75_weight_refuted: a quantile above 1 - 2^-50 breaks the range claim:
    with the ratio (2^53-1)/2^53 the estimate after the values 5 and 5 is below
    1 (it is 2^-50). *)
Theorem C75_weight_refuted : exists q : Q,
  (Qlt (Qmake 0 1) q /\ Qlt q (Qmake 1 1)) /\
  let qs := [ratio_value b64num q] in
  let s := run (psq_push b64num qs) (psq_clear b64num qs) (psq_init b64num qs) [Push (d64 5); Push (d64 5)] in
  exists x, psq_get b64num qs s 1 = Some x /\
    SFltb x (d64 1) = true.
Proof. exact c74_weight_refuted. Qed.
Print Assumptions C75_weight_refuted.

(** C75_few_rounded_partial: for every binary floating-point format with at least 8
    bits of precision, round to nearest and no overflow, representable
    quantiles between 0 and 1 - 2^(3-precision), and two to 2Q+3 representable
    values of magnitude at most M since the last clear: if the exact rank
    r = (n-1)*q does not lie within 4n*2^-precision below an integer, get<i>
    differs from the interpolated order statistic of rank r by at most
    (2n+9)*2^-precision*M plus twice the smallest positive number. *)
Theorem C75_few_rounded_partial : forall (emin prec : Z) (qs : list R) (ops : list (op R)) (os : list R) (i : nat) (q M : R),
  (8 <= prec)%Z -> (emin <= -34)%Z -> (emin + prec <= 0)%Z ->
  nth_error qs i = Some q -> representable emin prec q -> 0 <= q <= 1 - bpow radix2 (3 - prec) ->
  let l := since_clear ops in
  Forall (fun v => representable emin prec v /\ Rabs v <= M) l -> order_statistics l os ->
  let n := INR (length l) in
  (2 <= length l <= 2 * length qs + 3)%nat -> (N.of_nat (length l) <= 2 ^ 27)%N -> (Z.of_nat (length l) <= 2 ^ prec)%Z ->
  let r := INR (length l - 1) * q in
  r <= IZR (Int_part r) + 1 - 4 * n * bpow radix2 (- prec) ->
  let F := rounded emin prec ZnearestE in
  let s := run (psq_push F (map Fin qs)) (psq_clear F (map Fin qs)) (psq_init F (map Fin qs))
               (fops emin prec ZnearestE ops) in
  exists v, psq_get F (map Fin qs) s (S i) = Some (Fin v) /\
    Rabs (v - interpolate os r) <= (2 * n + 9) * bpow radix2 (- prec) * M + 2 * bpow radix2 emin.
Proof. exact c75_few_rounded. Qed.
Print Assumptions C75_few_rounded_partial.

(** C75_few_rounded_partial_ex: single precision, the quartiles of 7, 1, 4; the exact
    rank of the first quartile is 1/2. *)
Example C75_few_rounded_partial_ex :
  let qs := [/ 4; / 2; 3 / 4] in
  let ops := [Push 100; Clear; Push 7; Push 1; Push 4] in
  (8 <= 24)%Z /\ (-149 <= -34)%Z /\ (-149 + 24 <= 0)%Z /\
  nth_error qs 0 = Some (/ 4) /\ representable (-149) 24 (/ 4) /\ 0 <= / 4 <= 1 - bpow radix2 (3 - 24) /\
  let l := since_clear ops in
  Forall (fun v => representable (-149) 24 v /\ Rabs v <= 7) l /\ order_statistics l [1; 4; 7] /\
  (2 <= length l <= 2 * length qs + 3)%nat /\
  let r := INR (length l - 1) * (/ 4) in
  r <= IZR (Int_part r) + 1 - 4 * INR (length l) * bpow radix2 (- (24)) /\
  interpolate [1; 4; 7] r = 5 / 2.
Proof. exact c75_few_rounded_ex. Qed.

(** C75_few_binary64_partial: the same for double: quantiles between 0 and 1 - 2^-50,
    two to 2Q+3 finite values of magnitude at most M <= 2^980; unless the exact
    rank lies within 4n*2^-53 below an integer the error is at most
    (2n+9)*2^-53*M plus 2^-1073. *)
Theorem C75_few_binary64_partial : forall (qs : list b64num) (ops : list (op b64num)) (os : list R) (i : nat) (q : b64num) (M : R),
  nth_error qs i = Some q -> b64_finite q -> 0 <= b64_real q <= 1 - bpow radix2 (-50) ->
  let l := since_clear ops in
  M <= bpow radix2 980 ->
  Forall (fun x : b64num => b64_finite x /\ Rabs (b64_real x) <= M) l -> order_statistics (map b64_real l) os ->
  let n := INR (length l) in
  (2 <= length l <= 2 * length qs + 3)%nat -> (N.of_nat (length l) <= 2 ^ 27)%N ->
  let r := INR (length l - 1) * b64_real q in
  r <= IZR (Int_part r) + 1 - 4 * n * bpow radix2 (-53) ->
  let s := run (psq_push b64num qs) (psq_clear b64num qs) (psq_init b64num qs) ops in
  exists x, psq_get b64num qs s (S i) = Some x /\ b64_finite x /\
    Rabs (b64_real x - interpolate os r) <= (2 * n + 9) * bpow radix2 (-53) * M + bpow radix2 (-1073).
Proof. exact c75_few_binary64. Qed.
Print Assumptions C75_few_binary64_partial.

(** C75_few_binary64_partial_ex: the 90th percentile of 3, 1, 7 with the double
    nearest to 9/10; the exact rank is about 1.8. *)
Example C75_few_binary64_partial_ex :
  let q := ratio_value b64num (Qmake 9 10) in
  let qs : list b64num := [q] in
  let ops : list (op b64num) := [Push (d64 3); Push (d64 1); Push (d64 7)] in
  nth_error qs 0 = Some q /\ b64_finite q /\ 0 <= b64_real q <= 1 - bpow radix2 (-50) /\
  let l := since_clear ops in
  7 <= bpow radix2 980 /\
  Forall (fun x : b64num => b64_finite x /\ Rabs (b64_real x) <= 7) l /\
  order_statistics (map b64_real l) [1; 3; 7] /\
  (2 <= length l <= 2 * length qs + 3)%nat /\
  let r := INR (length l - 1) * b64_real q in
  r <= IZR (Int_part r) + 1 - 4 * INR (length l) * bpow radix2 (-53).
Proof. exact c75_few_binary64_ex. Qed.

(** C75_ratio_refuted: the interpolation is not accurate for every ratio:
    for the quantiles 1/49, ..., 24/49 and the 50 values 0, 0, 1000, ..., 1000
    the order statistic of rank 49*(1/49) is 0, but get<1> is above 999, because
    rank + 1 is rounded up to 2 while rank is truncated to 0. *)
Theorem C75_ratio_refuted : exists (ps : list Q) (l : list b64num) (os : list R) (p : Q),
  Forall (fun p => Qlt (Qmake 0 1) p /\ Qlt p (Qmake 1 1)) ps /\ nth_error ps 0 = Some p /\
  Forall b64_finite l /\ order_statistics (map b64_real l) os /\
  (2 <= length l <= 2 * length ps + 3)%nat /\
  interpolate os (INR (length l - 1) * Q2R p) = 0 /\
  let qs := map (ratio_value b64num) ps in
  let s := run (psq_push b64num qs) (psq_clear b64num qs) (psq_init b64num qs) (pushes l) in
  exists x, psq_get b64num qs s 1 = Some x /\ SFltb (d64 999) x = true.
Proof. exact c75_ratio_refuted. Qed.
Print Assumptions C75_ratio_refuted.
