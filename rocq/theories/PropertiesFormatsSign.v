(** * Property theorems: FormatsSign

    Statements only; every proof is [exact] of a lemma in ClaimsFormatsSign.v.
    Generated by tools/mkprops.py. *)

From Coq Require Import Reals ZArith NArith List Bool Sorted.
From Coq Require Import Floats.SpecFloat.
From Flocq Require Import Core.
From Verif Require Import Arith History SpecStats SpecOrder Cumulative Window Interim Decay Psquare ExactRuns Ieee Rounded.
Import ListNotations.
Local Open Scope R_scope.
(** A float of an integer. *)
Local Notation f32 z := (ieee_of_Z 24 128 z).
From Verif Require Import ClaimsFormatsSign.

(** C122_mean_variance: in every IEEE format in which size_t is in range, overflow
    included: if the values pushed since the last clear are finite and smaller than
    half of the range, mean() is finite and between the smallest and the largest of
    them, and variance() compares greater or equal to zero (it is never NaN). *)
Theorem C122_mean_variance : forall (prec emax : Z) (ops : list (op spec_float)),
  (1 < prec < emax)%Z -> (65 <= emax)%Z ->
  let l := since_clear ops in
  l <> [] -> (N.of_nat (length l) < szmod)%N ->
  Forall (fun x => ieee_finite prec emax x /\ Rabs (ieee_real x) < bpow radix2 (emax - 1)) l ->
  let F := ieee prec emax in
  let s := run (cvar_push F) (cvar_clear F) (cvar_init F) ops in
  ieee_finite prec emax (cvar_mean F s) /\
  in_hull (ieee_real (cvar_mean F s)) (map ieee_real l) /\
  SFleb (S754_zero false) (cvar_variance F s) = true.
Proof. exact c122_mean_variance. Qed.
Print Assumptions C122_mean_variance.

(** C122_mean_variance_ex: over float, 1/10, 2/10, 7/10 after a clear; and 2^126
    with opposite signs, whose variance overflows to infinity. *)
Example C122_mean_variance_ex :
  let F := ieee 24 128 in
  let d k := @ndiv F (f32 k) (f32 10) in
  let ops := [Push (f32 5); Clear; Push (d 1%Z); Push (d 2%Z); Push (d 7%Z)] in
  let s := run (cvar_push F) (cvar_clear F) (cvar_init F) ops in
  Forall (fun x => ieee_finite 24 128 x) (since_clear ops) /\
  SFltb (d 1%Z) (cvar_mean F s) = true /\ SFltb (cvar_mean F s) (d 7%Z) = true /\
  SFltb (S754_zero false) (cvar_variance F s) = true /\
  let big := f32 (2 ^ 126) in
  let s' := run (cvar_push F) (cvar_clear F) (cvar_init F) [Push big; Push (SFopp big)] in
  cvar_mean F s' = f32 0 /\ cvar_variance F s' = S754_infinity false.
Proof. exact c122_mean_variance_ex. Qed.

(** C122_window_variance: in every IEEE format, for every state of the filter
    whatsoever (hence for every input, NaN and infinities included), variance() and
    unbiased_variance() of the window filter are neither NaN nor negative. *)
Theorem C122_window_variance : forall (prec emax : Z) (s : wvar (ieee prec emax)),
  (1 < prec < emax)%Z ->
  let ok (v : spec_float) :=
    match v with
    | S754_nan => False
    | S754_infinity sign => sign = false
    | S754_zero sign => sign = false
    | S754_finite sign _ _ => sign = false
    end in
  ok (wvar_variance (ieee prec emax) s) /\ ok (wvar_unbiased_variance (ieee prec emax) s).
Proof. exact c122_window. Qed.
Print Assumptions C122_window_variance.

(** C122_window_variance_ex: a float window of two after NaN has left it. *)
Example C122_window_variance_ex :
  let F := ieee 24 128 in
  let s := run (wvar_push F 2) (wvar_clear F) (wvar_init F) [Push (f32 1); Push S754_nan; Push (f32 3); Push (f32 5)] in
  (1 < 24 < 128)%Z /\ wvar_mean F s = S754_nan /\ wvar_variance F s = S754_zero false /\
  wvar_variance F (run (wvar_push F 2) (wvar_clear F) (wvar_init F) [Push (f32 1); Push (f32 3); Push (f32 5)]) = f32 1.
Proof. exact c122_window_ex. Qed.

(** C122_psquare_order: in every IEEE format with at least 8 bits in which size_t
    is in range, every list of Q quantiles (NaN and infinities included) and every
    history with 2Q+3 to 2^27 values, but not more than 2^prec, that are finite and
    at most 2^(emax-31) in magnitude: the marker heights reported by parameters() are finite,
    in ascending order and between the smallest and the largest value. *)
Theorem C122_psquare_order : forall (prec emax : Z) (qs : list spec_float) (ops : list (op spec_float)),
  (8 <= prec < emax)%Z -> (65 <= emax)%Z ->
  let l := since_clear ops in
  Forall (fun x => ieee_finite prec emax x /\ Rabs (ieee_real x) <= bpow radix2 (emax - 31)) l ->
  (2 * length qs + 3 <= length l)%nat -> (N.of_nat (length l) <= 2 ^ 27)%N -> (Z.of_nat (length l) <= 2 ^ prec)%Z ->
  let F := ieee prec emax in
  let s := run (psq_push F qs) (psq_clear F qs) (psq_init F qs) ops in
  let h := map snd (psq_parameters F s) in
  length h = (2 * length qs + 3)%nat /\
  Forall (ieee_finite prec emax) h /\ StronglySorted Rle (map ieee_real h) /\
  Forall (fun v => in_hull v (map ieee_real l)) (map ieee_real h).
Proof. exact c122_order. Qed.
Print Assumptions C122_psquare_order.

(** C122_psquare_order_ex: the values of C38 over float, in which the first marker
    makes a linear step down, with a NaN for the quantile. *)
Example C122_psquare_order_ex :
  let ops := map Push [f32 10; f32 11; f32 12; f32 20; f32 21; f32 9] in
  let l := since_clear ops in
  (8 <= 24 < 128)%Z /\ (65 <= 128)%Z /\
  Forall (fun x => ieee_finite 24 128 x /\ Rabs (ieee_real x) <= bpow radix2 (128 - 31)) l /\
  (2 * length [S754_nan] + 3 <= length l)%nat /\ (N.of_nat (length l) <= 2 ^ 27)%N /\ (Z.of_nat (length l) <= 2 ^ 24)%Z.
Proof. exact c122_order_ex. Qed.

(** C122_psquare_range: in the same formats, for quantiles between 0 and
    1 - 2^(3-prec) and 1 to 2^27 (and not more than 2^prec) such values: get<i> is defined
    for every index and returns a finite number between the smallest and the largest of them. *)
Theorem C122_psquare_range : forall (prec emax : Z) (qs : list spec_float) (ops : list (op spec_float)) (index : nat),
  (8 <= prec < emax)%Z -> (65 <= emax)%Z ->
  Forall (fun q => ieee_finite prec emax q /\ 0 <= ieee_real q <= 1 - bpow radix2 (3 - prec)) qs ->
  let l := since_clear ops in
  Forall (fun x => ieee_finite prec emax x /\ Rabs (ieee_real x) <= bpow radix2 (emax - 31)) l ->
  l <> [] -> (N.of_nat (length l) <= 2 ^ 27)%N -> (Z.of_nat (length l) <= 2 ^ prec)%Z -> (index <= length qs + 1)%nat ->
  let F := ieee prec emax in
  let s := run (psq_push F qs) (psq_clear F qs) (psq_init F qs) ops in
  exists x, psq_get F qs s index = Some x /\ ieee_finite prec emax x /\ in_hull (ieee_real x) (map ieee_real l).
Proof. exact c122_range. Qed.
Print Assumptions C122_psquare_range.

(** C122_psquare_range_ex: the median and the third quartile of three floats. *)
Example C122_psquare_range_ex :
  let half := S754_finite false 8388608 (-24) in
  let q3 := S754_finite false 12582912 (-24) in
  Forall (fun q => ieee_finite 24 128 q /\ 0 <= ieee_real q <= 1 - bpow radix2 (3 - 24)) [half; q3] /\
  let ops := [Push S754_nan; Clear; Push (f32 3); Push (f32 1); Push (f32 7)] in
  let l := since_clear ops in
  Forall (fun x => ieee_finite 24 128 x /\ Rabs (ieee_real x) <= bpow radix2 (128 - 31)) l /\
  l <> [] /\ (N.of_nat (length l) <= 2 ^ 27)%N /\ (3 <= length [half; q3] + 1)%nat /\
  let F := ieee 24 128 in
  psq_get F [half; q3] (run (psq_push F [half; q3]) (psq_clear F [half; q3]) (psq_init F [half; q3]) ops) 2 = Some (f32 5).
Proof. exact c122_range_ex. Qed.

(** C122_constant: in every IEEE format in which size_t is in range, for every finite
    number, the largest included: after any positive number of pushes of it since the
    last clear the mean is that number and the variance (of pairs the covariance)
    zero, for cumulative and window filters. *)
Theorem C122_constant : forall (prec emax : Z) (W : nat) (c d : spec_float) (n : nat),
  (1 < prec < emax)%Z -> (65 <= emax)%Z ->
  ieee_finite prec emax c -> ieee_finite prec emax d -> (0 < W)%nat -> (N.of_nat W < szmod)%N ->
  let F := ieee prec emax in
  let same x y := ieee_finite prec emax x /\ ieee_real x = y in
  (forall ops : list (op spec_float), since_clear ops = repeat c (S n) -> (N.of_nat (S n) < szmod)%N ->
     let s := run (cvar_push F) (cvar_clear F) (cvar_init F) ops in
     same (cvar_mean F s) (ieee_real c) /\ same (cvar_variance F s) 0) /\
  (forall ops : list (op spec_float), since_clear ops = repeat c (S n) ->
     let s := run (wvar_push F W) (wvar_clear F) (wvar_init F) ops in
     same (wvar_mean F s) (ieee_real c) /\ same (wvar_variance F s) 0) /\
  (forall ops : list (op (spec_float * spec_float)), since_clear ops = repeat (c, d) (S n) -> (N.of_nat (S n) < szmod)%N ->
     let s := run (ccov_push F) (ccov_clear F) (ccov_init F) ops in
     same (ccov_variance F s) 0).
Proof. exact c122_constant. Qed.
Print Assumptions C122_constant.

(** C122_constant_ex: the largest float, three times, window of two. *)
Example C122_constant_ex :
  let F := ieee 24 128 in
  let big := S754_finite false 16777215 104 in
  ieee_finite 24 128 big /\ since_clear (pushes [big; big; big]) = repeat big 3 /\
  wvar_mean F (run (wvar_push F 2) (wvar_clear F) (wvar_init F) (pushes [big; big; big])) = big.
Proof. exact c122_constant_ex. Qed.

(** C122_decay: in every IEEE format, for every history of numbers of the format, NaN
    and infinities included, and every finite factor between 0 and 1: variance() and
    kurtosis() of the decay filters never compare less than zero. *)
Theorem C122_decay : forall (prec emax : Z) (fm fv fs fk : spec_float) (ops : list (op spec_float)),
  (1 < prec < emax)%Z ->
  ieee_valid prec emax fm -> ieee_valid prec emax fs ->
  ieee_finite prec emax fv -> 0 <= ieee_real fv <= 1 -> ieee_finite prec emax fk -> 0 <= ieee_real fk <= 1 ->
  (forall x, In (Push x) ops -> ieee_valid prec emax x) ->
  let F := ieee prec emax in
  let s := run (dvar_push F) (dvar_clear F) (dvar_init F fm fv) ops in
  let k := run (dkurt_push F) (dkurt_clear F) (dkurt_init F fm fv fs fk) ops in
  SFltb (dvar_variance F s) (S754_zero false) = false /\
  SFltb (dkurt_variance F k) (S754_zero false) = false /\
  SFltb (dkurt_kurtosis F k) (S754_zero false) = false.
Proof. exact c122_decay. Qed.
Print Assumptions C122_decay.

(** C122_decay_ex: over float with factors 1/10; a stream with an infinity, whose
    variance becomes NaN, and one with a positive variance. *)
Example C122_decay_ex :
  let F := ieee 24 128 in
  let d k := @ndiv F (f32 k) (f32 10) in
  let f := d 1%Z in
  let ops := [Push (d 3%Z); Push (S754_infinity true); Push (d 4%Z)] in
  let ops' := [Push (d 3%Z); Clear; Push (d 70%Z); Push (d (-4)%Z)] in
  let v ops := dvar_variance F (run (dvar_push F) (dvar_clear F) (dvar_init F f f) ops) in
  ieee_finite 24 128 f /\ 0 <= ieee_real f <= 1 /\
  (forall x, In (Push x) ops -> ieee_valid 24 128 x) /\ (forall x, In (Push x) ops' -> ieee_valid 24 128 x) /\
  v ops = S754_nan /\ SFltb (S754_zero false) (v ops') = true.
Proof. exact c122_decay_ex. Qed.

(** C122_interim: in every IEEE format in which size_t is in range, for every window up
    to 2^32 and every history whose last 2W values since the last clear() are finite and
    smaller than half of the range: variance() of the interim filter compares greater
    or equal to zero (it is never NaN). *)
Theorem C122_interim : forall (prec emax : Z) (W : nat) (ops : list (op spec_float)),
  (1 < prec < emax)%Z -> (65 <= emax)%Z -> (0 < W)%nat -> (N.of_nat W <= 2 ^ 32)%N ->
  let l := since_clear ops in
  l <> [] -> Forall (fun x => ieee_finite prec emax x /\ Rabs (ieee_real x) < bpow radix2 (emax - 1)) (lastn (2 * W) l) ->
  let F := ieee prec emax in
  let w := N.of_nat W in
  let d := run (ivar_push F w) (ivar_clear F) (ivar_init F) ops in
  SFleb (S754_zero false) (ivar_variance F w d) = true.
Proof. exact c122_interim. Qed.
Print Assumptions C122_interim.

(** C122_interim_ex: W = 2 over float; NaN is out of reach of the last four values. *)
Example C122_interim_ex :
  let F := ieee 24 128 in
  let ops := [Push S754_nan; Push S754_nan; Push (f32 4); Push (f32 6); Push (f32 1)] in
  (N.of_nat 2 <= 2 ^ 32)%N /\ lastn (2 * 2) (since_clear ops) = [S754_nan; f32 4; f32 6; f32 1] /\
  let ops' := ops ++ [Push (f32 3)] in
  Forall (ieee_finite 24 128) (lastn (2 * 2) (since_clear ops')) /\
  ivar_variance F 2 (run (ivar_push F 2) (ivar_clear F) (ivar_init F) ops') = f32 1.
Proof. exact c122_interim_ex. Qed.
