(** * Property theorems: Sign

    Statements only; every proof is [exact] of a lemma in ClaimsSign.v.
    Generated by tools/mkprops.py. *)

From Coq Require Import Reals ZArith NArith List Bool.
From Coq Require Import Floats.SpecFloat.
From Flocq Require Import Core.
From Verif Require Import Arith History SpecStats SpecBlocks Cumulative Window Interim Decay Rounded Binary64.
Import ListNotations.
Local Open Scope R_scope.
From Verif Require Import ClaimsSign.

(** C89_decay_rounded: in every binary format with gradual underflow and
    every rounding function, for every history of pushes of real numbers and
    clears and factors between 0 and 1: variance() of the decay filters is a
    number and not negative, and so is kurtosis() if the format has room for the
    square of its epsilon. *)
Theorem C89_decay_rounded : forall (emin prec : Z) (mode : R -> Z) (fm fv fs fk : R) (ops : list (op R)),
  (0 < prec)%Z -> (emin <= 0)%Z -> Valid_rnd mode -> 0 <= fv <= 1 -> 0 <= fk <= 1 ->
  let F := rounded emin prec mode in
  let s := run (dvar_push F) (dvar_clear F) (dvar_init F (Fin fm) (Fin fv)) (fops emin prec mode ops) in
  let k := run (dkurt_push F) (dkurt_clear F) (dkurt_init F (Fin fm) (Fin fv) (Fin fs) (Fin fk)) (fops emin prec mode ops) in
  (exists v, dvar_variance F s = Fin v /\ 0 <= v) /\
  (exists v, dkurt_variance F k = Fin v /\ 0 <= v) /\
  ((emin <= 2 - 2 * prec)%Z -> exists v, dkurt_kurtosis F k = Fin v /\ 0 <= v).
Proof. exact c89_decay_rounded. Qed.
Print Assumptions C89_decay_rounded.

(** C89_decay_rounded_ex: eleven bits, rounding downwards; binary64, binary32
    and half precision have room for the square of epsilon. *)
Example C89_decay_rounded_ex :
  (0 < 11)%Z /\ (-24 <= 0)%Z /\ Valid_rnd Zfloor /\ 0 <= 1 / 3 <= 1 /\ 0 <= 1 <= 1 /\
  (-24 <= 2 - 2 * 11)%Z /\ (-149 <= 2 - 2 * 24)%Z /\ (-1074 <= 2 - 2 * 53)%Z.
Proof. exact c89_decay_rounded_ex. Qed.

(** C89_decay_binary64: in binary64, for every history of doubles, NaN and
    infinities included, and every finite factor between 0 and 1: variance() and
    kurtosis() of the decay filters never compare less than zero. *)
Theorem C89_decay_binary64 : forall (fm fv fs fk : b64) (ops : list (op b64)),
  b64_valid fm -> b64_valid fs ->
  b64_finite fv -> 0 <= b64_real fv <= 1 -> b64_finite fk -> 0 <= b64_real fk <= 1 ->
  all_pushed b64_valid ops ->
  let s := run (dvar_push b64num) (dvar_clear b64num) (dvar_init b64num fm fv) ops in
  let k := run (dkurt_push b64num) (dkurt_clear b64num) (dkurt_init b64num fm fv fs fk) ops in
  SFltb (dvar_variance b64num s) (S754_zero false) = false /\
  SFltb (dkurt_variance b64num k) (S754_zero false) = false /\
  SFltb (dkurt_kurtosis b64num k) (S754_zero false) = false.
Proof. exact c89_decay_binary64. Qed.
Print Assumptions C89_decay_binary64.

(** C89_decay_binary64_ex: factors 0.1; a stream with an infinity, whose
    variance becomes NaN, and one with a positive variance. *)
Example C89_decay_binary64_ex :
  let d k := @ndiv b64num (b64_of_Z k) (b64_of_Z 10) in
  let f := d 1%Z in
  let ops := [Push (d 3%Z); Push (S754_infinity true); Push (d 4%Z)] in
  let ops' := [Push (d 3%Z); Clear; Push (d 70%Z); Push (d (-4)%Z)] in
  let v ops := dvar_variance b64num (run (dvar_push b64num) (dvar_clear b64num) (dvar_init b64num f f) ops) in
  b64_finite f /\ 0 <= b64_real f <= 1 /\ all_pushed b64_valid ops /\ all_pushed b64_valid ops' /\
  v ops = S754_nan /\ SFltb (S754_zero false) (v ops') = true.
Proof. exact c89_decay_binary64_ex. Qed.

(** C89_interim_binary64: in binary64, for every window up to 2^32 and
    every history whose last 2W values since the last clear() are finite and
    smaller than 2^1023 in magnitude: variance() of the interim filter compares
    greater or equal to zero (it is never NaN). *)
Theorem C89_interim_binary64 : forall (W : nat) (ops : list (op b64)),
  (0 < W)%nat -> (N.of_nat W <= 2 ^ 32)%N ->
  let l := since_clear ops in
  l <> [] -> Forall (fun x => b64_finite x /\ Rabs (b64_real x) < bpow radix2 1023) (lastn (2 * W) l) ->
  let w := N.of_nat W in
  let d := run (ivar_push b64num w) (ivar_clear b64num) (ivar_init b64num) ops in
  SFleb (S754_zero false) (ivar_variance b64num w d) = true.
Proof. exact c89_interim_binary64. Qed.
Print Assumptions C89_interim_binary64.

(** C89_interim_binary64_ex: W = 2; NaN is out of reach of the last four
    values. *)
Example C89_interim_binary64_ex :
  let d k := @ndiv b64num (b64_of_Z k) (b64_of_Z 10) in
  let ops := [Push S754_nan; Push (d 3%Z); Push (d 30%Z); Push (d 1%Z); Push (d 1%Z)] in
  let l := since_clear ops in
  (0 < 2)%nat /\ (N.of_nat 2 <= 2 ^ 32)%N /\ l <> [] /\
  Forall (fun x => b64_finite x /\ Rabs (b64_real x) < bpow radix2 1023) (lastn (2 * 2) l).
Proof. exact c89_interim_binary64_ex. Qed.

(** C13_interim_refuted: over double, six times 0.1 in an interim filter of
    window 3 does not give the mean 0.1. *)
Theorem C13_interim_refuted : exists (c : b64) (n : nat),
  b64_finite c /\
  let d := run (imean_push b64num 3) (imean_clear b64num) (imean_init b64num) (pushes (repeat c n)) in
  SFeqb (imean_mean b64num 3 d) c = false.
Proof. exact c13_interim_refuted. Qed.
Print Assumptions C13_interim_refuted.

(** C13_decay_refuted: over double, the decay filter with factor 0.1 fed 0.1
    once does not give the mean 0.1, and its variance is positive. *)
Theorem C13_decay_refuted : exists c f : b64,
  b64_finite c /\ b64_finite f /\
  let s := run (dvar_push b64num) (dvar_clear b64num) (dvar_init b64num f f) (pushes (repeat c 1)) in
  SFeqb (dvar_mean b64num s) c = false /\ SFltb (S754_zero false) (dvar_variance b64num s) = true.
Proof. exact c13_decay_refuted. Qed.
Print Assumptions C13_decay_refuted.

(** C90_refuted: over double the means of the window, interim and decay
    filters can leave the range of the data: window 2 fed 0.1, 0.3, 0.1, 0.1,
    interim with window 3 fed 0.1 six times, decay with factor 0.1 fed 0.1. *)
Theorem C90_refuted :
  let outside (m : b64) (l : list b64) := b64_finite m /\ Forall b64_finite l /\ l <> [] /\
    (Forall (fun x => SFltb x m = true) l \/ Forall (fun x => SFltb m x = true) l) in
  (exists l, outside (wmean_mean b64num (run (wmean_push b64num 2) (wmean_clear b64num) (wmean_init b64num) (pushes l))) (lastn 2 l)) /\
  (exists l, outside (imean_mean b64num 3 (run (imean_push b64num 3) (imean_clear b64num) (imean_init b64num) (pushes l))) l) /\
  (exists f l, outside (dmean_mean b64num (run (dmean_push b64num) (dmean_clear b64num) (dmean_init b64num f) (pushes l))) l).
Proof. exact c90_refuted. Qed.
Print Assumptions C90_refuted.

(** C90_interim_partial: in binary64 mean() of the interim filter stays
    within the range of the last 2W values up to the error bound of C88. *)
Theorem C90_interim_partial : forall (W : nat) (ops : list (op b64)) (M lo hi : R),
  let l := since_clear ops in
  l <> [] -> (0 < W)%nat -> (Z.of_nat W <= 2 ^ 49)%Z -> M <= bpow radix2 960 ->
  Forall (fun x => b64_finite x /\ Rabs (b64_real x) <= M) (lastn (2 * W) l) ->
  Forall (fun x => lo <= b64_real x <= hi) (lastn (2 * W) l) ->
  let w := N.of_nat W in
  let m := b64_real (imean_mean b64num w (run (imean_push b64num w) (imean_clear b64num) (imean_init b64num) ops)) in
  let E := (INR W + 46) * bpow radix2 (-53) * M + (3 * INR W + 29) * bpow radix2 (-1075) in
  lo - E <= m <= hi + E.
Proof. exact c90_interim_partial. Qed.
Print Assumptions C90_interim_partial.

(** C90_interim_partial_ex: W = 2, the last four values 1.5, 2.5, 4, 0.5. *)
Example C90_interim_partial_ex :
  let d k := @ndiv b64num (b64_of_Z k) (b64_of_Z 2) in
  let l := since_clear [Push S754_nan; Push (d 3%Z); Push (d 5%Z); Push (d 8%Z); Push (d 1%Z)] in
  l <> [] /\ (0 < 2)%nat /\ (Z.of_nat 2 <= 2 ^ 49)%Z /\ 4 <= bpow radix2 960 /\
  Forall (fun x => b64_finite x /\ Rabs (b64_real x) <= 4) (lastn (2 * 2) l) /\
  Forall (fun x => 1 / 2 <= b64_real x <= 4) (lastn (2 * 2) l).
Proof. exact c90_interim_partial_ex. Qed.

(** C90_decay_partial: in binary64 mean() of the decay filter stays within
    the range of the pushed values up to the error bound of C67. *)
Theorem C90_decay_partial : forall (f : b64) (l : list b64) (M lo hi : R),
  b64_finite f -> bpow radix2 (-46) <= b64_real f <= 1 -> l <> [] -> M <= bpow radix2 1018 ->
  Forall (fun x => b64_finite x /\ Rabs (b64_real x) <= M) l ->
  Forall (fun x => lo <= b64_real x <= hi) l ->
  let m := b64_real (dmean_mean b64num (run (dmean_push b64num) (dmean_clear b64num) (dmean_init b64num f) (pushes l))) in
  let E := 209 * bpow radix2 (-53) * M / b64_real f +
    57 * bpow radix2 (-1075) * (1 + M) / (b64_real f * b64_real f) in
  lo - E <= m <= hi + E.
Proof. exact c90_decay_partial. Qed.
Print Assumptions C90_decay_partial.

(** C90_decay_partial_ex: factor 1/8, values 1.5, 2.5, 4, 0.5. *)
Example C90_decay_partial_ex :
  let d k := @ndiv b64num (b64_of_Z k) (b64_of_Z 8) in
  let l := [d 12%Z; d 20%Z; d 32%Z; d 4%Z] in
  b64_finite (d 1%Z) /\ bpow radix2 (-46) <= b64_real (d 1%Z) <= 1 /\ l <> [] /\ 4 <= bpow radix2 1018 /\
  Forall (fun x => b64_finite x /\ Rabs (b64_real x) <= 4) l /\
  Forall (fun x => 1 / 2 <= b64_real x <= 4) l.
Proof. exact c90_decay_partial_ex. Qed.

(** C90_window_partial: in binary64 mean() of the window filter stays within
    the range of the last W values up to the drift bound of C66. *)
Theorem C90_window_partial : forall (W : nat) (ops : list (op b64)) (M lo hi : R),
  let l := since_clear ops in
  let n := INR (length l) in
  (0 < W)%nat -> (Z.of_nat W <= 2 ^ 53)%Z ->
  l <> [] -> (Z.of_nat (length l) <= 2 ^ 49)%Z -> M <= bpow radix2 1018 ->
  Forall (fun x => b64_finite x /\ Rabs (b64_real x) <= M) l ->
  Forall (fun x => lo <= b64_real x <= hi) (lastn W l) ->
  let m := b64_real (wmean_mean b64num (run (wmean_push b64num W) (wmean_clear b64num) (wmean_init b64num) ops)) in
  let E := n * (26 * bpow radix2 (-53) * M + 14 * bpow radix2 (-1075)) in
  lo - E <= m <= hi + E.
Proof. exact c90_window_partial. Qed.
Print Assumptions C90_window_partial.

(** C90_window_partial_ex: W = 2, the last two values 4 and 0.5. *)
Example C90_window_partial_ex :
  let d k := @ndiv b64num (b64_of_Z k) (b64_of_Z 2) in
  let l := since_clear [Push S754_nan; Clear; Push (d 200%Z); Push (d 5%Z); Push (d 8%Z); Push (d 1%Z)] in
  (0 < 2)%nat /\ (Z.of_nat 2 <= 2 ^ 53)%Z /\ l <> [] /\ (Z.of_nat (length l) <= 2 ^ 49)%Z /\ 100 <= bpow radix2 1018 /\
  Forall (fun x => b64_finite x /\ Rabs (b64_real x) <= 100) l /\
  Forall (fun x => 1 / 2 <= b64_real x <= 4) (lastn 2 l).
Proof. exact c90_window_partial_ex. Qed.
