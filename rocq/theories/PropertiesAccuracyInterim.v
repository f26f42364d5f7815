(** * Property theorems: AccuracyInterim

    Statements only; every proof is [exact] of a lemma in ClaimsAccuracyInterim.v.
    Generated by tools/mkprops.py. *)

From Coq Require Import Reals ZArith NArith List Bool.
From Coq Require Import Floats.SpecFloat.
From Flocq Require Import Core.
From Verif Require Import Arith History SpecStats SpecBlocks Cumulative Interim Rounded Binary64 ExactRuns.
Import ListNotations.
Local Open Scope R_scope.
From Verif Require Import ClaimsAccuracyInterim.

(** C88_mean_rounded: in every format and rounding mode, for every
    window W and every number of pushes: if the last 2W values since the last
    clear() are at most [M] in magnitude, mean() is a number within
    [(W + 46) u M + (3 W + 29) eta] of the weighted mean of the two blocks (of the
    mean while at most W values were pushed). The bound does not grow with the
    number of pushes. *)
Theorem C88_mean_rounded : forall (emin prec : Z) (mode : R -> Z) (W : nat) (ops : list (op R)) (M : R),
  (0 < prec)%Z -> (emin <= 0)%Z -> Valid_rnd mode ->
  let l := since_clear ops in
  let u := bpow radix2 (1 - prec) in
  let eta := bpow radix2 emin in
  l <> [] -> (0 < W)%nat -> (2 * Z.of_nat W <= 2 ^ prec)%Z -> (2 * Z.of_nat W < 2 ^ 64)%Z ->
  16 * INR W * u <= 1 ->
  Forall (fun x => Rabs x <= M) (lastn (2 * W) l) ->
  let F := rounded emin prec mode in
  let w := N.of_nat W in
  let d := run (imean_push F w) (imean_clear F) (imean_init F) (fops emin prec mode ops) in
  let p := mean (prev_block W l) in
  let a := mean (cur_block W l) in
  let s := card (cur_block W l) in
  exists m, imean_mean F w d = Fin m /\
    ((length l <= W)%nat -> Rabs (m - mean l) <= (INR W + 46) * u * M + (3 * INR W + 29) * eta) /\
    ((W < length l)%nat -> Rabs (m - (p * (INR W - s) + a * (2 * s)) / (INR W + s)) <=
       (INR W + 46) * u * M + (3 * INR W + 29) * eta).
Proof. exact c88_mean_rounded. Qed.
Print Assumptions C88_mean_rounded.

(** C88_mean_rounded_ex: a format of twelve bits rounding towards zero, W = 2,
    after five values of which an early one is out of bounds. *)
Example C88_mean_rounded_ex :
  let ops := [Push 3; Clear; Push 99; Push (-10); Push 3; Push 7; Push 2] in
  (0 < 12)%Z /\ (-20 <= 0)%Z /\ Valid_rnd Ztrunc /\ since_clear ops = [99; -10; 3; 7; 2] /\ (0 < 2)%nat /\
  (2 * Z.of_nat 2 <= 2 ^ 12)%Z /\ (2 * Z.of_nat 2 < 2 ^ 64)%Z /\ 16 * INR 2 * bpow radix2 (1 - 12) <= 1 /\
  Forall (fun x => Rabs x <= 10) (lastn (2 * 2) (since_clear ops)) /\
  cur_block 2 (since_clear ops) = [2] /\ prev_block 2 (since_clear ops) = [3; 7].
Proof. exact c88_mean_rounded_ex. Qed.

(** C88_mean_binary64: the same in binary64 for windows up to 2^49 and
    [M <= 2^960]; values before the last 2W may be anything, including NaN and
    infinities. *)
Theorem C88_mean_binary64 : forall (W : nat) (ops : list (op b64)) (M : R),
  let l := since_clear ops in
  l <> [] -> (0 < W)%nat -> (Z.of_nat W <= 2 ^ 49)%Z -> M <= bpow radix2 960 ->
  Forall (fun x => b64_finite x /\ Rabs (b64_real x) <= M) (lastn (2 * W) l) ->
  let w := N.of_nat W in
  let d := run (imean_push b64num w) (imean_clear b64num) (imean_init b64num) ops in
  let m := imean_mean b64num w d in
  let p := mean (map b64_real (prev_block W l)) in
  let a := mean (map b64_real (cur_block W l)) in
  let s := card (cur_block W l) in
  let bound := (INR W + 46) * bpow radix2 (-53) * M + (3 * INR W + 29) * bpow radix2 (-1075) in
  b64_finite m /\
  ((length l <= W)%nat -> Rabs (b64_real m - mean (map b64_real l)) <= bound) /\
  ((W < length l)%nat -> Rabs (b64_real m - (p * (INR W - s) + a * (2 * s)) / (INR W + s)) <= bound).
Proof. exact c88_mean_binary64. Qed.
Print Assumptions C88_mean_binary64.

(** C88_mean_binary64_ex: W = 2 after NaN, infinity, 1.5, 2.5, 4, 0.5, 3;
    for W = 1000 and values up to 1 in magnitude the bound is below 1.2e-13. *)
Example C88_mean_binary64_ex :
  let d k := @ndiv b64num (b64_of_Z k) (b64_of_Z 2) in
  let ops := [Push S754_nan; Push (S754_infinity false); Push (d 3%Z); Push (d 5%Z); Push (d 8%Z); Push (d 1%Z); Push (d 6%Z)] in
  let l := since_clear ops in
  l <> [] /\ (0 < 2)%nat /\ (Z.of_nat 2 <= 2 ^ 49)%Z /\ 10 <= bpow radix2 960 /\
  Forall (fun x => b64_finite x /\ Rabs (b64_real x) <= 10) (lastn (2 * 2) l) /\
  cur_block 2 l = [d 6%Z] /\ prev_block 2 l = [d 8%Z; d 1%Z] /\
  (1000 + 46) * bpow radix2 (-53) * 1 + (3 * 1000 + 29) * bpow radix2 (-1075) < 12 / 10 ^ 14.
Proof. exact c88_mean_binary64_ex. Qed.

(** C88_variance_binary64: in binary64, windows up to 2^26, the last 2W
    values at most [M] in magnitude (between 2^-1000 and 2^480): variance() is
    finite and within [5 ((14 W + 454) u M^2 + (3 W + 13) 10 M eta + 27 eta)] of the
    weighted average of the variances of the two blocks, for every number of
    pushes. *)
Theorem C88_variance_binary64 : forall (W : nat) (ops : list (op b64)) (M : R),
  let l := since_clear ops in
  l <> [] -> (0 < W)%nat -> (Z.of_nat W <= 2 ^ 26)%Z -> bpow radix2 (-1000) <= M <= bpow radix2 480 ->
  Forall (fun x => b64_finite x /\ Rabs (b64_real x) <= M) (lastn (2 * W) l) ->
  let w := N.of_nat W in
  let u := bpow radix2 (-53) in
  let eta := bpow radix2 (-1075) in
  let d := run (ivar_push b64num w) (ivar_clear b64num) (ivar_init b64num) ops in
  let v := ivar_variance b64num w d in
  let vp := variance (map b64_real (prev_block W l)) in
  let va := variance (map b64_real (cur_block W l)) in
  let s := card (cur_block W l) in
  let wp := (INR W - s + 1) ^ 2 in
  let wa := 2 * (s - 1) in
  let bound := 5 * ((14 * INR W + 454) * u * (M * M) + (3 * INR W + 13) * (10 * M) * eta + 27 * eta) in
  b64_finite v /\
  ((length l <= W)%nat -> Rabs (b64_real v - variance (map b64_real l)) <= bound) /\
  ((W < length l)%nat -> Rabs (b64_real v - (wp * vp + wa * va) / (wp + wa)) <= bound).
Proof. exact c88_variance_binary64. Qed.
Print Assumptions C88_variance_binary64.

(** C88_variance_binary64_ex: W = 4 after nine values, the first a NaN; for
    W = 1000 and values up to 1 the bound is below 1e-11. *)
Example C88_variance_binary64_ex :
  let d k := @ndiv b64num (b64_of_Z k) (b64_of_Z 2) in
  let ops := Push S754_nan :: map (fun k => Push (d k)) [3; 5; 8; 1; 6; -7; 2; 9]%Z in
  let l := since_clear ops in
  let u := bpow radix2 (-53) in
  let eta := bpow radix2 (-1075) in
  l <> [] /\ (0 < 4)%nat /\ (Z.of_nat 4 <= 2 ^ 26)%Z /\ bpow radix2 (-1000) <= 10 <= bpow radix2 480 /\
  Forall (fun x => b64_finite x /\ Rabs (b64_real x) <= 10) (lastn (2 * 4) l) /\
  cur_block 4 l = [d 9%Z] /\
  5 * ((14 * 1000 + 454) * u * (1 * 1) + (3 * 1000 + 13) * (10 * 1) * eta + 27 * eta) < 1 / 10 ^ 11.
Proof. exact c88_variance_binary64_ex. Qed.

(** C88_covariance_binary64: likewise for covariance(), with separate bounds
    for the two coordinates. *)
Theorem C88_covariance_binary64 : forall (W : nat) (ops : list (op (b64 * b64))) (Mx My : R),
  let l := since_clear ops in
  l <> [] -> (0 < W)%nat -> (Z.of_nat W <= 2 ^ 26)%Z ->
  bpow radix2 (-1000) <= Mx <= bpow radix2 480 -> bpow radix2 (-1000) <= My <= bpow radix2 480 ->
  Forall (fun p => (b64_finite (fst p) /\ Rabs (b64_real (fst p)) <= Mx) /\
                   (b64_finite (snd p) /\ Rabs (b64_real (snd p)) <= My)) (lastn (2 * W) l) ->
  let real p := (b64_real (fst p), b64_real (snd p)) in
  let w := N.of_nat W in
  let u := bpow radix2 (-53) in
  let eta := bpow radix2 (-1075) in
  let d := run (icov_push b64num w) (icov_clear b64num) (icov_init b64num) ops in
  let v := icov_variance b64num w d in
  let vp := covariance (map real (prev_block W l)) in
  let va := covariance (map real (cur_block W l)) in
  let s := card (cur_block W l) in
  let wp := (INR W - s + 1) ^ 2 in
  let wa := 2 * (s - 1) in
  let bound := 5 * ((14 * INR W + 454) * u * (Mx * My) + (3 * INR W + 13) * (4 * Mx + 6 * My) * eta + 27 * eta) in
  b64_finite v /\
  ((length l <= W)%nat -> Rabs (b64_real v - covariance (map real l)) <= bound) /\
  ((W < length l)%nat -> Rabs (b64_real v - (wp * vp + wa * va) / (wp + wa)) <= bound).
Proof. exact c88_covariance_binary64. Qed.
Print Assumptions C88_covariance_binary64.

(** C88_covariance_binary64_ex: W = 2 after five pairs. *)
Example C88_covariance_binary64_ex :
  let d k := @ndiv b64num (b64_of_Z k) (b64_of_Z 2) in
  let l := map (fun k => (d k, d (k * k)%Z)) [3; 5; 8; 1; -6]%Z in
  since_clear (map Push l) <> [] /\ (0 < 2)%nat /\ (Z.of_nat 2 <= 2 ^ 26)%Z /\
  bpow radix2 (-1000) <= 10 <= bpow radix2 480 /\ bpow radix2 (-1000) <= 40 <= bpow radix2 480 /\
  Forall (fun p => (b64_finite (fst p) /\ Rabs (b64_real (fst p)) <= 10) /\
                   (b64_finite (snd p) /\ Rabs (b64_real (snd p)) <= 40)) (lastn (2 * 2) (since_clear (map Push l))) /\
  prev_block 2 (since_clear (map Push l)) = [(d 8, d 64); (d 1, d 1)]%Z.
Proof. exact c88_covariance_binary64_ex. Qed.
