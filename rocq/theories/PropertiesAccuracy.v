(** * Property theorems: Accuracy

    Statements only; every proof is [exact] of a lemma in ClaimsAccuracy.v.
    Generated by tools/mkprops.py. *)

From Coq Require Import Reals ZArith NArith List Bool.
From Coq Require Import Floats.SpecFloat.
From Flocq Require Import Core.
From Verif Require Import Arith History SpecStats SpecDecay SpecImpulse Cumulative Window Decay Impulse ImpulseRuns Rounded Binary64 ExactRuns.
Import ListNotations.
Local Open Scope R_scope.
From Verif Require Import ClaimsAccuracy.

(** C65_rounded: in every binary format with gradual underflow, every
    rounding function with relative error below [u] and absolute error below
    [eta] when subnormal: after [n] pushes of numbers of magnitude at most [M]
    since the last clear, mean() is a number within
    [(n + 25) u M + (3 n + 11) eta] of the arithmetic mean. *)
Theorem C65_rounded : forall (emin prec : Z) (mode : R -> Z) (ops : list (op R)) (M : R),
  (0 < prec)%Z -> (emin <= 0)%Z -> Valid_rnd mode ->
  let l := since_clear ops in
  let n := INR (length l) in
  let u := bpow radix2 (1 - prec) in
  let eta := bpow radix2 emin in
  l <> [] -> fits l -> (Z.of_nat (length l) <= 2 ^ prec)%Z -> 16 * n * u <= 1 ->
  Forall (fun x => Rabs x <= M) l ->
  let F := rounded emin prec mode in
  let s := run (cmean_push F) (cmean_clear F) (cmean_init F) (fops emin prec mode ops) in
  exists m, cmean_mean F s = Fin m /\
    Rabs (m - mean l) <= (n + 25) * u * M + (3 * n + 11) * eta.
Proof. exact c65_rounded. Qed.
Print Assumptions C65_rounded.

(** C65_rounded_ex: a format of twelve bits rounding towards zero; five
    values at most 10 in magnitude. *)
Example C65_rounded_ex :
  (0 < 12)%Z /\ (-20 <= 0)%Z /\ Valid_rnd Ztrunc /\
  let ops := [Push 99; Clear; Push 1; Push (-10); Push 3; Push 7; Push 2] in
  since_clear ops = [1; -10; 3; 7; 2] /\ fits (since_clear ops) /\
  (Z.of_nat (length (since_clear ops)) <= 2 ^ 12)%Z /\
  16 * INR (length (since_clear ops)) * bpow radix2 (1 - 12) <= 1 /\
  Forall (fun x => Rabs x <= 10) (since_clear ops).
Proof. exact c65_rounded_ex. Qed.

(** C65_binary64: in binary64, up to 2^49 finite values of magnitude at
    most [M <= 2^1018]: mean() is finite and within
    [(n + 25) 2^-53 M + (3 n + 11) 2^-1075] of the arithmetic mean. *)
Theorem C65_binary64 : forall (ops : list (op b64)) (M : R),
  let l := since_clear ops in
  let n := INR (length l) in
  l <> [] -> (Z.of_nat (length l) <= 2 ^ 49)%Z -> M <= bpow radix2 1018 ->
  Forall (fun x => b64_finite x /\ Rabs (b64_real x) <= M) l ->
  let s := run (cmean_push b64num) (cmean_clear b64num) (cmean_init b64num) ops in
  let m := cmean_mean b64num s in
  b64_finite m /\
  Rabs (b64_real m - mean (map b64_real l)) <=
    (n + 25) * bpow radix2 (-53) * M + (3 * n + 11) * bpow radix2 (-1075).
Proof. exact c65_binary64. Qed.
Print Assumptions C65_binary64.

(** C65_binary64_ex: tenths up to a million in magnitude satisfy the
    hypotheses; the bound for a million values at most 1 in magnitude is below
    1.2e-10. *)
Example C65_binary64_ex :
  let d k := @ndiv b64num (b64_of_Z k) (b64_of_Z 10) in
  let ops := [Push (d 3%Z); Clear; Push (d 1%Z); Push (d (-70)%Z); Push (d 9999999%Z)] in
  since_clear ops = [d 1%Z; d (-70)%Z; d 9999999%Z] /\
  (Z.of_nat (length (since_clear ops)) <= 2 ^ 49)%Z /\
  1000000 <= bpow radix2 1018 /\
  Forall (fun x => b64_finite x /\ Rabs (b64_real x) <= 1000000) (since_clear ops) /\
  (10 ^ 6 + 25) * bpow radix2 (-53) * 1 + (3 * 10 ^ 6 + 11) * bpow radix2 (-1075) < 12 / 10 ^ 11.
Proof. exact c65_binary64_ex. Qed.

(** C66_rounded: the window mean is updated incrementally, so rounding
    errors of values that have left the window stay in the sum. In every format
    and rounding mode they add up at most linearly: after [n] pushes since the
    last clear mean() is within [n (26 u M + 14 eta)] of the arithmetic mean of
    the last [W] values. *)
Theorem C66_rounded : forall (emin prec : Z) (mode : R -> Z) (W : nat) (ops : list (op R)) (M : R),
  (0 < prec)%Z -> (emin <= 0)%Z -> Valid_rnd mode ->
  let l := since_clear ops in
  let n := INR (length l) in
  let u := bpow radix2 (1 - prec) in
  let eta := bpow radix2 emin in
  (0 < W)%nat -> (Z.of_nat W <= 2 ^ prec)%Z -> (N.of_nat W < szmod)%N ->
  l <> [] -> 16 * n * u <= 1 -> Forall (fun x => Rabs x <= M) l ->
  let F := rounded emin prec mode in
  let s := run (wmean_push F W) (wmean_clear F) (wmean_init F) (fops emin prec mode ops) in
  exists m, wmean_mean F s = Fin m /\
    Rabs (m - mean (lastn W l)) <= n * (26 * u * M + 14 * eta).
Proof. exact c66_rounded. Qed.
Print Assumptions C66_rounded.

(** C66_rounded_ex: a window of two in a format of twelve bits rounding
    upwards. *)
Example C66_rounded_ex :
  (0 < 12)%Z /\ (-20 <= 0)%Z /\ Valid_rnd Zceil /\
  (0 < 2)%nat /\ (Z.of_nat 2 <= 2 ^ 12)%Z /\ (N.of_nat 2 < szmod)%N /\
  let ops := [Push 99; Clear; Push 1; Push (-10); Push 3; Push 7; Push 2] in
  since_clear ops = [1; -10; 3; 7; 2] /\ lastn 2 (since_clear ops) = [7; 2] /\
  16 * INR (length (since_clear ops)) * bpow radix2 (1 - 12) <= 1 /\
  Forall (fun x => Rabs x <= 10) (since_clear ops).
Proof. exact c66_rounded_ex. Qed.

(** C66_binary64: the same in binary64 for up to 2^49 values of magnitude
    at most [M <= 2^1018] and windows of at most 2^53. *)
Theorem C66_binary64 : forall (W : nat) (ops : list (op b64)) (M : R),
  let l := since_clear ops in
  let n := INR (length l) in
  (0 < W)%nat -> (Z.of_nat W <= 2 ^ 53)%Z ->
  l <> [] -> (Z.of_nat (length l) <= 2 ^ 49)%Z -> M <= bpow radix2 1018 ->
  Forall (fun x => b64_finite x /\ Rabs (b64_real x) <= M) l ->
  let s := run (wmean_push b64num W) (wmean_clear b64num) (wmean_init b64num) ops in
  let m := wmean_mean b64num s in
  b64_finite m /\
  Rabs (b64_real m - mean (lastn W (map b64_real l))) <=
    n * (26 * bpow radix2 (-53) * M + 14 * bpow radix2 (-1075)).
Proof. exact c66_binary64. Qed.
Print Assumptions C66_binary64.

(** C66_binary64_ex: a window of two tenths; and the error is not 0: after
    1e16, 1 and 1 in a window of two the mean of the last two is not 1. *)
Example C66_binary64_ex :
  let d k := @ndiv b64num (b64_of_Z k) (b64_of_Z 10) in
  let ops := [Push (d 3%Z); Clear; Push (d 1%Z); Push (d (-70)%Z); Push (d 9999999%Z)] in
  (0 < 2)%nat /\ (Z.of_nat 2 <= 2 ^ 53)%Z /\ 1000000 <= bpow radix2 1018 /\
  (Z.of_nat (length (since_clear ops)) <= 2 ^ 49)%Z /\
  Forall (fun x => b64_finite x /\ Rabs (b64_real x) <= 1000000) (since_clear ops) /\
  let w := [Push (b64_of_Z (10 ^ 16)); Push (b64_of_Z 1); Push (b64_of_Z 1)] in
  SFeqb (wmean_mean b64num (run (wmean_push b64num 2) (wmean_clear b64num) (wmean_init b64num) w))
    (b64_of_Z 1) = false.
Proof. exact c66_binary64_ex. Qed.

(** C67_rounded: exponential averages forget their rounding errors: for a
    factor [f] that is not smaller than 104 u, however many values are pushed,
    mean() stays within [209 u M / f + 57 eta (1 + M) / f^2] of the exponentially
    weighted mean. *)
Theorem C67_rounded : forall (emin prec : Z) (mode : R -> Z) (f : R) (l : list R) (M : R),
  (0 < prec)%Z -> (emin <= 0)%Z -> Valid_rnd mode ->
  let u := bpow radix2 (1 - prec) in
  let eta := bpow radix2 emin in
  0 < f <= 1 -> 104 * u <= f -> 56 * eta <= f * f ->
  l <> [] -> Forall (fun x => Rabs x <= M) l ->
  let F := rounded emin prec mode in
  let s := run (dmean_push F) (dmean_clear F) (dmean_init F (Fin f)) (pushes (map Fin l)) in
  exists m, dmean_mean F s = Fin m /\
    Rabs (m - ewma f l) <= 209 * u * M / f + 57 * eta * (1 + M) / (f * f).
Proof. exact c67_rounded. Qed.
Print Assumptions C67_rounded.

(** C67_rounded_ex: factor 1/8 in a format of twelve bits, three values. *)
Example C67_rounded_ex :
  (0 < 12)%Z /\ (-20 <= 0)%Z /\ Valid_rnd Zfloor /\
  0 < / 8 <= 1 /\ 104 * bpow radix2 (1 - 12) <= / 8 /\ 56 * bpow radix2 (-20) <= / 8 * / 8 /\
  Forall (fun x => Rabs x <= 10) [1; -10; 3] /\ ewma (/ 8) [1; -10; 3] = -319 / 169.
Proof. exact c67_rounded_ex. Qed.

(** C67_binary64: the same in binary64 for factors from 2^-46 to 1 and
    finite values of magnitude at most [M <= 2^1018]. *)
Theorem C67_binary64 : forall (f : b64) (l : list b64) (M : R),
  b64_finite f -> bpow radix2 (-46) <= b64_real f <= 1 ->
  l <> [] -> M <= bpow radix2 1018 ->
  Forall (fun x => b64_finite x /\ Rabs (b64_real x) <= M) l ->
  let s := run (dmean_push b64num) (dmean_clear b64num) (dmean_init b64num f) (pushes l) in
  let m := dmean_mean b64num s in
  b64_finite m /\
  Rabs (b64_real m - ewma (b64_real f) (map b64_real l)) <=
    209 * bpow radix2 (-53) * M / b64_real f +
    57 * bpow radix2 (-1075) * (1 + M) / (b64_real f * b64_real f).
Proof. exact c67_binary64. Qed.
Print Assumptions C67_binary64.

(** C67_binary64_ex: factor 1/8 and values at most 10^6; the bound for values at
    most 1 in magnitude is below 2e-13. *)
Example C67_binary64_ex :
  let f := @ndiv b64num (b64_of_Z 1) (b64_of_Z 8) in
  let d k := @ndiv b64num (b64_of_Z k) (b64_of_Z 10) in
  let l := [d 1%Z; d (-70)%Z; d 9999999%Z] in
  b64_finite f /\ bpow radix2 (-46) <= b64_real f <= 1 /\ 1000000 <= bpow radix2 1018 /\
  Forall (fun x => b64_finite x /\ Rabs (b64_real x) <= 1000000) l /\
  209 * bpow radix2 (-53) * 1 / (/ 8) + 57 * bpow radix2 (-1075) * (1 + 1) / (/ 8 * / 8) < 2 / 10 ^ 13.
Proof. exact c67_binary64_ex. Qed.

(** C68_rounded: a finite impulse response filter with [p] coefficients
    makes an error relative to the sum of the absolute values of the products
    and independent of the length of the history: value() is within
    [(2 p + 4) u S + 6 p eta] of the convolution, where [S] is the convolution
    of the absolute values. *)
Theorem C68_rounded : forall (emin prec : Z) (mode : R -> Z) (c : list R) (ops : list (op R)),
  (0 < prec)%Z -> (emin <= 0)%Z -> Valid_rnd mode ->
  let l := since_clear ops in
  let p := INR (length c) in
  let u := bpow radix2 (1 - prec) in
  let eta := bpow radix2 emin in
  c <> [] -> l <> [] -> (2 * p + 4) * u <= 1 ->
  let F := rounded emin prec mode in
  let S := convolution (map Rabs c) (map Rabs l) (Nat.pred (length l)) in
  exists v, fir_value F (fir_run F (map Fin c) (fops emin prec mode ops)) = Fin v /\
    Rabs (v - convolution c l (Nat.pred (length l))) <= (2 * p + 4) * u * S + 6 * p * eta.
Proof. exact c68_rounded. Qed.
Print Assumptions C68_rounded.

(** C68_rounded_ex: two coefficients, three values since the last clear. *)
Example C68_rounded_ex :
  (0 < 12)%Z /\ (-20 <= 0)%Z /\ Valid_rnd Zfloor /\
  let ops := [Push 99; Clear; Push 1; Push (-10); Push 3] in
  since_clear ops = [1; -10; 3] /\ (2 * INR (length [1; 2]) + 4) * bpow radix2 (1 - 12) <= 1 /\
  convolution [1; 2] (since_clear ops) 2 = -17 /\
  convolution (map Rabs [1; 2]) (map Rabs (since_clear ops)) 2 = 23.
Proof. exact c68_rounded_ex. Qed.

(** C68_binary64: the same in binary64 for up to 2^50 coefficients, when
    the convolution of absolute values is at most 2^1021. *)
Theorem C68_binary64 : forall (c : list b64) (ops : list (op b64)),
  let l := since_clear ops in
  let p := INR (length c) in
  c <> [] -> l <> [] -> (Z.of_nat (length c) <= 2 ^ 50)%Z ->
  Forall b64_finite c -> Forall b64_finite l ->
  let cv := map b64_real c in
  let lv := map b64_real l in
  let S := convolution (map Rabs cv) (map Rabs lv) (Nat.pred (length lv)) in
  S <= bpow radix2 1021 ->
  let v := fir_value b64num (fir_run b64num c ops) in
  b64_finite v /\
  Rabs (b64_real v - convolution cv lv (Nat.pred (length lv))) <=
    (2 * p + 4) * bpow radix2 (-53) * S + 6 * p * bpow radix2 (-1075).
Proof. exact c68_binary64. Qed.
Print Assumptions C68_binary64.

(** C68_binary64_ex: coefficients 1/10 and 2/10. *)
Example C68_binary64_ex :
  let d k := @ndiv b64num (b64_of_Z k) (b64_of_Z 10) in
  let c := [d 1%Z; d 2%Z] in
  let ops := [Push (d 3%Z); Clear; Push (d 1%Z); Push (d (-70)%Z); Push (d 9999999%Z)] in
  (Z.of_nat (length c) <= 2 ^ 50)%Z /\ Forall b64_finite c /\ Forall b64_finite (since_clear ops) /\
  let cv := map b64_real c in
  let lv := map b64_real (since_clear ops) in
  convolution (map Rabs cv) (map Rabs lv) (Nat.pred (length lv)) <= bpow radix2 1021.
Proof. exact c68_binary64_ex. Qed.

(** C69_rounded: an infinite impulse response filter whose feedback
    coefficients are smaller than [|scale|] in total does not accumulate
    rounding errors: however long the history, value() is within a bound [E]
    of the exact solution of the difference equation, for values of magnitude at
    most [M]. [r] is the number of coefficients, [rho] the feedback gain, [Y]
    the largest magnitude of the exact output. *)
Theorem C69_rounded : forall (emin prec : Z) (mode : R -> Z) (b a : list R) (scale : R)
    (ops : list (op R)) (M : R) (y : list R),
  (0 < prec)%Z -> (emin <= 0)%Z -> Valid_rnd mode ->
  let l := since_clear ops in
  let u := bpow radix2 (1 - prec) in
  let eta := bpow radix2 emin in
  b <> [] -> a <> [] -> l <> [] -> Forall (fun x => Rabs x <= M) l ->
  abs_sum a < Rabs scale ->
  difference_equation b a scale l y ->
  let r := INR (length b + length a) in
  let rho := abs_sum a / Rabs scale in
  let Y := abs_sum b * M / (Rabs scale - abs_sum a) in
  let E := 2 * ((8 * r + 19) * u * Y + (24 * r + 2) * eta / Rabs scale + eta) / (1 - rho) in
  2 * (8 * r + 19) * u <= 1 - rho ->
  let F := rounded emin prec mode in
  exists v, iir_value F (iir_run F (map Fin b) (map Fin a) (Fin scale) (fops emin prec mode ops)) = Fin v /\
    Rabs (v - last y 0) <= E.
Proof. exact c69_rounded. Qed.
Print Assumptions C69_rounded.

(** C69_rounded_ex: a feedback of one half in a format of 20 bits. *)
Example C69_rounded_ex :
  (0 < 20)%Z /\ (-20 <= 0)%Z /\ Valid_rnd Zfloor /\
  let ops := [Push 99; Clear; Push 1; Push (-10); Push 3] in
  let y := [1; -21 / 2; 33 / 4] in
  Forall (fun x => Rabs x <= 10) (since_clear ops) /\
  abs_sum [/ 2] < Rabs 1 /\ difference_equation [1] [/ 2] 1 (since_clear ops) y /\
  2 * (8 * INR (length [1] + length [/ 2]) + 19) * bpow radix2 (1 - 20) <= 1 - abs_sum [/ 2] / Rabs 1.
Proof. exact c69_rounded_ex. Qed.

(** C69_binary64: the same in binary64, with two conditions that exclude
    overflow. *)
Theorem C69_binary64 : forall (b a : list b64) (scale : b64) (ops : list (op b64)) (M : R) (y : list R),
  let l := since_clear ops in
  let bv := map b64_real b in
  let av := map b64_real a in
  let s := Rabs (b64_real scale) in
  let u := bpow radix2 (-53) in
  let eta := bpow radix2 (-1075) in
  b <> [] -> a <> [] -> l <> [] ->
  Forall b64_finite b -> Forall b64_finite a -> b64_finite scale ->
  Forall (fun x => b64_finite x /\ Rabs (b64_real x) <= M) l ->
  abs_sum av < s ->
  difference_equation bv av (b64_real scale) (map b64_real l) y ->
  let r := INR (length b + length a) in
  let rho := abs_sum av / s in
  let Y := abs_sum bv * M / (s - abs_sum av) in
  let E := 2 * ((8 * r + 19) * u * Y + (24 * r + 2) * eta / s + eta) / (1 - rho) in
  2 * (8 * r + 19) * u <= 1 - rho ->
  4 * (s * (Y + E)) + (12 * r + 2) * eta <= bpow radix2 1023 ->
  4 * (Y + E) + (12 * r + 2) * eta / s <= bpow radix2 1023 ->
  let v := iir_value b64num (iir_run b64num b a scale ops) in
  b64_finite v /\ Rabs (b64_real v - last y 0) <= E.
Proof. exact c69_binary64. Qed.
Print Assumptions C69_binary64.

(** C69_binary64_ex: the exponential smoother with feedback one half. *)
Example C69_binary64_ex :
  let z := b64_of_Z in
  let half := @ndiv b64num (z 1%Z) (z 2%Z) in
  let ops := [Push (z 99%Z); Clear; Push (z 1%Z); Push (z (-10)%Z); Push (z 3%Z)] in
  let y := [1; -21 / 2; 33 / 4] in
  let u := bpow radix2 (-53) in
  let eta := bpow radix2 (-1075) in
  b64_finite half /\ b64_finite (z 1%Z) /\
  Forall (fun x => b64_finite x /\ Rabs (b64_real x) <= 10) (since_clear ops) /\
  abs_sum (map b64_real [half]) = / 2 /\ abs_sum (map b64_real [z 1%Z]) = 1 /\ Rabs (b64_real (z 1%Z)) = 1 /\
  difference_equation (map b64_real [z 1%Z]) (map b64_real [half]) (b64_real (z 1%Z))
    (map b64_real (since_clear ops)) y /\
  let r := INR 2 in
  let Y := 1 * 10 / (1 - / 2) in
  let E := 2 * ((8 * r + 19) * u * Y + (24 * r + 2) * eta / 1 + eta) / (1 - / 2 / 1) in
  2 * (8 * r + 19) * u <= 1 - / 2 / 1 /\
  4 * (1 * (Y + E)) + (12 * r + 2) * eta <= bpow radix2 1023 /\ E < 1 / 10 ^ 12.
Proof. exact c69_binary64_ex. Qed.

(** C70_rounded: Welford's algorithm in every format and rounding mode:
    after [n] pushes of numbers of magnitude at most [M] since the last clear,
    variance() is within [5 ((14 n + 308) u M^2 + (3 n + 13) 10 M eta + 3 eta)] of the
    variance; [M] may be any bound that is not in the underflow range. *)
Theorem C70_rounded : forall (emin prec : Z) (mode : R -> Z) (ops : list (op R)) (M : R),
  (0 < prec)%Z -> (emin <= 0)%Z -> Valid_rnd mode ->
  let l := since_clear ops in
  let n := INR (length l) in
  let u := bpow radix2 (1 - prec) in
  let eta := bpow radix2 emin in
  l <> [] -> fits l -> (Z.of_nat (length l) <= 2 ^ prec)%Z -> 64 * n * u <= 1 -> 32 * n * eta <= M ->
  Forall (fun x => Rabs x <= M) l ->
  let F := rounded emin prec mode in
  let s := run (cvar_push F) (cvar_clear F) (cvar_init F) (fops emin prec mode ops) in
  exists v, cvar_variance F s = Fin v /\
    Rabs (v - variance l) <= 5 * ((14 * n + 308) * u * (M * M) + (3 * n + 13) * (10 * M) * eta + 3 * eta).
Proof. exact c70_rounded. Qed.
Print Assumptions C70_rounded.

(** C70_rounded_ex: five values in a format of twenty bits. *)
Example C70_rounded_ex :
  (0 < 20)%Z /\ (-20 <= 0)%Z /\ Valid_rnd Ztrunc /\
  let ops := [Push 99; Clear; Push 1; Push (-10); Push 3; Push 7; Push 2] in
  since_clear ops = [1; -10; 3; 7; 2] /\ fits (since_clear ops) /\
  (Z.of_nat (length (since_clear ops)) <= 2 ^ 20)%Z /\
  64 * INR (length (since_clear ops)) * bpow radix2 (1 - 20) <= 1 /\
  32 * INR (length (since_clear ops)) * bpow radix2 (-20) <= 10 /\
  Forall (fun x => Rabs x <= 10) (since_clear ops).
Proof. exact c70_rounded_ex. Qed.

(** C70_binary64: the same in binary64 for up to 2^47 values, with a bound
    [M] between 2^-1000 and 2^480. *)
Theorem C70_binary64 : forall (ops : list (op b64)) (M : R),
  let l := since_clear ops in
  let n := INR (length l) in
  let u := bpow radix2 (-53) in
  let eta := bpow radix2 (-1075) in
  l <> [] -> (Z.of_nat (length l) <= 2 ^ 47)%Z -> bpow radix2 (-1000) <= M <= bpow radix2 480 ->
  Forall (fun x => b64_finite x /\ Rabs (b64_real x) <= M) l ->
  let s := run (cvar_push b64num) (cvar_clear b64num) (cvar_init b64num) ops in
  let v := cvar_variance b64num s in
  b64_finite v /\
  Rabs (b64_real v - variance (map b64_real l)) <=
    5 * ((14 * n + 308) * u * (M * M) + (3 * n + 13) * (10 * M) * eta + 3 * eta).
Proof. exact c70_binary64. Qed.
Print Assumptions C70_binary64.

(** C70_binary64_ex: three values at most 10^6 in magnitude; for a thousand
    values at most 1 in magnitude the bound is below 1e-11. *)
Example C70_binary64_ex :
  let d k := @ndiv b64num (b64_of_Z k) (b64_of_Z 10) in
  let ops := [Push (d 3%Z); Clear; Push (d 1%Z); Push (d (-70)%Z); Push (d 9999999%Z)] in
  let u := bpow radix2 (-53) in
  let eta := bpow radix2 (-1075) in
  (Z.of_nat (length (since_clear ops)) <= 2 ^ 47)%Z /\
  bpow radix2 (-1000) <= 1000000 <= bpow radix2 480 /\
  Forall (fun x => b64_finite x /\ Rabs (b64_real x) <= 1000000) (since_clear ops) /\
  5 * ((14 * 1000 + 308) * u * (1 * 1) + (3 * 1000 + 13) * (10 * 1) * eta + 3 * eta) < 1 / 10 ^ 11.
Proof. exact c70_binary64_ex. Qed.

(** C70_covariance_rounded: cumulative covariance, with separate bounds for
    the two coordinates. *)
Theorem C70_covariance_rounded : forall (emin prec : Z) (mode : R -> Z) (ops : list (op (R * R))) (Mx My : R),
  (0 < prec)%Z -> (emin <= 0)%Z -> Valid_rnd mode ->
  let l := since_clear ops in
  let n := INR (length l) in
  let u := bpow radix2 (1 - prec) in
  let eta := bpow radix2 emin in
  l <> [] -> fits l -> (Z.of_nat (length l) <= 2 ^ prec)%Z -> 64 * n * u <= 1 ->
  32 * n * eta <= Mx -> 32 * n * eta <= My ->
  Forall (fun p => Rabs (fst p) <= Mx /\ Rabs (snd p) <= My) l ->
  let F := rounded emin prec mode in
  let s := run (ccov_push F) (ccov_clear F) (ccov_init F)
    (map (op_map (fun p => (Fin (fst p), Fin (snd p)) : F * F)) ops) in
  exists v, ccov_variance F s = Fin v /\
    Rabs (v - covariance l) <=
      5 * ((14 * n + 308) * u * (Mx * My) + (3 * n + 13) * (4 * Mx + 6 * My) * eta + 3 * eta).
Proof. exact c70_covariance_rounded. Qed.
Print Assumptions C70_covariance_rounded.

(** C70_covariance_rounded_ex: three pairs on different scales. *)
Example C70_covariance_rounded_ex :
  (0 < 20)%Z /\ (-20 <= 0)%Z /\ Valid_rnd Ztrunc /\
  let ops := [Push (99, 99); Clear; Push (1, 500); Push (-10, 3); Push (3, -1)] in
  let l := since_clear ops in
  l = [(1, 500); (-10, 3); (3, -1)] /\ fits l /\ (Z.of_nat (length l) <= 2 ^ 20)%Z /\
  64 * INR (length l) * bpow radix2 (1 - 20) <= 1 /\ 32 * INR (length l) * bpow radix2 (-20) <= 10 /\
  Forall (fun p => Rabs (fst p) <= 10 /\ Rabs (snd p) <= 500) l.
Proof. exact c70_covariance_rounded_ex. Qed.

(** C70_covariance_binary64: cumulative covariance in binary64. *)
Theorem C70_covariance_binary64 : forall (ops : list (op (b64 * b64))) (Mx My : R),
  let l := since_clear ops in
  let n := INR (length l) in
  let u := bpow radix2 (-53) in
  let eta := bpow radix2 (-1075) in
  l <> [] -> (Z.of_nat (length l) <= 2 ^ 47)%Z ->
  bpow radix2 (-1000) <= Mx <= bpow radix2 480 -> bpow radix2 (-1000) <= My <= bpow radix2 480 ->
  Forall (fun p => (b64_finite (fst p) /\ Rabs (b64_real (fst p)) <= Mx) /\
                   (b64_finite (snd p) /\ Rabs (b64_real (snd p)) <= My)) l ->
  let s := run (ccov_push b64num) (ccov_clear b64num) (ccov_init b64num) ops in
  let v := ccov_variance b64num s in
  b64_finite v /\
  Rabs (b64_real v - covariance (map (fun p => (b64_real (fst p), b64_real (snd p))) l)) <=
    5 * ((14 * n + 308) * u * (Mx * My) + (3 * n + 13) * (4 * Mx + 6 * My) * eta + 3 * eta).
Proof. exact c70_covariance_binary64. Qed.
Print Assumptions C70_covariance_binary64.

(** C70_covariance_binary64_ex: two pairs of doubles. *)
Example C70_covariance_binary64_ex :
  let d k := @ndiv b64num (b64_of_Z k) (b64_of_Z 10) in
  let ops := [Push (d 3%Z, d 3%Z); Clear; Push (d 1%Z, d (-70)%Z); Push (d 9999999%Z, d 2%Z)] in
  (Z.of_nat (length (since_clear ops)) <= 2 ^ 47)%Z /\
  bpow radix2 (-1000) <= 1000000 <= bpow radix2 480 /\ bpow radix2 (-1000) <= 8 <= bpow radix2 480 /\
  Forall (fun p => (b64_finite (fst p) /\ Rabs (b64_real (fst p)) <= 1000000) /\
                   (b64_finite (snd p) /\ Rabs (b64_real (snd p)) <= 8)) (since_clear ops).
Proof. exact c70_covariance_binary64_ex. Qed.

(** C71_rounded: the window variance is a running sum, so its rounding
    errors add up: after [n] pushes since the last clear variance() is within
    [9 (n / k) ((264 n + 62) u M^2 + (140 n + 20) M eta + 3 eta)] of the variance of
    the [k] values in the window. *)
Theorem C71_rounded : forall (emin prec : Z) (mode : R -> Z) (W : nat) (ops : list (op R)) (M : R),
  (0 < prec)%Z -> (emin <= 0)%Z -> Valid_rnd mode ->
  let l := since_clear ops in
  let n := INR (length l) in
  let k := INR (length (lastn W l)) in
  let u := bpow radix2 (1 - prec) in
  let eta := bpow radix2 emin in
  (0 < W)%nat -> (Z.of_nat W <= 2 ^ prec)%Z -> (N.of_nat W < szmod)%N ->
  l <> [] -> 64 * n * u <= 1 -> 32 * n * eta <= M -> Forall (fun x => Rabs x <= M) l ->
  let F := rounded emin prec mode in
  let s := run (wvar_push F W) (wvar_clear F) (wvar_init F) (fops emin prec mode ops) in
  exists v, wvar_variance F s = Fin v /\
    Rabs (v - variance (lastn W l)) <=
      9 * (n / k) * ((264 * n + 62) * u * (M * M) + (140 * n + 20) * M * eta + 3 * eta).
Proof. exact c71_rounded. Qed.
Print Assumptions C71_rounded.

(** C71_rounded_ex: a window of two in a format of twenty bits. *)
Example C71_rounded_ex :
  (0 < 20)%Z /\ (-20 <= 0)%Z /\ Valid_rnd Zceil /\
  (0 < 2)%nat /\ (Z.of_nat 2 <= 2 ^ 20)%Z /\ (N.of_nat 2 < szmod)%N /\
  let ops := [Push 99; Clear; Push 1; Push (-10); Push 3; Push 7; Push 2] in
  since_clear ops = [1; -10; 3; 7; 2] /\ lastn 2 (since_clear ops) = [7; 2] /\
  64 * INR (length (since_clear ops)) * bpow radix2 (1 - 20) <= 1 /\
  32 * INR (length (since_clear ops)) * bpow radix2 (-20) <= 10 /\
  Forall (fun x => Rabs x <= 10) (since_clear ops).
Proof. exact c71_rounded_ex. Qed.

(** C71_binary64: the same in binary64 for up to 2^47 values, windows up to
    2^53 and a bound [M] between 2^-1000 and 2^480. *)
Theorem C71_binary64 : forall (W : nat) (ops : list (op b64)) (M : R),
  let l := since_clear ops in
  let n := INR (length l) in
  let k := INR (length (lastn W l)) in
  let u := bpow radix2 (-53) in
  let eta := bpow radix2 (-1075) in
  (0 < W)%nat -> (Z.of_nat W <= 2 ^ 53)%Z ->
  l <> [] -> (Z.of_nat (length l) <= 2 ^ 47)%Z -> bpow radix2 (-1000) <= M <= bpow radix2 480 ->
  Forall (fun x => b64_finite x /\ Rabs (b64_real x) <= M) l ->
  let s := run (wvar_push b64num W) (wvar_clear b64num) (wvar_init b64num) ops in
  let v := wvar_variance b64num s in
  b64_finite v /\
  Rabs (b64_real v - variance (lastn W (map b64_real l))) <=
    9 * (n / k) * ((264 * n + 62) * u * (M * M) + (140 * n + 20) * M * eta + 3 * eta).
Proof. exact c71_binary64. Qed.
Print Assumptions C71_binary64.

(** C71_binary64_ex: a window of two doubles. *)
Example C71_binary64_ex :
  let d k := @ndiv b64num (b64_of_Z k) (b64_of_Z 10) in
  let ops := [Push (d 3%Z); Clear; Push (d 1%Z); Push (d (-70)%Z); Push (d 9999999%Z)] in
  (0 < 2)%nat /\ (Z.of_nat 2 <= 2 ^ 53)%Z /\ (Z.of_nat (length (since_clear ops)) <= 2 ^ 47)%Z /\
  bpow radix2 (-1000) <= 1000000 <= bpow radix2 480 /\
  Forall (fun x => b64_finite x /\ Rabs (b64_real x) <= 1000000) (since_clear ops).
Proof. exact c71_binary64_ex. Qed.

(** C72_rounded: exponential variance forgets its rounding errors: however
    many values are pushed, variance() stays within a fixed distance of the
    exponentially weighted mean of the squared deviations. [D m f] is the
    distance for an exponential mean of values of magnitude [m] with factor
    [f] (C67) and [g] the error of one deviation. *)
Theorem C72_rounded : forall (emin prec : Z) (mode : R -> Z) (fm fv : R) (l : list R) (M : R),
  (0 < prec)%Z -> (emin <= 0)%Z -> Valid_rnd mode ->
  let u := bpow radix2 (1 - prec) in
  let eta := bpow radix2 emin in
  0 < fm <= 1 -> 0 < fv <= 1 -> 104 * u <= fm -> 104 * u <= fv ->
  56 * eta <= fm * fm -> 56 * eta <= fv * fv ->
  let D := fun m f => 209 * u * m / f + 57 * eta * (1 + m) / (f * f) in
  let g := D M fm + u * (2 * M + D M fm) + eta in
  g <= M ->
  l <> [] -> Forall (fun x => Rabs x <= M) l ->
  let F := rounded emin prec mode in
  let s := run (dvar_push F) (dvar_clear F) (dvar_init F (Fin fm) (Fin fv)) (pushes (map Fin l)) in
  exists v, dvar_variance F s = Fin v /\
    Rabs (v - emoment 2 fm fv l) <=
      D (10 * (M * M) + eta) fv + (5 * M * g + 9 * u * (M * M) + eta).
Proof. exact c72_rounded. Qed.
Print Assumptions C72_rounded.

(** C72_rounded_ex: factors 1/4 and 1/8 in a format of 20 bits. *)
Example C72_rounded_ex :
  (0 < 20)%Z /\ (-40 <= 0)%Z /\ Valid_rnd Zfloor /\
  let u := bpow radix2 (1 - 20) in
  let eta := bpow radix2 (-40) in
  0 < / 4 <= 1 /\ 0 < / 8 <= 1 /\ 104 * u <= / 4 /\ 104 * u <= / 8 /\
  56 * eta <= / 4 * / 4 /\ 56 * eta <= / 8 * / 8 /\
  let D := fun m f => 209 * u * m / f + 57 * eta * (1 + m) / (f * f) in
  D 10 (/ 4) + u * (2 * 10 + D 10 (/ 4)) + eta <= 10 /\
  Forall (fun x => Rabs x <= 10) [1; -10; 3].
Proof. exact c72_rounded_ex. Qed.

(** C72_binary64: the same in binary64 for factors from 2^-40 to 1 and a
    bound [M] between 2^-900 and 2^480. *)
Theorem C72_binary64 : forall (fm fv : b64) (l : list b64) (M : R),
  let u := bpow radix2 (-53) in
  let eta := bpow radix2 (-1075) in
  b64_finite fm -> b64_finite fv ->
  bpow radix2 (-40) <= b64_real fm <= 1 -> bpow radix2 (-40) <= b64_real fv <= 1 ->
  let D := fun m f => 209 * u * m / f + 57 * eta * (1 + m) / (f * f) in
  let g := D M (b64_real fm) + u * (2 * M + D M (b64_real fm)) + eta in
  l <> [] -> bpow radix2 (-900) <= M <= bpow radix2 480 ->
  Forall (fun x => b64_finite x /\ Rabs (b64_real x) <= M) l ->
  let s := run (dvar_push b64num) (dvar_clear b64num) (dvar_init b64num fm fv) (pushes l) in
  let v := dvar_variance b64num s in
  b64_finite v /\
  Rabs (b64_real v - emoment 2 (b64_real fm) (b64_real fv) (map b64_real l)) <=
    D (10 * (M * M) + eta) (b64_real fv) + (5 * M * g + 9 * u * (M * M) + eta).
Proof. exact c72_binary64. Qed.
Print Assumptions C72_binary64.

(** C72_binary64_ex: factors 1/8 and 1/10. *)
Example C72_binary64_ex :
  let d k := @ndiv b64num (b64_of_Z k) (b64_of_Z 10) in
  let fm := @ndiv b64num (b64_of_Z 1) (b64_of_Z 8) in
  let fv := d 1%Z in
  let l := [d 1%Z; d (-70)%Z; d 9999999%Z] in
  b64_finite fm /\ b64_finite fv /\
  bpow radix2 (-40) <= b64_real fm <= 1 /\ bpow radix2 (-40) <= b64_real fv <= 1 /\
  bpow radix2 (-900) <= 1000000 <= bpow radix2 480 /\
  Forall (fun x => b64_finite x /\ Rabs (b64_real x) <= 1000000) l.
Proof. exact c72_binary64_ex. Qed.
