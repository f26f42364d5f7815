(** * Property theorems: Regression

    Statements only; every proof is [exact] of a lemma in ClaimsRegression.v.
    Generated by tools/mkprops.py. *)

From Coq Require Import Reals ZArith NArith List Bool.
From Coq Require Import Floats.SpecFloat.
From Flocq Require Import Core.
From Verif Require Import Arith History SpecStats SpecBlocks SpecError Cumulative Interim Binary64.
Import ListNotations.
Local Open Scope R_scope.
From Verif Require Import ClaimsRegression.

(** C92_slope_binary64: in binary64, for up to 2^47 pairs of finite values of
    magnitude at most [Mx] and [My] (between 2^-1000 and 2^480) since the last
    clear: if the variance of x is at least twice the bound [Ev] of C70 for its
    error, then slope() is finite and differs from the slope [S] of the
    least-squares line by at most [2 (Ec + |S| Ev) / V] and the rounding error of
    one division. *)
Theorem C92_slope_binary64 : forall (ops : list (op (b64 * b64))) (Mx My : R),
  let l := since_clear ops in
  let n := INR (length l) in
  let u := bpow radix2 (-53) in
  let eta := bpow radix2 (-1075) in
  l <> [] -> (Z.of_nat (length l) <= 2 ^ 47)%Z ->
  bpow radix2 (-1000) <= Mx <= bpow radix2 480 -> bpow radix2 (-1000) <= My <= bpow radix2 480 ->
  Forall (fun p => (b64_finite (fst p) /\ Rabs (b64_real (fst p)) <= Mx) /\
                   (b64_finite (snd p) /\ Rabs (b64_real (snd p)) <= My)) l ->
  let lv := map (fun p => (b64_real (fst p), b64_real (snd p))) l in
  let V := variance (xs lv) in
  let S := covariance lv / V in
  let Ev := 5 * ((14 * n + 308) * u * (Mx * Mx) + (3 * n + 13) * (10 * Mx) * eta + 3 * eta) in
  let Ec := 5 * ((14 * n + 308) * u * (Mx * My) + (3 * n + 13) * (4 * Mx + 6 * My) * eta + 3 * eta) in
  let Es := 2 * (Ec + Rabs S * Ev) / V in
  2 * Ev <= V -> Rabs S + Es <= bpow radix2 1023 ->
  let slope := creg_slope b64num (run (creg_push b64num) (creg_clear b64num) (creg_init b64num) ops) in
  b64_finite slope /\ Rabs (b64_real slope - S) <= slack u eta S Es.
Proof. exact c92_slope. Qed.
Print Assumptions C92_slope_binary64.

(** C92_slope_binary64_ex: four points with slope 1/2; the bound is below
    10^-11. *)
Example C92_slope_binary64_ex :
  let z := b64_of_Z in
  let l := since_clear [Push (z 99, z 99); Clear; Push (z 0, z 0); Push (z 4, z 8); Push (z 8, z 4); Push (z 4, z 4)]%Z in
  let n := INR 4 in
  let u := bpow radix2 (-53) in
  let eta := bpow radix2 (-1075) in
  let lv := map (fun p => (b64_real (fst p), b64_real (snd p))) l in
  length l = 4%nat /\ bpow radix2 (-1000) <= 8 <= bpow radix2 480 /\
  Forall (fun p => (b64_finite (fst p) /\ Rabs (b64_real (fst p)) <= 8) /\
                   (b64_finite (snd p) /\ Rabs (b64_real (snd p)) <= 8)) l /\
  variance (xs lv) = 8 /\ covariance lv = 4 /\
  let S := 4 / 8 in
  let Ev := 5 * ((14 * n + 308) * u * (8 * 8) + (3 * n + 13) * (10 * 8) * eta + 3 * eta) in
  let Ec := 5 * ((14 * n + 308) * u * (8 * 8) + (3 * n + 13) * (4 * 8 + 6 * 8) * eta + 3 * eta) in
  let Es := 2 * (Ec + Rabs S * Ev) / 8 in
  2 * Ev <= 8 /\ Rabs S + Es <= bpow radix2 1023 /\ slack u eta S Es <= / 10 ^ 11.
Proof. exact c92_slope_ex. Qed.

(** C92_at_binary64: in the same situation at(p), for a finite position p, is
    within an explicit bound of the value of the least-squares line at p: the
    error of the slope times the distance of p from the mean of x, the errors of
    both means (C65), and the rounding errors of the three operations. *)
Theorem C92_at_binary64 : forall (ops : list (op (b64 * b64))) (Mx My : R) (p : b64),
  let l := since_clear ops in
  let n := INR (length l) in
  let u := bpow radix2 (-53) in
  let eta := bpow radix2 (-1075) in
  l <> [] -> (Z.of_nat (length l) <= 2 ^ 47)%Z -> b64_finite p ->
  bpow radix2 (-1000) <= Mx <= bpow radix2 480 -> bpow radix2 (-1000) <= My <= bpow radix2 480 ->
  Forall (fun p => (b64_finite (fst p) /\ Rabs (b64_real (fst p)) <= Mx) /\
                   (b64_finite (snd p) /\ Rabs (b64_real (snd p)) <= My)) l ->
  let lv := map (fun p => (b64_real (fst p), b64_real (snd p))) l in
  let V := variance (xs lv) in
  let S := covariance lv / V in
  let D := mean (xs lv) - b64_real p in
  let Ev := 5 * ((14 * n + 308) * u * (Mx * Mx) + (3 * n + 13) * (10 * Mx) * eta + 3 * eta) in
  let Ec := 5 * ((14 * n + 308) * u * (Mx * My) + (3 * n + 13) * (4 * Mx + 6 * My) * eta + 3 * eta) in
  let Es := 2 * (Ec + Rabs S * Ev) / V in
  let Eb := slack u eta S Es in
  let Ex := (n + 25) * u * Mx + (3 * n + 11) * eta in
  let Ey := (n + 25) * u * My + (3 * n + 11) * eta in
  let Ed := slack u eta D Ex in
  let Em := Rabs S * Ed + Rabs D * Eb + Eb * Ed in
  let Ea := Ey + slack u eta (S * D) Em in
  2 * Ev <= V -> Rabs S + Es <= bpow radix2 1023 -> Rabs D + Ex <= bpow radix2 1023 ->
  Rabs (S * D) + Em <= bpow radix2 1023 -> Rabs (mean (ys lv) - S * D) + Ea <= bpow radix2 1023 ->
  let at_p := creg_at b64num (run (creg_push b64num) (creg_clear b64num) (creg_init b64num) ops) p in
  b64_finite at_p /\
  Rabs (b64_real at_p - (mean (ys lv) + S * (b64_real p - mean (xs lv)))) <= slack u eta (mean (ys lv) - S * D) Ea.
Proof. exact c92_at. Qed.
Print Assumptions C92_at_binary64.

(** C92_at_binary64_ex: the same points at position 12, where the line has the
    value 8. *)
Example C92_at_binary64_ex :
  let z := b64_of_Z in
  let l := since_clear [Push (z 0, z 0); Push (z 4, z 8); Push (z 8, z 4); Push (z 4, z 4)]%Z in
  let n := INR 4 in
  let u := bpow radix2 (-53) in
  let eta := bpow radix2 (-1075) in
  let lv := map (fun p => (b64_real (fst p), b64_real (snd p))) l in
  length l = 4%nat /\ b64_finite (z 12%Z) /\ b64_real (z 12%Z) = 12 /\ bpow radix2 (-1000) <= 8 <= bpow radix2 480 /\
  Forall (fun p => (b64_finite (fst p) /\ Rabs (b64_real (fst p)) <= 8) /\
                   (b64_finite (snd p) /\ Rabs (b64_real (snd p)) <= 8)) l /\
  variance (xs lv) = 8 /\ covariance lv = 4 /\ mean (xs lv) = 4 /\ mean (ys lv) = 4 /\
  let S := 4 / 8 in
  let D := 4 - 12 in
  let Ev := 5 * ((14 * n + 308) * u * (8 * 8) + (3 * n + 13) * (10 * 8) * eta + 3 * eta) in
  let Ec := 5 * ((14 * n + 308) * u * (8 * 8) + (3 * n + 13) * (4 * 8 + 6 * 8) * eta + 3 * eta) in
  let Es := 2 * (Ec + Rabs S * Ev) / 8 in
  let Eb := slack u eta S Es in
  let Ex := (n + 25) * u * 8 + (3 * n + 11) * eta in
  let Ed := slack u eta D Ex in
  let Em := Rabs S * Ed + Rabs D * Eb + Eb * Ed in
  let Ea := Ex + slack u eta (S * D) Em in
  2 * Ev <= 8 /\ Rabs S + Es <= bpow radix2 1023 /\ Rabs D + Ex <= bpow radix2 1023 /\
  Rabs (S * D) + Em <= bpow radix2 1023 /\ Rabs (4 - S * D) + Ea <= bpow radix2 1023 /\
  slack u eta (4 - S * D) Ea <= / 10 ^ 10.
Proof. exact c92_at_ex. Qed.

(** C93_binary64: in binary64, for up to 2^47 pairs as in C92: if the product
    of the variances exceeds epsilon (2^-52) by the bound [Ep] for its error, and
    its square root is at least twice the bound [Ed] for its error, and [Er] is
    at most 1, then value() is finite and within [slack u eta r Er] of Pearson's
    coefficient [r]; hence it exceeds the range [-1, 1] by no more than that. *)
Theorem C93_binary64 : forall (ops : list (op (b64 * b64))) (Mx My : R),
  let l := since_clear ops in
  let n := INR (length l) in
  let u := bpow radix2 (-53) in
  let eta := bpow radix2 (-1075) in
  l <> [] -> (Z.of_nat (length l) <= 2 ^ 47)%Z ->
  bpow radix2 (-1000) <= Mx <= bpow radix2 480 -> bpow radix2 (-1000) <= My <= bpow radix2 480 ->
  Forall (fun p => (b64_finite (fst p) /\ Rabs (b64_real (fst p)) <= Mx) /\
                   (b64_finite (snd p) /\ Rabs (b64_real (snd p)) <= My)) l ->
  let lv := map (fun p => (b64_real (fst p), b64_real (snd p))) l in
  let X := variance (xs lv) in
  let Y := variance (ys lv) in
  let r := pearson lv in
  let Ex := 5 * ((14 * n + 308) * u * (Mx * Mx) + (3 * n + 13) * (10 * Mx) * eta + 3 * eta) in
  let Ey := 5 * ((14 * n + 308) * u * (My * My) + (3 * n + 13) * (10 * My) * eta + 3 * eta) in
  let Ec := 5 * ((14 * n + 308) * u * (Mx * My) + (3 * n + 13) * (4 * Mx + 6 * My) * eta + 3 * eta) in
  let Ep := slack u eta (X * Y) (X * Ey + Y * Ex + Ex * Ey) in
  let Ed := slack u eta (sqrt (X * Y)) (Ep / sqrt (X * Y)) in
  let Er := 2 * (Ec + Rabs r * Ed) / sqrt (X * Y) in
  X * Y + (X * Ey + Y * Ex + Ex * Ey) <= bpow radix2 1023 ->
  bpow radix2 (-52) + Ep <= X * Y -> 2 * Ed <= sqrt (X * Y) -> Er <= 1 ->
  let value := ccorr_value b64num (run (ccorr_push b64num) (ccorr_clear b64num) (ccorr_init b64num) ops) in
  b64_finite value /\ Rabs (b64_real value - r) <= slack u eta r Er /\
  Rabs (b64_real value) <= 1 + (Er + u * (1 + Er) + eta).
Proof. exact c93_binary64. Qed.
Print Assumptions C93_binary64.

(** C93_binary64_ex: the same points, correlation 1/2. *)
Example C93_binary64_ex :
  let z := b64_of_Z in
  let l := since_clear [Push (z 0, z 0); Push (z 4, z 8); Push (z 8, z 4); Push (z 4, z 4)]%Z in
  let n := INR 4 in
  let u := bpow radix2 (-53) in
  let eta := bpow radix2 (-1075) in
  let lv := map (fun p => (b64_real (fst p), b64_real (snd p))) l in
  length l = 4%nat /\ bpow radix2 (-1000) <= 8 <= bpow radix2 480 /\
  Forall (fun p => (b64_finite (fst p) /\ Rabs (b64_real (fst p)) <= 8) /\
                   (b64_finite (snd p) /\ Rabs (b64_real (snd p)) <= 8)) l /\
  variance (xs lv) = 8 /\ variance (ys lv) = 8 /\ pearson lv = 1 / 2 /\ sqrt (8 * 8) = 8 /\
  let r := 1 / 2 in
  let Ex := 5 * ((14 * n + 308) * u * (8 * 8) + (3 * n + 13) * (10 * 8) * eta + 3 * eta) in
  let Ec := 5 * ((14 * n + 308) * u * (8 * 8) + (3 * n + 13) * (4 * 8 + 6 * 8) * eta + 3 * eta) in
  let Ep := slack u eta (8 * 8) (8 * Ex + 8 * Ex + Ex * Ex) in
  let Ed := slack u eta 8 (Ep / 8) in
  let Er := 2 * (Ec + Rabs r * Ed) / 8 in
  8 * 8 + (8 * Ex + 8 * Ex + Ex * Ex) <= bpow radix2 1023 /\
  bpow radix2 (-52) + Ep <= 8 * 8 /\ 2 * Ed <= 8 /\ Er <= / 10 ^ 11.
Proof. exact c93_ex. Qed.
