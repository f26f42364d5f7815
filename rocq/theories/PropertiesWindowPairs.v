(** * Property theorems: WindowPairs

    Statements only; every proof is [exact] of a lemma in ClaimsWindowPairs.v.
    Generated by tools/mkprops.py. *)

From Coq Require Import Reals ZArith NArith List Bool.
From Coq Require Import Floats.SpecFloat.
From Flocq Require Import Core.
From Verif Require Import Arith History SpecStats SpecBlocks SpecError Window Interim Binary64.
Import ListNotations.
Local Open Scope R_scope.
From Verif Require Import ClaimsWindowPairs.

(** C96_covariance_binary64: the window covariance is computed from running sums
    that are corrected when a pair leaves the window, so rounding errors of old
    pairs remain. In binary64 they add up at most linearly: after [n] (at most
    2^47) pairs of finite values of magnitude at most [Mx] and [My] (between 2^-1000
    and 2^460) since the last clear, variance() of the window covariance filter is
    finite and within [n (64 u Mx My + 10 (Mx + My) eta + 26 eta)] of the covariance
    of the last [W] pairs. *)
Theorem C96_covariance_binary64 : forall (W : nat) (ops : list (op (b64 * b64))) (Mx My : R),
  let l := since_clear ops in
  let n := INR (length l) in
  let u := bpow radix2 (-53) in
  let eta := bpow radix2 (-1075) in
  (0 < W)%nat -> (Z.of_nat W <= 2 ^ 53)%Z -> l <> [] -> (Z.of_nat (length l) <= 2 ^ 47)%Z ->
  bpow radix2 (-1000) <= Mx <= bpow radix2 460 -> bpow radix2 (-1000) <= My <= bpow radix2 460 ->
  Forall (fun p => (b64_finite (fst p) /\ Rabs (b64_real (fst p)) <= Mx) /\
                   (b64_finite (snd p) /\ Rabs (b64_real (snd p)) <= My)) l ->
  let lv := map (fun p => (b64_real (fst p), b64_real (snd p))) l in
  let v := wcov_variance b64num (run (wcov_push b64num W) (wcov_clear b64num) (wcov_init b64num) ops) in
  b64_finite v /\
  Rabs (b64_real v - covariance (lastn W lv)) <= n * (64 * u * (Mx * My) + 10 * (Mx + My) * eta + 26 * eta).
Proof. exact c96_covariance. Qed.
Print Assumptions C96_covariance_binary64.

(** C96_covariance_binary64_ex: four points, window of three. *)
Example C96_covariance_binary64_ex :
  let z := b64_of_Z in
  let l := since_clear [Push (z 99, z 99); Clear; Push (z 0, z 0); Push (z 4, z 8); Push (z 8, z 4); Push (z 4, z 4)]%Z in
  (0 < 3)%nat /\ (Z.of_nat 3 <= 2 ^ 53)%Z /\ l <> [] /\ (Z.of_nat (length l) <= 2 ^ 47)%Z /\
  bpow radix2 (-1000) <= 8 <= bpow radix2 460 /\
  Forall (fun p => (b64_finite (fst p) /\ Rabs (b64_real (fst p)) <= 8) /\
                   (b64_finite (snd p) /\ Rabs (b64_real (snd p)) <= 8)) l /\
  covariance (lastn 3 (map (fun p => (b64_real (fst p), b64_real (snd p))) l)) = - 16 / 9.
Proof. exact c96_covariance_ex. Qed.

(** C96_slope_binary64: in the same situation, if the variance [V] of x over the
    window is at least twice the bound [Ev] of C71 for its error, slope() of the
    window regression is finite and differs from the slope [S] of the
    least-squares line through the last [W] points by at most
    [2 (Ec + |S| Ev) / V] and the rounding error of one division. *)
Theorem C96_slope_binary64 : forall (W : nat) (ops : list (op (b64 * b64))) (Mx My : R),
  let l := since_clear ops in
  let n := INR (length l) in
  let k := INR (length (lastn W l)) in
  let u := bpow radix2 (-53) in
  let eta := bpow radix2 (-1075) in
  (0 < W)%nat -> (Z.of_nat W <= 2 ^ 53)%Z -> l <> [] -> (Z.of_nat (length l) <= 2 ^ 47)%Z ->
  bpow radix2 (-1000) <= Mx <= bpow radix2 460 -> bpow radix2 (-1000) <= My <= bpow radix2 460 ->
  Forall (fun p => (b64_finite (fst p) /\ Rabs (b64_real (fst p)) <= Mx) /\
                   (b64_finite (snd p) /\ Rabs (b64_real (snd p)) <= My)) l ->
  let lv := lastn W (map (fun p => (b64_real (fst p), b64_real (snd p))) l) in
  let V := variance (xs lv) in
  let S := covariance lv / V in
  let Ev := 9 * (n / k) * ((264 * n + 62) * u * (Mx * Mx) + (140 * n + 20) * Mx * eta + 3 * eta) in
  let Ec := n * (64 * u * (Mx * My) + 10 * (Mx + My) * eta + 26 * eta) in
  let Es := 2 * (Ec + Rabs S * Ev) / V in
  0 < V -> 2 * Ev <= V -> Rabs S + Es <= bpow radix2 1023 ->
  let slope := wreg_slope b64num (run (wreg_push b64num W) (wreg_clear b64num) (wreg_init b64num) ops) in
  b64_finite slope /\ Rabs (b64_real slope - S) <= slack u eta S Es.
Proof. exact c96_slope. Qed.
Print Assumptions C96_slope_binary64.

(** C96_slope_binary64_ex: the last three of four points have slope -1/2; the bound
    is below 10^-8. *)
Example C96_slope_binary64_ex :
  let z := b64_of_Z in
  let l := since_clear [Push (z 99, z 99); Clear; Push (z 0, z 0); Push (z 4, z 8); Push (z 8, z 4); Push (z 4, z 4)]%Z in
  let n := INR 4 in
  let k := INR 3 in
  let u := bpow radix2 (-53) in
  let eta := bpow radix2 (-1075) in
  let lv := lastn 3 (map (fun p => (b64_real (fst p), b64_real (snd p))) l) in
  length l = 4%nat /\ length (lastn 3 l) = 3%nat /\ bpow radix2 (-1000) <= 8 <= bpow radix2 460 /\
  Forall (fun p => (b64_finite (fst p) /\ Rabs (b64_real (fst p)) <= 8) /\
                   (b64_finite (snd p) /\ Rabs (b64_real (snd p)) <= 8)) l /\
  variance (xs lv) = 32 / 9 /\ covariance lv = - 16 / 9 /\
  let V := 32 / 9 in
  let S := (- 16 / 9) / V in
  let Ev := 9 * (n / k) * ((264 * n + 62) * u * (8 * 8) + (140 * n + 20) * 8 * eta + 3 * eta) in
  let Ec := n * (64 * u * (8 * 8) + 10 * (8 + 8) * eta + 26 * eta) in
  let Es := 2 * (Ec + Rabs S * Ev) / V in
  0 < V /\ 2 * Ev <= V /\ Rabs S + Es <= bpow radix2 1023 /\ slack u eta S Es <= / 10 ^ 8.
Proof. exact c96_slope_ex. Qed.

(** C96_at_binary64: at(p) of the window regression for a finite position p is within
    an explicit bound of the least-squares line through the last [W] points at p:
    the error of the slope times the distance of p from the mean of x, the errors
    of both means, and the rounding errors of the three operations. *)
Theorem C96_at_binary64 : forall (W : nat) (ops : list (op (b64 * b64))) (Mx My : R) (p : b64),
  let l := since_clear ops in
  let n := INR (length l) in
  let k := INR (length (lastn W l)) in
  let u := bpow radix2 (-53) in
  let eta := bpow radix2 (-1075) in
  (0 < W)%nat -> (Z.of_nat W <= 2 ^ 53)%Z -> l <> [] -> (Z.of_nat (length l) <= 2 ^ 47)%Z -> b64_finite p ->
  bpow radix2 (-1000) <= Mx <= bpow radix2 460 -> bpow radix2 (-1000) <= My <= bpow radix2 460 ->
  Forall (fun p => (b64_finite (fst p) /\ Rabs (b64_real (fst p)) <= Mx) /\
                   (b64_finite (snd p) /\ Rabs (b64_real (snd p)) <= My)) l ->
  let lv := lastn W (map (fun p => (b64_real (fst p), b64_real (snd p))) l) in
  let V := variance (xs lv) in
  let S := covariance lv / V in
  let D := mean (xs lv) - b64_real p in
  let Ev := 9 * (n / k) * ((264 * n + 62) * u * (Mx * Mx) + (140 * n + 20) * Mx * eta + 3 * eta) in
  let Ec := n * (64 * u * (Mx * My) + 10 * (Mx + My) * eta + 26 * eta) in
  let Es := 2 * (Ec + Rabs S * Ev) / V in
  let Eb := slack u eta S Es in
  let Ex := n * (26 * u * Mx + 14 * eta) in
  let Ey := n * (12 * u * My + 8 * eta) in
  let Ed := slack u eta D Ex in
  let Em := Rabs S * Ed + Rabs D * Eb + Eb * Ed in
  let Ea := Ey + slack u eta (S * D) Em in
  0 < V -> 2 * Ev <= V -> Rabs S + Es <= bpow radix2 1023 -> Rabs D + Ex <= bpow radix2 1023 ->
  Rabs (S * D) + Em <= bpow radix2 1023 -> Rabs (mean (ys lv) - S * D) + Ea <= bpow radix2 1023 ->
  let at_p := wreg_at b64num (run (wreg_push b64num W) (wreg_clear b64num) (wreg_init b64num) ops) p in
  b64_finite at_p /\
  Rabs (b64_real at_p - (mean (ys lv) + S * (b64_real p - mean (xs lv)))) <= slack u eta (mean (ys lv) - S * D) Ea.
Proof. exact c96_at. Qed.
Print Assumptions C96_at_binary64.

(** C96_at_binary64_ex: the same points at position 28/3, where the line has the value
    10/3; the position is taken as 9. *)
Example C96_at_binary64_ex :
  let z := b64_of_Z in
  let l := since_clear [Push (z 0, z 0); Push (z 4, z 8); Push (z 8, z 4); Push (z 4, z 4)]%Z in
  let n := INR 4 in
  let k := INR 3 in
  let u := bpow radix2 (-53) in
  let eta := bpow radix2 (-1075) in
  let lv := lastn 3 (map (fun p => (b64_real (fst p), b64_real (snd p))) l) in
  length l = 4%nat /\ length (lastn 3 l) = 3%nat /\ b64_finite (z 9%Z) /\ b64_real (z 9%Z) = 9 /\
  bpow radix2 (-1000) <= 8 <= bpow radix2 460 /\
  Forall (fun p => (b64_finite (fst p) /\ Rabs (b64_real (fst p)) <= 8) /\
                   (b64_finite (snd p) /\ Rabs (b64_real (snd p)) <= 8)) l /\
  variance (xs lv) = 32 / 9 /\ covariance lv = - 16 / 9 /\ mean (xs lv) = 16 / 3 /\ mean (ys lv) = 16 / 3 /\
  let V := 32 / 9 in
  let S := (- 16 / 9) / V in
  let D := 16 / 3 - 9 in
  let Ev := 9 * (n / k) * ((264 * n + 62) * u * (8 * 8) + (140 * n + 20) * 8 * eta + 3 * eta) in
  let Ec := n * (64 * u * (8 * 8) + 10 * (8 + 8) * eta + 26 * eta) in
  let Es := 2 * (Ec + Rabs S * Ev) / V in
  let Eb := slack u eta S Es in
  let Ex := n * (26 * u * 8 + 14 * eta) in
  let Ey := n * (12 * u * 8 + 8 * eta) in
  let Ed := slack u eta D Ex in
  let Em := Rabs S * Ed + Rabs D * Eb + Eb * Ed in
  let Ea := Ey + slack u eta (S * D) Em in
  2 * Ev <= V /\ Rabs S + Es <= bpow radix2 1023 /\ Rabs D + Ex <= bpow radix2 1023 /\
  Rabs (S * D) + Em <= bpow radix2 1023 /\ Rabs (16 / 3 - S * D) + Ea <= bpow radix2 1023 /\
  slack u eta (16 / 3 - S * D) Ea <= / 10 ^ 7.
Proof. exact c96_at_ex. Qed.

(** C96_interim_slope_binary64: in binary64, windows up to 2^26, the last 2W pairs of
    magnitude at most [Mx] and [My]: with [C] and [V] the weighted averages of the
    covariances and of the variances of x of the two blocks (C88), if [V] is at
    least twice the bound [Ev] of C88 for its error, slope() of the interim
    regression is finite and within [2 (Ec + |S| Ev) / V] and one rounding of
    [S = C / V], for every number of pushes. *)
Theorem C96_interim_slope_binary64 : forall (W : nat) (ops : list (op (b64 * b64))) (Mx My C V : R),
  let l := since_clear ops in
  let u := bpow radix2 (-53) in
  let eta := bpow radix2 (-1075) in
  l <> [] -> (0 < W)%nat -> (Z.of_nat W <= 2 ^ 26)%Z ->
  bpow radix2 (-1000) <= Mx <= bpow radix2 480 -> bpow radix2 (-1000) <= My <= bpow radix2 480 ->
  Forall (fun p => (b64_finite (fst p) /\ Rabs (b64_real (fst p)) <= Mx) /\
                   (b64_finite (snd p) /\ Rabs (b64_real (snd p)) <= My)) (lastn (2 * W) l) ->
  let real p := (b64_real (fst p), b64_real (snd p)) in
  let p := map real (prev_block W l) in
  let a := map real (cur_block W l) in
  let s := card (cur_block W l) in
  let wp := (INR W - s + 1) ^ 2 in
  let wa := 2 * (s - 1) in
  ((length l <= W)%nat -> C = covariance (map real l) /\ V = variance (xs (map real l))) ->
  ((W < length l)%nat -> C = (wp * covariance p + wa * covariance a) / (wp + wa) /\
                         V = (wp * variance (xs p) + wa * variance (xs a)) / (wp + wa)) ->
  let S := C / V in
  let Ev := 5 * ((14 * INR W + 454) * u * (Mx * Mx) + (3 * INR W + 13) * (10 * Mx) * eta + 27 * eta) in
  let Ec := 5 * ((14 * INR W + 454) * u * (Mx * My) + (3 * INR W + 13) * (4 * Mx + 6 * My) * eta + 27 * eta) in
  let Es := 2 * (Ec + Rabs S * Ev) / V in
  0 < V -> 2 * Ev <= V -> Rabs S + Es <= bpow radix2 1023 ->
  let w := N.of_nat W in
  let slope := ireg_slope b64num w (run (ireg_push b64num w) (ireg_clear b64num) (ireg_init b64num) ops) in
  b64_finite slope /\ Rabs (b64_real slope - S) <= slack u eta S Es.
Proof. exact c96_interim_slope. Qed.
Print Assumptions C96_interim_slope_binary64.

(** C96_interim_slope_binary64_ex: windows of two, the blocks {(0,0), (4,8)} and
    {(8,4), (4,4)}: the weights are 1 and 2, the covariances 8 and 0, the variances 4
    and 4, the slope 2/3. *)
Example C96_interim_slope_binary64_ex :
  let z := b64_of_Z in
  let l := since_clear [Push (z 99, S754_nan : b64); Clear; Push (z 0, z 0); Push (z 4, z 8); Push (z 8, z 4); Push (z 4, z 4)]%Z in
  let u := bpow radix2 (-53) in
  let eta := bpow radix2 (-1075) in
  let real p := (b64_real (fst p), b64_real (snd p)) in
  let p := map real (prev_block 2 l) in
  let a := map real (cur_block 2 l) in
  let s := card (cur_block 2 l) in
  let wp := (INR 2 - s + 1) ^ 2 in
  let wa := 2 * (s - 1) in
  bpow radix2 (-1000) <= 8 <= bpow radix2 480 /\ (2 < length l)%nat /\
  Forall (fun p => (b64_finite (fst p) /\ Rabs (b64_real (fst p)) <= 8) /\
                   (b64_finite (snd p) /\ Rabs (b64_real (snd p)) <= 8)) (lastn (2 * 2) l) /\
  8 / 3 = (wp * covariance p + wa * covariance a) / (wp + wa) /\
  4 = (wp * variance (xs p) + wa * variance (xs a)) / (wp + wa) /\
  let S := 8 / 3 / 4 in
  let Ev := 5 * ((14 * INR 2 + 454) * u * (8 * 8) + (3 * INR 2 + 13) * (10 * 8) * eta + 27 * eta) in
  let Ec := 5 * ((14 * INR 2 + 454) * u * (8 * 8) + (3 * INR 2 + 13) * (4 * 8 + 6 * 8) * eta + 27 * eta) in
  let Es := 2 * (Ec + Rabs S * Ev) / 4 in
  2 * Ev <= 4 /\ Rabs S + Es <= bpow radix2 1023 /\ slack u eta S Es <= / 10 ^ 10.
Proof. exact c96_interim_slope_ex. Qed.

(** C96_interim_at_binary64: as long as clear() is not called, at(p) of the interim
    regression for a finite position p is within an explicit bound of
    [my + S (p - mx)] with the weighted means of the two blocks of C88, for every
    number of pushes. *)
Theorem C96_interim_at_binary64 : forall (W : nat) (l : list (b64 * b64)) (Mx My C V mx my : R) (q : b64),
  let u := bpow radix2 (-53) in
  let eta := bpow radix2 (-1075) in
  l <> [] -> (0 < W)%nat -> (Z.of_nat W <= 2 ^ 26)%Z -> b64_finite q ->
  bpow radix2 (-1000) <= Mx <= bpow radix2 480 -> bpow radix2 (-1000) <= My <= bpow radix2 480 ->
  Forall (fun p => (b64_finite (fst p) /\ Rabs (b64_real (fst p)) <= Mx) /\
                   (b64_finite (snd p) /\ Rabs (b64_real (snd p)) <= My)) (lastn (2 * W) l) ->
  let real p := (b64_real (fst p), b64_real (snd p)) in
  let p := map real (prev_block W l) in
  let a := map real (cur_block W l) in
  let s := card (cur_block W l) in
  let wp := (INR W - s + 1) ^ 2 in
  let wa := 2 * (s - 1) in
  let average f := (f p * (INR W - s) + f a * (2 * s)) / (INR W + s) in
  ((length l <= W)%nat -> C = covariance (map real l) /\ V = variance (xs (map real l)) /\
     mx = mean (xs (map real l)) /\ my = mean (ys (map real l))) ->
  ((W < length l)%nat -> C = (wp * covariance p + wa * covariance a) / (wp + wa) /\
     V = (wp * variance (xs p) + wa * variance (xs a)) / (wp + wa) /\
     mx = average (fun b => mean (xs b)) /\ my = average (fun b => mean (ys b))) ->
  let S := C / V in
  let D := mx - b64_real q in
  let Ev := 5 * ((14 * INR W + 454) * u * (Mx * Mx) + (3 * INR W + 13) * (10 * Mx) * eta + 27 * eta) in
  let Ec := 5 * ((14 * INR W + 454) * u * (Mx * My) + (3 * INR W + 13) * (4 * Mx + 6 * My) * eta + 27 * eta) in
  let Es := 2 * (Ec + Rabs S * Ev) / V in
  let Eb := slack u eta S Es in
  let Ex := (INR W + 46) * u * Mx + (3 * INR W + 29) * eta in
  let Ey := (INR W + 46) * u * My + (3 * INR W + 29) * eta in
  let Ed := slack u eta D Ex in
  let Em := Rabs S * Ed + Rabs D * Eb + Eb * Ed in
  let Ea := Ey + slack u eta (S * D) Em in
  0 < V -> 2 * Ev <= V -> Rabs S + Es <= bpow radix2 1023 -> Rabs D + Ex <= bpow radix2 1023 ->
  Rabs (S * D) + Em <= bpow radix2 1023 -> Rabs (my - S * D) + Ea <= bpow radix2 1023 ->
  let w := N.of_nat W in
  let at_q := ireg_at b64num w (run (ireg_push b64num w) (ireg_clear b64num) (ireg_init b64num) (pushes l)) q in
  b64_finite at_q /\
  Rabs (b64_real at_q - (my + S * (b64_real q - mx))) <= slack u eta (my - S * D) Ea.
Proof. exact c96_interim_at. Qed.
Print Assumptions C96_interim_at_binary64.

(** C96_interim_at_binary64_ex: the blocks {(0,0), (4,8)} and {(8,4), (4,4)} have the
    weighted means 6 and 4 and slope 2/3; at 9 the line has the value 6. *)
Example C96_interim_at_binary64_ex :
  let z := b64_of_Z in
  let l := [(z 0, z 0); (z 4, z 8); (z 8, z 4); (z 4, z 4)]%Z in
  let u := bpow radix2 (-53) in
  let eta := bpow radix2 (-1075) in
  let real p := (b64_real (fst p), b64_real (snd p)) in
  let p := map real (prev_block 2 l) in
  let a := map real (cur_block 2 l) in
  let s := card (cur_block 2 l) in
  let wp := (INR 2 - s + 1) ^ 2 in
  let wa := 2 * (s - 1) in
  let average f := (f p * (INR 2 - s) + f a * (2 * s)) / (INR 2 + s) in
  bpow radix2 (-1000) <= 8 <= bpow radix2 480 /\ (2 < length l)%nat /\ b64_finite (z 9%Z) /\ b64_real (z 9%Z) = 9 /\
  Forall (fun p => (b64_finite (fst p) /\ Rabs (b64_real (fst p)) <= 8) /\
                   (b64_finite (snd p) /\ Rabs (b64_real (snd p)) <= 8)) (lastn (2 * 2) l) /\
  8 / 3 = (wp * covariance p + wa * covariance a) / (wp + wa) /\
  4 = (wp * variance (xs p) + wa * variance (xs a)) / (wp + wa) /\
  6 = average (fun b => mean (xs b)) /\ 4 = average (fun b => mean (ys b)) /\
  let S := 8 / 3 / 4 in
  let D := 6 - 9 in
  let Ev := 5 * ((14 * INR 2 + 454) * u * (8 * 8) + (3 * INR 2 + 13) * (10 * 8) * eta + 27 * eta) in
  let Ec := 5 * ((14 * INR 2 + 454) * u * (8 * 8) + (3 * INR 2 + 13) * (4 * 8 + 6 * 8) * eta + 27 * eta) in
  let Es := 2 * (Ec + Rabs S * Ev) / 4 in
  let Eb := slack u eta S Es in
  let Ex := (INR 2 + 46) * u * 8 + (3 * INR 2 + 29) * eta in
  let Ed := slack u eta D Ex in
  let Em := Rabs S * Ed + Rabs D * Eb + Eb * Ed in
  let Ea := Ex + slack u eta (S * D) Em in
  2 * Ev <= 4 /\ Rabs S + Es <= bpow radix2 1023 /\ Rabs D + Ex <= bpow radix2 1023 /\
  Rabs (S * D) + Em <= bpow radix2 1023 /\ Rabs (4 - S * D) + Ea <= bpow radix2 1023 /\
  slack u eta (4 - S * D) Ea <= / 10 ^ 9.
Proof. exact c96_interim_at_ex. Qed.
