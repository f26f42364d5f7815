(** * Property theorems: ContractedInterim

    Statements only; every proof is [exact] of a lemma in ClaimsContractedInterim.v.
    Generated by tools/mkprops.py. *)

From Coq Require Import Reals ZArith NArith List Bool.
From Coq Require Import Floats.SpecFloat.
From Flocq Require Import Core.
From Verif Require Import Arith History SpecStats SpecBlocks Cumulative Interim ExactRuns Ieee Contracted IeeeFused ContractedInterim.
Import ListNotations.
Local Open Scope R_scope.
(** A float of an integer. *)
Local Notation f32 z := (ieee_of_Z 24 128 z).
From Verif Require Import ClaimsContractedInterim.

(** C123_ieee_interim_mean: with fused multiply-adds in an IEEE format, whichever of the
    two products is fused, the interim mean keeps the bound of C110. *)
Theorem C123_ieee_interim_mean : forall (prec emax : Z) (first : bool) (W : nat) (ops : list (op spec_float)) (M : R),
  (1 < prec < emax)%Z ->
  let l := since_clear ops in
  let u := bpow radix2 (- prec) in
  let eta := bpow radix2 (2 - emax - prec) in
  let big := bpow radix2 (emax - 1) in
  l <> [] -> (0 < W)%nat -> (2 * N.of_nat W < szmod)%N -> 16 * INR W * u <= 1 ->
  16 * M + 60 * INR W * eta <= big -> 24 * INR W * M + 112 * (INR W * INR W * eta) + 5 * eta <= big ->
  Forall (fun x => ieee_finite prec emax x /\ Rabs (ieee_real x) <= M) (lastn (2 * W) l) ->
  let F := ieee prec emax in
  let w := N.of_nat W in
  let m := imean_mean_fma F (ieee_fused prec emax) first w (run (imean_push F w) (imean_clear F) (imean_init F) ops) in
  let p := mean (map ieee_real (prev_block W l)) in
  let a := mean (map ieee_real (cur_block W l)) in
  let s := card (cur_block W l) in
  let bound := (INR W + 46) * u * M + (3 * INR W + 29) * eta in
  ieee_finite prec emax m /\
  ((length l <= W)%nat -> Rabs (ieee_real m - mean (map ieee_real l)) <= bound) /\
  ((W < length l)%nat -> Rabs (ieee_real m - (p * (INR W - s) + a * (2 * s)) / (INR W + s)) <= bound).
Proof. exact c123_ieee_interim_mean. Qed.
Print Assumptions C123_ieee_interim_mean.

(** C123_ieee_interim_mean_ex: window 2 over float after a NaN, an infinity and five numbers. *)
Example C123_ieee_interim_mean_ex :
  let l := since_clear [Push S754_nan; Push (S754_infinity false); Push (f32 3); Push (f32 5); Push (f32 8); Push (f32 1); Push (f32 6)] in
  l <> [] /\ (2 * N.of_nat 2 < szmod)%N /\ 16 * INR 2 * bpow radix2 (- 24) <= 1 /\
  16 * 8 + 60 * INR 2 * bpow radix2 (2 - 128 - 24) <= bpow radix2 (128 - 1) /\
  24 * INR 2 * 8 + 112 * (INR 2 * INR 2 * bpow radix2 (2 - 128 - 24)) + 5 * bpow radix2 (2 - 128 - 24) <= bpow radix2 (128 - 1) /\
  Forall (fun x => ieee_finite 24 128 x /\ Rabs (ieee_real x) <= 8) (lastn (2 * 2) l) /\
  cur_block 2 l = [f32 6] /\ prev_block 2 l = [f32 8; f32 1].
Proof. exact c123_ieee_interim_mean_ex. Qed.

(** C123_ieee_interim_variance: likewise the interim variance, the products in the
    cumulative variances of the blocks fused as well. *)
Theorem C123_ieee_interim_variance : forall (prec emax : Z) (first : bool) (W : nat) (ops : list (op spec_float)) (M : R),
  (1 < prec < emax)%Z ->
  let l := since_clear ops in
  let u := bpow radix2 (- prec) in
  let eta := bpow radix2 (2 - emax - prec) in
  let big := bpow radix2 (emax - 1) in
  l <> [] -> (0 < W)%nat -> (N.of_nat W <= 2 ^ 32)%N -> 64 * INR W * u <= 1 -> INR W * INR W * u <= 1 ->
  32 * INR W * eta <= M -> 16 * M + 60 * INR W * eta <= big -> 64 * INR W * (M * M) + 16 * INR W * eta <= big ->
  416 * (INR W * INR W * (M * M)) + 60 * (INR W * INR W * eta) + 5 * eta <= big ->
  Forall (fun x => ieee_finite prec emax x /\ Rabs (ieee_real x) <= M) (lastn (2 * W) l) ->
  let F := ieee prec emax in
  let w := N.of_nat W in
  let v := ivar_variance_fma F (ieee_fused prec emax) first w (run (ivar_push_fma F (ieee_fused prec emax) w) (ivar_clear F) (ivar_init F) ops) in
  let vp := variance (map ieee_real (prev_block W l)) in
  let va := variance (map ieee_real (cur_block W l)) in
  let s := card (cur_block W l) in
  let wp := (INR W - s + 1) ^ 2 in
  let wa := 2 * (s - 1) in
  let bound := 5 * ((14 * INR W + 454) * u * (M * M) + (3 * INR W + 13) * (10 * M) * eta + 27 * eta) in
  ieee_finite prec emax v /\
  ((length l <= W)%nat -> Rabs (ieee_real v - variance (map ieee_real l)) <= bound) /\
  ((W < length l)%nat -> Rabs (ieee_real v - (wp * vp + wa * va) / (wp + wa)) <= bound).
Proof. exact c123_ieee_interim_variance. Qed.
Print Assumptions C123_ieee_interim_variance.

(** C123_ieee_interim_variance_ex: an instance of the hypotheses over float. *)
Example C123_ieee_interim_variance_ex :
  let l := since_clear (Push S754_nan :: map (fun k => Push (f32 k)) [3; 5; 8; 1; 6; -7; 2; 9]%Z) in
  let eta := bpow radix2 (2 - 128 - 24) in
  let big := bpow radix2 (128 - 1) in
  l <> [] /\ (N.of_nat 4 <= 2 ^ 32)%N /\ 64 * INR 4 * bpow radix2 (- 24) <= 1 /\ INR 4 * INR 4 * bpow radix2 (- 24) <= 1 /\
  32 * INR 4 * eta <= 10 /\ 16 * 10 + 60 * INR 4 * eta <= big /\ 64 * INR 4 * (10 * 10) + 16 * INR 4 * eta <= big /\
  416 * (INR 4 * INR 4 * (10 * 10)) + 60 * (INR 4 * INR 4 * eta) + 5 * eta <= big /\
  Forall (fun x => ieee_finite 24 128 x /\ Rabs (ieee_real x) <= 10) (lastn (2 * 4) l) /\ cur_block 4 l = [f32 9].
Proof. exact c123_ieee_interim_variance_ex. Qed.

(** C123_ieee_interim_covariance: likewise the interim covariance. *)
Theorem C123_ieee_interim_covariance : forall (prec emax : Z) (first : bool) (W : nat) (ops : list (op (spec_float * spec_float))) (Mx My : R),
  (1 < prec < emax)%Z ->
  let l := since_clear ops in
  let u := bpow radix2 (- prec) in
  let eta := bpow radix2 (2 - emax - prec) in
  let big := bpow radix2 (emax - 1) in
  l <> [] -> (0 < W)%nat -> (N.of_nat W <= 2 ^ 32)%N -> 64 * INR W * u <= 1 -> INR W * INR W * u <= 1 ->
  32 * INR W * eta <= Mx -> 32 * INR W * eta <= My ->
  16 * Mx + 60 * INR W * eta <= big -> 16 * My + 60 * INR W * eta <= big ->
  64 * INR W * (Mx * My) + 16 * INR W * eta <= big ->
  416 * (INR W * INR W * (Mx * My)) + 60 * (INR W * INR W * eta) + 5 * eta <= big ->
  Forall (fun p => (ieee_finite prec emax (fst p) /\ Rabs (ieee_real (fst p)) <= Mx) /\
                   (ieee_finite prec emax (snd p) /\ Rabs (ieee_real (snd p)) <= My)) (lastn (2 * W) l) ->
  let real p := (ieee_real (fst p), ieee_real (snd p)) in
  let F := ieee prec emax in
  let w := N.of_nat W in
  let v := icov_variance_fma F (ieee_fused prec emax) first w (run (icov_push_fma F (ieee_fused prec emax) w) (icov_clear F) (icov_init F) ops) in
  let vp := covariance (map real (prev_block W l)) in
  let va := covariance (map real (cur_block W l)) in
  let s := card (cur_block W l) in
  let wp := (INR W - s + 1) ^ 2 in
  let wa := 2 * (s - 1) in
  let bound := 5 * ((14 * INR W + 454) * u * (Mx * My) + (3 * INR W + 13) * (4 * Mx + 6 * My) * eta + 27 * eta) in
  ieee_finite prec emax v /\
  ((length l <= W)%nat -> Rabs (ieee_real v - covariance (map real l)) <= bound) /\
  ((W < length l)%nat -> Rabs (ieee_real v - (wp * vp + wa * va) / (wp + wa)) <= bound).
Proof. exact c123_ieee_interim_covariance. Qed.
Print Assumptions C123_ieee_interim_covariance.

(** C123_ieee_interim_covariance_ex: an instance of the hypotheses over float. *)
Example C123_ieee_interim_covariance_ex :
  let l := since_clear (map Push [(f32 3, f32 9); (f32 5, f32 25); (f32 8, f32 64); (f32 1, f32 1); (f32 (-6), f32 36)]) in
  let eta := bpow radix2 (2 - 128 - 24) in
  let big := bpow radix2 (128 - 1) in
  l <> [] /\ (N.of_nat 2 <= 2 ^ 32)%N /\ 64 * INR 2 * bpow radix2 (- 24) <= 1 /\ INR 2 * INR 2 * bpow radix2 (- 24) <= 1 /\
  32 * INR 2 * eta <= 8 /\ 32 * INR 2 * eta <= 64 /\ 16 * 8 + 60 * INR 2 * eta <= big /\ 16 * 64 + 60 * INR 2 * eta <= big /\
  64 * INR 2 * (8 * 64) + 16 * INR 2 * eta <= big /\
  416 * (INR 2 * INR 2 * (8 * 64)) + 60 * (INR 2 * INR 2 * eta) + 5 * eta <= big /\
  Forall (fun p => (ieee_finite 24 128 (fst p) /\ Rabs (ieee_real (fst p)) <= 8) /\
                   (ieee_finite 24 128 (snd p) /\ Rabs (ieee_real (snd p)) <= 64)) (lastn (2 * 2) l) /\
  prev_block 2 l = [(f32 8, f32 64); (f32 1, f32 1)].
Proof. exact c123_ieee_interim_covariance_ex. Qed.

(** C123_ieee_interim_visible_ex: which product is fused is visible in the result: window 8
    over float. *)
Example C123_ieee_interim_visible_ex :
  let F := ieee 24 128 in
  let ops := map Push [f32 18; f32 1; f32 1; f32 3; f32 1; f32 1; f32 1; f32 2; f32 1; f32 5; f32 5] in
  let s := run (imean_push F 8) (imean_clear F) (imean_init F) ops in
  SFeqb (imean_mean_fma F (ieee_fused 24 128) true 8 s) (imean_mean_fma F (ieee_fused 24 128) false 8 s) = false.
Proof. exact c123_ieee_interim_visible_ex. Qed.
