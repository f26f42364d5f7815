(** * Property theorems: ContractedAccuracy

    Statements only; every proof is [exact] of a lemma in ClaimsContractedAccuracy.v.
    Generated by tools/mkprops.py. *)

From Coq Require Import Reals ZArith NArith List Bool.
From Coq Require Import Floats.SpecFloat.
From Flocq Require Import Core.
From Verif Require Import Arith History SpecStats SpecDecay SpecImpulse Cumulative Window Decay Impulse ImpulseRuns Ieee Contracted IeeeFused.
Import ListNotations.
Local Open Scope R_scope.
(** A float of an integer. *)
Local Notation f32 z := (ieee_of_Z 24 128 z).
From Verif Require Import ClaimsContractedAccuracy.

(** C123_ieee_decay_mean: with fused multiply-adds in an IEEE format, the exponential mean keeps the bound of C110. *)
Theorem C123_ieee_decay_mean : forall (prec emax : Z) (f : spec_float) (l : list spec_float) (M : R),
  (1 < prec < emax)%Z ->
  let u := bpow radix2 (- prec) in
  let eta := bpow radix2 (2 - emax - prec) in
  let big := bpow radix2 (emax - 1) in
  let fv := ieee_real f in
  ieee_finite prec emax f -> 0 < fv <= 1 -> 104 * u <= fv -> 56 * eta <= fv * fv ->
  l <> [] -> 16 * (M + 1) <= big -> 32 <= big ->
  Forall (fun x => ieee_finite prec emax x /\ Rabs (ieee_real x) <= M) l ->
  let F := ieee prec emax in
  let m := dmean_mean F (run (dmean_push_fma F (ieee_fused prec emax)) (dmean_clear F) (dmean_init F f) (pushes l)) in
  ieee_finite prec emax m /\
  Rabs (ieee_real m - ewma fv (map ieee_real l)) <= 209 * u * M / fv + 57 * eta * (1 + M) / (fv * fv).
Proof. exact c123_ieee_decay_mean. Qed.
Print Assumptions C123_ieee_decay_mean.

(** C123_ieee_decay_mean_ex: an instance of the hypotheses over float. *)
Example C123_ieee_decay_mean_ex :
  let f := @ndiv (ieee 24 128) (f32 1) (f32 2) in
  ieee_finite 24 128 f /\ ieee_real f = / 2 /\ 104 * bpow radix2 (- 24) <= / 2 /\ 56 * bpow radix2 (2 - 128 - 24) <= / 2 * / 2 /\
  16 * (1000000 + 1) <= bpow radix2 (128 - 1) /\ 32 <= bpow radix2 (128 - 1) /\
  Forall (fun x => ieee_finite 24 128 x /\ Rabs (ieee_real x) <= 1000000) [f32 1000000; f32 (-7)].
Proof. exact c123_ieee_decay_mean_ex. Qed.

(** C123_ieee_variance: with fused multiply-adds in an IEEE format, the cumulative variance keeps the bound of C110. *)
Theorem C123_ieee_variance : forall (prec emax : Z) (ops : list (op spec_float)) (M : R),
  (1 < prec < emax)%Z ->
  let l := since_clear ops in
  let n := INR (length l) in
  let u := bpow radix2 (- prec) in
  let eta := bpow radix2 (2 - emax - prec) in
  let big := bpow radix2 (emax - 1) in
  l <> [] -> (N.of_nat (length l) < szmod)%N ->
  64 * n * u <= 1 -> 32 * n * eta <= M -> 16 * M + 60 * n * eta <= big -> 64 * n * (M * M) + 16 * n * eta <= big ->
  Forall (fun x => ieee_finite prec emax x /\ Rabs (ieee_real x) <= M) l ->
  let F := ieee prec emax in
  let v := cvar_variance F (run (cvar_push_fma F (ieee_fused prec emax)) (cvar_clear F) (cvar_init F) ops) in
  ieee_finite prec emax v /\
  Rabs (ieee_real v - variance (map ieee_real l)) <=
    5 * ((14 * n + 308) * u * (M * M) + (3 * n + 13) * (10 * M) * eta + 3 * eta).
Proof. exact c123_ieee_variance. Qed.
Print Assumptions C123_ieee_variance.

(** C123_ieee_variance_ex: an instance of the hypotheses over float. *)
Example C123_ieee_variance_ex :
  let l := since_clear [Push (f32 9); Clear; Push (f32 1000); Push (f32 (-7)); Push (f32 3)] in
  l = [f32 1000; f32 (-7); f32 3] /\ 64 * 3 * bpow radix2 (- 24) <= 1 /\ 32 * 3 * bpow radix2 (2 - 128 - 24) <= 1000 /\
  16 * 1000 + 60 * 3 * bpow radix2 (2 - 128 - 24) <= bpow radix2 (128 - 1) /\
  64 * 3 * (1000 * 1000) + 16 * 3 * bpow radix2 (2 - 128 - 24) <= bpow radix2 (128 - 1) /\
  Forall (fun x => ieee_finite 24 128 x /\ Rabs (ieee_real x) <= 1000) l.
Proof. exact c123_ieee_variance_ex. Qed.

(** C123_ieee_window_variance: with fused multiply-adds in an IEEE format, the window variance keeps the bound of C110. *)
Theorem C123_ieee_window_variance : forall (prec emax : Z) (W : nat) (ops : list (op spec_float)) (M : R),
  (1 < prec < emax)%Z ->
  let l := since_clear ops in
  let n := INR (length l) in
  let k := INR (length (lastn W l)) in
  let u := bpow radix2 (- prec) in
  let eta := bpow radix2 (2 - emax - prec) in
  let big := bpow radix2 (emax - 1) in
  (0 < W)%nat -> (Z.of_nat W <= 2 ^ prec)%Z -> (N.of_nat W < szmod)%N -> l <> [] ->
  64 * n * u <= 1 -> 32 * n * eta <= M -> 16 * M + 60 * n * eta <= big -> 80 * n * (M * M) + 16 * n * eta <= big ->
  Forall (fun x => ieee_finite prec emax x /\ Rabs (ieee_real x) <= M) l ->
  let F := ieee prec emax in
  let v := wvar_variance F (run (wvar_push_fma F (ieee_fused prec emax) W) (wvar_clear F) (wvar_init F) ops) in
  ieee_finite prec emax v /\
  Rabs (ieee_real v - variance (lastn W (map ieee_real l))) <=
    9 * (n / k) * ((264 * n + 62) * u * (M * M) + (140 * n + 20) * M * eta + 3 * eta).
Proof. exact c123_ieee_window_variance. Qed.
Print Assumptions C123_ieee_window_variance.

(** C123_ieee_window_variance_ex: an instance of the hypotheses over float. *)
Example C123_ieee_window_variance_ex :
  let l := since_clear [Push (f32 9); Clear; Push (f32 1000); Push (f32 (-7)); Push (f32 3)] in
  lastn 2 l = [f32 (-7); f32 3] /\ 80 * 3 * (1000 * 1000) + 16 * 3 * bpow radix2 (2 - 128 - 24) <= bpow radix2 (128 - 1) /\
  Forall (fun x => ieee_finite 24 128 x /\ Rabs (ieee_real x) <= 1000) l.
Proof. exact c123_ieee_window_variance_ex. Qed.

(** C123_ieee_decay_variance: with fused multiply-adds in an IEEE format, the exponential variance keeps the bound of C110. *)
Theorem C123_ieee_decay_variance : forall (prec emax : Z) (fm fv : spec_float) (l : list spec_float) (M : R),
  (1 < prec < emax)%Z ->
  let u := bpow radix2 (- prec) in
  let eta := bpow radix2 (2 - emax - prec) in
  let big := bpow radix2 (emax - 1) in
  let mf := ieee_real fm in
  let vf := ieee_real fv in
  ieee_finite prec emax fm -> ieee_finite prec emax fv -> 0 < mf <= 1 -> 0 < vf <= 1 ->
  104 * u <= mf -> 104 * u <= vf -> 56 * eta <= mf * mf -> 56 * eta <= vf * vf ->
  let D := fun m f => 209 * u * m / f + 57 * eta * (1 + m) / (f * f) in
  let g := D M mf + u * (2 * M + D M mf) + eta in
  g <= M -> 16 * (M + 1) <= big -> 16 * (10 * (M * M) + eta + 1) <= big -> 32 <= big ->
  l <> [] -> Forall (fun x => ieee_finite prec emax x /\ Rabs (ieee_real x) <= M) l ->
  let F := ieee prec emax in
  let v := dvar_variance F (run (dvar_push_fma F (ieee_fused prec emax)) (dvar_clear F) (dvar_init F fm fv) (pushes l)) in
  ieee_finite prec emax v /\
  Rabs (ieee_real v - emoment 2 mf vf (map ieee_real l)) <=
    D (10 * (M * M) + eta) vf + (5 * M * g + 9 * u * (M * M) + eta).
Proof. exact c123_ieee_decay_variance. Qed.
Print Assumptions C123_ieee_decay_variance.

(** C123_ieee_decay_variance_ex: an instance of the hypotheses over float. *)
Example C123_ieee_decay_variance_ex :
  let fm := @ndiv (ieee 24 128) (f32 1) (f32 2) in
  let fv := @ndiv (ieee 24 128) (f32 1) (f32 4) in
  let u := bpow radix2 (- 24) in
  let eta := bpow radix2 (2 - 128 - 24) in
  let big := bpow radix2 (128 - 1) in
  ieee_finite 24 128 fm /\ ieee_finite 24 128 fv /\ ieee_real fm = / 2 /\ ieee_real fv = / 4 /\
  104 * u <= / 4 /\ 56 * eta <= / 4 * / 4 /\
  let D := 209 * u * 1000 / (/ 2) + 57 * eta * (1 + 1000) / (/ 2 * / 2) in
  D + u * (2 * 1000 + D) + eta <= 1000 /\ 16 * (1000 + 1) <= big /\ 16 * (10 * (1000 * 1000) + eta + 1) <= big /\ 32 <= big /\
  Forall (fun x => ieee_finite 24 128 x /\ Rabs (ieee_real x) <= 1000) [f32 1000; f32 (-7)].
Proof. exact c123_ieee_decay_variance_ex. Qed.

(** C123_ieee_fir: with fused multiply-adds in an IEEE format, the finite impulse response filter keeps the bound of C110. *)
Theorem C123_ieee_fir : forall (prec emax : Z) (c : list spec_float) (ops : list (op spec_float)),
  (1 < prec < emax)%Z ->
  let l := since_clear ops in
  let p := INR (length c) in
  let u := bpow radix2 (- prec) in
  let eta := bpow radix2 (2 - emax - prec) in
  let big := bpow radix2 (emax - 1) in
  c <> [] -> l <> [] -> Forall (ieee_finite prec emax) c -> Forall (ieee_finite prec emax) l ->
  let cv := map ieee_real c in
  let lv := map ieee_real l in
  let S := convolution (map Rabs cv) (map Rabs lv) (Nat.pred (length lv)) in
  (2 * p + 4) * u <= 1 -> 3 * S + (6 * p + 1) * eta <= big ->
  let F := ieee prec emax in
  let v := fir_value F (run (fir_push_fma F (ieee_fused prec emax)) (fir_clear F) (fir_new F c) ops) in
  ieee_finite prec emax v /\
  Rabs (ieee_real v - convolution cv lv (Nat.pred (length lv))) <= (2 * p + 4) * u * S + 6 * p * eta.
Proof. exact c123_ieee_fir. Qed.
Print Assumptions C123_ieee_fir.

(** C123_ieee_fir_ex: an instance of the hypotheses over float. *)
Example C123_ieee_fir_ex :
  let c := [f32 3; f32 (-2)] in
  let l := since_clear [Push (f32 9); Clear; Push (f32 1000); Push (f32 (-7)); Push (f32 4)] in
  let cv := map ieee_real c in
  let lv := map ieee_real l in
  let S := convolution (map Rabs cv) (map Rabs lv) (Nat.pred (length lv)) in
  Forall (ieee_finite 24 128) c /\ Forall (ieee_finite 24 128) l /\ S = 26 /\
  (2 * INR (length c) + 4) * bpow radix2 (- 24) <= 1 /\
  3 * S + (6 * INR (length c) + 1) * bpow radix2 (2 - 128 - 24) <= bpow radix2 (128 - 1).
Proof. exact c123_ieee_fir_ex. Qed.

(** C123_ieee_covariance: with fused multiply-adds in an IEEE format, the cumulative covariance keeps the bound of C110. *)
Theorem C123_ieee_covariance : forall (prec emax : Z) (ops : list (op (spec_float * spec_float))) (Mx My : R),
  (1 < prec < emax)%Z ->
  let l := since_clear ops in
  let n := INR (length l) in
  let u := bpow radix2 (- prec) in
  let eta := bpow radix2 (2 - emax - prec) in
  let big := bpow radix2 (emax - 1) in
  l <> [] -> (N.of_nat (length l) < szmod)%N ->
  64 * n * u <= 1 -> 32 * n * eta <= Mx -> 32 * n * eta <= My ->
  16 * Mx + 60 * n * eta <= big -> 16 * My + 60 * n * eta <= big -> 64 * n * (Mx * My) + 16 * n * eta <= big ->
  Forall (fun p => (ieee_finite prec emax (fst p) /\ Rabs (ieee_real (fst p)) <= Mx) /\
                   (ieee_finite prec emax (snd p) /\ Rabs (ieee_real (snd p)) <= My)) l ->
  let F := ieee prec emax in
  let v := ccov_variance F (run (ccov_push_fma F (ieee_fused prec emax)) (ccov_clear F) (ccov_init F) ops) in
  ieee_finite prec emax v /\
  Rabs (ieee_real v - covariance (map (fun p => (ieee_real (fst p), ieee_real (snd p))) l)) <=
    5 * ((14 * n + 308) * u * (Mx * My) + (3 * n + 13) * (4 * Mx + 6 * My) * eta + 3 * eta).
Proof. exact c123_ieee_covariance. Qed.
Print Assumptions C123_ieee_covariance.

(** C123_ieee_covariance_ex: an instance of the hypotheses over float. *)
Example C123_ieee_covariance_ex :
  let l := since_clear [Push (f32 9, f32 9); Clear; Push (f32 1000, f32 (-7)); Push (f32 2, f32 8)] in
  l = [(f32 1000, f32 (-7)); (f32 2, f32 8)] /\ 64 * 2 * bpow radix2 (- 24) <= 1 /\ 32 * 2 * bpow radix2 (2 - 128 - 24) <= 8 /\
  16 * 1000 + 60 * 2 * bpow radix2 (2 - 128 - 24) <= bpow radix2 (128 - 1) /\
  64 * 2 * (1000 * 8) + 16 * 2 * bpow radix2 (2 - 128 - 24) <= bpow radix2 (128 - 1) /\
  Forall (fun p => (ieee_finite 24 128 (fst p) /\ Rabs (ieee_real (fst p)) <= 1000) /\
                   (ieee_finite 24 128 (snd p) /\ Rabs (ieee_real (snd p)) <= 8)) l.
Proof. exact c123_ieee_covariance_ex. Qed.

(** C123_ieee_iir: with fused multiply-adds in an IEEE format, the infinite impulse response filter keeps the bound of C110. *)
Theorem C123_ieee_iir : forall (prec emax : Z) (b a : list spec_float) (scale : spec_float) (ops : list (op spec_float)) (M : R) (y : list R),
  (1 < prec < emax)%Z ->
  let l := since_clear ops in
  let bv := map ieee_real b in
  let av := map ieee_real a in
  let s := Rabs (ieee_real scale) in
  let u := bpow radix2 (- prec) in
  let eta := bpow radix2 (2 - emax - prec) in
  let big := bpow radix2 (emax - 1) in
  b <> [] -> a <> [] -> l <> [] ->
  Forall (ieee_finite prec emax) b -> Forall (ieee_finite prec emax) a -> ieee_finite prec emax scale ->
  Forall (fun x => ieee_finite prec emax x /\ Rabs (ieee_real x) <= M) l ->
  abs_sum av < s ->
  difference_equation bv av (ieee_real scale) (map ieee_real l) y ->
  let r := INR (length b + length a) in
  let rho := abs_sum av / s in
  let Y := abs_sum bv * M / (s - abs_sum av) in
  let E := 2 * ((8 * r + 19) * u * Y + (24 * r + 2) * eta / s + eta) / (1 - rho) in
  2 * (8 * r + 19) * u <= 1 - rho ->
  4 * (s * (Y + E)) + (12 * r + 2) * eta <= big ->
  4 * (Y + E) + (12 * r + 2) * eta / s <= big ->
  let F := ieee prec emax in
  let v := iir_value F (run (iir_push_fma F (ieee_fused prec emax)) (iir_clear F) (iir_new F b a scale) ops) in
  ieee_finite prec emax v /\ Rabs (ieee_real v - last y 0) <= E.
Proof. exact c123_ieee_iir. Qed.
Print Assumptions C123_ieee_iir.

(** C123_ieee_iir_ex: an instance of the hypotheses over float. *)
Example C123_ieee_iir_ex :
  let half := @ndiv (ieee 24 128) (f32 1) (f32 2) in
  let ops := [Push (f32 99); Clear; Push (f32 1); Push (f32 (-10)); Push (f32 3)] in
  let y := [1; -21 / 2; 33 / 4] in
  let u := bpow radix2 (-24) in
  let eta := bpow radix2 (2 - 128 - 24) in
  ieee_finite 24 128 half /\ ieee_finite 24 128 (f32 1) /\
  Forall (fun x => ieee_finite 24 128 x /\ Rabs (ieee_real x) <= 10) (since_clear ops) /\
  abs_sum (map ieee_real [half]) = / 2 /\ abs_sum (map ieee_real [f32 1]) = 1 /\ Rabs (ieee_real (f32 1)) = 1 /\
  difference_equation (map ieee_real [f32 1]) (map ieee_real [half]) (ieee_real (f32 1))
    (map ieee_real (since_clear ops)) y /\
  let r := INR 2 in
  let Y := 1 * 10 / (1 - / 2) in
  let E := 2 * ((8 * r + 19) * u * Y + (24 * r + 2) * eta / 1 + eta) / (1 - / 2 / 1) in
  2 * (8 * r + 19) * u <= 1 - / 2 / 1 /\
  4 * (1 * (Y + E)) + (12 * r + 2) * eta <= bpow radix2 (128 - 1) /\ E < 1 / 1000.
Proof. exact c123_ieee_iir_ex. Qed.

(** C123_ieee_differs_ex: the fused code computes other values than the plain code, so
    the bounds above do not follow from C110: the variance of 0, 1/7 and 2/3 over float. *)
Example C123_ieee_differs_ex :
  let F := ieee 24 128 in
  let ops := [Push (f32 0); Push (@ndiv F (f32 1) (f32 7)); Push (@ndiv F (f32 2) (f32 3))] in
  exists v w : spec_float,
    cvar_variance F (run (cvar_push_fma F (ieee_fused 24 128)) (cvar_clear F) (cvar_init F) ops) = v /\
    cvar_variance F (run (cvar_push F) (cvar_clear F) (cvar_init F) ops) = w /\
    SFeqb v w = false /\ ieee_finite 24 128 v /\ ieee_finite 24 128 w.
Proof. exact c123_ieee_differs_ex. Qed.
