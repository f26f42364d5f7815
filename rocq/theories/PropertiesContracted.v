(** * Property theorems: Contracted

    Statements only; every proof is [exact] of a lemma in ClaimsContracted.v.
    Generated by tools/mkprops.py. *)

From Coq Require Import Reals ZArith NArith List Bool.
From Flocq Require Import Core.
From Verif Require Import Arith History SpecStats SpecDecay SpecImpulse Cumulative Window Decay Impulse ImpulseRuns Rounded ExactRuns Contracted.
Import ListNotations.
Local Open Scope R_scope.
From Verif Require Import ClaimsContracted.

(** C123_variance: with every product fused into the following addition, variance() of the cumulative
    filter keeps the bound of C70, in every format and rounding mode. *)
Theorem C123_variance : forall (emin prec : Z) (mode : R -> Z) (ops : list (op R)) (M : R),
  (0 < prec)%Z -> (emin <= 0)%Z -> Valid_rnd mode ->
  let l := since_clear ops in
  let n := INR (length l) in
  let u := bpow radix2 (1 - prec) in
  let eta := bpow radix2 emin in
  l <> [] -> fits l -> (Z.of_nat (length l) <= 2 ^ prec)%Z -> 64 * n * u <= 1 -> 32 * n * eta <= M ->
  Forall (fun x => Rabs x <= M) l ->
  let F := rounded emin prec mode in
  let s := run (cvar_push_fma F (rounded_fused emin prec mode)) (cvar_clear F) (cvar_init F) (fops emin prec mode ops) in
  exists v, cvar_variance F s = Fin v /\
    Rabs (v - variance l) <= 5 * ((14 * n + 308) * u * (M * M) + (3 * n + 13) * (10 * M) * eta + 3 * eta).
Proof. exact c123_variance. Qed.
Print Assumptions C123_variance.

(** C123_variance_ex: an instance of the hypotheses. *)
Example C123_variance_ex :
  (0 < 20)%Z /\ (-20 <= 0)%Z /\ Valid_rnd Ztrunc /\
  let ops := [Push 99; Clear; Push 1; Push (-10); Push 3; Push 7; Push 2] in
  since_clear ops = [1; -10; 3; 7; 2] /\ fits (since_clear ops) /\
  (Z.of_nat (length (since_clear ops)) <= 2 ^ 20)%Z /\
  64 * INR (length (since_clear ops)) * bpow radix2 (1 - 20) <= 1 /\
  32 * INR (length (since_clear ops)) * bpow radix2 (-20) <= 10 /\
  Forall (fun x => Rabs x <= 10) (since_clear ops).
Proof. exact c123_variance_ex. Qed.

(** C123_covariance: the same for the cumulative covariance. *)
Theorem C123_covariance : forall (emin prec : Z) (mode : R -> Z) (ops : list (op (R * R))) (Mx My : R),
  (0 < prec)%Z -> (emin <= 0)%Z -> Valid_rnd mode ->
  let l := since_clear ops in
  let n := INR (length l) in
  let u := bpow radix2 (1 - prec) in
  let eta := bpow radix2 emin in
  l <> [] -> fits l -> (Z.of_nat (length l) <= 2 ^ prec)%Z -> 64 * n * u <= 1 ->
  32 * n * eta <= Mx -> 32 * n * eta <= My ->
  Forall (fun p => Rabs (fst p) <= Mx /\ Rabs (snd p) <= My) l ->
  let F := rounded emin prec mode in
  let s := run (ccov_push_fma F (rounded_fused emin prec mode)) (ccov_clear F) (ccov_init F)
    (map (op_map (fun p => (Fin (fst p), Fin (snd p)) : F * F)) ops) in
  exists v, ccov_variance F s = Fin v /\
    Rabs (v - covariance l) <=
      5 * ((14 * n + 308) * u * (Mx * My) + (3 * n + 13) * (4 * Mx + 6 * My) * eta + 3 * eta).
Proof. exact c123_covariance. Qed.
Print Assumptions C123_covariance.

(** C123_covariance_ex: an instance of the hypotheses. *)
Example C123_covariance_ex :
  (0 < 20)%Z /\ (-20 <= 0)%Z /\ Valid_rnd Ztrunc /\
  let ops := [Push (99, 99); Clear; Push (1, 500); Push (-10, 3); Push (3, -1)] in
  let l := since_clear ops in
  l = [(1, 500); (-10, 3); (3, -1)] /\ fits l /\ (Z.of_nat (length l) <= 2 ^ 20)%Z /\
  64 * INR (length l) * bpow radix2 (1 - 20) <= 1 /\ 32 * INR (length l) * bpow radix2 (-20) <= 10 /\
  Forall (fun p => Rabs (fst p) <= 10 /\ Rabs (snd p) <= 500) l.
Proof. exact c123_covariance_ex. Qed.

(** C123_window_variance: the same for the window variance, with the bound of C71. *)
Theorem C123_window_variance : forall (emin prec : Z) (mode : R -> Z) (W : nat) (ops : list (op R)) (M : R),
  (0 < prec)%Z -> (emin <= 0)%Z -> Valid_rnd mode ->
  let l := since_clear ops in
  let n := INR (length l) in
  let k := INR (length (lastn W l)) in
  let u := bpow radix2 (1 - prec) in
  let eta := bpow radix2 emin in
  (0 < W)%nat -> (Z.of_nat W <= 2 ^ prec)%Z -> (N.of_nat W < szmod)%N ->
  l <> [] -> 64 * n * u <= 1 -> 32 * n * eta <= M -> Forall (fun x => Rabs x <= M) l ->
  let F := rounded emin prec mode in
  let s := run (wvar_push_fma F (rounded_fused emin prec mode) W) (wvar_clear F) (wvar_init F) (fops emin prec mode ops) in
  exists v, wvar_variance F s = Fin v /\
    Rabs (v - variance (lastn W l)) <=
      9 * (n / k) * ((264 * n + 62) * u * (M * M) + (140 * n + 20) * M * eta + 3 * eta).
Proof. exact c123_window_variance. Qed.
Print Assumptions C123_window_variance.

(** C123_window_variance_ex: an instance of the hypotheses. *)
Example C123_window_variance_ex :
  (0 < 20)%Z /\ (-20 <= 0)%Z /\ Valid_rnd Zceil /\
  (0 < 2)%nat /\ (Z.of_nat 2 <= 2 ^ 20)%Z /\ (N.of_nat 2 < szmod)%N /\
  let ops := [Push 99; Clear; Push 1; Push (-10); Push 3; Push 7; Push 2] in
  since_clear ops = [1; -10; 3; 7; 2] /\ lastn 2 (since_clear ops) = [7; 2] /\
  64 * INR (length (since_clear ops)) * bpow radix2 (1 - 20) <= 1 /\
  32 * INR (length (since_clear ops)) * bpow radix2 (-20) <= 10 /\
  Forall (fun x => Rabs x <= 10) (since_clear ops).
Proof. exact c123_window_variance_ex. Qed.

(** C123_decay_mean: the same for the decay mean, with the bound of C67 for any number of
    values. *)
Theorem C123_decay_mean : forall (emin prec : Z) (mode : R -> Z) (f : R) (l : list R) (M : R),
  (0 < prec)%Z -> (emin <= 0)%Z -> Valid_rnd mode ->
  let u := bpow radix2 (1 - prec) in
  let eta := bpow radix2 emin in
  0 < f <= 1 -> 104 * u <= f -> 56 * eta <= f * f ->
  l <> [] -> Forall (fun x => Rabs x <= M) l ->
  let F := rounded emin prec mode in
  let s := run (dmean_push_fma F (rounded_fused emin prec mode)) (dmean_clear F) (dmean_init F (Fin f)) (pushes (map Fin l)) in
  exists m, dmean_mean F s = Fin m /\
    Rabs (m - ewma f l) <= 209 * u * M / f + 57 * eta * (1 + M) / (f * f).
Proof. exact c123_decay_mean. Qed.
Print Assumptions C123_decay_mean.

(** C123_decay_mean_ex: an instance of the hypotheses. *)
Example C123_decay_mean_ex :
  (0 < 12)%Z /\ (-20 <= 0)%Z /\ Valid_rnd Zfloor /\
  0 < / 8 <= 1 /\ 104 * bpow radix2 (1 - 12) <= / 8 /\ 56 * bpow radix2 (-20) <= / 8 * / 8 /\
  Forall (fun x => Rabs x <= 10) [1; -10; 3] /\ ewma (/ 8) [1; -10; 3] = -319 / 169.
Proof. exact c123_decay_mean_ex. Qed.

(** C123_decay_variance: the same for the decay variance, with the bound of C72. *)
Theorem C123_decay_variance : forall (emin prec : Z) (mode : R -> Z) (fm fv : R) (l : list R) (M : R),
  (0 < prec)%Z -> (emin <= 0)%Z -> Valid_rnd mode ->
  let u := bpow radix2 (1 - prec) in
  let eta := bpow radix2 emin in
  0 < fm <= 1 -> 0 < fv <= 1 -> 104 * u <= fm -> 104 * u <= fv ->
  56 * eta <= fm * fm -> 56 * eta <= fv * fv ->
  let D := fun m f => 209 * u * m / f + 57 * eta * (1 + m) / (f * f) in
  let g := D M fm + u * (2 * M + D M fm) + eta in
  g <= M ->
  l <> [] -> Forall (fun x => Rabs x <= M) l ->
  let F := rounded emin prec mode in
  let s := run (dvar_push_fma F (rounded_fused emin prec mode)) (dvar_clear F) (dvar_init F (Fin fm) (Fin fv)) (pushes (map Fin l)) in
  exists v, dvar_variance F s = Fin v /\
    Rabs (v - emoment 2 fm fv l) <=
      D (10 * (M * M) + eta) fv + (5 * M * g + 9 * u * (M * M) + eta).
Proof. exact c123_decay_variance. Qed.
Print Assumptions C123_decay_variance.

(** C123_decay_variance_ex: an instance of the hypotheses. *)
Example C123_decay_variance_ex :
  (0 < 20)%Z /\ (-40 <= 0)%Z /\ Valid_rnd Zfloor /\
  let u := bpow radix2 (1 - 20) in
  let eta := bpow radix2 (-40) in
  0 < / 4 <= 1 /\ 0 < / 8 <= 1 /\ 104 * u <= / 4 /\ 104 * u <= / 8 /\
  56 * eta <= / 4 * / 4 /\ 56 * eta <= / 8 * / 8 /\
  let D := fun m f => 209 * u * m / f + 57 * eta * (1 + m) / (f * f) in
  D 10 (/ 4) + u * (2 * 10 + D 10 (/ 4)) + eta <= 10 /\
  Forall (fun x => Rabs x <= 10) [1; -10; 3].
Proof. exact c123_decay_variance_ex. Qed.

(** C123_finite: the finite filter with fused products keeps the bound of C68. *)
Theorem C123_finite : forall (emin prec : Z) (mode : R -> Z) (c : list R) (ops : list (op R)),
  (0 < prec)%Z -> (emin <= 0)%Z -> Valid_rnd mode ->
  let l := since_clear ops in
  let p := INR (length c) in
  let u := bpow radix2 (1 - prec) in
  let eta := bpow radix2 emin in
  c <> [] -> l <> [] -> (2 * p + 4) * u <= 1 ->
  let F := rounded emin prec mode in
  let S := convolution (map Rabs c) (map Rabs l) (Nat.pred (length l)) in
  exists v, fir_value F (run (fir_push_fma F (rounded_fused emin prec mode)) (fir_clear F) (fir_new F (map Fin c)) (fops emin prec mode ops)) = Fin v /\
    Rabs (v - convolution c l (Nat.pred (length l))) <= (2 * p + 4) * u * S + 6 * p * eta.
Proof. exact c123_finite. Qed.
Print Assumptions C123_finite.

(** C123_finite_ex: an instance of the hypotheses. *)
Example C123_finite_ex :
  (0 < 12)%Z /\ (-20 <= 0)%Z /\ Valid_rnd Zfloor /\
  let ops := [Push 99; Clear; Push 1; Push (-10); Push 3] in
  since_clear ops = [1; -10; 3] /\ (2 * INR (length [1; 2]) + 4) * bpow radix2 (1 - 12) <= 1 /\
  convolution [1; 2] (since_clear ops) 2 = -17 /\
  convolution (map Rabs [1; 2]) (map Rabs (since_clear ops)) 2 = 23.
Proof. exact c123_finite_ex. Qed.

(** C123_infinite: the infinite filter with fused products keeps the bound of C69. *)
Theorem C123_infinite : forall (emin prec : Z) (mode : R -> Z) (b a : list R) (scale : R)
    (ops : list (op R)) (M : R) (y : list R),
  (0 < prec)%Z -> (emin <= 0)%Z -> Valid_rnd mode ->
  let l := since_clear ops in
  let u := bpow radix2 (1 - prec) in
  let eta := bpow radix2 emin in
  b <> [] -> a <> [] -> l <> [] -> Forall (fun x => Rabs x <= M) l ->
  abs_sum a < Rabs scale ->
  difference_equation b a scale l y ->
  let r := INR (length b + length a) in
  let rho := abs_sum a / Rabs scale in
  let Y := abs_sum b * M / (Rabs scale - abs_sum a) in
  let E := 2 * ((8 * r + 19) * u * Y + (24 * r + 2) * eta / Rabs scale + eta) / (1 - rho) in
  2 * (8 * r + 19) * u <= 1 - rho ->
  let F := rounded emin prec mode in
  exists v, iir_value F (run (iir_push_fma F (rounded_fused emin prec mode)) (iir_clear F) (iir_new F (map Fin b) (map Fin a) (Fin scale)) (fops emin prec mode ops)) = Fin v /\
    Rabs (v - last y 0) <= E.
Proof. exact c123_infinite. Qed.
Print Assumptions C123_infinite.

(** C123_infinite_ex: an instance of the hypotheses. *)
Example C123_infinite_ex :
  (0 < 20)%Z /\ (-20 <= 0)%Z /\ Valid_rnd Zfloor /\
  let ops := [Push 99; Clear; Push 1; Push (-10); Push 3] in
  let y := [1; -21 / 2; 33 / 4] in
  Forall (fun x => Rabs x <= 10) (since_clear ops) /\
  abs_sum [/ 2] < Rabs 1 /\ difference_equation [1] [/ 2] 1 (since_clear ops) y /\
  2 * (8 * INR (length [1] + length [/ 2]) + 19) * bpow radix2 (1 - 20) <= 1 - abs_sum [/ 2] / Rabs 1.
Proof. exact c123_infinite_ex. Qed.

(** C123_variance_sign: with the products fused, in every format and
    rounding mode and for values of the format, mean() of the cumulative filter
    stays in the range of the values and the variances are not negative, as in
    C12. *)
Theorem C123_variance_sign : forall (emin prec : Z) (mode : R -> Z) (ops : list (op R)),
  (0 < prec)%Z -> (emin <= 0)%Z -> Valid_rnd mode ->
  let l := since_clear ops in
  l <> [] -> fits l -> Forall (representable emin prec) l ->
  let F := rounded emin prec mode in
  let s := run (cvar_push_fma F (rounded_fused emin prec mode)) (cvar_clear F) (cvar_init F) (fops emin prec mode ops) in
  exists m v, cvar_mean F s = Fin m /\ representable emin prec m /\ in_hull m l /\
    cvar_variance F s = Fin v /\ 0 <= v /\
    ((2 <= length l)%nat -> exists u, cvar_unbiased_variance F s = Fin u /\ 0 <= u).
Proof. exact c123_variance_sign. Qed.
Print Assumptions C123_variance_sign.

(** C123_variance_sign_ex: three bits, rounding downwards. *)
Example C123_variance_sign_ex :
  (0 < 3)%Z /\ (-4 <= 0)%Z /\ Valid_rnd Zfloor /\
  let ops := [Push 7; Clear; Push 5; Push (-6)] in
  since_clear ops = [5; -6] /\ fits (since_clear ops) /\ Forall (representable (-4) 3) (since_clear ops).
Proof. exact c123_variance_sign_ex. Qed.

(** C123_decay_sign: with the products fused, variance() of the decay
    filter is not negative after any history of pushes and clears. *)
Theorem C123_decay_sign : forall (emin prec : Z) (mode : R -> Z) (fm fv : R) (ops : list (op R)),
  (0 < prec)%Z -> (emin <= 0)%Z -> Valid_rnd mode -> 0 <= fv <= 1 ->
  let F := rounded emin prec mode in
  let s := run (dvar_push_fma F (rounded_fused emin prec mode)) (dvar_clear F) (dvar_init F (Fin fm) (Fin fv)) (fops emin prec mode ops) in
  exists v, dvar_variance F s = Fin v /\ 0 <= v.
Proof. exact c123_decay_sign. Qed.
Print Assumptions C123_decay_sign.

(** C123_decay_sign_ex: eleven bits, rounding downwards. *)
Example C123_decay_sign_ex :
  (0 < 11)%Z /\ (-24 <= 0)%Z /\ Valid_rnd Zfloor /\ 0 <= 1 / 3 <= 1.
Proof. exact c123_decay_sign_ex. Qed.

(** C123_visible: contraction can be observed: a finite filter whose value is
    exactly 0 when products are rounded gives 1 when they are fused. *)
Theorem C123_visible : exists (emin prec : Z) (mode : R -> Z) (c l : list R),
  Forall (representable emin prec) c /\ Forall (representable emin prec) l /\
  let F := rounded emin prec mode in
  fir_value F (run (fir_push F) (fir_clear F) (fir_new F (map Fin c)) (pushes (map Fin l))) = Fin 0 /\
  fir_value F (run (fir_push_fma F (rounded_fused emin prec mode)) (fir_clear F) (fir_new F (map Fin c)) (pushes (map Fin l))) = Fin 1.
Proof. exact c123_visible. Qed.
Print Assumptions C123_visible.
