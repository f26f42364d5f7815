(** * Sinusoids and the frequency response of linear filters

    Textbook definitions. For coefficients [c] and the angular frequency [w] per
    sample the sum [sum_k c_k exp(-i w (k + d))] has the real part [cos_part c d w]
    and the imaginary part [- sin_part c d w]. *)

From Coq Require Import Reals List Arith.
From Verif Require Import SpecStats SpecImpulse.
Import ListNotations.
Local Open Scope R_scope.

(** [m] samples of a sinusoid with amplitude [A], frequency [w] and phase [phi]. *)
Definition sinusoid (A w phi : R) (m : nat) : list R :=
  map (fun k => A * cos (w * INR k + phi)) (seq 0 m).

Definition cos_part (c : list R) (d : nat) (w : R) : R :=
  sumto (length c) (fun k => nth k c 0 * cos (w * INR (k + d))).

Definition sin_part (c : list R) (d : nat) (w : R) : R :=
  sumto (length c) (fun k => nth k c 0 * sin (w * INR (k + d))).

(** The amplitude factor [|B(w)|] of the finite filter [b]. *)
Definition magnitude (b : list R) (w : R) : R :=
  sqrt ((cos_part b 0 w)² + (sin_part b 0 w)²).

(** The squared modulus of [scale + sum_j a_j exp(-i w (j + 1))]. *)
Definition feedback_norm (a : list R) (scale w : R) : R :=
  (scale + cos_part a 1 w)² + (sin_part a 1 w)².

(** In-phase and quadrature part of
    [sum_k b_k exp(-i w k) / (scale + sum_j a_j exp(-i w (j + 1)))]. *)
Definition in_phase (b a : list R) (scale w : R) : R :=
  (cos_part b 0 w * (scale + cos_part a 1 w) + sin_part b 0 w * sin_part a 1 w) / feedback_norm a scale w.

Definition quadrature (b a : list R) (scale w : R) : R :=
  (sin_part b 0 w * (scale + cos_part a 1 w) - cos_part b 0 w * sin_part a 1 w) / feedback_norm a scale w.
