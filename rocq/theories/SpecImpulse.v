(** * Convolution and difference equations

    Textbook definitions on sequences of reals listed oldest first. *)

From Coq Require Import Reals List Arith.
From Verif Require Import SpecStats.
Import ListNotations.
Local Open Scope R_scope.

(** The term of the sequence [k] steps before position [n] (counted from 0),
    taken to be 0 before the start. *)
Definition back (l : list R) (n k : nat) : R :=
  if (k <=? n)%nat then nth (n - k) l 0 else 0.

(** Sum of [f i] for [i < n]. *)
Definition sumto (n : nat) (f : nat -> R) : R := Rsum (map f (seq 0 n)).

(** Term [n] of the convolution of the coefficients [c] with the sequence [x]:
    the sum of c_i x_(n-i). *)
Definition convolution (c x : list R) (n : nat) : R :=
  sumto (length c) (fun i => nth i c 0 * back x n i).

(** [y] solves the difference equation
    scale * y_n = sum_i b_i x_(n-i) - sum_j a_j y_(n-1-j)
    with zero initial conditions. *)
Definition difference_equation (b a : list R) (scale : R) (x y : list R) : Prop :=
  length y = length x /\
  forall n, (n < length x)%nat ->
    scale * nth n y 0 =
    sumto (length b) (fun i => nth i b 0 * back x n i)
    - sumto (length a) (fun j => nth j a 0 * back y n (S j)).

(** Sum of absolute values. *)
Definition abs_sum (c : list R) : R := Rsum (map Rabs c).

(** Termwise linear combination of two sequences of the same length. *)
Definition combination (u v : R) (x y : list R) : list R :=
  map (fun p => u * fst p + v * snd p) (combine x y).
