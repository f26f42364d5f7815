(** * Specification: results that are multiples of each other *)

From Coq Require Import Reals ZArith Floats.SpecFloat.
From Flocq Require Import Core.
From Verif Require Import Arith.

(** [y] is [c] times [x]; values that are not finite correspond. *)
Definition scaled (c : R) (x y : xreal) : Prop :=
  match x, y with
  | Fin a, Fin b => b = (c * a)%R
  | NonFin, NonFin => True
  | _, _ => False
  end.

(** [c] times a value; a value that is not finite stays so. *)
Definition times (c : R) (x : xreal) : xreal :=
  match x with
  | Fin a => Fin (c * a)
  | NonFin => NonFin
  end.
Definition times2 (c d : R) (p : xreal * xreal) : xreal * xreal :=
  (times c (fst p), times d (snd p)).

(** The factors a rounding rule is indifferent to: every nonzero number when
    nothing is rounded; the powers of two when results are rounded to [prec]
    bits without overflow or underflow, and their negatives when the rule treats
    both signs alike. *)
Definition scalable (rnd : R -> R) (c : R) : Prop :=
  ((forall x, rnd x = x) /\ c <> 0%R) \/
  (exists prec mode, Valid_rnd mode /\ (forall x, rnd x = round radix2 (FLX_exp prec) mode x) /\
     exists k, c = bpow radix2 k \/ (c = (- bpow radix2 k)%R /\ forall x, rnd (- x)%R = (- rnd x)%R)).

(** The two zeros are identified, every other double is kept. *)
Definition unsigned_zero (x : b64) : b64 :=
  match x with
  | S754_zero _ => S754_zero false
  | _ => x
  end.

(** The same double, and its negative, up to the sign of zero. *)
Definition same_double (x y : b64) : Prop := unsigned_zero x = unsigned_zero y.
Definition negative_double (x y : b64) : Prop := unsigned_zero (SFopp x) = unsigned_zero y.

(** [x] or its negative. *)
Definition neg_if (b : bool) (x : b64) : b64 := if b then SFopp x else x.
Definition neg_if2 (b b' : bool) (p : b64 * b64) : b64 * b64 :=
  (neg_if b (fst p), neg_if b' (snd p)).
