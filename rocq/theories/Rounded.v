(** * Rounded arithmetic without overflow

    The instance of the arithmetic interface in which every operation is
    rounded to a binary floating-point format with [prec] bits of precision,
    gradual underflow below 2^(emin + prec - 1) and no upper bound, under an
    arbitrary rounding function [mode] (nearest-even, directed, ...).  The
    format and [round] are Flocq's. *)

From Coq Require Import Reals ZArith List.
From Flocq Require Import Core.
From Verif Require Import Arith History.

(** The numbers m * 2^e with |m| < 2^prec and e >= emin. *)
Definition representable (emin prec : Z) (x : R) : Prop :=
  FLT_format radix2 emin prec x.

Definition rounding (emin prec : Z) (mode : R -> Z) : R -> R :=
  round radix2 (FLT_exp emin prec) mode.

Definition rounded (emin prec : Z) (mode : R -> Z) : num :=
  xnum (rounding emin prec mode) (bpow radix2 (1 - prec)) (bpow radix2 (emin + prec - 1)).

(** A history of real numbers run on that instance. *)
Definition fops (emin prec : Z) (mode : R -> Z) (ops : list (op R))
  : list (op (rounded emin prec mode)) := map (op_map Fin) ops.

(** Every pushed value of the history satisfies [P]. *)
Definition all_pushed {A : Type} (P : A -> Prop) (ops : list (op A)) : Prop :=
  forall a, In (Push a) ops -> P a.

(** [m] is no smaller than the smallest and no larger than the largest element
    of [l]. *)
Definition in_hull (m : R) (l : list R) : Prop :=
  (exists a, In a l /\ (a <= m)%R) /\ (exists b, In b l /\ (m <= b)%R).
