(** * Specification of a recursive filter over the integers

    Independent of the model: sequences are written newest first. *)

From Coq Require Import ZArith List.
From Verif Require Import SpecInt.
Import ListNotations.
Local Open Scope Z_scope.

(** [ys] are the outputs for the inputs [xs]: every output times the scale [k]
    differs from the weighted inputs less the weighted earlier outputs by a
    remainder smaller than the scale, on the side of zero. *)
Fixpoint int_response (b a : list Z) (k : Z) (xs ys : list Z) : Prop :=
  match xs, ys with
  | [], [] => True
  | _ :: xs', y :: ys' =>
      int_response b a k xs' ys' /\
      let target := zdot xs b - zdot ys' a in
      Z.abs (k * y) <= Z.abs target /\
      Z.abs (target - k * y) < Z.abs k /\
      0 <= (k * y) * target
  | _, _ => False
  end.
