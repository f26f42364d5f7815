(** * Vocabulary: value types that can count *)

From Coq Require Import NArith.
From Verif Require Import Arith.

(** Counts up to [n] are the same after a conversion to the value type and
    back. *)
Definition counts_convert (F : num) (n : N) : Prop :=
  forall p, (p <= n)%N -> ntosz (nofsz p : F) = Some p.
