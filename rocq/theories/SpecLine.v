(** * Specification: data on a straight line

    Nothing here mentions the model. *)

From Coq Require Import Reals List.
Import ListNotations.
Local Open Scope R_scope.

(** The values grow by the same amount [b] from one to the next, starting at [a]. *)
Definition on_line (a b : R) (l : list R) : Prop :=
  forall i x, nth_error l i = Some x -> x = a + b * INR i.
