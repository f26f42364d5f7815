(** * Model of impulse::infinite instantiated with an integer value type *)

From Coq Require Import ZArith NArith Bool List.
From Verif Require Import Arith Buffer CInt IntMoments.
Import ListNotations.
Local Open Scope Z_scope.

(** impulse/infinite.hpp:51-63: the most recent inputs and outputs, newest
    first, their coefficients and the scale. *)
Record iiir : Type := IIIR {
  iiir_input : list Z;
  iiir_input_coefficients : list Z;
  iiir_output : list Z;
  iiir_scale : Z;
  iiir_output_coefficients : list Z
}.

(** impulse/detail/infinite.ipp:21-39 *)
Definition iiir_new (b a : list Z) (scale : Z) : iiir := IIIR [] b [] scale a.

(** impulse/detail/infinite.ipp:41-47 *)
Definition iiir_clear (s : iiir) : iiir :=
  IIIR [] (iiir_input_coefficients s) [] (iiir_scale s) (iiir_output_coefficients s).

(** impulse/detail/infinite.ipp:49-53 *)
Definition iiir_empty (s : iiir) : bool := rb_empty (iiir_input s).

(** impulse/detail/infinite.ipp:55-61 *)
Definition iiir_value (s : iiir) : Z :=
  match rb_front (iiir_output s) with
  | None => 0
  | Some y => y
  end.

(** impulse/detail/infinite.ipp:63-70: both inner products have the value type
    ([std::inner_product] returns the type of its initial value); the difference
    and the quotient are computed in the promoted type and converted back by
    [push_front]. *)
Definition iiir_push (T : ity) (s : iiir) (x : Z) : option iiir :=
  let b := iiir_input_coefficients s in
  let a := iiir_output_coefficients s in
  let w := rb_push_front (length b) (iiir_input s) x in
  feedforward <- ifir_product T w b ;;
  feedback <- ifir_product T (iiir_output s) a ;;
  d <- isub (promote T) feedforward feedback ;;
  q <- idiv (promote T) d (iiir_scale s) ;;
  Some (IIIR w b (rb_push_front (length a) (iiir_output s) (wrap T q)) (iiir_scale s) a).
