(** * Model of the impulse response filters

    include/trial/online/impulse/finite.hpp, detail/finite.ipp,
    include/trial/online/impulse/infinite.hpp, detail/infinite.ipp.

    [trial::circular::vector] is external (finite.hpp:17, infinite.hpp:17) and
    modelled by Buffer.v; windows are listed from [begin()] to [end()], i.e.
    newest input first, as the code only uses [push_front]. *)

From Coq Require Import List Arith NArith.
From Verif Require Import Arith Buffer.
Import ListNotations.
Local Open Scope num_scope.

Section Impulse.
Variable F : num.

(** [std::inner_product(w.begin(), w.end(), c.begin(), value_type())]
    ([inner.product]: [acc = acc + *first1 * *first2], left to right) as called
    at finite.ipp:73 and infinite.ipp:67-68.  The range is that of the window,
    which never exceeds the number of coefficients. *)
Definition inner_product (w c : list F) : F :=
  fold_left (fun acc p => acc + fst p * snd p) (combine w c) n0.

(** ** finite *)

(** Members: finite.hpp:52-54.  The capacity of [input] is fixed to the number
    of coefficients by the constructors (finite.ipp:24,33). *)
Record fir := Fir {
  fir_input : list F;
  fir_output : F;
  fir_coefficients : list F
}.

(** Constructors: finite.ipp:21-37 (both overloads). *)
Definition fir_new (c : list F) : fir := Fir [] n0 c.

(** [capacity]: finite.ipp:39-43. *)
Definition fir_capacity (s : fir) : N := N.of_nat (length (fir_coefficients s)).

(** [clear]: finite.ipp:45-49; only the window is cleared. *)
Definition fir_clear (s : fir) : fir := Fir [] (fir_output s) (fir_coefficients s).

(** [empty], [full], [size]: finite.ipp:51-61,76-80. *)
Definition fir_empty (s : fir) : bool := rb_empty (fir_input s).
(** [full]: finite.ipp:57-61. *)
Definition fir_full (s : fir) : bool :=
  rb_full (length (fir_coefficients s)) (fir_input s).
(** [size]: finite.ipp:76-80. *)
Definition fir_size (s : fir) : N := rb_size (fir_input s).

(** [value]: finite.ipp:63-67. *)
Definition fir_value (s : fir) : F := fir_output s.

(** [push]: finite.ipp:69-74. *)
Definition fir_push (s : fir) (x : F) : fir :=
  let c := fir_coefficients s in
  let w := rb_push_front (length c) (fir_input s) x in
  Fir w (inner_product w c) c.

(** ** infinite *)

(** Members: infinite.hpp:53-63; capacities are fixed to the numbers of
    coefficients by the constructors (infinite.ipp:26-27,36-37). *)
Record iir := Iir {
  iir_input : list F;
  iir_input_coefficients : list F;
  iir_output : list F;
  iir_scale : F;
  iir_output_coefficients : list F
}.

(** Constructors: infinite.ipp:21-39 (both overloads). *)
Definition iir_new (b a : list F) (scale : F) : iir := Iir [] b [] scale a.

(** [clear]: infinite.ipp:41-47. *)
Definition iir_clear (s : iir) : iir :=
  Iir [] (iir_input_coefficients s) [] (iir_scale s) (iir_output_coefficients s).

(** [empty]: infinite.ipp:49-53. *)
Definition iir_empty (s : iir) : bool := rb_empty (iir_input s).

(** [value]: infinite.ipp:55-61. *)
Definition iir_value (s : iir) : F :=
  match rb_front (iir_output s) with
  | None => n0
  | Some y => y
  end.

(** [push]: infinite.ipp:63-70. *)
Definition iir_push (s : iir) (x : F) : iir :=
  let b := iir_input_coefficients s in
  let a := iir_output_coefficients s in
  let w := rb_push_front (length b) (iir_input s) x in
  let feedforward := inner_product w b in
  let feedback := inner_product (iir_output s) a in
  Iir w b
    (rb_push_front (length a) (iir_output s)
       ((feedforward - feedback) / iir_scale s))
    (iir_scale s) a.

End Impulse.
Arguments Fir {F}. Arguments fir_input {F}. Arguments fir_output {F}.
Arguments fir_coefficients {F}. Arguments Iir {F}. Arguments iir_input {F}.
Arguments iir_output {F}. Arguments iir_scale {F}.
Arguments iir_input_coefficients {F}. Arguments iir_output_coefficients {F}.
