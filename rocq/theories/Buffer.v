(** * Bounded ring buffer

    [trial::circular::array<T, N>] and [circular::vector<T>] come from an
    external library (trial.circular) that is not part of the repository
    (include/trial/online/window/moment.hpp:15 includes
    <trial/circular/array.hpp>).  They are modelled by their documented
    behaviour: a sequence, oldest element first, of at most [cap] elements,
    where [push_back] on a full buffer drops the front element. *)

From Coq Require Import List Arith NArith.
Import ListNotations.

Section Buffer.
Context {A : Type}.
Variable cap : nat.

(** [full()], called at window/detail/moment.ipp:55,67,98 and
    impulse/detail/finite.ipp:60. *)
Definition rb_full (l : list A) : bool := Nat.leb cap (length l).
(** [empty()], called at window/detail/moment.ipp:43 and
    impulse/detail/finite.ipp:54. *)
Definition rb_empty (l : list A) : bool :=
  match l with [] => true | _ => false end.
(** [size()], called at window/detail/moment.ipp:49 and
    impulse/detail/finite.ipp:79. *)
Definition rb_size (l : list A) : N := N.of_nat (length l).

(** [front()] requires a non-empty buffer; [None] is a violated
    precondition. *)
Definition rb_front (l : list A) : option A := hd_error l.

(** [push_back(x)] *)
Definition rb_push_back (l : list A) (x : A) : list A :=
  if rb_full l then tl l ++ [x] else l ++ [x].

(** [push_front(x)]: drops the back element when full. *)
Definition rb_push_front (l : list A) (x : A) : list A :=
  if rb_full l then x :: removelast l else x :: l.
End Buffer.
