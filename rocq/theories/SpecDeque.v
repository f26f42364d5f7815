(** * Bounded double-ended queue

    Specification of circular_span: a list, front first, of at most [cap]
    elements.  Pushing onto a full queue drops the element at the other end;
    popping an empty queue is a violated precondition ([None]). *)

From Coq Require Import List Arith.
From Verif Require Import History CircularSpan.
Import ListNotations.

Section Deque.
Context {A : Type}.
Variable cap : nat.

Definition dq_step (l : list A) (o : scall A) : option (list A) :=
  match o with
  | SPushBack x => Some (lastn cap (l ++ [x]))
  | SPushFront x => Some (firstn cap (x :: l))
  | SPopFront => match l with [] => None | _ :: t => Some t end
  | SPopBack => match l with [] => None | _ :: _ => Some (removelast l) end
  | SClear => Some []
  | SAssign xs => Some (lastn cap xs)
  end.

Fixpoint dq_run (l : list A) (ops : list (scall A)) : option (list A) :=
  match ops with
  | [] => Some l
  | o :: ops' => match dq_step l o with Some l' => dq_run l' ops' | None => None end
  end.

(** The last element. *)
Definition last_error (l : list A) : option A := hd_error (rev l).

Definition is_push_front (o : scall A) : bool :=
  match o with SPushFront _ => true | _ => false end.
End Deque.
