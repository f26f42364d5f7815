(** * Histories of operations on a filter

    All filters share the protocol [push]/[clear]
    (e.g. include/trial/online/cumulative/moment.hpp:44,48).  A history is any
    finite sequence of such calls on a default constructed object. *)

From Coq Require Import List.
Import ListNotations.

(** A call of [push] or [clear] (cumulative/moment.hpp:44,48). *)
Inductive op (A : Type) : Type :=
| Push (a : A)
| Clear.
Arguments Push {A} a.
Arguments Clear {A}.

(** Performing one call, and a sequence of calls, on an object of state [S]
    whose [push] and [clear] member functions are given. *)
Definition step {S A : Type} (push : S -> A -> S) (clear : S -> S)
  (s : S) (o : op A) : S :=
  match o with
  | Push a => push s a
  | Clear => clear s
  end.

(** A sequence of calls. *)
Definition run {S A : Type} (push : S -> A -> S) (clear : S -> S)
  (s : S) (ops : list (op A)) : S :=
  fold_left (step push clear) ops s.

(** Specification side: the values pushed after the last [Clear], oldest
    first. *)
Fixpoint since_clear_from {A : Type} (acc : list A) (ops : list (op A))
  : list A :=
  match ops with
  | [] => acc
  | Push a :: ops' => since_clear_from (acc ++ [a]) ops'
  | Clear :: ops' => since_clear_from [] ops'
  end.

(** The values pushed after the last [Clear], from the empty history. *)
Definition since_clear {A : Type} (ops : list (op A)) : list A :=
  since_clear_from [] ops.

(** A history without [clear]. *)
Definition pushes {A : Type} (l : list A) : list (op A) := map Push l.

(** The most recent [n] elements of a list (oldest first). *)
Definition lastn {A : Type} (n : nat) (l : list A) : list A :=
  skipn (length l - n) l.

(** Relabelling the pushed values of a history. *)
Definition op_map {A B : Type} (f : A -> B) (o : op A) : op B :=
  match o with
  | Push a => Push (f a)
  | Clear => Clear
  end.
