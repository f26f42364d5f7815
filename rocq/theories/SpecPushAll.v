(** * Specification: calling push for each value in order *)

From Coq Require Import List.
Import ListNotations.

(** [for (x : xs) filter.push(x);] where a push may be undefined. *)
Fixpoint push_all {S A : Type} (push : S -> A -> option S) (s : S) (xs : list A) : option S :=
  match xs with
  | [] => Some s
  | x :: xs' =>
    match push s x with
    | Some s' => push_all push s' xs'
    | None => None
    end
  end.

(** Memory [mem'] is memory [mem] in which only the object at [a] changed, to
    [s']. *)
Definition only_changed {S : Type} (mem mem' : list S) (a : nat) (s' : S) : Prop :=
  length mem' = length mem /\
  nth_error mem' a = Some s' /\
  forall b, b <> a -> nth_error mem' b = nth_error mem b.

(** The values a program writes through iterators to address [a], in program
    order; [os] lists the address and the value of each write. *)
Definition written {A : Type} (a : nat) (os : list (nat * A)) : list A :=
  map snd (filter (fun o => Nat.eqb (fst o) a) os).
