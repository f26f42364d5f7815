(** * The output iterator push_iterator

    Models include/trial/online/iterator.hpp.  A [push_iterator<Container>]
    holds a pointer to a container; assigning a value through it calls
    [container->push(value)].  Containers of one type live in a memory, a list
    indexed by address; [None] is the null pointer of the default constructor.
    Calls return [None] when they dereference a pointer to no container, which
    is undefined behaviour in C++.  The return value of [push] (e.g. the [bool]
    of sampling/reservoir.hpp:57) is discarded by iterator.hpp:44, so [push] is
    a state transformer; a [push] that is itself undefined returns [None]. *)

From Coq Require Import List.
From Verif Require Import CircularSpan.
Import ListNotations.

(** The data member [Container *container], iterator.hpp:64. *)
Definition piter : Type := option nat.

(** Default constructor, iterator.hpp:32-35. *)
Definition pi_null : piter := None.

(** [push_inserter(c)], iterator.hpp:67-71, through the explicit constructor
    iterator.hpp:37-40; the argument is the address of [c]. *)
Definition push_inserter (address : nat) : piter := Some address.

(** [operator*], iterator.hpp:48-51. *)
Definition pi_deref (it : piter) : piter := it.

(** [operator++()] and [operator++(int)], iterator.hpp:53-56 and 58-61. *)
Definition pi_preinc (it : piter) : piter := it.
(** [operator++(int)], iterator.hpp:58-61. *)
Definition pi_postinc (it : piter) : piter := it.

Section Algorithms.
  Context {S A : Type}.
  (** The member function [push] of the container type. *)
  Variable push : S -> A -> option S.

  (** [operator=(const value_type&)], iterator.hpp:42-46. *)
  Definition pi_assign (mem : list S) (it : piter) (value : A)
    : option (list S * piter) :=
    obind it (fun address =>
    obind (nth_error mem address) (fun c =>
    obind (push c value) (fun c' =>
    Some (set_nth mem address c', it)))).

  (** [std::copy] over an output iterator, [alg.copy]: [*(result + n) =
      *(first + n)] in increasing order, as the loop
      [for (; first != last; ++first, ++result) *result = *first;].  The input
      range is given by its values.  [std::move] ([alg.move]) performs the same
      assignments for values that are copied when moved. *)
  Fixpoint std_copy (xs : list A) (mem : list S) (result : piter)
    : option (list S * piter) :=
    match xs with
    | [] => Some (mem, result)
    | x :: xs' =>
      obind (pi_assign mem (pi_deref result) x) (fun r =>
      std_copy xs' (fst r) (pi_preinc result))
    end.

  (** [std::copy_if], [alg.copy]: only the selected values are assigned and
      only then is the output iterator incremented. *)
  Fixpoint std_copy_if (p : A -> bool) (xs : list A) (mem : list S) (result : piter)
    : option (list S * piter) :=
    match xs with
    | [] => Some (mem, result)
    | x :: xs' =>
      if p x
      then obind (pi_assign mem (pi_deref result) x) (fun r =>
           std_copy_if p xs' (fst r) (pi_preinc result))
      else std_copy_if p xs' mem result
    end.

  (** [std::transform] with one input range, [alg.transform]. *)
  Fixpoint std_transform {B : Type} (f : B -> A) (xs : list B) (mem : list S) (result : piter)
    : option (list S * piter) :=
    match xs with
    | [] => Some (mem, result)
    | x :: xs' =>
      obind (pi_assign mem (pi_deref result) (f x)) (fun r =>
      std_transform f xs' (fst r) (pi_preinc result))
    end.

  (** [std::copy_n]/[std::fill_n] style loop written with postfix increments:
      [*result++ = *first++;]. *)
  Fixpoint post_copy (xs : list A) (mem : list S) (result : piter)
    : option (list S * piter) :=
    match xs with
    | [] => Some (mem, result)
    | x :: xs' =>
      obind (pi_assign mem (pi_deref (pi_postinc result)) x) (fun r =>
      post_copy xs' (fst r) (snd r))
    end.

  (** A program that uses several iterators, interleaved, through any of the
      operations of iterator.hpp:42-61. *)
  Inductive pi_op : Type :=
  | Write (it : piter) (x : A)      (* *it = x; *)
  | WriteInc (it : piter) (x : A).  (* *it++ = x; *)

  Definition pi_step (mem : list S) (o : pi_op) : option (list S) :=
    match o with
    | Write it x => obind (pi_assign mem (pi_deref it) x) (fun r => Some (fst r))
    | WriteInc it x =>
      obind (pi_assign mem (pi_deref (pi_postinc it)) x) (fun r => Some (fst r))
    end.

  (** A sequence of such calls (iterator.hpp:42-61). *)
  Fixpoint pi_program (mem : list S) (os : list pi_op) : option (list S) :=
    match os with
    | [] => Some mem
    | o :: os' => obind (pi_step mem o) (fun mem' => pi_program mem' os')
    end.
End Algorithms.
Arguments Write {A} it x.
Arguments WriteInc {A} it x.

(** The call [o] writes the value [snd w] through an iterator obtained by
    [push_inserter] from the container at address [fst w], with or without a
    postfix increment (iterator.hpp:42-61). *)
Definition write_of {A : Type} (o : @pi_op A) (w : nat * A) : Prop :=
  o = Write (push_inserter (fst w)) (snd w) \/ o = WriteInc (push_inserter (fst w)) (snd w).
