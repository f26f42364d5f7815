(** * Specification: comparing two ranges *)

From Coq Require Import List Arith.
Import ListNotations.

(** The positions, counted from [i], where both ranges have an element and the
    elements do not match, with the elements. *)
Fixpoint differences {A B : Type} (p : A -> B -> bool) (i : nat) (l : list A) (m : list B)
  : list (nat * A * B) :=
  match l, m with
  | a :: l', b :: m' =>
      if p a b then differences p (S i) l' m' else (i, a, b) :: differences p (S i) l' m'
  | _, _ => []
  end.

(** Both ranges have the same length and match element by element. *)
Definition matching {A B : Type} (p : A -> B -> bool) (l : list A) (m : list B) : Prop :=
  Forall2 (fun a b => p a b = true) l m.
