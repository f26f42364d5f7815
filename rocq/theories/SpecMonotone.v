(** * Specification: larger data, larger results *)

From Coq Require Import Reals List.
From Verif Require Import Arith History.

(** Two histories with the calls of clear() in the same places, in which every
    value of the second is at least the value of the first. *)
Definition raised (ops ops' : list (op R)) : Prop :=
  Forall2 (fun o o' =>
    match o, o' with
    | Push a, Push b => (a <= b)%R
    | Clear, Clear => True
    | _, _ => False
    end) ops ops'.

(** Both results are finite and the first is at most the second. *)
Definition at_most (x y : xreal) : Prop :=
  match x, y with
  | Fin a, Fin b => (a <= b)%R
  | _, _ => False
  end.
