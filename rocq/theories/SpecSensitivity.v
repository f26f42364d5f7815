(** * Specification: small errors in the data *)

From Coq Require Import Reals List.
From Verif Require Import Arith History.

(** Two histories with the calls of clear() in the same places, whose values are
    related pairwise. *)
Definition related {A : Type} (r : A -> A -> Prop) (ops ops' : list (op A)) : Prop :=
  Forall2 (fun o o' =>
    match o, o' with
    | Push a, Push b => r a b
    | Clear, Clear => True
    | _, _ => False
    end) ops ops'.

(** Every value of the second history differs from that of the first by at most
    [d]. *)
Definition perturbed (d : R) : list (op R) -> list (op R) -> Prop :=
  related (fun a b => (Rabs (a - b) <= d)%R).

(** The same for pairs, with a bound for each component. *)
Definition perturbed2 (d e : R) : list (op (R * R)) -> list (op (R * R)) -> Prop :=
  related (fun p q => (Rabs (fst p - fst q) <= d /\ Rabs (snd p - snd q) <= e)%R).

(** Two lists of the same length whose elements differ by at most [d]. *)
Definition nearby (d : R) (l l' : list R) : Prop := Forall2 (fun a b => (Rabs (a - b) <= d)%R) l l'.

(** The same for pairs, with a bound for each component. *)
Definition nearby2 (d e : R) (l l' : list (R * R)) : Prop :=
  Forall2 (fun p q => (Rabs (fst p - fst q) <= d /\ Rabs (snd p - snd q) <= e)%R) l l'.

(** Both results are finite and differ by at most [d]. *)
Definition apart (d : R) (x y : xreal) : Prop :=
  match x, y with
  | Fin a, Fin b => (Rabs (a - b) <= d)%R
  | _, _ => False
  end.

(** Both results are finite and not negative, and their square roots differ by at
    most [d]. *)
Definition roots_apart (d : R) (x y : xreal) : Prop :=
  match x, y with
  | Fin a, Fin b => (0 <= a /\ 0 <= b /\ Rabs (sqrt a - sqrt b) <= d)%R
  | _, _ => False
  end.
