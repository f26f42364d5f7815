(** * Specification of exponential weighting *)

From Coq Require Import Reals List.
From Verif Require Import History.
Import ListNotations.
Local Open Scope R_scope.

(** sum_i q^(n-1-i) x_i, for x_0 (oldest) ... x_(n-1) *)
Fixpoint esum (q : R) (l : list R) : R :=
  match l with
  | [] => 0
  | x :: l' => q ^ length l' * x + esum q l'
  end.

(** Normalised exponentially weighted mean with smoothing factor [f]. *)
Definition ewma (f : R) (l : list R) : R :=
  esum (1 - f) l / esum (1 - f) (map (fun _ => 1) l).

(** Deviations of each value from the exponentially weighted mean of the values
    up to and including it. *)
Fixpoint deviations_from (f : R) (pre l : list R) : list R :=
  match l with
  | [] => []
  | x :: l' => (x - ewma f (pre ++ [x])) :: deviations_from f (pre ++ [x]) l'
  end.
Definition deviations (f : R) (l : list R) : list R := deviations_from f [] l.

(** Exponentially weighted k-th moment of the deviations. *)
Definition emoment (k : nat) (fm f : R) (l : list R) : R :=
  ewma f (map (fun d => d ^ k) (deviations fm l)).

(** Number of values pushed during a history, ignoring clears. *)
Definition pushed {A} (ops : list (op A)) : nat :=
  length (filter (fun o => match o with Push _ => true | Clear => false end) ops).
