(** * Specification of the integer filters

    Sums and bounds of integer samples, independent of the model. *)

From Coq Require Import ZArith List.
Import ListNotations.
Local Open Scope Z_scope.

(** Sum of the values. *)
Definition zsum (l : list Z) : Z := fold_right Z.add 0 l.

(** Between the smallest and the largest value of [l]. *)
Definition zhull (m : Z) (l : list Z) : Prop :=
  (exists a, In a l /\ a <= m) /\ (exists b, In b l /\ m <= b).

(** The inner product of two sequences, over the shorter length. *)
Fixpoint zdot (u v : list Z) : Z :=
  match u, v with
  | a :: u', b :: v' => a * b + zdot u' v'
  | _, _ => 0
  end.

(** Sum of the products of the deviations from [mx] and [my]. *)
Definition zcodev (mx my : Z) (l : list (Z * Z)) : Z :=
  zsum (map (fun p => (fst p - mx) * (snd p - my)) l).

(** The arithmetic mean of [l] is an integer. *)
Definition integral_mean (l : list Z) : Prop := (Z.of_nat (length l) | zsum l).

(** The arithmetic mean, when it is an integer. *)
Definition zmean (l : list Z) : Z := zsum l / Z.of_nat (length l).
