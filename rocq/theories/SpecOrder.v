(** * Vocabulary: arithmetic whose comparisons are a total order on some values *)

From Coq Require Import Reals Bool List.
From Coq Require Import Floats.SpecFloat.
From Verif Require Import Arith.

(** On the values satisfying [P], [<] and [<=] are the strict and non-strict
    versions of one total order. *)
Record total_on (F : num) (P : F -> Prop) : Prop := {
  to_le_lt : forall x y, P x -> P y -> nle x y = negb (nlt y x);
  to_asym : forall x y, P x -> P y -> nlt x y = true -> nlt y x = false;
  to_trans : forall x y z, P x -> P y -> P z ->
    nle x y = true -> nle y z = true -> nle x z = true
}.

(** Smallest and largest elements of a list. *)
Definition is_min (F : num) (l : list F) (m : F) : Prop :=
  In m l /\ forall x, In x l -> nle m x = true.
Definition is_max (F : num) (l : list F) (m : F) : Prop :=
  In m l /\ forall x, In x l -> nle x m = true.

(** Numbers: finite reals, and all binary64 values except NaN. *)
Definition finite_value {rnd eps tiny} (x : xnum rnd eps tiny) : Prop :=
  exists r, x = Fin r.
Definition not_nan (x : b64num) : Prop := x <> S754_nan.
