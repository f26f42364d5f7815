(** * Expected values

    Nothing here mentions the filters: finite probability distributions and the
    expected value of a function of independent observations. *)

From Coq Require Import Reals List.
From Verif Require Import Arith SpecStats.
Import ListNotations.
Local Open Scope R_scope.

(** Outcomes with their probabilities. *)
Definition dist (A : Type) : Type := list (R * A).
Definition probability {A} (D : dist A) : Prop :=
  Forall (fun p => 0 <= fst p) D /\ Rsum (map fst D) = 1.

(** Expected value of a function of one observation. *)
Definition expect {A} (D : dist A) (f : A -> R) : R :=
  Rsum (map (fun p => fst p * f (snd p)) D).

(** Expected value of a function of independent observations, the i-th of them
    drawn from the i-th distribution. *)
Fixpoint expect_each {A} (Ds : list (dist A)) (f : list A -> R) : R :=
  match Ds with
  | [] => f []
  | D :: Ds' => expect D (fun x => expect_each Ds' (fun l => f (x :: l)))
  end.

(** ... of [n] observations of the same distribution. *)
Definition expect_sample {A} (D : dist A) (n : nat) (f : list A -> R) : R :=
  expect_each (repeat D n) f.

(** Mean, variance and covariance of a distribution. *)
Definition pop_mean (D : dist R) : R := expect D (fun x => x).
Definition pop_variance (D : dist R) : R := expect D (fun x => (x - pop_mean D) ^ 2).
Definition pop_covariance (D : dist (R * R)) : R :=
  expect D (fun p => (fst p - expect D fst) * (snd p - expect D snd)).

(** Third standardised moment. *)
Definition pop_skewness (D : dist R) : R :=
  expect D (fun x => (x - pop_mean D) ^ 3) / (pop_variance D * sqrt (pop_variance D)).

(** The result reported for every possible list of observations is a number, and
    its expected value is [v]. *)
Definition expected {A} (Ds : list (dist A)) (result : list A -> xreal) (v : R) : Prop :=
  exists f, (forall l, length l = length Ds -> result l = Fin (f l)) /\ expect_each Ds f = v.
