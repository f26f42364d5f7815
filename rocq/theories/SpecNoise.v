(** * Noise of an estimate

    Nothing here mentions the filters: mean and variance of a reported number
    over all possible observations, and the chance of a large error. *)

From Coq Require Import Reals List.
From Verif Require Import Arith SpecStats SpecExpectation.
Import ListNotations.
Local Open Scope R_scope.

(** The result reported for every possible list of observations is a number; its
    expected value is [m] and the expected square of its distance from it is [v]. *)
Definition noise {A} (Ds : list (dist A)) (result : list A -> xreal) (m v : R) : Prop :=
  exists f, (forall l, length l = length Ds -> result l = Fin (f l)) /\
            expect_each Ds f = m /\ expect_each Ds (fun l => (f l - m) ^ 2) = v.

(** The probability that a number at least [t] away from [m] is reported. *)
Definition chance_off {A} (Ds : list (dist A)) (result : list A -> xreal) (m t p : R) : Prop :=
  exists f, (forall l, length l = length Ds -> result l = Fin (f l)) /\
            expect_each Ds (fun l => if Rle_dec t (Rabs (f l - m)) then 1 else 0) = p.

(** Sum of squares. *)
Definition energy (c : list R) : R := Rsum (map (fun a => a * a) c).
