(** * Comparison of the saved parameters of the P-square estimator *)

From Coq Require Import NArith List Bool.
From Verif Require Import Arith.
Import ListNotations.

Section Parameters.
Context (F : num).

(** quantile/psquare.hpp:79-83: parameter_type::operator== *)
Definition parameter_eq (a b : N * F) : bool :=
  ((fst a =? fst b)%N && neq (snd a) (snd b))%bool.

(** [operator==] of [std::vector<parameter_type>] (C++ standard library, not
    part of /repo): equal sizes and equal elements.  parameters() at
    quantile/psquare.hpp:88 returns such a vector. *)
Fixpoint parameters_eq (a b : list (N * F)) : bool :=
  match a, b with
  | [], [] => true
  | x :: a, y :: b => (parameter_eq x y && parameters_eq a b)%bool
  | _, _ => false
  end.

End Parameters.
