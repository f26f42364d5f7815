(** * The tolerance test close_to

    Models include/trial/online/detail/functional.hpp:23-40. *)

From Verif Require Import Arith.
Local Open Scope num_scope.

Section CloseTo.
  Context {n : num}.

  (** The data members, functional.hpp:38-39. *)
  Record closeness := Closeness { ct_relative : n; ct_absolute : n }.

  (** The constructor with its default arguments, functional.hpp:26-30. *)
  Definition ct_default : closeness := Closeness neps nmin.
  (** One explicit argument, functional.hpp:26-30. *)
  Definition ct_relative_only (relative : n) : closeness := Closeness relative nmin.

  (** [operator()], functional.hpp:32-35; [std::max(a, b)] is [a < b ? b : a]. *)
  Definition close_to (t : closeness) (lhs rhs : n) : bool :=
    nlt (nabs (lhs - rhs))
        (nmax (ct_relative t * nmax (nabs lhs) (nabs rhs)) (ct_absolute t)).
End CloseTo.
Arguments closeness n : clear implicits.
