(** * Model of include/trial/online/moment/: the deprecated names *)

From Coq Require Import ZArith NArith QArith_base.
From Verif Require Import Arith Decay Window.

Section Exponential.
Variable F : num.
Variable ratio : Q.   (* MeanRatio, moment/exponential.hpp:28, in lowest terms *)

(** moment/exponential.hpp:38: [MeanRatio::num / value_type(MeanRatio::den)]; the
    numerator is converted to [value_type] as well. *)
Definition exponential_factor : F := ndiv (nofz (Qnum ratio)) (nofz (Zpos (Qden ratio))).

(** moment/exponential.hpp:28-32: the class has no members of its own. *)
Definition exponential : Type := dmean F.

(** moment/exponential.hpp:37-39; [None] is the failed assertion of
    decay/detail/moment.ipp:30-31. *)
Definition exponential_new : option exponential :=
  if factor_ok F exponential_factor then Some (dmean_init F exponential_factor) else None.

(** moment/exponential.hpp:41 *)
Definition exponential_clear (s : exponential) : exponential := dmean_clear F s.

(** moment/exponential.hpp:42 *)
Definition exponential_push (s : exponential) (input : F) : exponential := dmean_push F s input.

(** moment/exponential.hpp:43 *)
Definition exponential_value (s : exponential) : F := dmean_mean F s.
End Exponential.

Section Arithmetic.
Variable F : num.
Variable W : nat.   (* N *)

(** moment/arithmetic.hpp:27-28 *)
Definition arithmetic : Type := wmean F.
(** moment/arithmetic.hpp:27-28: members of the alias's target *)
Definition arithmetic_init : arithmetic := wmean_init F.
(** moment/arithmetic.hpp:27-28 *)
Definition arithmetic_clear (s : arithmetic) : arithmetic := wmean_clear F s.
(** moment/arithmetic.hpp:27-28 *)
Definition arithmetic_push (s : arithmetic) (input : F) : arithmetic := wmean_push F W s input.
(** moment/arithmetic.hpp:27-28 *)
Definition arithmetic_mean (s : arithmetic) : F := wmean_mean F s.

(** moment/arithmetic.hpp:30-31 *)
Definition arithmetic_variance : Type := wvar F.
(** moment/arithmetic.hpp:30-31: members of the alias's target *)
Definition arithmetic_variance_init : arithmetic_variance := wvar_init F.
(** moment/arithmetic.hpp:30-31 *)
Definition arithmetic_variance_clear (s : arithmetic_variance) : arithmetic_variance := wvar_clear F s.
(** moment/arithmetic.hpp:30-31 *)
Definition arithmetic_variance_push (s : arithmetic_variance) (input : F) : arithmetic_variance :=
  wvar_push F W s input.
(** moment/arithmetic.hpp:30-31 *)
Definition arithmetic_variance_mean (s : arithmetic_variance) : F := wvar_mean F s.
(** moment/arithmetic.hpp:30-31 *)
Definition arithmetic_variance_variance (s : arithmetic_variance) : F := wvar_variance F s.
End Arithmetic.
