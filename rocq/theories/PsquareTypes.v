(** * Model of how psquare selects a quantile by type

    [Psquare.psq_value] takes the template arguments as rationals.  Here they are
    the types of the program: [std::ratio<N, D>] is the pair of the numbers as
    they are written, two such types are the same type when both numbers are the
    same, and a call is either rejected by the compiler or it returns a value. *)

From Coq Require Import ZArith NArith Bool List.
From Verif Require Import Arith Psquare.
Import ListNotations.

(** The type [std::ratio<N, D>] as written, e.g. at quantile/psquare.hpp:37-38,109-111. *)
Record cratio : Type := CRatio { written_num : Z; written_den : Z }.

(** The members [num] and [den] used at quantile/psquare.hpp:99: [std::ratio]
    reduces to lowest terms and makes the denominator positive. *)
Definition cratio_num (r : cratio) : Z :=
  (Z.sgn (written_den r) * written_num r / Z.gcd (written_num r) (written_den r))%Z.
(** quantile/psquare.hpp:99, likewise *)
Definition cratio_den (r : cratio) : Z :=
  (Z.abs (written_den r) / Z.gcd (written_num r) (written_den r))%Z.

(** quantile/psquare.hpp:37 *)
Definition minimum_ratio : cratio := CRatio 0 1.
(** quantile/psquare.hpp:38 *)
Definition maximum_ratio : cratio := CRatio 1 1.

(** [std::ratio_less], used at quantile/psquare.hpp:46 *)
Definition cratio_less (a b : cratio) : bool :=
  (cratio_num a * cratio_den b <? cratio_num b * cratio_den a)%Z.

(** [mp_sort] at quantile/psquare.hpp:46 keeps the order of types that are not
    less than one another; modelled by insertion. *)
Fixpoint cratio_insert (r : cratio) (l : list cratio) : list cratio :=
  match l with
  | [] => [r]
  | x :: t => if cratio_less x r then x :: cratio_insert r t else r :: l
  end.
(** [QuantileList], quantile/psquare.hpp:46 *)
Definition cquantile_list (ratios : list cratio) : list cratio :=
  fold_right cratio_insert [] ([minimum_ratio] ++ ratios ++ [maximum_ratio]).

(** [std::is_same], by which [mp_find] compares at quantile/detail/psquare.ipp:151,161 *)
Definition cratio_same (a b : cratio) : bool :=
  (written_num a =? written_num b)%Z && (written_den a =? written_den b)%Z.

(** [mp_find] at quantile/detail/psquare.ipp:151,161: the position of the first
    occurrence, the length of the list if there is none. *)
Fixpoint cratio_find (r : cratio) (l : list cratio) : nat :=
  match l with
  | [] => 0
  | x :: t => if cratio_same x r then 0 else S (cratio_find r t)
  end.

(** The outcome of a call: the static_assert at quantile/detail/psquare.ipp:161
    fails, or the program compiles and the call returns what [psq_get] says. *)
Inductive outcome (A : Type) : Type :=
| Rejected : outcome A
| Compiled : A -> outcome A.
Arguments Rejected {A}.
Arguments Compiled {A} a.

Section Types.
Variable F : num.

(** quantile/psquare.hpp:99 *)
Definition cquantile (r : cratio) : F :=
  ndiv (nofz (cratio_num r)) (nofz (cratio_den r)).

Variable ratios : list cratio.

(** get<Index>(): quantile/detail/psquare.ipp:156-204 *)
Definition cpsq_get (s : psq F) (index : nat) : outcome (option F) :=
  if (index <=? cratio_find maximum_ratio (cquantile_list ratios))%nat
  then Compiled (psq_get F (map cquantile ratios) s index)
  else Rejected.

(** value<Q>(): quantile/detail/psquare.ipp:146-154 *)
Definition cpsq_value (s : psq F) (q : cratio) : outcome (option F) :=
  cpsq_get s (cratio_find q (cquantile_list ratios)).

(** value() without a template argument: quantile/psquare.hpp:65-68 *)
Definition cpsq_value_default (s : psq F) : outcome (option F) :=
  cpsq_value s (nth (1 + length ratios / 2) (cquantile_list ratios) minimum_ratio).
End Types.
