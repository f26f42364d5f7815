(** * C++ integer arithmetic

    The filters are class templates over any arithmetic type; this file gives
    the meaning of their expressions when the value type is an integer type, on
    an implementation with 32-bit [int], 64-bit [std::size_t] and modular
    conversions (guaranteed since C++20, and what GCC and Clang define before).
    [None] is undefined behaviour. *)

From Coq Require Import ZArith NArith Bool List.
From Verif Require Import History.
Import ListNotations.
Local Open Scope Z_scope.

(** The integer types the static assertions of cumulative/moment.hpp:35-36,
    window/moment.hpp:37-38, interim/detail/moment.ipp:27-28 and
    impulse/finite.hpp:35 admit. *)
Record ity : Type := ITy { isigned : bool; ibits : Z }.

(** The standard integer types on the assumed implementation (used as value
    types, e.g. test/cumulative/moment_suite.cpp:136, and [std::size_t] of
    cumulative/moment.hpp:40). *)
Definition int8 := ITy true 8.
(** [std::int16_t] *)
Definition int16 := ITy true 16.
(** [int] *)
Definition int32 := ITy true 32.
(** [std::int64_t] *)
Definition int64 := ITy true 64.
(** [std::uint8_t] *)
Definition uint8 := ITy false 8.
(** [std::uint16_t] *)
Definition uint16 := ITy false 16.
(** [unsigned] *)
Definition uint32 := ITy false 32.
(** [std::size_t], cumulative/moment.hpp:40 *)
Definition uint64 := ITy false 64.
(** All of them (the static assertion cumulative/moment.hpp:35). *)
Definition all_ity : list ity := [int8; int16; int32; int64; uint8; uint16; uint32; uint64].

(** Smallest and largest value ([basic.fundamental]); types of
    cumulative/moment.hpp:35. *)
Definition imin (t : ity) : Z := if isigned t then - 2 ^ (ibits t - 1) else 0.
(** Largest value ([basic.fundamental]); types of cumulative/moment.hpp:35. *)
Definition imax (t : ity) : Z := if isigned t then 2 ^ (ibits t - 1) - 1 else 2 ^ ibits t - 1.

(** Conversion to an integer type ([conv.integral]): [value_type(...)] at
    cumulative/detail/moment.ipp:60, and the conversion of results back to the
    value type. *)
Definition wrap (t : ity) (z : Z) : Z :=
  let m := z mod 2 ^ ibits t in
  if isigned t && (2 ^ (ibits t - 1) <=? m) then m - 2 ^ ibits t else m.

(** Integral promotion ([conv.prom]) applied to every operand, e.g. of
    [input - member.mean] at cumulative/detail/moment.ipp:60. *)
Definition promote (t : ity) : ity := if ibits t <? 32 then int32 else t.

(** Usual arithmetic conversions ([expr.arith.conv]) on promoted operands, e.g.
    of [passive.mean() * (W - sz)] at interim/detail/moment.ipp:103. *)
Definition common (a b : ity) : ity :=
  if Bool.eqb (isigned a) (isigned b) then (if ibits a <? ibits b then b else a)
  else
    let u := if isigned a then b else a in
    let s := if isigned a then a else b in
    if ibits u <? ibits s then s else u.

(** The result of an operator whose mathematical value is [z]: signed overflow
    is undefined ([expr.pre]), unsigned results are modular ([basic.fundamental]).
    Operators of cumulative/detail/moment.ipp:60 and the others below. *)
Definition iresult (t : ity) (z : Z) : option Z :=
  if isigned t
  then (if (imin t <=? z) && (z <=? imax t) then Some z else None)
  else Some (wrap t z).

(** Operators at operands already converted to [t]:
    cumulative/detail/moment.ipp:60, interim/detail/moment.ipp:103-104. *)
Definition iadd (t : ity) (a b : Z) : option Z := iresult t (a + b).
(** [a - b], cumulative/detail/moment.ipp:60. *)
Definition isub (t : ity) (a b : Z) : option Z := iresult t (a - b).
(** [a * b], cumulative/detail/moment.ipp:53,91. *)
Definition imul (t : ity) (a b : Z) : option Z := iresult t (a * b).
(** Division truncates; a zero divisor is undefined ([expr.mul]). *)
Definition idiv (t : ity) (a b : Z) : option Z :=
  if b =? 0 then None else iresult t (Z.quot a b).

(** Sequencing: undefined behaviour is final. *)
Definition bind {A B : Type} (x : option A) (f : A -> option B) : option B :=
  match x with Some a => f a | None => None end.
Notation "x <- e ;; k" := (bind e (fun x => k))
  (at level 61, e at next level, right associativity).

(** Histories of operations that may have undefined behaviour. *)
Definition run_opt {S A : Type} (push : S -> A -> option S) (clear : S -> S)
  (s : S) (ops : list (op A)) : option S :=
  fold_left (fun o op => s <- o ;;
    match op with Push a => push s a | Clear => Some (clear s) end) ops (Some s).
