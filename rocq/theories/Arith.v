(** * Arithmetic interface and its instances

    The C++ templates are parameterised by an arithmetic [value_type].  The
    model is parameterised by a record [num] of operations, one field per
    C++ operation used by the library, so that every filter is transcribed
    exactly once.

    Instances:
    - [xnum rnd eps tiny]: reals extended with one "not finite" value, every
      operation rounded by [rnd] ([exact] takes [rnd] to be the identity);
    - [b64]: IEEE-754 binary64, bit exact, from the standard library's
      executable [SpecFloat] specification. *)

From Coq Require Import Reals ZArith NArith Bool List.
From Coq Require Import Floats.SpecFloat.
From Flocq Require Import Core.Raux.

(** ** size_t

    [std::size_t] (include/trial/online/cumulative/moment.hpp:40 and every
    other [size_type]) is an unsigned 64-bit integer: arithmetic wraps modulo
    2^64 ([basic.fundamental] in the C++ standard). *)
Definition szmod : N := 18446744073709551616%N. (* 2^64 *)
Definition sz (n : N) : N := (n mod szmod)%N.
(** [a + b] on size_t, e.g. include/trial/online/cumulative/detail/moment.ipp:59
    ([++count]). *)
Definition szadd (a b : N) : N := sz (a + b).
(** [a - b] on size_t, e.g. cumulative/detail/moment.ipp:53. *)
Definition szsub (a b : N) : N := sz (a + (szmod - b mod szmod)).
(** [a * b] on size_t, e.g. cumulative/detail/moment.ipp:122. *)
Definition szmul (a b : N) : N := sz (a * b).

(** ** The interface

    One field per C++ operation on [value_type] that occurs in
    include/trial/online/. *)
Record num : Type := Num {
  carrier :> Type;
  nadd : carrier -> carrier -> carrier;     (* a + b *)
  nsub : carrier -> carrier -> carrier;     (* a - b *)
  nmul : carrier -> carrier -> carrier;     (* a * b *)
  ndiv : carrier -> carrier -> carrier;     (* a / b *)
  nsqrt : carrier -> carrier;               (* std::sqrt *)
  nfloor : carrier -> carrier;              (* std::floor *)
  nabs : carrier -> carrier;                (* std::abs *)
  nlt : carrier -> carrier -> bool;         (* a < b *)
  nle : carrier -> carrier -> bool;         (* a <= b *)
  neq : carrier -> carrier -> bool;         (* a == b *)
  nofsz : N -> carrier;                     (* value_type(size_t), or the
                                               implicit conversion in mixed
                                               expressions *)
  nofz : Z -> carrier;                      (* value_type(int literal) *)
  neps : carrier;                           (* numeric_limits::epsilon() *)
  nmin : carrier;                           (* numeric_limits::min() *)
  ntosz : carrier -> option N               (* size_t(a); None is UB *)
}.

Arguments nadd {_} _ _.
Arguments nsub {_} _ _.
Arguments nmul {_} _ _.
Arguments ndiv {_} _ _.
Arguments nsqrt {_} _.
Arguments nfloor {_} _.
Arguments nabs {_} _.
Arguments nlt {_} _ _.
Arguments nle {_} _ _.
Arguments neq {_} _ _.
Arguments nofsz {_} _.
Arguments nofz {_} _.
Arguments neps {_}.
Arguments nmin {_}.
Arguments ntosz {_} _.

Declare Scope num_scope.
Delimit Scope num_scope with num.
Notation "a + b" := (nadd a b) : num_scope.
Notation "a - b" := (nsub a b) : num_scope.
Notation "a * b" := (nmul a b) : num_scope.
Notation "a / b" := (ndiv a b) : num_scope.
Notation "a <? b" := (nlt a b) : num_scope.
Notation "a <=? b" := (nle a b) : num_scope.
Notation "a =? b" := (neq a b) : num_scope.

(** [value_type(0)], [value_type(1)] ... *)
Definition n0 {F : num} : F := nofz 0%Z.
(** [value_type(1)], e.g. decay/detail/moment.ipp:53. *)
Definition n1 {F : num} : F := nofz 1%Z.

(** [std::max(a, b)] returns [a] unless [a < b] ([alg.min.max]); used by
    include/trial/online/window/detail/moment.ipp:121,132 and
    include/trial/online/detail/functional.hpp. *)
Definition nmax {F : num} (a b : F) : F := if nlt a b then b else a.

(** ** Real-number instances *)

(** A finite value, or a value that is not finite (NaN or infinity). *)
Inductive xreal : Type :=
| Fin (r : R)
| NonFin.

Section XNum.
  Variable rnd : R -> R.
  Variables eps tiny : R.

(** Rounded binary operation (model of value_type operators, no source lines of
      its own). *)
  Definition xlift2 (f : R -> R -> R) (a b : xreal) : xreal :=
    match a, b with
    | Fin x, Fin y => Fin (rnd (f x y))
    | _, _ => NonFin
    end.

  (** Division; a zero divisor gives a value that is not finite. *)
  Definition xdiv (a b : xreal) : xreal :=
    match a, b with
    | Fin x, Fin y => if Req_bool y 0 then NonFin else Fin (rnd (x / y))
    | _, _ => NonFin
    end.

  (** [std::sqrt], cumulative/detail/moment.ipp:110. *)
  Definition xsqrt (a : xreal) : xreal :=
    match a with
    | Fin x => if Rlt_bool x 0 then NonFin else Fin (rnd (sqrt x))
    | NonFin => NonFin
    end.

  (** [std::floor], quantile/detail/psquare.ipp:189. *)
  Definition xfloor (a : xreal) : xreal :=
    match a with
    | Fin x => Fin (IZR (Zfloor x))
    | NonFin => NonFin
    end.

  (** [std::abs], include/trial/online/detail/functional.hpp:34. *)
  Definition xabs (a : xreal) : xreal :=
    match a with
    | Fin x => Fin (Rabs x)
    | NonFin => NonFin
    end.

(** Comparisons are false for a value that is not finite (NaN; infinities are not
      distinguished). *)
  Definition xcmp (f : R -> R -> bool) (a b : xreal) : bool :=
    match a, b with
    | Fin x, Fin y => f x y
    | _, _ => false
    end.

  (** Conversion to size_t truncates; out of range is undefined
      ([conv.fpint]). *)
  Definition xtosz (a : xreal) : option N :=
    match a with
    | Fin x =>
      let z := Ztrunc x in
      if ((0 <=? z) && (z <? Z.of_N szmod))%Z then Some (Z.to_N z) else None
    | NonFin => None
    end.

  (** The instance for value types that round with [rnd]. *)
  Definition xnum : num := {|
    carrier := xreal;
    nadd := xlift2 Rplus;
    nsub := xlift2 Rminus;
    nmul := xlift2 Rmult;
    ndiv := xdiv;
    nsqrt := xsqrt;
    nfloor := xfloor;
    nabs := xabs;
    nlt := xcmp Rlt_bool;
    nle := xcmp Rle_bool;
    neq := xcmp Req_bool;
    nofsz := fun n => Fin (rnd (IZR (Z.of_N n)));
    nofz := fun z => Fin (rnd (IZR z));
    neps := Fin eps;
    nmin := Fin tiny;
    ntosz := xtosz
  |}.
End XNum.

(** Exact real arithmetic with an arbitrary epsilon. *)
Definition exact (eps : R) : num := xnum (fun x => x) eps eps.

(** ** IEEE binary64 *)

Definition b64 : Type := spec_float.

(** Nearest double of an integer, [conv.fpint]. *)
Definition b64_of_Z (z : Z) : b64 := binary_normalize 53 1024 z 0 false.

(** [std::floor] on doubles: integral values, zeros, infinities and NaN are
    returned unchanged; otherwise the floor of m * 2^e, e < 0, is an integer
    below 2^53 and therefore exact. *)
Definition b64_floor (x : b64) : b64 :=
  match x with
  | S754_finite s m e =>
    if (0 <=? e)%Z then x
    else binary_normalize 53 1024
           ((cond_Zopp s (Zpos m)) / Z.pow 2 (- e))%Z 0 s
  | _ => x
  end.

(** [size_t(a)] truncates; out of range is undefined ([conv.fpint]);
    quantile/detail/psquare.ipp:190. *)
Definition b64_tosz (x : b64) : option N :=
  match x with
  | S754_zero _ => Some 0%N
  | S754_finite s m e =>
    let a := if (0 <=? e)%Z then (Zpos m * 2 ^ e)%Z
             else (Zpos m / 2 ^ (- e))%Z in
    if s then (if (a =? 0)%Z then Some 0%N else None)
    else (if (a <? Z.of_N szmod)%Z then Some (Z.to_N a) else None)
  | _ => None
  end.

(** The instance for [double]. *)
Definition b64num : num := {|
  carrier := b64;
  nadd := SFadd 53 1024;
  nsub := SFsub 53 1024;
  nmul := SFmul 53 1024;
  ndiv := SFdiv 53 1024;
  nsqrt := SFsqrt 53 1024;
  nfloor := b64_floor;
  nabs := SFabs;
  nlt := SFltb;
  nle := SFleb;
  neq := SFeqb;
  nofsz := fun n => b64_of_Z (Z.of_N n);
  nofz := b64_of_Z;
  neps := S754_finite false 4503599627370496 (-104);   (* 2^-52 *)
  nmin := S754_finite false 4503599627370496 (-1074);  (* 2^-1022 *)
  ntosz := b64_tosz
|}.
