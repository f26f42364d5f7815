(** * Expressions of a value type T other than double that contain a double

    [std::sqrt(super::size())] (cumulative/detail/moment.ipp:110,122) has type double
    whatever T is, because the argument is an integer ([c.math.syn]). The usual
    arithmetic conversions then evaluate the rest of the expression in the wider of
    double and T, and the result is converted to T on return. [mixed prec emax] is the
    arithmetic with these conversions for a value type T of [prec] bits and numbers
    below 2^emax, as in [Ieee.v]. Counts keep their type until they meet a T or a
    square root. *)

From Coq Require Import ZArith NArith Bool.
From Coq Require Import Floats.SpecFloat.
From Verif Require Import Arith Ieee Cumulative.

(** An expression of type T, of type double, or of type size_t. *)
Inductive cval : Type :=
| OfT (x : spec_float)
| OfDouble (x : spec_float)
| OfSize (n : N).

(** Conversion between floating-point types, [conv.double]; the return statements
    of cumulative/detail/moment.ipp:110,122. Numbers beyond the range become
    infinite, as with IEC 559. *)
Definition convert (prec emax : Z) (x : spec_float) : spec_float :=
  match x with
  | S754_finite s m e => SpecFloat.binary_normalize prec emax (if s then Zneg m else Zpos m) e s
  | _ => x
  end.

Section Mixed.
Variables prec emax : Z.

(** Conversion to T, [conv.double] and [conv.fpint]. *)
Definition as_T (x : cval) : spec_float :=
  match x with
  | OfT x => x
  | OfDouble x => convert prec emax x
  | OfSize n => ieee_of_Z prec emax (Z.of_N n)
  end.

(** Conversion to double, [conv.double] and [conv.fpint]. *)
Definition as_double (x : cval) : spec_float :=
  match x with
  | OfT x => convert 53 1024 x
  | OfDouble x => x
  | OfSize n => ieee_of_Z 53 1024 (Z.of_N n)
  end.

(** Whether the operation is carried out in double: one operand is, and T is not
    wider ([expr.arith.conv]). *)
Definition in_double (x y : cval) : bool :=
  match x, y with
  | OfDouble _, _ => Z.ltb prec 53
  | _, OfDouble _ => Z.ltb prec 53
  | _, _ => false
  end.

(** The usual arithmetic conversions, [expr.arith.conv]. *)
Definition lift (f : Z -> Z -> spec_float -> spec_float -> spec_float) (x y : cval) : cval :=
  if in_double x y then OfDouble (f 53%Z 1024%Z (as_double x) (as_double y))
  else OfT (f prec emax (as_T x) (as_T y)).
(** The same for comparisons. *)
Definition liftb (f : spec_float -> spec_float -> bool) (x y : cval) : bool :=
  if in_double x y then f (as_double x) (as_double y) else f (as_T x) (as_T y).

(** The instance; the square root of an integer has type double
    (cumulative/detail/moment.ipp:110,122), of a T type T. *)
Definition mixed : num := {|
  carrier := cval;
  nadd := lift SFadd;
  nsub := lift SFsub;
  nmul := lift SFmul;
  ndiv := lift SFdiv;
  nsqrt := fun x => match x with
                    | OfT x => OfT (SFsqrt prec emax x)
                    | _ => OfDouble (SFsqrt 53 1024 (as_double x))
                    end;
  nfloor := fun x => OfT (ieee_floor prec emax (as_T x));
  nabs := fun x => OfT (SFabs (as_T x));
  nlt := liftb SFltb;
  nle := liftb SFleb;
  neq := liftb SFeqb;
  nofsz := OfSize;
  nofz := fun z => OfT (ieee_of_Z prec emax z);
  neps := OfT (@neps (ieee prec emax));
  nmin := OfT (@nmin (ieee prec emax));
  ntosz := fun x => @ntosz (ieee prec emax) (as_T x)
|}.

(** cumulative/detail/moment.ipp:106-111, with the conversion of the result to
    [value_type] *)
Definition mskew_skewness (s : cskew mixed) : spec_float := as_T (cskew_skewness mixed s).

(** cumulative/detail/moment.ipp:114-123: [skewness()] has type T, the product with
    the square root is evaluated in the wider type, and the result is converted *)
Definition mskew_unbiased_skewness (s : cskew mixed) : spec_float :=
  let count := cskew_size mixed s in
  if N.ltb count 2 then as_T (@n0 mixed)
  else if nlt (cs_sum mixed s) (@neps mixed) then as_T (@n0 mixed)
  else as_T (@ndiv mixed (@nmul mixed (OfT (mskew_skewness s)) (@nsqrt mixed (@nofsz mixed (szmul count (szsub count 1)))))
                         (OfT (as_T (@nofsz mixed (szsub count 2))))).
End Mixed.
