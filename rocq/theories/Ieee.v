(** * IEEE arithmetic of any precision and exponent range

    The value type T of the filters may be float, double or a wider type.
    [ieee prec emax] is the arithmetic with [prec] bits of significand and numbers
    below 2^emax; [ieee 53 1024] is [b64num] (theorem C110_double). *)

From Coq Require Import Reals ZArith NArith Bool.
From Coq Require Import Floats.SpecFloat.
From Flocq Require Import Core.
From Flocq Require Import IEEE754.BinarySingleNaN.
From Verif Require Import Arith.

(** Nearest number of the format of an integer, [conv.fpint]; the conversions of
    counts, e.g. cumulative/detail/moment.ipp:39. *)
Definition ieee_of_Z (prec emax : Z) (z : Z) : spec_float := SpecFloat.binary_normalize prec emax z 0 false.

(** [std::floor], quantile/detail/psquare.ipp:189, as in [b64_floor]. *)
Definition ieee_floor (prec emax : Z) (x : spec_float) : spec_float :=
  match x with
  | S754_finite s m e =>
    if (0 <=? e)%Z then x
    else SpecFloat.binary_normalize prec emax ((cond_Zopp s (Zpos m)) / Z.pow 2 (- e))%Z 0 s
  | _ => x
  end.

(** The instance for a value type T with std::numeric_limits<T>::digits equal to
    [prec] and max_exponent equal to [emax]; epsilon() is 2^(1-prec)
    (cumulative/detail/moment.ipp:108,153), min() is 2^(2-emax)
    (detail/functional.hpp:27). *)
Definition ieee (prec emax : Z) : num := {|
  carrier := spec_float;
  nadd := SFadd prec emax;
  nsub := SFsub prec emax;
  nmul := SFmul prec emax;
  ndiv := SFdiv prec emax;
  nsqrt := SFsqrt prec emax;
  nfloor := ieee_floor prec emax;
  nabs := SFabs;
  nlt := SFltb;
  nle := SFleb;
  neq := SFeqb;
  nofsz := fun n => ieee_of_Z prec emax (Z.of_N n);
  nofz := ieee_of_Z prec emax;
  neps := S754_finite false (Z.to_pos (2 ^ (prec - 1))) (2 - 2 * prec);
  nmin := S754_finite false (Z.to_pos (2 ^ (prec - 1))) (3 - emax - prec);
  ntosz := b64_tosz
|}.

(** A finite number of the format (not a definition of the code). *)
Definition ieee_finite (prec emax : Z) (x : spec_float) : Prop :=
  valid_binary prec emax x = true /\ is_finite_SF x = true.
(** A number, an infinity or NaN of the format (not a definition of the code). *)
Definition ieee_valid (prec emax : Z) (x : spec_float) : Prop := valid_binary prec emax x = true.
(** The real number denoted (not a definition of the code). *)
Definition ieee_real (x : spec_float) : R := SF2R radix2 x.
