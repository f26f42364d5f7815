(** * The fused multiply-add of an IEEE format

    std::fma and the instruction behind it: the exact value of x * y + z rounded
    once, with the special cases of IEEE 754 (section 5.4.1). *)

From Coq Require Import ZArith Bool.
From Coq Require Import Floats.SpecFloat.
From Flocq Require Import Core.
From Verif Require Import Arith Ieee Contracted.

(** Significand and exponent of a finite number (not a definition of the code). *)
Definition sf_parts (x : spec_float) : Z * Z :=
  match x with
  | S754_finite s m e => (cond_Zopp s (Zpos m), e)
  | _ => (0%Z, 0%Z)
  end.

(** The sign bit (not a definition of the code). *)
Definition sf_sign (x : spec_float) : bool :=
  match x with
  | S754_zero s | S754_infinity s | S754_finite s _ _ => s
  | S754_nan => false
  end.

(** No lines of the code: the operation a compiler emits for [x * y + z] in, e.g.,
    cumulative/detail/moment.ipp:91 and quantile/detail/psquare.ipp:190,258-261. *)
Definition ieee_fma (prec emax : Z) (x y z : spec_float) : spec_float :=
  let s := xorb (sf_sign x) (sf_sign y) in
  match x, y with
  | S754_nan, _ | _, S754_nan => S754_nan
  | S754_infinity _, S754_zero _ | S754_zero _, S754_infinity _ => S754_nan
  | S754_infinity _, _ | _, S754_infinity _ =>
    match z with
    | S754_nan => S754_nan
    | S754_infinity sz => if Bool.eqb s sz then z else S754_nan
    | _ => S754_infinity s
    end
  | _, _ =>
    match z with
    | S754_nan => S754_nan
    | S754_infinity _ => z
    | _ =>
      let (mx, ex) := sf_parts x in
      let (my, ey) := sf_parts y in
      let (mz, ez) := sf_parts z in
      let e := Z.min (ex + ey) ez in
      SpecFloat.binary_normalize prec emax
        (mx * my * 2 ^ (ex + ey - e) + mz * 2 ^ (ez - e))%Z e
        (if Bool.eqb s (sf_sign z) then s else false)
    end
  end.

(** No lines of the code: the fused operations of the format. *)
Definition ieee_fused (prec emax : Z) : fused (ieee prec emax) :=
  Fused (ieee prec emax)
    (ieee_fma prec emax)
    (fun x y z => ieee_fma prec emax x y (SFopp z))
    (fun x y z => ieee_fma prec emax (SFopp x) y z).
