(** * Specification: values that are not numbers of the real line *)

From Coq Require Import Floats.SpecFloat.
From Verif Require Import Arith.

(** An infinity or NaN ([std::isfinite] is false). *)
Definition nonfinite (x : b64) : Prop := x = S754_nan \/ exists s, x = S754_infinity s.
