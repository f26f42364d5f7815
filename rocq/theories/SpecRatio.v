(** * Specification: the rational number a ratio N/D stands for *)

From Coq Require Import ZArith QArith.

(** The quotient of the two numbers as they are written. *)
Definition quotient (n d : Z) : Q := (inject_Z n / inject_Z d)%Q.

(** In lowest terms with a positive denominator. *)
Definition lowest_terms (n d : Z) : Prop := (0 < d)%Z /\ Z.gcd n d = 1%Z.
