(** * Arithmetic with bounded errors

    A value type in which every operation whose exact result is at most [B] in
    magnitude is exact up to a relative error [e] and an absolute error [t].
    The rounded formats and binary64 are instances (ApproxInstances.v). *)

From Coq Require Import Reals ZArith NArith List Lra Lia.
From Flocq Require Import Core.
From Verif Require Import Arith.
Local Open Scope R_scope.

(** [r] is [x] up to the error of one operation. *)
Definition near (e t x r : R) : Prop := Rabs (r - x) <= e * Rabs x + t.

(** [val x r]: the value [x] denotes the number [r]. *)
Record approx (F : num) (val : F -> R -> Prop) (B e t : R) (K : N) : Prop := Approx {
  ap_e : 0 <= e <= 1;
  ap_t : 0 <= t;
  ap_0 : val n0 0;
  ap_1 : val n1 1;
  ap_count : forall k, (1 <= k <= K)%N -> val (nofsz k) (IZR (Z.of_N k));
  ap_add : forall x y a b, val x a -> val y b -> Rabs (a + b) <= B ->
    exists r, val (nadd x y) r /\ near e t (a + b) r;
  ap_sub : forall x y a b, val x a -> val y b -> Rabs (a - b) <= B ->
    exists r, val (nsub x y) r /\ near e t (a - b) r;
  ap_mul : forall x y a b, val x a -> val y b -> Rabs (a * b) <= B ->
    exists r, val (nmul x y) r /\ near e t (a * b) r;
  ap_div : forall x y a b, val x a -> val y b -> b <> 0 -> Rabs (a / b) <= B ->
    exists r, val (ndiv x y) r /\ near e t (a / b) r;
  ap_lt : forall x y a b, val x a -> val y b -> nlt x y = Rlt_bool a b
}.
