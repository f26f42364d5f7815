(** * Property theorems: PsquareStall

    Statements only; every proof is [exact] of a lemma in ClaimsPsquareStall.v.
    Generated by tools/mkprops.py. *)

From Coq Require Import QArith Reals ZArith NArith List Bool.
From Coq Require Import Floats.SpecFloat.
From Flocq Require Import Core.
From Verif Require Import Arith History Psquare Ieee.
Import ListNotations.
Local Open Scope R_scope.
From Verif Require Import ClaimsPsquareStall.

(** C112_median_stalls: in a value type with [prec] bits, once [2^(prec+4)] zeros
    have been pushed onto a median estimator, any number of ones leaves value() at
    exactly 0: the desired position of the median marker has stopped growing. *)
Theorem C112_median_stalls : forall (prec emax : Z) (a b : nat),
  (5 <= prec)%Z -> (prec + 2 <= emax)%Z -> (66 < emax)%Z ->
  (2 ^ (prec + 4) <= Z.of_nat a)%Z -> (N.of_nat a + N.of_nat b < szmod)%N ->
  let F := ieee prec emax in
  let qs := [ratio_value F (1 # 2)] in
  let one := ieee_of_Z prec emax 1 in
  let zero := ieee_of_Z prec emax 0 in
  exists v, psq_get_default F qs (run (psq_push F qs) (psq_clear F qs) (psq_init F qs) (pushes (repeat zero a ++ repeat one b))) = Some v /\
  ieee_finite prec emax v /\ ieee_real v = 0.
Proof. exact c112_median_stalls. Qed.
Print Assumptions C112_median_stalls.

(** C112_median_stalls_ex: float, 2^28 zeros and a hundred times as many ones. *)
Example C112_median_stalls_ex : exists a b : nat,
  (5 <= 24)%Z /\ (24 + 2 <= 128)%Z /\ (66 < 128)%Z /\ (2 ^ (24 + 4) <= Z.of_nat a)%Z /\ b = (100 * a)%nat /\ (N.of_nat a + N.of_nat b < szmod)%N.
Proof. exact c112_median_stalls_ex. Qed.

(** C112_median_refuted: in float, in double and in every format of up to 53
    bits there is a stream of zeros and ones, 99 of 100 values being 1, whose median
    according to value() is 0. *)
Theorem C112_median_refuted : forall (prec emax : Z),
  (5 <= prec <= 53)%Z -> (prec + 2 <= emax)%Z -> (66 < emax)%Z ->
  exists a b : nat, (Z.of_nat b = 99 * Z.of_nat a)%Z /\ (Z.of_nat (a + b) <= 2 ^ (prec + 11))%Z /\
  let F := ieee prec emax in
  let qs := [ratio_value F (1 # 2)] in
  let l := repeat (ieee_of_Z prec emax 0) a ++ repeat (ieee_of_Z prec emax 1) b in
  Forall (ieee_finite prec emax) l /\
  ieee_real (ieee_of_Z prec emax 0) = 0 /\ ieee_real (ieee_of_Z prec emax 1) = 1 /\
  exists v, psq_get_default F qs (run (psq_push F qs) (psq_clear F qs) (psq_init F qs) (pushes l)) = Some v /\ ieee_real v = 0.
Proof. exact c112_median_refuted. Qed.
Print Assumptions C112_median_refuted.

(** C112_median_refuted_ex: float and double are such formats. *)
Example C112_median_refuted_ex : ((5 <= 24 <= 53)%Z /\ (24 + 2 <= 128)%Z /\ (66 < 128)%Z) /\ ((5 <= 53 <= 53)%Z /\ (53 + 2 <= 1024)%Z /\ (66 < 1024)%Z).
Proof. exact c112_median_refuted_ex. Qed.
