(** * Property theorems: Stall

    Statements only; every proof is [exact] of a lemma in ClaimsStall.v.
    Generated by tools/mkprops.py. *)

From Coq Require Import Reals ZArith NArith List Bool.
From Coq Require Import Floats.SpecFloat.
From Flocq Require Import Core.
From Verif Require Import Arith History SpecStats Cumulative Ieee.
Import ListNotations.
Local Open Scope R_scope.
From Verif Require Import ClaimsStall.

(** C111_mean_stalls: in a value type with [prec] bits, once [2^(prec+2)] ones
    (for float: 67 million) have been pushed onto the cumulative mean, any number of
    zeros leaves mean() at exactly 1. *)
Theorem C111_mean_stalls : forall (prec emax : Z) (a b : nat),
  (1 < prec)%Z -> (prec + 2 <= emax)%Z -> (64 < emax)%Z ->
  (2 ^ (prec + 2) <= Z.of_nat a)%Z -> (N.of_nat a + N.of_nat b < szmod)%N ->
  let F := ieee prec emax in
  let one := ieee_of_Z prec emax 1 in
  let zero := ieee_of_Z prec emax 0 in
  let m := cmean_mean F (run (cmean_push F) (cmean_clear F) (cmean_init F) (pushes (repeat one a ++ repeat zero b))) in
  ieee_finite prec emax m /\ ieee_real m = 1.
Proof. exact c111_mean_stalls. Qed.
Print Assumptions C111_mean_stalls.

(** C111_mean_stalls_ex: float, as many zeros as ones. *)
Example C111_mean_stalls_ex : exists a b : nat,
  (1 < 24)%Z /\ (24 + 2 <= 128)%Z /\ (64 < 128)%Z /\ (2 ^ (24 + 2) <= Z.of_nat a)%Z /\ (0 < b)%nat /\ (N.of_nat a + N.of_nat b < szmod)%N.
Proof. exact c111_mean_stalls_ex. Qed.

(** C111_mean_refuted: mean() of a stream of finite values in [0,1] may be off
    by 99/100, in float, double and every format of up to 55 bits (float: after
    less than 2^33 values). *)
Theorem C111_mean_refuted : forall (prec emax : Z),
  (1 < prec <= 55)%Z -> (prec + 2 <= emax)%Z -> (64 < emax)%Z ->
  exists l : list spec_float,
  let F := ieee prec emax in
  let m := cmean_mean F (run (cmean_push F) (cmean_clear F) (cmean_init F) (pushes l)) in
  (Z.of_nat (length l) <= 2 ^ (prec + 9))%Z /\
  Forall (fun x => ieee_finite prec emax x /\ 0 <= ieee_real x <= 1) l /\
  ieee_finite prec emax m /\ Rabs (ieee_real m - mean (map ieee_real l)) = 99 / 100.
Proof. exact c111_mean_refuted. Qed.
Print Assumptions C111_mean_refuted.

(** C111_mean_refuted_ex: float and double are such formats. *)
Example C111_mean_refuted_ex : ((1 < 24 <= 55)%Z /\ (24 + 2 <= 128)%Z /\ (64 < 128)%Z) /\ ((1 < 53 <= 55)%Z /\ (53 + 2 <= 1024)%Z /\ (64 < 1024)%Z).
Proof. exact c111_mean_refuted_ex. Qed.

(** C111_variance_refuted: the variance() of a stream of finite values in
    [0,1] may be off by 1/8 although no variance of such values exceeds 1/4. *)
Theorem C111_variance_refuted : forall (prec emax : Z),
  (1 < prec <= 55)%Z -> (prec + 4 < emax)%Z -> (64 < emax)%Z ->
  exists l : list spec_float,
  let F := ieee prec emax in
  let v := cvar_variance F (run (cvar_push F) (cvar_clear F) (cvar_init F) (pushes l)) in
  (Z.of_nat (length l) = 2 ^ (prec + 4))%Z /\
  Forall (fun x => ieee_finite prec emax x /\ 0 <= ieee_real x <= 1) l /\
  ieee_finite prec emax v /\ ieee_real v = / 16 /\ variance (map ieee_real l) = 3 / 16.
Proof. exact c111_variance_refuted. Qed.
Print Assumptions C111_variance_refuted.

(** C111_variance_refuted_ex: float and double are such formats. *)
Example C111_variance_refuted_ex : ((1 < 24 <= 55)%Z /\ (24 + 4 < 128)%Z /\ (64 < 128)%Z) /\ ((1 < 53 <= 55)%Z /\ (53 + 4 < 1024)%Z /\ (64 < 1024)%Z).
Proof. exact c111_variance_refuted_ex. Qed.
