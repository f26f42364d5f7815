(** * Property theorems: Outlier

    Statements only; every proof is [exact] of a lemma in ClaimsOutlier.v.
    Generated by tools/mkprops.py. *)

From Coq Require Import QArith Reals ZArith NArith List Bool Sorting.Sorted.
From Coq Require Import Floats.SpecFloat.
From Verif Require Import Arith History SpecPsquare Psquare ExactRuns PsquareRuns.
Import ListNotations.
Local Open Scope R_scope.

(** All values but at most one are between [lo] and [hi]. *)
Definition but_one_within (lo hi : R) (l : list R) : Prop :=
  exists l1 x l2, l = l1 ++ x :: l2 /\ Forall (fun y => lo <= y <= hi) (l1 ++ l2).
From Verif Require Import ClaimsOutlier.

(** C116_few_partial: of three, four or five values, all but one between lo
    and hi, the median estimate is between lo and hi, however far off the remaining
    value is.  Missing: six and more values, for which this is false. *)
Theorem C116_few_partial : forall (eps : R) (ops : list (op R)) (lo hi : R),
  let l := since_clear ops in
  (3 <= length l <= 5)%nat -> but_one_within lo hi l ->
  exists v, psq_get (exact eps) (rqs eps [/ 2]) (run_psq eps [/ 2] ops) 1 = Some (Fin v) /\ lo <= v <= hi.
Proof. exact c116_few_partial. Qed.
Print Assumptions C116_few_partial.

(** C116_few_partial_ex: four values, one of which is a million. *)
Example C116_few_partial_ex : let l := since_clear (pushes [1; 1000000; 3; 2]) in
  (3 <= length l <= 5)%nat /\ but_one_within 1 3 l.
Proof. exact c116_few_partial_ex. Qed.

(** C116_refuted: for every bound there are six values, five of them 0 or 1
    and therefore with a median between 0 and 1, whose median estimate is below the
    negative of that bound. *)
Theorem C116_refuted : forall B : R, exists l : list R,
  length l = 6%nat /\ but_one_within 0 1 l /\
  (forall s, order_statistics l s -> 0 <= (nth 2 s 0 + nth 3 s 0) / 2 <= 1) /\
  forall eps, exists v, psq_get (exact eps) (rqs eps [/ 2]) (run_psq eps [/ 2] (pushes l)) 1 = Some (Fin v) /\ v < - B.
Proof. exact c116_refuted. Qed.
Print Assumptions C116_refuted.

(** C116_any_number_refuted: nor does a larger number of values help: however
    many zeros are pushed and whatever the bound, there is a single value that makes
    the median estimate of the zeros and this value exceed the bound. *)
Theorem C116_any_number_refuted : forall (n : nat) (B : R), (N.of_nat (n + 8) < szmod)%N ->
  exists M, let l := [0; 0; 0; 0; M] ++ repeat 0 (n + 3) in
  but_one_within 0 0 l /\
  forall eps, exists v, psq_get (exact eps) (rqs eps [/ 2]) (run_psq eps [/ 2] (pushes l)) 1 = Some (Fin v) /\ B < v.
Proof. exact c116_any_number_refuted. Qed.
Print Assumptions C116_any_number_refuted.

(** C116_double_refuted: the same in double: five values 0 or 1, one value of
    minus a million, and a median estimate of minus 111110. *)
Theorem C116_double_refuted : exists l : list Z,
  length l = 6%nat /\ but_one_within 0 1 (map IZR l) /\
  let q := ratio_value b64num (1 # 2) in
  let s := run (psq_push b64num [q]) (psq_clear b64num [q]) (psq_init b64num [q]) (pushes (map b64_of_Z l)) in
  match psq_get_default b64num [q] s with Some v => SFltb v (b64_of_Z (-111110)) = true | None => False end.
Proof. exact c116_double_refuted. Qed.
Print Assumptions C116_double_refuted.

(** C116_any_number_refuted_ex: a thousand zeros. *)
Example C116_any_number_refuted_ex : (N.of_nat (993 + 8) < szmod)%N.
Proof. exact c116_any_number_ex. Qed.

(** C116_double_many_refuted: in double, 999 zeros and one value of 10^200 have
    a median estimate above 10^190. *)
Theorem C116_double_many_refuted : exists l : list Z,
  length l = 1000%nat /\ but_one_within 0 0 (map IZR l) /\
  let q := ratio_value b64num (1 # 2) in
  let s := run (psq_push b64num [q]) (psq_clear b64num [q]) (psq_init b64num [q]) (pushes (map b64_of_Z l)) in
  match psq_get_default b64num [q] s with Some v => SFltb (b64_of_Z (10 ^ 190)) v = true | None => False end.
Proof. exact c116_double_many_refuted. Qed.
Print Assumptions C116_double_many_refuted.
