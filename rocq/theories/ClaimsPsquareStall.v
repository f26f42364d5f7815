(** * Claim C112: the median of a long stream *)

From Coq Require Import QArith Reals ZArith NArith List Bool.
From Coq Require Import Floats.SpecFloat.
From Flocq Require Import Core.
From Verif Require Import Arith History Psquare Ieee.
Import ListNotations.
Local Open Scope R_scope.
(* @end-header *)
From Coq Require Import Lia Lra.
From Verif Require Import HistoryLemmas ClaimsAccuracy IeeeProofs StallProofs PsquareStall ClaimsStall.

(** @prop C112_median_stalls: in a value type with [prec] bits, once [2^(prec+4)] zeros
    have been pushed onto a median estimator, any number of ones leaves value() at
    exactly 0: the desired position of the median marker has stopped growing. *)
Lemma c112_median_stalls : forall (prec emax : Z) (a b : nat),
  (5 <= prec)%Z -> (prec + 2 <= emax)%Z -> (66 < emax)%Z ->
  (2 ^ (prec + 4) <= Z.of_nat a)%Z -> (N.of_nat a + N.of_nat b < szmod)%N ->
  let F := ieee prec emax in
  let qs := [ratio_value F (1 # 2)] in
  let one := ieee_of_Z prec emax 1 in
  let zero := ieee_of_Z prec emax 0 in
  exists v, psq_get_default F qs (run (psq_push F qs) (psq_clear F qs) (psq_init F qs) (pushes (repeat zero a ++ repeat one b))) = Some v /\
  ieee_finite prec emax v /\ ieee_real v = 0.
Proof.
  intros prec emax a b Hp Hm He Ha Hs F q one zero.
  destruct (median_stream prec emax Hp Hm He a b Ha Hs) as (v & E & D).
  exists v. split; [|exact D]. unfold pushes. rewrite run_map_push. exact E.
Qed.

(** @ex C112_median_stalls_ex: float, 2^28 zeros and a hundred times as many ones. *)
Lemma c112_median_stalls_ex : exists a b : nat,
  (5 <= 24)%Z /\ (24 + 2 <= 128)%Z /\ (66 < 128)%Z /\ (2 ^ (24 + 4) <= Z.of_nat a)%Z /\ b = (100 * a)%nat /\ (N.of_nat a + N.of_nat b < szmod)%N.
Proof.
  assert (H : exists a : nat, Z.of_nat a = 268435456%Z) by (exists (Z.to_nat 268435456); apply Z2Nat.id; lia).
  destruct H as [a Ha]. exists a, (100 * a)%nat. do 3 (split; [lia|]). split; [rewrite Ha; reflexivity|].
  split; [reflexivity|]. unfold szmod. lia.
Qed.

(** @prop C112_median_refuted: in float, in double and in every format of up to 53
    bits there is a stream of zeros and ones, 99 of 100 values being 1, whose median
    according to value() is 0. *)
Lemma c112_median_refuted : forall (prec emax : Z),
  (5 <= prec <= 53)%Z -> (prec + 2 <= emax)%Z -> (66 < emax)%Z ->
  exists a b : nat, (Z.of_nat b = 99 * Z.of_nat a)%Z /\ (Z.of_nat (a + b) <= 2 ^ (prec + 11))%Z /\
  let F := ieee prec emax in
  let qs := [ratio_value F (1 # 2)] in
  let l := repeat (ieee_of_Z prec emax 0) a ++ repeat (ieee_of_Z prec emax 1) b in
  Forall (ieee_finite prec emax) l /\
  ieee_real (ieee_of_Z prec emax 0) = 0 /\ ieee_real (ieee_of_Z prec emax 1) = 1 /\
  exists v, psq_get_default F qs (run (psq_push F qs) (psq_clear F qs) (psq_init F qs) (pushes l)) = Some v /\ ieee_real v = 0.
Proof.
  intros prec emax Hp Hm He.
  assert (P0 : (0 < 2 ^ (prec + 4))%Z) by (apply Z.pow_pos_nonneg; lia).
  assert (P57 : (2 ^ (prec + 4) <= 2 ^ 57)%Z) by (apply Z.pow_le_mono_r; lia).
  assert (P11 : (2 ^ (prec + 11) = 2 ^ (prec + 4) * 128)%Z).
  { replace (prec + 11)%Z with (prec + 4 + 7)%Z by lia. rewrite Z.pow_add_r by lia. reflexivity. }
  set (a := Z.to_nat (2 ^ (prec + 4))).
  assert (Ea : Z.of_nat a = (2 ^ (prec + 4))%Z) by (apply Z2Nat.id; lia). clearbody a.
  exists a, (99 * a)%nat. split; [lia|]. split; [lia|]. cbv zeta.
  destruct (den_zero prec emax ltac:(lia) ltac:(lia)) as [F0 R0]. destruct (den_one prec emax ltac:(lia) ltac:(lia)) as [F1 R1].
  split; [|split; [exact R0|split; [exact R1|]]].
  - apply Forall_forall. intros x Hx. apply in_app_or in Hx as [Hx|Hx]; apply repeat_spec in Hx; subst x; assumption.
  - destruct (c112_median_stalls prec emax a (99 * a) ltac:(lia) ltac:(lia) ltac:(lia) ltac:(lia) ltac:(unfold szmod; lia)) as (v & E & _ & R).
    exists v. split; [exact E|exact R].
Qed.

(** @ex C112_median_refuted_ex: float and double are such formats. *)
Lemma c112_median_refuted_ex : ((5 <= 24 <= 53)%Z /\ (24 + 2 <= 128)%Z /\ (66 < 128)%Z) /\ ((5 <= 53 <= 53)%Z /\ (53 + 2 <= 1024)%Z /\ (66 < 1024)%Z).
Proof. lia. Qed.
