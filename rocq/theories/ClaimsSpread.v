(** * Claim C115: quantiles of steadily rising and falling values *)

From Coq Require Import QArith Reals ZArith NArith List Bool Sorting.Sorted.
From Verif Require Import Arith History SpecPsquare SpecSpread Psquare ExactRuns PsquareRuns.
Import ListNotations.
Local Open Scope R_scope.
(* @end-header *)
From Coq Require Import Lia Lra.
From Flocq Require Import Core.Raux.
From Verif Require Import SpecOrder HistoryLemmas StatsLemmas PsquareStats PsquareSpread ClaimsPsquare ClaimsTrack.
From Verif Require PsquareGeneric.

Lemma nth_error_Some_length {A} (l : list A) i x : nth_error l i = Some x -> (i < length l)%nat.
Proof. intros H. apply nth_error_Some. rewrite H. discriminate. Qed.

Lemma option_map_fst {A B} (x : option (A * B)) a : option_map fst x = Some a -> exists b, x = Some (a, b).
Proof. destruct x as [[a' b]|]; cbn; intros H; [|discriminate]. injection H as ->. exists b. reflexivity. Qed.

(** @prop C115_ranks: when every value extends the range of the values so far by one
    step d at either end, every marker in parameters() holds exactly the value whose
    rank is the marker's position. *)
Lemma c115_ranks : forall (eps : R) (qs : list R) (ops : list (op R)) (d a : R) (ups : list bool) (s : list R),
  let l := since_clear ops in
  0 < d -> l = spread d a ups -> fits l -> (2 * length qs + 3 <= length l)%nat -> order_statistics l s ->
  forall i p h, nth_error (psq_parameters (exact eps) (run_psq eps qs ops)) i = Some (p, h) ->
  (1 <= p <= N.of_nat (length l))%N /\ h = Fin (nth (N.to_nat p - 1) s 0).
Proof.
  intros eps qs ops d a ups s l Hd El Hs Hl Ho i p h Hi.
  set (len := (2 * length qs + 3)%nat) in *. assert (H3 : (3 <= len)%nat) by (unfold len; lia).
  assert (HL : (N.of_nat len < szmod)%N) by (unfold fits in Hs; lia).
  assert (Nl : length l = S (length ups)) by (rewrite El; apply spread_length).
  assert (Ho1 : order_statistics (firstn len l) (prog d (low d a (firstn (len - 1) ups)) len)).
  { rewrite El, (firstn_spread d a len H3). pose proof (spread_order d a Hd (firstn (len - 1) ups)) as Q.
    rewrite firstn_length, Nat.min_l in Q by lia. replace (S (len - 1)) with len in Q by lia. exact Q. }
  assert (Es : s = prog d (low d a ups) (S (length ups))).
  { apply order_statistics_unique in Ho. pose proof (spread_order d a Hd ups) as Q.
    apply order_statistics_unique in Q. rewrite El in Ho. transitivity (rsort (spread d a ups)); [exact Ho|symmetry; exact Q]. }
  destruct (c38_partial eps qs ops _ HL Hs Hl Ho1) as (linear & _ & _ & E). cbv zeta in E. fold l len in E. rewrite El in E.
  destruct (run_online d a Hd linear far_any len (p2_delta qs) H3 ups ltac:(lia)) as (O & O1 & O2).
  set (m := p2_run _ _ _ _ _ _) in *. rewrite E in Hi. clear E.
  assert (Hlt : (i < len)%nat).
  { apply nth_error_Some_length in Hi. rewrite map_length, seq_length in Hi. exact Hi. }
  rewrite (map_nth_error _ i (seq 0 len) (d := i)) in Hi.
  2:{ rewrite (nth_error_nth' _ 0%nat) by (rewrite seq_length; exact Hlt). rewrite seq_nth by exact Hlt. reflexivity. }
  injection Hi as <- <-.
  destruct O as [Oi Ol].
  assert (M1 : forall j, (j < len)%nat -> (1 <= mk_n m j)%Z).
  { induction j as [|j IH]; intros Hj; [lia|]. specialize (IH ltac:(lia)). specialize (Oi j Hj). lia. }
  assert (M2 : forall k, (k < len)%nat -> (mk_n m (len - 1 - k)%nat <= Z.of_nat (length l))%Z).
  { induction k as [|k IH]; intros Hk; [rewrite Nat.sub_0_r, O2; lia|]. specialize (IH ltac:(lia)). specialize (Oi (len - 1 - S k)%nat ltac:(lia)).
    replace (S (len - 1 - S k)) with (len - 1 - k)%nat in Oi by lia. lia. }
  specialize (M1 i Hlt). specialize (M2 (len - 1 - i)%nat ltac:(lia)). replace (len - 1 - (len - 1 - i))%nat with i in M2 by lia.
  split; [lia|]. f_equal. rewrite Es, prog_nth by lia. rewrite Ol by exact Hlt.
  rewrite minus_INR by lia. rewrite INR_IZR_INZ, Z_N_nat, Z2Nat.id by lia. cbn [INR]. ring.
Qed.

(** @ex C115_ranks_ex: eight values, four steps up, then down, up and down. *)
Lemma c115_ranks_ex : let ops := pushes [10; 13; 16; 19; 22; 7; 25; 4] in
  let l := since_clear ops in
  l = spread 3 10 [true; true; true; true; false; true; false] /\ fits l /\ (2 * length [/ 2] + 3 <= length l)%nat /\
  exists s, order_statistics l s /\ nth 3 s 0 = 13.
Proof.
  cbv zeta. assert (E : since_clear (pushes [10; 13; 16; 19; 22; 7; 25; 4]) = spread 3 10 [true; true; true; true; false; true; false]).
  { rewrite since_clear_pushes. unfold spread. cbn. repeat (f_equal; try lra). }
  split; [exact E|]. rewrite E. split; [unfold fits, szmod; cbn; lia|]. split; [cbn; lia|].
  eexists. split; [apply spread_order; lra|]. rewrite prog_nth by (cbn; lia). unfold low, downs. cbn. lra.
Qed.

Lemma s_first d a ups s : 0 < d -> order_statistics (spread d a ups) s ->
  length s = S (length ups) /\ forall i, (i < S (length ups))%nat -> nth i s 0 = nth 0 s 0 + d * INR i.
Proof.
  intros Hd Ho. assert (Es : s = prog d (low d a ups) (S (length ups))).
  { apply order_statistics_unique in Ho. pose proof (spread_order d a Hd ups) as Q. apply order_statistics_unique in Q. transitivity (rsort (spread d a ups)); [exact Ho|symmetry; exact Q]. }
  rewrite Es. split; [unfold prog; rewrite map_length, seq_length; reflexivity|].
  intros i Hi. rewrite !prog_nth by lia. cbn [INR]. ring.
Qed.

Lemma ops_exact eps (ops : list (op R)) : since_clear (rops eps ops) = map Fin (since_clear ops).
Proof. unfold rops. apply since_clear_op_map. Qed.

Lemma finite_map eps (l : list R) : Forall (@finite_value (fun x => x) eps eps) (map Fin l).
Proof. apply Forall_map, Forall_forall. intros x _. eexists. reflexivity. Qed.

Lemma get_parameter F qs s k p h : (N.of_nat (parameter_length F qs) < ps_count F s)%N ->
  nth_error (psq_parameters F s) (2 * k) = Some (p, h) -> psq_get F qs s k = Some h.
Proof.
  intros Hc H. unfold psq_get. destruct (N.ltb_spec (N.of_nat (parameter_length F qs)) (ps_count F s)); [|lia].
  unfold psq_parameters in H. revert H. generalize (2 * k)%nat. generalize (ps_positions F s), (ps_heights F s).
  intros a b. revert b. induction a as [|x a IH]; intros [|y b] [|n] H; cbn in *; try discriminate; [injection H as <- <-; reflexivity|].
  apply IH. exact H.
Qed.

(** @prop C115_estimate: get() for the k-th quantile q is then within 4 Q steps of
    lo + (n-1) q d, which is the quantile of the values lo, lo + d, lo + 2 d, ... *)
Lemma c115_estimate : forall (eps : R) (qs : list R) (ops : list (op R)) (d a : R) (ups : list bool) (s : list R) (k : nat) (q : R),
  let l := since_clear ops in
  let n := INR (length l) in
  0 < d -> l = spread d a ups -> fits l -> (2 * length qs + 3 < length l)%nat -> order_statistics l s ->
  StronglySorted Rle qs -> Forall (fun r => 0 <= r <= 1) qs -> nth_error qs k = Some q ->
  exists v, psq_get (exact eps) (rqs eps qs) (run_psq eps qs ops) (k + 1) = Some (Fin v) /\
    - 4 * INR (length qs - k) * d <= v - (nth 0 s 0 + (n - 1) * q * d) <= 2 * INR (k + 1) * d.
Proof.
  intros eps qs ops d a ups s k q l n Hd El Hs Hl Ho Hsq Hu Hk.
  assert (Ec : since_clear (rops eps ops) = map Fin l) by apply ops_exact.
  destruct (c114_exact eps qs (rops eps ops) k q Hsq Hu) as (p & h & E & B).
  - rewrite Ec. apply finite_map.
  - rewrite Ec, map_length. exact Hs.
  - rewrite Ec, map_length. lia.
  - exact Hk.
  - rewrite Ec, map_length in B. fold n in B.
    destruct (c115_ranks eps qs ops d a ups s Hd El Hs ltac:(fold l; lia) Ho (2 * k + 2) p h E) as [R1 R2]. fold l in R1.
    exists (nth (N.to_nat p - 1) s 0). split.
    + rewrite <- R2. apply (get_parameter (exact eps) (rqs eps qs) (run_psq eps qs ops) (k + 1) p h).
      * rewrite run_exact. fold l. rewrite PsquareGeneric.st_count by (unfold PsquareGeneric.fits; rewrite map_length; exact Hs).
        rewrite map_length. unfold rqs, parameter_length, quantile_length. rewrite map_length. lia.
      * replace (2 * (k + 1))%nat with (2 * k + 2)%nat by lia. exact E.
    + rewrite El in Ho. destruct (s_first d a ups s Hd Ho) as [S1 S2].
      assert (Nl : length l = S (length ups)) by (rewrite El; apply spread_length).
      rewrite S2 by lia. rewrite (minus_INR (N.to_nat p) 1) by lia. rewrite (INR_IZR_INZ (N.to_nat p)), N_nat_Z. change (INR 1) with 1.
      destruct B as [B1 B2]. split.
      * apply (Rmult_le_compat_r d) in B1; [|lra]. lra.
      * apply (Rmult_le_compat_r d) in B2; [|lra]. lra.
Qed.

(** @ex C115_estimate_ex: a hundred values rising by 1/2; the quartiles and the
    99th percentile. *)
Lemma c115_estimate_ex : let qs := [/ 4; / 2; 3 / 4; 99 / 100] in
  let ops := pushes (spread (/ 2) 0 (repeat true 99)) in
  let l := since_clear ops in
  l = spread (/ 2) 0 (repeat true 99) /\ length l = 100%nat /\ (2 * length qs + 3 < 100)%nat /\
  StronglySorted Rle qs /\ Forall (fun r => 0 <= r <= 1) qs /\ exists s, order_statistics l s /\ nth 0 s 0 = 0 /\ nth 99 s 0 = 99 / 2.
Proof.
  cbv zeta. rewrite since_clear_pushes. split; [reflexivity|]. split; [rewrite spread_length, repeat_length; reflexivity|].
  split; [cbn; lia|]. split; [repeat constructor; lra|]. split; [repeat constructor; lra|].
  eexists. split; [apply spread_order; lra|]. rewrite !prog_nth by (rewrite repeat_length; lia). unfold low, downs. cbn [repeat filter negb length].
  change (INR 99) with (INR 99). rewrite (INR_IZR_INZ 99). cbn. lra.
Qed.

(** @prop C115_median: and the median estimate is at most one step below and half a
    step above the median of all the values. *)
Lemma c115_median : forall (eps : R) (ops : list (op R)) (d a : R) (ups : list bool) (s : list R),
  let l := since_clear ops in
  let n := INR (length l) in
  0 < d -> l = spread d a ups -> fits l -> (5 < length l)%nat -> order_statistics l s ->
  exists v, psq_get (exact eps) (rqs eps [/ 2]) (run_psq eps [/ 2] ops) 1 = Some (Fin v) /\
    let median := (nth 0 s 0 + nth (length l - 1) s 0) / 2 in
    median - d <= v <= median + d / 2.
Proof.
  intros eps ops d a ups s l n Hd El Hs Hl Ho.
  assert (Ec : since_clear (rops eps ops) = map Fin l) by apply ops_exact.
  assert (Hx : [ratio_value (exact eps) (1 # 2)] = rqs eps [/ 2]).
  { unfold ratio_value, rqs. cbn. unfold xdiv. destruct (Req_bool_spec 2 0); [lra|]. do 2 f_equal. lra. }
  destruct (c114_median_exact eps (rops eps ops)) as (p1 & p & p3 & E & _ & B & _).
  - rewrite Ec. apply finite_map.
  - rewrite Ec, map_length. exact Hs.
  - rewrite Ec, map_length. lia.
  - rewrite Ec, map_length in B. rewrite Hx in E. cbn [map] in E. injection E as _ E _.
    apply option_map_fst in E. destruct E as [h E2].
    destruct (c115_ranks eps [/ 2] ops d a ups s Hd El Hs ltac:(fold l; cbn; lia) Ho 2 p h E2) as [R1 R2]. fold l in R1.
    exists (nth (N.to_nat p - 1) s 0). split.
    + rewrite <- R2. apply (get_parameter (exact eps) (rqs eps [/ 2]) (run_psq eps [/ 2] ops) 1 p h).
      * rewrite run_exact. fold l. rewrite PsquareGeneric.st_count by (unfold PsquareGeneric.fits; rewrite map_length; exact Hs).
        rewrite map_length. unfold rqs, parameter_length, quantile_length. rewrite map_length. cbn [length]. lia.
      * exact E2.
    + rewrite El in Ho. destruct (s_first d a ups s Hd Ho) as [S1 S2].
      assert (Nl : length l = S (length ups)) by (rewrite El; apply spread_length).
      rewrite (S2 (N.to_nat p - 1)%nat), (S2 (length l - 1)%nat) by lia. rewrite !minus_INR by lia.
      rewrite !INR_IZR_INZ, N_nat_Z. change (IZR (Z.of_nat 1)) with 1. destruct B as [B1 B2].
      apply IZR_le in B1, B2. rewrite minus_IZR, mult_IZR in B1. rewrite plus_IZR, mult_IZR in B2.
      apply (Rmult_le_compat_l d) in B1, B2; lra.
Qed.

(** @ex C115_median_ex: nine values falling by 2 from 100. *)
Lemma c115_median_ex : let ops := pushes (spread 2 100 (repeat false 8)) in
  let l := since_clear ops in
  l = [100; 98; 96; 94; 92; 90; 88; 86; 84] /\ fits l /\ (5 < length l)%nat /\ exists s, order_statistics l s /\ (nth 0 s 0 + nth 8 s 0) / 2 = 92.
Proof.
  cbv zeta. rewrite since_clear_pushes. split; [unfold spread; cbn; repeat (f_equal; try lra)|]. split; [unfold fits, szmod; cbn; lia|].
  split; [cbn; lia|]. eexists. split; [apply spread_order; lra|]. rewrite !prog_nth by (cbn; lia). unfold low, downs. cbn. lra.
Qed.
