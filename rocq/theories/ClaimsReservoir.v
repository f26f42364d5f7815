(** * Claims C48-C51: reservoir sampling *)

From Coq Require Import List Arith NArith Bool.
From Verif Require Import Arith CircularSpan Reservoir SpecSampling.
Import ListNotations.
Local Open Scope N_scope.
(* @end-header *)
From Coq Require Import Lia.
From Verif Require Import HistoryLemmas CircularSpanProofs ReservoirProofs.

Lemma n_bounds n : 0 < n < 2 ^ 62 -> 0 < n < 4611686018427387904.
Proof. intros H. change (2 ^ 62) with 4611686018427387904 in H. exact H. Qed.

(** ** C48 *)

(** @prop C48_reservoir_sample: for every 0 < N < 2^62, every sequence of fewer
    than 2^64 pushes and every possible outcome of the random draws: no access
    is out of bounds, count() is the number of pushes, size() is the smaller of
    N and count(), and the data are values pushed at distinct positions. *)
Lemma c48 : forall (T : Type) (n : N) (cs : list (rcall T)),
  0 < n < 2 ^ 62 -> only_pushes cs -> rs_valid (rs_new n) cs ->
  N.of_nat (length cs) < szmod ->
  exists s,
    rs_run (rs_new n) cs = Some s /\
    rs_count s = N.of_nat (length cs) /\
    rs_length s = N.min n (rs_count s) /\
    (rs_empty s = true <-> cs = []) /\
    sample_of (pushed cs) (rs_data s).
Proof.
  intros T n cs Hn HO HV HL. apply n_bounds in Hn.
  destruct (rinv_run n cs 0 0 (rs_new n) (rinv_new n Hn) HV HL) as (s & E & H).
  rewrite (only_pushes_stretches cs 0 HO) in H. cbn in H.
  destruct (run_sample n cs 0 0 (rs_new n) [] (rinv_new n Hn)) as (s' & E' & S); auto.
  { exists []. split; constructor. }
  rewrite E in E'. injection E' as <-. exists s. split; [exact E|].
  destruct H as (H1 & H2 & H3 & H4 & H5). split; [exact H4|].
  unfold rs_length, rs_count. rewrite H4, H5. split; [lia|]. split; [|exact S].
  unfold rs_empty. destruct (rs_samples s) as [|x l]; cbn in H5.
  - split; [|reflexivity]. intros _. destruct cs; [reflexivity|cbn in H5; lia].
  - split; [discriminate|]. intros ->. cbn in H5. lia.
Qed.

(** @ex C48_reservoir_sample_ex: two slots; of 10, 20, 30 the third replaces the
    second, index 2 rejects the fourth. *)
Lemma c48_ex :
  let cs := [RPush 10 0 0; RPush 20 0 0; RPush 30 0 1; RPush 40 0 2]%nat in
  0 < 2 < 2 ^ 62 /\ only_pushes cs /\ rs_valid (rs_new 2) cs /\
  match rs_run (rs_new 2) cs with
  | Some s => rs_data s = [10; 30]%nat /\ rs_count s = 4 /\ rs_length s = 2
  | None => False
  end.
Proof.
  cbv zeta. split; [split; reflexivity|]. split.
  - intros c Hc ->. repeat (destruct Hc as [Hc|Hc]; [discriminate|]). destruct Hc.
  - split; [vm_compute; repeat split; discriminate|]. vm_compute. repeat split.
Qed.

(** @prop C48_reservoir_push: in every state reached by pushes with possible
    draws, a further push with a possible draw is defined; if it returns true
    the data have changed by appending the element (while fewer than N were
    pushed) or by replacing one of the N slots with it, if false they are
    unchanged; the count grows by one. *)
Lemma c48_push : forall (T : Type) (n : N) (cs : list (rcall T)) (s : rsv T) (x : T) (g i : N),
  0 < n < 2 ^ 62 -> only_pushes cs -> rs_valid (rs_new n) cs ->
  N.of_nat (S (length cs)) < szmod ->
  rs_run (rs_new n) cs = Some s -> rs_possible s i ->
  exists s' b,
    rs_push s x g i = Some (s', b) /\
    rs_count s' = rs_count s + 1 /\
    (b = false -> rs_data s' = rs_data s) /\
    (rs_count s < n -> b = true /\ rs_data s' = rs_data s ++ [x]) /\
    (n <= rs_count s -> b = true ->
       exists j, (j < N.to_nat n)%nat /\ rs_data s' = set_nth (rs_data s) j x).
Proof.
  intros T n cs s x g i Hn HO HV HL HR HP. apply n_bounds in Hn.
  destruct (rinv_run n cs 0 0 (rs_new n) (rinv_new n Hn) HV) as (s1 & E & H); [lia|].
  rewrite HR in E. injection E as <-.
  rewrite (only_pushes_stretches cs 0 HO) in H. cbn in H.
  destruct (rinv_push n 0 (length cs) s x g i H HP HL) as (s' & b & E & H' & P1 & P2 & P3 & P4).
  exists s', b. split; [exact E|].
  destruct H as (_ & _ & _ & H4 & _). destruct H' as (_ & _ & _ & H4' & _).
  unfold rs_count, rs_data. rewrite H4, H4'. split; [lia|]. split; [exact P2|].
  split; [intros Hc; apply P3; lia|]. intros Hc Hb. apply P4; [lia|exact Hb].
Qed.

(** @ex C48_reservoir_push_ex: after 10, 20 in two slots, drawing index 0 for 30
    replaces 10 and drawing 2 rejects it. *)
Lemma c48_push_ex :
  let cs := [RPush 10 0 0; RPush 20 0 0]%nat in
  rs_valid (rs_new 2) cs /\
  match rs_run (rs_new 2) cs with
  | Some s => rs_possible s 0 /\ rs_possible s 2 /\
      match rs_push s 30%nat 0 0, rs_push s 30%nat 0 2 with
      | Some (s1, true), Some (s2, false) => rs_data s1 = [30; 20]%nat /\ rs_data s2 = [10; 20]%nat
      | _, _ => False
      end
  | None => False
  end.
Proof. cbv zeta. vm_compute. repeat split; discriminate. Qed.

(** ** C49 *)

(** @prop C49_reservoir_uniform: after the positions 0..m-1 have been pushed
    into a reservoir of N, N <= m <= 4N, every set of N positions is the sample
    in exactly (m-N)! of the equally likely combinations of draws, of which
    there are m!/N! in all. *)
Lemma c49 : forall (n m : nat) (chosen : list nat),
  (0 < n)%nat -> N.of_nat n < 2 ^ 62 -> (n <= m <= 4 * n)%nat ->
  NoDup chosen -> length chosen = n -> (forall p, In p chosen -> (p < m)%nat) ->
  let finals := rs_all (rs_new (N.of_nat n)) (seq 0 m) in
  (number (fun s => same_elements (rs_data s) chosen) finals = fact (m - n))%nat /\
  (fact n * length finals = fact m)%nat.
Proof.
  intros n m S H0 Hn Hm ND HL HS. cbv zeta. change (2 ^ 62) with 4611686018427387904 in Hn.
  split; [apply uniform_count; assumption|apply all_length; assumption].
Qed.

(** @ex C49_reservoir_uniform_ex: two slots and four positions: 12 combinations,
    2 of them give {1, 3}. *)
Lemma c49_ex :
  NoDup [3; 1]%nat /\ (2 <= 4 <= 4 * 2)%nat /\
  length (rs_all (rs_new 2) (seq 0 4)) = 12%nat /\
  number (fun s => same_elements (rs_data s) [3; 1]%nat) (rs_all (rs_new 2) (seq 0 4)) = 2%nat.
Proof.
  split; [repeat constructor; cbn; intuition discriminate|]. split; [lia|].
  split; vm_compute; reflexivity.
Qed.

(** @prop C49_reservoir_inclusion: in the same range every position is in the
    sample with probability N/m: m times the number of combinations of draws
    that include it is N times the number of all combinations. *)
Lemma c49_inclusion : forall (n m p : nat),
  (0 < n)%nat -> N.of_nat n < 2 ^ 62 -> (n <= m <= 4 * n)%nat -> (p < m)%nat ->
  let finals := rs_all (rs_new (N.of_nat n)) (seq 0 m) in
  (m * number (fun s => mem p (rs_data s)) finals = n * length finals)%nat.
Proof.
  intros n m p H0 Hn Hm Hp. change (2 ^ 62) with 4611686018427387904 in Hn.
  apply inclusion_count; assumption.
Qed.

(** @ex C49_reservoir_inclusion_ex: two slots and five positions: 60
    combinations, position 4 is included in 24. *)
Lemma c49_inclusion_ex :
  length (rs_all (rs_new 2) (seq 0 5)) = 60%nat /\
  number (fun s => mem 4 (rs_data s)) (rs_all (rs_new 2) (seq 0 5)) = 24%nat.
Proof. split; vm_compute; reflexivity. Qed.

(** ** C50 *)

Lemma skip_zero {T} n (cs : list (rcall T)) : forall base c s,
  rinv n base c s -> rs_skip s = 0 -> rs_valid s cs -> only_pushes cs ->
  (c + length cs <= 4 * N.to_nat n)%nat -> N.of_nat (c + length cs) < szmod ->
  exists s', rs_run s cs = Some s' /\ rs_skip s' = 0.
Proof.
  induction cs as [|a cs IH]; intros base c s H Hs V HO Hc HL; cbn [rs_run].
  - exists s. auto.
  - cbn [rs_valid length] in *. destruct V as [V1 V2].
    destruct a as [x g i|]; [|exfalso; apply (HO RClear); [left; reflexivity|reflexivity]].
    destruct (rinv_push n base c s x g i H V1) as (s' & b & E & H' & _); [lia|].
    cbn [rs_call obind] in *. rewrite E in *. cbn [obind fst] in *.
    apply (IH base (S c) s'); auto; [|intros a Ha; apply HO; right; exact Ha|lia|lia].
    destruct H as (H1 & H2 & H3 & H4 & H5). unfold rs_push in E. rewrite H1, H2, H4, Hs in E.
    destruct (N.leb_spec (4 * n) (N.of_nat c)); [lia|].
    destruct (N.leb_spec n (N.of_nat c)).
    + destruct (i <? n).
      * destruct (rs_assign (rs_samples s) i x); [|discriminate]. injection E as <- _. reflexivity.
      * injection E as <- _. reflexivity.
    + injection E as <- _. reflexivity.
Qed.

(** @prop C50_switch_certain: for every 0 < N < 2^60 and every sequence of
    exactly 4N pushes, whatever the draws, the next element is accepted with
    certainty; a fair sampler accepts it with probability N/(4N+1). *)
Lemma c50_switch : forall (T : Type) (n : N) (cs : list (rcall T)) (s : rsv T) (x : T) (g i : N),
  0 < n < 2 ^ 60 -> only_pushes cs -> rs_valid (rs_new n) cs ->
  N.of_nat (length cs) = 4 * n ->
  rs_run (rs_new n) cs = Some s -> rs_possible s i ->
  exists s', rs_push s x g i = Some (s', true) /\ In x (rs_data s').
Proof.
  intros T n cs s x g i Hn HO HV HL HR HP.
  change (2 ^ 60) with 1152921504606846976 in Hn. pose proof szmod_4 as HM.
  assert (Hn' : 0 < n < 4611686018427387904) by lia.
  destruct (rinv_run n cs 0 0 (rs_new n) (rinv_new n Hn') HV) as (s1 & E & H); [lia|].
  rewrite HR in E. injection E as <-.
  rewrite (only_pushes_stretches cs 0 HO) in H. cbn in H.
  destruct (skip_zero n cs 0 0 (rs_new n) (rinv_new n Hn') eq_refl HV HO) as (s1 & E & Hs); [lia|lia|].
  rewrite HR in E. injection E as <-.
  destruct (rinv_push n 0 (length cs) s x g i H HP) as (s' & b & E & _); [lia|].
  pose proof E as E0. destruct H as (H1 & H2 & H3 & H4 & H5).
  unfold rs_push in E. rewrite H1, H2, H4, Hs in E.
  destruct (N.leb_spec (4 * n) (N.of_nat (length cs))); [|lia]. change (0 =? 0) with true in E. cbv iota in E.
  destruct (rs_geometric_ok s); [|discriminate].
  destruct (rs_assign (rs_samples s) i x) as [l|] eqn:Ea; [|discriminate].
  cbn [obind] in E. injection E as E1 E2. exists s'. rewrite E0, <- E2. split; [reflexivity|].
  rewrite <- E1. unfold rs_data. cbn [rs_samples].
  unfold rs_assign in Ea. destruct (N.ltb_spec i (N.of_nat (length (rs_samples s)))); [|discriminate].
  injection Ea as <-. apply (nth_error_In _ (N.to_nat i)). apply set_nth_same. lia.
Qed.

(** @ex C50_switch_certain_ex: one slot and four pushes with possible draws. *)
Lemma c50_switch_ex :
  let cs := [RPush 1 0 0; RPush 2 0 1; RPush 3 0 2; RPush 4 0 1]%nat in
  0 < 1 < 2 ^ 60 /\ only_pushes cs /\ rs_valid (rs_new 1) cs /\ N.of_nat (length cs) = 4 * 1 /\
  match rs_run (rs_new 1) cs with
  | Some s => rs_data s = [1]%nat /\ rs_possible s 0
  | None => False
  end.
Proof.
  cbv zeta. split; [split; reflexivity|]. split.
  - intros c Hc ->. repeat (destruct Hc as [Hc|Hc]; [discriminate|]). destruct Hc.
  - split; [vm_compute; repeat split; discriminate|]. split; [reflexivity|].
    vm_compute. repeat split; discriminate.
Qed.

(** @prop C50_fair_refuted: inclusion is not uniform after the switch: with one
    slot and five positions, position 4 is in the sample in every outcome
    although the fair share is one in five, and the others in none. *)
Lemma c50_refuted :
  exists n m p : nat,
    (m = 4 * n + 1)%nat /\ (p < m)%nat /\
    let finals := rs_all (rs_new (N.of_nat n)) (seq 0 m) in
    number (fun s => mem p (rs_data s)) finals = length finals /\
    (m * number (fun s => mem p (rs_data s)) finals <> n * length finals)%nat.
Proof.
  exists 1%nat, 5%nat, 4%nat. split; [reflexivity|]. split; [lia|].
  split; vm_compute; [reflexivity|discriminate].
Qed.

(** @prop C50_skipping_partial: what does hold once 4N values have been pushed:
    after an accepted push that drew skip count g, exactly the next g pushes
    are rejected and leave the data alone, and the one after them is accepted,
    whatever else is drawn.  Missing: the acceptance probability is not the
    fair one; the parameter of the geometric draw is not N over the number of
    values seen when the next one arrives. *)
Lemma c50_partial : forall (T : Type) (n : N) (cs : list (rcall T)) (s s1 : rsv T)
    (x : T) (g i : N) (rest : list (T * N * N)) (y : T) (g' i' : N),
  0 < n < 2 ^ 60 -> only_pushes cs -> rs_valid (rs_new n) cs ->
  rs_run (rs_new n) cs = Some s -> 4 * n <= rs_count s ->
  rs_possible s i -> rs_push s x g i = Some (s1, true) ->
  N.of_nat (length rest) = g -> i' < n ->
  N.of_nat (length cs + 2 + length rest) < szmod ->
  exists s2 s3,
    rs_run s1 (map (fun r => RPush (fst (fst r)) (snd (fst r)) (snd r)) rest) = Some s2 /\
    rs_data s2 = rs_data s1 /\
    rs_push s2 y g' i' = Some (s3, true) /\
    rs_data s3 = set_nth (rs_data s1) (N.to_nat i') y.
Proof.
  intros T n cs s s1 x g i rest y g' i' Hn HO HV HR Hct HP Hpush Hr Hi' HL.
  change (2 ^ 60) with 1152921504606846976 in Hn. pose proof szmod_4 as HM.
  assert (Hn' : 0 < n < 4611686018427387904) by lia.
  destruct (rinv_run n cs 0 0 (rs_new n) (rinv_new n Hn') HV) as (s0 & E & H); [lia|].
  rewrite HR in E. injection E as <-.
  rewrite (only_pushes_stretches cs 0 HO) in H. cbn in H.
  set (c := length cs) in *.
  destruct (rinv_push n 0 c s x g i H HP) as (s' & b & E & H' & _); [lia|].
  rewrite Hpush in E. injection E as <- <-.
  pose proof H as (H1 & H2 & H3 & H4 & H5). unfold rs_count in Hct. rewrite H4 in Hct.
  assert (E1 : s1 = Rsv n (4 * n) (N.of_nat (S c)) g (rs_samples s1)).
  { unfold rs_push in Hpush. rewrite H1, H2, H4 in Hpush.
    destruct (N.leb_spec (4 * n) (N.of_nat c)); [|lia].
    destruct (rs_skip s =? 0); [|discriminate]. destruct (rs_geometric_ok s); [|discriminate].
    destruct (rs_assign (rs_samples s) i x); [|discriminate]. cbn [obind] in Hpush.
    injection Hpush as <-. cbn [rs_samples]. rewrite szadd_small by lia. f_equal. lia. }
  assert (Hd : length (rs_samples s1) = N.to_nat n).
  { destruct H' as (_ & _ & _ & _ & H'). rewrite H'. lia. }
  assert (Acc : forall c' (data' : list T) x' g0 i0,
    (4 * N.to_nat n <= c')%nat -> length data' = N.to_nat n -> i0 < n ->
    N.of_nat (S c') < szmod ->
    rs_push (Rsv n (4 * n) (N.of_nat c') 0 data') x' g0 i0 =
    Some (Rsv n (4 * n) (N.of_nat (S c')) g0 (set_nth data' (N.to_nat i0) x'), true)).
  { intros c' data' x' g0 i0 Hc' Hd' Hi0 HL'. unfold rs_push, rs_geometric_ok.
    cbn [rs_threshold rs_count_ rs_skip rs_sample_size rs_samples].
    destruct (N.leb_spec (4 * n) (N.of_nat c')); [|lia]. change (0 =? 0) with true. cbv iota.
    destruct (N.ltb_spec 0 n); [|lia]. destruct (N.ltb_spec n (N.of_nat c')); [|lia]. cbn [andb].
    rewrite rs_assign_some by lia. cbn [obind]. rewrite szadd_small by lia. do 3 f_equal. lia. }
  assert (Run : forall (rest : list (T * N * N)) c' (data' : list T),
    (4 * N.to_nat n <= c')%nat -> length data' = N.to_nat n ->
    N.of_nat (c' + length rest) < szmod ->
    rs_run (Rsv n (4 * n) (N.of_nat c') (N.of_nat (length rest)) data')
      (map (fun r => RPush (fst (fst r)) (snd (fst r)) (snd r)) rest) =
    Some (Rsv n (4 * n) (N.of_nat (c' + length rest)) 0 data')).
  { clear - Hn HM. induction rest as [|[[z gz] iz] rest IH]; intros c' data' Hc' Hd' HL'.
    - cbn. rewrite Nat.add_0_r. reflexivity.
    - cbn [map rs_run rs_call fst snd length].
      rewrite (skip_push n 0 c' _ z gz iz (length rest)); cbn [rs_skip rs_samples].
      + cbn [obind fst]. rewrite IH by (cbn [length] in *; lia). do 3 f_equal. lia.
      + unfold rinv. cbn. repeat split; lia.
      + exact Hc'.
      + reflexivity.
      + cbn [length] in *. lia.
      + cbn [length] in *. lia. }
  rewrite E1, <- Hr. eexists. eexists.
  split; [apply Run; [lia|exact Hd|lia]|].
  split; [reflexivity|]. split; [apply Acc; [lia|exact Hd|exact Hi'|lia]|reflexivity].
Qed.

(** @ex C50_skipping_partial_ex: one slot, four values pushed, skip count 2. *)
Lemma c50_partial_ex :
  let s := Rsv 1 (4 * 1) (N.of_nat 4) 0 [7]%nat in
  (exists cs, rs_valid (rs_new 1) cs /\ rs_run (rs_new 1) cs = Some s) /\
  match rs_push s 8%nat 2 0 with
  | Some (s1, true) =>
      match rs_run s1 [RPush 9 0 0; RPush 10 0 0; RPush 11 5 0]%nat with
      | Some s3 => rs_data s1 = [8]%nat /\ rs_data s3 = [11]%nat /\ rs_skip s3 = 5
      | None => False
      end
  | _ => False
  end.
Proof.
  cbv zeta. split.
  - exists [RPush 7 0 0; RPush 1 0 1; RPush 1 0 1; RPush 1 0 1]%nat.
    vm_compute. repeat split; discriminate.
  - vm_compute. repeat split.
Qed.

(** ** C51 *)

(** @prop C51_reservoir_clear_refuted: clear() keeps the sampled values: with
    one slot, after push(1), clear() the reservoir is not empty, and after
    push(2) it holds two values, one of them from before the clear, although N
    is 1. *)
Lemma c51_refuted :
  exists (cs : list (rcall nat)) (s s' : rsv nat),
    rs_valid (rs_new 1) (cs ++ [RClear; RPush 2%nat 0 0]) /\
    rs_run (rs_new 1) (cs ++ [RClear]) = Some s /\ rs_empty s = false /\
    rs_run (rs_new 1) (cs ++ [RClear; RPush 2%nat 0 0]) = Some s' /\
    rs_length s' = 2 /\ In 1%nat (rs_data s').
Proof.
  exists [RPush 1%nat 0 0]. eexists. eexists. split; [vm_compute; repeat split|].
  split; [reflexivity|]. split; [reflexivity|]. split; [reflexivity|].
  split; [reflexivity|]. cbn. auto.
Qed.

(** @prop C51_reservoir_clear_partial: what holds of histories with clear():
    for every outcome of the draws no access is out of bounds, count() is the
    number of pushes since the last clear, size() is the sum over all stretches
    between clears of the smaller of N and their length, and all data were
    pushed at distinct positions of the whole history.  Missing: clear() does
    not discard the data. *)
Lemma c51_partial : forall (T : Type) (n : N) (cs : list (rcall T)),
  0 < n < 2 ^ 62 -> rs_valid (rs_new n) cs -> N.of_nat (length cs) < szmod ->
  let '(current, earlier) := stretches 0 cs in
  exists s,
    rs_run (rs_new n) cs = Some s /\
    rs_count s = N.of_nat current /\
    length (rs_data s) = list_sum (map (Nat.min (N.to_nat n)) (current :: earlier)) /\
    sample_of (pushed cs) (rs_data s).
Proof.
  intros T n cs Hn HV HL. apply n_bounds in Hn.
  destruct (rinv_run n cs 0 0 (rs_new n) (rinv_new n Hn) HV HL) as (s & E & H).
  destruct (run_sample n cs 0 0 (rs_new n) [] (rinv_new n Hn)) as (s' & E' & S); auto.
  { exists []. split; constructor. }
  rewrite E in E'. injection E' as <-.
  destruct (stretches 0 cs) as [current earlier]. cbn [fst snd] in H.
  exists s. split; [exact E|]. destruct H as (_ & _ & _ & H4 & H5). split; [exact H4|].
  split; [|exact S]. unfold rs_data. rewrite H5. unfold total.
  cbn [map list_sum fold_right]. change (fold_right Nat.add 0%nat) with list_sum. lia.
Qed.

(** @ex C51_reservoir_clear_partial_ex: two slots; three pushes, a clear, one
    push: three values are held. *)
Lemma c51_partial_ex :
  let cs := [RPush 1 0 0; RPush 2 0 0; RPush 3 0 2; RClear; RPush 4 0 0]%nat in
  rs_valid (rs_new 2) cs /\ stretches 0 cs = (1, [3])%nat /\
  list_sum (map (Nat.min 2) [1; 3]%nat) = 3%nat /\
  match rs_run (rs_new 2) cs with
  | Some s => rs_data s = [1; 2; 4]%nat
  | None => False
  end.
Proof. cbv zeta. split; [vm_compute; repeat split; discriminate|]. repeat split. Qed.

Definition same_control {T} (s t : rsv T) : Prop :=
  rs_sample_size s = rs_sample_size t /\ rs_threshold s = rs_threshold t /\
  rs_count_ s = rs_count_ t /\ rs_skip s = rs_skip t /\
  (length (rs_samples t) <= length (rs_samples s))%nat.

Lemma same_control_push {T} (s t t' : rsv T) x g i b :
  same_control s t -> rs_push t x g i = Some (t', b) ->
  exists s', rs_push s x g i = Some (s', b) /\ same_control s' t'.
Proof.
  intros (E1 & E2 & E3 & E4 & E5). unfold rs_push, rs_geometric_ok. rewrite E1, E2, E3, E4.
  assert (A : forall sk, obind (rs_assign (rs_samples t) i x) (fun l =>
      Some (Rsv (rs_sample_size t) (rs_threshold t) (szadd (rs_count_ t) 1) sk l, true)) = Some (t', b) ->
    exists s', obind (rs_assign (rs_samples s) i x) (fun l =>
      Some (Rsv (rs_sample_size t) (rs_threshold t) (szadd (rs_count_ t) 1) sk l, true)) = Some (s', b) /\ same_control s' t').
  { intros sk. unfold rs_assign.
    destruct (N.ltb_spec i (N.of_nat (length (rs_samples t)))) as [L|]; [|discriminate].
    destruct (N.ltb_spec i (N.of_nat (length (rs_samples s)))) as [_|L']; [|lia].
    cbn [obind]. intros E. injection E as <- <-. eexists. split; [reflexivity|].
    unfold same_control. cbn. rewrite !set_nth_length. auto. }
  destruct (rs_threshold t <=? rs_count_ t).
  - destruct (rs_skip t =? 0).
    + destruct ((0 <? rs_sample_size t) && (rs_sample_size t <? rs_count_ t)); [apply A|discriminate].
    + intros E. injection E as <- <-. eexists. split; [reflexivity|]. unfold same_control. cbn. auto.
  - destruct (rs_sample_size t <=? rs_count_ t).
    + destruct (i <? rs_sample_size t); [apply A|].
      intros E. injection E as <- <-. eexists. split; [reflexivity|]. unfold same_control. cbn. auto.
    + intros E. injection E as <- <-. eexists. split; [reflexivity|]. unfold same_control. cbn.
      rewrite !app_length. cbn. repeat split; lia.
Qed.

Lemma same_control_decisions {T} (cs : list (rcall T)) : forall s t d,
  same_control s t -> decisions t cs = Some d -> decisions s cs = Some d.
Proof.
  induction cs as [|c cs IH]; intros s t d H E; [exact E|]. destruct c as [x g i|]; cbn [decisions] in *.
  - destruct (rs_push t x g i) as [[t' b]|] eqn:P; [|discriminate].
    destruct (same_control_push s t t' x g i b H P) as (s' & P' & H'). rewrite P'.
    destruct (decisions t' cs) as [d'|] eqn:D; [|discriminate]. rewrite (IH s' t' d' H' D).
    rewrite <- E. destruct H as (E1 & E2 & E3 & E4 & _), H' as (_ & _ & E5 & _).
    unfold rs_request, rs_count. rewrite E1, E2, E3, E4, E5. reflexivity.
  - apply (IH _ (rs_clear t)); [|exact E]. destruct H as (E1 & E2 & E3 & E4 & E5).
    unfold same_control. cbn. auto.
Qed.

Lemma run_decisions {T} (cs : list (rcall T)) : forall s s', rs_run s cs = Some s' ->
  exists d, decisions s cs = Some d.
Proof.
  induction cs as [|c cs IH]; intros s s' E; [exists []; reflexivity|].
  destruct c as [x g i|]; cbn [rs_run rs_call decisions] in *.
  - destruct (rs_push s x g i) as [[s1 b]|]; [|discriminate]. cbn [obind fst] in E.
    destruct (IH _ _ E) as (d & ->). eexists. reflexivity.
  - cbn [obind] in E. exact (IH _ _ E).
Qed.

(** @prop C51_decisions_partial: after clear(), whatever was pushed before, the
    reservoir draws from the same ranges, accepts and rejects at the same pushes
    and counts as a new one does for the same outcomes of the draws, for every
    further history.  Missing: the data (C51_reservoir_clear_refuted). *)
Lemma c51_decisions : forall (T : Type) (n : N) (before cs : list (rcall T)),
  0 < n < 2 ^ 62 ->
  rs_valid (rs_new n) before -> N.of_nat (length before) < szmod ->
  rs_valid (rs_new n) cs -> N.of_nat (length cs) < szmod ->
  exists s d, rs_run (rs_new n) before = Some s /\
    decisions (rs_new n) cs = Some d /\ decisions (rs_clear s) cs = Some d.
Proof.
  intros T n before cs Hn V1 L1 V2 L2. apply n_bounds in Hn.
  destruct (rinv_run n before 0 0 (rs_new n) (rinv_new n Hn) V1 L1) as (s & E & H).
  destruct (rinv_run n cs 0 0 (rs_new n) (rinv_new n Hn) V2 L2) as (s' & E' & _).
  destruct (run_decisions cs _ _ E') as (d & D). exists s, d. split; [exact E|]. split; [exact D|].
  apply (same_control_decisions cs _ (rs_new n)); [|exact D].
  destruct (rinv_new (T := T) n Hn) as (A1 & A2 & _).
  destruct H as (H1 & H2 & _). unfold same_control. rewrite A1, A2. cbn. repeat split; [exact H1|exact H2|lia].
Qed.

(** @ex C51_decisions_partial_ex: one slot; six pushes, the last of which draws
    the skip count 7; after clear() five more pushes are decided as by a new
    reservoir. *)
Lemma c51_decisions_ex :
  let before := [RPush 1 0 0; RPush 2 0 1; RPush 3 0 0; RPush 4 0 2; RPush 5 7 0; RPush 6 0 0] in
  let cs := [RPush 1 0 0; RPush 2 0 1; RPush 3 0 0; RPush 4 0 2; RPush 5 0 0] in
  rs_valid (rs_new (T := N) 1) before /\ rs_valid (rs_new (T := N) 1) cs /\
  (exists s, rs_run (rs_new (T := N) 1) before = Some s /\ rs_skip s = 6) /\
  decisions (rs_new (T := N) 1) cs =
    Some [(None, true, 1); (Some (0, 1), false, 2); (Some (0, 2), true, 3);
          (Some (0, 3), false, 4); (Some (0, 0), true, 5)].
Proof.
  cbv zeta. split; [vm_compute; repeat split; discriminate|]. split; [vm_compute; repeat split; discriminate|].
  split; [eexists; split; reflexivity|]. vm_compute. reflexivity.
Qed.
