(** * Property theorems: Reservoir

    Statements only; every proof is [exact] of a lemma in ClaimsReservoir.v.
    Generated by tools/mkprops.py. *)

From Coq Require Import List Arith NArith Bool.
From Verif Require Import Arith CircularSpan Reservoir SpecSampling.
Import ListNotations.
Local Open Scope N_scope.
From Verif Require Import ClaimsReservoir.

(** C48_reservoir_sample: for every 0 < N < 2^62, every sequence of fewer
    than 2^64 pushes and every possible outcome of the random draws: no access
    is out of bounds, count() is the number of pushes, size() is the smaller of
    N and count(), and the data are values pushed at distinct positions. *)
Theorem C48_reservoir_sample : forall (T : Type) (n : N) (cs : list (rcall T)),
  0 < n < 2 ^ 62 -> only_pushes cs -> rs_valid (rs_new n) cs ->
  N.of_nat (length cs) < szmod ->
  exists s,
    rs_run (rs_new n) cs = Some s /\
    rs_count s = N.of_nat (length cs) /\
    rs_length s = N.min n (rs_count s) /\
    (rs_empty s = true <-> cs = []) /\
    sample_of (pushed cs) (rs_data s).
Proof. exact c48. Qed.
Print Assumptions C48_reservoir_sample.

(** C48_reservoir_sample_ex: two slots; of 10, 20, 30 the third replaces the
    second, index 2 rejects the fourth. *)
Example C48_reservoir_sample_ex :
  let cs := [RPush 10 0 0; RPush 20 0 0; RPush 30 0 1; RPush 40 0 2]%nat in
  0 < 2 < 2 ^ 62 /\ only_pushes cs /\ rs_valid (rs_new 2) cs /\
  match rs_run (rs_new 2) cs with
  | Some s => rs_data s = [10; 30]%nat /\ rs_count s = 4 /\ rs_length s = 2
  | None => False
  end.
Proof. exact c48_ex. Qed.

(** C48_reservoir_push: in every state reached by pushes with possible
    draws, a further push with a possible draw is defined; if it returns true
    the data have changed by appending the element (while fewer than N were
    pushed) or by replacing one of the N slots with it, if false they are
    unchanged; the count grows by one. *)
Theorem C48_reservoir_push : forall (T : Type) (n : N) (cs : list (rcall T)) (s : rsv T) (x : T) (g i : N),
  0 < n < 2 ^ 62 -> only_pushes cs -> rs_valid (rs_new n) cs ->
  N.of_nat (S (length cs)) < szmod ->
  rs_run (rs_new n) cs = Some s -> rs_possible s i ->
  exists s' b,
    rs_push s x g i = Some (s', b) /\
    rs_count s' = rs_count s + 1 /\
    (b = false -> rs_data s' = rs_data s) /\
    (rs_count s < n -> b = true /\ rs_data s' = rs_data s ++ [x]) /\
    (n <= rs_count s -> b = true ->
       exists j, (j < N.to_nat n)%nat /\ rs_data s' = set_nth (rs_data s) j x).
Proof. exact c48_push. Qed.
Print Assumptions C48_reservoir_push.

(** C48_reservoir_push_ex: after 10, 20 in two slots, drawing index 0 for 30
    replaces 10 and drawing 2 rejects it. *)
Example C48_reservoir_push_ex :
  let cs := [RPush 10 0 0; RPush 20 0 0]%nat in
  rs_valid (rs_new 2) cs /\
  match rs_run (rs_new 2) cs with
  | Some s => rs_possible s 0 /\ rs_possible s 2 /\
      match rs_push s 30%nat 0 0, rs_push s 30%nat 0 2 with
      | Some (s1, true), Some (s2, false) => rs_data s1 = [30; 20]%nat /\ rs_data s2 = [10; 20]%nat
      | _, _ => False
      end
  | None => False
  end.
Proof. exact c48_push_ex. Qed.

(** C49_reservoir_uniform: after the positions 0..m-1 have been pushed
    into a reservoir of N, N <= m <= 4N, every set of N positions is the sample
    in exactly (m-N)! of the equally likely combinations of draws, of which
    there are m!/N! in all. *)
Theorem C49_reservoir_uniform : forall (n m : nat) (chosen : list nat),
  (0 < n)%nat -> N.of_nat n < 2 ^ 62 -> (n <= m <= 4 * n)%nat ->
  NoDup chosen -> length chosen = n -> (forall p, In p chosen -> (p < m)%nat) ->
  let finals := rs_all (rs_new (N.of_nat n)) (seq 0 m) in
  (number (fun s => same_elements (rs_data s) chosen) finals = fact (m - n))%nat /\
  (fact n * length finals = fact m)%nat.
Proof. exact c49. Qed.
Print Assumptions C49_reservoir_uniform.

(** C49_reservoir_uniform_ex: two slots and four positions: 12 combinations,
    2 of them give {1, 3}. *)
Example C49_reservoir_uniform_ex :
  NoDup [3; 1]%nat /\ (2 <= 4 <= 4 * 2)%nat /\
  length (rs_all (rs_new 2) (seq 0 4)) = 12%nat /\
  number (fun s => same_elements (rs_data s) [3; 1]%nat) (rs_all (rs_new 2) (seq 0 4)) = 2%nat.
Proof. exact c49_ex. Qed.

(** C49_reservoir_inclusion: in the same range every position is in the
    sample with probability N/m: m times the number of combinations of draws
    that include it is N times the number of all combinations. *)
Theorem C49_reservoir_inclusion : forall (n m p : nat),
  (0 < n)%nat -> N.of_nat n < 2 ^ 62 -> (n <= m <= 4 * n)%nat -> (p < m)%nat ->
  let finals := rs_all (rs_new (N.of_nat n)) (seq 0 m) in
  (m * number (fun s => mem p (rs_data s)) finals = n * length finals)%nat.
Proof. exact c49_inclusion. Qed.
Print Assumptions C49_reservoir_inclusion.

(** C49_reservoir_inclusion_ex: two slots and five positions: 60
    combinations, position 4 is included in 24. *)
Example C49_reservoir_inclusion_ex :
  length (rs_all (rs_new 2) (seq 0 5)) = 60%nat /\
  number (fun s => mem 4 (rs_data s)) (rs_all (rs_new 2) (seq 0 5)) = 24%nat.
Proof. exact c49_inclusion_ex. Qed.

(** C50_switch_certain: for every 0 < N < 2^60 and every sequence of
    exactly 4N pushes, whatever the draws, the next element is accepted with
    certainty; a fair sampler accepts it with probability N/(4N+1). *)
Theorem C50_switch_certain : forall (T : Type) (n : N) (cs : list (rcall T)) (s : rsv T) (x : T) (g i : N),
  0 < n < 2 ^ 60 -> only_pushes cs -> rs_valid (rs_new n) cs ->
  N.of_nat (length cs) = 4 * n ->
  rs_run (rs_new n) cs = Some s -> rs_possible s i ->
  exists s', rs_push s x g i = Some (s', true) /\ In x (rs_data s').
Proof. exact c50_switch. Qed.
Print Assumptions C50_switch_certain.

(** C50_switch_certain_ex: one slot and four pushes with possible draws. *)
Example C50_switch_certain_ex :
  let cs := [RPush 1 0 0; RPush 2 0 1; RPush 3 0 2; RPush 4 0 1]%nat in
  0 < 1 < 2 ^ 60 /\ only_pushes cs /\ rs_valid (rs_new 1) cs /\ N.of_nat (length cs) = 4 * 1 /\
  match rs_run (rs_new 1) cs with
  | Some s => rs_data s = [1]%nat /\ rs_possible s 0
  | None => False
  end.
Proof. exact c50_switch_ex. Qed.

(** C50_fair_refuted: inclusion is not uniform after the switch: with one
    slot and five positions, position 4 is in the sample in every outcome
    although the fair share is one in five, and the others in none. *)
Theorem C50_fair_refuted :
  exists n m p : nat,
    (m = 4 * n + 1)%nat /\ (p < m)%nat /\
    let finals := rs_all (rs_new (N.of_nat n)) (seq 0 m) in
    number (fun s => mem p (rs_data s)) finals = length finals /\
    (m * number (fun s => mem p (rs_data s)) finals <> n * length finals)%nat.
Proof. exact c50_refuted. Qed.
Print Assumptions C50_fair_refuted.

(** C50_skipping_partial: what does hold once 4N values have been pushed:
    after an accepted push that drew skip count g, exactly the next g pushes
    are rejected and leave the data alone, and the one after them is accepted,
    whatever else is drawn.  Missing: the acceptance probability is not the
    fair one; the parameter of the geometric draw is not N over the number of
    values seen when the next one arrives. *)
Theorem C50_skipping_partial : forall (T : Type) (n : N) (cs : list (rcall T)) (s s1 : rsv T)
    (x : T) (g i : N) (rest : list (T * N * N)) (y : T) (g' i' : N),
  0 < n < 2 ^ 60 -> only_pushes cs -> rs_valid (rs_new n) cs ->
  rs_run (rs_new n) cs = Some s -> 4 * n <= rs_count s ->
  rs_possible s i -> rs_push s x g i = Some (s1, true) ->
  N.of_nat (length rest) = g -> i' < n ->
  N.of_nat (length cs + 2 + length rest) < szmod ->
  exists s2 s3,
    rs_run s1 (map (fun r => RPush (fst (fst r)) (snd (fst r)) (snd r)) rest) = Some s2 /\
    rs_data s2 = rs_data s1 /\
    rs_push s2 y g' i' = Some (s3, true) /\
    rs_data s3 = set_nth (rs_data s1) (N.to_nat i') y.
Proof. exact c50_partial. Qed.
Print Assumptions C50_skipping_partial.

(** C50_skipping_partial_ex: one slot, four values pushed, skip count 2. *)
Example C50_skipping_partial_ex :
  let s := Rsv 1 (4 * 1) (N.of_nat 4) 0 [7]%nat in
  (exists cs, rs_valid (rs_new 1) cs /\ rs_run (rs_new 1) cs = Some s) /\
  match rs_push s 8%nat 2 0 with
  | Some (s1, true) =>
      match rs_run s1 [RPush 9 0 0; RPush 10 0 0; RPush 11 5 0]%nat with
      | Some s3 => rs_data s1 = [8]%nat /\ rs_data s3 = [11]%nat /\ rs_skip s3 = 5
      | None => False
      end
  | _ => False
  end.
Proof. exact c50_partial_ex. Qed.

(** C51_reservoir_clear_refuted: clear() keeps the sampled values: with
    one slot, after push(1), clear() the reservoir is not empty, and after
    push(2) it holds two values, one of them from before the clear, although N
    is 1. *)
Theorem C51_reservoir_clear_refuted :
  exists (cs : list (rcall nat)) (s s' : rsv nat),
    rs_valid (rs_new 1) (cs ++ [RClear; RPush 2%nat 0 0]) /\
    rs_run (rs_new 1) (cs ++ [RClear]) = Some s /\ rs_empty s = false /\
    rs_run (rs_new 1) (cs ++ [RClear; RPush 2%nat 0 0]) = Some s' /\
    rs_length s' = 2 /\ In 1%nat (rs_data s').
Proof. exact c51_refuted. Qed.
Print Assumptions C51_reservoir_clear_refuted.

(** C51_reservoir_clear_partial: what holds of histories with clear():
    for every outcome of the draws no access is out of bounds, count() is the
    number of pushes since the last clear, size() is the sum over all stretches
    between clears of the smaller of N and their length, and all data were
    pushed at distinct positions of the whole history.  Missing: clear() does
    not discard the data. *)
Theorem C51_reservoir_clear_partial : forall (T : Type) (n : N) (cs : list (rcall T)),
  0 < n < 2 ^ 62 -> rs_valid (rs_new n) cs -> N.of_nat (length cs) < szmod ->
  let '(current, earlier) := stretches 0 cs in
  exists s,
    rs_run (rs_new n) cs = Some s /\
    rs_count s = N.of_nat current /\
    length (rs_data s) = list_sum (map (Nat.min (N.to_nat n)) (current :: earlier)) /\
    sample_of (pushed cs) (rs_data s).
Proof. exact c51_partial. Qed.
Print Assumptions C51_reservoir_clear_partial.

(** C51_reservoir_clear_partial_ex: two slots; three pushes, a clear, one
    push: three values are held. *)
Example C51_reservoir_clear_partial_ex :
  let cs := [RPush 1 0 0; RPush 2 0 0; RPush 3 0 2; RClear; RPush 4 0 0]%nat in
  rs_valid (rs_new 2) cs /\ stretches 0 cs = (1, [3])%nat /\
  list_sum (map (Nat.min 2) [1; 3]%nat) = 3%nat /\
  match rs_run (rs_new 2) cs with
  | Some s => rs_data s = [1; 2; 4]%nat
  | None => False
  end.
Proof. exact c51_partial_ex. Qed.

(** C51_decisions_partial: after clear(), whatever was pushed before, the
    reservoir draws from the same ranges, accepts and rejects at the same pushes
    and counts as a new one does for the same outcomes of the draws, for every
    further history.  Missing: the data (C51_reservoir_clear_refuted). *)
Theorem C51_decisions_partial : forall (T : Type) (n : N) (before cs : list (rcall T)),
  0 < n < 2 ^ 62 ->
  rs_valid (rs_new n) before -> N.of_nat (length before) < szmod ->
  rs_valid (rs_new n) cs -> N.of_nat (length cs) < szmod ->
  exists s d, rs_run (rs_new n) before = Some s /\
    decisions (rs_new n) cs = Some d /\ decisions (rs_clear s) cs = Some d.
Proof. exact c51_decisions. Qed.
Print Assumptions C51_decisions_partial.

(** C51_decisions_partial_ex: one slot; six pushes, the last of which draws
    the skip count 7; after clear() five more pushes are decided as by a new
    reservoir. *)
Example C51_decisions_partial_ex :
  let before := [RPush 1 0 0; RPush 2 0 1; RPush 3 0 0; RPush 4 0 2; RPush 5 7 0; RPush 6 0 0] in
  let cs := [RPush 1 0 0; RPush 2 0 1; RPush 3 0 0; RPush 4 0 2; RPush 5 0 0] in
  rs_valid (rs_new (T := N) 1) before /\ rs_valid (rs_new (T := N) 1) cs /\
  (exists s, rs_run (rs_new (T := N) 1) before = Some s /\ rs_skip s = 6) /\
  decisions (rs_new (T := N) 1) cs =
    Some [(None, true, 1); (Some (0, 1), false, 2); (Some (0, 2), true, 3);
          (Some (0, 3), false, 4); (Some (0, 0), true, 5)].
Proof. exact c51_decisions_ex. Qed.
