(** * Claims C52-C55, C60: circular_span *)

From Coq Require Import List Arith NArith.
From Verif Require Import Arith History CircularSpan SpecDeque.
Import ListNotations.
Local Open Scope N_scope.
(* @end-header *)
From Coq Require Import ZArith Lia.
From Verif Require Import HistoryLemmas CircularSpanProofs.

Lemma cap_bounds n : 1 <= n <= 2 ^ 62 -> (1 <= Z.of_N n <= 4611686018427387904)%Z.
Proof. intros H. assert (E : Z.of_N (2 ^ 62) = 4611686018427387904%Z) by reflexivity. lia. Qed.

(** All observers of a span that refines a list. *)
Lemma refines_observers {A} cap (s : cspan A) l :
  refines cap s l ->
  cs_size s = N.of_nat (length l) /\ cs_capacity s = cap /\
  (cs_empty s = true <-> l = []) /\ (cs_full s = true <-> N.of_nat (length l) = cap) /\
  cs_front s = hd_error l /\ cs_back s = last_error l.
Proof.
  intros R. split; [apply (rf_size _ _ _ R)|]. split; [apply (rf_cap _ _ _ R)|].
  split; [rewrite (refines_empty _ _ _ R); destruct l; split; congruence|].
  split; [unfold cs_full; rewrite (rf_size _ _ _ R), (rf_cap _ _ _ R); apply N.eqb_eq|].
  split; [apply (refines_front _ _ _ R)|apply (refines_back _ _ _ R)].
Qed.

(** ** C52 *)

(** @prop C52_span_fifo: for every capacity from 1 to 2^62 and every sequence of
    push_back, pop_front, pop_back, clear and assign calls on a new span, the
    span agrees with the bounded queue: it fails exactly when the queue is
    popped while empty, and otherwise size, capacity, empty, full, front and
    back are those of the queue. *)
Lemma c52 : forall (A : Type) (buffer : list A) (ops : list (scall A)),
  1 <= N.of_nat (length buffer) <= 2 ^ 62 ->
  existsb is_push_front ops = false ->
  match dq_run (length buffer) [] ops with
  | None => cs_run (cs_new buffer) ops = None
  | Some l => exists s,
      cs_run (cs_new buffer) ops = Some s /\
      cs_size s = N.of_nat (length l) /\
      cs_capacity s = N.of_nat (length buffer) /\
      (cs_empty s = true <-> l = []) /\
      (cs_full s = true <-> N.of_nat (length l) = N.of_nat (length buffer)) /\
      cs_front s = hd_error l /\
      cs_back s = last_error l
  end.
Proof.
  intros A buffer ops Hc Hf. apply cap_bounds in Hc.
  pose proof (refines_run (N.of_nat (length buffer)) ops (cs_new buffer) []
    (refines_new _ _ eq_refl Hc)) as H.
  rewrite Nat2N.id in H. rewrite Hf in H.
  destruct (dq_run (length buffer) [] ops) as [l|]; [|apply H; discriminate].
  destruct H as (s & E & R); [discriminate|]. exists s. split; [exact E|].
  apply (refines_observers _ s l R).
Qed.

(** @ex C52_span_fifo_ex: capacity 3, five pushes around the end, two pops, and
    a pop of an empty span. *)
Lemma c52_ex :
  let buffer := [0; 0; 0]%nat in
  let ops := [SPushBack 1; SPushBack 2; SPushBack 3; SPushBack 4; SPushBack 5; SPopFront; SPopBack]%nat in
  1 <= N.of_nat (length buffer) <= 2 ^ 62 /\
  existsb is_push_front ops = false /\
  dq_run 3 [] ops = Some [4]%nat /\
  match cs_run (cs_new buffer) ops with
  | Some s => cs_front s = Some 4%nat /\ cs_back s = Some 4%nat /\ cs_size s = 1
  | None => False
  end /\
  dq_run 3 [] (ops ++ [SPopBack; SPopBack]) = None.
Proof. cbv zeta. split; [split; cbn; lia|]. vm_compute. repeat split; discriminate. Qed.

(** ** C53 *)

(** @prop C53_push_front_partial: when the capacity is a power of two up to
    2^62, all six operations including push_front, in any order, agree with the
    bounded double-ended queue.  Missing: the other capacities, for which the
    claim is false. *)
Lemma c53_partial : forall (A : Type) (buffer : list A) (k : N) (ops : list (scall A)),
  k <= 62 -> N.of_nat (length buffer) = 2 ^ k ->
  match dq_run (length buffer) [] ops with
  | None => cs_run (cs_new buffer) ops = None
  | Some l => exists s,
      cs_run (cs_new buffer) ops = Some s /\
      cs_size s = N.of_nat (length l) /\
      cs_capacity s = N.of_nat (length buffer) /\
      (cs_empty s = true <-> l = []) /\
      (cs_full s = true <-> N.of_nat (length l) = N.of_nat (length buffer)) /\
      cs_front s = hd_error l /\
      cs_back s = last_error l
  end.
Proof.
  intros A buffer k ops Hk Hc.
  assert (HP : pow2 (N.of_nat (length buffer))) by (rewrite Hc; apply pow2_of_exp; exact Hk).
  assert (HB : 1 <= N.of_nat (length buffer) <= 2 ^ 62).
  { rewrite Hc. split.
    - assert (2 ^ k <> 0) by (apply N.pow_nonzero; lia). lia.
    - apply N.pow_le_mono_r; lia. }
  apply cap_bounds in HB.
  pose proof (refines_run (N.of_nat (length buffer)) ops (cs_new buffer) []
    (refines_new _ _ eq_refl HB) (fun _ => HP)) as H.
  rewrite Nat2N.id in H.
  destruct (dq_run (length buffer) [] ops) as [l|]; [|exact H].
  destruct H as (s & E & R). exists s. split; [exact E|].
  apply (refines_observers _ s l R).
Qed.

(** @ex C53_push_front_partial_ex: capacity 4, pushing at both ends of a full
    span. *)
Lemma c53_partial_ex :
  let buffer := [0; 0; 0; 0]%nat in
  let ops := [SPushFront 1; SPushBack 2; SPushFront 3; SPushFront 4; SPushFront 5; SPushBack 6]%nat in
  2 <= 62 /\ N.of_nat (length buffer) = 2 ^ 2 /\
  dq_run 4 [] ops = Some [4; 3; 1; 6]%nat.
Proof. cbv zeta. split; [lia|]. split; reflexivity. Qed.

(** @prop C53_push_front_lost: for every capacity from 3 to 2^62 that is not
    a power of two, push_back(x) followed by push_front(y) on a new span does
    not make y the front: front() returns whatever the last slot of the buffer
    held. *)
Lemma c53_refuted : forall (A : Type) (buffer : list A) (x y z : A),
  3 <= N.of_nat (length buffer) <= 2 ^ 62 ->
  (forall k, N.of_nat (length buffer) <> 2 ^ k) ->
  nth_error buffer (length buffer - 1) = Some z -> y <> z ->
  exists s,
    cs_run (cs_new buffer) [SPushBack x; SPushFront y] = Some s /\
    dq_run (length buffer) [] [SPushBack x; SPushFront y] = Some [y; x] /\
    cs_front s = Some z /\ cs_front s <> Some y.
Proof.
  intros A buffer x y z Hc Hk Hz Hyz.
  destruct (push_front_lost buffer x y z) as (s & E & F); auto.
  - assert (B : 1 <= N.of_nat (length buffer) <= 2 ^ 62) by lia. apply cap_bounds in B. lia.
  - intros k E. apply (Hk (N.of_nat k)). apply N2Z.inj. rewrite E, N2Z.inj_pow, nat_N_Z. reflexivity.
  - exists s. split; [exact E|]. split.
    + cbn [dq_run dq_step app]. f_equal. unfold lastn. cbn [length].
      destruct buffer as [|b0 [|b1 [|b2 buffer]]]; cbn [length] in *; try lia.
      cbn. rewrite ?firstn_nil. reflexivity.
    + split; [exact F|]. rewrite F. congruence.
Qed.

(** @ex C53_push_front_lost_ex: capacity 3 meets the hypotheses: 3 is not a
    power of two, and front() is the initial content 9 rather than 2. *)
Lemma c53_refuted_ex :
  let buffer := [7; 8; 9]%nat in
  3 <= N.of_nat (length buffer) <= 2 ^ 62 /\
  (forall k, N.of_nat (length buffer) <> 2 ^ k) /\
  nth_error buffer (length buffer - 1) = Some 9%nat /\
  match cs_run (cs_new buffer) [SPushBack 1; SPushFront 2]%nat with
  | Some s => cs_front s = Some 9%nat
  | None => False
  end.
Proof.
  cbv zeta. split; [split; cbn; lia|]. split.
  - intros k E. cbn in E. destruct (N.le_gt_cases k 1) as [H|H].
    + assert (k = 0 \/ k = 1) as [->| ->] by lia; discriminate.
    + assert (2 ^ 2 <= 2 ^ k) by (apply N.pow_le_mono_r; lia). change (2 ^ 2) with 4 in *. lia.
  - split; vm_compute; reflexivity.
Qed.

(** @prop C53_push_front_refuted: there is a capacity (3) for which push_front
    does not behave as that of the bounded double-ended queue. *)
Lemma c53_refuted3 :
  exists (buffer : list nat) (ops : list (scall nat)) (s : cspan nat) (l : list nat),
    1 <= N.of_nat (length buffer) <= 2 ^ 62 /\
    cs_run (cs_new buffer) ops = Some s /\ dq_run (length buffer) [] ops = Some l /\
    cs_front s <> hd_error l.
Proof.
  exists [7; 8; 9]%nat, [SPushBack 1; SPushFront 2]%nat. eexists. eexists.
  split; [split; cbn; lia|]. split; [vm_compute; reflexivity|].
  split; [vm_compute; reflexivity|]. vm_compute. discriminate.
Qed.

(** ** C54 *)

(** @prop C54_iteration_partial: for every capacity from 1 to 2^62 and every
    sequence of calls that either does not use push_front or whose capacity is
    a power of two, begin()..end() visits exactly the contents in order, in any
    number of steps above size().  Missing: push_front with other
    capacities. *)
Lemma c54_partial : forall (A : Type) (buffer : list A) (ops : list (scall A)) (l : list A) (fuel : nat),
  1 <= N.of_nat (length buffer) <= 2 ^ 62 ->
  existsb is_push_front ops = false \/
  (exists k, k <= 62 /\ N.of_nat (length buffer) = 2 ^ k) ->
  dq_run (length buffer) [] ops = Some l ->
  (length l < fuel)%nat ->
  exists s, cs_run (cs_new buffer) ops = Some s /\ cs_elements fuel s = Some l.
Proof.
  intros A buffer ops l fuel Hc Hf Hl Hfuel. apply cap_bounds in Hc.
  assert (HP : existsb is_push_front ops = true -> pow2 (N.of_nat (length buffer))).
  { intros E. destruct Hf as [Hf|(k & Hk & Hf)]; [congruence|]. rewrite Hf. apply pow2_of_exp. exact Hk. }
  pose proof (refines_run (N.of_nat (length buffer)) ops (cs_new buffer) []
    (refines_new _ _ eq_refl Hc) HP) as H.
  rewrite Nat2N.id, Hl in H. destruct H as (s & E & R). exists s. split; [exact E|].
  apply (refines_elements _ s l fuel R Hfuel).
Qed.

(** @ex C54_iteration_partial_ex: a full, wrapped span of capacity 3. *)
Lemma c54_partial_ex :
  let buffer := [0; 0; 0]%nat in
  let ops := [SPushBack 1; SPushBack 2; SPushBack 3; SPushBack 4]%nat in
  existsb is_push_front ops = false /\
  dq_run 3 [] ops = Some [2; 3; 4]%nat /\
  match cs_run (cs_new buffer) ops with
  | Some s => cs_full s = true /\ cs_elements 4 s = Some [2; 3; 4]%nat /\ cs_elements 3 s = None
  | None => False
  end.
Proof. cbv zeta. vm_compute. repeat split. Qed.

(** @prop C54_iteration_refuted: with capacity 3 and a single push_front the
    iteration visits three elements although size() is 1. *)
Lemma c54_refuted :
  exists (buffer : list nat) (s : cspan nat) (visited : list nat),
    cs_run (cs_new buffer) [SPushFront 1%nat] = Some s /\
    cs_elements 10 s = Some visited /\
    cs_size s = 1 /\ length visited = 3%nat.
Proof.
  exists [0; 0; 0]%nat. eexists. eexists. split; [vm_compute; reflexivity|].
  split; [vm_compute; reflexivity|]. split; reflexivity.
Qed.

(** @prop C54_iteration_terminates: for every capacity from 1 to 2^62 and every
    sequence of calls, push_front included, iteration from begin() reaches
    end() within twice the capacity comparisons, and dereferences only valid
    positions on the way. *)
Lemma c54_terminates : forall (A : Type) (buffer : list A) (ops : list (scall A)) (s : cspan A),
  1 <= N.of_nat (length buffer) <= 2 ^ 62 ->
  cs_run (cs_new buffer) ops = Some s ->
  exists visited, cs_elements (2 * length buffer) s = Some visited.
Proof.
  intros A buffer ops s Hc Hs. apply cap_bounds in Hc.
  pose proof (sized_run (N.of_nat (length buffer)) ops (cs_new buffer) [] (sized_new buffer Hc)) as H.
  rewrite Nat2N.id in H. destruct (dq_run (length buffer) [] ops) as [l|]; [|congruence].
  destruct H as (s' & E & R). rewrite Hs in E. injection E as <-.
  destruct (elements_end _ s _ R) as (v & Ev). exists v. rewrite <- Ev. f_equal. lia.
Qed.

(** @ex C54_iteration_terminates_ex: capacity 3 after a push_front. *)
Lemma c54_terminates_ex :
  exists s, cs_run (cs_new [0; 0; 0]%nat) [SPushFront 1; SPushFront 2]%nat = Some s.
Proof. eexists. vm_compute. reflexivity. Qed.

(** ** C55 *)

(** @prop C55_span_memory: for every capacity from 1 to 2^62 and every sequence
    of calls, push_front included: the calls fail only by popping an empty
    span, size() is the size of the bounded queue and never exceeds the
    capacity, and every position whatever is mapped to an element of the
    buffer. *)
Lemma c55 : forall (A : Type) (buffer : list A) (ops : list (scall A)),
  1 <= N.of_nat (length buffer) <= 2 ^ 62 ->
  match dq_run (length buffer) [] ops with
  | None => cs_run (cs_new buffer) ops = None
  | Some l => exists s,
      cs_run (cs_new buffer) ops = Some s /\
      length (cs_data s) = length buffer /\
      cs_size s = N.of_nat (length l) /\
      cs_size s <= cs_capacity s /\
      (forall position, exists i,
         cs_index s position = Some i /\ (N.to_nat i < length (cs_data s))%nat) /\
      (forall position, exists x, cs_at s position = Some x)
  end.
Proof.
  intros A buffer ops Hc. apply cap_bounds in Hc.
  pose proof (sized_run (N.of_nat (length buffer)) ops (cs_new buffer) [] (sized_new buffer Hc)) as H.
  rewrite Nat2N.id in H. destruct (dq_run (length buffer) [] ops) as [l|]; [|exact H].
  destruct H as (s & E & R). exists s. pose proof R as (H1 & H2 & H3 & H4 & H5).
  split; [exact E|]. split; [lia|]. split; [exact H4|]. split; [lia|].
  split; [|intros p; apply (sized_at _ s _ p R)].
  intros p. exists (p mod N.of_nat (length buffer)).
  split; [apply index_some; [exact H1|lia]|].
  pose proof (N.mod_lt p (N.of_nat (length buffer)) ltac:(lia)). lia.
Qed.

(** @ex C55_span_memory_ex: capacity 3 with operations at both ends; the
    position 2^64 - 1 is inside the buffer. *)
Lemma c55_ex :
  let buffer := [0; 0; 0]%nat in
  let ops := [SPushFront 1; SPushFront 2; SPushBack 3; SPushFront 4]%nat in
  1 <= N.of_nat (length buffer) <= 2 ^ 62 /\
  dq_run 3 [] ops = Some [4; 2; 1]%nat /\
  match cs_run (cs_new buffer) ops with
  | Some s => cs_index s (2 ^ 64 - 1) = Some 0
  | None => False
  end.
Proof. cbv zeta. split; [split; cbn; lia|]. split; vm_compute; reflexivity. Qed.

(** After clear() the i-th value pushed is stored at position i modulo the capacity. *)
Lemma push_all_snoc {A} (s : cspan A) l x : cs_push_all s (l ++ [x]) = obind (cs_push_all s l) (fun s1 => cs_push_back s1 x).
Proof.
  revert s. induction l as [|a l IH]; intros s; cbn [app cs_push_all].
  - cbn [obind]. destruct (cs_push_back s x); reflexivity.
  - destruct (cs_push_back s a); [apply IH|reflexivity].
Qed.

Lemma push_all_storage {A} (s : cspan A) (cap : nat) l :
  (1 <= Z.of_nat cap <= 4611686018427387904)%Z -> cs_capacity s = N.of_nat cap -> length (cs_data s) = cap ->
  exists s', cs_push_all (cs_clear s) l = Some s' /\ cs_capacity s' = N.of_nat cap /\ length (cs_data s') = cap /\
    cs_next s' mod N.of_nat cap = N.of_nat (length l) mod N.of_nat cap /\
    (forall i, (length l - cap <= i < length l)%nat -> nth_error (cs_data s') (i mod cap) = nth_error l i) /\
    (forall j, (length l <= j)%nat -> nth_error (cs_data s') j = nth_error (cs_data s) j).
Proof.
  intros Hc HC HD. induction l as [|x l IH] using rev_ind.
  - exists (cs_clear s). cbn [cs_push_all cs_clear cs_capacity cs_data cs_next length].
    repeat (split; [assumption || reflexivity|]). split; [intros i Hi; lia|reflexivity].
  - destruct IH as (s1 & E1 & C1 & D1 & N1 & I1 & J1). rewrite push_all_snoc, E1. cbn [obind]. unfold cs_push_back.
    rewrite (store_some (N.of_nat cap)) by (lia || assumption). cbn [obind].
    rewrite (index_some (N.of_nat cap)) by (cbn [cs_capacity]; lia || assumption). cbn [obind cs_capacity cs_data cs_size cs_next].
    set (k := cs_next s1 mod N.of_nat cap) in *.
    assert (Hk : k < N.of_nat cap) by (apply N.mod_lt; lia).
    assert (Ek : N.to_nat k = (length l mod cap)%nat).
    { rewrite N1. rewrite <- (Nat2N.id (length l mod cap)). f_equal. rewrite Nat2N.inj_mod. reflexivity. }
    assert (Em : (szadd (szadd (N.of_nat cap) k) 1) mod N.of_nat cap = N.of_nat (length (l ++ [x])) mod N.of_nat cap).
    { assert (ZM : szmod = 18446744073709551616) by reflexivity.
      unfold szadd, sz. rewrite (N.mod_small (N.of_nat cap + k)) by lia. rewrite (N.mod_small (N.of_nat cap + k + 1)) by lia.
      rewrite app_length. cbn [length]. replace (N.of_nat cap + k + 1) with (k + 1 + 1 * N.of_nat cap) by lia.
      rewrite N.mod_add by lia. rewrite Nat2N.inj_add. rewrite N1. cbn [N.of_nat]. apply N.add_mod_idemp_l. lia. }
    assert (Len : length (set_nth (cs_data s1) (N.to_nat k) x) = cap) by (rewrite set_nth_length; exact D1).
    assert (II : forall i, (length (l ++ [x]) - cap <= i < length (l ++ [x]))%nat ->
      nth_error (set_nth (cs_data s1) (N.to_nat k) x) (i mod cap) = nth_error (l ++ [x]) i).
    { rewrite app_length. cbn [length]. intros i Hi. destruct (Nat.eq_dec i (length l)) as [->|Ni].
      - rewrite nth_error_snoc_new, <- Ek. apply set_nth_same. lia.
      - rewrite nth_error_snoc_old by lia. rewrite set_nth_other; [apply I1; lia|]. rewrite Ek. intros E.
        pose proof (Nat.div_mod_eq (length l) cap) as Q1. pose proof (Nat.div_mod_eq i cap) as Q2. rewrite <- E in Q2.
        assert (length l / cap <= i / cap)%nat.
        { destruct (Nat.le_gt_cases (length l / cap) (i / cap)) as [?|G]; [assumption|]. exfalso.
          assert (cap * (i / cap + 1) <= cap * (length l / cap))%nat by (apply Nat.mul_le_mono_l; lia). lia. }
        assert (cap * (length l / cap) <= cap * (i / cap))%nat by (apply Nat.mul_le_mono_l; assumption). lia. }
    assert (JJ : forall j, (length (l ++ [x]) <= j)%nat -> nth_error (set_nth (cs_data s1) (N.to_nat k) x) j = nth_error (cs_data s) j).
    { rewrite app_length. cbn [length]. intros j Hj. rewrite set_nth_other; [apply J1; lia|]. rewrite Ek.
      pose proof (Nat.mod_le (length l) cap ltac:(lia)). lia. }
    rewrite C1. destruct (negb _); (eexists; split; [reflexivity|]; cbn [cs_capacity cs_data cs_next];
      split; [reflexivity|]; split; [exact Len|]; split; [exact Em|]; split; [exact II|exact JJ]).
Qed.

(** @prop C55_clear_storage: for every capacity from 1 to 2^62 and every sequence
    of calls, push_front included: assigning a range, or calling clear() and
    pushing its values, starts over at the beginning of the caller's array: the
    last values of the range (as many as the capacity) are found at their index
    modulo the capacity, and the positions beyond the range keep what was there. *)
Lemma c55_storage : forall (A : Type) (buffer : list A) (ops : list (scall A)) (s : cspan A) (l : list A),
  1 <= N.of_nat (length buffer) <= 2 ^ 62 ->
  cs_run (cs_new buffer) ops = Some s ->
  exists s', cs_assign s l = Some s' /\ cs_run s (SClear :: map SPushBack l) = Some s' /\
    (forall i, (length l - length buffer <= i < length l)%nat ->
       nth_error (cs_data s') (i mod length buffer) = nth_error l i) /\
    (forall j, (length l <= j)%nat -> nth_error (cs_data s') j = nth_error (cs_data s) j).
Proof.
  intros A buffer ops s l Hc Hs. apply cap_bounds in Hc.
  pose proof (sized_run (N.of_nat (length buffer)) ops (cs_new buffer) [] (sized_new buffer Hc)) as H.
  destruct (dq_run _ [] ops) as [q|]; [|congruence]. destruct H as (s1 & E & R). assert (s1 = s) by congruence. subst s1.
  pose proof R as (H1 & H2 & H3 & H4 & H5).
  destruct (push_all_storage s (length buffer) l ltac:(lia) H1 ltac:(lia)) as (s' & E' & _ & _ & _ & I & J).
  exists s'. split; [exact E'|]. split; [|split; [exact I|exact J]].
  cbn [cs_run cs_call obind]. rewrite <- E'. clear. generalize (cs_clear s) as t. clear s.
  induction l as [|a l IH]; intros t; [reflexivity|]. cbn [map cs_run cs_call cs_push_all].
  destruct (cs_push_back t a) as [t'|]; [apply IH|reflexivity].
Qed.

(** @ex C55_clear_storage_ex: a span of capacity 3 that holds two values after
    a pop is given four: 7 at position 3 modulo 3. *)
Lemma c55_storage_ex :
  let buffer := [0; 0; 0]%nat in
  let ops := [SPushBack 1; SPushBack 2; SPopFront; SPushFront 3]%nat in
  1 <= N.of_nat (length buffer) <= 2 ^ 62 /\
  match cs_run (cs_new buffer) ops with
  | Some s => option_map cs_data (cs_assign s [4; 5; 6; 7]%nat) = Some [7; 5; 6]%nat /\
      option_map cs_data (cs_assign s [9]%nat) = Some [9; 2; 0]%nat
  | None => False
  end.
Proof. cbv zeta. split; [split; cbn; lia|]. vm_compute. split; reflexivity. Qed.

(** ** C60 *)

(** @prop C60_initial_contents_refuted: constructing a span over an array with
    a first element and a length does not make that element the front. *)
Lemma c60_refuted :
  exists (buffer : list nat) (first length_ : nat) (x : nat),
    (first + length_ <= length buffer)%nat /\ (0 < length_)%nat /\
    nth_error buffer first = Some x /\
    cs_front (cs_new_at buffer (N.of_nat first) (N.of_nat length_)) <> Some x.
Proof.
  exists [10; 20; 30; 40]%nat, 1%nat, 2%nat, 20%nat. cbn [length].
  split; [lia|]. split; [lia|]. split; [reflexivity|]. vm_compute. discriminate.
Qed.

(** @prop C60_initial_contents_partial: what the constructor does: the span
    holds the [length_] elements that precede the first element cyclically, in
    order; for every power-of-two capacity, and for other capacities when they
    do not wrap around the beginning of the array. *)
Lemma c60_partial : forall (A : Type) (buffer : list A) (first length_ : nat),
  1 <= N.of_nat (length buffer) <= 2 ^ 62 ->
  (first < length buffer)%nat -> (length_ <= length buffer)%nat ->
  (exists k, k <= 62 /\ N.of_nat (length buffer) = 2 ^ k) \/ (length_ <= first)%nat ->
  let s := cs_new_at buffer (N.of_nat first) (N.of_nat length_) in
  let l := lastn length_ (skipn first buffer ++ firstn first buffer) in
  cs_size s = N.of_nat length_ /\
  cs_elements (S (length buffer)) s = Some l /\
  cs_front s = hd_error l /\ cs_back s = last_error l.
Proof.
  intros A buffer p k Hc Hp Hk HW s l. apply cap_bounds in Hc.
  assert (R : refines (N.of_nat (length buffer)) s l).
  { apply preceding_refines; auto. destruct HW as [(e & He & HW)|HW]; [left|right; exact HW].
    rewrite HW. apply pow2_of_exp. exact He. }
  split; [reflexivity|]. split; [|split; [apply (refines_front _ _ _ R)|apply (refines_back _ _ _ R)]].
  apply (refines_elements _ _ _ _ R). pose proof (rf_le _ _ _ R). lia.
Qed.

(** @ex C60_initial_contents_partial_ex: first = 1 and length 2 over four
    elements hold the last and the first element of the array. *)
Lemma c60_partial_ex :
  let buffer := [10; 20; 30; 40]%nat in
  N.of_nat (length buffer) = 2 ^ 2 /\
  lastn 2 (skipn 1 buffer ++ firstn 1 buffer) = [40; 10]%nat /\
  cs_elements 5 (cs_new_at buffer 1 2) = Some [40; 10]%nat.
Proof. cbv zeta. repeat split. Qed.
