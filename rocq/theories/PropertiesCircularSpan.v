(** * Property theorems: CircularSpan

    Statements only; every proof is [exact] of a lemma in ClaimsCircularSpan.v.
    Generated by tools/mkprops.py. *)

From Coq Require Import List Arith NArith.
From Verif Require Import Arith History CircularSpan SpecDeque.
Import ListNotations.
Local Open Scope N_scope.
From Verif Require Import ClaimsCircularSpan.

(** C52_span_fifo: for every capacity from 1 to 2^62 and every sequence of
    push_back, pop_front, pop_back, clear and assign calls on a new span, the
    span agrees with the bounded queue: it fails exactly when the queue is
    popped while empty, and otherwise size, capacity, empty, full, front and
    back are those of the queue. *)
Theorem C52_span_fifo : forall (A : Type) (buffer : list A) (ops : list (scall A)),
  1 <= N.of_nat (length buffer) <= 2 ^ 62 ->
  existsb is_push_front ops = false ->
  match dq_run (length buffer) [] ops with
  | None => cs_run (cs_new buffer) ops = None
  | Some l => exists s,
      cs_run (cs_new buffer) ops = Some s /\
      cs_size s = N.of_nat (length l) /\
      cs_capacity s = N.of_nat (length buffer) /\
      (cs_empty s = true <-> l = []) /\
      (cs_full s = true <-> N.of_nat (length l) = N.of_nat (length buffer)) /\
      cs_front s = hd_error l /\
      cs_back s = last_error l
  end.
Proof. exact c52. Qed.
Print Assumptions C52_span_fifo.

(** C52_span_fifo_ex: capacity 3, five pushes around the end, two pops, and
    a pop of an empty span. *)
Example C52_span_fifo_ex :
  let buffer := [0; 0; 0]%nat in
  let ops := [SPushBack 1; SPushBack 2; SPushBack 3; SPushBack 4; SPushBack 5; SPopFront; SPopBack]%nat in
  1 <= N.of_nat (length buffer) <= 2 ^ 62 /\
  existsb is_push_front ops = false /\
  dq_run 3 [] ops = Some [4]%nat /\
  match cs_run (cs_new buffer) ops with
  | Some s => cs_front s = Some 4%nat /\ cs_back s = Some 4%nat /\ cs_size s = 1
  | None => False
  end /\
  dq_run 3 [] (ops ++ [SPopBack; SPopBack]) = None.
Proof. exact c52_ex. Qed.

(** C53_push_front_partial: when the capacity is a power of two up to
    2^62, all six operations including push_front, in any order, agree with the
    bounded double-ended queue.  Missing: the other capacities, for which the
    claim is false. *)
Theorem C53_push_front_partial : forall (A : Type) (buffer : list A) (k : N) (ops : list (scall A)),
  k <= 62 -> N.of_nat (length buffer) = 2 ^ k ->
  match dq_run (length buffer) [] ops with
  | None => cs_run (cs_new buffer) ops = None
  | Some l => exists s,
      cs_run (cs_new buffer) ops = Some s /\
      cs_size s = N.of_nat (length l) /\
      cs_capacity s = N.of_nat (length buffer) /\
      (cs_empty s = true <-> l = []) /\
      (cs_full s = true <-> N.of_nat (length l) = N.of_nat (length buffer)) /\
      cs_front s = hd_error l /\
      cs_back s = last_error l
  end.
Proof. exact c53_partial. Qed.
Print Assumptions C53_push_front_partial.

(** C53_push_front_partial_ex: capacity 4, pushing at both ends of a full
    span. *)
Example C53_push_front_partial_ex :
  let buffer := [0; 0; 0; 0]%nat in
  let ops := [SPushFront 1; SPushBack 2; SPushFront 3; SPushFront 4; SPushFront 5; SPushBack 6]%nat in
  2 <= 62 /\ N.of_nat (length buffer) = 2 ^ 2 /\
  dq_run 4 [] ops = Some [4; 3; 1; 6]%nat.
Proof. exact c53_partial_ex. Qed.

(** C53_push_front_lost: for every capacity from 3 to 2^62 that is not
    a power of two, push_back(x) followed by push_front(y) on a new span does
    not make y the front: front() returns whatever the last slot of the buffer
    held. *)
Theorem C53_push_front_lost : forall (A : Type) (buffer : list A) (x y z : A),
  3 <= N.of_nat (length buffer) <= 2 ^ 62 ->
  (forall k, N.of_nat (length buffer) <> 2 ^ k) ->
  nth_error buffer (length buffer - 1) = Some z -> y <> z ->
  exists s,
    cs_run (cs_new buffer) [SPushBack x; SPushFront y] = Some s /\
    dq_run (length buffer) [] [SPushBack x; SPushFront y] = Some [y; x] /\
    cs_front s = Some z /\ cs_front s <> Some y.
Proof. exact c53_refuted. Qed.
Print Assumptions C53_push_front_lost.

(** C53_push_front_lost_ex: capacity 3 meets the hypotheses: 3 is not a
    power of two, and front() is the initial content 9 rather than 2. *)
Example C53_push_front_lost_ex :
  let buffer := [7; 8; 9]%nat in
  3 <= N.of_nat (length buffer) <= 2 ^ 62 /\
  (forall k, N.of_nat (length buffer) <> 2 ^ k) /\
  nth_error buffer (length buffer - 1) = Some 9%nat /\
  match cs_run (cs_new buffer) [SPushBack 1; SPushFront 2]%nat with
  | Some s => cs_front s = Some 9%nat
  | None => False
  end.
Proof. exact c53_refuted_ex. Qed.

(** C53_push_front_refuted: there is a capacity (3) for which push_front
    does not behave as that of the bounded double-ended queue. *)
Theorem C53_push_front_refuted :
  exists (buffer : list nat) (ops : list (scall nat)) (s : cspan nat) (l : list nat),
    1 <= N.of_nat (length buffer) <= 2 ^ 62 /\
    cs_run (cs_new buffer) ops = Some s /\ dq_run (length buffer) [] ops = Some l /\
    cs_front s <> hd_error l.
Proof. exact c53_refuted3. Qed.
Print Assumptions C53_push_front_refuted.

(** C54_iteration_partial: for every capacity from 1 to 2^62 and every
    sequence of calls that either does not use push_front or whose capacity is
    a power of two, begin()..end() visits exactly the contents in order, in any
    number of steps above size().  Missing: push_front with other
    capacities. *)
Theorem C54_iteration_partial : forall (A : Type) (buffer : list A) (ops : list (scall A)) (l : list A) (fuel : nat),
  1 <= N.of_nat (length buffer) <= 2 ^ 62 ->
  existsb is_push_front ops = false \/
  (exists k, k <= 62 /\ N.of_nat (length buffer) = 2 ^ k) ->
  dq_run (length buffer) [] ops = Some l ->
  (length l < fuel)%nat ->
  exists s, cs_run (cs_new buffer) ops = Some s /\ cs_elements fuel s = Some l.
Proof. exact c54_partial. Qed.
Print Assumptions C54_iteration_partial.

(** C54_iteration_partial_ex: a full, wrapped span of capacity 3. *)
Example C54_iteration_partial_ex :
  let buffer := [0; 0; 0]%nat in
  let ops := [SPushBack 1; SPushBack 2; SPushBack 3; SPushBack 4]%nat in
  existsb is_push_front ops = false /\
  dq_run 3 [] ops = Some [2; 3; 4]%nat /\
  match cs_run (cs_new buffer) ops with
  | Some s => cs_full s = true /\ cs_elements 4 s = Some [2; 3; 4]%nat /\ cs_elements 3 s = None
  | None => False
  end.
Proof. exact c54_partial_ex. Qed.

(** C54_iteration_refuted: with capacity 3 and a single push_front the
    iteration visits three elements although size() is 1. *)
Theorem C54_iteration_refuted :
  exists (buffer : list nat) (s : cspan nat) (visited : list nat),
    cs_run (cs_new buffer) [SPushFront 1%nat] = Some s /\
    cs_elements 10 s = Some visited /\
    cs_size s = 1 /\ length visited = 3%nat.
Proof. exact c54_refuted. Qed.
Print Assumptions C54_iteration_refuted.

(** C54_iteration_terminates: for every capacity from 1 to 2^62 and every
    sequence of calls, push_front included, iteration from begin() reaches
    end() within twice the capacity comparisons, and dereferences only valid
    positions on the way. *)
Theorem C54_iteration_terminates : forall (A : Type) (buffer : list A) (ops : list (scall A)) (s : cspan A),
  1 <= N.of_nat (length buffer) <= 2 ^ 62 ->
  cs_run (cs_new buffer) ops = Some s ->
  exists visited, cs_elements (2 * length buffer) s = Some visited.
Proof. exact c54_terminates. Qed.
Print Assumptions C54_iteration_terminates.

(** C54_iteration_terminates_ex: capacity 3 after a push_front. *)
Example C54_iteration_terminates_ex :
  exists s, cs_run (cs_new [0; 0; 0]%nat) [SPushFront 1; SPushFront 2]%nat = Some s.
Proof. exact c54_terminates_ex. Qed.

(** C55_span_memory: for every capacity from 1 to 2^62 and every sequence
    of calls, push_front included: the calls fail only by popping an empty
    span, size() is the size of the bounded queue and never exceeds the
    capacity, and every position whatever is mapped to an element of the
    buffer. *)
Theorem C55_span_memory : forall (A : Type) (buffer : list A) (ops : list (scall A)),
  1 <= N.of_nat (length buffer) <= 2 ^ 62 ->
  match dq_run (length buffer) [] ops with
  | None => cs_run (cs_new buffer) ops = None
  | Some l => exists s,
      cs_run (cs_new buffer) ops = Some s /\
      length (cs_data s) = length buffer /\
      cs_size s = N.of_nat (length l) /\
      cs_size s <= cs_capacity s /\
      (forall position, exists i,
         cs_index s position = Some i /\ (N.to_nat i < length (cs_data s))%nat) /\
      (forall position, exists x, cs_at s position = Some x)
  end.
Proof. exact c55. Qed.
Print Assumptions C55_span_memory.

(** C55_span_memory_ex: capacity 3 with operations at both ends; the
    position 2^64 - 1 is inside the buffer. *)
Example C55_span_memory_ex :
  let buffer := [0; 0; 0]%nat in
  let ops := [SPushFront 1; SPushFront 2; SPushBack 3; SPushFront 4]%nat in
  1 <= N.of_nat (length buffer) <= 2 ^ 62 /\
  dq_run 3 [] ops = Some [4; 2; 1]%nat /\
  match cs_run (cs_new buffer) ops with
  | Some s => cs_index s (2 ^ 64 - 1) = Some 0
  | None => False
  end.
Proof. exact c55_ex. Qed.

(** C55_clear_storage: for every capacity from 1 to 2^62 and every sequence
    of calls, push_front included: assigning a range, or calling clear() and
    pushing its values, starts over at the beginning of the caller's array: the
    last values of the range (as many as the capacity) are found at their index
    modulo the capacity, and the positions beyond the range keep what was there. *)
Theorem C55_clear_storage : forall (A : Type) (buffer : list A) (ops : list (scall A)) (s : cspan A) (l : list A),
  1 <= N.of_nat (length buffer) <= 2 ^ 62 ->
  cs_run (cs_new buffer) ops = Some s ->
  exists s', cs_assign s l = Some s' /\ cs_run s (SClear :: map SPushBack l) = Some s' /\
    (forall i, (length l - length buffer <= i < length l)%nat ->
       nth_error (cs_data s') (i mod length buffer) = nth_error l i) /\
    (forall j, (length l <= j)%nat -> nth_error (cs_data s') j = nth_error (cs_data s) j).
Proof. exact c55_storage. Qed.
Print Assumptions C55_clear_storage.

(** C55_clear_storage_ex: a span of capacity 3 that holds two values after
    a pop is given four: 7 at position 3 modulo 3. *)
Example C55_clear_storage_ex :
  let buffer := [0; 0; 0]%nat in
  let ops := [SPushBack 1; SPushBack 2; SPopFront; SPushFront 3]%nat in
  1 <= N.of_nat (length buffer) <= 2 ^ 62 /\
  match cs_run (cs_new buffer) ops with
  | Some s => option_map cs_data (cs_assign s [4; 5; 6; 7]%nat) = Some [7; 5; 6]%nat /\
      option_map cs_data (cs_assign s [9]%nat) = Some [9; 2; 0]%nat
  | None => False
  end.
Proof. exact c55_storage_ex. Qed.

(** C60_initial_contents_refuted: constructing a span over an array with
    a first element and a length does not make that element the front. *)
Theorem C60_initial_contents_refuted :
  exists (buffer : list nat) (first length_ : nat) (x : nat),
    (first + length_ <= length buffer)%nat /\ (0 < length_)%nat /\
    nth_error buffer first = Some x /\
    cs_front (cs_new_at buffer (N.of_nat first) (N.of_nat length_)) <> Some x.
Proof. exact c60_refuted. Qed.
Print Assumptions C60_initial_contents_refuted.

(** C60_initial_contents_partial: what the constructor does: the span
    holds the [length_] elements that precede the first element cyclically, in
    order; for every power-of-two capacity, and for other capacities when they
    do not wrap around the beginning of the array. *)
Theorem C60_initial_contents_partial : forall (A : Type) (buffer : list A) (first length_ : nat),
  1 <= N.of_nat (length buffer) <= 2 ^ 62 ->
  (first < length buffer)%nat -> (length_ <= length buffer)%nat ->
  (exists k, k <= 62 /\ N.of_nat (length buffer) = 2 ^ k) \/ (length_ <= first)%nat ->
  let s := cs_new_at buffer (N.of_nat first) (N.of_nat length_) in
  let l := lastn length_ (skipn first buffer ++ firstn first buffer) in
  cs_size s = N.of_nat length_ /\
  cs_elements (S (length buffer)) s = Some l /\
  cs_front s = hd_error l /\ cs_back s = last_error l.
Proof. exact c60_partial. Qed.
Print Assumptions C60_initial_contents_partial.

(** C60_initial_contents_partial_ex: first = 1 and length 2 over four
    elements hold the last and the first element of the array. *)
Example C60_initial_contents_partial_ex :
  let buffer := [10; 20; 30; 40]%nat in
  N.of_nat (length buffer) = 2 ^ 2 /\
  lastn 2 (skipn 1 buffer ++ firstn 1 buffer) = [40; 10]%nat /\
  cs_elements 5 (cs_new_at buffer 1 2) = Some [40; 10]%nat.
Proof. exact c60_partial_ex. Qed.
