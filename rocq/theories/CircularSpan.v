(** * Model of circular_span

    include/trial/online/detail/circular_span.ipp.  The class definition
    (circular_span.hpp) is not part of the repository; the members are those
    named by the constructors (circular_span.ipp:26,36): [data], [capacity],
    [size], [next], the last three of type size_t.

    [None] is undefined behaviour: a violated [assert], a division by zero, or
    an access outside the buffer. *)

From Coq Require Import List Arith NArith.
From Verif Require Import Arith.
Import ListNotations.
Local Open Scope N_scope.

(** Sequencing: undefined behaviour (e.g. the asserts of
    circular_span.ipp:80,88,150,158) is final. *)
Definition obind {A B : Type} (x : option A) (f : A -> option B) : option B :=
  match x with
  | Some a => f a
  | None => None
  end.

(** Assignment to [data[i]] for an [i] inside the buffer. *)
Fixpoint set_nth {A : Type} (l : list A) (i : nat) (x : A) : list A :=
  match l, i with
  | [], _ => []
  | _ :: t, O => x :: t
  | a :: t, S j => a :: set_nth t j x
  end.

Section CircularSpan.
Context {A : Type}.

(** [data] is the underlying contiguous buffer. *)
Record cspan := CSpan {
  cs_data : list A;
  cs_capacity : N;
  cs_size : N;
  cs_next : N
}.

(** circular_span(begin, end): circular_span.ipp:22-28 (and the array overload
    40-45). *)
Definition cs_new (buffer : list A) : cspan :=
  CSpan buffer (N.of_nat (length buffer)) 0 0.

(** circular_span(begin, end, first, length): circular_span.ipp:30-38; [first]
    is given by its distance from [begin]. *)
Definition cs_new_at (buffer : list A) (first length_ : N) : cspan :=
  CSpan buffer (N.of_nat (length buffer)) length_ first.

(** [empty], [full]: circular_span.ipp:54-64; [capacity], [size] (66-76) are
    the members. *)
Definition cs_empty (s : cspan) : bool := cs_size s =? 0.
(** [full]: circular_span.ipp:60-64. *)
Definition cs_full (s : cspan) : bool := cs_size s =? cs_capacity s.

(** [index]: circular_span.ipp:203-207. *)
Definition cs_index (s : cspan) (position : N) : option N :=
  if cs_capacity s =? 0 then None else Some (position mod cs_capacity s).

(** [vindex]: circular_span.ipp:209-213. *)
Definition cs_vindex (s : cspan) (position : N) : option N :=
  let c2 := szmul 2 (cs_capacity s) in
  if c2 =? 0 then None else Some (position mod c2).

(** [at] used as an rvalue: circular_span.ipp:215-225. *)
Definition cs_at (s : cspan) (position : N) : option A :=
  obind (cs_index s position) (fun i => nth_error (cs_data s) (N.to_nat i)).

(** [at(position) = x]: circular_span.ipp:215-219. *)
Definition cs_store (s : cspan) (position : N) (x : A) : option cspan :=
  obind (cs_index s position) (fun i =>
  if i <? N.of_nat (length (cs_data s))
  then Some (CSpan (set_nth (cs_data s) (N.to_nat i) x)
               (cs_capacity s) (cs_size s) (cs_next s))
  else None).

(** [front]: circular_span.ipp:78-84. *)
Definition cs_front (s : cspan) : option A :=
  if cs_empty s then None else cs_at s (szsub (cs_next s) (cs_size s)).

(** [back]: circular_span.ipp:86-92. *)
Definition cs_back (s : cspan) : option A :=
  if cs_empty s then None else cs_at s (szsub (cs_next s) 1).

(** [clear]: circular_span.ipp:94-99. *)
Definition cs_clear (s : cspan) : cspan :=
  CSpan (cs_data s) (cs_capacity s) 0 0.

(** [push_front]: circular_span.ipp:123-135. *)
Definition cs_push_front (s : cspan) (x : A) : option cspan :=
  obind
    (if cs_full s
     then obind (cs_index s (cs_next s)) (fun i =>
            Some (CSpan (cs_data s) (cs_capacity s) (cs_size s)
                    (szsub (szadd (cs_capacity s) i) 1)))
     else Some (CSpan (cs_data s) (cs_capacity s) (szadd (cs_size s) 1) (cs_next s)))
    (fun s1 =>
       obind (cs_index s1 (cs_next s1)) (fun i =>
       cs_store s1 (szsub i (cs_size s1)) x)).

(** [push_back]: circular_span.ipp:137-146. *)
Definition cs_push_back (s : cspan) (x : A) : option cspan :=
  obind (cs_store s (cs_next s) x) (fun s1 =>
  obind (cs_index s1 (cs_next s1)) (fun i =>
  let s2 := CSpan (cs_data s1) (cs_capacity s1) (cs_size s1)
              (szadd (szadd (cs_capacity s1) i) 1) in
  if negb (cs_full s2)
  then Some (CSpan (cs_data s2) (cs_capacity s2) (szadd (cs_size s2) 1) (cs_next s2))
  else Some s2)).

(** [pop_front]: circular_span.ipp:148-154. *)
Definition cs_pop_front (s : cspan) : option cspan :=
  if cs_empty s then None
  else Some (CSpan (cs_data s) (cs_capacity s) (szsub (cs_size s) 1) (cs_next s)).

(** [pop_back]: circular_span.ipp:156-163. *)
Definition cs_pop_back (s : cspan) : option cspan :=
  if cs_empty s then None
  else obind (cs_index s (szsub (cs_next s) 1)) (fun i =>
       Some (CSpan (cs_data s) (cs_capacity s) (szsub (cs_size s) 1)
               (szadd (cs_capacity s) i))).

(** [assign] (both overloads) and [operator=]: circular_span.ipp:47-52,101-121. *)
Fixpoint cs_push_all (s : cspan) (l : list A) : option cspan :=
  match l with
  | [] => Some s
  | x :: l' => obind (cs_push_back s x) (fun s1 => cs_push_all s1 l')
  end.
(** [assign]: circular_span.ipp:101-121. *)
Definition cs_assign (s : cspan) (l : list A) : option cspan :=
  cs_push_all (cs_clear s) l.

(** Iterators (circular_span.ipp:231-274) hold the span and a position; the
    span is passed separately.
    [begin], [end]: circular_span.ipp:165-199. *)
Definition cs_begin (s : cspan) : option N :=
  cs_vindex s (szsub (cs_next s) (cs_size s)).
(** [end]: circular_span.ipp:171-175 (and the const overloads). *)
Definition cs_end (s : cspan) : option N := cs_vindex s (cs_next s).

(** [operator++]: circular_span.ipp:240-248. *)
Definition it_next (s : cspan) (current : N) : option N :=
  cs_vindex s (szadd current 1).

(** [operator*]: circular_span.ipp:250-257. *)
Definition it_deref (s : cspan) (current : N) : option A := cs_at s current.

(** [operator==]: circular_span.ipp:259-267 for iterators of the same span. *)
Definition it_eq (current other : N) : bool := current =? other.

(** The elements visited by [for (it = first; it != last; ++it) *it] within
    [fuel] comparisons; [None] if the loop has not ended by then. *)
Fixpoint cs_visit (fuel : nat) (s : cspan) (current last : N) : option (list A) :=
  match fuel with
  | O => None
  | S fuel' =>
      if it_eq current last then Some []
      else
        obind (it_deref s current) (fun x =>
        obind (it_next s current) (fun current' =>
        obind (cs_visit fuel' s current' last) (fun rest => Some (x :: rest))))
  end.

(** A loop from [begin()] to [end()] (circular_span.ipp:165-199). *)
Definition cs_elements (fuel : nat) (s : cspan) : option (list A) :=
  obind (cs_begin s) (fun b => obind (cs_end s) (fun e => cs_visit fuel s b e)).

End CircularSpan.
Arguments cspan : clear implicits.

(** A call of a modifying member function. *)
Inductive scall (A : Type) : Type :=
| SPushBack (x : A)
| SPushFront (x : A)
| SPopFront
| SPopBack
| SClear
| SAssign (l : list A).
Arguments SPushBack {A}. Arguments SPushFront {A}. Arguments SPopFront {A}.
Arguments SPopBack {A}. Arguments SClear {A}. Arguments SAssign {A}.

(** Performing a call, and a sequence of calls, on the object. *)
Definition cs_call {A} (s : cspan A) (o : scall A) : option (cspan A) :=
  match o with
  | SPushBack x => cs_push_back s x
  | SPushFront x => cs_push_front s x
  | SPopFront => cs_pop_front s
  | SPopBack => cs_pop_back s
  | SClear => Some (cs_clear s)
  | SAssign l => cs_assign s l
  end.
(** A sequence of calls of the members circular_span.ipp:94-163. *)
Fixpoint cs_run {A} (s : cspan A) (ops : list (scall A)) : option (cspan A) :=
  match ops with
  | [] => Some s
  | o :: ops' => obind (cs_call s o) (fun s' => cs_run s' ops')
  end.
