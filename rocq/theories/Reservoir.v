(** * Model of reservoir sampling

    include/trial/online/sampling/reservoir.hpp and detail/reservoir.ipp.

    The random generator and the standard distributions are not modelled as
    code: every value a distribution may return is an explicit argument, and
    [rs_request] says which uniform range the code asks for.  [None] is
    undefined behaviour (an element access outside the vector, or a
    distribution parameter outside its domain). *)

From Coq Require Import List Arith NArith Bool.
From Verif Require Import Arith CircularSpan.
Import ListNotations.
Local Open Scope N_scope.

Section Reservoir.
Context {T : Type}.

(** Members: reservoir.hpp:58-65 (distributions and generator excepted). *)
Record rsv := Rsv {
  rs_sample_size : N;
  rs_threshold : N;
  rs_count_ : N;
  rs_skip : N;
  rs_samples : list T
}.

(** Constructors: reservoir.ipp:20-38; [4 * N] wraps modulo 2^64. *)
Definition rs_new (n : N) : rsv := Rsv n (szmul 4 n) 0 0 [].

(** [empty], [size], [count], [data]: reservoir.ipp:40-56,113-117. *)
Definition rs_empty (s : rsv) : bool :=
  match rs_samples s with [] => true | _ => false end.
(** [size]: reservoir.ipp:46-50. *)
Definition rs_length (s : rsv) : N := N.of_nat (length (rs_samples s)).
(** [count]: reservoir.ipp:52-56. *)
Definition rs_count (s : rsv) : N := rs_count_ s.
(** [data]: reservoir.ipp:113-117. *)
Definition rs_data (s : rsv) : list T := rs_samples s.

(** [clear]: reservoir.ipp:58-63. *)
Definition rs_clear (s : rsv) : rsv :=
  Rsv (rs_sample_size s) (rs_threshold s) 0 0 (rs_samples s).

(** [samples[index] = element] *)
Definition rs_assign (l : list T) (index : N) (x : T) : option (list T) :=
  if index <? N.of_nat (length l) then Some (set_nth l (N.to_nat index) x) else None.

(** The closed range of the uniform draw made by [push] in a state, if any:
    reservoir.ipp:24,34 with 79, and 91-92. *)
Definition rs_request (s : rsv) : option (N * N) :=
  if rs_threshold s <=? rs_count_ s
  then if rs_skip s =? 0 then Some (0, szsub (rs_sample_size s) 1) else None
  else if rs_sample_size s <=? rs_count_ s then Some (0, rs_count_ s)
  else None.

(** Whether [push] draws from the geometric distribution, and its precondition
    0 < p < 1 for p = sample_size / double(sample_count)
    (reservoir.ipp:72-76, [rand.dist.bern.geo]).  The rounding of the quotient
    is not modelled. *)
Definition rs_geometric_ok (s : rsv) : bool :=
  (0 <? rs_sample_size s) && (rs_sample_size s <? rs_count_ s).

(** [push]: reservoir.ipp:65-111.  [skip] and [index] are the values returned
    by the geometric and the uniform distribution, ignored if not drawn. *)
Definition rs_push (s : rsv) (element : T) (skip index : N) : option (rsv * bool) :=
  let n := rs_sample_size s in
  let rejected sk :=
    Some (Rsv n (rs_threshold s) (szadd (rs_count_ s) 1) sk (rs_samples s), false) in
  let stored sk :=
    obind (rs_assign (rs_samples s) index element) (fun l =>
    Some (Rsv n (rs_threshold s) (szadd (rs_count_ s) 1) sk l, true)) in
  if rs_threshold s <=? rs_count_ s
  then
    if rs_skip s =? 0
    then if rs_geometric_ok s then stored skip else None
    else rejected (szsub (rs_skip s) 1)
  else if n <=? rs_count_ s
  then if index <? n then stored (rs_skip s) else rejected (rs_skip s)
  else Some (Rsv n (rs_threshold s) (szadd (rs_count_ s) 1) (rs_skip s)
               (rs_samples s ++ [element]), true).

End Reservoir.
Arguments rsv : clear implicits.

(** A call: a push together with the outcome of the draws it makes, or
    clear. *)
Inductive rcall (T : Type) : Type :=
| RPush (element : T) (skip index : N)
| RClear.
Arguments RPush {T}. Arguments RClear {T}.

(** One call of [push] or [clear] (reservoir.ipp:58-111). *)
Definition rs_call {T} (s : rsv T) (c : rcall T) : option (rsv T) :=
  match c with
  | RPush x g i => obind (rs_push s x g i) (fun r => Some (fst r))
  | RClear => Some (rs_clear s)
  end.
(** A sequence of calls (reservoir.ipp:58-111). *)
Fixpoint rs_run {T} (s : rsv T) (cs : list (rcall T)) : option (rsv T) :=
  match cs with
  | [] => Some s
  | c :: cs' => obind (rs_call s c) (fun s' => rs_run s' cs')
  end.

(** The draws recorded in the calls are possible: every index lies in the range
    requested at that moment. *)
Definition rs_possible {T} (s : rsv T) (index : N) : Prop :=
  match rs_request s with
  | Some (lo, hi) => lo <= index <= hi
  | None => True
  end.
(** The same along a sequence of calls (reservoir.ipp:58-111). *)
Fixpoint rs_valid {T} (s : rsv T) (cs : list (rcall T)) : Prop :=
  match cs with
  | [] => True
  | c :: cs' =>
      match c with
      | RPush _ _ i => rs_possible s i
      | RClear => True
      end /\
      match rs_call s c with
      | Some s' => rs_valid s' cs'
      | None => True
      end
  end.

(** All outcomes of a uniform draw over the requested range (one, arbitrary,
    when nothing is drawn). *)
Definition rs_outcomes {T} (s : rsv T) : list N :=
  match rs_request s with
  | Some (lo, hi) => map N.of_nat (seq (N.to_nat lo) (S (N.to_nat hi) - N.to_nat lo))
  | None => [0]
  end.

(** The final states after pushing [xs], one for every combination of uniform
    draws (the geometric draw, made only from the threshold on, is fixed to
    0). *)
Fixpoint rs_all {T} (s : rsv T) (xs : list T) : list (rsv T) :=
  match xs with
  | [] => [s]
  | x :: xs' =>
      flat_map
        (fun i => match rs_push s x 0 i with
                  | Some (s', _) => rs_all s' xs'
                  | None => []
                  end)
        (rs_outcomes s)
  end.
