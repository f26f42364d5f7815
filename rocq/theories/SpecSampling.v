(** * Vocabulary for sampling without replacement *)

From Coq Require Import List Arith NArith Bool.
From Verif Require Import Reservoir.
Import ListNotations.

(** [data] are the elements of [l] at pairwise distinct positions. *)
Definition sample_of {T} (l data : list T) : Prop :=
  exists positions, NoDup positions /\
    Forall2 (fun p x => nth_error l p = Some x) positions data.

(** Pushes only. *)
Definition only_pushes {T} (cs : list (rcall T)) : Prop :=
  forall c, In c cs -> c <> RClear.

(** The values pushed, in order. *)
Fixpoint pushed {T} (cs : list (rcall T)) : list T :=
  match cs with
  | [] => []
  | RPush x _ _ :: cs' => x :: pushed cs'
  | RClear :: cs' => pushed cs'
  end.

(** The numbers of pushes between clears: the number since the last clear, and
    those of the earlier stretches. *)
Fixpoint stretches {T} (current : nat) (cs : list (rcall T)) : nat * list nat :=
  match cs with
  | [] => (current, [])
  | RPush _ _ _ :: cs' => stretches (S current) cs'
  | RClear :: cs' =>
      let r := stretches 0 cs' in (fst r, current :: snd r)
  end.

(** Two lists of numbers have the same elements. *)
Definition mem (x : nat) (l : list nat) : bool := existsb (Nat.eqb x) l.
Definition same_elements (a b : list nat) : bool :=
  forallb (fun x => mem x b) a && forallb (fun x => mem x a) b.

(** Number of outcomes satisfying a test. *)
Definition number {A} (p : A -> bool) (l : list A) : nat := length (filter p l).

(** What the calls of [push] do, apart from the data: the range requested from
    the uniform distribution (if any), the result, and count() afterwards. *)
Fixpoint decisions {T} (s : rsv T) (cs : list (rcall T)) : option (list (option (N * N) * bool * N)) :=
  match cs with
  | [] => Some []
  | RClear :: cs' => decisions (rs_clear s) cs'
  | RPush x g i :: cs' =>
      match rs_push s x g i with
      | None => None
      | Some (s', accepted) =>
          match decisions s' cs' with
          | None => None
          | Some d => Some ((rs_request s, accepted, rs_count s') :: d)
          end
      end
  end.
