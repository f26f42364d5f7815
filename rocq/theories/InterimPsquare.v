(** * Model of include/trial/online/interim/psquare_quantile.hpp

    The class stores pointers to its own members, and its copy operations are
    defaulted, so that an object can hold pointers into another object.  The model
    therefore has a memory of objects; a pointer names an object and one of its
    two members.  [None] is undefined behaviour: access to an object that does
    not exist. *)

From Coq Require Import ZArith NArith Bool List QArith.
From Verif Require Import Arith Psquare.
Import ListNotations.

(** Members that pointers may refer to, interim/psquare_quantile.hpp:87-88 *)
Inductive member := First | Second.

(** [quantile::psquare<...>*], interim/psquare_quantile.hpp:89-90: the object
    and the member pointed at. *)
Definition ptr : Type := (nat * member)%type.

Section InterimPsquare.
Variable F : num.
Variable W : N.        (* template parameter Window, a std::size_t *)
Variable qs : list F.  (* template parameters Quantiles, see Psquare.v *)
Local Open Scope num_scope.

(** interim/psquare_quantile.hpp:87-90 *)
Record ipsq : Type := Ipsq {
  iq_first : psq F;
  iq_second : psq F;
  iq_active : ptr;
  iq_inactive : option ptr
}.

(** The objects that exist.  (Model of storage; no counterpart in /repo,
    interim/psquare_quantile.hpp:58-62 only declares the special members.) *)
Definition memory : Type := nat -> option ipsq.
(** Update of one object (storage, no counterpart in /repo beyond
    interim/psquare_quantile.hpp:58-62). *)
Definition mset (h : memory) (o : nat) (v : option ipsq) : memory :=
  fun k => if Nat.eqb k o then v else h k.

(** Reading and writing through a pointer,
    interim/detail/psquare_quantile.ipp:42,46,55,61,81-85 *)
Definition member_of (q : ipsq) (m : member) : psq F :=
  match m with First => iq_first q | Second => iq_second q end.
(** Assignment to a member, interim/detail/psquare_quantile.ipp:46,55 *)
Definition with_member (q : ipsq) (m : member) (s : psq F) : ipsq :=
  match m with
  | First => Ipsq s (iq_second q) (iq_active q) (iq_inactive q)
  | Second => Ipsq (iq_first q) s (iq_active q) (iq_inactive q)
  end.
(** [*pointer] read, interim/detail/psquare_quantile.ipp:42,61,81-85 *)
Definition load (h : memory) (p : ptr) : option (psq F) :=
  match h (fst p) with
  | Some q => Some (member_of q (snd p))
  | None => None
  end.
(** [*pointer] written, interim/detail/psquare_quantile.ipp:46,55 *)
Definition store (h : memory) (p : ptr) (s : psq F) : option memory :=
  match h (fst p) with
  | Some q => Some (mset h (fst p) (Some (with_member q (snd p) s)))
  | None => None
  end.

(** Constructor of object [o], interim/detail/psquare_quantile.ipp:22-26 *)
Definition ipq_new (o : nat) : ipsq :=
  Ipsq (psq_init F qs) (psq_init F qs) (o, First) None.

(** interim/detail/psquare_quantile.ipp:29-35 *)
Definition ipq_clear (h : memory) (o : nat) : option memory :=
  match h o with
  | None => None
  | Some q =>
    Some (mset h o (Some (Ipsq (psq_clear F qs (iq_first q)) (psq_clear F qs (iq_second q))
                               (o, First) None)))
  end.

(** Assignment of the pointer members of object [o],
    interim/detail/psquare_quantile.ipp:47,51,52 *)
Definition set_pointers (h : memory) (o : nat) (a : ptr) (i : option ptr) : option memory :=
  match h o with
  | None => None
  | Some q => Some (mset h o (Some (Ipsq (iq_first q) (iq_second q) a i)))
  end.

(** [active->push(input)], interim/detail/psquare_quantile.ipp:55 *)
Definition push_through (h : memory) (o : nat) (input : F) : option memory :=
  match h o with
  | None => None
  | Some q =>
    match load h (iq_active q) with
    | None => None
    | Some s => store h (iq_active q) (psq_push F qs s input)
    end
  end.

(** interim/detail/psquare_quantile.ipp:38-56 *)
Definition ipq_push (h : memory) (o : nat) (input : F) : option memory :=
  match h o with
  | None => None
  | Some q =>
    match load h (iq_active q) with
    | None => None
    | Some s =>
      let h1 :=
        if (W / 2 <=? psq_size F s)%N
        then match iq_inactive q with
             | Some i =>
               match load h i with
               | None => None
               | Some t =>
                 match store h i (psq_clear F qs t) with
                 | None => None
                 | Some h' => set_pointers h' o i (Some (iq_active q))
                 end
               end
             | None => set_pointers h o (o, Second) (Some (iq_active q))
             end
        else Some h in
      match h1 with
      | None => None
      | Some h' => push_through h' o input
      end
    end
  end.

(** interim/detail/psquare_quantile.ipp:59-62 *)
Definition ipq_empty (h : memory) (o : nat) : option bool :=
  match h o with
  | None => None
  | Some q =>
    match load h (iq_active q) with
    | None => None
    | Some s =>
      if psq_empty F s
      then match iq_inactive q with
           | None => Some true
           | Some i => match load h i with
                       | None => None
                       | Some t => Some (psq_empty F t)
                       end
           end
      else Some false
    end
  end.

(** interim/detail/psquare_quantile.ipp:75-86 *)
Definition ipq_get (h : memory) (o : nat) (index : nat) : option F :=
  match h o with
  | None => None
  | Some q =>
    match load h (iq_active q) with
    | None => None
    | Some s =>
      match iq_inactive q with
      | Some i =>
        match load h i with
        | None => None
        | Some t =>
          let sz := psq_size F s in
          match psq_get F qs t index, psq_get F qs s index with
          | Some a, Some b =>
            Some ((a * nofsz (szsub (W / 2) sz) + b * nofsz (szmul 2 sz))
                  / nofsz (szadd (W / 2) sz))
          | _, _ => None
          end
        end
      | None => psq_get F qs s index
      end
    end
  end.

(** ** Programs with several objects

    [Copy d s] constructs [d] from [s], [Assign d s] is d = s; both are
    defaulted memberwise (interim/psquare_quantile.hpp:59-62, the move
    operations copy as well since all members are trivially copied). *)
Inductive cmd :=
| New (o : nat)
| Copy (d s : nat)
| Assign (d s : nat)
| Destroy (o : nat)
| PushTo (o : nat) (x : F)
| ClearOf (o : nat).

(** interim/psquare_quantile.hpp:58-70 *)
Definition step (h : memory) (c : cmd) : option memory :=
  match c with
  | New o => match h o with None => Some (mset h o (Some (ipq_new o))) | _ => None end
  | Copy d s =>
    match h d, h s with
    | None, Some q => Some (mset h d (Some q))
    | _, _ => None
    end
  | Assign d s =>
    match h d, h s with
    | Some _, Some q => Some (mset h d (Some q))
    | _, _ => None
    end
  | Destroy o => match h o with Some _ => Some (mset h o None) | None => None end
  | PushTo o x => ipq_push h o x
  | ClearOf o => ipq_clear h o
  end.

(** Execution of a program from the memory without objects
    (interim/psquare_quantile.hpp:58-70). *)
Definition exec (cs : list cmd) : option memory :=
  fold_left (fun r c => match r with Some h => step h c | None => None end) cs
            (Some (fun _ => None)).

End InterimPsquare.

Arguments New {F}.
Arguments Copy {F}.
Arguments Assign {F}.
Arguments Destroy {F}.
Arguments PushTo {F}.
Arguments ClearOf {F}.

(** interim/detail/psquare_quantile.ipp:66-71 *)
Definition ipq_value (F : num) (W : N) (of_ratio : Q -> F) (ratios : list Q)
  (h : memory F) (o : nat) (q : Q) : option F :=
  ipq_get F W (map of_ratio ratios) h o (ratio_find q (quantile_list ratios)).

(** interim/psquare_quantile.hpp:76-79: value() without a template argument *)
Definition ipq_value_default (F : num) (W : N) (of_ratio : Q -> F) (ratios : list Q)
  (h : memory F) (o : nat) : option F :=
  ipq_value F W of_ratio ratios h o
    (nth (1 + length ratios / 2) (quantile_list ratios) 0%Q).

(** interim/psquare_quantile.hpp:81-84: get() without a template argument *)
Definition ipq_get_default (F : num) (W : N) (qs : list F) (h : memory F) (o : nat) : option F :=
  ipq_get F W qs h o (1 + length qs / 2).
