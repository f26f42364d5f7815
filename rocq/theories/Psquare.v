(** * Model of include/trial/online/quantile/ (P-square quantile estimator)

    [qs] is the member array [quantiles] (psquare.hpp:99): the template
    parameters [Quantiles...] converted to the value type, in the order in
    which they were listed. *)

From Coq Require Import ZArith NArith Bool List QArith.
From Verif Require Import Arith.
Import ListNotations.

(** [std::array] element assignment (psquare.hpp:102-105).  Every index used by
    push() is below the length; see theorem C35. *)
Fixpoint aset {A} (l : list A) (i : nat) (v : A) : list A :=
  match l, i with
  | [], _ => []
  | _ :: t, O => v :: t
  | x :: t, S j => x :: aset t j v
  end.

(** Conversion of an [int] operand to [size_type] in the mixed expressions of
    quantile/detail/psquare.ipp:127,238,260,261. *)
Definition sz_of_int (z : Z) : N := Z.to_N (z mod Z.of_N szmod).

Section Psquare.
Variable F : num.
Local Open Scope num_scope.

(** quantile/psquare.hpp:101-105 *)
Record psq : Type := Psq {
  ps_count : N;
  ps_positions : list N;
  ps_heights : list F;
  ps_desired : list F;
  ps_deltas : list F
}.

Variable qs : list F.

(** quantile/psquare.hpp:97-98 *)
Definition quantile_length : nat := length qs.
(** quantile/psquare.hpp:98 *)
Definition parameter_length : nat := 2 * quantile_length + 3.

(** quantile/detail/psquare.ipp:45-52.  The assignments are listed by element
    instead of by loop iteration. *)
Fixpoint deltas_from (previous : F) (q : list F) : list F :=
  match q with
  | [] => [(previous + n1) / nofz 2; n1]
  | x :: t => (previous + x) / nofz 2 :: x :: deltas_from x t
  end.
(** quantile/detail/psquare.ipp:44-52 *)
Definition constant_deltas : list F := n0 :: deltas_from n0 qs.

(** quantile/detail/psquare.ipp:41-61 *)
Definition psq_initialize : psq :=
  Psq 0
      (map (fun i => N.of_nat (S i)) (seq 0 parameter_length))
      (repeat n0 parameter_length)
      (map (fun d => n1 + nofsz (N.of_nat (2 * (quantile_length + 1))) * d)
           constant_deltas)
      constant_deltas.

(** quantile/detail/psquare.ipp:35-38 *)
Definition psq_init : psq := psq_initialize.

(** quantile/detail/psquare.ipp:64-67.  initialize() overwrites every member. *)
Definition psq_clear (s : psq) : psq := psq_initialize.

(** quantile/detail/psquare.ipp:70-79 *)
Definition psq_empty (s : psq) : bool := N.eqb (ps_count s) 0.
(** quantile/detail/psquare.ipp:76-79 *)
Definition psq_size (s : psq) : N := ps_count s.

(** Element reads.  All indices are in bounds (theorem C35), so the default
    values are never returned. *)
Definition hat (h : list F) (i : nat) : F := nth i h n0.
(** [positions[i]], as read at quantile/detail/psquare.ipp:114-127,238,253-255. *)
Definition pat (p : list N) (i : nat) : N := nth i p 0%N.

(** [index + sign] on [size_type], quantile/detail/psquare.ipp:238 *)
Definition idx_shift (index : nat) (sign : Z) : nat :=
  Z.to_nat ((Z.of_nat index + sign) mod Z.of_N szmod).

(** quantile/detail/psquare.ipp:231-239 *)
Definition psq_linear (p : list N) (h : list F) (index : nat) (sign : Z) : F :=
  hat h index
  + nofz sign
    * ((hat h (idx_shift index sign) - hat h index)
       / nofsz (szsub (pat p (idx_shift index sign)) (pat p index))).

(** quantile/detail/psquare.ipp:243-262 *)
Definition psq_parabolic (p : list N) (h : list F) (index : nat) (sign : Z) : F :=
  let previous_height := hat h (index - 1) in
  let current_height := hat h index in
  let next_height := hat h (index + 1) in
  let forward_step := szsub (pat p (index + 1)) (pat p index) in
  let backward_step := szsub (pat p index) (pat p (index - 1)) in
  let total_step := szsub (pat p (index + 1)) (pat p (index - 1)) in
  current_height
  + (nofz sign / nofsz total_step)
    * ((nofsz (szadd backward_step (sz_of_int sign))
        * ((next_height - current_height) / nofsz forward_step))
       + (nofsz (szsub forward_step (sz_of_int sign))
          * ((current_height - previous_height) / nofsz backward_step))).

(** quantile/detail/psquare.ipp:111-129, one iteration *)
Definition psq_adjust (desired : list F) (ph : list N * list F) (i : nat)
  : list N * list F :=
  let (p, h) := ph in
  let deviation := hat desired i - nofsz (pat p i) in
  let sign : Z := if n0 <? deviation then 1%Z
                  else if deviation <? n0 then (-1)%Z else 0%Z in
  if ((sign =? 1)%Z && (1 <? szsub (pat p (i + 1)) (pat p i))%N)
     || ((sign =? -1)%Z && (1 <? szsub (pat p i) (pat p (i - 1)))%N)
  then
    let height := psq_parabolic p h i sign in
    let h' := if (hat h (i - 1) <? height) && (height <? hat h (i + 1))
              then aset h i height
              else aset h i (psq_linear p h i sign) in
    (aset p i (szadd (pat p i) (sz_of_int sign)), h')
  else (p, h).

(** [std::distance(begin, std::upper_bound(begin, end, number))]
    (quantile/detail/psquare.ipp:98): the index of the first element greater
    than [number].  [std::upper_bound] requires a partitioned range, on which
    every implementation returns this index; theorem C37 shows that the heights
    are sorted whenever it is called. *)
Fixpoint upper_bound (h : list F) (number : F) : nat :=
  match h with
  | [] => 0
  | x :: t => if number <? x then 0 else S (upper_bound t number)
  end.

(** quantile/detail/psquare.ipp:86-99: the cell and the new extreme heights *)
Definition psq_cell (h : list F) (number : F) : nat * list F :=
  if number <? hat h 0 then (1%nat, aset h 0 number)
  else if hat h (parameter_length - 1) <=? number
       then ((parameter_length - 1)%nat, aset h (parameter_length - 1) number)
       else (upper_bound h number, h).

(** quantile/detail/psquare.ipp:102-110, [positions] *)
Fixpoint bump_from (k : nat) (p : list N) : list N :=
  match p with
  | [] => []
  | x :: t => (match k with O => szadd x 1 | S _ => x end) :: bump_from (pred k) t
  end.

(** quantile/detail/psquare.ipp:102-110, [desired_positions]: every element is
    increased by its delta. *)
Definition add_deltas (desired deltas : list F) : list F :=
  map (fun de => fst de + snd de) (combine desired deltas).

(** quantile/detail/psquare.ipp:135-141 *)
Fixpoint insert_at (h : list F) (k : nat) (number : F) : list F :=
  match k with
  | O => aset h 0 number
  | S j => if number <? hat h j
           then insert_at (aset h k (hat h j)) j number
           else aset h k number
  end.

(** quantile/detail/psquare.ipp:82-144 *)
Definition psq_push (s : psq) (number : F) : psq :=
  if (N.of_nat parameter_length <=? ps_count s)%N
  then
    let (k, h) := psq_cell (ps_heights s) number in
    let p := bump_from k (ps_positions s) in
    let d := add_deltas (ps_desired s) (ps_deltas s) in
    let ph := fold_left (psq_adjust d) (seq 1 (parameter_length - 2)) (p, h) in
    Psq (szadd (ps_count s) 1) (fst ph) (snd ph) d (ps_deltas s)
  else
    Psq (szadd (ps_count s) 1) (ps_positions s)
        (insert_at (ps_heights s) (N.to_nat (ps_count s)) number)
        (ps_desired s) (ps_deltas s).

(** Element access by a [size_t] index; [None] is an access outside the array. *)
Definition hread (h : list F) (i : option N) : option F :=
  match i with
  | Some n => nth_error h (N.to_nat n)
  | None => None
  end.

(** quantile/detail/psquare.ipp:159-202; [None] is undefined behaviour. *)
Definition psq_get (s : psq) (index : nat) : option F :=
  if (N.of_nat parameter_length <? ps_count s)%N
  then nth_error (ps_heights s) (2 * index)
  else if (1 <? ps_count s)%N
  then
    if (index =? 0)%nat then nth_error (ps_heights s) 0
    else if (index =? 1 + quantile_length)%nat
    then nth_error (ps_heights s) (N.to_nat (szsub (ps_count s) 1))
    else
      match nth_error qs (index - 1) with
      | None => None
      | Some q =>
        let rank := nofsz (szsub (ps_count s) 1) * q in
        let slope := rank - nfloor rank in
        match hread (ps_heights s) (ntosz rank),
              hread (ps_heights s) (ntosz (rank + n1)) with
        | Some a, Some b => Some (a + slope * (b - a))
        | _, _ => None
        end
      end
  else if (0 <? ps_count s)%N
  then nth_error (ps_heights s) (N.to_nat (szsub (ps_count s) 1))
  else Some n0.

(** quantile/psquare.hpp:71: the default index *)
Definition default_index : nat := 1 + quantile_length / 2.

(** quantile/psquare.hpp:70-72: get() without a template argument *)
Definition psq_get_default (s : psq) : option F := psq_get s default_index.

(** quantile/detail/psquare.ipp:206-215 *)
Definition psq_parameters (s : psq) : list (N * F) :=
  combine (ps_positions s) (ps_heights s).

(** quantile/detail/psquare.ipp:220-224, the loop over the first [n] elements.
    A position is converted to [value_type] for [desired_positions] and from
    there back to [size_type] for [positions].  [None] is undefined behaviour: an
    access past the end of [data], or a conversion out of range. *)
Fixpoint psq_assign (n : nat) (data : list (N * F)) : option (list N * (list F * list F)) :=
  match n with
  | O => Some ([], ([], []))
  | S m =>
    match data with
    | [] => None
    | (position, height) :: rest =>
      match ntosz (nofsz position : F), psq_assign m rest with
      | Some p, Some (ps, (hs, ds)) => Some (p :: ps, (height :: hs, nofsz position :: ds))
      | _, _ => None
      end
    end
  end.

(** quantile/detail/psquare.ipp:218-227; [None] is undefined behaviour. *)
Definition psq_restore (s : psq) (data : list (N * F)) : option psq :=
  match psq_assign parameter_length data with
  | Some (ps, (hs, ds)) => Some (Psq (N.of_nat parameter_length) ps hs ds (ps_deltas s))
  | None => None
  end.

End Psquare.

(** ** Lookup by ratio

    [QuantileList] (quantile/psquare.hpp:46) is the sorted list of the ratios
    extended with 0 and 1; [mp_find] (quantile/detail/psquare.ipp:151) returns
    the position of the first occurrence of a ratio.  [mp_sort] is modelled by
    insertion sort, ratios by rationals in lowest terms. *)
Fixpoint ratio_insert (q : Q) (l : list Q) : list Q :=
  match l with
  | [] => [q]
  | x :: t => if Qle_bool q x then q :: l else x :: ratio_insert q t
  end.
(** [mp_sort] at quantile/psquare.hpp:46 *)
Definition ratio_sort (l : list Q) : list Q := fold_right ratio_insert [] l.

(** quantile/psquare.hpp:46 *)
Definition quantile_list (ratios : list Q) : list Q :=
  ratio_sort ([0%Q] ++ ratios ++ [1%Q]).

(** quantile/detail/psquare.ipp:151 *)
Fixpoint ratio_find (q : Q) (l : list Q) : nat :=
  match l with
  | [] => 0
  | x :: t => if Qeq_bool q x then 0 else S (ratio_find q t)
  end.

(** quantile/detail/psquare.ipp:149-154 *)
Definition psq_value (F : num) (of_ratio : Q -> F) (ratios : list Q)
  (s : psq F) (q : Q) : option F :=
  psq_get F (map of_ratio ratios) s (ratio_find q (quantile_list ratios)).

(** quantile/psquare.hpp:99: [Quantiles::num / value_type(Quantiles::den)] *)
Definition ratio_value (F : num) (q : Q) : F :=
  ndiv (nofz (Qnum q)) (nofz (Zpos (Qden q))).

(** quantile/psquare.hpp:65-68: value() without a template argument; [mp_at_c]
    is a list access. *)
Definition psq_value_default (F : num) (of_ratio : Q -> F) (ratios : list Q)
  (s : psq F) : option F :=
  psq_value F of_ratio ratios s
    (nth (default_index F (map of_ratio ratios)) (quantile_list ratios) 0%Q).
