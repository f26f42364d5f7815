(** * The P-square estimator compiled with contracted expressions

    The functions of Psquare.v in which the compiler may fuse a product with the
    addition it feeds (see Contracted.v).  In parabolic() two products feed the
    same addition; the compiler fuses one of them, [first] says which.  In
    linear() the only product is by 1 or -1, which is exact, so fusing it
    changes nothing and the function is kept.  In get() the product of the
    interpolation is fused; the product that gives the rank is stored in a
    variable that is used three times and is kept. *)

From Coq Require Import ZArith NArith Bool List.
From Verif Require Import Arith History Psquare Contracted.
Import ListNotations.
Local Open Scope num_scope.

Section Contracted.
Variable F : num.
Variable U : fused F.
Variable qs : list F.

(** quantile/detail/psquare.ipp:243-262 *)
Definition psq_parabolic_fma (first : bool) (p : list N) (h : list F) (index : nat) (sign : Z) : F :=
  let previous_height := hat F h (index - 1) in
  let current_height := hat F h index in
  let next_height := hat F h (index + 1) in
  let forward_step := szsub (pat p (index + 1)) (pat p index) in
  let backward_step := szsub (pat p index) (pat p (index - 1)) in
  let total_step := szsub (pat p (index + 1)) (pat p (index - 1)) in
  let x := nofsz (szadd backward_step (sz_of_int sign)) in
  let dx := (next_height - current_height) / nofsz forward_step in
  let y := nofsz (szsub forward_step (sz_of_int sign)) in
  let dy := (current_height - previous_height) / nofsz backward_step in
  let sum := if first then fma U x dx (y * dy) else fma U y dy (x * dx) in
  fma U (nofz sign / nofsz total_step) sum current_height.

(** quantile/detail/psquare.ipp:111-129, one iteration, with [parabolic] as the
    compiled form of the function of that name *)
Definition psq_adjust_with (parabolic : list N -> list F -> nat -> Z -> F)
    (desired : list F) (ph : list N * list F) (i : nat) : list N * list F :=
  let (p, h) := ph in
  let deviation := hat F desired i - nofsz (pat p i) in
  let sign : Z := if n0 <? deviation then 1%Z
                  else if deviation <? n0 then (-1)%Z else 0%Z in
  if ((sign =? 1)%Z && (1 <? szsub (pat p (i + 1)) (pat p i))%N)
     || ((sign =? -1)%Z && (1 <? szsub (pat p i) (pat p (i - 1)))%N)
  then
    let height := parabolic p h i sign in
    let h' := if (hat F h (i - 1) <? height) && (height <? hat F h (i + 1))
              then aset h i height
              else aset h i (psq_linear F p h i sign) in
    (aset p i (szadd (pat p i) (sz_of_int sign)), h')
  else (p, h).

(** quantile/detail/psquare.ipp:82-144 *)
Definition psq_push_with (parabolic : list N -> list F -> nat -> Z -> F) (s : psq F) (number : F) : psq F :=
  if (N.of_nat (parameter_length F qs) <=? ps_count F s)%N
  then
    let (k, h) := psq_cell F qs (ps_heights F s) number in
    let p := bump_from k (ps_positions F s) in
    let d := add_deltas F (ps_desired F s) (ps_deltas F s) in
    let ph := fold_left (psq_adjust_with parabolic d) (seq 1 (parameter_length F qs - 2)) (p, h) in
    Psq F (szadd (ps_count F s) 1) (fst ph) (snd ph) d (ps_deltas F s)
  else
    Psq F (szadd (ps_count F s) 1) (ps_positions F s)
        (insert_at F (ps_heights F s) (N.to_nat (ps_count F s)) number)
        (ps_desired F s) (ps_deltas F s).

(** quantile/detail/psquare.ipp:82-144, contracted *)
Definition psq_push_fma (first : bool) : psq F -> F -> psq F :=
  psq_push_with (psq_parabolic_fma first).

(** quantile/detail/psquare.ipp:159-202, contracted; [None] is undefined
    behaviour. *)
Definition psq_get_fma (s : psq F) (index : nat) : option F :=
  if (N.of_nat (parameter_length F qs) <? ps_count F s)%N
  then nth_error (ps_heights F s) (2 * index)
  else if (1 <? ps_count F s)%N
  then
    if (index =? 0)%nat then nth_error (ps_heights F s) 0
    else if (index =? 1 + quantile_length F qs)%nat
    then nth_error (ps_heights F s) (N.to_nat (szsub (ps_count F s) 1))
    else
      match nth_error qs (index - 1) with
      | None => None
      | Some q =>
        let rank := nofsz (szsub (ps_count F s) 1) * q in
        let slope := rank - nfloor rank in
        match hread F (ps_heights F s) (ntosz rank),
              hread F (ps_heights F s) (ntosz (rank + n1)) with
        | Some a, Some b => Some (fma U slope (b - a) a)
        | _, _ => None
        end
      end
  else if (0 <? ps_count F s)%N
  then nth_error (ps_heights F s) (N.to_nat (szsub (ps_count F s) 1))
  else Some n0.

(** quantile/detail/psquare.ipp:159-202 with the product of line 188 also fused
    into the subtraction of line 189, which the standard allows because
    contraction is not limited to one statement. *)
Definition psq_get_cross (s : psq F) (index : nat) : option F :=
  if (N.of_nat (parameter_length F qs) <? ps_count F s)%N
  then nth_error (ps_heights F s) (2 * index)
  else if (1 <? ps_count F s)%N
  then
    if (index =? 0)%nat then nth_error (ps_heights F s) 0
    else if (index =? 1 + quantile_length F qs)%nat
    then nth_error (ps_heights F s) (N.to_nat (szsub (ps_count F s) 1))
    else
      match nth_error qs (index - 1) with
      | None => None
      | Some q =>
        let rank := nofsz (szsub (ps_count F s) 1) * q in
        let slope := fms U (nofsz (szsub (ps_count F s) 1)) q (nfloor rank) in
        match hread F (ps_heights F s) (ntosz rank),
              hread F (ps_heights F s) (ntosz (rank + n1)) with
        | Some a, Some b => Some (fma U slope (b - a) a)
        | _, _ => None
        end
      end
  else if (0 <? ps_count F s)%N
  then nth_error (ps_heights F s) (N.to_nat (szsub (ps_count F s) 1))
  else Some n0.
End Contracted.
