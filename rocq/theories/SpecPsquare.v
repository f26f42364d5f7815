(** * Specification for quantile estimators

    Order statistics, and the P-square algorithm of Jain and Chlamtac
    (Communications of the ACM 28(10), 1985) on mathematical integers and
    reals.  Nothing here refers to the model. *)

From Coq Require Import Reals ZArith NArith List Sorting.Sorted Sorting.Permutation.
From Coq Require Import Bool.
Import ListNotations.
Local Open Scope R_scope.

(** [s] is the list [l] in ascending order. *)
Definition order_statistics (l s : list R) : Prop :=
  Permutation l s /\ StronglySorted Rle s.

(** Linear interpolation between the order statistics around a rank. *)
Definition interpolate (s : list R) (rank : R) : R :=
  let i := Z.to_nat (Int_part rank) in
  nth i s 0 + (rank - IZR (Int_part rank)) * (nth (S i) s 0 - nth i s 0).

(** ** The algorithm

    Markers are numbered from 0; [mk_n], [mk_h] and [mk_d] are their positions,
    heights and desired positions. *)
Record markers : Type := Markers {
  mk_n : nat -> Z;
  mk_h : nat -> R;
  mk_d : nat -> R
}.

Definition upd {A} (f : nat -> A) (i : nat) (v : A) : nat -> A :=
  fun j => if Nat.eqb j i then v else f j.

(** Linear prediction: height, neighbour's height and (signed) distance to the
    neighbour. *)
Definition published_linear (s : Z) (h h' : R) (d : Z) : R :=
  h + IZR s * ((h' - h) / IZR d).

(** When a marker moves, given how far its desired position is ahead (or, for
    the opposite direction, behind): published is a distance of at least 1. *)
Definition far_published (distance : R) : bool := if Rle_dec 1 distance then true else false.

(** The variant that moves a marker whenever it is not at its desired position. *)
Definition far_any (distance : R) : bool := if Rlt_dec 0 distance then true else false.

Section Algorithm.
Variable linear : Z -> R -> R -> Z -> R.
Variable far : R -> bool.
Variable len : nat.               (* number of markers *)
Variable delta : nat -> R.        (* increments of the desired positions *)

Definition p2_parabolic (n : nat -> Z) (h : nat -> R) (i : nat) (s : Z) : R :=
  h i + IZR s / IZR (n (i + 1)%nat - n (i - 1)%nat)
        * (IZR (n i - n (i - 1)%nat + s) * (h (i + 1)%nat - h i)
             / IZR (n (i + 1)%nat - n i)
           + IZR (n (i + 1)%nat - n i - s) * (h i - h (i - 1)%nat)
             / IZR (n i - n (i - 1)%nat)).

(** Direction in which marker [i] has to move. *)
Definition p2_sign (d : nat -> R) (n : nat -> Z) (i : nat) : Z :=
  if far (d i - IZR (n i))
  then if Z_lt_dec 1 (n (i + 1)%nat - n i) then 1%Z else 0%Z
  else if far (IZR (n i) - d i)
  then if Z_lt_dec 1 (n i - n (i - 1)%nat) then (-1)%Z else 0%Z
  else 0%Z.

Definition p2_height (n : nat -> Z) (h : nat -> R) (i : nat) (s : Z) : R :=
  let y := p2_parabolic n h i s in
  let j := Z.to_nat (Z.of_nat i + s) in
  if Rlt_dec (h (i - 1)%nat) y
  then if Rlt_dec y (h (i + 1)%nat) then y else linear s (h i) (h j) (n j - n i)
  else linear s (h i) (h j) (n j - n i).

Definition p2_adjust (d : nat -> R) (nh : (nat -> Z) * (nat -> R)) (i : nat)
  : (nat -> Z) * (nat -> R) :=
  let (n, h) := nh in
  let s := p2_sign d n i in
  if Z.eq_dec s 0 then (n, h)
  else (upd n i (n i + s)%Z, upd h i (p2_height n h i s)).

(** Number of markers whose height does not exceed [x]. *)
Definition p2_below (h : nat -> R) (x : R) : nat :=
  length (filter (fun i => if Rle_dec (h i) x then true else false) (seq 0 len)).

Definition p2_push (m : markers) (x : R) : markers :=
  let h := upd (upd (mk_h m) 0 (Rmin x (mk_h m 0%nat)))
               (len - 1) (Rmax x (mk_h m (len - 1)%nat)) in
  let k := Nat.min (len - 1) (p2_below h x) in
  let n := fun i => if Nat.ltb i k then mk_n m i else (mk_n m i + 1)%Z in
  let d := fun i => mk_d m i + delta i in
  let nh := fold_left (p2_adjust d) (seq 1 (len - 2)) (n, h) in
  Markers (fst nh) (snd nh) d.

(** The markers after the first [len] values, sorted in [s], and [l] further
    values. *)
Definition p2_start (s : list R) : markers :=
  Markers (fun i => Z.of_nat i + 1)%Z (fun i => nth i s 0)
          (fun i => 1 + INR (len - 1) * delta i).
Definition p2_run (s l : list R) : markers := fold_left p2_push l (p2_start s).
End Algorithm.

(** Desired marker increments for the quantiles [qs]: the quantiles at even
    indices and midpoints at odd ones. *)
Definition p2_delta (qs : list R) (i : nat) : R :=
  let q k := nth k (0 :: qs ++ [1]) 0 in
  if Nat.even i then q (i / 2)%nat else (q (i / 2)%nat + q (S (i / 2)))%R / 2.
