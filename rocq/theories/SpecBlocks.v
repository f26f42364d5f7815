(** * Specification of block (leapfrog) windows

    Cutting a history of values into consecutive blocks of [W]: the block being
    filled, and the complete block before it. *)

From Coq Require Import Reals List Arith.
From Verif Require Import History SpecStats.
Import ListNotations.

Section Blocks.
Context {A : Type}.

(** The last ((n-1) mod W) + 1 values; empty for no values. *)
Definition cur_block (W : nat) (l : list A) : list A :=
  lastn (((length l - 1) mod W) + 1) l.

(** The (at most) W values before the current block. *)
Definition prev_block (W : nat) (l : list A) : list A :=
  lastn W (firstn (length l - length (cur_block W l)) l).
End Blocks.

(** Observables with the library's cut-off: 0 unless the numerator reaches
    epsilon. *)
Definition cut (eps num v : R) : R :=
  if Rlt_dec num eps then 0%R else v.

(** Weighted average of two values. *)
Definition wavg (wp wa p a : R) : R := ((wp * p + wa * a) / (wp + wa))%R.
