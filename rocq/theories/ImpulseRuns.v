(** * Vocabulary of the statements about impulse response filters *)

From Coq Require Import Reals NArith List Arith.
From Verif Require Import Arith History Impulse ExactRuns.

(** Histories of calls on a filter with the given coefficients. *)
Definition fir_run (F : num) (c : list F) (ops : list (op F)) : fir F :=
  run (fir_push F) (fir_clear F) (fir_new F c) ops.
Definition iir_run (F : num) (b a : list F) (scale : F) (ops : list (op F)) : iir F :=
  run (iir_push F) (iir_clear F) (iir_new F b a scale) ops.

(** The same over exact reals. *)
Definition run_fir (eps : R) (c : list R) (ops : list (op R)) : fir (exact eps) :=
  fir_run (exact eps) (map Fin c) (rops eps ops).
Definition run_iir (eps : R) (b a : list R) (scale : R) (ops : list (op R))
  : iir (exact eps) :=
  iir_run (exact eps) (map Fin b) (map Fin a) (Fin scale) (rops eps ops).

(** Specification in an arbitrary arithmetic: ((0 + h_(n-1) c_0) + h_(n-2) c_1)
    + ... over as many terms as both sequences provide, in that order of
    operations. *)
Definition dot_before (F : num) (c h : list F) (n : nat) : F :=
  fold_left
    (fun acc i => nadd acc (nmul (nth (n - 1 - i) h n0) (nth i c n0)))
    (seq 0 (Nat.min (length c) n)) n0.
