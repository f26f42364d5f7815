(** * Property theorems: Series

    Statements only; every proof is [exact] of a lemma in ClaimsSeries.v.
    Generated by tools/mkprops.py. *)

From Coq Require Import Reals ZArith NArith List.
From Verif Require Import Arith History SpecStats SpecImpulse Impulse ImpulseRuns.
Import ListNotations.
Local Open Scope R_scope.
(** The outputs of a filter after every value, where [value l] is its output after the
    values [l]: what a second filter is fed with when both are in series. *)
Definition outputs {A B : Type} (value : list A -> B) (l : list A) : list B :=
  map (fun k => value (firstn (S k) l)) (seq 0 (length l)).
(** The output of the finite and infinite filter after given values, exact arithmetic. *)
Definition fir_of (eps : R) (c : list R) (l : list xreal) : xreal :=
  fir_value (exact eps) (fir_run (exact eps) (map Fin c) (pushes l)).
Definition iir_of (eps : R) (b a : list R) (scale : R) (l : list xreal) : xreal :=
  iir_value (exact eps) (iir_run (exact eps) (map Fin b) (map Fin a) (Fin scale) (pushes l)).
(** The coefficients of the product of two polynomials. *)
Definition product (c d : list R) : list R := map (convolution c d) (seq 0 (length c + length d - 1)).
From Verif Require Import ClaimsSeries.

(** C119_finite: a finite filter with coefficients [d] that is fed with the outputs
    of one with coefficients [c] gives what a single finite filter gives whose
    coefficients are those of the product of the polynomials. *)
Theorem C119_finite : forall (eps : R) (c d x : list R),
  c <> [] -> d <> [] -> x <> [] ->
  exists r, fir_of eps d (outputs (fir_of eps c) (map Fin x)) = Fin r /\
    fir_of eps (product c d) (map Fin x) = Fin r.
Proof. exact c119_finite. Qed.
Print Assumptions C119_finite.

(** C119_finite_ex: two averages of two values in series are 1/4, 1/2, 1/4. *)
Example C119_finite_ex : [1 / 2; 1 / 2] <> [] /\ product [1 / 2; 1 / 2] [1 / 2; 1 / 2] = [1 / 4; 1 / 2; 1 / 4].
Proof. exact c119_finite_ex. Qed.

(** C119_order: two impulse response filters in series may be swapped, whether
    finite or infinite: the results for all inputs are the same. *)
Theorem C119_order : forall (eps : R) (c d b a b' a' x : list R) (s s' : R),
  c <> [] -> d <> [] -> b <> [] -> a <> [] -> b' <> [] -> a' <> [] -> s <> 0 -> s' <> 0 -> x <> [] ->
  let f := fir_of eps c in
  let f' := fir_of eps d in
  let g := iir_of eps b a s in
  let g' := iir_of eps b' a' s' in
  let inputs := map Fin x in
  (exists r, f' (outputs f inputs) = Fin r /\ f (outputs f' inputs) = Fin r) /\
  (exists r, g (outputs f inputs) = Fin r /\ f (outputs g inputs) = Fin r) /\
  (exists r, g' (outputs g inputs) = Fin r /\ g (outputs g' inputs) = Fin r).
Proof. exact c119_order. Qed.
Print Assumptions C119_order.

(** C119_order_ex: a difference and a smoother with 1/2: the step 0, 8, 8 gives 0, 8, 0
    and then 0, 4, 2, and in the other order 0, 4, 6 and then 0, 4, 2. *)
Example C119_order_ex :
  let x := [0; 8; 8] in
  [1; -1] <> [] /\ [1] <> [] /\ [-1] <> [] /\ 2 <> 0 /\ x <> [] /\
  map (convolution [1; -1] x) [0; 1; 2]%nat = [0; 8; 0] /\
  difference_equation [1] [-1] 2 [0; 8; 0] [0; 4; 2] /\
  difference_equation [1] [-1] 2 x [0; 4; 6] /\
  map (convolution [1; -1] [0; 4; 6]) [0; 1; 2]%nat = [0; 4; 2].
Proof. exact c119_order_ex. Qed.
