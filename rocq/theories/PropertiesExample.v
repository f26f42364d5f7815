(** * Property theorems: Example

    Statements only; every proof is [exact] of a lemma in ClaimsExample.v.
    Generated by tools/mkprops.py. *)

From Coq Require Import Reals List NArith.
From Verif Require Import Arith History SpecStats SpecExample ExactRuns ExampleRegression.
Import ListNotations.
Local Open Scope R_scope.
From Verif Require Import ClaimsExample.

(** C84_rows_partial: exact arithmetic, every file with at least one record:
    both programs terminate with status 0 and print one row for every record and
    one more for the last record repeated; row i holds the record and the line
    fitted to the records up to there (the last 64 of them in window.cpp).
    Missing: the extra row is not in the intended output (C84_rows_refuted). *)
Theorem C84_rows_partial : forall (eps : R) (fuel : nat) (l : list (R * R)) (d : R * R),
  let F := exact eps in
  let file := Some (map (fun p => (Fin (fst p), Fin (snd p)) : F * F) l) in
  let l' := l ++ [last l d] in
  l <> [] -> fits l' -> (length l + 2 <= fuel)%nat ->
  exists oc ow,
    example_cumulative F fuel 2 file = (0%nat, Lines oc) /\
    example_window F fuel 2 file = (0%nat, Lines ow) /\
    length oc = S (length l) /\ length ow = S (length l) /\
    forall i, (i < S (length l))%nat ->
      (exists x y b a, nth_error oc i = Some (Fin x, Fin y, Fin b, Fin a) /\
         row (fun w => w) l' i x y b a) /\
      (exists x y b a, nth_error ow i = Some (Fin x, Fin y, Fin b, Fin a) /\
         row (lastn 64) l' i x y b a).
Proof. exact c84_rows. Qed.
Print Assumptions C84_rows_partial.

(** C84_rows_partial_ex: the file 0,0 / 1,0 / 2,3. *)
Example C84_rows_partial_ex :
  let l := [(0, 0); (1, 0); (2, 3)] in
  l <> [] /\ fits (l ++ [last l (0, 0)]) /\ (length l + 2 <= 5)%nat /\
  fitted (-1/2) (3/2) l.
Proof. exact c84_rows_ex. Qed.

(** C84_extra: any arithmetic, every file with at least one record: the
    programs print one row more than the file has records, and the last two rows
    show the same record. *)
Theorem C84_extra : forall (F : num) (fuel : nat) (l : list (F * F)),
  l <> [] -> (length l + 2 <= fuel)%nat ->
  exists oc ow,
    example_cumulative F fuel 2 (Some l) = (0%nat, Lines oc) /\
    example_window F fuel 2 (Some l) = (0%nat, Lines ow) /\
    map fst (map fst oc) = l ++ [last l (n0, n0)] /\
    map fst (map fst ow) = l ++ [last l (n0, n0)].
Proof. exact c84_extra. Qed.
Print Assumptions C84_extra.

(** C84_extra_ex: two records over double. *)
Example C84_extra_ex :
  let l := [(n0, n1); (n1, n0)] : list (b64num * b64num) in
  l <> [] /\ (length l + 2 <= 4)%nat /\ l ++ [last l (n0, n0)] = [(n0, n1); (n1, n0); (n1, n0)].
Proof. exact c84_extra_ex. Qed.

(** C84_rows_refuted: the last row is not the line fitted to the records of
    the file: 0,0 / 1,0 / 2,3 has the line -1/2 + 3/2 x, but the programs end
    with the line fitted to the file with 2,3 counted twice. *)
Theorem C84_rows_refuted : exists (l : list (R * R)) (fuel : nat),
  let F := exact 1 in
  let file := Some (map (fun p => (Fin (fst p), Fin (snd p)) : F * F) l) in
  exists oc x y b a,
    example_cumulative F fuel 2 file = (0%nat, Lines oc) /\
    last oc (Fin 0, Fin 0, Fin 0, Fin 0) = (Fin x, Fin y, Fin b, Fin a) /\
    ~ fitted a b l.
Proof. exact c84_rows_refuted. Qed.
Print Assumptions C84_rows_refuted.

(** C84_no_records: any arithmetic: without exactly one argument the
    programs print no row and exit with 1; a file that cannot be opened prints no
    row and exits with 0; a file without records makes them use x and y before
    they have a value. *)
Theorem C84_no_records : forall (F : num) (fuel argc : nat) (content : option (list (F * F))),
  (argc <> 2%nat ->
   example_cumulative F fuel argc content = (1%nat, Lines []) /\
   example_window F fuel argc content = (1%nat, Lines [])) /\
  ((1 <= fuel)%nat ->
   example_cumulative F fuel 2 None = (0%nat, Lines []) /\
   example_window F fuel 2 None = (0%nat, Lines []) /\
   example_cumulative F fuel 2 (Some []) = (0%nat, Uninitialised) /\
   example_window F fuel 2 (Some []) = (0%nat, Uninitialised)).
Proof. exact c84_none. Qed.
Print Assumptions C84_no_records.

(** C84_no_records_ex: no argument; one argument and one round of fuel. *)
Example C84_no_records_ex : 1%nat <> 2%nat /\ (1 <= 1)%nat.
Proof. exact c84_none_ex. Qed.
