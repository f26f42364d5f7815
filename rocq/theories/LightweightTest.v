(** * Model of detail/lightweight_test.hpp *)

From Coq Require Import NArith List Bool.
Import ListNotations.

(** Boost's test_results() is a counter of failed checks which
    boost::report_errors() turns into the exit status of the test program.  It is
    outside the repository: [errors()] returns a reference to the counter, as
    does [test_errors()] of older versions. *)
Definition counter := N.

(** detail/lightweight_test.hpp:27-34 (test_success): touches the counter only. *)
Definition test_success (boost_version : N) (errors : counter) : counter := errors.

(** detail/lightweight_test.hpp:36-43 (test_failure): from 1.68 on the counter is
    read, before it is incremented. *)
Definition test_failure (boost_version : N) (errors : counter) : counter :=
  if N.leb 106800 boost_version then errors else N.succ errors.

Section With.
Context {A : Type}.
Variable boost_version : N.

(** detail/lightweight_test.hpp:47-67 (test_with_impl); the result is whether a
    message was printed, and the counter. *)
Definition test_with (predicate : A -> A -> bool) (lhs rhs : A) (errors : counter)
  : bool * counter :=
  if predicate lhs rhs then (false, test_success boost_version errors)
  else (true, test_failure boost_version errors).
End With.

(** What is printed; file, line, function and punctuation are left out.
    detail/lightweight_test.hpp:96 and 167 (Contents), 100 and 171 (Ellipsis),
    103 and 174 (Differs; test_all_with_impl prints the index only), 117 and 188
    (Sizes), 121 and 192 (SizesToo). *)
Inductive message (A B : Type) : Type :=
| Contents : message A B
| Differs : nat -> A -> B -> message A B
| Ellipsis : message A B
| Sizes : nat -> nat -> message A B
| SizesToo : nat -> nat -> message A B.
Arguments Contents {A B}.
Arguments Differs {A B} _ _ _.
Arguments Ellipsis {A B}.
Arguments Sizes {A B} _ _.
Arguments SizesToo {A B} _ _.

Section Ranges.
Context {A B : Type}.
Variable boost_version : N.
Variable predicate : A -> B -> bool.

(** detail/lightweight_test.hpp:74-80 and 145-151, the local variables.  An
    iterator is what remains of its range, end is the empty list. *)
Record scan : Type := Scan {
  first_it : list A; second_it : list B;
  first_index : nat; second_index : nat;
  error_count : nat;
  output : list (message A B)
}.

(** detail/lightweight_test.hpp:80 and 151 *)
Definition max_count : nat := 8.

(** detail/lightweight_test.hpp:83-89 and 154-160, the inner while loop *)
Fixpoint skip_equal (l : list A) (m : list B) (i j : nat) : list A * list B * nat * nat :=
  match l, m with
  | a :: l', b :: m' =>
      if predicate a b then skip_equal l' m' (S i) (S j) else (l, m, i, j)
  | _, _ => (l, m, i, j)
  end.

(** detail/lightweight_test.hpp:81-109 and 152-180, the do loop.  [None]: the loop
    did not end within [fuel] rounds. *)
Fixpoint scan_loop (fuel : nat) (s : scan) : option scan :=
  match fuel with
  | O => None
  | S fuel' =>
      let '(l, m, i, j) :=
        skip_equal (first_it s) (second_it s) (first_index s) (second_index s) in
      match l, m with
      | a :: l', b :: m' =>
          if andb (negb (Nat.eqb (error_count s) 0)) (Nat.leb max_count (error_count s))
          then Some (Scan l m i j (error_count s) (output s ++ [Ellipsis]))
          else
            let head := if Nat.eqb (error_count s) 0 then [Contents] else [] in
            let s' := Scan l' m' (S i) (S j) (S (error_count s))
                        (output s ++ head ++ [Differs i a b]) in
            match l' with
            | [] => Some s'
            | _ :: _ => scan_loop fuel' s'
            end
      | _, _ => Some (Scan l m i j (error_count s) (output s))
      end
  end.

(** detail/lightweight_test.hpp:69-136 (test_all_eq_impl, with == as predicate)
    and 140-207 (test_all_with_impl): what is printed, and the counter.  Every
    round but the last consumes an element of the first range, which bounds the
    number of rounds. *)
Definition test_all (l : list A) (m : list B) (errors : counter)
  : option (list (message A B) * counter) :=
  match scan_loop (S (length l)) (Scan l m 0 0 0 []) with
  | None => None
  | Some s =>
      let first := (first_index s + length (first_it s))%nat in
      let second := (second_index s + length (second_it s))%nat in
      let differ := negb (Nat.eqb first second) in
      let out :=
        output s ++
        (if differ
         then [if Nat.eqb (error_count s) 0 then Sizes first second else SizesToo first second]
         else []) in
      let count := if differ then S (error_count s) else error_count s in
      Some (out, if Nat.eqb count 0 then test_success boost_version errors
                 else test_failure boost_version errors)
  end.
End Ranges.
