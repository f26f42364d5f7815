(** * Property theorems: Testing

    Statements only; every proof is [exact] of a lemma in ClaimsTesting.v.
    Generated by tools/mkprops.py. *)

From Coq Require Import NArith ZArith List Bool Arith.
From Verif Require Import LightweightTest SpecReport.
Import ListNotations.
From Verif Require Import ClaimsTesting.

(** C79_report: comparing two ranges always ends; it prints a heading, the
    first eight positions at which the ranges differ, with the elements, in
    order, and dots if there are more; then both sizes if they differ. *)
Theorem C79_report : forall (A B : Type) (v : N) (p : A -> B -> bool) (l : list A) (m : list B) (e : N),
  let d := differences p 0 l m in
  exists e', test_all v p l m e =
    Some ((match d with [] => [] | _ :: _ => [Contents] end)
          ++ map (fun x => Differs (fst (fst x)) (snd (fst x)) (snd x)) (firstn 8 d)
          ++ (if Nat.ltb 8 (length d) then [Ellipsis] else [])
          ++ (if Nat.eqb (length l) (length m) then []
              else match d with
                   | [] => [Sizes (length l) (length m)]
                   | _ :: _ => [SizesToo (length l) (length m)]
                   end), e').
Proof. exact c79_report. Qed.
Print Assumptions C79_report.

(** C79_report_ex: nine differences and different sizes. *)
Example C79_report_ex :
  let l := repeat 1%Z 9 in let m := repeat 2%Z 12 in
  length (differences Z.eqb 0 l m) = 9 /\ Nat.eqb (length l) (length m) = false /\
  test_all 106700 Z.eqb [1; 2; 3]%Z [1; 5]%Z 0%N
  = Some ([Contents; Differs 1 2%Z 5%Z; SizesToo 3 2], 1%N).
Proof. exact c79_report_ex. Qed.

(** C79_verdict: something is printed exactly if the ranges do not match
    element by element, different lengths included.  Before Boost 1.68 exactly
    then, too, the failure is counted, once. *)
Theorem C79_verdict : forall (A B : Type) (v : N) (p : A -> B -> bool) (l : list A) (m : list B) (e : N),
  exists out e', test_all v p l m e = Some (out, e') /\
    (out = [] <-> matching p l m) /\
    (matching p l m -> e' = e) /\
    ((v < 106800)%N -> ~ matching p l m -> e' = N.succ e).
Proof. exact c79_verdict. Qed.
Print Assumptions C79_verdict.

(** C79_verdict_ex: [1, 2] matches itself but not [1, 3] and not [1]. *)
Example C79_verdict_ex :
  matching Z.eqb [1; 2]%Z [1; 2]%Z /\ ~ matching Z.eqb [1; 2]%Z [1; 3]%Z /\
  ~ matching Z.eqb [1; 2]%Z [1]%Z /\ (106700 < 106800)%N.
Proof. exact c79_verdict_ex. Qed.

(** C79_single: TRIAL_TEST_WITH prints a message exactly if the predicate
    fails; with Boost before 1.68 the counter of failed checks goes up by one
    exactly then and otherwise stays as it was. *)
Theorem C79_single : forall (A : Type) (v : N) (p : A -> A -> bool) (x y : A) (e : N),
  (fst (test_with v p x y e) = true <-> p x y = false) /\
  ((v < 106800)%N ->
   snd (test_with v p x y e) = if p x y then e else N.succ e).
Proof. exact c79_single. Qed.
Print Assumptions C79_single.

(** C79_single_ex: 1 against 2 and 3 against 3 under Boost 1.67. *)
Example C79_single_ex :
  (106700 < 106800)%N /\
  test_with 106700 Z.eqb 1%Z 2%Z 0%N = (true, 1%N) /\ test_with 106700 Z.eqb 3%Z 3%Z 0%N = (false, 0%N).
Proof. exact c79_single_ex. Qed.

(** C79_counted_refuted: with Boost 1.68 or later no failure is counted: a
    check whose predicate fails leaves the counter, and with it the exit status
    of the test program, as it was. *)
Theorem C79_counted_refuted :
  (forall (A : Type) (v : N) (p : A -> A -> bool) (x y : A) (e : N),
     (106800 <= v)%N -> snd (test_with v p x y e) = e) /\
  (exists (v : N) (p : Z -> Z -> bool) (x y : Z) (e : N),
     (106800 <= v)%N /\ p x y = false /\ test_with v p x y e = (true, e)).
Proof. exact c79_counted_refuted. Qed.
Print Assumptions C79_counted_refuted.
