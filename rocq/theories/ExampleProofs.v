(** * What the example programs print *)

From Coq Require Import Reals List Arith Lia NArith.
From Verif Require Import Arith History SpecStats SpecExample Cumulative Window
  ExactRuns WindowRuns ExampleRegression.
From Verif Require Import HistoryLemmas StatsLemmas CumulativeProofs CumulativeStats WindowProofs WindowStats.
Import ListNotations.

Section Any.
Context {V St : Type} (push : St -> V * V -> St) (slope : St -> V) (at0 : St -> V).

Lemma loop_lines : forall l fuel p s, (length l + 2 <= fuel)%nat ->
  exists o, loop push slope at0 fuel (IFile l false) (Some p) s = Lines o /\
    length o = S (length l) /\
    forall i q, nth_error (l ++ [last l p]) i = Some q ->
      let s' := fold_left push (firstn (S i) (l ++ [last l p])) s in
      nth_error o i = Some (fst q, snd q, slope s', at0 s').
Proof.
  induction l as [|r l IH]; intros fuel p s Hf; cbn [length] in Hf.
  - destruct fuel as [|[|fuel]]; try lia. cbn.
    eexists; split; [reflexivity|]; split; [reflexivity|].
    intros [|i] q; cbn; [intros [= <-]; reflexivity|destruct i; discriminate].
  - destruct fuel as [|fuel]; [lia|].
    destruct (IH fuel r (push s r) ltac:(lia)) as (o & E & L & H).
    cbn [loop if_fail if_read if_rest]. rewrite E. cbn [out_cons].
    eexists; split; [reflexivity|]; split; [cbn; rewrite L; reflexivity|].
    intros [|i] q.
    + cbn; intros [= <-]; reflexivity.
    + assert (EL : last (r :: l) p = last l r).
      { destruct l as [|z l]; [reflexivity|]. cbn [last].
        clear; revert z; induction l as [|w l IH]; intros z; [reflexivity|]; apply IH. }
      rewrite EL; cbn [app nth_error]; intros Hq; rewrite (H i q Hq); reflexivity.
Qed.

(** From a file with records. *)
Lemma main_lines : forall l d fuel s, l <> [] -> (length l + 2 <= fuel)%nat ->
  exists o, example_main push slope at0 fuel 2 (Some l) s = (0%nat, Lines o) /\
    length o = S (length l) /\
    forall i q, nth_error (l ++ [last l d]) i = Some q ->
      let s' := fold_left push (firstn (S i) (l ++ [last l d])) s in
      nth_error o i = Some (fst q, snd q, slope s', at0 s').
Proof.
  intros [|r l] d fuel s Hl Hf; [congruence|]. cbn [length] in Hf.
  destruct fuel as [|fuel]; [lia|].
  destruct (loop_lines l fuel r (push s r) ltac:(lia)) as (o & E & L & H).
  unfold example_main; cbn [Nat.eqb if_open loop if_fail if_read if_rest]. rewrite E. cbn [out_cons].
  eexists; split; [reflexivity|]; split; [cbn; rewrite L; reflexivity|].
  assert (EL : last (r :: l) d = last l r).
  { destruct l as [|z l]; [reflexivity|]. cbn [last].
    clear; revert z; induction l as [|w l IH]; intros z; [reflexivity|]; apply IH. }
  intros [|i] q.
  - cbn; intros [= <-]; reflexivity.
  - rewrite EL; cbn [app nth_error]; intros Hq; rewrite (H i q Hq); reflexivity.
Qed.
End Any.
