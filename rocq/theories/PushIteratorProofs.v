(** * Proofs about push_iterator *)

From Coq Require Import List Arith Lia Bool.
From Verif Require Import CircularSpan PushIterator SpecPushAll CircularSpanProofs.
Import ListNotations.

Section P.
  Context {S A : Type}.
  Variable push : S -> A -> option S.

  Lemma assign_ok mem a s x s' :
    nth_error mem a = Some s -> push s x = Some s' ->
    pi_assign push mem (Some a) x = Some (set_nth mem a s', Some a).
  Proof. intros H1 H2. unfold pi_assign. cbn. rewrite H1. cbn. rewrite H2. reflexivity. Qed.

  Lemma assign_undef mem a s x :
    nth_error mem a = Some s -> push s x = None ->
    pi_assign push mem (Some a) x = None.
  Proof. intros H1 H2. unfold pi_assign. cbn. rewrite H1. cbn. rewrite H2. reflexivity. Qed.

  Lemma lookup_lt (mem : list S) a s : nth_error mem a = Some s -> a < length mem.
  Proof. intros H. apply nth_error_Some. congruence. Qed.

  Lemma copy_spec xs : forall mem a s, nth_error mem a = Some s ->
    match push_all push s xs with
    | Some s' => exists mem', std_copy push xs mem (Some a) = Some (mem', Some a) /\
                              only_changed mem mem' a s'
    | None => std_copy push xs mem (Some a) = None
    end.
  Proof.
    induction xs as [|x xs IH]; intros mem a s H; cbn [push_all].
    - exists mem. split; [reflexivity|]. split; [reflexivity|]. split; [exact H|reflexivity].
    - cbn [std_copy]. unfold pi_deref, pi_preinc.
      destruct (push s x) as [s1|] eqn:E.
      + rewrite (assign_ok _ _ _ _ _ H E). cbn [obind fst].
        pose proof (lookup_lt _ _ _ H) as HL.
        specialize (IH (set_nth mem a s1) a s1 (set_nth_same _ _ _ HL)).
        destruct (push_all push s1 xs) as [s'|]; [|exact IH].
        destruct IH as (mem' & E' & L & N & O). exists mem'. split; [exact E'|].
        split; [rewrite L; apply set_nth_length|]. split; [exact N|].
        intros b Hb. rewrite O by exact Hb. apply set_nth_other. congruence.
      + rewrite (assign_undef _ _ _ _ H E). reflexivity.
  Qed.

  Lemma copy_if_copy p xs : forall mem it,
    std_copy_if push p xs mem it = std_copy push (filter p xs) mem it.
  Proof.
    induction xs as [|x xs IH]; intros mem it; [reflexivity|]. cbn [std_copy_if filter].
    destruct (p x); [|apply IH]. cbn [std_copy].
    destruct (pi_assign push mem (pi_deref it) x) as [r|]; [|reflexivity]. cbn [obind]. apply IH.
  Qed.

  Lemma transform_copy {B} (f : B -> A) xs : forall mem it,
    std_transform push f xs mem it = std_copy push (map f xs) mem it.
  Proof.
    induction xs as [|x xs IH]; intros mem it; [reflexivity|]. cbn [std_transform map std_copy].
    destruct (pi_assign push mem (pi_deref it) (f x)) as [r|]; [|reflexivity]. cbn [obind]. apply IH.
  Qed.

  Lemma assign_iter mem it x r : pi_assign push mem it x = Some r -> snd r = it.
  Proof.
    unfold pi_assign. destruct it as [a|]; [|discriminate]. cbn.
    destruct (nth_error mem a) as [c|]; [|discriminate]. cbn.
    destruct (push c x); [|discriminate]. cbn. intros H. injection H as <-. reflexivity.
  Qed.

  Lemma post_copy_copy xs : forall mem it,
    post_copy push xs mem it = std_copy push xs mem it.
  Proof.
    induction xs as [|x xs IH]; intros mem it; [reflexivity|]. cbn [post_copy std_copy].
    unfold pi_deref, pi_postinc, pi_preinc.
    destruct (pi_assign push mem it x) as [r|] eqn:E; [|reflexivity]. cbn [obind].
    rewrite (assign_iter _ _ _ _ E). apply IH.
  Qed.

  Lemma step_write mem o w : write_of o w ->
    pi_step push mem o =
    obind (pi_assign push mem (Some (fst w)) (snd w)) (fun r => Some (fst r)).
  Proof. intros [-> | ->]; reflexivity. Qed.

  Lemma written_cons a (w : nat * A) ws :
    written a (w :: ws) = if Nat.eqb (fst w) a then snd w :: written a ws else written a ws.
  Proof. unfold written. cbn. destruct (Nat.eqb (fst w) a); reflexivity. Qed.

  Lemma program_spec os : forall ws mem,
    Forall2 write_of os ws ->
    Forall (fun w => fst w < length mem) ws ->
    (forall a s, nth_error mem a = Some s -> push_all push s (written a ws) <> None) ->
    exists mem', pi_program push mem os = Some mem' /\
      length mem' = length mem /\
      forall a s, nth_error mem a = Some s ->
        nth_error mem' a = push_all push s (written a ws).
  Proof.
    induction os as [|o os IH]; intros ws mem F V D.
    - inversion F; subst. exists mem. split; [reflexivity|]. split; [reflexivity|].
      intros a s H. exact H.
    - inversion F as [|o' w os' ws' Hw F']; subst. inversion V as [|w' ws'' Hlt V']; subst.
      cbn [pi_program]. rewrite (step_write _ _ _ Hw).
      destruct (nth_error mem (fst w)) as [s|] eqn:Es.
      2:{ apply nth_error_None in Es. lia. }
      pose proof (D _ _ Es) as D0. rewrite written_cons, Nat.eqb_refl in D0. cbn [push_all] in D0.
      destruct (push s (snd w)) as [s1|] eqn:E1; [|congruence].
      rewrite (assign_ok _ _ _ _ _ Es E1). cbn [obind fst].
      destruct (IH ws' (set_nth mem (fst w) s1) F') as (mem' & E' & L & N).
      + rewrite set_nth_length. exact V'.
      + intros a t Ht. destruct (Nat.eq_dec a (fst w)) as [->|Hne].
        * rewrite set_nth_same in Ht by exact Hlt. injection Ht as <-. exact D0.
        * rewrite set_nth_other in Ht by congruence.
          pose proof (D _ _ Ht) as D1. rewrite written_cons in D1.
          destruct (Nat.eqb_spec (fst w) a); [congruence|exact D1].
      + exists mem'. split; [exact E'|]. split; [rewrite L; apply set_nth_length|].
        intros a t Ht. rewrite written_cons. destruct (Nat.eqb_spec (fst w) a) as [<-|Hne].
        * rewrite Es in Ht. injection Ht as <-. cbn [push_all]. rewrite E1.
          apply N. apply set_nth_same. exact Hlt.
        * apply N. rewrite set_nth_other by congruence. exact Ht.
  Qed.
End P.

(** A total push. *)
Lemma push_all_total {S A : Type} (push : S -> A -> S) xs : forall s,
  push_all (fun s x => Some (push s x)) s xs = Some (fold_left push xs s).
Proof. induction xs as [|x xs IH]; intros s; [reflexivity|]. cbn. apply IH. Qed.
