(** * Interim quantile estimator: invariant of programs over several objects *)

From Coq Require Import Reals ZArith NArith Bool List Lia Arith.
From Verif Require Import Arith History HistoryLemmas SpecBlocks WindowProofs BlockLemmas Psquare
  InterimPsquare SpecCopies.
From Verif Require PsquareGeneric.
Import ListNotations.

Notation st := PsquareGeneric.st.

Section Proofs.
Variable F : num.
Variable H : nat.   (* half window *)
Variable qs : list F.
Hypothesis HH : (0 < H)%nat.
Hypothesis HH64 : (N.of_nat (2 * H) < szmod)%N.
Notation W := (N.of_nat (2 * H)).

Lemma half : (W / 2)%N = N.of_nat H.
Proof.
  replace W with (N.of_nat H * 2)%N by lia; apply N.div_mul; discriminate.
Qed.

Definition other (m : member) : member :=
  match m with First => Second | Second => First end.

Record good_obj (o : nat) (l : list F) (q : ipsq F) (b : member) : Prop := {
  go_active : iq_active F q = (o, b);
  go_cur : member_of F q b = st F qs (cur_block H l);
  go_prev : member_of F q (other b) = st F qs (prev_block H l);
  go_inactive : ((length l <= H)%nat /\ b = First /\ iq_inactive F q = None) \/
                ((H < length l)%nat /\ iq_inactive F q = Some (o, other b))
}.

Definition objects_ok (h : memory F) (l : histories (F := F)) : Prop :=
  forall o, match l o with
            | None => h o = None
            | Some ops => exists q b, h o = Some q /\ good_obj o (since_clear ops) q b
            end.

Lemma good_new o : good_obj o [] (ipq_new F qs o) First.
Proof.
  split; try reflexivity; left; split; [cbn; lia|split; reflexivity].
Qed.

Lemma st_size l : (N.of_nat (length l) < szmod)%N -> psq_size F (st F qs l) = N.of_nat (length l).
Proof. intros Hs; apply PsquareGeneric.st_count, Hs. Qed.

Lemma cur_size l : psq_size F (st F qs (cur_block H l)) = N.of_nat (length (cur_block H l)).
Proof. apply st_size; pose proof (cur_block_le H HH l); lia. Qed.

Lemma member_with q m s : member_of F (with_member F q m s) m = s.
Proof. destruct m; reflexivity. Qed.
Lemma member_with_other q m s : member_of F (with_member F q m s) (other m) = member_of F q (other m).
Proof. destruct m; reflexivity. Qed.
Lemma with_pointers q m s : iq_active F (with_member F q m s) = iq_active F q /\
  iq_inactive F (with_member F q m s) = iq_inactive F q.
Proof. destruct m; auto. Qed.

Lemma mset_eq h o (v : option (ipsq F)) : mset F h o v o = v.
Proof. unfold mset; rewrite Nat.eqb_refl; reflexivity. Qed.
Lemma mset_neq h o (v : option (ipsq F)) k : k <> o -> mset F h o v k = h k.
Proof. intros E; unfold mset; destruct (Nat.eqb_spec k o); [congruence|reflexivity]. Qed.

Lemma other_other m : other (other m) = m.
Proof. destruct m; reflexivity. Qed.

Lemma push_good h o l q b x : h o = Some q -> good_obj o l q b ->
  exists h' q' b', ipq_push F W qs h o x = Some h' /\ h' o = Some q' /\
    good_obj o (l ++ [x]) q' b' /\ forall k, k <> o -> h' k = h k.
Proof.
  intros Ho [Ha Hc Hp Hi].
  pose proof (cur_block_le H HH l) as Hle.
  unfold ipq_push; rewrite Ho; unfold load at 1; rewrite Ha; cbn [fst snd]; rewrite Ho, Hc.
  rewrite half, cur_size.
  destruct (N.leb_spec (N.of_nat H) (N.of_nat (length (cur_block H l)))) as [Hn|Hn].
  - (* the active half is full *)
    destruct (cur_block_snoc_full H HH l x) as [E1 E2]; [lia|].
    assert (Hlen : (H <= length l)%nat).
    { pose proof (lastn_length (((length l - 1) mod H) + 1) l) as Q; unfold cur_block in *; lia. }
    destruct Hi as [(Hl & Hb & Hi)|(Hl & Hi)]; rewrite Hi.
    + (* first use of the second half *)
      subst b; unfold set_pointers; rewrite Ho.
      unfold push_through; rewrite mset_eq; cbn [iq_active].
      unfold load; cbn [fst snd]; rewrite mset_eq; cbn [member_of iq_second].
      unfold store; cbn [fst snd]; rewrite mset_eq; cbn [with_member].
      eexists _, _, Second; split; [reflexivity|]; split; [apply mset_eq|]; split.
      * split; cbn [iq_active iq_inactive member_of other iq_first iq_second].
        -- reflexivity.
        -- rewrite E1. cbn [other member_of] in Hp; rewrite Hp.
           rewrite (proj2 (short_blocks H HH l Hl)); reflexivity.
        -- rewrite E2; exact Hc.
        -- right; split; [rewrite length_snoc; lia|reflexivity].
      * intros k Hk; rewrite !mset_neq by exact Hk; reflexivity.
    + (* swap *)
      unfold load; cbn [fst snd]; rewrite Ho.
      unfold store at 1; cbn [fst snd]; rewrite Ho.
      set (s0 := psq_clear F qs (member_of F q (other b))).
      unfold set_pointers; rewrite mset_eq.
      set (q1 := with_member F q (other b) s0).
      set (q2 := Ipsq F (iq_first F q1) (iq_second F q1) (o, other b) (Some (o, b))).
      assert (M : forall m, member_of F q2 m = member_of F q1 m) by (intros []; reflexivity).
      unfold push_through; rewrite mset_eq.
      change (iq_active F q2) with (o, other b); unfold load; cbn [fst snd]; rewrite mset_eq.
      unfold store; cbn [fst snd]; rewrite mset_eq.
      eexists _, _, (other b); split; [reflexivity|]; split; [apply mset_eq|]; split.
      * split.
        -- rewrite (proj1 (with_pointers _ _ _)); reflexivity.
        -- rewrite member_with, E1, M; unfold q1; rewrite member_with; reflexivity.
        -- rewrite member_with_other, M, E2; unfold q1.
           rewrite member_with_other, other_other; exact Hc.
        -- right; split; [rewrite length_snoc; lia|].
           rewrite (proj2 (with_pointers _ _ _)), other_other; reflexivity.
      * intros k Hk; rewrite !mset_neq by exact Hk; reflexivity.
  - destruct (cur_block_snoc_room H HH l x) as [E1 E2]; [lia|].
    unfold push_through; rewrite Ho; unfold load; rewrite Ha; cbn [fst snd]; rewrite Ho, Hc.
    unfold store; cbn [fst snd]; rewrite Ho.
    eexists _, _, b; split; [reflexivity|]; split; [apply mset_eq|]; split.
    + split.
      * rewrite (proj1 (with_pointers _ _ _)); exact Ha.
      * rewrite member_with, E1, PsquareGeneric.st_snoc; reflexivity.
      * rewrite member_with_other, E2; exact Hp.
      * rewrite (proj2 (with_pointers _ _ _)), length_snoc.
        destruct Hi as [(Hl & Hb & Hi)|(Hl & Hi)]; [left|right; split; [lia|exact Hi]].
        rewrite (proj1 (short_blocks H HH l Hl)) in Hn; split; [lia|auto].
    + intros k Hk; apply mset_neq; exact Hk.
Qed.

Lemma clear_good h o q : h o = Some q ->
  exists h', ipq_clear F qs h o = Some h' /\ h' o = Some (ipq_new F qs o) /\
    forall k, k <> o -> h' k = h k.
Proof.
  intros Ho; unfold ipq_clear; rewrite Ho.
  eexists; split; [reflexivity|]; split; [apply mset_eq|].
  intros k Hk; apply mset_neq; exact Hk.
Qed.

(** Replacing one object. *)
Lemma objects_ok_set h h' l o v : objects_ok h l ->
  (forall k, k <> o -> h' k = h k) ->
  match v with
  | None => h' o = None
  | Some ops => exists q b, h' o = Some q /\ good_obj o (since_clear ops) q b
  end ->
  objects_ok h' (hset l o v).
Proof.
  intros Hok Hk Hv k; unfold hset; destruct (Nat.eqb_spec k o) as [->|Hne]; [exact Hv|].
  specialize (Hok k); destruct (l k); [|rewrite Hk by exact Hne; exact Hok].
  destruct Hok as (q & b & E & G); exists q, b; rewrite Hk by exact Hne; auto.
Qed.

Lemma step_ok h l c l' : objects_ok h l -> vstep l c = Some l' ->
  match c with Copy _ _ | Assign _ _ => False | _ => True end ->
  exists h', step F W qs h c = Some h' /\ objects_ok h' l'.
Proof.
  intros Hok Hv Hc; destruct c as [o|d s|d s|o|o x|o]; try destruct Hc; cbn [vstep step] in *;
    pose proof (Hok o) as Ho; destruct (l o) as [ops|] eqn:El; try discriminate.
  - injection Hv as <-; rewrite Ho; eexists; split; [reflexivity|].
    eapply objects_ok_set; [exact Hok|intros k Hk; apply mset_neq; exact Hk|].
    exists (ipq_new F qs o), First; split; [apply mset_eq|apply good_new].
  - injection Hv as <-; destruct Ho as (q & b & E & G); rewrite E; eexists; split; [reflexivity|].
    eapply objects_ok_set; [exact Hok|intros k Hk; apply mset_neq; exact Hk|apply mset_eq].
  - injection Hv as <-; destruct Ho as (q & b & E & G).
    destruct (push_good h o _ q b x E G) as (h' & q' & b' & E1 & E2 & G' & K).
    exists h'; split; [exact E1|].
    eapply objects_ok_set; [exact Hok|exact K|].
    exists q', b'; split; [exact E2|]; rewrite since_clear_snoc_push; exact G'.
  - injection Hv as <-; destruct Ho as (q & b & E & G).
    destruct (clear_good h o q E) as (h' & E1 & E2 & K).
    exists h'; split; [exact E1|].
    eapply objects_ok_set; [exact Hok|exact K|].
    exists (ipq_new F qs o), First; split; [exact E2|].
    rewrite (since_clear_app_clear ops []); apply good_new.
Qed.

(** The two steps "copy or assign, then clear the target". *)
Lemma copied_ok h l d s ops opd : objects_ok h l ->
  l s = Some ops ->
  (l d = opd) ->
  exists q h', h s = Some q /\
    ipq_clear F qs (mset F h d (Some q)) d = Some h' /\
    objects_ok h' (hset (hset l d (Some ops)) d (Some (ops ++ [Clear]))).
Proof.
  intros Hok Es Ed; pose proof (Hok s) as Hs; rewrite Es in Hs.
  destruct Hs as (q & b & E & G); exists q.
  destruct (clear_good (mset F h d (Some q)) d q (mset_eq h d (Some q))) as (h' & E1 & E2 & K).
  exists h'; split; [exact E|]; split; [exact E1|].
  intros k; unfold hset; destruct (Nat.eqb_spec k d) as [->|Hne].
  - exists (ipq_new F qs d), First; split; [exact E2|].
    rewrite (since_clear_app_clear ops []); apply good_new.
  - pose proof (Hok k) as Hk; rewrite K, mset_neq by exact Hne; exact Hk.
Qed.

Lemma vfold_none cs : fold_left (fun r c => match r with Some h => vstep h c | None => None end)
  cs (None : option (histories (F := F))) = None.
Proof. induction cs as [|c cs IH]; [reflexivity|exact IH]. Qed.

Lemma exec_ok_from cs : cleared_copies cs -> forall h l l',
  objects_ok h l ->
  fold_left (fun r c => match r with Some h => vstep h c | None => None end) cs (Some l) = Some l' ->
  exists h', fold_left (fun r c => match r with Some h => step F W qs h c | None => None end) cs
    (Some h) = Some h' /\ objects_ok h' l'.
Proof.
  induction 1 as [|d s cs _ IH|d s cs _ IH|o cs _ IH|o cs _ IH|o x cs _ IH|o cs _ IH];
    intros h l l' Hok Hv.
  1:{ cbn in Hv; injection Hv as <-; exists h; auto. }
  1,2: cbn [fold_left vstep] in Hv;
    destruct (l d) as [od|] eqn:Ed; try (rewrite vfold_none in Hv; discriminate);
    destruct (l s) as [os|] eqn:Es; try (rewrite vfold_none in Hv; discriminate);
    unfold hset at 1 in Hv; rewrite Nat.eqb_refl in Hv;
    destruct (copied_ok h l d s os _ Hok Es Ed) as (q & h' & E1 & E2 & G);
    cbn [fold_left step]; pose proof (Hok d) as Hd; rewrite Ed in Hd.
  1: rewrite Hd, E1, E2; apply (IH _ _ _ G Hv).
  1: destruct Hd as (qd & bd & Hd & _); rewrite Hd, E1, E2; apply (IH _ _ _ G Hv).
  all: cbn [fold_left] in Hv |- *;
    match type of Hv with fold_left _ _ (vstep ?l ?c) = _ =>
      destruct (vstep l c) as [l1|] eqn:E1; [|rewrite vfold_none in Hv; discriminate];
      destruct (step_ok _ l c l1 Hok E1 I) as (h1 & E2 & G); rewrite E2; apply (IH _ _ _ G Hv)
    end.
Qed.

Lemma exec_ok cs l : cleared_copies cs -> vexec cs = Some l ->
  exists h, exec F W qs cs = Some h /\ objects_ok h l.
Proof.
  intros Hc Hv; apply (exec_ok_from cs Hc (fun _ => None) (fun _ => None) l); [|exact Hv].
  intros o; reflexivity.
Qed.

(** ** Observers of a good object *)
Lemma get_good h o l q b i : h o = Some q -> good_obj o l q b ->
  ipq_get F W qs h o i =
  if Nat.leb (length l) H then psq_get F qs (st F qs l) i
  else let s := N.of_nat (length (cur_block H l)) in
       match psq_get F qs (st F qs (prev_block H l)) i,
             psq_get F qs (st F qs (cur_block H l)) i with
       | Some p, Some a =>
         Some (ndiv (nadd (nmul p (nofsz (N.of_nat H - s))) (nmul a (nofsz (2 * s))))
                    (nofsz (N.of_nat H + s)))
       | _, _ => None
       end.
Proof.
  intros Ho [Ha Hc Hp Hi].
  unfold ipq_get; rewrite Ho; unfold load; rewrite Ha; cbn [fst snd]; rewrite Ho, Hc.
  destruct Hi as [(Hl & Hb & Hi)|(Hl & Hi)]; rewrite Hi.
  - destruct (Nat.leb_spec (length l) H); [|lia].
    rewrite (proj1 (short_blocks H HH l Hl)); reflexivity.
  - destruct (Nat.leb_spec (length l) H); [lia|]; cbn [fst snd]; rewrite Ho, Hp.
    rewrite half, cur_size; pose proof (cur_block_le H HH l) as Hle; cbv zeta.
    rewrite szsub_small, szadd_small, szmul_small by lia; reflexivity.
Qed.

Lemma empty_good h o l q b : h o = Some q -> good_obj o l q b ->
  ipq_empty F h o = Some (match l with [] => true | _ => false end).
Proof.
  intros Ho [Ha Hc Hp Hi].
  unfold ipq_empty; rewrite Ho; unfold load; rewrite Ha; cbn [fst snd]; rewrite Ho, Hc.
  unfold psq_empty at 1; fold (psq_size F (st F qs (cur_block H l))); rewrite cur_size.
  destruct l as [|x l].
  - change (cur_block H []) with (@nil F); cbn [length N.of_nat N.eqb].
    destruct Hi as [(Hl & Hb & Hi)|(Hl & Hi)]; [rewrite Hi; reflexivity|cbn in Hl; lia].
  - pose proof (cur_block_pos H HH (x :: l) ltac:(discriminate)).
    destruct (N.eqb_spec (N.of_nat (length (cur_block H (x :: l)))) 0); [lia|reflexivity].
Qed.

End Proofs.
