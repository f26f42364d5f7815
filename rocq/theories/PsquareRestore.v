(** * P-square: restoring saved parameters and continuing *)

From Coq Require Import Reals ZArith NArith Bool List Lia Lra Sorting.Sorted.
From Flocq Require Import Core.
From Verif Require Import Arith History HistoryLemmas Psquare PsquareLemmas PsquareGeneric SpecOrder
  SpecParameters Rounded RoundedProofs CorrectRounding PsquareOrdered.
Import ListNotations.

Section Restore.
Variable F : num.
Variable qs : list F.
Notation L := (parameter_length F qs).
Notation push := (psq_push F qs).
Notation st := (st F qs).
Notation fits := (PsquareGeneric.fits F).

(** The positions, whatever the comparisons return (NaN included). *)
Lemma st_positions l : fits l -> (N.of_nat L < szmod)%N ->
  increasing (ps_positions F (st l)) /\
  (pat (ps_positions F (st l)) (L - 1) <= N.max (N.of_nat (length l)) (N.of_nat L))%N.
Proof.
  pose proof (L_ge F qs) as HL.
  induction l as [|x l IH] using rev_ind; intros Hs HLs.
  { cbn [PsquareGeneric.st fold_left psq_init psq_initialize ps_positions].
    split; [apply (increasing_positions0 F qs)|].
    pose proof (pat_positions0 F qs (L - 1) ltac:(lia)) as E. unfold positions0 in E. rewrite E. lia. }
  assert (Hsl : fits l) by (unfold PsquareGeneric.fits in *; rewrite length_snoc in Hs; lia).
  destruct (IH Hsl HLs) as [I B]. clear IH.
  destruct (st_lengths F qs l) as [Lp Lh].
  unfold PsquareGeneric.fits in Hs. rewrite length_snoc in Hs |- *.
  rewrite (st_snoc F qs). unfold psq_push. rewrite (st_count F qs l Hsl).
  destruct (N.leb_spec (N.of_nat L) (N.of_nat (length l))) as [C|C].
  - destruct (psq_cell F qs (ps_heights F (st l)) x) as [k h].
    set (d := add_deltas _ _ _). set (p := bump_from k _). cbn [ps_positions].
    destruct (fold_left (psq_adjust F d) (seq 1 (L - 2)) (p, h)) as [p' h'] eqn:E.
    assert (Pl : length p = L) by (unfold p; rewrite bump_from_length; exact Lp).
    assert (Pb : (pat p (L - 1) <= N.of_nat (S (length l)))%N).
    { unfold p. rewrite pat_bump by lia. destruct (Nat.ltb _ _); [lia|].
      rewrite szadd_small by lia. lia. }
    destruct (adjust_loop_spec F d (seq 1 (L - 2)) p h p' h') as (I' & _ & _ & Same).
    + unfold p. apply increasing_bump; [exact I|]. rewrite Lp. lia.
    + rewrite Pl. lia.
    + rewrite Pl. apply Forall_forall. intros i Hi. apply in_seq in Hi. lia.
    + exact E.
    + split; [exact I'|]. cbn [fst].
      destruct (Same (L - 1)%nat) as [-> _]; [rewrite in_seq; lia|]. lia.
  - cbn [ps_positions]. split; [exact I|lia].
Qed.

(** The assignment loop. *)
Lemma assign_combine p : forall h,
  length p = length h -> Forall (fun x => ntosz (nofsz x : F) = Some x) p ->
  psq_assign F (length p) (combine p h) = Some (p, (h, map nofsz p)).
Proof.
  induction p as [|x p IH]; intros [|y h] H Hc; try discriminate; [reflexivity|].
  inversion Hc as [|? ? Hx Hp]; subst. cbn [length combine psq_assign map].
  rewrite Hx, (IH h) by (try assumption; cbn in H; lia). reflexivity.
Qed.

Lemma assign_some n : forall data ps hs ds, psq_assign F n data = Some (ps, (hs, ds)) ->
  length ps = n /\ length hs = n /\ (n <= length data)%nat.
Proof.
  induction n as [|n IH]; intros data ps hs ds H.
  - injection H as <- <- <-. cbn. repeat split; lia.
  - destruct data as [|[p h] t]; [discriminate|]. cbn [psq_assign] in H.
    destruct (ntosz _) as [q|]; [|discriminate].
    destruct (psq_assign F n t) as [[ps' [hs' ds']]|] eqn:E; [|discriminate].
    injection H as <- <- <-. destruct (IH _ _ _ _ E) as (A & B & C). cbn [length]. lia.
Qed.

Lemma restore_arrays l t : fits l -> (N.of_nat L < szmod)%N ->
  counts_convert F (N.max (N.of_nat (length l)) (N.of_nat L)) ->
  psq_restore F qs t (psq_parameters F (st l)) =
  Some (Psq F (N.of_nat L) (ps_positions F (st l)) (ps_heights F (st l))
          (map nofsz (ps_positions F (st l))) (ps_deltas F t)).
Proof.
  intros Hs HL Hc. destruct (st_lengths F qs l) as [A B].
  destruct (st_positions l Hs HL) as [I Bd].
  unfold psq_restore, psq_parameters.
  assert (E : psq_assign F L (combine (ps_positions F (st l)) (ps_heights F (st l))) =
    Some (ps_positions F (st l), (ps_heights F (st l), map nofsz (ps_positions F (st l))))).
  { rewrite <- A at 1. apply assign_combine; [congruence|].
    apply Forall_forall. intros x Hx. destruct (In_nth _ _ 0%N Hx) as (i & Hi & <-).
    apply Hc. pose proof (increasing_below _ (pat (ps_positions F (st l)) (L - 1) + 1) I) as G.
    rewrite A in G. specialize (G ltac:(lia) i ltac:(lia)). unfold pat in *. lia. }
  rewrite E. reflexivity.
Qed.

(** A state from which the estimator can be continued. *)
Definition cont (s : psq F) (l : list F) : psq F := fold_left push l s.

Lemma cont_snoc s l x : cont s (l ++ [x]) = push (cont s l) x.
Proof. unfold cont; rewrite fold_left_app; reflexivity. Qed.

Lemma cont_count s m : (N.of_nat L <= ps_count F s)%N -> (ps_count F s + N.of_nat (length m) < szmod)%N ->
  ps_count F (cont s m) = (ps_count F s + N.of_nat (length m))%N.
Proof.
  intros H0. induction m as [|x m IH] using rev_ind; intros H; [cbn; lia|].
  rewrite length_snoc in *. rewrite cont_snoc. unfold psq_push. rewrite IH by lia.
  destruct (N.leb_spec (N.of_nat L) (ps_count F s + N.of_nat (length m))); [|lia].
  destruct (psq_cell F qs _ _) as [k h]. cbn [ps_count]. rewrite szadd_small by lia. lia.
Qed.

Section Ordered.
Variable P : F -> Prop.
Hypothesis HP : total_on F P.

Lemma cont_inv s l m : (N.of_nat L <= ps_count F s)%N ->
  (ps_count F s + N.of_nat (length m) < szmod)%N -> fits (l ++ m) ->
  Forall P l -> Forall P m -> long_inv F qs l s -> long_inv F qs (l ++ m) (cont s m).
Proof.
  intros H0 Hc Hs Hl Hm I. induction m as [|x m IH] using rev_ind.
  { rewrite app_nil_r. exact I. }
  apply Forall_app in Hm. destruct Hm as [Hm Hx]. inversion Hx as [|? ? Px _]; subst.
  rewrite app_assoc in *.
  assert (Hs' : fits (l ++ m)) by (unfold PsquareGeneric.fits in *; rewrite length_snoc in Hs; lia).
  rewrite length_snoc in Hc. specialize (IH ltac:(lia) Hs' Hm).
  rewrite cont_snoc. unfold psq_push.
  pose proof (cont_count s m H0 ltac:(lia)) as Ec. rewrite Ec.
  destruct (N.leb_spec (N.of_nat L) (ps_count F s + N.of_nat (length m))); [|lia].
  pose proof (long_inv_loop F qs P HP (l ++ m) x (cont s m) (L - 2) Hs Px
    ltac:(apply Forall_app; split; assumption) IH ltac:(lia)) as G.
  rewrite Ec in G. destruct (psq_cell F qs (ps_heights F (cont s m)) x) as [k h]. apply G.
Qed.

End Ordered.
End Restore.

Section Ordered2.
Local Open Scope R_scope.
Variables emin prec : Z.
Hypothesis prec8 : (8 <= prec)%Z.
Hypothesis emin34 : (emin <= -34)%Z.
Variable F : num.
Variable val : F -> R -> Prop.
Variable B : R.
Hypothesis C : correct F val emin prec B.
Variable k : Z.
Hypothesis k_emin : (emin <= k)%Z.
Hypothesis k_B : bpow radix2 (k + 30) <= B.
Hypothesis one_B : 1 <= B.
Variable qs : list F.
Notation L := (parameter_length F qs).
Notation cont := (cont F qs).
Let P (x : F) : Prop := exists v, val x v.

Local Notation heights_are := (heights_are F val k).
Local Notation small := (small F val k).
Local Notation room := (room prec).

Lemma cont_ordered s l m r : (N.of_nat L <= ps_count F s)%N ->
  (ps_count F s + N.of_nat (length m) < szmod)%N -> room (length (l ++ m)) ->
  Forall P l -> Forall small m -> long_inv F qs l s -> heights_are (ps_heights F s) r ->
  exists r', heights_are (ps_heights F (cont s m)) r'.
Proof.
  intros H0 Hc Hr Hl Hm I Hh. induction m as [|x m IH] using rev_ind; [exists r; exact Hh|].
  apply Forall_app in Hm. destruct Hm as [Hm Hx]. inversion Hx as [|? ? Sx _]; subst.
  rewrite app_assoc in *. pose proof (room_fits _ F _ Hr) as Hfit.
  rewrite length_snoc in Hr, Hc.
  assert (Hr' : room (length (l ++ m))) by (destruct Hr; split; lia).
  pose proof (room_fits _ F _ Hr') as Hfit'.
  destruct (IH ltac:(lia) Hr' Hm) as [r1 H1]. clear IH.
  assert (Pm : Forall P m).
  { rewrite Forall_forall in *. intros y Hy. destruct (Hm y Hy) as (v & V & _). exists v. exact V. }
  pose proof (cont_inv F qs P (correct_total F val emin prec B C) s l m H0 ltac:(lia) Hfit' Hl Pm I) as [Pl Hlh Hi _ Hn _ _].
  destruct Sx as (v & V & Bv).
  rewrite cont_snoc. unfold psq_push. rewrite (cont_count F qs s m H0) by lia.
  destruct (N.leb_spec (N.of_nat L) (ps_count F s + N.of_nat (length m))); [|lia].
  destruct (psq_cell F qs (ps_heights F (cont s m)) x) as [j h'] eqn:Ec.
  destruct (cell_ordered emin prec F val B C k qs _ r1 x v j h' H1 Hlh V Bv Ec) as [r2 H2].
  cbn [ps_heights].
  assert (Hlen' : length h' = L).
  { rewrite <- Hlh. unfold psq_cell in Ec.
    destruct (nlt _ _); [|destruct (nle _ _)]; injection Ec as _ <-; rewrite ?aset_length; reflexivity. }
  unfold PsquareGeneric.fits in Hfit. rewrite length_snoc in Hfit.
  pose proof (L_ge F qs) as L3.
  assert (Lp : length (bump_from j (ps_positions F (cont s m))) = L) by (rewrite bump_from_length; exact Pl).
  assert (Last : (pat (bump_from j (ps_positions F (cont s m))) (L - 1) <= N.of_nat (S (length (l ++ m))))%N).
  { rewrite pat_bump by lia. destruct (Nat.ltb _ _); [lia|]. rewrite Hn, szadd_small by lia. lia. }
  destruct Hr as [R1 R2].
  apply (loop_ordered emin prec prec8 emin34 F val B C k k_emin k_B one_B _ _ _ _ r2); [exact H2| |lia|rewrite Lp; lia|rewrite Lp; lia|].
  - apply increasing_bump; [exact Hi|rewrite Pl, Hn; lia].
  - rewrite Lp. apply Forall_forall. intros i Hin. apply in_seq in Hin. lia.
Qed.

(** Heights of the continued estimator as numbers. *)
Lemma cont_heights s l m vs r : (N.of_nat L <= ps_count F s)%N ->
  (ps_count F s + N.of_nat (length m) < szmod)%N -> room (length (l ++ m)) ->
  Forall2 val (l ++ m) vs -> Forall (fun v => Rabs v <= bpow radix2 k) vs ->
  long_inv F qs l s -> heights_are (ps_heights F s) r ->
  exists hs, Forall2 val (ps_heights F (cont s m)) hs /\ StronglySorted Rle hs /\
    Forall (fun h => in_hull h vs) hs.
Proof.
  intros H0 Hc Hr H2 Hb I Hh0.
  assert (Sm : Forall small (l ++ m)).
  { clear - H2 Hb. induction H2 as [|x v t vs V _ IH]; [constructor|]. inversion Hb; subst.
    constructor; [exists v; split; assumption|apply IH; assumption]. }
  apply Forall_app in Sm. destruct Sm as [Sl Sm].
  assert (FPl : Forall P l).
  { rewrite Forall_forall in *. intros y Hy. destruct (Sl y Hy) as (v & V & _). exists v. exact V. }
  assert (FPm : Forall P m).
  { rewrite Forall_forall in *. intros y Hy. destruct (Sm y Hy) as (v & V & _). exists v. exact V. }
  destruct (cont_ordered s l m r H0 Hc Hr FPl Sm I Hh0) as [r' Hrr].
  pose proof (cont_inv F qs P (correct_total F val emin prec B C) s l m H0 Hc (room_fits _ F _ Hr) FPl FPm I) as [_ Hh _ _ _ [Mi _] [Ma _]].
  set (h := ps_heights F (cont s m)) in *.
  pose proof (L_ge F qs) as L3.
  assert (InV : forall x a, In x (l ++ m) -> val x a -> In a vs).
  { clear - H2 C. intros x a Hx Va. induction H2 as [|y v t vs V _ IH]; [destruct Hx|].
    destruct Hx as [->|Hx]; [left; apply (co_inj _ _ _ _ _ C x v a V Va)|right; apply IH; exact Hx]. }
  pose proof Hrr as [Hv Hm].
  exists (map r' (seq 0 (length h))). split; [|split].
  - assert (G : forall (t : list F) b, (forall j, (j < length t)%nat -> val (nth j t n0) (r' (b + j)%nat)) ->
      Forall2 val t (map r' (seq b (length t)))).
    { induction t as [|x t IH]; intros b H; [constructor|]. cbn [length seq map]. constructor.
      - specialize (H 0%nat ltac:(cbn; lia)). cbn [nth] in H. rewrite Nat.add_0_r in H. exact H.
      - apply IH. intros j Hj. specialize (H (S j) ltac:(cbn; lia)). cbn [nth] in H.
        replace (S b + j)%nat with (b + S j)%nat by lia. exact H. }
    apply G. intros j Hj. apply Hv. exact Hj.
  - assert (G : forall n b, (b + n <= length h)%nat -> StronglySorted Rle (map r' (seq b n))).
    { induction n as [|n IH]; intros b Hn; [constructor|]. cbn [seq map]. constructor; [apply IH; lia|].
      apply Forall_forall. intros y Hy. apply in_map_iff in Hy. destruct Hy as (j & <- & Hj). apply in_seq in Hj.
      apply (heights_le F val k h); [exact Hrr|lia|lia]. }
    apply G. lia.
  - apply Forall_forall. intros y Hy. apply in_map_iff in Hy. destruct Hy as (j & <- & Hj). apply in_seq in Hj.
    split.
    + exists (r' 0%nat). split; [|apply (heights_le F val k h); [exact Hrr|lia|lia]].
      apply (InV (hat F h 0)); [exact Mi|apply Hv; lia].
    + exists (r' (L - 1)%nat). split; [|apply (heights_le F val k h); [exact Hrr|lia|lia]].
      apply (InV (hat F h (L - 1))); [exact Ma|apply Hv; lia].
Qed.

End Ordered2.
