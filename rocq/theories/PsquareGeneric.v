(** * P-square: invariants that hold for any arithmetic *)

From Coq Require Import ZArith NArith Bool List Lia Sorting.Sorted Sorting.Permutation.
From Verif Require Import Arith History HistoryLemmas Psquare PsquareLemmas SpecOrder.
Import ListNotations.

Section Generic.
Variable F : num.
Variable qs : list F.
Notation L := (parameter_length F qs).
Notation push := (psq_push F qs).
Notation init := (psq_init F qs).

Definition st (l : list F) : psq F := fold_left push l init.

Lemma run_psq (ops : list (op F)) :
  run push (psq_clear F qs) init ops = st (since_clear ops).
Proof. apply run_since_clear; reflexivity. Qed.

Lemma st_snoc l x : st (l ++ [x]) = push (st l) x.
Proof. unfold st; rewrite fold_left_app; reflexivity. Qed.

Definition positions0 : list N := map (fun i => N.of_nat (S i)) (seq 0 L).

Lemma positions0_length : length positions0 = L.
Proof. unfold positions0; rewrite map_length, seq_length; reflexivity. Qed.

Lemma pat_positions0 i : (i < L)%nat -> pat positions0 i = N.of_nat (S i).
Proof.
  intros H; unfold pat, positions0.
  rewrite (nth_indep _ _ (N.of_nat (S 0))) by (rewrite map_length, seq_length; lia).
  rewrite (map_nth (fun i => N.of_nat (S i))), seq_nth by lia; reflexivity.
Qed.

Lemma increasing_positions0 : increasing positions0.
Proof.
  intros i Hi; rewrite positions0_length in Hi; rewrite !pat_positions0 by lia; lia.
Qed.

Lemma L_ge : (3 <= L)%nat.
Proof. unfold parameter_length; lia. Qed.

Lemma st_short l : (length l <= L)%nat -> (N.of_nat (length l) < szmod)%N ->
  st l = Psq F (N.of_nat (length l)) positions0
             (asc F l ++ repeat n0 (L - length l))
             (ps_desired F init) (ps_deltas F init).
Proof.
  induction l as [|x l IH] using rev_ind; intros Hl Hs.
  - cbn [length asc desc fold_left rev app]; rewrite Nat.sub_0_r; reflexivity.
  - rewrite length_snoc in *; rewrite st_snoc, IH by lia.
    unfold psq_push; cbn [ps_count ps_positions ps_heights ps_desired ps_deltas].
    destruct (N.leb_spec (N.of_nat L) (N.of_nat (length l))); [lia|].
    rewrite szadd_small by lia; f_equal; [lia|].
    rewrite Nat2N.id.
    replace (L - length l)%nat with (S (L - S (length l))) by lia.
    cbn [repeat]; unfold asc.
    pose proof (insert_at_app F (desc F l) x n0 (repeat n0 (L - S (length l)))) as E.
    rewrite desc_length in E; rewrite E, desc_snoc; reflexivity.
Qed.

Definition fits (l : list F) : Prop := (N.of_nat (length l) < szmod)%N.

(** Structural part, no assumption about the arithmetic except that the cell is
    inside the array. *)
Lemma st_count l : fits l -> ps_count F (st l) = N.of_nat (length l).
Proof.
  induction l as [|x l IH] using rev_ind; intros H; [reflexivity|].
  unfold fits in *; rewrite length_snoc in *; rewrite st_snoc.
  unfold psq_push; destruct (N.leb _ _).
  - destruct (psq_cell F qs _ _) as [k h]; cbn [ps_count].
    rewrite IH, szadd_small by lia; lia.
  - cbn [ps_count]; rewrite IH, szadd_small by lia; lia.
Qed.

Lemma st_deltas l : ps_deltas F (st l) = constant_deltas F qs.
Proof.
  induction l as [|x l IH] using rev_ind; [reflexivity|].
  rewrite st_snoc; unfold psq_push; destruct (N.leb _ _); [|exact IH].
  destruct (psq_cell F qs _ _) as [k h]; exact IH.
Qed.

(** The arrays keep their length, whatever the comparisons return. *)
Lemma adjust_lengths d i p h :
  length (fst (psq_adjust F d (p, h) i)) = length p /\
  length (snd (psq_adjust F d (p, h) i)) = length h.
Proof.
  unfold psq_adjust; destruct (_ || _); [|auto].
  cbn [fst snd]; rewrite aset_length; split; [reflexivity|].
  destruct (_ && _); apply aset_length.
Qed.

Lemma adjust_loop_lengths d idx : forall p h,
  length (fst (fold_left (psq_adjust F d) idx (p, h))) = length p /\
  length (snd (fold_left (psq_adjust F d) idx (p, h))) = length h.
Proof.
  induction idx as [|i idx IH]; intros p h; [auto|]; cbn [fold_left].
  destruct (adjust_lengths d i p h) as [A B].
  destruct (psq_adjust F d (p, h) i) as [p' h']; cbn [fst snd] in *.
  destruct (IH p' h') as [C D]; split; congruence.
Qed.

Lemma insert_at_length k : forall h x, length (insert_at F h k x) = length h.
Proof.
  induction k as [|k IH]; intros h x; cbn [insert_at]; [apply aset_length|].
  destruct (nlt x _); [rewrite IH|]; apply aset_length.
Qed.

Lemma st_lengths l :
  length (ps_positions F (st l)) = L /\ length (ps_heights F (st l)) = L.
Proof.
  induction l as [|x l [IH1 IH2]] using rev_ind.
  - split; [apply positions0_length|apply repeat_length].
  - rewrite st_snoc; unfold psq_push; destruct (N.leb _ _).
    + destruct (psq_cell F qs (ps_heights F (st l)) x) as [k h] eqn:E.
      cbn [ps_positions ps_heights].
      match goal with |- context [fold_left ?f ?i (?p, ?h)] =>
        destruct (adjust_loop_lengths (add_deltas F (ps_desired F (st l)) (ps_deltas F (st l))) i p h) as [A B]
      end.
      rewrite A, B, bump_from_length; split; [exact IH1|].
      rewrite <- IH2; unfold psq_cell in E.
      destruct (nlt _ _); [|destruct (nle _ _)]; injection E as _ <-; rewrite ?aset_length; reflexivity.
    + cbn [ps_positions ps_heights]; rewrite insert_at_length; auto.
Qed.

Section Ordered.
Variable P : F -> Prop.
Hypothesis HP : total_on F P.

Notation is_min := (is_min F).
Notation is_max := (is_max F).

Lemma upper_bound_pos h x : nlt x (hat F h 0) = false -> (0 < length h)%nat ->
  (1 <= upper_bound F h x)%nat.
Proof.
  destruct h as [|y t]; cbn; intros E H; [lia|].
  unfold hat in E; cbn in E; rewrite E; lia.
Qed.

Lemma upper_bound_last h x : nlt x (hat F h (length h - 1)) = true ->
  (0 < length h)%nat -> (upper_bound F h x <= length h - 1)%nat.
Proof.
  induction h as [|y t IH]; intros E H; [cbn in H; lia|].
  destruct t as [|z t].
  - cbn in E |- *; unfold hat in E; cbn in E; rewrite E; lia.
  - cbn [upper_bound]; destruct (nlt x y); [cbn; lia|].
    cbn [length] in *.
    assert (upper_bound F (z :: t) x <= S (length t) - 1)%nat.
    { apply IH; [|lia].
      replace (S (S (length t)) - 1)%nat with (S (S (length t) - 1)) in E by lia.
      exact E. }
    cbn [upper_bound] in *; lia.
Qed.

(** The cell computed by push() *)
Lemma cell_spec h x l k h' :
  length h = L -> P x -> Forall P l ->
  is_min l (hat F h 0) -> is_max l (hat F h (L - 1)) ->
  psq_cell F qs h x = (k, h') ->
  (1 <= k <= L - 1)%nat /\ length h' = L /\
  is_min (l ++ [x]) (hat F h' 0) /\ is_max (l ++ [x]) (hat F h' (L - 1)).
Proof.
  intros Hlen Hx Hl [Hm1 Hm2] [HM1 HM2] E; unfold psq_cell in E.
  pose proof L_ge as HL.
  pose proof (proj1 (Forall_forall P l) Hl) as Hin.
  pose proof (Hin _ Hm1) as Pm; pose proof (Hin _ HM1) as PM.
  assert (Hsnoc : forall (Q : F -> Prop), (forall y, In y l -> Q y) -> Q x ->
            forall y, In y (l ++ [x]) -> Q y).
  { intros Q H1 H2 y Hy; apply in_app_iff in Hy; destruct Hy as [Hy|[<-|[]]]; auto. }
  destruct (nlt x (hat F h 0)) eqn:E1.
  - injection E as <- <-; rewrite aset_length; split; [lia|]; split; [exact Hlen|].
    unfold hat; rewrite nth_aset_eq, nth_aset_neq by lia; fold (hat F h (L - 1)).
    pose proof (nlt_true_le F P HP x _ Hx Pm E1) as Hle.
    split; split.
    + apply in_app_iff; right; left; reflexivity.
    + apply Hsnoc; [|apply (nle_refl_on F P HP); exact Hx].
      intros y Hy; apply (to_trans F P HP x (hat F h 0) y); auto.
    + apply in_app_iff; left; exact HM1.
    + apply Hsnoc; [exact HM2|].
      apply (to_trans F P HP x (hat F h 0) _); auto.
  - pose proof (nlt_false_le F P HP x _ Hx Pm E1) as Hle0.
    destruct (nle (hat F h (L - 1)) x) eqn:E2.
    + injection E as <- <-; rewrite aset_length; split; [lia|]; split; [exact Hlen|].
      unfold hat; rewrite nth_aset_eq, nth_aset_neq by lia; fold (hat F h 0).
      split; split.
      * apply in_app_iff; left; exact Hm1.
      * apply Hsnoc; [exact Hm2|exact Hle0].
      * apply in_app_iff; right; left; reflexivity.
      * apply Hsnoc; [|apply (nle_refl_on F P HP); exact Hx].
        intros y Hy; apply (to_trans F P HP y (hat F h (L - 1)) x); auto.
    + pose proof (nle_false_lt F P HP _ _ PM Hx E2) as Hlt.
      pose proof (nlt_true_le F P HP _ _ Hx PM Hlt) as HleM.
      injection E as <- <-; split.
      * split; [apply upper_bound_pos; [exact E1|lia]|].
        rewrite <- Hlen; apply upper_bound_last; [rewrite Hlen; exact Hlt|lia].
      * split; [exact Hlen|]; split; split.
        -- apply in_app_iff; left; exact Hm1.
        -- apply Hsnoc; assumption.
        -- apply in_app_iff; left; exact HM1.
        -- apply Hsnoc; assumption.
Qed.

Record long_inv (l : list F) (s : psq F) : Prop := {
  li_plen : length (ps_positions F s) = L;
  li_hlen : length (ps_heights F s) = L;
  li_inc : increasing (ps_positions F s);
  li_first : pat (ps_positions F s) 0 = 1%N;
  li_last : pat (ps_positions F s) (L - 1) = N.of_nat (length l);
  li_min : is_min l (hat F (ps_heights F s) 0);
  li_max : is_max l (hat F (ps_heights F s) (L - 1))
}.

Lemma last_rev {A} (l : list A) d : last (rev l) d = hd d l.
Proof. destruct l as [|x l]; [reflexivity|]; cbn; apply last_last. Qed.

Lemma nth_last {A} (l : list A) d : nth (length l - 1) l d = last l d.
Proof.
  destruct l as [|x l] using rev_ind; [reflexivity|].
  rewrite length_snoc, last_last, app_nth2 by lia.
  replace (S (length l) - 1 - length l)%nat with 0%nat by lia; reflexivity.
Qed.

Lemma asc_first l : l <> [] -> Forall P l -> is_min l (nth 0 (asc F l) n0).
Proof.
  intros Hl Hf.
  pose proof (desc_last_min F P HP l n0 Hf Hl) as H.
  replace (nth 0 (asc F l) n0) with (last (desc F l) n0); [exact H|].
  unfold asc.
  rewrite <- (rev_involutive (desc F l)) at 1; rewrite last_rev.
  destruct (rev (desc F l)); reflexivity.
Qed.

Lemma asc_final l : l <> [] -> Forall P l -> is_max l (nth (length l - 1) (asc F l) n0).
Proof.
  intros Hl Hf.
  pose proof (desc_hd_max F P HP l n0 Hf Hl) as H.
  replace (nth (length l - 1) (asc F l) n0) with (hd n0 (desc F l)); [exact H|].
  rewrite <- (asc_length F l), nth_last; unfold asc; rewrite last_rev; reflexivity.
Qed.

Lemma long_inv_start l : length l = L -> fits l -> Forall P l -> long_inv l (st l).
Proof.
  intros Hl Hs Hf; unfold fits in Hs.
  pose proof L_ge as HL.
  assert (Hne : l <> []) by (intros ->; cbn in Hl; lia).
  rewrite st_short by lia; rewrite Hl, Nat.sub_diag; cbn [repeat]; rewrite app_nil_r.
  constructor; cbn [ps_positions ps_heights].
  - apply positions0_length.
  - rewrite asc_length; exact Hl.
  - apply increasing_positions0.
  - rewrite pat_positions0 by lia; reflexivity.
  - rewrite pat_positions0 by lia; rewrite Hl; lia.
  - apply asc_first; assumption.
  - rewrite <- Hl; apply asc_final; assumption.
Qed.

(** Every intermediate state of the adjustment loop. *)
Lemma long_inv_loop l x s j : fits (l ++ [x]) -> P x -> Forall P l ->
  long_inv l s -> (j <= L - 2)%nat ->
  let (k, h) := psq_cell F qs (ps_heights F s) x in
  let p := bump_from k (ps_positions F s) in
  let d := add_deltas F (ps_desired F s) (ps_deltas F s) in
  let ph := fold_left (psq_adjust F d) (seq 1 j) (p, h) in
  (1 <= k <= L - 1)%nat /\
  long_inv (l ++ [x]) (Psq F (szadd (ps_count F s) 1) (fst ph) (snd ph) d (ps_deltas F s)).
Proof.
  intros Hs Hx Hl Hinv Hj; unfold fits in Hs; rewrite length_snoc in Hs.
  destruct (psq_cell F qs (ps_heights F s) x) as [k h] eqn:Ek.
  destruct Hinv as [Hp Hh Hi H1 Hn Hm HM].
  pose proof L_ge as HL.
  destruct (cell_spec _ _ _ _ _ Hh Hx Hl Hm HM Ek) as (Hk & Hh' & Hm' & HM').
  intros p d.
  destruct (fold_left (psq_adjust F d) (seq 1 j) (p, h)) as [p' h'] eqn:E.
  assert (Hpl : length p = L) by (unfold p; rewrite bump_from_length; exact Hp).
  assert (Hpi : increasing p).
  { apply increasing_bump; [exact Hi|rewrite Hp, Hn; lia]. }
  assert (Hlast : pat p (L - 1) = N.of_nat (S (length l))).
  { unfold p; rewrite pat_bump by lia.
    destruct (Nat.ltb_spec (L - 1) k); [lia|].
    rewrite Hn, szadd_small by lia; lia. }
  assert (Hfirst : pat p 0 = 1%N).
  { unfold p; rewrite pat_bump by lia.
    destruct (Nat.ltb_spec 0 k); [exact H1|lia]. }
  destruct (adjust_loop_spec F d (seq 1 j) p h p' h') as (I & Lp & Lh & Hsame);
    try assumption.
  - rewrite Hpl, Hlast; lia.
  - apply Forall_forall; intros i Hin; apply in_seq in Hin; lia.
  - split; [exact Hk|]; cbn [fst snd].
    destruct (Hsame 0%nat) as [S1 S2]; [rewrite in_seq; lia|].
    destruct (Hsame (L - 1)%nat) as [S3 S4]; [rewrite in_seq; lia|].
    constructor; cbn [ps_positions ps_heights]; rewrite ?length_snoc; try assumption; try congruence.
Qed.

Lemma long_inv_push l x : fits (l ++ [x]) -> P x -> Forall P l ->
  (L <= length l)%nat -> long_inv l (st l) -> long_inv (l ++ [x]) (st (l ++ [x])).
Proof.
  intros Hs Hx Hl HL Hinv.
  rewrite st_snoc; unfold psq_push.
  assert (Hsl : fits l) by (unfold fits in *; rewrite length_snoc in Hs; lia).
  rewrite (st_count l Hsl).
  destruct (N.leb_spec (N.of_nat L) (N.of_nat (length l))); [|lia].
  pose proof (long_inv_loop l x (st l) (L - 2) Hs Hx Hl Hinv ltac:(lia)) as G.
  rewrite (st_count l Hsl) in G.
  destruct (psq_cell F qs (ps_heights F (st l)) x) as [k h]; apply G.
Qed.

Lemma long_inv_st l : fits l -> Forall P l -> (L <= length l)%nat -> long_inv l (st l).
Proof.
  induction l as [|x l IH] using rev_ind; intros Hs Hf HL.
  { cbn in HL; pose proof L_ge; lia. }
  assert (Hsl : fits l) by (unfold fits in *; rewrite length_snoc in Hs; lia).
  apply Forall_app in Hf; destruct Hf as [Hf Hx]; inversion Hx; subst.
  rewrite length_snoc in HL.
  destruct (Nat.eq_dec (S (length l)) L) as [E|NE].
  - apply long_inv_start; [rewrite length_snoc; exact E|exact Hs|].
    apply Forall_app; split; [exact Hf|constructor; auto].
  - apply long_inv_push; auto; [lia|apply IH; auto; lia].
Qed.

End Ordered.
End Generic.
