(** * Arrays, orders and marker positions: facts for any arithmetic *)

From Coq Require Import ZArith NArith Bool List Lia Sorting.Sorted Sorting.Permutation.
From Verif Require Import Arith History HistoryLemmas Psquare SpecOrder.
Import ListNotations.

(** ** Arrays *)
Lemma aset_length {A} (l : list A) i v : length (aset l i v) = length l.
Proof.
  revert i; induction l as [|x l IH]; intros [|i]; cbn; auto.
Qed.

Lemma nth_aset {A} (l : list A) i j v d :
  nth j (aset l i v) d =
  if (Nat.eqb j i && Nat.ltb i (length l))%bool then v else nth j l d.
Proof.
  revert i j; induction l as [|x l IH]; intros i j.
  - rewrite andb_comm; destruct i; reflexivity.
  - destruct i as [|i], j as [|j]; cbn; try reflexivity.
    rewrite IH; reflexivity.
Qed.

Lemma nth_aset_eq {A} (l : list A) i v d : (i < length l)%nat -> nth i (aset l i v) d = v.
Proof.
  intros H; rewrite nth_aset, Nat.eqb_refl.
  apply Nat.ltb_lt in H; rewrite H; reflexivity.
Qed.

Lemma nth_aset_neq {A} (l : list A) i j v d : j <> i -> nth j (aset l i v) d = nth j l d.
Proof.
  intros H; rewrite nth_aset; apply Nat.eqb_neq in H; rewrite H; reflexivity.
Qed.

Lemma aset_app_mid {A} (s : list A) x rest v :
  aset (s ++ x :: rest) (length s) v = s ++ v :: rest.
Proof. induction s as [|y s IH]; cbn; [reflexivity|f_equal; exact IH]. Qed.

(** ** size_t steps *)
Lemma szmod_pos : (0 < szmod)%N.
Proof. reflexivity. Qed.

Lemma sz_of_int_1 : sz_of_int 1 = 1%N.
Proof. reflexivity. Qed.

Lemma szadd_m1 a : (0 < a)%N -> (a < szmod)%N -> szadd a (sz_of_int (-1)) = (a - 1)%N.
Proof.
  intros H1 H2; unfold szadd, sz.
  replace (sz_of_int (-1)) with (szmod - 1)%N by reflexivity.
  replace (a + (szmod - 1))%N with ((a - 1) + 1 * szmod)%N by (pose proof szmod_pos; lia).
  rewrite N.mod_add by (pose proof szmod_pos; lia).
  apply N.mod_small; lia.
Qed.

Lemma szsub_m1 a : (a + 1 < szmod)%N -> szsub a (sz_of_int (-1)) = (a + 1)%N.
Proof.
  intros H2; unfold szsub, sz.
  replace (szmod - sz_of_int (-1) mod szmod)%N with 1%N by reflexivity.
  apply N.mod_small; lia.
Qed.

(** a - b wraps when b exceeds a *)
Lemma szsub_neg a b : (a < b)%N -> (b < szmod)%N -> szsub a b = (szmod - (b - a))%N.
Proof.
  intros H1 H2; unfold szsub, sz.
  rewrite (N.mod_small b) by exact H2.
  rewrite N.mod_small by lia; lia.
Qed.

Lemma idx_shift_p i : (Z.of_nat i + 1 < Z.of_N szmod)%Z -> idx_shift i 1 = (i + 1)%nat.
Proof. intros H; unfold idx_shift; rewrite Z.mod_small by lia; lia. Qed.

Lemma idx_shift_m i : (0 < i)%nat -> (Z.of_nat i < Z.of_N szmod)%Z ->
  idx_shift i (-1) = (i - 1)%nat.
Proof. intros H0 H; unfold idx_shift; rewrite Z.mod_small by lia; lia. Qed.

(** ** Marker positions *)
Definition increasing (p : list N) : Prop :=
  forall i, (S i < length p)%nat -> (pat p i < pat p (S i))%N.

Lemma increasing_lt p i j : increasing p -> (i < j)%nat -> (j < length p)%nat ->
  (pat p i < pat p j)%N.
Proof.
  intros H Hij Hj; induction j as [|j IH]; [lia|].
  destruct (Nat.eq_dec i j) as [->|Hn]; [apply H; exact Hj|].
  assert (pat p i < pat p j)%N by (apply IH; lia).
  assert (pat p j < pat p (S j))%N by (apply H; exact Hj); lia.
Qed.

Lemma increasing_below p b : increasing p -> (pat p (length p - 1) < b)%N ->
  forall i, (i < length p)%nat -> (pat p i < b)%N.
Proof.
  intros H Hb i Hi.
  destruct (Nat.eq_dec i (length p - 1)) as [->|Hn]; [exact Hb|].
  pose proof (increasing_lt p i (length p - 1) H ltac:(lia) ltac:(lia)); lia.
Qed.

Lemma pat_aset p i j v : (i < length p)%nat ->
  pat (aset p i v) j = if Nat.eqb j i then v else pat p j.
Proof.
  intros H; unfold pat; rewrite nth_aset; apply Nat.ltb_lt in H; rewrite H.
  rewrite andb_true_r; reflexivity.
Qed.

Lemma increasing_aset p i v : increasing p -> (0 < i)%nat -> (S i < length p)%nat ->
  (pat p (i - 1) < v)%N -> (v < pat p (i + 1))%N -> increasing (aset p i v).
Proof.
  intros H H0 Hi H1 H2 j Hj; rewrite aset_length in Hj.
  rewrite !pat_aset by lia.
  destruct (Nat.eqb_spec j i) as [E1|Hji]; destruct (Nat.eqb_spec (S j) i) as [E|Hsj].
  - lia.
  - subst j; rewrite Nat.add_1_r in H2; exact H2.
  - subst i; replace (S j - 1)%nat with j in H1 by lia; exact H1.
  - apply H; lia.
Qed.

Section Adjust.
Variable F : num.

Lemma adjust_spec d p h i p' h' :
  increasing p -> (pat p (length p - 1) < szmod)%N ->
  (0 < i)%nat -> (S i < length p)%nat ->
  psq_adjust F d (p, h) i = (p', h') ->
  increasing p' /\ length p' = length p /\ length h' = length h /\
  (forall j, j <> i -> pat p' j = pat p j) /\
  (forall j, j <> i -> hat F h' j = hat F h j).
Proof.
  intros Hp Hb H0 Hi E; unfold psq_adjust in E.
  pose proof (increasing_below p szmod Hp Hb) as Hall.
  assert (A1 : (pat p (i - 1) < pat p i)%N).
  { apply increasing_lt; [exact Hp|lia|lia]. }
  assert (A2 : (pat p i < pat p (i + 1))%N).
  { apply increasing_lt; [exact Hp|lia|lia]. }
  pose proof (Hall (i - 1)%nat ltac:(lia)) as B1.
  pose proof (Hall i ltac:(lia)) as B2.
  pose proof (Hall (i + 1)%nat ltac:(lia)) as B3.
  set (dev := nsub _ _) in E.
  set (sign := if nlt n0 dev then _ else _) in E.
  rewrite !szsub_small in E by lia.
  destruct (((sign =? 1)%Z && (1 <? pat p (i + 1) - pat p i)%N)
     || ((sign =? -1)%Z && (1 <? pat p i - pat p (i - 1))%N)) eqn:Ec.
  - injection E as E1 E2.
    assert (Hh : length h' = length h /\ forall j, j <> i -> hat F h' j = hat F h j).
    { assert (G : exists v, h' = aset h i v).
      { rewrite <- E2; destruct (nlt (hat F h (i - 1)) _ && _)%bool; eexists; reflexivity. }
      destruct G as (v & ->); rewrite aset_length; split; [reflexivity|].
      intros j Hj; apply nth_aset_neq; exact Hj. }
    destruct Hh as [Hh1 Hh2].
    rewrite <- E1, aset_length.
    split; [|split; [reflexivity|split; [exact Hh1|split; [|exact Hh2]]]].
    + apply orb_true_iff in Ec; destruct Ec as [Ec|Ec]; apply andb_true_iff in Ec;
        destruct Ec as [Es Eg]; apply Z.eqb_eq in Es; apply N.ltb_lt in Eg; rewrite Es.
      * rewrite sz_of_int_1, szadd_small by lia.
        apply increasing_aset; try assumption; lia.
      * rewrite szadd_m1 by lia.
        apply increasing_aset; try assumption; lia.
    + intros j Hj; apply nth_aset_neq; exact Hj.
  - injection E as <- <-; repeat split; auto.
Qed.

(** The whole loop, or any prefix of it. *)
Lemma adjust_loop_spec d idx : forall p h p' h',
  increasing p -> (pat p (length p - 1) < szmod)%N ->
  Forall (fun i => (0 < i)%nat /\ (S i < length p)%nat) idx ->
  fold_left (psq_adjust F d) idx (p, h) = (p', h') ->
  increasing p' /\ length p' = length p /\ length h' = length h /\
  (forall j, ~ In j idx -> pat p' j = pat p j /\ hat F h' j = hat F h j).
Proof.
  induction idx as [|i idx IH]; intros p h p' h' Hp Hb Hf E.
  - injection E as <- <-; repeat split; auto.
  - inversion Hf as [|? ? [Hi0 Hi] Hf']; subst.
    cbn [fold_left] in E.
    destruct (psq_adjust F d (p, h) i) as [p1 h1] eqn:E1.
    destruct (adjust_spec d p h i p1 h1 Hp Hb Hi0 Hi E1) as (I1 & L1 & L1' & P1 & H1).
    destruct (IH p1 h1 p' h') as (I2 & L2 & L2' & PH); try assumption.
    + rewrite L1, P1 by lia; exact Hb.
    + rewrite L1; exact Hf'.
    + split; [exact I2|]; split; [congruence|]; split; [congruence|].
      intros j Hj; cbn in Hj.
      destruct (PH j ltac:(tauto)) as [-> ->].
      split; [apply P1|apply H1]; intros ->; tauto.
Qed.

Lemma bump_from_length k p : length (bump_from k p) = length p.
Proof. revert k; induction p as [|x p IH]; intros k; cbn; auto. Qed.

Lemma pat_bump k p j : (j < length p)%nat ->
  pat (bump_from k p) j = if Nat.ltb j k then pat p j else szadd (pat p j) 1.
Proof.
  revert k j; induction p as [|x p IH]; intros k j Hj; [cbn in Hj; lia|].
  destruct j as [|j]; cbn [bump_from pat nth].
  - destruct k; reflexivity.
  - cbn in Hj. unfold pat in IH; rewrite IH by lia.
    destruct k as [|k]; cbn [Nat.pred]; [reflexivity|].
    destruct (Nat.ltb_spec j k), (Nat.ltb_spec (S j) (S k)); try lia; reflexivity.
Qed.

Lemma increasing_bump k p :
  increasing p -> (pat p (length p - 1) + 1 < szmod)%N -> increasing (bump_from k p).
Proof.
  intros H Hb i Hi; rewrite bump_from_length in Hi.
  pose proof (increasing_below p (szmod - 1) H ltac:(lia)) as Hall.
  pose proof (Hall i ltac:(lia)) as B1.
  pose proof (Hall (S i) ltac:(lia)) as B2.
  pose proof (H i Hi) as B3.
  rewrite !pat_bump by lia.
  destruct (Nat.ltb_spec i k), (Nat.ltb_spec (S i) k); try lia;
    rewrite ?szadd_small by lia; lia.
Qed.

(** ** Insertion *)

(** Descending list with [v] inserted. *)
Fixpoint rins (v : F) (r : list F) : list F :=
  match r with
  | [] => [v]
  | y :: t => if nlt v y then y :: rins v t else v :: y :: t
  end.
Definition desc (l : list F) : list F := fold_left (fun r v => rins v r) l [].
Definition asc (l : list F) : list F := rev (desc l).

Lemma rins_perm v r : Permutation (v :: r) (rins v r).
Proof.
  induction r as [|y t IH]; [reflexivity|]; cbn.
  destruct (nlt v y); [|reflexivity].
  rewrite perm_swap; constructor; exact IH.
Qed.

Lemma desc_snoc l v : desc (l ++ [v]) = rins v (desc l).
Proof. unfold desc; rewrite fold_left_app; reflexivity. Qed.

Lemma desc_perm l : Permutation l (desc l).
Proof.
  induction l as [|v l IH] using rev_ind; [reflexivity|].
  rewrite desc_snoc, <- rins_perm, <- IH, Permutation_app_comm; reflexivity.
Qed.

Lemma asc_perm l : Permutation l (asc l).
Proof. unfold asc; rewrite <- Permutation_rev; apply desc_perm. Qed.

Lemma desc_length l : length (desc l) = length l.
Proof. symmetry; apply Permutation_length, desc_perm. Qed.
Lemma asc_length l : length (asc l) = length l.
Proof. symmetry; apply Permutation_length, asc_perm. Qed.

Lemma insert_at_app r v : forall z rest,
  insert_at F (rev r ++ z :: rest) (length r) v = rev (rins v r) ++ rest.
Proof.
  induction r as [|y t IH]; intros z rest; [reflexivity|].
  cbn [insert_at length rev rins].
  assert (E : hat F ((rev t ++ [y]) ++ z :: rest) (length t) = y).
  { unfold hat; rewrite <- app_assoc; cbn [app].
    rewrite app_nth2 by (rewrite rev_length; lia).
    rewrite rev_length, Nat.sub_diag; reflexivity. }
  rewrite E; destruct (nlt v y) eqn:Ev.
  - replace (S (length t)) with (length (rev t ++ [y]))
      by (rewrite app_length, rev_length; cbn; lia).
    rewrite aset_app_mid, <- app_assoc; cbn [app].
    rewrite IH; cbn [rev]; rewrite <- app_assoc; reflexivity.
  - replace (S (length t)) with (length (rev t ++ [y]))
      by (rewrite app_length, rev_length; cbn; lia).
    rewrite aset_app_mid; cbn [rev]; rewrite <- !app_assoc; reflexivity.
Qed.

Section Order.
Variable P : F -> Prop.
Hypothesis HP : total_on F P.

Definition fge (x y : F) : Prop := nle y x = true.

Lemma nlt_false_le x y : P x -> P y -> nlt x y = false -> nle y x = true.
Proof. intros Hx Hy H; rewrite (to_le_lt F P HP) by assumption; rewrite H; reflexivity. Qed.

Lemma nlt_true_le x y : P x -> P y -> nlt x y = true -> nle x y = true.
Proof.
  intros Hx Hy H; rewrite (to_le_lt F P HP) by assumption.
  rewrite (to_asym F P HP x y) by assumption; reflexivity.
Qed.

Lemma nle_refl_on x : P x -> nle x x = true.
Proof.
  intros Hx; destruct (nlt x x) eqn:E; [apply nlt_true_le; assumption|].
  apply nlt_false_le; assumption.
Qed.

Lemma nle_nlt x y : P x -> P y -> nle x y = true -> nlt y x = false.
Proof.
  intros Hx Hy H; rewrite (to_le_lt F P HP) in H by assumption.
  destruct (nlt y x); [discriminate|reflexivity].
Qed.

Lemma nle_false_lt x y : P x -> P y -> nle x y = false -> nlt y x = true.
Proof.
  intros Hx Hy H; rewrite (to_le_lt F P HP) in H by assumption.
  destruct (nlt y x); [reflexivity|discriminate].
Qed.

Lemma rins_sorted v r : P v -> Forall P r ->
  StronglySorted fge r -> StronglySorted fge (rins v r).
Proof.
  intros Hv HF HS; induction r as [|y t IH]; cbn; [constructor; constructor|].
  inversion HF as [|? ? Hy HFt]; inversion HS as [|? ? HSt Hyt]; subst.
  destruct (nlt v y) eqn:E.
  - constructor; [apply IH; assumption|].
    apply Forall_forall; intros z Hz.
    apply (Permutation_in _ (Permutation_sym (rins_perm v t))) in Hz.
    destruct Hz as [<-|Hz]; [apply nlt_true_le; assumption|].
    rewrite Forall_forall in Hyt; apply Hyt, Hz.
  - pose proof (nlt_false_le v y Hv Hy E) as Hle.
    constructor; [constructor; assumption|].
    constructor; [exact Hle|].
    rewrite Forall_forall in *; intros z Hz.
    apply (to_trans F P HP z y v); auto.
    apply (Hyt z Hz).
Qed.

Lemma desc_sorted l : Forall P l -> StronglySorted fge (desc l).
Proof.
  induction l as [|v l IH] using rev_ind; intros H; [constructor|].
  apply Forall_app in H; destruct H as [H1 H2]; inversion H2; subst.
  rewrite desc_snoc; apply rins_sorted; auto.
  rewrite Forall_forall in *; intros z Hz; apply H1.
  eapply Permutation_in; [apply Permutation_sym, desc_perm|exact Hz].
Qed.

(** First and last elements of the sorted list *)
Lemma desc_hd_max l d : Forall P l -> l <> [] ->
  In (hd d (desc l)) l /\ forall x, In x l -> nle x (hd d (desc l)) = true.
Proof.
  intros H Hl; pose proof (desc_sorted l H) as HS.
  pose proof (desc_perm l) as Hp.
  destruct (desc l) as [|y t] eqn:E.
  { apply Permutation_sym, Permutation_nil in Hp; congruence. }
  cbn [hd]; split.
  - eapply Permutation_in; [apply Permutation_sym, Hp|left; reflexivity].
  - intros x Hx; apply (Permutation_in _ Hp) in Hx.
    inversion HS as [|? ? HSt Hyt]; subst.
    destruct Hx as [<-|Hx].
    + apply nle_refl_on. rewrite Forall_forall in H; apply H.
      eapply Permutation_in; [apply Permutation_sym, Hp|left; reflexivity].
    + rewrite Forall_forall in Hyt; apply (Hyt x Hx).
Qed.

Lemma desc_last_min l d : Forall P l -> l <> [] ->
  In (last (desc l) d) l /\ forall x, In x l -> nle (last (desc l) d) x = true.
Proof.
  intros H Hl; pose proof (desc_sorted l H) as HS.
  pose proof (desc_perm l) as Hp.
  assert (Hne : desc l <> []).
  { intros E; rewrite E in Hp; apply Permutation_sym, Permutation_nil in Hp; congruence. }
  destruct (exists_last Hne) as (t & y & E); rewrite E in *; rewrite last_last.
  assert (Hy : In y l).
  { eapply Permutation_in; [apply Permutation_sym, Hp|apply in_app_iff; right; left; reflexivity]. }
  split; [exact Hy|].
  intros x Hx; apply (Permutation_in _ Hp) in Hx; apply in_app_iff in Hx.
  destruct Hx as [Hx|[<-|[]]].
  - clear - HS Hx; induction t as [|z t IH]; [destruct Hx|].
    cbn in HS; inversion HS as [|? ? HSt Hzt]; subst.
    destruct Hx as [<-|Hx]; [|apply IH; assumption].
    rewrite Forall_forall in Hzt; apply (Hzt y), in_app_iff; right; left; reflexivity.
  - apply nle_refl_on; rewrite Forall_forall in H; apply H, Hy.
Qed.

End Order.
End Adjust.
