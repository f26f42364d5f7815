(** * Adding a constant to the data of the quantile estimator

    While fewer values than markers have been pushed only the first [count]
    heights are data; the others still hold their initial zeros. *)

From Coq Require Import ZArith NArith Bool List Lia Reals Lra.
From Flocq Require Import Core.Raux Core.Generic_fmt.
From Verif Require Import Arith History HistoryLemmas Psquare PsquareLemmas Scaling SpecOrigin Origin.
Import ListNotations.

Section Psq.
Variables (eps c : R).
Notation F := (exact eps).
Variable qs : list F.
Notation L := (parameter_length F qs).

(** The first [k] heights correspond. *)
Definition upto (k : nat) (h h' : list F) : Prop :=
  length h = L /\ length h' = L /\ forall i, (i < k)%nat -> (i < L)%nat -> shifted c (hat F h i) (hat F h' i).

Lemma upto_aset k h h' i v v' : upto k h h' -> shifted c v v' -> upto k (aset h i v) (aset h' i v').
Proof.
  intros [H1 [H2 H]] Hv; split; [|split]; rewrite ?aset_length; auto.
  intros j Hj HL; unfold hat; destruct (Nat.eq_dec j i) as [->|N].
  - rewrite !nth_aset_eq by lia; exact Hv.
  - rewrite !nth_aset_neq by exact N; apply H; auto.
Qed.

Lemma insert_at_upto x x' m : shifted c x x' -> (m < L)%nat -> forall k h h', (k <= m)%nat ->
  length h = L -> length h' = L ->
  (forall i, (i <= m)%nat -> i <> k -> shifted c (hat F h i) (hat F h' i)) ->
  upto (S m) (insert_at F h k x) (insert_at F h' k x').
Proof.
  intros Hx Hm; induction k as [|k IH]; intros h h' Hk L1 L2 H; cbn [insert_at].
  - split; [|split]; rewrite ?aset_length; auto.
    intros j Hj HL; unfold hat; destruct (Nat.eq_dec j 0) as [->|N].
    + rewrite !nth_aset_eq by lia; exact Hx.
    + rewrite !nth_aset_neq by exact N; apply H; lia.
  - rewrite (sh_lt eps c x x' (hat F h k) (hat F h' k) Hx) by (apply H; lia).
    destruct (nlt (n := F) x' (hat F h' k)).
    + apply IH; rewrite ?aset_length; try lia.
      intros i Hi Ni; unfold hat at 1 3; destruct (Nat.eq_dec i (S k)) as [->|N].
      * rewrite !nth_aset_eq by lia; apply H; lia.
      * rewrite !nth_aset_neq by exact N; apply H; assumption.
    + split; [|split]; rewrite ?aset_length; auto.
      intros j Hj HL; unfold hat; destruct (Nat.eq_dec j (S k)) as [->|N].
      * rewrite !nth_aset_eq by lia; exact Hx.
      * rewrite !nth_aset_neq by exact N; apply H; lia.
Qed.

Lemma idx_shift_lt i s : (1 <= i <= L - 2)%nat -> (s = 1 \/ s = -1)%Z -> (idx_shift i s < L)%nat.
Proof.
  intros Hi Hs; unfold idx_shift.
  assert (0 <= (Z.of_nat i + s) mod Z.of_N szmod <= Z.of_nat i + s)%Z.
  { split; [apply Z.mod_pos_bound; reflexivity|apply Z.mod_le; [lia|reflexivity]]. }
  lia.
Qed.

Lemma linear_sh p h h' i s : upto L h h' -> (1 <= i <= L - 2)%nat -> (s = 1 \/ s = -1)%Z ->
  shifted c (psq_linear F p h i s) (psq_linear F p h' i s).
Proof.
  intros [_ [_ H]] Hi Hs; pose proof (idx_shift_lt i s Hi Hs); unfold psq_linear.
  rewrite (sh_sub eps c _ _ _ _ (H (idx_shift i s) ltac:(lia) ltac:(lia)) (H i ltac:(lia) ltac:(lia))).
  apply sh_addr, H; lia.
Qed.

Lemma parabolic_sh p h h' i s : upto L h h' -> (1 <= i <= L - 2)%nat ->
  shifted c (psq_parabolic F p h i s) (psq_parabolic F p h' i s).
Proof.
  intros [_ [_ H]] Hi; unfold psq_parabolic.
  rewrite (sh_sub eps c _ _ _ _ (H (i + 1)%nat ltac:(lia) ltac:(lia)) (H i ltac:(lia) ltac:(lia))).
  rewrite (sh_sub eps c _ _ _ _ (H i ltac:(lia) ltac:(lia)) (H (i - 1)%nat ltac:(lia) ltac:(lia))).
  apply sh_addr, H; lia.
Qed.

Lemma adjust_sh desired p h h' i : upto L h h' -> (1 <= i <= L - 2)%nat ->
  fst (psq_adjust F desired (p, h) i) = fst (psq_adjust F desired (p, h') i)
  /\ upto L (snd (psq_adjust F desired (p, h) i)) (snd (psq_adjust F desired (p, h') i)).
Proof.
  intros H Hi; unfold psq_adjust.
  set (dev := nsub _ _); set (s := if nlt _ _ then _ else _).
  destruct (_ || _) eqn:E; [|auto].
  assert (Hs : (s = 1 \/ s = -1)%Z).
  { apply orb_prop in E; destruct E as [E|E]; apply andb_prop in E; destruct E as [E _];
      apply Z.eqb_eq in E; auto. }
  clear E.
  pose proof (parabolic_sh p _ _ i s H Hi) as Hp.
  cbn [fst snd]; pose proof H as HL; destruct HL as [_ [_ HL]].
  rewrite (sh_lt eps c _ _ _ _ (HL (i - 1)%nat ltac:(lia) ltac:(lia)) Hp).
  rewrite (sh_lt eps c _ _ _ _ Hp (HL (i + 1)%nat ltac:(lia) ltac:(lia))).
  split; [reflexivity|].
  destruct (_ && _); apply upto_aset; auto using linear_sh.
Qed.

Lemma fold_sh desired idx : Forall (fun i => (1 <= i <= L - 2)%nat) idx -> forall p h h', upto L h h' ->
  fst (fold_left (psq_adjust F desired) idx (p, h)) = fst (fold_left (psq_adjust F desired) idx (p, h'))
  /\ upto L (snd (fold_left (psq_adjust F desired) idx (p, h)))
       (snd (fold_left (psq_adjust F desired) idx (p, h'))).
Proof.
  induction 1 as [|i idx Hi _ IH]; intros p h h' H; [auto|].
  cbn [fold_left]; destruct (adjust_sh desired p h h' i H Hi) as [E H'].
  destruct (psq_adjust F desired (p, h) i) as [q g], (psq_adjust F desired (p, h') i) as [q' g'].
  cbn [fst snd] in E, H'; subst q'; apply IH, H'.
Qed.

Lemma upper_bound_sh x x' : shifted c x x' -> forall h h', Forall2 (shifted c) h h' ->
  upper_bound F h x = upper_bound F h' x'.
Proof.
  intros Hx h h' H; induction H as [|y y' t t' Hy _ IH]; [reflexivity|].
  cbn [upper_bound]; rewrite (sh_lt eps c x x' y y' Hx Hy), IH; reflexivity.
Qed.

Lemma upto_Forall2 h h' : upto L h h' -> Forall2 (shifted c) h h'.
Proof.
  intros [L1 [L2 H]].
  assert (G : forall (l l' : list F), length l = length l' ->
    (forall i, (i < length l)%nat -> shifted c (hat F l i) (hat F l' i)) -> Forall2 (shifted c) l l').
  { induction l as [|a l IH]; intros [|a' l'] Hl G; try discriminate Hl; constructor.
    - apply (G O); cbn; lia.
    - apply IH; [injection Hl as Hl; exact Hl|]; intros i Hi; apply (G (S i)); apply -> Nat.succ_lt_mono; exact Hi. }
  apply G; [congruence|]; intros i Hi; apply H; lia.
Qed.

Lemma cell_sh h h' x x' : upto L h h' -> shifted c x x' ->
  fst (psq_cell F qs h x) = fst (psq_cell F qs h' x')
  /\ upto L (snd (psq_cell F qs h x)) (snd (psq_cell F qs h' x')).
Proof.
  intros H Hx; unfold psq_cell.
  assert (LP : (0 < L)%nat) by (unfold parameter_length; lia).
  rewrite (sh_lt eps c _ _ _ _ Hx (proj2 (proj2 H) O LP LP)).
  destruct (nlt _ _); [split; [reflexivity|apply upto_aset; auto]|].
  rewrite (sh_le eps c _ _ _ _ (proj2 (proj2 H) (L - 1)%nat ltac:(lia) ltac:(lia)) Hx).
  destruct (nle _ _); [split; [reflexivity|apply upto_aset; auto]|].
  split; [apply (upper_bound_sh _ _ Hx), upto_Forall2, H|exact H].
Qed.

Definition psq_sh (s s' : psq F) : Prop :=
  ps_count F s = ps_count F s' /\ ps_positions F s = ps_positions F s' /\
  ps_desired F s = ps_desired F s' /\ ps_deltas F s = ps_deltas F s' /\
  upto (N.to_nat (ps_count F s)) (ps_heights F s) (ps_heights F s').

Lemma psq_init_sh : psq_sh (psq_init F qs) (psq_init F qs).
Proof.
  do 4 (split; [reflexivity|]); split; [|split]; try apply repeat_length.
  intros i Hi; cbn in Hi; lia.
Qed.

Lemma upto_le k m h h' : (k <= m \/ L <= m)%nat -> upto m h h' -> upto k h h'.
Proof.
  intros Hk [H1 [H2 H]]; split; [|split]; auto.
  intros i Hi Hl; apply H; lia.
Qed.

Lemma psq_push_sh s s' x x' : psq_sh s s' -> shifted c x x' ->
  psq_sh (psq_push F qs s x) (psq_push F qs s' x').
Proof.
  intros [E1 [E2 [E3 [E4 H]]]] Hx; unfold psq_push; rewrite <- E1, <- E2, <- E3, <- E4.
  destruct (N.leb_spec (N.of_nat L) (ps_count F s)).
  - assert (HL : upto L (ps_heights F s) (ps_heights F s')) by (apply (upto_le L (N.to_nat (ps_count F s)) _ _ ltac:(lia) H)).
    destruct (cell_sh _ _ _ _ HL Hx) as [E H'].
    destruct (psq_cell F qs (ps_heights F s) x) as [k h], (psq_cell F qs (ps_heights F s') x') as [k' h'].
    cbn [fst snd] in E, H'; subst k'.
    destruct (fold_sh (add_deltas F (ps_desired F s) (ps_deltas F s)) (seq 1 (L - 2))) with
      (p := bump_from k (ps_positions F s)) (h := h) (h' := h') as [Ep Hh]; [|exact H'|].
    { apply Forall_forall; intros i Hi; apply in_seq in Hi; lia. }
    split; [reflexivity|split; [exact Ep|split; [reflexivity|split; [reflexivity|]]]].
    cbn [ps_count ps_heights]; apply (upto_le _ L); [right; lia|exact Hh].
  - do 4 (split; [reflexivity|]); cbn [ps_count ps_heights].
    apply (upto_le _ (S (N.to_nat (ps_count F s)))).
    { left; unfold szadd, sz. 
      assert ((ps_count F s + 1) mod szmod <= ps_count F s + 1)%N by (apply N.mod_le; discriminate). lia. }
    destruct H as [L1 [L2 H]].
    apply insert_at_upto; auto; try lia; intros i Hi Ni; apply H; lia.
Qed.

Definition opt_sh (a b : option F) : Prop :=
  match a, b with
  | Some x, Some y => shifted c x y
  | None, None => True
  | _, _ => False
  end.

Lemma read_sh k h h' i : upto k h h' -> (i < k \/ L <= i)%nat -> opt_sh (nth_error h i) (nth_error h' i).
Proof.
  intros [L1 [L2 H]] Hi; destruct (Nat.le_gt_cases L i) as [G|G].
  - rewrite (proj2 (nth_error_None h i)), (proj2 (nth_error_None h' i)) by lia; exact I.
  - rewrite (nth_error_nth' h n0), (nth_error_nth' h' n0) by lia; apply H; lia.
Qed.

Hypothesis Hq : Forall (fun q => exists r, q = Fin r /\ (0 <= r < 1)%R) qs.

Lemma psq_get_sh s s' i : psq_sh s s' -> psq_size F s <> 0%N -> (ps_count F s < szmod)%N ->
  opt_sh (psq_get F qs s i) (psq_get F qs s' i).
Proof.
  intros [E1 [_ [_ [_ H]]]] Hs Hb; unfold psq_get; rewrite <- E1; unfold psq_size in Hs.
  set (n := ps_count F s) in *.
  assert (HF : forall j, (N.to_nat n <= L)%nat \/ True -> (j < N.to_nat n)%nat ->
    opt_sh (nth_error (ps_heights F s) j) (nth_error (ps_heights F s') j)).
  { intros j _ Hj; apply (read_sh _ _ _ _ H); lia. }
  destruct (N.ltb_spec (N.of_nat L) n).
  { apply (read_sh L); [apply (upto_le L (N.to_nat n) _ _ ltac:(lia) H)|lia]. }
  destruct (N.ltb_spec 1 n); [|destruct (N.ltb_spec 0 n); [|lia]].
  2: { apply HF; [auto|]; rewrite szsub_small by lia; lia. }
  destruct (Nat.eqb _ _); [apply HF; [auto|lia]|].
  destruct (Nat.eqb _ _); [apply HF; [auto|]; rewrite szsub_small by lia; lia|].
  destruct (nth_error qs (i - 1)) as [q|] eqn:Eq; [|exact I].
  apply nth_error_In in Eq; rewrite Forall_forall in Hq; destruct (Hq q Eq) as [r [-> Hr]].
  rewrite szsub_small by lia.
  set (rank := nmul _ _).
  assert (Er : rank = Fin (IZR (Z.of_N (n - 1)) * r)%R) by reflexivity.
  assert (Pn : (1 <= IZR (Z.of_N (n - 1)))%R) by (apply IZR_le; lia).
  set (k := IZR (Z.of_N (n - 1))) in *.
  assert (G : forall z : R, (z < k + 1)%R -> (0 <= z)%R ->
    opt_sh (hread F (ps_heights F s) (ntosz (n := F) (Fin z))) (hread F (ps_heights F s') (ntosz (n := F) (Fin z)))).
  { intros z Hz Pz; cbn [ntosz exact xnum xtosz].
    destruct (_ && _); [|exact I]; cbn [hread].
    apply HF; [auto|].
    rewrite Ztrunc_floor by exact Pz.
    assert (Zfloor z < Z.of_N n)%Z; [|lia].
    apply lt_IZR; pose proof (Zfloor_lb z).
    replace (IZR (Z.of_N n)) with (k + 1)%R; [lra|].
    unfold k; rewrite N2Z.inj_sub by lia; rewrite minus_IZR; cbn; ring. }
  rewrite Er.
  pose proof (G (k * r)%R ltac:(nra) ltac:(nra)) as Ga.
  assert (Gb := G (k * r + 1)%R ltac:(nra) ltac:(nra)).
  change (nadd (n := F) (Fin (k * r)) n1) with (Fin (k * r + 1)).
  destruct (hread F (ps_heights F s) (ntosz (n := F) (Fin (k * r)))) as [a|],
     (hread F (ps_heights F s') (ntosz (n := F) (Fin (k * r)))) as [a'|];
    cbn [opt_sh] in Ga; try contradiction; [|exact I].
  destruct (hread F (ps_heights F s) (ntosz (n := F) (Fin (k * r + 1)))) as [b|],
     (hread F (ps_heights F s') (ntosz (n := F) (Fin (k * r + 1)))) as [b'|];
    cbn [opt_sh] in Gb; try contradiction; [|exact I].
  cbn [opt_sh]; rewrite (sh_sub eps c _ _ _ _ Gb Ga); apply sh_addr, Ga.
Qed.
End Psq.
