(** * The P-square estimator with contracted expressions: invariants

    The arguments of PsquareGeneric.v, PsquareOrdered.v and PsquareFew.v for any
    compiled form of parabolic() that satisfies [parabola_ok] below. *)

From Coq Require Import Reals ZArith NArith Bool List Lia Lra Sorting.Sorted Sorting.Permutation.
From Flocq Require Import Core.
From Verif Require Import Arith History HistoryLemmas Psquare PsquareLemmas PsquareGeneric SpecOrder SpecPsquare
  Rounded RoundedProofs ApproxInstances CorrectRounding PsquareFloat PsquareOrdered PsquareFew
  Contracted ContractedPsquare ContractedStep.
Import ListNotations.
Local Open Scope R_scope.

Lemma psq_push_with_parabolic (F : num) (qs : list F) s x :
  psq_push_with F qs (psq_parabolic F) s x = psq_push F qs s x.
Proof. reflexivity. Qed.

Section With.
Variable F : num.
Variable par : list N -> list F -> nat -> Z -> F.

Lemma with_adjust_spec d p h i p' h' :
  increasing p -> (pat p (length p - 1) < szmod)%N ->
  (0 < i)%nat -> (S i < length p)%nat ->
  psq_adjust_with F par d (p, h) i = (p', h') ->
  increasing p' /\ length p' = length p /\ length h' = length h /\
  (forall j, j <> i -> pat p' j = pat p j) /\
  (forall j, j <> i -> hat F h' j = hat F h j).
Proof.
  intros Hp Hb H0 Hi E; unfold psq_adjust_with in E.
  pose proof (increasing_below p szmod Hp Hb) as Hall.
  assert (A1 : (pat p (i - 1) < pat p i)%N).
  { apply increasing_lt; [exact Hp|lia|lia]. }
  assert (A2 : (pat p i < pat p (i + 1))%N).
  { apply increasing_lt; [exact Hp|lia|lia]. }
  pose proof (Hall (i - 1)%nat ltac:(lia)) as B1.
  pose proof (Hall i ltac:(lia)) as B2.
  pose proof (Hall (i + 1)%nat ltac:(lia)) as B3.
  set (dev := nsub _ _) in E.
  set (sign := if nlt n0 dev then _ else _) in E.
  rewrite !szsub_small in E by lia.
  destruct (((sign =? 1)%Z && (1 <? pat p (i + 1) - pat p i)%N)
     || ((sign =? -1)%Z && (1 <? pat p i - pat p (i - 1))%N)) eqn:Ec.
  - injection E as E1 E2.
    assert (Hh : length h' = length h /\ forall j, j <> i -> hat F h' j = hat F h j).
    { assert (G : exists v, h' = aset h i v).
      { rewrite <- E2; destruct (nlt (hat F h (i - 1)) _ && _)%bool; eexists; reflexivity. }
      destruct G as (v & ->); rewrite aset_length; split; [reflexivity|].
      intros j Hj; apply nth_aset_neq; exact Hj. }
    destruct Hh as [Hh1 Hh2].
    rewrite <- E1, aset_length.
    split; [|split; [reflexivity|split; [exact Hh1|split; [|exact Hh2]]]].
    + apply orb_true_iff in Ec; destruct Ec as [Ec|Ec]; apply andb_true_iff in Ec;
        destruct Ec as [Es Eg]; apply Z.eqb_eq in Es; apply N.ltb_lt in Eg; rewrite Es.
      * rewrite sz_of_int_1, szadd_small by lia.
        apply increasing_aset; try assumption; lia.
      * rewrite szadd_m1 by lia.
        apply increasing_aset; try assumption; lia.
    + intros j Hj; apply nth_aset_neq; exact Hj.
  - injection E as <- <-; repeat split; auto.
Qed.

Lemma with_adjust_loop_spec d idx : forall p h p' h',
  increasing p -> (pat p (length p - 1) < szmod)%N ->
  Forall (fun i => (0 < i)%nat /\ (S i < length p)%nat) idx ->
  fold_left (psq_adjust_with F par d) idx (p, h) = (p', h') ->
  increasing p' /\ length p' = length p /\ length h' = length h /\
  (forall j, ~ In j idx -> pat p' j = pat p j /\ hat F h' j = hat F h j).
Proof.
  induction idx as [|i idx IH]; intros p h p' h' Hp Hb Hf E.
  - injection E as <- <-; repeat split; auto.
  - inversion Hf as [|? ? [Hi0 Hi] Hf']; subst.
    cbn [fold_left] in E.
    destruct (psq_adjust_with F par d (p, h) i) as [p1 h1] eqn:E1.
    destruct (with_adjust_spec d p h i p1 h1 Hp Hb Hi0 Hi E1) as (I1 & L1 & L1' & P1 & H1).
    destruct (IH p1 h1 p' h') as (I2 & L2 & L2' & PH); try assumption.
    + rewrite L1, P1 by lia; exact Hb.
    + rewrite L1; exact Hf'.
    + split; [exact I2|]; split; [congruence|]; split; [congruence|].
      intros j Hj; cbn in Hj.
      destruct (PH j ltac:(tauto)) as [-> ->].
      split; [apply P1|apply H1]; intros ->; tauto.
Qed.

Variable qs : list F.
Notation L := (parameter_length F qs).
Notation push := (psq_push_with F qs par).
Notation init := (psq_init F qs).

Definition stw (l : list F) : psq F := fold_left push l init.

Lemma run_psq_with (ops : list (op F)) :
  run push (psq_clear F qs) init ops = stw (since_clear ops).
Proof. apply run_since_clear; reflexivity. Qed.

Lemma stw_snoc l x : stw (l ++ [x]) = push (stw l) x.
Proof. unfold stw; rewrite fold_left_app; reflexivity. Qed.

(** Before the markers are in use parabolic() is not called. *)
Lemma stw_short l : (length l <= L)%nat -> (N.of_nat (length l) < szmod)%N -> stw l = st F qs l.
Proof.
  induction l as [|x l IH] using rev_ind; intros Hl Hs; [reflexivity|].
  rewrite length_snoc in *; rewrite stw_snoc, st_snoc, IH by lia.
  unfold psq_push_with, psq_push. rewrite (st_count F qs l) by (unfold fits; lia).
  destruct (N.leb_spec (N.of_nat L) (N.of_nat (length l))); [lia|reflexivity].
Qed.

Lemma stw_count l : fits F l -> ps_count F (stw l) = N.of_nat (length l).
Proof.
  induction l as [|x l IH] using rev_ind; intros H; [reflexivity|].
  unfold fits in *; rewrite length_snoc in *; rewrite stw_snoc.
  unfold psq_push_with; destruct (N.leb _ _).
  - destruct (psq_cell F qs _ _) as [k h]; cbn [ps_count].
    rewrite IH, szadd_small by lia; lia.
  - cbn [ps_count]; rewrite IH, szadd_small by lia; lia.
Qed.

Lemma adjustw_lengths d i p h :
  length (fst (psq_adjust_with F par d (p, h) i)) = length p /\
  length (snd (psq_adjust_with F par d (p, h) i)) = length h.
Proof.
  unfold psq_adjust_with; destruct (_ || _); [|auto].
  cbn [fst snd]; rewrite aset_length; split; [reflexivity|].
  destruct (_ && _); apply aset_length.
Qed.

Lemma with_adjust_loop_lengths d idx : forall p h,
  length (fst (fold_left (psq_adjust_with F par d) idx (p, h))) = length p /\
  length (snd (fold_left (psq_adjust_with F par d) idx (p, h))) = length h.
Proof.
  induction idx as [|i idx IH]; intros p h; [auto|]; cbn [fold_left].
  destruct (adjustw_lengths d i p h) as [A B].
  destruct (psq_adjust_with F par d (p, h) i) as [p' h']; cbn [fst snd] in *.
  destruct (IH p' h') as [C D]; split; congruence.
Qed.

Lemma stw_lengths l :
  length (ps_positions F (stw l)) = L /\ length (ps_heights F (stw l)) = L.
Proof.
  induction l as [|x l [IH1 IH2]] using rev_ind.
  - split; [apply (positions0_length F qs)|apply repeat_length].
  - rewrite stw_snoc; unfold psq_push_with; destruct (N.leb _ _).
    + destruct (psq_cell F qs (ps_heights F (stw l)) x) as [k h] eqn:E.
      cbn [ps_positions ps_heights].
      match goal with |- context [fold_left ?f ?i (?p, ?h)] =>
        destruct (with_adjust_loop_lengths (add_deltas F (ps_desired F (stw l)) (ps_deltas F (stw l))) i p h) as [A B]
      end.
      rewrite A, B, bump_from_length; split; [exact IH1|].
      rewrite <- IH2; unfold psq_cell in E.
      destruct (nlt _ _); [|destruct (nle _ _)]; injection E as _ <-; rewrite ?aset_length; reflexivity.
    + cbn [ps_positions ps_heights]; rewrite (insert_at_length F); auto.
Qed.

Section Total.
Variable P : F -> Prop.
Hypothesis HP : total_on F P.
Notation long_inv := (long_inv F qs).

Lemma with_long_inv_loop l x s j : fits F (l ++ [x]) -> P x -> Forall P l ->
  long_inv l s -> (j <= L - 2)%nat ->
  let (k, h) := psq_cell F qs (ps_heights F s) x in
  let p := bump_from k (ps_positions F s) in
  let d := add_deltas F (ps_desired F s) (ps_deltas F s) in
  let ph := fold_left (psq_adjust_with F par d) (seq 1 j) (p, h) in
  (1 <= k <= L - 1)%nat /\
  long_inv (l ++ [x]) (Psq F (szadd (ps_count F s) 1) (fst ph) (snd ph) d (ps_deltas F s)).
Proof.
  intros Hs Hx Hl Hinv Hj; unfold fits in Hs; rewrite length_snoc in Hs.
  destruct (psq_cell F qs (ps_heights F s) x) as [k h] eqn:Ek.
  destruct Hinv as [Hp Hh Hi H1 Hn Hm HM].
  pose proof (L_ge F qs) as HL.
  destruct (cell_spec F qs P HP _ _ _ _ _ Hh Hx Hl Hm HM Ek) as (Hk & Hh' & Hm' & HM').
  intros p d.
  destruct (fold_left (psq_adjust_with F par d) (seq 1 j) (p, h)) as [p' h'] eqn:E.
  assert (Hpl : length p = L) by (unfold p; rewrite bump_from_length; exact Hp).
  assert (Hpi : increasing p).
  { apply increasing_bump; [exact Hi|rewrite Hp, Hn; lia]. }
  assert (Hlast : pat p (L - 1) = N.of_nat (S (length l))).
  { unfold p; rewrite pat_bump by lia.
    destruct (Nat.ltb_spec (L - 1) k); [lia|].
    rewrite Hn, szadd_small by lia; lia. }
  assert (Hfirst : pat p 0 = 1%N).
  { unfold p; rewrite pat_bump by lia.
    destruct (Nat.ltb_spec 0 k); [exact H1|lia]. }
  destruct (with_adjust_loop_spec d (seq 1 j) p h p' h') as (I & Lp & Lh & Hsame);
    try assumption.
  - rewrite Hpl, Hlast; lia.
  - apply Forall_forall; intros i Hin; apply in_seq in Hin; lia.
  - split; [exact Hk|]; cbn [fst snd].
    destruct (Hsame 0%nat) as [S1 S2]; [rewrite in_seq; lia|].
    destruct (Hsame (L - 1)%nat) as [S3 S4]; [rewrite in_seq; lia|].
    constructor; cbn [ps_positions ps_heights]; rewrite ?length_snoc; try assumption; try congruence.
Qed.

Lemma with_long_inv_push l x : fits F (l ++ [x]) -> P x -> Forall P l ->
  (L <= length l)%nat -> long_inv l (stw l) -> long_inv (l ++ [x]) (stw (l ++ [x])).
Proof.
  intros Hs Hx Hl HL Hinv.
  rewrite stw_snoc; unfold psq_push_with.
  assert (Hsl : fits F l) by (unfold fits in *; rewrite length_snoc in Hs; lia).
  rewrite (stw_count l Hsl).
  destruct (N.leb_spec (N.of_nat L) (N.of_nat (length l))); [|lia].
  pose proof (with_long_inv_loop l x (stw l) (L - 2) Hs Hx Hl Hinv ltac:(lia)) as G.
  rewrite (stw_count l Hsl) in G.
  destruct (psq_cell F qs (ps_heights F (stw l)) x) as [k h]; apply G.
Qed.

Lemma with_long_inv_st l : fits F l -> Forall P l -> (L <= length l)%nat -> long_inv l (stw l).
Proof.
  induction l as [|x l IH] using rev_ind; intros Hs Hf HL.
  { cbn in HL; pose proof (L_ge F qs); lia. }
  assert (Hsl : fits F l) by (unfold fits in *; rewrite length_snoc in Hs; lia).
  apply Forall_app in Hf; destruct Hf as [Hf Hx]; inversion Hx; subst.
  rewrite length_snoc in HL.
  destruct (Nat.eq_dec (S (length l)) L) as [E|NE].
  - rewrite stw_short by (rewrite length_snoc; unfold fits in Hs; rewrite ?length_snoc in Hs; lia).
    apply (long_inv_start F qs P HP); [rewrite length_snoc; exact E|exact Hs|].
    apply Forall_app; split; [exact Hf|constructor; auto].
  - apply with_long_inv_push; auto; [lia|apply IH; auto; lia].
Qed.

End Total.
End With.

Section Ordered.
Variables emin prec : Z.
Hypothesis prec8 : (8 <= prec)%Z.
Hypothesis emin34 : (emin <= -34)%Z.
Variable F : num.
Variable val : F -> R -> Prop.
Variable B : R.
Hypothesis C : correct F val emin prec B.
Variable k : Z.
Hypothesis k_emin : (emin <= k)%Z.
Hypothesis k_B : bpow radix2 (k + 30) <= B.
Hypothesis one_B : 1 <= B.

Local Lemma prec_pos : (0 < prec)%Z. Proof. lia. Qed.
Local Lemma emin_neg : (emin <= 0)%Z. Proof. lia. Qed.
Local Instance precgt5 : Prec_gt_0 prec := prec_pos.
Notation fexp := (FLT_exp emin prec).
Notation fmt := (generic_format radix2 fexp).
Notation rnd := (rounding emin prec ZnearestE).
Notation heights_are := (heights_are F val k).

(** The compiled parabola yields a number, and where it misses the interval of a
    marker that moves down, the step of linear() is small enough. *)
Definition parabola_ok (par : list N -> list F -> nat -> Z -> F) : Prop :=
  forall p h r i (s : Z),
  heights_are h r -> increasing p -> length h = length p ->
  (pat p (length p - 1) <= 134217728)%N -> (Z.of_N (pat p (length p - 1)) <= 2 ^ prec)%Z ->
  (0 < i)%nat -> (S i < length p)%nat -> s = 1%Z \/ s = (-1)%Z ->
  (s = 1%Z -> (1 < pat p (i + 1) - pat p i)%N) -> (s = (-1)%Z -> (1 < pat p i - pat p (i - 1))%N) ->
  exists y, val (par p h i s) y /\
    (s = (-1)%Z -> forall K, bpow radix2 63 <= K ->
       (r (i - 1)%nat < y /\ y < r (i + 1)%nat) \/
       r i <= rnd (r i + rnd (rnd (r i - r (i - 1)%nat) / K)) <= r (i + 1)%nat).

Section Any.
Variable par : list N -> list F -> nat -> Z -> F.
Hypothesis par_ok : parabola_ok par.

Lemma with_adjust_ordered d p h r i :
  heights_are h r -> increasing p -> length h = length p ->
  (pat p (length p - 1) <= 134217728)%N -> (Z.of_N (pat p (length p - 1)) <= 2 ^ prec)%Z ->
  (0 < i)%nat -> (S i < length p)%nat ->
  exists r', heights_are (snd (psq_adjust_with F par d (p, h) i)) r'.
Proof.
  intros Hh Hi Hl Hb Hp H0 H1.
  assert (Pm : (pat p (i + 1) <= pat p (length p - 1))%N).
  { destruct (Nat.eq_dec (i + 1) (length p - 1)) as [->|N]; [lia|].
    pose proof (increasing_lt p (i + 1) (length p - 1) Hi ltac:(lia) ltac:(lia)). lia. }
  assert (L1 : (pat p i < pat p (i + 1))%N) by (apply increasing_lt; [exact Hi|lia|lia]).
  assert (L2 : (pat p (i - 1) < pat p i)%N) by (apply increasing_lt; [exact Hi|lia|lia]).
  pose proof Hh as [Hv Hm].
  destruct (Hv (i - 1)%nat ltac:(lia)) as [Va _]. destruct (Hv i ltac:(lia)) as [Vc _].
  destruct (Hv (i + 1)%nat ltac:(lia)) as [Vb _].
  assert (Hac : r (i - 1)%nat <= r i) by (apply (heights_le F val k h); [exact Hh|lia|lia]).
  assert (Hcb : r i <= r (i + 1)%nat) by (apply (heights_le F val k h); [exact Hh|lia|lia]).
  unfold psq_adjust_with.
  rewrite (szsub_small (pat p (i + 1))) by (unfold szmod; lia).
  rewrite (szsub_small (pat p i)) by (unfold szmod; lia).
  match goal with |- context [((?t =? 1)%Z && _)%bool] => set (s := t) end.
  destruct (((s =? 1)%Z && _ || (s =? -1)%Z && _)%bool) eqn:Cond; [|exists r; exact Hh].
  cbn [snd].
  assert (Hs : s = 1%Z /\ (1 < pat p (i + 1) - pat p i)%N \/ s = (-1)%Z /\ (1 < pat p i - pat p (i - 1))%N).
  { apply orb_true_iff in Cond. destruct Cond as [E|E]; apply andb_true_iff in E; destruct E as [E1 E2];
      apply Z.eqb_eq in E1; apply N.ltb_lt in E2; [left|right]; split; assumption. }
  clear Cond. clearbody s.
  destruct (par_ok p h r i s Hh Hi Hl Hb Hp H0 H1 ltac:(tauto)
    ltac:(intros E; destruct Hs as [[_ G]|[G _]]; [exact G|congruence])
    ltac:(intros E; destruct Hs as [[G _]|[_ G]]; [congruence|exact G])) as (y & PV & DS).
  assert (Lin : (r (i - 1)%nat < y /\ y < r (i + 1)%nat) \/
                exists v, val (psq_linear F p h i s) v /\ r (i - 1)%nat <= v <= r (i + 1)%nat).
  { destruct Hs as [[-> G]|[-> G]].
    - right. assert (LU : exists v, val (psq_linear F p h i 1) v /\ r i <= v <= r (i + 1)%nat) by (eapply linear_up; eassumption).
      destruct LU as (v & Vv & Lv). exists v. split; [exact Vv|lra].
    - assert (LD : exists K, bpow radix2 63 <= K /\
        val (psq_linear F p h i (-1)) (rnd (r i + rnd (rnd (r i - r (i - 1)%nat) / K)))) by (eapply linear_down; eassumption).
      destruct LD as (K & HK & VK).
      destruct (DS eq_refl K HK) as [D|D]; [left; exact D|right].
      eexists. split; [exact VK|lra]. }
  rewrite (co_lt _ _ _ _ _ C _ _ _ _ Va PV), (co_lt _ _ _ _ _ C _ _ _ _ PV Vb).
  destruct (Rlt_bool_spec (r (i - 1)%nat) y) as [Y1|Y1]; destruct (Rlt_bool_spec y (r (i + 1)%nat)) as [Y2|Y2]; cbn [andb].
  { eexists. apply (heights_set F val k); [exact Hh|exact H0|lia|exact PV|lra]. }
  all: destruct Lin as [[? ?]|(v & Vv & Lv)]; [exfalso; lra|].
  all: eexists; apply (heights_set F val k); [exact Hh|exact H0|lia|exact Vv|exact Lv].
Qed.

Lemma with_loop_ordered d idx : forall p h r,
  heights_are h r -> increasing p -> length h = length p ->
  (pat p (length p - 1) <= 134217728)%N -> (Z.of_N (pat p (length p - 1)) <= 2 ^ prec)%Z ->
  Forall (fun i => (0 < i)%nat /\ (S i < length p)%nat) idx ->
  exists r', heights_are (snd (fold_left (psq_adjust_with F par d) idx (p, h))) r'.
Proof.
  induction idx as [|i idx IH]; intros p h r Hh Hi Hl Hb Hp Hx; [exists r; exact Hh|].
  inversion Hx as [|? ? [I0 I1] Hx']; subst. cbn [fold_left].
  destruct (with_adjust_ordered d p h r i Hh Hi Hl Hb Hp I0 I1) as [r' Hr'].
  destruct (psq_adjust_with F par d (p, h) i) as [p' h'] eqn:E. cbn [snd] in Hr'.
  destruct (with_adjust_spec F par d p h i p' h' Hi ltac:(unfold szmod; lia) I0 I1 E) as (Hi' & Lp & Lh & Sp & _).
  assert (Last : pat p' (length p' - 1) = pat p (length p - 1)).
  { rewrite Lp. apply Sp. lia. }
  apply (IH p' h' r'); [exact Hr'|exact Hi'|lia|rewrite Last; exact Hb|rewrite Last; exact Hp|].
  rewrite Lp. exact Hx'.
Qed.

Notation small := (small F val k).
Let P (x : F) : Prop := exists v, val x v.
Lemma with_total_P : total_on F P.
Proof. apply (correct_total F val emin prec B C). Qed.

Variable qs : list F.
Notation L := (parameter_length F qs).

Lemma stw_ordered l : room prec (length l) -> Forall small l -> (L <= length l)%nat ->
  exists r, heights_are (ps_heights F (stw F par qs l)) r.
Proof.
  induction l as [|x l IH] using rev_ind; intros Hr Hf HL.
  { cbn in HL. pose proof (L_ge F qs). lia. }
  pose proof (room_fits prec F _ Hr) as Hfit.
  rewrite length_snoc in Hr, HL.
  assert (Hr' : room prec (length l)) by (destruct Hr; split; lia).
  pose proof (room_fits prec F _ Hr') as Hfit'.
  pose proof Hf as Hf0.
  apply Forall_app in Hf. destruct Hf as [Hf Hx]. inversion Hx as [|? ? Sx _]; subst.
  destruct (Nat.eq_dec (S (length l)) L) as [E|NE].
  - rewrite stw_short by (rewrite length_snoc; unfold fits in Hfit; rewrite ?length_snoc in Hfit; lia).
    apply (start_ordered emin prec F val B C k); [rewrite length_snoc; exact E|exact Hfit|exact Hf0].
  - assert (HL' : (L <= length l)%nat) by lia.
    destruct (IH Hr' Hf HL') as [r Hrr].
    assert (FP : Forall P l).
    { rewrite Forall_forall in *. intros y Hy. destruct (Hf y Hy) as (v & V & _). exists v. exact V. }
    assert (Px : P x) by (destruct Sx as (v & V & _); exists v; exact V).
    pose proof (with_long_inv_st F par qs P with_total_P l Hfit' FP HL') as [Pl Hh Hi H1 Hn _ _].
    destruct Sx as (v & V & Bv).
    rewrite stw_snoc. unfold psq_push_with. rewrite (stw_count F par qs l Hfit').
    destruct (N.leb_spec (N.of_nat L) (N.of_nat (length l))); [|lia].
    destruct (psq_cell F qs (ps_heights F (stw F par qs l)) x) as [m h'] eqn:Ec.
    destruct (cell_ordered emin prec F val B C k qs _ r x v m h' Hrr Hh V Bv Ec) as [r' Hr2].
    cbn [ps_heights].
    assert (Hlen' : length h' = L).
    { rewrite <- Hh. unfold psq_cell in Ec.
      destruct (nlt _ _); [|destruct (nle _ _)]; injection Ec as _ <-; rewrite ?aset_length; reflexivity. }
    assert (Lp : length (bump_from m (ps_positions F (stw F par qs l))) = L) by (rewrite bump_from_length; exact Pl).
    pose proof (L_ge F qs) as L3.
    assert (Last : (pat (bump_from m (ps_positions F (stw F par qs l))) (L - 1) <= N.of_nat (S (length l)))%N).
    { rewrite pat_bump by lia. destruct (Nat.ltb _ _); [lia|]. rewrite Hn, szadd_small by (unfold fits in Hfit; rewrite length_snoc in Hfit; lia). lia. }
    destruct Hr as [R1 R2].
    apply (with_loop_ordered _ _ _ _ r'); [exact Hr2| |lia|rewrite Lp; lia|rewrite Lp; lia|].
    + apply increasing_bump; [exact Hi|rewrite Pl, Hn; unfold fits in Hfit; rewrite length_snoc in Hfit; lia].
    + rewrite Lp. apply Forall_forall. intros i Hin. apply in_seq in Hin. lia.
Qed.

Lemma with_float_heights l vs : room prec (length l) -> Forall2 val l vs ->
  Forall (fun v => Rabs v <= bpow radix2 k) vs -> (L <= length l)%nat ->
  exists hs, Forall2 val (ps_heights F (stw F par qs l)) hs /\ StronglySorted Rle hs /\
    Forall (fun h => in_hull h vs) hs.
Proof.
  intros Hr H2 Hb HL.
  assert (Sm : Forall small l).
  { clear - H2 Hb. induction H2 as [|x v l vs V _ IH]; [constructor|]. inversion Hb; subst.
    constructor; [exists v; split; assumption|apply IH; assumption]. }
  destruct (stw_ordered l Hr Sm HL) as [r Hrr].
  assert (FP : Forall P l).
  { rewrite Forall_forall in *. intros y Hy. destruct (Sm y Hy) as (v & V & _). exists v. exact V. }
  pose proof (with_long_inv_st F par qs P with_total_P l (room_fits prec F _ Hr) FP HL) as [_ Hh _ _ _ [Mi _] [Ma _]].
  set (h := ps_heights F (stw F par qs l)) in *.
  pose proof (L_ge F qs) as L3.
  assert (InV : forall x a, In x l -> val x a -> In a vs).
  { clear - H2 C. intros x a Hx Va. induction H2 as [|y v l vs V _ IH]; [destruct Hx|].
    destruct Hx as [->|Hx]; [left; apply (co_inj _ _ _ _ _ C x v a V Va)|right; apply IH; exact Hx]. }
  pose proof Hrr as [Hv Hm].
  exists (map r (seq 0 (length h))). split; [|split].
  - assert (G : forall (t : list F) b, (forall j, (j < length t)%nat -> val (nth j t n0) (r (b + j)%nat)) ->
      Forall2 val t (map r (seq b (length t)))).
    { induction t as [|x t IH]; intros b H; [constructor|]. cbn [length seq map]. constructor.
      - specialize (H 0%nat ltac:(cbn; lia)). cbn [nth] in H. rewrite Nat.add_0_r in H. exact H.
      - apply IH. intros j Hj. specialize (H (S j) ltac:(cbn; lia)). cbn [nth] in H.
        replace (S b + j)%nat with (b + S j)%nat by lia. exact H. }
    apply G. intros j Hj. apply Hv. exact Hj.
  - assert (G : forall n b, (b + n <= length h)%nat -> StronglySorted Rle (map r (seq b n))).
    { induction n as [|n IH]; intros b Hn; [constructor|]. cbn [seq map]. constructor; [apply IH; lia|].
      apply Forall_forall. intros y Hy. apply in_map_iff in Hy. destruct Hy as (j & <- & Hj). apply in_seq in Hj.
      apply (heights_le F val k h); [exact Hrr|lia|lia]. }
    apply G. lia.
  - apply Forall_forall. intros y Hy. apply in_map_iff in Hy. destruct Hy as (j & <- & Hj). apply in_seq in Hj.
    split.
    + exists (r 0%nat). split; [|apply (heights_le F val k h); [exact Hrr|lia|lia]].
      apply (InV (hat F h 0)); [exact Mi|apply Hv; lia].
    + exists (r (L - 1)%nat). split; [|apply (heights_le F val k h); [exact Hrr|lia|lia]].
      apply (InV (hat F h (L - 1))); [exact Ma|apply Hv; lia].
Qed.

End Any.
End Ordered.
