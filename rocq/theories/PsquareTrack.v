(** * P-square: marker positions follow their desired positions *)

From Coq Require Import Reals ZArith NArith Bool List Lia Lra.
From Verif Require Import Arith History HistoryLemmas Psquare PsquareLemmas PsquareGeneric SpecOrder.
Import ListNotations.
Local Open Scope R_scope.

Definition posr (p : list N) (i : nat) : R := IZR (Z.of_N (pat p i)).

Section Track.
Variable F : num.
Variable qs : list F.
Notation L := (parameter_length F qs).

(** The desired position [x] is compared with positions up to [b] as the real
    number [r] is. *)
Definition compares (b : N) (x : F) (r : R) : Prop := forall q : N, (q <= b)%N ->
  (@nlt F n0 (nsub x (nofsz q)) = true <-> IZR (Z.of_N q) < r) /\
  (@nlt F (nsub x (nofsz q)) n0 = true <-> r < IZR (Z.of_N q)).

Lemma adjust_position d p h i p' h' r b :
  increasing p -> (pat p (length p - 1) <= b)%N -> (b < szmod)%N ->
  (0 < i)%nat -> (S i < length p)%nat -> compares b (hat F d i) r ->
  psq_adjust F d (p, h) i = (p', h') ->
  (posr p i < r /\ ((posr p i + 1 < posr p (i + 1) /\ posr p' i = posr p i + 1) \/
                    (posr p (i + 1) = posr p i + 1 /\ posr p' i = posr p i))) \/
  (r < posr p i /\ ((posr p (i - 1) < posr p i - 1 /\ posr p' i = posr p i - 1) \/
                    (posr p (i - 1) = posr p i - 1 /\ posr p' i = posr p i))) \/
  (r = posr p i /\ posr p' i = posr p i).
Proof.
  intros Hp Hb Hs H0 Hi Hc E. unfold psq_adjust in E.
  pose proof (increasing_below p (b + 1) Hp ltac:(lia)) as Hall.
  assert (A1 : (pat p (i - 1) < pat p i)%N) by (apply increasing_lt; [exact Hp|lia|lia]).
  assert (A2 : (pat p i < pat p (i + 1))%N) by (apply increasing_lt; [exact Hp|lia|lia]).
  pose proof (Hall (i - 1)%nat ltac:(lia)) as B1.
  pose proof (Hall i ltac:(lia)) as B2.
  pose proof (Hall (i + 1)%nat ltac:(lia)) as B3.
  destruct (Hc (pat p i) ltac:(lia)) as [C1 C2]. clear Hc Hall.
  set (dev := nsub _ _) in *.
  rewrite !szsub_small in E by lia. unfold posr.
  assert (G : forall a c : N, (a + 1 < c)%N -> IZR (Z.of_N a) + 1 < IZR (Z.of_N c)).
  { intros a c H. rewrite <- plus_IZR. apply IZR_lt. lia. }
  assert (G2 : forall a c : N, c = (a + 1)%N -> IZR (Z.of_N c) = IZR (Z.of_N a) + 1).
  { intros a c ->. rewrite <- plus_IZR. f_equal. lia. }
  assert (Pi : forall v, pat (aset p i v) i = v) by (intros v; unfold pat; apply nth_aset_eq; lia).
  destruct (nlt n0 dev).
  - left. split; [apply C1; reflexivity|]. cbn [Z.eqb Pos.eqb andb orb] in E. rewrite orb_false_r in E.
    destruct (N.ltb_spec 1 (pat p (i + 1) - pat p i)) as [R|R].
    + left. split; [apply G; lia|]. injection E as <- _. rewrite Pi, sz_of_int_1, szadd_small by lia. apply G2. reflexivity.
    + right. injection E as <- _. split; [apply G2; lia|reflexivity].
  - right. destruct (nlt dev n0).
    + left. split; [apply C2; reflexivity|]. cbn [Z.eqb Pos.eqb andb orb] in E.
      destruct (N.ltb_spec 1 (pat p i - pat p (i - 1))) as [R|R].
      * left. split; [pose proof (G (pat p (i - 1)) (pat p i) ltac:(lia)); lra|]. injection E as <- _. rewrite Pi, szadd_m1 by lia.
        rewrite (G2 (pat p i - 1)%N (pat p i)) by lia. lra.
      * right. injection E as <- _. split; [rewrite (G2 (pat p (i - 1)) (pat p i)) by lia; lra|reflexivity].
    + right. cbn [Z.eqb andb orb] in E. injection E as <- _. split; [|reflexivity].
      destruct (Rtotal_order (IZR (Z.of_N (pat p i))) r) as [T|[T|T]]; [apply C1 in T; discriminate|congruence|apply C2 in T; discriminate].
Qed.

(** [U] and [V] bound how far the desired positions [D] are ahead of and behind
    the positions. *)
Definition tracks (U V D : nat -> R) (p : list N) : Prop :=
  forall i, (i < L)%nat -> - V i <= D i - posr p i <= U i.

(** One push turns the bounds [U0], [V0] for the desired positions [D] into the
    bounds [U], [V] for [D']: a marker that moves may overshoot, and a marker that
    cannot move is next to one of its neighbours. *)
Record carries (U0 V0 D U V D' : nat -> R) : Prop := {
  ca_first : D' 0%nat = D 0%nat /\ U0 0%nat <= U 0%nat /\ V0 0%nat <= V 0%nat;
  ca_last : D' (L - 1)%nat = D (L - 1)%nat + 1 /\ U0 (L - 1)%nat <= U (L - 1)%nat /\ V0 (L - 1)%nat <= V (L - 1)%nat;
  ca_up : forall i, (0 < i < L - 1)%nat -> 0 <= U i /\ U0 i + (D' i - D i) - 1 <= U i /\
    U0 (S i) + (D' (S i) - D (S i)) + 1 - (D' (S i) - D' i) <= U i /\
    forall z, D' i < IZR z -> D' i - IZR z + 1 <= U i;
  ca_down : forall i, (0 < i < L - 1)%nat -> 0 <= V i /\ V0 i - (D' i - D i) <= V i /\
    V (i - 1)%nat + 1 - (D' i - D' (i - 1)%nat) <= V i /\
    forall z, IZR z < D' i -> IZR z + 1 - D' i <= V i
}.

Variables U0 V0 D U V D' : nat -> R.
Hypothesis Ca : carries U0 V0 D U V D'.

Lemma loop_tracks d p h k b :
  increasing p -> length p = L -> (pat p (L - 1) + 1 <= b)%N -> (b < szmod)%N ->
  (1 <= k <= L - 1)%nat ->
  (forall i, (0 < i < L - 1)%nat -> compares b (hat F d i) (D' i)) ->
  tracks U0 V0 D p ->
  tracks U V D' (fst (fold_left (psq_adjust F d) (seq 1 (L - 2)) (bump_from k p, h))).
Proof.
  intros Hp Hl Hb Hs Hk Hc HT. destruct Ca as [(H0 & H0U & H0V) (HL1 & HLU & HLV) Cu Cd]. pose proof (L_ge F qs) as HL.
  set (p0 := bump_from k p).
  assert (Hl0 : length p0 = L) by (unfold p0; rewrite bump_from_length; exact Hl).
  assert (Hi0 : increasing p0) by (apply increasing_bump; [exact Hp|rewrite Hl; lia]).
  pose proof (increasing_below p (pat p (L - 1) + 1) Hp ltac:(rewrite Hl; lia)) as Hall.
  assert (P0 : forall i, (i < L)%nat -> posr p0 i = posr p i + (if Nat.ltb i k then 0 else 1)).
  { intros i Hi. unfold posr, p0. rewrite pat_bump by lia. pose proof (Hall i ltac:(lia)). destruct (Nat.ltb i k); [lra|].
    rewrite szadd_small by lia. rewrite <- plus_IZR. f_equal. lia. }
  assert (B0 : (pat p0 (L - 1) <= b)%N).
  { unfold p0. rewrite pat_bump by lia. destruct (Nat.ltb _ _); [lia|]. rewrite szadd_small by lia. lia. }
  assert (Pre : forall i, (i < L)%nat -> - V0 i + (D' i - D i) - 1 <= D' i - posr p0 i <= U0 i + (D' i - D i)).
  { intros i Hi. rewrite P0 by exact Hi. pose proof (HT i Hi). destruct (Nat.ltb i k); lra. }
  assert (Main : forall j, (j <= L - 2)%nat -> let p' := fst (fold_left (psq_adjust F d) (seq 1 j) (p0, h)) in
    increasing p' /\ length p' = L /\ (forall i, (j < i)%nat -> pat p' i = pat p0 i) /\
    (forall i, (i <= j)%nat -> - V i <= D' i - posr p' i <= U i)).
  { induction j as [|j IH]; intros Hj p'.
    - subst p'. cbn [seq fold_left fst]. repeat split; auto.
      + intros. replace i with 0%nat by lia. rewrite P0 by lia. destruct (Nat.ltb_spec 0 k); [|lia]. pose proof (HT 0%nat ltac:(lia)). lra.
      + replace i with 0%nat by lia. rewrite P0 by lia. destruct (Nat.ltb_spec 0 k); [|lia]. pose proof (HT 0%nat ltac:(lia)). lra.
    - destruct (IH ltac:(lia)) as (I1 & I2 & I3 & I4). clear IH. subst p'.
      rewrite seq_S, fold_left_app. cbn [fold_left Nat.add].
      destruct (fold_left (psq_adjust F d) (seq 1 j) (p0, h)) as [q g]. cbn [fst] in I1, I2, I3, I4 |- *.
      destruct (psq_adjust F d (q, g) (S j)) as [q' g'] eqn:E. cbn [fst].
      assert (Bq : (pat q (length q - 1) <= b)%N) by (rewrite I2, I3 by lia; exact B0).
      destruct (adjust_spec F d q g (S j) q' g' I1 ltac:(lia) ltac:(lia) ltac:(lia) E) as (J1 & J2 & _ & J3 & _).
      pose proof (adjust_position d q g (S j) q' g' (D' (S j)) b I1 Bq Hs ltac:(lia) ltac:(lia) (Hc (S j) ltac:(lia)) E) as A.
      split; [exact J1|]. split; [congruence|]. split; [intros i Hi; rewrite J3 by lia; apply I3; lia|].
      intros i Hi. destruct (Nat.eq_dec i (S j)) as [->|N]; [|unfold posr; rewrite J3 by exact N; apply I4; lia].
      pose proof (Pre (S j) ltac:(lia)) as E1. pose proof (Pre (S (S j)) ltac:(lia)) as E2.
      assert (Q1 : posr q (S j) = posr p0 (S j)) by (unfold posr; rewrite I3 by lia; reflexivity).
      assert (Q2 : posr q (S j + 1) = posr p0 (S (S j))) by (unfold posr; rewrite Nat.add_1_r, I3 by lia; reflexivity).
      pose proof (I4 j ltac:(lia)) as E3. replace (S j - 1)%nat with j in A by lia.
      destruct (Cu (S j) ltac:(lia)) as (U1 & U2 & U3 & U4). destruct (Cd (S j) ltac:(lia)) as (V1 & V2 & V3 & V4).
      specialize (U4 (Z.of_N (pat p0 (S j)))). specialize (V4 (Z.of_N (pat p0 (S j)))). fold (posr p0 (S j)) in U4, V4.
      replace (S j - 1)%nat with j in V3 by lia.
      rewrite Q1, Q2 in A.
      destruct A as [(A & [(A1 & ->)|(A1 & ->)])|[(A & [(A1 & ->)|(A1 & ->)])|(A & ->)]]; try specialize (U4 A); try specialize (V4 A); lra. }
  destruct (Main (L - 2)%nat ltac:(lia)) as (M1 & M2 & M3 & M4). intros i Hi.
  destruct (le_lt_dec i (L - 2)) as [H|H]; [apply M4; exact H|].
  replace i with (L - 1)%nat by lia. unfold posr. rewrite M3 by lia. fold (posr p0 (L - 1)).
  rewrite P0 by lia. destruct (Nat.ltb_spec (L - 1) k); [lia|]. pose proof (HT (L - 1)%nat ltac:(lia)). lra.
Qed.
End Track.

Section Runs.
Variable F : num.
Variable qs : list F.
Notation L := (parameter_length F qs).
Notation st := (st F qs).
Notation fits := (PsquareGeneric.fits F).

(** The desired positions after [L + m] values. *)
Definition desired (m : nat) : list F :=
  Nat.iter m (fun d => add_deltas F d (constant_deltas F qs)) (ps_desired F (psq_init F qs)).

Lemma st_desired l : fits l -> ps_desired F (st l) = desired (length l - L).
Proof.
  induction l as [|x l IH] using rev_ind; intros Hs; [reflexivity|].
  assert (Hsl : fits l) by (unfold PsquareGeneric.fits in *; rewrite length_snoc in Hs; lia).
  rewrite (st_snoc F qs), length_snoc. unfold psq_push. rewrite (st_count F qs l Hsl).
  destruct (N.leb_spec (N.of_nat L) (N.of_nat (length l))) as [C|C].
  - destruct (psq_cell F qs (ps_heights F (st l)) x) as [k h]. cbn [ps_desired].
    rewrite IH, (st_deltas F qs) by exact Hsl. replace (S (length l) - L)%nat with (S (length l - L)) by lia. reflexivity.
  - cbn [ps_desired]. rewrite IH by exact Hsl. replace (S (length l) - L)%nat with 0%nat by lia.
    replace (length l - L)%nat with 0%nat by lia. reflexivity.
Qed.

Variable P : F -> Prop.
Hypothesis HP : total_on F P.
Variables U V D : nat -> nat -> R.
Variable M : nat.
Hypothesis start : forall i, (i < L)%nat -> - V 0%nat i <= D 0%nat i - INR (S i) <= U 0%nat i.
Hypothesis carry : forall m, (m < M)%nat -> carries F qs (U m) (V m) (D m) (U (S m)) (V (S m)) (D (S m)).
Hypothesis signs : forall m, (m < M)%nat -> forall i, (0 < i < L - 1)%nat ->
  compares F (N.of_nat (L + S m)) (hat F (desired (S m)) i) (D (S m) i).

Lemma st_tracks l : fits l -> Forall P l -> (L <= length l <= L + M)%nat ->
  tracks F qs (U (length l - L)%nat) (V (length l - L)%nat) (D (length l - L)%nat) (ps_positions F (st l)).
Proof.
  pose proof (L_ge F qs) as HL.
  induction l as [|x l IH] using rev_ind; intros Hs Hf Hn; [cbn in Hn; lia|].
  assert (Hsl : fits l) by (unfold PsquareGeneric.fits in *; rewrite length_snoc in Hs; lia).
  pose proof Hf as Hf'. apply Forall_app in Hf'. destruct Hf' as [Hl Hx]. inversion Hx as [|? ? Px _]; subst.
  rewrite length_snoc in Hn |- *.
  destruct (Nat.eq_dec (S (length l)) L) as [E|NE].
  - rewrite E, Nat.sub_diag. rewrite (st_short F qs) by (unfold PsquareGeneric.fits in Hs; rewrite ?length_snoc in *; lia).
    cbn [ps_positions]. intros i Hi. unfold posr. fold (positions0 F qs). rewrite (pat_positions0 F qs i Hi).
    rewrite nat_N_Z, <- INR_IZR_INZ. apply start. exact Hi.
  - pose proof (long_inv_st F qs P HP l Hsl Hl ltac:(lia)) as Inv.
    pose proof (long_inv_loop F qs P HP l x (st l) 0 Hs Px Hl Inv ltac:(lia)) as G.
    specialize (IH Hsl Hl ltac:(lia)).
    pose proof (st_desired (l ++ [x]) Hs) as Hd. rewrite length_snoc in Hd.
    revert Hd. rewrite (st_snoc F qs). unfold psq_push. rewrite (st_count F qs l Hsl) in *.
    destruct (N.leb_spec (N.of_nat L) (N.of_nat (length l))) as [C|C]; [|lia].
    destruct (psq_cell F qs (ps_heights F (st l)) x) as [k h]. destruct G as [Hk _]. cbn [ps_desired ps_positions]. intros Hd. rewrite Hd.
    replace (S (length l) - L)%nat with (S (length l - L)) by lia.
    unfold PsquareGeneric.fits in Hs. rewrite length_snoc in Hs.
    apply (loop_tracks F qs _ _ _ _ _ _ (carry (length l - L)%nat ltac:(lia)) _ _ h k (N.of_nat (L + S (length l - L)))).
    + apply (li_inc _ _ _ _ Inv).
    + apply (li_plen _ _ _ _ Inv).
    + rewrite (li_last _ _ _ _ Inv). lia.
    + lia.
    + exact Hk.
    + apply signs. lia.
    + exact IH.
Qed.
End Runs.
