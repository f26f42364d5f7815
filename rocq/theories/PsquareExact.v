(** * P-square in exact arithmetic: the model against the reference algorithm *)

From Coq Require Import Reals ZArith NArith Bool List Lia Lra Psatz
  Sorting.Sorted Sorting.Permutation.
From Flocq Require Import Core.Raux.
From Verif Require Import Arith History HistoryLemmas StatsLemmas SpecPsquare Psquare
  PsquareLemmas PsquareGeneric SpecOrder Orders.
Import ListNotations.
Local Open Scope R_scope.

(** The linear prediction as the code computes it: the distance to the
    neighbour is reduced modulo 2^64. *)
Definition code_linear (s : Z) (h h' : R) (d : Z) : R :=
  h + IZR s * ((h' - h) / IZR (d mod Z.of_N szmod)).

Lemma filter_length_le {A} (f : A -> bool) l : (length (filter f l) <= length l)%nat.
Proof. induction l as [|x l IH]; cbn; [lia|]; destruct (f x); cbn; lia. Qed.

(** ** Arrays given by functions *)
Definition arr {A} (len : nat) (f : nat -> A) : list A := map f (seq 0 len).

Lemma arr_length {A} len (f : nat -> A) : length (arr len f) = len.
Proof. unfold arr; rewrite map_length, seq_length; reflexivity. Qed.

Lemma nth_arr {A} len (f : nat -> A) i d : (i < len)%nat -> nth i (arr len f) d = f i.
Proof.
  intros H; unfold arr.
  rewrite (nth_indep _ d (f 0%nat)) by (rewrite map_length, seq_length; exact H).
  rewrite (map_nth f), seq_nth by exact H; reflexivity.
Qed.

Lemma nth_ext_arr {A} (l : list A) len (f : nat -> A) d :
  length l = len -> (forall i, (i < len)%nat -> nth i l d = f i) -> l = arr len f.
Proof.
  intros Hl H; apply (nth_ext _ _ d d); [rewrite arr_length; exact Hl|].
  intros i Hi; rewrite nth_arr by lia; apply H; lia.
Qed.

Lemma arr_ext {A} len (f g : nat -> A) :
  (forall i, (i < len)%nat -> f i = g i) -> arr len f = arr len g.
Proof.
  intros H; unfold arr; apply map_ext_in; intros i Hi; apply in_seq in Hi; apply H; lia.
Qed.

Lemma aset_arr {A} len (f : nat -> A) i v : aset (arr len f) i v = arr len (upd f i v).
Proof.
  destruct len as [|len]; [destruct i; reflexivity|].
  apply (nth_ext_arr _ _ _ (f 0%nat)); [rewrite aset_length, arr_length; reflexivity|].
  intros j Hj; rewrite nth_aset, arr_length, nth_arr by exact Hj; unfold upd.
  destruct (Nat.eqb_spec j i) as [->|]; [|reflexivity].
  apply Nat.ltb_lt in Hj; rewrite Hj; reflexivity.
Qed.

Lemma arr_upd {A B} (g : A -> B) len f i v :
  arr len (fun j => g (upd f i v j)) = arr len (upd (fun j => g (f j)) i (g v)).
Proof.
  apply arr_ext; intros j _; unfold upd; destruct (Nat.eqb j i); reflexivity.
Qed.

(** ** size_t *)
Notation M64 := (Z.of_N szmod).
Lemma M64_pos : (0 < M64)%Z.
Proof. reflexivity. Qed.

Lemma szsub_Z a b : (0 <= a < M64)%Z -> (0 <= b < M64)%Z ->
  Z.of_N (szsub (Z.to_N a) (Z.to_N b)) = ((a - b) mod M64)%Z.
Proof.
  intros Ha Hb; unfold szsub, sz.
  rewrite (N.mod_small (Z.to_N b)) by lia.
  rewrite N2Z.inj_mod, N2Z.inj_add, N2Z.inj_sub by lia.
  rewrite !Z2N.id by lia.
  replace (a + (M64 - b))%Z with ((a - b) + 1 * M64)%Z by ring.
  apply Z.mod_add; pose proof M64_pos; lia.
Qed.

Lemma szsub_Z_le a b : (0 <= b <= a)%Z -> (a < M64)%Z ->
  Z.of_N (szsub (Z.to_N a) (Z.to_N b)) = (a - b)%Z.
Proof.
  intros H Ha; rewrite szsub_Z by lia; apply Z.mod_small; lia.
Qed.

Section Exact.
Variable eps : R.
Notation F := (exact eps).
Variable rqs : list R.
Notation qs := (map Fin rqs : list F).
Notation L := (parameter_length F qs).
Hypothesis HL64 : (Z.of_nat L < M64)%Z.

Lemma L_eq : L = (2 * length rqs + 3)%nat.
Proof. unfold parameter_length, quantile_length; rewrite map_length; reflexivity. Qed.

(** Good markers: positions strictly increasing within size_t, heights sorted. *)
Record good (n : nat -> Z) (h : nat -> R) : Prop := {
  gd_inc : forall i, (S i < L)%nat -> (n i < n (S i))%Z;
  gd_first : (0 < n 0%nat)%Z;
  gd_last : (n (L - 1)%nat < M64)%Z;
  gd_sorted : forall i, (S i < L)%nat -> h i <= h (S i)
}.

Lemma good_range n h i : good n h -> (i < L)%nat -> (0 < n i < M64)%Z.
Proof.
  intros [H1 H2 H3 _] Hi; split.
  - induction i as [|i IH]; [exact H2|].
    specialize (IH ltac:(lia)); specialize (H1 i Hi); lia.
  - assert (G : forall k, (i + k < L)%nat -> (n i + Z.of_nat k <= n (i + k)%nat)%Z).
    { induction k as [|k IH]; intros Hk; [rewrite Nat.add_0_r; lia|].
      specialize (IH ltac:(lia)); specialize (H1 (i + k)%nat ltac:(lia)).
      rewrite Nat.add_succ_r; lia. }
    specialize (G (L - 1 - i)%nat ltac:(lia)).
    replace (i + (L - 1 - i))%nat with (L - 1)%nat in G by lia; lia.
Qed.

Definition repn (n : nat -> Z) : list N := arr L (fun i => Z.to_N (n i)).
Definition repr (h : nat -> R) : list F := arr L (fun i => Fin (h i) : F).

Lemma pat_repn n i : (i < L)%nat -> pat (repn n) i = Z.to_N (n i).
Proof. intros H; unfold pat, repn; rewrite nth_arr by exact H; reflexivity. Qed.
Lemma hat_repr h i : (i < L)%nat -> hat F (repr h) i = Fin (h i).
Proof. intros H; unfold hat, repr; rewrite nth_arr by exact H; reflexivity. Qed.
Lemma aset_repn n i v : aset (repn n) i (Z.to_N v) = repn (upd n i v).
Proof. unfold repn; rewrite aset_arr, (arr_upd Z.to_N); reflexivity. Qed.
Lemma aset_repr h i v : aset (repr h) i (Fin v : F) = repr (upd h i v).
Proof.
  unfold repr; rewrite aset_arr; rewrite (arr_upd (fun x => Fin x : F)); reflexivity.
Qed.

Section Step.
Variables (n : nat -> Z) (h : nat -> R) (i : nat).
Hypothesis Hg : good n h.
Hypothesis Hi0 : (0 < i)%nat.
Hypothesis Hi : (S i < L)%nat.

Lemma step_facts :
  (0 < n (i - 1)%nat < M64)%Z /\ (0 < n i < M64)%Z /\ (0 < n (i + 1)%nat < M64)%Z /\
  (n (i - 1)%nat < n i)%Z /\ (n i < n (i + 1)%nat)%Z /\
  h (i - 1)%nat <= h i /\ h i <= h (i + 1)%nat.
Proof.
  pose proof (good_range n h (i - 1) Hg ltac:(lia)) as R1.
  pose proof (good_range n h i Hg ltac:(lia)) as R2.
  pose proof (good_range n h (i + 1) Hg ltac:(lia)) as R3.
  pose proof (gd_inc n h Hg (i - 1) ltac:(lia)) as H1.
  pose proof (gd_inc n h Hg i ltac:(lia)) as H2.
  pose proof (gd_sorted n h Hg (i - 1) ltac:(lia)) as H3.
  pose proof (gd_sorted n h Hg i ltac:(lia)) as H4.
  replace (S (i - 1)) with i in * by lia.
  rewrite Nat.add_1_r; rewrite Nat.add_1_r in *; tauto.
Qed.

Lemma xdivF x y : y <> 0 -> @ndiv F (Fin x) (Fin y) = Fin (x / y).
Proof. intros H; apply xdiv_fin, H. Qed.

Lemma IZR_pos_neq z : (0 < z)%Z -> IZR z <> 0.
Proof. intros H; apply IZR_lt in H; lra. Qed.

Lemma parabolic_exact s :
  (s = 1 /\ 1 < n (i + 1)%nat - n i \/ s = -1 /\ 1 < n i - n (i - 1)%nat)%Z ->
  psq_parabolic F (repn n) (repr h) i s = Fin (p2_parabolic n h i s).
Proof.
  intros Hs; destruct step_facts as (A1 & A2 & A3 & A4 & A5 & _ & _).
  unfold psq_parabolic; rewrite !pat_repn, !hat_repr by lia.
  set (f := szsub (Z.to_N (n (i + 1)%nat)) (Z.to_N (n i))).
  set (b := szsub (Z.to_N (n i)) (Z.to_N (n (i - 1)%nat))).
  set (t := szsub (Z.to_N (n (i + 1)%nat)) (Z.to_N (n (i - 1)%nat))).
  assert (Ef : Z.of_N f = (n (i + 1)%nat - n i)%Z) by (apply szsub_Z_le; lia).
  assert (Eb : Z.of_N b = (n i - n (i - 1)%nat)%Z) by (apply szsub_Z_le; lia).
  assert (Et : Z.of_N t = (n (i + 1)%nat - n (i - 1)%nat)%Z) by (apply szsub_Z_le; lia).
  assert (E1 : Z.of_N (szadd b (sz_of_int s)) = (n i - n (i - 1)%nat + s)%Z).
  { destruct Hs as [[-> Hs]|[-> Hs]].
    - rewrite sz_of_int_1, szadd_small by lia; lia.
    - rewrite szadd_m1 by lia; lia. }
  assert (E2 : Z.of_N (szsub f (sz_of_int s)) = (n (i + 1)%nat - n i - s)%Z).
  { destruct Hs as [[-> Hs]|[-> Hs]].
    - rewrite sz_of_int_1, szsub_small by lia; lia.
    - rewrite szsub_m1 by lia; lia. }
  unfold nofsz, nofz, nadd, nmul, nsub; cbn [exact xnum].
  rewrite Ef, Eb, Et, E1, E2; cbn [xlift2].
  rewrite !xdivF by (apply IZR_pos_neq; lia); cbn [xlift2].
  apply (f_equal Fin); unfold p2_parabolic, Rdiv; ring.
Qed.

Lemma linear_exact s : (s = 1 \/ s = -1)%Z ->
  psq_linear F (repn n) (repr h) i s =
  Fin (let j := Z.to_nat (Z.of_nat i + s) in code_linear s (h i) (h j) (n j - n i)).
Proof.
  intros Hs; destruct step_facts as (A1 & A2 & A3 & A4 & A5 & _ & _).
  unfold psq_linear; cbv zeta.
  assert (Ej : idx_shift i s = Z.to_nat (Z.of_nat i + s)).
  { unfold idx_shift; rewrite Z.mod_small by lia; reflexivity. }
  rewrite Ej; set (j := Z.to_nat (Z.of_nat i + s)).
  assert (Hj : (j = i + 1 \/ j = i - 1)%nat) by lia.
  rewrite !pat_repn, !hat_repr by lia.
  assert (Hjr : (0 < n j < M64)%Z) by (destruct Hj as [-> | ->]; assumption).
  unfold nofsz, nofz, nadd, nmul, nsub; cbn [exact xnum xlift2].
  rewrite szsub_Z by lia.
  assert (Hnz : ((n j - n i) mod M64 <> 0)%Z).
  { destruct Hj as [E|E]; rewrite E in *.
    - rewrite Z.mod_small by lia; lia.
    - replace (n (i - 1)%nat - n i)%Z
        with ((M64 - (n i - n (i - 1)%nat)) + (-1) * M64)%Z by ring.
      rewrite Z.mod_add by (pose proof M64_pos; lia).
      rewrite Z.mod_small by lia; lia. }
  rewrite xdivF by (apply not_0_IZR; exact Hnz); cbn [xlift2].
  reflexivity.
Qed.

(** Sortedness of an adjusted height. *)
Lemma height_sorted s :
  (s = 1 /\ 1 < n (i + 1)%nat - n i \/ s = -1 /\ 1 < n i - n (i - 1)%nat)%Z ->
  h (i - 1)%nat <= p2_height code_linear n h i s <= h (i + 1)%nat.
Proof.
  intros Hs; destruct step_facts as (A1 & A2 & A3 & A4 & A5 & S1 & S2).
  unfold p2_height; set (y := p2_parabolic n h i s).
  set (j := Z.to_nat (Z.of_nat i + s)).
  assert (G : ~ (h (i - 1)%nat < y < h (i + 1)%nat) ->
    h (i - 1)%nat <= code_linear s (h i) (h j) (n j - n i) <= h (i + 1)%nat).
  2:{ destruct (Rlt_dec (h (i - 1)%nat) y); [|apply G; tauto].
      destruct (Rlt_dec y (h (i + 1)%nat)); [lra|apply G; tauto]. }
  intros Hout; unfold code_linear.
  destruct Hs as [[-> Hgap]|[-> Hgap]].
  - replace j with (i + 1)%nat by lia.
    rewrite Z.mod_small by lia.
    set (f := (n (i + 1)%nat - n i)%Z) in *.
    assert (Hf : 2 <= IZR f) by (apply (IZR_le 2); lia).
    assert (0 <= (h (i + 1)%nat - h i) / IZR f <= h (i + 1)%nat - h i).
    { split; [apply Rmult_le_pos; [lra|left; apply Rinv_0_lt_compat; lra]|].
      apply Rmult_le_reg_r with (IZR f); [lra|].
      unfold Rdiv; rewrite Rmult_assoc, Rinv_l by lra; nra. }
    lra.
  - replace j with (i - 1)%nat by lia.
    replace (n (i - 1)%nat - n i)%Z
        with ((M64 - (n i - n (i - 1)%nat)) + (-1) * M64)%Z by ring.
    rewrite Z.mod_add by (pose proof M64_pos; lia).
    rewrite Z.mod_small by lia.
    unfold y, p2_parabolic in Hout; clear y.
    set (b := (n i - n (i - 1)%nat)%Z) in *.
    set (f := (n (i + 1)%nat - n i)%Z) in *.
    replace (n (i + 1)%nat - n (i - 1)%nat)%Z with (f + b)%Z in Hout by (unfold f, b; ring).
    set (D := h (i + 1)%nat - h i) in *.
    set (d := h i - h (i - 1)%nat) in *.
    assert (HD : 0 <= D) by (unfold D; lra).
    assert (Hd : 0 <= d) by (unfold d; lra).
    assert (Hw : 1 <= IZR (M64 - b)) by (apply (IZR_le 1); unfold b; lia).
    replace (h (i - 1)%nat - h i) with (- d) by (unfold d; ring).
    assert (Hq : 0 <= d / IZR (M64 - b) <= d).
    { split; [apply Rmult_le_pos; [lra|left; apply Rinv_0_lt_compat; lra]|].
      apply Rmult_le_reg_r with (IZR (M64 - b)); [lra|].
      unfold Rdiv; rewrite Rmult_assoc, Rinv_l by lra; nra. }
    replace (h i + -1 * (- d / IZR (M64 - b))) with (h i + d / IZR (M64 - b))
      by (unfold Rdiv; ring).
    assert (Hdd : d <= D).
    { destruct (Rle_dec d D) as [|Hn]; [assumption|exfalso; apply Hout].
      assert (Hf : 1 <= IZR f) by (apply (IZR_le 1); unfold f; lia).
      assert (Hb : 2 <= IZR b) by (apply (IZR_le 2); lia).
      rewrite !plus_IZR, minus_IZR.
      set (rf := IZR f) in *; set (rb := IZR b) in *.
      assert (E : h i + -1 / (rf + rb) * ((rb + -1) * D / rf + (rf - -1) * d / rb) =
                  h i - ((rb - 1) * rb * D + (rf + 1) * rf * d) / ((rf + rb) * rf * rb)).
      { field; repeat split; lra. }
      rewrite E.
      set (T := (rf + rb) * rf * rb).
      assert (HT : 0 < T) by (unfold T; apply Rmult_lt_0_compat; [nra|lra]).
      set (X := (rb - 1) * rb * D + (rf + 1) * rf * d).
      assert (HX : 0 < X).
      { unfold X; assert (0 <= (rb - 1) * rb * D) by (apply Rmult_le_pos; nra).
        assert (0 < (rf + 1) * rf * d) by (apply Rmult_lt_0_compat; nra); lra. }
      assert (HXT : X < d * T).
      { unfold X, T.
        assert (K1 : (rb - 1) * rb * D <= (rb - 1) * rb * d) by (apply Rmult_le_compat_l; nra).
        assert (K2 : (rb - 1) * rb + (rf + 1) * rf < (rf + rb) * rf * rb).
        { assert (0 <= (rf - 1) * rb) by nra.
          assert (0 <= (rf - 1) * (rf - 1)) by nra.
          assert (0 <= (rb - 2) * rf) by nra.
          assert (0 <= (rb - 2) * (rf * rf)) by (apply Rmult_le_pos; nra).
          assert (0 <= (rf - 1) * (rb * rb)) by (apply Rmult_le_pos; nra).
          nra. }
        assert (0 < d) by lra; nra. }
      assert (Hr1 : 0 < X / T) by (apply Rdiv_lt_0_compat; assumption).
      assert (Hr2 : X / T < d).
      { apply Rmult_lt_reg_r with T; [exact HT|].
        unfold Rdiv; rewrite Rmult_assoc, Rinv_l by lra; lra. }
      unfold d, D in *; lra. }
    unfold d, D in *; lra.
Qed.

Lemma adjust_exact d :
  psq_adjust F (repr d) (repn n, repr h) i =
  (let nh := p2_adjust code_linear far_any d (n, h) i in (repn (fst nh), repr (snd nh))) /\
  (let nh := p2_adjust code_linear far_any d (n, h) i in
   good (fst nh) (snd nh) /\
   (forall j, j <> i -> fst nh j = n j) /\ (forall j, j <> i -> snd nh j = h j)).
Proof.
  destruct step_facts as (A1 & A2 & A3 & A4 & A5 & S1 & S2).
  unfold psq_adjust, p2_adjust; cbv zeta.
  set (sg := if nlt n0 (nsub (hat F (repr d) i) (nofsz (pat (repn n) i)))
             then 1%Z else _).
  set (sign := if Rlt_bool 0 (d i - IZR (n i)) then 1%Z
               else if Rlt_bool (d i - IZR (n i)) 0 then (-1)%Z else 0%Z).
  assert (Esg : sg = sign).
  { unfold sg, sign; rewrite pat_repn, hat_repr by lia.
    unfold nofsz, n0, nofz, nsub, nlt; cbn [exact xnum xlift2 xcmp].
    rewrite Z2N.id by lia; reflexivity. }
  clearbody sg; subst sg.
  rewrite !pat_repn, !hat_repr by lia.
  set (f := szsub (Z.to_N (n (i + 1)%nat)) (Z.to_N (n i))).
  set (b := szsub (Z.to_N (n i)) (Z.to_N (n (i - 1)%nat))).
  assert (Ef : Z.of_N f = (n (i + 1)%nat - n i)%Z) by (apply szsub_Z_le; lia).
  assert (Eb : Z.of_N b = (n i - n (i - 1)%nat)%Z) by (apply szsub_Z_le; lia).
  assert (Es : (((sign =? 1)%Z && (1 <? f)%N) || ((sign =? -1)%Z && (1 <? b)%N) = true /\
                p2_sign far_any d n i = sign /\
                (sign = 1 /\ 1 < n (i + 1)%nat - n i \/
                 sign = -1 /\ 1 < n i - n (i - 1)%nat)%Z) \/
               (((sign =? 1)%Z && (1 <? f)%N) || ((sign =? -1)%Z && (1 <? b)%N) = false /\
                p2_sign far_any d n i = 0%Z)).
  { unfold sign, p2_sign, far_any.
    destruct (Rlt_bool_spec 0 (d i - IZR (n i))).
    - destruct (Rlt_dec 0 (d i - IZR (n i))); [|lra]; cbn [Z.eqb Pos.eqb andb orb].
      rewrite orb_false_r.
      destruct (Z_lt_dec 1 (n (i + 1)%nat - n i)), (N.ltb_spec 1 f);
        [left; repeat split; auto|exfalso; lia|exfalso; lia|right; auto].
    - destruct (Rlt_dec 0 (d i - IZR (n i))); [lra|].
      destruct (Rlt_bool_spec (d i - IZR (n i)) 0).
      + destruct (Rlt_dec 0 (IZR (n i) - d i)); [|lra]; cbn [Z.eqb Pos.eqb andb orb].
        destruct (Z_lt_dec 1 (n i - n (i - 1)%nat)), (N.ltb_spec 1 b);
        [left; repeat split; auto|exfalso; lia|exfalso; lia|right; auto].
      + destruct (Rlt_dec 0 (IZR (n i) - d i)); [lra|]; right; auto. }
  destruct Es as [(-> & -> & Hs)|(-> & ->)].
  - destruct (Z.eq_dec sign 0) as [E0|_]; [lia|]; cbn [fst snd].
    pose proof (height_sorted sign Hs) as Hh.
    split.
    + f_equal.
      * rewrite <- aset_repn; f_equal.
        apply N2Z.inj; rewrite Z2N.id by lia.
        destruct Hs as [[-> Hs]|[-> Hs]].
        -- rewrite sz_of_int_1, szadd_small by lia; lia.
        -- rewrite szadd_m1 by lia; lia.
      * rewrite parabolic_exact by exact Hs.
        rewrite linear_exact by (destruct Hs as [[-> _]|[-> _]]; auto).
        unfold nlt; cbn [exact xnum xcmp]; unfold p2_height.
        set (y := p2_parabolic n h i sign).
        destruct (Rlt_bool_spec (h (i - 1)%nat) y), (Rlt_dec (h (i - 1)%nat) y); try lra;
          cbn [andb]; try (rewrite aset_repr; reflexivity).
        destruct (Rlt_bool_spec y (h (i + 1)%nat)), (Rlt_dec y (h (i + 1)%nat)); try lra;
          rewrite aset_repr; reflexivity.
    + split; [|split; intros j Hj; unfold upd; apply Nat.eqb_neq in Hj; rewrite Hj; reflexivity].
      destruct Hg as [G1 G2 G3 G4]; constructor.
      * intros j Hj; unfold upd.
        destruct (Nat.eqb_spec j i) as [E1|E1], (Nat.eqb_spec (S j) i) as [E2|E2]; try lia.
        -- subst j; rewrite <- (Nat.add_1_r i) in *; destruct Hs as [[-> Hs]|[-> Hs]]; lia.
        -- subst i; replace (S j - 1)%nat with j in * by lia.
           destruct Hs as [[-> Hs]|[-> Hs]]; lia.
        -- apply G1; exact Hj.
      * unfold upd; destruct (Nat.eqb_spec 0 i); [lia|exact G2].
      * unfold upd; destruct (Nat.eqb_spec (L - 1) i); [lia|exact G3].
      * intros j Hj; unfold upd.
        destruct (Nat.eqb_spec j i) as [E1|E1], (Nat.eqb_spec (S j) i) as [E2|E2]; try lia.
        -- subst j; rewrite <- (Nat.add_1_r i); apply Hh.
        -- subst i; replace (S j - 1)%nat with j in * by lia; apply Hh.
        -- apply G4; exact Hj.
  - destruct (Z.eq_dec 0 0) as [_|E0]; [|congruence]; cbn [fst snd].
    split; [reflexivity|]; split; [exact Hg|]; split; reflexivity.
Qed.

End Step.

Lemma adjust_loop_exact d idx : forall n h,
  good n h -> Forall (fun i => (0 < i)%nat /\ (S i < L)%nat) idx ->
  fold_left (psq_adjust F (repr d)) idx (repn n, repr h) =
  (let nh := fold_left (p2_adjust code_linear far_any d) idx (n, h) in
   (repn (fst nh), repr (snd nh))) /\
  (let nh := fold_left (p2_adjust code_linear far_any d) idx (n, h) in
   good (fst nh) (snd nh) /\
   (forall j, ~ In j idx -> fst nh j = n j /\ snd nh j = h j)).
Proof.
  induction idx as [|i idx IH]; intros n h Hg Hf.
  - cbn; repeat split; auto; apply Hg.
  - inversion Hf as [|? ? [Hi0 Hi] Hf']; subst.
    destruct (adjust_exact n h i Hg Hi0 Hi d) as [E (G & K1 & K2)].
    cbn [fold_left]; rewrite E; cbv zeta.
    destruct (p2_adjust code_linear far_any d (n, h) i) as [n1 h1]; cbn [fst snd] in *.
    destruct (IH n1 h1 G Hf') as [E' (G' & K')]; cbv zeta in *.
    split; [exact E'|]; split; [exact G'|].
    intros j Hj; cbn in Hj; destruct (K' j ltac:(tauto)) as [-> ->].
    split; [apply K1|apply K2]; intros ->; tauto.
Qed.

(** ** push *)
Lemma deltas_from_nth q0 l i d :
  (i < 2 * length l + 2)%nat ->
  nth i (deltas_from F (Fin q0) (map Fin l)) d =
  Fin (let q k := nth k (q0 :: l ++ [1]) 0 in
       if Nat.even i then (q (i / 2)%nat + q (S (i / 2))) / 2 else q (S (i / 2))).
Proof.
  revert q0 i; induction l as [|x l IH]; intros q0 i Hi.
  - cbn in Hi; destruct i as [|[|i]]; [| |lia]; cbn; [|reflexivity].
    unfold xdiv, n1, nofz; cbn; rewrite Req_bool_false by lra; reflexivity.
  - destruct i as [|[|i]].
    + cbn; unfold xdiv; rewrite Req_bool_false by lra; reflexivity.
    + reflexivity.
    + cbn [map deltas_from nth]; rewrite IH by (cbn in Hi; lia).
      apply (f_equal Fin); cbv zeta.
      replace (S (S i) / 2)%nat with (S (i / 2)).
      2:{ replace (S (S i)) with (i + 1 * 2)%nat by lia.
          rewrite Nat.div_add by lia; lia. }
      reflexivity.
Qed.

Lemma deltas_exact : constant_deltas F qs = repr (p2_delta rqs).
Proof.
  unfold constant_deltas.
  assert (Hlen : forall p l, length (deltas_from F p l) = (2 * length l + 2)%nat).
  { intros p l; revert p; induction l as [|x l IH]; intros p; [reflexivity|].
    cbn [deltas_from length]; rewrite IH; lia. }
  apply (nth_ext_arr _ _ _ NonFin).
  - cbn [length]; rewrite Hlen; unfold parameter_length, quantile_length; lia.
  - intros i Hi; rewrite L_eq in Hi; destruct i as [|i]; [reflexivity|].
    cbn [nth]; unfold n0; unfold nofz; cbn [exact xnum].
    rewrite deltas_from_nth by lia; apply (f_equal Fin); cbv zeta; unfold p2_delta.
    rewrite Nat.even_succ, <- Nat.negb_even.
    destruct (Nat.even i) eqn:Ee; cbn [negb].
    + apply Nat.even_spec in Ee; destruct Ee as [k ->].
      replace (S (2 * k) / 2)%nat with k; [|rewrite <- (Nat.div_unique (S (2 * k)) 2 k 1); lia].
      replace (2 * k / 2)%nat with k; [|rewrite <- (Nat.div_unique (2 * k) 2 k 0); lia].
      reflexivity.
    + assert (Eo : Nat.odd i = true) by (rewrite <- Nat.negb_even, Ee; reflexivity).
      apply Nat.odd_spec in Eo; destruct Eo as [k ->].
      replace (S (2 * k + 1) / 2)%nat with (S k);
        [|rewrite <- (Nat.div_unique (S (2 * k + 1)) 2 (S k) 0); lia].
      replace ((2 * k + 1) / 2)%nat with k;
        [|rewrite <- (Nat.div_unique (2 * k + 1) 2 k 1); lia].
      reflexivity.
Qed.

Lemma add_deltas_exact d : add_deltas F (repr d) (repr (p2_delta rqs)) =
  repr (fun i => d i + p2_delta rqs i).
Proof.
  unfold add_deltas, repr, arr.
  induction (seq 0 L) as [|i s IH]; [reflexivity|].
  cbn [map combine fst snd]; rewrite IH; reflexivity.
Qed.

Lemma bump_exact k n : (forall i, (i < L)%nat -> (0 <= n i /\ n i + 1 < M64)%Z) ->
  bump_from k (repn n) =
  repn (fun i => if Nat.ltb i k then n i else (n i + 1)%Z).
Proof.
  intros Hn; apply (nth_ext_arr _ _ _ 0%N).
  - rewrite bump_from_length; unfold repn; apply arr_length.
  - intros i Hi.
    fold (pat (bump_from k (repn n)) i).
    rewrite pat_bump by (unfold repn; rewrite arr_length; exact Hi).
    rewrite pat_repn by exact Hi.
    destruct (Nat.ltb i k); [reflexivity|].
    specialize (Hn i Hi); rewrite szadd_small by lia; lia.
Qed.

(** upper_bound of a sorted array *)
Lemma sorted_le h i j : (forall i, (S i < L)%nat -> h i <= h (S i)) ->
  (i <= j)%nat -> (j < L)%nat -> h i <= h j.
Proof.
  intros H Hij Hj; induction j as [|j IH]; [replace i with 0%nat by lia; lra|].
  destruct (Nat.eq_dec i (S j)) as [->|]; [lra|].
  apply Rle_trans with (h j); [apply IH; lia|apply H; lia].
Qed.

Lemma upper_bound_below len h x :
  (forall i j, (i <= j)%nat -> (j < len)%nat -> h i <= h j) ->
  upper_bound F (arr len (fun i => Fin (h i) : F)) (Fin x) = p2_below len h x.
Proof.
  intros Hs; unfold p2_below, arr.
  assert (G : forall m a, (a + m = len)%nat ->
    upper_bound F (map (fun i => Fin (h i) : F) (seq a m)) (Fin x) =
    length (filter (fun i => if Rle_dec (h i) x then true else false) (seq a m))).
  { induction m as [|m IH]; intros a Ha; [reflexivity|].
    cbn [seq map upper_bound filter].
    unfold nlt; cbn [exact xnum xcmp].
    destruct (Rlt_bool_spec x (h a)) as [Hlt|Hge].
    - destruct (Rle_dec (h a) x); [lra|].
      replace (filter _ (seq (S a) m)) with (@nil nat); [reflexivity|].
      symmetry.
      assert (forall i, In i (seq (S a) m) -> ~ h i <= x).
      { intros i Hi; apply in_seq in Hi; specialize (Hs a i ltac:(lia) ltac:(lia)); lra. }
      induction (seq (S a) m) as [|z t IHt]; [reflexivity|]; cbn [filter].
      destruct (Rle_dec (h z) x) as [Hz|]; [exfalso; apply (H z); [left; reflexivity|exact Hz]|].
      apply IHt; intros i Hi; apply H; right; exact Hi.
    - destruct (Rle_dec (h a) x); [|lra]; cbn [length]; f_equal; apply IH; lia. }
  apply G; reflexivity.
Qed.

Definition rep (c : N) (m : markers) : psq F :=
  Psq F c (repn (mk_n m)) (repr (mk_h m)) (repr (mk_d m)) (repr (p2_delta rqs)).

Lemma below_all h x : (forall i, (i < L)%nat -> h i <= x) -> p2_below L h x = L.
Proof.
  intros H; unfold p2_below.
  rewrite <- (seq_length L 0) at 2; f_equal.
  assert (H' : forall i, In i (seq 0 L) -> h i <= x)
    by (intros i Hi; apply in_seq in Hi; apply H; lia).
  induction (seq 0 L) as [|z t IH]; [reflexivity|]; cbn [filter].
  destruct (Rle_dec (h z) x) as [|N]; [|exfalso; apply N, H'; left; reflexivity].
  f_equal; apply IH; intros i Hi; apply H'; right; exact Hi.
Qed.

Lemma below_first h x : h 0%nat <= x -> (forall i, (0 < i < L)%nat -> x < h i) ->
  p2_below L h x = 1%nat.
Proof.
  intros H0 H; unfold p2_below.
  assert (HL : (3 <= L)%nat) by (rewrite L_eq; lia).
  destruct L as [|len]; [lia|]; cbn [seq filter].
  destruct (Rle_dec (h 0%nat) x); [|lra]; cbn [length]; f_equal.
  assert (H' : forall i, In i (seq 1 len) -> x < h i)
    by (intros i Hi; apply in_seq in Hi; apply H; lia).
  clear - H'; induction (seq 1 len) as [|z t IH]; [reflexivity|]; cbn [filter].
  destruct (Rle_dec (h z) x) as [N|].
  - specialize (H' z (or_introl eq_refl)); lra.
  - apply IH; intros i Hi; apply H'; right; exact Hi.
Qed.

Lemma push_exact c m x : (N.of_nat L <= c)%N -> (c + 1 < szmod)%N ->
  good (mk_n m) (mk_h m) -> mk_n m (L - 1)%nat = Z.of_N c ->
  let m' := p2_push code_linear far_any L (p2_delta rqs) m x in
  psq_push F qs (rep c m) (Fin x) = rep (c + 1) m' /\
  good (mk_n m') (mk_h m') /\ mk_n m' (L - 1)%nat = Z.of_N (c + 1) /\
  mk_n m' 0%nat = mk_n m 0%nat /\
  mk_h m' 0%nat = Rmin x (mk_h m 0%nat) /\
  mk_h m' (L - 1)%nat = Rmax x (mk_h m (L - 1)%nat).
Proof.
  intros Hc Hc2 Hg Hlast m'.
  assert (HL : (3 <= L)%nat) by (rewrite L_eq; lia).
  unfold psq_push; cbn [rep ps_count ps_positions ps_heights ps_desired ps_deltas].
  destruct (N.leb_spec (N.of_nat L) c); [|lia].
  set (h1 := upd (upd (mk_h m) 0 (Rmin x (mk_h m 0%nat)))
               (L - 1) (Rmax x (mk_h m (L - 1)%nat))).
  set (k := Nat.min (L - 1) (p2_below L h1 x)).
  pose proof (gd_sorted _ _ Hg) as Hsort.
  assert (Hle : forall i j, (i <= j)%nat -> (j < L)%nat -> mk_h m i <= mk_h m j)
    by (intros i j; apply sorted_le; exact Hsort).
  assert (Hh1s : forall i, (S i < L)%nat -> h1 i <= h1 (S i)).
  { intros i Hi; unfold h1, upd.
    destruct (Nat.eqb_spec i (L - 1)); [lia|].
    destruct (Nat.eqb_spec (S i) (L - 1)) as [E|E];
    destruct (Nat.eqb_spec i 0) as [E0|E0].
    - apply Rle_trans with x; [apply Rmin_l|apply Rmax_l].
    - apply Rle_trans with (mk_h m (L - 1)%nat); [apply Hle; lia|apply Rmax_r].
    - destruct (Nat.eqb_spec (S i) 0); [lia|]; subst i.
      apply Rle_trans with (mk_h m 0%nat); [apply Rmin_r|apply Hle; lia].
    - destruct (Nat.eqb_spec (S i) 0); [lia|]; apply Hsort; exact Hi. }
  assert (Hcell : psq_cell F qs (repr (mk_h m)) (Fin x) = (k, repr h1)).
  { unfold psq_cell; rewrite !hat_repr by lia.
    unfold nlt, nle; cbn [exact xnum xcmp].
    destruct (Rlt_bool_spec x (mk_h m 0%nat)) as [Hlt|Hge].
    - assert (Eh : repr h1 = repr (upd (mk_h m) 0 x)).
      { apply arr_ext; intros i Hi; apply (f_equal Fin); unfold h1, upd.
        rewrite Rmin_left by lra.
        destruct (Nat.eqb_spec i (L - 1)) as [->|].
        - destruct (Nat.eqb_spec (L - 1) 0); [lia|].
          apply Rmax_right; specialize (Hle 0%nat (L - 1)%nat ltac:(lia) ltac:(lia)); lra.
        - reflexivity. }
      rewrite Eh, aset_repr; f_equal.
      unfold k; rewrite below_first; [lia| |].
      + unfold h1, upd; destruct (Nat.eqb_spec 0 (L - 1)); [lia|]; cbn [Nat.eqb].
        apply Rmin_l.
      + intros i Hi; specialize (Hle 0%nat i ltac:(lia) ltac:(lia)).
        unfold h1, upd; destruct (Nat.eqb_spec i (L - 1)) as [->|].
        * apply Rlt_le_trans with (mk_h m (L - 1)%nat); [lra|apply Rmax_r].
        * destruct (Nat.eqb_spec i 0); [lia|lra].
    - destruct (Rle_bool_spec (mk_h m (L - 1)%nat) x) as [Hle2|Hgt].
      + assert (Eh : repr h1 = repr (upd (mk_h m) (L - 1) x)).
        { apply arr_ext; intros i Hi; apply (f_equal Fin); unfold h1, upd.
          rewrite Rmax_left by lra.
          destruct (Nat.eqb_spec i (L - 1)); [reflexivity|].
          destruct (Nat.eqb_spec i 0) as [->|]; [apply Rmin_right; lra|reflexivity]. }
        rewrite Eh, aset_repr; f_equal.
        unfold k; rewrite below_all; [lia|].
        intros i Hi; apply Rle_trans with (h1 (L - 1)%nat).
        * apply sorted_le; [exact Hh1s|lia|lia].
        * unfold h1, upd; rewrite Nat.eqb_refl, Rmax_left by lra; lra.
      + assert (Eh : repr (mk_h m) = repr h1).
        { apply arr_ext; intros i Hi; apply (f_equal Fin); unfold h1, upd.
          destruct (Nat.eqb_spec i (L - 1)) as [->|]; [rewrite Rmax_right by lra; reflexivity|].
          destruct (Nat.eqb_spec i 0) as [->|]; [rewrite Rmin_right by lra; reflexivity|].
          reflexivity. }
        rewrite Eh; f_equal; unfold k.
        unfold repr; rewrite upper_bound_below
          by (intros i j; apply sorted_le; exact Hh1s).
        symmetry; apply Nat.min_r.
        assert (Hb : (p2_below L h1 x <= length (seq 0 (L - 1)))%nat).
        { unfold p2_below.
          replace L with (S (L - 1)) at 1 by lia.
          rewrite seq_S, filter_app, app_length; cbn [filter].
          destruct (Rle_dec (h1 (0 + (L - 1))%nat) x) as [Hbad|_].
          - exfalso; cbn [Nat.add] in Hbad; unfold h1, upd in Hbad.
            rewrite Nat.eqb_refl, Rmax_right in Hbad by lra; lra.
          - cbn [length]; rewrite Nat.add_0_r; apply filter_length_le. }
        rewrite seq_length in Hb; exact Hb. }
  rewrite Hcell.
  set (n1 := fun i => if Nat.ltb i k then mk_n m i else (mk_n m i + 1)%Z).
  assert (Hn : forall i, (i < L)%nat -> (0 <= mk_n m i /\ mk_n m i + 1 < M64)%Z).
  { intros i Hi; pose proof (good_range _ _ i Hg Hi).
    split; [lia|].
    destruct (Nat.eq_dec i (L - 1)) as [->|]; [lia|].
    assert (G : forall j, (i + j < L)%nat -> (mk_n m i + Z.of_nat j <= mk_n m (i + j)%nat)%Z).
    { induction j as [|j IH]; intros Hk; [rewrite Nat.add_0_r; lia|].
      specialize (IH ltac:(lia)); pose proof (gd_inc _ _ Hg (i + j)%nat ltac:(lia)).
      rewrite Nat.add_succ_r; lia. }
    specialize (G (L - 1 - i)%nat ltac:(lia)).
    replace (i + (L - 1 - i))%nat with (L - 1)%nat in G by lia; lia. }
  rewrite bump_exact by exact Hn; fold n1.
  rewrite add_deltas_exact.
  assert (Hk : (1 <= k <= L - 1)%nat).
  { unfold k; split; [|lia].
    apply Nat.min_glb; [lia|]; unfold p2_below.
    replace (seq 0 L) with (0%nat :: seq 1 (L - 1))
      by (replace L with (S (L - 1)) at 2 by lia; reflexivity).
    cbn [filter]; destruct (Rle_dec (h1 0%nat) x) as [|Hbad]; [cbn; lia|].
    exfalso; apply Hbad; unfold h1, upd.
    destruct (Nat.eqb_spec 0 (L - 1)); [lia|]; cbn [Nat.eqb]; apply Rmin_l. }
  assert (Hg1 : good n1 h1).
  { constructor.
    - intros i Hi; pose proof (gd_inc _ _ Hg i Hi); unfold n1.
      destruct (Nat.ltb_spec i k), (Nat.ltb_spec (S i) k); lia.
    - pose proof (gd_first _ _ Hg); unfold n1; destruct (Nat.ltb 0 k); lia.
    - unfold n1; destruct (Nat.ltb_spec (L - 1) k); [lia|].
      apply (Hn (L - 1)%nat); lia.
    - exact Hh1s. }
  destruct (adjust_loop_exact (fun i => mk_d m i + p2_delta rqs i) (seq 1 (L - 2)) n1 h1 Hg1)
    as [E (G & K)].
  { apply Forall_forall; intros i Hi; apply in_seq in Hi; lia. }
  rewrite E; cbv zeta in *.
  assert (Em' : m' = Markers
    (fst (fold_left (p2_adjust code_linear far_any (fun i => mk_d m i + p2_delta rqs i))
            (seq 1 (L - 2)) (n1, h1)))
    (snd (fold_left (p2_adjust code_linear far_any (fun i => mk_d m i + p2_delta rqs i))
            (seq 1 (L - 2)) (n1, h1)))
    (fun i => mk_d m i + p2_delta rqs i)) by reflexivity.
  rewrite Em'; cbn [mk_n mk_h mk_d fst snd].
  destruct (K 0%nat) as [K1 K2]; [rewrite in_seq; lia|].
  destruct (K (L - 1)%nat) as [K3 K4]; [rewrite in_seq; lia|].
  split; [unfold rep; cbn [mk_n mk_h mk_d]; rewrite szadd_small by lia; reflexivity|].
  split; [exact G|].
  rewrite K1, K2, K3, K4.
  split; [unfold n1; destruct (Nat.ltb_spec (L - 1) k); [lia|rewrite Hlast; lia]|].
  split; [unfold n1; destruct (Nat.ltb_spec 0 k); [reflexivity|lia]|].
  split; unfold h1, upd.
  - destruct (Nat.eqb_spec 0 (L - 1)); [lia|]; reflexivity.
  - rewrite Nat.eqb_refl; reflexivity.
Qed.

End Exact.
