(** * P-square: the second marker stays strictly above the minimum *)

From Coq Require Import Reals ZArith NArith Bool List Lia Lra.
From Verif Require Import Arith Buffer SpecPsquare Psquare PsquareLemmas PsquareGeneric PsquareExact PsquareStats PsquareSpread.
Import ListNotations.
Local Open Scope R_scope.

Section Above.
Variable eps : R.
Variable rqs : list R.
Notation L := (parameter_length (exact eps) (map Fin rqs : list (exact eps))).
Hypothesis HL64 : (Z.of_nat L < M64)%Z.
Notation good := (good eps rqs).

Lemma linear_ge s (n : nat -> Z) h i : good n h -> (0 < i)%nat -> (S i < L)%nat -> (s = 1 \/ s = -1)%Z ->
  let j := Z.to_nat (Z.of_nat i + s) in h i <= code_linear s (h i) (h j) (n j - n i).
Proof.
  intros Hg H0 H1 Hs. cbv zeta. destruct (step_facts eps rqs n h i Hg H0 H1) as (A1 & A2 & A3 & A4 & A5 & S1 & S2).
  unfold code_linear. destruct Hs as [->| ->].
  - replace (Z.to_nat (Z.of_nat i + 1)) with (i + 1)%nat by lia. rewrite Z.mod_small by (change (Z.of_N szmod) with M64; lia).
    assert (G : 0 <= (h (i + 1)%nat - h i) / IZR (n (i + 1)%nat - n i)); [|lra].
    apply Rmult_le_pos; [lra|]. left. apply Rinv_0_lt_compat. apply (IZR_lt 0). lia.
  - replace (Z.to_nat (Z.of_nat i + -1)) with (i - 1)%nat by lia.
    assert (G : 0 <= (h i - h (i - 1)%nat) / IZR ((n (i - 1)%nat - n i) mod Z.of_N szmod)).
    { apply Rmult_le_pos; [lra|]. 
      assert (B : (0 <= (n (i - 1)%nat - n i) mod Z.of_N szmod)%Z) by (apply Z.mod_pos_bound; reflexivity).
      destruct (Z.eq_dec ((n (i - 1)%nat - n i) mod Z.of_N szmod) 0) as [E|E]; [rewrite E, Rinv_0; lra|].
      left. apply Rinv_0_lt_compat. apply (IZR_lt 0). lia. }
    unfold Rdiv in *. nra.
Qed.

Lemma adjust_above d n h i : good n h -> (0 < i)%nat -> (S i < L)%nat -> h 0%nat < h 1%nat ->
  let nh := p2_adjust code_linear far_any d (n, h) i in
  good (fst nh) (snd nh) /\ snd nh 0%nat < snd nh 1%nat.
Proof.
  intros Hg H0 H1 Hh. cbv zeta. destruct (adjust_exact eps rqs HL64 n h i Hg H0 H1 d) as [_ (G & _ & K)]. cbv zeta in G, K.
  split; [exact G|]. destruct (Nat.eq_dec i 1) as [->|N]; [|rewrite !K by lia; exact Hh].
  rewrite (K 0%nat) by lia. unfold p2_adjust.
  destruct (Z.eq_dec (p2_sign far_any d n 1) 0) as [E|E]; [exact Hh|]. cbn [snd]. rewrite upd_same.
  assert (Hs : (p2_sign far_any d n 1 = 1 \/ p2_sign far_any d n 1 = -1)%Z).
  { unfold p2_sign in *. destruct (far_any (d 1%nat - IZR (n 1%nat))); [destruct (Z_lt_dec _ _); lia|].
    destruct (far_any _); [destruct (Z_lt_dec _ _); lia|lia]. }
  set (s := p2_sign far_any d n 1) in *. pose proof (linear_ge s n h 1 Hg H0 H1 Hs) as Gl. cbv zeta in Gl.
  unfold p2_height. cbn [Nat.sub].
  destruct (Rlt_dec _ _) as [Q|Q]; [|lra]. destruct (Rlt_dec _ _); [exact Q|lra].
Qed.

Lemma loop_above d idx : Forall (fun i => 0 < i /\ S i < L)%nat idx -> forall n h, good n h -> h 0%nat < h 1%nat ->
  let nh := fold_left (p2_adjust code_linear far_any d) idx (n, h) in snd nh 0%nat < snd nh 1%nat.
Proof.
  induction 1 as [|i idx [H0 H1] Hf IH]; intros n h Hg Hh; cbn [fold_left]; [exact Hh|].
  pose proof (adjust_above d n h i Hg H0 H1 Hh) as [G1 G2].
  destruct (p2_adjust code_linear far_any d (n, h) i) as [n' h']. apply IH; assumption.
Qed.

Lemma push_above l x : (L <= length l)%nat -> (N.of_nat (S (length l)) < szmod)%N ->
  mk_h (run_markers eps rqs l) 0%nat <= x -> mk_h (run_markers eps rqs l) 0%nat < mk_h (run_markers eps rqs l) 1%nat ->
  mk_h (run_markers eps rqs (l ++ [x])) 0%nat < mk_h (run_markers eps rqs (l ++ [x])) 1%nat.
Proof.
  intros Hl Hs Hx Hh. rewrite run_markers_snoc by exact Hl.
  destruct (long_exact eps rqs HL64 l Hl ltac:(lia)) as (_ & Hg & Hn).
  set (m := run_markers eps rqs l) in *. unfold p2_push. cbn [mk_h].
  assert (L3 : (3 <= L)%nat) by apply L_ge3.
  apply loop_above.
  - apply Forall_forall. intros i Hi. apply in_seq in Hi. lia.
  - destruct Hg as [G1 G2 G3 G4]. set (k := Nat.min _ _). assert (Hk : (k <= L - 1)%nat) by apply Nat.le_min_l.
    constructor.
    + intros i Hi. specialize (G1 i Hi). destruct (Nat.ltb_spec i k), (Nat.ltb_spec (S i) k); lia.
    + destruct (Nat.ltb_spec 0 k); lia.
    + destruct (Nat.ltb_spec (L - 1) k); [lia|]. rewrite Hn. change M64 with (Z.of_N szmod). lia.
    + intros i Hi. pose proof (G4 i Hi) as A. rewrite Rmin_right by exact Hx.
      destruct (Nat.eq_dec (S i) (L - 1)) as [E|E].
      * rewrite E, upd_same. rewrite upd_other by lia. 
        assert (B : upd (mk_h m) 0 (mk_h m 0%nat) i = mk_h m i) by (destruct (Nat.eq_dec i 0) as [->|N]; [apply upd_same|apply upd_other; exact N]).
        rewrite B, <- E. eapply Rle_trans; [exact A|apply Rmax_r].
      * rewrite !upd_other by lia. destruct (Nat.eq_dec i 0) as [->|N]; [rewrite upd_same, ?upd_other by lia; exact A|].
        rewrite !upd_other by lia. exact A.
  - rewrite Rmin_right by exact Hx. rewrite (upd_other _ _ _ 0%nat) by lia. rewrite upd_same.
    destruct (Nat.eq_dec 1 (L - 1)) as [E|E]; [lia|]. rewrite upd_other by lia. rewrite upd_other by lia. exact Hh.
Qed.

End Above.
