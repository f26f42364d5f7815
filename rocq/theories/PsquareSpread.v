(** * P-square on values that extend their range by a fixed step *)

From Coq Require Import Reals ZArith NArith Bool List Lia Lra Sorting.Sorted Sorting.Permutation.
From Verif Require Import SpecPsquare SpecSpread.
Import ListNotations.
Local Open Scope R_scope.

Lemma filter_all {A} (f : A -> bool) l : (forall x, In x l -> f x = true) -> filter f l = l.
Proof. induction l as [|x l IH]; intros H; cbn; [reflexivity|]. rewrite (H x) by (left; reflexivity). f_equal. apply IH. intros y Hy. apply H. right. exact Hy. Qed.
Lemma filter_none {A} (f : A -> bool) l : (forall x, In x l -> f x = false) -> filter f l = [].
Proof. induction l as [|x l IH]; intros H; cbn; [reflexivity|]. rewrite (H x) by (left; reflexivity). apply IH. intros y Hy. apply H. right. exact Hy. Qed.

Section Line.
Variable linear : Z -> R -> R -> Z -> R.
Variable far : R -> bool.
Variable len : nat.
Variable delta : nat -> R.
Variable d : R.
Hypothesis Hd : 0 < d.
Hypothesis Hlen : (3 <= len)%nat.

(** Positions increase, and heights are an affine function of them. *)
Record online (c : R) (n : nat -> Z) (h : nat -> R) : Prop := {
  on_inc : forall i, (S i < len)%nat -> (n i < n (S i))%Z;
  on_line : forall i, (i < len)%nat -> h i = c + d * IZR (n i)
}.

Lemma upd_same {A} (f : nat -> A) i v : upd f i v i = v.
Proof. unfold upd. rewrite Nat.eqb_refl. reflexivity. Qed.
Lemma upd_other {A} (f : nat -> A) i v j : j <> i -> upd f i v j = f j.
Proof. intros H. unfold upd. destruct (Nat.eqb_spec j i); [contradiction|reflexivity]. Qed.

Lemma parabolic_line c n h i s : online c n h -> (0 < i)%nat -> (S i < len)%nat -> p2_parabolic n h i s = h i + d * IZR s.
Proof.
  intros [Hi Hl] H0 H1. unfold p2_parabolic.
  pose proof (Hi i H1) as A1. pose proof (Hi (i - 1)%nat ltac:(lia)) as A2. replace (S (i - 1)) with i in A2 by lia.
  replace (i + 1)%nat with (S i) by lia. rewrite !Hl by lia.
  rewrite !plus_IZR, !minus_IZR. apply IZR_lt in A1, A2. field. lra.
Qed.

Lemma adjust_online c dd n h i : online c n h -> (0 < i)%nat -> (S i < len)%nat ->
  let nh := p2_adjust linear far dd (n, h) i in
  online c (fst nh) (snd nh) /\ (forall j, j <> i -> fst nh j = n j).
Proof.
  intros Ho H0 H1. cbv zeta. unfold p2_adjust.
  destruct (Z.eq_dec (p2_sign far dd n i) 0) as [E|E]; [cbn; auto|]. cbn [fst snd].
  split; [|intros j Hj; apply upd_other; exact Hj].
  pose proof Ho as [Hi Hl].
  pose proof (Hi i H1) as A1. pose proof (Hi (i - 1)%nat ltac:(lia)) as A2. replace (S (i - 1)) with i in A2 by lia.
  set (s := p2_sign far dd n i) in *.
  assert (Hs : (s = 1 /\ n i + 1 < n (S i) \/ s = -1 /\ n (i - 1)%nat < n i - 1)%Z).
  { unfold s, p2_sign in *. replace (i + 1)%nat with (S i) in * by lia.
    destruct (far (dd i - IZR (n i))); [destruct (Z_lt_dec 1 (n (S i) - n i)); lia|].
    destruct (far (IZR (n i) - dd i)); [destruct (Z_lt_dec 1 (n i - n (i - 1)%nat)); lia|lia]. }
  assert (Eh : p2_height linear n h i s = h i + d * IZR s).
  { unfold p2_height. rewrite (parabolic_line c n h i s Ho H0 H1). replace (i + 1)%nat with (S i) by lia.
    rewrite !(Hl i), (Hl (i - 1)%nat), (Hl (S i)) by lia. 
    assert (B1 : (n (i - 1)%nat < n i + s)%Z) by lia. assert (B2 : (n i + s < n (S i))%Z) by lia.
    apply IZR_lt in B1, B2. rewrite plus_IZR in B1, B2.
    apply (Rmult_lt_compat_l d _ _ Hd) in B1, B2.
    destruct (Rlt_dec _ _); [destruct (Rlt_dec _ _); [reflexivity|exfalso; lra]|exfalso; lra]. }
  constructor.
  - intros j Hj. destruct (Nat.eq_dec j i) as [->|N].
    + rewrite upd_same, upd_other by lia. lia.
    + rewrite (upd_other n i _ j N). destruct (Nat.eq_dec (S j) i) as [E1|N1].
      * rewrite E1, upd_same. replace (i - 1)%nat with j in * by lia. lia.
      * rewrite upd_other by exact N1. apply Hi. exact Hj.
  - intros j Hj. destruct (Nat.eq_dec j i) as [->|N].
    + rewrite !upd_same, Eh, Hl, plus_IZR by lia. ring.
    + rewrite !upd_other by exact N. apply Hl. exact Hj.
Qed.

Lemma loop_online c dd idx : Forall (fun i => 0 < i /\ S i < len)%nat idx -> forall n h, online c n h ->
  let nh := fold_left (p2_adjust linear far dd) idx (n, h) in
  online c (fst nh) (snd nh) /\ (forall j, ~ In j idx -> fst nh j = n j).
Proof.
  induction 1 as [|i idx [H0 H1] Hf IH]; intros n h Ho; cbn [fold_left]; [cbn; auto|].
  pose proof (adjust_online c dd n h i Ho H0 H1) as [O1 O2].
  destruct (p2_adjust linear far dd (n, h) i) as [n' h']. cbn [fst snd] in O1, O2.
  destruct (IH n' h' O1) as [O3 O4]. split; [exact O3|]. intros j Hj. rewrite O4 by (intros Q; apply Hj; right; exact Q).
  apply O2. intros ->. apply Hj. left. reflexivity.
Qed.

Lemma online_le c n h i j : online c n h -> (i <= j)%nat -> (j < len)%nat -> h i <= h j.
Proof.
  intros [Hi Hl] Hij Hj. assert (G : (n i <= n j)%Z).
  { induction Hij as [|j Hij IH]; [lia|]. specialize (IH ltac:(lia)). specialize (Hi j Hj). lia. }
  rewrite !Hl by lia. apply IZR_le in G. apply (Rmult_le_compat_l d) in G; lra.
Qed.

(** One push at the upper or the lower end. *)
Lemma push_up c m x : online c (mk_n m) (mk_h m) -> x = mk_h m (len - 1)%nat + d ->
  let m' := p2_push linear far len delta m x in
  online c (mk_n m') (mk_h m') /\ mk_n m' 0%nat = mk_n m 0%nat /\ mk_n m' (len - 1)%nat = (mk_n m (len - 1)%nat + 1)%Z.
Proof.
  intros Ho Ex. cbv zeta. unfold p2_push. cbn [mk_n mk_h].
  pose proof (online_le _ _ _ 0%nat (len - 1)%nat Ho ltac:(lia) ltac:(lia)) as H0.
  rewrite Rmin_right by lra. rewrite Rmax_left by lra.
  set (h := upd (upd (mk_h m) 0 (mk_h m 0%nat)) (len - 1) x).
  assert (Hh : forall i, (i < len - 1)%nat -> h i = mk_h m i).
  { intros i Hi. unfold h. rewrite upd_other by lia. destruct (Nat.eq_dec i 0) as [->|N]; [apply upd_same|apply upd_other; exact N]. }
  assert (Hl : h (len - 1)%nat = x) by apply upd_same.
  assert (Hb : p2_below len h x = len).
  { unfold p2_below. rewrite filter_all; [apply seq_length|]. intros i Hi. apply in_seq in Hi.
    destruct (Rle_dec (h i) x) as [|N]; [reflexivity|]. exfalso. apply N. destruct (Nat.eq_dec i (len - 1)) as [->|Ni]; [lra|].
    rewrite Hh by lia. pose proof (online_le _ _ _ i (len - 1)%nat Ho ltac:(lia) ltac:(lia)). lra. }
  rewrite Hb, Nat.min_l by lia.
  set (n := fun i => if Nat.ltb i (len - 1) then mk_n m i else (mk_n m i + 1)%Z).
  assert (Hn : online c n h).
  { destruct Ho as [Hi Hlin]. constructor.
    - intros i Hi'. specialize (Hi i Hi'). unfold n. destruct (Nat.ltb_spec i (len - 1)), (Nat.ltb_spec (S i) (len - 1)); lia.
    - intros i Hi'. unfold n. destruct (Nat.ltb_spec i (len - 1)) as [Q|Q]; [rewrite Hh by exact Q; apply Hlin; exact Hi'|].
      replace i with (len - 1)%nat by lia. rewrite Hl, Ex, Hlin, plus_IZR by lia. ring. }
  destruct (loop_online c (fun i => mk_d m i + delta i) (seq 1 (len - 2))) with (n := n) (h := h) as [L1 L2].
  - apply Forall_forall. intros i Hi. apply in_seq in Hi. lia.
  - exact Hn.
  - split; [exact L1|]. split; rewrite L2; try (rewrite in_seq; lia); unfold n.
    + destruct (Nat.ltb_spec 0 (len - 1)); [reflexivity|lia].
    + destruct (Nat.ltb_spec (len - 1) (len - 1)); [lia|reflexivity].
Qed.

Lemma push_down c m x : online c (mk_n m) (mk_h m) -> x = mk_h m 0%nat - d ->
  let m' := p2_push linear far len delta m x in
  online (c - d) (mk_n m') (mk_h m') /\ mk_n m' 0%nat = mk_n m 0%nat /\ mk_n m' (len - 1)%nat = (mk_n m (len - 1)%nat + 1)%Z.
Proof.
  intros Ho Ex. cbv zeta. unfold p2_push. cbn [mk_n mk_h].
  pose proof (online_le _ _ _ 0%nat (len - 1)%nat Ho ltac:(lia) ltac:(lia)) as H0.
  rewrite Rmin_left by lra. rewrite Rmax_right by lra.
  set (h := upd (upd (mk_h m) 0 x) (len - 1) (mk_h m (len - 1)%nat)).
  assert (Hh : forall i, (0 < i)%nat -> h i = mk_h m i).
  { intros i Hi. unfold h. destruct (Nat.eq_dec i (len - 1)) as [->|N]; [apply upd_same|rewrite !upd_other by lia; reflexivity]. }
  assert (Hl : h 0%nat = x) by (unfold h; rewrite upd_other by lia; apply upd_same).
  assert (Hb : p2_below len h x = 1%nat).
  { unfold p2_below. replace len with (S (len - 1)) at 1 by lia. cbn [seq filter].
    destruct (Rle_dec (h 0%nat) x) as [_|N]; [|exfalso; lra]. cbn [length]. f_equal.
    rewrite filter_none; [reflexivity|]. intros i Hi. apply in_seq in Hi.
    destruct (Rle_dec (h i) x) as [N|]; [|reflexivity]. exfalso. rewrite Hh in N by lia.
    pose proof (online_le _ _ _ 0%nat i Ho ltac:(lia) ltac:(lia)). lra. }
  rewrite Hb, Nat.min_r by lia.
  set (n := fun i => if Nat.ltb i 1 then mk_n m i else (mk_n m i + 1)%Z).
  assert (Hn : online (c - d) n h).
  { destruct Ho as [Hi Hlin]. constructor.
    - intros i Hi'. specialize (Hi i Hi'). unfold n. destruct (Nat.ltb_spec i 1), (Nat.ltb_spec (S i) 1); lia.
    - intros i Hi'. unfold n. destruct (Nat.ltb_spec i 1) as [Q|Q].
      + replace i with 0%nat by lia. rewrite Hl, Ex, Hlin by lia. ring.
      + rewrite Hh, Hlin, plus_IZR by lia. ring. }
  destruct (loop_online (c - d) (fun i => mk_d m i + delta i) (seq 1 (len - 2))) with (n := n) (h := h) as [L1 L2].
  - apply Forall_forall. intros i Hi. apply in_seq in Hi. lia.
  - exact Hn.
  - split; [exact L1|]. split; rewrite L2; try (rewrite in_seq; lia); unfold n.
    + reflexivity.
    + destruct (Nat.ltb_spec (len - 1) 1); [lia|reflexivity].
Qed.
End Line.

Section Spread.
Variable d a : R.
Hypothesis Hd : 0 < d.

Definition downs (ups : list bool) : nat := length (filter negb ups).
Definition rises (ups : list bool) : nat := length (filter (fun b => b) ups).
Definition low (ups : list bool) : R := a - d * INR (downs ups).
Definition high (ups : list bool) : R := a + d * INR (rises ups).
Definition prog (lo : R) (n : nat) : list R := map (fun j => lo + d * INR j) (seq 0 n).

Lemma downs_rises ups : (downs ups + rises ups = length ups)%nat.
Proof. unfold downs, rises. induction ups as [|[|] t IH]; cbn in *; lia. Qed.

Lemma spread_from_snoc ups b : forall lo hi, spread_from d lo hi (ups ++ [b]) =
  spread_from d lo hi ups ++ [if b then hi + d * INR (rises ups) + d else lo - d * INR (downs ups) - d].
Proof.
  unfold downs, rises. induction ups as [|[|] t IH]; intros lo hi; cbn [app spread_from].
  - cbn. destruct b; f_equal; ring.
  - cbn [filter negb]. rewrite IH. cbn [app]. do 2 f_equal. cbn [length]. rewrite S_INR. destruct b; f_equal; ring.
  - cbn [filter negb]. rewrite IH. cbn [app]. do 2 f_equal. cbn [length]. rewrite S_INR. destruct b; f_equal; ring.
Qed.

Lemma spread_snoc ups b : spread d a (ups ++ [b]) = spread d a ups ++ [if b then high ups + d else low ups - d].
Proof. unfold spread. rewrite spread_from_snoc. reflexivity. Qed.

Lemma spread_length ups : length (spread d a ups) = S (length ups).
Proof.
  unfold spread. cbn [length]. f_equal. generalize a at 1 as lo. generalize a as hi.
  induction ups as [|[|] t IH]; intros hi lo; cbn; [reflexivity| |]; rewrite IH; reflexivity.
Qed.

Lemma range ups : high ups = low ups + d * INR (length ups).
Proof. unfold high, low. rewrite <- downs_rises, plus_INR. ring. Qed.

Lemma low_snoc ups b : low (ups ++ [b]) = if b then low ups else low ups - d.
Proof.
  unfold low, downs. rewrite filter_app, app_length. destruct b; cbn [negb filter length].
  - rewrite Nat.add_0_r. reflexivity.
  - rewrite plus_INR. cbn [INR]. ring.
Qed.

Lemma prog_cons lo n : prog lo (S n) = lo :: prog (lo + d) n.
Proof.
  unfold prog. rewrite <- cons_seq, <- seq_shift, map_cons, map_map. f_equal; [cbn; ring|].
  apply map_ext. intros j. rewrite S_INR. ring.
Qed.

Lemma spread_perm ups : Permutation (spread d a ups) (prog (low ups) (S (length ups))).
Proof.
  induction ups as [|b t IH] using rev_ind.
  - unfold spread, prog, low, downs. cbn. replace (a - d * 0 + d * 0) with a by ring. apply Permutation_refl.
  - rewrite spread_snoc, low_snoc, app_length. cbn [length]. rewrite Nat.add_1_r. destruct b.
    + unfold prog. rewrite (seq_S (S (length t))), map_app. apply Permutation_app; [exact IH|]. cbn [map Nat.add].
      rewrite range. rewrite S_INR. replace (low t + d * (INR (length t) + 1)) with (low t + d * INR (length t) + d) by ring. apply Permutation_refl.
    + rewrite <- Permutation_cons_append, prog_cons. replace (low t - d + d) with (low t) by ring. apply perm_skip. exact IH.
Qed.

Lemma prog_sorted lo n : StronglySorted Rle (prog lo n).
Proof.
  unfold prog. generalize 0%nat as k. induction n as [|n IH]; intros k; cbn [seq map]; constructor; [apply IH|].
  apply Forall_forall. intros y Hy. apply in_map_iff in Hy. destruct Hy as (j & <- & Hj). apply in_seq in Hj.
  apply Rplus_le_compat_l, Rmult_le_compat_l; [lra|]. apply le_INR. lia.
Qed.

Lemma prog_nth lo n i : (i < n)%nat -> nth i (prog lo n) 0 = lo + d * INR i.
Proof.
  intros Hi. unfold prog. rewrite (nth_indep _ 0 (lo + d * INR 0)) by (rewrite map_length, seq_length; exact Hi).
  rewrite (map_nth (fun j => lo + d * INR j)), seq_nth by exact Hi. reflexivity.
Qed.

Lemma spread_order ups : order_statistics (spread d a ups) (prog (low ups) (S (length ups))).
Proof. split; [apply spread_perm|apply prog_sorted]. Qed.

Variable linear : Z -> R -> R -> Z -> R.
Variable far : R -> bool.
Variable len : nat.
Variable delta : nat -> R.
Hypothesis Hlen : (3 <= len)%nat.

Lemma firstn_spread ups : firstn len (spread d a ups) = spread d a (firstn (len - 1) ups).
Proof.
  replace len with (S (len - 1)) at 1 by lia. unfold spread. cbn [firstn]. f_equal.
  generalize (len - 1)%nat as k. generalize a at 1 3 as lo. generalize a as hi. intros hi lo k. revert hi lo ups.
  induction k as [|k IH]; intros hi lo [|[|] t]; cbn; try reflexivity; f_equal; apply IH.
Qed.

Lemma run_online ups : (len <= S (length ups))%nat ->
  let m := p2_run linear far len delta (prog (low (firstn (len - 1) ups)) len) (skipn len (spread d a ups)) in
  online len d (low ups - d) (mk_n m) (mk_h m) /\ mk_n m 0%nat = 1%Z /\ mk_n m (len - 1)%nat = Z.of_nat (S (length ups)).
Proof.
  induction ups as [|b t IH] using rev_ind; intros H m; [cbn in H; lia|].
  rewrite app_length in *. cbn [length] in *. rewrite Nat.add_1_r in *.
  destruct (Nat.eq_dec len (S (S (length t)))) as [E|NE].
  - subst m. rewrite firstn_all2 by (rewrite app_length; cbn; lia).
    rewrite skipn_all2 by (rewrite spread_length, app_length; cbn; lia). unfold p2_run. cbn [fold_left p2_start mk_n mk_h].
    split; [constructor|lia].
    + intros i Hi. lia.
    + intros i Hi. cbn [mk_h mk_n]. rewrite prog_nth by exact Hi. rewrite plus_IZR, <- INR_IZR_INZ. ring.
  - specialize (IH ltac:(lia)). revert m. cbv zeta.
    rewrite firstn_app. replace (len - 1 - length t)%nat with 0%nat by lia. cbn [firstn]. rewrite app_nil_r.
    rewrite spread_snoc, skipn_app, spread_length. replace (len - S (length t))%nat with 0%nat by lia. cbn [skipn].
    unfold p2_run in *. rewrite fold_left_app. cbn [fold_left].
    set (m0 := fold_left _ _ _) in *. destruct IH as (I1 & I2 & I3).
    pose proof (on_line _ _ _ _ _ I1 0%nat ltac:(lia)) as E0. pose proof (on_line _ _ _ _ _ I1 (len - 1)%nat ltac:(lia)) as E1.
    rewrite I2 in E0. rewrite I3 in E1. rewrite <- INR_IZR_INZ, S_INR in E1. rewrite low_snoc. destruct b.
    + destruct (push_up linear far len delta d Hd Hlen (low t - d) m0 (high t + d) I1) as (P1 & P2 & P3); [rewrite E1, range; ring|].
      split; [exact P1|]. split; [congruence|]. rewrite P3, I3. lia.
    + destruct (push_down linear far len delta d Hd Hlen (low t - d) m0 (low t - d) I1) as (P1 & P2 & P3); [rewrite E0; ring|].
      split; [exact P1|]. split; [congruence|]. rewrite P3, I3. lia.
Qed.
End Spread.
