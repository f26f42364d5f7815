(** * Lemmas about block windows and leapfrogging *)

From Coq Require Import Reals ZArith NArith Bool List Lia Lra Psatz Arith.
From Verif Require Import Arith History HistoryLemmas SpecStats SpecBlocks
  Cumulative Interim WindowProofs.
Import ListNotations.

Section Blocks.
Context {A : Type}.
Variable W : nat.
Hypothesis HW : (0 < W)%nat.
Implicit Types l : list A.

Lemma cur_block_length l :
  length (cur_block W l) =
  match l with [] => 0 | _ => (length l - 1) mod W + 1 end.
Proof.
  unfold cur_block; rewrite lastn_length.
  destruct l as [|x l]; [cbn; lia|].
  cbn [length]. rewrite Nat.sub_1_r; cbn [pred].
  pose proof (Nat.mod_le (length l) W ltac:(lia)); lia.
Qed.

Lemma cur_block_le l : (length (cur_block W l) <= W)%nat.
Proof.
  rewrite cur_block_length; destruct l; [lia|].
  pose proof (Nat.mod_upper_bound (length (a :: l) - 1) W ltac:(lia)); lia.
Qed.

Lemma cur_block_pos l : l <> [] -> (1 <= length (cur_block W l))%nat.
Proof. intros H; rewrite cur_block_length; destruct l; [congruence|lia]. Qed.

Lemma skipn_skipn (a b : nat) l : skipn a (skipn b l) = skipn (a + b) l.
Proof.
  revert l; induction b as [|b IH]; intros l; [rewrite Nat.add_0_r; reflexivity|].
  destruct l as [|x l]; [rewrite !skipn_nil; reflexivity|].
  rewrite Nat.add_succ_r; apply IH.
Qed.

Lemma mod_S_small n : (n mod W + 1 < W)%nat -> ((S n) mod W = n mod W + 1)%nat.
Proof.
  intros H; symmetry; apply (Nat.mod_unique _ _ (n / W)); [exact H|].
  pose proof (Nat.div_mod n W ltac:(lia)); lia.
Qed.

Lemma mod_S_wrap n : (n mod W + 1 = W)%nat -> ((S n) mod W = 0)%nat.
Proof.
  intros H; symmetry; apply (Nat.mod_unique _ _ (n / W + 1)); [lia|].
  pose proof (Nat.div_mod n W ltac:(lia)); lia.
Qed.

Lemma lastn_S_snoc k l x : lastn (S k) (l ++ [x]) = lastn k l ++ [x].
Proof.
  unfold lastn; rewrite length_snoc.
  replace (S (length l) - S k)%nat with (length l - k)%nat by lia.
  rewrite skipn_app; replace (length l - k - length l)%nat with 0%nat by lia.
  reflexivity.
Qed.

Lemma lastn_all_firstn k l :
  firstn (length l - k) l ++ lastn k l = l.
Proof. apply firstn_skipn. Qed.

Lemma cur_block_snoc_room l x : (length (cur_block W l) < W)%nat ->
  cur_block W (l ++ [x]) = cur_block W l ++ [x] /\
  prev_block W (l ++ [x]) = prev_block W l.
Proof.
  intros H.
  assert (E : cur_block W (l ++ [x]) = cur_block W l ++ [x]).
  { destruct l as [|y l].
    { cbn [app]; unfold cur_block; cbn [length].
      rewrite Nat.sub_diag, Nat.mod_0_l by lia; reflexivity. }
    rewrite cur_block_length in H.
    unfold cur_block; rewrite length_snoc.
    replace (S (length (y :: l)) - 1)%nat with (S (length (y :: l) - 1))
      by (cbn [length]; lia).
    rewrite mod_S_small by lia.
    rewrite Nat.add_1_r with (n := ((length (y :: l) - 1) mod W + 1)%nat).
    apply lastn_S_snoc. }
  split; [exact E|].
  unfold prev_block; rewrite E, !length_snoc.
  replace (S (length l) - S (length (cur_block W l)))%nat
    with (length l - length (cur_block W l))%nat by lia.
  rewrite firstn_app.
  replace (length l - length (cur_block W l) - length l)%nat with 0%nat by lia.
  cbn [firstn]; rewrite app_nil_r; reflexivity.
Qed.

Lemma cur_block_snoc_full l x : length (cur_block W l) = W ->
  cur_block W (l ++ [x]) = [x] /\
  prev_block W (l ++ [x]) = cur_block W l.
Proof.
  intros H.
  assert (Hl : l <> []) by (intros ->; cbn in H; lia).
  assert (Hm : ((length l - 1) mod W + 1 = W)%nat)
    by (rewrite cur_block_length in H; destruct l; [congruence|exact H]).
  assert (E : cur_block W (l ++ [x]) = [x]).
  { unfold cur_block; rewrite length_snoc.
    replace (S (length l) - 1)%nat with (S (length l - 1))
      by (destruct l; [congruence|cbn [length]; lia]).
    rewrite mod_S_wrap by exact Hm.
    cbn [Nat.add]. rewrite lastn_S_snoc.
    unfold lastn; rewrite Nat.sub_0_r, skipn_all; reflexivity. }
  split; [exact E|].
  unfold prev_block; rewrite E, length_snoc; cbn [length].
  replace (S (length l) - 1)%nat with (length l) by lia.
  rewrite firstn_app, Nat.sub_diag, firstn_all, app_nil_r.
  unfold cur_block; rewrite Hm; reflexivity.
Qed.

Lemma short_blocks l : (length l <= W)%nat ->
  cur_block W l = l /\ prev_block W l = [].
Proof.
  intros H.
  assert (E : cur_block W l = l).
  { unfold cur_block; apply lastn_short.
    destruct l as [|y l]; [cbn; lia|].
    rewrite Nat.mod_small by (cbn [length] in *; lia); lia. }
  split; [exact E|].
  unfold prev_block; rewrite E, Nat.sub_diag; reflexivity.
Qed.

Lemma long_prev l : (W < length l)%nat -> length (prev_block W l) = W.
Proof.
  intros H; unfold prev_block; rewrite lastn_length, firstn_length.
  rewrite cur_block_length; destruct l as [|y l]; [cbn in H; lia|].
  set (n := length (y :: l)) in *.
  pose proof (Nat.div_mod (n - 1) W ltac:(lia)) as D.
  assert (Hq : (1 <= (n - 1) / W)%nat) by (apply Nat.div_le_lower_bound; lia).
  nia.
Qed.

Lemma prev_block_le l : (length (prev_block W l) <= W)%nat.
Proof. unfold prev_block; rewrite lastn_length; lia. Qed.

Lemma prev_block_empty l : prev_block W l = [] <-> (length l <= W)%nat.
Proof.
  split.
  - intros H; destruct (Nat.le_gt_cases (length l) W) as [|H1]; [assumption|].
    apply long_prev in H1; rewrite H in H1; cbn in H1; lia.
  - intros H; apply short_blocks, H.
Qed.

(** The two blocks together are the most recent values. *)
Lemma blocks_recent l :
  prev_block W l ++ cur_block W l =
  lastn (length (prev_block W l) + length (cur_block W l)) l.
Proof.
  destruct (Nat.le_gt_cases (length l) W) as [H|H].
  - destruct (short_blocks l H) as [-> ->]; cbn [app length].
    rewrite lastn_short by lia; reflexivity.
  - assert (Hp := long_prev l H).
    set (c := length (cur_block W l)) in *.
    assert (Hc : (c <= length l)%nat).
    { unfold c, cur_block; rewrite lastn_length; lia. }
    assert (Ec : cur_block W l = skipn (length l - c) l).
    { unfold c; rewrite cur_block_length.
      destruct l; [reflexivity|]; unfold cur_block, lastn; reflexivity. }
    rewrite Ec, Hp; unfold prev_block; fold c.
    assert (Hwc : (W + c <= length l)%nat).
    { unfold prev_block in Hp; fold c in Hp.
      rewrite lastn_length, firstn_length in Hp; lia. }
    clear Ec Hp; clearbody c.
    pose proof (firstn_skipn (length l - c) l) as E.
    assert (Ha : length (firstn (length l - c) l) = (length l - c)%nat)
      by (rewrite firstn_length; lia).
    revert E Ha; generalize (firstn (length l - c) l) (skipn (length l - c) l).
    intros a b E Ha; unfold lastn.
    replace (skipn (length l - (W + c)) l) with (skipn (length l - (W + c)) (a ++ b))
      by (rewrite E; reflexivity).
    rewrite skipn_app, Ha.
    replace (length l - (W + c) - (length l - c))%nat with 0%nat by lia.
    f_equal; f_equal; lia.
Qed.

Lemma prev_block_In l x : In x (prev_block W l) -> In x (lastn (2 * W) l).
Proof.
  intros H.
  assert (H1 : In x (prev_block W l ++ cur_block W l)) by (apply in_or_app; auto).
  rewrite blocks_recent in H1.
  pose proof (prev_block_le l); pose proof (cur_block_le l).
  revert H1; unfold lastn.
  set (k := (length (prev_block W l) + length (cur_block W l))%nat).
  replace (length l - k)%nat with ((length l - k - (length l - 2 * W)) + (length l - 2 * W))%nat by lia.
  rewrite <- skipn_skipn; intros H1.
  rewrite <- (firstn_skipn (length l - k - (length l - 2 * W))).
  apply in_or_app; right; exact H1.
Qed.

Lemma cur_block_In l x : In x (cur_block W l) -> In x (lastn (2 * W) l).
Proof.
  intros H.
  pose proof (cur_block_le l) as Hle.
  assert (Hc : (length (cur_block W l) <= length l)%nat).
  { unfold cur_block; rewrite lastn_length; lia. }
  assert (Ec : cur_block W l = lastn (length (cur_block W l)) l).
  { rewrite cur_block_length.
    destruct l; [reflexivity|]; unfold cur_block, lastn; reflexivity. }
  rewrite Ec in H; revert H; unfold lastn.
  set (k := length (cur_block W l)) in *.
  replace (length l - k)%nat with ((length l - k - (length l - 2 * W)) + (length l - 2 * W))%nat by lia.
  rewrite <- skipn_skipn; intros H1.
  rewrite <- (firstn_skipn (length l - k - (length l - 2 * W))).
  apply in_or_app; right; exact H1.
Qed.

Lemma multiple_block l k : (0 < k)%nat -> length l = (k * W)%nat ->
  cur_block W l = lastn W l /\ length (cur_block W l) = W.
Proof.
  intros Hk H.
  assert (E : ((length l - 1) mod W + 1 = W)%nat).
  { rewrite H; destruct k as [|k]; [lia|].
    replace (S k * W - 1)%nat with ((W - 1) + k * W)%nat by nia.
    rewrite Nat.mod_add, Nat.mod_small by lia; lia. }
  split; [unfold cur_block; rewrite E; reflexivity|].
  unfold cur_block; rewrite E, lastn_length; nia.
Qed.

(** ** The leapfrog state *)

Variable S : Type.
Variable cinit : S.
Variable cclear : S -> S.
Variable cpush : S -> A -> S.
Variable csize : S -> N.
Hypothesis HW64 : (N.of_nat W < szmod)%N.
Hypothesis Hclear : forall s, cclear s = cinit.
Hypothesis Hsize : forall l, (N.of_nat (length l) < szmod)%N ->
  csize (fold_left cpush l cinit) = N.of_nat (length l).

Lemma duo_fold l :
  fold_left (duo_push (N.of_nat W) cclear cpush csize) l (duo_init cinit) =
  Duo (fold_left cpush (cur_block W l) cinit)
      (fold_left cpush (prev_block W l) cinit).
Proof.
  induction l as [|x l IH] using rev_ind; [reflexivity|].
  rewrite fold_left_app, IH; cbn [fold_left]; clear IH.
  pose proof (cur_block_le l) as Hle.
  unfold duo_push; cbn [active passive].
  rewrite Hsize by lia.
  destruct (N.leb_spec (N.of_nat W) (N.of_nat (length (cur_block W l)))) as [H|H].
  - destruct (cur_block_snoc_full l x) as [-> ->]; [lia|].
    cbn [active passive]; rewrite Hclear; reflexivity.
  - destruct (cur_block_snoc_room l x) as [-> ->]; [lia|].
    cbn [active passive]; rewrite fold_left_app; reflexivity.
Qed.

Lemma duo_clear_init (d : duo S) : duo_clear cclear d = duo_init cinit.
Proof. unfold duo_clear; rewrite !Hclear; reflexivity. Qed.

Lemma duo_run ops :
  run (duo_push (N.of_nat W) cclear cpush csize) (duo_clear cclear)
      (duo_init cinit) ops =
  Duo (fold_left cpush (cur_block W (since_clear ops)) cinit)
      (fold_left cpush (prev_block W (since_clear ops)) cinit).
Proof. rewrite run_since_clear by apply duo_clear_init; apply duo_fold. Qed.

Variable cempty : S -> bool.
Hypothesis Hempty : forall s, cempty s = N.eqb (csize s) 0.

Lemma duo_book l : let d := Duo (fold_left cpush (cur_block W l) cinit)
                                (fold_left cpush (prev_block W l) cinit) in
  let n := N.min (N.of_nat W) (N.of_nat (length l)) in
  duo_size (N.of_nat W) csize cempty d = n /\
  duo_empty (N.of_nat W) csize cempty d = N.eqb n 0 /\
  duo_full (N.of_nat W) csize cempty d = N.eqb n (N.of_nat W).
Proof.
  intros d n.
  assert (Hs : duo_size (N.of_nat W) csize cempty d = n /\
               duo_full (N.of_nat W) csize cempty d = N.eqb n (N.of_nat W)).
  { unfold duo_size, duo_full, d; cbn [active passive].
    rewrite Hempty, !Hsize by
      (pose proof (cur_block_le l); pose proof (prev_block_le l); lia).
    destruct (Nat.le_gt_cases (length l) W) as [H|H].
    - destruct (short_blocks l H) as [-> ->]; cbn [length].
      unfold n; rewrite N.min_r by lia; cbn.
      rewrite orb_false_r; auto.
    - rewrite (long_prev l H).
      destruct (N.eqb_spec (N.of_nat W) 0) as [H0|H0]; [lia|].
      unfold n; rewrite N.min_l by lia; rewrite N.eqb_refl.
      cbn; rewrite orb_true_r; auto. }
  destruct Hs as [Hs Hf]; split; [exact Hs|]; split; [|exact Hf].
  unfold duo_empty; rewrite Hs; reflexivity.
Qed.

End Blocks.
