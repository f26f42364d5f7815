(** * Interim blocks compared with the sliding window *)

From Coq Require Import Reals List Lia Lra Psatz.
From Verif Require Import History HistoryLemmas SpecStats SpecBlocks SpecInequality SpecLine StatsLemmas
  WindowProofs BlockLemmas InequalityProofs.
Import ListNotations.
Local Open Scope R_scope.

(** ** Lines *)

Lemma on_line_app a b l1 l2 : on_line a b (l1 ++ l2) ->
  on_line a b l1 /\ on_line (a + b * card l1) b l2.
Proof.
  intros H. split; intros i x E.
  - apply H. rewrite nth_error_app1; [exact E|]. apply nth_error_Some. congruence.
  - assert (G : nth_error (l1 ++ l2) (length l1 + i) = Some x).
    { rewrite nth_error_app2 by lia. replace (length l1 + i - length l1)%nat with i by lia. exact E. }
    apply H in G. rewrite G, plus_INR. unfold card. ring.
Qed.

Lemma on_line_cons a b x l : on_line a b (x :: l) -> x = a /\ on_line (a + b) b l.
Proof.
  intros H. split.
  - rewrite (H 0%nat x eq_refl). cbn. ring.
  - destruct (on_line_app a b [x] l H) as [_ G]. unfold card in G. cbn in G. rewrite Rmult_1_r in G. exact G.
Qed.

Lemma Rsum_line b l : forall a, on_line a b l -> Rsum l = card l * a + b * (card l * (card l - 1) / 2).
Proof.
  induction l as [|x l IH]; intros a H.
  - unfold card; cbn; lra.
  - destruct (on_line_cons _ _ _ _ H) as [-> G]. rewrite Rsum_cons, (IH _ G).
    unfold card. cbn [length]. rewrite S_INR. field.
Qed.

Lemma Rsumsq_line b l : forall a, on_line a b l ->
  Rsum (map (fun x => x * x) l) = card l * (a * a) + a * b * (card l * (card l - 1)) +
     b * b * (card l * (card l - 1) * (2 * card l - 1) / 6).
Proof.
  induction l as [|x l IH]; intros a H.
  - unfold card; cbn; lra.
  - destruct (on_line_cons _ _ _ _ H) as [-> G]. cbn [map]. rewrite Rsum_cons, (IH _ G).
    unfold card. cbn [length]. rewrite S_INR. field.
Qed.

Lemma mean_line a b l : l <> [] -> on_line a b l -> mean l = a + b * (card l - 1) / 2.
Proof.
  intros N H. pose proof (card_pos l N). unfold mean. rewrite (Rsum_line b l a H). field. lra.
Qed.

Lemma csum2_alt l : l <> [] -> csum 2 l = Rsum (map (fun x => x * x) l) - card l * (mean l * mean l).
Proof.
  intros N. unfold csum.
  rewrite (Rsum_map_ext _ (fun x => x * x + ((-2 * mean l) * x + mean l * mean l))) by (intros; cbv beta; ring).
  rewrite Rsum_map_plus, Rsum_map_plus, (Rsum_map_scal (-2 * mean l) (fun x => x)), Rsum_map_const, map_id.
  rewrite <- (mean_card l). ring.
Qed.

Lemma variance_line a b l : l <> [] -> on_line a b l -> variance l = b * b * (card l * card l - 1) / 12.
Proof.
  intros N H. pose proof (card_pos l N). unfold variance. rewrite csum2_alt by exact N.
  rewrite (mean_line a b l N H), (Rsumsq_line b l a H). field. lra.
Qed.

(** ** The last values in terms of the blocks *)

Section Blocks.
Variable W : nat.
Hypothesis HW : (0 < W)%nat.

Lemma window_split {A} (l : list A) : (W < length l)%nat ->
  exists p1 p2, prev_block W l = p1 ++ p2 /\ length p1 = length (cur_block W l) /\
    (length p1 + length p2 = W)%nat /\ lastn W l = p2 ++ cur_block W l /\
    exists pre, lastn (2 * W) l = pre ++ p1 ++ p2 ++ cur_block W l.
Proof.
  intros L. set (c := cur_block W l). set (p := prev_block W l).
  pose proof (long_prev W HW l L) as HP. fold p in HP.
  pose proof (cur_block_le W HW l) as HC. fold c in HC.
  pose proof (blocks_recent W HW l) as HB. fold p c in HB. rewrite HP in HB.
  exists (firstn (length c) p), (skipn (length c) p).
  assert (L1 : length (firstn (length c) p) = length c) by (rewrite firstn_length; lia).
  assert (L2 : length (skipn (length c) p) = (W - length c)%nat) by (rewrite skipn_length; lia).
  split; [symmetry; apply firstn_skipn|]. split; [exact L1|]. split; [lia|].
  assert (LC : (W + length c <= length l)%nat).
  { assert (Z : length (p ++ c) = length (lastn (W + length c) l)) by (f_equal; exact HB).
    rewrite app_length, lastn_length, HP in Z. lia. }
  split.
  - transitivity (lastn W (p ++ c)).
    + rewrite HB. unfold lastn. rewrite skipn_length.
      rewrite skipn_skipn. f_equal. lia.
    + unfold lastn. rewrite app_length, HP, skipn_app.
      replace (W + length c - W)%nat with (length c) by lia.
      rewrite HP. replace (length c - W)%nat with 0%nat by lia. reflexivity.
  - exists (firstn (Nat.min (length l) (2 * W) - (W + length c)) (lastn (2 * W) l)).
    rewrite (app_assoc (firstn (length c) p)), firstn_skipn, HB.
    set (m := lastn (2 * W) l).
    transitivity (firstn (Nat.min (length l) (2 * W) - (W + length c)) m ++ skipn (Nat.min (length l) (2 * W) - (W + length c)) m).
    + symmetry; apply firstn_skipn.
    + f_equal. unfold m, lastn. rewrite skipn_skipn. f_equal. lia.
Qed.

End Blocks.

Lemma mean_of_app l1 l2 : mean (l1 ++ l2) = (Rsum l1 + Rsum l2) / (card l1 + card l2).
Proof. unfold mean. rewrite Rsum_app. unfold card. rewrite app_length, plus_INR. reflexivity. Qed.

(** The difference of the interim mean and the mean of the window. *)
Lemma interim_gap w s S1 S2 Sc : 0 < s -> s <= w ->
  ((S1 + S2) / w * (w - s) + Sc / s * (2 * s)) / (w + s) - (S2 + Sc) / w =
  ((w - s) * (S1 + Sc) - 2 * s * S2) / (w * (w + s)).
Proof. intros. field. lra. Qed.

Lemma Rsum_range a b l : all_in a b l -> card l * a <= Rsum l <= card l * b.
Proof.
  intros H. induction l as [|x l IH].
  - unfold card; cbn; lra.
  - inversion H; subst. specialize (IH ltac:(assumption)). rewrite Rsum_cons.
    unfold card in *. cbn [length]. rewrite S_INR. lra.
Qed.

(** The factor [2 t (1 - t) / (1 + t)] is at most [6 - 4 sqrt 2]. *)
Lemma gap_max w s : 0 < w -> 0 <= s <= w -> 2 * s * (w - s) / (w * (w + s)) <= 6 - 4 * sqrt 2.
Proof.
  intros Hw Hs. pose proof (sqrt_sqrt 2 ltac:(lra)) as Q. set (r := sqrt 2) in *.
  assert (P : 0 < w * (w + s)) by (apply Rmult_lt_0_compat; lra).
  apply (Rmult_le_reg_r (w * (w + s))); [exact P|].
  replace (2 * s * (w - s) / (w * (w + s)) * (w * (w + s))) with (2 * s * (w - s)) by (field; lra).
  assert (Z : 0 <= (s - (r - 1) * w) * (s - (r - 1) * w)) by apply Rle_0_sqr.
  assert (E : (6 - 4 * r) * (w * (w + s)) - 2 * s * (w - s) =
    2 * ((s - (r - 1) * w) * (s - (r - 1) * w)) + 2 * (2 - r * r) * (w * w)) by ring.
  rewrite Q in E. lra.
Qed.

Lemma sqrt2_decimal : 6 - 4 * sqrt 2 <= 3432 / 10000.
Proof.
  assert (H : 141420 / 100000 <= sqrt 2).
  { rewrite <- (sqrt_pow2 (141420 / 100000)) by lra. apply sqrt_le_1_alt. lra. }
  lra.
Qed.
