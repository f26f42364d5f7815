(** * Propagation of NaN in binary64 *)

From Coq Require Import Reals ZArith NArith Bool List Arith Lia Lra.
From Coq Require Import Floats.SpecFloat.
From Flocq Require Import Core Sterbenz.
From Flocq Require Import IEEE754.BinarySingleNaN.
From Verif Require Import Arith History HistoryLemmas Buffer Cumulative CumulativeProofs
  Window WindowProofs Decay Interim SpecBlocks BlockLemmas InterimStats Impulse ImpulseRuns
  ImpulseProofs Binary64 Binary64Cumulative DecayProofs.
Import ListNotations.

Notation nan64 := (S754_nan : b64num).

(** ** Operations *)

Lemma add_nan_l (x : b64num) : nadd nan64 x = nan64. Proof. destruct x; reflexivity. Qed.
Lemma add_nan_r (x : b64num) : nadd x nan64 = nan64. Proof. destruct x as [[]|[]| |[]]; reflexivity. Qed.
Lemma sub_nan_l (x : b64num) : nsub nan64 x = nan64. Proof. destruct x; reflexivity. Qed.
Lemma sub_nan_r (x : b64num) : nsub x nan64 = nan64. Proof. destruct x as [[]|[]| |[]]; reflexivity. Qed.
Lemma mul_nan_l (x : b64num) : nmul nan64 x = nan64. Proof. destruct x; reflexivity. Qed.
Lemma mul_nan_r (x : b64num) : nmul x nan64 = nan64. Proof. destruct x as [[]|[]| |[]]; reflexivity. Qed.
Lemma div_nan_l (x : b64num) : ndiv nan64 x = nan64. Proof. destruct x; reflexivity. Qed.
Lemma div_nan_r (x : b64num) : ndiv x nan64 = nan64. Proof. destruct x as [[]|[]| |[]]; reflexivity. Qed.

Ltac nans := repeat first
  [ rewrite add_nan_l | rewrite add_nan_r | rewrite sub_nan_l | rewrite sub_nan_r
  | rewrite mul_nan_l | rewrite mul_nan_r | rewrite div_nan_l | rewrite div_nan_r ].

(** ** Sticky states *)

Lemma sticky {S A} (push : S -> A -> S) clear init (Inv Bad : S -> Prop) (v : A) :
  Inv init -> (forall s a, Inv s -> Inv (push s a)) -> (forall s, Inv s -> Inv (clear s)) ->
  (forall s, Inv s -> Bad (push s v)) -> (forall s a, Inv s -> Bad s -> Bad (push s a)) ->
  forall ops, In v (since_clear ops) -> Bad (run push clear init ops).
Proof.
  intros Hi Hp Hc Hv Hs.
  assert (HI : forall ops, Inv (run push clear init ops)).
  { induction ops as [|o ops IH] using rev_ind; [exact Hi|].
    rewrite run_app. destruct o; cbn; auto. }
  induction ops as [|o ops IH] using rev_ind; [intros []|].
  rewrite run_app. destruct o as [a|]; cbn [run fold_left step].
  - rewrite since_clear_snoc_push. intros H. apply in_app_or in H. destruct H as [H|[->|[]]].
    + apply Hs; [apply HI|]. apply IH. exact H.
    + apply Hv, HI.
  - rewrite since_clear_snoc_clear. intros [].
Qed.

Lemma sticky0 {S A} (push : S -> A -> S) clear init (Bad : S -> Prop) (v : A) :
  (forall s, Bad (push s v)) -> (forall s a, Bad s -> Bad (push s a)) ->
  forall ops, In v (since_clear ops) -> Bad (run push clear init ops).
Proof. intros H1 H2. apply (sticky push clear init (fun _ => True)); auto. Qed.

(** ** Cumulative *)

Lemma cmean_push_nan (s : cmean b64num) : cm_mean _ (cmean_push _ s nan64) = nan64.
Proof. cbn [cmean_push cm_mean]. nans. reflexivity. Qed.
Lemma cmean_push_stays (s : cmean b64num) x :
  cm_mean _ s = nan64 -> cm_mean _ (cmean_push _ s x) = nan64.
Proof. intros H. cbn [cmean_push cm_mean]. rewrite H. nans. reflexivity. Qed.

Lemma cvar_push_nan (s : cvar b64num) :
  cm_mean _ (cv_super _ (cvar_push _ s nan64)) = nan64 /\ cv_sum _ (cvar_push _ s nan64) = nan64.
Proof.
  split; [apply cmean_push_nan|]. unfold cvar_push. cbn [cv_sum].
  unfold cmean_mean. rewrite cmean_push_nan. nans. reflexivity.
Qed.
Lemma cvar_push_stays (s : cvar b64num) x :
  cm_mean _ (cv_super _ s) = nan64 /\ cv_sum _ s = nan64 ->
  cm_mean _ (cv_super _ (cvar_push _ s x)) = nan64 /\ cv_sum _ (cvar_push _ s x) = nan64.
Proof.
  intros [H1 H2]. split; [apply cmean_push_stays; exact H1|]. unfold cvar_push. cbn [cv_sum].
  rewrite H2. nans. reflexivity.
Qed.

(** ** Window *)

Section Window.
Variable W : nat.
Hypothesis HW : (0 < W)%nat.

Lemma full_front {A} (w : list A) : rb_full W w = true -> exists a, rb_front w = Some a.
Proof.
  unfold rb_full. destruct w as [|a w]; [|exists a; reflexivity].
  destruct W; [lia|]. discriminate.
Qed.

Lemma wmean_push_nan (s : wmean b64num) : wm_mean _ (wmean_push _ W s nan64) = nan64.
Proof.
  cbn [wmean_push wm_mean]. destruct (wmean_full _ W s) eqn:E.
  - destruct (full_front _ E) as (a & ->). nans. reflexivity.
  - nans. reflexivity.
Qed.
Lemma wmean_push_stays (s : wmean b64num) x :
  wm_mean _ s = nan64 -> wm_mean _ (wmean_push _ W s x) = nan64.
Proof.
  intros H. cbn [wmean_push wm_mean]. destruct (wmean_full _ W s) eqn:E.
  - destruct (full_front _ E) as (a & ->). rewrite H. nans. reflexivity.
  - rewrite H. nans. reflexivity.
Qed.
Lemma wvar_push_nan (s : wvar b64num) :
  wm_mean _ (wv_super _ (wvar_push _ W s nan64)) = nan64 /\ wv_sum _ (wvar_push _ W s nan64) = nan64.
Proof.
  unfold wvar_push. destruct (wmean_full _ W (wv_super _ s)) eqn:E.
  - destruct (full_front _ E) as (a & ->). cbn [wv_super wv_sum wm_mean]. unfold wvar_delta.
    nans. split; reflexivity.
  - cbn [wv_super wv_sum wm_mean]. unfold wvar_delta. nans. split; reflexivity.
Qed.
Lemma wvar_push_stays (s : wvar b64num) x :
  wm_mean _ (wv_super _ s) = nan64 /\ wv_sum _ s = nan64 ->
  wm_mean _ (wv_super _ (wvar_push _ W s x)) = nan64 /\ wv_sum _ (wvar_push _ W s x) = nan64.
Proof.
  intros [H1 H2]. unfold wvar_push. destruct (wmean_full _ W (wv_super _ s)) eqn:E.
  - destruct (full_front _ E) as (a & ->). cbn [wv_super wv_sum wm_mean].
    rewrite H1, H2. nans. split; reflexivity.
  - cbn [wv_super wv_sum wm_mean]. rewrite H1, H2. nans. split; reflexivity.
Qed.
End Window.

(** ** Decay *)

Definition okf (f : b64num) : Prop := b64_finite f /\ (0 < b64_real f <= 1)%R.

Lemma factor_okf f : b64_finite f -> factor_ok b64num f = true -> okf f.
Proof.
  intros Hf H. unfold factor_ok in H. apply andb_true_iff in H. destruct H as [H1 H2].
  assert (Z0 : denotes (b64_of_Z 0) 0) by apply denotes_zero.
  destruct (of_Z_exact 1 ltac:(lia)) as [F1 R1].
  change (SFltb (b64_of_Z 0) f = true) in H1. change (SFleb f (b64_of_Z 1) = true) in H2.
  destruct Z0 as [F0 R0]. rewrite ltb_real in H1 by assumption. rewrite leb_real in H2 by assumption.
  rewrite R0 in H1. rewrite R1 in H2. split; [exact Hf|].
  split; [|].
  - destruct (Rlt_bool_spec 0 (b64_real f)); [assumption|discriminate].
  - destruct (Rle_bool_spec (b64_real f) 1); [assumption|discriminate].
Qed.

(** A normalisation as the pushes leave it. *)
Definition okn (n : b64num) : Prop := exists r, denotes n r /\ (0 <= r <= 2)%R.
Definition posn (n : b64num) : Prop := exists r, denotes n r /\ (0 < r <= 2)%R.
Lemma posn_okn n : posn n -> okn n.
Proof. intros (r & D & H). exists r. split; [exact D|lra]. Qed.
Lemma okn_0 : okn (n0 : b64num).
Proof. exists 0%R. split; [apply denotes_zero|lra]. Qed.

Lemma small_range r : (Rabs r <= 4)%R -> in_range (rnd64 r).
Proof.
  intros H. apply (in_range_rnd r 4); [apply (rep64_IZR 4); lia|exact H|].
  change 4%R with (bpow radix2 2). apply bpow_lt. lia.
Qed.

Lemma rnd64_ub x b : rep64 b -> (x <= b)%R -> (rnd64 x <= b)%R.
Proof. intros Hb H. rewrite <- (rnd64_rep b) by exact Hb. apply rnd64_le, H. Qed.
Lemma rnd64_lb x b : rep64 b -> (b <= x)%R -> (b <= rnd64 x)%R.
Proof. intros Hb H. rewrite <- (rnd64_rep b) by exact Hb. apply rnd64_le, H. Qed.

Lemma rep2 : rep64 2. Proof. apply (rep64_IZR 2); lia. Qed.
Lemma rep1 : rep64 1. Proof. apply (rep64_IZR 1); lia. Qed.

Lemma norm_step (f n : b64num) : okf f -> okn n ->
  posn (nadd n (nmul f (nsub n1 n))).
Proof.
  intros [Ff Hf] (r & D & Hr). set (g := b64_real f) in *.
  assert (D1 : denotes (b64_of_Z 1) 1) by (apply of_Z_exact; lia).
  assert (Df : denotes f g) by (split; [exact Ff|reflexivity]).
  assert (Rr : rep64 r) by (eapply denotes_rep; exact D).
  assert (Rg : rep64 g) by (eapply denotes_rep; exact Df).
  pose proof rep1 as R1. pose proof rep2 as R2.
  set (d := rnd64 (1 - r)). set (p := rnd64 (g * d)). set (q := rnd64 (r + p)).
  assert (Hd : (-1 <= d <= 1)%R).
  { unfold d. split.
    - apply rnd64_lb; [apply (rep64_IZR (-1)); lia|]. lra.
    - apply rnd64_ub; [exact rep1|]. lra. }
  assert (Hgd : (-1 <= g * d <= 1)%R).
  { assert (0 <= g * (d + 1))%R by (apply Rmult_le_pos; lra).
    assert (0 <= g * (1 - d))%R by (apply Rmult_le_pos; lra). lra. }
  assert (Hp : (-1 <= p <= 1)%R).
  { unfold p. split.
    - apply rnd64_lb; [apply (rep64_IZR (-1)); lia|]. lra.
    - apply rnd64_ub; [exact rep1|]. lra. }
  assert (Dd : denotes (SFsub 53 1024 (b64_of_Z 1) n) d).
  { apply denotes_sub; [exact D1|exact D|]. apply small_range. apply Rabs_le. lra. }
  assert (Dp : denotes (SFmul 53 1024 f (SFsub 53 1024 (b64_of_Z 1) n)) p).
  { apply denotes_mul; [exact Df|exact Dd|]. apply small_range. apply Rabs_le. lra. }
  exists q. split.
  { apply denotes_add; [exact D|exact Dp|]. apply small_range. apply Rabs_le. lra. }
  destruct (Rle_dec r 1) as [L|L].
  - assert (d0 : (0 <= d)%R) by (unfold d; apply rnd64_pos; lra).
    assert (p0 : (0 <= p)%R) by (unfold p; apply rnd64_pos; nra).
    split.
    + destruct (Req_dec r 0) as [Z|Z].
      * assert (E : d = 1%R) by (unfold d; rewrite Z, Rminus_0_r; apply rnd64_rep, rep1).
        assert (Ep : p = g) by (unfold p; rewrite E, Rmult_1_r; apply rnd64_rep, Rg).
        unfold q. rewrite Ep, Z, Rplus_0_l, rnd64_rep by exact Rg. lra.
      * apply Rlt_le_trans with r; [lra|]. unfold q. apply rnd64_lb; [exact Rr|]. lra.
    + unfold q. apply rnd64_ub; [exact rep2|]. lra.
  - assert (E : d = (1 - r)%R).
    { unfold d. apply rnd64_rep. replace (1 - r)%R with (- (r - 1))%R by ring. apply rep64_opp.
      apply sterbenz; [apply FLT_exp_valid; reflexivity|apply FLT_exp_monotone|exact Rr|exact rep1|lra]. }
    assert (p1 : (d <= p)%R).
    { unfold p. apply rnd64_lb; [unfold d; apply rnd64_is_rep|]. nra. }
    assert (p2 : (p <= 0)%R).
    { unfold p. apply rnd64_ub; [apply rep64_0|nra]. }
    split.
    + apply Rlt_le_trans with 1%R; [lra|]. unfold q. apply rnd64_lb; [exact rep1|]. lra.
    + unfold q. apply rnd64_ub; [exact rep2|]. lra.
Qed.

Lemma posn_ltb n : posn n -> nlt (n0 : b64num) n = true.
Proof.
  intros (r & [Fn Rn] & H). destruct denotes_zero as [F0 R0].
  change (SFltb (b64_of_Z 0) n = true). rewrite ltb_real by assumption. rewrite R0, Rn.
  destruct (Rlt_bool_spec 0 r); [reflexivity|lra].
Qed.

Definition dm_inv (s : dmean b64num) : Prop := okf (dm_factor _ s) /\ okn (dm_norm _ s).
Definition dm_bad (s : dmean b64num) : Prop := dm_sum _ s = nan64 /\ posn (dm_norm _ s).

Lemma dm_inv_push s x : dm_inv s -> dm_inv (dmean_push _ s x).
Proof. intros [H1 H2]. split; [exact H1|]. apply posn_okn. apply norm_step; assumption. Qed.
Lemma dm_inv_clear s : dm_inv s -> dm_inv (dmean_clear _ s).
Proof. intros [H1 H2]. split; [exact H1|apply okn_0]. Qed.
Lemma dm_push_nan s : dm_inv s -> dm_bad (dmean_push _ s nan64).
Proof.
  intros [H1 H2]. split; [|apply norm_step; assumption].
  cbn [dmean_push dm_sum]. nans. reflexivity.
Qed.
Lemma dm_push_stays s x : dm_inv s -> dm_bad s -> dm_bad (dmean_push _ s x).
Proof.
  intros [H1 H2] [H3 H4]. split; [|apply norm_step; assumption].
  cbn [dmean_push dm_sum]. rewrite H3. nans. reflexivity.
Qed.
Lemma dm_bad_mean s : dm_bad s -> dmean_mean _ s = nan64.
Proof.
  intros [H1 H2]. unfold dmean_mean. rewrite posn_ltb by exact H2. rewrite H1. nans. reflexivity.
Qed.

Definition dv_inv (s : dvar b64num) : Prop :=
  dm_inv (dv_super _ s) /\ okf (dv_factor _ s) /\ okn (dv_norm _ s).
Definition dv_bad (s : dvar b64num) : Prop :=
  dm_bad (dv_super _ s) /\ dv_sum _ s = nan64 /\ posn (dv_norm _ s).

Lemma dv_inv_push s x : dv_inv s -> dv_inv (dvar_push _ s x).
Proof.
  intros (H1 & H2 & H3). split; [apply dm_inv_push; exact H1|]. split; [exact H2|].
  apply posn_okn, norm_step; assumption.
Qed.
Lemma dv_inv_clear s : dv_inv s -> dv_inv (dvar_clear _ s).
Proof. intros (H1 & H2 & H3). split; [apply dm_inv_clear; exact H1|]. split; assumption. Qed.
Lemma dv_push_nan s : dv_inv s -> dv_bad (dvar_push _ s nan64).
Proof.
  intros (H1 & H2 & H3). split; [apply dm_push_nan; exact H1|].
  split; [|apply norm_step; assumption]. cbn [dvar_push dv_sum]. nans. reflexivity.
Qed.
Lemma dv_push_stays s x : dv_inv s -> dv_bad s -> dv_bad (dvar_push _ s x).
Proof.
  intros (H1 & H2 & H3) (B1 & B2 & B3). split; [apply dm_push_stays; assumption|].
  split; [|apply norm_step; assumption]. cbn [dvar_push dv_sum]. rewrite B2. nans. reflexivity.
Qed.
Lemma dv_bad_variance s : dv_bad s -> dvar_variance _ s = nan64.
Proof.
  intros (_ & H1 & H2). unfold dvar_variance. rewrite posn_ltb by exact H2. rewrite H1. nans. reflexivity.
Qed.

(** ** Interim *)

Lemma fold_nan {S A} (push : S -> A -> S) (Bad : S -> Prop) (v : A) init :
  (forall s, Bad (push s v)) -> (forall s a, Bad s -> Bad (push s a)) ->
  forall l, In v l -> Bad (fold_left push l init).
Proof.
  intros H1 H2 l H. apply in_split in H. destruct H as (a & b & ->).
  rewrite fold_left_app. cbn [fold_left].
  assert (G : forall b s, Bad s -> Bad (fold_left push b s)).
  { induction b0 as [|y t IH]; intros s Hs; [exact Hs|]. cbn. apply IH, H2, Hs. }
  apply G, H1.
Qed.

Lemma cmean_fold_nan (l : list b64num) : In nan64 l ->
  cm_mean _ (fold_left (cmean_push b64num) l (cmean_init b64num)) = nan64.
Proof. apply (fold_nan _ (fun s => cm_mean _ s = nan64)); [apply cmean_push_nan|intros; apply cmean_push_stays; assumption]. Qed.

Lemma imean_state (F : num) (W : nat) (ops : list (op F)) : (0 < W)%nat -> (N.of_nat W < szmod)%N ->
  run (imean_push F (N.of_nat W)) (imean_clear F) (imean_init F) ops =
  Duo (fold_left (cmean_push F) (cur_block W (since_clear ops)) (cmean_init F))
      (fold_left (cmean_push F) (prev_block W (since_clear ops)) (cmean_init F)).
Proof.
  intros HW HS. unfold imean_push, imean_clear, imean_init.
  apply (duo_run W HW _ (cmean_init F)); [exact HS|reflexivity|apply cmean_csize].
Qed.

Lemma imean_nan W ops : (0 < W)%nat -> (N.of_nat W < szmod)%N ->
  In nan64 (lastn (W + 1) (since_clear ops)) ->
  imean_mean b64num (N.of_nat W)
    (run (imean_push b64num (N.of_nat W)) (imean_clear b64num) (imean_init b64num) ops) = nan64.
Proof.
  intros HW HS H. rewrite imean_state by assumption. set (l := since_clear ops) in *.
  assert (HI : In nan64 (prev_block W l ++ cur_block W l)).
  { destruct (Nat.le_gt_cases (length l) W) as [L|L].
    - destruct (short_blocks W HW l L) as [-> ->]. rewrite lastn_short in H by lia. exact H.
    - rewrite blocks_recent by exact HW. rewrite long_prev by assumption.
      pose proof (cur_block_pos W HW l ltac:(intros E; rewrite E in L; cbn in L; lia)) as P.
      revert H. unfold lastn. intros H.
      replace (length l - (W + 1))%nat
        with (length l - (W + 1) - (length l - (W + length (cur_block W l))) +
             (length l - (W + length (cur_block W l))))%nat in H by lia.
      rewrite <- skipn_skipn in H.
      rewrite <- (firstn_skipn (length l - (W + 1) - (length l - (W + length (cur_block W l))))).
      apply in_or_app. right. exact H. }
  unfold imean_mean, duo_mean. cbn [active passive].
  apply in_app_or in HI. unfold cmean_empty, cmean_mean.
  destruct (N.eqb (cmean_size _ (fold_left (cmean_push b64num) (prev_block W l) (cmean_init b64num))) 0) eqn:E.
  - destruct HI as [HI|HI]; [|apply cmean_fold_nan; exact HI].
    apply N.eqb_eq in E. rewrite cmean_csize in E.
    + destruct (prev_block W l); [destruct HI|cbn in E; lia].
    + pose proof (prev_block_le W HW l). lia.
  - destruct HI as [HI|HI]; rewrite (cmean_fold_nan _ HI); nans; reflexivity.
Qed.

Lemma imean_recovers (F : num) W (ops1 ops2 : list (op F)) : (0 < W)%nat -> (N.of_nat W < szmod)%N ->
  length (since_clear ops1) = length (since_clear ops2) ->
  lastn (2 * W) (since_clear ops1) = lastn (2 * W) (since_clear ops2) ->
  run (imean_push F (N.of_nat W)) (imean_clear F) (imean_init F) ops1 =
  run (imean_push F (N.of_nat W)) (imean_clear F) (imean_init F) ops2.
Proof.
  intros HW HS HL HE. rewrite !imean_state by assumption.
  set (l1 := since_clear ops1) in *. set (l2 := since_clear ops2) in *.
  assert (LC : length (cur_block W l1) = length (cur_block W l2)).
  { rewrite !cur_block_length by exact HW. destruct l1, l2; try discriminate; [reflexivity|]. rewrite HL. reflexivity. }
  assert (LP : length (prev_block W l1) = length (prev_block W l2)).
  { unfold prev_block. rewrite !lastn_length, !firstn_length. rewrite LC, HL. reflexivity. }
  assert (EA : prev_block W l1 ++ cur_block W l1 = prev_block W l2 ++ cur_block W l2).
  { rewrite !blocks_recent by exact HW. rewrite <- LC, <- LP.
    pose proof (cur_block_le W HW l1). pose proof (prev_block_le W HW l1).
    set (k := (length (prev_block W l1) + length (cur_block W l1))%nat) in *.
    assert (G : forall l : list F, lastn k l = lastn k (lastn (2 * W) l)).
    { intros l. unfold lastn at 1 2. rewrite lastn_length. unfold lastn. rewrite skipn_skipn. f_equal. lia. }
    rewrite (G l1), (G l2), HE. reflexivity. }
  assert (E2 : prev_block W l1 = prev_block W l2 /\ cur_block W l1 = cur_block W l2).
  {
    revert EA LP. generalize (prev_block W l1) (prev_block W l2) (cur_block W l1) (cur_block W l2).
    clear. induction l as [|a l IH]; intros [|b l0] c d E L; try discriminate; [auto|].
    cbn in E. injection E as -> E. destruct (IH l0 c d E) as [-> ->]; [cbn in L; lia|auto]. }
  destruct E2 as [-> ->]. reflexivity.
Qed.

(** ** Impulse response *)

Lemma inner_product_nan (w c : list b64num) : In nan64 (firstn (length c) w) ->
  inner_product b64num w c = nan64.
Proof.
  intros H. unfold inner_product.
  assert (E : exists p, In p (combine w c) /\ fst p = nan64).
  { clear -H. revert c H. induction w as [|a w IH]; intros c H; [rewrite firstn_nil in H; destruct H|].
    destruct c as [|b c]; [destruct H|]. cbn in H |- *. destruct H as [->|H].
    - exists (nan64, b). auto.
    - destruct (IH c H) as (p & H1 & H2). exists p. auto. }
  destruct E as (p & H1 & H2). apply in_split in H1. destruct H1 as (u & v & ->).
  rewrite fold_left_app. cbn [fold_left]. rewrite H2. nans.
  clear. induction v as [|q v IH]; [reflexivity|]. cbn [fold_left]. rewrite add_nan_l. exact IH.
Qed.

Lemma fir_nan (c : list b64num) (ops : list (op b64num)) : c <> [] ->
  In nan64 (lastn (length c) (since_clear ops)) ->
  fir_value b64num (fir_run b64num c ops) = nan64.
Proof.
  intros Hc H. destruct (fir_state b64num c ops Hc) as (_ & _ & E). unfold fir_value.
  assert (NE : since_clear ops <> []).
  { intros X. rewrite X in H. unfold lastn in H. rewrite skipn_nil in H. destruct H. }
  rewrite (E NE). rewrite <- inner_product_recent by lia. rewrite firstn_all.
  apply inner_product_nan. rewrite firstn_firstn, Nat.min_id.
  apply in_rev. unfold lastn in H.
  rewrite <- (rev_involutive (since_clear ops)) in H. rewrite skipn_rev in H.
  rewrite rev_involutive, !rev_length in H.
  destruct (Nat.le_gt_cases (length (since_clear ops)) (length c)) as [L|L].
  - replace (length (since_clear ops) - (length (since_clear ops) - length c))%nat
      with (length (since_clear ops)) in H by lia.
    rewrite firstn_all2 in H by (rewrite rev_length; lia).
    rewrite firstn_all2 by (rewrite rev_length; lia). exact H.
  - replace (length (since_clear ops) - (length (since_clear ops) - length c))%nat
      with (length c) in H by lia. exact H.
Qed.

Lemma iir_nan (b a : list b64num) scale (ops : list (op b64num)) : b <> [] -> a <> [] ->
  In nan64 (since_clear ops) ->
  iir_value b64num (iir_run b64num b a scale ops) = nan64.
Proof.
  intros Hb Ha.
  assert (Pb : (0 < length b)%nat) by (destruct b; [congruence|cbn; lia]).
  assert (Pa : (0 < length a)%nat) by (destruct a; [congruence|cbn; lia]).
  assert (V : forall s, (exists t, iir_output s = nan64 :: t) -> iir_value b64num s = nan64).
  { intros s (t & E). unfold iir_value. rewrite E. reflexivity. }
  intros H. apply V. revert H. unfold iir_run.
  apply (sticky _ _ _ (fun s => iir_input_coefficients s = b /\ iir_output_coefficients s = a)
    (fun s => exists t, iir_output s = nan64 :: t)).
  - split; reflexivity.
  - intros s x [H1 H2]. split; assumption.
  - intros s [H1 H2]. split; assumption.
  - intros s [H1 H2]. unfold iir_push. cbn [iir_output]. rewrite H1, H2.
    assert (E : exists t, rb_push_front (length b) (iir_input s) nan64 = nan64 :: t).
    { unfold rb_push_front. destruct (rb_full _ _); eexists; reflexivity. }
    destruct E as (t & ->). rewrite (inner_product_nan (nan64 :: t) b).
    2:{ destruct b; [cbn in Pb; lia|]. left. reflexivity. }
    nans. unfold rb_push_front. destruct (rb_full _ _); eexists; reflexivity.
  - intros s x [H1 H2] (t & E). unfold iir_push. cbn [iir_output]. rewrite H1, H2.
    rewrite (inner_product_nan (iir_output s) a).
    2:{ rewrite E. destruct a; [cbn in Pa; lia|]. left. reflexivity. }
    nans. unfold rb_push_front. destruct (rb_full _ _); eexists; reflexivity.
Qed.

Lemma fir_recovers (F : num) (c : list F) (ops : list (op F)) : c <> [] ->
  let l := lastn (length c) (since_clear ops) in
  (length c <= length (since_clear ops))%nat ->
  fir_value F (fir_run F c ops) = fir_value F (fir_run F c (pushes l)).
Proof.
  intros Hc l HL.
  assert (P : (0 < length c)%nat) by (destruct c; [congruence|cbn; lia]).
  destruct (fir_state F c ops Hc) as (_ & _ & H1).
  destruct (fir_state F c (pushes l) Hc) as (_ & _ & H2).
  rewrite since_clear_pushes in H2. unfold fir_value.
  assert (LL : length l = length c) by (unfold l; rewrite lastn_length; lia).
  rewrite H1 by (intros X; rewrite X in HL; cbn in HL; lia).
  rewrite H2 by (intros X; rewrite X in LL; cbn in LL; lia).
  rewrite <- !inner_product_recent by lia. rewrite !firstn_all. f_equal.
  rewrite (firstn_all2 (rev l)) by (rewrite rev_length; lia).
  unfold l, lastn. rewrite firstn_rev. reflexivity.
Qed.
