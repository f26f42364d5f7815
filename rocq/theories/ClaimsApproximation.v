(** * Claim C102: interim statistics approximate those of the sliding window *)

From Coq Require Import Reals ZArith NArith Bool List.
From Verif Require Import Arith History SpecStats SpecBlocks SpecInequality SpecLine Cumulative Window Interim
  ExactRuns WindowRuns InterimRuns.
Import ListNotations.
Local Open Scope R_scope.
(* @end-header *)
From Coq Require Import Lia Lra Psatz.
From Verif Require Import HistoryLemmas StatsLemmas CumulativeProofs CumulativeStats
  WindowProofs BlockLemmas InterimStats InequalityProofs InterimWindow ClaimsWindow ClaimsInterim.

Lemma window_ne {A} W (l : list A) : (0 < W)%nat -> l <> [] -> lastn W l <> [].
Proof.
  intros HW N E. assert (L : length (lastn W l) = 0%nat) by (rewrite E; reflexivity).
  rewrite lastn_length in L. destruct l; [congruence|]. cbn in L. lia.
Qed.

(** Both means in terms of the sums of three parts of the last values. *)
Lemma both_means eps W ops : (0 < W)%nat -> (2 * N.of_nat W < szmod)%N ->
  let w := N.of_nat W in
  let l := since_clear ops in
  (W < length l)%nat ->
  exists pre p1 p2 c, lastn (2 * W) l = pre ++ p1 ++ p2 ++ c /\ c = cur_block W l /\
    prev_block W l = p1 ++ p2 /\ lastn W l = p2 ++ c /\
    0 < card c /\ card p1 = card c /\ card p1 + card p2 = INR W /\
    imean_mean _ w (run_imean eps W ops) =
      Fin (((Rsum p1 + Rsum p2) / INR W * (INR W - card c) + Rsum c / card c * (2 * card c)) / (INR W + card c)) /\
    wmean_mean _ (run_wmean eps W ops) = Fin ((Rsum p2 + Rsum c) / INR W).
Proof.
  intros HW H2 w l L.
  destruct (window_split W HW l L) as (p1 & p2 & EP & L1 & L2 & EL & pre & ER).
  assert (NE : l <> []) by (intros E; rewrite E in L; cbn in L; lia).
  pose proof (cur_block_pos W HW l NE) as PC.
  assert (C1 : card p1 = card (cur_block W l)) by (unfold card; rewrite L1; reflexivity).
  assert (C2 : card p1 + card p2 = INR W) by (unfold card; rewrite <- plus_INR, L2; reflexivity).
  assert (C0 : 0 < card (cur_block W l)) by (apply (lt_INR 0); lia).
  assert (HW64 : (N.of_nat W < szmod)%N) by lia.
  exists pre, p1, p2, (cur_block W l).
  split; [exact ER|]. split; [reflexivity|]. split; [exact EP|]. split; [exact EL|]. split; [exact C0|]. split; [exact C1|]. split; [exact C2|].
  split.
  - destruct (c24 eps W ops _ HW H2 (or_introl eq_refl)) as (_ & _ & H & _). fold l in H. fold w in H.
    specialize (H L). cbv zeta in H. etransitivity; [exact H|]. f_equal.
    rewrite EP, mean_of_app, C2. unfold mean. reflexivity.
  - destruct (c15 eps W ops HW HW64) as (_ & H & _). fold l in H.
    destruct (H (window_ne W l HW NE)) as [H' _]. etransitivity; [exact H'|]. f_equal.
    rewrite EL, mean_of_app. f_equal. lra.
Qed.

(** @prop C102_mean_line: if the last 2W values lie on a straight line (they grow by
    the same amount from one to the next), the interim mean is exactly the mean of
    the last W values, at every moment. *)
Lemma c102_mean_line : forall (eps : R) (W : nat) (ops : list (op R)) (a b : R),
  (0 < W)%nat -> (2 * N.of_nat W < szmod)%N ->
  let l := since_clear ops in
  l <> [] -> on_line a b (lastn (2 * W) l) ->
  imean_mean _ (N.of_nat W) (run_imean eps W ops) = wmean_mean _ (run_wmean eps W ops) /\
  imean_mean _ (N.of_nat W) (run_imean eps W ops) = Fin (mean (lastn W l)).
Proof.
  intros eps W ops a b HW H2 l NE HL.
  assert (HW64 : (N.of_nat W < szmod)%N) by lia.
  assert (G : wmean_mean _ (run_wmean eps W ops) = Fin (mean (lastn W l))).
  { destruct (c15 eps W ops HW HW64) as (_ & H & _). fold l in H.
    destruct (H (window_ne W l HW NE)) as [H' _]. exact H'. }
  rewrite G. cut (imean_mean _ (N.of_nat W) (run_imean eps W ops) = Fin (mean (lastn W l))); [intros E; split; exact E|].
  destruct (Nat.leb_spec (length l) W) as [L|L].
  - destruct (c24 eps W ops _ HW H2 (or_introl eq_refl)) as (_ & H & _). fold l in H.
    rewrite lastn_short by exact L. apply H. destruct l; [congruence|]. cbn in *. lia.
  - destruct (both_means eps W ops HW H2 L) as (pre & p1 & p2 & c & ER & _ & _ & EL & C0 & C1 & C2 & EI & EW).
    fold l in ER, EL. rewrite <- G, EW. etransitivity; [exact EI|]. f_equal.
    rewrite ER in HL. apply on_line_app in HL. destruct HL as [_ HL].
    apply on_line_app in HL. destruct HL as [X1 HL]. apply on_line_app in HL. destruct HL as [X2 X3].
    set (a0 := a + b * card pre) in *.
    assert (P2 : 0 <= card p2) by apply card_nonneg.
    apply Rminus_diag_uniq. rewrite interim_gap by lra.
    rewrite (Rsum_line _ _ _ X1), (Rsum_line _ _ _ X2), (Rsum_line _ _ _ X3). rewrite <- C2, C1. field. lra.
Qed.

(** @ex C102_mean_line_ex: windows of four over 1, 3, 5, 7, 9, 11: both means are 8. *)
Lemma c102_mean_line_ex :
  let l := since_clear (pushes [1; 3; 5; 7; 9; 11]) in
  l <> [] /\ (4 < length l)%nat /\ on_line 1 2 (lastn (2 * 4) l) /\ mean (lastn 4 l) = 8 /\
  mean (prev_block 4 l) = 4 /\ mean (cur_block 4 l) = 10.
Proof.
  cbv zeta. split; [discriminate|]. split; [cbn; lia|]. split.
  - intros i x. cbn [lastn pushes map since_clear]. unfold lastn. cbn.
    do 6 (destruct i as [|i]; [cbn; intros [= <-]; lra|]). destruct i; discriminate.
  - unfold mean, card, prev_block, cur_block, lastn; cbn; repeat split; field.
Qed.

(** @prop C102_mean: with s values in the current block, the interim mean differs from
    the mean of the last W values by at most 2 s (W - s) / (W (W + s)) times the
    range of the last 2W values, which is at most 6 - 4 sqrt 2 (less than 0.3432)
    times that range. *)
Lemma c102_mean : forall (eps : R) (W : nat) (ops : list (op R)) (a b : R),
  (0 < W)%nat -> (2 * N.of_nat W < szmod)%N ->
  let l := since_clear ops in
  let s := card (cur_block W l) in
  l <> [] -> all_in a b (lastn (2 * W) l) ->
  exists mi mw,
    imean_mean _ (N.of_nat W) (run_imean eps W ops) = Fin mi /\
    wmean_mean _ (run_wmean eps W ops) = Fin mw /\ mw = mean (lastn W l) /\
    ((length l <= W)%nat -> mi = mw) /\
    ((W < length l)%nat -> Rabs (mi - mw) <= 2 * s * (INR W - s) / (INR W * (INR W + s)) * (b - a)) /\
    Rabs (mi - mw) <= (6 - 4 * sqrt 2) * (b - a) /\
    Rabs (mi - mw) <= 3432 / 10000 * (b - a).
Proof.
  intros eps W ops a b HW H2 l s NE HA.
  assert (HW64 : (N.of_nat W < szmod)%N) by lia.
  assert (AB : a <= b).
  { pose proof (window_ne (2 * W) l ltac:(lia) NE) as Z. destruct (lastn (2 * W) l) as [|x t]; [congruence|].
    inversion HA; subst. lra. }
  assert (G : wmean_mean _ (run_wmean eps W ops) = Fin (mean (lastn W l))).
  { destruct (c15 eps W ops HW HW64) as (_ & H & _). fold l in H.
    destruct (H (window_ne W l HW NE)) as [H' _]. exact H'. }
  assert (K : 0 <= 6 - 4 * sqrt 2).
  { pose proof (gap_max 1 0 ltac:(lra) ltac:(lra)) as Z. lra. }
  destruct (Nat.leb_spec (length l) W) as [L|L].
  - destruct (c24 eps W ops _ HW H2 (or_introl eq_refl)) as (_ & H & _). fold l in H.
    exists (mean l), (mean (lastn W l)).
    split; [apply H; destruct l; [congruence|]; cbn in *; lia|]. split; [exact G|]. split; [reflexivity|].
    rewrite lastn_short by exact L. rewrite Rminus_diag_eq, Rabs_R0 by reflexivity.
    split; [reflexivity|]. split; [lia|]. split; [|lra].
    apply Rmult_le_pos; lra.
  - destruct (both_means eps W ops HW H2 L) as (pre & p1 & p2 & c & ER & EC & _ & EL & C0 & C1 & C2 & EI & EW).
    fold l in ER, EC, EL.
    assert (ES : s = card c) by (unfold s; rewrite EC; reflexivity).
    eexists. eexists. split; [exact EI|]. split; [exact EW|].
    assert (EM : (Rsum p2 + Rsum c) / INR W = mean (lastn W l)) by (assert (Z : Fin ((Rsum p2 + Rsum c) / INR W) = Fin (mean (lastn W l))) by (rewrite <- EW; exact G); injection Z; auto).
    split; [exact EM|]. split; [lia|].
    assert (P2 : 0 <= card p2) by apply card_nonneg.
    rewrite ES, interim_gap by lra. clear s ES EI EW EM.
    unfold all_in in HA. rewrite ER in HA. apply Forall_app in HA. destruct HA as [_ HA].
    apply Forall_app in HA. destruct HA as [A1 HA]. apply Forall_app in HA. destruct HA as [A2 A3].
    apply Rsum_range in A1. apply Rsum_range in A2. apply Rsum_range in A3.
    set (w := INR W) in *. set (s := card c) in *. rewrite C1 in *.
    assert (P : 0 < w * (w + s)) by (apply Rmult_lt_0_compat; lra).
    assert (B : Rabs (((w - s) * (Rsum p1 + Rsum c) - 2 * s * Rsum p2) / (w * (w + s))) <= 2 * s * (w - s) / (w * (w + s)) * (b - a)).
    { unfold Rdiv. rewrite Rabs_mult, (Rabs_pos_eq (/ _)) by (left; apply Rinv_0_lt_compat; exact P).
      replace (2 * s * (w - s) * / (w * (w + s)) * (b - a)) with (2 * s * (w - s) * (b - a) * / (w * (w + s))) by ring.
      apply Rmult_le_compat_r; [left; apply Rinv_0_lt_compat; exact P|].
      replace (card p2) with (w - s) in A2 by lra.
      assert (T1 : (w - s) * (2 * (s * a)) <= (w - s) * (Rsum p1 + Rsum c) <= (w - s) * (2 * (s * b))) by (split; apply Rmult_le_compat_l; lra).
      assert (T2 : 2 * s * ((w - s) * a) <= 2 * s * Rsum p2 <= 2 * s * ((w - s) * b)) by (split; apply Rmult_le_compat_l; lra).
      apply Rabs_le. split; nra. }
    split; [intros _; exact B|].
    assert (B2 : Rabs (((w - s) * (Rsum p1 + Rsum c) - 2 * s * Rsum p2) / (w * (w + s))) <= (6 - 4 * sqrt 2) * (b - a)).
    { apply (Rle_trans _ _ _ B). apply Rmult_le_compat_r; [lra|]. apply gap_max; lra. }
    split; [exact B2|]. apply (Rle_trans _ _ _ B2). apply Rmult_le_compat_r; [lra|]. apply sqrt2_decimal.
Qed.

(** @ex C102_mean_ex: windows of two: after 1, 0, 1 (one value in the current block) the
    means are 5/6 and 1/2, a third of the range apart. *)
Lemma c102_mean_ex :
  let l := since_clear (pushes [1; 0; 1]) in
  l <> [] /\ (2 < length l)%nat /\ all_in 0 1 (lastn (2 * 2) l) /\ card (cur_block 2 l) = 1 /\
  (mean (prev_block 2 l) * (2 - 1) + mean (cur_block 2 l) * (2 * 1)) / (2 + 1) - mean (lastn 2 l) = 1 / 3 /\
  2 * 1 * (2 - 1) / (2 * (2 + 1)) = 1 / 3.
Proof.
  cbv zeta. split; [discriminate|]. split; [cbn; lia|]. split; [unfold all_in, lastn; cbn; repeat constructor; lra|].
  unfold mean, card, prev_block, cur_block, lastn; cbn; repeat split; field.
Qed.

Lemma card_repeat (x : R) n : card (repeat x n) = INR n.
Proof. unfold card. rewrite repeat_length. reflexivity. Qed.

Lemma Rsum_repeat x n : Rsum (repeat x n) = INR n * x.
Proof. induction n as [|n IH]; [cbn; ring|]. cbn [repeat]. rewrite Rsum_cons, IH, S_INR. ring. Qed.

Lemma blocks_of {A} W (p c : list A) : length p = W -> (0 < length c <= W)%nat ->
  cur_block W (p ++ c) = c /\ prev_block W (p ++ c) = p.
Proof.
  intros HP HC.
  assert (E : ((length (p ++ c) - 1) mod W + 1 = length c)%nat).
  { rewrite app_length, HP. replace (W + length c - 1)%nat with ((length c - 1) + 1 * W)%nat by lia.
    rewrite Nat.mod_add by lia. rewrite Nat.mod_small by lia. lia. }
  assert (EC : cur_block W (p ++ c) = c).
  { unfold cur_block. rewrite E. unfold lastn. rewrite app_length.
    replace (length p + length c - length c)%nat with (length p) by lia.
    rewrite skipn_app, skipn_all, Nat.sub_diag. reflexivity. }
  split; [exact EC|]. unfold prev_block. rewrite EC, app_length.
  replace (length p + length c - length c)%nat with (length p) by lia.
  rewrite firstn_app, firstn_all, Nat.sub_diag, firstn_O, app_nil_r. apply lastn_short. lia.
Qed.

Lemma app_split {A} (a b c d : list A) : a ++ b = c ++ d -> length a = length c -> a = c /\ b = d.
Proof.
  revert c. induction a as [|x a IH]; intros [|y c] E L; cbn in *; try discriminate; [auto|].
  injection E as -> E. injection L as L. destruct (IH c E L) as [-> ->]. auto.
Qed.

(** @prop C102_mean_sharp: the bound is attained: for every window size W and every s
    there is a stream of zeros and ones with s values in the current block for which
    the two means differ by exactly 2 s (W - s) / (W (W + s)). *)
Lemma c102_mean_sharp : forall (eps : R) (W s : nat),
  (0 < s <= W)%nat -> (2 * N.of_nat W < szmod)%N ->
  exists l mi mw, Forall (fun x => x = 0 \/ x = 1) l /\ length (cur_block W l) = s /\ (W < length l)%nat /\
    imean_mean _ (N.of_nat W) (run_imean eps W (pushes l)) = Fin mi /\
    wmean_mean _ (run_wmean eps W (pushes l)) = Fin mw /\
    mi - mw = 2 * INR s * (INR W - INR s) / (INR W * (INR W + INR s)).
Proof.
  intros eps W s HS H2.
  set (p1 := repeat 1 s). set (p2 := repeat 0 (W - s)). set (c := repeat 1 s).
  assert (LP : length (p1 ++ p2) = W) by (rewrite app_length; unfold p1, p2; rewrite !repeat_length; lia).
  assert (LC : (0 < length c <= W)%nat) by (unfold c; rewrite repeat_length; lia).
  destruct (blocks_of W (p1 ++ p2) c LP LC) as [EC EP].
  set (l := (p1 ++ p2) ++ c) in *.
  assert (LL : (W < length l)%nat) by (unfold l; rewrite app_length; lia).
  assert (ES : since_clear (pushes l) = l) by apply since_clear_pushes.
  assert (D : forall n (x : R), x = 0 \/ x = 1 -> Forall (fun y => y = 0 \/ y = 1) (repeat x n)).
  { intros n x Hx. apply Forall_forall. intros y Hy. apply repeat_spec in Hy. rewrite Hy. exact Hx. }
  destruct (both_means eps W (pushes l) ltac:(lia) H2 ltac:(rewrite ES; exact LL))
    as (pre & q1 & q2 & d & _ & ED & EQ & _ & C0 & C1 & C2 & EI & EW).
  rewrite ES in ED, EQ. rewrite EC in ED. rewrite EP in EQ.
  assert (E1 : q1 = p1 /\ q2 = p2).
  { assert (Z : length q1 = length p1).
    { apply INR_eq. fold (card q1) (card p1). rewrite C1, ED. unfold c, p1. rewrite !card_repeat. reflexivity. }
    apply app_split; [exact (eq_sym EQ)|exact Z]. }
  destruct E1 as [Q1 Q2]. rewrite Q1, Q2, ED in EI. rewrite Q2, ED in EW.
  exists l. eexists. eexists. split.
  - unfold l. apply Forall_app. split; [apply Forall_app; split|]; apply D; auto.
  - split; [rewrite EC; unfold c; apply repeat_length|]. split; [exact LL|]. split; [exact EI|]. split; [exact EW|].
    assert (R1 : 0 < INR s) by (apply (lt_INR 0); lia).
    assert (R2 : INR s <= INR W) by (apply le_INR; lia).
    rewrite interim_gap; [|unfold c; rewrite card_repeat; exact R1|unfold c; rewrite card_repeat; exact R2].
    unfold p1, p2, c. rewrite !Rsum_repeat, card_repeat. field. lra.
Qed.

(** @ex C102_mean_sharp_ex: windows of 12 with five values in the current block: the
    factor is 35/102. *)
Lemma c102_mean_sharp_ex :
  (0 < 5 <= 12)%nat /\ (2 * N.of_nat 12 < szmod)%N /\
  2 * INR 5 * (INR 12 - INR 5) / (INR 12 * (INR 12 + INR 5)) = 35 / 102.
Proof. split; [lia|]. split; [reflexivity|]. cbn. field. Qed.

(** @prop C102_variance: the interim variance differs from the variance of the last W
    values by at most a quarter of the squared range of the last 2W values. *)
Lemma c102_variance : forall (eps : R) (W : nat) (ops : list (op R)) (a b : R),
  (0 < W)%nat -> (N.of_nat W <= 4294967296)%N ->
  let l := since_clear ops in
  l <> [] -> all_in a b (lastn (2 * W) l) ->
  exists vi vw,
    ivar_variance _ (N.of_nat W) (run_ivar eps W ops) = Fin vi /\
    wvar_variance _ (run_wvar eps W ops) = Fin vw /\ vw = variance (lastn W l) /\
    ((length l <= W)%nat -> vi = vw) /\
    Rabs (vi - vw) <= (b - a) ^ 2 / 4.
Proof.
  intros eps W ops a b HW H2 l NE HA.
  assert (HW64 : (N.of_nat W < szmod)%N) by (unfold szmod; lia).
  destruct (c25 eps W ops _ HW H2 NE (or_introl eq_refl)) as (S1 & _ & r & Er & R0 & R1 & _). fold l in S1, R1.
  destruct (c16 eps W ops HW HW64) as (V & _). fold l in V. specialize (V (window_ne W l HW NE)).
  exists r, (variance (lastn W l)). split; [exact Er|]. split; [exact V|]. split; [reflexivity|].
  assert (T : (length l <= W)%nat -> r = variance (lastn W l)).
  { intros L. assert (Z : Fin r = Fin (variance l)) by (rewrite <- Er; apply S1, L).
    injection Z as ->. rewrite lastn_short by exact L. reflexivity. }
  split; [exact T|].
  assert (Q : 0 <= (b - a) ^ 2 / 4) by (pose proof (pow2_ge_0 (b - a)); lra).
  destruct (Nat.leb_spec (length l) W) as [L|L].
  - rewrite (T L), Rminus_diag_eq, Rabs_R0 by reflexivity. exact Q.
  - assert (B : forall k : list R, k <> [] -> (forall x, In x k -> In x (lastn (2 * W) l)) -> 0 <= variance k <= (b - a) ^ 2 / 4).
    { intros k N I. split; [apply variance_nonneg|]. apply popoviciu; [exact N|]. apply Forall_forall. intros x Hx.
      unfold all_in in HA. rewrite Forall_forall in HA. apply HA, I, Hx. }
    destruct (window_split W HW l L) as (p1 & p2 & EP & L1 & L2 & EL & pre & ER).
    pose proof (cur_block_pos W HW l NE) as PC.
    assert (B1 := B (prev_block W l) ltac:(intros E; pose proof (long_prev W HW l L) as Z; rewrite E in Z; cbn in Z; lia)
       ltac:(intros x; apply (prev_block_In W HW))).
    assert (B2 := B (cur_block W l) ltac:(intros E; rewrite E in PC; cbn in PC; lia) ltac:(intros x; apply (cur_block_In W HW))).
    assert (B3 := B (lastn W l) (window_ne W l HW NE) ltac:(intros x Hx; rewrite ER; rewrite EL in Hx; apply in_or_app; right; apply in_or_app; right; exact Hx)).
    specialize (R1 L). clear B.
    assert (U : r <= (b - a) ^ 2 / 4) by (apply (Rle_trans _ _ _ (proj2 R1)); apply Rmax_lub; lra).
    apply Rabs_le. lra.
Qed.

(** @ex C102_variance_ex: windows of two, values 0, 0, 4. *)
Lemma c102_variance_ex :
  let l := since_clear (pushes [0; 0; 4]) in
  l <> [] /\ all_in 0 4 (lastn (2 * 2) l) /\ (2 < length l)%nat /\ variance (lastn 2 l) = 4.
Proof.
  cbv zeta. split; [discriminate|]. split; [unfold all_in, lastn; cbn; repeat constructor; lra|].
  split; [cbn; lia|]. unfold variance, csum, mean, card, lastn; cbn. field.
Qed.

(** @prop C102_variance_sharp: a change of level between two blocks is invisible to the
    interim variance: for every even window size there is a stream of zeros and ones
    for which it is 0 while the last W values are half zeros, half ones and have
    variance 1/4. *)
Lemma c102_variance_sharp : forall (eps : R) (h : nat),
  (0 < h)%nat -> (2 * N.of_nat h <= 4294967296)%N ->
  let W := (2 * h)%nat in
  exists l, Forall (fun x => x = 0 \/ x = 1) l /\ (W < length l)%nat /\
    ivar_variance _ (N.of_nat W) (run_ivar eps W (pushes l)) = Fin 0 /\
    wvar_variance _ (run_wvar eps W (pushes l)) = Fin (1 / 4).
Proof.
  intros eps h Hh H2 W.
  assert (HW : (0 < W)%nat) by (unfold W; lia).
  assert (HN : (N.of_nat W <= 4294967296)%N) by (unfold W; lia).
  assert (HW64 : (N.of_nat W < szmod)%N) by (unfold szmod; lia).
  set (p := repeat 0 W). set (c := repeat 1 h).
  assert (LP : length p = W) by apply repeat_length.
  assert (LC : length c = h) by apply repeat_length.
  destruct (blocks_of W p c LP ltac:(unfold W in *; lia)) as [EC EP].
  set (l := p ++ c) in *.
  assert (LL : (W < length l)%nat) by (unfold l; rewrite app_length; lia).
  assert (ES : since_clear (pushes l) = l) by apply since_clear_pushes.
  assert (NE : l <> []) by (intros E; rewrite E in LL; cbn in LL; lia).
  assert (NP : p <> []) by (intros E; rewrite E in LP; cbn in LP; lia).
  assert (NC : c <> []) by (intros E; rewrite E in LC; cbn in LC; lia).
  exists l. split; [|split; [exact LL|]].
  - unfold l. apply Forall_app. split; apply Forall_forall; intros x Hx; apply repeat_spec in Hx; auto.
  - assert (VC : forall (x : R) k, constant x k -> k <> [] -> variance k = 0).
    { intros x k Hk Nk. assert (Z : variance k <= (x - x) ^ 2 / 4).
      { apply popoviciu; [exact Nk|]. unfold constant in Hk. unfold all_in. eapply Forall_impl; [|exact Hk]. intros y ->. lra. }
      pose proof (variance_nonneg k). lra. }
    split.
    + destruct (c25 eps W (pushes l) _ HW HN ltac:(rewrite ES; exact NE) (or_introl eq_refl)) as (_ & H & _).
      rewrite ES in H. destruct (H LL) as [E _]. etransitivity; [exact E|]. f_equal. rewrite EC, EP.
      assert (K0 : variance p = 0) by (apply (VC 0); [apply Forall_forall; intros x Hx; apply repeat_spec in Hx; symmetry; exact Hx|exact NP]).
      assert (K1 : variance c = 0) by (apply (VC 1); [apply Forall_forall; intros x Hx; apply repeat_spec in Hx; symmetry; exact Hx|exact NC]).
      rewrite K0, K1. unfold Rdiv. ring.
    + destruct (c16 eps W (pushes l) HW HW64) as (V & _). rewrite ES in V. specialize (V (window_ne W l HW NE)).
      etransitivity; [exact V|]. f_equal.
      destruct (window_split W HW l LL) as (p1 & p2 & EP' & L1 & L2 & EL & _).
      rewrite EC in L1, EL. rewrite EP in EP'.
      assert (E2 : p2 = repeat 0 h).
      { assert (Z : p2 = skipn (length p1) p) by (rewrite EP', skipn_app, skipn_all, Nat.sub_diag; reflexivity).
        rewrite Z, L1, LC. unfold p. clear. assert (G : forall n, skipn n (repeat 0 (n + h)) = repeat 0 h) by (induction n; [reflexivity|exact IHn]).
        unfold W. replace (2 * h)%nat with (h + h)%nat by lia. apply G. }
      rewrite EL, E2. unfold variance, csum. rewrite mean_of_app, map_app, Rsum_app. unfold c.
      rewrite !card_repeat, !Rsum_repeat. unfold card. rewrite app_length, !repeat_length, plus_INR.
      assert (HR : 0 < INR h) by (apply (lt_INR 0); lia).
      assert (MR : forall (f : R -> R) x n, map f (repeat x n) = repeat (f x) n) by (clear; intros f x n; induction n; cbn; congruence).
      rewrite !MR, !Rsum_repeat. field. lra.
Qed.

(** @ex C102_variance_sharp_ex: windows of two: the stream 0, 0, 1. *)
Lemma c102_variance_sharp_ex :
  (0 < 1)%nat /\ (2 * N.of_nat 1 <= 4294967296)%N /\
  let l := [0; 0; 1] in prev_block 2 l = [0; 0] /\ cur_block 2 l = [1] /\ variance (lastn 2 l) = 1 / 4.
Proof.
  split; [lia|]. split; [cbn; lia|]. cbv zeta. split; [reflexivity|]. split; [reflexivity|].
  unfold variance, csum, mean, card, lastn; cbn. field.
Qed.

(** @prop C102_variance_line: on a straight line the interim variance is at most the
    variance of the last W values, and smaller unless the current block holds one
    value or W values or all values are equal. *)
Lemma c102_variance_line : forall (eps : R) (W : nat) (ops : list (op R)) (a b : R),
  (0 < W)%nat -> (N.of_nat W <= 4294967296)%N ->
  let l := since_clear ops in
  let s := length (cur_block W l) in
  (W < length l)%nat -> on_line a b (lastn (2 * W) l) ->
  exists vi vw,
    ivar_variance _ (N.of_nat W) (run_ivar eps W ops) = Fin vi /\
    wvar_variance _ (run_wvar eps W ops) = Fin vw /\ vw = b * b * (INR W * INR W - 1) / 12 /\
    vi <= vw /\ ((1 < s < W)%nat -> b <> 0 -> vi < vw) /\ ((s = 1 \/ s = W)%nat -> vi = vw).
Proof.
  intros eps W ops a b HW H2 l s L HL.
  assert (NE : l <> []) by (intros E; rewrite E in L; cbn in L; lia).
  assert (HW64 : (N.of_nat W < szmod)%N) by (unfold szmod; lia).
  destruct (c25 eps W ops _ HW H2 NE (or_introl eq_refl)) as (_ & H & _). fold l in H. destruct (H L) as (E & WP & WA). clear H.
  destruct (c16 eps W ops HW HW64) as (V & _). fold l in V. specialize (V (window_ne W l HW NE)).
  destruct (window_split W HW l L) as (p1 & p2 & EP & L1 & L2 & EL & pre & ER).
  pose proof (cur_block_pos W HW l NE) as PC. fold s in PC. pose proof (cur_block_le W HW l) as LC. fold s in LC.
  rewrite ER in HL. apply on_line_app in HL. destruct HL as [_ HL].
  pose proof HL as HP. rewrite app_assoc in HP. apply on_line_app in HP. destruct HP as [X1 X3]. rewrite <- EP in X1.
  apply on_line_app in HL. destruct HL as [_ X2]. rewrite <- EL in X2.
  rewrite (variance_line _ _ _ (window_ne W l HW NE) X2) in V.
  rewrite (variance_line _ _ _ ltac:(intros Z; pose proof (long_prev W HW l L) as Y; rewrite Z in Y; cbn in Y; lia) X1) in E.
  rewrite (variance_line _ _ _ ltac:(intros Z; unfold s in PC; rewrite Z in PC; cbn in PC; lia) X3) in E.
  assert (CP : card (prev_block W l) = INR W) by (unfold card; rewrite (long_prev W HW l L); reflexivity).
  assert (CW : card (lastn W l) = INR W) by (unfold card; rewrite lastn_length; f_equal; lia).
  rewrite CP in E. rewrite CW in V.
  change (card (cur_block W l)) with (INR s) in *.
  eexists. eexists. split; [exact E|]. split; [exact V|]. split; [reflexivity|].
  assert (S1 : 1 <= INR s) by (apply (le_INR 1); lia).
  assert (S2 : INR s <= INR W) by (apply le_INR; lia).
  set (x := INR s) in *. set (w := INR W) in *.
  set (P := (w - x + 1) ^ 2) in *. set (A := 2 * (x - 1)) in *.
  assert (D : b * b * (w * w - 1) / 12 - (P * (b * b * (w * w - 1) / 12) + A * (b * b * (x * x - 1) / 12)) / (P + A)
     = A * (b * b) * ((w - x) * (w + x)) / (12 * (P + A))) by (field; lra).
  assert (N0 : 0 <= A * (b * b) * ((w - x) * (w + x)) / (12 * (P + A))).
  { apply Rmult_le_pos; [|left; apply Rinv_0_lt_compat; lra].
    apply Rmult_le_pos; [apply Rmult_le_pos; [lra|apply Rle_0_sqr]|]. apply Rmult_le_pos; lra. }
  split; [lra|]. split.
  - intros [I1 I2] Hb. apply lt_INR in I1, I2. fold x in I1, I2. fold w in I2. cbn in I1.
    assert (B0 : 0 < b * b) by (apply Rsqr_pos_lt; exact Hb).
    assert (0 < A * (b * b) * ((w - x) * (w + x)) / (12 * (P + A))); [|lra].
    apply Rmult_lt_0_compat; [|apply Rinv_0_lt_compat; lra].
    apply Rmult_lt_0_compat; [apply Rmult_lt_0_compat; [unfold A; lra|exact B0]|]. apply Rmult_lt_0_compat; lra.
  - intros I. assert (Z : A * (w - x) = 0).
    { destruct I as [I|I]; unfold A, x, w; rewrite I; cbn; ring. }
    assert (A * (b * b) * ((w - x) * (w + x)) / (12 * (P + A)) = 0); [|lra].
    replace (A * (b * b) * ((w - x) * (w + x))) with (A * (w - x) * (b * b * (w + x))) by ring.
    rewrite Z. unfold Rdiv. ring.
Qed.

(** @ex C102_variance_line_ex: windows of four over 1, 3, 5, 7, 9, 11. *)
Lemma c102_variance_line_ex :
  let l := since_clear (pushes [1; 3; 5; 7; 9; 11]) in
  (4 < length l)%nat /\ on_line 1 2 (lastn (2 * 4) l) /\ (1 < length (cur_block 4 l) < 4)%nat /\ (2:R) <> 0.
Proof.
  cbv zeta. split; [cbn; lia|]. split; [|split; [cbn; lia|lra]].
  intros i x. unfold lastn. cbn.
  do 6 (destruct i as [|i]; [cbn; intros [= <-]; lra|]). destruct i; discriminate.
Qed.
