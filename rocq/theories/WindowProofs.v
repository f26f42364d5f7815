(** * Proofs about window filters *)

From Coq Require Import Reals ZArith NArith Bool List Lia Lra Psatz.
From Flocq Require Import Core.Raux.
From Verif Require Import Arith History HistoryLemmas SpecStats StatsLemmas
  Buffer Window ExactRuns CumulativeProofs CumulativeStats.
Import ListNotations.

(** ** Last elements and ring buffers *)

Section LastN.
Context {A : Type}.
Implicit Types l : list A.

Lemma lastn_short n l : (length l <= n)%nat -> lastn n l = l.
Proof.
  intros H; unfold lastn; replace (length l - n)%nat with 0%nat by lia; reflexivity.
Qed.

Lemma lastn_length n l : length (lastn n l) = Nat.min n (length l).
Proof. unfold lastn; rewrite skipn_length; lia. Qed.

Lemma skipn_S_tl k l : skipn (S k) l = tl (skipn k l).
Proof.
  revert l; induction k as [|k IH]; intros l; [destruct l; reflexivity|].
  destruct l as [|a l]; [reflexivity|]. apply (IH l).
Qed.

Lemma lastn_snoc n l x : (0 < n)%nat ->
  lastn n (l ++ [x]) =
  (if (n <=? length l)%nat then tl (lastn n l) else lastn n l) ++ [x].
Proof.
  intros Hn; unfold lastn; rewrite length_snoc.
  destruct (Nat.leb_spec n (length l)) as [H|H].
  - replace (S (length l) - n)%nat with (S (length l - n)) by lia.
    rewrite <- skipn_S_tl, skipn_app.
    replace (S (length l - n) - length l)%nat with 0%nat by lia.
    reflexivity.
  - replace (S (length l) - n)%nat with 0%nat by lia.
    replace (length l - n)%nat with 0%nat by lia; reflexivity.
Qed.

Lemma rb_push_lastn n l x : (0 < n)%nat ->
  rb_push_back n (lastn n l) x = lastn n (l ++ [x]).
Proof.
  intros Hn; rewrite lastn_snoc by exact Hn.
  unfold rb_push_back, rb_full; rewrite lastn_length.
  destruct (Nat.leb_spec n (Nat.min n (length l))), (Nat.leb_spec n (length l));
    try lia; reflexivity.
Qed.

Lemma rb_full_lastn n l :
  rb_full n (lastn n l) = (n <=? length l)%nat.
Proof.
  unfold rb_full; rewrite lastn_length.
  destruct (Nat.leb_spec n (Nat.min n (length l))), (Nat.leb_spec n (length l));
    try lia; reflexivity.
Qed.

Lemma lastn_nonempty n l : (0 < n)%nat -> l <> [] -> lastn n l <> [].
Proof.
  intros Hn Hl E; apply (f_equal (@length A)) in E; rewrite lastn_length in E.
  destruct l; [congruence|]; cbn in E; lia.
Qed.

Lemma lastn_app_le n l1 l2 : (n <= length l2)%nat ->
  lastn n (l1 ++ l2) = lastn n l2.
Proof.
  intros H; unfold lastn; rewrite app_length, skipn_app.
  rewrite skipn_all2 by lia.
  replace (length l1 + length l2 - n - length l1)%nat with (length l2 - n)%nat by lia.
  reflexivity.
Qed.

Lemma lastn_In n l x : In x (lastn n l) -> In x l.
Proof.
  unfold lastn; intros H; rewrite <- (firstn_skipn (length l - n) l).
  apply in_or_app; right; exact H.
Qed.

End LastN.

Lemma lastn_map {A B} (f : A -> B) n l : lastn n (map f l) = map f (lastn n l).
Proof. unfold lastn; rewrite map_length, skipn_map; reflexivity. Qed.

(** ** Any arithmetic: the buffer holds the last values *)

Section AnyArith.
Variable F : num.
Variable W : nat.
Hypothesis HW : (0 < W)%nat.

Lemma wmean_clear_init (s : wmean F) : wmean_clear F s = wmean_init F.
Proof. reflexivity. Qed.
Lemma wvar_clear_init (s : wvar F) : wvar_clear F s = wvar_init F.
Proof. reflexivity. Qed.
Lemma wcov_clear_init (s : wcov F) : wcov_clear F s = wcov_init F.
Proof. reflexivity. Qed.
Lemma wreg_clear_init (s : wreg F) : wreg_clear F s = wreg_init F.
Proof. reflexivity. Qed.

Lemma wmean_fold_window l :
  wm_window F (fold_left (wmean_push F W) l (wmean_init F)) = lastn W l.
Proof.
  induction l as [|x l IH] using rev_ind; [reflexivity|].
  rewrite fold_left_app; cbn [fold_left wmean_push wm_window].
  rewrite IH; apply rb_push_lastn, HW.
Qed.

Lemma rb_full_front {A} (l : list A) : rb_full W l = true ->
  exists a t, l = a :: t.
Proof.
  unfold rb_full; intros H; apply Nat.leb_le in H.
  destruct l as [|a t]; [cbn in H; lia|eauto].
Qed.

Lemma wvar_push_window s x :
  wm_window F (wv_super F (wvar_push F W s x)) =
  rb_push_back W (wm_window F (wv_super F s)) x.
Proof.
  unfold wvar_push, wmean_full.
  destruct (rb_full W (wm_window F (wv_super F s))) eqn:E; [|reflexivity].
  destruct (rb_full_front _ E) as (a & t & ->); reflexivity.
Qed.

Lemma wvar_fold_window l :
  wm_window F (wv_super F (fold_left (wvar_push F W) l (wvar_init F))) =
  lastn W l.
Proof.
  induction l as [|x l IH] using rev_ind; [reflexivity|].
  rewrite fold_left_app; cbn [fold_left].
  rewrite wvar_push_window, IH; apply rb_push_lastn, HW.
Qed.

(** The mean inside the variance filter is the mean filter. *)
Lemma wvar_push_super s x :
  wv_super F (wvar_push F W s x) = wmean_push F W (wv_super F s) x.
Proof.
  unfold wvar_push, wmean_push.
  destruct (wmean_full F W (wv_super F s)) eqn:E; [|reflexivity].
  destruct (rb_full_front _ E) as (a & t & ->); reflexivity.
Qed.

Lemma wvar_fold_super l s :
  wv_super F (fold_left (wvar_push F W) l s) =
  fold_left (wmean_push F W) l (wv_super F s).
Proof.
  revert s; induction l as [|x l IH]; intros s; [reflexivity|].
  cbn [fold_left]; rewrite IH, wvar_push_super; reflexivity.
Qed.

Lemma wcov_push_window s p :
  wc_window F (wcov_push F W s p) = rb_push_back W (wc_window F s) p.
Proof.
  unfold wcov_push; destruct p as [x y].
  destruct (rb_full W (wc_window F s)) eqn:E; [|reflexivity].
  destruct (rb_full_front _ E) as ([a b] & t & ->); reflexivity.
Qed.

Lemma wcov_fold_window l :
  wc_window F (fold_left (wcov_push F W) l (wcov_init F)) = lastn W l.
Proof.
  induction l as [|x l IH] using rev_ind; [reflexivity|].
  rewrite fold_left_app; cbn [fold_left].
  rewrite wcov_push_window, IH; apply rb_push_lastn, HW.
Qed.

Lemma wreg_fold l s :
  fold_left (wreg_push F W) l s =
  WReg F (fold_left (wcov_push F W) l (wr_cov F s))
         (fold_left (wvar_push F W) (map fst l) (wr_x F s)).
Proof.
  revert s; induction l as [|p l IH]; intros s; cbn; [destruct s; reflexivity|].
  rewrite IH; reflexivity.
Qed.

Lemma push_ok_of_full {A} (l : list A) :
  implb (rb_full W l) (negb (rb_empty l)) = true.
Proof.
  destruct (rb_full W l) eqn:E; [|reflexivity].
  destruct (rb_full_front _ E) as (a & t & ->); reflexivity.
Qed.

End AnyArith.

(** ** Replacing the oldest element *)

Local Open Scope R_scope.

Lemma mean_replace o t x :
  mean (t ++ [x]) = mean (o :: t) + (x - o) / card (o :: t).
Proof.
  pose proof (card_nonneg t) as Hn.
  unfold mean; rewrite Rsum_snoc, Rsum_cons, card_snoc, card_cons; field; lra.
Qed.

Lemma psum_2_0_cons o t : psum 2 0 (o :: t) = o ^ 2 + psum 2 0 t.
Proof. rewrite psum_cons; f_equal; ring. Qed.

Lemma csum_2_replace o t x :
  let m := mean (o :: t) in
  let m' := mean (t ++ [x]) in
  csum 2 (t ++ [x]) =
  csum 2 (o :: t) + (x - m) * (x - m') - (o - m) * (o - m').
Proof.
  intros m m'; rewrite !csum_2_expand; fold m m'.
  rewrite psum_snoc, psum_2_0_cons, card_snoc, card_cons.
  assert (E : m' = m + (x - o) / (card t + 1))
    by (unfold m, m'; rewrite (mean_replace o), card_cons; reflexivity).
  pose proof (card_nonneg t) as Hn.
  rewrite E; field; lra.
Qed.

(** ** Exact reals *)

Section Exact.
Variable eps : R.
Variable W : nat.
Hypothesis HW : (0 < W)%nat.
Hypothesis HW64 : (N.of_nat W < szmod)%N.
Notation F := (exact eps).

Lemma rb_size_fins (l : list R) : rb_size (fins eps l) = N.of_nat (length l).
Proof. unfold rb_size, fins; rewrite map_length; reflexivity. Qed.

Lemma wmean_push_exact l x :
  wmean_push F W (WMean F (fins eps (lastn W l)) (Fin (mean (lastn W l)))) (Fin x) =
  WMean F (fins eps (lastn W (l ++ [x]))) (Fin (mean (lastn W (l ++ [x])))).
Proof.
  unfold wmean_push, wmean_full, wmean_size; cbn [wm_window wm_mean].
  assert (Ew : rb_push_back W (fins eps (lastn W l)) (Fin x) =
               fins eps (lastn W (l ++ [x]))).
  { unfold fins; rewrite <- lastn_map.
    rewrite (rb_push_lastn (A := F)) by exact HW.
    rewrite <- lastn_map, map_app; reflexivity. }
  rewrite Ew; f_equal.
  rewrite lastn_snoc by exact HW.
  unfold fins at 1; rewrite <- lastn_map, rb_full_lastn, map_length.
  destruct (Nat.leb_spec W (length l)) as [H|H].
  - assert (Hl : length (lastn W l) = W) by (rewrite lastn_length; lia).
    destruct (lastn W l) as [|o t] eqn:E; [cbn in Hl; lia|].
    rewrite rb_size_fins.
    cbn [fins map rb_front hd_error tl].
    unfold nsub, nadd; cbn [exact xnum xlift2].
    rewrite xdiv_card by congruence.
    cbn [xlift2]; rewrite mean_replace with (o := o); reflexivity.
  - rewrite (lastn_short W l) by lia.
    rewrite rb_size_fins, szadd_small by lia.
    replace (N.of_nat (length l) + 1)%N with (N.of_nat (length (l ++ [x])))
      by (rewrite length_snoc; lia).
    unfold nsub, nadd; cbn [exact xnum xlift2].
    rewrite xdiv_card by (destruct l; cbn; congruence).
    cbn [xlift2]; rewrite mean_snoc, card_snoc; reflexivity.
Qed.

Lemma wmean_exact l :
  fold_left (wmean_push F W) (fins eps l) (wmean_init F) =
  WMean F (fins eps (lastn W l)) (Fin (mean (lastn W l))).
Proof.
  induction l as [|x l IH] using rev_ind.
  - cbn; unfold wmean_init, n0, mean; cbn; f_equal; f_equal; lra.
  - rewrite fins_app, fold_left_app, IH; apply wmean_push_exact.
Qed.

Lemma wvar_exact l :
  fold_left (wvar_push F W) (fins eps l) (wvar_init F) =
  WVar F (WMean F (fins eps (lastn W l)) (Fin (mean (lastn W l))))
         (Fin (csum 2 (lastn W l))).
Proof.
  induction l as [|x l IH] using rev_ind.
  - cbn; unfold wvar_init, wmean_init, n0, mean; cbn.
    do 2 f_equal; f_equal; lra.
  - rewrite fins_app, fold_left_app, IH.
    cbn [fins map fold_left].
    set (s := WVar F _ _).
    assert (Es : wvar_push F W s (Fin x) =
                 WVar F (wv_super F (wvar_push F W s (Fin x)))
                        (wv_sum F (wvar_push F W s (Fin x))))
      by (destruct (wvar_push F W s (Fin x)); reflexivity).
    rewrite Es; clear Es.
    rewrite wvar_push_super by exact HW; unfold s at 1; cbn [wv_super].
    rewrite wmean_push_exact; f_equal.
    unfold wvar_push, wvar_size, wmean_full, wmean_size, wmean_mean; unfold s.
    cbn [wv_super wm_window wm_mean wv_sum].
    rewrite lastn_snoc by exact HW.
    unfold fins at 1; rewrite <- lastn_map, rb_full_lastn, map_length.
    destruct (Nat.leb_spec W (length l)) as [H|H].
    + assert (Hl : length (lastn W l) = W) by (rewrite lastn_length; lia).
      destruct (lastn W l) as [|o t] eqn:E; [cbn in Hl; lia|].
      rewrite rb_size_fins.
      cbn [fins map rb_front hd_error tl].
      unfold wvar_delta, nsub, nadd, nmul; cbn [exact xnum xlift2].
      rewrite xdiv_card by congruence.
      cbn [xlift2 wv_sum].
      rewrite <- (mean_replace o t x), (csum_2_replace o t x); reflexivity.
    + rewrite (lastn_short W l) by lia.
      rewrite rb_size_fins, szadd_small by lia.
      replace (N.of_nat (length l) + 1)%N with (N.of_nat (length (l ++ [x])))
        by (rewrite length_snoc; lia).
      unfold wvar_delta, nsub, nadd, nmul; cbn [exact xnum xlift2].
      rewrite xdiv_card by (destruct l; cbn; congruence).
      cbn [xlift2 wv_sum]; f_equal.
      rewrite card_snoc, csum_2_snoc.
      pose proof (card_nonneg l); field; lra.
Qed.

Definition psum_xy (l : list (R * R)) : R := Rsum (map (fun p => fst p * snd p) l).

Lemma wcov_exact l :
  fold_left (wcov_push F W) (finps eps l) (wcov_init F) =
  WCov F (finps eps (lastn W l)) (Fin (Rsum (xs (lastn W l))))
         (Fin (Rsum (ys (lastn W l)))) (Fin (psum_xy (lastn W l))).
Proof.
  induction l as [|p l IH] using rev_ind.
  - reflexivity.
  - rewrite finps_app, fold_left_app, IH.
    cbn [finps map fold_left].
    set (s := WCov F _ _ _ _).
    assert (Es : wcov_push F W s (Fin (fst p), Fin (snd p)) =
       WCov F (wc_window F (wcov_push F W s (Fin (fst p), Fin (snd p))))
              (wc_x F (wcov_push F W s (Fin (fst p), Fin (snd p))))
              (wc_y F (wcov_push F W s (Fin (fst p), Fin (snd p))))
              (wc_xy F (wcov_push F W s (Fin (fst p), Fin (snd p)))))
      by (destruct (wcov_push F W s _); reflexivity).
    rewrite Es; clear Es.
    rewrite wcov_push_window by exact HW; unfold s at 1; cbn [wc_window].
    assert (Ew : rb_push_back W (finps eps (lastn W l)) (Fin (fst p), Fin (snd p)) =
               finps eps (lastn W (l ++ [p]))).
    { unfold finps; rewrite <- lastn_map.
      rewrite (rb_push_lastn (A := F * F)) by exact HW.
      rewrite <- lastn_map, map_app; reflexivity. }
    rewrite Ew; clear Ew.
    unfold wcov_push; unfold s; cbn [wc_window wc_x wc_y wc_xy].
    rewrite lastn_snoc by exact HW.
    assert (Hfull : rb_full W (finps eps (lastn W l)) = (W <=? length l)%nat)
      by (unfold finps; rewrite <- lastn_map, rb_full_lastn, map_length; reflexivity).
    rewrite !Hfull; clear Hfull.
    destruct (Nat.leb_spec W (length l)) as [H|H].
    + assert (Hl : length (lastn W l) = W) by (rewrite lastn_length; lia).
      destruct (lastn W l) as [|o t] eqn:E; [cbn in Hl; lia|].
      cbn [finps map rb_front hd_error tl fst snd].
      unfold nsub, nadd, nmul; cbn [exact xnum xlift2 wc_x wc_y wc_xy].
      rewrite xs_snoc, ys_snoc, !Rsum_snoc.
      unfold psum_xy; rewrite map_app, Rsum_app.
      unfold xs, ys; cbn [map Rsum].
      f_equal; apply (f_equal Fin); ring.
    + unfold nsub, nadd, nmul; cbn [exact xnum xlift2 wc_x wc_y wc_xy].
      rewrite xs_snoc, ys_snoc, !Rsum_snoc.
      unfold psum_xy; rewrite map_app, Rsum_app.
      cbn [map Rsum]; f_equal; apply (f_equal Fin); ring.
Qed.

End Exact.
