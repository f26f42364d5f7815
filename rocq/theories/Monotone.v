(** * Larger data, larger results: proofs *)

From Coq Require Import Reals ZArith NArith Bool List Arith Lia Lra Sorting.Sorted Sorting.Permutation.
From Flocq Require Import Core.Raux.
From Verif Require Import Arith History HistoryLemmas SpecStats SpecBlocks SpecDecay SpecMonotone SpecPsquare
  StatsLemmas Buffer Impulse ImpulseRuns Scaling InterimStats.
Import ListNotations.
Local Open Scope R_scope.

Lemma raised_since ops ops' : raised ops ops' -> Forall2 Rle (since_clear ops) (since_clear ops').
Proof.
  induction ops as [|o ops IH] using rev_ind in ops' |- *; intros H.
  - inversion H; subst; constructor.
  - apply Forall2_app_inv_l in H; destruct H as (m & m2 & H1 & H2 & ->).
    inversion H2 as [|? o' ? ? Ho H3]; subst; inversion H3; subst.
    destruct o, o'; try contradiction.
    + rewrite !since_clear_snoc_push; apply Forall2_app; [apply IH, H1|constructor; [exact Ho|constructor]].
    + rewrite !since_clear_app_clear; constructor.
Qed.

Section Lists.
Lemma rsum_mono l l' : Forall2 Rle l l' -> Rsum l <= Rsum l'.
Proof. induction 1; cbn; lra. Qed.

Lemma mean_mono l l' : Forall2 Rle l l' -> mean l <= mean l'.
Proof.
  intros H; pose proof (rsum_mono _ _ H) as S; unfold mean, card.
  rewrite (Forall2_len _ _ _ H); unfold Rdiv; apply Rmult_le_compat_r; [|exact S].
  destruct l' as [|z l']; [cbn; rewrite Rinv_0; lra|].
  apply Rlt_le, Rinv_0_lt_compat, (lt_INR 0); cbn; lia.
Qed.

Lemma forall2_skipn {A B} (P : A -> B -> Prop) n l l' : Forall2 P l l' -> Forall2 P (skipn n l) (skipn n l').
Proof. intros H; revert n; induction H; intros [|n]; cbn; auto using Forall2. Qed.

Lemma forall2_firstn {A B} (P : A -> B -> Prop) n l l' : Forall2 P l l' -> Forall2 P (firstn n l) (firstn n l').
Proof. revert l l'; induction n; intros l l' H; destruct H; cbn; constructor; auto. Qed.

Lemma forall2_lastn {A B} (P : A -> B -> Prop) n l l' : Forall2 P l l' -> Forall2 P (lastn n l) (lastn n l').
Proof. intros H; unfold lastn; rewrite (Forall2_len _ _ _ H); apply forall2_skipn, H. Qed.

Lemma forall2_removelast {A B} (P : A -> B -> Prop) l l' : Forall2 P l l' -> Forall2 P (removelast l) (removelast l').
Proof.
  induction 1 as [|a b l l' H H' IH]; [constructor|].
  destruct H' as [|c d l l' H1 H2]; [constructor|]. constructor; assumption.
Qed.

Lemma cur_block_mono W l l' : Forall2 Rle l l' -> Forall2 Rle (cur_block W l) (cur_block W l').
Proof. intros H; unfold cur_block; rewrite (Forall2_len _ _ _ H); apply forall2_lastn, H. Qed.

Lemma prev_block_mono W l l' : Forall2 Rle l l' -> Forall2 Rle (prev_block W l) (prev_block W l').
Proof.
  intros H; pose proof (cur_block_mono W _ _ H) as C; unfold prev_block.
  rewrite (Forall2_len _ _ _ H), (Forall2_len _ _ _ C); apply forall2_lastn, forall2_firstn, H.
Qed.

Lemma cur_block_len W (l : list R) : (0 < W)%nat -> (length (cur_block W l) <= W)%nat.
Proof.
  intros HW; unfold cur_block, lastn; rewrite skipn_length.
  pose proof (Nat.mod_upper_bound (length l - 1) W ltac:(lia)); lia.
Qed.

Lemma imean_value_mono W l l' : (0 < W)%nat -> Forall2 Rle l l' -> imean_value W l <= imean_value W l'.
Proof.
  intros HW H; pose proof (cur_block_mono W _ _ H) as C; pose proof (prev_block_mono W _ _ H) as P.
  pose proof (mean_mono _ _ C) as MC; pose proof (mean_mono _ _ P) as MP.
  unfold imean_value. pose proof (cur_block_len W l HW) as L.
  assert (EC : card (cur_block W l) = card (cur_block W l')) by (unfold card; rewrite (Forall2_len _ _ _ C); reflexivity).
  assert (B0 : 0 <= card (cur_block W l)) by apply card_nonneg.
  assert (BW : card (cur_block W l) <= INR W) by (apply le_INR, L).
  assert (W1 : 1 <= INR W) by (apply (le_INR 1); lia).
  destruct (prev_block W l) as [|p pl] eqn:E1, (prev_block W l') as [|p' pl'] eqn:E2; try (inversion P; fail); [exact MC|].
  cbv zeta; rewrite <- EC; set (s := card (cur_block W l)) in *. unfold wavg.
  unfold Rdiv; apply Rmult_le_compat_r.
  - apply Rlt_le, Rinv_0_lt_compat; lra.
  - apply Rplus_le_compat; apply Rmult_le_compat_l; lra.
Qed.

Lemma esum_mono q l l' : 0 <= q -> Forall2 Rle l l' -> esum q l <= esum q l'.
Proof.
  intros Hq; induction 1 as [|x y l l' Hxy H IH]; cbn [esum]; [lra|].
  rewrite (Forall2_len _ _ _ H); pose proof (pow_le q (length l') Hq).
  apply Rplus_le_compat; [apply Rmult_le_compat_l; assumption|exact IH].
Qed.

Lemma esum_ones q (l : list R) : 0 <= q -> l <> [] -> 0 < esum q (map (fun _ => 1) l).
Proof.
  intros Hq. assert (N : forall l : list R, 0 <= esum q (map (fun _ => 1) l)).
  { induction l0 as [|x m IH]; cbn [map esum]; [lra|].
    pose proof (pow_le q (length (map (fun _ : R => 1) m)) Hq); lra. }
  destruct l as [|x l] using rev_ind; [congruence|intros _].
  clear IHl. induction l as [|y l IH]; cbn [app map esum length]; [cbn; lra|].
  pose proof (pow_le q (length (map (fun _ : R => 1) (l ++ [x]))) Hq); lra.
Qed.

Lemma ewma_mono f l l' : 0 < f <= 1 -> l <> [] -> Forall2 Rle l l' -> ewma f l <= ewma f l'.
Proof.
  intros Hf Hl H; unfold ewma.
  assert (E : map (fun _ : R => 1) l = map (fun _ => 1) l') by (clear -H; induction H; cbn; congruence).
  rewrite <- E; unfold Rdiv; apply Rmult_le_compat_r.
  - apply Rlt_le, Rinv_0_lt_compat, esum_ones; [lra|exact Hl].
  - apply esum_mono; [lra|exact H].
Qed.

(** ** Order statistics *)
Definition leb t (x : R) : bool := if Rle_dec x t then true else false.

Lemma count_perm t l s : Permutation l s -> length (filter (leb t) l) = length (filter (leb t) s).
Proof.
  induction 1; cbn [filter]; try (destruct (leb t x)); try (destruct (leb t y)); cbn [length]; congruence.
Qed.

Lemma count_mono t l l' : Forall2 Rle l l' -> (length (filter (leb t) l') <= length (filter (leb t) l))%nat.
Proof.
  induction 1 as [|x y l l' Hxy _ IH]; cbn [filter]; [lia|].
  assert (E : leb t y = true -> leb t x = true).
  { unfold leb; destruct (Rle_dec y t), (Rle_dec x t); auto; lra. }
  destruct (leb t y), (leb t x); cbn [length]; try lia; discriminate (E eq_refl).
Qed.

Lemma count_ge s k : StronglySorted Rle s -> (k < length s)%nat ->
  (k < length (filter (leb (nth k s 0%R)) s))%nat.
Proof.
  intros H; revert k; induction H as [|x s Hs IH Hx]; intros k Hk; cbn [length] in Hk; [lia|].
  destruct k as [|k]; cbn [nth filter].
  - unfold leb at 1; destruct (Rle_dec x x); [cbn; lia|lra].
  - rewrite Forall_forall in Hx. specialize (IH k ltac:(lia)).
    pose proof (Hx (nth k s 0) ltac:(apply nth_In; lia)).
    unfold leb at 1; destruct (Rle_dec x (nth k s 0)); [cbn; lia|lra].
Qed.

Lemma count_le s k t : StronglySorted Rle s -> (k < length s)%nat -> t < nth k s 0 ->
  (length (filter (leb t) s) <= k)%nat.
Proof.
  intros H; revert k; induction H as [|x s Hs IH Hx]; intros k Hk Ht; cbn [length] in Hk; [lia|].
  destruct k as [|k]; cbn [nth filter] in *.
  - unfold leb at 1; destruct (Rle_dec x t); [lra|].
    assert (E : filter (leb t) s = []).
    { rewrite Forall_forall in Hx. clear -Hx Ht. induction s as [|y s IH]; [reflexivity|]; cbn [filter].
      unfold leb at 1; pose proof (Hx y (or_introl eq_refl)); destruct (Rle_dec y t); [lra|].
      apply IH; intros z Hz; apply Hx; right; exact Hz. }
    rewrite E; cbn; lia.
  - specialize (IH k ltac:(lia) Ht). destruct (leb t x); cbn [length]; lia.
Qed.

Lemma sorted_mono l l' s s' : Forall2 Rle l l' -> order_statistics l s -> order_statistics l' s' ->
  forall k, (k < length l)%nat -> nth k s 0 <= nth k s' 0.
Proof.
  intros H [P S] [P' S'] k Hk.
  pose proof (Permutation_length P) as L; pose proof (Permutation_length P') as L'.
  pose proof (Forall2_len _ _ _ H) as LL.
  destruct (Rle_lt_dec (nth k s 0) (nth k s' 0)) as [?|C]; [assumption|exfalso].
  pose proof (count_ge s' k S' ltac:(lia)) as G.
  pose proof (count_le s k _ S ltac:(lia) C) as M.
  rewrite <- (count_perm _ _ _ P') in G; rewrite <- (count_perm _ _ _ P) in M.
  pose proof (count_mono (nth k s' 0) _ _ H); lia.
Qed.

Lemma interpolate_mono n s s' r : length s = n -> length s' = n ->
  (forall k, (k < n)%nat -> nth k s 0 <= nth k s' 0) -> interpolate s r <= interpolate s' r.
Proof.
  intros L L' H.
  assert (H' : forall k, nth k s 0 <= nth k s' 0).
  { intros k; destruct (Nat.lt_ge_cases k n) as [|Hk]; [apply H; assumption|].
    rewrite !nth_overflow by lia; lra. }
  unfold interpolate; set (i := Z.to_nat (Int_part r)).
  pose proof (H' i); pose proof (H' (S i)).
  destruct (base_Int_part r) as [B1 B2].
  set (d := r - IZR (Int_part r)) in *. assert (D : 0 <= d <= 1) by (unfold d; lra).
  assert ((1 - d) * nth i s 0 <= (1 - d) * nth i s' 0) by (apply Rmult_le_compat_l; lra).
  assert (d * nth (S i) s 0 <= d * nth (S i) s' 0) by (apply Rmult_le_compat_l; lra).
  lra.
Qed.
End Lists.

(** ** Impulse response filters in rounded arithmetic *)
Section Impulse.
Variable rnd : R -> R.
Variables eps tiny : R.
Hypothesis rnd_mono : forall x y, x <= y -> rnd x <= rnd y.
Notation F := (xnum rnd eps tiny).

Lemma dot_mono (c : list R) : Forall (fun r => 0 <= r) c -> forall (w w' : list F) (u u' : F),
  Forall2 at_most w w' -> at_most u u' ->
  at_most (fold_left (fun acc p => nadd (n := F) acc (nmul (n := F) (fst p) (snd p))) (combine w (map Fin c)) u)
          (fold_left (fun acc p => nadd (n := F) acc (nmul (n := F) (fst p) (snd p))) (combine w' (map Fin c)) u').
Proof.
  induction 1 as [|r c Hr _ IH]; intros w w' u u' H Hu; [destruct w, w'; exact Hu|].
  destruct H as [|x x' w w' Hx H]; [exact Hu|].
  cbn [map combine fold_left fst snd]; apply IH; [exact H|].
  destruct x as [x|], x' as [x'|], u as [u|], u' as [u'|]; cbn in Hx, Hu |- *; try contradiction.
  apply rnd_mono, Rplus_le_compat; [exact Hu|]. apply rnd_mono, Rmult_le_compat_r; assumption.
Qed.

Lemma dot_anti (c : list R) : Forall (fun r => r <= 0) c -> forall (w w' : list F) (u u' : F),
  Forall2 at_most w w' -> at_most u' u ->
  at_most (fold_left (fun acc p => nadd (n := F) acc (nmul (n := F) (fst p) (snd p))) (combine w' (map Fin c)) u')
          (fold_left (fun acc p => nadd (n := F) acc (nmul (n := F) (fst p) (snd p))) (combine w (map Fin c)) u).
Proof.
  induction 1 as [|r c Hr _ IH]; intros w w' u u' H Hu; [destruct w, w'; exact Hu|].
  destruct H as [|x x' w w' Hx H]; [exact Hu|].
  cbn [map combine fold_left fst snd]; apply IH; [exact H|].
  destruct x as [x|], x' as [x'|], u as [u|], u' as [u'|]; cbn in Hx, Hu |- *; try contradiction.
  apply rnd_mono, Rplus_le_compat; [exact Hu|]. apply rnd_mono.
  rewrite (Rmult_comm x' r), (Rmult_comm x r). apply Rmult_le_compat_neg_l; assumption.
Qed.

Lemma push_front_mono n (w w' : list F) (x x' : F) : Forall2 at_most w w' -> at_most x x' ->
  Forall2 at_most (rb_push_front n w x) (rb_push_front n w' x').
Proof.
  intros H Hx; unfold rb_push_front, rb_full.
  replace (@length F w) with (@length F w') by (symmetry; exact (Forall2_len _ _ _ H)).
  destruct (Nat.leb _ _); constructor; try assumption; apply forall2_removelast, H.
Qed.

Lemma zero_mono : at_most (n0 : F) (n0 : F).
Proof. cbn; lra. Qed.

Lemma raised_ops ops ops' : raised ops ops' ->
  Forall2 (op_rel at_most) (map (op_map Fin) ops) (map (op_map Fin) ops').
Proof.
  induction 1 as [|o o' ops ops' Ho _ IH]; [constructor|]; cbn [map]; constructor; [|exact IH].
  destruct o, o'; cbn; auto.
Qed.

Definition fir_le (c : list R) (s s' : fir F) : Prop :=
  Forall2 at_most (fir_input s) (fir_input s') /\ at_most (fir_output s) (fir_output s') /\
  fir_coefficients s = map Fin c /\ fir_coefficients s' = map Fin c.

Lemma fir_mono (c : list R) ops ops' : Forall (fun r => 0 <= r) c -> raised ops ops' ->
  at_most (fir_value F (fir_run F (map Fin c) (map (op_map Fin) ops)))
          (fir_value F (fir_run F (map Fin c) (map (op_map Fin) ops'))).
Proof.
  intros Hc H.
  enough (E : fir_le c (fir_run F (map Fin c) (map (op_map Fin) ops)) (fir_run F (map Fin c) (map (op_map Fin) ops')))
    by apply E.
  unfold fir_run; apply (run_rel (fir_le c) at_most); [| |apply raised_ops, H|].
  - intros [w y d] [w' y' d'] x x' (H1 & H2 & H3 & H4) Hx; cbn in H1, H2, H3, H4; subst d d'.
    unfold fir_push, fir_le; cbn [fir_input fir_output fir_coefficients].
    assert (P := push_front_mono (length (map (@Fin) c)) w w' x x' H1 Hx).
    split; [exact P|]; split; [|split; reflexivity].
    exact (dot_mono c Hc _ _ _ _ P zero_mono).
  - intros [w y d] [w' y' d'] (H1 & H2 & H3 & H4); repeat split; try assumption; constructor.
  - repeat split; [constructor|apply zero_mono].
Qed.

Definition iir_le (b a : list R) (k : R) (s s' : iir F) : Prop :=
  Forall2 at_most (iir_input s) (iir_input s') /\ Forall2 at_most (iir_output s) (iir_output s') /\
  (iir_input_coefficients s = map Fin b /\ iir_input_coefficients s' = map Fin b) /\
  (iir_output_coefficients s = map Fin a /\ iir_output_coefficients s' = map Fin a) /\
  iir_scale s = Fin k /\ iir_scale s' = Fin k.

Lemma iir_mono (b a : list R) (k : R) ops ops' : Forall (fun r => 0 <= r) b -> Forall (fun r => r <= 0) a -> 0 < k ->
  raised ops ops' ->
  at_most (iir_value F (iir_run F (map Fin b) (map Fin a) (Fin k) (map (op_map Fin) ops)))
          (iir_value F (iir_run F (map Fin b) (map Fin a) (Fin k) (map (op_map Fin) ops'))).
Proof.
  intros Hb Ha Hk H.
  assert (E : iir_le b a k (iir_run F (map Fin b) (map Fin a) (Fin k) (map (op_map Fin) ops))
                (iir_run F (map Fin b) (map Fin a) (Fin k) (map (op_map Fin) ops'))).
  { unfold iir_run; apply (run_rel (iir_le b a k) at_most); [| |apply raised_ops, H|].
    - intros [w d y g e] [w' d' y' g' e'] x x' (H1 & H2 & (H3 & H4) & (H5 & H6) & H7 & H8) Hx;
        cbn in H1, H2, H3, H4, H5, H6, H7, H8; subst d d' e e' g g'.
      unfold iir_push, iir_le; cbn [iir_input iir_output iir_input_coefficients iir_output_coefficients iir_scale].
      assert (P := push_front_mono (length (map (@Fin) b)) w w' x x' H1 Hx).
      split; [exact P|]; split; [|repeat split].
      pose proof (dot_mono b Hb _ _ _ _ P zero_mono) as Q1.
      pose proof (dot_anti a Ha _ _ _ _ H2 zero_mono) as Q2.
      apply push_front_mono; [exact H2|].
      unfold inner_product in *.
      match goal with |- at_most (ndiv (nsub ?f ?g) _) (ndiv (nsub ?f' ?g') _) =>
        change (at_most f f') in Q1; change (at_most g' g) in Q2;
        destruct f as [f0|], f' as [f0'|]; cbn in Q1; try contradiction;
        destruct g as [g0|], g' as [g0'|]; cbn in Q2; try contradiction end.
      cbn. rewrite Req_bool_false by lra; cbn.
      apply rnd_mono; unfold Rdiv; apply Rmult_le_compat_r; [apply Rlt_le, Rinv_0_lt_compat, Hk|].
      apply rnd_mono; lra.
    - intros [w d y g e] [w' d' y' g' e'] (H1 & H2 & (H3 & H4) & (H5 & H6) & H7 & H8); repeat split; try assumption; constructor.
    - repeat split; constructor. }
  destruct E as (_ & E & _); unfold iir_value, rb_front; destruct E; [apply zero_mono|assumption].
Qed.
End Impulse.
