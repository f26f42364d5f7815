(** * A larger last value, a larger mean, in rounded arithmetic: proofs *)

From Coq Require Import Reals ZArith NArith Bool List Arith Lia Lra.
From Flocq Require Import Core.
From Verif Require Import Arith History HistoryLemmas Buffer Cumulative Window Rounded RoundedProofs SpecMonotone ExactRuns.
Import ListNotations.
Local Open Scope R_scope.

Section Last.
Variables emin prec : Z.
Context {prec_gt_0_ : Prec_gt_0 prec}.
Hypothesis emin_le_0 : (emin <= 0)%Z.
Variable mode : R -> Z.
Context {valid_mode : Valid_rnd mode}.
Notation rnd := (rounding emin prec mode).
Notation F := (rounded emin prec mode).

Local Lemma mono x y : x <= y -> rnd x <= rnd y.
Proof. apply round_le; typeclasses eauto. Qed.

Lemma step_mono m x y c : 1 <= c -> x <= y ->
  rnd (m + rnd (rnd (x - m) / c)) <= rnd (m + rnd (rnd (y - m) / c)).
Proof.
  intros Hc H; apply mono, Rplus_le_compat_l, mono; unfold Rdiv; apply Rmult_le_compat_r.
  - apply Rlt_le, Rinv_0_lt_compat; lra.
  - apply mono; lra.
Qed.

Lemma cmean_state (l : list R) : fits l -> exists m,
  fold_left (cmean_push F) (map Fin l) (cmean_init F) = CMean F (Fin m) (N.of_nat (length l)).
Proof.
  induction l as [|x l IH] using rev_ind; intros H.
  - exists (rnd (IZR 0)); reflexivity.
  - unfold fits in H; rewrite app_length in H; cbn [length] in H.
    destruct IH as [m E]; [unfold fits; lia|].
    destruct (cmean_push_fin emin prec emin_le_0 mode m (N.of_nat (length l)) x ltac:(lia)) as (c & _ & _ & _ & E').
    rewrite map_app; exists (mean_step emin prec mode m x c).
    etransitivity; [exact (fold_left_app (cmean_push F) _ _ _)|]; cbn [map fold_left].
    etransitivity; [exact (f_equal (fun s => cmean_push F s (Fin x)) E)|].
    etransitivity; [exact E'|].
    apply (f_equal2 (CMean F)); [reflexivity|rewrite app_length; cbn [length]; lia].
Qed.

Lemma cmean_last ops x y : fits (since_clear (ops ++ [Push x])) -> x <= y ->
  at_most (cmean_mean F (run (cmean_push F) (cmean_clear F) (cmean_init F) (fops emin prec mode (ops ++ [Push x]))))
          (cmean_mean F (run (cmean_push F) (cmean_clear F) (cmean_init F) (fops emin prec mode (ops ++ [Push y])))).
Proof.
  intros H Hxy; unfold fops.
  rewrite !run_since_clear by reflexivity.
  rewrite since_clear_snoc_push in H; unfold fits in H; rewrite app_length in H; cbn [length] in H.
  rewrite !since_clear_op_map, !since_clear_snoc_push, !map_app.
  destruct (cmean_state (since_clear ops)) as [m E]; [unfold fits; lia|].
  assert (K : forall z, fold_left (cmean_push F) (map Fin (since_clear ops) ++ map Fin [z]) (cmean_init F)
     = cmean_push F (CMean F (Fin m) (N.of_nat (length (since_clear ops)))) (Fin z)).
  { intros z; etransitivity; [exact (fold_left_app (cmean_push F) _ _ _)|]; cbn [map fold_left].
    exact (f_equal (fun s => cmean_push F s (Fin z)) E). }
  rewrite !(K _).
  destruct (cmean_push_fin emin prec emin_le_0 mode m (N.of_nat (length (since_clear ops))) x ltac:(lia)) as (c & Ec & C1 & _ & ->).
  destruct (cmean_push_fin emin prec emin_le_0 mode m (N.of_nat (length (since_clear ops))) y ltac:(lia)) as (c' & Ec' & _ & _ & ->).
  rewrite <- Ec in Ec'; subst c'. cbn; apply step_mono; assumption.
Qed.

Variable W : nat.
Hypothesis HW : (0 < W)%nat.
Hypothesis HW64 : (N.of_nat W < szmod)%N.

Definition fin_window (s : wmean F) : Prop :=
  (length (wm_window F s) <= W)%nat /\
  Forall (fun v => exists r, v = Fin r) (wm_window F s) /\ exists m, wm_mean F s = Fin m.

(** One push from such a state. *)
Lemma wmean_push_fin s x y : fin_window s -> x <= y ->
  at_most (wm_mean F (wmean_push F W s (Fin x))) (wm_mean F (wmean_push F W s (Fin y))).
Proof.
  intros (L & Hf & m & Em) Hxy; destruct s as [w mm]; cbn [wm_window wm_mean] in *; subst mm.
  unfold wmean_push, wmean_full, wmean_size, rb_full, rb_size, rb_front; cbn [wm_window wm_mean].
  destruct (Nat.leb W (length w)) eqn:Efull.
  - apply Nat.leb_le in Efull. destruct w as [|f w]; cbn [hd_error length] in *; [lia|].
    inversion Hf as [|? ? [r Er] _]; subst f.
    destruct (count_fin emin prec emin_le_0 mode (N.of_nat (S (length w))) ltac:(lia)) as (c & E & _ & C1 & _).
    change (carrier F) with xreal in *; rewrite E.
    cbn; rewrite Req_bool_false by lra; cbn.
    apply mono, Rplus_le_compat_l, mono; unfold Rdiv; apply Rmult_le_compat_r;
      [apply Rlt_le, Rinv_0_lt_compat; lra|apply mono; lra].
  - apply Nat.leb_gt in Efull.
    rewrite szadd_small by lia.
    destruct (count_fin emin prec emin_le_0 mode (N.of_nat (length w) + 1) ltac:(lia)) as (c & E & _ & C1 & _).
    change (carrier F) with xreal in *; rewrite E.
    cbn; rewrite Req_bool_false by lra; cbn. apply step_mono; assumption.
Qed.

Lemma fin_window_push s x : fin_window s -> fin_window (wmean_push F W s (Fin x)).
Proof.
  intros H; pose proof (wmean_push_fin s x x H (Rle_refl x)) as M; destruct H as (L & Hf & _).
  split; [|split].
  - unfold wmean_push; cbn [wm_window]; unfold rb_push_back, rb_full.
    destruct (Nat.leb W (length (wm_window F s))) eqn:E; rewrite app_length; cbn [length].
    + apply Nat.leb_le in E. clear -L E HW. destruct (wm_window F s) as [|v w]; cbn [tl length] in *; lia.
    + apply Nat.leb_gt in E; clear -L E; change (length (wm_window F s) + 1 <= W)%nat; change (length (wm_window F s) < W)%nat in E; lia.
  - unfold wmean_push; cbn [wm_window]; unfold rb_push_back.
    destruct (rb_full W (wm_window F s)); apply Forall_app; (split; [|repeat constructor; eauto]); [|exact Hf].
    destruct Hf; cbn; [constructor|assumption].
  - destruct (wm_mean F (wmean_push F W s (Fin x))) as [r|]; [eauto|contradiction].
Qed.

Lemma wmean_last ops x y : x <= y ->
  at_most (wmean_mean F (run (wmean_push F W) (wmean_clear F) (wmean_init F) (fops emin prec mode (ops ++ [Push x]))))
          (wmean_mean F (run (wmean_push F W) (wmean_clear F) (wmean_init F) (fops emin prec mode (ops ++ [Push y])))).
Proof.
  intros Hxy; unfold fops; rewrite !map_app; unfold run; rewrite !fold_left_app; cbn [map fold_left op_map step].
  apply wmean_push_fin; [|exact Hxy].
  assert (I0 : fin_window (wmean_init F)).
  { split; [cbn; lia|]; split; [constructor|eexists; reflexivity]. }
  induction ops as [|o ops IH] using rev_ind; [exact I0|].
  rewrite map_app, fold_left_app; cbn [map fold_left]; destruct o; cbn [op_map step]; [apply fin_window_push, IH|exact I0].
Qed.
End Last.
