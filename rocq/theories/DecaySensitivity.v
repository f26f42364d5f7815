(** * Dependence of the exponentially weighted mean on the factor *)

From Coq Require Import Reals List Lia Lra Psatz.
From Flocq Require Import Core.Raux.
From Verif Require Import SpecDecay DecayProofs.
Import ListNotations.
Local Open Scope R_scope.

(** Sum of the weights of [n] values *)
Definition weights (f : R) (n : nat) : R := esum (1 - f) (repeat 1 n).

Lemma weights_eq f (l : list R) : esum (1 - f) (map (fun _ => 1) l) = weights f (length l).
Proof. unfold weights. f_equal. induction l; cbn; congruence. Qed.

Lemma weights_S f n : weights f (S n) = (1 - f) * weights f n + 1.
Proof.
  unfold weights. rewrite <- esum_snoc. f_equal. replace (S n) with (n + 1)%nat by lia.
  rewrite repeat_app. reflexivity.
Qed.

Lemma weights_closed f n : f * weights f n = 1 - (1 - f) ^ n.
Proof.
  induction n as [|n IH]; [unfold weights; cbn; lra|].
  rewrite weights_S. cbn [pow].
  replace (f * ((1 - f) * weights f n + 1)) with ((1 - f) * (f * weights f n) + f) by ring. rewrite IH. ring.
Qed.

Lemma weights_ge f n : 0 < f <= 1 -> 0 <= weights f n.
Proof. intros H. induction n as [|n IH]; [unfold weights; cbn; lra|]. rewrite weights_S. nra. Qed.

Lemma weights_mono f g n : 0 < f -> f <= g <= 1 -> weights g n <= weights f n.
Proof.
  intros F G. induction n as [|n IH]; [unfold weights; cbn; lra|].
  rewrite !weights_S. pose proof (weights_ge g n ltac:(lra)).
  assert ((1 - g) * weights g n <= (1 - f) * weights f n) by (apply Rmult_le_compat; lra). lra.
Qed.

Lemma weights_cross f g n : 0 < f -> f <= g <= 1 -> f * weights f n <= g * weights g n.
Proof.
  intros F G. rewrite !weights_closed. pose proof (pow_incr (1 - g) (1 - f) n ltac:(lra)). lra.
Qed.

Lemma ewma_step f (l : list R) x : 0 < f <= 1 -> l <> [] ->
  ewma f (l ++ [x]) = ewma f l + / weights f (S (length l)) * (x - ewma f l).
Proof.
  intros Hf NE. unfold ewma. rewrite !weights_eq, app_length, esum_snoc. cbn [length].
  replace (length l + 1)%nat with (S (length l)) by lia.
  rewrite weights_S.
  assert (P : 0 < weights f (length l)).
  { destruct l as [|y l]; [congruence|]. cbn [length]. rewrite weights_S. pose proof (weights_ge f (length l) Hf). nra. }
  field. split; [lra|]. nra.
Qed.

(** The relative error of the factor is passed on, and not amplified. *)
Lemma ewma_sensitivity f g M (l : list R) : 0 < f -> f <= g <= 1 ->
  l <> [] -> Forall (fun x => Rabs x <= M) l ->
  Rabs (ewma f l - ewma g l) <= 2 * M * ((g - f) / f).
Proof.
  intros F G NE HM.
  assert (D0 : 0 <= (g - f) / f) by (apply Rmult_le_pos; [lra|apply Rlt_le, Rinv_0_lt_compat; exact F]).
  set (d := (g - f) / f) in *.
  assert (Bd : forall h t, 0 < h <= 1 -> t <> [] -> Forall (fun x => Rabs x <= M) t -> - M <= ewma h t <= M).
  { intros h t Hh Ht HT. apply ewma_bounds; [exact Hh|exact Ht|].
    eapply Forall_impl; [|exact HT]. intros a Ha. apply Rabs_le_inv. exact Ha. }
  induction l as [|x l IH] using rev_ind; [congruence|].
  apply Forall_app in HM. destruct HM as [HM Hx]. inversion Hx as [|? ? Hx' _]. subst.
  assert (M0 : 0 <= M) by (pose proof (Rabs_pos x); lra).
  assert (T0 : 0 <= 2 * M * d) by (apply Rmult_le_pos; lra).
  destruct l as [|y l].
  { replace (ewma f ([] ++ [x])) with x by (unfold ewma; cbn; field).
    replace (ewma g ([] ++ [x])) with x by (unfold ewma; cbn; field).
    rewrite Rminus_diag_eq, Rabs_R0 by reflexivity. exact T0. }
  remember (y :: l) as t. assert (Ht : t <> []) by (subst; discriminate).
  specialize (IH Ht HM).
  rewrite !ewma_step by (assumption || lra).
  set (n := S (length t)).
  set (a := / weights f n). set (b := / weights g n).
  assert (Wf : 1 <= weights f n) by (unfold n; rewrite weights_S; pose proof (weights_ge f (length t) ltac:(lra)); nra).
  assert (Wg : 1 <= weights g n) by (unfold n; rewrite weights_S; pose proof (weights_ge g (length t) ltac:(lra)); nra).
  assert (a01 : 0 < a <= 1).
  { unfold a. split; [apply Rinv_0_lt_compat; lra|]. rewrite <- Rinv_1. apply Rinv_le_contravar; lra. }
  assert (ab : a <= b).
  { unfold a, b. apply Rinv_le_contravar; [lra|]. apply weights_mono; assumption. }
  assert (ba : b - a <= d * a).
  { pose proof (weights_cross f g n F G) as X.
    assert (Ea : a * weights f n = 1) by (unfold a; field; lra).
    assert (Eb : b * weights g n = 1) by (unfold b; field; lra).
    assert (Ed : f * d = g - f) by (unfold d; field; lra).
    assert (f * b <= g * a).
    { replace (f * b) with (f * b * (a * weights f n)) by (rewrite Ea; ring).
      replace (g * a) with (g * a * (b * weights g n)) by (rewrite Eb; ring).
      replace (f * b * (a * weights f n)) with (a * b * (f * weights f n)) by ring.
      replace (g * a * (b * weights g n)) with (a * b * (g * weights g n)) by ring.
      apply Rmult_le_compat_l; [nra|exact X]. }
    apply Rmult_le_reg_l with f; [exact F|]. nra. }
  pose proof (Bd g t ltac:(lra) Ht HM) as Bg.
  set (E := ewma f t) in *. set (E' := ewma g t) in *.
  apply Rabs_le_inv in Hx'.
  replace (E + a * (x - E) - (E' + b * (x - E'))) with ((1 - a) * (E - E') + (a - b) * (x - E')) by ring.
  apply Rle_trans with (1 := Rabs_triang _ _). rewrite !Rabs_mult.
  rewrite (Rabs_pos_eq (1 - a)) by lra. rewrite (Rabs_minus_sym a b), (Rabs_pos_eq (b - a)) by lra.
  assert (X2 : Rabs (x - E') <= 2 * M) by (apply Rabs_le; lra).
  pose proof (Rabs_pos (x - E')).
  assert ((1 - a) * Rabs (E - E') <= (1 - a) * (2 * M * d)) by (apply Rmult_le_compat_l; lra).
  assert ((b - a) * Rabs (x - E') <= d * a * (2 * M)) by (apply Rmult_le_compat; lra).
  lra.
Qed.
