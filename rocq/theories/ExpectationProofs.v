(** * Expected values of statistics *)

From Coq Require Import Reals List Lra Lia Arith.
From Verif Require Import SpecStats StatsLemmas SpecExpectation SpecDecay History SpecBlocks.
Import ListNotations.
Local Open Scope R_scope.

Section Expect.
Context {A : Type}.
Implicit Types (D : dist A) (Ds : list (dist A)).

Lemma expect_ext D f g : (forall x, f x = g x) -> expect D f = expect D g.
Proof. intros H. unfold expect. f_equal. apply map_ext. intros p. rewrite H. reflexivity. Qed.

Lemma expect_plus D f g : expect D (fun x => f x + g x) = expect D f + expect D g.
Proof. unfold expect. induction D as [|p D IH]; cbn; [ring|]. rewrite IH. ring. Qed.

Lemma expect_scal D c f : expect D (fun x => c * f x) = c * expect D f.
Proof. unfold expect. induction D as [|p D IH]; cbn; [ring|]. rewrite IH. ring. Qed.

Lemma expect_const D c : probability D -> expect D (fun _ => c) = c.
Proof.
  intros [_ H]. unfold expect.
  assert (G : Rsum (map (fun p : R * A => fst p * c) D) = Rsum (map fst D) * c).
  { clear H. induction D as [|p D IH]; cbn; [ring|]. rewrite IH. ring. }
  rewrite G, H. ring.
Qed.

Lemma each_ext Ds : forall f g, (forall l, length l = length Ds -> f l = g l) -> expect_each Ds f = expect_each Ds g.
Proof.
  induction Ds as [|D Ds IH]; intros f g H; cbn; [apply H; reflexivity|].
  apply expect_ext. intros x. apply IH. intros l Hl. apply H. cbn. congruence.
Qed.

Lemma each_plus Ds : forall f g, expect_each Ds (fun l => f l + g l) = expect_each Ds f + expect_each Ds g.
Proof.
  induction Ds as [|D Ds IH]; intros f g; cbn; [reflexivity|].
  rewrite <- expect_plus. apply expect_ext. intros x. apply IH.
Qed.

Lemma each_scal Ds : forall c f, expect_each Ds (fun l => c * f l) = c * expect_each Ds f.
Proof.
  induction Ds as [|D Ds IH]; intros c f; cbn; [reflexivity|].
  rewrite <- expect_scal. apply expect_ext. intros x. apply IH.
Qed.

Lemma each_const Ds : forall c, Forall probability Ds -> expect_each Ds (fun _ => c) = c.
Proof.
  induction Ds as [|D Ds IH]; intros c H; cbn; [reflexivity|]. inversion H; subst.
  rewrite (expect_ext D _ (fun _ => c)); [apply expect_const; assumption|]. intros x. apply IH. assumption.
Qed.

Lemma each_prob D n : probability D -> Forall probability (repeat D n).
Proof. intros H. induction n; cbn; constructor; assumption. Qed.

(** Dropping observations. *)
Lemma each_skipn k : forall Ds f, Forall probability Ds ->
  expect_each Ds (fun l => f (skipn k l)) = expect_each (skipn k Ds) f.
Proof.
  induction k as [|k IH]; intros Ds f H; [reflexivity|]. destruct Ds as [|D Ds]; [reflexivity|].
  cbn. inversion H; subst.
  rewrite (expect_ext D _ (fun _ => expect_each (skipn k Ds) f)).
  - apply expect_const. assumption.
  - intros x. apply (IH Ds f). assumption.
Qed.

(** Sums and products of sums. *)
Lemma sample_sum D n h : probability D -> expect_sample D n (fun l => Rsum (map h l)) = INR n * expect D h.
Proof.
  intros H. unfold expect_sample. induction n as [|n IH]; [cbn; ring|].
  rewrite S_INR. cbn [repeat expect_each map Rsum].
  rewrite (expect_ext D _ (fun x => h x + INR n * expect D h)).
  - rewrite expect_plus, expect_const by exact H. ring.
  - intros x. rewrite each_plus, IH, each_const by (apply each_prob; exact H). reflexivity.
Qed.

Lemma sample_product D n h k : probability D ->
  expect_sample D n (fun l => Rsum (map h l) * Rsum (map k l)) =
  INR n * expect D (fun x => h x * k x) + INR n * (INR n - 1) * (expect D h * expect D k).
Proof.
  intros H. induction n as [|n IH]; [cbn; ring|].
  pose proof (sample_sum D n h H) as Sh. pose proof (sample_sum D n k H) as Sk. unfold expect_sample in *.
  rewrite S_INR. cbn [repeat expect_each map Rsum].
  rewrite (expect_ext D _ (fun x => h x * k x + ((INR n * expect D k) * h x + ((INR n * expect D h) * k x +
     (INR n * expect D (fun x => h x * k x) + INR n * (INR n - 1) * (expect D h * expect D k)))))).
  - rewrite !expect_plus, !expect_scal, !expect_const by exact H. ring.
  - intros x. rewrite <- IH. clear IH.
    rewrite (each_ext _ _ (fun l => h x * k x + (h x * Rsum (map k l) + (k x * Rsum (map h l) + Rsum (map h l) * Rsum (map k l)))))
      by (intros; ring).
    rewrite (each_plus _ (fun _ => h x * k x)), each_const by (apply each_prob; exact H).
    rewrite (each_plus _ (fun l => h x * Rsum (map k l))), (each_scal _ (h x)), Sk.
    rewrite (each_plus _ (fun l => k x * Rsum (map h l))), (each_scal _ (k x)), Sh. ring.
Qed.

Lemma cov_shift D h k : probability D ->
  expect D (fun x => (h x - expect D h) * (k x - expect D k)) = expect D (fun x => h x * k x) - expect D h * expect D k.
Proof.
  intros H.
  rewrite (expect_ext D _ (fun x => h x * k x + ((- expect D k) * h x + ((- expect D h) * k x + expect D h * expect D k)))) by (intros; ring).
  rewrite !expect_plus, !expect_scal, !expect_const by exact H. ring.
Qed.

(** The sum of products of deviations. *)
Lemma sample_cosum D n h k : probability D -> (0 < n)%nat ->
  expect_sample D n (fun l => Rsum (map (fun x => h x * k x) l) - Rsum (map h l) * Rsum (map k l) / INR n) =
  (INR n - 1) * expect D (fun x => (h x - expect D h) * (k x - expect D k)).
Proof.
  intros H Hn. assert (P : INR n <> 0) by (apply not_0_INR; lia).
  rewrite cov_shift by exact H.
  unfold expect_sample.
  rewrite (each_ext _ _ (fun l => Rsum (map (fun x => h x * k x) l) + (- / INR n) * (Rsum (map h l) * Rsum (map k l))))
    by (intros; field; exact P).
  rewrite each_plus, each_scal.
  fold (expect_sample D n (fun l => Rsum (map (fun x => h x * k x) l))).
  fold (expect_sample D n (fun l => Rsum (map h l) * Rsum (map k l))).
  rewrite sample_sum, sample_product by exact H. field. exact P.
Qed.
End Expect.

(** ** Linear statistics *)
Fixpoint dot (w l : list R) : R :=
  match w, l with a :: w', x :: l' => a * x + dot w' l' | _, _ => 0 end.

Definition linear (n : nat) (f : list R -> R) : Prop :=
  exists w, length w = n /\ forall l, length l = n -> f l = dot w l.

Lemma each_dot Ds : forall w, Forall probability Ds -> length w = length Ds ->
  expect_each Ds (dot w) = dot w (map pop_mean Ds).
Proof.
  induction Ds as [|D Ds IH]; intros [|a w] H HL; cbn in *; try discriminate; [reflexivity|].
  inversion H; subst. injection HL as HL.
  rewrite (expect_ext D _ (fun x => a * x + dot w (map pop_mean Ds))).
  - rewrite expect_plus, expect_scal, expect_const by assumption. reflexivity.
  - intros x. rewrite each_plus, each_const by assumption. f_equal. apply IH; assumption.
Qed.

Lemma each_linear Ds f : Forall probability Ds -> linear (length Ds) f ->
  expect_each Ds f = f (map pop_mean Ds).
Proof.
  intros H (w & HL & Hw). rewrite (each_ext _ f (dot w)) by exact Hw.
  rewrite each_dot by assumption. symmetry. apply Hw. apply map_length.
Qed.

Lemma sample_linear D n f : probability D -> linear n f -> expect_sample D n f = f (repeat (pop_mean D) n).
Proof.
  intros H HL. unfold expect_sample. rewrite each_linear.
  - f_equal. clear HL. induction n; cbn; congruence.
  - apply each_prob; exact H.
  - rewrite repeat_length. exact HL.
Qed.

Lemma linear_ext n f g : (forall l, length l = n -> f l = g l) -> linear n g -> linear n f.
Proof. intros H (w & HL & Hw). exists w. split; [exact HL|]. intros l Hl. rewrite H by exact Hl. apply Hw, Hl. Qed.

Lemma linear_scal n c f : linear n f -> linear n (fun l => c * f l).
Proof.
  intros (w & HL & Hw). exists (map (Rmult c) w). split; [rewrite map_length; exact HL|].
  intros l Hl. rewrite Hw by exact Hl. clear - w. revert l. induction w as [|a w IH]; intros [|x l]; cbn; try ring.
  rewrite <- IH. ring.
Qed.

Lemma linear_plus n f g : linear n f -> linear n g -> linear n (fun l => f l + g l).
Proof.
  intros (w & HL & Hw) (v & HL' & Hv). exists (map (fun p => fst p + snd p) (combine w v)).
  split; [rewrite map_length, combine_length; lia|].
  intros l Hl. rewrite Hw, Hv by exact Hl. clear Hw Hv. revert w v l HL HL' Hl.
  induction n as [|n IH]; intros [|a w] [|b v] [|x l] HL HL' Hl; cbn in *; try discriminate; [ring|].
  injection HL as HL. injection HL' as HL'. injection Hl as Hl. rewrite <- (IH w v l) by assumption. ring.
Qed.

Lemma linear_sum n : linear n Rsum.
Proof.
  exists (repeat 1 n). split; [apply repeat_length|]. induction n as [|n IH]; intros [|x l] Hl; cbn in *; try discriminate; [reflexivity|].
  injection Hl as Hl. rewrite <- IH by exact Hl. ring.
Qed.

Lemma linear_skipn n k f : (k <= n)%nat -> linear (n - k) f -> linear n (fun l => f (skipn k l)).
Proof.
  intros Hk (w & HL & Hw). exists (repeat 0 k ++ w). split; [rewrite app_length, repeat_length; lia|].
  intros l Hl. rewrite Hw by (rewrite skipn_length; lia).
  assert (G : forall k l, (k <= length l)%nat -> dot w (skipn k l) = dot (repeat 0 k ++ w) l).
  { clear. induction k as [|k IH]; intros l Hk; [reflexivity|]. destruct l as [|x l]; cbn in *; [lia|].
    rewrite IH by lia. ring. }
  apply G. lia.
Qed.

Lemma linear_firstn n k f : (k <= n)%nat -> linear k f -> linear n (fun l => f (firstn k l)).
Proof.
  intros Hk (w & HL & Hw). exists (w ++ repeat 0 (n - k)). split; [rewrite app_length, repeat_length; lia|].
  intros l Hl. rewrite Hw by (rewrite firstn_length; lia).
  assert (Z : forall m l, dot (repeat 0 m) l = 0).
  { clear. induction m as [|m IH]; intros [|x l]; cbn; try reflexivity. rewrite IH. ring. }
  assert (G : forall w l, dot w (firstn (length w) l) = dot (w ++ repeat 0 (n - k)) l).
  { clear - Z. induction w as [|a w IH]; intros l; cbn; [symmetry; apply Z|]. destruct l as [|x l]; [reflexivity|].
    rewrite IH. reflexivity. }
  rewrite <- HL at 1. apply G.
Qed.

Lemma linear_mean n : linear n mean.
Proof.
  apply (linear_ext n _ (fun l => / INR n * Rsum l)).
  - intros l Hl. unfold mean, card. rewrite Hl. unfold Rdiv. ring.
  - apply linear_scal, linear_sum.
Qed.

Lemma lastn_skipn {A} k (l : list A) : lastn k l = skipn (length l - k) l.
Proof. reflexivity. Qed.

Lemma linear_lastn n k f : linear (Nat.min k n) f -> linear n (fun l => f (lastn k l)).
Proof.
  intros H. apply (linear_ext n _ (fun l => f (skipn (n - k) l))).
  - intros l Hl. rewrite lastn_skipn, Hl. reflexivity.
  - apply (linear_skipn n (n - k)); [lia|]. replace (n - (n - k))%nat with (Nat.min k n) by lia. exact H.
Qed.

Lemma linear_esum q n : linear n (esum q).
Proof.
  exists (map (fun i => q ^ (n - 1 - i)) (seq 0 n)). split; [rewrite map_length, seq_length; reflexivity|].
  assert (G : forall n k m, (k + n <= m)%nat -> forall l, length l = n -> m = (k + n)%nat -> esum q l = dot (map (fun i => q ^ (m - 1 - i)) (seq k n)) l).
  { clear. induction n as [|n IH]; intros k m Hm [|x l] Hl E; cbn in *; try discriminate; [reflexivity|].
    injection Hl as Hl. rewrite (IH (S k) m) by lia. f_equal. f_equal. f_equal. lia. }
  intros l Hl. apply G; lia.
Qed.
