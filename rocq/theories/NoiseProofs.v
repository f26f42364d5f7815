(** * Variance of linear statistics *)

From Coq Require Import Reals List Lia Lra Arith.
From Verif Require Import Arith History SpecStats StatsLemmas SpecExpectation SpecNoise SpecDecay SpecImpulse SpecBlocks ExpectationProofs.
Import ListNotations.
Local Open Scope R_scope.

Lemma energy_app a b : energy (a ++ b) = energy a + energy b.
Proof. unfold energy. rewrite map_app, Rsum_app. reflexivity. Qed.
Lemma energy_zero n : energy (repeat 0 n) = 0.
Proof. unfold energy. induction n as [|n IH]; cbn; [reflexivity|]. rewrite IH. ring. Qed.
Lemma energy_nonneg c : 0 <= energy c.
Proof. unfold energy. induction c as [|a c IH]; cbn; [lra|]. pose proof (Rle_0_sqr a). unfold Rsqr in H. lra. Qed.

Lemma each_dot_var Ds s2 : forall w, Forall probability Ds -> Forall (fun D => pop_variance D = s2) Ds ->
  length w = length Ds ->
  expect_each Ds (fun l => (dot w l - dot w (map pop_mean Ds)) ^ 2) = energy w * s2.
Proof.
  unfold energy.
  induction Ds as [|D Ds IH]; intros [|a w] H HV HL; cbn [length] in HL; try discriminate; [cbn; ring|].
  inversion H as [|? ? HD HDs]; subst. inversion HV as [|? ? VD VDs]; subst. injection HL as HL.
  cbn [expect_each map dot Rsum]. set (M := dot w (map pop_mean Ds)). set (m := pop_mean D).
  rewrite (expect_ext D _ (fun x => a * a * (x - m) ^ 2 + Rsum (map (fun a => a * a) w) * pop_variance D)).
  - rewrite expect_plus, expect_scal, expect_const by exact HD. change (expect D (fun x => (x - m) ^ 2)) with (pop_variance D). ring.
  - intros x.
    rewrite (each_ext Ds _ (fun l => a * a * (x - m) ^ 2 + (2 * a * (x - m) * dot w l + (- (2 * a * (x - m) * M) + (dot w l - M) ^ 2)))) by (intros; ring).
    rewrite each_plus, each_const by exact HDs. rewrite each_plus, each_scal, each_dot by assumption.
    rewrite each_plus, each_const by exact HDs. assert (IH' : expect_each Ds (fun l => (dot w l - M) ^ 2) = Rsum (map (fun a => a * a) w) * pop_variance D) by (apply IH; assumption).
    rewrite IH'. fold M. ring.
Qed.

(** Linear statistics of [n] values whose weights have the given energy. *)
Definition lin (n : nat) (f : list R -> R) (v : R) : Prop :=
  exists w, length w = n /\ energy w = v /\ forall l, length l = n -> f l = dot w l.

Lemma noise_lin Ds out f v s2 m : Forall probability Ds -> Forall (fun D => pop_variance D = s2) Ds ->
  (forall l, length l = length Ds -> out l = Fin (f l)) -> lin (length Ds) f v ->
  f (map pop_mean Ds) = m -> noise Ds out m (v * s2).
Proof.
  intros HP HV Ho (w & HL & Hv & Hw) Hm. exists f. split; [exact Ho|].
  assert (Em : dot w (map pop_mean Ds) = m) by (rewrite <- Hw; [exact Hm|apply map_length]).
  split.
  - rewrite (each_ext _ f (dot w)) by exact Hw. rewrite each_dot by assumption. exact Em.
  - rewrite (each_ext _ _ (fun l => (dot w l - dot w (map pop_mean Ds)) ^ 2)) by (intros l Hl; rewrite Em, Hw by exact Hl; reflexivity).
    rewrite (each_dot_var Ds s2) by assumption. rewrite Hv. reflexivity.
Qed.

Lemma lin_ext n f g v : (forall l, length l = n -> f l = g l) -> lin n g v -> lin n f v.
Proof. intros H (w & HL & Hv & Hw). exists w. split; [exact HL|]. split; [exact Hv|]. intros l Hl. rewrite H by exact Hl. apply Hw, Hl. Qed.

Lemma lin_scal n c f v : lin n f v -> lin n (fun l => c * f l) (c * c * v).
Proof.
  intros (w & HL & Hv & Hw). exists (map (Rmult c) w). split; [rewrite map_length; exact HL|]. split.
  - rewrite <- Hv. unfold energy. clear. induction w as [|a w IH]; cbn; [ring|]. rewrite IH. ring.
  - intros l Hl. rewrite Hw by exact Hl. clear - w. revert l. induction w as [|a w IH]; intros [|x l]; cbn; try ring.
    rewrite <- IH. ring.
Qed.

Lemma lin_sum n : lin n Rsum (INR n).
Proof.
  exists (repeat 1 n). split; [apply repeat_length|]. split.
  - unfold energy. induction n as [|n IH]; [reflexivity|]. rewrite S_INR. cbn [repeat map Rsum]. rewrite IH. ring.
  - induction n as [|n IH]; intros [|x l] Hl; cbn in *; try discriminate; [reflexivity|].
    injection Hl as Hl. rewrite <- IH by exact Hl. ring.
Qed.

Lemma lin_mean n : (0 < n)%nat -> lin n mean (/ INR n).
Proof.
  intros Hn. assert (P : INR n <> 0) by (apply not_0_INR; lia).
  replace (/ INR n) with (/ INR n * / INR n * INR n) by (field; exact P).
  apply (lin_ext n _ (fun l => / INR n * Rsum l)).
  - intros l Hl. unfold mean, card. rewrite Hl. unfold Rdiv. ring.
  - apply lin_scal, lin_sum.
Qed.

Lemma dot_app w v : forall l, (length w <= length l)%nat -> dot (w ++ v) l = dot w (firstn (length w) l) + dot v (skipn (length w) l).
Proof.
  induction w as [|a w IH]; intros [|x l] H; cbn in *; try (exfalso; inversion H; fail); try ring.
  rewrite IH by (apply le_S_n in H; exact H). ring.
Qed.

(** Independent parts. *)
Lemma lin_split n k f g u v : (k <= n)%nat -> lin k f u -> lin (n - k) g v ->
  lin n (fun l => f (firstn k l) + g (skipn k l)) (u + v).
Proof.
  intros Hk (w & HL & Hv & Hw) (w' & HL' & Hv' & Hw'). exists (w ++ w').
  split; [rewrite app_length; lia|]. split; [rewrite energy_app; congruence|].
  intros l Hl. rewrite dot_app by lia. rewrite HL.
  rewrite Hw by (rewrite firstn_length; lia). rewrite Hw' by (rewrite skipn_length; lia). reflexivity.
Qed.

Lemma dot_zero n : forall l, dot (repeat 0 n) l = 0.
Proof. induction n as [|n IH]; intros [|x l]; cbn; try reflexivity. rewrite IH. ring. Qed.

Lemma lin_zero n : lin n (fun _ => 0) 0.
Proof. exists (repeat 0 n). split; [apply repeat_length|]. split; [apply energy_zero|]. intros l _. symmetry. apply dot_zero. Qed.

Lemma lin_lastn n k f v : lin (Nat.min k n) f v -> lin n (fun l => f (lastn k l)) v.
Proof.
  intros H. apply (lin_ext n _ (fun l => (fun _ => 0) (firstn (n - k) l) + f (skipn (n - k) l))).
  - intros l Hl. rewrite lastn_skipn, Hl. ring.
  - replace v with (0 + v) by ring. apply (lin_split n (n - k) (fun _ => 0) f); [lia|apply lin_zero|].
    replace (n - (n - k))%nat with (Nat.min k n) by lia. exact H.
Qed.

(** Weights of the decay mean. *)
Lemma lin_esum q n : lin n (esum q) (Rsum (map (fun i => q ^ i * q ^ i) (seq 0 n))).
Proof.
  induction n as [|n IH].
  - exists []. split; [reflexivity|]. split; [reflexivity|]. intros [|x l] Hl; [reflexivity|discriminate].
  - destruct IH as (w & HL & Hv & Hw). exists (q ^ n :: w). split; [cbn; congruence|]. split.
    + rewrite seq_S, map_app, Rsum_app. unfold energy in *. cbn [map Rsum plus]. rewrite Hv. ring.
    + intros [|x l] Hl; [discriminate|]. injection Hl as Hl. cbn. rewrite Hl, Hw by exact Hl. reflexivity.
Qed.

Lemma geo2 q n : (1 - q * q) * Rsum (map (fun i => q ^ i * q ^ i) (seq 0 n)) = 1 - q ^ n * q ^ n.
Proof.
  induction n as [|n IH]; [cbn; ring|]. rewrite seq_S, map_app, Rsum_app. cbn [map Rsum plus].
  rewrite !Rmult_plus_distr_l, IH. cbn [pow]. ring.
Qed.

Lemma geo1 q l : (1 - q) * esum q (map (fun _ : R => 1) l) = 1 - q ^ length l.
Proof.
  induction l as [|x l IH]; [cbn; ring|]. cbn [map esum length]. rewrite map_length, Rmult_plus_distr_l, IH. cbn [pow]. ring.
Qed.

Lemma pow_lt1 q n : 0 <= q < 1 -> (0 < n)%nat -> 0 <= q ^ n < 1.
Proof.
  intros Hq Hn. destruct n as [|n]; [lia|]. clear Hn. split; [apply pow_le; lra|].
  induction n as [|n IH]; [cbn; lra|]. cbn [pow] in *. pose proof (pow_le q n (proj1 Hq)). nra.
Qed.

Lemma lin_ewma f n : 0 < f <= 1 -> (0 < n)%nat ->
  lin n (ewma f) (f * (1 + (1 - f) ^ n) / ((2 - f) * (1 - (1 - f) ^ n))).
Proof.
  intros Hf Hn. set (q := 1 - f). assert (Hq : 0 <= q < 1) by (unfold q; lra).
  pose proof (pow_lt1 q n Hq Hn) as Q. set (z := q ^ n) in *.
  apply (lin_ext n _ (fun l => f / (1 - z) * esum q l)).
  - intros l Hl. unfold ewma. fold q. pose proof (geo1 q l) as G. rewrite Hl in G. fold z in G.
    set (e := esum q (map (fun _ => 1) l)) in *. replace (1 - q) with f in G by (unfold q; ring).
    assert (E0 : e <> 0) by (intros E; rewrite E in G; lra).
    replace (1 - z) with (f * e). field. split; lra.
  - replace (f * (1 + z) / ((2 - f) * (1 - z))) with
      (f / (1 - z) * (f / (1 - z)) * Rsum (map (fun i => q ^ i * q ^ i) (seq 0 n))).
    + apply lin_scal, lin_esum.
    + pose proof (geo2 q n) as G. fold z in G. set (s := Rsum _) in *.
      replace (1 - q * q) with (f * (2 - f)) in G by (unfold q; ring).
      replace s with ((1 - z * z) / (f * (2 - f))); [field; lra|].
      rewrite <- G. field. lra.
Qed.

(** Weights of the interim mean. *)
Lemma lin_interim n s W : (0 < s <= W)%nat -> (W + s <= n)%nat ->
  lin n (fun l => wavg (INR W - INR s) (2 * INR s) (mean (lastn W (firstn (n - s) l))) (mean (lastn s l))) (/ INR W).
Proof.
  intros Hs Hn. assert (Ps : 0 < INR s) by (apply lt_0_INR; lia).
  assert (PW : INR s <= INR W) by (apply le_INR; lia).
  set (a := (INR W - INR s) / (INR W + INR s)). set (b := 2 * INR s / (INR W + INR s)).
  apply (lin_ext n _ (fun l => (fun l => a * mean (lastn W l)) (firstn (n - s) l) + (fun l => b * mean l) (skipn (n - s) l))).
  - intros l Hl. rewrite (lastn_skipn s), Hl. unfold wavg, a, b. field. lra.
  - replace (/ INR W) with (a * a * / INR W + b * b * / INR s) by (unfold a, b; field; lra).
    apply (lin_split n (n - s) (fun l => a * mean (lastn W l)) (fun l => b * mean l)); [lia| |].
    + apply lin_scal. apply (lin_lastn (n - s) W mean). rewrite Nat.min_l by lia. apply lin_mean. lia.
    + apply lin_scal. replace (n - (n - s))%nat with s by lia. apply lin_mean. lia.
Qed.

(** Weights of a convolution. *)
Lemma sumto_change k f g m : (forall i, (i < k)%nat -> i <> m -> f i = g i) ->
  (k <= m)%nat \/ True -> sumto k f = sumto k g + (if (m <? k)%nat then f m - g m else 0).
Proof.
  intros H _. unfold sumto. induction k as [|k IH]; [cbn; ring|].
  rewrite seq_S, !map_app, !Rsum_app. cbn [map Rsum plus].
  rewrite IH by (intros i Hi; apply H; lia).
  destruct (Nat.ltb_spec m k); destruct (Nat.ltb_spec m (S k)); try lia.
  - rewrite (H k) by lia. ring.
  - replace m with k by lia. ring.
  - rewrite (H k) by lia. ring.
Qed.

Lemma convolution_cons c x l : convolution c (x :: l) (length l) =
  nth (length l) c 0 * x + match l with [] => 0 | _ => convolution c l (length l - 1) end.
Proof.
  assert (E : convolution c (x :: l) (length l) =
    sumto (length c) (fun i => nth i c 0 * (match l with [] => 0 | _ => back l (length l - 1) i end)) +
    (if (length l <? length c)%nat then nth (length l) c 0 * x - 0 else 0)).
  { unfold convolution.
    rewrite (sumto_change _ _ (fun i => nth i c 0 * (match l with [] => 0 | _ => back l (length l - 1) i end)) (length l)).
    - f_equal. destruct (length l <? length c)%nat; [|reflexivity].
      unfold back at 1. rewrite Nat.leb_refl, Nat.sub_diag. cbn [nth].
      destruct l as [|y l]; [ring|]. unfold back. cbn [length].
      destruct (Nat.leb_spec (S (length l)) (S (length l) - 1)); [lia|]. ring.
    - intros i Hi Hne. f_equal. destruct l as [|y l].
      + unfold back. cbn [length] in *. destruct (Nat.leb_spec i 0); [lia|reflexivity].
      + unfold back. cbn [length] in *. destruct (Nat.leb_spec i (S (length l))); destruct (Nat.leb_spec i (S (length l) - 1)); try lia; [|reflexivity].
        replace (S (length l) - i)%nat with (S (S (length l) - 1 - i)) by lia. reflexivity.
    - right. exact I. }
  rewrite E, Rplus_comm. f_equal.
  - destruct (Nat.ltb_spec (length l) (length c)); [ring|]. rewrite nth_overflow by lia. ring.
  - destruct l as [|y l]; [|reflexivity]. unfold sumto. induction (seq 0 (length c)) as [|i t IH]; cbn; [reflexivity|]. rewrite IH. ring.
Qed.

Lemma lin_convolution c n : (0 < n)%nat -> lin n (fun l => convolution c l (n - 1)) (energy (firstn n c)).
Proof.
  assert (G : forall n, lin n (fun l => match l with [] => 0 | _ => convolution c l (length l - 1) end) (energy (firstn n c))).
  { clear n. induction n as [|n IH].
    - exists []. split; [reflexivity|]. split; [reflexivity|]. intros [|x l] Hl; [reflexivity|discriminate].
    - destruct IH as (w & HL & Hv & Hw). exists (nth n c 0 :: w). split; [cbn; congruence|]. split.
      + destruct (Nat.lt_ge_cases n (length c)) as [L|L].
        * assert (E : firstn (S n) c = firstn n c ++ [nth n c 0]).
          { clear - L. revert n L. induction c as [|a c IH]; intros n L; [cbn in L; lia|].
            destruct n as [|n]; [reflexivity|]. cbn [firstn app nth]. f_equal. apply IH. cbn in L. lia. }
          rewrite E, energy_app, <- Hv. unfold energy. cbn. ring.
        * rewrite nth_overflow by exact L. rewrite !firstn_all2 in * by lia. rewrite <- Hv. unfold energy. cbn. ring.
      + intros [|x l] Hl; [discriminate|]. injection Hl as Hl.
        replace (length (x :: l) - 1)%nat with (length l) by (cbn; lia). rewrite convolution_cons, Hl.
        cbn [dot]. rewrite <- Hw by exact Hl. destruct l; [reflexivity|]. rewrite Hl. reflexivity. }
  intros Hn. eapply lin_ext; [|apply G]. intros l Hl. destruct l as [|x l]; [cbn in Hl; lia|]. rewrite Hl. reflexivity.
Qed.

(** ** Chances *)

Lemma expect_le {A} (D : dist A) f g : probability D -> (forall x, f x <= g x) -> expect D f <= expect D g.
Proof.
  intros [HF _] H. unfold expect. induction HF as [|p D Hp HF IH]; cbn; [lra|].
  apply Rplus_le_compat; [|exact IH]. apply Rmult_le_compat_l; [exact Hp|apply H].
Qed.

Lemma each_le {A} (Ds : list (dist A)) : forall f g, Forall probability Ds -> (forall l, f l <= g l) -> expect_each Ds f <= expect_each Ds g.
Proof.
  induction Ds as [|D Ds IH]; intros f g HP H; cbn; [apply H|]. inversion HP; subst.
  apply expect_le; [assumption|]. intros x. apply IH; [assumption|]. intros l. apply H.
Qed.

Lemma chebyshev {A} (Ds : list (dist A)) out m v t : Forall probability Ds -> 0 < t -> noise Ds out m v ->
  exists p, chance_off Ds out m t p /\ 0 <= p <= v / (t * t).
Proof.
  intros HP Ht (f & Ho & Hm & Hv). eexists. split; [exists f; split; [exact Ho|reflexivity]|].
  split.
  - apply Rle_trans with (expect_each Ds (fun _ => 0)); [rewrite each_const by exact HP; lra|]. apply each_le; [exact HP|]. intros l. destruct (Rle_dec _ _); lra.
  - unfold Rdiv. rewrite (Rmult_comm v), <- Hv, <- each_scal. apply each_le; [exact HP|]. intros l.
    assert (T : 0 < t * t) by (apply Rmult_lt_0_compat; exact Ht).
    destruct (Rle_dec t (Rabs (f l - m))) as [L|L].
    + apply Rmult_le_reg_l with (t * t); [exact T|]. rewrite <- Rmult_assoc, Rinv_r, Rmult_1_r, Rmult_1_l by lra.
      replace ((f l - m) ^ 2) with (Rabs (f l - m) * Rabs (f l - m)); [apply Rmult_le_compat; (exact L || apply Rlt_le; exact Ht)|].
      rewrite <- Rabs_mult, Rabs_pos_eq by (apply Rle_0_sqr). ring.
    + apply Rmult_le_pos; [apply Rlt_le, Rinv_0_lt_compat; exact T|]. apply pow2_ge_0.
Qed.
