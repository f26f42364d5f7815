(** * Small errors in the data: proofs *)

From Coq Require Import Reals List Arith Lia Lra Psatz.
From Flocq Require Import Core.Raux.
From Verif Require Import Arith History HistoryLemmas SpecStats SpecBlocks SpecDecay SpecMonotone SpecSensitivity
  SpecImpulse StatsLemmas Scaling InterimStats InequalityProofs Monotone ImpulseProofs DecayProofs Forgetting.
Import ListNotations.
Local Open Scope R_scope.

Lemma related_since {A} (r : A -> A -> Prop) ops ops' : related r ops ops' -> Forall2 r (since_clear ops) (since_clear ops').
Proof.
  induction ops as [|o ops IH] using rev_ind in ops' |- *; intros H.
  - inversion H; subst; constructor.
  - apply Forall2_app_inv_l in H; destruct H as (m & m2 & H1 & H2 & ->).
    inversion H2 as [|? o' ? ? Ho H3]; subst; inversion H3; subst.
    destruct o, o'; try contradiction.
    + rewrite !since_clear_snoc_push; apply Forall2_app; [apply IH, H1|constructor; [exact Ho|constructor]].
    + rewrite !since_clear_app_clear; constructor.
Qed.

Lemma perturbed_raised d ops ops' : perturbed d ops ops' ->
  raised ops (map (op_map (fun x => 1 * x + d)) ops') /\ raised ops' (map (op_map (fun x => 1 * x + d)) ops).
Proof.
  intros H. induction H as [|o o' l l' Ho H [I1 I2]]; [split; constructor|].
  cbn [map]. split; constructor; auto; destruct o, o'; cbn in *; try contradiction; auto; apply Rabs_le_inv in Ho; lra.
Qed.

(** ** Positive linear functionals on functions of pairs *)

Section Functional.
Variable L : (R * R -> R) -> R.
Variable S : R * R -> Prop.
Hypothesis Llin : forall f g c, L (fun p => f p + c * g p) = L f + c * L g.
Hypothesis Lmono : forall f g, (forall p, S p -> f p <= g p) -> L f <= L g.

Lemma L_ext f g : (forall p, S p -> f p = g p) -> L f = L g.
Proof. intros H. apply Rle_antisym; apply Lmono; intros p Hp; rewrite (H p Hp); lra. Qed.

Lemma L_scal c f : L (fun p => c * f p) = c * L f.
Proof.
  assert (Z : L (fun _ => 0) = 0).
  { assert (H : L (fun p : R * R => 0 + 1 * 0) = L (fun _ => 0) + 1 * L (fun _ => 0)) by exact (Llin (fun _ => 0) (fun _ => 0) 1).
    assert (E : L (fun p : R * R => 0 + 1 * 0) = L (fun _ => 0)) by (apply L_ext; intros; cbv beta; ring).
    rewrite E in H. lra. }
  assert (H : L (fun p : R * R => 0 + c * f p) = L (fun _ => 0) + c * L f) by exact (Llin (fun _ => 0) f c). rewrite Z, Rplus_0_l in H. rewrite <- H.
  apply L_ext. intros; cbv beta; ring.
Qed.

Lemma L_nonneg f : (forall p, S p -> 0 <= f p) -> 0 <= L f.
Proof.
  intros H. pose proof (Lmono (fun p => 0 * f p) f) as G. rewrite L_scal in G. rewrite Rmult_0_l in G. apply G.
  intros p Hp. specialize (H p Hp). lra.
Qed.

Local Notation A := (L (fun p => fst p * fst p)).
Local Notation B := (L (fun p => snd p * snd p)).
Local Notation C := (L (fun p => fst p * snd p)).
Local Notation D := (L (fun p => (fst p - snd p) * (fst p - snd p))).

Lemma L_quad t : A + 2 * t * C + t * t * B = L (fun p => (fst p + t * snd p) * (fst p + t * snd p)).
Proof.
  rewrite (L_ext (fun p => (fst p + t * snd p) * (fst p + t * snd p))
    (fun p => (fst p * fst p + (2 * t) * (fst p * snd p)) + (t * t) * (snd p * snd p))) by (intros; cbv beta; ring).
  rewrite (Llin (fun p => fst p * fst p + (2 * t) * (fst p * snd p)) (fun p => snd p * snd p)).
  rewrite (Llin (fun p => fst p * fst p) (fun p => fst p * snd p)). ring.
Qed.

Lemma L_cauchy : C * C <= A * B.
Proof.
  assert (Q : forall t, 0 <= A + 2 * t * C + t * t * B).
  { intros t. rewrite L_quad. apply L_nonneg. intros p _. apply Rle_0_sqr. }
  assert (A0 : 0 <= A) by (apply L_nonneg; intros p _; apply Rle_0_sqr).
  assert (B0 : 0 <= B) by (apply L_nonneg; intros p _; apply Rle_0_sqr).
  set (a := A) in *. set (b := B) in *. set (c := C) in *. clearbody a b c.
  destruct (Req_dec b 0) as [E|E].
  - subst b. destruct (Req_dec c 0) as [->|Hc]; [lra|].
    specialize (Q (- (a + 1) / (2 * c))). exfalso.
    replace (a + 2 * (- (a + 1) / (2 * c)) * c + - (a + 1) / (2 * c) * (- (a + 1) / (2 * c)) * 0) with (-1) in Q by (field; exact Hc). lra.
  - specialize (Q (- c / b)).
    replace (a + 2 * (- c / b) * c + - c / b * (- c / b) * b) with ((a * b - c * c) / b) in Q by (field; exact E).
    assert (Bp : 0 < b) by lra.
    apply (Rmult_le_compat_r b) in Q; [|lra]. unfold Rdiv in Q. rewrite Rmult_0_l, Rmult_assoc, Rinv_l, Rmult_1_r in Q by exact E. lra.
Qed.

(** The distance of the root mean squares is at most that of the vectors. *)
Lemma L_minkowski : Rabs (sqrt A - sqrt B) <= sqrt D.
Proof.
  assert (A0 : 0 <= A) by (apply L_nonneg; intros p _; apply Rle_0_sqr).
  assert (B0 : 0 <= B) by (apply L_nonneg; intros p _; apply Rle_0_sqr).
  pose proof L_cauchy as K.
  assert (E : D = A + B - 2 * C).
  { pose proof (L_quad (-1)) as H. rewrite (L_ext (fun p => (fst p + -1 * snd p) * (fst p + -1 * snd p)) (fun p => (fst p - snd p) * (fst p - snd p))) in H by (intros; cbv beta; ring). lra. }
  set (a := A) in *. set (b := B) in *. set (c := C) in *. set (d := D) in *. clearbody a b c d.
  assert (CS : c <= sqrt a * sqrt b).
  { rewrite <- sqrt_mult by assumption. destruct (Rle_dec c 0) as [N|N]; [pose proof (sqrt_pos (a * b)); lra|].
    rewrite <- (sqrt_square c) by lra. apply sqrt_le_1_alt. exact K. }
  assert (Q : (sqrt a - sqrt b) * (sqrt a - sqrt b) <= d).
  { pose proof (sqrt_sqrt a A0). pose proof (sqrt_sqrt b B0). nra. }
  rewrite <- (sqrt_Rsqr_abs (sqrt a - sqrt b)). apply sqrt_le_1_alt. exact Q.
Qed.

Lemma L_rms_close d : L (fun _ => 1) = 1 -> 0 <= d -> (forall p, S p -> Rabs (fst p - snd p) <= d) ->
  D <= d * d.
Proof.
  intros H1 Hd H. rewrite <- (Rmult_1_r (d * d)), <- H1, <- L_scal. apply Lmono. intros p Hp. rewrite Rmult_1_r.
  specialize (H p Hp). rewrite <- (Rabs_pos_eq ((fst p - snd p) * (fst p - snd p))) by apply Rle_0_sqr.
  rewrite Rabs_mult. apply Rmult_le_compat; auto using Rabs_pos.
Qed.

Lemma L_diff d : L (fun _ => 1) = 1 -> (forall p, S p -> Rabs (fst p - snd p) <= d) -> Rabs (L fst - L snd) <= d.
Proof.
  intros H1 H. assert (E : L fst - L snd = L (fun p => fst p - snd p)).
  { rewrite (L_ext (fun p => fst p - snd p) (fun p => fst p + (-1) * snd p)) by (intros; cbv beta; ring).
    rewrite (Llin fst snd). ring. }
  rewrite E. apply Rabs_le. rewrite <- (Rmult_1_r d), <- H1.
  replace (- (d * L (fun _ : R * R => 1))) with (- d * L (fun _ => 1)) by ring.
  rewrite <- !L_scal. split; apply Lmono; intros p Hp; specialize (H p Hp); apply Rabs_le_inv in H; lra.
Qed.
End Functional.

(** ** Lists of pairs *)

Lemma combine_fst {A B} (P : A -> B -> Prop) l l' : Forall2 P l l' -> map fst (combine l l') = l /\ map snd (combine l l') = l'.
Proof. induction 1 as [|x y l l' H F [I1 I2]]; [split; reflexivity|]. cbn. rewrite I1, I2. split; reflexivity. Qed.

Lemma combine_In {A B} (P : A -> B -> Prop) l l' p : Forall2 P l l' -> In p (combine l l') -> P (fst p) (snd p).
Proof. induction 1 as [|x y l l' H F I]; cbn; [tauto|]. intros [<-|Hp]; [exact H|exact (I Hp)]. Qed.

Definition Lmean (u : list (R * R)) (f : R * R -> R) : R := mean (map f u).

Lemma Lmean_lin u f g c : Lmean u (fun p => f p + c * g p) = Lmean u f + c * Lmean u g.
Proof.
  unfold Lmean, mean, card. rewrite !map_length, Rsum_map_plus, Rsum_map_scal. unfold Rdiv. ring.
Qed.

Lemma Lmean_mono u f g : (forall p, In p u -> f p <= g p) -> Lmean u f <= Lmean u g.
Proof.
  intros H. apply mean_mono. induction u as [|x u IH]; [constructor|]. cbn. constructor; [apply H; left; reflexivity|].
  apply IH. intros p Hp. apply H. right. exact Hp.
Qed.

Lemma Lmean_one u : u <> [] -> Lmean u (fun _ => 1) = 1.
Proof.
  intros N. unfold Lmean. apply mean_constant; [destruct u; [congruence|discriminate]|].
  apply Forall_forall. intros x Hx. apply in_map_iff in Hx. destruct Hx as (y & E & _). exact E.
Qed.

Definition Lewma (q : R) (u : list (R * R)) (f : R * R -> R) : R := ewma q (map f u).

Lemma esum_lin q (u : list (R * R)) f g c : esum q (map (fun p => f p + c * g p) u) = esum q (map f u) + c * esum q (map g u).
Proof. induction u as [|p u IH]; cbn; [ring|]. rewrite IH, !map_length. ring. Qed.

Lemma Lewma_lin q u f g c : Lewma q u (fun p => f p + c * g p) = Lewma q u f + c * Lewma q u g.
Proof. unfold Lewma, ewma. rewrite esum_lin, !map_map. unfold Rdiv. ring. Qed.

Lemma Lewma_mono q u f g : 0 < q <= 1 -> (forall p, In p u -> f p <= g p) -> Lewma q u f <= Lewma q u g.
Proof.
  intros Hq H. unfold Lewma, ewma. rewrite !map_map. destruct u as [|p u]; [cbn; lra|].
  pose proof (ones_ge1 (1 - q) (p :: u) ltac:(lra) ltac:(discriminate)) as O.
  unfold Rdiv. apply Rmult_le_compat_r; [left; apply Rinv_0_lt_compat; lra|].
  apply Monotone.esum_mono; [lra|]. clear O. revert H. generalize (p :: u). clear. intros u H.
  induction u as [|x u IH]; [constructor|]. cbn. constructor; [apply H; left; reflexivity|].
  apply IH. intros p Hp. apply H. right. exact Hp.
Qed.

Lemma Lewma_one q u : 0 < q <= 1 -> u <> [] -> Lewma q u (fun _ => 1) = 1.
Proof.
  intros Hq N. unfold Lewma, ewma. rewrite map_map.
  pose proof (ones_ge1 (1 - q) u ltac:(lra) N) as O. field. lra.
Qed.

(** ** Means *)

Lemma nearby_ne d l l' : nearby d l l' -> l <> [] -> l' <> [] /\ combine l l' <> [] /\ 0 <= d.
Proof.
  intros H N. destruct H as [|x y l l' H F]; [congruence|]. split; [discriminate|]. split; [discriminate|].
  pose proof (Rabs_pos (x - y)). lra.
Qed.

Lemma mean_near d l l' : nearby d l l' -> l <> [] -> Rabs (mean l - mean l') <= d.
Proof.
  intros H N. destruct (nearby_ne d l l' H N) as (N' & NC & D0). destruct (combine_fst _ _ _ H) as [E1 E2].
  set (u := combine l l') in *. rewrite <- E1, <- E2. fold (Lmean u fst) (Lmean u snd).
  apply (L_diff (Lmean u) (fun p => In p u)); [apply Lmean_lin|apply Lmean_mono|apply Lmean_one, NC|].
  intros p Hp. exact (combine_In _ _ _ p H Hp).
Qed.

Lemma ewma_near f d l l' : 0 < f <= 1 -> nearby d l l' -> l <> [] -> Rabs (ewma f l - ewma f l') <= d.
Proof.
  intros Hf H N. destruct (nearby_ne d l l' H N) as (N' & NC & D0). destruct (combine_fst _ _ _ H) as [E1 E2].
  set (u := combine l l') in *. rewrite <- E1, <- E2. fold (Lewma f u fst) (Lewma f u snd).
  apply (L_diff (Lewma f u) (fun p => In p u)); [apply Lewma_lin|intros; apply Lewma_mono; assumption|apply Lewma_one; assumption|].
  intros p Hp. exact (combine_In _ _ _ p H Hp).
Qed.

Lemma cur_block_near d W l l' : nearby d l l' -> nearby d (cur_block W l) (cur_block W l').
Proof. intros H; unfold cur_block; rewrite (Forall2_len _ _ _ H); apply forall2_lastn, H. Qed.

Lemma prev_block_near d W l l' : nearby d l l' -> nearby d (prev_block W l) (prev_block W l').
Proof.
  intros H; pose proof (cur_block_near d W _ _ H) as C; unfold prev_block.
  rewrite (Forall2_len _ _ _ H), (Forall2_len _ _ _ C); apply forall2_lastn, forall2_firstn, H.
Qed.

(** Weighted averages of two numbers. *)
Lemma blend_near d w v a a' b b' : 0 <= w -> 0 <= v -> 0 < w + v -> Rabs (a - a') <= d -> Rabs (b - b') <= d ->
  Rabs ((w * a + v * b) / (w + v) - (w * a' + v * b') / (w + v)) <= d.
Proof.
  intros Hw Hv Hs Ha Hb.
  replace ((w * a + v * b) / (w + v) - (w * a' + v * b') / (w + v)) with ((w * (a - a') + v * (b - b')) / (w + v)) by (field; lra).
  unfold Rdiv. rewrite Rabs_mult, (Rabs_pos_eq (/ _)) by (left; apply Rinv_0_lt_compat; exact Hs).
  apply (Rmult_le_reg_r (w + v)); [exact Hs|]. rewrite Rmult_assoc, Rinv_l, Rmult_1_r by lra.
  apply Rabs_le_inv in Ha, Hb. apply Rabs_le. nra.
Qed.

(** Root of a weighted average of squares. *)
Lemma blend_roots d w v a a' b b' : 0 <= w -> 0 <= v -> 0 < w + v -> 0 <= d -> 0 <= a -> 0 <= a' -> 0 <= b -> 0 <= b' ->
  Rabs (sqrt a - sqrt a') <= d -> Rabs (sqrt b - sqrt b') <= d ->
  Rabs (sqrt ((w * a + v * b) / (w + v)) - sqrt ((w * a' + v * b') / (w + v))) <= d.
Proof.
  intros Hw Hv Hs Hd A0 A0' B0 B0' Ha Hb.
  set (L := fun f : R * R -> R => (w * f (sqrt a, sqrt a') + v * f (sqrt b, sqrt b')) / (w + v)).
  set (S := fun p : R * R => p = (sqrt a, sqrt a') \/ p = (sqrt b, sqrt b')).
  assert (Llin : forall f g c, L (fun p => f p + c * g p) = L f + c * L g) by (intros; unfold L; field; lra).
  assert (Lmono : forall f g, (forall p, S p -> f p <= g p) -> L f <= L g).
  { intros f g H. unfold L, Rdiv. apply Rmult_le_compat_r; [left; apply Rinv_0_lt_compat; exact Hs|].
    apply Rplus_le_compat; apply Rmult_le_compat_l; auto; apply H; unfold S; auto. }
  pose proof (L_minkowski L S Llin Lmono) as M.
  pose proof (L_rms_close L S Llin Lmono d ltac:(unfold L; field; lra) Hd) as K.
  specialize (K ltac:(intros p [->| ->]; assumption)).
  replace ((w * a + v * b) / (w + v)) with (L (fun p => fst p * fst p)) by (unfold L; cbn [fst]; rewrite !sqrt_sqrt by assumption; reflexivity).
  replace ((w * a' + v * b') / (w + v)) with (L (fun p => snd p * snd p)) by (unfold L; cbn [snd]; rewrite !sqrt_sqrt by assumption; reflexivity).
  apply (Rle_trans _ _ _ M). rewrite <- (sqrt_square d) by exact Hd. apply sqrt_le_1_alt. exact K.
Qed.

(** ** Standard deviations *)

Lemma variance_as_mean l : variance l = mean (map (fun x => (x - mean l) * (x - mean l)) l).
Proof.
  unfold variance, csum. unfold mean at 2. f_equal; [apply f_equal, map_ext; intros; ring|].
  unfold card. rewrite map_length. reflexivity.
Qed.

(** The mean square deviation from the mean is at most that from any number. *)
Lemma variance_min c l : l <> [] -> variance l <= mean (map (fun x => (x - c) * (x - c)) l).
Proof.
  intros N. pose proof (card_pos l N) as P. pose proof (mean_card l) as MC.
  assert (E : Rsum (map (fun x => (x - c) * (x - c)) l) = Rsum (map (fun x => (x - mean l) * (x - mean l)) l) + card l * ((mean l - c) * (mean l - c))).
  { rewrite (Rsum_map_ext (fun x => (x - c) * (x - c)) (fun x => (x - mean l) * (x - mean l) + (2 * (mean l - c) * x + (c * c - mean l * mean l)))) by (intros; cbv beta; ring).
    rewrite Rsum_map_plus, Rsum_map_plus, (Rsum_map_scal (2 * (mean l - c)) (fun x => x)), map_id, Rsum_map_const, <- MC. ring. }
  rewrite variance_as_mean. unfold mean at 1 4. rewrite E. unfold card in *. rewrite !map_length.
  unfold Rdiv. apply Rmult_le_compat_r; [left; apply Rinv_0_lt_compat; lra|].
  assert (0 <= INR (length l) * ((mean l - c) * (mean l - c))) by (apply Rmult_le_pos; [lra|apply Rle_0_sqr]). lra.
Qed.

Lemma deviation_near d l l' : nearby d l l' -> l <> [] -> Rabs (sqrt (variance l) - sqrt (variance l')) <= d.
Proof.
  intros H N. destruct (nearby_ne d l l' H N) as (N' & NC & D0). destruct (combine_fst _ _ _ H) as [E1 E2].
  set (u := combine l l') in *. set (m := mean l). set (m' := mean l').
  set (L := fun f : R * R -> R => Lmean u (fun p => f (fst p - m, snd p - m'))).
  set (S := fun q : R * R => exists p, In p u /\ q = (fst p - m, snd p - m')).
  assert (Llin : forall f g c, L (fun p => f p + c * g p) = L f + c * L g) by (intros; unfold L; apply (Lmean_lin u (fun p => f (fst p - m, snd p - m')))).
  assert (Lmono : forall f g, (forall p, S p -> f p <= g p) -> L f <= L g).
  { intros f g G. unfold L. apply Lmean_mono. intros p Hp. apply G. exists p. auto. }
  pose proof (L_minkowski L S Llin Lmono) as M.
  assert (V1 : variance l = L (fun p => fst p * fst p)).
  { rewrite variance_as_mean. unfold L, Lmean. fold m. cbn [fst]. rewrite <- E1 at 1. rewrite map_map. reflexivity. }
  assert (V2 : variance l' = L (fun p => snd p * snd p)).
  { rewrite variance_as_mean. unfold L, Lmean. fold m'. cbn [snd]. rewrite <- E2 at 1. rewrite map_map. reflexivity. }
  rewrite V1, V2. apply (Rle_trans _ _ _ M). rewrite <- (sqrt_square d) by exact D0. apply sqrt_le_1_alt.
  set (e := map (fun p => fst p - snd p) u).
  assert (Ne : e <> []) by (unfold e; destruct u; [congruence|discriminate]).
  assert (Em : mean e = m - m').
  { unfold e. change (Lmean u (fun p => fst p - snd p) = m - m').
    replace (Lmean u (fun p => fst p - snd p)) with (Lmean u (fun p => fst p + (-1) * snd p)) by (unfold Lmean; f_equal; apply map_ext; intros; ring).
    rewrite (Lmean_lin u fst snd). unfold Lmean. rewrite E1, E2. fold m m'. ring. }
  assert (Ev : L (fun p => (fst p - snd p) * (fst p - snd p)) = variance e).
  { rewrite variance_as_mean, Em. unfold L, Lmean, e. rewrite map_map. cbn [fst snd]. f_equal. apply map_ext. intros p. ring. }
  rewrite Ev. apply (Rle_trans _ _ _ (variance_min 0 e Ne)).
  unfold e. rewrite map_map. fold (Lmean u (fun p => (fst p - snd p - 0) * (fst p - snd p - 0))).
  replace (Lmean u (fun p => (fst p - snd p - 0) * (fst p - snd p - 0))) with (Lmean u (fun p => (fst p - snd p) * (fst p - snd p))) by (unfold Lmean; f_equal; apply map_ext; intros; ring).
  apply (L_rms_close (Lmean u) (fun p => In p u)); [apply Lmean_lin|apply Lmean_mono|apply Lmean_one, NC|exact D0|].
  intros p Hp. exact (combine_In _ _ _ p H Hp).
Qed.

(** Deviations from the running exponential mean change by at most twice as much. *)
Lemma deviations_near f d p p' l l' : 0 < f <= 1 -> nearby d p p' -> nearby d l l' ->
  nearby (2 * d) (deviations_from f p l) (deviations_from f p' l').
Proof.
  intros Hf HP H. revert p p' HP. induction H as [|x y l l' Hx H IH]; intros p p' HP; [constructor|].
  cbn [deviations_from].
  assert (HP' : nearby d (p ++ [x]) (p' ++ [y])) by (apply Forall2_app; [exact HP|constructor; [exact Hx|constructor]]).
  constructor; [|apply IH, HP'].
  pose proof (ewma_near f d _ _ Hf HP' ltac:(intros E; symmetry in E; exact (app_cons_not_nil _ _ _ E))) as B.
  apply Rabs_le_inv in B, Hx. apply Rabs_le. lra.
Qed.

Lemma emoment_near fm fv d l l' : 0 < fm <= 1 -> 0 < fv <= 1 -> nearby d l l' -> l <> [] ->
  Rabs (sqrt (emoment 2 fm fv l) - sqrt (emoment 2 fm fv l')) <= 2 * d.
Proof.
  intros Hm Hv H N. destruct (nearby_ne d l l' H N) as (_ & _ & D0).
  pose proof (deviations_near fm d [] [] l l' Hm (Forall2_nil _) H) as G. fold (deviations fm l) (deviations fm l') in G.
  assert (ND : deviations fm l <> []) by (destruct l; [congruence|discriminate]).
  destruct (nearby_ne _ _ _ G ND) as (_ & NC & _). destruct (combine_fst _ _ _ G) as [E1 E2].
  set (u := combine (deviations fm l) (deviations fm l')) in *.
  pose proof (L_minkowski (Lewma fv u) (fun p => In p u) (Lewma_lin fv u) (fun f g => Lewma_mono fv u f g Hv)) as M.
  unfold emoment.
  replace (ewma fv (map (fun d => d ^ 2) (deviations fm l))) with (Lewma fv u (fun p => fst p * fst p))
    by (unfold Lewma; rewrite <- E1, map_map; f_equal; apply map_ext; intros; ring).
  replace (ewma fv (map (fun d => d ^ 2) (deviations fm l'))) with (Lewma fv u (fun p => snd p * snd p))
    by (unfold Lewma; rewrite <- E2, map_map; f_equal; apply map_ext; intros; ring).
  apply (Rle_trans _ _ _ M). rewrite <- (sqrt_square (2 * d)) by lra. apply sqrt_le_1_alt.
  apply (L_rms_close (Lewma fv u) (fun p => In p u)); [apply Lewma_lin|intros; apply Lewma_mono; assumption|apply Lewma_one; assumption|lra|].
  intros p Hp. exact (combine_In _ _ _ p G Hp).
Qed.

(** ** Covariance *)

Section Covariance.
Context {T : Type}.
Variable u : list T.
Hypothesis NU : u <> [].
Local Notation E f := (mean (map f u)).
Local Notation cov f g := (covariance (map (fun p => (f p, g p)) u)).

Lemma cov_alt f g : cov f g = E (fun p => f p * g p) - E f * E g.
Proof.
  pose proof (card_pos u NU) as P. unfold covariance, cosum, xs, ys. rewrite !map_map. cbn [fst snd].
  set (mf := E f). set (mg := E g).
  assert (Mf : card u * mf = Rsum (map f u)) by (unfold mf, mean, card in *; rewrite map_length; field; lra).
  assert (Mg : card u * mg = Rsum (map g u)) by (unfold mg, mean, card in *; rewrite map_length; field; lra).
  rewrite (Rsum_map_ext _ (fun p => f p * g p + ((- mg) * f p + ((- mf) * g p + mf * mg)))) by (intros; cbv beta; ring).
  rewrite !Rsum_map_plus, !Rsum_map_scal, Rsum_map_const, <- Mf, <- Mg.
  unfold mean, card in *. rewrite !map_length. field. lra.
Qed.

Lemma E_lin f g c : E (fun p => f p + c * g p) = E f + c * E g.
Proof. unfold mean, card. rewrite !map_length, Rsum_map_plus, Rsum_map_scal. unfold Rdiv. ring. Qed.

Lemma cov_diff_l f f' g : cov (fun p => f p - f' p) g = cov f g - cov f' g.
Proof.
  rewrite !cov_alt.
  assert (E1 : E (fun p => f p - f' p) = E f + (-1) * E f') by (rewrite <- E_lin; f_equal; apply map_ext; intros; ring).
  assert (E2 : E (fun p => (f p - f' p) * g p) = E (fun p => f p * g p) + (-1) * E (fun p => f' p * g p))
    by (rewrite <- E_lin; f_equal; apply map_ext; intros; ring).
  rewrite E1, E2. ring.
Qed.

Lemma cov_sym f g : cov f g = cov g f.
Proof. rewrite !cov_alt. rewrite (map_ext (fun p => f p * g p) (fun p => g p * f p)) by (intros; ring). ring. Qed.

Lemma cov_bound f g d : 0 <= d -> (forall p, In p u -> Rabs (f p) <= d) ->
  Rabs (cov f g) <= d * sqrt (variance (map g u)).
Proof.
  intros D0 H. pose proof (covariance_sq (map (fun p => (f p, g p)) u)) as Q.
  unfold xs, ys in Q. rewrite !map_map in Q. cbn [fst snd] in Q.
  assert (V : variance (map f u) <= d * d).
  { assert (N : map f u <> []) by (destruct u; [congruence|discriminate]).
    apply (Rle_trans _ _ _ (variance_min 0 _ N)). rewrite map_map.
    pose proof (card_pos u NU) as P. unfold mean, card in *. rewrite map_length.
    apply (Rmult_le_reg_r (INR (length u))); [lra|]. unfold Rdiv. rewrite Rmult_assoc, Rinv_l, Rmult_1_r by lra.
    rewrite (Rmult_comm (d * d)). fold (card u). rewrite <- (Rsum_map_const (d * d) u).
    assert (G : forall x, In x u -> (f x - 0) * (f x - 0) <= d * d).
    { intros x Hx. specialize (H x Hx). rewrite Rminus_0_r, <- (Rabs_pos_eq (f x * f x)) by apply Rle_0_sqr.
      rewrite Rabs_mult. apply Rmult_le_compat; auto using Rabs_pos. }
    revert G. clear. induction u as [|x v IH]; cbn; [lra|]. intros G.
    pose proof (G x (or_introl eq_refl)). assert (forall y, In y v -> (f y - 0) * (f y - 0) <= d * d) by (intros; apply G; right; assumption).
    specialize (IH H0). lra. }
  pose proof (variance_nonneg (map g u)) as V0.
  rewrite <- (sqrt_square d) by exact D0. rewrite <- sqrt_mult by (try exact V0; apply Rle_0_sqr).
  rewrite <- sqrt_Rsqr_abs. apply sqrt_le_1_alt. unfold Rsqr.
  replace (cov f g * cov f g) with (cov f g ^ 2) by ring.
  apply (Rle_trans _ _ _ Q). apply Rmult_le_compat_r; assumption.
Qed.
End Covariance.

Lemma nearby2_ne d e l l' : nearby2 d e l l' -> l <> [] -> l' <> [] /\ combine l l' <> [] /\ 0 <= d /\ 0 <= e.
Proof.
  intros H N. destruct H as [|x y l l' [H1 H2] F]; [congruence|]. split; [discriminate|]. split; [discriminate|].
  pose proof (Rabs_pos (fst x - fst y)). pose proof (Rabs_pos (snd x - snd y)). lra.
Qed.

Lemma covariance_near d e l l' : nearby2 d e l l' -> l <> [] ->
  Rabs (covariance l - covariance l') <= d * sqrt (variance (ys l)) + e * sqrt (variance (xs l')).
Proof.
  intros H N. destruct (nearby2_ne d e l l' H N) as (N' & NC & D0 & E0). destruct (combine_fst _ _ _ H) as [E1 E2].
  pose proof (fun p => combine_In _ _ _ p H) as HIn. cbv beta in HIn.
  set (u := combine l l') in *.
  set (f := fun p : (R * R) * (R * R) => fst (fst p)). set (g := fun p : (R * R) * (R * R) => snd (fst p)).
  set (f' := fun p : (R * R) * (R * R) => fst (snd p)). set (g' := fun p : (R * R) * (R * R) => snd (snd p)).
  assert (L1 : l = map (fun p => (f p, g p)) u) by (rewrite <- E1 at 1; apply map_ext; intros [[? ?] ?]; reflexivity).
  assert (L2 : l' = map (fun p => (f' p, g' p)) u) by (rewrite <- E2 at 1; apply map_ext; intros [? [? ?]]; reflexivity).
  assert (Y : ys l = map g u) by (rewrite L1; unfold ys; rewrite map_map; reflexivity).
  assert (X : xs l' = map f' u) by (rewrite L2; unfold xs; rewrite map_map; reflexivity).
  rewrite X, Y. rewrite L1, L2.
  pose proof (cov_diff_l u NC f f' g) as A. pose proof (cov_diff_l u NC g g' f') as B.
  pose proof (cov_bound u NC (fun p => f p - f' p) g d D0 (fun p Hp => proj1 (HIn p Hp))) as BA.
  pose proof (cov_bound u NC (fun p => g p - g' p) f' e E0 (fun p Hp => proj2 (HIn p Hp))) as BB.
  rewrite (cov_sym u NC g f'), (cov_sym u NC g' f') in B.
  replace (covariance (map (fun p => (f p, g p)) u) - covariance (map (fun p => (f' p, g' p)) u))
    with (covariance (map (fun p => (f p - f' p, g p)) u) + covariance (map (fun p => (g p - g' p, f' p)) u)) by lra.
  apply (Rle_trans _ _ _ (Rabs_triang _ _)). apply Rplus_le_compat; assumption.
Qed.

Lemma nearby2_xs e l l' : nearby2 0 e l l' -> xs l = xs l'.
Proof.
  intros H. induction H as [|x y l l' [H1 _] F IH]; [reflexivity|]. unfold xs in *. cbn. rewrite IH. f_equal.
  pose proof (Rabs_pos (fst x - fst y)) as P. assert (Z : Rabs (fst x - fst y) = 0) by lra.
  destruct (Req_dec (fst x - fst y) 0) as [G|G]; [lra|]. exfalso. exact (Rabs_no_R0 _ G Z).
Qed.

Lemma slope_near e l l' : nearby2 0 e l l' -> l <> [] -> 0 < variance (xs l) ->
  Rabs (ls_slope l - ls_slope l') <= e / sqrt (variance (xs l)).
Proof.
  intros H N V. pose proof (nearby2_xs e l l' H) as X. pose proof (covariance_near 0 e l l' H N) as C.
  rewrite <- X in C. pose proof (card_pos l N) as P.
  assert (LX : length l' = length l) by (symmetry; exact (Forall2_len _ _ _ H)).
  assert (CX : card (xs l) = card l) by (unfold card, xs; rewrite map_length; reflexivity).
  assert (VC : csum 2 (xs l) = card l * variance (xs l)) by (unfold variance; rewrite CX; field; lra).
  assert (SN : csum 2 (xs l) <> 0) by (rewrite VC; assert (0 < card l * variance (xs l)) by (apply Rmult_lt_0_compat; lra); lra).
  assert (S : ls_slope l = covariance l / variance (xs l)).
  { unfold ls_slope. destruct (Req_EM_T _ _); [contradiction|]. unfold covariance. rewrite VC. field. lra. }
  assert (S' : ls_slope l' = covariance l' / variance (xs l)).
  { unfold ls_slope. rewrite <- X. destruct (Req_EM_T _ _); [contradiction|]. unfold covariance.
    replace (card l') with (card l) by (unfold card; rewrite LX; reflexivity). rewrite VC. field. lra. }
  rewrite S, S'. pose proof (sqrt_lt_R0 _ V) as Q. pose proof (sqrt_sqrt (variance (xs l)) ltac:(lra)) as QQ.
  set (q := sqrt (variance (xs l))) in *. rewrite <- QQ.
  replace (covariance l / (q * q) - covariance l' / (q * q)) with ((covariance l - covariance l') / (q * q)) by (field; lra).
  unfold Rdiv at 1. rewrite Rabs_mult, (Rabs_pos_eq (/ _)) by (left; apply Rinv_0_lt_compat; nra).
  apply (Rmult_le_reg_r (q * q)); [nra|]. rewrite Rmult_assoc, Rinv_l, Rmult_1_r by nra.
  replace (e / q * (q * q)) with (e * q) by (field; lra). lra.
Qed.

(** ** Impulse response *)

Lemma combination_near d x x' : nearby d x x' -> forall v, In v (combination 1 (-1) x x') -> Rabs v <= d.
Proof.
  intros H v Hv. unfold combination in Hv. apply in_map_iff in Hv. destruct Hv as (p & <- & Hp).
  pose proof (combine_In _ _ _ p H Hp) as G. cbv beta in G.
  replace (1 * fst p + -1 * snd p) with (fst p - snd p) by ring. exact G.
Qed.

Lemma convolution_near d c x x' n : 0 <= d -> nearby d x x' ->
  Rabs (convolution c x n - convolution c x' n) <= abs_sum c * d.
Proof.
  intros D0 H. pose proof (Forall2_len _ _ _ H) as L.
  replace (convolution c x n - convolution c x' n) with (1 * convolution c x n + (-1) * convolution c x' n) by ring.
  rewrite <- convolution_linear by exact L. unfold convolution, abs_sum. rewrite <- sumto_nth_map.
  apply sumto_bound. intros i _. apply (back_bound (fun v => Rabs v <= d)); [rewrite Rabs_R0; exact D0|].
  apply combination_near, H.
Qed.

Lemma recursion_near b a scale d x x' y y' : abs_sum a < Rabs scale -> 0 <= d -> nearby d x x' ->
  difference_equation b a scale x y -> difference_equation b a scale x' y' ->
  Rabs (last y 0 - last y' 0) <= abs_sum b * d / (Rabs scale - abs_sum a).
Proof.
  intros HS D0 H D D'. pose proof (Forall2_len _ _ _ H) as L.
  pose proof (difference_equation_linear b a scale 1 (-1) x x' y y' L D D') as E.
  assert (LY : length y = length y') by (destruct D as [D1 _], D' as [D2 _]; congruence).
  pose proof (output_bound b a scale HS _ _ d D0 (combination_near d x x' H) E) as B.
  rewrite !last_nth, <- LY.
  destruct (Nat.eq_dec (length y) 0) as [Z|Z].
  - destruct y; [|discriminate]. destruct y'; [|discriminate]. cbn. rewrite Rminus_diag_eq, Rabs_R0 by reflexivity.
    apply Rmult_le_pos; [apply Rmult_le_pos; [apply abs_sum_nonneg|exact D0]|left; apply Rinv_0_lt_compat; lra].
  - specialize (B (length y - 1)%nat). rewrite length_combination in B by exact LY.
    specialize (B ltac:(lia)). rewrite nth_combination in B by lia.
    replace (nth (length y - 1) y 0 - nth (length y - 1) y' 0) with (1 * nth (length y - 1) y 0 + -1 * nth (length y - 1) y' 0) by ring.
    exact B.
Qed.
