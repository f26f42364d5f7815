(** * Inequalities between moments of finite lists, plain and exponentially weighted *)

From Coq Require Import Reals List Lia Lra Psatz.
From Verif Require Import History SpecStats SpecDecay SpecInequality StatsLemmas DecayProofs.
Import ListNotations.
Local Open Scope R_scope.

Lemma Rsum_map_le {A} (f g : A -> R) l :
  (forall x, In x l -> f x <= g x) -> Rsum (map f l) <= Rsum (map g l).
Proof.
  induction l as [|x l IH]; intros H; cbn [map Rsum]; [lra|].
  assert (f x <= g x) by (apply H; left; reflexivity).
  assert (Rsum (map f l) <= Rsum (map g l)) by (apply IH; intros y Hy; apply H; right; exact Hy).
  lra.
Qed.

Lemma Rsum_term (f : R -> R) l x : (forall y, 0 <= f y) -> In x l -> f x <= Rsum (map f l).
Proof.
  intros H; induction l as [|y l IH]; [intros []|]. intros [->|Hx]; cbn [map Rsum].
  - assert (0 <= Rsum (map f l)) by (apply Rsum_map_nonneg; intros; apply H). lra.
  - specialize (IH Hx). specialize (H y). lra.
Qed.

Lemma sum_dev l : Rsum (map (fun x => x - mean l) l) = 0.
Proof.
  rewrite <- (psum_1_mean l). unfold psum. apply Rsum_map_ext. intros x _. ring.
Qed.

(** Bhatia-Davis, hence Popoviciu. *)
Lemma bhatia_davis a b l : all_in a b l -> csum 2 l <= card l * ((b - mean l) * (mean l - a)).
Proof.
  intros H. set (m := mean l). assert (SD : Rsum (map (fun x => x - m) l) = 0) by apply sum_dev.
  assert (E : card l * ((b - m) * (m - a)) =
    Rsum (map (fun x => (a + b - 2 * m) * (x - m) + (b - m) * (m - a)) l)).
  { rewrite Rsum_map_plus, Rsum_map_scal, Rsum_map_const. rewrite SD. ring. }
  rewrite E. unfold csum. fold m. apply Rsum_map_le. intros x Hx.
  unfold all_in in H. rewrite Forall_forall in H. specialize (H x Hx).
  assert (0 <= (b - x) * (x - a)) by (apply Rmult_le_pos; lra). nra.
Qed.

Lemma popoviciu a b l : l <> [] -> all_in a b l -> variance l <= (b - a) ^ 2 / 4.
Proof.
  intros Hl H. pose proof (bhatia_davis a b l H) as B. pose proof (card_pos l Hl) as Hc.
  unfold variance. apply (Rmult_le_reg_r (card l)); [lra|].
  unfold Rdiv at 1. rewrite Rmult_assoc, Rinv_l, Rmult_1_r by lra.
  eapply Rle_trans; [exact B|]. rewrite Rmult_comm. apply Rmult_le_compat_r; [lra|].
  pose proof (pow2_ge_0 (a + b - 2 * mean l)). nra.
Qed.

Lemma samuelson l x : In x l -> (x - mean l) ^ 2 <= (card l - 1) * variance l.
Proof.
  intros Hx. assert (Hl : l <> []) by (intros ->; exact Hx). pose proof (card_pos l Hl) as Hc.
  set (m := mean l). assert (SD : Rsum (map (fun x => x - m) l) = 0) by apply sum_dev. set (d := x - m). set (n := card l) in *.
  assert (K : forall c, (d + c) ^ 2 <= csum 2 l + n * c ^ 2).
  { intros c. pose proof (Rsum_term (fun y => (y - m + c) ^ 2) l x (fun y => pow2_ge_0 _) Hx) as T.
    cbv beta in T. fold d in T. eapply Rle_trans; [exact T|]. apply Req_le.
    rewrite (Rsum_map_ext _ (fun y => (y - m) ^ 2 + (2 * c * (y - m) + c ^ 2))) by (intros; ring).
    rewrite Rsum_map_plus, Rsum_map_plus, Rsum_map_scal, Rsum_map_const.
    rewrite SD. unfold csum, n. fold m. ring. }
  unfold variance. fold n.
  destruct (Req_dec n 1) as [E1|N1].
  - assert (D : d = 0).
    { pose proof (sum_dev l) as S. unfold n, card in E1.
      destruct l as [|y [|z t]]; [congruence| |cbn [length] in E1; rewrite !S_INR in E1; pose proof (pos_INR (length t)); lra].
      destruct Hx as [->|[]]. cbn in S. unfold d, m. lra. }
    rewrite D, E1. lra.
  - assert (H1 : 0 < n - 1).
    { unfold n, card in *. destruct l as [|y [|z t]]; [congruence|cbn in N1; lra|].
      cbn [length]; rewrite !S_INR; pose proof (pos_INR (length t)); lra. }
    specialize (K (d / (n - 1))).
    assert (E2 : (d + d / (n - 1)) ^ 2 - n * (d / (n - 1)) ^ 2 = d ^ 2 * n / (n - 1)) by (field; lra).
    assert (K2 : d ^ 2 * n / (n - 1) <= csum 2 l) by lra.
    apply (Rmult_le_reg_r (n / (n - 1))); [apply Rdiv_lt_0_compat; lra|].
    replace ((n - 1) * (csum 2 l / n) * (n / (n - 1))) with (csum 2 l) by (field; lra).
    unfold Rdiv in *. lra.
Qed.

Lemma far_sum m d l : 0 <= d -> INR (far m d l) * d ^ 2 <= Rsum (map (fun x => (x - m) ^ 2) l).
Proof.
  intros Hd. induction l as [|x l IH]; [cbn; lra|]. unfold far in *. cbn [filter map Rsum].
  destruct (Rle_dec d (Rabs (x - m))) as [H|H].
  - cbn [length]. rewrite S_INR.
    assert (d ^ 2 <= (x - m) ^ 2) by (rewrite <- (pow2_abs (x - m)); apply pow_incr; lra). lra.
  - pose proof (pow2_ge_0 (x - m)). lra.
Qed.

Lemma chebyshev d l : 0 <= d -> INR (far (mean l) d l) * d ^ 2 <= card l * variance l.
Proof.
  intros Hd. destruct l as [|x l]; [cbn; lra|].
  assert (Hc := card_pos (x :: l) ltac:(congruence)).
  replace (card (x :: l) * variance (x :: l)) with (csum 2 (x :: l)) by (unfold variance; field; lra).
  apply far_sum, Hd.
Qed.

Lemma csum4_sq a b l : 0 <= csum 4 l - 2 * a * csum 3 l + (a ^ 2 - 2 * b) * csum 2 l + card l * b ^ 2.
Proof.
  set (m := mean l). assert (SD : Rsum (map (fun x => x - m) l) = 0) by apply sum_dev.
  assert (P : 0 <= Rsum (map (fun x => ((x - m) ^ 2 - a * (x - m) - b) ^ 2) l))
    by (apply Rsum_map_nonneg; intros; apply pow2_ge_0).
  rewrite (Rsum_map_ext _ (fun x => (x - m) ^ 4 + (- (2 * a) * (x - m) ^ 3 + ((a ^ 2 - 2 * b) * (x - m) ^ 2
    + (2 * a * b * (x - m) + b ^ 2))))) in P by (intros; ring).
  rewrite !Rsum_map_plus, !Rsum_map_scal, Rsum_map_const in P. rewrite SD in P.
  unfold csum. fold m. lra.
Qed.

Lemma pearson_inequality l : 0 < csum 2 l -> skewness l ^ 2 + 1 <= kurtosis l.
Proof.
  intros H. assert (Hl : l <> []) by (apply (csum_nonzero_nonempty 2); lra).
  pose proof (card_pos l Hl) as Hc.
  pose proof (csum4_sq (csum 3 l / csum 2 l) (csum 2 l / card l) l) as Q.
  rewrite <- skewness_formula, <- kurtosis_formula by exact H.
  set (n := card l) in *. set (a := csum 2 l) in *. set (b := csum 3 l) in *. set (c := csum 4 l) in *.
  assert (Ha : 0 < sqrt a) by (apply sqrt_lt_R0; exact H).
  replace ((sqrt n * b / (sqrt a * a)) ^ 2) with (sqrt n ^ 2 * b ^ 2 / (sqrt a ^ 2 * a ^ 2)) by (field; lra).
  rewrite !pow2_sqrt by lra.
  replace (c - 2 * (b / a) * b + ((b / a) ^ 2 - 2 * (a / n)) * a + n * (a / n) ^ 2) with (c - b ^ 2 / a - a ^ 2 / n) in Q
    by (field; lra).
  assert (E : n * c / a ^ 2 - (n * b ^ 2 / (a * a ^ 2) + 1) = (c - b ^ 2 / a - a ^ 2 / n) * (n / a ^ 2)) by (field; lra).
  assert (0 <= (c - b ^ 2 / a - a ^ 2 / n) * (n / a ^ 2)).
  { apply Rmult_le_pos; [exact Q|]. apply Rlt_le, Rdiv_lt_0_compat; [lra|]. apply pow_lt; exact H. }
  rewrite <- E in H0. replace (a ^ 2) with (a * a) in H0 at 1 by ring.
  apply Rge_le, Rminus_ge, Rle_ge. exact H0.
Qed.

Lemma Rsum_sq_le l : Forall (fun x => 0 <= x) l -> Rsum (map (fun x => x ^ 2) l) <= Rsum l ^ 2.
Proof.
  intros H; induction H as [|x l Hx H IH]; cbn [map Rsum]; [lra|].
  pose proof (Rsum_nonneg l H). assert (0 <= x * Rsum l) by (apply Rmult_le_pos; lra). nra.
Qed.

Lemma kurtosis_le_card l : 0 < csum 2 l -> kurtosis l <= card l.
Proof.
  intros H. rewrite <- kurtosis_formula by exact H.
  assert (K : csum 4 l <= csum 2 l ^ 2).
  { unfold csum at 1. rewrite (Rsum_map_ext _ (fun x => ((x - mean l) ^ 2) ^ 2)) by (intros; ring).
    rewrite <- (map_map (fun x => (x - mean l) ^ 2) (fun y => y ^ 2)).
    apply Rsum_sq_le. apply Forall_forall. intros y Hy. apply in_map_iff in Hy. destruct Hy as (x & <- & _).
    apply pow2_ge_0. }
  apply (Rmult_le_reg_r (csum 2 l ^ 2)); [apply pow_lt; exact H|].
  replace (card l * csum 4 l / (csum 2 l * csum 2 l) * csum 2 l ^ 2) with (card l * csum 4 l) by (field; lra).
  apply Rmult_le_compat_l; [apply card_nonneg|exact K].
Qed.

(** Weighted averages with the same weights preserve Cauchy-Schwarz. *)
Lemma cov_average wp wa cp ca xp xa yp ya :
  0 <= wp -> 0 <= wa -> 0 <= xp -> 0 <= xa -> 0 <= yp -> 0 <= ya ->
  cp ^ 2 <= xp * yp -> ca ^ 2 <= xa * ya ->
  (wp * cp + wa * ca) ^ 2 <= (wp * xp + wa * xa) * (wp * yp + wa * ya).
Proof.
  intros Hp Ha X1 X2 Y1 Y2 C1 C2.
  assert (M : 2 * (cp * ca) <= xp * ya + xa * yp).
  { apply Rsqr_incr_0_var; [|nra]. unfold Rsqr.
    assert (Q : (cp * ca) ^ 2 <= (xp * yp) * (xa * ya)).
    { replace ((cp * ca) ^ 2) with (cp ^ 2 * ca ^ 2) by ring.
      apply Rmult_le_compat; try apply pow2_ge_0; assumption. }
    pose proof (pow2_ge_0 (xp * ya - xa * yp)). nra. }
  assert (0 <= wp ^ 2) by apply pow2_ge_0. assert (0 <= wa ^ 2) by apply pow2_ge_0.
  assert (0 <= wp * wa) by (apply Rmult_le_pos; assumption).
  assert (wp ^ 2 * cp ^ 2 <= wp ^ 2 * (xp * yp)) by (apply Rmult_le_compat_l; assumption).
  assert (wa ^ 2 * ca ^ 2 <= wa ^ 2 * (xa * ya)) by (apply Rmult_le_compat_l; assumption).
  assert (wp * wa * (2 * (cp * ca)) <= wp * wa * (xp * ya + xa * yp)) by (apply Rmult_le_compat_l; assumption).
  nra.
Qed.

Lemma covariance_sq l : covariance l ^ 2 <= variance (xs l) * variance (ys l).
Proof.
  pose proof (cauchy_schwarz l) as C. unfold covariance, variance. rewrite card_xs, card_ys.
  destruct l as [|p l]; [cbn; unfold Rdiv; rewrite Rinv_0 || idtac; unfold cosum, csum; cbn; lra|].
  pose proof (card_pos (p :: l) ltac:(congruence)) as Hc.
  replace ((cosum (p :: l) / card (p :: l)) ^ 2) with (cosum (p :: l) ^ 2 * (/ card (p :: l)) ^ 2) by (field; lra).
  replace (csum 2 (xs (p :: l)) / card (p :: l) * (csum 2 (ys (p :: l)) / card (p :: l)))
    with (csum 2 (xs (p :: l)) * csum 2 (ys (p :: l)) * (/ card (p :: l)) ^ 2) by (field; lra).
  apply Rmult_le_compat_r; [apply pow2_ge_0|exact C].
Qed.

(** ** Exponential weights *)

Lemma ewma_plus {A} f (g h : A -> R) l :
  ewma f (map (fun x => g x + h x) l) = ewma f (map g l) + ewma f (map h l).
Proof.
  unfold ewma. rewrite !map_map. unfold Rdiv. rewrite <- Rmult_plus_distr_r. f_equal.
  induction l as [|x l IH]; cbn [map esum]; [ring|]. rewrite IH, !map_length. ring.
Qed.

Lemma ewma_scal {A} f c (g : A -> R) l :
  ewma f (map (fun x => c * g x) l) = c * ewma f (map g l).
Proof.
  unfold ewma. rewrite !map_map. unfold Rdiv. rewrite <- Rmult_assoc. f_equal.
  induction l as [|x l IH]; cbn [map esum]; [ring|]. rewrite IH, !map_length. ring.
Qed.

Lemma ewma_range {A} f a b (g : A -> R) l : 0 < f <= 1 -> l <> [] -> (forall x, In x l -> a <= g x <= b) ->
  a <= ewma f (map g l) <= b.
Proof.
  intros Hf Hl H. apply ewma_bounds; [exact Hf|destruct l; [congruence|discriminate]|].
  apply Forall_forall. intros y Hy. apply in_map_iff in Hy. destruct Hy as (x & <- & Hx). apply H, Hx.
Qed.

Lemma ewma_nonneg {A} f (g : A -> R) l : 0 < f <= 1 -> l <> [] -> (forall x, 0 <= g x) -> 0 <= ewma f (map g l).
Proof.
  intros Hf Hl H. unfold ewma. apply Rmult_le_pos.
  - clear Hl. induction l as [|x l IH]; cbn [map esum]; [lra|]. apply Rplus_le_le_0_compat; [|exact IH].
    apply Rmult_le_pos; [apply pow_le; lra|apply H].
  - apply Rlt_le, Rinv_0_lt_compat. rewrite map_map. apply (esum_ones_pos (1 - f) l); [lra|exact Hl].
Qed.

Lemma ewma_const {A} f c (l : list A) : 0 < f <= 1 -> l <> [] -> ewma f (map (fun _ => c) l) = c.
Proof.
  intros Hf Hl. pose proof (ewma_range f c c (fun _ : A => c) l Hf Hl ltac:(intros; lra)). lra.
Qed.

Lemma emoment_4_2 fm f l : 0 < f <= 1 -> deviations fm l <> [] -> emoment 2 fm f l ^ 2 <= emoment 4 fm f l.
Proof.
  intros Hf Hl. unfold emoment. set (ds := deviations fm l) in *. set (v := ewma f (map (fun d => d ^ 2) ds)).
  assert (P : 0 <= ewma f (map (fun d => (d ^ 2 - v) ^ 2) ds)) by (apply ewma_nonneg; auto; intros; apply pow2_ge_0).
  rewrite (map_ext _ (fun d => d ^ 4 + (- (2 * v) * d ^ 2 + v ^ 2))) in P by (intros; ring).
  rewrite !ewma_plus, ewma_scal, ewma_const in P by assumption. fold v in P. lra.
Qed.

Lemma emoment_3_sq fm f l : 0 < f <= 1 -> deviations fm l <> [] -> 0 < emoment 2 fm f l ->
  emoment 3 fm f l ^ 2 <= emoment 2 fm f l * emoment 4 fm f l.
Proof.
  intros Hf Hl. unfold emoment. set (ds := deviations fm l) in *. set (v := ewma f (map (fun d => d ^ 2) ds)).
  set (s := ewma f (map (fun d => d ^ 3) ds)). set (k := ewma f (map (fun d => d ^ 4) ds)). intros Hv.
  assert (P : 0 <= ewma f (map (fun d => (v * d ^ 2 - s * d) ^ 2) ds)) by (apply ewma_nonneg; auto; intros; apply pow2_ge_0).
  rewrite (map_ext _ (fun d => v ^ 2 * d ^ 4 + (- (2 * v * s) * d ^ 3 + s ^ 2 * d ^ 2))) in P by (intros; ring).
  rewrite !ewma_plus, !ewma_scal in P. fold v s k in P.
  assert (Q : 0 <= v * (v * k - s ^ 2)) by (replace (v * (v * k - s ^ 2)) with (v ^ 2 * k + (- (2 * v * s) * s + s ^ 2 * v)) by ring; exact P).
  assert (0 <= v * k - s ^ 2) by (apply (Rmult_le_reg_l v); [exact Hv|lra]). lra.
Qed.

Lemma deviations_from_range fm a b pre l : 0 < fm <= 1 -> all_in a b (pre ++ l) ->
  Forall (fun d => Rabs d <= b - a) (deviations_from fm pre l).
Proof.
  intros Hf. revert pre; induction l as [|x l IH]; intros pre H; cbn [deviations_from]; constructor.
  - assert (H1 : all_in a b (pre ++ [x])).
    { unfold all_in in *. rewrite !Forall_app in *. destruct H as [H1 H2]. inversion H2; subst.
      split; [exact H1|constructor; auto]. }
    assert (NE : pre ++ [x] <> []) by (destruct pre; discriminate).
    pose proof (ewma_bounds fm a b _ Hf NE H1) as E.
    unfold all_in in H1. rewrite Forall_app in H1. destruct H1 as [_ H1]. inversion H1; subst. apply Rabs_le. lra.
  - apply IH. rewrite <- app_assoc. exact H.
Qed.

Lemma deviations_ne fm l : l <> [] -> deviations fm l <> [].
Proof. intros H; destruct l; [congruence|]. unfold deviations; cbn; discriminate. Qed.

Lemma emoment_2_range fm f a b l : 0 < fm <= 1 -> 0 < f <= 1 -> l <> [] -> all_in a b l ->
  emoment 2 fm f l <= (b - a) ^ 2.
Proof.
  intros Hm Hf Hl H. unfold emoment.
  apply (ewma_range f 0 ((b - a) ^ 2) (fun d => d ^ 2) (deviations fm l)); [exact Hf|apply deviations_ne, Hl|].
  pose proof (deviations_from_range fm a b [] l Hm H) as D. rewrite Forall_forall in D.
  intros d Hd. specialize (D d Hd). split; [apply pow2_ge_0|]. rewrite <- (pow2_abs d).
  apply pow_incr. split; [apply Rabs_pos|exact D].
Qed.
