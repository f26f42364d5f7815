(** * Algebra of the two-pass definitions *)

From Coq Require Import Reals List Lra Lia Permutation.
From Verif Require Import SpecStats.
Import ListNotations.
Local Open Scope R_scope.

Lemma Rsum_nil : Rsum [] = 0. Proof. reflexivity. Qed.
Lemma Rsum_cons x l : Rsum (x :: l) = x + Rsum l. Proof. reflexivity. Qed.

Lemma Rsum_app l1 l2 : Rsum (l1 ++ l2) = Rsum l1 + Rsum l2.
Proof.
  induction l1 as [|x l IH]; [cbn; lra|].
  rewrite <- app_comm_cons, !Rsum_cons, IH; lra.
Qed.

Lemma Rsum_snoc l x : Rsum (l ++ [x]) = Rsum l + x.
Proof. rewrite Rsum_app; cbn; lra. Qed.

Lemma Rsum_map_plus {A} (f g : A -> R) l :
  Rsum (map (fun x => f x + g x) l) = Rsum (map f l) + Rsum (map g l).
Proof. induction l as [|x l IH]; cbn in *; lra. Qed.

Lemma Rsum_map_scal {A} (c : R) (f : A -> R) l :
  Rsum (map (fun x => c * f x) l) = c * Rsum (map f l).
Proof. induction l as [|x l IH]; cbn in *; lra. Qed.

Lemma card_nil {A} : card (@nil A) = 0. Proof. reflexivity. Qed.

Lemma card_cons {A} (x : A) l : card (x :: l) = card l + 1.
Proof. unfold card; cbn [length]; rewrite S_INR; reflexivity. Qed.

Lemma card_app {A} (l1 l2 : list A) : card (l1 ++ l2) = card l1 + card l2.
Proof. unfold card; rewrite app_length, plus_INR; reflexivity. Qed.

Lemma card_snoc {A} (l : list A) x : card (l ++ [x]) = card l + 1.
Proof. rewrite card_app; unfold card at 2; cbn; lra. Qed.

Lemma card_nonneg {A} (l : list A) : 0 <= card l.
Proof. apply pos_INR. Qed.

Lemma card_pos {A} (l : list A) : l <> [] -> 1 <= card l.
Proof.
  destruct l as [|x l]; [congruence|intros _].
  rewrite card_cons; pose proof (card_nonneg l); lra.
Qed.

Lemma card_map {A B} (f : A -> B) l : card (map f l) = card l.
Proof. unfold card; rewrite map_length; reflexivity. Qed.

Lemma Rsum_map_const {A} (c : R) (l : list A) :
  Rsum (map (fun _ => c) l) = card l * c.
Proof.
  induction l as [|x l IH]; [cbn; unfold card; cbn; lra|].
  cbn [map]; rewrite Rsum_cons, IH, card_cons; lra.
Qed.

Lemma Rsum_map_ext {A} (f g : A -> R) l :
  (forall x, In x l -> f x = g x) -> Rsum (map f l) = Rsum (map g l).
Proof. intros H; rewrite (map_ext_in _ _ _ H); reflexivity. Qed.

Lemma Rsum_nonneg l : Forall (fun x => 0 <= x) l -> 0 <= Rsum l.
Proof. induction 1 as [|x l Hx _ IH]; cbn in *; lra. Qed.

Lemma Rsum_map_nonneg {A} (f : A -> R) l :
  (forall x, In x l -> 0 <= f x) -> 0 <= Rsum (map f l).
Proof.
  intros H; apply Rsum_nonneg, Forall_forall; intros y Hy.
  apply in_map_iff in Hy as (x & <- & Hx); auto.
Qed.

Lemma Rsum_map_zero {A} (f : A -> R) l :
  (forall x, In x l -> 0 <= f x) -> Rsum (map f l) = 0 ->
  forall x, In x l -> f x = 0.
Proof.
  induction l as [|y l IH]; intros Hp Hs x Hx; [destruct Hx|].
  cbn [map] in Hs; rewrite Rsum_cons in Hs.
  assert (H1 : 0 <= f y) by (apply Hp; left; reflexivity).
  assert (H2 : 0 <= Rsum (map f l))
    by (apply Rsum_map_nonneg; intros z Hz; apply Hp; right; exact Hz).
  destruct Hx as [<-|Hx]; [lra|].
  apply IH; auto; [intros z Hz; apply Hp; right; exact Hz|lra].
Qed.

Lemma Rsum_perm l1 l2 : Permutation l1 l2 -> Rsum l1 = Rsum l2.
Proof. induction 1; cbn in *; lra. Qed.

Lemma card_perm {A} (l1 l2 : list A) : Permutation l1 l2 -> card l1 = card l2.
Proof. intros H; unfold card; rewrite (Permutation_length H); reflexivity. Qed.

(** ** Power sums about an arbitrary centre *)

Definition psum (k : nat) (c : R) (l : list R) : R :=
  Rsum (map (fun x => (x - c) ^ k) l).

Lemma psum_cons k c x l : psum k c (x :: l) = (x - c) ^ k + psum k c l.
Proof. reflexivity. Qed.

Lemma psum_snoc k c l x : psum k c (l ++ [x]) = psum k c l + (x - c) ^ k.
Proof. unfold psum; rewrite map_app, Rsum_app; cbn [map Rsum]; lra. Qed.

Lemma psum_1 c l : psum 1 c l = Rsum l - card l * c.
Proof.
  induction l as [|x l IH]; [unfold psum, card; cbn; lra|].
  rewrite psum_cons, IH, Rsum_cons, card_cons; ring.
Qed.

Lemma psum_2_shift c d l :
  psum 2 (c + d) l = psum 2 c l - 2 * d * psum 1 c l + card l * d ^ 2.
Proof.
  induction l as [|x l IH]; [unfold psum, card; cbn; lra|].
  rewrite !psum_cons, IH, card_cons; ring.
Qed.

Lemma psum_3_shift c d l :
  psum 3 (c + d) l =
  psum 3 c l - 3 * d * psum 2 c l + 3 * d ^ 2 * psum 1 c l - card l * d ^ 3.
Proof.
  induction l as [|x l IH]; [unfold psum, card; cbn; lra|].
  rewrite !psum_cons, IH, card_cons; ring.
Qed.

Lemma psum_4_shift c d l :
  psum 4 (c + d) l =
  psum 4 c l - 4 * d * psum 3 c l + 6 * d ^ 2 * psum 2 c l
  - 4 * d ^ 3 * psum 1 c l + card l * d ^ 4.
Proof.
  induction l as [|x l IH]; [unfold psum, card; cbn; lra|].
  rewrite !psum_cons, IH, card_cons; ring.
Qed.

Lemma csum_psum k l : csum k l = psum k (mean l) l.
Proof. reflexivity. Qed.

Lemma mean_card l : card l * mean l = Rsum l.
Proof.
  destruct l as [|x l]; [unfold mean, card; cbn; lra|].
  unfold mean; field.
  pose proof (card_pos (x :: l)); assert (x :: l <> []) by congruence.
  specialize (H H0); lra.
Qed.

Lemma psum_1_mean l : psum 1 (mean l) l = 0.
Proof. rewrite psum_1, mean_card; lra. Qed.

Lemma mean_snoc l x : mean (l ++ [x]) = mean l + (x - mean l) / (card l + 1).
Proof.
  pose proof (card_nonneg l) as Hn.
  unfold mean at 1; rewrite Rsum_snoc, card_snoc, <- mean_card.
  field; lra.
Qed.

Lemma csum_2_snoc l x :
  csum 2 (l ++ [x]) =
  csum 2 l + (x - mean l) ^ 2 * card l / (card l + 1).
Proof.
  pose proof (card_nonneg l) as Hn.
  rewrite !csum_psum, psum_snoc, mean_snoc, psum_2_shift, psum_1_mean.
  field; lra.
Qed.

Lemma csum_3_snoc l x :
  csum 3 (l ++ [x]) =
  csum 3 l + (x - mean l) ^ 3 * card l * (card l - 1) / (card l + 1) ^ 2
  - 3 * csum 2 l * (x - mean l) / (card l + 1).
Proof.
  pose proof (card_nonneg l) as Hn.
  rewrite !csum_psum, psum_snoc, mean_snoc, psum_3_shift, psum_1_mean.
  field; lra.
Qed.

Lemma csum_4_snoc l x :
  csum 4 (l ++ [x]) =
  csum 4 l
  + (x - mean l) ^ 4 * card l * (card l ^ 2 - card l + 1) / (card l + 1) ^ 3
  + 6 * csum 2 l * (x - mean l) ^ 2 / (card l + 1) ^ 2
  - 4 * csum 3 l * (x - mean l) / (card l + 1).
Proof.
  pose proof (card_nonneg l) as Hn.
  rewrite !csum_psum, psum_snoc, mean_snoc, psum_4_shift, psum_1_mean.
  field; lra.
Qed.

Lemma csum_2_nonneg l : 0 <= csum 2 l.
Proof.
  unfold csum; apply Rsum_map_nonneg; intros x _; apply pow2_ge_0.
Qed.

Lemma csum_4_nonneg l : 0 <= csum 4 l.
Proof.
  unfold csum; apply Rsum_map_nonneg; intros x _.
  replace ((x - mean l) ^ 4) with (((x - mean l) ^ 2) ^ 2) by ring.
  apply pow2_ge_0.
Qed.

Lemma csum_2_expand l :
  csum 2 l = psum 2 0 l - card l * mean l ^ 2.
Proof.
  rewrite csum_psum.
  replace (mean l) with (0 + mean l) at 1 by ring.
  rewrite psum_2_shift, psum_1, <- mean_card; ring.
Qed.

Lemma variance_nonneg l : 0 <= variance l.
Proof.
  unfold variance; destruct l as [|x l]; [unfold card; cbn; unfold Rdiv; lra|].
  pose proof (card_pos (x :: l) ltac:(congruence)).
  apply Rmult_le_pos; [apply csum_2_nonneg|].
  left; apply Rinv_0_lt_compat; lra.
Qed.

(** Zero variance means a constant list. *)
Lemma csum_2_zero l : csum 2 l = 0 -> constant (mean l) l.
Proof.
  unfold csum; intros H; apply Forall_forall; intros x Hx.
  pose proof (Rsum_map_zero (fun x => (x - mean l) ^ 2) l
    (fun y _ => pow2_ge_0 (y - mean l)) H x Hx) as H0.
  cbn beta in H0.
  assert (x - mean l = 0); [|lra].
  apply Rsqr_0_uniq; unfold Rsqr; lra.
Qed.

Lemma Rsum_constant c l : constant c l -> Rsum l = card l * c.
Proof.
  induction 1 as [|x l Hx _ IH]; [unfold card; cbn; lra|].
  rewrite Rsum_cons, card_cons, IH, <- Hx; ring.
Qed.

Lemma mean_constant c l : l <> [] -> constant c l -> mean l = c.
Proof.
  intros Hl Hc; unfold mean; rewrite (Rsum_constant c l Hc).
  field; pose proof (card_pos l Hl); lra.
Qed.

Lemma csum_constant k c l : constant c l -> csum (S k) l = 0.
Proof.
  intros Hc; destruct l as [|x l]; [reflexivity|].
  unfold csum; rewrite (mean_constant c) by (auto; congruence).
  rewrite (Rsum_map_ext _ (fun _ => 0)).
  - rewrite Rsum_map_const; ring.
  - intros y Hy; unfold constant in Hc; rewrite Forall_forall in Hc; rewrite <- (Hc y Hy).
    cbn; ring.
Qed.

(** ** Pairs *)

Lemma xs_snoc l p : xs (l ++ [p]) = xs l ++ [fst p].
Proof. unfold xs; rewrite map_app; reflexivity. Qed.
Lemma ys_snoc l p : ys (l ++ [p]) = ys l ++ [snd p].
Proof. unfold ys; rewrite map_app; reflexivity. Qed.
Lemma card_xs l : card (xs l) = card l. Proof. apply card_map. Qed.
Lemma card_ys l : card (ys l) = card l. Proof. apply card_map. Qed.

(** Sum of products about arbitrary centres. *)
Definition qsum (c d : R) (l : list (R * R)) : R :=
  Rsum (map (fun p => (fst p - c) * (snd p - d)) l).

Lemma qsum_snoc c d l p :
  qsum c d (l ++ [p]) = qsum c d l + (fst p - c) * (snd p - d).
Proof. unfold qsum; rewrite map_app, Rsum_app; cbn [map Rsum]; lra. Qed.

Lemma qsum_shift c d a b l :
  qsum (c + a) (d + b) l =
  qsum c d l - a * psum 1 d (ys l) - b * psum 1 c (xs l) + card l * a * b.
Proof.
  unfold qsum, psum, xs, ys.
  induction l as [|p l IH]; [unfold card; cbn; lra|].
  cbn [map]; rewrite !Rsum_cons, card_cons, IH; ring.
Qed.

Lemma cosum_qsum l : cosum l = qsum (mean (xs l)) (mean (ys l)) l.
Proof. reflexivity. Qed.

Lemma cosum_snoc l p :
  cosum (l ++ [p]) =
  cosum l
  + (fst p - mean (xs l)) * (snd p - mean (ys l)) * card l / (card l + 1).
Proof.
  pose proof (card_nonneg l) as Hn.
  rewrite !cosum_qsum, qsum_snoc, xs_snoc, ys_snoc, !mean_snoc, qsum_shift.
  rewrite !psum_1_mean, card_xs, card_ys.
  field; lra.
Qed.

Lemma cosum_expand l :
  cosum l = Rsum (map (fun p => fst p * snd p) l)
            - card l * mean (xs l) * mean (ys l).
Proof.
  rewrite cosum_qsum.
  replace (mean (xs l)) with (0 + mean (xs l)) at 1 by ring.
  replace (mean (ys l)) with (0 + mean (ys l)) at 1 by ring.
  rewrite qsum_shift, !psum_1, <- (mean_card (xs l)), <- (mean_card (ys l)).
  rewrite card_xs, card_ys.
  unfold qsum; rewrite (Rsum_map_ext _ (fun p => fst p * snd p))
    by (intros; ring).
  ring.
Qed.

(** ** Residuals, Cauchy-Schwarz and least squares *)

Lemma sse_expand a b l :
  sse a b l = csum 2 (ys l) - 2 * b * cosum l + b ^ 2 * csum 2 (xs l)
              + card l * (mean (ys l) - a - b * mean (xs l)) ^ 2.
Proof.
  set (mx := mean (xs l)); set (my := mean (ys l)).
  rewrite cosum_qsum, !csum_psum; fold mx my.
  pose proof (psum_1_mean (xs l)) as Hx; fold mx in Hx.
  pose proof (psum_1_mean (ys l)) as Hy; fold my in Hy.
  assert (E : sse a b l =
    psum 2 my (ys l) - 2 * b * qsum mx my l + b ^ 2 * psum 2 mx (xs l)
    + card l * (my - a - b * mx) ^ 2
    + 2 * (my - a - b * mx) * (psum 1 my (ys l) - b * psum 1 mx (xs l))).
  { clearbody mx my; clear Hx Hy; unfold sse, psum, qsum, xs, ys.
    induction l as [|p l IH]; [unfold card; cbn; lra|].
    cbn [map]; rewrite !Rsum_cons, card_cons, IH; ring. }
  rewrite E, Hx, Hy; ring.
Qed.

Lemma sse_nonneg a b l : 0 <= sse a b l.
Proof. unfold sse; apply Rsum_map_nonneg; intros p _; apply pow2_ge_0. Qed.

Lemma cosum_x_zero l : csum 2 (xs l) = 0 -> cosum l = 0.
Proof.
  intros H; unfold cosum; rewrite (Rsum_map_ext _ (fun _ => 0)).
  - rewrite Rsum_map_const; ring.
  - intros p Hp; pose proof (csum_2_zero _ H) as Hc.
    unfold constant in Hc; rewrite Forall_forall in Hc.
    rewrite <- (Hc (fst p)) by (apply in_map; exact Hp); ring.
Qed.

Lemma cauchy_schwarz l : cosum l ^ 2 <= csum 2 (xs l) * csum 2 (ys l).
Proof.
  pose proof (csum_2_nonneg (xs l)) as HA.
  destruct (Req_dec (csum 2 (xs l)) 0) as [H0|H0].
  - rewrite (cosum_x_zero l H0), H0; lra.
  - set (b := cosum l / csum 2 (xs l)).
    pose proof (sse_nonneg (mean (ys l) - b * mean (xs l)) b l) as H.
    rewrite sse_expand in H.
    replace (mean (ys l) - (mean (ys l) - b * mean (xs l)) - b * mean (xs l))
      with 0 in H by ring.
    assert (E : csum 2 (ys l) - 2 * b * cosum l + b ^ 2 * csum 2 (xs l) =
                csum 2 (ys l) - cosum l ^ 2 / csum 2 (xs l))
      by (unfold b; field; exact H0).
    rewrite E in H.
    assert (H1 : cosum l ^ 2 / csum 2 (xs l) <= csum 2 (ys l)) by lra.
    apply (Rmult_le_compat_l (csum 2 (xs l))) in H1; [|exact HA].
    replace (csum 2 (xs l) * (cosum l ^ 2 / csum 2 (xs l)))
      with (cosum l ^ 2) in H1 by (field; exact H0).
    exact H1.
Qed.

(** The least-squares line. *)
Definition ls_slope (l : list (R * R)) : R :=
  if Req_EM_T (csum 2 (xs l)) 0 then 0 else cosum l / csum 2 (xs l).
Definition ls_intercept (l : list (R * R)) : R :=
  mean (ys l) - ls_slope l * mean (xs l).

Lemma ls_optimal l a b :
  sse (ls_intercept l) (ls_slope l) l <= sse a b l.
Proof.
  rewrite !sse_expand.
  pose proof (csum_2_nonneg (xs l)) as HA.
  pose proof (card_nonneg l) as Hn.
  pose proof (pow2_ge_0 (mean (ys l) - a - b * mean (xs l))) as Hq.
  pose proof (Rmult_le_pos _ _ Hn Hq) as Hnq.
  unfold ls_intercept.
  replace (mean (ys l) - (mean (ys l) - ls_slope l * mean (xs l))
           - ls_slope l * mean (xs l)) with 0 by ring.
  unfold ls_slope; destruct (Req_EM_T (csum 2 (xs l)) 0) as [H0|H0].
  - rewrite H0, (cosum_x_zero l H0); lra.
  - assert (E : csum 2 (ys l) - 2 * b * cosum l + b ^ 2 * csum 2 (xs l) =
      csum 2 (ys l) - cosum l ^ 2 / csum 2 (xs l)
      + csum 2 (xs l) * (b - cosum l / csum 2 (xs l)) ^ 2)
      by (field; exact H0).
    rewrite E.
    assert (E2 : csum 2 (ys l) - 2 * (cosum l / csum 2 (xs l)) * cosum l
       + (cosum l / csum 2 (xs l)) ^ 2 * csum 2 (xs l) =
       csum 2 (ys l) - cosum l ^ 2 / csum 2 (xs l)) by (field; exact H0).
    rewrite E2.
    pose proof (pow2_ge_0 (b - cosum l / csum 2 (xs l))) as Hb.
    pose proof (Rmult_le_pos _ _ HA Hb); lra.
Qed.

Lemma ls_unique l a b :
  csum 2 (xs l) <> 0 ->
  sse a b l = sse (ls_intercept l) (ls_slope l) l ->
  a = ls_intercept l /\ b = ls_slope l.
Proof.
  intros H0 H; rewrite !sse_expand in H.
  pose proof (csum_2_nonneg (xs l)) as HA.
  assert (Hn : 0 < card l).
  { destruct l as [|p l]; [exfalso; apply H0; reflexivity|].
    pose proof (card_pos (p :: l) ltac:(congruence)); lra. }
  unfold ls_intercept in *.
  replace (mean (ys l) - (mean (ys l) - ls_slope l * mean (xs l))
           - ls_slope l * mean (xs l)) with 0 in H by ring.
  unfold ls_slope in *; destruct (Req_EM_T (csum 2 (xs l)) 0) as [H1|_];
    [contradiction|].
  set (s := cosum l / csum 2 (xs l)) in *.
  set (q := mean (ys l) - a - b * mean (xs l)) in *.
  assert (E : csum 2 (xs l) * (b - s) ^ 2 + card l * q ^ 2 = 0).
  { replace (csum 2 (xs l) * (b - s) ^ 2) with
      (csum 2 (xs l) * b ^ 2 - 2 * b * cosum l
       + (2 * s * cosum l - s ^ 2 * csum 2 (xs l)))
      by (unfold s; field; exact H0).
    lra. }
  pose proof (pow2_ge_0 (b - s)) as P1; pose proof (pow2_ge_0 q) as P2.
  pose proof (Rmult_le_pos _ _ HA P1) as P3.
  assert (P4 : 0 <= card l * q ^ 2) by (apply Rmult_le_pos; lra).
  assert (Q1 : (b - s) ^ 2 = 0).
  { apply (Rmult_eq_reg_l (csum 2 (xs l))); [lra|exact H0]. }
  assert (Q2 : q ^ 2 = 0).
  { apply (Rmult_eq_reg_l (card l)); lra. }
  assert (Hb : b = s).
  { assert (b - s = 0) by (apply Rsqr_0_uniq; unfold Rsqr; lra). lra. }
  assert (Hq : q = 0) by (apply Rsqr_0_uniq; unfold Rsqr; lra).
  split; [|exact Hb].
  unfold q in Hq; rewrite Hb in Hq; lra.
Qed.

Lemma sse_collinear a b l : collinear a b l -> sse a b l = 0.
Proof.
  intros H; unfold sse; rewrite (Rsum_map_ext _ (fun _ => 0)).
  - rewrite Rsum_map_const; ring.
  - intros p Hp; unfold collinear in H; rewrite Forall_forall in H.
    rewrite (H p Hp); ring.
Qed.

Lemma ls_collinear a b l :
  csum 2 (xs l) <> 0 -> collinear a b l ->
  ls_slope l = b /\ ls_intercept l = a.
Proof.
  intros H0 Hc.
  destruct (ls_unique l a b H0) as [E1 E2]; [|auto].
  rewrite (sse_collinear a b l Hc).
  pose proof (ls_optimal l a b) as H; rewrite (sse_collinear a b l Hc) in H.
  pose proof (sse_nonneg (ls_intercept l) (ls_slope l) l); lra.
Qed.

(** ** Shape of skewness and kurtosis *)

Lemma csum_3_two x y : csum 3 [x; y] = 0.
Proof. unfold csum, mean, card; cbn; field. Qed.

Lemma csum_2_pos_of_3 l : csum 3 l <> 0 -> 0 < csum 2 l.
Proof.
  intros H; pose proof (csum_2_nonneg l) as Hnn.
  destruct (Req_dec (csum 2 l) 0) as [H0|H0]; [|lra].
  exfalso; apply H; apply (csum_constant 2 (mean l)), csum_2_zero, H0.
Qed.

Lemma csum_2_pos_of_4 l : csum 4 l <> 0 -> 0 < csum 2 l.
Proof.
  intros H; pose proof (csum_2_nonneg l) as Hnn.
  destruct (Req_dec (csum 2 l) 0) as [H0|H0]; [|lra].
  exfalso; apply H; apply (csum_constant 3 (mean l)), csum_2_zero, H0.
Qed.

Lemma csum_nonzero_nonempty k l : csum k l <> 0 -> l <> [].
Proof. intros H ->; apply H; reflexivity. Qed.

Lemma skewness_formula l :
  0 < csum 2 l ->
  sqrt (card l) * csum 3 l / (sqrt (csum 2 l) * csum 2 l) = skewness l.
Proof.
  intros H; assert (Hl : l <> []) by (apply (csum_nonzero_nonempty 2); lra).
  pose proof (card_pos l Hl) as Hn.
  unfold skewness, cmoment.
  rewrite sqrt_div_alt by lra.
  assert (Hs : 0 < sqrt (csum 2 l)) by (apply sqrt_lt_R0; exact H).
  assert (Hc : 0 < sqrt (card l)) by (apply sqrt_lt_R0; lra).
  assert (Hsq : sqrt (card l) * sqrt (card l) = card l)
    by (apply sqrt_sqrt; lra).
  rewrite <- Hsq at 2 3; field; lra.
Qed.

Lemma kurtosis_formula l :
  0 < csum 2 l ->
  card l * csum 4 l / (csum 2 l * csum 2 l) = kurtosis l.
Proof.
  intros H; assert (Hl : l <> []) by (apply (csum_nonzero_nonempty 2); lra).
  pose proof (card_pos l Hl) as Hn.
  unfold kurtosis, cmoment; field; lra.
Qed.

(** ** Permutations *)

Lemma mean_perm l1 l2 : Permutation l1 l2 -> mean l1 = mean l2.
Proof.
  intros H; unfold mean; rewrite (Rsum_perm _ _ H), (card_perm _ _ H); reflexivity.
Qed.

Lemma csum_perm k l1 l2 : Permutation l1 l2 -> csum k l1 = csum k l2.
Proof.
  intros H; unfold csum; rewrite (mean_perm _ _ H).
  apply Rsum_perm, Permutation_map, H.
Qed.

Lemma cosum_perm l1 l2 : Permutation l1 l2 -> cosum l1 = cosum l2.
Proof.
  intros H; unfold cosum, xs, ys.
  rewrite (mean_perm _ _ (Permutation_map fst H)).
  rewrite (mean_perm _ _ (Permutation_map snd H)).
  apply Rsum_perm, Permutation_map, H.
Qed.

(** ** Bilinearity of the covariance *)

Definition swap (p : R * R) : R * R := (snd p, fst p).

Lemma xs_swap l : xs (map swap l) = ys l.
Proof. unfold xs, ys; rewrite map_map; reflexivity. Qed.
Lemma ys_swap l : ys (map swap l) = xs l.
Proof. unfold xs, ys; rewrite map_map; reflexivity. Qed.

Lemma cosum_swap l : cosum (map swap l) = cosum l.
Proof.
  unfold cosum; rewrite xs_swap, ys_swap, map_map.
  apply Rsum_map_ext; intros p _; cbn; ring.
Qed.

Lemma mean_affine a c l : l <> [] ->
  mean (map (fun x => a * x + c) l) = a * mean l + c.
Proof.
  intros Hl; unfold mean; rewrite card_map.
  rewrite (Rsum_map_plus (fun x => a * x) (fun _ => c)).
  rewrite (Rsum_map_scal a (fun x => x)), map_id, Rsum_map_const.
  pose proof (card_pos l Hl); field; lra.
Qed.

Lemma csum_affine k a c l :
  csum k (map (fun x => a * x + c) l) = a ^ k * csum k l.
Proof.
  destruct l as [|x0 l0]; [cbn; unfold csum; cbn; ring|].
  set (l := x0 :: l0); unfold csum.
  rewrite mean_affine by (unfold l; congruence).
  rewrite map_map, <- Rsum_map_scal; apply Rsum_map_ext; intros x _.
  rewrite <- Rpow_mult_distr; f_equal; ring.
Qed.

Lemma cosum_affine a b c d l :
  cosum (map (fun p => (a * fst p + c, b * snd p + d)) l) = a * b * cosum l.
Proof.
  destruct l as [|p0 l0]; [unfold cosum; cbn; ring|].
  set (l := p0 :: l0); unfold cosum, xs, ys; rewrite !map_map; cbn [fst snd].
  replace (map (fun x : R * R => a * fst x + c) l)
    with (map (fun x => a * x + c) (map fst l)) by (rewrite map_map; reflexivity).
  replace (map (fun x : R * R => b * snd x + d) l)
    with (map (fun x => b * x + d) (map snd l)) by (rewrite map_map; reflexivity).
  rewrite !mean_affine by (unfold l; cbn; congruence).
  rewrite <- Rsum_map_scal; apply Rsum_map_ext; intros p _; ring.
Qed.

Lemma cosum_diag l : cosum (map (fun x => (x, x)) l) = csum 2 l.
Proof.
  unfold cosum, xs, ys, csum; rewrite !map_map; cbn [fst snd]; rewrite !map_id.
  apply Rsum_map_ext; intros x _; ring.
Qed.

(** Additivity in the first argument. *)
Lemma cosum_add (l : list (R * R * R)) :
  cosum (map (fun p => (fst (fst p) + snd (fst p), snd p)) l) =
  cosum (map (fun p => (fst (fst p), snd p)) l)
  + cosum (map (fun p => (snd (fst p), snd p)) l).
Proof.
  unfold cosum, xs, ys; rewrite !map_map; cbn [fst snd].
  assert (E : mean (map (fun x : R * R * R => fst (fst x) + snd (fst x)) l) =
              mean (map (fun x => fst (fst x)) l)
              + mean (map (fun x => snd (fst x)) l)).
  { unfold mean; rewrite Rsum_map_plus, !card_map; unfold Rdiv; ring. }
  rewrite E, <- Rsum_map_plus; apply Rsum_map_ext; intros p _; ring.
Qed.

(** ** Running means *)

Lemma running_means_from_snoc pre l x :
  running_means_from pre (l ++ [x]) =
  running_means_from pre l ++ [mean (pre ++ l ++ [x])].
Proof.
  revert pre; induction l as [|y l IH]; intros pre; cbn.
  - reflexivity.
  - rewrite IH; f_equal; f_equal; f_equal; rewrite <- app_assoc; reflexivity.
Qed.

Lemma running_means_snoc l x :
  running_means (l ++ [x]) = running_means l ++ [mean (l ++ [x])].
Proof. apply running_means_from_snoc. Qed.

Lemma running_means_length l : length (running_means l) = length l.
Proof.
  induction l as [|x l IH] using rev_ind; [reflexivity|].
  rewrite running_means_snoc, !app_length, IH; reflexivity.
Qed.

(** Arithmetic progressions *)
Definition progression (a d : R) (n : nat) : list R :=
  map (fun i => a + d * INR i) (seq 0 n).

Lemma progression_S a d n :
  progression a d (S n) = progression a d n ++ [a + d * INR n].
Proof.
  unfold progression; rewrite seq_S, map_app; reflexivity.
Qed.

Lemma progression_card a d n : card (progression a d n) = INR n.
Proof. unfold progression; rewrite card_map; unfold card; rewrite seq_length; reflexivity. Qed.

Lemma progression_mean a d n :
  mean (progression a d (S n)) = a + d * INR n / 2.
Proof.
  induction n as [|n IH].
  - unfold progression, mean, card; cbn; field.
  - rewrite progression_S, mean_snoc, IH, progression_card, !S_INR.
    pose proof (pos_INR n); field; lra.
Qed.

Lemma progression_running a d n :
  mean (running_means (progression a d (S n))) = a + d * INR n / 4.
Proof.
  induction n as [|n IH].
  - unfold progression, running_means, mean, card; cbn.
    unfold mean, card; cbn; field.
  - rewrite progression_S, running_means_snoc, mean_snoc, IH.
    unfold card at 1; rewrite running_means_length.
    fold (card (progression a d (S n))).
    rewrite <- progression_S, progression_mean, progression_card, !S_INR.
    pose proof (pos_INR n); field; lra.
Qed.
