(** * Response of the impulse filters to sinusoids *)

From Coq Require Import Reals List Arith Lia Lra Psatz.
From Flocq Require Import Core.Raux.
From Verif Require Import History SpecStats SpecDecay SpecImpulse SpecFrequency ImpulseProofs DecayProofs Forgetting.
Import ListNotations.
Local Open Scope R_scope.

Lemma sinusoid_length A w phi m : length (sinusoid A w phi m) = m.
Proof. unfold sinusoid. rewrite map_length, seq_length. reflexivity. Qed.

Lemma sinusoid_nth A w phi m k : (k < m)%nat -> nth k (sinusoid A w phi m) 0 = A * cos (w * INR k + phi).
Proof.
  intros H. unfold sinusoid. rewrite (nth_indep _ 0 (A * cos (w * INR 0 + phi))) by (rewrite map_length, seq_length; exact H).
  rewrite (map_nth (fun k => A * cos (w * INR k + phi))), seq_nth by exact H. reflexivity.
Qed.

Lemma sinusoid_bound A w phi m v : In v (sinusoid A w phi m) -> Rabs v <= Rabs A.
Proof.
  unfold sinusoid. rewrite in_map_iff. intros (k & <- & _). rewrite Rabs_mult.
  pose proof (COS_bound (w * INR k + phi)) as B. pose proof (Rabs_pos A).
  assert (Rabs (cos (w * INR k + phi)) <= 1) by (apply Rabs_le; lra). nra.
Qed.

(** The weighted sum of delayed sinusoids. *)
Lemma delayed_cos c d w th :
  sumto (length c) (fun k => nth k c 0 * cos (th - w * INR (k + d))) =
  cos_part c d w * cos th + sin_part c d w * sin th.
Proof.
  unfold cos_part, sin_part. rewrite (Rmult_comm _ (cos th)), (Rmult_comm _ (sin th)), <- sumto_linear.
  apply sumto_ext. intros k _. rewrite cos_minus. ring.
Qed.

Lemma delayed_sin c d w th :
  sumto (length c) (fun k => nth k c 0 * sin (th - w * INR (k + d))) =
  cos_part c d w * sin th - sin_part c d w * cos th.
Proof.
  unfold cos_part, sin_part.
  replace (sumto (length c) (fun k => nth k c 0 * cos (w * INR (k + d))) * sin th -
           sumto (length c) (fun k => nth k c 0 * sin (w * INR (k + d))) * cos th)
    with (sin th * sumto (length c) (fun k => nth k c 0 * cos (w * INR (k + d))) +
          (- cos th) * sumto (length c) (fun k => nth k c 0 * sin (w * INR (k + d)))) by ring.
  rewrite <- sumto_linear.
  apply sumto_ext. intros k _. rewrite sin_minus. ring.
Qed.

Lemma convolution_sinusoid c l A w phi m n : (length l + length c <= S n)%nat -> (n < length l + m)%nat ->
  convolution c (l ++ sinusoid A w phi m) n =
  A * (cos_part c 0 w * cos (w * INR (n - length l) + phi) + sin_part c 0 w * sin (w * INR (n - length l) + phi)).
Proof.
  intros Hn Ln. rewrite <- delayed_cos. unfold convolution.
  rewrite (sumto_ext _ _ (fun k => A * (nth k c 0 * cos (w * INR (n - length l) + phi - w * INR (k + 0))) + 0 * 0)).
  - rewrite sumto_linear. ring.
  - intros j Hj. unfold back. destruct (Nat.leb_spec j n); [|lia].
    rewrite app_nth2 by lia. rewrite sinusoid_nth by lia.
    replace (n - j - length l)%nat with (n - length l - j)%nat by lia.
    rewrite minus_INR by lia. rewrite Nat.add_0_r.
    replace (w * (INR (n - length l) - INR j) + phi) with (w * INR (n - length l) + phi - w * INR j) by ring. ring.
Qed.

(** [p cos + q sin] is at most [sqrt (p^2 + q^2)] in magnitude, and reaches it. *)
Lemma amplitude p q th : Rabs (p * cos th + q * sin th) <= sqrt (p² + q²).
Proof.
  rewrite <- sqrt_Rsqr_abs. apply sqrt_le_1_alt. pose proof (sin2_cos2 th) as E.
  unfold Rsqr in *. pose proof (Rle_0_sqr (p * sin th - q * cos th)) as S. unfold Rsqr in S.
  replace (p * p + q * q) with ((p * p + q * q) * (sin th * sin th + cos th * cos th)) by (rewrite E; ring). lra.
Qed.

Lemma amplitude_reached p q : exists th, p * cos th + q * sin th = sqrt (p² + q²).
Proof.
  set (G := sqrt (p² + q²)).
  assert (G2 : G * G = p² + q²) by (apply sqrt_sqrt; pose proof (Rle_0_sqr p); pose proof (Rle_0_sqr q); lra).
  assert (G0 : 0 <= G) by apply sqrt_pos. unfold Rsqr in G2.
  destruct (Req_dec G 0) as [Z|NZ].
  - exists 0. rewrite cos_0, sin_0, Z. rewrite Z in G2. nra.
  - assert (GP : 0 < G) by lra.
    assert (B : -1 <= p / G <= 1).
    { assert (p * p <= G * G) by nra. assert (Hp : - G <= p <= G) by (split; nra).
      split; apply (Rmult_le_reg_r G); try exact GP; unfold Rdiv; rewrite Rmult_assoc, Rinv_l by exact NZ; lra. }
    assert (Q : q * q = G * G * (1 - (p / G)²)).
    { unfold Rsqr. replace (G * G * (1 - p / G * (p / G))) with (G * G - p * p) by (field; exact NZ). lra. }
    assert (S0 : 0 <= 1 - (p / G)²) by (unfold Rsqr; nra).
    assert (R : sqrt (1 - (p / G)²) = Rabs q / G).
    { apply sqrt_lem_1; [exact S0| |].
      - apply Rmult_le_pos; [apply Rabs_pos|left; apply Rinv_0_lt_compat; exact GP].
      - replace (Rabs q / G * (Rabs q / G)) with ((Rabs q)² / (G * G)) by (unfold Rsqr; field; exact NZ).
        rewrite <- Rsqr_abs. unfold Rsqr at 1. rewrite Q. field. exact NZ. }
    destruct (Rle_dec 0 q) as [P|N].
    + exists (acos (p / G)). rewrite cos_acos, sin_acos by lra. rewrite R, Rabs_pos_eq by exact P.
      apply (Rmult_eq_reg_r G); [|exact NZ]. field_simplify; [|exact NZ]. nra.
    + exists (- acos (p / G)). rewrite cos_neg, sin_neg, cos_acos, sin_acos by lra. rewrite R, Rabs_left by lra.
      apply (Rmult_eq_reg_r G); [|exact NZ]. field_simplify; [|exact NZ]. nra.
Qed.

Lemma cos_part_bound c d w : Rabs (cos_part c d w) <= abs_sum c.
Proof.
  unfold cos_part. replace (abs_sum c) with (abs_sum c * 1) by ring. unfold abs_sum.
  rewrite <- sumto_nth_map. apply sumto_bound. intros k _. apply Rabs_le. apply COS_bound.
Qed.

Section Stable.
Variables (b a : list R) (scale w : R).
Hypothesis Stable : abs_sum a < Rabs scale.

Lemma feedback_norm_pos : 0 < feedback_norm a scale w.
Proof.
  unfold feedback_norm. pose proof (cos_part_bound a 1 w) as H.
  assert (N : scale + cos_part a 1 w <> 0).
  { intros E. replace (cos_part a 1 w) with (- scale) in H by lra. rewrite Rabs_Ropp in H. lra. }
  pose proof (Rsqr_pos_lt _ N). pose proof (Rle_0_sqr (sin_part a 1 w)). lra.
Qed.

(** The settled response as a function of the phase. *)
Definition settled (th : R) : R := in_phase b a scale w * cos th + quadrature b a scale w * sin th.

(** It satisfies the difference equation at every phase. *)
Lemma settled_equation th :
  scale * settled th =
  cos_part b 0 w * cos th + sin_part b 0 w * sin th
  - sumto (length a) (fun j => nth j a 0 * settled (th - w * INR (S j))).
Proof.
  pose proof feedback_norm_pos as D.
  assert (E : sumto (length a) (fun j => nth j a 0 * settled (th - w * INR (S j))) =
    in_phase b a scale w * (cos_part a 1 w * cos th + sin_part a 1 w * sin th) +
    quadrature b a scale w * (cos_part a 1 w * sin th - sin_part a 1 w * cos th)).
  { rewrite <- delayed_cos, <- delayed_sin, <- sumto_linear. apply sumto_ext. intros j _.
    unfold settled. rewrite (Nat.add_comm j 1). cbn [plus]. ring. }
  rewrite E. unfold settled, in_phase, quadrature. unfold feedback_norm, Rsqr in *. field. lra.
Qed.

Lemma settled_norm :
  (in_phase b a scale w)² + (quadrature b a scale w)² =
  ((cos_part b 0 w)² + (sin_part b 0 w)²) / feedback_norm a scale w.
Proof.
  pose proof feedback_norm_pos as D. unfold in_phase, quadrature, feedback_norm, Rsqr in *. field. lra.
Qed.

Lemma settled_bound th : Rabs (settled th) <= abs_sum b / (Rabs scale - abs_sum a).
Proof.
  destruct (amplitude_reached (in_phase b a scale w) (quadrature b a scale w)) as (t0 & E0).
  set (G := sqrt _) in E0.
  assert (B : forall t, Rabs (settled t) <= G) by (intros t; apply amplitude).
  assert (G0 : 0 <= G) by apply sqrt_pos.
  eapply Rle_trans; [apply B|].
  assert (H : Rabs scale * G <= abs_sum b * 1 + abs_sum a * G).
  { pose proof (settled_equation t0) as E. change (settled t0) with (in_phase b a scale w * cos t0 + quadrature b a scale w * sin t0) in E.
    rewrite E0, <- delayed_cos in E.
    rewrite <- (Rabs_pos_eq G) at 1 by exact G0. rewrite <- Rabs_mult, E.
    eapply Rle_trans; [apply Rabs_triang|]. rewrite Rabs_Ropp. apply Rplus_le_compat.
    - unfold abs_sum. rewrite <- sumto_nth_map. apply sumto_bound. intros k _. apply Rabs_le, COS_bound.
    - unfold abs_sum. rewrite <- sumto_nth_map. apply sumto_bound. intros k _. apply B. }
  apply (Rmult_le_reg_r (Rabs scale - abs_sum a)); [lra|].
  unfold Rdiv. rewrite Rmult_assoc, Rinv_l by lra. lra.
Qed.

Lemma sinusoid_settles l A phi m y M i : 0 <= M -> b <> [] -> (0 < m)%nat ->
  (forall v, In v l -> Rabs v <= M) -> Rabs A <= M ->
  difference_equation b a scale (l ++ sinusoid A w phi m) y ->
  (length b + i * length a <= m)%nat ->
  Rabs (last y 0 - A * settled (w * INR (m - 1) + phi)) <=
    (abs_sum a / Rabs scale) ^ S i * (2 * (abs_sum b * M / (Rabs scale - abs_sum a))).
Proof.
  intros HM Nb Hm HX HA HD Hi.
  assert (Lb : (1 <= length b)%nat) by (destruct b; [congruence|cbn; lia]).
  set (Y := abs_sum b * M / (Rabs scale - abs_sum a)).
  assert (HX' : forall v, In v (l ++ sinusoid A w phi m) -> Rabs v <= M).
  { intros v Hv. apply in_app_or in Hv. destruct Hv as [Hv|Hv]; [apply HX, Hv|].
    apply sinusoid_bound in Hv. lra. }
  pose proof (output_bound b a scale Stable _ _ M HM HX' HD) as HY. fold Y in HY.
  set (g := fun th => A * settled th).
  assert (Hg : forall th, Rabs (g th) <= Y).
  { intros th. unfold g, Y. rewrite Rabs_mult. pose proof (settled_bound th) as S.
    unfold Rdiv in S |- *. rewrite (Rmult_comm (abs_sum b)), Rmult_assoc.
    apply Rmult_le_compat; auto using Rabs_pos. }
  assert (Y0 : 0 <= Y) by (pose proof (Rabs_pos (g 0)); specialize (Hg 0); lra).
  assert (Dg : forall n, (length l + length b <= S n)%nat -> (n < length l + m)%nat ->
    let th := w * INR (n - length l) + phi in
    scale * g th = sumto (length b) (fun i0 => nth i0 b 0 * back (l ++ sinusoid A w phi m) n i0)
      - sumto (length a) (fun j => nth j a 0 * g (th - w * INR (S j)))).
  { intros n Hn Ln th. pose proof (convolution_sinusoid b l A w phi m n Hn Ln) as C. unfold convolution in C.
    rewrite C. fold th. unfold g.
    rewrite (sumto_ext _ (fun j => nth j a 0 * (A * settled (th - w * INR (S j))))
      (fun j => A * (nth j a 0 * settled (th - w * INR (S j))) + 0 * 0)) by (intros; ring).
    rewrite sumto_linear. pose proof (settled_equation th) as E. nra. }
  destruct HD as [L H]. rewrite app_length, sinusoid_length in L, H.
  set (rho := abs_sum a / Rabs scale). pose proof (abs_sum_nonneg a) as A0.
  assert (R0 : 0 <= rho).
  { apply Rmult_le_pos; [exact A0|left; apply Rinv_0_lt_compat; lra]. }
  set (ph := fun n => w * INR (n - length l) + phi).
  assert (G : forall n Z, (length l + length b <= S n)%nat -> (n < length y)%nat ->
    (forall j, (j < length a)%nat -> Rabs (back y n (S j) - g (ph n - w * INR (S j))) <= Z) ->
    Rabs (nth n y 0 - g (ph n)) <= rho * Z).
  { intros n Z Hp Hn HZ. specialize (H n ltac:(lia)). specialize (Dg n Hp ltac:(lia)). cbn zeta in Dg. fold (ph n) in Dg.
    apply (Rmult_le_reg_l (Rabs scale)); [lra|]. rewrite <- Rabs_mult.
    replace (Rabs scale * (rho * Z)) with (abs_sum a * Z) by (unfold rho; field; lra).
    rewrite Rmult_minus_distr_l, H, Dg.
    match goal with |- Rabs (?X - ?P - (?X - ?Q)) <= _ => replace (X - P - (X - Q)) with (- (P - Q)) by ring end.
    rewrite Rabs_Ropp, sumto_minus.
    rewrite (sumto_ext _ _ (fun j => nth j a 0 * (back y n (S j) - g (ph n - w * INR (S j))))) by (intros; ring).
    unfold abs_sum. rewrite <- sumto_nth_map. apply sumto_bound. exact HZ. }
  assert (K : forall k n, (length l + length b + k * length a <= S n)%nat -> (n < length y)%nat ->
    Rabs (nth n y 0 - g (ph n)) <= rho ^ S k * (2 * Y)).
  { induction k as [|k IH]; intros n Hn Ln.
    - rewrite pow_1. apply G; [lia|exact Ln|]. intros j Hj.
      eapply Rle_trans; [apply Rabs_triang|]. rewrite Rabs_Ropp. specialize (Hg (ph n - w * INR (S j))).
      enough (Rabs (back y n (S j)) <= Y) by lra.
      unfold back. destruct (S j <=? n)%nat; [apply HY; lia|rewrite Rabs_R0; exact Y0].
    - change (rho ^ S (S k)) with (rho * rho ^ S k). rewrite Rmult_assoc. apply G; [lia|exact Ln|].
      intros j Hj. unfold back. destruct (Nat.leb_spec (S j) n); [|lia].
      replace (ph n - w * INR (S j)) with (ph (n - S j)%nat); [apply IH; lia|].
      unfold ph. replace (n - S j - length l)%nat with (n - length l - S j)%nat by lia.
      rewrite (minus_INR (n - length l)) by lia. ring. }
  rewrite last_nth. replace (w * INR (m - 1) + phi) with (ph (length y - 1)%nat).
  - apply K; lia.
  - unfold ph. do 3 f_equal. lia.
Qed.
End Stable.

(** ** Moving averages *)

Lemma lastn_sinusoid W l A w phi m : (W <= m)%nat ->
  lastn W (l ++ sinusoid A w phi m) = map (fun k => A * cos (w * INR k + phi)) (seq (m - W) W).
Proof.
  intros H. unfold lastn. rewrite app_length, sinusoid_length.
  rewrite skipn_app, skipn_all2 by lia. cbn [app].
  replace (length l + m - W - length l)%nat with (m - W)%nat by lia.
  unfold sinusoid. replace m with (m - W + W)%nat at 2 by lia. rewrite seq_app, map_app, skipn_app.
  rewrite skipn_all2 by (rewrite map_length, seq_length; lia).
  rewrite map_length, seq_length, Nat.sub_diag. reflexivity.
Qed.

Lemma telescoped A w phi n : forall s,
  2 * sin (w / 2) * Rsum (map (fun k => A * cos (w * INR k + phi)) (seq s n)) =
  A * (sin (w * INR (s + n) - w / 2 + phi) - sin (w * INR s - w / 2 + phi)).
Proof.
  induction n as [|n IH]; intros s; cbn [seq map Rsum].
  - rewrite Nat.add_0_r. ring.
  - rewrite Rmult_plus_distr_l, IH. replace (S s + n)%nat with (s + S n)%nat by lia.
    enough (E : 2 * sin (w / 2) * cos (w * INR s + phi) = sin (w * INR (S s) - w / 2 + phi) - sin (w * INR s - w / 2 + phi)).
    { rewrite (Rmult_comm A (cos _)), <- Rmult_assoc, E. ring. }
    rewrite S_INR. replace (w * (INR s + 1) - w / 2 + phi) with ((w * INR s + phi) + w / 2) by field.
    replace (w * INR s - w / 2 + phi) with ((w * INR s + phi) - w / 2) by field.
    rewrite sin_plus, sin_minus. ring.
Qed.

Lemma mean_sinusoid W l A w phi m : (0 < W)%nat -> (W <= m)%nat -> sin (w / 2) <> 0 ->
  mean (lastn W (l ++ sinusoid A w phi m)) =
  A * (sin (INR W * w / 2) / (INR W * sin (w / 2))) * cos (w * (INR (m - 1) - (INR W - 1) / 2) + phi).
Proof.
  intros HW Hm HS. rewrite lastn_sinusoid by exact Hm. unfold mean, card. rewrite map_length, seq_length.
  assert (W0 : INR W <> 0) by (apply not_0_INR; lia).
  set (S := Rsum _). pose proof (telescoped A w phi W (m - W)) as T. fold S in T.
  replace (m - W + W)%nat with m in T by lia.
  set (c := w * (INR (m - 1) - (INR W - 1) / 2) + phi).
  assert (E1 : w * INR m - w / 2 + phi = c + INR W * w / 2).
  { unfold c. rewrite minus_INR by lia. cbn [INR]. field. }
  assert (E2 : w * INR (m - W) - w / 2 + phi = c - INR W * w / 2).
  { unfold c. rewrite !minus_INR by lia. cbn [INR]. field. }
  rewrite E1, E2, sin_plus, sin_minus in T.
  apply (Rmult_eq_reg_l (2 * sin (w / 2))); [|lra].
  replace (2 * sin (w / 2) * (S / INR W)) with (2 * sin (w / 2) * S / INR W) by (field; exact W0).
  rewrite T. field. split; assumption.
Qed.

(** ** Exponentially weighted means *)

Lemma sinusoid_snoc A w phi n :
  sinusoid A w phi (S n) = sinusoid A w phi n ++ [A * cos (w * INR n + phi)].
Proof. unfold sinusoid. rewrite seq_S, map_app. reflexivity. Qed.

Lemma smoother_stable f : 0 < f <= 1 -> abs_sum [- (1 - f)] < Rabs 1.
Proof.
  intros Hf. unfold abs_sum. cbn [map Rsum]. rewrite Rabs_Ropp, Rabs_R1, Rabs_pos_eq by lra. lra.
Qed.

Lemma smoother_settled f w th : 0 < f <= 1 ->
  settled [f] [- (1 - f)] 1 w th =
  f * cos th + (1 - f) * settled [f] [- (1 - f)] 1 w (th - w).
Proof.
  intros Hf. pose proof (settled_equation [f] [- (1 - f)] 1 w (smoother_stable f Hf) th) as E.
  unfold cos_part, sin_part, sumto in E. cbn [length seq map Rsum nth plus] in E.
  replace (INR 0) with 0 in E by reflexivity. replace (INR 1) with 1 in E by reflexivity.
  rewrite !Rmult_0_r, cos_0, sin_0, !Rmult_1_r in E. lra.
Qed.

Lemma ewma_sinusoid f M l A w phi m : 0 < f <= 1 -> (0 < m)%nat ->
  Forall (fun x => Rabs x <= M) l -> Rabs A <= M ->
  Rabs (ewma f (l ++ sinusoid A w phi m) - A * settled [f] [- (1 - f)] 1 w (w * INR (m - 1) + phi)) <=
    3 * M * (1 - f) ^ m.
Proof.
  intros Hf Hm Hl HA. set (g := settled [f] [- (1 - f)] 1 w). set (q := 1 - f).
  assert (Q : 0 <= q < 1) by (unfold q; lra).
  assert (M0 : 0 <= M) by (pose proof (Rabs_pos A); lra).
  assert (G : forall th, Rabs (A * g th) <= M).
  { intros th. pose proof (settled_bound [f] [- (1 - f)] 1 w (smoother_stable f Hf) th) as B. fold g in B.
    unfold abs_sum in B. cbn [map Rsum] in B. rewrite Rabs_Ropp, Rabs_R1, (Rabs_pos_eq f), (Rabs_pos_eq (1 - f)) in B by lra.
    replace ((f + 0) / (1 - (1 - f + 0))) with 1 in B by (field; lra).
    rewrite Rabs_mult. pose proof (Rabs_pos A). nra. }
  assert (W : forall l', Forall (fun x => Rabs x <= M) l' -> Rabs (f * esum q l') <= M).
  { intros l' Hl'. assert (Hb : Forall (fun x => - M <= x <= M) l').
    { eapply Forall_impl; [|exact Hl']. intros x Hx. apply Rabs_le_inv, Hx. }
    pose proof (esum_bounds q (- M) M l' ltac:(lra) Hb) as B.
    pose proof (esum_ones q l') as O. replace (1 - q) with f in O by (unfold q; ring).
    pose proof (pow_le q (length l') ltac:(lra)) as P.
    set (s := esum q (map (fun _ => 1) l')) in *. apply Rabs_le. nra. }
  assert (K : forall n, f * esum q (l ++ sinusoid A w phi n) - A * g (w * INR n - w + phi) =
    q ^ n * (f * esum q l - A * g (phi - w))).
  { induction n as [|n IH].
    - change (sinusoid A w phi 0) with (@nil R). rewrite app_nil_r, pow_O. cbn [INR].
      replace (w * 0 - w + phi) with (phi - w) by ring. ring.
    - rewrite sinusoid_snoc, app_assoc, esum_snoc. cbn [pow]. rewrite Rmult_assoc, <- IH.
      rewrite S_INR. replace (w * (INR n + 1) - w + phi) with (w * INR n + phi) by ring.
      unfold g. rewrite (smoother_settled f w (w * INR n + phi) Hf). fold g q.
      replace (w * INR n + phi - w) with (w * INR n - w + phi) by ring. ring. }
  specialize (K m).
  replace (w * INR m - w + phi) with (w * INR (m - 1) + phi) in K by (rewrite minus_INR by lia; cbn [INR]; ring).
  set (x := l ++ sinusoid A w phi m) in *.
  assert (Hx : Forall (fun x => Rabs x <= M) x).
  { apply Forall_app. split; [exact Hl|]. apply Forall_forall. intros v Hv. apply sinusoid_bound in Hv. lra. }
  assert (Nx : x <> []) by (unfold x; destruct m; [lia|]; destruct l; discriminate).
  assert (Lx : length x = (m + length l)%nat) by (unfold x; rewrite app_length, sinusoid_length; lia).
  pose proof (ewma_nrm f x Hf Nx) as E. pose proof (nrm_pos f (length x) Hf ltac:(lia)) as NP.
  assert (EB : Rabs (ewma f x) <= M).
  { apply Rabs_le. apply (ewma_bounds f (- M) M x Hf Nx). eapply Forall_impl; [|exact Hx].
    intros v Hv. apply Rabs_le_inv, Hv. }
  assert (E' : f * esum q x = ewma f x * (1 - q ^ length x)).
  { rewrite <- E. unfold nrm in *. fold q in NP |- *. field. lra. }
  assert (P : 0 <= q ^ length x <= q ^ m).
  { split; [apply pow_le; lra|]. rewrite Lx, pow_add. pose proof (pow_le q m ltac:(lra)).
    assert (q ^ length l <= 1) by (rewrite <- (pow1 (length l)); apply pow_incr; lra). nra. }
  set (z := A * g (w * INR (m - 1) + phi)) in *.
  set (e0 := f * esum q l - A * g (phi - w)) in *.
  assert (B0 : Rabs e0 <= 2 * M).
  { unfold e0. eapply Rle_trans; [apply Rabs_triang|]. rewrite Rabs_Ropp. specialize (W l Hl). specialize (G (phi - w)). lra. }
  replace (ewma f x - z) with (q ^ m * e0 + ewma f x * q ^ length x) by lra.
  eapply Rle_trans; [apply Rabs_triang|]. rewrite !Rabs_mult, (Rabs_pos_eq (q ^ m)), (Rabs_pos_eq (q ^ length x)) by (apply pow_le; lra).
  pose proof (Rabs_pos e0). pose proof (Rabs_pos (ewma f x)). nra.
Qed.

Lemma smoother_parts f w : 0 < f <= 1 ->
  let q := 1 - f in
  let D := 1 - 2 * q * cos w + q * q in
  0 < D /\ in_phase [f] [- (1 - f)] 1 w = f * (1 - q * cos w) / D /\
  quadrature [f] [- (1 - f)] 1 w = f * q * sin w / D.
Proof.
  intros Hf q D. pose proof (feedback_norm_pos [- (1 - f)] 1 w (smoother_stable f Hf)) as P.
  assert (E : feedback_norm [- (1 - f)] 1 w = D).
  { unfold feedback_norm, cos_part, sin_part, sumto. cbn [length seq map Rsum nth plus].
    replace (INR 1) with 1 by reflexivity. rewrite Rmult_1_r. fold q. pose proof (sin2_cos2 w) as T.
    unfold D, Rsqr in *. nra. }
  rewrite E in P. split; [exact P|]. unfold in_phase, quadrature. rewrite E.
  unfold cos_part, sin_part, sumto. cbn [length seq map Rsum nth plus].
  replace (INR 0) with 0 by reflexivity. replace (INR 1) with 1 by reflexivity.
  rewrite !Rmult_0_r, cos_0, sin_0, !Rmult_1_r. fold q. split; (unfold Rdiv; f_equal; ring).
Qed.
