(** * Claim C105: how much noise the filters let through *)

From Coq Require Import Reals ZArith NArith List Bool.
From Verif Require Import Arith History SpecStats SpecExpectation SpecNoise Cumulative Window Interim Decay Impulse ExactRuns WindowRuns InterimRuns DecayRuns ImpulseRuns.
Import ListNotations.
Local Open Scope R_scope.
(* @end-header *)
From Coq Require Import Lia Lra.
From Verif Require Import SpecBlocks SpecDecay SpecImpulse HistoryLemmas StatsLemmas BlockLemmas CumulativeProofs CumulativeStats WindowProofs WindowStats
  InterimStats DecayProofs ExpectationProofs NoiseProofs ClaimsCumulative ClaimsWindow ClaimsInterim ClaimsDecay ClaimsImpulse ClaimsUnbiased.

Lemma expected_noise Ds out f v s2 m : Forall probability Ds -> Forall (fun D => pop_variance D = s2) Ds ->
  expected Ds out m -> (forall l, length l = length Ds -> out l = Fin (f l)) -> lin (length Ds) f v ->
  noise Ds out m (v * s2).
Proof.
  intros HP HV (g & Hg & Em) Ho HL. apply (noise_lin Ds out f v s2 m HP HV Ho HL).
  destruct HL as (w & Lw & Hv & Hw). rewrite Hw by apply map_length. rewrite <- each_dot by assumption.
  rewrite <- Em. apply each_ext. intros l Hl. rewrite <- Hw by exact Hl.
  specialize (Ho l Hl). rewrite Hg in Ho by exact Hl. congruence.
Qed.

Lemma noise_eq {A} (Ds : list (dist A)) out m v w : noise Ds out m v -> v = w -> noise Ds out m w.
Proof. intros H <-. exact H. Qed.

Lemma same_variance D n : Forall (fun E => pop_variance E = pop_variance D) (repeat D n).
Proof. apply Forall_forall. intros E H. apply repeat_spec in H. subst. reflexivity. Qed.

(** @prop C105_means: for every finite distribution and every number n of
    independent observations pushed after a clear(): every mean() has the mean of
    the distribution as expected value, and its variance is that of the
    distribution divided by n (cumulative) or by min(n, W) (window and, although
    it weighs the values of two blocks differently, interim); decay:
    multiplied by f/(2-f) (1+(1-f)^n)/(1-(1-f)^n). *)
Lemma c105_means : forall (eps : R) (D : dist R) (n W : nat) (f : R) (h : list (op R)),
  probability D -> (0 < n)%nat -> (N.of_nat n < szmod)%N ->
  (0 < W)%nat -> (2 * N.of_nat W < szmod)%N -> 0 < f <= 1 ->
  let observe l := h ++ Clear :: pushes l in
  let same := repeat D n in
  noise same (fun l => cmean_mean _ (run_cmean eps (observe l))) (pop_mean D) (pop_variance D / INR n) /\
  noise same (fun l => wmean_mean _ (run_wmean eps W (observe l))) (pop_mean D) (pop_variance D / INR (Nat.min n W)) /\
  noise same (fun l => imean_mean _ (N.of_nat W) (run_imean eps W (observe l))) (pop_mean D) (pop_variance D / INR (Nat.min n W)) /\
  noise same (fun l => dmean_mean _ (run_dmean eps f (observe l))) (pop_mean D)
    (pop_variance D * (f / (2 - f)) * ((1 + (1 - f) ^ n) / (1 - (1 - f) ^ n))).
Proof.
  intros eps D n W f h HP Hn Hf HW HW2 Hff observe same.
  destruct (c100_mean eps D n W f h HP Hn Hf HW HW2 Hff) as (M1 & M2 & M3 & M4). fold observe same in M1, M2, M3, M4.
  assert (HPs : Forall probability same) by (apply each_prob; exact HP).
  assert (HV : Forall (fun E => pop_variance E = pop_variance D) same) by apply same_variance.
  assert (HL : length same = n) by apply repeat_length.
  assert (NE : forall l : list R, length l = n -> l <> []) by (intros l Hl ->; cbn in Hl; lia).
  split; [|split; [|split]].
  - eapply noise_eq; [apply (expected_noise same _ mean (/ INR n) _ _ HPs HV M1)|unfold Rdiv; ring].
    + rewrite HL. intros l Hl. destruct (c01 eps (observe l)) as (_ & _ & H & _).
      { unfold fits, observe. rewrite since_cleared, Hl. exact Hf. }
      unfold observe in *. rewrite since_cleared in H. destruct H as (H & _); [apply NE; exact Hl|exact H].
    + rewrite HL. apply lin_mean. exact Hn.
  - eapply noise_eq; [apply (expected_noise same _ (fun l => mean (lastn W l)) (/ INR (Nat.min W n)) _ _ HPs HV M2)|rewrite Nat.min_comm; unfold Rdiv; ring].
    + rewrite HL. intros l Hl. destruct (c15 eps W (observe l) HW ltac:(lia)) as (_ & H & _).
      unfold observe in *. rewrite since_cleared in H. destruct H as (H & _); [|exact H].
      intros E. apply (f_equal (@length R)) in E. rewrite lastn_skipn, skipn_length in E. cbn in E. lia.
    + rewrite HL. apply lin_lastn, lin_mean. lia.
  - assert (HO : forall l, length l = length same -> imean_mean _ (N.of_nat W) (run_imean eps W (observe l)) = Fin (imean_value W l)).
    { intros l Hl. destruct (imean_values eps W (observe l) HW HW2) as (H & _). unfold observe in *.
      rewrite since_cleared in H. exact H. }
    eapply noise_eq; [apply (expected_noise same _ (imean_value W) (/ INR (Nat.min n W)) _ _ HPs HV M3 HO)|unfold Rdiv; ring].
    rewrite HL. rewrite HL in HO.
    destruct (Nat.le_gt_cases n W) as [LW|LW].
    + rewrite Nat.min_l by exact LW. apply (lin_ext n _ mean); [|apply lin_mean; exact Hn].
      intros l Hl. specialize (HO l Hl).
      destruct (c24 eps W (observe l) _ HW HW2 ltac:(left; reflexivity)) as (_ & H & _).
      unfold observe in *. rewrite since_cleared in H. rewrite HO in H. specialize (H ltac:(lia)). congruence.
    + rewrite Nat.min_r by lia. set (s := ((n - 1) mod W + 1)%nat).
      assert (Hs : (0 < s <= W)%nat) by (unfold s; pose proof (Nat.mod_upper_bound (n - 1) W ltac:(lia)); lia).
      assert (HsW : (W + s <= n)%nat).
      { unfold s. pose proof (Nat.div_mod_eq (n - 1) W) as E.
        assert (1 <= (n - 1) / W)%nat by (apply Nat.div_le_lower_bound; lia). nia. }
      apply (lin_ext n _ (fun l => wavg (INR W - INR s) (2 * INR s) (mean (lastn W (firstn (n - s) l))) (mean (lastn s l)))).
      2: { apply lin_interim; lia. }
      intros l Hl. specialize (HO l Hl).
      destruct (c24 eps W (observe l) _ HW HW2 ltac:(left; reflexivity)) as (_ & _ & H & _).
      unfold observe in *. rewrite since_cleared in H. rewrite HO in H. specialize (H ltac:(lia)). cbv zeta in H.
      assert (Lc : length (cur_block W l) = s) by (rewrite cur_len, Hl; fold s; lia).
      unfold card in H. rewrite Lc in H. injection H as ->.
      unfold prev_block. rewrite Lc. unfold cur_block. rewrite Hl. fold s.
      unfold wavg. f_equal; ring.
  - eapply noise_eq; [apply (expected_noise same _ (ewma f) (f * (1 + (1 - f) ^ n) / ((2 - f) * (1 - (1 - f) ^ n))) _ _ HPs HV M4)|].
    + rewrite HL. intros l Hl. destruct (c31 eps f f f f (observe l) Hff) as (m & H & _ & _ & _ & Em & _).
      unfold observe in *. rewrite since_cleared in Em. rewrite H, Em by (apply NE; exact Hl). reflexivity.
    + rewrite HL. apply lin_ewma; assumption.
    + pose proof (pow_lt1 (1 - f) n ltac:(lra) Hn). field. lra.
Qed.

(** @ex C105_means_ex: ten observations of a die with three sides, window of four
    values, decay factor 1/10. *)
Lemma c105_means_ex :
  let D := [(/ 2, 1); (/ 4, 3); (/ 4, 4)] in
  probability D /\ pop_variance D = 27 / 16 /\ (0 < 10)%nat /\ (N.of_nat 10 < szmod)%N /\ (2 * N.of_nat 4 < szmod)%N /\ 0 < / 10 <= 1.
Proof.
  cbn zeta. destruct c100_mean_ex as (P & _ & H). split; [exact P|].
  split; [unfold pop_variance, pop_mean, expect; cbn; lra|exact H].
Qed.

(** @prop C105_decay_span: the usual correspondence of smoothing factors: with
    factor 2/(W+1) the variance of the decay mean is never below that of a window
    of W values, and comes arbitrarily close to it with the number of
    observations. *)
Lemma c105_span : forall (eps : R) (D : dist R) (W : nat) (h : list (op R)),
  probability D -> (0 < W)%nat ->
  let f := 2 / (INR W + 1) in
  let out l := dmean_mean _ (run_dmean eps f (h ++ Clear :: pushes l)) in
  (forall n, (0 < n)%nat -> (N.of_nat n < szmod)%N ->
   exists v, noise (repeat D n) out (pop_mean D) v /\ pop_variance D / INR W <= v) /\
  (forall d, 0 < d -> exists n0, forall n, (n0 <= n)%nat -> (0 < n)%nat -> (N.of_nat n < szmod)%N ->
   exists v, noise (repeat D n) out (pop_mean D) v /\ v <= pop_variance D / INR W + d).
Proof.
  intros eps D W h HP HW f out.
  assert (W1 : 1 <= INR W) by (apply (le_INR 1); lia).
  assert (Hf : 0 < f <= 1).
  { unfold f. split; [apply Rdiv_lt_0_compat; lra|]. apply Rmult_le_reg_r with (INR W + 1); [lra|]. unfold Rdiv. rewrite Rmult_assoc, Rinv_l by lra. lra. }
  assert (Ef : f / (2 - f) = / INR W) by (unfold f; field; lra).
  assert (V0 : 0 <= pop_variance D).
  { unfold pop_variance. apply Rle_trans with (expect D (fun _ => 0)); [rewrite expect_const by exact HP; lra|].
    apply expect_le; [exact HP|]. intros x. apply pow2_ge_0. }
  assert (N : forall n, (0 < n)%nat -> (N.of_nat n < szmod)%N -> noise (repeat D n) out (pop_mean D)
    (pop_variance D / INR W * ((1 + (1 - f) ^ n) / (1 - (1 - f) ^ n)))).
  { intros n Hn Hn2. destruct (c105_means eps D n 1 f h HP Hn Hn2 ltac:(lia) ltac:(reflexivity) Hf) as (_ & _ & _ & H).
    rewrite Ef in H. exact H. }
  assert (VW : 0 <= pop_variance D / INR W) by (apply Rmult_le_pos; [exact V0|apply Rlt_le, Rinv_0_lt_compat; lra]).
  split.
  - intros n Hn Hn2. eexists. split; [apply N; assumption|].
    pose proof (pow_lt1 (1 - f) n ltac:(lra) Hn) as Q. set (z := (1 - f) ^ n) in *.
    assert (1 <= (1 + z) / (1 - z)).
    { apply Rmult_le_reg_r with (1 - z); [lra|]. unfold Rdiv. rewrite Rmult_assoc, Rinv_l; lra. }
    nra.
  - intros d Hd. set (V := pop_variance D / INR W) in *.
    (* (1-f)^n <= y with 2 V y <= d (1 - y) *)
    set (y := d / (2 * V + 2 * d)). assert (Y : 0 < y) by (unfold y; apply Rdiv_lt_0_compat; lra).
    destruct (pow_lt_1_zero (1 - f) ltac:(rewrite Rabs_pos_eq; lra) y Y) as [n0 H0].
    exists n0. intros n Hn0 Hn Hn2. eexists. split; [apply N; assumption|].
    pose proof (pow_lt1 (1 - f) n ltac:(lra) Hn) as Q. specialize (H0 n Hn0). rewrite Rabs_pos_eq in H0 by lra.
    set (z := (1 - f) ^ n) in *.
    assert (K : z * (2 * V + 2 * d) < d).
    { apply Rmult_lt_reg_r with (/ (2 * V + 2 * d)); [apply Rinv_0_lt_compat; lra|]. rewrite Rmult_assoc, Rinv_r by lra. unfold y, Rdiv in H0. lra. }
    apply Rmult_le_reg_r with (1 - z); [lra|].
    replace (V * ((1 + z) / (1 - z)) * (1 - z)) with (V * (1 + z)) by (field; lra). nra.
Qed.

(** @ex C105_decay_span_ex: a span of 19 observations is the factor 1/10. *)
Lemma c105_span_ex :
  probability [(/ 2, 1); (/ 4, 3); (/ 4, 4)] /\ (0 < 19)%nat /\ 2 / (INR 19 + 1) = / 10.
Proof. split; [apply c100_mean_ex|]. split; [lia|]. cbn. lra. Qed.

(** @prop C105_fir: finite impulse response: the expected value is the mean of the
    distribution times the sum of the coefficients reached so far, the variance
    that of the distribution times the sum of their squares. *)
Lemma c105_fir : forall (eps : R) (D : dist R) (c : list R) (n : nat) (h : list (op R)),
  probability D -> (0 < n)%nat -> c <> [] ->
  noise (repeat D n) (fun l => fir_value _ (run_fir eps c (h ++ Clear :: pushes l)))
    (pop_mean D * Rsum (firstn n c)) (pop_variance D * energy (firstn n c)).
Proof.
  intros eps D c n h HP Hn Hc.
  eapply noise_eq; [apply (noise_lin _ _ (fun l => convolution c l (n - 1)) (energy (firstn n c)) (pop_variance D))|apply Rmult_comm].
  - apply each_prob; exact HP.
  - apply same_variance.
  - rewrite repeat_length. intros l Hl. rewrite c45; [rewrite since_cleared, Hl; reflexivity|exact Hc|].
    rewrite since_cleared. intros ->. cbn in Hl. lia.
  - rewrite repeat_length. apply lin_convolution. exact Hn.
  - assert (G : forall n, match repeat (pop_mean D) n with [] => 0 | _ => convolution c (repeat (pop_mean D) n) (n - 1) end = pop_mean D * Rsum (firstn n c)).
    { clear n Hn. induction n as [|n IH]; [cbn; ring|]. cbn [repeat].
      pose proof (convolution_cons c (pop_mean D) (repeat (pop_mean D) n)) as E. rewrite repeat_length in E.
      replace (S n - 1)%nat with n by lia. rewrite E.
      replace (match repeat (pop_mean D) n with [] => 0 | _ => convolution c (repeat (pop_mean D) n) (n - 1) end)
        with (pop_mean D * Rsum (firstn n c)) by (rewrite <- IH; destruct n; reflexivity).
      destruct (Nat.lt_ge_cases n (length c)) as [L|L].
      - assert (F : firstn (S n) c = firstn n c ++ [nth n c 0]).
        { clear - L. revert n L. induction c as [|a c IH]; intros n L; [cbn in L; lia|].
          destruct n as [|n]; [reflexivity|]. cbn [firstn app nth]. f_equal. apply IH. cbn in L. lia. }
        rewrite F, Rsum_app. cbn. ring.
      - rewrite nth_overflow by exact L. rewrite !firstn_all2 by lia. ring. }
    replace (map pop_mean (repeat D n)) with (repeat (pop_mean D) n).
    + rewrite <- G. destruct n; [lia|reflexivity].
    + clear. induction n; cbn; congruence.
Qed.

(** @ex C105_fir_ex: the average of neighbours halves the variance. *)
Lemma c105_fir_ex :
  probability [(/ 2, 1); (/ 4, 3); (/ 4, 4)] /\ (0 < 5)%nat /\ [/ 2; / 2] <> [] /\
  Rsum (firstn 5 [/ 2; / 2]) = 1 /\ energy (firstn 5 [/ 2; / 2]) = / 2.
Proof.
  split; [apply c100_mean_ex|]. split; [lia|]. split; [discriminate|]. unfold energy. cbn. split; lra.
Qed.

Lemma dot_weights a b X : forall Y, length Y = length X ->
  dot (map (fun x => a + b * (x - mean X)) X) Y = a * Rsum Y + b * cosum (combine X Y).
Proof.
  intros Y HY. rewrite cosum_expand, xs_combine, ys_combine by (symmetry; exact HY).
  assert (E : Rsum (map (fun p => fst p * snd p) (combine X Y)) = dot X Y).
  { clear. revert Y. induction X as [|x X IH]; intros [|y Y]; cbn; try reflexivity. rewrite IH. reflexivity. }
  rewrite E. generalize (mean X) as m. intros m.
  assert (M : card (combine X Y) * m * mean Y = m * Rsum Y).
  { unfold mean, card. rewrite combine_length, HY, Nat.min_id. destruct Y as [|y Y].
    - cbn in HY. rewrite <- HY. cbn. ring.
    - rewrite <- HY. field. apply not_0_INR. discriminate. }
  rewrite M. clear E M. revert Y HY. induction X as [|x X IH]; intros [|y Y] HY; cbn in *; try discriminate; [ring|].
  rewrite IH by congruence. ring.
Qed.

Lemma energy_weights a b X : energy (map (fun x => a + b * (x - mean X)) X) = a * a * INR (length X) + b * b * csum 2 X.
Proof.
  destruct X as [|x0 X0]; [unfold energy, csum; cbn; ring|]. set (X := x0 :: X0).
  assert (Z : Rsum (map (fun x => x - mean X) X) = 0).
  { assert (G : forall m l, Rsum (map (fun x => x - m) l) = Rsum l - INR (length l) * m).
    { intros m l. induction l as [|x l IH]; [cbn; ring|]. cbn [map Rsum length]. rewrite IH, S_INR. ring. }
    rewrite G. unfold mean, card. field. apply not_0_INR. discriminate. }
  unfold energy, csum. generalize dependent (mean X). intros m Z.
  assert (G : forall l, Rsum (map (fun a0 => a0 * a0) (map (fun x => a + b * (x - m)) l)) =
     a * a * INR (length l) + b * b * Rsum (map (fun x => (x - m) ^ 2) l) + 2 * a * b * Rsum (map (fun x => x - m) l)).
  { clear Z. induction l as [|x l IH]; [cbn; ring|]. cbn [map Rsum length]. rewrite IH, S_INR. ring. }
  rewrite G, Z. ring.
Qed.

Lemma lin_slope X : csum 2 X <> 0 -> lin (length X) (fun Y => ls_slope (combine X Y)) (/ csum 2 X).
Proof.
  intros H. exists (map (fun x => 0 + / csum 2 X * (x - mean X)) X). split; [apply map_length|]. split.
  - rewrite energy_weights. field. exact H.
  - intros Y HY. rewrite dot_weights by exact HY. unfold ls_slope. rewrite xs_combine by (symmetry; exact HY).
    destruct (Req_EM_T (csum 2 X) 0); [contradiction|]. field. exact H.
Qed.

Lemma lin_line X p : csum 2 X <> 0 ->
  lin (length X) (fun Y => ls_intercept (combine X Y) + ls_slope (combine X Y) * p)
    (/ INR (length X) + (p - mean X) ^ 2 / csum 2 X).
Proof.
  intros H. assert (P : INR (length X) <> 0).
  { apply not_0_INR. intros E. destruct X; [|discriminate]. apply H. reflexivity. }
  exists (map (fun x => / INR (length X) + (p - mean X) / csum 2 X * (x - mean X)) X). split; [apply map_length|]. split.
  - rewrite energy_weights. field. split; assumption.
  - intros Y HY. rewrite dot_weights by exact HY. unfold ls_intercept, ls_slope. rewrite xs_combine, ys_combine by (symmetry; exact HY).
    destruct (Req_EM_T (csum 2 X) 0); [contradiction|]. 
    replace (mean Y) with (/ INR (length X) * Rsum Y) by (unfold mean, card; rewrite HY; unfold Rdiv; ring).
    field. split; assumption.
Qed.

(** @prop C105_regression: observations of y at given x, on a line a + b x up to
    independent errors of mean 0 and variance s2: the variance of slope() is
    s2 / sum (x - mean x)^2, that of at(p) is s2 (1/n + (p - mean x)^2 / sum
    (x - mean x)^2): cumulative regression. *)
Lemma c105_regression : forall (eps a b p s2 : R) (X : list R) (Ds : list (dist R)) (h : list (op (R * R))),
  Forall probability Ds -> Forall (fun D => pop_variance D = s2) Ds ->
  Forall2 (fun x D => pop_mean D = a + b * x) X Ds ->
  (N.of_nat (length X) < szmod)%N -> (forall c, ~ constant c X) ->
  let observe Y := h ++ Clear :: pushes (combine X Y) in
  let Sxx := Rsum (map (fun x => (x - mean X) ^ 2) X) in
  noise Ds (fun Y => creg_slope _ (run_creg eps (observe Y))) b (s2 / Sxx) /\
  noise Ds (fun Y => creg_at _ (run_creg eps (observe Y)) (Fin p)) (a + b * p)
    (s2 * (/ INR (length X) + (p - mean X) ^ 2 / Sxx)).
Proof.
  intros eps a b p s2 X Ds h HP HV HM Hf HC observe Sxx.
  assert (HL : length X = length Ds) by (clear - HM; induction HM; cbn; congruence).
  assert (SC : forall Y, since_clear (observe Y) = combine X Y) by (intros Y; apply since_cleared).
  assert (NE : forall Y : list R, length Y = length X -> combine X Y <> []).
  { intros Y HY E. apply (f_equal (@length (R * R))) in E. rewrite combine_length, HY, Nat.min_id in E.
    destruct X; [|discriminate]. apply (HC 0). constructor. }
  assert (HS : csum 2 X <> 0) by (apply spread_csum; exact HC). change Sxx with (csum 2 X).
  destruct (c100_regression eps a b p X Ds 1 h HP HM Hf ltac:(lia) ltac:(reflexivity)) as [M _].
  destruct (M HC) as [M1 M2]. fold observe in M1, M2.
  assert (Hc : forall Y, length Y = length Ds ->
      creg_slope _ (run_creg eps (observe Y)) = Fin (ls_slope (combine X Y)) /\
      creg_at _ (run_creg eps (observe Y)) (Fin p) = Fin (ls_intercept (combine X Y) + ls_slope (combine X Y) * p)).
  { intros Y HY. rewrite <- HL in HY. destruct (creg_obs eps (observe Y)) as (_ & H1 & H2).
    - unfold fits. rewrite SC, combine_length, HY, Nat.min_id. exact Hf.
    - rewrite SC. apply NE; assumption.
    - rewrite SC in *. split; [exact H1|apply H2]. }
  split.
  - eapply noise_eq; [apply (expected_noise Ds _ _ (/ csum 2 X) s2 _ HP HV M1 (fun Y HY => proj1 (Hc Y HY)))|unfold Rdiv; ring].
    rewrite <- HL. apply lin_slope. exact HS.
  - eapply noise_eq; [apply (expected_noise Ds _ _ (/ INR (length X) + (p - mean X) ^ 2 / csum 2 X) s2 _ HP HV M2 (fun Y HY => proj2 (Hc Y HY)))|ring].
    rewrite <- HL. apply lin_line. exact HS.
Qed.

(** @ex C105_regression_ex: three points on 1 + 2 x with errors of one up or
    down; the sum of squares of x is 2. *)
Lemma c105_regression_ex :
  let noisy y := [(/ 2, y - 1); (/ 2, y + 1)] in
  let X := [0; 1; 2] in
  let Ds := [noisy 1; noisy 3; noisy 5] in
  Forall probability Ds /\ Forall (fun D => pop_variance D = 1) Ds /\
  Forall2 (fun x D => pop_mean D = 1 + 2 * x) X Ds /\
  (N.of_nat (length X) < szmod)%N /\ (forall c, ~ constant c X) /\
  Rsum (map (fun x => (x - mean X) ^ 2) X) = 2.
Proof.
  cbn zeta. split.
  { repeat (apply Forall_cons; [split; [repeat (apply Forall_cons; [cbn; lra|]); apply Forall_nil|cbn; lra]|]). apply Forall_nil. }
  split; [repeat (constructor; [unfold pop_variance, pop_mean, expect; cbn; lra|]); constructor|].
  split; [repeat (constructor; [unfold pop_mean, expect; cbn; lra|]); constructor|].
  split; [reflexivity|].
  split; [|unfold mean, card; cbn; lra]. intros c H; unfold constant in H; cbn in H;
    inversion H as [|? ? H1 H2]; subst; inversion H2 as [|? ? H3 H4]; subst; lra.
Qed.

(** @prop C105_chance: the chance that a mean() is off by t or more is at most its
    variance over t^2; hence for every t and d, after s2/(d t^2) observations the
    cumulative mean() is off by t or more with a chance of at most d. *)
Lemma c105_chance : forall (eps : R) (D : dist R) (n W : nat) (t d : R) (h : list (op R)),
  probability D -> (0 < n)%nat -> (N.of_nat n < szmod)%N ->
  (0 < W)%nat -> (2 * N.of_nat W < szmod)%N -> 0 < t -> 0 < d ->
  let observe l := h ++ Clear :: pushes l in
  let same := repeat D n in
  (exists p, chance_off same (fun l => wmean_mean _ (run_wmean eps W (observe l))) (pop_mean D) t p /\
             0 <= p <= pop_variance D / INR (Nat.min n W) / (t * t)) /\
  (exists p, chance_off same (fun l => imean_mean _ (N.of_nat W) (run_imean eps W (observe l))) (pop_mean D) t p /\
             0 <= p <= pop_variance D / INR (Nat.min n W) / (t * t)) /\
  (exists p, chance_off same (fun l => cmean_mean _ (run_cmean eps (observe l))) (pop_mean D) t p /\
             0 <= p <= pop_variance D / INR n / (t * t) /\
             (pop_variance D / (d * (t * t)) <= INR n -> p <= d)).
Proof.
  intros eps D n W t d h HP Hn Hf HW HW2 Ht Hd observe same.
  assert (HPs : Forall probability same) by (apply each_prob; exact HP).
  destruct (c105_means eps D n W 1 h HP Hn Hf HW HW2 ltac:(lra)) as (N1 & N2 & N3 & _). fold observe same in N1, N2, N3.
  split; [exact (chebyshev same _ _ _ t HPs Ht N2)|]. split; [exact (chebyshev same _ _ _ t HPs Ht N3)|].
  destruct (chebyshev same _ _ _ t HPs Ht N1) as (p & Hp & Hb). exists p. split; [exact Hp|]. split; [exact Hb|].
  intros K. apply Rle_trans with (1 := proj2 Hb).
  assert (T : 0 < t * t) by (apply Rmult_lt_0_compat; exact Ht).
  assert (P : 0 < INR n) by (apply lt_0_INR; exact Hn).
  apply Rmult_le_reg_r with (INR n * (t * t)); [apply Rmult_lt_0_compat; assumption|].
  replace (pop_variance D / INR n / (t * t) * (INR n * (t * t))) with (pop_variance D) by (field; lra).
  apply Rmult_le_compat_r with (r := d * (t * t)) in K; [|apply Rlt_le, Rmult_lt_0_compat; assumption].
  replace (pop_variance D / (d * (t * t)) * (d * (t * t))) with (pop_variance D) in K by (field; lra). lra.
Qed.

(** @ex C105_chance_ex: three thousand observations of the die are enough for an
    error below 1/10 with probability 9/10. *)
Lemma c105_chance_ex :
  let D := [(/ 2, 1); (/ 4, 3); (/ 4, 4)] in
  probability D /\ (0 < 3000)%nat /\ (N.of_nat 3000 < szmod)%N /\ (0 < 4)%nat /\ (2 * N.of_nat 4 < szmod)%N /\
  0 < / 10 /\ pop_variance D / (/ 10 * (/ 10 * / 10)) <= INR 3000.
Proof.
  cbn zeta. split; [apply c100_mean_ex|]. split; [lia|]. split; [vm_compute; reflexivity|]. split; [lia|].
  split; [vm_compute; reflexivity|]. split; [lra|].
  replace (pop_variance _) with (27 / 16) by (unfold pop_variance, pop_mean, expect; cbn; lra).
  replace (INR 3000) with 3000 by (rewrite INR_IZR_INZ; reflexivity). lra.
Qed.
