(** * Claim C100: expected values of the reported statistics *)

From Coq Require Import Reals ZArith NArith List Bool.
From Verif Require Import Arith History SpecStats SpecExpectation Cumulative Window Interim Decay ExactRuns WindowRuns InterimRuns DecayRuns.
Import ListNotations.
Local Open Scope R_scope.
(* @end-header *)
From Coq Require Import Lia Lra.
From Verif Require Import SpecBlocks SpecDecay HistoryLemmas StatsLemmas BlockLemmas CumulativeProofs CumulativeStats WindowProofs WindowStats
  InterimStats DecayProofs ExpectationProofs ClaimsCumulative ClaimsWindow ClaimsInterim ClaimsDecay.

Lemma since_cleared {A} (h : list (op A)) l : since_clear (h ++ Clear :: pushes l) = l.
Proof. rewrite since_clear_app_clear. apply since_clear_pushes. Qed.

Lemma mean_repeat c n : (0 < n)%nat -> mean (repeat c n) = c.
Proof.
  intros H. apply mean_constant; [destruct n; [lia|discriminate]|].
  unfold constant. clear H. induction n; cbn; constructor; auto.
Qed.

Lemma lastn_repeat {A} k (c : A) n : lastn k (repeat c n) = repeat c (Nat.min k n).
Proof.
  rewrite lastn_skipn, repeat_length. revert k. induction n as [|n IH]; intros k; [rewrite Nat.min_0_r; reflexivity|].
  destruct (Nat.le_gt_cases (S n) k).
  - replace (S n - k)%nat with 0%nat by lia. rewrite Nat.min_r by lia. reflexivity.
  - replace (S n - k)%nat with (S (n - k)) by lia. cbn [repeat skipn]. rewrite IH. f_equal. lia.
Qed.

Lemma firstn_repeat {A} k (c : A) n : firstn k (repeat c n) = repeat c (Nat.min k n).
Proof. revert k. induction n as [|n IH]; intros [|k]; cbn; try reflexivity. rewrite IH. reflexivity. Qed.

(** Expected value of a linear statistic that leaves constants alone. *)
Lemma expected_linear D n out f : probability D -> (forall l, length l = n -> out l = Fin (f l)) ->
  linear n f -> f (repeat (pop_mean D) n) = pop_mean D -> expected (repeat D n) out (pop_mean D).
Proof.
  intros HP Ho HL Hc. exists f. rewrite repeat_length. split; [exact Ho|].
  etransitivity; [apply (sample_linear D n f HP HL)|exact Hc].
Qed.

Lemma cur_len W (l : list R) : length (cur_block W l) = Nat.min ((length l - 1) mod W + 1) (length l).
Proof. unfold cur_block. rewrite lastn_skipn, skipn_length. lia. Qed.

Lemma linear_cur W n : linear n (fun l => mean (cur_block W l)).
Proof.
  apply (linear_ext n _ (fun l => mean (lastn ((n - 1) mod W + 1) l))).
  - intros l Hl. unfold cur_block. rewrite Hl. reflexivity.
  - apply linear_lastn, linear_mean.
Qed.

Lemma linear_prev W n : linear n (fun l => mean (prev_block W l)).
Proof.
  set (k := Nat.min ((n - 1) mod W + 1) n).
  apply (linear_ext n _ (fun l => (fun l => mean (lastn W l)) (firstn (n - k) l))).
  - intros l Hl. unfold prev_block. rewrite cur_len, Hl. reflexivity.
  - apply (linear_firstn n (n - k) (fun l => mean (lastn W l))); [lia|]. apply linear_lastn, linear_mean.
Qed.

Lemma prev_len W (l : list R) : length (prev_block W l) = Nat.min W (length l - ((length l - 1) mod W + 1)).
Proof. unfold prev_block. rewrite cur_len, lastn_skipn, skipn_length, firstn_length. lia. Qed.

Lemma linear_imean W n : linear n (imean_value W).
Proof.
  destruct (Nat.min W (n - ((n - 1) mod W + 1))) as [|p] eqn:E.
  - apply (linear_ext n _ (fun l => mean (cur_block W l))); [|apply linear_cur].
    intros l Hl. unfold imean_value. pose proof (prev_len W l) as L. rewrite Hl, E in L.
    destruct (prev_block W l); [reflexivity|discriminate].
  - set (s := INR (Nat.min ((n - 1) mod W + 1) n)).
    apply (linear_ext n _ (fun l => ((INR W - s) / ((INR W - s) + 2 * s)) * mean (prev_block W l) +
                                    (2 * s / ((INR W - s) + 2 * s)) * mean (cur_block W l))).
    + intros l Hl. unfold imean_value. pose proof (prev_len W l) as L. rewrite Hl, E in L.
      destruct (prev_block W l) as [|y t] eqn:Ep; [discriminate|]. cbv zeta. unfold card. rewrite cur_len, Hl. fold s.
      unfold wavg, Rdiv. ring.
    + apply linear_plus; apply linear_scal; [apply linear_prev|apply linear_cur].
Qed.

(** @prop C100_mean: for every finite distribution and every number of
    independent observations pushed after a clear(): the expected value of mean()
    of the cumulative, window, interim and decay filters is the mean of the
    distribution. *)
Lemma c100_mean : forall (eps : R) (D : dist R) (n W : nat) (f : R) (h : list (op R)),
  probability D -> (0 < n)%nat -> (N.of_nat n < szmod)%N ->
  (0 < W)%nat -> (2 * N.of_nat W < szmod)%N -> 0 < f <= 1 ->
  let observe l := h ++ Clear :: pushes l in
  let same := repeat D n in
  expected same (fun l => cmean_mean _ (run_cmean eps (observe l))) (pop_mean D) /\
  expected same (fun l => wmean_mean _ (run_wmean eps W (observe l))) (pop_mean D) /\
  expected same (fun l => imean_mean _ (N.of_nat W) (run_imean eps W (observe l))) (pop_mean D) /\
  expected same (fun l => dmean_mean _ (run_dmean eps f (observe l))) (pop_mean D).
Proof.
  intros eps D n W f h HP Hn Hf HW HW2 Hff observe same.
  assert (NE : forall l : list R, length l = n -> l <> []) by (intros l Hl ->; cbn in Hl; lia).
  split; [|split; [|split]].
  - apply (expected_linear D n _ mean HP).
    + intros l Hl. destruct (c01 eps (observe l)) as (_ & _ & H & _).
      { unfold fits, observe. rewrite since_cleared, Hl. exact Hf. }
      unfold observe in *. rewrite since_cleared in H. destruct H as (H & _); [apply NE; exact Hl|exact H].
    + apply linear_mean.
    + apply mean_repeat; exact Hn.
  - apply (expected_linear D n _ (fun l => mean (lastn W l)) HP).
    + intros l Hl. destruct (c15 eps W (observe l) HW ltac:(lia)) as (_ & H & _).
      unfold observe in *. rewrite since_cleared in H. destruct H as (H & _); [|exact H].
      intros E. apply (f_equal (@length R)) in E. rewrite lastn_skipn, skipn_length in E. cbn in E. lia.
    + apply linear_lastn, linear_mean.
    + rewrite lastn_repeat. apply mean_repeat. lia.
  - apply (expected_linear D n _ (imean_value W) HP).
    + intros l Hl. destruct (imean_values eps W (observe l) HW HW2) as (H & _). unfold observe in *.
      rewrite since_cleared in H. exact H.
    + apply linear_imean.
    + destruct (c24 eps W (pushes (repeat (pop_mean D) n)) (Fin (imean_value W (repeat (pop_mean D) n))) HW HW2) as (_ & _ & _ & H & _).
      { left. destruct (imean_values eps W (pushes (repeat (pop_mean D) n)) HW HW2) as (H & _).
        rewrite since_clear_pushes in H. exact H. }
      rewrite since_clear_pushes in H. destruct H as (r & Er & Hr); [apply NE, repeat_length|].
      injection Er as <-. specialize (Hr (pop_mean D) (pop_mean D)).
      assert (Forall (fun x => pop_mean D <= x <= pop_mean D) (lastn (2 * W) (repeat (pop_mean D) n))).
      { rewrite lastn_repeat. apply Forall_forall. intros x Hx. apply repeat_spec in Hx. subst. lra. }
      specialize (Hr H). lra.
  - apply (expected_linear D n _ (ewma f) HP).
    + intros l Hl. destruct (c31 eps f f f f (observe l) Hff) as (m & H & _ & _ & _ & Em & _).
      unfold observe in *. rewrite since_cleared in Em. rewrite H, Em by (apply NE; exact Hl). reflexivity.
    + set (d := esum (1 - f) (repeat 1 n)).
      apply (linear_ext n _ (fun l => / d * esum (1 - f) l)).
      * intros l Hl. unfold ewma. replace (map (fun _ => 1) l) with (repeat 1 n).
        -- fold d. unfold Rdiv. ring.
        -- clear - Hl. revert n Hl. induction l as [|x l IH]; intros n Hl; cbn in *; subst; [reflexivity|].
           cbn. f_equal. apply IH. reflexivity.
      * apply linear_scal, linear_esum.
    + destruct (c31 eps f f f f (pushes (repeat (pop_mean D) n)) Hff) as (m & H & _ & _ & _ & Em & _ & Hr).
      rewrite since_clear_pushes in Em, Hr. specialize (Em (NE _ (repeat_length _ _))).
      assert (HB : pop_mean D <= m <= pop_mean D).
      { apply Hr; [apply NE, repeat_length|]. intros x Hx. apply repeat_spec in Hx. subst. lra. }
      rewrite <- Em. lra.
Qed.

(** @ex C100_mean_ex: a loaded die with three sides; its mean is 9/4. *)
Lemma c100_mean_ex :
  let D := [(/ 2, 1); (/ 4, 3); (/ 4, 4)] in
  probability D /\ pop_mean D = 9 / 4 /\ (0 < 10)%nat /\ (N.of_nat 10 < szmod)%N /\ (2 * N.of_nat 4 < szmod)%N /\ 0 < / 10 <= 1.
Proof.
  cbn zeta. split.
  { split; [repeat (apply Forall_cons; [cbn; lra|]); apply Forall_nil|cbn; lra]. }
  split; [unfold pop_mean, expect; cbn; lra|]. split; [lia|]. split; [vm_compute; reflexivity|]. split; [vm_compute; reflexivity|lra].
Qed.

(** ** Variance *)

Lemma sample_sq_error D n : probability D -> (0 < n)%nat ->
  expect_sample D n (fun l => (mean l - pop_mean D) ^ 2) = pop_variance D / INR n.
Proof.
  intros HP Hn. assert (P : INR n <> 0) by (apply not_0_INR; lia).
  set (g := fun x => x - pop_mean D).
  unfold expect_sample.
  rewrite (each_ext _ _ (fun l => / (INR n * INR n) * (Rsum (map g l) * Rsum (map g l)))).
  - rewrite each_scal. fold (expect_sample D n (fun l => Rsum (map g l) * Rsum (map g l))).
    rewrite sample_product by exact HP.
    assert (Z : expect D g = 0).
    { unfold g. rewrite (expect_ext D _ (fun x => x + - pop_mean D)) by (intros; ring).
      rewrite expect_plus, expect_const by exact HP. fold (pop_mean D). ring. }
    assert (E2 : expect D (fun x => g x * g x) = pop_variance D).
    { unfold pop_variance. apply expect_ext. intros x. unfold g. ring. }
    rewrite Z, E2. field. exact P.
  - intros l Hl. rewrite repeat_length in Hl.
    assert (G : Rsum (map g l) = Rsum l - INR n * pop_mean D).
    { rewrite <- Hl. clear. unfold g. induction l as [|x l IH]; [cbn; ring|].
      cbn [map Rsum length]. rewrite IH, S_INR. ring. }
    rewrite G. unfold mean, card. rewrite Hl. field. exact P.
Qed.

Lemma sample_csum D n : probability D -> (0 < n)%nat ->
  expect_sample D n (csum 2) = (INR n - 1) * pop_variance D.
Proof.
  intros HP Hn. assert (P : INR n <> 0) by (apply not_0_INR; lia).
  pose proof (sample_cosum D n (fun x => x) (fun x => x) HP Hn) as H.
  etransitivity; [|etransitivity; [exact H|]].
  - unfold expect_sample. apply each_ext. intros l Hl. rewrite repeat_length in Hl.
    rewrite csum_2_expand. unfold psum, mean, card. rewrite Hl.
    rewrite (Rsum_map_ext _ (fun x => x * x)) by (intros; ring). rewrite map_id. field. exact P.
  - unfold pop_variance. f_equal. apply expect_ext. intros x. unfold pop_mean. ring.
Qed.

(** Only the last [W] observations count. *)
Lemma sample_lastn {A} (D : dist A) n W f : probability D ->
  expect_sample D n (fun l => f (lastn W l)) = expect_sample D (Nat.min W n) f.
Proof.
  intros HP. unfold expect_sample.
  rewrite (each_ext _ _ (fun l => f (skipn (n - W) l))).
  - rewrite each_skipn by (apply each_prob; exact HP).
    f_equal. rewrite <- (repeat_length D n) at 1. fold (lastn W (repeat D n)). apply lastn_repeat.
  - intros l Hl. rewrite lastn_skipn, Hl, repeat_length. reflexivity.
Qed.

Lemma expected_scaled {A} (D : dist A) n out f g c v : probability D ->
  (forall l, length l = n -> out l = Fin (f l)) -> (forall l, length l = n -> f l = c * g l) ->
  expect_sample D n g = v -> expected (repeat D n) out (c * v).
Proof.
  intros HP Ho Hf Hg. exists f. rewrite repeat_length. split; [exact Ho|].
  rewrite (each_ext _ f (fun l => c * g l)) by (rewrite repeat_length; exact Hf).
  rewrite each_scal. unfold expect_sample in Hg. rewrite Hg. reflexivity.
Qed.

Lemma expected_eq {A} (Ds : list (dist A)) out v w : expected Ds out v -> v = w -> expected Ds out w.
Proof. intros H <-. exact H. Qed.

(** @prop C100_variance: the expected value of unbiased_variance() is the
    variance of the distribution, that of variance() is (n-1)/n times it, for the
    cumulative filter and, with the smaller of window length and number of
    observations instead of n, for the window filter. *)
Lemma c100_variance : forall (eps : R) (D : dist R) (n W : nat) (h : list (op R)),
  probability D -> (2 <= n)%nat -> (N.of_nat n < szmod)%N ->
  (2 <= W)%nat -> (N.of_nat W < szmod)%N ->
  let observe l := h ++ Clear :: pushes l in
  let same := repeat D n in
  let m := INR (Nat.min W n) in
  expected same (fun l => cvar_unbiased_variance _ (run_cvar eps (observe l))) (pop_variance D) /\
  expected same (fun l => cvar_variance _ (run_cvar eps (observe l))) ((INR n - 1) / INR n * pop_variance D) /\
  expected same (fun l => wvar_unbiased_variance _ (run_wvar eps W (observe l))) (pop_variance D) /\
  expected same (fun l => wvar_variance _ (run_wvar eps W (observe l))) ((m - 1) / m * pop_variance D).
Proof.
  intros eps D n W h HP Hn Hf HW HW2 observe same m.
  assert (Pn : 2 <= INR n) by (apply (le_INR 2); exact Hn).
  assert (Pm : 2 <= m) by (apply (le_INR 2); lia).
  assert (C : forall l, length l = n -> fits (since_clear (observe l))).
  { intros l Hl. unfold fits, observe. rewrite since_cleared, Hl. exact Hf. }
  assert (NE : forall l : list R, length l = n -> l <> []) by (intros l Hl ->; cbn in Hl; lia).
  assert (LL : forall l : list R, length l = n -> length (lastn W l) = Nat.min W n).
  { intros l Hl. rewrite lastn_skipn, skipn_length. lia. }
  split; [|split; [|split]].
  - apply (expected_eq _ _ (/ (INR n - 1) * ((INR n - 1) * pop_variance D))); [|field; lra].
    apply (expected_scaled D n _ sample_variance (csum 2)); [exact HP| | |apply sample_csum; [exact HP|lia]].
    + intros l Hl. destruct (c02 eps (observe l) (C l Hl)) as (_ & H). unfold observe in *. rewrite since_cleared in H.
      destruct H as (H & _); [lia|exact H].
    + intros l Hl. unfold sample_variance, card. rewrite Hl. unfold Rdiv. ring.
  - apply (expected_eq _ _ (/ INR n * ((INR n - 1) * pop_variance D))); [|field; lra].
    apply (expected_scaled D n _ variance (csum 2)); [exact HP| | |apply sample_csum; [exact HP|lia]].
    + intros l Hl. destruct (c02 eps (observe l) (C l Hl)) as (H & _). unfold observe in *. rewrite since_cleared in H.
      destruct H as (H & _); [apply NE; exact Hl|exact H].
    + intros l Hl. unfold variance, card. rewrite Hl. unfold Rdiv. ring.
  - apply (expected_eq _ _ (/ (m - 1) * ((m - 1) * pop_variance D))); [|field; lra].
    apply (expected_scaled D n _ (fun l => sample_variance (lastn W l)) (fun l => csum 2 (lastn W l))); [exact HP| | |].
    + intros l Hl. destruct (c16 eps W (observe l) ltac:(lia) HW2) as (_ & _ & H & _). unfold observe in *. rewrite since_cleared in H.
      apply H. rewrite LL by exact Hl. lia.
    + intros l Hl. unfold sample_variance, card. rewrite LL by exact Hl. fold m. unfold Rdiv. ring.
    + rewrite sample_lastn by exact HP. apply sample_csum; [exact HP|lia].
  - apply (expected_eq _ _ (/ m * ((m - 1) * pop_variance D))); [|field; lra].
    apply (expected_scaled D n _ (fun l => variance (lastn W l)) (fun l => csum 2 (lastn W l))); [exact HP| | |].
    + intros l Hl. destruct (c16 eps W (observe l) ltac:(lia) HW2) as (H & _). unfold observe in *. rewrite since_cleared in H.
      apply H. intros E. pose proof (LL l Hl) as L. rewrite E in L. cbn in L. lia.
    + intros l Hl. unfold variance, card. rewrite LL by exact Hl. fold m. unfold Rdiv. ring.
    + rewrite sample_lastn by exact HP. apply sample_csum; [exact HP|lia].
Qed.

(** @ex C100_variance_ex: the loaded die; its variance is 27/16. *)
Lemma c100_variance_ex :
  let D := [(/ 2, 1); (/ 4, 3); (/ 4, 4)] in
  probability D /\ pop_variance D = 27 / 16 /\ (2 <= 10)%nat /\ (N.of_nat 10 < szmod)%N /\ (2 <= 4)%nat /\ (N.of_nat 4 < szmod)%N.
Proof.
  cbn zeta. split; [apply c100_mean_ex|]. split; [unfold pop_variance, pop_mean, expect; cbn; lra|].
  split; [lia|]. split; [vm_compute; reflexivity|]. split; [lia|vm_compute; reflexivity].
Qed.

(** @prop C100_mean_error: the expected squared distance of the cumulative mean()
    from the mean of the distribution is the variance of the distribution over
    the number of observations. *)
Lemma c100_mean_error : forall (eps : R) (D : dist R) (n : nat) (h : list (op R)),
  probability D -> (0 < n)%nat -> (N.of_nat n < szmod)%N ->
  expected (repeat D n)
    (fun l => let d := nsub (cmean_mean _ (run_cmean eps (h ++ Clear :: pushes l))) (Fin (pop_mean D) : exact eps) in nmul d d)
    (pop_variance D / INR n).
Proof.
  intros eps D n h HP Hn Hf.
  exists (fun l => (mean l - pop_mean D) ^ 2). rewrite repeat_length. split; [|apply sample_sq_error; assumption].
  intros l Hl. destruct (c01 eps (h ++ Clear :: pushes l)) as (_ & _ & H & _).
  { unfold fits. rewrite since_cleared, Hl. exact Hf. }
  rewrite since_cleared in H. destruct H as (H & _); [intros ->; cbn in Hl; lia|].
  cbv zeta. rewrite H. cbn. f_equal. ring.
Qed.

(** @ex C100_mean_error_ex: a hundred observations of the loaded die. *)
Lemma c100_mean_error_ex :
  let D := [(/ 2, 1); (/ 4, 3); (/ 4, 4)] in
  probability D /\ (0 < 100)%nat /\ (N.of_nat 100 < szmod)%N /\ pop_variance D / INR 100 = 27 / 1600.
Proof.
  cbn zeta. split; [apply c100_mean_ex|]. split; [lia|]. split; [vm_compute; reflexivity|].
  rewrite (proj1 (proj2 c100_variance_ex)). cbn. lra.
Qed.

(** ** Covariance *)

Lemma sample_cosum_pairs (D : dist (R * R)) n : probability D -> (0 < n)%nat ->
  expect_sample D n cosum = (INR n - 1) * pop_covariance D.
Proof.
  intros HP Hn. assert (P : INR n <> 0) by (apply not_0_INR; lia).
  pose proof (sample_cosum D n (@fst R R) (@snd R R) HP Hn) as H.
  etransitivity; [|exact H].
  unfold expect_sample. apply each_ext. intros l Hl. rewrite repeat_length in Hl.
  rewrite cosum_expand. unfold mean. rewrite card_xs, card_ys. unfold card. rewrite Hl. unfold xs, ys. field. exact P.
Qed.

(** @prop C100_covariance: the same for pairs: the expected value of
    unbiased_variance() of the covariance filters is the covariance of the
    distribution, that of variance() is (n-1)/n times it. *)
Lemma c100_covariance : forall (eps : R) (D : dist (R * R)) (n W : nat) (h : list (op (R * R))),
  probability D -> (2 <= n)%nat -> (N.of_nat n < szmod)%N ->
  (2 <= W)%nat -> (N.of_nat W < szmod)%N ->
  let observe l := h ++ Clear :: pushes l in
  let same := repeat D n in
  let m := INR (Nat.min W n) in
  expected same (fun l => ccov_unbiased_variance _ (run_ccov eps (observe l))) (pop_covariance D) /\
  expected same (fun l => ccov_variance _ (run_ccov eps (observe l))) ((INR n - 1) / INR n * pop_covariance D) /\
  expected same (fun l => wcov_unbiased_variance _ (run_wcov eps W (observe l))) (pop_covariance D) /\
  expected same (fun l => wcov_variance _ (run_wcov eps W (observe l))) ((m - 1) / m * pop_covariance D).
Proof.
  intros eps D n W h HP Hn Hf HW HW2 observe same m.
  assert (Pn : 2 <= INR n) by (apply (le_INR 2); exact Hn).
  assert (Pm : 2 <= m) by (apply (le_INR 2); lia).
  assert (C : forall l, length l = n -> fits (since_clear (observe l))).
  { intros l Hl. unfold fits, observe. rewrite since_cleared, Hl. exact Hf. }
  assert (LL : forall l : list (R * R), length l = n -> length (lastn W l) = Nat.min W n).
  { intros l Hl. rewrite lastn_skipn, skipn_length. lia. }
  split; [|split; [|split]].
  - apply (expected_eq _ _ (/ (INR n - 1) * ((INR n - 1) * pop_covariance D))); [|field; lra].
    apply (expected_scaled D n _ sample_covariance cosum); [exact HP| | |apply sample_cosum_pairs; [exact HP|lia]].
    + intros l Hl. destruct (c06 eps (observe l) (C l Hl)) as (_ & _ & _ & H). unfold observe in *. rewrite since_cleared in H.
      destruct l as [|p [|q l]]; cbn in Hl; try lia. exact H.
    + intros l Hl. unfold sample_covariance, card. rewrite Hl. unfold Rdiv. ring.
  - apply (expected_eq _ _ (/ INR n * ((INR n - 1) * pop_covariance D))); [|field; lra].
    apply (expected_scaled D n _ covariance cosum); [exact HP| | |apply sample_cosum_pairs; [exact HP|lia]].
    + intros l Hl. destruct (c06 eps (observe l) (C l Hl)) as (_ & _ & H & _). unfold observe in *. rewrite since_cleared in H.
      destruct l as [|p l]; cbn in Hl; try lia. exact H.
    + intros l Hl. unfold covariance, card. rewrite Hl. unfold Rdiv. ring.
  - apply (expected_eq _ _ (/ (m - 1) * ((m - 1) * pop_covariance D))); [|field; lra].
    apply (expected_scaled D n _ (fun l => sample_covariance (lastn W l)) (fun l => cosum (lastn W l))); [exact HP| | |].
    + intros l Hl. destruct (c18 eps W (observe l) ltac:(lia) HW2) as (_ & _ & _ & H & _). unfold observe in *. rewrite since_cleared in H.
      apply H. rewrite LL by exact Hl. lia.
    + intros l Hl. unfold sample_covariance, card. rewrite LL by exact Hl. fold m. unfold Rdiv. ring.
    + rewrite sample_lastn by exact HP. apply sample_cosum_pairs; [exact HP|lia].
  - apply (expected_eq _ _ (/ m * ((m - 1) * pop_covariance D))); [|field; lra].
    apply (expected_scaled D n _ (fun l => covariance (lastn W l)) (fun l => cosum (lastn W l))); [exact HP| | |].
    + intros l Hl. destruct (c18 eps W (observe l) ltac:(lia) HW2) as (_ & H & _). unfold observe in *. rewrite since_cleared in H.
      apply H. intros E. pose proof (LL l Hl) as L. rewrite E in L. cbn in L. lia.
    + intros l Hl. unfold covariance, card. rewrite LL by exact Hl. fold m. unfold Rdiv. ring.
    + rewrite sample_lastn by exact HP. apply sample_cosum_pairs; [exact HP|lia].
Qed.

(** @ex C100_covariance_ex: a distribution on three points with covariance 11/4. *)
Lemma c100_covariance_ex :
  let D := [(/ 2, (0, 1)); (/ 4, (2, 3)); (/ 4, (4, 5))] in
  probability D /\ pop_covariance D = 11 / 4 /\ (2 <= 10)%nat /\ (N.of_nat 10 < szmod)%N /\ (2 <= 4)%nat /\ (N.of_nat 4 < szmod)%N.
Proof.
  cbn zeta. split.
  { split; [repeat (apply Forall_cons; [cbn; lra|]); apply Forall_nil|cbn; lra]. }
  split; [unfold pop_covariance, expect; cbn; lra|].
  split; [lia|]. split; [vm_compute; reflexivity|]. split; [lia|vm_compute; reflexivity].
Qed.

(** ** Regression *)

Lemma xs_combine X Y : length X = length Y -> xs (combine X Y) = X.
Proof. unfold xs. revert Y. induction X as [|x X IH]; intros [|y Y] H; cbn in *; try discriminate; [reflexivity|]. f_equal. apply IH. lia. Qed.
Lemma ys_combine X Y : length X = length Y -> ys (combine X Y) = Y.
Proof. unfold ys. revert Y. induction X as [|x X IH]; intros [|y Y] H; cbn in *; try discriminate; [reflexivity|]. f_equal. apply IH. lia. Qed.

Lemma linear_cosum X : linear (length X) (fun Y => cosum (combine X Y)).
Proof.
  apply (linear_ext _ _ (fun Y => dot X Y + (- (INR (length X) * mean X)) * mean Y)).
  - intros Y HY. rewrite cosum_expand, xs_combine, ys_combine by (symmetry; exact HY).
    assert (E : Rsum (map (fun p => fst p * snd p) (combine X Y)) = dot X Y).
    { clear. revert Y. induction X as [|x X IH]; intros [|y Y]; cbn; try reflexivity. rewrite IH. reflexivity. }
    rewrite E. unfold card. rewrite combine_length, HY, Nat.min_id. ring.
  - apply linear_plus; [exists X; split; [reflexivity|reflexivity]|]. apply linear_scal, linear_mean.
Qed.

Lemma linear_slope X : linear (length X) (fun Y => ls_slope (combine X Y)).
Proof.
  destruct (Req_EM_T (csum 2 X) 0) as [E|E].
  - apply (linear_ext _ _ (fun Y => 0 * mean Y)).
    + intros Y HY. unfold ls_slope. rewrite xs_combine by (symmetry; exact HY).
      destruct (Req_EM_T (csum 2 X) 0); [ring|contradiction].
    + apply linear_scal, linear_mean.
  - apply (linear_ext _ _ (fun Y => / csum 2 X * cosum (combine X Y))).
    + intros Y HY. unfold ls_slope. rewrite xs_combine by (symmetry; exact HY).
      destruct (Req_EM_T (csum 2 X) 0); [contradiction|unfold Rdiv; ring].
    + apply linear_scal, linear_cosum.
Qed.

Lemma linear_line X p : linear (length X) (fun Y => ls_intercept (combine X Y) + ls_slope (combine X Y) * p).
Proof.
  apply (linear_ext _ _ (fun Y => mean Y + (p - mean X) * ls_slope (combine X Y))).
  - intros Y HY. unfold ls_intercept. rewrite xs_combine, ys_combine by (symmetry; exact HY). ring.
  - apply linear_plus; [apply linear_mean|]. apply linear_scal, linear_slope.
Qed.

Lemma collinear_means a b X (Ds : list (dist R)) :
  Forall2 (fun x D => pop_mean D = a + b * x) X Ds -> collinear a b (combine X (map pop_mean Ds)).
Proof. intros H. unfold collinear. induction H; cbn; constructor; [cbn; assumption|assumption]. Qed.

Lemma lastn_combine W X Y : length X = length Y ->
  lastn W (combine X Y) = combine (lastn W X) (lastn W Y) :> list (R * R).
Proof.
  intros H. rewrite !lastn_skipn, combine_length, <- H, Nat.min_id. generalize (length X - W)%nat as k.
  revert Y H. induction X as [|x X IH]; intros [|y Y] H k; cbn in *; try discriminate.
  - rewrite !skipn_nil. reflexivity.
  - destruct k as [|k]; [reflexivity|]. cbn. apply IH. lia.
Qed.

Lemma spread_csum X : (forall c, ~ constant c X) -> csum 2 X <> 0.
Proof. intros H E. exact (H _ (csum_2_zero X E)). Qed.

(** @prop C100_regression: for given x, not all equal, and independent
    observations of y, each from its own distribution, whose means lie on a line
    a + b x: the expected value of slope() is b and that of at(p) is a + b p, for
    the cumulative regression and, if the last W values of x are not all equal,
    for the window regression. *)
Lemma c100_regression : forall (eps a b p : R) (X : list R) (Ds : list (dist R)) (W : nat) (h : list (op (R * R))),
  Forall probability Ds -> Forall2 (fun x D => pop_mean D = a + b * x) X Ds ->
  (N.of_nat (length X) < szmod)%N -> (0 < W)%nat -> (N.of_nat W < szmod)%N ->
  let observe Y := h ++ Clear :: pushes (combine X Y) in
  ((forall c, ~ constant c X) ->
   expected Ds (fun Y => creg_slope _ (run_creg eps (observe Y))) b /\
   expected Ds (fun Y => creg_at _ (run_creg eps (observe Y)) (Fin p)) (a + b * p)) /\
  ((forall c, ~ constant c (lastn W X)) ->
   expected Ds (fun Y => wreg_slope _ (run_wreg eps W (observe Y))) b /\
   expected Ds (fun Y => wreg_at _ (run_wreg eps W (observe Y)) (Fin p)) (a + b * p)).
Proof.
  intros eps a b p X Ds W h HP HM Hf HW HW2 observe.
  assert (HL : length X = length Ds) by (clear - HM; induction HM; cbn; congruence).
  assert (SC : forall Y, since_clear (observe Y) = combine X Y) by (intros Y; apply since_cleared).
  assert (NE : (forall c, ~ constant c X) -> forall Y : list R, length Y = length X -> combine X Y <> []).
  { intros HC Y HY E. apply (f_equal (@length (R * R))) in E. rewrite combine_length, HY, Nat.min_id in E.
    destruct X; [|discriminate]. apply (HC 0). constructor. }
  split; intros HC.
  - assert (Hc : forall Y, length Y = length X ->
      creg_slope _ (run_creg eps (observe Y)) = Fin (ls_slope (combine X Y)) /\
      creg_at _ (run_creg eps (observe Y)) (Fin p) = Fin (ls_intercept (combine X Y) + ls_slope (combine X Y) * p)).
    { intros Y HY. destruct (creg_obs eps (observe Y)) as (_ & H1 & H2).
      - unfold fits. rewrite SC, combine_length, HY, Nat.min_id. exact Hf.
      - rewrite SC. apply NE; assumption.
      - rewrite SC in *. split; [exact H1|apply H2]. }
    destruct (ls_collinear a b (combine X (map pop_mean Ds))) as [Eb Ea].
    { rewrite xs_combine by (rewrite map_length; exact HL). apply spread_csum; exact HC. }
    { apply collinear_means; exact HM. }
    split.
    + exists (fun Y => ls_slope (combine X Y)). split; [intros Y HY; apply Hc; congruence|].
      rewrite each_linear; [exact Eb|exact HP|]. rewrite <- HL. apply linear_slope.
    + exists (fun Y => ls_intercept (combine X Y) + ls_slope (combine X Y) * p). split; [intros Y HY; apply Hc; congruence|].
      rewrite each_linear; [rewrite Ea, Eb; reflexivity|exact HP|]. rewrite <- HL. apply linear_line.
  - assert (NX : X <> []) by (intros ->; apply (HC 0); constructor).
    assert (HC' : forall c, ~ constant c X).
    { intros c H. apply (HC c). unfold constant in *. rewrite Forall_forall in *. intros x Hx. apply H.
      rewrite lastn_skipn in Hx. rewrite <- (firstn_skipn (length X - W) X). apply in_or_app. right. exact Hx. }
    assert (LX : length (lastn W X) = Nat.min W (length X)) by (rewrite lastn_skipn, skipn_length; lia).
    assert (Hc : forall Y, length Y = length X ->
      wreg_slope _ (run_wreg eps W (observe Y)) = Fin (ls_slope (combine (lastn W X) (lastn W Y))) /\
      wreg_at _ (run_wreg eps W (observe Y)) (Fin p) =
        Fin (ls_intercept (combine (lastn W X) (lastn W Y)) + ls_slope (combine (lastn W X) (lastn W Y)) * p)).
    { intros Y HY. destruct (wreg_obs eps W HW HW2 (observe Y)) as (_ & H1 & H2).
      - rewrite SC. intros E. apply (f_equal (@length (R * R))) in E.
        rewrite lastn_skipn, skipn_length, combine_length, HY, Nat.min_id in E.
        destruct X; [contradiction|]. cbn [length] in E. lia.
      - rewrite SC, lastn_combine in * by (symmetry; exact HY). split; [exact H1|apply H2]. }
    assert (HM' : Forall2 (fun x D => pop_mean D = a + b * x) (lastn W X) (lastn W Ds)).
    { rewrite !lastn_skipn, <- HL. generalize (length X - W)%nat as k. clear - HM.
      induction HM as [|x D X Ds H HM IH]; intros k; [rewrite !skipn_nil; constructor|].
      destruct k as [|k]; cbn; [constructor; assumption|apply IH]. }
    assert (Em : lastn W (map pop_mean Ds) = map pop_mean (lastn W Ds)).
    { rewrite !lastn_skipn, map_length. generalize (length Ds - W)%nat as k. clear.
      induction Ds as [|D Ds IH]; intros [|k]; cbn; try reflexivity. apply IH. }
    destruct (ls_collinear a b (combine (lastn W X) (map pop_mean (lastn W Ds)))) as [Eb Ea].
    { rewrite xs_combine by (rewrite map_length, !lastn_skipn, !skipn_length; lia). apply spread_csum; exact HC. }
    { apply collinear_means; exact HM'. }
    split.
    + exists (fun Y => ls_slope (combine (lastn W X) (lastn W Y))). split; [intros Y HY; apply Hc; congruence|].
      rewrite each_linear; [rewrite Em; exact Eb|exact HP|].
      apply (linear_lastn (length Ds) W (fun Y => ls_slope (combine (lastn W X) Y))).
      rewrite <- HL, <- LX. apply linear_slope.
    + exists (fun Y => ls_intercept (combine (lastn W X) (lastn W Y)) + ls_slope (combine (lastn W X) (lastn W Y)) * p).
      split; [intros Y HY; apply Hc; congruence|].
      rewrite each_linear; [rewrite Em, Ea, Eb; reflexivity|exact HP|].
      apply (linear_lastn (length Ds) W (fun Y => ls_intercept (combine (lastn W X) Y) + ls_slope (combine (lastn W X) Y) * p)).
      rewrite <- HL, <- LX. apply linear_line.
Qed.

(** @ex C100_regression_ex: four points on 1 + 2 x, each with an error of one
    up or down, the last with an error of its own kind. *)
Lemma c100_regression_ex :
  let noisy y := [(/ 2, y - 1); (/ 2, y + 1)] in
  let X := [0; 1; 2; 3] in
  let Ds := [noisy 1; noisy 3; noisy 5; [(/ 4, 4); (3 / 4, 8)]] in
  Forall probability Ds /\ Forall2 (fun x D => pop_mean D = 1 + 2 * x) X Ds /\
  (N.of_nat (length X) < szmod)%N /\ (N.of_nat 2 < szmod)%N /\
  (forall c, ~ constant c X) /\ (forall c, ~ constant c (lastn 2 X)).
Proof.
  cbn zeta. split.
  { repeat (apply Forall_cons; [split; [repeat (apply Forall_cons; [cbn; lra|]); apply Forall_nil|cbn; lra]|]). apply Forall_nil. }
  split; [repeat (constructor; [unfold pop_mean, expect; cbn; lra|]); constructor|].
  split; [vm_compute; reflexivity|]. split; [vm_compute; reflexivity|].
  split; intros c H; unfold constant, lastn in H; cbn in H;
    inversion H as [|? ? H1 H2]; subst; inversion H2 as [|? ? H3 H4]; subst; lra.
Qed.

(** ** What is not unbiased *)

(** @prop C100_unbiased_mean_refuted: unbiased_mean() is not an unbiased
    estimator of the mean: two observations of a constant 1 give 2. *)
Lemma c100_unbiased_mean_refuted : exists (D : dist R) (n : nat) (v : R),
  probability D /\ (2 <= n)%nat /\
  expected (repeat D n) (fun l => cmean_unbiased_mean _ (run_cmean eps64 (pushes l))) v /\
  v <> pop_mean D.
Proof.
  exists [(1, 1)], 2%nat, 2. split; [split; [constructor; [cbn; lra|constructor]|cbn; lra]|]. split; [lia|]. split.
  - exists (fun l => card l * mean l / (card l - 1)). rewrite repeat_length. split.
    + intros l Hl. destruct (c01 eps64 (pushes l)) as (_ & _ & _ & H).
      { unfold fits. rewrite since_clear_pushes, Hl. reflexivity. }
      rewrite since_clear_pushes in H. destruct H as (H & _); [lia|exact H].
    + cbn. unfold expect, mean, card. cbn. lra.
  - unfold pop_mean, expect. cbn. lra.
Qed.

(** @prop C100_unbiased_skewness_refuted: nor is unbiased_skewness() of the
    skewness: three tosses of a fair coin, which is symmetric, have a positive
    expected unbiased_skewness(), because left-skewed samples are reported as
    0. *)
Lemma c100_unbiased_skewness_refuted : exists (D : dist R) (n : nat) (v : R),
  probability D /\ pop_skewness D = 0 /\
  expected (repeat D n) (fun l => cskew_unbiased_skewness _ (run_cskew eps64 (pushes l))) v /\
  0 < v.
Proof.
  set (f := fun l => if Rlt_dec (csum 3 l) eps64 then 0 else sample_skewness l).
  set (D := [(/ 2, 0); (/ 2, 1)]).
  exists D, 3%nat, (expect_each (repeat D 3) f).
  split; [split; [repeat (apply Forall_cons; [cbn; lra|]); apply Forall_nil|cbn; lra]|].
  split.
  { unfold pop_skewness. replace (expect D (fun x => (x - pop_mean D) ^ 3)) with 0; [unfold Rdiv; ring|].
    unfold pop_mean, expect, D. cbn. field. }
  assert (E0 : 0 < eps64) by (unfold eps64; lra).
  assert (Ho : forall l, length l = 3%nat -> cskew_unbiased_skewness _ (run_cskew eps64 (pushes l)) = Fin (f l)).
  { intros l Hl. pose proof (c05_partial eps64 (pushes l) E0) as H. cbv zeta in H. rewrite since_clear_pushes in H.
    destruct H as (H1 & H2 & _); [rewrite Hl; vm_compute; discriminate|].
    unfold f. destruct (Rlt_dec (csum 3 l) eps64) as [L|L]; [apply H1; exact L|apply H2; lra]. }
  split.
  { exists f. rewrite repeat_length. split; [exact Ho|reflexivity]. }
  assert (Z : forall l, csum 3 l < eps64 -> f l = 0).
  { intros l H. unfold f. destruct (Rlt_dec _ _); [reflexivity|contradiction]. }
  assert (P : forall l, csum 3 l = 2 / 9 -> csum 2 l = 2 / 3 -> length l = 3%nat -> 0 < f l).
  { intros l H H2 Hl. unfold f. destruct (Rlt_dec _ _) as [L|L]; [rewrite H in L; unfold eps64 in L; lra|].
    unfold sample_skewness, skewness, cmoment, card. rewrite H, H2, Hl.
    replace (INR 3) with 3 by (cbn; lra).
    assert (0 < sqrt (3 * (3 - 1))) by (apply sqrt_lt_R0; lra).
    assert (0 < sqrt (2 / 3 / 3)) by (apply sqrt_lt_R0; lra).
    repeat apply Rmult_lt_0_compat; try apply Rinv_0_lt_compat; try lra. }
  cbn [repeat expect_each]. unfold expect, D. cbn [map Rsum fst snd].
  assert (E : forall x y z, csum 3 [x; y; z] = (x - (x + y + z) / 3) ^ 3 + (y - (x + y + z) / 3) ^ 3 + (z - (x + y + z) / 3) ^ 3).
  { intros. unfold csum, mean, card. cbn. field. }
  assert (E2 : forall x y z, csum 2 [x; y; z] = (x - (x + y + z) / 3) ^ 2 + (y - (x + y + z) / 3) ^ 2 + (z - (x + y + z) / 3) ^ 2).
  { intros. unfold csum, mean, card. cbn. field. }
  rewrite (Z [0; 0; 0]), (Z [0; 1; 1]), (Z [1; 0; 1]), (Z [1; 1; 0]), (Z [1; 1; 1]) by (rewrite E; unfold eps64; lra).
  pose proof (P [0; 0; 1] ltac:(rewrite E; lra) ltac:(rewrite E2; lra) eq_refl).
  pose proof (P [0; 1; 0] ltac:(rewrite E; lra) ltac:(rewrite E2; lra) eq_refl).
  pose proof (P [1; 0; 0] ltac:(rewrite E; lra) ltac:(rewrite E2; lra) eq_refl). lra.
Qed.
