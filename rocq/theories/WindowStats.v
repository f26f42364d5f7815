(** * Observers of window filters in exact arithmetic *)

From Coq Require Import Reals ZArith NArith Bool List Lia Lra Psatz.
From Flocq Require Import Core.Raux.
From Verif Require Import Arith History HistoryLemmas SpecStats StatsLemmas
  Buffer Window ExactRuns WindowRuns CumulativeProofs CumulativeStats WindowProofs.
Import ListNotations.
Local Open Scope R_scope.

(** The least-squares facts shared by the regression filters. *)
Lemma ls_facts (l : list (R * R)) : l <> [] ->
  let a := ls_intercept l in
  let b := ls_slope l in
  (forall a' b', sse a b l <= sse a' b' l) /\
  (forall c, constant c (xs l) -> b = 0 /\ a = mean (ys l)) /\
  ((forall c, ~ constant c (xs l)) ->
   (forall a' b', sse a' b' l = sse a b l -> a' = a /\ b' = b) /\
   (forall a' b', collinear a' b' l -> a' = a /\ b' = b)).
Proof.
  intros Hl a b; subst a b.
  split; [intros; apply ls_optimal; exact Hl|]; split.
  - intros c Hc; assert (H0 : csum 2 (xs l) = 0) by (apply (csum_constant 1 c), Hc).
    unfold ls_intercept, ls_slope; destruct (Req_EM_T _ _); [|contradiction].
    split; [reflexivity|ring].
  - intros Hnc; assert (H0 : csum 2 (xs l) <> 0)
      by (intros H; apply (Hnc (mean (xs l))), csum_2_zero, H).
    split.
    + intros a' b' H; apply ls_unique; auto.
    + intros a' b' H; destruct (ls_collinear a' b' l H0 H); auto.
Qed.

Section Obs.
Variable eps : R.
Variable W : nat.
Hypothesis HW : (0 < W)%nat.
Hypothesis HW64 : (N.of_nat W < szmod)%N.
Notation F := (exact eps).

Lemma run_wmean_state ops : let l := lastn W (since_clear ops) in
  run_wmean eps W ops = WMean F (fins eps l) (Fin (mean l)).
Proof.
  intros l; unfold run_wmean; rewrite run_rops by reflexivity.
  apply wmean_exact; auto.
Qed.

Lemma run_wvar_state ops : let l := lastn W (since_clear ops) in
  run_wvar eps W ops =
  WVar F (WMean F (fins eps l) (Fin (mean l))) (Fin (csum 2 l)).
Proof.
  intros l; unfold run_wvar; rewrite run_rops by reflexivity.
  apply wvar_exact; auto.
Qed.

Lemma run_wcov_state ops : let l := lastn W (since_clear ops) in
  run_wcov eps W ops =
  WCov F (finps eps l) (Fin (Rsum (xs l))) (Fin (Rsum (ys l))) (Fin (psum_xy l)).
Proof.
  intros l; unfold run_wcov; rewrite run_rpops by reflexivity.
  apply wcov_exact; auto.
Qed.

Lemma fits_lastn {A} (l : list A) : fits (lastn W l).
Proof. unfold fits; rewrite lastn_length; lia. Qed.

Lemma nmax_0_nonneg (r : R) : 0 <= r -> nmax (n0 : F) (Fin r) = Fin r.
Proof.
  intros H; unfold nmax, n0; cbn.
  destruct (Rlt_bool_spec 0 r) as [H1|H1]; [reflexivity|].
  f_equal; lra.
Qed.

Lemma wvar_obs (l : list R) : fits l ->
  let s := WVar F (WMean F (fins eps l) (Fin (mean l))) (Fin (csum 2 l)) in
  wvar_variance F s = Fin (match l with [] => 0 | _ => variance l end) /\
  wvar_unbiased_variance F s =
    Fin (match l with [] | [_] => 0 | _ => sample_variance l end).
Proof.
  intros Hf s; unfold s, wvar_variance, wvar_unbiased_variance, wvar_size, wmean_size.
  cbn [wv_super wm_window wv_sum].
  rewrite rb_size_fins; split.
  - destruct l as [|x l]; [reflexivity|].
    destruct (N.ltb_spec 0 (N.of_nat (length (x :: l)))) as [_|H];
      [|cbn [length] in H; lia].
    rewrite xdiv_card by congruence.
    apply nmax_0_nonneg, variance_nonneg.
  - destruct l as [|x [|y l]]; [reflexivity|reflexivity|].
    destruct (N.ltb_spec 1 (N.of_nat (length (x :: y :: l)))) as [_|H];
      [|cbn [length] in H; lia].
    rewrite xdiv_pred by (auto; cbn [length]; lia).
    apply nmax_0_nonneg, sample_variance_nonneg; cbn [length]; lia.
Qed.

Lemma wcov_obs (l : list (R * R)) : fits l ->
  let s := WCov F (finps eps l) (Fin (Rsum (xs l))) (Fin (Rsum (ys l)))
                  (Fin (psum_xy l)) in
  wcov_variance F s = Fin (match l with [] => 0 | _ => covariance l end) /\
  wcov_unbiased_variance F s =
    Fin (match l with [] | [_] => 0 | _ => sample_covariance l end).
Proof.
  intros Hf s; unfold s.
  assert (Hs : wcov_size F s = N.of_nat (length l))
    by (unfold s, wcov_size, rb_size, finps; cbn [wc_window]; rewrite map_length; reflexivity).
  assert (Hc : l <> [] -> wcov_cosum F s = Fin (cosum l)).
  { intros Hl; unfold wcov_cosum; rewrite Hs; unfold s; cbn [wc_xy wc_x wc_y].
    unfold nmul, nsub; cbn [exact xnum xlift2].
    rewrite xdiv_card by exact Hl; cbn [xlift2]; f_equal.
    rewrite cosum_expand; unfold psum_xy.
    pose proof (card_pos l Hl) as Hp.
    rewrite <- (mean_card (xs l)), <- (mean_card (ys l)), card_xs, card_ys.
    field; lra. }
  fold s; unfold wcov_variance, wcov_unbiased_variance; rewrite !Hs; split.
  - destruct l as [|p l]; [reflexivity|].
    destruct (N.ltb_spec 0 (N.of_nat (length (p :: l)))) as [_|H];
      [|cbn [length] in H; lia].
    rewrite Hc, xdiv_card by congruence; reflexivity.
  - destruct l as [|p [|q l]]; [reflexivity|reflexivity|].
    destruct (N.ltb_spec 1 (N.of_nat (length (p :: q :: l)))) as [_|H];
      [|cbn [length] in H; lia].
    rewrite Hc, xdiv_pred by (auto; cbn [length]; try lia; congruence); reflexivity.
Qed.

Lemma wreg_obs ops : let l := lastn W (since_clear ops) in
  let s := run_wreg eps W ops in
  l <> [] ->
  wreg_size F s = N.of_nat (length l) /\
  wreg_slope F s = Fin (ls_slope l) /\
  forall p, wreg_at F s (Fin p) = Fin (ls_intercept l + ls_slope l * p).
Proof.
  intros l s Hl.
  assert (E : s = WReg F
     (WCov F (finps eps l) (Fin (Rsum (xs l))) (Fin (Rsum (ys l))) (Fin (psum_xy l)))
     (WVar F (WMean F (fins eps (xs l)) (Fin (mean (xs l)))) (Fin (csum 2 (xs l))))).
  { unfold s, run_wreg; rewrite run_rpops by reflexivity.
    rewrite wreg_fold; cbn [wreg_init wr_cov wr_x].
    rewrite map_fst_finps.
    rewrite wcov_exact by auto; rewrite wvar_exact by auto.
    replace (lastn W (xs (since_clear ops))) with (xs l)
      by (unfold l, xs; rewrite lastn_map; reflexivity).
    reflexivity. }
  rewrite E; clear E.
  set (sc := WCov F _ _ _ _); set (sv := WVar F _ _).
  assert (Hf : fits l) by apply fits_lastn.
  assert (Hs : wcov_size F sc = N.of_nat (length l))
    by (unfold sc, wcov_size, rb_size, finps; cbn [wc_window]; rewrite map_length; reflexivity).
  split; [exact Hs|].
  pose proof (card_pos l Hl) as Hc.
  assert (Es : wreg_slope F (WReg F sc sv) = Fin (ls_slope l)).
  { unfold wreg_slope; cbn [wr_x wr_cov].
    destruct (wvar_obs (xs l) (fits_xs l Hf)) as [Ev _]; fold sv in Ev; rewrite Ev.
    destruct (wcov_obs l Hf) as [Ec _]; fold sc in Ec; rewrite Ec.
    replace (match xs l with [] => 0 | _ => variance (xs l) end) with (variance (xs l))
      by (destruct l; cbn; congruence).
    replace (match l with [] => 0 | _ => covariance l end) with (covariance l)
      by (destruct l; congruence).
    unfold neq, ndiv, n0, nofz; cbn [exact xnum xcmp].
    unfold ls_slope, variance; rewrite card_xs.
    destruct (Req_EM_T (csum 2 (xs l)) 0) as [H0|H0].
    - rewrite H0; unfold Rdiv; rewrite Rmult_0_l, Req_bool_true by reflexivity.
      reflexivity.
    - assert (Hne : csum 2 (xs l) / card l <> 0).
      { unfold Rdiv; apply Rmult_integral_contrapositive_currified; [exact H0|].
        apply Rinv_neq_0_compat; lra. }
      rewrite Req_bool_false by exact Hne.
      rewrite xdiv_fin by exact Hne.
      f_equal; unfold covariance; field; lra. }
  split; [exact Es|]; intros p; unfold wreg_at; rewrite Es.
  cbn [wr_cov wr_x]; rewrite Hs.
  unfold sc at 1; cbn [wc_y].
  rewrite xdiv_card by exact Hl.
  unfold sv; cbn [wvar_mean wv_super wmean_mean wm_mean].
  unfold nsub, nmul; cbn [exact xnum xlift2]; f_equal.
  unfold ls_intercept; rewrite <- (mean_card (ys l)), card_ys.
  field; lra.
Qed.
End Obs.
