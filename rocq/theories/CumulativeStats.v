(** * Cumulative filters compute the textbook statistics (exact reals) *)

From Coq Require Import Reals ZArith NArith Bool List Lia Lra Psatz Permutation.
From Flocq Require Import Core.Raux.
From Verif Require Import Arith History HistoryLemmas SpecStats StatsLemmas
  Cumulative ExactRuns CumulativeProofs.
Import ListNotations.

Section Runs.
Variable eps : R.
Notation F := (exact eps).
Notation rops := (rops eps).
Notation rpops := (rpops eps).
Notation run_cmean := (run_cmean eps).
Notation run_cvar := (run_cvar eps).
Notation run_cskew := (run_cskew eps).
Notation run_ckurt := (run_ckurt eps).
Notation run_ccov := (run_ccov eps).
Notation run_ccorr := (run_ccorr eps).
Notation run_creg := (run_creg eps).
Notation run_ctrend := (run_ctrend eps).

Local Open Scope R_scope.

Lemma run_rops {S} (push : S -> F -> S) clear init ops :
  (forall s, clear s = init) ->
  run push clear init (rops ops) = fold_left push (fins eps (since_clear ops)) init.
Proof.
  intros H; rewrite (run_since_clear push clear init H).
  unfold rops; rewrite since_clear_op_map; reflexivity.
Qed.

Lemma run_rpops {S} (push : S -> F * F -> S) clear init ops :
  (forall s, clear s = init) ->
  run push clear init (rpops ops) = fold_left push (finps eps (since_clear ops)) init.
Proof.
  intros H; rewrite (run_since_clear push clear init H).
  unfold rpops; rewrite since_clear_op_map; reflexivity.
Qed.

Lemma run_cmean_state ops : fits (since_clear ops) ->
  run_cmean ops = CMean F (Fin (mean (since_clear ops)))
                          (N.of_nat (length (since_clear ops))).
Proof.
  intros H; unfold run_cmean; rewrite run_rops by reflexivity.
  apply cmean_exact, H.
Qed.

Lemma run_cvar_state ops : fits (since_clear ops) ->
  run_cvar ops = CVar F (CMean F (Fin (mean (since_clear ops)))
                          (N.of_nat (length (since_clear ops))))
                        (Fin (csum 2 (since_clear ops))).
Proof.
  intros H; unfold run_cvar; rewrite run_rops by reflexivity.
  apply cvar_exact, H.
Qed.

Lemma run_cskew_state ops : fits (since_clear ops) ->
  run_cskew ops = CSkew F (CVar F (CMean F (Fin (mean (since_clear ops)))
                          (N.of_nat (length (since_clear ops))))
                        (Fin (csum 2 (since_clear ops))))
                        (Fin (csum 3 (since_clear ops))).
Proof.
  intros H; unfold run_cskew; rewrite run_rops by reflexivity.
  apply cskew_exact, H.
Qed.

Lemma run_ckurt_super ops : ck_super F (run_ckurt ops) = run_cskew ops.
Proof.
  unfold run_ckurt, run_cskew; rewrite !run_rops by reflexivity.
  rewrite ckurt_fold_super; reflexivity.
Qed.

Lemma run_ckurt_state ops :
  (N.of_nat (length (since_clear ops)) <= kurt_limit)%N ->
  run_ckurt ops = CKurt F (CSkew F (CVar F (CMean F (Fin (mean (since_clear ops)))
                          (N.of_nat (length (since_clear ops))))
                        (Fin (csum 2 (since_clear ops))))
                        (Fin (csum 3 (since_clear ops))))
                        (Fin (csum 4 (since_clear ops))).
Proof.
  intros H; unfold ExactRuns.run_ckurt; rewrite run_rops by reflexivity.
  apply ckurt_exact, H.
Qed.

Lemma run_ckurt_sum ops :
  (N.of_nat (length (since_clear ops)) <= kurt_limit)%N ->
  ck_sum F (run_ckurt ops) = Fin (csum 4 (since_clear ops)).
Proof.
  intros H; unfold run_ckurt; rewrite run_rops by reflexivity.
  rewrite ckurt_exact by exact H; reflexivity.
Qed.

Lemma run_ccov_state ops : fits (since_clear ops) ->
  run_ccov ops = CCov F
    (CMean F (Fin (mean (xs (since_clear ops)))) (N.of_nat (length (since_clear ops))))
    (CMean F (Fin (mean (ys (since_clear ops)))) (N.of_nat (length (since_clear ops))))
    (Fin (cosum (since_clear ops))).
Proof.
  intros H; unfold run_ccov; rewrite run_rpops by reflexivity.
  apply ccov_exact, H.
Qed.

Lemma fits_xs (l : list (R * R)) : fits l -> fits (xs l).
Proof. unfold fits, xs; rewrite map_length; auto. Qed.
Lemma fits_ys (l : list (R * R)) : fits l -> fits (ys l).
Proof. unfold fits, ys; rewrite map_length; auto. Qed.

Lemma cvar_exact_xs (l : list (R * R)) : fits l ->
  fold_left (cvar_push F) (fins eps (xs l)) (cvar_init F) =
  CVar F (CMean F (Fin (mean (xs l))) (N.of_nat (length l))) (Fin (csum 2 (xs l))).
Proof.
  intros H; rewrite cvar_exact by (apply fits_xs, H).
  unfold xs at 2; rewrite map_length; reflexivity.
Qed.

Lemma cvar_exact_ys (l : list (R * R)) : fits l ->
  fold_left (cvar_push F) (fins eps (ys l)) (cvar_init F) =
  CVar F (CMean F (Fin (mean (ys l))) (N.of_nat (length l))) (Fin (csum 2 (ys l))).
Proof.
  intros H; rewrite cvar_exact by (apply fits_ys, H).
  unfold ys at 2; rewrite map_length; reflexivity.
Qed.

Lemma run_ccorr_state ops : fits (since_clear ops) ->
  let l := since_clear ops in
  run_ccorr ops = CCorr F
    (CCov F (CMean F (Fin (mean (xs l))) (N.of_nat (length l)))
            (CMean F (Fin (mean (ys l))) (N.of_nat (length l))) (Fin (cosum l)))
    (CVar F (CMean F (Fin (mean (xs l))) (N.of_nat (length l))) (Fin (csum 2 (xs l))))
    (CVar F (CMean F (Fin (mean (ys l))) (N.of_nat (length l))) (Fin (csum 2 (ys l)))).
Proof.
  intros H l; unfold run_ccorr; rewrite run_rpops by reflexivity.
  fold l; rewrite ccorr_fold; cbn [cr_co cr_x cr_y ccorr_init].
  rewrite map_fst_finps, map_snd_finps, cvar_exact_xs, cvar_exact_ys by exact H.
  rewrite ccov_exact by exact H; reflexivity.
Qed.

Lemma run_creg_state ops : fits (since_clear ops) ->
  let l := since_clear ops in
  run_creg ops = CReg F
    (CCov F (CMean F (Fin (mean (xs l))) (N.of_nat (length l)))
            (CMean F (Fin (mean (ys l))) (N.of_nat (length l))) (Fin (cosum l)))
    (CVar F (CMean F (Fin (mean (xs l))) (N.of_nat (length l))) (Fin (csum 2 (xs l))))
    (CVar F (CMean F (Fin (mean (ys l))) (N.of_nat (length l))) (Fin (csum 2 (ys l)))).
Proof.
  intros H l; unfold run_creg; rewrite run_rpops by reflexivity.
  fold l; rewrite creg_fold; cbn [cg_co cg_x cg_y creg_init].
  rewrite map_fst_finps, map_snd_finps, cvar_exact_xs, cvar_exact_ys by exact H.
  rewrite ccov_exact by exact H; reflexivity.
Qed.

(** ** Observers on the characterised states *)

Lemma len_pos_card {A} (l : list A) : l <> [] -> IZR (Z.of_N (N.of_nat (length l))) <> 0.
Proof. intros H; rewrite IZR_len; pose proof (card_pos l H); lra. Qed.

Lemma pred_card {A} (l : list A) : fits l -> l <> [] ->
  IZR (Z.of_N (szsub (N.of_nat (length l)) 1)) = card l - 1.
Proof.
  intros H Hl; destruct l as [|a l]; [congruence|].
  rewrite szsub_small by (unfold fits in H; cbn [length] in *; lia).
  replace (N.of_nat (length (a :: l)) - 1)%N with (N.of_nat (length l)) by (cbn [length]; lia).
  rewrite IZR_of_nat, card_cons; unfold card; ring.
Qed.

Lemma card_ge2 {A} (l : list A) : (2 <= length l)%nat -> 2 <= card l.
Proof. intros H; unfold card; apply le_INR in H; cbn in H; lra. Qed.

Lemma length_pos {A} (l : list A) : (1 <= length l)%nat -> l <> [].
Proof. destruct l; cbn; [lia|congruence]. Qed.

Lemma xdiv_card (a : R) {A} (l : list A) : l <> [] ->
  ndiv (Fin a : F) (nofsz (N.of_nat (length l))) = Fin (a / card l).
Proof.
  intros H; cbn -[N.of_nat Z.of_N].
  rewrite Req_bool_false by (apply len_pos_card, H); rewrite IZR_len; reflexivity.
Qed.

Lemma xdiv_pred (a : R) {A} (l : list A) : fits l -> (2 <= length l)%nat ->
  ndiv (Fin a : F) (nofsz (szsub (N.of_nat (length l)) 1)) = Fin (a / (card l - 1)).
Proof.
  intros H H2; cbn -[N.of_nat Z.of_N szsub].
  pose proof (card_ge2 l H2).
  rewrite pred_card by (auto; apply length_pos; lia).
  rewrite Req_bool_false by lra; reflexivity.
Qed.

(** *** C01 *)
Lemma cmean_obs (s : cmean F) (l : list R) :
  fits l -> s = CMean F (Fin (mean l)) (N.of_nat (length l)) ->
  cmean_size F s = N.of_nat (length l) /\
  cmean_empty F s = match l with [] => true | _ => false end /\
  (l <> [] -> cmean_mean F s = Fin (mean l)) /\
  ((2 <= length l)%nat ->
   cmean_unbiased_mean F s = Fin (card l * mean l / (card l - 1))).
Proof.
  intros Hf ->; repeat split.
  - destruct l; reflexivity.
  - intros H2; unfold cmean_unbiased_mean; cbn [cm_mean cm_count].
    replace (nmul (Fin (mean l) : F) (nofsz (N.of_nat (length l))))
      with (Fin (mean l * card l) : F)
      by (cbn -[N.of_nat Z.of_N]; rewrite IZR_len; reflexivity).
    rewrite xdiv_pred by auto.
    f_equal; f_equal; ring.
Qed.

Lemma cvar_obs (s : cvar F) (l : list R) :
  fits l ->
  s = CVar F (CMean F (Fin (mean l)) (N.of_nat (length l))) (Fin (csum 2 l)) ->
  (l <> [] -> cvar_variance F s = Fin (variance l)) /\
  ((2 <= length l)%nat -> cvar_unbiased_variance F s = Fin (sample_variance l)).
Proof.
  intros Hf ->; split; intros H.
  - unfold cvar_variance; cbn [cv_sum cv_super cm_count].
    rewrite xdiv_card by exact H; reflexivity.
  - unfold cvar_unbiased_variance; cbn [cv_sum cv_super cm_count].
    rewrite xdiv_pred by auto; reflexivity.
Qed.

Lemma sample_variance_nonneg l : (2 <= length l)%nat -> 0 <= sample_variance l.
Proof.
  intros H; pose proof (card_ge2 l H); unfold sample_variance.
  apply Rmult_le_pos; [apply csum_2_nonneg|].
  left; apply Rinv_0_lt_compat; lra.
Qed.

(** *** Skewness *)
Lemma cskew_skewness_obs (s : cskew F) (l : list R) :
  0 < eps ->
  s = CSkew F (CVar F (CMean F (Fin (mean l)) (N.of_nat (length l)))
               (Fin (csum 2 l))) (Fin (csum 3 l)) ->
  cskew_skewness F s =
  Fin (if Rlt_bool (csum 3 l) eps then 0 else skewness l).
Proof.
  intros He ->; unfold cskew_skewness; cbn -[N.of_nat Z.of_N].
  destruct (Rlt_bool_spec (csum 3 l) eps) as [H|H].
  - reflexivity.
  - assert (H2 : 0 < csum 2 l) by (apply csum_2_pos_of_3; lra).
    rewrite IZR_len, !Rlt_bool_false by (try apply card_nonneg; lra).
    cbn [xlift2].
    pose proof (sqrt_lt_R0 _ H2) as Hs.
    rewrite xdiv_fin by (apply Rmult_integral_contrapositive_currified; lra).
    rewrite skewness_formula by exact H2; reflexivity.
Qed.

(** Bounds on the length that keep the size_t products from wrapping. *)
Lemma card_mul_pred (l : list R) :
  (2 <= length l)%nat -> (N.of_nat (length l) <= 4294967296)%N ->
  IZR (Z.of_N (szmul (N.of_nat (length l)) (szsub (N.of_nat (length l)) 1))) =
  card l * (card l - 1).
Proof.
  intros H2 H.
  assert (Hf : fits l) by (unfold fits, szmod; lia).
  rewrite szmul_small.
  - rewrite N2Z.inj_mul, mult_IZR, IZR_len, pred_card; auto.
    apply length_pos; lia.
  - rewrite szsub_small by (unfold szmod; lia).
    apply N.le_lt_trans with (4294967296 * (4294967296 - 1))%N; [nia|reflexivity].
Qed.

Lemma sub2_card (l : list R) : (2 <= length l)%nat -> fits l ->
  IZR (Z.of_N (szsub (N.of_nat (length l)) 2)) = card l - 2.
Proof.
  intros H2 H; unfold fits in H; rewrite szsub_small by lia.
  rewrite N2Z.inj_sub, minus_IZR, IZR_len by lia; reflexivity.
Qed.

Lemma sub3_card (l : list R) : (3 <= length l)%nat -> fits l ->
  IZR (Z.of_N (szsub (N.of_nat (length l)) 3)) = card l - 3.
Proof.
  intros H2 H; unfold fits in H; rewrite szsub_small by lia.
  rewrite N2Z.inj_sub, minus_IZR, IZR_len by lia; reflexivity.
Qed.

Lemma csum_3_short l : (length l <= 2)%nat -> csum 3 l = 0.
Proof.
  destruct l as [|x [|y [|z l]]]; cbn [length]; intros H; try lia.
  - reflexivity.
  - apply (csum_constant 2 x); repeat constructor.
  - apply csum_3_two.
Qed.

Lemma card_ge3 {A} (l : list A) : (3 <= length l)%nat -> 3 <= card l.
Proof. intros H; unfold card; apply le_INR in H; cbn in H; lra. Qed.
Lemma card_ge4 {A} (l : list A) : (4 <= length l)%nat -> 4 <= card l.
Proof. intros H; unfold card; apply le_INR in H; cbn in H; lra. Qed.

Lemma cskew_unbiased_obs (s : cskew F) (l : list R) :
  0 < eps -> (N.of_nat (length l) <= 4294967296)%N ->
  s = CSkew F (CVar F (CMean F (Fin (mean l)) (N.of_nat (length l)))
               (Fin (csum 2 l))) (Fin (csum 3 l)) ->
  cskew_unbiased_skewness F s =
  Fin (if Rlt_bool (csum 3 l) eps then 0 else sample_skewness l) /\
  (eps <= csum 3 l -> (3 <= length l)%nat).
Proof.
  intros He Hn ->.
  assert (H3 : eps <= csum 3 l -> (3 <= length l)%nat).
  { intros H; destruct (le_lt_dec 3 (length l)) as [|Hlt]; [assumption|].
    rewrite csum_3_short in H by lia; lra. }
  split; [|exact H3].
  unfold cskew_unbiased_skewness.
  cbn [cskew_size cs_super cvar_size cv_super cmean_size cm_count cs_sum].
  destruct (N.ltb_spec (N.of_nat (length l)) 2) as [Hlt|Hge].
  - rewrite csum_3_short by lia.
    rewrite Rlt_bool_true by exact He; reflexivity.
  - rewrite cskew_skewness_obs with (l := l) by (auto; reflexivity).
    unfold nlt; cbn [exact xnum neps xcmp].
    destruct (Rlt_bool_spec (csum 3 l) eps) as [H|H]; [reflexivity|].
    specialize (H3 H).
    assert (Hf : fits l) by (unfold fits, szmod; lia).
    pose proof (card_ge3 l H3) as Hc.
    unfold ndiv, nmul, nsqrt, nofsz; cbn [exact xnum xsqrt].
    rewrite card_mul_pred by (auto; lia).
    rewrite sub2_card by (auto; lia).
    rewrite Rlt_bool_false by nra.
    cbn [xlift2]; rewrite xdiv_fin by lra.
    f_equal; unfold sample_skewness; field; lra.
Qed.

(** *** Kurtosis *)
Lemma ckurt_kurtosis_obs (s : ckurt F) (l : list R) :
  0 < eps ->
  s = CKurt F (CSkew F (CVar F (CMean F (Fin (mean l)) (N.of_nat (length l)))
               (Fin (csum 2 l))) (Fin (csum 3 l))) (Fin (csum 4 l)) ->
  ckurt_kurtosis F s =
  Fin (if Rlt_bool (csum 4 l) eps then 0 else kurtosis l).
Proof.
  intros He ->; unfold ckurt_kurtosis; cbn -[N.of_nat Z.of_N].
  destruct (Rlt_bool_spec (csum 4 l) eps) as [H|H]; [reflexivity|].
  assert (H2 : 0 < csum 2 l) by (apply csum_2_pos_of_4; lra).
  rewrite Req_bool_false by (apply Rmult_integral_contrapositive_currified; lra).
  rewrite IZR_len, kurtosis_formula by exact H2; reflexivity.
Qed.

Lemma ckurt_unbiased_obs (s : ckurt F) (l : list R) :
  0 < eps -> (N.of_nat (length l) <= kurt_limit)%N ->
  s = CKurt F (CSkew F (CVar F (CMean F (Fin (mean l)) (N.of_nat (length l)))
               (Fin (csum 2 l))) (Fin (csum 3 l))) (Fin (csum 4 l)) ->
  ckurt_unbiased_kurtosis F s =
  Fin (if (N.of_nat (length l) <? 4)%N then 0
       else if Rlt_bool (csum 4 l) eps then 0 else sample_kurtosis l).
Proof.
  intros He Hn Es; unfold kurt_limit in Hn.
  pose proof (ckurt_kurtosis_obs s l He Es) as Ek; revert Ek; subst s.
  unfold ckurt_unbiased_kurtosis.
  cbn [ckurt_size ck_super ck_sum cskew_size cs_super cvar_size cv_super
       cmean_size cm_count cs_sum].
  intros Ek; rewrite Ek.
  destruct (N.ltb_spec (N.of_nat (length l)) 4) as [Hlt|Hge]; [reflexivity|].
  unfold nlt; cbn [exact xnum neps xcmp].
  destruct (Rlt_bool_spec (csum 4 l) eps) as [H|H]; [reflexivity|].
  assert (Hf : fits l) by (unfold fits, szmod; lia).
  assert (H4 : (4 <= length l)%nat) by lia.
  pose proof (card_ge4 l H4) as Hc.
  unfold nadd, nsub, ndiv, nmul, nofsz, nofz; cbn [exact xnum].
  rewrite szmul_small.
  2:{ rewrite !szsub_small by (unfold szmod; lia).
      apply N.le_lt_trans with ((4294967297 - 2) * (4294967297 - 3))%N;
        [nia|vm_compute; reflexivity]. }
  rewrite N2Z.inj_mul, mult_IZR, sub2_card, sub3_card, pred_card
    by (auto; try lia; apply length_pos; lia).
  rewrite szadd_small by (unfold fits, szmod in *; lia).
  rewrite N2Z.inj_add, plus_IZR, IZR_len.
  rewrite xdiv_fin by nra.
  cbn [xlift2 Z.of_N]; f_equal; unfold sample_kurtosis; field; lra.
Qed.

(** *** Covariance *)
Lemma ccov_obs (s : ccov F) (l : list (R * R)) :
  fits l ->
  s = CCov F (CMean F (Fin (mean (xs l))) (N.of_nat (length l)))
             (CMean F (Fin (mean (ys l))) (N.of_nat (length l)))
             (Fin (cosum l)) ->
  ccov_size F s = N.of_nat (length l) /\
  ccov_size_assert F s = true /\
  ccov_variance F s =
    Fin (match l with [] => 0 | _ => covariance l end) /\
  ccov_unbiased_variance F s =
    Fin (match l with [] | [_] => 0 | _ => sample_covariance l end).
Proof.
  intros Hf ->; split; [reflexivity|]; split; [apply N.eqb_refl|]; split.
  - unfold ccov_variance; cbn [ccov_size cc_x cc_center cmean_size cm_count].
    destruct l as [|p l]; [reflexivity|].
    destruct (N.ltb_spec 0 (N.of_nat (length (p :: l)))) as [_|H];
      [|cbn [length] in H; lia].
    rewrite xdiv_card by congruence; reflexivity.
  - unfold ccov_unbiased_variance;
      cbn [ccov_size cc_x cc_center cmean_size cm_count].
    destruct l as [|p [|q l]]; [reflexivity|reflexivity|].
    destruct (N.ltb_spec 1 (N.of_nat (length (p :: q :: l)))) as [_|H];
      [|cbn [length] in H; lia].
    rewrite xdiv_pred by (auto; cbn [length]; lia); reflexivity.
Qed.

(** *** Correlation *)
Lemma pearson_bounds l : -1 <= pearson l <= 1.
Proof.
  destruct l as [|p0 l0].
  { unfold pearson, covariance, cosum, card; cbn.
    unfold Rdiv; rewrite !Rmult_0_l; lra. }
  set (l := p0 :: l0).
  assert (Hc : 1 <= card l) by (apply card_pos; unfold l; congruence).
  unfold pearson.
  destruct (Req_dec (variance (xs l)) 0) as [Hx|Hx].
  { rewrite Hx, sqrt_0, Rmult_0_l; unfold Rdiv; rewrite Rinv_0; lra. }
  destruct (Req_dec (variance (ys l)) 0) as [Hy|Hy].
  { rewrite Hy, sqrt_0, Rmult_0_r; unfold Rdiv; rewrite Rinv_0; lra. }
  pose proof (variance_nonneg (xs l)) as Px.
  pose proof (variance_nonneg (ys l)) as Py.
  assert (CS : covariance l ^ 2 <= variance (xs l) * variance (ys l)).
  { unfold covariance, variance; rewrite card_xs, card_ys.
    replace ((cosum l / card l) ^ 2) with (cosum l ^ 2 * / (card l ^ 2))
      by (field; lra).
    replace (csum 2 (xs l) / card l * (csum 2 (ys l) / card l))
      with (csum 2 (xs l) * csum 2 (ys l) * / (card l ^ 2)) by (field; lra).
    apply Rmult_le_compat_r; [|apply cauchy_schwarz].
    left; apply Rinv_0_lt_compat; nra. }
  rewrite <- sqrt_mult by assumption.
  set (P := variance (xs l) * variance (ys l)) in *.
  assert (HP : 0 < P) by (unfold P; apply Rmult_lt_0_compat; lra).
  pose proof (sqrt_lt_R0 P HP) as Hs.
  assert (Hsq : sqrt P * sqrt P = P) by (apply sqrt_sqrt; lra).
  assert (A : Rabs (covariance l) <= sqrt P).
  { apply Rsqr_incr_0_var; [|lra].
    rewrite <- Rsqr_abs; unfold Rsqr; lra. }
  assert (B : -sqrt P <= covariance l <= sqrt P)
    by (revert A; unfold Rabs; destruct (Rcase_abs _); lra).
  split.
  - apply (Rmult_le_reg_r (sqrt P)); [exact Hs|].
    unfold Rdiv; rewrite Rmult_assoc, Rinv_l by lra; lra.
  - apply (Rmult_le_reg_r (sqrt P)); [exact Hs|].
    unfold Rdiv; rewrite Rmult_assoc, Rinv_l by lra; lra.
Qed.

Lemma ccorr_obs ops : 0 < eps ->
  let l := since_clear ops in
  fits l -> l <> [] ->
  ccorr_value F (run_ccorr ops) =
  Fin (if Rlt_bool (variance (xs l) * variance (ys l)) eps then 1
       else pearson l).
Proof.
  intros He l Hf Hl; unfold ccorr_value.
  pose proof (run_ccorr_state ops Hf) as E; cbv zeta in E; fold l in E; rewrite E.
  cbn [cr_co cr_x cr_y]; clear E.
  assert (Ex := cvar_obs _ (xs l) (fits_xs l Hf) eq_refl).
  assert (Ey := cvar_obs _ (ys l) (fits_ys l Hf) eq_refl).
  assert (Hxs : xs l <> []) by (destruct l; cbn; congruence).
  assert (Hys : ys l <> []) by (destruct l; cbn; congruence).
  destruct Ex as [Ex _]; specialize (Ex Hxs).
  destruct Ey as [Ey _]; specialize (Ey Hys).
  unfold xs at 2 in Ex; unfold ys at 2 in Ey; rewrite map_length in Ex, Ey.
  rewrite Ex, Ey.
  destruct (ccov_obs _ l Hf eq_refl) as (_ & _ & Ec & _); rewrite Ec.
  unfold nlt, nmul, ndiv, nsqrt; cbn [exact xnum neps xlift2 xcmp].
  destruct (Rlt_bool_spec (variance (xs l) * variance (ys l)) eps) as [H|H];
    [reflexivity|].
  rewrite xsqrt_fin by lra.
  rewrite xdiv_fin by (apply Rgt_not_eq, sqrt_lt_R0; lra).
  unfold pearson; rewrite sqrt_mult by apply variance_nonneg.
  destruct l; [congruence|reflexivity].
Qed.

(** *** Regression *)
Lemma creg_obs ops :
  let l := since_clear ops in
  fits l -> l <> [] ->
  creg_size F (run_creg ops) = N.of_nat (length l) /\
  creg_slope F (run_creg ops) = Fin (ls_slope l) /\
  forall p, creg_at F (run_creg ops) (Fin p) =
            Fin (ls_intercept l + ls_slope l * p).
Proof.
  intros l Hf Hl.
  pose proof (run_creg_state ops Hf) as E; cbv zeta in E; fold l in E; rewrite E.
  clear E; split; [reflexivity|].
  assert (Hc := card_pos l Hl).
  assert (Es : creg_slope F (CReg F
    (CCov F (CMean F (Fin (mean (xs l))) (N.of_nat (length l)))
            (CMean F (Fin (mean (ys l))) (N.of_nat (length l))) (Fin (cosum l)))
    (CVar F (CMean F (Fin (mean (xs l))) (N.of_nat (length l))) (Fin (csum 2 (xs l))))
    (CVar F (CMean F (Fin (mean (ys l))) (N.of_nat (length l))) (Fin (csum 2 (ys l)))))
    = Fin (ls_slope l)).
  { unfold creg_slope; cbn [cg_co cg_x].
    assert (Ex := cvar_obs _ (xs l) (fits_xs l Hf) eq_refl).
    assert (Hxs : xs l <> []) by (destruct l; cbn; congruence).
    destruct Ex as [Ex _]; specialize (Ex Hxs).
    unfold xs at 2 in Ex; rewrite map_length in Ex; rewrite Ex.
    destruct (ccov_obs _ l Hf eq_refl) as (_ & _ & Ec & _); rewrite Ec.
    unfold neq, ndiv, n0, nofz; cbn [exact xnum xcmp].
    unfold ls_slope, variance; rewrite card_xs.
    destruct (Req_EM_T (csum 2 (xs l)) 0) as [H0|H0].
    - rewrite H0; unfold Rdiv; rewrite Rmult_0_l, Req_bool_true by reflexivity.
      reflexivity.
    - rewrite Req_bool_false.
      2:{ unfold Rdiv; apply Rmult_integral_contrapositive_currified; [exact H0|].
          apply Rinv_neq_0_compat; lra. }
      rewrite xdiv_fin.
      2:{ unfold Rdiv; apply Rmult_integral_contrapositive_currified; [exact H0|].
          apply Rinv_neq_0_compat; lra. }
      f_equal; destruct l; [congruence|]; unfold covariance; field; lra. }
  split; [exact Es|]; intros p; unfold creg_at; rewrite Es.
  cbn; f_equal; unfold ls_intercept; ring.
Qed.

(** *** Trend *)
Lemma ctrend_exact l : fits l ->
  fold_left (ctrend_push F) (fins eps l) (ctrend_init F) =
  CTrend F (CMean F (Fin (mean l)) (N.of_nat (length l)))
           (CMean F (Fin (mean (running_means l))) (N.of_nat (length l))).
Proof.
  unfold fits; induction l as [|x l IH] using rev_ind; intros H.
  - assert (E : (N.of_nat (@length R []) < szmod)%N) by reflexivity.
    pose proof (cmean_exact eps [] E) as E'; cbn in E' |- *.
    unfold ctrend_init; rewrite E'; reflexivity.
  - rewrite length_snoc in H.
    rewrite fins_app, fold_left_app, IH by lia.
    cbn [fins map fold_left]; unfold ctrend_push; cbn [ct_center ct_grand].
    rewrite cmean_push_exact by exact H; cbn [cmean_mean cm_mean].
    rewrite running_means_snoc.
    pose proof (cmean_push_exact eps (running_means l) (mean (l ++ [x]))) as E.
    rewrite app_length, running_means_length in E.
    rewrite E by exact H; rewrite app_length; reflexivity.
Qed.

Lemma ctrend_obs ops :
  let l := since_clear ops in
  fits l ->
  ctrend_size F (run_ctrend ops) = N.of_nat (length l) /\
  ctrend_value F (run_ctrend ops) = Fin (3 * mean l - 2 * mean (running_means l)).
Proof.
  intros l Hf; unfold run_ctrend; rewrite run_rops by reflexivity.
  fold l; rewrite ctrend_exact by exact Hf.
  split; [reflexivity|]; cbn; f_equal; ring.
Qed.

End Runs.
