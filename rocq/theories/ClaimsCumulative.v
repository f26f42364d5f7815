(** * Claims C01-C11, C14: cumulative filters *)

From Coq Require Import Reals ZArith NArith Bool List Permutation.
From Coq Require Import Floats.SpecFloat.
From Verif Require Import Arith History SpecStats Cumulative ExactRuns.
Import ListNotations.
Local Open Scope R_scope.
(* @end-header *)
From Coq Require Import Lia Lra Psatz.
From Flocq Require Import Core.Raux.
From Verif Require Import HistoryLemmas StatsLemmas CumulativeProofs CumulativeStats.

(** ** C01 *)

(** @prop C01_cumulative_mean: after any history, size() is the number of values
    since the last clear() and mean() their arithmetic mean, for all four
    classes of cumulative moments; unbiased_mean() is n/(n-1) times the mean. *)
Lemma c01 : forall (eps : R) (ops : list (op R)),
  let l := since_clear ops in
  let n := N.of_nat (length l) in
  fits l ->
  (cmean_size _ (run_cmean eps ops) = n /\
   cvar_size _ (run_cvar eps ops) = n /\
   cskew_size _ (run_cskew eps ops) = n /\
   ckurt_size _ (run_ckurt eps ops) = n) /\
  (let e := match l with [] => true | _ => false end in
   cmean_empty _ (run_cmean eps ops) = e /\
   cvar_empty _ (run_cvar eps ops) = e /\
   cskew_empty _ (run_cskew eps ops) = e /\
   ckurt_empty _ (run_ckurt eps ops) = e) /\
  (l <> [] ->
   cmean_mean _ (run_cmean eps ops) = Fin (mean l) /\
   cvar_mean _ (run_cvar eps ops) = Fin (mean l) /\
   cskew_mean _ (run_cskew eps ops) = Fin (mean l) /\
   ckurt_mean _ (run_ckurt eps ops) = Fin (mean l)) /\
  ((2 <= length l)%nat ->
   let u := Fin (card l * mean l / (card l - 1)) in
   cmean_unbiased_mean _ (run_cmean eps ops) = u /\
   cvar_unbiased_mean _ (run_cvar eps ops) = u /\
   cskew_unbiased_mean _ (run_cskew eps ops) = u /\
   ckurt_unbiased_mean _ (run_ckurt eps ops) = u).
Proof.
  intros eps ops l n Hf.
  destruct (cmean_obs eps _ l Hf (run_cmean_state eps ops Hf))
    as (A1 & A2 & A3 & A4).
  pose proof (run_cmean_state eps ops Hf) as Em.
  pose proof (run_cvar_state eps ops Hf) as Ev.
  pose proof (run_cskew_state eps ops Hf) as Es.
  fold l in Em, Ev, Es.
  unfold ckurt_size, ckurt_empty, ckurt_mean, ckurt_unbiased_mean.
  rewrite run_ckurt_super, Es.
  unfold cskew_size, cskew_empty, cskew_mean, cskew_unbiased_mean; cbn [cs_super].
  rewrite Ev.
  unfold cvar_size, cvar_empty, cvar_mean, cvar_unbiased_mean; cbn [cv_super].
  rewrite <- Em; auto 10.
Qed.

(** @ex C01_cumulative_mean_ex: a history with a clear in the middle. *)
Lemma c01_ex :
  let ops := [Push 7; Clear; Push 1; Push 2; Push 6] in
  fits (since_clear ops) /\ since_clear ops = [1; 2; 6] /\
  (2 <= length (since_clear ops))%nat /\ mean (since_clear ops) = 3.
Proof.
  cbv zeta; split; [vm_compute; reflexivity|].
  split; [reflexivity|]; split; [cbn; lia|].
  unfold mean, card; cbn; lra.
Qed.

(** ** C02 *)

(** @prop C02_cumulative_variance: variance() is the population variance and
    unbiased_variance() the sample variance of the values since the last
    clear(); neither is negative. *)
Lemma c02 : forall (eps : R) (ops : list (op R)),
  let l := since_clear ops in
  fits l ->
  (l <> [] ->
   cvar_variance _ (run_cvar eps ops) = Fin (variance l) /\
   cskew_variance _ (run_cskew eps ops) = Fin (variance l) /\
   ckurt_variance _ (run_ckurt eps ops) = Fin (variance l) /\
   0 <= variance l) /\
  ((2 <= length l)%nat ->
   cvar_unbiased_variance _ (run_cvar eps ops) = Fin (sample_variance l) /\
   cskew_unbiased_variance _ (run_cskew eps ops) = Fin (sample_variance l) /\
   ckurt_unbiased_variance _ (run_ckurt eps ops) = Fin (sample_variance l) /\
   0 <= sample_variance l).
Proof.
  intros eps ops l Hf.
  destruct (cvar_obs eps _ l Hf (run_cvar_state eps ops Hf)) as (A1 & A2).
  pose proof (run_cvar_state eps ops Hf) as Ev.
  pose proof (run_cskew_state eps ops Hf) as Es.
  fold l in Ev, Es.
  unfold ckurt_variance, ckurt_unbiased_variance.
  rewrite run_ckurt_super, Es.
  unfold cskew_variance, cskew_unbiased_variance; cbn [cs_super].
  rewrite <- Ev; split; intros H.
  - pose proof (variance_nonneg l); auto.
  - pose proof (sample_variance_nonneg l H); auto.
Qed.

(** @ex C02_cumulative_variance_ex: data with non-zero variance. *)
Lemma c02_ex :
  let ops := [Push 7; Clear; Push 1; Push 2; Push 6] in
  fits (since_clear ops) /\ since_clear ops <> [] /\
  variance (since_clear ops) = 14 / 3 /\ sample_variance (since_clear ops) = 7.
Proof.
  cbv zeta; split; [vm_compute; reflexivity|].
  split; [cbn; congruence|].
  unfold variance, sample_variance, csum, mean, card; cbn; split; field.
Qed.

(** ** C03 *)

(** @prop C03_cumulative_skewness_partial: skewness() is the biased sample
    skewness whenever the third central sum is at least epsilon; otherwise it is
    0. Missing for the full property: data with third central sum below
    epsilon, in particular all left-skewed data (see C03_..._refuted). *)
Lemma c03_partial : forall (eps : R) (ops : list (op R)),
  0 < eps ->
  let l := since_clear ops in
  fits l ->
  (eps <= csum 3 l ->
   cskew_skewness _ (run_cskew eps ops) = Fin (skewness l) /\
   ckurt_skewness _ (run_ckurt eps ops) = Fin (skewness l)) /\
  (csum 3 l < eps ->
   cskew_skewness _ (run_cskew eps ops) = Fin 0 /\
   ckurt_skewness _ (run_ckurt eps ops) = Fin 0).
Proof.
  intros eps ops He l Hf.
  pose proof (cskew_skewness_obs eps _ l He (run_cskew_state eps ops Hf)) as E.
  unfold ckurt_skewness; rewrite run_ckurt_super, E.
  split; intros H.
  - rewrite Rlt_bool_false by exact H; auto.
  - rewrite Rlt_bool_true by exact H; auto.
Qed.

(** @ex C03_cumulative_skewness_partial_ex: right-skewed data above epsilon. *)
Lemma c03_ex :
  let l := since_clear [Push 0; Push 0; Push 0; Push 4] in
  fits l /\ eps64 <= csum 3 l.
Proof.
  cbv zeta; split; [vm_compute; reflexivity|].
  unfold csum, mean, card, eps64; cbn; lra.
Qed.

(** @prop C03_cumulative_skewness_refuted: for every left-skewed data set the
    true skewness is negative but skewness() returns 0; such data exist. *)
Lemma c03_refuted :
  (forall ops : list (op R),
     let l := since_clear ops in
     fits l -> csum 3 l < 0 ->
     skewness l < 0 /\
     cskew_skewness _ (run_cskew eps64 ops) = Fin 0) /\
  (exists ops : list (op R),
     let l := since_clear ops in
     fits l /\ csum 3 l < 0 /\ 0 < variance l /\
     cskew_skewness _ (run_cskew eps64 ops) <> Fin (skewness l)).
Proof.
  assert (A : forall ops : list (op R),
     let l := since_clear ops in
     fits l -> csum 3 l < 0 ->
     skewness l < 0 /\
     cskew_skewness _ (run_cskew eps64 ops) = Fin 0).
  { intros ops l Hf H.
    assert (He : 0 < eps64) by (unfold eps64; lra).
    split.
    - assert (H2 : 0 < csum 2 l) by (apply csum_2_pos_of_3; lra).
      rewrite <- skewness_formula by exact H2.
      assert (Hl : l <> []) by (apply (csum_nonzero_nonempty 2); lra).
      pose proof (card_pos l Hl) as Hc.
      pose proof (sqrt_lt_R0 _ H2) as Hs.
      assert (Hq : 0 < sqrt (card l)) by (apply sqrt_lt_R0; lra).
      assert (Hd : 0 < / (sqrt (csum 2 l) * csum 2 l))
        by (apply Rinv_0_lt_compat, Rmult_lt_0_compat; lra).
      unfold Rdiv.
      replace (sqrt (card l) * csum 3 l * / (sqrt (csum 2 l) * csum 2 l))
        with (- (sqrt (card l) * (- csum 3 l) * / (sqrt (csum 2 l) * csum 2 l)))
        by ring.
      apply Ropp_lt_gt_0_contravar.
      apply Rmult_lt_0_compat; [|exact Hd].
      apply Rmult_lt_0_compat; lra.
    - apply (c03_partial eps64 ops He Hf); fold l; lra. }
  split; [exact A|].
  exists [Push 0; Push 1; Push 1; Push 1].
  cbv zeta.
  assert (Hf : fits (since_clear [Push 0; Push 1; Push 1; Push 1]))
    by (vm_compute; reflexivity).
  assert (H3 : csum 3 (since_clear [Push 0; Push 1; Push 1; Push 1]) < 0).
  { unfold csum, mean, card; cbn; lra. }
  destruct (A _ Hf H3) as [B1 B2].
  split; [exact Hf|]; split; [exact H3|]; split.
  - unfold variance, csum, mean, card; cbn; lra.
  - rewrite B2; intros E; injection E as E; lra.
Qed.

(** ** C04 *)

(** @prop C04_cumulative_kurtosis_partial: up to 2^32+1 values, kurtosis() is
    the biased sample kurtosis whenever the fourth central sum is at least
    epsilon, otherwise 0. Missing: more values (size_t wrap-around) and data of
    small scale. *)
Lemma c04_partial : forall (eps : R) (ops : list (op R)),
  0 < eps ->
  let l := since_clear ops in
  (N.of_nat (length l) <= 4294967297)%N ->
  (eps <= csum 4 l ->
   ckurt_kurtosis _ (run_ckurt eps ops) = Fin (kurtosis l)) /\
  (csum 4 l < eps ->
   ckurt_kurtosis _ (run_ckurt eps ops) = Fin 0).
Proof.
  intros eps ops He l Hn.
  pose proof (run_ckurt_state eps ops Hn) as E.
  pose proof (ckurt_kurtosis_obs eps _ _ He E) as E2; fold l in E2; rewrite E2.
  split; intros H.
  - rewrite Rlt_bool_false by exact H; auto.
  - rewrite Rlt_bool_true by exact H; auto.
Qed.

(** @ex C04_cumulative_kurtosis_partial_ex: ordinary data above epsilon. *)
Lemma c04_ex :
  let l := since_clear [Push 0; Push 0; Push 0; Push 4] in
  (N.of_nat (length l) <= 4294967297)%N /\ eps64 <= csum 4 l /\
  kurtosis l = 7 / 3.
Proof.
  cbv zeta; split; [vm_compute; discriminate|].
  unfold kurtosis, cmoment, csum, mean, card, eps64; cbn; split; [lra|field].
Qed.

Lemma mean_repeat0 n : mean (repeat 0 n) = 0.
Proof.
  unfold mean; rewrite (Rsum_constant 0).
  - unfold Rdiv; ring.
  - apply Forall_forall; intros x Hx; apply repeat_spec in Hx; auto.
Qed.

Lemma csum_repeat0 k n : csum (S k) (repeat 0 n) = 0.
Proof.
  apply (csum_constant k 0), Forall_forall; intros x Hx.
  apply repeat_spec in Hx; auto.
Qed.

Lemma card_repeat (x : R) n : card (repeat x n) = INR n.
Proof. unfold card; rewrite repeat_length; reflexivity. Qed.

Lemma INR_N_to_nat n : INR (N.to_nat n) = IZR (Z.of_N n).
Proof. rewrite INR_IZR_INZ, N_nat_Z; reflexivity. Qed.

(** @prop C04_cumulative_kurtosis_refuted: (1) after 2^32+2 values of which one
    is 1 and the others 0 the true kurtosis exceeds four billion, but the
    size_t product n*(n-3)+3 has wrapped and kurtosis() returns less than 2;
    (2) four values of small scale with kurtosis 7/3 give 0. *)
Lemma c04_refuted :
  (exists (ops : list (op R)) (k : R),
     let l := since_clear ops in
     fits l /\ eps64 <= csum 4 l /\
     ckurt_kurtosis _ (run_ckurt eps64 ops) = Fin k /\
     k < 2 /\ 4000000000 < kurtosis l) /\
  (exists (ops : list (op R)),
     let l := since_clear ops in
     fits l /\ 0 < variance l /\ kurtosis l = 7 / 3 /\
     ckurt_kurtosis _ (run_ckurt eps64 ops) = Fin 0).
Proof.
  split.
  - assert (Ex : exists n, N.of_nat n = 4294967297%N /\ INR n = 4294967297)
      by (exists (N.to_nat 4294967297); split; [apply N2Nat.id|apply INR_N_to_nat]).
    destruct Ex as (n0 & Hn0 & Hc0).
    set (l := repeat 0 n0 ++ [1]).
    assert (Hc : card l = 4294967298).
    { unfold l; rewrite card_snoc, card_repeat, Hc0; lra. }
    assert (H2 : csum 2 l = 4294967297 / 4294967298).
    { unfold l; rewrite csum_2_snoc, mean_repeat0, csum_repeat0, card_repeat, Hc0; field. }
    assert (H4 : csum 4 l =
      4294967297 * (4294967297 ^ 2 - 4294967297 + 1) / 4294967298 ^ 3).
    { unfold l; rewrite csum_4_snoc, mean_repeat0, !csum_repeat0, card_repeat, Hc0; field. }
    exists (pushes l), (4294967297 / 4294967297).
    cbv zeta; rewrite since_clear_pushes.
    split.
    { unfold fits, l; rewrite app_length, repeat_length; cbn [length].
      rewrite Nat2N.inj_add, Hn0; reflexivity. }
    split.
    { rewrite H4; unfold eps64; lra. }
    split; [|split].
    + unfold run_ckurt; rewrite run_rops by reflexivity.
      rewrite since_clear_pushes; unfold l.
      rewrite fins_app, fold_left_app.
      rewrite ckurt_exact
        by (rewrite repeat_length, Hn0; vm_compute; discriminate).
      rewrite mean_repeat0, !csum_repeat0, repeat_length, Hn0.
      cbn [fins map fold_left].
      unfold ckurt_push, cskew_push, cvar_push, cmean_push.
      cbn [ck_super ck_sum cs_super cs_sum cskew_size cskew_mean cvar_size
           cvar_mean cv_super cv_sum cmean_size cmean_mean cm_mean cm_count].
      replace (szadd 4294967297 1) with 4294967298%N by (vm_compute; reflexivity).
      replace (szadd (szmul 4294967298 (szsub 4294967298 3)) 3)
        with 4294967297%N by (vm_compute; reflexivity).
      replace (szsub 4294967298 1) with 4294967297%N by (vm_compute; reflexivity).
      unfold ckurt_kurtosis, ckurt_size, cskew_size, cvar_size, cmean_size.
      cbn [ck_super ck_sum cs_super cs_sum cv_super cv_sum cm_mean cm_count].
      cbn -[szsub eps64].
      rewrite !Req_bool_false by lra.
      cbn -[szsub eps64].
      rewrite Rlt_bool_false by (unfold eps64; lra).
      rewrite Req_bool_false by lra.
      f_equal; field.
    + lra.
    + rewrite <- kurtosis_formula by (rewrite H2; lra).
      rewrite Hc, H2, H4.
      apply Rminus_lt; lra.
  - exists (pushes [0; 0; 0; / 67108864]).
    cbv zeta; rewrite since_clear_pushes.
    split; [vm_compute; reflexivity|].
    split; [unfold variance, csum, mean, card; cbn; lra|].
    split; [unfold kurtosis, cmoment, csum, mean, card; cbn; field|].
    assert (He : 0 < eps64) by (unfold eps64; lra).
    assert (Hn : (N.of_nat (length (since_clear (pushes [0; 0; 0; / 67108864]%R)))
                 <= 4294967297)%N) by (rewrite since_clear_pushes; vm_compute; discriminate).
    apply (c04_partial eps64 _ He Hn).
    rewrite since_clear_pushes; unfold csum, mean, card, eps64; cbn; lra.
Qed.

(** ** C05 *)

(** @prop C05_bias_corrected_partial: up to 2^32 values, unbiased_skewness() and
    unbiased_kurtosis() always return a finite number: the bias-corrected
    statistic when there are enough values and the central sum reaches epsilon,
    otherwise 0; the divisors count-2 and count-3 are never zero when used.
    Missing: more than 2^32 values (wrap-around) and the epsilon cut-off. *)
Lemma c05_partial : forall (eps : R) (ops : list (op R)),
  0 < eps ->
  let l := since_clear ops in
  (N.of_nat (length l) <= 4294967296)%N ->
  (csum 3 l < eps -> cskew_unbiased_skewness _ (run_cskew eps ops) = Fin 0) /\
  (eps <= csum 3 l ->
   (3 <= length l)%nat /\
   cskew_unbiased_skewness _ (run_cskew eps ops) = Fin (sample_skewness l) /\
   ckurt_unbiased_skewness _ (run_ckurt eps ops) = Fin (sample_skewness l)) /\
  ((length l < 4)%nat \/ csum 4 l < eps ->
   ckurt_unbiased_kurtosis _ (run_ckurt eps ops) = Fin 0) /\
  ((4 <= length l)%nat -> eps <= csum 4 l ->
   ckurt_unbiased_kurtosis _ (run_ckurt eps ops) = Fin (sample_kurtosis l)).
Proof.
  intros eps ops He l Hn.
  assert (Hf : fits l) by (unfold fits, szmod; lia).
  destruct (cskew_unbiased_obs eps _ l He Hn (run_cskew_state eps ops Hf)) as (A & B).
  assert (Hk : (N.of_nat (length l) <= kurt_limit)%N) by (unfold kurt_limit; lia).
  pose proof (run_ckurt_state eps ops Hk) as E; fold l in E.
  pose proof (ckurt_unbiased_obs eps _ l He Hk E) as K.
  rewrite K; clear K E.
  unfold ckurt_unbiased_skewness; rewrite run_ckurt_super, A; clear A.
  repeat split.
  - intros H; rewrite Rlt_bool_true by exact H; reflexivity.
  - auto.
  - rewrite Rlt_bool_false by assumption; reflexivity.
  - rewrite Rlt_bool_false by assumption; reflexivity.
  - intros [H|H].
    + destruct (N.ltb_spec (N.of_nat (length l)) 4); [reflexivity|lia].
    + destruct (N.of_nat (length l) <? 4)%N; [reflexivity|].
      rewrite Rlt_bool_true by exact H; reflexivity.
  - intros H4 H; destruct (N.ltb_spec (N.of_nat (length l)) 4); [lia|].
    rewrite Rlt_bool_false by exact H; reflexivity.
Qed.

(** @ex C05_bias_corrected_partial_ex: four values reaching both cut-offs. *)
Lemma c05_ex :
  let l := since_clear [Push 0; Push 0; Push 0; Push 4] in
  (N.of_nat (length l) <= 4294967296)%N /\ (4 <= length l)%nat /\
  eps64 <= csum 3 l /\ eps64 <= csum 4 l /\ sample_kurtosis l = 7.
Proof.
  cbv zeta; split; [vm_compute; discriminate|]; split; [cbn; lia|].
  unfold sample_kurtosis, kurtosis, cmoment, csum, mean, card, eps64; cbn.
  split; [lra|]; split; [lra|field].
Qed.

(** @prop C05_bias_corrected_refuted: after 2^32+1 values (one 1, the others 0)
    the product count*(count-1) wraps and unbiased_skewness() is smaller than
    the corrected skewness by a factor of more than 60000. *)
Lemma c05_refuted :
  exists (ops : list (op R)) (u : R),
    let l := since_clear ops in
    fits l /\ eps64 <= csum 3 l /\
    cskew_unbiased_skewness _ (run_cskew eps64 ops) = Fin u /\
    0 < u /\ 60000 * u < sample_skewness l.
Proof.
  assert (Ex : exists n, N.of_nat n = 4294967296%N /\ INR n = 4294967296)
    by (exists (N.to_nat 4294967296); split; [apply N2Nat.id|apply INR_N_to_nat]).
  destruct Ex as (n0 & Hn0 & Hc0).
  set (l := repeat 0 n0 ++ [1]).
  assert (Hlen : N.of_nat (length l) = 4294967297%N).
  { unfold l; rewrite app_length, repeat_length; cbn [length].
    rewrite Nat2N.inj_add, Hn0; reflexivity. }
  assert (Hc : card l = 4294967297).
  { unfold l; rewrite card_snoc, card_repeat, Hc0; lra. }
  assert (H2 : csum 2 l = 4294967296 / 4294967297).
  { unfold l; rewrite csum_2_snoc, mean_repeat0, csum_repeat0, card_repeat, Hc0; field. }
  assert (H3 : csum 3 l = 4294967296 * (4294967296 - 1) / 4294967297 ^ 2).
  { unfold l; rewrite csum_3_snoc, mean_repeat0, !csum_repeat0, card_repeat, Hc0; field. }
  assert (Hf : fits l) by (unfold fits; rewrite Hlen; reflexivity).
  assert (He : 0 < eps64) by (unfold eps64; lra).
  assert (Hge : eps64 <= csum 3 l) by (rewrite H3; unfold eps64; lra).
  assert (Hsk : 0 < skewness l).
  { rewrite <- skewness_formula by (rewrite H2; lra).
    assert (0 < csum 2 l) as P2 by (rewrite H2; lra).
    assert (0 < csum 3 l) as P3 by (rewrite H3; lra).
    pose proof (sqrt_lt_R0 _ P2) as Q2.
    assert (0 < sqrt (card l)) as Qc by (apply sqrt_lt_R0; lra).
    apply Rmult_lt_0_compat; [apply Rmult_lt_0_compat; lra|].
    apply Rinv_0_lt_compat, Rmult_lt_0_compat; lra. }
  assert (S16 : sqrt 4294967296 = 65536)
    by (replace 4294967296 with (65536 * 65536) by lra; apply sqrt_square; lra).
  exists (pushes l), (skewness l * 65536 / 4294967295).
  cbv zeta; rewrite since_clear_pushes.
  split; [exact Hf|]; split; [exact Hge|]; split; [|split].
  - pose proof (run_cskew_state eps64 (pushes l)) as E.
    rewrite since_clear_pushes in E; specialize (E Hf).
    pose proof (cskew_skewness_obs eps64 _ l He E) as Es.
    rewrite Rlt_bool_false in Es by exact Hge.
    unfold cskew_unbiased_skewness; rewrite Es.
    rewrite E; cbn [cskew_size cvar_size cmean_size cs_super cv_super cm_count cs_sum].
    rewrite Hlen.
    replace (szmul 4294967297 (szsub 4294967297 1)) with 4294967296%N
      by (vm_compute; reflexivity).
    replace (szsub 4294967297 2) with 4294967295%N by (vm_compute; reflexivity).
    unfold nlt, nmul, ndiv, nsqrt, nofsz; cbn [exact xnum xcmp neps].
    rewrite Rlt_bool_false by exact Hge.
    replace (4294967297 <? 2)%N with false by reflexivity.
    cbn [Z.of_N]; rewrite xsqrt_fin by lra.
    rewrite S16; cbn [xlift2]; rewrite xdiv_fin by lra; reflexivity.
  - apply Rmult_lt_0_compat; [lra|apply Rinv_0_lt_compat; lra].
  - unfold sample_skewness; rewrite Hc.
    assert (Hs : 4294967296 <= sqrt (4294967297 * (4294967297 - 1))).
    { rewrite <- (sqrt_square 4294967296) at 1 by lra.
      apply sqrt_le_1; lra. }
    replace (sqrt (4294967297 * (4294967297 - 1)) / (4294967297 - 2) * skewness l)
      with (sqrt (4294967297 * (4294967297 - 1)) * (skewness l / 4294967295))
      by (field).
    replace (60000 * (skewness l * 65536 / 4294967295))
      with (60000 * 65536 * (skewness l / 4294967295)) by field.
    apply Rmult_lt_compat_r; [|lra].
    apply Rmult_lt_0_compat; [lra|apply Rinv_0_lt_compat; lra].
Qed.

(** ** C06 *)

(** @prop C06_cumulative_covariance: variance() of cumulative::covariance is the
    population covariance (0 when empty), unbiased_variance() the sample
    covariance (0 below two points); size() counts the points and its internal
    assertion holds. *)
Lemma c06 : forall (eps : R) (ops : list (op (R * R))),
  let l := since_clear ops in
  fits l ->
  ccov_size _ (run_ccov eps ops) = N.of_nat (length l) /\
  ccov_size_assert _ (run_ccov eps ops) = true /\
  ccov_variance _ (run_ccov eps ops) =
    Fin (match l with [] => 0 | _ => covariance l end) /\
  ccov_unbiased_variance _ (run_ccov eps ops) =
    Fin (match l with [] | [_] => 0 | _ => sample_covariance l end).
Proof.
  intros eps ops l Hf.
  apply (ccov_obs eps _ l Hf (run_ccov_state eps ops Hf)).
Qed.

(** @ex C06_cumulative_covariance_ex: three points after a clear. *)
Lemma c06_ex :
  let l := since_clear [Push (9, 9); Clear; Push (1, 2); Push (2, 4); Push (6, 0)] in
  fits l /\ covariance l = -8 / 3 /\ sample_covariance l = -4.
Proof.
  cbv zeta; split; [vm_compute; reflexivity|].
  unfold covariance, sample_covariance, cosum, xs, ys, mean, card; cbn; split; field.
Qed.

(** ** C07 *)

(** The covariance reported after pushing a list of points. *)
Definition cov_of (eps : R) (l : list (R * R)) : exact eps :=
  ccov_variance _ (run_ccov eps (pushes l)).

Lemma cov_of_spec eps l : fits l ->
  cov_of eps l = Fin (match l with [] => 0 | _ => covariance l end).
Proof.
  intros Hf; unfold cov_of.
  pose proof (c06 eps (pushes l)) as H; cbv zeta in H.
  rewrite since_clear_pushes in H.
  destruct (H Hf) as (_ & _ & E & _); exact E.
Qed.

Lemma cov_of_cosum eps l : fits l -> cov_of eps l = Fin (cosum l / card l).
Proof.
  intros Hf; rewrite cov_of_spec by exact Hf.
  destruct l; [|reflexivity].
  unfold cosum; cbn; f_equal; unfold Rdiv; ring.
Qed.

Lemma fits_map {A B} (f : A -> B) l : fits l -> fits (map f l).
Proof. unfold fits; rewrite map_length; auto. Qed.

(** @prop C07_covariance_algebra: for every list of points (x,y,z) pushed as
    pairs: covariance is symmetric, additive and homogeneous in an argument,
    invariant under offsets, zero against a constant, and the covariance of a
    stream with itself is its variance. *)
Lemma c07 : forall (eps : R) (l : list (R * R)) (t : list (R * R * R)) (a b c d : R),
  fits l -> fits t ->
  let cov := fun l => ccov_variance _ (run_ccov eps (pushes l)) in
  cov (map (fun p => (snd p, fst p)) l) = cov l /\
  (forall k, cov l = Fin k ->
     cov (map (fun p => (a * fst p + c, b * snd p + d)) l) = Fin (a * b * k)) /\
  (forall k1 k2,
     cov (map (fun p => (fst (fst p), snd p)) t) = Fin k1 ->
     cov (map (fun p => (snd (fst p), snd p)) t) = Fin k2 ->
     cov (map (fun p => (fst (fst p) + snd (fst p), snd p)) t) = Fin (k1 + k2)) /\
  cov (map (fun p => (fst p, c)) l) = Fin 0 /\
  (l <> [] ->
   cov (map (fun p => (fst p, fst p)) l) =
   cvar_variance _ (run_cvar eps (pushes (map fst l)))).
Proof.
  intros eps l t a b c d Hl Ht cov.
  change cov with (cov_of eps); clear cov.
  rewrite !cov_of_cosum by (auto using fits_map).
  rewrite !card_map; repeat split.
  - f_equal; f_equal; apply cosum_swap.
  - intros k Hk; injection Hk as Hk; f_equal.
    rewrite cosum_affine, <- Hk; unfold Rdiv; ring.
  - intros k1 k2 H1 H2; injection H1 as H1; injection H2 as H2; f_equal.
    rewrite cosum_add, <- H1, <- H2; unfold Rdiv; ring.
  - f_equal; replace (map (fun p => (fst p, c)) l)
      with (map (fun p => (1 * fst p + 0, 0 * snd p + c)) l)
      by (apply map_ext; intros p; f_equal; ring).
    rewrite cosum_affine; unfold Rdiv; ring.
  - intros Hne.
    assert (Hf : fits (map fst l)) by (apply fits_map, Hl).
    pose proof (c02 eps (pushes (map fst l))) as H; cbv zeta in H.
    rewrite since_clear_pushes in H.
    assert (Hne' : map fst l <> []) by (destruct l; cbn; congruence).
    destruct (H Hf) as [H1 _]; destruct (H1 Hne') as (-> & _).
    f_equal; unfold variance; rewrite card_map; f_equal.
    rewrite <- cosum_diag, map_map; reflexivity.
Qed.

(** @ex C07_covariance_algebra_ex: the hypotheses hold of concrete lists and
    the covariances involved are not zero. *)
Lemma c07_ex :
  fits [(1, 2); (2, 4); (6, 0)] /\ fits [((1, 5), 2); ((2, 3), 4)] /\
  ccov_variance _ (run_ccov eps64 (pushes [(1, 2); (2, 4); (6, 0)])) = Fin (-8 / 3).
Proof.
  split; [vm_compute; reflexivity|]; split; [vm_compute; reflexivity|].
  fold (cov_of eps64 [(1, 2); (2, 4); (6, 0)]).
  rewrite cov_of_cosum by (vm_compute; reflexivity).
  f_equal; unfold cosum, xs, ys, mean, card; cbn; field.
Qed.

(** ** C08 *)

(** @prop C08_correlation_partial: for every non-empty history value() lies in
    [-1,1]; it is Pearson's coefficient when the product of the variances is at
    least epsilon, and 1 otherwise. Missing: small-scale data and rounding (see
    the two refutations). *)
Lemma c08_partial : forall (eps : R) (ops : list (op (R * R))),
  0 < eps ->
  let l := since_clear ops in
  fits l -> l <> [] ->
  (exists r, ccorr_value _ (run_ccorr eps ops) = Fin r /\ -1 <= r <= 1) /\
  (eps <= variance (xs l) * variance (ys l) ->
   ccorr_value _ (run_ccorr eps ops) = Fin (pearson l)) /\
  (variance (xs l) * variance (ys l) < eps ->
   ccorr_value _ (run_ccorr eps ops) = Fin 1) /\
  ccorr_size _ (run_ccorr eps ops) = N.of_nat (length l).
Proof.
  intros eps ops He l Hf Hl.
  pose proof (ccorr_obs eps ops He Hf Hl) as E; cbv zeta in E; fold l in E; rewrite E.
  split; [|split; [|split]].
  - destruct (Rlt_bool _ eps); eexists; split; try reflexivity; [lra|apply pearson_bounds].
  - intros H; rewrite Rlt_bool_false by exact H; reflexivity.
  - intros H; rewrite Rlt_bool_true by exact H; reflexivity.
  - pose proof (run_ccorr_state eps ops Hf) as E'; cbv zeta in E'; rewrite E'; reflexivity.
Qed.

(** @ex C08_correlation_partial_ex: points with variance product above epsilon
    and correlation strictly between -1 and 0. *)
Lemma c08_ex :
  let l := since_clear [Push (1, 2); Push (2, 4); Push (6, 0)] in
  fits l /\ l <> [] /\ eps64 <= variance (xs l) * variance (ys l) /\ covariance l < 0.
Proof.
  cbv zeta; split; [vm_compute; reflexivity|]; split; [cbn; congruence|].
  unfold variance, covariance, cosum, csum, xs, ys, mean, card, eps64; cbn; split; lra.
Qed.

(** @prop C08_correlation_refuted: two perfectly anti-correlated points of
    small scale (Pearson coefficient -1) give +1. *)
Lemma c08_refuted :
  exists ops : list (op (R * R)),
    let l := since_clear ops in
    fits l /\ 0 < variance (xs l) /\ 0 < variance (ys l) /\
    pearson l = -1 /\
    ccorr_value _ (run_ccorr eps64 ops) = Fin 1.
Proof.
  exists (pushes [(0, / 16384); (/ 16384, 0)]); cbv zeta.
  rewrite since_clear_pushes.
  set (l := [(0, / 16384); (/ 16384, 0)]).
  assert (Hf : fits l) by (vm_compute; reflexivity).
  assert (Vx : variance (xs l) = / 32768 * / 32768).
  { unfold l, variance, csum, xs, mean, card; cbn; field. }
  assert (Vy : variance (ys l) = / 32768 * / 32768).
  { unfold l, variance, csum, ys, mean, card; cbn; field. }
  assert (Cv : covariance l = - (/ 32768 * / 32768)).
  { unfold l, covariance, cosum, xs, ys, mean, card; cbn; field. }
  split; [exact Hf|]; rewrite Vx, Vy; split; [lra|]; split; [lra|]; split.
  - unfold pearson; rewrite Vx, Vy, Cv, sqrt_square by lra; field.
  - assert (He : 0 < eps64) by (unfold eps64; lra).
    pose proof (c08_partial eps64 (pushes l) He) as H; cbv zeta in H.
    rewrite since_clear_pushes in H.
    destruct (H Hf ltac:(unfold l; congruence)) as (_ & _ & H1 & _).
    apply H1; rewrite Vx, Vy; unfold eps64; lra.
Qed.

(** @prop C08_correlation_binary64_refuted: in binary64 the three collinear
    points (8,24), (1,3), (2,6) have a reported correlation greater than 1. *)
Lemma c08_b64 :
  exists l : list (b64num * b64num),
    l = [(b64_of_Z 8, b64_of_Z 24); (b64_of_Z 1, b64_of_Z 3); (b64_of_Z 2, b64_of_Z 6)] /\
    nlt (n1 : b64num)
        (ccorr_value b64num (fold_left (ccorr_push b64num) l (ccorr_init b64num)))
    = true.
Proof. eexists; split; [reflexivity|vm_compute; reflexivity]. Qed.

(** ** C09 *)

(** @prop C09_cumulative_regression: for every non-empty history slope() and
    at() describe a line a + b*x that minimises the sum of squared residuals
    over all lines; it is the only minimiser unless all x are equal, in which
    case slope() is 0 and at() is the mean of y everywhere; collinear points are
    recovered exactly. *)
Lemma c09 : forall (eps : R) (ops : list (op (R * R))),
  let l := since_clear ops in
  let s := run_creg eps ops in
  fits l -> l <> [] ->
  creg_size _ s = N.of_nat (length l) /\ creg_size_assert _ s = true /\
  exists a b,
    creg_slope _ s = Fin b /\
    (forall p, creg_at _ s (Fin p) = Fin (a + b * p)) /\
    (forall a' b', sse a b l <= sse a' b' l) /\
    (forall c, constant c (xs l) -> b = 0 /\ a = mean (ys l)) /\
    ((forall c, ~ constant c (xs l)) ->
     (forall a' b', sse a' b' l = sse a b l -> a' = a /\ b' = b) /\
     (forall a' b', collinear a' b' l -> a' = a /\ b' = b)).
Proof.
  intros eps ops l s Hf Hl.
  destruct (creg_obs eps ops Hf Hl) as (E1 & E2 & E3).
  fold s in E1, E2, E3; fold l in E1, E2, E3.
  split; [exact E1|]; split.
  { unfold s; pose proof (run_creg_state eps ops Hf) as E; cbv zeta in E; rewrite E.
    apply N.eqb_refl. }
  exists (ls_intercept l), (ls_slope l).
  split; [exact E2|]; split; [exact E3|]; split; [apply ls_optimal|]; split.
  - intros c Hc; assert (H0 : csum 2 (xs l) = 0) by (apply (csum_constant 1 c), Hc).
    unfold ls_intercept, ls_slope; destruct (Req_EM_T _ _); [|contradiction].
    split; [reflexivity|ring].
  - intros Hnc; assert (H0 : csum 2 (xs l) <> 0)
      by (intros H; apply (Hnc (mean (xs l))), csum_2_zero, H).
    split.
    + intros a' b' H; apply ls_unique; auto.
    + intros a' b' H; destruct (ls_collinear a' b' l H0 H); auto.
Qed.

(** @ex C09_cumulative_regression_ex: non-constant x, not collinear. *)
Lemma c09_ex :
  let l := since_clear [Push (0, 0); Push (1, 3); Push (2, 0)] in
  fits l /\ l <> [] /\ (forall c, ~ constant c (xs l)) /\
  (forall a b, ~ collinear a b l).
Proof.
  cbv zeta; split; [vm_compute; reflexivity|]; split; [cbn; congruence|]; split.
  - intros c H; unfold constant in H; rewrite Forall_forall in H.
    pose proof (H 0 ltac:(cbn; auto)); pose proof (H 1 ltac:(cbn; auto)); lra.
  - intros a b H; unfold collinear in H; rewrite Forall_forall in H.
    pose proof (H (0, 0) ltac:(cbn; auto)) as A0.
    pose proof (H (1, 3) ltac:(cbn; auto)) as A1.
    pose proof (H (2, 0) ltac:(cbn; auto)) as A2.
    cbn in A0, A1, A2; lra.
Qed.

(** ** C10 *)

(** @prop C10_trend: value() is 3*mean - 2*(mean of the running means); on an
    arithmetic progression of any length, start and step it is exactly the last
    value pushed. *)
Lemma c10 : forall (eps : R) (ops : list (op R)),
  let l := since_clear ops in
  fits l ->
  ctrend_size _ (run_ctrend eps ops) = N.of_nat (length l) /\
  ctrend_value _ (run_ctrend eps ops) =
    Fin (3 * mean l - 2 * mean (running_means l)) /\
  (forall a st n,
     l = map (fun i => a + st * INR i) (seq 0 (S n)) ->
     ctrend_value _ (run_ctrend eps ops) = Fin (a + st * INR n)).
Proof.
  intros eps ops l Hf.
  destruct (ctrend_obs eps ops Hf) as (E1 & E2); fold l in E1, E2.
  split; [exact E1|]; split; [exact E2|].
  intros a st n Hl; rewrite E2; f_equal.
  fold (progression a st (S n)) in Hl; rewrite Hl.
  rewrite progression_mean, progression_running; field.
Qed.

(** @ex C10_trend_ex: the progression 5, 8, 11, 14 after a clear. *)
Lemma c10_ex :
  let l := since_clear [Push 9; Clear; Push 5; Push 8; Push 11; Push 14] in
  fits l /\ l = map (fun i => 5 + 3 * INR i) (seq 0 4).
Proof.
  cbv zeta; split; [vm_compute; reflexivity|].
  cbn; repeat (f_equal; try lra).
Qed.

(** ** C11 *)

(** @prop C11_order_irrelevant_partial: in exact arithmetic permuting the data
    does not change the state of a cumulative mean, variance, skewness,
    kurtosis (up to 2^32+1 values), covariance, correlation or regression
    filter, hence no observable. Missing: floating-point, where it is false
    (C11_..._refuted). *)
Lemma c11_partial : forall (eps : R) (l1 l2 : list R) (p1 p2 : list (R * R)),
  fits l1 -> fits p1 -> Permutation l1 l2 -> Permutation p1 p2 ->
  run_cmean eps (pushes l1) = run_cmean eps (pushes l2) /\
  run_cvar eps (pushes l1) = run_cvar eps (pushes l2) /\
  run_cskew eps (pushes l1) = run_cskew eps (pushes l2) /\
  ((N.of_nat (length l1) <= 4294967297)%N ->
   run_ckurt eps (pushes l1) = run_ckurt eps (pushes l2)) /\
  run_ccov eps (pushes p1) = run_ccov eps (pushes p2) /\
  run_ccorr eps (pushes p1) = run_ccorr eps (pushes p2) /\
  run_creg eps (pushes p1) = run_creg eps (pushes p2).
Proof.
  intros eps l1 l2 p1 p2 Hf1 Hg1 HP HQ.
  assert (Hf2 : fits l2) by (unfold fits; rewrite <- (Permutation_length HP); exact Hf1).
  assert (Hg2 : fits p2) by (unfold fits; rewrite <- (Permutation_length HQ); exact Hg1).
  pose proof (mean_perm _ _ HP) as M.
  pose proof (Permutation_length HP) as L.
  pose proof (csum_perm 2 _ _ HP) as C2.
  pose proof (csum_perm 3 _ _ HP) as C3.
  pose proof (csum_perm 4 _ _ HP) as C4.
  assert (HX : Permutation (xs p1) (xs p2)) by (apply Permutation_map, HQ).
  assert (HY : Permutation (ys p1) (ys p2)) by (apply Permutation_map, HQ).
  pose proof (mean_perm _ _ HX) as MX.
  pose proof (mean_perm _ _ HY) as MY.
  pose proof (csum_perm 2 _ _ HX) as CX.
  pose proof (csum_perm 2 _ _ HY) as CY.
  pose proof (cosum_perm _ _ HQ) as CO.
  pose proof (Permutation_length HQ) as LQ.
  split; [|split; [|split; [|split; [|split; [|split]]]]].
  - rewrite !run_cmean_state; rewrite ?since_clear_pushes; auto.
    rewrite M, L; reflexivity.
  - rewrite !run_cvar_state; rewrite ?since_clear_pushes; auto.
    rewrite M, L, C2; reflexivity.
  - rewrite !run_cskew_state; rewrite ?since_clear_pushes; auto.
    rewrite M, L, C2, C3; reflexivity.
  - intros Hk; unfold run_ckurt; rewrite !run_rops by reflexivity.
    rewrite !since_clear_pushes, !ckurt_exact
      by (unfold kurt_limit; try exact Hk; rewrite <- L; exact Hk).
    rewrite M, L, C2, C3, C4; reflexivity.
  - rewrite !run_ccov_state; rewrite ?since_clear_pushes; auto.
    rewrite MX, MY, LQ, CO; reflexivity.
  - pose proof (run_ccorr_state eps (pushes p1)) as E1.
    pose proof (run_ccorr_state eps (pushes p2)) as E2.
    cbv zeta in E1, E2; rewrite since_clear_pushes in E1, E2.
    rewrite E1, E2, MX, MY, LQ, CO, CX, CY by auto; reflexivity.
  - pose proof (run_creg_state eps (pushes p1)) as E1.
    pose proof (run_creg_state eps (pushes p2)) as E2.
    cbv zeta in E1, E2; rewrite since_clear_pushes in E1, E2.
    rewrite E1, E2, MX, MY, LQ, CO, CX, CY by auto; reflexivity.
Qed.

(** @ex C11_order_irrelevant_partial_ex: a non-trivial permutation. *)
Lemma c11_ex :
  fits [1; 2; 3] /\ fits [(1, 2); (3, 4)] /\
  Permutation [1; 2; 3] [3; 1; 2] /\ Permutation [(1, 2); (3, 4)] [(3, 4); (1, 2)].
Proof.
  split; [vm_compute; reflexivity|]; split; [vm_compute; reflexivity|]; split.
  - apply Permutation_sym, Permutation_cons_app with (l1 := [1; 2]) (l2 := []).
    rewrite app_nil_r; apply Permutation_refl.
  - apply perm_swap.
Qed.

(** @prop C11_order_irrelevant_refuted: in binary64 the mean of 0,0,1 depends on
    the order in which they are pushed. *)
Lemma c11_refuted :
  exists l1 l2 : list b64num,
    Permutation l1 l2 /\
    neq (cmean_mean b64num (fold_left (cmean_push b64num) l1 (cmean_init b64num)))
        (cmean_mean b64num (fold_left (cmean_push b64num) l2 (cmean_init b64num)))
    = false.
Proof.
  exists [b64_of_Z 0; b64_of_Z 0; b64_of_Z 1], [b64_of_Z 0; b64_of_Z 1; b64_of_Z 0].
  split; [apply perm_skip, perm_swap|vm_compute; reflexivity].
Qed.

(** ** C14 *)

(** @prop C14_cumulative_clear: for every arithmetic, a cumulative filter that
    is cleared after any history and then used further is in exactly the same
    state as a new filter used the same way. *)
Lemma c14 : forall (F : num) (h1 h2 : list (op F)) (p1 p2 : list (op (F * F))),
  run (cmean_push F) (cmean_clear F) (cmean_init F) (h1 ++ Clear :: h2) =
  run (cmean_push F) (cmean_clear F) (cmean_init F) h2 /\
  run (cvar_push F) (cvar_clear F) (cvar_init F) (h1 ++ Clear :: h2) =
  run (cvar_push F) (cvar_clear F) (cvar_init F) h2 /\
  run (cskew_push F) (cskew_clear F) (cskew_init F) (h1 ++ Clear :: h2) =
  run (cskew_push F) (cskew_clear F) (cskew_init F) h2 /\
  run (ckurt_push F) (ckurt_clear F) (ckurt_init F) (h1 ++ Clear :: h2) =
  run (ckurt_push F) (ckurt_clear F) (ckurt_init F) h2 /\
  run (ctrend_push F) (ctrend_clear F) (ctrend_init F) (h1 ++ Clear :: h2) =
  run (ctrend_push F) (ctrend_clear F) (ctrend_init F) h2 /\
  run (ccov_push F) (ccov_clear F) (ccov_init F) (p1 ++ Clear :: p2) =
  run (ccov_push F) (ccov_clear F) (ccov_init F) p2 /\
  run (ccorr_push F) (ccorr_clear F) (ccorr_init F) (p1 ++ Clear :: p2) =
  run (ccorr_push F) (ccorr_clear F) (ccorr_init F) p2 /\
  run (creg_push F) (creg_clear F) (creg_init F) (p1 ++ Clear :: p2) =
  run (creg_push F) (creg_clear F) (creg_init F) p2.
Proof.
  intros F h1 h2 p1 p2; repeat split; rewrite run_app; reflexivity.
Qed.

(** @ex C14_cumulative_clear_ex: clearing matters: without it the state
    differs (binary64). *)
Lemma c14_ex :
  cmean_mean b64num (run (cmean_push b64num) (cmean_clear b64num) (cmean_init b64num)
     [Push (b64_of_Z 5); Clear; Push (b64_of_Z 1)]) = b64_of_Z 1 /\
  cmean_mean b64num (run (cmean_push b64num) (cmean_clear b64num) (cmean_init b64num)
     [Push (b64_of_Z 5); Push (b64_of_Z 1)]) = b64_of_Z 3.
Proof. split; vm_compute; reflexivity. Qed.
