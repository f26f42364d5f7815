(** * Claim C103: small errors in the data cause small errors in the results *)

From Coq Require Import Reals ZArith NArith Bool List QArith.
From Coq Require Import Floats.SpecFloat.
From Verif Require Import Arith History SpecStats SpecImpulse SpecSensitivity StatsLemmas Cumulative Window Interim Decay Impulse Psquare
  ExactRuns WindowRuns InterimRuns DecayRuns ImpulseRuns PsquareRuns.
Import ListNotations.
Local Open Scope R_scope.
(* @end-header *)
From Coq Require Import Lia Lra Psatz.
From Flocq Require Import Core.Raux.
From Verif Require Import SpecBlocks SpecDecay SpecMonotone SpecPsquare HistoryLemmas StatsLemmas BlockLemmas InterimStats ImpulseProofs
  Scaling Monotone InequalityProofs DecayProofs SensitivityProofs.
From Verif Require Import WindowProofs.
From Verif Require CumulativeStats WindowStats Forgetting ClaimsCumulative ClaimsWindow ClaimsInterim ClaimsDecay ClaimsImpulse ClaimsPsquare ClaimsMonotone.

Lemma nearby_side d l l' : nearby d l l' -> (l = [] -> l' = []) /\ (l <> [] -> l' <> []).
Proof. intros H. destruct H; split; congruence. Qed.

Lemma nearby2_side d e l l' : nearby2 d e l l' -> (l = [] -> l' = []) /\ (l <> [] -> l' <> []).
Proof. intros H. destruct H; split; congruence. Qed.

Lemma fits_near {A} (r : A -> A -> Prop) l l' : Forall2 r l l' -> fits l -> fits l'.
Proof. intros H. unfold fits. rewrite (Forall2_len _ _ _ H). auto. Qed.

Lemma card_near d l l' : nearby d l l' -> card l' = card l.
Proof. intros H. unfold card. rewrite (Forall2_len _ _ _ H). reflexivity. Qed.

Lemma imean_value_near d W l l' : (0 < W)%nat -> nearby d l l' -> l <> [] ->
  Rabs (imean_value W l - imean_value W l') <= d.
Proof.
  intros HW H N. pose proof (cur_block_near d W _ _ H) as C. pose proof (prev_block_near d W _ _ H) as P.
  pose proof (card_near _ _ _ C) as EC.
  assert (NC : cur_block W l <> []).
  { intros E. pose proof (cur_block_pos W HW l N) as L. rewrite E in L. cbn in L. lia. }
  unfold imean_value. pose proof (cur_block_le W HW l) as LE. apply le_INR in LE. fold (card (cur_block W l)) in LE.
  pose proof (card_pos _ NC) as CP. rewrite EC.
  destruct (prev_block W l) as [|x p] eqn:E1; inversion P as [|? x' ? p' Hx Hp E2 E3]; subst.
  - apply mean_near; assumption.
  - cbv zeta. unfold wavg. apply blend_near; try lra.
    + apply mean_near; [constructor; assumption|discriminate].
    + apply mean_near; assumption.
Qed.

Lemma ivar_value_near d W l l' : (0 < W)%nat -> nearby d l l' -> l <> [] ->
  0 <= ivar_value W l /\ 0 <= ivar_value W l' /\ Rabs (sqrt (ivar_value W l) - sqrt (ivar_value W l')) <= d.
Proof.
  intros HW H N. pose proof (cur_block_near d W _ _ H) as C. pose proof (prev_block_near d W _ _ H) as P.
  pose proof (card_near _ _ _ C) as EC. destruct (nearby_ne d l l' H N) as (_ & _ & D0).
  assert (NC : cur_block W l <> []).
  { intros E. pose proof (cur_block_pos W HW l N) as L. rewrite E in L. cbn in L. lia. }
  pose proof (cur_block_le W HW l) as LE. apply le_INR in LE. fold (card (cur_block W l)) in LE.
  unfold ivar_value. revert EC LE C NC. generalize (cur_block W l) (cur_block W l'). intros c c' EC LE C NC.
  destruct P as [|x x' p p' Hx Hp].
  - split; [apply variance_nonneg|]. split; [apply variance_nonneg|]. apply deviation_near; assumption.
  - assert (DP : Rabs (sqrt (variance (x :: p)) - sqrt (variance (x' :: p'))) <= d) by (apply deviation_near; [constructor; assumption|discriminate]).
    destruct C as [|y y' c c' Hy Hc]; [congruence|]. destruct Hc as [|z z' c c' Hz Hc].
    + split; [apply variance_nonneg|]. split; [apply variance_nonneg|]. exact DP.
    + assert (DC : Rabs (sqrt (variance (y :: z :: c)) - sqrt (variance (y' :: z' :: c'))) <= d) by (apply deviation_near; [repeat (constructor; [assumption|]); assumption|discriminate]).
      cbv zeta. rewrite EC. unfold wavg.
      assert (K : 2 <= card (y :: z :: c)) by (rewrite !card_cons; unfold card; pose proof (pos_INR (length c)); lra).
      set (s := card (y :: z :: c)) in *.
      assert (W0 : 0 < (INR W - (s - 1)) ^ 2) by (apply pow_lt; lra).
      pose proof (variance_nonneg (x :: p)). pose proof (variance_nonneg (x' :: p')).
      pose proof (variance_nonneg (y :: z :: c)). pose proof (variance_nonneg (y' :: z' :: c')).
      assert (Q : forall a b, 0 <= a -> 0 <= b -> 0 <= ((INR W - (s - 1)) ^ 2 * a + 2 * (s - 1) * b) / ((INR W - (s - 1)) ^ 2 + 2 * (s - 1))).
      { intros a b A B. apply Rmult_le_pos; [apply Rplus_le_le_0_compat; apply Rmult_le_pos; lra|left; apply Rinv_0_lt_compat; lra]. }
      split; [apply Q; assumption|]. split; [apply Q; assumption|].
      apply blend_roots; try assumption; lra.
Qed.

Lemma running_near d p p' l l' : nearby d p p' -> nearby d l l' ->
  nearby d (running_means_from p l) (running_means_from p' l').
Proof.
  intros HP H. revert p p' HP. induction H as [|x y l l' Hx H IH]; intros p p' HP; [constructor|].
  cbn [running_means_from].
  assert (HP' : nearby d (p ++ [x]) (p' ++ [y])) by (apply Forall2_app; [exact HP|constructor; [exact Hx|constructor]]).
  constructor; [|apply IH, HP']. apply mean_near; [exact HP'|]. intros E. symmetry in E. exact (app_cons_not_nil _ _ _ E).
Qed.

(** @prop C103_means: exact arithmetic, every two histories whose values differ by
    at most d: every mean of the cumulative, window, interim and decay filters
    differs by at most d, the trend by at most 5 d. *)
Lemma c103_means : forall (eps f d : R) (W : nat) (ops ops' : list (op R)),
  perturbed d ops ops' -> since_clear ops <> [] ->
  fits (since_clear ops) -> (0 < W)%nat -> (2 * N.of_nat W < szmod)%N -> 0 < f <= 1 ->
  let w := N.of_nat W in
  apart d (cmean_mean _ (run_cmean eps ops)) (cmean_mean _ (run_cmean eps ops')) /\
  apart d (wmean_mean _ (run_wmean eps W ops)) (wmean_mean _ (run_wmean eps W ops')) /\
  apart d (imean_mean _ w (run_imean eps W ops)) (imean_mean _ w (run_imean eps W ops')) /\
  apart d (dmean_mean _ (run_dmean eps f ops)) (dmean_mean _ (run_dmean eps f ops')) /\
  apart (5 * d) (ctrend_value _ (run_ctrend eps ops)) (ctrend_value _ (run_ctrend eps ops')).
Proof.
  intros eps f d W ops ops' HP N Hfits HW HW2 Hf w.
  pose proof (related_since _ _ _ HP) as H. fold (nearby d (since_clear ops) (since_clear ops')) in H.
  pose proof (fits_near _ _ _ H Hfits) as Hfits'. destruct (nearby_side _ _ _ H) as [_ NN]. pose proof (NN N) as N'.
  destruct (nearby_ne d _ _ H N) as (_ & _ & D0).
  split; [|split; [|split; [|split]]].
  - destruct (ClaimsCumulative.c01 eps ops Hfits) as (_ & _ & M & _).
    destruct (ClaimsCumulative.c01 eps ops' Hfits') as (_ & _ & M' & _).
    rewrite (proj1 (M N)), (proj1 (M' N')). apply mean_near; assumption.
  - destruct (ClaimsWindow.c15 eps W ops HW ltac:(lia)) as (_ & M1 & _).
    destruct (ClaimsWindow.c15 eps W ops' HW ltac:(lia)) as (_ & M1' & _).
    pose proof (forall2_lastn _ W _ _ H) as H3. fold (nearby d (lastn W (since_clear ops)) (lastn W (since_clear ops'))) in H3.
    assert (NL : lastn W (since_clear ops) <> []).
    { intros E. apply (f_equal (@length _)) in E. rewrite lastn_length in E. cbn in E. destruct (since_clear ops); [congruence|cbn in E; lia]. }
    rewrite (proj1 (M1 NL)), (proj1 (M1' (proj2 (nearby_side _ _ _ H3) NL))). apply mean_near; assumption.
  - destruct (ClaimsInterim.imean_values eps W ops HW HW2) as (M & _).
    destruct (ClaimsInterim.imean_values eps W ops' HW HW2) as (M' & _).
    fold w in M, M'. rewrite M, M'. apply imean_value_near; assumption.
  - destruct (ClaimsDecay.c31 eps f f f f ops Hf) as (m & M & _ & _ & _ & V & V0 & _).
    destruct (ClaimsDecay.c31 eps f f f f ops' Hf) as (m' & M' & _ & _ & _ & V' & V0' & _).
    rewrite M, M', (V N), (V' N'). apply ewma_near; assumption.
  - destruct (ClaimsCumulative.c10 eps ops Hfits) as (_ & M & _).
    destruct (ClaimsCumulative.c10 eps ops' Hfits') as (_ & M' & _).
    rewrite M, M'. cbn [apart].
    assert (G : nearby d (running_means (since_clear ops)) (running_means (since_clear ops'))).
    { apply running_near; [constructor|exact H]. }
    assert (NR : running_means (since_clear ops) <> []).
    { unfold running_means. destruct (since_clear ops); [congruence|discriminate]. }
    pose proof (mean_near d _ _ H N) as B1. pose proof (mean_near d _ _ G NR) as B2.
    apply Rabs_le_inv in B1, B2. apply Rabs_le. lra.
Qed.

(** @ex C103_means_ex: 1, 5, 2 and 1.5, 5, 1.5 after a clear. *)
Lemma c103_means_ex :
  let ops := [Push 9; Clear; Push 1; Push 5; Push 2] in
  let ops' := [Push 9; Clear; Push (3 / 2); Push 5; Push (3 / 2)] in
  perturbed (1 / 2) ops ops' /\ since_clear ops <> [] /\ fits (since_clear ops) /\
  (0 < 2)%nat /\ (2 * N.of_nat 2 < szmod)%N /\ 0 < 1 / 2 <= 1.
Proof.
  cbv zeta; split; [repeat (constructor; [cbn; (exact I || apply Rabs_le; lra)|]); constructor|].
  split; [discriminate|]; split; [reflexivity|]; split; [lia|]; split; [reflexivity|]; lra.
Qed.

(** @prop C103_means_sharp: the bound for the means is attained, whatever the
    data: adding d to every value adds d to every mean. *)
Lemma c103_sharp : forall (eps d : R) (l : list R), fits l -> l <> [] -> 0 <= d ->
  perturbed d (pushes l) (pushes (map (fun x => x + d) l)) /\
  exists m, cmean_mean _ (run_cmean eps (pushes l)) = Fin m /\
    cmean_mean _ (run_cmean eps (pushes (map (fun x => x + d) l))) = Fin (m + d).
Proof.
  intros eps d l Hf N D0. split.
  - clear Hf N. induction l as [|x l IH]; [constructor|]. cbn. constructor; [|exact IH]. apply Rabs_le. lra.
  - assert (Hf' : fits (map (fun x => x + d) l)) by (unfold fits in *; rewrite map_length; exact Hf).
    destruct (ClaimsCumulative.c01 eps (pushes l) ltac:(rewrite since_clear_pushes; exact Hf)) as (_ & _ & M & _).
    destruct (ClaimsCumulative.c01 eps (pushes (map (fun x => x + d) l)) ltac:(rewrite since_clear_pushes; exact Hf')) as (_ & _ & M' & _).
    rewrite since_clear_pushes in M, M'. exists (mean l). split; [exact (proj1 (M N))|].
    etransitivity; [apply M'; destruct l; [congruence|discriminate]|]. apply (f_equal Fin).
    pose proof (card_pos l N). unfold mean, card in *. rewrite map_length, Rsum_map_plus, map_id, Rsum_map_const. unfold card. field. lra.
Qed.

(** @ex C103_means_sharp_ex: two values. *)
Lemma c103_sharp_ex : fits [3; 4] /\ [3; 4] <> [] /\ 0 <= 1 / 8.
Proof. split; [reflexivity|]. split; [discriminate|lra]. Qed.

(** @prop C103_deviation: exact arithmetic: the square root of variance(), the
    standard deviation, changes by at most d for the cumulative, window and
    interim filters, and by at most 2 d for the decay filter. *)
Lemma c103_deviation : forall (eps d : R) (W : nat) (ops ops' : list (op R)),
  perturbed d ops ops' -> since_clear ops <> [] ->
  fits (since_clear ops) -> (0 < W)%nat -> (N.of_nat W <= 4294967296)%N ->
  let w := N.of_nat W in
  roots_apart d (cvar_variance _ (run_cvar eps ops)) (cvar_variance _ (run_cvar eps ops')) /\
  roots_apart d (wvar_variance _ (run_wvar eps W ops)) (wvar_variance _ (run_wvar eps W ops')) /\
  roots_apart d (ivar_variance _ w (run_ivar eps W ops)) (ivar_variance _ w (run_ivar eps W ops')) /\
  (forall fm fv l l', 0 < eps -> 0 < fm <= 1 -> 0 < fv <= 1 -> l <> [] -> nearby d l l' ->
   roots_apart (2 * d) (dvar_variance _ (run_dvar eps fm fv (pushes l))) (dvar_variance _ (run_dvar eps fm fv (pushes l')))).
Proof.
  intros eps d W ops ops' HP N Hfits HW HW2 w.
  pose proof (related_since _ _ _ HP) as H. fold (nearby d (since_clear ops) (since_clear ops')) in H.
  pose proof (fits_near _ _ _ H Hfits) as Hfits'. destruct (nearby_side _ _ _ H) as [_ NN]. pose proof (NN N) as N'.
  split; [|split; [|split]].
  - destruct (ClaimsCumulative.c02 eps ops Hfits) as (M & _). destruct (ClaimsCumulative.c02 eps ops' Hfits') as (M' & _).
    rewrite (proj1 (M N)), (proj1 (M' N')). split; [apply variance_nonneg|]. split; [apply variance_nonneg|]. apply deviation_near; assumption.
  - assert (HW3 : (N.of_nat W < szmod)%N) by (unfold szmod; lia).
    destruct (ClaimsWindow.c16 eps W ops HW HW3) as (M1 & _). destruct (ClaimsWindow.c16 eps W ops' HW HW3) as (M1' & _).
    pose proof (forall2_lastn _ W _ _ H) as H3. fold (nearby d (lastn W (since_clear ops)) (lastn W (since_clear ops'))) in H3.
    assert (NL : lastn W (since_clear ops) <> []).
    { intros E. apply (f_equal (@length _)) in E. rewrite lastn_length in E. cbn in E. destruct (since_clear ops); [congruence|cbn in E; lia]. }
    rewrite (M1 NL), (M1' (proj2 (nearby_side _ _ _ H3) NL)). split; [apply variance_nonneg|]. split; [apply variance_nonneg|]. apply deviation_near; assumption.
  - destruct (ClaimsInterim.ivar_values eps W ops HW HW2 N) as (M & _). destruct (ClaimsInterim.ivar_values eps W ops' HW HW2 N') as (M' & _).
    fold w in M, M'. rewrite M, M'. apply ivar_value_near; assumption.
  - intros fm fv l l' He Hm Hv NL HL. pose proof (proj2 (nearby_side _ _ _ HL) NL) as NL'.
    destruct (ClaimsDecay.c32 eps fm fv 1 1 l He Hm Hv ltac:(lra) ltac:(lra) NL) as ((M & _) & _).
    destruct (ClaimsDecay.c32 eps fm fv 1 1 l' He Hm Hv ltac:(lra) ltac:(lra) NL') as ((M' & _) & _).
    assert (Q : forall k, k <> [] -> 0 <= emoment 2 fm fv k).
    { intros k Hk. unfold emoment. apply ewma_nonneg; [exact Hv|destruct k; [congruence|discriminate]|]. intros x. apply pow2_ge_0. }
    rewrite M, M'. split; [apply Q, NL|]. split; [apply Q, NL'|]. apply emoment_near; assumption.
Qed.

(** @ex C103_deviation_ex: the same histories, and decay with factors 1/2 and 1/3. *)
Lemma c103_deviation_ex :
  let ops := [Push 9; Clear; Push 1; Push 5; Push 2] in
  let ops' := [Push 9; Clear; Push (3 / 2); Push 5; Push (3 / 2)] in
  perturbed (1 / 2) ops ops' /\ since_clear ops <> [] /\ fits (since_clear ops) /\
  (0 < 2)%nat /\ (N.of_nat 2 <= 4294967296)%N /\
  (0 < 1 / 4 /\ 0 < 1 / 2 <= 1 /\ 0 < 1 / 3 <= 1 /\ nearby (1 / 2) [1; 5; 2] [3 / 2; 5; 3 / 2]).
Proof.
  cbv zeta; split; [repeat (constructor; [cbn; (exact I || apply Rabs_le; lra)|]); constructor|].
  split; [discriminate|]; split; [reflexivity|]; split; [lia|]; split; [lia|]; split; [lra|]; split; [lra|]; split; [lra|].
  repeat (constructor; [apply Rabs_le; lra|]); constructor.
Qed.

(** @prop C103_covariance: exact arithmetic: if the first components differ by at
    most d and the second ones by at most e, the cumulative and the window
    covariance change by at most d times the standard deviation of the second
    components of the first data plus e times that of the first components of the
    second data. *)
Lemma c103_covariance : forall (eps d e : R) (W : nat) (ops ops' : list (op (R * R))),
  perturbed2 d e ops ops' -> since_clear ops <> [] ->
  fits (since_clear ops) -> (0 < W)%nat -> (N.of_nat W < szmod)%N ->
  let l := since_clear ops in
  let l' := since_clear ops' in
  apart (d * sqrt (variance (ys l)) + e * sqrt (variance (xs l')))
    (ccov_variance _ (run_ccov eps ops)) (ccov_variance _ (run_ccov eps ops')) /\
  apart (d * sqrt (variance (ys (lastn W l))) + e * sqrt (variance (xs (lastn W l'))))
    (wcov_variance _ (run_wcov eps W ops)) (wcov_variance _ (run_wcov eps W ops')).
Proof.
  intros eps d e W ops ops' HP N Hfits HW HW2 l l'.
  pose proof (related_since _ _ _ HP) as H. fold l l' in H. fold (nearby2 d e l l') in H.
  pose proof (fits_near _ _ _ H Hfits) as Hfits'. destruct (nearby2_side _ _ _ _ H) as [_ NN]. pose proof (NN N) as N'.
  split.
  - destruct (ClaimsCumulative.c06 eps ops Hfits) as (_ & _ & M & _). destruct (ClaimsCumulative.c06 eps ops' Hfits') as (_ & _ & M' & _).
    fold l in M. fold l' in M'. rewrite M, M'. fold l in N.
    replace (match l with [] => 0 | _ => covariance l end) with (covariance l) by (destruct l; [congruence|reflexivity]).
    replace (match l' with [] => 0 | _ => covariance l' end) with (covariance l') by (destruct l'; [congruence|reflexivity]).
    apply covariance_near; assumption.
  - destruct (ClaimsWindow.c18 eps W ops HW HW2) as (_ & M & _). destruct (ClaimsWindow.c18 eps W ops' HW HW2) as (_ & M' & _).
    fold l in M. fold l' in M'.
    pose proof (forall2_lastn _ W _ _ H) as H3. fold (nearby2 d e (lastn W l) (lastn W l')) in H3.
    assert (NL : lastn W l <> []).
    { intros E. apply (f_equal (@length _)) in E. rewrite lastn_length in E. cbn in E. fold l in N. destruct l; [congruence|cbn in E; lia]. }
    rewrite (M NL), (M' (proj2 (nearby2_side _ _ _ _ H3) NL)). apply covariance_near; assumption.
Qed.

(** @ex C103_covariance_ex: three pairs after a clear. *)
Lemma c103_covariance_ex :
  let ops := [Push (9, 9); Clear; Push (1, 2); Push (5, 3); Push (2, 8)] in
  let ops' := [Push (9, 9); Clear; Push (3 / 2, 2); Push (5, 10 / 3); Push (2, 8)] in
  perturbed2 (1 / 2) (1 / 3) ops ops' /\ since_clear ops <> [] /\ fits (since_clear ops) /\
  (0 < 2)%nat /\ (N.of_nat 2 < szmod)%N.
Proof.
  cbv zeta; split; [repeat (constructor; [cbn; (exact I || split; apply Rabs_le; lra)|]); constructor|].
  split; [discriminate|]; split; [reflexivity|]; split; [lia|reflexivity].
Qed.

(** @prop C103_slope: exact arithmetic: errors of at most e in the dependent
    variable change the slope of the regression line by at most e divided by the
    standard deviation of the independent variable. *)
Lemma c103_slope : forall (eps e : R) (W : nat) (ops ops' : list (op (R * R))),
  perturbed2 0 e ops ops' ->
  fits (since_clear ops) -> (0 < W)%nat -> (N.of_nat W < szmod)%N ->
  let l := since_clear ops in
  (l <> [] -> 0 < variance (xs l) ->
   apart (e / sqrt (variance (xs l))) (creg_slope _ (run_creg eps ops)) (creg_slope _ (run_creg eps ops'))) /\
  (lastn W l <> [] -> 0 < variance (xs (lastn W l)) ->
   apart (e / sqrt (variance (xs (lastn W l)))) (wreg_slope _ (run_wreg eps W ops)) (wreg_slope _ (run_wreg eps W ops'))).
Proof.
  intros eps e W ops ops' HP Hfits HW HW2 l.
  pose proof (related_since _ _ _ HP) as H. fold l in H. fold (nearby2 0 e l (since_clear ops')) in H.
  pose proof (fits_near _ _ _ H Hfits) as Hfits'. split; intros N V.
  - pose proof (proj2 (nearby2_side _ _ _ _ H) N) as N'.
    destruct (CumulativeStats.creg_obs eps ops Hfits N) as (_ & M & _).
    destruct (CumulativeStats.creg_obs eps ops' Hfits' N') as (_ & M' & _).
    cbv zeta in M, M'. fold l in M. rewrite M, M'. apply slope_near; assumption.
  - pose proof (forall2_lastn _ W _ _ H) as H3. fold (nearby2 0 e (lastn W l) (lastn W (since_clear ops'))) in H3.
    pose proof (proj2 (nearby2_side _ _ _ _ H3) N) as N'.
    destruct (WindowStats.wreg_obs eps W HW HW2 ops N) as (_ & M & _).
    destruct (WindowStats.wreg_obs eps W HW HW2 ops' N') as (_ & M' & _).
    cbv zeta in M, M'. fold l in M. rewrite M, M'. apply slope_near; assumption.
Qed.

(** @ex C103_slope_ex: x = 0, 2 with y = 0, 1 and y = 1, 0: the deviation of x is
    1 and the slope changes from 1/2 to -1/2, the bound with e = 1. *)
Lemma c103_slope_ex :
  let ops := [Push (0, 0); Push (2, 1)] in
  let ops' := [Push (0, 1); Push (2, 0)] in
  perturbed2 0 1 ops ops' /\ fits (since_clear ops) /\ (0 < 2)%nat /\ (N.of_nat 2 < szmod)%N /\
  variance (xs (since_clear ops)) = 1 /\ lastn 2 (since_clear ops) = since_clear ops /\
  ls_slope (since_clear ops) = 1 / 2 /\ ls_slope (since_clear ops') = - (1 / 2).
Proof.
  cbv zeta. cbn [since_clear fold_left]. split; [repeat (constructor; [cbn; split; apply Rabs_le; lra|]); constructor|].
  split; [reflexivity|]; split; [lia|]; split; [reflexivity|].
  split; [unfold variance, csum, xs, mean, card; cbn; lra|]. split; [reflexivity|].
  assert (C : csum 2 (xs [(0, 0); (2, 1)]) = 2) by (unfold csum, xs, mean, card; cbn; lra).
  assert (C' : csum 2 (xs [(0, 1); (2, 0)]) = 2) by (unfold csum, xs, mean, card; cbn; lra).
  unfold ls_slope. change (since_clear [Push (0, 0); Push (2, 1)]) with [(0, 0); (2, 1)].
  change (since_clear [Push (0, 1); Push (2, 0)]) with [(0, 1); (2, 0)]. rewrite C, C'.
  destruct (Req_EM_T 2 0); [lra|]. unfold cosum, xs, ys, mean, card; cbn. split; lra.
Qed.

(** @prop C103_impulse: exact arithmetic: the FIR filter changes by at most d times
    the sum of the magnitudes of the coefficients; a recursive filter whose
    feedback coefficients have magnitudes that sum to less than that of the scale
    changes by at most d times the sum of the magnitudes of the forward
    coefficients divided by the difference, however long it runs. *)
Lemma c103_impulse : forall (eps d : R) (c b a : list R) (scale : R) (ops ops' : list (op R)),
  perturbed d ops ops' -> since_clear ops <> [] -> c <> [] -> b <> [] -> a <> [] -> abs_sum a < Rabs scale ->
  apart (abs_sum c * d) (fir_value _ (run_fir eps c ops)) (fir_value _ (run_fir eps c ops')) /\
  apart (abs_sum b * d / (Rabs scale - abs_sum a))
    (iir_value _ (run_iir eps b a scale ops)) (iir_value _ (run_iir eps b a scale ops')).
Proof.
  intros eps d c b a scale ops ops' HP N Hc Hb Ha HS.
  pose proof (related_since _ _ _ HP) as H. fold (nearby d (since_clear ops) (since_clear ops')) in H.
  pose proof (proj2 (nearby_side _ _ _ H) N) as N'. destruct (nearby_ne d _ _ H N) as (_ & _ & D0).
  split.
  - rewrite !fir_value_exact by assumption. rewrite <- (Forall2_len _ _ _ H). apply convolution_near; assumption.
  - assert (S0 : scale <> 0).
    { intros ->. rewrite Rabs_R0 in HS. pose proof (Forgetting.abs_sum_nonneg a). lra. }
    destruct (iir_value_exact eps b a scale ops Hb Ha S0) as (y & D & V).
    destruct (iir_value_exact eps b a scale ops' Hb Ha S0) as (y' & D' & V').
    rewrite V, V'. exact (recursion_near b a scale d _ _ y y' HS D0 H D D').
Qed.

(** @ex C103_impulse_ex: b = 2, a = -1/2, scale 1. *)
Lemma c103_impulse_ex :
  perturbed (1 / 2) [Push 1; Push 5; Push 2] [Push (3 / 2); Push 5; Push (3 / 2)] /\
  abs_sum [- (1 / 2)] < Rabs 1 /\ abs_sum [2] * (1 / 2) / (Rabs 1 - abs_sum [- (1 / 2)]) = 2.
Proof.
  split; [repeat (constructor; [cbn; apply Rabs_le; lra|]); constructor|].
  unfold abs_sum. cbn [map Rsum]. rewrite (Rabs_pos_eq 1), (Rabs_pos_eq 2), (Rabs_left (- (1 / 2))) by lra.
  split; [lra|field].
Qed.

(** @prop C103_few_values: exact arithmetic: as long as the quantile estimator
    stores its values (at most 2Q+3 for Q ratios) every estimate changes by at most
    d. *)
Lemma c103_few : forall (eps d : R) (qs : list R) (ops ops' : list (op R)) (i : nat),
  Forall (fun q => 0 <= q < 1) qs -> (N.of_nat (2 * length qs + 3) < szmod)%N ->
  perturbed d ops ops' -> since_clear ops <> [] ->
  (length (since_clear ops) <= 2 * length qs + 3)%nat -> (i <= length qs + 1)%nat ->
  exists v v', psq_get _ (rqs eps qs) (run_psq eps qs ops) i = Some v /\
    psq_get _ (rqs eps qs) (run_psq eps qs ops') i = Some v' /\ apart d v v'.
Proof.
  intros eps d qs ops ops' i Hq HL HP N Hlen Hi.
  pose proof (related_since _ _ _ HP) as H. fold (nearby d (since_clear ops) (since_clear ops')) in H.
  pose proof (Forall2_len _ _ _ H) as L. pose proof (proj2 (nearby_side _ _ _ H) N) as N'.
  destruct (perturbed_raised d ops ops' HP) as [R1 R2].
  assert (Hf : fits (since_clear ops)) by (unfold fits; lia).
  assert (Hf' : fits (since_clear ops')) by (unfold fits; lia).
  destruct (ClaimsPsquare.c40 eps 1 d qs ops i ltac:(lra) Hq HL N Hf Hi) as (v & V & W & _).
  destruct (ClaimsPsquare.c40 eps 1 d qs ops' i ltac:(lra) Hq HL N' Hf' Hi) as (v' & V' & W' & _).
  destruct (ClaimsMonotone.c85_few eps qs ops _ i Hq HL R1 N Hlen Hi) as (p & p' & P & P' & A).
  destruct (ClaimsMonotone.c85_few eps qs ops' _ i Hq HL R2 N' ltac:(lia) Hi) as (r & r' & Q & Q' & B).
  rewrite V in P. injection P as <-. rewrite W' in P'. injection P' as <-.
  rewrite V' in Q. injection Q as <-. rewrite W in Q'. injection Q' as <-.
  exists (Fin v), (Fin v'). split; [exact V|]. split; [exact V'|]. cbn in A, B |- *. apply Rabs_le. lra.
Qed.

(** @ex C103_few_values_ex: three values and the median. *)
Lemma c103_few_ex :
  Forall (fun q => 0 <= q < 1) [1 / 2] /\ (N.of_nat (2 * length [1 / 2] + 3) < szmod)%N /\
  perturbed (1 / 2) [Push 1; Push 5; Push 2] [Push (3 / 2); Push 5; Push (3 / 2)] /\
  (length (since_clear [Push 1; Push 5; Push 2]) <= 2 * length [1 / 2]%R + 3)%nat /\ (1 <= length [1 / 2]%R + 1)%nat.
Proof.
  split; [constructor; [lra|constructor]|]. split; [reflexivity|].
  split; [repeat (constructor; [cbn; apply Rabs_le; lra|]); constructor|]. cbn. lia.
Qed.

(** @prop C103_psquare_refuted: with more values it fails badly: eight values of
    which one is changed by 2^-49 of a tenth of the range; the estimated median
    (double) drops from more than 8 tenths of the range to less than 4 tenths. *)
Lemma c103_psquare_refuted : exists (l l' : list Z) (u : Z),
  let F := b64num in
  let q := ratio_value F (1 # 2) in
  let est l := psq_get F [q] (run (psq_push F [q]) (psq_clear F [q]) (psq_init F [q]) (pushes (map b64_of_Z l))) 1 in
  Forall (fun n => 0 <= n <= 10 * u)%Z (l ++ l') /\ (u = 2 ^ 49)%Z /\
  Forall2 (fun a b => Z.abs (a - b) <= 1)%Z l l' /\
  exists v v' : F, est l = Some v /\ est l' = Some v' /\
    nlt (b64_of_Z (8 * u) : F) v = true /\ nlt v' (b64_of_Z (4 * u) : F) = true.
Proof.
  exists (map (fun n => n * 2 ^ 49) [0; 0; 3; 8; 9; 10; 9; 6])%Z,
    (map (fun n => n * 2 ^ 49) [0; 0; 3; 8; 9; 10; 9] ++ [6 * 2 ^ 49 - 1])%Z, (2 ^ 49)%Z.
  cbv zeta. split; [cbn [map app]; repeat (constructor; [lia|]); constructor|]. split; [reflexivity|].
  split; [cbn [map app]; repeat (constructor; [lia|]); constructor|].
  eexists. eexists. split; [vm_compute; reflexivity|]. split; [vm_compute; reflexivity|]. split; vm_compute; reflexivity.
Qed.
