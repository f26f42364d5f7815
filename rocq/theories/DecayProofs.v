(** * Proofs about decay filters *)

From Coq Require Import Reals ZArith NArith Bool List Lia Lra Psatz.
From Flocq Require Import Core.Raux.
From Verif Require Import Arith History HistoryLemmas SpecStats StatsLemmas
  Decay SpecDecay ExactRuns DecayRuns CumulativeProofs.
Import ListNotations.
Local Open Scope R_scope.

Lemma esum_snoc q l x : esum q (l ++ [x]) = q * esum q l + x.
Proof.
  induction l as [|y l IH]; cbn [app esum length].
  - cbn; ring.
  - rewrite IH, length_snoc; cbn [pow]; ring.
Qed.

Lemma esum_ones {A} q (l : list A) :
  (1 - q) * esum q (map (fun _ => 1) l) = 1 - q ^ length l.
Proof.
  induction l as [|y l IH]; cbn [map esum length]; [cbn; ring|].
  rewrite map_length, Rmult_plus_distr_l, IH; cbn [pow]; ring.
Qed.

Lemma esum_ones_pos {A} q (l : list A) : 0 <= q -> l <> [] ->
  0 < esum q (map (fun _ => 1) l).
Proof.
  intros Hq Hl; destruct (exists_last Hl) as (t & x & ->).
  rewrite map_app; cbn [map]; rewrite esum_snoc.
  assert (0 <= esum q (map (fun _ => 1) t)).
  { clear Hl; induction t as [|y t IH]; cbn [map esum]; [lra|].
    pose proof (pow_le q (length (map (fun _ : A => 1) t)) Hq); nra. }
  nra.
Qed.

Lemma esum_bounds q lo hi l : 0 <= q -> Forall (fun x => lo <= x <= hi) l ->
  lo * esum q (map (fun _ => 1) l) <= esum q l <= hi * esum q (map (fun _ => 1) l).
Proof.
  intros Hq H; induction H as [|x l Hx H IH]; cbn [map esum]; [lra|].
  rewrite map_length; pose proof (pow_le q (length l) Hq); nra.
Qed.

Lemma ewma_bounds f lo hi l : 0 < f <= 1 -> l <> [] ->
  Forall (fun x => lo <= x <= hi) l -> lo <= ewma f l <= hi.
Proof.
  intros Hf Hl H.
  assert (Hq : 0 <= 1 - f) by lra.
  pose proof (esum_bounds (1 - f) lo hi l Hq H) as [H1 H2].
  pose proof (esum_ones_pos (1 - f) l Hq Hl) as H3.
  unfold ewma; set (n := esum _ (map _ _)) in *.
  split; apply Rmult_le_reg_r with n; try lra;
    unfold Rdiv; rewrite Rmult_assoc, Rinv_l by lra; lra.
Qed.

Lemma deviations_from_snoc f pre l x :
  deviations_from f pre (l ++ [x]) =
  deviations_from f pre l ++ [x - ewma f (pre ++ l ++ [x])].
Proof.
  revert pre; induction l as [|y l IH]; intros pre; [reflexivity|].
  cbn [app deviations_from]; rewrite IH, <- app_assoc; reflexivity.
Qed.

Lemma deviations_snoc f l x :
  deviations f (l ++ [x]) = deviations f l ++ [x - ewma f (l ++ [x])].
Proof. apply deviations_from_snoc. Qed.

Lemma deviations_length f l : length (deviations f l) = length l.
Proof.
  induction l as [|x l IH] using rev_ind; [reflexivity|].
  rewrite deviations_snoc, !length_snoc, IH; reflexivity.
Qed.

Section Exact.
Variable eps : R.
Notation F := (exact eps).

Definition nrm (f : R) (n : nat) : R := 1 - (1 - f) ^ n.

Lemma nrm_pos f n : 0 < f <= 1 -> (0 < n)%nat -> 0 < nrm f n.
Proof.
  intros Hf Hn; unfold nrm; destruct n as [|n]; [lia|]; cbn [pow].
  assert (0 <= (1 - f) ^ n <= 1).
  { split; [apply pow_le; lra|].
    pose proof (pow_incr (1 - f) 1 n ltac:(lra)) as E; rewrite pow1 in E; exact E. }
  nra.
Qed.

Lemma nrm_nonneg f n : 0 < f <= 1 -> 0 <= nrm f n.
Proof.
  intros Hf; destruct n as [|n]; [unfold nrm; cbn; lra|].
  left; apply nrm_pos; [exact Hf|lia].
Qed.

Lemma nrm_S f n : nrm f (S n) = nrm f n + f * (1 - nrm f n).
Proof. unfold nrm; cbn [pow]; ring. Qed.

Lemma nrm_0 f : nrm f 0 = 0.
Proof. unfold nrm; cbn; ring. Qed.

(** [n] values pushed since the normalisation was reset, [l] since the sums
    were reset. *)
Definition st_dmean (fm : R) (l : list R) : dmean F :=
  DMean F (Fin fm) (Fin (nrm fm (length l))) (Fin (fm * esum (1 - fm) l)).
Definition powers (k : nat) (fm : R) (l : list R) : list R :=
  map (fun d => d ^ k) (deviations fm l).
Definition st_dvar fm fv n l : dvar F :=
  DVar F (st_dmean fm l) (Fin fv) (Fin (nrm fv n))
       (Fin (fv * esum (1 - fv) (powers 2 fm l))).
Definition st_dskew fm fv fs n l : dskew F :=
  DSkew F (st_dvar fm fv n l) (Fin fs) (Fin (nrm fs n))
        (Fin (fs * esum (1 - fs) (powers 3 fm l))).
Definition st_dkurt fm fv fs fk n l : dkurt F :=
  DKurt F (st_dskew fm fv fs n l) (Fin fk) (Fin (nrm fk n))
        (Fin (fk * esum (1 - fk) (powers 4 fm l))).

Lemma powers_snoc k fm l x :
  powers k fm (l ++ [x]) = powers k fm l ++ [(x - ewma fm (l ++ [x])) ^ k].
Proof. unfold powers; rewrite deviations_snoc, map_app; reflexivity. Qed.

Lemma powers_length k fm l : length (powers k fm l) = length l.
Proof. unfold powers; rewrite map_length, deviations_length; reflexivity. Qed.

Lemma ewma_nrm f l : 0 < f <= 1 -> l <> [] ->
  f * esum (1 - f) l / nrm f (length l) = ewma f l.
Proof.
  intros Hf Hl; unfold ewma.
  pose proof (esum_ones (1 - f) l) as E.
  replace (1 - (1 - f)) with f in E by ring.
  unfold nrm; rewrite <- E.
  pose proof (esum_ones_pos (1 - f) l ltac:(lra) Hl); field; lra.
Qed.

Lemma dmean_push_st fm l x :
  dmean_push F (st_dmean fm l) (Fin x) = st_dmean fm (l ++ [x]).
Proof.
  unfold dmean_push, st_dmean; cbn [dm_factor dm_norm dm_sum].
  unfold nadd, nmul, nsub, n1, nofz; cbn [exact xnum xlift2].
  rewrite length_snoc, nrm_S, esum_snoc; f_equal; apply (f_equal Fin); ring.
Qed.

Lemma dmean_mean_st fm l : 0 < fm <= 1 -> l <> [] ->
  dmean_mean F (st_dmean fm l) = Fin (ewma fm l).
Proof.
  intros Hf Hl; unfold dmean_mean, st_dmean; cbn [dm_norm dm_sum].
  assert (Hp : 0 < nrm fm (length l))
    by (apply nrm_pos; [exact Hf|destruct l; [congruence|cbn; lia]]).
  unfold nlt, n0, nofz; cbn [exact xnum xcmp].
  rewrite Rlt_bool_true by exact Hp.
  unfold ndiv; cbn [exact xnum]; rewrite xdiv_fin by lra.
  rewrite ewma_nrm by assumption; reflexivity.
Qed.

Lemma dmean_mean_st_nil fm : dmean_mean F (st_dmean fm []) = Fin 0.
Proof.
  unfold dmean_mean, st_dmean; cbn [dm_norm length]; rewrite nrm_0.
  unfold nlt, n0, nofz; cbn [exact xnum xcmp].
  rewrite Rlt_bool_false by lra; reflexivity.
Qed.

Lemma dvar_push_st fm fv n l x : 0 < fm <= 1 ->
  dvar_push F (st_dvar fm fv n l) (Fin x) = st_dvar fm fv (S n) (l ++ [x]).
Proof.
  intros Hf; unfold dvar_push; cbv zeta; cbn [st_dvar dv_super dv_factor dv_norm dv_sum].
  rewrite dmean_push_st, dmean_mean_st by (auto; destruct l; cbn; congruence).
  unfold st_dvar, nadd, nmul, nsub, n1, nofz; cbn [exact xnum xlift2].
  rewrite powers_snoc, nrm_S, esum_snoc; f_equal; apply (f_equal Fin); ring.
Qed.

Lemma dskew_push_st fm fv fs n l x : 0 < fm <= 1 ->
  dskew_push F (st_dskew fm fv fs n l) (Fin x) = st_dskew fm fv fs (S n) (l ++ [x]).
Proof.
  intros Hf; unfold dskew_push; cbv zeta; cbn [st_dskew ds_super ds_factor ds_norm ds_sum].
  rewrite dvar_push_st by exact Hf; unfold dvar_mean; cbn [st_dvar dv_super].
  rewrite dmean_mean_st by (auto; destruct l; cbn; congruence).
  unfold st_dskew, nadd, nmul, nsub, n1, nofz; cbn [exact xnum xlift2].
  rewrite powers_snoc, nrm_S, esum_snoc; f_equal; apply (f_equal Fin); ring.
Qed.

Lemma dkurt_push_st fm fv fs fk n l x : 0 < fm <= 1 ->
  dkurt_push F (st_dkurt fm fv fs fk n l) (Fin x) =
  st_dkurt fm fv fs fk (S n) (l ++ [x]).
Proof.
  intros Hf; unfold dkurt_push; cbv zeta; cbn [st_dkurt dk_super dk_factor dk_norm dk_sum].
  rewrite dskew_push_st by exact Hf.
  unfold dskew_mean, dvar_mean; cbn [st_dskew ds_super st_dvar dv_super].
  rewrite dmean_mean_st by (auto; destruct l; cbn; congruence).
  unfold st_dkurt, nadd, nmul, nsub, n1, nofz; cbn [exact xnum xlift2].
  rewrite powers_snoc, nrm_S, esum_snoc; f_equal; apply (f_equal Fin); ring.
Qed.

(** Any history. *)
Lemma pushed_snoc {A} (ops : list (op A)) o :
  pushed (ops ++ [o]) =
  (pushed ops + match o with Push _ => 1 | Clear => 0 end)%nat.
Proof.
  unfold pushed; rewrite filter_app, app_length; destruct o; reflexivity.
Qed.

Lemma since_clear_snoc_clear {A} (ops : list (op A)) :
  since_clear (ops ++ [Clear]) = [].
Proof. apply (since_clear_app_clear ops []). Qed.

Lemma run_snoc {S A} (push : S -> A -> S) clear s ops o :
  run push clear s (ops ++ [o]) = step push clear (run push clear s ops) o.
Proof. apply fold_left_app. Qed.

Lemma run_dmean_state fm ops :
  run_dmean eps fm ops = st_dmean fm (since_clear ops).
Proof.
  unfold run_dmean, rops; induction ops as [|o ops IH] using rev_ind.
  - unfold st_dmean; cbn; rewrite nrm_0; unfold dmean_init, n0, nofz; cbn.
    f_equal; apply (f_equal Fin); ring.
  - rewrite map_app; cbn [map]; rewrite run_snoc, IH.
    destruct o as [x|]; cbn [op_map step].
    + rewrite since_clear_snoc_push; apply dmean_push_st.
    + rewrite since_clear_snoc_clear; unfold st_dmean, dmean_clear; cbn.
      rewrite nrm_0; unfold n0, nofz; cbn; f_equal; apply (f_equal Fin); ring.
Qed.

Lemma st_dmean_clear fm l : dmean_clear F (st_dmean fm l) = st_dmean fm [].
Proof.
  unfold st_dmean, dmean_clear, n0, nofz; cbn; rewrite nrm_0; f_equal.
  apply (f_equal Fin); ring.
Qed.

Lemma st_dvar_clear fm fv n l : dvar_clear F (st_dvar fm fv n l) = st_dvar fm fv n [].
Proof.
  unfold dvar_clear, st_dvar; cbn [dv_super dv_factor dv_norm].
  rewrite st_dmean_clear; f_equal; cbn; apply (f_equal Fin); ring.
Qed.

Lemma st_dskew_clear fm fv fs n l :
  dskew_clear F (st_dskew fm fv fs n l) = st_dskew fm fv fs n [].
Proof.
  unfold dskew_clear, st_dskew; cbn [ds_super ds_factor ds_norm].
  rewrite st_dvar_clear; f_equal; cbn; apply (f_equal Fin); ring.
Qed.

Lemma st_dkurt_clear fm fv fs fk n l :
  dkurt_clear F (st_dkurt fm fv fs fk n l) = st_dkurt fm fv fs fk n [].
Proof.
  unfold dkurt_clear, st_dkurt; cbn [dk_super dk_factor dk_norm].
  rewrite st_dskew_clear; f_equal; cbn; apply (f_equal Fin); ring.
Qed.

Lemma st_init fm fv fs fk :
  dkurt_init F (Fin fm) (Fin fv) (Fin fs) (Fin fk) = st_dkurt fm fv fs fk 0 [].
Proof.
  unfold dkurt_init, dskew_init, dvar_init, dmean_init, st_dkurt, st_dskew,
    st_dvar, st_dmean, n0, nofz; cbn; rewrite !nrm_0, !Rmult_0_r; reflexivity.
Qed.

Lemma run_dkurt_state fm fv fs fk ops : 0 < fm <= 1 ->
  run_dkurt eps fm fv fs fk ops = st_dkurt fm fv fs fk (pushed ops) (since_clear ops).
Proof.
  intros Hf; unfold run_dkurt, rops; induction ops as [|o ops IH] using rev_ind.
  - apply st_init.
  - rewrite map_app; cbn [map]; rewrite run_snoc, IH, pushed_snoc.
    destruct o as [x|]; cbn [op_map step].
    + rewrite since_clear_snoc_push, Nat.add_1_r; apply dkurt_push_st, Hf.
    + rewrite since_clear_snoc_clear, Nat.add_0_r; apply st_dkurt_clear.
Qed.

Lemma run_dskew_super G (mf vf sf kf : carrier G) ops :
  dk_super G (run (dkurt_push G) (dkurt_clear G) (dkurt_init G mf vf sf kf) ops) =
  run (dskew_push G) (dskew_clear G) (dskew_init G mf vf sf) ops.
Proof.
  induction ops as [|o ops IH] using rev_ind; [reflexivity|].
  rewrite !run_snoc, <- IH; destruct o; reflexivity.
Qed.

Lemma run_dvar_super G (mf vf sf : carrier G) ops :
  ds_super G (run (dskew_push G) (dskew_clear G) (dskew_init G mf vf sf) ops) =
  run (dvar_push G) (dvar_clear G) (dvar_init G mf vf) ops.
Proof.
  induction ops as [|o ops IH] using rev_ind; [reflexivity|].
  rewrite !run_snoc, <- IH; destruct o; reflexivity.
Qed.

Lemma run_dmean_super G (mf vf : carrier G) ops :
  dv_super G (run (dvar_push G) (dvar_clear G) (dvar_init G mf vf) ops) =
  run (dmean_push G) (dmean_clear G) (dmean_init G mf) ops.
Proof.
  induction ops as [|o ops IH] using rev_ind; [reflexivity|].
  rewrite !run_snoc, <- IH; destruct o; reflexivity.
Qed.

Lemma run_dskew_state fm fv fs ops : 0 < fm <= 1 ->
  run_dskew eps fm fv fs ops = st_dskew fm fv fs (pushed ops) (since_clear ops).
Proof.
  intros Hf; pose proof (run_dkurt_state fm fv fs 1 ops Hf) as E.
  apply (f_equal (dk_super F)) in E; unfold run_dkurt in E.
  rewrite run_dskew_super in E; exact E.
Qed.

Lemma run_dvar_state fm fv ops : 0 < fm <= 1 ->
  run_dvar eps fm fv ops = st_dvar fm fv (pushed ops) (since_clear ops).
Proof.
  intros Hf; pose proof (run_dskew_state fm fv 1 ops Hf) as E.
  apply (f_equal (ds_super F)) in E; unfold run_dskew in E.
  rewrite run_dvar_super in E; exact E.
Qed.

(** Observers *)
Lemma emoment_nonneg k fm f l : Nat.Even k -> 0 < f <= 1 -> 0 <= emoment k fm f l.
Proof.
  intros [j Hj] Hf; unfold emoment.
  set (p := map _ _).
  destruct p as [|y t] eqn:Ep.
  { unfold ewma; cbn; lra. }
  assert (Hp : Forall (fun x => 0 <= x) p).
  { unfold p; apply Forall_forall; intros x Hx; apply in_map_iff in Hx.
    destruct Hx as (d & <- & _); rewrite Hj, pow_mult; apply pow_le, pow2_ge_0. }
  rewrite Ep in Hp; unfold ewma.
  assert (H1 : 0 < esum (1 - f) (map (fun _ => 1) (y :: t)))
    by (apply esum_ones_pos; [lra|congruence]).
  apply Rmult_le_pos; [|left; apply Rinv_0_lt_compat, H1].
  clear - Hp Hf.
  induction Hp as [|x l Hx H IH]; cbn [esum]; [lra|].
  pose proof (pow_le (1 - f) (length l) ltac:(lra)); nra.
Qed.

Lemma dvar_variance_st fm fv n l : 0 < fv <= 1 -> (0 < n)%nat ->
  dvar_variance F (st_dvar fm fv n l) =
  Fin (fv * esum (1 - fv) (powers 2 fm l) / nrm fv n).
Proof.
  intros Hf Hn; unfold dvar_variance; cbn [st_dvar dv_norm dv_sum].
  pose proof (nrm_pos fv n Hf Hn).
  unfold nlt, n0, nofz; cbn [exact xnum xcmp].
  rewrite Rlt_bool_true by assumption.
  unfold ndiv; cbn [exact xnum]; rewrite xdiv_fin by lra; reflexivity.
Qed.

Lemma emoment_nrm k fm f l : 0 < f <= 1 -> l <> [] ->
  f * esum (1 - f) (powers k fm l) / nrm f (length l) = emoment k fm f l.
Proof.
  intros Hf Hl; unfold emoment; fold (powers k fm l).
  rewrite <- (powers_length k fm l); apply ewma_nrm; [exact Hf|].
  intros E; apply (f_equal (@length R)) in E; rewrite powers_length in E.
  destruct l; [congruence|cbn in E; lia].
Qed.

Lemma dskew_skewness_st fm fv fs l : 0 < eps -> 0 < fv <= 1 -> 0 < fs <= 1 ->
  l <> [] ->
  dskew_skewness F (st_dskew fm fv fs (length l) l) =
  Fin (let v := emoment 2 fm fv l in
       if Rlt_dec eps v then emoment 3 fm fs l / (v * sqrt v) else 0).
Proof.
  intros He Hv Hs Hl.
  assert (Hn : (0 < length l)%nat) by (destruct l; [congruence|cbn; lia]).
  unfold dskew_skewness; cbn [st_dskew ds_norm ds_super ds_sum].
  pose proof (nrm_pos fs _ Hs Hn).
  unfold nlt, n0, nofz, neps, ndiv, nmul, nsqrt; cbn [exact xnum xcmp].
  rewrite Rlt_bool_true by assumption.
  rewrite dvar_variance_st by assumption; rewrite emoment_nrm by assumption.
  cbv zeta; set (v := emoment 2 fm fv l).
  cbn [xcmp xlift2].
  destruct (Rlt_dec eps v) as [Hd|Hd].
  - rewrite Rlt_bool_true by exact Hd.
    assert (0 < v) by lra.
    rewrite xsqrt_fin by lra; cbn [xlift2].
    pose proof (sqrt_lt_R0 v ltac:(lra)).
    rewrite xdiv_fin by nra; rewrite xdiv_fin by lra; f_equal.
    rewrite <- (emoment_nrm 3 fm fs l) by assumption.
    field; repeat split; lra.
  - rewrite Rlt_bool_false by lra; reflexivity.
Qed.

Lemma dkurt_kurtosis_st fm fv fs fk l : 0 < eps -> 0 < fv <= 1 -> 0 < fk <= 1 ->
  l <> [] ->
  dkurt_kurtosis F (st_dkurt fm fv fs fk (length l) l) =
  Fin (let v := emoment 2 fm fv l in
       if Rlt_dec eps v then emoment 4 fm fk l / v ^ 2 else 0).
Proof.
  intros He Hv Hs Hl.
  assert (Hn : (0 < length l)%nat) by (destruct l; [congruence|cbn; lia]).
  unfold dkurt_kurtosis; cbn [st_dkurt dk_norm dk_super dk_sum].
  pose proof (nrm_pos fk _ Hs Hn).
  unfold nlt, n0, nofz, neps, ndiv, nmul; cbn [exact xnum xcmp].
  rewrite Rlt_bool_true by assumption.
  unfold dskew_variance; cbn [st_dskew ds_super].
  rewrite dvar_variance_st by assumption; rewrite emoment_nrm by assumption.
  cbv zeta; set (v := emoment 2 fm fv l).
  cbn [xcmp xlift2].
  destruct (Rlt_dec eps v) as [Hd|Hd].
  - rewrite Rlt_bool_true by exact Hd.
    assert (0 < v) by lra.
    rewrite xdiv_fin by nra; rewrite xdiv_fin by lra; f_equal.
    rewrite <- (emoment_nrm 4 fm fk l) by assumption.
    field; repeat split; lra.
  - rewrite Rlt_bool_false by lra; reflexivity.
Qed.

End Exact.
