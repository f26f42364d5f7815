(** * Observers of interim filters in exact arithmetic *)

From Coq Require Import Reals ZArith NArith Bool List Lia Lra Psatz.
From Flocq Require Import Core.Raux.
From Verif Require Import Arith History HistoryLemmas SpecStats StatsLemmas SpecBlocks
  Cumulative Interim ExactRuns InterimRuns CumulativeProofs CumulativeStats
  WindowProofs BlockLemmas.
Import ListNotations.
Local Open Scope R_scope.

Lemma mean_bounds lo hi l : l <> [] -> Forall (fun x => lo <= x <= hi) l ->
  lo <= mean l <= hi.
Proof.
  intros Hl H.
  assert (Hs : card l * lo <= Rsum l <= card l * hi).
  { clear Hl; induction H as [|x l Hx H IH]; [unfold card; cbn; lra|].
    rewrite Rsum_cons, card_cons; lra. }
  pose proof (card_pos l Hl) as Hc; unfold mean.
  split; apply Rmult_le_reg_l with (card l); try lra;
    unfold Rdiv; rewrite <- Rmult_assoc, (Rmult_comm (card l) (Rsum l)), Rmult_assoc,
      Rinv_r by lra; lra.
Qed.

Lemma wavg_bounds wp wa p a lo hi :
  0 <= wp -> 0 <= wa -> 0 < wp + wa -> lo <= p <= hi -> lo <= a <= hi ->
  lo <= wavg wp wa p a <= hi.
Proof.
  intros H1 H2 H3 Hp Ha; unfold wavg.
  split; apply Rmult_le_reg_l with (wp + wa); try lra;
    (replace ((wp + wa) * ((wp * p + wa * a) / (wp + wa)))
       with (wp * p + wa * a) by (field; lra)); nra.
Qed.

Lemma cur_block_map {A B} (f : A -> B) W l :
  cur_block W (map f l) = map f (cur_block W l).
Proof. unfold cur_block; rewrite map_length, lastn_map; reflexivity. Qed.

Lemma prev_block_map {A B} (f : A -> B) W l :
  prev_block W (map f l) = map f (prev_block W l).
Proof.
  unfold prev_block; rewrite cur_block_map, !map_length, firstn_map, lastn_map.
  reflexivity.
Qed.

Section Obs.
Variable eps : R.
Variable W : nat.
Hypothesis HW : (0 < W)%nat.
Notation F := (exact eps).
Notation w := (N.of_nat W).

(** ** The combining formulas on abstract halves *)
Section Combine.
Context {S : Type}.
Variable csize : S -> N.
Variable cempty : S -> bool.
Variable g : S -> F.
Variable d : duo S.
Variable s : nat.
Variables p a : R.
Hypothesis Hs : csize (active d) = N.of_nat s.
Hypothesis Hp : g (passive d) = Fin p.
Hypothesis Ha : g (active d) = Fin a.
Hypothesis He : cempty (passive d) = false.

Lemma duo_mean_wavg : (1 <= s <= W)%nat -> (2 * w < szmod)%N ->
  duo_mean F w csize cempty g d =
  Fin (wavg (INR W - INR s) (2 * INR s) p a).
Proof.
  intros Hb H2; unfold duo_mean; rewrite He, Hs, Hp, Ha.
  rewrite szsub_small, szmul_small, szadd_small by lia.
  rewrite <- Nat2N.inj_sub, <- Nat2N.inj_add.
  unfold nmul, nadd, ndiv, nofsz; cbn [exact xnum xlift2].
  rewrite N2Z.inj_mul, mult_IZR, !IZR_of_nat.
  assert (H0 : 1 <= INR s) by (apply (le_INR 1); lia).
  rewrite minus_INR, plus_INR by lia.
  assert (H1 : INR s <= INR W) by (apply le_INR; lia).
  rewrite xdiv_fin by lra.
  f_equal; unfold wavg; cbn [Z.of_N]; field; lra.
Qed.

Lemma duo_variance_wavg : (2 <= s <= W)%nat -> (w <= 4294967296)%N ->
  duo_variance F w csize cempty g d =
  Fin (wavg ((INR W - (INR s - 1)) ^ 2) (2 * (INR s - 1)) p a).
Proof.
  intros Hb H2; unfold duo_variance; rewrite He, Hs, Hp, Ha.
  destruct (N.leb_spec (N.of_nat s) 1) as [H3|_]; [lia|].
  unfold szmod in *.
  assert (Hk : (w - (N.of_nat s - 1) <= 4294967295)%N) by lia.
  assert (Hk1 : (1 <= w - (N.of_nat s - 1))%N) by lia.
  assert (Hsq : ((w - (N.of_nat s - 1)) * (w - (N.of_nat s - 1))
                 + 2 * (N.of_nat s - 1) < szmod)%N).
  { unfold szmod.
    assert (Hsum : (w - (N.of_nat s - 1) + (N.of_nat s - 1) <= 4294967296)%N) by lia.
    set (k := (w - (N.of_nat s - 1))%N) in *.
    set (t := (N.of_nat s - 1)%N) in *.
    assert (Ht : (1 <= t)%N) by (unfold t; lia).
    nia. }
  rewrite (szsub_small (N.of_nat s) 1) by (unfold szmod; lia).
  rewrite (szsub_small w) by (unfold szmod; lia).
  rewrite !szmul_small by lia.
  rewrite szadd_small by lia.
  replace (w - (N.of_nat s - 1))%N with (N.of_nat (W - (s - 1))) by lia.
  replace (N.of_nat s - 1)%N with (N.of_nat (s - 1)) by lia.
  unfold nmul, nadd, ndiv, nofsz; cbn [exact xnum xlift2].
  rewrite N2Z.inj_add, plus_IZR, !N2Z.inj_mul, !mult_IZR, !IZR_of_nat.
  assert (H0 : 2 <= INR s) by (apply (le_INR 2); lia).
  assert (H1 : INR s <= INR W) by (apply le_INR; lia).
  rewrite (minus_INR W (s - 1)), (minus_INR s 1) by lia.
  cbn [INR Z.of_N].
  rewrite xdiv_fin by nra.
  f_equal; unfold wavg; cbn [Z.of_N]; field; nra.
Qed.

Lemma duo_stat_wavg : (2 <= s <= W)%nat -> (2 * w < szmod)%N ->
  duo_stat F w csize cempty g d =
  Fin (wavg (INR W - (INR s - 1)) (2 * (INR s - 1)) p a).
Proof.
  intros Hb H2; unfold duo_stat; rewrite He, Hs, Hp, Ha.
  destruct (N.leb_spec (N.of_nat s) 1) as [H3|_]; [lia|].
  rewrite (szsub_small (N.of_nat s) 1) by lia.
  rewrite (szsub_small w) by lia.
  rewrite szmul_small, szadd_small by lia.
  replace (w - (N.of_nat s - 1))%N with (N.of_nat (W - (s - 1))) by lia.
  replace (N.of_nat s - 1)%N with (N.of_nat (s - 1)) by lia.
  unfold nmul, nadd, ndiv, nofsz; cbn [exact xnum xlift2].
  rewrite N2Z.inj_add, plus_IZR, !N2Z.inj_mul, !mult_IZR, !IZR_of_nat.
  assert (H0 : 2 <= INR s) by (apply (le_INR 2); lia).
  assert (H1 : INR s <= INR W) by (apply le_INR; lia).
  rewrite (minus_INR W (s - 1)), (minus_INR s 1) by lia.
  cbn [INR Z.of_N].
  rewrite xdiv_fin by lra.
  f_equal; unfold wavg; cbn [Z.of_N]; field; lra.
Qed.

Lemma duo_variance_one : (s <= 1)%nat ->
  duo_variance F w csize cempty g d = Fin p.
Proof.
  intros H; unfold duo_variance; rewrite He, Hs.
  destruct (N.leb_spec (N.of_nat s) 1) as [_|H1]; [exact Hp|lia].
Qed.

Lemma duo_stat_one : (s <= 1)%nat -> duo_stat F w csize cempty g d = Fin p.
Proof.
  intros H; unfold duo_stat; rewrite He, Hs.
  destruct (N.leb_spec (N.of_nat s) 1) as [_|H1]; [exact Hp|lia].
Qed.
End Combine.

(** ** States *)
Definition st_mean (l : list R) : cmean F :=
  CMean F (Fin (mean l)) (N.of_nat (length l)).
Definition st_var (l : list R) : cvar F := CVar F (st_mean l) (Fin (csum 2 l)).
Definition st_skew (l : list R) : cskew F := CSkew F (st_var l) (Fin (csum 3 l)).
Definition st_kurt (l : list R) : ckurt F := CKurt F (st_skew l) (Fin (csum 4 l)).
Definition st_cov (l : list (R * R)) : ccov F :=
  CCov F (CMean F (Fin (mean (xs l))) (N.of_nat (length l)))
         (CMean F (Fin (mean (ys l))) (N.of_nat (length l))) (Fin (cosum l)).

Hypothesis HW64 : (w < szmod)%N.

Lemma fits_cur {A} (l : list A) : fits (cur_block W l).
Proof. unfold fits; pose proof (cur_block_le W HW l); lia. Qed.
Lemma fits_prev {A} (l : list A) : fits (prev_block W l).
Proof. unfold fits; pose proof (prev_block_le W HW l); lia. Qed.

Lemma blocks_fins l :
  cur_block W (fins eps l) = fins eps (cur_block W l) /\
  prev_block W (fins eps l) = fins eps (prev_block W l).
Proof. split; [apply cur_block_map|apply prev_block_map]. Qed.

Lemma blocks_finps l :
  cur_block W (finps eps l) = finps eps (cur_block W l) /\
  prev_block W (finps eps l) = finps eps (prev_block W l).
Proof. split; [apply cur_block_map|apply prev_block_map]. Qed.

Lemma cmean_csize (G : num) (l : list G) : (N.of_nat (length l) < szmod)%N ->
  cmean_size G (fold_left (cmean_push G) l (cmean_init G)) = N.of_nat (length l).
Proof.
  intros H; unfold cmean_size; apply cmean_fold_size, H.
Qed.

Lemma cvar_csize (G : num) (l : list G) : (N.of_nat (length l) < szmod)%N ->
  cvar_size G (fold_left (cvar_push G) l (cvar_init G)) = N.of_nat (length l).
Proof.
  intros H; unfold cvar_size; rewrite cvar_fold_super; apply cmean_csize, H.
Qed.

Lemma cskew_csize (G : num) (l : list G) : (N.of_nat (length l) < szmod)%N ->
  cskew_size G (fold_left (cskew_push G) l (cskew_init G)) = N.of_nat (length l).
Proof.
  intros H; unfold cskew_size; rewrite cskew_fold_super; apply cvar_csize, H.
Qed.

Lemma ckurt_csize (G : num) (l : list G) : (N.of_nat (length l) < szmod)%N ->
  ckurt_size G (fold_left (ckurt_push G) l (ckurt_init G)) = N.of_nat (length l).
Proof.
  intros H; unfold ckurt_size; rewrite ckurt_fold_super; apply cskew_csize, H.
Qed.

Lemma ccov_csize (G : num) (l : list (G * G)) : (N.of_nat (length l) < szmod)%N ->
  ccov_size G (fold_left (ccov_push G) l (ccov_init G)) = N.of_nat (length l).
Proof.
  intros H; unfold ccov_size; rewrite ccov_fold_x.
  rewrite cmean_csize; rewrite map_length; [reflexivity|exact H].
Qed.

Lemma run_imean_state ops : let l := since_clear ops in
  run_imean eps W ops = Duo (st_mean (cur_block W l)) (st_mean (prev_block W l)).
Proof.
  intros l; unfold run_imean, imean_push, imean_clear, imean_init.
  rewrite (duo_run W HW _ (cmean_init F)); [|exact HW64|reflexivity|apply cmean_csize].
  replace (since_clear (rops eps ops)) with (fins eps (since_clear ops))
    by (symmetry; apply since_clear_op_map).
  destruct (blocks_fins (since_clear ops)) as [-> ->].
  rewrite !cmean_exact by (try apply fits_cur; apply fits_prev); reflexivity.
Qed.

Lemma run_ivar_state ops : let l := since_clear ops in
  run_ivar eps W ops = Duo (st_var (cur_block W l)) (st_var (prev_block W l)).
Proof.
  intros l; unfold run_ivar, ivar_push, ivar_clear, ivar_init.
  rewrite (duo_run W HW _ (cvar_init F)); [|exact HW64|reflexivity|apply cvar_csize].
  replace (since_clear (rops eps ops)) with (fins eps (since_clear ops))
    by (symmetry; apply since_clear_op_map).
  destruct (blocks_fins (since_clear ops)) as [-> ->].
  rewrite !cvar_exact by (try apply fits_cur; apply fits_prev); reflexivity.
Qed.

Lemma run_iskew_state ops : let l := since_clear ops in
  run_iskew eps W ops = Duo (st_skew (cur_block W l)) (st_skew (prev_block W l)).
Proof.
  intros l; unfold run_iskew, iskew_push, iskew_clear, iskew_init.
  rewrite (duo_run W HW _ (cskew_init F)); [|exact HW64|reflexivity|apply cskew_csize].
  replace (since_clear (rops eps ops)) with (fins eps (since_clear ops))
    by (symmetry; apply since_clear_op_map).
  destruct (blocks_fins (since_clear ops)) as [-> ->].
  rewrite !cskew_exact by (try apply fits_cur; apply fits_prev); reflexivity.
Qed.

Lemma run_ikurt_state ops : (w <= kurt_limit)%N -> let l := since_clear ops in
  run_ikurt eps W ops = Duo (st_kurt (cur_block W l)) (st_kurt (prev_block W l)).
Proof.
  intros Hk l; unfold run_ikurt, ikurt_push, ikurt_clear, ikurt_init.
  rewrite (duo_run W HW _ (ckurt_init F)); [|exact HW64|reflexivity|apply ckurt_csize].
  replace (since_clear (rops eps ops)) with (fins eps (since_clear ops))
    by (symmetry; apply since_clear_op_map).
  destruct (blocks_fins (since_clear ops)) as [-> ->].
  pose proof (cur_block_le W HW (since_clear ops)).
  pose proof (prev_block_le W HW (since_clear ops)).
  rewrite !ckurt_exact by lia; reflexivity.
Qed.

Lemma run_icov_state ops : let l := since_clear ops in
  run_icov eps W ops = Duo (st_cov (cur_block W l)) (st_cov (prev_block W l)).
Proof.
  intros l; unfold run_icov, icov_push, icov_clear, icov_init.
  rewrite (duo_run W HW _ (ccov_init F)); [|exact HW64|reflexivity|apply ccov_csize].
  replace (since_clear (rpops eps ops)) with (finps eps (since_clear ops))
    by (symmetry; apply since_clear_op_map).
  destruct (blocks_finps (since_clear ops)) as [-> ->].
  rewrite !ccov_exact by (try apply fits_cur; apply fits_prev); reflexivity.
Qed.

(** The kurtosis filter's bookkeeping without the bound on W. *)
Lemma ikurt_super_state ops : let l := since_clear ops in
  ck_super F (active (run_ikurt eps W ops)) = st_skew (cur_block W l) /\
  ck_super F (passive (run_ikurt eps W ops)) = st_skew (prev_block W l).
Proof.
  intros l; unfold run_ikurt, ikurt_push, ikurt_clear, ikurt_init.
  rewrite (duo_run W HW _ (ckurt_init F)); [|exact HW64|reflexivity|apply ckurt_csize].
  replace (since_clear (rops eps ops)) with (fins eps (since_clear ops))
    by (symmetry; apply since_clear_op_map).
  destruct (blocks_fins (since_clear ops)) as [-> ->].
  cbn [active passive]; rewrite !ckurt_fold_super.
  rewrite !cskew_exact by (try apply fits_cur; apply fits_prev); split; reflexivity.
Qed.

(** ** Values *)

Definition imean_value (l : list R) : R :=
  match prev_block W l with
  | [] => mean (cur_block W l)
  | p => let s := card (cur_block W l) in
         wavg (INR W - s) (2 * s) (mean p) (mean (cur_block W l))
  end.

(** Generic lemma for mean(). *)
Lemma duo_mean_value {S} (csize : S -> N) cempty (g : S -> F) (st : list R -> S) l :
  (2 * w < szmod)%N ->
  (forall l, csize (st l) = N.of_nat (length l)) ->
  (forall s, cempty s = N.eqb (csize s) 0) ->
  (forall l, g (st l) = Fin (mean l)) ->
  duo_mean F w csize cempty g (Duo (st (cur_block W l)) (st (prev_block W l))) =
  Fin (imean_value l).
Proof.
  intros H2 Hs He Hg; unfold imean_value.
  destruct (prev_block W l) as [|y t] eqn:E.
  - unfold duo_mean; cbn [active passive]; rewrite He, Hs; cbn; apply Hg.
  - rewrite (duo_mean_wavg csize cempty g _ (length (cur_block W l))
              (mean (y :: t)) (mean (cur_block W l))); cbn [active passive]; auto.
    + rewrite He, Hs; reflexivity.
    + pose proof (cur_block_le W HW l); split; [|lia].
      apply (cur_block_pos W HW); intros ->; cbn in E; congruence.
Qed.

Definition ivar_value (l : list R) : R :=
  match prev_block W l, cur_block W l with
  | [], c => variance c
  | p, [_] => variance p
  | p, c => let s := card c - 1 in
            wavg ((INR W - s) ^ 2) (2 * s) (variance p) (variance c)
  end.

Lemma duo_variance_value {S A} (csize : S -> N) cempty (g : S -> F)
    (st : list A -> S) (v : list A -> R) l :
  (w <= 4294967296)%N -> l <> [] ->
  (forall l, csize (st l) = N.of_nat (length l)) ->
  (forall s, cempty s = N.eqb (csize s) 0) ->
  (forall l, l <> [] -> fits l -> g (st l) = Fin (v l)) ->
  duo_variance F w csize cempty g (Duo (st (cur_block W l)) (st (prev_block W l))) =
  Fin (match prev_block W l, cur_block W l with
       | [], c => v c
       | p, [_] => v p
       | p, c => let s := card c - 1 in
                 wavg ((INR W - s) ^ 2) (2 * s) (v p) (v c)
       end).
Proof.
  intros H2 Hl Hs He Hg.
  pose proof (cur_block_pos W HW l Hl) as Hc1.
  pose proof (cur_block_le W HW l) as Hc2.
  pose proof (fits_cur l) as Fc; pose proof (fits_prev l) as Fp.
  destruct (prev_block W l) as [|y t] eqn:E.
  - unfold duo_variance; cbn [active passive]; rewrite He, Hs; cbn [length N.of_nat N.eqb].
    apply Hg; [|exact Fc].
    destruct (cur_block W l); [cbn in Hc1; lia|congruence].
  - assert (Hne : cur_block W l <> [])
      by (destruct (cur_block W l); [cbn in Hc1; lia|congruence]).
    destruct (le_lt_dec (length (cur_block W l)) 1) as [H1|H1].
    + rewrite (duo_variance_one csize cempty g _ (length (cur_block W l))
                 (v (y :: t))); cbn [active passive]; auto.
      * destruct (cur_block W l) as [|c1 [|c2 c]]; cbn [length] in *; try lia; reflexivity.
      * apply Hg; [congruence|exact Fp].
      * rewrite He, Hs; reflexivity.
    + rewrite (duo_variance_wavg csize cempty g _ (length (cur_block W l))
                 (v (y :: t)) (v (cur_block W l))); cbn [active passive]; auto.
      * destruct (cur_block W l) as [|c1 [|c2 c]]; cbn [length] in *; try lia; reflexivity.
      * apply Hg; [congruence|exact Fp].
      * rewrite He, Hs; reflexivity.
Qed.

Lemma duo_stat_value {S} (csize : S -> N) cempty (g : S -> F)
    (st : list R -> S) (v : list R -> R) l :
  (2 * w < szmod)%N ->
  (forall l, csize (st l) = N.of_nat (length l)) ->
  (forall s, cempty s = N.eqb (csize s) 0) ->
  (forall l, g (st l) = Fin (v l)) ->
  duo_stat F w csize cempty g (Duo (st (cur_block W l)) (st (prev_block W l))) =
  Fin (match prev_block W l, cur_block W l with
       | [], c => v c
       | p, [_] => v p
       | p, c => let s := card c - 1 in
                 wavg (INR W - s) (2 * s) (v p) (v c)
       end).
Proof.
  intros H2 Hs He Hg.
  pose proof (cur_block_le W HW l) as Hc2.
  destruct (prev_block W l) as [|y t] eqn:E.
  - unfold duo_stat; cbn [active passive]; rewrite He, Hs; cbn [length N.of_nat N.eqb].
    apply Hg.
  - assert (Hl : l <> []) by (intros ->; cbn in E; congruence).
    pose proof (cur_block_pos W HW l Hl) as Hc1.
    destruct (le_lt_dec (length (cur_block W l)) 1) as [H1|H1].
    + rewrite (duo_stat_one csize cempty g _ (length (cur_block W l))
                 (v (y :: t))); cbn [active passive]; auto.
      * destruct (cur_block W l) as [|c1 [|c2 c]]; cbn [length] in *; try lia; reflexivity.
      * rewrite He, Hs; reflexivity.
    + rewrite (duo_stat_wavg csize cempty g _ (length (cur_block W l))
                 (v (y :: t)) (v (cur_block W l))); cbn [active passive]; auto.
      * destruct (cur_block W l) as [|c1 [|c2 c]]; cbn [length] in *; try lia; reflexivity.
      * rewrite He, Hs; reflexivity.
Qed.

End Obs.
