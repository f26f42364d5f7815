(** * The sign of interim variances in every IEEE format

    As the last part of [SignProofs], for any precision and exponent range. *)

From Coq Require Import Reals ZArith NArith Bool List Lia Lra Psatz.
From Coq Require Import Floats.SpecFloat.
From Flocq Require Import Core.
From Flocq Require Import IEEE754.BinarySingleNaN.
From Verif Require Import Arith History HistoryLemmas Cumulative CumulativeProofs Decay Interim
  Rounded RoundedProofs Ieee IeeeProofs IeeeSign SpecStats SpecBlocks BlockLemmas InterimStats.
Import ListNotations.
Local Open Scope R_scope.

Section Format.
Variables prec emax : Z.
Hypothesis Hp : (1 < prec)%Z.
Hypothesis Hm : (prec < emax)%Z.
(** Every size_t is in range. *)
Hypothesis H65 : (65 <= emax)%Z.
Local Notation Hprec := (IeeeProofs.Hprec prec Hp).
Local Notation Hmax := (IeeeProofs.Hmax prec emax Hm).
Local Instance precf : FLX.Prec_gt_0 prec := Hprec.
Local Notation emin := (3 - emax - prec)%Z.
Local Notation fexp := (FLT_exp emin prec).
Local Instance vexpf : Valid_exp fexp. Proof. apply FLT_exp_valid. exact Hprec. Qed.
Local Instance mexpf : Monotone_exp fexp. Proof. apply FLT_exp_monotone. Qed.
Local Instance validf : Valid_rnd ZnearestE := valid_rnd_N _.
Local Notation FN := (ieee prec emax).
Local Notation FF := (rounded emin prec ZnearestE).
Local Notation rndf := (rndf prec emax).
Local Notation repf := (repf prec emax).
Local Notation in_range := (in_range emax).
Local Notation of_Z_small := (of_Z_small prec emax Hp Hm).
Local Notation of_Z_real := (of_Z_real prec emax Hp Hm).
Local Notation add_real := (add_real prec emax Hp Hm).
Local Notation sub_real := (sub_real prec emax Hp Hm).
Local Notation mul_real := (mul_real prec emax Hp Hm).
Local Notation div_real := (div_real prec emax Hp Hm).
Local Notation leb_real := (leb_real prec emax).
Local Notation ltb_real := (ltb_real prec emax).
Local Notation rnd_le := (rnd_le prec emax Hp).
Local Notation rnd_rep := (rnd_rep prec emax).
Local Notation rnd_0 := (rnd_0 prec emax).
Local Notation rnd_abs := (rnd_abs prec emax Hp).
Local Notation fr_rep := (fr_rep prec emax).
Local Notation fr_bound := (fr_bound prec emax).
Local Notation repf_bpow := (repf_bpow prec emax Hp).
Local Notation ff_B := (ff_B prec emax).

Local Notation sign_real := (sign_real prec emax).
Local Notation nonneg_f := (nonneg_f prec emax).
Local Notation nonneg_f_add := (nonneg_f_add prec emax Hp Hm).
Local Notation nonneg_f_mul := (nonneg_f_mul prec emax Hp Hm).
Local Notation nonneg_f_div := (nonneg_f_div prec emax Hp Hm).
Local Notation count_denotes := (count_denotes prec emax Hp Hm H65).
Local Notation cmean_f := (cmean_f prec emax Hp Hm H65).
Local Notation cvar_f := (cvar_f prec emax Hp Hm H65).
Local Notation okl := (okl prec emax).

Lemma cvar_variance_nonneg (l : list FN) : okl l -> l <> [] -> (N.of_nat (length l) < szmod)%N ->
  nonneg_f (cvar_variance FN (fold_left (cvar_push FN) l (cvar_init FN))).
Proof.
  intros OK NE HL. unfold cvar_variance. rewrite cvar_fold_super.
  change (cv_super FN (cvar_init FN)) with (cmean_init FN).
  destruct (cmean_f l OK HL) as (m & r & E & _). rewrite E. cbn [cm_count].
  assert (H1 : (1 <= N.of_nat (length l))%N) by (destruct l; [congruence|cbn [length]; lia]).
  apply (nonneg_f_div _ _ (rndf (IZR (Z.of_N (N.of_nat (length l)))))).
  - apply cvar_f; assumption.
  - apply count_denotes; assumption.
  - apply (@rnd_ge1 emin prec _ ltac:(lia) ZnearestE _). apply IZR_le. lia.
Qed.

Lemma weight_nonneg k v : (1 <= k)%N -> (k < szmod)%N -> nonneg_f v ->
  nonneg_f (@nmul FN (@nofsz FN k) v).
Proof.
  intros H1 H2 H. destruct (count_denotes k H1 H2) as [F R].
  assert (G : 1 <= rndf (IZR (Z.of_N k))).
  { apply (@rnd_ge1 emin prec _ ltac:(lia) ZnearestE _). apply IZR_le. lia. }
  destruct H as [[Fv Pv]| ->].
  - apply nonneg_f_mul; [exact F|exact Fv|]. rewrite R. nra.
  - right. pose proof (sign_real _ F ltac:(rewrite R; lra)) as S. change (@nmul FN) with (SFmul prec emax).
    rewrite <- R in G. destruct (@nofsz FN k) as [s|s| |s m e]; try (destruct F; discriminate).
    + unfold ieee_real in G. cbn in G. lra.
    + cbn in S. subst s. reflexivity.
Qed.

Lemma cvar_csize_f (l : list FN) : (N.of_nat (length l) < szmod)%N ->
  cvar_size FN (fold_left (cvar_push FN) l (cvar_init FN)) = N.of_nat (length l).
Proof. apply InterimStats.cvar_csize. Qed.

Lemma ivar_nonneg W (ops : list (op FN)) : (0 < W)%nat -> (N.of_nat W <= 4294967296)%N ->
  let l := since_clear ops in l <> [] -> okl (lastn (2 * W) l) ->
  nonneg_f (ivar_variance FN (N.of_nat W)
    (run (ivar_push FN (N.of_nat W)) (ivar_clear FN) (ivar_init FN) ops)).
Proof.
  intros HW H32 l NE OK.
  assert (HS : (N.of_nat W < szmod)%N) by (unfold szmod; lia).
  pose proof (duo_run (A := FN) W HW (cvar FN) (cvar_init FN) (cvar_clear FN) (cvar_push FN) (cvar_size FN)
    HS (cvar_clear_init FN) cvar_csize_f ops) as ER.
  set (d := run (ivar_push FN (N.of_nat W)) (ivar_clear FN) (ivar_init FN) ops).
  change (d = Duo (fold_left (cvar_push FN) (cur_block W l) (cvar_init FN))
                  (fold_left (cvar_push FN) (prev_block W l) (cvar_init FN))) in ER.
  rewrite ER. clear ER d.
  assert (Bc : okl (cur_block W l) /\ okl (prev_block W l)).
  { unfold okl in *. rewrite Forall_forall in OK. split; apply Forall_forall; intros x Hx; apply OK.
    - apply (cur_block_In W HW); exact Hx.
    - apply (prev_block_In W HW); exact Hx. }
  destruct Bc as [Oc Op].
  pose proof (cur_block_le W HW l) as Lc. pose proof (prev_block_le W HW l) as Lp.
  assert (Nc : (1 <= length (cur_block W l))%nat).
  { rewrite (cur_block_length W HW). destruct l; [congruence|]. lia. }
  assert (NEc : cur_block W l <> []) by (intros E; rewrite E in Nc; cbn in Nc; lia).
  pose proof (cvar_variance_nonneg _ Oc NEc ltac:(lia)) as Vc.
  assert (Vp : prev_block W l <> [] ->
    nonneg_f (cvar_variance FN (fold_left (cvar_push FN) (prev_block W l) (cvar_init FN)))).
  { intros E. apply cvar_variance_nonneg; [exact Op|exact E|lia]. }
  assert (Ec := cvar_csize_f (cur_block W l) ltac:(lia)).
  assert (Ep := cvar_csize_f (prev_block W l) ltac:(lia)).
  set (c := fold_left (cvar_push FN) (cur_block W l) (cvar_init FN)) in *.
  set (q := fold_left (cvar_push FN) (prev_block W l) (cvar_init FN)) in *.
  unfold ivar_variance, duo_variance. cbn [active passive].
  change (cvar_empty FN q) with (N.eqb (cvar_size FN q) 0). rewrite Ec, Ep.
  destruct (N.eqb_spec (N.of_nat (length (prev_block W l))) 0) as [Z|Z]; [exact Vc|].
  assert (NEp : prev_block W l <> []) by (intros E; rewrite E in Z; cbn in Z; lia).
  specialize (Vp NEp).
  destruct (N.leb_spec (N.of_nat (length (cur_block W l))) 1) as [H1|H1]; [exact Vp|].
  set (k := N.of_nat (length (cur_block W l))) in *.
  rewrite (szsub_small k 1) by lia. rewrite (szsub_small (N.of_nat W) (k - 1)) by lia.
  assert (B1 : (1 <= N.of_nat W - (k - 1) <= 4294967295)%N) by lia.
  assert (B2 : (1 <= (N.of_nat W - (k - 1)) * (N.of_nat W - (k - 1)) <= 4294967295 * 4294967295)%N).
  { split; [|apply N.mul_le_mono; lia]. change 1%N with (1 * 1)%N. apply N.mul_le_mono; lia. }
  rewrite (szmul_small (N.of_nat W - (k - 1)) _) by (unfold szmod; lia).
  rewrite (szmul_small 2 (k - 1)) by (unfold szmod; lia).
  rewrite szadd_small by (unfold szmod; lia).
  set (wp := ((N.of_nat W - (k - 1)) * (N.of_nat W - (k - 1)))%N) in *.
  assert (T1 : (1 <= wp + 2 * (k - 1))%N) by lia.
  assert (T2 : (wp + 2 * (k - 1) < szmod)%N) by (unfold szmod; lia).
  apply (nonneg_f_div _ _ (rndf (IZR (Z.of_N (wp + 2 * (k - 1)))))).
  - apply nonneg_f_add; apply weight_nonneg; try assumption; unfold szmod; lia.
  - apply count_denotes; assumption.
  - apply (@rnd_ge1 emin prec _ ltac:(lia) ZnearestE _). apply IZR_le. lia.
Qed.

End Format.
