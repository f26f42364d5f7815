(** * A long stream outgrows the precision of the value type: proofs for C111 *)

From Coq Require Import Reals ZArith NArith List Bool Lia Lra.
From Coq Require Import Floats.SpecFloat.
From Flocq Require Import Core.
From Verif Require Import Arith Cumulative Ieee Approx ApproxInstances IeeeProofs CumulativeProofs.
Import ListNotations.
Local Open Scope R_scope.

Section Stall.
Variables prec emax : Z.
Hypothesis Hp : (1 < prec)%Z.
Hypothesis Hm : (prec < emax)%Z.
Hypothesis He : (64 < emax)%Z.
Hypothesis He2 : (prec + 2 <= emax)%Z.
Local Notation F := (ieee prec emax).
Local Notation den := (fdenotes prec emax).
Local Notation rnd := (rndf prec emax).
Local Notation rep := (repf prec emax).
Local Notation emin := (3 - emax - prec)%Z.
Local Instance Hprec' : FLX.Prec_gt_0 prec. Proof. red. lia. Qed.
Local Instance vexp' : Valid_exp (FLT_exp emin prec). Proof. apply FLT_exp_valid. exact Hprec'. Qed.

Lemma big_ge : 2 <= bpow radix2 (emax - 1).
Proof. change 2 with (bpow radix2 1). apply bpow_le. lia. Qed.

Lemma den_add x y a b : den x a -> den y b -> Rabs (a + b) <= bpow radix2 (emax - 1) -> den (@nadd F x y) (rnd (a + b)).
Proof. intros [Fx <-] [Fy <-] H. apply add_real; try assumption. apply rnd_range; assumption. Qed.
Lemma den_sub x y a b : den x a -> den y b -> Rabs (a - b) <= bpow radix2 (emax - 1) -> den (@nsub F x y) (rnd (a - b)).
Proof. intros [Fx <-] [Fy <-] H. apply sub_real; try assumption. apply rnd_range; assumption. Qed.
Lemma den_mul x y a b : den x a -> den y b -> Rabs (a * b) <= bpow radix2 (emax - 1) -> den (@nmul F x y) (rnd (a * b)).
Proof. intros [Fx <-] [Fy <-] H. apply mul_real; try assumption. apply rnd_range; assumption. Qed.
Lemma den_div x y a b : den x a -> den y b -> b <> 0 -> Rabs (a / b) <= bpow radix2 (emax - 1) -> den (@ndiv F x y) (rnd (a / b)).
Proof. intros [Fx <-] [Fy <-] Z H. apply div_real; try assumption. apply rnd_range; assumption. Qed.

Lemma small_int z : (Z.abs z <= 2 ^ prec)%Z -> rep (IZR z).
Proof. intros H. destruct (of_Z_small prec emax Hp Hm z H) as [Ff <-]. apply fr_rep; assumption. Qed.
Lemma rep_01 : rep 0 /\ rep 1 /\ rep (-1).
Proof.
  assert (2 <= 2 ^ prec)%Z by (change 2%Z with (2 ^ 1)%Z at 1; apply Z.pow_le_mono_r; lia).
  split; [apply (small_int 0); lia|]. split; [apply (small_int 1); lia|apply (small_int (-1)); lia].
Qed.

Lemma den_count k : (0 < k < szmod)%N -> exists c, den (@nofsz F k) c /\ 1 <= c /\ (bpow radix2 (prec + 2) <= IZR (Z.of_N k) -> bpow radix2 (prec + 2) <= c).
Proof.
  intros Hk. exists (rnd (IZR (Z.of_N k))).
  assert (K1 : 1 <= IZR (Z.of_N k)) by (apply IZR_le; lia).
  assert (R : Rabs (IZR (Z.of_N k)) <= bpow radix2 (emax - 1)).
  { rewrite Rabs_right by lra. apply Rle_trans with (bpow radix2 64); [|apply bpow_le; lia].
    rewrite <- (IZR_Zpower radix2) by lia. apply IZR_le. change (Zpower radix2 64) with (2 ^ 64)%Z. unfold szmod in Hk. lia. }
  split; [apply of_Z_real; try assumption; apply rnd_range; assumption|]. split.
  - rewrite <- (rnd_rep prec emax 1) at 1 by apply rep_01. apply rnd_le; try assumption.
  - intros H. rewrite <- (rnd_rep prec emax (bpow radix2 (prec + 2))) at 1 by (apply repf_bpow; lia). apply rnd_le; assumption.
Qed.

(** A value just below 1 rounds to 1. *)
Lemma absorb q : - bpow radix2 (- (prec + 2)) <= q <= 0 -> rnd (1 + q) = 1.
Proof.
  intros [Q1 Q2]. destruct rep_01 as (_ & R1 & _). apply Rle_antisym.
  - rewrite <- (rnd_rep prec emax 1) at 2 by exact R1. apply rnd_le; try assumption. lra.
  - unfold rndf. apply round_N_ge_midp; [exact vexp'|exact R1|].
    change 1 with (bpow radix2 0). rewrite pred_bpow. unfold FLT_exp. rewrite Z.max_l by lia.
    replace (0 - prec)%Z with (- prec)%Z by lia.
    replace (- (prec + 2))%Z with (- prec + -2)%Z in Q1 by lia. rewrite bpow_plus in Q1. change (bpow radix2 (-2)) with (/ 4) in Q1.
    pose proof (bpow_gt_0 radix2 (- prec)). change (bpow radix2 0) with 1. lra.
Qed.

Lemma one_step s k : den (cm_mean F s) 1 -> cm_count F s = k -> (k + 1 < szmod)%N ->
  den (cm_mean F (cmean_push F s (ieee_of_Z prec emax 1))) 1 /\ cm_count F (cmean_push F s (ieee_of_Z prec emax 1)) = (k + 1)%N.
Proof.
  intros D C Hk. destruct rep_01 as (R0 & R1 & _). pose proof big_ge as BG.
  assert (D1 : den (ieee_of_Z prec emax 1) 1).
  { apply (of_Z_small prec emax Hp Hm 1). pose proof (Z.pow_pos_nonneg 2 prec). lia. }
  assert (EC : szadd (cm_count F s) 1 = (k + 1)%N) by (rewrite C; unfold szadd; apply N.mod_small; exact Hk).
  unfold cmean_push. cbn [cm_mean cm_count]. rewrite EC. split; [|reflexivity].
  destruct (den_count (k + 1) ltac:(lia)) as (c & Dc & C1 & _).
  pose proof (den_sub _ _ _ _ D1 D ltac:(rewrite Rminus_diag_eq by reflexivity; rewrite Rabs_R0; lra)) as Ds.
  rewrite Rminus_diag_eq, rnd_0 in Ds by (assumption || reflexivity).
  assert (E0 : 0 / c = 0) by (unfold Rdiv; ring).
  pose proof (den_div _ _ _ _ Ds Dc ltac:(lra) ltac:(rewrite E0, Rabs_R0; lra)) as Dd. rewrite E0, rnd_0 in Dd by assumption.
  pose proof (den_add _ _ _ _ D Dd ltac:(rewrite Rplus_0_r, Rabs_R1; lra)) as Da.
  rewrite Rplus_0_r, rnd_rep in Da by assumption. exact Da.
Qed.

Lemma first_step : den (cm_mean F (cmean_push F (cmean_init F) (ieee_of_Z prec emax 1))) 1 /\
  cm_count F (cmean_push F (cmean_init F) (ieee_of_Z prec emax 1)) = 1%N.
Proof.
  destruct rep_01 as (R0 & R1 & _). pose proof big_ge as BG.
  assert (P2 : (2 <= 2 ^ prec)%Z) by (change 2%Z with (2 ^ 1)%Z at 1; apply Z.pow_le_mono_r; lia).
  assert (D1 : den (ieee_of_Z prec emax 1) 1) by (apply (of_Z_small prec emax Hp Hm 1); lia).
  assert (D0 : den (ieee_of_Z prec emax 0) 0) by (apply (of_Z_small prec emax Hp Hm 0); lia).
  split; [|reflexivity]. unfold cmean_push, cmean_init. cbn [cm_mean cm_count].
  change (@nofsz F (szadd 0 1)) with (ieee_of_Z prec emax 1).
  pose proof (den_sub _ _ _ _ D1 D0 ltac:(rewrite Rminus_0_r, Rabs_R1; lra)) as Ds.
  rewrite Rminus_0_r, rnd_rep in Ds by assumption.
  assert (E0 : 1 / 1 = 1) by lra.
  pose proof (den_div _ _ _ _ Ds D1 ltac:(lra) ltac:(rewrite E0, Rabs_R1; lra)) as Dd. rewrite E0, rnd_rep in Dd by assumption.
  pose proof (den_add _ _ _ _ D0 Dd ltac:(rewrite Rplus_0_l, Rabs_R1; lra)) as Da.
  rewrite Rplus_0_l, rnd_rep in Da by assumption. exact Da.
Qed.

Lemma zero_step s k : den (cm_mean F s) 1 -> cm_count F s = k -> (k + 1 < szmod)%N -> (2 ^ (prec + 2) <= Z.of_N k)%Z ->
  den (cm_mean F (cmean_push F s (ieee_of_Z prec emax 0))) 1 /\ cm_count F (cmean_push F s (ieee_of_Z prec emax 0)) = (k + 1)%N.
Proof.
  intros D C Hk HK. destruct rep_01 as (R0 & R1 & Rm). pose proof big_ge as BG.
  assert (P2 : (2 <= 2 ^ prec)%Z) by (change 2%Z with (2 ^ 1)%Z at 1; apply Z.pow_le_mono_r; lia).
  assert (D0 : den (ieee_of_Z prec emax 0) 0) by (apply (of_Z_small prec emax Hp Hm 0); lia).
  assert (EC : szadd (cm_count F s) 1 = (k + 1)%N) by (rewrite C; unfold szadd; apply N.mod_small; exact Hk).
  unfold cmean_push. cbn [cm_mean cm_count]. rewrite EC. split; [|reflexivity].
  destruct (den_count (k + 1) ltac:(lia)) as (c & Dc & C1 & C2).
  assert (CK : bpow radix2 (prec + 2) <= c).
  { apply C2. rewrite <- (IZR_Zpower radix2) by lia. apply IZR_le. change (Zpower radix2 (prec + 2)) with (2 ^ (prec + 2))%Z. lia. }
  assert (Em : 0 - 1 = -1) by ring.
  pose proof (den_sub _ _ _ _ D0 D ltac:(rewrite Em; rewrite Rabs_left by lra; lra)) as Ds. rewrite Em, rnd_rep in Ds by assumption.
  assert (Q : - bpow radix2 (- (prec + 2)) <= -1 / c <= 0).
  { rewrite bpow_opp. pose proof (bpow_gt_0 radix2 (prec + 2)) as B0. unfold Rdiv.
    assert (/ c <= / bpow radix2 (prec + 2)) by (apply Rinv_le; lra).
    assert (0 < / c) by (apply Rinv_0_lt_compat; lra). lra. }
  assert (U : bpow radix2 (- (prec + 2)) <= 1) by (change 1 with (bpow radix2 0); apply bpow_le; lia).
  pose proof (den_div _ _ _ _ Ds Dc ltac:(lra) ltac:(apply Rabs_le; lra)) as Dd.
  assert (Q' : - bpow radix2 (- (prec + 2)) <= rnd (-1 / c) <= 0).
  { split.
    - rewrite <- (rnd_rep prec emax (bpow radix2 (- (prec + 2)))), <- rnd_opp by (apply repf_bpow; lia). apply rnd_le; try assumption. apply Q.
    - rewrite <- (rnd_0 prec emax). apply rnd_le; try assumption. apply Q. }
  pose proof (den_add _ _ _ _ D Dd ltac:(apply Rabs_le; lra)) as Da. rewrite absorb in Da by exact Q'. exact Da.
Qed.

(** A count equal to 2^prec does not grow by 1. *)
Lemma saturate : rnd (IZR (2 ^ prec) + 1) = IZR (2 ^ prec).
Proof.
  assert (P : (2 ^ prec = 2 * 2 ^ (prec - 1))%Z) by (rewrite <- Z.pow_succ_r by lia; f_equal; lia).
  assert (P' : (2 ^ (prec - 1) = 2 * 2 ^ (prec - 2))%Z) by (rewrite <- Z.pow_succ_r by lia; f_equal; lia).
  assert (Q0 : (0 < 2 ^ (prec - 2))%Z) by (apply Z.pow_pos_nonneg; lia).
  assert (Q1 : 0 < IZR (2 ^ (prec - 2))) by (apply IZR_lt; exact Q0).
  assert (P1 : IZR (2 ^ prec) = 2 * IZR (2 ^ (prec - 1))) by (rewrite P, mult_IZR; reflexivity).
  assert (P2 : IZR (2 ^ (prec - 1)) = 2 * IZR (2 ^ (prec - 2))) by (rewrite P', mult_IZR; reflexivity).
  assert (Q2 : 1 <= IZR (2 ^ (prec - 2))) by (apply IZR_le; lia).
  assert (M : mag radix2 (IZR (2 ^ prec) + 1) = (prec + 1)%Z :> Z).
  { apply mag_unique. rewrite Rabs_right by lra. replace (prec + 1 - 1)%Z with prec by lia.
    rewrite bpow_plus_1, <- (IZR_Zpower radix2) by lia. change (Zpower radix2 prec) with (2 ^ prec)%Z.
    change (IZR radix2) with 2. lra. }
  unfold rndf, round. unfold scaled_mantissa, cexp. rewrite M. unfold FLT_exp. rewrite Z.max_l by lia.
  replace (prec + 1 - prec)%Z with 1%Z by lia. change (bpow radix2 (- (1))) with (/ 2).
  assert (E : (IZR (2 ^ prec) + 1) * / 2 = IZR (2 ^ (prec - 1)) + / 2) by lra. rewrite E.
  assert (Fl : Zfloor (IZR (2 ^ (prec - 1)) + / 2) = (2 ^ (prec - 1))%Z).
  { apply Zfloor_imp. rewrite plus_IZR. lra. }
  unfold ZnearestE, Znearest. rewrite Fl. rewrite Rcompare_Eq by lra.
  assert (Ev : Z.even (2 ^ (prec - 1)) = true) by (rewrite P', Z.even_mul; reflexivity).
  rewrite Ev. cbn [negb]. unfold F2R. cbn [Fnum Fexp]. change (bpow radix2 1) with 2. lra.
Qed.

Lemma count_sum z : (0 <= z)%Z -> rnd (IZR (Z.min z (2 ^ prec)) + 1) = IZR (Z.min (z + 1) (2 ^ prec)).
Proof.
  intros Hz. destruct (Z_lt_le_dec z (2 ^ prec)) as [L|L].
  - rewrite !Z.min_l by lia. rewrite <- plus_IZR. apply rnd_rep; try assumption. apply small_int. lia.
  - rewrite !Z.min_r by lia. apply saturate.
Qed.

Local Notation one := (ieee_of_Z prec emax 1).
Local Notation zero := (ieee_of_Z prec emax 0).

Definition stalled (s : cvar F) (k : N) (z : Z) : Prop :=
  den (cm_mean F (cv_super F s)) 1 /\ cm_count F (cv_super F s) = k /\ den (cv_sum F s) (IZR (Z.min z (2 ^ prec))).

Lemma den_one : den one 1.
Proof. assert (2 <= 2 ^ prec)%Z by (change 2%Z with (2 ^ 1)%Z at 1; apply Z.pow_le_mono_r; lia). apply (of_Z_small prec emax Hp Hm 1); lia. Qed.
Lemma den_zero : den zero 0.
Proof. assert (2 <= 2 ^ prec)%Z by (change 2%Z with (2 ^ 1)%Z at 1; apply Z.pow_le_mono_r; lia). apply (of_Z_small prec emax Hp Hm 0); lia. Qed.

Lemma min0 : Z.min 0 (2 ^ prec) = 0%Z.
Proof. apply Z.min_l. apply Z.pow_nonneg. lia. Qed.

Lemma var_first : stalled (cvar_push F (cvar_init F) one) 1 0.
Proof.
  destruct rep_01 as (R0 & R1 & Rm). pose proof big_ge as BG. destruct first_step as [A1 A2].
  unfold stalled, cvar_push, cvar_init. cbn [cv_super cv_sum]. split; [exact A1|]. split; [exact A2|]. rewrite min0.
  change (cmean_mean F (cmean_init F)) with zero.
  pose proof (den_sub _ _ _ _ den_one den_zero ltac:(rewrite Rminus_0_r, Rabs_R1; lra)) as Ds. rewrite Rminus_0_r, rnd_rep in Ds by assumption.
  pose proof (den_sub _ _ _ _ den_one A1 ltac:(rewrite Rminus_diag_eq by reflexivity; rewrite Rabs_R0; lra)) as Dn.
  rewrite Rminus_diag_eq, rnd_0 in Dn by (assumption || reflexivity).
  pose proof (den_mul _ _ _ _ Ds Dn ltac:(rewrite Rmult_0_r, Rabs_R0; lra)) as Dm. rewrite Rmult_0_r, rnd_0 in Dm by assumption.
  pose proof (den_add _ _ _ _ den_zero Dm ltac:(rewrite Rplus_0_r, Rabs_R0; lra)) as Da. rewrite Rplus_0_r, rnd_0 in Da by assumption. exact Da.
Qed.

Lemma var_one s k : stalled s k 0 -> (k + 1 < szmod)%N -> stalled (cvar_push F s one) (k + 1) 0.
Proof.
  destruct rep_01 as (R0 & R1 & Rm). pose proof big_ge as BG.
  intros (S1 & S2 & S3) Hk. destruct (one_step _ k S1 S2 Hk) as [A1 A2]. rewrite min0 in S3.
  unfold stalled, cvar_push. cbn [cv_super cv_sum]. split; [exact A1|]. split; [exact A2|]. rewrite min0.
  pose proof (den_sub _ _ _ _ den_one S1 ltac:(rewrite Rminus_diag_eq by reflexivity; rewrite Rabs_R0; lra)) as Ds.
  rewrite Rminus_diag_eq, rnd_0 in Ds by (assumption || reflexivity).
  pose proof (den_sub _ _ _ _ den_one A1 ltac:(rewrite Rminus_diag_eq by reflexivity; rewrite Rabs_R0; lra)) as Dn.
  rewrite Rminus_diag_eq, rnd_0 in Dn by (assumption || reflexivity).
  pose proof (den_mul _ _ _ _ Ds Dn ltac:(rewrite Rmult_0_r, Rabs_R0; lra)) as Dm. rewrite Rmult_0_r, rnd_0 in Dm by assumption.
  pose proof (den_add _ _ _ _ S3 Dm ltac:(rewrite Rplus_0_r, Rabs_R0; lra)) as Da. rewrite Rplus_0_r, rnd_0 in Da by assumption. exact Da.
Qed.

Lemma var_zero s k z : stalled s k z -> (0 <= z)%Z -> (k + 1 < szmod)%N -> (2 ^ (prec + 2) <= Z.of_N k)%Z ->
  stalled (cvar_push F s zero) (k + 1) (z + 1).
Proof.
  destruct rep_01 as (R0 & R1 & Rm). pose proof big_ge as BG.
  intros (S1 & S2 & S3) Hz Hk HK. destruct (zero_step _ k S1 S2 Hk HK) as [A1 A2].
  unfold stalled, cvar_push. cbn [cv_super cv_sum]. split; [exact A1|]. split; [exact A2|].
  assert (Em : 0 - 1 = -1) by ring.
  pose proof (den_sub _ _ _ _ den_zero S1 ltac:(rewrite Em; rewrite Rabs_left by lra; lra)) as Ds. rewrite Em, rnd_rep in Ds by assumption.
  pose proof (den_sub _ _ _ _ den_zero A1 ltac:(rewrite Em; rewrite Rabs_left by lra; lra)) as Dn. rewrite Em, rnd_rep in Dn by assumption.
  assert (E1 : -1 * -1 = 1) by ring.
  pose proof (den_mul _ _ _ _ Ds Dn ltac:(rewrite E1, Rabs_R1; lra)) as Dm. rewrite E1, rnd_rep in Dm by assumption.
  assert (X0 : 0 <= IZR (Z.min z (2 ^ prec))) by (apply IZR_le; assert (0 < 2 ^ prec)%Z by (apply Z.pow_pos_nonneg; lia); lia).
  assert (X1 : IZR (Z.min z (2 ^ prec)) <= bpow radix2 prec).
  { rewrite <- (IZR_Zpower radix2) by lia. apply IZR_le. change (Zpower radix2 prec) with (2 ^ prec)%Z. lia. }
  pose proof (bpow_gt_0 radix2 prec).
  assert (X2 : 1 <= bpow radix2 prec) by (change 1 with (bpow radix2 0); apply bpow_le; lia).
  assert (X3 : IZR (Z.min z (2 ^ prec)) + 1 <= bpow radix2 (emax - 1)).
  { apply Rle_trans with (bpow radix2 (prec + 1)); [rewrite bpow_plus_1; change (IZR radix2) with 2; lra|apply bpow_le; lia]. }
  pose proof (den_add _ _ _ _ S3 Dm ltac:(rewrite Rabs_right by lra; exact X3)) as Da. rewrite count_sum in Da by exact Hz. exact Da.
Qed.

Lemma var_ones a : forall s k, stalled s k 0 -> (k + N.of_nat a < szmod)%N ->
  stalled (fold_left (cvar_push F) (repeat one a) s) (k + N.of_nat a) 0.
Proof.
  induction a as [|a IH]; intros s k St Hk; [cbn [repeat fold_left]; rewrite N.add_0_r; exact St|].
  cbn [repeat fold_left]. replace (k + N.of_nat (S a))%N with ((k + 1) + N.of_nat a)%N by lia.
  apply IH; [apply var_one; [exact St|lia]|lia].
Qed.

Lemma var_zeros b : forall s k z, stalled s k z -> (0 <= z)%Z -> (k + N.of_nat b < szmod)%N -> (2 ^ (prec + 2) <= Z.of_N k)%Z ->
  stalled (fold_left (cvar_push F) (repeat zero b) s) (k + N.of_nat b) (z + Z.of_nat b).
Proof.
  induction b as [|b IH]; intros s k z St Hz Hk HK.
  - cbn [repeat fold_left]. rewrite N.add_0_r, Z.add_0_r. exact St.
  - cbn [repeat fold_left]. replace (k + N.of_nat (S b))%N with ((k + 1) + N.of_nat b)%N by lia.
    replace (z + Z.of_nat (S b))%Z with ((z + 1) + Z.of_nat b)%Z by lia.
    apply IH; [apply var_zero; assumption || lia|lia|lia|lia].
Qed.

Lemma var_stream a b : (2 ^ (prec + 2) <= Z.of_nat a)%Z -> (N.of_nat a + N.of_nat b < szmod)%N ->
  stalled (fold_left (cvar_push F) (repeat one a ++ repeat zero b) (cvar_init F)) (N.of_nat a + N.of_nat b) (Z.of_nat b).
Proof.
  intros Ha Hs. rewrite fold_left_app. apply (var_zeros b _ _ 0); [|lia|exact Hs|lia].
  destruct a as [|a]; [exfalso; assert (0 < 2 ^ (prec + 2))%Z by (apply Z.pow_pos_nonneg; lia); lia|].
  cbn [repeat fold_left]. replace (N.of_nat (S a)) with (1 + N.of_nat a)%N by lia. apply var_ones; [apply var_first|lia].
Qed.

Lemma cvar_fold_mean l : forall s, cv_super F (fold_left (cvar_push F) l s) = fold_left (cmean_push F) l (cv_super F s).
Proof. induction l as [|x l IH]; intros s; [reflexivity|]. cbn [fold_left]. rewrite IH. reflexivity. Qed.
End Stall.
