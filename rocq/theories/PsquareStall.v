(** * The median of a long stream in a value type of few bits: proofs for C112 *)

From Coq Require Import QArith Reals ZArith NArith List Bool Lia Lra.
From Coq Require Import Floats.SpecFloat.
From Flocq Require Import Core.
From Verif Require Import Arith HistoryLemmas Psquare PsquareLemmas Ieee Approx ApproxInstances IeeeProofs StallProofs.
Import ListNotations.
Local Open Scope R_scope.

Section Median.
Variables prec emax : Z.
Hypothesis Hp : (5 <= prec)%Z.
Hypothesis Hm : (prec + 2 <= emax)%Z.
Hypothesis He : (66 < emax)%Z.
Local Notation F := (ieee prec emax).
Local Notation den := (fdenotes prec emax).
Local Notation rnd := (rndf prec emax).
Local Notation rep := (repf prec emax).
Local Notation big := (bpow radix2 (emax - 1)).
Local Notation emin := (3 - emax - prec)%Z.
Local Instance Hprec2 : FLX.Prec_gt_0 prec. Proof. red. lia. Qed.
Local Instance vexp2 : Valid_exp (FLT_exp emin prec). Proof. apply FLT_exp_valid. exact Hprec2. Qed.

Fact Hp1 : (1 < prec)%Z. Proof. lia. Qed.
Fact Hm1 : (prec < emax)%Z. Proof. lia. Qed.
Fact He1 : (64 < emax)%Z. Proof. lia. Qed.

(** Adding half a unit in the last place to a power of two has no effect. *)
Lemma tie k : (0 <= k <= emax - 1)%Z -> rnd (bpow radix2 k + bpow radix2 (k - prec)) = bpow radix2 k.
Proof.
  intros Hk. set (c := (k + 1 - prec)%Z).
  assert (P' : (2 ^ (prec - 1) = 2 * 2 ^ (prec - 2))%Z) by (rewrite <- Z.pow_succ_r by lia; f_equal; lia).
  assert (Ec : bpow radix2 k = IZR (2 ^ (prec - 1)) * bpow radix2 c).
  { change (2 ^ (prec - 1))%Z with (Zpower radix2 (prec - 1)). rewrite IZR_Zpower, <- bpow_plus by lia. f_equal. unfold c. lia. }
  assert (Eh : bpow radix2 (k - prec) = / 2 * bpow radix2 c).
  { change (/ 2) with (bpow radix2 (-1)). rewrite <- bpow_plus. f_equal. unfold c. lia. }
  pose proof (bpow_gt_0 radix2 c) as C0.
  assert (Q1 : 1 <= IZR (2 ^ (prec - 1))) by (apply IZR_le; assert (0 < 2 ^ (prec - 2))%Z by (apply Z.pow_pos_nonneg; lia); lia).
  pose proof (bpow_gt_0 radix2 k) as K0. pose proof (bpow_gt_0 radix2 (k - prec)) as KP0.
  assert (KL : bpow radix2 (k - prec) < bpow radix2 k) by (apply bpow_lt; lia).
  assert (M : mag radix2 (bpow radix2 k + bpow radix2 (k - prec)) = (k + 1)%Z :> Z).
  { apply mag_unique. rewrite Rabs_right by lra. replace (k + 1 - 1)%Z with k by lia.
    rewrite bpow_plus_1. change (IZR radix2) with 2. lra. }
  unfold rndf, round. unfold scaled_mantissa, cexp. rewrite M. unfold FLT_exp. rewrite Z.max_l by lia. fold c.
  assert (E : (bpow radix2 k + bpow radix2 (k - prec)) * bpow radix2 (- c) = IZR (2 ^ (prec - 1)) + / 2).
  { rewrite Ec, Eh, bpow_opp. field. lra. }
  rewrite E.
  assert (Fl : Zfloor (IZR (2 ^ (prec - 1)) + / 2) = (2 ^ (prec - 1))%Z).
  { apply Zfloor_imp. rewrite plus_IZR. lra. }
  unfold ZnearestE, Znearest. rewrite Fl. rewrite Rcompare_Eq by lra.
  assert (Ev : Z.even (2 ^ (prec - 1)) = true) by (rewrite P', Z.even_mul; reflexivity).
  rewrite Ev. cbn [negb]. unfold F2R. cbn [Fnum Fexp]. rewrite Ec. reflexivity.
Qed.

(** Multiples of 1/2 up to 2^(prec-1). *)
Lemma rep_half z : (0 <= z <= 2 ^ prec)%Z -> rep (IZR z * / 2).
Proof.
  intros Hz. destruct (Z.eq_dec z (2 ^ prec)) as [->|N].
  - change (2 ^ prec)%Z with (Zpower radix2 prec). rewrite IZR_Zpower by lia. change (/ 2) with (bpow radix2 (-1)).
    rewrite <- bpow_plus. apply repf_bpow; lia.
  - apply generic_format_FLT. exists (Float radix2 z (-1)); [unfold F2R; cbn; lra|cbn [Fnum]; change (Z.pow radix2 prec) with (2 ^ prec)%Z; rewrite Z.abs_eq by lia; lia|cbn [Fexp]; lia].
Qed.

(** Conversion of positions. *)
Lemma den_pos k : (k < szmod)%N -> exists c, den (@nofsz F k) c /\ 0 <= c <= bpow radix2 64 /\
  ((0 < k)%N -> 1 <= c) /\
  ((Z.of_N k <= 2 ^ prec)%Z -> c = IZR (Z.of_N k)) /\ ((2 ^ prec < Z.of_N k)%Z -> bpow radix2 prec <= c).
Proof.
  intros Hk. exists (rnd (IZR (Z.of_N k))).
  assert (K0 : 0 <= IZR (Z.of_N k)) by (apply IZR_le; lia).
  assert (K1 : IZR (Z.of_N k) <= bpow radix2 64).
  { rewrite <- (IZR_Zpower radix2) by lia. apply IZR_le. change (Zpower radix2 64) with (2 ^ 64)%Z. unfold szmod in Hk. lia. }
  assert (R : Rabs (IZR (Z.of_N k)) <= big).
  { rewrite Rabs_right by lra. apply Rle_trans with (bpow radix2 64); [exact K1|apply bpow_le; lia]. }
  split; [apply of_Z_real; [exact Hp1|exact Hm1|apply rnd_range; [exact Hp1|exact Hm1|exact R]]|].
  split; [split|split; [|split]].
  - rewrite <- (rnd_0 prec emax). apply rnd_le; [exact Hp1|exact K0].
  - rewrite <- (rnd_rep prec emax (bpow radix2 64)) by (apply repf_bpow; lia). apply rnd_le; [exact Hp1|exact K1].
  - intros H. rewrite <- (rnd_rep prec emax 1) at 1 by (apply (rep_01 prec emax Hp1 Hm1)). apply rnd_le; [exact Hp1|]. apply IZR_le. lia.
  - intros H. apply rnd_rep. apply small_int; [exact Hp1|exact Hm1|lia].
  - intros H. rewrite <- (rnd_rep prec emax (bpow radix2 prec)) at 1 by (apply repf_bpow; lia). apply rnd_le; [exact Hp1|].
    rewrite <- (IZR_Zpower radix2) by lia. apply IZR_le. change (Zpower radix2 prec) with (2 ^ prec)%Z. lia.
Qed.

(** Desired positions. *)
Lemma des1 x : 0 <= x <= bpow radix2 (prec - 2) -> 0 <= rnd (x + / 4) <= bpow radix2 (prec - 2).
Proof.
  intros [X0 X1]. split.
  - rewrite <- (rnd_0 prec emax). apply rnd_le; [exact Hp1|lra].
  - rewrite <- (tie (prec - 2)) by lia. apply rnd_le; [exact Hp1|].
    replace (prec - 2 - prec)%Z with (-2)%Z by lia. change (bpow radix2 (-2)) with (/ 4). lra.
Qed.

Lemma des2 z : (0 <= z)%Z -> rnd (IZR (Z.min z (2 ^ prec)) * / 2 + / 2) = IZR (Z.min (z + 1) (2 ^ prec)) * / 2.
Proof.
  intros Hz. destruct (Z_lt_le_dec z (2 ^ prec)) as [L|L].
  - rewrite !Z.min_l by lia. replace (IZR z * / 2 + / 2) with (IZR (z + 1) * / 2) by (rewrite plus_IZR; lra).
    apply rnd_rep. apply rep_half. lia.
  - rewrite !Z.min_r by lia. assert (E : IZR (2 ^ prec) * / 2 = bpow radix2 (prec - 1)).
    { change (2 ^ prec)%Z with (Zpower radix2 prec). rewrite IZR_Zpower by lia. change (/ 2) with (bpow radix2 (-1)). rewrite <- bpow_plus. f_equal. }
    rewrite E. pose proof (tie (prec - 1) ltac:(lia)) as T. replace (prec - 1 - prec)%Z with (-1)%Z in T by lia. exact T.
Qed.

Lemma pow_small : bpow radix2 (- prec) <= / 32 /\ bpow radix2 (2 - emax - prec) <= / 32.
Proof. change (/ 32) with (bpow radix2 (-5)). split; apply bpow_le; lia. Qed.

Lemma des3 x m : Rmin (4 + m / 16) (bpow radix2 (prec - 1) + 1) <= x <= bpow radix2 prec -> 0 <= m ->
  Rmin (4 + (m + 1) / 16) (bpow radix2 (prec - 1) + 1) <= rnd (x + 3 / 4) <= bpow radix2 prec.
Proof.
  intros [X0 X1] M0. set (D := bpow radix2 (prec - 1)) in *. assert (D1 : 1 <= D) by (change 1 with (bpow radix2 0); apply bpow_le; lia).
  split.
  - set (y := Rmin (4 + m / 16) (D + 1)) in *.
    assert (Y0 : 0 <= y) by (unfold y; apply Rmin_glb; lra).
    assert (Y1 : y <= D + 1) by apply Rmin_r.
    apply Rle_trans with (rnd (y + 3 / 4)); [|apply rnd_le; [exact Hp1|lra]].
    assert (N : near (bpow radix2 (- prec)) (bpow radix2 (2 - emax - prec)) (y + 3 / 4) (rnd (y + 3 / 4))).
    { replace (2 - emax - prec)%Z with (emin - 1)%Z by lia. apply (rounding_nearest emin prec); lia. }
    unfold near in N. apply Raux.Rabs_le_inv in N. rewrite (Rabs_right (y + 3 / 4)) in N by lra.
    destruct pow_small as [S1 S2].
    assert (U : bpow radix2 (- prec) * (y + 3 / 4) <= / 2 + / 16).
    { apply Rle_trans with (bpow radix2 (- prec) * (D + 2)); [apply Rmult_le_compat_l; [apply bpow_ge_0|lra]|].
      rewrite Rmult_plus_distr_l. unfold D. rewrite <- bpow_plus. replace (- prec + (prec - 1))%Z with (-1)%Z by lia. change (bpow radix2 (-1)) with (/ 2). lra. }
    assert (V : Rmin (4 + (m + 1) / 16) (D + 1) <= y + / 16).
    { unfold y. destruct (Rle_dec (4 + m / 16) (D + 1)).
      - rewrite (Rmin_left (4 + m / 16)) by lra. eapply Rle_trans; [apply Rmin_l|]. lra.
      - rewrite (Rmin_right (4 + m / 16)) by lra. eapply Rle_trans; [apply Rmin_r|]. lra. }
    lra.
  - rewrite <- (tie prec) by lia. rewrite Z.sub_diag. apply rnd_le; [exact Hp1|]. change (bpow radix2 0) with 1. lra.
Qed.

(** ** One adjustment *)
Definition new_height (p : list N) (h : list F) (i : nat) (sg : Z) (v : F) : Prop :=
  v = psq_parabolic F p h i sg \/ v = psq_linear F p h i sg.

Lemma adjust_cases d p h i x c :
  den (hat F d i) x -> den (@nofsz F (pat p i)) c -> Rabs (x - c) <= big ->
  (0 < pat p i < szmod)%N -> (pat p (i - 1) < pat p i)%N -> (pat p i < pat p (i + 1))%N -> (pat p (i + 1) < szmod)%N ->
  let r := rnd (x - c) in
  let q := psq_adjust F d (p, h) i in
  (0 < r /\ (pat p i + 1 < pat p (i + 1))%N /\ exists v, new_height p h i 1 v /\ q = (aset p i (pat p i + 1)%N, aset h i v)) \/
  (r < 0 /\ (pat p (i - 1) + 1 < pat p i)%N /\ exists v, new_height p h i (-1) v /\ q = (aset p i (pat p i - 1)%N, aset h i v)) \/
  ((0 < r -> (pat p (i + 1) <= pat p i + 1)%N) /\ (r < 0 -> (pat p i <= pat p (i - 1) + 1)%N) /\ q = (p, h)).
Proof.
  intros Dx Dc R P0 P1 P2 P3 r q.
  pose proof (den_sub prec emax Hp1 Hm1 _ _ _ _ Dx Dc R) as Dr. fold r in Dr.
  pose proof (den_zero prec emax Hp1 Hm1) as Dz.
  set (dev := @nsub F (hat F d i) (@nofsz F (pat p i))) in *.
  assert (G : @nlt F n0 dev = Rlt_bool 0 r).
  { destruct Dz as [A1 A2], Dr as [B1 B2]. rewrite <- A2, <- B2. apply ltb_real with (prec := prec) (emax := emax); assumption. }
  assert (L : @nlt F dev n0 = Rlt_bool r 0).
  { destruct Dz as [A1 A2], Dr as [B1 B2]. rewrite <- A2, <- B2. apply ltb_real with (prec := prec) (emax := emax); assumption. }
  unfold q, psq_adjust. fold dev. rewrite G, L.
  rewrite (szsub_small (pat p (i + 1)) (pat p i)) by lia. rewrite (szsub_small (pat p i) (pat p (i - 1))) by lia.
  destruct (Rlt_bool_spec 0 r) as [H1|H1].
  - cbn [Z.eqb Pos.eqb andb orb].  destruct (N.ltb_spec 1 (pat p (i + 1) - pat p i)) as [W|W]; cbn [andb orb].
    + left. split; [exact H1|]. split; [lia|]. rewrite sz_of_int_1, szadd_small by lia.
      destruct (_ && _); eexists; (split; [|reflexivity]); [left|right]; reflexivity.
    + right; right. split; [intros _; lia|]. split; [lra|reflexivity].
  - destruct (Rlt_bool_spec r 0) as [H2|H2].
    + cbn [Z.eqb Pos.eqb andb orb]. destruct (N.ltb_spec 1 (pat p i - pat p (i - 1))) as [W|W]; cbn [andb orb].
      * right; left. split; [exact H2|]. split; [lia|]. rewrite szadd_m1 by lia.
        destruct (_ && _); eexists; (split; [|reflexivity]); [left|right]; reflexivity.
      * right; right. split; [lra|]. split; [intros _; lia|reflexivity].
    + right; right. cbn [Z.eqb andb orb]. split; [lra|]. split; [lra|reflexivity].
Qed.

(** Heights that are all zero stay zero. *)
Lemma big1 : 1 <= big.
Proof. change 1 with (bpow radix2 0). apply bpow_le. lia. Qed.
Lemma z_sub a b : den a 0 -> den b 0 -> den (@nsub F a b) 0.
Proof.
  intros A B. pose proof (den_sub prec emax Hp1 Hm1 _ _ _ _ A B) as H. rewrite Rminus_0_r, rnd_0 in H. apply H.
  rewrite Rabs_R0. apply bpow_ge_0.
Qed.
Lemma z_add a b : den a 0 -> den b 0 -> den (@nadd F a b) 0.
Proof.
  intros A B. pose proof (den_add prec emax Hp1 Hm1 _ _ _ _ A B) as H. rewrite Rplus_0_r, rnd_0 in H. apply H.
  rewrite Rabs_R0. apply bpow_ge_0.
Qed.
Lemma z_mul a b c : den a c -> den b 0 -> den (@nmul F a b) 0.
Proof.
  intros A B. pose proof (den_mul prec emax Hp1 Hm1 _ _ _ _ A B) as H. rewrite Rmult_0_r, rnd_0 in H. apply H.
  rewrite Rabs_R0. apply bpow_ge_0.
Qed.
Lemma z_div a b c : den a 0 -> den b c -> 1 <= c -> den (@ndiv F a b) 0.
Proof.
  intros A B C. pose proof (den_div prec emax Hp1 Hm1 _ _ _ _ A B ltac:(lra)) as H. unfold Rdiv in H. rewrite Rmult_0_l, rnd_0 in H. apply H.
  rewrite Rabs_R0. apply bpow_ge_0.
Qed.
Lemma z_quot a b : den a 0 -> (0 < b < szmod)%N -> den (@ndiv F a (@nofsz F b)) 0.
Proof. intros A B. destruct (den_pos b ltac:(lia)) as (c & C1 & _ & C2 & _). exact (z_div _ _ _ A C1 (C2 ltac:(lia))). Qed.

Lemma szsub_lt a b : (szsub a b < szmod)%N.
Proof. unfold szsub, sz. apply N.mod_lt. discriminate. Qed.
Lemma szadd_lt a b : (szadd a b < szmod)%N.
Proof. unfold szadd, sz. apply N.mod_lt. discriminate. Qed.
Lemma szsub_nz a b : (a < szmod)%N -> (b < szmod)%N -> a <> b -> (0 < szsub a b < szmod)%N.
Proof.
  intros Ha Hb N. destruct (N.le_gt_cases b a).
  - rewrite szsub_small by assumption. lia.
  - unfold szsub, sz. rewrite (N.mod_small b) by exact Hb. rewrite N.mod_small by lia. lia.
Qed.

Lemma new_zero p h i sg v : (sg = 1 \/ sg = -1)%Z -> (forall j, den (hat F h j) 0) ->
  (0 < i)%nat -> (Z.of_nat i + 1 < Z.of_N szmod)%Z ->
  (pat p (i - 1) < pat p i)%N -> (pat p i < pat p (i + 1))%N -> (pat p (i + 1) < szmod)%N ->
  new_height p h i sg v -> den v 0.
Proof.
  intros Hs Hz I0 I1 P1 P2 P3 [-> | ->].
  - unfold psq_parabolic. apply z_add; [apply Hz|].
    destruct (den_pos _ (szsub_lt (pat p (i + 1)) (pat p (i - 1)))) as (t & T1 & [_ T3] & T2 & _).
    pose proof (szsub_nz (pat p (i + 1)) (pat p (i - 1)) ltac:(lia) ltac:(lia) ltac:(lia)) as Tn.
    specialize (T2 ltac:(lia)).
    assert (Ds : den (@nofz F sg) (IZR sg)).
    { apply (of_Z_small prec emax Hp1 Hm1). assert (2 ^ 1 <= 2 ^ prec)%Z by (apply Z.pow_le_mono_r; lia). lia. }
    assert (Rt : Rabs (IZR sg / t) <= big).
    { pose proof big1. unfold Rdiv. rewrite Rabs_mult, Rabs_inv, (Rabs_right t) by lra.
      assert (Rabs (IZR sg) = 1) as -> by (destruct Hs as [-> | ->]; unfold Rabs; destruct (Rcase_abs _); lra).
      assert (/ t <= / 1) by (apply Rinv_le; lra). lra. }
    pose proof (den_div prec emax Hp1 Hm1 _ _ _ _ Ds T1 ltac:(lra) Rt) as Dq.
    eapply z_mul; [exact Dq|]. apply z_add.
    + destruct (den_pos _ (szadd_lt (szsub (pat p i) (pat p (i - 1))) (sz_of_int sg))) as (a & A1 & _).
      eapply z_mul; [exact A1|]. apply z_quot; [apply z_sub; apply Hz|]. apply szsub_nz; lia.
    + destruct (den_pos _ (szsub_lt (szsub (pat p (i + 1)) (pat p i)) (sz_of_int sg))) as (a & A1 & _).
      eapply z_mul; [exact A1|]. apply z_quot; [apply z_sub; apply Hz|]. apply szsub_nz; lia.
  - unfold psq_linear. apply z_add; [apply Hz|].
    assert (Ds : den (@nofz F sg) (IZR sg)).
    { apply (of_Z_small prec emax Hp1 Hm1). assert (2 ^ 1 <= 2 ^ prec)%Z by (apply Z.pow_le_mono_r; lia). lia. }
    eapply z_mul; [exact Ds|]. apply z_quot; [apply z_sub; apply Hz|].
    destruct Hs as [-> | ->].
    + assert (E : idx_shift i 1 = (i + 1)%nat) by (unfold idx_shift; rewrite Z.mod_small by lia; lia).
      rewrite E. apply szsub_nz; lia.
    + assert (E : idx_shift i (-1) = (i - 1)%nat) by (unfold idx_shift; rewrite Z.mod_small by lia; lia).
      rewrite E. apply szsub_nz; lia.
Qed.

(** ** The median estimator *)
Definition qs : list F := [ratio_value F (1 # 2)%Q].

Lemma ratio_half : den (ratio_value F (1 # 2)%Q) (/ 2).
Proof.
  assert (P2 : (2 ^ 1 <= 2 ^ prec)%Z) by (apply Z.pow_le_mono_r; lia).
  pose proof (of_Z_small prec emax Hp1 Hm1 1 ltac:(lia)) as D1. pose proof (of_Z_small prec emax Hp1 Hm1 2 ltac:(lia)) as D2.
  pose proof (den_div prec emax Hp1 Hm1 _ _ _ _ D1 D2 ltac:(lra)) as D. pose proof big1.
  replace (1 / 2) with (bpow radix2 (-1)) in D by (change (bpow radix2 (-1)) with (/ 2); lra).
  rewrite rnd_rep in D by (apply repf_bpow; lia). apply D. change (bpow radix2 (-1)) with (/ 2). apply Rabs_le. lra.
Qed.

Lemma den_add_exact a b x y z : den a x -> den b y -> x + y = z -> rep z -> Rabs z <= big -> den (@nadd F a b) z.
Proof. intros A B <- R H. pose proof (den_add prec emax Hp1 Hm1 _ _ _ _ A B H) as D. rewrite rnd_rep in D by exact R. exact D. Qed.
Lemma den_mul_exact a b x y z : den a x -> den b y -> x * y = z -> rep z -> Rabs z <= big -> den (@nmul F a b) z.
Proof. intros A B <- R H. pose proof (den_mul prec emax Hp1 Hm1 _ _ _ _ A B H) as D. rewrite rnd_rep in D by exact R. exact D. Qed.
Lemma den_div_exact a b x y z : den a x -> den b y -> y <> 0 -> x / y = z -> rep z -> Rabs z <= big -> den (@ndiv F a b) z.
Proof. intros A B N <- R H. pose proof (den_div prec emax Hp1 Hm1 _ _ _ _ A B N H) as D. rewrite rnd_rep in D by exact R. exact D. Qed.

(** Multiples of 1/4 below 8. *)
Lemma rep_quarter z : (0 <= z < 32)%Z -> rep (IZR z * / 4).
Proof.
  intros Hz. apply generic_format_FLT. exists (Float radix2 z (-2)); [unfold F2R; cbn; lra| |cbn [Fexp]; lia].
  cbn [Fnum]. rewrite Z.abs_eq by lia. apply Z.lt_le_trans with (2 ^ 5)%Z; [lia|]. change (2 ^ 5 <= 2 ^ prec)%Z. apply Z.pow_le_mono_r; lia.
Qed.
Lemma small_big x : 0 <= x <= 8 -> Rabs x <= big.
Proof. intros H. rewrite Rabs_right by lra. apply Rle_trans with (bpow radix2 3); [cbn; lra|apply bpow_le; lia]. Qed.

Lemma deltas_values : exists e0 e1 e2 e3 e4, constant_deltas F qs = [e0; e1; e2; e3; e4] /\
  den e1 (/ 4) /\ den e2 (/ 2) /\ den e3 (3 / 4).
Proof.
  unfold constant_deltas, qs. cbn [deltas_from]. do 5 eexists. split; [reflexivity|].
  assert (P2 : (2 ^ 2 <= 2 ^ prec)%Z) by (apply Z.pow_le_mono_r; lia).
  pose proof (of_Z_small prec emax Hp1 Hm1 2 ltac:(lia)) as D2.
  pose proof ratio_half as Dh. pose proof (den_zero prec emax Hp1 Hm1) as D0. pose proof (den_one prec emax Hp1 Hm1) as D1.
  split; [|split].
  - eapply den_div_exact; [eapply den_add_exact; [exact D0|exact Dh|reflexivity| |]|exact D2|lra| | |].
    + replace (0 + / 2) with (IZR 2 * / 4) by lra. apply rep_quarter. lia.
    + apply small_big. lra.
    + lra.
    + replace (/ 4) with (IZR 1 * / 4) by lra. apply rep_quarter. lia.
    + apply small_big. lra.
  - exact Dh.
  - eapply den_div_exact; [eapply den_add_exact; [exact Dh|exact D1|reflexivity| |]|exact D2|lra| | |].
    + replace (/ 2 + 1) with (IZR 6 * / 4) by lra. apply rep_quarter. lia.
    + apply small_big. lra.
    + lra.
    + replace (3 / 4) with (IZR 3 * / 4) by lra. apply rep_quarter. lia.
    + apply small_big. lra.
Qed.

Local Notation D1 := (2 ^ (prec - 2))%Z.
Local Notation D2 := (2 ^ (prec - 1))%Z.

Lemma powers : (2 ^ prec = 2 * D2)%Z /\ (D2 = 2 * D1)%Z /\ (8 <= D1)%Z /\
  bpow radix2 prec = IZR (2 ^ prec) /\ bpow radix2 (prec - 1) = IZR D2 /\ bpow radix2 (prec - 2) = IZR D1.
Proof.
  split; [rewrite <- Z.pow_succ_r by lia; f_equal; lia|]. split; [rewrite <- Z.pow_succ_r by lia; f_equal; lia|].
  split; [change 8%Z with (2 ^ 3)%Z; apply Z.pow_le_mono_r; lia|].
  split; [|split]; rewrite <- (IZR_Zpower radix2) by lia; reflexivity.
Qed.

Definition median_state (m p1 p2 p3 : N) (h : list F) (s : psq F) : Prop :=
  exists d0 d1 d2 d3 d4 x1 x3,
  s = Psq F (5 + m) [1%N; p1; p2; p3; (5 + m)%N] h [d0; d1; d2; d3; d4] (constant_deltas F qs) /\
  den d1 x1 /\ 0 <= x1 <= bpow radix2 (prec - 2) /\
  den d2 (IZR (Z.min (6 + Z.of_N m) (2 ^ prec)) * / 2) /\
  den d3 x3 /\ Rmin (4 + IZR (Z.of_N m) / 16) (bpow radix2 (prec - 1) + 1) <= x3 <= bpow radix2 prec /\
  (1 < p1)%N /\ (p1 < p2)%N /\ (p2 < p3)%N /\ (p3 < 5 + m)%N /\
  (Z.of_N p1 <= D1)%Z /\ (Z.of_N p2 <= D2)%Z.

Lemma nonneg_range x c : 0 <= x <= bpow radix2 prec -> 0 <= c <= bpow radix2 64 -> Rabs (x - c) <= big.
Proof.
  intros X C. assert (bpow radix2 prec <= big) by (apply bpow_le; lia). assert (bpow radix2 64 <= big) by (apply bpow_le; lia).
  apply Rabs_le. lra.
Qed.

Lemma pos_sign x c : x <= c -> rnd (x - c) <= 0.
Proof. intros H. rewrite <- (rnd_0 prec emax). apply rnd_le; [exact Hp1|lra]. Qed.
Lemma neg_sign x c : c <= x -> 0 <= rnd (x - c).
Proof. intros H. rewrite <- (rnd_0 prec emax). apply rnd_le; [exact Hp1|lra]. Qed.
Lemma far_sign x c : c + 1 <= x -> 0 < rnd (x - c).
Proof.
  intros H. apply Rlt_le_trans with 1; [lra|]. rewrite <- (rnd_rep prec emax 1) by (apply (rep_01 prec emax Hp1 Hm1)).
  apply rnd_le; [exact Hp1|lra].
Qed.

Lemma adjust_at d p h i x c a b e :
  pat p (i - 1) = a -> pat p i = b -> pat p (i + 1) = e ->
  den (hat F d i) x -> den (@nofsz F b) c -> Rabs (x - c) <= big ->
  (0 < b)%N -> (a < b)%N -> (b < e)%N -> (e < szmod)%N ->
  (0 < rnd (x - c) /\ (b + 1 < e)%N /\ exists v, new_height p h i 1 v /\ psq_adjust F d (p, h) i = (aset p i (b + 1)%N, aset h i v)) \/
  (rnd (x - c) < 0 /\ (a + 1 < b)%N /\ exists v, new_height p h i (-1) v /\ psq_adjust F d (p, h) i = (aset p i (b - 1)%N, aset h i v)) \/
  ((0 < rnd (x - c) -> (e <= b + 1)%N) /\ (rnd (x - c) < 0 -> (b <= a + 1)%N) /\ psq_adjust F d (p, h) i = (p, h)).
Proof.
  intros <- <- <- Dx Dc R P0 P1 P2 P3. apply adjust_cases; try assumption. split; [exact P0|lia].
Qed.

Lemma zero_at p h0 h1 h2 h3 h4 i sg v a b e : (sg = 1 \/ sg = -1)%Z -> (1 <= i <= 3)%nat ->
  pat p (i - 1) = a -> pat p i = b -> pat p (i + 1) = e -> (a < b)%N -> (b < e)%N -> (e < szmod)%N ->
  new_height p [h0; h1; h2; h3; h4] i sg v ->
  den h0 0 -> den h1 0 -> den h2 0 -> den h3 0 -> den h4 0 -> den v 0.
Proof.
  intros Hs Hi <- <- <- P1 P2 P3 V Z0 Z1 Z2 Z3 Z4. refine (new_zero p _ i sg v Hs _ _ _ P1 P2 P3 V); [|lia|unfold szmod; lia].
  intros [|[|[|[|[|j]]]]]; try assumption. destruct j; apply (den_zero prec emax Hp1 Hm1).
Qed.

Lemma median_step m p1 p2 p3 h0 h1 h2 h3 h4 s y :
  median_state m p1 p2 p3 [h0; h1; h2; h3; h4] s ->
  @nlt F y h0 = false -> @nle F h4 y = true -> (6 + m < szmod)%N ->
  exists p1' p2' p3' h1' h2' h3',
  median_state (m + 1) p1' p2' p3' [h0; h1'; h2'; h3'; y] (psq_push F qs s y) /\
  ((2 ^ (prec + 3) <= Z.of_N m)%Z -> (Z.of_N p3 < D2 + 1)%Z -> p3' = (p3 + 1)%N) /\
  ((2 ^ (prec + 3) <= Z.of_N m)%Z -> (D2 + 1 <= Z.of_N p3)%Z -> (D2 + 1 <= Z.of_N p3')%Z) /\
  ((2 ^ prec <= Z.of_N m)%Z -> (D2 + 1 <= Z.of_N p3)%Z -> (Z.of_N p2 < D2)%Z -> p2' = (p2 + 1)%N) /\
  ((2 ^ prec <= Z.of_N m)%Z -> Z.of_N p2 = D2 -> p2' = p2 /\ h2' = h2) /\
  (den h0 0 -> den h1 0 -> den h2 0 -> den h3 0 -> den y 0 -> den h1' 0 /\ den h2' 0 /\ den h3' 0).
Proof.
  intros (d0 & d1 & d2 & d3 & d4 & x1 & x3 & -> & E1 & B1 & E2 & E3 & B3 & Q1 & Q2 & Q3 & Q4 & Q5 & Q6) C0 C4 Hm6.
  destruct powers as (PW & PW1 & PW2 & BP & BP1 & BP2).
  destruct deltas_values as (e0 & e1 & e2 & e3 & e4 & Ee & G1 & G2 & G3).
  (* the new desired positions *)
  pose proof (bpow_gt_0 radix2 prec) as Bp. 
  assert (BL : bpow radix2 prec <= bpow radix2 (emax - 2)) by (apply bpow_le; lia).
  assert (BB : big = 2 * bpow radix2 (emax - 2)).
  { change 2 with (bpow radix2 1). rewrite <- bpow_plus. f_equal. lia. }
  assert (BI : 32 <= bpow radix2 (emax - 2)) by (change 32 with (bpow radix2 5); apply bpow_le; lia).
  assert (LE : forall x e, 0 <= x <= bpow radix2 prec -> 0 <= e <= 1 -> Rabs (x + e) <= big) by (intros; apply Rabs_le; lra).
  set (x1' := rnd (x1 + / 4)). set (x3' := rnd (x3 + 3 / 4)).
  assert (IQ : 0 <= IZR D1) by (apply IZR_le; lia).
  assert (IP : IZR (2 ^ prec) = 4 * IZR D1) by (rewrite PW, PW1, !mult_IZR; lra).
  assert (IP2 : IZR D2 = 2 * IZR D1) by (rewrite PW1, !mult_IZR; lra).
  assert (M0 : 0 <= IZR (Z.of_N m)) by (apply IZR_le; lia).
  assert (X30 : 0 <= x3).
  { eapply Rle_trans; [|apply B3]. apply Rmin_glb; [lra|]. rewrite BP1. lra. }
  assert (X2b : 0 <= IZR (Z.min (6 + Z.of_N m) (2 ^ prec)) * / 2 <= bpow radix2 prec).
  { assert (0 <= IZR (Z.min (6 + Z.of_N m) (2 ^ prec))) by (apply IZR_le; lia).
    assert (IZR (Z.min (6 + Z.of_N m) (2 ^ prec)) <= IZR (2 ^ prec)) by (apply IZR_le; lia). rewrite BP. lra. }
  assert (E1' : den (@nadd F d1 e1) x1').
  { apply (den_add prec emax Hp1 Hm1 _ _ _ _ E1 G1). apply LE; [rewrite BP; rewrite BP2 in B1; lra|lra]. }
  assert (E2' : den (@nadd F d2 e2) (IZR (Z.min (6 + Z.of_N (m + 1)) (2 ^ prec)) * / 2)).
  { pose proof (den_add prec emax Hp1 Hm1 _ _ _ _ E2 G2) as D. rewrite des2 in D by lia.
    replace (6 + Z.of_N m + 1)%Z with (6 + Z.of_N (m + 1))%Z in D by lia. apply D. apply LE; [exact X2b|lra]. }
  assert (E3' : den (@nadd F d3 e3) x3').
  { apply (den_add prec emax Hp1 Hm1 _ _ _ _ E3 G3). apply LE; [lra|lra]. }
  pose proof (des1 x1 B1) as B1'. fold x1' in B1'.
  pose proof (des3 x3 (IZR (Z.of_N m)) B3 M0) as B3'. fold x3' in B3'.
  replace (IZR (Z.of_N m) + 1) with (IZR (Z.of_N (m + 1))) in B3' by (rewrite N2Z.inj_add, plus_IZR; reflexivity).
  set (x2' := IZR (Z.min (6 + Z.of_N (m + 1)) (2 ^ prec)) * / 2) in *.
  assert (X2b' : 0 <= x2' <= IZR D2).
  { unfold x2'. assert (0 <= IZR (Z.min (6 + Z.of_N (m + 1)) (2 ^ prec))) by (apply IZR_le; lia).
    assert (IZR (Z.min (6 + Z.of_N (m + 1)) (2 ^ prec)) <= IZR (2 ^ prec)) by (apply IZR_le; lia). lra. }
  (* unfold the push *)
  unfold psq_push. cbn [ps_count ps_heights ps_positions ps_desired ps_deltas].
  change (N.of_nat (parameter_length F qs)) with 5%N. rewrite (proj2 (N.leb_le 5 (5 + m)%N)) by lia.
  unfold psq_cell. change (parameter_length F qs - 1)%nat with 4%nat.
  assert (C0' : @nlt F y (hat F [h0; h1; h2; h3; h4] 0) = false) by exact C0. rewrite C0'.
  assert (C4' : @nle F (hat F [h0; h1; h2; h3; h4] 4) y = true) by exact C4. rewrite C4'.
  cbn [aset]. rewrite Ee. cbn [bump_from Init.Nat.pred].
  rewrite (szadd_small (5 + m) 1) by lia.
  set (P0 := [1%N; p1; p2; p3; (5 + m + 1)%N]).
  set (d' := add_deltas F [d0; d1; d2; d3; d4] [e0; e1; e2; e3; e4]).
  assert (Hd : d' = [@nadd F d0 e0; @nadd F d1 e1; @nadd F d2 e2; @nadd F d3 e3; @nadd F d4 e4]) by reflexivity.
  change (seq 1 (parameter_length F qs - 2)) with [1; 2; 3]%nat. cbn [fold_left].
  (* marker 1 *)
  assert (S1 : exists p1' h1', psq_adjust F d' (P0, [h0; h1; h2; h3; y]) 1 = ([1%N; p1'; p2; p3; (5 + m + 1)%N], [h0; h1'; h2; h3; y]) /\
    (1 < p1')%N /\ (p1' < p2)%N /\ (Z.of_N p1' <= D1)%Z /\
    (den h0 0 -> den h1 0 -> den h2 0 -> den h3 0 -> den y 0 -> den h1' 0)).
  { destruct (den_pos p1 ltac:(lia)) as (c & Dc & Cr & _ & Ce & _). specialize (Ce ltac:(lia)).
    assert (Ex : den (hat F d' 1) x1') by (rewrite Hd; exact E1').
    assert (Rg : Rabs (x1' - c) <= big) by (apply nonneg_range; [rewrite BP; rewrite BP2 in B1'; lra|exact Cr]).
    destruct (adjust_at d' P0 [h0; h1; h2; h3; y] 1 x1' c 1%N p1 p2 eq_refl eq_refl eq_refl Ex Dc Rg ltac:(lia) ltac:(lia) ltac:(lia) ltac:(lia))
      as [(R & W & v & V & ->)|[(R & W & v & V & ->)|(_ & _ & ->)]].
    - exists (p1 + 1)%N, v. split; [reflexivity|]. split; [lia|]. split; [lia|]. split.
      + destruct (Rle_or_lt x1' c) as [L|L]; [pose proof (pos_sign x1' c L); lra|]. rewrite Ce in L. rewrite BP2 in B1'.
        assert (H : IZR (Z.of_N p1) < IZR D1) by lra. apply lt_IZR in H. lia.
      + apply (zero_at P0 h0 h1 h2 h3 y 1 1 v 1%N p1 p2); try reflexivity; try lia. exact V.
    - exists (p1 - 1)%N, v. split; [reflexivity|]. split; [lia|]. split; [lia|]. split; [lia|].
      apply (zero_at P0 h0 h1 h2 h3 y 1 (-1) v 1%N p1 p2); try reflexivity; try lia. exact V.
    - exists p1, h1. split; [reflexivity|]. split; [lia|]. split; [lia|]. split; [lia|]. tauto. }
  destruct S1 as (p1' & h1' & -> & U1 & U2 & U3 & U4).
  (* marker 2 *)
  set (P1 := [1%N; p1'; p2; p3; (5 + m + 1)%N]).
  assert (S2 : exists p2' h2', psq_adjust F d' (P1, [h0; h1'; h2; h3; y]) 2 = ([1%N; p1'; p2'; p3; (5 + m + 1)%N], [h0; h1'; h2'; h3; y]) /\
    (p1' < p2')%N /\ (p2' < p3)%N /\ (Z.of_N p2' <= D2)%Z /\
    ((2 ^ prec <= Z.of_N m)%Z -> (D2 + 1 <= Z.of_N p3)%Z -> (Z.of_N p2 < D2)%Z -> p2' = (p2 + 1)%N) /\
    ((2 ^ prec <= Z.of_N m)%Z -> Z.of_N p2 = D2 -> p2' = p2 /\ h2' = h2) /\
    (den h0 0 -> den h1' 0 -> den h2 0 -> den h3 0 -> den y 0 -> den h2' 0)).
  { destruct (den_pos p2 ltac:(lia)) as (c & Dc & Cr & _ & Ce & _). specialize (Ce ltac:(lia)).
    assert (Ex : den (hat F d' 2) x2') by (rewrite Hd; exact E2').
    assert (Rg : Rabs (x2' - c) <= big) by (apply nonneg_range; [rewrite BP; lra|exact Cr]).
    assert (Sat : (2 ^ prec <= Z.of_N m)%Z -> x2' = IZR D2) by (intros H; unfold x2'; rewrite Z.min_r by lia; lra).
    destruct (adjust_at d' P1 [h0; h1'; h2; h3; y] 2 x2' c p1' p2 p3 eq_refl eq_refl eq_refl Ex Dc Rg ltac:(lia) ltac:(lia) ltac:(lia) ltac:(lia))
      as [(R & W & v & V & ->)|[(R & W & v & V & ->)|(W1 & W2 & ->)]].
    - assert (L : c < x2') by (destruct (Rle_or_lt x2' c) as [L|L]; [pose proof (pos_sign x2' c L); lra|exact L]). rewrite Ce in L.
      assert (L' : (Z.of_N p2 < D2)%Z) by (apply lt_IZR; lra).
      exists (p2 + 1)%N, v. split; [reflexivity|]. split; [lia|]. split; [lia|]. split; [lia|]. split; [reflexivity|]. split; [lia|].
      apply (zero_at P1 h0 h1' h2 h3 y 2 1 v p1' p2 p3); try reflexivity; try lia. exact V.
    - assert (L : x2' < c) by (destruct (Rle_or_lt c x2') as [L|L]; [pose proof (neg_sign x2' c L); lra|exact L]). rewrite Ce in L.
      exists (p2 - 1)%N, v. split; [reflexivity|]. split; [lia|]. split; [lia|]. split; [lia|].
      assert (NO : (2 ^ prec <= Z.of_N m)%Z -> False).
      { intros H. rewrite (Sat H) in L. apply lt_IZR in L. lia. }
      split; [tauto|]. split; [tauto|].
      apply (zero_at P1 h0 h1' h2 h3 y 2 (-1) v p1' p2 p3); try reflexivity; try lia. exact V.
    - exists p2, h2. split; [reflexivity|]. split; [lia|]. split; [lia|]. split; [lia|]. split; [|split; [auto|tauto]].
      intros H3 H4 H5. exfalso. assert (0 < rnd (x2' - c)); [|specialize (W1 H); lia].
      apply far_sign. rewrite (Sat H3), Ce. change 1 with (IZR 1). rewrite <- plus_IZR. apply IZR_le. lia. }
  destruct S2 as (p2' & h2' & -> & V1 & V2 & V3 & V4 & V5 & V6).
  (* marker 3 *)
  set (P2 := [1%N; p1'; p2'; p3; (5 + m + 1)%N]).
  assert (S3 : exists p3' h3', psq_adjust F d' (P2, [h0; h1'; h2'; h3; y]) 3 = ([1%N; p1'; p2'; p3'; (5 + m + 1)%N], [h0; h1'; h2'; h3'; y]) /\
    (p2' < p3')%N /\ (p3' < 5 + m + 1)%N /\
    ((2 ^ (prec + 3) <= Z.of_N m)%Z -> (Z.of_N p3 < D2 + 1)%Z -> p3' = (p3 + 1)%N) /\
    ((2 ^ (prec + 3) <= Z.of_N m)%Z -> (D2 + 1 <= Z.of_N p3)%Z -> (D2 + 1 <= Z.of_N p3')%Z) /\
    (den h0 0 -> den h1' 0 -> den h2' 0 -> den h3 0 -> den y 0 -> den h3' 0)).
  { destruct (den_pos p3 ltac:(lia)) as (c & Dc & Cr & _ & Ce & _).
    assert (Ex : den (hat F d' 3) x3') by (rewrite Hd; exact E3').
    assert (X30' : 0 <= x3').
    { eapply Rle_trans; [|apply B3']. apply Rmin_glb; [|rewrite BP1; lra].
      assert (0 <= IZR (Z.of_N (m + 1))) by (apply IZR_le; lia). lra. }
    assert (Rg : Rabs (x3' - c) <= big) by (apply nonneg_range; [lra|exact Cr]).
    assert (P8 : (2 ^ (prec + 3) = 16 * D2)%Z).
    { rewrite Z.pow_add_r by lia. rewrite PW. change (2 ^ 3)%Z with 8%Z. lia. }
    assert (Sat : (2 ^ (prec + 3) <= Z.of_N m)%Z -> IZR D2 + 1 <= x3').
    { intros H. eapply Rle_trans; [|apply B3']. apply Rmin_glb; [|rewrite BP1; lra].
      assert (16 * IZR D2 <= IZR (Z.of_N (m + 1))) by (rewrite <- mult_IZR; apply IZR_le; lia). lra. }
    destruct (adjust_at d' P2 [h0; h1'; h2'; h3; y] 3 x3' c p2' p3 (5 + m + 1)%N eq_refl eq_refl eq_refl Ex Dc Rg ltac:(lia) ltac:(lia) ltac:(lia) ltac:(lia))
      as [(R & W & v & V & ->)|[(R & W & v & V & ->)|(W1 & W2 & ->)]].
    - exists (p3 + 1)%N, v. split; [reflexivity|]. split; [lia|]. split; [lia|]. split; [reflexivity|]. split; [lia|].
      apply (zero_at P2 h0 h1' h2' h3 y 3 1 v p2' p3 (5 + m + 1)%N); try reflexivity; try lia. exact V.
    - assert (L : x3' < c) by (destruct (Rle_or_lt c x3') as [L|L]; [pose proof (neg_sign x3' c L); lra|exact L]).
      exists (p3 - 1)%N, v. split; [reflexivity|]. split; [lia|]. split; [lia|].
      assert (NO : (2 ^ (prec + 3) <= Z.of_N m)%Z -> (Z.of_N p3 <= D2 + 1)%Z -> False).
      { intros H H'. specialize (Sat H). rewrite Ce in L by lia. apply IZR_le in H'. rewrite plus_IZR in H'. lra. }
      split; [intros H H'; exfalso; apply NO; [exact H|lia]|]. split.
      + intros H H'. assert (Z.of_N p3 <> D2 + 1)%Z by (intros Q; apply NO; [exact H|lia]). lia.
      + apply (zero_at P2 h0 h1' h2' h3 y 3 (-1) v p2' p3 (5 + m + 1)%N); try reflexivity; try lia. exact V.
    - exists p3, h3. split; [reflexivity|]. split; [lia|]. split; [lia|]. split; [|split; [auto|tauto]].
      intros H H'. exfalso. assert (0 < rnd (x3' - c)); [|specialize (W1 H0); lia].
      apply far_sign. rewrite Ce by lia. specialize (Sat H).
      assert (IZR (Z.of_N p3) <= IZR D2) by (apply IZR_le; lia). lra. }
  destruct S3 as (p3' & h3' & -> & T1 & T2 & T3 & T4 & T5).
  cbn [fst snd]. exists p1', p2', p3', h1', h2', h3'. split.
  - exists (@nadd F d0 e0), (@nadd F d1 e1), (@nadd F d2 e2), (@nadd F d3 e3), (@nadd F d4 e4), x1', x3'.
    rewrite Ee, Hd. replace (5 + (m + 1))%N with (5 + m + 1)%N by lia.
    split; [reflexivity|]. split; [exact E1'|]. split; [exact B1'|]. split; [exact E2'|]. split; [exact E3'|]. split; [exact B3'|].
    repeat split; assumption.
  - split; [exact T3|]. split; [exact T4|]. split; [exact V4|]. split; [exact V5|]. intros Z0 Z1 Z2 Z3 Z4.
    specialize (U4 Z0 Z1 Z2 Z3 Z4). specialize (V6 Z0 U4 Z2 Z3 Z4). specialize (T5 Z0 U4 V6 Z3 Z4). tauto.
Qed.

(** ** The stream *)
Local Notation one := (ieee_of_Z prec emax 1).
Local Notation zero := (ieee_of_Z prec emax 0).

Lemma start_state : fold_left (psq_push F qs) (repeat zero 5) (psq_init F qs) =
  Psq F 5 [1; 2; 3; 4; 5]%N [zero; zero; zero; zero; zero]
    (map (fun d => @nadd F n1 (@nmul F (@nofsz F 4) d)) (constant_deltas F qs)) (constant_deltas F qs).
Proof. reflexivity. Qed.

Lemma start_median : median_state 0 2 3 4 [zero; zero; zero; zero; zero] (fold_left (psq_push F qs) (repeat zero 5) (psq_init F qs)).
Proof.
  rewrite start_state. destruct deltas_values as (e0 & e1 & e2 & e3 & e4 & Ee & G1 & G2 & G3).
  destruct powers as (PW & PW1 & PW2 & BP & BP1 & BP2).
  assert (P8 : 8 <= IZR D1) by (apply IZR_le; lia).
  assert (IP : IZR (2 ^ prec) = 4 * IZR D1) by (rewrite PW, PW1, !mult_IZR; lra).
  assert (IP2 : IZR D2 = 2 * IZR D1) by (rewrite PW1, !mult_IZR; lra).
  pose proof (den_one prec emax Hp1 Hm1) as O.
  assert (N4 : den (@nofsz F 4) 4) by (apply (of_Z_small prec emax Hp1 Hm1 4); lia).
  assert (Q : forall e x z, den e x -> 4 * x = IZR z -> (0 <= z <= 6)%Z -> den (@nadd F n1 (@nmul F (@nofsz F 4) e)) (IZR (1 + z))).
  { intros e x z De Ez Hz. assert (0 <= IZR z <= 6) by (split; apply IZR_le; lia).
    eapply den_add_exact; [exact O|eapply den_mul_exact; [exact N4|exact De|exact Ez| |]| | |].
    - apply small_int; [exact Hp1|exact Hm1|lia].
    - apply small_big. lra.
    - rewrite plus_IZR. reflexivity.
    - apply small_int; [exact Hp1|exact Hm1|lia].
    - rewrite plus_IZR. apply small_big. lra. }
  unfold median_state. rewrite Ee. cbn [map].
  do 5 eexists. exists 2, 4. split; [reflexivity|].
  split; [exact (Q e1 (/ 4) 1%Z G1 ltac:(lra) ltac:(lia))|]. split; [rewrite BP2; lra|].
  split; [replace (IZR (Z.min (6 + Z.of_N 0) (2 ^ prec)) * / 2) with 3 by (change (6 + Z.of_N 0)%Z with 6%Z; rewrite Z.min_l by lia; lra);
          exact (Q e2 (/ 2) 2%Z G2 ltac:(lra) ltac:(lia))|].
  split; [exact (Q e3 (3 / 4) 3%Z G3 ltac:(lra) ltac:(lia))|].
  split; [split; [eapply Rle_trans; [apply Rmin_l|]; cbn [Z.of_N]; lra|rewrite BP; lra]|].
  repeat split; try lia.
Qed.

Lemma not_below x y a b : den x a -> den y b -> b <= a -> @nlt F x y = false /\ @nle F y x = true.
Proof.
  intros [Fx <-] [Fy <-] H. split.
  - change (SFltb x y = false). rewrite (ltb_real prec emax) by assumption. apply Rlt_bool_false. exact H.
  - change (SFleb y x = true). rewrite (leb_real prec emax) by assumption. apply Rle_bool_true. exact H.
Qed.

Local Notation M3 := (2 ^ (prec + 3))%Z.
Local Notation M2 := (2 ^ (prec + 3) + D2 + 1)%Z.

Lemma zeros_run k : (N.of_nat k + 5 < szmod)%N -> exists p1 p2 p3 h0 h1 h2 h3 h4,
  median_state (N.of_nat k) p1 p2 p3 [h0; h1; h2; h3; h4]
    (fold_left (psq_push F qs) (repeat zero k) (fold_left (psq_push F qs) (repeat zero 5) (psq_init F qs))) /\
  den h0 0 /\ den h1 0 /\ den h2 0 /\ den h3 0 /\ den h4 0 /\
  ((M3 <= Z.of_nat k)%Z -> (Z.min (Z.of_nat k - M3) (D2 + 1) <= Z.of_N p3)%Z) /\
  ((M2 <= Z.of_nat k)%Z -> (Z.min (Z.of_nat k - M2) D2 <= Z.of_N p2)%Z).
Proof.
  destruct powers as (PW & PW1 & PW2 & _). pose proof (den_zero prec emax Hp1 Hm1) as Z.
  assert (P8 : (M3 = 16 * D2)%Z) by (rewrite Z.pow_add_r by lia; rewrite PW; change (2 ^ 3)%Z with 8%Z; lia).
  induction k as [|k IH]; intros Hk.
  - exists 2%N, 3%N, 4%N, zero, zero, zero, zero, zero. split; [exact start_median|]. do 5 (split; [exact Z|]). split; lia.
  - destruct IH as (p1 & p2 & p3 & h0 & h1 & h2 & h3 & h4 & St & Z0 & Z1 & Z2 & Z3 & Z4 & I3 & I2); [lia|].
    assert (Er : repeat zero (S k) = repeat zero k ++ [zero]).
    { change (S k) with (1 + k)%nat. rewrite Nat.add_comm. rewrite repeat_app. reflexivity. }
    rewrite Er, fold_left_app. cbn [fold_left].
    destruct (not_below _ _ _ _ Z Z0 ltac:(lra)) as [C0 _]. destruct (not_below _ _ _ _ Z Z4 ltac:(lra)) as [_ C4].
    destruct (median_step _ _ _ _ _ _ _ _ _ _ zero St C0 C4 ltac:(lia)) as (p1' & p2' & p3' & h1' & h2' & h3' & St' & A3 & B3 & A2 & B2 & ZZ).
    destruct (ZZ Z0 Z1 Z2 Z3 Z) as (Z1' & Z2' & Z3').
    exists p1', p2', p3', h0, h1', h2', h3', zero. replace (N.of_nat (S k)) with (N.of_nat k + 1)%N by lia.
    split; [exact St'|]. do 5 (split; [assumption|]).
    assert (EK : Z.of_N (N.of_nat k) = Z.of_nat k) by lia. rewrite EK in *.
    destruct St as (_ & _ & _ & _ & _ & _ & _ & _ & _ & _ & _ & _ & _ & _ & _ & _ & _ & _ & Q6).
    split.
    + intros H. destruct (Z_le_gt_dec M3 (Z.of_nat k)) as [L|L]; [|lia]. specialize (I3 L).
      destruct (Z_lt_le_dec (Z.of_N p3) (D2 + 1)) as [W|W]; [rewrite (A3 L W); lia|specialize (B3 L W); lia].
    + intros H. destruct (Z_le_gt_dec M2 (Z.of_nat k)) as [L|L]; [|lia]. specialize (I2 L). specialize (I3 ltac:(lia)).
      destruct (Z_lt_le_dec (Z.of_N p2) D2) as [W|W]; [rewrite (A2 ltac:(lia) ltac:(lia) W); lia|].
      destruct (B2 ltac:(lia) ltac:(lia)) as [-> _]. lia.
Qed.

Lemma ones_run b : forall m p1 p2 p3 h0 h1 h2 h3 h4 v4 s, (m + N.of_nat b + 5 < szmod)%N -> (2 ^ prec <= Z.of_N m)%Z ->
  median_state m p1 p2 p3 [h0; h1; h2; h3; h4] s -> Z.of_N p2 = D2 -> den h0 0 -> den h4 v4 -> v4 <= 1 ->
  exists p1' p3' h1' h3' h4', median_state (m + N.of_nat b) p1' p2 p3' [h0; h1'; h2; h3'; h4'] (fold_left (psq_push F qs) (repeat one b) s).
Proof.
  pose proof (den_one prec emax Hp1 Hm1) as O.
  induction b as [|b IH]; intros m p1 p2 p3 h0 h1 h2 h3 h4 v4 s Hb HM St E2 Z0 Z4 V4.
  - exists p1, p3, h1, h3, h4. cbn [repeat fold_left]. rewrite N.add_0_r. exact St.
  - cbn [repeat fold_left].
    destruct (not_below _ _ _ _ O Z0 ltac:(lra)) as [C0 _]. destruct (not_below _ _ _ _ O Z4 V4) as [_ C4].
    destruct (median_step _ _ _ _ _ _ _ _ _ _ one St C0 C4 ltac:(lia)) as (p1' & p2' & p3' & h1' & h2' & h3' & St' & _ & _ & _ & B2 & _).
    destruct (B2 HM E2) as [-> ->].
    replace (m + N.of_nat (S b))%N with ((m + 1) + N.of_nat b)%N by lia.
    apply (IH (m + 1)%N p1' p2 p3' h0 h1' h2 h3' one 1); try assumption; try lia; try lra.
Qed.

Lemma median_stream a b : (2 ^ (prec + 4) <= Z.of_nat a)%Z -> (N.of_nat a + N.of_nat b < szmod)%N ->
  exists v, psq_get_default F qs (fold_left (psq_push F qs) (repeat zero a ++ repeat one b) (psq_init F qs)) = Some v /\ den v 0.
Proof.
  intros Ha Hs. destruct powers as (PW & PW1 & PW2 & _).
  assert (P16 : (2 ^ (prec + 4) = 32 * D2)%Z) by (rewrite Z.pow_add_r by lia; rewrite PW; change (2 ^ 4)%Z with 16%Z; lia).
  assert (P8 : (M3 = 16 * D2)%Z) by (rewrite Z.pow_add_r by lia; rewrite PW; change (2 ^ 3)%Z with 8%Z; lia).
  set (k := (a - 5)%nat). assert (Ek : a = (5 + k)%nat) by lia. clearbody k.
  rewrite fold_left_app, Ek, repeat_app, fold_left_app.
  destruct (zeros_run k ltac:(lia)) as (p1 & p2 & p3 & h0 & h1 & h2 & h3 & h4 & St & Z0 & Z1 & Z2 & Z3 & Z4 & I3 & I2).
  assert (E2 : Z.of_N p2 = D2).
  { specialize (I2 ltac:(lia)). destruct St as (_ & _ & _ & _ & _ & _ & _ & _ & _ & _ & _ & _ & _ & _ & _ & _ & _ & _ & Q6). lia. }
  destruct (ones_run b (N.of_nat k) p1 p2 p3 h0 h1 h2 h3 h4 0 _ ltac:(lia) ltac:(lia) St E2 Z0 Z4 ltac:(lra)) as (p1' & p3' & h1' & h3' & h4' & St').
  exists h2. split; [|exact Z2].
  destruct St' as (d0 & d1 & d2 & d3 & d4 & x1 & x3 & Es & _).
  refine (eq_trans (f_equal (psq_get_default F qs) Es) _).
  unfold psq_get_default, psq_get. cbn [ps_count ps_heights]. change (N.of_nat (parameter_length F qs)) with 5%N.
  rewrite (proj2 (N.ltb_lt 5 _)) by lia. reflexivity.
Qed.
End Median.
