(** * Claims C76: the deprecated names in namespace moment *)

From Coq Require Import Reals ZArith NArith QArith_base Qreals List Bool.
From Coq Require Import Floats.SpecFloat.
From Flocq Require Import Core.
From Verif Require Import Arith History SpecStats SpecDecay Decay Window Deprecated ExactRuns Binary64.
Import ListNotations.
Local Open Scope R_scope.
(* @end-header *)
From Coq Require Import Lia Lra Psatz.
From Flocq Require Import BinarySingleNaN Relative.
From Verif Require Import HistoryLemmas StatsLemmas CumulativeProofs DecayRuns WindowRuns DecayProofs WindowProofs
  DecaySensitivity ApproxInstances ClaimsDecay ClaimsWindow ClaimsAccuracy ClaimsPsquare.

Lemma ratio_pos (p : Q) : (0 < Qnum p <= Zpos (Qden p))%Z -> 0 < Q2R p <= 1.
Proof.
  intros H. unfold Q2R. assert (D : 0 < IZR (Zpos (Qden p))) by (apply IZR_lt; lia).
  assert (N : 0 < IZR (Qnum p)) by (apply IZR_lt; lia).
  assert (L : IZR (Qnum p) <= IZR (Zpos (Qden p))) by (apply IZR_le; lia).
  split; [apply Rmult_lt_0_compat; [exact N|apply Rinv_0_lt_compat; exact D]|].
  apply Rmult_le_reg_r with (IZR (Zpos (Qden p))); [exact D|]. rewrite Rmult_assoc, Rinv_l; lra.
Qed.

Lemma exact_factor eps (p : Q) : exponential_factor (exact eps) p = Fin (Q2R p).
Proof.
  unfold exponential_factor. cbn. rewrite Req_bool_false by (apply IZR_neq; discriminate). reflexivity.
Qed.

(** ** C76 *)

(** @prop C76_exponential: for every ratio in (0, 1] the constructor's assertion
    holds, and after every history of pushes and clears value() is the
    exponentially weighted mean, with the ratio as factor, of the values since
    the last clear, and 0 when there are none. *)
Lemma c76_exponential : forall (eps : R) (p : Q) (ops : list (op R)),
  (0 < Qnum p <= Zpos (Qden p))%Z ->
  let F := exact eps in
  let l := since_clear ops in
  exists s0 m, exponential_new F p = Some s0 /\
    exponential_value F (run (exponential_push F) (exponential_clear F) s0 (rops eps ops)) = Fin m /\
    (l <> [] -> m = ewma (Q2R p) l) /\ (l = [] -> m = 0).
Proof.
  intros eps p ops Hp F l. pose proof (ratio_pos p Hp) as Rp.
  unfold exponential_new, factor_ok. unfold F. rewrite exact_factor. cbn.
  rewrite Rlt_bool_true, Rle_bool_true by lra. cbn [andb].
  destruct (c31 eps (Q2R p) 1 1 1 ops Rp) as (m & E & _ & _ & _ & H1 & H2 & _).
  eexists. exists m. split; [reflexivity|]. split; [exact E|]. split; [exact H1|exact H2].
Qed.

(** @ex C76_exponential_ex: ratio 1/2; 1 and 4 after a clear give 3. *)
Lemma c76_exponential_ex :
  (0 < Qnum (1 # 2) <= Zpos (Qden (1 # 2)))%Z /\
  since_clear [Push 7; Clear; Push 1; Push 4] = [1; 4] /\ ewma (Q2R (1 # 2)) [1; 4] = 3.
Proof.
  split; [cbn; lia|]. split; [reflexivity|]. unfold ewma, Q2R. cbn. field.
Qed.

(** @prop C76_assertion: on binary64 a ratio with numerator and denominator up to
    2^53 in magnitude passes the constructor's assertion exactly if it lies in
    (0, 1]. *)
Lemma c76_assertion : forall p : Q,
  (Z.abs (Qnum p) <= 2 ^ 53)%Z -> (Zpos (Qden p) <= 2 ^ 53)%Z ->
  ((exists s, exponential_new b64num p = Some s) <-> 0 < Q2R p <= 1).
Proof.
  intros p Hn Hd.
  destruct (of_Z_exact (Qnum p) Hn) as [F1 E1].
  destruct (of_Z_exact (Zpos (Qden p))) as [F2 E2]; [lia|].
  assert (EQ : b64_real (b64_of_Z (Qnum p)) / b64_real (b64_of_Z (Zpos (Qden p))) = Q2R p)
    by (rewrite E1, E2; reflexivity).
  assert (D1 : 1 <= IZR (Zpos (Qden p))) by (apply IZR_le; lia).
  assert (D53 : IZR (Zpos (Qden p)) <= bpow radix2 53).
  { rewrite <- (IZR_Zpower radix2) by lia. apply IZR_le. exact Hd. }
  assert (NR : Rabs (IZR (Qnum p)) <= bpow radix2 53).
  { rewrite <- abs_IZR, <- (IZR_Zpower radix2) by lia. apply IZR_le. exact Hn. }
  assert (Q53 : Rabs (Q2R p) <= bpow radix2 53).
  { unfold Q2R. rewrite Rabs_mult. rewrite (Rabs_pos_eq (/ _)) by (apply Rlt_le, Rinv_0_lt_compat; lra).
    rewrite <- (Rmult_1_r (bpow radix2 53)). apply Rmult_le_compat; try apply Rabs_pos; try assumption.
    - apply Rlt_le, Rinv_0_lt_compat; lra.
    - rewrite <- Rinv_1. apply Rinv_le_contravar; lra. }
  assert (FE : b64_finite (exponential_factor b64num p) /\ b64_real (exponential_factor b64num p) = rnd64 (Q2R p)).
  { unfold exponential_factor. change (@ndiv b64num) with (SFdiv 53 1024).
    change (@nofz b64num) with b64_of_Z. rewrite <- EQ. apply div_real; try assumption.
    - rewrite E2. lra.
    - rewrite EQ. unfold in_range. rewrite <- rnd64_abs. apply Rle_lt_trans with (bpow radix2 53); [|apply bpow_lt; lia].
      rewrite <- (rnd64_rep (bpow radix2 53)) by (apply rep64_bpow; lia). apply rnd64_le. exact Q53. }
  destruct FE as [FF FR].
  assert (One : b64_finite (b64_of_Z 1) /\ b64_real (b64_of_Z 1) = 1) by (apply of_Z_exact; lia).
  assert (Zero : b64_finite (b64_of_Z 0) /\ b64_real (b64_of_Z 0) = 0) by (apply of_Z_exact; lia).
  assert (OK : factor_ok b64num (exponential_factor b64num p) = true <-> 0 < rnd64 (Q2R p) <= 1).
  { unfold factor_ok. change (@nlt b64num) with SFltb. change (@nle b64num) with SFleb.
    change (@n0 b64num) with (b64_of_Z 0). change (@n1 b64num) with (b64_of_Z 1).
    rewrite ltb_real, leb_real by tauto. rewrite FR, (proj2 One), (proj2 Zero).
    rewrite andb_true_iff. destruct (Rlt_bool_spec 0 (rnd64 (Q2R p))); destruct (Rle_bool_spec (rnd64 (Q2R p)) 1);
      split; intros; (split; (reflexivity || lra || (exfalso; intuition (discriminate || lra)))). }
  assert (R01 : 0 < rnd64 (Q2R p) <= 1 <-> 0 < Q2R p <= 1).
  { assert (U1 : rnd64 1 = 1) by (apply rnd64_rep; apply (rep64_IZR 1); lia).
    split; intros [A B]; split.
    - apply Rnot_le_lt. intros N. apply rnd64_le in N. rewrite rnd64_0 in N. lra.
    - apply Rnot_lt_le. intros N.
      assert (G : 1 + / IZR (Zpos (Qden p)) <= Q2R p).
      { unfold Q2R in N |- *. assert (IZR (Zpos (Qden p)) < IZR (Qnum p)).
        { apply Rmult_lt_reg_r with (/ IZR (Zpos (Qden p))); [apply Rinv_0_lt_compat; lra|]. rewrite Rinv_r; lra. }
        apply lt_IZR in H. assert (IZR (Zpos (Qden p)) + 1 <= IZR (Qnum p)) by (rewrite <- plus_IZR; apply IZR_le; lia).
        apply Rmult_le_reg_r with (IZR (Zpos (Qden p))); [lra|].
        rewrite Rmult_plus_distr_r, Rinv_l, Rmult_assoc, Rinv_l by lra. lra. }
      assert (Hlt : IZR (Zpos (Qden p)) < bpow radix2 53).
      { apply Rle_lt_or_eq_dec in D53. destruct D53 as [L|L]; [exact L|]. exfalso.
        assert (IZR (Zpos (Qden p)) < IZR (Qnum p)).
        { unfold Q2R in N. apply Rmult_lt_reg_r with (/ IZR (Zpos (Qden p))); [apply Rinv_0_lt_compat; lra|]. rewrite Rinv_r; lra. }
        pose proof (Rle_abs (IZR (Qnum p))). lra. }
      assert (G2 : bpow radix2 (-53) < / IZR (Zpos (Qden p))).
      { change (-53)%Z with (- (53))%Z. rewrite bpow_opp. apply Rinv_lt_contravar; [|exact Hlt].
        apply Rmult_lt_0_compat; [lra|apply bpow_gt_0]. }
      assert (S1 : succ radix2 (FLT_exp (-1074) 53) 1 = 1 + bpow radix2 (-52)).
      { rewrite succ_eq_pos by lra. f_equal. change 1 with (bpow radix2 0). rewrite ulp_bpow. f_equal. }
      assert (HH : 1 + bpow radix2 (-52) <= rnd64 (Q2R p)).
      { rewrite <- S1. unfold rnd64. apply round_N_ge_midp.
        - typeclasses eauto.
        - apply generic_format_succ; [typeclasses eauto|]. apply (rep64_IZR 1). lia.
        - rewrite pred_succ by (try typeclasses eauto; apply (rep64_IZR 1); lia). rewrite S1.
          replace (bpow radix2 (-52)) with (2 * bpow radix2 (-53)).
          + lra.
          + change (-52)%Z with (1 + -53)%Z. rewrite (bpow_plus radix2 1). reflexivity. }
      pose proof (bpow_gt_0 radix2 (-52)). lra.
    - apply Rlt_le_trans with (bpow radix2 (-53)); [apply bpow_gt_0|].
      rewrite <- (rnd64_rep (bpow radix2 (-53))) by (apply rep64_bpow; lia). apply rnd64_le.
      assert (Np : 1 <= IZR (Qnum p)).
      { apply IZR_le. unfold Q2R in A. assert (0 < IZR (Qnum p)).
        { apply Rmult_lt_reg_r with (/ IZR (Zpos (Qden p))); [apply Rinv_0_lt_compat; lra|]. lra. }
        apply lt_IZR in H. lia. }
      change (-53)%Z with (- (53))%Z. rewrite bpow_opp. unfold Q2R.
      apply Rle_trans with (1 * / IZR (Zpos (Qden p))).
      + rewrite Rmult_1_l. apply Rinv_le_contravar; lra.
      + apply Rmult_le_compat_r; [apply Rlt_le, Rinv_0_lt_compat; lra|exact Np].
    - rewrite <- U1. apply rnd64_le. exact B. }
  rewrite <- R01, <- OK. unfold exponential_new.
  destruct (factor_ok b64num (exponential_factor b64num p)).
  - split; [reflexivity|]. intros _. eexists. reflexivity.
  - split; [intros [s H]; discriminate|discriminate].
Qed.

(** @ex C76_assertion_ex: the largest ratio below 1 and the smallest above 1 with
    a denominator of 2^53 - 1. *)
Lemma c76_assertion_ex :
  (Z.abs 9007199254740990 <= 2 ^ 53)%Z /\ (9007199254740991 <= 2 ^ 53)%Z /\
  (exists s, exponential_new b64num (9007199254740990 # 9007199254740991) = Some s) /\
  exponential_new b64num (9007199254740992 # 9007199254740991) = None.
Proof.
  split; [lia|]. split; [lia|]. unfold exponential_new.
  assert (A : factor_ok b64num (exponential_factor b64num (9007199254740990 # 9007199254740991)) = true) by (vm_compute; reflexivity).
  assert (B : factor_ok b64num (exponential_factor b64num (9007199254740992 # 9007199254740991)) = false) by (vm_compute; reflexivity).
  rewrite A, B. split; [eexists; reflexivity|reflexivity].
Qed.

Lemma large_factor (p : Q) : (Z.abs (Qnum p) < 2 ^ 63)%Z -> (Zpos (Qden p) < 2 ^ 63)%Z ->
  let n := rnd64 (IZR (Qnum p)) in
  let d := rnd64 (IZR (Zpos (Qden p))) in
  1 <= d <= bpow radix2 63 /\
  b64_finite (exponential_factor b64num p) /\ b64_real (exponential_factor b64num p) = rnd64 (n / d) /\
  ((exists s, exponential_new b64num p = Some s) <-> 0 < rnd64 (n / d) <= 1).
Proof.
  intros Hn Hd n d.
  assert (B63 : rep64 (bpow radix2 63)) by (apply rep64_bpow; lia).
  assert (U1 : rnd64 1 = 1) by (apply rnd64_rep; apply (rep64_IZR 1); lia).
  assert (Bz : forall z, (Z.abs z < 2 ^ 63)%Z -> Rabs (rnd64 (IZR z)) <= bpow radix2 63).
  { intros z Hz. rewrite <- rnd64_abs, <- (rnd64_rep (bpow radix2 63) B63). apply rnd64_le.
    rewrite <- abs_IZR, <- (IZR_Zpower radix2) by lia. apply IZR_le. change (radix2 ^ 63)%Z with (2 ^ 63)%Z. lia. }
  assert (Ir : forall z, (Z.abs z < 2 ^ 63)%Z -> b64_finite (b64_of_Z z) /\ b64_real (b64_of_Z z) = rnd64 (IZR z)).
  { intros z Hz. apply of_Z_real. unfold in_range. apply Rle_lt_trans with (1 := Bz z Hz). apply bpow_lt. lia. }
  destruct (Ir (Qnum p) Hn) as [F1 E1]. destruct (Ir (Zpos (Qden p)) ltac:(lia)) as [F2 E2].
  fold n in E1. fold d in E2.
  assert (D : 1 <= d <= bpow radix2 63).
  { split; [rewrite <- U1; apply rnd64_le, IZR_le; lia|].
    eapply Rle_trans; [apply Rle_abs|]. apply (Bz (Zpos (Qden p))). lia. }
  assert (ND : Rabs (n / d) <= bpow radix2 63).
  { unfold Rdiv. rewrite Rabs_mult, (Rabs_pos_eq (/ d)) by (apply Rlt_le, Rinv_0_lt_compat; lra).
    rewrite <- (Rmult_1_r (bpow radix2 63)). apply Rmult_le_compat; try apply Rabs_pos.
    - apply Rlt_le, Rinv_0_lt_compat; lra.
    - apply Bz. exact Hn.
    - rewrite <- Rinv_1. apply Rinv_le_contravar; lra. }
  assert (FE : b64_finite (exponential_factor b64num p) /\ b64_real (exponential_factor b64num p) = rnd64 (n / d)).
  { unfold exponential_factor. change (@ndiv b64num) with (SFdiv 53 1024).
    change (@nofz b64num) with b64_of_Z. rewrite <- E1, <- E2. apply div_real; try assumption.
    - rewrite E2. lra.
    - rewrite E1, E2. unfold in_range. rewrite <- rnd64_abs. apply Rle_lt_trans with (bpow radix2 63); [|apply bpow_lt; lia].
      rewrite <- (rnd64_rep (bpow radix2 63) B63). apply rnd64_le. exact ND. }
  split; [exact D|]. destruct FE as [FF FR]. split; [exact FF|]. split; [exact FR|].
  assert (One : b64_finite (b64_of_Z 1) /\ b64_real (b64_of_Z 1) = 1) by (apply of_Z_exact; lia).
  assert (Zero : b64_finite (b64_of_Z 0) /\ b64_real (b64_of_Z 0) = 0) by (apply of_Z_exact; lia).
  assert (OK : factor_ok b64num (exponential_factor b64num p) = true <-> 0 < rnd64 (n / d) <= 1).
  { unfold factor_ok. change (@nlt b64num) with SFltb. change (@nle b64num) with SFleb.
    change (@n0 b64num) with (b64_of_Z 0). change (@n1 b64num) with (b64_of_Z 1).
    rewrite ltb_real, leb_real by tauto. rewrite FR, (proj2 One), (proj2 Zero).
    rewrite andb_true_iff. destruct (Rlt_bool_spec 0 (rnd64 (n / d))); destruct (Rle_bool_spec (rnd64 (n / d)) 1);
      split; intros; (split; (reflexivity || lra || (exfalso; intuition (discriminate || lra)))). }
  rewrite <- OK. unfold exponential_new. destruct (factor_ok b64num (exponential_factor b64num p)).
  - split; [reflexivity|eauto].
  - split; [intros [s H]; discriminate|discriminate].
Qed.

Lemma rnd64_rel x : 1 <= Rabs x -> Rabs (rnd64 x - x) <= bpow radix2 (-53) * Rabs x.
Proof.
  intros H. unfold rnd64.
  pose proof (relative_error_N_FLT radix2 (-1074) 53 ltac:(reflexivity) (fun x => negb (Z.even x)) x) as E.
  replace (/ 2 * bpow radix2 (- (53) + 1) * Rabs x) with (bpow radix2 (-53) * Rabs x) in E.
  - apply E. apply Rle_trans with (2 := H). change 1 with (bpow radix2 0). apply bpow_le. lia.
  - rewrite bpow_plus. change (- (53))%Z with (-53)%Z. change (bpow radix2 1) with 2. field.
Qed.

(** @prop C76_large_partial: binary64 and every std::ratio, whose numerator and
    denominator are 64-bit integers: ratios in (0, 1] pass the assertion, ratios
    that are 0, negative, or at least 1 + 2^-51 do not. *)
Lemma c76_large : forall p : Q,
  (Z.abs (Qnum p) < 2 ^ 63)%Z -> (Zpos (Qden p) < 2 ^ 63)%Z ->
  (0 < Q2R p <= 1 -> exists s, exponential_new b64num p = Some s) /\
  (Q2R p <= 0 \/ 1 + bpow radix2 (-51) <= Q2R p -> exponential_new b64num p = None).
Proof.
  intros p Hn Hd. destruct (large_factor p Hn Hd) as (D & _ & _ & OK). cbv zeta in *.
  set (n := rnd64 (IZR (Qnum p))) in *. set (d := rnd64 (IZR (Zpos (Qden p)))) in *.
  assert (U1 : rnd64 1 = 1) by (apply rnd64_rep; apply (rep64_IZR 1); lia).
  assert (P1 : 1 <= IZR (Zpos (Qden p))) by (apply IZR_le; lia).
  assert (Id : 0 < / d) by (apply Rinv_0_lt_compat; lra).
  assert (Nm : IZR (Qnum p) = Q2R p * IZR (Zpos (Qden p))).
  { unfold Q2R. rewrite Rmult_assoc, Rinv_l by lra. ring. }
  split.
  - intros Hp. apply OK.
    assert (N0 : (0 < Qnum p)%Z) by (apply lt_IZR; rewrite Nm; nra).
    assert (N1 : 1 <= n) by (rewrite <- U1; apply rnd64_le, IZR_le; lia).
    assert (Nd : n <= d) by (apply rnd64_le; rewrite Nm; nra).
    split.
    + apply Rlt_le_trans with (bpow radix2 (-63)); [apply bpow_gt_0|].
      rewrite <- (rnd64_rep (bpow radix2 (-63))) by (apply rep64_bpow; lia). apply rnd64_le.
      change (-63)%Z with (- (63))%Z. rewrite bpow_opp. unfold Rdiv.
      rewrite <- (Rmult_1_l (/ bpow radix2 63)). apply Rmult_le_compat; try lra.
      * apply Rlt_le, Rinv_0_lt_compat, bpow_gt_0.
      * apply Rinv_le_contravar; lra.
    + rewrite <- U1. apply rnd64_le. apply Rmult_le_reg_r with d; [lra|]. unfold Rdiv. rewrite Rmult_assoc, Rinv_l; lra.
  - intros Hp.
    assert (NO : ~ (0 < rnd64 (n / d) <= 1)).
    2: { destruct (exponential_new b64num p) as [s|]; [|reflexivity]. exfalso. apply NO, OK. eauto. }
    intros [A B]. destruct Hp as [Hp|Hp].
    + assert (n <= 0) by (unfold n; rewrite <- rnd64_0; apply rnd64_le; rewrite Nm; nra).
      assert (n / d <= 0) by (unfold Rdiv; nra). apply rnd64_le in H0. rewrite rnd64_0 in H0. lra.
    + set (u := bpow radix2 (-53)).
      assert (E51 : bpow radix2 (-51) = 4 * u) by (unfold u; change (-51)%Z with (2 + -53)%Z; rewrite bpow_plus; reflexivity).
      assert (U : 0 < u <= / 1024).
      { unfold u. split; [apply bpow_gt_0|]. change (/ 1024) with (bpow radix2 (-10)). apply bpow_le. lia. }
      rewrite E51 in Hp.
      assert (IZR (Zpos (Qden p)) <= IZR (Qnum p)) by (rewrite Nm; nra).
      pose proof (rnd64_rel (IZR (Qnum p)) ltac:(rewrite Rabs_pos_eq; lra)) as En. fold n u in En.
      pose proof (rnd64_rel (IZR (Zpos (Qden p))) ltac:(rewrite Rabs_pos_eq; lra)) as Ed. fold d u in Ed.
      rewrite (Rabs_pos_eq (IZR (Qnum p))) in En by lra. rewrite (Rabs_pos_eq (IZR (Zpos (Qden p)))) in Ed by lra.
      apply Raux.Rabs_le_inv in En. apply Raux.Rabs_le_inv in Ed.
      set (q := Q2R p) in *. set (b := IZR (Zpos (Qden p))) in *. set (a := IZR (Qnum p)) in *.
      assert (n1 : (1 + 4 * u) * b * (1 - u) <= n).
      { apply Rle_trans with (a * (1 - u)); [|lra]. apply Rmult_le_compat_r; [lra|]. rewrite Nm.
        apply Rmult_le_compat_r; lra. }
      assert (d1 : d <= b * (1 + u)) by lra.
      assert (K : 1 + u < n / d).
      { apply Rmult_lt_reg_r with d; [lra|]. unfold Rdiv. rewrite (Rmult_assoc n), Rinv_l, Rmult_1_r by lra.
        apply Rle_lt_trans with ((1 + u) * (b * (1 + u))); [apply Rmult_le_compat_l; lra|].
        apply Rlt_le_trans with (2 := n1). nra. }
      assert (S1 : succ radix2 (FLT_exp (-1074) 53) 1 = 1 + bpow radix2 (-52)).
      { rewrite succ_eq_pos by lra. f_equal. change 1 with (bpow radix2 0). rewrite ulp_bpow. f_equal. }
      assert (E52 : bpow radix2 (-52) = 2 * u) by (unfold u; change (-52)%Z with (1 + -53)%Z; rewrite bpow_plus; reflexivity).
      assert (HH : 1 + bpow radix2 (-52) <= rnd64 (n / d)); [|lra].
      rewrite <- S1. unfold rnd64. apply round_N_ge_midp.
      * typeclasses eauto.
      * apply generic_format_succ; [typeclasses eauto|]. apply (rep64_IZR 1). lia.
      * rewrite pred_succ by (try typeclasses eauto; apply (rep64_IZR 1); lia). rewrite S1, E52. lra.
Qed.

(** @ex C76_large_partial_ex: a ratio just below 1 whose terms double does not
    represent, and one above 1. *)
Lemma c76_large_ex :
  let p := (9223372036854775806 # 9223372036854775807)%Q in
  let q := (9223372036854775807 # 9223372036854771000)%Q in
  (Z.abs (Qnum p) < 2 ^ 63)%Z /\ (Zpos (Qden p) < 2 ^ 63)%Z /\ 0 < Q2R p <= 1 /\
  (Z.abs (Qnum q) < 2 ^ 63)%Z /\ (Zpos (Qden q) < 2 ^ 63)%Z /\ 1 + bpow radix2 (-51) <= Q2R q.
Proof.
  change (bpow radix2 (-51)) with (/ 2251799813685248). unfold Q2R. cbn [Qnum Qden].
  split; [reflexivity|]. split; [reflexivity|]. split; [lra|]. split; [reflexivity|]. split; [reflexivity|]. lra.
Qed.

(** @prop C76_large_refuted: accepting exactly the ratios in (0, 1] is false of
    numerators beyond 2^53: (2^53+1)/2^53 is greater than 1 and accepted, because
    both terms are converted to double first. *)
Lemma c76_large_refuted : exists p : Q,
  (Z.abs (Qnum p) < 2 ^ 63)%Z /\ (Zpos (Qden p) < 2 ^ 63)%Z /\
  1 < Q2R p /\ exists s, exponential_new b64num p = Some s.
Proof.
  exists (9007199254740993 # 9007199254740992)%Q. unfold Q2R. cbn [Qnum Qden].
  split; [reflexivity|]. split; [reflexivity|]. split; [lra|]. unfold exponential_new.
  assert (A : factor_ok b64num (exponential_factor b64num (9007199254740993 # 9007199254740992)) = true) by (vm_compute; reflexivity).
  rewrite A. eexists. reflexivity.
Qed.

(** @prop C76_accuracy_binary64: on binary64, for every ratio from 2^-46 to 1 with
    numerator and denominator up to 2^53 and every history with finite values of
    magnitude at most [M <= 2^1018] since the last clear, value() is finite and
    differs from the exponentially weighted mean whose factor is the exact ratio
    by at most 215 rounding units of M divided by the ratio; the bound does not
    depend on the number of values. *)
Lemma c76_accuracy : forall (p : Q) (ops : list (op b64)) (M : R),
  (Z.abs (Qnum p) <= 2 ^ 53)%Z -> (Zpos (Qden p) <= 2 ^ 53)%Z ->
  bpow radix2 (-46) <= Q2R p <= 1 ->
  let l := since_clear ops in
  l <> [] -> M <= bpow radix2 1018 ->
  Forall (fun x => b64_finite x /\ Rabs (b64_real x) <= M) l ->
  exists s0, exponential_new b64num p = Some s0 /\
  let v := exponential_value b64num (run (exponential_push b64num) (exponential_clear b64num) s0 ops) in
  b64_finite v /\
  Rabs (b64_real v - ewma (Q2R p) (map b64_real l)) <=
    215 * bpow radix2 (-53) * M / Q2R p + 58 * bpow radix2 (-1075) * (1 + M) / (Q2R p * Q2R p).
Proof.
  intros p ops M Hn Hd Hp l NE HM HF.
  pose proof (bpow_gt_0 radix2 (-46)) as P46.
  destruct (proj2 (c76_assertion p Hn Hd) ltac:(lra)) as [s0 Hs].
  exists s0. split; [exact Hs|].
  assert (E0 : s0 = dmean_init b64num (exponential_factor b64num p)).
  { unfold exponential_new in Hs. destruct (factor_ok _ _); congruence. }
  subst s0. clear Hs. set (f := exponential_factor b64num p).
  assert (Fpos : (0 <= p)%Q /\ (p <= 1)%Q).
  { split; apply Rle_Qle; [rewrite RMicromega.Q2R_0|rewrite RMicromega.Q2R_1]; lra. }
  destruct (c39_ratio64 p (proj1 Fpos) (proj2 Fpos) Hd) as [FF FR].
  change (Psquare.ratio_value b64num p) with f in FF, FR.
  assert (Er : run (exponential_push b64num) (exponential_clear b64num) (dmean_init b64num f) ops =
               run (dmean_push b64num) (dmean_clear b64num) (dmean_init b64num f) (pushes l)).
  { rewrite run_pushes. unfold l.
    apply (run_since_clear_inv (fun s => dm_factor b64num s = f)); [reflexivity|intros s a H; exact H|].
    intros s H. unfold exponential_clear, dmean_clear. rewrite H. reflexivity. }
  rewrite Er.
  set (r := Q2R p) in *. set (u := bpow radix2 (-53)).
  assert (U : 0 < u <= / 1048576).
  { split; [apply bpow_gt_0|]. change (/ 1048576) with (bpow radix2 (-20)). apply bpow_le. lia. }
  assert (Near : Rabs (b64_real f - r) <= u * r).
  { rewrite FR. unfold rnd64.
    pose proof (relative_error_N_FLT radix2 (-1074) 53 ltac:(reflexivity) (fun x => negb (Z.even x)) r) as E.
    rewrite (Rabs_pos_eq r) in E by lra.
    replace (/ 2 * bpow radix2 (- (53) + 1) * r) with (u * r) in E.
    - apply E. apply Rle_trans with (2 := proj1 Hp). apply bpow_le. lia.
    - unfold u. rewrite bpow_plus. change (- (53))%Z with (-53)%Z. change (bpow radix2 1) with 2. field. }
  apply Rabs_le_inv in Near.
  assert (Fb : bpow radix2 (-46) <= b64_real f <= 1).
  { rewrite FR. split.
    - rewrite <- (rnd64_rep (bpow radix2 (-46))) by (apply rep64_bpow; lia). apply rnd64_le. lra.
    - rewrite <- (rnd64_rep 1) by (apply (rep64_IZR 1); lia). apply rnd64_le. lra. }
  destruct (c67_binary64 f l M FF Fb NE HM HF) as [Fv Ev].
  split; [exact Fv|].
  set (v := b64_real (dmean_mean b64num _)) in *. change (b64_real (exponential_value b64num _)) with v.
  set (g := b64_real f) in *.
  destruct (b64_magn M l HF) as [_ Hmag].
  assert (M0 : 0 <= M).
  { apply (magn_pos b64_real M l NE). eapply Forall_impl; [|exact HF]; cbn; tauto. }
  assert (NE' : map b64_real l <> []) by (destruct l; [congruence|discriminate]).
  assert (Sens : Rabs (ewma g (map b64_real l) - ewma r (map b64_real l)) <= 2 * M * (2 * u)).
  { assert (ur : u * r <= r / 2) by nra.
    assert (Dv : forall x y, 0 < y -> x <= 2 * u * y -> x / y <= 2 * u).
    { intros x y Hy Hx. apply Rmult_le_reg_r with y; [exact Hy|]. unfold Rdiv. rewrite Rmult_assoc, Rinv_l; lra. }
    destruct (Rle_or_lt g r) as [L|L].
    - apply Rle_trans with (1 := ewma_sensitivity g r M _ ltac:(lra) ltac:(lra) NE' Hmag).
      apply Rmult_le_compat_l; [lra|]. apply Dv; [lra|]. nra.
    - rewrite Rabs_minus_sym. apply Rle_trans with (1 := ewma_sensitivity r g M _ ltac:(lra) ltac:(lra) NE' Hmag).
      apply Rmult_le_compat_l; [lra|]. apply Dv; [lra|]. nra. }
  assert (Ig : / g <= (1 + 2 * u) * / r).
  { apply Rmult_le_reg_r with (g * r); [apply Rmult_lt_0_compat; lra|].
    replace (/ g * (g * r)) with r by (field; lra). replace ((1 + 2 * u) * / r * (g * r)) with ((1 + 2 * u) * g) by (field; lra).
    nra. }
  assert (Gp : 0 < / g) by (apply Rinv_0_lt_compat; lra).
  assert (Rp : 1 <= / r) by (rewrite <- Rinv_1; apply Rinv_le_contravar; lra).
  set (t := bpow radix2 (-1075)) in *. assert (T0 : 0 < t) by apply bpow_gt_0.
  replace (v - ewma r (map b64_real l)) with ((v - ewma g (map b64_real l)) + (ewma g (map b64_real l) - ewma r (map b64_real l))) by ring.
  apply Rle_trans with (1 := Rabs_triang _ _).
  apply Rle_trans with ((209 * u * M / g + 57 * t * (1 + M) / (g * g)) + 2 * M * (2 * u)); [apply Rplus_le_compat; [exact Ev|exact Sens]|].
  assert (A1 : 209 * u * M / g <= 211 * u * M / r).
  { unfold Rdiv. apply Rle_trans with (209 * u * M * ((1 + 2 * u) * / r)).
    - apply Rmult_le_compat_l; [nra|exact Ig].
    - replace (209 * u * M * ((1 + 2 * u) * / r)) with (209 * (1 + 2 * u) * (u * M * / r)) by ring.
      replace (211 * u * M * / r) with (211 * (u * M * / r)) by ring.
      apply Rmult_le_compat_r; [|lra]. apply Rmult_le_pos; [nra|lra]. }
  assert (A2 : 57 * t * (1 + M) / (g * g) <= 58 * t * (1 + M) / (r * r)).
  { unfold Rdiv. rewrite !Rinv_mult.
    assert (Sq : / g * / g <= ((1 + 2 * u) * / r) * ((1 + 2 * u) * / r)) by (apply Rmult_le_compat; lra).
    apply Rle_trans with (57 * t * (1 + M) * (((1 + 2 * u) * / r) * ((1 + 2 * u) * / r))).
    - apply Rmult_le_compat_l; [nra|exact Sq].
    - replace (57 * t * (1 + M) * (((1 + 2 * u) * / r) * ((1 + 2 * u) * / r)))
        with (57 * ((1 + 2 * u) * (1 + 2 * u)) * (t * (1 + M) * (/ r * / r))) by ring.
      replace (58 * t * (1 + M) * (/ r * / r)) with (58 * (t * (1 + M) * (/ r * / r))) by ring.
      apply Rmult_le_compat_r; [apply Rmult_le_pos; [nra|nra]|]. nra. }
  assert (A3 : 2 * M * (2 * u) <= 4 * u * M / r).
  { unfold Rdiv. replace (2 * M * (2 * u)) with (4 * u * M * 1) by ring. apply Rmult_le_compat_l; [nra|exact Rp]. }
  replace (215 * u * M / r) with (211 * u * M / r + 4 * u * M / r) by (field; lra). lra.
Qed.

(** @ex C76_accuracy_binary64_ex: ratio 1/10, which is not a double, and the values
    1 and -70 after a clear. *)
Lemma c76_accuracy_ex :
  let p := (1 # 10)%Q in
  let ops := [Push S754_nan; Clear; Push (b64_of_Z 1); Push (b64_of_Z (-70))] in
  let l := since_clear ops in
  (Z.abs (Qnum p) <= 2 ^ 53)%Z /\ (Zpos (Qden p) <= 2 ^ 53)%Z /\
  bpow radix2 (-46) <= Q2R p <= 1 /\ l <> [] /\ 70 <= bpow radix2 1018 /\
  Forall (fun x => b64_finite x /\ Rabs (b64_real x) <= 70) l.
Proof.
  cbv zeta. split; [cbn; lia|]. split; [cbn; lia|]. split.
  { unfold Q2R. cbn [Qnum Qden]. split; [|lra].
    apply Rle_trans with (bpow radix2 (-4)); [apply bpow_le; lia|change (bpow radix2 (-4)) with (/ 16); lra]. }
  split; [discriminate|]. split.
  { apply Rle_trans with (bpow radix2 7); [change (bpow radix2 7) with 128; lra|apply bpow_le; lia]. }
  cbn [since_clear]. 
  assert (D : forall z, (Z.abs z <= 70)%Z -> b64_finite (b64_of_Z z) /\ Rabs (b64_real (b64_of_Z z)) <= 70).
  { intros z Hz. destruct (of_Z_exact z ltac:(lia)) as [A B]. split; [exact A|]. rewrite B, <- abs_IZR. apply IZR_le. exact Hz. }
  apply Forall_cons; [apply D; lia|]. apply Forall_cons; [apply D; lia|]. apply Forall_nil.
Qed.

(** @prop C76_arithmetic: moment::arithmetic<T, N> and
    moment::arithmetic_variance<T, N> report the mean and the variance of the
    last N values since the last clear. *)
Lemma c76_arithmetic : forall (eps : R) (W : nat) (ops : list (op R)),
  (0 < W)%nat -> (N.of_nat W < szmod)%N ->
  let F := exact eps in
  let w := lastn W (since_clear ops) in
  w <> [] ->
  let s := run (arithmetic_push F W) (arithmetic_clear F) (arithmetic_init F) (rops eps ops) in
  let sv := run (arithmetic_variance_push F W) (arithmetic_variance_clear F) (arithmetic_variance_init F) (rops eps ops) in
  arithmetic_mean F s = Fin (mean w) /\ arithmetic_variance_mean F sv = Fin (mean w) /\
  arithmetic_variance_variance F sv = Fin (variance w).
Proof.
  intros eps W ops HW H64 F w NE s sv.
  destruct (c15 eps W ops HW H64) as (_ & H & _). destruct (H NE) as [H1 H2].
  destruct (c16 eps W ops HW H64) as (H3 & _). specialize (H3 NE).
  split; [exact H1|]. split; [exact H2|exact H3].
Qed.

(** @ex C76_arithmetic_ex: window 3, five values after a clear. *)
Lemma c76_arithmetic_ex :
  let ops := [Push 9; Clear; Push 1; Push 2; Push 6; Push 4; Push 8] in
  let w := lastn 3 (since_clear ops) in
  (0 < 3)%nat /\ (N.of_nat 3 < szmod)%N /\ w <> [] /\ mean w = 6 /\ variance w = 8 / 3.
Proof.
  cbv zeta. split; [lia|]. split; [reflexivity|]. split; [cbn; congruence|].
  unfold variance, csum, mean, card; cbn; split; field.
Qed.
