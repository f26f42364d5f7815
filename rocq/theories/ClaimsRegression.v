(** * Claims C92 and C93: accuracy of regression and correlation in binary64 *)

From Coq Require Import Reals ZArith NArith List Bool.
From Coq Require Import Floats.SpecFloat.
From Flocq Require Import Core.
From Verif Require Import Arith History SpecStats SpecBlocks SpecError Cumulative Interim Binary64.
Import ListNotations.
Local Open Scope R_scope.
(* @end-header *)
From Coq Require Import Lia Lra Psatz.
From Flocq Require Import IEEE754.BinarySingleNaN.
From Verif Require Import HistoryLemmas StatsLemmas CumulativeProofs CumulativeStats Binary64Cumulative Approx ApproxInstances
  AccuracyProofs AccuracyVariance AccuracyRegression ClaimsAccuracy.

Lemma denotes_fin x : b64_finite x -> denotes x (b64_real x).
Proof. intros H. split; [exact H|reflexivity]. Qed.

Lemma nonzero_eq (x : b64num) r : denotes x r -> r <> 0 -> neq x (n0 : b64num) = false.
Proof.
  intros [Fx Ex] H. change (SFeqb x (b64_of_Z 0) = false).
  destruct denotes_zero as [F0 E0]. rewrite eqb_real by assumption. rewrite Ex, E0. apply Req_bool_false. exact H.
Qed.

Lemma sqrt_b64 (x : b64num) a : denotes x a -> 0 <= a ->
  exists r, denotes (nsqrt x) r /\ near (bpow radix2 (-53)) (bpow radix2 (-1075)) (sqrt a) r.
Proof.
  intros [Fx Ex] H. subst a. destruct (sqrt_real x Fx H) as [F1 E1].
  exists (rnd64 (sqrt (b64_real x))). split; [split; [exact F1|exact E1]|].
  apply (rounding_nearest (-1074) 53); lia.
Qed.

(** The parts of a history of pairs. *)
Lemma creg_parts (ops : list (op (b64 * b64))) :
  let s := run (creg_push b64num) (creg_clear b64num) (creg_init b64num) ops in
  cg_co b64num s = run (ccov_push b64num) (ccov_clear b64num) (ccov_init b64num) ops /\
  cg_x b64num s = run (cvar_push b64num) (cvar_clear b64num) (cvar_init b64num) (map (op_map fst) ops) /\
  cg_y b64num s = run (cvar_push b64num) (cvar_clear b64num) (cvar_init b64num) (map (op_map snd) ops).
Proof.
  cbv zeta. rewrite (run_since_clear (creg_push b64num) (creg_clear b64num) (creg_init b64num)) by reflexivity.
  rewrite (run_since_clear (ccov_push b64num) (ccov_clear b64num) (ccov_init b64num)) by reflexivity.
  rewrite !(run_since_clear (cvar_push b64num) (cvar_clear b64num) (cvar_init b64num)) by reflexivity.
  rewrite creg_fold, !since_clear_op_map. cbn [cg_co cg_x cg_y creg_init]. split; [|split]; reflexivity.
Qed.

Lemma ccorr_parts (ops : list (op (b64 * b64))) :
  let s := run (ccorr_push b64num) (ccorr_clear b64num) (ccorr_init b64num) ops in
  cr_co b64num s = run (ccov_push b64num) (ccov_clear b64num) (ccov_init b64num) ops /\
  cr_x b64num s = run (cvar_push b64num) (cvar_clear b64num) (cvar_init b64num) (map (op_map fst) ops) /\
  cr_y b64num s = run (cvar_push b64num) (cvar_clear b64num) (cvar_init b64num) (map (op_map snd) ops).
Proof.
  cbv zeta. rewrite (run_since_clear (ccorr_push b64num) (ccorr_clear b64num) (ccorr_init b64num)) by reflexivity.
  rewrite (run_since_clear (ccov_push b64num) (ccov_clear b64num) (ccov_init b64num)) by reflexivity.
  rewrite !(run_since_clear (cvar_push b64num) (cvar_clear b64num) (cvar_init b64num)) by reflexivity.
  rewrite ccorr_fold, !since_clear_op_map. cbn [cr_co cr_x cr_y ccorr_init]. split; [|split]; reflexivity.
Qed.

Lemma cvar_mean_run (ops : list (op b64)) :
  cvar_mean b64num (run (cvar_push b64num) (cvar_clear b64num) (cvar_init b64num) ops) =
  cmean_mean b64num (run (cmean_push b64num) (cmean_clear b64num) (cmean_init b64num) ops).
Proof.
  rewrite (run_since_clear (cvar_push b64num) (cvar_clear b64num) (cvar_init b64num)) by reflexivity.
  rewrite (run_since_clear (cmean_push b64num) (cmean_clear b64num) (cmean_init b64num)) by reflexivity.
  unfold cvar_mean. rewrite cvar_fold_super. reflexivity.
Qed.

Definition realp (p : b64 * b64) : R * R := (b64_real (fst p), b64_real (snd p)).
Definition boundp (Mx My : R) (p : b64 * b64) : Prop :=
  (b64_finite (fst p) /\ Rabs (b64_real (fst p)) <= Mx) /\ (b64_finite (snd p) /\ Rabs (b64_real (snd p)) <= My).

Lemma xs_real l : xs (map realp l) = map b64_real (map fst l).
Proof. unfold xs. rewrite !map_map. reflexivity. Qed.
Lemma ys_real l : ys (map realp l) = map b64_real (map snd l).
Proof. unfold ys. rewrite !map_map. reflexivity. Qed.

Lemma bound_x Mx My l : Forall (boundp Mx My) l -> Forall (fun x => b64_finite x /\ Rabs (b64_real x) <= Mx) (map fst l).
Proof. intros H. apply Forall_map. eapply Forall_impl; [|exact H]. intros p Hp. apply Hp. Qed.
Lemma bound_y Mx My l : Forall (boundp Mx My) l -> Forall (fun x => b64_finite x /\ Rabs (b64_real x) <= My) (map snd l).
Proof. intros H. apply Forall_map. eapply Forall_impl; [|exact H]. intros p Hp. apply Hp. Qed.

Lemma map_ne {A C} (f : A -> C) l : l <> [] -> map f l <> [].
Proof. destruct l; cbn; congruence. Qed.

(** The four points (0,0), (4,8), (8,4), (4,4): variances 8, covariance 4. *)
Lemma points_real :
  let z := b64_of_Z in
  map (fun p => (b64_real (fst p), b64_real (snd p))) [(z 0, z 0); (z 4, z 8); (z 8, z 4); (z 4, z 4)]%Z =
  [(0, 0); (4, 8); (8, 4); (4, 4)].
Proof.
  cbn zeta.
  match goal with |- map _ ?x = _ => let y := eval vm_compute in x in change x with y end.
  unfold b64_real, SF2R, F2R. cbn. repeat (f_equal; try lra).
Qed.

Lemma points_stats :
  let l := [(0, 0); (4, 8); (8, 4); (4, 4)] in
  variance (xs l) = 8 /\ variance (ys l) = 8 /\ covariance l = 4 /\ mean (xs l) = 4 /\ mean (ys l) = 4.
Proof. unfold variance, covariance, cosum, csum, xs, ys, mean, card. cbn. repeat split; field. Qed.

Lemma points_bound :
  let z := b64_of_Z in
  Forall (fun p => (b64_finite (fst p) /\ Rabs (b64_real (fst p)) <= 8) /\
                   (b64_finite (snd p) /\ Rabs (b64_real (snd p)) <= 8)) [(z 0, z 0); (z 4, z 8); (z 8, z 4); (z 4, z 4)]%Z.
Proof.
  cbn zeta.
  match goal with |- Forall _ ?x => let y := eval vm_compute in x in change x with y end.
  repeat (apply Forall_cons; [cbn [fst snd]; split; magnitude|]). apply Forall_nil.
Qed.

Lemma bounds8 : bpow radix2 (-1000) <= 8 <= bpow radix2 480.
Proof. change 8 with (bpow radix2 3). split; apply bp_le; lia. Qed.

(** Sizes of the constants of binary64 as far as the examples need them. *)
Lemma small_constants : bpow radix2 (-53) = / IZR (2 ^ 53) /\ 0 < bpow radix2 (-1075) <= / IZR (2 ^ 80) /\ 1024 <= bpow radix2 1023.
Proof.
  split; [reflexivity|]. split.
  - split; [apply bp|]. change (/ IZR (2 ^ 80)) with (bpow radix2 (-80)). apply bp_le; lia.
  - change 1024 with (bpow radix2 10). apply bp_le; lia.
Qed.

(** @prop C92_slope_binary64: in binary64, for up to 2^47 pairs of finite values of
    magnitude at most [Mx] and [My] (between 2^-1000 and 2^480) since the last
    clear: if the variance of x is at least twice the bound [Ev] of C70 for its
    error, then slope() is finite and differs from the slope [S] of the
    least-squares line by at most [2 (Ec + |S| Ev) / V] and the rounding error of
    one division. *)
Lemma c92_slope : forall (ops : list (op (b64 * b64))) (Mx My : R),
  let l := since_clear ops in
  let n := INR (length l) in
  let u := bpow radix2 (-53) in
  let eta := bpow radix2 (-1075) in
  l <> [] -> (Z.of_nat (length l) <= 2 ^ 47)%Z ->
  bpow radix2 (-1000) <= Mx <= bpow radix2 480 -> bpow radix2 (-1000) <= My <= bpow radix2 480 ->
  Forall (fun p => (b64_finite (fst p) /\ Rabs (b64_real (fst p)) <= Mx) /\
                   (b64_finite (snd p) /\ Rabs (b64_real (snd p)) <= My)) l ->
  let lv := map (fun p => (b64_real (fst p), b64_real (snd p))) l in
  let V := variance (xs lv) in
  let S := covariance lv / V in
  let Ev := 5 * ((14 * n + 308) * u * (Mx * Mx) + (3 * n + 13) * (10 * Mx) * eta + 3 * eta) in
  let Ec := 5 * ((14 * n + 308) * u * (Mx * My) + (3 * n + 13) * (4 * Mx + 6 * My) * eta + 3 * eta) in
  let Es := 2 * (Ec + Rabs S * Ev) / V in
  2 * Ev <= V -> Rabs S + Es <= bpow radix2 1023 ->
  let slope := creg_slope b64num (run (creg_push b64num) (creg_clear b64num) (creg_init b64num) ops) in
  b64_finite slope /\ Rabs (b64_real slope - S) <= slack u eta S Es.
Proof.
  intros ops Mx My l n u eta NE Hn HX HY HF lv V S Ev Ec Es HV HB slope.
  destruct (creg_parts ops) as (Pc & Px & _).
  destruct (c70_covariance_binary64 ops Mx My NE Hn HX HY HF) as (Fc & Ac). fold l n u eta lv Ec in Fc, Ac.
  pose proof (c70_binary64 (map (op_map fst) ops) Mx) as H70. rewrite since_clear_op_map in H70. fold l in H70.
  cbv zeta in H70. rewrite !map_length in H70. fold n u eta in H70.
  destruct (H70 (map_ne _ _ NE) Hn HX (bound_x _ _ _ HF)) as (Fv & Av). clear H70.
  rewrite <- xs_real in Av. fold (map realp l) in lv. change (map realp l) with lv in Av. fold V Ev in Av.
  assert (E0 : 0 < Ev).
  { unfold Ev. assert (0 < u) by apply bp. assert (0 < eta) by apply bp.
    pose proof (pos_INR (length l)) as N0. fold n in N0. pose proof (bp (-1000)).
    assert (0 < Mx * Mx) by (apply Rmult_lt_0_compat; lra).
    assert (0 <= (14 * n + 308) * u * (Mx * Mx)) by (apply Rmult_le_pos; [apply Rmult_le_pos|]; lra).
    assert (0 <= (3 * n + 13) * (10 * Mx) * eta) by (apply Rmult_le_pos; [apply Rmult_le_pos|]; lra). lra. }
  unfold slope, creg_slope. rewrite Pc, Px.
  destruct (div_err approx_b64 _ _ _ _ (covariance lv) V Ec Ev (denotes_fin _ Fc) (denotes_fin _ Fv) Ac Av
    ltac:(lra) HV HB) as (NZ & r & (Fr & Er) & Hr).
  rewrite (nonzero_eq _ _ (denotes_fin _ Fv) NZ). split; [exact Fr|]. rewrite Er. exact Hr.
Qed.

(** @ex C92_slope_binary64_ex: four points with slope 1/2; the bound is below
    10^-11. *)
Lemma c92_slope_ex :
  let z := b64_of_Z in
  let l := since_clear [Push (z 99, z 99); Clear; Push (z 0, z 0); Push (z 4, z 8); Push (z 8, z 4); Push (z 4, z 4)]%Z in
  let n := INR 4 in
  let u := bpow radix2 (-53) in
  let eta := bpow radix2 (-1075) in
  let lv := map (fun p => (b64_real (fst p), b64_real (snd p))) l in
  length l = 4%nat /\ bpow radix2 (-1000) <= 8 <= bpow radix2 480 /\
  Forall (fun p => (b64_finite (fst p) /\ Rabs (b64_real (fst p)) <= 8) /\
                   (b64_finite (snd p) /\ Rabs (b64_real (snd p)) <= 8)) l /\
  variance (xs lv) = 8 /\ covariance lv = 4 /\
  let S := 4 / 8 in
  let Ev := 5 * ((14 * n + 308) * u * (8 * 8) + (3 * n + 13) * (10 * 8) * eta + 3 * eta) in
  let Ec := 5 * ((14 * n + 308) * u * (8 * 8) + (3 * n + 13) * (4 * 8 + 6 * 8) * eta + 3 * eta) in
  let Es := 2 * (Ec + Rabs S * Ev) / 8 in
  2 * Ev <= 8 /\ Rabs S + Es <= bpow radix2 1023 /\ slack u eta S Es <= / 10 ^ 11.
Proof.
  cbn zeta. cbn [since_clear since_clear_from app]. rewrite points_real.
  destruct points_stats as (H1 & _ & H3 & _).
  split; [reflexivity|]. split; [exact bounds8|]. split; [exact points_bound|]. split; [exact H1|]. split; [exact H3|].
  unfold slack. rewrite (Rabs_pos_eq (4 / 8)) by lra. destruct small_constants as (-> & T & B).
  revert T B. generalize (bpow radix2 (-1075)) (bpow radix2 1023). intros t B' T B. cbn in T |- *. lra.
Qed.

(** @prop C92_at_binary64: in the same situation at(p), for a finite position p, is
    within an explicit bound of the value of the least-squares line at p: the
    error of the slope times the distance of p from the mean of x, the errors of
    both means (C65), and the rounding errors of the three operations. *)
Lemma c92_at : forall (ops : list (op (b64 * b64))) (Mx My : R) (p : b64),
  let l := since_clear ops in
  let n := INR (length l) in
  let u := bpow radix2 (-53) in
  let eta := bpow radix2 (-1075) in
  l <> [] -> (Z.of_nat (length l) <= 2 ^ 47)%Z -> b64_finite p ->
  bpow radix2 (-1000) <= Mx <= bpow radix2 480 -> bpow radix2 (-1000) <= My <= bpow radix2 480 ->
  Forall (fun p => (b64_finite (fst p) /\ Rabs (b64_real (fst p)) <= Mx) /\
                   (b64_finite (snd p) /\ Rabs (b64_real (snd p)) <= My)) l ->
  let lv := map (fun p => (b64_real (fst p), b64_real (snd p))) l in
  let V := variance (xs lv) in
  let S := covariance lv / V in
  let D := mean (xs lv) - b64_real p in
  let Ev := 5 * ((14 * n + 308) * u * (Mx * Mx) + (3 * n + 13) * (10 * Mx) * eta + 3 * eta) in
  let Ec := 5 * ((14 * n + 308) * u * (Mx * My) + (3 * n + 13) * (4 * Mx + 6 * My) * eta + 3 * eta) in
  let Es := 2 * (Ec + Rabs S * Ev) / V in
  let Eb := slack u eta S Es in
  let Ex := (n + 25) * u * Mx + (3 * n + 11) * eta in
  let Ey := (n + 25) * u * My + (3 * n + 11) * eta in
  let Ed := slack u eta D Ex in
  let Em := Rabs S * Ed + Rabs D * Eb + Eb * Ed in
  let Ea := Ey + slack u eta (S * D) Em in
  2 * Ev <= V -> Rabs S + Es <= bpow radix2 1023 -> Rabs D + Ex <= bpow radix2 1023 ->
  Rabs (S * D) + Em <= bpow radix2 1023 -> Rabs (mean (ys lv) - S * D) + Ea <= bpow radix2 1023 ->
  let at_p := creg_at b64num (run (creg_push b64num) (creg_clear b64num) (creg_init b64num) ops) p in
  b64_finite at_p /\
  Rabs (b64_real at_p - (mean (ys lv) + S * (b64_real p - mean (xs lv)))) <= slack u eta (mean (ys lv) - S * D) Ea.
Proof.
  intros ops Mx My p l n u eta NE Hn Fp HX HY HF lv V S D Ev Ec Es Eb Ex Ey Ed Em Ea HV HB1 HB2 HB3 HB4 at_p.
  destruct (c92_slope ops Mx My NE Hn HX HY HF HV HB1) as (Fs & As). fold l n u eta lv V S Ev Ec Es Eb in Fs, As.
  destruct (creg_parts ops) as (_ & Px & Py).
  assert (Hn49 : (Z.of_nat (length l) <= 2 ^ 49)%Z) by (eapply Z.le_trans; [exact Hn|lia]).
  assert (B480 : bpow radix2 480 <= bpow radix2 1018) by (apply bp_le; lia).
  pose proof (c65_binary64 (map (op_map fst) ops) Mx) as H65. rewrite since_clear_op_map in H65. fold l in H65.
  cbv zeta in H65. rewrite !map_length in H65. fold n u eta in H65.
  destruct (H65 (map_ne _ _ NE) Hn49 ltac:(lra) (bound_x _ _ _ HF)) as (Fx & Ax). clear H65.
  pose proof (c65_binary64 (map (op_map snd) ops) My) as H65. rewrite since_clear_op_map in H65. fold l in H65.
  cbv zeta in H65. rewrite !map_length in H65. fold n u eta in H65.
  destruct (H65 (map_ne _ _ NE) Hn49 ltac:(lra) (bound_y _ _ _ HF)) as (Fy & Ay). clear H65.
  rewrite <- xs_real in Ax. rewrite <- ys_real in Ay. change (map realp l) with lv in Ax, Ay. fold Ex in Ax. fold Ey in Ay.
  unfold at_p, creg_at.
  set (sl := creg_slope b64num _) in *. rewrite Px, Py, !cvar_mean_run.
  set (mx := cmean_mean b64num (run (cmean_push b64num) (cmean_clear b64num) (cmean_init b64num) (map (op_map fst) ops))) in *.
  set (my := cmean_mean b64num (run (cmean_push b64num) (cmean_clear b64num) (cmean_init b64num) (map (op_map snd) ops))) in *.
  destruct (sub_err approx_b64 mx p _ _ (mean (xs lv)) (b64_real p) Ex 0 (denotes_fin _ Fx) (denotes_fin _ Fp) Ax)
    as (d & Vd & Hd).
  { rewrite Rminus_eq_0, Rabs_R0. lra. }
  { fold D. rewrite Rplus_0_r. exact HB2. }
  rewrite Rplus_0_r in Hd. fold D u eta Ed in Hd.
  destruct (mul_err approx_b64 sl (nsub mx p) _ d S D Eb Ed (denotes_fin _ Fs) Vd As Hd HB3) as (m & Vm & Hm).
  fold u eta in Hm. change (merr2 S D Eb Ed) with Em in Hm.
  destruct (sub_err approx_b64 my (nmul sl (nsub mx p)) _ m (mean (ys lv)) (S * D) Ey (slack u eta (S * D) Em)
    (denotes_fin _ Fy) Vm Ay Hm HB4) as (r & (Fr & Er) & Hr).
  split; [exact Fr|].
  replace (mean (ys lv) + S * (b64_real p - mean (xs lv))) with (mean (ys lv) - S * D) by (unfold D; ring).
  rewrite Er. exact Hr.
Qed.

(** @ex C92_at_binary64_ex: the same points at position 12, where the line has the
    value 8. *)
Lemma c92_at_ex :
  let z := b64_of_Z in
  let l := since_clear [Push (z 0, z 0); Push (z 4, z 8); Push (z 8, z 4); Push (z 4, z 4)]%Z in
  let n := INR 4 in
  let u := bpow radix2 (-53) in
  let eta := bpow radix2 (-1075) in
  let lv := map (fun p => (b64_real (fst p), b64_real (snd p))) l in
  length l = 4%nat /\ b64_finite (z 12%Z) /\ b64_real (z 12%Z) = 12 /\ bpow radix2 (-1000) <= 8 <= bpow radix2 480 /\
  Forall (fun p => (b64_finite (fst p) /\ Rabs (b64_real (fst p)) <= 8) /\
                   (b64_finite (snd p) /\ Rabs (b64_real (snd p)) <= 8)) l /\
  variance (xs lv) = 8 /\ covariance lv = 4 /\ mean (xs lv) = 4 /\ mean (ys lv) = 4 /\
  let S := 4 / 8 in
  let D := 4 - 12 in
  let Ev := 5 * ((14 * n + 308) * u * (8 * 8) + (3 * n + 13) * (10 * 8) * eta + 3 * eta) in
  let Ec := 5 * ((14 * n + 308) * u * (8 * 8) + (3 * n + 13) * (4 * 8 + 6 * 8) * eta + 3 * eta) in
  let Es := 2 * (Ec + Rabs S * Ev) / 8 in
  let Eb := slack u eta S Es in
  let Ex := (n + 25) * u * 8 + (3 * n + 11) * eta in
  let Ed := slack u eta D Ex in
  let Em := Rabs S * Ed + Rabs D * Eb + Eb * Ed in
  let Ea := Ex + slack u eta (S * D) Em in
  2 * Ev <= 8 /\ Rabs S + Es <= bpow radix2 1023 /\ Rabs D + Ex <= bpow radix2 1023 /\
  Rabs (S * D) + Em <= bpow radix2 1023 /\ Rabs (4 - S * D) + Ea <= bpow radix2 1023 /\
  slack u eta (4 - S * D) Ea <= / 10 ^ 10.
Proof.
  cbn zeta. cbn [since_clear since_clear_from app]. rewrite points_real.
  destruct points_stats as (H1 & _ & H3 & H4 & H5).
  split; [reflexivity|]. split; [split; vm_compute; reflexivity|]. split.
  { match goal with |- b64_real ?x = _ => let y := eval vm_compute in x in change x with y end.
    unfold b64_real, SF2R, F2R. cbn. lra. }
  split; [exact bounds8|]. split; [exact points_bound|]. split; [exact H1|]. split; [exact H3|].
  split; [exact H4|]. split; [exact H5|].
  replace (4 - 12) with (-8) by ring. replace (4 / 8 * -8) with (-4) by field. replace (4 - -4) with 8 by ring.
  destruct small_constants as (-> & T & B).
  set (Eb := slack _ _ (4 / 8) _).
  set (Ed := slack _ _ (-8) _).
  assert (HEb : 0 <= Eb <= / 10 ^ 11).
  { unfold Eb, slack. rewrite (Rabs_pos_eq (4 / 8)) by lra. clear -T.
    revert T. generalize (bpow radix2 (-1075)). intros t T. cbn in T |- *. lra. }
  assert (HEd : 0 <= Ed <= / 10 ^ 12).
  { unfold Ed, slack. rewrite (Rabs_left (-8)) by lra. clear -T.
    revert T. generalize (bpow radix2 (-1075)). intros t T. cbn in T |- *. lra. }
  assert (HP : 0 <= Eb * Ed <= / 10 ^ 23).
  { split; [apply Rmult_le_pos; lra|]. replace (/ 10 ^ 23) with (/ 10 ^ 11 * / 10 ^ 12) by (cbn; lra).
    apply Rmult_le_compat; lra. }
  clearbody Eb Ed. generalize dependent (Eb * Ed). intros P HP.
  unfold slack. rewrite (Rabs_pos_eq (4 / 8)), (Rabs_left (-8)), (Rabs_left (-4)), (Rabs_pos_eq 8) by lra.
  revert T B. generalize (bpow radix2 (-1075)) (bpow radix2 1023). intros t B' T B. cbn in * |- *. lra.
Qed.

(** ** C93 *)

(** @prop C93_binary64: in binary64, for up to 2^47 pairs as in C92: if the product
    of the variances exceeds epsilon (2^-52) by the bound [Ep] for its error, and
    its square root is at least twice the bound [Ed] for its error, and [Er] is
    at most 1, then value() is finite and within [slack u eta r Er] of Pearson's
    coefficient [r]; hence it exceeds the range [-1, 1] by no more than that. *)
Lemma c93_binary64 : forall (ops : list (op (b64 * b64))) (Mx My : R),
  let l := since_clear ops in
  let n := INR (length l) in
  let u := bpow radix2 (-53) in
  let eta := bpow radix2 (-1075) in
  l <> [] -> (Z.of_nat (length l) <= 2 ^ 47)%Z ->
  bpow radix2 (-1000) <= Mx <= bpow radix2 480 -> bpow radix2 (-1000) <= My <= bpow radix2 480 ->
  Forall (fun p => (b64_finite (fst p) /\ Rabs (b64_real (fst p)) <= Mx) /\
                   (b64_finite (snd p) /\ Rabs (b64_real (snd p)) <= My)) l ->
  let lv := map (fun p => (b64_real (fst p), b64_real (snd p))) l in
  let X := variance (xs lv) in
  let Y := variance (ys lv) in
  let r := pearson lv in
  let Ex := 5 * ((14 * n + 308) * u * (Mx * Mx) + (3 * n + 13) * (10 * Mx) * eta + 3 * eta) in
  let Ey := 5 * ((14 * n + 308) * u * (My * My) + (3 * n + 13) * (10 * My) * eta + 3 * eta) in
  let Ec := 5 * ((14 * n + 308) * u * (Mx * My) + (3 * n + 13) * (4 * Mx + 6 * My) * eta + 3 * eta) in
  let Ep := slack u eta (X * Y) (X * Ey + Y * Ex + Ex * Ey) in
  let Ed := slack u eta (sqrt (X * Y)) (Ep / sqrt (X * Y)) in
  let Er := 2 * (Ec + Rabs r * Ed) / sqrt (X * Y) in
  X * Y + (X * Ey + Y * Ex + Ex * Ey) <= bpow radix2 1023 ->
  bpow radix2 (-52) + Ep <= X * Y -> 2 * Ed <= sqrt (X * Y) -> Er <= 1 ->
  let value := ccorr_value b64num (run (ccorr_push b64num) (ccorr_clear b64num) (ccorr_init b64num) ops) in
  b64_finite value /\ Rabs (b64_real value - r) <= slack u eta r Er /\
  Rabs (b64_real value) <= 1 + (Er + u * (1 + Er) + eta).
Proof.
  intros ops Mx My l n u eta NE Hn HX HY HF lv X Y r Ex Ey Ec Ep Ed Er HB1 HE HD HR value.
  destruct (ccorr_parts ops) as (Pc & Px & Py).
  destruct (c70_covariance_binary64 ops Mx My NE Hn HX HY HF) as (Fc & Ac). fold l n u eta lv Ec in Fc, Ac.
  pose proof (c70_binary64 (map (op_map fst) ops) Mx) as H70. rewrite since_clear_op_map in H70. fold l in H70.
  cbv zeta in H70. rewrite !map_length in H70. fold n u eta in H70.
  destruct (H70 (map_ne _ _ NE) Hn HX (bound_x _ _ _ HF)) as (Fx & Ax). clear H70.
  pose proof (c70_binary64 (map (op_map snd) ops) My) as H70. rewrite since_clear_op_map in H70. fold l in H70.
  cbv zeta in H70. rewrite !map_length in H70. fold n u eta in H70.
  destruct (H70 (map_ne _ _ NE) Hn HY (bound_y _ _ _ HF)) as (Fy & Ay). clear H70.
  rewrite <- xs_real in Ax. rewrite <- ys_real in Ay. change (map realp l) with lv in Ax, Ay. fold X Ex in Ax. fold Y Ey in Ay.
  unfold value, ccorr_value. rewrite Pc, Px, Py.
  set (vx := cvar_variance b64num (run (cvar_push b64num) (cvar_clear b64num) (cvar_init b64num) (map (op_map fst) ops))) in *.
  set (vy := cvar_variance b64num (run (cvar_push b64num) (cvar_clear b64num) (cvar_init b64num) (map (op_map snd) ops))) in *.
  set (vc := ccov_variance b64num _) in *.
  assert (X0 : 0 <= X) by apply variance_nonneg. assert (Y0 : 0 <= Y) by apply variance_nonneg.
  destruct (mul_err approx_b64 vx vy _ _ X Y Ex Ey (denotes_fin _ Fx) (denotes_fin _ Fy) Ax Ay) as (p & Vp & Hp).
  { unfold merr2. rewrite Rabs_mult, !(Rabs_pos_eq X), !(Rabs_pos_eq Y) by assumption. exact HB1. }
  unfold merr2 in Hp. rewrite !(Rabs_pos_eq X), !(Rabs_pos_eq Y) in Hp by assumption. fold u eta Ep in Hp.
  assert (P52 : 0 < bpow radix2 (-52)) by apply bp.
  assert (EP0 : 0 <= Ep) by (pose proof (Rabs_pos (p - X * Y)); lra).
  assert (Pp : bpow radix2 (-52) <= p) by (apply Rabs_le_inv in Hp; lra).
  assert (LT : nlt (nmul vx vy) (neps : b64num) = false).
  { assert (De : denotes (neps : b64num) (bpow radix2 (-52))).
    { split; [split; vm_compute; reflexivity|]. change (b64_real (S754_finite false 4503599627370496 (-104)) = bpow radix2 (-52)).
      unfold b64_real, SF2R, F2R. cbn. lra. }
    rewrite (ap_lt _ _ _ _ _ _ approx_b64 _ _ _ _ Vp De). apply Rlt_bool_false. exact Pp. }
  rewrite LT.
  destruct (sqrt_err approx_b64 sqrt_b64 _ p (X * Y) Ep Vp ltac:(lra) ltac:(lra) Hp) as (d & Vd & Hd).
  fold u eta Ed in Hd.
  assert (SP : 0 < sqrt (X * Y)) by (apply sqrt_lt_R0; lra).
  assert (Er' : covariance lv / sqrt (X * Y) = r).
  { unfold r, pearson. fold X Y. rewrite <- sqrt_mult by assumption. reflexivity. }
  destruct (div_err approx_b64 vc _ _ d (covariance lv) (sqrt (X * Y)) Ec Ed (denotes_fin _ Fc) Vd Ac Hd SP HD)
    as (NZ & q & (Fq & Eq) & Hq).
  { rewrite Er'. fold Er. assert (R1 : Rabs r <= 1) by (apply Rabs_le; apply pearson_bounds).
    assert (bpow radix2 1 <= bpow radix2 1023) by (apply bp_le; lia). change (bpow radix2 1) with 2 in H. lra. }
  rewrite Er' in Hq. fold u eta Er in Hq. rewrite <- Eq in Hq.
  split; [exact Fq|]. split; [exact Hq|].
  assert (R1 : Rabs r <= 1) by (apply Rabs_le; apply pearson_bounds).
  assert (U0 : 0 < u) by apply bp.
  assert (Er0 : slack u eta r Er <= Er + u * (1 + Er) + eta).
  { unfold slack. assert (u * (Rabs r + Er) <= u * (1 + Er)) by (apply Rmult_le_compat_l; lra). lra. }
  pose proof (close_abs _ _ _ Hq) as CA. lra.
Qed.

(** @ex C93_binary64_ex: the same points, correlation 1/2. *)
Lemma c93_ex :
  let z := b64_of_Z in
  let l := since_clear [Push (z 0, z 0); Push (z 4, z 8); Push (z 8, z 4); Push (z 4, z 4)]%Z in
  let n := INR 4 in
  let u := bpow radix2 (-53) in
  let eta := bpow radix2 (-1075) in
  let lv := map (fun p => (b64_real (fst p), b64_real (snd p))) l in
  length l = 4%nat /\ bpow radix2 (-1000) <= 8 <= bpow radix2 480 /\
  Forall (fun p => (b64_finite (fst p) /\ Rabs (b64_real (fst p)) <= 8) /\
                   (b64_finite (snd p) /\ Rabs (b64_real (snd p)) <= 8)) l /\
  variance (xs lv) = 8 /\ variance (ys lv) = 8 /\ pearson lv = 1 / 2 /\ sqrt (8 * 8) = 8 /\
  let r := 1 / 2 in
  let Ex := 5 * ((14 * n + 308) * u * (8 * 8) + (3 * n + 13) * (10 * 8) * eta + 3 * eta) in
  let Ec := 5 * ((14 * n + 308) * u * (8 * 8) + (3 * n + 13) * (4 * 8 + 6 * 8) * eta + 3 * eta) in
  let Ep := slack u eta (8 * 8) (8 * Ex + 8 * Ex + Ex * Ex) in
  let Ed := slack u eta 8 (Ep / 8) in
  let Er := 2 * (Ec + Rabs r * Ed) / 8 in
  8 * 8 + (8 * Ex + 8 * Ex + Ex * Ex) <= bpow radix2 1023 /\
  bpow radix2 (-52) + Ep <= 8 * 8 /\ 2 * Ed <= 8 /\ Er <= / 10 ^ 11.
Proof.
  cbn zeta. cbn [since_clear since_clear_from app]. rewrite points_real.
  destruct points_stats as (H1 & H2 & H3 & _).
  assert (SQ : sqrt (8 * 8) = 8) by (apply sqrt_square; lra).
  split; [reflexivity|]. split; [exact bounds8|]. split; [exact points_bound|]. split; [exact H1|]. split; [exact H2|].
  split.
  { unfold pearson. rewrite H1, H2, H3, sqrt_sqrt by lra. field. }
  split; [exact SQ|].
  assert (E52 : bpow radix2 (-52) = / IZR (2 ^ 52)) by reflexivity. rewrite E52. clear E52.
  destruct small_constants as (-> & T & B).
  set (Ex := 5 * ((14 * INR 4 + 308) * / IZR (2 ^ 53) * (8 * 8) + (3 * INR 4 + 13) * (10 * 8) * bpow radix2 (-1075) + 3 * bpow radix2 (-1075))).
  assert (HEx : 0 <= Ex <= 2 / 10 ^ 11).
  { unfold Ex. clear -T. revert T. generalize (bpow radix2 (-1075)). intros t T. cbn in T |- *. lra. }
  assert (HP : 0 <= Ex * Ex <= / 10 ^ 20).
  { split; [apply Rmult_le_pos; lra|]. replace (/ 10 ^ 20) with (/ 10 ^ 10 * / 10 ^ 10) by (cbn; lra).
    apply Rmult_le_compat; cbn in *; lra. }
  clearbody Ex. generalize dependent (Ex * Ex). intros P HP.
  unfold slack. replace (8 * 8) with 64 by ring. rewrite (Rabs_pos_eq (1 / 2)), (Rabs_pos_eq 64), (Rabs_pos_eq 8) by lra.
  revert T B. generalize (bpow radix2 (-1075)) (bpow radix2 1023). intros t B' T B. cbn in * |- *. lra.
Qed.
