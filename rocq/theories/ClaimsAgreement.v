(** * Claims C80 and C81: filters that report the same statistic agree bit for bit *)

From Coq Require Import ZArith NArith List Bool.
From Coq Require Import Floats.SpecFloat.
From Verif Require Import Arith History Buffer Cumulative Window Interim Decay.
Import ListNotations.
(* @end-header *)
From Coq Require Import Lia.
From Verif Require Import HistoryLemmas.

(** A homomorphism of filters carries over to histories. *)
Lemma run_hom {S S' A A' : Type} (f : S -> S') (g : A -> A') push clear push' clear' ops :
  (forall s a, f (push s a) = push' (f s) (g a)) -> (forall s, f (clear s) = clear' (f s)) ->
  forall s, f (run push clear s ops) = run push' clear' (f s) (map (op_map g) ops).
Proof.
  intros Hp Hc; induction ops as [|o ops IH]; intros s; [reflexivity|].
  destruct o as [a|]; unfold run in *; cbn [fold_left map step op_map]; rewrite IH; [rewrite Hp|rewrite Hc]; reflexivity.
Qed.

Lemma map_op_id {A : Type} (ops : list (op A)) : map (op_map (fun x => x)) ops = ops.
Proof. induction ops as [|[a|] ops IH]; cbn; rewrite ?IH; reflexivity. Qed.

Lemma run_hom' {S S' A : Type} (f : S -> S') push clear push' clear' (ops : list (op A)) :
  (forall s a, f (push s a) = push' (f s) a) -> (forall s, f (clear s) = clear' (f s)) ->
  forall s, f (run push clear s ops) = run push' clear' (f s) ops.
Proof.
  intros Hp Hc s; rewrite (run_hom f (fun x => x) push clear push' clear') by assumption.
  rewrite map_op_id; reflexivity.
Qed.

(** ** C80 *)

(** @prop C80_cumulative: in any arithmetic and after any history, a cumulative
    filter for higher moments reports the very size, mean, variance and skewness
    that the filters for lower moments report for the same history. *)
Lemma c80_cumulative : forall (F : num) (ops : list (op F)),
  let m := run (cmean_push F) (cmean_clear F) (cmean_init F) ops in
  let v := run (cvar_push F) (cvar_clear F) (cvar_init F) ops in
  let s := run (cskew_push F) (cskew_clear F) (cskew_init F) ops in
  let k := run (ckurt_push F) (ckurt_clear F) (ckurt_init F) ops in
  (cvar_size F v = cmean_size F m /\ cskew_size F s = cmean_size F m /\ ckurt_size F k = cmean_size F m) /\
  (cvar_mean F v = cmean_mean F m /\ cskew_mean F s = cmean_mean F m /\ ckurt_mean F k = cmean_mean F m) /\
  (cvar_unbiased_mean F v = cmean_unbiased_mean F m /\ cskew_unbiased_mean F s = cmean_unbiased_mean F m /\
   ckurt_unbiased_mean F k = cmean_unbiased_mean F m) /\
  (cskew_variance F s = cvar_variance F v /\ ckurt_variance F k = cvar_variance F v) /\
  (cskew_unbiased_variance F s = cvar_unbiased_variance F v /\
   ckurt_unbiased_variance F k = cvar_unbiased_variance F v) /\
  ckurt_skewness F k = cskew_skewness F s /\
  ckurt_unbiased_skewness F k = cskew_unbiased_skewness F s.
Proof.
  intros F ops m v s k.
  assert (V : cv_super F v = m) by (apply (run_hom' (cv_super F)); reflexivity).
  assert (S : cs_super F s = v) by (apply (run_hom' (cs_super F)); reflexivity).
  assert (K : ck_super F k = s) by (apply (run_hom' (ck_super F)); reflexivity).
  unfold cvar_size, cskew_size, ckurt_size, cvar_mean, cskew_mean, ckurt_mean, cvar_unbiased_mean,
    cskew_unbiased_mean, ckurt_unbiased_mean, cskew_variance, ckurt_variance, cskew_unbiased_variance,
    ckurt_unbiased_variance, ckurt_skewness, ckurt_unbiased_skewness,
    cskew_size, cskew_mean, cskew_unbiased_mean, cskew_variance, cskew_unbiased_variance,
    cvar_size, cvar_mean, cvar_unbiased_mean.
  rewrite K, S, V. repeat split; reflexivity.
Qed.

(** @ex C80_cumulative_ex: 1, 2, 4 after a clear, on doubles. *)
Lemma c80_cumulative_ex :
  let ops := Push S754_nan :: Clear :: pushes (map b64_of_Z [1; 2; 4]%Z) in
  SFeqb (ckurt_mean b64num (run (ckurt_push b64num) (ckurt_clear b64num) (ckurt_init b64num) ops))
    (cmean_mean b64num (run (cmean_push b64num) (cmean_clear b64num) (cmean_init b64num) ops)) = true.
Proof. vm_compute. reflexivity. Qed.

(** @prop C80_pairs: correlation and regression are computed from the very
    covariance, variances and means that separate filters report. *)
Lemma c80_pairs : forall (F : num) (ops : list (op (F * F))) (p : F),
  let cov := ccov_variance F (run (ccov_push F) (ccov_clear F) (ccov_init F) ops) in
  let var o := cvar_variance F (run (cvar_push F) (cvar_clear F) (cvar_init F) o) in
  let mean o := cmean_mean F (run (cmean_push F) (cmean_clear F) (cmean_init F) o) in
  let xs := map (op_map fst) ops in
  let ys := map (op_map snd) ops in
  let r := run (creg_push F) (creg_clear F) (creg_init F) ops in
  ccorr_value F (run (ccorr_push F) (ccorr_clear F) (ccorr_init F) ops)
  = (if nlt (nmul (var xs) (var ys)) neps then n1 else ndiv cov (nsqrt (nmul (var xs) (var ys)))) /\
  creg_slope F r = (if neq (var xs) n0 then n0 else ndiv cov (var xs)) /\
  creg_at F r p = nsub (mean ys) (nmul (creg_slope F r) (nsub (mean xs) p)).
Proof.
  intros F ops p cov var mean xs ys r.
  set (c := run (ccorr_push F) (ccorr_clear F) (ccorr_init F) ops).
  assert (C1 : cr_co F c = run (ccov_push F) (ccov_clear F) (ccov_init F) ops) by (apply (run_hom' (cr_co F)); reflexivity).
  assert (C2 : cr_x F c = run (cvar_push F) (cvar_clear F) (cvar_init F) xs)
    by (apply (run_hom (cr_x F) fst); reflexivity).
  assert (C3 : cr_y F c = run (cvar_push F) (cvar_clear F) (cvar_init F) ys)
    by (apply (run_hom (cr_y F) snd); reflexivity).
  assert (R1 : cg_co F r = run (ccov_push F) (ccov_clear F) (ccov_init F) ops) by (apply (run_hom' (cg_co F)); reflexivity).
  assert (R2 : cg_x F r = run (cvar_push F) (cvar_clear F) (cvar_init F) xs)
    by (apply (run_hom (cg_x F) fst); reflexivity).
  assert (R3 : cg_y F r = run (cvar_push F) (cvar_clear F) (cvar_init F) ys)
    by (apply (run_hom (cg_y F) snd); reflexivity).
  assert (V : forall o, cv_super F (run (cvar_push F) (cvar_clear F) (cvar_init F) o)
                        = run (cmean_push F) (cmean_clear F) (cmean_init F) o)
    by (intros o; apply (run_hom' (cv_super F)); reflexivity).
  split; [|split].
  - unfold ccorr_value. rewrite C1, C2, C3. reflexivity.
  - unfold creg_slope. rewrite R1, R2. reflexivity.
  - unfold creg_at. unfold cvar_mean. rewrite R2, R3, !V. reflexivity.
Qed.

(** @ex C80_pairs_ex: (1, 2) and (3, 6) have slope 2 on doubles, and the
    covariance 2 over the variance 1. *)
Lemma c80_pairs_ex :
  let ops := pushes [(b64_of_Z 1, b64_of_Z 2); (b64_of_Z 3, b64_of_Z 6)] in
  SFeqb (creg_slope b64num (run (creg_push b64num) (creg_clear b64num) (creg_init b64num) ops)) (b64_of_Z 2) = true /\
  SFeqb (ccov_variance b64num (run (ccov_push b64num) (ccov_clear b64num) (ccov_init b64num) ops)) (b64_of_Z 2) = true /\
  map (op_map fst) ops = pushes [b64_of_Z 1; b64_of_Z 3].
Proof. repeat split; vm_compute; reflexivity. Qed.

(** @prop C80_others: the same for the window, interim and decay families. *)
Lemma c80_others : forall (F : num) (W : nat) (U : N) (f1 f2 f3 f4 : F) (ops : list (op F)),
  let wm := run (wmean_push F W) (wmean_clear F) (wmean_init F) ops in
  let wv := run (wvar_push F W) (wvar_clear F) (wvar_init F) ops in
  let im := run (imean_push F U) (imean_clear F) (imean_init F) ops in
  let iv := run (ivar_push F U) (ivar_clear F) (ivar_init F) ops in
  let is_ := run (iskew_push F U) (iskew_clear F) (iskew_init F) ops in
  let ik := run (ikurt_push F U) (ikurt_clear F) (ikurt_init F) ops in
  let dm := run (dmean_push F) (dmean_clear F) (dmean_init F f1) ops in
  let dv := run (dvar_push F) (dvar_clear F) (dvar_init F f1 f2) ops in
  let ds := run (dskew_push F) (dskew_clear F) (dskew_init F f1 f2 f3) ops in
  let dk := run (dkurt_push F) (dkurt_clear F) (dkurt_init F f1 f2 f3 f4) ops in
  (0 < W)%nat ->
  (wvar_mean F wv = wmean_mean F wm /\ wvar_size F wv = wmean_size F wm) /\
  (ivar_mean F U iv = imean_mean F U im /\ iskew_mean F U is_ = imean_mean F U im /\
   ikurt_mean F U ik = imean_mean F U im) /\
  (iskew_variance F U is_ = ivar_variance F U iv /\ ikurt_variance F U ik = ivar_variance F U iv) /\
  ikurt_skewness F U ik = iskew_skewness F U is_ /\
  (ivar_size F U iv = imean_size F U im /\ iskew_size F U is_ = imean_size F U im /\
   ikurt_size F U ik = imean_size F U im) /\
  (dvar_mean F dv = dmean_mean F dm /\ dskew_mean F ds = dmean_mean F dm /\ dkurt_mean F dk = dmean_mean F dm) /\
  (dskew_variance F ds = dvar_variance F dv /\ dkurt_variance F dk = dvar_variance F dv) /\
  dkurt_skewness F dk = dskew_skewness F ds.
Proof.
  intros F W U f1 f2 f3 f4 ops wm wv im iv is_ ik dm dv ds dk HW.
  assert (WV : wv_super F wv = wm).
  { apply (run_hom' (wv_super F)); [|reflexivity]. intros [s sum] a. unfold wvar_push, wmean_push. cbn [wv_super].
    unfold wvar_size. cbn [wv_super].
    destruct (wmean_full F W s) eqn:E; [|reflexivity].
    destruct (rb_front (wm_window F s)) eqn:B; [reflexivity|].
    exfalso. unfold wmean_full, rb_full in E. apply Nat.leb_le in E.
    destruct (wm_window F s); [cbn in E; lia|discriminate B]. }
  assert (D1 : dv_super F dv = dm) by (apply (run_hom' (dv_super F)); reflexivity).
  assert (D2 : ds_super F ds = dv) by (apply (run_hom' (ds_super F)); reflexivity).
  assert (D3 : dk_super F dk = ds) by (apply (run_hom' (dk_super F)); reflexivity).
  set (lift := fun (S S' : Type) (f : S -> S') (d : duo S) => Duo (f (active d)) (f (passive d))).
  assert (I1 : lift _ _ (cv_super F) iv = im).
  { apply (run_hom' (lift _ _ (cv_super F))); [|reflexivity]. intros [s t] a. unfold ivar_push, imean_push, duo_push, lift.
    cbn [active passive]. change (cvar_size F s) with (cmean_size F (cv_super F s)).
    destruct (N.leb U (cmean_size F (cv_super F s))); reflexivity. }
  assert (I2 : lift _ _ (cs_super F) is_ = iv).
  { apply (run_hom' (lift _ _ (cs_super F))); [|reflexivity]. intros [s t] a. unfold ivar_push, iskew_push, duo_push, lift.
    cbn [active passive]. change (cskew_size F s) with (cvar_size F (cs_super F s)).
    destruct (N.leb U (cvar_size F (cs_super F s))); reflexivity. }
  assert (I3 : lift _ _ (ck_super F) ik = is_).
  { apply (run_hom' (lift _ _ (ck_super F))); [|reflexivity]. intros [s t] a. unfold ikurt_push, iskew_push, duo_push, lift.
    cbn [active passive]. change (ckurt_size F s) with (cskew_size F (ck_super F s)).
    destruct (N.leb U (cskew_size F (ck_super F s))); reflexivity. }
  unfold wvar_mean, wvar_size, dvar_mean, dskew_mean, dkurt_mean, dskew_variance, dkurt_variance, dkurt_skewness,
    dskew_mean, dskew_variance, dvar_mean.
  rewrite WV, D3, D2, D1, <- I1, <- I2, <- I3.
  repeat split; reflexivity.
Qed.

(** @ex C80_others_ex: a window of 2. *)
Lemma c80_others_ex :
  let ops := pushes (map b64_of_Z [1; 2; 4]%Z) in
  (0 < 2)%nat /\
  SFeqb (wvar_mean b64num (run (wvar_push b64num 2) (wvar_clear b64num) (wvar_init b64num) ops)) (b64_of_Z 3) = true.
Proof. split; [lia|vm_compute; reflexivity]. Qed.

(** ** C81 *)

(** @prop C81_window: in any arithmetic, as long as no more than W values were
    pushed since the last clear, the window filters report the very mean and
    size of the cumulative filters, and the larger of 0 and their variance. *)
Lemma c81_window : forall (F : num) (W : nat) (ops : list (op F)),
  (length (since_clear ops) <= W)%nat -> (N.of_nat W < szmod)%N ->
  let cm := run (cmean_push F) (cmean_clear F) (cmean_init F) ops in
  let cv := run (cvar_push F) (cvar_clear F) (cvar_init F) ops in
  let wm := run (wmean_push F W) (wmean_clear F) (wmean_init F) ops in
  let wv := run (wvar_push F W) (wvar_clear F) (wvar_init F) ops in
  wmean_size F wm = cmean_size F cm /\ wmean_mean F wm = cmean_mean F cm /\
  wvar_mean F wv = cvar_mean F cv /\
  ((0 < length (since_clear ops))%nat -> wvar_variance F wv = nmax n0 (cvar_variance F cv)) /\
  ((1 < length (since_clear ops))%nat -> wvar_unbiased_variance F wv = nmax n0 (cvar_unbiased_variance F cv)).
Proof.
  intros F W ops HL HW cm cv wm wv.
  set (l := since_clear ops) in *.
  assert (Em : cm = fold_left (cmean_push F) l (cmean_init F)).
  { unfold cm, l. apply run_since_clear; reflexivity. }
  assert (Ev : cv = fold_left (cvar_push F) l (cvar_init F)).
  { unfold cv, l. apply run_since_clear; reflexivity. }
  assert (Ewm : wm = fold_left (wmean_push F W) l (wmean_init F)).
  { unfold wm, l. apply run_since_clear; reflexivity. }
  assert (Ewv : wv = fold_left (wvar_push F W) l (wvar_init F)).
  { unfold wv, l. apply run_since_clear; reflexivity. }
  assert (G : forall k, (length k <= W)%nat ->
    let c := fold_left (cvar_push F) k (cvar_init F) in
    let w := fold_left (wvar_push F W) k (wvar_init F) in
    cv_super F c = fold_left (cmean_push F) k (cmean_init F) /\
    wv_super F w = fold_left (wmean_push F W) k (wmean_init F) /\
    cm_count F (cv_super F c) = N.of_nat (length k) /\ length (wm_window F (wv_super F w)) = length k /\
    cm_mean F (cv_super F c) = wm_mean F (wv_super F w) /\ cv_sum F c = wv_sum F w).
  { intros k. induction k as [|a k IH] using rev_ind; intros Hk.
    { cbn. repeat split; reflexivity. }
    rewrite app_length in Hk; cbn in Hk.
    destruct IH as (I1 & I2 & I3 & I4 & I5 & I6); [lia|].
    rewrite !fold_left_app. cbn [fold_left].
    set (c := fold_left (cvar_push F) k (cvar_init F)) in *.
    set (w := fold_left (wvar_push F W) k (wvar_init F)) in *.
    assert (NF : wmean_full F W (wv_super F w) = false).
    { unfold wmean_full, rb_full. apply Nat.leb_gt. lia. }
    assert (SZ : szadd (N.of_nat (length k)) 1 = N.of_nat (length (k ++ [a]))).
    { rewrite app_length, szadd_small; cbn [length]; lia. }
    assert (WS : wvar_size F w = N.of_nat (length k)).
    { unfold wvar_size, wmean_size, rb_size. rewrite I4. reflexivity. }
    unfold cvar_push, wvar_push. rewrite NF, WS.
    assert (CP : cmean_push F (cv_super F c) a =
      CMean F (nadd (wm_mean F (wv_super F w)) (ndiv (nsub a (wm_mean F (wv_super F w)))
         (nofsz (szadd (N.of_nat (length k)) 1)))) (szadd (N.of_nat (length k)) 1)).
    { unfold cmean_push. rewrite I3, I5. reflexivity. }
    cbn [cv_super wv_super wv_sum cv_sum wm_window wm_mean].
    repeat split.
    - rewrite I1. reflexivity.
    - rewrite <- I2. unfold wmean_push. rewrite NF. unfold wmean_size, rb_size. rewrite I4. reflexivity.
    - rewrite CP. cbn. exact SZ.
    - unfold rb_push_back. unfold wmean_full in NF. rewrite NF, !app_length, I4. reflexivity.
    - rewrite CP. reflexivity.
    - rewrite CP. unfold cmean_mean, wmean_mean, wvar_delta. cbn [cm_mean]. rewrite I5, I6. reflexivity. }
  destruct (G l HL) as (I1 & I2 & I3 & I4 & I5 & I6).
  rewrite <- Em in I1. rewrite <- Ewm in I2. rewrite <- Ev in I1, I3, I5, I6. rewrite <- Ewv in I2, I4, I5, I6.
  unfold wmean_size, rb_size, cmean_size, wmean_mean, cmean_mean, wvar_mean, cvar_mean, wvar_variance,
    cvar_variance, wvar_unbiased_variance, cvar_unbiased_variance, wvar_size, wmean_size, rb_size,
    wmean_mean, cmean_mean.
  rewrite <- I1, <- I2, I3, I4, I5, I6.
  repeat split; intros H.
  - rewrite (proj2 (N.ltb_lt _ _)) by lia. reflexivity.
  - rewrite (proj2 (N.ltb_lt _ _)) by lia. reflexivity.
Qed.

(** @ex C81_window_ex: three values in a window of four. *)
Lemma c81_window_ex :
  let ops := Push S754_nan :: Clear :: pushes (map b64_of_Z [1; 2; 4]%Z) in
  (length (since_clear ops) <= 4)%nat /\ (N.of_nat 4 < szmod)%N /\ (1 < length (since_clear ops))%nat.
Proof. repeat split; vm_compute; (reflexivity || lia). Qed.

(** @prop C81_interim: as long as no more than W values were pushed since the last
    clear, the interim filters report the very statistics of the cumulative
    filters, in any arithmetic. *)
Lemma c81_interim : forall (F : num) (W : N) (ops : list (op F)) (ops2 : list (op (F * F))),
  (N.of_nat (length (since_clear ops)) <= W)%N -> (N.of_nat (length (since_clear ops2)) <= W)%N ->
  (W < szmod)%N ->
  let k := run (ckurt_push F) (ckurt_clear F) (ckurt_init F) ops in
  let c := run (ccov_push F) (ccov_clear F) (ccov_init F) ops2 in
  let ik := run (ikurt_push F W) (ikurt_clear F) (ikurt_init F) ops in
  let ic := run (icov_push F W) (icov_clear F) (icov_init F) ops2 in
  ikurt_size F W ik = ckurt_size F k /\ ikurt_mean F W ik = ckurt_mean F k /\
  ikurt_variance F W ik = ckurt_variance F k /\ ikurt_skewness F W ik = ckurt_skewness F k /\
  ikurt_kurtosis F W ik = ckurt_kurtosis F k /\
  icov_size F W ic = ccov_size F c /\ icov_variance F W ic = ccov_variance F c.
Proof.
  intros F W ops ops2 HL HL2 HW k c ik ic.
  set (l := since_clear ops) in *. set (l2 := since_clear ops2) in *.
  assert (Ek : k = fold_left (ckurt_push F) l (ckurt_init F)).
  { unfold k, l. apply run_since_clear; reflexivity. }
  assert (Ec : c = fold_left (ccov_push F) l2 (ccov_init F)).
  { unfold c, l2. apply run_since_clear; reflexivity. }
  assert (Eik : ik = fold_left (ikurt_push F W) l (ikurt_init F)).
  { unfold ik, l. apply run_since_clear; reflexivity. }
  assert (Eic : ic = fold_left (icov_push F W) l2 (icov_init F)).
  { unfold ic, l2. apply run_since_clear; reflexivity. }
  assert (Sk : forall q, (N.of_nat (length q) < szmod)%N ->
             ckurt_size F (fold_left (ckurt_push F) q (ckurt_init F)) = N.of_nat (length q)).
  { intros q. induction q as [|a q IH] using rev_ind; intros Hq; [reflexivity|].
    rewrite app_length in Hq |- *; cbn [length] in *. rewrite fold_left_app. cbn [fold_left].
    change (szadd (ckurt_size F (fold_left (ckurt_push F) q (ckurt_init F))) 1 = N.of_nat (length q + 1)).
    rewrite IH by lia. rewrite szadd_small; lia. }
  assert (Sc : forall q, (N.of_nat (length q) < szmod)%N ->
             ccov_size F (fold_left (ccov_push F) q (ccov_init F)) = N.of_nat (length q)).
  { intros q. induction q as [|[a b] q IH] using rev_ind; intros Hq; [reflexivity|].
    rewrite app_length in Hq |- *; cbn [length] in *. rewrite fold_left_app. cbn [fold_left].
    change (szadd (ccov_size F (fold_left (ccov_push F) q (ccov_init F))) 1 = N.of_nat (length q + 1)).
    rewrite IH by lia. rewrite szadd_small; lia. }
  assert (Gk : forall q, (N.of_nat (length q) <= W)%N ->
    fold_left (ikurt_push F W) q (ikurt_init F) = Duo (fold_left (ckurt_push F) q (ckurt_init F)) (ckurt_init F)).
  { intros q. induction q as [|a q IH] using rev_ind; intros Hq; [reflexivity|].
    rewrite app_length in Hq; cbn [length] in Hq. rewrite !fold_left_app. cbn [fold_left].
    rewrite IH by lia. unfold ikurt_push, duo_push. cbn [active passive].
    rewrite Sk by lia. rewrite (proj2 (N.leb_gt _ _)) by lia. reflexivity. }
  assert (Gc : forall q, (N.of_nat (length q) <= W)%N ->
    fold_left (icov_push F W) q (icov_init F) = Duo (fold_left (ccov_push F) q (ccov_init F)) (ccov_init F)).
  { intros q. induction q as [|a q IH] using rev_ind; intros Hq; [reflexivity|].
    rewrite app_length in Hq; cbn [length] in Hq. rewrite !fold_left_app. cbn [fold_left].
    rewrite IH by lia. unfold icov_push, duo_push. cbn [active passive].
    rewrite Sc by lia. rewrite (proj2 (N.leb_gt _ _)) by lia. reflexivity. }
  rewrite Eik, Eic, Ek, Ec, Gk, Gc by assumption.
  repeat split; reflexivity.
Qed.

(** @ex C81_interim_ex: three values, then two pairs, in a window of four. *)
Lemma c81_interim_ex :
  let ops := Push S754_nan :: Clear :: pushes (map b64_of_Z [1; 2; 4]%Z) in
  let ops2 := pushes [(b64_of_Z 1, b64_of_Z 2); (b64_of_Z 3, b64_of_Z 6)] in
  (N.of_nat (length (since_clear ops)) <= 4)%N /\ (N.of_nat (length (since_clear ops2)) <= 4)%N /\ (4 < szmod)%N.
Proof. repeat split; vm_compute; (reflexivity || discriminate). Qed.
