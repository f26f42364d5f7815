(** * Claim C82: filters with too few values *)

From Coq Require Import ZArith NArith List Bool.
From Coq Require Import Floats.SpecFloat.
From Verif Require Import Arith History Buffer Cumulative Window Interim Decay CInt IntMoments.
Import ListNotations.
(* @end-header *)
From Coq Require Import Lia.
From Verif Require Import HistoryLemmas IntProofs.

(** @prop C82_empty: whatever the history, if nothing was pushed since the last
    clear these statistics of filters over double are 0: mean, unbiased mean,
    skewness, kurtosis and their unbiased variants, covariance and unbiased
    covariance; window mean, variance, covariance and their unbiased variants,
    and the slope of the window regression; interim mean, skewness, kurtosis and
    covariance. *)
Lemma c82_empty : forall (W : nat) (U : N) (ops : list (op b64num)) (ops2 : list (op (b64num * b64num))),
  since_clear ops = [] -> since_clear ops2 = [] ->
  let zero := S754_zero false in
  let k := run (ckurt_push b64num) (ckurt_clear b64num) (ckurt_init b64num) ops in
  let c := run (ccov_push b64num) (ccov_clear b64num) (ccov_init b64num) ops2 in
  let w := run (wvar_push b64num W) (wvar_clear b64num) (wvar_init b64num) ops in
  let wc := run (wcov_push b64num W) (wcov_clear b64num) (wcov_init b64num) ops2 in
  let wr := run (wreg_push b64num W) (wreg_clear b64num) (wreg_init b64num) ops2 in
  let ik := run (ikurt_push b64num U) (ikurt_clear b64num) (ikurt_init b64num) ops in
  let ic := run (icov_push b64num U) (icov_clear b64num) (icov_init b64num) ops2 in
  [ckurt_mean b64num k; ckurt_unbiased_mean b64num k; ckurt_skewness b64num k;
   ckurt_unbiased_skewness b64num k; ckurt_kurtosis b64num k; ckurt_unbiased_kurtosis b64num k;
   ccov_variance b64num c; ccov_unbiased_variance b64num c;
   wvar_mean b64num w; wvar_variance b64num w; wvar_unbiased_variance b64num w;
   wcov_variance b64num wc; wcov_unbiased_variance b64num wc; wreg_slope b64num wr;
   ikurt_mean b64num U ik; ikurt_skewness b64num U ik; ikurt_kurtosis b64num U ik; icov_variance b64num U ic]
  = repeat zero 18.
Proof.
  intros W U ops ops2 H H2 zero k c w wc wr ik ic.
  assert (Ek : k = ckurt_init b64num) by (unfold k; rewrite run_since_clear, H by reflexivity; reflexivity).
  assert (Ec : c = ccov_init b64num) by (unfold c; rewrite run_since_clear, H2 by reflexivity; reflexivity).
  assert (Ew : w = wvar_init b64num) by (unfold w; rewrite run_since_clear, H by reflexivity; reflexivity).
  assert (Ewc : wc = wcov_init b64num) by (unfold wc; rewrite run_since_clear, H2 by reflexivity; reflexivity).
  assert (Ewr : wr = wreg_init b64num) by (unfold wr; rewrite run_since_clear, H2 by reflexivity; reflexivity).
  assert (Eik : ik = ikurt_init b64num) by (unfold ik; rewrite run_since_clear, H by reflexivity; reflexivity).
  assert (Eic : ic = icov_init b64num) by (unfold ic; rewrite run_since_clear, H2 by reflexivity; reflexivity).
  rewrite Ek, Ec, Ew, Ewc, Ewr, Eik, Eic. vm_compute. reflexivity.
Qed.

(** @ex C82_empty_ex: values before a clear. *)
Lemma c82_empty_ex :
  since_clear [Push (b64_of_Z 3); Push S754_nan; Clear] = [] /\
  since_clear [Push (b64_of_Z 3, b64_of_Z 4); Clear] = [].
Proof. split; reflexivity. Qed.

(** @prop C82_empty_refuted: whatever the history, if nothing was pushed since the
    last clear these statistics over double are NaN: variance of the cumulative
    and of the interim filters, correlation, slope and value of the cumulative
    regression; so is the unbiased variance after the single value 1, while the
    unbiased mean is then infinite. *)
Lemma c82_empty_refuted : exists x : b64num,
  forall (U : N) (ops : list (op b64num)) (ops2 : list (op (b64num * b64num))) (p : b64num),
  since_clear ops = [] -> since_clear ops2 = [] ->
  [cvar_variance b64num (run (cvar_push b64num) (cvar_clear b64num) (cvar_init b64num) ops);
   ivar_variance b64num U (run (ivar_push b64num U) (ivar_clear b64num) (ivar_init b64num) ops);
   ccorr_value b64num (run (ccorr_push b64num) (ccorr_clear b64num) (ccorr_init b64num) ops2);
   creg_slope b64num (run (creg_push b64num) (creg_clear b64num) (creg_init b64num) ops2);
   creg_at b64num (run (creg_push b64num) (creg_clear b64num) (creg_init b64num) ops2) p;
   cvar_unbiased_variance b64num
     (run (cvar_push b64num) (cvar_clear b64num) (cvar_init b64num) (ops ++ [Push x]))]
  = repeat S754_nan 6 /\
  cmean_unbiased_mean b64num
    (run (cmean_push b64num) (cmean_clear b64num) (cmean_init b64num) (ops ++ [Push x]))
  = S754_infinity false.
Proof.
  exists (b64_of_Z 1). intros U ops ops2 p H H2.
  rewrite !run_app, !run_since_clear, H, H2 by reflexivity.
  cbn [fold_left]. rewrite (run_since_clear (cmean_push b64num)) with (ops := ops), H by reflexivity.
  cbn [fold_left].
  split; [|vm_compute; reflexivity].
  assert (E : creg_slope b64num (creg_init b64num) = S754_nan) by (vm_compute; reflexivity).
  assert (E' : creg_at b64num (creg_init b64num) p = S754_nan).
  { unfold creg_at. rewrite E.
    assert (Q : forall a b : b64num, nsub a (nmul (S754_nan : b64num) b) = (S754_nan : b64num)).
    { intros a b. destruct a, b; reflexivity. }
    apply Q. }
  rewrite E, E'. vm_compute. reflexivity.
Qed.

(** @ex C82_empty_refuted_ex: a new filter is such a history. *)
Lemma c82_empty_refuted_ex :
  since_clear (@nil (op b64num)) = [] /\ since_clear [Push (b64_of_Z 3, b64_of_Z 4); Clear] = [].
Proof. split; reflexivity. Qed.

(** @prop C82_integer: for every integer type, if nothing was pushed since the last
    clear: mean, covariance, window mean, window variance and interim mean are
    0; the unbiased covariance is 0 also after one value. *)
Lemma c82_integer : forall (T : ity) (W : nat) (U : N) (ops : list (op Z)) (ops2 : list (op (Z * Z)))
    (sm : icm) (sc : icc) (sw : iwv) (si : iim),
  In T all_ity ->
  run_opt (icm_push T) icm_clear icm_init ops = Some sm ->
  run_opt (icc_push T) icc_clear icc_init ops2 = Some sc ->
  run_opt (iwv_push T W) iwv_clear iwv_init ops = Some sw ->
  run_opt (iim_push T U) iim_clear iim_init ops = Some si ->
  (since_clear ops = [] ->
    icm_mean sm = 0%Z /\ iwm_mean (iwv_super sw) = 0%Z /\ iwv_variance T sw = Some 0%Z /\
    iwv_unbiased_variance T sw = Some 0%Z /\ iim_mean T U si = Some 0%Z) /\
  (since_clear ops2 = [] -> icc_variance T sc = Some 0%Z) /\
  ((length (since_clear ops2) <= 1)%nat -> icc_unbiased_variance T sc = Some 0%Z).
Proof.
  assert (R : forall S A (push : S -> A -> option S) clear s0 (ops : list (op A)) s,
    (forall s, clear s = s0) -> since_clear ops = [] -> run_opt push clear s0 ops = Some s -> s = s0).
  { intros S A push clear s0 ops s Hc E H.
    induction ops as [|o ops IH] using rev_ind.
    - injection H as <-. reflexivity.
    - destruct o as [a|]; [rewrite since_clear_snoc_push in E; destruct (since_clear ops); discriminate|].
      rewrite run_opt_snoc in H. destruct (run_opt push clear s0 ops) as [s1|]; [|discriminate].
      injection H as <-. apply Hc. }
  intros T W U ops ops2 sm sc sw si HT H1 H2 H3 H4. split; [|split].
  - intros E.
    apply R in H1; [|reflexivity|exact E]. apply R in H3; [|reflexivity|exact E].
    apply R in H4; [|reflexivity|exact E]. subst. repeat split; reflexivity.
  - intros E. apply R in H2; [|reflexivity|exact E]. subst. reflexivity.
  - intros E. assert (C : forall ops s, run_opt (icc_push T) icc_clear icc_init ops = Some s ->
      (length (since_clear ops) <= 1)%nat -> icc_size s = N.of_nat (length (since_clear ops))).
    { clear. intros ops. induction ops as [|o ops IH] using rev_ind; intros s H E.
      - injection H as <-. reflexivity.
      - rewrite run_opt_snoc in H. destruct (run_opt (icc_push T) icc_clear icc_init ops) as [s1|]; [|discriminate].
        specialize (IH s1 eq_refl). cbn [bind] in H. destruct o as [[x y]|].
        + rewrite since_clear_snoc_push, app_length in *. cbn [length] in *. specialize (IH ltac:(lia)).
          unfold icc_push, icm_push in H.
          repeat match type of H with bind ?e _ = _ => destruct e as [?|] eqn:?; [cbn [bind] in H|discriminate] end.
          repeat match goal with Q : bind ?e _ = Some _ |- _ => destruct e as [?|] eqn:?; [cbn [bind] in Q|discriminate] end.
          repeat match goal with Q : Some _ = Some _ |- _ => injection Q as <- end.
          unfold icc_size in *. cbn [icc_x icm_count]. rewrite IH. rewrite szadd_small; [lia|].
          apply N.lt_le_trans with 4%N; [lia|discriminate].
        + injection H as <-. rewrite since_clear_snoc_clear. reflexivity. }
    specialize (C _ _ H2 E). unfold icc_unbiased_variance. rewrite C.
    destruct (N.ltb_spec 1 (N.of_nat (length (since_clear ops2)))); [lia|reflexivity].
Qed.

(** @ex C82_integer_ex: 8-bit values before a clear, and one pair after. *)
Lemma c82_integer_ex :
  In int8 all_ity /\
  run_opt (icm_push int8) icm_clear icm_init [Push 3; Clear]%Z = Some (ICM 0 0) /\
  run_opt (icc_push int8) icc_clear icc_init [Push (3, 4)]%Z = Some (ICC (ICM 3 1) (ICM 4 1) 0) /\
  run_opt (iwv_push int8 2) iwv_clear iwv_init [Push 3; Clear]%Z = Some (IWV (IWM [] 0) 0) /\
  run_opt (iim_push int8 2) iim_clear iim_init [Push 3; Clear]%Z = Some (IIM (ICM 0 0) (ICM 0 0)) /\
  since_clear [Push 3; Clear]%Z = [].
Proof. repeat split; cbn; tauto. Qed.

(** @prop C82_integer_refuted: for every integer type, variance() of an empty
    cumulative filter has undefined behaviour (division by zero), and so have
    unbiased_variance() and unbiased_mean() of a filter holding one value. *)
Lemma c82_integer_refuted : forall (T : ity) (x : Z), In T all_ity -> (imin T <= x <= imax T)%Z ->
  icv_variance T icv_init = None /\
  exists m s, run_opt (icm_push T) icm_clear icm_init [Push x] = Some m /\ icm_unbiased_mean T m = None /\
    run_opt (icv_push T) icv_clear icv_init [Push x] = Some s /\ icv_unbiased_variance T s = None.
Proof.
  intros T x HT Hx. pose proof (promote_in T HT) as HP.
  pose proof (inr_0 T HT) as Z0. pose proof (promote_range T 0 HT Z0) as Z0P.
  assert (Hx' : inr (promote T) x) by (apply promote_range; assumption).
  assert (W0 : wrap T 0 = 0%Z) by (apply wrap_id; assumption).
  assert (W1 : wrap T (Z.of_N (szadd 0 1)) = 1%Z).
  { change (Z.of_N (szadd 0 1)) with 1%Z.
    clear -HT. repeat (destruct HT as [<-|HT]; [reflexivity|]). destruct HT. }
  assert (P : icm_push T (ICM 0 0) x = Some (ICM x 1)).
  { unfold icm_push. cbn [icm_count icm_mean]. rewrite W1. unfold isub. rewrite Z.sub_0_r, iresult_in by assumption.
    cbn [bind]. unfold idiv. destruct (Z.eqb_spec 1 0); [lia|]. rewrite Z.quot_1_r, iresult_in by assumption.
    cbn [bind]. unfold iadd. rewrite Z.add_0_l, iresult_in by assumption. cbn [bind].
    rewrite wrap_id by assumption. reflexivity. }
  split.
  { unfold icv_variance. cbn [icv_init icv_super icv_sum icm_init icm_count]. change (Z.of_N 0) with 0%Z. rewrite W0. reflexivity. }
  exists (ICM x 1), (ICV (ICM x 1) 0). split; [exact P|].
  change (szsub 1 1) with 0%N. split.
  { unfold icm_unbiased_mean. cbn [icm_mean icm_count]. change (Z.of_N (szsub 1 1)) with 0%Z. rewrite W0.
    assert (W0' : wrap (mixed T) 0 = 0%Z) by (clear -HT; repeat (destruct HT as [<-|HT]; [reflexivity|]); destruct HT).
    rewrite W0'. unfold idiv. change (0 =? 0)%Z with true. cbn iota.
    destruct (imul (mixed T) _ _); reflexivity. }
  split.
  { unfold run_opt. cbn [fold_left bind]. unfold icv_push. cbn [icv_init icv_super icv_sum icm_init icm_mean].
    unfold isub at 1. rewrite Z.sub_0_r, iresult_in by assumption. cbn [bind]. change icm_init with (ICM 0 0). rewrite P. cbn [bind icm_mean].
    unfold isub. rewrite Z.sub_diag, iresult_in by assumption. cbn [bind]. unfold imul. rewrite Z.mul_0_r, iresult_in by assumption.
    cbn [bind]. unfold iadd. rewrite Z.add_0_l, iresult_in by assumption. cbn [bind]. rewrite W0. reflexivity. }
  unfold icv_unbiased_variance. cbn [icv_super icv_sum icm_count]. change (Z.of_N (szsub 1 1)) with 0%Z. rewrite W0. reflexivity.
Qed.

(** @ex C82_integer_refuted_ex: the value -100 over 8 bits. *)
Lemma c82_integer_refuted_ex : In int8 all_ity /\ (imin int8 <= -100 <= imax int8)%Z.
Proof. split; [cbn; tauto|]. vm_compute. split; discriminate. Qed.
