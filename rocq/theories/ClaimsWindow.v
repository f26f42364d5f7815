(** * Claims C15-C21: window filters *)

From Coq Require Import Reals ZArith NArith Bool List.
From Coq Require Import Floats.SpecFloat.
From Verif Require Import Arith History SpecStats Buffer Window ExactRuns WindowRuns.
Import ListNotations.
Local Open Scope R_scope.
(* @end-header *)
From Coq Require Import Lia Lra Psatz.
From Flocq Require Import Core.Raux.
From Verif Require Import HistoryLemmas StatsLemmas CumulativeProofs CumulativeStats
  WindowProofs WindowStats.

(** ** C15 *)

(** @prop C15_window_mean: for every window size N>0 and history, mean() is the
    arithmetic mean of the last min(N, pushes) values since the last clear()
    (0 if there are none), in the mean filter as well as in the variance
    filter; two histories ending in the same N values agree. *)
Lemma c15 : forall (eps : R) (W : nat) (ops : list (op R)),
  (0 < W)%nat -> (N.of_nat W < szmod)%N ->
  let w := lastn W (since_clear ops) in
  (w = [] ->
   wmean_mean _ (run_wmean eps W ops) = Fin 0 /\
   wvar_mean _ (run_wvar eps W ops) = Fin 0) /\
  (w <> [] ->
   wmean_mean _ (run_wmean eps W ops) = Fin (mean w) /\
   wvar_mean _ (run_wvar eps W ops) = Fin (mean w)) /\
  (forall (ops' : list (op R)) (recent : list R), length recent = W ->
   run_wmean eps W (ops ++ pushes recent) = run_wmean eps W (ops' ++ pushes recent) /\
   run_wvar eps W (ops ++ pushes recent) = run_wvar eps W (ops' ++ pushes recent)).
Proof.
  intros eps W ops HW HW64 w.
  pose proof (run_wmean_state eps W HW HW64 ops) as Em.
  pose proof (run_wvar_state eps W HW HW64 ops) as Ev.
  cbv zeta in Em, Ev; fold w in Em, Ev.
  split; [|split].
  - intros H; rewrite Em, Ev, H; cbn.
    unfold mean; cbn; split; f_equal; lra.
  - intros _; rewrite Em, Ev; split; reflexivity.
  - intros ops' recent Hr.
    assert (H : forall o : list (op R),
              lastn W (since_clear (o ++ pushes recent)) = recent).
    { intros o; unfold since_clear; rewrite since_clear_from_app.
      rewrite since_clear_from_pushes, lastn_app_le by lia.
      apply lastn_short; lia. }
    rewrite !run_wmean_state, !run_wvar_state, !H by auto; split; reflexivity.
Qed.

(** @ex C15_window_mean_ex: window 3, five values after a clear. *)
Lemma c15_ex :
  let ops := [Push 9; Clear; Push 1; Push 2; Push 6; Push 4; Push 8] in
  lastn 3 (since_clear ops) = [6; 4; 8] /\
  mean (lastn 3 (since_clear ops)) = 6 /\
  wmean_mean _ (run_wmean 1 3 ops) = Fin 6.
Proof.
  cbv zeta; split; [reflexivity|].
  assert (E : mean (lastn 3
     (since_clear [Push 9; Clear; Push 1; Push 2; Push 6; Push 4; Push 8])) = 6)
    by (unfold mean, card; cbn; lra).
  split; [exact E|].
  destruct (c15 1 3 [Push 9; Clear; Push 1; Push 2; Push 6; Push 4; Push 8]
              ltac:(lia) ltac:(reflexivity)) as (_ & H & _).
  destruct H as [H _]; [cbn; congruence|]; rewrite H, E; reflexivity.
Qed.

(** ** C16 *)

(** @prop C16_window_variance: variance() and unbiased_variance() are the
    population and sample variance of the last min(N, pushes) values, 0 when
    there are too few values. *)
Lemma c16 : forall (eps : R) (W : nat) (ops : list (op R)),
  (0 < W)%nat -> (N.of_nat W < szmod)%N ->
  let w := lastn W (since_clear ops) in
  let s := run_wvar eps W ops in
  (w <> [] -> wvar_variance _ s = Fin (variance w)) /\
  (w = [] -> wvar_variance _ s = Fin 0) /\
  ((2 <= length w)%nat -> wvar_unbiased_variance _ s = Fin (sample_variance w)) /\
  ((length w < 2)%nat -> wvar_unbiased_variance _ s = Fin 0).
Proof.
  intros eps W ops HW HW64 w s.
  pose proof (run_wvar_state eps W HW HW64 ops) as Ev.
  cbv zeta in Ev; fold w s in Ev.
  assert (Hf : fits w) by (apply fits_lastn; assumption).
  destruct (wvar_obs eps W HW HW64 w Hf) as [E1 E2]; rewrite <- Ev in E1, E2.
  rewrite E1, E2.
  split; [destruct w; congruence|]; split; [intros ->; reflexivity|].
  split; destruct w as [|x [|y t]]; cbn [length]; intros H; try lia; reflexivity.
Qed.

(** @ex C16_window_variance_ex: window 3 of a longer history. *)
Lemma c16_ex :
  let w := lastn 3 (since_clear [Push 9; Clear; Push 1; Push 2; Push 6; Push 4; Push 8]) in
  w <> [] /\ (2 <= length w)%nat /\ variance w = 8 / 3 /\ sample_variance w = 4.
Proof.
  cbv zeta; split; [cbn; congruence|]; split; [cbn; lia|].
  unfold variance, sample_variance, csum, mean, card; cbn; split; field.
Qed.

(** ** C17 *)

(** @prop C17_window_variance_nonneg_binary64: in IEEE binary64, for every state
    of the filter whatsoever (hence for every input, including NaN, infinities
    and overflow), variance() and unbiased_variance() are neither NaN nor
    negative. *)
Lemma c17 : forall s : wvar b64num,
  let ok (v : b64) :=
    match v with
    | S754_nan => False
    | S754_infinity sign => sign = false
    | S754_zero sign => sign = false
    | S754_finite sign _ _ => sign = false
    end in
  ok (wvar_variance b64num s) /\ ok (wvar_unbiased_variance b64num s).
Proof.
  intros s ok.
  assert (H : forall v : b64num, ok (nmax (n0 : b64num) v)).
  { intros v; unfold nmax, n0; cbn [b64num nofz nlt].
    change (b64_of_Z 0) with (S754_zero false).
    destruct v as [sg|sg| |sg m e]; try destruct sg; cbn; reflexivity. }
  unfold wvar_variance, wvar_unbiased_variance.
  split; [destruct (N.ltb 0 _)|destruct (N.ltb 1 _)]; try apply H; reflexivity.
Qed.

(** @ex C17_window_variance_nonneg_binary64_ex: a history whose raw sum is NaN
    (an infinity was pushed): the NaN is masked and variance() is 0; and an
    ordinary one. *)
Lemma c17_ex :
  let run l := fold_left (wvar_push b64num 3) l (wvar_init b64num) in
  let s := run [b64_of_Z 1; S754_infinity false; b64_of_Z 2] in
  wv_sum b64num s = S754_nan /\ wvar_variance b64num s = S754_zero false /\
  wvar_variance b64num (run (map b64_of_Z [1; 2; 6; 4; 8]%Z)) =
    SFdiv 53 1024 (b64_of_Z 8) (b64_of_Z 3).
Proof. vm_compute; repeat split; reflexivity. Qed.

(** ** C18 *)

(** @prop C18_window_covariance: variance() and unbiased_variance() of the
    window covariance are the population and sample covariance of the last
    min(W, pushes) pairs, 0 when there are too few. *)
Lemma c18 : forall (eps : R) (W : nat) (ops : list (op (R * R))),
  (0 < W)%nat -> (N.of_nat W < szmod)%N ->
  let w := lastn W (since_clear ops) in
  let s := run_wcov eps W ops in
  wcov_size _ s = N.of_nat (length w) /\
  (w <> [] -> wcov_variance _ s = Fin (covariance w)) /\
  (w = [] -> wcov_variance _ s = Fin 0) /\
  ((2 <= length w)%nat -> wcov_unbiased_variance _ s = Fin (sample_covariance w)) /\
  ((length w < 2)%nat -> wcov_unbiased_variance _ s = Fin 0).
Proof.
  intros eps W ops HW HW64 w s.
  pose proof (run_wcov_state eps W HW HW64 ops) as Ev.
  cbv zeta in Ev; fold w s in Ev.
  assert (Hf : fits w) by (apply fits_lastn; assumption).
  destruct (wcov_obs eps W HW HW64 w Hf) as [E1 E2]; rewrite <- Ev in E1, E2.
  rewrite E1, E2.
  split; [rewrite Ev; unfold wcov_size, rb_size, finps; cbn [wc_window];
          rewrite map_length; reflexivity|].
  split; [destruct w; congruence|]; split; [intros ->; reflexivity|].
  split; destruct w as [|x [|y t]]; cbn [length]; intros H; try lia; reflexivity.
Qed.

(** @ex C18_window_covariance_ex: window 3 of a longer history of pairs. *)
Lemma c18_ex :
  let w := lastn 3 (since_clear [Push (5, 5); Push (0, 0); Push (1, 3); Push (2, 6)]) in
  w = [(0, 0); (1, 3); (2, 6)] /\ covariance w = 2 /\ sample_covariance w = 3.
Proof.
  cbv zeta; split; [reflexivity|].
  unfold covariance, sample_covariance, cosum, mean, card; cbn; split; field.
Qed.

(** ** C19 *)

(** @prop C19_window_regression: for every window size and non-empty history,
    slope() and at() describe a line that minimises the squared residuals over
    the last min(W, pushes) pairs, the unique minimiser unless all x in the
    window are equal, in which case slope() is 0 and at() the mean of y. *)
Lemma c19 : forall (eps : R) (W : nat) (ops : list (op (R * R))),
  (0 < W)%nat -> (N.of_nat W < szmod)%N ->
  let w := lastn W (since_clear ops) in
  let s := run_wreg eps W ops in
  w <> [] ->
  wreg_size _ s = N.of_nat (length w) /\
  exists a b,
    wreg_slope _ s = Fin b /\
    (forall p, wreg_at _ s (Fin p) = Fin (a + b * p)) /\
    (forall a' b', sse a b w <= sse a' b' w) /\
    (forall c, constant c (xs w) -> b = 0 /\ a = mean (ys w)) /\
    ((forall c, ~ constant c (xs w)) ->
     (forall a' b', sse a' b' w = sse a b w -> a' = a /\ b' = b) /\
     (forall a' b', collinear a' b' w -> a' = a /\ b' = b)).
Proof.
  intros eps W ops HW HW64 w s Hw.
  destruct (wreg_obs eps W HW HW64 ops Hw) as (E1 & E2 & E3).
  fold w s in E1, E2, E3.
  split; [exact E1|]; exists (ls_intercept w), (ls_slope w).
  destruct (ls_facts w Hw) as (H1 & H2 & H3).
  split; [exact E2|]; split; [exact E3|]; split; [exact H1|].
  split; [exact H2|exact H3].
Qed.

(** @ex C19_window_regression_ex: an outlier that left the window; the last
    three pairs are collinear with varying x. *)
Lemma c19_ex :
  let w := lastn 3 (since_clear [Push (5, 50); Push (0, 1); Push (1, 3); Push (2, 5)]) in
  w <> [] /\ (forall c, ~ constant c (xs w)) /\ collinear 1 2 w.
Proof.
  cbv zeta; split; [cbn; congruence|]; split.
  - intros c H; unfold constant in H; rewrite Forall_forall in H.
    pose proof (H 0 ltac:(cbn; auto)); pose proof (H 1 ltac:(cbn; auto)); lra.
  - repeat constructor; cbn; lra.
Qed.

(** ** C20 *)

(** @prop C20_window_bookkeeping: for every arithmetic, window size and history:
    capacity() is N, size() is min(N, pushes since clear), empty() iff size() is
    0, full() iff size() equals capacity(); the buffer holds exactly the last
    values; the precondition of front() holds whenever push() evaluates it; and
    after clear() the state is that of a new filter. *)
Lemma c20 : forall (F : num) (W : nat) (ops : list (op F)) (pops : list (op (F * F))),
  (0 < W)%nat ->
  let n := N.min (N.of_nat W) (N.of_nat (length (since_clear ops))) in
  let s := run (wmean_push F W) (wmean_clear F) (wmean_init F) ops in
  let v := run (wvar_push F W) (wvar_clear F) (wvar_init F) ops in
  let c := run (wcov_push F W) (wcov_clear F) (wcov_init F) pops in
  let r := run (wreg_push F W) (wreg_clear F) (wreg_init F) pops in
  let m := N.min (N.of_nat W) (N.of_nat (length (since_clear pops))) in
  (wmean_capacity F W s = N.of_nat W /\ wvar_capacity F W v = N.of_nat W) /\
  (wmean_size F s = n /\ wvar_size F v = n /\ wcov_size F c = m /\ wreg_size F r = m) /\
  (wmean_empty F s = N.eqb n 0 /\ wvar_empty F v = N.eqb n 0) /\
  (wmean_full F W s = N.eqb n (N.of_nat W) /\ wvar_full F W v = N.eqb n (N.of_nat W)) /\
  (wm_window F s = lastn W (since_clear ops) /\
   wm_window F (wv_super F v) = lastn W (since_clear ops) /\
   wc_window F c = lastn W (since_clear pops)) /\
  (wmean_push_ok F W s = true /\ wvar_push_ok F W v = true /\ wcov_push_ok F W c = true) /\
  (wv_super F v = s /\ wr_cov F r = c) /\
  (wmean_clear F s = wmean_init F /\ wvar_clear F v = wvar_init F /\
   wcov_clear F c = wcov_init F /\ wreg_clear F r = wreg_init F).
Proof.
  intros F W ops pops HW n s v c r m.
  assert (Es : wm_window F s = lastn W (since_clear ops)).
  { unfold s; rewrite run_since_clear by reflexivity; apply wmean_fold_window, HW. }
  assert (Evs : wv_super F v = s).
  { unfold s, v; rewrite !run_since_clear by reflexivity.
    apply wvar_fold_super; exact HW. }
  assert (Ec : wc_window F c = lastn W (since_clear pops)).
  { unfold c; rewrite run_since_clear by reflexivity; apply wcov_fold_window, HW. }
  assert (Er : wr_cov F r = c).
  { unfold r, c; rewrite !run_since_clear by reflexivity; rewrite wreg_fold; reflexivity. }
  assert (Hs : wmean_size F s = n)
    by (unfold wmean_size, rb_size; rewrite Es, lastn_length; unfold n; lia).
  assert (He : wmean_empty F s = N.eqb n 0).
  { rewrite <- Hs; unfold wmean_empty, wmean_size, rb_size.
    destruct (wm_window F s); [reflexivity|].
    symmetry; apply N.eqb_neq; cbn [length]; lia. }
  assert (Hf : wmean_full F W s = N.eqb n (N.of_nat W)).
  { unfold wmean_full; rewrite Es, rb_full_lastn.
    unfold n; destruct (Nat.leb_spec W (length (since_clear ops)));
      symmetry; [apply N.eqb_eq|apply N.eqb_neq]; lia. }
  unfold wvar_capacity, wvar_size, wvar_empty, wvar_full, wvar_push_ok, wreg_size.
  rewrite Evs, Er.
  assert (Hc : wcov_size F c = m)
    by (unfold wcov_size, rb_size; rewrite Ec, lastn_length; unfold m; lia).
  repeat split; auto; apply push_ok_of_full; exact HW.
Qed.

(** @ex C20_window_bookkeeping_ex: a full window of 2 in binary64 with a NaN. *)
Lemma c20_ex :
  let ops := [Push (b64_of_Z 1); Clear; Push S754_nan; Push (b64_of_Z 2); Push (b64_of_Z 3)] in
  lastn 2 (since_clear ops) = [b64_of_Z 2; b64_of_Z 3] /\
  wmean_full b64num 2
    (run (wmean_push b64num 2) (wmean_clear b64num) (wmean_init b64num) ops) = true.
Proof. vm_compute; split; reflexivity. Qed.

(** ** C21 *)

(** @prop C21_window_forgets_refuted: in IEEE binary64 the mean of a window
    depends on values that left the window: with N=1, after pushing 1e17 and
    then 1 mean() is 0, after pushing only 1 it is 1. *)
Lemma c21_refuted : exists (W : nat) (transient value : b64),
  (0 < W)%nat /\
  let run l := fold_left (wmean_push b64num W) l (wmean_init b64num) in
  let s := run [transient; value] in
  let s' := run [value] in
  wm_window b64num s = wm_window b64num s' /\
  wmean_mean b64num s = S754_zero false /\
  wmean_mean b64num s' = b64_of_Z 1.
Proof.
  exists 1%nat, (b64_of_Z 100000000000000000), (b64_of_Z 1).
  split; [lia|]; vm_compute; repeat split; reflexivity.
Qed.

(** @prop C21_window_nan_sticks: in IEEE binary64 a NaN that entered a
    window mean (or variance) filter keeps mean() NaN for every continuation
    without clear(), however long after it left the window. *)
Lemma c21_nan : forall (W : nat) (before after : list b64) (ops : list (op b64)),
  (0 < W)%nat ->
  let l := before ++ [S754_nan] ++ after in
  wmean_mean b64num
    (run (wmean_push b64num W) (wmean_clear b64num) (wmean_init b64num)
         (ops ++ pushes l)) = S754_nan /\
  wvar_mean b64num
    (run (wvar_push b64num W) (wvar_clear b64num) (wvar_init b64num)
         (ops ++ pushes l)) = S754_nan.
Proof.
  intros W before after ops HW l.
  assert (Hnan : forall s x, wm_mean b64num s = S754_nan ->
            wm_mean b64num (wmean_push b64num W s x) = S754_nan).
  { intros s x H; unfold wmean_push; cbn [wm_mean].
    unfold wmean_full; destruct (rb_full W (wm_window b64num s)) eqn:E.
    - destruct (rb_full_front W HW _ E) as (a & t & ->); cbn [rb_front hd_error].
      rewrite H; reflexivity.
    - rewrite H; reflexivity. }
  assert (Hadd : forall a : b64, SFadd 53 1024 a S754_nan = S754_nan)
    by (intros [sg|sg| |sg m e]; try destruct sg; reflexivity).
  assert (Hstart : forall s, wm_mean b64num (wmean_push b64num W s S754_nan) = S754_nan).
  { intros s; unfold wmean_push; cbn [wm_mean].
    unfold wmean_full; destruct (rb_full W (wm_window b64num s)) eqn:E.
    - destruct (rb_full_front W HW _ E) as (a & t & ->); cbn [rb_front hd_error].
      apply Hadd.
    - apply Hadd. }
  assert (Hfold : forall s, wm_mean b64num (fold_left (wmean_push b64num W) l s) = S754_nan).
  { assert (Hafter : forall t s, wm_mean b64num s = S754_nan ->
              wm_mean b64num (fold_left (wmean_push b64num W) t s) = S754_nan).
    { induction t as [|x t IH]; intros s H; [exact H|].
      cbn [fold_left]; apply IH, Hnan, H. }
    intros s; unfold l; rewrite !fold_left_app.
    apply Hafter, Hstart. }
  rewrite !run_app, !run_pushes; split; [apply Hfold|].
  unfold wvar_mean, wmean_mean; rewrite wvar_fold_super by exact HW; apply Hfold.
Qed.

(** @ex C21_window_nan_sticks_ex: window 2, NaN followed by three
    ordinary values; the window no longer contains the NaN. *)
Lemma c21_nan_ex :
  let s := fold_left (wmean_push b64num 2)
             [b64_of_Z 1; S754_nan; b64_of_Z 2; b64_of_Z 3; b64_of_Z 4]
             (wmean_init b64num) in
  wm_window b64num s = [b64_of_Z 3; b64_of_Z 4] /\ wmean_mean b64num s = S754_nan.
Proof. vm_compute; split; reflexivity. Qed.

(** @prop C21_window_forgets_partial: in exact arithmetic every window filter
    forgets: after any two histories the states (hence all observables) agree
    once W further values were pushed. Missing: binary64, where it is false. *)
Lemma c21_partial : forall (eps : R) (W : nat) (ops ops' : list (op R))
    (pops pops' : list (op (R * R))) (l : list R) (p : list (R * R)),
  (0 < W)%nat -> (N.of_nat W < szmod)%N ->
  (W <= length l)%nat -> (W <= length p)%nat ->
  run_wmean eps W (ops ++ pushes l) = run_wmean eps W (ops' ++ pushes l) /\
  run_wvar eps W (ops ++ pushes l) = run_wvar eps W (ops' ++ pushes l) /\
  run_wcov eps W (pops ++ pushes p) = run_wcov eps W (pops' ++ pushes p) /\
  run_wreg eps W (pops ++ pushes p) = run_wreg eps W (pops' ++ pushes p).
Proof.
  intros eps W ops ops' pops pops' l p HW HW64 Hl Hp.
  assert (G : forall A (a : list (op A)) (b : list A), (W <= length b)%nat ->
            lastn W (since_clear (a ++ pushes b)) = lastn W b).
  { intros A a b Hb; unfold since_clear; rewrite since_clear_from_app.
    rewrite since_clear_from_pushes, lastn_app_le by lia; reflexivity. }
  rewrite !run_wmean_state, !run_wvar_state, !run_wcov_state by auto.
  cbv zeta; rewrite !G by auto.
  split; [reflexivity|]; split; [reflexivity|]; split; [reflexivity|].
  unfold run_wreg; rewrite !run_rpops by reflexivity; rewrite !wreg_fold.
  cbn [wreg_init wr_cov wr_x]; rewrite !map_fst_finps.
  rewrite !wcov_exact, !wvar_exact by auto.
  unfold xs; rewrite !lastn_map, !G by exact Hp; reflexivity.
Qed.

(** @ex C21_window_forgets_partial_ex: different pasts, same present. *)
Lemma c21_partial_ex :
  let l := [1; 2; 3] in
  (3 <= length l)%nat /\
  since_clear ([Push 100] ++ pushes l) <> since_clear ([Clear] ++ pushes l).
Proof. cbv zeta; split; [cbn; lia|cbn; congruence]. Qed.
