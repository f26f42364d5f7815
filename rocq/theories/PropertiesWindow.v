(** * Property theorems: Window

    Statements only; every proof is [exact] of a lemma in ClaimsWindow.v.
    Generated by tools/mkprops.py. *)

From Coq Require Import Reals ZArith NArith Bool List.
From Coq Require Import Floats.SpecFloat.
From Verif Require Import Arith History SpecStats Buffer Window ExactRuns WindowRuns.
Import ListNotations.
Local Open Scope R_scope.
From Verif Require Import ClaimsWindow.

(** C15_window_mean: for every window size N>0 and history, mean() is the
    arithmetic mean of the last min(N, pushes) values since the last clear()
    (0 if there are none), in the mean filter as well as in the variance
    filter; two histories ending in the same N values agree. *)
Theorem C15_window_mean : forall (eps : R) (W : nat) (ops : list (op R)),
  (0 < W)%nat -> (N.of_nat W < szmod)%N ->
  let w := lastn W (since_clear ops) in
  (w = [] ->
   wmean_mean _ (run_wmean eps W ops) = Fin 0 /\
   wvar_mean _ (run_wvar eps W ops) = Fin 0) /\
  (w <> [] ->
   wmean_mean _ (run_wmean eps W ops) = Fin (mean w) /\
   wvar_mean _ (run_wvar eps W ops) = Fin (mean w)) /\
  (forall (ops' : list (op R)) (recent : list R), length recent = W ->
   run_wmean eps W (ops ++ pushes recent) = run_wmean eps W (ops' ++ pushes recent) /\
   run_wvar eps W (ops ++ pushes recent) = run_wvar eps W (ops' ++ pushes recent)).
Proof. exact c15. Qed.
Print Assumptions C15_window_mean.

(** C15_window_mean_ex: window 3, five values after a clear. *)
Example C15_window_mean_ex :
  let ops := [Push 9; Clear; Push 1; Push 2; Push 6; Push 4; Push 8] in
  lastn 3 (since_clear ops) = [6; 4; 8] /\
  mean (lastn 3 (since_clear ops)) = 6 /\
  wmean_mean _ (run_wmean 1 3 ops) = Fin 6.
Proof. exact c15_ex. Qed.

(** C16_window_variance: variance() and unbiased_variance() are the
    population and sample variance of the last min(N, pushes) values, 0 when
    there are too few values. *)
Theorem C16_window_variance : forall (eps : R) (W : nat) (ops : list (op R)),
  (0 < W)%nat -> (N.of_nat W < szmod)%N ->
  let w := lastn W (since_clear ops) in
  let s := run_wvar eps W ops in
  (w <> [] -> wvar_variance _ s = Fin (variance w)) /\
  (w = [] -> wvar_variance _ s = Fin 0) /\
  ((2 <= length w)%nat -> wvar_unbiased_variance _ s = Fin (sample_variance w)) /\
  ((length w < 2)%nat -> wvar_unbiased_variance _ s = Fin 0).
Proof. exact c16. Qed.
Print Assumptions C16_window_variance.

(** C16_window_variance_ex: window 3 of a longer history. *)
Example C16_window_variance_ex :
  let w := lastn 3 (since_clear [Push 9; Clear; Push 1; Push 2; Push 6; Push 4; Push 8]) in
  w <> [] /\ (2 <= length w)%nat /\ variance w = 8 / 3 /\ sample_variance w = 4.
Proof. exact c16_ex. Qed.

(** C17_window_variance_nonneg_binary64: in IEEE binary64, for every state
    of the filter whatsoever (hence for every input, including NaN, infinities
    and overflow), variance() and unbiased_variance() are neither NaN nor
    negative. *)
Theorem C17_window_variance_nonneg_binary64 : forall s : wvar b64num,
  let ok (v : b64) :=
    match v with
    | S754_nan => False
    | S754_infinity sign => sign = false
    | S754_zero sign => sign = false
    | S754_finite sign _ _ => sign = false
    end in
  ok (wvar_variance b64num s) /\ ok (wvar_unbiased_variance b64num s).
Proof. exact c17. Qed.
Print Assumptions C17_window_variance_nonneg_binary64.

(** C17_window_variance_nonneg_binary64_ex: a history whose raw sum is NaN
    (an infinity was pushed): the NaN is masked and variance() is 0; and an
    ordinary one. *)
Example C17_window_variance_nonneg_binary64_ex :
  let run l := fold_left (wvar_push b64num 3) l (wvar_init b64num) in
  let s := run [b64_of_Z 1; S754_infinity false; b64_of_Z 2] in
  wv_sum b64num s = S754_nan /\ wvar_variance b64num s = S754_zero false /\
  wvar_variance b64num (run (map b64_of_Z [1; 2; 6; 4; 8]%Z)) =
    SFdiv 53 1024 (b64_of_Z 8) (b64_of_Z 3).
Proof. exact c17_ex. Qed.

(** C18_window_covariance: variance() and unbiased_variance() of the
    window covariance are the population and sample covariance of the last
    min(W, pushes) pairs, 0 when there are too few. *)
Theorem C18_window_covariance : forall (eps : R) (W : nat) (ops : list (op (R * R))),
  (0 < W)%nat -> (N.of_nat W < szmod)%N ->
  let w := lastn W (since_clear ops) in
  let s := run_wcov eps W ops in
  wcov_size _ s = N.of_nat (length w) /\
  (w <> [] -> wcov_variance _ s = Fin (covariance w)) /\
  (w = [] -> wcov_variance _ s = Fin 0) /\
  ((2 <= length w)%nat -> wcov_unbiased_variance _ s = Fin (sample_covariance w)) /\
  ((length w < 2)%nat -> wcov_unbiased_variance _ s = Fin 0).
Proof. exact c18. Qed.
Print Assumptions C18_window_covariance.

(** C18_window_covariance_ex: window 3 of a longer history of pairs. *)
Example C18_window_covariance_ex :
  let w := lastn 3 (since_clear [Push (5, 5); Push (0, 0); Push (1, 3); Push (2, 6)]) in
  w = [(0, 0); (1, 3); (2, 6)] /\ covariance w = 2 /\ sample_covariance w = 3.
Proof. exact c18_ex. Qed.

(** C19_window_regression: for every window size and non-empty history,
    slope() and at() describe a line that minimises the squared residuals over
    the last min(W, pushes) pairs, the unique minimiser unless all x in the
    window are equal, in which case slope() is 0 and at() the mean of y. *)
Theorem C19_window_regression : forall (eps : R) (W : nat) (ops : list (op (R * R))),
  (0 < W)%nat -> (N.of_nat W < szmod)%N ->
  let w := lastn W (since_clear ops) in
  let s := run_wreg eps W ops in
  w <> [] ->
  wreg_size _ s = N.of_nat (length w) /\
  exists a b,
    wreg_slope _ s = Fin b /\
    (forall p, wreg_at _ s (Fin p) = Fin (a + b * p)) /\
    (forall a' b', sse a b w <= sse a' b' w) /\
    (forall c, constant c (xs w) -> b = 0 /\ a = mean (ys w)) /\
    ((forall c, ~ constant c (xs w)) ->
     (forall a' b', sse a' b' w = sse a b w -> a' = a /\ b' = b) /\
     (forall a' b', collinear a' b' w -> a' = a /\ b' = b)).
Proof. exact c19. Qed.
Print Assumptions C19_window_regression.

(** C19_window_regression_ex: an outlier that left the window; the last
    three pairs are collinear with varying x. *)
Example C19_window_regression_ex :
  let w := lastn 3 (since_clear [Push (5, 50); Push (0, 1); Push (1, 3); Push (2, 5)]) in
  w <> [] /\ (forall c, ~ constant c (xs w)) /\ collinear 1 2 w.
Proof. exact c19_ex. Qed.

(** C20_window_bookkeeping: for every arithmetic, window size and history:
    capacity() is N, size() is min(N, pushes since clear), empty() iff size() is
    0, full() iff size() equals capacity(); the buffer holds exactly the last
    values; the precondition of front() holds whenever push() evaluates it; and
    after clear() the state is that of a new filter. *)
Theorem C20_window_bookkeeping : forall (F : num) (W : nat) (ops : list (op F)) (pops : list (op (F * F))),
  (0 < W)%nat ->
  let n := N.min (N.of_nat W) (N.of_nat (length (since_clear ops))) in
  let s := run (wmean_push F W) (wmean_clear F) (wmean_init F) ops in
  let v := run (wvar_push F W) (wvar_clear F) (wvar_init F) ops in
  let c := run (wcov_push F W) (wcov_clear F) (wcov_init F) pops in
  let r := run (wreg_push F W) (wreg_clear F) (wreg_init F) pops in
  let m := N.min (N.of_nat W) (N.of_nat (length (since_clear pops))) in
  (wmean_capacity F W s = N.of_nat W /\ wvar_capacity F W v = N.of_nat W) /\
  (wmean_size F s = n /\ wvar_size F v = n /\ wcov_size F c = m /\ wreg_size F r = m) /\
  (wmean_empty F s = N.eqb n 0 /\ wvar_empty F v = N.eqb n 0) /\
  (wmean_full F W s = N.eqb n (N.of_nat W) /\ wvar_full F W v = N.eqb n (N.of_nat W)) /\
  (wm_window F s = lastn W (since_clear ops) /\
   wm_window F (wv_super F v) = lastn W (since_clear ops) /\
   wc_window F c = lastn W (since_clear pops)) /\
  (wmean_push_ok F W s = true /\ wvar_push_ok F W v = true /\ wcov_push_ok F W c = true) /\
  (wv_super F v = s /\ wr_cov F r = c) /\
  (wmean_clear F s = wmean_init F /\ wvar_clear F v = wvar_init F /\
   wcov_clear F c = wcov_init F /\ wreg_clear F r = wreg_init F).
Proof. exact c20. Qed.
Print Assumptions C20_window_bookkeeping.

(** C20_window_bookkeeping_ex: a full window of 2 in binary64 with a NaN. *)
Example C20_window_bookkeeping_ex :
  let ops := [Push (b64_of_Z 1); Clear; Push S754_nan; Push (b64_of_Z 2); Push (b64_of_Z 3)] in
  lastn 2 (since_clear ops) = [b64_of_Z 2; b64_of_Z 3] /\
  wmean_full b64num 2
    (run (wmean_push b64num 2) (wmean_clear b64num) (wmean_init b64num) ops) = true.
Proof. exact c20_ex. Qed.

(** C21_window_forgets_refuted: in IEEE binary64 the mean of a window
    depends on values that left the window: with N=1, after pushing 1e17 and
    then 1 mean() is 0, after pushing only 1 it is 1. *)
Theorem C21_window_forgets_refuted : exists (W : nat) (transient value : b64),
  (0 < W)%nat /\
  let run l := fold_left (wmean_push b64num W) l (wmean_init b64num) in
  let s := run [transient; value] in
  let s' := run [value] in
  wm_window b64num s = wm_window b64num s' /\
  wmean_mean b64num s = S754_zero false /\
  wmean_mean b64num s' = b64_of_Z 1.
Proof. exact c21_refuted. Qed.
Print Assumptions C21_window_forgets_refuted.

(** C21_window_nan_sticks: in IEEE binary64 a NaN that entered a
    window mean (or variance) filter keeps mean() NaN for every continuation
    without clear(), however long after it left the window. *)
Theorem C21_window_nan_sticks : forall (W : nat) (before after : list b64) (ops : list (op b64)),
  (0 < W)%nat ->
  let l := before ++ [S754_nan] ++ after in
  wmean_mean b64num
    (run (wmean_push b64num W) (wmean_clear b64num) (wmean_init b64num)
         (ops ++ pushes l)) = S754_nan /\
  wvar_mean b64num
    (run (wvar_push b64num W) (wvar_clear b64num) (wvar_init b64num)
         (ops ++ pushes l)) = S754_nan.
Proof. exact c21_nan. Qed.
Print Assumptions C21_window_nan_sticks.

(** C21_window_nan_sticks_ex: window 2, NaN followed by three
    ordinary values; the window no longer contains the NaN. *)
Example C21_window_nan_sticks_ex :
  let s := fold_left (wmean_push b64num 2)
             [b64_of_Z 1; S754_nan; b64_of_Z 2; b64_of_Z 3; b64_of_Z 4]
             (wmean_init b64num) in
  wm_window b64num s = [b64_of_Z 3; b64_of_Z 4] /\ wmean_mean b64num s = S754_nan.
Proof. exact c21_nan_ex. Qed.

(** C21_window_forgets_partial: in exact arithmetic every window filter
    forgets: after any two histories the states (hence all observables) agree
    once W further values were pushed. Missing: binary64, where it is false. *)
Theorem C21_window_forgets_partial : forall (eps : R) (W : nat) (ops ops' : list (op R))
    (pops pops' : list (op (R * R))) (l : list R) (p : list (R * R)),
  (0 < W)%nat -> (N.of_nat W < szmod)%N ->
  (W <= length l)%nat -> (W <= length p)%nat ->
  run_wmean eps W (ops ++ pushes l) = run_wmean eps W (ops' ++ pushes l) /\
  run_wvar eps W (ops ++ pushes l) = run_wvar eps W (ops' ++ pushes l) /\
  run_wcov eps W (pops ++ pushes p) = run_wcov eps W (pops' ++ pushes p) /\
  run_wreg eps W (pops ++ pushes p) = run_wreg eps W (pops' ++ pushes p).
Proof. exact c21_partial. Qed.
Print Assumptions C21_window_forgets_partial.

(** C21_window_forgets_partial_ex: different pasts, same present. *)
Example C21_window_forgets_partial_ex :
  let l := [1; 2; 3] in
  (3 <= length l)%nat /\
  since_clear ([Push 100] ++ pushes l) <> since_clear ([Clear] ++ pushes l).
Proof. exact c21_partial_ex. Qed.
