(** * Property theorems: Origin

    Statements only; every proof is [exact] of a lemma in ClaimsOrigin.v.
    Generated by tools/mkprops.py. *)

From Coq Require Import Reals List ZArith NArith Bool Floats.SpecFloat.
From Verif Require Import Arith History Cumulative Window Interim Decay Psquare SpecOrigin.
Import ListNotations.
Local Open Scope R_scope.
From Verif Require Import ClaimsOrigin.

(** C83_cumulative: exact arithmetic, every history: adding a constant to
    every pushed value adds it to mean() and to the trend, provided a value was
    pushed since the last clear, and leaves variance, skewness and kurtosis and
    their unbiased versions exactly as they were. *)
Theorem C83_cumulative : forall (eps c : R) (ops : list (op xreal)),
  let F := exact eps in
  let ops' := map (op_map (plus_c c)) ops in
  let mean o := run (cmean_push F) (cmean_clear F) (cmean_init F) o in
  let var o := run (cvar_push F) (cvar_clear F) (cvar_init F) o in
  let skew o := run (cskew_push F) (cskew_clear F) (cskew_init F) o in
  let kurt o := run (ckurt_push F) (ckurt_clear F) (ckurt_init F) o in
  let trend o := run (ctrend_push F) (ctrend_clear F) (ctrend_init F) o in
  (since_clear ops <> [] ->
   shifted c (cmean_mean F (mean ops)) (cmean_mean F (mean ops')) /\
   shifted c (cvar_mean F (var ops)) (cvar_mean F (var ops')) /\
   shifted c (cskew_mean F (skew ops)) (cskew_mean F (skew ops')) /\
   shifted c (ckurt_mean F (kurt ops)) (ckurt_mean F (kurt ops')) /\
   shifted c (ctrend_value F (trend ops)) (ctrend_value F (trend ops'))) /\
  cvar_variance F (var ops) = cvar_variance F (var ops') /\
  cvar_unbiased_variance F (var ops) = cvar_unbiased_variance F (var ops') /\
  cskew_variance F (skew ops) = cskew_variance F (skew ops') /\
  cskew_skewness F (skew ops) = cskew_skewness F (skew ops') /\
  cskew_unbiased_skewness F (skew ops) = cskew_unbiased_skewness F (skew ops') /\
  ckurt_variance F (kurt ops) = ckurt_variance F (kurt ops') /\
  ckurt_skewness F (kurt ops) = ckurt_skewness F (kurt ops') /\
  ckurt_kurtosis F (kurt ops) = ckurt_kurtosis F (kurt ops') /\
  ckurt_unbiased_kurtosis F (kurt ops) = ckurt_unbiased_kurtosis F (kurt ops').
Proof. exact c83_cumulative. Qed.
Print Assumptions C83_cumulative.

(** C83_cumulative_ex: a history with a clear; the values 2 and 4 have
    variance 1 and mean 3, and so have 1000002 and 1000004, up to the origin. *)
Example C83_cumulative_ex :
  let F := exact 1 in
  let var o := run (cvar_push F) (cvar_clear F) (cvar_init F) o in
  let ops := [Push (Fin 9); Clear; Push (Fin 2); Push (Fin 4)] in
  since_clear ops <> [] /\
  cvar_mean F (var ops) = Fin 3 /\ cvar_variance F (var ops) = Fin 1 /\
  cvar_variance F (var (map (op_map (plus_c 1000000)) ops)) = Fin 1.
Proof. exact c83_cumulative_ex. Qed.

(** C83_unbiased_mean_refuted: unbiased_mean() does not move with the
    origin: adding 1 to the values 1 and 3 adds 2 to it. *)
Theorem C83_unbiased_mean_refuted : exists (c : R) (ops : list (op xreal)),
  let F := exact 1 in
  let um o := cmean_unbiased_mean F (run (cmean_push F) (cmean_clear F) (cmean_init F) o) in
  ~ shifted c (um ops) (um (map (op_map (plus_c c)) ops)).
Proof. exact c83_unbiased_mean_refuted. Qed.
Print Assumptions C83_unbiased_mean_refuted.

(** C83_double_refuted: for double the variance depends on the origin:
    0 and 1 have variance 1/4; after adding 2^52 to both values, which are then
    still exact doubles, variance() is 1/2. *)
Theorem C83_double_refuted : exists (c : Z) (l : list Z),
  let F := b64num in
  let var l := cvar_variance F (run (cvar_push F) (cvar_clear F) (cvar_init F) (map Push (map b64_of_Z l))) in
  (forall x, In x l -> (Z.abs x <= 2 ^ 53 /\ Z.abs (c + x) <= 2 ^ 53)%Z) /\
  var l = ndiv (n := F) (nofz 1) (nofz 4) /\
  var (map (Z.add c) l) = ndiv (n := F) (nofz 1) (nofz 2) /\
  SFeqb (var l) (var (map (Z.add c) l)) = false.
Proof. exact c83_double_refuted. Qed.
Print Assumptions C83_double_refuted.

(** C83_pairs: exact arithmetic: adding one constant to the first and
    another to the second components leaves covariance, correlation and slope
    exactly as they were and moves the regression line along: its value at the
    moved position moves by the second constant. *)
Theorem C83_pairs : forall (eps c d : R) (ops : list (op (xreal * xreal))) (p : xreal),
  let F := exact eps in
  let ops' := map (op_map (plus_c2 c d)) ops in
  let cov o := run (ccov_push F) (ccov_clear F) (ccov_init F) o in
  let corr o := ccorr_value F (run (ccorr_push F) (ccorr_clear F) (ccorr_init F) o) in
  let reg o := run (creg_push F) (creg_clear F) (creg_init F) o in
  ccov_variance F (cov ops) = ccov_variance F (cov ops') /\
  ccov_unbiased_variance F (cov ops) = ccov_unbiased_variance F (cov ops') /\
  corr ops = corr ops' /\
  creg_slope F (reg ops) = creg_slope F (reg ops') /\
  (since_clear ops <> [] ->
   shifted d (creg_at F (reg ops) p) (creg_at F (reg ops') (plus_c c p))).
Proof. exact c83_pairs. Qed.
Print Assumptions C83_pairs.

(** C83_pairs_ex: the line through (0, 1) and (2, 5), moved by (10, -3). *)
Example C83_pairs_ex :
  let F := exact 1 in
  let reg o := run (creg_push F) (creg_clear F) (creg_init F) o in
  let ops := [Push (Fin 0, Fin 1); Push (Fin 2, Fin 5)] in
  since_clear ops <> [] /\
  creg_slope F (reg ops) = Fin 2 /\ creg_at F (reg ops) (Fin 1) = Fin 3 /\
  creg_at F (reg (map (op_map (plus_c2 10 (-3))) ops)) (Fin 11) = Fin 0.
Proof. exact c83_pairs_ex. Qed.

(** C83_window: the same for the filters over the last W values. *)
Theorem C83_window : forall (eps c d : R) (W : nat) (ops : list (op xreal))
    (ops2 : list (op (xreal * xreal))) (p : xreal),
  (0 < W)%nat ->
  let F := exact eps in
  let ops' := map (op_map (plus_c c)) ops in
  let ops2' := map (op_map (plus_c2 c d)) ops2 in
  let mean o := run (wmean_push F W) (wmean_clear F) (wmean_init F) o in
  let var o := run (wvar_push F W) (wvar_clear F) (wvar_init F) o in
  let cov o := run (wcov_push F W) (wcov_clear F) (wcov_init F) o in
  let reg o := run (wreg_push F W) (wreg_clear F) (wreg_init F) o in
  (since_clear ops <> [] ->
   shifted c (wmean_mean F (mean ops)) (wmean_mean F (mean ops')) /\
   shifted c (wvar_mean F (var ops)) (wvar_mean F (var ops'))) /\
  wvar_variance F (var ops) = wvar_variance F (var ops') /\
  wvar_unbiased_variance F (var ops) = wvar_unbiased_variance F (var ops') /\
  wcov_variance F (cov ops2) = wcov_variance F (cov ops2') /\
  wcov_unbiased_variance F (cov ops2) = wcov_unbiased_variance F (cov ops2') /\
  wreg_slope F (reg ops2) = wreg_slope F (reg ops2') /\
  (since_clear ops2 <> [] ->
   shifted d (wreg_at F (reg ops2) p) (wreg_at F (reg ops2') (plus_c c p))).
Proof. exact c83_window. Qed.
Print Assumptions C83_window.

(** C83_window_ex: the last two of 9, 2, 4 have mean 3 and variance 1, and
    after adding 100 mean 103. *)
Example C83_window_ex :
  let F := exact 1 in
  let var o := run (wvar_push F 2) (wvar_clear F) (wvar_init F) o in
  let ops := [Push (Fin 9); Push (Fin 2); Push (Fin 4)] in
  since_clear ops <> [] /\
  wvar_mean F (var ops) = Fin 3 /\ wvar_mean F (var (map (op_map (plus_c 100)) ops)) = Fin 103.
Proof. exact c83_window_ex. Qed.

(** C83_interim: the same for the interim filters, for every window below
    2^63. *)
Theorem C83_interim : forall (eps c d : R) (W : N) (ops : list (op xreal))
    (ops2 : list (op (xreal * xreal))) (p : xreal),
  (0 < W)%N -> (2 * W < szmod)%N ->
  let F := exact eps in
  let ops' := map (op_map (plus_c c)) ops in
  let ops2' := map (op_map (plus_c2 c d)) ops2 in
  let mean o := run (imean_push F W) (imean_clear F) (imean_init F) o in
  let var o := run (ivar_push F W) (ivar_clear F) (ivar_init F) o in
  let skew o := run (iskew_push F W) (iskew_clear F) (iskew_init F) o in
  let kurt o := run (ikurt_push F W) (ikurt_clear F) (ikurt_init F) o in
  let cov o := run (icov_push F W) (icov_clear F) (icov_init F) o in
  let reg o := run (ireg_push F W) (ireg_clear F) (ireg_init F) o in
  (since_clear ops <> [] ->
   shifted c (imean_mean F W (mean ops)) (imean_mean F W (mean ops')) /\
   shifted c (ivar_mean F W (var ops)) (ivar_mean F W (var ops')) /\
   shifted c (iskew_mean F W (skew ops)) (iskew_mean F W (skew ops')) /\
   shifted c (ikurt_mean F W (kurt ops)) (ikurt_mean F W (kurt ops'))) /\
  ivar_variance F W (var ops) = ivar_variance F W (var ops') /\
  iskew_skewness F W (skew ops) = iskew_skewness F W (skew ops') /\
  ikurt_kurtosis F W (kurt ops) = ikurt_kurtosis F W (kurt ops') /\
  icov_variance F W (cov ops2) = icov_variance F W (cov ops2') /\
  (since_clear ops2 <> [] ->
   ireg_slope F W (reg ops2) = ireg_slope F W (reg ops2') /\
   shifted d (ireg_at F W (reg ops2) p) (ireg_at F W (reg ops2') (plus_c c p))).
Proof. exact c83_interim. Qed.
Print Assumptions C83_interim.

(** C83_interim_ex: window 2; after 9, 2, 4 the interim mean is 9/2, and
    10 more when 10 is added to every value. *)
Example C83_interim_ex :
  let F := exact 1 in
  let mean o := run (imean_push F 2) (imean_clear F) (imean_init F) o in
  let ops := [Push (Fin 9); Push (Fin 2); Push (Fin 4)] in
  (0 < 2)%N /\ (2 * 2 < szmod)%N /\ since_clear ops <> [] /\
  imean_mean F 2 (mean ops) = Fin (9 / 2) /\
  imean_mean F 2 (mean (map (op_map (plus_c 10)) ops)) = Fin (29 / 2).
Proof. exact c83_interim_ex. Qed.

(** C83_decay: the same for the decay filters with factors in (0, 1]. *)
Theorem C83_decay : forall (eps c f g h i : R) (ops : list (op xreal)),
  0 < f <= 1 ->
  let F := exact eps in
  let ops' := map (op_map (plus_c c)) ops in
  let mean o := run (dmean_push F) (dmean_clear F) (dmean_init F (Fin f)) o in
  let var o := run (dvar_push F) (dvar_clear F) (dvar_init F (Fin f) (Fin g)) o in
  let skew o := run (dskew_push F) (dskew_clear F) (dskew_init F (Fin f) (Fin g) (Fin h)) o in
  let kurt o := run (dkurt_push F) (dkurt_clear F) (dkurt_init F (Fin f) (Fin g) (Fin h) (Fin i)) o in
  (since_clear ops <> [] ->
   shifted c (dmean_mean F (mean ops)) (dmean_mean F (mean ops')) /\
   shifted c (dvar_mean F (var ops)) (dvar_mean F (var ops')) /\
   shifted c (dskew_mean F (skew ops)) (dskew_mean F (skew ops')) /\
   shifted c (dkurt_mean F (kurt ops)) (dkurt_mean F (kurt ops'))) /\
  dvar_variance F (var ops) = dvar_variance F (var ops') /\
  dskew_variance F (skew ops) = dskew_variance F (skew ops') /\
  dskew_skewness F (skew ops) = dskew_skewness F (skew ops') /\
  dkurt_variance F (kurt ops) = dkurt_variance F (kurt ops') /\
  dkurt_skewness F (kurt ops) = dkurt_skewness F (kurt ops') /\
  dkurt_kurtosis F (kurt ops) = dkurt_kurtosis F (kurt ops').
Proof. exact c83_decay. Qed.
Print Assumptions C83_decay.

(** C83_decay_ex: factor 1/2; the mean of 3, 6 is 5, and 1 less when 1 is
    subtracted from both. *)
Example C83_decay_ex :
  let F := exact 1 in
  let mean o := dmean_mean F (run (dmean_push F) (dmean_clear F) (dmean_init F (Fin (/ 2))) o) in
  let ops := [Push (Fin 3); Push (Fin 6)] in
  0 < / 2 <= 1 /\ since_clear ops <> [] /\ mean ops = Fin 5 /\
  mean (map (op_map (plus_c (-1))) ops) = Fin 4.
Proof. exact c83_decay_ex. Qed.

(** C83_psquare: exact arithmetic: adding a constant to every value pushed
    to the P-square estimator adds it to every estimate, for ratios in [0, 1),
    in all three phases (one value, fewer values than markers, markers full);
    reads outside the markers correspond too. *)
Theorem C83_psquare : forall (eps c : R) (qs : list R) (ops : list (op xreal)) (i : nat),
  Forall (fun q => 0 <= q < 1) qs ->
  let F := exact eps in
  let q := map Fin qs in
  let final o := run (psq_push F q) (psq_clear F q) (psq_init F q) o in
  psq_size F (final ops) <> 0%N ->
  match psq_get F q (final ops) i, psq_get F q (final (map (op_map (plus_c c)) ops)) i with
  | Some x, Some y => shifted c x y
  | None, None => True
  | _, _ => False
  end.
Proof. exact c83_psquare. Qed.
Print Assumptions C83_psquare.

(** C83_psquare_ex: the median of 5, 1, 2, read before the markers are
    full. *)
Example C83_psquare_ex :
  let F := exact 1 in
  let q := map Fin [/ 2] in
  let final o := run (psq_push F q) (psq_clear F q) (psq_init F q) o in
  Forall (fun q => 0 <= q < 1) [/ 2] /\
  psq_size F (final [Push (Fin 5); Push (Fin 1); Push (Fin 2)]) <> 0%N /\
  psq_get F q (final [Push (Fin 5); Push (Fin 1); Push (Fin 2)]) 0 = Some (Fin 1) /\
  psq_get F q (final (map (op_map (plus_c 7)) [Push (Fin 5); Push (Fin 1); Push (Fin 2)])) 0 = Some (Fin (1 + 7)).
Proof. exact c83_psquare_ex. Qed.
