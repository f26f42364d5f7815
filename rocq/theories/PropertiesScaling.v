(** * Property theorems: Scaling

    Statements only; every proof is [exact] of a lemma in ClaimsScaling.v.
    Generated by tools/mkprops.py. *)

From Coq Require Import Reals ZArith NArith List Bool.
From Coq Require Import Floats.SpecFloat.
From Flocq Require Import Core.
From Verif Require Import Arith History ExactRuns SpecStats Cumulative Window Interim Decay Impulse Psquare SpecScaling.
Import ListNotations.
Local Open Scope R_scope.
From Verif Require Import ClaimsScaling.

(** C77_cumulative: multiplying every value by a factor that the rounding is
    indifferent to multiplies mean and trend by the factor and variance by its
    square, without any further error.  Skewness and kurtosis are unchanged, up
    to the sign of the factor, unless one of the two is cut off at 0. *)
Theorem C77_cumulative : forall (rnd : R -> R) (eps tiny c : R) (ops : list (op xreal)),
  scalable rnd c ->
  let F := xnum rnd eps tiny in
  let final o := run (ckurt_push F) (ckurt_clear F) (ckurt_init F) o in
  let s := final ops in
  let s' := final (map (op_map (times c)) ops) in
  let trend o := ctrend_value F (run (ctrend_push F) (ctrend_clear F) (ctrend_init F) o) in
  scaled c (ckurt_mean F s) (ckurt_mean F s') /\
  scaled c (ckurt_unbiased_mean F s) (ckurt_unbiased_mean F s') /\
  scaled (c * c) (ckurt_variance F s) (ckurt_variance F s') /\
  scaled (c * c) (ckurt_unbiased_variance F s) (ckurt_unbiased_variance F s') /\
  (ckurt_skewness F s = n0 \/ ckurt_skewness F s' = n0 \/
   scaled (c / Rabs c) (ckurt_skewness F s) (ckurt_skewness F s')) /\
  (ckurt_kurtosis F s = n0 \/ ckurt_kurtosis F s' = n0 \/
   scaled 1 (ckurt_kurtosis F s) (ckurt_kurtosis F s')) /\
  scaled c (trend ops) (trend (map (op_map (times c)) ops)).
Proof. exact c77_cumulative. Qed.
Print Assumptions C77_cumulative.

(** C77_cumulative_ex: 1024 and -1024 with 53 bits and ties to even; the exact
    mean of 1 and 4 and of 3 and 12. *)
Example C77_cumulative_ex :
  scalable (round radix2 (FLX_exp 53) ZnearestE) 1024 /\
  scalable (round radix2 (FLX_exp 53) ZnearestE) (-1024) /\ scalable (fun x => x) 3 /\
  ckurt_mean (exact 1) (run (ckurt_push (exact 1)) (ckurt_clear (exact 1)) (ckurt_init (exact 1))
    [Push NonFin; Clear; Push (Fin 1); Push (Fin 4)]) = Fin (5 / 2) /\
  map (op_map (times 3)) [Push NonFin; Clear; Push (Fin 1); Push (Fin 4)]
    = [Push NonFin; Clear; Push (Fin (3 * 1)); Push (Fin (3 * 4))].
Proof. exact c77_cumulative_ex. Qed.

(** C77_magnified: when the factor is at least 1 the cut-offs do not
    interfere: a skewness, kurtosis or correlation that is not at its cut-off
    value keeps its value. *)
Theorem C77_magnified : forall (rnd : R -> R) (eps tiny c d : R) (ops : list (op xreal))
    (ops2 : list (op (xreal * xreal))),
  0 <= eps -> 1 <= c -> 1 <= d -> scalable rnd c -> scalable rnd d ->
  let F := xnum rnd eps tiny in
  let final o := run (ckurt_push F) (ckurt_clear F) (ckurt_init F) o in
  let corr o := ccorr_value F (run (ccorr_push F) (ccorr_clear F) (ccorr_init F) o) in
  let s := final ops in
  let s' := final (map (op_map (times c)) ops) in
  (ckurt_skewness F s <> n0 -> scaled 1 (ckurt_skewness F s) (ckurt_skewness F s')) /\
  (ckurt_kurtosis F s <> n0 -> scaled 1 (ckurt_kurtosis F s) (ckurt_kurtosis F s')) /\
  (corr ops2 <> n1 -> scaled 1 (corr ops2) (corr (map (op_map (times2 c d)) ops2))).
Proof. exact c77_magnified. Qed.
Print Assumptions C77_magnified.

(** C77_magnified_ex: 0, 0, 0 and 4 have a skewness above the cut-off; 8 and 1
    are factors for 53-bit arithmetic. *)
Example C77_magnified_ex :
  0 <= eps64 /\ 1 <= 8 /\ 1 <= 1 /\
  scalable (round radix2 (FLX_exp 53) ZnearestE) 8 /\
  scalable (round radix2 (FLX_exp 53) ZnearestE) 1 /\
  (let F := exact eps64 in
   ckurt_skewness F (run (ckurt_push F) (ckurt_clear F) (ckurt_init F)
     [Push (Fin 0); Push (Fin 0); Push (Fin 0); Push (Fin 4)]) <> n0).
Proof. exact c77_magnified_ex. Qed.

(** C77_cutoff_refuted: without that restriction the claim fails: for the
    values 0, 0, 0, 4 in exact arithmetic with the epsilon of double, the unit
    decides whether a skewness is reported at all. *)
Theorem C77_cutoff_refuted : exists (c : R) (l : list R),
  0 < c /\ scalable (fun x => x) c /\
  let F := exact eps64 in
  let skew l := ckurt_skewness F (run (ckurt_push F) (ckurt_clear F) (ckurt_init F)
                  (map (op_map Fin) (map Push l))) in
  skew l <> n0 /\ skew (map (Rmult c) l) = n0.
Proof. exact c77_cutoff_refuted. Qed.
Print Assumptions C77_cutoff_refuted.

(** C77_decimal_refuted: for double and the factor 10 the mean is not
    multiplied exactly: ten times the mean of 1, 1, 2 differs from the mean of
    10, 10, 20. *)
Theorem C77_decimal_refuted : exists (c : Z) (l : list Z),
  let F := b64num in
  let mean l := cmean_mean F (run (cmean_push F) (cmean_clear F) (cmean_init F) (map Push (map b64_of_Z l))) in
  SFeqb (nmul (n := F) (b64_of_Z c) (mean l)) (mean (map (Z.mul c) l)) = false.
Proof. exact c77_decimal_refuted. Qed.
Print Assumptions C77_decimal_refuted.

(** C77_pairs: multiplying the first components by one factor and the second
    components by another multiplies covariance by both, the slope of the
    regression by the second over the first, and regression predictions at the
    multiplied positions by the second.  The correlation only takes the sign. *)
Theorem C77_pairs : forall (rnd : R -> R) (eps tiny c d : R) (ops : list (op (xreal * xreal))) (p : xreal),
  scalable rnd c -> scalable rnd d ->
  let F := xnum rnd eps tiny in
  let ops' := map (op_map (times2 c d)) ops in
  let cov o := run (ccov_push F) (ccov_clear F) (ccov_init F) o in
  let corr o := ccorr_value F (run (ccorr_push F) (ccorr_clear F) (ccorr_init F) o) in
  let reg o := run (creg_push F) (creg_clear F) (creg_init F) o in
  scaled (c * d) (ccov_variance F (cov ops)) (ccov_variance F (cov ops')) /\
  scaled (c * d) (ccov_unbiased_variance F (cov ops)) (ccov_unbiased_variance F (cov ops')) /\
  scaled (d / c) (creg_slope F (reg ops)) (creg_slope F (reg ops')) /\
  scaled d (creg_at F (reg ops) p) (creg_at F (reg ops') (times c p)) /\
  (corr ops = n1 \/ corr ops' = n1 \/ scaled (c * d / (Rabs c * Rabs d)) (corr ops) (corr ops')).
Proof. exact c77_pairs. Qed.
Print Assumptions C77_pairs.

(** C77_pairs_ex: factors 4 and -1/2 with 24 bits and ties to even; the exact
    covariance of (1, 2) and (3, 6) is 2, that of (2, -2) and (6, -6) is -4. *)
Example C77_pairs_ex :
  scalable (round radix2 (FLX_exp 24) ZnearestE) 4 /\
  scalable (round radix2 (FLX_exp 24) ZnearestE) (- / 2) /\
  (let F := exact 1 in
   let cov o := ccov_variance F (run (ccov_push F) (ccov_clear F) (ccov_init F) o) in
   cov [Push (Fin 1, Fin 2); Push (Fin 3, Fin 6)] = Fin 2 /\
   cov [Push (Fin 2, Fin (-2)); Push (Fin 6, Fin (-6))] = Fin (2 * -1 * 2)).
Proof. exact c77_pairs_ex. Qed.

(** C77_window: the same for the filters over the last W values. *)
Theorem C77_window : forall (rnd : R -> R) (eps tiny c d : R) (W : nat) (ops : list (op xreal))
    (ops2 : list (op (xreal * xreal))) (p : xreal),
  scalable rnd c -> scalable rnd d ->
  let F := xnum rnd eps tiny in
  let ops' := map (op_map (times c)) ops in
  let ops2' := map (op_map (times2 c d)) ops2 in
  let var o := run (wvar_push F W) (wvar_clear F) (wvar_init F) o in
  let cov o := run (wcov_push F W) (wcov_clear F) (wcov_init F) o in
  let reg o := run (wreg_push F W) (wreg_clear F) (wreg_init F) o in
  scaled c (wvar_mean F (var ops)) (wvar_mean F (var ops')) /\
  scaled (c * c) (wvar_variance F (var ops)) (wvar_variance F (var ops')) /\
  scaled (c * c) (wvar_unbiased_variance F (var ops)) (wvar_unbiased_variance F (var ops')) /\
  scaled (c * d) (wcov_variance F (cov ops2)) (wcov_variance F (cov ops2')) /\
  scaled (c * d) (wcov_unbiased_variance F (cov ops2)) (wcov_unbiased_variance F (cov ops2')) /\
  scaled (d / c) (wreg_slope F (reg ops2)) (wreg_slope F (reg ops2')) /\
  scaled d (wreg_at F (reg ops2) p) (wreg_at F (reg ops2') (times c p)).
Proof. exact c77_window. Qed.
Print Assumptions C77_window.

(** C77_window_ex: factors 1/3 and -7 in exact arithmetic; in a window of two
    values 1, 2, 4 has mean 3. *)
Example C77_window_ex :
  scalable (fun x => x) (/ 3) /\ scalable (fun x => x) (-7) /\
  (let F := exact 1 in
   wvar_mean F (run (wvar_push F 2) (wvar_clear F) (wvar_init F)
     [Push (Fin 1); Push (Fin 2); Push (Fin 4)]) = Fin 3).
Proof. exact c77_window_ex. Qed.

(** C77_interim: the same for the interim filters. *)
Theorem C77_interim : forall (rnd : R -> R) (eps tiny c d : R) (W : N) (ops : list (op xreal))
    (ops2 : list (op (xreal * xreal))) (p : xreal),
  scalable rnd c -> scalable rnd d ->
  let F := xnum rnd eps tiny in
  let ops' := map (op_map (times c)) ops in
  let ops2' := map (op_map (times2 c d)) ops2 in
  let mean o := run (imean_push F W) (imean_clear F) (imean_init F) o in
  let var o := run (ivar_push F W) (ivar_clear F) (ivar_init F) o in
  let cov o := run (icov_push F W) (icov_clear F) (icov_init F) o in
  let reg o := run (ireg_push F W) (ireg_clear F) (ireg_init F) o in
  scaled c (imean_mean F W (mean ops)) (imean_mean F W (mean ops')) /\
  scaled c (ivar_mean F W (var ops)) (ivar_mean F W (var ops')) /\
  scaled (c * c) (ivar_variance F W (var ops)) (ivar_variance F W (var ops')) /\
  scaled (c * d) (icov_variance F W (cov ops2)) (icov_variance F W (cov ops2')) /\
  scaled (d / c) (ireg_slope F W (reg ops2)) (ireg_slope F W (reg ops2')) /\
  scaled d (ireg_at F W (reg ops2) p) (ireg_at F W (reg ops2') (times c p)).
Proof. exact c77_interim. Qed.
Print Assumptions C77_interim.

(** C77_interim_ex: factors 2^-40 and 2^70, rounding upwards with 11 bits; in
    a window of two values 1, 2, 4 has mean 19/6. *)
Example C77_interim_ex :
  scalable (round radix2 (FLX_exp 11) Zceil) (bpow radix2 (-40)) /\
  scalable (round radix2 (FLX_exp 11) Zceil) (bpow radix2 70) /\
  (let F := exact 1 in
   imean_mean F 2 (run (imean_push F 2) (imean_clear F) (imean_init F)
     [Push (Fin 1); Push (Fin 2); Push (Fin 4)]) = Fin (19 / 6)).
Proof. exact c77_interim_ex. Qed.

(** C77_decay: the same for the decay filters, for all factors of decay. *)
Theorem C77_decay : forall (rnd : R -> R) (eps tiny c : R) (f1 f2 f3 f4 : xreal) (ops : list (op xreal)),
  scalable rnd c ->
  let F := xnum rnd eps tiny in
  let final o := run (dkurt_push F) (dkurt_clear F) (dkurt_init F f1 f2 f3 f4) o in
  let s := final ops in
  let s' := final (map (op_map (times c)) ops) in
  scaled c (dkurt_mean F s) (dkurt_mean F s') /\
  scaled (c * c) (dkurt_variance F s) (dkurt_variance F s') /\
  (dkurt_skewness F s = n0 \/ dkurt_skewness F s' = n0 \/
   scaled (c / Rabs c) (dkurt_skewness F s) (dkurt_skewness F s')) /\
  (dkurt_kurtosis F s = n0 \/ dkurt_kurtosis F s' = n0 \/
   scaled 1 (dkurt_kurtosis F s) (dkurt_kurtosis F s')).
Proof. exact c77_decay. Qed.
Print Assumptions C77_decay.

(** C77_decay_ex: factor 1000 in exact arithmetic; with decay 1/2 the values 1
    and 4 have mean 3. *)
Example C77_decay_ex :
  scalable (fun x => x) 1000 /\
  (let F := exact 1 in
   dkurt_mean F (run (dkurt_push F) (dkurt_clear F)
     (dkurt_init F (Fin (1 / 2)) (Fin 1) (Fin 1) (Fin 1)) [Push (Fin 1); Push (Fin 4)]) = Fin 3).
Proof. exact c77_decay_ex. Qed.

(** C77_impulse: the output of an impulse response filter is multiplied by
    the factor, for all coefficients. *)
Theorem C77_impulse : forall (rnd : R -> R) (eps tiny c : R) (ks bs as_ : list xreal) (k : xreal)
    (ops : list (op xreal)),
  scalable rnd c ->
  let F := xnum rnd eps tiny in
  let ops' := map (op_map (times c)) ops in
  let finite o := run (fir_push F) (fir_clear F) (fir_new F ks) o in
  let infinite o := run (iir_push F) (iir_clear F) (iir_new F bs as_ k) o in
  scaled c (fir_value F (finite ops)) (fir_value F (finite ops')) /\
  scaled c (iir_value F (infinite ops)) (iir_value F (infinite ops')).
Proof. exact c77_impulse. Qed.
Print Assumptions C77_impulse.

(** C77_impulse_ex: factor -16 with 53 bits and ties to even; coefficients 2
    and 3 give 13 for 3 and 2. *)
Example C77_impulse_ex :
  scalable (round radix2 (FLX_exp 53) ZnearestE) (-16) /\
  (let F := exact 1 in
   fir_value F (run (fir_push F) (fir_clear F) (fir_new F [Fin 2; Fin 3])
     [Push (Fin 3); Push (Fin 2)]) = Fin 13).
Proof. exact c77_impulse_ex. Qed.

(** C77_psquare: multiplying by a positive factor that the rounding is
    indifferent to multiplies every estimate of the P-square filter by the
    factor, for every list of quantiles. *)
Theorem C77_psquare : forall (rnd : R -> R) (eps tiny c : R) (qs : list xreal) (ops : list (op xreal)) (i : nat),
  scalable rnd c -> 0 < c ->
  let F := xnum rnd eps tiny in
  let get o := psq_get F qs (run (psq_push F qs) (psq_clear F qs) (psq_init F qs) o) i in
  match get ops, get (map (op_map (times c)) ops) with
  | Some x, Some y => scaled c x y
  | None, None => True
  | _, _ => False
  end.
Proof. exact c77_psquare. Qed.
Print Assumptions C77_psquare.

(** C77_psquare_ex: factor 1/256 with 53 bits and ties to even. *)
Example C77_psquare_ex :
  scalable (round radix2 (FLX_exp 53) ZnearestE) (/ 256) /\ 0 < / 256 /\
  map (op_map (times (/ 256))) [Push (Fin 512); Clear; Push NonFin]
    = [Push (Fin (/ 256 * 512)); Clear; Push NonFin].
Proof. exact c77_psquare_ex. Qed.

(** C78_cumulative: negating every value pushed to a cumulative filter over
    double negates mean and trend and leaves variance and kurtosis unchanged, to
    the last bit (up to the sign of zero), NaN and infinities included. *)
Theorem C78_cumulative : forall (b : bool) (ops : list (op b64)),
  let F := b64num in
  let final o := run (ckurt_push F) (ckurt_clear F) (ckurt_init F) o in
  let s := final ops in
  let s' := final (map (op_map (neg_if b)) ops) in
  let trend o := ctrend_value F (run (ctrend_push F) (ctrend_clear F) (ctrend_init F) o) in
  same_double (neg_if b (ckurt_mean F s)) (ckurt_mean F s') /\
  same_double (neg_if b (ckurt_unbiased_mean F s)) (ckurt_unbiased_mean F s') /\
  same_double (ckurt_variance F s) (ckurt_variance F s') /\
  same_double (ckurt_unbiased_variance F s) (ckurt_unbiased_variance F s') /\
  same_double (ckurt_kurtosis F s) (ckurt_kurtosis F s') /\
  same_double (ckurt_unbiased_kurtosis F s) (ckurt_unbiased_kurtosis F s') /\
  same_double (neg_if b (trend ops)) (trend (map (op_map (neg_if b)) ops)).
Proof. exact c78_cumulative. Qed.
Print Assumptions C78_cumulative.

(** C78_cumulative_ex: 1, 2 and 4 against -1, -2 and -4. *)
Example C78_cumulative_ex :
  let F := b64num in
  let mean l := ckurt_mean F (run (ckurt_push F) (ckurt_clear F) (ckurt_init F) (map Push (map b64_of_Z l))) in
  SFeqb (mean [1; 2; 4]%Z) (b64_of_Z 2) = false /\
  SFeqb (mean [-1; -2; -4]%Z) (SFopp (mean [1; 2; 4]%Z)) = true.
Proof. exact c78_cumulative_ex. Qed.

(** C78_skewness_refuted: cumulative skewness does not change its sign with
    the data: 0, 0, 0, 4 has positive skewness, 0, 0, 0, -4 has skewness 0. *)
Theorem C78_skewness_refuted : exists l : list b64,
  let F := b64num in
  let skew l := ckurt_skewness F (run (ckurt_push F) (ckurt_clear F) (ckurt_init F) (map Push l)) in
  SFltb (b64_of_Z 1) (skew l) = true /\ skew (map SFopp l) = S754_zero false.
Proof. exact c78_skewness_refuted. Qed.
Print Assumptions C78_skewness_refuted.

(** C78_pairs: negating the first components, the second, or both negates
    covariance, slope and correlation once for each, and the prediction at the
    correspondingly negated position once for the second; a correlation at its
    cut-off value 1 stays there. *)
Theorem C78_pairs : forall (b d : bool) (ops : list (op (b64 * b64))) (p : b64),
  let F := b64num in
  let ops' := map (op_map (neg_if2 b d)) ops in
  let cov o := run (ccov_push F) (ccov_clear F) (ccov_init F) o in
  let corr o := ccorr_value F (run (ccorr_push F) (ccorr_clear F) (ccorr_init F) o) in
  let reg o := run (creg_push F) (creg_clear F) (creg_init F) o in
  same_double (neg_if (xorb b d) (ccov_variance F (cov ops))) (ccov_variance F (cov ops')) /\
  same_double (neg_if (xorb b d) (ccov_unbiased_variance F (cov ops))) (ccov_unbiased_variance F (cov ops')) /\
  same_double (neg_if (xorb b d) (creg_slope F (reg ops))) (creg_slope F (reg ops')) /\
  same_double (neg_if d (creg_at F (reg ops) p)) (creg_at F (reg ops') (neg_if b p)) /\
  ((corr ops = n1 /\ corr ops' = n1) \/ same_double (neg_if (xorb b d) (corr ops)) (corr ops')).
Proof. exact c78_pairs. Qed.
Print Assumptions C78_pairs.

(** C78_pairs_ex: the covariance of (1, 2), (3, 7), (4, 8) and the opposite
    one. *)
Example C78_pairs_ex :
  let F := b64num in
  let cov l := ccov_variance F (run (ccov_push F) (ccov_clear F) (ccov_init F)
    (map Push (map (fun p => (b64_of_Z (fst p), b64_of_Z (snd p))) l))) in
  SFltb (b64_of_Z 1) (cov [(1, 2); (3, 7); (4, 8)]%Z) = true /\
  SFeqb (cov [(-1, 2); (-3, 7); (-4, 8)]%Z) (SFopp (cov [(1, 2); (3, 7); (4, 8)]%Z)) = true.
Proof. exact c78_pairs_ex. Qed.

(** C78_window: the same for the filters over the last W values. *)
Theorem C78_window : forall (b d : bool) (W : nat) (ops : list (op b64))
    (ops2 : list (op (b64 * b64))) (p : b64),
  let F := b64num in
  let ops' := map (op_map (neg_if b)) ops in
  let ops2' := map (op_map (neg_if2 b d)) ops2 in
  let var o := run (wvar_push F W) (wvar_clear F) (wvar_init F) o in
  let cov o := run (wcov_push F W) (wcov_clear F) (wcov_init F) o in
  let reg o := run (wreg_push F W) (wreg_clear F) (wreg_init F) o in
  same_double (neg_if b (wvar_mean F (var ops))) (wvar_mean F (var ops')) /\
  same_double (wvar_variance F (var ops)) (wvar_variance F (var ops')) /\
  same_double (wvar_unbiased_variance F (var ops)) (wvar_unbiased_variance F (var ops')) /\
  same_double (neg_if (xorb b d) (wcov_variance F (cov ops2))) (wcov_variance F (cov ops2')) /\
  same_double (neg_if (xorb b d) (wcov_unbiased_variance F (cov ops2))) (wcov_unbiased_variance F (cov ops2')) /\
  same_double (neg_if (xorb b d) (wreg_slope F (reg ops2))) (wreg_slope F (reg ops2')) /\
  same_double (neg_if d (wreg_at F (reg ops2) p)) (wreg_at F (reg ops2') (neg_if b p)).
Proof. exact c78_window. Qed.
Print Assumptions C78_window.

(** C78_window_ex: a window of two values, with an infinity that left it. *)
Example C78_window_ex :
  let F := b64num in
  let var l := wvar_variance F (run (wvar_push F 2) (wvar_clear F) (wvar_init F) (map Push l)) in
  let l := [S754_infinity true; b64_of_Z 1; b64_of_Z 2; b64_of_Z 7] in
  map SFopp l = [S754_infinity false; b64_of_Z (-1); b64_of_Z (-2); b64_of_Z (-7)] /\
  SFeqb (var (tl l)) (b64_of_Z 6) = false /\ SFeqb (var (tl l)) (var (map SFopp (tl l))) = true.
Proof. exact c78_window_ex. Qed.

(** C78_interim: the same for the interim filters. *)
Theorem C78_interim : forall (b d : bool) (W : N) (ops : list (op b64))
    (ops2 : list (op (b64 * b64))) (p : b64),
  let F := b64num in
  let ops' := map (op_map (neg_if b)) ops in
  let ops2' := map (op_map (neg_if2 b d)) ops2 in
  let mean o := run (imean_push F W) (imean_clear F) (imean_init F) o in
  let var o := run (ivar_push F W) (ivar_clear F) (ivar_init F) o in
  let kurt o := run (ikurt_push F W) (ikurt_clear F) (ikurt_init F) o in
  let cov o := run (icov_push F W) (icov_clear F) (icov_init F) o in
  let reg o := run (ireg_push F W) (ireg_clear F) (ireg_init F) o in
  same_double (neg_if b (imean_mean F W (mean ops))) (imean_mean F W (mean ops')) /\
  same_double (ivar_variance F W (var ops)) (ivar_variance F W (var ops')) /\
  same_double (ikurt_kurtosis F W (kurt ops)) (ikurt_kurtosis F W (kurt ops')) /\
  same_double (neg_if (xorb b d) (icov_variance F W (cov ops2))) (icov_variance F W (cov ops2')) /\
  same_double (neg_if (xorb b d) (ireg_slope F W (reg ops2))) (ireg_slope F W (reg ops2')) /\
  same_double (neg_if d (ireg_at F W (reg ops2) p)) (ireg_at F W (reg ops2') (neg_if b p)).
Proof. exact c78_interim. Qed.
Print Assumptions C78_interim.

(** C78_interim_ex: 1, 2, 4 in a window of two values, and the negatives. *)
Example C78_interim_ex :
  let F := b64num in
  let mean l := imean_mean F 2 (run (imean_push F 2) (imean_clear F) (imean_init F) (map Push (map b64_of_Z l))) in
  SFltb (b64_of_Z 3) (mean [1; 2; 4]%Z) = true /\
  SFeqb (mean [-1; -2; -4]%Z) (SFopp (mean [1; 2; 4]%Z)) = true.
Proof. exact c78_interim_ex. Qed.

(** C78_decay: the decay filters treat both signs alike: mean and skewness
    are negated, variance and kurtosis are unchanged, for all factors. *)
Theorem C78_decay : forall (b : bool) (f1 f2 f3 f4 : b64) (ops : list (op b64)),
  let F := b64num in
  let final o := run (dkurt_push F) (dkurt_clear F) (dkurt_init F f1 f2 f3 f4) o in
  let s := final ops in
  let s' := final (map (op_map (neg_if b)) ops) in
  same_double (neg_if b (dkurt_mean F s)) (dkurt_mean F s') /\
  same_double (dkurt_variance F s) (dkurt_variance F s') /\
  same_double (neg_if b (dkurt_skewness F s)) (dkurt_skewness F s') /\
  same_double (dkurt_kurtosis F s) (dkurt_kurtosis F s').
Proof. exact c78_decay. Qed.
Print Assumptions C78_decay.

(** C78_decay_ex: skewness of 0, 0, 0, 4 with factors 1/2, and of the negatives. *)
Example C78_decay_ex :
  let F := b64num in
  let half := @ndiv b64num (b64_of_Z 1) (b64_of_Z 2) in
  let skew l := dkurt_skewness F (run (dkurt_push F) (dkurt_clear F)
     (dkurt_init F half half half half) (map Push (map b64_of_Z l))) in
  SFltb (b64_of_Z 0) (skew [0; 0; 0; 4]%Z) = true /\
  SFeqb (skew [0; 0; 0; -4]%Z) (SFopp (skew [0; 0; 0; 4]%Z)) = true.
Proof. exact c78_decay_ex. Qed.

(** C78_impulse: the output of an impulse response filter is negated. *)
Theorem C78_impulse : forall (b : bool) (ks bs as_ : list b64) (k : b64) (ops : list (op b64)),
  let F := b64num in
  let ops' := map (op_map (neg_if b)) ops in
  let finite o := run (fir_push F) (fir_clear F) (fir_new F ks) o in
  let infinite o := run (iir_push F) (iir_clear F) (iir_new F bs as_ k) o in
  same_double (neg_if b (fir_value F (finite ops))) (fir_value F (finite ops')) /\
  same_double (neg_if b (iir_value F (infinite ops))) (iir_value F (infinite ops')).
Proof. exact c78_impulse. Qed.
Print Assumptions C78_impulse.

(** C78_impulse_ex: y = 2 x - y', for 1 and 3 and for -1 and -3. *)
Example C78_impulse_ex :
  let F := b64num in
  let out l := iir_value F (run (iir_push F) (iir_clear F) (iir_new F [b64_of_Z 2] [b64_of_Z 1] (b64_of_Z 1))
     (map Push (map b64_of_Z l))) in
  SFeqb (out [1; 3]%Z) (b64_of_Z 0) = false /\
  SFeqb (out [-1; -3]%Z) (SFopp (out [1; 3]%Z)) = true.
Proof. exact c78_impulse_ex. Qed.
