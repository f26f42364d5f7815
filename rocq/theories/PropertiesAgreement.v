(** * Property theorems: Agreement

    Statements only; every proof is [exact] of a lemma in ClaimsAgreement.v.
    Generated by tools/mkprops.py. *)

From Coq Require Import ZArith NArith List Bool.
From Coq Require Import Floats.SpecFloat.
From Verif Require Import Arith History Buffer Cumulative Window Interim Decay.
Import ListNotations.
From Verif Require Import ClaimsAgreement.

(** C80_cumulative: in any arithmetic and after any history, a cumulative
    filter for higher moments reports the very size, mean, variance and skewness
    that the filters for lower moments report for the same history. *)
Theorem C80_cumulative : forall (F : num) (ops : list (op F)),
  let m := run (cmean_push F) (cmean_clear F) (cmean_init F) ops in
  let v := run (cvar_push F) (cvar_clear F) (cvar_init F) ops in
  let s := run (cskew_push F) (cskew_clear F) (cskew_init F) ops in
  let k := run (ckurt_push F) (ckurt_clear F) (ckurt_init F) ops in
  (cvar_size F v = cmean_size F m /\ cskew_size F s = cmean_size F m /\ ckurt_size F k = cmean_size F m) /\
  (cvar_mean F v = cmean_mean F m /\ cskew_mean F s = cmean_mean F m /\ ckurt_mean F k = cmean_mean F m) /\
  (cvar_unbiased_mean F v = cmean_unbiased_mean F m /\ cskew_unbiased_mean F s = cmean_unbiased_mean F m /\
   ckurt_unbiased_mean F k = cmean_unbiased_mean F m) /\
  (cskew_variance F s = cvar_variance F v /\ ckurt_variance F k = cvar_variance F v) /\
  (cskew_unbiased_variance F s = cvar_unbiased_variance F v /\
   ckurt_unbiased_variance F k = cvar_unbiased_variance F v) /\
  ckurt_skewness F k = cskew_skewness F s /\
  ckurt_unbiased_skewness F k = cskew_unbiased_skewness F s.
Proof. exact c80_cumulative. Qed.
Print Assumptions C80_cumulative.

(** C80_cumulative_ex: 1, 2, 4 after a clear, on doubles. *)
Example C80_cumulative_ex :
  let ops := Push S754_nan :: Clear :: pushes (map b64_of_Z [1; 2; 4]%Z) in
  SFeqb (ckurt_mean b64num (run (ckurt_push b64num) (ckurt_clear b64num) (ckurt_init b64num) ops))
    (cmean_mean b64num (run (cmean_push b64num) (cmean_clear b64num) (cmean_init b64num) ops)) = true.
Proof. exact c80_cumulative_ex. Qed.

(** C80_pairs: correlation and regression are computed from the very
    covariance, variances and means that separate filters report. *)
Theorem C80_pairs : forall (F : num) (ops : list (op (F * F))) (p : F),
  let cov := ccov_variance F (run (ccov_push F) (ccov_clear F) (ccov_init F) ops) in
  let var o := cvar_variance F (run (cvar_push F) (cvar_clear F) (cvar_init F) o) in
  let mean o := cmean_mean F (run (cmean_push F) (cmean_clear F) (cmean_init F) o) in
  let xs := map (op_map fst) ops in
  let ys := map (op_map snd) ops in
  let r := run (creg_push F) (creg_clear F) (creg_init F) ops in
  ccorr_value F (run (ccorr_push F) (ccorr_clear F) (ccorr_init F) ops)
  = (if nlt (nmul (var xs) (var ys)) neps then n1 else ndiv cov (nsqrt (nmul (var xs) (var ys)))) /\
  creg_slope F r = (if neq (var xs) n0 then n0 else ndiv cov (var xs)) /\
  creg_at F r p = nsub (mean ys) (nmul (creg_slope F r) (nsub (mean xs) p)).
Proof. exact c80_pairs. Qed.
Print Assumptions C80_pairs.

(** C80_pairs_ex: (1, 2) and (3, 6) have slope 2 on doubles, and the
    covariance 2 over the variance 1. *)
Example C80_pairs_ex :
  let ops := pushes [(b64_of_Z 1, b64_of_Z 2); (b64_of_Z 3, b64_of_Z 6)] in
  SFeqb (creg_slope b64num (run (creg_push b64num) (creg_clear b64num) (creg_init b64num) ops)) (b64_of_Z 2) = true /\
  SFeqb (ccov_variance b64num (run (ccov_push b64num) (ccov_clear b64num) (ccov_init b64num) ops)) (b64_of_Z 2) = true /\
  map (op_map fst) ops = pushes [b64_of_Z 1; b64_of_Z 3].
Proof. exact c80_pairs_ex. Qed.

(** C80_others: the same for the window, interim and decay families. *)
Theorem C80_others : forall (F : num) (W : nat) (U : N) (f1 f2 f3 f4 : F) (ops : list (op F)),
  let wm := run (wmean_push F W) (wmean_clear F) (wmean_init F) ops in
  let wv := run (wvar_push F W) (wvar_clear F) (wvar_init F) ops in
  let im := run (imean_push F U) (imean_clear F) (imean_init F) ops in
  let iv := run (ivar_push F U) (ivar_clear F) (ivar_init F) ops in
  let is_ := run (iskew_push F U) (iskew_clear F) (iskew_init F) ops in
  let ik := run (ikurt_push F U) (ikurt_clear F) (ikurt_init F) ops in
  let dm := run (dmean_push F) (dmean_clear F) (dmean_init F f1) ops in
  let dv := run (dvar_push F) (dvar_clear F) (dvar_init F f1 f2) ops in
  let ds := run (dskew_push F) (dskew_clear F) (dskew_init F f1 f2 f3) ops in
  let dk := run (dkurt_push F) (dkurt_clear F) (dkurt_init F f1 f2 f3 f4) ops in
  (0 < W)%nat ->
  (wvar_mean F wv = wmean_mean F wm /\ wvar_size F wv = wmean_size F wm) /\
  (ivar_mean F U iv = imean_mean F U im /\ iskew_mean F U is_ = imean_mean F U im /\
   ikurt_mean F U ik = imean_mean F U im) /\
  (iskew_variance F U is_ = ivar_variance F U iv /\ ikurt_variance F U ik = ivar_variance F U iv) /\
  ikurt_skewness F U ik = iskew_skewness F U is_ /\
  (ivar_size F U iv = imean_size F U im /\ iskew_size F U is_ = imean_size F U im /\
   ikurt_size F U ik = imean_size F U im) /\
  (dvar_mean F dv = dmean_mean F dm /\ dskew_mean F ds = dmean_mean F dm /\ dkurt_mean F dk = dmean_mean F dm) /\
  (dskew_variance F ds = dvar_variance F dv /\ dkurt_variance F dk = dvar_variance F dv) /\
  dkurt_skewness F dk = dskew_skewness F ds.
Proof. exact c80_others. Qed.
Print Assumptions C80_others.

(** C80_others_ex: a window of 2. *)
Example C80_others_ex :
  let ops := pushes (map b64_of_Z [1; 2; 4]%Z) in
  (0 < 2)%nat /\
  SFeqb (wvar_mean b64num (run (wvar_push b64num 2) (wvar_clear b64num) (wvar_init b64num) ops)) (b64_of_Z 3) = true.
Proof. exact c80_others_ex. Qed.

(** C81_window: in any arithmetic, as long as no more than W values were
    pushed since the last clear, the window filters report the very mean and
    size of the cumulative filters, and the larger of 0 and their variance. *)
Theorem C81_window : forall (F : num) (W : nat) (ops : list (op F)),
  (length (since_clear ops) <= W)%nat -> (N.of_nat W < szmod)%N ->
  let cm := run (cmean_push F) (cmean_clear F) (cmean_init F) ops in
  let cv := run (cvar_push F) (cvar_clear F) (cvar_init F) ops in
  let wm := run (wmean_push F W) (wmean_clear F) (wmean_init F) ops in
  let wv := run (wvar_push F W) (wvar_clear F) (wvar_init F) ops in
  wmean_size F wm = cmean_size F cm /\ wmean_mean F wm = cmean_mean F cm /\
  wvar_mean F wv = cvar_mean F cv /\
  ((0 < length (since_clear ops))%nat -> wvar_variance F wv = nmax n0 (cvar_variance F cv)) /\
  ((1 < length (since_clear ops))%nat -> wvar_unbiased_variance F wv = nmax n0 (cvar_unbiased_variance F cv)).
Proof. exact c81_window. Qed.
Print Assumptions C81_window.

(** C81_window_ex: three values in a window of four. *)
Example C81_window_ex :
  let ops := Push S754_nan :: Clear :: pushes (map b64_of_Z [1; 2; 4]%Z) in
  (length (since_clear ops) <= 4)%nat /\ (N.of_nat 4 < szmod)%N /\ (1 < length (since_clear ops))%nat.
Proof. exact c81_window_ex. Qed.

(** C81_interim: as long as no more than W values were pushed since the last
    clear, the interim filters report the very statistics of the cumulative
    filters, in any arithmetic. *)
Theorem C81_interim : forall (F : num) (W : N) (ops : list (op F)) (ops2 : list (op (F * F))),
  (N.of_nat (length (since_clear ops)) <= W)%N -> (N.of_nat (length (since_clear ops2)) <= W)%N ->
  (W < szmod)%N ->
  let k := run (ckurt_push F) (ckurt_clear F) (ckurt_init F) ops in
  let c := run (ccov_push F) (ccov_clear F) (ccov_init F) ops2 in
  let ik := run (ikurt_push F W) (ikurt_clear F) (ikurt_init F) ops in
  let ic := run (icov_push F W) (icov_clear F) (icov_init F) ops2 in
  ikurt_size F W ik = ckurt_size F k /\ ikurt_mean F W ik = ckurt_mean F k /\
  ikurt_variance F W ik = ckurt_variance F k /\ ikurt_skewness F W ik = ckurt_skewness F k /\
  ikurt_kurtosis F W ik = ckurt_kurtosis F k /\
  icov_size F W ic = ccov_size F c /\ icov_variance F W ic = ccov_variance F c.
Proof. exact c81_interim. Qed.
Print Assumptions C81_interim.

(** C81_interim_ex: three values, then two pairs, in a window of four. *)
Example C81_interim_ex :
  let ops := Push S754_nan :: Clear :: pushes (map b64_of_Z [1; 2; 4]%Z) in
  let ops2 := pushes [(b64_of_Z 1, b64_of_Z 2); (b64_of_Z 3, b64_of_Z 6)] in
  (N.of_nat (length (since_clear ops)) <= 4)%N /\ (N.of_nat (length (since_clear ops2)) <= 4)%N /\ (4 < szmod)%N.
Proof. exact c81_interim_ex. Qed.
