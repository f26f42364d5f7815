(** * Property theorems: Few

    Statements only; every proof is [exact] of a lemma in ClaimsFew.v.
    Generated by tools/mkprops.py. *)

From Coq Require Import ZArith NArith List Bool.
From Coq Require Import Floats.SpecFloat.
From Verif Require Import Arith History Buffer Cumulative Window Interim Decay CInt IntMoments.
Import ListNotations.
From Verif Require Import ClaimsFew.

(** C82_empty: whatever the history, if nothing was pushed since the last
    clear these statistics of filters over double are 0: mean, unbiased mean,
    skewness, kurtosis and their unbiased variants, covariance and unbiased
    covariance; window mean, variance, covariance and their unbiased variants,
    and the slope of the window regression; interim mean, skewness, kurtosis and
    covariance. *)
Theorem C82_empty : forall (W : nat) (U : N) (ops : list (op b64num)) (ops2 : list (op (b64num * b64num))),
  since_clear ops = [] -> since_clear ops2 = [] ->
  let zero := S754_zero false in
  let k := run (ckurt_push b64num) (ckurt_clear b64num) (ckurt_init b64num) ops in
  let c := run (ccov_push b64num) (ccov_clear b64num) (ccov_init b64num) ops2 in
  let w := run (wvar_push b64num W) (wvar_clear b64num) (wvar_init b64num) ops in
  let wc := run (wcov_push b64num W) (wcov_clear b64num) (wcov_init b64num) ops2 in
  let wr := run (wreg_push b64num W) (wreg_clear b64num) (wreg_init b64num) ops2 in
  let ik := run (ikurt_push b64num U) (ikurt_clear b64num) (ikurt_init b64num) ops in
  let ic := run (icov_push b64num U) (icov_clear b64num) (icov_init b64num) ops2 in
  [ckurt_mean b64num k; ckurt_unbiased_mean b64num k; ckurt_skewness b64num k;
   ckurt_unbiased_skewness b64num k; ckurt_kurtosis b64num k; ckurt_unbiased_kurtosis b64num k;
   ccov_variance b64num c; ccov_unbiased_variance b64num c;
   wvar_mean b64num w; wvar_variance b64num w; wvar_unbiased_variance b64num w;
   wcov_variance b64num wc; wcov_unbiased_variance b64num wc; wreg_slope b64num wr;
   ikurt_mean b64num U ik; ikurt_skewness b64num U ik; ikurt_kurtosis b64num U ik; icov_variance b64num U ic]
  = repeat zero 18.
Proof. exact c82_empty. Qed.
Print Assumptions C82_empty.

(** C82_empty_ex: values before a clear. *)
Example C82_empty_ex :
  since_clear [Push (b64_of_Z 3); Push S754_nan; Clear] = [] /\
  since_clear [Push (b64_of_Z 3, b64_of_Z 4); Clear] = [].
Proof. exact c82_empty_ex. Qed.

(** C82_empty_refuted: whatever the history, if nothing was pushed since the
    last clear these statistics over double are NaN: variance of the cumulative
    and of the interim filters, correlation, slope and value of the cumulative
    regression; so is the unbiased variance after the single value 1, while the
    unbiased mean is then infinite. *)
Theorem C82_empty_refuted : exists x : b64num,
  forall (U : N) (ops : list (op b64num)) (ops2 : list (op (b64num * b64num))) (p : b64num),
  since_clear ops = [] -> since_clear ops2 = [] ->
  [cvar_variance b64num (run (cvar_push b64num) (cvar_clear b64num) (cvar_init b64num) ops);
   ivar_variance b64num U (run (ivar_push b64num U) (ivar_clear b64num) (ivar_init b64num) ops);
   ccorr_value b64num (run (ccorr_push b64num) (ccorr_clear b64num) (ccorr_init b64num) ops2);
   creg_slope b64num (run (creg_push b64num) (creg_clear b64num) (creg_init b64num) ops2);
   creg_at b64num (run (creg_push b64num) (creg_clear b64num) (creg_init b64num) ops2) p;
   cvar_unbiased_variance b64num
     (run (cvar_push b64num) (cvar_clear b64num) (cvar_init b64num) (ops ++ [Push x]))]
  = repeat S754_nan 6 /\
  cmean_unbiased_mean b64num
    (run (cmean_push b64num) (cmean_clear b64num) (cmean_init b64num) (ops ++ [Push x]))
  = S754_infinity false.
Proof. exact c82_empty_refuted. Qed.
Print Assumptions C82_empty_refuted.

(** C82_empty_refuted_ex: a new filter is such a history. *)
Example C82_empty_refuted_ex :
  since_clear (@nil (op b64num)) = [] /\ since_clear [Push (b64_of_Z 3, b64_of_Z 4); Clear] = [].
Proof. exact c82_empty_refuted_ex. Qed.

(** C82_integer: for every integer type, if nothing was pushed since the last
    clear: mean, covariance, window mean, window variance and interim mean are
    0; the unbiased covariance is 0 also after one value. *)
Theorem C82_integer : forall (T : ity) (W : nat) (U : N) (ops : list (op Z)) (ops2 : list (op (Z * Z)))
    (sm : icm) (sc : icc) (sw : iwv) (si : iim),
  In T all_ity ->
  run_opt (icm_push T) icm_clear icm_init ops = Some sm ->
  run_opt (icc_push T) icc_clear icc_init ops2 = Some sc ->
  run_opt (iwv_push T W) iwv_clear iwv_init ops = Some sw ->
  run_opt (iim_push T U) iim_clear iim_init ops = Some si ->
  (since_clear ops = [] ->
    icm_mean sm = 0%Z /\ iwm_mean (iwv_super sw) = 0%Z /\ iwv_variance T sw = Some 0%Z /\
    iwv_unbiased_variance T sw = Some 0%Z /\ iim_mean T U si = Some 0%Z) /\
  (since_clear ops2 = [] -> icc_variance T sc = Some 0%Z) /\
  ((length (since_clear ops2) <= 1)%nat -> icc_unbiased_variance T sc = Some 0%Z).
Proof. exact c82_integer. Qed.
Print Assumptions C82_integer.

(** C82_integer_ex: 8-bit values before a clear, and one pair after. *)
Example C82_integer_ex :
  In int8 all_ity /\
  run_opt (icm_push int8) icm_clear icm_init [Push 3; Clear]%Z = Some (ICM 0 0) /\
  run_opt (icc_push int8) icc_clear icc_init [Push (3, 4)]%Z = Some (ICC (ICM 3 1) (ICM 4 1) 0) /\
  run_opt (iwv_push int8 2) iwv_clear iwv_init [Push 3; Clear]%Z = Some (IWV (IWM [] 0) 0) /\
  run_opt (iim_push int8 2) iim_clear iim_init [Push 3; Clear]%Z = Some (IIM (ICM 0 0) (ICM 0 0)) /\
  since_clear [Push 3; Clear]%Z = [].
Proof. exact c82_integer_ex. Qed.

(** C82_integer_refuted: for every integer type, variance() of an empty
    cumulative filter has undefined behaviour (division by zero), and so have
    unbiased_variance() and unbiased_mean() of a filter holding one value. *)
Theorem C82_integer_refuted : forall (T : ity) (x : Z), In T all_ity -> (imin T <= x <= imax T)%Z ->
  icv_variance T icv_init = None /\
  exists m s, run_opt (icm_push T) icm_clear icm_init [Push x] = Some m /\ icm_unbiased_mean T m = None /\
    run_opt (icv_push T) icv_clear icv_init [Push x] = Some s /\ icv_unbiased_variance T s = None.
Proof. exact c82_integer_refuted. Qed.
Print Assumptions C82_integer_refuted.

(** C82_integer_refuted_ex: the value -100 over 8 bits. *)
Example C82_integer_refuted_ex : In int8 all_ity /\ (imin int8 <= -100 <= imax int8)%Z.
Proof. exact c82_integer_refuted_ex. Qed.
