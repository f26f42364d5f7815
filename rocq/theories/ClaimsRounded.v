(** * Claims C12-C13: rounded arithmetic *)

From Coq Require Import Reals ZArith NArith List Bool.
From Coq Require Import Floats.SpecFloat.
From Flocq Require Import Core.
From Verif Require Import Arith History Cumulative Window Rounded Binary64 ExactRuns.
Import ListNotations.
Local Open Scope R_scope.
(* @end-header *)
From Coq Require Import Lia Lra.
From Verif Require Import HistoryLemmas CumulativeProofs WindowProofs RoundedProofs Binary64Cumulative
  ConstantProofs.

(** ** C12 *)

(** @prop C12_rounded: for every binary floating-point format with gradual
    underflow (precision [prec], exponents from [emin <= 0]), every rounding
    function and every history whose values since the last clear are
    representable: mean() is a number of the format between the smallest and
    the largest of them and variance() is not negative. *)
Lemma c12_rounded : forall (emin prec : Z) (mode : R -> Z) (ops : list (op R)),
  (0 < prec)%Z -> (emin <= 0)%Z -> Valid_rnd mode ->
  let l := since_clear ops in
  l <> [] -> fits l -> Forall (representable emin prec) l ->
  let F := rounded emin prec mode in
  let s := run (cvar_push F) (cvar_clear F) (cvar_init F) (fops emin prec mode ops) in
  exists m v, cvar_mean F s = Fin m /\ representable emin prec m /\ in_hull m l /\
    cvar_variance F s = Fin v /\ 0 <= v /\
    ((2 <= length l)%nat -> exists u, cvar_unbiased_variance F s = Fin u /\ 0 <= u).
Proof.
  intros emin prec mode ops Hp He Hv l NE Hf HF F s.
  assert (HF' : Forall (generic_format radix2 (FLT_exp emin prec)) l).
  { eapply Forall_impl; [|exact HF]. intros a. apply (@representable_fmt emin prec Hp). }
  destruct (@cvar_rounded emin prec Hp He mode Hv l NE Hf HF') as (m & v & E & Fm & Hm & Fv & Pv).
  assert (Es : s = CVar F (CMean F (Fin m) (N.of_nat (length l))) (Fin v)).
  { unfold s, fops. rewrite (run_since_clear _ _ _ (cvar_clear_init F)), since_clear_op_map. exact E. }
  rewrite Es. assert (HL : (1 <= N.of_nat (length l))%N) by (destruct l; cbn; [congruence|lia]).
  destruct (@count_fin emin prec Hp He mode Hv _ HL) as (c & Ec & _ & C1 & _).
  exists m, (rounding emin prec mode (v / c)).
  split; [reflexivity|]. split; [apply (@representable_fmt emin prec Hp); exact Fm|]. split; [exact Hm|].
  assert (D : forall a, 1 <= a -> 0 <= rounding emin prec mode (v / a)).
  { intros a Ha. apply (@rnd_pos emin prec Hp mode Hv). apply Rmult_le_pos; [exact Pv|].
    apply Rlt_le, Rinv_0_lt_compat. lra. }
  split.
  - unfold cvar_variance. cbn [cv_sum cv_super cm_count]. unfold F. rewrite Ec. cbn.
    rewrite Req_bool_false by lra. reflexivity.
  - split; [apply D; exact C1|]. intros H2.
    assert (HL2 : (1 <= N.of_nat (length l) - 1)%N) by lia.
    destruct (@count_fin emin prec Hp He mode Hv _ HL2) as (d & Ed & _ & D1 & _).
    exists (rounding emin prec mode (v / d)). split; [|apply D; exact D1].
    unfold cvar_unbiased_variance. cbn [cv_sum cv_super cm_count].
    rewrite szsub_small by (unfold fits in Hf; lia). unfold F. rewrite Ed. cbn.
    rewrite Req_bool_false by lra. reflexivity.
Qed.

(** @ex C12_rounded_ex: two-bit precision with rounding towards +infinity; the
    values 1, 2, 3 are representable. *)
Lemma c12_rounded_ex :
  (0 < 2)%Z /\ (-3 <= 0)%Z /\ Valid_rnd Zceil /\
  let ops := [Push 100; Clear; Push 1; Push 2; Push 3] in
  since_clear ops <> [] /\ fits (since_clear ops) /\
  Forall (representable (-3) 2) (since_clear ops).
Proof.
  split; [lia|]. split; [lia|]. split; [apply valid_rnd_UP|].
  cbv zeta. cbn. split; [discriminate|]. split; [reflexivity|].
  assert (H : forall z, (0 <= z < 4)%Z -> representable (-3) 2 (IZR z)).
  { intros z Hz. apply (FLT_spec _ _ _ _ (Float radix2 z 0)); [|cbn; lia|cbn; lia].
    unfold F2R. cbn. ring. }
  constructor; [apply (H 1%Z); lia|]. constructor; [apply (H 2%Z); lia|].
  constructor; [apply (H 3%Z); lia|]. constructor.
Qed.

(** @prop C12_binary64: in binary64, overflow included: if the values pushed
    since the last clear are finite and smaller than 2^1023 in magnitude, mean()
    is finite and between the smallest and the largest of them, and variance()
    compares greater or equal to zero (it is a finite nonnegative number or
    +infinity, never NaN). *)
Lemma c12_binary64 : forall ops : list (op b64),
  let l := since_clear ops in
  l <> [] -> fits l ->
  Forall (fun x => b64_finite x /\ Rabs (b64_real x) < bpow radix2 1023) l ->
  let s := run (cvar_push b64num) (cvar_clear b64num) (cvar_init b64num) ops in
  b64_finite (cvar_mean b64num s) /\
  in_hull (b64_real (cvar_mean b64num s)) (map b64_real l) /\
  SFleb (S754_zero false) (cvar_variance b64num s) = true.
Proof.
  intros ops l NE Hf HF s.
  assert (Es : s = fold_left (cvar_push b64num) l (cvar_init b64num)).
  { unfold s. rewrite (run_since_clear _ _ _ (cvar_clear_init b64num)). reflexivity. }
  destruct (cmean_b64 l HF Hf) as (m & r & E & Er & D & H).
  destruct (cmean_rounded (-1074) 53 ltac:(lia) ZnearestE (map b64_real l)) as (r' & Er' & _ & Hh).
  { destruct l; [congruence|discriminate]. } { rewrite map_length; exact Hf. } { apply okl_fmt. exact HF. }
  rewrite Er in Er'. injection Er' as Err _. subst r'.
  pose proof (cvar_fold_super b64num l (cvar_init b64num)) as Sup.
  change (cv_super b64num (cvar_init b64num)) with (cmean_init b64num) in Sup.
  rewrite <- Es in Sup. assert (Es' : cv_super b64num s = CMean b64num m (N.of_nat (length l))).
  { rewrite Sup. exact E. }
  unfold cvar_mean, cmean_mean. rewrite Es'. cbn [cm_mean]. destruct D as [Fm Rm].
  split; [exact Fm|]. split; [rewrite Rm; exact Hh|].
  unfold cvar_variance. rewrite Es'. cbn [cm_count]. apply nonneg64_leb.
  assert (HL : (1 <= N.of_nat (length l))%N) by (destruct l; cbn; [congruence|lia]).
  apply (nonneg64_div _ _ (rnd64 (IZR (Z.of_N (N.of_nat (length l)))))).
  - rewrite Es. apply cvar_b64; assumption.
  - apply count_denotes; [exact HL|exact Hf].
  - apply (rnd_ge1 (-1074) 53 ltac:(lia) ZnearestE). apply (IZR_le 1). lia.
Qed.

(** @ex C12_binary64_ex: 1/10, 2/10, 7/10 after a clear; and two doubles of
    opposite sign beyond the bound, whose mean overflows to an infinity. *)
Lemma c12_binary64_ex :
  let d k := @ndiv b64num (b64_of_Z k) (b64_of_Z 10) in
  let ops := [Push (b64_of_Z 5); Clear; Push (d 1%Z); Push (d 2%Z); Push (d 7%Z)] in
  let s := run (cvar_push b64num) (cvar_clear b64num) (cvar_init b64num) ops in
  SFltb (d 1%Z) (cvar_mean b64num s) = true /\ SFltb (cvar_mean b64num s) (d 7%Z) = true /\
  SFltb (S754_zero false) (cvar_variance b64num s) = true /\
  let big := S754_finite false 9007199254740991 971 in
  let ops' := [Push big; Push (SFopp big)] in
  cvar_mean b64num (run (cvar_push b64num) (cvar_clear b64num) (cvar_init b64num) ops') =
  S754_infinity true.
Proof. vm_compute. repeat split. Qed.

(** ** C13 *)

(** @prop C13_cumulative: in every format and rounding mode, after any positive
    number of pushes of one representable value c since the last clear the
    cumulative mean() is exactly c and variance() exactly 0. *)
Lemma c13_cumulative : forall (emin prec : Z) (mode : R -> Z) (ops : list (op R)) (c : R) (n : nat),
  (0 < prec)%Z -> (emin <= 0)%Z -> Valid_rnd mode -> representable emin prec c ->
  since_clear ops = repeat c (S n) -> fits (since_clear ops) ->
  let F := rounded emin prec mode in
  let s := run (cvar_push F) (cvar_clear F) (cvar_init F) (fops emin prec mode ops) in
  cvar_mean F s = Fin c /\ cvar_variance F s = Fin 0 /\
  ((1 <= n)%nat -> cvar_unbiased_variance F s = Fin 0).
Proof.
  intros emin prec mode ops c n Hp He Hv Hc HS Hf F s.
  apply (@representable_fmt emin prec Hp) in Hc.
  assert (Es : s = fold_left (cvar_push F) (repeat (Fin c : F) (S n)) (cvar_init F)).
  { unfold s, fops. rewrite (run_since_clear _ _ _ (cvar_clear_init F)), since_clear_op_map, HS, map_repeat. reflexivity. }
  unfold fits in Hf. rewrite HS, repeat_length in Hf. rewrite Es.
  pose proof (@r_first emin prec Hp He mode Hv c Hc) as P1.
  pose proof (@r_again emin prec Hp He mode Hv c Hc) as P2.
  pose proof (@r_n0 emin prec mode Hv) as P4.
  assert (P5 : forall m, m = Fin c -> @nsub F (Fin c) m = Fin 0)
    by (intros m ->; apply (@r_sub_self emin prec mode Hv)).
  assert (P6 : r_fin emin prec mode (@nsub F (Fin c) n0))
    by (eexists; reflexivity).
  assert (P7 : forall a : F, a = Fin 0 -> r_fin emin prec mode a) by (intros a ->; eexists; reflexivity).
  pose proof (@r_zadd emin prec mode Hv) as P8.
  assert (P9 : forall s k, s = Fin 0 -> (1 <= k < szmod)%N -> @ndiv F s (nofsz k) = Fin 0)
    by (intros t k -> Hk; apply (@r_zero_div emin prec Hp He mode Hv k Hk)).
  split; [|split].
  - unfold cvar_mean, cmean_mean. rewrite cvar_fold_super.
    apply (cmean_const F (Fin c) (fun m => m = Fin c)); [exact P1|exact P2|exact Hf].
  - apply (cvar_const_variance F (Fin c) (fun m => m = Fin c) (fun m => m = Fin 0) (r_fin emin prec mode)); assumption.
  - intros Hn. apply (cvar_const_unbiased F (Fin c) (fun m => m = Fin c) (fun m => m = Fin 0) (r_fin emin prec mode)); assumption.
Qed.

(** @ex C13_cumulative_ex: -3/8 with two bits of precision, rounding down. *)
Lemma c13_cumulative_ex :
  (0 < 2)%Z /\ (-3 <= 0)%Z /\ Valid_rnd Zfloor /\ representable (-3) 2 (- 3 / 8) /\
  since_clear [Push 1; Clear; Push (- 3 / 8); Push (- 3 / 8)] = repeat (- 3 / 8) 2.
Proof.
  split; [lia|]. split; [lia|]. split; [apply valid_rnd_DN|]. split; [|reflexivity].
  apply (FLT_spec _ _ _ _ (Float radix2 (-3) (-3))); [|cbn; lia|cbn; lia].
  unfold F2R. cbn. lra.
Qed.

(** @prop C13_window: the same for the window moments, however many values have
    been pushed; for less than two values in the window unbiased_variance() is
    0 as well. *)
Lemma c13_window : forall (emin prec : Z) (mode : R -> Z) (W : nat) (ops : list (op R)) (c : R) (n : nat),
  (0 < prec)%Z -> (emin <= 0)%Z -> Valid_rnd mode -> representable emin prec c ->
  (0 < W)%nat -> (N.of_nat W < szmod)%N ->
  since_clear ops = repeat c (S n) ->
  let F := rounded emin prec mode in
  let s := run (wvar_push F W) (wvar_clear F) (wvar_init F) (fops emin prec mode ops) in
  wvar_mean F s = Fin c /\ wvar_variance F s = Fin 0 /\ wvar_unbiased_variance F s = Fin 0.
Proof.
  intros emin prec mode W ops c n Hp He Hv Hc HW HW64 HS F s.
  apply (@representable_fmt emin prec Hp) in Hc.
  assert (Es : s = fold_left (wvar_push F W) (repeat (Fin c : F) (S n)) (wvar_init F)).
  { unfold s, fops. rewrite (run_since_clear _ _ _ (wvar_clear_init F)), since_clear_op_map, HS, map_repeat. reflexivity. }
  rewrite Es.
  pose proof (@r_first emin prec Hp He mode Hv c Hc) as P1.
  pose proof (@r_again emin prec Hp He mode Hv c Hc) as P2.
  pose proof (@r_replace emin prec Hp He mode Hv c Hc) as P3.
  pose proof (@r_n0 emin prec mode Hv) as P4.
  assert (P5 : forall m, m = Fin c -> @nsub F (Fin c) m = Fin 0)
    by (intros m ->; apply (@r_sub_self emin prec mode Hv)).
  assert (P6 : r_fin emin prec mode (@nsub F (Fin c) n0))
    by (eexists; reflexivity).
  assert (P7 : forall a : F, a = Fin 0 -> r_fin emin prec mode a) by (intros a ->; eexists; reflexivity).
  pose proof (@r_zadd emin prec mode Hv) as P8.
  assert (P9 : forall s k, s = Fin 0 -> (1 <= k < szmod)%N -> @ndiv F s (nofsz k) = Fin 0)
    by (intros t k -> Hk; apply (@r_zero_div emin prec Hp He mode Hv k Hk)).
  pose proof (@r_zsub emin prec mode Hv) as P10.
  pose proof (@r_max emin prec mode Hv) as P11.
  split; [|split].
  - unfold wvar_mean, wmean_mean. rewrite (wvar_fold_super F W HW).
    apply (wmean_const F (Fin c) (fun m => m = Fin c)); assumption.
  - apply (wvar_const_variance F (Fin c) (fun m => m = Fin c) (fun m => m = Fin 0) (r_fin emin prec mode)); assumption.
  - apply (wvar_const_unbiased F (Fin c) (fun m => m = Fin c) (fun m => m = Fin 0) (r_fin emin prec mode)); assumption.
Qed.

(** @ex C13_window_ex: three equal values through a window of two. *)
Lemma c13_window_ex :
  (0 < 2)%nat /\ (N.of_nat 2 < szmod)%N /\ representable (-3) 2 (3 / 8) /\
  since_clear [Push 1; Clear; Push (3 / 8); Push (3 / 8); Push (3 / 8)] = repeat (3 / 8) 3.
Proof.
  split; [lia|]. split; [reflexivity|]. split; [|reflexivity].
  apply (FLT_spec _ _ _ _ (Float radix2 3 (-3))); [|cbn; lia|cbn; lia].
  unfold F2R. cbn. lra.
Qed.

(** @prop C13_covariance: cumulative covariance of a constant pair is exactly 0,
    in every format and rounding mode. *)
Lemma c13_covariance : forall (emin prec : Z) (mode : R -> Z) (ops : list (op (R * R))) (cx cy : R) (n : nat),
  (0 < prec)%Z -> (emin <= 0)%Z -> Valid_rnd mode ->
  representable emin prec cx -> representable emin prec cy ->
  since_clear ops = repeat (cx, cy) (S n) -> fits (since_clear ops) ->
  let F := rounded emin prec mode in
  let s := run (ccov_push F) (ccov_clear F) (ccov_init F)
             (map (op_map (fun p => (Fin (fst p), Fin (snd p)))) ops) in
  ccov_variance F s = Fin 0 /\ ccov_unbiased_variance F s = Fin 0.
Proof.
  intros emin prec mode ops cx cy n Hp He Hv Hx Hy HS Hf F s.
  apply (@representable_fmt emin prec Hp) in Hx. apply (@representable_fmt emin prec Hp) in Hy.
  assert (Es : s = fold_left (ccov_push F) (repeat (Fin cx : F, Fin cy : F) (S n)) (ccov_init F)).
  { unfold s. rewrite (run_since_clear _ _ _ (ccov_clear_init F)), since_clear_op_map, HS, map_repeat. reflexivity. }
  unfold fits in Hf. rewrite HS, repeat_length in Hf. rewrite Es.
  pose proof (@r_first emin prec Hp He mode Hv) as P1.
  pose proof (@r_again emin prec Hp He mode Hv) as P2.
  pose proof (@r_n0 emin prec mode Hv) as P4.
  assert (P5 : forall c m, m = Fin c -> @nsub F (Fin c) m = Fin 0)
    by (intros c m ->; apply (@r_sub_self emin prec mode Hv)).
  assert (P6 : r_fin emin prec mode (@nsub F (Fin cy) n0))
    by (eexists; reflexivity).
  assert (P7 : forall a : F, a = Fin 0 -> r_fin emin prec mode a) by (intros a ->; eexists; reflexivity).
  pose proof (@r_zadd' emin prec mode Hv) as P8.
  assert (P9 : forall s k, s = Fin 0 -> (1 <= k < szmod)%N -> @ndiv F s (nofsz k) = Fin 0)
    by (intros t k -> Hk; apply (@r_zero_div emin prec Hp He mode Hv k Hk)).
  split.
  - apply (ccov_const_variance F (Fin cx) (Fin cy) (fun m => m = Fin cx) (fun m => m = Fin cy)
      (fun m => m = Fin 0) (r_fin emin prec mode)); auto.
  - apply (ccov_const_unbiased F (Fin cx) (Fin cy) (fun m => m = Fin cx) (fun m => m = Fin cy)
      (fun m => m = Fin 0) (r_fin emin prec mode)); auto.
Qed.

(** @ex C13_covariance_ex: a pair of one-bit values. *)
Lemma c13_covariance_ex :
  representable (-3) 2 1 /\ representable (-3) 2 (1 / 8) /\
  since_clear [Push (1, 1 / 8); Push (1, 1 / 8)] = repeat (1, 1 / 8) 2.
Proof.
  split; [|split; [|reflexivity]].
  - apply (FLT_spec _ _ _ _ (Float radix2 1 0)); [|cbn; lia|cbn; lia]. unfold F2R. cbn. ring.
  - apply (FLT_spec _ _ _ _ (Float radix2 1 (-3))); [|cbn; lia|cbn; lia]. unfold F2R. cbn. lra.
Qed.

(** @prop C13_binary64: the cumulative, window and covariance statements in
    binary64 for every finite double, the largest included: the results are
    finite and denote exactly the pushed value and zero. *)
Lemma c13_binary64 : forall (W : nat) (c d : b64) (n : nat),
  b64_finite c -> b64_finite d -> (0 < W)%nat -> (N.of_nat W < szmod)%N ->
  let same x y := b64_finite x /\ b64_real x = y in
  (forall ops : list (op b64), since_clear ops = repeat c (S n) -> fits (since_clear ops) ->
     let s := run (cvar_push b64num) (cvar_clear b64num) (cvar_init b64num) ops in
     same (cvar_mean b64num s) (b64_real c) /\ same (cvar_variance b64num s) 0) /\
  (forall ops : list (op b64), since_clear ops = repeat c (S n) ->
     let s := run (wvar_push b64num W) (wvar_clear b64num) (wvar_init b64num) ops in
     same (wvar_mean b64num s) (b64_real c) /\ same (wvar_variance b64num s) 0) /\
  (forall ops : list (op (b64 * b64)), since_clear ops = repeat (c, d) (S n) -> fits (since_clear ops) ->
     let s := run (ccov_push b64num) (ccov_clear b64num) (ccov_init b64num) ops in
     same (ccov_variance b64num s) 0).
Proof.
  intros W c d n Hc Hd HW HW64 same.
  pose proof (b_first c Hc) as P1. pose proof (b_again c Hc) as P2. pose proof (b_replace c Hc) as P3.
  pose proof b_init as P4. pose proof (b_diff c Hc) as P5.
  assert (P6 : isf (@nsub b64num c n0)) by (apply (b_cfin c), b_sub_0; exact Hc).
  assert (P6' : isf (@nsub b64num d n0)) by (apply (b_cfin d), b_sub_0; exact Hd).
  pose proof b_fin as P7. pose proof b_zadd as P8. pose proof b_zdiv as P9.
  pose proof b_zsub as P10. pose proof b_max as P11. pose proof b_zadd' as P12.
  split; [|split].
  - intros ops HS Hf s. unfold fits in Hf. rewrite HS, repeat_length in Hf.
    assert (Es : s = fold_left (cvar_push b64num) (repeat c (S n)) (cvar_init b64num)).
    { unfold s. etransitivity; [apply (run_since_clear _ _ _ (cvar_clear_init b64num))|].
      exact (f_equal (fun l => fold_left (cvar_push b64num) l (cvar_init b64num)) HS). }
    rewrite Es. split.
    + unfold cvar_mean, cmean_mean. rewrite cvar_fold_super.
      apply (cmean_const b64num c (isc c)); assumption.
    + apply (cvar_const_variance b64num c (isc c) is0 isf); assumption.
  - intros ops HS s.
    assert (Es : s = fold_left (wvar_push b64num W) (repeat c (S n)) (wvar_init b64num)).
    { unfold s. etransitivity; [apply (run_since_clear _ _ _ (wvar_clear_init b64num))|].
      exact (f_equal (fun l => fold_left (wvar_push b64num W) l (wvar_init b64num)) HS). }
    rewrite Es. split.
    + unfold wvar_mean, wmean_mean. rewrite (wvar_fold_super b64num W HW).
      apply (wmean_const b64num c (isc c)); assumption.
    + apply (wvar_const_variance b64num c (isc c) is0 isf); assumption.
  - intros ops HS Hf s. unfold fits in Hf. rewrite HS, repeat_length in Hf.
    assert (Es : s = fold_left (ccov_push b64num) (repeat (c, d) (S n)) (ccov_init b64num)).
    { unfold s. etransitivity; [apply (run_since_clear _ _ _ (ccov_clear_init b64num))|].
      exact (f_equal (fun l => fold_left (ccov_push b64num) l (ccov_init b64num)) HS). }
    rewrite Es. apply (ccov_const_variance b64num c d (isc c) (isc d) is0 isf); try assumption.
    + apply b_first; exact Hd.
    + apply b_again; exact Hd.
    + apply b_diff; exact Hd.
Qed.

(** @ex C13_binary64_ex: the largest double, three times, window of two. *)
Lemma c13_binary64_ex :
  let big := S754_finite false 9007199254740991 971 in
  b64_finite big /\ since_clear (pushes [big; big; big]) = repeat big 3 /\
  wvar_mean b64num (run (wvar_push b64num 2) (wvar_clear b64num) (wvar_init b64num)
                      (pushes [big; big; big])) = big.
Proof. vm_compute. repeat split. Qed.

(** @prop C13_window_covariance_refuted: window covariance is computed from
    running sums of products and is not exact on a constant stream: three times
    the pair (1/10, 1/10) in a window of four gives a covariance below zero. *)
Lemma c13_window_covariance_refuted : exists (W : nat) (c : b64) (n : nat),
  b64_finite c /\ (n <= W)%nat /\
  SFltb (wcov_variance b64num (run (wcov_push b64num W) (wcov_clear b64num) (wcov_init b64num)
                                 (pushes (repeat (c, c) n)))) (S754_zero false) = true.
Proof.
  exists 4%nat, (@ndiv b64num (b64_of_Z 1) (b64_of_Z 10)), 3%nat.
  split; [split; reflexivity|]. split; [lia|]. vm_compute. reflexivity.
Qed.

(** @ex C13_window_covariance_refuted_ex: with a fourth push of the same pair
    the error happens to vanish. *)
Lemma c13_window_covariance_refuted_ex :
  let c := @ndiv b64num (b64_of_Z 1) (b64_of_Z 10) in
  SFeqb (wcov_variance b64num (run (wcov_push b64num 4) (wcov_clear b64num) (wcov_init b64num)
                                 (pushes (repeat (c, c) 4)))) (S754_zero false) = true.
Proof. vm_compute. reflexivity. Qed.
