(** * The mixed arithmetic of [Mixed.v] as rounded real arithmetic *)

From Coq Require Import Reals ZArith NArith List Bool Lia Lra.
From Coq Require Import Floats.SpecFloat.
From Flocq Require Import Core.
From Flocq Require Import IEEE754.BinarySingleNaN.
From Verif Require Import Arith History Ieee Cumulative Mixed Approx ApproxInstances IeeeProofs HistoryLemmas CumulativeProofs.
Import ListNotations.
Local Open Scope R_scope.

Section Convert.
Variables prec emax : Z.
Hypothesis Hp : (1 < prec)%Z.
Hypothesis Hm : (prec < emax)%Z.

Lemma convert_real x : is_finite_SF x = true -> in_range emax (rndf prec emax (ieee_real x)) ->
  fdenotes prec emax (convert prec emax x) (rndf prec emax (ieee_real x)).
Proof.
  intros Fx HR. destruct x as [s|s| |s m e]; try discriminate.
  - assert (E : ieee_real (S754_zero s) = 0) by reflexivity. rewrite E, rnd_0. repeat split.
  - cbn [convert]. unfold fdenotes. rewrite (bn_equiv prec emax Hp Hm), B_finite, B_real.
    pose proof (binary_normalize_correct prec emax (Hprec prec Hp) (Hmax prec emax Hm) mode_NE (if s then Zneg m else Zpos m) e s) as C. cbv zeta in C.
    assert (E : F2R (Float radix2 (if s then Zneg m else Zpos m) e) = ieee_real (S754_finite s m e)) by (destruct s; reflexivity).
    rewrite E in C. rewrite Rlt_bool_true in C by exact HR. destruct C as (C1 & C2 & _). split; [exact C2|exact C1].
Qed.
End Convert.

Section Widen.
Variables prec emax : Z.
Hypothesis Hp : (1 < prec)%Z.
Hypothesis Hm : (prec < emax)%Z.
Hypothesis Hw : (prec <= 53)%Z.
Hypothesis Hv : (emax <= 1024)%Z.

Lemma widen_exact x : ieee_finite prec emax x -> fdenotes 53 1024 (convert 53 1024 x) (ieee_real x).
Proof.
  intros Fx. pose proof (fr_rep prec emax x Fx) as Rx. pose proof (fr_bound prec emax x Fx) as Bx.
  assert (R2 : repf 53 1024 (ieee_real x)).
  { unfold repf in *. apply (generic_inclusion_mag radix2 (FLT_exp (3 - emax - prec) prec)); [|exact Rx].
    intros _. unfold FLT_exp. lia. }
  assert (E : rndf 53 1024 (ieee_real x) = ieee_real x) by (apply rnd_rep; exact R2).
  rewrite <- E. apply convert_real; [lia|lia|apply Fx|]. rewrite E. unfold in_range.
  eapply Rlt_le_trans; [exact Bx|apply bpow_le; exact Hv].
Qed.

(** The number an expression stands for. *)
Definition mval (x : cval) (r : R) : Prop :=
  match x with
  | OfT x => fdenotes prec emax x r
  | OfDouble x => fdenotes 53 1024 x r
  | OfSize n => fdenotes prec emax (ieee_of_Z prec emax (Z.of_N n)) r /\ fdenotes 53 1024 (ieee_of_Z 53 1024 (Z.of_N n)) r
  end.

Lemma as_double_val x r : mval x r -> fdenotes 53 1024 (as_double x) r.
Proof.
  destruct x as [x|x|n]; cbn; [|tauto|tauto]. intros [Fx <-]. apply widen_exact. exact Fx.
Qed.

Lemma as_T_val x y r : (prec < 53)%Z -> in_double prec x y = false -> mval x r -> fdenotes prec emax (as_T prec emax x) r.
Proof.
  intros H D. destruct x as [x|x|n]; cbn; try tauto. cbn in D. apply Z.ltb_ge in D. lia.
Qed.

Lemma in_double_sym x y : in_double prec x y = in_double prec y x.
Proof. destruct x, y; reflexivity. Qed.

Lemma near_weaken x r : (prec < 53)%Z -> near (bpow radix2 (- 53)) (bpow radix2 (2 - 1024 - 53)) x r ->
  near (bpow radix2 (- prec)) (bpow radix2 (2 - emax - prec)) x r.
Proof.
  intros H N. unfold near in *. eapply Rle_trans; [exact N|].
  apply Rplus_le_compat; [apply Rmult_le_compat_r; [apply Rabs_pos|]|]; apply bpow_le; lia.
Qed.

Lemma big_le x : Rabs x <= bpow radix2 (emax - 1) -> Rabs x <= bpow radix2 (1024 - 1).
Proof. intros H. eapply Rle_trans; [exact H|]. apply bpow_le. lia. Qed.

Hypothesis Hs : (prec < 53)%Z.

Lemma approx_mixed : approx (mixed prec emax) mval (bpow radix2 (emax - 1)) (bpow radix2 (- prec)) (bpow radix2 (2 - emax - prec)) (Z.to_N (2 ^ prec)).
Proof.
  pose proof (approx_ieee prec emax Hp Hm) as AT. pose proof (approx_ieee 53 1024 ltac:(lia) ltac:(lia)) as AD.
  assert (P53 : (2 ^ prec <= 2 ^ 53)%Z) by (apply Z.pow_le_mono_r; lia).
  constructor.
  - apply (ap_e _ _ _ _ _ _ AT).
  - apply (ap_t _ _ _ _ _ _ AT).
  - apply (ap_0 _ _ _ _ _ _ AT).
  - apply (ap_1 _ _ _ _ _ _ AT).
  - intros k Hk. split; [apply (ap_count _ _ _ _ _ _ AT); exact Hk|apply (ap_count _ _ _ _ _ _ AD); lia].
  - intros x y a b Vx Vy H. cbn [nadd mixed]. unfold lift. destruct (in_double prec x y) eqn:D.
    + destruct (ap_add _ _ _ _ _ _ AD _ _ _ _ (as_double_val _ _ Vx) (as_double_val _ _ Vy) (big_le _ H)) as (r & Vr & Nr).
      exists r. split; [exact Vr|apply near_weaken; assumption].
    + pose proof D as D'. rewrite in_double_sym in D'.
      exact (ap_add _ _ _ _ _ _ AT _ _ _ _ (as_T_val _ _ _ Hs D Vx) (as_T_val _ _ _ Hs D' Vy) H).
  - intros x y a b Vx Vy H. cbn [nsub mixed]. unfold lift. destruct (in_double prec x y) eqn:D.
    + destruct (ap_sub _ _ _ _ _ _ AD _ _ _ _ (as_double_val _ _ Vx) (as_double_val _ _ Vy) (big_le _ H)) as (r & Vr & Nr).
      exists r. split; [exact Vr|apply near_weaken; assumption].
    + pose proof D as D'. rewrite in_double_sym in D'.
      exact (ap_sub _ _ _ _ _ _ AT _ _ _ _ (as_T_val _ _ _ Hs D Vx) (as_T_val _ _ _ Hs D' Vy) H).
  - intros x y a b Vx Vy H. cbn [nmul mixed]. unfold lift. destruct (in_double prec x y) eqn:D.
    + destruct (ap_mul _ _ _ _ _ _ AD _ _ _ _ (as_double_val _ _ Vx) (as_double_val _ _ Vy) (big_le _ H)) as (r & Vr & Nr).
      exists r. split; [exact Vr|apply near_weaken; assumption].
    + pose proof D as D'. rewrite in_double_sym in D'.
      exact (ap_mul _ _ _ _ _ _ AT _ _ _ _ (as_T_val _ _ _ Hs D Vx) (as_T_val _ _ _ Hs D' Vy) H).
  - intros x y a b Vx Vy NZ H. cbn [ndiv mixed]. unfold lift. destruct (in_double prec x y) eqn:D.
    + destruct (ap_div _ _ _ _ _ _ AD _ _ _ _ (as_double_val _ _ Vx) (as_double_val _ _ Vy) NZ (big_le _ H)) as (r & Vr & Nr).
      exists r. split; [exact Vr|apply near_weaken; assumption].
    + pose proof D as D'. rewrite in_double_sym in D'.
      exact (ap_div _ _ _ _ _ _ AT _ _ _ _ (as_T_val _ _ _ Hs D Vx) (as_T_val _ _ _ Hs D' Vy) NZ H).
  - intros x y a b Vx Vy. cbn [nlt mixed]. unfold liftb. destruct (in_double prec x y) eqn:D.
    + exact (ap_lt _ _ _ _ _ _ AD _ _ _ _ (as_double_val _ _ Vx) (as_double_val _ _ Vy)).
    + pose proof D as D'. rewrite in_double_sym in D'.
      exact (ap_lt _ _ _ _ _ _ AT _ _ _ _ (as_T_val _ _ _ Hs D Vx) (as_T_val _ _ _ Hs D' Vy)).
Qed.

Lemma mixed_sqrt (x : mixed prec emax) a : mval x a -> 0 <= a ->
  exists r, mval (nsqrt x) r /\ near (bpow radix2 (- prec)) (bpow radix2 (2 - emax - prec)) (sqrt a) r.
Proof.
  intros Vx H. assert (G : exists r, mval (OfDouble (SFsqrt 53 1024 (as_double x))) r /\ near (bpow radix2 (- prec)) (bpow radix2 (2 - emax - prec)) (sqrt a) r).
  { destruct (as_double_val _ _ Vx) as [Fd Ed]. rewrite <- Ed in H. destruct (sqrt_real 53 1024 ltac:(lia) ltac:(lia) _ Fd H) as [F1 E1].
    exists (rndf 53 1024 (sqrt (ieee_real (as_double x)))). split; [split; [exact F1|exact E1]|]. rewrite Ed. apply near_weaken; [exact Hs|].
    apply (rounding_nearest (-1074) 53); lia. }
  destruct x as [x|x|n]; [|exact G|exact G].
  destruct Vx as [Fx Ex]. subst a. destruct (sqrt_real prec emax Hp Hm x Fx H) as [F1 E1].
  exists (rndf prec emax (sqrt (ieee_real x))). split; [split; [exact F1|exact E1]|].
  replace (2 - emax - prec)%Z with ((3 - emax - prec) - 1)%Z by lia. apply (rounding_nearest (3 - emax - prec) prec); lia.
Qed.

(** Conversion of the result to T *)
Lemma as_T_near x a : mval x a -> Rabs a <= bpow radix2 (emax - 1) ->
  exists r, fdenotes prec emax (as_T prec emax x) r /\ near (bpow radix2 (- prec)) (bpow radix2 (2 - emax - prec)) a r.
Proof.
  intros Vx H. assert (N0 : near (bpow radix2 (- prec)) (bpow radix2 (2 - emax - prec)) a a).
  { unfold near. rewrite Rminus_eq_0, Rabs_R0. pose proof (bpow_ge_0 radix2 (- prec)). pose proof (bpow_ge_0 radix2 (2 - emax - prec)).
    pose proof (Rabs_pos a). assert (0 <= bpow radix2 (- prec) * Rabs a) by (apply Rmult_le_pos; assumption). lra. }
  destruct x as [x|x|n]; cbn in Vx.
  - exists a. split; [exact Vx|exact N0].
  - destruct Vx as [Fx Ex]. subst a. exists (rndf prec emax (ieee_real x)). split.
    + apply convert_real; [exact Hp|exact Hm|apply Fx|]. apply rnd_range; assumption.
    + replace (2 - emax - prec)%Z with ((3 - emax - prec) - 1)%Z by lia. apply (rounding_nearest (3 - emax - prec) prec); lia.
  - exists a. split; [apply Vx|exact N0].
Qed.
End Widen.

(** ** The state is that of T *)
Section State.
Variables prec emax : Z.
Local Notation T := (ieee prec emax).
Local Notation X := (mixed prec emax).

(** A state of the filters of T as a state of the mixed arithmetic. *)
Definition emb_mean (s : cmean T) : cmean X := CMean X (OfT (cm_mean T s)) (cm_count T s).
Definition emb_var (s : cvar T) : cvar X := CVar X (emb_mean (cv_super T s)) (OfT (cv_sum T s)).
Definition emb_skew (s : cskew T) : cskew X := CSkew X (emb_var (cs_super T s)) (OfT (cs_sum T s)).
Definition emb_kurt (s : ckurt T) : ckurt X := CKurt X (emb_skew (ck_super T s)) (OfT (ck_sum T s)).

Lemma push_skew s x : cskew_push X (emb_skew s) (OfT x) = emb_skew (cskew_push T s x).
Proof. reflexivity. Qed.
Lemma push_kurt s x : ckurt_push X (emb_kurt s) (OfT x) = emb_kurt (ckurt_push T s x).
Proof. reflexivity. Qed.

Lemma run_skew (ops : list (op spec_float)) :
  run (cskew_push X) (cskew_clear X) (cskew_init X) (map (op_map OfT) ops) = emb_skew (run (cskew_push T) (cskew_clear T) (cskew_init T) ops).
Proof.
  unfold run. change (cskew_init X) with (emb_skew (cskew_init T)). generalize (cskew_init T). induction ops as [|o ops IH]; intros s; [reflexivity|].
  cbn [map fold_left]. destruct o as [x|]; cbn [op_map]; rewrite <- IH; reflexivity.
Qed.
Lemma run_kurt (ops : list (op spec_float)) :
  run (ckurt_push X) (ckurt_clear X) (ckurt_init X) (map (op_map OfT) ops) = emb_kurt (run (ckurt_push T) (ckurt_clear T) (ckurt_init T) ops).
Proof.
  unfold run. change (ckurt_init X) with (emb_kurt (ckurt_init T)). generalize (ckurt_init T). induction ops as [|o ops IH]; intros s; [reflexivity|].
  cbn [map fold_left]. destruct o as [x|]; cbn [op_map]; rewrite <- IH; reflexivity.
Qed.
End State.
