(** * Proofs about close_to *)

From Coq Require Import Reals ZArith NArith Bool Lia Lra.
From Coq Require Import Floats.SpecFloat.
From Flocq Require Import Core.
From Flocq Require Import IEEE754.BinarySingleNaN.
From Verif Require Import Arith CloseTo Binary64 HistoryLemmas.
Local Open Scope R_scope.

(** ** Exact arithmetic *)

Lemma xmax_exact rnd eps tiny a b :
  @nmax (xnum rnd eps tiny) (Fin a) (Fin b) = Fin (Rmax a b).
Proof.
  unfold nmax. cbn. destruct (Rlt_bool_spec a b) as [H|H].
  - rewrite Rmax_right by lra. reflexivity.
  - rewrite Rmax_left by lra. reflexivity.
Qed.

Lemma close_to_exact eps r a x y :
  close_to (n := exact eps) (Closeness (n := exact eps) (Fin r) (Fin a)) (Fin x) (Fin y) =
  Rlt_bool (Rabs (x - y)) (Rmax (r * Rmax (Rabs x) (Rabs y)) a).
Proof.
  unfold close_to. cbn [ct_relative ct_absolute]. unfold exact.
  change (@nabs (xnum (fun x0 => x0) eps eps)) with xabs. cbn [xabs].
  rewrite xmax_exact.
  change (@nmul (xnum (fun x0 => x0) eps eps)) with (xlift2 (fun x0 => x0) Rmult). cbn [xlift2].
  rewrite xmax_exact. reflexivity.
Qed.

(** ** Binary64 *)

Lemma SFabs_round s1 s2 m e :
  SFabs (SpecFloat.binary_round 53 1024 s1 m e) = SFabs (SpecFloat.binary_round 53 1024 s2 m e).
Proof.
  unfold SpecFloat.binary_round. destruct (shl_align _ _ _) as [mz ez].
  unfold SpecFloat.binary_round_aux.
  destruct (shr_fexp _ _ _ _ _) as [mrs e1].
  destruct (shr_fexp _ _ _ _ _) as [mrs' e2].
  destruct (shr_m mrs'); try reflexivity. destruct (e2 <=? 1024 - 53)%Z; reflexivity.
Qed.

Lemma SFabs_normalize z e b1 b2 :
  SFabs (SpecFloat.binary_normalize 53 1024 (- z) e b1) =
  SFabs (SpecFloat.binary_normalize 53 1024 z e b2).
Proof. destruct z as [|p|p]; cbn [Z.opp SpecFloat.binary_normalize]; [reflexivity|apply SFabs_round..]. Qed.

Lemma SFsub_swap x y : SFabs (SFsub 53 1024 x y) = SFabs (SFsub 53 1024 y x).
Proof.
  destruct x as [[]|[]| |sx mx ex], y as [[]|[]| |sy my ey]; try reflexivity.
  cbn [SFsub]. rewrite (Z.min_comm ey ex).
  rewrite <- (SFabs_normalize _ _ false false). f_equal. f_equal. lia.
Qed.

Lemma compare_eq x y : SFcompare (SFabs x) (SFabs y) = Some Eq -> SFabs x = SFabs y.
Proof.
  destruct x as [sx|sx| |sx mx ex], y as [sy|sy| |sy my ey]; cbn; try discriminate; try reflexivity.
  destruct (Z.compare_spec ex ey) as [->|H|H]; try discriminate.
  intros H. change (Pos.compare_cont Eq mx my) with (Pos.compare mx my) in H.
  destruct (Pos.compare_spec mx my) as [->|H'|H']; try discriminate. reflexivity.
Qed.

Lemma compare_swap_abs x y :
  SFcompare (SFabs x) (SFabs y) = option_map CompOpp (SFcompare (SFabs y) (SFabs x)).
Proof.
  destruct x as [sx|sx| |sx mx ex], y as [sy|sy| |sy my ey]; cbn; try reflexivity.
  rewrite (Z.compare_antisym ey ex). destruct (ey ?= ex)%Z; cbn; try reflexivity.
  change (Pos.compare_cont Eq) with Pos.compare. rewrite (Pos.compare_antisym my mx). reflexivity.
Qed.

Lemma nmax_swap x y :
  SFcompare (SFabs x) (SFabs y) <> None ->
  @nmax b64num (SFabs x) (SFabs y) = @nmax b64num (SFabs y) (SFabs x).
Proof.
  intros H. unfold nmax. cbn. unfold SFltb.
  pose proof (compare_swap_abs x y) as S. pose proof (compare_eq x y) as E.
  destruct (SFcompare (SFabs x) (SFabs y)) as [[]|]; destruct (SFcompare (SFabs y) (SFabs x)) as [[]|];
    try discriminate S; try reflexivity; try congruence.
  apply E. reflexivity.
Qed.

Lemma ltb_nan_l y : SFltb S754_nan y = false.
Proof. reflexivity. Qed.

Lemma sub_nan_l y : SFsub 53 1024 S754_nan y = S754_nan.
Proof. destruct y; reflexivity. Qed.
Lemma sub_nan_r x : SFsub 53 1024 x S754_nan = S754_nan.
Proof. destruct x; reflexivity. Qed.

Lemma compare_none x y : SFcompare (SFabs x) (SFabs y) = None -> x = S754_nan \/ y = S754_nan.
Proof.
  destruct x as [sx|sx| |sx mx ex], y as [sy|sy| |sy my ey]; cbn; try discriminate; auto.
Qed.

Lemma close_to_sym64 (t : closeness b64num) x y : close_to t x y = close_to t y x.
Proof.
  unfold close_to. cbn -[SFsub SFmul nmax]. rewrite (SFsub_swap x y).
  destruct (SFcompare (SFabs x) (SFabs y)) as [c|] eqn:E.
  - rewrite (nmax_swap x y) by congruence. reflexivity.
  - destruct (compare_none x y E) as [-> | ->].
    + rewrite sub_nan_r. reflexivity.
    + rewrite sub_nan_l. reflexivity.
Qed.

Lemma ltb_inf z s : SFltb (SFabs (S754_infinity s)) z = false.
Proof. destruct z as [s'|[]| |s' m e]; reflexivity. Qed.

Lemma close_to_nonfinite64 (t : closeness b64num) x y :
  is_finite_SF x = false -> close_to t x y = false.
Proof.
  intros H. unfold close_to. change (@nlt b64num) with SFltb. change (@nabs b64num) with SFabs.
  change (@nsub b64num) with (SFsub 53 1024).
  destruct x as [sx|sx| |sx mx ex]; try discriminate.
  - destruct y as [sy|sy| |sy my ey]; try (apply ltb_inf).
    + cbn [SFsub]. destruct (Bool.eqb sx (negb sy)); [apply ltb_inf|reflexivity].
    + reflexivity.
  - rewrite sub_nan_l. reflexivity.
Qed.

Lemma nmax_real a b : b64_finite a -> b64_finite b ->
  b64_finite (@nmax b64num a b) /\ b64_real (@nmax b64num a b) = Rmax (b64_real a) (b64_real b).
Proof.
  intros Ha Hb. unfold nmax. change (@nlt b64num) with SFltb. rewrite ltb_real by assumption.
  destruct (Rlt_bool_spec (b64_real a) (b64_real b)) as [H|H].
  - split; [exact Hb|]. rewrite Rmax_right; lra.
  - split; [exact Ha|]. rewrite Rmax_left; lra.
Qed.

Lemma in_range_dec r : in_range r \/ ~ in_range r.
Proof. unfold in_range. destruct (Rlt_dec (Rabs r) (bpow radix2 1024)); auto. Qed.


Lemma rabs_max_nonneg x y : 0 <= Rmax (Rabs x) (Rabs y).
Proof. apply Rle_trans with (Rabs x); [apply Rabs_pos|apply Rmax_l]. Qed.

(** The largest magnitude, as a double. *)
Lemma magnitude_real x y : b64_finite x -> b64_finite y ->
  b64_finite (@nmax b64num (SFabs x) (SFabs y)) /\
  b64_real (@nmax b64num (SFabs x) (SFabs y)) = Rmax (Rabs (b64_real x)) (Rabs (b64_real y)).
Proof.
  intros Hx Hy. destruct (abs_real x Hx) as (Fx & Rx), (abs_real y Hy) as (Fy & Ry).
  destruct (nmax_real _ _ Fx Fy) as (F & R). rewrite Rx, Ry in R. auto.
Qed.

(** The tolerance computed by the code: the rounded relative tolerance, or the
    absolute one if larger; or infinity when the product overflows. *)
Lemma tolerance_real r a m :
  b64_finite r -> b64_finite a -> b64_finite m -> 0 <= b64_real r -> 0 <= b64_real m ->
  let p := rnd64 (b64_real r * b64_real m) in
  (in_range p /\ b64_finite (@nmax b64num (SFmul 53 1024 r m) a) /\
   b64_real (@nmax b64num (SFmul 53 1024 r m) a) = Rmax p (b64_real a)) \/
  (~ in_range p /\ @nmax b64num (SFmul 53 1024 r m) a = S754_infinity false).
Proof.
  intros Hr Ha Hm Pr Pm p. destruct (in_range_dec p) as [I|I].
  - left. split; [exact I|]. destruct (mul_real r m Hr Hm I) as (F & R).
    destruct (nmax_real _ _ F Ha) as (F' & R'). rewrite R in R'. auto.
  - right. split; [exact I|]. rewrite mul_overflow by assumption.
    assert (NZ : b64_real r * b64_real m <> 0).
    { intros E. apply I. unfold p. rewrite E, rnd64_0. unfold in_range. rewrite Rabs_R0. apply bpow_gt_0. }
    rewrite (sign_real r Hr), (sign_real m Hm).
    + cbn [xorb]. unfold nmax. change (@nlt b64num) with SFltb.
      rewrite (ltb_inf a false : SFltb (S754_infinity false) a = false). reflexivity.
    + destruct Pm as [Pm|Pm]; [exact Pm|]. rewrite <- Pm in NZ. lra.
    + destruct Pr as [Pr|Pr]; [exact Pr|]. rewrite <- Pr in NZ. lra.
Qed.

Lemma rnd64_nonneg x : 0 <= x -> 0 <= rnd64 x.
Proof. intros H. rewrite <- rnd64_0. apply rnd64_le. exact H. Qed.

Lemma ltb_pinf x : b64_finite x -> SFltb x (S754_infinity false) = true.
Proof. intros [_ F]. destruct x; try discriminate; reflexivity. Qed.

(** What the code decides, for finite values and tolerances. *)
Lemma close_to_real64 r a x y :
  b64_finite r -> b64_finite a -> b64_finite x -> b64_finite y -> 0 <= b64_real r ->
  let d := rnd64 (Rabs (b64_real x - b64_real y)) in
  let p := rnd64 (b64_real r * Rmax (Rabs (b64_real x)) (Rabs (b64_real y))) in
  close_to (n := b64num) (Closeness (n := b64num) r a) x y = true <->
  in_range d /\ (d < p \/ d < b64_real a).
Proof.
  intros Hr Ha Hx Hy Pr d p. unfold close_to. cbn [ct_relative ct_absolute].
  change (@nlt b64num) with SFltb. change (@nabs b64num) with SFabs.
  change (@nsub b64num) with (SFsub 53 1024). change (@nmul b64num) with (SFmul 53 1024).
  destruct (magnitude_real x y Hx Hy) as (Fm & Rm).
  assert (D : d = Rabs (rnd64 (b64_real x - b64_real y))) by (unfold d; apply rnd64_abs).
  destruct (in_range_dec (rnd64 (b64_real x - b64_real y))) as [I|I].
  - assert (I' : in_range d). { unfold in_range in *. rewrite D, Rabs_Rabsolu. exact I. }
    destruct (sub_real x y Hx Hy I) as (Fs & Rs).
    destruct (abs_real _ Fs) as (Fd & Rd). rewrite Rs, <- D in Rd.
    pose proof (tolerance_real r a _ Hr Ha Fm Pr) as T. rewrite Rm in T.
    specialize (T (rabs_max_nonneg _ _)). cbv zeta in T. fold p in T.
    destruct T as [(Ip & Ft & Rt)|(Ip & ->)].
    + rewrite ltb_real, Rd, Rt by assumption.
      destruct (Rlt_bool_spec d (Rmax p (b64_real a))) as [H|H].
      * split; [|reflexivity]. intros _. split; [exact I'|].
        unfold Rmax in H. destruct (Rle_dec p (b64_real a)); auto.
      * split; [discriminate|]. intros (_ & [H'|H']); exfalso.
        -- pose proof (Rmax_l p (b64_real a)). lra.
        -- pose proof (Rmax_r p (b64_real a)). lra.
    + rewrite ltb_pinf by exact Fd. split; [|reflexivity]. intros _. split; [exact I'|].
      left. unfold in_range in Ip, I'. apply Rnot_lt_le in Ip.
      assert (P0 : 0 <= p). { apply rnd64_nonneg. apply Rmult_le_pos; [exact Pr|apply rabs_max_nonneg]. }
      rewrite Rabs_pos_eq in Ip by exact P0.
      assert (D0 : 0 <= d) by (rewrite D; apply Rabs_pos).
      rewrite Rabs_pos_eq in I' by exact D0. lra.
  - destruct (sub_overflow x y Hx Hy I) as (s & ->). rewrite ltb_inf.
    split; [discriminate|]. intros (I' & _). exfalso. apply I.
    unfold in_range in *. rewrite D, Rabs_Rabsolu in I'. exact I'.
Qed.
