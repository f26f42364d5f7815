(** * The fused multiply-add of an IEEE format rounds once *)

From Coq Require Import Reals ZArith NArith Bool Lia Lra.
From Coq Require Import Floats.SpecFloat.
From Flocq Require Import Core.
From Flocq Require Import IEEE754.BinarySingleNaN.
From Verif Require Import Arith Ieee Contracted IeeeProofs IeeeFused History HistoryLemmas Cumulative CumulativeProofs
  Rounded RoundedProofs Approx ApproxInstances SpecOrder CorrectRounding IeeeSign.
From Coq Require Import List.
Import ListNotations.

Lemma cvar_fma_fold_super (F : num) (U : fused F) l s :
  cv_super F (fold_left (cvar_push_fma F U) l s) = fold_left (cmean_push F) l (cv_super F s).
Proof. revert s. induction l as [|x l IH]; intros s; [reflexivity|]. cbn [fold_left]. rewrite IH. reflexivity. Qed.

Section Proofs.
Local Open Scope R_scope.
Variables prec emax : Z.
Hypothesis Hp : (1 < prec)%Z.
Hypothesis Hm : (prec < emax)%Z.
Notation rndf := (rndf prec emax).

Lemma parts_real x : is_finite_SF x = true -> ieee_real x = IZR (fst (sf_parts x)) * bpow radix2 (snd (sf_parts x)).
Proof.
  destruct x as [s|s| |s m e]; try discriminate; intros _; cbn [sf_parts fst snd]; [cbn; ring|reflexivity].
Qed.

Lemma normalize_denotes m e z : Rabs (IZR m * bpow radix2 e) <= bpow radix2 (emax - 1) ->
  fdenotes prec emax (SpecFloat.binary_normalize prec emax m e z) (rndf (IZR m * bpow radix2 e)).
Proof.
  intros H. pose proof (rnd_range prec emax Hp Hm _ H) as HR.
  unfold fdenotes. rewrite (bn_equiv prec emax Hp Hm), (B_finite prec emax), (B_real prec emax).
  pose proof (binary_normalize_correct prec emax (Hprec prec Hp) (Hmax prec emax Hm) mode_NE m e z) as C. cbv zeta in C.
  change (F2R (Float radix2 m e)) with (IZR m * bpow radix2 e) in C.
  rewrite Rlt_bool_true in C by exact HR. destruct C as (C1 & C2 & _).
  split; [exact C2|exact C1].
Qed.

Lemma fma_normal x y z : ieee_finite prec emax x -> ieee_finite prec emax y -> ieee_finite prec emax z ->
  exists m e s, ieee_fma prec emax x y z = SpecFloat.binary_normalize prec emax m e s /\
    ieee_real x * ieee_real y + ieee_real z = IZR m * bpow radix2 e.
Proof.
  intros [_ Fx] [_ Fy] [_ Fz].
  rewrite (parts_real x Fx), (parts_real y Fy), (parts_real z Fz).
  assert (E : ieee_fma prec emax x y z =
    let (mx, ex) := sf_parts x in let (my, ey) := sf_parts y in let (mz, ez) := sf_parts z in
    let e := Z.min (ex + ey) ez in
    SpecFloat.binary_normalize prec emax (mx * my * 2 ^ (ex + ey - e) + mz * 2 ^ (ez - e))%Z e
      (if Bool.eqb (xorb (sf_sign x) (sf_sign y)) (sf_sign z) then xorb (sf_sign x) (sf_sign y) else false)).
  { destruct x; try discriminate; destruct y; try discriminate; destruct z; try discriminate; reflexivity. }
  rewrite E. destruct (sf_parts x) as [mx ex], (sf_parts y) as [my ey], (sf_parts z) as [mz ez]. cbn [fst snd].
  cbv zeta. set (e := Z.min (ex + ey) ez). do 3 eexists. split; [reflexivity|].
  assert (P : forall k, (0 <= k)%Z -> IZR (2 ^ k) = bpow radix2 k).
  { intros k Hk. change (2 ^ k)%Z with (radix2 ^ k)%Z. apply IZR_Zpower. exact Hk. }
  rewrite plus_IZR, !mult_IZR, !P by (unfold e; lia).
  rewrite Rmult_plus_distr_r, !Rmult_assoc, <- !bpow_plus.
  replace (ex + ey - e + e)%Z with (ex + ey)%Z by ring. replace (ez - e + e)%Z with ez by ring.
  rewrite bpow_plus. ring.
Qed.

Lemma denotes_fma x y z a b c : fdenotes prec emax x a -> fdenotes prec emax y b -> fdenotes prec emax z c ->
  Rabs (a * b + c) <= bpow radix2 (emax - 1) ->
  fdenotes prec emax (ieee_fma prec emax x y z) (rndf (a * b + c)).
Proof.
  intros [Fx <-] [Fy <-] [Fz <-]. destruct (fma_normal x y z Fx Fy Fz) as (m & e & s & -> & ->).
  apply normalize_denotes.
Qed.
End Proofs.

Section Format.
Local Open Scope R_scope.
Variables prec emax : Z.
Hypothesis Hp : (1 < prec)%Z.
Hypothesis Hm : (prec < emax)%Z.
(** Every size_t is in range. *)
Hypothesis H65 : (65 <= emax)%Z.
Local Notation Hprec := (IeeeProofs.Hprec prec Hp).
Local Notation Hmax := (IeeeProofs.Hmax prec emax Hm).
Local Instance precf : FLX.Prec_gt_0 prec := Hprec.
Local Notation emin := (3 - emax - prec)%Z.
Local Notation fexp := (FLT_exp emin prec).
Local Instance vexpf : Valid_exp fexp. Proof. apply FLT_exp_valid. exact Hprec. Qed.
Local Instance mexpf : Monotone_exp fexp. Proof. apply FLT_exp_monotone. Qed.
Local Instance validf : Valid_rnd ZnearestE := valid_rnd_N _.
Local Notation FN := (ieee prec emax).
Local Notation FF := (rounded emin prec ZnearestE).
Local Notation rndf := (rndf prec emax).
Local Notation repf := (repf prec emax).
Local Notation in_range := (in_range emax).
Local Notation of_Z_small := (of_Z_small prec emax Hp Hm).
Local Notation of_Z_real := (of_Z_real prec emax Hp Hm).
Local Notation add_real := (add_real prec emax Hp Hm).
Local Notation sub_real := (sub_real prec emax Hp Hm).
Local Notation mul_real := (mul_real prec emax Hp Hm).
Local Notation div_real := (div_real prec emax Hp Hm).
Local Notation leb_real := (leb_real prec emax).
Local Notation ltb_real := (ltb_real prec emax).
Local Notation rnd_le := (rnd_le prec emax Hp).
Local Notation rnd_rep := (rnd_rep prec emax).
Local Notation rnd_0 := (rnd_0 prec emax).
Local Notation rnd_abs := (rnd_abs prec emax Hp).
Local Notation fr_rep := (fr_rep prec emax).
Local Notation fr_bound := (fr_bound prec emax).
Local Notation repf_bpow := (repf_bpow prec emax Hp).
Local Notation ff_B := (ff_B prec emax).
Local Notation nonneg_f := (IeeeSign.nonneg_f prec emax).
Local Notation in_range_dec := (IeeeSign.in_range_dec emax).
Local Notation rnd_posf := (IeeeSign.rnd_posf prec emax Hp).
Local Notation okl := (IeeeSign.okl prec emax).
Local Notation half_range := (IeeeSign.half_range emax).
Local Notation cmean_f := (IeeeSign.cmean_f prec emax Hp Hm H65).
Local Notation denotes_sub := (IeeeSign.denotes_sub prec emax Hp Hm).
Local Notation half_range_sub := (IeeeSign.half_range_sub prec emax Hp H65).
Local Notation denotes_rep := (IeeeSign.denotes_rep prec emax).

Lemma normalize_overflow m e z : 0 <= IZR m * bpow radix2 e -> ~ in_range (rndf (IZR m * bpow radix2 e)) ->
  SpecFloat.binary_normalize prec emax m e z = S754_infinity false.
Proof.
  intros P H. rewrite (bn_equiv prec emax Hp Hm).
  pose proof (binary_normalize_correct prec emax Hprec Hmax mode_NE m e z) as C. cbv zeta in C.
  change (F2R (Float radix2 m e)) with (IZR m * bpow radix2 e) in C.
  rewrite Rlt_bool_false in C by (apply Rnot_lt_le; exact H). rewrite C.
  rewrite Rlt_bool_false by exact P. reflexivity.
Qed.

Lemma normalize_in m e z : in_range (rndf (IZR m * bpow radix2 e)) ->
  fdenotes prec emax (SpecFloat.binary_normalize prec emax m e z) (rndf (IZR m * bpow radix2 e)).
Proof.
  intros HR. unfold fdenotes. rewrite (bn_equiv prec emax Hp Hm), (B_finite prec emax), (B_real prec emax).
  pose proof (binary_normalize_correct prec emax Hprec Hmax mode_NE m e z) as C. cbv zeta in C.
  change (F2R (Float radix2 m e)) with (IZR m * bpow radix2 e) in C.
  rewrite Rlt_bool_true in C by exact HR. destruct C as (C1 & C2 & _).
  split; [exact C2|exact C1].
Qed.

Lemma nonneg_f_fma x y z : ieee_finite prec emax x -> ieee_finite prec emax y -> 0 <= ieee_real x * ieee_real y ->
  nonneg_f z -> nonneg_f (ieee_fma prec emax x y z).
Proof.
  intros Fx Fy P [[Fz Pz]| ->].
  - destruct (fma_normal prec emax x y z Fx Fy Fz) as (m & e & s & E & V). rewrite E.
    assert (P1 : 0 <= IZR m * bpow radix2 e) by (rewrite <- V; lra).
    destruct (in_range_dec (rndf (IZR m * bpow radix2 e))) as [I|I].
    + destruct (normalize_in m e s I) as (F & R). left. split; [exact F|]. rewrite R. apply rnd_posf. exact P1.
    + right. apply normalize_overflow; assumption.
  - right. destruct Fx as [_ Fx], Fy as [_ Fy].
    destruct x; try discriminate; destruct y; try discriminate; reflexivity.
Qed.

Lemma cvar_fma_f (l : list FN) : okl l -> (N.of_nat (length l) < szmod)%N ->
  nonneg_f (cv_sum FN (fold_left (cvar_push_fma FN (ieee_fused prec emax)) l (cvar_init FN))).
Proof.
  induction l as [|x l IH] using rev_ind; intros OK HL.
  - left. split; [split; reflexivity|]. cbn. lra.
  - destruct (cmean_f (l ++ [x]) OK HL) as (m' & r' & E' & Er' & D' & H').
    pose proof OK as OK2. apply Forall_app in OK2. destruct OK2 as [OKl Hx].
    inversion Hx as [|? ? [Fx Hhx] _]; subst. rewrite length_snoc in HL.
    destruct (cmean_f l OKl) as (m & r & E & Er & D & H); [lia|].
    rewrite fold_left_app in *. cbn [fold_left] in *.
    pose proof (cvar_fma_fold_super FN (ieee_fused prec emax) l (cvar_init FN)) as Sup.
    change (cv_super FN (cvar_init FN)) with (cmean_init FN) in Sup.
    specialize (IH OKl ltac:(lia)).
    set (sl := fold_left (cvar_push_fma FN (ieee_fused prec emax)) l (cvar_init FN)) in *.
    unfold cvar_push_fma. cbn [cv_sum]. rewrite Sup.
    rewrite E in *. cbn [cmean_mean cm_mean]. rewrite E'. cbn [cmean_mean cm_mean].
    assert (Dx : fdenotes prec emax x (ieee_real x)) by (split; [exact Fx|reflexivity]).
    destruct (denotes_sub _ _ _ _ Dx D (half_range_sub _ _ (denotes_rep _ _ Dx) (denotes_rep _ _ D) Hhx H)) as (F1 & R1).
    destruct (denotes_sub _ _ _ _ Dx D' (half_range_sub _ _ (denotes_rep _ _ Dx) (denotes_rep _ _ D') Hhx H')) as (F2 & R2).
    apply nonneg_f_fma; [exact F1|exact F2| |exact IH].
    change (@nsub FN) with (SFsub prec emax). rewrite R1, R2.
    assert (ST : fold_left (cmean_push FF) (ffins emin prec ZnearestE (map ieee_real (l ++ [x]))) (cmean_init FF) =
      cmean_push FF (fold_left (cmean_push FF) (ffins emin prec ZnearestE (map ieee_real l)) (cmean_init FF)) (Fin (ieee_real x))).
    { unfold ffins. rewrite !map_app, fold_left_app. reflexivity. }
    rewrite ST, Er in Er'. clear ST.
    destruct (cmean_push_fin emin prec ltac:(lia) ZnearestE r (N.of_nat (length l)) (ieee_real x)) as (c & Ec & C1 & C2 & Ep); [lia|].
    rewrite Ep in Er'. assert (Em : mean_step emin prec ZnearestE r (ieee_real x) c = r') by congruence.
    assert (B : (Rmin r (ieee_real x) <= r' <= Rmax r (ieee_real x))%R).
    { destruct l as [|y l'].
      - change (CMean FF (Fin (rndf 0)) 0 = CMean FF (Fin r) 0) in Er. rewrite rnd_0 in Er.
        assert (r = 0) by congruence. subst r. cbn [length N.of_nat] in Ec. change (IZR (Z.of_N (0 + 1))) with 1 in Ec.
        subst c. rewrite (mean_step_1 emin prec ltac:(lia) ZnearestE (ieee_real x) (fr_rep x Fx)) in Em.
        subst r'. split; [apply Rmin_r|apply Rmax_r].
      - rewrite <- Em. apply (mean_step_between emin prec ZnearestE); [apply (denotes_rep _ _ D)|apply (denotes_rep _ _ Dx)|].
        apply C2. cbn. lia. }
    unfold Rmin, Rmax in B. destruct (Rle_dec r (ieee_real x)).
    + apply Rmult_le_pos; apply rnd_posf; lra.
    + assert (A1 : rndf (ieee_real x - r) <= 0) by (rewrite <- rnd_0; apply rnd_le; lra).
      assert (A2 : rndf (ieee_real x - r') <= 0) by (rewrite <- rnd_0; apply rnd_le; lra). nra.
Qed.
End Format.
