(** * Sign, range and correct rounding in every IEEE format

    The facts of [Binary64], [Binary64Cumulative] and [CorrectRounding] for any
    precision and exponent range. *)

From Coq Require Import Reals ZArith NArith Bool List Lia Lra Psatz.
From Coq Require Import Floats.SpecFloat.
From Flocq Require Import Core.
From Flocq Require Import IEEE754.BinarySingleNaN.
From Verif Require Import Arith History HistoryLemmas Cumulative CumulativeProofs
  Rounded RoundedProofs Ieee Approx ApproxInstances IeeeProofs SpecOrder CorrectRounding.
Import ListNotations.
Local Open Scope R_scope.

Section Format.
Variables prec emax : Z.
Hypothesis Hp : (1 < prec)%Z.
Hypothesis Hm : (prec < emax)%Z.
(** Every size_t is in range. *)
Hypothesis H65 : (65 <= emax)%Z.
Local Notation Hprec := (IeeeProofs.Hprec prec Hp).
Local Notation Hmax := (IeeeProofs.Hmax prec emax Hm).
Local Instance precf : FLX.Prec_gt_0 prec := Hprec.
Local Notation emin := (3 - emax - prec)%Z.
Local Notation fexp := (FLT_exp emin prec).
Local Instance vexpf : Valid_exp fexp. Proof. apply FLT_exp_valid. exact Hprec. Qed.
Local Instance mexpf : Monotone_exp fexp. Proof. apply FLT_exp_monotone. Qed.
Local Instance validf : Valid_rnd ZnearestE := valid_rnd_N _.
Local Notation FN := (ieee prec emax).
Local Notation FF := (rounded emin prec ZnearestE).
Local Notation rndf := (rndf prec emax).
Local Notation repf := (repf prec emax).
Local Notation in_range := (in_range emax).
Local Notation of_Z_small := (of_Z_small prec emax Hp Hm).
Local Notation of_Z_real := (of_Z_real prec emax Hp Hm).
Local Notation add_real := (add_real prec emax Hp Hm).
Local Notation sub_real := (sub_real prec emax Hp Hm).
Local Notation mul_real := (mul_real prec emax Hp Hm).
Local Notation div_real := (div_real prec emax Hp Hm).
Local Notation leb_real := (leb_real prec emax).
Local Notation ltb_real := (ltb_real prec emax).
Local Notation rnd_le := (rnd_le prec emax Hp).
Local Notation rnd_rep := (rnd_rep prec emax).
Local Notation rnd_0 := (rnd_0 prec emax).
Local Notation rnd_abs := (rnd_abs prec emax Hp).
Local Notation fr_rep := (fr_rep prec emax).
Local Notation fr_bound := (fr_bound prec emax).
Local Notation repf_bpow := (repf_bpow prec emax Hp).
Local Notation ff_B := (ff_B prec emax).

Lemma repf_abs x : repf x -> repf (Rabs x).
Proof. apply generic_format_abs. Qed.

Lemma sub_overflow x y : ieee_finite prec emax x -> ieee_finite prec emax y ->
  ~ in_range (rndf (ieee_real x - ieee_real y)) ->
  exists s, SFsub prec emax x y = S754_infinity s.
Proof.
  intros H1 H2 HR. destruct (ff_B x H1) as (a & <- & Fa), (ff_B y H2) as (b & <- & Fb).
  rewrite (sub_B prec emax Hp Hm), !B_real in *.
  pose proof (Bminus_correct prec emax Hprec Hmax mode_NE a b Fa Fb) as C.
  rewrite Rlt_bool_false in C. 2:{ apply Rnot_lt_le. exact HR. }
  destruct C as (C1 & _). exists (Bsign a). exact C1.
Qed.

Lemma mul_overflow x y : ieee_finite prec emax x -> ieee_finite prec emax y ->
  ~ in_range (rndf (ieee_real x * ieee_real y)) ->
  SFmul prec emax x y = S754_infinity (xorb (sign_SF x) (sign_SF y)).
Proof.
  intros H1 H2 HR. destruct (ff_B x H1) as (a & <- & Fa), (ff_B y H2) as (b & <- & Fb).
  rewrite (mul_B prec emax Hp Hm), !B_real in *.
  pose proof (Bmult_correct prec emax Hprec Hmax mode_NE a b) as C.
  rewrite Rlt_bool_false in C. 2:{ apply Rnot_lt_le. exact HR. }
  cbn [binary_overflow overflow_to_inf] in C. etransitivity; [exact C|].
  destruct a, b; reflexivity.
Qed.

Lemma sign_real x : ieee_finite prec emax x -> 0 < ieee_real x -> sign_SF x = false.
Proof.
  intros _. destruct x as [s|s| |s m e]; cbn [ieee_real SF2R]; try (intros H; unfold ieee_real in H; cbn in H; lra).
  destruct s; [|reflexivity]. unfold ieee_real. cbn. intros H. exfalso.
  pose proof (F2R_lt_0 radix2 (Float radix2 (Zneg m) e) eq_refl). lra.
Qed.

Lemma denotes_add x y a b : fdenotes prec emax x a -> fdenotes prec emax y b -> in_range (rndf (a + b)) ->
  fdenotes prec emax (SFadd prec emax x y) (rndf (a + b)).
Proof. intros [F <-] [G <-] I. apply add_real; assumption. Qed.
Lemma denotes_sub x y a b : fdenotes prec emax x a -> fdenotes prec emax y b -> in_range (rndf (a - b)) ->
  fdenotes prec emax (SFsub prec emax x y) (rndf (a - b)).
Proof. intros [F <-] [G <-] I. apply sub_real; assumption. Qed.
Lemma denotes_mul x y a b : fdenotes prec emax x a -> fdenotes prec emax y b -> in_range (rndf (a * b)) ->
  fdenotes prec emax (SFmul prec emax x y) (rndf (a * b)).
Proof. intros [F <-] [G <-] I. apply mul_real; assumption. Qed.
Lemma denotes_div x y a b : fdenotes prec emax x a -> fdenotes prec emax y b -> b <> 0 -> in_range (rndf (a / b)) ->
  fdenotes prec emax (SFdiv prec emax x y) (rndf (a / b)).
Proof. intros [F <-] [G <-] N I. apply div_real; assumption. Qed.

Lemma denotes_rep x r : fdenotes prec emax x r -> repf r.
Proof. intros [F <-]. apply fr_rep. exact F. Qed.
Lemma denotes_range x r : fdenotes prec emax x r -> in_range r.
Proof. intros [F <-]. apply fr_bound. exact F. Qed.

(** A sufficient bound for every operation below. *)
Definition half_range (r : R) : Prop := Rabs r < bpow radix2 (emax - 1).

Lemma in_range_rnd r b : repf b -> Rabs r <= b -> b < bpow radix2 emax -> in_range (rndf r).
Proof.
  intros Rb L B. unfold in_range. rewrite <- rnd_abs.
  apply Rle_lt_trans with (2 := B). rewrite <- (rnd_rep b Rb). apply rnd_le. exact L.
Qed.

Lemma half_range_sub a b : repf a -> repf b -> half_range a -> half_range b ->
  in_range (rndf (a - b)).
Proof.
  intros Ra Rb Ha Hb. set (p := pred radix2 (FLT_exp emin prec) (bpow radix2 (emax - 1))).
  assert (F : repf (bpow radix2 (emax - 1))) by (apply repf_bpow; lia).
  assert (Fp : repf p) by (apply generic_format_pred; [exact vexpf|exact F]).
  assert (Pa : forall c, repf c -> half_range c -> Rabs c <= p).
  { intros c Rc Hc. apply pred_ge_gt; [exact vexpf|apply repf_abs; exact Rc|exact F|exact Hc]. }
  apply (in_range_rnd _ (p * 2)).
  - apply fmt_double; [exact Hprec|exact Fp].
  - pose proof (Pa a Ra Ha). pose proof (Pa b Rb Hb).
    pose proof (Rabs_triang a (- b)) as T. rewrite Rabs_Ropp in T. unfold Rminus. lra.
  - assert (p < bpow radix2 (emax - 1)).
    { apply pred_lt_id. apply Rgt_not_eq. apply bpow_gt_0. }
    replace (bpow radix2 emax) with (bpow radix2 (emax - 1 + 1)) by (f_equal; lia). rewrite bpow_plus.
    change (bpow radix2 1) with 2. lra.
Qed.

Lemma in_range_div a c : repf a -> in_range a -> 1 <= c -> in_range (rndf (a / c)).
Proof.
  intros Ra Ia Hc. apply (in_range_rnd _ (Rabs a)); [apply repf_abs; exact Ra| |exact Ia].
  unfold Rdiv. rewrite Rabs_mult. rewrite <- (Rmult_1_r (Rabs a)) at 2.
  apply Rmult_le_compat_l; [apply Rabs_pos|].
  rewrite Rabs_pos_eq by (apply Rlt_le, Rinv_0_lt_compat; lra).
  rewrite <- Rinv_1. apply Rinv_le; lra.
Qed.

Lemma half_in_range r : half_range r -> in_range r.
Proof. intros H. unfold half_range, in_range in *. apply Rlt_trans with (1 := H). apply bpow_lt. lia. Qed.

Lemma szmod_bpow : IZR (Z.of_N szmod) = bpow radix2 64.
Proof. reflexivity. Qed.

Lemma count_denotes k : (1 <= k)%N -> (k < szmod)%N ->
  fdenotes prec emax (@nofsz FN k) (rndf (IZR (Z.of_N k))).
Proof.
  intros H1 H2. apply of_Z_real. apply (in_range_rnd _ (bpow radix2 64)).
  - apply repf_bpow. lia.
  - rewrite <- abs_IZR, <- szmod_bpow. apply IZR_le. lia.
  - apply bpow_lt. lia.
Qed.

Definition okl (l : list FN) : Prop :=
  Forall (fun x : FN => ieee_finite prec emax x /\ half_range (ieee_real x)) l.

Lemma hull_half m (l : list FN) : okl l -> in_hull m (map ieee_real l) -> half_range m.
Proof.
  intros H [(a & Ia & La) (b & Ib & Lb)]. apply in_map_iff in Ia. apply in_map_iff in Ib.
  destruct Ia as (x & <- & Ix), Ib as (y & <- & Iy). unfold okl in H. rewrite Forall_forall in H.
  destruct (H _ Ix) as [_ Hx], (H _ Iy) as [_ Hy]. unfold half_range in *.
  apply Rabs_lt_inv in Hx. apply Rabs_lt_inv in Hy. apply Rabs_lt. lra.
Qed.

Lemma okl_fmt l : okl l -> Forall (generic_format radix2 (FLT_exp emin prec)) (map ieee_real l).
Proof.
  intros H. apply Forall_map. eapply Forall_impl; [|exact H]. intros x [F _].
  apply fr_rep. exact F.
Qed.

(** The machine mean denotes the mean of the rounded machine. *)
Lemma cmean_f (l : list FN) : okl l -> (N.of_nat (length l) < szmod)%N ->
  exists m r, fold_left (cmean_push FN) l (cmean_init FN) = CMean FN m (N.of_nat (length l)) /\
    fold_left (cmean_push FF) (ffins emin prec ZnearestE (map ieee_real l)) (cmean_init FF) =
      CMean FF (Fin r) (N.of_nat (length l)) /\
    fdenotes prec emax m r /\ half_range r.
Proof.
  induction l as [|x l IH] using rev_ind; intros OK HL.
  - exists (ieee_of_Z prec emax 0), 0. split; [reflexivity|]. split.
    + change (cmean_init FF) with (CMean FF (Fin (rndf 0)) 0). rewrite rnd_0. reflexivity.
    + split; [apply (of_Z_small 0); pose proof (Z.pow_pos_nonneg 2 prec); lia|]. unfold half_range. rewrite Rabs_R0. apply bpow_gt_0.
  - pose proof OK as OK'. apply Forall_app in OK'. destruct OK' as [OKl Hx].
    inversion Hx as [|? ? [Fx Hhx] _]; subst.
    destruct IH as (m & r & E & E' & D & Hr); [exact OKl|rewrite length_snoc in HL; lia|].
    destruct (cmean_rounded emin prec ltac:(lia) ZnearestE (map ieee_real (l ++ [x]))) as (r' & Er & Fr & Hh).
    { destruct l; discriminate. } { rewrite map_length; exact HL. } { apply okl_fmt. exact OK. }
    pose proof (hull_half _ _ OK Hh) as Hr'.
    assert (ST : fold_left (cmean_push FF) (ffins emin prec ZnearestE (map ieee_real (l ++ [x]))) (cmean_init FF) =
      cmean_push FF (fold_left (cmean_push FF) (ffins emin prec ZnearestE (map ieee_real l)) (cmean_init FF)) (Fin (ieee_real x))).
    { unfold ffins. rewrite !map_app, fold_left_app. reflexivity. }
    rewrite ST, E' in Er. rewrite ST, E'. rewrite map_length in Er. rewrite length_snoc in *.
    destruct (cmean_push_fin emin prec ltac:(lia) ZnearestE r (N.of_nat (length l)) (ieee_real x)) as (c & Ec & C1 & _ & Ep); [lia|].
    rewrite Ep in *. assert (Em : mean_step emin prec ZnearestE r (ieee_real x) c = r') by congruence.
    rewrite fold_left_app, E. cbn [fold_left]. unfold cmean_push. cbn [cm_mean cm_count].
    rewrite szadd_small by lia.
    exists (@nadd FN m (@ndiv FN (@nsub FN x m) (@nofsz FN (N.of_nat (length l) + 1)))), r'.
    split; [f_equal; lia|]. rewrite Em. split; [f_equal; lia|]. split; [|exact Hr'].
    assert (Dx : fdenotes prec emax x (ieee_real x)) by (split; [exact Fx|reflexivity]).
    pose proof (denotes_sub _ _ _ _ Dx D (half_range_sub _ _ (denotes_rep _ _ Dx) (denotes_rep _ _ D) Hhx Hr)) as Dd.
    assert (Dc : fdenotes prec emax (@nofsz FN (N.of_nat (length l) + 1)) c).
    { rewrite Ec. apply count_denotes; lia. }
    pose proof (denotes_div _ _ _ _ Dd Dc ltac:(lra) (in_range_div _ _ (denotes_rep _ _ Dd) (denotes_range _ _ Dd) C1)) as Dq.
    rewrite <- Em. apply denotes_add; [exact D|exact Dq|].
    apply half_in_range. change (half_range (mean_step emin prec ZnearestE r (ieee_real x) c)).
    rewrite Em. exact Hr'.
Qed.

(** ** Variance *)

(** Nonnegative: a finite nonnegative double or positive infinity. *)
Definition nonneg_f (v : spec_float) : Prop :=
  (ieee_finite prec emax v /\ 0 <= ieee_real v) \/ v = S754_infinity false.

Lemma nonneg_f_leb v : nonneg_f v -> SFleb (S754_zero false) v = true.
Proof.
  intros [[F H]| ->]; [|reflexivity].
  rewrite leb_real; [|split; reflexivity|exact F]. apply Rle_bool_true. exact H.
Qed.

Lemma add_overflow_pos x y : ieee_finite prec emax x -> ieee_finite prec emax y -> 0 <= ieee_real x -> 0 <= ieee_real y ->
  ~ in_range (rndf (ieee_real x + ieee_real y)) ->
  SFadd prec emax x y = S754_infinity false.
Proof.
  intros H1 H2 P1 P2 HR.
  assert (Px : 0 < ieee_real x).
  { destruct P1 as [P|P]; [exact P|]. exfalso. apply HR. rewrite <- P, Rplus_0_l, rnd_rep.
    - apply fr_bound. exact H2.
    - apply fr_rep. exact H2. }
  pose proof (sign_real x H1 Px) as Sx.
  destruct (ff_B x H1) as (a & <- & Fa), (ff_B y H2) as (b & <- & Fb).
  rewrite (add_B prec emax Hp Hm), !B_real in *.
  pose proof (Bplus_correct prec emax Hprec Hmax mode_NE a b Fa Fb) as C.
  rewrite Rlt_bool_false in C. 2:{ apply Rnot_lt_le. exact HR. }
  destruct C as (C & _).
  assert (Sa : Bsign a = false) by (clear - Sx; destruct a; first [reflexivity|exact Sx]).
  rewrite Sa in C. exact C.
Qed.

Lemma in_range_dec r : in_range r \/ ~ in_range r.
Proof. unfold in_range. destruct (Rlt_dec (Rabs r) (bpow radix2 emax)); auto. Qed.

Lemma rnd_posf x : 0 <= x -> 0 <= rndf x.
Proof. intros H. rewrite <- rnd_0. apply rnd_le. exact H. Qed.

Lemma nonneg_f_add x y : nonneg_f x -> nonneg_f y -> nonneg_f (SFadd prec emax x y).
Proof.
  intros [[Fx Px]| ->] [[Fy Py]| ->].
  - destruct (in_range_dec (rndf (ieee_real x + ieee_real y))) as [I|I].
    + destruct (add_real x y Fx Fy I) as (F & R). left. split; [exact F|]. rewrite R. apply rnd_posf. lra.
    + right. apply add_overflow_pos; assumption.
  - right. destruct Fx as [_ Fx]. destruct x; try discriminate; reflexivity.
  - right. destruct Fy as [_ Fy]. destruct y; try discriminate; reflexivity.
  - right. reflexivity.
Qed.

Lemma sign_neg x : ieee_finite prec emax x -> ieee_real x < 0 -> sign_SF x = true.
Proof.
  intros _. destruct x as [s|s| |s m e]; unfold ieee_real; cbn [SF2R]; intros H; try lra.
  destruct s; [reflexivity|]. exfalso.
  pose proof (F2R_gt_0 radix2 (Float radix2 (Zpos m) e) eq_refl). cbn in H. lra.
Qed.

Lemma nonneg_f_mul x y : ieee_finite prec emax x -> ieee_finite prec emax y -> 0 <= ieee_real x * ieee_real y ->
  nonneg_f (SFmul prec emax x y).
Proof.
  intros Fx Fy P. destruct (in_range_dec (rndf (ieee_real x * ieee_real y))) as [I|I].
  - destruct (mul_real x y Fx Fy I) as (F & R). left. split; [exact F|]. rewrite R. apply rnd_posf. exact P.
  - right. rewrite mul_overflow by assumption. f_equal.
    assert (NZ : ieee_real x * ieee_real y <> 0).
    { intros E. apply I. rewrite E, rnd_0. unfold in_range. rewrite Rabs_R0. apply bpow_gt_0. }
    assert (PP : 0 < ieee_real x * ieee_real y) by lra. clear - PP Fx Fy.
    destruct (Rlt_le_dec 0 (ieee_real x)) as [X|X].
    + assert (Y : 0 < ieee_real y).
      { apply Rmult_lt_reg_l with (ieee_real x); [exact X|]. rewrite Rmult_0_r. exact PP. }
      rewrite (sign_real x Fx X), (sign_real y Fy Y). reflexivity.
    + assert (X' : ieee_real x < 0).
      { destruct X as [X|X]; [exact X|]. rewrite X in PP. lra. }
      assert (Y : ieee_real y < 0).
      { apply Ropp_lt_cancel. rewrite Ropp_0. apply Rmult_lt_reg_l with (- ieee_real x); [lra|].
        rewrite Rmult_0_r, Rmult_opp_opp. exact PP. }
      rewrite (sign_neg x Fx X'), (sign_neg y Fy Y). reflexivity.
Qed.

Lemma nonneg_f_div x c r : nonneg_f x -> fdenotes prec emax c r -> 1 <= r -> nonneg_f (SFdiv prec emax x c).
Proof.
  intros [[Fx Px]| ->] D Hr.
  - left. assert (Dx : fdenotes prec emax x (ieee_real x)) by (split; [exact Fx|reflexivity]).
    destruct (denotes_div x c _ _ Dx D) as (F & R); [lra| |].
    + apply in_range_div; [apply fr_rep; exact Fx|apply fr_bound; exact Fx|exact Hr].
    + split; [exact F|]. rewrite R. apply rnd_posf. apply Rmult_le_pos; [exact Px|].
      apply Rlt_le, Rinv_0_lt_compat. lra.
  - right. destruct D as [F E]. pose proof (sign_real c F ltac:(lra)) as S. destruct F as [_ F].
    destruct c as [s|s| |s m e]; try discriminate; cbn in S; subst; try reflexivity.
Qed.

Lemma cvar_f (l : list FN) : okl l -> (N.of_nat (length l) < szmod)%N ->
  nonneg_f (cv_sum FN (fold_left (cvar_push FN) l (cvar_init FN))).
Proof.
  induction l as [|x l IH] using rev_ind; intros OK HL.
  - left. split; [split; reflexivity|]. cbn. lra.
  - destruct (cmean_f (l ++ [x]) OK HL) as (m' & r' & E' & Er' & D' & H').
    pose proof OK as OK2. apply Forall_app in OK2. destruct OK2 as [OKl Hx].
    inversion Hx as [|? ? [Fx Hhx] _]; subst. rewrite length_snoc in HL.
    destruct (cmean_f l OKl) as (m & r & E & Er & D & H); [lia|].
    rewrite fold_left_app in *. cbn [fold_left] in *.
    unfold cvar_push. cbn [cv_sum]. rewrite cvar_fold_super.
    change (cv_super FN (cvar_init FN)) with (cmean_init FN).
    rewrite E in *. cbn [cmean_mean cm_mean]. rewrite E'. cbn [cmean_mean cm_mean].
    apply nonneg_f_add; [apply IH; [exact OKl|lia]|].
    assert (Dx : fdenotes prec emax x (ieee_real x)) by (split; [exact Fx|reflexivity]).
    destruct (denotes_sub _ _ _ _ Dx D (half_range_sub _ _ (denotes_rep _ _ Dx) (denotes_rep _ _ D) Hhx H)) as (F1 & R1).
    destruct (denotes_sub _ _ _ _ Dx D' (half_range_sub _ _ (denotes_rep _ _ Dx) (denotes_rep _ _ D') Hhx H')) as (F2 & R2).
    apply nonneg_f_mul; [exact F1|exact F2|].
    change (@nsub FN) with (SFsub prec emax). rewrite R1, R2.
    assert (ST : fold_left (cmean_push FF) (ffins emin prec ZnearestE (map ieee_real (l ++ [x]))) (cmean_init FF) =
      cmean_push FF (fold_left (cmean_push FF) (ffins emin prec ZnearestE (map ieee_real l)) (cmean_init FF)) (Fin (ieee_real x))).
    { unfold ffins. rewrite !map_app, fold_left_app. reflexivity. }
    rewrite ST, Er in Er'. clear ST.
    destruct (cmean_push_fin emin prec ltac:(lia) ZnearestE r (N.of_nat (length l)) (ieee_real x)) as (c & Ec & C1 & C2 & Ep); [lia|].
    rewrite Ep in Er'. assert (Em : mean_step emin prec ZnearestE r (ieee_real x) c = r') by congruence.
    assert (B : (Rmin r (ieee_real x) <= r' <= Rmax r (ieee_real x))%R).
    { destruct l as [|y l'].
      - change (CMean FF (Fin (rndf 0)) 0 = CMean FF (Fin r) 0) in Er. rewrite rnd_0 in Er.
        assert (r = 0) by congruence. subst r. cbn [length N.of_nat] in Ec. change (IZR (Z.of_N (0 + 1))) with 1 in Ec.
        subst c. rewrite (mean_step_1 emin prec ltac:(lia) ZnearestE (ieee_real x) (fr_rep x Fx)) in Em.
        subst r'. split; [apply Rmin_r|apply Rmax_r].
      - rewrite <- Em. apply (mean_step_between emin prec ZnearestE); [apply (denotes_rep _ _ D)|apply (denotes_rep _ _ Dx)|].
        apply C2. cbn. lia. }
    unfold Rmin, Rmax in B. destruct (Rle_dec r (ieee_real x)).
    + apply Rmult_le_pos; apply rnd_posf; lra.
    + assert (A1 : rndf (ieee_real x - r) <= 0) by (rewrite <- rnd_0; apply rnd_le; lra).
      assert (A2 : rndf (ieee_real x - r') <= 0) by (rewrite <- rnd_0; apply rnd_le; lra). nra.
Qed.
Lemma denotes_floor x a : fdenotes prec emax x a -> 0 <= a <= bpow radix2 prec ->
  fdenotes prec emax (ieee_floor prec emax x) (IZR (Zfloor a)).
Proof.
  intros [Fx Rx] [A0 A1]. pose proof Fx as Fx'.
  destruct x as [s|s| |s m e]; try (destruct Fx; discriminate).
  - unfold ieee_real in Rx. cbn in Rx. subst a. rewrite (Zfloor_IZR 0). split; [exact Fx'|reflexivity].
  - unfold ieee_real in Rx. cbn [SF2R] in Rx. destruct s.
    { exfalso. assert (F2R (Float radix2 (cond_Zopp true (Zpos m)) e) < 0) by (apply F2R_lt_0; reflexivity). lra. }
    cbn [cond_Zopp] in Rx. unfold ieee_floor. destruct (Z.leb_spec 0 e) as [He|He].
    + split; [exact Fx'|]. unfold ieee_real. cbn [SF2R cond_Zopp].
      rewrite <- Rx, zfloor_int by exact He. rewrite Zfloor_IZR. reflexivity.
    + cbn [cond_Zopp]. rewrite <- (zfloor_pos m e He), Rx. apply of_Z_small.
      assert (Z0 : (0 <= Zfloor a)%Z) by (apply Zfloor_lub; exact A0).
      rewrite Z.abs_eq by exact Z0. apply le_IZR. change (2 ^ prec)%Z with (radix2 ^ prec)%Z.
      rewrite IZR_Zpower by lia. pose proof (Zfloor_lb a). lra.
Qed.

Lemma denotes_tosz x a : fdenotes prec emax x a -> 0 <= a < bpow radix2 63 ->
  b64_tosz x = Some (Z.to_N (Zfloor a)).
Proof.
  intros [Fx Rx] [A0 A1].
  destruct x as [s|s| |s m e]; try (destruct Fx; discriminate).
  - unfold ieee_real in Rx. cbn in Rx. subst a. rewrite (Zfloor_IZR 0). reflexivity.
  - unfold ieee_real in Rx. cbn [SF2R] in Rx. destruct s.
    { exfalso. assert (F2R (Float radix2 (cond_Zopp true (Zpos m)) e) < 0) by (apply F2R_lt_0; reflexivity). lra. }
    cbn [cond_Zopp] in Rx. unfold b64_tosz.
    assert (E : (if (0 <=? e)%Z then (Zpos m * 2 ^ e)%Z else (Zpos m / 2 ^ (- e))%Z) = Zfloor a).
    { destruct (Z.leb_spec 0 e) as [He|He].
      - rewrite <- Rx, zfloor_int by exact He. rewrite Zfloor_IZR. reflexivity.
      - rewrite <- Rx. symmetry. apply zfloor_pos. exact He. }
    rewrite E. rewrite (proj2 (Z.ltb_lt _ _)); [reflexivity|].
    apply Z.lt_trans with (2 ^ 63)%Z; [|reflexivity].
    apply lt_IZR. apply Rle_lt_trans with a; [apply Zfloor_lb|exact A1].
Qed.

Lemma correct_ieee : correct FN (fdenotes prec emax) emin prec (bpow radix2 (emax - 1)).
Proof.
  assert (I : forall x, Rabs x <= bpow radix2 (emax - 1) -> in_range (rndf x)) by (intros x H; apply (rnd_range prec emax Hp Hm x H)).
  assert (P2 : (2 <= 2 ^ prec)%Z). { change 2%Z with (2 ^ 1)%Z at 1. apply Z.pow_le_mono_r; lia. }
  constructor.
  - intros x a D. apply (denotes_rep x a D).
  - intros x a b [_ <-] [_ <-]. reflexivity.
  - intros x y a b D E H. apply denotes_add; [exact D|exact E|apply I; exact H].
  - intros x y a b D E H. apply denotes_sub; [exact D|exact E|apply I; exact H].
  - intros x y a b D E H. apply denotes_mul; [exact D|exact E|apply I; exact H].
  - intros x y a b D E Z H. apply denotes_div; [exact D|exact E|exact Z|apply I; exact H].
  - intros k Hk. apply (of_Z_real (Z.of_N k)). apply I.
    rewrite Rabs_pos_eq by (apply IZR_le; lia).
    apply Rle_trans with (bpow radix2 64); [|apply bpow_le; lia].
    rewrite <- szmod_bpow. apply IZR_le. lia.
  - intros z Hz. apply of_Z_small. lia.
  - intros x y a b [Fx <-] [Fy <-]. apply ltb_real; assumption.
  - intros x y a b [Fx <-] [Fy <-]. apply leb_real; assumption.
  - exact denotes_floor.
  - exact denotes_tosz.
Qed.

(** ** A constant stream, as in [ConstantProofs] *)
Section Constant.
Local Open Scope R_scope.
Variable x : FN.
Hypothesis Fx : ieee_finite prec emax x.
Definition isc_f (m : FN) : Prop := fdenotes prec emax m (ieee_real x).
Definition is0_f (m : FN) : Prop := fdenotes prec emax m 0.
Definition isf_f (m : FN) : Prop := ieee_finite prec emax m.

Lemma dx : fdenotes prec emax x (ieee_real x).
Proof. split; [exact Fx|reflexivity]. Qed.

Lemma i_count k : (1 <= k < szmod)%N -> exists c, fdenotes prec emax (@nofsz FN k) c /\ 1 <= c.
Proof.
  intros H. exists (rndf (IZR (Z.of_N k))). split; [apply count_denotes; lia|].
  apply (rnd_ge1 emin prec ltac:(lia) ZnearestE). apply (IZR_le 1). lia.
Qed.

Lemma i_range0 : in_range 0.
Proof. unfold in_range. rewrite Rabs_R0. apply bpow_gt_0. Qed.

Lemma i_zdiv s k : is0_f s -> (1 <= k < szmod)%N -> is0_f (@ndiv FN s (nofsz k)).
Proof.
  intros H K. destruct (i_count k K) as (c & Dc & C1).
  assert (E : rndf (0 / c) = 0). { replace (0 / c) with 0 by (field; lra). apply rnd_0. }
  unfold is0_f. rewrite <- E. apply denotes_div; [exact H|exact Dc|lra|]. rewrite E. apply i_range0.
Qed.

Lemma i_diff m : isc_f m -> is0_f (@nsub FN x m).
Proof.
  intros H. assert (E : rndf (ieee_real x - ieee_real x) = 0).
  { rewrite Rminus_diag_eq by reflexivity. apply rnd_0. }
  unfold is0_f. rewrite <- E. apply denotes_sub; [exact dx|exact H|]. rewrite E. apply i_range0.
Qed.

Lemma i_add0 m z : isc_f m -> is0_f z -> isc_f (@nadd FN m z).
Proof.
  intros H Z. assert (E : rndf (ieee_real x + 0) = ieee_real x).
  { rewrite Rplus_0_r. apply rnd_rep, fr_rep, Fx. }
  unfold isc_f. rewrite <- E. apply denotes_add; [exact H|exact Z|]. rewrite E. apply fr_bound, Fx.
Qed.

Lemma i_again m k : isc_f m -> (1 <= k < szmod)%N -> isc_f (@nadd FN m (@ndiv FN (@nsub FN x m) (nofsz k))).
Proof. intros H K. apply i_add0; [exact H|]. apply i_zdiv; [apply i_diff; exact H|exact K]. Qed.

Lemma i_replace m k : isc_f m -> (1 <= k < szmod)%N -> isc_f (@nadd FN m (@ndiv FN (@nsub FN x x) (nofsz k))).
Proof. intros H K. apply i_add0; [exact H|]. apply i_zdiv; [apply i_diff; exact dx|exact K]. Qed.

Lemma i_init : is0_f (@n0 FN).
Proof. apply (of_Z_small 0); pose proof (Z.pow_pos_nonneg 2 prec); lia. Qed.

Lemma i_sub_0 : isc_f (@nsub FN x n0).
Proof.
  assert (E : rndf (ieee_real x - 0) = ieee_real x).
  { rewrite Rminus_0_r. apply rnd_rep, fr_rep, Fx. }
  unfold isc_f. rewrite <- E. apply denotes_sub; [exact dx|exact i_init|]. rewrite E. apply fr_bound, Fx.
Qed.

Lemma i_first : isc_f (@nadd FN n0 (@ndiv FN (@nsub FN x n0) (nofsz 1))).
Proof.
  assert (D1 : fdenotes prec emax (@nofsz FN 1) 1) by (apply (of_Z_small 1); pose proof (Z.pow_pos_nonneg 2 prec); lia).
  assert (E : rndf (ieee_real x / 1) = ieee_real x).
  { replace (ieee_real x / 1) with (ieee_real x) by field. apply rnd_rep, fr_rep, Fx. }
  assert (D2 : fdenotes prec emax (@ndiv FN (@nsub FN x n0) (nofsz 1)) (ieee_real x)).
  { rewrite <- E. apply denotes_div; [exact i_sub_0|exact D1|lra|]. rewrite E. apply fr_bound, Fx. }
  assert (E' : rndf (0 + ieee_real x) = ieee_real x).
  { rewrite Rplus_0_l. apply rnd_rep, fr_rep, Fx. }
  unfold isc_f. rewrite <- E'. apply denotes_add; [exact i_init|exact D2|]. rewrite E'. apply fr_bound, Fx.
Qed.
End Constant.

Local Open Scope R_scope.
Lemma i_mul0 a b : isf_f a -> is0_f b -> is0_f (@nmul FN a b).
Proof.
  intros H Z. assert (E : rndf (ieee_real a * 0) = 0) by (rewrite Rmult_0_r; apply rnd_0).
  unfold is0_f. rewrite <- E. apply denotes_mul; [split; [exact H|reflexivity]|exact Z|]. rewrite E. apply i_range0.
Qed.
Lemma i_mul0' a b : is0_f a -> isf_f b -> is0_f (@nmul FN a b).
Proof.
  intros Z H. assert (E : rndf (0 * ieee_real b) = 0) by (rewrite Rmult_0_l; apply rnd_0).
  unfold is0_f. rewrite <- E. apply denotes_mul; [exact Z|split; [exact H|reflexivity]|]. rewrite E. apply i_range0.
Qed.
Lemma i_add00 a b : is0_f a -> is0_f b -> is0_f (@nadd FN a b).
Proof.
  intros A B. assert (E : rndf (0 + 0) = 0) by (rewrite Rplus_0_l; apply rnd_0).
  unfold is0_f. rewrite <- E. apply denotes_add; [exact A|exact B|]. rewrite E. apply i_range0.
Qed.
Lemma i_sub00 a b : is0_f a -> is0_f b -> is0_f (@nsub FN a b).
Proof.
  intros A B. assert (E : rndf (0 - 0) = 0) by (rewrite Rminus_0_r; apply rnd_0).
  unfold is0_f. rewrite <- E. apply denotes_sub; [exact A|exact B|]. rewrite E. apply i_range0.
Qed.
Lemma i_zadd s a b : is0_f s -> isf_f a -> is0_f b -> is0_f (@nadd FN s (@nmul FN a b)).
Proof. intros S A B. apply i_add00; [exact S|]. apply i_mul0; assumption. Qed.
Lemma i_zadd' s a b : is0_f s -> is0_f a -> isf_f b -> is0_f (@nadd FN s (@nmul FN a b)).
Proof. intros S A B. apply i_add00; [exact S|]. apply i_mul0'; assumption. Qed.
Lemma i_zsub s a b : is0_f s -> isf_f a -> is0_f b -> is0_f (@nsub FN s (@nmul FN a b)).
Proof. intros S A B. apply i_sub00; [exact S|]. apply i_mul0; assumption. Qed.
Lemma i_max s : is0_f s -> is0_f (@nmax FN n0 s).
Proof. intros S. unfold nmax. destruct (nlt _ _); [exact S|apply i_init]. Qed.
Lemma i_fin a : is0_f a -> isf_f a.
Proof. intros [H _]. exact H. Qed.
Lemma i_cfin x m : isc_f x m -> isf_f m.
Proof. intros [H _]. exact H. Qed.

End Format.
