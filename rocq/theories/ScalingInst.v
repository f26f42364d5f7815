(** * Arithmetics in which multiplication by a constant is respected *)

From Coq Require Import Reals ZArith NArith Bool Lia Lra.
From Coq Require Import Floats.SpecFloat.
From Flocq Require Import Core.
From Verif Require Import Arith SpecScaling Scaling.
Local Open Scope R_scope.

(** ** Real arithmetic with a rounding that commutes with the factors *)
Section Real.
Variable rnd : R -> R.
Variables eps tiny : R.
Variable adm : R -> Prop.
Hypothesis adm_one : adm 1.
Hypothesis adm_mult : forall c d, adm c -> adm d -> adm (c * d).
Hypothesis adm_div : forall c d, adm c -> adm d -> adm (c / d).
Hypothesis adm_abs : forall c, adm c -> adm (Rabs c).
Hypothesis adm_nonzero : forall c, adm c -> c <> 0.
Hypothesis rnd_scale : forall c x, adm c -> rnd (c * x) = c * rnd x.
Hypothesis rnd_0 : rnd 0 = 0.

Lemma Req_bool_scale c x : adm c -> Req_bool (c * x) 0 = Req_bool x 0.
Proof.
  intros H; apply adm_nonzero in H.
  destruct (Req_bool_spec x 0) as [->|N]; [apply Req_bool_true; ring|].
  apply Req_bool_false; intros E; destruct (Rmult_integral _ _ E); contradiction.
Qed.

Lemma xdiv_scale c d x x' y y' : adm c -> adm d -> scaled c x x' -> scaled d y y' ->
  scaled (c / d) (xdiv rnd x y) (xdiv rnd x' y').
Proof.
  intros Hc Hd; destruct x as [x|], x' as [x'|], y as [y|], y' as [y'|];
    cbn [scaled xdiv]; try contradiction; try (intros; exact I).
  intros -> ->; rewrite Req_bool_scale by exact Hd.
  destruct (Req_bool_spec y 0) as [->|N]; [exact I|]; cbn [scaled].
  rewrite <- rnd_scale by auto; f_equal; field; split; [exact N|apply adm_nonzero, Hd].
Qed.

Lemma xsqrt_scale d y y' : adm d -> 0 < d -> scaled (d * d) y y' ->
  scaled d (xsqrt rnd y) (xsqrt rnd y').
Proof.
  intros Hd Pd; destruct y as [y|], y' as [y'|]; cbn [scaled xsqrt]; try contradiction;
    try (intros; exact I).
  intros ->.
  assert (P : 0 < d * d) by nra.
  destruct (Rlt_bool_spec y 0) as [N|N].
  - rewrite Rlt_bool_true; [exact I|]; nra.
  - rewrite Rlt_bool_false by nra; cbn [scaled].
    rewrite <- rnd_scale by exact Hd; f_equal.
    rewrite sqrt_mult by nra; rewrite sqrt_square by lra; reflexivity.
Qed.

Lemma xmul_scale c d x x' y y' : adm c -> adm d -> scaled c x x' -> scaled d y y' ->
  scaled (c * d) (xlift2 rnd Rmult x y) (xlift2 rnd Rmult x' y').
Proof.
  intros Hc Hd; destruct x as [x|], x' as [x'|], y as [y|], y' as [y'|];
    cbn [scaled xlift2]; try contradiction; try (intros; exact I).
  intros -> ->; rewrite <- rnd_scale by auto; f_equal; ring.
Qed.

Lemma xadd_scale f c x x' y y' : (forall a b, f (c * a) (c * b) = c * f a b) ->
  adm c -> scaled c x x' -> scaled c y y' ->
  scaled c (xlift2 rnd f x y) (xlift2 rnd f x' y').
Proof.
  intros Hf Hc; destruct x as [x|], x' as [x'|], y as [y|], y' as [y'|];
    cbn [scaled xlift2]; try contradiction; try (intros; exact I).
  intros -> ->; rewrite Hf; apply rnd_scale, Hc.
Qed.

Lemma real_scaling : scaling (xnum rnd eps tiny) adm scaled.
Proof.
  split.
  - exact adm_one.
  - exact adm_mult.
  - exact adm_div.
  - exact adm_abs.
  - exact adm_nonzero.
  - intros [x|]; cbn [scaled]; [ring|exact I].
  - intros c _; cbn; rewrite rnd_0; ring.
  - intros; apply xadd_scale; try assumption; intros; ring.
  - intros; apply xadd_scale; try assumption; intros; ring.
  - exact xmul_scale.
  - intros c x x' y Hc Hx; cbn [ndiv xnum].
    replace c with (c / 1) by field; apply xdiv_scale; auto.
    destruct y; cbn [scaled]; [ring|exact I].
  - intros; apply xdiv_scale; assumption.
  - intros; apply xdiv_scale; auto; apply xmul_scale; assumption.
  - intros; apply xdiv_scale; auto; apply xsqrt_scale; assumption.
  - intros c d x x' y y' Hc Hd Pd Hx Hy.
    replace (d * d * d) with (d * (d * d)) by ring.
    apply xdiv_scale; auto; apply xmul_scale; auto; apply xsqrt_scale; assumption.
  - intros c d x x' y y' Hc Hd Pd Hx Hy.
    apply xdiv_scale; auto; apply xmul_scale; auto; apply xsqrt_scale; assumption.
  - intros c x x' y y' Hc Pc; destruct x as [x|], x' as [x'|], y as [y|], y' as [y'|];
      cbn [scaled nlt xnum xcmp]; try contradiction; try reflexivity.
    intros -> ->; destruct (Rlt_bool_spec x y); symmetry;
      [apply Rlt_bool_true|apply Rlt_bool_false]; nra.
  - intros c x x' y y' Hc Pc; destruct x as [x|], x' as [x'|], y as [y|], y' as [y'|];
      cbn [scaled nle xnum xcmp]; try contradiction; try reflexivity.
    intros -> ->; destruct (Rle_bool_spec x y); symmetry;
      [apply Rle_bool_true|apply Rle_bool_false]; nra.
  - intros c x x' Hc; destruct x as [x|], x' as [x'|]; cbn [scaled neq n0 nofz xnum xcmp];
      try contradiction; try reflexivity.
    intros ->; rewrite rnd_0; symmetry; apply Req_bool_scale, Hc.
  - intros [x|]; cbn [nlt neq n0 nofz xnum xcmp]; [|discriminate].
    rewrite rnd_0; destruct (Rlt_bool_spec 0 x); [|discriminate].
    intros _; apply Req_bool_false; lra.
Qed.
End Real.

Lemma round_two_power prec mode {V : Valid_rnd mode} k x :
  round radix2 (FLX_exp prec) mode (bpow radix2 k * x)
  = bpow radix2 k * round radix2 (FLX_exp prec) mode x.
Proof.
  destruct (Req_dec x 0) as [->|N]; [rewrite Rmult_0_r, round_0 by exact V; ring|].
  unfold round, scaled_mantissa, cexp, F2R; cbn [Fnum Fexp].
  rewrite (Rmult_comm (bpow radix2 k) x), mag_mult_bpow by exact N.
  unfold FLX_exp.
  replace (x * bpow radix2 k * bpow radix2 (- (mag radix2 x + k - prec)))
    with (x * bpow radix2 (- (mag radix2 x - prec))).
  2:{ rewrite Rmult_assoc, <- bpow_plus; f_equal; f_equal; lia. }
  replace (mag radix2 x + k - prec)%Z with (k + (mag radix2 x - prec))%Z by lia.
  rewrite bpow_plus; ring.
Qed.

(** Every factor of the specification qualifies. *)
Lemma scalable_one rnd c : scalable rnd c -> scalable rnd 1.
Proof.
  intros [[H _]|[prec [mode [V [H _]]]]]; [left; split; [exact H|lra]|].
  right; exists prec, mode; split; [exact V|]; split; [exact H|].
  exists 0%Z; left; reflexivity.
Qed.

Lemma scalable_nonzero rnd c : scalable rnd c -> c <> 0.
Proof.
  intros [[_ H]|[prec [mode [_ [_ [k [->|[-> _]]]]]]]]; [exact H| |];
    pose proof (bpow_gt_0 radix2 k); lra.
Qed.

Lemma scalable_mult rnd c d : scalable rnd c -> scalable rnd d -> scalable rnd (c * d).
Proof.
  intros Hc Hd; pose proof (scalable_nonzero _ _ Hc) as Nc; pose proof (scalable_nonzero _ _ Hd) as Nd.
  assert (N : c * d <> 0) by (apply Rmult_integral_contrapositive_currified; assumption).
  destruct Hc as [[H _]|[prec [mode [V [H [j Hj]]]]]]; [left; split; assumption|].
  destruct Hd as [[H' _]|[prec' [mode' [V' [H' [k Hk]]]]]]; [left; split; assumption|].
  right; exists prec, mode; split; [exact V|]; split; [exact H|]; exists (j + k)%Z.
  rewrite bpow_plus; destruct Hj as [->|[-> O]], Hk as [->|[-> O']];
    [left|right; split; [|exact O']|right; split; [|exact O]|left]; ring.
Qed.

Lemma scalable_inv rnd c : scalable rnd c -> scalable rnd (/ c).
Proof.
  intros H; pose proof (scalable_nonzero _ _ H) as N.
  destruct H as [[H _]|[prec [mode [V [H [j Hj]]]]]].
  - left; split; [exact H|apply Rinv_neq_0_compat, N].
  - right; exists prec, mode; split; [exact V|]; split; [exact H|]; exists (- j)%Z.
    rewrite bpow_opp; destruct Hj as [->|[-> O]]; [left|right; split; [|exact O]]; [reflexivity|].
    field; pose proof (bpow_gt_0 radix2 j); lra.
Qed.

Lemma scalable_abs rnd c : scalable rnd c -> scalable rnd (Rabs c).
Proof.
  intros H; pose proof (scalable_nonzero _ _ H) as N.
  destruct H as [[H _]|[prec [mode [V [H [j Hj]]]]]].
  - left; split; [exact H|apply Rabs_no_R0, N].
  - right; exists prec, mode; split; [exact V|]; split; [exact H|]; exists j; left.
    destruct Hj as [->|[-> O]]; [|rewrite Rabs_Ropp]; apply Rabs_pos_eq, bpow_ge_0.
Qed.

Lemma scalable_round rnd c x : scalable rnd c -> rnd (c * x) = c * rnd x.
Proof.
  intros [[H _]|[prec [mode [V [H [k [->|[-> O]]]]]]]]; [rewrite !H; reflexivity| |].
  - rewrite !H; apply round_two_power, V.
  - rewrite <- Ropp_mult_distr_l, O, !H, round_two_power by exact V; ring.
Qed.

Lemma scalable_zero rnd c : scalable rnd c -> rnd 0 = 0.
Proof.
  intros [[H _]|[prec [mode [V [H _]]]]]; rewrite H; [reflexivity|apply round_0, V].
Qed.

Lemma scalable_scaling rnd eps tiny c : scalable rnd c ->
  scaling (xnum rnd eps tiny) (scalable rnd) scaled.
Proof.
  intros H; apply real_scaling.
  - exact (scalable_one _ _ H).
  - apply scalable_mult.
  - intros; apply scalable_mult; [assumption|apply scalable_inv; assumption].
  - apply scalable_abs.
  - apply scalable_nonzero.
  - intros; apply scalable_round; assumption.
  - exact (scalable_zero _ _ H).
Qed.

(** ** Binary64, factors 1 and -1 *)

Definition unit_of (b : bool) : R := if b then -1 else 1.
Definition signed (c : R) (x y : b64) : Prop :=
  exists b, c = unit_of b /\ unsigned_zero (neg_if b x) = unsigned_zero y.

Lemma unit_mult b d : unit_of b * unit_of d = unit_of (xorb b d).
Proof. destruct b, d; cbn; ring. Qed.
Lemma unit_div b d : unit_of b / unit_of d = unit_of (xorb b d).
Proof. destruct b, d; cbn; field. Qed.
Lemma unit_inj b d : unit_of b = unit_of d -> b = d.
Proof. destruct b, d; cbn; intros; try reflexivity; lra. Qed.
Lemma unit_pos b : 0 < unit_of b -> b = false.
Proof. destruct b; cbn; intros; [lra|reflexivity]. Qed.

Notation uz := unsigned_zero.

Lemma uz_flip b x : uz (neg_if b (uz x)) = uz (neg_if b x).
Proof. destruct b, x as [[]|[]| |]; reflexivity. Qed.

Lemma round_aux_flip b s m e l :
  binary_round_aux 53 1024 (xorb b s) m e l = neg_if b (binary_round_aux 53 1024 s m e l).
Proof.
  unfold binary_round_aux.
  destruct (shr_fexp _ _ _ _ _) as [mrs e1].
  destruct (shr_fexp _ _ _ _ _) as [mrs' e2].
  destruct b; [|rewrite xorb_false_l; reflexivity]; rewrite xorb_true_l.
  destruct (shr_m mrs'); try reflexivity; destruct (e2 <=? 1024 - 53)%Z; reflexivity.
Qed.

Lemma normalize_opp z e :
  uz (binary_normalize 53 1024 (- z) e false) = uz (SFopp (binary_normalize 53 1024 z e false)).
Proof.
  destruct z as [|p|p]; [reflexivity| |]; cbn [Z.opp binary_normalize]; f_equal;
    unfold binary_round; destruct (shl_align _ _ _) as [mz ez].
  - exact (round_aux_flip true false _ _ _).
  - exact (round_aux_flip true true _ _ _).
Qed.

Lemma add_uz x y : uz (SFadd 53 1024 (uz x) (uz y)) = uz (SFadd 53 1024 x y).
Proof. destruct x as [[]|[]| |], y as [[]|[]| |]; reflexivity. Qed.
Lemma sub_uz x y : uz (SFsub 53 1024 (uz x) (uz y)) = uz (SFsub 53 1024 x y).
Proof. destruct x as [[]|[]| |], y as [[]|[]| |]; reflexivity. Qed.
Lemma mul_uz x y : uz (SFmul 53 1024 (uz x) (uz y)) = uz (SFmul 53 1024 x y).
Proof. destruct x as [[]|[]| |], y as [[]|[]| |]; reflexivity. Qed.
Lemma div_uz x y : uz (SFdiv 53 1024 (uz x) y) = uz (SFdiv 53 1024 x y).
Proof. destruct x as [[]|[]| |], y as [[]|[]| |]; reflexivity. Qed.

Lemma add_flip b x y :
  uz (SFadd 53 1024 (neg_if b x) (neg_if b y)) = uz (neg_if b (SFadd 53 1024 x y)).
Proof.
  destruct b; [|reflexivity].
  destruct x as [[]|[]| |sx mx ex], y as [[]|[]| |sy my ey]; try reflexivity.
  cbn [neg_if SFadd SFopp]; rewrite <- normalize_opp; f_equal; f_equal.
  destruct sx, sy; cbn [negb cond_Zopp]; lia.
Qed.

Lemma sub_flip b x y :
  uz (SFsub 53 1024 (neg_if b x) (neg_if b y)) = uz (neg_if b (SFsub 53 1024 x y)).
Proof.
  destruct b; [|reflexivity].
  destruct x as [[]|[]| |sx mx ex], y as [[]|[]| |sy my ey]; try reflexivity.
  cbn [neg_if SFsub SFopp]; rewrite <- normalize_opp; f_equal; f_equal.
  destruct sx, sy; cbn [negb cond_Zopp]; lia.
Qed.

Lemma mul_flip b d x y :
  SFmul 53 1024 (neg_if b x) (neg_if d y) = neg_if (xorb b d) (SFmul 53 1024 x y).
Proof.
  destruct x as [[]|[]| |sx mx ex], y as [[]|[]| |sy my ey]; try (destruct b, d; reflexivity);
    try (destruct b, d, sx; reflexivity); try (destruct b, d, sy; reflexivity).
  destruct b, d; cbn [neg_if SFmul SFopp xorb]; try reflexivity.
  - f_equal; destruct sx, sy; reflexivity.
  - rewrite <- (round_aux_flip true); f_equal; destruct sx, sy; reflexivity.
  - rewrite <- (round_aux_flip true); f_equal; destruct sx, sy; reflexivity.
Qed.

Lemma div_flip b d x y :
  SFdiv 53 1024 (neg_if b x) (neg_if d y) = neg_if (xorb b d) (SFdiv 53 1024 x y).
Proof.
  destruct x as [[]|[]| |sx mx ex], y as [[]|[]| |sy my ey]; try (destruct b, d; reflexivity);
    try (destruct b, d, sx; reflexivity); try (destruct b, d, sy; reflexivity).
  destruct b, d; cbn [neg_if SFdiv SFopp xorb]; try reflexivity;
    destruct (SFdiv_core_binary _ _ _ _ _ _) as [[mz ez] lz].
  - f_equal; destruct sx, sy; reflexivity.
  - rewrite <- (round_aux_flip true); f_equal; destruct sx, sy; reflexivity.
  - rewrite <- (round_aux_flip true); f_equal; destruct sx, sy; reflexivity.
Qed.

(** Results that differ in the sign of zero only have equal squares. *)
Lemma uz_cases x y : uz x = uz y -> x = y \/ (exists s t, x = S754_zero s /\ y = S754_zero t).
Proof.
  destruct x as [s|s| |s m e], y as [t|t| |t n f]; cbn [unsigned_zero]; intros H;
    try discriminate H; try (left; congruence).
  right; exists s, t; split; reflexivity.
Qed.

Lemma compare_uz x y : SFcompare (uz x) (uz y) = SFcompare x y.
Proof. destruct x as [[]|[]| |], y as [[]|[]| |]; reflexivity. Qed.

Lemma ltb_uz x x' y y' : uz x = uz x' -> uz y = uz y' -> SFltb x y = SFltb x' y'.
Proof. intros Hx Hy; unfold SFltb; rewrite <- compare_uz, Hx, Hy, compare_uz; reflexivity. Qed.
Lemma leb_uz x x' y y' : uz x = uz x' -> uz y = uz y' -> SFleb x y = SFleb x' y'.
Proof. intros Hx Hy; unfold SFleb; rewrite <- compare_uz, Hx, Hy, compare_uz; reflexivity. Qed.

Lemma b64_zero : @n0 b64num = S754_zero false.
Proof. reflexivity. Qed.

Lemma eqb0_uz b x x' : uz (neg_if b x) = uz x' ->
  SFeqb x (S754_zero false) = SFeqb x' (S754_zero false).
Proof.
  destruct b, x as [[]|[]| |[]], x' as [[]|[]| |[]]; cbn; intros H; try discriminate H; try reflexivity.
Qed.

Lemma flip_flip b d x : neg_if b (neg_if d x) = neg_if (xorb b d) x.
Proof. destruct b, d, x as [[]|[]| |[]]; reflexivity. Qed.

Lemma by_signed b x x' y : uz (neg_if b x) = uz x' ->
  uz (neg_if b (SFdiv 53 1024 x y)) = uz (SFdiv 53 1024 x' y).
Proof.
  intros H; rewrite <- (div_uz x'), <- H, div_uz.
  replace (neg_if b (SFdiv 53 1024 x y)) with (neg_if (xorb b false) (SFdiv 53 1024 x y))
    by (rewrite xorb_false_r; reflexivity).
  rewrite <- div_flip; reflexivity.
Qed.

Lemma binary64_scaling : scaling b64num (fun c => exists b, c = unit_of b) signed.
Proof.
  split.
  - exists false; reflexivity.
  - intros c d [b ->] [b' ->]; eexists; apply unit_mult.
  - intros c d [b ->] [b' ->]; eexists; apply unit_div.
  - intros c [b ->]; exists false; destruct b; cbn [unit_of];
      [rewrite Rabs_left; lra|apply Rabs_R1].
  - intros c [[] ->]; cbn; lra.
  - intros x; exists false; split; reflexivity.
  - intros c [b ->]; exists b; split; [reflexivity|destruct b; reflexivity].
  - intros c x x' y y' _ [b [-> Hx]] [b' [E Hy]]; apply unit_inj in E; subst b'.
    exists b; split; [reflexivity|]; cbn [nadd b64num].
    rewrite <- add_flip, <- add_uz, Hx, Hy, add_uz; reflexivity.
  - intros c x x' y y' _ [b [-> Hx]] [b' [E Hy]]; apply unit_inj in E; subst b'.
    exists b; split; [reflexivity|]; cbn [nsub b64num].
    rewrite <- sub_flip, <- sub_uz, Hx, Hy, sub_uz; reflexivity.
  - intros c d x x' y y' _ _ [b [-> Hx]] [b' [-> Hy]].
    exists (xorb b b'); split; [apply unit_mult|]; cbn [nmul b64num].
    rewrite <- mul_flip, <- mul_uz, Hx, Hy, mul_uz; reflexivity.
  - intros c x x' y _ [b [-> Hx]]; exists b; split; [reflexivity|]; cbn [ndiv b64num].
    apply by_signed, Hx.
  - intros c d x x' y y' _ _ [b [-> Hx]] [b' [-> Hy]] N.
    exists (xorb b b'); split; [apply unit_div|]; cbn [ndiv b64num].
    rewrite <- div_flip, <- div_uz, Hx, div_uz; f_equal; f_equal.
    destruct (uz_cases _ _ Hy) as [E|[s [t [E _]]]]; [exact E|].
    exfalso; destruct b', y as [[]|[]| |[]]; discriminate E || discriminate N.
  - intros c d x x' y y' _ _ [b [-> Hx]] [b' [-> Hy]].
    exists b; split.
    { rewrite unit_mult, unit_div; destruct b, b'; reflexivity. }
    cbn [ndiv nmul b64num].
    replace (SFmul 53 1024 y' y') with (SFmul 53 1024 y y); [apply by_signed, Hx|].
    destruct (uz_cases _ _ Hy) as [E|[s [t [E E']]]].
    + rewrite <- E, mul_flip; destruct b'; reflexivity.
    + subst y'; destruct b', y as [[]|[]| |[]]; try discriminate E; destruct t; reflexivity.
  - intros c d x x' y y' [_ _] [b Hd] Pd [b' [-> Hx]] [b'' [E Hy]] L _; subst d.
    apply unit_pos in Pd; subst b.
    rewrite unit_mult in E; apply unit_inj in E; cbn [xorb] in E; subst b''.
    exists b'; split; [rewrite unit_div, xorb_false_r; reflexivity|]; cbn [ndiv nsqrt b64num].
    destruct (uz_cases _ _ Hy) as [E|[s [t [E E']]]]; cbn [neg_if] in E.
    + subst y'; apply by_signed, Hx.
    + subst y; destruct s; discriminate L.
  - intros c d x x' y y' [_ _] [b Hd] Pd [b' [-> Hx]] [b'' [E Hy]]; subst d.
    apply unit_pos in Pd; subst b.
    rewrite unit_mult in E; apply unit_inj in E; cbn [xorb] in E; subst b''.
    exists b'; split; [rewrite !unit_mult, unit_div, xorb_false_r; reflexivity|].
    cbn [ndiv nsqrt nmul b64num].
    destruct (uz_cases _ _ Hy) as [E|[s [t [E E']]]]; cbn [neg_if] in E.
    + subst y'; apply by_signed, Hx.
    + subst y y'; destruct s, t; cbn [SFsqrt SFmul xorb]; apply by_signed, Hx.
  - intros c d x x' y y' [_ _] [b Hd] Pd [b' [-> Hx]] [b'' [E Hy]]; subst d.
    apply unit_pos in Pd; subst b.
    rewrite unit_mult in E; apply unit_inj in E; cbn [xorb] in E; subst b''.
    exists b'; split; [rewrite !unit_mult, unit_div, xorb_false_r; reflexivity|].
    cbn [ndiv nsqrt nmul b64num].
    destruct (uz_cases _ _ Hy) as [E|[s [t [E E']]]]; cbn [neg_if] in E.
    + subst y'; apply by_signed, Hx.
    + subst y y'; destruct s, t; cbn [SFsqrt SFmul xorb]; apply by_signed, Hx.
  - intros c x x' y y' _ Pc [b [-> Hx]] [b' [E Hy]]; apply unit_inj in E; subst b'.
    apply unit_pos in Pc; subst b; apply ltb_uz; assumption.
  - intros c x x' y y' _ Pc [b [-> Hx]] [b' [E Hy]]; apply unit_inj in E; subst b'.
    apply unit_pos in Pc; subst b; apply leb_uz; assumption.
  - intros c x x' _ [b [-> Hx]]; apply (eqb0_uz b), Hx.
  - intros [[]|[]| |[]]; cbn; try discriminate; reflexivity.
Qed.

Lemma signed_same x y : signed 1 x y -> uz x = uz y.
Proof. intros [b [E H]]; apply (unit_inj false) in E; subst b; exact H. Qed.
Lemma signed_opp x y : signed (-1) x y -> uz (SFopp x) = uz y.
Proof. intros [b [E H]]; apply (unit_inj true) in E; subst b; exact H. Qed.
