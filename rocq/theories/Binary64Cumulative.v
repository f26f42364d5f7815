(** * Cumulative moments in binary64 *)

From Coq Require Import Reals ZArith NArith Bool List Lia Lra Psatz.
From Coq Require Import Floats.SpecFloat.
From Flocq Require Import Core.
From Flocq Require Import IEEE754.BinarySingleNaN.
From Verif Require Import Arith History HistoryLemmas Cumulative CumulativeProofs
  Rounded RoundedProofs Binary64.
Import ListNotations.
Local Open Scope R_scope.

#[global] Instance prec53 : Prec_gt_0 53 := eq_refl _.
#[global] Instance validNE : Valid_rnd ZnearestE := valid_rnd_N _.

Notation F64 := (rounded (-1074) 53 ZnearestE).

Lemma rnd64_rounding x : rnd64 x = rounding (-1074) 53 ZnearestE x.
Proof. reflexivity. Qed.

(** A double and the real it denotes. *)
Definition denotes (x : b64) (r : R) : Prop := b64_finite x /\ b64_real x = r.

Lemma denotes_add x y a b : denotes x a -> denotes y b -> in_range (rnd64 (a + b)) ->
  denotes (SFadd 53 1024 x y) (rnd64 (a + b)).
Proof. intros [F <-] [G <-] I. apply add_real; assumption. Qed.
Lemma denotes_sub x y a b : denotes x a -> denotes y b -> in_range (rnd64 (a - b)) ->
  denotes (SFsub 53 1024 x y) (rnd64 (a - b)).
Proof. intros [F <-] [G <-] I. apply sub_real; assumption. Qed.
Lemma denotes_mul x y a b : denotes x a -> denotes y b -> in_range (rnd64 (a * b)) ->
  denotes (SFmul 53 1024 x y) (rnd64 (a * b)).
Proof. intros [F <-] [G <-] I. apply mul_real; assumption. Qed.
Lemma denotes_div x y a b : denotes x a -> denotes y b -> b <> 0 -> in_range (rnd64 (a / b)) ->
  denotes (SFdiv 53 1024 x y) (rnd64 (a / b)).
Proof. intros [F <-] [G <-] N I. apply div_real; assumption. Qed.

Lemma denotes_rep x r : denotes x r -> rep64 r.
Proof. intros [F <-]. apply b64_real_rep. exact F. Qed.
Lemma denotes_range x r : denotes x r -> in_range r.
Proof. intros [F <-]. apply b64_real_bound. exact F. Qed.

Lemma denotes_zero : denotes (b64_of_Z 0) 0.
Proof. split; [split; reflexivity|reflexivity]. Qed.

(** A sufficient bound for every operation below. *)
Definition half_range (r : R) : Prop := Rabs r < bpow radix2 1023.

Lemma in_range_rnd r b : rep64 b -> Rabs r <= b -> b < bpow radix2 1024 -> in_range (rnd64 r).
Proof.
  intros Rb L B. unfold in_range. rewrite <- rnd64_abs.
  apply Rle_lt_trans with (2 := B). rewrite <- (rnd64_rep b Rb). apply rnd64_le. exact L.
Qed.

Lemma half_range_sub a b : rep64 a -> rep64 b -> half_range a -> half_range b ->
  in_range (rnd64 (a - b)).
Proof.
  intros Ra Rb Ha Hb. set (p := pred radix2 (FLT_exp (-1074) 53) (bpow radix2 1023)).
  assert (F : rep64 (bpow radix2 1023)) by (apply rep64_bpow; lia).
  assert (Fp : rep64 p) by (apply generic_format_pred; [exact vexp64|exact F]).
  assert (Pa : forall c, rep64 c -> half_range c -> Rabs c <= p).
  { intros c Rc Hc. apply pred_ge_gt; [exact vexp64|apply rep64_abs; exact Rc|exact F|exact Hc]. }
  apply (in_range_rnd _ (p * 2)).
  - apply fmt_double; [exact prec53|exact Fp].
  - pose proof (Pa a Ra Ha). pose proof (Pa b Rb Hb).
    pose proof (Rabs_triang a (- b)) as T. rewrite Rabs_Ropp in T. unfold Rminus. lra.
  - assert (p < bpow radix2 1023).
    { apply pred_lt_id. apply Rgt_not_eq. apply bpow_gt_0. }
    change (bpow radix2 1024) with (bpow radix2 (1023 + 1)). rewrite bpow_plus.
    change (bpow radix2 1) with 2. lra.
Qed.

Lemma in_range_div a c : rep64 a -> in_range a -> 1 <= c -> in_range (rnd64 (a / c)).
Proof.
  intros Ra Ia Hc. apply (in_range_rnd _ (Rabs a)); [apply rep64_abs; exact Ra| |exact Ia].
  unfold Rdiv. rewrite Rabs_mult. rewrite <- (Rmult_1_r (Rabs a)) at 2.
  apply Rmult_le_compat_l; [apply Rabs_pos|].
  rewrite Rabs_pos_eq by (apply Rlt_le, Rinv_0_lt_compat; lra).
  rewrite <- Rinv_1. apply Rinv_le; lra.
Qed.

Lemma half_in_range r : half_range r -> in_range r.
Proof. intros H. unfold half_range, in_range in *. apply Rlt_trans with (1 := H). apply bpow_lt. lia. Qed.

Lemma szmod_bpow : IZR (Z.of_N szmod) = bpow radix2 64.
Proof. reflexivity. Qed.

Lemma count_denotes k : (1 <= k)%N -> (k < szmod)%N ->
  denotes (@nofsz b64num k) (rnd64 (IZR (Z.of_N k))).
Proof.
  intros H1 H2. apply of_Z_real. apply (in_range_rnd _ (bpow radix2 64)).
  - apply rep64_bpow. lia.
  - rewrite <- abs_IZR, <- szmod_bpow. apply IZR_le. lia.
  - apply bpow_lt. lia.
Qed.

Definition okl (l : list b64num) : Prop :=
  Forall (fun x : b64num => b64_finite x /\ half_range (b64_real x)) l.

Lemma hull_half m (l : list b64num) : okl l -> in_hull m (map b64_real l) -> half_range m.
Proof.
  intros H [(a & Ia & La) (b & Ib & Lb)]. apply in_map_iff in Ia. apply in_map_iff in Ib.
  destruct Ia as (x & <- & Ix), Ib as (y & <- & Iy). unfold okl in H. rewrite Forall_forall in H.
  destruct (H _ Ix) as [_ Hx], (H _ Iy) as [_ Hy]. unfold half_range in *.
  apply Rabs_lt_inv in Hx. apply Rabs_lt_inv in Hy. apply Rabs_lt. lra.
Qed.

Lemma okl_fmt l : okl l -> Forall (generic_format radix2 (FLT_exp (-1074) 53)) (map b64_real l).
Proof.
  intros H. apply Forall_map. eapply Forall_impl; [|exact H]. intros x [F _].
  apply b64_real_rep. exact F.
Qed.

(** The machine mean denotes the mean of the rounded machine. *)
Lemma cmean_b64 (l : list b64num) : okl l -> (N.of_nat (length l) < szmod)%N ->
  exists m r, fold_left (cmean_push b64num) l (cmean_init b64num) = CMean b64num m (N.of_nat (length l)) /\
    fold_left (cmean_push F64) (ffins (-1074) 53 ZnearestE (map b64_real l)) (cmean_init F64) =
      CMean F64 (Fin r) (N.of_nat (length l)) /\
    denotes m r /\ half_range r.
Proof.
  induction l as [|x l IH] using rev_ind; intros OK HL.
  - exists (b64_of_Z 0), 0. split; [reflexivity|]. split.
    + cbn. unfold cmean_init, n0. f_equal. change (@nofz F64 0) with (Fin (rnd64 0)). rewrite rnd64_0. reflexivity.
    + split; [apply denotes_zero|]. unfold half_range. rewrite Rabs_R0. apply bpow_gt_0.
  - pose proof OK as OK'. apply Forall_app in OK'. destruct OK' as [OKl Hx].
    inversion Hx as [|? ? [Fx Hhx] _]; subst.
    destruct IH as (m & r & E & E' & D & Hr); [exact OKl|rewrite length_snoc in HL; lia|].
    destruct (cmean_rounded (-1074) 53 ltac:(lia) ZnearestE (map b64_real (l ++ [x]))) as (r' & Er & Fr & Hh).
    { destruct l; discriminate. } { rewrite map_length; exact HL. } { apply okl_fmt. exact OK. }
    pose proof (hull_half _ _ OK Hh) as Hr'.
    assert (ST : fold_left (cmean_push F64) (ffins (-1074) 53 ZnearestE (map b64_real (l ++ [x]))) (cmean_init F64) =
      cmean_push F64 (fold_left (cmean_push F64) (ffins (-1074) 53 ZnearestE (map b64_real l)) (cmean_init F64)) (Fin (b64_real x))).
    { unfold ffins. rewrite !map_app, fold_left_app. reflexivity. }
    rewrite ST, E' in Er. rewrite ST, E'. rewrite map_length in Er. rewrite length_snoc in *.
    destruct (cmean_push_fin (-1074) 53 ltac:(lia) ZnearestE r (N.of_nat (length l)) (b64_real x)) as (c & Ec & C1 & _ & Ep); [lia|].
    rewrite Ep in *. injection Er as Em _.
    rewrite fold_left_app, E. cbn [fold_left]. unfold cmean_push. cbn [cm_mean cm_count].
    rewrite szadd_small by lia.
    exists (@nadd b64num m (@ndiv b64num (@nsub b64num x m) (@nofsz b64num (N.of_nat (length l) + 1)))), r'.
    split; [f_equal; lia|]. rewrite Em. split; [f_equal; lia|]. split; [|exact Hr'].
    assert (Dx : denotes x (b64_real x)) by (split; [exact Fx|reflexivity]).
    pose proof (denotes_sub _ _ _ _ Dx D (half_range_sub _ _ (denotes_rep _ _ Dx) (denotes_rep _ _ D) Hhx Hr)) as Dd.
    assert (Dc : denotes (@nofsz b64num (N.of_nat (length l) + 1)) c).
    { rewrite Ec. apply count_denotes; lia. }
    pose proof (denotes_div _ _ _ _ Dd Dc ltac:(lra) (in_range_div _ _ (denotes_rep _ _ Dd) (denotes_range _ _ Dd) C1)) as Dq.
    rewrite <- Em. apply denotes_add; [exact D|exact Dq|].
    apply half_in_range. change (half_range (mean_step (-1074) 53 ZnearestE r (b64_real x) c)).
    rewrite Em. exact Hr'.
Qed.

(** ** Variance *)

(** Nonnegative: a finite nonnegative double or positive infinity. *)
Definition nonneg64 (v : b64) : Prop :=
  (b64_finite v /\ 0 <= b64_real v) \/ v = S754_infinity false.

Lemma nonneg64_leb v : nonneg64 v -> SFleb (S754_zero false) v = true.
Proof.
  intros [[F H]| ->]; [|reflexivity].
  rewrite leb_real; [|split; reflexivity|exact F]. apply Rle_bool_true. exact H.
Qed.

Lemma add_overflow_pos x y : b64_finite x -> b64_finite y -> 0 <= b64_real x -> 0 <= b64_real y ->
  ~ in_range (rnd64 (b64_real x + b64_real y)) ->
  SFadd 53 1024 x y = S754_infinity false.
Proof.
  intros H1 H2 P1 P2 HR.
  assert (Px : 0 < b64_real x).
  { destruct P1 as [P|P]; [exact P|]. exfalso. apply HR. rewrite <- P, Rplus_0_l, rnd64_rep.
    - apply b64_real_bound. exact H2.
    - apply b64_real_rep. exact H2. }
  pose proof (sign_real x H1 Px) as Sx.
  destruct (b64_finite_B x H1) as (a & <- & Fa), (b64_finite_B y H2) as (b & <- & Fb).
  rewrite add_B, !B_real in *.
  pose proof (Bplus_correct 53 1024 (eq_refl : FLX.Prec_gt_0 53) (eq_refl : Prec_lt_emax 53 1024) mode_NE a b Fa Fb) as C.
  rewrite Rlt_bool_false in C. 2:{ apply Rnot_lt_le. exact HR. }
  destruct C as (C & _).
  assert (Sa : Bsign a = false) by (clear - Sx; destruct a; first [reflexivity|exact Sx]).
  rewrite Sa in C. exact C.
Qed.

Lemma in_range_dec r : in_range r \/ ~ in_range r.
Proof. unfold in_range. destruct (Rlt_dec (Rabs r) (bpow radix2 1024)); auto. Qed.

Lemma rnd64_pos x : 0 <= x -> 0 <= rnd64 x.
Proof. intros H. rewrite <- rnd64_0. apply rnd64_le. exact H. Qed.

Lemma nonneg64_add x y : nonneg64 x -> nonneg64 y -> nonneg64 (SFadd 53 1024 x y).
Proof.
  intros [[Fx Px]| ->] [[Fy Py]| ->].
  - destruct (in_range_dec (rnd64 (b64_real x + b64_real y))) as [I|I].
    + destruct (add_real x y Fx Fy I) as (F & R). left. split; [exact F|]. rewrite R. apply rnd64_pos. lra.
    + right. apply add_overflow_pos; assumption.
  - right. destruct Fx as [_ Fx]. destruct x; try discriminate; reflexivity.
  - right. destruct Fy as [_ Fy]. destruct y; try discriminate; reflexivity.
  - right. reflexivity.
Qed.

Lemma sign_neg x : b64_finite x -> b64_real x < 0 -> sign_SF x = true.
Proof.
  intros _. destruct x as [s|s| |s m e]; unfold b64_real; cbn [SF2R]; intros H; try lra.
  destruct s; [reflexivity|]. exfalso.
  pose proof (F2R_gt_0 radix2 (Float radix2 (Zpos m) e) eq_refl). cbn in H. lra.
Qed.

Lemma nonneg64_mul x y : b64_finite x -> b64_finite y -> 0 <= b64_real x * b64_real y ->
  nonneg64 (SFmul 53 1024 x y).
Proof.
  intros Fx Fy P. destruct (in_range_dec (rnd64 (b64_real x * b64_real y))) as [I|I].
  - destruct (mul_real x y Fx Fy I) as (F & R). left. split; [exact F|]. rewrite R. apply rnd64_pos. exact P.
  - right. rewrite mul_overflow by assumption. f_equal.
    assert (NZ : b64_real x * b64_real y <> 0).
    { intros E. apply I. rewrite E, rnd64_0. unfold in_range. rewrite Rabs_R0. apply bpow_gt_0. }
    assert (PP : 0 < b64_real x * b64_real y) by lra. clear - PP Fx Fy.
    destruct (Rlt_le_dec 0 (b64_real x)) as [X|X].
    + assert (Y : 0 < b64_real y).
      { apply Rmult_lt_reg_l with (b64_real x); [exact X|]. rewrite Rmult_0_r. exact PP. }
      rewrite (sign_real x Fx X), (sign_real y Fy Y). reflexivity.
    + assert (X' : b64_real x < 0).
      { destruct X as [X|X]; [exact X|]. rewrite X in PP. lra. }
      assert (Y : b64_real y < 0).
      { apply Ropp_lt_cancel. rewrite Ropp_0. apply Rmult_lt_reg_l with (- b64_real x); [lra|].
        rewrite Rmult_0_r, Rmult_opp_opp. exact PP. }
      rewrite (sign_neg x Fx X'), (sign_neg y Fy Y). reflexivity.
Qed.

Lemma nonneg64_div x c r : nonneg64 x -> denotes c r -> 1 <= r -> nonneg64 (SFdiv 53 1024 x c).
Proof.
  intros [[Fx Px]| ->] D Hr.
  - left. assert (Dx : denotes x (b64_real x)) by (split; [exact Fx|reflexivity]).
    destruct (denotes_div x c _ _ Dx D) as (F & R); [lra| |].
    + apply in_range_div; [apply b64_real_rep; exact Fx|apply b64_real_bound; exact Fx|exact Hr].
    + split; [exact F|]. rewrite R. apply rnd64_pos. apply Rmult_le_pos; [exact Px|].
      apply Rlt_le, Rinv_0_lt_compat. lra.
  - right. destruct D as [F E]. pose proof (sign_real c F ltac:(lra)) as S. destruct F as [_ F].
    destruct c as [s|s| |s m e]; try discriminate; cbn in S; subst; try reflexivity.
Qed.

Lemma cvar_b64 (l : list b64num) : okl l -> (N.of_nat (length l) < szmod)%N ->
  nonneg64 (cv_sum b64num (fold_left (cvar_push b64num) l (cvar_init b64num))).
Proof.
  induction l as [|x l IH] using rev_ind; intros OK HL.
  - left. split; [split; reflexivity|]. cbn. lra.
  - destruct (cmean_b64 (l ++ [x]) OK HL) as (m' & r' & E' & Er' & D' & H').
    pose proof OK as OK2. apply Forall_app in OK2. destruct OK2 as [OKl Hx].
    inversion Hx as [|? ? [Fx Hhx] _]; subst. rewrite length_snoc in HL.
    destruct (cmean_b64 l OKl) as (m & r & E & Er & D & H); [lia|].
    rewrite fold_left_app in *. cbn [fold_left] in *.
    unfold cvar_push. cbn [cv_sum]. rewrite cvar_fold_super.
    change (cv_super b64num (cvar_init b64num)) with (cmean_init b64num).
    rewrite E in *. cbn [cmean_mean cm_mean]. rewrite E'. cbn [cmean_mean cm_mean].
    apply nonneg64_add; [apply IH; [exact OKl|lia]|].
    assert (Dx : denotes x (b64_real x)) by (split; [exact Fx|reflexivity]).
    destruct (denotes_sub _ _ _ _ Dx D (half_range_sub _ _ (denotes_rep _ _ Dx) (denotes_rep _ _ D) Hhx H)) as (F1 & R1).
    destruct (denotes_sub _ _ _ _ Dx D' (half_range_sub _ _ (denotes_rep _ _ Dx) (denotes_rep _ _ D') Hhx H')) as (F2 & R2).
    apply nonneg64_mul; [exact F1|exact F2|].
    change (@nsub b64num) with (SFsub 53 1024). rewrite R1, R2.
    assert (ST : fold_left (cmean_push F64) (ffins (-1074) 53 ZnearestE (map b64_real (l ++ [x]))) (cmean_init F64) =
      cmean_push F64 (fold_left (cmean_push F64) (ffins (-1074) 53 ZnearestE (map b64_real l)) (cmean_init F64)) (Fin (b64_real x))).
    { unfold ffins. rewrite !map_app, fold_left_app. reflexivity. }
    rewrite ST, Er in Er'. clear ST.
    destruct (cmean_push_fin (-1074) 53 ltac:(lia) ZnearestE r (N.of_nat (length l)) (b64_real x)) as (c & Ec & C1 & C2 & Ep); [lia|].
    rewrite Ep in Er'. injection Er' as Em _.
    assert (B : (Rmin r (b64_real x) <= r' <= Rmax r (b64_real x))%R).
    { destruct l as [|y l'].
      - cbn in Er. injection Er as Er. change (rounding (-1074) 53 ZnearestE 0) with (rnd64 0) in Er.
        rewrite rnd64_0 in Er. subst r. cbn [length N.of_nat] in Ec. change (IZR (Z.of_N (0 + 1))) with 1 in Ec.
        subst c. rewrite (mean_step_1 (-1074) 53 ltac:(lia) ZnearestE (b64_real x) (b64_real_rep x Fx)) in Em.
        subst r'. split; [apply Rmin_r|apply Rmax_r].
      - rewrite <- Em. apply (mean_step_between (-1074) 53 ZnearestE); [apply (denotes_rep _ _ D)|apply (denotes_rep _ _ Dx)|].
        apply C2. cbn. lia. }
    unfold Rmin, Rmax in B. destruct (Rle_dec r (b64_real x)).
    + apply Rmult_le_pos; apply rnd64_pos; lra.
    + assert (A1 : rnd64 (b64_real x - r) <= 0) by (rewrite <- rnd64_0; apply rnd64_le; lra).
      assert (A2 : rnd64 (b64_real x - r') <= 0) by (rewrite <- rnd64_0; apply rnd64_le; lra). nra.
Qed.
