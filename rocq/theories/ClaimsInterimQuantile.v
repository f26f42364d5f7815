(** * Claims C98: the interim quantile estimator in floating point *)

From Coq Require Import Reals ZArith NArith QArith_base List Bool.
From Coq Require Import Floats.SpecFloat.
From Flocq Require Import Core.
From Verif Require Import Arith History SpecBlocks Psquare InterimPsquare SpecCopies Rounded Binary64.
Import ListNotations.
Local Open Scope R_scope.
(* @end-header *)
From Coq Require Import Lia Lra Psatz.
From Flocq Require BinarySingleNaN.
From Verif Require Import HistoryLemmas BlockLemmas WindowProofs RoundedProofs Binary64Cumulative Approx ApproxInstances
  CorrectRounding AccuracyInterim PsquareFew ClaimsAccuracy ClaimsRegression ClaimsPsquareFloat.
From Verif Require PsquareOrdered PsquareGeneric ClaimsInterimPsquare.

(** The combination of two estimates *)
Lemma combine_b64 (p a : b64) (wp wa : N) (M : R) :
  b64_finite p -> b64_finite a -> Rabs (b64_real p) <= M -> Rabs (b64_real a) <= M -> M <= bpow radix2 980 ->
  (1 <= wp + wa)%N -> (wp + wa <= 2 ^ 30)%N ->
  let r := ndiv (nadd (nmul (p : b64num) (nofsz wp)) (nmul (a : b64num) (nofsz wa))) (nofsz (wp + wa)) in
  let WP := IZR (Z.of_N wp) in let WA := IZR (Z.of_N wa) in
  b64_finite r /\
  Rabs (b64_real r - (b64_real p * WP + b64_real a * WA) / (WP + WA)) <= 7 * (bpow radix2 (-53) * M) + 11 * bpow radix2 (-1075) /\
  b64_real r = rounding (-1074) 53 ZnearestE (rounding (-1074) 53 ZnearestE
    (rounding (-1074) 53 ZnearestE (b64_real p * WP) + rounding (-1074) 53 ZnearestE (b64_real a * WA)) / (WP + WA)).
Proof.
  intros Fp Fa Hp Ha HM H1 H2 r WP WA.
  assert (M0 : 0 <= M) by (eapply Rle_trans; [apply Rabs_pos|exact Hp]).
  assert (P0 : 0 <= WP) by (apply IZR_le; lia). assert (A0 : 0 <= WA) by (apply IZR_le; lia).
  assert (D1 : 1 <= WP + WA) by (unfold WP, WA; rewrite <- plus_IZR; apply IZR_le; lia).
  assert (D2 : WP + WA <= bpow radix2 30).
  { unfold WP, WA. rewrite <- plus_IZR. change (bpow radix2 30) with (IZR 1073741824). apply IZR_le. lia. }
  assert (K53 : (wp + wa <= Z.to_N (2 ^ 53))%N) by (eapply N.le_trans; [exact H2|vm_compute; discriminate]).
  pose proof (weight_val approx_b64 denotes_zero) as WV.
  assert (Vp : denotes (nofsz wp : b64num) WP) by (apply WV; lia).
  assert (Va : denotes (nofsz wa : b64num) WA) by (apply WV; lia).
  assert (Vd : denotes (nofsz (wp + wa) : b64num) (WP + WA)).
  { unfold WP, WA. rewrite <- plus_IZR, <- N2Z.inj_add. apply WV. exact K53. }
  assert (B1 : M * bpow radix2 30 <= bpow radix2 1010).
  { replace 1010%Z with (980 + 30)%Z by lia. rewrite bpow_plus. apply Rmult_le_compat_r; [apply bpow_ge_0|exact HM]. }
  assert (B2 : 8 * bpow radix2 1010 <= bpow radix2 1023).
  { change 8 with (bpow radix2 3). rewrite <- bpow_plus. apply bpow_le. lia. }
  assert (PB : forall x w, Rabs x <= M -> 0 <= w -> w <= WP + WA -> Rabs (x * w) <= bpow radix2 1010).
  { intros x w X W0 W1. rewrite Rabs_mult, (Rabs_pos_eq w) by exact W0. eapply Rle_trans; [|exact B1].
    apply Rmult_le_compat; [apply Rabs_pos|exact W0|exact X|lra]. }
  assert (Q1 := PB _ _ Hp P0 ltac:(lra)). assert (Q2 := PB _ _ Ha A0 ltac:(lra)).
  assert (T0 : 0 <= bpow radix2 1010) by apply bpow_ge_0.
  destruct correct_b64 as [_ Inj Add _ Mul Div _ _ _ _ _ _].
  pose proof (Mul p (nofsz wp) _ _ (denotes_fin p Fp) Vp ltac:(lra)) as C1.
  pose proof (Mul a (nofsz wa) _ _ (denotes_fin a Fa) Va ltac:(lra)) as C2.
  destruct (ap_mul _ _ _ _ _ _ approx_b64 p (nofsz wp) _ _ (denotes_fin p Fp) Vp ltac:(lra)) as (r1 & V1 & N1).
  destruct (ap_mul _ _ _ _ _ _ approx_b64 a (nofsz wa) _ _ (denotes_fin a Fa) Va ltac:(lra)) as (r2 & V2 & N2).
  destruct (wavg_err approx_b64 _ _ _ (b64_real p) (b64_real a) WP WA M r1 r2 V1 N1 V2 N2 Vd Hp Ha P0 A0 D1) as (v & (Fv & Ev) & Hv).
  { assert (MW : M * (WP + WA) <= bpow radix2 1010).
    { eapply Rle_trans; [|exact B1]. apply Rmult_le_compat_l; [exact M0|exact D2]. }
    assert (T1 : 5 * bpow radix2 (-1075) <= bpow radix2 1010).
    { apply Rle_trans with (bpow radix2 3 * bpow radix2 (-1075)); [apply Rmult_le_compat_r; [apply bpow_ge_0|cbn; lra]|].
      rewrite <- bpow_plus. apply bpow_le. lia. }
    nra. }
  fold r in Fv, Ev. rewrite Ev. split; [exact Fv|]. split; [exact Hv|].
  (* the value as rounded operations *)
  set (R1 := rounding (-1074) 53 ZnearestE (b64_real p * WP)) in *. set (R2 := rounding (-1074) 53 ZnearestE (b64_real a * WA)) in *.
  assert (G : forall k x, (-1074 <= k)%Z -> Rabs x <= bpow radix2 k -> Rabs (rounding (-1074) 53 ZnearestE x) <= bpow radix2 k).
  { intros k x Hk Hx. unfold rounding. apply abs_round_le_generic; [typeclasses eauto|typeclasses eauto| |exact Hx].
    apply generic_format_bpow. unfold FLT_exp. lia. }
  assert (Q3 : Rabs R1 <= bpow radix2 1010) by (apply G; [lia|exact Q1]).
  assert (Q4 : Rabs R2 <= bpow radix2 1010) by (apply G; [lia|exact Q2]).
  assert (Q5 : Rabs (R1 + R2) <= bpow radix2 1011).
  { eapply Rle_trans; [apply Rabs_triang|]. replace 1011%Z with (1 + 1010)%Z by lia. rewrite bpow_plus. change (bpow radix2 1) with 2. lra. }
  assert (L1 : bpow radix2 1011 <= bpow radix2 1023) by (apply bpow_le; lia).
  pose proof (Add _ _ _ _ C1 C2 ltac:(lra)) as C3.
  set (R3 := rounding (-1074) 53 ZnearestE (R1 + R2)) in *.
  assert (Q6 : Rabs R3 <= bpow radix2 1011) by (apply G; [lia|exact Q5]).
  assert (Q7 : Rabs (R3 / (WP + WA)) <= bpow radix2 1023).
  { unfold Rdiv. rewrite Rabs_mult, (Rabs_pos_eq (/ _)) by (apply Rlt_le, Rinv_0_lt_compat; lra).
    apply Rle_trans with (Rabs R3 * 1); [|lra]. apply Rmult_le_compat_l; [apply Rabs_pos|].
    rewrite <- Rinv_1. apply Rinv_le_contravar; lra. }
  pose proof (Div _ _ _ _ C3 Vd ltac:(lra) Q7) as (_ & E). fold r in E. rewrite <- Ev. exact E.
Qed.

Lemma history_program (o : nat) (ops : list (op b64num)) (H : nat) (qs : list b64num) :
  (0 < H)%nat -> (N.of_nat (2 * H) < szmod)%N ->
  exists h, exec b64num (N.of_nat (2 * H)) qs
    (New o :: map (fun p => match p with Push x => PushTo o x | Clear => ClearOf o end) ops) = Some h.
Proof. intros HH H64. destruct (ClaimsInterimPsquare.c43 b64num H qs o ops 0 HH H64) as (h & E & _). exists h. exact E. Qed.

Lemma hull_bounds (v : R) (l : list b64) (P : R -> Prop) lo hi :
  in_hull v (map b64_real l) -> (forall x, In x l -> lo <= b64_real x <= hi) -> lo <= v <= hi.
Proof.
  intros ((a & Ia & Ha) & (b & Ib & Hb)) H. apply in_map_iff in Ia. destruct Ia as (x & <- & Ix).
  apply in_map_iff in Ib. destruct Ib as (y & <- & Iy). pose proof (H x Ix). pose proof (H y Iy). lra.
Qed.

(** @prop C98_range_binary64: for double, quantiles between 0 and 1 - 2^-50, half windows of
    1 to 2^27 values and every history whose last W values are finite with magnitude at
    most [M] (at most 2^980): every get<i> is defined and finite, and lies between the
    smallest and the largest of the last W values up to [7 u M + 11 eta]; while at most W/2
    values were pushed it lies in that range without tolerance. *)
Lemma c98_range : forall (H : nat) (qs : list b64num) (o : nat) (ops : list (op b64num)) (i : nat) (M lo hi : R),
  (0 < H)%nat -> (N.of_nat H <= 2 ^ 27)%N ->
  Forall (fun q : b64num => b64_finite q /\ 0 <= b64_real q <= 1 - bpow radix2 (-50)) qs ->
  (i <= length qs + 1)%nat -> M <= bpow radix2 980 ->
  let W := N.of_nat (2 * H) in
  let l := since_clear ops in
  l <> [] ->
  (forall x : b64num, In x (lastn (2 * H) l) -> b64_finite x /\ Rabs (b64_real x) <= M /\ lo <= b64_real x <= hi) ->
  exists h v, exec b64num W qs
      (New o :: map (fun p => match p with Push x => PushTo o x | Clear => ClearOf o end) ops) = Some h /\
    ipq_get b64num W qs h o i = Some v /\ b64_finite v /\
    let slop := 7 * (bpow radix2 (-53) * M) + 11 * bpow radix2 (-1075) in
    lo - slop <= b64_real v <= hi + slop /\
    ((length l <= H)%nat -> lo <= b64_real v <= hi).
Proof.
  intros H qs o ops i M lo hi HH HH27 Hq Hi HM W l Hl Hd.
  assert (H64 : (N.of_nat (2 * H) < szmod)%N) by (unfold szmod; lia).
  destruct (ClaimsInterimPsquare.c43 b64num H qs o ops i HH H64) as (h & E & _ & G1 & G2). fold W l in E, G1, G2.
  exists h.
  assert (SL : 0 <= 7 * (bpow radix2 (-53) * M) + 11 * bpow radix2 (-1075)).
  { destruct (exists_last Hl) as (t & z & Ez).
    assert (Iz : In z (lastn (2 * H) l)).
    { rewrite Ez. replace (2 * H)%nat with (S (2 * H - 1)) by lia. rewrite (lastn_S_snoc 1%nat ltac:(lia)). apply in_or_app. right. left. reflexivity. }
    destruct (Hd z Iz) as (_ & Hz & _). pose proof (Rabs_pos (b64_real z)). pose proof (bpow_ge_0 radix2 (-53)). pose proof (bpow_ge_0 radix2 (-1075)). nra. }
  assert (EST : forall d : list b64num, d <> [] -> (length d <= H)%nat -> (forall x : b64num, In x d -> In x (lastn (2 * H) l)) ->
    exists x : b64num, psq_get b64num qs (run (psq_push b64num qs) (psq_clear b64num qs) (psq_init b64num qs) (pushes d)) i = Some x /\
      b64_finite x /\ lo <= b64_real x <= hi /\ Rabs (b64_real x) <= M).
  { intros d Hd0 Ld Id.
    destruct (c74_range_binary64 qs (pushes d) i Hq) as (x & Ex & Fx & Hx).
    - rewrite since_clear_pushes. apply Forall_forall. intros x Hx. destruct (Hd x (Id x Hx)) as (F1 & F2 & _). split; [exact F1|lra].
    - rewrite since_clear_pushes. exact Hd0.
    - rewrite since_clear_pushes. apply N.le_trans with (N.of_nat H); [lia|exact HH27].
    - exact Hi.
    - rewrite since_clear_pushes in Hx. exists x. split; [exact Ex|]. split; [exact Fx|]. split.
      + apply (hull_bounds _ d (fun _ => True)); [exact Hx|]. intros y Hy. apply Hd, Id, Hy.
      + apply Rabs_le. apply (hull_bounds _ d (fun _ => True)); [exact Hx|]. intros y Hy.
        destruct (Hd y (Id y Hy)) as (_ & F2 & _). apply Rabs_le_inv. exact F2. }
  destruct (le_lt_dec (length l) H) as [Hn|Hn].
  - destruct (EST l Hl Hn) as (x & Ex & Fx & Rx & _).
    { intros x Hx. rewrite lastn_short by lia. exact Hx. }
    exists x. split; [exact E|]. split; [rewrite (G1 Hn); exact Ex|]. split; [exact Fx|]. split; [lra|intros _; exact Rx].
  - pose proof (cur_block_le H HH l) as Hle. pose proof (cur_block_pos H HH l Hl) as Hpos.
    pose proof (long_prev H HH l Hn) as Hp.
    destruct (EST (prev_block H l)) as (p & Ep & Fp & Rp & Mp).
    { intros E0; rewrite E0 in Hp; cbn in Hp; lia. } { lia. } { intros x Hx. apply prev_block_In; assumption. }
    destruct (EST (cur_block H l)) as (a & Ea & Fa & Ra & Ma).
    { intros E0; rewrite E0 in Hpos; cbn in Hpos; lia. } { lia. } { intros x Hx. apply cur_block_In; assumption. }
    specialize (G2 Hn p a Ep Ea). set (s := length (cur_block H l)) in *.
    replace (N.of_nat H + N.of_nat s)%N with ((N.of_nat H - N.of_nat s) + 2 * N.of_nat s)%N in G2 by lia.
    destruct (combine_b64 p a (N.of_nat H - N.of_nat s) (2 * N.of_nat s) M Fp Fa Mp Ma HM) as (Fr & Hr & _).
    { lia. } { lia. }
    eexists. split; [exact E|]. split; [exact G2|]. split; [exact Fr|]. split; [|intros; lia].
    revert Hr. generalize (b64_real (ndiv (nadd (nmul (p : b64num) (nofsz (N.of_nat H - N.of_nat s))) (nmul (a : b64num) (nofsz (2 * N.of_nat s))))
      (nofsz (N.of_nat H - N.of_nat s + 2 * N.of_nat s)))). intros r Hr.
    set (WP := IZR (Z.of_N (N.of_nat H - N.of_nat s))) in *. set (WA := IZR (Z.of_N (2 * N.of_nat s))) in *.
    assert (P0 : 0 <= WP) by (apply IZR_le; lia). assert (A0 : 1 <= WA) by (apply IZR_le; lia).
    assert (C : lo <= (b64_real p * WP + b64_real a * WA) / (WP + WA) <= hi).
    { split; apply (Rmult_le_reg_r (WP + WA)); try lra; unfold Rdiv; rewrite Rmult_assoc, Rinv_l, Rmult_1_r by lra; nra. }
    apply Rabs_le_inv in Hr. lra.
Qed.

Lemma finite_Z z : (Z.abs z <= 2 ^ 53)%Z -> b64_finite (b64_of_Z z) /\ b64_real (b64_of_Z z) = IZR z.
Proof. intros H. exact (of_Z_exact z H). Qed.

(** @ex C98_range_binary64_ex: the median with window 4 after five values, of which the
    last four are between 1 and 4. *)
Lemma c98_range_ex :
  let half := S754_finite false 4503599627370496 (-53) in
  let ops : list (op b64num) := [Push (b64_of_Z 9); Push (b64_of_Z 3); Push (b64_of_Z 1); Push (b64_of_Z 4); Push (b64_of_Z 2)]%Z in
  Forall (fun q : b64num => b64_finite q /\ 0 <= b64_real q <= 1 - bpow radix2 (-50)) [half] /\
  (2 < length (since_clear ops))%nat /\ 4 <= bpow radix2 980 /\
  forall x : b64num, In x (lastn (2 * 2) (since_clear ops)) -> b64_finite x /\ Rabs (b64_real x) <= 4 /\ 1 <= b64_real x <= 4.
Proof.
  cbv zeta. split; [|split; [cbn; lia|split]].
  - change (bpow radix2 (-50)) with (/ 1125899906842624). constructor; [|constructor].
    split; [split; reflexivity|]. unfold b64_real. cbn [BinarySingleNaN.SF2R]. unfold F2R. cbn [Fnum Fexp cond_Zopp].
    change (bpow radix2 (-53)) with (/ 9007199254740992). lra.
  - change 4 with (bpow radix2 2). apply bpow_le. lia.
  - intros x Hx.
    assert (D : forall z, (1 <= z <= 4)%Z -> b64_finite (b64_of_Z z) /\ Rabs (b64_real (b64_of_Z z)) <= 4 /\ 1 <= b64_real (b64_of_Z z) <= 4).
    { intros z Hz. destruct (finite_Z z ltac:(lia)) as (Fz & Ez). split; [exact Fz|]. rewrite Ez.
      assert (1 <= IZR z <= 4) by (split; apply IZR_le; lia). rewrite Rabs_pos_eq by lra. lra. }
    unfold lastn in Hx. cbn [length since_clear Nat.mul Nat.add Nat.sub skipn In] in Hx.
    destruct Hx as [<-|[<-|[<-|[<-|[]]]]]; apply D; lia.
Qed.

(** @prop C98_tolerance_needed: the tolerance is needed: with window 4, the value 0.1 pushed
    three times gives a median above 0.1. *)
Lemma c98_tolerance_needed :
  exists (half tenth : b64num) (ops : list (op b64num)) (h : memory b64num) (v : b64num),
    b64_finite tenth /\ b64_real half = 1 / 2 /\
    since_clear ops = [tenth; tenth; tenth] /\
    exec b64num 4 [half] (New 0%nat :: map (fun p => match p with Push x => PushTo 0%nat x | Clear => ClearOf 0%nat end) ops) = Some h /\
    ipq_get b64num 4 [half] h 0%nat 1 = Some v /\ b64_real tenth < b64_real v.
Proof.
  pose (half := S754_finite false 4503599627370496 (-53) : b64num).
  pose (tenth := S754_finite false 7205759403792794 (-56) : b64num).
  destruct (history_program 0 [Push tenth; Push tenth; Push tenth] 2 [half] ltac:(lia) ltac:(vm_compute; reflexivity)) as (h & E).
  destruct (ClaimsInterimPsquare.c43 b64num 2 [half] 0 [Push tenth; Push tenth; Push tenth] 1 ltac:(lia) ltac:(vm_compute; reflexivity))
    as (h' & E' & _ & _ & G).
  rewrite E in E'. injection E' as <-.
  exists half, tenth, [Push tenth; Push tenth; Push tenth], h.
  eexists. split; [split; reflexivity|]. split.
  { unfold half, b64_real. cbn [BinarySingleNaN.SF2R]. unfold F2R. cbn [Fnum Fexp cond_Zopp]. change (bpow radix2 (-53)) with (/ 9007199254740992). lra. }
  split; [reflexivity|]. split; [exact E|]. split.
  { apply G; [cbn; lia|vm_compute; reflexivity|vm_compute; reflexivity]. }
  match goal with |- _ < b64_real ?x => let y := eval vm_compute in x in change x with y end.
  unfold tenth, b64_real. cbn [BinarySingleNaN.SF2R]. unfold F2R. cbn [Fnum Fexp cond_Zopp].
  apply Rmult_lt_compat_r; [apply bpow_gt_0|]. apply IZR_lt. lia.
Qed.

(** @prop C98_order_binary64: in the same situation, once the current half window holds
    more than 2Q+3 values, get<i> does not decrease with i, whatever the quantiles are. *)
Lemma c98_order : forall (H : nat) (qs : list b64num) (o : nat) (ops : list (op b64num)) (i j : nat),
  (0 < H)%nat -> (N.of_nat H <= 2 ^ 27)%N -> (i <= j <= length qs + 1)%nat ->
  let W := N.of_nat (2 * H) in
  let l := since_clear ops in
  (H < length l)%nat -> (2 * length qs + 3 < length (cur_block H l))%nat ->
  (forall x : b64num, In x (lastn (2 * H) l) -> b64_finite x /\ Rabs (b64_real x) <= bpow radix2 980) ->
  exists h v w, exec b64num W qs
      (New o :: map (fun p => match p with Push x => PushTo o x | Clear => ClearOf o end) ops) = Some h /\
    ipq_get b64num W qs h o i = Some v /\ ipq_get b64num W qs h o j = Some w /\
    b64_finite v /\ b64_finite w /\ b64_real v <= b64_real w.
Proof.
  intros H qs o ops i j HH HH27 Hij W l Hn Hc Hd.
  assert (H64 : (N.of_nat (2 * H) < szmod)%N) by (unfold szmod; lia).
  assert (Hl : l <> []) by (intros E0; rewrite E0 in Hn; cbn in Hn; lia).
  destruct (ClaimsInterimPsquare.c43 b64num H qs o ops i HH H64) as (h & E & _ & _ & G1). fold W l in E, G1.
  destruct (ClaimsInterimPsquare.c43 b64num H qs o ops j HH H64) as (h' & E' & _ & _ & G2). fold W l in E', G2.
  rewrite E in E'. injection E' as <-. specialize (G1 Hn). specialize (G2 Hn).
  assert (BD : forall d : list b64num, (length d <= H)%nat -> (2 * length qs + 3 < length d)%nat -> (forall x : b64num, In x d -> In x (lastn (2 * H) l)) ->
    exists x y : b64num, psq_get b64num qs (run (psq_push b64num qs) (psq_clear b64num qs) (psq_init b64num qs) (pushes d)) i = Some x /\
      psq_get b64num qs (run (psq_push b64num qs) (psq_clear b64num qs) (psq_init b64num qs) (pushes d)) j = Some y /\
      b64_finite x /\ b64_finite y /\ Rabs (b64_real x) <= bpow radix2 980 /\ Rabs (b64_real y) <= bpow radix2 980 /\
      b64_real x <= b64_real y).
  { intros d Ld Ld2 Id.
    assert (Fd : Forall (fun x : b64num => b64_finite x /\ Rabs (b64_real x) <= bpow radix2 980) d)
      by (apply Forall_forall; intros x Hx; apply Hd, Id, Hx).
    destruct (b64_list d _ Fd) as [D2 Db].
    assert (RM : PsquareOrdered.room 53 (length d)).
    { split; [lia|]. apply Z.le_trans with (2 ^ 27)%Z; [lia|]. apply Z.pow_le_mono_r; lia. }
    destruct (float_get_ordered (-1074) 53 ltac:(lia) ltac:(lia) b64num denotes _ correct_b64 980 ltac:(lia)
      ltac:(apply bpow_le; lia) ltac:(apply bpow_le; lia) qs d (map b64_real d) i j RM D2 Db) as (x & y & v & w & E1 & E2 & (Fx & Vx) & (Fy & Vy) & L).
    { unfold parameter_length, quantile_length. lia. } { lia. } { lia. }
    rewrite !ClaimsInterimPsquare.fresh_run. exists x, y. split; [exact E1|]. split; [exact E2|]. split; [exact Fx|]. split; [exact Fy|].
    assert (HB : forall k z u, (k <= length qs + 1)%nat -> psq_get b64num qs (PsquareGeneric.st b64num qs d) k = Some z -> denotes z u -> Rabs (b64_real z) <= bpow radix2 980).
    { intros k z u Hk Ez [Fz Vz].
      destruct (c74_order_binary64 qs (pushes d)) as (Lh & Fh & _ & Hh).
      - rewrite since_clear_pushes. exact Fd.
      - rewrite since_clear_pushes. lia.
      - rewrite since_clear_pushes. apply N.le_trans with (N.of_nat H); [lia|exact HH27].
      - rewrite ClaimsInterimPsquare.fresh_run, params_heights in Lh, Hh. rewrite since_clear_pushes in Hh.
        unfold psq_get in Ez. rewrite (PsquareGeneric.st_count b64num qs d) in Ez.
        + destruct (N.ltb_spec (N.of_nat (parameter_length b64num qs)) (N.of_nat (length d))) as [_|Q];
            [|unfold parameter_length, quantile_length in Q; lia].
          apply nth_error_In in Ez. rewrite Forall_map, Forall_forall in Hh. specialize (Hh z Ez).
          apply Rabs_le. apply (hull_bounds _ d (fun _ => True)); [exact Hh|]. intros q Hq. apply Rabs_le_inv. apply Hd, Id, Hq.
        + unfold PsquareGeneric.fits. unfold szmod. lia. }
    split; [apply (HB i x v); [lia|exact E1|split; assumption]|]. split; [apply (HB j y w); [lia|exact E2|split; assumption]|].
    rewrite Vx, Vy. exact L. }
  pose proof (cur_block_le H HH l) as Hle. pose proof (long_prev H HH l Hn) as Hp.
  destruct (BD (prev_block H l)) as (p1 & p2 & Ep1 & Ep2 & Fp1 & Fp2 & Mp1 & Mp2 & Lp).
  { lia. } { lia. } { intros x Hx. apply prev_block_In; assumption. }
  destruct (BD (cur_block H l)) as (a1 & a2 & Ea1 & Ea2 & Fa1 & Fa2 & Ma1 & Ma2 & La).
  { lia. } { lia. } { intros x Hx. apply cur_block_In; assumption. }
  specialize (G1 p1 a1 Ep1 Ea1). specialize (G2 p2 a2 Ep2 Ea2). set (s := length (cur_block H l)) in *.
  replace (N.of_nat H + N.of_nat s)%N with ((N.of_nat H - N.of_nat s) + 2 * N.of_nat s)%N in G1, G2 by lia.
  destruct (combine_b64 p1 a1 (N.of_nat H - N.of_nat s) (2 * N.of_nat s) _ Fp1 Fa1 Mp1 Ma1 (Rle_refl _) ltac:(lia) ltac:(lia)) as (Fr1 & _ & V1).
  destruct (combine_b64 p2 a2 (N.of_nat H - N.of_nat s) (2 * N.of_nat s) _ Fp2 Fa2 Mp2 Ma2 (Rle_refl _) ltac:(lia) ltac:(lia)) as (Fr2 & _ & V2).
  exists h. eexists. eexists. split; [exact E|]. split; [exact G1|]. split; [exact G2|]. split; [exact Fr1|]. split; [exact Fr2|].
  rewrite V1, V2.
  assert (P0 : 0 <= IZR (Z.of_N (N.of_nat H - N.of_nat s))) by (apply IZR_le; lia).
  assert (A0 : 1 <= IZR (Z.of_N (2 * N.of_nat s))) by (apply IZR_le; lia).
  unfold rounding. apply round_le; [typeclasses eauto|typeclasses eauto|].
  apply Rmult_le_compat_r; [apply Rlt_le, Rinv_0_lt_compat; lra|].
  apply round_le; [typeclasses eauto|typeclasses eauto|].
  apply Rplus_le_compat; apply round_le; try typeclasses eauto; apply Rmult_le_compat_r; lra.
Qed.

(** @ex C98_order_binary64_ex: one quantile, half windows of seven values, fourteen values pushed. *)
Lemma c98_order_ex :
  let l := map b64_of_Z [3; 1; 4; 1; 5; 9; 2; 6; 5; 3; 5; 8; 9; 7]%Z in
  let ops : list (op b64num) := pushes l in
  (7 < length (since_clear ops))%nat /\ (2 * 1 + 3 < length (cur_block 7 (since_clear ops)))%nat /\
  forall x : b64num, In x (lastn (2 * 7) (since_clear ops)) -> b64_finite x /\ Rabs (b64_real x) <= bpow radix2 980.
Proof.
  intros l ops. unfold ops. rewrite since_clear_pushes. split; [cbn; lia|]. split; [cbn; lia|].
  intros x Hx. rewrite lastn_short in Hx by (cbn; lia). unfold l in Hx. apply in_map_iff in Hx. destruct Hx as (z & <- & Hz).
  assert (B : (0 <= z <= 9)%Z) by (cbn in Hz; lia).
  destruct (finite_Z z ltac:(lia)) as (Fz & Ez). split; [exact Fz|]. rewrite Ez, Rabs_pos_eq by (apply IZR_le; lia).
  apply Rle_trans with (IZR 9); [apply IZR_le; lia|]. apply Rle_trans with (bpow radix2 4); [cbn; lra|apply bpow_le; lia].
Qed.
