(** * Claim C98 for float and every IEEE value type: interim quantile estimates *)

From Coq Require Import Reals ZArith NArith List Bool.
From Coq Require Import Floats.SpecFloat.
From Flocq Require Import Core.
From Verif Require Import Arith History SpecBlocks Psquare InterimPsquare SpecCopies Rounded Ieee.
Import ListNotations.
Local Open Scope R_scope.
(** A float of an integer. *)
Local Notation f32 z := (ieee_of_Z 24 128 z).
(* @end-header *)
From Coq Require Import Lia Lra Psatz.
From Flocq Require BinarySingleNaN.
From Verif Require Import HistoryLemmas BlockLemmas WindowProofs RoundedProofs Approx ApproxInstances IeeeProofs IeeeSign
  CorrectRounding AccuracyInterim PsquareFew ClaimsAccuracy ClaimsPsquareFloat ClaimsFormatsSign.
From Verif Require PsquareOrdered PsquareGeneric ClaimsInterimPsquare.

Lemma len27 (a H : nat) : (a <= H)%nat -> (N.of_nat H <= 2 ^ 27)%N -> (N.of_nat a <= 2 ^ 27)%N.
Proof. lia. Qed.
Lemma lenp (a H : nat) (p : Z) : (a <= H)%nat -> (Z.of_nat (2 * H) <= 2 ^ p)%Z -> (Z.of_nat a <= 2 ^ p)%Z.
Proof. lia. Qed.

Section Format.
Variables prec emax : Z.
Hypothesis Hp8 : (8 <= prec)%Z.
Hypothesis Hm : (prec < emax)%Z.
Hypothesis H65 : (65 <= emax)%Z.
Let Hp : (1 < prec)%Z. Proof. lia. Qed.
Notation F := (ieee prec emax).
Notation fd := (fdenotes prec emax).
Notation fin := (ieee_finite prec emax).
Notation rd := (rounding (3 - emax - prec) prec ZnearestE).
Notation u := (bpow radix2 (- prec)).
Notation eta := (bpow radix2 (2 - emax - prec)).
Notation AP := (approx_ieee prec emax Hp Hm).

Lemma fd_zero : fd (@nofsz F 0) 0.
Proof. apply (of_Z_small prec emax Hp Hm 0). cbn. lia. Qed.

Lemma fd_fin (x : spec_float) : fin x -> fd x (ieee_real x).
Proof. intros H. split; [exact H|reflexivity]. Qed.

Instance prec_gt : Prec_gt_0 prec. Proof. red. lia. Qed.

(** The combination of two estimates *)
Lemma combine_ieee (p a : F) (wp wa : N) (M : R) :
  fin p -> fin a -> Rabs (ieee_real p) <= M -> Rabs (ieee_real a) <= M -> M <= bpow radix2 (emax - 33) ->
  (1 <= wp + wa)%N -> (wp + wa <= 2 ^ 28)%N -> (Z.of_N (wp + wa) <= 2 ^ prec)%Z ->
  let r := @ndiv F (@nadd F (@nmul F p (@nofsz F wp)) (@nmul F a (@nofsz F wa))) (@nofsz F (wp + wa)) in
  let WP := IZR (Z.of_N wp) in let WA := IZR (Z.of_N wa) in
  fin r /\
  Rabs (ieee_real r - (ieee_real p * WP + ieee_real a * WA) / (WP + WA)) <= 7 * (u * M) + 11 * eta /\
  ieee_real r = rd (rd (rd (ieee_real p * WP) + rd (ieee_real a * WA)) / (WP + WA)).
Proof.
  intros Fp Fa Hpm Ham HM H1 H2 H3 r WP WA.
  assert (M0 : 0 <= M) by (eapply Rle_trans; [apply Rabs_pos|exact Hpm]).
  assert (P0 : 0 <= WP) by (apply IZR_le; lia). assert (A0 : 0 <= WA) by (apply IZR_le; lia).
  assert (D1 : 1 <= WP + WA) by (unfold WP, WA; rewrite <- plus_IZR; apply IZR_le; lia).
  assert (D2 : WP + WA <= bpow radix2 28).
  { unfold WP, WA. rewrite <- plus_IZR. change (bpow radix2 28) with (IZR 268435456). apply IZR_le. lia. }
  assert (KP : (wp + wa <= Z.to_N (2 ^ prec))%N) by lia.
  pose proof (weight_val AP fd_zero) as WV.
  assert (Vp : fd (@nofsz F wp) WP) by (apply WV; lia).
  assert (Va : fd (@nofsz F wa) WA) by (apply WV; lia).
  assert (Vd : fd (@nofsz F (wp + wa)) (WP + WA)).
  { unfold WP, WA. rewrite <- plus_IZR, <- N2Z.inj_add. apply WV. exact KP. }
  assert (B1 : M * bpow radix2 28 <= bpow radix2 (emax - 5)).
  { replace (emax - 5)%Z with ((emax - 33) + 28)%Z by lia. rewrite bpow_plus. apply Rmult_le_compat_r; [apply bpow_ge_0|exact HM]. }
  assert (B2 : 8 * bpow radix2 (emax - 5) <= bpow radix2 (emax - 1)).
  { change 8 with (bpow radix2 3). rewrite <- bpow_plus. apply bpow_le. lia. }
  assert (PB : forall x w, Rabs x <= M -> 0 <= w -> w <= WP + WA -> Rabs (x * w) <= bpow radix2 (emax - 5)).
  { intros x w X W0 W1. rewrite Rabs_mult, (Rabs_pos_eq w) by exact W0. eapply Rle_trans; [|exact B1].
    apply Rmult_le_compat; [apply Rabs_pos|exact W0|exact X|lra]. }
  assert (Q1 := PB _ _ Hpm P0 ltac:(lra)). assert (Q2 := PB _ _ Ham A0 ltac:(lra)).
  assert (T0 : 0 <= bpow radix2 (emax - 5)) by apply bpow_ge_0.
  destruct (correct_ieee prec emax Hp Hm H65) as [_ Inj Add _ Mul Div _ _ _ _ _ _].
  pose proof (Mul p (@nofsz F wp) _ _ (fd_fin p Fp) Vp ltac:(lra)) as C1.
  pose proof (Mul a (@nofsz F wa) _ _ (fd_fin a Fa) Va ltac:(lra)) as C2.
  destruct (ap_mul _ _ _ _ _ _ AP p (@nofsz F wp) _ _ (fd_fin p Fp) Vp ltac:(lra)) as (r1 & V1 & N1).
  destruct (ap_mul _ _ _ _ _ _ AP a (@nofsz F wa) _ _ (fd_fin a Fa) Va ltac:(lra)) as (r2 & V2 & N2).
  destruct (wavg_err AP _ _ _ (ieee_real p) (ieee_real a) WP WA M r1 r2 V1 N1 V2 N2 Vd Hpm Ham P0 A0 D1) as (v & (Fv & Ev) & Hv).
  { assert (MW : M * (WP + WA) <= bpow radix2 (emax - 5)).
    { eapply Rle_trans; [|exact B1]. apply Rmult_le_compat_l; [exact M0|exact D2]. }
    assert (T1 : 5 * eta <= bpow radix2 (emax - 5)).
    { apply Rle_trans with (bpow radix2 3 * eta); [apply Rmult_le_compat_r; [apply bpow_ge_0|cbn; lra]|].
      rewrite <- bpow_plus. apply bpow_le. lia. }
    nra. }
  fold r in Fv, Ev. rewrite Ev. split; [exact Fv|]. split; [exact Hv|].
  set (R1 := rd (ieee_real p * WP)) in *. set (R2 := rd (ieee_real a * WA)) in *.
  assert (G : forall k x, (3 - emax - prec <= k)%Z -> Rabs x <= bpow radix2 k -> Rabs (rd x) <= bpow radix2 k).
  { intros k x Hk Hx. unfold rounding. apply abs_round_le_generic; [typeclasses eauto|typeclasses eauto| |exact Hx].
    apply generic_format_bpow. unfold FLT_exp. lia. }
  assert (Q3 : Rabs R1 <= bpow radix2 (emax - 5)) by (apply G; [lia|exact Q1]).
  assert (Q4 : Rabs R2 <= bpow radix2 (emax - 5)) by (apply G; [lia|exact Q2]).
  assert (Q5 : Rabs (R1 + R2) <= bpow radix2 (emax - 4)).
  { eapply Rle_trans; [apply Rabs_triang|]. replace (emax - 4)%Z with (1 + (emax - 5))%Z by lia. rewrite bpow_plus. change (bpow radix2 1) with 2. lra. }
  assert (L1 : bpow radix2 (emax - 4) <= bpow radix2 (emax - 1)) by (apply bpow_le; lia).
  pose proof (Add _ _ _ _ C1 C2 ltac:(lra)) as C3.
  set (R3 := rd (R1 + R2)) in *.
  assert (Q6 : Rabs R3 <= bpow radix2 (emax - 4)) by (apply G; [lia|exact Q5]).
  assert (Q7 : Rabs (R3 / (WP + WA)) <= bpow radix2 (emax - 1)).
  { unfold Rdiv. rewrite Rabs_mult, (Rabs_pos_eq (/ _)) by (apply Rlt_le, Rinv_0_lt_compat; lra).
    apply Rle_trans with (Rabs R3 * 1); [|lra]. apply Rmult_le_compat_l; [apply Rabs_pos|].
    rewrite <- Rinv_1. apply Rinv_le_contravar; lra. }
  pose proof (Div _ _ _ _ C3 Vd ltac:(lra) Q7) as (_ & E). fold r in E. rewrite <- Ev. exact E.
Qed.

Lemma hull_in (v : R) (l : list spec_float) lo hi :
  in_hull v (map ieee_real l) -> (forall x, In x l -> lo <= ieee_real x <= hi) -> lo <= v <= hi.
Proof.
  intros ((a & Ia & Ha) & (b & Ib & Hb)) H. apply in_map_iff in Ia. destruct Ia as (x & <- & Ix).
  apply in_map_iff in Ib. destruct Ib as (y & <- & Iy). pose proof (H x Ix). pose proof (H y Iy). lra.
Qed.
End Format.

(** @prop C98_range_formats: the same as C98_range_binary64 in every IEEE format with
    at least 8 bits in which size_t is in range, for windows of at most 2^28 and
    2^prec values of magnitude at most [M], at most 2^(emax-33), and quantiles between
    0 and 1 - 2^(3-prec). *)
Lemma c98_range_formats : forall (prec emax : Z) (H : nat) (qs : list (ieee prec emax)) (o : nat) (ops : list (op (ieee prec emax))) (i : nat) (M lo hi : R),
  (8 <= prec < emax)%Z -> (65 <= emax)%Z ->
  (0 < H)%nat -> (N.of_nat H <= 2 ^ 27)%N -> (Z.of_nat (2 * H) <= 2 ^ prec)%Z ->
  Forall (fun q : (ieee prec emax) => ieee_finite prec emax q /\ 0 <= ieee_real q <= 1 - bpow radix2 (3 - prec)) qs ->
  (i <= length qs + 1)%nat -> M <= bpow radix2 (emax - 33) ->
  let W := N.of_nat (2 * H) in
  let l := since_clear ops in
  l <> [] ->
  (forall x : (ieee prec emax), In x (lastn (2 * H) l) -> ieee_finite prec emax x /\ Rabs (ieee_real x) <= M /\ lo <= ieee_real x <= hi) ->
  exists h v, exec (ieee prec emax) W qs
      (New o :: map (fun p => match p with Push x => PushTo o x | Clear => ClearOf o end) ops) = Some h /\
    ipq_get (ieee prec emax) W qs h o i = Some v /\ ieee_finite prec emax v /\
    let slop := 7 * (bpow radix2 (- prec) * M) + 11 * bpow radix2 (2 - emax - prec) in
    lo - slop <= ieee_real v <= hi + slop /\
    ((length l <= H)%nat -> lo <= ieee_real v <= hi).
Proof.
  intros prec emax H qs o ops i M lo hi [Hp8 Hm] H65 HH HH27 HHp Hq Hi HM W l Hl Hd.
  assert (H64 : (N.of_nat (2 * H) < szmod)%N) by (unfold szmod; lia).
  destruct (ClaimsInterimPsquare.c43 (ieee prec emax) H qs o ops i HH H64) as (h & E & _ & G1 & G2). fold W l in E, G1, G2.
  exists h.
  assert (SL : 0 <= 7 * (bpow radix2 (- prec) * M) + 11 * bpow radix2 (2 - emax - prec)).
  { destruct (exists_last Hl) as (t & z & Ez).
    assert (Iz : In z (lastn (2 * H) l)).
    { rewrite Ez. replace (2 * H)%nat with (S (2 * H - 1)) by lia. rewrite (lastn_S_snoc 1%nat ltac:(lia)). apply in_or_app. right. left. reflexivity. }
    destruct (Hd z Iz) as (_ & Hz & _).
    assert (M0 : 0 <= M) by (eapply Rle_trans; [apply Rabs_pos|exact Hz]).
    apply Rplus_le_le_0_compat; repeat apply Rmult_le_pos; try apply bpow_ge_0; try exact M0; lra. }
  assert (EST : forall d : list (ieee prec emax), d <> [] -> (length d <= H)%nat -> (forall x : (ieee prec emax), In x d -> In x (lastn (2 * H) l)) ->
    exists x : (ieee prec emax), psq_get (ieee prec emax) qs (run (psq_push (ieee prec emax) qs) (psq_clear (ieee prec emax) qs) (psq_init (ieee prec emax) qs) (pushes d)) i = Some x /\
      ieee_finite prec emax x /\ lo <= ieee_real x <= hi /\ Rabs (ieee_real x) <= M).
  { intros d Hd0 Ld Id.
    destruct (c122_range prec emax qs (pushes d) i (conj Hp8 Hm) H65 Hq) as (x & Ex & Fx & Hx).
    - rewrite since_clear_pushes. apply Forall_forall. intros x Hx. destruct (Hd x (Id x Hx)) as (F1 & F2 & _). split; [exact F1|]. eapply Rle_trans; [exact F2|]. eapply Rle_trans; [exact HM|]. apply bpow_le; lia.
    - rewrite since_clear_pushes. exact Hd0.
    - rewrite since_clear_pushes. exact (len27 _ H Ld HH27).
    - rewrite since_clear_pushes. exact (lenp _ H prec Ld HHp).
    - exact Hi.
    - rewrite since_clear_pushes in Hx. exists x. split; [exact Ex|]. split; [exact Fx|]. split.
      + apply (hull_in _ d); [exact Hx|]. intros y Hy. apply Hd, Id, Hy.
      + apply Rabs_le. apply (hull_in _ d); [exact Hx|]. intros y Hy.
        destruct (Hd y (Id y Hy)) as (_ & F2 & _). apply Rabs_le_inv. exact F2. }
  destruct (le_lt_dec (length l) H) as [Hn|Hn].
  - destruct (EST l Hl Hn) as (x & Ex & Fx & Rx & _).
    { intros x Hx. rewrite lastn_short by lia. exact Hx. }
    exists x. split; [exact E|]. split; [rewrite (G1 Hn); exact Ex|]. split; [exact Fx|]. split; [lra|intros _; exact Rx].
  - pose proof (cur_block_le H HH l) as Hle. pose proof (cur_block_pos H HH l Hl) as Hpos.
    pose proof (long_prev H HH l Hn) as Hp.
    destruct (EST (prev_block H l)) as (p & Ep & Fp & Rp & Mp).
    { intros E0; rewrite E0 in Hp; cbn in Hp; lia. } { lia. } { intros x Hx. apply prev_block_In; assumption. }
    destruct (EST (cur_block H l)) as (a & Ea & Fa & Ra & Ma).
    { intros E0; rewrite E0 in Hpos; cbn in Hpos; lia. } { lia. } { intros x Hx. apply cur_block_In; assumption. }
    specialize (G2 Hn p a Ep Ea). set (s := length (cur_block H l)) in *.
    replace (N.of_nat H + N.of_nat s)%N with ((N.of_nat H - N.of_nat s) + 2 * N.of_nat s)%N in G2 by lia.
    destruct (combine_ieee prec emax Hp8 Hm H65 p a (N.of_nat H - N.of_nat s) (2 * N.of_nat s) M Fp Fa Mp Ma HM) as (Fr & Hr & _).
    { lia. } { lia. } { lia. }
    eexists. split; [exact E|]. split; [exact G2|]. split; [exact Fr|]. split; [|intros; lia].
    revert Hr. generalize (ieee_real (ndiv (nadd (nmul (p : (ieee prec emax)) (nofsz (N.of_nat H - N.of_nat s))) (nmul (a : (ieee prec emax)) (nofsz (2 * N.of_nat s))))
      (nofsz (N.of_nat H - N.of_nat s + 2 * N.of_nat s)))). intros r Hr.
    set (WP := IZR (Z.of_N (N.of_nat H - N.of_nat s))) in *. set (WA := IZR (Z.of_N (2 * N.of_nat s))) in *.
    assert (P0 : 0 <= WP) by (apply IZR_le; lia). assert (A0 : 1 <= WA) by (apply IZR_le; lia).
    assert (C : lo <= (ieee_real p * WP + ieee_real a * WA) / (WP + WA) <= hi).
    { split; apply (Rmult_le_reg_r (WP + WA)); try lra; unfold Rdiv; rewrite Rmult_assoc, Rinv_l, Rmult_1_r by lra; nra. }
    apply Rabs_le_inv in Hr. lra.
Qed.


(** @ex C98_range_formats_ex: the median of floats with window 4 after five values. *)
Lemma c98_range_formats_ex :
  let half := S754_finite false 8388608 (-24) in
  let ops : list (op spec_float) := [Push (f32 9); Push (f32 3); Push (f32 1); Push (f32 4); Push (f32 2)] in
  (8 <= 24 < 128)%Z /\ (65 <= 128)%Z /\ (Z.of_nat (2 * 2) <= 2 ^ 24)%Z /\
  Forall (fun q => ieee_finite 24 128 q /\ 0 <= ieee_real q <= 1 - bpow radix2 (3 - 24)) [half] /\
  (2 < length (since_clear ops))%nat /\ 4 <= bpow radix2 (128 - 33) /\
  forall x, In x (lastn (2 * 2) (since_clear ops)) -> ieee_finite 24 128 x /\ Rabs (ieee_real x) <= 4 /\ 1 <= ieee_real x <= 4.
Proof.
  intros half ops. split; [lia|]. split; [lia|]. split; [cbn; lia|]. split; [|split; [cbn; lia|split]].
  - change (bpow radix2 (3 - 24)) with (/ 2097152). constructor; [|constructor].
    split; [split; reflexivity|]. unfold half, ieee_real. cbn [BinarySingleNaN.SF2R]. unfold F2R. cbn [Fnum Fexp cond_Zopp].
    change (bpow radix2 (-24)) with (/ 16777216). lra.
  - change 4 with (bpow radix2 2). apply bpow_le. lia.
  - intros x Hx.
    assert (D : forall z, (1 <= z <= 4)%Z -> ieee_finite 24 128 (f32 z) /\ Rabs (ieee_real (f32 z)) <= 4 /\ 1 <= ieee_real (f32 z) <= 4).
    { intros z Hz. destruct (of_Z_small 24 128 ltac:(lia) ltac:(lia) z ltac:(lia)) as (Fz & Ez). split; [exact Fz|]. rewrite Ez.
      assert (1 <= IZR z <= 4) by (split; apply IZR_le; lia). rewrite Rabs_pos_eq by lra. lra. }
    unfold ops, lastn in Hx. cbn [length since_clear Nat.mul Nat.add Nat.sub skipn In] in Hx.
    destruct Hx as [<-|[<-|[<-|[<-|[]]]]]; apply D; lia.
Qed.

(** @prop C98_order_formats: in the same formats, once the current half window holds
    more than 2Q+3 values, get<i> does not decrease with i, whatever the quantiles are. *)
Lemma c98_order_formats : forall (prec emax : Z) (H : nat) (qs : list (ieee prec emax)) (o : nat) (ops : list (op (ieee prec emax))) (i j : nat),
  (8 <= prec < emax)%Z -> (65 <= emax)%Z ->
  (0 < H)%nat -> (N.of_nat H <= 2 ^ 27)%N -> (Z.of_nat (2 * H) <= 2 ^ prec)%Z -> (i <= j <= length qs + 1)%nat ->
  let W := N.of_nat (2 * H) in
  let l := since_clear ops in
  (H < length l)%nat -> (2 * length qs + 3 < length (cur_block H l))%nat ->
  (forall x : (ieee prec emax), In x (lastn (2 * H) l) -> ieee_finite prec emax x /\ Rabs (ieee_real x) <= bpow radix2 (emax - 33)) ->
  exists h v w, exec (ieee prec emax) W qs
      (New o :: map (fun p => match p with Push x => PushTo o x | Clear => ClearOf o end) ops) = Some h /\
    ipq_get (ieee prec emax) W qs h o i = Some v /\ ipq_get (ieee prec emax) W qs h o j = Some w /\
    ieee_finite prec emax v /\ ieee_finite prec emax w /\ ieee_real v <= ieee_real w.
Proof.
  intros prec emax H qs o ops i j [Hp8 Hm] H65 HH HH27 HHp Hij W l Hn Hc Hd.
  assert (H64 : (N.of_nat (2 * H) < szmod)%N) by (unfold szmod; lia).
  assert (Hl : l <> []) by (intros E0; rewrite E0 in Hn; cbn in Hn; lia).
  destruct (ClaimsInterimPsquare.c43 (ieee prec emax) H qs o ops i HH H64) as (h & E & _ & _ & G1). fold W l in E, G1.
  destruct (ClaimsInterimPsquare.c43 (ieee prec emax) H qs o ops j HH H64) as (h' & E' & _ & _ & G2). fold W l in E', G2.
  rewrite E in E'. injection E' as <-. specialize (G1 Hn). specialize (G2 Hn).
  assert (BD : forall d : list (ieee prec emax), (length d <= H)%nat -> (2 * length qs + 3 < length d)%nat -> (forall x : (ieee prec emax), In x d -> In x (lastn (2 * H) l)) ->
    exists x y : (ieee prec emax), psq_get (ieee prec emax) qs (run (psq_push (ieee prec emax) qs) (psq_clear (ieee prec emax) qs) (psq_init (ieee prec emax) qs) (pushes d)) i = Some x /\
      psq_get (ieee prec emax) qs (run (psq_push (ieee prec emax) qs) (psq_clear (ieee prec emax) qs) (psq_init (ieee prec emax) qs) (pushes d)) j = Some y /\
      ieee_finite prec emax x /\ ieee_finite prec emax y /\ Rabs (ieee_real x) <= bpow radix2 (emax - 33) /\ Rabs (ieee_real y) <= bpow radix2 (emax - 33) /\
      ieee_real x <= ieee_real y).
  { intros d Ld Ld2 Id.
    assert (Fd : Forall (fun x : (ieee prec emax) => ieee_finite prec emax x /\ Rabs (ieee_real x) <= bpow radix2 (emax - 33)) d)
      by (apply Forall_forall; intros x Hx; apply Hd, Id, Hx).
    destruct (ieee_list prec emax d _ Fd) as [D2 Db].
    assert (RM : PsquareOrdered.room prec (length d)).
    { split; [lia|]. exact (lenp _ H prec Ld HHp). }
    destruct (float_get_ordered (3 - emax - prec) prec ltac:(lia) ltac:(lia) (ieee prec emax) (fdenotes prec emax) _ (correct_ieee prec emax ltac:(lia) Hm H65) (emax - 33) ltac:(lia)
      ltac:(apply bpow_le; lia) ltac:(apply bpow_le; lia) qs d (map ieee_real d) i j RM D2 Db) as (x & y & v & w & E1 & E2 & (Fx & Vx) & (Fy & Vy) & L).
    { unfold parameter_length, quantile_length. lia. } { lia. } { lia. }
    rewrite !ClaimsInterimPsquare.fresh_run. exists x, y. split; [exact E1|]. split; [exact E2|]. split; [exact Fx|]. split; [exact Fy|].
    assert (HB : forall k z u, (k <= length qs + 1)%nat -> psq_get (ieee prec emax) qs (PsquareGeneric.st (ieee prec emax) qs d) k = Some z -> fdenotes prec emax z u -> Rabs (ieee_real z) <= bpow radix2 (emax - 33)).
    { intros k z u Hk Ez [Fz Vz].
      destruct (c122_order prec emax qs (pushes d) (conj Hp8 Hm) H65) as (Lh & Fh & _ & Hh).
      - rewrite since_clear_pushes. eapply Forall_impl; [|exact Fd]. cbn. intros z0 [G1z G2z]. split; [exact G1z|]. eapply Rle_trans; [exact G2z|apply bpow_le; lia].
      - rewrite since_clear_pushes. exact (Nat.lt_le_incl _ _ Ld2).
      - rewrite since_clear_pushes. exact (len27 _ H Ld HH27).
      - rewrite since_clear_pushes. exact (lenp _ H prec Ld HHp).
      - rewrite ClaimsInterimPsquare.fresh_run, params_heights in Lh, Hh. rewrite since_clear_pushes in Hh.
        unfold psq_get in Ez. rewrite (PsquareGeneric.st_count (ieee prec emax) qs d) in Ez.
        + destruct (N.ltb_spec (N.of_nat (parameter_length (ieee prec emax) qs)) (N.of_nat (length d))) as [_|Q];
            [|unfold parameter_length, quantile_length in Q; lia].
          apply nth_error_In in Ez. rewrite Forall_map, Forall_forall in Hh. specialize (Hh z Ez).
          apply Rabs_le. apply (hull_in _ d); [exact Hh|]. intros q Hq. apply Rabs_le_inv. apply Hd, Id, Hq.
        + unfold PsquareGeneric.fits. unfold szmod. lia. }
    split; [apply (HB i x v); [lia|exact E1|split; assumption]|]. split; [apply (HB j y w); [lia|exact E2|split; assumption]|].
    rewrite Vx, Vy. exact L. }
  pose proof (cur_block_le H HH l) as Hle. pose proof (long_prev H HH l Hn) as Hp.
  destruct (BD (prev_block H l)) as (p1 & p2 & Ep1 & Ep2 & Fp1 & Fp2 & Mp1 & Mp2 & Lp).
  { lia. } { lia. } { intros x Hx. apply prev_block_In; assumption. }
  destruct (BD (cur_block H l)) as (a1 & a2 & Ea1 & Ea2 & Fa1 & Fa2 & Ma1 & Ma2 & La).
  { lia. } { lia. } { intros x Hx. apply cur_block_In; assumption. }
  specialize (G1 p1 a1 Ep1 Ea1). specialize (G2 p2 a2 Ep2 Ea2). set (s := length (cur_block H l)) in *.
  replace (N.of_nat H + N.of_nat s)%N with ((N.of_nat H - N.of_nat s) + 2 * N.of_nat s)%N in G1, G2 by lia.
  destruct (combine_ieee prec emax Hp8 Hm H65 p1 a1 (N.of_nat H - N.of_nat s) (2 * N.of_nat s) _ Fp1 Fa1 Mp1 Ma1 (Rle_refl _) ltac:(lia) ltac:(lia) ltac:(lia)) as (Fr1 & _ & V1).
  destruct (combine_ieee prec emax Hp8 Hm H65 p2 a2 (N.of_nat H - N.of_nat s) (2 * N.of_nat s) _ Fp2 Fa2 Mp2 Ma2 (Rle_refl _) ltac:(lia) ltac:(lia) ltac:(lia)) as (Fr2 & _ & V2).
  exists h. eexists. eexists. split; [exact E|]. split; [exact G1|]. split; [exact G2|]. split; [exact Fr1|]. split; [exact Fr2|].
  rewrite V1, V2.
  assert (P0 : 0 <= IZR (Z.of_N (N.of_nat H - N.of_nat s))) by (apply IZR_le; lia).
  assert (A0 : 1 <= IZR (Z.of_N (2 * N.of_nat s))) by (apply IZR_le; lia).
  assert (PG : Prec_gt_0 prec) by (red; lia).
  unfold rounding. apply round_le; [typeclasses eauto|typeclasses eauto|].
  apply Rmult_le_compat_r; [apply Rlt_le, Rinv_0_lt_compat; lra|].
  apply round_le; [typeclasses eauto|typeclasses eauto|].
  apply Rplus_le_compat; apply round_le; try typeclasses eauto; apply Rmult_le_compat_r; lra.
Qed.


(** @ex C98_order_formats_ex: one quantile, half windows of seven floats, fourteen values pushed. *)
Lemma c98_order_formats_ex :
  let l := map (fun z => f32 z) [3; 1; 4; 1; 5; 9; 2; 6; 5; 3; 5; 8; 9; 7]%Z in
  let ops : list (op spec_float) := pushes l in
  (7 < length (since_clear ops))%nat /\ (2 * 1 + 3 < length (cur_block 7 (since_clear ops)))%nat /\ (Z.of_nat (2 * 7) <= 2 ^ 24)%Z /\
  forall x, In x (lastn (2 * 7) (since_clear ops)) -> ieee_finite 24 128 x /\ Rabs (ieee_real x) <= bpow radix2 (128 - 33).
Proof.
  intros l ops. unfold ops. rewrite since_clear_pushes. split; [cbn; lia|]. split; [cbn; lia|]. split; [cbn; lia|].
  intros x Hx. rewrite lastn_short in Hx by (cbn; lia). unfold l in Hx. apply in_map_iff in Hx. destruct Hx as (z & <- & Hz).
  assert (B : (0 <= z <= 9)%Z) by (cbn in Hz; lia).
  destruct (of_Z_small 24 128 ltac:(lia) ltac:(lia) z ltac:(lia)) as (Fz & Ez). split; [exact Fz|]. rewrite Ez, Rabs_pos_eq by (apply IZR_le; lia).
  apply Rle_trans with (IZR 9); [apply IZR_le; lia|]. apply Rle_trans with (bpow radix2 4); [cbn; lra|apply bpow_le; lia].
Qed.
