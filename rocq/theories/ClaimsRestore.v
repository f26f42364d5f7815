(** * Claims C41 and C113: restored P-square estimators *)

From Coq Require Import QArith_base Reals ZArith NArith List Bool Sorting.Sorted.
From Coq Require Import Floats.SpecFloat.
From Flocq Require Import Core.
From Verif Require Import Arith History SpecOrder SpecParameters Psquare Ieee Binary64 Rounded.
Import ListNotations.
Local Open Scope R_scope.
(* @end-header *)
From Coq Require Import Lia Lra.
From Flocq Require IEEE754.BinarySingleNaN.
From Verif Require Import HistoryLemmas ExactRuns StatsLemmas PsquareExact PsquareStats PsquareLemmas PsquareGeneric PsquareOrdered PsquareRestore Binary64Cumulative CorrectRounding
  ClaimsPsquare ClaimsPsquareFloat ClaimsParameters IeeeProofs StallProofs ClaimsAccuracy.

Lemma tosz_real (x : spec_float) a : BinarySingleNaN.is_finite_SF x = true -> ieee_real x = a -> 0 <= a < bpow radix2 63 ->
  b64_tosz x = Some (Z.to_N (Zfloor a)).
Proof.
  intros Fx Rx [A0 A1].
  destruct x as [s|s| |s m e]; try discriminate Fx.
  - unfold ieee_real in Rx. cbn in Rx. subst a. rewrite (Zfloor_IZR 0). reflexivity.
  - unfold ieee_real in Rx. cbn [BinarySingleNaN.SF2R] in Rx. destruct s.
    { exfalso. assert (F2R (Float radix2 (cond_Zopp true (Zpos m)) e) < 0) by (apply F2R_lt_0; reflexivity). lra. }
    cbn [cond_Zopp] in Rx. unfold b64_tosz.
    assert (E : (if (0 <=? e)%Z then (Zpos m * 2 ^ e)%Z else (Zpos m / 2 ^ (- e))%Z) = Zfloor a).
    { destruct (Z.leb_spec 0 e) as [He|He].
      - rewrite <- Rx, zfloor_int by exact He. rewrite Zfloor_IZR. reflexivity.
      - rewrite <- Rx. symmetry. apply zfloor_pos. exact He. }
    rewrite E. rewrite (proj2 (Z.ltb_lt _ _)); [reflexivity|].
    apply Z.lt_trans with (2 ^ 63)%Z; [|reflexivity].
    apply lt_IZR. apply Rle_lt_trans with a; [apply Zfloor_lb|exact A1].
Qed.

Lemma tosz_int prec emax (x : spec_float) z : fdenotes prec emax x (IZR z) -> (0 <= z < 2 ^ 63)%Z -> b64_tosz x = Some (Z.to_N z).
Proof.
  intros [[_ Fx] Rx] [H0 H1]. rewrite (tosz_real x (IZR z) Fx Rx).
  - rewrite Zfloor_IZR. reflexivity.
  - split; [apply IZR_le; exact H0|]. rewrite <- (IZR_Zpower radix2) by lia. apply IZR_lt. exact H1.
Qed.

Lemma counts_ieee prec emax n : (1 < prec)%Z -> (prec < emax)%Z -> (prec <= 62)%Z -> (Z.of_N n <= 2 ^ prec)%Z ->
  counts_convert (ieee prec emax) n.
Proof.
  intros Hp Hm H62 Hn p Hpn. change (b64_tosz (ieee_of_Z prec emax (Z.of_N p)) = Some p).
  assert (2 ^ prec <= 2 ^ 62)%Z by (apply Z.pow_le_mono_r; lia).
  rewrite (tosz_int prec emax _ (Z.of_N p)).
  - rewrite N2Z.id. reflexivity.
  - apply of_Z_small; [exact Hp|exact Hm|lia].
  - lia.
Qed.

(** One more than fits is rounded. *)
Lemma count_over prec emax : (1 < prec)%Z -> (64 < emax)%Z -> (prec <= 62)%Z ->
  ntosz (nofsz (Z.to_N (2 ^ prec + 1)) : ieee prec emax) = Some (Z.to_N (2 ^ prec)).
Proof.
  intros Hp Hm H62.
  assert (P0 : (0 < 2 ^ prec)%Z) by (apply Z.pow_pos_nonneg; lia).
  change (b64_tosz (ieee_of_Z prec emax (Z.of_N (Z.to_N (2 ^ prec + 1)))) = Some (Z.to_N (2 ^ prec))).
  rewrite Z2N.id by lia.
  assert (2 ^ prec <= 2 ^ 62)%Z by (apply Z.pow_le_mono_r; lia).
  apply (tosz_int prec emax); [|lia].
  assert (Hp1 : (1 < prec)%Z) by lia. assert (Hm1 : (prec < emax)%Z) by lia.
  assert (S : rndf prec emax (IZR (2 ^ prec) + 1) = IZR (2 ^ prec)).
  { apply saturate; lia. }
  unfold fdenotes. rewrite <- S.
  rewrite <- (plus_IZR (2 ^ prec) 1). apply of_Z_real; [exact Hp1|exact Hm1|].
  apply rnd_range; [exact Hp1|exact Hm1|].
  rewrite <- abs_IZR, Z.abs_eq by lia. rewrite <- (IZR_Zpower radix2) by lia. apply IZR_le.
  change (Zpower radix2 (emax - 1)) with (2 ^ (emax - 1))%Z.
  apply Z.le_trans with (2 ^ (prec + 1))%Z; [rewrite Z.pow_add_r by lia; lia|apply Z.pow_le_mono_r; lia].
Qed.

Lemma total_ieee prec emax : (1 < prec)%Z -> (prec < emax)%Z -> total_on (ieee prec emax) (ieee_finite prec emax).
Proof.
  intros Hp Hm. split.
  - intros x y Fx Fy. change (SFleb x y = negb (SFltb y x)).
    rewrite (leb_real prec emax x y Fx Fy), (ltb_real prec emax y x Fy Fx).
    destruct (Rle_bool_spec (ieee_real x) (ieee_real y)), (Rlt_bool_spec (ieee_real y) (ieee_real x)); try reflexivity; exfalso; lra.
  - intros x y Fx Fy. change (SFltb x y = true -> SFltb y x = false).
    rewrite (ltb_real prec emax x y Fx Fy), (ltb_real prec emax y x Fy Fx).
    destruct (Rlt_bool_spec (ieee_real x) (ieee_real y)), (Rlt_bool_spec (ieee_real y) (ieee_real x)); try reflexivity; try discriminate; exfalso; lra.
  - intros x y z Fx Fy Fz. change (SFleb x y = true -> SFleb y z = true -> SFleb x z = true).
    rewrite !(leb_real prec emax) by assumption.
    destruct (Rle_bool_spec (ieee_real x) (ieee_real y)), (Rle_bool_spec (ieee_real y) (ieee_real z)),
      (Rle_bool_spec (ieee_real x) (ieee_real z)); try reflexivity; try discriminate; exfalso; lra.
Qed.

(** ** C41 *)

(** @prop C41_restore_formats: in every IEEE value type with [prec] bits (at most
    62), for every list of Q quantiles, every history (NaN and infinities
    included) with at most 2^prec values since the last clear and every target
    estimator, restoring parameters() is defined and reproduces them. *)
Lemma c41_formats : forall (prec emax : Z),
  (1 < prec)%Z -> (prec < emax)%Z -> (prec <= 62)%Z ->
  let F := ieee prec emax in
  forall (qs : list F) (ops : list (op F)) (t : psq F),
  (Z.of_nat (length (since_clear ops)) <= 2 ^ prec)%Z -> (Z.of_nat (2 * length qs + 3) <= 2 ^ prec)%Z ->
  let s := run (psq_push F qs) (psq_clear F qs) (psq_init F qs) ops in
  exists r, psq_restore F qs t (psq_parameters F s) = Some r /\
    psq_parameters F r = psq_parameters F s.
Proof.
  intros prec emax Hp Hm H62 F qs ops t Hl Hq s.
  assert (P : (2 ^ prec <= 2 ^ 62)%Z) by (apply Z.pow_le_mono_r; lia).
  destruct (c41_partial F qs ops t) as (r & R & E & _).
  - unfold ExactRuns.fits, szmod. lia.
  - unfold szmod. lia.
  - apply (counts_ieee prec emax); [exact Hp|exact Hm|exact H62|lia].
  - exists r. split; [exact R|exact E].
Qed.

(** @ex C41_restore_formats_ex: float, ten values, quartiles. *)
Lemma c41_formats_ex :
  let ops := map (fun z => Push (ieee_of_Z 24 128 z)) [3; 1; 4; 1; 5; 9; 2; 6; 5; 3]%Z in
  (1 < 24)%Z /\ (24 < 128)%Z /\ (24 <= 62)%Z /\
  (Z.of_nat (length (since_clear ops)) <= 2 ^ 24)%Z /\ (Z.of_nat (2 * 3 + 3) <= 2 ^ 24)%Z.
Proof. cbv. repeat split; discriminate. Qed.

Lemma over_generic (F : num) (P : F -> Prop) (qs : list F) (ops : list (op F)) (t : psq F) (K : N) :
  let l := since_clear ops in
  total_on F P -> Forall P l -> N.of_nat (length l) = (K + 1)%N -> (K + 1 < szmod)%N ->
  counts_convert F K -> ntosz (nofsz (K + 1)%N : F) = Some K -> (2 * length qs + 3 <= length l)%nat ->
  let s := run (psq_push F qs) (psq_clear F qs) (psq_init F qs) ops in
  nth_error (map fst (psq_parameters F s)) (2 * length qs + 2) = Some (K + 1)%N /\
  exists r, psq_restore F qs t (psq_parameters F s) = Some r /\
    nth_error (map fst (psq_parameters F r)) (2 * length qs + 2) = Some K /\
    psq_parameters F r <> psq_parameters F s.
Proof.
  intros l HP Fl Hl HK Cc Co HL s.
  assert (Hs : ExactRuns.fits l) by (unfold ExactRuns.fits; lia).
  assert (HLs : (N.of_nat (2 * length qs + 3) < szmod)%N) by lia.
  destruct (c35 F P qs ops HP Fl Hs HLs) as (Lp & Sp & _ & Lst).
  destruct (Lst HL) as [Last _]. clear Lst. fold s in Lp, Sp, Last. fold l in Last.
  set (data := psq_parameters F s) in *.
  assert (Ld : length data = (2 * length qs + 3)%nat) by (rewrite map_length in Lp; exact Lp).
  assert (G : forall n (d : list (N * F)), length d = n -> Forall (fun e => (fst e <= K + 1)%N) d ->
    exists ps hs ds, psq_assign F n d = Some (ps, (hs, ds)) /\ length hs = length ps /\
      forall i e, nth_error d i = Some e -> exists p, nth_error ps i = Some p /\ ntosz (nofsz (fst e) : F) = Some p).
  { induction n as [|n IH]; intros [|[p h] d] Hd Hb; try discriminate.
    - exists [], [], []. split; [reflexivity|]. split; [reflexivity|]. intros i e H. destruct i; discriminate.
    - inversion Hb as [|? ? Hp0 Hb']; subst. cbn [fst] in Hp0. injection Hd as Hd.
      destruct (IH d Hd Hb') as (ps & hs & ds & E & El & Hn).
      assert (Hq : exists q, ntosz (nofsz p : F) = Some q).
      { destruct (N.eq_dec p (K + 1)) as [->|ne]; [exists K; exact Co|].
        exists p. apply Cc. lia. }
      destruct Hq as [q Hq]. exists (q :: ps), (h :: hs), (nofsz p :: ds).
      split; [cbn [psq_assign]; rewrite Hq, E; reflexivity|]. split; [cbn [length]; f_equal; exact El|].
      intros [|i] e H; cbn [nth_error] in *; [injection H as <-; exists q; auto|apply Hn; exact H]. }
  assert (Bd : Forall (fun e => (fst e <= K + 1)%N) data).
  { apply Forall_forall. intros e He.
    assert (Hi : In (fst e) (map fst data)) by (apply in_map; exact He).
    destruct (In_nth_error _ _ Hi) as [i Hi2].
    assert (I : (i < 2 * length qs + 3)%nat) by (rewrite <- Lp; apply nth_error_Some; congruence).
    destruct (Nat.eq_dec i (2 * length qs + 2)) as [->|ne].
    - rewrite Last in Hi2. injection Hi2 as Hi2. rewrite <- Hi2. lia.
    - assert (Sx : forall (p : list N) i j a b, StronglySorted N.lt p -> (i < j)%nat -> nth_error p i = Some a -> nth_error p j = Some b -> (a < b)%N).
      { clear. induction p as [|x p IH]; intros i j a b H Hij Ha Hb; [destruct i; discriminate|].
        inversion H as [|? ? H1 H2]; subst. destruct j as [|j]; [lia|]. cbn [nth_error] in Hb.
        destruct i as [|i]; cbn [nth_error] in Ha.
        - injection Ha as <-. rewrite Forall_forall in H2. apply H2. eapply nth_error_In. exact Hb.
        - apply (IH i j); try assumption. lia. }
      pose proof (Sx _ i (2 * length qs + 2)%nat _ _ Sp ltac:(lia) Hi2 Last). lia. }
  destruct (G _ data Ld Bd) as (ps & hs & ds & E & El & Hn).
  rewrite Hl in Last. split; [exact Last|].
  eexists. split; [unfold psq_restore, parameter_length, quantile_length; rewrite E; reflexivity|].
  unfold psq_parameters. cbn [ps_positions ps_heights].
  pose proof Last as Elast. rewrite nth_error_map in Elast.
  destruct (nth_error data (2 * length qs + 2)) as [e|] eqn:Ee; [|discriminate].
  cbn [option_map] in Elast. injection Elast as Ef.
  destruct (Hn _ _ Ee) as (p & Hps & Hc).
  rewrite Ef, Co in Hc. injection Hc as <-.
  rewrite combine_fst by congruence. split; [exact Hps|].
  intros Eq. apply (f_equal (map fst)) in Eq. rewrite combine_fst in Eq by congruence.
  change (ps = map fst data) in Eq. rewrite Eq, Last in Hps. injection Hps as Hps. lia.
Qed.

(** @prop C41_restore_float_refuted: in every IEEE value type with [prec] bits (float
    included), after 2^prec+1 finite values, whatever they are and whatever the
    quantiles, the saved position of the last marker is 2^prec+1 but the restored
    one is 2^prec: parameters() of the restored estimator is not what was
    saved. *)
Lemma c41_float_refuted : forall (prec emax : Z),
  (1 < prec)%Z -> (64 < emax)%Z -> (prec <= 62)%Z ->
  let F := ieee prec emax in
  forall (qs : list F) (ops : list (op F)) (t : psq F),
  let l := since_clear ops in
  Forall (ieee_finite prec emax) l -> Z.of_nat (length l) = (2 ^ prec + 1)%Z -> (2 * length qs + 3 <= length l)%nat ->
  let s := run (psq_push F qs) (psq_clear F qs) (psq_init F qs) ops in
  nth_error (map fst (psq_parameters F s)) (2 * length qs + 2) = Some (Z.to_N (2 ^ prec + 1)) /\
  exists r, psq_restore F qs t (psq_parameters F s) = Some r /\
    nth_error (map fst (psq_parameters F r)) (2 * length qs + 2) = Some (Z.to_N (2 ^ prec)) /\
    psq_parameters F r <> psq_parameters F s.
Proof.
  intros prec emax Hp Hm H62 F qs ops t l Fl Hl HL s.
  assert (P0 : (0 < 2 ^ prec)%Z) by (apply Z.pow_pos_nonneg; lia).
  assert (P : (2 ^ prec <= 2 ^ 62)%Z) by (apply Z.pow_le_mono_r; lia).
  assert (EK : Z.to_N (2 ^ prec + 1) = (Z.to_N (2 ^ prec) + 1)%N) by lia.
  assert (Hm1 : (prec < emax)%Z) by lia.
  pose proof (count_over prec emax Hp Hm H62) as Co. rewrite EK in Co |- *.
  apply (over_generic F (ieee_finite prec emax)).
  - apply total_ieee; assumption.
  - exact Fl.
  - fold l. lia.
  - unfold szmod. lia.
  - apply (counts_ieee prec emax); try assumption. lia.
  - exact Co.
  - exact HL.
Qed.

(** @ex C41_restore_float_refuted_ex: float, a median, 2^24+1 ones. *)
Lemma c41_float_refuted_ex : exists l : list (ieee 24 128),
  (1 < 24)%Z /\ (64 < 128)%Z /\ (24 <= 62)%Z /\
  Forall (ieee_finite 24 128) (since_clear (pushes l)) /\ Z.of_nat (length (since_clear (pushes l))) = (2 ^ 24 + 1)%Z /\
  (2 * length [ratio_value (ieee 24 128) (1 # 2)] + 3 <= length (since_clear (pushes l)))%nat.
Proof.
  assert (H : exists a : nat, Z.of_nat a = 16777217%Z) by (exists (Z.to_nat 16777217); apply Z2Nat.id; lia).
  destruct H as [a Ha]. exists (repeat (ieee_of_Z 24 128 1) a).
  do 3 (split; [lia|]). rewrite since_clear_pushes.
  split; [|split].
  - apply Forall_forall. intros x Hx. apply repeat_spec in Hx. subst x. apply (den_one 24 128); lia.
  - rewrite repeat_length. exact Ha.
  - rewrite repeat_length. cbn [length]. lia.
Qed.

(** ** C113 *)

Section Cont.
Variable F : num.
Variable qs : list F.
Notation L := (parameter_length F qs).

Lemma restored_inv l t r : (N.of_nat L < szmod)%N -> ExactRuns.fits l ->
  counts_convert F (N.max (N.of_nat (length l)) (N.of_nat L)) ->
  psq_restore F qs t (psq_parameters F (st F qs l)) = Some r ->
  ps_count F r = N.of_nat L /\ ps_positions F r = ps_positions F (st F qs l) /\ ps_heights F r = ps_heights F (st F qs l).
Proof.
  intros HL Hs Hc E. rewrite (restore_arrays F qs l t Hs HL Hc) in E. injection E as <-. auto.
Qed.

Lemma inv_transfer l s r : ps_positions F r = ps_positions F s -> ps_heights F r = ps_heights F s ->
  long_inv F qs l s -> long_inv F qs l r.
Proof. intros E1 E2 [A B C D E G H]. split; rewrite ?E1, ?E2; assumption. Qed.
End Cont.

(** @prop C113_extremes: for every arithmetic whose comparisons form a total order
    on the values, every list of Q quantiles, any history with at least 2Q+3 values
    [l], and counts that survive the conversion to the value type: save
    parameters(), restore them into any estimator, push any further values [m].
    Then get<0> is the smallest and get<Q+1> the largest of all the values, before
    and after; the positions in parameters() increase from 1 to the number of all
    the values; size() counts 2Q+3 and the values in [m]. *)
Lemma c113_extremes : forall (F : num) (P : F -> Prop) (qs : list F) (ops : list (op F)) (t r : psq F) (m : list F),
  total_on F P ->
  let l := since_clear ops in
  Forall P l -> Forall P m -> (2 * length qs + 3 <= length l)%nat ->
  (N.of_nat (length (l ++ m)) < szmod)%N -> counts_convert F (N.of_nat (length l)) ->
  let s := run (psq_push F qs) (psq_clear F qs) (psq_init F qs) ops in
  psq_restore F qs t (psq_parameters F s) = Some r ->
  let c := run (psq_push F qs) (psq_clear F qs) r (pushes m) in
  let p := map fst (psq_parameters F c) in
  (exists lo hi, psq_get F qs c 0 = Some lo /\ is_min F (l ++ m) lo /\
     psq_get F qs c (length qs + 1) = Some hi /\ is_max F (l ++ m) hi) /\
  length p = (2 * length qs + 3)%nat /\ StronglySorted N.lt p /\
  nth_error p 0 = Some 1%N /\ nth_error p (2 * length qs + 2) = Some (N.of_nat (length (l ++ m))) /\
  psq_size F c = N.of_nat (2 * length qs + 3 + length m).
Proof.
  intros F P qs ops t r m HP l Hl Hm HL Hs Hc s R c p.
  assert (Es : s = st F qs l) by (unfold s; apply PsquareGeneric.run_psq). rewrite Es in R.
  rewrite app_length in Hs.
  assert (Hsl : ExactRuns.fits l) by (unfold ExactRuns.fits; lia).
  assert (EL : parameter_length F qs = (2 * length qs + 3)%nat) by reflexivity.
  destruct (restored_inv F qs l t r ltac:(rewrite EL; lia) Hsl ltac:(rewrite EL; intros q Hq; apply Hc; lia) R) as (Ec & Ep & Eh).
  pose proof (inv_transfer F qs l _ r Ep Eh (long_inv_st F qs P HP l Hsl Hl ltac:(rewrite EL; lia))) as I.
  assert (Ecc : c = cont F qs r m) by (unfold c, pushes; rewrite run_map_push; reflexivity).
  assert (Cn : ps_count F c = (N.of_nat (parameter_length F qs) + N.of_nat (length m))%N).
  { rewrite Ecc, <- Ec. apply cont_count; rewrite Ec, EL; lia. }
  assert (I' : long_inv F qs (l ++ m) c).
  { rewrite Ecc. apply (cont_inv F qs P HP); try assumption; rewrite ?Ec, ?EL; try lia.
    unfold PsquareGeneric.fits. rewrite app_length. lia. }
  destruct I' as [A B C D E Mi Ma].
  pose proof (L_ge F qs) as L3.
  assert (Ep2 : p = ps_positions F c) by (unfold p, psq_parameters; apply combine_fst; congruence).
  split; [|split; [rewrite Ep2, A; exact EL|split; [|split; [|split]]]].
  - exists (hat F (ps_heights F c) 0), (hat F (ps_heights F c) (parameter_length F qs - 1)).
    unfold psq_get. rewrite Cn.
    destruct (N.ltb_spec (N.of_nat (parameter_length F qs)) (N.of_nat (parameter_length F qs) + N.of_nat (length m))) as [H|H].
    + split; [apply nth_error_nth_some; rewrite B; cbn; lia|]. split; [exact Mi|]. split; [|exact Ma].
      replace (2 * (length qs + 1))%nat with (parameter_length F qs - 1)%nat by lia.
      apply nth_error_nth_some; rewrite B; lia.
    + destruct (N.ltb_spec 1 (N.of_nat (parameter_length F qs) + N.of_nat (length m))); [|lia].
      split; [apply nth_error_nth_some; rewrite B; lia|]. split; [exact Mi|]. split; [|exact Ma].
      unfold quantile_length. replace (length qs + 1)%nat with (S (length qs)) by lia. cbn [Nat.eqb Nat.add].
      rewrite Nat.eqb_refl, szsub_small by lia.
      replace (N.to_nat (N.of_nat (parameter_length F qs) + N.of_nat (length m) - 1)) with (parameter_length F qs - 1)%nat by lia.
      apply nth_error_nth_some; rewrite B; lia.
  - rewrite Ep2. clear - C. revert C. generalize (ps_positions F c). intros q; induction q as [|x q IH]; intros H; constructor.
    + apply IH; intros i Hi; apply (H (S i)); cbn; lia.
    + clear IH; revert x H; induction q as [|y q IHp]; intros x H; constructor.
      * apply (H 0%nat); cbn; lia.
      * apply IHp; intros i Hi; cbn in Hi.
        pose proof (H 0%nat ltac:(cbn; lia)) as H0; pose proof (H (S i) ltac:(cbn; lia)) as H1.
        unfold pat in *; destruct i; cbn in *; [etransitivity; [exact H0|exact H1]|exact H1].
  - rewrite Ep2, <- D. apply nth_error_nth_some. lia.
  - rewrite Ep2, <- E. replace (parameter_length F qs - 1)%nat with (2 * length qs + 2)%nat by lia. apply nth_error_nth_some. lia.
  - unfold psq_size. rewrite Cn, EL. lia.
Qed.

(** @ex C113_extremes_ex: a double estimator of the first quartile, eight values,
    restored into a used estimator, three more. *)
Lemma c113_extremes_ex :
  let q := ratio_value b64num (1 # 4) in
  let target l := run (psq_push b64num [q]) (psq_clear b64num [q]) (psq_init b64num [q])
                    (pushes (map b64_of_Z l)) in
  let l := [5; 2; 8; 1; 6; 7; 3; 4]%Z in
  (exists r, psq_restore b64num [q] (target [9; 9]%Z) (psq_parameters b64num (target l)) = Some r) /\
  Forall not_nan (map b64_of_Z l) /\ total_on b64num not_nan /\ counts_convert b64num 8 /\ (2 * length [q] + 3 <= length l)%nat.
Proof.
  intros q target l. split; [|split; [|split; [|split]]].
  - destruct (c41_double [q] (pushes (map b64_of_Z l)) (target [9; 9]%Z)) as (r & R & _); [vm_compute; discriminate|vm_compute; discriminate|].
    exists r. exact R.
  - apply Forall_map, Forall_forall. intros z Hz. cbn in Hz.
    repeat (destruct Hz as [<-|Hz]; [vm_compute; discriminate|]). destruct Hz.
  - apply Orders.total_on_b64.
  - apply counts_b64. discriminate.
  - cbn. lia.
Qed.

(** @prop C113_ordered: in double, for every list of Q quantiles: save the
    parameters() of an estimator with at least 2Q+3 finite values, restore them into
    any estimator and push more, at most 2^27 values altogether and of magnitude at
    most 2^980.  The restored heights and those after every further value are
    finite, in ascending order and between the smallest and the largest of all the
    values, before and after. *)
Lemma c113_ordered : forall (qs : list b64num) (ops : list (op b64num)) (t r : psq b64num) (m : list b64num),
  let l := since_clear ops in
  Forall (fun x : b64num => b64_finite x /\ Rabs (b64_real x) <= bpow radix2 980) (l ++ m) ->
  (2 * length qs + 3 <= length l)%nat -> (N.of_nat (length (l ++ m)) <= 2 ^ 27)%N ->
  let s := run (psq_push b64num qs) (psq_clear b64num qs) (psq_init b64num qs) ops in
  psq_restore b64num qs t (psq_parameters b64num s) = Some r ->
  let c := run (psq_push b64num qs) (psq_clear b64num qs) r (pushes m) in
  let h := map snd (psq_parameters b64num c) in
  length h = (2 * length qs + 3)%nat /\
  Forall b64_finite h /\ StronglySorted Rle (map b64_real h) /\
  Forall (fun v => in_hull v (map b64_real (l ++ m))) (map b64_real h).
Proof.
  intros qs ops t r m l Fl HL Hn s R c h.
  assert (Es : s = st b64num qs l) by (unfold s; apply PsquareGeneric.run_psq). rewrite Es in R.
  pose proof Hn as Hn0. rewrite app_length in Hn.
  assert (S27 : (2 ^ 27 < szmod)%N) by reflexivity.
  assert (Hsl : ExactRuns.fits l) by (unfold ExactRuns.fits; lia).
  assert (EL : parameter_length b64num qs = (2 * length qs + 3)%nat) by reflexivity.
  assert (Cc : counts_convert b64num (N.max (N.of_nat (length l)) (N.of_nat (parameter_length b64num qs)))).
  { apply counts_b64. apply N.le_trans with (2 ^ 27)%N; [rewrite EL; lia|discriminate]. }
  destruct (restored_inv b64num qs l t r ltac:(rewrite EL; lia) Hsl Cc R) as (Ec & Ep & Eh).
  pose proof Fl as Fall. apply Forall_app in Fl. destruct Fl as [Fl Fm].
  destruct (b64_list l _ Fl) as [D2 Db].
  assert (Rl : room 53 (length l)).
  { split; [change 134217728%N with (2 ^ 27)%N; lia|]. apply Z.le_trans with (2 ^ 27)%Z; [lia|]. apply Z.pow_le_mono_r; lia. }
  assert (Rlm : room 53 (length (l ++ m))).
  { rewrite app_length. split; [change 134217728%N with (2 ^ 27)%N; lia|]. apply Z.le_trans with (2 ^ 27)%Z; [lia|]. apply Z.pow_le_mono_r; lia. }
  assert (Sm : Forall (small b64num denotes 980) l).
  { apply Forall_forall. intros x Hx. rewrite Forall_forall in Fl. destruct (Fl x Hx) as [Fx Bx].
    exists (b64_real x). split; [split; [exact Fx|reflexivity]|exact Bx]. }
  destruct (st_ordered (-1074) 53 ltac:(lia) ltac:(lia) b64num denotes _ correct_b64 980 ltac:(lia)
    ltac:(apply bpow_le; lia) ltac:(change 1 with (bpow radix2 0); apply bpow_le; lia) qs l Rl Sm ltac:(rewrite EL; lia)) as [hr Hhr].
  set (P := fun x : b64num => exists v, denotes x v).
  assert (PT : total_on b64num P) by apply (correct_total b64num denotes (-1074) 53 _ correct_b64).
  assert (Pl : Forall P l).
  { apply Forall_forall. intros x Hx. rewrite Forall_forall in Fl. destruct (Fl x Hx) as [Fx _]. exists (b64_real x). split; [exact Fx|reflexivity]. }
  pose proof (inv_transfer b64num qs l _ r Ep Eh (long_inv_st b64num qs P PT l Hsl Pl ltac:(rewrite EL; lia))) as I.
  rewrite <- Eh in Hhr.
  assert (Ecc : c = cont b64num qs r m) by (unfold c, pushes; rewrite run_map_push; reflexivity).
  destruct (b64_list (l ++ m) _ Fall) as [D3 Db3].
  destruct (cont_heights (-1074) 53 ltac:(lia) ltac:(lia) b64num denotes _ correct_b64 980 ltac:(lia)
    ltac:(apply bpow_le; lia) ltac:(change 1 with (bpow radix2 0); apply bpow_le; lia) qs r l m (map b64_real (l ++ m)) hr)
    as (hs & H1 & H2 & H3); try assumption; [rewrite Ec, EL; lia|rewrite Ec, EL; lia|].
  rewrite <- Ecc in H1.
  assert (I' : long_inv b64num qs (l ++ m) c).
  { rewrite Ecc. apply (cont_inv b64num qs P PT); try assumption; rewrite ?Ec, ?EL; try lia.
    - unfold PsquareGeneric.fits. rewrite app_length. lia.
    - apply Forall_forall. intros x Hx. rewrite Forall_forall in Fm. destruct (Fm x Hx) as [Fx _]. exists (b64_real x). split; [exact Fx|reflexivity]. }
  destruct I' as [A B _ _ _ _ _].
  assert (Eh2 : h = ps_heights b64num c) by (unfold h, psq_parameters; apply combine_snd; congruence).
  rewrite <- Eh2 in H1.
  assert (Em : map b64_real h = hs /\ Forall b64_finite h).
  { clear - H1. induction H1 as [|x v h hs [Fx <-] _ [<- IH]]; [split; [reflexivity|constructor]|].
    split; [reflexivity|constructor; assumption]. }
  destruct Em as [-> Fh]. split; [rewrite Eh2, B; exact EL|]. split; [exact Fh|]. split; [exact H2|exact H3].
Qed.

(** @ex C113_ordered_ex: a median of six values, restored and continued with three
    values of very different size. *)
Lemma c113_ordered_ex :
  let q := ratio_value b64num (1 # 2) in
  let l := map b64_of_Z [3; 1; 2; 5; 4; 9]%Z in
  let m := map b64_of_Z [-1000000; 4; 1000000]%Z in
  Forall (fun x : b64num => b64_finite x /\ Rabs (b64_real x) <= bpow radix2 980) (since_clear (pushes l) ++ m) /\
  (2 * length [q] + 3 <= length l)%nat /\ (N.of_nat (length (l ++ m)) <= 2 ^ 27)%N /\
  exists r, psq_restore b64num [q] (psq_init b64num [q])
    (psq_parameters b64num (run (psq_push b64num [q]) (psq_clear b64num [q]) (psq_init b64num [q]) (pushes l))) = Some r.
Proof.
  intros q l m. split; [|split; [cbn; lia|split; [vm_compute; discriminate|]]].
  - rewrite since_clear_pushes. unfold l, m. rewrite <- map_app. apply Forall_map.
    apply Forall_forall. intros z Hz. apply d64_ok; [|lia].
    cbn in Hz. repeat (destruct Hz as [<-|Hz]; [lia|]). destruct Hz.
  - destruct (c41_double [q] (pushes l) (psq_init b64num [q])) as (r & R & _); [vm_compute; discriminate|vm_compute; discriminate|].
    exists r. exact R.
Qed.

(** @prop C113_refuted: parameters() saved before 2Q+3 values were pushed cannot be
    continued: the median of 5, 6 and 7 is 6, but if the parameters are saved after
    5 and 6, restored and continued with 7, it is 0, outside the range of the
    values; size() is 6 instead of 3. *)
Lemma c113_refuted : exists (l m : list b64num),
  let q := ratio_value b64num (1 # 2) in
  let s := run (psq_push b64num [q]) (psq_clear b64num [q]) (psq_init b64num [q]) (pushes l) in
  l = map b64_of_Z [5; 6]%Z /\ m = [b64_of_Z 7] /\
  exists r, psq_restore b64num [q] (psq_init b64num [q]) (psq_parameters b64num s) = Some r /\
  let c := run (psq_push b64num [q]) (psq_clear b64num [q]) r (pushes m) in
  psq_get b64num [q] c 1 = Some (b64_of_Z 0) /\ psq_size b64num c = 6%N /\
  psq_get b64num [q] (run (psq_push b64num [q]) (psq_clear b64num [q]) (psq_init b64num [q]) (pushes (l ++ m))) 1 = Some (b64_of_Z 6).
Proof.
  exists (map b64_of_Z [5; 6]%Z), [b64_of_Z 7]. intros q s. split; [reflexivity|]. split; [reflexivity|].
  assert (M : match psq_restore b64num [q] (psq_init b64num [q]) (psq_parameters b64num s) with
    | Some r => let c := run (psq_push b64num [q]) (psq_clear b64num [q]) r (pushes [b64_of_Z 7]) in
        psq_get b64num [q] c 1 = Some (b64_of_Z 0) /\ psq_size b64num c = 6%N
    | None => False end) by (vm_compute; split; reflexivity).
  destruct (psq_restore b64num [q] (psq_init b64num [q]) (psq_parameters b64num s)) as [r|]; [|contradiction].
  exists r. split; [reflexivity|]. destruct M as [M1 M2]. split; [exact M1|]. split; [exact M2|]. vm_compute. reflexivity.
Qed.

(** @prop C113_defined: for every arithmetic, restoring is defined only if the data
    has at least 2Q+3 elements, and then if all its positions survive the conversion
    to the value type and back (as counts up to 2^prec do). *)
Lemma c113_defined : forall (F : num) (qs : list F) (t : psq F) (data : list (N * F)) (n : N),
  ((length data < 2 * length qs + 3)%nat -> psq_restore F qs t data = None) /\
  ((2 * length qs + 3 <= length data)%nat -> counts_convert F n -> Forall (fun e => (fst e <= n)%N) data ->
   exists r, psq_restore F qs t data = Some r /\ psq_parameters F r = firstn (2 * length qs + 3) data).
Proof.
  intros F qs t data n. split.
  - intros H. unfold psq_restore, parameter_length, quantile_length.
    destruct (psq_assign F (2 * length qs + 3) data) as [[ps [hs ds]]|] eqn:E; [|reflexivity].
    destruct (assign_some F _ _ _ _ _ E) as (_ & _ & C). lia.
  - intros H Hc Hb. unfold psq_restore, parameter_length, quantile_length.
    assert (G : forall k (d : list (N * F)), (k <= length d)%nat -> Forall (fun e => (fst e <= n)%N) d ->
      psq_assign F k d = Some (map fst (firstn k d), (map snd (firstn k d), map (fun e => nofsz (fst e)) (firstn k d)))).
    { induction k as [|k IH]; intros d Hd Hf; [reflexivity|]. destruct d as [|[p h] d]; [cbn in Hd; lia|].
      inversion Hf as [|? ? Hp Hf']; subst. cbn [psq_assign firstn map fst snd].
      rewrite (Hc p Hp), (IH d ltac:(cbn in Hd; lia) Hf'). reflexivity. }
    rewrite (G _ data H Hb). eexists. split; [reflexivity|].
    unfold psq_parameters. cbn [ps_positions ps_heights].
    generalize (firstn (2 * length qs + 3) data). intros d. induction d as [|[p h] d IH]; [reflexivity|].
    cbn [map combine fst snd]. rewrite IH. reflexivity.
Qed.

(** @ex C113_defined_ex: the parameters of a median estimator (5 elements) are not
    enough for quartiles (9 elements); those of quartiles are enough for a
    median. *)
Lemma c113_defined_ex :
  let h := ratio_value b64num (1 # 2) in
  let qs := map (ratio_value b64num) [(1 # 4)%Q; (1 # 2)%Q; (3 # 4)%Q] in
  (length (psq_parameters b64num (psq_init b64num [h])) < 2 * length qs + 3)%nat /\
  (2 * length [h] + 3 <= length (psq_parameters b64num (psq_init b64num qs)))%nat /\
  counts_convert b64num 9 /\
  Forall (fun e => (fst e <= 9)%N) (psq_parameters b64num (psq_init b64num qs)).
Proof.
  split; [vm_compute; lia|]. split; [vm_compute; lia|]. split; [apply counts_b64; discriminate|].
  vm_compute. repeat constructor; discriminate.
Qed.
