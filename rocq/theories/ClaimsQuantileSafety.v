(** * Claim C104: reading an estimate stays inside the array *)

From Coq Require Import Reals ZArith NArith Bool List QArith.
From Coq Require Import Floats.SpecFloat.
From Flocq Require Import Core.
From Verif Require Import Arith History Psquare ExactRuns PsquareRuns Rounded Binary64 Conformance.
Import ListNotations.
Local Open Scope R_scope.
(* @end-header *)
From Coq Require Import Lia Lra.
From Verif Require Import HistoryLemmas PsquareLemmas PsquareGeneric RoundedProofs Binary64Cumulative ApproxInstances CorrectRounding PsquareFew PsquareFloat.
Import PsquareRuns.

Section Safe.
Variables emin prec : Z.
Hypothesis prec8 : (8 <= prec)%Z.
Hypothesis emin34 : (emin <= -34)%Z.
Hypothesis normal : (emin + prec <= 0)%Z.
Variable F : num.
Variable val : F -> R -> Prop.
Variable B : R.
Hypothesis C : correct F val emin prec B.
Hypothesis B_large : bpow radix2 63 <= B.
Variable qs : list F.
Notation L := (parameter_length F qs).
Notation rnd := (rounding emin prec ZnearestE).
Notation u := (bpow radix2 (- prec)).

Local Instance prec_gt : Prec_gt_0 prec. Proof. unfold Prec_gt_0. lia. Qed.

(** Every access of get<index>: an element of the array, and below the number of
    stored values as long as the values are stored. *)
Lemma safe_get l index : Forall (fun q => exists v, val q v /\ 0 <= v <= 1 - 8 * u) qs ->
  PsquareGeneric.fits F l -> (Z.of_nat L <= 2 ^ prec)%Z -> (N.of_nat L < 2 ^ 62)%N -> (index <= length qs + 1)%nat ->
  let s := st F qs l in
  let h := ps_heights F s in
  (exists x, psq_get F qs s index = Some x) /\
  (forall i, index = S i -> (i < length qs)%nat -> (2 <= length l <= L)%nat ->
   exists j k w, (j < length l)%nat /\ (k < length l)%nat /\
     psq_get F qs s index = Some (nadd (nth j h n0) (nmul w (nsub (nth k h n0) (nth j h n0))))).
Proof.
  intros Hq Hf HL HL2 Hi s h.
  pose proof (st_count F qs l Hf) as Hc. fold s in Hc.
  destruct (st_lengths F qs l) as [_ Hh]. fold s in Hh. fold h in Hh.
  assert (NE : forall j, (j < L)%nat -> nth_error h j = Some (nth j h n0)).
  { intros j Hj. apply nth_error_nth'. rewrite Hh. exact Hj. }
  assert (LE : L = (2 * length qs + 3)%nat) by reflexivity.
  assert (Mid : forall i, index = S i -> (i < length qs)%nat -> (2 <= length l <= L)%nat ->
   exists j k w, (j < length l)%nat /\ (k < length l)%nat /\
     psq_get F qs s index = Some (nadd (nth j h n0) (nmul w (nsub (nth k h n0) (nth j h n0))))).
  { intros i -> Li Hl. destruct (nth_error qs i) as [q|] eqn:Eq; [|apply nth_error_None in Eq; lia].
    rewrite Forall_forall in Hq. destruct (Hq q (nth_error_In _ _ Eq)) as (v & Vq & Wb).
    unfold psq_get. fold h. rewrite Hc.
    destruct (N.ltb_spec (N.of_nat L) (N.of_nat (length l))); [lia|].
    destruct (N.ltb_spec 1 (N.of_nat (length l))) as [G|G]; [|lia].
    destruct (Nat.eqb_spec (S i) 0) as [I0|I0]; [lia|].
    destruct (Nat.eqb_spec (S i) (1 + quantile_length F qs)) as [I1|I1]; [unfold quantile_length in I1; lia|].
    replace (S i - 1)%nat with i by lia. rewrite Eq.
    assert (Ecnt : szsub (N.of_nat (length l)) 1 = N.of_nat (length l - 1)).
    { unfold PsquareGeneric.fits in Hf. rewrite szsub_small by (unfold szmod in *; lia). lia. }
    rewrite Ecnt.
    pose proof (rank_bounds emin prec prec8 emin34 normal (Z.of_nat (length l)) v ltac:(lia) ltac:(lia) Wb) as RB. cbv zeta in RB.
    set (rank := rnd (IZR (Z.of_nat (length l) - 1) * v)) in *.
    assert (u0 : 0 < u) by apply bpow_gt_0.
    assert (Nn : 1 <= IZR (Z.of_nat (length l) - 1)) by (apply IZR_le; lia).
    assert (N62 : IZR (Z.of_nat (length l)) < bpow radix2 62).
    { rewrite <- (IZR_Zpower radix2 62) by lia. apply IZR_lt. change (radix2 ^ 62)%Z with (2 ^ 62)%Z. lia. }
    assert (P63 : bpow radix2 63 = 2 * bpow radix2 62) by (change 63%Z with (1 + 62)%Z; rewrite bpow_plus; reflexivity).
    assert (Enn : IZR (Z.of_nat (length l)) = IZR (Z.of_nat (length l) - 1) + 1) by (rewrite minus_IZR; ring).
    assert (Vn : val (nofsz (N.of_nat (length l - 1))) (IZR (Z.of_nat (length l) - 1))).
    { replace (Z.of_nat (length l) - 1)%Z with (Z.of_N (N.of_nat (length l - 1))) by lia.
      rewrite <- (integer_exact emin prec ltac:(lia) ltac:(lia) ZnearestE (Z.of_N _)) by (try typeclasses eauto; lia).
      apply (co_ofsz _ _ _ _ _ C). unfold szmod. lia. }
    destruct RB as [[Ra0 Ra1] [Rb0 Rb1]].
    assert (Vr : val (nmul (nofsz (N.of_nat (length l - 1))) q) rank).
    { apply (co_mul _ _ _ _ _ C); [exact Vn|exact Vq|].
      assert (X0 : 0 <= IZR (Z.of_nat (length l) - 1) * v) by (apply Rmult_le_pos; lra).
      assert (X1 : IZR (Z.of_nat (length l) - 1) * v <= IZR (Z.of_nat (length l) - 1) * 1) by (apply Rmult_le_compat_l; lra).
      rewrite Rabs_pos_eq by exact X0. lra. }
    assert (V1 : val n1 1) by (apply (co_ofz _ _ _ _ _ C 1%Z); lia).
    assert (Vr1 : val (nadd (nmul (nofsz (N.of_nat (length l - 1))) q) n1) (rnd (rank + 1))).
    { apply (co_add _ _ _ _ _ C); [exact Vr|exact V1|]. rewrite Rabs_pos_eq by lra. lra. }
    assert (Z0 : (0 <= Zfloor rank)%Z) by (apply Zfloor_lub; exact Ra0).
    assert (Z1 : (Zfloor rank + 1 <= Zfloor (rnd (rank + 1)))%Z) by (apply Zfloor_lub; rewrite plus_IZR; exact Rb0).
    assert (Z2 : (Zfloor (rnd (rank + 1)) < Z.of_nat (length l))%Z).
    { apply lt_IZR. apply Rle_lt_trans with (2 := Rb1). apply Zfloor_lb. }
    rewrite (co_tosz _ _ _ _ _ C _ _ Vr) by lra.
    rewrite (co_tosz _ _ _ _ _ C _ _ Vr1) by (pose proof (rpos emin prec prec8 (rank + 1) ltac:(lra)); lra).
    cbn [hread]. rewrite !Z_N_nat.
    rewrite !NE by lia.
    exists (Z.to_nat (Zfloor rank)), (Z.to_nat (Zfloor (rnd (rank + 1)))). eexists.
    split; [lia|]. split; [lia|]. reflexivity. }
  split; [|exact Mid].
  destruct (Nat.le_gt_cases (length l) L) as [Short|Long].
  - destruct (Nat.le_gt_cases 2 (length l)) as [Two|One].
    + destruct index as [|i].
      * unfold psq_get. fold h. rewrite Hc. destruct (N.ltb_spec (N.of_nat L) (N.of_nat (length l))); [lia|].
        destruct (N.ltb_spec 1 (N.of_nat (length l))) as [G|G]; [|lia]. cbn [Nat.eqb]. rewrite NE by lia. eauto.
      * destruct (Nat.lt_ge_cases i (length qs)) as [Li|Li].
        { destruct (Mid i eq_refl Li ltac:(lia)) as (j & k & w & _ & _ & E). eauto. }
        assert (I : i = length qs) by lia. subst i.
        unfold psq_get. fold h. rewrite Hc. destruct (N.ltb_spec (N.of_nat L) (N.of_nat (length l))); [lia|].
        destruct (N.ltb_spec 1 (N.of_nat (length l))) as [G|G]; [|lia].
        change (S (length qs) =? 0)%nat with false. change (1 + quantile_length F qs)%nat with (S (length qs)).
        rewrite Nat.eqb_refl.
        rewrite NE; [eauto|]. unfold PsquareGeneric.fits in Hf. rewrite szsub_small by (unfold szmod in *; lia). lia.
    + unfold psq_get. fold h. rewrite Hc. destruct (N.ltb_spec (N.of_nat L) (N.of_nat (length l))); [lia|].
      destruct (N.ltb_spec 1 (N.of_nat (length l))) as [G|G]; [lia|].
      destruct (N.ltb_spec 0 (N.of_nat (length l))) as [G0|G0]; [|eauto].
      rewrite NE; [eauto|]. unfold PsquareGeneric.fits in Hf. rewrite szsub_small by (unfold szmod in *; lia). lia.
  - unfold psq_get. fold h. rewrite Hc. destruct (N.ltb_spec (N.of_nat L) (N.of_nat (length l))); [|lia].
    rewrite NE by lia. eauto.
Qed.
End Safe.

(** @prop C104_safe_binary64_partial: double, ratios between 0 and 1 - 2^-50, every
    history of pushes and clears with any doubles, NaN and infinities included: no
    get<i> reads outside the array, and while the values are stored an
    interpolated estimate is computed from two stored values. *)
Lemma c104_safe : forall (qs : list b64num) (ops : list (op b64num)) (index : nat),
  Forall (fun q : b64num => b64_finite q /\ 0 <= b64_real q <= 1 - bpow radix2 (-50)) qs ->
  (Z.of_nat (2 * length qs + 3) <= 2 ^ 53)%Z ->
  let l := since_clear ops in
  (N.of_nat (length l) < szmod)%N -> (index <= length qs + 1)%nat ->
  let s := run (psq_push b64num qs) (psq_clear b64num qs) (psq_init b64num qs) ops in
  let h := ps_heights b64num s in
  (exists x, psq_get b64num qs s index = Some x) /\
  (forall i, index = S i -> (i < length qs)%nat -> (2 <= length l <= 2 * length qs + 3)%nat ->
   exists j k w, (j < length l)%nat /\ (k < length l)%nat /\
     psq_get b64num qs s index = Some (nadd (nth j h n0) (nmul w (nsub (nth k h n0) (nth j h n0))))).
Proof.
  intros qs ops index Hq HL l Hf Hi s h. unfold h, s. rewrite PsquareGeneric.run_psq. fold l.
  apply (safe_get (-1074) 53 ltac:(lia) ltac:(lia) ltac:(lia) b64num denotes _ correct_b64 ltac:(apply bpow_le; lia) qs l index).
  - eapply Forall_impl; [|exact Hq]. intros q [Fq Qb]. exists (b64_real q).
    split; [split; [exact Fq|reflexivity]|]. replace (8 * bpow radix2 (- (53))) with (bpow radix2 (-50)); [exact Qb|].
    change (-50)%Z with (3 + - (53))%Z. rewrite bpow_plus. change (bpow radix2 3) with 8. ring.
  - exact Hf.
  - exact HL.
  - unfold parameter_length, quantile_length. lia.
  - exact Hi.
Qed.

(** @ex C104_safe_binary64_partial_ex: the median of a NaN and an infinity, which
    is NaN, after a clear. *)
Lemma c104_safe_ex :
  let half := S754_finite false 4503599627370496 (-53) in
  Forall (fun q : b64num => b64_finite q /\ 0 <= b64_real q <= 1 - bpow radix2 (-50)) [half] /\
  (Z.of_nat (2 * length [half] + 3) <= 2 ^ 53)%Z /\
  let ops := [Push (b64_of_Z 3); Clear; Push S754_nan; Push (S754_infinity false)] in
  (N.of_nat (length (since_clear ops)) < szmod)%N /\ (1 <= length [half] + 1)%nat /\
  psq_get b64num [half] (run (psq_push b64num [half]) (psq_clear b64num [half]) (psq_init b64num [half]) ops) 1 = Some S754_nan.
Proof.
  intros half. split.
  - change (bpow radix2 (-50)) with (/ 1125899906842624). apply Forall_cons; [|apply Forall_nil].
    split; [split; reflexivity|]. unfold half, b64_real. cbn [BinarySingleNaN.SF2R]. unfold F2R. cbn [Fnum Fexp cond_Zopp].
    change (bpow radix2 (-53)) with (/ 9007199254740992). lra.
  - split; [cbn; lia|]. intros ops. split; [reflexivity|]. split; [cbn; lia|]. vm_compute. reflexivity.
Qed.

(** @prop C104_safe_rounded_partial: the same in every binary format with at least 8
    bits of precision and round to nearest (float is 24), for ratios up to
    1 - 2^(3-precision) and every history, results that are not finite numbers
    included. *)
Lemma c104_safe_rounded : forall (emin prec : Z) (qs : list R) (ops : list (op (rounded emin prec ZnearestE))) (index : nat),
  (8 <= prec)%Z -> (emin <= -34)%Z -> (emin + prec <= 0)%Z ->
  Forall (fun q => representable emin prec q /\ 0 <= q <= 1 - bpow radix2 (3 - prec)) qs ->
  (Z.of_nat (2 * length qs + 3) <= 2 ^ prec)%Z -> (N.of_nat (2 * length qs + 3) < 2 ^ 62)%N ->
  let F := rounded emin prec ZnearestE in
  let l := since_clear ops in
  (N.of_nat (length l) < szmod)%N -> (index <= length qs + 1)%nat ->
  let s := run (psq_push F (map Fin qs)) (psq_clear F (map Fin qs)) (psq_init F (map Fin qs)) ops in
  exists x, psq_get F (map Fin qs) s index = Some x.
Proof.
  intros emin prec qs ops index Hp He Hn Hq HL HL2 F l Hf Hi s. unfold s. rewrite PsquareGeneric.run_psq. fold l.
  refine (proj1 (safe_get emin prec Hp He Hn F rval (bpow radix2 63) (correct_rounded emin prec _ ltac:(lia) ltac:(lia))
    ltac:(lra) (map Fin qs) l index _ Hf _ _ _)).
  - apply Forall_map. eapply Forall_impl; [|exact Hq]. cbv beta. intros q [Rq Qb]. exists q.
    split; [split; [reflexivity|apply (@representable_fmt emin prec ltac:(unfold Prec_gt_0; lia)); exact Rq]|].
    replace (3 - prec)%Z with (3 + - prec)%Z in Qb by lia. rewrite bpow_plus in Qb. change (bpow radix2 3) with 8 in Qb. exact Qb.
  - unfold parameter_length, quantile_length. rewrite map_length. exact HL.
  - unfold parameter_length, quantile_length. rewrite map_length. exact HL2.
  - rewrite map_length. exact Hi.
Qed.

(** @ex C104_safe_rounded_partial_ex: float, the quartiles. *)
Lemma c104_safe_rounded_ex :
  (8 <= 24)%Z /\ (-149 <= -34)%Z /\ (-149 + 24 <= 0)%Z /\
  Forall (fun q => representable (-149) 24 q /\ 0 <= q <= 1 - bpow radix2 (3 - 24)) [/ 4; / 2; 3 / 4] /\
  (Z.of_nat (2 * length [/ 4; / 2; 3 / 4]%R + 3) <= 2 ^ 24)%Z /\ (3 <= length [/ 4; / 2; 3 / 4]%R + 1)%nat.
Proof.
  assert (I : forall m e, (Z.abs m <= 1000)%Z -> (-100 <= e)%Z -> representable (-149) 24 (IZR m * bpow radix2 e)).
  { intros m e Hm E0. exists (Float radix2 m e); cbn [Fnum Fexp]; [reflexivity|change (radix2 ^ 24)%Z with 16777216%Z; lia|lia]. }
  split; [lia|]. split; [lia|]. split; [lia|].
  change (bpow radix2 (3 - 24)) with (/ 2097152).
  split; [|split; cbn; lia].
  apply Forall_cons; [|apply Forall_cons; [|apply Forall_cons; [|apply Forall_nil]]]; (split; [|lra]).
  - replace (/ 4) with (IZR 1 * bpow radix2 (-2)) by (change (bpow radix2 (-2)) with (/ 4); lra). apply I; lia.
  - replace (/ 2) with (IZR 1 * bpow radix2 (-1)) by (change (bpow radix2 (-1)) with (/ 2); lra). apply I; lia.
  - replace (3 / 4) with (IZR 3 * bpow radix2 (-2)) by (change (bpow radix2 (-2)) with (/ 4); lra). apply I; lia.
Qed.

(** A rank that rounds to the length of the array is read out of bounds. *)
Lemma outside_get (F : num) (qs l : list F) i q : (i < length qs)%nat ->
  length l = parameter_length F qs -> PsquareGeneric.fits F l -> nth_error qs i = Some q ->
  ntosz (nadd (nmul (nofsz (N.of_nat (length l - 1))) q) n1) = Some (N.of_nat (length l)) ->
  psq_get F qs (st F qs l) (S i) = None.
Proof.
  intros Hi Hl Hf Eq E.
  pose proof (st_count F qs l Hf) as Hc. destruct (st_lengths F qs l) as [_ Hh].
  assert (PL : parameter_length F qs = (2 * length qs + 3)%nat) by reflexivity.
  unfold psq_get. rewrite Hc, <- Hl.
  destruct (N.ltb_spec (N.of_nat (length l)) (N.of_nat (length l))); [lia|].
  destruct (N.ltb_spec 1 (N.of_nat (length l))) as [G|G]; [|lia].
  destruct (Nat.eqb_spec (S i) 0) as [I0|I0]; [lia|].
  destruct (Nat.eqb_spec (S i) (1 + quantile_length F qs)) as [I1|I1]; [unfold quantile_length in I1; lia|].
  replace (S i - 1)%nat with i by lia. rewrite Eq.
  unfold PsquareGeneric.fits in Hf. rewrite szsub_small by (unfold szmod in *; lia).
  replace (N.of_nat (length l) - 1)%N with (N.of_nat (length l - 1)) by lia.
  rewrite E. cbn [hread]. rewrite Nat2N.id.
  rewrite (proj2 (nth_error_None _ (length l))) by (rewrite Hh, Hl; lia).
  destruct (hread _ _ _); reflexivity.
Qed.

(** @prop C104_ratio_one: exact arithmetic: if the ratio 1 is listed, its estimate
    reads beyond the end of the array whenever exactly 2Q+3 values are stored,
    whatever they are. *)
Lemma c104_one : forall (eps : R) (before after : list R) (ops : list (op R)),
  let qs := before ++ [1] ++ after in
  (N.of_nat (2 * length qs + 3) < szmod)%N ->
  length (since_clear ops) = (2 * length qs + 3)%nat ->
  psq_get _ (rqs eps qs) (run_psq eps qs ops) (S (length before)) = None.
Proof.
  intros eps before after ops qs HS Hl. set (F := exact eps).
  assert (Hq : length (rqs eps qs) = length qs) by apply map_length.
  assert (LQ : length qs = (length before + S (length after))%nat) by (unfold qs; rewrite !app_length; reflexivity).
  assert (PL : parameter_length F (rqs eps qs) = (2 * length qs + 3)%nat) by (change (parameter_length F (rqs eps qs)) with (2 * length (rqs eps qs) + 3)%nat; rewrite Hq; reflexivity).
  unfold run_psq. rewrite (PsquareGeneric.run_psq F (rqs eps qs)).
  assert (Ll : length (since_clear (rops eps ops)) = (2 * length qs + 3)%nat).
  { unfold rops. rewrite since_clear_op_map, map_length. exact Hl. }
  apply (outside_get F (rqs eps qs) (since_clear (rops eps ops)) (length before) (Fin 1)).
  - apply Nat.lt_le_trans with (length qs); [lia|]. apply Nat.eq_le_incl. symmetry. exact Hq.
  - etransitivity; [exact Ll|]. symmetry. exact PL.
  - change (N.of_nat (length (since_clear (rops eps ops))) < szmod)%N. rewrite Ll. exact HS.
  - unfold rqs, qs. rewrite map_app, nth_error_app2 by (rewrite map_length; lia). rewrite map_length, Nat.sub_diag. reflexivity.
  - change (xtosz (Fin (IZR (Z.of_N (N.of_nat (length (since_clear (rops eps ops)) - 1))) * 1 + 1)) = Some (N.of_nat (length (since_clear (rops eps ops))))).
    rewrite Ll. unfold xtosz.
    replace (IZR (Z.of_N (N.of_nat (2 * length qs + 3 - 1))) * 1 + 1) with (IZR (Z.of_nat (2 * length qs + 3))).
    + rewrite Ztrunc_IZR. rewrite (proj2 (Z.leb_le _ _)) by lia.
      rewrite (proj2 (Z.ltb_lt _ _)) by (unfold szmod in *; lia).
      cbn [andb]. f_equal. lia.
    + rewrite Rmult_1_r, nat_N_Z, <- plus_IZR. f_equal. lia.
Qed.

(** @ex C104_ratio_one_ex: five values and the ratio 1 alone. *)
Lemma c104_one_ex :
  (N.of_nat (2 * length ([] ++ [1%R] ++ []) + 3) < szmod)%N /\
  length (since_clear [Push 4; Clear; Push 1; Push 2; Push 3; Push 4; Push 5]) = (2 * length ([] ++ [1%R] ++ []) + 3)%nat.
Proof. split; reflexivity. Qed.

(** @prop C104_near_one_refuted: ratios below 1 are not safe either. Double, five
    values: (2^53-1)/2^53, which double represents exactly, makes the rank plus 1
    round up to 5; 2^53/(2^53+1) is stored as 1; so is 99999999/100000000 in a
    float. *)
Lemma c104_near_one_refuted : exists (q q' f : Q) (l : list Z),
  let est (F : num) (q : Q) :=
    let qs := [ratio_value F q] in
    psq_get F qs (run (psq_push F qs) (psq_clear F qs) (psq_init F qs) (pushes (map (fun z => nofz z : F) l))) 1 in
  Forall (fun r => Qlt 0 r /\ Qlt r 1) [q; q'; f] /\ length l = 5%nat /\
  SFltb (ratio_value b64num q) (b64_of_Z 1) = true /\
  est b64num q = None /\ est b64num q' = None /\ est b32num f = None.
Proof.
  exists (9007199254740991 # 9007199254740992), (9007199254740992 # 9007199254740993), (99999999 # 100000000), [1; 2; 3; 4; 5]%Z.
  cbv zeta. split; [repeat (constructor; [split; reflexivity|]); constructor|]. split; [reflexivity|].
  split; [vm_compute; reflexivity|]. split; [vm_compute; reflexivity|]. split; vm_compute; reflexivity.
Qed.
