(** * Claim C124: the P-square quantile estimator compiled with fused multiply-adds *)

From Coq Require Import Reals ZArith NArith List Bool Sorting.Sorted.
From Flocq Require Import Core.
From Verif Require Import Arith History Psquare Rounded SpecPsquare Contracted ContractedPsquare.
Import ListNotations.
Local Open Scope R_scope.
(* @end-header *)
From Coq Require Import Lia Lra.
From Verif Require Import HistoryLemmas PsquareGeneric RoundedProofs ApproxInstances CorrectRounding
  PsquareFloat PsquareOrdered PsquareFew ContractedStep ContractedPsquareRuns ContractedPsquareProofs ClaimsPsquareFloat.

Lemma fma_rounded emin prec B : (0 < prec)%Z ->
  forall (x y z : rounded emin prec ZnearestE) a b c, rval x a -> rval y b -> rval z c -> Rabs (a * b + c) <= B ->
  rval (fma (rounded_fused emin prec ZnearestE) x y z) (rounding emin prec ZnearestE (a * b + c)).
Proof.
  intros Hp x y z a b c [-> _] [-> _] [-> _] _. split; [reflexivity|].
  apply (@rnd_fmt emin prec Hp ZnearestE _).
Qed.

Lemma fused_params (F : num) (U : fused F) first (qs l : list F) :
  map snd (psq_parameters F (stw F (psq_parabolic_fma F U first) qs l)) = ps_heights F (stw F (psq_parabolic_fma F U first) qs l).
Proof.
  unfold psq_parameters. pose proof (stw_lengths F (psq_parabolic_fma F U first) qs l) as [A B].
  assert (G : forall (x : list N) (y : list F), length x = length y -> map snd (combine x y) = y).
  { induction x as [|a x IH]; intros [|b y] H; cbn in *; try reflexivity; try discriminate. f_equal. apply IH. congruence. }
  apply G. congruence.
Qed.

Lemma fused_fops emin prec first (qs : list (rounded emin prec ZnearestE)) ops :
  run (psq_push_fma _ (rounded_fused emin prec ZnearestE) qs first) (psq_clear _ qs) (psq_init _ qs) (fops emin prec ZnearestE ops) =
  stw _ (psq_parabolic_fma _ (rounded_fused emin prec ZnearestE) first) qs (map Fin (since_clear ops)).
Proof. unfold fops, psq_push_fma. rewrite run_psq_with, since_clear_op_map. reflexivity. Qed.

(** @prop C124_order: compiled with fused multiply-adds, whichever of the two inner
    products of parabolic() is fused: for every binary floating-point format
    with at least 8 bits of precision, round to nearest and no overflow, every
    list of Q quantiles of the value type and every history with 2Q+3 to 2^27
    (and at most 2^precision) representable values since the last clear, the
    marker heights reported by parameters() are numbers of the format in
    ascending order between the smallest and the largest value. *)
Lemma c124_order : forall (emin prec : Z) (first : bool) (ops : list (op R)),
  (8 <= prec)%Z -> (emin <= -34)%Z ->
  let F := rounded emin prec ZnearestE in
  forall qs : list F,
  let l := since_clear ops in
  Forall (representable emin prec) l ->
  (2 * length qs + 3 <= length l)%nat -> (N.of_nat (length l) <= 2 ^ 27)%N -> (Z.of_nat (length l) <= 2 ^ prec)%Z ->
  let s := run (psq_push_fma F (rounded_fused emin prec ZnearestE) qs first) (psq_clear F qs) (psq_init F qs) (fops emin prec ZnearestE ops) in
  exists hs : list R, map snd (psq_parameters F s) = map Fin hs /\
    StronglySorted Rle hs /\ Forall (representable emin prec) hs /\ Forall (fun h => in_hull h l) hs.
Proof.
  intros emin prec first ops Hp He F qs l Fl L0 L1 L2 s.
  unfold s, F. rewrite fused_fops. fold l. rewrite fused_params.
  destruct (list_bound l) as (k & K0 & Kb).
  pose proof (correct_rounded emin prec (bpow radix2 (k + 30)) ltac:(lia) ltac:(lia)) as C.
  assert (B1 : 1 <= bpow radix2 (k + 30)) by (change 1 with (bpow radix2 0); apply bpow_le; lia).
  destruct (fused_heights emin prec Hp He _ (rounded_fused emin prec ZnearestE) _ _ C (fma_rounded emin prec _ ltac:(lia)) k ltac:(lia) (Rle_refl _) B1 qs first (map Fin l) l) as (hs & H1 & H2 & H3).
  - rewrite map_length. split; [exact L1|exact L2].
  - apply fin_list; [lia|exact Fl].
  - exact Kb.
  - unfold parameter_length, quantile_length. rewrite map_length. exact L0.
  - exists hs. destruct (unfin_list emin prec ZnearestE _ hs H1) as [[E R]|N]; [|lia]. auto.
Qed.

(** @ex C124_order_ex: single precision, one quantile that is not a number; seven
    values after a clear. *)
Lemma c124_order_ex :
  (8 <= 24)%Z /\ (-149 <= -34)%Z /\
  let ops := [Push 100; Clear; Push 3; Push 1; Push 2; Push 5; Push 4; Push 7; Push 6] in
  let l := since_clear ops in
  Forall (representable (-149) 24) l /\ (2 * length [@NonFin] + 3 <= length l)%nat /\
  (N.of_nat (length l) <= 2 ^ 27)%N /\ (Z.of_nat (length l) <= 2 ^ 24)%Z.
Proof.
  split; [lia|]. split; [lia|]. intros ops l. split; [|split; [cbn; lia|split; vm_compute; discriminate]].
  unfold l, ops. cbn [since_clear].
  assert (I : forall z, (Z.abs z <= 2 ^ 24)%Z -> representable (-149) 24 (IZR z)).
  { intros z Hz. apply (@representable_fmt (-149) 24 eq_refl).
    rewrite <- (integer_exact (-149) 24 ltac:(lia) ltac:(lia) ZnearestE z) by (try typeclasses eauto; exact Hz).
    apply (@rnd_fmt (-149) 24 eq_refl ZnearestE _). }
  repeat (apply Forall_cons; [apply I; vm_compute; discriminate|]). apply Forall_nil.
Qed.

(** @prop C124_range: compiled with fused multiply-adds, the same formats (in which
    1 is a normal number), every quantile representable and between 0 and
    1 - 2^(3-precision): after one or more values, however few, get<i> is defined
    for every index and its result is a number between the smallest and the
    largest value since the last clear. *)
Lemma c124_range : forall (emin prec : Z) (first : bool) (qs : list R) (ops : list (op R)) (index : nat),
  (8 <= prec)%Z -> (emin <= -34)%Z -> (emin + prec <= 0)%Z ->
  Forall (fun q => representable emin prec q /\ 0 <= q <= 1 - bpow radix2 (3 - prec)) qs ->
  let l := since_clear ops in
  Forall (representable emin prec) l -> l <> [] ->
  (N.of_nat (length l) <= 2 ^ 27)%N -> (Z.of_nat (length l) <= 2 ^ prec)%Z ->
  (index <= length qs + 1)%nat ->
  let F := rounded emin prec ZnearestE in
  let s := run (psq_push_fma F (rounded_fused emin prec ZnearestE) (map Fin qs) first) (psq_clear F (map Fin qs)) (psq_init F (map Fin qs))
               (fops emin prec ZnearestE ops) in
  exists v, psq_get_fma F (rounded_fused emin prec ZnearestE) (map Fin qs) s index = Some (Fin v) /\ representable emin prec v /\ in_hull v l.
Proof.
  intros emin prec first qs ops index Hp He Hn Hq l Fl NE L1 L2 Hi F s.
  unfold s, F. rewrite fused_fops. fold l.
  destruct (list_bound l) as (k & K0 & Kb).
  pose proof (correct_rounded emin prec (bpow radix2 (k + 30)) ltac:(lia) ltac:(lia)) as C.
  assert (B1 : bpow radix2 30 <= bpow radix2 (k + 30)) by (apply bpow_le; lia).
  assert (B0 : 1 <= bpow radix2 (k + 30)) by (change 1 with (bpow radix2 0); apply bpow_le; lia).
  destruct (fused_get emin prec Hp He _ (rounded_fused emin prec ZnearestE) _ _ C (fma_rounded emin prec _ ltac:(lia)) k ltac:(lia) (Rle_refl _) B0 (map Fin qs) Hn B1 first (map Fin l) l index) as (x & v & E & [-> V] & Hv).
  - unfold weights_ok. apply Forall_map. eapply Forall_impl; [|exact Hq].
    intros q [Rq Qb]. exists q. split.
    + split; [reflexivity|]. apply (@representable_fmt emin prec ltac:(unfold Prec_gt_0; lia)). exact Rq.
    + replace (3 - prec)%Z with (3 + - prec)%Z in Qb by lia. rewrite bpow_plus in Qb.
      change (bpow radix2 3) with 8 in Qb. exact Qb.
  - rewrite map_length. split; [exact L1|exact L2].
  - apply fin_list; [lia|exact Fl].
  - exact Kb.
  - intros H. apply map_eq_nil in H. congruence.
  - rewrite map_length. exact Hi.
  - exists v. split; [exact E|]. split; [|exact Hv].
    apply (@representable_fmt emin prec ltac:(unfold Prec_gt_0; lia)). exact V.
Qed.

(** @ex C124_range_ex: single precision, quartiles; two values. *)
Lemma c124_range_ex :
  (8 <= 24)%Z /\ (-149 <= -34)%Z /\ (-149 + 24 <= 0)%Z /\
  Forall (fun q => representable (-149) 24 q /\ 0 <= q <= 1 - bpow radix2 (3 - 24)) [/ 4; / 2; 3 / 4] /\
  let ops := [Push 3; Push (-1)] in
  let l := since_clear ops in
  Forall (representable (-149) 24) l /\ l <> [] /\ (N.of_nat (length l) <= 2 ^ 27)%N /\
  (Z.of_nat (length l) <= 2 ^ 24)%Z /\ (4 <= length [/ 4; / 2; 3 / 4]%R + 1)%nat.
Proof.
  assert (I : forall m e, (Z.abs m <= 1000)%Z -> (-100 <= e)%Z -> representable (-149) 24 (IZR m * bpow radix2 e)).
  { intros m e Hm E0. exists (Float radix2 m e); cbn [Fnum Fexp]; [reflexivity|change (radix2 ^ 24)%Z with 16777216%Z; lia|lia]. }
  split; [lia|]. split; [lia|]. split; [lia|].
  change (bpow radix2 (3 - 24)) with (/ 2097152).
  split.
  { apply Forall_cons; [|apply Forall_cons; [|apply Forall_cons; [|apply Forall_nil]]]; (split; [|lra]).
    - replace (/ 4) with (IZR 1 * bpow radix2 (-2)) by (change (bpow radix2 (-2)) with (/ 4); lra). apply I; lia.
    - replace (/ 2) with (IZR 1 * bpow radix2 (-1)) by (change (bpow radix2 (-1)) with (/ 2); lra). apply I; lia.
    - replace (3 / 4) with (IZR 3 * bpow radix2 (-2)) by (change (bpow radix2 (-2)) with (/ 4); lra). apply I; lia. }
  intros ops l. unfold l, ops. cbn [since_clear].
  split; [|split; [discriminate|split; [vm_compute; discriminate|split; [vm_compute; discriminate|cbn; lia]]]].
  apply Forall_cons; [|apply Forall_cons; [|apply Forall_nil]].
  - replace 3 with (IZR 3 * bpow radix2 0) by (cbn; lra). apply I; lia.
  - replace (-1) with (IZR (-1) * bpow radix2 0) by (cbn; lra). apply I; lia.
Qed.

(** @prop C124_estimates_order: compiled with fused multiply-adds, once more than
    2Q+3 values have been pushed, the estimates are in the order of their
    indices. *)
Lemma c124_estimates_order : forall (emin prec : Z) (first : bool) (ops : list (op R)) (i j : nat),
  (8 <= prec)%Z -> (emin <= -34)%Z ->
  let F := rounded emin prec ZnearestE in
  let U := rounded_fused emin prec ZnearestE in
  forall qs : list F,
  let l := since_clear ops in
  Forall (representable emin prec) l ->
  (2 * length qs + 3 < length l)%nat -> (N.of_nat (length l) <= 2 ^ 27)%N -> (Z.of_nat (length l) <= 2 ^ prec)%Z ->
  (i <= j)%nat -> (j <= length qs + 1)%nat ->
  let s := run (psq_push_fma F U qs first) (psq_clear F qs) (psq_init F qs) (fops emin prec ZnearestE ops) in
  exists v w, psq_get_fma F U qs s i = Some (Fin v) /\ psq_get_fma F U qs s j = Some (Fin w) /\ v <= w.
Proof.
  intros emin prec first ops i j Hp He F U qs l Fl L0 L1 L2 Hij Hj s.
  unfold s, F, U. rewrite fused_fops. fold l.
  destruct (list_bound l) as (k & K0 & Kb).
  pose proof (correct_rounded emin prec (bpow radix2 (k + 30)) ltac:(lia) ltac:(lia)) as C.
  assert (B0 : 1 <= bpow radix2 (k + 30)) by (change 1 with (bpow radix2 0); apply bpow_le; lia).
  destruct (fused_get_ordered emin prec Hp He _ (rounded_fused emin prec ZnearestE) _ _ C (fma_rounded emin prec _ ltac:(lia)) k ltac:(lia) (Rle_refl _) B0 qs first (map Fin l) l i j) as (x & y & v & w & E1 & E2 & [-> _] & [-> _] & H).
  - rewrite map_length. split; [exact L1|exact L2].
  - apply fin_list; [lia|exact Fl].
  - exact Kb.
  - unfold parameter_length, quantile_length. rewrite map_length. exact L0.
  - exact Hij.
  - exact Hj.
  - exists v, w. split; [exact E1|]. split; [exact E2|exact H].
Qed.

(** @ex C124_estimates_order_ex: single precision, one quantile; seven values after
    a clear, the estimates 1 and 2. *)
Lemma c124_estimates_order_ex :
  (8 <= 24)%Z /\ (-149 <= -34)%Z /\
  let ops := [Push 100; Clear; Push 3; Push 1; Push 2; Push 5; Push 4; Push 7; Push 6] in
  let l := since_clear ops in
  Forall (representable (-149) 24) l /\ (2 * length [/ 2] + 3 < length l)%nat /\
  (N.of_nat (length l) <= 2 ^ 27)%N /\ (Z.of_nat (length l) <= 2 ^ 24)%Z /\ (1 <= 2)%nat /\ (2 <= length [/ 2]%R + 1)%nat.
Proof.
  destruct c124_order_ex as (A & B & D & _). split; [exact A|]. split; [exact B|].
  intros ops l. split; [exact D|]. cbn. repeat split; try lia; vm_compute; discriminate.
Qed.

Lemma round_third : rounding (-1074) 53 ZnearestE (3 * (6004799503160661 * bpow radix2 (-54))) = 1.
Proof.
  set (x := 3 * (6004799503160661 * bpow radix2 (-54))).
  assert (Ex : x = 1 - / 18014398509481984).
  { unfold x. change (bpow radix2 (-54)) with (/ 18014398509481984). lra. }
  assert (M : mag_val radix2 x (mag radix2 x) = 0%Z).
  { apply mag_unique. rewrite Rabs_pos_eq by (rewrite Ex; lra).
    change (bpow radix2 (0 - 1)) with (/ 2). change (bpow radix2 0) with 1. rewrite Ex. lra. }
  unfold rounding, round. unfold scaled_mantissa, cexp. rewrite M.
  change (FLT_exp (-1074) 53 0) with (-53)%Z. change (bpow radix2 (- -53)) with 9007199254740992.
  assert (Ef : Zfloor (x * 9007199254740992) = 9007199254740991%Z).
  { apply Zfloor_imp. rewrite plus_IZR, Ex. lra. }
  assert (Ec : Zceil (x * 9007199254740992) = 9007199254740992%Z).
  { apply Zceil_imp. rewrite minus_IZR, Ex. lra. }
  unfold Znearest. rewrite Ef, Ec. rewrite Rcompare_Eq by (rewrite Ex; lra).
  cbn [Z.even negb]. unfold F2R. cbn [Fnum Fexp]. change (bpow radix2 (-53)) with (/ 9007199254740992). lra.
Qed.

(** @prop C124_cross_statement: if the compiler also fuses the product that
    gives the rank into the next statement (as the standard allows), an estimate
    can lie below every value: for double, the quantile 1/3 of 0, 0, 2^60 and
    2^60 is then -64, where it is 0 without that fusion. *)
Lemma c124_cross_statement : exists (q : R) (l : list R),
  representable (-1074) 53 q /\ Forall (representable (-1074) 53) l /\ Rabs (q - / 3) <= bpow radix2 (-55) /\
  let F := rounded (-1074) 53 ZnearestE in
  let U := rounded_fused (-1074) 53 ZnearestE in
  let s := run (psq_push_fma F U [Fin q] true) (psq_clear F [Fin q]) (psq_init F [Fin q]) (pushes (map Fin l)) in
  psq_get_fma F U [Fin q] s 1 = Some (Fin 0) /\
  exists v, psq_get_cross F U [Fin q] s 1 = Some (Fin v) /\ v = -64 /\ Forall (fun x => v < x) l.
Proof.
  pose (q := 6004799503160661 * bpow radix2 (-54)).
  pose (c := bpow radix2 60).
  assert (Ec : c = 1152921504606846976) by reflexivity.
  exists q, [0; 0; c; c].
  assert (R0 : representable (-1074) 53 0) by (exists (Float radix2 0 0); cbn [Fnum Fexp]; [unfold F2R; cbn; lra|cbn; lia|lia]).
  assert (Rc : representable (-1074) 53 c).
  { exists (Float radix2 1 60); cbn [Fnum Fexp]; [unfold F2R, c; cbn [Fnum Fexp]; lra|cbn; lia|lia]. }
  split. { exists (Float radix2 6004799503160661 (-54)); cbn [Fnum Fexp]; [reflexivity|cbn; lia|lia]. }
  split; [repeat constructor; assumption|].
  split.
  { unfold q. change (bpow radix2 (-54)) with (/ 18014398509481984). change (bpow radix2 (-55)) with (/ 36028797018963968).
    apply Rabs_le. lra. }
  intros F U s.
  assert (fixb : forall m e, (Z.abs m < 2 ^ 53)%Z -> (-1074 <= e)%Z ->
     rounding (-1074) 53 ZnearestE (IZR m * bpow radix2 e) = IZR m * bpow radix2 e).
  { intros m e Hm He. apply (rfix (-1074) 53). apply generic_format_FLT.
    exists (Float radix2 m e); cbn [Fnum Fexp]; [reflexivity|exact Hm|exact He]. }
  assert (Hc : ps_count F s = 4%N) by reflexivity.
  assert (Hh : ps_heights F s = [Fin 0; Fin 0; Fin c; Fin c; @n0 F]).
  { unfold s. cbn [run fold_left pushes map step]. unfold run, pushes. cbn [map fold_left].
    assert (N1 : @nlt F (Fin 0) (Fin 0) = false) by (apply Rlt_bool_false; lra).
    assert (N2 : @nlt F (Fin c) (Fin 0) = false) by (apply Rlt_bool_false; rewrite Ec; lra).
    assert (N3 : @nlt F (Fin c) (Fin c) = false) by (apply Rlt_bool_false; lra).
    clear fixb. clearbody c q.
    cbn in N1, N2, N3 |- *. change (Pos.to_nat 1) with 1%nat. change (Pos.to_nat 2) with 2%nat. change (Pos.to_nat 3) with 3%nat.
    cbn. rewrite ?N1. cbn. rewrite ?N2. cbn. rewrite ?N3. reflexivity. }
  clearbody s.
  assert (I : forall z, (Z.abs z < 2 ^ 53)%Z -> rounding (-1074) 53 ZnearestE (IZR z) = IZR z).
  { intros z Hz. pose proof (fixb z 0%Z Hz ltac:(lia)) as E. change (bpow radix2 0) with 1 in E. rewrite Rmult_1_r in E. exact E. }
  assert (Rk : @nmul F (nofsz (szsub 4 1)) (Fin q) = Fin 1).
  { change (Fin (rounding (-1074) 53 ZnearestE (rounding (-1074) 53 ZnearestE 3 * q)) = Fin 1).
    rewrite (I 3%Z) by lia. f_equal. exact round_third. }
  assert (Fl : @nfloor F (Fin 1) = Fin 1).
  { change (Fin (IZR (Zfloor 1)) = Fin 1). rewrite (Zfloor_IZR 1). reflexivity. }
  assert (T1 : @ntosz F (Fin 1) = Some 1%N).
  { transitivity (Some (Z.to_N (Zfloor 1))); [|rewrite (Zfloor_IZR 1); reflexivity].
    apply (co_tosz _ _ _ _ _ (correct_rounded (-1074) 53 1 ltac:(lia) ltac:(lia)) (Fin 1) 1).
    - split; [reflexivity|]. rewrite <- (I 1%Z) by lia. apply (@rnd_fmt (-1074) 53 eq_refl ZnearestE _).
    - change (bpow radix2 63) with 9223372036854775808. lra. }
  assert (T2 : @ntosz F (@nadd F (Fin 1) n1) = Some 2%N).
  { assert (E2 : @nadd F (Fin 1) n1 = Fin 2).
    { change (Fin (rounding (-1074) 53 ZnearestE (1 + rounding (-1074) 53 ZnearestE 1)) = Fin 2).
      rewrite (I 1%Z) by lia. f_equal. replace (1 + 1) with 2 by ring. apply (I 2%Z). lia. }
    rewrite E2.
    transitivity (Some (Z.to_N (Zfloor 2))); [|rewrite (Zfloor_IZR 2); reflexivity].
    apply (co_tosz _ _ _ _ _ (correct_rounded (-1074) 53 1 ltac:(lia) ltac:(lia)) (Fin 2) 2).
    - split; [reflexivity|]. rewrite <- (I 2%Z) by lia. apply (@rnd_fmt (-1074) 53 eq_refl ZnearestE _).
    - change (bpow radix2 63) with 9223372036854775808. lra. }
  assert (Sl : @nsub F (Fin 1) (Fin 1) = Fin 0).
  { change (Fin (rounding (-1074) 53 ZnearestE (1 - 1)) = Fin 0). rewrite Rminus_diag_eq by reflexivity. f_equal. apply (I 0%Z). lia. }
  assert (Df : @nsub F (Fin c) (Fin 0) = Fin c).
  { change (Fin (rounding (-1074) 53 ZnearestE (c - 0)) = Fin c). f_equal. rewrite Rminus_0_r.
    pose proof (fixb 1%Z 60%Z ltac:(lia) ltac:(lia)) as E. rewrite Rmult_1_l in E. exact E. }
  split.
  - unfold psq_get_fma. rewrite Hc, Hh.
    change (match hread F [Fin 0; Fin 0; Fin c; Fin c; @n0 F] (ntosz (@nmul F (nofsz (szsub 4 1)) (Fin q))),
                  hread F [Fin 0; Fin 0; Fin c; Fin c; @n0 F] (ntosz (@nadd F (@nmul F (nofsz (szsub 4 1)) (Fin q)) n1)) with
            | Some a, Some b => Some (fma U (@nsub F (@nmul F (nofsz (szsub 4 1)) (Fin q)) (nfloor (@nmul F (nofsz (szsub 4 1)) (Fin q)))) (@nsub F b a) a)
            | _, _ => None end = Some (Fin 0)).
    rewrite Rk, T1, T2, Fl, Sl.
    change (Some (fma U (Fin 0) (@nsub F (Fin c) (Fin 0)) (Fin 0)) = Some (Fin 0)). rewrite Df.
    change (Some (Fin (rounding (-1074) 53 ZnearestE (0 * c + 0))) = Some (Fin 0)).
    rewrite Rmult_0_l, Rplus_0_l. do 2 f_equal. apply (I 0%Z). lia.
  - exists (-64). split; [|split; [reflexivity|repeat constructor; rewrite ?Ec; lra]].
    unfold psq_get_cross. rewrite Hc, Hh.
    change (match hread F [Fin 0; Fin 0; Fin c; Fin c; @n0 F] (ntosz (@nmul F (nofsz (szsub 4 1)) (Fin q))),
                  hread F [Fin 0; Fin 0; Fin c; Fin c; @n0 F] (ntosz (@nadd F (@nmul F (nofsz (szsub 4 1)) (Fin q)) n1)) with
            | Some a, Some b => Some (fma U (fms U (nofsz (szsub 4 1)) (Fin q) (nfloor (@nmul F (nofsz (szsub 4 1)) (Fin q)))) (@nsub F b a) a)
            | _, _ => None end = Some (Fin (-64))).
    rewrite Rk, T1, T2, Fl.
    assert (Ms : fms U (nofsz (szsub 4 1)) (Fin q) (Fin 1) = Fin (- bpow radix2 (-54))).
    { change (Fin (rounding (-1074) 53 ZnearestE (rounding (-1074) 53 ZnearestE 3 * q - 1)) = Fin (- bpow radix2 (-54))).
      rewrite (I 3%Z) by lia. f_equal.
      replace (3 * q - 1) with (-1 * bpow radix2 (-54)).
      - rewrite (fixb (-1)%Z (-54)%Z) by lia. ring.
      - unfold q. change (bpow radix2 (-54)) with (/ 18014398509481984). lra. }
    rewrite Ms.
    change (Some (fma U (Fin (- bpow radix2 (-54))) (@nsub F (Fin c) (Fin 0)) (Fin 0)) = Some (Fin (-64))). rewrite Df.
    change (Some (Fin (rounding (-1074) 53 ZnearestE (- bpow radix2 (-54) * c + 0))) = Some (Fin (-64))).
    do 2 f_equal. replace (- bpow radix2 (-54) * c + 0) with (-64).
    + apply (I (-64)%Z). lia.
    + rewrite Ec. change (bpow radix2 (-54)) with (/ 18014398509481984). lra.
Qed.
