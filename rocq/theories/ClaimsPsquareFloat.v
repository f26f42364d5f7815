(** * Claims C74 and C75: the P-square quantile estimator in floating point *)

From Coq Require Import Reals ZArith NArith QArith_base Qreals List Bool Sorting.Sorted.
From Coq Require Import Floats.SpecFloat.
From Flocq Require Import Core.
From Verif Require Import Arith History Psquare Rounded Binary64 SpecPsquare.
Import ListNotations.
Local Open Scope R_scope.
(* @end-header *)
From Coq Require Import Lia Lra Sorting.Permutation.
From Flocq Require Import BinarySingleNaN.
From Verif Require Import HistoryLemmas PsquareGeneric RoundedProofs Binary64Cumulative ApproxInstances CorrectRounding
  PsquareFloat PsquareOrdered PsquareFew PsquareAccuracy PsquareStats.

Lemma params_heights (F : num) (qs l : list F) :
  map snd (psq_parameters F (st F qs l)) = ps_heights F (st F qs l).
Proof.
  unfold psq_parameters. pose proof (st_lengths F qs l) as [A B].
  assert (G : forall (x : list N) (y : list F), length x = length y -> map snd (combine x y) = y).
  { induction x as [|a x IH]; intros [|b y] H; cbn in *; try reflexivity; try discriminate. f_equal. apply IH. congruence. }
  apply G. congruence.
Qed.

Lemma fin_list emin prec mode (l : list R) : (0 < prec)%Z -> Forall (representable emin prec) l ->
  Forall2 (@rval emin prec mode) (map Fin l) l.
Proof.
  intros Hp H. induction H as [|x l Hx _ IH]; cbn [map]; constructor; [|exact IH].
  split; [reflexivity|]. apply (@representable_fmt emin prec Hp). exact Hx.
Qed.

Lemma unfin_list emin prec mode (h : list (rounded emin prec mode)) hs : Forall2 rval h hs ->
  h = map Fin hs /\ Forall (representable emin prec) hs \/ ~ (0 < prec)%Z.
Proof.
  intros H. destruct (Z_lt_le_dec 0 prec) as [Hp|Hp]; [left|right; lia].
  induction H as [|x v h hs [-> Fv] _ [-> IH2]]; [split; [reflexivity|constructor]|].
  split; [reflexivity|]. constructor; [|exact IH2]. apply (@representable_fmt emin prec Hp). exact Fv.
Qed.

Lemma list_bound (l : list R) : exists k, (0 <= k)%Z /\ Forall (fun v => Rabs v <= bpow radix2 k) l.
Proof.
  induction l as [|x l (k & K0 & IH)]; [exists 0%Z; split; [lia|constructor]|].
  destruct (mag radix2 x) as [e He].
  exists (Z.max k e). split; [lia|]. constructor.
  - destruct (Req_dec x 0) as [->|N]; [rewrite Rabs_R0; apply bpow_ge_0|].
    specialize (He N). apply Rle_trans with (bpow radix2 e); [lra|apply bpow_le; lia].
  - eapply Forall_impl; [|exact IH]. intros a Ha. apply Rle_trans with (1 := Ha). apply bpow_le. lia.
Qed.

Lemma psq_fops emin prec mode (qs : list (rounded emin prec mode)) ops :
  run (psq_push _ qs) (psq_clear _ qs) (psq_init _ qs) (fops emin prec mode ops) =
  st _ qs (map Fin (since_clear ops)).
Proof. unfold fops. rewrite run_psq, since_clear_op_map. reflexivity. Qed.

(** ** C74 *)

(** @prop C74_order_rounded: for every binary floating-point format with at least
    8 bits of precision, round to nearest and no overflow, every list of Q
    quantiles of the value type (of any kind, not only numbers between 0 and
    1) and every history with 2Q+3 to 2^27 (and at most 2^precision)
    representable values since the last clear: the marker heights reported by
    parameters() are numbers of the format in ascending order between the
    smallest and the largest value. *)
Lemma c74_order_rounded : forall (emin prec : Z) (ops : list (op R)),
  (8 <= prec)%Z -> (emin <= -34)%Z ->
  let F := rounded emin prec ZnearestE in
  forall qs : list F,
  let l := since_clear ops in
  Forall (representable emin prec) l ->
  (2 * length qs + 3 <= length l)%nat -> (N.of_nat (length l) <= 2 ^ 27)%N -> (Z.of_nat (length l) <= 2 ^ prec)%Z ->
  let s := run (psq_push F qs) (psq_clear F qs) (psq_init F qs) (fops emin prec ZnearestE ops) in
  exists hs : list R, map snd (psq_parameters F s) = map Fin hs /\
    StronglySorted Rle hs /\ Forall (representable emin prec) hs /\ Forall (fun h => in_hull h l) hs.
Proof.
  intros emin prec ops Hp He F qs l Fl L0 L1 L2 s.
  unfold s, F. rewrite psq_fops. fold l. rewrite params_heights.
  destruct (list_bound l) as (k & K0 & Kb).
  pose proof (correct_rounded emin prec (bpow radix2 (k + 30)) ltac:(lia) ltac:(lia)) as C.
  assert (B1 : 1 <= bpow radix2 (k + 30)) by (change 1 with (bpow radix2 0); apply bpow_le; lia).
  destruct (float_heights emin prec Hp He _ _ _ C k ltac:(lia) (Rle_refl _) B1 qs (map Fin l) l) as (hs & H1 & H2 & H3).
  - rewrite map_length. split; [exact L1|exact L2].
  - apply fin_list; [lia|exact Fl].
  - exact Kb.
  - unfold parameter_length, quantile_length. rewrite map_length. exact L0.
  - exists hs. destruct (unfin_list emin prec ZnearestE _ hs H1) as [[E R]|N]; [|lia]. auto.
Qed.

(** @ex C74_order_rounded_ex: single precision, median; seven values after a
    clear, one quantile that is not a number. *)
Lemma c74_order_rounded_ex :
  (8 <= 24)%Z /\ (-149 <= -34)%Z /\
  let ops := [Push 100; Clear; Push 3; Push 1; Push 2; Push 5; Push 4; Push 7; Push 6] in
  let l := since_clear ops in
  Forall (representable (-149) 24) l /\ (2 * length [@NonFin] + 3 <= length l)%nat /\
  (N.of_nat (length l) <= 2 ^ 27)%N /\ (Z.of_nat (length l) <= 2 ^ 24)%Z.
Proof.
  split; [lia|]. split; [lia|]. intros ops l. split; [|split; [cbn; lia|split; vm_compute; discriminate]].
  unfold l, ops. cbn [since_clear].
  assert (I : forall z, (Z.abs z <= 2 ^ 24)%Z -> representable (-149) 24 (IZR z)).
  { intros z Hz. apply (@representable_fmt (-149) 24 eq_refl).
    rewrite <- (integer_exact (-149) 24 ltac:(lia) ltac:(lia) ZnearestE z) by (try typeclasses eauto; exact Hz).
    apply (@rnd_fmt (-149) 24 eq_refl ZnearestE _). }
  repeat (apply Forall_cons; [apply I; vm_compute; discriminate|]). apply Forall_nil.
Qed.

(** @prop C74_range_rounded: in the same formats (in which 1 is a normal number),
    if every quantile is representable and between 0 and 1 - 2^(3-precision),
    then after one or more values, however few, get<i> is defined for every
    index and its result is a number between the smallest and the largest value
    since the last clear. *)
Lemma c74_range_rounded : forall (emin prec : Z) (qs : list R) (ops : list (op R)) (index : nat),
  (8 <= prec)%Z -> (emin <= -34)%Z -> (emin + prec <= 0)%Z ->
  Forall (fun q => representable emin prec q /\ 0 <= q <= 1 - bpow radix2 (3 - prec)) qs ->
  let l := since_clear ops in
  Forall (representable emin prec) l -> l <> [] ->
  (N.of_nat (length l) <= 2 ^ 27)%N -> (Z.of_nat (length l) <= 2 ^ prec)%Z ->
  (index <= length qs + 1)%nat ->
  let F := rounded emin prec ZnearestE in
  let s := run (psq_push F (map Fin qs)) (psq_clear F (map Fin qs)) (psq_init F (map Fin qs))
               (fops emin prec ZnearestE ops) in
  exists v, psq_get F (map Fin qs) s index = Some (Fin v) /\ representable emin prec v /\ in_hull v l.
Proof.
  intros emin prec qs ops index Hp He Hn Hq l Fl NE L1 L2 Hi F s.
  unfold s, F. rewrite psq_fops. fold l.
  destruct (list_bound l) as (k & K0 & Kb).
  pose proof (correct_rounded emin prec (bpow radix2 (k + 30)) ltac:(lia) ltac:(lia)) as C.
  assert (B1 : bpow radix2 30 <= bpow radix2 (k + 30)) by (apply bpow_le; lia).
  destruct (float_get emin prec Hp He Hn _ _ _ C k ltac:(lia) (Rle_refl _) B1 (map Fin qs) (map Fin l) l index) as (x & v & E & [-> V] & Hv).
  - unfold weights_ok. apply Forall_map. eapply Forall_impl; [|exact Hq].
    intros q [Rq Qb]. exists q. split.
    + split; [reflexivity|]. apply (@representable_fmt emin prec ltac:(unfold Prec_gt_0; lia)). exact Rq.
    + replace (3 - prec)%Z with (3 + - prec)%Z in Qb by lia. rewrite bpow_plus in Qb.
      change (bpow radix2 3) with 8 in Qb. exact Qb.
  - rewrite map_length. split; [exact L1|exact L2].
  - apply fin_list; [lia|exact Fl].
  - exact Kb.
  - intros H. apply map_eq_nil in H. congruence.
  - rewrite map_length. exact Hi.
  - exists v. split; [exact E|]. split; [|exact Hv].
    apply (@representable_fmt emin prec ltac:(unfold Prec_gt_0; lia)). exact V.
Qed.

(** @ex C74_range_rounded_ex: single precision, quartiles; two values. *)
Lemma c74_range_rounded_ex :
  (8 <= 24)%Z /\ (-149 <= -34)%Z /\ (-149 + 24 <= 0)%Z /\
  Forall (fun q => representable (-149) 24 q /\ 0 <= q <= 1 - bpow radix2 (3 - 24)) [/ 4; / 2; 3 / 4] /\
  let ops := [Push 3; Push (-1)] in
  let l := since_clear ops in
  Forall (representable (-149) 24) l /\ l <> [] /\ (N.of_nat (length l) <= 2 ^ 27)%N /\
  (Z.of_nat (length l) <= 2 ^ 24)%Z /\ (4 <= length [/ 4; / 2; 3 / 4]%R + 1)%nat.
Proof.
  assert (I : forall m e, (Z.abs m <= 1000)%Z -> (-100 <= e)%Z -> representable (-149) 24 (IZR m * bpow radix2 e)).
  { intros m e Hm E0. exists (Float radix2 m e); cbn [Fnum Fexp]; [reflexivity|change (radix2 ^ 24)%Z with 16777216%Z; lia|lia]. }
  split; [lia|]. split; [lia|]. split; [lia|].
  change (bpow radix2 (3 - 24)) with (/ 2097152).
  split.
  { apply Forall_cons; [|apply Forall_cons; [|apply Forall_cons; [|apply Forall_nil]]]; (split; [|lra]).
    - replace (/ 4) with (IZR 1 * bpow radix2 (-2)) by (change (bpow radix2 (-2)) with (/ 4); lra). apply I; lia.
    - replace (/ 2) with (IZR 1 * bpow radix2 (-1)) by (change (bpow radix2 (-1)) with (/ 2); lra). apply I; lia.
    - replace (3 / 4) with (IZR 3 * bpow radix2 (-2)) by (change (bpow radix2 (-2)) with (/ 4); lra). apply I; lia. }
  intros ops l. unfold l, ops. cbn [since_clear].
  split; [|split; [discriminate|split; [vm_compute; discriminate|split; [vm_compute; discriminate|cbn; lia]]]].
  apply Forall_cons; [|apply Forall_cons; [|apply Forall_nil]].
  - replace 3 with (IZR 3 * bpow radix2 0) by (cbn; lra). apply I; lia.
  - replace (-1) with (IZR (-1) * bpow radix2 0) by (cbn; lra). apply I; lia.
Qed.

Lemma b64_list (l : list b64num) (B : R) :
  Forall (fun x : b64num => b64_finite x /\ Rabs (b64_real x) <= B) l ->
  Forall2 denotes l (map b64_real l) /\ Forall (fun v => Rabs v <= B) (map b64_real l).
Proof.
  induction 1 as [|x l [Fx Bx] _ [IH1 IH2]]; [split; constructor|].
  cbn [map]. split; constructor; try assumption. split; [exact Fx|reflexivity].
Qed.

(** @prop C74_order_binary64: for double, every list of Q quantiles (NaN and
    infinities included) and every history with 2Q+3 to 2^27 finite values of
    magnitude at most 2^980 since the last clear: the marker heights reported
    by parameters() are finite, in ascending order and between the smallest and
    the largest value; hence std::upper_bound is only called on a sorted range. *)
Lemma c74_order_binary64 : forall (qs : list b64num) (ops : list (op b64num)),
  let l := since_clear ops in
  Forall (fun x : b64num => b64_finite x /\ Rabs (b64_real x) <= bpow radix2 980) l ->
  (2 * length qs + 3 <= length l)%nat -> (N.of_nat (length l) <= 2 ^ 27)%N ->
  let s := run (psq_push b64num qs) (psq_clear b64num qs) (psq_init b64num qs) ops in
  let h := map snd (psq_parameters b64num s) in
  length h = (2 * length qs + 3)%nat /\
  Forall b64_finite h /\ StronglySorted Rle (map b64_real h) /\
  Forall (fun v => in_hull v (map b64_real l)) (map b64_real h).
Proof.
  intros qs ops l Fl L0 L1 s h.
  assert (Eh : h = ps_heights b64num (st b64num qs l)).
  { unfold h, s. rewrite run_psq. apply params_heights. }
  destruct (b64_list l _ Fl) as [D2 Db].
  destruct (float_heights (-1074) 53 ltac:(lia) ltac:(lia) b64num denotes _ correct_b64 980 ltac:(lia)
    ltac:(apply bpow_le; lia) ltac:(change 1 with (bpow radix2 0); apply bpow_le; lia) qs l (map b64_real l)) as (hs & H1 & H2 & H3).
  - split; [exact L1|]. apply Z.le_trans with (2 ^ 27)%Z; [lia|]. apply Z.pow_le_mono_r; lia.
  - exact D2.
  - exact Db.
  - exact L0.
  - pose proof (st_lengths b64num qs l) as [_ Lh]. rewrite <- Eh in H1, Lh.
    assert (Em : map b64_real h = hs /\ Forall b64_finite h).
    { clear - H1. induction H1 as [|x v h hs [Fx <-] _ [<- IH]]; [split; [reflexivity|constructor]|].
      split; [reflexivity|constructor; assumption]. }
    destruct Em as [-> Fh]. split; [exact Lh|]. split; [exact Fh|]. split; [exact H2|exact H3].
Qed.

(** Doubles from integers, for the examples *)
Definition d64 (z : Z) : b64 := b64_of_Z z.

Lemma d64_ok z k : (Z.abs z <= 2 ^ 53)%Z -> (53 <= k)%Z -> b64_finite (d64 z) /\ Rabs (b64_real (d64 z)) <= bpow radix2 k.
Proof.
  intros H K. destruct (of_Z_exact z H) as [F E]. split; [exact F|]. unfold d64. rewrite E, <- abs_IZR.
  apply Rle_trans with (bpow radix2 53); [|apply bpow_le; exact K].
  rewrite <- IZR_Zpower by lia. apply IZR_le. exact H.
Qed.

(** @ex C74_order_binary64_ex: the values 10, 11, 12, 20, 21, 9 of the example of
    C38, in which the first marker makes a linear step down. *)
Lemma c74_order_binary64_ex :
  let ops := map Push [d64 10; d64 11; d64 12; d64 20; d64 21; d64 9] in
  let l := since_clear ops in
  Forall (fun x : b64num => b64_finite x /\ Rabs (b64_real x) <= bpow radix2 980) l /\
  (2 * length [S754_nan] + 3 <= length l)%nat /\ (N.of_nat (length l) <= 2 ^ 27)%N.
Proof.
  intros ops l. split; [|split; [cbn; lia|vm_compute; discriminate]].
  unfold l, ops. cbn [since_clear map].
  repeat (apply Forall_cons; [apply d64_ok; vm_compute; discriminate|]). apply Forall_nil.
Qed.

(** @prop C74_range_binary64: for double, quantiles between 0 and 1 - 2^-50 and
    every history with 1 to 2^27 finite values of magnitude at most 2^980 since
    the last clear: get<i> is defined for every index and returns a finite
    value between the smallest and the largest of them. *)
Lemma c74_range_binary64 : forall (qs : list b64num) (ops : list (op b64num)) (index : nat),
  Forall (fun q : b64num => b64_finite q /\ 0 <= b64_real q <= 1 - bpow radix2 (-50)) qs ->
  let l := since_clear ops in
  Forall (fun x : b64num => b64_finite x /\ Rabs (b64_real x) <= bpow radix2 980) l ->
  l <> [] -> (N.of_nat (length l) <= 2 ^ 27)%N -> (index <= length qs + 1)%nat ->
  let s := run (psq_push b64num qs) (psq_clear b64num qs) (psq_init b64num qs) ops in
  exists x, psq_get b64num qs s index = Some x /\ b64_finite x /\ in_hull (b64_real x) (map b64_real l).
Proof.
  intros qs ops index Hq l Fl NE L1 Hi s.
  unfold s. rewrite run_psq. fold l.
  destruct (b64_list l _ Fl) as [D2 Db].
  destruct (float_get (-1074) 53 ltac:(lia) ltac:(lia) ltac:(lia) b64num denotes _ correct_b64 980 ltac:(lia)
    ltac:(apply bpow_le; lia) ltac:(apply bpow_le; lia) qs l (map b64_real l) index) as (x & v & E & [Fx <-] & Hv).
  - unfold weights_ok. eapply Forall_impl; [|exact Hq]. intros q [Fq Qb]. exists (b64_real q).
    split; [split; [exact Fq|reflexivity]|].
    replace (-50)%Z with (3 + - (53))%Z in Qb by lia. rewrite bpow_plus in Qb.
    change (bpow radix2 3) with 8 in Qb. exact Qb.
  - split; [exact L1|]. apply Z.le_trans with (2 ^ 27)%Z; [lia|]. apply Z.pow_le_mono_r; lia.
  - exact D2.
  - exact Db.
  - exact NE.
  - exact Hi.
  - exists x. split; [exact E|]. split; [exact Fx|exact Hv].
Qed.

(** @ex C74_range_binary64_ex: the median and the 90th percentile of three
    values. *)
Lemma c74_range_binary64_ex :
  let half := S754_finite false 4503599627370496 (-53) in
  let p90 := ratio_value b64num (Qmake 9 10) in
  Forall (fun q : b64num => b64_finite q /\ 0 <= b64_real q <= 1 - bpow radix2 (-50)) [half; p90] /\
  let ops := [Push S754_nan; Clear; Push (d64 3); Push (d64 1); Push (d64 7)] in
  let l := since_clear ops in
  Forall (fun x : b64num => b64_finite x /\ Rabs (b64_real x) <= bpow radix2 980) l /\
  l <> [] /\ (N.of_nat (length l) <= 2 ^ 27)%N /\ (3 <= length [half; p90] + 1)%nat.
Proof.
  intros half p90. split.
  - change (bpow radix2 (-50)) with (/ 1125899906842624).
    apply Forall_cons; [|apply Forall_cons; [|apply Forall_nil]].
    + split; [split; reflexivity|]. unfold half, b64_real. cbn [SF2R]. unfold F2R. cbn [Fnum Fexp cond_Zopp].
      change (bpow radix2 (-53)) with (/ 9007199254740992). lra.
    + change p90 with (S754_finite false 8106479329266893 (-53)).
      split; [split; reflexivity|]. unfold b64_real. cbn [SF2R]. unfold F2R. cbn [Fnum Fexp cond_Zopp].
      change (bpow radix2 (-53)) with (/ 9007199254740992). lra.
  - intros ops l. unfold l, ops. cbn [since_clear].
    split; [|split; [discriminate|split; [vm_compute; discriminate|cbn; lia]]].
    repeat (apply Forall_cons; [apply d64_ok; vm_compute; discriminate|]). apply Forall_nil.
Qed.

(** @prop C75_overflow_refuted: without the bound on the magnitude the claim is
    false for double: with the quantile 1/10, five times 1.7e308 and then
    -1.7e308, all finite, the markers are -1.7e308, inf, -inf, inf, 1.7e308 and
    the estimate is -inf. *)
Lemma c74_order_refuted : exists (qs : list b64num) (ops : list (op b64num)),
  Forall (fun q : b64num => b64_finite q) qs /\ Forall (fun x : b64num => b64_finite x) (since_clear ops) /\
  let s := run (psq_push b64num qs) (psq_clear b64num qs) (psq_init b64num qs) ops in
  exists a b, nth_error (map snd (psq_parameters b64num s)) 1 = Some a /\
    nth_error (map snd (psq_parameters b64num s)) 2 = Some b /\ SFltb b a = true /\
    psq_get b64num qs s 1 = Some (S754_infinity true) /\
    Forall (fun x => SFltb (S754_infinity true) x = true) (since_clear ops).
Proof.
  pose (big := b64_of_Z (17 * 10 ^ 307)). pose (small := b64_of_Z (- (17 * 10 ^ 307))).
  pose (qs := [ratio_value b64num (Qmake 1 10)]).
  pose (ops := [Push big; Push big; Push big; Push big; Push big; Push small]).
  exists qs, ops. split; [|split].
  - repeat constructor.
  - repeat constructor.
  - cbv zeta. eexists. eexists. split; [vm_compute; reflexivity|]. split; [vm_compute; reflexivity|].
    split; [reflexivity|]. split; [vm_compute; reflexivity|]. repeat constructor.
Qed.

(** @prop C75_weight_refuted: a quantile above 1 - 2^-50 breaks the range claim:
    with the ratio (2^53-1)/2^53 the estimate after the values 5 and 5 is below
    1 (it is 2^-50). *)
Lemma c74_weight_refuted : exists q : Q,
  (Qlt (Qmake 0 1) q /\ Qlt q (Qmake 1 1)) /\
  let qs := [ratio_value b64num q] in
  let s := run (psq_push b64num qs) (psq_clear b64num qs) (psq_init b64num qs) [Push (d64 5); Push (d64 5)] in
  exists x, psq_get b64num qs s 1 = Some x /\
    SFltb x (d64 1) = true.
Proof.
  exists (Qmake 9007199254740991 9007199254740992). split; [split; reflexivity|].
  cbv zeta. eexists. split; [vm_compute; reflexivity|]. reflexivity.
Qed.

(** ** C75 *)

(** @prop C75_few_rounded_partial: for every binary floating-point format with at least 8
    bits of precision, round to nearest and no overflow, representable
    quantiles between 0 and 1 - 2^(3-precision), and two to 2Q+3 representable
    values of magnitude at most M since the last clear: if the exact rank
    r = (n-1)*q does not lie within 4n*2^-precision below an integer, get<i>
    differs from the interpolated order statistic of rank r by at most
    (2n+9)*2^-precision*M plus twice the smallest positive number. *)
Lemma c75_few_rounded : forall (emin prec : Z) (qs : list R) (ops : list (op R)) (os : list R) (i : nat) (q M : R),
  (8 <= prec)%Z -> (emin <= -34)%Z -> (emin + prec <= 0)%Z ->
  nth_error qs i = Some q -> representable emin prec q -> 0 <= q <= 1 - bpow radix2 (3 - prec) ->
  let l := since_clear ops in
  Forall (fun v => representable emin prec v /\ Rabs v <= M) l -> order_statistics l os ->
  let n := INR (length l) in
  (2 <= length l <= 2 * length qs + 3)%nat -> (N.of_nat (length l) <= 2 ^ 27)%N -> (Z.of_nat (length l) <= 2 ^ prec)%Z ->
  let r := INR (length l - 1) * q in
  r <= IZR (Int_part r) + 1 - 4 * n * bpow radix2 (- prec) ->
  let F := rounded emin prec ZnearestE in
  let s := run (psq_push F (map Fin qs)) (psq_clear F (map Fin qs)) (psq_init F (map Fin qs))
               (fops emin prec ZnearestE ops) in
  exists v, psq_get F (map Fin qs) s (S i) = Some (Fin v) /\
    Rabs (v - interpolate os r) <= (2 * n + 9) * bpow radix2 (- prec) * M + 2 * bpow radix2 emin.
Proof.
  intros emin prec qs ops os i q M Hp He Hn Eq Rq Qb l Fl Ho n Ln L1 L2 r Hr F s.
  unfold s, F. rewrite psq_fops. fold l.
  destruct (list_bound l) as (k & K0 & Kb).
  pose proof (correct_rounded emin prec (bpow radix2 (k + 30)) ltac:(lia) ltac:(lia)) as C.
  assert (B1 : bpow radix2 30 <= bpow radix2 (k + 30)) by (apply bpow_le; lia).
  pose proof (few_accuracy emin prec Hp Hn _ _ _ He C k ltac:(lia) (Rle_refl _) B1 (map Fin qs) (map Fin l) l i (Fin q) q M (length l)) as G.
  destruct G with (os := os) as (x & v & E & [-> V] & Hv); clear G.
  - symmetry. apply map_length.
  - apply map_nth_error. exact Eq.
  - split; [reflexivity|]. apply (@representable_fmt emin prec ltac:(unfold Prec_gt_0; lia)). exact Rq.
  - replace (3 - prec)%Z with (3 + - prec)%Z in Qb by lia. rewrite bpow_plus in Qb.
    change (bpow radix2 3) with 8 in Qb. exact Qb.
  - rewrite map_length. split; [exact L1|exact L2].
  - apply fin_list; [lia|]. eapply Forall_impl; [|exact Fl]. intros a [H _]. exact H.
  - exact Kb.
  - eapply Forall_impl; [|exact Fl]. intros a [_ H]. exact H.
  - unfold parameter_length, quantile_length. rewrite !map_length. exact Ln.
  - exact Hr.
  - exact Ho.
  - exists v. split; [exact E|exact Hv].
Qed.

(** @ex C75_few_rounded_partial_ex: single precision, the quartiles of 7, 1, 4; the exact
    rank of the first quartile is 1/2. *)
Lemma c75_few_rounded_ex :
  let qs := [/ 4; / 2; 3 / 4] in
  let ops := [Push 100; Clear; Push 7; Push 1; Push 4] in
  (8 <= 24)%Z /\ (-149 <= -34)%Z /\ (-149 + 24 <= 0)%Z /\
  nth_error qs 0 = Some (/ 4) /\ representable (-149) 24 (/ 4) /\ 0 <= / 4 <= 1 - bpow radix2 (3 - 24) /\
  let l := since_clear ops in
  Forall (fun v => representable (-149) 24 v /\ Rabs v <= 7) l /\ order_statistics l [1; 4; 7] /\
  (2 <= length l <= 2 * length qs + 3)%nat /\
  let r := INR (length l - 1) * (/ 4) in
  r <= IZR (Int_part r) + 1 - 4 * INR (length l) * bpow radix2 (- (24)) /\
  interpolate [1; 4; 7] r = 5 / 2.
Proof.
  cbv zeta. split; [lia|]. split; [lia|]. split; [lia|]. split; [reflexivity|].
  assert (I : forall m e, (Z.abs m <= 1000)%Z -> (-100 <= e)%Z -> representable (-149) 24 (IZR m * bpow radix2 e)).
  { intros m e Hm E0. exists (Float radix2 m e); cbn [Fnum Fexp]; [reflexivity|change (radix2 ^ 24)%Z with 16777216%Z; lia|lia]. }
  split; [replace (/ 4) with (IZR 1 * bpow radix2 (-2)) by (change (bpow radix2 (-2)) with (/ 4); lra); apply I; lia|].
  change (bpow radix2 (3 - 24)) with (/ 2097152). change (bpow radix2 (- (24))) with (/ 16777216).
  split; [lra|]. cbn [since_clear].
  split.
  { apply Forall_cons; [|apply Forall_cons; [|apply Forall_cons; [|apply Forall_nil]]];
      (split; [|rewrite Rabs_pos_eq by lra; lra]).
    - replace 7 with (IZR 7 * bpow radix2 0) by (cbn; lra). apply I; lia.
    - replace 1 with (IZR 1 * bpow radix2 0) by (cbn; lra). apply I; lia.
    - replace 4 with (IZR 4 * bpow radix2 0) by (cbn; lra). apply I; lia. }
  split.
  { split; [|repeat constructor; lra].
    apply (Permutation_trans (l' := [1; 7; 4])); repeat constructor. }
  split; [cbn; lia|].
  change (length (since_clear [Push 100; Clear; Push 7; Push 1; Push 4])) with 3%nat. replace (INR (3 - 1)) with 2 by reflexivity. replace (INR 3) with 3 by (cbn; lra).
  replace (2 * / 4) with (1 / 2) by lra.
  unfold interpolate. rewrite !Int_part_floor. rewrite (Zfloor_imp 0) by (cbn; lra).
  change (Z.to_nat 0) with 0%nat. cbn [nth]. split; lra.
Qed.

(** @prop C75_few_binary64_partial: the same for double: quantiles between 0 and 1 - 2^-50,
    two to 2Q+3 finite values of magnitude at most M <= 2^980; unless the exact
    rank lies within 4n*2^-53 below an integer the error is at most
    (2n+9)*2^-53*M plus 2^-1073. *)
Lemma c75_few_binary64 : forall (qs : list b64num) (ops : list (op b64num)) (os : list R) (i : nat) (q : b64num) (M : R),
  nth_error qs i = Some q -> b64_finite q -> 0 <= b64_real q <= 1 - bpow radix2 (-50) ->
  let l := since_clear ops in
  M <= bpow radix2 980 ->
  Forall (fun x : b64num => b64_finite x /\ Rabs (b64_real x) <= M) l -> order_statistics (map b64_real l) os ->
  let n := INR (length l) in
  (2 <= length l <= 2 * length qs + 3)%nat -> (N.of_nat (length l) <= 2 ^ 27)%N ->
  let r := INR (length l - 1) * b64_real q in
  r <= IZR (Int_part r) + 1 - 4 * n * bpow radix2 (-53) ->
  let s := run (psq_push b64num qs) (psq_clear b64num qs) (psq_init b64num qs) ops in
  exists x, psq_get b64num qs s (S i) = Some x /\ b64_finite x /\
    Rabs (b64_real x - interpolate os r) <= (2 * n + 9) * bpow radix2 (-53) * M + bpow radix2 (-1073).
Proof.
  intros qs ops os i q M Eq Fq Qb l Mb Fl Ho n Ln L1 r Hr s.
  unfold s. rewrite run_psq. fold l.
  destruct (b64_list l _ Fl) as [D2 Db].
  pose proof (few_accuracy (-1074) 53 ltac:(lia) ltac:(lia) b64num denotes _ ltac:(lia) correct_b64 980 ltac:(lia)
    ltac:(apply bpow_le; lia) ltac:(apply bpow_le; lia) qs l (map b64_real l) i q (b64_real q) M (length l)) as G.
  destruct G with (os := os) as (x & v & E & [Fx <-] & Hv); clear G.
  - reflexivity.
  - exact Eq.
  - split; [exact Fq|reflexivity].
  - replace (-50)%Z with (3 + - (53))%Z in Qb by lia. rewrite bpow_plus in Qb.
    change (bpow radix2 3) with 8 in Qb. exact Qb.
  - split; [exact L1|]. apply Z.le_trans with (2 ^ 27)%Z; [lia|]. apply Z.pow_le_mono_r; lia.
  - exact D2.
  - eapply Forall_impl; [|exact Db]. intros a H. cbv beta in H |- *. lra.
  - exact Db.
  - exact Ln.
  - exact Hr.
  - exact Ho.
  - exists x. split; [exact E|]. split; [exact Fx|].
    replace (bpow radix2 (-1073)) with (2 * bpow radix2 (-1074)); [exact Hv|].
    replace (-1073)%Z with (1 + -1074)%Z by lia. rewrite (bpow_plus radix2 1). reflexivity.
Qed.

(** @ex C75_few_binary64_partial_ex: the 90th percentile of 3, 1, 7 with the double
    nearest to 9/10; the exact rank is about 1.8. *)
Lemma c75_few_binary64_ex :
  let q := ratio_value b64num (Qmake 9 10) in
  let qs : list b64num := [q] in
  let ops : list (op b64num) := [Push (d64 3); Push (d64 1); Push (d64 7)] in
  nth_error qs 0 = Some q /\ b64_finite q /\ 0 <= b64_real q <= 1 - bpow radix2 (-50) /\
  let l := since_clear ops in
  7 <= bpow radix2 980 /\
  Forall (fun x : b64num => b64_finite x /\ Rabs (b64_real x) <= 7) l /\
  order_statistics (map b64_real l) [1; 3; 7] /\
  (2 <= length l <= 2 * length qs + 3)%nat /\
  let r := INR (length l - 1) * b64_real q in
  r <= IZR (Int_part r) + 1 - 4 * INR (length l) * bpow radix2 (-53).
Proof.
  intros q qs ops.
  assert (V : b64_real q = 8106479329266893 / 9007199254740992).
  { change q with (S754_finite false 8106479329266893 (-53)).
    unfold b64_real. cbn [SF2R]. unfold F2R. cbn [Fnum Fexp cond_Zopp].
    change (bpow radix2 (-53)) with (/ 9007199254740992). reflexivity. }
  assert (Dv : forall z, (Z.abs z <= 2 ^ 53)%Z -> b64_real (d64 z) = IZR z) by (intros z Hz; apply of_Z_exact; exact Hz).
  change (bpow radix2 (-50)) with (/ 1125899906842624). change (bpow radix2 (-53)) with (/ 9007199254740992).
  split; [reflexivity|]. split; [split; reflexivity|]. rewrite V. split; [lra|].
  intros l. split.
  { apply Rle_trans with (bpow radix2 3); [change (bpow radix2 3) with 8; lra|apply bpow_le; lia]. }
  change (map b64_real l) with [b64_real (d64 3); b64_real (d64 1); b64_real (d64 7)].
  change (length l) with 3%nat.
  split.
  { unfold l, ops. cbn [since_clear]. repeat (apply Forall_cons; [split; [split; reflexivity|rewrite Dv by (vm_compute; discriminate); rewrite Rabs_pos_eq; lra]|]).
    apply Forall_nil. }
  rewrite !Dv by (vm_compute; discriminate).
  split; [split; [apply perm_swap|repeat constructor; lra]|].
  split; [cbn; lia|]. cbv zeta.
  replace (INR (3 - 1)) with 2 by reflexivity. replace (INR 3) with 3 by (cbn; lra).
  rewrite Int_part_floor, (Zfloor_imp 1) by (cbn; lra). lra.
Qed.

(** @prop C75_ratio_refuted: the interpolation is not accurate for every ratio:
    for the quantiles 1/49, ..., 24/49 and the 50 values 0, 0, 1000, ..., 1000
    the order statistic of rank 49*(1/49) is 0, but get<1> is above 999, because
    rank + 1 is rounded up to 2 while rank is truncated to 0. *)
Lemma c75_ratio_refuted : exists (ps : list Q) (l : list b64num) (os : list R) (p : Q),
  Forall (fun p => Qlt (Qmake 0 1) p /\ Qlt p (Qmake 1 1)) ps /\ nth_error ps 0 = Some p /\
  Forall b64_finite l /\ order_statistics (map b64_real l) os /\
  (2 <= length l <= 2 * length ps + 3)%nat /\
  interpolate os (INR (length l - 1) * Q2R p) = 0 /\
  let qs := map (ratio_value b64num) ps in
  let s := run (psq_push b64num qs) (psq_clear b64num qs) (psq_init b64num qs) (pushes l) in
  exists x, psq_get b64num qs s 1 = Some x /\ SFltb (d64 999) x = true.
Proof.
  pose (ps := map (fun k => Qmake (Z.of_nat k) 49) (seq 1 24)).
  pose (l := map d64 ([0; 0] ++ repeat 1000 48)%Z).
  pose (os := map IZR ([0; 0] ++ repeat 1000 48)%Z).
  exists ps, l, os, (Qmake 1 49).
  assert (Dv : forall z, (Z.abs z <= 2 ^ 53)%Z -> b64_real (d64 z) = IZR z) by (intros z Hz; apply of_Z_exact; exact Hz).
  split; [|split; [reflexivity|split; [|split; [|split; [|split]]]]].
  - unfold ps. cbn [map seq]. repeat (apply Forall_cons; [split; reflexivity|]). apply Forall_nil.
  - unfold l. cbn [map repeat app]. repeat (apply Forall_cons; [split; reflexivity|]). apply Forall_nil.
  - assert (E : map b64_real l = os).
    { unfold l, os. rewrite map_map. apply map_ext_in. intros z Hz. apply Dv.
      apply in_app_or in Hz. destruct Hz as [Hz|Hz]; [destruct Hz as [<-|[<-|[]]]; vm_compute; discriminate|].
      apply repeat_spec in Hz. subst z. vm_compute. discriminate. }
    rewrite E. split; [apply Permutation_refl|]. unfold os. cbn [map repeat app].
    repeat (apply SSorted_cons; [|repeat (apply Forall_cons; [lra|]); apply Forall_nil]). apply SSorted_nil.
  - unfold ps, l. rewrite !map_length, seq_length, app_length, repeat_length. cbn. lia.
  - unfold l. rewrite !map_length, app_length, repeat_length.
    replace (INR (length [0%Z; 0%Z] + 48 - 1) * Q2R (Qmake 1 49)) with (IZR 1).
    + unfold interpolate. rewrite Int_part_floor, Zfloor_IZR. unfold os. cbn [map repeat app].
      change (Z.to_nat 1) with 1%nat. cbn [nth]. lra.
    + rewrite INR_IZR_INZ. unfold Q2R. cbn [Qnum Qden]. change (Z.of_nat (length [0%Z; 0%Z] + 48 - 1)) with 49%Z. lra.
  - cbv zeta. eexists. split; [vm_compute; reflexivity|]. reflexivity.
Qed.
