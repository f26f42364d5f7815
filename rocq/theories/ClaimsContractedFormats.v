(** * Claims C123 and C124 in every IEEE format *)

From Coq Require Import Reals ZArith NArith List Bool Sorting.Sorted.
From Coq Require Import Floats.SpecFloat.
From Flocq Require Import Core.
From Verif Require Import Arith History SpecStats SpecOrder Cumulative Psquare Ieee Rounded Contracted ContractedPsquare IeeeFused.
Import ListNotations.
Local Open Scope R_scope.
(** A float of an integer. *)
Local Notation f32 z := (ieee_of_Z 24 128 z).
(* @end-header *)
From Coq Require Import Lia Lra.
From Flocq Require Import IEEE754.BinarySingleNaN.
From Verif Require Import HistoryLemmas CumulativeProofs RoundedProofs ApproxInstances IeeeProofs IeeeSign CorrectRounding
  PsquareGeneric PsquareFloat PsquareOrdered PsquareFew ContractedStep ContractedPsquareRuns ContractedPsquareProofs
  IeeeFusedProofs ClaimsPsquareFloat ClaimsContractedPsquare ClaimsFormatsSign.

(** @prop C123_variance_sign_formats: with the products fused, in every IEEE format in
    which size_t is in range, overflow included: if the values pushed since the last
    clear are finite and smaller than half of the range, mean() of the cumulative
    filter is finite and between the smallest and the largest of them, and
    variance() compares greater or equal to zero (it is never NaN). *)
Lemma c123_formats : forall (prec emax : Z) (ops : list (op spec_float)),
  (1 < prec < emax)%Z -> (65 <= emax)%Z ->
  let l := since_clear ops in
  l <> [] -> (N.of_nat (length l) < szmod)%N ->
  Forall (fun x => ieee_finite prec emax x /\ Rabs (ieee_real x) < bpow radix2 (emax - 1)) l ->
  let F := ieee prec emax in
  let s := run (cvar_push_fma F (ieee_fused prec emax)) (cvar_clear F) (cvar_init F) ops in
  ieee_finite prec emax (cvar_mean F s) /\
  in_hull (ieee_real (cvar_mean F s)) (map ieee_real l) /\
  SFleb (S754_zero false) (cvar_variance F s) = true.
Proof.
  intros prec emax ops [Hp Hm] H65 l NE Hf HF F s.
  assert (Es : s = fold_left (cvar_push_fma F (ieee_fused prec emax)) l (cvar_init F)).
  { unfold s. rewrite (run_since_clear _ _ _ (cvar_clear_init F)). reflexivity. }
  destruct (cmean_f prec emax Hp Hm H65 l HF Hf) as (m & r & E & Er & D & H).
  assert (Hp0 : Prec_gt_0 prec) by (red; lia). assert (HV : Valid_rnd ZnearestE) by apply valid_rnd_N.
  destruct (cmean_rounded (3 - emax - prec) prec ltac:(lia) ZnearestE (map ieee_real l)) as (r' & Er' & _ & Hh).
  { destruct l; [congruence|discriminate]. } { rewrite map_length; exact Hf. } { apply (okl_fmt prec emax). exact HF. }
  rewrite Er in Er'. assert (r' = r) by congruence. subst r'.
  pose proof (cvar_fma_fold_super F (ieee_fused prec emax) l (cvar_init F)) as Sup.
  change (cv_super F (cvar_init F)) with (cmean_init F) in Sup.
  rewrite <- Es in Sup. assert (Es' : cv_super F s = CMean F m (N.of_nat (length l))).
  { rewrite Sup. exact E. }
  unfold cvar_mean, cmean_mean. rewrite Es'. cbn [cm_mean]. destruct D as [Fm Rm].
  split; [exact Fm|]. split; [rewrite Rm; exact Hh|].
  unfold cvar_variance. rewrite Es'. cbn [cm_count]. apply (nonneg_f_leb prec emax).
  assert (HL : (1 <= N.of_nat (length l))%N) by (destruct l; cbn; [congruence|lia]).
  apply (nonneg_f_div prec emax Hp Hm _ _ (rndf prec emax (IZR (Z.of_N (N.of_nat (length l)))))).
  - rewrite Es. apply (cvar_fma_f prec emax Hp Hm H65); assumption.
  - apply (count_denotes prec emax Hp Hm H65); [exact HL|exact Hf].
  - apply (rnd_ge1 (3 - emax - prec) prec ltac:(lia) ZnearestE). apply (IZR_le 1). lia.
Qed.

(** @ex C123_variance_sign_formats_ex: over float, values after a clear; 2^126 with
    opposite signs, whose variance overflows to infinity; and values for which the
    fused and the rounded variance differ. *)
Lemma c123_formats_ex :
  let F := ieee 24 128 in
  let U := ieee_fused 24 128 in
  let d k := @ndiv F (f32 k) (f32 10) in
  let ops := [Push (f32 5); Clear; Push (d 1%Z); Push (d 2%Z); Push (d 7%Z)] in
  let s := run (cvar_push_fma F U) (cvar_clear F) (cvar_init F) ops in
  Forall (fun x => ieee_finite 24 128 x) (since_clear ops) /\
  SFltb (d 1%Z) (cvar_mean F s) = true /\ SFltb (cvar_mean F s) (d 7%Z) = true /\
  SFltb (S754_zero false) (cvar_variance F s) = true /\
  (let big := f32 (2 ^ 126) in
   cvar_variance F (run (cvar_push_fma F U) (cvar_clear F) (cvar_init F) [Push big; Push (SFopp big)]) = S754_infinity false) /\
  let v := map d [2; 3; 8]%Z in
  cvar_variance F (run (cvar_push_fma F U) (cvar_clear F) (cvar_init F) (pushes v)) <>
  cvar_variance F (run (cvar_push F) (cvar_clear F) (cvar_init F) (pushes v)).
Proof. cbv zeta. split; [repeat constructor|]. vm_compute. repeat split. discriminate. Qed.

(** @prop C124_order_formats: in every IEEE format with at least 8 bits in which size_t is
    in range, the parabola fused either way, every list of Q quantiles (NaN and
    infinities included) and every history with 2Q+3 to 2^27 values, but not more
    than 2^prec, that are finite and at most 2^(emax-31) in magnitude: the marker
    heights reported by parameters() are finite, in ascending order and between the
    smallest and the largest value. *)
Lemma c124_order_formats : forall (prec emax : Z) (first : bool) (qs : list spec_float) (ops : list (op spec_float)),
  (8 <= prec < emax)%Z -> (65 <= emax)%Z ->
  let l := since_clear ops in
  Forall (fun x => ieee_finite prec emax x /\ Rabs (ieee_real x) <= bpow radix2 (emax - 31)) l ->
  (2 * length qs + 3 <= length l)%nat -> (N.of_nat (length l) <= 2 ^ 27)%N -> (Z.of_nat (length l) <= 2 ^ prec)%Z ->
  let F := ieee prec emax in
  let s := run (psq_push_fma F (ieee_fused prec emax) qs first) (psq_clear F qs) (psq_init F qs) ops in
  let h := map snd (psq_parameters F s) in
  length h = (2 * length qs + 3)%nat /\
  Forall (ieee_finite prec emax) h /\ StronglySorted Rle (map ieee_real h) /\
  Forall (fun v => in_hull v (map ieee_real l)) (map ieee_real h).
Proof.
  intros prec emax first qs ops [Hp8 Hm] H65 l Fl L0 L1 L2 F s h. assert (Hp : (1 < prec)%Z) by lia.
  set (P := psq_parabolic_fma F (ieee_fused prec emax) first).
  assert (Eh : h = ps_heights F (stw F P qs l)).
  { unfold h, s, psq_push_fma. rewrite run_psq_with. apply fused_params. }
  destruct (ieee_list prec emax l _ Fl) as [D2 Db].
  destruct (fused_heights (3 - emax - prec) prec ltac:(lia) ltac:(lia) F (ieee_fused prec emax) (fdenotes prec emax) _ (correct_ieee prec emax Hp Hm H65)
    (denotes_fma prec emax Hp Hm) (emax - 31) ltac:(lia)
    ltac:(apply bpow_le; lia) ltac:(change 1 with (bpow radix2 0); apply bpow_le; lia) qs first l (map ieee_real l)) as (hs & H1 & H2 & H3).
  - split; [exact L1|exact L2].
  - exact D2.
  - exact Db.
  - exact L0.
  - pose proof (stw_lengths F P qs l) as [_ Lh]. fold P in H1. rewrite <- Eh in H1, Lh.
    assert (Em : map ieee_real h = hs /\ Forall (ieee_finite prec emax) h).
    { clear - H1. induction H1 as [|x v h hs [Fx <-] _ [<- IH]]; [split; [reflexivity|constructor]|].
      split; [reflexivity|constructor; assumption]. }
    destruct Em as [-> Fh]. split; [exact Lh|]. split; [exact Fh|]. split; [exact H2|exact H3].
Qed.

(** @ex C124_order_formats_ex: floats in which the first marker makes a linear step
    down, with a NaN for the quantile. *)
Lemma c124_order_formats_ex :
  let ops := map Push [f32 10; f32 11; f32 12; f32 20; f32 21; f32 9] in
  let l := since_clear ops in
  (8 <= 24 < 128)%Z /\ (65 <= 128)%Z /\
  Forall (fun x => ieee_finite 24 128 x /\ Rabs (ieee_real x) <= bpow radix2 (128 - 31)) l /\
  (2 * length [S754_nan] + 3 <= length l)%nat /\ (N.of_nat (length l) <= 2 ^ 27)%N /\ (Z.of_nat (length l) <= 2 ^ 24)%Z.
Proof. exact c122_order_ex. Qed.

(** @prop C124_range_formats: in the same formats, for quantiles between 0 and
    1 - 2^(3-prec) and 1 to 2^27 (and not more than 2^prec) such values: get<i> is defined
    for every index and returns a finite number between the smallest and the largest of them. *)
Lemma c124_range_formats : forall (prec emax : Z) (first : bool) (qs : list spec_float) (ops : list (op spec_float)) (index : nat),
  (8 <= prec < emax)%Z -> (65 <= emax)%Z ->
  Forall (fun q => ieee_finite prec emax q /\ 0 <= ieee_real q <= 1 - bpow radix2 (3 - prec)) qs ->
  let l := since_clear ops in
  Forall (fun x => ieee_finite prec emax x /\ Rabs (ieee_real x) <= bpow radix2 (emax - 31)) l ->
  l <> [] -> (N.of_nat (length l) <= 2 ^ 27)%N -> (Z.of_nat (length l) <= 2 ^ prec)%Z -> (index <= length qs + 1)%nat ->
  let F := ieee prec emax in
  let U := ieee_fused prec emax in
  let s := run (psq_push_fma F U qs first) (psq_clear F qs) (psq_init F qs) ops in
  exists x, psq_get_fma F U qs s index = Some x /\ ieee_finite prec emax x /\ in_hull (ieee_real x) (map ieee_real l).
Proof.
  intros prec emax first qs ops index [Hp8 Hm] H65 Hq l Fl NE L1 L2 Hi F U s. assert (Hp : (1 < prec)%Z) by lia.
  unfold s, psq_push_fma. rewrite run_psq_with. fold l.
  destruct (ieee_list prec emax l _ Fl) as [D2 Db].
  destruct (fused_get (3 - emax - prec) prec ltac:(lia) ltac:(lia) F U (fdenotes prec emax) _ (correct_ieee prec emax Hp Hm H65)
    (denotes_fma prec emax Hp Hm) (emax - 31) ltac:(lia)
    ltac:(apply bpow_le; lia) ltac:(change 1 with (bpow radix2 0); apply bpow_le; lia) qs ltac:(lia) ltac:(apply bpow_le; lia)
    first l (map ieee_real l) index) as (x & v & E & [Fx <-] & Hv).
  - unfold weights_ok. eapply Forall_impl; [|exact Hq]. intros q [Fq Qb]. exists (ieee_real q).
    split; [split; [exact Fq|reflexivity]|].
    replace (3 - prec)%Z with (3 + - prec)%Z in Qb by lia. rewrite bpow_plus in Qb.
    change (bpow radix2 3) with 8 in Qb. exact Qb.
  - split; [exact L1|exact L2].
  - exact D2.
  - exact Db.
  - exact NE.
  - exact Hi.
  - exists x. split; [exact E|]. split; [exact Fx|exact Hv].
Qed.

(** @ex C124_range_formats_ex: the median and the third quartile of three floats. *)
Lemma c124_range_formats_ex :
  let half := S754_finite false 8388608 (-24) in
  let q3 := S754_finite false 12582912 (-24) in
  Forall (fun q => ieee_finite 24 128 q /\ 0 <= ieee_real q <= 1 - bpow radix2 (3 - 24)) [half; q3] /\
  let ops := [Push S754_nan; Clear; Push (f32 3); Push (f32 1); Push (f32 7)] in
  let l := since_clear ops in
  Forall (fun x => ieee_finite 24 128 x /\ Rabs (ieee_real x) <= bpow radix2 (128 - 31)) l /\
  l <> [] /\ (N.of_nat (length l) <= 2 ^ 27)%N /\ (3 <= length [half; q3] + 1)%nat /\
  let F := ieee 24 128 in
  let U := ieee_fused 24 128 in
  psq_get_fma F U [half; q3] (run (psq_push_fma F U [half; q3] true) (psq_clear F [half; q3]) (psq_init F [half; q3]) ops) 2 = Some (f32 5).
Proof.
  intros half q3. destruct c122_range_ex as (A & B). split; [exact A|].
  intros ops l. destruct B as (B1 & B2 & B3 & B4 & _).
  split; [exact B1|]. split; [exact B2|]. split; [exact B3|]. split; [exact B4|vm_compute; reflexivity].
Qed.

(** @prop C124_estimates_order_formats: in the same formats, once more than 2Q+3 such
    values have been pushed, the estimates are finite and in the order of their
    indices. *)
Lemma c124_estimates_formats : forall (prec emax : Z) (first : bool) (qs : list spec_float) (ops : list (op spec_float)) (i j : nat),
  (8 <= prec < emax)%Z -> (65 <= emax)%Z ->
  let l := since_clear ops in
  Forall (fun x => ieee_finite prec emax x /\ Rabs (ieee_real x) <= bpow radix2 (emax - 31)) l ->
  (2 * length qs + 3 < length l)%nat -> (N.of_nat (length l) <= 2 ^ 27)%N -> (Z.of_nat (length l) <= 2 ^ prec)%Z ->
  (i <= j)%nat -> (j <= length qs + 1)%nat ->
  let F := ieee prec emax in
  let U := ieee_fused prec emax in
  let s := run (psq_push_fma F U qs first) (psq_clear F qs) (psq_init F qs) ops in
  exists x y, psq_get_fma F U qs s i = Some x /\ psq_get_fma F U qs s j = Some y /\
    ieee_finite prec emax x /\ ieee_finite prec emax y /\ SFleb x y = true.
Proof.
  intros prec emax first qs ops i j [Hp8 Hm] H65 l Fl L0 L1 L2 Hij Hj F U s. assert (Hp : (1 < prec)%Z) by lia.
  unfold s, psq_push_fma. rewrite run_psq_with. fold l.
  destruct (ieee_list prec emax l _ Fl) as [D2 Db].
  destruct (fused_get_ordered (3 - emax - prec) prec ltac:(lia) ltac:(lia) F U (fdenotes prec emax) _ (correct_ieee prec emax Hp Hm H65)
    (denotes_fma prec emax Hp Hm) (emax - 31) ltac:(lia)
    ltac:(apply bpow_le; lia) ltac:(change 1 with (bpow radix2 0); apply bpow_le; lia) qs
    first l (map ieee_real l) i j) as (x & y & v & w & E1 & E2 & [Fx <-] & [Fy <-] & H).
  - split; [exact L1|exact L2].
  - exact D2.
  - exact Db.
  - exact L0.
  - exact Hij.
  - exact Hj.
  - exists x, y. split; [exact E1|]. split; [exact E2|]. split; [exact Fx|]. split; [exact Fy|].
    rewrite (leb_real prec emax) by assumption. apply Rle_bool_true. exact H.
Qed.

(** @ex C124_estimates_order_formats_ex: six floats, one quantile, and the first two
    estimates. *)
Lemma c124_estimates_formats_ex :
  let ops := map Push [f32 10; f32 11; f32 12; f32 20; f32 21; f32 9] in
  let l := since_clear ops in
  (8 <= 24 < 128)%Z /\ (65 <= 128)%Z /\
  Forall (fun x => ieee_finite 24 128 x /\ Rabs (ieee_real x) <= bpow radix2 (128 - 31)) l /\
  (2 * length [S754_nan] + 3 < length l)%nat /\ (N.of_nat (length l) <= 2 ^ 27)%N /\ (Z.of_nat (length l) <= 2 ^ 24)%Z /\
  (0 <= 1)%nat /\ (1 <= length [S754_nan] + 1)%nat.
Proof.
  destruct c122_order_ex as (A & B & C & _). intros ops l.
  split; [exact A|]. split; [exact B|]. split; [exact C|]. cbn. repeat split; try lia; vm_compute; discriminate.
Qed.

(** @prop C124_cross_statement_double: the witness of C124_cross_statement computed with
    the operations of double: the quantile 1/3 of 0, 0, 2^60 and 2^60 is 0, and -64 when
    the product of the rank is fused across statements. *)
Lemma c124_cross_double : exists (q : spec_float) (l : list spec_float),
  let F := ieee 53 1024 in
  let U := ieee_fused 53 1024 in
  q = SFdiv 53 1024 (ieee_of_Z 53 1024 1) (ieee_of_Z 53 1024 3) /\
  Forall (fun x => SFleb (ieee_of_Z 53 1024 0) x = true) l /\
  let s := run (psq_push_fma F U [q] true) (psq_clear F [q]) (psq_init F [q]) (pushes l) in
  psq_get_fma F U [q] s 1 = Some (ieee_of_Z 53 1024 0) /\
  psq_get_cross F U [q] s 1 = Some (ieee_of_Z 53 1024 (-64)).
Proof.
  exists (S754_finite false 6004799503160661 (-54)).
  exists [ieee_of_Z 53 1024 0; ieee_of_Z 53 1024 0; ieee_of_Z 53 1024 1152921504606846976; ieee_of_Z 53 1024 1152921504606846976].
  cbv zeta. split; [vm_compute; reflexivity|]. split; [repeat constructor; vm_compute; reflexivity|].
  split; vm_compute; reflexivity.
Qed.
