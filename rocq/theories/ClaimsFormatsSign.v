(** * Claim C122: sign, range and order in float and every IEEE value type *)

From Coq Require Import Reals ZArith NArith List Bool Sorted.
From Coq Require Import Floats.SpecFloat.
From Flocq Require Import Core.
From Verif Require Import Arith History SpecStats SpecOrder Cumulative Window Interim Decay Psquare ExactRuns Ieee Rounded.
Import ListNotations.
Local Open Scope R_scope.
(** A float of an integer. *)
Local Notation f32 z := (ieee_of_Z 24 128 z).
(* @end-header *)
From Coq Require Import Lia Lra Psatz.
From Flocq Require Import IEEE754.BinarySingleNaN.
From Verif Require Import HistoryLemmas CumulativeProofs WindowProofs RoundedProofs ApproxInstances IeeeProofs CorrectRounding
  PsquareLemmas PsquareGeneric PsquareOrdered PsquareFew ConstantProofs IeeeSign IeeeDecaySign IeeeInterimSign ClaimsPsquareFloat ClaimsRounded.

(** @prop C122_mean_variance: in every IEEE format in which size_t is in range, overflow
    included: if the values pushed since the last clear are finite and smaller than
    half of the range, mean() is finite and between the smallest and the largest of
    them, and variance() compares greater or equal to zero (it is never NaN). *)
Lemma c122_mean_variance : forall (prec emax : Z) (ops : list (op spec_float)),
  (1 < prec < emax)%Z -> (65 <= emax)%Z ->
  let l := since_clear ops in
  l <> [] -> (N.of_nat (length l) < szmod)%N ->
  Forall (fun x => ieee_finite prec emax x /\ Rabs (ieee_real x) < bpow radix2 (emax - 1)) l ->
  let F := ieee prec emax in
  let s := run (cvar_push F) (cvar_clear F) (cvar_init F) ops in
  ieee_finite prec emax (cvar_mean F s) /\
  in_hull (ieee_real (cvar_mean F s)) (map ieee_real l) /\
  SFleb (S754_zero false) (cvar_variance F s) = true.
Proof.
  intros prec emax ops [Hp Hm] H65 l NE Hf HF F s.
  assert (Es : s = fold_left (cvar_push F) l (cvar_init F)).
  { unfold s. rewrite (run_since_clear _ _ _ (cvar_clear_init F)). reflexivity. }
  destruct (cmean_f prec emax Hp Hm H65 l HF Hf) as (m & r & E & Er & D & H).
  assert (Hp0 : Prec_gt_0 prec) by (red; lia). assert (HV : Valid_rnd ZnearestE) by apply valid_rnd_N.
  destruct (cmean_rounded (3 - emax - prec) prec ltac:(lia) ZnearestE (map ieee_real l)) as (r' & Er' & _ & Hh).
  { destruct l; [congruence|discriminate]. } { rewrite map_length; exact Hf. } { apply (okl_fmt prec emax). exact HF. }
  rewrite Er in Er'. assert (r' = r) by congruence. subst r'.
  pose proof (cvar_fold_super F l (cvar_init F)) as Sup.
  change (cv_super F (cvar_init F)) with (cmean_init F) in Sup.
  rewrite <- Es in Sup. assert (Es' : cv_super F s = CMean F m (N.of_nat (length l))).
  { rewrite Sup. exact E. }
  unfold cvar_mean, cmean_mean. rewrite Es'. cbn [cm_mean]. destruct D as [Fm Rm].
  split; [exact Fm|]. split; [rewrite Rm; exact Hh|].
  unfold cvar_variance. rewrite Es'. cbn [cm_count]. apply (nonneg_f_leb prec emax).
  assert (HL : (1 <= N.of_nat (length l))%N) by (destruct l; cbn; [congruence|lia]).
  apply (nonneg_f_div prec emax Hp Hm _ _ (rndf prec emax (IZR (Z.of_N (N.of_nat (length l)))))).
  - rewrite Es. apply (cvar_f prec emax Hp Hm H65); assumption.
  - apply (count_denotes prec emax Hp Hm H65); [exact HL|exact Hf].
  - apply (rnd_ge1 (3 - emax - prec) prec ltac:(lia) ZnearestE). apply (IZR_le 1). lia.
Qed.

(** @ex C122_mean_variance_ex: over float, 1/10, 2/10, 7/10 after a clear; and 2^126
    with opposite signs, whose variance overflows to infinity. *)
Lemma c122_mean_variance_ex :
  let F := ieee 24 128 in
  let d k := @ndiv F (f32 k) (f32 10) in
  let ops := [Push (f32 5); Clear; Push (d 1%Z); Push (d 2%Z); Push (d 7%Z)] in
  let s := run (cvar_push F) (cvar_clear F) (cvar_init F) ops in
  Forall (fun x => ieee_finite 24 128 x) (since_clear ops) /\
  SFltb (d 1%Z) (cvar_mean F s) = true /\ SFltb (cvar_mean F s) (d 7%Z) = true /\
  SFltb (S754_zero false) (cvar_variance F s) = true /\
  let big := f32 (2 ^ 126) in
  let s' := run (cvar_push F) (cvar_clear F) (cvar_init F) [Push big; Push (SFopp big)] in
  cvar_mean F s' = f32 0 /\ cvar_variance F s' = S754_infinity false.
Proof. cbv zeta. split; [repeat constructor|]. vm_compute. repeat split. Qed.

(** @prop C122_window_variance: in every IEEE format, for every state of the filter
    whatsoever (hence for every input, NaN and infinities included), variance() and
    unbiased_variance() of the window filter are neither NaN nor negative. *)
Lemma c122_window : forall (prec emax : Z) (s : wvar (ieee prec emax)),
  (1 < prec < emax)%Z ->
  let ok (v : spec_float) :=
    match v with
    | S754_nan => False
    | S754_infinity sign => sign = false
    | S754_zero sign => sign = false
    | S754_finite sign _ _ => sign = false
    end in
  ok (wvar_variance (ieee prec emax) s) /\ ok (wvar_unbiased_variance (ieee prec emax) s).
Proof.
  intros prec emax s Hp ok.
  assert (Z0 : (@n0 (ieee prec emax)) = S754_zero false) by reflexivity.
  assert (H : forall v : ieee prec emax, ok (nmax (n0 : ieee prec emax) v)).
  { intros v; unfold nmax. rewrite Z0. change (@nlt (ieee prec emax)) with SFltb.
    destruct v as [b|b| |b m e]; cbn; try reflexivity; destruct b; reflexivity. }
  assert (H0 : ok (@n0 (ieee prec emax))) by (rewrite Z0; reflexivity).
  unfold wvar_variance, wvar_unbiased_variance. split.
  - destruct (_ <? _)%N; [apply H|exact H0].
  - cbv zeta. destruct (_ <? _)%N; [apply H|exact H0].
Qed.

(** @ex C122_window_variance_ex: a float window of two after NaN has left it. *)
Lemma c122_window_ex :
  let F := ieee 24 128 in
  let s := run (wvar_push F 2) (wvar_clear F) (wvar_init F) [Push (f32 1); Push S754_nan; Push (f32 3); Push (f32 5)] in
  (1 < 24 < 128)%Z /\ wvar_mean F s = S754_nan /\ wvar_variance F s = S754_zero false /\
  wvar_variance F (run (wvar_push F 2) (wvar_clear F) (wvar_init F) [Push (f32 1); Push (f32 3); Push (f32 5)]) = f32 1.
Proof. cbv zeta. split; [lia|]. vm_compute. repeat split. Qed.

Lemma ieee_list prec emax (l : list spec_float) (B : R) :
  Forall (fun x => ieee_finite prec emax x /\ Rabs (ieee_real x) <= B) l ->
  Forall2 (fdenotes prec emax) l (map ieee_real l) /\ Forall (fun v => Rabs v <= B) (map ieee_real l).
Proof.
  induction 1 as [|x l [Fx Bx] _ [IH1 IH2]]; [split; constructor|].
  cbn [map]. split; constructor; try assumption. split; [exact Fx|reflexivity].
Qed.

(** @prop C122_psquare_order: in every IEEE format with at least 8 bits in which size_t
    is in range, every list of Q quantiles (NaN and infinities included) and every
    history with 2Q+3 to 2^27 values, but not more than 2^prec, that are finite and
    at most 2^(emax-31) in magnitude: the marker heights reported by parameters() are finite,
    in ascending order and between the smallest and the largest value. *)
Lemma c122_order : forall (prec emax : Z) (qs : list spec_float) (ops : list (op spec_float)),
  (8 <= prec < emax)%Z -> (65 <= emax)%Z ->
  let l := since_clear ops in
  Forall (fun x => ieee_finite prec emax x /\ Rabs (ieee_real x) <= bpow radix2 (emax - 31)) l ->
  (2 * length qs + 3 <= length l)%nat -> (N.of_nat (length l) <= 2 ^ 27)%N -> (Z.of_nat (length l) <= 2 ^ prec)%Z ->
  let F := ieee prec emax in
  let s := run (psq_push F qs) (psq_clear F qs) (psq_init F qs) ops in
  let h := map snd (psq_parameters F s) in
  length h = (2 * length qs + 3)%nat /\
  Forall (ieee_finite prec emax) h /\ StronglySorted Rle (map ieee_real h) /\
  Forall (fun v => in_hull v (map ieee_real l)) (map ieee_real h).
Proof.
  intros prec emax qs ops [Hp8 Hm] H65 l Fl L0 L1 L2 F s h. assert (Hp : (1 < prec)%Z) by lia.
  assert (Eh : h = ps_heights F (st F qs l)).
  { unfold h, s. rewrite run_psq. apply params_heights. }
  destruct (ieee_list prec emax l _ Fl) as [D2 Db].
  destruct (float_heights (3 - emax - prec) prec ltac:(lia) ltac:(lia) F (fdenotes prec emax) _ (correct_ieee prec emax Hp Hm H65) (emax - 31) ltac:(lia)
    ltac:(apply bpow_le; lia) ltac:(change 1 with (bpow radix2 0); apply bpow_le; lia) qs l (map ieee_real l)) as (hs & H1 & H2 & H3).
  - split; [exact L1|exact L2].
  - exact D2.
  - exact Db.
  - exact L0.
  - pose proof (st_lengths F qs l) as [_ Lh]. rewrite <- Eh in H1, Lh.
    assert (Em : map ieee_real h = hs /\ Forall (ieee_finite prec emax) h).
    { clear - H1. induction H1 as [|x v h hs [Fx <-] _ [<- IH]]; [split; [reflexivity|constructor]|].
      split; [reflexivity|constructor; assumption]. }
    destruct Em as [-> Fh]. split; [exact Lh|]. split; [exact Fh|]. split; [exact H2|exact H3].
Qed.

Lemma f32_ok z : (Z.abs z <= 2 ^ 24)%Z -> ieee_finite 24 128 (f32 z) /\ Rabs (ieee_real (f32 z)) <= bpow radix2 (128 - 31).
Proof.
  intros H. destruct (of_Z_small 24 128 ltac:(lia) ltac:(lia) z H) as [F E]. split; [exact F|]. rewrite E, <- abs_IZR.
  apply Rle_trans with (bpow radix2 24); [|apply bpow_le; lia].
  rewrite <- IZR_Zpower by lia. apply IZR_le. exact H.
Qed.

(** @ex C122_psquare_order_ex: the values of C38 over float, in which the first marker
    makes a linear step down, with a NaN for the quantile. *)
Lemma c122_order_ex :
  let ops := map Push [f32 10; f32 11; f32 12; f32 20; f32 21; f32 9] in
  let l := since_clear ops in
  (8 <= 24 < 128)%Z /\ (65 <= 128)%Z /\
  Forall (fun x => ieee_finite 24 128 x /\ Rabs (ieee_real x) <= bpow radix2 (128 - 31)) l /\
  (2 * length [S754_nan] + 3 <= length l)%nat /\ (N.of_nat (length l) <= 2 ^ 27)%N /\ (Z.of_nat (length l) <= 2 ^ 24)%Z.
Proof.
  intros ops l. split; [lia|]. split; [lia|]. split; [|split; [cbn; lia|split; vm_compute; discriminate]].
  unfold l, ops. cbn [since_clear map].
  repeat (apply Forall_cons; [apply f32_ok; vm_compute; discriminate|]). apply Forall_nil.
Qed.

(** @prop C122_psquare_range: in the same formats, for quantiles between 0 and
    1 - 2^(3-prec) and 1 to 2^27 (and not more than 2^prec) such values: get<i> is defined
    for every index and returns a finite number between the smallest and the largest of them. *)
Lemma c122_range : forall (prec emax : Z) (qs : list spec_float) (ops : list (op spec_float)) (index : nat),
  (8 <= prec < emax)%Z -> (65 <= emax)%Z ->
  Forall (fun q => ieee_finite prec emax q /\ 0 <= ieee_real q <= 1 - bpow radix2 (3 - prec)) qs ->
  let l := since_clear ops in
  Forall (fun x => ieee_finite prec emax x /\ Rabs (ieee_real x) <= bpow radix2 (emax - 31)) l ->
  l <> [] -> (N.of_nat (length l) <= 2 ^ 27)%N -> (Z.of_nat (length l) <= 2 ^ prec)%Z -> (index <= length qs + 1)%nat ->
  let F := ieee prec emax in
  let s := run (psq_push F qs) (psq_clear F qs) (psq_init F qs) ops in
  exists x, psq_get F qs s index = Some x /\ ieee_finite prec emax x /\ in_hull (ieee_real x) (map ieee_real l).
Proof.
  intros prec emax qs ops index [Hp8 Hm] H65 Hq l Fl NE L1 L2 Hi F s. assert (Hp : (1 < prec)%Z) by lia.
  unfold s. rewrite run_psq. fold l.
  destruct (ieee_list prec emax l _ Fl) as [D2 Db].
  destruct (float_get (3 - emax - prec) prec ltac:(lia) ltac:(lia) ltac:(lia) F (fdenotes prec emax) _ (correct_ieee prec emax Hp Hm H65) (emax - 31) ltac:(lia)
    ltac:(apply bpow_le; lia) ltac:(apply bpow_le; lia) qs l (map ieee_real l) index) as (x & v & E & [Fx <-] & Hv).
  - unfold weights_ok. eapply Forall_impl; [|exact Hq]. intros q [Fq Qb]. exists (ieee_real q).
    split; [split; [exact Fq|reflexivity]|].
    replace (3 - prec)%Z with (3 + - prec)%Z in Qb by lia. rewrite bpow_plus in Qb.
    change (bpow radix2 3) with 8 in Qb. exact Qb.
  - split; [exact L1|exact L2].
  - exact D2.
  - exact Db.
  - exact NE.
  - exact Hi.
  - exists x. split; [exact E|]. split; [exact Fx|exact Hv].
Qed.

(** @ex C122_psquare_range_ex: the median and the third quartile of three floats. *)
Lemma c122_range_ex :
  let half := S754_finite false 8388608 (-24) in
  let q3 := S754_finite false 12582912 (-24) in
  Forall (fun q => ieee_finite 24 128 q /\ 0 <= ieee_real q <= 1 - bpow radix2 (3 - 24)) [half; q3] /\
  let ops := [Push S754_nan; Clear; Push (f32 3); Push (f32 1); Push (f32 7)] in
  let l := since_clear ops in
  Forall (fun x => ieee_finite 24 128 x /\ Rabs (ieee_real x) <= bpow radix2 (128 - 31)) l /\
  l <> [] /\ (N.of_nat (length l) <= 2 ^ 27)%N /\ (3 <= length [half; q3] + 1)%nat /\
  let F := ieee 24 128 in
  psq_get F [half; q3] (run (psq_push F [half; q3]) (psq_clear F [half; q3]) (psq_init F [half; q3]) ops) 2 = Some (f32 5).
Proof.
  intros half q3. split.
  - change (bpow radix2 (3 - 24)) with (/ 2097152).
    apply Forall_cons; [|apply Forall_cons; [|apply Forall_nil]].
    + split; [split; reflexivity|]. unfold half, ieee_real. cbn [SF2R]. unfold F2R. cbn [Fnum Fexp cond_Zopp].
      change (bpow radix2 (-24)) with (/ 16777216). lra.
    + split; [split; reflexivity|]. unfold q3, ieee_real. cbn [SF2R]. unfold F2R. cbn [Fnum Fexp cond_Zopp].
      change (bpow radix2 (-24)) with (/ 16777216). lra.
  - intros ops l. unfold l, ops. cbn [since_clear].
    split; [|split; [discriminate|split; [vm_compute; discriminate|split; [cbn; lia|vm_compute; reflexivity]]]].
    repeat (apply Forall_cons; [apply f32_ok; vm_compute; discriminate|]). apply Forall_nil.
Qed.

(** @prop C122_constant: in every IEEE format in which size_t is in range, for every finite
    number, the largest included: after any positive number of pushes of it since the
    last clear the mean is that number and the variance (of pairs the covariance)
    zero, for cumulative and window filters. *)
Lemma c122_constant : forall (prec emax : Z) (W : nat) (c d : spec_float) (n : nat),
  (1 < prec < emax)%Z -> (65 <= emax)%Z ->
  ieee_finite prec emax c -> ieee_finite prec emax d -> (0 < W)%nat -> (N.of_nat W < szmod)%N ->
  let F := ieee prec emax in
  let same x y := ieee_finite prec emax x /\ ieee_real x = y in
  (forall ops : list (op spec_float), since_clear ops = repeat c (S n) -> (N.of_nat (S n) < szmod)%N ->
     let s := run (cvar_push F) (cvar_clear F) (cvar_init F) ops in
     same (cvar_mean F s) (ieee_real c) /\ same (cvar_variance F s) 0) /\
  (forall ops : list (op spec_float), since_clear ops = repeat c (S n) ->
     let s := run (wvar_push F W) (wvar_clear F) (wvar_init F) ops in
     same (wvar_mean F s) (ieee_real c) /\ same (wvar_variance F s) 0) /\
  (forall ops : list (op (spec_float * spec_float)), since_clear ops = repeat (c, d) (S n) -> (N.of_nat (S n) < szmod)%N ->
     let s := run (ccov_push F) (ccov_clear F) (ccov_init F) ops in
     same (ccov_variance F s) 0).
Proof.
  intros prec emax W c d n [Hp Hm] H65 Hc Hd HW HW64 F same.
  pose proof (i_first prec emax Hp Hm c Hc) as P1. pose proof (i_again prec emax Hp Hm H65 c Hc) as P2. pose proof (i_replace prec emax Hp Hm H65 c Hc) as P3.
  pose proof (i_init prec emax Hp Hm) as P4. pose proof (i_diff prec emax Hp Hm c Hc) as P5.
  assert (P6 : isf_f prec emax (@nsub F c n0)) by (apply (i_cfin prec emax c), (i_sub_0 prec emax Hp Hm); exact Hc).
  assert (P6' : isf_f prec emax (@nsub F d n0)) by (apply (i_cfin prec emax d), (i_sub_0 prec emax Hp Hm); exact Hd).
  pose proof (i_fin prec emax) as P7. pose proof (i_zadd prec emax Hp Hm) as P8. pose proof (i_zdiv prec emax Hp Hm H65) as P9.
  pose proof (i_zsub prec emax Hp Hm) as P10. pose proof (i_max prec emax Hp Hm) as P11. pose proof (i_zadd' prec emax Hp Hm) as P12.
  split; [|split].
  - intros ops HS Hf s.
    assert (Es : s = fold_left (cvar_push F) (repeat c (S n)) (cvar_init F)).
    { unfold s. etransitivity; [apply (run_since_clear _ _ _ (cvar_clear_init F))|].
      exact (f_equal (fun l => fold_left (cvar_push F) l (cvar_init F)) HS). }
    rewrite Es. split.
    + unfold cvar_mean, cmean_mean. rewrite cvar_fold_super.
      apply (cmean_const F c (isc_f prec emax c)); assumption.
    + apply (cvar_const_variance F c (isc_f prec emax c) (is0_f prec emax) (isf_f prec emax)); assumption.
  - intros ops HS s.
    assert (Es : s = fold_left (wvar_push F W) (repeat c (S n)) (wvar_init F)).
    { unfold s. etransitivity; [apply (run_since_clear _ _ _ (wvar_clear_init F))|].
      exact (f_equal (fun l => fold_left (wvar_push F W) l (wvar_init F)) HS). }
    rewrite Es. split.
    + unfold wvar_mean, wmean_mean. rewrite (wvar_fold_super F W HW).
      apply (wmean_const F c (isc_f prec emax c)); assumption.
    + apply (wvar_const_variance F c (isc_f prec emax c) (is0_f prec emax) (isf_f prec emax)); assumption.
  - intros ops HS Hf s.
    assert (Es : s = fold_left (ccov_push F) (repeat (c, d) (S n)) (ccov_init F)).
    { unfold s. etransitivity; [apply (run_since_clear _ _ _ (ccov_clear_init F))|].
      exact (f_equal (fun l => fold_left (ccov_push F) l (ccov_init F)) HS). }
    rewrite Es. apply (ccov_const_variance F c d (isc_f prec emax c) (isc_f prec emax d) (is0_f prec emax) (isf_f prec emax)); try assumption.
    + apply (i_first prec emax Hp Hm d Hd).
    + apply (i_again prec emax Hp Hm H65 d Hd).
    + apply (i_diff prec emax Hp Hm d Hd).
Qed.

(** @ex C122_constant_ex: the largest float, three times, window of two. *)
Lemma c122_constant_ex :
  let F := ieee 24 128 in
  let big := S754_finite false 16777215 104 in
  ieee_finite 24 128 big /\ since_clear (pushes [big; big; big]) = repeat big 3 /\
  wvar_mean F (run (wvar_push F 2) (wvar_clear F) (wvar_init F) (pushes [big; big; big])) = big.
Proof. vm_compute. repeat split. Qed.

(** @prop C122_decay: in every IEEE format, for every history of numbers of the format, NaN
    and infinities included, and every finite factor between 0 and 1: variance() and
    kurtosis() of the decay filters never compare less than zero. *)
Lemma c122_decay : forall (prec emax : Z) (fm fv fs fk : spec_float) (ops : list (op spec_float)),
  (1 < prec < emax)%Z ->
  ieee_valid prec emax fm -> ieee_valid prec emax fs ->
  ieee_finite prec emax fv -> 0 <= ieee_real fv <= 1 -> ieee_finite prec emax fk -> 0 <= ieee_real fk <= 1 ->
  (forall x, In (Push x) ops -> ieee_valid prec emax x) ->
  let F := ieee prec emax in
  let s := run (dvar_push F) (dvar_clear F) (dvar_init F fm fv) ops in
  let k := run (dkurt_push F) (dkurt_clear F) (dkurt_init F fm fv fs fk) ops in
  SFltb (dvar_variance F s) (S754_zero false) = false /\
  SFltb (dkurt_variance F k) (S754_zero false) = false /\
  SFltb (dkurt_kurtosis F k) (S754_zero false) = false.
Proof.
  intros prec emax fm fv fs fk ops [Hp Hm] Vm Vs Fv Hv Fk Hk OK F s k.
  assert (I : dv_ok prec emax (dvar_init F fm fv)).
  { split; [split; [exact Vm|split; reflexivity]|]. split; [split; assumption|]. split; [reflexivity|apply zero_signed]. }
  assert (Ik : dk_ok prec emax (dkurt_init F fm fv fs fk)).
  { split; [split; [exact I|]|].
    - split; [exact Vs|]. split; reflexivity.
    - split; [split; assumption|]. split; [reflexivity|apply zero_signed]. }
  assert (Hs : dv_ok prec emax s).
  { apply (SignProofs.run_invariant _ _ _ (ieee_valid prec emax)); [exact I|apply (dv_push_ok prec emax Hp Hm)|apply dv_clear_ok|exact OK]. }
  assert (Hk' : dk_ok prec emax k).
  { apply (SignProofs.run_invariant _ _ _ (ieee_valid prec emax)); [exact Ik|apply (dk_push_ok prec emax Hp Hm)|apply dk_clear_ok|exact OK]. }
  split; [apply (signed_ltb prec emax), (dv_variance_signed prec emax Hp Hm), Hs|].
  split; [apply (signed_ltb prec emax), (dv_variance_signed prec emax Hp Hm), (proj1 (proj1 Hk'))|].
  apply (signed_ltb prec emax), (dk_kurtosis_signed prec emax Hp Hm), Hk'.
Qed.

(** @ex C122_decay_ex: over float with factors 1/10; a stream with an infinity, whose
    variance becomes NaN, and one with a positive variance. *)
Lemma c122_decay_ex :
  let F := ieee 24 128 in
  let d k := @ndiv F (f32 k) (f32 10) in
  let f := d 1%Z in
  let ops := [Push (d 3%Z); Push (S754_infinity true); Push (d 4%Z)] in
  let ops' := [Push (d 3%Z); Clear; Push (d 70%Z); Push (d (-4)%Z)] in
  let v ops := dvar_variance F (run (dvar_push F) (dvar_clear F) (dvar_init F f f) ops) in
  ieee_finite 24 128 f /\ 0 <= ieee_real f <= 1 /\
  (forall x, In (Push x) ops -> ieee_valid 24 128 x) /\ (forall x, In (Push x) ops' -> ieee_valid 24 128 x) /\
  v ops = S754_nan /\ SFltb (S754_zero false) (v ops') = true.
Proof.
  cbn zeta. split; [split; vm_compute; reflexivity|]. split.
  { match goal with |- _ <= ieee_real ?x <= _ => let y := eval vm_compute in x in change x with y end.
    unfold ieee_real, SF2R, F2R. cbn. lra. }
  split; [|split].
  - intros a H. cbn in H. repeat (destruct H as [H|H]; [injection H as <-; vm_compute; reflexivity|]). contradiction.
  - intros a H. cbn in H. repeat (destruct H as [H|H]; [try discriminate; injection H as <-; vm_compute; reflexivity|]). contradiction.
  - split; vm_compute; reflexivity.
Qed.

(** @prop C122_interim: in every IEEE format in which size_t is in range, for every window up
    to 2^32 and every history whose last 2W values since the last clear() are finite and
    smaller than half of the range: variance() of the interim filter compares greater
    or equal to zero (it is never NaN). *)
Lemma c122_interim : forall (prec emax : Z) (W : nat) (ops : list (op spec_float)),
  (1 < prec < emax)%Z -> (65 <= emax)%Z -> (0 < W)%nat -> (N.of_nat W <= 2 ^ 32)%N ->
  let l := since_clear ops in
  l <> [] -> Forall (fun x => ieee_finite prec emax x /\ Rabs (ieee_real x) < bpow radix2 (emax - 1)) (lastn (2 * W) l) ->
  let F := ieee prec emax in
  let w := N.of_nat W in
  let d := run (ivar_push F w) (ivar_clear F) (ivar_init F) ops in
  SFleb (S754_zero false) (ivar_variance F w d) = true.
Proof.
  intros prec emax W ops [Hp Hm] H65 HW H32 l NE OK F w d. apply (nonneg_f_leb prec emax).
  apply (ivar_nonneg prec emax Hp Hm H65 W ops HW H32 NE OK).
Qed.

(** @ex C122_interim_ex: W = 2 over float; NaN is out of reach of the last four values. *)
Lemma c122_interim_ex :
  let F := ieee 24 128 in
  let ops := [Push S754_nan; Push S754_nan; Push (f32 4); Push (f32 6); Push (f32 1)] in
  (N.of_nat 2 <= 2 ^ 32)%N /\ lastn (2 * 2) (since_clear ops) = [S754_nan; f32 4; f32 6; f32 1] /\
  let ops' := ops ++ [Push (f32 3)] in
  Forall (ieee_finite 24 128) (lastn (2 * 2) (since_clear ops')) /\
  ivar_variance F 2 (run (ivar_push F 2) (ivar_clear F) (ivar_init F) ops') = f32 1.
Proof.
  cbv zeta. split; [discriminate|]. split; [reflexivity|]. split; [cbn; repeat constructor|]. vm_compute. reflexivity.
Qed.
