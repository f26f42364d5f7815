(** * Claim C120: filters that agree, and superposition *)

From Coq Require Import Reals ZArith NArith List.
From Coq Require Import Floats.SpecFloat.
From Flocq Require Import Core.
From Verif Require Import Arith History SpecStats SpecBlocks SpecDecay SpecImpulse Cumulative Window Interim Decay Impulse Rounded Binary64 ExactRuns WindowRuns InterimRuns DecayRuns ImpulseRuns.
Import ListNotations.
Local Open Scope R_scope.
(* @end-header *)
From Coq Require Import Lia Lra Arith Psatz.
From Verif Require Import HistoryLemmas StatsLemmas SpecBlocks SpecDecay SpecImpulse CumulativeStats ImpulseProofs ClaimsImpulse ClaimsCumulative
  ClaimsWindow ClaimsInterim ClaimsDecay ClaimsAccuracy.

Lemma sumto_const a k : forall n, sumto n (fun _ => a * k) = INR n * (a * k).
Proof.
  induction n as [|n IH]; [unfold sumto; cbn; ring|]. unfold sumto in *. rewrite seq_S, map_app, Rsum_app, IH, S_INR. cbn. ring.
Qed.

Lemma sumto_back (l : list R) : forall W, sumto W (fun i => back l (length l - 1) i) = match l with [] => sumto W (fun i => back l 0 i) | _ => Rsum (lastn W l) end.
Proof.
  intros W. destruct l as [|x0 l0]; [reflexivity|]. set (l := x0 :: l0). assert (L : (0 < length l)%nat) by (cbn; lia). clearbody l.
  induction W as [|W IH].
  - unfold lastn. rewrite Nat.sub_0_r, skipn_all. reflexivity.
  - unfold sumto in *. rewrite seq_S, map_app, Rsum_app, IH. cbn [map plus Rsum]. unfold back, lastn.
    destruct (W <=? length l - 1)%nat eqn:E.
    + apply Nat.leb_le in E. assert (H : (length l - S W < length l)%nat) by lia.
      replace (length l - W)%nat with (S (length l - S W)) by lia.
      replace (length l - 1 - W)%nat with (length l - S W)%nat by lia.
      revert H. generalize (length l - S W)%nat. clear. intros k. revert k. induction l as [|a l IH]; intros k H; [cbn in H; lia|].
      destruct k as [|k]; [cbn; ring|]. cbn [skipn nth]. apply IH. cbn in H. lia.
    + apply Nat.leb_gt in E. replace (length l - W)%nat with 0%nat by lia. replace (length l - S W)%nat with 0%nat by lia. cbn. ring.
Qed.

Lemma sumto_scale a (f : nat -> R) n : sumto n (fun i => a * f i) = a * sumto n f.
Proof. induction n as [|n IH]; [unfold sumto; cbn; ring|]. unfold sumto in *. rewrite !seq_S, !map_app, !Rsum_app, IH. cbn. ring. Qed.

Lemma nth_rep (a : R) n i : (i < n)%nat -> nth i (repeat a n) 0 = a.
Proof. revert i. induction n as [|n IH]; intros i H; [lia|]. destruct i; [reflexivity|]. cbn. apply IH. lia. Qed.

(** @prop C120_window_mean: the finite filter with [W] coefficients [1/W] gives the mean of
    window::moment over [W] values once it is full, and before that the mean times the
    filled part of the window. *)
Lemma c120_window : forall (eps : R) (W : nat) (ops : list (op R)),
  (0 < W)%nat -> (N.of_nat W < szmod)%N -> since_clear ops <> [] ->
  let n := length (since_clear ops) in
  let s := run_wmean eps W ops in
  exists m : R,
    wmean_mean _ s = Fin m /\
    fir_value _ (run_fir eps (repeat (/ INR W) W) ops) = Fin (INR (Nat.min W n) / INR W * m) /\
    (wmean_full _ W s = true -> fir_value _ (run_fir eps (repeat (/ INR W) W) ops) = Fin m).
Proof.
  intros eps W ops HW HW64 NE n s. set (l := since_clear ops) in *.
  assert (WP : 0 < INR W) by (apply lt_0_INR; exact HW).
  assert (Ll : (0 < length l)%nat) by (apply len_pos; exact NE).
  set (w := lastn W l). assert (Lw : length w = Nat.min W n) by (unfold w, lastn; rewrite skipn_length; unfold n; lia).
  assert (Nw : w <> []) by (intros E; rewrite E in Lw; cbn in Lw; unfold n in Lw; lia).
  destruct (c15 eps W ops HW HW64) as (_ & Hm & _). fold l w in Hm. destruct (Hm Nw) as [Em _].
  assert (Hc : repeat (/ INR W) W <> []) by (destruct W; [lia|discriminate]).
  assert (Ef : fir_value (exact eps) (run_fir eps (repeat (/ INR W) W) ops) = Fin (INR (Nat.min W n) / INR W * mean w)).
  { rewrite c45 by assumption. f_equal. fold l. unfold convolution. rewrite repeat_length.
    rewrite (sumto_ext W _ (fun i => / INR W * back l (length l - 1) i)) by (intros i Hi; rewrite nth_rep by exact Hi; reflexivity).
    rewrite sumto_scale, sumto_back. destruct l as [|x0 l0] eqn:El; [congruence|]. fold w.
    rewrite <- mean_card. unfold card. rewrite Lw. field. lra. }
  exists (mean w). split; [exact Em|]. split; [exact Ef|]. intros Hfull. rewrite Ef. f_equal.
  destruct (c20 (exact eps) W (rops eps ops) [] HW) as (_ & _ & _ & (Hf & _) & _). unfold run_wmean in s. fold s in Hf. rewrite Hf in Hfull.
  unfold rops in Hfull. rewrite since_clear_op_map, map_length in Hfull. fold l n in Hfull. apply N.eqb_eq in Hfull.
  replace (Nat.min W n) with W by lia. field. lra.
Qed.

(** @ex C120_window_mean_ex: windows of 4 after a clear: after 2, 4 the mean is 3 and the
    filter gives 3/2; after 1, 2, 3, 4, 6 both give 15/4. *)
Lemma c120_window_ex :
  let ops := [Push 9; Clear; Push 1; Push 2; Push 3; Push 4; Push 6] in
  (0 < 4)%nat /\ (N.of_nat 4 < szmod)%N /\ since_clear ops <> [] /\
  mean (lastn 4 (since_clear ops)) = 15 / 4 /\ mean (lastn 4 [2; 4]) = 3 /\ INR (Nat.min 4 2) / INR 4 * 3 = 3 / 2.
Proof.
  cbv zeta. split; [lia|]. split; [reflexivity|]. split; [discriminate|]. unfold mean, card, lastn. cbn. lra.
Qed.

Lemma sumto_le (f : nat -> R) K n : (forall i, (i < n)%nat -> Rabs (f i) <= K) -> Rabs (sumto n f) <= INR n * K.
Proof.
  intros H. induction n as [|n IH]; [unfold sumto; cbn; rewrite Rabs_R0; lra|].
  unfold sumto in *. rewrite seq_S, map_app, Rsum_app, S_INR. cbn [map Rsum plus].
  eapply Rle_trans; [apply Rabs_triang|]. pose proof (IH ltac:(intros; apply H; lia)). pose proof (H n ltac:(lia)). rewrite Rplus_0_r. lra.
Qed.

Lemma back_le (l : list R) M n k : 0 <= M -> Forall (fun x => Rabs x <= M) l -> Rabs (back l n k) <= M.
Proof.
  intros M0 H. unfold back. destruct (k <=? n)%nat; [|rewrite Rabs_R0; exact M0].
  destruct (Nat.lt_ge_cases (n - k) (length l)) as [L|L]; [|rewrite nth_overflow by exact L; rewrite Rabs_R0; exact M0].
  rewrite Forall_forall in H. apply H, nth_In. exact L.
Qed.

(** @prop C120_window_mean_binary64: in double, with coefficients that are [1/W] up to
    a relative error of 2^-53 (the quotient 1.0 / W is), a full window of at most 2^49
    values since the last clear, of magnitude at most [M <= 2^1018], both results are
    finite and differ by at most [(30 n + 9) 2^-53 M + 20 n 2^-1075]. *)
Lemma c120_binary64 : forall (W : nat) (c : list b64) (ops : list (op b64)) (M : R),
  let l := since_clear ops in
  let n := INR (length l) in
  length c = W -> (0 < W <= length l)%nat -> (Z.of_nat (length l) <= 2 ^ 49)%Z -> M <= bpow radix2 1018 ->
  Forall (fun k => b64_finite k /\ Rabs (INR W * b64_real k - 1) <= bpow radix2 (-53)) c ->
  Forall (fun x => b64_finite x /\ Rabs (b64_real x) <= M) l ->
  let m := wmean_mean b64num (run (wmean_push b64num W) (wmean_clear b64num) (wmean_init b64num) ops) in
  let v := fir_value b64num (fir_run b64num c ops) in
  b64_finite m /\ b64_finite v /\
  Rabs (b64_real v - b64_real m) <= (30 * n + 9) * bpow radix2 (-53) * M + 20 * n * bpow radix2 (-1075).
Proof.
  intros W c ops M l n Lc [HW HWn] Hn HM Hc HF m v.
  assert (NE : l <> []) by (intros E; rewrite E in HWn; cbn in HWn; lia).
  assert (M0 : 0 <= M).
  { apply (magn_pos b64_real M l NE). eapply Forall_impl; [|exact HF]; cbn; tauto. }
  destruct (c66_binary64 W ops M HW ltac:(lia) NE Hn HM HF) as [Fm Em]. fold l n m in Fm, Em.
  assert (WP : 0 < INR W) by (apply lt_0_INR; exact HW).
  assert (Wn : INR W <= n) by (apply le_INR; exact HWn).
  set (u := bpow radix2 (-53)) in *. set (eta := bpow radix2 (-1075)) in *.
  assert (Up : 0 < u) by apply bpow_gt_0. assert (Ep : 0 < eta) by apply bpow_gt_0.
  assert (U1 : u <= 1) by (change 1 with (bpow radix2 0); apply bpow_le; lia).
  set (cv := map b64_real c). set (lv := map b64_real l).
  assert (Lcv : length cv = W) by (unfold cv; rewrite map_length; exact Lc).
  assert (Llv : length lv = length l) by (unfold lv; apply map_length).
  assert (Mag : Forall (fun x => Rabs x <= M) lv).
  { unfold lv. apply Forall_map. eapply Forall_impl; [|exact HF]. cbn. tauto. }
  assert (Cc : forall i, (i < W)%nat -> Rabs (nth i cv 0 - / INR W) <= u / INR W).
  { intros i Hi. unfold cv. rewrite (nth_indep _ 0 (b64_real (S754_zero false))) by (rewrite map_length, Lc; exact Hi). rewrite map_nth.
    rewrite Forall_forall in Hc. destruct (Hc (nth i c (S754_zero false))) as [_ H]; [apply nth_In; lia|].
    set (r := b64_real (nth i c (S754_zero false))) in *. replace (r - / INR W) with ((INR W * r - 1) / INR W) by (field; lra).
    unfold Rdiv. rewrite Rabs_mult. rewrite (Rabs_pos_eq (/ INR W)) by (left; apply Rinv_0_lt_compat; exact WP).
    apply Rmult_le_compat_r; [left; apply Rinv_0_lt_compat; exact WP|exact H]. }
  assert (IW : 0 < / INR W) by (apply Rinv_0_lt_compat; exact WP).
  set (S := convolution (map Rabs cv) (map Rabs lv) (Nat.pred (length lv))).
  assert (HS : 0 <= S <= 2 * M).
  { assert (HS1 : Rabs S <= INR W * (2 * / INR W * M)).
    { unfold S, convolution. rewrite map_length, Lcv. apply sumto_le. intros i Hi. rewrite Rabs_mult. apply Rmult_le_compat; try apply Rabs_pos.
      - change 0 with (Rabs 0) at 1 || idtac. rewrite (nth_indep _ 0 (Rabs 0)) by (rewrite map_length, Lcv; exact Hi). rewrite map_nth, Rabs_Rabsolu.
        pose proof (Cc i Hi) as H. unfold Rdiv in H. assert (u * / INR W <= 1 * / INR W) by (apply Rmult_le_compat_r; lra).
        replace (nth i cv 0) with ((nth i cv 0 - / INR W) + / INR W) by ring. eapply Rle_trans; [apply Rabs_triang|]. rewrite (Rabs_pos_eq (/ INR W)) by lra. lra.
      - apply back_le; [exact M0|]. apply Forall_map. eapply Forall_impl; [|exact Mag]. intros x Hx. cbn. rewrite Rabs_Rabsolu. exact Hx. }
    replace (INR W * (2 * / INR W * M)) with (2 * M) in HS1 by (field; lra).
    assert (S0 : 0 <= S).
    { unfold S, convolution, sumto. clear. induction (seq 0 (length (map Rabs cv))) as [|k q IH]; cbn [map Rsum]; [lra|].
      assert (forall (a : list R) i, 0 <= nth i (map Rabs a) 0).
      { intros a i. destruct (Nat.lt_ge_cases i (length a)) as [L|L].
        - rewrite (nth_indep _ 0 (Rabs 0)) by (rewrite map_length; exact L). rewrite map_nth. apply Rabs_pos.
        - rewrite nth_overflow by (rewrite map_length; exact L). lra. }
      assert (0 <= nth k (map Rabs cv) 0 * back (map Rabs lv) (Nat.pred (length lv)) k); [|lra].
      apply Rmult_le_pos; [apply H|]. unfold back. destruct (_ <=? _)%nat; [apply H|lra]. }
    rewrite Rabs_pos_eq in HS1 by exact S0. lra. }
  assert (Fc : Forall b64_finite c) by (eapply Forall_impl; [|exact Hc]; cbn; tauto).
  assert (Fl : Forall b64_finite l) by (eapply Forall_impl; [|exact HF]; cbn; tauto).
  assert (Nc : c <> []) by (intros E; rewrite E in Lc; cbn in Lc; lia).
  destruct (c68_binary64 c ops Nc NE ltac:(rewrite Lc; lia) Fc Fl) as [Fv Ev].
  { fold l cv lv S. apply Rle_trans with (2 * bpow radix2 1018); [lra|]. change 2 with (bpow radix2 1). rewrite <- bpow_plus. apply bpow_le. lia. }
  fold l cv lv S u eta v in Fv, Ev. rewrite Lc in Ev. split; [exact Fm|]. split; [exact Fv|].
  assert (Ew : mean (lastn W lv) = sumto W (fun i => / INR W * back lv (Nat.pred (length lv)) i)).
  { rewrite sumto_scale. replace (Nat.pred (length lv)) with (length lv - 1)%nat by lia. rewrite sumto_back.
    destruct lv as [|x0 l0] eqn:El; [cbn in Llv; lia|]. unfold mean, card, lastn at 2. rewrite skipn_length, Llv.
    replace (length l - (length l - W))%nat with W by lia. field. lra. }
  assert (D : Rabs (convolution cv lv (Nat.pred (length lv)) - mean (lastn W lv)) <= u * M).
  { rewrite Ew. unfold convolution. rewrite Lcv.
    replace (sumto W (fun i => nth i cv 0 * back lv (Nat.pred (length lv)) i) - sumto W (fun i => / INR W * back lv (Nat.pred (length lv)) i))
      with (sumto W (fun i => (nth i cv 0 - / INR W) * back lv (Nat.pred (length lv)) i)).
    - eapply Rle_trans; [apply (sumto_le _ (u / INR W * M))|].
      + intros i Hi. rewrite Rabs_mult. apply Rmult_le_compat; try apply Rabs_pos; [apply Cc; exact Hi|apply back_le; assumption].
      + right. field. lra.
    - generalize (/ INR W) as q. clear. intros q. induction W as [|W IH]; [unfold sumto; cbn; ring|]. unfold sumto in *. rewrite !seq_S, !map_app, !Rsum_app, IH. cbn [map Rsum plus]. ring. }
  fold l lv in Em. replace (b64_real v - b64_real m) with
    ((b64_real v - convolution cv lv (Nat.pred (length lv))) + (convolution cv lv (Nat.pred (length lv)) - mean (lastn W lv)) + (mean (lastn W lv) - b64_real m)) by ring.
  rewrite (Rabs_minus_sym (b64_real m)) in Em.
  eapply Rle_trans; [apply Rabs_triang|]. eapply Rle_trans; [apply Rplus_le_compat_r, Rabs_triang|].
  assert (UM : 0 <= u * M) by (apply Rmult_le_pos; lra).
  assert (A : (2 * INR W + 4) * u * S <= (2 * n + 4) * (2 * (u * M))).
  { replace ((2 * INR W + 4) * u * S) with ((2 * INR W + 4) * (u * S)) by ring. apply Rmult_le_compat; [lra|apply Rmult_le_pos; lra|lra|].
    replace (2 * (u * M)) with (u * (2 * M)) by ring. apply Rmult_le_compat_l; lra. }
  assert (A2 : 6 * INR W * eta <= 6 * n * eta) by (apply Rmult_le_compat_r; lra).
  assert (A3 : 0 <= n * eta) by (apply Rmult_le_pos; lra).
  lra.
Qed.

(** @ex C120_window_mean_binary64_ex: coefficients 1.0 / 3 and four values, window 3. *)
Lemma c120_binary64_ex :
  let c := repeat (@ndiv b64num (b64_of_Z 1) (b64_of_Z 3)) 3 in
  let l := since_clear (Push (b64_of_Z 9) :: Clear :: map Push (map b64_of_Z [1; 2; 4; 8]%Z)) in
  length c = 3%nat /\ (0 < 3 <= length l)%nat /\ (Z.of_nat (length l) <= 2 ^ 49)%Z /\ 8 <= bpow radix2 1018 /\
  Forall (fun k => b64_finite k /\ Rabs (INR 3 * b64_real k - 1) <= bpow radix2 (-53)) c /\
  Forall (fun x => b64_finite x /\ Rabs (b64_real x) <= 8) l.
Proof.
  cbv zeta. split; [reflexivity|]. split; [cbn; lia|]. split; [cbn; lia|].
  split; [change 8 with (bpow radix2 3); apply bpow_le; lia|]. split.
  - set (q := ndiv _ _). assert (Eq : q = S754_finite false 6004799503160661 (-54)) by (vm_compute; reflexivity).
    assert (H : b64_finite q /\ Rabs (INR 3 * b64_real q - 1) <= bpow radix2 (-53)).
    { rewrite Eq. split; [vm_compute; auto|]. unfold b64_real, BinarySingleNaN.SF2R, F2R. cbn [Fnum Fexp cond_Zopp INR]. change (bpow radix2 (-54)) with (/ 18014398509481984). change (bpow radix2 (-53)) with (/ 9007199254740992). rewrite Rabs_left1; lra. }
    cbn [repeat]. repeat (apply Forall_cons; [exact H|]). apply Forall_nil.
  - vm_compute since_clear. magnitudes.
Qed.

Lemma esum_snoc' q l x : esum q (l ++ [x]) = q * esum q l + x.
Proof.
  induction l as [|a l IH]; [cbn; ring|]. cbn [esum app]. rewrite IH, app_length. cbn [length].
  replace (length l + 1)%nat with (S (length l)) by lia. cbn [pow]. ring.
Qed.

Lemma esum_ones f (l : list R) : f * esum (1 - f) (map (fun _ => 1) l) = 1 - (1 - f) ^ length l.
Proof.
  induction l as [|a l IH]; [cbn; ring|]. cbn [map esum length]. rewrite Rmult_plus_distr_l, IH, map_length. cbn [pow]. ring.
Qed.

Lemma smoother_solution f l : difference_equation [f] [- (1 - f)] 1 l (map (fun k => f * esum (1 - f) (firstn (S k) l)) (seq 0 (length l))).
Proof.
  split; [rewrite map_length, seq_length; reflexivity|]. intros n Hn.
  set (g := fun k => f * esum (1 - f) (firstn (S k) l)).
  assert (G : forall k, (k < length l)%nat -> nth k (map g (seq 0 (length l))) 0 = g k).
  { intros k Hk. rewrite (nth_indep _ 0 (g 0%nat)) by (rewrite map_length, seq_length; exact Hk). rewrite map_nth, seq_nth by exact Hk. reflexivity. }
  rewrite G by exact Hn. unfold sumto. cbn [length seq map nth Rsum].
  assert (E : g n = f * nth n l 0 + (1 - f) * match n with O => 0 | S k => g k end).
  { unfold g. assert (Es : firstn (S n) l = firstn n l ++ [nth n l 0]).
    { clear - Hn. revert n Hn. induction l as [|a l IH]; intros n Hn; [cbn in Hn; lia|]. destruct n; [reflexivity|]. cbn [firstn app nth]. f_equal. apply IH. cbn in Hn. lia. }
    rewrite Es, esum_snoc'. destruct n as [|k]; [cbn; ring|]. ring. }
  rewrite E. unfold back. rewrite Nat.sub_0_r. cbn [Nat.leb].
  destruct n as [|k]; [cbn; ring|]. cbn [Nat.leb Nat.sub]. rewrite Nat.sub_0_r, G by lia. ring.
Qed.

(** @prop C120_decay_mean: the infinite filter y = f x + (1 - f) y' gives the mean of
    decay::moment with factor [f] times [1 - (1 - f)^n]: the decay filter is this smoother
    without the start-up bias. *)
Lemma c120_decay : forall (eps f : R) (ops : list (op R)),
  0 < f <= 1 -> since_clear ops <> [] ->
  let n := length (since_clear ops) in
  exists m : R,
    dmean_mean _ (run_dmean eps f ops) = Fin m /\
    iir_value _ (run_iir eps [f] [- (1 - f)] 1 ops) = Fin ((1 - (1 - f) ^ n) * m).
Proof.
  intros eps f ops Hf NE n. set (l := since_clear ops) in *.
  destruct (c31 eps f 1 1 1 ops Hf) as (m & Em & _ & _ & _ & Hm & _). exists m. split; [exact Em|].
  destruct (c47 eps [f] [- (1 - f)] 1 ops ltac:(discriminate) ltac:(discriminate) ltac:(lra)) as (y & _ & U & ->).
  fold l in U. rewrite <- (U _ (smoother_solution f l)). f_equal. rewrite last_nth, map_length, seq_length.
  assert (Ll : (0 < length l)%nat) by (apply len_pos; exact NE).
  set (g := fun k => f * esum (1 - f) (firstn (S k) l)).
  rewrite (nth_indep _ 0 (g 0%nat)) by (rewrite map_length, seq_length; lia). rewrite map_nth, seq_nth by lia. unfold g.
  replace (S (0 + (length l - 1)))%nat with (length l) by lia. rewrite firstn_all.
  rewrite (Hm NE). unfold ewma. fold l. unfold n. fold l. rewrite <- (esum_ones f l). field.
  assert (P : 0 < 1 - (1 - f) ^ length l).
  { destruct (length l) as [|k]; [lia|]. pose proof (pow_le (1 - f) k ltac:(lra)). pose proof (pow_incr (1 - f) 1 k ltac:(lra)) as P1. rewrite pow1 in P1. cbn [pow]. nra. }
  rewrite <- (esum_ones f l) in P. intros Z. rewrite Z in P. lra.
Qed.

(** @ex C120_decay_mean_ex: factor 1/2 after a clear: 1, 4 have the mean 3; the smoother
    gives 9/4. *)
Lemma c120_decay_ex :
  let ops := [Push 7; Clear; Push 1; Push 4] in
  0 < 1 / 2 <= 1 /\ since_clear ops <> [] /\
  difference_equation [1 / 2] [- (1 - 1 / 2)] 1 [1; 4] [1 / 2; 9 / 4] /\ (1 - (1 - 1 / 2) ^ 2) * 3 = 9 / 4.
Proof.
  cbv zeta. split; [lra|]. split; [discriminate|]. split; [|cbn; lra]. split; [reflexivity|].
  intros n Hn. cbn in Hn. destruct n as [|[|n]]; try lia; unfold sumto, back; cbn; lra.
Qed.

(** ** Superposition *)

Definition mix (u v : R) (p : R * R) : R := u * fst p + v * snd p.

Lemma Rsum_mix u v l : Rsum (map (mix u v) l) = u * Rsum (map fst l) + v * Rsum (map snd l).
Proof. induction l as [|p l IH]; [cbn; ring|]. cbn [map Rsum]. rewrite IH. unfold mix. ring. Qed.
Lemma mean_mix u v l : mean (map (mix u v) l) = u * mean (map fst l) + v * mean (map snd l).
Proof. unfold mean, card. rewrite !map_length, Rsum_mix. unfold Rdiv. ring. Qed.
Lemma esum_mix q u v l : esum q (map (mix u v) l) = u * esum q (map fst l) + v * esum q (map snd l).
Proof. induction l as [|p l IH]; [cbn; ring|]. cbn [map esum]. rewrite IH, !map_length. unfold mix. ring. Qed.
Lemma running_mix u v l : forall pre, running_means_from (map (mix u v) pre) (map (mix u v) l) =
  map (mix u v) (combine (running_means_from (map fst pre) (map fst l)) (running_means_from (map snd pre) (map snd l))).
Proof.
  induction l as [|p l IH]; intros pre; [reflexivity|]. cbn [map running_means_from combine].
  change [mix u v p] with (map (mix u v) [p]). change [fst p] with (map fst [p]). change [snd p] with (map snd [p]).
  rewrite <- !map_app, IH, mean_mix. reflexivity.
Qed.
Lemma running_length l : forall pre, length (running_means_from pre l) = length l.
Proof. induction l as [|x l IH]; intros pre; [reflexivity|]. cbn. rewrite IH. reflexivity. Qed.
Lemma combine_split' {A B} (a : list A) (b : list B) : length a = length b -> map fst (combine a b) = a /\ map snd (combine a b) = b.
Proof.
  revert b. induction a as [|x a IH]; intros [|y b] H; try discriminate; [split; reflexivity|]. cbn in *. destruct (IH b) as [E1 E2]; [lia|]. rewrite E1, E2. split; reflexivity.
Qed.
Lemma lastn_map' {A B} (f : A -> B) n l : lastn n (map f l) = map f (lastn n l).
Proof. unfold lastn. rewrite map_length, skipn_map. reflexivity. Qed.
Lemma cur_map {A B} (f : A -> B) W l : cur_block W (map f l) = map f (cur_block W l).
Proof. unfold cur_block. rewrite map_length. apply lastn_map'. Qed.
Lemma prev_map {A B} (f : A -> B) W l : prev_block W (map f l) = map f (prev_block W l).
Proof. unfold prev_block. rewrite cur_map, !map_length, firstn_map. apply lastn_map'. Qed.

(** The histories of the three streams. *)
Section Three.
Variables u v : R.
Variable ops : list (op (R * R)).
Let l := since_clear ops.
Let X := map (op_map fst) ops.
Let Y := map (op_map snd) ops.
Let Z := map (op_map (fun p => u * fst p + v * snd p)) ops.
Lemma sX : since_clear X = map fst l. Proof. apply since_clear_op_map. Qed.
Lemma sY : since_clear Y = map snd l. Proof. apply since_clear_op_map. Qed.
Lemma sZ : since_clear Z = map (mix u v) l. Proof. apply since_clear_op_map. Qed.
End Three.

Lemma map_ne {A B} (f : A -> B) l : l <> [] -> map f l <> [].
Proof. destruct l; [congruence|discriminate]. Qed.
Lemma lastn_ne {A} W (l : list A) : (0 < W)%nat -> l <> [] -> lastn W l <> [].
Proof.
  intros HW H E. apply (f_equal (@length A)) in E. unfold lastn in E. rewrite skipn_length in E. pose proof (len_pos l H). cbn in E. lia.
Qed.

(** @prop C120_superposition: the means of all filters and the trend are linear: with
    [u x + v y] they report [u] times what they report for [x] plus [v] times what they
    report for [y], for every history of pairs (x, y) of which one filter is given the
    first, one the second member and one the combination. *)
Lemma c120_superposition : forall (eps u v f : R) (W : nat) (ops : list (op (R * R))),
  (0 < W)%nat -> (2 * N.of_nat W < szmod)%N -> 0 < f <= 1 -> fits (since_clear ops) -> since_clear ops <> [] ->
  let X := map (op_map fst) ops in
  let Y := map (op_map snd) ops in
  let Z := map (op_map (fun p => u * fst p + v * snd p)) ops in
  let superposed (report : list (op R) -> xreal) :=
    exists a b, report X = Fin a /\ report Y = Fin b /\ report Z = Fin (u * a + v * b) in
  superposed (fun h => cmean_mean _ (run_cmean eps h)) /\
  superposed (fun h => wmean_mean _ (run_wmean eps W h)) /\
  superposed (fun h => imean_mean _ (N.of_nat W) (run_imean eps W h)) /\
  superposed (fun h => dmean_mean _ (run_dmean eps f h)) /\
  superposed (fun h => ctrend_value _ (run_ctrend eps h)).
Proof.
  intros eps u v f W ops HW HW2 Hf Hfit NE X Y Z superposed. set (l := since_clear ops) in *.
  assert (EX : since_clear X = map fst l) by apply sX. assert (EY : since_clear Y = map snd l) by apply sY.
  assert (EZ : since_clear Z = map (mix u v) l) by apply sZ.
  assert (FX : fits (since_clear X)) by (rewrite EX; unfold fits in *; rewrite map_length; exact Hfit).
  assert (FY : fits (since_clear Y)) by (rewrite EY; unfold fits in *; rewrite map_length; exact Hfit).
  assert (FZ : fits (since_clear Z)) by (rewrite EZ; unfold fits in *; rewrite map_length; exact Hfit).
  assert (NX : since_clear X <> []) by (rewrite EX; apply map_ne; exact NE).
  assert (NY : since_clear Y <> []) by (rewrite EY; apply map_ne; exact NE).
  assert (NZ : since_clear Z <> []) by (rewrite EZ; apply map_ne; exact NE).
  assert (HW1 : (N.of_nat W < szmod)%N) by lia.
  unfold superposed. split; [|split; [|split; [|split]]].
  - assert (G : forall o, fits (since_clear o) -> since_clear o <> [] -> cmean_mean _ (run_cmean eps o) = Fin (mean (since_clear o))).
    { intros o F N. destruct (c01 eps o F) as (_ & _ & H & _). apply H. exact N. }
    exists (mean (map fst l)), (mean (map snd l)). rewrite !G by assumption. rewrite EX, EY, EZ, mean_mix. auto.
  - assert (G : forall o, since_clear o <> [] -> wmean_mean _ (run_wmean eps W o) = Fin (mean (lastn W (since_clear o)))).
    { intros o N. destruct (c15 eps W o HW HW1) as (_ & H & _). apply H. apply lastn_ne; assumption. }
    exists (mean (map fst (lastn W l))), (mean (map snd (lastn W l))). rewrite !G by assumption. rewrite EX, EY, EZ, !lastn_map', mean_mix. auto.
  - assert (G : forall o, let h := since_clear o in let w := N.of_nat W in let s := card (cur_block W h) in
      ((0 < length h <= W)%nat -> imean_mean _ w (run_imean eps W o) = Fin (mean h)) /\
      ((W < length h)%nat -> imean_mean _ w (run_imean eps W o) = Fin ((mean (prev_block W h) * (INR W - s) + mean (cur_block W h) * (2 * s)) / (INR W + s)))).
    { intros o h w s. destruct (c24 eps W o _ HW HW2 (or_introl eq_refl)) as (_ & H1 & H2 & _). split; assumption. }
    assert (L : (0 < length l)%nat) by (apply len_pos; exact NE).
    destruct (G X) as [X1 X2]. destruct (G Y) as [Y1 Y2]. destruct (G Z) as [Z1 Z2]. clear G.
    rewrite EX in X1, X2. rewrite EY in Y1, Y2. rewrite EZ in Z1, Z2. rewrite map_length in X1, X2, Y1, Y2, Z1, Z2.
    rewrite cur_map, prev_map in X2, Y2, Z2. unfold card in X2, Y2, Z2. rewrite map_length in X2, Y2, Z2.
    destruct (Nat.le_gt_cases (length l) W) as [C|C].
    + rewrite X1, Y1, Z1 by lia. do 2 eexists. split; [reflexivity|]. split; [reflexivity|]. rewrite mean_mix. reflexivity.
    + rewrite X2, Y2, Z2 by lia. do 2 eexists. split; [reflexivity|]. split; [reflexivity|]. rewrite !mean_mix. f_equal. unfold Rdiv. ring.
  - assert (G : forall o, since_clear o <> [] -> dmean_mean _ (run_dmean eps f o) = Fin (ewma f (since_clear o))).
    { intros o N. destruct (c31 eps f 1 1 1 o Hf) as (m & E & _ & _ & _ & H & _). rewrite E. f_equal. apply H. exact N. }
    exists (ewma f (map fst l)), (ewma f (map snd l)). rewrite !G by assumption. rewrite EX, EY, EZ. split; [reflexivity|]. split; [reflexivity|].
    unfold ewma. rewrite esum_mix, !map_map. f_equal. unfold Rdiv. ring.
  - assert (G : forall o, fits (since_clear o) -> ctrend_value _ (run_ctrend eps o) = Fin (3 * mean (since_clear o) - 2 * mean (running_means (since_clear o)))).
    { intros o F. apply (c10 eps o F). }
    do 2 eexists. rewrite !G by assumption. split; [reflexivity|]. split; [reflexivity|]. rewrite EX, EY, EZ. f_equal.
    assert (R : running_means (map (mix u v) l) = map (mix u v) (combine (running_means (map fst l)) (running_means (map snd l)))) by exact (running_mix u v l []).
    rewrite R, !mean_mix. destruct (combine_split' (running_means (map fst l)) (running_means (map snd l))) as [E1 E2].
    { unfold running_means. rewrite !running_length, !map_length. reflexivity. }
    rewrite E1, E2. ring.
Qed.

(** @ex C120_superposition_ex: windows of 2 and factor 1/2 with 2 x - y for three pairs
    after a clear. *)
Lemma c120_superposition_ex :
  let ops := [Push (9, 9); Clear; Push (1, 2); Push (3, 0); Push (5, 4)] in
  (0 < 2)%nat /\ (2 * N.of_nat 2 < szmod)%N /\ 0 < 1 / 2 <= 1 /\ fits (since_clear ops) /\ since_clear ops <> [] /\
  since_clear (map (op_map (fun p => 2 * fst p + -1 * snd p)) ops) = [0; 6; 6].
Proof.
  cbv zeta. split; [lia|]. split; [reflexivity|]. split; [lra|]. split; [reflexivity|]. split; [discriminate|].
  cbn. repeat (apply (f_equal2 (@cons R)); [lra|]). reflexivity.
Qed.

(** @prop C120_regression: the fitted line is linear in y: with the same positions [x] and
    values [u y + v z], slope() and at() are the combinations of those for [y] and [z]. *)
Lemma c120_regression : forall (eps u v : R) (ops : list (op (R * (R * R)))),
  fits (since_clear ops) -> since_clear ops <> [] ->
  let Y := map (op_map (fun p => (fst p, fst (snd p)))) ops in
  let Z := map (op_map (fun p => (fst p, snd (snd p)))) ops in
  let C := map (op_map (fun p => (fst p, u * fst (snd p) + v * snd (snd p)))) ops in
  let superposed (report : list (op (R * R)) -> xreal) :=
    exists a b, report Y = Fin a /\ report Z = Fin b /\ report C = Fin (u * a + v * b) in
  superposed (fun h => creg_slope _ (run_creg eps h)) /\
  forall p, superposed (fun h => creg_at _ (run_creg eps h) (Fin p)).
Proof.
  intros eps u v ops Hfit NE Y Z C superposed. set (l := since_clear ops) in *.
  assert (G : forall g : R * (R * R) -> R * R, let h := map (op_map g) ops in
    creg_slope _ (run_creg eps h) = Fin (ls_slope (map g l)) /\
    forall p, creg_at _ (run_creg eps h) (Fin p) = Fin (ls_intercept (map g l) + ls_slope (map g l) * p)).
  { intros g h. destruct (creg_obs eps h) as (_ & E1 & E2).
    - unfold h, fits in *. rewrite since_clear_op_map, map_length. exact Hfit.
    - unfold h. rewrite since_clear_op_map. apply map_ne. exact NE.
    - unfold h in *. rewrite since_clear_op_map in E1, E2. split; assumption. }
  destruct (G (fun p => (fst p, fst (snd p)))) as [Y1 Y2]. destruct (G (fun p => (fst p, snd (snd p)))) as [Z1 Z2].
  destruct (G (fun p => (fst p, u * fst (snd p) + v * snd (snd p)))) as [C1 C2]. fold Y in Y1, Y2. fold Z in Z1, Z2. fold C in C1, C2. clear G.
  set (ly := map (fun p => (fst p, fst (snd p))) l) in *. set (lz := map (fun p => (fst p, snd (snd p))) l) in *.
  set (lc := map (fun p => (fst p, u * fst (snd p) + v * snd (snd p))) l) in *.
  assert (XC : xs ly = map fst l /\ xs lz = map fst l /\ xs lc = map fst l) by (unfold xs, ly, lz, lc; rewrite !map_map; auto).
  destruct XC as (Xy & Xz & Xc).
  assert (YS : ys ly = map fst (map snd l) /\ ys lz = map snd (map snd l) /\ ys lc = map (mix u v) (map snd l)) by (unfold ys, ly, lz, lc; rewrite !map_map; auto).
  destruct YS as (Yy & Yz & Yc).
  assert (MC : mean (ys lc) = u * mean (ys ly) + v * mean (ys lz)) by (rewrite Yy, Yz, Yc; apply mean_mix).
  assert (CC : cosum lc = u * cosum ly + v * cosum lz).
  { unfold cosum. rewrite Xy, Xz, Xc, MC. generalize (mean (map fst l)) (mean (ys ly)) (mean (ys lz)). intros a b c. unfold ly, lz, lc.
    clear. induction l as [|p l IH]; [cbn; ring|]. cbn [map Rsum fst snd]. rewrite IH. ring. }
  assert (SL : ls_slope lc = u * ls_slope ly + v * ls_slope lz).
  { unfold ls_slope. rewrite Xy, Xz, Xc, CC. destruct (Req_EM_T _ 0); [ring|]. field. assumption. }
  split.
  - exists (ls_slope ly), (ls_slope lz). rewrite Y1, Z1, C1, SL. auto.
  - intros p. exists (ls_intercept ly + ls_slope ly * p), (ls_intercept lz + ls_slope lz * p). rewrite Y2, Z2, C2.
    split; [reflexivity|]. split; [reflexivity|]. f_equal. unfold ls_intercept. rewrite SL, MC, Xy, Xz, Xc. ring.
Qed.

(** @ex C120_regression_ex: three positions with two sets of values; one set is on
    a line, the other is not. *)
Lemma c120_regression_ex :
  let ops := [Push (9, (9, 9)); Clear; Push (0, (1, 5)); Push (1, (3, 2)); Push (2, (5, 7))] in
  let slope := fun g : R * (R * R) -> R => let l := map (fun p => (fst p, g p)) (since_clear ops) in covariance l / variance (xs l) in
  fits (since_clear ops) /\ since_clear ops <> [] /\
  slope (fun p => fst (snd p)) = 2 /\ slope (fun p => snd (snd p)) = 1 /\ slope (fun p => 3 * fst (snd p) + -1 * snd (snd p)) = 5.
Proof.
  cbv zeta. split; [reflexivity|]. split; [discriminate|].
  assert (E : forall a b c, covariance [(0, a); (1, b); (2, c)] / variance (xs [(0, a); (1, b); (2, c)]) = (c - a) / 2).
  { intros a b c. unfold covariance, variance, csum, cosum, xs, ys, mean, card. cbn. field. }
  match goal with |- context [since_clear ?x] => change (since_clear x) with [(0, (1, 5)); (1, (3, 2)); (2, (5, 7))] end.
  cbn [map fst snd]. rewrite !E. lra.
Qed.
