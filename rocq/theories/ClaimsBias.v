(** * Claim C106: what the variances of interim and decay filters estimate *)

From Coq Require Import Reals ZArith NArith List Bool.
From Verif Require Import Arith History SpecStats SpecExpectation SpecDecay Interim Decay ExactRuns InterimRuns DecayRuns.
Import ListNotations.
Local Open Scope R_scope.
(* @end-header *)
From Coq Require Import Lia Lra Psatz.
From Verif Require Import SpecNoise SpecBlocks HistoryLemmas StatsLemmas BlockLemmas InterimStats DecayProofs ExpectationProofs NoiseProofs
  ClaimsInterim ClaimsDecay ClaimsUnbiased ClaimsNoise.

(** ** Interim *)

Lemma each_firstn {A} k : forall (Ds : list (dist A)) f, Forall probability Ds ->
  expect_each Ds (fun l => f (firstn k l)) = expect_each (firstn k Ds) f.
Proof.
  induction k as [|k IH]; intros Ds f H.
  - cbn. apply each_const; exact H.
  - destruct Ds as [|D Ds]; [reflexivity|]. cbn. inversion H; subst. apply expect_ext. intros x.
    apply (IH Ds (fun l => f (x :: l))). assumption.
Qed.

Lemma sample_firstn {A} (D : dist A) n k f : probability D -> (k <= n)%nat ->
  expect_sample D n (fun l => f (firstn k l)) = expect_sample D k f.
Proof.
  intros HP Hk. unfold expect_sample. rewrite each_firstn by (apply each_prob; exact HP).
  rewrite firstn_repeat, Nat.min_l by exact Hk. reflexivity.
Qed.

Lemma sample_variance_biased D n : probability D -> (0 < n)%nat ->
  expect_sample D n variance = (INR n - 1) / INR n * pop_variance D.
Proof.
  intros HP Hn. assert (P : INR n <> 0) by (apply not_0_INR; lia). unfold expect_sample.
  rewrite (each_ext _ variance (fun l => / INR n * csum 2 l)).
  - rewrite each_scal. fold (expect_sample D n (csum 2)). rewrite sample_csum by assumption. field. exact P.
  - intros l Hl. rewrite repeat_length in Hl. unfold variance, card. rewrite Hl. unfold Rdiv. ring.
Qed.

(** @prop C106_interim: n independent observations after a clear(), more than W of
    them, s in the current block: the expected value of variance() of the interim
    filter is the variance of the distribution times the weighted average, with
    weights (W-s+1)^2 and 2(s-1), of (W-1)/W and (s-1)/s; with up to W
    observations it is (n-1)/n times the variance. *)
Lemma c106_interim : forall (eps : R) (D : dist R) (n W : nat) (h : list (op R)),
  probability D -> (0 < n)%nat -> (0 < W)%nat -> (N.of_nat W <= 4294967296)%N ->
  let out l := ivar_variance _ (N.of_nat W) (run_ivar eps W (h ++ Clear :: pushes l)) in
  let s := INR ((n - 1) mod W + 1) in
  let wp := (INR W - s + 1) ^ 2 in
  let wa := 2 * (s - 1) in
  ((n <= W)%nat -> expected (repeat D n) out ((INR n - 1) / INR n * pop_variance D)) /\
  ((W < n)%nat -> expected (repeat D n) out
    ((wp * ((INR W - 1) / INR W) + wa * ((s - 1) / s)) / (wp + wa) * pop_variance D)).
Proof.
  intros eps D n W h HP Hn HW HW2 out s wp wa.
  assert (NE : forall l : list R, length l = n -> l <> []) by (intros l Hl ->; cbn in Hl; lia).
  split; intros LW.
  - exists variance. rewrite repeat_length. split; [|apply (sample_variance_biased D n HP Hn)].
    intros l Hl. destruct (c25 eps W (h ++ Clear :: pushes l) (out l) HW HW2) as (H & _).
    + rewrite since_cleared. apply NE; exact Hl.
    + left. reflexivity.
    + rewrite since_cleared in H. apply H. lia.
  - set (k := ((n - 1) mod W + 1)%nat) in *.
    assert (Hk : (0 < k <= W)%nat) by (unfold k; pose proof (Nat.mod_upper_bound (n - 1) W ltac:(lia)); lia).
    assert (HkW : (W + k <= n)%nat).
    { unfold k. pose proof (Nat.div_mod_eq (n - 1) W) as E.
      assert (1 <= (n - 1) / W)%nat by (apply Nat.div_le_lower_bound; lia). nia. }
    exists (fun l => wp / (wp + wa) * (fun l => variance (lastn W l)) (firstn (n - k) l) + wa / (wp + wa) * variance (lastn k l)).
    assert (P : 0 < wp).
    { unfold wp. apply pow_lt. unfold s. pose proof (le_INR k W ltac:(lia)). lra. }
    assert (Q : 0 <= wa) by (unfold wa, s; pose proof (le_INR 1 k ltac:(lia)); cbn in H; lra).
    rewrite repeat_length. split.
    + intros l Hl. destruct (c25 eps W (h ++ Clear :: pushes l) (out l) HW HW2) as (_ & H & _).
      * rewrite since_cleared. apply NE; exact Hl.
      * left. reflexivity.
      * rewrite since_cleared in H. destruct (H ltac:(lia)) as (E & _). rewrite E.
        assert (Lc : length (cur_block W l) = k) by (rewrite cur_len, Hl; fold k; lia).
        unfold card. rewrite Lc. fold s. fold wp wa. f_equal.
        unfold prev_block. rewrite Lc. unfold cur_block. rewrite Hl. fold k. field. lra.
    + rewrite each_plus, !each_scal.
      pose proof (sample_firstn D n (n - k) (fun l => variance (lastn W l)) HP ltac:(lia)) as E1.
      rewrite sample_lastn, Nat.min_l, sample_variance_biased in E1 by (try exact HP; lia).
      pose proof (sample_lastn D n k variance HP) as E2.
      rewrite Nat.min_l, sample_variance_biased in E2 by (try exact HP; lia).
      unfold expect_sample in E1, E2. rewrite E1, E2. fold s. unfold Rdiv. ring.
Qed.

(** @ex C106_interim_ex: window of four values, six observations: weights 9 and 2. *)
Lemma c106_interim_ex :
  let D := [(/ 2, 1); (/ 4, 3); (/ 4, 4)] in
  probability D /\ (4 < 6)%nat /\ (N.of_nat 4 <= 4294967296)%N /\ ((6 - 1) mod 4 + 1 = 2)%nat.
Proof. cbn zeta. split; [apply c100_mean_ex|]. split; [lia|]. split; [cbn; lia|reflexivity]. Qed.

(** ** Decay *)

(** Expected squared deviation, relative to the variance of the distribution, of
    the i-th observation from the weighted mean. *)
Definition gain (f : R) (i : nat) : R := 1 - f * (3 - 2 * f - (1 - f) ^ i) / ((2 - f) * (1 - (1 - f) ^ i)).

Lemma nth_deviations_from f : forall l pre i, (i < length l)%nat ->
  nth i (deviations_from f pre l) 0 = nth i l 0 - ewma f (pre ++ firstn (S i) l).
Proof.
  induction l as [|x l IH]; intros pre i Hi; [cbn in Hi; lia|]. cbn [deviations_from]. destruct i as [|i]; [reflexivity|].
  cbn [nth]. rewrite IH by (cbn in Hi; lia). rewrite <- app_assoc. reflexivity.
Qed.
Lemma deviations_len f l pre : length (deviations_from f pre l) = length l.
Proof. revert pre. induction l as [|x l IH]; intros pre; cbn; [reflexivity|]. rewrite IH. reflexivity. Qed.

Lemma esum_snoc q l x : esum q (l ++ [x]) = q * esum q l + x.
Proof. induction l as [|y l IH]; cbn; [ring|]. rewrite IH, app_length, Nat.add_1_r. cbn [pow]. ring. Qed.

Lemma lin_deviation f i : 0 < f <= 1 -> lin (S i) (fun l => nth i l 0 - ewma f l) (gain f (S i)).
Proof.
  intros Hf. set (q := 1 - f). assert (Hq : 0 <= q < 1) by (unfold q; lra).
  pose proof (pow_lt1 q (S i) Hq ltac:(lia)) as Q.
  set (a := f / (1 - q ^ S i)).
  apply (lin_ext _ _ (fun l => (fun l => - (a * q) * esum q l) (firstn i l) + (fun l => (1 - a) * Rsum l) (skipn i l))).
  - intros l Hl.
    assert (E : l = firstn i l ++ [nth i l 0]).
    { clear - Hl. revert l Hl. induction i as [|i IH]; intros [|x l] Hl; cbn in *; try discriminate.
      - destruct l; [reflexivity|discriminate].
      - f_equal. apply IH. congruence. }
    assert (Es : skipn i l = [nth i l 0]).
    { clear - Hl. revert l Hl. induction i as [|i IH]; intros [|x l] Hl; cbn in *; try discriminate.
      - destruct l; [reflexivity|discriminate].
      - apply IH. congruence. }
    rewrite Es. set (x := nth i l 0) in *. set (l' := firstn i l) in *.
    unfold ewma. fold q. pose proof (geo1 q l) as G. rewrite Hl in G.
    set (e := esum q (map (fun _ => 1) l)) in *. replace (1 - q) with f in G by (unfold q; ring).
    assert (E0 : e <> 0) by (intros E0; rewrite E0 in G; lra).
    rewrite E, esum_snoc. unfold a. rewrite <- G. cbn [Rsum]. field. split; lra.
  - replace (gain f (S i)) with (- (a * q) * - (a * q) * Rsum (map (fun j => q ^ j * q ^ j) (seq 0 i)) + (1 - a) * (1 - a) * INR 1).
    + apply (lin_split (S i) i (fun l => - (a * q) * esum q l) (fun l => (1 - a) * Rsum l)); [lia| |].
      * apply lin_scal, lin_esum.
      * replace (S i - i)%nat with 1%nat by lia. apply lin_scal, lin_sum.
    + unfold gain. fold q. pose proof (geo2 q i) as G. set (s := Rsum _) in *. unfold a. cbn [pow INR] in *. set (z := q ^ i) in *.
      destruct (Req_dec q 0) as [Z|Z].
      * assert (F1 : f = 1) by (unfold q in Z; lra). rewrite Z, F1. field. 
      * replace (1 - q * q) with (f * (2 - f)) in G by (unfold q; ring).
        replace s with ((1 - z * z) / (f * (2 - f))) by (rewrite <- G; field; lra).
        replace f with (1 - q) by (unfold q; ring). field. unfold q in *. repeat split; lra.
Qed.

Lemma each_weighted (Ds : list (dist R)) (g : nat -> list R -> R) (v : nat -> R) : Forall probability Ds -> forall (w : list R) k,
  (forall i, (k <= i < k + length w)%nat -> expect_each Ds (g i) = v i) ->
  expect_each Ds (fun l => dot w (map (fun i => g i l) (seq k (length w)))) = dot w (map v (seq k (length w))).
Proof.
  intros HP. induction w as [|a w IH]; intros k H; cbn [length seq map dot]; [apply each_const; exact HP|].
  rewrite each_plus, each_scal, (H k) by (cbn; lia). rewrite IH; [reflexivity|]. intros i Hi. apply H. cbn. lia.
Qed.

Lemma ewma_dot f n : exists w, length w = n /\ forall l, length l = n -> ewma f l = dot w l.
Proof.
  destruct (linear_esum (1 - f) n) as (w & Lw & Hw).
  destruct (linear_scal n (/ esum (1 - f) (repeat 1 n)) (esum (1 - f)) (ex_intro _ w (conj Lw Hw))) as (w' & Lw' & Hw').
  exists w'. split; [exact Lw'|]. intros l Hl. rewrite <- Hw' by exact Hl. unfold ewma.
  replace (map (fun _ => 1) l) with (repeat 1 n); [unfold Rdiv; ring|].
  clear - Hl. revert n Hl. induction l as [|x l IH]; intros n Hl; cbn in *; subst; [reflexivity|]. cbn. f_equal. apply IH. reflexivity.
Qed.

Lemma sample_deviation D n f i : probability D -> 0 < f <= 1 -> (i < n)%nat ->
  expect_sample D n (fun l => (nth i (deviations f l) 0) ^ 2) = gain f (S i) * pop_variance D.
Proof.
  intros HP Hf Hi. unfold expect_sample.
  pose proof (each_firstn (S i) (repeat D n) (fun l => (nth i l 0 - ewma f l) ^ 2) (each_prob D n HP)) as EF.
  rewrite firstn_repeat, Nat.min_l in EF by lia.
  etransitivity; [|etransitivity; [exact EF|]]; clear EF; [apply each_ext|].
  2: {
    pose proof (lin_deviation f i Hf) as L.
    destruct (noise_lin (repeat D (S i)) (fun l => Fin (nth i l 0 - ewma f l)) _ (gain f (S i)) (pop_variance D) 0
      (each_prob D (S i) HP) (same_variance D (S i)) (fun l _ => eq_refl)) as (g & Hg & Em & Ev).
    + rewrite repeat_length. exact L.
    + replace (map pop_mean (repeat D (S i))) with (repeat (pop_mean D) (S i)) by (clear; induction (S i); cbn; congruence).
      assert (C : ewma f (repeat (pop_mean D) (S i)) = pop_mean D).
      { destruct (c31 1 f f f f (pushes (repeat (pop_mean D) (S i))) Hf) as (m & H & _ & _ & _ & E & _ & Hr).
        rewrite since_clear_pushes in E, Hr.
        assert (NE : repeat (pop_mean D) (S i) <> []) by discriminate.
        assert (HB : pop_mean D <= m <= pop_mean D).
        { apply Hr; [exact NE|]. intros x Hx. apply repeat_spec in Hx. subst. lra. }
        rewrite <- E by exact NE. lra. }
      rewrite C. assert (N : forall k j c, (j < k)%nat -> nth j (repeat c k) 0 = c).
      { clear. induction k as [|k IH]; intros j c Hj; [lia|]. destruct j; [reflexivity|]. cbn. apply IH. lia. }
      rewrite N by lia. ring.
    + rewrite <- Ev. apply each_ext. intros l Hl. specialize (Hg l Hl). injection Hg as <-. ring. }
  intros l Hl. rewrite repeat_length in Hl. unfold deviations. rewrite nth_deviations_from by lia. cbn [app].
    rewrite <- (firstn_skipn (S i) l) at 1. rewrite app_nth1 by (rewrite firstn_length; lia). reflexivity.
Qed.

Lemma sample_emoment D n fm fv : probability D -> 0 < fm <= 1 -> 
  expect_sample D n (emoment 2 fm fv) = pop_variance D * ewma fv (map (gain fm) (seq 1 n)).
Proof.
  intros HP Hf. destruct (ewma_dot fv n) as (w & Lw & Hw).
  unfold expect_sample.
  rewrite (each_ext _ _ (fun l => dot w (map (fun i => (nth i (deviations fm l) 0) ^ 2) (seq 0 (length w))))).
  - rewrite (each_weighted _ (fun i l => (nth i (deviations fm l) 0) ^ 2) (fun i => gain fm (S i) * pop_variance D)).
    + rewrite Hw by (rewrite map_length, seq_length; reflexivity). rewrite <- seq_shift, map_map, Lw.
      clear. generalize (seq 0 n) as t. induction w as [|a w IH]; intros [|i t]; cbn; try ring. rewrite IH. ring.
    + apply each_prob; exact HP.
    + intros i Hi. apply (sample_deviation D n fm i HP Hf). lia.
  - intros l Hl. rewrite repeat_length in Hl. unfold emoment.
    rewrite Hw by (unfold deviations; rewrite map_length, deviations_len; exact Hl). f_equal. rewrite Lw, <- Hl.
    rewrite <- (deviations_len fm l []). fold (deviations fm l). generalize (deviations fm l) as t. clear.
    intros t. induction t as [|d t IH] using rev_ind; [reflexivity|].
    rewrite app_length, Nat.add_1_r, seq_S, !map_app. cbn [map plus]. f_equal.
    + rewrite IH. apply map_ext_in. intros i Hi. apply in_seq in Hi. rewrite app_nth1 by lia. reflexivity.
    + rewrite app_nth2 by lia. rewrite Nat.sub_diag. reflexivity.
Qed.

Lemma gain_below f i : 0 < f <= 1 -> (0 < i)%nat -> 0 <= gain f i <= 2 * (1 - f) ^ 2 / (2 - f).
Proof.
  intros Hf Hi. pose proof (pow_lt1 (1 - f) i ltac:(lra) Hi) as Q.
  assert (G : 0 <= gain f i).
  { destruct i as [|i]; [lia|]. destruct (lin_deviation f i Hf) as (w & _ & E & _). rewrite <- E. apply energy_nonneg. }
  split; [exact G|]. unfold gain. set (z := (1 - f) ^ i) in *.
  apply Rmult_le_reg_r with ((2 - f) * (1 - z)); [apply Rmult_lt_0_compat; lra|].
  replace ((1 - f * (3 - 2 * f - z) / ((2 - f) * (1 - z))) * ((2 - f) * (1 - z))) with ((2 - f) * (1 - z) - f * (3 - 2 * f - z)) by (field; lra).
  replace (2 * (1 - f) ^ 2 / (2 - f) * ((2 - f) * (1 - z))) with (2 * (1 - f) ^ 2 * (1 - z)) by (field; lra).
  assert (0 <= f * (1 - f) * z) by (apply Rmult_le_pos; [nra|lra]). nra.
Qed.

(** @prop C106_decay: n independent observations pushed to a new decay filter: the
    expected value of variance() is the variance of the distribution times the
    weighted mean, with the factor of the variance, of the numbers
    1 - f (3-2f-(1-f)^i) / ((2-f) (1-(1-f)^i)), where f is the factor of the mean
    and i = 1 .. n. *)
Lemma c106_decay : forall (eps : R) (D : dist R) (n : nat) (f fv : R),
  0 < eps -> probability D -> (0 < n)%nat -> 0 < f <= 1 -> 0 < fv <= 1 ->
  expected (repeat D n) (fun l => dvar_variance _ (run_dvar eps f fv (pushes l)))
    (pop_variance D * ewma fv (map (fun i => 1 - f * (3 - 2 * f - (1 - f) ^ i) / ((2 - f) * (1 - (1 - f) ^ i))) (seq 1 n))).
Proof.
  intros eps D n f fv He HP Hn Hf Hfv. exists (emoment 2 f fv). rewrite repeat_length. split.
  - intros l Hl. destruct (c32 eps f fv 1 1 l He Hf Hfv ltac:(lra) ltac:(lra)) as ((H & _) & _); [intros ->; cbn in Hl; lia|exact H].
  - apply (sample_emoment D n f fv HP Hf).
Qed.

(** @ex C106_decay_ex: both factors 1/2, three observations: the terms are 0, 2/9
    and 2/7. *)
Lemma c106_decay_ex :
  let f := / 2 in
  probability [(/ 2, 1); (/ 4, 3); (/ 4, 4)] /\ 0 < f <= 1 /\
  map (fun i => 1 - f * (3 - 2 * f - (1 - f) ^ i) / ((2 - f) * (1 - (1 - f) ^ i))) (seq 1 3) = [0; 2 / 9; 2 / 7].
Proof.
  cbn zeta. split; [apply c100_mean_ex|]. split; [lra|]. cbn [seq map pow]. repeat (f_equal; [lra|]). f_equal. lra.
Qed.

Lemma ewma_range f : 0 < f <= 1 -> forall l lo hi, l <> [] -> (forall x, In x l -> lo <= x <= hi) -> lo <= ewma f l <= hi.
Proof.
  intros Hf l lo hi NE H. destruct (c31 1 f f f f (pushes l) Hf) as (m & Hm & _ & _ & _ & E & _ & Hr).
  rewrite since_clear_pushes in E, Hr. rewrite <- E by exact NE. apply Hr; assumption.
Qed.

(** @prop C106_decay_low: hence variance() of a decay filter underestimates: its
    expected value never exceeds 2 (1-f)^2 / (2-f) times the variance of the
    distribution, however many observations. *)
Lemma c106_low : forall (eps : R) (D : dist R) (n : nat) (f fv : R),
  0 < eps -> probability D -> (0 < n)%nat -> 0 < f <= 1 -> 0 < fv <= 1 ->
  exists v, expected (repeat D n) (fun l => dvar_variance _ (run_dvar eps f fv (pushes l))) v /\
    0 <= v <= 2 * (1 - f) ^ 2 / (2 - f) * pop_variance D.
Proof.
  intros eps D n f fv He HP Hn Hf Hfv. eexists. split; [apply c106_decay; eassumption|].
  fold (gain f).
  assert (V0 : 0 <= pop_variance D).
  { unfold pop_variance. apply Rle_trans with (expect D (fun _ => 0)); [rewrite expect_const by exact HP; lra|].
    apply expect_le; [exact HP|]. intros x. apply pow2_ge_0. }
  assert (E : 0 <= ewma fv (map (gain f) (seq 1 n)) <= 2 * (1 - f) ^ 2 / (2 - f)).
  { apply ewma_range; [exact Hfv|destruct n; [lia|discriminate]|].
    intros x Hx. apply in_map_iff in Hx. destruct Hx as (i & <- & Hi). apply in_seq in Hi. apply gain_below; [exact Hf|lia]. }
  change (fun i => 1 - f * (3 - 2 * f - (1 - f) ^ i) / ((2 - f) * (1 - (1 - f) ^ i))) with (gain f).
  split; [apply Rmult_le_pos; lra|]. rewrite Rmult_comm. apply Rmult_le_compat_r; lra.
Qed.

(** @ex C106_decay_low_ex: with factor 1/2 at most a third of the variance. *)
Lemma c106_low_ex :
  probability [(/ 2, 1); (/ 4, 3); (/ 4, 4)] /\ (0 < 1000)%nat /\ 0 < / 2 <= 1 /\ 2 * (1 - / 2) ^ 2 / (2 - / 2) = / 3.
Proof. split; [apply c100_mean_ex|]. split; [lia|]. split; [lra|]. cbn. lra. Qed.

Lemma esum_app q a b : esum q (a ++ b) = q ^ length b * esum q a + esum q b.
Proof. induction a as [|x a IH]; cbn; [ring|]. rewrite IH, app_length, pow_add. ring. Qed.

Lemma ones_len {A B} (a : list A) (b : list B) : length a = length b -> map (fun _ => 1) a = map (fun _ => 1) b.
Proof. revert b. induction a as [|x a IH]; intros [|y b] H; cbn in *; try discriminate; [reflexivity|]. f_equal. apply IH. congruence. Qed.

Lemma ewma_tail f A B b : 0 < f <= 1 -> B <> [] -> 0 <= b -> (forall x, In x A -> 0 <= x) -> (forall x, In x B -> b <= x) ->
  b * (1 - (1 - f) ^ length B) <= ewma f (A ++ B).
Proof.
  intros Hf NB Hb HA HB. set (q := 1 - f). assert (Hq : 0 <= q < 1) by (unfold q; lra).
  assert (LB : (0 < length B)%nat) by (destruct B; [congruence|cbn; lia]).
  pose proof (pow_lt1 q (length B) Hq LB) as QB.
  assert (LN : (0 < length (A ++ B))%nat) by (rewrite app_length; lia).
  pose proof (pow_lt1 q _ Hq LN) as QN.
  pose proof (geo1 q (A ++ B)) as G. pose proof (geo1 q B) as GB. replace (1 - q) with f in G, GB by (unfold q; ring).
  assert (EA : 0 <= esum q A).
  { clear - HA Hq. induction A as [|x A IH]; [cbn; lra|]. cbn. apply Rplus_le_le_0_compat.
    - apply Rmult_le_pos; [apply pow_le; lra|apply HA; left; reflexivity].
    - apply IH. intros y Hy. apply HA. right. exact Hy. }
  assert (EB : b * esum q (map (fun _ => 1) B) <= esum q B).
  { clear - HB Hq. induction B as [|x B IH]; [cbn; lra|]. cbn [map esum]. rewrite map_length, Rmult_plus_distr_l.
    apply Rplus_le_compat.
    - pose proof (pow_le q (length B) (proj1 Hq)). specialize (HB x (or_introl eq_refl)). nra.
    - apply IH. intros y Hy. apply HB. right. exact Hy. }
  unfold ewma. fold q. set (e := esum q (map (fun _ => 1) (A ++ B))) in *. set (eb := esum q (map (fun _ => 1) B)) in *.
  assert (e0 : 0 < e) by (apply Rmult_lt_reg_l with f; lra).
  apply Rmult_le_reg_r with e; [exact e0|]. unfold Rdiv. rewrite (Rmult_assoc (esum q (A ++ B))), Rinv_l, Rmult_1_r by lra.
  rewrite esum_app. apply Rle_trans with (b * eb).
  - rewrite Rmult_assoc. apply Rmult_le_compat_l; [exact Hb|]. apply Rmult_le_reg_l with f; [lra|]. rewrite GB.
    replace (f * ((1 - q ^ length B) * e)) with ((1 - q ^ length B) * (f * e)) by ring. rewrite G. nra.
  - assert (0 <= q ^ length B * esum q A) by (apply Rmult_le_pos; lra). lra.
Qed.

(** @prop C106_decay_limit: the bound is sharp: with enough observations the
    expected value of variance() is as close to 2 (1-f)^2 / (2-f) times the
    variance of the distribution as desired. *)
Lemma c106_limit : forall (eps : R) (D : dist R) (f fv d : R),
  0 < eps -> probability D -> 0 < f <= 1 -> 0 < fv <= 1 -> 0 < d ->
  exists n0, forall n, (n0 <= n)%nat -> exists v,
    expected (repeat D n) (fun l => dvar_variance _ (run_dvar eps f fv (pushes l))) v /\
    2 * (1 - f) ^ 2 / (2 - f) * pop_variance D - d <= v.
Proof.
  intros eps D f fv d He HP Hf Hfv Hd.
  assert (V0 : 0 <= pop_variance D).
  { unfold pop_variance. apply Rle_trans with (expect D (fun _ => 0)); [rewrite expect_const by exact HP; lra|].
    apply expect_le; [exact HP|]. intros x. apply pow2_ge_0. }
  set (s2 := pop_variance D) in *. set (t := d / (s2 + 1)).
  assert (T0 : 0 < t) by (unfold t; apply Rdiv_lt_0_compat; lra).
  assert (T1 : t * s2 <= d).
  { unfold t, Rdiv. rewrite Rmult_assoc. rewrite <- (Rmult_1_r d) at 2. apply Rmult_le_compat_l; [lra|].
    apply Rmult_le_reg_l with (s2 + 1); [lra|]. rewrite <- Rmult_assoc, Rinv_r by lra. lra. }
  set (L := 2 * (1 - f) ^ 2 / (2 - f)).
  assert (HL : 0 <= L <= 1).
  { unfold L. split; [apply Rmult_le_pos; [pose proof (pow2_ge_0 (1 - f)); lra|apply Rlt_le, Rinv_0_lt_compat; lra]|].
    apply Rmult_le_reg_r with (2 - f); [lra|]. unfold Rdiv. rewrite Rmult_assoc, Rinv_l by lra. nra. }
  assert (M0 : 0 < Rmin (/ 2) (t / 4)) by (apply Rmin_glb_lt; lra).
  destruct (pow_lt_1_zero (1 - f) ltac:(rewrite Rabs_pos_eq; lra) _ M0) as [k Hk].
  destruct (pow_lt_1_zero (1 - fv) ltac:(rewrite Rabs_pos_eq; lra) (t / 4) ltac:(lra)) as [m Hm].
  assert (GK : forall i, (k < i)%nat -> L - t / 2 <= gain f i).
  { intros i Hi. specialize (Hk i ltac:(lia)). rewrite Rabs_pos_eq in Hk by (apply pow_le; lra).
    pose proof (Rmin_l (/ 2) (t / 4)). pose proof (Rmin_r (/ 2) (t / 4)).
    pose proof (pow_lt1 (1 - f) i ltac:(lra) ltac:(lia)) as Q. unfold gain, L. set (z := (1 - f) ^ i) in *.
    replace (1 - f * (3 - 2 * f - z) / ((2 - f) * (1 - z))) with
      (2 * (1 - f) ^ 2 / (2 - f) - 2 * f * (1 - f) / (2 - f) * (z / (1 - z))) by (field; lra).
    assert (A : 0 <= 2 * f * (1 - f) / (2 - f) <= 1).
    { split; [apply Rmult_le_pos; [nra|apply Rlt_le, Rinv_0_lt_compat; lra]|].
      apply Rmult_le_reg_r with (2 - f); [lra|]. unfold Rdiv. rewrite Rmult_assoc, Rinv_l by lra. nra. }
    assert (B : 0 <= z / (1 - z) <= t / 2).
    { split; [apply Rmult_le_pos; [lra|apply Rlt_le, Rinv_0_lt_compat; lra]|].
      apply Rmult_le_reg_r with (1 - z); [lra|]. unfold Rdiv at 1. rewrite Rmult_assoc, Rinv_l by lra. nra. }
    nra. }
  exists (S (k + m)). intros n Hn. eexists. split; [apply c106_decay; try eassumption; lia|].
  change (fun i => 1 - f * (3 - 2 * f - (1 - f) ^ i) / ((2 - f) * (1 - (1 - f) ^ i))) with (gain f). fold s2.
  assert (E : L - t <= ewma fv (map (gain f) (seq 1 n))).
  { destruct (Rle_dec (L - t / 2) 0) as [Neg|Pos].
    - assert (0 <= ewma fv (map (gain f) (seq 1 n)) <= L); [|lra].
      apply ewma_range; [exact Hfv|destruct n; [lia|discriminate]|].
      intros x Hx. apply in_map_iff in Hx. destruct Hx as (i & <- & Hi). apply in_seq in Hi. apply gain_below; [exact Hf|lia].
    - replace n with (k + (n - k))%nat by lia. rewrite seq_app, map_app.
      set (B := map (gain f) (seq (1 + k) (n - k))).
      assert (LB : length B = (n - k)%nat) by (unfold B; rewrite map_length, seq_length; reflexivity).
      apply Rle_trans with ((L - t / 2) * (1 - (1 - fv) ^ length B)).
      + rewrite LB. specialize (Hm (n - k)%nat ltac:(lia)). rewrite Rabs_pos_eq in Hm by (apply pow_le; lra).
        pose proof (pow_le (1 - fv) (n - k) ltac:(lra)). nra.
      + apply ewma_tail; [exact Hfv| |lra| |].
        * intros E. rewrite E in LB. cbn in LB. lia.
        * intros x Hx. apply in_map_iff in Hx. destruct Hx as (i & <- & Hi). apply in_seq in Hi. apply gain_below; [exact Hf|lia].
        * intros x Hx. apply in_map_iff in Hx. destruct Hx as (i & <- & Hi). apply in_seq in Hi. apply GK. lia. }
  nra.
Qed.

(** @ex C106_decay_limit_ex: factor 1/10, distance 1/100. *)
Lemma c106_limit_ex :
  0 < 1 /\ probability [(/ 2, 1); (/ 4, 3); (/ 4, 4)] /\ 0 < / 10 <= 1 /\ 0 < / 100 /\
  2 * (1 - / 10) ^ 2 / (2 - / 10) = 81 / 95.
Proof. split; [lra|]. split; [apply c100_mean_ex|]. split; [lra|]. split; [lra|]. cbn. lra. Qed.
