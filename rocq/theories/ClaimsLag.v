(** * Claim C107: how the filters follow a jump and a ramp *)

From Coq Require Import Reals ZArith NArith Bool List.
From Verif Require Import Arith History SpecStats SpecLine Cumulative Window Interim Decay Impulse
  ExactRuns WindowRuns InterimRuns DecayRuns ImpulseRuns.
Import ListNotations.
Local Open Scope R_scope.
(* @end-header *)
From Coq Require Import Lia Lra Psatz.
From Verif Require Import SpecBlocks SpecDecay SpecImpulse HistoryLemmas StatsLemmas CumulativeProofs
  WindowProofs BlockLemmas InterimStats InterimWindow DecayProofs Forgetting NoiseProofs
  ClaimsCumulative ClaimsWindow ClaimsInterim ClaimsDecay ClaimsImpulse ClaimsApproximation.

Lemma since_clear_more {A} (h : list (op A)) l : since_clear (h ++ pushes l) = since_clear h ++ l.
Proof.
  induction l as [|x l IH] using rev_ind; [unfold pushes; cbn; rewrite !app_nil_r; reflexivity|].
  unfold pushes in *. rewrite map_app, app_assoc. cbn [map]. rewrite since_clear_snoc_push, IH, app_assoc. reflexivity.
Qed.

Lemma lastn_suffix {A} W (l : list A) b k : (W <= k)%nat -> lastn W (l ++ repeat b k) = repeat b W.
Proof.
  intros H. unfold lastn. rewrite app_length, repeat_length.
  replace (length l + k - W)%nat with (length l + (k - W))%nat by lia.
  rewrite skipn_app, skipn_all2 by lia. replace (length l + (k - W) - length l)%nat with (k - W)%nat by lia. cbn [app].
  replace k with ((k - W) + W)%nat at 2 by lia. rewrite repeat_app, skipn_app, skipn_all2 by (rewrite repeat_length; lia).
  rewrite repeat_length, Nat.sub_diag. reflexivity.
Qed.

Lemma mean_rep b n : (0 < n)%nat -> mean (repeat b n) = b.
Proof. intros H. unfold mean, card. rewrite Rsum_repeat, repeat_length. field. apply not_0_INR. lia. Qed.

Lemma esum_rep q b k : (1 - q) * esum q (repeat b k) = (1 - q ^ k) * b.
Proof.
  induction k as [|k IH]; [cbn; ring|]. cbn [repeat esum]. rewrite repeat_length, Rmult_plus_distr_l, IH. cbn [pow]. ring.
Qed.

(** @prop C107_jump: the data jump to a new level b and stay there for k pushes,
    after p values of any kind with mean m (weighted mean, for decay) since the
    last clear. Cumulative mean(): b + p/(p+k) (m - b). Decay mean(), with
    q = 1 - f: b + q^k (1-q^p)/(1-q^(p+k)) (m - b). Window mean(): exactly b from k = W on,
    interim mean(): exactly b from k = 2W on. Finite impulse response: b times the
    sum of the coefficients from k = their number on. *)
Lemma c107_jump : forall (eps f b : R) (W k : nat) (c : list R) (h : list (op R)),
  let l := since_clear h in
  let p := length l in
  let ops := h ++ pushes (repeat b k) in
  (0 < p)%nat -> (0 < k)%nat -> (N.of_nat (p + k) < szmod)%N -> (0 < W)%nat -> (2 * N.of_nat W < szmod)%N ->
  0 < f <= 1 -> c <> [] ->
  (exists m, cmean_mean _ (run_cmean eps h) = Fin m /\
     cmean_mean _ (run_cmean eps ops) = Fin (b + INR p / INR (p + k) * (m - b))) /\
  (exists m, dmean_mean _ (run_dmean eps f h) = Fin m /\
     dmean_mean _ (run_dmean eps f ops) =
       Fin (b + (1 - f) ^ k * (1 - (1 - f) ^ p) / (1 - (1 - f) ^ (p + k)) * (m - b))) /\
  ((W <= k)%nat -> wmean_mean _ (run_wmean eps W ops) = Fin b) /\
  ((2 * W <= k)%nat -> imean_mean _ (N.of_nat W) (run_imean eps W ops) = Fin b) /\
  ((length c <= k)%nat -> fir_value _ (run_fir eps c ops) = Fin (b * Rsum c)).
Proof.
  intros eps f b W k c h l p ops Hp Hk Hn HW HW2 Hf Hc.
  assert (Eo : since_clear ops = l ++ repeat b k) by apply since_clear_more.
  assert (NE : l <> []) by (intros E; unfold p in Hp; rewrite E in Hp; cbn in Hp; lia).
  assert (NE' : l ++ repeat b k <> []) by (destruct l; [congruence|discriminate]).
  assert (LE : length (l ++ repeat b k) = (p + k)%nat) by (rewrite app_length, repeat_length; reflexivity).
  assert (Pp : 0 < INR p) by (apply lt_0_INR; exact Hp). assert (Pk : 0 < INR k) by (apply lt_0_INR; exact Hk).
  split; [|split; [|split; [|split]]].
  - exists (mean l). split.
    + destruct (c01 eps h) as (_ & _ & H & _); [unfold fits; fold l; fold p; lia|]. fold l in H. apply (H NE).
    + destruct (c01 eps ops) as (_ & _ & H & _); [unfold fits; rewrite Eo, LE; exact Hn|]. rewrite Eo in H.
      destruct (H NE') as [H' _]. etransitivity; [exact H'|]. f_equal.
      rewrite mean_of_app, Rsum_repeat. unfold mean, card. rewrite repeat_length. fold p. rewrite plus_INR. field. lra.
  - set (q := 1 - f). assert (Hq : 0 <= q < 1) by (unfold q; lra).
    pose proof (pow_lt1 q p Hq Hp) as Qp. pose proof (pow_lt1 q (p + k) Hq ltac:(lia)) as Qn.
    exists (ewma f l).
    assert (D : forall o, since_clear o <> [] -> dmean_mean _ (run_dmean eps f o) = Fin (ewma f (since_clear o))).
    { intros o No. destruct (c31 eps f f f f o Hf) as (m & Hm & _ & _ & _ & E & _). rewrite Hm, E by exact No. reflexivity. }
    split; [apply D; exact NE|]. rewrite D by (rewrite Eo; exact NE'). rewrite Eo. f_equal.
    unfold ewma. fold q. rewrite Forgetting.esum_app.
    pose proof (geo1 q (l ++ repeat b k)) as G. rewrite LE in G. pose proof (geo1 q l) as Gl. fold p in Gl.
    pose proof (esum_rep q b k) as Gb. rewrite repeat_length.
    replace (1 - q) with f in G, Gl, Gb by (unfold q; ring).
    set (e := esum q (map (fun _ => 1) (l ++ repeat b k))) in *. set (el := esum q (map (fun _ => 1) l)) in *.
    assert (e0 : e <> 0) by (intros E; rewrite E in G; lra).
    assert (el0 : el <> 0) by (intros E; rewrite E in Gl; lra).
    rewrite <- G, <- Gl. set (S := esum q l). set (B := esum q (repeat b k)) in *.
    assert (EB : B = (1 - q ^ k) * b / f) by (rewrite <- Gb; field; lra). rewrite EB.
    assert (Ee : e = q ^ k * el + (1 - q ^ k) / f).
    { apply Rmult_eq_reg_l with f; [|lra]. rewrite G, Rmult_plus_distr_l.
      replace (f * (q ^ k * el)) with (q ^ k * (f * el)) by ring. rewrite Gl, pow_add. field. lra. }
    replace ((1 - q ^ k) * b / f) with ((e - q ^ k * el) * b) by (rewrite Ee; field; lra).
    field. repeat split; lra.
  - intros L. destruct (c15 eps W ops HW ltac:(lia)) as (_ & H & _). rewrite Eo, lastn_suffix in H by exact L.
    destruct H as [H' _]; [destruct W; [lia|discriminate]|]. rewrite mean_rep in H' by exact HW. exact H'.
  - intros L. destruct (c24 eps W ops _ HW HW2 (or_introl eq_refl)) as (_ & _ & _ & H & _). rewrite Eo, lastn_suffix in H by exact L.
    destruct (H NE') as (r & E & R). rewrite E. f_equal. specialize (R b b).
    assert (F : Forall (fun x => b <= x <= b) (repeat b (2 * W))) by (apply Forall_forall; intros x Hx; apply repeat_spec in Hx; subst; lra).
    specialize (R F). lra.
  - intros L. rewrite c45 by (try exact Hc; rewrite Eo; exact NE'). f_equal. rewrite Eo, LE.
    unfold convolution, sumto.
    assert (E : map (fun i => nth i c 0 * back (l ++ repeat b k) (p + k - 1) i) (seq 0 (length c)) = map (fun x => b * x) c).
    { assert (Ec : c = map (fun i => nth i c 0) (seq 0 (length c))).
      { clear. induction c as [|x c IH]; [reflexivity|]. cbn [length seq map nth]. f_equal. rewrite <- seq_shift, map_map. exact IH. }
      transitivity (map (fun x => b * x) (map (fun i => nth i c 0) (seq 0 (length c)))); [|rewrite <- Ec; reflexivity].
      rewrite map_map. apply map_ext_in. intros i Hi. apply in_seq in Hi.
      unfold back. destruct (Nat.leb_spec i (p + k - 1)); [|lia].
      rewrite app_nth2 by (fold p; lia). fold p.
      assert (N : forall m j d, (j < m)%nat -> nth j (repeat d m) 0 = d).
      { clear. induction m as [|m IH]; intros j d Hj; [lia|]. destruct j; [reflexivity|]. cbn. apply IH. lia. }
      rewrite N by lia. ring. }
    rewrite E. clear. induction c as [|x c IH]; cbn; [ring|]. rewrite IH. ring.
Qed.

(** @ex C107_jump_ex: two values before the jump to 5, eight after it. *)
Lemma c107_jump_ex :
  let h := [Push 9; Clear; Push 1; Push 3] in
  length (since_clear h) = 2%nat /\ (0 < 8)%nat /\ (N.of_nat (2 + 8) < szmod)%N /\ (2 * 4 <= 8)%nat /\
  (2 * N.of_nat 4 < szmod)%N /\ 0 < / 2 <= 1 /\ [1; 2] <> [] /\ mean (since_clear h) = 2 /\ 5 + INR 2 / INR (2 + 8) * (2 - 5) = 22 / 5.
Proof.
  cbv zeta. split; [reflexivity|]. split; [lia|]. split; [reflexivity|]. split; [lia|]. split; [reflexivity|].
  split; [lra|]. split; [discriminate|]. split; [unfold mean, card; cbn; lra|cbn; lra].
Qed.

Lemma on_line_lastn a b k l : on_line a b l -> on_line (a + b * INR (length l - k)) b (lastn k l).
Proof.
  intros H i x E. unfold lastn in E.
  assert (E' : nth_error l (length l - k + i) = Some x).
  { clear - E. revert E. generalize (length l - k)%nat as m. revert i. induction l as [|y l IH]; intros i m E.
    - rewrite skipn_nil in E. destruct i; discriminate.
    - destruct m as [|m]; [exact E|]. cbn. apply IH. exact E. }
  rewrite (H _ _ E'), plus_INR. ring.
Qed.

Lemma mean_line a b l : on_line a b l -> l <> [] -> mean l = a + b * (card l - 1) / 2.
Proof. intros H NE. unfold mean. rewrite (Rsum_line b l a H). pose proof (card_pos l NE). field. lra. Qed.

Lemma esum_line f a b l : on_line a b l ->
  f * (f * esum (1 - f) l) = f * (1 - (1 - f) ^ length l) * (a + b * (INR (length l) - 1)) - b * ((1 - f) * (1 - (1 - f) ^ length l) - INR (length l) * f * (1 - f) ^ length l).
Proof.
  induction l as [|x l IH] using rev_ind; intros H; [cbn; ring|].
  assert (Hl : on_line a b l).
  { intros i y E. apply H. rewrite nth_error_app1; [exact E|]. apply nth_error_Some. congruence. }
  assert (Hx : x = a + b * INR (length l)) by (apply H; rewrite nth_error_app2, Nat.sub_diag by lia; reflexivity).
  rewrite Forgetting.esum_app. cbn [esum length pow]. rewrite app_length, Nat.add_1_r, S_INR, !Rmult_plus_distr_l.
  replace (f * (f * ((1 - f) * 1 * esum (1 - f) l))) with ((1 - f) * (f * (f * esum (1 - f) l))) by ring.
  rewrite (IH Hl), Hx. cbn [pow]. ring.
Qed.

(** @prop C107_ramp: the data grow by b from one value to the next, n of them since
    the last clear, x the latest: the cumulative mean() lags behind by b (n-1)/2,
    the window and interim mean() by b (min(n,W)-1)/2, the decay mean() by
    b ((1-f)/f - n (1-f)^n / (1-(1-f)^n)), and a finite impulse response with
    coefficients c_i reports x sum c_i - b sum i c_i once n reaches their number. *)
Lemma c107_ramp : forall (eps a b f : R) (W : nat) (c : list R) (ops : list (op R)),
  let l := since_clear ops in
  let n := length l in
  let x := a + b * (INR n - 1) in
  on_line a b l -> (0 < n)%nat -> (N.of_nat n < szmod)%N -> (0 < W)%nat -> (2 * N.of_nat W < szmod)%N ->
  0 < f <= 1 -> c <> [] ->
  cmean_mean _ (run_cmean eps ops) = Fin (x - b * ((INR n - 1) / 2)) /\
  wmean_mean _ (run_wmean eps W ops) = Fin (x - b * ((INR (Nat.min n W) - 1) / 2)) /\
  imean_mean _ (N.of_nat W) (run_imean eps W ops) = Fin (x - b * ((INR (Nat.min n W) - 1) / 2)) /\
  dmean_mean _ (run_dmean eps f ops) = Fin (x - b * ((1 - f) / f - INR n * (1 - f) ^ n / (1 - (1 - f) ^ n))) /\
  ((length c <= n)%nat ->
   fir_value _ (run_fir eps c ops) = Fin (x * Rsum c - b * Rsum (map (fun p => INR (fst p) * snd p) (combine (seq 0 (length c)) c)))).
Proof.
  intros eps a b f W c ops l n x HL Hn Hn2 HW HW2 Hf Hc.
  assert (NE : l <> []) by (intros E; unfold n in Hn; rewrite E in Hn; cbn in Hn; lia).
  assert (HWn : lastn W l <> []) by (apply window_ne; assumption).
  assert (CW : card (lastn W l) = INR (Nat.min n W)).
  { unfold card. f_equal. rewrite lastn_length. fold n. lia. }
  assert (MW : mean (lastn W l) = x - b * ((INR (Nat.min n W) - 1) / 2)).
  { rewrite (mean_line _ _ _ (on_line_lastn a b W l HL) HWn), CW. fold n. unfold x.
    destruct (Nat.le_gt_cases n W).
    - replace (n - W)%nat with 0%nat by lia. rewrite Nat.min_l by lia. cbn [INR]. lra.
    - rewrite Nat.min_r, minus_INR by lia. lra. }
  split; [|split; [|split; [|split]]].
  - destruct (c01 eps ops) as (_ & _ & H & _); [unfold fits; fold l; fold n; exact Hn2|]. fold l in H.
    destruct (H NE) as [H' _]. etransitivity; [exact H'|]. f_equal. rewrite (mean_line a b l HL NE).
    unfold card. fold n. unfold x. lra.
  - destruct (c15 eps W ops HW ltac:(lia)) as (_ & H & _). fold l in H. destruct (H HWn) as [H' _].
    rewrite MW in H'. exact H'.
  - destruct (c102_mean_line eps W ops (a + b * INR (length l - 2 * W)) b HW HW2 NE (on_line_lastn a b (2 * W) l HL)) as [_ H].
    fold l in H. rewrite MW in H. exact H.
  - destruct (c31 eps f f f f ops Hf) as (m & Hm & _ & _ & _ & E & _). fold l in E. rewrite Hm, E by exact NE. f_equal.
    pose proof (esum_line f a b l HL) as G. fold n x in G. unfold ewma.
    pose proof (geo1 (1 - f) l) as G1. fold n in G1. replace (1 - (1 - f)) with f in G1 by ring.
    pose proof (pow_lt1 (1 - f) n ltac:(lra) Hn) as Q.
    set (e := esum (1 - f) (map (fun _ => 1) l)) in *. set (S := esum (1 - f) l) in *. set (z := (1 - f) ^ n) in *.
    assert (e0 : e = (1 - z) / f) by (rewrite <- G1; field; lra).
    replace S with ((f * (1 - z) * x - b * ((1 - f) * (1 - z) - INR n * f * z)) / (f * f)) by (rewrite <- G; field; lra).
    rewrite e0. field. lra.
  - intros L. rewrite c45 by (try exact Hc; fold l; exact NE). f_equal. fold l. fold n.
    unfold convolution, sumto.
    assert (Z : forall (d : list R) k, (k + length d <= n)%nat ->
      Rsum (map (fun i => nth (i - k) d 0 * back l (n - 1) i) (seq k (length d))) =
      x * Rsum d - b * Rsum (map (fun p => INR (fst p) * snd p) (combine (seq k (length d)) d))).
    { induction d as [|y d IH]; intros k Hk; [cbn; ring|]. cbn [length seq map combine Rsum fst snd] in *.
      rewrite Nat.sub_diag. change (nth 0 (y :: d) 0) with y.
      assert (Eb : back l (n - 1) k = x - b * INR k).
      { unfold back. destruct (Nat.leb_spec k (n - 1)); [|lia].
        assert (Ex : nth_error l (n - 1 - k) = Some (nth (n - 1 - k) l 0)) by (apply nth_error_nth'; fold n; lia).
        rewrite (HL _ _ Ex), !minus_INR by lia. unfold x. cbn [INR]. ring. }
      rewrite Eb. replace (map (fun i => nth (i - k) (y :: d) 0 * back l (n - 1) i) (seq (S k) (length d)))
        with (map (fun i => nth (i - S k) d 0 * back l (n - 1) i) (seq (S k) (length d))).
      - rewrite IH by lia. ring.
      - apply map_ext_in. intros i Hi. apply in_seq in Hi. replace (i - k)%nat with (S (i - S k)) by lia. reflexivity. }
    rewrite <- (Z c 0%nat) by lia. f_equal. apply map_ext. intros i. rewrite Nat.sub_0_r. reflexivity.
Qed.

(** @ex C107_ramp_ex: 1, 3, 5, 7 after a clear; coefficients 1/2, 1/2 report the
    value half a step ago. *)
Lemma c107_ramp_ex :
  let ops := [Push 9; Clear; Push 1; Push 3; Push 5; Push 7] in
  let c := [/ 2; / 2] in
  on_line 1 2 (since_clear ops) /\ length (since_clear ops) = 4%nat /\ (N.of_nat 4 < szmod)%N /\ (2 * N.of_nat 3 < szmod)%N /\
  0 < / 2 <= 1 /\ c <> [] /\
  (1 + 2 * (INR 4 - 1)) * Rsum c - 2 * Rsum (map (fun p => INR (fst p) * snd p) (combine (seq 0 (length c)) c)) = 6.
Proof.
  cbv zeta. split.
  { intros i x. cbn. do 4 (destruct i as [|i]; [cbn; intros [= <-]; lra|]). destruct i; discriminate. }
  split; [reflexivity|]. split; [reflexivity|]. split; [reflexivity|]. split; [lra|]. split; [discriminate|]. cbn. lra.
Qed.
