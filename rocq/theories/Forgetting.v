(** * Proofs that decay filters and stable recursive filters forget *)

From Coq Require Import Reals ZArith NArith Bool List Arith Lia Lra Psatz.
From Verif Require Import Arith History HistoryLemmas SpecStats StatsLemmas SpecDecay DecayProofs
  SpecImpulse ImpulseProofs.
Import ListNotations.
Local Open Scope R_scope.

(** ** Exponential weights *)

Lemma esum_app q l t : esum q (l ++ t) = q ^ length t * esum q l + esum q t.
Proof.
  induction l as [|x l IH]; cbn [app esum]; [ring|].
  rewrite IH, app_length, pow_add. ring.
Qed.

Lemma q_range f n : 0 < f <= 1 -> 0 <= (1 - f) ^ n <= 1.
Proof.
  intros Hf. split; [apply pow_le; lra|].
  pose proof (pow_incr (1 - f) 1 n ltac:(lra)) as E. rewrite pow1 in E. exact E.
Qed.

Definition within (lo hi : R) (l : list R) : Prop := Forall (fun x => lo <= x <= hi) l.

(** The part of the mean that stems from the values before the last [length t]. *)
Lemma ewma_split f lo hi l t : 0 < f <= 1 -> t <> [] -> within lo hi l -> within lo hi t ->
  exists w s, 0 <= w <= (1 - f) ^ length t /\ lo <= s <= hi /\
    ewma f (l ++ t) = w * s + (1 - w) * ewma f t.
Proof.
  intros Hf Ht Hl Hlt.
  destruct l as [|x l'].
  { exists 0, (ewma f t). pose proof (q_range f (length t) Hf).
    split; [lra|]. split; [apply ewma_bounds; assumption|]. cbn [app]. ring. }
  set (l := x :: l') in *. assert (Nl : l <> []) by discriminate.
  pose proof (ewma_bounds f lo hi l Hf Nl Hl) as Bs.
  pose proof (esum_ones (1 - f) l) as El. pose proof (esum_ones (1 - f) t) as Et.
  pose proof (esum_ones_pos (1 - f) l ltac:(lra) Nl) as Pl.
  pose proof (esum_ones_pos (1 - f) t ltac:(lra) Ht) as Pt.
  pose proof (q_range f (length t) Hf) as HQ. pose proof (q_range f (length l) Hf) as HL.
  unfold ewma in *. rewrite map_app, !esum_app, map_length.
  set (Q := (1 - f) ^ length t) in *. set (q := (1 - f) ^ length l) in *.
  set (Nl' := esum (1 - f) (map (fun _ => 1) l)) in *.
  set (Nt := esum (1 - f) (map (fun _ => 1) t)) in *.
  set (Sl := esum (1 - f) l) in *. set (St := esum (1 - f) t) in *.
  assert (PD : 0 < Q * Nl' + Nt) by nra.
  exists (Q * Nl' / (Q * Nl' + Nt)), (Sl / Nl'). split; [split|split; [exact Bs|]].
  - apply Rmult_le_pos; [apply Rmult_le_pos; lra|left; apply Rinv_0_lt_compat; exact PD].
  - apply (Rmult_le_reg_r (Q * Nl' + Nt)); [exact PD|].
    unfold Rdiv. rewrite Rmult_assoc, Rinv_l, Rmult_1_r by lra.
    apply Rmult_le_compat_l; [lra|].
    apply (Rmult_le_reg_l f); [lra|]. ring_simplify.
    replace (f * Nl') with (1 - q) by (rewrite <- El; ring).
    replace (f * Q * Nl') with (Q * (1 - q)) by (rewrite <- El; ring).
    replace (f * Nt) with (1 - Q) by (rewrite <- Et; ring). nra.
  - field. repeat split; lra.
Qed.

Lemma blend lo hi Q w1 w2 a b c : 0 <= w1 <= Q -> 0 <= w2 <= Q ->
  lo <= a <= hi -> lo <= b <= hi -> lo <= c <= hi ->
  Rabs ((w1 * a + (1 - w1) * c) - (w2 * b + (1 - w2) * c)) <= (hi - lo) * Q.
Proof.
  intros H1 H2 Ha Hb Hc. apply Rabs_le. 
  replace (w1 * a + (1 - w1) * c - (w2 * b + (1 - w2) * c)) with (w1 * (a - c) - w2 * (b - c)) by ring.
  destruct (Rle_lt_dec w1 w2).
  - replace (w1 * (a - c) - w2 * (b - c)) with (w1 * (a - b) + (w2 - w1) * (c - b)) by ring.
    assert (- (w1 * (hi - lo)) <= w1 * (a - b) <= w1 * (hi - lo)) by nra.
    assert (- ((w2 - w1) * (hi - lo)) <= (w2 - w1) * (c - b) <= (w2 - w1) * (hi - lo)) by nra.
    nra.
  - replace (w1 * (a - c) - w2 * (b - c)) with (w2 * (a - b) + (w1 - w2) * (a - c)) by ring.
    assert (- (w2 * (hi - lo)) <= w2 * (a - b) <= w2 * (hi - lo)) by nra.
    assert (- ((w1 - w2) * (hi - lo)) <= (w1 - w2) * (a - c) <= (w1 - w2) * (hi - lo)) by nra.
    nra.
Qed.

Lemma ewma_forget f lo hi l1 l2 t : 0 < f <= 1 -> t <> [] ->
  within lo hi l1 -> within lo hi l2 -> within lo hi t ->
  Rabs (ewma f (l1 ++ t) - ewma f (l2 ++ t)) <= (hi - lo) * (1 - f) ^ length t.
Proof.
  intros Hf Ht H1 H2 H.
  destruct (ewma_split f lo hi l1 t Hf Ht H1 H) as (w1 & s1 & W1 & S1 & ->).
  destruct (ewma_split f lo hi l2 t Hf Ht H2 H) as (w2 & s2 & W2 & S2 & ->).
  apply blend; try assumption. apply ewma_bounds; assumption.
Qed.

(** ** Deviations *)

Lemma deviations_from_app f pre l t :
  deviations_from f pre (l ++ t) = deviations_from f pre l ++ deviations_from f (pre ++ l) t.
Proof.
  revert pre; induction l as [|x l IH]; intros pre; cbn [app deviations_from].
  - rewrite app_nil_r. reflexivity.
  - rewrite IH, <- app_assoc. reflexivity.
Qed.

Lemma deviations_from_length f pre t : length (deviations_from f pre t) = length t.
Proof. revert pre; induction t as [|x t IH]; intros pre; cbn; [reflexivity|]. rewrite IH. reflexivity. Qed.

Lemma deviations_within f lo hi pre t : 0 < f <= 1 -> within lo hi pre -> within lo hi t ->
  Forall (fun d => Rabs d <= hi - lo) (deviations_from f pre t).
Proof.
  intros Hf Hp Ht; revert pre Hp; induction Ht as [|x t Hx Ht IH]; intros pre Hp; cbn [deviations_from]; constructor.
  - assert (lo <= ewma f (pre ++ [x]) <= hi).
    { apply ewma_bounds; [exact Hf|destruct pre; discriminate|].
      apply Forall_app; split; [exact Hp|]. constructor; [exact Hx|constructor]. }
    apply Rabs_le; lra.
  - apply IH. apply Forall_app; split; [exact Hp|]. constructor; [exact Hx|constructor].
Qed.

(** Squares of deviations of the same value in two histories. *)
Lemma squares_close D e d1 d2 : Rabs d1 <= D -> Rabs d2 <= D -> Rabs (d1 - d2) <= e ->
  Rabs (d1 ^ 2 - d2 ^ 2) <= 2 * D * e.
Proof.
  intros H1 H2 H. replace (d1 ^ 2 - d2 ^ 2) with ((d1 + d2) * (d1 - d2)) by ring.
  rewrite Rabs_mult. pose proof (Rabs_triang d1 d2). pose proof (Rabs_pos (d1 - d2)).
  pose proof (Rabs_pos (d1 + d2)). apply Rmult_le_compat; lra.
Qed.

Notation sq := (map (fun d => d ^ 2)).

(** Weighted sums of the squares over the common tail: [k] values of it are
    already behind. *)
Lemma squares_forget f lo hi qv q p1 p2 l1 l2 c t : 0 < f <= 1 -> 0 <= qv <= q -> lo <= hi -> (1 - f) <= q ->
  within lo hi l1 -> within lo hi l2 -> within lo hi c -> within lo hi t ->
  p1 = l1 ++ c -> p2 = l2 ++ c ->
  Rabs (esum qv (sq (deviations_from f p1 t)) - esum qv (sq (deviations_from f p2 t))) <=
  2 * (hi - lo) ^ 2 * INR (length t) * q ^ (length c + length t).
Proof.
  intros Hf Hq Hlo Hfq H1 H2 Hc Ht. revert p1 p2 c Hc.
  induction Ht as [|x t Hx Ht IH]; intros p1 p2 c Hc E1 E2.
  - cbn. rewrite Rminus_0_r, Rabs_R0. lra.
  - cbn [deviations_from map esum]. rewrite !map_length, !deviations_from_length.
    assert (Hc' : within lo hi (c ++ [x])).
    { apply Forall_app; split; [exact Hc|]. constructor; [exact Hx|constructor]. }
    assert (G1 : within lo hi p1) by (subst; apply Forall_app; split; assumption).
    assert (G2 : within lo hi p2) by (subst; apply Forall_app; split; assumption).
    specialize (IH (p1 ++ [x]) (p2 ++ [x]) (c ++ [x]) Hc').
    rewrite E1, E2, <- !app_assoc in IH. specialize (IH eq_refl eq_refl).
    pose proof (deviations_within f lo hi p1 [x] Hf G1 ltac:(constructor; [exact Hx|constructor])) as D1.
    pose proof (deviations_within f lo hi p2 [x] Hf G2 ltac:(constructor; [exact Hx|constructor])) as D2.
    cbn [deviations_from] in D1, D2. apply Forall_inv in D1, D2.
    assert (D : Rabs ((x - ewma f (p1 ++ [x])) - (x - ewma f (p2 ++ [x]))) <= (hi - lo) * q ^ (S (length c))).
    { replace ((x - ewma f (p1 ++ [x])) - (x - ewma f (p2 ++ [x]))) with (ewma f (p2 ++ [x]) - ewma f (p1 ++ [x])) by ring.
      subst p1 p2. rewrite <- !app_assoc.
      eapply Rle_trans; [apply (ewma_forget f lo hi); try assumption; destruct c; discriminate|].
      rewrite length_snoc. apply Rmult_le_compat_l; [lra|]. apply pow_incr; lra. }
    pose proof (squares_close _ _ _ _ D1 D2 D) as SQ.
    set (u1 := (x - ewma f (p1 ++ [x])) ^ 2) in *. set (u2 := (x - ewma f (p2 ++ [x])) ^ 2) in *.
    rewrite E1, E2, <- !app_assoc.
    set (v1 := esum qv (sq (deviations_from f (l1 ++ c ++ [x]) t))) in *.
    set (v2 := esum qv (sq (deviations_from f (l2 ++ c ++ [x]) t))) in *.
    replace (qv ^ length t * u1 + v1 - (qv ^ length t * u2 + v2)) with (qv ^ length t * (u1 - u2) + (v1 - v2)) by ring.
    eapply Rle_trans; [apply Rabs_triang|]. rewrite Rabs_mult.
    assert (Qt : 0 <= qv ^ length t <= q ^ length t) by (split; [apply pow_le|apply pow_incr]; lra).
    rewrite (Rabs_pos_eq (qv ^ length t)) by apply Qt.
    assert (S' : qv ^ length t * Rabs (u1 - u2) <= q ^ length t * (2 * (hi - lo) * ((hi - lo) * q ^ S (length c)))).
    { apply Rmult_le_compat; try apply Qt; [apply Rabs_pos|exact SQ]. }
    rewrite length_snoc in IH.
    cbn [length]. rewrite S_INR.
    replace (length c + S (length t))%nat with (S (length c) + length t)%nat by lia.
    rewrite pow_add in IH |- *. lra.
Qed.

Lemma ones_ge1 {A} q (l : list A) : 0 <= q -> l <> [] -> 1 <= esum q (map (fun _ => 1) l).
Proof.
  intros Hq Hl. destruct (exists_last Hl) as (t & x & ->). rewrite map_app. cbn [map]. rewrite esum_snoc.
  destruct t as [|y t]; [cbn; lra|].
  pose proof (esum_ones_pos q (y :: t) Hq ltac:(discriminate)). nra.
Qed.

Lemma emoment_forget fm fv lo hi q l1 l2 t : 0 < fm <= 1 -> 0 < fv <= 1 -> t <> [] ->
  within lo hi l1 -> within lo hi l2 -> within lo hi t -> 1 - fm <= q -> 1 - fv <= q -> q <= 1 ->
  Rabs (emoment 2 fm fv (l1 ++ t) - emoment 2 fm fv (l2 ++ t)) <=
  (hi - lo) ^ 2 * (2 * INR (length t) + 1) * q ^ length t.
Proof.
  intros Hm Hv Ht H1 H2 H Qm Qv Q1.
  assert (Hlo : lo <= hi) by (destruct H; [congruence|lra]).
  set (D := hi - lo) in *. assert (D0 : 0 <= D) by (unfold D; lra).
  unfold emoment, deviations. rewrite !deviations_from_app, !map_app. cbn [app].
  set (P1 := sq (deviations_from fm [] l1)). set (P2 := sq (deviations_from fm [] l2)).
  set (T1 := sq (deviations_from fm l1 t)). set (T2 := sq (deviations_from fm l2 t)).
  assert (SQ : forall p r, within lo hi p -> within lo hi r -> within 0 (D ^ 2) (sq (deviations_from fm p r))).
  { intros p r Hp Hr. pose proof (deviations_within fm lo hi p r Hm Hp Hr) as X.
    apply Forall_map. eapply Forall_impl; [|exact X]. intros d Hd. cbn beta. fold D in Hd.
    split; [apply pow2_ge_0|]. rewrite <- (pow2_abs d). apply pow_incr. split; [apply Rabs_pos|exact Hd]. }
  assert (LT1 : length T1 = length t) by (unfold T1; rewrite map_length; apply deviations_from_length).
  assert (LT2 : length T2 = length t) by (unfold T2; rewrite map_length; apply deviations_from_length).
  assert (N1 : T1 <> []) by (destruct T1; [destruct t; [congruence|discriminate]|discriminate]).
  assert (N2 : T2 <> []) by (destruct T2; [destruct t; [congruence|discriminate]|discriminate]).
  assert (A1 : Rabs (ewma fv (P1 ++ T1) - ewma fv (P1 ++ T2)) <= 2 * D ^ 2 * INR (length t) * q ^ length t).
  { unfold ewma. rewrite !map_app, !esum_app.
    assert (EO : map (fun _ => 1) T1 = map (fun _ => 1) T2).
    { clear -LT1 LT2. assert (L : length T1 = length T2) by lia. clear LT1 LT2. revert L. generalize T1 T2.
      induction T0 as [|y u IH]; intros [|z v] L; cbn in *; try lia; [reflexivity|]. f_equal. apply IH. lia. }
    rewrite EO, !map_length, LT1, LT2.
    set (N := (1 - fv) ^ length t * esum (1 - fv) (map (fun _ => 1) P1) + esum (1 - fv) (map (fun _ => 1) T2)).
    assert (GN : 1 <= N).
    { unfold N. pose proof (ones_ge1 (1 - fv) T2 ltac:(lra) N2).
      pose proof (q_range fv (length t) Hv).
      destruct P1 as [|y u]; [cbn; lra|].
      pose proof (esum_ones_pos (1 - fv) (y :: u) ltac:(lra) ltac:(discriminate)). nra. }
    replace (((1 - fv) ^ length t * esum (1 - fv) P1 + esum (1 - fv) T1) / N -
      ((1 - fv) ^ length t * esum (1 - fv) P1 + esum (1 - fv) T2) / N) with
      ((esum (1 - fv) T1 - esum (1 - fv) T2) * / N) by (field; lra).
    rewrite Rabs_mult.
    assert (IN : Rabs (/ N) <= 1).
    { rewrite Rabs_pos_eq by (left; apply Rinv_0_lt_compat; lra).
      rewrite <- Rinv_1. apply Rinv_le_contravar; lra. }
    assert (B : Rabs (esum (1 - fv) T1 - esum (1 - fv) T2) <= 2 * D ^ 2 * INR (length t) * q ^ length t).
    { apply (squares_forget fm lo hi (1 - fv) q l1 l2 l1 l2 []); try assumption; try lra;
        try (rewrite app_nil_r; reflexivity); constructor. }
    pose proof (Rabs_pos (esum (1 - fv) T1 - esum (1 - fv) T2)). nra. }
  assert (A2 : Rabs (ewma fv (P1 ++ T2) - ewma fv (P2 ++ T2)) <= D ^ 2 * q ^ length t).
  { eapply Rle_trans; [apply (ewma_forget fv 0 (D ^ 2)); try assumption; apply SQ; try assumption; constructor|].
    rewrite LT2, Rminus_0_r. apply Rmult_le_compat_l; [apply pow2_ge_0|]. apply pow_incr; lra. }
  pose proof (Rabs_triang (ewma fv (P1 ++ T1) - ewma fv (P1 ++ T2)) (ewma fv (P1 ++ T2) - ewma fv (P2 ++ T2))) as TR.
  replace (ewma fv (P1 ++ T1) - ewma fv (P1 ++ T2) + (ewma fv (P1 ++ T2) - ewma fv (P2 ++ T2))) with
    (ewma fv (P1 ++ T1) - ewma fv (P2 ++ T2)) in TR by ring.
  lra.
Qed.

Lemma nth_repeat_lt {A} (x d : A) m i : (i < m)%nat -> nth i (repeat x m) d = x.
Proof. revert i; induction m as [|m IH]; intros [|i] H; cbn; try lia; [reflexivity|]. apply IH. lia. Qed.

(** ** Recursive filters *)

Lemma abs_sum_nonneg c : 0 <= abs_sum c.
Proof.
  unfold abs_sum. induction c as [|x c IH]; cbn [map Rsum]; [lra|]. pose proof (Rabs_pos x). lra.
Qed.

Lemma back_bound (P : R -> Prop) (x : list R) n k : P 0 -> (forall v, In v x -> P v) -> P (back x n k).
Proof.
  intros H0 H. unfold back. destruct (k <=? n)%nat; [|exact H0].
  destruct (Nat.lt_ge_cases (n - k) (length x)) as [L|L]; [apply H, nth_In, L|].
  rewrite nth_overflow by exact L. exact H0.
Qed.

Section Stable.
Variables (b a : list R) (scale : R).
Hypothesis Stable : abs_sum a < Rabs scale.

Lemma output_bound x y M : 0 <= M -> (forall v, In v x -> Rabs v <= M) ->
  difference_equation b a scale x y ->
  forall n, (n < length y)%nat -> Rabs (nth n y 0) <= abs_sum b * M / (Rabs scale - abs_sum a).
Proof.
  intros HM HX [L H]. set (Y := abs_sum b * M / (Rabs scale - abs_sum a)).
  pose proof (abs_sum_nonneg a) as A0. pose proof (abs_sum_nonneg b) as B0.
  assert (Y0 : 0 <= Y).
  { apply Rmult_le_pos; [apply Rmult_le_pos; lra|left; apply Rinv_0_lt_compat; lra]. }
  assert (EY : abs_sum b * M + abs_sum a * Y = Rabs scale * Y) by (unfold Y; field; lra).
  induction n as [n IH] using lt_wf_ind. intros Hn.
  assert (G1 : Rabs (sumto (length b) (fun i => nth i b 0 * back x n i)) <= abs_sum b * M).
  { unfold abs_sum. rewrite <- sumto_nth_map. apply sumto_bound. intros i _.
    apply (back_bound (fun v => Rabs v <= M)); [rewrite Rabs_R0; exact HM|exact HX]. }
  assert (G2 : Rabs (sumto (length a) (fun j => nth j a 0 * back y n (S j))) <= abs_sum a * Y).
  { unfold abs_sum. rewrite <- sumto_nth_map. apply sumto_bound. intros i _.
    unfold back. destruct (Nat.leb_spec (S i) n); [apply IH; lia|rewrite Rabs_R0; exact Y0]. }
  specialize (H n ltac:(lia)).
  apply (Rmult_le_reg_l (Rabs scale)); [lra|]. rewrite <- Rabs_mult, H, <- EY.
  eapply Rle_trans; [apply Rabs_triang|]. rewrite Rabs_Ropp. lra.
Qed.

(** Once the input stays at zero the output dies away. *)
Lemma output_dies x y p Y : 0 <= Y ->
  difference_equation b a scale x y ->
  (forall n, (n < length y)%nat -> Rabs (nth n y 0) <= Y) ->
  (forall n, (p <= n)%nat -> nth n x 0 = 0) ->
  forall i n, (p + length b + i * length a <= S n)%nat -> (n < length y)%nat ->
    Rabs (nth n y 0) <= (abs_sum a / Rabs scale) ^ S i * Y.
Proof.
  intros Y0 [L H] HY HX. set (rho := abs_sum a / Rabs scale).
  pose proof (abs_sum_nonneg a) as A0.
  assert (R0 : 0 <= rho).
  { apply Rmult_le_pos; [exact A0|left; apply Rinv_0_lt_compat; lra]. }
  assert (G : forall n Z, (p + length b <= S n)%nat -> (n < length y)%nat -> 0 <= Z ->
    (forall j, (j < length a)%nat -> (S j <= n)%nat -> Rabs (nth (n - S j) y 0) <= Z) ->
    Rabs (nth n y 0) <= rho * Z).
  { intros n Z Hp Hn Z0 HZ. specialize (H n ltac:(lia)).
    rewrite (sumto_zero (length b)) in H.
    - apply (Rmult_le_reg_l (Rabs scale)); [lra|]. rewrite <- Rabs_mult, H.
      replace (Rabs scale * (rho * Z)) with (abs_sum a * Z) by (unfold rho; field; lra).
      rewrite Rminus_0_l, Rabs_Ropp. unfold abs_sum. rewrite <- sumto_nth_map. apply sumto_bound.
      intros j Hj. unfold back. destruct (Nat.leb_spec (S j) n); [apply HZ; assumption|rewrite Rabs_R0; exact Z0].
    - intros j Hj. unfold back. destruct (Nat.leb_spec j n); [|ring]. rewrite HX by lia. ring. }
  induction i as [|i IH]; intros n Hn Ln.
  - rewrite pow_1. apply G; [lia|exact Ln|exact Y0|]. intros j _ _. apply HY. lia.
  - change (rho ^ S (S i)) with (rho * rho ^ S i). rewrite Rmult_assoc. apply G; [lia|exact Ln| |].
    + apply Rmult_le_pos; [apply pow_le; exact R0|exact Y0].
    + intros j Hj Hj'. apply IH; lia.
Qed.

Lemma last_app_ne {A} (l t : list A) d : t <> [] -> last (l ++ t) d = last t d.
Proof.
  intros Ht. induction l as [|x l IH]; [reflexivity|]. cbn [app]. rewrite <- IH.
  destruct (l ++ t) eqn:E; [|reflexivity]. destruct l; [cbn in E; congruence|discriminate].
Qed.

Lemma last_nth {A} (l : list A) d : last l d = nth (length l - 1) l d.
Proof.
  induction l as [|x l IH] using rev_ind; [reflexivity|].
  rewrite last_last, app_length. cbn [length]. replace (length l + 1 - 1)%nat with (length l) by lia.
  rewrite app_nth2, Nat.sub_diag by lia. reflexivity.
Qed.

Lemma iir_forget_same l1 l2 t y1 y2 M i : 0 <= M -> length l1 = length l2 -> t <> [] ->
  (forall v, In v (l1 ++ t) -> Rabs v <= M) -> (forall v, In v (l2 ++ t) -> Rabs v <= M) ->
  difference_equation b a scale (l1 ++ t) y1 -> difference_equation b a scale (l2 ++ t) y2 ->
  (length b + i * length a <= length t)%nat ->
  Rabs (last y1 0 - last y2 0) <=
    (abs_sum a / Rabs scale) ^ S i * (abs_sum b * (2 * M) / (Rabs scale - abs_sum a)).
Proof.
  intros HM LL Ht M1 M2 D1 D2 Hi.
  assert (LT : length (l1 ++ t) = length (l2 ++ t)) by (rewrite !app_length; lia).
  pose proof (difference_equation_linear b a scale 1 (-1) _ _ _ _ LT D1 D2) as D.
  destruct D1 as [L1 _]. destruct D2 as [L2 _].
  assert (Ly : length y1 = length y2) by lia.
  set (x := combination 1 (-1) (l1 ++ t) (l2 ++ t)) in *. set (y := combination 1 (-1) y1 y2) in *.
  assert (Hlen : (0 < length t)%nat) by (destruct t; [congruence|cbn; lia]).
  rewrite app_length in L1, L2.
  assert (Lyy : length y = length y1) by (apply length_combination; exact Ly).
  replace (last y1 0 - last y2 0) with (nth (length y1 - 1) y 0).
  2:{ unfold y. rewrite nth_combination by exact Ly. rewrite !last_nth, <- Ly. ring. }
  pose proof (abs_sum_nonneg b) as B0.
  apply (output_dies x y (length l1)); try assumption; try lia.
  - apply Rmult_le_pos; [apply Rmult_le_pos; lra|left; apply Rinv_0_lt_compat; lra].
  - apply (output_bound x); try assumption; [lra|].
    intros v Hv. apply (In_nth _ _ 0) in Hv. destruct Hv as (n & Hn & <-).
    unfold x in *. rewrite length_combination in Hn by exact LT. rewrite nth_combination by exact LT.
    pose proof (M1 _ (nth_In _ 0 Hn)). rewrite LT in Hn. pose proof (M2 _ (nth_In _ 0 Hn)).
    replace (1 * nth n (l1 ++ t) 0 + -1 * nth n (l2 ++ t) 0) with (nth n (l1 ++ t) 0 + - nth n (l2 ++ t) 0) by ring.
    eapply Rle_trans; [apply Rabs_triang|]. rewrite Rabs_Ropp. lra.
  - intros n Hn. unfold x. rewrite nth_combination by exact LT.
    rewrite !app_nth2, LL by lia. ring.
Qed.

Lemma iir_forget l1 l2 t y1 y2 M i : 0 <= M -> t <> [] ->
  (forall v, In v (l1 ++ t) -> Rabs v <= M) -> (forall v, In v (l2 ++ t) -> Rabs v <= M) ->
  difference_equation b a scale (l1 ++ t) y1 -> difference_equation b a scale (l2 ++ t) y2 ->
  (length b + i * length a <= length t)%nat ->
  Rabs (last y1 0 - last y2 0) <=
    (abs_sum a / Rabs scale) ^ S i * (abs_sum b * (2 * M) / (Rabs scale - abs_sum a)).
Proof.
  intros HM Ht M1 M2 D1 D2 Hi.
  set (k1 := (length l2 - length l1)%nat). set (k2 := (length l1 - length l2)%nat).
  assert (Ny : forall l y, difference_equation b a scale (l ++ t) y -> y <> []).
  { intros l y [L _] ->. rewrite app_length in L. destruct t; [congruence|cbn in L; lia]. }
  rewrite <- (last_app_ne (repeat 0 k1) y1) by (apply (Ny l1); exact D1).
  rewrite <- (last_app_ne (repeat 0 k2) y2) by (apply (Ny l2); exact D2).
  apply (iir_forget_same (repeat 0 k1 ++ l1) (repeat 0 k2 ++ l2) t); try assumption.
  - rewrite !app_length, !repeat_length. lia.
  - intros v Hv. rewrite <- app_assoc in Hv. apply in_app_or in Hv. destruct Hv as [Hv|Hv]; [|apply M1; exact Hv].
    apply repeat_spec in Hv. subst. rewrite Rabs_R0. exact HM.
  - intros v Hv. rewrite <- app_assoc in Hv. apply in_app_or in Hv. destruct Hv as [Hv|Hv]; [|apply M2; exact Hv].
    apply repeat_spec in Hv. subst. rewrite Rabs_R0. exact HM.
  - rewrite <- app_assoc. apply difference_equation_delay. exact D1.
  - rewrite <- app_assoc. apply difference_equation_delay. exact D2.
Qed.

Lemma Rsum_abs c : Rabs (Rsum c) <= abs_sum c.
Proof.
  unfold abs_sum. induction c as [|x c IH]; cbn [map Rsum]; [rewrite Rabs_R0; lra|].
  eapply Rle_trans; [apply Rabs_triang|]. lra.
Qed.

Lemma gain_defined : scale + Rsum a <> 0.
Proof.
  intros E. pose proof (Rsum_abs a) as H. replace (Rsum a) with (- scale) in H by lra.
  rewrite Rabs_Ropp in H. lra.
Qed.

Lemma gain_bound c M : Rabs c <= M ->
  Rabs (c * Rsum b / (scale + Rsum a)) <= abs_sum b * M / (Rabs scale - abs_sum a).
Proof.
  intros Hc. pose proof (Rsum_abs a) as HA. pose proof (Rsum_abs b) as HB.
  unfold Rdiv. rewrite !Rabs_mult, Rabs_inv. pose proof (Rabs_pos c). pose proof (Rabs_pos (Rsum b)).
  apply Rmult_le_compat.
  - apply Rmult_le_pos; lra.
  - left. apply Rinv_0_lt_compat, Rabs_pos_lt, gain_defined.
  - rewrite Rmult_comm. apply Rmult_le_compat; lra.
  - apply Rinv_le_contravar; [lra|].
    pose proof (Rabs_triang_inv scale (- Rsum a)) as T. rewrite Rabs_Ropp in T.
    replace (scale - - Rsum a) with (scale + Rsum a) in T by ring. lra.
Qed.

Lemma sumto_id (c : list R) : sumto (length c) (fun i => nth i c 0) = Rsum c.
Proof. rewrite (sumto_nth_map c (fun x => x)), map_id. reflexivity. Qed.

Lemma sumto_minus n f g : sumto n f - sumto n g = sumto n (fun i => f i - g i).
Proof.
  unfold sumto. generalize (seq 0 n). induction l as [|i l IH]; cbn [map Rsum]; [ring|]. rewrite <- IH. ring.
Qed.

(** A constant input settles at [sum b / (scale + sum a)] times the constant. *)
Lemma output_settles l c m y M i : 0 <= M -> b <> [] -> (0 < m)%nat ->
  (forall v, In v (l ++ repeat c m) -> Rabs v <= M) ->
  difference_equation b a scale (l ++ repeat c m) y ->
  (length b + i * length a <= m)%nat ->
  Rabs (last y 0 - c * Rsum b / (scale + Rsum a)) <=
    (abs_sum a / Rabs scale) ^ S i * (2 * (abs_sum b * M / (Rabs scale - abs_sum a))).
Proof.
  intros HM Nb Hm HX HD Hi.
  assert (Lb : (1 <= length b)%nat) by (destruct b; [congruence|cbn; lia]).
  set (Y := abs_sum b * M / (Rabs scale - abs_sum a)).
  set (g := c * Rsum b / (scale + Rsum a)).
  pose proof (output_bound _ _ M HM HX HD) as HY. fold Y in HY.
  assert (Hc : Rabs c <= M).
  { apply HX, in_or_app. right. destruct m; [lia|]. left. reflexivity. }
  pose proof (gain_bound c M Hc) as Hg. fold g Y in Hg.
  destruct HD as [L H]. rewrite app_length, repeat_length in L, H.
  set (rho := abs_sum a / Rabs scale). pose proof (abs_sum_nonneg a) as A0.
  assert (R0 : 0 <= rho).
  { apply Rmult_le_pos; [exact A0|left; apply Rinv_0_lt_compat; lra]. }
  assert (Y0 : 0 <= Y) by (pose proof (Rabs_pos g); lra).
  assert (G : forall n Z, (length l + length b <= S n)%nat -> (n < length y)%nat ->
    (forall j, (j < length a)%nat -> Rabs (back y n (S j) - g) <= Z) ->
    Rabs (nth n y 0 - g) <= rho * Z).
  { intros n Z Hp Hn HZ. specialize (H n ltac:(lia)).
    apply (Rmult_le_reg_l (Rabs scale)); [lra|]. rewrite <- Rabs_mult.
    replace (Rabs scale * (rho * Z)) with (abs_sum a * Z) by (unfold rho; field; lra).
    assert (EB : sumto (length b) (fun i0 => nth i0 b 0 * back (l ++ repeat c m) n i0) = c * Rsum b).
    { rewrite <- sumto_id. rewrite (sumto_ext _ _ (fun i0 => c * nth i0 b 0 + 0 * 0)).
      - rewrite sumto_linear. ring.
      - intros j Hj. unfold back. destruct (Nat.leb_spec j n); [|lia].
        rewrite app_nth2 by lia. rewrite nth_repeat_lt by lia. ring. }
    assert (EG : scale * g = c * Rsum b - Rsum a * g).
    { unfold g. field. exact gain_defined. }
    replace (scale * (nth n y 0 - g)) with
      (- (sumto (length a) (fun j => nth j a 0 * back y n (S j)) - Rsum a * g))
      by (rewrite Rmult_minus_distr_l, H, EB, EG; ring).
    rewrite Rabs_Ropp. rewrite <- sumto_id.
    replace (sumto (length a) (fun i0 => nth i0 a 0) * g) with (sumto (length a) (fun i0 => g * nth i0 a 0 + 0 * 0))
      by (rewrite sumto_linear; ring).
    rewrite sumto_minus.
    rewrite (sumto_ext _ _ (fun j => nth j a 0 * (back y n (S j) - g))) by (intros; ring).
    unfold abs_sum. rewrite <- sumto_nth_map. apply sumto_bound. exact HZ. }
  assert (K : forall k n, (length l + length b + k * length a <= S n)%nat -> (n < length y)%nat ->
    Rabs (nth n y 0 - g) <= rho ^ S k * (2 * Y)).
  { induction k as [|k IH]; intros n Hn Ln.
    - rewrite pow_1. apply G; [lia|exact Ln|]. intros j Hj.
      eapply Rle_trans; [apply Rabs_triang|]. rewrite Rabs_Ropp.
      enough (Rabs (back y n (S j)) <= Y) by lra.
      unfold back. destruct (S j <=? n)%nat; [apply HY; lia|rewrite Rabs_R0; exact Y0].
    - change (rho ^ S (S k)) with (rho * rho ^ S k). rewrite Rmult_assoc. apply G; [lia|exact Ln|].
      intros j Hj. unfold back. destruct (Nat.leb_spec (S j) n); [apply IH; lia|lia]. }
  rewrite last_nth. apply K; lia.
Qed.
End Stable.

(** ** Finite filters *)

Lemma convolution_settled c l x m n : (length c <= m)%nat -> (length l + length c <= S n)%nat ->
  (n < length l + m)%nat -> convolution c (l ++ repeat x m) n = x * Rsum c.
Proof.
  intros Hm Hn Ln. unfold convolution. rewrite <- sumto_id.
  rewrite (sumto_ext _ _ (fun i => x * nth i c 0 + 0 * 0)).
  - rewrite sumto_linear. ring.
  - intros j Hj. unfold back. destruct (Nat.leb_spec j n); [|lia].
    rewrite app_nth2 by lia. rewrite nth_repeat_lt by lia. ring.
Qed.
