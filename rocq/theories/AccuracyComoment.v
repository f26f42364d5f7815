(** * Error bounds for the window covariance *)

From Coq Require Import Reals ZArith NArith Bool List Lra Lia Psatz.
From Flocq Require Import Core.
From Verif Require Import Arith History HistoryLemmas SpecStats StatsLemmas Buffer Window WindowProofs
  Approx AccuracyProofs AccuracyFilters AccuracyVariance.
Import ListNotations.
Local Open Scope R_scope.

Lemma lastn_pairs {A C} (f : A -> C) (n : nat) (l : list A) : lastn n (map f l) = map f (lastn n l).
Proof. unfold lastn. rewrite map_length. apply skipn_map. Qed.

Lemma abs_mult_le a b x y : Rabs a <= x -> Rabs b <= y -> Rabs (a * b) <= x * y.
Proof. intros. rewrite Rabs_mult. apply Rmult_le_compat; try apply Rabs_pos; assumption. Qed.

Section WindowSums.
Context {F : num} {val : F -> R -> Prop} {B e t : R} {K : N}.
Hypothesis AP : approx F val B e t K.

Local Notation He := (ap_e _ _ _ _ _ _ AP).
Local Notation Ht := (ap_t _ _ _ _ _ _ AP).

Lemma sum_step s sv S d dv D h N k :
  let X := 2 * h + e * N + t in
  val s sv -> Rabs (sv - S) <= 2 * k * X -> val d dv -> Rabs (dv - D) <= h -> Rabs (S + D) <= N ->
  0 <= k -> 2 * k * e <= 1 -> N + 2 * k * X + h <= B ->
  exists r, val (nadd s d) r /\ Rabs (r - (S + D)) <= 2 * (k + 1) * X.
Proof.
  intros X Vs Hs Vd Hd HN K0 Ke HB. pose proof He as [E0 E1]. pose proof Ht as T0.
  assert (h0 : 0 <= h) by (eapply Rle_trans; [apply Rabs_pos|exact Hd]).
  assert (N0 : 0 <= N) by (eapply Rle_trans; [apply Rabs_pos|exact HN]).
  assert (X0 : 0 <= X) by (unfold X; assert (0 <= e * N) by (apply Rmult_le_pos; lra); lra).
  destruct (acc_err AP true s d sv dv S D (2 * k * X) h N Vs Vd Hs Hd HN HB) as (r & Vr & Er).
  exists r. split; [exact Vr|]. fold X in Er.
  assert (e * (2 * k * X) <= X).
  { replace (e * (2 * k * X)) with (2 * k * e * X) by ring. apply scale_le; assumption. }
  lra.
Qed.

(** Difference of two inexact values. *)
Lemma diff_err x y a b X Y h M : val x a -> val y b -> Rabs (a - X) <= h -> Rabs (b - Y) <= h ->
  Rabs X <= M -> Rabs Y <= M -> 2 * M + 2 * h <= B ->
  exists r, val (nsub x y) r /\ Rabs (r - (X - Y)) <= 2 * h + e * (2 * M + 2 * h) + t.
Proof.
  intros Vx Vy Hx Hy BX BY HB. pose proof He as [E0 _].
  assert (D : Rabs (a - b - (X - Y)) <= 2 * h).
  { replace (a - b - (X - Y)) with ((a - X) + - (b - Y)) by ring. eapply Rle_trans; [apply Rabs_triang|].
    rewrite Rabs_Ropp. lra. }
  assert (XY : Rabs (X - Y) <= 2 * M).
  { unfold Rminus. eapply Rle_trans; [apply Rabs_triang|]. rewrite Rabs_Ropp. lra. }
  assert (A : Rabs (a - b) <= 2 * M + 2 * h).
  { replace (a - b) with ((X - Y) + (a - b - (X - Y))) by ring. eapply Rle_trans; [apply Rabs_triang|]. lra. }
  destruct (ap_sub _ _ _ _ _ _ AP _ _ _ _ Vx Vy) as (r & Vr & Nr); [lra|].
  exists r. split; [exact Vr|]. unfold near in Nr.
  replace (r - (X - Y)) with ((r - (a - b)) + (a - b - (X - Y))) by ring.
  eapply Rle_trans; [apply Rabs_triang|].
  assert (e * Rabs (a - b) <= e * (2 * M + 2 * h)) by (apply Rmult_le_compat_l; lra). lra.
Qed.

Variables Mx My n w : R.
Variable W : nat.
Hypothesis HW : (0 < W)%nat.

Definition cosmall : Prop :=
  0 <= Mx /\ 0 <= My /\ 1 <= w /\ 1 <= n /\ 64 * n * e <= 1 /\ 64 * n * t <= Mx /\ 64 * n * t <= My /\
  16 * w * Mx <= B /\ 16 * w * My <= B /\ 16 * (w * w) * (Mx * My) <= B /\ 16 * w * (Mx * My) + 32 * n * t <= B.

Hypothesis Co : cosmall.

Lemma ne1 : 0 <= e <= 1 / 64.
Proof.
  destruct Co as (_ & _ & _ & N1 & H64 & _). pose proof He as [E0 _]. split; [exact E0|].
  assert (1 * e <= n * e) by (apply Rmult_le_compat_r; lra). lra.
Qed.

(** Bounds for the errors of the three sums *)
Definition xsum_step (M : R) : R := (w + 4) * (e * M) + 3 * t.
Definition psum_step : R := (w + 10) * (e * (Mx * My)) + 9 * t.

Lemma xsum_step_eq M : xsum_step M = 2 * (2 * (e * M) + t) + e * (w * M) + t.
Proof. unfold xsum_step. ring. Qed.
Lemma psum_step_eq : psum_step = 2 * (5 * (e * (Mx * My)) + 4 * t) + e * (w * (Mx * My)) + t.
Proof. unfold psum_step. ring. Qed.

Lemma xsum_bound M k : 0 <= M -> 0 <= k <= n -> 64 * n * t <= M ->
  0 <= 2 * k * xsum_step M <= w * (n * (10 * (e * M) + 6 * t)) /\ n * (10 * (e * M) + 6 * t) <= M / 4.
Proof.
  intros M0 [K0 Kn] TM. destruct Co as (_ & _ & W1 & N1 & H64 & _). pose proof ne1 as [E0 _]. pose proof Ht as T0.
  assert (P : 0 <= e * M) by (apply Rmult_le_pos; lra).
  assert (A : 0 <= xsum_step M <= w * (5 * (e * M) + 3 * t)).
  { unfold xsum_step. assert (e * M <= w * (e * M)) by (rewrite <- (Rmult_1_l (e * M)) at 1; apply Rmult_le_compat_r; lra).
    assert (t <= w * t) by (rewrite <- (Rmult_1_l t) at 1; apply Rmult_le_compat_r; lra). lra. }
  split.
  - split; [apply Rmult_le_pos; lra|].
    replace (w * (n * (10 * (e * M) + 6 * t))) with (2 * n * (w * (5 * (e * M) + 3 * t))) by ring.
    apply Rmult_le_compat; lra.
  - assert (64 * (n * (e * M)) <= M).
    { replace (64 * (n * (e * M))) with (64 * n * e * M) by ring. apply scale_le; assumption. }
    lra.
Qed.

Lemma psum_bound k : 0 <= k <= n ->
  0 <= 2 * k * psum_step <= w * (n * (22 * (e * (Mx * My)) + 18 * t)) /\
  2 * k * psum_step <= w * (Mx * My) / 2 + 18 * n * t.
Proof.
  intros [K0 Kn]. destruct Co as (X0 & Y0 & W1 & N1 & H64 & _). pose proof ne1 as [E0 _]. pose proof Ht as T0.
  assert (P0 : 0 <= Mx * My) by (apply Rmult_le_pos; lra).
  set (P := Mx * My) in *.
  assert (P1 : 0 <= e * P) by (apply Rmult_le_pos; lra).
  assert (W2 : e * P <= w * (e * P)) by (rewrite <- (Rmult_1_l (e * P)) at 1; apply Rmult_le_compat_r; lra).
  assert (A : 0 <= psum_step <= w * (11 * (e * P) + 9 * t) /\ psum_step <= w * (11 * (e * P)) + 9 * t).
  { unfold psum_step. fold P.
    assert (t <= w * t) by (rewrite <- (Rmult_1_l t) at 1; apply Rmult_le_compat_r; lra). lra. }
  destruct A as [[A0 A1] A2]. split.
  - split; [apply Rmult_le_pos; lra|].
    replace (w * (n * (22 * (e * P) + 18 * t))) with (2 * n * (w * (11 * (e * P) + 9 * t))) by ring.
    apply Rmult_le_compat; lra.
  - apply Rle_trans with (2 * n * (w * (11 * (e * P)) + 9 * t)); [apply Rmult_le_compat; lra|].
    assert (64 * (n * e * (w * P)) <= w * P).
    { replace (64 * (n * e * (w * P))) with (64 * n * e * (w * P)) by ring. apply scale_le; [apply Rmult_le_pos; lra|assumption]. }
    replace (2 * n * (w * (11 * (e * P)) + 9 * t)) with (22 * (n * e * (w * P)) + 18 * n * t) by ring.
    assert (0 <= w * P) by (apply Rmult_le_pos; lra). lra.
Qed.

(** One coordinate: adding a value to the sum, or the difference to the value
    that leaves the window. *)
Lemma one_fill M k s sv S x xv : 0 <= M -> 64 * n * t <= M -> 16 * w * M <= B -> 0 <= k <= n ->
  val s sv -> Rabs (sv - S) <= 2 * k * xsum_step M -> val x xv -> Rabs (S + xv) <= w * M ->
  exists r, val (nadd s x) r /\ Rabs (r - (S + xv)) <= 2 * (k + 1) * xsum_step M.
Proof.
  intros M0 TM BM Hk Vs Hs Vx HS. destruct (xsum_bound M k M0 Hk TM) as [[_ Q1] Q2].
  destruct Co as (_ & _ & W1 & N1 & H64 & _). pose proof ne1 as [E0 E1]. pose proof Ht as T0.
  assert (P : 0 <= e * M <= M / 64).
  { split; [apply Rmult_le_pos; lra|]. replace (M / 64) with (1 / 64 * M) by field. apply Rmult_le_compat_r; lra. }
  assert (tn : t <= n * t) by (rewrite <- (Rmult_1_l t) at 1; apply Rmult_le_compat_r; lra).
  assert (Mw : M <= w * M) by (rewrite <- (Rmult_1_l M) at 1; apply Rmult_le_compat_r; lra).
  assert (w * (n * (10 * (e * M) + 6 * t)) <= w * (M / 4)) by (apply Rmult_le_compat_l; lra).
  rewrite xsum_step_eq in *.
  apply (sum_step s sv S x xv xv (2 * (e * M) + t) (w * M) k); try assumption; try lra.
  - rewrite Rminus_eq_0, Rabs_R0. lra.
  - assert (2 * k * e <= 2 * n * e) by (apply Rmult_le_compat_r; lra). lra.
Qed.

Lemma one_replace M k s sv S x xv o ov : 0 <= M -> 64 * n * t <= M -> 16 * w * M <= B -> 0 <= k <= n ->
  val s sv -> Rabs (sv - S) <= 2 * k * xsum_step M -> val x xv -> val o ov -> Rabs xv <= M -> Rabs ov <= M ->
  Rabs (S + (xv - ov)) <= w * M ->
  exists r, val (nadd s (nsub x o)) r /\ Rabs (r - (S + (xv - ov))) <= 2 * (k + 1) * xsum_step M.
Proof.
  intros M0 TM BM Hk Vs Hs Vx Vo Hx Ho HS. destruct (xsum_bound M k M0 Hk TM) as [[_ Q1] Q2].
  destruct Co as (_ & _ & W1 & N1 & H64 & _). pose proof ne1 as [E0 E1]. pose proof Ht as T0.
  assert (P : 0 <= e * M <= M / 64).
  { split; [apply Rmult_le_pos; lra|]. replace (M / 64) with (1 / 64 * M) by field. apply Rmult_le_compat_r; lra. }
  assert (tn : t <= n * t) by (rewrite <- (Rmult_1_l t) at 1; apply Rmult_le_compat_r; lra).
  assert (Mw : M <= w * M) by (rewrite <- (Rmult_1_l M) at 1; apply Rmult_le_compat_r; lra).
  assert (w * (n * (10 * (e * M) + 6 * t)) <= w * (M / 4)) by (apply Rmult_le_compat_l; lra).
  destruct (diff_err x o xv ov xv ov 0 M Vx Vo) as (d & Vd & Ed); try (rewrite Rminus_eq_0, Rabs_R0); try assumption; try lra.
  rewrite xsum_step_eq in *.
  apply (sum_step s sv S _ d (xv - ov) (2 * (e * M) + t) (w * M) k); try assumption; try lra.
  assert (2 * k * e <= 2 * n * e) by (apply Rmult_le_compat_r; lra). lra.
Qed.

(** The sum of products *)
Lemma prod1 x y xv yv : val x xv -> val y yv -> Rabs xv <= Mx -> Rabs yv <= My ->
  exists r, val (nmul x y) r /\ Rabs (r - xv * yv) <= e * (Mx * My) + t.
Proof.
  intros Vx Vy Hx Hy. destruct Co as (X0 & Y0 & W1 & N1 & H64 & TX & TY & BX & BY & BP & BQ). pose proof ne1 as [E0 E1].
  pose proof Ht as T0. pose proof (abs_mult_le _ _ _ _ Hx Hy) as HP.
  assert (P0 : 0 <= Mx * My) by (apply Rmult_le_pos; lra).
  assert (0 <= n * t) by (apply Rmult_le_pos; lra).
  assert (Mx * My <= w * (Mx * My)) by (rewrite <- (Rmult_1_l (Mx * My)) at 1; apply Rmult_le_compat_r; lra).
  destruct (ap_mul _ _ _ _ _ _ AP _ _ _ _ Vx Vy) as (r & Vr & Nr); [lra|].
  exists r. split; [exact Vr|]. unfold near in Nr.
  assert (e * Rabs (xv * yv) <= e * (Mx * My)) by (apply Rmult_le_compat_l; lra). lra.
Qed.

Lemma prod_sizes k : 0 <= k <= n -> let P := Mx * My in
  0 <= P /\ 0 <= e * P <= P / 64 /\ P <= w * P /\ t <= n * t /\ 2 * k * e <= 1 /\
  w * P + 2 * k * psum_step + (5 * (e * P) + 4 * t) <= B.
Proof.
  intros Hk P. destruct Co as (X0 & Y0 & W1 & N1 & H64 & TX & TY & BX & BY & BP & BQ). pose proof ne1 as [E0 E1].
  pose proof Ht as T0. destruct (psum_bound k Hk) as [_ Q].
  fold P in BQ, BP, Q.
  assert (P0 : 0 <= P) by (apply Rmult_le_pos; lra).
  assert (P1 : 0 <= e * P <= P / 64).
  { split; [apply Rmult_le_pos; lra|]. replace (P / 64) with (1 / 64 * P) by field. apply Rmult_le_compat_r; lra. }
  assert (P2 : P <= w * P) by (rewrite <- (Rmult_1_l P) at 1; apply Rmult_le_compat_r; lra).
  assert (tn : t <= n * t) by (rewrite <- (Rmult_1_l t) at 1; apply Rmult_le_compat_r; lra).
  assert (2 * k * e <= 2 * n * e) by (apply Rmult_le_compat_r; lra).
  split; [exact P0|]. split; [exact P1|]. split; [exact P2|]. split; [exact tn|]. split; lra.
Qed.

Lemma two_fill k s sv S x y xv yv : 0 <= k <= n ->
  val s sv -> Rabs (sv - S) <= 2 * k * psum_step -> val x xv -> val y yv -> Rabs xv <= Mx -> Rabs yv <= My ->
  Rabs (S + xv * yv) <= w * (Mx * My) ->
  exists r, val (nadd s (nmul x y)) r /\ Rabs (r - (S + xv * yv)) <= 2 * (k + 1) * psum_step.
Proof.
  intros Hk Vs Hs Vx Vy Hx Hy HS. destruct (prod_sizes k Hk) as (P0 & P1 & P2 & tn & KE & BB).
  pose proof Ht as T0. set (P := Mx * My) in *.
  destruct (prod1 x y xv yv Vx Vy Hx Hy) as (d & Vd & Ed). fold P in Ed.
  rewrite psum_step_eq in *. fold P in BB, Hs |- *.
  apply (sum_step s sv S _ d (xv * yv) (5 * (e * P) + 4 * t) (w * P) k); try assumption; lra.
Qed.

Lemma two_replace k s sv S x y xv yv o q ov qv : 0 <= k <= n ->
  val s sv -> Rabs (sv - S) <= 2 * k * psum_step -> val x xv -> val y yv -> Rabs xv <= Mx -> Rabs yv <= My ->
  val o ov -> val q qv -> Rabs ov <= Mx -> Rabs qv <= My ->
  Rabs (S + (xv * yv - ov * qv)) <= w * (Mx * My) ->
  exists r, val (nadd s (nsub (nmul x y) (nmul o q))) r /\
    Rabs (r - (S + (xv * yv - ov * qv))) <= 2 * (k + 1) * psum_step.
Proof.
  intros Hk Vs Hs Vx Vy Hx Hy Vo Vq Ho Hq HS. destruct (prod_sizes k Hk) as (P0 & P1 & P2 & tn & KE & BB).
  pose proof Ht as T0. pose proof ne1 as [E0 E1]. pose proof (abs_mult_le _ _ _ _ Hx Hy) as HP1. pose proof (abs_mult_le _ _ _ _ Ho Hq) as HP2.
  set (P := Mx * My) in *.
  destruct (prod1 x y xv yv Vx Vy Hx Hy) as (d & Vd & Ed). destruct (prod1 o q ov qv Vo Vq Ho Hq) as (d' & Vd' & Ed'). fold P in Ed, Ed'.
  assert (BP : 16 * (w * P) <= B) by (destruct Co as (_ & _ & _ & _ & _ & _ & _ & _ & _ & _ & BQ); fold P in BQ; lra).
  assert (et : 0 <= e * t <= t / 64).
  { split; [apply Rmult_le_pos; lra|]. replace (t / 64) with (1 / 64 * t) by field. apply Rmult_le_compat_r; lra. }
  assert (eP : 0 <= e * (e * P) <= e * P / 64).
  { split; [apply Rmult_le_pos; lra|]. replace (e * P / 64) with (1 / 64 * (e * P)) by field. apply Rmult_le_compat_r; lra. }
  assert (TB : t <= B / 32) by (destruct Co as (_ & _ & _ & _ & _ & _ & _ & _ & _ & _ & BQ); fold P in BQ; lra).
  destruct (diff_err _ _ d d' (xv * yv) (ov * qv) (e * P + t) P Vd Vd' Ed Ed' HP1 HP2) as (f & Vf & Ef); [lra|].
  rewrite psum_step_eq in *. fold P in BB, Hs |- *.
  apply (sum_step s sv S _ f (xv * yv - ov * qv) (5 * (e * P) + 4 * t) (w * P) k); try assumption; try lra.
Qed.

Lemma pairs_lastn l lv : Forall2 (@pval F val) l lv -> Forall2 (@pval F val) (lastn W l) (lastn W lv).
Proof.
  intros V. unfold lastn. rewrite <- (forall2_len _ _ _ V).
  generalize (length l - W)%nat as k. intros k. revert k. induction V as [|a b l lv H V IH]; intros [|k]; cbn; try constructor; try assumption.
  apply IH.
Qed.

Lemma pbound_lastn lv : Forall (fun p => Rabs (fst p) <= Mx /\ Rabs (snd p) <= My) lv ->
  Forall (fun p => Rabs (fst p) <= Mx /\ Rabs (snd p) <= My) (lastn W lv).
Proof. intros H. apply Forall_forall. intros p Hp. rewrite Forall_forall in H. apply H. eapply lastn_In. exact Hp. Qed.

Lemma sums_abs q : Forall (fun p => Rabs (fst p) <= Mx /\ Rabs (snd p) <= My) q -> INR (length q) <= w ->
  Rabs (Rsum (xs q)) <= w * Mx /\ Rabs (Rsum (ys q)) <= w * My /\ Rabs (psum_xy q) <= w * (Mx * My).
Proof.
  intros H L. destruct Co as (X0 & Y0 & W1 & _). assert (0 <= Mx * My) by (apply Rmult_le_pos; lra).
  assert (G : Rabs (Rsum (xs q)) <= INR (length q) * Mx /\ Rabs (Rsum (ys q)) <= INR (length q) * My /\
    Rabs (psum_xy q) <= INR (length q) * (Mx * My)).
  { clear L. induction H as [|p q [H1 H2] _ (I1 & I2 & I3)]; [unfold psum_xy; cbn; rewrite Rabs_R0; lra|].
    change (length (p :: q)) with (S (length q)). rewrite S_INR. unfold psum_xy, xs, ys in *. cbn [map Rsum].
    pose proof (abs_mult_le _ _ _ _ H1 H2).
    repeat split; (eapply Rle_trans; [apply Rabs_triang|]); lra. }
  destruct G as (G1 & G2 & G3). repeat split; (eapply Rle_trans; [eassumption|]); apply Rmult_le_compat_r; lra.
Qed.

Lemma wcov_acc l lv : Forall2 (@pval F val) l lv -> Forall (fun p => Rabs (fst p) <= Mx /\ Rabs (snd p) <= My) lv ->
  INR (length l) <= n -> INR (length (lastn W l)) <= w ->
  let s := fold_left (wcov_push F W) l (wcov_init F) in
  let k := INR (length l) in
  exists a b c, val (wc_x F s) a /\ val (wc_y F s) b /\ val (wc_xy F s) c /\
    Rabs (a - Rsum (xs (lastn W lv))) <= 2 * k * xsum_step Mx /\
    Rabs (b - Rsum (ys (lastn W lv))) <= 2 * k * xsum_step My /\
    Rabs (c - psum_xy (lastn W lv)) <= 2 * k * psum_step.
Proof.
  revert lv. induction l as [|[x y] l IH] using rev_ind; intros lv V HM HN HL.
  - inversion V; subst. exists 0, 0, 0. pose proof (ap_0 _ _ _ _ _ _ AP) as V0.
    repeat (split; [exact V0|]). unfold lastn, psum_xy. rewrite skipn_nil. cbn. rewrite Rminus_0_r, Rabs_R0. lra.
  - pose proof V as V0. pose proof HM as HM0. apply Forall2_app_inv_l in V. destruct V as (lv' & pv' & V & Vp & ->).
    inversion Vp as [|? [xv yv] ? ? [Vx Vy] Vnil]; subst. inversion Vnil; subst. clear Vp Vnil. cbn [fst snd] in Vx, Vy.
    apply Forall_app in HM. destruct HM as [HM Hp]. inversion Hp as [|? ? [Hx Hy] _]; subst. cbn [fst snd] in Hx, Hy.
    assert (LL : length lv' = length l) by (symmetry; apply (forall2_len _ _ _ V)).
    pose proof HL as HL0. rewrite length_snoc in *. rewrite S_INR in *. set (k := INR (length l)) in *.
    assert (k0 : 0 <= k) by apply pos_INR.
    destruct (IH lv' V HM) as (a & b & c & Va & Vb & Vc & Ea & Eb & Ec); [lra| |].
    { eapply Rle_trans; [apply le_INR|exact HL]. rewrite !lastn_length, length_snoc. lia. }
    clear IH. rewrite fold_left_app. cbn [fold_left].
    pose proof (wcov_fold_window F W HW l) as WIN.
    set (st := fold_left (wcov_push F W) l (wcov_init F)) in *.
    destruct (sums_abs (lastn W (lv' ++ [(xv, yv)]))) as (S1 & S2 & S3).
    { apply pbound_lastn. exact HM0. }
    { rewrite lastn_length, length_snoc, LL. rewrite lastn_length, length_snoc in HL. exact HL. }
    pose proof (pairs_lastn l lv' V) as VW. pose proof (pbound_lastn lv' HM) as HWn.
    pose proof Co as (X0 & Y0 & W1 & N1 & H64 & TX & TY & BX & BY & BP & BQ).
    cbn zeta. unfold wcov_push. rewrite WIN. rewrite (lastn_snoc W lv' (xv, yv) HW) in *. rewrite LL in *.
    rewrite rb_full_lastn.
    destruct (Nat.leb_spec W (length l)) as [C|C].
    + destruct (lastn W l) as [|[o q] wl] eqn:EW.
      { exfalso. assert (L0 : length (lastn W l) = 0%nat) by (rewrite EW; reflexivity). rewrite lastn_length in L0. lia. }
      destruct (lastn W lv') as [|[ov qv] wv] eqn:EV; [inversion VW|].
      assert (Vo : val o ov /\ val q qv) by (inversion VW; assumption). destruct Vo as [Vo Vq].
      assert (Ho : Rabs ov <= Mx /\ Rabs qv <= My) by (inversion HWn; assumption). destruct Ho as [Ho Hq].
      cbn [rb_front hd_error tl wc_x wc_y wc_xy] in *.
      assert (R1 : Rsum (xs (wv ++ [(xv, yv)])) = Rsum (xs ((ov, qv) :: wv)) + (xv - ov)).
      { rewrite xs_snoc, Rsum_snoc. unfold xs. cbn [map Rsum fst]. ring. }
      assert (R2 : Rsum (ys (wv ++ [(xv, yv)])) = Rsum (ys ((ov, qv) :: wv)) + (yv - qv)).
      { rewrite ys_snoc, Rsum_snoc. unfold ys. cbn [map Rsum snd]. ring. }
      assert (R3 : psum_xy (wv ++ [(xv, yv)]) = psum_xy ((ov, qv) :: wv) + (xv * yv - ov * qv)).
      { unfold psum_xy. rewrite map_app, Rsum_app. cbn [map Rsum fst snd]. ring. }
      rewrite R1 in *. rewrite R2 in *. rewrite R3 in *.
      destruct (one_replace Mx k _ a _ x xv o ov X0 TX BX ltac:(lra) Va Ea Vx Vo Hx Ho S1) as (a' & Va' & Ea').
      destruct (one_replace My k _ b _ y yv q qv Y0 TY BY ltac:(lra) Vb Eb Vy Vq Hy Hq S2) as (b' & Vb' & Eb').
      destruct (two_replace k _ c _ x y xv yv o q ov qv ltac:(lra) Vc Ec Vx Vy Hx Hy Vo Vq Ho Hq S3) as (c' & Vc' & Ec').
      exists a', b', c'. auto 10.
    + cbn [wc_x wc_y wc_xy]. rewrite (lastn_short W lv') in * by lia.
      rewrite xs_snoc, Rsum_snoc in *. rewrite ys_snoc, Rsum_snoc in *. cbn [fst snd] in *.
      assert (R3 : psum_xy (lv' ++ [(xv, yv)]) = psum_xy lv' + xv * yv).
      { unfold psum_xy. rewrite map_app, Rsum_app. cbn [map Rsum fst snd]. ring. }
      rewrite R3 in *.
      destruct (one_fill Mx k _ a _ x xv X0 TX BX ltac:(lra) Va Ea Vx S1) as (a' & Va' & Ea').
      destruct (one_fill My k _ b _ y yv Y0 TY BY ltac:(lra) Vb Eb Vy S2) as (b' & Vb' & Eb').
      destruct (two_fill k _ c _ x y xv yv ltac:(lra) Vc Ec Vx Vy Hx Hy S3) as (c' & Vc' & Ec').
      exists a', b', c'. auto 10.
Qed.


(** Quotients by the number of values in the window *)
Lemma quot_err c x a X d : val c w -> val x a -> Rabs (a - w * X) <= w * d -> Rabs X + d <= B ->
  exists r, val (ndiv x c) r /\ Rabs (r - X) <= d + e * (Rabs X + d) + t.
Proof.
  intros Vc Vx H HB. destruct Co as (_ & _ & W1 & _). pose proof ne1 as [E0 _].
  assert (D : Rabs (a / w - X) <= d).
  { replace (a / w - X) with ((a - w * X) * / w) by (field; lra).
    rewrite Rabs_mult, (Rabs_pos_eq (/ w)) by (left; apply Rinv_0_lt_compat; lra).
    replace d with (w * d * / w) by (field; lra). apply Rmult_le_compat_r; [left; apply Rinv_0_lt_compat; lra|exact H]. }
  assert (A : Rabs (a / w) <= Rabs X + d).
  { replace (a / w) with (X + (a / w - X)) by ring. eapply Rle_trans; [apply Rabs_triang|]. lra. }
  destruct (ap_div _ _ _ _ _ _ AP _ _ _ _ Vx Vc) as (r & Vr & Nr); [lra|lra|].
  exists r. split; [exact Vr|]. unfold near in Nr.
  replace (r - X) with ((r - a / w) + (a / w - X)) by ring. eapply Rle_trans; [apply Rabs_triang|].
  assert (e * Rabs (a / w) <= e * (Rabs X + d)) by (apply Rmult_le_compat_l; lra). lra.
Qed.

Lemma cosum_err (sx sy sxy c : F) a b p mx my q :
  val c w -> val sx a -> val sy b -> val sxy p -> Rabs mx <= Mx -> Rabs my <= My -> Rabs q <= Mx * My ->
  Rabs (a - w * mx) <= w * (n * (10 * (e * Mx) + 6 * t)) -> Rabs (b - w * my) <= w * (n * (10 * (e * My) + 6 * t)) ->
  Rabs (p - w * q) <= w * (n * (22 * (e * (Mx * My)) + 18 * t)) ->
  exists r, val (nsub sxy (ndiv (nmul sx sy) c)) r /\
    Rabs (r - w * (q - mx * my)) <= w * (n * (56 * (e * (Mx * My)) + 8 * (Mx + My) * t + 23 * t)).
Proof.
  intros Vc Vx Vy Vp Hx Hy Hq Ex Ey Ep.
  pose proof Co as (X0 & Y0 & W1 & N1 & H64 & TX & TY & BX & BY & BP & BQ). pose proof ne1 as [E0 E1]. pose proof Ht as T0.
  destruct (xsum_bound Mx n X0 ltac:(lra) TX) as [_ Ax]. destruct (xsum_bound My n Y0 ltac:(lra) TY) as [_ Ay].
  assert (P0 : 0 <= Mx * My) by (apply Rmult_le_pos; lra).
  assert (xt : 0 <= Mx * t) by (apply Rmult_le_pos; lra). assert (yt : 0 <= My * t) by (apply Rmult_le_pos; lra).
  set (ax := n * (10 * (e * Mx) + 6 * t)) in *. set (ay := n * (10 * (e * My) + 6 * t)) in *.
  set (P := Mx * My) in *.
  assert (ex0 : 0 <= e * Mx) by (apply Rmult_le_pos; lra). assert (ey0 : 0 <= e * My) by (apply Rmult_le_pos; lra).
  assert (ax0 : 0 <= ax) by (unfold ax; apply Rmult_le_pos; lra).
  assert (ay0 : 0 <= ay) by (unfold ay; apply Rmult_le_pos; lra).
  assert (eP : 0 <= e * P <= P / 64).
  { split; [apply Rmult_le_pos; lra|]. replace (P / 64) with (1 / 64 * P) by field. apply Rmult_le_compat_r; lra. }
  assert (neP : e * P <= n * (e * P)) by (rewrite <- (Rmult_1_l (e * P)) at 1; apply Rmult_le_compat_r; lra).
  assert (nt : t <= n * t) by (rewrite <- (Rmult_1_l t) at 1; apply Rmult_le_compat_r; lra).
  assert (NE : 64 * (n * (e * P)) <= P).
  { replace (64 * (n * (e * P))) with (64 * n * e * P) by ring. apply scale_le; assumption. }
  assert (Pxy : Mx * ay = n * (10 * (e * P) + 6 * (Mx * t))) by (unfold ay, P; ring).
  assert (Pyx : My * ax = n * (10 * (e * P) + 6 * (My * t))) by (unfold ax, P; ring).
  assert (axay : ax * ay <= Mx / 4 * ay) by (apply Rmult_le_compat_r; lra).
  assert (MM : Rabs (mx * my) <= P) by (apply abs_mult_le; assumption).
  (* product of the sums *)
  set (dm := 5 / 4 * (Mx * ay) + My * ax).
  assert (dm0 : 0 <= dm) by (unfold dm; rewrite Pxy, Pyx;
    assert (0 <= n * (10 * (e * P) + 6 * (Mx * t))) by (apply Rmult_le_pos; lra);
    assert (0 <= n * (10 * (e * P) + 6 * (My * t))) by (apply Rmult_le_pos; lra); lra).
  assert (AXP : My * ax <= P / 4) by (replace (P / 4) with (My * (Mx / 4)) by (unfold P; field); apply Rmult_le_compat_l; lra).
  assert (AYP : Mx * ay <= P / 4) by (replace (P / 4) with (Mx * (My / 4)) by (unfold P; field); apply Rmult_le_compat_l; lra).
  assert (dmP : dm <= 9 / 16 * P) by (unfold dm; lra).
  assert (Emul : Rabs (a * b - w * (w * (mx * my))) <= w * (w * dm)).
  { replace (a * b - w * (w * (mx * my))) with (w * mx * (b - w * my) + w * my * (a - w * mx) + (a - w * mx) * (b - w * my)) by ring.
    eapply Rle_trans; [apply Rabs_triang|]. pose proof (Rabs_triang (w * mx * (b - w * my)) (w * my * (a - w * mx))) as T.
    assert (wm : Rabs (w * mx) <= w * Mx) by (rewrite Rabs_mult, (Rabs_pos_eq w) by lra; apply Rmult_le_compat_l; lra).
    assert (wn : Rabs (w * my) <= w * My) by (rewrite Rabs_mult, (Rabs_pos_eq w) by lra; apply Rmult_le_compat_l; lra).
    pose proof (abs_mult_le _ _ _ _ wm Ey) as T1. pose proof (abs_mult_le _ _ _ _ wn Ex) as T2. pose proof (abs_mult_le _ _ _ _ Ex Ey) as T3.
    assert (w * (w * (ax * ay)) <= w * (w * (Mx / 4 * ay))) by (apply Rmult_le_compat_l; [lra|]; apply Rmult_le_compat_l; lra).
    replace (w * Mx * (w * ay)) with (w * (w * (Mx * ay))) in T1 by ring. replace (w * My * (w * ax)) with (w * (w * (My * ax))) in T2 by ring.
    replace (w * ax * (w * ay)) with (w * (w * (ax * ay))) in T3 by ring.
    replace (w * (w * dm)) with (w * (w * (Mx * ay)) + w * (w * (My * ax)) + w * (w * (Mx / 4 * ay))) by (unfold dm; field). lra. }
  assert (ww : 0 <= w * P /\ P <= w * P /\ w * P <= w * (w * P)).
  { assert (P <= w * P) by (rewrite <- (Rmult_1_l P) at 1; apply Rmult_le_compat_r; lra).
    split; [lra|]. split; [assumption|]. rewrite <- (Rmult_1_l (w * P)) at 1; apply Rmult_le_compat_r; lra. }
  destruct ww as (ww0 & ww1 & ww2).
  assert (Ww : w * (w * (Rabs (mx * my) + dm)) <= w * (w * (25 / 16 * P))).
  { apply Rmult_le_compat_l; [lra|]. apply Rmult_le_compat_l; lra. }
  assert (Aab : Rabs (a * b) <= w * (w * (25 / 16 * P))).
  { replace (a * b) with (w * (w * (mx * my)) + (a * b - w * (w * (mx * my)))) by ring.
    eapply Rle_trans; [apply Rabs_triang|]. rewrite !Rabs_mult, (Rabs_pos_eq w) by lra. rewrite Rabs_mult in Ww. lra. }
  destruct (ap_mul _ _ _ _ _ _ AP _ _ _ _ Vx Vy) as (m & Vm & Nm).
  { eapply Rle_trans; [exact Aab|]. replace (16 * (w * w) * P) with (16 * (w * (w * P))) in BP by ring. lra. }
  unfold near in Nm.
  assert (Em : Rabs (m - w * (w * (mx * my))) <= w * (w * dm + 25 / 16 * (w * (e * P)) + t)).
  { replace (m - w * (w * (mx * my))) with ((m - a * b) + (a * b - w * (w * (mx * my)))) by ring.
    eapply Rle_trans; [apply Rabs_triang|].
    assert (e * Rabs (a * b) <= e * (w * (w * (25 / 16 * P)))) by (apply Rmult_le_compat_l; lra).
    assert (t <= w * t) by (rewrite <- (Rmult_1_l t) at 1; apply Rmult_le_compat_r; lra).
    replace (w * (w * dm + 25 / 16 * (w * (e * P)) + t)) with (w * (w * dm) + e * (w * (w * (25 / 16 * P))) + w * t) by field.
    lra. }
  assert (weP : 0 <= w * (e * P) <= w * P / 64).
  { split; [apply Rmult_le_pos; lra|]. replace (w * P / 64) with (w * (P / 64)) by field. apply Rmult_le_compat_l; lra. }
  assert (wdm : 0 <= w * dm <= 9 / 16 * (w * P)).
  { split; [apply Rmult_le_pos; lra|]. replace (9 / 16 * (w * P)) with (w * (9 / 16 * P)) by ring. apply Rmult_le_compat_l; lra. }
  assert (wmm : Rabs (w * (mx * my)) <= w * P) by (rewrite Rabs_mult, (Rabs_pos_eq w) by lra; apply Rmult_le_compat_l; lra).
  (* quotient *)
  destruct (quot_err c _ m (w * (mx * my)) _ Vc Vm Em) as (d & Vd & Ed); [lra|].
  set (D := w * dm + 25 / 16 * (w * (e * P)) + t) in *.
  assert (DB : 0 <= D <= 5 / 8 * (w * P) + t) by (unfold D; lra).
  assert (Ed' : Rabs (d - w * (mx * my)) <= w * dm + 4 * (w * (e * P)) + 3 * t).
  { eapply Rle_trans; [exact Ed|].
    assert (e * (Rabs (w * (mx * my)) + D) <= e * (13 / 8 * (w * P) + t)) by (apply Rmult_le_compat_l; lra).
    assert (e * t <= t) by (apply scale_le; lra).
    replace (e * (13 / 8 * (w * P) + t)) with (13 / 8 * (w * (e * P)) + e * t) in H by ring.
    assert (ED : D = w * dm + 25 / 16 * (w * (e * P)) + t) by reflexivity. clearbody D. lra. }
  (* difference *)
  set (aq := n * (22 * (e * P) + 18 * t)) in *.
  set (G := w * aq + (w * dm + 4 * (w * (e * P)) + 3 * t)).
  assert (Edf : Rabs (p - d - w * (q - mx * my)) <= G).
  { replace (p - d - w * (q - mx * my)) with ((p - w * q) + - (d - w * (mx * my))) by ring.
    eapply Rle_trans; [apply Rabs_triang|]. rewrite Rabs_Ropp. unfold G. lra. }
  assert (C2 : Rabs (w * (q - mx * my)) <= 2 * (w * P)).
  { rewrite Rabs_mult, (Rabs_pos_eq w) by lra. replace (2 * (w * P)) with (w * (P + P)) by ring.
    apply Rmult_le_compat_l; [lra|]. unfold Rminus. eapply Rle_trans; [apply Rabs_triang|]. rewrite Rabs_Ropp. lra. }
  assert (waq : 0 <= w * aq <= w * P / 2 + 18 * (w * (n * t))).
  { assert (0 <= aq) by (unfold aq; apply Rmult_le_pos; lra).
    split; [apply Rmult_le_pos; lra|].
    replace (w * P / 2 + 18 * (w * (n * t))) with (w * (P / 2 + 18 * (n * t))) by field.
    apply Rmult_le_compat_l; [lra|]. unfold aq. lra. }
  assert (wnt : 64 * (w * (n * t)) <= w * Mx).
  { replace (64 * (w * (n * t))) with (w * (64 * n * t)) by ring. apply Rmult_le_compat_l; lra. }
  assert (wt : t <= w * (n * t)).
  { apply Rle_trans with (n * t); [exact nt|]. rewrite <- (Rmult_1_l (n * t)) at 1; apply Rmult_le_compat_r; lra. }
  assert (GB : 2 * (w * P) + G <= B) by (unfold G; lra).
  assert (Apd : Rabs (p - d) <= 2 * (w * P) + G).
  { replace (p - d) with (w * (q - mx * my) + (p - d - w * (q - mx * my))) by ring.
    eapply Rle_trans; [apply Rabs_triang|]. lra. }
  destruct (ap_sub _ _ _ _ _ _ AP _ _ _ _ Vp Vd) as (r & Vr & Nr); [lra|].
  exists r. split; [exact Vr|]. unfold near in Nr.
  replace (r - w * (q - mx * my)) with ((r - (p - d)) + (p - d - w * (q - mx * my))) by ring.
  eapply Rle_trans; [apply Rabs_triang|].
  assert (G0 : 0 <= G) by (unfold G; lra).
  assert (eG : e * Rabs (p - d) <= 2 * (w * (e * P)) + G / 64).
  { eapply Rle_trans; [apply Rmult_le_compat_l; [exact E0|exact Apd]|].
    assert (e * G <= 1 / 64 * G) by (apply Rmult_le_compat_r; lra).
    replace (e * (2 * (w * P) + G)) with (2 * (w * (e * P)) + e * G) by ring. lra. }
  set (Z := n * (e * P)) in *.
  assert (EQ1 : w * aq = 22 * (w * Z) + 18 * (w * (n * t))) by (unfold aq, Z; ring).
  assert (EQ2 : w * dm = 45 / 2 * (w * Z) + 15 / 2 * (w * (n * (Mx * t))) + 6 * (w * (n * (My * t)))).
  { unfold dm. rewrite Pxy, Pyx. unfold Z. field. }
  replace (w * (n * (56 * (e * P) + 8 * (Mx + My) * t + 23 * t))) with
    (56 * (w * Z) + 8 * (w * (n * (Mx * t))) + 8 * (w * (n * (My * t))) + 23 * (w * (n * t))) by (unfold Z; ring).
  assert (wz : w * (e * P) <= w * Z) by (apply Rmult_le_compat_l; lra).
  assert (0 <= w * (n * (Mx * t))) by (apply Rmult_le_pos; [lra|]; apply Rmult_le_pos; lra).
  assert (0 <= w * (n * (My * t))) by (apply Rmult_le_pos; [lra|]; apply Rmult_le_pos; lra).
  unfold G in *. rewrite EQ1, EQ2 in *. lra.
Qed.

Lemma wcov_stat_accuracy l lv : Forall2 (@pval F val) l lv -> Forall (fun p => Rabs (fst p) <= Mx /\ Rabs (snd p) <= My) lv ->
  l <> [] -> INR (length l) <= n -> w = INR (length (lastn W l)) -> (N.of_nat W <= K)%N ->
  let s := fold_left (wcov_push F W) l (wcov_init F) in
  (exists v, val (wcov_variance F s) v /\
    Rabs (v - covariance (lastn W lv)) <= n * (64 * (e * (Mx * My)) + 10 * (Mx + My) * t + 26 * t)) /\
  (exists m, val (ndiv (wc_y F s) (nofsz (wcov_size F s))) m /\
    Rabs (m - mean (ys (lastn W lv))) <= n * (12 * (e * My) + 8 * t)).
Proof.
  intros V HM NE HN Ew HK s. destruct (wcov_acc l lv V HM HN ltac:(lra)) as (a & b & c & Va & Vb & Vc & Ea & Eb & Ec).
  fold s in Va, Vb, Vc.
  pose proof Co as (X0 & Y0 & W1 & N1 & H64 & TX & TY & BX & BY & BP & BQ). pose proof ne1 as [E0 E1]. pose proof Ht as T0.
  pose proof (pos_INR (length l)) as L0.
  destruct (xsum_bound Mx (INR (length l)) X0 ltac:(lra) TX) as [[_ Ax] Ax4].
  destruct (xsum_bound My (INR (length l)) Y0 ltac:(lra) TY) as [[_ Ay] Ay4].
  destruct (psum_bound (INR (length l)) ltac:(lra)) as [[_ Ap] _].
  set (q := lastn W lv) in *.
  assert (Lq : INR (length q) = w).
  { rewrite Ew. unfold q. rewrite !lastn_length, (forall2_len _ _ _ V). reflexivity. }
  assert (Cx : card (xs q) = w) by (unfold card, xs; rewrite map_length; exact Lq).
  assert (Cy : card (ys q) = w) by (unfold card, ys; rewrite map_length; exact Lq).
  assert (Cq : card q = w) by exact Lq.
  assert (Hq : Forall (fun p => Rabs (fst p) <= Mx /\ Rabs (snd p) <= My) q) by (apply pbound_lastn; exact HM).
  assert (Hmx : Rabs (mean (xs q)) <= Mx).
  { apply mean_abs0; [exact X0|]. unfold xs. apply Forall_map. eapply Forall_impl; [|exact Hq]. intros z Hz. apply Hz. }
  assert (Hmy : Rabs (mean (ys q)) <= My).
  { apply mean_abs0; [exact Y0|]. unfold ys. apply Forall_map. eapply Forall_impl; [|exact Hq]. intros z Hz. apply Hz. }
  rewrite <- (mean_card (xs q)), Cx in Ea. rewrite <- (mean_card (ys q)), Cy in Eb.
  assert (P0 : 0 <= Mx * My) by (apply Rmult_le_pos; lra).
  destruct (sums_abs q Hq ltac:(lra)) as (_ & _ & SP).
  set (Q := psum_xy q / w).
  assert (EQ : psum_xy q = w * Q) by (unfold Q; field; lra).
  assert (HQ : Rabs Q <= Mx * My).
  { unfold Q, Rdiv. rewrite Rabs_mult, (Rabs_pos_eq (/ w)) by (left; apply Rinv_0_lt_compat; lra).
    apply (Rmult_le_reg_r w); [lra|]. replace (Rabs (psum_xy q) * / w * w) with (Rabs (psum_xy q)) by (field; lra). lra. }
  rewrite EQ in Ec.
  assert (WIN : wcov_size F s = N.of_nat (length (lastn W l))).
  { unfold wcov_size, s. rewrite (wcov_fold_window F W HW). reflexivity. }
  assert (Lw : (1 <= length (lastn W l) <= W)%nat).
  { rewrite lastn_length. destruct l; [congruence|]. cbn. lia. }
  assert (Vn : val (nofsz (wcov_size F s)) w).
  { rewrite WIN, Ew. rewrite INR_IZR_INZ, <- nat_N_Z. apply (ap_count _ _ _ _ _ _ AP). lia. }
  assert (PZ : (0 <? wcov_size F s)%N = true) by (rewrite WIN; apply N.ltb_lt; lia).
  assert (nt0 : 0 <= n * t) by (apply Rmult_le_pos; lra).
  assert (nt : t <= n * t) by (rewrite <- (Rmult_1_l t) at 1; apply Rmult_le_compat_r; lra).
  assert (wP : Mx * My <= w * (Mx * My)) by (rewrite <- (Rmult_1_l (Mx * My)) at 1; apply Rmult_le_compat_r; lra).
  split.
  - unfold wcov_variance. rewrite PZ. unfold wcov_cosum.
    destruct (cosum_err (wc_x F s) (wc_y F s) (wc_xy F s) _ a b c (mean (xs q)) (mean (ys q)) Q Vn Va Vb Vc Hmx Hmy HQ) as (r & Vr & Er);
      try (eapply Rle_trans; eassumption).
    assert (CV : covariance q = Q - mean (xs q) * mean (ys q)).
    { unfold covariance. rewrite cosum_expand, Cq. fold (psum_xy q). rewrite EQ. field. lra. }
    set (P := Mx * My) in *.
    set (H := n * (56 * (e * P) + 8 * (Mx + My) * t + 23 * t)) in *.
    assert (eP : 0 <= e * P <= P / 64).
    { split; [apply Rmult_le_pos; lra|]. replace (P / 64) with (1 / 64 * P) by field. apply Rmult_le_compat_r; lra. }
    assert (neP : e * P <= n * (e * P)) by (rewrite <- (Rmult_1_l (e * P)) at 1; apply Rmult_le_compat_r; lra).
    assert (NE' : 64 * (n * (e * P)) <= P).
    { replace (64 * (n * (e * P))) with (64 * n * e * P) by ring. apply scale_le; assumption. }
    assert (H1 : H = 56 * (n * (e * P)) + 8 * (Mx * (n * t)) + 8 * (My * (n * t)) + 23 * (n * t)) by (unfold H; ring).
    assert (MXt : 0 <= Mx * (n * t)) by (apply Rmult_le_pos; lra).
    assert (MYt : 0 <= My * (n * t)) by (apply Rmult_le_pos; lra).
    assert (MXt' : Mx * (n * t) <= P / 64).
    { replace (P / 64) with (Mx * (My / 64)) by (unfold P; field). apply Rmult_le_compat_l; lra. }
    assert (MYt' : My * (n * t) <= P / 64).
    { replace (P / 64) with (My * (Mx / 64)) by (unfold P; field). apply Rmult_le_compat_l; lra. }
    assert (C2 : Rabs (covariance q) <= 2 * P).
    { rewrite CV. unfold Rminus. eapply Rle_trans; [apply Rabs_triang|]. rewrite Rabs_Ropp.
      pose proof (abs_mult_le _ _ _ _ Hmx Hmy) as AM. fold P in AM. lra. }
    rewrite <- CV in Er.
    destruct (quot_err _ _ r (covariance q) H Vn Vr Er) as (v & Vv & Ev); [lra|].
    exists v. split; [exact Vv|]. eapply Rle_trans; [exact Ev|].
    assert (e * (Rabs (covariance q) + H) <= e * (2 * P) + 1 / 64 * H).
    { rewrite Rmult_plus_distr_l. apply Rplus_le_compat; [apply Rmult_le_compat_l; lra|].
      apply Rmult_le_compat_r; lra. }
    replace (n * (64 * (e * P) + 10 * (Mx + My) * t + 26 * t)) with
      (64 * (n * (e * P)) + 10 * (Mx * (n * t)) + 10 * (My * (n * t)) + 26 * (n * t)) by ring.
    lra.
  - assert (Eb' : Rabs (b - w * mean (ys q)) <= w * (n * (10 * (e * My) + 6 * t))) by lra.
    assert (My <= w * My) by (rewrite <- (Rmult_1_l My) at 1; apply Rmult_le_compat_r; lra).
    destruct (quot_err _ _ b _ _ Vn Vb Eb') as (m & Vm & Em); [lra|].
    exists m. split; [exact Vm|]. eapply Rle_trans; [exact Em|].
    assert (EY : 0 <= e * My) by (apply Rmult_le_pos; lra).
    assert (nEY : e * My <= n * (e * My)) by (rewrite <- (Rmult_1_l (e * My)) at 1; apply Rmult_le_compat_r; lra).
    assert (e * (Rabs (mean (ys q)) + n * (10 * (e * My) + 6 * t)) <= e * (5 / 4 * My)) by (apply Rmult_le_compat_l; lra).
    lra.
Qed.

End WindowSums.
