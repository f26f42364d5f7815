(** * Error bounds for variances and covariances *)

From Coq Require Import Reals ZArith NArith Bool List Lra Lia Psatz.
From Flocq Require Import Core.
From Verif Require Import Arith History HistoryLemmas SpecStats StatsLemmas Buffer Cumulative CumulativeProofs
  Window WindowProofs Decay SpecDecay DecayProofs Approx AccuracyProofs AccuracyFilters.
Import ListNotations.
Local Open Scope R_scope.

Section Variance.
Context {F : num} {val : F -> R -> Prop} {B e t : R} {K : N}.
Hypothesis AP : approx F val B e t K.

Local Notation He := (ap_e _ _ _ _ _ _ AP).
Local Notation Ht := (ap_t _ _ _ _ _ _ AP).

(** A deviation from an inexact mean. *)
Lemma dev_err x m xv mr mv M E : val x xv -> val m mr -> Rabs (mr - mv) <= E -> Rabs (xv - mv) <= 2 * M ->
  2 * M + E <= B ->
  exists d, val (nsub x m) d /\ Rabs (d - (xv - mv)) <= E + e * (2 * M + E) + t.
Proof.
  intros Vx Vm HE HD HB. pose proof He as [E0 E1].
  assert (A : Rabs (xv - mr) <= 2 * M + E).
  { replace (xv - mr) with ((xv - mv) + - (mr - mv)) by ring. eapply Rle_trans; [apply Rabs_triang|].
    rewrite Rabs_Ropp. lra. }
  destruct (ap_sub _ _ _ _ _ _ AP _ _ _ _ Vx Vm) as (d & Vd & Nd); [lra|]. unfold near in Nd.
  exists d. split; [exact Vd|].
  replace (d - (xv - mv)) with ((d - (xv - mr)) + - (mr - mv)) by ring.
  eapply Rle_trans; [apply Rabs_triang|]. rewrite Rabs_Ropp.
  assert (e * Rabs (xv - mr) <= e * (2 * M + E)) by (apply Rmult_le_compat_l; lra). lra.
Qed.

(** A product of deviations. *)
Definition perr (Mx My gx gy : R) : R := 2 * Mx * gy + 3 * My * gx + 9 * (e * (Mx * My)) + t.

Lemma prod_err d1 d2 r1 r2 a b Mx My gx gy : val d1 r1 -> val d2 r2 ->
  Rabs (r1 - a) <= gx -> Rabs (r2 - b) <= gy -> Rabs a <= 2 * Mx -> Rabs b <= 2 * My ->
  gx <= Mx -> gy <= My -> 9 * (Mx * My) <= B ->
  exists p, val (nmul d1 d2) p /\ Rabs (p - a * b) <= perr Mx My gx gy /\ Rabs (r1 * r2) <= 9 * (Mx * My).
Proof.
  intros V1 V2 G1 G2 A1 A2 HX HY HB. pose proof He as [E0 E1].
  assert (B1 : Rabs r1 <= 3 * Mx).
  { replace r1 with (a + (r1 - a)) by ring. eapply Rle_trans; [apply Rabs_triang|]. lra. }
  assert (B2 : Rabs r2 <= 3 * My).
  { replace r2 with (b + (r2 - b)) by ring. eapply Rle_trans; [apply Rabs_triang|]. lra. }
  assert (B3 : Rabs (r1 * r2) <= 9 * (Mx * My)).
  { rewrite Rabs_mult. replace (9 * (Mx * My)) with ((3 * Mx) * (3 * My)) by ring.
    apply Rmult_le_compat; try apply Rabs_pos; assumption. }
  destruct (ap_mul _ _ _ _ _ _ AP _ _ _ _ V1 V2) as (p & Vp & Np); [lra|]. unfold near in Np.
  exists p. split; [exact Vp|]. split; [|exact B3].
  replace (p - a * b) with ((p - r1 * r2) + ((r1 - a) * r2 + a * (r2 - b))) by ring.
  eapply Rle_trans; [apply Rabs_triang|].
  assert (X1 : e * Rabs (r1 * r2) <= e * (9 * (Mx * My))) by (apply Rmult_le_compat_l; lra).
  assert (X2 : Rabs ((r1 - a) * r2 + a * (r2 - b)) <= gx * (3 * My) + 2 * Mx * gy).
  { eapply Rle_trans; [apply Rabs_triang|]. rewrite !Rabs_mult.
    apply Rplus_le_compat; apply Rmult_le_compat; try apply Rabs_pos; assumption. }
  unfold perr. lra.
Qed.

(** Adding (or subtracting) an inexact product to an inexact sum. *)
Lemma acc_err (sg : bool) s p sv pv S P Es h N :
  val s sv -> val p pv -> Rabs (sv - S) <= Es -> Rabs (pv - P) <= h ->
  Rabs (if sg then S + P else S - P) <= N -> N + Es + h <= B ->
  exists r, val (if sg then nadd s p else nsub s p) r /\
    Rabs (r - (if sg then S + P else S - P)) <= Es + (2 * h + e * N + t) + e * Es.
Proof.
  intros Vs Vp HS HP HN HB. pose proof He as [E0 E1].
  assert (h0 : 0 <= h) by (eapply Rle_trans; [apply Rabs_pos|exact HP]).
  assert (eh : e * h <= h) by (apply scale_le; lra).
  assert (G : forall z w, Rabs (z - w) <= Es + h -> Rabs w <= N -> Rabs z <= B /\ (forall r, near e t z r -> Rabs (r - w) <= Es + (2 * h + e * N + t) + e * Es)).
  { intros z w H1 H2. assert (Z : Rabs z <= N + Es + h).
    { replace z with (w + (z - w)) by ring. eapply Rle_trans; [apply Rabs_triang|]. lra. }
    split; [lra|]. intros r Nr. unfold near in Nr.
    replace (r - w) with ((r - z) + (z - w)) by ring. eapply Rle_trans; [apply Rabs_triang|].
    assert (e * Rabs z <= e * (N + Es + h)) by (apply Rmult_le_compat_l; lra). lra. }
  destruct sg.
  - destruct (G (sv + pv) (S + P)) as [G1 G2]; [|exact HN|].
    + replace (sv + pv - (S + P)) with ((sv - S) + (pv - P)) by ring. eapply Rle_trans; [apply Rabs_triang|]. lra.
    + destruct (ap_add _ _ _ _ _ _ AP _ _ _ _ Vs Vp G1) as (r & Vr & Nr). exists r. split; [exact Vr|apply G2, Nr].
  - destruct (G (sv - pv) (S - P)) as [G1 G2]; [|exact HN|].
    + replace (sv - pv - (S - P)) with ((sv - S) + - (pv - P)) by ring. eapply Rle_trans; [apply Rabs_triang|].
      rewrite Rabs_Ropp. lra.
    + destruct (ap_sub _ _ _ _ _ _ AP _ _ _ _ Vs Vp G1) as (r & Vr & Nr). exists r. split; [exact Vr|apply G2, Nr].
Qed.

Lemma mean_abs0 M l : 0 <= M -> Forall (fun x => Rabs x <= M) l -> Rabs (mean l) <= M.
Proof.
  intros M0 H. destruct l as [|x l]; [unfold mean; cbn; unfold Rdiv; rewrite Rmult_0_l, Rabs_R0; exact M0|].
  apply (mean_abs M); [discriminate|exact H].
Qed.

Lemma dev_abs M l x : 0 <= M -> Forall (fun x => Rabs x <= M) l -> Rabs x <= M -> Rabs (x - mean l) <= 2 * M.
Proof.
  intros M0 H Hx. unfold Rminus. eapply Rle_trans; [apply Rabs_triang|]. rewrite Rabs_Ropp.
  pose proof (mean_abs0 M l M0 H). lra.
Qed.

(** Error of the running mean, at any time up to the n-th value. *)
Definition gdev (M n : R) : R := (n + 29) * (e * M) + (3 * n + 13) * t.
Definition mdev (M n : R) : R := (n + 25) * (e * M) + (3 * n + 11) * t.

Lemma mean_near M n l lv : 0 <= M -> Forall2 val l lv -> Forall (fun x => Rabs x <= M) lv ->
  (N.of_nat (length l) <= K)%N -> (N.of_nat (length l) < szmod)%N -> INR (length l) <= n -> 1 <= n ->
  16 * n * e <= 1 -> 16 * M + 60 * n * t <= B ->
  exists r, val (cm_mean F (fold_left (cmean_push F) l (cmean_init F))) r /\ Rabs (r - mean lv) <= mdev M n.
Proof.
  intros M0 V HM HK HS Hn H1 H16 HB. pose proof He as [E0 E1]. pose proof Ht as T0.
  assert (eM : 0 <= e * M) by (apply Rmult_le_pos; lra).
  assert (L0 : 0 <= INR (length l)) by apply pos_INR.
  destruct l as [|x l].
  - inversion V; subst. exists 0. split; [apply (ap_0 _ _ _ _ _ _ AP)|].
    unfold mean. cbn. unfold Rdiv. rewrite Rmult_0_l, Rminus_0_r, Rabs_R0. unfold mdev. nra.
  - destruct (cmean_accuracy AP M M0 (x :: l) lv V HM) as (r & Vr & Er); [discriminate|exact HK|exact HS|nra|nra|].
    exists r. split; [exact Vr|]. eapply Rle_trans; [exact Er|]. unfold mdev. rewrite (Rmult_assoc _ e M).
    apply Rplus_le_compat; apply Rmult_le_compat_r; lra.
Qed.

Lemma mdev_size M n : 0 <= M -> 1 <= n -> 16 * n * e <= 1 -> 0 <= mdev M n <= 2 * M + 14 * n * t.
Proof.
  intros M0 H1 H2. pose proof He as [E0 _]. pose proof Ht as T0. unfold mdev.
  assert (eM : 0 <= e * M) by (apply Rmult_le_pos; lra).
  assert (26 * n * e <= 2) by lra. assert ((n + 25) * e <= 2) by nra.
  split; [apply Rplus_le_le_0_compat; apply Rmult_le_pos; lra|].
  assert ((n + 25) * (e * M) <= 2 * M) by (rewrite <- Rmult_assoc; apply Rmult_le_compat_r; lra).
  assert ((3 * n + 11) * t <= 14 * n * t) by (apply Rmult_le_compat_r; lra). lra.
Qed.

Lemma gdev_mdev M n : 0 <= M -> 1 <= n -> 16 * n * e <= 1 ->
  mdev M n + e * (2 * M + mdev M n) + t <= gdev M n.
Proof.
  intros M0 H1 H2. pose proof He as [E0 _]. pose proof Ht as T0. pose proof (mdev_size M n M0 H1 H2) as [D0 D1].
  assert (X : e * (2 * M + mdev M n) <= e * (4 * M + 14 * n * t)) by (apply Rmult_le_compat_l; lra).
  assert (Y : e * (14 * n * t) <= t).
  { replace (e * (14 * n * t)) with ((14 * n * e) * t) by ring. apply scale_le; lra. }
  replace (e * (4 * M + 14 * n * t)) with (4 * (e * M) + e * (14 * n * t)) in X by ring.
  unfold gdev. unfold mdev at 1. lra.
Qed.

Lemma gdev_le M n : 0 <= M -> 1 <= n -> 64 * n * e <= 1 -> 32 * n * t <= M -> gdev M n <= M.
Proof.
  intros M0 H1 H2 H3. pose proof He as [E0 _]. pose proof Ht as T0. unfold gdev.
  assert (X : (n + 29) * e <= / 2) by nra.
  assert ((n + 29) * (e * M) <= / 2 * M) by (rewrite <- Rmult_assoc; apply Rmult_le_compat_r; lra).
  assert ((3 * n + 13) * t <= 16 * n * t) by (apply Rmult_le_compat_r; lra). lra.
Qed.

(** ** Cumulative *)

Definition verr (Mx My n : R) : R :=
  2 * perr Mx My (gdev Mx n) (gdev My n) + e * (4 * n * (Mx * My)) + t.

Lemma verr_closed Mx My n : verr Mx My n =
  (14 * n + 308) * (e * (Mx * My)) + (3 * n + 13) * (4 * Mx + 6 * My) * t + 3 * t.
Proof. unfold verr, perr, gdev. ring. Qed.

Lemma mul2_le a b x : 0 <= x -> a <= b -> a * x <= b * x.
Proof. intros. apply Rmult_le_compat_r; assumption. Qed.

Lemma cross_bound Mx My l : 0 <= Mx -> 0 <= My -> Forall (fun p => Rabs (fst p) <= Mx /\ Rabs (snd p) <= My) l ->
  Rabs (cosum l) <= 4 * card l * (Mx * My).
Proof.
  intros X0 Y0 H.
  assert (HX : Forall (fun x => Rabs x <= Mx) (xs l)).
  { unfold xs. apply Forall_map. eapply Forall_impl; [|exact H]. intros a Ha. apply Ha. }
  assert (HY : Forall (fun x => Rabs x <= My) (ys l)).
  { unfold ys. apply Forall_map. eapply Forall_impl; [|exact H]. intros a Ha. apply Ha. }
  unfold cosum. set (mx := mean (xs l)) in *. set (my := mean (ys l)) in *.
  assert (G : forall q, Forall (fun p => Rabs (fst p) <= Mx /\ Rabs (snd p) <= My) q ->
    Rabs (Rsum (map (fun p => (fst p - mx) * (snd p - my)) q)) <= 4 * card q * (Mx * My)).
  { induction q as [|p q IH]; intros Hq; [unfold card; cbn; rewrite Rabs_R0; lra|].
    inversion Hq as [|? ? [P1 P2] Hq']; subst. unfold card in *. change (length (p :: q)) with (S (length q)).
    rewrite S_INR. cbn [map Rsum]. eapply Rle_trans; [apply Rabs_triang|].
    assert (Rabs ((fst p - mx) * (snd p - my)) <= 4 * (Mx * My)).
    { rewrite Rabs_mult. replace (4 * (Mx * My)) with ((2 * Mx) * (2 * My)) by ring.
      apply Rmult_le_compat; try apply Rabs_pos; [apply (dev_abs Mx (xs l))|apply (dev_abs My (ys l))]; assumption. }
    pose proof (IH Hq'). lra. }
  apply G, H.
Qed.

Lemma verr_pos Mx My n : 0 <= Mx -> 0 <= My -> 0 <= n -> 0 <= perr Mx My (gdev Mx n) (gdev My n) /\
  0 <= e * (Mx * My) /\ 2 * perr Mx My (gdev Mx n) (gdev My n) + 4 * n * (e * (Mx * My)) + t = verr Mx My n.
Proof.
  intros X0 Y0 N0. pose proof He as [E0 _]. pose proof Ht as T0.
  assert (P : 0 <= Mx * My) by (apply Rmult_le_pos; lra).
  assert (Q : 0 <= e * (Mx * My)) by (apply Rmult_le_pos; lra).
  assert (GX : forall M, 0 <= M -> 0 <= gdev M n).
  { intros M M0. unfold gdev. assert (0 <= e * M) by (apply Rmult_le_pos; lra).
    apply Rplus_le_le_0_compat; apply Rmult_le_pos; lra. }
  split; [|split; [exact Q|unfold verr; ring]].
  unfold perr. pose proof (Rmult_le_pos _ _ X0 (GX My Y0)). pose proof (Rmult_le_pos _ _ Y0 (GX Mx X0)). lra.
Qed.

(** Size of the error terms. *)
Lemma verr_size Mx My n : 0 <= Mx -> 0 <= My -> 1 <= n -> 64 * n * e <= 1 -> 32 * n * t <= Mx -> 32 * n * t <= My ->
  verr Mx My n <= 20 * (Mx * My) + 3 * t.
Proof.
  intros X0 Y0 N1 H64 TX TY. pose proof He as [E0 _]. pose proof Ht as T0. rewrite verr_closed.
  assert (P : 0 <= Mx * My) by (apply Rmult_le_pos; lra).
  assert (A : (14 * n + 308) * e <= 6) by nra.
  assert (A' : (14 * n + 308) * (e * (Mx * My)) <= 6 * (Mx * My)) by (rewrite <- Rmult_assoc; apply Rmult_le_compat_r; lra).
  assert (C : (3 * n + 13) * t <= 16 * n * t) by (apply Rmult_le_compat_r; lra).
  assert (D1 : 2 * ((3 * n + 13) * t) * Mx <= My * Mx) by (apply Rmult_le_compat_r; lra).
  assert (D2 : 2 * ((3 * n + 13) * t) * My <= Mx * My) by (apply Rmult_le_compat_r; lra).
  replace ((3 * n + 13) * (4 * Mx + 6 * My) * t) with
    (2 * (2 * ((3 * n + 13) * t) * Mx) + 3 * (2 * ((3 * n + 13) * t) * My)) by ring.
  lra.
Qed.

(** Conditions under which the bounds below hold. *)
Definition fine (Mx My n : R) : Prop :=
  0 <= Mx /\ 0 <= My /\ 1 <= n /\ 64 * n * e <= 1 /\ 32 * n * t <= Mx /\ 32 * n * t <= My /\
  16 * Mx + 60 * n * t <= B /\ 16 * My + 60 * n * t <= B /\ 64 * n * (Mx * My) + 16 * n * t <= B.

Lemma fine_sym Mx My n : fine Mx My n -> fine My Mx n.
Proof. unfold fine. rewrite (Rmult_comm My Mx). tauto. Qed.

(** One product of deviations added to the sum; [fst] uses the old and [snd]
    the new mean or the other way around. *)
Lemma co_step Mx My n x y m1 m2 xv yv r1 r2 mv1 mv2 s sv S k :
  fine Mx My n -> val x xv -> val y yv -> val m1 r1 -> val m2 r2 ->
  Rabs (r1 - mv1) <= mdev Mx n -> Rabs (r2 - mv2) <= mdev My n ->
  Rabs (xv - mv1) <= 2 * Mx -> Rabs (yv - mv2) <= 2 * My ->
  val s sv -> Rabs (sv - S) <= 2 * k * verr Mx My n -> 0 <= k -> k + 1 <= n ->
  Rabs (S + (xv - mv1) * (yv - mv2)) <= 4 * n * (Mx * My) ->
  exists r, val (nadd s (nmul (nsub x m1) (nsub y m2))) r /\
    Rabs (r - (S + (xv - mv1) * (yv - mv2))) <= 2 * (k + 1) * verr Mx My n.
Proof.
  intros (X0 & Y0 & N1 & H64 & TX & TY & BX & BY & BXY) Vx Vy V1 V2 E1 E2 D1 D2 Vs HS K0 KN HN.
  pose proof He as [E0 _]. pose proof Ht as T0.
  assert (H16 : 16 * n * e <= 1) by nra.
  assert (nt : 0 <= n * t) by (apply Rmult_le_pos; lra).
  assert (P : 0 <= Mx * My) by (apply Rmult_le_pos; lra).
  destruct (mdev_size Mx n X0 N1 H16) as [_ SX]. destruct (mdev_size My n Y0 N1 H16) as [_ SY].
  destruct (dev_err x m1 xv r1 mv1 Mx (mdev Mx n) Vx V1 E1 D1) as (d1 & Vd1 & Ed1); [lra|].
  destruct (dev_err y m2 yv r2 mv2 My (mdev My n) Vy V2 E2 D2) as (d2 & Vd2 & Ed2); [lra|].
  pose proof (gdev_mdev Mx n X0 N1 H16) as GX. pose proof (gdev_mdev My n Y0 N1 H16) as GY.
  pose proof (verr_pos Mx My n X0 Y0 ltac:(lra)) as (h0 & eP & VE).
  pose proof (verr_size Mx My n X0 Y0 N1 H64 TX TY) as VS.
  set (X := verr Mx My n) in *. set (h := perr Mx My (gdev Mx n) (gdev My n)) in *.
  assert (NP : Mx * My <= n * (Mx * My)) by (rewrite <- (Rmult_1_l (Mx * My)) at 1; apply Rmult_le_compat_r; lra).
  destruct (prod_err _ _ d1 d2 (xv - mv1) (yv - mv2) Mx My (gdev Mx n) (gdev My n) Vd1 Vd2) as (p & Vp & Ep & _);
    [lra|lra|exact D1|exact D2|apply gdev_le; assumption|apply gdev_le; assumption|lra|].
  assert (neP : 0 <= n * (e * (Mx * My))) by (apply Rmult_le_pos; lra).
  assert (XX : 0 <= X) by lra.
  assert (XN : 2 * k * X <= 40 * n * (Mx * My) + 6 * n * t).
  { assert (2 * k * X <= 2 * n * X) by (apply Rmult_le_compat_r; lra).
    assert (2 * n * X <= 2 * n * (20 * (Mx * My) + 3 * t)) by (apply Rmult_le_compat_l; lra). lra. }
  destruct (acc_err true s _ sv p S _ (2 * k * X) h (4 * n * (Mx * My)) Vs Vp HS Ep HN) as (r & Vr & Er).
  { assert (h <= X / 2) by lra. assert (t <= n * t) by (rewrite <- (Rmult_1_l t) at 1; apply Rmult_le_compat_r; lra). lra. }
  exists r. split; [exact Vr|]. eapply Rle_trans; [exact Er|].
  assert (eX : e * (2 * k * X) <= X).
  { replace (e * (2 * k * X)) with (2 * (k * e) * X) by ring. apply scale_le; [exact XX|]. nra. }
  replace (e * (4 * n * (Mx * My))) with (4 * n * (e * (Mx * My))) by ring. lra.
Qed.

Lemma fine_shrink Mx My n k : fine Mx My n -> 1 <= k <= n -> fine Mx My k.
Proof.
  intros (X0 & Y0 & N1 & H64 & TX & TY & BX & BY & BXY) Hk. pose proof He as [E0 _]. pose proof Ht as T0.
  assert (k * t <= n * t) by (apply Rmult_le_compat_r; lra).
  assert (k * e <= n * e) by (apply Rmult_le_compat_r; lra).
  assert (k * (Mx * My) <= n * (Mx * My)) by (apply Rmult_le_compat_r; [apply Rmult_le_pos|]; lra).
  unfold fine. repeat split; lra.
Qed.

(** The final quotient. *)
Lemma co_quot Mx My n c s sv S : fine Mx My n -> val c n -> val s sv ->
  Rabs (sv - S) <= 2 * n * verr Mx My n -> Rabs S <= 4 * n * (Mx * My) ->
  exists r, val (ndiv s c) r /\ Rabs (r - S / n) <= 5 * verr Mx My n.
Proof.
  intros (X0 & Y0 & N1 & H64 & TX & TY & BX & BY & BXY) Vc Vs HS HB. pose proof He as [E0 E1]. pose proof Ht as T0.
  pose proof (verr_pos Mx My n X0 Y0 ltac:(lra)) as (h0 & eP & VE).
  pose proof (verr_size Mx My n X0 Y0 N1 H64 TX TY) as VS.
  set (X := verr Mx My n) in *.
  assert (P : 0 <= Mx * My) by (apply Rmult_le_pos; lra).
  assert (NP : Mx * My <= n * (Mx * My)) by (rewrite <- (Rmult_1_l (Mx * My)) at 1; apply Rmult_le_compat_r; lra).
  assert (NT : t <= n * t) by (rewrite <- (Rmult_1_l t) at 1; apply Rmult_le_compat_r; lra).
  assert (DN : forall z, Rabs (z / n) = Rabs z / n).
  { intros z. unfold Rdiv. rewrite Rabs_mult, (Rabs_pos_eq (/ n)) by (left; apply Rinv_0_lt_compat; lra). reflexivity. }
  assert (DL : forall z w, z <= n * w -> z / n <= w).
  { intros z w H. apply Rmult_le_reg_r with n; [lra|]. unfold Rdiv. rewrite Rmult_assoc, Rinv_l by lra. lra. }
  assert (SN : Rabs (S / n) <= 4 * (Mx * My)) by (rewrite DN; apply DL; lra).
  assert (SD : Rabs (sv / n - S / n) <= 2 * X).
  { replace (sv / n - S / n) with ((sv - S) / n) by (unfold Rdiv; ring). rewrite DN. apply DL. lra. }
  assert (SV : Rabs (sv / n) <= 4 * (Mx * My) + 2 * X).
  { replace (sv / n) with (S / n + (sv / n - S / n)) by ring. eapply Rle_trans; [apply Rabs_triang|]. lra. }
  destruct (ap_div _ _ _ _ _ _ AP _ _ _ _ Vs Vc) as (r & Vr & Nr); [lra|lra|]. unfold near in Nr.
  exists r. split; [exact Vr|].
  replace (r - S / n) with ((r - sv / n) + (sv / n - S / n)) by ring.
  eapply Rle_trans; [apply Rabs_triang|].
  assert (Y1 : e * Rabs (sv / n) <= 4 * (e * (Mx * My)) + 2 * X).
  { eapply Rle_trans; [apply Rmult_le_compat_l; [lra|exact SV]|].
    assert (0 <= n * (e * (Mx * My))) by (apply Rmult_le_pos; lra).
    assert (e * (2 * X) <= 2 * X) by (apply scale_le; lra). lra. }
  assert (Y2 : e * (Mx * My) <= n * (e * (Mx * My))) by (rewrite <- (Rmult_1_l (e * (Mx * My))) at 1; apply Rmult_le_compat_r; lra).
  lra.
Qed.

Definition pval (p : F * F) (pv : R * R) : Prop := val (fst p) (fst pv) /\ val (snd p) (snd pv).

Lemma pval_split l lv : Forall2 pval l lv -> Forall2 val (map fst l) (xs lv) /\ Forall2 val (map snd l) (ys lv).
Proof. induction 1 as [|p q l lv [H1 H2] _ [I1 I2]]; cbn; split; constructor; assumption. Qed.

Lemma cosum_step l x y : cosum (l ++ [(x, y)]) =
  cosum l + (x - mean (xs l ++ [x])) * (y - mean (ys l)).
Proof.
  rewrite cosum_snoc, mean_snoc. cbn [fst snd]. pose proof (card_nonneg l).
  replace (card (xs l)) with (card l) by (unfold card, xs; rewrite map_length; reflexivity). field. lra.
Qed.

Lemma csum_step l x : csum 2 (l ++ [x]) = csum 2 l + (x - mean l) * (x - mean (l ++ [x])).
Proof. rewrite csum_2_snoc, mean_snoc. pose proof (card_nonneg l). field. lra. Qed.

Lemma ccov_acc Mx My n l lv : fine Mx My n -> Forall2 pval l lv ->
  Forall (fun p => Rabs (fst p) <= Mx /\ Rabs (snd p) <= My) lv ->
  (N.of_nat (length l) <= K)%N -> (N.of_nat (length l) < szmod)%N -> INR (length l) <= n ->
  exists r, val (cc_center F (fold_left (ccov_push F) l (ccov_init F))) r /\
    Rabs (r - cosum lv) <= 2 * INR (length l) * verr Mx My n.
Proof.
  intros Fi. pose proof Fi as (X0 & Y0 & N1 & H64 & TX & TY & BX & BY & BXY).
  revert lv. induction l as [|[x y] l IH] using rev_ind; intros lv V HM HK HS HN.
  - inversion V; subst. exists 0. split; [apply (ap_0 _ _ _ _ _ _ AP)|]. cbn. rewrite Rminus_0_r, Rabs_R0. lra.
  - apply Forall2_app_inv_l in V. destruct V as (lv' & pv' & V & Vp & ->).
    inversion Vp as [|? [xv yv] ? ? [Vx Vy] Vnil]; subst. inversion Vnil; subst. clear Vp Vnil. cbn [fst snd] in Vx, Vy.
    assert (CB : Rabs (cosum (lv' ++ [(xv, yv)])) <= 4 * card (lv' ++ [(xv, yv)]) * (Mx * My)) by (apply cross_bound; assumption).
    apply Forall_app in HM. destruct HM as [HM Hp]. inversion Hp as [|? ? [Hx Hy] _]; subst. cbn [fst snd] in Hx, Hy.
    rewrite length_snoc in *. rewrite S_INR in *.
    destruct (IH lv' V HM) as (s & Vs & Es); [lia|lia|lra|]. clear IH.
    destruct (pval_split l lv' V) as [Vxs Vys].
    assert (HX : Forall (fun x => Rabs x <= Mx) (xs lv')).
    { unfold xs. apply Forall_map. eapply Forall_impl; [|exact HM]. intros a Ha. apply Ha. }
    assert (HY : Forall (fun x => Rabs x <= My) (ys lv')).
    { unfold ys. apply Forall_map. eapply Forall_impl; [|exact HM]. intros a Ha. apply Ha. }
    assert (HX' : Forall (fun x => Rabs x <= Mx) (xs lv' ++ [xv])) by (apply Forall_app; split; [exact HX|constructor; [exact Hx|constructor]]).
    assert (VX' : Forall2 val (map fst l ++ [x]) (xs lv' ++ [xv])) by (apply Forall2_app; [exact Vxs|constructor; [exact Vx|constructor]]).
    assert (L1 : length (map fst l ++ [x]) = S (length l)) by (rewrite length_snoc, map_length; reflexivity).
    assert (L2 : length (map snd l) = length l) by apply map_length.
    destruct (mean_near Mx n _ _ X0 VX' HX') as (m1 & Vm1 & Em1); rewrite ?L1, ?S_INR; [exact HK|exact HS|exact HN|exact N1|nra|lra|].
    destruct (mean_near My n _ _ Y0 Vys HY) as (m2 & Vm2 & Em2); rewrite ?L2; [lia|lia|lra|exact N1|nra|lra|].
    rewrite fold_left_app. cbn [fold_left].
    pose proof (ccov_fold_x F l (ccov_init F)) as SX. pose proof (ccov_fold_y F l (ccov_init F)) as SY.
    set (c := fold_left (ccov_push F) l (ccov_init F)) in *.
    unfold ccov_push. cbn [cc_center]. rewrite SX, SY. cbn [ccov_init cc_x cc_y].
    rewrite fold_left_app in Vm1. cbn [fold_left] in Vm1.
    rewrite cosum_step. rewrite cosum_step in CB. unfold cmean_mean.
    apply (co_step Mx My n x y _ _ xv yv m1 m2 _ _ _ s); try assumption.
    + apply dev_abs; assumption.
    + apply dev_abs; assumption.
    + apply pos_INR.
    + eapply Rle_trans; [exact CB|]. unfold card. rewrite length_snoc, S_INR.
      apply Rmult_le_compat_r; [apply Rmult_le_pos; assumption|].
      rewrite <- (forall2_len _ _ _ V). lra.
Qed.

Lemma count_val (A : Type) (l : list A) : l <> [] -> (N.of_nat (length l) <= K)%N -> val (nofsz (N.of_nat (length l))) (INR (length l)).
Proof.
  intros NE HK. rewrite <- inr_count. apply (ap_count _ _ _ _ _ _ AP). destruct l; [contradiction|cbn in *; lia].
Qed.

Lemma cmean_fold_count l : (N.of_nat (length l) < szmod)%N ->
  cm_count F (fold_left (cmean_push F) l (cmean_init F)) = N.of_nat (length l).
Proof.
  induction l as [|x l IH] using rev_ind; intros H; [reflexivity|].
  rewrite fold_left_app. cbn [fold_left]. rewrite length_snoc in *.
  set (s := fold_left (cmean_push F) l (cmean_init F)) in *. unfold cmean_push. cbn [cm_count].
  rewrite IH by lia. rewrite szadd_small by lia. lia.
Qed.

Lemma inr_ge1 {A : Type} (l : list A) : l <> [] -> 1 <= INR (length l).
Proof.
  intros H. destruct l; [contradiction|]. change (length (a :: l)) with (S (length l)). rewrite S_INR.
  pose proof (pos_INR (length l)). lra.
Qed.

Lemma ccov_accuracy Mx My l lv : let n := INR (length l) in fine Mx My n -> Forall2 pval l lv ->
  Forall (fun p => Rabs (fst p) <= Mx /\ Rabs (snd p) <= My) lv -> l <> [] ->
  (N.of_nat (length l) <= K)%N -> (N.of_nat (length l) < szmod)%N ->
  exists r, val (ccov_variance F (fold_left (ccov_push F) l (ccov_init F))) r /\
    Rabs (r - covariance lv) <= 5 * verr Mx My n.
Proof.
  intros n Fi V HM NE HK HS.
  destruct (ccov_acc Mx My n l lv Fi V HM HK HS ltac:(unfold n; lra)) as (s & Vs & Es).
  unfold ccov_variance, ccov_size, cmean_size. rewrite ccov_fold_x. cbn [ccov_init cc_x].
  rewrite cmean_fold_count, map_length by (rewrite map_length; exact HS).
  assert (NZ : (0 <? N.of_nat (length l))%N = true) by (apply N.ltb_lt; destruct l; [contradiction|cbn; lia]).
  rewrite NZ. unfold covariance, card. rewrite <- (forall2_len _ _ _ V). fold n.
  apply (co_quot Mx My n _ _ s); [exact Fi|apply count_val; assumption|exact Vs|exact Es|].
  pose proof Fi as (X0 & Y0 & _).
  pose proof (cross_bound Mx My lv X0 Y0 HM) as C. unfold card in C. rewrite <- (forall2_len _ _ _ V) in C. exact C.
Qed.

Lemma csum_bound M l : 0 <= M -> Forall (fun x => Rabs x <= M) l -> Rabs (csum 2 l) <= 4 * card l * (M * M).
Proof.
  intros M0 H. rewrite <- cosum_diag. replace (card l) with (card (map (fun x => (x, x)) l)) by (unfold card; rewrite map_length; reflexivity).
  apply cross_bound; try assumption. apply Forall_map. eapply Forall_impl; [|exact H]. intros a Ha. split; exact Ha.
Qed.

Lemma cvar_acc M n l lv : fine M M n -> Forall2 val l lv -> Forall (fun x => Rabs x <= M) lv ->
  (N.of_nat (length l) <= K)%N -> (N.of_nat (length l) < szmod)%N -> INR (length l) <= n ->
  exists r, val (cv_sum F (fold_left (cvar_push F) l (cvar_init F))) r /\
    Rabs (r - csum 2 lv) <= 2 * INR (length l) * verr M M n.
Proof.
  intros Fi. pose proof Fi as (X0 & _ & N1 & H64 & TX & _ & BX & _ & BXY).
  revert lv. induction l as [|x l IH] using rev_ind; intros lv V HM HK HS HN.
  - inversion V; subst. exists 0. split; [apply (ap_0 _ _ _ _ _ _ AP)|]. cbn. rewrite Rminus_0_r, Rabs_R0. lra.
  - pose proof V as V0. apply Forall2_app_inv_l in V. destruct V as (lv' & pv' & V & Vp & ->).
    inversion Vp as [|? xv ? ? Vx Vnil]; subst. inversion Vnil; subst. clear Vp Vnil.
    pose proof (csum_bound M _ X0 HM) as CB. pose proof HM as HM0.
    apply Forall_app in HM. destruct HM as [HM Hp]. inversion Hp as [|? ? Hx _]; subst.
    rewrite length_snoc in *. rewrite S_INR in *.
    destruct (IH lv' V HM) as (s & Vs & Es); [lia|lia|lra|]. clear IH.
    assert (L1 : length (l ++ [x]) = S (length l)) by apply length_snoc.
    destruct (mean_near M n _ _ X0 V0 HM0) as (m2 & Vm2 & Em2); rewrite ?L1, ?S_INR; [exact HK|exact HS|exact HN|exact N1|nra|lra|].
    destruct (mean_near M n _ _ X0 V HM) as (m1 & Vm1 & Em1); [lia|lia|lra|exact N1|nra|lra|].
    rewrite fold_left_app. cbn [fold_left].
    pose proof (cvar_fold_super F l (cvar_init F)) as SX.
    set (c := fold_left (cvar_push F) l (cvar_init F)) in *.
    unfold cvar_push. cbn [cv_sum]. rewrite SX. cbn [cvar_init cv_super].
    rewrite fold_left_app in Vm2. cbn [fold_left] in Vm2.
    rewrite csum_step. rewrite csum_step in CB. unfold cmean_mean.
    apply (co_step M M n x x _ _ xv xv m1 m2 _ _ _ s); try assumption.
    + apply dev_abs; assumption.
    + apply dev_abs; assumption.
    + apply pos_INR.
    + eapply Rle_trans; [exact CB|]. unfold card. rewrite length_snoc, S_INR.
      apply Rmult_le_compat_r; [apply Rmult_le_pos; assumption|].
      rewrite <- (forall2_len _ _ _ V). lra.
Qed.

Lemma cvar_accuracy M l lv : let n := INR (length l) in fine M M n -> Forall2 val l lv ->
  Forall (fun x => Rabs x <= M) lv -> l <> [] ->
  (N.of_nat (length l) <= K)%N -> (N.of_nat (length l) < szmod)%N ->
  exists r, val (cvar_variance F (fold_left (cvar_push F) l (cvar_init F))) r /\
    Rabs (r - variance lv) <= 5 * verr M M n.
Proof.
  intros n Fi V HM NE HK HS.
  destruct (cvar_acc M n l lv Fi V HM HK HS ltac:(unfold n; lra)) as (s & Vs & Es).
  unfold cvar_variance. rewrite cvar_fold_super. cbn [cvar_init cv_super].
  rewrite cmean_fold_count by exact HS.
  unfold variance, card. rewrite <- (forall2_len _ _ _ V). fold n.
  apply (co_quot M M n _ _ s); [exact Fi|apply count_val; assumption|exact Vs|exact Es|].
  pose proof Fi as (X0 & _).
  pose proof (csum_bound M lv X0 HM) as C. unfold card in C. rewrite <- (forall2_len _ _ _ V) in C. exact C.
Qed.

End Variance.
