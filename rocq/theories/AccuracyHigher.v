(** * Error bounds for the third and fourth moment *)

From Coq Require Import Reals ZArith NArith Bool List Lra Lia Psatz.
From Flocq Require Import Core.
From Verif Require Import Arith History HistoryLemmas SpecStats StatsLemmas Buffer Cumulative CumulativeProofs
  Approx SpecError AccuracyProofs AccuracyFilters AccuracyVariance AccuracyRegression.
Import ListNotations.
Local Open Scope R_scope.

Section Higher.
Context {F : num} {val : F -> R -> Prop} {B e t : R} {K : N}.
Hypothesis AP : approx F val B e t K.
Hypothesis E16 : 16 * e <= 1.

Local Notation He := (ap_e _ _ _ _ _ _ AP).
Local Notation Ht := (ap_t _ _ _ _ _ _ AP).

(** [x] denotes [X], of magnitude at most [U], with an error of [c] rounding
    errors of [U]. *)
Definition q (x : F) (X U c : R) : Prop := Rabs X <= U /\ exists r, val x r /\ Rabs (r - X) <= c * (e * U).

Lemma q_pos x X U c : q x X U c -> 0 <= U.
Proof. intros [H _]. pose proof (Rabs_pos X). lra. Qed.

Lemma q_exact x X U : val x X -> Rabs X <= U -> q x X U 0.
Proof. intros V H. split; [exact H|]. exists X. split; [exact V|]. replace (X - X) with 0 by ring. rewrite Rabs_R0. lra. Qed.

Lemma q_weaken x X U c c' : q x X U c -> c <= c' -> q x X U c'.
Proof.
  intros Q L. pose proof (q_pos _ _ _ _ Q) as U0. destruct Q as (H & r & V & Er).
  split; [exact H|]. exists r. split; [exact V|]. eapply Rle_trans; [exact Er|].
  pose proof He. apply Rmult_le_compat_r; [apply Rmult_le_pos; lra|exact L].
Qed.

Lemma q_eq x X Y U V c : q x X U c -> X = Y -> U = V -> q x Y V c.
Proof. intros Q -> ->. exact Q. Qed.

Lemma q_abs x X U c : q x X U c -> 16 * (c * e) <= 1 -> exists r, val x r /\ Rabs (r - X) <= c * (e * U) /\ Rabs r <= 17 / 16 * U.
Proof.
  intros Q C. pose proof (q_pos _ _ _ _ Q) as U0. destruct Q as (H & r & V & Er). exists r. split; [exact V|]. split; [exact Er|].
  pose proof (close_abs _ _ _ Er). assert (c * (e * U) <= / 16 * U) by (rewrite <- Rmult_assoc; apply Rmult_le_compat_r; lra).
  lra.
Qed.

(** One rounding on top of an error of [c] units. *)
Lemma q_round a x X U c k : Rabs X <= U -> Rabs (a - X) <= c * (e * U) -> 16 * (c * e) <= 1 -> 16 * t <= e * U ->
  (Rabs a <= B -> exists r, val x r /\ near e t a r) -> 2 * U <= B -> c + 5 / 4 <= k -> q x X U k.
Proof.
  intros H Ha C T R HB Hk. pose proof He as [E0 _]. assert (U0 : 0 <= U) by (pose proof (Rabs_pos X); lra).
  assert (A : Rabs a <= 17 / 16 * U).
  { pose proof (close_abs _ _ _ Ha). assert (c * (e * U) <= / 16 * U) by (rewrite <- Rmult_assoc; apply Rmult_le_compat_r; lra). lra. }
  destruct R as (r & V & N); [lra|]. unfold near in N. split; [exact H|]. exists r. split; [exact V|].
  replace (r - X) with ((r - a) + (a - X)) by ring. eapply Rle_trans; [apply Rabs_triang|].
  assert (e * Rabs a <= e * (17 / 16 * U)) by (apply Rmult_le_compat_l; lra).
  assert (eU : 0 <= e * U) by (apply Rmult_le_pos; lra).
  assert ((c + 5 / 4) * (e * U) <= k * (e * U)) by (apply Rmult_le_compat_r; lra). lra.
Qed.

Lemma q_mul x y X Y U V c d k : q x X U c -> q y Y V d -> 0 <= c -> 0 <= d -> 16 * (c * e) <= 1 -> 16 * ((c + 17 / 16 * d) * e) <= 1 ->
  16 * t <= e * (U * V) -> 2 * (U * V) <= B -> c + 17 / 16 * d + 5 / 4 <= k -> q (nmul x y) (X * Y) (U * V) k.
Proof.
  intros Qx Qy C0 D0 C1 C2 T HB Hk. pose proof He as [E0 _].
  pose proof (q_pos _ _ _ _ Qx) as U0. pose proof (q_pos _ _ _ _ Qy) as V0.
  destruct Qx as (HX & a & Va & Ea). destruct Qy as (HY & b & Vb & Eb).
  assert (XY : Rabs (X * Y) <= U * V) by (rewrite Rabs_mult; apply Rmult_le_compat; try apply Rabs_pos; assumption).
  apply (q_round (a * b) _ _ _ (c + 17 / 16 * d)); try assumption.
  - eapply Rle_trans; [apply (mul_close a b X Y _ _ Ea Eb)|]. unfold merr2.
    assert (eV : 0 <= e * V) by (apply Rmult_le_pos; lra). assert (eU : 0 <= e * U) by (apply Rmult_le_pos; lra).
    assert (Rabs X * (d * (e * V)) <= U * (d * (e * V))) by (apply Rmult_le_compat_r; [apply Rmult_le_pos; lra|exact HX]).
    assert (Rabs Y * (c * (e * U)) <= V * (c * (e * U))) by (apply Rmult_le_compat_r; [apply Rmult_le_pos; lra|exact HY]).
    assert (c * (e * U) * (d * (e * V)) <= / 16 * U * (d * (e * V))).
    { apply Rmult_le_compat_r; [apply Rmult_le_pos; lra|]. rewrite <- Rmult_assoc. apply Rmult_le_compat_r; lra. }
    lra.
  - intros Hab. apply (ap_mul _ _ _ _ _ _ AP); assumption.
Qed.

(** With the factors' roles exchanged. *)
Lemma q_mulr x y X Y U V c d k : q x X U c -> q y Y V d -> 0 <= c -> 0 <= d -> 16 * (d * e) <= 1 -> 16 * ((17 / 16 * c + d) * e) <= 1 ->
  16 * t <= e * (U * V) -> 2 * (U * V) <= B -> 17 / 16 * c + d + 5 / 4 <= k -> q (nmul x y) (X * Y) (U * V) k.
Proof.
  intros Qx Qy C0 D0 C1 C2 T HB Hk. pose proof He as [E0 _].
  pose proof (q_pos _ _ _ _ Qx) as U0. pose proof (q_pos _ _ _ _ Qy) as V0.
  destruct Qx as (HX & a & Va & Ea). destruct Qy as (HY & b & Vb & Eb).
  assert (XY : Rabs (X * Y) <= U * V) by (rewrite Rabs_mult; apply Rmult_le_compat; try apply Rabs_pos; assumption).
  apply (q_round (a * b) _ _ _ (17 / 16 * c + d)); try assumption.
  - eapply Rle_trans; [apply (mul_close a b X Y _ _ Ea Eb)|]. unfold merr2.
    assert (eV : 0 <= e * V) by (apply Rmult_le_pos; lra). assert (eU : 0 <= e * U) by (apply Rmult_le_pos; lra).
    assert (Rabs X * (d * (e * V)) <= U * (d * (e * V))) by (apply Rmult_le_compat_r; [apply Rmult_le_pos; lra|exact HX]).
    assert (Rabs Y * (c * (e * U)) <= V * (c * (e * U))) by (apply Rmult_le_compat_r; [apply Rmult_le_pos; lra|exact HY]).
    assert (c * (e * U) * (d * (e * V)) <= c * (e * U) * (/ 16 * V)).
    { apply Rmult_le_compat_l; [apply Rmult_le_pos; lra|]. rewrite <- Rmult_assoc. apply Rmult_le_compat_r; lra. }
    lra.
  - intros Hab. apply (ap_mul _ _ _ _ _ _ AP); assumption.
Qed.

Lemma q_divz x y X z U c k : q x X U c -> val y z -> 0 < z -> 0 <= c -> 16 * (c * e) <= 1 ->
  16 * t <= e * (U / z) -> 2 * (U / z) <= B -> c + 5 / 4 <= k -> q (ndiv x y) (X / z) (U / z) k.
Proof.
  intros Qx Vz Z0 C0 C1 T HB Hk. pose proof (q_pos _ _ _ _ Qx) as U0. destruct Qx as (HX & a & Va & Ea).
  assert (I : 0 < / z) by (apply Rinv_0_lt_compat; exact Z0).
  apply (q_round (a / z) _ _ _ c); try assumption.
  - unfold Rdiv. rewrite Rabs_mult, (Rabs_pos_eq (/ z)) by lra. apply Rmult_le_compat_r; lra.
  - unfold Rdiv. replace (a * / z - X * / z) with ((a - X) * / z) by ring. rewrite Rabs_mult, (Rabs_pos_eq (/ z)) by lra.
    rewrite <- !Rmult_assoc. apply Rmult_le_compat_r; lra.
  - intros Haz. apply (ap_div _ _ _ _ _ _ AP); [assumption..|lra|assumption].
Qed.

Lemma q_addg (sg : bool) x y X Y U V W c d h k : q x X U c -> q y Y V d -> 0 <= c -> 0 <= d ->
  Rabs (if sg then X + Y else X - Y) <= W -> c * U + d * V <= h * W -> 16 * (h * e) <= 1 ->
  16 * t <= e * W -> 2 * W <= B -> h + 5 / 4 <= k ->
  q (if sg then nadd x y else nsub x y) (if sg then X + Y else X - Y) W k.
Proof.
  intros Qx Qy C0 D0 HW Hh He1 T HB Hk. pose proof He as [E0 _].
  destruct Qx as (HX & a & Va & Ea). destruct Qy as (HY & b & Vb & Eb).
  assert (S : c * (e * U) + d * (e * V) <= h * (e * W)).
  { replace (c * (e * U) + d * (e * V)) with (e * (c * U + d * V)) by ring.
    replace (h * (e * W)) with (e * (h * W)) by ring. apply Rmult_le_compat_l; lra. }
  apply (q_round (if sg then a + b else a - b) _ _ _ h); try assumption.
  - destruct sg.
    + replace (a + b - (X + Y)) with ((a - X) + (b - Y)) by ring. eapply Rle_trans; [apply Rabs_triang|]. lra.
    + replace (a - b - (X - Y)) with ((a - X) + - (b - Y)) by ring. eapply Rle_trans; [apply Rabs_triang|].
      rewrite Rabs_Ropp. lra.
  - intros H. destruct sg; [apply (ap_add _ _ _ _ _ _ AP)|apply (ap_sub _ _ _ _ _ _ AP)]; assumption.
Qed.

(** ** Division by an inexact number *)
Lemma q_div x y X Y U c d G k : q x X U c -> q y Y Y d -> 0 < Y -> 0 <= c -> 0 <= d -> 16 * (d * e) <= 1 ->
  Rabs X <= G * Y -> 0 <= G -> forall W, G <= W -> (c * (U / Y) + d * G) * (16 / 15) <= (k - 5 / 4) * W ->
  16 * ((k - 5 / 4) * e) <= 1 -> 16 * t <= e * W -> 2 * W <= B -> q (ndiv x y) (X / Y) W k.
Proof.
  intros Qx Qy Y0 C0 D0 D1 HG G0 W GW Hk K1 T HB. pose proof He as [E0 _]. pose proof (q_pos _ _ _ _ Qx) as U0.
  destruct Qx as (HX & a & Va & Ea). destruct Qy as (_ & b & Vb & Eb).
  assert (I : 0 < / Y) by (apply Rinv_0_lt_compat; exact Y0).
  assert (Hb : 15 / 16 * Y <= b).
  { assert (d * (e * Y) <= / 16 * Y) by (rewrite <- Rmult_assoc; apply Rmult_le_compat_r; lra). apply Rabs_le_inv in Eb. lra. }
  assert (XG : Rabs (X / Y) <= G).
  { unfold Rdiv. rewrite Rabs_mult, (Rabs_pos_eq (/ Y)) by lra. replace G with (G * Y * / Y) by (field; lra).
    apply Rmult_le_compat_r; lra. }
  apply (q_round (a / b) _ _ _ (k - 5 / 4)); try assumption; [lra| | |lra].
  - replace (a / b - X / Y) with (((a - X) + - (X / Y * (b - Y))) * / b) by (field; lra).
    rewrite Rabs_mult, (Rabs_pos_eq (/ b)) by (left; apply Rinv_0_lt_compat; lra).
    assert (A : Rabs ((a - X) + - (X / Y * (b - Y))) <= c * (e * U) + G * (d * (e * Y))).
    { eapply Rle_trans; [apply Rabs_triang|]. rewrite Rabs_Ropp, Rabs_mult. apply Rplus_le_compat; [exact Ea|].
      apply Rmult_le_compat; try apply Rabs_pos; assumption. }
    assert (IB : / b <= 16 / 15 * / Y).
    { replace (16 / 15 * / Y) with (/ (15 / 16 * Y)) by (field; lra). apply Rinv_le_contravar; lra. }
    eapply Rle_trans; [apply Rmult_le_compat; [apply Rabs_pos|left; apply Rinv_0_lt_compat; lra|exact A|exact IB]|].
    replace ((c * (e * U) + G * (d * (e * Y))) * (16 / 15 * / Y)) with (e * ((c * (U / Y) + d * G) * (16 / 15))) by (field; lra).
    replace ((k - 5 / 4) * (e * W)) with (e * ((k - 5 / 4) * W)) by ring. apply Rmult_le_compat_l; lra.
  - intros Hab. apply (ap_div _ _ _ _ _ _ AP); [assumption..|lra|assumption].
Qed.

(** ** Sums of powers of deviations *)
Lemma csum_3_bound M l : 0 <= M -> Forall (fun x => Rabs x <= M) l ->
  Rabs (csum 3 l) <= 2 * M * csum 2 l.
Proof.
  intros M0 H. unfold csum. set (m := mean l).
  assert (G : forall k, Forall (fun x => Rabs (x - m) <= 2 * M) k ->
    Rabs (Rsum (map (fun x => (x - m) ^ 3) k)) <= 2 * M * Rsum (map (fun x => (x - m) ^ 2) k)).
  { induction k as [|x k IH]; intros Hk; [cbn; rewrite Rabs_R0; lra|]. inversion Hk; subst. cbn [map Rsum].
    eapply Rle_trans; [apply Rabs_triang|]. specialize (IH ltac:(assumption)).
    assert (Rabs ((x - m) ^ 3) <= 2 * M * (x - m) ^ 2).
    { replace ((x - m) ^ 3) with ((x - m) * (x - m) ^ 2) by ring. rewrite Rabs_mult, (Rabs_pos_eq ((x - m) ^ 2)) by apply pow2_ge_0.
      apply Rmult_le_compat_r; [apply pow2_ge_0|assumption]. }
    lra. }
  apply G. apply Forall_forall. intros x Hx. apply dev_abs; [exact M0|exact H|]. rewrite Forall_forall in H. apply H, Hx.
Qed.

Lemma csum_4_bound M l : 0 <= M -> Forall (fun x => Rabs x <= M) l ->
  0 <= csum 4 l <= 4 * (M * M) * csum 2 l.
Proof.
  intros M0 H. unfold csum. set (m := mean l).
  assert (G : forall k, Forall (fun x => Rabs (x - m) <= 2 * M) k ->
    0 <= Rsum (map (fun x => (x - m) ^ 4) k) <= 4 * (M * M) * Rsum (map (fun x => (x - m) ^ 2) k)).
  { induction k as [|x k IH]; intros Hk; [cbn; lra|]. inversion Hk; subst. cbn [map Rsum].
    specialize (IH ltac:(assumption)).
    assert (P : 0 <= (x - m) ^ 2) by apply pow2_ge_0.
    assert (Q : (x - m) ^ 2 <= 4 * (M * M)).
    { rewrite <- (Rabs_pos_eq ((x - m) ^ 2)) by exact P. replace ((x - m) ^ 2) with ((x - m) * (x - m)) by ring.
      rewrite Rabs_mult. replace (4 * (M * M)) with (2 * M * (2 * M)) by ring.
      apply Rmult_le_compat; try apply Rabs_pos; assumption. }
    assert (0 <= (x - m) ^ 4 <= 4 * (M * M) * (x - m) ^ 2).
    { replace ((x - m) ^ 4) with ((x - m) ^ 2 * (x - m) ^ 2) by ring. split; [apply Rmult_le_pos; exact P|].
      apply Rmult_le_compat_r; assumption. }
    lra. }
  apply G. apply Forall_forall. intros x Hx. apply dev_abs; [exact M0|exact H|]. rewrite Forall_forall in H. apply H, Hx.
Qed.

Lemma csum_3_card M l : 0 <= M -> Forall (fun x => Rabs x <= M) l -> Rabs (csum 3 l) <= 8 * card l * (M * (M * M)).
Proof.
  intros M0 H. eapply Rle_trans; [apply (csum_3_bound M); assumption|].
  pose proof (csum_bound M l M0 H) as C. apply Rabs_le_inv in C.
  replace (8 * card l * (M * (M * M))) with (2 * M * (4 * card l * (M * M))) by ring.
  apply Rmult_le_compat_l; lra.
Qed.

Lemma csum_4_card M l : 0 <= M -> Forall (fun x => Rabs x <= M) l -> Rabs (csum 4 l) <= 16 * card l * (M * M * (M * M)).
Proof.
  intros M0 H. destruct (csum_4_bound M l M0 H) as [H0 H1]. rewrite Rabs_pos_eq by exact H0. eapply Rle_trans; [exact H1|].
  pose proof (csum_bound M l M0 H) as C. apply Rabs_le_inv in C.
  replace (16 * card l * (M * M * (M * M))) with (4 * (M * M) * (4 * card l * (M * M))) by ring.
  apply Rmult_le_compat_l; [|lra]. pose proof (Rmult_le_pos _ _ M0 M0). lra.
Qed.

(** ** The conditions *)

(** Literals, zero and the largest size_t as values. *)
Hypothesis lit : forall z, (0 <= z <= 6)%Z -> val (nofz z) (IZR z).
Hypothesis zero : val (nofsz 0) 0.
Variable Z : R.
Hypothesis wrap : val (nofsz (szmod - 1)) Z.

Definition tame (M n : R) : Prop :=
  1 <= n /\ 0 < M /\ 1024 * (n + 64) * e <= 1 /\
  256 * n * t <= e * M /\ 256 * n * t <= e * (M * M) /\ 256 * t <= e * (M * (M * M)) /\ 64 * (1 + Rabs Z) * t <= e * (M * M) /\
  128 * (n * n * (1 + M * M)) <= B /\ 1024 * (n * (M * (M * M))) <= B.

Section Tame.
Variables M n : R.
Hypothesis TM : tame M n.

Lemma tame_fine : fine (B := B) (e := e) (t := t) M M n.
Proof.
  destruct TM as (N1 & M0 & HE & T1 & T2 & T3 & TZ & B1 & B2). pose proof He as [E0 E1]. pose proof Ht as T0.
  assert (P : 0 <= M * M) by (apply Rmult_le_pos; lra).
  assert (eM : e * M <= M) by (rewrite <- (Rmult_1_l M) at 2; apply Rmult_le_compat_r; lra).
  assert (NN : n <= n * n) by (rewrite <- (Rmult_1_l n) at 1; apply Rmult_le_compat_r; lra).
  assert (nt : 0 <= n * t) by (apply Rmult_le_pos; lra).
  assert (N1M : n * (1 + M * M) <= n * n * (1 + M * M)) by (apply Rmult_le_compat_r; lra).
  assert (nP : 0 <= n * (M * M)) by (apply Rmult_le_pos; lra).
  assert (MM : M <= 1 + M * M) by (pose proof (pow2_ge_0 (M - 1)); lra).
  assert (MN : M <= n * (1 + M * M)).
  { eapply Rle_trans; [exact MM|]. rewrite <- (Rmult_1_l (1 + M * M)) at 1. apply Rmult_le_compat_r; lra. }
  unfold fine. repeat split; try lra.
Qed.

Lemma small c : 0 <= c -> c <= 64 * (n + 64) -> 16 * (c * e) <= 1.
Proof.
  intros C0 C1. destruct TM as (N1 & M0 & HE & _). pose proof He as [E0 E1].
  assert (c * e <= 64 * (n + 64) * e) by (apply Rmult_le_compat_r; lra). lra.
Qed.

Lemma tdiv W k : 256 * n * t <= e * W -> 1 <= k <= n -> 16 * t <= e * (W / k).
Proof.
  intros H [K1 K2]. pose proof Ht as T0. replace (e * (W / k)) with (e * W / k) by (field; lra).
  apply (Rmult_le_reg_r k); [lra|]. replace (e * W / k * k) with (e * W) by (field; lra).
  assert (k * t <= n * t) by (apply Rmult_le_compat_r; lra). assert (0 <= k * t) by (apply Rmult_le_pos; lra). lra.
Qed.

(** Deviation of a value from the mean of the values before it. *)
Lemma delta_q l lv x xv : Forall2 val l lv -> Forall (fun x => Rabs x <= M) lv -> val x xv -> Rabs xv <= M ->
  (N.of_nat (length l) <= K)%N -> (N.of_nat (length l) < szmod)%N -> INR (length l) <= n ->
  q (nsub x (cm_mean F (fold_left (cmean_push F) l (cmean_init F)))) (xv - mean lv) (2 * M) ((n + 30) / 2).
Proof.
  intros V HM Vx Hx HK HS HN. destruct tame_fine as (M0 & _ & N1 & H64 & TX & _ & BX & _ & BXY).
  pose proof He as [E0 E1]. pose proof Ht as T0.
  destruct (mean_near AP M n l lv M0 V HM HK HS HN N1 ltac:(nra) BX) as (m & Vm & Em).
  assert (H16 : 16 * n * e <= 1) by nra.
  destruct (mdev_size AP M n M0 N1 H16) as [D0 D1].
  assert (DA : Rabs (xv - mean lv) <= 2 * M) by (apply dev_abs; assumption).
  destruct (dev_err AP x _ xv m (mean lv) M (mdev M n) Vx Vm Em DA) as (d & Vd & Ed).
  { assert (0 <= n * t) by (apply Rmult_le_pos; lra). lra. }
  split; [exact DA|]. exists d. split; [exact Vd|]. pose proof (gdev_mdev AP M n M0 N1 H16) as G.
  eapply Rle_trans; [exact Ed|]. eapply Rle_trans; [exact G|]. unfold gdev.
  destruct TM as (_ & _ & _ & T1 & _).
  assert ((3 * n + 13) * t <= 16 * n * t) by (apply Rmult_le_compat_r; lra).
  assert (0 <= n * t) by (apply Rmult_le_pos; lra). lra.
Qed.

(** The second central sum. *)
Lemma m2_q l lv k : Forall2 val l lv -> Forall (fun x => Rabs x <= M) lv ->
  (N.of_nat (length l) <= K)%N -> (N.of_nat (length l) < szmod)%N -> INR (length l) <= k -> 0 < k <= n ->
  q (cv_sum F (fold_left (cvar_push F) l (cvar_init F))) (csum 2 lv) (4 * k * (M * M)) ((14 * n + 309) / 2).
Proof.
  intros V HM HK HS Hk [K0 KN]. pose proof He as [E0 E1]. pose proof Ht as T0.
  destruct TM as (N1 & M0 & _ & T1 & T2 & _).
  destruct (cvar_acc AP M n l lv tame_fine V HM HK HS ltac:(lra)) as (s & Vs & Es).
  assert (P : 0 <= M * M) by (apply Rmult_le_pos; lra).
  split.
  { eapply Rle_trans; [apply (csum_bound M); [lra|exact HM]|]. unfold card. rewrite <- (forall2_len _ _ _ V).
    apply Rmult_le_compat_r; lra. }
  exists s. split; [exact Vs|]. eapply Rle_trans; [exact Es|]. rewrite verr_closed.
  assert (X : (3 * n + 13) * (4 * M + 6 * M) * t + 3 * t <= e * (M * M)).
  { assert ((3 * n + 13) * t <= 16 * n * t) by (apply Rmult_le_compat_r; lra).
    assert (A : (3 * n + 13) * t * (10 * M) <= 16 * n * t * (10 * M)) by (apply Rmult_le_compat_r; lra).
    assert (256 * n * t * M <= e * M * M) by (apply Rmult_le_compat_r; lra).
    assert (0 <= (n - 1) * t) by (apply Rmult_le_pos; lra). lra. }
  assert (eP : 0 <= e * (M * M)) by (apply Rmult_le_pos; lra).
  assert (Y : (14 * n + 308) * (e * (M * M)) + (3 * n + 13) * (4 * M + 6 * M) * t + 3 * t <= (14 * n + 309) * (e * (M * M))) by lra.
  replace ((14 * n + 309) / 2 * (e * (4 * k * (M * M)))) with (2 * k * ((14 * n + 309) * (e * (M * M)))) by field.
  assert (Q : 0 <= (14 * n + 309) * (e * (M * M))) by (apply Rmult_le_pos; lra).
  pose proof (pos_INR (length l)).
  eapply Rle_trans; [apply Rmult_le_compat_l; [lra|exact Y]|]. apply Rmult_le_compat_r; [exact Q|lra].
Qed.

(** delta * delta / n * (n - 1) with n = j + 1. *)
Lemma square_q (j : nat) d D : q d D (2 * M) ((n + 30) / 2) ->
  (N.of_nat (S j) <= K)%N -> (N.of_nat (S j) < szmod)%N -> INR (S j) <= n ->
  q (ndiv d (nofsz (N.of_nat (S j)))) (D / INR (S j)) (2 * M / INR (S j)) (n / 2 + 65 / 4) /\
  q (nmul d (ndiv d (nofsz (N.of_nat (S j))))) (D * (D / INR (S j))) (4 * (M * M) / INR (S j)) (33 / 32 * n + 34) /\
  q (nmul (nmul d (ndiv d (nofsz (N.of_nat (S j))))) (nofsz (N.of_nat j)))
    (D * (D / INR (S j)) * INR j) (4 * (M * M)) (33 / 32 * n + 36).
Proof.
  intros Q HK HS HN. pose proof He as [E0 E1]. pose proof Ht as T0.
  pose proof TM as (N1 & M0 & HE & T1 & T2 & T3 & TZ & B1 & B2).
  assert (K1 : 1 <= INR (S j)) by (rewrite S_INR; pose proof (pos_INR j); lra).
  assert (Vk : val (nofsz (N.of_nat (S j))) (INR (S j))).
  { rewrite <- IZR_of_nat. apply (ap_count _ _ _ _ _ _ AP). lia. }
  assert (P : 0 < M * M) by (apply Rmult_lt_0_compat; lra).
  assert (eM : 0 <= e * M) by (apply Rmult_le_pos; lra). assert (eMM : 0 <= e * (M * M)) by (apply Rmult_le_pos; lra).
  set (k := INR (S j)) in *.
  assert (I1 : / k <= 1) by (rewrite <- Rinv_1; apply Rinv_le_contravar; lra).
  assert (I0 : 0 < / k) by (apply Rinv_0_lt_compat; lra).
  assert (Pk : 0 < 4 * (M * M) / k <= 4 * (M * M)).
  { unfold Rdiv. split; [apply Rmult_lt_0_compat; lra|]. rewrite <- (Rmult_1_r (4 * (M * M))) at 2. apply Rmult_le_compat_l; lra. }
  assert (NN : 1 <= n * n) by (rewrite <- (Rmult_1_l 1); apply Rmult_le_compat; lra).
  assert (BP : 128 * (1 + M * M) <= B).
  { eapply Rle_trans; [|exact B1]. apply Rmult_le_compat_l; [lra|]. rewrite <- (Rmult_1_l (1 + M * M)) at 1. apply Rmult_le_compat_r; lra. }
  assert (MM : M <= 1 + M * M) by (pose proof (pow2_ge_0 (M - 1)); lra).
  assert (Qn : q (ndiv d (nofsz (N.of_nat (S j)))) (D / k) (2 * M / k) (n / 2 + 65 / 4)).
  { eapply q_divz; [exact Q|exact Vk|lra|lra|apply small; lra| | |lra].
    - apply tdiv; lra.
    - assert (2 * M / k <= 2 * M) by (unfold Rdiv; rewrite <- (Rmult_1_r (2 * M)) at 2; apply Rmult_le_compat_l; lra). lra. }
  split; [exact Qn|].
  assert (Qq : q (nmul d (ndiv d (nofsz (N.of_nat (S j))))) (D * (D / k)) (4 * (M * M) / k) (33 / 32 * n + 34)).
  { assert (UE : 2 * M * (2 * M / k) = 4 * (M * M) / k) by (field; lra). rewrite <- UE.
    eapply q_mul; [exact Q|exact Qn|lra|lra|apply small; lra|apply small; lra| | |lra]; rewrite UE.
    - apply tdiv; lra.
    - lra. }
  split; [exact Qq|].
  assert (UE : 4 * (M * M) / k * k = 4 * (M * M)) by (field; lra). rewrite <- UE.
  assert (Vj : val (nofsz (N.of_nat j)) (INR j)).
  { destruct j as [|j]; [exact zero|]. rewrite <- IZR_of_nat; apply (ap_count _ _ _ _ _ _ AP); lia. }
  assert (Jk : Rabs (INR j) <= k) by (rewrite Rabs_pos_eq by apply pos_INR; unfold k; rewrite S_INR; lra).
  assert (nt : 0 <= (n - 1) * t) by (apply Rmult_le_pos; lra).
  eapply q_mul; [exact Qq|apply q_exact; [exact Vj|exact Jk]|lra|lra|apply small; lra|apply small; lra| | |lra]; rewrite UE; lra.
Qed.

(** (delta * delta / n * (n - 1) * (n - 2) - 3 M2) * delta / n *)
Lemma skew_term_q (j : nat) d D m2 M2 : q d D (2 * M) ((n + 30) / 2) ->
  q m2 M2 (4 * INR (S j) * (M * M)) ((14 * n + 309) / 2) ->
  (N.of_nat (S j) <= K)%N -> (N.of_nat (S j) < szmod)%N -> INR (S j) <= n ->
  let N := N.of_nat (S j) in
  let k := INR (S j) in
  q (nmul (nsub (nmul (nmul (nmul d (ndiv d (nofsz N))) (nofsz (szsub N 1))) (nofsz (szsub N 2))) (nmul (nofz 3) m2))
          (ndiv d (nofsz N)))
    ((D * (D / k) * INR j * (INR j - 1) - 3 * M2) * (D / k)) (32 * (M * (M * M))) (13 / 2 * n + 160).
Proof.
  intros Q Q2 HK HS HN N k. pose proof He as [E0 E1]. pose proof Ht as T0.
  pose proof TM as (N1 & M0 & HE & T1 & T2 & T3 & TZ & B1 & B2).
  destruct (square_q j d D Q HK HS HN) as (Qn & Qq & Qj). fold N k in Qn, Qq, Qj.
  assert (K1 : 1 <= k) by (unfold k; rewrite S_INR; pose proof (pos_INR j); lra). fold k in Q2, HN.
  assert (kj : k = INR j + 1) by (unfold k; apply S_INR).
  assert (P : 0 < M * M) by (apply Rmult_lt_0_compat; lra).
  assert (eM : 0 <= e * M) by (apply Rmult_le_pos; lra). assert (eMM : 0 <= e * (M * M)) by (apply Rmult_le_pos; lra).
  assert (nt : 0 <= (n - 1) * t) by (apply Rmult_le_pos; lra).
  assert (kP : M * M <= k * (M * M)) by (rewrite <- (Rmult_1_l (M * M)) at 1; apply Rmult_le_compat_r; lra).
  assert (ekP : e * (M * M) <= e * (k * (M * M))) by (apply Rmult_le_compat_l; lra).
  assert (BP : 128 * (k * (M * M)) <= B).
  { eapply Rle_trans; [|exact B1]. apply Rmult_le_compat_l; [lra|]. rewrite (Rmult_assoc n). apply Rmult_le_compat; try lra.
    eapply Rle_trans; [|apply (Rmult_le_compat_r _ 1 n); lra]. lra. }
  assert (SB1 : szsub N 1 = N.of_nat j) by (unfold N; rewrite szsub_small by lia; lia).
  rewrite SB1.
  (* the cubic part *)
  assert (Qc : q (nmul (nmul (nmul d (ndiv d (nofsz N))) (nofsz (N.of_nat j))) (nofsz (szsub N 2)))
    (D * (D / k) * INR j * (INR j - 1)) (4 * (M * M) * k) (33 / 32 * n + 38)).
  { destruct j as [|j].
    - (* the first value: 0 * (2^64 - 1) *)
      change (INR 0) with 0. rewrite Rmult_0_r, Rmult_0_l.
      assert (SB2 : szsub N 2 = (szmod - 1)%N) by reflexivity. rewrite SB2. change (N.of_nat 0) with 0%N.
      destruct (q_abs _ _ _ _ Qq) as (r & Vr & _ & Hr); [apply small; lra|].
      destruct (ap_mul _ _ _ _ _ _ AP _ _ _ _ Vr zero) as (r0 & V0 & N0).
      { rewrite Rmult_0_r, Rabs_R0. assert (0 <= k * (M * M)) by lra. lra. }
      unfold near in N0. rewrite Rmult_0_r, Rabs_R0, Rminus_0_r in N0.
      assert (RZ : Rabs (r0 * Z) <= t * Rabs Z).
      { rewrite Rabs_mult. apply Rmult_le_compat_r; [apply Rabs_pos|lra]. }
      assert (tZ : 64 * t + 64 * (t * Rabs Z) <= e * (M * M)) by lra.
      pose proof (Rabs_pos Z) as Z0.
      assert (tZ0 : 0 <= t * Rabs Z) by (apply Rmult_le_pos; lra).
      assert (eP : e * (M * M) <= M * M) by (rewrite <- (Rmult_1_l (M * M)) at 2; apply Rmult_le_compat_r; lra).
      destruct (ap_mul _ _ _ _ _ _ AP _ _ _ _ V0 wrap) as (r1 & V1 & N1'); [lra|]. unfold near in N1'.
      split; [rewrite Rabs_R0; lra|]. exists r1. split; [exact V1|].
      assert (A : Rabs (r1 - 0) <= 2 * (t * Rabs Z) + t).
      { replace (r1 - 0) with ((r1 - r0 * Z) + r0 * Z) by ring. eapply Rle_trans; [apply Rabs_triang|].
        assert (e * Rabs (r0 * Z) <= 1 * (t * Rabs Z)) by (apply Rmult_le_compat; try apply Rabs_pos; lra). lra. }
      eapply Rle_trans; [exact A|].
      assert (0 <= e * (4 * (M * M) * k)) by (apply Rmult_le_pos; lra).
      assert (1 * (e * (4 * (M * M) * k)) <= (33 / 32 * n + 38) * (e * (4 * (M * M) * k))) by (apply Rmult_le_compat_r; lra). lra.
    - assert (SB2 : szsub N 2 = N.of_nat j) by (unfold N; rewrite szsub_small by lia; lia). rewrite SB2.
      replace (INR (S j) - 1) with (INR j) by (rewrite S_INR; ring).
      assert (Vj : val (nofsz (N.of_nat j)) (INR j)).
      { destruct j as [|j]; [exact zero|]. rewrite <- IZR_of_nat; apply (ap_count _ _ _ _ _ _ AP); lia. }
      assert (Jk : Rabs (INR j) <= k) by (rewrite Rabs_pos_eq by apply pos_INR; rewrite kj, S_INR; pose proof (pos_INR j); lra).
      eapply q_mul; [exact Qj|apply q_exact; [exact Vj|exact Jk]|lra|lra|apply small; lra|apply small; lra|lra|lra|lra]. }
  assert (Q3 : q (nmul (nofz 3) m2) (3 * M2) (3 * (4 * k * (M * M))) (7 * n + 156)).
  { eapply q_mulr; [apply q_exact; [apply lit; lia|rewrite Rabs_pos_eq; lra]|exact Q2|lra|lra|apply small; lra|apply small; lra|lra|lra|lra]. }
  assert (Qb : q (nsub (nmul (nmul (nmul d (ndiv d (nofsz N))) (nofsz (N.of_nat j))) (nofsz (szsub N 2))) (nmul (nofz 3) m2))
     (D * (D / k) * INR j * (INR j - 1) - 3 * M2) (16 * k * (M * M)) (353 / 64 * n + 129)).
  { eapply (q_addg false) with (h := 353 / 64 * n + 127); [exact Qc|exact Q3|lra|lra| | |apply small; lra|lra|lra|lra].
    - destruct Qc as (Hc & _). destruct Q3 as (H3 & _). unfold Rminus at 1. eapply Rle_trans; [apply Rabs_triang|].
      rewrite Rabs_Ropp. lra.
    - assert (0 <= k * (M * M)) by lra.
      replace ((33 / 32 * n + 38) * (4 * (M * M) * k) + (7 * n + 156) * (3 * (4 * k * (M * M))))
        with (((33 / 32 * n + 38) * 4 + (7 * n + 156) * 12) * (k * (M * M))) by ring.
      replace ((353 / 64 * n + 127) * (16 * k * (M * M))) with ((353 / 64 * n + 127) * 16 * (k * (M * M))) by ring.
      apply Rmult_le_compat_r; lra. }
  assert (UE : 16 * k * (M * M) * (2 * M / k) = 32 * (M * (M * M))) by (field; lra). rewrite <- UE.
  assert (M3 : 0 < M * (M * M)) by (apply Rmult_lt_0_compat; lra).
  eapply q_mul; [exact Qb|exact Qn|lra|lra|apply small; lra|apply small; lra| | |]; rewrite ?UE; [|nra|lra].
  lra.
Qed.

(** Adding an inexact term to an inexact sum. *)
Lemma sum_step s p sv S P U c E X : val s sv -> Rabs (sv - S) <= E -> q p P U c -> Rabs (S + P) <= X ->
  X + E + c * (e * U) <= B -> exists r, val (nadd s p) r /\
    Rabs (r - (S + P)) <= E + e * E + (17 / 16 * (c * (e * U)) + e * X + t).
Proof.
  intros Vs Es (_ & pv & Vp & Ep) HX HB. pose proof He as [E0 E1].
  assert (h0 : 0 <= c * (e * U)) by (pose proof (Rabs_pos (pv - P)); lra).
  assert (H : Rabs (sv + pv - (S + P)) <= E + c * (e * U)).
  { replace (sv + pv - (S + P)) with ((sv - S) + (pv - P)) by ring. eapply Rle_trans; [apply Rabs_triang|]. lra. }
  pose proof (close_abs _ _ _ H) as HA.
  destruct (ap_add _ _ _ _ _ _ AP _ _ _ _ Vs Vp) as (r & Vr & Nr); [lra|]. exists r. split; [exact Vr|].
  unfold near in Nr. replace (r - (S + P)) with ((r - (sv + pv)) + (sv + pv - (S + P))) by ring.
  eapply Rle_trans; [apply Rabs_triang|].
  assert (e * Rabs (sv + pv) <= e * (X + E + c * (e * U))) by (apply Rmult_le_compat_l; lra).
  assert (e * (c * (e * U)) <= / 16 * (c * (e * U))) by (apply Rmult_le_compat_r; lra). lra.
Qed.

(** Errors of the two sums per value. *)
Definition err3 : R := (229 * n + 5441) * (e * (M * (M * M))).
Definition err4 : R := (3242 * n + 75362) * (e * (M * M * (M * M))).

Lemma grow D E k : 0 <= D -> 0 <= k -> k + 1 <= n -> 9 * n * e <= 1 -> E <= 9 / 8 * k * D ->
  E + e * E + D <= 9 / 8 * (k + 1) * D.
Proof.
  intros D0 K0 KN H HE. pose proof He as [E0 E1].
  assert (E + e * E <= 9 / 8 * k * D + e * (9 / 8 * k * D)) by (pose proof (Rmult_le_compat_l e _ _ E0 HE); lra).
  assert (k * e <= n * e) by (apply Rmult_le_compat_r; lra).
  assert (9 * (k * e) * D <= 1 * D) by (apply Rmult_le_compat_r; lra). lra.
Qed.

(** ** The third central sum *)
Lemma cskew_acc l lv : Forall2 val l lv -> Forall (fun x => Rabs x <= M) lv ->
  (N.of_nat (length l) <= K)%N -> (N.of_nat (length l) < szmod)%N -> INR (length l) <= n ->
  exists r, val (cs_sum F (fold_left (cskew_push F) l (cskew_init F))) r /\
    Rabs (r - csum 3 lv) <= 9 / 8 * INR (length l) * err3.
Proof.
  pose proof TM as (N1 & M0 & HE & T1 & T2 & T3 & TZ & B1 & B2). pose proof He as [E0 E1]. pose proof Ht as T0.
  assert (M3 : 0 < M * (M * M)) by (apply Rmult_lt_0_compat; [lra|apply Rmult_lt_0_compat; lra]).
  assert (eM3 : 0 <= e * (M * (M * M))) by (apply Rmult_le_pos; lra).
  assert (ne : 0 <= n * e) by (apply Rmult_le_pos; lra).
  assert (D0 : 0 <= err3) by (unfold err3; apply Rmult_le_pos; lra).
  assert (D1 : err3 <= / 4 * (M * (M * M))).
  { unfold err3. rewrite <- Rmult_assoc. apply Rmult_le_compat_r; lra. }
  revert lv. induction l as [|x l IH] using rev_ind; intros lv V HM HK HS HN.
  - inversion V; subst. exists 0. split; [apply (ap_0 _ _ _ _ _ _ AP)|]. cbn. rewrite Rminus_0_r, Rabs_R0. lra.
  - apply Forall2_app_inv_l in V. destruct V as (lv' & pv' & V & Vp & ->).
    inversion Vp as [|? xv ? ? Vx Vnil]; subst. inversion Vnil; subst. clear Vp Vnil.
    pose proof (csum_3_card M _ (Rlt_le _ _ M0) HM) as CB.
    apply Forall_app in HM. destruct HM as [HM Hp]. inversion Hp as [|? ? Hx _]; subst. clear Hp.
    rewrite length_snoc in *.
    assert (HN' : INR (length l) <= n) by (rewrite S_INR in HN; lra).
    destruct (IH lv' V HM) as (s & Vs & Es); [lia|lia|exact HN'|]. clear IH.
    rewrite fold_left_app. cbn [fold_left].
    pose proof (cskew_fold_super F l (cskew_init F)) as SX. pose proof (cvar_fold_super F l (cvar_init F)) as SV.
    set (c := fold_left (cskew_push F) l (cskew_init F)) in *.
    unfold cskew_push. cbn [cs_sum]. rewrite SX. cbn [cskew_init cs_super].
    unfold cvar_size, cvar_mean, cmean_mean, cmean_size. rewrite SV. cbn [cvar_init cv_super].
    rewrite cmean_fold_count by lia.
    rewrite szadd_small by lia. replace (N.of_nat (length l) + 1)%N with (N.of_nat (S (length l))) by lia.
    pose proof (delta_q l lv' x xv V HM Vx Hx ltac:(lia) ltac:(lia) HN') as Qd.
    assert (k0 : 0 < INR (S (length l))) by (rewrite S_INR; pose proof (pos_INR (length l)); lra).
    assert (Q2 : q (cv_sum F (fold_left (cvar_push F) l (cvar_init F))) (csum 2 lv') (4 * INR (S (length l)) * (M * M)) ((14 * n + 309) / 2)).
    { apply m2_q; try assumption; [lia|lia|rewrite S_INR; lra|split; [exact k0|exact HN]]. }
    pose proof (skew_term_q (length l) _ _ _ _ Qd Q2 HK HS HN) as QT. cbv zeta in QT.
    assert (LL : length lv' = length l) by (symmetry; apply (forall2_len _ _ _ V)).
    assert (EQ : csum 3 (lv' ++ [xv]) = csum 3 lv' +
       ((xv - mean lv') * ((xv - mean lv') / INR (S (length l))) * INR (length l) * (INR (length l) - 1) - 3 * csum 2 lv') *
       ((xv - mean lv') / INR (S (length l)))).
    { rewrite csum_3_snoc. unfold card. rewrite LL, S_INR. rewrite S_INR in k0. field. lra. }
    rewrite EQ in CB |- *. unfold card in CB. rewrite app_length, LL in CB. cbn [length] in CB.
    replace (length l + 1)%nat with (S (length l)) in CB by lia.
    assert (kM : INR (S (length l)) * (M * (M * M)) <= n * (M * (M * M))) by (apply Rmult_le_compat_r; lra).
    assert (nM : M * (M * M) <= n * (M * (M * M))) by (rewrite <- (Rmult_1_l (M * (M * M))) at 1; apply Rmult_le_compat_r; lra).
    assert (hE : (13 / 2 * n + 160) * (e * (32 * (M * (M * M)))) <= 2 * (M * (M * M))).
    { replace ((13 / 2 * n + 160) * (e * (32 * (M * (M * M))))) with ((13 / 2 * n + 160) * e * 32 * (M * (M * M))) by ring.
      apply Rmult_le_compat_r; lra. }
    assert (lE : 9 / 8 * INR (length l) * err3 <= n * (M * (M * M))).
    { pose proof (pos_INR (length l)). assert (INR (length l) * err3 <= n * (/ 4 * (M * (M * M)))) by (apply Rmult_le_compat; lra). lra. }
    destruct (sum_step _ _ _ _ _ _ _ _ (8 * n * (M * (M * M))) Vs Es QT) as (r & Vr & Er); [lra|lra|].
    exists r. split; [exact Vr|]. eapply Rle_trans; [exact Er|].
    rewrite (S_INR (length l)).
    eapply Rle_trans; [|apply (grow err3 (9 / 8 * INR (length l) * err3)); [exact D0|apply pos_INR|rewrite <- S_INR; exact HN|lra|lra]].
    assert (17 / 16 * ((13 / 2 * n + 160) * (e * (32 * (M * (M * M))))) + e * (8 * n * (M * (M * M))) + t <= err3).
    { unfold err3. replace (17 / 16 * ((13 / 2 * n + 160) * (e * (32 * (M * (M * M))))) + e * (8 * n * (M * (M * M))))
        with ((229 * n + 5440) * (e * (M * (M * M)))) by field. lra. }
    lra.
Qed.

(** ** The fourth central sum *)
Hypothesis B4 : 1024 * (n * (M * M * (M * M))) <= B.
Hypothesis T4 : 256 * t <= e * (M * M * (M * M)).

Lemma m3_q l lv k : Forall2 val l lv -> Forall (fun x => Rabs x <= M) lv ->
  (N.of_nat (length l) <= K)%N -> (N.of_nat (length l) < szmod)%N -> INR (length l) <= k -> 0 < k <= n ->
  q (cs_sum F (fold_left (cskew_push F) l (cskew_init F))) (csum 3 lv) (8 * k * (M * (M * M))) (33 * n + 766).
Proof.
  intros V HM HK HS Hk [K0 KN]. pose proof He as [E0 E1]. pose proof Ht as T0.
  destruct TM as (N1 & M0 & _).
  destruct (cskew_acc l lv V HM HK HS ltac:(lra)) as (s & Vs & Es).
  assert (P : 0 < M * M) by (apply Rmult_lt_0_compat; lra).
  assert (M3 : 0 < M * (M * M)) by (apply Rmult_lt_0_compat; lra).
  assert (eM3 : 0 <= e * (M * (M * M))) by (apply Rmult_le_pos; lra).
  split.
  { eapply Rle_trans; [apply (csum_3_card M); [lra|exact HM]|]. unfold card. rewrite <- (forall2_len _ _ _ V).
    apply Rmult_le_compat_r; lra. }
  exists s. split; [exact Vs|]. eapply Rle_trans; [exact Es|]. unfold err3.
  replace (9 / 8 * INR (length l) * ((229 * n + 5441) * (e * (M * (M * M)))))
    with (9 / 8 * (229 * n + 5441) * (INR (length l) * (e * (M * (M * M))))) by ring.
  replace ((33 * n + 766) * (e * (8 * k * (M * (M * M))))) with (8 * (33 * n + 766) * (k * (e * (M * (M * M))))) by ring.
  pose proof (pos_INR (length l)).
  apply Rmult_le_compat; [lra|apply Rmult_le_pos; lra|lra|apply Rmult_le_compat_r; lra].
Qed.

Lemma kurt_term_q (j : nat) d D m2 M2 m3 M3 : q d D (2 * M) ((n + 30) / 2) ->
  q m2 M2 (4 * INR (S j) * (M * M)) ((14 * n + 309) / 2) ->
  q m3 M3 (8 * INR (S j) * (M * (M * M))) (33 * n + 766) ->
  (N.of_nat (S j) * N.of_nat (S j) <= K)%N -> (N.of_nat (S j) <= 2 ^ 32)%N -> INR (S j) <= n ->
  let N := N.of_nat (S j) in
  let k := INR (S j) in
  q (nmul (nsub (nmul (nadd (nmul (nmul (nmul d (ndiv d (nofsz N))) (nofsz (szsub N 1))) (nofsz (szadd (szmul N (szsub N 3)) 3)))
                            (nmul (nofz 6) m2)) (ndiv d (nofsz N))) (nmul (nofz 4) m3)) (ndiv d (nofsz N)))
    (((D * (D / k) * INR j * (k ^ 2 - 3 * k + 3) + 6 * M2) * (D / k) - 4 * M3) * (D / k))
    (176 * (M * M * (M * M))) (69 / 4 * n + 403).
Proof.
  intros Q Q2 Q3 HK HS HN N k. pose proof He as [E0 E1]. pose proof Ht as T0.
  pose proof TM as (N1 & M0 & HE & T1 & T2 & T3 & TZ & B1 & B2).
  assert (HK1 : (N.of_nat (S j) <= K)%N) by nia.
  assert (HS1 : (N.of_nat (S j) < szmod)%N) by (eapply N.le_lt_trans; [exact HS|reflexivity]).
  destruct (square_q j d D Q HK1 HS1 HN) as (Qn & Qq & Qj). fold N k in Qn, Qq, Qj.
  assert (K1 : 1 <= k) by (unfold k; rewrite S_INR; pose proof (pos_INR j); lra). fold k in Q2, Q3, HN.
  assert (P : 0 < M * M) by (apply Rmult_lt_0_compat; lra).
  assert (eM : 0 <= e * M) by (apply Rmult_le_pos; lra). assert (eMM : 0 <= e * (M * M)) by (apply Rmult_le_pos; lra).
  assert (nt : 0 <= (n - 1) * t) by (apply Rmult_le_pos; lra).
  assert (KK : 1 <= k * k) by (rewrite <- (Rmult_1_l 1); apply Rmult_le_compat; lra).
  assert (Kk : k <= k * k) by (rewrite <- (Rmult_1_l k) at 1; apply Rmult_le_compat_r; lra).
  assert (kP : M * M <= k * (M * M)) by (rewrite <- (Rmult_1_l (M * M)) at 1; apply Rmult_le_compat_r; lra).
  assert (kkP : k * (M * M) <= k * k * (M * M)) by (apply Rmult_le_compat_r; lra).
  assert (ekP : e * (M * M) <= e * (k * (M * M))) by (apply Rmult_le_compat_l; lra).
  assert (ekkP : e * (k * (M * M)) <= e * (k * k * (M * M))) by (apply Rmult_le_compat_l; lra).
  assert (KN2 : k * k <= n * n) by (apply Rmult_le_compat; lra).
  assert (BP : 128 * (k * k * (M * M)) <= B).
  { eapply Rle_trans; [|exact B1]. apply Rmult_le_compat_l; [lra|]. apply Rmult_le_compat; lra. }
  assert (SB1 : szsub N 1 = N.of_nat j) by (unfold N; rewrite szsub_small by lia; lia).
  rewrite SB1.
  assert (Fv : IZR (Z.of_N (szadd (szmul N (szsub N 3)) 3)) = k ^ 2 - 3 * k + 3).
  { unfold N. rewrite nsz_kurt_factor by lia. rewrite IZR_of_nat. reflexivity. }
  set (f := szadd (szmul N (szsub N 3)) 3) in *.
  assert (k3 : 1 <= k ^ 2 - 3 * k + 3 <= k * k).
  { split; [|lra]. unfold k. rewrite S_INR.
    destruct j as [|j]; [cbn; lra|]. assert (1 <= INR (S j)) by (rewrite S_INR; pose proof (pos_INR j); lra).
    assert (0 <= INR (S j) * (INR (S j) - 1)) by (apply Rmult_le_pos; lra). lra. }
  assert (Vf : val (nofsz f) (k ^ 2 - 3 * k + 3)).
  { rewrite <- Fv. apply (ap_count _ _ _ _ _ _ AP).
    assert (Zf : (1 <= Z.of_N f <= Z.of_nat (S j) * Z.of_nat (S j))%Z).
    { split; apply le_IZR; rewrite Fv; [lra|]. rewrite mult_IZR, <- INR_IZR_INZ. fold k. lra. }
    lia. }
  assert (Qc : q (nmul (nmul (nmul d (ndiv d (nofsz N))) (nofsz (N.of_nat j))) (nofsz f))
    (D * (D / k) * INR j * (k ^ 2 - 3 * k + 3)) (4 * (M * M) * (k * k)) (33 / 32 * n + 38)).
  { eapply q_mul; [exact Qj|apply q_exact; [exact Vf|rewrite Rabs_pos_eq; lra]|lra|lra|apply small; lra|apply small; lra|lra|lra|lra]. }
  assert (Q6 : q (nmul (nofz 6) m2) (6 * M2) (6 * (4 * k * (M * M))) (7 * n + 156)).
  { eapply q_mulr; [apply q_exact; [apply lit; lia|rewrite Rabs_pos_eq; lra]|exact Q2|lra|lra|apply small; lra|apply small; lra|lra|lra|lra]. }
  assert (Qb : q (nadd (nmul (nmul (nmul d (ndiv d (nofsz N))) (nofsz (N.of_nat j))) (nofsz f)) (nmul (nofz 6) m2))
     (D * (D / k) * INR j * (k ^ 2 - 3 * k + 3) + 6 * M2) (28 * (k * k) * (M * M)) (99 / 16 * n + 142)).
  { eapply (q_addg true) with (h := 99 / 16 * n + 140); [exact Qc|exact Q6|lra|lra| | |apply small; lra|lra|lra|lra].
    - destruct Qc as (Hc & _). destruct Q6 as (H3 & _). eapply Rle_trans; [apply Rabs_triang|]. lra.
    - replace ((33 / 32 * n + 38) * (4 * (M * M) * (k * k)) + (7 * n + 156) * (6 * (4 * k * (M * M))))
        with ((33 / 32 * n + 38) * 4 * (k * k * (M * M)) + (7 * n + 156) * 24 * (k * (M * M))) by ring.
      assert ((7 * n + 156) * 24 * (k * (M * M)) <= (7 * n + 156) * 24 * (k * k * (M * M))) by (apply Rmult_le_compat_l; lra).
      assert (((33 / 32 * n + 38) * 4 + (7 * n + 156) * 24) * (k * k * (M * M)) <= (99 / 16 * n + 140) * 28 * (k * k * (M * M)))
        by (apply Rmult_le_compat_r; lra). lra. }
  assert (M3p : 0 < M * (M * M)) by (apply Rmult_lt_0_compat; lra).
  assert (kM3 : M * (M * M) <= k * (M * (M * M))) by (rewrite <- (Rmult_1_l (M * (M * M))) at 1; apply Rmult_le_compat_r; lra).
  assert (nM3 : k * (M * (M * M)) <= n * (M * (M * M))) by (apply Rmult_le_compat_r; lra).
  assert (ekM3 : e * (M * (M * M)) <= e * (k * (M * (M * M)))) by (apply Rmult_le_compat_l; lra).
  assert (Qm : q (nmul (nadd (nmul (nmul (nmul d (ndiv d (nofsz N))) (nofsz (N.of_nat j))) (nofsz f)) (nmul (nofz 6) m2)) (ndiv d (nofsz N)))
     ((D * (D / k) * INR j * (k ^ 2 - 3 * k + 3) + 6 * M2) * (D / k)) (56 * (k * (M * (M * M)))) (27 / 4 * n + 161)).
  { assert (UE : 28 * (k * k) * (M * M) * (2 * M / k) = 56 * (k * (M * (M * M)))) by (field; lra). rewrite <- UE.
    eapply q_mul; [exact Qb|exact Qn|lra|lra|apply small; lra|apply small; lra| | |]; rewrite ?UE; lra. }
  assert (Q4 : q (nmul (nofz 4) m3) (4 * M3) (4 * (8 * k * (M * (M * M)))) (33 * n + 768)).
  { eapply q_mulr; [apply q_exact; [apply lit; lia|rewrite Rabs_pos_eq; lra]|exact Q3|lra|lra|apply small; lra|apply small; lra|lra|lra|lra]. }
  assert (Qs : q (nsub (nmul (nadd (nmul (nmul (nmul d (ndiv d (nofsz N))) (nofsz (N.of_nat j))) (nofsz f)) (nmul (nofz 6) m2)) (ndiv d (nofsz N)))
        (nmul (nofz 4) m3))
     ((D * (D / k) * INR j * (k ^ 2 - 3 * k + 3) + 6 * M2) * (D / k) - 4 * M3) (88 * (k * (M * (M * M)))) (33 / 2 * n + 384)).
  { eapply (q_addg false) with (h := 33 / 2 * n + 382); [exact Qm|exact Q4|lra|lra| | |apply small; lra|lra|lra|lra].
    - destruct Qm as (Hc & _). destruct Q4 as (H3 & _). unfold Rminus at 1. eapply Rle_trans; [apply Rabs_triang|].
      rewrite Rabs_Ropp. lra.
    - replace ((27 / 4 * n + 161) * (56 * (k * (M * (M * M)))) + (33 * n + 768) * (4 * (8 * k * (M * (M * M)))))
        with (((27 / 4 * n + 161) * 56 + (33 * n + 768) * 32) * (k * (M * (M * M)))) by ring.
      replace ((33 / 2 * n + 382) * (88 * (k * (M * (M * M))))) with ((33 / 2 * n + 382) * 88 * (k * (M * (M * M)))) by ring.
      apply Rmult_le_compat_r; lra. }
  assert (UE : 88 * (k * (M * (M * M))) * (2 * M / k) = 176 * (M * M * (M * M))) by (field; lra). rewrite <- UE.
  assert (M4 : 0 < M * M * (M * M)) by (apply Rmult_lt_0_compat; lra).
  assert (nM4 : M * M * (M * M) <= n * (M * M * (M * M))) by (rewrite <- (Rmult_1_l (M * M * (M * M))) at 1; apply Rmult_le_compat_r; lra).
  assert (eM4 : 0 <= e * (M * M * (M * M))) by (apply Rmult_le_pos; lra).
  eapply q_mul; [exact Qs|exact Qn|lra|lra|apply small; lra|apply small; lra| | |]; rewrite ?UE; lra.
Qed.

Lemma ckurt_acc l lv : Forall2 val l lv -> Forall (fun x => Rabs x <= M) lv ->
  (N.of_nat (length l) * N.of_nat (length l) <= K)%N -> (N.of_nat (length l) <= 2 ^ 32)%N -> INR (length l) <= n ->
  exists r, val (ck_sum F (fold_left (ckurt_push F) l (ckurt_init F))) r /\
    Rabs (r - csum 4 lv) <= 9 / 8 * INR (length l) * err4.
Proof.
  pose proof TM as (N1 & M0 & HE & T1 & T2 & T3 & TZ & B1 & B2). pose proof He as [E0 E1]. pose proof Ht as T0.
  assert (M4 : 0 < M * M * (M * M)) by (apply Rmult_lt_0_compat; apply Rmult_lt_0_compat; lra).
  assert (eM4 : 0 <= e * (M * M * (M * M))) by (apply Rmult_le_pos; lra).
  assert (ne : 0 <= n * e) by (apply Rmult_le_pos; lra).
  assert (D0 : 0 <= err4) by (unfold err4; apply Rmult_le_pos; lra).
  assert (D1 : err4 <= 4 * (M * M * (M * M))).
  { unfold err4. rewrite <- Rmult_assoc. apply Rmult_le_compat_r; lra. }
  revert lv. induction l as [|x l IH] using rev_ind; intros lv V HM HK HS HN.
  - inversion V; subst. exists 0. split; [apply (ap_0 _ _ _ _ _ _ AP)|]. cbn. rewrite Rminus_0_r, Rabs_R0. lra.
  - apply Forall2_app_inv_l in V. destruct V as (lv' & pv' & V & Vp & ->).
    inversion Vp as [|? xv ? ? Vx Vnil]; subst. inversion Vnil; subst. clear Vp Vnil.
    pose proof (csum_4_card M _ (Rlt_le _ _ M0) HM) as CB.
    apply Forall_app in HM. destruct HM as [HM Hp]. inversion Hp as [|? ? Hx _]; subst. clear Hp.
    rewrite length_snoc in *.
    assert (HN' : INR (length l) <= n) by (rewrite S_INR in HN; lra).
    assert (HK1 : (N.of_nat (length l) <= K)%N) by nia.
    assert (HS1 : (N.of_nat (S (length l)) < szmod)%N) by (eapply N.le_lt_trans; [exact HS|reflexivity]).
    destruct (IH lv' V HM) as (s & Vs & Es); [nia|lia|exact HN'|]. clear IH.
    rewrite fold_left_app. cbn [fold_left].
    pose proof (ckurt_fold_super F l (ckurt_init F)) as SK. pose proof (cskew_fold_super F l (cskew_init F)) as SX.
    pose proof (cvar_fold_super F l (cvar_init F)) as SV.
    set (c := fold_left (ckurt_push F) l (ckurt_init F)) in *.
    unfold ckurt_push. cbn [ck_sum]. rewrite SK. cbn [ckurt_init ck_super].
    unfold cskew_size, cskew_mean. rewrite SX. cbn [cskew_init cs_super].
    unfold cvar_size, cvar_mean, cmean_mean, cmean_size. rewrite SV. cbn [cvar_init cv_super].
    rewrite cmean_fold_count by lia.
    rewrite szadd_small by lia. replace (N.of_nat (length l) + 1)%N with (N.of_nat (S (length l))) by lia.
    pose proof (delta_q l lv' x xv V HM Vx Hx ltac:(lia) ltac:(lia) HN') as Qd.
    assert (k0 : 0 < INR (S (length l))) by (rewrite S_INR; pose proof (pos_INR (length l)); lra).
    assert (Q2 : q (cv_sum F (fold_left (cvar_push F) l (cvar_init F))) (csum 2 lv') (4 * INR (S (length l)) * (M * M)) ((14 * n + 309) / 2)).
    { apply m2_q; try assumption; [lia|rewrite S_INR; lra|split; [exact k0|exact HN]]. }
    assert (Q3 : q (cs_sum F (fold_left (cskew_push F) l (cskew_init F))) (csum 3 lv') (8 * INR (S (length l)) * (M * (M * M))) (33 * n + 766)).
    { apply m3_q; try assumption; [lia|rewrite S_INR; lra|split; [exact k0|exact HN]]. }
    pose proof (kurt_term_q (length l) _ _ _ _ _ _ Qd Q2 Q3 HK HS HN) as QT. cbv zeta in QT.
    assert (LL : length lv' = length l) by (symmetry; apply (forall2_len _ _ _ V)).
    set (k := INR (S (length l))) in *.
    assert (EQ : csum 4 (lv' ++ [xv]) = csum 4 lv' +
       (((xv - mean lv') * ((xv - mean lv') / k) * INR (length l) * (k ^ 2 - 3 * k + 3) + 6 * csum 2 lv') * ((xv - mean lv') / k)
         - 4 * csum 3 lv') * ((xv - mean lv') / k)).
    { rewrite csum_4_snoc. unfold card. rewrite LL. unfold k in *. rewrite S_INR in *. field. lra. }
    rewrite EQ in CB |- *. unfold card in CB. rewrite app_length, LL in CB. cbn [length] in CB.
    replace (length l + 1)%nat with (S (length l)) in CB by lia. fold k in CB.
    assert (kM : k * (M * M * (M * M)) <= n * (M * M * (M * M))) by (apply Rmult_le_compat_r; lra).
    assert (nM : M * M * (M * M) <= n * (M * M * (M * M))) by (rewrite <- (Rmult_1_l (M * M * (M * M))) at 1; apply Rmult_le_compat_r; lra).
    assert (hE : (69 / 4 * n + 403) * (e * (176 * (M * M * (M * M)))) <= 4 * (M * M * (M * M))).
    { replace ((69 / 4 * n + 403) * (e * (176 * (M * M * (M * M))))) with ((69 / 4 * n + 403) * e * 176 * (M * M * (M * M))) by ring.
      apply Rmult_le_compat_r; lra. }
    assert (lE : 9 / 8 * INR (length l) * err4 <= 9 / 2 * (n * (M * M * (M * M)))).
    { pose proof (pos_INR (length l)). assert (INR (length l) * err4 <= n * (4 * (M * M * (M * M)))) by (apply Rmult_le_compat; lra). lra. }
    destruct (sum_step _ _ _ _ _ _ _ _ (16 * n * (M * M * (M * M))) Vs Es QT) as (r & Vr & Er); [lra|lra|].
    exists r. split; [exact Vr|]. eapply Rle_trans; [exact Er|].
    unfold k. rewrite (S_INR (length l)).
    eapply Rle_trans; [|apply (grow err4 (9 / 8 * INR (length l) * err4)); [exact D0|apply pos_INR|rewrite <- S_INR; exact HN|lra|lra]].
    assert (17 / 16 * ((69 / 4 * n + 403) * (e * (176 * (M * M * (M * M))))) + e * (16 * n * (M * M * (M * M))) + t <= err4).
    { unfold err4. replace (17 / 16 * ((69 / 4 * n + 403) * (e * (176 * (M * M * (M * M))))) + e * (16 * n * (M * M * (M * M))))
        with ((12967 / 4 * n + 75361) * (e * (M * M * (M * M)))) by field.
      assert ((12967 / 4 * n + 75361) * (e * (M * M * (M * M))) <= (3242 * n + 75361) * (e * (M * M * (M * M)))) by (apply Rmult_le_compat_r; lra).
      lra. }
    lra.
Qed.

End Tame.

(** ** Skewness and kurtosis *)
Hypothesis ap_sqrt : forall x a, val x a -> 0 <= a -> exists r, val (nsqrt x) r /\ near e t (sqrt a) r.
Variable ep : R.
Hypothesis Veps : val neps ep.

Section Observables.
Variables M : R.
Variables (l : list F) (lv : list R).
Let n : R := INR (length l).
Hypothesis TM : tame M n.
Hypothesis V : Forall2 val l lv.
Hypothesis HM : Forall (fun x => Rabs x <= M) lv.
Hypothesis HK : (N.of_nat (length l) <= K)%N.
Hypothesis HS : (N.of_nat (length l) < szmod)%N.
Let S2 : R := variance lv.
Hypothesis S2p : 0 < S2.
Let rho : R := M * M / S2.
Hypothesis Hrho : 128 * ((28 * n + 618) * rho) * e <= 1.
Let R2 : R := csum 2 lv.
Hypothesis TR : 16 * t <= e * sqrt R2 /\ 16 * t <= e * (sqrt R2 * R2) /\ 16 * t <= e.
Hypothesis BR : 2 * sqrt R2 <= B /\ 2 * (sqrt R2 * R2) <= B /\ 16 * (sqrt n * n * (M * (M * M))) <= B.

Lemma n_pos : 1 <= n. Proof. destruct TM as (H & _). exact H. Qed.
Lemma M_pos : 0 < M. Proof. destruct TM as (_ & H & _). exact H. Qed.

Lemma R2_eq : R2 = n * S2.
Proof.
  unfold R2, S2, variance, card, n. rewrite <- (forall2_len _ _ _ V). pose proof n_pos. unfold n in *. field. lra.
Qed.

Lemma R2_pos : 0 < R2. Proof. rewrite R2_eq. pose proof n_pos. apply Rmult_lt_0_compat; lra. Qed.

Lemma rho_R2 : n * (M * M) = rho * R2.
Proof. rewrite R2_eq. unfold rho. field. lra. Qed.

(** The variance is at most the square of the bound. *)
Lemma rho_1 : 1 <= rho.
Proof.
  assert (H : S2 <= M * M).
  { unfold S2, variance. pose proof n_pos as N1.
    assert (Cd : card lv = n) by (unfold card, n; rewrite <- (forall2_len _ _ _ V); reflexivity).
    assert (G : Rsum (map (fun x => x ^ 2) lv) <= card lv * (M * M)).
    { clear -HM. induction lv as [|x k IH]; [unfold card; cbn; lra|]. inversion HM; subst. cbn [map Rsum].
      rewrite card_cons. specialize (IH ltac:(assumption)).
      assert (x ^ 2 <= M * M).
      { replace (x ^ 2) with (Rabs x * Rabs x) by (rewrite <- Rabs_mult, Rabs_pos_eq; [ring|apply Rle_0_sqr]).
        apply Rmult_le_compat; try apply Rabs_pos; assumption. }
      lra. }
    assert (Eq : csum 2 lv = Rsum (map (fun x => x ^ 2) lv) - card lv * (mean lv) ^ 2).
    { unfold csum.
      assert (Z2 : forall k m, Rsum (map (fun x => (x - m) ^ 2) k) = Rsum (map (fun x => x ^ 2) k) - 2 * m * Rsum k + card k * m ^ 2).
      { induction k as [|x k IH]; intros m; [unfold card; cbn; ring|]. cbn [map Rsum]. rewrite IH, card_cons. ring. }
      rewrite Z2. unfold mean. rewrite Cd. field. lra. }
    rewrite Eq, Cd in *. apply (Rmult_le_reg_r n); [lra|].
    replace ((Rsum (map (fun x => x ^ 2) lv) - n * mean lv ^ 2) / n * n) with (Rsum (map (fun x => x ^ 2) lv) - n * mean lv ^ 2) by (field; lra).
    pose proof (Rmult_le_pos n (mean lv ^ 2) ltac:(lra) (pow2_ge_0 _)). lra. }
  unfold rho. apply (Rmult_le_reg_r S2); [exact S2p|]. replace (M * M / S2 * S2) with (M * M) by (field; lra). lra.
Qed.

Let A : R := (28 * n + 618) * rho.

Lemma A_size : 646 <= A /\ 128 * A * e <= 1 /\ 28 * n + 618 <= A.
Proof.
  pose proof n_pos. pose proof rho_1. unfold A. repeat split; [nra|exact Hrho|].
  rewrite <- (Rmult_1_r (28 * n + 618)) at 1. apply Rmult_le_compat_l; lra.
Qed.

Lemma smallA c : c <= 8 * A -> 16 * (c * e) <= 1.
Proof.
  intros H. destruct A_size as (_ & A1 & _). pose proof He as [E0 _].
  assert (c * e <= 8 * A * e) by (apply Rmult_le_compat_r; lra). lra.
Qed.

Lemma m2_rel : q (cv_sum F (fold_left (cvar_push F) l (cvar_init F))) R2 R2 A.
Proof.
  pose proof n_pos as N1. pose proof R2_pos as P. split; [rewrite Rabs_pos_eq; lra|].
  destruct (m2_q M n TM l lv n V HM HK HS) as (_ & r & Vr & Er); [unfold n; lra|lra|].
  exists r. split; [exact Vr|]. fold R2 in Er. eapply Rle_trans; [exact Er|].
  replace (4 * n * (M * M)) with (4 * (rho * R2)) by (rewrite <- rho_R2; ring). unfold A.
  right. field.
Qed.

Lemma sqrt_rel : q (nsqrt (cv_sum F (fold_left (cvar_push F) l (cvar_init F)))) (sqrt R2) (sqrt R2) (A + 5 / 4).
Proof.
  pose proof R2_pos as P. destruct A_size as (A0 & A1 & _). pose proof He as [E0 _].
  destruct m2_rel as (_ & a & Va & Ea).
  assert (AE : A * e <= / 128) by lra.
  assert (Ha : 0 <= a).
  { assert (A * (e * R2) <= / 128 * R2) by (rewrite <- Rmult_assoc; apply Rmult_le_compat_r; lra). apply Rabs_le_inv in Ea. lra. }
  pose proof (sqrt_lt_R0 R2 P) as SP. destruct TR as (T1 & _). destruct BR as (B1 & _).
  apply (q_round (sqrt a) _ _ _ A); try assumption; [rewrite Rabs_pos_eq; lra| |apply smallA; lra| |lra].
  - eapply Rle_trans; [apply (sqrt_close a R2 _ P Ha Ea)|]. right.
    rewrite <- (sqrt_sqrt R2) at 1 by lra. field. lra.
  - intros _. apply ap_sqrt; assumption.
Qed.

Lemma sqrt_ratio : sqrt n / sqrt R2 = / sqrt S2.
Proof.
  pose proof n_pos. rewrite R2_eq, sqrt_mult by lra. field.
  split; apply Rgt_not_eq, sqrt_lt_R0; lra.
Qed.

(** M / sigma and its cube. *)
Let z : R := M / sqrt S2.

Lemma z_1 : 1 <= z /\ z * z = rho /\ z <= z * z * z.
Proof.
  pose proof (sqrt_lt_R0 S2 S2p) as SP. pose proof M_pos.
  assert (Z2 : z * z = rho).
  { unfold z, rho. replace (M / sqrt S2 * (M / sqrt S2)) with (M * M / (sqrt S2 * sqrt S2)) by (field; lra).
    rewrite sqrt_sqrt by lra. reflexivity. }
  assert (Zp : 0 < z) by (unfold z, Rdiv; apply Rmult_lt_0_compat; [lra|apply Rinv_0_lt_compat; lra]).
  pose proof rho_1. assert (Z1 : 1 <= z) by nra. split; [exact Z1|]. split; [exact Z2|].
  rewrite Z2. rewrite <- (Rmult_1_l z) at 1. apply Rmult_le_compat_r; lra.
Qed.

Lemma skewness_eq : skewness lv = sqrt n * csum 3 lv / (sqrt R2 * R2).
Proof.
  pose proof n_pos as N1. pose proof (sqrt_lt_R0 S2 S2p) as SP. assert (NP : 0 < sqrt n) by (apply sqrt_lt_R0; lra).
  assert (Cd : card lv = n) by (unfold card, n; rewrite <- (forall2_len _ _ _ V); reflexivity).
  unfold skewness, cmoment. fold R2. rewrite Cd. rewrite R2_eq.
  replace (n * S2 / n) with S2 by (field; lra). rewrite sqrt_mult by lra.
  replace (sqrt n * csum 3 lv / (sqrt n * sqrt S2 * (n * S2))) with (csum 3 lv / (sqrt S2 * (n * S2))) by (field; lra).
  field. lra.
Qed.

(** The cut-off. *)
Lemma m3_val : exists r, val (cs_sum F (fold_left (cskew_push F) l (cskew_init F))) r /\
  Rabs (r - csum 3 lv) <= 9 / 8 * n * err3 M n.
Proof. apply (cskew_acc M n TM l lv V HM HK HS). unfold n. lra. Qed.

Lemma skew_zero : csum 3 lv + 9 / 8 * n * err3 M n < ep ->
  cskew_skewness F (fold_left (cskew_push F) l (cskew_init F)) = n0.
Proof.
  intros H. destruct m3_val as (r & Vr & Er). unfold cskew_skewness.
  rewrite (ap_lt _ _ _ _ _ _ AP _ _ _ _ Vr Veps). rewrite Rlt_bool_true; [reflexivity|]. apply Rabs_le_inv in Er. lra.
Qed.

(** The quotient that is returned above the cut-off. *)
Lemma skew_quot : 2 * (2 * (z * z * z)) <= B ->
  let s := fold_left (cskew_push F) l (cskew_init F) in
  exists r, val (ndiv (nmul (nsqrt (nofsz (cskew_size F s))) (cs_sum F s)) (nmul (nsqrt (cv_sum F (cs_super F s))) (cv_sum F (cs_super F s)))) r /\
    Rabs (r - skewness lv) <= (406 * n + 9300) * (e * (z * z * z)).
Proof.
  intros HB s. subst s. destruct m3_val as (r & Vr & Er).
  pose proof n_pos as N1. pose proof M_pos as M0. pose proof R2_pos as RP. pose proof (sqrt_lt_R0 R2 RP) as SP. pose proof He as [E0 E1].
  assert (NP : 1 <= sqrt n) by (rewrite <- sqrt_1; apply sqrt_le_1; lra).
  destruct A_size as (A0 & A1 & A2). destruct z_1 as (Z1 & Z2 & Z3).
  destruct TR as (T1 & T2 & T3). destruct BR as (B1 & B2 & B3).
  pose proof (cskew_fold_super F l (cskew_init F)) as SX. cbn [cskew_init cs_super] in SX.
  unfold cskew_size, cvar_size, cmean_size. rewrite SX. rewrite (cvar_fold_super F l (cvar_init F)). cbn [cvar_init cv_super].
  rewrite cmean_fold_count by exact HS.
  assert (M3 : 0 < M * (M * M)) by (apply Rmult_lt_0_compat; [lra|apply Rmult_lt_0_compat; lra]).
  assert (NE : l <> []). { intros ->. unfold n in N1. cbn in N1. lra. }
  assert (Qn : q (nsqrt (nofsz (N.of_nat (length l)))) (sqrt n) (sqrt n) (5 / 4)).
  { pose proof (count_val AP _ l NE HK) as Vn. fold n in Vn.
    apply (q_round (sqrt n) _ _ _ 0); [rewrite Rabs_pos_eq; lra|rewrite Rminus_diag_eq, Rabs_R0 by reflexivity; lra|lra| | | |lra].
    - assert (e * 1 <= e * sqrt n) by (apply Rmult_le_compat_l; lra). lra.
    - intros _. apply ap_sqrt; [exact Vn|lra].
    - assert (sqrt n <= n * (M * (M * M)) \/ True) by (right; exact I).
      assert (sqrt n <= n).
      { rewrite <- (sqrt_square n) at 2 by lra. apply sqrt_le_1; try lra; [apply Rmult_le_pos; lra|].
        rewrite <- (Rmult_1_l n) at 1. apply Rmult_le_compat_r; lra. }
      destruct TM as (_ & _ & _ & _ & _ & _ & _ & BB & _).
      assert (n * 1 <= n * n * (1 + M * M)).
      { rewrite (Rmult_assoc n). apply Rmult_le_compat_l; [lra|]. rewrite <- (Rmult_1_l 1). 
        pose proof (Rmult_le_pos M M ltac:(lra) ltac:(lra)). apply Rmult_le_compat; lra. }
      lra. }
  assert (Q3 : q (cs_sum F (fold_left (cskew_push F) l (cskew_init F))) (csum 3 lv) (8 * n * (M * (M * M))) (33 * n + 766)).
  { apply (m3_q M n TM); try assumption; [unfold n; lra|lra]. }
  assert (Qu : q (nmul (nsqrt (nofsz (N.of_nat (length l)))) (cs_sum F (fold_left (cskew_push F) l (cskew_init F))))
    (sqrt n * csum 3 lv) (sqrt n * (8 * n * (M * (M * M)))) (33 * n + 769)).
  { assert (EU : M * (M * M) <= sqrt n * (8 * n * (M * (M * M)))).
    { assert (1 <= sqrt n * (8 * n)) by (rewrite <- (Rmult_1_l 1); apply Rmult_le_compat; lra).
      replace (sqrt n * (8 * n * (M * (M * M)))) with (sqrt n * (8 * n) * (M * (M * M))) by ring.
      rewrite <- (Rmult_1_l (M * (M * M))) at 1. apply Rmult_le_compat_r; lra. }
    destruct TM as (_ & _ & _ & _ & _ & T3' & _). pose proof Ht as T0.
    eapply q_mulr; [exact Qn|exact Q3|lra|lra|apply smallA; lra|apply smallA; lra| |lra|lra].
    pose proof (Rmult_le_compat_l e _ _ E0 EU). lra. }
  assert (Qd : q (nmul (nsqrt (cv_sum F (fold_left (cvar_push F) l (cvar_init F)))) (cv_sum F (fold_left (cvar_push F) l (cvar_init F))))
    (sqrt R2 * R2) (sqrt R2 * R2) (33 / 16 * A + 5 / 2)).
  { eapply q_mul; [exact sqrt_rel|exact m2_rel|lra|lra|apply smallA; lra|apply smallA; lra|exact T2|exact B2|lra]. }
  assert (YP : 0 < sqrt R2 * R2) by (apply Rmult_lt_0_compat; lra).
  assert (EU : sqrt n * (8 * n * (M * (M * M))) / (sqrt R2 * R2) = 8 * (z * z * z)).
  { replace (sqrt n * (8 * n * (M * (M * M))) / (sqrt R2 * R2)) with (sqrt n / sqrt R2 * M * 8 * (n * (M * M) / R2)) by (field; lra).
    rewrite sqrt_ratio, rho_R2. replace (rho * R2 / R2) with rho by (field; lra). rewrite <- Z2.
    unfold z. field. pose proof (sqrt_lt_R0 S2 S2p). lra. }
  assert (HG : Rabs (sqrt n * csum 3 lv) <= 2 * z * (sqrt R2 * R2)).
  { rewrite Rabs_mult, (Rabs_pos_eq (sqrt n)) by lra. pose proof (csum_3_bound M lv ltac:(lra) HM) as C3. fold R2 in C3.
    assert (Ez : 2 * z * (sqrt R2 * R2) = sqrt n * (2 * M * R2)).
    { unfold z. replace (M / sqrt S2) with (M * / sqrt S2) by reflexivity. rewrite <- sqrt_ratio. field. lra. }
    rewrite Ez. apply Rmult_le_compat_l; lra. }
  assert (zA : z * A = (28 * n + 618) * (z * z * z)) by (unfold A; rewrite <- Z2; ring).
  assert (ZZ : 0 <= z * z * z) by lra.
  assert (nZ : 0 <= n * (z * z * z)) by (apply Rmult_le_pos; lra).
  assert (QF : q (ndiv (nmul (nsqrt (nofsz (N.of_nat (length l)))) (cs_sum F (fold_left (cskew_push F) l (cskew_init F))))
     (nmul (nsqrt (cv_sum F (fold_left (cvar_push F) l (cvar_init F)))) (cv_sum F (fold_left (cvar_push F) l (cvar_init F)))))
     (sqrt n * csum 3 lv / (sqrt R2 * R2)) (2 * (z * z * z)) (203 * n + 4650)).
  { eapply (q_div _ _ _ _ _ _ _ (2 * z)); [exact Qu|exact Qd|exact YP|lra|lra|apply smallA; lra|exact HG|lra|lra| |apply smallA; lra| |lra].
    - rewrite EU.
      replace ((33 / 16 * A + 5 / 2) * (2 * z)) with (33 / 8 * (z * A) + 5 * z) by field. rewrite zA. lra.
    - assert (e * 1 <= e * (2 * (z * z * z))) by (apply Rmult_le_compat_l; lra). lra. }
  destruct QF as (_ & f & Vf & Ef). exists f. split; [exact Vf|]. rewrite skewness_eq. lra.
Qed.

Lemma skew_obs : ep + 9 / 8 * n * err3 M n <= csum 3 lv -> 2 * (2 * (z * z * z)) <= B ->
  exists r, val (cskew_skewness F (fold_left (cskew_push F) l (cskew_init F))) r /\
    Rabs (r - skewness lv) <= (406 * n + 9300) * (e * (z * z * z)).
Proof.
  intros HE HB. destruct m3_val as (r & Vr & Er). unfold cskew_skewness.
  rewrite (ap_lt _ _ _ _ _ _ AP _ _ _ _ Vr Veps). rewrite Rlt_bool_false by (apply Rabs_le_inv in Er; lra).
  exact (skew_quot HB).
Qed.

(** The error bound of the third sum, relative to the denominator. *)
Lemma err3_rel : sqrt n * (9 / 8 * n * err3 M n) / (sqrt R2 * R2) = 9 / 8 * (229 * n + 5441) * (e * (z * z * z)).
Proof.
  pose proof R2_pos as RP. pose proof (sqrt_lt_R0 R2 RP) as SP. destruct z_1 as (_ & Z2 & _). unfold err3.
  replace (sqrt n * (9 / 8 * n * ((229 * n + 5441) * (e * (M * (M * M))))) / (sqrt R2 * R2))
    with (9 / 8 * (229 * n + 5441) * (e * (sqrt n / sqrt R2 * M * (n * (M * M) / R2)))) by (field; lra).
  rewrite sqrt_ratio, rho_R2. replace (rho * R2 / R2) with rho by (field; lra). rewrite <- Z2.
  unfold z. field. pose proof (sqrt_lt_R0 S2 S2p). lra.
Qed.

(** Whatever the third sum. *)
Definition skew_err : R := (664 * n + 15500) * (e * (z * z * z)) + ep / (n * (S2 * sqrt S2)).

Lemma skew_err_pos : 0 <= ep -> 0 <= skew_err.
Proof.
  intros EP. pose proof n_pos as N1. pose proof He as [E0 _]. destruct z_1 as (Z1 & _ & Z3). pose proof (sqrt_lt_R0 S2 S2p) as SS.
  unfold skew_err. apply Rplus_le_le_0_compat.
  - apply Rmult_le_pos; [lra|apply Rmult_le_pos; lra].
  - apply Rmult_le_pos; [exact EP|]. left. apply Rinv_0_lt_compat, Rmult_lt_0_compat; [lra|apply Rmult_lt_0_compat; lra].
Qed.

Lemma skew_cases : 2 * (2 * (z * z * z)) <= B -> 0 <= ep ->
  let s := fold_left (cskew_push F) l (cskew_init F) in
  (nlt (cs_sum F s) neps = true /\ Rmax 0 (skewness lv) <= skew_err) \/
  (nlt (cs_sum F s) neps = false /\ exists r, val (cskew_skewness F s) r /\ Rabs (r - Rmax 0 (skewness lv)) <= skew_err).
Proof.
  intros HB EP s. destruct m3_val as (r & Vr & Er). fold s in Vr. apply Rabs_le_inv in Er.
  pose proof n_pos as N1. pose proof R2_pos as RP. pose proof (sqrt_lt_R0 R2 RP) as SP. pose proof He as [E0 _].
  pose proof (sqrt_lt_R0 S2 S2p) as SS. assert (NP : 0 < sqrt n) by (apply sqrt_lt_R0; lra).
  destruct z_1 as (Z1 & _ & Z3). pose proof err3_rel as ER.
  assert (YP : 0 < sqrt R2 * R2) by (apply Rmult_lt_0_compat; lra).
  assert (EE : sqrt n * ep / (sqrt R2 * R2) = ep / (n * (S2 * sqrt S2))).
  { rewrite R2_eq, sqrt_mult by lra. field. lra. }
  assert (EZ : 0 <= e * (z * z * z)) by (apply Rmult_le_pos; lra).
  assert (nEZ : 0 <= n * (e * (z * z * z))) by (apply Rmult_le_pos; lra).
  assert (PE : 0 <= ep / (n * (S2 * sqrt S2))).
  { rewrite <- EE. apply Rmult_le_pos; [apply Rmult_le_pos; lra|left; apply Rinv_0_lt_compat; exact YP]. }
  assert (MON : forall a b, a <= b -> sqrt n * a / (sqrt R2 * R2) <= sqrt n * b / (sqrt R2 * R2)).
  { intros a b H. apply Rmult_le_compat_r; [left; apply Rinv_0_lt_compat; exact YP|]. apply Rmult_le_compat_l; lra. }
  unfold skew_err. pose proof (ap_lt _ _ _ _ _ _ AP _ _ _ _ Vr Veps) as LT.
  destruct (Rlt_bool_spec r ep) as [L|L].
  - left. split; [exact LT|]. rewrite skewness_eq.
    pose proof (MON (csum 3 lv) (ep + 9 / 8 * n * err3 M n) ltac:(lra)) as H.
    replace (sqrt n * (ep + 9 / 8 * n * err3 M n) / (sqrt R2 * R2))
      with (sqrt n * ep / (sqrt R2 * R2) + sqrt n * (9 / 8 * n * err3 M n) / (sqrt R2 * R2)) in H by (field; lra).
    rewrite ER, EE in H. unfold Rmax. destruct (Rle_dec _ _); lra.
  - right. split; [exact LT|]. unfold cskew_skewness. rewrite LT. destruct (skew_quot HB) as (f & Vf & Ef). exists f. split; [exact Vf|].
    assert (H : - (9 / 8 * (229 * n + 5441) * (e * (z * z * z))) <= skewness lv).
    { rewrite skewness_eq, <- ER. pose proof (MON (- (9 / 8 * n * err3 M n)) (csum 3 lv) ltac:(lra)) as H.
      replace (sqrt n * - (9 / 8 * n * err3 M n) / (sqrt R2 * R2)) with (- (sqrt n * (9 / 8 * n * err3 M n) / (sqrt R2 * R2))) in H by (field; lra). exact H. }
    apply Rabs_le_inv in Ef. apply Rabs_le. unfold Rmax. destruct (Rle_dec _ _); lra.
Qed.

Lemma skew_clip : 2 * (2 * (z * z * z)) <= B -> 0 <= ep -> val n0 0 ->
  exists r, val (cskew_skewness F (fold_left (cskew_push F) l (cskew_init F))) r /\
    Rabs (r - Rmax 0 (skewness lv)) <= skew_err.
Proof.
  intros HB EP V0. destruct (skew_cases HB EP) as [[L H]|[_ H]]; [|exact H].
  exists 0. split; [unfold cskew_skewness; rewrite L; exact V0|]. unfold Rminus. rewrite Rplus_0_l, Rabs_Ropp, Rabs_pos_eq; [exact H|apply Rmax_l].
Qed.

(** The bias correction. *)
Lemma skew_size : Rmax 0 (skewness lv) <= 2 * z.
Proof.
  pose proof R2_pos as RP. pose proof n_pos as N1. pose proof (sqrt_lt_R0 R2 RP) as SP. destruct z_1 as (Z1 & _ & _).
  pose proof M_pos. assert (NP : 0 < sqrt n) by (apply sqrt_lt_R0; lra).
  assert (YP : 0 < sqrt R2 * R2) by (apply Rmult_lt_0_compat; lra).
  apply Rmax_lub; [lra|]. rewrite skewness_eq.
  pose proof (csum_3_bound M lv ltac:(lra) HM) as C3. fold R2 in C3. apply Rabs_le_inv in C3.
  replace (2 * z) with (sqrt n * (2 * M * R2) / (sqrt R2 * R2)).
  - apply Rmult_le_compat_r; [left; apply Rinv_0_lt_compat; exact YP|]. apply Rmult_le_compat_l; lra.
  - replace (sqrt n * (2 * M * R2) / (sqrt R2 * R2)) with (2 * M * (sqrt n / sqrt R2)) by (field; lra).
    rewrite sqrt_ratio. unfold z. field. pose proof (sqrt_lt_R0 S2 S2p). lra.
Qed.

Lemma correction_size : 3 <= n -> 1 <= sqrt (n * (n - 1)) <= n /\ 0 < sqrt (n * (n - 1)) / (n - 2) <= 5 / 2.
Proof.
  intros H. assert (P : 0 < n * (n - 1)) by (apply Rmult_lt_0_compat; lra). pose proof (sqrt_lt_R0 _ P) as SP. split; [split|split].
  - pose proof (sqrt_le_1 1 (n * (n - 1)) ltac:(lra) ltac:(lra) ltac:(nra)) as Q. rewrite sqrt_1 in Q. exact Q.
  - pose proof (sqrt_le_1 (n * (n - 1)) (n * n) ltac:(lra) ltac:(nra) ltac:(nra)) as Q. rewrite sqrt_square in Q by lra. exact Q.
  - apply Rdiv_lt_0_compat; lra.
  - apply (Rmult_le_reg_r (n - 2)); [lra|]. unfold Rdiv at 1. rewrite Rmult_assoc, Rinv_l, Rmult_1_r by lra.
    rewrite <- (sqrt_square (5 / 2 * (n - 2))) by lra. apply sqrt_le_1; [lra|nra|nra].
Qed.

Lemma unb_skew : 2 * (2 * (z * z * z)) <= B -> 0 <= ep -> val n0 0 -> (3 <= length l)%nat ->
  (N.of_nat (length l) * N.of_nat (length l) <= K)%N -> (N.of_nat (length l) < 2 ^ 32)%N ->
  2 * n * (2 * (z * z * z) + skew_err) <= B ->
  exists r, val (cskew_unbiased_skewness F (fold_left (cskew_push F) l (cskew_init F))) r /\
    Rabs (r - Rmax 0 (skewness lv) * sqrt (n * (n - 1)) / (n - 2)) <= 3 * (skew_err + 8 * (e * (z * z * z))).
Proof.
  intros HB EP V0 L3 HKK HSS BB. pose proof (skew_err_pos EP) as SE. pose proof He as [E0 E1]. pose proof Ht as T0.
  destruct z_1 as (Z1 & _ & Z3). pose proof skew_size as SZ. pose proof n_pos as N1.
  assert (N3 : 3 <= n) by (unfold n; replace 3 with (INR 3) by (cbn; lra); apply le_INR; exact L3).
  destruct (correction_size N3) as ((C1 & C2) & C3 & C4). set (c := sqrt (n * (n - 1))) in *.
  assert (EZ : 0 <= e * (z * z * z)) by (apply Rmult_le_pos; lra).
  assert (Es : e <= / 1000).
  { destruct A_size as (A0 & A1 & _). assert (128 * 646 * e <= 128 * A * e) by (apply Rmult_le_compat_r; lra). lra. }
  set (G := Rmax 0 (skewness lv)) in *. assert (G0 : 0 <= G) by apply Rmax_l.
  set (E := skew_err) in *.
  assert (SZc : cskew_size F (fold_left (cskew_push F) l (cskew_init F)) = N.of_nat (length l)).
  { pose proof (cskew_fold_super F l (cskew_init F)) as SX. cbn [cskew_init cs_super] in SX.
    unfold cskew_size, cvar_size, cmean_size. rewrite SX. rewrite (cvar_fold_super F l (cvar_init F)). cbn [cvar_init cv_super].
    apply cmean_fold_count. exact HS. }
  unfold cskew_unbiased_skewness. rewrite SZc.
  replace (N.ltb (N.of_nat (length l)) 2) with false by (symmetry; apply N.ltb_ge; lia).
  destruct (skew_cases HB EP) as [[LT H]|[LT (g & Vg & Eg)]]; rewrite LT.
  - exists 0. split; [exact V0|]. fold G E in H. rewrite Rminus_0_l, Rabs_Ropp.
    replace (G * c / (n - 2)) with (G * (c / (n - 2))) by (field; lra).
    rewrite Rabs_pos_eq by (apply Rmult_le_pos; lra).
    apply Rle_trans with (E * (5 / 2)); [apply Rmult_le_compat; lra|lra].
  - fold G E in Eg. set (k := (N.of_nat (length l))) in *.
    assert (Hk : (k * (k - 1) <= k * k)%N) by (apply N.mul_le_mono_l; lia).
    assert (Hk2 : (k * k < szmod)%N).
    { apply N.lt_le_trans with (2 ^ 32 * 2 ^ 32)%N; [apply N.mul_lt_mono; assumption|]. unfold szmod. lia. }
    assert (Hk3 : (3 <= k)%N) by (unfold k; lia).
    rewrite (szsub_small k 1), (szsub_small k 2) by (try exact HS; lia). rewrite szmul_small by (eapply N.le_lt_trans; eassumption).
    assert (Ik : IZR (Z.of_N k) = n) by (unfold k, n; apply inr_count).
    assert (Vc : val (nofsz (k * (k - 1))) (n * (n - 1))).
    { replace (n * (n - 1)) with (IZR (Z.of_N (k * (k - 1)))).
      - apply (ap_count _ _ _ _ _ _ AP). split; [nia|]. eapply N.le_trans; eassumption.
      - rewrite N2Z.inj_mul, mult_IZR, N2Z.inj_sub, minus_IZR, Ik by lia. reflexivity. }
    assert (Vd : val (nofsz (k - 2)) (n - 2)).
    { replace (n - 2) with (IZR (Z.of_N (k - 2))).
      - apply (ap_count _ _ _ _ _ _ AP). split; [lia|]. lia.
      - rewrite N2Z.inj_sub, minus_IZR, Ik by lia. reflexivity. }
    destruct (ap_sqrt _ _ Vc ltac:(nra)) as (r & Vr & Er). fold c in Er. unfold near in Er. rewrite (Rabs_pos_eq c) in Er by lra.
    destruct TR as (_ & _ & T3).
    assert (eC : e * 1 <= e * c) by (apply Rmult_le_compat_l; lra).
    assert (Er' : Rabs (r - c) <= 17 / 16 * (e * c)) by lra.
    set (X := 2 * (z * z * z)) in *. assert (EX : X = 2 * (z * z * z)) by reflexivity.
    assert (Gg : Rabs g <= X + E).
    { pose proof (close_abs _ _ _ Eg) as H. rewrite (Rabs_pos_eq G) in H by lra. lra. }
    assert (XE : 0 <= X + E) by lra. assert (eXE : 0 <= e * (X + E)) by (apply Rmult_le_pos; lra).
    assert (eXE1 : e * (X + E) <= / 1000 * (X + E)) by (apply Rmult_le_compat_r; lra).
    assert (Rr : Rabs r <= 17 / 16 * c).
    { pose proof (close_abs _ _ _ Er') as H. rewrite (Rabs_pos_eq c) in H by lra.
      assert (e * c <= / 1000 * c) by (apply Rmult_le_compat_r; lra). lra. }
    assert (GR : Rabs (g * r) <= 17 / 16 * ((X + E) * c)).
    { rewrite Rabs_mult. replace (17 / 16 * ((X + E) * c)) with ((X + E) * (17 / 16 * c)) by ring.
      apply Rmult_le_compat; try apply Rabs_pos; assumption. }
    assert (XC : (X + E) * c <= n * (X + E)) by (rewrite Rmult_comm; apply Rmult_le_compat_r; lra).
    destruct (ap_mul _ _ _ _ _ _ AP _ _ _ _ Vg Vr) as (p & Vp & Np); [lra|]. unfold near in Np.
    assert (D1 : Rabs (g * r - G * c) <= c * (E + 17 / 16 * (e * (X + E)))).
    { replace (g * r - G * c) with (g * (r - c) + c * (g - G)) by ring. eapply Rle_trans; [apply Rabs_triang|].
      rewrite !Rabs_mult, (Rabs_pos_eq c) by lra.
      assert (Rabs g * Rabs (r - c) <= (X + E) * (17 / 16 * (e * c))) by (apply Rmult_le_compat; try apply Rabs_pos; assumption).
      assert (c * Rabs (g - G) <= c * E) by (apply Rmult_le_compat_l; lra). lra. }
    assert (eGR : e * Rabs (g * r) <= 17 / 16 * (c * (e * (X + E)))).
    { replace (17 / 16 * (c * (e * (X + E)))) with (e * (17 / 16 * ((X + E) * c))) by ring. apply Rmult_le_compat_l; lra. }
    assert (D2 : Rabs (p - G * c) <= c * (E + 17 / 8 * (e * (X + E))) + t).
    { replace (p - G * c) with ((p - g * r) + (g * r - G * c)) by ring. eapply Rle_trans; [apply Rabs_triang|]. lra. }
    assert (ceXE : 0 <= c * (e * (X + E)) <= / 1000 * (c * (X + E))).
    { split; [apply Rmult_le_pos; lra|]. replace (/ 1000 * (c * (X + E))) with (c * (/ 1000 * (X + E))) by ring. apply Rmult_le_compat_l; lra. }
    assert (cXE : 0 <= c * (X + E)) by (apply Rmult_le_pos; lra).
    assert (Pp : Rabs p <= 9 / 8 * (c * (X + E)) + t).
    { replace p with ((p - g * r) + g * r) by ring. eapply Rle_trans; [apply Rabs_triang|]. lra. }
    set (d := n - 2) in *. assert (D1' : 1 <= d) by (unfold d; lra).
    assert (Dv : forall x y, 0 <= y -> x <= c * y + t -> x / d <= c / d * y + t).
    { intros x y Y0 Hx. apply (Rmult_le_reg_r d); [lra|]. replace ((c / d * y + t) * d) with (c * y + t * d) by (field; lra).
      unfold Rdiv. rewrite Rmult_assoc, Rinv_l, Rmult_1_r by lra.
      assert (t * 1 <= t * d) by (apply Rmult_le_compat_l; lra). lra. }
    assert (AD : forall x, Rabs (x / d) = Rabs x / d).
    { intros x. unfold Rdiv. rewrite Rabs_mult, (Rabs_pos_eq (/ d)) by (left; apply Rinv_0_lt_compat; lra). reflexivity. }
    assert (Pd : Rabs (p / d) <= 9 / 8 * (c / d * (X + E)) + t).
    { rewrite AD. replace (9 / 8 * (c / d * (X + E))) with (c / d * (9 / 8 * (X + E))) by ring. apply Dv; lra. }
    assert (CX : c / d * (X + E) <= 5 / 2 * (X + E)) by (apply Rmult_le_compat_r; lra).
    assert (nX : 3 * (X + E) <= n * (X + E)) by (apply Rmult_le_compat_r; lra).
    assert (X1 : 2 <= X) by (unfold X; lra).
    assert (t1 : t <= 1) by lra.
    destruct (ap_div _ _ _ _ _ _ AP _ _ _ _ Vp Vd) as (f & Vf & Nf); [lra|lra|]. unfold near in Nf.
    exists f. split; [exact Vf|].
    replace (G * c / d) with ((G * c) / d) by reflexivity.
    replace (f - G * c / d) with ((f - p / d) + (p - G * c) / d) by (field; lra). eapply Rle_trans; [apply Rabs_triang|].
    rewrite AD. pose proof (Dv _ (E + 17 / 8 * (e * (X + E))) ltac:(lra) D2) as D3.
    assert (eP : e * Rabs (p / d) <= e * (9 / 8 * (5 / 2 * (X + E)) + t)) by (apply Rmult_le_compat_l; lra).
    assert (et : e * t <= t) by (rewrite <- (Rmult_1_l t) at 2; apply Rmult_le_compat_r; lra).
    assert (cE : c / d * (E + 17 / 8 * (e * (X + E))) <= 5 / 2 * (E + 17 / 8 * (e * (X + E)))) by (apply Rmult_le_compat_r; lra).
    assert (eE : 0 <= e * E <= / 1000 * E) by (split; [apply Rmult_le_pos; lra|apply Rmult_le_compat_r; lra]).
    assert (eX : e * X = 2 * (e * (z * z * z))) by (unfold X; ring).
    assert (e1 : e * 1 <= e * (z * z * z)) by (apply Rmult_le_compat_l; lra).
    lra.
Qed.

(** Kurtosis. *)
Hypothesis HKK : (N.of_nat (length l) * N.of_nat (length l) <= K)%N.
Hypothesis HSS : (N.of_nat (length l) <= 2 ^ 32)%N.
Hypothesis B4 : 1024 * (n * (M * M * (M * M))) <= B.
Hypothesis T4 : 256 * t <= e * (M * M * (M * M)).

Lemma kurtosis_eq : kurtosis lv = n * csum 4 lv / (R2 * R2).
Proof.
  pose proof n_pos as N1.
  assert (Cd : card lv = n) by (unfold card, n; rewrite <- (forall2_len _ _ _ V); reflexivity).
  unfold kurtosis, cmoment. fold R2. rewrite Cd, R2_eq. field. lra.
Qed.

Lemma m4_val : exists r, val (ck_sum F (fold_left (ckurt_push F) l (ckurt_init F))) r /\
  Rabs (r - csum 4 lv) <= 9 / 8 * n * err4 M n.
Proof. apply (ckurt_acc M n TM B4 T4 l lv V HM HKK HSS). unfold n. lra. Qed.

Lemma kurt_zero : csum 4 lv + 9 / 8 * n * err4 M n < ep ->
  ckurt_kurtosis F (fold_left (ckurt_push F) l (ckurt_init F)) = n0.
Proof.
  intros H. destruct m4_val as (r & Vr & Er). unfold ckurt_kurtosis.
  rewrite (ap_lt _ _ _ _ _ _ AP _ _ _ _ Vr Veps). rewrite Rlt_bool_true; [reflexivity|]. apply Rabs_le_inv in Er. lra.
Qed.

(** The quotient that is returned above the cut-off. *)
Lemma kurt_quot : 1024 * A * e <= 1 ->
  16 * t <= e * (R2 * R2) -> 2 * (R2 * R2) <= B -> 32 * (n * n * (M * M * (M * M))) <= B -> 8 * (rho * rho) <= B ->
  let s := fold_left (ckurt_push F) l (ckurt_init F) in
  exists r, val (ndiv (nmul (nofsz (ckurt_size F s)) (ck_sum F s)) (nmul (cv_sum F (cs_super F (ck_super F s))) (cv_sum F (cs_super F (ck_super F s))))) r /\
    Rabs (r - kurtosis lv) <= (4140 * n + 96000) * (e * (rho * rho)).
Proof.
  intros HA T2 B2 BN HB s. subst s. destruct m4_val as (r & Vr & Er).
  pose proof n_pos as N1. pose proof M_pos as M0. pose proof R2_pos as RP. pose proof He as [E0 E1]. pose proof Ht as T0.
  destruct A_size as (A0 & A1 & A2). pose proof rho_1 as R1.
  assert (SM : forall c, c <= 64 * A -> 16 * (c * e) <= 1).
  { intros c H. assert (c * e <= 64 * A * e) by (apply Rmult_le_compat_r; lra). lra. }
  pose proof (ckurt_fold_super F l (ckurt_init F)) as SK. cbn [ckurt_init ck_super] in SK.
  pose proof (cskew_fold_super F l (cskew_init F)) as SX. cbn [cskew_init cs_super] in SX.
  unfold ckurt_size, cskew_size, cvar_size, cmean_size. rewrite SK, SX. cbv zeta.
  rewrite (cvar_fold_super F l (cvar_init F)). cbn [cvar_init cv_super].
  rewrite cmean_fold_count by exact HS.
  assert (M4 : 0 < M * M * (M * M)) by (apply Rmult_lt_0_compat; apply Rmult_lt_0_compat; lra).
  assert (nM4 : M * M * (M * M) <= n * (M * M * (M * M))) by (rewrite <- (Rmult_1_l (M * M * (M * M))) at 1; apply Rmult_le_compat_r; lra).
  assert (nnM4 : n * (M * M * (M * M)) <= n * (n * (M * M * (M * M)))).
  { rewrite <- (Rmult_1_l (n * (M * M * (M * M)))) at 1. apply Rmult_le_compat_r; lra. }
  assert (eM4 : e * (M * M * (M * M)) <= e * (n * (n * (M * M * (M * M))))) by (apply Rmult_le_compat_l; lra).
  assert (eM40 : 0 <= e * (M * M * (M * M))) by (apply Rmult_le_pos; lra).
  assert (NE : l <> []). { intros ->. unfold n in N1. cbn in N1. lra. }
  pose proof (count_val AP _ l NE HK) as Vn. fold n in Vn.
  assert (Q4 : q (ck_sum F (fold_left (ckurt_push F) l (ckurt_init F))) (csum 4 lv) (16 * n * (M * M * (M * M))) (228 * n + 5299)).
  { split.
    - pose proof (csum_4_card M lv ltac:(lra) HM) as C. unfold card in C. rewrite <- (forall2_len _ _ _ V) in C. exact C.
    - exists r. split; [exact Vr|]. eapply Rle_trans; [exact Er|]. unfold err4.
      replace (9 / 8 * n * ((3242 * n + 75362) * (e * (M * M * (M * M))))) with (9 / 8 * (3242 * n + 75362) * (n * (e * (M * M * (M * M))))) by ring.
      replace ((228 * n + 5299) * (e * (16 * n * (M * M * (M * M))))) with (16 * (228 * n + 5299) * (n * (e * (M * M * (M * M))))) by ring.
      apply Rmult_le_compat_r; [apply Rmult_le_pos; lra|lra]. }
  assert (Qu : q (nmul (nofsz (N.of_nat (length l))) (ck_sum F (fold_left (ckurt_push F) l (ckurt_init F))))
    (n * csum 4 lv) (n * (16 * n * (M * M * (M * M)))) (228 * n + 5301)).
  { eapply q_mulr; [apply q_exact; [exact Vn|rewrite Rabs_pos_eq; lra]|exact Q4|lra|lra|apply SM; lra|apply SM; lra|lra|lra|lra]. }
  assert (Qd : q (nmul (cv_sum F (fold_left (cvar_push F) l (cvar_init F))) (cv_sum F (fold_left (cvar_push F) l (cvar_init F))))
    (R2 * R2) (R2 * R2) (33 / 16 * A + 5 / 4)).
  { eapply q_mul; [exact m2_rel|exact m2_rel|lra|lra|apply smallA; lra|apply smallA; lra|exact T2|exact B2|lra]. }
  assert (YP : 0 < R2 * R2) by (apply Rmult_lt_0_compat; lra).
  assert (EU : n * (16 * n * (M * M * (M * M))) / (R2 * R2) = 16 * (rho * rho)).
  { replace (n * (16 * n * (M * M * (M * M))) / (R2 * R2)) with (16 * ((n * (M * M)) / R2 * ((n * (M * M)) / R2))) by (field; lra).
    rewrite rho_R2. replace (rho * R2 / R2) with rho by (field; lra). ring. }
  assert (HG : Rabs (n * csum 4 lv) <= 4 * rho * (R2 * R2)).
  { destruct (csum_4_bound M lv ltac:(lra) HM) as [C0 C4]. fold R2 in C4.
    rewrite Rabs_pos_eq by (apply Rmult_le_pos; lra).
    replace (4 * rho * (R2 * R2)) with (4 * (rho * R2) * R2) by ring. rewrite <- rho_R2.
    replace (4 * (n * (M * M)) * R2) with (n * (4 * (M * M) * R2)) by ring. apply Rmult_le_compat_l; lra. }
  assert (RR : rho <= rho * rho) by (rewrite <- (Rmult_1_l rho) at 1; apply Rmult_le_compat_r; lra).
  assert (nR : 0 <= n * (rho * rho)) by (apply Rmult_le_pos; lra).
  assert (rA : rho * A = (28 * n + 618) * (rho * rho)) by (unfold A; ring).
  assert (QF : q (ndiv (nmul (nofsz (N.of_nat (length l))) (ck_sum F (fold_left (ckurt_push F) l (ckurt_init F))))
     (nmul (cv_sum F (fold_left (cvar_push F) l (cvar_init F))) (cv_sum F (fold_left (cvar_push F) l (cvar_init F)))))
     (n * csum 4 lv / (R2 * R2)) (4 * (rho * rho)) (1035 * n + 24000)).
  { destruct TR as (_ & _ & T3).
    eapply (q_div _ _ _ _ _ _ _ (4 * rho)); [exact Qu|exact Qd|exact YP|lra|lra|apply smallA; lra|exact HG|lra|lra| |apply SM; lra| |lra].
    - rewrite EU.
      replace ((33 / 16 * A + 5 / 4) * (4 * rho)) with (33 / 4 * (rho * A) + 5 * rho) by field. rewrite rA. lra.
    - assert (e * 1 <= e * (4 * (rho * rho))) by (apply Rmult_le_compat_l; lra). lra. }
  destruct QF as (_ & f & Vf & Ef). exists f. split; [exact Vf|]. rewrite kurtosis_eq. lra.
Qed.

Lemma kurt_obs : ep + 9 / 8 * n * err4 M n <= csum 4 lv -> 1024 * A * e <= 1 ->
  16 * t <= e * (R2 * R2) -> 2 * (R2 * R2) <= B -> 32 * (n * n * (M * M * (M * M))) <= B -> 8 * (rho * rho) <= B ->
  exists r, val (ckurt_kurtosis F (fold_left (ckurt_push F) l (ckurt_init F))) r /\
    Rabs (r - kurtosis lv) <= (4140 * n + 96000) * (e * (rho * rho)).
Proof.
  intros HE HA T2 B2 BN HB. destruct m4_val as (r & Vr & Er). unfold ckurt_kurtosis.
  rewrite (ap_lt _ _ _ _ _ _ AP _ _ _ _ Vr Veps). rewrite Rlt_bool_false by (apply Rabs_le_inv in Er; lra).
  exact (kurt_quot HA T2 B2 BN HB).
Qed.

Lemma err4_rel : n * (9 / 8 * n * err4 M n) / (R2 * R2) = 9 / 8 * (3242 * n + 75362) * (e * (rho * rho)).
Proof.
  pose proof R2_pos as RP. unfold err4.
  replace (n * (9 / 8 * n * ((3242 * n + 75362) * (e * (M * M * (M * M))))) / (R2 * R2))
    with (9 / 8 * (3242 * n + 75362) * (e * (n * (M * M) / R2 * (n * (M * M) / R2)))) by (field; lra).
  rewrite rho_R2. replace (rho * R2 / R2) with rho by (field; lra). reflexivity.
Qed.

(** Whatever the fourth sum. *)
Definition kurt_err : R := (4140 * n + 96000) * (e * (rho * rho)) + ep / (n * (S2 * S2)).

Lemma kurt_cases : 1024 * A * e <= 1 ->
  16 * t <= e * (R2 * R2) -> 2 * (R2 * R2) <= B -> 32 * (n * n * (M * M * (M * M))) <= B -> 8 * (rho * rho) <= B ->
  0 <= ep ->
  let s := fold_left (ckurt_push F) l (ckurt_init F) in
  (nlt (ck_sum F s) neps = true /\ 0 <= kurtosis lv <= kurt_err) \/
  (nlt (ck_sum F s) neps = false /\ exists r, val (ckurt_kurtosis F s) r /\ Rabs (r - kurtosis lv) <= kurt_err).
Proof.
  intros HA T2 B2 BN HB EP s. destruct m4_val as (r & Vr & Er). fold s in Vr. apply Rabs_le_inv in Er.
  pose proof n_pos as N1. pose proof R2_pos as RP. pose proof He as [E0 _]. pose proof rho_1 as R1. pose proof err4_rel as ER.
  assert (YP : 0 < R2 * R2) by (apply Rmult_lt_0_compat; lra).
  assert (EE : n * ep / (R2 * R2) = ep / (n * (S2 * S2))) by (rewrite R2_eq; field; lra).
  assert (PE : 0 <= ep / (n * (S2 * S2))).
  { rewrite <- EE. apply Rmult_le_pos; [apply Rmult_le_pos; lra|left; apply Rinv_0_lt_compat; exact YP]. }
  unfold kurt_err. pose proof (ap_lt _ _ _ _ _ _ AP _ _ _ _ Vr Veps) as LT.
  destruct (Rlt_bool_spec r ep) as [L|L].
  - left. split; [exact LT|]. rewrite kurtosis_eq.
    assert (RR : 0 <= e * (rho * rho)) by (apply Rmult_le_pos; [lra|apply Rmult_le_pos; lra]).
    assert (nRR : 0 <= n * (e * (rho * rho))) by (apply Rmult_le_pos; lra).
    destruct (csum_4_bound M lv ltac:(pose proof M_pos; lra) HM) as [C0 _].
    split; [apply Rmult_le_pos; [apply Rmult_le_pos; lra|left; apply Rinv_0_lt_compat; exact YP]|].
    assert (H : n * csum 4 lv / (R2 * R2) <= n * (ep + 9 / 8 * n * err4 M n) / (R2 * R2)).
    { apply Rmult_le_compat_r; [left; apply Rinv_0_lt_compat; exact YP|]. apply Rmult_le_compat_l; lra. }
    replace (n * (ep + 9 / 8 * n * err4 M n) / (R2 * R2))
      with (n * ep / (R2 * R2) + n * (9 / 8 * n * err4 M n) / (R2 * R2)) in H by (field; lra).
    rewrite ER, EE in H. lra.
  - right. split; [exact LT|]. unfold ckurt_kurtosis. rewrite LT.
    destruct (kurt_quot HA T2 B2 BN HB) as (f & Vf & Ef). exists f. split; [exact Vf|]. lra.
Qed.

Lemma kurt_all : 1024 * A * e <= 1 ->
  16 * t <= e * (R2 * R2) -> 2 * (R2 * R2) <= B -> 32 * (n * n * (M * M * (M * M))) <= B -> 8 * (rho * rho) <= B ->
  0 <= ep -> val n0 0 ->
  exists r, val (ckurt_kurtosis F (fold_left (ckurt_push F) l (ckurt_init F))) r /\
    Rabs (r - kurtosis lv) <= kurt_err.
Proof.
  intros HA T2 B2 BN HB EP V0. destruct (kurt_cases HA T2 B2 BN HB EP) as [[L H]|[_ H]]; [|exact H].
  exists 0. split; [unfold ckurt_kurtosis; rewrite L; exact V0|]. rewrite Rminus_0_l, Rabs_Ropp, Rabs_pos_eq; lra.
Qed.

(** The bias correction. *)
Lemma kurt_range : 1 <= kurtosis lv <= 4 * rho.
Proof.
  pose proof n_pos as N1. pose proof R2_pos as RP. pose proof M_pos as M0.
  assert (YP : 0 < R2 * R2) by (apply Rmult_lt_0_compat; lra).
  assert (Cd : card lv = n) by (unfold card, n; rewrite <- (forall2_len _ _ _ V); reflexivity).
  assert (G : forall k m c, 0 <= Rsum (map (fun x => (x - m) ^ 4) k) - 2 * c * Rsum (map (fun x => (x - m) ^ 2) k) + INR (length k) * (c * c)).
  { intros k m c. induction k as [|x k IH]; [cbn; lra|]. cbn [map Rsum length]. rewrite S_INR.
    pose proof (pow2_ge_0 ((x - m) ^ 2 - c)) as Q.
    replace (((x - m) ^ 2 - c) ^ 2) with ((x - m) ^ 4 - 2 * c * (x - m) ^ 2 + c * c) in Q by ring. lra. }
  specialize (G lv (mean lv) S2). change (Rsum (map (fun x => (x - mean lv) ^ 4) lv)) with (csum 4 lv) in G.
  change (Rsum (map (fun x => (x - mean lv) ^ 2) lv)) with R2 in G. change (INR (length lv)) with (card lv) in G. rewrite Cd in G.
  pose proof R2_eq as RE.
  rewrite kurtosis_eq. split.
  - apply (Rmult_le_reg_r (R2 * R2)); [exact YP|]. replace (n * csum 4 lv / (R2 * R2) * (R2 * R2)) with (n * csum 4 lv) by (field; lra).
    rewrite Rmult_1_l. replace (R2 * R2) with (n * (S2 * R2)) by (rewrite RE; ring). apply Rmult_le_compat_l; [lra|].
    replace (n * (S2 * S2)) with (S2 * R2) in G by (rewrite RE; ring). lra.
  - apply (Rmult_le_reg_r (R2 * R2)); [exact YP|]. replace (n * csum 4 lv / (R2 * R2) * (R2 * R2)) with (n * csum 4 lv) by (field; lra).
    destruct (csum_4_bound M lv ltac:(lra) HM) as [C0 C4]. fold R2 in C4.
    replace (4 * rho * (R2 * R2)) with (4 * (rho * R2) * R2) by ring. rewrite <- rho_R2.
    replace (4 * (n * (M * M)) * R2) with (n * (4 * (M * M) * R2)) by ring. apply Rmult_le_compat_l; lra.
Qed.

Lemma unb_kurt : 1024 * A * e <= 1 ->
  16 * t <= e * (R2 * R2) -> 2 * (R2 * R2) <= B -> 32 * (n * n * (M * M * (M * M))) <= B -> 8 * (rho * rho) <= B ->
  0 <= ep -> (4 <= length l)%nat -> kurt_err <= / 16 -> 16 * n * t <= e -> 64 * (n * rho) <= B ->
  exists r, val (ckurt_unbiased_kurtosis F (fold_left (ckurt_push F) l (ckurt_init F))) r /\
    Rabs (r - (3 + (n - 1) / ((n - 2) * (n - 3)) * ((n + 1) * kurtosis lv - 3 * (n - 1)))) <= 8 * (kurt_err + 90 * (e * rho)).
Proof.
  intros HA T2 B2 BN HB EP L4 HE Tn Bn. pose proof He as [E0 E1]. pose proof Ht as T0.
  pose proof kurt_range as KR. pose proof n_pos as N1.
  assert (N4 : 4 <= n) by (unfold n; replace 4 with (INR 4) by (cbn; lra); apply le_INR; exact L4).
  assert (Es : e <= / 1000).
  { destruct A_size as (A0 & A1 & _). assert (128 * 646 * e <= 128 * A * e) by (apply Rmult_le_compat_r; lra). lra. }
  set (k := kurtosis lv) in *. set (E := kurt_err) in *.
  assert (SZc : ckurt_size F (fold_left (ckurt_push F) l (ckurt_init F)) = N.of_nat (length l)).
  { pose proof (ckurt_fold_super F l (ckurt_init F)) as SK. cbn [ckurt_init ck_super] in SK.
    pose proof (cskew_fold_super F l (cskew_init F)) as SX. cbn [cskew_init cs_super] in SX.
    unfold ckurt_size, cskew_size, cvar_size, cmean_size. rewrite SK, SX. rewrite (cvar_fold_super F l (cvar_init F)). cbn [cvar_init cv_super].
    apply cmean_fold_count. exact HS. }
  unfold ckurt_unbiased_kurtosis. cbv zeta. rewrite SZc.
  replace (N.ltb (N.of_nat (length l)) 4) with false by (symmetry; apply N.ltb_ge; lia).
  destruct (kurt_cases HA T2 B2 BN HB EP) as [[_ H]|[LT (g & Vg & Eg)]]; [fold k E in H; lra|]. rewrite LT. fold k E in Eg.
  set (c := N.of_nat (length l)) in *.
  assert (Hc : (4 <= c)%N) by (unfold c; lia).
  assert (Hcc : ((c - 2) * (c - 3) <= c * c)%N) by (apply N.mul_le_mono; lia).
  assert (Hcs : ((c - 2) * (c - 3) < szmod)%N).
  { apply N.lt_le_trans with (2 ^ 32 * 2 ^ 32)%N; [apply N.mul_lt_mono; lia|]. unfold szmod. lia. }
  assert (Hs : (c + 1 < szmod)%N) by (unfold szmod; lia).
  rewrite (szsub_small c 1), (szsub_small c 2), (szsub_small c 3), szadd_small by (try exact HS; lia). rewrite szmul_small by exact Hcs.
  assert (Ic : IZR (Z.of_N c) = n) by (unfold c, n; apply inr_count).
  assert (V1 : val (nofsz (c - 1)) (n - 1)).
  { replace (n - 1) with (IZR (Z.of_N (c - 1))); [apply (ap_count _ _ _ _ _ _ AP); lia|].
    rewrite N2Z.inj_sub, minus_IZR, Ic by lia. reflexivity. }
  assert (Vp : val (nofsz (c + 1)) (n + 1)).
  { replace (n + 1) with (IZR (Z.of_N (c + 1))).
    - apply (ap_count _ _ _ _ _ _ AP). split; [lia|]. apply N.le_trans with (c * c)%N; [nia|exact HKK].
    - rewrite N2Z.inj_add, plus_IZR, Ic by lia. reflexivity. }
  assert (Vq : val (nofsz ((c - 2) * (c - 3))) ((n - 2) * (n - 3))).
  { replace ((n - 2) * (n - 3)) with (IZR (Z.of_N ((c - 2) * (c - 3)))).
    - apply (ap_count _ _ _ _ _ _ AP). split; [nia|]. eapply N.le_trans; eassumption.
    - rewrite N2Z.inj_mul, mult_IZR, !N2Z.inj_sub, !minus_IZR, Ic by lia. reflexivity. }
  assert (V3 : val (nofz 3%Z) 3) by (apply (lit 3); lia).
  set (al := (n - 1) / ((n - 2) * (n - 3))).
  assert (D0 : 0 < (n - 2) * (n - 3)) by (apply Rmult_lt_0_compat; lra).
  assert (al0 : / n <= al).
  { unfold al. apply (Rmult_le_reg_r (n * ((n - 2) * (n - 3)))); [apply Rmult_lt_0_compat; lra|].
    replace (/ n * (n * ((n - 2) * (n - 3)))) with ((n - 2) * (n - 3)) by (field; lra).
    replace ((n - 1) / ((n - 2) * (n - 3)) * (n * ((n - 2) * (n - 3)))) with ((n - 1) * n) by (field; lra). nra. }
  assert (aln : al * (n + 1) <= 15 / 2).
  { apply (Rmult_le_reg_r ((n - 2) * (n - 3))); [exact D0|].
    replace (al * (n + 1) * ((n - 2) * (n - 3))) with ((n - 1) * (n + 1)) by (unfold al; field; lra). nra. }
  assert (alp : 0 < al) by (eapply Rlt_le_trans; [|exact al0]; apply Rinv_0_lt_compat; lra).
  assert (ta : 16 * t <= e * al).
  { apply Rle_trans with (e * / n); [|apply Rmult_le_compat_l; lra]. apply (Rmult_le_reg_r n); [lra|].
    replace (e * / n * n) with e by (field; lra). lra. }
  set (Nn := n + 1) in *. assert (Nn5 : 5 <= Nn) by (unfold Nn; lra).
  assert (alB : al <= 3 / 2).
  { assert (al * 5 <= al * Nn) by (apply Rmult_le_compat_l; lra). lra. }
  assert (Nr : Nn * rho <= 2 * (n * rho)).
  { pose proof rho_1. assert (1 * rho <= n * rho) by (apply Rmult_le_compat_r; lra). unfold Nn. lra. }
  assert (a2B : Nn * k <= 8 * (n * rho)).
  { apply Rle_trans with (Nn * (4 * rho)); [apply Rmult_le_compat_l; lra|lra]. }
  set (a2 := Nn * k) in *. set (a1 := Nn * E).
  assert (a12 : 0 <= 16 * a1 <= a2).
  { unfold a1, a2. assert (Ep : 0 <= E) by (pose proof (Rabs_pos (g - k)); lra).
    split; [pose proof (Rmult_le_pos Nn E); lra|]. replace (16 * (Nn * E)) with (Nn * (16 * E)) by ring. apply Rmult_le_compat_l; lra. }
  assert (a2N : Nn <= a2) by (unfold a2; rewrite <- (Rmult_1_r Nn) at 1; apply Rmult_le_compat_l; lra).
  assert (ea2 : e * Nn <= e * a2 <= / 1000 * a2) by (split; [apply Rmult_le_compat_l|apply Rmult_le_compat_r]; lra).
  assert (ea1 : 0 <= e * a1 <= / 16 * (e * a2)).
  { split; [apply Rmult_le_pos; lra|]. replace (/ 16 * (e * a2)) with (e * (/ 16 * a2)) by ring. apply Rmult_le_compat_l; lra. }
  assert (e5 : 5 * e <= e * Nn) by (rewrite (Rmult_comm 5); apply Rmult_le_compat_l; lra).
  assert (t80 : 80 * t <= e * Nn).
  { assert (1 * (16 * t) <= n * (16 * t)) by (apply Rmult_le_compat_r; lra). lra. }
  assert (NG : Rabs (Nn * g - a2) <= a1).
  { unfold a2, a1. replace (Nn * g - Nn * k) with (Nn * (g - k)) by ring. rewrite Rabs_mult, (Rabs_pos_eq Nn) by lra. apply Rmult_le_compat_l; lra. }
  pose proof (close_abs _ _ _ NG) as NGa. rewrite (Rabs_pos_eq a2) in NGa by lra.
  destruct (ap_mul _ _ _ _ _ _ AP _ _ _ _ Vp Vg) as (p & Vpp & Np); [lra|]. unfold near in Np.
  assert (eNG : e * Rabs (Nn * g) <= e * (a2 + a1)) by (apply Rmult_le_compat_l; lra).
  assert (P1 : Rabs (p - a2) <= a1 + e * a2 + e * a1 + t).
  { replace (p - a2) with ((p - Nn * g) + (Nn * g - a2)) by ring. eapply Rle_trans; [apply Rabs_triang|]. lra. }
  set (b := 3 * (n - 1)). assert (b0 : 0 <= b <= 3 * Nn) by (unfold b, Nn; lra).
  destruct (ap_mul _ _ _ _ _ _ AP _ _ _ _ V3 V1) as (w & Vw & Nw); [fold b; rewrite Rabs_pos_eq; lra|]. unfold near in Nw. fold b in Nw.
  rewrite (Rabs_pos_eq b) in Nw by lra.
  assert (eb : e * b <= 3 * (e * Nn)) by (replace (3 * (e * Nn)) with (e * (3 * Nn)) by ring; apply Rmult_le_compat_l; lra).
  pose proof (close_abs _ _ _ P1) as Pa. rewrite (Rabs_pos_eq a2) in Pa by lra.
  assert (Wa : Rabs w <= 3 * Nn + 3 * (e * Nn) + t) by (pose proof (close_abs _ _ _ Nw) as H; rewrite (Rabs_pos_eq b) in H by lra; lra).
  assert (PW : Rabs (p - w) <= 5 * a2).
  { unfold Rminus. eapply Rle_trans; [apply Rabs_triang|]. rewrite Rabs_Ropp. lra. }
  destruct (ap_sub _ _ _ _ _ _ AP _ _ _ _ Vpp Vw) as (d & Vd & Nd); [lra|]. unfold near in Nd.
  assert (ePW : e * Rabs (p - w) <= 5 * (e * a2)) by (replace (5 * (e * a2)) with (e * (5 * a2)) by ring; apply Rmult_le_compat_l; lra).
  set (D := a2 - b) in *.
  assert (Dd : Rabs (d - D) <= a1 + 10 * (e * a2)).
  { replace (d - D) with ((d - (p - w)) + ((p - a2) + - (w - b))) by (unfold D; ring).
    eapply Rle_trans; [apply Rabs_triang|]. pose proof (Rabs_triang (p - a2) (- (w - b))) as TR'. rewrite Rabs_Ropp in TR'. lra. }
  assert (Da : Rabs D <= 4 * a2).
  { unfold D, Rminus. eapply Rle_trans; [apply Rabs_triang|]. rewrite Rabs_Ropp, !Rabs_pos_eq; lra. }
  destruct (ap_div _ _ _ _ _ _ AP _ _ _ _ V1 Vq) as (a & Va & Na); [lra| |].
  { fold al. rewrite Rabs_pos_eq by lra. pose proof rho_1. assert (4 * 1 <= n * rho) by (apply Rmult_le_compat; lra). lra. }
  unfold near in Na. fold al in Na. rewrite (Rabs_pos_eq al) in Na by lra.
  assert (Na' : Rabs (a - al) <= 17 / 16 * (e * al)) by lra.
  assert (eal : e * al <= / 1000 * al) by (apply Rmult_le_compat_r; lra).
  assert (Aa : Rabs a <= 1002 / 1000 * al) by (pose proof (close_abs _ _ _ Na') as H; rewrite (Rabs_pos_eq al) in H by lra; lra).
  set (b1 := al * a1). set (b2 := al * a2).
  assert (B1 : b1 <= 15 / 2 * E).
  { unfold b1, a1. rewrite <- Rmult_assoc. apply Rmult_le_compat_r; [|lra]. pose proof (Rabs_pos (g - k)); lra. }
  assert (B2' : b2 <= 15 / 2 * k) by (unfold b2, a2; rewrite <- Rmult_assoc; apply Rmult_le_compat_r; lra).
  assert (B12 : 0 <= 16 * b1 <= b2).
  { unfold b1, b2. split; [pose proof (Rmult_le_pos al a1); lra|]. replace (16 * (al * a1)) with (al * (16 * a1)) by ring. apply Rmult_le_compat_l; lra. }
  assert (eb2 : 0 <= e * b2 <= / 1000 * b2).
  { assert (0 <= b2) by lra. split; [apply Rmult_le_pos; lra|apply Rmult_le_compat_r; lra]. }
  assert (AD : Rabs (a * d - al * D) <= 1002 / 1000 * (b1 + 10 * (e * b2)) + 17 / 4 * (e * b2)).
  { replace (a * d - al * D) with (a * (d - D) + D * (a - al)) by ring. eapply Rle_trans; [apply Rabs_triang|]. rewrite !Rabs_mult.
    apply Rplus_le_compat.
    - replace (1002 / 1000 * (b1 + 10 * (e * b2))) with (1002 / 1000 * al * (a1 + 10 * (e * a2))) by (unfold b1, b2; ring).
      apply Rmult_le_compat; try apply Rabs_pos; assumption.
    - replace (17 / 4 * (e * b2)) with (4 * a2 * (17 / 16 * (e * al))) by (unfold b2; field).
      apply Rmult_le_compat; try apply Rabs_pos; assumption. }
  assert (alD : Rabs (al * D) <= 4 * b2).
  { rewrite Rabs_mult, (Rabs_pos_eq al) by lra. unfold b2. replace (4 * (al * a2)) with (al * (4 * a2)) by ring. apply Rmult_le_compat_l; lra. }
  pose proof (close_abs _ _ _ AD) as ADa.
  assert (kB : 60 * k <= B).
  { pose proof rho_1. assert (4 * rho <= n * rho) by (apply Rmult_le_compat_r; lra). lra. }
  destruct (ap_mul _ _ _ _ _ _ AP _ _ _ _ Va Vd) as (m & Vm & Nm); [lra|]. unfold near in Nm.
  assert (ead : e * Rabs (a * d) <= e * (42 / 10 * b2)) by (apply Rmult_le_compat_l; lra).
  assert (Mm : Rabs (m - al * D) <= 1002 / 1000 * b1 + 19 * (e * b2) + t).
  { replace (m - al * D) with ((m - a * d) + (a * d - al * D)) by ring. eapply Rle_trans; [apply Rabs_triang|]. lra. }
  assert (ek : e * 1 <= e * k) by (apply Rmult_le_compat_l; lra).
  assert (ek1 : e * k <= / 1000 * k) by (apply Rmult_le_compat_r; lra).
  assert (ebk : e * b2 <= 15 / 2 * (e * k)) by (replace (15 / 2 * (e * k)) with (e * (15 / 2 * k)) by ring; apply Rmult_le_compat_l; lra).
  assert (tk : 16 * t <= e * k). { assert (1 * (16 * t) <= n * (16 * t)) by (apply Rmult_le_compat_r; lra). lra. }
  pose proof (close_abs _ _ _ Mm) as Ma.
  assert (M3 : Rabs (3 + m) <= 35 * k).
  { eapply Rle_trans; [apply Rabs_triang|]. rewrite (Rabs_pos_eq 3) by lra. lra. }
  destruct (ap_add _ _ _ _ _ _ AP _ _ _ _ V3 Vm) as (f & Vf & Nf); [lra|]. unfold near in Nf.
  exists f. split; [exact Vf|].
  replace (f - (3 + al * D)) with ((f - (3 + m)) + (m - al * D)) by ring. eapply Rle_trans; [apply Rabs_triang|].
  assert (e3 : e * Rabs (3 + m) <= e * (35 * k)) by (apply Rmult_le_compat_l; lra).
  assert (er : e * k <= 4 * (e * rho)) by (replace (4 * (e * rho)) with (e * (4 * rho)) by ring; apply Rmult_le_compat_l; lra).
  lra.
Qed.

End Observables.

End Higher.
