(** * Error propagation through one operation *)

From Coq Require Import Reals ZArith NArith Bool List Lra Lia Psatz.
From Flocq Require Import Core.
From Verif Require Import Arith Approx SpecError.
Local Open Scope R_scope.

Lemma close_abs a X E : Rabs (a - X) <= E -> Rabs a <= Rabs X + E.
Proof.
  intros H. replace a with (X + (a - X)) by ring. eapply Rle_trans; [apply Rabs_triang|]. lra.
Qed.

Section Operations.
Context {F : num} {val : F -> R -> Prop} {B e t : R} {K : N}.
Hypothesis AP : approx F val B e t K.

Local Notation He := (ap_e _ _ _ _ _ _ AP).
Local Notation Ht := (ap_t _ _ _ _ _ _ AP).

Lemma near_slack a r X E : near e t a r -> Rabs (a - X) <= E -> Rabs (r - X) <= slack e t X E.
Proof.
  intros N H. pose proof He. unfold near in N. pose proof (close_abs a X E H) as HA.
  replace (r - X) with ((r - a) + (a - X)) by ring. eapply Rle_trans; [apply Rabs_triang|].
  assert (e * Rabs a <= e * (Rabs X + E)) by (apply Rmult_le_compat_l; lra). unfold slack. lra.
Qed.

Lemma sub_err x y a b X Y Ex Ey : val x a -> val y b -> Rabs (a - X) <= Ex -> Rabs (b - Y) <= Ey ->
  Rabs (X - Y) + (Ex + Ey) <= B ->
  exists r, val (nsub x y) r /\ Rabs (r - (X - Y)) <= slack e t (X - Y) (Ex + Ey).
Proof.
  intros Vx Vy Hx Hy HB.
  assert (H : Rabs ((a - b) - (X - Y)) <= Ex + Ey).
  { replace ((a - b) - (X - Y)) with ((a - X) + - (b - Y)) by ring.
    eapply Rle_trans; [apply Rabs_triang|]. rewrite Rabs_Ropp. lra. }
  destruct (ap_sub _ _ _ _ _ _ AP _ _ _ _ Vx Vy) as (r & Vr & Nr).
  { pose proof (close_abs _ _ _ H). lra. }
  exists r. split; [exact Vr|]. eapply near_slack; [exact Nr|exact H].
Qed.

Definition merr2 (X Y Ex Ey : R) : R := Rabs X * Ey + Rabs Y * Ex + Ex * Ey.

Lemma mul_close a b X Y Ex Ey : Rabs (a - X) <= Ex -> Rabs (b - Y) <= Ey ->
  Rabs (a * b - X * Y) <= merr2 X Y Ex Ey.
Proof.
  intros Hx Hy. unfold merr2.
  replace (a * b - X * Y) with (X * (b - Y) + Y * (a - X) + (a - X) * (b - Y)) by ring.
  eapply Rle_trans; [apply Rabs_triang|].
  pose proof (Rabs_triang (X * (b - Y)) (Y * (a - X))) as T. rewrite !Rabs_mult in *.
  pose proof (Rabs_pos X). pose proof (Rabs_pos Y). pose proof (Rabs_pos (a - X)). pose proof (Rabs_pos (b - Y)).
  assert (Rabs X * Rabs (b - Y) <= Rabs X * Ey) by (apply Rmult_le_compat_l; lra).
  assert (Rabs Y * Rabs (a - X) <= Rabs Y * Ex) by (apply Rmult_le_compat_l; lra).
  assert (Rabs (a - X) * Rabs (b - Y) <= Ex * Ey) by (apply Rmult_le_compat; lra). lra.
Qed.

Lemma mul_err x y a b X Y Ex Ey : val x a -> val y b -> Rabs (a - X) <= Ex -> Rabs (b - Y) <= Ey ->
  Rabs (X * Y) + merr2 X Y Ex Ey <= B ->
  exists r, val (nmul x y) r /\ Rabs (r - X * Y) <= slack e t (X * Y) (merr2 X Y Ex Ey).
Proof.
  intros Vx Vy Hx Hy HB. pose proof (mul_close _ _ _ _ _ _ Hx Hy) as H.
  destruct (ap_mul _ _ _ _ _ _ AP _ _ _ _ Vx Vy) as (r & Vr & Nr).
  { pose proof (close_abs _ _ _ H). lra. }
  exists r. split; [exact Vr|]. eapply near_slack; [exact Nr|exact H].
Qed.

Lemma div_err c v cv vv C V Ec Ev : val c cv -> val v vv -> Rabs (cv - C) <= Ec -> Rabs (vv - V) <= Ev ->
  0 < V -> 2 * Ev <= V ->
  let S := C / V in
  let Es := 2 * (Ec + Rabs S * Ev) / V in
  Rabs S + Es <= B ->
  vv <> 0 /\
  exists r, val (ndiv c v) r /\ Rabs (r - S) <= slack e t S Es.
Proof.
  intros Vc Vv Hc Hv V0 HE S Es HB.
  assert (Hvv : V / 2 <= vv) by (apply Rabs_le_inv in Hv; lra).
  split; [lra|].
  assert (H : Rabs (cv / vv - S) <= Es).
  { replace (cv / vv - S) with (((cv - C) + - (S * (vv - V))) * / vv) by (unfold S; field; lra).
    rewrite Rabs_mult, (Rabs_pos_eq (/ vv)) by (left; apply Rinv_0_lt_compat; lra).
    assert (A : Rabs ((cv - C) + - (S * (vv - V))) <= Ec + Rabs S * Ev).
    { eapply Rle_trans; [apply Rabs_triang|]. rewrite Rabs_Ropp, Rabs_mult.
      pose proof (Rmult_le_compat_l _ _ _ (Rabs_pos S) Hv). lra. }
    assert (I : / vv <= 2 / V).
    { replace (2 / V) with (/ (V / 2)) by (field; lra). apply Rinv_le_contravar; lra. }
    unfold Es. replace (2 * (Ec + Rabs S * Ev) / V) with ((Ec + Rabs S * Ev) * (2 / V)) by (field; lra).
    apply Rmult_le_compat; [apply Rabs_pos|left; apply Rinv_0_lt_compat; lra|exact A|exact I]. }
  destruct (ap_div _ _ _ _ _ _ AP _ _ _ _ Vc Vv) as (r & Vr & Nr); [lra| |].
  { pose proof (close_abs _ _ _ H). lra. }
  exists r. split; [exact Vr|]. eapply near_slack; [exact Nr|exact H].
Qed.

(** Square roots are not part of the interface. *)
Hypothesis ap_sqrt : forall x a, val x a -> 0 <= a -> exists r, val (nsqrt x) r /\ near e t (sqrt a) r.

Lemma sqrt_close a X E : 0 < X -> 0 <= a -> Rabs (a - X) <= E -> Rabs (sqrt a - sqrt X) <= E / sqrt X.
Proof.
  intros X0 A0 H. pose proof (sqrt_lt_R0 X X0) as P. pose proof (sqrt_pos a) as Q.
  assert (Eq : (sqrt a - sqrt X) * (sqrt a + sqrt X) = a - X).
  { replace ((sqrt a - sqrt X) * (sqrt a + sqrt X)) with (sqrt a * sqrt a - sqrt X * sqrt X) by ring.
    rewrite !sqrt_sqrt by lra. reflexivity. }
  apply (Rmult_le_reg_r (sqrt X)); [exact P|].
  replace (E / sqrt X * sqrt X) with E by (field; lra).
  eapply Rle_trans; [|exact H]. rewrite <- Eq, Rabs_mult, (Rabs_pos_eq (sqrt a + sqrt X)) by lra.
  apply Rmult_le_compat_l; [apply Rabs_pos|lra].
Qed.

Lemma sqrt_err x a X E : val x a -> 0 < X -> 0 <= a -> Rabs (a - X) <= E ->
  exists r, val (nsqrt x) r /\ Rabs (r - sqrt X) <= slack e t (sqrt X) (E / sqrt X).
Proof.
  intros Vx X0 A0 H. destruct (ap_sqrt x a Vx A0) as (r & Vr & Nr).
  exists r. split; [exact Vr|]. eapply near_slack; [exact Nr|]. apply sqrt_close; assumption.
Qed.

End Operations.
