(** * Claim C101: response of the linear filters to sinusoids *)

From Coq Require Import Reals ZArith NArith List Bool.
From Verif Require Import Arith History SpecStats SpecDecay SpecImpulse SpecFrequency Window WindowRuns Decay DecayRuns Impulse ImpulseRuns.
Import ListNotations.
Local Open Scope R_scope.
(* @end-header *)
From Coq Require Import Lia Lra Psatz.
From Flocq Require Import Core.Raux.
From Verif Require Import HistoryLemmas ExactRuns WindowProofs DecayProofs ImpulseProofs Forgetting ClaimsWindow ClaimsForgetting FrequencyProofs.

(** @prop C101_fir: a finite filter that, after any history, has received at least
    as many samples of a sinusoid as it has coefficients returns a sinusoid of
    the same frequency, of amplitude at most [|A|] times the modulus of
    [sum_k c_k exp(-i w k)]. *)
Lemma c101_fir : forall (eps : R) (c : list R) (ops : list (op R)) (A w phi : R) (m : nat),
  c <> [] -> (length c <= m)%nat ->
  let th := w * INR (m - 1) + phi in
  let v := A * (cos_part c 0 w * cos th + sin_part c 0 w * sin th) in
  fir_value (exact eps) (run_fir eps c (ops ++ pushes (sinusoid A w phi m))) = Fin v /\
  Rabs v <= Rabs A * magnitude c w.
Proof.
  intros eps c ops A w phi m Nc Hm th v.
  assert (Lc : (0 < length c)%nat) by (destruct c; [congruence|cbn; lia]).
  split.
  - rewrite fir_value_exact, since_tail; [|exact Nc|].
    + rewrite app_length, sinusoid_length, convolution_sinusoid by lia.
      replace (length (since_clear ops) + m - 1 - length (since_clear ops))%nat with (m - 1)%nat by lia. reflexivity.
    + rewrite since_tail. apply app_ne. intros E. apply (f_equal (@length R)) in E. rewrite sinusoid_length in E. cbn in E. lia.
  - unfold v, magnitude. rewrite Rabs_mult. apply Rmult_le_compat_l; [apply Rabs_pos|]. apply amplitude.
Qed.

(** @ex C101_fir_ex: the difference of neighbours amplifies the alternating
    sinusoid (frequency pi) by two. *)
Lemma c101_fir_ex :
  let c := [1; -1] in
  c <> [] /\ (length c <= 5)%nat /\ magnitude c PI = 2 /\
  3 * (cos_part c 0 PI * cos (PI * INR (5 - 1) + 0) + sin_part c 0 PI * sin (PI * INR (5 - 1) + 0)) = 6.
Proof.
  assert (C : cos_part [1; -1] 0 PI = 2).
  { unfold cos_part, sumto. cbn [length seq map Rsum nth plus INR]. rewrite Rmult_0_r, Rmult_1_r, cos_0, cos_PI. lra. }
  assert (S : sin_part [1; -1] 0 PI = 0).
  { unfold sin_part, sumto. cbn [length seq map Rsum nth plus INR]. rewrite Rmult_0_r, Rmult_1_r, sin_0, sin_PI. lra. }
  cbn zeta. split; [discriminate|]. split; [cbn; lia|]. split.
  - unfold magnitude. rewrite C, S. unfold Rsqr. replace (2 * 2 + 0 * 0) with (2 * 2) by ring. apply sqrt_square. lra.
  - rewrite C, S. replace (PI * INR (5 - 1) + 0) with (0 + 2 * INR 2 * PI) by (cbn; ring).
    rewrite cos_period, cos_0. ring.
Qed.

(** @prop C101_iir: a recursive filter whose feedback coefficients are smaller than
    [|scale|] in total settles at a sinusoid of the same frequency: its value
    approaches [A (p cos th + q sin th)], where [p - i q] is the quotient
    [sum_k b_k exp(-i w k) / (scale + sum_j a_j exp(-i w (j + 1)))], so the
    amplitude is the ratio of the moduli. Each further [length a] samples reduce
    the distance by the factor [sum |a| / |scale|], whatever the filter has seen
    before. *)
Lemma c101_iir : forall (eps : R) (b a : list R) (scale : R) (ops : list (op R)) (A w phi : R) (m : nat) (M : R) (i : nat),
  b <> [] -> a <> [] -> abs_sum a < Rabs scale ->
  Forall (fun x => Rabs x <= M) (since_clear ops) -> Rabs A <= M ->
  (length b + i * length a <= m)%nat ->
  let th := w * INR (m - 1) + phi in
  let p := in_phase b a scale w in
  let q := quadrature b a scale w in
  0 < feedback_norm a scale w /\
  sqrt (p² + q²) = magnitude b w / sqrt (feedback_norm a scale w) /\
  exists v,
    iir_value (exact eps) (run_iir eps b a scale (ops ++ pushes (sinusoid A w phi m))) = Fin v /\
    Rabs (v - A * (p * cos th + q * sin th)) <=
      (abs_sum a / Rabs scale) ^ S i * (2 * (abs_sum b * M / (Rabs scale - abs_sum a))).
Proof.
  intros eps b a scale ops A w phi m M i Nb Na HS H HA Hi th p q.
  pose proof (feedback_norm_pos a scale w HS) as D. split; [exact D|]. split.
  { unfold p, q. rewrite settled_norm by exact HS. unfold magnitude. apply sqrt_div_alt. exact D. }
  assert (S0 : scale <> 0).
  { intros ->. rewrite Rabs_R0 in HS. pose proof (abs_sum_nonneg a). lra. }
  destruct (iir_value_exact eps b a scale (ops ++ pushes (sinusoid A w phi m)) Nb Na S0) as (y & DE & E).
  rewrite since_tail in DE. exists (last y 0). split; [exact E|].
  assert (Lb : (0 < length b)%nat) by (destruct b; [congruence|cbn; lia]).
  apply (sinusoid_settles b a scale w HS (since_clear ops) A phi m y M i); auto.
  - pose proof (Rabs_pos A). lra.
  - lia.
  - apply Forall_forall. exact H.
Qed.

(** @ex C101_iir_ex: y_n = (x_n + y_(n-1)) / 2 passes the alternating sinusoid with
    a third of its amplitude. *)
Lemma c101_iir_ex :
  [1] <> [] /\ [-1] <> [] /\ abs_sum [-1] < Rabs 2 /\
  Forall (fun x => Rabs x <= 8) (since_clear [Push 9; Clear; Push (-8)]) /\ Rabs 6 <= 8 /\
  (1 + 10 * 1 <= 11)%nat /\
  in_phase [1] [-1] 2 PI = 1 / 3 /\ quadrature [1] [-1] 2 PI = 0.
Proof.
  assert (A : Rabs (-1) = 1) by (unfold Rabs; destruct (Rcase_abs (-1)); lra).
  assert (B : Rabs 2 = 2) by (apply Rabs_pos_eq; lra).
  assert (D : Rabs (-8) = 8) by (unfold Rabs; destruct (Rcase_abs (-8)); lra).
  assert (E : Rabs 6 = 6) by (apply Rabs_pos_eq; lra).
  assert (C1 : cos_part [1] 0 PI = 1).
  { unfold cos_part, sumto. cbn [length seq map Rsum nth plus INR]. rewrite Rmult_0_r, cos_0. lra. }
  assert (S1 : sin_part [1] 0 PI = 0).
  { unfold sin_part, sumto. cbn [length seq map Rsum nth plus INR]. rewrite Rmult_0_r, sin_0. lra. }
  assert (C2 : cos_part [-1] 1 PI = 1).
  { unfold cos_part, sumto. cbn [length seq map Rsum nth plus INR]. rewrite Rmult_1_r, cos_PI. lra. }
  assert (S2 : sin_part [-1] 1 PI = 0).
  { unfold sin_part, sumto. cbn [length seq map Rsum nth plus INR]. rewrite Rmult_1_r, sin_PI. lra. }
  split; [discriminate|]. split; [discriminate|].
  split; [unfold abs_sum; cbn [map Rsum]; rewrite A, B; lra|].
  split; [cbn; repeat (apply Forall_cons; [lra|]); apply Forall_nil|]. split; [lra|]. split; [cbn; lia|].
  unfold in_phase, quadrature, feedback_norm, Rsqr. rewrite C1, S1, C2, S2. split; field.
Qed.

(** @prop C101_window_mean: once a window mean has received a full window of a
    sinusoid, mean() is a sinusoid of the same frequency, in phase with the
    middle of the window, with amplitude
    [A sin (W w / 2) / (W sin (w / 2))]; it is zero when the window spans a whole
    number of periods. *)
Lemma c101_window_mean : forall (eps : R) (W : nat) (ops : list (op R)) (A w phi : R) (m : nat),
  (0 < W)%nat -> (N.of_nat W < szmod)%N -> (W <= m)%nat -> sin (w / 2) <> 0 ->
  let value := wmean_mean _ (run_wmean eps W (ops ++ pushes (sinusoid A w phi m))) in
  value = Fin (A * (sin (INR W * w / 2) / (INR W * sin (w / 2))) *
               cos (w * (INR (m - 1) - (INR W - 1) / 2) + phi)) /\
  (forall j : Z, INR W * w = 2 * PI * IZR j -> value = Fin 0).
Proof.
  intros eps W ops A w phi m HW HN Hm HS value.
  assert (V : value = Fin (mean (lastn W (since_clear ops ++ sinusoid A w phi m)))).
  { destruct (c15 eps W (ops ++ pushes (sinusoid A w phi m)) HW HN) as (_ & V & _).
    rewrite since_tail in V. apply V. intros E. apply (f_equal (@length R)) in E.
    rewrite lastn_length, app_length, sinusoid_length in E. cbn in E. lia. }
  rewrite mean_sinusoid in V by assumption. split; [exact V|].
  intros j Hj. rewrite V. apply (f_equal Fin).
  replace (INR W * w / 2) with (IZR j * PI) by (rewrite Hj; field).
  rewrite (sin_eq_0_1 (IZR j * PI)) by (exists j; reflexivity). unfold Rdiv. ring.
Qed.

(** @ex C101_window_mean_ex: the alternating sinusoid in windows of three and of
    four. *)
Lemma c101_window_mean_ex :
  sin (PI / 2) <> 0 /\ (3 <= 7)%nat /\
  5 * (sin (INR 3 * PI / 2) / (INR 3 * sin (PI / 2))) * cos (PI * (INR (7 - 1) - (INR 3 - 1) / 2) + 0) = 5 / 3 /\
  INR 4 * PI = 2 * PI * IZR 2.
Proof.
  rewrite sin_PI2. split; [lra|]. split; [lia|]. split; [|cbn; ring].
  replace (INR 3 * PI / 2) with (PI + PI / 2) by (cbn; field). rewrite sin_plus, sin_PI, cos_PI, sin_PI2.
  replace (PI * (INR (7 - 1) - (INR 3 - 1) / 2) + 0) with (PI + 2 * INR 2 * PI) by (cbn; field).
  rewrite cos_period, cos_PI. cbn. field.
Qed.

(** @prop C101_decay_mean: the decay mean settles at the sinusoid that passes the
    first-order smoother with feedback [q = 1 - f]; after [m] samples, whatever
    it has seen before, it is within [3 M q^m] of it. *)
Lemma c101_decay_mean : forall (eps f M : R) (ops : list (op R)) (A w phi : R) (m : nat),
  0 < f <= 1 -> (0 < m)%nat ->
  Forall (fun x => Rabs x <= M) (since_clear ops) -> Rabs A <= M ->
  let q := 1 - f in
  let D := 1 - 2 * q * cos w + q * q in
  let th := w * INR (m - 1) + phi in
  0 < D /\
  exists v,
    dmean_mean (exact eps) (run_dmean eps f (ops ++ pushes (sinusoid A w phi m))) = Fin v /\
    Rabs (v - A * (f * (1 - q * cos w) / D * cos th + f * q * sin w / D * sin th)) <= 3 * M * q ^ m.
Proof.
  intros eps f M ops A w phi m Hf Hm Hl HA q D th.
  destruct (smoother_parts f w Hf) as (P & Ep & Eq). fold q D in P, Ep, Eq. split; [exact P|].
  exists (ewma f (since_clear ops ++ sinusoid A w phi m)). split.
  - rewrite run_dmean_state, since_tail, dmean_mean_st; [reflexivity|exact Hf|].
    apply app_ne. intros E. apply (f_equal (@length R)) in E. rewrite sinusoid_length in E. cbn in E. lia.
  - pose proof (ewma_sinusoid f M (since_clear ops) A w phi m Hf Hm Hl HA) as B.
    unfold settled in B. fold q in B. rewrite Ep, Eq in B. exact B.
Qed.

(** @ex C101_decay_mean_ex: factor 1/2 passes a third of the alternating sinusoid. *)
Lemma c101_decay_mean_ex :
  0 < 1 / 2 <= 1 /\ (0 < 9)%nat /\
  Forall (fun x => Rabs x <= 8) (since_clear [Push 9; Clear; Push (-8)]) /\ Rabs 6 <= 8 /\
  let q := 1 - 1 / 2 in
  let D := 1 - 2 * q * cos PI + q * q in
  1 / 2 * (1 - q * cos PI) / D = 1 / 3 /\ 1 / 2 * q * sin PI / D = 0.
Proof.
  assert (D : Rabs (-8) = 8) by (unfold Rabs; destruct (Rcase_abs (-8)); lra).
  assert (E : Rabs 6 = 6) by (apply Rabs_pos_eq; lra).
  split; [lra|]. split; [lia|].
  split; [cbn; repeat (apply Forall_cons; [lra|]); apply Forall_nil|]. split; [lra|].
  cbn zeta. rewrite cos_PI, sin_PI. split; field.
Qed.
