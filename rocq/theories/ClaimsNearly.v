(** * Claims C11, C83, C85 over double, up to rounding error

    Order, origin and monotonicity are exact over the reals and fail over double;
    here is by how much they can fail for the cumulative filters. *)

From Coq Require Import Reals ZArith NArith List Bool Permutation.
From Coq Require Import Floats.SpecFloat.
From Flocq Require Import Core.
From Verif Require Import Arith History SpecStats Cumulative Binary64.
Import ListNotations.
Local Open Scope R_scope.
(* @end-header *)
From Coq Require Import Lia Lra Psatz.
From Flocq Require Import IEEE754.BinarySingleNaN.
From Verif Require Import HistoryLemmas StatsLemmas Monotone ClaimsAccuracy.

Lemma mean_plus c l : l <> [] -> mean (map (fun x => x + c) l) = mean l + c.
Proof.
  intros NE. unfold mean, card. rewrite map_length.
  assert (P : 0 < INR (length l)) by (apply lt_0_INR; destruct l; [congruence|cbn; lia]).
  assert (S : Rsum (map (fun x => x + c) l) = Rsum l + INR (length l) * c).
  { clear. induction l as [|x l IH]; [cbn; ring|]. change (length (x :: l)) with (S (length l)).
    rewrite S_INR. cbn [map Rsum]. rewrite IH. ring. }
  rewrite S. field. lra.
Qed.

Lemma variance_plus c l : l <> [] -> variance (map (fun x => x + c) l) = variance l.
Proof.
  intros NE. unfold variance, csum. rewrite mean_plus by exact NE. unfold card. rewrite map_length, map_map. f_equal. f_equal.
  apply map_ext. intros x. f_equal. ring.
Qed.

Lemma moved_reals c (l l' : list b64) : Forall2 (fun x y => b64_real y = b64_real x + c) l l' ->
  map b64_real l' = map (fun x => x + c) (map b64_real l).
Proof. induction 1 as [|x y l l' H _ IH]; [reflexivity|]. cbn. rewrite H, IH. reflexivity. Qed.

Lemma dist3 x y a b c E1 E2 : Rabs (x - a) <= E1 -> Rabs (y - b) <= E2 -> b = a + c -> Rabs (y - (x + c)) <= E1 + E2.
Proof.
  intros H1 H2 ->. replace (y - (x + c)) with ((y - (a + c)) - (x - a)) by ring.
  eapply Rle_trans; [apply Rabs_triang|]. rewrite Rabs_Ropp. lra.
Qed.

(** @prop C11_binary64: in binary64, up to 2^47 values of magnitude at most [M]:
    pushing the same values in another order changes mean() and variance() by at
    most twice the error bounds of C65 and C70. *)
Lemma c11_binary64 : forall (ops ops' : list (op b64)) (M : R),
  let l := since_clear ops in
  let n := INR (length l) in
  let u := bpow radix2 (-53) in
  let eta := bpow radix2 (-1075) in
  l <> [] -> Permutation l (since_clear ops') -> (Z.of_nat (length l) <= 2 ^ 47)%Z ->
  bpow radix2 (-1000) <= M <= bpow radix2 480 ->
  Forall (fun x => b64_finite x /\ Rabs (b64_real x) <= M) l ->
  let m ops := b64_real (cmean_mean b64num (run (cmean_push b64num) (cmean_clear b64num) (cmean_init b64num) ops)) in
  let v ops := b64_real (cvar_variance b64num (run (cvar_push b64num) (cvar_clear b64num) (cvar_init b64num) ops)) in
  Rabs (m ops' - m ops) <= 2 * ((n + 25) * u * M + (3 * n + 11) * eta) /\
  Rabs (v ops' - v ops) <= 10 * ((14 * n + 308) * u * (M * M) + (3 * n + 13) * (10 * M) * eta + 3 * eta).
Proof.
  intros ops ops' M l n u eta NE HP Hn HM HF m v.
  assert (NE' : since_clear ops' <> []).
  { intros Z. rewrite Z in HP. apply Permutation_sym, Permutation_nil in HP. contradiction. }
  assert (HF' : Forall (fun x => b64_finite x /\ Rabs (b64_real x) <= M) (since_clear ops')).
  { apply Forall_forall. intros x Hx. rewrite Forall_forall in HF. apply HF.
    apply (Permutation_in x (Permutation_sym HP)), Hx. }
  pose proof (Permutation_length HP) as EL.
  assert (H49 : (Z.of_nat (length l) <= 2 ^ 49)%Z) by (eapply Z.le_trans; [exact Hn|apply Z.pow_le_mono_r; lia]).
  assert (M1018 : M <= bpow radix2 1018) by (eapply Rle_trans; [apply HM|apply bp_le; lia]).
  destruct (c65_binary64 ops M NE H49 M1018 HF) as [_ A1].
  destruct (c65_binary64 ops' M NE' ltac:(rewrite <- EL; exact H49) M1018 HF') as [_ A2].
  destruct (c70_binary64 ops M NE Hn HM HF) as [_ B1].
  destruct (c70_binary64 ops' M NE' ltac:(rewrite <- EL; exact Hn) HM HF') as [_ B2].
  pose proof (Permutation_map b64_real HP) as HPr.
  rewrite <- EL in A2, B2. rewrite <- (mean_perm _ _ HPr) in A2.
  assert (Ev : variance (map b64_real (since_clear ops')) = variance (map b64_real l)).
  { unfold variance. rewrite <- (csum_perm 2 _ _ HPr), <- (card_perm _ _ HPr). reflexivity. }
  rewrite Ev in B2. fold l n in A1, A2, B1, B2.
  pose proof (dist3 _ _ _ _ 0 _ _ A1 A2 ltac:(rewrite Rplus_0_r; reflexivity)) as Dm.
  pose proof (dist3 _ _ _ _ 0 _ _ B1 B2 ltac:(rewrite Rplus_0_r; reflexivity)) as Dv.
  rewrite Rplus_0_r in Dm, Dv. fold u eta in Dm, Dv. split.
  - eapply Rle_trans; [exact Dm|]. lra.
  - eapply Rle_trans; [exact Dv|]. lra.
Qed.

(** @ex C11_binary64_ex: 0.1, -7, 999999.9 in two orders. *)
Lemma c11_binary64_ex :
  let d k := @ndiv b64num (b64_of_Z k) (b64_of_Z 10) in
  let ops := [Push (d 3%Z); Clear; Push (d 1%Z); Push (d (-70)%Z); Push (d 9999999%Z)] in
  let ops' := [Push (d 9999999%Z); Push (d 1%Z); Push (d (-70)%Z)] in
  since_clear ops <> [] /\ Permutation (since_clear ops) (since_clear ops') /\
  (Z.of_nat (length (since_clear ops)) <= 2 ^ 47)%Z /\
  bpow radix2 (-1000) <= 1000000 <= bpow radix2 480 /\
  Forall (fun x => b64_finite x /\ Rabs (b64_real x) <= 1000000) (since_clear ops).
Proof.
  cbn zeta. split; [discriminate|]. split.
  { apply Permutation_sym.
    change (Permutation ([@ndiv b64num (b64_of_Z 9999999) (b64_of_Z 10)] ++
      [@ndiv b64num (b64_of_Z 1) (b64_of_Z 10); @ndiv b64num (b64_of_Z (-70)) (b64_of_Z 10)])
      ([@ndiv b64num (b64_of_Z 1) (b64_of_Z 10); @ndiv b64num (b64_of_Z (-70)) (b64_of_Z 10)] ++
       [@ndiv b64num (b64_of_Z 9999999) (b64_of_Z 10)])). apply Permutation_app_comm. }
  split; [cbn; lia|]. split.
  { split; [apply Rle_trans with (bpow radix2 0); [apply bp_le; lia|cbn; lra]|].
    apply Rle_trans with (bpow radix2 20); [cbn; lra|apply bp_le; lia]. }
  vm_compute since_clear. magnitudes.
Qed.

(** @prop C83_binary64: in binary64, up to 2^47 values: if every value of the
    second stream is the value of the first plus [c] exactly, and [M], [M'] bound
    the magnitudes, then mean() moves by [c] and variance() stays, up to the error
    bounds of C65 and C70 for the two streams. *)
Lemma c83_binary64 : forall (ops ops' : list (op b64)) (c M M' : R),
  let l := since_clear ops in
  let l' := since_clear ops' in
  let n := INR (length l) in
  let u := bpow radix2 (-53) in
  let eta := bpow radix2 (-1075) in
  l <> [] -> Forall2 (fun x y => b64_real y = b64_real x + c) l l' ->
  (Z.of_nat (length l) <= 2 ^ 47)%Z ->
  bpow radix2 (-1000) <= M <= bpow radix2 480 -> bpow radix2 (-1000) <= M' <= bpow radix2 480 ->
  Forall (fun x => b64_finite x /\ Rabs (b64_real x) <= M) l ->
  Forall (fun x => b64_finite x /\ Rabs (b64_real x) <= M') l' ->
  let m ops := b64_real (cmean_mean b64num (run (cmean_push b64num) (cmean_clear b64num) (cmean_init b64num) ops)) in
  let v ops := b64_real (cvar_variance b64num (run (cvar_push b64num) (cvar_clear b64num) (cvar_init b64num) ops)) in
  Rabs (m ops' - (m ops + c)) <= (n + 25) * u * (M + M') + 2 * (3 * n + 11) * eta /\
  Rabs (v ops' - v ops) <=
    5 * ((14 * n + 308) * u * (M * M + M' * M') + (3 * n + 13) * (10 * (M + M')) * eta + 6 * eta).
Proof.
  intros ops ops' c M M' l l' n u eta NE H2 Hn HM HM' HF HF' m v.
  assert (EL : length l = length l') by (clear - H2; induction H2; cbn; congruence).
  assert (NE' : l' <> []) by (intros Z; rewrite Z in EL; destruct l; [congruence|discriminate]).
  assert (H49 : (Z.of_nat (length l) <= 2 ^ 49)%Z) by (eapply Z.le_trans; [exact Hn|apply Z.pow_le_mono_r; lia]).
  assert (M1018 : M <= bpow radix2 1018) by (eapply Rle_trans; [apply HM|apply bp_le; lia]).
  assert (M1018' : M' <= bpow radix2 1018) by (eapply Rle_trans; [apply HM'|apply bp_le; lia]).
  destruct (c65_binary64 ops M NE H49 M1018 HF) as [_ A1].
  destruct (c65_binary64 ops' M' NE' ltac:(fold l'; rewrite <- EL; exact H49) M1018' HF') as [_ A2].
  destruct (c70_binary64 ops M NE Hn HM HF) as [_ B1].
  destruct (c70_binary64 ops' M' NE' ltac:(fold l'; rewrite <- EL; exact Hn) HM' HF') as [_ B2].
  pose proof (moved_reals c l l' H2) as Er.
  assert (NEr : map b64_real l <> []) by (destruct l; [congruence|discriminate]).
  fold l' in A2, B2. rewrite <- EL in A2, B2. rewrite Er in A2, B2.
  fold l n in A1, A2, B1, B2.
  pose proof (dist3 _ _ _ _ c _ _ A1 A2 (mean_plus c _ NEr)) as Dm.
  pose proof (dist3 _ _ _ _ 0 _ _ B1 B2 ltac:(rewrite Rplus_0_r; apply variance_plus; exact NEr)) as Dv.
  rewrite Rplus_0_r in Dv. fold u eta in Dm, Dv. split.
  - eapply Rle_trans; [exact Dm|]. lra.
  - eapply Rle_trans; [exact Dv|]. lra.
Qed.

(** @ex C83_binary64_ex: 1, 2.5, -3 moved by a million. *)
Lemma c83_binary64_ex :
  let d k := @ndiv b64num (b64_of_Z k) (b64_of_Z 2) in
  let ops := map (fun k => Push (d k)) [2; 5; -6]%Z in
  let ops' := map (fun k => Push (d k)) [2000002; 2000005; 1999994]%Z in
  since_clear ops <> [] /\
  Forall2 (fun x y => b64_real y = b64_real x + 1000000) (since_clear ops) (since_clear ops') /\
  (Z.of_nat (length (since_clear ops)) <= 2 ^ 47)%Z /\
  bpow radix2 (-1000) <= 3 <= bpow radix2 480 /\ bpow radix2 (-1000) <= 2000000 <= bpow radix2 480 /\
  Forall (fun x => b64_finite x /\ Rabs (b64_real x) <= 3) (since_clear ops) /\
  Forall (fun x => b64_finite x /\ Rabs (b64_real x) <= 2000000) (since_clear ops').
Proof.
  cbn zeta. split; [discriminate|]. split.
  { vm_compute since_clear. apply Forall2_cons; [unfold b64_real, SF2R, F2R; cbn; lra|].
    apply Forall2_cons; [unfold b64_real, SF2R, F2R; cbn; lra|].
    apply Forall2_cons; [unfold b64_real, SF2R, F2R; cbn; lra|]. apply Forall2_nil. }
  split; [cbn; lia|].
  assert (R : bpow radix2 (-1000) <= 1 /\ 2000000 <= bpow radix2 480).
  { split; [apply Rle_trans with (bpow radix2 0); [apply bp_le; lia|cbn; lra]|].
    apply Rle_trans with (bpow radix2 21); [cbn; lra|apply bp_le; lia]. }
  split; [lra|]. split; [lra|]. split; vm_compute since_clear; magnitudes.
Qed.

(** @prop C85_binary64: in binary64, up to 2^49 values of magnitude at most [M]:
    if every value of the second stream is at least that of the first, its mean()
    falls short of the mean() of the first by at most twice the error bound of
    C65. *)
Lemma c85_binary64 : forall (ops ops' : list (op b64)) (M : R),
  let l := since_clear ops in
  let l' := since_clear ops' in
  let n := INR (length l) in
  l <> [] -> Forall2 (fun x y => b64_real x <= b64_real y) l l' ->
  (Z.of_nat (length l) <= 2 ^ 49)%Z -> M <= bpow radix2 1018 ->
  Forall (fun x => b64_finite x /\ Rabs (b64_real x) <= M) l ->
  Forall (fun x => b64_finite x /\ Rabs (b64_real x) <= M) l' ->
  let m ops := b64_real (cmean_mean b64num (run (cmean_push b64num) (cmean_clear b64num) (cmean_init b64num) ops)) in
  m ops <= m ops' + 2 * ((n + 25) * bpow radix2 (-53) * M + (3 * n + 11) * bpow radix2 (-1075)).
Proof.
  intros ops ops' M l l' n NE H2 Hn HM HF HF' m.
  assert (EL : length l = length l') by (clear - H2; induction H2; cbn; congruence).
  assert (NE' : l' <> []) by (intros Z; rewrite Z in EL; destruct l; [congruence|discriminate]).
  destruct (c65_binary64 ops M NE Hn HM HF) as [_ A1].
  destruct (c65_binary64 ops' M NE' ltac:(fold l'; rewrite <- EL; exact Hn) HM HF') as [_ A2].
  fold l' in A2. rewrite <- EL in A2. fold l n in A1, A2.
  assert (Mo : mean (map b64_real l) <= mean (map b64_real l')).
  { apply mean_mono. clear - H2. induction H2; cbn; constructor; assumption. }
  unfold m. apply Rabs_le_inv in A1, A2. lra.
Qed.

(** @ex C85_binary64_ex: 1, 2.5, -3 and 1, 3, -2. *)
Lemma c85_binary64_ex :
  let d k := @ndiv b64num (b64_of_Z k) (b64_of_Z 2) in
  let ops := map (fun k => Push (d k)) [2; 5; -6]%Z in
  let ops' := map (fun k => Push (d k)) [2; 6; -4]%Z in
  since_clear ops <> [] /\
  Forall2 (fun x y => b64_real x <= b64_real y) (since_clear ops) (since_clear ops') /\
  (Z.of_nat (length (since_clear ops)) <= 2 ^ 49)%Z /\ 3 <= bpow radix2 1018 /\
  Forall (fun x => b64_finite x /\ Rabs (b64_real x) <= 3) (since_clear ops) /\
  Forall (fun x => b64_finite x /\ Rabs (b64_real x) <= 3) (since_clear ops').
Proof.
  cbn zeta. split; [discriminate|]. split.
  { vm_compute since_clear. apply Forall2_cons; [unfold b64_real, SF2R, F2R; cbn; lra|].
    apply Forall2_cons; [unfold b64_real, SF2R, F2R; cbn; lra|].
    apply Forall2_cons; [unfold b64_real, SF2R, F2R; cbn; lra|]. apply Forall2_nil. }
  split; [cbn; lia|]. split; [apply Rle_trans with (bpow radix2 2); [cbn; lra|apply bp_le; lia]|].
  split; vm_compute since_clear; magnitudes.
Qed.
