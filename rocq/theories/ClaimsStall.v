(** * Claim C111: a long stream outgrows the precision of the value type *)

From Coq Require Import Reals ZArith NArith List Bool.
From Coq Require Import Floats.SpecFloat.
From Flocq Require Import Core.
From Verif Require Import Arith History SpecStats Cumulative Ieee.
Import ListNotations.
Local Open Scope R_scope.
(* @end-header *)
From Coq Require Import Lia Lra.
From Verif Require Import HistoryLemmas StatsLemmas CumulativeProofs ClaimsAccuracy IeeeProofs StallProofs.

(** @prop C111_mean_stalls: in a value type with [prec] bits, once [2^(prec+2)] ones
    (for float: 67 million) have been pushed onto the cumulative mean, any number of
    zeros leaves mean() at exactly 1. *)
Lemma c111_mean_stalls : forall (prec emax : Z) (a b : nat),
  (1 < prec)%Z -> (prec + 2 <= emax)%Z -> (64 < emax)%Z ->
  (2 ^ (prec + 2) <= Z.of_nat a)%Z -> (N.of_nat a + N.of_nat b < szmod)%N ->
  let F := ieee prec emax in
  let one := ieee_of_Z prec emax 1 in
  let zero := ieee_of_Z prec emax 0 in
  let m := cmean_mean F (run (cmean_push F) (cmean_clear F) (cmean_init F) (pushes (repeat one a ++ repeat zero b))) in
  ieee_finite prec emax m /\ ieee_real m = 1.
Proof.
  intros prec emax a b Hp Hm He Ha Hs F one zero m.
  destruct (var_stream prec emax Hp ltac:(lia) He Hm a b Ha Hs) as (S1 & _ & _).
  rewrite cvar_fold_mean in S1. unfold m, pushes. rewrite run_map_push. exact S1.
Qed.

(** @ex C111_mean_stalls_ex: float, as many zeros as ones. *)
Lemma c111_mean_stalls_ex : exists a b : nat,
  (1 < 24)%Z /\ (24 + 2 <= 128)%Z /\ (64 < 128)%Z /\ (2 ^ (24 + 2) <= Z.of_nat a)%Z /\ (0 < b)%nat /\ (N.of_nat a + N.of_nat b < szmod)%N.
Proof.
  exists (N.to_nat 67108864), (N.to_nat 67108864). rewrite N2Nat.id, N_nat_Z. repeat split; try reflexivity; try lia.
Qed.

Lemma rsum_stream prec emax a b : (1 < prec)%Z -> (prec < emax)%Z ->
  Rsum (map ieee_real (repeat (ieee_of_Z prec emax 1) a ++ repeat (ieee_of_Z prec emax 0) b)) = INR a.
Proof.
  intros Hp Hm. rewrite map_app, Rsum_app.
  assert (E1 : ieee_real (ieee_of_Z prec emax 1) = 1) by (apply (den_one prec emax Hp Hm)).
  assert (E0 : ieee_real (ieee_of_Z prec emax 0) = 0) by (apply (den_zero prec emax Hp Hm)).
  assert (A : Rsum (map ieee_real (repeat (ieee_of_Z prec emax 1) a)) = INR a).
  { induction a as [|a IH]; [reflexivity|]. cbn [repeat map]. rewrite S_INR. cbn [Rsum]. rewrite E1. change (1 + Rsum (map ieee_real (repeat (ieee_of_Z prec emax 1) a)) = INR a + 1). rewrite IH. lra. }
  assert (B : Rsum (map ieee_real (repeat (ieee_of_Z prec emax 0) b)) = 0).
  { induction b as [|b IH]; [reflexivity|]. cbn [repeat map]. change (ieee_real (ieee_of_Z prec emax 0) + Rsum (map ieee_real (repeat (ieee_of_Z prec emax 0) b)) = 0). rewrite IH, E0. lra. }
  rewrite A, B. lra.
Qed.

Lemma csum_stream prec emax a b (mu : R) : (1 < prec)%Z -> (prec < emax)%Z ->
  Rsum (map (fun x => (x - mu) ^ 2) (map ieee_real (repeat (ieee_of_Z prec emax 1) a ++ repeat (ieee_of_Z prec emax 0) b)))
  = INR a * (1 - mu) ^ 2 + INR b * mu ^ 2.
Proof.
  intros Hp Hm. rewrite !map_app, Rsum_app.
  assert (E1 : ieee_real (ieee_of_Z prec emax 1) = 1) by (apply (den_one prec emax Hp Hm)).
  assert (E0 : ieee_real (ieee_of_Z prec emax 0) = 0) by (apply (den_zero prec emax Hp Hm)).
  assert (A : forall k x, Rsum (map (fun x => (x - mu) ^ 2) (map ieee_real (repeat x k))) = INR k * (ieee_real x - mu) ^ 2).
  { induction k as [|k IH]; intros x; [cbn [repeat map Rsum INR]; ring|]. rewrite S_INR. cbn [repeat map].
    change ((ieee_real x - mu) ^ 2 + Rsum (map (fun x => (x - mu) ^ 2) (map ieee_real (repeat x k))) = (INR k + 1) * (ieee_real x - mu) ^ 2).
    rewrite IH. ring. }
  rewrite !A, E1, E0. ring.
Qed.

Lemma stream_range prec emax a b : (1 < prec)%Z -> (prec < emax)%Z ->
  Forall (fun x => ieee_finite prec emax x /\ 0 <= ieee_real x <= 1) (repeat (ieee_of_Z prec emax 1) a ++ repeat (ieee_of_Z prec emax 0) b).
Proof.
  intros Hp Hm. apply Forall_forall. intros x Hx. apply in_app_or in Hx as [Hx|Hx]; apply repeat_spec in Hx; subst x.
  - destruct (den_one prec emax Hp Hm) as [A ->]. split; [exact A|lra].
  - destruct (den_zero prec emax Hp Hm) as [A ->]. split; [exact A|lra].
Qed.

(** @prop C111_mean_refuted: mean() of a stream of finite values in [0,1] may be off
    by 99/100, in float, double and every format of up to 55 bits (float: after
    less than 2^33 values). *)
Lemma c111_mean_refuted : forall (prec emax : Z),
  (1 < prec <= 55)%Z -> (prec + 2 <= emax)%Z -> (64 < emax)%Z ->
  exists l : list spec_float,
  let F := ieee prec emax in
  let m := cmean_mean F (run (cmean_push F) (cmean_clear F) (cmean_init F) (pushes l)) in
  (Z.of_nat (length l) <= 2 ^ (prec + 9))%Z /\
  Forall (fun x => ieee_finite prec emax x /\ 0 <= ieee_real x <= 1) l /\
  ieee_finite prec emax m /\ Rabs (ieee_real m - mean (map ieee_real l)) = 99 / 100.
Proof.
  intros prec emax Hp Hm He.
  set (q := Z.to_nat (2 ^ (prec + 2))).
  assert (P0 : (0 < 2 ^ (prec + 2))%Z) by (apply Z.pow_pos_nonneg; lia).
  assert (Eq : Z.of_nat q = (2 ^ (prec + 2))%Z) by (apply Z2Nat.id; lia). clearbody q.
  assert (P57 : (2 ^ (prec + 2) <= 2 ^ 57)%Z) by (apply Z.pow_le_mono_r; lia).
  exists (repeat (ieee_of_Z prec emax 1) q ++ repeat (ieee_of_Z prec emax 0) (99 * q)). cbv zeta.
  destruct (c111_mean_stalls prec emax q (99 * q)) as [A B]; try lia.
  { unfold szmod. lia. }
  split; [|split; [apply stream_range; lia|split; [exact A|]]].
  - rewrite app_length, !repeat_length. replace (prec + 9)%Z with (prec + 2 + 7)%Z by lia. rewrite Z.pow_add_r by lia. lia.
  - rewrite B. unfold mean, card. rewrite rsum_stream, map_length, app_length, !repeat_length, plus_INR, mult_INR by lia.
    assert (Q0 : 0 < INR q) by (apply lt_0_INR; lia).
    replace (INR 99) with 99 by (cbn; lra).
    replace (INR q / (INR q + 99 * INR q)) with (1 / 100) by (field; lra).
    rewrite Rabs_right by lra. lra.
Qed.

(** @ex C111_mean_refuted_ex: float and double are such formats. *)
Lemma c111_mean_refuted_ex : ((1 < 24 <= 55)%Z /\ (24 + 2 <= 128)%Z /\ (64 < 128)%Z) /\ ((1 < 53 <= 55)%Z /\ (53 + 2 <= 1024)%Z /\ (64 < 1024)%Z).
Proof. lia. Qed.

(** @prop C111_variance_refuted: the variance() of a stream of finite values in
    [0,1] may be off by 1/8 although no variance of such values exceeds 1/4. *)
Lemma c111_variance_refuted : forall (prec emax : Z),
  (1 < prec <= 55)%Z -> (prec + 4 < emax)%Z -> (64 < emax)%Z ->
  exists l : list spec_float,
  let F := ieee prec emax in
  let v := cvar_variance F (run (cvar_push F) (cvar_clear F) (cvar_init F) (pushes l)) in
  (Z.of_nat (length l) = 2 ^ (prec + 4))%Z /\
  Forall (fun x => ieee_finite prec emax x /\ 0 <= ieee_real x <= 1) l /\
  ieee_finite prec emax v /\ ieee_real v = / 16 /\ variance (map ieee_real l) = 3 / 16.
Proof.
  intros prec emax Hp Hm He.
  set (q := Z.to_nat (2 ^ (prec + 2))).
  assert (P0 : (0 < 2 ^ prec)%Z) by (apply Z.pow_pos_nonneg; lia).
  assert (P4 : (2 ^ (prec + 2) = 2 ^ prec * 4)%Z) by (rewrite Z.pow_add_r by lia; reflexivity).
  assert (P16 : (2 ^ (prec + 4) = 2 ^ prec * 16)%Z) by (rewrite Z.pow_add_r by lia; reflexivity).
  assert (Eq : Z.of_nat q = (2 ^ (prec + 2))%Z) by (apply Z2Nat.id; lia). clearbody q.
  assert (P57 : (2 ^ prec <= 2 ^ 55)%Z) by (apply Z.pow_le_mono_r; lia).
  exists (repeat (ieee_of_Z prec emax 1) q ++ repeat (ieee_of_Z prec emax 0) (3 * q)). cbv zeta.
  assert (L : length (repeat (ieee_of_Z prec emax 1) q ++ repeat (ieee_of_Z prec emax 0) (3 * q)) = (q + 3 * q)%nat) by (rewrite app_length, !repeat_length; reflexivity).
  destruct (var_stream prec emax ltac:(lia) ltac:(lia) He ltac:(lia) q (3 * q)) as (S1 & S2 & S3); [lia|unfold szmod; lia|].
  assert (V : fdenotes prec emax (cvar_variance (ieee prec emax) (fold_left (cvar_push (ieee prec emax))
     (repeat (ieee_of_Z prec emax 1) q ++ repeat (ieee_of_Z prec emax 0) (3 * q)) (cvar_init (ieee prec emax)))) (/ 16)).
  { unfold cvar_variance. rewrite S2. rewrite Z.min_r in S3 by lia.
    assert (N : IZR (Z.of_N (N.of_nat q + N.of_nat (3 * q))) = 16 * IZR (2 ^ prec)).
    { rewrite <- mult_IZR. f_equal. lia. }
    assert (W : 0 < IZR (2 ^ prec)) by (apply IZR_lt; exact P0).
    assert (Eb : 16 * IZR (2 ^ prec) = bpow radix2 (prec + 4)).
    { rewrite bpow_plus. change (bpow radix2 4) with 16. rewrite <- (IZR_Zpower radix2) by lia. change (Zpower radix2 prec) with (2 ^ prec)%Z. ring. }
    assert (R : rndf prec emax (IZR (Z.of_N (N.of_nat q + N.of_nat (3 * q)))) = 16 * IZR (2 ^ prec)).
    { rewrite N, Eb. apply rnd_rep; try lia. apply repf_bpow; lia. }
    assert (Dn : fdenotes prec emax (@nofsz (ieee prec emax) (N.of_nat q + N.of_nat (3 * q))) (16 * IZR (2 ^ prec))).
    { unfold fdenotes. rewrite <- R. apply of_Z_real; try lia. apply rnd_range; try lia.
      rewrite N, Rabs_right by lra. rewrite Eb. apply bpow_le. lia. }
    assert (Q : IZR (2 ^ prec) / (16 * IZR (2 ^ prec)) = bpow radix2 (-4)).
    { change (bpow radix2 (-4)) with (/ 16). field. lra. }
    assert (NZ : 16 * IZR (2 ^ prec) <> 0) by lra.
    assert (Hp1 : (1 < prec)%Z) by lia. assert (Hp2 : (prec < emax)%Z) by lia.
    pose proof (den_div prec emax Hp1 Hp2 _ _ _ _ S3 Dn NZ) as D. rewrite Q in D.
    rewrite rnd_rep in D by (apply repf_bpow; lia). apply D.
    rewrite Rabs_right by (apply Rle_ge, bpow_ge_0). apply bpow_le. lia. }
  unfold pushes. rewrite run_map_push. destruct V as [V1 V2].
  split; [rewrite L; lia|]. split; [apply stream_range; lia|]. split; [exact V1|]. split; [exact V2|].
  assert (Q0 : 0 < INR q) by (apply lt_0_INR; lia).
  unfold variance, csum. rewrite csum_stream by lia. unfold mean, card. rewrite rsum_stream, map_length, L, plus_INR, mult_INR by lia.
  replace (INR 3) with 3 by (cbn; lra). field. lra.
Qed.

(** @ex C111_variance_refuted_ex: float and double are such formats. *)
Lemma c111_variance_refuted_ex : ((1 < 24 <= 55)%Z /\ (24 + 4 < 128)%Z /\ (64 < 128)%Z) /\ ((1 < 53 <= 55)%Z /\ (53 + 4 < 1024)%Z /\ (64 < 1024)%Z).
Proof. lia. Qed.
