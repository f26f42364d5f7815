(** * Claim C114: the positions follow the quantiles *)

From Coq Require Import QArith Reals ZArith NArith List Bool Sorting.Sorted.
From Coq Require Import Floats.SpecFloat.
From Flocq Require Import Core.
From Verif Require Import Arith History Psquare SpecOrder Ieee.
Import ListNotations.
Local Open Scope R_scope.
(* @end-header *)
From Coq Require Import Lia Lra.
From Verif Require Import HistoryLemmas Orders IeeeProofs StallProofs PsquareStall PsquareStats PsquareGeneric PsquareTrack PsquareTrackRounded PsquareTrackInst
  PsquareTrackMedian ClaimsRestore.

Lemma parameter_at F qs l i : (i < parameter_length F qs)%nat ->
  exists p h, nth_error (psq_parameters F (st F qs l)) i = Some (p, h) /\ IZR (Z.of_N p) = posr (ps_positions F (st F qs l)) i.
Proof.
  intros Hi. destruct (st_lengths F qs l) as [H1 H2]. unfold psq_parameters.
  exists (pat (ps_positions F (st F qs l)) i), (hat F (ps_heights F (st F qs l)) i). split; [|reflexivity].
  unfold pat, hat. rewrite <- (combine_nth _ _ i 0%N n0) by congruence.
  apply nth_error_nth'. rewrite combine_length. lia.
Qed.

Lemma three_positions (F : num) (x : F) (l : list F) : let s := st F [x] l in
  let m := Z.of_nat (length l) in let n := INR (length l) in let p := posr (ps_positions F s) in
  n - 1 <= 4 * p 1%nat <= n + 6 /\ n - 1 <= 2 * p 2%nat <= n + 2 /\ 3 * n - 2 <= 4 * p 3%nat <= 3 * n + 4 ->
  exists p1 p2 p3, map (fun i => option_map fst (nth_error (psq_parameters F s) i)) [1; 2; 3]%nat = [Some p1; Some p2; Some p3] /\
    (m - 1 <= 4 * Z.of_N p1 <= m + 6 /\ m - 1 <= 2 * Z.of_N p2 <= m + 2 /\ 3 * m - 2 <= 4 * Z.of_N p3 <= 3 * m + 4)%Z.
Proof.
  intros s m n p T.
  destruct (parameter_at F [x] l 1 ltac:(cbn; lia)) as (p1 & h1 & E1 & P1).
  destruct (parameter_at F [x] l 2 ltac:(cbn; lia)) as (p2 & h2 & E2 & P2).
  destruct (parameter_at F [x] l 3 ltac:(cbn; lia)) as (p3 & h3 & E3 & P3).
  exists p1, p2, p3. unfold s. split; [cbn [map]; rewrite E1, E2, E3; reflexivity|].
  unfold p, s in T. rewrite <- P1, <- P2, <- P3 in T. unfold n in T. rewrite INR_IZR_INZ in T. fold m in T. clear - T.
  rewrite <- ?mult_IZR, <- ?plus_IZR, <- ?minus_IZR in T. destruct T as ((T1 & T2) & (T3 & T4) & (T5 & T6)).
  apply le_IZR in T1, T2, T3, T4, T5, T6. lia.
Qed.

Lemma fits_real n : (N.of_nat n < szmod)%N -> INR n <= IZR (Z.of_N szmod).
Proof. intros H. rewrite INR_IZR_INZ, <- nat_N_Z. apply IZR_le. lia. Qed.

Lemma map_fin (l : list R) : Forall2 (fun x r => x = Fin r) (map Fin l) l.
Proof. induction l; constructor; [reflexivity|assumption]. Qed.

(** @prop C114_exact: in exact arithmetic, for any list of quantiles in increasing
    order and any finite values, the position that parameters() gives for the k-th
    quantile q stays within a constant of its ideal value 1 + (n-1) q, however many
    values n there have been. *)
Lemma c114_exact : forall (eps : R) (rqs : list R) (ops : list (op (exact eps))) (k : nat) (q : R),
  let F := exact eps in
  let qs := map Fin rqs in
  let l := since_clear ops in
  let n := INR (length l) in
  StronglySorted Rle rqs -> Forall (fun r => 0 <= r <= 1) rqs ->
  Forall finite_value l -> (N.of_nat (length l) < szmod)%N -> (2 * length rqs + 3 <= length l)%nat ->
  nth_error rqs k = Some q ->
  exists p h,
    nth_error (psq_parameters F (run (psq_push F qs) (psq_clear F qs) (psq_init F qs) ops)) (2 * k + 2) = Some (p, h) /\
    1 + (n - 1) * q - 4 * INR (length rqs - k) <= IZR (Z.of_N p) <= 1 + (n - 1) * q + 2 * INR (k + 1).
Proof.
  intros eps rqs ops k q F qs l n Hs Hu Hf Hn HL Hk. rewrite PsquareGeneric.run_psq. fold l.
  assert (EL : parameter_length F qs = (2 * length rqs + 3)%nat) by (unfold parameter_length, quantile_length, qs; rewrite map_length; reflexivity).
  assert (Hk' : (k < length rqs)%nat) by (apply nth_error_Some; congruence).
  destruct (parameter_at F qs l (2 * k + 2) ltac:(lia)) as (p & h & E & Ep). exists p, h. split; [exact E|]. rewrite Ep.
  pose proof (fits_real _ Hn) as HK.
  assert (HK' : INR (parameter_length F qs) <= IZR (Z.of_N szmod)) by (eapply Rle_trans; [apply le_INR; rewrite EL; exact HL|exact HK]).
  pose proof (general_tracks F _ _ _ _ (steady_exact eps) qs rqs (map_fin rqs) Hs Hu HK' finite_value (total_on_exact eps) l k q Hn Hf (eq_ind_r (fun z => (z <= length l)%nat) HL EL) HK Hk) as T.
  cbv zeta in T. change (INR (@length (carrier F) l)) with n in T. rewrite Rmult_0_l, Rplus_0_r in T. replace (2 * 0 * (n * n)) with 0 in T by ring. rewrite Rminus_0_r in T. exact T.
Qed.

(** @ex C114_exact_ex: the quartiles, eleven values. *)
Lemma c114_exact_ex : let rqs := [/ 4; / 2; 3 / 4] in
  let ops := Push (Fin 7) :: Clear :: map (fun z => Push (Fin (IZR z))) [3; 1; 4; 1; 5; 9; 2; 6; 5; 3; 5]%Z in
  StronglySorted Rle rqs /\ Forall (fun r => 0 <= r <= 1) rqs /\ Forall (@finite_value (fun x => x) 0 0) (since_clear ops) /\
  length (since_clear ops) = 11%nat /\ (2 * length rqs + 3 <= 11)%nat /\ nth_error rqs 2 = Some (3 / 4).
Proof.
  cbv zeta. split; [repeat constructor; lra|]. split; [repeat constructor; lra|]. split; [cbn; repeat constructor; eexists; reflexivity|].
  split; [reflexivity|]. split; [cbn; lia|reflexivity].
Qed.

(** @prop C114_fraction: so the fraction of the values that lies at or below the
    marker, as parameters() gives it, is within (4 Q + 1) / n of the quantile. *)
Lemma c114_fraction : forall (eps : R) (rqs : list R) (ops : list (op (exact eps))) (k : nat) (q : R),
  let F := exact eps in
  let qs := map Fin rqs in
  let l := since_clear ops in
  let n := INR (length l) in
  StronglySorted Rle rqs -> Forall (fun r => 0 <= r <= 1) rqs ->
  Forall finite_value l -> (N.of_nat (length l) < szmod)%N -> (2 * length rqs + 3 <= length l)%nat ->
  nth_error rqs k = Some q ->
  exists p h,
    nth_error (psq_parameters F (run (psq_push F qs) (psq_clear F qs) (psq_init F qs) ops)) (2 * k + 2) = Some (p, h) /\
    Rabs (IZR (Z.of_N p) / n - q) <= (4 * INR (length rqs) + 1) / n.
Proof.
  intros eps rqs ops k q F qs l n Hs Hu Hf Hn HL Hk.
  destruct (c114_exact eps rqs ops k q Hs Hu Hf Hn HL Hk) as (p & h & E & B). exists p, h. split; [exact E|]. fold l n in B.
  assert (Hk' : (k < length rqs)%nat) by (apply nth_error_Some; congruence).
  assert (Hq : 0 <= q <= 1) by (rewrite Forall_forall in Hu; apply Hu; eapply nth_error_In; exact Hk).
  assert (N0 : 0 < n) by (apply lt_0_INR; unfold l in *; lia).
  assert (I1 : INR (length rqs - k) <= INR (length rqs)) by (apply le_INR; lia).
  assert (I2 : INR (k + 1) <= INR (length rqs)) by (apply le_INR; lia).
  pose proof (pos_INR (length rqs)) as I3.
  replace (IZR (Z.of_N p) / n - q) with ((IZR (Z.of_N p) - q * n) * / n) by (field; lra).
  rewrite Rabs_mult, (Rabs_right (/ n)) by (apply Rle_ge, Rlt_le, Rinv_0_lt_compat; exact N0).
  apply Rmult_le_compat_r; [apply Rlt_le, Rinv_0_lt_compat; exact N0|]. apply Rabs_le. lra.
Qed.

(** @ex C114_fraction_ex: a thousand values and two quantiles: within 0.009. *)
Lemma c114_fraction_ex : let rqs := [/ 2; 99 / 100] in
  let ops := map (fun i => Push (Fin (INR i))) (seq 0 1000) in
  StronglySorted Rle rqs /\ Forall (fun r => 0 <= r <= 1) rqs /\ Forall (@finite_value (fun x => x) 0 0) (since_clear ops) /\
  length (since_clear ops) = 1000%nat /\ (4 * INR (length rqs) + 1) / INR 1000 = 9 / 1000.
Proof.
  cbv zeta. split; [repeat constructor; lra|]. split; [repeat constructor; lra|].
  assert (E : since_clear (map (fun i => Push (Fin (INR i))) (seq 0 1000)) = map (fun i => Fin (INR i)) (seq 0 1000)).
  { rewrite <- (map_map (fun i => Fin (INR i)) Push). apply since_clear_pushes. }
  rewrite E. split; [apply Forall_map, Forall_forall; intros i _; eexists; reflexivity|].
  split; [rewrite map_length, seq_length; reflexivity|]. replace (INR 1000) with 1000 by (rewrite INR_IZR_INZ; reflexivity). cbn [length INR]. lra.
Qed.

(** @prop C114_formats: in every IEEE format, up to 2^prec values, the position of
    the k-th quantile q is within the same constant of 1 + (n-1) q and twice
    n^2 2^-prec from the rounding of the desired positions. *)
Lemma c114_formats : forall (prec emax : Z) (qs : list (ieee prec emax)) (ops : list (op (ieee prec emax))) (k : nat) (x : ieee prec emax),
  (1 < prec)%Z -> (prec < emax)%Z ->
  let F := ieee prec emax in
  let l := since_clear ops in
  let n := INR (length l) in
  let q := ieee_real x in
  Forall (ieee_finite prec emax) qs -> StronglySorted Rle (map ieee_real qs) -> Forall (fun r => 0 <= r <= 1) (map ieee_real qs) ->
  Forall (ieee_finite prec emax) l -> (N.of_nat (length l) < szmod)%N -> (2 * length qs + 3 <= length l)%nat ->
  (Z.of_nat (length l) <= 2 ^ prec)%Z ->
  nth_error qs k = Some x ->
  exists p h,
    nth_error (psq_parameters F (run (psq_push F qs) (psq_clear F qs) (psq_init F qs) ops)) (2 * k + 2) = Some (p, h) /\
    1 + (n - 1) * q - 4 * INR (length qs - k) - 2 * bpow radix2 (- prec) * (n * n) <= IZR (Z.of_N p) <=
    1 + (n - 1) * q + 2 * INR (k + 1) + bpow radix2 (- prec) * (n * n).
Proof.
  intros prec emax qs ops k x Hp Hm F l n q Hfq Hs Hu Hf Hn HL HK Hk. rewrite PsquareGeneric.run_psq. fold l.
  assert (EL : parameter_length F qs = (2 * length qs + 3)%nat) by reflexivity.
  assert (Hk' : (k < length qs)%nat) by (apply nth_error_Some; congruence).
  destruct (parameter_at F qs l (2 * k + 2) ltac:(lia)) as (p & h & E & Ep). exists p, h. split; [exact E|]. rewrite Ep.
  assert (HKr : INR (length l) <= bpow radix2 prec).
  { rewrite INR_IZR_INZ, <- (IZR_Zpower radix2 prec) by lia. apply IZR_le. exact HK. }
  assert (HK' : INR (parameter_length F qs) <= bpow radix2 prec) by (eapply Rle_trans; [apply le_INR; rewrite EL; exact HL|exact HKr]).
  pose proof (general_tracks F _ _ _ _ (steady_ieee prec emax Hp Hm) qs (map ieee_real qs) (fdenotes_list prec emax qs Hfq) Hs Hu HK'
    (ieee_finite prec emax) (total_ieee prec emax Hp Hm) l k q Hn Hf HL HKr (map_nth_error ieee_real k qs Hk)) as T.
  cbv zeta in T. rewrite map_length in T. exact T.
Qed.

(** @ex C114_formats_ex: float, the quartiles and a thousand equal values: the
    rounding adds less than 0.2 to the constant. *)
Lemma c114_formats_ex : let v z := ieee_of_Z 24 128 z in
  let F := ieee 24 128 in
  let qs := map (ratio_value F) [1 # 4; 1 # 2; 3 # 4]%Q in
  let ops := repeat (Push (v 7%Z)) 1000 in
  forallb (fun x => SFeqb x x) qs = true /\ Forall (ieee_finite 24 128) qs /\ map ieee_real qs = [/ 4; / 2; 3 / 4] /\
  length (since_clear ops) = 1000%nat /\ Forall (ieee_finite 24 128) (since_clear ops) /\ (2 * length qs + 3 <= 1000)%nat /\ (1000 <= 2 ^ 24)%Z /\
  2 * bpow radix2 (- 24) * (INR 1000 * INR 1000) < / 5.
Proof.
  cbv zeta. split; [vm_compute; reflexivity|].
  set (qs := map _ _). vm_compute in qs. subst qs.
  split; [repeat constructor|].
  split; [cbn [map]; f_equal; [|f_equal; [|f_equal]]; unfold ieee_real; cbn; unfold F2R; cbn; lra|].
  assert (E : since_clear (repeat (Push (ieee_of_Z 24 128 7)) 1000) = repeat (ieee_of_Z 24 128 7) 1000).
  { transitivity (since_clear (pushes (repeat (ieee_of_Z 24 128 7) 1000))); [|apply since_clear_pushes].
    unfold pushes. generalize 1000%nat. intros c. f_equal. induction c as [|c IH]; cbn [repeat map]; [reflexivity|f_equal; exact IH]. }
  split; [rewrite E, repeat_length; reflexivity|].
  split; [rewrite E; apply Forall_forall; intros x Hx; apply repeat_spec in Hx; subst x; vm_compute; auto|].
  split; [cbn [length]; lia|]. split; [lia|].
  replace (INR 1000) with 1000 by (rewrite INR_IZR_INZ; reflexivity). cbn. lra.
Qed.

(** @prop C114_median_exact: for the median the positions of all three inner markers
    are as close to their ideal values as whole numbers allow, up to one: in exact
    arithmetic, after any n values. *)
Lemma c114_median_exact : forall (eps : R) (ops : list (op (exact eps))),
  let F := exact eps in
  let qs := [ratio_value F (1 # 2)] in
  let l := since_clear ops in
  let n := Z.of_nat (length l) in
  Forall finite_value l -> (N.of_nat (length l) < szmod)%N -> (5 <= length l)%nat ->
  exists p1 p2 p3, map (fun i => option_map fst (nth_error (psq_parameters F (run (psq_push F qs) (psq_clear F qs) (psq_init F qs) ops)) i)) [1; 2; 3]%nat =
      [Some p1; Some p2; Some p3] /\
    (n - 1 <= 4 * Z.of_N p1 <= n + 6 /\ n - 1 <= 2 * Z.of_N p2 <= n + 2 /\ 3 * n - 2 <= 4 * Z.of_N p3 <= 3 * n + 4)%Z.
Proof.
  intros eps ops F qs l n Hf Hn HL. rewrite PsquareGeneric.run_psq. fold l.
  apply (three_positions F (ratio_value F (1 # 2)) l).
  assert (Hx : ratio_value F (1 # 2) = Fin (/ 2)).
  { unfold ratio_value. cbn. unfold xdiv. destruct (Req_bool_spec 2 0); [lra|]. f_equal. lra. }
  assert (K5 : 5 <= IZR (Z.of_N szmod) <= IZR (Z.of_N szmod)) by (split; [apply IZR_le; vm_compute; discriminate|lra]).
  pose proof (median_tracks F _ _ _ _ _ (steady_exact eps) _ Hx (fun z _ _ => eq_refl) K5 finite_value (total_on_exact eps) l Hn Hf HL (fits_real _ Hn)) as T.
  exact T.
Qed.

(** @ex C114_median_exact_ex: eight values, of which three are before a clear(). *)
Lemma c114_median_exact_ex : let ops := map (fun z => Push (Fin (IZR z))) [3; 1; 4]%Z ++ Clear :: map (fun z => Push (Fin (IZR z))) [1; 5; 9; 2; 6]%Z in
  Forall (@finite_value (fun x => x) 0 0) (since_clear ops) /\ length (since_clear ops) = 5%nat.
Proof. cbv zeta. split; [cbn; repeat constructor; eexists; reflexivity|reflexivity]. Qed.

Lemma format_quarters prec emax z : (1 < prec)%Z -> (prec < emax)%Z -> (0 <= z)%Z -> IZR z / 4 <= bpow radix2 (prec - 2) ->
  rndf prec emax (IZR z / 4) = IZR z / 4.
Proof.
  intros Hp Hm Hz H. apply rnd_rep. unfold repf.
  assert (Pz : FLX.Prec_gt_0 prec) by (red; lia).
  assert (Hb : (z <= 2 ^ prec)%Z).
  { apply le_IZR. change (2 ^ prec)%Z with (Zpower radix2 prec). rewrite (IZR_Zpower radix2 prec) by lia.
    replace prec with (prec - 2 + 2)%Z by lia. rewrite bpow_plus. change (bpow radix2 2) with 4. lra. }
  destruct (Z.eq_dec z (2 ^ prec)) as [->|N].
  - change (2 ^ prec)%Z with (Zpower radix2 prec). rewrite (IZR_Zpower radix2 prec) by lia.
    replace (bpow radix2 prec / 4) with (bpow radix2 (prec - 2)).
    + apply (repf_bpow prec emax Hp). lia.
    + unfold Z.sub. rewrite bpow_plus. change (bpow radix2 (-2)) with (/ 4). reflexivity.
  - apply generic_format_FLT. exists (Float radix2 z (-2)); cbn [Fnum Fexp].
    + unfold F2R. cbn [Fnum Fexp]. change (bpow radix2 (-2)) with (/ 4). reflexivity.
    + rewrite Z.abs_eq by exact Hz. change (radix_val radix2) with 2%Z. lia.
    + lia.
Qed.

(** @prop C114_median_formats: the same holds in every IEEE format for streams of up
    to 2^(prec-2) values: no rounding error shows in the positions.  (Property C112
    shows that it fails beyond 2^(prec+4) values.) *)
Lemma c114_median_formats : forall (prec emax : Z) (ops : list (op (ieee prec emax))),
  (1 < prec)%Z -> (prec < emax)%Z ->
  let F := ieee prec emax in
  let qs := [ratio_value F (1 # 2)] in
  let l := since_clear ops in
  let n := Z.of_nat (length l) in
  Forall (ieee_finite prec emax) l -> (N.of_nat (length l) < szmod)%N -> (5 <= n <= 2 ^ (prec - 2))%Z ->
  exists p1 p2 p3, map (fun i => option_map fst (nth_error (psq_parameters F (run (psq_push F qs) (psq_clear F qs) (psq_init F qs) ops)) i)) [1; 2; 3]%nat =
      [Some p1; Some p2; Some p3] /\
    (n - 1 <= 4 * Z.of_N p1 <= n + 6 /\ n - 1 <= 2 * Z.of_N p2 <= n + 2 /\ 3 * n - 2 <= 4 * Z.of_N p3 <= 3 * n + 4)%Z.
Proof.
  intros prec emax ops Hp Hm F qs l n Hf Hn HL. rewrite PsquareGeneric.run_psq. fold l.
  apply (three_positions F (ratio_value F (1 # 2)) l).
  pose proof (steady_ieee prec emax Hp Hm) as S.
  assert (H5 : (5 <= length l)%nat) by (unfold n in HL; lia).
  assert (Bz : bpow radix2 (prec - 2) = IZR (2 ^ (prec - 2))) by (rewrite <- (IZR_Zpower radix2) by lia; reflexivity).
  assert (HK : INR (length l) <= bpow radix2 (prec - 2)) by (rewrite INR_IZR_INZ, Bz; apply IZR_le; apply HL).
  assert (K5 : 5 <= bpow radix2 (prec - 2) <= bpow radix2 prec) by (split; [rewrite Bz; apply IZR_le; lia|apply bpow_le; lia]).
  assert (Hx : fdenotes prec emax (ratio_value F (1 # 2)) (/ 2)).
  { replace (/ 2) with (rndf prec emax (1 / 2)).
    - apply (sd_half _ _ _ _ _ S n1 1); [apply (sd_one _ _ _ _ _ S)|lra].
    - replace (1 / 2) with (IZR 2 / 4) by lra. rewrite format_quarters by (try lia; lra). lra. }
  pose proof (median_tracks F _ _ _ _ _ S _ Hx (fun z Hz H => format_quarters prec emax z Hp Hm Hz H) K5 (ieee_finite prec emax)
    (total_ieee prec emax Hp Hm) l Hn Hf H5 HK) as T.
  exact T.
Qed.

(** @ex C114_median_formats_ex: double, six values; the inner positions are 2, 3 and 5. *)
Lemma c114_median_formats_ex : let F := ieee 53 1024 in
  let qs := [ratio_value F (1 # 2)] in
  let ops := pushes (map (ieee_of_Z 53 1024) [3; 1; 4; 1; 5; 9]%Z) in
  Forall (ieee_finite 53 1024) (since_clear ops) /\ (5 <= Z.of_nat (length (since_clear ops)) <= 2 ^ (53 - 2))%Z /\
  map fst (psq_parameters F (run (psq_push F qs) (psq_clear F qs) (psq_init F qs) ops)) = [1; 2; 3; 5; 6]%N.
Proof.
  cbv zeta. rewrite since_clear_pushes. split; [repeat constructor|]. split; [cbn; lia|]. vm_compute. reflexivity.
Qed.
