(** * Claims C34-C42: the P-square quantile estimator *)

From Coq Require Import Reals ZArith NArith Bool List QArith Sorting.Sorted.
From Coq Require Import Floats.SpecFloat.
From Verif Require Import Arith History SpecPsquare SpecOrder SpecParameters Psquare ExactRuns PsquareRuns.
From Verif Require Binary64.
Import ListNotations.
Local Open Scope R_scope.
(* @end-header *)
From Coq Require Import Lia Lra Psatz Sorting.Permutation.
From Flocq Require Import Core.Raux.
From Verif Require Import HistoryLemmas StatsLemmas PsquareLemmas Orders PsquareExact PsquareStats PsquareRestore.
From Verif Require PsquareGeneric Binary64.

Notation st := PsquareGeneric.st.

Lemma run_exact eps qs ops :
  run_psq eps qs ops = st (exact eps) (map Fin qs) (map Fin (since_clear ops)).
Proof.
  unfold run_psq, rqs, rops.
  rewrite PsquareGeneric.run_psq, since_clear_op_map; reflexivity.
Qed.

Lemma length_bound qs eps : (N.of_nat (2 * length qs + 3) < szmod)%N ->
  (Z.of_nat (parameter_length (exact eps) (map Fin qs)) < M64)%Z.
Proof.
  intros H; unfold parameter_length, quantile_length; rewrite map_length.
  apply N2Z.inj_lt in H; rewrite nat_N_Z in H; exact H.
Qed.

(** ** C34 *)

(** @prop C34_few_observations: for every list of Q quantiles below 1 and every
    history with 1 to 2Q+3 values since the last clear, get<0> is the minimum,
    get<Q+1> the maximum and get<i> the interpolated order statistic of rank
    (n-1)*q_i; no read is out of bounds. *)
Lemma c34 : forall (eps : R) (qs : list R) (ops : list (op R)) (s : list R),
  Forall (fun q => 0 <= q < 1) qs ->
  (N.of_nat (2 * length qs + 3) < szmod)%N ->
  let l := since_clear ops in
  order_statistics l s ->
  l <> [] -> (length l <= 2 * length qs + 3)%nat ->
  let get := psq_get (exact eps) (rqs eps qs) (run_psq eps qs ops) in
  get 0%nat = Some (Fin (nth 0 s 0)) /\
  get (length qs + 1)%nat = Some (Fin (nth (length l - 1) s 0)) /\
  forall i q, nth_error qs i = Some q ->
    get (S i) = Some (Fin (interpolate s (INR (length l - 1) * q))).
Proof.
  intros eps qs ops s Hq HL l Hs Hl Hn get; unfold get, rqs.
  rewrite run_exact; fold l.
  apply order_statistics_unique in Hs; subst s.
  assert (HL' : (length l <= parameter_length (exact eps) (map Fin qs))%nat)
    by (unfold parameter_length, quantile_length; rewrite map_length; exact Hn).
  assert (Hf : (N.of_nat (length l) < szmod)%N) by lia.
  split; [apply get_short_min; assumption|].
  split; [rewrite Nat.add_1_r; apply get_short_max; assumption|].
  intros i q Hi; apply get_short_mid; try assumption.
  rewrite Forall_forall in Hq; apply Hq; eapply nth_error_In, Hi.
Qed.

(** @ex C34_few_observations_ex: three values for the quartiles; the median of
    7, 1, 4 is 4 and the first quartile 5/2. *)
Lemma c34_ex :
  let qs := [1 / 4; 1 / 2; 3 / 4] in
  let ops := [Push 3; Clear; Push 7; Push 1; Push 4] in
  Forall (fun q => 0 <= q < 1) qs /\
  order_statistics (since_clear ops) [1; 4; 7] /\
  interpolate [1; 4; 7] (INR 2 * (1 / 2)) = 4 /\
  interpolate [1; 4; 7] (INR 2 * (1 / 4)) = 5 / 2.
Proof.
  cbv zeta; split; [repeat constructor; lra|]; split.
  - split; [|repeat constructor; lra].
    cbn; apply (Permutation_trans (l' := [1; 7; 4])); repeat constructor.
  - unfold interpolate; rewrite !Int_part_floor.
    replace (INR 2 * (1 / 2)) with (IZR 1) by (cbn; lra).
    replace (INR 2 * (1 / 4)) with (1 / 2) by (cbn; lra).
    rewrite Zfloor_IZR.
    rewrite (Zfloor_imp 0) by (cbn; lra).
    change (Z.to_nat 1) with 1%nat; change (Z.to_nat 0) with 0%nat; cbn [nth].
    split; lra.
Qed.

(** ** C35 *)

(** @prop C35_positions: for every arithmetic whose comparisons form a total
    order on the pushed values, every quantile list and every history, the 2Q+3
    positions in parameters() are strictly increasing and start at 1; once 2Q+3
    values were pushed the last equals size(). *)
Lemma c35 : forall (F : num) (P : F -> Prop) (qs : list F) (ops : list (op F)),
  total_on F P ->
  let l := since_clear ops in
  Forall P l -> fits l -> (N.of_nat (2 * length qs + 3) < szmod)%N ->
  let s := run (psq_push F qs) (psq_clear F qs) (psq_init F qs) ops in
  let p := map fst (psq_parameters F s) in
  length p = (2 * length qs + 3)%nat /\
  StronglySorted N.lt p /\
  nth_error p 0 = Some 1%N /\
  (2 * length qs + 3 <= length l ->
   nth_error p (2 * length qs + 2) = Some (N.of_nat (length l)) /\
   psq_size F s = N.of_nat (length l))%nat.
Proof.
  intros F P qs ops HP l Hf Hs HL s p.
  assert (G : forall p : list N, increasing p -> StronglySorted N.lt p).
  { clear; intros p; induction p as [|x p IH]; intros H; constructor.
    - apply IH; intros i Hi; apply (H (S i)); cbn; lia.
    - clear IH; revert x H; induction p as [|y p IHp]; intros x H; constructor.
      + apply (H 0%nat); cbn; lia.
      + apply IHp; intros i Hi; cbn in Hi.
        pose proof (H 0%nat ltac:(cbn; lia)) as H0; pose proof (H (S i) ltac:(cbn; lia)) as H1.
        unfold pat in *; destruct i; cbn in *; [etransitivity; [exact H0|exact H1]|exact H1]. }
  assert (Hp : length (ps_positions F s) = (2 * length qs + 3)%nat /\
    length (ps_heights F s) = (2 * length qs + 3)%nat /\
    increasing (ps_positions F s) /\ pat (ps_positions F s) 0 = 1%N /\
    ((2 * length qs + 3 <= length l)%nat ->
      pat (ps_positions F s) (2 * length qs + 2) = N.of_nat (length l))).
  { unfold s; rewrite PsquareGeneric.run_psq; fold l.
    destruct (le_lt_dec (2 * length qs + 3) (length l)) as [H|H].
    - destruct (PsquareGeneric.long_inv_st F qs P HP l Hs Hf H)
        as [A B C D E _ _].
      unfold parameter_length, quantile_length in *.
      replace (2 * length qs + 3 - 1)%nat with (2 * length qs + 2)%nat in E by lia.
      auto.
    - rewrite PsquareGeneric.st_short;
        [|unfold parameter_length, quantile_length; lia|exact Hs].
      cbn [ps_positions ps_heights].
      split; [apply PsquareGeneric.positions0_length|].
      split; [rewrite app_length, asc_length, repeat_length;
              unfold parameter_length, quantile_length; lia|].
      split; [apply PsquareGeneric.increasing_positions0|].
      split; [rewrite PsquareGeneric.pat_positions0 by
               (unfold parameter_length; lia); reflexivity|lia]. }
  destruct Hp as (H1 & H2 & H3 & H4 & H5).
  assert (Ep : p = ps_positions F s).
  { unfold p, psq_parameters.
    assert (K : forall (A B : Type) (a : list A) (b : list B), length a = length b ->
      map fst (combine a b) = a).
    { clear; induction a as [|x a IH]; intros [|y b] H; cbn in *; try discriminate; [reflexivity|].
      f_equal; apply IH; lia. }
    apply K; congruence. }
  rewrite Ep; split; [exact H1|]; split; [apply G; exact H3|].
  split; [rewrite (nth_error_nth_some _ _ 0%N) by lia; f_equal; exact H4|].
  intros H; split.
  - rewrite (nth_error_nth_some _ _ 0%N) by lia; f_equal; apply H5; exact H.
  - unfold psq_size, s; rewrite PsquareGeneric.run_psq; apply PsquareGeneric.st_count, Hs.
Qed.

(** @ex C35_positions_ex: binary64 without NaN is totally ordered; median of
    seven values (with ties and an infinity), positions 1, 2, 4, 6, 7. *)
Lemma c35_ex :
  let h := S754_infinity false in
  let l := map b64_of_Z [3; 1; 1; 2; 9; 9]%Z ++ [h] in
  total_on b64num not_nan /\ Forall not_nan (l : list b64num) /\
  map fst (psq_parameters b64num
    (run (psq_push b64num [ratio_value b64num (1 # 2)])
         (psq_clear b64num [ratio_value b64num (1 # 2)])
         (psq_init b64num [ratio_value b64num (1 # 2)]) (pushes l)))
  = [1; 2; 4; 6; 7]%N.
Proof.
  cbv zeta; split; [exact total_on_b64|]; split.
  - repeat constructor; vm_compute; discriminate.
  - vm_compute; reflexivity.
Qed.

(** @prop C35_steps: during a push beyond the first 2Q+3 values the positions
    are strictly increasing before and after the adjustment of every marker, so
    that the unsigned step lengths never wrap and no divisor is zero; the cell
    index is between 1 and 2Q+2 and the arrays keep their length. *)
Lemma c35_steps : forall (F : num) (P : F -> Prop) (qs : list F) (ops : list (op F)) (x : F)
  (j : nat),
  total_on F P ->
  let l := since_clear ops in
  Forall P l -> P x -> fits (l ++ [x]) ->
  (2 * length qs + 3 <= length l)%nat -> (j <= 2 * length qs + 1)%nat ->
  let s := run (psq_push F qs) (psq_clear F qs) (psq_init F qs) ops in
  let (k, h) := psq_cell F qs (ps_heights F s) x in
  let (p', h') := fold_left
    (psq_adjust F (add_deltas F (ps_desired F s) (ps_deltas F s))) (seq 1 j)
    (bump_from k (ps_positions F s), h) in
  (1 <= k <= 2 * length qs + 2)%nat /\
  length p' = (2 * length qs + 3)%nat /\ length h' = (2 * length qs + 3)%nat /\
  forall i, (S i < 2 * length qs + 3)%nat -> (nth i p' 0 < nth (S i) p' 0 < szmod)%N.
Proof.
  intros F P qs ops x j HP l Hf Hx Hs Hl Hj s.
  assert (Hs' : PsquareGeneric.fits F l).
  { unfold PsquareGeneric.fits; unfold fits in Hs; rewrite length_snoc in Hs; lia. }
  pose proof (PsquareGeneric.long_inv_st F qs P HP l Hs' Hf Hl) as I.
  unfold s; rewrite PsquareGeneric.run_psq; fold l.
  pose proof (PsquareGeneric.long_inv_loop F qs P HP l x (st F qs l) j Hs Hx Hf I) as G.
  unfold parameter_length, quantile_length in G; specialize (G ltac:(lia)).
  destruct (psq_cell F qs (ps_heights F (st F qs l)) x) as [k h].
  destruct (fold_left _ (seq 1 j) _) as [p' h']; cbn [fst snd] in G.
  destruct G as [Hk [A B C D E _ _]]; cbn [ps_positions ps_heights] in *.
  unfold parameter_length, quantile_length in *.
  split; [lia|]; split; [exact A|]; split; [exact B|].
  intros i Hi; split; [apply (C i); lia|].
  assert (M : forall a b, (a <= b)%nat -> (b < length p')%nat -> (pat p' a <= pat p' b)%N).
  { intros a b Hab; induction Hab as [|b Hab IH]; intros Hb; [lia|].
    etransitivity; [apply IH; lia|apply N.lt_le_incl, C; lia]. }
  eapply N.le_lt_trans; [apply (M (S i) (2 * length qs + 3 - 1)%nat); lia|].
  rewrite E; exact Hs.
Qed.

(** @ex C35_steps_ex: a sixth value for a median estimator. *)
Lemma c35_steps_ex :
  let l := map b64_of_Z [3; 1; 1; 2; 9]%Z in
  total_on b64num not_nan /\ Forall not_nan (l : list b64num) /\
  not_nan (S754_infinity false) /\ length l = (2 * 1 + 3)%nat.
Proof.
  cbv zeta; split; [exact total_on_b64|]; split; [|split; [discriminate|reflexivity]].
  repeat constructor; vm_compute; discriminate.
Qed.

(** ** C36 *)

(** @prop C36_extremes: for every arithmetic whose comparisons form a total
    order on the pushed values, every quantile list and every non-empty history,
    get<0> is the smallest and get<Q+1> the largest value since the last
    clear. *)
Lemma c36 : forall (F : num) (P : F -> Prop) (qs : list F) (ops : list (op F)),
  total_on F P ->
  let l := since_clear ops in
  Forall P l -> fits l -> l <> [] ->
  let s := run (psq_push F qs) (psq_clear F qs) (psq_init F qs) ops in
  exists lo hi,
    psq_get F qs s 0 = Some lo /\ is_min F l lo /\
    psq_get F qs s (length qs + 1) = Some hi /\ is_max F l hi.
Proof.
  intros F P qs ops HP l Hf Hs Hl s.
  assert (Hn : (0 < length l)%nat) by (destruct l; [congruence|cbn; lia]).
  unfold s; rewrite PsquareGeneric.run_psq; fold l.
  destruct (le_lt_dec (parameter_length F qs) (length l)) as [H|H].
  - destruct (PsquareGeneric.long_inv_st F qs P HP l Hs Hf H) as [A B C D E M M'].
    exists (hat F (ps_heights F (st F qs l)) 0),
           (hat F (ps_heights F (st F qs l)) (parameter_length F qs - 1)).
    unfold psq_get; rewrite (PsquareGeneric.st_count F qs l Hs).
    pose proof (PsquareGeneric.L_ge F qs) as HL3.
    destruct (N.ltb_spec (N.of_nat (parameter_length F qs)) (N.of_nat (length l))).
    + split; [apply nth_error_nth_some; rewrite B; cbn; lia|]; split; [exact M|].
      split; [|exact M'].
      replace (2 * (length qs + 1))%nat with (parameter_length F qs - 1)%nat
        by (unfold parameter_length, quantile_length; lia).
      apply nth_error_nth_some; rewrite B; lia.
    + destruct (N.ltb_spec 1 (N.of_nat (length l))); [|lia].
      change (0 =? 0)%nat with true; cbv iota.
      rewrite Nat.add_1_r; change (S (length qs) =? 0)%nat with false; cbv iota.
      unfold quantile_length; change (1 + length qs)%nat with (S (length qs)).
      rewrite Nat.eqb_refl.
      split; [apply nth_error_nth_some; rewrite B; lia|]; split; [exact M|].
      split; [|exact M'].
      unfold PsquareGeneric.fits, fits in Hs; rewrite szsub_small by lia.
      replace (N.to_nat (N.of_nat (length l) - 1)) with (parameter_length F qs - 1)%nat by lia.
      apply nth_error_nth_some; rewrite B; lia.
  - unfold fits in Hs.
    rewrite PsquareGeneric.st_short by (unfold PsquareGeneric.fits; lia).
    exists (nth 0 (asc F l) n0), (nth (length l - 1) (asc F l) n0).
    unfold psq_get; cbn [ps_count ps_heights].
    destruct (N.ltb_spec (N.of_nat (parameter_length F qs)) (N.of_nat (length l))); [lia|].
    assert (R : forall i, (i < length l)%nat ->
      nth_error (asc F l ++ repeat n0 (parameter_length F qs - length l)) i
      = Some (nth i (asc F l) n0)).
    { intros i Hi; rewrite nth_error_app1 by (rewrite asc_length; exact Hi).
      apply nth_error_nth_some; rewrite asc_length; exact Hi. }
    pose proof (PsquareGeneric.asc_first F P HP l Hl Hf) as M.
    pose proof (PsquareGeneric.asc_final F P HP l Hl Hf) as M'.
    rewrite szsub_small by lia.
    replace (N.to_nat (N.of_nat (length l) - 1)) with (length l - 1)%nat by lia.
    destruct (N.ltb_spec 1 (N.of_nat (length l))).
    + change (0 =? 0)%nat with true; cbv iota.
      rewrite Nat.add_1_r; change (S (length qs) =? 0)%nat with false; cbv iota.
      unfold quantile_length; change (1 + length qs)%nat with (S (length qs)).
      rewrite Nat.eqb_refl; rewrite !R by lia; auto.
    + destruct (N.ltb_spec 0 (N.of_nat (length l))); [|lia].
      rewrite R by lia.
      replace (length l - 1)%nat with 0%nat in M' |- * by lia; auto.
Qed.

(** @ex C36_extremes_ex: exact reals and binary64 without NaN are totally
    ordered; a binary64 median over eight values with an infinity. *)
Lemma c36_ex :
  let qs := [ratio_value b64num (1 # 2)] in
  let l := map b64_of_Z [3; 1; -5; 2; 9; 9; 4]%Z ++ [S754_infinity true] in
  let s := run (psq_push b64num qs) (psq_clear b64num qs) (psq_init b64num qs) (pushes l) in
  (forall eps, total_on (exact eps) finite_value) /\
  total_on b64num not_nan /\ Forall not_nan (l : list b64num) /\
  psq_get b64num qs s 0 = Some (S754_infinity true) /\
  psq_get b64num qs s 2 = Some (b64_of_Z 9).
Proof.
  cbv zeta; split; [exact total_on_exact|]; split; [exact total_on_b64|]; split.
  - repeat constructor; vm_compute; discriminate.
  - vm_compute; split; reflexivity.
Qed.

(** ** C37 *)

(** @prop C37_ordered: for every list of quantiles below 1 and every non-empty
    history, every get<i> is a number within every interval that contains the
    values; it does not decrease with i (beyond 2Q+3 values for any listing
    order, before that if the quantiles are listed in ascending order); and from
    2Q+3 values on the heights in parameters() are sorted. *)
Lemma c37 : forall (eps : R) (qs : list R) (ops : list (op R)),
  Forall (fun q => 0 <= q < 1) qs ->
  (N.of_nat (2 * length qs + 3) < szmod)%N ->
  let l := since_clear ops in
  l <> [] -> fits l ->
  let s := run_psq eps qs ops in
  exists est : nat -> R,
    (forall i, (i <= length qs + 1)%nat ->
       psq_get (exact eps) (rqs eps qs) s i = Some (Fin (est i))) /\
    (forall i lo hi, (i <= length qs + 1)%nat ->
       (forall x, In x l -> lo <= x <= hi) -> lo <= est i <= hi) /\
    ((2 * length qs + 3 < length l)%nat \/ StronglySorted Rle qs ->
       forall i j, (i <= j <= length qs + 1)%nat -> est i <= est j) /\
    ((2 * length qs + 3 <= length l)%nat ->
       exists h, map snd (psq_parameters (exact eps) s) = map Fin h /\
                 length h = (2 * length qs + 3)%nat /\ StronglySorted Rle h).
Proof.
  intros eps qs ops Hq HL l Hl Hs s.
  pose proof (length_bound qs eps HL) as HL'.
  assert (EL : parameter_length (exact eps) (map Fin qs) = (2 * length qs + 3)%nat)
    by (unfold parameter_length, quantile_length; rewrite map_length; reflexivity).
  exists (est eps qs l); unfold s, rqs; rewrite run_exact; fold l.
  split; [intros i Hi; apply get_est; assumption|].
  split; [intros i lo hi Hi H; apply est_range; assumption|].
  split; [intros Hor i j Hij; apply est_mono; rewrite ?EL; try assumption; lia|].
  intros Hn; rewrite <- EL in Hn.
  destruct (long_exact eps qs HL' l Hn Hs) as (-> & G & _).
  exists (map (mk_h (run_markers eps qs l)) (seq 0 (2 * length qs + 3))).
  split; [|split; [rewrite map_length, seq_length; reflexivity|]].
  - unfold psq_parameters; cbn [rep ps_positions ps_heights]; unfold repn, repr, arr.
    rewrite EL, map_map.
    generalize (seq 0 (2 * length qs + 3)) as z; induction z as [|a z IH]; [reflexivity|].
    cbn [map combine snd]; f_equal; exact IH.
  - pose proof (gd_sorted _ _ _ _ G) as Hso; rewrite EL in Hso.
    assert (K : forall len a, (a + len <= 2 * length qs + 3)%nat ->
      StronglySorted Rle (map (mk_h (run_markers eps qs l)) (seq a len))).
    { induction len as [|len IH]; intros a Ha; cbn [seq map]; constructor.
      - apply IH; lia.
      - apply Forall_forall; intros y Hy; apply in_map_iff in Hy.
        destruct Hy as (b & <- & Hb); apply in_seq in Hb.
        assert (Hle : forall b, (a <= b)%nat -> (b < 2 * length qs + 3)%nat ->
          mk_h (run_markers eps qs l) a <= mk_h (run_markers eps qs l) b).
        { intros c Hac; induction Hac as [|c Hac IHc]; intros Hc; [lra|].
          eapply Rle_trans; [apply IHc; lia|apply Hso; lia]. }
        apply Hle; lia. }
    apply K; lia.
Qed.

(** @ex C37_ordered_ex: seven values between 1 and 9 for the quartiles, and ten
    values. *)
Lemma c37_ex :
  let qs := [1 / 4; 1 / 2; 3 / 4] in
  let l := [5; 1; 9; 2; 2; 7; 3; 8; 4; 6] in
  Forall (fun q => 0 <= q < 1) qs /\ StronglySorted Rle qs /\
  (2 * length qs + 3 <= length l)%nat /\ forall x, In x l -> 1 <= x <= 9.
Proof.
  cbv zeta; split; [repeat constructor; lra|]; split; [repeat constructor; lra|].
  split; [cbn; lia|]; intros x H; cbn in H.
  repeat (destruct H as [<-|H]; [lra|]); destruct H.
Qed.

(** ** C38 *)

(** @prop C38_published_algorithm_partial: in exact arithmetic the markers
    in parameters() after any history with at least 2Q+3 values are those of the
    published algorithm with two changes: a marker moves as soon as it is not at
    its desired position (published: when it is off by 1 or more), and the
    linear prediction divides by the distance modulo 2^64.  The latter is the
    published formula for every upward adjustment, and is wrong for every
    downward one, where the distance -d is taken as 2^64-d.  Missing: the
    threshold (C38_threshold_refuted) and the downward linear formula
    (C38_published_algorithm_refuted). *)
Lemma c38_partial : forall (eps : R) (qs : list R) (ops : list (op R)) (s : list R),
  (N.of_nat (2 * length qs + 3) < szmod)%N ->
  let l := since_clear ops in
  let len := (2 * length qs + 3)%nat in
  fits l -> (len <= length l)%nat -> order_statistics (firstn len l) s ->
  exists linear : Z -> R -> R -> Z -> R,
    (forall sg h h' d, (0 < d < 2 ^ 64)%Z ->
       linear sg h h' d = published_linear sg h h' d) /\
    (forall sg h h' d, (- 2 ^ 64 < d < 0)%Z ->
       linear sg h h' d = published_linear sg h h' (2 ^ 64 + d)) /\
    let m := p2_run linear far_any len (p2_delta qs) s (skipn len l) in
    psq_parameters (exact eps) (run_psq eps qs ops) =
    map (fun i => (Z.to_N (mk_n m i), Fin (mk_h m i))) (seq 0 len).
Proof.
  intros eps qs ops s HL l len Hs Hl Ho.
  pose proof (length_bound qs eps HL) as HL'.
  assert (EL : parameter_length (exact eps) (map Fin qs) = len)
    by (unfold parameter_length, quantile_length; rewrite map_length; reflexivity).
  exists code_linear; split; [|split].
  - intros sg h h' d Hd; unfold code_linear, published_linear.
    change (Z.of_N szmod) with (2 ^ 64)%Z; rewrite Z.mod_small by lia; reflexivity.
  - intros sg h h' d Hd; unfold code_linear, published_linear.
    change (Z.of_N szmod) with (2 ^ 64)%Z.
    replace (d mod 2 ^ 64)%Z with (2 ^ 64 + d)%Z; [reflexivity|].
    apply Z.mod_unique with (-1)%Z; lia.
  - intros m; rewrite run_exact; fold l.
    destruct (long_exact eps qs HL' l ltac:(lia) Hs) as (-> & _ & _).
    apply order_statistics_unique in Ho.
    assert (Em : run_markers eps qs l = m).
    { unfold run_markers, m; rewrite EL, <- Ho; reflexivity. }
    rewrite Em; unfold psq_parameters; cbn [rep ps_positions ps_heights].
    unfold repn, repr, arr; rewrite EL.
    generalize (seq 0 len) as z; induction z as [|a z IH]; [reflexivity|].
    cbn [map combine]; f_equal; exact IH.
Qed.

(** @ex C38_published_algorithm_partial_ex: a sixth value for the median. *)
Lemma c38_partial_ex :
  let l := [21; 11; 12; 20; 10; 9] in
  (2 * length [1 / 2] + 3 <= length l)%nat /\
  order_statistics (firstn (2 * length [1 / 2] + 3) l) [10; 11; 12; 20; 21].
Proof.
  cbv zeta; split; [cbn; lia|]; cbn; split; [|repeat constructor; lra].
  apply (Permutation_trans (l' := [11; 12; 20; 10; 21])).
  - apply (Permutation_app_comm [21] [11; 12; 20; 10]).
  - exact (Permutation_app_tail [21] (Permutation_app_comm [11; 12; 20] [10])).
Qed.

Lemma adjust_down lin far d n h i y : p2_sign far d n i = (-1)%Z ->
  p2_height lin n h i (-1) = y ->
  p2_adjust lin far d (n, h) i = (upd n i (n i + -1)%Z, upd h i y).
Proof.
  intros E1 E2; unfold p2_adjust; rewrite E1, E2.
  destruct (Z.eq_dec (-1) 0); [lia|reflexivity].
Qed.

(** @prop C38_published_algorithm_refuted: the values 10, 11, 12, 20, 21, 9 and
    the median: with the published formulas (and markers that move whenever they
    are not at their desired position) the median marker moves down to 11, the
    estimator reports 12 (in exact arithmetic slightly more than 12, whereas
    every published adjustment there lowers the height). *)
Lemma c38_refuted : exists (l : list Z),
  let m := p2_run published_linear far_any 5 (p2_delta [1 / 2])
             (map IZR (firstn 5 l)) (map IZR (skipn 5 l)) in
  let q := ratio_value b64num (1 # 2) in
  let s := run (psq_push b64num [q]) (psq_clear b64num [q]) (psq_init b64num [q])
             (pushes (map b64_of_Z l)) in
  mk_h m 2%nat = 11 /\ psq_get b64num [q] s 1 = Some (b64_of_Z 12) /\
  forall eps, exists h, psq_get (exact eps) (rqs eps [1 / 2])
    (run_psq eps [1 / 2] (pushes (map IZR l))) 1 = Some (Fin h) /\ 12 < h.
Proof.
  exists [10; 11; 12; 20; 21; 9]%Z; cbv zeta.
  assert (G : forall lin, (forall sg h h' d, (0 < d < 2 ^ 64)%Z -> lin sg h h' d = published_linear sg h h' d) ->
    mk_h (p2_run lin far_any 5 (p2_delta [1 / 2]) [10; 11; 12; 20; 21] [9]) 2%nat =
    lin (-1)%Z 12 10 (-2)%Z).
  { intros lin Hlin; unfold p2_run; cbn [fold_left]; unfold p2_push.
    set (h := upd (upd _ 0 _) _ _).
    assert (Hh : forall i, (i < 5)%nat -> h i = nth i [9; 11; 12; 20; 21] 0).
    { intros i Hi; unfold h, upd; cbn.
      do 5 (destruct i as [|i]; [cbn; try reflexivity;
        first [rewrite Rmin_left by lra; reflexivity|rewrite Rmax_right by lra; reflexivity]|]); lia. }
    assert (Hk : p2_below 5 h 9 = 1%nat).
    { unfold p2_below; cbn [seq filter]; rewrite !Hh by lia; cbn [nth].
      repeat (destruct (Rle_dec _ _); try lra); reflexivity. }
    rewrite Hk; cbn [Nat.min Nat.sub mk_h seq].
    set (n := fun i => if Nat.ltb i 1 then _ else _).
    set (d := fun i => _ + _).
    assert (Hd : forall i, (i < 5)%nat -> d i = nth i [1; 9/4; 7/2; 19/4; 6] 0).
    { intros i Hi; unfold d, p2_delta; cbn [mk_d p2_start].
      do 5 (destruct i as [|i]; [cbn; lra|]); lia. }
    assert (Hn : forall i, (i < 5)%nat -> n i = nth i [1; 3; 4; 5; 6]%Z 0%Z).
    { intros i Hi; unfold n; do 5 (destruct i as [|i]; [reflexivity|]); lia. }
    clearbody h n d; clear Hk; cbn [fold_left].
    (* marker 1 *)
    rewrite (adjust_down lin far_any d n h 1 10).
    2:{ unfold p2_sign, far_any; rewrite Hd, !Hn by lia; cbn [nth Nat.sub Nat.add].
        destruct (Rlt_dec 0 (9/4 - 3)); [lra|]; destruct (Rlt_dec 0 (3 - 9/4)); [|lra].
        destruct (Z_lt_dec 1 (3 - 1)); [reflexivity|lia]. }
    2:{ unfold p2_height, p2_parabolic; cbn [Nat.add Nat.sub].
      rewrite !Hh, !Hn by lia; cbn [nth].
      replace (11 + _) with 10 by (cbn; field).
      destruct (Rlt_dec 9 10); [|lra]; destruct (Rlt_dec 10 12); [reflexivity|lra]. }
    (* marker 2 *)
    set (n2 := upd n 1 _); set (h2 := upd h 1 10).
    assert (Hn2 : forall i, (i < 5)%nat -> n2 i = nth i [1; 2; 4; 5; 6]%Z 0%Z).
    { intros i Hi; unfold n2, upd; do 5 (destruct i as [|i]; [cbn; rewrite ?Hn by lia; reflexivity|]); lia. }
    assert (Hh2 : forall i, (i < 5)%nat -> h2 i = nth i [9; 10; 12; 20; 21] 0).
    { intros i Hi; unfold h2, upd; do 5 (destruct i as [|i]; [cbn; rewrite ?Hh by lia; reflexivity|]); lia. }
    clearbody n2 h2.
    rewrite (adjust_down lin far_any d n2 h2 2 (lin (-1)%Z 12 10 (-2)%Z)).
    2:{ unfold p2_sign, far_any; rewrite Hd, !Hn2 by lia; cbn [nth Nat.sub Nat.add].
        destruct (Rlt_dec 0 (7/2 - 4)); [lra|]; destruct (Rlt_dec 0 (4 - 7/2)); [|lra].
        destruct (Z_lt_dec 1 (4 - 2)); [reflexivity|lia]. }
    2:{ unfold p2_height, p2_parabolic; cbn [Nat.add Nat.sub].
      rewrite !Hh2, !Hn2 by lia; cbn [nth].
      replace (12 + _) with (26/3) by (cbn; field).
      destruct (Rlt_dec 10 (26/3)); [lra|].
      change (Z.to_nat (Z.of_nat 2 + -1)) with 1%nat; reflexivity. }
    (* marker 3 does not change marker 2 *)
    unfold p2_adjust; destruct (Z.eq_dec _ 0); cbn [snd]; unfold upd; cbn [Nat.eqb]; reflexivity. }
  split; [|split; [vm_compute; reflexivity|]].
  - cbn [firstn skipn map]; rewrite G by auto; unfold published_linear; cbn; lra.
  - intros eps.
    destruct (c38_partial eps [1/2] (pushes [10; 11; 12; 20; 21; 9]) [10; 11; 12; 20; 21])
      as (lin & A & B & E); rewrite ?since_clear_pushes; try (cbn; lia).
    { reflexivity. }
    { reflexivity. }
    { split; [cbn; apply Permutation_refl|cbn; repeat constructor; lra]. }
    exists (lin (-1)%Z 12 10 (-2)%Z); split.
    + rewrite since_clear_pushes in E; cbv zeta in E.
      change (2 * length [1 / 2] + 3)%nat with 5%nat in E; cbn [firstn skipn] in E.
      assert (HL : (Z.of_nat (parameter_length (exact eps) (map Fin [(1 / 2)%R])) < M64)%Z)
        by (apply length_bound; reflexivity).
      cbn [map]; rewrite run_exact, since_clear_pushes; unfold rqs.
      rewrite (get_long eps [1/2] HL) by first [reflexivity | cbn; lia].
      do 2 f_equal.
      rewrite run_exact, since_clear_pushes in E.
      destruct (long_exact eps [1/2] HL [10; 11; 12; 20; 21; 9] ltac:(cbn; lia) ltac:(reflexivity))
        as (E2 & _ & _).
      rewrite E2 in E; unfold psq_parameters in E; cbn [rep ps_positions ps_heights] in E.
      unfold repn, repr, arr in E.
      change (parameter_length (exact eps) (map Fin [1 / 2])) with 5%nat in E.
      cbn [seq map combine] in E.
      assert (J : forall a b : R, Fin a = Fin b -> a = b) by (intros a b K; congruence).
      apply (f_equal (fun l => nth 2 (map snd l) (Fin 0))) in E.
      cbn [map nth snd] in E; apply J in E.
      change (2 * 1)%nat with 2%nat; rewrite E; apply G; exact A.
    + rewrite B by lia; unfold published_linear.
      assert (K : 0 < IZR (2 ^ 64 + -2)) by (apply IZR_lt; lia).
      apply Rinv_0_lt_compat in K; unfold Rdiv; lra.
Qed.

Lemma adjust_still lin far d n h i : p2_sign far d n i = 0%Z -> p2_adjust lin far d (n, h) i = (n, h).
Proof. intros E; unfold p2_adjust; rewrite E; destruct (Z.eq_dec 0 0); [reflexivity|lia]. Qed.

Lemma adjust_up lin far d n h i y : p2_sign far d n i = 1%Z ->
  p2_height lin n h i 1 = y ->
  p2_adjust lin far d (n, h) i = (upd n i (n i + 1)%Z, upd h i y).
Proof.
  intros E1 E2; unfold p2_adjust; rewrite E1, E2.
  destruct (Z.eq_dec 1 0); [lia|reflexivity].
Qed.

(** @prop C38_threshold_refuted: the values 1 to 7 and the median: in the published
    algorithm the median marker is still at 3 (it is off by one only after the
    marker above it made room), the estimator reports 4. *)
Lemma c38_threshold_refuted : exists (l : list Z),
  let m := p2_run published_linear far_published 5 (p2_delta [1 / 2])
             (map IZR (firstn 5 l)) (map IZR (skipn 5 l)) in
  let q := ratio_value b64num (1 # 2) in
  let s := run (psq_push b64num [q]) (psq_clear b64num [q]) (psq_init b64num [q])
             (pushes (map b64_of_Z l)) in
  mk_h m 2%nat = 3 /\ psq_get b64num [q] s 1 = Some (b64_of_Z 4).
Proof.
  exists [1; 2; 3; 4; 5; 6; 7]%Z; cbv zeta; split; [|vm_compute; reflexivity].
  cbn [firstn skipn map]. unfold p2_run. cbn [fold_left].
  set (m0 := p2_start 5 (p2_delta [1 / 2]) [1; 2; 3; 4; 5]).
  assert (D0 : forall i, (i < 5)%nat -> p2_delta [1 / 2] i = nth i [0; 1/4; 1/2; 3/4; 1] 0).
  { intros i Hi; unfold p2_delta; do 5 (destruct i as [|i]; [cbn; lra|]); lia. }
  assert (S1 : forall m, (forall i, (i < 5)%nat -> mk_n m i = nth i [1; 2; 3; 4; 5]%Z 0%Z) ->
    (forall i, (i < 5)%nat -> mk_h m i = nth i [1; 2; 3; 4; 5] 0) ->
    (forall i, (i < 5)%nat -> mk_d m i = nth i [1; 2; 3; 4; 5] 0) ->
    let m' := p2_push published_linear far_published 5 (p2_delta [1 / 2]) m 6 in
    (forall i, (i < 5)%nat -> mk_n m' i = nth i [1; 2; 3; 4; 6]%Z 0%Z) /\
    (forall i, (i < 5)%nat -> mk_h m' i = nth i [1; 2; 3; 4; 6] 0) /\
    (forall i, (i < 5)%nat -> mk_d m' i = nth i [1; 9/4; 7/2; 19/4; 6] 0)).
  { intros m Hn0 Hh0 Hd0. unfold p2_push. cbn [Nat.sub].
    set (h := upd (upd (mk_h m) 0 _) 4 _).
    assert (Hh : forall i, (i < 5)%nat -> h i = nth i [1; 2; 3; 4; 6] 0).
    { intros i Hi; unfold h, upd.
      do 5 (destruct i as [|i]; [cbn; rewrite ?Hh0 by lia; cbn;
        first [reflexivity|rewrite Rmin_right by lra; reflexivity|rewrite Rmax_left by lra; reflexivity]|]); lia. }
    assert (Hk : p2_below 5 h 6 = 5%nat).
    { unfold p2_below; cbn [seq filter]; rewrite !Hh by lia; cbn [nth].
      repeat (destruct (Rle_dec _ _); try lra); reflexivity. }
    rewrite Hk; cbn [Nat.min seq].
    set (n := fun i => if Nat.ltb i 4 then _ else _).
    assert (Hn : forall i, (i < 5)%nat -> n i = nth i [1; 2; 3; 4; 6]%Z 0%Z).
    { intros i Hi; unfold n; do 5 (destruct i as [|i]; [cbn; rewrite Hn0 by lia; reflexivity|]); lia. }
    set (d := fun i => _ + _).
    assert (Hd : forall i, (i < 5)%nat -> d i = nth i [1; 9/4; 7/2; 19/4; 6] 0).
    { intros i Hi; unfold d; rewrite Hd0, D0 by lia; do 5 (destruct i as [|i]; [cbn; lra|]); lia. }
    clearbody h n d. cbn [fold_left].
    rewrite 3!adjust_still.
    { cbn [fst snd mk_n mk_h mk_d]. auto. }
    all: unfold p2_sign, far_published; rewrite Hd, !Hn by lia; cbn [nth Nat.sub Nat.add].
    all: repeat (destruct (Rle_dec _ _); [lra|]); reflexivity. }
  assert (S2 : forall m, (forall i, (i < 5)%nat -> mk_n m i = nth i [1; 2; 3; 4; 6]%Z 0%Z) ->
    (forall i, (i < 5)%nat -> mk_h m i = nth i [1; 2; 3; 4; 6] 0) ->
    (forall i, (i < 5)%nat -> mk_d m i = nth i [1; 9/4; 7/2; 19/4; 6] 0) ->
    mk_h (p2_push published_linear far_published 5 (p2_delta [1 / 2]) m 7) 2%nat = 3).
  { intros m Hn0 Hh0 Hd0. unfold p2_push. cbn [Nat.sub].
    set (h := upd (upd (mk_h m) 0 _) 4 _).
    assert (Hh : forall i, (i < 5)%nat -> h i = nth i [1; 2; 3; 4; 7] 0).
    { intros i Hi; unfold h, upd.
      do 5 (destruct i as [|i]; [cbn; rewrite ?Hh0 by lia; cbn;
        first [reflexivity|rewrite Rmin_right by lra; reflexivity|rewrite Rmax_left by lra; reflexivity]|]); lia. }
    assert (Hk : p2_below 5 h 7 = 5%nat).
    { unfold p2_below; cbn [seq filter]; rewrite !Hh by lia; cbn [nth].
      repeat (destruct (Rle_dec _ _); try lra); reflexivity. }
    rewrite Hk; cbn [Nat.min seq].
    set (n := fun i => if Nat.ltb i 4 then _ else _).
    assert (Hn : forall i, (i < 5)%nat -> n i = nth i [1; 2; 3; 4; 7]%Z 0%Z).
    { intros i Hi; unfold n; do 5 (destruct i as [|i]; [cbn; rewrite Hn0 by lia; reflexivity|]); lia. }
    set (d := fun i => _ + _).
    assert (Hd : forall i, (i < 5)%nat -> d i = nth i [1; 10/4; 4; 22/4; 7] 0).
    { intros i Hi; unfold d; rewrite Hd0, D0 by lia; do 5 (destruct i as [|i]; [cbn; lra|]); lia. }
    clearbody h n d. cbn [fold_left].
    rewrite (adjust_still _ _ d n h 1).
    2:{ unfold p2_sign, far_published; rewrite Hd, !Hn by lia; cbn [nth Nat.sub Nat.add].
        repeat (destruct (Rle_dec _ _); [lra|]); reflexivity. }
    rewrite (adjust_still _ _ d n h 2).
    2:{ unfold p2_sign, far_published; rewrite Hd, !Hn by lia; cbn [nth Nat.sub Nat.add].
        destruct (Rle_dec 1 (4 - 3)); [|lra].
        destruct (Z_lt_dec 1 (4 - 3)); [lia|reflexivity]. }
    unfold p2_adjust; destruct (Z.eq_dec _ 0); cbn [mk_h snd]; unfold upd; cbn [Nat.eqb]; rewrite Hh by lia; reflexivity. }
  destruct (S1 m0) as (A & B & C).
  - intros i Hi; do 5 (destruct i as [|i]; [reflexivity|]); lia.
  - intros i Hi; do 5 (destruct i as [|i]; [reflexivity|]); lia.
  - intros i Hi; unfold m0; cbn [p2_start mk_d]; rewrite D0 by lia. do 5 (destruct i as [|i]; [cbn; lra|]); lia.
  - apply S2; assumption.
Qed.

(** ** C39 *)

(** @prop C39_value_by_ratio_partial: if the ratios are listed in strictly
    ascending order between 0 and 1, value<q_i>() is get<i>(), value<0>() the
    minimum and value<1>() the maximum, for every arithmetic and every state.
    Missing: other listing orders (C39_value_by_ratio_refuted). *)
Lemma c39_partial : forall (F : num) (of_ratio : Q -> F) (ratios : list Q) (s : psq F),
  StronglySorted Qlt (0%Q :: ratios ++ [1%Q]) ->
  let get := psq_get F (map of_ratio ratios) s in
  let value := psq_value F of_ratio ratios s in
  (forall i q, nth_error ratios i = Some q -> value q = get (S i)) /\
  value 0%Q = get 0%nat /\ value 1%Q = get (length ratios + 1)%nat.
Proof.
  intros F of_ratio ratios s Hs get value.
  assert (Ea : quantile_list ratios = 0%Q :: ratios ++ [1%Q]).
  { unfold quantile_list; change ([0%Q] ++ ratios ++ [1%Q]) with (0%Q :: ratios ++ [1%Q]).
    revert Hs; generalize (0%Q :: ratios ++ [1%Q]) as l; clear.
    intros l H; induction H as [|x l H IH Hx]; [reflexivity|].
    unfold ratio_sort in *; cbn [fold_right]; rewrite IH.
    destruct l as [|y l]; [reflexivity|]; cbn [ratio_insert].
    inversion Hx; subst.
    rewrite (proj2 (Qle_bool_iff x y)); [reflexivity|apply Qlt_le_weak; assumption]. }
  assert (Ef : forall l i q, StronglySorted Qlt l -> nth_error l i = Some q -> ratio_find q l = i).
  { clear; intros l i q H; revert i; induction H as [|x l H IH Hx]; intros i E; [destruct i; discriminate|].
    cbn [ratio_find]; destruct (Qeq_bool q x) eqn:B.
    - apply Qeq_bool_iff in B; destruct i as [|i]; [reflexivity|].
      cbn in E; apply nth_error_In in E; rewrite Forall_forall in Hx; apply Hx in E.
      rewrite B in E; apply Qlt_irrefl in E; destruct E.
    - destruct i as [|i].
      + cbn in E; injection E as ->; rewrite (proj2 (Qeq_bool_iff q q) (Qeq_refl q)) in B; discriminate.
      + f_equal; apply IH; exact E. }
  unfold value, psq_value, get; rewrite Ea; split; [|split].
  - intros i q E; f_equal; apply Ef; [exact Hs|].
    cbn; rewrite nth_error_app1; [exact E|].
    apply nth_error_Some; rewrite E; discriminate.
  - reflexivity.
  - f_equal; apply Ef; [exact Hs|].
    rewrite Nat.add_1_r; cbn; rewrite nth_error_app2 by lia.
    rewrite Nat.sub_diag; reflexivity.
Qed.

(** @ex C39_value_by_ratio_partial_ex: the quartiles. *)
Lemma c39_partial_ex :
  StronglySorted Qlt (0 :: [1 # 4; 1 # 2; 3 # 4] ++ [1])%Q.
Proof. cbn; repeat constructor. Qed.

Lemma quantile_list_sorted (ratios : list Q) :
  StronglySorted Qlt (0%Q :: ratios ++ [1%Q]) -> quantile_list ratios = 0%Q :: ratios ++ [1%Q].
Proof.
  intros Hs. unfold quantile_list; change ([0%Q] ++ ratios ++ [1%Q]) with (0%Q :: ratios ++ [1%Q]).
  revert Hs; generalize (0%Q :: ratios ++ [1%Q]) as l; clear.
  intros l H; induction H as [|x l H IH Hx]; [reflexivity|].
  unfold ratio_sort in *; cbn [fold_right]; rewrite IH.
  destruct l as [|y l]; [reflexivity|]; cbn [ratio_insert].
  inversion Hx; subst.
  rewrite (proj2 (Qle_bool_iff x y)); [reflexivity|apply Qlt_le_weak; assumption].
Qed.

Lemma middle_index {A} (below above : list A) (q : A) :
  (length below = length above \/ length below = S (length above)) ->
  (length (below ++ q :: above) / 2 = length below)%nat.
Proof.
  intros H. rewrite app_length. cbn [length].
  destruct H as [->| ->].
  - replace (length above + S (length above))%nat with (1 + length above * 2)%nat by lia.
    rewrite Nat.div_add by lia. reflexivity.
  - replace (S (length above) + S (length above))%nat with ((1 + length above) * 2)%nat by lia.
    rewrite Nat.div_mul by lia. reflexivity.
Qed.

(** @prop C39_default: if the ratios are listed in strictly ascending order,
    value() and get() without argument are value<q>() for the middle ratio q,
    the upper one of the two in the middle of an even number of ratios. *)
Lemma c39_default : forall (F : num) (of_ratio : Q -> F) (below above : list Q) (q : Q) (s : psq F),
  let ratios := below ++ q :: above in
  StronglySorted Qlt (0%Q :: ratios ++ [1%Q]) ->
  (length below = length above \/ length below = S (length above)) ->
  psq_value_default F of_ratio ratios s = psq_value F of_ratio ratios s q /\
  psq_get_default F (map of_ratio ratios) s = psq_value F of_ratio ratios s q.
Proof.
  intros F of_ratio below above q s ratios Hs Hm.
  pose proof (middle_index below above q Hm) as M. fold ratios in M.
  assert (N : nth_error ratios (length below) = Some q).
  { unfold ratios. rewrite nth_error_app2, Nat.sub_diag by lia. reflexivity. }
  destruct (c39_partial F of_ratio ratios s Hs) as (V & _). specialize (V _ _ N).
  unfold psq_value_default, psq_get_default, default_index, quantile_length.
  rewrite map_length, M. split; [|symmetry; exact V].
  rewrite (quantile_list_sorted _ Hs). cbn [Nat.add nth]. f_equal.
  unfold ratios. rewrite <- app_assoc, app_nth2, Nat.sub_diag by lia. reflexivity.
Qed.

(** @ex C39_default_ex: the quartiles; the default is the median. *)
Lemma c39_default_ex :
  StronglySorted Qlt (0 :: ([1 # 4] ++ (1 # 2) :: [3 # 4]) ++ [1])%Q /\
  length [1 # 4]%Q = length [3 # 4]%Q.
Proof. cbn; repeat constructor. Qed.

Lemma ratio_exact eps q : ratio_value (exact eps) q = Fin (Q2R q).
Proof.
  unfold ratio_value, Q2R. cbn.
  destruct (Req_bool_spec (IZR (Z.pos (Qden q))) 0) as [H|H]; [|reflexivity].
  exfalso. revert H. apply IZR_neq. discriminate.
Qed.

Lemma Q2R_unit q : (0 < q)%Q -> (q < 1)%Q -> 0 <= Q2R q < 1.
Proof.
  intros A B. apply Qreals.Qlt_Rlt in A, B. rewrite RMicromega.Q2R_0 in A. rewrite RMicromega.Q2R_1 in B. lra.
Qed.

(** @prop C39_value_few: for ratios listed in strictly ascending order and a
    history of 1 to 2Q+3 values since the last clear, value<q>() is the
    interpolated order statistic of rank (n-1)*q, q the ratio as a real
    number. *)
Lemma c39_few : forall (eps : R) (ratios : list Q) (ops : list (op R)) (s : list R) (q : Q),
  StronglySorted Qlt (0%Q :: ratios ++ [1%Q]) ->
  (N.of_nat (2 * length ratios + 3) < szmod)%N ->
  let l := since_clear ops in
  order_statistics l s ->
  l <> [] -> (length l <= 2 * length ratios + 3)%nat ->
  In q ratios ->
  let qs := map (ratio_value (exact eps)) ratios in
  psq_value (exact eps) (ratio_value (exact eps)) ratios
    (run (psq_push (exact eps) qs) (psq_clear (exact eps) qs) (psq_init (exact eps) qs)
       (map (op_map Fin) ops)) q
  = Some (Fin (interpolate s (INR (length l - 1) * Q2R q))).
Proof.
  intros eps ratios ops s q Hs HL l Ho NE Hn Hq qs.
  assert (Eq : qs = rqs eps (map Q2R ratios)).
  { unfold qs, rqs. rewrite map_map. apply map_ext. intros a. apply ratio_exact. }
  apply In_nth_error in Hq. destruct Hq as (i & Hi).
  destruct (c39_partial (exact eps) (ratio_value (exact eps)) ratios
    (run (psq_push (exact eps) qs) (psq_clear (exact eps) qs) (psq_init (exact eps) qs) (map (op_map Fin) ops)) Hs) as (V & _).
  rewrite (V i q Hi). fold qs. rewrite Eq.
  destruct (c34 eps (map Q2R ratios) ops s) as (_ & _ & G); try assumption.
  - apply Forall_forall. intros r Hr. apply in_map_iff in Hr. destruct Hr as (x & <- & Hx).
    inversion Hs as [|? ? S0 F0]; subst. apply Q2R_unit.
    + rewrite Forall_forall in F0. apply F0. apply in_or_app. auto.
    + clear - S0 Hx. induction ratios as [|a r IH]; [destruct Hx|].
      cbn in S0. inversion S0 as [|? ? S1 F1]; subst. destruct Hx as [->|Hx]; [|apply IH; assumption].
      rewrite Forall_forall in F1. apply F1. apply in_or_app. right. left. reflexivity.
  - rewrite map_length. exact HL.
  - rewrite map_length. exact Hn.
  - apply G. apply map_nth_error. exact Hi.
Qed.

(** @ex C39_value_few_ex: the quartiles of three values after a clear. *)
Lemma c39_few_ex :
  let ratios := [1 # 4; 1 # 2; 3 # 4]%Q in
  let ops := [Push 9; Clear; Push 3; Push 1; Push 2] in
  StronglySorted Qlt (0%Q :: ratios ++ [1%Q]) /\
  order_statistics (since_clear ops) [1; 2; 3] /\ In (3 # 4)%Q ratios /\
  interpolate [1; 2; 3] (INR (length (since_clear ops) - 1) * Q2R (3 # 4)) = 5 / 2.
Proof.
  cbv zeta. split; [cbn; repeat constructor|]. split.
  { split.
    - cbn. apply Permutation_sym. apply perm_trans with [1; 3; 2]; [apply perm_skip, perm_swap|apply perm_swap].
    - repeat (apply SSorted_cons || apply SSorted_nil || apply Forall_cons || apply Forall_nil || lra). }
  split; [cbn; tauto|].
  cbn [since_clear length Nat.sub]. change (INR (length (since_clear [Push 9; Clear; Push 3; Push 1; Push 2]) - 1)) with 2.
  assert (E : 2 * Q2R (3 # 4) = 3 / 2) by (unfold Q2R; cbn; lra). rewrite E.
  assert (I : Int_part (3 / 2) = 1%Z).
  { unfold Int_part. rewrite <- (tech_up (3 / 2) 2); [reflexivity| |]; cbn; lra. }
  unfold interpolate. rewrite I. change (Z.to_nat 1) with 1%nat. cbn [nth]. lra.
Qed.

(** @prop C39_ratio_binary64: in binary64 a ratio n/d with magnitudes up to 2^53
    and at most 1 becomes the double nearest to it (ties to even). *)
Lemma c39_ratio64 : forall q : Q,
  (0 <= q)%Q -> (q <= 1)%Q -> (Zpos (Qden q) <= 2 ^ 53)%Z ->
  Binary64.b64_finite (ratio_value b64num q) /\
  Binary64.b64_real (ratio_value b64num q) = Binary64.rnd64 (Q2R q).
Proof.
  intros q H0 H1 Hd. pose proof (Qreals.Qle_Rle _ _ H0) as R0. pose proof (Qreals.Qle_Rle _ _ H1) as R1.
  rewrite RMicromega.Q2R_0 in R0. rewrite RMicromega.Q2R_1 in R1.
  unfold Qle in H0, H1. cbn in H0, H1.
  destruct (Binary64.of_Z_exact (Qnum q)) as [F1 E1]; [lia|].
  destruct (Binary64.of_Z_exact (Zpos (Qden q))) as [F2 E2]; [lia|].
  assert (EQ : Binary64.b64_real (b64_of_Z (Qnum q)) / Binary64.b64_real (b64_of_Z (Zpos (Qden q))) = Q2R q)
    by (rewrite E1, E2; reflexivity).
  unfold ratio_value. change (@ndiv b64num) with (SFdiv 53 1024).
  change (@nofz b64num) with b64_of_Z. rewrite <- EQ. apply Binary64.div_real; try assumption.
  - rewrite E2. apply IZR_neq. discriminate.
  - rewrite EQ. unfold Binary64.in_range.
    rewrite Rabs_pos_eq.
    + apply Rle_lt_trans with 1.
      * rewrite <- (Binary64.rnd64_rep 1) by (apply (Binary64.rep64_IZR 1); lia). apply Binary64.rnd64_le. exact R1.
      * change 1 with (Raux.bpow Zaux.radix2 0). apply Raux.bpow_lt. lia.
    + rewrite <- Binary64.rnd64_0. apply Binary64.rnd64_le. exact R0.
Qed.

(** @ex C39_ratio_binary64_ex: one tenth. *)
Lemma c39_ratio64_ex :
  (0 <= 1 # 10)%Q /\ (1 # 10 <= 1)%Q /\ (10 <= 2 ^ 53)%Z /\
  ratio_value b64num (1 # 10) = S754_finite false 7205759403792794 (-56).
Proof. split; [discriminate|]. split; [discriminate|]. split; [lia|]. vm_compute. reflexivity. Qed.

(** @prop C39_value_by_ratio_refuted: with the ratios listed as 3/4, 1/4 the
    estimator over 1, 2, 3, 4, 5 returns 2 for value<3/4>() and 4 for
    value<1/4>(). *)
Lemma c39_refuted : exists (ratios : list Q) (l : list b64num),
  let qs := map (ratio_value b64num) ratios in
  let s := run (psq_push b64num qs) (psq_clear b64num qs) (psq_init b64num qs) (pushes l) in
  ratios = [3 # 4; 1 # 4]%Q /\ l = map b64_of_Z [1; 2; 3; 4; 5]%Z /\
  psq_value b64num (ratio_value b64num) ratios s (3 # 4)%Q = Some (b64_of_Z 2) /\
  psq_value b64num (ratio_value b64num) ratios s (1 # 4)%Q = Some (b64_of_Z 4).
Proof.
  exists [3 # 4; 1 # 4]%Q, (map b64_of_Z [1; 2; 3; 4; 5]%Z); cbv zeta.
  do 2 (split; [reflexivity|]); vm_compute; split; reflexivity.
Qed.

(** ** C40 *)

(** @prop C40_affine: for every list of quantiles below 1, every non-empty
    history and every a > 0 and b, pushing a*x+b instead of x changes every
    estimate v to a*v+b; if all values are equal every estimate is that
    value. *)
Lemma c40 : forall (eps a b : R) (qs : list R) (ops : list (op R)) (i : nat),
  0 < a -> Forall (fun q => 0 <= q < 1) qs ->
  (N.of_nat (2 * length qs + 3) < szmod)%N ->
  let l := since_clear ops in
  l <> [] -> fits l -> (i <= length qs + 1)%nat ->
  let F := exact eps in
  exists v,
    psq_get F (rqs eps qs) (run_psq eps qs ops) i = Some (Fin v) /\
    psq_get F (rqs eps qs)
      (run_psq eps qs (map (op_map (fun x => a * x + b)) ops)) i = Some (Fin (a * v + b)) /\
    forall c, (forall x, In x l -> x = c) -> v = c.
Proof.
  intros eps a b qs ops i Ha Hq HL l Hl Hs Hi F.
  pose proof (length_bound qs eps HL) as HL'.
  exists (est eps qs l i); unfold F, rqs; rewrite !run_exact, since_clear_op_map; fold l.
  split; [apply get_est; assumption|]; split.
  - rewrite get_est; try assumption.
    + rewrite est_affine by assumption; reflexivity.
    + destruct l; [congruence|discriminate].
    + rewrite map_length; exact Hs.
  - intros c Hc.
    assert (c <= est eps qs l i <= c); [|lra].
    apply est_range; try assumption.
    intros x Hx; rewrite (Hc x Hx); lra.
Qed.

(** @ex C40_affine_ex: six values, beyond the exact phase of a median. *)
Lemma c40_ex :
  let ops := [Push 1; Clear; Push 5; Push 2; Push 8; Push 9; Push 1; Push 3] in
  since_clear ops = [5; 2; 8; 9; 1; 3] /\ since_clear ops <> [] /\ fits (since_clear ops) /\
  Forall (fun q => 0 <= q < 1) [1 / 2] /\
  (2 * length [1 / 2] + 3 < length (since_clear ops))%nat.
Proof.
  cbv zeta; split; [reflexivity|]; split; [discriminate|]; split; [reflexivity|].
  split; [repeat constructor; lra|cbn; lia].
Qed.

(** ** C41 *)

Lemma combine_fst {A B} (a : list A) (b : list B) : length a = length b ->
  map fst (combine a b) = a.
Proof.
  revert b; induction a as [|x a IH]; intros [|y b] H; cbn in *; try discriminate; [reflexivity|].
  f_equal; apply IH; lia.
Qed.
Lemma combine_snd {A B} (a : list A) (b : list B) : length a = length b ->
  map snd (combine a b) = b.
Proof.
  revert b; induction a as [|x a IH]; intros [|y b] H; cbn in *; try discriminate; [reflexivity|].
  f_equal; apply IH; lia.
Qed.

Lemma counts_exact (eps : R) (n : N) : (n < szmod)%N -> counts_convert (exact eps) n.
Proof.
  intros Hn p Hp. unfold nofsz, ntosz; cbn [exact xnum]; unfold xtosz. rewrite Ztrunc_IZR.
  destruct (Z.leb_spec 0 (Z.of_N p)); [|lia].
  destruct (Z.ltb_spec (Z.of_N p) (Z.of_N szmod)); [|lia].
  cbn [andb]; f_equal; lia.
Qed.

(** @prop C41_restore_partial: for every arithmetic, every history (NaN
    included) and every target estimator, if counts up to the number of values
    (and up to 2Q+3) survive the conversion to the value type and back, restoring
    parameters() is defined and reproduces them; if exactly 2Q+3 values were
    pushed all estimates are reproduced, and if more were pushed the minimum and
    the maximum.  Missing: the other estimates (C41_restore_refuted), larger
    counts (C41_restore_float_refuted). *)
Lemma c41_partial : forall (F : num) (qs : list F) (ops : list (op F)) (t : psq F),
  let l := since_clear ops in
  fits l -> (N.of_nat (2 * length qs + 3) < szmod)%N ->
  counts_convert F (N.max (N.of_nat (length l)) (N.of_nat (2 * length qs + 3))) ->
  let s := run (psq_push F qs) (psq_clear F qs) (psq_init F qs) ops in
  exists r, psq_restore F qs t (psq_parameters F s) = Some r /\
  psq_parameters F r = psq_parameters F s /\
  psq_size F r = N.of_nat (2 * length qs + 3) /\
  (length l = 2 * length qs + 3 -> forall i, psq_get F qs r i = psq_get F qs s i)%nat /\
  (2 * length qs + 3 <= length l ->
     psq_get F qs r 0 = psq_get F qs s 0 /\
     psq_get F qs r (length qs + 1) = psq_get F qs s (length qs + 1))%nat.
Proof.
  intros F qs ops t l Hs HL Hc s.
  assert (Es : s = st F qs l) by (unfold s; apply PsquareGeneric.run_psq).
  pose proof (restore_arrays F qs l t Hs HL Hc) as E. rewrite <- Es in E.
  eexists. split; [exact E|].
  split; [reflexivity|].
  split; [reflexivity|].
  assert (Ec : ps_count F s = N.of_nat (length l))
    by (rewrite Es; apply PsquareGeneric.st_count, Hs).
  unfold psq_get; cbn [ps_count ps_heights]; rewrite Ec; unfold parameter_length, quantile_length.
  split; [intros ->; reflexivity|].
  intros Hn; rewrite N.ltb_irrefl; rewrite Nat.add_1_r.
  change (S (length qs) =? 0)%nat with false; change (0 =? 0)%nat with true; cbv iota.
  change (1 + length qs)%nat with (S (length qs)); rewrite Nat.eqb_refl.
  unfold fits in Hs.
  rewrite !szsub_small by lia.
  destruct (N.ltb_spec 1 (N.of_nat (2 * length qs + 3))); [|lia].
  destruct (N.ltb_spec (N.of_nat (2 * length qs + 3)) (N.of_nat (length l))).
  - split; [reflexivity|f_equal; lia].
  - assert (length l = 2 * length qs + 3)%nat by lia.
    destruct (N.ltb_spec 1 (N.of_nat (length l))); [|lia].
    split; [reflexivity|f_equal; lia].
Qed.

(** @ex C41_restore_partial_ex: as many values as markers and more values, in
    exact arithmetic (for double see C41_restore_double). *)
Lemma c41_partial_ex :
  let l := [1; 2; 3; 4; 5] in
  length (since_clear (pushes l)) = (2 * length [1 / 2] + 3)%nat /\
  fits (since_clear (pushes (l ++ [0]))) /\
  counts_convert (exact 0) (N.max (N.of_nat (length (l ++ [0]))) (N.of_nat (2 * length [1 / 2] + 3))).
Proof. split; [reflexivity|]. split; [reflexivity|]. apply counts_exact. reflexivity. Qed.

(** @prop C41_restore_state: for every arithmetic, what a restored estimator
    reports from then on depends on the restored data and the values pushed
    afterwards only, not on what was pushed to it before: for any two target
    histories, any data and any further history, restoring is defined for both
    or for neither, and all estimates, size() and parameters() agree. *)
Lemma c41_state : forall (F : num) (qs : list F) (ops1 ops2 more : list (op F)) (data : list (N * F)),
  let target ops := run (psq_push F qs) (psq_clear F qs) (psq_init F qs) ops in
  let after r := run (psq_push F qs) (psq_clear F qs) r more in
  (psq_restore F qs (target ops1) data = None <-> psq_restore F qs (target ops2) data = None) /\
  forall r1 r2, psq_restore F qs (target ops1) data = Some r1 ->
    psq_restore F qs (target ops2) data = Some r2 ->
    psq_parameters F (after r1) = psq_parameters F (after r2) /\
    psq_size F (after r1) = psq_size F (after r2) /\
    forall i, psq_get F qs (after r1) i = psq_get F qs (after r2) i.
Proof.
  intros F qs ops1 ops2 more data target after.
  assert (E : psq_restore F qs (target ops1) data = psq_restore F qs (target ops2) data).
  { unfold psq_restore, target.
    rewrite !PsquareGeneric.run_psq, !PsquareGeneric.st_deltas. reflexivity. }
  split; [rewrite E; reflexivity|].
  intros r1 r2 H1 H2. rewrite E, H2 in H1. injection H1 as ->. auto.
Qed.

(** @ex C41_restore_state_ex: a used and a new estimator of the first quartile,
    both restored from the parameters of a third; after one more value both
    report the same, not trivial, parameters. *)
Lemma c41_state_ex :
  let q := ratio_value b64num (1 # 4) in
  let target l := run (psq_push b64num [q]) (psq_clear b64num [q]) (psq_init b64num [q])
                    (pushes (map b64_of_Z l)) in
  let data := psq_parameters b64num (target [1; 2; 3; 4; 5; 6; 7; 8]%Z) in
  let after l := option_map (fun r => psq_parameters b64num (psq_push b64num [q] r (b64_of_Z 0)))
                   (psq_restore b64num [q] (target l) data) in
  after [] = after [5; 5; 5; 9; 9; 9; 9]%Z /\
  option_map (map fst) (after []) = Some [1; 2; 3; 5; 9]%N.
Proof. vm_compute. split; reflexivity. Qed.

(** @prop C41_restore_even_partial: in exact arithmetic every estimate is
    reproduced if the quantiles are evenly spaced, q_i = i/(Q+1) (in particular
    for a single median), and at least 2Q+3 values were pushed. *)
Lemma c41_even : forall (eps : R) (qs : list R) (ops : list (op R)) (t : psq (exact eps)) (i : nat),
  (N.of_nat (2 * length qs + 3) < szmod)%N ->
  let l := since_clear ops in
  fits l -> (2 * length qs + 3 <= length l)%nat ->
  (forall k q, nth_error qs k = Some q -> q = INR (S k) / INR (S (length qs))) ->
  (i <= length qs + 1)%nat ->
  let F := exact eps in
  let s := run_psq eps qs ops in
  exists v r, psq_get F (rqs eps qs) s i = Some (Fin v) /\
    psq_restore F (rqs eps qs) t (psq_parameters F s) = Some r /\
    psq_get F (rqs eps qs) r i = Some (Fin v).
Proof.
  intros eps qs ops t i HL l Hs Hn Hq Hi F s; subst F.
  assert (Hpos : 0 < INR (S (length qs))) by (apply lt_0_INR; lia).
  assert (Hqs : Forall (fun q => 0 <= q < 1) qs).
  { apply Forall_forall; intros q Hin; destruct (In_nth_error _ _ Hin) as [k Hk].
    assert (k < length qs)%nat by (apply nth_error_Some; congruence).
    rewrite (Hq k q Hk); split.
    - apply Rle_mult_inv_pos; [apply pos_INR|exact Hpos].
    - apply (Rmult_lt_reg_r (INR (S (length qs)))); [exact Hpos|].
      unfold Rdiv; rewrite Rmult_assoc, Rinv_l, Rmult_1_r, Rmult_1_l by lra.
      apply lt_INR; lia. }
  assert (Hne : l <> []) by (intros E; rewrite E in Hn; cbn in Hn; lia).
  pose proof (length_bound qs eps HL) as HL'.
  assert (EL : parameter_length (exact eps) (map Fin qs) = (2 * length qs + 3)%nat)
    by (unfold parameter_length, quantile_length; rewrite map_length; reflexivity).
  unfold s, rqs; rewrite run_exact; fold l.
  destruct (c41_partial (exact eps) (map Fin qs) (rops eps ops) t) as (r & R0 & _ & _ & G2 & G3).
  { unfold rops; rewrite since_clear_op_map; unfold fits; rewrite map_length; exact Hs. }
  { rewrite map_length; exact HL. }
  { apply counts_exact. unfold rops. rewrite since_clear_op_map, !map_length. fold l. unfold fits in Hs. lia. }
  rewrite PsquareGeneric.run_psq in R0, G2, G3.
  unfold rops in R0, G2, G3; rewrite since_clear_op_map in R0, G2, G3; fold l in R0, G2, G3.
  rewrite !map_length in G2, G3.
  exists (est eps qs l i), r.
  split; [apply get_est; assumption|]. split; [exact R0|].
  destruct (Nat.eq_dec (length l) (2 * length qs + 3)) as [El|El].
  { etransitivity; [apply G2; exact El|apply get_est; assumption]. }
  destruct (G3 Hn) as [G4 G5].
  destruct i as [|k].
  { etransitivity; [exact G4|apply get_est; assumption]. }
  destruct (Nat.eq_dec (S k) (length qs + 1)) as [Ek|Ek].
  { rewrite Ek; etransitivity; [exact G5|rewrite <- Ek; apply get_est; assumption]. }
  clear G2 G3 G4 G5.
  pose proof (restore_arrays (exact eps) (map Fin qs) (map Fin l) t
    ltac:(unfold PsquareGeneric.fits; rewrite map_length; exact Hs) ltac:(rewrite EL; exact HL)
    ltac:(apply counts_exact; rewrite map_length, EL; unfold fits in Hs; lia)) as R1.
  pose proof (eq_trans (eq_sym R0) R1) as R2. injection R2 as ->.
  assert (Hk : (k < length qs)%nat) by lia.
  unfold psq_get; cbn [ps_count ps_heights]; rewrite EL.
  rewrite N.ltb_irrefl.
  destruct (N.ltb_spec 1 (N.of_nat (2 * length qs + 3))); [|lia].
  change (S k =? 0)%nat with false; cbv iota.
  unfold quantile_length; rewrite map_length.
  destruct (Nat.eqb_spec (S k) (1 + length qs)); [lia|].
  replace (S k - 1)%nat with k by lia.
  rewrite nth_error_map, (nth_error_nth_some qs k 0 Hk); cbn [option_map].
  set (q := nth k qs 0).
  assert (Eq : q = INR (S k) / INR (S (length qs)))
    by (apply Hq; apply nth_error_nth_some; exact Hk).
  rewrite szsub_small by lia.
  assert (Erank : INR (2 * length qs + 2) * q = IZR (Z.of_nat (2 * S k))).
  { rewrite Eq, <- INR_IZR_INZ.
    replace (2 * length qs + 2)%nat with (2 * S (length qs))%nat by lia.
    rewrite !mult_INR; field; lra. }
  assert (Esz : (nofsz (n := exact eps) (N.of_nat (2 * length qs + 3) - 1)) = Fin (INR (2 * length qs + 2))).
  { cbn. f_equal. rewrite INR_IZR_INZ; f_equal; lia. }
  rewrite Esz.
  change (nmul (Fin (INR (2 * length qs + 2)) : (exact eps)) (Fin q)) with (Fin (INR (2 * length qs + 2) * q) : (exact eps)).
  rewrite Erank.
  destruct (long_exact eps qs HL' l ltac:(lia) Hs) as (E & _ & _).
  rewrite E.
  assert (Hrd : forall j, (j <= 2 * length qs + 2)%nat ->
    hread (exact eps) (ps_heights (exact eps) (rep eps qs (N.of_nat (length l)) (run_markers eps qs l)))
      (ntosz (n := exact eps) (Fin (IZR (Z.of_nat j)))) = Some (Fin (mk_h (run_markers eps qs l) j))).
  { intros j Hj.
    assert (Et : ntosz (n := exact eps) (Fin (IZR (Z.of_nat j))) = Some (N.of_nat j)).
    { unfold ntosz; cbn [exact xnum]; unfold xtosz; rewrite Ztrunc_IZR.
      destruct (Z.leb_spec 0 (Z.of_nat j)); [|lia].
      destruct (Z.ltb_spec (Z.of_nat j) (Z.of_N szmod)); [|lia].
      cbn [andb]; f_equal; lia. }
    rewrite Et; unfold hread; rewrite Nat2N.id.
    assert (Hj' : (j < parameter_length (exact eps) (map Fin qs))%nat) by (lia).
    rewrite (nth_error_nth_some _ _ n0);
      [rewrite rep_height by exact Hj'; reflexivity|].
    cbn [rep ps_heights]; unfold repr, arr; rewrite map_length, seq_length; exact Hj'. }
  change (nadd (Fin (IZR (Z.of_nat (2 * S k))) : (exact eps)) n1) with (Fin (IZR (Z.of_nat (2 * S k)) + 1) : (exact eps)).
  rewrite <- plus_IZR.
  replace (Z.of_nat (2 * S k) + 1)%Z with (Z.of_nat (S (2 * S k))) by lia.
  rewrite !Hrd by lia.
  apply (f_equal Some).
  assert (Ee : est eps qs l (S k) = mk_h (run_markers eps qs l) (2 * S k)).
  { unfold est; rewrite EL.
    destruct (Nat.leb_spec (length l) (2 * length qs + 3)); [lia|reflexivity]. }
  rewrite Ee; cbn.
  apply (f_equal Fin).
  rewrite Zfloor_IZR; ring.
Qed.

(** @ex C41_restore_even_partial_ex: the quartiles and ten values. *)
Lemma c41_even_ex :
  let qs := [1 / 4; 1 / 2; 3 / 4] in
  (forall k q, nth_error qs k = Some q -> q = INR (S k) / INR (S (length qs))) /\
  (2 * length qs + 3 <= length [5; 1; 9; 2; 2; 7; 3; 8; 4; 6])%nat.
Proof.
  cbv zeta; split; [|cbn; lia].
  intros k q H; do 3 (destruct k as [|k]; [cbn in H; injection H as <-; cbn; lra|]).
  destruct k; discriminate.
Qed.

(** @prop C41_restore_refuted: an estimator of the first quartile, a new one and
    the restored parameters: after 1..6 the estimate is 3, restored it is 2;
    after 1..3 the maximum is 3, restored it is 0. *)
Lemma c41_refuted : exists (q : b64num) (l l' : list b64num),
  let run l := run (psq_push b64num [q]) (psq_clear b64num [q]) (psq_init b64num [q])
                 (pushes l) in
  let restored l := psq_restore b64num [q] (psq_init b64num [q])
                      (psq_parameters b64num (run l)) in
  let get := psq_get b64num [q] in
  let get_restored l i := match restored l with Some r => get r i | None => None end in
  q = ratio_value b64num (1 # 4) /\
  l = map b64_of_Z [1; 2; 3; 4; 5; 6]%Z /\ l' = map b64_of_Z [1; 2; 3]%Z /\
  get (run l) 1%nat = Some (b64_of_Z 3) /\ get_restored l 1%nat = Some (b64_of_Z 2) /\
  get (run l') 2%nat = Some (b64_of_Z 3) /\ get_restored l' 2%nat = Some (b64_of_Z 0).
Proof.
  exists (ratio_value b64num (1 # 4)), (map b64_of_Z [1; 2; 3; 4; 5; 6]%Z),
    (map b64_of_Z [1; 2; 3]%Z); cbv zeta.
  do 3 (split; [reflexivity|]); vm_compute; repeat split; reflexivity.
Qed.

(** ** C42 *)

(** @prop C42_bookkeeping: for every arithmetic, quantile list and history,
    size() counts the values since the last clear, empty() says whether there are
    none, get() and value() of an empty estimator are 0 for every index, and
    after clear() the estimator equals a new one. *)
Lemma c42 : forall (F : num) (qs : list F) (ops : list (op F)),
  let l := since_clear ops in
  fits l ->
  let clear := psq_clear F qs in
  let s := run (psq_push F qs) clear (psq_init F qs) ops in
  psq_size F s = N.of_nat (length l) /\
  psq_empty F s = (match l with [] => true | _ => false end) /\
  (l = [] -> forall i, psq_get F qs s i = Some n0) /\
  clear s = psq_init F qs /\
  (l = [] -> s = psq_init F qs).
Proof.
  intros F qs ops l Hs clear s.
  assert (Es : s = st F qs l) by (unfold s, clear; apply PsquareGeneric.run_psq).
  assert (Ec : ps_count F s = N.of_nat (length l)).
  { rewrite Es; apply PsquareGeneric.st_count, Hs. }
  split; [exact Ec|]; split; [|split; [|split; [reflexivity|]]].
  - unfold psq_empty; rewrite Ec; destruct l; reflexivity.
  - intros El i; unfold psq_get; rewrite Ec, El; cbn [length N.of_nat].
    destruct (N.ltb_spec (N.of_nat (parameter_length F qs)) 0); [lia|]; reflexivity.
  - intros El; rewrite Es, El; reflexivity.
Qed.

(** @ex C42_bookkeeping_ex: binary64 with a NaN before the clear. *)
Lemma c42_ex :
  let ops := [Push S754_nan; Clear; Push (b64_of_Z 1); Push (b64_of_Z 2)] in
  since_clear ops = [b64_of_Z 1; b64_of_Z 2] /\ fits (since_clear ops).
Proof. split; reflexivity. Qed.
