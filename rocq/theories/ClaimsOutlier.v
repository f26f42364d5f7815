(** * Claim C116: one outlier and the median *)

From Coq Require Import QArith Reals ZArith NArith List Bool Sorting.Sorted.
From Coq Require Import Floats.SpecFloat.
From Verif Require Import Arith History SpecPsquare Psquare ExactRuns PsquareRuns.
Import ListNotations.
Local Open Scope R_scope.

(** All values but at most one are between [lo] and [hi]. *)
Definition but_one_within (lo hi : R) (l : list R) : Prop :=
  exists l1 x l2, l = l1 ++ x :: l2 /\ Forall (fun y => lo <= y <= hi) (l1 ++ l2).
(* @end-header *)
From Coq Require Import Lia Lra Sorting.Permutation.
From Flocq Require Import Core.Raux.
From Verif Require Import Buffer HistoryLemmas StatsLemmas PsquareLemmas PsquareStats PsquareExact PsquareSpread PsquareOutlier ClaimsPsquare ClaimsSpread.
From Verif Require PsquareGeneric.

Lemma part_is r z : IZR z <= r < IZR z + 1 -> Int_part r = z.
Proof. intros H. rewrite Int_part_floor. apply Zfloor_imp. rewrite plus_IZR. lra. Qed.

Lemma sorted_nth (s : list R) : StronglySorted Rle s -> forall i j, (i <= j)%nat -> (j < length s)%nat -> nth i s 0 <= nth j s 0.
Proof.
  induction 1 as [|a s Hs IH Hf]; intros i j Hij Hj; cbn [length] in Hj; [lia|].
  destruct i as [|i], j as [|j]; cbn [nth]; [lra| |lia|apply IH; lia].
  rewrite Forall_forall in Hf. apply Hf, nth_In. lia.
Qed.

Lemma middle_within lo hi l s i : but_one_within lo hi l -> order_statistics l s ->
  (0 < i)%nat -> (S i < length s)%nat -> lo <= nth i s 0 <= hi.
Proof.
  intros (l1 & x & l2 & -> & Hf) [Hp Hs] H0 H1.
  assert (Hx : In x s) by (eapply Permutation_in; [exact Hp|apply in_elt]).
  apply in_split in Hx. destruct Hx as (s1 & s2 & ->).
  apply Permutation_app_inv in Hp.
  assert (Hr : Forall (fun y => lo <= y <= hi) (s1 ++ s2)) by (eapply Permutation_Forall; eassumption).
  assert (G : forall j, (j < length (s1 ++ x :: s2))%nat -> j <> length s1 -> lo <= nth j (s1 ++ x :: s2) 0 <= hi).
  { intros j Hj Hn. rewrite Forall_forall in Hr. apply Hr. rewrite app_length in Hj. cbn [length] in Hj. apply in_or_app.
    destruct (Nat.lt_ge_cases j (length s1)) as [L|L].
    - left. rewrite app_nth1 by exact L. apply nth_In. exact L.
    - right. rewrite app_nth2 by exact L. destruct (j - length s1)%nat as [|k] eqn:E; [lia|]. cbn [nth]. apply nth_In. lia. }
  destruct (Nat.eq_dec i (length s1)) as [E|N]; [|apply G; [lia|exact N]].
  pose proof (G (i - 1)%nat ltac:(lia) ltac:(lia)) as A. pose proof (G (i + 1)%nat ltac:(lia) ltac:(lia)) as B.
  pose proof (sorted_nth _ Hs (i - 1)%nat i ltac:(lia) ltac:(lia)). pose proof (sorted_nth _ Hs i (i + 1)%nat ltac:(lia) ltac:(lia)). lra.
Qed.

(** @prop C116_few_partial: of three, four or five values, all but one between lo
    and hi, the median estimate is between lo and hi, however far off the remaining
    value is.  Missing: six and more values, for which this is false. *)
Lemma c116_few_partial : forall (eps : R) (ops : list (op R)) (lo hi : R),
  let l := since_clear ops in
  (3 <= length l <= 5)%nat -> but_one_within lo hi l ->
  exists v, psq_get (exact eps) (rqs eps [/ 2]) (run_psq eps [/ 2] ops) 1 = Some (Fin v) /\ lo <= v <= hi.
Proof.
  intros eps ops lo hi l Hl Hb.
  assert (Ho : order_statistics l (rsort l)) by (split; [apply rsort_perm|apply rsort_sorted]).
  set (s := rsort l) in *.
  assert (Ls : length s = length l) by (symmetry; apply Permutation_length; apply Ho).
  destruct (c34 eps [/ 2] ops s) as (_ & _ & G).
  - constructor; [lra|constructor].
  - reflexivity.
  - exact Ho.
  - fold l. intros E. rewrite E in Hl. cbn in Hl. lia.
  - fold l. cbn. lia.
  - exists (interpolate s (INR (length l - 1) * / 2)). split; [apply (G 0%nat); reflexivity|].
    assert (W : forall i, (0 < i)%nat -> (S i < length l)%nat -> lo <= nth i s 0 <= hi)
      by (intros i A B; apply (middle_within lo hi l s i Hb Ho A); lia).
    unfold interpolate. 
    assert (C : length l = 3%nat \/ length l = 4%nat \/ length l = 5%nat) by lia.
    destruct C as [C|[C|C]]; rewrite C in *; cbn [Nat.sub].
    + replace (INR 2 * / 2) with 1 by (cbn; lra). rewrite (part_is 1 1) by lra. change (Z.to_nat 1) with 1%nat.
      pose proof (W 1%nat ltac:(lia) ltac:(lia)). lra.
    + replace (INR 3 * / 2) with (3 / 2) by (cbn; lra). rewrite (part_is (3 / 2) 1) by lra. change (Z.to_nat 1) with 1%nat.
      pose proof (W 1%nat ltac:(lia) ltac:(lia)). pose proof (W 2%nat ltac:(lia) ltac:(lia)). lra.
    + replace (INR 4 * / 2) with 2 by (cbn; lra). rewrite (part_is 2 2) by lra. change (Z.to_nat 2) with 2%nat.
      pose proof (W 2%nat ltac:(lia) ltac:(lia)). lra.
Qed.

(** @ex C116_few_partial_ex: four values, one of which is a million. *)
Lemma c116_few_partial_ex : let l := since_clear (pushes [1; 1000000; 3; 2]) in
  (3 <= length l <= 5)%nat /\ but_one_within 1 3 l.
Proof.
  cbv zeta. rewrite since_clear_pushes. split; [cbn; lia|]. exists [1], 1000000, [3; 2]. split; [reflexivity|]. cbn. repeat constructor; lra.
Qed.

Lemma outlier_run lin M : 0 < M -> mk_h (p2_run lin far_any 5 (p2_delta [/ 2]) [- M; 1; 1; 1; 1] [0]) 2%nat = 1 - (1 + M) / 9.
Proof.
  intros HM. unfold p2_run; cbn [fold_left]; unfold p2_push.
  set (h := upd (upd _ 0 _) _ _).
  assert (Hh : forall i, (i < 5)%nat -> h i = nth i [- M; 1; 1; 1; 1] 0).
  { intros i Hi; unfold h, upd; cbn.
    do 5 (destruct i as [|i]; [cbn; try reflexivity;
      first [rewrite Rmin_right by lra; reflexivity|rewrite Rmax_right by lra; reflexivity]|]); lia. }
  assert (Hk : p2_below 5 h 0 = 1%nat).
  { unfold p2_below; cbn [seq filter]; rewrite !Hh by lia; cbn [nth].
    repeat (destruct (Rle_dec _ _); try lra); reflexivity. }
  rewrite Hk; cbn [Nat.min Nat.sub mk_h seq].
  set (n := fun i => if Nat.ltb i 1 then _ else _).
  set (d := fun i => _ + _).
  assert (Hd : forall i, (i < 5)%nat -> d i = nth i [1; 9/4; 7/2; 19/4; 6] 0).
  { intros i Hi; unfold d, p2_delta; cbn [mk_d p2_start].
    do 5 (destruct i as [|i]; [cbn; lra|]); lia. }
  assert (Hn : forall i, (i < 5)%nat -> n i = nth i [1; 3; 4; 5; 6]%Z 0%Z).
  { intros i Hi; unfold n; do 5 (destruct i as [|i]; [reflexivity|]); lia. }
  clearbody h n d; clear Hk; cbn [fold_left].
  rewrite (adjust_down lin far_any d n h 1 (1 - (1 + M) / 3)).
  2:{ unfold p2_sign, far_any; rewrite Hd, !Hn by lia; cbn [nth Nat.sub Nat.add].
      destruct (Rlt_dec 0 (9/4 - 3)); [lra|]; destruct (Rlt_dec 0 (3 - 9/4)); [|lra].
      destruct (Z_lt_dec 1 (3 - 1)); [reflexivity|lia]. }
  2:{ unfold p2_height, p2_parabolic; cbn [Nat.add Nat.sub].
    rewrite !Hh, !Hn by lia; cbn [nth].
    replace (1 + _) with (1 - (1 + M) / 3) by (cbn; field).
    destruct (Rlt_dec (- M) (1 - (1 + M) / 3)); [|lra]; destruct (Rlt_dec (1 - (1 + M) / 3) 1); [reflexivity|lra]. }
  set (n2 := upd n 1 _); set (h2 := upd h 1 _).
  assert (Hn2 : forall i, (i < 5)%nat -> n2 i = nth i [1; 2; 4; 5; 6]%Z 0%Z).
  { intros i Hi; unfold n2, upd; do 5 (destruct i as [|i]; [cbn; rewrite ?Hn by lia; reflexivity|]); lia. }
  assert (Hh2 : forall i, (i < 5)%nat -> h2 i = nth i [- M; 1 - (1 + M) / 3; 1; 1; 1] 0).
  { intros i Hi; unfold h2, upd; do 5 (destruct i as [|i]; [cbn; rewrite ?Hh by lia; reflexivity|]); lia. }
  clearbody n2 h2.
  rewrite (adjust_down lin far_any d n2 h2 2 (1 - (1 + M) / 9)).
  2:{ unfold p2_sign, far_any; rewrite Hd, !Hn2 by lia; cbn [nth Nat.sub Nat.add].
      destruct (Rlt_dec 0 (7/2 - 4)); [lra|]; destruct (Rlt_dec 0 (4 - 7/2)); [|lra].
      destruct (Z_lt_dec 1 (4 - 2)); [reflexivity|lia]. }
  2:{ unfold p2_height, p2_parabolic; cbn [Nat.add Nat.sub].
    rewrite !Hh2, !Hn2 by lia; cbn [nth].
    set (w := 1 - (1 + M) / 3).
    replace (1 + _) with (1 - (1 + M) / 9) by (unfold w; cbn; field).
    unfold w.
    destruct (Rlt_dec (1 - (1 + M) / 3) (1 - (1 + M) / 9)); [|lra]; destruct (Rlt_dec (1 - (1 + M) / 9) 1); [reflexivity|lra]. }
  unfold p2_adjust; destruct (Z.eq_dec _ 0); cbn [snd]; unfold upd; cbn [Nat.eqb]; reflexivity.
Qed.

(** @prop C116_refuted: for every bound there are six values, five of them 0 or 1
    and therefore with a median between 0 and 1, whose median estimate is below the
    negative of that bound. *)
Lemma c116_refuted : forall B : R, exists l : list R,
  length l = 6%nat /\ but_one_within 0 1 l /\
  (forall s, order_statistics l s -> 0 <= (nth 2 s 0 + nth 3 s 0) / 2 <= 1) /\
  forall eps, exists v, psq_get (exact eps) (rqs eps [/ 2]) (run_psq eps [/ 2] (pushes l)) 1 = Some (Fin v) /\ v < - B.
Proof.
  intros B. set (M := 9 * Rabs B + 9). assert (HM : 9 <= M) by (pose proof (Rabs_pos B); unfold M; lra).
  assert (Hb : but_one_within 0 1 [1; - M; 1; 1; 1; 0]) by (exists [1], (- M), [1; 1; 1; 0]; split; [reflexivity|]; cbn; repeat constructor; lra).
  exists [1; - M; 1; 1; 1; 0]. split; [reflexivity|]. split; [exact Hb|]. split.
  { intros s Hs. assert (Ls : length s = 6%nat) by (rewrite <- (Permutation_length (proj1 Hs)); reflexivity).
    pose proof (middle_within 0 1 _ s 2 Hb Hs ltac:(lia) ltac:(lia)). pose proof (middle_within 0 1 _ s 3 Hb Hs ltac:(lia) ltac:(lia)). lra. }
  intros eps. exists (1 - (1 + M) / 9). split; [|pose proof (Rle_abs B); unfold M; lra].
  destruct (c38_partial eps [/ 2] (pushes [1; - M; 1; 1; 1; 0]) [- M; 1; 1; 1; 1]) as (lin & _ & _ & E); rewrite ?since_clear_pushes; try (cbn; lia).
  { reflexivity. }
  { reflexivity. }
  { split; [cbn; apply perm_swap|cbn; repeat constructor; lra]. }
  rewrite since_clear_pushes in E; cbv zeta in E. change (2 * length [/ 2] + 3)%nat with 5%nat in E; cbn [firstn skipn] in E.
  set (m := p2_run _ _ _ _ _ _) in E.
  assert (E2 : nth_error (psq_parameters (exact eps) (run_psq eps [/ 2] (pushes [1; - M; 1; 1; 1; 0]))) (2 * 1) = Some (Z.to_N (mk_n m 2%nat), Fin (mk_h m 2%nat)))
    by (rewrite E; reflexivity).
  unfold m in E2. rewrite outlier_run in E2 by lra. eapply (get_parameter (exact eps)); [|exact E2].
  rewrite run_exact, PsquareGeneric.st_count by reflexivity. rewrite since_clear_pushes. cbn. lia.
Qed.

Lemma adjust_move lin d n h i s y : p2_sign far_any d n i = s -> s <> 0%Z -> p2_height lin n h i s = y ->
  p2_adjust lin far_any d (n, h) i = (upd n i (n i + s)%Z, upd h i y).
Proof. intros E N H. unfold p2_adjust. rewrite E, H. destruct (Z.eq_dec s 0); [contradiction|reflexivity]. Qed.
Lemma adjust_stay lin d n h i : p2_sign far_any d n i = 0%Z -> p2_adjust lin far_any d (n, h) i = (n, h).
Proof. intros E. unfold p2_adjust. rewrite E. destruct (Z.eq_dec 0 0); [reflexivity|congruence]. Qed.

(** The arrays hold these elements. *)
Definition holds {A} (f : nat -> A) (l : list A) (d : A) : Prop := forall i, (i < 5)%nat -> f i = nth i l d.

Lemma holds_upd {A} (f : nat -> A) l d i v : holds f l d -> length l = 5%nat -> (i < 5)%nat -> holds (upd f i v) (aset l i v) d.
Proof.
  intros H Hl Hi j Hj. unfold upd. destruct (Nat.eqb_spec j i) as [->|N].
  - rewrite nth_aset_eq by lia. reflexivity.
  - rewrite nth_aset_neq by exact N. apply H. exact Hj.
Qed.

(** The markers after a push of 0, before they are adjusted. *)
Lemma push_zero lin m hl nl dl k : holds (mk_h m) hl 0 -> holds (mk_n m) nl 0%Z -> holds (mk_d m) dl 0 ->
  length hl = 5%nat -> nth 0 hl 0 = 0 -> 0 <= nth 4 hl 0 ->
  length (filter (fun i => if Rle_dec (nth i hl 0) 0 then true else false) (seq 0 5)) = k -> (k < 5)%nat ->
  exists n h d, holds h hl 0 /\
    (forall i, (i < 5)%nat -> n i = if Nat.ltb i k then nth i nl 0%Z else (nth i nl 0 + 1)%Z) /\
    (forall i, (i < 5)%nat -> d i = nth i dl 0 + p2_delta [/ 2] i) /\
    let nh := fold_left (p2_adjust lin far_any d) [1; 2; 3]%nat (n, h) in
    p2_push lin far_any 5 (p2_delta [/ 2]) m 0 = Markers (fst nh) (snd nh) d.
Proof.
  intros Hh Hn Hd Hl H0 H4 Hk K5. unfold p2_push.
  set (h := upd (upd (mk_h m) 0 _) _ _).
  assert (Eh : holds h hl 0).
  { intros i Hi. unfold h. rewrite (Hh 0%nat), (Hh (5 - 1)%nat), H0 by lia. change (5 - 1)%nat with 4%nat.
    destruct (Nat.eq_dec i 4) as [->|N4]; [rewrite upd_same, Rmax_right by exact H4; reflexivity|].
    rewrite upd_other by exact N4. destruct (Nat.eq_dec i 0) as [->|N0]; [rewrite upd_same, Rmin_left by lra; lra|].
    rewrite upd_other by exact N0. apply Hh. exact Hi. }
  assert (Ek : p2_below 5 h 0 = k).
  { unfold p2_below. rewrite <- Hk. f_equal. apply filter_ext_in. intros i Hi. apply in_seq in Hi. rewrite Eh by lia. reflexivity. }
  rewrite Ek. replace (Nat.min (5 - 1) k) with k by lia. change (seq 1 (5 - 2)) with [1; 2; 3]%nat.
  eexists _, h, _. split; [exact Eh|]. split; [|split; [|reflexivity]].
  - intros i Hi. cbv beta. rewrite (Hn i Hi). reflexivity.
  - intros i Hi. cbv beta. rewrite (Hd i Hi). reflexivity.
Qed.

Ltac decide_all := repeat match goal with
  | |- context [Rlt_dec ?a ?b] => destruct (Rlt_dec a b); try (exfalso; lra)
  | |- context [Rle_dec ?a ?b] => destruct (Rle_dec a b); try (exfalso; lra)
  | |- context [Z_lt_dec ?a ?b] => destruct (Z_lt_dec a b); try (exfalso; lia) end.
Ltac update H i v := let X := fresh in
  pose proof (holds_upd _ _ _ i v H eq_refl ltac:(lia)) as X; clear H; rename X into H.
Ltac five := let i := fresh "i" in let H := fresh "H" in intros i H;
  do 5 (destruct i as [|i]; [cbn; try reflexivity; try lra|]); exfalso; lia.

Lemma zeros_start : let m := p2_run code_linear far_any 5 (p2_delta [/ 2]) [0; 0; 0; 0; 1] [0; 0; 0] in mk_h m 0%nat < mk_h m 1%nat.
Proof.
  cbv zeta. unfold p2_run. cbn [fold_left].
  set (m0 := p2_start 5 _ _).
  destruct (push_zero code_linear m0 [0; 0; 0; 0; 1] [1; 2; 3; 4; 5]%Z [1; 2; 3; 4; 5] 4) as (n & h & d & Hh & Hn & Hd & ->).
  { five. } { five. } { intros i Hi. unfold m0, p2_start, mk_d, p2_delta. do 5 (destruct i as [|i]; [cbn; lra|]). lia. }
  { reflexivity. } { reflexivity. } { cbn. lra. } { cbn. decide_all; reflexivity. } { lia. }
  assert (Hd' : holds d [1; 9/4; 7/2; 19/4; 6] 0) by (intros i Hi; rewrite (Hd i Hi); unfold p2_delta; do 5 (destruct i as [|i]; [cbn; lra|]); lia).
  assert (Hn' : holds n [1; 2; 3; 4; 6]%Z 0%Z) by (intros i Hi; rewrite (Hn i Hi); do 5 (destruct i as [|i]; [reflexivity|]); lia).
  clear Hn Hd m0. cbn [fold_left].
  rewrite adjust_stay by (unfold p2_sign, far_any; rewrite Hd', !Hn' by lia; cbn; decide_all; reflexivity).
  rewrite adjust_stay by (unfold p2_sign, far_any; rewrite Hd', !Hn' by lia; cbn; decide_all; reflexivity).
  rewrite (adjust_move _ d n h 3 1 (1 / 3)).
  2:{ unfold p2_sign, far_any; rewrite Hd', !Hn' by lia; cbn; decide_all; reflexivity. }
  2:{ lia. }
  2:{ unfold p2_height, p2_parabolic. cbn [Nat.add Nat.sub]. rewrite !Hh, !Hn' by lia. cbn [nth].
      replace (0 + _) with (1 / 3) by (cbn; field). decide_all. reflexivity. }
  rewrite Hn' by lia. change (nth 3 [1; 2; 3; 4; 6]%Z 0%Z + 1)%Z with 5%Z.
  update Hn' 3%nat 5%Z. update Hh 3%nat (1 / 3).
  cbn [aset] in Hn', Hh. cbn [fst snd].
  set (m1 := Markers _ _ _).
  destruct (push_zero code_linear m1 [0; 0; 0; 1 / 3; 1] [1; 2; 3; 5; 6]%Z [1; 9/4; 7/2; 19/4; 6] 3) as (n1 & h1 & d1 & Hh1 & Hn1 & Hd1 & ->);
    [exact Hh|exact Hn'|exact Hd'|reflexivity|reflexivity|cbn; lra|cbn; decide_all; reflexivity|lia|].
  clear Hn' Hh Hd'. clearbody m1. clear m1 n h d.
  assert (Hd1' : holds d1 [1; 5/2; 4; 11/2; 7] 0) by (intros i Hi; rewrite (Hd1 i Hi); unfold p2_delta; do 5 (destruct i as [|i]; [cbn; lra|]); lia).
  assert (Hn1' : holds n1 [1; 2; 3; 6; 7]%Z 0%Z) by (intros i Hi; rewrite (Hn1 i Hi); do 5 (destruct i as [|i]; [reflexivity|]); lia).
  clear Hn1 Hd1. cbn [fold_left].
  rewrite adjust_stay by (unfold p2_sign, far_any; rewrite Hd1', !Hn1' by lia; cbn; decide_all; reflexivity).
  rewrite (adjust_move _ d1 n1 h1 2 1 (1 / 18)).
  2:{ unfold p2_sign, far_any; rewrite Hd1', !Hn1' by lia; cbn; decide_all; reflexivity. }
  2:{ lia. }
  2:{ unfold p2_height, p2_parabolic. cbn [Nat.add Nat.sub]. rewrite !Hh1, !Hn1' by lia. cbn [nth].
      replace (0 + _) with (1 / 18) by (cbn; field). decide_all. reflexivity. }
  rewrite Hn1' by lia. change (nth 2 [1; 2; 3; 6; 7]%Z 0%Z + 1)%Z with 4%Z.
  update Hn1' 2%nat 4%Z. update Hh1 2%nat (1 / 18).
  cbn [aset] in Hn1', Hh1. set (n2 := upd n1 2 _) in *. set (h2 := upd h1 2 _) in *. clearbody n2 h2. clear n1 h1.
  set (w := code_linear (-1) (1 / 3) (1 / 18) (-2)).
  rewrite (adjust_move _ d1 n2 h2 3 (-1) w).
  2:{ unfold p2_sign, far_any; rewrite Hd1', !Hn1' by lia; cbn; decide_all; reflexivity. }
  2:{ lia. }
  2:{ unfold p2_height, p2_parabolic. cbn [Nat.add Nat.sub]. change (Z.to_nat (Z.of_nat 3 + -1)) with 2%nat.
      rewrite !Hh1, !Hn1' by lia. cbn [nth].
      change (4 - 6)%Z with (-2)%Z. fold w.
      match goal with |- context [Rlt_dec (1 / 18) ?y] => assert (Ey : y = 1 / 54) by (cbn; field) end. rewrite Ey. decide_all. reflexivity. }
  assert (Hw : 0 < w) by (unfold w, code_linear; change (-2 mod Z.of_N szmod)%Z with 18446744073709551614%Z; lra).
  rewrite Hn1' by lia. change (nth 3 [1; 2; 4; 6; 7]%Z 0%Z + -1)%Z with 5%Z.
  update Hn1' 3%nat 5%Z. update Hh1 3%nat w.
  cbn [aset] in Hn1', Hh1. cbn [fst snd]. clearbody w.
  set (m2 := Markers _ _ _).
  destruct (push_zero code_linear m2 [0; 0; 1 / 18; w; 1] [1; 2; 4; 5; 7]%Z [1; 5/2; 4; 11/2; 7] 2) as (n & h & d & Hh & Hn & Hd & ->);
    [exact Hh1|exact Hn1'|exact Hd1'|reflexivity|reflexivity|cbn; lra|cbn; decide_all; reflexivity|lia|].
  clear Hn1' Hh1 Hd1'. clearbody m2. clear m2 n2 h2 d1.
  assert (Hd' : holds d [1; 11/4; 9/2; 25/4; 8] 0) by (intros i Hi; rewrite (Hd i Hi); unfold p2_delta; do 5 (destruct i as [|i]; [cbn; lra|]); lia).
  assert (Hn' : holds n [1; 2; 5; 6; 8]%Z 0%Z) by (intros i Hi; rewrite (Hn i Hi); do 5 (destruct i as [|i]; [reflexivity|]); lia).
  clear Hn Hd. cbn [fold_left].
  rewrite (adjust_move _ d n h 1 1 (1 / 108)).
  2:{ unfold p2_sign, far_any; rewrite Hd', !Hn' by lia; cbn; decide_all; reflexivity. }
  2:{ lia. }
  2:{ unfold p2_height, p2_parabolic. cbn [Nat.add Nat.sub]. rewrite !Hh, !Hn' by lia. cbn [nth].
      replace (0 + _) with (1 / 108) by (cbn; field). decide_all. reflexivity. }
  assert (K : forall dd nh i j, j <> i -> snd (p2_adjust code_linear far_any dd nh i) j = snd nh j).
  { intros dd [a b] i j N. unfold p2_adjust. destruct (Z.eq_dec _ 0); [reflexivity|]. cbn [snd]. apply upd_other. exact N. }
  cbn [mk_h]. rewrite !K by lia. cbn [snd]. rewrite upd_same, upd_other, Hh by lia. cbn. lra.
Qed.

Lemma zeros_sorted M n : 0 <= M -> rsort (firstn 5 ([0; 0; 0; 0; M] ++ repeat 0 n)) = [0; 0; 0; 0; M].
Proof. intros H. cbn [firstn app]. symmetry. apply order_statistics_unique. split; [reflexivity|].
  repeat match goal with |- StronglySorted _ [] => apply SSorted_nil | |- StronglySorted _ (_ :: _) => apply SSorted_cons | |- Forall _ [] => apply Forall_nil | |- Forall _ (_ :: _) => apply Forall_cons end; lra.
Qed.

Lemma zeros_above eps n : (N.of_nat (n + 8) < szmod)%N ->
  let m := run_markers eps [/ 2] ([0; 0; 0; 0; 1] ++ repeat 0 (n + 3)) in 0 <= mk_h m 0%nat /\ mk_h m 0%nat < mk_h m 1%nat.
Proof.
  intros Hs. cbv zeta. 
  assert (HL : (Z.of_nat (parameter_length (exact eps) (map Fin [/ 2] : list (exact eps))) < M64)%Z) by reflexivity.
  assert (Hr : forall k, (N.of_nat (k + 5) < szmod)%N -> 0 <= mk_h (run_markers eps [/ 2] ([0; 0; 0; 0; 1] ++ repeat 0 k)) 0%nat <= 0).
  { intros k Hk. set (l := [0; 0; 0; 0; 1] ++ repeat 0 k).
    assert (Ll : length l = (k + 5)%nat) by (unfold l; rewrite app_length, repeat_length; cbn; lia).
    destruct (markers_extremes eps [/ 2] HL l 0 1) as [A _]; [rewrite Ll; change (parameter_length _ _) with 5%nat; lia|rewrite Ll; exact Hk| |].
    { intros x Hx. unfold l in Hx. apply in_app_or in Hx. destruct Hx as [Hx|Hx]; [cbn in Hx; lra|apply repeat_spec in Hx; lra]. }
    split; [exact A|]. unfold l. clear A Ll l. induction k as [|k IH].
    - unfold run_markers. change (parameter_length _ _) with 5%nat. rewrite zeros_sorted by lra. cbn. lra.
    - cbn [repeat]. rewrite repeat_cons, app_assoc.
      set (l := [0; 0; 0; 0; 1] ++ repeat 0 k) in *. assert (Ll : length l = (k + 5)%nat) by (unfold l; rewrite app_length, repeat_length; cbn; lia).
      rewrite run_markers_snoc by (rewrite Ll; change (parameter_length _ _) with 5%nat; lia).
      destruct (long_exact eps [/ 2] HL l) as (_ & G & Hn); [rewrite Ll; change (parameter_length _ _) with 5%nat; lia|rewrite Ll; lia|].
      destruct (push_exact eps [/ 2] HL (N.of_nat (length l)) (run_markers eps [/ 2] l) 0) as (_ & _ & _ & _ & E & _);
        [rewrite Ll; change (parameter_length _ _) with 5%nat; lia|rewrite Ll; lia|exact G|rewrite Hn; lia|].
      cbv zeta in E. rewrite E. apply Rmin_l. }
  split; [apply Hr; lia|]. induction n as [|n IH].
  - unfold run_markers. change (parameter_length _ _) with 5%nat. rewrite zeros_sorted by lra. apply zeros_start.
  - cbn [Nat.add repeat]. rewrite repeat_cons, app_assoc.
    assert (Ll : length ([0; 0; 0; 0; 1] ++ repeat 0 (n + 3)) = (n + 8)%nat) by (rewrite app_length, repeat_length; cbn; lia).
    apply push_above; [exact HL|rewrite Ll; change (parameter_length _ _) with 5%nat; lia|rewrite Ll; lia|apply Hr; lia|apply IH; lia].
Qed.

Lemma zeros_scaled M k : map (fun x => M * x + 0) (repeat 0 k) = repeat 0 k.
Proof. induction k as [|k IH]; [reflexivity|]. cbn [repeat map]. rewrite IH. f_equal. lra. Qed.

(** @prop C116_any_number_refuted: nor does a larger number of values help: however
    many zeros are pushed and whatever the bound, there is a single value that makes
    the median estimate of the zeros and this value exceed the bound. *)
Lemma c116_any_number_refuted : forall (n : nat) (B : R), (N.of_nat (n + 8) < szmod)%N ->
  exists M, let l := [0; 0; 0; 0; M] ++ repeat 0 (n + 3) in
  but_one_within 0 0 l /\
  forall eps, exists v, psq_get (exact eps) (rqs eps [/ 2]) (run_psq eps [/ 2] (pushes l)) 1 = Some (Fin v) /\ B < v.
Proof.
  intros n B Hs. set (l1 := [0; 0; 0; 0; 1] ++ repeat 0 (n + 3)).
  assert (Ll : length l1 = (n + 8)%nat) by (unfold l1; rewrite app_length, repeat_length; cbn; lia).
  set (r := mk_h (run_markers 0 [/ 2] l1) 2%nat).
  assert (HL : forall eps, (Z.of_nat (parameter_length (exact eps) (map Fin [/ 2] : list (exact eps))) < M64)%Z) by reflexivity.
  assert (Hr : 0 < r).
  { destruct (zeros_above 0 n Hs) as [A1 A2]. fold l1 in A1, A2.
    destruct (long_exact 0 [/ 2] (HL 0) l1) as (_ & G & _); [rewrite Ll; change (parameter_length _ _) with 5%nat; lia|rewrite Ll; lia|].
    pose proof (gd_sorted _ _ _ _ G 1%nat ltac:(change (parameter_length _ _) with 5%nat; lia)). unfold r. lra. }
  set (M := (Rabs B + 1) / r). exists M. cbv zeta.
  assert (HM : 0 < M) by (unfold M; apply Rdiv_lt_0_compat; [pose proof (Rabs_pos B); lra|exact Hr]).
  assert (Em : map (fun x => M * x + 0) l1 = [0; 0; 0; 0; M] ++ repeat 0 (n + 3)).
  { unfold l1. rewrite map_app. f_equal; [cbn; repeat (f_equal; try lra)|].
    apply zeros_scaled. }
  split.
  - exists [0; 0; 0; 0], M, (repeat 0 (n + 3)). split; [reflexivity|]. apply Forall_forall. intros x Hx. apply in_app_or in Hx.
    destruct Hx as [Hx|Hx]; [cbn in Hx; lra|apply repeat_spec in Hx; lra].
  - intros eps. exists (M * r + 0).
    assert (Hb : B < M * r + 0) by (unfold M; replace ((Rabs B + 1) / r * r) with (Rabs B + 1) by (field; lra); pose proof (Rle_abs B); lra).
    split; [|exact Hb]. rewrite run_exact, since_clear_pushes, <- Em.
    assert (Hl : (parameter_length (exact eps) (map Fin [/ 2] : list (exact eps)) < length (map (fun x => (M * x + 0)%R) l1))%nat)
      by (rewrite map_length, Ll; change (parameter_length _ _) with 5%nat; lia).
    assert (Hs' : (N.of_nat (length (map (fun x => (M * x + 0)%R) l1)) < szmod)%N) by (rewrite map_length, Ll; exact Hs).
    etransitivity; [exact (get_long eps [/ 2] (HL eps) _ 1 Hl Hs' ltac:(cbn; lia))|]. f_equal. f_equal.
    pose proof (run_sim eps [/ 2] M 0 HM l1 ltac:(rewrite Ll; change (parameter_length _ _) with 5%nat; lia)) as S.
    destruct (S 2%nat ltac:(change (parameter_length _ _) with 5%nat; lia)) as (_ & _ & Sh). exact Sh.
Qed.

(** @prop C116_double_refuted: the same in double: five values 0 or 1, one value of
    minus a million, and a median estimate of minus 111110. *)
Lemma c116_double_refuted : exists l : list Z,
  length l = 6%nat /\ but_one_within 0 1 (map IZR l) /\
  let q := ratio_value b64num (1 # 2) in
  let s := run (psq_push b64num [q]) (psq_clear b64num [q]) (psq_init b64num [q]) (pushes (map b64_of_Z l)) in
  match psq_get_default b64num [q] s with Some v => SFltb v (b64_of_Z (-111110)) = true | None => False end.
Proof.
  exists [1; -1000000; 1; 1; 1; 0]%Z. split; [reflexivity|]. split.
  - exists [1], (-1000000), [1; 1; 1; 0]. split; [reflexivity|]. cbn. repeat constructor; lra.
  - vm_compute. reflexivity.
Qed.

(** @ex C116_any_number_refuted_ex: a thousand zeros. *)
Lemma c116_any_number_ex : (N.of_nat (993 + 8) < szmod)%N.
Proof. reflexivity. Qed.

(** @prop C116_double_many_refuted: in double, 999 zeros and one value of 10^200 have
    a median estimate above 10^190. *)
Lemma c116_double_many_refuted : exists l : list Z,
  length l = 1000%nat /\ but_one_within 0 0 (map IZR l) /\
  let q := ratio_value b64num (1 # 2) in
  let s := run (psq_push b64num [q]) (psq_clear b64num [q]) (psq_init b64num [q]) (pushes (map b64_of_Z l)) in
  match psq_get_default b64num [q] s with Some v => SFltb (b64_of_Z (10 ^ 190)) v = true | None => False end.
Proof.
  exists ([0; 0; 0; 0; 10 ^ 200] ++ repeat 0 995)%Z. split; [reflexivity|]. split.
  - exists (map IZR [0; 0; 0; 0]%Z), (IZR (10 ^ 200)), (map IZR (repeat 0%Z 995)). split; [rewrite map_app; reflexivity|].
    rewrite <- map_app. apply Forall_forall. intros x Hx. apply in_map_iff in Hx. destruct Hx as (z & <- & Hz).
    assert (z = 0%Z) by (apply in_app_or in Hz; destruct Hz as [Hz|Hz]; [cbn in Hz; lia|apply repeat_spec in Hz; exact Hz]). subst z. lra.
  - vm_compute. reflexivity.
Qed.
