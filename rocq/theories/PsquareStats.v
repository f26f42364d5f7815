(** * P-square in exact arithmetic: histories and observers *)

From Coq Require Import Reals ZArith NArith Bool List Lia Lra Psatz
  Sorting.Sorted Sorting.Permutation.
From Flocq Require Import Core.Raux.
From Verif Require Import Arith History HistoryLemmas StatsLemmas SpecPsquare Psquare
  PsquareLemmas PsquareGeneric SpecOrder Orders PsquareExact.
Import ListNotations.
Local Open Scope R_scope.

(** ** Sorting reals *)
Fixpoint rrins (v : R) (r : list R) : list R :=
  match r with
  | [] => [v]
  | y :: t => if Rlt_bool v y then y :: rrins v t else v :: y :: t
  end.
Definition rdesc (l : list R) : list R := fold_left (fun r v => rrins v r) l [].
Definition rsort (l : list R) : list R := rev (rdesc l).

Section Sort.
Variable eps : R.
Notation F := (exact eps).

Lemma desc_fins l : desc F (map Fin l) = map Fin (rdesc l).
Proof.
  unfold desc, rdesc.
  change (@nil (carrier F)) with (map Fin (@nil R)).
  generalize (@nil R) as r; induction l as [|x l IH]; intros r; [reflexivity|].
  cbn [map fold_left]; rewrite <- IH; f_equal.
  induction r as [|y t IHr]; [reflexivity|]; cbn.
  destruct (Rlt_bool x y); [cbn; f_equal; exact IHr|reflexivity].
Qed.

Lemma asc_fins l : asc F (map Fin l) = map Fin (rsort l).
Proof. unfold asc, rsort; rewrite desc_fins, map_rev; reflexivity. Qed.
End Sort.

Lemma rrins_perm v r : Permutation (v :: r) (rrins v r).
Proof.
  induction r as [|y t IH]; [reflexivity|]; cbn.
  destruct (Rlt_bool v y); [|reflexivity].
  rewrite perm_swap; constructor; exact IH.
Qed.

Lemma rdesc_snoc l v : rdesc (l ++ [v]) = rrins v (rdesc l).
Proof. unfold rdesc; rewrite fold_left_app; reflexivity. Qed.

Lemma rsort_perm l : Permutation l (rsort l).
Proof.
  unfold rsort; rewrite <- Permutation_rev.
  induction l as [|v l IH] using rev_ind; [reflexivity|].
  rewrite rdesc_snoc, <- rrins_perm, <- IH, Permutation_app_comm; reflexivity.
Qed.

Lemma rsort_length l : length (rsort l) = length l.
Proof. symmetry; apply Permutation_length, rsort_perm. Qed.

Lemma StronglySorted_snoc {A} (Q : A -> A -> Prop) l x :
  StronglySorted Q l -> Forall (fun y => Q y x) l -> StronglySorted Q (l ++ [x]).
Proof.
  intros H1 H2; induction H1 as [|y l H IH Hy]; cbn; [constructor; constructor|].
  inversion H2; subst; constructor; [apply IH; assumption|].
  apply Forall_app; split; [exact Hy|constructor; auto].
Qed.

Lemma StronglySorted_rev {A} (Q : A -> A -> Prop) l :
  StronglySorted Q l -> StronglySorted (fun a b => Q b a) (rev l).
Proof.
  induction 1 as [|y l H IH Hy]; cbn; [constructor|].
  apply StronglySorted_snoc; [exact IH|].
  apply Forall_rev; exact Hy.
Qed.

Lemma rsort_sorted l : StronglySorted Rle (rsort l).
Proof.
  assert (G : StronglySorted (fun a b => b <= a) (rdesc l)).
  { induction l as [|v l IH] using rev_ind; [constructor|].
    rewrite rdesc_snoc; revert IH; generalize (rdesc l) as r; clear.
    induction r as [|y t IH]; intros H; cbn; [constructor; constructor|].
    inversion H as [|? ? Ht Hy]; subst.
    destruct (Rlt_bool_spec v y).
    - constructor; [apply IH, Ht|].
      apply Forall_forall; intros z Hz.
      apply (Permutation_in _ (Permutation_sym (rrins_perm v t))) in Hz.
      destruct Hz as [<-|Hz]; [lra|]; rewrite Forall_forall in Hy; apply Hy, Hz.
    - constructor; [exact H|]; constructor; [lra|].
      rewrite Forall_forall in *; intros z Hz; specialize (Hy z Hz); lra. }
  apply StronglySorted_rev in G; exact G.
Qed.

Lemma rsort_spec l : order_statistics l (rsort l).
Proof. split; [apply rsort_perm|apply rsort_sorted]. Qed.

Lemma sorted_perm_unique (a b : list R) :
  StronglySorted Rle a -> StronglySorted Rle b -> Permutation a b -> a = b.
Proof.
  intros Ha; revert b; induction Ha as [|x a Ha IH Hx]; intros b Hb Hp.
  - symmetry; apply Permutation_nil; exact Hp.
  - destruct b as [|y b]; [apply Permutation_sym, Permutation_nil in Hp; discriminate|].
    inversion Hb as [|? ? Hb' Hy]; subst.
    assert (Exy : x = y).
    { rewrite Forall_forall in *.
      assert (H1 : In x (y :: b)) by (eapply Permutation_in; [exact Hp|left; reflexivity]).
      assert (H2 : In y (x :: a))
        by (eapply Permutation_in; [apply Permutation_sym, Hp|left; reflexivity]).
      destruct H1 as [H1|H1]; [congruence|]; destruct H2 as [H2|H2]; [congruence|].
      specialize (Hx y H2); specialize (Hy x H1); lra. }
    subst y; f_equal; apply IH; [exact Hb'|].
    apply Permutation_cons_inv in Hp; exact Hp.
Qed.

Lemma order_statistics_unique l s : order_statistics l s -> s = rsort l.
Proof.
  intros [Hp Hs]; apply sorted_perm_unique; [exact Hs|apply rsort_sorted|].
  rewrite <- Hp; apply rsort_perm.
Qed.

Lemma sorted_nth_le s i j : StronglySorted Rle s -> (i <= j)%nat -> (j < length s)%nat ->
  nth i s 0 <= nth j s 0.
Proof.
  intros H; revert i j; induction H as [|x s H IH Hx]; intros i j Hij Hj; [cbn in Hj; lia|].
  destruct i as [|i], j as [|j]; cbn [nth] in *; try lra; try lia.
  - rewrite Forall_forall in Hx; apply Hx, nth_In; cbn in Hj; lia.
  - apply IH; cbn in Hj; lia.
Qed.

(** ** Interpolation *)
Lemma Int_part_floor r : Int_part r = Zfloor r.
Proof. reflexivity. Qed.

Lemma floor_bounds r : IZR (Zfloor r) <= r < IZR (Zfloor r) + 1.
Proof.
  split; [apply Zfloor_lb|].
  pose proof (Zfloor_ub r) as H; exact H.
Qed.

Lemma interp_between s r : StronglySorted Rle s -> 0 <= r -> r < INR (length s) - 1 ->
  let i := Z.to_nat (Int_part r) in
  (S i < length s)%nat /\ nth i s 0 <= interpolate s r <= nth (S i) s 0.
Proof.
  intros Hs H0 H1 i; unfold interpolate; fold i.
  rewrite Int_part_floor in *.
  pose proof (floor_bounds r) as [B1 B2].
  assert (Hf0 : (0 <= Zfloor r)%Z) by (apply Zfloor_lub; exact H0).
  assert (Hi : (S i < length s)%nat).
  { unfold i; apply Nat2Z.inj_lt; rewrite Nat2Z.inj_succ.
    rewrite Int_part_floor, Z2Nat.id by exact Hf0.
    apply lt_IZR; rewrite succ_IZR, <- INR_IZR_INZ; lra. }
  split; [exact Hi|].
  pose proof (sorted_nth_le s i (S i) Hs ltac:(lia) Hi); nra.
Qed.

Lemma interp_mono s r r' : StronglySorted Rle s -> 0 <= r -> r <= r' ->
  r' < INR (length s) - 1 -> interpolate s r <= interpolate s r'.
Proof.
  intros Hs H0 H1 H2.
  destruct (interp_between s r Hs H0 ltac:(lra)) as [I1 [_ J1]].
  destruct (interp_between s r' Hs ltac:(lra) H2) as [I2 [J2 _]].
  rewrite !Int_part_floor in *.
  pose proof (Zfloor_le r r' H1) as Hf.
  assert (Hf0 : (0 <= Zfloor r)%Z) by (apply Zfloor_lub; exact H0).
  destruct (Z.eq_dec (Zfloor r) (Zfloor r')) as [E|E].
  - unfold interpolate; rewrite (Int_part_floor r), (Int_part_floor r'), E in *.
    pose proof (sorted_nth_le s (Z.to_nat (Zfloor r')) (S (Z.to_nat (Zfloor r'))) Hs
                  ltac:(lia) I2).
    apply Rplus_le_compat_l, Rmult_le_compat_r; lra.
  - apply Rle_trans with (nth (S (Z.to_nat (Zfloor r))) s 0); [exact J1|].
    apply Rle_trans with (nth (Z.to_nat (Zfloor r')) s 0); [|exact J2].
    apply sorted_nth_le; [exact Hs|lia|lia].
Qed.

Section Runs.
Variable eps : R.
Notation F := (exact eps).
Variable rqs : list R.
Notation qs := (map Fin rqs : list F).
Notation L := (parameter_length F qs).
Hypothesis HL64 : (Z.of_nat L < Z.of_N szmod)%Z.

Lemma fits_map (l : list R) : (N.of_nat (length l) < szmod)%N -> fits F (map Fin l).
Proof. unfold fits; rewrite map_length; auto. Qed.

Lemma st_short_exact l : (length l <= L)%nat -> (N.of_nat (length l) < szmod)%N ->
  st F qs (map Fin l) =
  Psq F (N.of_nat (length l)) (positions0 F qs)
      ((map Fin (rsort l) : list F) ++ repeat n0 (L - length l))
      (ps_desired F (psq_init F qs)) (ps_deltas F (psq_init F qs)).
Proof.
  intros H1 H2; rewrite st_short by (rewrite map_length; assumption).
  rewrite asc_fins, map_length; reflexivity.
Qed.

Definition run_markers (l : list R) : markers :=
  p2_run code_linear far_any L (p2_delta rqs) (rsort (firstn L l)) (skipn L l).

Lemma run_markers_snoc l x : (L <= length l)%nat ->
  run_markers (l ++ [x]) = p2_push code_linear far_any L (p2_delta rqs) (run_markers l) x.
Proof.
  intros H; unfold run_markers.
  rewrite firstn_app, skipn_app.
  replace (L - length l)%nat with 0%nat by lia; cbn [firstn skipn].
  rewrite app_nil_r; unfold p2_run; rewrite fold_left_app; reflexivity.
Qed.

Lemma L_ge3 : (3 <= L)%nat.
Proof. rewrite L_eq; lia. Qed.

Lemma start_exact l : length l = L -> (N.of_nat (length l) < szmod)%N ->
  st F qs (map Fin l) = rep eps rqs (N.of_nat L) (run_markers l) /\
  good eps rqs (mk_n (run_markers l)) (mk_h (run_markers l)) /\
  mk_n (run_markers l) (L - 1)%nat = Z.of_nat L.
Proof.
  intros Hl Hs; pose proof L_ge3 as HL3.
  rewrite st_short_exact by lia.
  unfold run_markers; rewrite firstn_all2 by lia; rewrite skipn_all2 by lia.
  unfold p2_run; cbn [fold_left].
  rewrite Hl, Nat.sub_diag; cbn [repeat]; rewrite app_nil_r.
  split; [|split].
  - unfold rep; cbn [p2_start mk_n mk_h mk_d]; f_equal.
    + apply (nth_ext_arr _ _ _ 0%N); [apply positions0_length|].
      intros i Hi; fold (pat (positions0 F qs) i); rewrite pat_positions0 by exact Hi; lia.
    + apply (nth_ext_arr _ _ _ (Fin 0)).
      * rewrite map_length, rsort_length; exact Hl.
      * intros i Hi; exact (map_nth Fin (rsort l) 0 i).
    + cbn [psq_init psq_initialize ps_desired].
      rewrite deltas_exact; unfold repr, arr; rewrite map_map; apply map_ext; intros i.
      unfold n1, nofz, nofsz, nadd, nmul; cbn [exact xnum xlift2].
      apply (f_equal Fin); rewrite IZR_of_nat.
      replace (L - 1)%nat with (2 * (quantile_length F qs + 1))%nat
        by (unfold parameter_length; lia).
      reflexivity.
    + apply deltas_exact.
  - constructor; cbn [p2_start mk_n mk_h mk_d].
    + intros i Hi; lia.
    + lia.
    + lia.
    + intros i Hi; apply sorted_nth_le; [apply rsort_sorted|lia|].
      rewrite rsort_length; lia.
  - cbn [p2_start mk_n]; lia.
Qed.

Lemma long_exact l : (L <= length l)%nat -> (N.of_nat (length l) < szmod)%N ->
  st F qs (map Fin l) = rep eps rqs (N.of_nat (length l)) (run_markers l) /\
  good eps rqs (mk_n (run_markers l)) (mk_h (run_markers l)) /\
  mk_n (run_markers l) (L - 1)%nat = Z.of_nat (length l).
Proof.
  induction l as [|x l IH] using rev_ind; intros H1 H2.
  { pose proof L_ge3; cbn in H1; lia. }
  rewrite length_snoc in *.
  destruct (Nat.eq_dec L (S (length l))) as [E|E].
  - destruct (start_exact (l ++ [x])) as (A & B & C);
      [rewrite length_snoc; lia|rewrite length_snoc; exact H2|].
    rewrite A, <- E; auto.
  - destruct (IH ltac:(lia) ltac:(lia)) as (A & B & C).
    rewrite run_markers_snoc by lia.
    rewrite map_app; cbn [map]; rewrite st_snoc, A.
    destruct (push_exact eps rqs HL64 (N.of_nat (length l)) (run_markers l) x)
      as (P1 & P2 & P3 & _); try lia; try assumption.
    cbv zeta in *; rewrite P1.
    split; [f_equal; lia|]; split; [exact P2|]; rewrite P3; lia.
Qed.

Lemma rep_height c m i d : (i < L)%nat ->
  nth i (ps_heights F (rep eps rqs c m)) d = Fin (mk_h m i).
Proof. intros H; cbn [rep ps_heights]; unfold repr; rewrite nth_arr by exact H; reflexivity. Qed.

Lemma nth_error_nth_some {A} (l : list A) i d : (i < length l)%nat ->
  nth_error l i = Some (nth i l d).
Proof. intros H; apply nth_error_nth'; exact H. Qed.

(** ** get *)
Lemma get_long l i : (L < length l)%nat -> (N.of_nat (length l) < szmod)%N ->
  (i <= length rqs + 1)%nat ->
  psq_get F qs (st F qs (map Fin l)) i = Some (Fin (mk_h (run_markers l) (2 * i))).
Proof.
  intros H1 H2 Hi; destruct (long_exact l ltac:(lia) H2) as (-> & _ & _).
  unfold psq_get; cbn [rep ps_count ps_heights].
  destruct (N.ltb_spec (N.of_nat L) (N.of_nat (length l))); [|lia].
  unfold repr; rewrite (nth_error_nth_some _ _ (Fin 0)) by (rewrite arr_length, L_eq; lia).
  rewrite nth_arr by (rewrite L_eq; lia); reflexivity.
Qed.

Lemma nth_map_fin s i (rest : list F) d : (i < length s)%nat ->
  nth_error (map (Fin : R -> F) s ++ rest) i = Some (Fin (nth i s d)).
Proof.
  intros H; rewrite nth_error_app1 by (rewrite map_length; exact H).
  rewrite nth_error_map, (nth_error_nth_some s i d H); reflexivity.
Qed.

Lemma get_short_mid l i q : l <> [] -> (length l <= L)%nat ->
  (N.of_nat (length l) < szmod)%N ->
  nth_error rqs i = Some q -> 0 <= q < 1 ->
  psq_get F qs (st F qs (map Fin l)) (S i) =
  Some (Fin (interpolate (rsort l) (INR (length l - 1) * q))).
Proof.
  intros Hl H1 H2 Hq Hq1.
  assert (Hn : (0 < length l)%nat) by (destruct l; [congruence|cbn; lia]).
  assert (Hi : (i < length rqs)%nat) by (apply nth_error_Some; congruence).
  rewrite st_short_exact by assumption.
  unfold psq_get; cbn [ps_count ps_heights].
  destruct (N.ltb_spec (N.of_nat L) (N.of_nat (length l))); [lia|].
  destruct (N.ltb_spec 1 (N.of_nat (length l))).
  - change (S i =? 0)%nat with false; cbv iota.
    destruct (Nat.eqb_spec (S i) (1 + quantile_length F qs)) as [E|_].
    { unfold quantile_length in E; rewrite map_length in E; lia. }
    replace (S i - 1)%nat with i by lia.
    rewrite nth_error_map, Hq; cbn [option_map].
    rewrite szsub_small by lia.
    replace (N.of_nat (length l) - 1)%N with (N.of_nat (length l - 1)) by lia.
    unfold nofsz, nmul, nadd, nsub, nfloor, ntosz, n1, nofz; cbn [exact xnum xlift2 xfloor].
    rewrite IZR_of_nat.
    set (r := INR (length l - 1) * q).
    assert (HN : 1 <= INR (length l - 1)) by (apply (le_INR 1); lia).
    assert (Hr0 : 0 <= r) by (unfold r; nra).
    assert (Hr1 : r < INR (length (rsort l)) - 1).
    { rewrite rsort_length; replace (length l) with (S (length l - 1)) by lia.
      rewrite S_INR; unfold r; nra. }
    destruct (interp_between (rsort l) r (rsort_sorted l) Hr0 Hr1) as [Hi2 _].
    rewrite Int_part_floor in Hi2; rewrite rsort_length in Hi2.
    assert (Hf0 : (0 <= Zfloor r)%Z) by (apply Zfloor_lub; exact Hr0).
    assert (Hf1 : Zfloor (r + 1) = (Zfloor r + 1)%Z).
    { apply Zfloor_imp; rewrite !plus_IZR; pose proof (floor_bounds r); lra. }
    unfold xtosz.
    rewrite !Ztrunc_floor by lra; rewrite Hf1.
    destruct (Z.leb_spec 0 (Zfloor r)); [|lia].
    destruct (Z.ltb_spec (Zfloor r) (Z.of_N szmod)); [|lia].
    destruct (Z.leb_spec 0 (Zfloor r + 1)); [|lia].
    destruct (Z.ltb_spec (Zfloor r + 1) (Z.of_N szmod)); [|lia].
    cbn [andb hread].
    replace (N.to_nat (Z.to_N (Zfloor r))) with (Z.to_nat (Zfloor r)) by lia.
    replace (N.to_nat (Z.to_N (Zfloor r + 1))) with (S (Z.to_nat (Zfloor r))) by lia.
    rewrite !(nth_map_fin _ _ _ 0) by (rewrite rsort_length; lia).
    cbn [xlift2]; reflexivity.
  - assert (E : length l = 1%nat) by lia.
    destruct (N.ltb_spec 0 (N.of_nat (length l))); [|lia].
    rewrite szsub_small by lia.
    replace (N.to_nat (N.of_nat (length l) - 1)) with 0%nat by lia.
    rewrite (nth_map_fin _ _ _ 0) by (rewrite rsort_length; lia).
    rewrite E; cbn [Nat.sub INR]; unfold interpolate; rewrite Rmult_0_l.
    rewrite Int_part_floor.
    replace (Zfloor 0) with 0%Z by (symmetry; apply (Zfloor_IZR 0)); cbn [Z.to_nat].
    do 2 f_equal; ring.
Qed.


Lemma get_short_min l : l <> [] -> (length l <= L)%nat -> (N.of_nat (length l) < szmod)%N ->
  psq_get F qs (st F qs (map Fin l)) 0 = Some (Fin (nth 0 (rsort l) 0)).
Proof.
  intros Hl H1 H2.
  assert (Hn : (0 < length l)%nat) by (destruct l; [congruence|cbn; lia]).
  rewrite st_short_exact by assumption.
  unfold psq_get; cbn [ps_count ps_heights].
  destruct (N.ltb_spec (N.of_nat L) (N.of_nat (length l))); [lia|].
  destruct (N.ltb_spec 1 (N.of_nat (length l))).
  - change (0 =? 0)%nat with true; cbv iota.
    apply nth_map_fin; rewrite rsort_length; lia.
  - destruct (N.ltb_spec 0 (N.of_nat (length l))); [|lia].
    rewrite szsub_small by lia.
    replace (N.to_nat (N.of_nat (length l) - 1)) with 0%nat by lia.
    apply nth_map_fin; rewrite rsort_length; lia.
Qed.

Lemma get_short_max l : l <> [] -> (length l <= L)%nat -> (N.of_nat (length l) < szmod)%N ->
  psq_get F qs (st F qs (map Fin l)) (S (length rqs)) =
  Some (Fin (nth (length l - 1) (rsort l) 0)).
Proof.
  intros Hl H1 H2.
  assert (Hn : (0 < length l)%nat) by (destruct l; [congruence|cbn; lia]).
  rewrite st_short_exact by assumption.
  unfold psq_get; cbn [ps_count ps_heights].
  destruct (N.ltb_spec (N.of_nat L) (N.of_nat (length l))); [lia|].
  rewrite szsub_small by lia.
  replace (N.to_nat (N.of_nat (length l) - 1)) with (length l - 1)%nat by lia.
  destruct (N.ltb_spec 1 (N.of_nat (length l))).
  - change (S (length rqs) =? 0)%nat with false; cbv iota.
    unfold quantile_length; rewrite map_length.
    change (1 + length rqs)%nat with (S (length rqs)); rewrite Nat.eqb_refl.
    apply nth_map_fin; rewrite rsort_length; lia.
  - destruct (N.ltb_spec 0 (N.of_nat (length l))); [|lia].
    apply nth_map_fin; rewrite rsort_length; lia.
Qed.

(** The estimate with index [i] as a real number. *)
Definition est (l : list R) (i : nat) : R :=
  if Nat.leb (length l) L
  then match i with
       | O => nth 0 (rsort l) 0
       | S j => if Nat.eqb j (length rqs) then nth (length l - 1) (rsort l) 0
                else interpolate (rsort l) (INR (length l - 1) * nth j rqs 0)
       end
  else mk_h (run_markers l) (2 * i).

Lemma get_est l i : Forall (fun q => 0 <= q < 1) rqs -> l <> [] ->
  (N.of_nat (length l) < szmod)%N -> (i <= length rqs + 1)%nat ->
  psq_get F qs (st F qs (map Fin l)) i = Some (Fin (est l i)).
Proof.
  intros Hq Hl H2 Hi; unfold est.
  destruct (Nat.leb_spec (length l) L) as [H1|H1].
  - destruct i as [|j]; [apply get_short_min; assumption|].
    destruct (Nat.eqb_spec j (length rqs)) as [->|Hj]; [apply get_short_max; assumption|].
    assert (Hjl : (j < length rqs)%nat) by lia.
    apply get_short_mid; try assumption.
    + apply nth_error_nth'; exact Hjl.
    + rewrite Forall_forall in Hq; apply Hq, nth_In, Hjl.
  - apply get_long; assumption.
Qed.

(** Extreme markers *)
Lemma markers_range l i : (L <= length l)%nat -> (N.of_nat (length l) < szmod)%N ->
  (i < L)%nat ->
  mk_h (run_markers l) 0%nat <= mk_h (run_markers l) i <= mk_h (run_markers l) (L - 1)%nat.
Proof.
  intros H1 H2 Hi; destruct (long_exact l H1 H2) as (_ & G & _).
  split; eapply sorted_le; try apply (gd_sorted _ _ _ _ G); lia.
Qed.

Lemma markers_extremes l lo hi : (L <= length l)%nat -> (N.of_nat (length l) < szmod)%N ->
  (forall x, In x l -> lo <= x <= hi) ->
  lo <= mk_h (run_markers l) 0%nat /\ mk_h (run_markers l) (L - 1)%nat <= hi.
Proof.
  induction l as [|x l IH] using rev_ind; intros H1 H2 H.
  { pose proof L_ge3; cbn in H1; lia. }
  rewrite length_snoc in *.
  destruct (Nat.eq_dec L (S (length l))) as [E|E].
  - unfold run_markers; rewrite firstn_all2 by (rewrite length_snoc; lia).
    rewrite skipn_all2 by (rewrite length_snoc; lia).
    unfold p2_run; cbn [fold_left p2_start mk_h].
    assert (G : forall i, (i < L)%nat -> lo <= nth i (rsort (l ++ [x])) 0 <= hi).
    { intros i Hi; apply H; eapply Permutation_in;
        [apply Permutation_sym, rsort_perm|apply nth_In].
      rewrite rsort_length, length_snoc; lia. }
    pose proof L_ge3; split; apply G; lia.
  - destruct (long_exact l ltac:(lia) ltac:(lia)) as (A & B & C).
    destruct (push_exact eps rqs HL64 (N.of_nat (length l)) (run_markers l) x)
      as (_ & _ & _ & _ & P1 & P2); try lia; try assumption.
    cbv zeta in *; rewrite run_markers_snoc by lia; rewrite P1, P2.
    destruct IH as [I1 I2]; [lia|lia|intros y Hy; apply H, in_app_iff; left; exact Hy|].
    assert (lo <= x <= hi) by (apply H, in_app_iff; right; left; reflexivity).
    split; [apply Rmin_glb; lra|apply Rmax_lub; lra].
Qed.

Lemma est_range l i lo hi : Forall (fun q => 0 <= q < 1) rqs -> l <> [] ->
  (N.of_nat (length l) < szmod)%N -> (i <= length rqs + 1)%nat ->
  (forall x, In x l -> lo <= x <= hi) -> lo <= est l i <= hi.
Proof.
  intros Hq Hl H2 Hi H; unfold est.
  assert (Hn : (0 < length l)%nat) by (destruct l; [congruence|cbn; lia]).
  destruct (Nat.leb_spec (length l) L) as [H1|H1].
  - assert (G : forall i, (i < length l)%nat -> lo <= nth i (rsort l) 0 <= hi).
    { intros k Hk; apply H; eapply Permutation_in;
        [apply Permutation_sym, rsort_perm|apply nth_In].
      rewrite rsort_length; lia. }
    destruct i as [|j]; [apply G; lia|].
    destruct (Nat.eqb_spec j (length rqs)) as [->|Hj]; [apply G; lia|].
    assert (Hjq : 0 <= nth j rqs 0 < 1)
      by (rewrite Forall_forall in Hq; apply Hq, nth_In; lia).
    set (q := nth j rqs 0) in *.
    destruct (Nat.eq_dec (length l) 1) as [E1|E1].
    + rewrite E1; cbn [Nat.sub INR]; unfold interpolate; rewrite Rmult_0_l, Int_part_floor.
      replace (Zfloor 0) with 0%Z by (symmetry; apply (Zfloor_IZR 0)); cbn [Z.to_nat].
      specialize (G 0%nat ltac:(lia)); lra.
    + assert (HN : 1 <= INR (length l - 1)) by (apply (le_INR 1); lia).
      destruct (interp_between (rsort l) (INR (length l - 1) * q) (rsort_sorted l)) as [A B].
      * nra.
      * rewrite rsort_length; replace (length l) with (S (length l - 1)) at 2 by lia.
        rewrite S_INR; nra.
      * cbv zeta in *; rewrite rsort_length in A.
        pose proof (G _ (Nat.lt_succ_l _ _ A)); pose proof (G _ A); lra.
  - pose proof (markers_extremes l lo hi ltac:(lia) H2 H).
    pose proof (markers_range l (2 * i) ltac:(lia) H2 ltac:(rewrite L_eq; lia)); lra.
Qed.

Lemma est_mono l i j : Forall (fun q => 0 <= q < 1) rqs -> l <> [] ->
  (N.of_nat (length l) < szmod)%N -> (i <= j)%nat -> (j <= length rqs + 1)%nat ->
  (L < length l)%nat \/ StronglySorted Rle rqs -> est l i <= est l j.
Proof.
  intros Hq Hl H2 Hij Hj Hor; unfold est.
  assert (Hn : (0 < length l)%nat) by (destruct l; [congruence|cbn; lia]).
  destruct (Nat.leb_spec (length l) L) as [H1|H1].
  - destruct Hor as [Hor|Hor]; [lia|].
    assert (R0 : forall k, (k < length rqs)%nat ->
              nth 0 (rsort l) 0 <= interpolate (rsort l) (INR (length l - 1) * nth k rqs 0)
              <= nth (length l - 1) (rsort l) 0).
    { intros k Hk; pose proof (est_range l (S k) (nth 0 (rsort l) 0)
        (nth (length l - 1) (rsort l) 0) Hq Hl H2 ltac:(lia)) as G.
      unfold est in G; destruct (Nat.leb_spec (length l) L); [|lia].
      destruct (Nat.eqb_spec k (length rqs)); [lia|]; apply G.
      intros x Hx; apply (Permutation_in _ (rsort_perm l)) in Hx.
      destruct (In_nth _ _ 0 Hx) as (m & Hm & <-); rewrite rsort_length in Hm.
      split; (apply sorted_nth_le; [apply rsort_sorted|lia|rewrite rsort_length; lia]). }
    assert (Hends : nth 0 (rsort l) 0 <= nth (length l - 1) (rsort l) 0)
      by (apply sorted_nth_le; [apply rsort_sorted|lia|rewrite rsort_length; lia]).
    destruct i as [|i], j as [|j]; try lia; try lra.
    + destruct (Nat.eqb_spec j (length rqs)); [exact Hends|apply R0; lia].
    + destruct (Nat.eqb_spec i (length rqs)), (Nat.eqb_spec j (length rqs)); try lia; try lra.
      * apply R0; lia.
      * assert (Hqq : nth i rqs 0 <= nth j rqs 0) by (apply sorted_nth_le; [exact Hor|lia|lia]).
        assert (Hqj : 0 <= nth j rqs 0 < 1)
          by (rewrite Forall_forall in Hq; apply Hq, nth_In; lia).
        assert (Hqi : 0 <= nth i rqs 0 < 1)
          by (rewrite Forall_forall in Hq; apply Hq, nth_In; lia).
        destruct (Nat.eq_dec (length l) 1) as [E1|E1].
        { rewrite E1; cbn [Nat.sub INR]; rewrite !Rmult_0_l; lra. }
        assert (HN : 1 <= INR (length l - 1)) by (apply (le_INR 1); lia).
        apply interp_mono; [apply rsort_sorted|nra|nra|].
        rewrite rsort_length; replace (length l) with (S (length l - 1)) at 2 by lia.
        rewrite S_INR; nra.
  - destruct (long_exact l ltac:(lia) H2) as (_ & G & _).
    eapply sorted_le; [apply (gd_sorted _ _ _ _ G)|lia|rewrite L_eq; lia].
Qed.

(** ** Affine maps *)
Section Affine.
Variables a b : R.
Hypothesis Ha : 0 < a.
Notation g := (fun x => a * x + b).

Lemma rsort_affine l : rsort (map g l) = map g (rsort l).
Proof.
  unfold rsort; rewrite map_rev; f_equal; unfold rdesc.
  change (fold_left (fun r v => rrins v r) (map g l) (map g []) =
          map g (fold_left (fun r v => rrins v r) l [])).
  generalize (@nil R) as r; induction l as [|x l IH]; intros r; [reflexivity|].
  cbn [map fold_left]; rewrite <- IH; f_equal.
  clear IH; induction r as [|y t IHr]; [reflexivity|]; cbn [map rrins].
  destruct (Rlt_bool_spec (a * x + b) (a * y + b)), (Rlt_bool_spec x y); try nra;
    cbn [map]; [f_equal; exact IHr|reflexivity].
Qed.

Lemma interp_affine s r : StronglySorted Rle s -> 0 <= r -> r < INR (length s) - 1 ->
  interpolate (map g s) r = g (interpolate s r).
Proof.
  intros Hs H0 H1; destruct (interp_between s r Hs H0 H1) as [Hi _].
  unfold interpolate; cbv zeta.
  rewrite !(nth_indep (map g s) 0 (g 0)) by (rewrite map_length; lia).
  rewrite !(map_nth g); ring.
Qed.

Definition sim (m m' : markers) : Prop :=
  forall i, (i < L)%nat ->
    mk_n m' i = mk_n m i /\ mk_d m' i = mk_d m i /\ mk_h m' i = g (mk_h m i).

Lemma adjust_sim d d' n n' h h' i :
  (forall j, (j < L)%nat -> n' j = n j /\ d' j = d j /\ h' j = g (h j)) ->
  (0 < i)%nat -> (S i < L)%nat ->
  let r := p2_adjust code_linear far_any d (n, h) i in
  let r' := p2_adjust code_linear far_any d' (n', h') i in
  forall j, (j < L)%nat ->
    fst r' j = fst r j /\ d' j = d j /\ snd r' j = g (snd r j).
Proof.
  intros Hsim Hi0 Hi r r'.
  destruct (Hsim (i - 1)%nat ltac:(lia)) as (N1 & _ & P1).
  destruct (Hsim i ltac:(lia)) as (N2 & D2 & P2).
  destruct (Hsim (i + 1)%nat ltac:(lia)) as (N3 & _ & P3).
  assert (Es : p2_sign far_any d' n' i = p2_sign far_any d n i).
  { unfold p2_sign; rewrite N1, N2, N3, D2; reflexivity. }
  unfold r, r', p2_adjust; rewrite Es.
  set (s := p2_sign far_any d n i).
  assert (Hs : (s = 0 \/ s = 1 \/ s = -1)%Z).
  { unfold s, p2_sign, far_any; repeat destruct (Rlt_dec _ _); repeat destruct (Z_lt_dec _ _); auto. }
  destruct (Z.eq_dec s 0) as [E0|E0]; [exact Hsim|]; cbn [fst snd].
  assert (Ey : p2_parabolic n' h' i s = g (p2_parabolic n h i s)).
  { unfold p2_parabolic; rewrite N1, N2, N3, P1, P2, P3; unfold Rdiv; ring. }
  assert (Eh : p2_height code_linear n' h' i s = g (p2_height code_linear n h i s)).
  { unfold p2_height; rewrite Ey, P1, P2, P3.
    set (y := p2_parabolic n h i s).
    assert (El : let j := Z.to_nat (Z.of_nat i + s) in
      code_linear s (a * h i + b) (h' j) (n' j - n' i) =
      a * code_linear s (h i) (h j) (n j - n i) + b).
    { cbv zeta; destruct Hs as [Hs|[Hs|Hs]]; [congruence| |]; rewrite Hs.
      - replace (Z.to_nat (Z.of_nat i + 1)) with (i + 1)%nat by lia.
        rewrite N2, N3, P3; unfold code_linear, Rdiv; ring.
      - replace (Z.to_nat (Z.of_nat i + -1)) with (i - 1)%nat by lia.
        rewrite N1, N2, P1; unfold code_linear, Rdiv; ring. }
    cbv zeta in El |- *; rewrite El.
    destruct (Rlt_dec (a * h (i - 1)%nat + b) (a * y + b)), (Rlt_dec (h (i - 1)%nat) y);
      try nra; try reflexivity.
    destruct (Rlt_dec (a * y + b) (a * h (i + 1)%nat + b)), (Rlt_dec y (h (i + 1)%nat));
      try nra; reflexivity. }
  intros j Hj; destruct (Hsim j Hj) as (N & D & P); unfold upd.
  destruct (Nat.eqb_spec j i); [rewrite Eh, N2; auto|auto].
Qed.

Lemma adjust_loop_sim d d' idx : forall n n' h h',
  (forall j, (j < L)%nat -> n' j = n j /\ d' j = d j /\ h' j = g (h j)) ->
  Forall (fun i => (0 < i)%nat /\ (S i < L)%nat) idx ->
  let r := fold_left (p2_adjust code_linear far_any d) idx (n, h) in
  let r' := fold_left (p2_adjust code_linear far_any d') idx (n', h') in
  forall j, (j < L)%nat ->
    fst r' j = fst r j /\ d' j = d j /\ snd r' j = g (snd r j).
Proof.
  induction idx as [|i idx IH]; intros n n' h h' Hs Hf; [exact Hs|].
  inversion Hf as [|? ? [Hi0 Hi] Hf']; subst.
  pose proof (adjust_sim d d' n n' h h' i Hs Hi0 Hi) as A; cbv zeta in A.
  cbn [fold_left].
  destruct (p2_adjust code_linear far_any d (n, h) i) as [n1 h1].
  destruct (p2_adjust code_linear far_any d' (n', h') i) as [n1' h1'].
  cbn [fst snd] in A; apply IH; assumption.
Qed.

Lemma g_min x y : Rmin (a * x + b) (a * y + b) = a * Rmin x y + b.
Proof. unfold Rmin; destruct (Rle_dec x y), (Rle_dec (a * x + b) (a * y + b)); nra. Qed.
Lemma g_max x y : Rmax (a * x + b) (a * y + b) = a * Rmax x y + b.
Proof. unfold Rmax; destruct (Rle_dec x y), (Rle_dec (a * x + b) (a * y + b)); nra. Qed.

Lemma push_sim m m' x : sim m m' ->
  sim (p2_push code_linear far_any L (p2_delta rqs) m x)
      (p2_push code_linear far_any L (p2_delta rqs) m' (a * x + b)).
Proof.
  intros Hs; pose proof L_ge3 as HL3.
  unfold p2_push; cbv zeta.
  set (h1 := upd (upd (mk_h m) 0 _) _ _).
  set (h1' := upd (upd (mk_h m') 0 _) _ _).
  assert (Hh : forall j, (j < L)%nat -> h1' j = g (h1 j)).
  { intros j Hj; unfold h1, h1', upd.
    destruct (Hs j Hj) as (_ & _ & P).
    destruct (Nat.eqb_spec j (L - 1)) as [->|].
    - rewrite P; apply g_max.
    - destruct (Nat.eqb_spec j 0) as [->|]; [rewrite P; apply g_min|exact P]. }
  assert (Hb : p2_below L h1' (a * x + b) = p2_below L h1 x).
  { unfold p2_below; f_equal; apply filter_ext_in; intros j Hj; apply in_seq in Hj.
    rewrite Hh by lia.
    destruct (Rle_dec (a * h1 j + b) (a * x + b)), (Rle_dec (h1 j) x); try reflexivity; nra. }
  rewrite Hb; intros j Hj; cbn [mk_n mk_d mk_h].
  apply adjust_loop_sim; [|apply Forall_forall; intros i Hi; apply in_seq in Hi; lia|exact Hj].
  intros i Hi; destruct (Hs i Hi) as (N & D & P).
  rewrite N, D, Hh by exact Hi; auto.
Qed.

Lemma run_sim l : (L <= length l)%nat -> sim (run_markers l) (run_markers (map g l)).
Proof.
  intros Hl; unfold run_markers, p2_run.
  rewrite firstn_map, skipn_map, rsort_affine.
  assert (H0 : sim (p2_start L (p2_delta rqs) (rsort (firstn L l)))
                   (p2_start L (p2_delta rqs) (map g (rsort (firstn L l))))).
  { intros i Hi; cbn [p2_start mk_n mk_d mk_h].
    rewrite (nth_indep _ 0 (g 0))
      by (rewrite map_length, rsort_length, firstn_length; lia).
    rewrite (map_nth g); auto. }
  revert H0; generalize (p2_start L (p2_delta rqs) (rsort (firstn L l))) as m.
  generalize (p2_start L (p2_delta rqs) (map g (rsort (firstn L l)))) as m'.
  induction (skipn L l) as [|x t IH]; intros m' m H0; [exact H0|].
  cbn [map fold_left]; apply IH, push_sim, H0.
Qed.

Lemma est_affine l i : Forall (fun q => 0 <= q < 1) rqs -> l <> [] ->
  (i <= length rqs + 1)%nat -> est (map g l) i = g (est l i).
Proof.
  intros Hq Hl Hi; unfold est; rewrite map_length.
  assert (Hn : (0 < length l)%nat) by (destruct l; [congruence|cbn; lia]).
  destruct (Nat.leb_spec (length l) L) as [H1|H1].
  - rewrite rsort_affine.
    assert (G : forall k, (k < length l)%nat -> nth k (map g (rsort l)) 0 = g (nth k (rsort l) 0)).
    { intros k Hk; rewrite (nth_indep _ 0 (g 0)) by (rewrite map_length, rsort_length; lia).
      apply (map_nth g). }
    destruct i as [|j]; [apply G; lia|].
    destruct (Nat.eqb_spec j (length rqs)); [apply G; lia|].
    assert (Hqj : 0 <= nth j rqs 0 < 1)
      by (rewrite Forall_forall in Hq; apply Hq, nth_In; lia).
    destruct (Nat.eq_dec (length l) 1) as [E1|E1].
    + rewrite E1; cbn [Nat.sub INR]; unfold interpolate; rewrite Rmult_0_l, Int_part_floor.
      replace (Zfloor 0) with 0%Z by (symmetry; apply (Zfloor_IZR 0)); cbn [Z.to_nat].
      rewrite G by lia; ring.
    + assert (HN : 1 <= INR (length l - 1)) by (apply (le_INR 1); lia).
      apply interp_affine; [apply rsort_sorted|nra|].
      rewrite rsort_length; replace (length l) with (S (length l - 1)) at 2 by lia.
      rewrite S_INR; nra.
  - destruct (run_sim l ltac:(lia) (2 * i)%nat ltac:(rewrite L_eq; lia)) as (_ & _ & P).
    exact P.
Qed.
End Affine.

End Runs.
