(** * Integer filters are exact while the running means are integers *)

From Coq Require Import ZArith NArith Bool List Lia Arith.
From Verif Require Import Arith History HistoryLemmas Buffer CInt IntMoments SpecInt IntProofs.
Import ListNotations.
Local Open Scope Z_scope.

Lemma zmean_spec l : l <> [] -> integral_mean l -> Z.of_nat (length l) * zmean l = zsum l.
Proof.
  intros NE [k E]. unfold zmean. destruct l as [|a l]; [congruence|].
  assert (0 < Z.of_nat (length (a :: l))) by (cbn; lia).
  rewrite E. rewrite Z.div_mul by lia. lia.
Qed.

Lemma zmean_nil : zmean [] = 0.
Proof. reflexivity. Qed.

Lemma zmean_times l : integral_mean l -> Z.of_nat (length l) * zmean l = zsum l.
Proof. intros H. destruct l as [|a l]; [reflexivity|]. apply zmean_spec; [discriminate|exact H]. Qed.

Lemma zsum_lower b l : Forall (fun x => b <= x) l -> Z.of_nat (length l) * b <= zsum l.
Proof. induction 1; cbn [length zsum fold_right]; [lia|]. fold (zsum l). lia. Qed.
Lemma zsum_upper b l : Forall (fun x => x <= b) l -> zsum l <= Z.of_nat (length l) * b.
Proof. induction 1; cbn [length zsum fold_right]; [lia|]. fold (zsum l). lia. Qed.

Lemma zmean_hull l : l <> [] -> integral_mean l -> zhull (zmean l) l.
Proof.
  intros NE HI. pose proof (zmean_spec l NE HI) as E.
  assert (L : 0 < Z.of_nat (length l)) by (destruct l; [congruence|cbn; lia]).
  split.
  - destruct (Exists_dec (fun a => a <= zmean l) l (fun a => Z_le_dec a (zmean l))) as [X|X].
    + apply Exists_exists in X. destruct X as (a & Ha & La). exists a. auto.
    + exfalso. assert (F : Forall (fun x => zmean l + 1 <= x) l).
      { apply Forall_forall. intros x Hx. apply Z.nlt_ge. intros C. apply X. apply Exists_exists. exists x. split; [exact Hx|lia]. }
      apply zsum_lower in F. nia.
  - destruct (Exists_dec (fun a => zmean l <= a) l (fun a => Z_le_dec (zmean l) a)) as [X|X].
    + apply Exists_exists in X. destruct X as (a & Ha & La). exists a. auto.
    + exfalso. assert (F : Forall (fun x => x <= zmean l - 1) l).
      { apply Forall_forall. intros x Hx. apply Z.nlt_ge. intros C. apply X. apply Exists_exists. exists x. split; [exact Hx|lia]. }
      apply zsum_upper in F. nia.
Qed.

Definition zcross (l : list (Z * Z)) : Z := zsum (map (fun p => fst p * snd p) l).

Lemma zcodev_cross mx my l :
  zcodev mx my l = zcross l - mx * zsum (map snd l) - my * zsum (map fst l) + Z.of_nat (length l) * mx * my.
Proof.
  unfold zcodev, zcross. induction l as [|p l IH]; [cbn; lia|].
  cbn [map zsum fold_right length]. fold (zsum (map (fun p => (fst p - mx) * (snd p - my)) l)).
  fold (zsum (map (fun p => fst p * snd p) l)) (zsum (map snd l)) (zsum (map fst l)). rewrite IH. lia.
Qed.

Definition codev (l : list (Z * Z)) : Z := zcodev (zmean (map fst l)) (zmean (map snd l)) l.

Lemma codev_step l x y :
  integral_mean (map fst l) -> integral_mean (map snd l) ->
  integral_mean (map fst (l ++ [(x, y)])) -> integral_mean (map snd (l ++ [(x, y)])) ->
  codev (l ++ [(x, y)]) = codev l + (x - zmean (map fst (l ++ [(x, y)]))) * (y - zmean (map snd l)).
Proof.
  intros I1 I2 I3 I4. unfold codev. rewrite !zcodev_cross.
  apply zmean_times in I1, I2, I3, I4.
  revert I3 I4. rewrite !map_app. cbn [map fst snd]. rewrite !zsum_snoc, !app_length, !map_length. cbn [length].
  rewrite !map_length in I1, I2.
  assert (EX : zcross (l ++ [(x, y)]) = zcross l + x * y).
  { unfold zcross. rewrite map_app. cbn [map fst snd]. apply zsum_snoc. }
  rewrite EX.
  generalize (zmean (map fst l ++ [x])) (zmean (map snd l ++ [y])). intros mx' my'.
  generalize dependent (zmean (map fst l)). intros mx I1.
  generalize dependent (zmean (map snd l)). intros my I2.
  replace (Z.of_nat (length l + 1)) with (Z.of_nat (length l) + 1) by lia.
  generalize dependent (Z.of_nat (length l)). intros n I1 I2 I3 I4.
  rewrite <- I1, <- I2 in *.
  assert (Ex : x = (n + 1) * mx' - n * mx) by lia.
  assert (Ey : y = (n + 1) * my' - n * my) by lia.
  rewrite Ex, Ey. ring.
Qed.

Lemma imax_promote T : In T all_ity -> imax T <= imax (promote T).
Proof. intros H. repeat (destruct H as [<-|H]; [cbn; lia|]). destruct H. Qed.

Lemma mixed_uint64 T : In T all_ity -> mixed T = uint64.
Proof. intros H. repeat (destruct H as [<-|H]; [reflexivity|]). destruct H. Qed.

Section Exact.
Variable T : ity.
Hypothesis HT : In T all_ity.

Definition icm_exact (l : list Z) (s : icm) : Prop :=
  icm_count s = N.of_nat (length l) /\ icm_mean s = zmean l.

Lemma diff_mean l x m : roomy T (l ++ [x]) -> (l = [] -> m = 0) -> (l <> [] -> zhull m l) ->
  inr (promote T) (x - m).
Proof.
  intros (RL & RF & RD) E0 EH. destruct l as [|y l].
  - rewrite E0 by reflexivity. rewrite Z.sub_0_r. apply promote_range; [exact HT|]. inversion RF. assumption.
  - destruct (EH ltac:(discriminate)) as [(a & Ha & La) (b & Hb & Lb)].
    assert (Ix : In x ((y :: l) ++ [x])) by (apply in_or_app; right; left; reflexivity).
    pose proof (RD x a Ix ltac:(apply in_or_app; auto)) as D1.
    pose proof (RD x b Ix ltac:(apply in_or_app; auto)) as D2.
    unfold inr in *. lia.
Qed.

Lemma roomy_prefix l x : roomy T (l ++ [x]) -> roomy T l.
Proof.
  intros (RL & RF & RD). rewrite app_length in RL. cbn in RL. split; [lia|]. split.
  - apply Forall_app in RF. apply RF.
  - intros a b Ha Hb. apply RD; apply in_or_app; auto.
Qed.

Lemma mean_inr l : roomy T l -> integral_mean l -> inr T (zmean l).
Proof.
  intros (RL & RF & RD) HI. destruct l as [|a l]; [rewrite zmean_nil; apply inr_0; exact HT|].
  apply (zhull_inr T (zmean (a :: l)) (a :: l) RF). apply zmean_hull; [discriminate|exact HI].
Qed.

Lemma diff_zmean l x : roomy T (l ++ [x]) -> integral_mean l -> inr (promote T) (x - zmean l).
Proof.
  intros R HI. apply (diff_mean l); [exact R|intros ->; reflexivity|].
  intros NE. apply zmean_hull; assumption.
Qed.

Lemma diff_zmean' l x : roomy T (l ++ [x]) -> integral_mean (l ++ [x]) -> inr (promote T) (x - zmean (l ++ [x])).
Proof.
  intros R HI. destruct R as (RL & RF & RD).
  destruct (zmean_hull (l ++ [x]) ltac:(destruct l; discriminate) HI) as [(a & Ha & La) (b & Hb & Lb)].
  assert (Ix : In x (l ++ [x])) by (apply in_or_app; right; left; reflexivity).
  pose proof (RD x a Ix Ha) as D1. pose proof (RD x b Ix Hb) as D2. unfold inr in *. lia.
Qed.

Lemma icm_exact_step l s x : icm_exact l s -> roomy T (l ++ [x]) ->
  integral_mean l -> integral_mean (l ++ [x]) ->
  exists s', icm_push T s x = Some s' /\ icm_exact (l ++ [x]) s'.
Proof.
  intros (EC & EM) R I1 I2. pose proof R as (RL & RF & RD).
  rewrite app_length in RL. cbn [length] in RL.
  unfold icm_push. pose proof (imax_szmod T HT) as HS.
  assert (EC' : szadd (icm_count s) 1 = N.of_nat (S (length l))).
  { rewrite EC, szadd_small by lia. lia. }
  rewrite EC', EM.
  pose proof (promote_in T HT) as HP.
  pose proof (diff_zmean l x R I1) as Pd.
  unfold isub. rewrite (iresult_in _ _ HP Pd). cbn [bind].
  replace (Z.of_N (N.of_nat (S (length l)))) with (Z.of_nat (length l) + 1) by lia.
  rewrite wrap_id; [|exact HT|pose proof (inr_0 T HT); unfold inr in *; lia].
  pose proof (zmean_times l I1) as T1. pose proof (zmean_times _ I2) as T2.
  rewrite zsum_snoc, app_length in T2. cbn [length] in T2.
  assert (EQ : x - zmean l = (Z.of_nat (length l) + 1) * (zmean (l ++ [x]) - zmean l)) by nia.
  unfold idiv. destruct (Z.eqb_spec (Z.of_nat (length l) + 1) 0) as [Z|_]; [lia|].
  assert (EQ' : Z.quot (x - zmean l) (Z.of_nat (length l) + 1) = zmean (l ++ [x]) - zmean l).
  { rewrite EQ, Z.mul_comm. apply Z.quot_mul. lia. }
  destruct (quot_between (x - zmean l) (Z.of_nat (length l) + 1) ltac:(lia)) as [Q1 Q2].
  rewrite EQ' in *.
  assert (Pq : inr (promote T) (zmean (l ++ [x]) - zmean l)).
  { pose proof (promote_range T 0 HT (inr_0 T HT)) as Z0. unfold inr in *.
    destruct (Z_le_gt_dec 0 (x - zmean l)); [specialize (Q1 ltac:(lia))|specialize (Q2 ltac:(lia))]; lia. }
  rewrite (iresult_in _ _ HP Pq). cbn [bind]. unfold iadd.
  replace (zmean l + (zmean (l ++ [x]) - zmean l)) with (zmean (l ++ [x])) by lia.
  pose proof (mean_inr _ R I2) as Pr.
  rewrite (iresult_in _ _ HP (promote_range T _ HT Pr)). cbn [bind]. rewrite wrap_id by assumption.
  eexists. split; [reflexivity|]. split; cbn [icm_count icm_mean]; [rewrite app_length; cbn; lia|reflexivity].
Qed.

Lemma icm_exact_run ops : (forall pre post, ops = pre ++ post -> roomy T (since_clear pre) /\ integral_mean (since_clear pre)) ->
  exists s, run_opt (icm_push T) icm_clear icm_init ops = Some s /\ icm_exact (since_clear ops) s.
Proof.
  intros H.
  destruct (run_opt_inv (icm_push T) icm_clear icm_init (fun l => roomy T l /\ integral_mean l)
    (fun l s => icm_exact l s /\ integral_mean l)) with (ops := ops) as (s & E & X & _).
  - split; [split; reflexivity|apply Z.divide_refl].
  - intros s l _. split; [split; reflexivity|apply Z.divide_refl].
  - intros l s a [X I] [R I2]. destruct (icm_exact_step l s a X R I I2) as (s' & E & X'). exists s'. auto.
  - exact H.
  - exists s. auto.
Qed.

(** Conditions on the values since the last clear. *)
Definition even_pairs (l : list (Z * Z)) : Prop :=
  roomy T (map fst l) /\ roomy T (map snd l) /\
  integral_mean (map fst l) /\ integral_mean (map snd l) /\
  2 * Z.abs (codev l) <= imax T /\ imin T <= codev l.

Definition icc_exact (l : list (Z * Z)) (s : icc) : Prop :=
  icm_exact (map fst l) (icc_x s) /\ icm_exact (map snd l) (icc_y s) /\ icc_center s = codev l /\
  integral_mean (map fst l) /\ integral_mean (map snd l) /\ 2 * Z.abs (codev l) <= imax T.

Lemma step_product a b c : 2 * Z.abs a <= imax T -> 2 * Z.abs b <= imax T ->
  b = a + c -> isigned (promote T) = true -> inr (promote T) c.
Proof.
  intros A B E S. pose proof (imax_promote T HT). unfold inr.
  assert (imin (promote T) < - imax (promote T)).
  { unfold imin, imax. rewrite S. lia. }
  lia.
Qed.

(** In an unsigned promoted type the deviations vanish. *)
Lemma unsigned_const l x y : isigned (promote T) = false -> roomy T l -> In x l -> In y l -> x = y.
Proof.
  intros S (_ & _ & D) Hx Hy. pose proof (D x y Hx Hy) as D1. pose proof (D y x Hy Hx) as D2.
  unfold inr, imin in *. rewrite S in *. lia.
Qed.

Lemma product_inr l x y : even_pairs (l ++ [(x, y)]) ->
  integral_mean (map fst l) -> integral_mean (map snd l) -> 2 * Z.abs (codev l) <= imax T ->
  inr (promote T) ((x - zmean (map fst (l ++ [(x, y)]))) * (y - zmean (map snd l))).
Proof.
  intros (R1 & R2 & I1 & I2 & A & _) J1 J2 B.
  destruct (isigned (promote T)) eqn:S.
  - apply (step_product (codev l) (codev (l ++ [(x, y)]))); try assumption.
    apply codev_step; assumption.
  - destruct (zmean_hull (map fst (l ++ [(x, y)]))) as [(a & Ha & La) (b & Hb & Lb)].
    { rewrite map_app. destruct (map fst l); discriminate. } { exact I1. }
    assert (Ix : In x (map fst (l ++ [(x, y)]))) by (rewrite map_app; apply in_or_app; right; left; reflexivity).
    pose proof (unsigned_const _ x a S R1 Ix Ha). pose proof (unsigned_const _ x b S R1 Ix Hb).
    replace (x - zmean (map fst (l ++ [(x, y)]))) with 0 by lia. rewrite Z.mul_0_l.
    apply promote_range; [exact HT|apply inr_0; exact HT].
Qed.

Lemma icc_exact_step l s p : icc_exact l s -> even_pairs (l ++ [p]) ->
  exists s', icc_push T s p = Some s' /\ icc_exact (l ++ [p]) s'.
Proof.
  destruct p as [x y]. intros (EX & EY & EC & J1 & J2 & B) HE.
  pose proof (product_inr l x y HE J1 J2 B) as PP.
  pose proof HE as (R1 & R2 & I1 & I2 & A & M).
  pose proof (codev_step l x y J1 J2 I1 I2) as CS.
  rewrite map_app in R1, I1, PP, CS. rewrite map_app in R2, I2. cbn [map fst snd] in *.
  destruct (icm_exact_step _ _ x EX R1 J1 I1) as (cx & Ex & EX').
  destruct (icm_exact_step _ _ y EY R2 J2 I2) as (cy & Ey & EY').
  unfold icc_push. rewrite Ex. cbn [bind]. destruct EX' as [EX1 EX2], EY as [EY1 EY2]. rewrite EX2, EY2, EC.
  pose proof (promote_in T HT) as HP.
  unfold isub. rewrite (iresult_in _ _ HP (diff_zmean' _ _ R1 I1)). cbn [bind].
  rewrite (iresult_in _ _ HP (diff_zmean _ _ R2 J2)). cbn [bind]. unfold imul.
  rewrite (iresult_in _ _ HP PP). cbn [bind]. unfold iadd. rewrite <- CS.
  assert (IC : inr T (codev (l ++ [(x, y)]))) by (unfold inr; lia).
  rewrite (iresult_in _ _ HP (promote_range T _ HT IC)). cbn [bind]. rewrite Ey. cbn [bind].
  rewrite wrap_id by assumption. eexists. split; [reflexivity|].
  unfold icc_exact. rewrite !map_app. cbn [map fst snd icc_x icc_y icc_center].
  split; [split; assumption|]. split; [exact EY'|]. split; [reflexivity|]. split; [exact I1|]. split; [exact I2|lia].
Qed.

Lemma icc_exact_nil c : icc_exact [] (ICC (ICM 0 c) (ICM 0 c) 0) <-> c = 0%N.
Proof.
  unfold icc_exact, icm_exact, integral_mean. cbn. split; [tauto|]. intros ->.
  pose proof (imax_pos T HT). change (zmean []) with 0. repeat split; try reflexivity; try apply Z.divide_refl; lia.
Qed.

Lemma icc_exact_run ops : (forall pre post, ops = pre ++ post -> even_pairs (since_clear pre)) ->
  exists s, run_opt (icc_push T) icc_clear icc_init ops = Some s /\ icc_exact (since_clear ops) s.
Proof.
  apply run_opt_inv.
  - apply icc_exact_nil. reflexivity.
  - intros s l _. apply icc_exact_nil. reflexivity.
  - intros l s a. apply icc_exact_step.
Qed.

(** ** Variance *)

Definition twice (l : list Z) : list (Z * Z) := map (fun x => (x, x)) l.

Lemma twice_fst l : map fst (twice l) = l.
Proof. unfold twice. rewrite map_map. apply map_id. Qed.
Lemma twice_snd l : map snd (twice l) = l.
Proof. unfold twice. rewrite map_map. apply map_id. Qed.
Lemma twice_snoc l x : twice (l ++ [x]) = twice l ++ [(x, x)].
Proof. unfold twice. rewrite map_app. reflexivity. Qed.

Definition icv_exact (l : list Z) (s : icv) : Prop :=
  icm_exact l (icv_super s) /\ icv_sum s = codev (twice l) /\ integral_mean l /\ 2 * Z.abs (codev (twice l)) <= imax T.

Lemma icv_exact_step l s x : icv_exact l s -> even_pairs (twice (l ++ [x])) ->
  exists s', icv_push T s x = Some s' /\ icv_exact (l ++ [x]) s'.
Proof.
  intros (EX & EC & J1 & B) HE. rewrite twice_snoc in HE.
  pose proof (product_inr (twice l) x x HE) as PP. rewrite twice_fst, twice_snd in PP. specialize (PP J1 J1 B).
  pose proof HE as (R1 & _ & I1 & _ & A & M).
  pose proof (codev_step (twice l) x x) as CS. rewrite twice_fst, twice_snd in CS.
  rewrite <- twice_snoc in *. rewrite twice_fst, twice_snd in *. specialize (CS J1 J1 I1 I1).
  destruct (icm_exact_step _ _ x EX R1 J1 I1) as (cx & Ex & EX').
  unfold icv_push. destruct EX as [EX1 EX2], EX' as [EX1' EX2']. rewrite EX2.
  pose proof (promote_in T HT) as HP.
  unfold isub. rewrite (iresult_in _ _ HP (diff_zmean _ _ R1 J1)). cbn [bind].
  rewrite Ex. cbn [bind]. rewrite EX2'.
  rewrite (iresult_in _ _ HP (diff_zmean' _ _ R1 I1)). cbn [bind]. unfold imul.
  rewrite (Z.mul_comm (x - zmean l)).
  rewrite (iresult_in _ _ HP PP). cbn [bind]. unfold iadd. rewrite EC, <- CS.
  assert (IC : inr T (codev (twice (l ++ [x])))) by (unfold inr; lia).
  rewrite (iresult_in _ _ HP (promote_range T _ HT IC)). cbn [bind].
  rewrite wrap_id by assumption. eexists. split; [reflexivity|].
  split; [split; assumption|]. split; [reflexivity|]. split; [exact I1|lia].
Qed.

Lemma icv_exact_run ops : (forall pre post, ops = pre ++ post -> even_pairs (twice (since_clear pre))) ->
  exists s, run_opt (icv_push T) icv_clear icv_init ops = Some s /\ icv_exact (since_clear ops) s.
Proof.
  assert (N : icv_exact [] (ICV (ICM 0 0) 0)).
  { unfold icv_exact, icm_exact, integral_mean. cbn. pose proof (imax_pos T HT).
    change (zmean []) with 0. change (codev (twice [])) with 0.
    repeat split; try reflexivity; try apply Z.divide_refl; lia. }
  apply (run_opt_inv _ _ _ (fun l => even_pairs (twice l)) icv_exact).
  - exact N.
  - intros s l _. exact N.
  - intros l s a. apply icv_exact_step.
Qed.

Lemma icc_variance_exact l s : icc_exact l s -> l <> [] -> roomy T (map fst l) -> 0 <= codev l ->
  icc_variance T s = Some (codev l / Z.of_nat (length l)).
Proof.
  intros ((EC & _) & _ & E & _ & _ & B) NE (RL & _) P. unfold icc_variance, icc_size. rewrite EC, map_length, (mixed_uint64 T HT), E.
  rewrite map_length in RL. pose proof (imax_szmod T HT) as HS. unfold szmod in HS.
  assert (L : (0 < length l)%nat) by (destruct l; [congruence|cbn; lia]).
  destruct (N.ltb_spec 0 (N.of_nat (length l))) as [_|H]; [|lia].
  assert (I1 : inr uint64 (codev l)) by (unfold inr; cbn; lia).
  assert (I2 : inr uint64 (Z.of_N (N.of_nat (length l)))) by (unfold inr; cbn; lia).
  assert (HU : In uint64 all_ity) by (cbn; tauto).
  rewrite !wrap_id by assumption.
  replace (Z.of_N (N.of_nat (length l))) with (Z.of_nat (length l)) by lia.
  unfold idiv. destruct (Z.eqb_spec (Z.of_nat (length l)) 0); [lia|].
  assert (Q : 0 <= codev l / Z.of_nat (length l) <= codev l).
  { split; [apply Z.div_pos; lia|]. apply Z.div_le_upper_bound; nia. }
  rewrite Z.quot_div_nonneg by lia. rewrite iresult_in; [|exact HU|unfold inr; cbn; lia]. cbn [bind].
  rewrite wrap_id; [reflexivity|exact HT|]. pose proof (inr_0 T HT). unfold inr in *. lia.
Qed.

Lemma codev_twice_pos l : 0 <= codev (twice l).
Proof.
  unfold codev. rewrite twice_fst, twice_snd. generalize (zmean l). intros m. unfold zcodev, twice.
  rewrite map_map. cbn [fst snd]. induction l as [|x l IH]; [cbn; lia|]. cbn [map zsum fold_right]. fold (zsum (map (fun x => (x - m) * (x - m)) l)). pose proof (Z.square_nonneg (x - m)). lia.
Qed.

Lemma icv_variance_exact l s : icv_exact l s -> l <> [] -> roomy T l ->
  icv_variance T s = Some (codev (twice l) / Z.of_nat (length l)).
Proof.
  intros ((EC & _) & E & _ & B) NE (RL & _). unfold icv_variance. rewrite EC, E.
  pose proof (codev_twice_pos l) as P.
  assert (L : (0 < length l)%nat) by (destruct l; [congruence|cbn; lia]).
  replace (Z.of_N (N.of_nat (length l))) with (Z.of_nat (length l)) by lia.
  pose proof (inr_0 T HT) as Z0.
  rewrite wrap_id; [|exact HT|unfold inr in *; lia].
  unfold idiv. destruct (Z.eqb_spec (Z.of_nat (length l)) 0); [lia|].
  assert (Q : 0 <= codev (twice l) / Z.of_nat (length l) <= codev (twice l)).
  { split; [apply Z.div_pos; lia|]. apply Z.div_le_upper_bound; nia. }
  assert (I : inr T (codev (twice l) / Z.of_nat (length l))) by (unfold inr in *; lia).
  rewrite Z.quot_div_nonneg by lia. rewrite iresult_in; [|apply promote_in; exact HT|apply promote_range; assumption].
  cbn [bind]. rewrite wrap_id by assumption. reflexivity.
Qed.

End Exact.
