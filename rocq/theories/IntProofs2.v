(** * Proofs about the integer window drift, interim mean and FIR *)

From Coq Require Import ZArith NArith Bool List Lia Arith.
From Verif Require Import Arith History HistoryLemmas SpecBlocks WindowProofs BlockLemmas
  CircularSpanProofs Buffer CInt IntMoments SpecInt IntProofs ImpulseProofs.
Import ListNotations.
Local Open Scope Z_scope.

(** ** Drift of the window mean *)

Lemma iwm_push_two T a b m x : In T all_ity -> inr T 2 ->
  inr (promote T) (x - a) -> inr (promote T) (Z.quot (x - a) 2) -> inr T (m + Z.quot (x - a) 2) ->
  iwm_push T 2 (IWM [a; b] m) x = Some (IWM [b; x] (m + Z.quot (x - a) 2)).
Proof.
  intros HT H2 Hd Hq Hm. pose proof (promote_in T HT) as HP.
  unfold iwm_push. cbn [iwm_window iwm_mean].
  change (rb_full 2 [a; b]) with true. change (rb_front [a; b]) with (Some a).
  change (Z.of_N (rb_size [a; b])) with 2. cbn [bind].
  unfold isub. rewrite (iresult_in _ _ HP Hd). cbn [bind].
  rewrite (wrap_id _ _ HT H2). unfold idiv. cbn [Z.eqb].
  rewrite (iresult_in _ _ HP Hq). cbn [bind]. unfold iadd.
  rewrite (iresult_in _ _ HP (promote_range _ _ HT Hm)). cbn [bind].
  rewrite (wrap_id _ _ HT Hm). reflexivity.
Qed.

(** One round: down by two, then up by one twice; the window ends where it
    began. *)
Definition round : list Z := [-2; -2; -1; -1; 0; 0].

Fixpoint rounds (k : nat) : list Z := match k with O => [] | S k' => rounds k' ++ round end.

Lemma run_opt_app {S A} (push : S -> A -> option S) clear s ops1 ops2 :
  run_opt push clear s (ops1 ++ ops2) =
  bind (run_opt push clear s ops1) (fun s => run_opt push clear s ops2).
Proof.
  unfold run_opt. rewrite fold_left_app.
  destruct (fold_left _ ops1 (Some s)) as [s1|]; [reflexivity|]. cbn [bind].
  induction ops2 as [|o ops2 IH]; [reflexivity|]. exact IH.
Qed.

Lemma run_opt_cons {S A} (push : S -> A -> option S) clear s x ops s' :
  push s x = Some s' ->
  run_opt push clear s (Push x :: ops) = run_opt push clear s' ops.
Proof. intros H. unfold run_opt. cbn [fold_left bind]. rewrite H. reflexivity. Qed.

Lemma one_round T m : In T all_ity -> isigned T = true -> inr T m -> inr T (m - 2) ->
  run_opt (iwm_push T 2) iwm_clear (IWM [0; 0] m) (pushes round) = Some (IWM [0; 0] (m - 2)).
Proof.
  intros HT HS H1 H2.
  assert (Small : forall z, -3 <= z <= 3 -> inr T z).
  { intros z Hz. clear -HT HS Hz. unfold inr.
    repeat (destruct HT as [<-|HT]; [cbn; try discriminate; lia|]). destruct HT. }
  assert (SP : forall z, -3 <= z <= 3 -> inr (promote T) z).
  { intros z Hz. apply promote_range; [exact HT|apply Small, Hz]. }
  assert (M1 : inr T (m - 1)) by (unfold inr in *; lia).
  cbn [pushes round map].
  assert (St : forall a b c x, -2 <= x - a <= 2 -> inr T (c + Z.quot (x - a) 2) ->
    iwm_push T 2 (IWM [a; b] c) x = Some (IWM [b; x] (c + Z.quot (x - a) 2))).
  { intros a b c x Hx Hc. apply iwm_push_two; [exact HT|apply Small; lia|apply SP; lia| |exact Hc].
    apply SP. assert (x - a = -2 \/ x - a = -1 \/ x - a = 0 \/ x - a = 1 \/ x - a = 2) as D by lia.
    destruct D as [->|[->|[->|[->| ->]]]]; cbn; lia. }
  rewrite (run_opt_cons _ _ _ _ _ (IWM [0; -2] (m - 1))).
  2:{ rewrite St; [reflexivity|lia|]. exact M1. }
  rewrite (run_opt_cons _ _ _ _ _ (IWM [-2; -2] (m - 2))).
  2:{ rewrite St; [|lia|cbn; replace (m - 1 + -1) with (m - 2) by lia; exact H2].
      f_equal. f_equal. cbn. lia. }
  rewrite (run_opt_cons _ _ _ _ _ (IWM [-2; -1] (m - 2))).
  2:{ rewrite St; [|lia|cbn; rewrite Z.add_0_r; exact H2]. f_equal. f_equal. cbn. lia. }
  rewrite (run_opt_cons _ _ _ _ _ (IWM [-1; -1] (m - 2))).
  2:{ rewrite St; [|lia|cbn; rewrite Z.add_0_r; exact H2]. f_equal. f_equal. cbn. lia. }
  rewrite (run_opt_cons _ _ _ _ _ (IWM [-1; 0] (m - 2))).
  2:{ rewrite St; [|lia|cbn; rewrite Z.add_0_r; exact H2]. f_equal. f_equal. cbn. lia. }
  rewrite (run_opt_cons _ _ _ _ _ (IWM [0; 0] (m - 2))).
  2:{ rewrite St; [|lia|cbn; rewrite Z.add_0_r; exact H2]. f_equal. f_equal. cbn. lia. }
  reflexivity.
Qed.

Lemma pushes_app {A} (l k : list A) : pushes (l ++ k) = pushes l ++ pushes k.
Proof. apply map_app. Qed.

Lemma rounds_drift T k : In T all_ity -> isigned T = true -> 2 * Z.of_nat k <= - imin T ->
  run_opt (iwm_push T 2) iwm_clear iwm_init (pushes ([0; 0] ++ rounds k)) =
  Some (IWM [0; 0] (-2 * Z.of_nat k)).
Proof.
  intros HT HS. induction k as [|k IH]; intros Hk.
  - clear Hk. repeat (destruct HT as [<-|HT]; [try discriminate; reflexivity|]). destruct HT.
  - cbn [rounds]. rewrite app_assoc, pushes_app, run_opt_app, IH by lia. cbn [bind].
    pose proof (imax_pos T HT).
    rewrite one_round; [|exact HT|exact HS|unfold inr; lia|unfold inr; lia].
    f_equal. f_equal. lia.
Qed.

(** ** Interim mean *)

Lemma mixed_uint64 T : In T all_ity -> mixed T = uint64.
Proof. intros H. repeat (destruct H as [<-|H]; [reflexivity|]). destruct H. Qed.

Lemma uint64_in : In uint64 all_ity. Proof. cbn. tauto. Qed.

Section Interim.
Variable T : ity.
Variable W : nat.
Variable hi : Z.
Hypothesis HT : In T all_ity.
Hypothesis HW : (0 < W)%nat.
Hypothesis HWT : 2 * Z.of_nat W <= imax T.
Hypothesis Hhi : hi <= imax T.
Hypothesis Hprod : hi * (2 * Z.of_nat W) < 2 ^ 64.

Definition natural (l : list Z) : Prop :=
  Forall (fun x => 0 <= x <= hi) l /\
  forall x y, In x l -> In y l -> inr (promote T) (x - y).

Definition iim_inv (l : list Z) (s : iim) : Prop :=
  natural l /\
  icm_inv (cur_block W l) (iim_active s) /\ icm_inv (prev_block W l) (iim_passive s).

Lemma cur_In (l : list Z) x : In x (cur_block W l) -> In x l.
Proof. apply lastn_In. Qed.
Lemma prev_In (l : list Z) x : In x (prev_block W l) -> In x l.
Proof. intros H. apply lastn_In in H. rewrite <- (firstn_skipn (length l - length (cur_block W l)) l).
  apply in_or_app. auto. Qed.

Lemma natural_roomy l k : natural l -> (length k <= W)%nat -> (forall x, In x k -> In x l) -> roomy T k.
Proof.
  intros [HF HD] HL HI. split; [lia|]. split.
  - apply Forall_forall. intros x Hx. rewrite Forall_forall in HF. specialize (HF x (HI x Hx)).
    pose proof (inr_0 T HT). unfold inr in *. lia.
  - intros x y Hx Hy. apply HD; apply HI; assumption.
Qed.

Lemma iim_step l s x : iim_inv l s -> natural (l ++ [x]) ->
  exists s', iim_push T (N.of_nat W) s x = Some s' /\ iim_inv (l ++ [x]) s'.
Proof.
  intros (N0 & IA & IP) HN. unfold iim_push.
  pose proof (cur_block_le W HW l) as CL.
  assert (EC : icm_count (iim_active s) = N.of_nat (length (cur_block W l))) by apply IA.
  rewrite EC. destruct (N.leb_spec (N.of_nat W) (N.of_nat (length (cur_block W l)))) as [HF|HF].
  - assert (E : length (cur_block W l) = W) by lia.
    destruct (cur_block_snoc_full W HW l x E) as [E1 E2]. cbn [iim_active iim_passive].
    destruct (icm_step T HT [] (icm_clear (iim_passive s)) x) as (s' & Es & Is).
    + unfold icm_inv. cbn. repeat split; try congruence; lia.
    + apply (natural_roomy (l ++ [x])); [exact HN|cbn; lia|].
      intros y [->|[]]. apply in_or_app. right. left. reflexivity.
    + rewrite Es. cbn [bind]. eexists. split; [reflexivity|]. split; [exact HN|].
      cbn [iim_active iim_passive]. rewrite E1, E2. split; [exact Is|exact IA].
  - destruct (cur_block_snoc_room W HW l x ltac:(lia)) as [E1 E2].
    destruct (icm_step T HT (cur_block W l) (iim_active s) x IA) as (s' & Es & Is).
    + apply (natural_roomy (l ++ [x])); [exact HN|rewrite app_length; cbn; lia|].
      intros y Hy. apply in_app_or in Hy. apply in_or_app. destruct Hy as [Hy|Hy]; [left; apply cur_In, Hy|auto].
    + rewrite Es. cbn [bind]. eexists. split; [reflexivity|]. split; [exact HN|].
      cbn [iim_active iim_passive]. rewrite E1, E2. split; [exact Is|exact IP].
Qed.

Lemma iim_run ops :
  (forall pre post, ops = pre ++ post -> natural (since_clear pre)) ->
  exists s, run_opt (iim_push T (N.of_nat W)) iim_clear iim_init ops = Some s /\
            iim_inv (since_clear ops) s.
Proof.
  assert (NN : natural []) by (split; [constructor|intros x y []]).
  apply run_opt_inv.
  - split; [exact NN|]. cbn. unfold icm_inv. cbn. repeat split; try congruence; lia.
  - intros s l _. split; [exact NN|]. cbn. unfold icm_inv. cbn. repeat split; try congruence; lia.
  - intros l s a. apply iim_step.
Qed.

Lemma u64_in z : 0 <= z < 2 ^ 64 -> inr uint64 z.
Proof. intros H. unfold inr. change (imin uint64) with 0. change (imax uint64) with (2 ^ 64 - 1). lia. Qed.

Lemma le_scaled h w : 0 <= h -> 1 <= w -> h <= h * (2 * w).
Proof. clear. nia. Qed.
Lemma mul_bounds p h v : 0 <= p <= h -> 0 <= v -> 0 <= p * v <= h * v.
Proof. clear. nia. Qed.
Lemma mean_bounds p a w k : 1 <= k <= w ->
  Z.min p a <= (p * (w - k) + a * (2 * k)) / (w + k) <= Z.max p a.
Proof.
  clear. intros K. split.
  - apply Z.div_le_lower_bound; [lia|]. destruct (Z.min_spec p a) as [[H ->]|[H ->]]; nia.
  - apply Z.div_le_upper_bound; [lia|]. destruct (Z.max_spec p a) as [[H ->]|[H ->]]; nia.
Qed.

Lemma iim_mean_hull l s : l <> [] -> iim_inv l s ->
  exists m, iim_mean T (N.of_nat W) s = Some m /\ zhull m (lastn (2 * W) l).
Proof.
  intros NE (HN & IA & IP). unfold iim_mean.
  assert (CNE : cur_block W l <> []).
  { intros X. pose proof (cur_block_pos W HW l NE) as P. rewrite X in P. cbn in P. lia. }
  destruct IA as (CA & _ & HA & _). destruct IP as (CP & _ & HP & _). specialize (HA CNE).
  rewrite CP, CA. destruct (N.eqb_spec (N.of_nat (length (prev_block W l))) 0) as [E|E].
  - exists (icm_mean (iim_active s)). split; [reflexivity|].
    destruct HA as [(a & Ha & La) (b & Hb & Lb)].
    split; [exists a|exists b]; (split; [apply (cur_block_In W HW); assumption|assumption]).
  - assert (PNE : prev_block W l <> []) by (intros X; rewrite X in E; cbn in E; lia).
    specialize (HP PNE).
    pose proof (cur_block_le W HW l) as CL. pose proof (cur_block_pos W HW l NE) as CP1.
    set (c := length (cur_block W l)) in *.
    set (p := icm_mean (iim_passive s)) in *. set (a := icm_mean (iim_active s)) in *.
    rewrite mixed_uint64 by exact HT.
    assert (Bd : forall m k, zhull m k -> (forall x, In x k -> In x l) -> 0 <= m <= hi).
    { intros m k [(u & Hu & Lu) (v & Hv & Lv)] HI. destruct HN as [HF _]. rewrite Forall_forall in HF.
      pose proof (HF u (HI u Hu)). pose proof (HF v (HI v Hv)). lia. }
    pose proof (Bd p _ HP (prev_In l)) as Bp. pose proof (Bd a _ HA (cur_In l)) as Ba.
    assert (S64 : Z.of_N szmod = 2 ^ 64) by reflexivity.
    pose proof (imax_szmod T HT) as HS.
    set (w := Z.of_nat W) in *. set (k := Z.of_nat c) in *.
    assert (K : 1 <= k <= w) by lia.
    rewrite szsub_small by lia. rewrite szmul_small by lia. rewrite szadd_small by lia.
    replace (Z.of_N (N.of_nat W - N.of_nat c)) with (w - k) by lia.
    replace (Z.of_N (2 * N.of_nat c)) with (2 * k) by lia.
    replace (Z.of_N (N.of_nat W + N.of_nat c)) with (w + k) by lia.
    pose proof uint64_in as U.
    assert (P1 : 0 <= p * (w - k) <= hi * (w - k)) by (apply mul_bounds; lia).
    assert (P2 : 0 <= a * (2 * k) <= hi * (2 * k)) by (apply mul_bounds; lia).
    assert (P3 : hi * (w - k) + hi * (2 * k) <= hi * (2 * w)).
    { rewrite <- Z.mul_add_distr_l. apply Z.mul_le_mono_nonneg_l; lia. }
    assert (P4 : hi <= hi * (2 * w)) by (apply le_scaled; lia).
    assert (P5 : 2 * w < 2 ^ 64) by lia.
    clearbody w k p a. clear CL CP1 CA CP E CNE PNE.
    rewrite (wrap_id uint64 p U) by (apply u64_in; lia).
    rewrite (wrap_id uint64 (w - k) U) by (apply u64_in; lia).
    rewrite (wrap_id uint64 a U) by (apply u64_in; lia).
    rewrite (wrap_id uint64 (2 * k) U) by (apply u64_in; lia).
    rewrite (wrap_id T (w + k) HT) by (pose proof (inr_0 T HT); unfold inr in *; lia).
    rewrite (wrap_id uint64 (w + k) U) by (apply u64_in; lia).
    unfold imul. rewrite !(iresult_in uint64) by (try exact U; apply u64_in; lia).
    cbn [bind]. unfold iadd. rewrite (iresult_in uint64) by (try exact U; apply u64_in; lia).
    cbn [bind]. unfold idiv. destruct (Z.eqb_spec (w + k) 0) as [X|_]; [lia|].
    rewrite Z.quot_div_nonneg by lia.
    set (q := (p * (w - k) + a * (2 * k)) / (w + k)).
    destruct (mean_bounds p a w k K) as [Q1 Q2]. fold q in Q1, Q2. clearbody q.
    rewrite (iresult_in uint64) by (try exact U; apply u64_in; lia). cbn [bind].
    rewrite (wrap_id T) by (try exact HT; pose proof (inr_0 T HT); unfold inr in *; lia).
    exists q. split; [reflexivity|].
    destruct HA as [(a1 & Ha1 & La1) (a2 & Ha2 & La2)]. destruct HP as [(p1 & Hp1 & Lp1) (p2 & Hp2 & Lp2)].
    apply (cur_block_In W HW) in Ha1, Ha2. apply (prev_block_In W HW) in Hp1, Hp2.
    split.
    + destruct (Z.min_spec p a) as [[_ M]|[_ M]]; [exists p1|exists a1]; (split; [assumption|lia]).
    + destruct (Z.max_spec p a) as [[_ M]|[_ M]]; [exists a2|exists p2]; (split; [assumption|lia]).
Qed.
End Interim.

(** ** FIR *)

Lemma wrap_eq T y z : y mod 2 ^ ibits T = z mod 2 ^ ibits T -> wrap T y = wrap T z.
Proof. intros H. unfold wrap. rewrite H. reflexivity. Qed.

Lemma wrap_wrap_promote T z : In T all_ity -> wrap T (wrap (promote T) z) = wrap T z.
Proof.
  intros HT. apply wrap_eq.
  assert (E : exists d, 0 <= d /\ ibits (promote T) = ibits T + d).
  { exists (ibits (promote T) - ibits T). split; [|lia]. clear -HT.
    repeat (destruct HT as [<-|HT]; [cbn; lia|]). destruct HT. }
  destruct E as (d & Hd & E). pose proof (ity_bits T HT) as B.
  pose proof (wrap_mod (promote T) z (promote_in T HT)) as M. rewrite E, Z.pow_add_r in M by lia.
  assert (P1 : 0 < 2 ^ ibits T) by (apply Z.pow_pos_nonneg; lia).
  assert (P2 : 0 < 2 ^ d) by (apply Z.pow_pos_nonneg; lia).
  assert (G : forall y, (y mod (2 ^ ibits T * 2 ^ d)) mod 2 ^ ibits T = y mod 2 ^ ibits T).
  { intros y. rewrite Z.rem_mul_r by lia. rewrite Z.mul_comm, Z_mod_plus_full. apply Z.mod_mod. lia. }
  rewrite <- G, M, G. reflexivity.
Qed.

Lemma iresult_mod T z r : In T all_ity -> iresult (promote T) z = Some r -> wrap T r = wrap T z.
Proof.
  intros HT. unfold iresult. destruct (isigned (promote T)).
  - destruct (_ && _); [|discriminate]. intros [= <-]. reflexivity.
  - intros [= <-]. apply wrap_wrap_promote. exact HT.
Qed.

Lemma wrap_congr T y z : In T all_ity -> wrap T y = wrap T z -> y mod 2 ^ ibits T = z mod 2 ^ ibits T.
Proof. intros HT H. rewrite <- (wrap_mod T y HT), <- (wrap_mod T z HT), H. reflexivity. Qed.

Lemma wrap_wrap T z : In T all_ity -> wrap T (wrap T z) = wrap T z.
Proof. intros HT. apply wrap_eq, wrap_mod, HT. Qed.

Lemma wrap_add T a b a' b' : In T all_ity -> wrap T a = wrap T a' -> wrap T b = wrap T b' ->
  wrap T (a + b) = wrap T (a' + b').
Proof.
  intros HT H1 H2. apply wrap_eq. pose proof (ity_bits T HT).
  assert (P : 0 < 2 ^ ibits T) by (apply Z.pow_pos_nonneg; lia).
  rewrite Z.add_mod, (wrap_congr T a a' HT H1), (wrap_congr T b b' HT H2), <- Z.add_mod by lia.
  reflexivity.
Qed.

Definition ifir_step T (acc : option Z) (p : Z * Z) : option Z :=
  bind acc (fun a => bind (imul (promote T) (fst p) (snd p)) (fun m =>
    bind (iadd (promote T) a m) (fun r => Some (wrap T r)))).

Lemma ifir_none T l : fold_left (ifir_step T) l None = None.
Proof. induction l; cbn; auto. Qed.

Lemma ifir_product_acc T w c a z y : In T all_ity -> a = wrap T z ->
  fold_left (ifir_step T) (combine w c) (Some a) = Some y -> y = wrap T (z + zdot w c).
Proof.
  intros HT. revert c a z. induction w as [|u w IH]; intros c a z Ha E.
  - cbn in E. injection E as <-. rewrite Z.add_0_r. exact Ha.
  - destruct c as [|v c]; [cbn in E; injection E as <-; rewrite Z.add_0_r; exact Ha|].
    cbn [combine fold_left] in E. unfold ifir_step at 2 in E. cbn [bind fst snd] in E.
    unfold imul in E. destruct (iresult (promote T) (u * v)) as [m|] eqn:Em; [|cbn [bind] in E; rewrite ifir_none in E; discriminate].
    cbn [bind] in E. unfold iadd in E.
    destruct (iresult (promote T) (a + m)) as [r|] eqn:Er; [|cbn [bind] in E; rewrite ifir_none in E; discriminate].
    cbn [bind] in E. cbn [zdot]. rewrite Z.add_assoc. apply (IH c (wrap T r)); [|exact E].
    apply iresult_mod in Em, Er; try exact HT. rewrite Er.
    apply wrap_add; [exact HT|rewrite Ha; apply wrap_wrap, HT|exact Em].
Qed.

Lemma zdot_firstn w c : zdot (firstn (length c) w) c = zdot w c.
Proof.
  revert c. induction w as [|u w IH]; intros [|v c]; try reflexivity. cbn. rewrite IH. reflexivity.
Qed.

Lemma ifir_state T c ops s : In T all_ity -> c <> [] ->
  run_opt (ifir_push T) ifir_clear (ifir_new c) ops = Some s ->
  ifir_coefficients s = c /\ ifir_input s = firstn (length c) (rev (since_clear ops)) /\
  (since_clear ops <> [] -> ifir_output s = wrap T (zdot (rev (since_clear ops)) c)).
Proof.
  intros HT Hc. assert (HP : (0 < length c)%nat) by (destruct c; [congruence|cbn; lia]).
  revert s. induction ops as [|o ops IH] using rev_ind; intros s E.
  - injection E as <-. cbn. rewrite firstn_nil. repeat split. congruence.
  - rewrite run_opt_snoc in E.
    destruct (run_opt (ifir_push T) ifir_clear (ifir_new c) ops) as [s1|]; [|discriminate].
    destruct (IH s1 eq_refl) as (E1 & E2 & E3). cbn [bind] in E. destruct o as [x|].
    + rewrite since_clear_snoc_push. unfold ifir_push in E. rewrite E1, E2 in E.
      rewrite ImpulseProofs.push_front_window in E by exact HP.
      destruct (ifir_product T _ c) as [y|] eqn:Ey; [|discriminate]. injection E as <-.
      cbn [ifir_coefficients ifir_input ifir_output]. split; [reflexivity|]. split; [reflexivity|].
      intros _. apply (ifir_product_acc T _ _ 0 0) in Ey; [|exact HT|].
      * rewrite Ey, Z.add_0_l, zdot_firstn. reflexivity.
      * symmetry. apply wrap_id; [exact HT|apply inr_0, HT].
    + rewrite since_clear_snoc_clear. injection E as <-. cbn. rewrite firstn_nil.
      split; [exact E1|]. split; [reflexivity|congruence].
Qed.

(** Bounded values: no product and no partial sum leaves the type. *)
Lemma fir_bounded T : In T all_ity -> forall M w c a,
  Forall (fun x => Z.abs x <= M /\ (isigned T = false -> 0 <= x)) w ->
  (isigned T = false -> Forall (fun x => 0 <= x) c) ->
  Z.abs a + M * zsum (map Z.abs c) <= imax T -> (isigned T = false -> 0 <= a) -> 0 <= M ->
  fold_left (ifir_step T) (combine w c) (Some a) = Some (a + zdot w c).
Proof.
  intros HT M w c a Hw; revert c a; induction Hw as [|u w [Hu Pu] _ IH]; intros c a Hc Hb Ha HM;
    [cbn; rewrite Z.add_0_r; reflexivity|].
  destruct c as [|v c]; [cbn; rewrite Z.add_0_r; reflexivity|].
  assert (IN : forall z, Z.abs z <= imax T -> (isigned T = false -> 0 <= z) -> inr T z).
  { intros z H1 H2; unfold inr, imin, imax in *; destruct (isigned T).
    - lia.
    - specialize (H2 eq_refl); lia. }
  unfold zsum in Hb; cbn [map fold_right] in Hb; fold (zsum (map Z.abs c)) in Hb.
  assert (Nn : forall l, 0 <= zsum (map Z.abs l)).
  { clear; induction l as [|z l IHl]; [reflexivity|]; unfold zsum in *; cbn [map fold_right]; lia. }
  pose proof (Nn c) as Nc.
  assert (A : Z.abs (u * v) <= M * Z.abs v) by (rewrite Z.abs_mul; nia).
  assert (Pm : isigned T = false -> 0 <= u * v).
  { intros E; specialize (Hc E); inversion Hc; specialize (Pu E); nia. }
  assert (I1 : inr T (u * v)) by (apply IN; [nia|exact Pm]).
  assert (I2 : inr T (a + u * v)) by (apply IN; [nia|intros E; specialize (Pm E); specialize (Ha E); lia]).
  cbn [combine fold_left zdot]; unfold ifir_step at 2; cbn [bind fst snd].
  unfold imul, iadd.
  rewrite (iresult_in (promote T) (u * v)) by (auto using promote_in, promote_range); cbn [bind].
  rewrite (iresult_in (promote T) (a + u * v)) by (auto using promote_in, promote_range); cbn [bind].
  rewrite (wrap_id T _ HT I2), Z.add_assoc; apply IH; try assumption.
  - intros E; specialize (Hc E); inversion Hc; assumption.
  - nia.
  - intros E; specialize (Pm E); specialize (Ha E); lia.
Qed.

Lemma fir_exact_run T c ops M : In T all_ity -> c <> [] ->
  M * zsum (map Z.abs c) <= imax T ->
  (isigned T = false -> Forall (fun x => 0 <= x) c) ->
  (forall pre post, ops = pre ++ post ->
     Forall (fun x => Z.abs x <= M /\ (isigned T = false -> 0 <= x)) (since_clear pre)) ->
  exists s, run_opt (ifir_push T) ifir_clear (ifir_new c) ops = Some s /\
    (since_clear ops <> [] -> ifir_output s = zdot (rev (since_clear ops)) c).
Proof.
  intros HT Hc HB HN HL.
  assert (HP : (0 < length c)%nat) by (destruct c; [congruence|cbn; lia]).
  induction ops as [|o ops IH] using rev_ind; [eexists; split; [reflexivity|cbn; congruence]|].
  destruct IH as (s1 & E1 & _).
  { intros pre post ->. apply (HL pre (post ++ [o])). rewrite app_assoc. reflexivity. }
  rewrite run_opt_snoc, E1. cbn [bind].
  destruct o as [x|]; [|rewrite since_clear_snoc_clear; eexists; split; [reflexivity|congruence]].
  destruct (ifir_state T c ops s1 HT Hc E1) as (F1 & F2 & _).
  unfold ifir_push. rewrite F1, F2, ImpulseProofs.push_front_window by exact HP.
  specialize (HL (ops ++ [Push x]) []). rewrite app_nil_r in HL. specialize (HL eq_refl).
  rewrite since_clear_snoc_push in *.
  assert (HM : 0 <= M).
  { apply Forall_app in HL; destruct HL as [_ HL]; inversion HL as [|? ? [H _] _]; lia. }
  assert (HW : Forall (fun x => Z.abs x <= M /\ (isigned T = false -> 0 <= x)) (firstn (length c) (rev (since_clear ops ++ [x])))).
  { apply Forall_forall. intros z Hz. rewrite Forall_forall in HL. apply HL. apply in_rev.
    rewrite <- (firstn_skipn (length c) (rev (since_clear ops ++ [x]))). apply in_or_app. auto. }
  pose proof (fir_bounded T HT M _ c 0 HW HN ltac:(cbn; lia) ltac:(lia) HM) as E.
  change (ifir_product T (firstn (length c) (rev (since_clear ops ++ [x]))) c
    = Some (0 + zdot (firstn (length c) (rev (since_clear ops ++ [x]))) c)) in E.
  rewrite E; cbn [bind]; eexists; split; [reflexivity|].
  intros _; cbn [ifir_output]; rewrite zdot_firstn; reflexivity.
Qed.

(** Types for which neither the products nor the sums can overflow. *)
Definition ample : list ity := [int8; int16; uint8; uint32; uint64].

Lemma ample_all T : In T ample -> In T all_ity.
Proof. cbn. intuition. Qed.

Lemma ample_step T a u v : In T ample -> inr T a -> inr T u -> inr T v ->
  exists r, ifir_step T (Some a) (u, v) = Some r /\ inr T r.
Proof.
  intros HA Ha Hu Hv. pose proof (ample_all T HA) as HT.
  assert (G : exists m r, imul (promote T) u v = Some m /\ iadd (promote T) a m = Some r).
  { unfold inr in *. unfold imul, iadd.
    assert (S : forall T, isigned (promote T) = false ->
      exists m r, iresult (promote T) (u * v) = Some m /\ iresult (promote T) (a + m) = Some r).
    { intros T' E. unfold iresult. rewrite E. eauto. }
    assert (N : forall T, promote T = int32 -> -1073741824 <= u * v <= 1073741824 -> -65536 <= a <= 65536 ->
      exists m r, iresult (promote T) (u * v) = Some m /\ iresult (promote T) (a + m) = Some r).
    { intros T' E B1 B2. rewrite E. exists (u * v), (a + u * v).
      split; apply iresult_in; try (cbn; tauto); unfold inr; change (imin int32) with (-2147483648);
        change (imax int32) with 2147483647; lia. }
    destruct HA as [<-|[<-|[<-|[<-|[<-|[]]]]]].
    - change (imin int8) with (-128) in *. change (imax int8) with 127 in *. apply N; [reflexivity|nia|lia].
    - change (imin int16) with (-32768) in *. change (imax int16) with 32767 in *. apply N; [reflexivity|nia|lia].
    - change (imin uint8) with 0 in *. change (imax uint8) with 255 in *. apply N; [reflexivity|nia|lia].
    - apply S. reflexivity.
    - apply S. reflexivity. }
  destruct G as (m & r & Em & Er). exists (wrap T r). split; [|apply wrap_range, HT].
  unfold ifir_step. cbn [bind fst snd]. rewrite Em. cbn [bind]. rewrite Er. reflexivity.
Qed.

Lemma ample_product T w c : In T ample -> Forall (inr T) w -> Forall (inr T) c ->
  exists y, ifir_product T w c = Some y.
Proof.
  intros HA Hw Hc. change (exists y, fold_left (ifir_step T) (combine w c) (Some 0) = Some y).
  assert (H0 : inr T 0) by (apply inr_0, ample_all, HA). revert H0. generalize 0. revert c Hc.
  induction Hw as [|u w Hu Hw IH]; intros c Hc a Ha; [cbn; eauto|].
  destruct Hc as [|v c Hv Hc]; [cbn; eauto|]. cbn [combine fold_left].
  destruct (ample_step T a u v HA Ha Hu Hv) as (r & -> & Hr). apply IH; assumption.
Qed.

Lemma ample_run T c ops : In T ample -> c <> [] -> Forall (inr T) c ->
  (forall pre post, ops = pre ++ post -> Forall (inr T) (since_clear pre)) ->
  exists s, run_opt (ifir_push T) ifir_clear (ifir_new c) ops = Some s.
Proof.
  intros HA Hc HF HL. pose proof (ample_all T HA) as HT.
  assert (HP : (0 < length c)%nat) by (destruct c; [congruence|cbn; lia]).
  induction ops as [|o ops IH] using rev_ind; [eexists; reflexivity|].
  destruct IH as (s1 & E1).
  { intros pre post ->. apply (HL pre (post ++ [o])). rewrite app_assoc. reflexivity. }
  rewrite run_opt_snoc, E1. cbn [bind]. destruct o as [x|]; [|eexists; reflexivity].
  destruct (ifir_state T c ops s1 HT Hc E1) as (F1 & F2 & _).
  unfold ifir_push. rewrite F1, F2, ImpulseProofs.push_front_window by exact HP.
  destruct (ample_product T (firstn (length c) (rev (since_clear ops ++ [x]))) c HA) as (y & ->).
  - specialize (HL (ops ++ [Push x]) []). rewrite app_nil_r in HL. specialize (HL eq_refl).
    rewrite since_clear_snoc_push in HL. apply Forall_forall. intros z Hz.
    rewrite Forall_forall in HL. apply HL. apply in_rev.
    rewrite <- (firstn_skipn (length c) (rev (since_clear ops ++ [x]))). apply in_or_app. auto.
  - exact HF.
  - eexists. reflexivity.
Qed.
