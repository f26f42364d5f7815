(** * Proofs about the integer filters *)

From Coq Require Import ZArith NArith Bool List Lia Arith.
From Verif Require Import Arith History HistoryLemmas WindowProofs CircularSpanProofs Buffer CInt
  IntMoments SpecInt.
Import ListNotations.
Local Open Scope Z_scope.

Definition inr (t : ity) (z : Z) : Prop := imin t <= z <= imax t.

Ltac each H :=
  unfold all_ity in H; cbn [In] in H;
  repeat (destruct H as [<-|H]; [|]); [..|destruct H].

Lemma ity_bits t : In t all_ity -> 1 <= ibits t <= 64.
Proof. intros H. repeat (destruct H as [<-|H]; [cbn; lia|]). destruct H. Qed.

Lemma promote_in t : In t all_ity -> In (promote t) all_ity.
Proof. intros H. repeat (destruct H as [<-|H]; [cbn; tauto|]). destruct H. Qed.

Lemma promote_range t z : In t all_ity -> inr t z -> inr (promote t) z.
Proof.
  intros H. unfold inr. repeat (destruct H as [<-|H]; [cbn; lia|]). destruct H.
Qed.

Lemma wrap_id t z : In t all_ity -> inr t z -> wrap t z = z.
Proof.
  intros Ht Hz. pose proof (ity_bits t Ht) as B. unfold inr, imin, imax in Hz. unfold wrap.
  assert (E : 2 ^ ibits t = 2 * 2 ^ (ibits t - 1)).
  { rewrite <- Z.pow_succ_r by lia. f_equal. lia. }
  assert (P : 0 < 2 ^ (ibits t - 1)) by (apply Z.pow_pos_nonneg; lia).
  destruct (isigned t); cbn [andb].
  - destruct (Z_lt_le_dec z 0) as [N|N].
    + rewrite <- (Z.mod_unique z (2 ^ ibits t) (-1) (z + 2 ^ ibits t)) by lia.
      destruct (Z.leb_spec (2 ^ (ibits t - 1)) (z + 2 ^ ibits t)); lia.
    + rewrite Z.mod_small by lia. destruct (Z.leb_spec (2 ^ (ibits t - 1)) z); lia.
  - apply Z.mod_small. lia.
Qed.

Lemma wrap_range t z : In t all_ity -> inr t (wrap t z).
Proof.
  intros Ht. pose proof (ity_bits t Ht) as B. unfold inr, imin, imax, wrap.
  assert (E : 2 ^ ibits t = 2 * 2 ^ (ibits t - 1)).
  { rewrite <- Z.pow_succ_r by lia. f_equal. lia. }
  assert (P : 0 < 2 ^ (ibits t - 1)) by (apply Z.pow_pos_nonneg; lia).
  pose proof (Z.mod_pos_bound z (2 ^ ibits t) ltac:(lia)) as M.
  destruct (isigned t); cbn [andb].
  - destruct (Z.leb_spec (2 ^ (ibits t - 1)) (z mod 2 ^ ibits t)); lia.
  - lia.
Qed.

Lemma wrap_mod t z : In t all_ity -> (wrap t z) mod 2 ^ ibits t = z mod 2 ^ ibits t.
Proof.
  intros Ht. pose proof (ity_bits t Ht) as B. unfold wrap.
  assert (P : 0 < 2 ^ ibits t) by (apply Z.pow_pos_nonneg; lia).
  destruct (isigned t && _).
  - rewrite <- (Z_mod_plus_full _ 1). replace (z mod 2 ^ ibits t - 2 ^ ibits t + 1 * 2 ^ ibits t)
      with (z mod 2 ^ ibits t) by lia. apply Z.mod_mod. lia.
  - apply Z.mod_mod. lia.
Qed.

Lemma iresult_in t z : In t all_ity -> inr t z -> iresult t z = Some z.
Proof.
  intros Ht Hz. unfold iresult. destruct (isigned t).
  - unfold inr in Hz. destruct (Z.leb_spec (imin t) z); [|lia].
    destruct (Z.leb_spec z (imax t)); [reflexivity|lia].
  - rewrite wrap_id by assumption. reflexivity.
Qed.

(** ** Truncated division *)

Lemma quot_between d n : 1 <= n -> (0 <= d -> 0 <= Z.quot d n <= d) /\ (d <= 0 -> d <= Z.quot d n <= 0).
Proof.
  intros Hn. split; intros Hd.
  - split; [apply Z.quot_pos; lia|]. rewrite Z.quot_div_nonneg by lia. apply Z.div_le_upper_bound; nia.
  - assert (E : Z.quot d n = - Z.quot (- d) n) by (rewrite Z.quot_opp_l by lia; lia).
    rewrite E. assert (0 <= Z.quot (- d) n <= - d); [|lia].
    split; [apply Z.quot_pos; lia|]. rewrite Z.quot_div_nonneg by lia. apply Z.div_le_upper_bound; nia.
Qed.

Lemma quot_rem_bound d n : 1 <= n -> Z.abs (d - n * Z.quot d n) <= n - 1.
Proof.
  intros Hn. pose proof (Z.quot_rem d n ltac:(lia)) as E.
  replace (d - n * Z.quot d n) with (Z.rem d n) by lia.
  pose proof (Z.rem_bound_abs d n ltac:(lia)). lia.
Qed.

Lemma zsum_snoc l x : zsum (l ++ [x]) = zsum l + x.
Proof. unfold zsum. induction l as [|a l IH]; [cbn; lia|]. cbn [app fold_right]. rewrite IH. lia. Qed.

Lemma zhull_step m l x n : l <> [] -> zhull m l -> 1 <= n -> zhull (m + Z.quot (x - m) n) (l ++ [x]).
Proof.
  intros _ [(a & Ha & La) (b & Hb & Lb)] Hn. destruct (quot_between (x - m) n Hn) as [Q1 Q2].
  destruct (Z_le_gt_dec m x) as [H|H].
  - specialize (Q1 ltac:(lia)). split.
    + exists a. split; [apply in_or_app; auto|lia].
    + exists x. split; [apply in_or_app; right; left; reflexivity|lia].
  - specialize (Q2 ltac:(lia)). split.
    + exists x. split; [apply in_or_app; right; left; reflexivity|lia].
    + exists b. split; [apply in_or_app; auto|lia].
Qed.

(** ** Histories *)

Lemma run_opt_snoc {S A} (push : S -> A -> option S) clear s ops o :
  run_opt push clear s (ops ++ [o]) =
  bind (run_opt push clear s ops)
    (fun s => match o with Push a => push s a | Clear => Some (clear s) end).
Proof. unfold run_opt. rewrite fold_left_app. reflexivity. Qed.

Lemma since_clear_snoc_clear {A} (ops : list (op A)) : since_clear (ops ++ [Clear]) = [].
Proof. apply (since_clear_app_clear ops []). Qed.

(** An invariant relating the state to the values since the last clear, under a
    condition met by every prefix of the history. *)
Lemma run_opt_inv {S A} (push : S -> A -> option S) clear s0 (C : list A -> Prop) (I : list A -> S -> Prop) :
  I [] s0 -> (forall s l, I l s -> I [] (clear s)) ->
  (forall l s a, I l s -> C (l ++ [a]) -> exists s', push s a = Some s' /\ I (l ++ [a]) s') ->
  forall ops, (forall pre post, ops = pre ++ post -> C (since_clear pre)) ->
  exists s, run_opt push clear s0 ops = Some s /\ I (since_clear ops) s.
Proof.
  intros H0 Hc Hp. induction ops as [|o ops IH] using rev_ind; intros HC.
  - exists s0. split; [reflexivity|exact H0].
  - destruct IH as (s & E & Hs).
    { intros pre post ->. apply (HC pre (post ++ [o])). rewrite app_assoc. reflexivity. }
    rewrite run_opt_snoc, E. cbn [bind]. destruct o as [a|].
    + rewrite since_clear_snoc_push. apply Hp; [exact Hs|].
      rewrite <- since_clear_snoc_push. apply (HC _ []). rewrite app_nil_r. reflexivity.
    + rewrite since_clear_snoc_clear. exists (clear s). split; [reflexivity|]. eapply Hc, Hs.
Qed.

(** ** Cumulative mean *)

(** The conditions under which the type is large enough. *)
Definition roomy (T : ity) (l : list Z) : Prop :=
  Z.of_nat (length l) <= imax T /\ Forall (inr T) l /\
  forall x y, In x l -> In y l -> inr (promote T) (x - y).

Lemma imax_szmod T : In T all_ity -> imax T < Z.of_N szmod.
Proof. intros H. repeat (destruct H as [<-|H]; [reflexivity|]). destruct H. Qed.

Section Cumulative.
Variable T : ity.
Hypothesis HT : In T all_ity.

Definition icm_inv (l : list Z) (s : icm) : Prop :=
  icm_count s = N.of_nat (length l) /\
  (l = [] -> icm_mean s = 0) /\ (l <> [] -> zhull (icm_mean s) l) /\
  2 * Z.abs (Z.of_nat (length l) * icm_mean s - zsum l) <= Z.of_nat (length l) * (Z.of_nat (length l) - 1).

Lemma inr_0 : inr T 0.
Proof. clear -HT. unfold inr. pose proof (ity_bits T HT). unfold imin, imax.
  assert (0 < 2 ^ (ibits T - 1)) by (apply Z.pow_pos_nonneg; lia).
  assert (0 < 2 ^ ibits T) by (apply Z.pow_pos_nonneg; lia).
  destruct (isigned T); lia.
Qed.

Lemma zhull_inr m l : Forall (inr T) l -> zhull m l -> inr T m.
Proof.
  intros HF [(a & Ha & La) (b & Hb & Lb)]. rewrite Forall_forall in HF.
  pose proof (HF a Ha). pose proof (HF b Hb). unfold inr in *. lia.
Qed.

Lemma icm_step l s x : icm_inv l s -> roomy T (l ++ [x]) ->
  exists s', icm_push T s x = Some s' /\ icm_inv (l ++ [x]) s'.
Proof.
  intros (EC & E0 & EH & EA) (RL & RF & RD).
  rewrite app_length in RL. cbn [length] in RL.
  set (n := length l) in *. unfold icm_push.
  pose proof (imax_szmod T HT) as HS.
  assert (EC' : szadd (icm_count s) 1 = N.of_nat (S n)).
  { rewrite EC, szadd_small by lia. lia. }
  rewrite EC'.
  assert (Px : inr T x).
  { rewrite Forall_forall in RF. apply RF. apply in_or_app. right. left. reflexivity. }
  assert (RF' : Forall (inr T) l) by (apply Forall_app in RF; apply RF).
  assert (Pm : inr T (icm_mean s)).
  { destruct l as [|y l]; [rewrite E0 by reflexivity; apply inr_0|].
    apply (zhull_inr _ (y :: l)); [exact RF'|]. apply EH. discriminate. }
  assert (Pd : inr (promote T) (x - icm_mean s)).
  { destruct l as [|y l].
    - rewrite E0 by reflexivity. rewrite Z.sub_0_r. apply promote_range; assumption.
    - destruct (EH ltac:(discriminate)) as [(a & Ha & La) (b & Hb & Lb)].
      assert (Ix : In x ((y :: l) ++ [x])) by (apply in_or_app; right; left; reflexivity).
      pose proof (RD x a Ix ltac:(apply in_or_app; auto)) as D1.
      pose proof (RD x b Ix ltac:(apply in_or_app; auto)) as D2.
      unfold inr in *. lia. }
  pose proof (promote_in T HT) as HP.
  unfold isub. rewrite (iresult_in _ _ HP Pd). cbn [bind].
  replace (Z.of_N (N.of_nat (S n))) with (Z.of_nat n + 1) by lia.
  rewrite wrap_id; [|exact HT|unfold inr; pose proof inr_0; unfold inr in *; lia].
  set (k := Z.of_nat n + 1) in *. unfold idiv.
  destruct (Z.eqb_spec k 0) as [Z|_]; [lia|].
  destruct (quot_between (x - icm_mean s) k ltac:(lia)) as [Q1 Q2].
  set (q := Z.quot (x - icm_mean s) k) in *.
  assert (Pq : inr (promote T) q).
  { pose proof (promote_range T 0 HT inr_0) as Z0. unfold inr in *.
    destruct (Z_le_gt_dec 0 (x - icm_mean s)); [specialize (Q1 ltac:(lia))|specialize (Q2 ltac:(lia))]; lia. }
  rewrite (iresult_in _ _ HP Pq). cbn [bind]. unfold iadd.
  assert (Pr : inr T (icm_mean s + q)).
  { unfold inr in *.
    destruct (Z_le_gt_dec 0 (x - icm_mean s)); [specialize (Q1 ltac:(lia))|specialize (Q2 ltac:(lia))]; lia. }
  rewrite (iresult_in _ _ HP (promote_range T _ HT Pr)). cbn [bind]. rewrite wrap_id by assumption.
  eexists. split; [reflexivity|]. unfold icm_inv. cbn [icm_mean icm_count].
  rewrite app_length. cbn [length]. split; [lia|].
  split; [intros X; destruct l; discriminate|]. split.
  - intros _. destruct l as [|y l].
    + assert (Em : icm_mean s + q = x).
      { unfold q, k, n. cbn [length]. change (Z.of_nat 0 + 1) with 1. rewrite Z.quot_1_r. lia. }
      rewrite Em. split; exists x; (split; [left; reflexivity|apply Z.le_refl]).
    + apply zhull_step; [discriminate|apply EH; discriminate|lia].
  - rewrite zsum_snoc. fold n. replace (Z.of_nat (n + 1)) with k by lia.
    pose proof (quot_rem_bound (x - icm_mean s) k ltac:(lia)) as R. fold q in R.
    set (N := Z.of_nat n) in *. set (m := icm_mean s) in *.
    replace (k * (m + q) - (zsum l + x)) with ((N * m - zsum l) - ((x - m) - k * q)) by (unfold k; lia).
    unfold k in *. nia.
Qed.

Lemma icm_run ops :
  (forall pre post, ops = pre ++ post -> roomy T (since_clear pre)) ->
  exists s, run_opt (icm_push T) icm_clear icm_init ops = Some s /\ icm_inv (since_clear ops) s.
Proof.
  apply run_opt_inv.
  - unfold icm_inv. cbn. repeat split; try congruence; lia.
  - intros s l _. unfold icm_inv. cbn. repeat split; try congruence; lia.
  - intros l s a. apply icm_step.
Qed.

(** The 2^bits-th push divides by zero, whatever the values. *)
End Cumulative.

(** ** The divisor eventually converts to zero *)

Lemma pow_bits_szmod T : In T all_ity -> 2 ^ ibits T <= Z.of_N szmod.
Proof. intros H. repeat (destruct H as [<-|H]; [discriminate|]). destruct H. Qed.

Lemma icm_alive T ops s : In T all_ity ->
  run_opt (icm_push T) icm_clear icm_init ops = Some s ->
  icm_count s = N.of_nat (length (since_clear ops)) /\
  Z.of_nat (length (since_clear ops)) < 2 ^ ibits T.
Proof.
  intros HT. pose proof (pow_bits_szmod T HT) as HS. pose proof (ity_bits T HT) as HB.
  assert (P : 0 < 2 ^ ibits T) by (apply Z.pow_pos_nonneg; lia).
  revert s. induction ops as [|o ops IH] using rev_ind; intros s E.
  - injection E as <-. split; [reflexivity|exact P].
  - rewrite run_opt_snoc in E.
    destruct (run_opt (icm_push T) icm_clear icm_init ops) as [s1|]; [|discriminate].
    specialize (IH s1 eq_refl). cbn [bind] in E. destruct o as [x|].
    + rewrite since_clear_snoc_push, app_length. cbn [length]. destruct IH as [EC EL].
      set (n := length (since_clear ops)) in *. unfold icm_push in E.
      destruct (isub (promote T) x (icm_mean s1)) as [d|]; [|discriminate]. cbn [bind] in E.
      assert (Hn : Z.of_nat n + 1 < 2 ^ ibits T).
      { destruct (Z.eq_dec (Z.of_nat n + 1) (2 ^ ibits T)) as [Q|Q]; [exfalso|lia].
        assert (W0 : wrap T (Z.of_N (szadd (icm_count s1) 1)) = 0).
        { unfold wrap. rewrite EC, szadd_Z.
          replace (Z.of_N (N.of_nat n) + Z.of_N 1) with (2 ^ ibits T) by lia.
          assert (M : (2 ^ ibits T mod Z.of_N szmod) mod 2 ^ ibits T = 0).
          { destruct (Z.eq_dec (2 ^ ibits T) (Z.of_N szmod)) as [R|R].
            - rewrite R, Z.mod_same by lia. apply Z.mod_0_l. lia.
            - rewrite (Z.mod_small (2 ^ ibits T) (Z.of_N szmod)) by lia. apply Z.mod_same. lia. }
          change (Z.of_N szmod) with modulus in M. rewrite M. destruct (Z.leb_spec (2 ^ (ibits T - 1)) 0) as [L|L].
          - pose proof (Z.pow_pos_nonneg 2 (ibits T - 1) ltac:(lia) ltac:(lia)). lia.
          - rewrite andb_false_r. reflexivity. }
        rewrite W0 in E. discriminate. }
      destruct (idiv _ _ _) as [q|]; [|discriminate]. cbn [bind] in E.
      destruct (iadd _ _ _) as [m|]; [|discriminate]. injection E as <-. cbn [icm_count].
      split; [|lia]. rewrite EC, szadd_small by lia. lia.
    + rewrite since_clear_snoc_clear. injection E as <-. split; [reflexivity|exact P].
Qed.

(** ** A ramp: the mean stays at zero *)

Definition ramp (n : nat) : list Z := map Z.of_nat (seq 0 n).

Lemma ramp_S n : ramp (S n) = ramp n ++ [Z.of_nat n].
Proof. unfold ramp. rewrite seq_S, map_app. reflexivity. Qed.
Lemma ramp_length n : length (ramp n) = n.
Proof. unfold ramp. rewrite map_length, seq_length. reflexivity. Qed.
Lemma ramp_sum n : 2 * zsum (ramp n) = Z.of_nat n * (Z.of_nat n - 1).
Proof.
  induction n as [|n IH]; [reflexivity|]. rewrite ramp_S, zsum_snoc. lia.
Qed.
Lemma ramp_In n x : In x (ramp n) -> 0 <= x < Z.of_nat n.
Proof. unfold ramp. rewrite in_map_iff. intros (i & <- & H). apply in_seq in H. lia. Qed.

Lemma imax_pos T : In T all_ity -> 0 <= imax T.
Proof. intros H. pose proof (inr_0 T H). unfold inr in *. lia. Qed.

Lemma ramp_mean T n : In T all_ity -> Z.of_nat n <= imax T ->
  run_opt (icm_push T) icm_clear icm_init (pushes (ramp n)) = Some (ICM 0 (N.of_nat n)).
Proof.
  intros HT. pose proof (imax_szmod T HT) as HS. pose proof (promote_in T HT) as HP.
  pose proof (inr_0 T HT) as Z0.
  induction n as [|n IH]; intros Hn; [reflexivity|].
  unfold pushes in *. rewrite ramp_S, map_app. cbn [map]. rewrite run_opt_snoc, IH by lia. cbn [bind].
  unfold icm_push. cbn [icm_count icm_mean]. rewrite szadd_small by lia.
  replace (N.of_nat n + 1)%N with (N.of_nat (S n)) by lia.
  assert (In_ : inr T (Z.of_nat n)) by (unfold inr in *; lia).
  unfold isub. rewrite Z.sub_0_r, (iresult_in _ _ HP (promote_range _ _ HT In_)). cbn [bind].
  rewrite wrap_id; [|exact HT|unfold inr in *; lia].
  unfold idiv. destruct (Z.eqb_spec (Z.of_N (N.of_nat (S n))) 0) as [E|_]; [lia|].
  rewrite Z.quot_small by lia.
  rewrite (iresult_in _ _ HP (promote_range _ _ HT Z0)). cbn [bind]. unfold iadd. rewrite Z.add_0_r.
  rewrite (iresult_in _ _ HP (promote_range _ _ HT Z0)). cbn [bind].
  rewrite wrap_id by assumption. reflexivity.
Qed.

(** ** Variance *)

Lemma icv_super_run T ops s :
  run_opt (icv_push T) icv_clear icv_init ops = Some s ->
  run_opt (icm_push T) icm_clear icm_init ops = Some (icv_super s).
Proof.
  revert s. induction ops as [|o ops IH] using rev_ind; intros s E.
  - injection E as <-. reflexivity.
  - rewrite run_opt_snoc in E. rewrite run_opt_snoc.
    destruct (run_opt (icv_push T) icv_clear icv_init ops) as [s1|]; [|discriminate].
    rewrite (IH s1 eq_refl). cbn [bind] in E |- *. destruct o as [x|].
    + unfold icv_push in E. destruct (isub _ _ _) as [d|]; [|discriminate]. cbn [bind] in E.
      destruct (icm_push T (icv_super s1) x) as [u|]; [|discriminate]. cbn [bind] in E.
      destruct (isub _ _ _); [|discriminate]. cbn [bind] in E.
      destruct (imul _ _ _); [|discriminate]. cbn [bind] in E.
      destruct (iadd _ _ _); [|discriminate]. injection E as <-. reflexivity.
    + injection E as <-. reflexivity.
Qed.

Lemma iresult_signed t z r : isigned t = true -> iresult t z = Some r -> r = z /\ inr t r.
Proof.
  unfold iresult. intros ->. destruct (Z.leb_spec (imin t) z); [|discriminate].
  destruct (Z.leb_spec z (imax t)); [|discriminate]. cbn. intros [= <-]. split; [reflexivity|]. unfold inr. lia.
Qed.

(** In a signed type at least as wide as int the sum cannot become negative, as
    long as the count converts to itself. *)
Lemma icv_nonneg T ops s : T = int32 \/ T = int64 ->
  (forall pre post, ops = pre ++ post -> Z.of_nat (length (since_clear pre)) <= imax T) ->
  run_opt (icv_push T) icv_clear icv_init ops = Some s -> 0 <= icv_sum s.
Proof.
  intros HT.
  assert (HA : In T all_ity) by (destruct HT as [->| ->]; cbn; tauto).
  assert (EP : promote T = T) by (destruct HT as [->| ->]; reflexivity).
  assert (ES : isigned T = true) by (destruct HT as [->| ->]; reflexivity).
  revert s. induction ops as [|o ops IH] using rev_ind; intros s HL E.
  - injection E as <-. apply Z.le_refl.
  - pose proof (icv_super_run T ops) as SR. rewrite run_opt_snoc in E.
    destruct (run_opt (icv_push T) icv_clear icv_init ops) as [s1|]; [|discriminate].
    specialize (SR s1 eq_refl). specialize (IH s1).
    assert (IH' : 0 <= icv_sum s1).
    { apply IH; [|reflexivity]. intros pre post ->. apply (HL pre (post ++ [o])). rewrite app_assoc. reflexivity. }
    clear IH. cbn [bind] in E. destruct o as [x|].
    + destruct (icm_alive T ops _ HA SR) as [EC _].
      assert (HL' : Z.of_nat (length (since_clear ops)) + 1 <= imax T).
      { specialize (HL (ops ++ [Push x]) []). rewrite app_nil_r in HL. specialize (HL eq_refl).
        rewrite since_clear_snoc_push, app_length in HL. cbn [length] in HL. lia. }
      unfold icv_push, icm_push in E. rewrite EP in E.
      unfold isub, imul, iadd, idiv in E.
      destruct (iresult T (x - icm_mean (icv_super s1))) as [d|] eqn:Ed; [|discriminate]. cbn [bind] in E.
      rewrite EC, szadd_small in E by (pose proof (imax_szmod T HA); lia).
      set (n := length (since_clear ops)) in *.
      rewrite wrap_id in E; [|exact HA|pose proof (inr_0 T HA); unfold inr in *; lia].
      destruct (Z.eqb_spec (Z.of_N (N.of_nat n + 1)) 0) as [Z|_]; [lia|].
      set (k := Z.of_N (N.of_nat n + 1)) in *.
      destruct (iresult T (Z.quot d k)) as [q|] eqn:Eq; [|discriminate]. cbn [bind] in E.
      destruct (iresult T (icm_mean (icv_super s1) + q)) as [m|] eqn:Em; [|discriminate].
      cbn [bind icm_mean] in E.
      apply (iresult_signed _ _ _ ES) in Ed, Eq, Em. destruct Ed as [-> Hd], Eq as [-> Hq], Em as [-> Hm].
      rewrite wrap_id in E by assumption.
      set (a := icm_mean (icv_super s1)) in *.
      destruct (iresult T (x - (a + Z.quot (x - a) k))) as [e|] eqn:Ee; [|discriminate]. cbn [bind] in E.
      destruct (iresult T ((x - a) * e)) as [p|] eqn:Ep; [|discriminate]. cbn [bind] in E.
      destruct (iresult T (icv_sum s1 + p)) as [v|] eqn:Ev; [|discriminate].
      apply (iresult_signed _ _ _ ES) in Ee, Ep, Ev. destruct Ee as [-> He], Ep as [-> Hp], Ev as [-> Hv].
      cbn [bind] in E. injection E as <-. cbn [icv_sum]. rewrite wrap_id by assumption.
      destruct (quot_between (x - a) k ltac:(lia)) as [Q1 Q2].
      destruct (Z_le_gt_dec 0 (x - a)); [specialize (Q1 ltac:(lia))|specialize (Q2 ltac:(lia))]; nia.
    + injection E as <-. apply Z.le_refl.
Qed.

(** ** Window mean *)

Section Window.
Variable T : ity.
Variable W : nat.
Hypothesis HT : In T all_ity.
Hypothesis HW : (0 < W)%nat.
Hypothesis HWT : Z.of_nat W <= imax T.

(** Values in [lo,hi], with room on both sides for the drift. *)
Definition spacious (lo hi : Z) (l : list Z) : Prop :=
  Forall (fun x => lo <= x <= hi) l /\
  imin T <= lo - Z.of_nat (length l) /\ hi + Z.of_nat (length l) <= imax T /\
  forall x y, In x l -> In y l -> inr (promote T) (x - y).

Definition width (l : list Z) : Z := Z.of_nat (length (lastn W l)).

Definition iwm_inv (l : list Z) (s : iwm) : Prop :=
  iwm_window s = lastn W l /\ (l = [] -> iwm_mean s = 0) /\
  ((length l <= W)%nat -> l <> [] -> zhull (iwm_mean s) l) /\
  Z.abs (width l * iwm_mean s - zsum (lastn W l)) <= Z.of_nat (length l) * (width l - 1) + (if l then 1 else 0).

Lemma zsum_app l k : zsum (l ++ k) = zsum l + zsum k.
Proof. unfold zsum. induction l as [|a l IH]; [reflexivity|]. cbn [app fold_right]. rewrite IH. lia. Qed.

Lemma zsum_bounds lo hi l : Forall (fun x => lo <= x <= hi) l ->
  Z.of_nat (length l) * lo <= zsum l <= Z.of_nat (length l) * hi.
Proof.
  intros H. unfold zsum. induction H as [|x l Hx H IH]; [cbn; lia|]. cbn [fold_right length]. nia.
Qed.

Lemma lastn_all {A} (l : list A) n : (length l <= n)%nat -> lastn n l = l.
Proof. intros H. unfold lastn. replace (length l - n)%nat with 0%nat by lia. reflexivity. Qed.

Lemma lastn_full {A} (l : list A) n x : (0 < n)%nat -> (n <= length l)%nat ->
  exists f t, lastn n l = f :: t /\ In f l /\ lastn n (l ++ [x]) = t ++ [x].
Proof.
  intros Hn HL. unfold lastn. rewrite app_length. cbn [length].
  assert (exists f t, skipn (length l - n) l = f :: t) as (f & t & E).
  { destruct (skipn (length l - n) l) as [|f t] eqn:E; [|eauto].
    apply (f_equal (@length _)) in E. rewrite skipn_length in E. cbn in E. lia. }
  exists f, t. split; [exact E|].
  assert (S1 : skipn (S (length l - n)) l = t).
  { assert (G : forall k (l : list A), skipn (S k) l = tl (skipn k l)).
    { clear. induction k as [|k IH]; intros [|a l]; try reflexivity. cbn in *. apply IH. }
    rewrite G, E. reflexivity. }
  split.
  - rewrite <- (firstn_skipn (length l - n) l). apply in_or_app. right. rewrite E. left. reflexivity.
  - replace (length l + 1 - n)%nat with (S (length l - n)) by lia.
    rewrite skipn_app. replace (S (length l - n) - length l)%nat with 0%nat by lia.
    rewrite S1. reflexivity.
Qed.

Lemma iwm_step lo hi l s x : iwm_inv l s -> spacious lo hi (l ++ [x]) ->
  exists s', iwm_push T W s x = Some s' /\ iwm_inv (l ++ [x]) s'.
Proof.
  intros (EW & E0 & EH & EA) (RF & RL & RH & RD).
  rewrite app_length in RL, RH. cbn [length] in RL, RH.
  pose proof (imax_szmod T HT) as HS. pose proof (promote_in T HT) as HP.
  pose proof (inr_0 T HT) as Z0. pose proof (promote_range T 0 HT Z0) as ZP.
  assert (RF' : Forall (fun x => lo <= x <= hi) l) by (apply Forall_app in RF; apply RF).
  assert (Ix : In x (l ++ [x])) by (apply in_or_app; right; left; reflexivity).
  assert (Bx : lo <= x <= hi) by (rewrite Forall_forall in RF; apply RF, Ix).
  unfold iwm_push. rewrite EW. unfold rb_full, rb_size.
  destruct (Nat.leb_spec W (length (lastn W l))) as [HF|HF].
  - (* full *)
    assert (HL : (W <= length l)%nat) by (rewrite lastn_length in HF; lia).
    assert (LW : length (lastn W l) = W) by (rewrite lastn_length; lia).
    destruct (lastn_full l W x HW HL) as (f & t & El & If & El').
    assert (NE : l <> []) by (intros ->; cbn in HL; lia).
    unfold width in EA. rewrite LW in EA |- *.
    assert (EA' : Z.abs (Z.of_nat W * iwm_mean s - zsum (lastn W l)) <= Z.of_nat (length l) * (Z.of_nat W - 1)).
    { destruct l; [congruence|]. lia. }
    assert (Bs : Forall (fun x => lo <= x <= hi) (lastn W l)).
    { apply Forall_forall. intros y Hy. rewrite Forall_forall in RF'. apply RF'.
      unfold lastn in Hy. rewrite <- (firstn_skipn (length l - W) l). apply in_or_app. auto. }
    pose proof (zsum_bounds _ _ _ Bs) as SB. rewrite LW in SB.
    rewrite El. unfold rb_front. cbn [hd_error bind].
    assert (Pd : inr (promote T) (x - f)) by (apply RD; [exact Ix|apply in_or_app; auto]).
    unfold isub. rewrite (iresult_in _ _ HP Pd). cbn [bind].
    rewrite nat_N_Z. rewrite wrap_id; [|exact HT|unfold inr in *; lia].
    unfold idiv. destruct (Z.eqb_spec (Z.of_nat W) 0) as [X|_]; [lia|].
    destruct (quot_between (x - f) (Z.of_nat W) ltac:(lia)) as [Q1 Q2].
    pose proof (quot_rem_bound (x - f) (Z.of_nat W) ltac:(lia)) as QR.
    set (q := Z.quot (x - f) (Z.of_nat W)) in *.
    assert (Pq : inr (promote T) q).
    { unfold inr in *.
      destruct (Z_le_gt_dec 0 (x - f)); [specialize (Q1 ltac:(lia))|specialize (Q2 ltac:(lia))]; lia. }
    rewrite (iresult_in _ _ HP Pq). cbn [bind].
    set (m := iwm_mean s) in *. set (w := Z.of_nat W) in *. set (n := Z.of_nat (length l)) in *.
    assert (S' : zsum (lastn W (l ++ [x])) = zsum (lastn W l) - f + x).
    { rewrite El', El, zsum_app. cbn [zsum fold_right]. change (zsum (f :: t)) with (f + zsum t). unfold zsum. cbn [fold_right]. lia. }
    assert (NB : Z.abs (w * (m + q) - zsum (lastn W (l ++ [x]))) <= (n + 1) * (w - 1)).
    { rewrite S'. replace (w * (m + q) - (zsum (lastn W l) - f + x))
        with ((w * m - zsum (lastn W l)) - ((x - f) - w * q)) by lia. lia. }
    assert (Bs' : Forall (fun x => lo <= x <= hi) (lastn W (l ++ [x]))).
    { apply Forall_forall. intros y Hy. rewrite Forall_forall in RF. apply RF.
      unfold lastn in Hy. rewrite <- (firstn_skipn (length (l ++ [x]) - W) (l ++ [x])). apply in_or_app. auto. }
    assert (LW' : length (lastn W (l ++ [x])) = W) by (rewrite lastn_length, app_length; cbn; lia).
    pose proof (zsum_bounds _ _ _ Bs') as SB'. rewrite LW' in SB'. fold w in SB'.
    assert (Pm : inr T (m + q)).
    { unfold inr. assert (1 <= w) by lia. assert (0 <= n) by lia.
      set (S := zsum (lastn W (l ++ [x]))) in *.
      assert (lo - (n + 1) <= m + q).
      { apply Z.mul_le_mono_pos_l with w; [lia|]. nia. }
      assert (m + q <= hi + (n + 1)).
      { apply Z.mul_le_mono_pos_l with w; [lia|]. nia. }
      lia. }
    unfold iadd. rewrite (iresult_in _ _ HP (promote_range _ _ HT Pm)). cbn [bind].
    rewrite wrap_id by assumption. eexists. split; [reflexivity|].
    unfold iwm_inv, width. cbn [iwm_window iwm_mean].
    split; [|split; [intros X; destruct l; discriminate|split]].
    + unfold rb_push_back, rb_full. rewrite <- El, LW.
      destruct (Nat.leb_spec W W); [|lia]. rewrite El. cbn [tl]. symmetry. exact El'.
    + rewrite app_length. cbn [length]. lia.
    + rewrite LW', app_length. cbn [length]. fold w. replace (Z.of_nat (length l + 1)) with (n + 1) by lia.
      destruct (l ++ [x]) eqn:X; [destruct l; discriminate|]. lia.
  - (* filling *)
    assert (HL : (length l < W)%nat) by (rewrite lastn_length in HF; lia).
    rewrite (lastn_all l) in * by lia. unfold width in EA. rewrite (lastn_all l) in EA by lia.
    set (n := Z.of_nat (length l)) in *.
    rewrite szadd_small by lia.
    replace (Z.of_N (N.of_nat (length l) + 1)) with (n + 1) by lia.
    set (m := iwm_mean s) in *.
    assert (Bm : l <> [] -> lo <= m <= hi).
    { intros NE. destruct (EH ltac:(lia) NE) as [(a & Ha & La) (b & Hb & Lb)].
      rewrite Forall_forall in RF'. pose proof (RF' a Ha). pose proof (RF' b Hb). lia. }
    assert (Pd : inr (promote T) (x - m)).
    { destruct l as [|y l].
      - rewrite (E0 eq_refl), Z.sub_0_r.
        apply promote_range; [exact HT|]. unfold inr. lia.
      - destruct (EH ltac:(lia) ltac:(discriminate)) as [(a & Ha & La) (b & Hb & Lb)].
        pose proof (RD x a Ix ltac:(apply in_or_app; auto)) as D1.
        pose proof (RD x b Ix ltac:(apply in_or_app; auto)) as D2. unfold inr in *. lia. }
    unfold isub. rewrite (iresult_in _ _ HP Pd). cbn [bind].
    rewrite wrap_id; [|exact HT|unfold inr in *; lia].
    unfold idiv. destruct (Z.eqb_spec (n + 1) 0) as [X|_]; [lia|].
    destruct (quot_between (x - m) (n + 1) ltac:(lia)) as [Q1 Q2].
    pose proof (quot_rem_bound (x - m) (n + 1) ltac:(lia)) as QR.
    assert (HZ : zhull (m + Z.quot (x - m) (n + 1)) (l ++ [x])).
    { destruct l as [|y l].
      - assert (Em : m + Z.quot (x - m) (n + 1) = x).
        { unfold n. cbn [length]. change (Z.of_nat 0 + 1) with 1. rewrite Z.quot_1_r. lia. }
        rewrite Em. split; exists x; (split; [left; reflexivity|apply Z.le_refl]).
      - apply zhull_step; [discriminate|apply EH; [lia|discriminate]|lia]. }
    set (q := Z.quot (x - m) (n + 1)) in *.
    assert (Pq : inr (promote T) q).
    { unfold inr in *.
      destruct (Z_le_gt_dec 0 (x - m)); [specialize (Q1 ltac:(lia))|specialize (Q2 ltac:(lia))]; lia. }
    rewrite (iresult_in _ _ HP Pq). cbn [bind].
    assert (Pm : inr T (m + q)).
    { destruct HZ as [(a & Ha & La) (b & Hb & Lb)]. rewrite Forall_forall in RF.
      pose proof (RF a Ha). pose proof (RF b Hb). unfold inr. lia. }
    unfold iadd. rewrite (iresult_in _ _ HP (promote_range _ _ HT Pm)). cbn [bind].
    rewrite wrap_id by assumption. eexists. split; [reflexivity|].
    unfold iwm_inv, width. cbn [iwm_window iwm_mean].
    rewrite (lastn_all (l ++ [x])) by (rewrite app_length; cbn; lia).
    split; [|split; [intros X; destruct l; discriminate|split]].
    + unfold rb_push_back, rb_full. destruct (Nat.leb_spec W (length l)); [lia|reflexivity].
    + intros _ _. exact HZ.
    + rewrite app_length, zsum_snoc. cbn [length]. replace (Z.of_nat (length l + 1)) with (n + 1) by lia.
      replace ((n + 1) * (m + q) - (zsum l + x)) with ((n * m - zsum l) - ((x - m) - (n + 1) * q)) by lia.
      destruct (l ++ [x]) eqn:X; [destruct l; discriminate|].
      assert (0 <= n) by lia. destruct l as [|y l].
      * unfold n in *. cbn [length] in *. cbn [zsum fold_right] in *. lia.
      * assert (Z.abs (n * m - zsum (y :: l)) <= n * (n - 1)) by lia. nia.
Qed.

Lemma iwm_run lo hi ops :
  (forall pre post, ops = pre ++ post -> spacious lo hi (since_clear pre)) ->
  exists s, run_opt (iwm_push T W) iwm_clear iwm_init ops = Some s /\ iwm_inv (since_clear ops) s.
Proof.
  apply run_opt_inv.
  - unfold iwm_inv, width, lastn. cbn. repeat split; try congruence; lia.
  - intros s l _. unfold iwm_inv, width, lastn. cbn. repeat split; try congruence; lia.
  - intros l s a. apply iwm_step.
Qed.
End Window.
