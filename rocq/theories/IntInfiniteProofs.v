(** * Proofs about the integer recursive filter *)

From Coq Require Import ZArith NArith Bool List Lia Psatz Zquot.
From Verif Require Import Arith History HistoryLemmas Buffer CInt IntMoments SpecInt IntProofs IntProofs2
  IntInfinite SpecIntInfinite.
Import ListNotations.
Local Open Scope Z_scope.

Lemma quot_abs t k : k <> 0 ->
  Z.abs (k * Z.quot t k) <= Z.abs t /\ Z.abs (t - k * Z.quot t k) < Z.abs k /\ 0 <= (k * Z.quot t k) * t.
Proof.
  intros Hk. pose proof (Z.quot_rem' t k) as E. pose proof (Z.rem_bound_abs t k Hk) as R.
  pose proof (Z.rem_sign_mul t k Hk) as S.
  set (r := Z.rem t k) in *. set (p := k * Z.quot t k) in *.
  assert (C : 0 <= p * t).
  { subst p.
    destruct (Z.le_gt_cases 0 t) as [Ht|Ht].
    - enough (0 <= k * Z.quot t k) by nia.
      destruct (Z.lt_trichotomy k 0) as [H|[H|H]]; [|lia|].
      + pose proof (Z.quot_opp_r t k Hk). pose proof (Z.quot_pos t (- k) Ht ltac:(lia)). nia.
      + pose proof (Z.quot_pos t k Ht H). nia.
    - enough (k * Z.quot t k <= 0) by nia.
      destruct (Z.lt_trichotomy k 0) as [H|[H|H]]; [|lia|].
      + pose proof (Z.quot_opp_opp t k Hk). pose proof (Z.quot_pos (- t) (- k) ltac:(lia) ltac:(lia)). nia.
      + pose proof (Z.quot_opp_l t k Hk). pose proof (Z.quot_pos (- t) k ltac:(lia) H). nia. }
  assert (Z0 : t = 0 -> p = 0).
  { intros ->. subst p. rewrite Z.quot_0_l by exact Hk. lia. }
  assert (E' : t = p + r) by (subst p; lia).
  clearbody p r. split; [|split]; [|rewrite E'; replace (p + r - p) with r by ring; exact R|exact C].
  destruct (Z.lt_trichotomy t 0) as [H|[H|H]].
  - assert (p <= 0) by nia. assert (r <= 0) by nia. lia.
  - rewrite (Z0 H). lia.
  - assert (0 <= p) by nia. assert (0 <= r) by nia. lia.
Qed.

Lemma zdot_bound M w c : 0 <= M -> Forall (fun x => Z.abs x <= M) w ->
  Z.abs (zdot w c) <= M * zsum (map Z.abs c).
Proof.
  intros HM Hw. revert c. induction Hw as [|u w Hu _ IH]; intros c.
  - cbn [zdot]. assert (Nn : 0 <= zsum (map Z.abs c)).
    { clear. induction c as [|z c IHc]; [reflexivity|]. unfold zsum in *; cbn [map fold_right]; lia. }
    rewrite Z.abs_0. nia.
  - destruct c as [|v c]; [cbn; lia|]. cbn [zdot]. unfold zsum; cbn [map fold_right]; fold (zsum (map Z.abs c)).
    specialize (IH c). assert (Z.abs (u * v) <= M * Z.abs v) by (rewrite Z.abs_mul; nia). lia.
Qed.

Lemma rb_push_front_cap {A} n (l : list A) y : (0 < n)%nat ->
  rb_push_front n (firstn n l) y = firstn n (y :: l).
Proof.
  intros Hn. pose proof (ImpulseProofs.push_front_window n (rev l) y Hn) as E.
  rewrite rev_involutive, rev_app_distr, rev_involutive in E. exact E.
Qed.

Lemma Forall_firstn {A} (P : A -> Prop) n l : Forall P l -> Forall P (firstn n l).
Proof.
  intros H. rewrite Forall_forall in *. intros z Hz. apply H.
  rewrite <- (firstn_skipn n l). apply in_or_app. auto.
Qed.

(** The bounds under which nothing overflows. *)
Definition iir_fits (T : ity) (b a : list Z) (k M Y : Z) : Prop :=
  k <> 0 /\ 0 <= Y <= imax T /\
  M * zsum (map Z.abs b) <= imax T /\
  Y * zsum (map Z.abs a) <= imax T /\
  M * zsum (map Z.abs b) + Y * zsum (map Z.abs a) <= imax (promote T) /\
  M * zsum (map Z.abs b) + Y * zsum (map Z.abs a) < Z.abs k * (Y + 1).

Section Run.
Variables (T : ity) (b a : list Z) (k M Y : Z).
Hypothesis HT : In T all_ity.
Hypothesis HS : isigned T = true.
Hypothesis Hb : b <> [].
Hypothesis Ha : a <> [].
Hypothesis HF : iir_fits T b a k M Y.

Definition iir_ok (l : list Z) (s : iiir) : Prop :=
  exists ys, s = IIIR (firstn (length b) (rev l)) b (firstn (length a) ys) k a /\
    int_response b a k (rev l) ys /\ Forall (fun y => Z.abs y <= Y) ys.

Lemma product_fits N c w : 0 <= N -> N * zsum (map Z.abs c) <= imax T -> Forall (fun x => Z.abs x <= N) w ->
  ifir_product T (firstn (length c) w) c = Some (zdot w c).
Proof.
  intros HN HB Hw.
  assert (HW : Forall (fun x => Z.abs x <= N /\ (isigned T = false -> 0 <= x)) (firstn (length c) w)).
  { apply Forall_firstn. eapply Forall_impl; [|exact Hw]. intros z Hz. split; [exact Hz|congruence]. }
  pose proof (fir_bounded T HT N _ c 0 HW ltac:(congruence) ltac:(cbn; lia) ltac:(lia) HN) as E.
  change (ifir_product T (firstn (length c) w) c = Some (0 + zdot (firstn (length c) w) c)) in E.
  rewrite E, zdot_firstn. reflexivity.
Qed.

Lemma signed_in t z : isigned t = true -> Z.abs z <= imax t -> inr t z.
Proof. intros E H. unfold inr, imin, imax in *. rewrite E in *. lia. Qed.

Lemma promote_signed : isigned (promote T) = true.
Proof. unfold promote. destruct (ibits T <? 32); [reflexivity|exact HS]. Qed.

Lemma iir_step l s x : iir_ok l s -> Forall (fun x => Z.abs x <= M) (l ++ [x]) ->
  exists s', iiir_push T s x = Some s' /\ iir_ok (l ++ [x]) s'.
Proof.
  intros (ys & -> & R & B) HL. destruct HF as (Hk & HY & F1 & F2 & F3 & F4).
  assert (HM : 0 <= M).
  { apply Forall_app in HL; destruct HL as [_ HL]; inversion HL as [|? ? H _]; lia. }
  assert (Lb : (0 < length b)%nat) by (destruct b; [congruence|cbn; lia]).
  assert (La : (0 < length a)%nat) by (destruct a; [congruence|cbn; lia]).
  unfold iiir_push. cbn [iiir_input iiir_input_coefficients iiir_output iiir_scale iiir_output_coefficients].
  rewrite ImpulseProofs.push_front_window by exact Lb.
  rewrite (product_fits M) by (try assumption; apply Forall_rev; exact HL). cbn [bind].
  rewrite (product_fits Y) by (try assumption; lia). cbn [bind].
  set (xs := rev (l ++ [x])).
  pose proof (zdot_bound M xs b HM ltac:(apply Forall_rev; exact HL)) as B1.
  pose proof (zdot_bound Y ys a ltac:(lia) B) as B2.
  set (t := zdot xs b - zdot ys a) in *.
  assert (Bt : Z.abs t <= M * zsum (map Z.abs b) + Y * zsum (map Z.abs a)) by lia.
  unfold isub. fold t. rewrite iresult_in; [|apply promote_in, HT|apply signed_in; [apply promote_signed|lia]].
  cbn [bind]. unfold idiv. rewrite (proj2 (Z.eqb_neq k 0) Hk).
  pose proof (quot_abs t k Hk) as (Q1 & Q2 & Q3).
  assert (Bq : Z.abs (Z.quot t k) <= Y).
  { rewrite Z.abs_mul in Q1. assert (0 < Z.abs k) by lia. nia. }
  assert (Iq : inr T (Z.quot t k)) by (apply signed_in; [exact HS|lia]).
  rewrite iresult_in; [|apply promote_in, HT|apply promote_range; [exact HT|exact Iq]].
  cbn [bind]. rewrite (wrap_id T _ HT Iq), rb_push_front_cap by exact La.
  eexists; split; [reflexivity|]. exists (Z.quot t k :: ys). split; [reflexivity|]. split.
  - rewrite rev_app_distr. cbn [rev app int_response]. split; [exact R|].
    change (x :: rev l) with ([x] ++ rev l). change [x] with (rev [x]). rewrite <- rev_app_distr. fold xs.
    fold t. auto.
  - constructor; assumption.
Qed.

Lemma iir_run ops :
  (forall pre post, ops = pre ++ post -> Forall (fun x => Z.abs x <= M) (since_clear pre)) ->
  exists s, run_opt (iiir_push T) iiir_clear (iiir_new b a k) ops = Some s /\ iir_ok (since_clear ops) s.
Proof.
  apply (run_opt_inv _ _ _ (fun l => Forall (fun x => Z.abs x <= M) l) iir_ok).
  - exists []. cbn. rewrite !firstn_nil. repeat split. constructor.
  - intros s l (ys & -> & _). exists []. cbn. rewrite !firstn_nil. repeat split. constructor.
  - intros l s x. apply iir_step.
Qed.

Lemma iir_value_run ops :
  (forall pre post, ops = pre ++ post -> Forall (fun x => Z.abs x <= M) (since_clear pre)) ->
  exists s ys, run_opt (iiir_push T) iiir_clear (iiir_new b a k) ops = Some s /\
    int_response b a k (rev (since_clear ops)) ys /\
    Forall (fun y => Z.abs y <= Y) ys /\ iiir_value s = hd 0 ys.
Proof.
  intros H. destruct (iir_run ops H) as (s & E & ys & -> & R & B).
  exists (IIIR (firstn (length b) (rev (since_clear ops))) b (firstn (length a) ys) k a), ys.
  split; [exact E|]. split; [exact R|]. split; [exact B|].
  unfold iiir_value. cbn [iiir_output]. unfold rb_front.
  destruct a as [|a0 a']; [congruence|]. destruct ys; reflexivity.
Qed.
End Run.

(** The outputs are determined by the inputs. *)
Lemma quot_unique t k y : k <> 0 -> Z.abs (k * y) <= Z.abs t -> Z.abs (t - k * y) < Z.abs k -> 0 <= (k * y) * t ->
  y = Z.quot t k.
Proof.
  intros Hk H1 H2 H3. apply (proj1 (Zquot.Zquot_mod_unique_full t k y (t - k * y) ltac:(unfold Zquot.Remainder;
    destruct (Z.lt_trichotomy t 0) as [H|[H|H]];
    [right; assert (k * y <= 0) by nia; lia|subst t; left; assert (k * y = 0) by lia; lia
    |left; assert (0 <= k * y) by nia; lia]) ltac:(ring))).
Qed.

Lemma int_response_unique b a k xs ys zs : k <> 0 ->
  int_response b a k xs ys -> int_response b a k xs zs -> ys = zs.
Proof.
  intros Hk. revert ys zs. induction xs as [|x xs IH]; intros [|y ys] [|z zs]; cbn; try tauto.
  intros (R1 & A1 & A2 & A3) (R2 & B1 & B2 & B3). assert (ys = zs) as <- by (apply IH; assumption).
  f_equal. etransitivity; [apply quot_unique; eassumption|symmetry; apply quot_unique; eassumption].
Qed.

(** A zero scale. *)
Lemma iir_zero_push T s x : iiir_scale s = 0 -> iiir_push T s x = None.
Proof.
  intros E. unfold iiir_push. destruct (ifir_product T _ (iiir_input_coefficients s)); [|reflexivity].
  cbn [bind]. destruct (ifir_product T _ (iiir_output_coefficients s)); [|reflexivity]. cbn [bind].
  destruct (isub (promote T) z z0); [|reflexivity]. cbn [bind]. unfold idiv. rewrite E. reflexivity.
Qed.

Lemma run_opt_none {S A} (push : S -> A -> option S) clear ops :
  fold_left (fun o op => bind o (fun s => match op with Push x => push s x | Clear => Some (clear s) end)) ops None = None.
Proof. induction ops; [reflexivity|exact IHops]. Qed.

Lemma iir_zero_run T b a ops x : In (Push x) ops ->
  run_opt (iiir_push T) iiir_clear (iiir_new b a 0) ops = None.
Proof.
  assert (G : forall s, iiir_scale s = 0 -> In (Push x) ops -> run_opt (iiir_push T) iiir_clear s ops = None).
  { induction ops as [|o ops IH]; intros s Es H; [destruct H|].
    unfold run_opt. cbn [fold_left bind]. destruct o as [z|].
    - rewrite iir_zero_push by exact Es. apply run_opt_none.
    - destruct H as [H|H]; [discriminate|]. apply (IH (iiir_clear s)); [exact Es|exact H]. }
  apply G. reflexivity.
Qed.

(** clear() makes the filter as new. *)
Lemma iir_push_params T s x s' : iiir_push T s x = Some s' ->
  iiir_clear s' = iiir_clear s.
Proof.
  unfold iiir_push. destruct (ifir_product T _ (iiir_input_coefficients s)); [|discriminate].
  cbn [bind]. destruct (ifir_product T _ (iiir_output_coefficients s)); [|discriminate]. cbn [bind].
  destruct (isub _ _ _); [|discriminate]. cbn [bind]. destruct (idiv _ _ _); [|discriminate].
  cbn [bind]. intros E. injection E as <-. reflexivity.
Qed.

Lemma iir_cleared T b a k ops s : run_opt (iiir_push T) iiir_clear (iiir_new b a k) ops = Some s ->
  iiir_clear s = iiir_new b a k.
Proof.
  revert s. induction ops as [|o ops IH] using rev_ind; intros s E; [injection E as <-; reflexivity|].
  rewrite run_opt_snoc in E. destruct (run_opt _ _ _ ops) as [s1|]; [|discriminate]. cbn [bind] in E.
  specialize (IH s1 eq_refl). destruct o as [x|].
  - rewrite (iir_push_params _ _ _ _ E). exact IH.
  - injection E as <-. exact IH.
Qed.

(** ** A smoother: input coefficient 1, output coefficient -(k-1), scale k *)

Fixpoint smooth (k x : Z) (n : nat) : Z :=
  match n with O => 0 | S n => let y := smooth k x n in y + Z.quot (x - y) k end.

Lemma smooth_below k x n : 2 <= k -> 0 <= x -> 0 <= smooth k x n <= x - Z.min x (k - 1).
Proof.
  intros Hk Hx. induction n as [|n IH]; [cbn; lia|]. cbn [smooth]. set (y := smooth k x n) in *.
  pose proof (quot_abs (x - y) k ltac:(lia)) as (Q1 & Q2 & Q3).
  set (q := Z.quot (x - y) k) in *. assert (0 <= q) by nia.
  assert (k * q <= x - y) by lia. split; [lia|].
  destruct (Z.le_gt_cases k (x - y)) as [C|C]; [|assert (q = 0) by nia; lia].
  assert (1 <= q) by nia. nia.
Qed.

Lemma smooth_step k x n : 2 <= k -> 0 <= x ->
  smooth k x n = x - Z.min x (k - 1) \/ smooth k x n < smooth k x (S n).
Proof.
  intros Hk Hx. pose proof (smooth_below k x n Hk Hx) as B. cbn [smooth]. set (y := smooth k x n) in *.
  destruct (Z.le_gt_cases k (x - y)) as [C|C]; [right|left; lia].
  pose proof (quot_abs (x - y) k ltac:(lia)) as (Q1 & Q2 & Q3).
  set (q := Z.quot (x - y) k) in *. assert (0 < q) by nia. lia.
Qed.

Lemma smooth_settles k x n : 2 <= k -> 0 <= x -> x <= Z.of_nat n -> smooth k x n = x - Z.min x (k - 1).
Proof.
  intros Hk Hx Hn.
  assert (G : forall m, Z.min (Z.of_nat m) (x - Z.min x (k - 1)) <= smooth k x m).
  { induction m as [|m IH]; [cbn [smooth]; lia|].
    pose proof (smooth_below k x m Hk Hx). pose proof (smooth_below k x (S m) Hk Hx).
    destruct (smooth_step k x m Hk Hx) as [E|E]; [|lia].
    enough (smooth k x m <= smooth k x (S m)) by lia. cbn [smooth].
    pose proof (quot_abs (x - smooth k x m) k ltac:(lia)) as (Q1 & Q2 & Q3). nia. }
  pose proof (G n). pose proof (smooth_below k x n Hk Hx). lia.
Qed.

Lemma rev_repeat {A} (x : A) n : rev (repeat x n) = repeat x n.
Proof.
  induction n as [|n IH]; [reflexivity|]. cbn [repeat rev]. rewrite IH. symmetry. apply repeat_cons.
Qed.

Lemma smooth_response k x n ys : 2 <= k -> 0 <= x ->
  int_response [1] [1 - k] k (repeat x n) ys -> hd 0 ys = smooth k x n.
Proof.
  intros Hk Hx. revert ys. induction n as [|n IH]; intros ys R.
  - destruct ys; [reflexivity|destruct R].
  - cbn [repeat] in R. destruct ys as [|y ys]; [destruct R|].
    cbn [int_response] in R. destruct R as (R & A1 & A2 & A3).
    cbn [hd smooth]. specialize (IH ys R). set (y' := smooth k x n) in *.
    assert (T : zdot (x :: repeat x n) [1] - zdot ys [1 - k] = k * y' + (x - y')).
    { assert (Z0 : forall l, zdot l [] = 0) by (intros [|]; reflexivity).
      cbn [zdot]. rewrite Z0. clearbody y'. destruct ys as [|z ys]; cbn [zdot hd] in *; subst y'; [|rewrite Z0]; ring. }
    rewrite T in *. pose proof (smooth_below k x n Hk Hx) as B. fold y' in B.
    rewrite (quot_unique (k * y' + (x - y')) k y ltac:(lia) A1 A2 A3).
    pose proof (quot_abs (x - y') k ltac:(lia)) as (Q1 & Q2 & Q3).
    symmetry. set (q := Z.quot (x - y') k) in *. apply quot_unique; [lia| | |]; nia.
Qed.

Lemma pushes_prefix {A} (l : list A) pre post : pushes l = pre ++ post -> exists n, since_clear pre = firstn n l.
Proof.
  intros E. exists (length pre). unfold pushes in E.
  assert (pre = map (@Push A) (firstn (length pre) l)) as P.
  { rewrite <- firstn_map, E, firstn_app, Nat.sub_diag, firstn_O, app_nil_r, firstn_all. reflexivity. }
  rewrite P at 1. apply since_clear_pushes.
Qed.

Lemma smooth_run T k x n : In T all_ity -> isigned T = true -> 2 <= k -> 0 < x -> k * x <= imax T ->
  exists s, run_opt (iiir_push T) iiir_clear (iiir_new [1] [1 - k] k) (pushes (repeat x n)) = Some s /\
    iiir_value s = smooth k x n.
Proof.
  intros HT HS Hk Hx HB.
  assert (HF : iir_fits T [1] [1 - k] k x x).
  { assert (imax T <= imax (promote T)).
    { destruct (promote_range T (imax T) HT); [|assumption]. split; [|lia].
      unfold imin, imax. rewrite HS. pose proof (ity_bits T HT).
      assert (0 < 2 ^ (ibits T - 1)) by (apply Z.pow_pos_nonneg; lia). lia. }
    unfold iir_fits, zsum. cbn [map fold_right]. rewrite Z.abs_eq by lia.
    rewrite (Z.abs_neq (1 - k)) by lia. rewrite (Z.abs_eq k) by lia. repeat split; try nia. }
  destruct (iir_value_run T [1] [1 - k] k x x HT HS ltac:(discriminate) ltac:(discriminate) HF (pushes (repeat x n)))
    as (s & ys & E & R & _ & V).
  - intros pre post P. destruct (pushes_prefix _ _ _ P) as (m & ->). apply Forall_firstn.
    apply Forall_forall. intros z Hz. apply repeat_spec in Hz. lia.
  - exists s. split; [exact E|]. rewrite V. rewrite since_clear_pushes, rev_repeat in R.
    apply smooth_response; [lia|lia|exact R].
Qed.
