(** * Proofs about integer windows whose means are integers *)

From Coq Require Import ZArith NArith Bool List Lia Arith.
From Verif Require Import Arith History HistoryLemmas WindowProofs Buffer CInt IntMoments SpecInt IntProofs IntExact.
Import ListNotations.
Local Open Scope Z_scope.

(** Sum of the squared deviations from the mean. *)
Definition zssq (l : list Z) : Z := zsum (map (fun x => (x - zmean l) ^ 2) l).

Definition zsq (l : list Z) : Z := zsum (map (fun x => x * x) l).

Lemma zsq_app l k : zsq (l ++ k) = zsq l + zsq k.
Proof. unfold zsq, zsum. induction l as [|a l IH]; [reflexivity|]. cbn [app map fold_right]. rewrite IH. lia. Qed.

Lemma zdev_expand c l : zsum (map (fun x => (x - c) ^ 2) l) = zsq l - 2 * c * zsum l + Z.of_nat (length l) * (c * c).
Proof.
  induction l as [|a l IH]; [cbn; lia|].
  cbn [map length]. change (zsum (?a :: ?b)) with (a + zsum b). rewrite IH.
  unfold zsq. cbn [map]. change (zsum (?a :: ?b)) with (a + zsum b). nia.
Qed.

Lemma zssq_alt l : integral_mean l -> zssq l = zsq l - Z.of_nat (length l) * (zmean l * zmean l).
Proof.
  intros I. unfold zssq. rewrite zdev_expand, <- (zmean_times l I). ring.
Qed.

Lemma zsum_le_len b l : Forall (fun x => x <= b) l -> zsum l <= Z.of_nat (length l) * b.
Proof. apply zsum_upper. Qed.

Section W.
Variable T : ity.
Variable W : nat.
Variable B : Z.
Hypothesis HT : In T all_ity.
Hypothesis HS : isigned T = true.
Hypothesis HW : (0 < W)%nat.
Hypothesis HWT : Z.of_nat W <= imax T.
Hypothesis HB : 2 * B <= imax T.

(** Condition on the values since the last clear. *)
Definition wok (l : list Z) : Prop :=
  Forall (fun x => Z.abs x <= B) l /\ integral_mean (lastn W l).

Local Lemma range z : Z.abs z <= imax T -> inr T z.
Proof.
  clear -HT HS. intros H. unfold inr, imin, imax in *. rewrite HS in *. lia.
Qed.

Local Lemma prange z : Z.abs z <= imax T -> inr (promote T) z.
Proof. intros H. apply promote_range; [exact HT|]. apply range, H. Qed.

Local Lemma lastn_In {A} (x : A) n l : In x (lastn n l) -> In x l.
Proof.
  intros H. unfold lastn in H. rewrite <- (firstn_skipn (length l - n) l). apply in_or_app. right. exact H.
Qed.

Local Lemma mean_bound l : l <> [] -> Forall (fun x => Z.abs x <= B) l -> integral_mean l -> Z.abs (zmean l) <= B.
Proof.
  intros NE F I. destruct (zmean_hull l NE I) as [(a & Ha & La) (b & Hb & Lb)].
  rewrite Forall_forall in F. pose proof (F a Ha). pose proof (F b Hb). lia.
Qed.

Definition iwm_exact (l : list Z) (s : iwm) : Prop :=
  iwm_window s = lastn W l /\ iwm_mean s = zmean (lastn W l) /\ wok l.

(** The window before and after a push: the length grows by one, or the oldest
    value goes. *)
Lemma window_cases (l : list Z) (x : Z) :
  ((length l < W)%nat /\ lastn W l = l /\ lastn W (l ++ [x]) = l ++ [x]) \/
  ((W <= length l)%nat /\ exists f t, lastn W l = f :: t /\ length (f :: t) = W /\ lastn W (l ++ [x]) = t ++ [x]).
Proof.
  destruct (le_lt_dec W (length l)) as [H|H].
  - right. split; [exact H|]. destruct (lastn_full W HW l W x HW H) as (f & t & E & _ & E').
    exists f, t. split; [exact E|]. split; [rewrite <- E, lastn_length; lia|exact E'].
  - left. split; [exact H|]. split; apply lastn_short; rewrite ?app_length; cbn [length]; lia.
Qed.

Lemma lastn_bound l : Forall (fun x => Z.abs x <= B) l -> Forall (fun x => Z.abs x <= B) (lastn W l).
Proof.
  intros F. apply Forall_forall. intros y Hy. rewrite Forall_forall in F. apply F, (lastn_In _ _ _ Hy).
Qed.

Lemma iwm_exact_step l s x : iwm_exact l s -> wok (l ++ [x]) ->
  exists s', iwm_push T W s x = Some s' /\ iwm_exact (l ++ [x]) s'.
Proof.
  intros (EW & EM & (RF & RI)) (RF' & RI').
  pose proof (imax_szmod T HT) as HM. pose proof (promote_in T HT) as HP.
  assert (Bx : Z.abs x <= B).
  { rewrite Forall_forall in RF'. apply RF'. apply in_or_app. right. left. reflexivity. }
  pose proof (lastn_bound _ RF) as LB. pose proof (lastn_bound _ RF') as LB'.
  unfold iwm_push. rewrite EW, EM.
  destruct (window_cases l x) as [(HL & E1 & E2)|(HL & f & t & E1 & EL & E2)].
  - (* filling *)
    rewrite E1, E2 in *. unfold rb_full, rb_size. destruct (Nat.leb_spec W (length l)); [lia|].
    rewrite szadd_small by lia. set (n := Z.of_nat (length l)).
    replace (Z.of_N (N.of_nat (length l) + 1)) with (n + 1) by lia.
    pose proof (zmean_times _ RI) as M1. pose proof (zmean_times _ RI') as M2.
    rewrite zsum_snoc, app_length in M2. cbn [length] in M2.
    replace (Z.of_nat (length l + 1)) with (n + 1) in M2 by lia. fold n in M1.
    assert (Bm : Z.abs (zmean l) <= B).
    { destruct l as [|y l]; [rewrite zmean_nil; lia|]. apply mean_bound; [discriminate|exact RF|exact RI]. }
    assert (Bm' : Z.abs (zmean (l ++ [x])) <= B) by (apply mean_bound; [destruct l; discriminate|exact RF'|exact RI']).
    set (m := zmean l) in *. set (m' := zmean (l ++ [x])) in *.
    unfold isub. rewrite (iresult_in _ _ HP) by (apply prange; lia). cbn [bind].
    rewrite wrap_id; [|exact HT|apply range; lia].
    unfold idiv. destruct (Z.eqb_spec (n + 1) 0) as [X|_]; [lia|].
    replace (x - m) with ((m' - m) * (n + 1)) by nia. rewrite Z.quot_mul by lia.
    rewrite (iresult_in _ _ HP) by (apply prange; lia). cbn [bind]. unfold iadd.
    replace (m + (m' - m)) with m' by lia.
    rewrite (iresult_in _ _ HP) by (apply prange; lia). cbn [bind].
    rewrite wrap_id; [|exact HT|apply range; lia].
    eexists. split; [reflexivity|]. unfold iwm_exact. cbn [iwm_window iwm_mean]. rewrite E2.
    split; [|split; [reflexivity|split; [exact RF'|rewrite E2; exact RI']]].
    unfold rb_push_back, rb_full. destruct (Nat.leb_spec W (length l)); [lia|reflexivity].
  - (* full *)
    rewrite E1, E2 in *. unfold rb_full, rb_size. rewrite EL.
    destruct (Nat.leb_spec W W); [|lia]. cbn [rb_front hd_error bind].
    pose proof (zmean_times _ RI) as M1. pose proof (zmean_times _ RI') as M2.
    assert (EL' : length (t ++ [x]) = W) by (rewrite app_length; cbn [length] in *; lia).
    rewrite EL in M1. rewrite EL', zsum_snoc in M2. change (zsum (f :: t)) with (f + zsum t) in M1.
    assert (Bf : Z.abs f <= B) by (rewrite Forall_forall in LB; apply LB; left; reflexivity).
    assert (Bm : Z.abs (zmean (f :: t)) <= B) by (apply mean_bound; [discriminate|exact LB|exact RI]).
    assert (Bm' : Z.abs (zmean (t ++ [x])) <= B) by (apply mean_bound; [destruct t; discriminate|exact LB'|exact RI']).
    set (m := zmean (f :: t)) in *. set (m' := zmean (t ++ [x])) in *. set (n := Z.of_nat W) in *.
    unfold isub. rewrite (iresult_in _ _ HP) by (apply prange; lia). cbn [bind].
    rewrite nat_N_Z. fold n. rewrite wrap_id; [|exact HT|apply range; lia].
    unfold idiv. destruct (Z.eqb_spec n 0) as [X|_]; [lia|].
    replace (x - f) with ((m' - m) * n) by nia. rewrite Z.quot_mul by lia.
    rewrite (iresult_in _ _ HP) by (apply prange; lia). cbn [bind]. unfold iadd.
    replace (m + (m' - m)) with m' by lia.
    rewrite (iresult_in _ _ HP) by (apply prange; lia). cbn [bind].
    rewrite wrap_id; [|exact HT|apply range; lia].
    eexists. split; [reflexivity|]. unfold iwm_exact. cbn [iwm_window iwm_mean]. rewrite E2.
    split; [|split; [reflexivity|split; [exact RF'|rewrite E2; exact RI']]].
    unfold rb_push_back, rb_full. rewrite EL. destruct (Nat.leb_spec W W); [reflexivity|lia].
Qed.

Lemma wok_nil : wok [].
Proof. split; [constructor|]. exists 0. reflexivity. Qed.

Lemma iwm_exact_run ops : (forall pre post, ops = pre ++ post -> wok (since_clear pre)) ->
  exists s, run_opt (iwm_push T W) iwm_clear iwm_init ops = Some s /\ iwm_exact (since_clear ops) s.
Proof.
  apply run_opt_inv.
  - split; [reflexivity|]. split; [reflexivity|exact wok_nil].
  - intros s l _. split; [reflexivity|]. split; [reflexivity|exact wok_nil].
  - intros l s a. apply iwm_exact_step.
Qed.

(** ** Variance *)

Hypothesis HP : promote T = T.
Hypothesis HV : (Z.of_nat W + 1) * (4 * (B * B)) <= imax T.

Definition iwv_exact (l : list Z) (s : iwv) : Prop :=
  iwm_exact l (iwv_super s) /\ iwv_sum s = zssq (lastn W l).

Lemma zssq_bound l : Forall (fun x => Z.abs x <= B) l -> integral_mean l -> 
  0 <= zssq l <= Z.of_nat (length l) * (4 * (B * B)).
Proof.
  intros F I. destruct l as [|y l0] eqn:E; [cbn; lia|]. rewrite <- E in *.
  assert (NE : l <> []) by congruence. clear E y l0.
  pose proof (mean_bound l NE F I) as M. unfold zssq.
  rewrite <- (map_length (fun x => (x - zmean l) ^ 2) l). split.
  - assert (G : Forall (fun x => 0 <= x) (map (fun x => (x - zmean l) ^ 2) l)).
    { apply Forall_forall. intros y Hy. apply in_map_iff in Hy. destruct Hy as (z & <- & _). nia. }
    apply zsum_lower in G. lia.
  - apply zsum_upper. apply Forall_forall. intros y Hy. apply in_map_iff in Hy. destruct Hy as (z & <- & Hz).
    rewrite Forall_forall in F. specialize (F z Hz). nia.
Qed.

Local Lemma delta_ok x m m' : Z.abs x <= B -> Z.abs m <= B -> Z.abs m' <= B ->
  iwv_delta T x m m' = Some ((x - m) * (x - m')) /\ Z.abs ((x - m) * (x - m')) <= 4 * (B * B).
Proof.
  intros Hx Hm Hm'. pose proof (promote_in T HT) as HPi.
  assert (D : Z.abs ((x - m) * (x - m')) <= 4 * (B * B)).
  { rewrite Z.abs_mul. replace (4 * (B * B)) with ((2 * B) * (2 * B)) by ring. apply Z.mul_le_mono_nonneg; lia. }
  split; [|exact D]. assert (0 <= B * B) by nia.
  unfold iwv_delta, isub, imul.
  rewrite (iresult_in _ _ HPi) by (apply prange; lia). cbn [bind].
  rewrite (iresult_in _ _ HPi) by (apply prange; lia). cbn [bind].
  rewrite (iresult_in _ _ HPi) by (apply prange; nia). cbn [bind].
  rewrite wrap_id; [reflexivity|exact HT|]. apply range. nia.
Qed.

Lemma iwv_exact_step l s x : iwv_exact l s -> wok (l ++ [x]) ->
  exists s', iwv_push T W s x = Some s' /\ iwv_exact (l ++ [x]) s'.
Proof.
  intros (EX & ES) WK. pose proof (promote_in T HT) as HPi.
  destruct (iwm_exact_step l (iwv_super s) x EX WK) as (s1 & EP & EX').
  pose proof EX as (EW & EM & (RF & RI)). pose proof EX' as (EW' & EM' & (RF' & RI')).
  assert (Bx : Z.abs x <= B).
  { rewrite Forall_forall in RF'. apply RF'. apply in_or_app. right. left. reflexivity. }
  pose proof (lastn_bound _ RF) as LB. pose proof (lastn_bound _ RF') as LB'.
  pose proof (zssq_bound _ LB RI) as SB. pose proof (zssq_bound _ LB' RI') as SB'.
  pose proof (zssq_alt _ RI) as A1. pose proof (zssq_alt _ RI') as A2.
  pose proof (zmean_times _ RI) as M1. pose proof (zmean_times _ RI') as M2.
  assert (LW : Z.of_nat (length (lastn W l)) <= Z.of_nat W) by (rewrite lastn_length; lia).
  assert (LW' : Z.of_nat (length (lastn W (l ++ [x]))) <= Z.of_nat W) by (rewrite lastn_length; lia).
  assert (BB : 0 <= 4 * (B * B)) by nia.
  assert (SU : 0 <= zssq (lastn W l) <= Z.of_nat W * (4 * (B * B))) by nia.
  assert (SU' : 0 <= zssq (lastn W (l ++ [x])) <= Z.of_nat W * (4 * (B * B))) by nia.
  clear SB SB'.
  assert (Bm : Z.abs (zmean (lastn W l)) <= B).
  { destruct (lastn W l) as [|y k] eqn:E; [rewrite zmean_nil; lia|].
    apply mean_bound; [discriminate|exact LB|exact RI]. }
  assert (Bm' : Z.abs (zmean (lastn W (l ++ [x]))) <= B).
  { apply mean_bound; [|exact LB'|exact RI'].
    destruct (window_cases l x) as [(_ & _ & E2)|(_ & f & t & _ & _ & E2)]; rewrite E2; [destruct l|destruct t]; discriminate. }
  unfold iwv_push. rewrite EP. cbn [bind]. rewrite EW, EM, EM', ES.
  destruct (delta_ok x (zmean (lastn W l)) (zmean (lastn W (l ++ [x]))) Bx Bm Bm') as [D1 D2].
  rewrite D1. cbn [bind]. unfold iadd. rewrite (iresult_in _ _ HPi) by (apply prange; lia). cbn [bind].
  rewrite (wrap_id T) by (try exact HT; apply range; lia).
  destruct (window_cases l x) as [(HL & E1 & E2)|(HL & f & t & E1 & EL & E2)].
  - unfold rb_full. rewrite E1. destruct (Nat.leb_spec W (length l)); [lia|].
    eexists. split; [reflexivity|]. split; [exact EX'|]. cbn [iwv_sum].
    rewrite A2, <- E1, A1. rewrite E1, E2 in *. rewrite zsum_snoc, app_length in M2. cbn [length] in M2.
    rewrite zsq_app, app_length. cbn [length].
    replace (zsq [x]) with (x * x) by (unfold zsq; cbn; lia).
    set (m := zmean l) in *. set (m' := zmean (l ++ [x])) in *.
    replace (Z.of_nat (length l + 1)) with (Z.of_nat (length l) + 1) in * by lia. set (n := Z.of_nat (length l)) in *.
    rewrite <- M1 in M2. replace x with ((n + 1) * m' - n * m) by lia. ring.
  - unfold rb_full. rewrite E1, EL. destruct (Nat.leb_spec W W); [|lia]. cbn [rb_front hd_error bind].
    assert (Bf : Z.abs f <= B).
    { rewrite E1 in LB. rewrite Forall_forall in LB. apply LB. left. reflexivity. }
    destruct (delta_ok f (zmean (lastn W l)) (zmean (lastn W (l ++ [x]))) Bf Bm Bm') as [F1 F2].
    rewrite <- E1, F1. cbn [bind].
    assert (ID : zssq (lastn W l) + (x - zmean (lastn W l)) * (x - zmean (lastn W (l ++ [x])))
        - (f - zmean (lastn W l)) * (f - zmean (lastn W (l ++ [x]))) = zssq (lastn W (l ++ [x]))).
    { rewrite A1, A2. rewrite E1, E2 in *.
      assert (EL' : length (t ++ [x]) = W) by (rewrite app_length; cbn [length] in *; lia).
      rewrite EL in *. rewrite EL' in *. rewrite zsum_snoc in M2. change (zsum (f :: t)) with (f + zsum t) in M1.
      rewrite zsq_app. replace (zsq (f :: t)) with (f * f + zsq t) by reflexivity.
      replace (zsq [x]) with (x * x) by (unfold zsq; cbn; lia).
      set (m := zmean (f :: t)) in *. set (m' := zmean (t ++ [x])) in *. set (n := Z.of_nat W) in *.
      assert (X : x = f + n * m' - n * m) by lia. rewrite X. ring. }
    unfold isub. rewrite ID. rewrite (iresult_in _ _ HPi) by (apply prange; lia). cbn [bind].
    rewrite (wrap_id T) by (try exact HT; apply range; lia).
    eexists. split; [reflexivity|]. split; [exact EX'|]. reflexivity.
Qed.

Lemma iwv_exact_run ops : (forall pre post, ops = pre ++ post -> wok (since_clear pre)) ->
  exists s, run_opt (iwv_push T W) iwv_clear iwv_init ops = Some s /\ iwv_exact (since_clear ops) s.
Proof.
  apply run_opt_inv.
  - split; [split; [reflexivity|split; [reflexivity|exact wok_nil]]|]. reflexivity.
  - intros s l _. split; [split; [reflexivity|split; [reflexivity|exact wok_nil]]|]. reflexivity.
  - intros l s a. apply iwv_exact_step.
Qed.

Lemma iwv_exact_variance l s : iwv_exact l s -> l <> [] ->
  iwv_variance T s = Some (zssq (lastn W l) / Z.of_nat (length (lastn W l))).
Proof.
  intros ((EW & EM & (RF & RI)) & ES) NE. pose proof (promote_in T HT) as HPi.
  pose proof (zssq_bound _ (lastn_bound _ RF) RI) as SB.
  assert (LP : (0 < length (lastn W l) <= W)%nat).
  { rewrite lastn_length. destruct l; [congruence|]. cbn [length]. lia. }
  unfold iwv_variance. rewrite EW, ES. unfold rb_size.
  destruct (N.ltb_spec 0 (N.of_nat (length (lastn W l)))); [|lia].
  rewrite nat_N_Z. set (n := Z.of_nat (length (lastn W l))) in *.
  rewrite (wrap_id T) by (try exact HT; apply range; lia).
  unfold idiv. destruct (Z.eqb_spec n 0); [lia|].
  assert (0 <= 4 * (B * B)) by nia.
  rewrite Z.quot_div_nonneg by lia.
  assert (0 <= zssq (lastn W l) / n <= zssq (lastn W l)).
  { split; [apply Z.div_pos; lia|]. apply Z.div_le_upper_bound; nia. }
  rewrite (iresult_in _ _ HPi) by (apply prange; nia). cbn [bind]. f_equal. lia.
Qed.
End W.
