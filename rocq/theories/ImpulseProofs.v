(** * Proofs about impulse response filters *)

From Coq Require Import Reals NArith List Arith Lia Lra.
From Verif Require Import Arith History SpecStats StatsLemmas HistoryLemmas
  ExactRuns Buffer Impulse SpecImpulse ImpulseRuns.
Import ListNotations.

(** ** Windows *)

Lemma removelast_firstn_S {A} (l : list A) n :
  (length l <= S n)%nat -> (n < length l)%nat -> removelast l = firstn n l.
Proof.
  intros H1 H2. assert (E : length l = S n) by lia.
  rewrite <- (firstn_all l) at 1. rewrite E. apply removelast_firstn. exact H2.
Qed.

Lemma push_front_window {A} P (h : list A) x :
  (0 < P)%nat ->
  rb_push_front P (firstn P (rev h)) x = firstn P (rev (h ++ [x])).
Proof.
  intros HP. unfold rb_push_front, rb_full. rewrite rev_app_distr. cbn [rev app].
  destruct P as [|P]; [lia|]. rewrite firstn_cons, firstn_length, rev_length.
  destruct (Nat.leb_spec (S P) (Nat.min (S P) (length h))) as [H|H].
  - f_equal. rewrite (removelast_firstn_S _ P).
    + rewrite firstn_firstn. f_equal. lia.
    + rewrite firstn_length, rev_length. lia.
    + rewrite firstn_length, rev_length. lia.
  - f_equal. rewrite !firstn_all2; rewrite ?rev_length; lia || reflexivity.
Qed.

Section Any.
Variable F : num.
Implicit Types c h : list F.

Lemma nth_combine_in (u v : list F) i :
  (i < length u)%nat -> (i < length v)%nat ->
  nth i (combine u v) (n0, n0) = (nth i u n0, nth i v n0).
Proof.
  revert v i. induction u as [|a u IH]; intros v i; [cbn; lia|].
  destruct v as [|b v]; [cbn; lia|]. destruct i as [|i]; [reflexivity|].
  cbn. intros. apply IH; lia.
Qed.

Lemma nth_firstn_in (u : list F) k i :
  (i < k)%nat -> nth i (firstn k u) n0 = nth i u n0.
Proof.
  revert k i. induction u as [|a u IH]; intros k i Hi; [rewrite firstn_nil; reflexivity|].
  destruct k as [|k]; [lia|]. destruct i as [|i]; [reflexivity|]. cbn. apply IH. lia.
Qed.

Lemma combine_recent c h n :
  (n <= length h)%nat ->
  combine (firstn (length c) (rev (firstn n h))) c =
  map (fun i => (nth (n - 1 - i) h n0, nth i c n0)) (seq 0 (Nat.min (length c) n)).
Proof.
  intros Hn.
  assert (L : length (combine (firstn (length c) (rev (firstn n h))) c) = Nat.min (length c) n).
  { rewrite combine_length, firstn_length, rev_length, firstn_length. lia. }
  apply (nth_ext _ _ (n0, n0) (nth (n - 1 - 0) h n0, nth 0 c n0)).
  - rewrite L, map_length, seq_length. reflexivity.
  - intros i. rewrite L. intros Hi.
    rewrite (map_nth (fun i => (nth (n - 1 - i) h n0, nth i c n0)) _ 0%nat).
    rewrite seq_nth by lia. cbn [Nat.add].
    rewrite nth_combine_in by (rewrite ?firstn_length, ?rev_length, ?firstn_length; lia).
    f_equal. rewrite nth_firstn_in by lia.
    rewrite rev_nth by (rewrite firstn_length; lia).
    rewrite firstn_length, Nat.min_l by lia.
    rewrite nth_firstn_in by lia. f_equal. lia.
Qed.

Lemma fold_left_map' {A B C} (f : C -> B -> C) (g : A -> B) l acc :
  fold_left f (map g l) acc = fold_left (fun a x => f a (g x)) l acc.
Proof. revert acc. induction l; intros; cbn; auto. Qed.

Lemma inner_product_recent c h n :
  (n <= length h)%nat ->
  inner_product F (firstn (length c) (rev (firstn n h))) c = dot_before F c h n.
Proof.
  intros Hn. unfold inner_product, dot_before. rewrite combine_recent by exact Hn.
  rewrite fold_left_map'. reflexivity.
Qed.

Lemma dot_before_app c h h' n :
  (n <= length h)%nat -> dot_before F c (h ++ h') n = dot_before F c h n.
Proof.
  intros Hn. rewrite <- !inner_product_recent by (rewrite ?app_length; lia).
  rewrite firstn_app. replace (n - length h)%nat with 0%nat by lia.
  rewrite firstn_O, app_nil_r. reflexivity.
Qed.

(** ** FIR *)

Lemma fir_state c (ops : list (op F)) :
  c <> [] ->
  let s := fir_run F c ops in
  let h := since_clear ops in
  fir_coefficients s = c /\
  fir_input s = firstn (length c) (rev h) /\
  (h <> [] -> fir_output s = dot_before F c h (length h)).
Proof.
  intros Hc. cbv zeta. unfold fir_run.
  assert (HP : (0 < length c)%nat) by (destruct c; [congruence|cbn; lia]).
  induction ops as [|o ops IH] using rev_ind.
  - cbn. rewrite firstn_nil. split; [reflexivity|]; split; [reflexivity|congruence].
  - destruct IH as (I1 & I2 & _). rewrite run_app. destruct o as [x|].
    + rewrite since_clear_snoc_push. 
      set (s := run (fir_push F) (fir_clear F) (fir_new F c) ops) in *.
      change (run _ _ s [Push x]) with (fir_push F s x).
      unfold fir_push. rewrite I1, I2. cbn [fir_coefficients fir_input fir_output].
      rewrite push_front_window by exact HP. split; [reflexivity|]; split; [reflexivity|]; intros _.
      rewrite <- inner_product_recent by lia. rewrite firstn_all. reflexivity.
    + rewrite (since_clear_app_clear ops []). cbn. rewrite I1, firstn_nil.
      split; [reflexivity|]; split; [reflexivity|congruence].
Qed.

(** ** IIR *)

Lemma iir_state b a scale (ops : list (op F)) :
  b <> [] -> a <> [] ->
  let s := iir_run F b a scale ops in
  let h := since_clear ops in
  iir_input_coefficients s = b /\ iir_output_coefficients s = a /\
  iir_scale s = scale /\
  iir_input s = firstn (length b) (rev h) /\
  exists y, iir_output s = firstn (length a) (rev y) /\
    length y = length h /\
    forall n, (n < length h)%nat ->
      nth n y n0 = ndiv (nsub (dot_before F b h (S n)) (dot_before F a y n)) scale.
Proof.
  intros Hb Ha. cbv zeta. unfold iir_run.
  assert (HP : (0 < length b)%nat) by (destruct b; [congruence|cbn; lia]).
  assert (HQ : (0 < length a)%nat) by (destruct a; [congruence|cbn; lia]).
  induction ops as [|o ops IH] using rev_ind.
  - cbn. rewrite firstn_nil. repeat split. exists []. cbn. rewrite firstn_nil.
    repeat split. lia.
  - destruct IH as (I1 & I2 & I3 & I4 & y & I5 & I6 & I7). rewrite run_app.
    destruct o as [x|].
    + rewrite since_clear_snoc_push. 
      set (s := run (iir_push F) (iir_clear F) (iir_new F b a scale) ops) in *.
      change (run _ _ s [Push x]) with (iir_push F s x).
      set (h := since_clear ops) in *.
      unfold iir_push. rewrite I1, I2, I3, I4, I5.
      cbn [iir_input_coefficients iir_output_coefficients iir_scale iir_input iir_output].
      rewrite !push_front_window by assumption. repeat split.
      exists (y ++ [ndiv (nsub (dot_before F b (h ++ [x]) (S (length h)))
                       (dot_before F a y (length h))) scale]).
      split; [|split].
      * do 3 f_equal. f_equal. f_equal. f_equal.
        -- rewrite <- inner_product_recent by (rewrite app_length; cbn; lia).
           rewrite (firstn_all2 (n := S (length h)) (h ++ [x])) by (rewrite app_length; cbn; lia).
           reflexivity.
        -- rewrite <- inner_product_recent by lia. rewrite (firstn_all2 (n := length h) y) by lia. reflexivity.
      * rewrite !app_length. cbn. lia.
      * intros n. rewrite app_length. cbn [length]. intros Hn.
        destruct (Nat.eq_dec n (length h)) as [->|Hne].
        -- rewrite app_nth2 by lia. rewrite I6, Nat.sub_diag. cbn [nth].
           rewrite (dot_before_app a y) by lia. reflexivity.
        -- rewrite app_nth1 by lia. rewrite I7 by lia.
           rewrite (dot_before_app b h) by lia.
           rewrite (dot_before_app a y) by lia. reflexivity.
    + rewrite (since_clear_app_clear ops []). cbn. rewrite firstn_nil.
      fold (run (iir_push F) (iir_clear F) (iir_new F b a scale) ops).
      rewrite I1, I2, I3. repeat split. exists []. cbn. rewrite firstn_nil.
      repeat split. lia.
Qed.

Lemma iir_value_last b a scale (ops : list (op F)) :
  b <> [] -> a <> [] ->
  exists y, length y = length (since_clear ops) /\
    iir_value F (iir_run F b a scale ops) = last y n0 /\
    forall n, (n < length y)%nat ->
      nth n y n0 = ndiv (nsub (dot_before F b (since_clear ops) (S n)) (dot_before F a y n)) scale.
Proof.
  intros Hb Ha. destruct (iir_state b a scale ops Hb Ha) as (_ & _ & _ & _ & y & E & L & H).
  exists y. split; [exact L|]. split; [|rewrite L; exact H].
  unfold iir_value. rewrite E.
  assert (HQ : (0 < length a)%nat) by (destruct a; [congruence|cbn; lia]).
  destruct a as [|a0 a]; [congruence|].
  clear. induction y as [|x y _] using rev_ind; [reflexivity|].
  rewrite rev_app_distr, last_last. reflexivity.
Qed.

Lemma iir_cleared b a scale (ops : list (op F)) :
  iir_run F b a scale (ops ++ [Clear]) = iir_new F b a scale.
Proof.
  unfold iir_run. rewrite run_app.
  assert (E : forall s, iir_input_coefficients s = b /\ iir_output_coefficients s = a /\
    iir_scale s = scale -> forall ops,
    let s' := run (iir_push F) (iir_clear F) s ops in
    iir_input_coefficients s' = b /\ iir_output_coefficients s' = a /\ iir_scale s' = scale).
  { clear. intros s H ops. revert s H. induction ops as [|o ops IH]; intros s H; [exact H|].
    cbn. apply IH. destruct o; exact H. }
  destruct (E (iir_new F b a scale) ltac:(repeat split) ops) as (E1 & E2 & E3).
  set (s := run _ _ _ ops) in *. change (run _ _ s [Clear]) with (iir_clear F s).
  unfold iir_clear. rewrite E1, E2, E3. reflexivity.
Qed.
End Any.

(** ** Exact reals *)
Local Open Scope R_scope.

Section Exact.
Variable eps : R.
Notation E := (exact eps).

Lemma nth_map_Fin (l : list R) i :
  nth i (map Fin l : list E) n0 = Fin (nth i l 0).
Proof. change (@n0 E) with (Fin (IZR 0)). apply map_nth. Qed.

Lemma fold_fin (f : nat -> R) l acc :
  fold_left (fun (a : E) i => nadd a (Fin (f i) : E)) l (Fin acc : E) =
  Fin (acc + Rsum (map f l)).
Proof.
  revert acc. induction l as [|i l IH]; intros acc; cbn; [f_equal; ring|].
  unfold nadd in IH. cbn in IH. rewrite IH. f_equal. ring.
Qed.

Lemma sumto_split n m f :
  sumto (n + m) f = sumto n f + sumto m (fun i => f (n + i)%nat).
Proof.
  unfold sumto. rewrite seq_app, map_app, Rsum_app. f_equal. cbn [Nat.add].
  revert n. induction m as [|m IH]; intros n; [reflexivity|].
  cbn [seq map Rsum]. rewrite Nat.add_0_r. f_equal.
  rewrite (IH (S n)). rewrite <- seq_shift, map_map. f_equal.
  apply map_ext. intros i. f_equal. lia.
Qed.

Lemma sumto_ext n f g : (forall i, (i < n)%nat -> f i = g i) -> sumto n f = sumto n g.
Proof.
  intros H. unfold sumto. f_equal. apply map_ext_in. intros i Hi.
  apply in_seq in Hi. apply H. lia.
Qed.

Lemma sumto_zero n f : (forall i, (i < n)%nat -> f i = 0) -> sumto n f = 0.
Proof.
  intros H. rewrite (sumto_ext n f (fun _ => 0)) by exact H.
  unfold sumto. generalize (seq 0 n). clear. induction l; cbn; [reflexivity|lra].
Qed.

Lemma dot_before_exact (c h : list R) n :
  (n <= length h)%nat ->
  dot_before E (map Fin c) (map Fin h) n =
  Fin (sumto (length c) (fun i => nth i c 0 * back h n (S i))).
Proof.
  intros Hn. unfold dot_before. rewrite map_length.
  transitivity (fold_left (fun (a : E) i => nadd a (Fin (nth (n - 1 - i) h 0 * nth i c 0) : E))
    (seq 0 (Nat.min (length c) n)) (Fin 0 : E)).
  - change (@n0 E) with (Fin (IZR 0) : E) at 3.
    assert (G : forall l (acc : E),
      fold_left (fun acc0 i => nadd acc0 (nmul (nth (n - 1 - i) (map Fin h : list E) n0)
                                 (nth i (map Fin c : list E) n0))) l acc =
      fold_left (fun (a : E) i => nadd a (Fin (nth (n - 1 - i) h 0 * nth i c 0) : E)) l acc).
    { induction l as [|i l IH]; intros acc; [reflexivity|]. cbn [fold_left].
      rewrite IH. rewrite !nth_map_Fin. reflexivity. }
    apply G.
  - rewrite fold_fin. apply (f_equal Fin). rewrite Rplus_0_l.
    fold (sumto (Nat.min (length c) n) (fun i => nth (n - 1 - i) h 0 * nth i c 0)).
    replace (length c) with (Nat.min (length c) n + (length c - n))%nat at 2 by lia.
    rewrite sumto_split.
    rewrite (sumto_zero (length c - n)).
    + rewrite Rplus_0_r. apply sumto_ext. intros i Hi. unfold back.
      destruct (Nat.leb_spec (S i) n); [|lia]. rewrite Rmult_comm. f_equal. f_equal. lia.
    + intros i Hi. unfold back.
      destruct (Nat.leb_spec (S (Nat.min (length c) n + i)) n); [lia|]. ring.
Qed.

Lemma back_S (h : list R) n i : back h (S n) (S i) = back h n i.
Proof. reflexivity. Qed.

Lemma rops_since ops : since_clear (rops eps ops) = map Fin (since_clear ops).
Proof. apply since_clear_op_map. Qed.

Lemma map_Fin_nil (l : list R) : l <> [] -> (map Fin l : list E) <> [].
Proof. destruct l; cbn; congruence. Qed.

Lemma fir_value_exact c ops :
  c <> [] -> since_clear ops <> [] ->
  fir_value E (run_fir eps c ops) =
  Fin (convolution c (since_clear ops) (length (since_clear ops) - 1)).
Proof.
  intros Hc Hh. destruct (fir_state E (map Fin c) (rops eps ops) (map_Fin_nil c Hc)) as (_ & _ & H).
  unfold fir_value, run_fir. rewrite rops_since in H. rewrite H by (apply map_Fin_nil; exact Hh).
  rewrite map_length, dot_before_exact by lia. apply (f_equal Fin).
  unfold convolution. apply sumto_ext. intros i _.
  destruct (since_clear ops); [congruence|]. cbn [length Nat.sub]. rewrite Nat.sub_0_r.
  rewrite back_S. reflexivity.
Qed.

Lemma iir_value_exact b a scale ops :
  b <> [] -> a <> [] -> scale <> 0 ->
  exists y, difference_equation b a scale (since_clear ops) y /\
    iir_value E (run_iir eps b a scale ops) = Fin (last y 0).
Proof.
  intros Hb Ha Hs. set (h := since_clear ops).
  destruct (iir_value_last E (map Fin b) (map Fin a) (Fin scale) (rops eps ops)
    (map_Fin_nil b Hb) (map_Fin_nil a Ha)) as (y & L & V & H).
  rewrite rops_since in *. fold h in L, H. rewrite map_length in L.
  (* every term is finite *)
  assert (G : forall n, (n <= length h)%nat -> exists z, firstn n y = map Fin z /\ length z = n).
  { induction n as [|n IH]; intros Hn; [exists []; split; reflexivity|].
    destruct IH as (z & Ez & Lz); [lia|].
    exists (z ++ [(sumto (length b) (fun i => nth i b 0 * back h (S n) (S i))
             - sumto (length a) (fun i => nth i a 0 * back z n (S i))) / scale]).
    split; [|rewrite app_length, Lz; cbn; lia].
    assert (Es : firstn (S n) y = firstn n y ++ [nth n y n0]).
    { clear -Hn L. rewrite <- (firstn_skipn n y) at 1 3.
      assert (length (firstn n y) = n) by (rewrite firstn_length; lia).
      rewrite firstn_app, H. rewrite firstn_all2 by lia.
      rewrite app_nth2 by lia. rewrite H. rewrite Nat.sub_diag.
      destruct (skipn n y) eqn:Es.
      - assert (length (skipn n y) = 0)%nat by (rewrite Es; reflexivity).
        rewrite skipn_length in H0. lia.
      - replace (S n - n)%nat with 1%nat by lia. reflexivity. }
    rewrite Es, Ez, map_app. f_equal. cbn [map]. f_equal.
    rewrite H by lia. rewrite dot_before_exact by lia.
    rewrite <- (firstn_skipn n y), dot_before_app by (rewrite firstn_length; lia).
    rewrite Ez, dot_before_exact by lia.
    cbv [nsub exact xnum xlift2]. cbn [ndiv].
    rewrite xdiv_fin by exact Hs. reflexivity. }
  destruct (G (length h) (Nat.le_refl _)) as (z & Ez & Lz).
  rewrite firstn_all2 in Ez by lia. subst y. exists z. split.
  - split; [exact Lz|]. intros n Hn.
    specialize (H n). rewrite map_length in H. specialize (H ltac:(lia)).
    rewrite nth_map_Fin, !dot_before_exact in H by lia.
    cbv [nsub exact xnum xlift2] in H. cbn [ndiv] in H. rewrite xdiv_fin in H by exact Hs.
    injection H as H. rewrite H.
    match goal with |- scale * (?X / scale) = _ => replace (scale * (X / scale)) with X by (field; exact Hs) end.
    reflexivity.
  - unfold run_iir. rewrite V. change (@n0 E) with (Fin (IZR 0)).
    clear. induction z as [|x z _] using rev_ind; [reflexivity|].
    rewrite map_app. cbn [map]. rewrite !last_last. reflexivity.
Qed.

Lemma difference_equation_unique b a scale x y1 y2 :
  scale <> 0 ->
  difference_equation b a scale x y1 -> difference_equation b a scale x y2 -> y1 = y2.
Proof.
  intros Hs [L1 H1] [L2 H2]. apply (nth_ext _ _ 0 0); [lia|].
  assert (G : forall n, forall m, (m <= n)%nat -> (m < length x)%nat -> nth m y1 0 = nth m y2 0).
  { induction n as [|n IH]; intros m Hm Hx.
    - assert (m = 0)%nat by lia. subst m. apply (Rmult_eq_reg_l scale); [|exact Hs].
      rewrite H1, H2 by exact Hx. f_equal.
    - apply (Rmult_eq_reg_l scale); [|exact Hs]. rewrite H1, H2 by exact Hx. f_equal.
      apply sumto_ext. intros i _. f_equal. unfold back.
      destruct (Nat.leb_spec (S i) m); [|reflexivity]. apply IH; lia. }
  intros n Hn. apply (G n); lia.
Qed.

(** ** Linearity *)

Lemma nth_combination u v x y i :
  length x = length y ->
  nth i (combination u v x y) 0 = u * nth i x 0 + v * nth i y 0.
Proof.
  unfold combination. revert y i. induction x as [|a x IH]; intros [|b y] i L; try discriminate.
  - destruct i; cbn; ring.
  - destruct i as [|i]; cbn; [reflexivity|]. apply IH. injection L. auto.
Qed.

Lemma length_combination u v x y :
  length x = length y -> length (combination u v x y) = length x.
Proof. intros L. unfold combination. rewrite map_length, combine_length. lia. Qed.

Lemma back_combination u v x y n k :
  length x = length y ->
  back (combination u v x y) n k = u * back x n k + v * back y n k.
Proof.
  intros L. unfold back. destruct (k <=? n)%nat; [|ring]. apply nth_combination. exact L.
Qed.

Lemma sumto_linear n u v f g :
  sumto n (fun i => u * f i + v * g i) = u * sumto n f + v * sumto n g.
Proof.
  unfold sumto. generalize (seq 0 n). induction l as [|i l IH]; cbn; [ring|]. rewrite IH. ring.
Qed.

Lemma sumto_back_combination u v x y n m s c :
  length x = length y ->
  sumto m (fun i => nth i c 0 * back (combination u v x y) n (s i)) =
  u * sumto m (fun i => nth i c 0 * back x n (s i)) +
  v * sumto m (fun i => nth i c 0 * back y n (s i)).
Proof.
  intros L. rewrite <- sumto_linear. apply sumto_ext. intros i _.
  rewrite back_combination by exact L. ring.
Qed.

Lemma convolution_linear u v c x y n :
  length x = length y ->
  convolution c (combination u v x y) n = u * convolution c x n + v * convolution c y n.
Proof. intros L. exact (sumto_back_combination u v x y n (length c) (fun i => i) c L). Qed.

Lemma difference_equation_linear b a scale u v x1 x2 y1 y2 :
  length x1 = length x2 ->
  difference_equation b a scale x1 y1 -> difference_equation b a scale x2 y2 ->
  difference_equation b a scale (combination u v x1 x2) (combination u v y1 y2).
Proof.
  intros L [L1 H1] [L2 H2]. split.
  - rewrite !length_combination by lia. lia.
  - intros n. rewrite length_combination by lia. intros Hn.
    rewrite nth_combination by lia.
    rewrite (sumto_back_combination u v x1 x2 n (length b) (fun i => i) b) by lia.
    rewrite (sumto_back_combination u v y1 y2 n (length a) S a) by lia.
    specialize (H1 n Hn). specialize (H2 n ltac:(lia)). cbn beta in *.
    transitivity (u * (scale * nth n y1 0) + v * (scale * nth n y2 0)); [ring|].
    rewrite H1, H2. ring.
Qed.

(** ** Bounds *)

Lemma sumto_bound n c g M :
  (forall i, (i < n)%nat -> Rabs (g i) <= M) ->
  Rabs (sumto n (fun i => c i * g i)) <= sumto n (fun i => Rabs (c i)) * M.
Proof.
  intros H. unfold sumto.
  assert (G : forall l, (forall i, In i l -> Rabs (g i) <= M) ->
    Rabs (Rsum (map (fun i => c i * g i) l)) <= Rsum (map (fun i => Rabs (c i)) l) * M).
  { induction l as [|i l IH]; intros HH; cbn [map Rsum].
    - rewrite Rabs_R0. lra.
    - eapply Rle_trans; [apply Rabs_triang|]. rewrite Rmult_plus_distr_r.
      apply Rplus_le_compat; [|apply IH; intros j Hj; apply HH; right; exact Hj].
      rewrite Rabs_mult. apply Rmult_le_compat_l; [apply Rabs_pos|].
      apply HH. left. reflexivity. }
  apply G. intros i Hi. apply in_seq in Hi. apply H. lia.
Qed.

Lemma sumto_nth_map (c : list R) (f : R -> R) :
  sumto (length c) (fun i => f (nth i c 0)) = Rsum (map f c).
Proof.
  unfold sumto. f_equal. apply (nth_ext _ _ (f 0) (f 0)).
  - rewrite !map_length, seq_length. reflexivity.
  - intros i. rewrite map_length, seq_length. intros Hi.
    rewrite (nth_indep _ _ ((fun i => f (nth i c 0)) 0%nat)) by (rewrite map_length, seq_length; exact Hi).
    rewrite map_nth with (f := f).
    rewrite (map_nth (fun i => f (nth i c 0))). rewrite seq_nth by exact Hi. reflexivity.
Qed.

Lemma convolution_bound c x n M :
  0 <= M -> (forall v, In v x -> Rabs v <= M) ->
  Rabs (convolution c x n) <= abs_sum c * M.
Proof.
  intros HM H. unfold convolution, abs_sum. rewrite <- sumto_nth_map.
  apply sumto_bound. intros i _. unfold back.
  destruct (i <=? n)%nat; [|rewrite Rabs_R0; exact HM].
  destruct (Nat.lt_ge_cases (n - i) (length x)) as [Hlt|Hge].
  - apply H. apply nth_In. exact Hlt.
  - rewrite nth_overflow by exact Hge. rewrite Rabs_R0. exact HM.
Qed.
(** ** Impulse response and delay *)

Lemma back_impulse k i :
  back (1 :: repeat 0 k) k i = if Nat.eq_dec i k then 1 else 0.
Proof.
  unfold back. destruct (Nat.leb_spec i k); destruct (Nat.eq_dec i k); try lia; try reflexivity.
  - subst. rewrite Nat.sub_diag. reflexivity.
  - destruct (k - i)%nat as [|j] eqn:Ej; [lia|]. cbn [nth]. apply nth_repeat.
Qed.

Lemma sumto_pick n k f :
  sumto n (fun i => f i * (if Nat.eq_dec i k then 1 else 0)) = if (k <? n)%nat then f k else 0.
Proof.
  unfold sumto. induction n as [|n IH]; [reflexivity|].
  rewrite seq_S, map_app, Rsum_app, IH. cbn [map Rsum Nat.add].
  destruct (Nat.eq_dec n k) as [->|Hne].
  - rewrite Nat.ltb_irrefl. destruct (Nat.ltb_spec k (S k)); [ring|lia].
  - destruct (Nat.ltb_spec k n); destruct (Nat.ltb_spec k (S n)); try lia; ring.
Qed.

Lemma convolution_impulse c k :
  convolution c (1 :: repeat 0 k) k = nth k c 0.
Proof.
  unfold convolution.
  rewrite (sumto_ext _ _ (fun i => nth i c 0 * (if Nat.eq_dec i k then 1 else 0))).
  2:{ intros i _. rewrite back_impulse. reflexivity. }
  rewrite (sumto_pick (length c) k (fun i => nth i c 0)).
  destruct (Nat.ltb_spec k (length c)) as [Hlt|Hge]; [reflexivity|].
  rewrite nth_overflow by exact Hge. reflexivity.
Qed.

Lemma back_delay x k n i :
  back (repeat 0 k ++ x) (k + n) i = back x n i.
Proof.
  unfold back.
  destruct (Nat.leb_spec i n).
  - destruct (Nat.leb_spec i (k + n)); [|lia].
    rewrite app_nth2; rewrite repeat_length; [|lia]. f_equal. lia.
  - destruct (Nat.leb_spec i (k + n)); [|reflexivity].
    rewrite app_nth1; [apply nth_repeat|]. rewrite repeat_length. lia.
Qed.

Lemma convolution_delay c x k n :
  convolution c (repeat 0 k ++ x) (k + n) = convolution c x n.
Proof. apply sumto_ext. intros i _. rewrite back_delay. reflexivity. Qed.

Lemma difference_equation_delay b a scale k x y :
  difference_equation b a scale x y ->
  difference_equation b a scale (repeat 0 k ++ x) (repeat 0 k ++ y).
Proof.
  intros [L H]. split; [rewrite !app_length; lia|]. intros n.
  rewrite app_length, repeat_length. intros Hn.
  destruct (Nat.lt_ge_cases n k) as [Hlt|Hge].
  - assert (Z : forall w i, back (repeat 0 k ++ w) n i = 0).
    { intros w i. unfold back. destruct (i <=? n)%nat; [|reflexivity].
      rewrite app_nth1 by (rewrite repeat_length; lia). apply nth_repeat. }
    rewrite app_nth1 by (rewrite repeat_length; lia). rewrite nth_repeat.
    rewrite !sumto_zero; [ring| |]; intros i _; rewrite Z; ring.
  - replace n with (k + (n - k))%nat by lia. set (m := (n - k)%nat).
    rewrite app_nth2 by (rewrite repeat_length; lia). rewrite repeat_length.
    replace (k + m - k)%nat with m by lia. rewrite H by (unfold m; lia).
    f_equal.
    + apply sumto_ext. intros i _. rewrite back_delay. reflexivity.
    + apply sumto_ext. intros i _. rewrite back_delay. reflexivity.
Qed.
End Exact.
