(** * Claim C109: which quantile a ratio type selects *)

From Coq Require Import ZArith NArith QArith List Bool Sorting.Sorted.
From Verif Require Import Arith History SpecRatio Psquare PsquareTypes Binary64.
Import ListNotations.
(* @end-header *)
From Coq Require Import Lia Qcanon.

Local Notation m r := (quotient (written_num r) (written_den r)).
Local Notation proper r := (written_den r <> 0%Z).

Lemma reduced (r : cratio) : proper r ->
  (0 < cratio_den r)%Z /\ Z.gcd (cratio_num r) (cratio_den r) = 1%Z /\ (m r == cratio_num r # Z.to_pos (cratio_den r))%Q.
Proof.
  destruct r as [n d]. unfold cratio_num, cratio_den. cbn [written_num written_den]. intros Hd.
  pose proof (Z.gcd_nonneg n d) as G0. assert (G : (0 < Z.gcd n d)%Z).
  { destruct (Z.eq_dec (Z.gcd n d) 0) as [E|E]; [apply Z.gcd_eq_0_r in E; contradiction|lia]. }
  destruct (Z.gcd_divide_l n d) as [n' En]. destruct (Z.gcd_divide_r n d) as [d' Ed].
  pose proof (Z.gcd_div_gcd n d (Z.gcd n d) ltac:(lia) eq_refl) as C. set (g := Z.gcd n d) in *.
  assert (E1 : (n / g = n')%Z) by (rewrite En; apply Z.div_mul; lia).
  assert (E2 : (d / g = d')%Z) by (rewrite Ed; apply Z.div_mul; lia).
  rewrite E1, E2 in C.
  assert (S : Z.sgn d = Z.sgn d') by (rewrite Ed, Z.sgn_mul, (Z.sgn_pos g) by lia; lia).
  replace (Z.sgn d * n / g)%Z with (Z.sgn d' * n')%Z.
  2:{ rewrite S. symmetry. rewrite En. replace (Z.sgn d' * (n' * g))%Z with (Z.sgn d' * n' * g)%Z by ring. apply Z.div_mul. lia. }
  replace (Z.abs d / g)%Z with (Z.abs d').
  2:{ symmetry. rewrite Ed, Z.abs_mul, (Z.abs_eq g) by lia. apply Z.div_mul. lia. }
  clearbody g. assert (D : (d' <> 0)%Z) by (intros ->; lia).
  split; [lia|]. split.
  - destruct (Z.lt_total d' 0) as [L|[L|L]]; [|lia|].
    + rewrite Z.sgn_neg, Z.abs_neq by lia. replace (-1 * n')%Z with (- n')%Z by ring. rewrite Z.gcd_opp_l, Z.gcd_opp_r. exact C.
    + rewrite Z.sgn_pos, Z.abs_eq by lia. rewrite Z.mul_1_l. exact C.
  - unfold quotient, Qeq, Qdiv, Qmult, Qinv, inject_Z. cbn [Qnum Qden].
    rewrite Z2Pos.id by lia.
    destruct d as [|p|p]; [lia| |]; cbn [Qnum Qden Pos.mul].
    + assert (0 < d')%Z by (apply (Z.mul_pos_cancel_r d' g); lia). rewrite Z.sgn_pos, Z.abs_eq by lia. rewrite En, Ed. ring.
    + assert (d' < 0)%Z by (apply Z.opp_pos_neg, (Z.mul_pos_cancel_r (- d') g); lia).
      rewrite Z.sgn_neg, Z.abs_neq by lia.
      replace (Z.pos p) with (- (d' * g))%Z by lia. rewrite En. ring.
Qed.

Lemma less_iff a b : proper a -> proper b -> cratio_less a b = true <-> (m a < m b)%Q.
Proof.
  intros Ha Hb. destruct (reduced a Ha) as (A & _ & Ea), (reduced b Hb) as (B & _ & Eb). rewrite Ea, Eb.
  unfold cratio_less, Qlt. cbn [Qnum Qden]. rewrite !Z2Pos.id by lia. apply Z.ltb_lt.
Qed.

Lemma same_iff a b : cratio_same a b = true <-> a = b.
Proof.
  destruct a as [n d], b as [n' d']. unfold cratio_same. cbn [written_num written_den]. rewrite andb_true_iff, !Z.eqb_eq.
  split; [intros [-> ->]; reflexivity|intros E; injection E; auto].
Qed.

(** Sorting *)
Lemma insert_in r l x : In x (cratio_insert r l) <-> x = r \/ In x l.
Proof.
  induction l as [|y l IH]; cbn [cratio_insert]; [cbn; intuition|]. destruct (cratio_less y r); cbn [In]; [rewrite IH|]; cbn [In]; intuition.
Qed.

Lemma sort_in l x : In x (fold_right cratio_insert [] l) <-> In x l.
Proof.
  induction l as [|y l IH]; [reflexivity|]. cbn [fold_right In]. rewrite insert_in, IH. intuition.
Qed.

Lemma insert_sorted r l : proper r -> Forall (fun x => proper x) l -> StronglySorted Qle (map (fun x => m x) l) ->
  StronglySorted Qle (map (fun x => m x) (cratio_insert r l)).
Proof.
  intros Hr Hl. induction l as [|y l IH]; intros S; cbn [cratio_insert map]; [repeat constructor|].
  inversion Hl as [|? ? Hy Hl']; subst. inversion S as [|? ? S' F]; subst.
  destruct (cratio_less y r) eqn:E; cbn [map].
  - apply less_iff in E; [|assumption..]. constructor; [apply IH; assumption|]. rewrite Forall_forall in *. intros q Hq.
    apply in_map_iff in Hq. destruct Hq as (x & <- & Hx). apply insert_in in Hx. destruct Hx as [->|Hx]; [apply Qlt_le_weak; exact E|].
    apply F. apply (in_map (fun x => m x)). exact Hx.
  - assert (L : (m r <= m y)%Q) by (apply Qnot_lt_le; intros C; apply less_iff in C; congruence).
    constructor; [exact S|]. constructor; [exact L|]. rewrite Forall_forall in *. intros q Hq. eapply Qle_trans; [exact L|]. apply F. exact Hq.
Qed.

Lemma sort_sorted l : Forall (fun x => proper x) l -> StronglySorted Qle (map (fun x => m x) (fold_right cratio_insert [] l)).
Proof.
  induction l as [|x l IH]; intros H; [constructor|]. inversion H; subst. cbn [fold_right]. apply insert_sorted; [assumption| |apply IH; assumption].
  rewrite Forall_forall in *. intros y Hy. apply (proj1 (sort_in l y)) in Hy. auto.
Qed.

Lemma sort_id l : Forall (fun x => proper x) l -> StronglySorted Qle (map (fun x => m x) l) -> fold_right cratio_insert [] l = l.
Proof.
  induction l as [|x l IH]; intros H S; [reflexivity|]. inversion H; subst. inversion S as [|? ? S' F]; subst. cbn [fold_right]. rewrite IH by assumption.
  destruct l as [|y l]; [reflexivity|]. cbn [cratio_insert]. destruct (cratio_less y x) eqn:E; [|reflexivity]. exfalso.
  inversion H3; subst. apply less_iff in E; [|assumption..]. cbn [map] in F. inversion F; subst. apply (Qlt_not_le _ _ E). assumption.
Qed.

(** Lookup *)
Lemma find_nth r l i : nth_error l i = Some r -> (forall j, (j < i)%nat -> nth_error l j <> Some r) -> cratio_find r l = i.
Proof.
  revert i. induction l as [|x l IH]; intros [|i] E N; try discriminate; cbn [cratio_find].
  - injection E as ->. rewrite (proj2 (same_iff r r) eq_refl). reflexivity.
  - destruct (cratio_same x r) eqn:B.
    + apply same_iff in B. subst. exfalso. apply (N 0%nat); [lia|reflexivity].
    + f_equal. apply IH; [exact E|]. intros j Hj. apply (N (S j)). lia.
Qed.

Lemma find_absent r l : ~ In r l -> cratio_find r l = length l.
Proof.
  induction l as [|x l IH]; intros N; [reflexivity|]. cbn [cratio_find length]. destruct (cratio_same x r) eqn:B.
  - apply same_iff in B. exfalso. apply N. left. exact B.
  - f_equal. apply IH. intros I. apply N. right. exact I.
Qed.

Lemma find_present r l : In r l -> (cratio_find r l < length l)%nat.
Proof.
  induction l as [|x l IH]; [intros []|]. intros H. cbn [cratio_find length]. destruct (cratio_same x r) eqn:B; [lia|].
  destruct H as [->|H]; [rewrite (proj2 (same_iff r r) eq_refl) in B; discriminate|]. apply IH in H. lia.
Qed.

Lemma find_before l p q : StronglySorted Qle (map (fun x => m x) l) -> In q l -> (m q < m p)%Q -> (cratio_find q l < cratio_find p l)%nat.
Proof.
  induction l as [|x l IH]; intros S H L; [destruct H|]. inversion S as [|? ? S' F]; subst. cbn [cratio_find].
  assert (N : cratio_same x p = false).
  { destruct (cratio_same x p) eqn:B; [|reflexivity]. apply same_iff in B. subst x. exfalso. destruct H as [->|H]; [apply (Qlt_irrefl _ L)|].
    rewrite Forall_forall in F. apply (Qlt_not_le _ _ L). apply F. apply (in_map (fun x => m x)). exact H. }
  rewrite N. destruct (cratio_same x q) eqn:B; [lia|]. destruct H as [->|H]; [rewrite (proj2 (same_iff q q) eq_refl) in B; discriminate|].
  specialize (IH S' H L). lia.
Qed.

Lemma m_min : (m minimum_ratio == 0)%Q. Proof. reflexivity. Qed.
Lemma m_max : (m maximum_ratio == 1)%Q. Proof. reflexivity. Qed.

Lemma all_proper rs : Forall (fun r => proper r) rs -> Forall (fun r => proper r) ([minimum_ratio] ++ rs ++ [maximum_ratio]).
Proof. intros H. constructor; [discriminate|]. apply Forall_app. split; [exact H|]. repeat constructor. discriminate. Qed.

Lemma list_sorted rs : Forall (fun r => proper r /\ (0 <= m r <= 1)%Q) rs -> StronglySorted Qle (map (fun r => m r) rs) ->
  cquantile_list rs = minimum_ratio :: rs ++ [maximum_ratio].
Proof.
  intros H S. unfold cquantile_list. apply sort_id.
  - apply all_proper. eapply Forall_impl; [|exact H]. intros r [? _]. assumption.
  - cbn [app map]. rewrite map_app. constructor.
    + clear -H S. induction rs as [|x rs IH]; [repeat constructor|]. inversion H as [|? ? (_ & _ & Hx) H']; subst. inversion S as [|? ? S' F]; subst.
      cbn [map app]. constructor; [apply IH; assumption|]. apply Forall_app. split; [exact F|]. repeat constructor. exact Hx.
    + apply Forall_app. split; [|repeat constructor; discriminate].
      rewrite Forall_map. eapply Forall_impl; [|exact H]. cbn beta. intros r (_ & Hr & _). exact Hr.
Qed.

(** @prop C109_by_type: let the ratio types be listed in order of their quotients,
    which lie between 0 and 1, each in any notation, possibly several times, but
    [std::ratio<1, 1>] not among them. Then value<R>() compiles exactly when [R] is
    one of these types or [std::ratio<0, 1>] or [std::ratio<1, 1>]. It is get<i>()
    for the first position [i] at which that type was listed (counted from 1), the
    minimum and the maximum for the other two; get<i>() compiles for i up to the
    number of ratios plus 1. *)
Lemma c109_by_type : forall (F : num) (rs : list cratio) (s : psq F),
  let quotient_of r := quotient (written_num r) (written_den r) in
  Forall (fun r => written_den r <> 0%Z /\ (0 <= quotient_of r <= 1)%Q) rs ->
  StronglySorted Qle (map quotient_of rs) ->
  ~ In (CRatio 1 1) rs ->
  let get := psq_get F (map (cquantile F) rs) s in
  (forall i r, nth_error rs i = Some r -> (forall j, (j < i)%nat -> nth_error rs j <> Some r) -> r <> CRatio 0 1 ->
     cpsq_value F rs s r = Compiled (get (1 + i)%nat)) /\
  cpsq_value F rs s (CRatio 0 1) = Compiled (get 0%nat) /\
  cpsq_value F rs s (CRatio 1 1) = Compiled (get (1 + length rs)%nat) /\
  (forall r, cpsq_value F rs s r = Rejected <-> ~ In r (CRatio 0 1 :: CRatio 1 1 :: rs)) /\
  (forall i, cpsq_get F rs s i = if (i <=? 1 + length rs)%nat then Compiled (get i) else Rejected).
Proof.
  intros F rs s quotient_of H S N get. unfold cpsq_value, cpsq_get. rewrite (list_sorted rs H S).
  assert (M : cratio_find maximum_ratio (minimum_ratio :: rs ++ [maximum_ratio]) = (1 + length rs)%nat).
  { apply find_nth.
    - cbn [Nat.add nth_error]. rewrite nth_error_app2, Nat.sub_diag by lia. reflexivity.
    - intros j Hj E. destruct j as [|j]; [discriminate|]. cbn [nth_error] in E. rewrite nth_error_app1 in E by lia. apply nth_error_In in E. contradiction. }
  assert (Z0 : cratio_find minimum_ratio (minimum_ratio :: rs ++ [maximum_ratio]) = 0%nat) by reflexivity.
  assert (V : forall i r, nth_error rs i = Some r -> (forall j, (j < i)%nat -> nth_error rs j <> Some r) -> r <> CRatio 0 1 ->
    cratio_find r (minimum_ratio :: rs ++ [maximum_ratio]) = (1 + i)%nat).
  { intros i r E First NZ. assert (i < length rs)%nat by (apply nth_error_Some; congruence). apply find_nth.
    - cbn [Nat.add nth_error]. rewrite nth_error_app1 by assumption. exact E.
    - intros j Hj E'. destruct j as [|j]; [injection E'; intros E2; apply NZ; symmetry; exact E2|]. cbn [nth_error] in E'.
      rewrite nth_error_app1 in E' by lia. apply (First j); [lia|exact E']. }
  rewrite M. split; [|split; [|split; [|split]]].
  - intros i r E First NZ. rewrite (V i r E First NZ). assert (i < length rs)%nat by (apply nth_error_Some; congruence).
    rewrite (proj2 (Nat.leb_le _ _)) by lia. reflexivity.
  - change (CRatio 0 1) with minimum_ratio. rewrite Z0. reflexivity.
  - change (CRatio 1 1) with maximum_ratio. rewrite M, Nat.leb_refl. reflexivity.
  - intros r. change (CRatio 0 1) with minimum_ratio. change (CRatio 1 1) with maximum_ratio. split.
    + intros E I. assert (I' : In r (minimum_ratio :: rs ++ [maximum_ratio])).
      { cbn [In] in *. rewrite in_app_iff. cbn [In]. intuition. }
      apply find_present in I'. cbn [length] in I'. rewrite app_length in I'. cbn [length] in I'. rewrite (proj2 (Nat.leb_le _ _)) in E by lia. discriminate.
    + intros I. rewrite find_absent.
      * cbn [length]. rewrite app_length. cbn [length]. rewrite (proj2 (Nat.leb_gt _ _)) by lia. reflexivity.
      * intros I'. apply I. cbn [In] in *. rewrite in_app_iff in I'. cbn [In] in I'. intuition.
  - intros i. reflexivity.
Qed.

(** @ex C109_by_type_ex: 1/4, 2/4 and 3/4; value<std::ratio<2, 4>> is get<2>. *)
Lemma c109_by_type_ex :
  let rs := [CRatio 1 4; CRatio 2 4; CRatio 3 4] in
  let quotient_of r := quotient (written_num r) (written_den r) in
  Forall (fun r => written_den r <> 0%Z /\ (0 <= quotient_of r <= 1)%Q) rs /\
  StronglySorted Qle (map quotient_of rs) /\ ~ In (CRatio 1 1) rs /\
  nth_error rs 1 = Some (CRatio 2 4) /\ nth_error rs 0 <> Some (CRatio 2 4) /\ ~ In (CRatio 1 2) (CRatio 0 1 :: CRatio 1 1 :: rs).
Proof.
  cbv zeta. split; [repeat constructor; try (intros E; discriminate E); unfold Qle; cbn; lia|].
  split; [repeat constructor; unfold Qle; cbn; lia|]. split; [cbn; intuition discriminate|]. split; [reflexivity|]. split; [discriminate|].
  cbn; intuition discriminate.
Qed.

(** @prop C109_default: if in addition no type is listed twice and
    [std::ratio<0, 1>] is not listed, value() and get() without an argument compile
    and return the estimate of the middle type. *)
Lemma c109_default : forall (F : num) (rs : list cratio) (s : psq F),
  let quotient_of r := quotient (written_num r) (written_den r) in
  Forall (fun r => written_den r <> 0%Z /\ (0 <= quotient_of r <= 1)%Q) rs ->
  StronglySorted Qle (map quotient_of rs) -> rs <> [] ->
  NoDup (CRatio 0 1 :: CRatio 1 1 :: rs) ->
  let middle := (length rs / 2)%nat in
  exists r, nth_error rs middle = Some r /\
    cpsq_value_default F rs s = cpsq_value F rs s r /\
    cpsq_value F rs s r = Compiled (psq_get_default F (map (cquantile F) rs) s).
Proof.
  intros F rs s quotient_of H S NE D middle. inversion D as [|? ? D0 D']; subst. inversion D' as [|? ? D1 DR]; subst.
  assert (L : (middle < length rs)%nat).
  { unfold middle. apply Nat.div_lt; [|lia]. destruct rs; [congruence|cbn; lia]. }
  destruct (nth_error rs middle) as [r|] eqn:E; [|apply nth_error_None in E; lia]. exists r. split; [reflexivity|].
  destruct (c109_by_type F rs s H S D1) as (V & _).
  split.
  - unfold cpsq_value_default. rewrite (list_sorted rs H S). fold middle. cbn [Nat.add nth]. rewrite app_nth1 by exact L.
    rewrite (nth_error_nth _ _ minimum_ratio E). reflexivity.
  - rewrite (V middle r E).
    + unfold psq_get_default, default_index, quantile_length. rewrite map_length. reflexivity.
    + intros j Hj E'. rewrite NoDup_nth_error in DR. specialize (DR j middle ltac:(lia)). rewrite E, E' in DR. specialize (DR eq_refl). lia.
    + intros ->. apply D0. right. apply nth_error_In with middle. exact E.
Qed.

(** @ex C109_default_ex: the quartiles. *)
Lemma c109_default_ex :
  let rs := [CRatio 1 4; CRatio 2 4; CRatio 3 4] in
  NoDup (CRatio 0 1 :: CRatio 1 1 :: rs) /\ nth_error rs (length rs / 2) = Some (CRatio 2 4).
Proof. cbv zeta. split; [repeat constructor; cbn; intuition discriminate|reflexivity]. Qed.

(** @prop C109_above_one_rejected: whatever the ratios and their order, asking for a
    ratio above 1, listed or not, does not compile. *)
Lemma c109_above : forall (F : num) (rs : list cratio) (s : psq F) (r : cratio),
  Forall (fun r => written_den r <> 0%Z) rs -> written_den r <> 0%Z ->
  (1 < quotient (written_num r) (written_den r))%Q ->
  cpsq_value F rs s r = Rejected.
Proof.
  intros F rs s r H Hr L. unfold cpsq_value, cpsq_get.
  assert (B : (cratio_find maximum_ratio (cquantile_list rs) < cratio_find r (cquantile_list rs))%nat).
  { apply find_before; [apply sort_sorted; apply all_proper; exact H| |exact L]. unfold cquantile_list. apply sort_in.
    cbn [app In]. right. apply in_app_iff. right. left. reflexivity. }
  rewrite (proj2 (Nat.leb_gt _ _)) by exact B. reflexivity.
Qed.

(** @ex C109_above_one_rejected_ex: 3/2, listed before 1/2. *)
Lemma c109_above_ex :
  Forall (fun r => written_den r <> 0%Z) [CRatio 3 2; CRatio 1 2] /\ (1 < quotient 3 2)%Q.
Proof. split; [repeat constructor; discriminate|reflexivity]. Qed.

(** @prop C109_notation: two lists of ratio types that stand for the same quotients
    give estimators that behave the same: after any history get<i>() returns the
    same value. *)
Lemma c109_notation : forall (F : num) (rs rs' : list cratio) (ops : list (op F)) (i : nat),
  Forall2 (fun r r' => written_den r <> 0%Z /\ written_den r' <> 0%Z /\
    (quotient (written_num r) (written_den r) == quotient (written_num r') (written_den r'))%Q) rs rs' ->
  let result rs := let qs := map (cquantile F) rs in
    psq_get F qs (run (psq_push F qs) (psq_clear F qs) (psq_init F qs) ops) i in
  result rs = result rs'.
Proof.
  intros F rs rs' ops i H result. unfold result. replace (map (cquantile F) rs') with (map (cquantile F) rs); [reflexivity|].
  clear -H. induction H as [|r r' rs rs' (Hr & Hr' & E) _ IH]; [reflexivity|]. cbn [map]. f_equal; [|exact IH].
  destruct (reduced r Hr) as (A & Ga & Ea), (reduced r' Hr') as (B & Gb & Eb). rewrite Ea, Eb in E. apply Qred_complete in E.
  rewrite !Qred_identity in E by (cbn [Qnum Qden]; rewrite Z2Pos.id by lia; assumption). injection E as E1 E2.
  unfold cquantile. rewrite E1. do 2 f_equal. rewrite <- (Z2Pos.id (cratio_den r)), <- (Z2Pos.id (cratio_den r')) by lia. rewrite E2. reflexivity.
Qed.

(** @ex C109_notation_ex: 1/2 as 2/4, 3/4 as -3/-4. *)
Lemma c109_notation_ex :
  Forall2 (fun r r' => written_den r <> 0%Z /\ written_den r' <> 0%Z /\
    (quotient (written_num r) (written_den r) == quotient (written_num r') (written_den r'))%Q)
    [CRatio 1 2; CRatio 3 4] [CRatio 2 4; CRatio (-3) (-4)].
Proof. repeat constructor; discriminate. Qed.

(** @prop C109_same_ratio_refuted: the median estimator rejects the question for
    2/4, although it is the ratio it was made for. *)
Lemma c109_same_refuted : exists (listed asked : cratio),
  (quotient (written_num listed) (written_den listed) == quotient (written_num asked) (written_den asked))%Q /\
  forall (F : num) (s : psq F), cpsq_value F [listed] s asked = Rejected.
Proof. exists (CRatio 1 2), (CRatio 2 4). split; reflexivity. Qed.

(** @prop C109_negative_refuted: with a negative ratio among the quantiles
    value<std::ratio<0, 1>>() is no longer the minimum: for -1/2 and the values 1 to
    4 it compiles and reads outside the array. *)
Lemma c109_negative_refuted : exists (r : cratio) (l : list b64num),
  (quotient (written_num r) (written_den r) < 0)%Q /\
  let qs := map (cquantile b64num) [r] in
  let s := run (psq_push b64num qs) (psq_clear b64num qs) (psq_init b64num qs) (pushes l) in
  cpsq_value b64num [r] s (CRatio 0 1) = Compiled None.
Proof.
  exists (CRatio (-1) 2), (map b64_of_Z [1; 2; 3; 4]%Z). split; [reflexivity|]. vm_compute. reflexivity.
Qed.

Lemma lowest_num (r : cratio) : lowest_terms (written_num r) (written_den r) -> cratio_num r = written_num r /\ cratio_den r = written_den r.
Proof.
  intros [D G]. unfold cratio_num, cratio_den. rewrite G, Z.sgn_pos, Z.abs_eq by lia. rewrite !Z.div_1_r. split; [ring|reflexivity].
Qed.

Local Notation toQ r := (written_num r # Z.to_pos (written_den r)).
Local Notation lowest r := (lowest_terms (written_num r) (written_den r)).

Lemma lowest_m (r : cratio) : lowest r -> proper r /\ (m r == toQ r)%Q.
Proof.
  intros L. destruct (lowest_num r L) as [E1 E2]. destruct L as [D G]. assert (P : proper r) by lia. split; [exact P|].
  destruct (reduced r P) as (_ & _ & E). rewrite E, E1, E2. reflexivity.
Qed.

Lemma lowest_same a b : lowest a -> lowest b -> Qeq_bool (toQ b) (toQ a) = cratio_same a b.
Proof.
  intros A B. destruct (cratio_same a b) eqn:S.
  - apply same_iff in S. subst. apply Qeq_bool_iff. reflexivity.
  - destruct (Qeq_bool (toQ b) (toQ a)) eqn:E; [|reflexivity]. exfalso. apply Qeq_bool_iff in E. apply Qred_complete in E.
    destruct A as [DA GA], B as [DB GB]. rewrite !Qred_identity in E by (cbn [Qnum Qden]; rewrite Z2Pos.id by lia; assumption).
    injection E as E1 E2. assert (a = b).
    { destruct a as [n d], b as [n' d']. cbn [written_num written_den] in *. f_equal; [congruence|].
      rewrite <- (Z2Pos.id d), <- (Z2Pos.id d') by lia. congruence. }
    apply same_iff in H. congruence.
Qed.

Lemma lowest_find r l : lowest r -> Forall (fun x => lowest x) l -> ratio_find (toQ r) (map (fun x => toQ x) l) = cratio_find r l.
Proof.
  intros Hr. induction 1 as [|x l Hx _ IH]; [reflexivity|]. cbn [map ratio_find cratio_find]. rewrite (lowest_same x r Hx Hr), IH. reflexivity.
Qed.

Lemma lowest_insert r l : lowest r -> Forall (fun x => lowest x) l ->
  ratio_insert (toQ r) (map (fun x => toQ x) l) = map (fun x => toQ x) (cratio_insert r l).
Proof.
  intros Hr. induction 1 as [|x l Hx _ IH]; [reflexivity|]. cbn [map ratio_insert cratio_insert].
  destruct (lowest_m r Hr) as [Pr Mr], (lowest_m x Hx) as [Px Mx].
  destruct (cratio_less x r) eqn:L.
  - apply less_iff in L; [|assumption..]. rewrite Mr, Mx in L. destruct (Qle_bool (toQ r) (toQ x)) eqn:B.
    + apply Qle_bool_iff in B. exfalso. apply (Qlt_not_le _ _ L B).
    + cbn [map]. rewrite IH. reflexivity.
  - destruct (Qle_bool (toQ r) (toQ x)) eqn:B; [reflexivity|]. exfalso.
    assert (Q : ~ (m x < m r)%Q) by (rewrite <- (less_iff x r Px Pr); congruence). apply Qnot_lt_le in Q. rewrite Mr, Mx in Q.
    apply Qle_bool_iff in Q. congruence.
Qed.

Lemma lowest_sort l : Forall (fun x => lowest x) l ->
  ratio_sort (map (fun x => toQ x) l) = map (fun x => toQ x) (fold_right cratio_insert [] l).
Proof.
  induction 1 as [|x l Hx H IH]; [reflexivity|]. unfold ratio_sort in *. cbn [map fold_right]. rewrite IH. apply lowest_insert; [exact Hx|].
  rewrite Forall_forall in *. intros y Hy. apply (proj1 (sort_in l y)) in Hy. auto.
Qed.

(** @prop C109_lowest_terms: for ratios written in lowest terms, in any order, the
    lookup by type is the lookup by rational number: value<R>() for a type [R] of
    the list that is at most 1 compiles and returns [psq_value]. *)
Lemma c109_lowest : forall (F : num) (rs : list cratio) (s : psq F) (r : cratio),
  let rational r := written_num r # Z.to_pos (written_den r) in
  Forall (fun r => lowest_terms (written_num r) (written_den r)) rs ->
  In r (CRatio 0 1 :: rs ++ [CRatio 1 1]) -> (rational r <= 1)%Q ->
  cpsq_value F rs s r = Compiled (psq_value F (ratio_value F) (map rational rs) s (rational r)).
Proof.
  intros F rs s r rational H I L.
  assert (HA : Forall (fun r => lowest r) ([minimum_ratio] ++ rs ++ [maximum_ratio])).
  { constructor; [split; reflexivity|]. apply Forall_app. split; [exact H|]. repeat constructor. }
  assert (Lr : lowest r) by (rewrite Forall_forall in HA; apply HA; exact I).
  assert (EL : quantile_list (map rational rs) = map rational (cquantile_list rs)).
  { unfold quantile_list, cquantile_list. rewrite <- lowest_sort by exact HA. rewrite !map_app. reflexivity. }
  assert (HL : Forall (fun x => lowest x) (cquantile_list rs)).
  { unfold cquantile_list. rewrite Forall_forall in *. intros y Hy. apply (proj1 (sort_in _ y)) in Hy. auto. }
  unfold cpsq_value, psq_value, cpsq_get. rewrite EL. unfold rational at 2 3. rewrite (lowest_find r _ Lr HL).
  assert (EQ : map (cquantile F) rs = map (ratio_value F) (map rational rs)).
  { rewrite map_map. apply map_ext_Forall. eapply Forall_impl; [|exact H]. intros x Hx. destruct (lowest_num x Hx) as [E1 E2].
    unfold cquantile, ratio_value, rational. cbn [Qnum Qden]. rewrite E1, E2. destruct Hx as [Hx _]. rewrite Z2Pos.id by exact Hx. reflexivity. }
  rewrite EQ. rewrite (proj2 (Nat.leb_le _ _)); [reflexivity|].
  destruct (lowest_m r Lr) as [Pr Mr].
  destruct (Qlt_le_dec (m r) 1) as [Q|Q].
  - apply Nat.lt_le_incl. apply find_before; [|apply sort_in; exact I|exact Q]. apply sort_sorted.
    eapply Forall_impl; [|exact HA]. intros x Hx. apply (lowest_m x Hx).
  - assert (E : r = maximum_ratio).
    { rewrite Mr in Q. assert (E : (toQ r == toQ maximum_ratio)%Q) by (apply Qle_antisym; [exact L|exact Q]).
      apply Qeq_bool_iff in E. rewrite (lowest_same maximum_ratio r ltac:(split; reflexivity) Lr) in E. apply same_iff in E. symmetry. exact E. }
    rewrite E. lia.
Qed.

(** @ex C109_lowest_terms_ex: 3/4 and 1/4 in descending order. *)
Lemma c109_lowest_ex :
  Forall (fun r => lowest_terms (written_num r) (written_den r)) [CRatio 3 4; CRatio 1 4] /\
  In (CRatio 3 4) (CRatio 0 1 :: [CRatio 3 4; CRatio 1 4] ++ [CRatio 1 1]) /\ (3 # 4 <= 1)%Q.
Proof. split; [repeat constructor|]. split; [right; left; reflexivity|]. unfold Qle. cbn. lia. Qed.
