(** * Refinement of the bounded deque by circular_span *)

From Coq Require Import List Arith NArith ZArith Znumtheory Lia.
From Verif Require Import Arith History HistoryLemmas CircularSpan SpecDeque.
Import ListNotations.
Local Open Scope Z_scope.

Definition modulus : Z := 18446744073709551616.

Lemma szmod_Z : Z.of_N szmod = modulus. Proof. reflexivity. Qed.

Lemma szsub_Z a b : Z.of_N (szsub a b) = (Z.of_N a - Z.of_N b) mod modulus.
Proof.
  unfold szsub, sz. rewrite N2Z.inj_mod by discriminate.
  rewrite N2Z.inj_add, N2Z.inj_sub, N2Z.inj_mod, szmod_Z by
    (try discriminate; apply N.lt_le_incl, N.mod_lt; discriminate).
  rewrite <- (Zminus_mod_idemp_r (Z.of_N a) (Z.of_N b)).
  replace (Z.of_N a + (modulus - Z.of_N b mod modulus))
    with (Z.of_N a - Z.of_N b mod modulus + 1 * modulus) by ring.
  apply Z_mod_plus_full.
Qed.

Lemma szadd_Z a b : Z.of_N (szadd a b) = (Z.of_N a + Z.of_N b) mod modulus.
Proof. unfold szadd, sz. rewrite N2Z.inj_mod, N2Z.inj_add, szmod_Z by discriminate. reflexivity. Qed.

Lemma szmul_Z a b : Z.of_N (szmul a b) = (Z.of_N a * Z.of_N b) mod modulus.
Proof. unfold szmul, sz. rewrite N2Z.inj_mod, N2Z.inj_mul, szmod_Z by discriminate. reflexivity. Qed.

Lemma to_nat_Z (x : N) z : Z.of_N x = z -> N.to_nat x = Z.to_nat z.
Proof. intros <-. lia. Qed.

(** ** Lists *)

Lemma set_nth_length {A} (l : list A) i x : length (set_nth l i x) = length l.
Proof. revert i. induction l as [|a l IH]; intros [|i]; cbn; auto. Qed.

Lemma set_nth_same {A} (l : list A) i x :
  (i < length l)%nat -> nth_error (set_nth l i x) i = Some x.
Proof.
  revert i. induction l as [|a l IH]; intros [|i] H; cbn in *; try lia; auto.
  apply IH. lia.
Qed.

Lemma set_nth_other {A} (l : list A) i j x :
  i <> j -> nth_error (set_nth l i x) j = nth_error l j.
Proof.
  revert i j. induction l as [|a l IH]; intros [|i] [|j] H; cbn; try congruence; auto.
Qed.

Lemma nth_error_snoc_old {A} (l : list A) x i :
  (i < length l)%nat -> nth_error (l ++ [x]) i = nth_error l i.
Proof. intros. apply nth_error_app1. assumption. Qed.

Lemma nth_error_snoc_new {A} (l : list A) x : nth_error (l ++ [x]) (length l) = Some x.
Proof. rewrite nth_error_app2 by lia. rewrite Nat.sub_diag. reflexivity. Qed.

Lemma nth_error_removelast {A} (l : list A) i :
  (i < length l - 1)%nat -> nth_error (removelast l) i = nth_error l i.
Proof.
  destruct l as [|x l _] using rev_ind; [reflexivity|]. rewrite removelast_last, app_length.
  cbn. intros H. rewrite nth_error_app1 by lia. reflexivity.
Qed.

Lemma removelast_length {A} (l : list A) : length (removelast l) = (length l - 1)%nat.
Proof.
  destruct l as [|x l _] using rev_ind; [reflexivity|]. rewrite removelast_last, app_length.
  cbn. lia.
Qed.

Lemma lastn_all_le {A} n (l : list A) : (length l <= n)%nat -> lastn n l = l.
Proof. intros H. unfold lastn. replace (length l - n)%nat with 0%nat by lia. reflexivity. Qed.

Section Refinement.
Context {A : Type}.
Variable cap : N.
Implicit Types (s : cspan A) (l : list A).

(** Where the element of index [i] of a span with the given members lives. *)
Definition slot (next size : Z) (i : Z) : Z := (next - size + i) mod Z.of_N cap.

Definition pow2 : Prop := (2 * Z.of_N cap | modulus).

Record refines (s : cspan A) (l : list A) : Prop := {
  rf_cap : cs_capacity s = cap;
  rf_data : N.of_nat (length (cs_data s)) = cap;
  rf_range : 1 <= Z.of_N cap <= 4611686018427387904;
  rf_size : cs_size s = N.of_nat (length l);
  rf_le : (N.of_nat (length l) <= cap)%N;
  rf_next : (cs_next s <= 2 * cap)%N;
  rf_wrap : pow2 \/ (N.of_nat (length l) <= cs_next s)%N;
  rf_elts : forall i, (i < length l)%nat ->
    nth_error (cs_data s)
      (Z.to_nat (slot (Z.of_N (cs_next s)) (Z.of_N (cs_size s)) (Z.of_nat i)))
    = nth_error l i
}.

Lemma slot_range next size i :
  1 <= Z.of_N cap -> 0 <= slot next size i < Z.of_N cap.
Proof. intros. apply Z.mod_pos_bound. lia. Qed.

Lemma slot_ext (n1 s1 i1 n2 s2 i2 k : Z) :
  n1 - s1 + i1 = n2 - s2 + i2 + k * Z.of_N cap -> slot n1 s1 i1 = slot n2 s2 i2.
Proof. intros H. unfold slot. rewrite H. apply Z_mod_plus_full. Qed.

Lemma mod_as_sub x : 1 <= Z.of_N cap ->
  exists k, x mod Z.of_N cap = x + k * Z.of_N cap.
Proof.
  intros H. exists (- (x / Z.of_N cap)).
  pose proof (Z_div_mod_eq_full x (Z.of_N cap)). lia.
Qed.

(** Reduction of a difference computed modulo 2^64. *)
Lemma index_sub a b :
  1 <= Z.of_N cap -> (a < szmod)%N ->
  pow2 \/ (b <= a)%N ->
  Z.of_N (szsub a b mod cap) = (Z.of_N a - Z.of_N b) mod Z.of_N cap.
Proof.
  intros Hc Ha H. rewrite N2Z.inj_mod by lia. rewrite szsub_Z.
  destruct H as [H|H].
  - symmetry. apply Zmod_div_mod; [lia|reflexivity|].
    apply Z.divide_trans with (2 * Z.of_N cap); [|exact H]. exists 2. reflexivity.
  - rewrite (Z.mod_small _ modulus); [reflexivity|]. 
    assert (Z.of_N a < modulus) by (rewrite <- szmod_Z; lia). lia.
Qed.

Lemma vindex_sub a b :
  1 <= Z.of_N cap -> (a < szmod)%N ->
  pow2 \/ (b <= a)%N ->
  Z.of_N (szsub a b mod (2 * cap)) = (Z.of_N a - Z.of_N b) mod (2 * Z.of_N cap).
Proof.
  intros Hc Ha H. rewrite N2Z.inj_mod by lia. rewrite szsub_Z, N2Z.inj_mul.
  change (Z.of_N 2) with 2. destruct H as [H|H].
  - symmetry. apply Zmod_div_mod; [lia|reflexivity|exact H].
  - rewrite (Z.mod_small _ modulus); [reflexivity|].
    assert (Z.of_N a < modulus) by (rewrite <- szmod_Z; lia). lia.
Qed.

Lemma modulus_gt : 4611686018427387904 * 4 = modulus. Proof. reflexivity. Qed.

Lemma small_next s l : refines s l -> (cs_next s < szmod)%N.
Proof.
  intros [H1 H2 H3 H4 H5 H6 H7 H8]. pose proof modulus_gt. pose proof szmod_Z. lia.
Qed.

Lemma index_some s p : cs_capacity s = cap -> 1 <= Z.of_N cap ->
  cs_index s p = Some (p mod cap)%N.
Proof.
  intros E H. unfold cs_index. rewrite E. destruct (N.eqb_spec cap 0); [lia|reflexivity].
Qed.

Lemma vindex_some s p : cs_capacity s = cap -> 1 <= Z.of_N cap <= 4611686018427387904 ->
  cs_vindex s p = Some (p mod (2 * cap))%N.
Proof.
  intros E H. unfold cs_vindex. rewrite E. rewrite szmul_small.
  - cbv zeta. destruct (N.eqb_spec (2 * cap) 0); [lia|reflexivity].
  - pose proof modulus_gt. pose proof szmod_Z. lia.
Qed.

Lemma store_some s p x :
  cs_capacity s = cap -> N.of_nat (length (cs_data s)) = cap -> 1 <= Z.of_N cap ->
  cs_store s p x =
  Some (CSpan (set_nth (cs_data s) (N.to_nat (p mod cap)) x)
          (cs_capacity s) (cs_size s) (cs_next s)).
Proof.
  intros E L H. unfold cs_store. rewrite index_some by assumption. cbn [obind].
  destruct (N.ltb_spec (p mod cap) (N.of_nat (length (cs_data s)))); [reflexivity|].
  pose proof (N.mod_lt p cap ltac:(lia)). lia.
Qed.

Lemma mod_neq a b : 1 <= Z.of_N cap -> 0 < a - b < Z.of_N cap ->
  a mod Z.of_N cap <> b mod Z.of_N cap.
Proof.
  intros Hc H E.
  assert (D : (a - b) mod Z.of_N cap = 0).
  { rewrite Zminus_mod, E, Z.sub_diag. apply Z.mod_0_l. lia. }
  rewrite Z.mod_small in D by lia. lia.
Qed.

Lemma to_nat_neq x y : 0 <= x -> 0 <= y -> x <> y -> Z.to_nat x <> Z.to_nat y.
Proof. lia. Qed.

Lemma refines_push_back s l x :
  refines s l ->
  exists s', cs_push_back s x = Some s' /\ refines s' (lastn (N.to_nat cap) (l ++ [x])).
Proof.
  intros R. pose proof (small_next s l R) as HN.
  destruct R as [H1 H2 H3 H4 H5 H6 H7 H8].
  pose proof modulus_gt as HM. pose proof szmod_Z as HZ.
  unfold cs_push_back. rewrite store_some by (try assumption; lia). cbn [obind].
  rewrite index_some by (try assumption; cbn; lia). cbn [obind cs_data cs_capacity cs_size cs_next].
  pose proof (N.mod_lt (cs_next s) cap ltac:(lia)) as Hi.
  set (i := (cs_next s mod cap)%N) in *.
  rewrite H1. rewrite (szadd_small cap i) by lia. rewrite (szadd_small (cap + i) 1) by lia.
  unfold cs_full. cbn [cs_size cs_capacity].
  assert (Ei : Z.of_N i = Z.of_N (cs_next s) mod Z.of_N cap) by (unfold i; apply N2Z.inj_mod; lia).
  destruct (mod_as_sub (Z.of_N (cs_next s)) ltac:(lia)) as [k Hk].
  assert (Ln : forall j : nat, Z.to_nat (Z.of_nat j) = j) by (intros; lia).
  assert (EiN : N.to_nat i = Z.to_nat (Z.of_N (cs_next s) mod Z.of_N cap)) by lia.
  destruct (N.eqb_spec (cs_size s) cap) as [Hf|Hf]; cbn [negb].
  - (* full *)
    eexists. split; [reflexivity|].
    assert (El : lastn (N.to_nat cap) (l ++ [x]) = tl l ++ [x]).
    { unfold lastn. rewrite app_length. cbn [length].
      replace (length l + 1 - N.to_nat cap)%nat with 1%nat by lia.
      destruct l; [cbn in *; lia|reflexivity]. }
    rewrite El.
    assert (Lt : length (tl l ++ [x]) = length l).
    { rewrite app_length. destruct l; cbn in *; lia. }
    assert (Ltl : length (tl l) = (length l - 1)%nat) by (destruct l; cbn; lia).
    constructor; cbn [cs_data cs_capacity cs_size cs_next]; rewrite ?Lt; auto; try lia.
    + rewrite set_nth_length. exact H2.
    + intros j Hj. destruct (Nat.eq_dec j (length l - 1)) as [->|Hne].
      * rewrite <- Ltl at 2. rewrite nth_error_snoc_new.
        replace (Z.to_nat _) with (N.to_nat i).
        { apply set_nth_same. lia. }
        rewrite EiN. f_equal. unfold slot.
        replace (Z.of_N (cap + i + 1) - Z.of_N (cs_size s) + Z.of_nat (length l - 1))
          with (Z.of_N (cs_next s) + (1 + k) * Z.of_N cap) by lia.
        symmetry. apply Z_mod_plus_full.
      * rewrite nth_error_snoc_old by lia.
        rewrite set_nth_other.
        -- transitivity (nth_error l (S j)); [|destruct l; [destruct j|]; reflexivity].
           rewrite <- H8 by lia. f_equal. f_equal.
           apply (slot_ext _ _ _ _ _ _ (1 + k)). lia.
        -- rewrite EiN. apply to_nat_neq; [apply Z.mod_pos_bound; lia|apply Z.mod_pos_bound; lia|].
           unfold slot.
           replace (Z.of_N (cap + i + 1) - Z.of_N (cs_size s) + Z.of_nat j)
             with ((Z.of_N (cs_next s) + 1 - Z.of_N (cs_size s) + Z.of_nat j) + (1 + k) * Z.of_N cap) by lia.
           rewrite Z_mod_plus_full. apply mod_neq; lia.
  - (* room *)
    rewrite (szadd_small (cs_size s) 1) by lia.
    eexists. split; [reflexivity|].
    rewrite lastn_all_le by (rewrite app_length; cbn; lia).
    constructor; cbn [cs_data cs_capacity cs_size cs_next]; rewrite ?app_length; cbn [length]; auto; try lia.
    + rewrite set_nth_length. exact H2.
    + intros j Hj. destruct (Nat.eq_dec j (length l)) as [->|Hne].
      * rewrite nth_error_snoc_new.
        replace (Z.to_nat _) with (N.to_nat i).
        { apply set_nth_same. lia. }
        rewrite EiN. f_equal. unfold slot.
        replace (Z.of_N (cap + i + 1) - Z.of_N (cs_size s + 1) + Z.of_nat (length l))
          with (Z.of_N (cs_next s) + (1 + k) * Z.of_N cap) by lia.
        symmetry. apply Z_mod_plus_full.
      * rewrite nth_error_snoc_old by lia.
        rewrite set_nth_other.
        -- rewrite <- H8 by lia. f_equal. f_equal.
           apply (slot_ext _ _ _ _ _ _ (1 + k)). lia.
        -- rewrite EiN. apply to_nat_neq; [apply Z.mod_pos_bound; lia|apply Z.mod_pos_bound; lia|].
           unfold slot.
           replace (Z.of_N (cap + i + 1) - Z.of_N (cs_size s + 1) + Z.of_nat j)
             with ((Z.of_N (cs_next s) - Z.of_N (cs_size s) + Z.of_nat j) + (1 + k) * Z.of_N cap) by lia.
           rewrite Z_mod_plus_full. apply mod_neq; lia.
Qed.

Lemma refines_push_front s l x :
  refines s l -> pow2 ->
  exists s', cs_push_front s x = Some s' /\ refines s' (firstn (N.to_nat cap) (x :: l)).
Proof.
  intros R HP. pose proof (small_next s l R) as HN.
  destruct R as [H1 H2 H3 H4 H5 H6 H7 H8].
  pose proof modulus_gt as HM. pose proof szmod_Z as HZ.
  unfold cs_push_front.
  pose proof (N.mod_lt (cs_next s) cap ltac:(lia)) as Hi.
  destruct (mod_as_sub (Z.of_N (cs_next s)) ltac:(lia)) as [k Hk].
  assert (Ei : Z.of_N (cs_next s mod cap) = Z.of_N (cs_next s) mod Z.of_N cap) by (apply N2Z.inj_mod; lia).
  unfold cs_full. rewrite H1.
  destruct (N.eqb_spec (cs_size s) cap) as [Hf|Hf].
  - rewrite index_some by (try assumption; lia). cbn [obind].
    set (i := (cs_next s mod cap)%N) in *.
    rewrite (szadd_small cap i) by lia. rewrite (szsub_small (cap + i) 1) by lia.
    rewrite index_some by (cbn; try assumption; lia). cbn [obind cs_next cs_size].
    set (nx := (cap + i - 1)%N) in *.
    rewrite store_some by (cbn; try assumption; lia). cbn [cs_data cs_capacity cs_size cs_next].
    eexists. split; [reflexivity|].
    destruct (mod_as_sub (Z.of_N nx) ltac:(lia)) as [k2 Hk2].
    assert (Es : Z.of_N (szsub (nx mod cap) (cs_size s) mod cap) =
                 slot (Z.of_N nx) (Z.of_N (cs_size s)) 0).
    { pose proof (N.mod_lt nx cap ltac:(lia)) as Hi2.
      rewrite index_sub by (try lia; left; exact HP).
      rewrite N2Z.inj_mod by lia. unfold slot.
      replace (Z.of_N nx mod Z.of_N cap - Z.of_N (cs_size s))
        with (Z.of_N nx - Z.of_N (cs_size s) + 0 + k2 * Z.of_N cap) by lia.
      apply Z_mod_plus_full. }
    assert (EsN : N.to_nat (szsub (nx mod cap) (cs_size s) mod cap) =
                  Z.to_nat (slot (Z.of_N nx) (Z.of_N (cs_size s)) 0)) by (apply to_nat_Z; exact Es).
    assert (El : firstn (N.to_nat cap) (x :: l) = x :: removelast l).
    { replace (N.to_nat cap) with (S (N.to_nat cap - 1)) by lia. cbn [firstn]. f_equal.
      destruct l as [|y l _] using rev_ind; [cbn in *; lia|].
      rewrite removelast_last. rewrite app_length in *. cbn in *.
      rewrite firstn_app. replace (N.to_nat cap - 1 - length l)%nat with 0%nat by lia.
      rewrite firstn_O, app_nil_r. apply firstn_all2. lia. }
    rewrite El.
    assert (Lr : length (x :: removelast l) = length l).
    { cbn [length]. rewrite removelast_length. lia. }
    constructor; cbn [cs_data cs_capacity cs_size cs_next]; rewrite ?Lr; auto; try lia.
    + rewrite set_nth_length. exact H2.
    + intros j Hj. pose proof (slot_range (Z.of_N nx) (Z.of_N (cs_size s)) 0 ltac:(lia)).
      destruct j as [|j].
      * change (Z.of_nat 0) with 0. rewrite EsN. apply set_nth_same. lia.
      * rewrite EsN, set_nth_other.
        -- cbn [nth_error]. rewrite nth_error_removelast by lia. rewrite <- H8 by lia.
           f_equal. f_equal. apply (slot_ext _ _ _ _ _ _ (1 + k)). lia.
        -- apply to_nat_neq; [apply slot_range; lia|apply slot_range; lia|].
           apply not_eq_sym. apply mod_neq; lia.
  - rewrite (szadd_small (cs_size s) 1) by lia. cbn [obind].
    rewrite index_some by (cbn; try assumption; lia). cbn [obind cs_next cs_size].
    set (nx := cs_next s) in *.
    rewrite store_some by (cbn; try assumption; lia). cbn [cs_data cs_capacity cs_size cs_next].
    eexists. split; [reflexivity|].
    assert (Es : Z.of_N (szsub (nx mod cap) (cs_size s + 1) mod cap) =
                 slot (Z.of_N nx) (Z.of_N (cs_size s + 1)) 0).
    { rewrite index_sub by (try lia; left; exact HP).
      rewrite N2Z.inj_mod by lia. unfold slot.
      replace (Z.of_N nx mod Z.of_N cap - Z.of_N (cs_size s + 1))
        with (Z.of_N nx - Z.of_N (cs_size s + 1) + 0 + k * Z.of_N cap) by lia.
      apply Z_mod_plus_full. }
    assert (EsN : N.to_nat (szsub (nx mod cap) (cs_size s + 1) mod cap) =
                  Z.to_nat (slot (Z.of_N nx) (Z.of_N (cs_size s + 1)) 0)) by (apply to_nat_Z; exact Es).
    rewrite firstn_all2 by (cbn; lia).
    constructor; cbn [cs_data cs_capacity cs_size cs_next length]; auto; try lia.
    + rewrite set_nth_length. exact H2.
    + intros j Hj. pose proof (slot_range (Z.of_N nx) (Z.of_N (cs_size s + 1)) 0 ltac:(lia)).
      destruct j as [|j].
      * change (Z.of_nat 0) with 0. rewrite EsN. apply set_nth_same. lia.
      * rewrite EsN, set_nth_other.
        -- cbn [nth_error]. rewrite <- H8 by lia.
           f_equal. f_equal. apply (slot_ext _ _ _ _ _ _ 0). lia.
        -- apply to_nat_neq; [apply slot_range; lia|apply slot_range; lia|].
           apply not_eq_sym. apply mod_neq; lia.
Qed.

Lemma refines_empty s l : refines s l -> cs_empty s = match l with [] => true | _ => false end.
Proof.
  intros R. unfold cs_empty. rewrite (rf_size _ _ R). destruct l; [reflexivity|].
  apply N.eqb_neq. cbn. lia.
Qed.

Lemma refines_pop_front s x l :
  refines s (x :: l) -> exists s', cs_pop_front s = Some s' /\ refines s' l.
Proof.
  intros R. unfold cs_pop_front. rewrite (refines_empty _ _ R).
  destruct R as [H1 H2 H3 H4 H5 H6 H7 H8]. cbn [length] in *.
  pose proof modulus_gt as HM. pose proof szmod_Z as HZ.
  rewrite szsub_small by lia. eexists. split; [reflexivity|].
  constructor; cbn [cs_data cs_capacity cs_size cs_next]; auto; try lia.
  - destruct H7 as [H7|H7]; [left; exact H7|right; lia].
  - intros j Hj. change (nth_error l j) with (nth_error (x :: l) (S j)).
    rewrite <- H8 by lia. f_equal. f_equal. apply (slot_ext _ _ _ _ _ _ 0). lia.
Qed.

Lemma refines_pop_back s l :
  l <> [] -> refines s l -> exists s', cs_pop_back s = Some s' /\ refines s' (removelast l).
Proof.
  intros Hl R. unfold cs_pop_back. pose proof (small_next s l R) as HN.
  rewrite (refines_empty _ _ R).
  destruct R as [H1 H2 H3 H4 H5 H6 H7 H8].
  pose proof modulus_gt as HM. pose proof szmod_Z as HZ.
  assert (Ll : (0 < length l)%nat) by (destruct l; [congruence|cbn; lia]).
  replace (match l with [] => true | _ => false end) with false by (destruct l; congruence).
  rewrite index_some by (try assumption; lia). cbn [obind].
  pose proof (N.mod_lt (szsub (cs_next s) 1) cap ltac:(lia)) as Hi.
  assert (Ei : Z.of_N (szsub (cs_next s) 1 mod cap) = (Z.of_N (cs_next s) - 1) mod Z.of_N cap).
  { apply (index_sub (cs_next s) 1); [lia|exact HN|].
    destruct H7 as [H7|H7]; [left; exact H7|right; lia]. }
  set (i := (szsub (cs_next s) 1 mod cap)%N) in *.
  rewrite H1. rewrite szsub_small by lia. rewrite szadd_small by lia.
  destruct (mod_as_sub (Z.of_N (cs_next s) - 1) ltac:(lia)) as [k Hk].
  eexists. split; [reflexivity|].
  constructor; cbn [cs_data cs_capacity cs_size cs_next]; rewrite ?removelast_length; auto; try lia.
  intros j Hj. rewrite nth_error_removelast by exact Hj. rewrite <- H8 by lia.
  f_equal. f_equal. apply (slot_ext _ _ _ _ _ _ (1 + k)). lia.
Qed.

Lemma refines_clear s l : refines s l -> refines (cs_clear s) [].
Proof.
  intros [H1 H2 H3 H4 H5 H6 H7 H8]. unfold cs_clear.
  constructor; cbn [cs_data cs_capacity cs_size cs_next length]; auto; lia.
Qed.

Lemma lastn_lastn_snoc n (l : list A) t :
  lastn n (lastn n l ++ t) = lastn n (l ++ t).
Proof.
  unfold lastn. destruct (Nat.le_gt_cases (length l) n) as [H|H].
  - replace (length l - n)%nat with 0%nat by lia. reflexivity.
  - pose proof (firstn_skipn (length l - n) l) as E.
    assert (Lp : length (firstn (length l - n) l) = (length l - n)%nat) by (rewrite firstn_length; lia).
    assert (Lq : length (skipn (length l - n) l) = n) by (rewrite skipn_length; lia).
    remember (firstn (length l - n) l) as p. remember (skipn (length l - n) l) as q.
    clear Heqp Heqq. rewrite <- E. rewrite <- app_assoc, !app_length, (skipn_app _ p).
    rewrite (skipn_all2 p) by lia. cbn [app]. f_equal. lia.
Qed.

Lemma refines_push_all xs : forall s l,
  refines s (lastn (N.to_nat cap) l) ->
  exists s', cs_push_all s xs = Some s' /\ refines s' (lastn (N.to_nat cap) (l ++ xs)).
Proof.
  induction xs as [|x xs IH]; intros s l R.
  - exists s. rewrite app_nil_r. auto.
  - destruct (refines_push_back s _ x R) as (s1 & E1 & R1).
    rewrite lastn_lastn_snoc in R1. cbn [cs_push_all]. rewrite E1. cbn [obind].
    destruct (IH s1 (l ++ [x]) R1) as (s2 & E2 & R2). exists s2. split; [exact E2|].
    rewrite <- app_assoc in R2. exact R2.
Qed.

(** One call: either both sides are defined and related, or both are a violated
    precondition. *)
Lemma refines_call s l o :
  refines s l -> (is_push_front o = true -> pow2) ->
  match dq_step (N.to_nat cap) l o with
  | Some l' => exists s', cs_call s o = Some s' /\ refines s' l'
  | None => cs_call s o = None
  end.
Proof.
  intros R HP. destruct o as [x|x| | | |xs]; cbn [dq_step cs_call].
  - apply refines_push_back. exact R.
  - apply refines_push_front; auto.
  - destruct l as [|x l].
    + unfold cs_pop_front. rewrite (refines_empty _ _ R). reflexivity.
    + exact (refines_pop_front s x l R).
  - destruct l as [|x l].
    + unfold cs_pop_back. rewrite (refines_empty _ _ R). reflexivity.
    + apply refines_pop_back; [congruence|exact R].
  - exists (cs_clear s). split; [reflexivity|]. eapply refines_clear. exact R.
  - unfold cs_assign. apply (refines_push_all xs (cs_clear s) []).
    cbn. eapply refines_clear. exact R.
Qed.

Lemma refines_run ops : forall s l,
  refines s l -> (existsb is_push_front ops = true -> pow2) ->
  match dq_run (N.to_nat cap) l ops with
  | Some l' => exists s', cs_run s ops = Some s' /\ refines s' l'
  | None => cs_run s ops = None
  end.
Proof.
  induction ops as [|o ops IH]; intros s l R HP.
  - cbn. exists s. auto.
  - cbn [dq_run cs_run]. cbn [existsb] in HP.
    pose proof (refines_call s l o R) as C.
    destruct (dq_step (N.to_nat cap) l o) as [l'|].
    + destruct C as (s' & E & R').
      { intros E. apply HP. rewrite E. reflexivity. }
      rewrite E. cbn [obind]. apply IH; [exact R'|]. intros E2. apply HP. rewrite E2.
      destruct (is_push_front o); reflexivity.
    + rewrite C; [reflexivity|]. intros E. apply HP. rewrite E. reflexivity.
Qed.

Lemma refines_new buffer :
  N.of_nat (length buffer) = cap -> 1 <= Z.of_N cap <= 4611686018427387904 ->
  refines (cs_new buffer) [].
Proof.
  intros L H. constructor; cbn [cs_new cs_data cs_capacity cs_size cs_next length]; auto; try lia.
Qed.

(** ** Observers *)

Lemma nth_error_hd (l : list A) : nth_error l 0 = hd_error l.
Proof. destruct l; reflexivity. Qed.

Lemma refines_front s l : refines s l -> cs_front s = hd_error l.
Proof.
  intros R. pose proof (small_next s l R) as HN.
  unfold cs_front. rewrite (refines_empty _ _ R). destruct l as [|x l]; [reflexivity|].
  destruct R as [H1 H2 H3 H4 H5 H6 H7 H8]. pose proof modulus_gt as HM. pose proof szmod_Z as HZ.
  unfold cs_at. rewrite index_some by (try assumption; lia). cbn [obind].
  rewrite <- nth_error_hd, <- H8 by (cbn; lia). f_equal.
  assert (E : Z.of_N (szsub (cs_next s) (cs_size s) mod cap) =
              slot (Z.of_N (cs_next s)) (Z.of_N (cs_size s)) (Z.of_nat 0)).
  { rewrite index_sub; [|lia|lia|].
    - unfold slot. f_equal. lia.
    - destruct H7 as [H7|H7]; [left; exact H7|right; lia]. }
  apply to_nat_Z; exact E.
Qed.

Lemma hd_error_rev (l : list A) : hd_error (rev l) = nth_error l (length l - 1).
Proof.
  destruct l as [|x l _] using rev_ind; [reflexivity|].
  rewrite rev_app_distr, app_length. cbn [rev app hd_error length].
  replace (length l + 1 - 1)%nat with (length l) by lia.
  symmetry. apply nth_error_snoc_new.
Qed.

Lemma refines_back s l : refines s l -> cs_back s = last_error l.
Proof.
  intros R. pose proof (small_next s l R) as HN. unfold last_error. rewrite hd_error_rev.
  unfold cs_back. rewrite (refines_empty _ _ R). destruct l as [|x l]; [reflexivity|].
  set (l' := x :: l) in *. assert (Ll : (0 < length l')%nat) by (cbn; lia).
  destruct R as [H1 H2 H3 H4 H5 H6 H7 H8]. pose proof modulus_gt as HM. pose proof szmod_Z as HZ.
  unfold cs_at. rewrite index_some by (try assumption; lia). cbn [obind].
  rewrite <- H8 by lia. f_equal.
  assert (E : Z.of_N (szsub (cs_next s) 1 mod cap) =
              slot (Z.of_N (cs_next s)) (Z.of_N (cs_size s)) (Z.of_nat (length l' - 1))).
  { rewrite index_sub; [|lia|lia|].
    - unfold slot. f_equal. lia.
    - destruct H7 as [H7|H7]; [left; exact H7|right; lia]. }
  apply to_nat_Z; exact E.
Qed.

Lemma visit_from s l :
  refines s l ->
  forall m fuel i, (length l - i = m)%nat -> (i <= length l)%nat -> (m < fuel)%nat ->
  forall cur, Z.of_N cur = (Z.of_N (cs_next s) - Z.of_N (cs_size s) + Z.of_nat i) mod (2 * Z.of_N cap) ->
  cs_visit fuel s cur (cs_next s mod (2 * cap))%N = Some (skipn i l).
Proof.
  intros R. pose proof (small_next s l R) as HN. pose proof R as R0.
  destruct R as [H1 H2 H3 H4 H5 H6 H7 H8]. pose proof modulus_gt as HM. pose proof szmod_Z as HZ.
  assert (Ee : Z.of_N (cs_next s mod (2 * cap)) = Z.of_N (cs_next s) mod (2 * Z.of_N cap)).
  { rewrite N2Z.inj_mod by lia. rewrite N2Z.inj_mul. reflexivity. }
  induction m as [|m IH]; intros fuel i Hm Hi Hfuel cur Hcur.
  - destruct fuel as [|fuel]; [lia|]. cbn [cs_visit]. unfold it_eq.
    assert (i = length l) by lia. subst i.
    destruct (N.eqb_spec cur (cs_next s mod (2 * cap))) as [_|Hne].
    + rewrite skipn_all. reflexivity.
    + exfalso. apply Hne. apply N2Z.inj. rewrite Hcur, Ee. f_equal. lia.
  - destruct fuel as [|fuel]; [lia|]. cbn [cs_visit]. unfold it_eq.
    destruct (N.eqb_spec cur (cs_next s mod (2 * cap))) as [E|_].
    + exfalso. apply (f_equal Z.of_N) in E. rewrite Hcur, Ee in E.
      assert (D : (Z.of_N (cs_next s) - (Z.of_N (cs_next s) - Z.of_N (cs_size s) + Z.of_nat i))
                  mod (2 * Z.of_N cap) = 0).
      { rewrite Zminus_mod, E, Z.sub_diag. apply Z.mod_0_l. lia. }
      rewrite Z.mod_small in D by lia. lia.
    + assert (Hx : nth_error l i <> None) by (apply nth_error_Some; lia).
      destruct (nth_error l i) as [x|] eqn:Ex; [|congruence].
      assert (Hd : it_deref s cur = Some x).
      { unfold it_deref, cs_at. rewrite index_some by (try assumption; lia). cbn [obind].
        rewrite <- Ex, <- H8 by lia. f_equal.
        assert (E : Z.of_N (cur mod cap) = slot (Z.of_N (cs_next s)) (Z.of_N (cs_size s)) (Z.of_nat i)).
        { rewrite N2Z.inj_mod by lia. rewrite Hcur. unfold slot. symmetry.
          apply Zmod_div_mod; [lia|lia|]. exists 2. reflexivity. }
        apply to_nat_Z; exact E. }
      rewrite Hd. cbn [obind].
      pose proof (Z.mod_pos_bound (Z.of_N (cs_next s) - Z.of_N (cs_size s) + Z.of_nat i) (2 * Z.of_N cap) ltac:(lia)).
      unfold it_next. rewrite vindex_some by assumption. cbn [obind].
      rewrite szadd_small by lia.
      rewrite (IH fuel (S i)); [|lia|lia|lia|].
      * cbn [obind]. f_equal.
        clear - Ex. revert i Ex. induction l as [|y l IHl]; intros i Ex; [destruct i; discriminate|].
        destruct i as [|i]; [injection Ex as ->; reflexivity|]. cbn in *. apply IHl. exact Ex.
      * rewrite N2Z.inj_mod by lia. rewrite N2Z.inj_mul, N2Z.inj_add. change (Z.of_N 2) with 2.
        change (Z.of_N 1) with 1. rewrite Hcur. rewrite Zplus_mod_idemp_l. f_equal. lia.
Qed.

Lemma refines_elements s l fuel :
  refines s l -> (length l < fuel)%nat -> cs_elements fuel s = Some l.
Proof.
  intros R Hf. pose proof (small_next s l R) as HN. pose proof R as R0.
  destruct R as [H1 H2 H3 H4 H5 H6 H7 H8]. pose proof modulus_gt as HM. pose proof szmod_Z as HZ.
  unfold cs_elements, cs_begin, cs_end. rewrite !vindex_some by assumption. cbn [obind].
  rewrite (visit_from s l R0 (length l) fuel 0); [reflexivity|lia|lia|exact Hf|].
  rewrite vindex_sub; [f_equal; lia|lia|exact HN|].
  destruct H7 as [H7|H7]; [left; exact H7|right; lia].
Qed.
End Refinement.

(** ** Powers of two *)

Lemma pow2_of_exp k : (k <= 62)%N -> pow2 (2 ^ k).
Proof.
  intros H. unfold pow2. rewrite N2Z.inj_pow. change (Z.of_N 2) with 2.
  exists (2 ^ (63 - Z.of_N k)). change modulus with (2 ^ 64).
  replace 64 with ((63 - Z.of_N k) + (1 + Z.of_N k)) by lia.
  rewrite Z.pow_add_r by lia. f_equal. rewrite Z.pow_add_r by lia. reflexivity.
Qed.

Lemma divide_pow2 n : forall d, 0 < d -> (d | 2 ^ Z.of_nat n) -> exists k, d = 2 ^ Z.of_nat k.
Proof.
  induction n as [|n IH]; intros d Hd D.
  - exists 0%nat. change (2 ^ Z.of_nat 0) with 1 in *. apply Z.divide_1_r_nonneg; [lia|exact D].
  - destruct (Z.Even_or_Odd d) as [[e He]|Ho].
    + destruct (IH e) as [k Hk]; [lia| |].
      * apply (Z.mul_divide_cancel_l e _ 2); [lia|]. rewrite <- He.
        rewrite Nat2Z.inj_succ, Z.pow_succ_r in D by lia. exact D.
      * exists (S k). rewrite Nat2Z.inj_succ, Z.pow_succ_r by lia. lia.
    + destruct (IH d Hd) as [k Hk]; [|exists k; exact Hk].
      apply (Gauss d 2); [rewrite Nat2Z.inj_succ, Z.pow_succ_r in D by lia; exact D|].
      apply rel_prime_sym. apply prime_rel_prime; [exact prime_2|].
      intros [q Hq]. destruct Ho as [o Ho]. lia.
Qed.

(** Without a power of two, the first push_front that has to wrap around
    writes a slot other than the one front() reads. *)
Lemma push_front_lost {A} (buffer : list A) x y z :
  let cap := N.of_nat (length buffer) in
  2 <= Z.of_N cap <= 4611686018427387904 ->
  (forall k, Z.of_N cap <> 2 ^ Z.of_nat k) ->
  nth_error buffer (length buffer - 1) = Some z -> y <> z ->
  exists s, cs_run (cs_new buffer) [SPushBack x; SPushFront y] = Some s /\
    cs_front s = Some z.
Proof.
  intros cap Hc Hp Hz Hyz. pose proof modulus_gt as HM. pose proof szmod_Z as HZ.
  assert (R : refines cap (cs_new buffer) []) by (apply refines_new; [reflexivity|lia]).
  destruct (refines_push_back cap _ _ x R) as (s1 & E1 & R1).
  assert (E1' : cs_push_back (cs_new buffer) x =
    Some (CSpan (set_nth buffer 0 x) cap 1 (cap + 1))).
  { unfold cs_push_back. rewrite (store_some cap) by (try reflexivity; lia). cbn [obind].
    rewrite (index_some cap) by (try reflexivity; lia).
    cbn [obind cs_data cs_capacity cs_size cs_next cs_new].
    rewrite N.mod_0_l by lia. fold cap. rewrite (szadd_small cap 0) by lia.
    rewrite (szadd_small (cap + 0) 1) by lia. rewrite N.add_0_r.
    unfold cs_full. cbn [cs_size cs_capacity]. destruct (N.eqb_spec 0 cap); [lia|]. reflexivity. }
  cbn [cs_run cs_call]. rewrite E1'. cbn [obind].
  set (w := (szsub 1 2 mod cap)%N).
  assert (M1 : ((cap + 1) mod cap = 1)%N).
  { replace (cap + 1)%N with (1 + 1 * cap)%N by lia. rewrite N.mod_add by lia. apply N.mod_small. lia. }
  eexists. split.
  - unfold cs_push_front, cs_full. cbn [cs_size cs_capacity cs_next].
    destruct (N.eqb_spec 1 cap); [lia|]. rewrite (szadd_small 1 1) by lia. cbn [obind].
    rewrite (index_some cap) by (try reflexivity; lia). cbn [obind cs_next cs_size].
    change (1 + 1)%N with 2%N. rewrite M1.
    rewrite (store_some cap); [|reflexivity|cbn; rewrite set_nth_length; reflexivity|lia].
    cbn [obind]. reflexivity.
  - cbn [cs_data cs_capacity cs_size cs_next]. fold w.
    unfold cs_front, cs_empty. cbn [cs_size]. change (2 =? 0)%N with false. cbv iota.
    unfold cs_at. rewrite (index_some cap) by (try reflexivity; lia). cbn [obind cs_data cs_next cs_size].
    rewrite szsub_small by lia.
    replace ((cap + 1 - 2) mod cap)%N with (cap - 1)%N by (symmetry; rewrite N.mod_small; lia).
    rewrite set_nth_other.
    + rewrite set_nth_other by lia. rewrite <- Hz. f_equal. lia.
    + intros E. assert (Ew : w = (cap - 1)%N) by lia.
      assert (W : Z.of_N w = (modulus - 1) mod Z.of_N cap).
      { unfold w. rewrite N2Z.inj_mod by lia. reflexivity. }
      assert (D : (Z.of_N cap | modulus)).
      { exists (((modulus - 1) / Z.of_N cap) + 1).
        pose proof (Z_div_mod_eq_full (modulus - 1) (Z.of_N cap)). lia. }
      change modulus with (2 ^ Z.of_nat 64) in D.
      destruct (divide_pow2 64 (Z.of_N cap) ltac:(lia) D) as [k Hk].
      exact (Hp k Hk).
Qed.

(** ** Sizes and safety for every capacity *)

Section Sizes.
Context {A : Type}.
Variable cap : N.
Implicit Types (s : cspan A).

Definition sized s (n : nat) : Prop :=
  cs_capacity s = cap /\ N.of_nat (length (cs_data s)) = cap /\
  1 <= Z.of_N cap <= 4611686018427387904 /\ cs_size s = N.of_nat n /\ (N.of_nat n <= cap)%N.

Lemma sized_at s n p : sized s n -> exists x, cs_at s p = Some x.
Proof.
  intros (H1 & H2 & H3 & H4 & H5). unfold cs_at. rewrite (index_some cap) by (try assumption; lia).
  cbn [obind]. pose proof (N.mod_lt p cap ltac:(lia)).
  destruct (nth_error (cs_data s) (N.to_nat (p mod cap))) eqn:E; [eauto|].
  apply nth_error_None in E. lia.
Qed.

Lemma sized_push_back s n x : sized s n ->
  exists s', cs_push_back s x = Some s' /\ sized s' (Nat.min (N.to_nat cap) (S n)).
Proof.
  intros (H1 & H2 & H3 & H4 & H5). pose proof modulus_gt as HM. pose proof szmod_Z as HZ.
  unfold cs_push_back. rewrite (store_some cap) by (try assumption; lia). cbn [obind].
  rewrite (index_some cap) by (try assumption; lia). cbn [obind cs_data cs_capacity cs_size cs_next].
  unfold cs_full. cbn [cs_size cs_capacity]. rewrite H1.
  destruct (N.eqb_spec (cs_size s) cap) as [Hf|Hf]; cbn [negb]; eexists; (split; [reflexivity|]);
    unfold sized; cbn [cs_data cs_capacity cs_size cs_next]; rewrite set_nth_length.
  - repeat split; try assumption; lia.
  - rewrite szadd_small by lia. repeat split; try assumption; lia.
Qed.

Lemma sized_push_front s n x : sized s n ->
  exists s', cs_push_front s x = Some s' /\ sized s' (Nat.min (N.to_nat cap) (S n)).
Proof.
  intros (H1 & H2 & H3 & H4 & H5). pose proof modulus_gt as HM. pose proof szmod_Z as HZ.
  unfold cs_push_front, cs_full. rewrite H1.
  destruct (N.eqb_spec (cs_size s) cap) as [Hf|Hf].
  - rewrite (index_some cap) by (try assumption; lia). cbn [obind].
    rewrite (index_some cap) by (try reflexivity; lia). cbn [obind].
    rewrite (store_some cap) by (try reflexivity; try assumption; lia).
    eexists; split; [reflexivity|]. unfold sized; cbn [cs_data cs_capacity cs_size cs_next].
    rewrite set_nth_length. repeat split; try assumption; lia.
  - cbn [obind]. rewrite (index_some cap) by (try reflexivity; lia). cbn [obind].
    rewrite (store_some cap) by (try reflexivity; try assumption; lia).
    eexists; split; [reflexivity|]. unfold sized; cbn [cs_data cs_capacity cs_size cs_next].
    rewrite set_nth_length, szadd_small by lia. repeat split; try assumption; lia.
Qed.

Lemma sized_push_all xs : forall s n, sized s n ->
  exists s', cs_push_all s xs = Some s' /\ sized s' (Nat.min (N.to_nat cap) (n + length xs)).
Proof.
  induction xs as [|x xs IH]; intros s n H; cbn [cs_push_all length].
  - exists s. split; [reflexivity|]. replace (Nat.min _ _) with n; [exact H|].
    destruct H as (_ & _ & _ & _ & H). lia.
  - destruct (sized_push_back s n x H) as (s1 & E1 & R1). rewrite E1. cbn [obind].
    destruct (IH s1 _ R1) as (s2 & E2 & R2). exists s2. split; [exact E2|].
    replace (Nat.min (N.to_nat cap) (n + S (length xs)))
      with (Nat.min (N.to_nat cap) (Nat.min (N.to_nat cap) (S n) + length xs)); [exact R2|].
    destruct H as (_ & _ & _ & _ & H). lia.
Qed.

Lemma sized_empty s n : sized s n -> cs_empty s = Nat.eqb n 0.
Proof.
  intros (H1 & H2 & H3 & H4 & H5). unfold cs_empty. rewrite H4.
  destruct (Nat.eqb_spec n 0); [apply N.eqb_eq; lia|apply N.eqb_neq; lia].
Qed.

Lemma sized_call s l o : sized s (length l) ->
  match dq_step (N.to_nat cap) l o with
  | Some l' => exists s', cs_call s o = Some s' /\ sized s' (length l')
  | None => cs_call s o = None
  end.
Proof.
  intros H. pose proof H as (H1 & H2 & H3 & H4 & H5).
  pose proof modulus_gt as HM. pose proof szmod_Z as HZ.
  assert (LL : forall xs : list A, length (lastn (N.to_nat cap) xs) = Nat.min (N.to_nat cap) (length xs)).
  { intros xs. unfold lastn. rewrite skipn_length. lia. }
  destruct o as [x|x| | | |xs]; cbn [dq_step cs_call].
  - rewrite LL, app_length. cbn [length]. rewrite Nat.add_1_r. apply sized_push_back. exact H.
  - rewrite firstn_length. cbn [length]. apply sized_push_front. exact H.
  - destruct l as [|x l]; unfold cs_pop_front; rewrite (sized_empty _ _ H); cbn [length Nat.eqb] in *; [reflexivity|].
    rewrite szsub_small by lia. eexists; split; [reflexivity|].
    unfold sized; cbn [cs_data cs_capacity cs_size cs_next]. repeat split; try assumption; lia.
  - destruct l as [|x l]; unfold cs_pop_back; rewrite (sized_empty _ _ H); cbn [length Nat.eqb] in *; [reflexivity|].
    rewrite (index_some cap) by (try assumption; lia). cbn [obind].
    rewrite (szsub_small (cs_size s)) by lia. eexists; split; [reflexivity|].
    unfold sized; cbn [cs_data cs_capacity cs_size cs_next].
    rewrite removelast_length. cbn [length]. repeat split; try assumption; lia.
  - eexists; split; [reflexivity|]. unfold sized, cs_clear; cbn [cs_data cs_capacity cs_size cs_next length].
    repeat split; try assumption; lia.
  - rewrite LL. unfold cs_assign. apply (sized_push_all xs (cs_clear s) 0).
    unfold sized, cs_clear; cbn [cs_data cs_capacity cs_size cs_next].
    repeat split; try assumption; lia.
Qed.

Lemma sized_run ops : forall s l, sized s (length l) ->
  match dq_run (N.to_nat cap) l ops with
  | Some l' => exists s', cs_run s ops = Some s' /\ sized s' (length l')
  | None => cs_run s ops = None
  end.
Proof.
  induction ops as [|o ops IH]; intros s l R; cbn [dq_run cs_run].
  - exists s. auto.
  - pose proof (sized_call s l o R) as C.
    destruct (dq_step (N.to_nat cap) l o) as [l'|].
    + destruct C as (s' & E & R'). rewrite E. cbn [obind]. apply IH. exact R'.
    + rewrite C. reflexivity.
Qed.
End Sizes.

(** ** The constructor with initial contents *)

(** The [k] elements that precede position [p] of the buffer, cyclically. *)
Definition preceding {A} (buffer : list A) (p k : nat) : list A :=
  lastn k (skipn p buffer ++ firstn p buffer).

Lemma preceding_refines {A} (buffer : list A) p k :
  let cap := N.of_nat (length buffer) in
  1 <= Z.of_N cap <= 4611686018427387904 ->
  (p < length buffer)%nat -> (k <= length buffer)%nat ->
  pow2 cap \/ (k <= p)%nat ->
  refines cap (cs_new_at buffer (N.of_nat p) (N.of_nat k)) (preceding buffer p k).
Proof.
  intros cap Hc Hp Hk HW.
  assert (Lr : length (skipn p buffer ++ firstn p buffer) = length buffer).
  { rewrite app_length, skipn_length, firstn_length. lia. }
  assert (Ll : length (preceding buffer p k) = k).
  { unfold preceding, lastn. rewrite skipn_length, Lr. lia. }
  constructor; cbn [cs_new_at cs_data cs_capacity cs_size cs_next]; rewrite ?Ll;
    unfold cap in *; auto; try lia.
  - destruct HW as [HW|HW]; [left; exact HW|right; lia].
  - intros i Hi. unfold preceding, lastn. rewrite Lr.
    assert (NS : forall (l : list A) a b, nth_error (skipn a l) b = nth_error l (a + b)).
    { clear. induction l as [|y l IH]; intros a b; [rewrite skipn_nil; destruct b, (a + 0)%nat, a; reflexivity|].
      destruct a as [|a]; [reflexivity|]. cbn. apply IH. }
    assert (NF : forall (l : list A) a b, (b < a)%nat -> nth_error (firstn a l) b = nth_error l b).
    { clear. induction l as [|y l IH]; intros a b Hb; [rewrite firstn_nil; destruct b; reflexivity|].
      destruct a as [|a]; [lia|]. destruct b as [|b]; [reflexivity|]. cbn. apply IH. lia. }
    rewrite NS. unfold slot. rewrite !nat_N_Z.
    destruct (Nat.lt_ge_cases (length buffer - k + i) (length buffer - p)) as [Hlt|Hge].
    + rewrite nth_error_app1 by (rewrite skipn_length; lia). rewrite NS. f_equal.
      replace (Z.of_nat p - Z.of_nat k + Z.of_nat i)
        with (Z.of_nat (length buffer + p - k + i) + (-1) * Z.of_nat (length buffer)) by lia.
      rewrite Z_mod_plus_full, Z.mod_small by lia. lia.
    + rewrite nth_error_app2 by (rewrite skipn_length; lia). rewrite skipn_length.
      rewrite NF by lia. f_equal. rewrite Z.mod_small by lia. lia.
Qed.

(** ** Termination of iteration, for every capacity *)

Lemma visit_ends {A} cap (s : cspan A) n e :
  sized cap s n -> (e < 2 * cap)%N ->
  forall m fuel cur, (cur < 2 * cap)%N ->
    (Z.of_N e - Z.of_N cur) mod (2 * Z.of_N cap) = Z.of_nat m -> (m < fuel)%nat ->
    exists l, cs_visit fuel s cur e = Some l /\ length l = m.
Proof.
  intros S He. pose proof S as (H1 & H2 & H3 & H4 & H5).
  pose proof modulus_gt as HM. pose proof szmod_Z as HZ.
  induction m as [|m IH]; intros fuel cur Hc Hm Hf; (destruct fuel as [|fuel]; [lia|]);
    cbn [cs_visit]; unfold it_eq.
  - destruct (N.eqb_spec cur e) as [_|Hne]; [exists []; split; reflexivity|].
    exfalso. apply Hne. apply Z.mod_divide in Hm; [|lia]. destruct Hm as [q Hq].
    assert (q = 0) by nia. subst q. lia.
  - destruct (N.eqb_spec cur e) as [->|Hne].
    { rewrite Z.sub_diag, Z.mod_0_l in Hm by lia. lia. }
    unfold it_deref. destruct (sized_at cap s n cur S) as [x Hx]. rewrite Hx. cbn [obind].
    unfold it_next. rewrite (vindex_some cap) by assumption. cbn [obind].
    rewrite szadd_small by lia.
    destruct (IH fuel ((cur + 1) mod (2 * cap))%N) as (l & El & Ll).
    + apply N.mod_lt. lia.
    + rewrite N2Z.inj_mod, N2Z.inj_add, N2Z.inj_mul by lia. change (Z.of_N 2) with 2. change (Z.of_N 1) with 1.
      rewrite Zminus_mod_idemp_r.
      replace (Z.of_N e - (Z.of_N cur + 1)) with ((Z.of_N e - Z.of_N cur) - 1) by ring.
      rewrite <- Zminus_mod_idemp_l, Hm.
      pose proof (Z.mod_pos_bound (Z.of_N e - Z.of_N cur) (2 * Z.of_N cap) ltac:(lia)).
      rewrite Z.mod_small by lia. lia.
    + lia.
    + rewrite El. cbn [obind]. exists (x :: l). split; [reflexivity|]. cbn. lia.
Qed.

Lemma elements_end {A} cap (s : cspan A) n :
  sized cap s n -> exists l, cs_elements (N.to_nat (2 * cap)) s = Some l.
Proof.
  intros S. pose proof S as (H1 & H2 & H3 & H4 & H5).
  unfold cs_elements, cs_begin, cs_end. rewrite !(vindex_some cap) by assumption. cbn [obind].
  set (b := (_ mod (2 * cap))%N). set (e := (_ mod (2 * cap))%N).
  assert (Hb : (b < 2 * cap)%N) by (apply N.mod_lt; lia).
  assert (He : (e < 2 * cap)%N) by (apply N.mod_lt; lia).
  pose proof (Z.mod_pos_bound (Z.of_N e - Z.of_N b) (2 * Z.of_N cap) ltac:(lia)) as B.
  destruct (visit_ends cap s n e S He (Z.to_nat ((Z.of_N e - Z.of_N b) mod (2 * Z.of_N cap)))
    (N.to_nat (2 * cap)) b Hb) as (l & El & _); [lia|lia|]. exists l. exact El.
Qed.

Lemma refines_sized {A} cap (s : cspan A) l : refines cap s l -> sized cap s (length l).
Proof. intros [H1 H2 H3 H4 H5 H6 H7 H8]. unfold sized. auto. Qed.

Lemma sized_new {A} (buffer : list A) :
  1 <= Z.of_N (N.of_nat (length buffer)) <= 4611686018427387904 ->
  sized (N.of_nat (length buffer)) (cs_new buffer) 0.
Proof. intros H. unfold sized; cbn [cs_new cs_data cs_capacity cs_size]. repeat split; lia. Qed.
