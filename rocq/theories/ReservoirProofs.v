(** * Proofs about reservoir sampling *)

From Coq Require Import List Arith NArith Bool Lia Permutation.
From Verif Require Import Arith HistoryLemmas CircularSpan CircularSpanProofs Reservoir SpecSampling.
Import ListNotations.
Local Open Scope N_scope.

Lemma szmod_4 : szmod = 4 * 4611686018427387904. Proof. reflexivity. Qed.

(** ** The invariant of all histories *)

(** [base] elements were appended before the last clear. *)
Definition rinv {T} (n : N) (base c : nat) (s : rsv T) : Prop :=
  rs_sample_size s = n /\ rs_threshold s = 4 * n /\
  0 < n < 4611686018427387904 /\
  rs_count_ s = N.of_nat c /\
  length (rs_samples s) = (base + Nat.min (N.to_nat n) c)%nat.

Lemma rinv_new {T} n : 0 < n < 4611686018427387904 -> rinv n 0 0 (@rs_new T n).
Proof.
  intros H. pose proof szmod_4. unfold rinv, rs_new. cbn. rewrite szmul_small by lia.
  repeat split; lia.
Qed.

Lemma rinv_clear {T} n base c (s : rsv T) :
  rinv n base c s -> rinv n (base + Nat.min (N.to_nat n) c) 0 (rs_clear s).
Proof.
  intros (H1 & H2 & H3 & H4 & H5). unfold rinv, rs_clear. cbn. repeat split; try assumption; lia.
Qed.

(** How one push changes the data. *)
Definition stored_in {T} (l l' : list T) (x : T) : Prop :=
  l' = l ++ [x] \/ exists i, (i < length l)%nat /\ l' = set_nth l i x.

Lemma rs_assign_some {T} (l : list T) i x :
  i < N.of_nat (length l) -> rs_assign l i x = Some (set_nth l (N.to_nat i) x).
Proof. intros H. unfold rs_assign. destruct (N.ltb_spec i (N.of_nat (length l))); [reflexivity|lia]. Qed.

Lemma rinv_push {T} n base c (s : rsv T) x g i :
  rinv n base c s -> rs_possible s i -> N.of_nat (S c) < szmod ->
  exists s' b, rs_push s x g i = Some (s', b) /\ rinv n base (S c) s' /\
    (b = true -> stored_in (rs_samples s) (rs_samples s') x) /\
    (b = false -> rs_samples s' = rs_samples s) /\
    ((c < N.to_nat n)%nat -> b = true /\ rs_samples s' = rs_samples s ++ [x]) /\
    ((N.to_nat n <= c)%nat -> b = true -> exists j, (j < N.to_nat n)%nat /\
        rs_samples s' = set_nth (rs_samples s) j x).
Proof.
  intros (H1 & H2 & H3 & H4 & H5) Hp Hc. unfold rs_possible, rs_request in Hp. unfold rs_push.
  rewrite H1, H2, H4 in *. pose proof szmod_4 as HM.
  assert (Hadd : szadd (N.of_nat c) 1 = N.of_nat (S c)) by (rewrite szadd_small; lia).
  destruct (N.leb_spec (4 * n) (N.of_nat c)) as [Ht|Ht].
  - destruct (N.eqb_spec (rs_skip s) 0) as [Hs|Hs].
    + assert (Hg : rs_geometric_ok s = true).
      { unfold rs_geometric_ok. rewrite H1, H4. apply andb_true_intro. split; apply N.ltb_lt; lia. }
      rewrite Hg. rewrite szsub_small in Hp by lia.
      rewrite rs_assign_some by lia. cbn [obind].
      do 2 eexists. split; [reflexivity|]. cbn [rs_samples].
      split; [unfold rinv; cbn; rewrite set_nth_length, Hadd; repeat split; try assumption; lia|].
      split; [intros _; right; exists (N.to_nat i); split; [lia|reflexivity]|].
      split; [discriminate|]. split; [lia|]. intros _ _. exists (N.to_nat i). split; [lia|reflexivity].
    + do 2 eexists. split; [reflexivity|]. cbn [rs_samples].
      split; [unfold rinv; cbn; rewrite Hadd; repeat split; try assumption; lia|].
      split; [discriminate|]. split; [reflexivity|]. split; [lia|discriminate].
  - destruct (N.leb_spec n (N.of_nat c)) as [Hn|Hn].
    + destruct (N.ltb_spec i n) as [Hi|Hi].
      * rewrite rs_assign_some by lia. cbn [obind].
        do 2 eexists. split; [reflexivity|]. cbn [rs_samples].
        split; [unfold rinv; cbn; rewrite set_nth_length, Hadd; repeat split; try assumption; lia|].
        split; [intros _; right; exists (N.to_nat i); split; [lia|reflexivity]|].
        split; [discriminate|]. split; [lia|]. intros _ _. exists (N.to_nat i). split; [lia|reflexivity].
      * do 2 eexists. split; [reflexivity|]. cbn [rs_samples].
        split; [unfold rinv; cbn; rewrite Hadd; repeat split; try assumption; lia|].
        split; [discriminate|]. split; [reflexivity|]. split; [lia|discriminate].
    + do 2 eexists. split; [reflexivity|]. cbn [rs_samples].
      split; [unfold rinv; cbn; rewrite app_length, Hadd; cbn; repeat split; try assumption; lia|].
      split; [intros _; left; reflexivity|]. split; [discriminate|].
      split; [split; reflexivity|lia].
Qed.

Definition total (n : nat) (segs : list nat) : nat := list_sum (map (Nat.min n) segs).

Lemma rinv_run {T} n (cs : list (rcall T)) : forall base c s,
  rinv n base c s -> rs_valid s cs -> N.of_nat (c + length cs) < szmod ->
  exists s', rs_run s cs = Some s' /\
    rinv n (base + total (N.to_nat n) (snd (stretches c cs))) (fst (stretches c cs)) s'.
Proof.
  induction cs as [|a cs IH]; intros base c s H V Hc; cbn [rs_run stretches].
  - exists s. cbn. rewrite Nat.add_0_r. auto.
  - cbn [rs_valid length] in V, Hc. destruct V as [V1 V2]. destruct a as [x g i|].
    + destruct (rinv_push n base c s x g i H V1) as (s' & b & E & H' & _); [lia|].
      cbn [rs_call obind] in *. rewrite E in *. cbn [obind fst] in *.
      apply IH; [exact H'|exact V2|lia].
    + cbn [rs_call obind] in *.
      destruct (IH _ _ _ (rinv_clear n base c s H) V2) as (s' & E & H'); [lia|].
      exists s'. split; [exact E|]. cbn [fst snd]. unfold total in *. cbn [map list_sum fold_right].
      rewrite <- Nat.add_assoc in H'. exact H'.
Qed.

(** ** Sampling without replacement *)

Lemma sample_of_snoc {T} (l data : list T) x :
  sample_of l data -> sample_of (l ++ [x]) (data ++ [x]).
Proof.
  intros (ps & ND & F). exists (ps ++ [length l]).
  assert (B : forall p, In p ps -> (p < length l)%nat).
  { intros p Hp. clear ND. induction F as [|q y ps data Hq F IH]; [destruct Hp|].
    destruct Hp as [->|Hp]; [|auto]. apply nth_error_Some. congruence. }
  split.
  - apply (Permutation_NoDup (Permutation_cons_append ps (length l))).
    constructor; [|exact ND]. intros Hin. specialize (B _ Hin). lia.
  - apply Forall2_app.
    + clear ND. induction F as [|q y ps data Hq F IH]; constructor.
      * rewrite nth_error_app1; [exact Hq|]. apply B. left. reflexivity.
      * apply IH. intros p Hp. apply B. right. exact Hp.
    + constructor; [|constructor]. rewrite nth_error_app2 by lia. rewrite Nat.sub_diag. reflexivity.
Qed.

Lemma sample_of_weaken {T} (l data : list T) x : sample_of l data -> sample_of (l ++ [x]) data.
Proof.
  intros (ps & ND & F). exists ps. split; [exact ND|]. clear ND.
  induction F as [|q y ps data Hq F IH]; constructor; auto.
  rewrite nth_error_app1; [exact Hq|]. apply nth_error_Some. congruence.
Qed.

Lemma in_set_nth {A} (l : list A) i x y : In y (set_nth l i x) -> y = x \/ In y l.
Proof.
  revert i. induction l as [|a l IH]; intros [|i] H; cbn in *; try tauto.
  - destruct H as [H|H]; [left; congruence|tauto].
  - destruct H as [H|H]; [tauto|]. destruct (IH i H); tauto.
Qed.

Lemma NoDup_set_nth {A} (l : list A) i x : NoDup l -> ~ In x l -> NoDup (set_nth l i x).
Proof.
  revert i. induction l as [|a l IH]; intros i ND Hx; [destruct i; constructor|].
  inversion_clear ND as [|? ? Ha ND']. destruct i as [|i]; cbn in *; constructor; try tauto.
  - intros H. apply in_set_nth in H. destruct H as [->|H]; tauto.
  - apply IH; tauto.
Qed.

Lemma sample_of_set {T} (l data : list T) i x :
  sample_of l data -> sample_of (l ++ [x]) (set_nth data i x).
Proof.
  intros (ps & ND & F). exists (set_nth ps i (length l)).
  assert (B : forall p, In p ps -> (p < length l)%nat).
  { intros p Hp. clear ND. induction F as [|q y ps data Hq F IH]; [destruct Hp|].
    destruct Hp as [->|Hp]; [|auto]. apply nth_error_Some. congruence. }
  split.
  - apply NoDup_set_nth; [exact ND|]. intros H. specialize (B _ H). lia.
  - clear ND B. revert i. induction F as [|q y ps data Hq F IH]; intros i; [destruct i; constructor|].
    destruct i as [|i]; cbn; constructor.
    + rewrite nth_error_app2 by lia. rewrite Nat.sub_diag. reflexivity.
    + clear IH. induction F as [|q' y' ps data Hq' F IH]; constructor; auto.
      rewrite nth_error_app1; [exact Hq'|]. apply nth_error_Some. congruence.
    + rewrite nth_error_app1; [exact Hq|]. apply nth_error_Some. congruence.
    + apply IH.
Qed.

Lemma stored_sample {T} (l data data' : list T) x :
  sample_of l data -> stored_in data data' x -> sample_of (l ++ [x]) data'.
Proof.
  intros H [->|(i & _ & ->)]; [apply sample_of_snoc; exact H|apply sample_of_set; exact H].
Qed.

Lemma run_sample {T} n (cs : list (rcall T)) : forall base c s l,
  rinv n base c s -> sample_of l (rs_samples s) -> rs_valid s cs ->
  N.of_nat (c + length cs) < szmod ->
  exists s', rs_run s cs = Some s' /\ sample_of (l ++ pushed cs) (rs_samples s').
Proof.
  induction cs as [|a cs IH]; intros base c s l H S V Hc; cbn [rs_run pushed].
  - exists s. rewrite app_nil_r. auto.
  - cbn [rs_valid length] in V, Hc. destruct V as [V1 V2]. destruct a as [x g i|].
    + destruct (rinv_push n base c s x g i H V1) as (s' & b & E & H' & St & Rj & _); [lia|].
      cbn [rs_call obind] in *. rewrite E in *. cbn [obind fst] in *.
      destruct (IH base (Datatypes.S c) s' (l ++ [x])) as (s2 & E2 & S2); auto; [|lia|].
      * destruct b; [apply (stored_sample l (rs_samples s)); auto|].
        rewrite Rj by reflexivity. apply sample_of_weaken. exact S.
      * exists s2. split; [exact E2|]. rewrite <- app_assoc in S2. exact S2.
    + cbn [rs_call obind] in *.
      apply (IH _ _ (rs_clear s) l (rinv_clear n base c s H)); auto. lia.
Qed.

Lemma only_pushes_stretches {T} (cs : list (rcall T)) : forall c,
  only_pushes cs -> stretches c cs = ((c + length cs)%nat, []).
Proof.
  induction cs as [|a cs IH]; intros c H; cbn [stretches length].
  - rewrite Nat.add_0_r. reflexivity.
  - destruct a as [x g i|]; [|exfalso; apply (H RClear); [left; reflexivity|reflexivity]].
    rewrite IH; [f_equal; lia|]. intros a Ha. apply H. right. exact Ha.
Qed.

Lemma only_pushes_length {T} (cs : list (rcall T)) :
  only_pushes cs -> length (pushed cs) = length cs.
Proof.
  induction cs as [|a cs IH]; intros H; [reflexivity|].
  destruct a as [x g i|]; [|exfalso; apply (H RClear); [left; reflexivity|reflexivity]].
  cbn. f_equal. apply IH. intros a Ha. apply H. right. exact Ha.
Qed.

(** ** Skipping *)

(** While the skip count is not zero pushes are rejected and count it down. *)
Lemma skip_push {T} n base c (s : rsv T) x g i k :
  rinv n base c s -> (4 * N.to_nat n <= c)%nat -> rs_skip s = N.of_nat (S k) ->
  N.of_nat (S c) < szmod -> N.of_nat (S k) < szmod ->
  rs_push s x g i = Some (Rsv n (4 * n) (N.of_nat (S c)) (N.of_nat k) (rs_samples s), false).
Proof.
  intros (H1 & H2 & H3 & H4 & H5) Hc Hs Hc1 Hk. unfold rs_push. rewrite H1, H2, H4, Hs.
  destruct (N.leb_spec (4 * n) (N.of_nat c)); [|lia].
  destruct (N.eqb_spec (N.of_nat (S k)) 0); [lia|].
  rewrite szadd_small, szsub_small by lia. do 3 f_equal; lia.
Qed.

(** ** Counting outcomes *)
Local Open Scope nat_scope.

Lemma number_app {A} (p : A -> bool) l1 l2 : number p (l1 ++ l2) = number p l1 + number p l2.
Proof. unfold number. rewrite filter_app, app_length. reflexivity. Qed.

Lemma number_flat_map {A B} (p : B -> bool) (f : A -> list B) l :
  number p (flat_map f l) = list_sum (map (fun a => number p (f a)) l).
Proof.
  induction l as [|a l IH]; [reflexivity|]. cbn [flat_map map list_sum fold_right].
  rewrite number_app, IH. reflexivity.
Qed.

Lemma list_sum_scale {A} k (f : A -> nat) l :
  list_sum (map (fun a => k * f a) l) = k * list_sum (map f l).
Proof. induction l as [|a l IH]; cbn [map list_sum fold_right] in *; [lia|]. unfold list_sum in IH. rewrite IH. lia. Qed.

Lemma number_sum {A} (p : A -> bool) l :
  number p l = list_sum (map (fun a => if p a then 1 else 0) l).
Proof.
  unfold number. induction l as [|a l IH]; [reflexivity|]. cbn [filter map list_sum fold_right].
  destruct (p a); cbn [length]; rewrite IH; unfold list_sum; lia.
Qed.

Lemma list_sum_swap {A B} (f : A -> B -> nat) la lb :
  list_sum (map (fun a => list_sum (map (f a) lb)) la) =
  list_sum (map (fun b => list_sum (map (fun a => f a b) la)) lb).
Proof.
  induction la as [|a la IH]; cbn [map list_sum fold_right].
  - induction lb as [|b lb IHb]; [reflexivity|]. cbn. exact IHb.
  - change (fold_right Nat.add 0) with list_sum. rewrite IH. clear IH.
    induction lb as [|b lb IHb]; [reflexivity|]. cbn [map list_sum fold_right].
    change (fold_right Nat.add 0) with list_sum. rewrite <- IHb. lia.
Qed.

Lemma list_sum_ext {A} (f g : A -> nat) l :
  (forall a, In a l -> f a = g a) -> list_sum (map f l) = list_sum (map g l).
Proof. intros H. f_equal. apply map_ext_in. exact H. Qed.

Lemma list_sum_const {A} k (l : list A) : list_sum (map (fun _ => k) l) = k * length l.
Proof. induction l as [|a l IH]; cbn; [lia|]. unfold list_sum in IH. rewrite IH. lia. Qed.

(** *** Same elements *)

Lemma mem_In x l : mem x l = true <-> In x l.
Proof.
  unfold mem. rewrite existsb_exists. split.
  - intros (y & Hy & E). apply Nat.eqb_eq in E. congruence.
  - intros H. exists x. split; [exact H|apply Nat.eqb_refl].
Qed.

Lemma same_elements_iff a b : same_elements a b = true <-> (incl a b /\ incl b a).
Proof.
  unfold same_elements. rewrite andb_true_iff, !forallb_forall. unfold incl.
  split; intros [H1 H2]; split; intros x Hx; apply mem_In; auto.
Qed.

Lemma same_elements_perm a b :
  NoDup a -> NoDup b -> (same_elements a b = true <-> Permutation a b).
Proof.
  intros Ha Hb. rewrite same_elements_iff. split.
  - intros [H1 H2]. apply NoDup_Permutation; auto. intros x. split; [apply H1|apply H2].
  - intros P. split; intros x Hx; [apply (Permutation_in _ P Hx)|apply (Permutation_in _ (Permutation_sym P) Hx)].
Qed.

Lemma bool_iff (a b : bool) : (a = true <-> b = true) -> a = b.
Proof. destruct a, b; intros [H1 H2]; auto; symmetry; auto. Qed.

(** *** Replacing one slot *)

Lemma set_nth_perm {A} (l : list A) i x y :
  nth_error l i = Some y ->
  exists r, Permutation l (y :: r) /\ Permutation (set_nth l i x) (x :: r).
Proof.
  revert i. induction l as [|a l IH]; intros [|i] H; cbn in *; try discriminate.
  - injection H as ->. exists l. split; reflexivity.
  - destruct (IH i H) as (r & P1 & P2). exists (a :: r). split.
    + rewrite P1. apply perm_swap.
    + rewrite P2. apply perm_swap.
Qed.

Lemma replace_same (data S' : list nat) i q m :
  nth_error data i = Some q ->
  Permutation (set_nth data i m) (m :: S') <-> Permutation data (q :: S').
Proof.
  intros H. destruct (set_nth_perm data i m q H) as (r & P1 & P2). split; intros P.
  - rewrite P1. constructor. apply (Permutation_cons_inv (a := m)).
    rewrite <- P2. exact P.
  - rewrite P2. constructor. apply (Permutation_cons_inv (a := q)). rewrite <- P1. exact P.
Qed.

Lemma number_seq_nth (f : nat -> nat -> bool) (data : list nat) :
  number (fun i => match nth_error data i with Some q => f 0 q | None => false end) (seq 0 (length data))
  = number (f 0) data.
Proof.
  induction data as [|a data IH]; [reflexivity|]. cbn [length seq].
  rewrite <- seq_shift. unfold number in *. cbn [filter nth_error].
  destruct (f 0 a); cbn [length]; [f_equal|]; rewrite <- IH; clear IH;
    (induction (seq 0 (length data)) as [|i l IHl]; [reflexivity|]; cbn [map filter nth_error];
     destruct (match nth_error data i with Some q => f 0 q | None => false end); cbn [length]; [f_equal|]; exact IHl).
Qed.

(** The number of slots of [data] whose replacement by [m] gives [m :: S'] is
    the number of values [q] outside [S'] for which [data] is [q :: S']. *)
Lemma slots_values (data S' Q : list nat) m :
  NoDup data -> NoDup Q -> NoDup (m :: S') -> ~ In m data ->
  (forall q, In q Q <-> In q Q /\ ~ In q S') ->
  (forall q, In q data -> ~ In q S' -> In q Q) ->
  number (fun i => same_elements (set_nth data i m) (m :: S')) (seq 0 (length data)) =
  list_sum (map (fun q => if same_elements data (q :: S') then 1 else 0) Q).
Proof.
  intros ND NQ NS Hm HQ HD.
  assert (NS' : NoDup S') by (inversion NS; assumption).
  rewrite <- number_sum.
  transitivity (number (fun q => negb (mem q S') && same_elements data (q :: S')) data).
  - pose proof (number_seq_nth (fun _ q => negb (mem q S') && same_elements data (q :: S')) data) as E.
    cbv beta in E. rewrite <- E. unfold number. f_equal. apply filter_ext_in. intros i Hi.
    apply in_seq in Hi. destruct (nth_error data i) as [q|] eqn:Eq.
    2:{ apply nth_error_None in Eq. lia. }
    apply bool_iff. rewrite andb_true_iff, negb_true_iff.
    rewrite same_elements_perm; [|apply NoDup_set_nth; assumption|exact NS].
    rewrite (replace_same data S' i q m Eq). split.
    + intros P. assert (NQ' : NoDup (q :: S')) by (apply (Permutation_NoDup P ND)).
      split; [|apply same_elements_perm; assumption].
      destruct (mem q S') eqn:Em; [|reflexivity]. apply mem_In in Em. inversion NQ'; contradiction.
    + intros [Em P]. assert (NQ' : NoDup (q :: S')).
      { constructor; [|exact NS']. intros Hin. apply mem_In in Hin. congruence. }
      apply same_elements_perm in P; assumption.
  - unfold number. apply Permutation_length. apply NoDup_Permutation.
    + apply NoDup_filter. exact ND.
    + apply NoDup_filter. exact NQ.
    + intros q. rewrite !filter_In, andb_true_iff, negb_true_iff. split.
      * intros (Hq & Em & P). split; [|exact P]. apply HD; [exact Hq|].
        intros Hin. apply mem_In in Hin. congruence.
      * intros (Hq & P). apply HQ in Hq. destruct Hq as [Hq Hn].
        apply same_elements_iff in P as P'. destruct P' as [_ P2].
        split; [apply P2; left; reflexivity|]. split; [|exact P].
        destruct (mem q S') eqn:Em; [|reflexivity]. apply mem_In in Em. contradiction.
Qed.

Lemma filter_all_true {A} (p : A -> bool) l : (forall x, In x l -> p x = true) -> filter p l = l.
Proof.
  induction l as [|a l IH]; intros H; [reflexivity|]. cbn.
  rewrite (H a) by (left; reflexivity). f_equal. apply IH. intros x Hx. apply H. right. exact Hx.
Qed.

Lemma NoDup_remove' (m : nat) l : NoDup l -> NoDup (remove Nat.eq_dec m l).
Proof.
  induction l as [|a l IH]; intros ND; [exact ND|]. inversion_clear ND as [|? ? Ha ND']. cbn.
  destruct (Nat.eq_dec m a); [auto|]. constructor; [|auto]. intros H. apply in_remove in H. tauto.
Qed.

Lemma NoDup_app_disjoint {A} (a b : list A) :
  NoDup a -> NoDup b -> (forall x, In x a -> In x b -> False) -> NoDup (a ++ b).
Proof.
  induction a as [|x a IH]; intros Ha Hb H; [exact Hb|]. inversion_clear Ha as [|? ? Hx Ha']. cbn.
  constructor.
  - rewrite in_app_iff. intros [Hi|Hi]; [contradiction|]. apply (H x); [left; reflexivity|exact Hi].
  - apply IH; auto. intros y Hy. apply H. right. exact Hy.
Qed.

(** *** The tree of outcomes *)

Definition rs_next {T} (x : T) (s : rsv T) : list (rsv T) :=
  flat_map (fun i => match rs_push s x 0%N i with Some (s', _) => [s'] | None => [] end)
    (rs_outcomes s).

Lemma flat_map_flat_map {A B C} (f : A -> list B) (g : B -> list C) l :
  flat_map g (flat_map f l) = flat_map (fun a => flat_map g (f a)) l.
Proof. induction l as [|a l IH]; cbn; [reflexivity|]. rewrite flat_map_app, IH. reflexivity. Qed.

Lemma flat_map_ext' {A B} (f g : A -> list B) l : (forall a, f a = g a) -> flat_map f l = flat_map g l.
Proof. intros H. induction l as [|a l IH]; cbn; [reflexivity|]. rewrite H, IH. reflexivity. Qed.

Lemma rs_all_snoc {T} xs (x : T) : forall s,
  rs_all s (xs ++ [x]) = flat_map (rs_next x) (rs_all s xs).
Proof.
  induction xs as [|y xs IH]; intros s; cbn [rs_all app].
  - cbn [flat_map]. rewrite app_nil_r. apply flat_map_ext'. intros i.
    destruct (rs_push s x 0%N i) as [[s' b]|]; reflexivity.
  - rewrite flat_map_flat_map. apply flat_map_ext'. intros i.
    destruct (rs_push s y 0%N i) as [[s' b]|]; [apply IH|reflexivity].
Qed.

(** States while the reservoir fills up: a single outcome. *)
Lemma rs_all_fill n k :
  (0 < n < 4611686018427387904)%N -> k <= N.to_nat n ->
  rs_all (rs_new n) (seq 0 k) = [Rsv n (4 * n) (N.of_nat k) 0 (seq 0 k)].
Proof.
  intros Hn. pose proof szmod_4 as HM. induction k as [|k IH]; intros Hk.
  - cbn [rs_all seq]. unfold rs_new. rewrite szmul_small by lia. reflexivity.
  - rewrite seq_S, rs_all_snoc, IH by lia. cbn [flat_map]. rewrite app_nil_r.
    unfold rs_next, rs_outcomes, rs_request. cbn [rs_threshold rs_count_ rs_sample_size rs_skip].
    destruct (N.leb_spec (4 * n) (N.of_nat k)); [lia|].
    destruct (N.leb_spec n (N.of_nat k)); [lia|].
    cbn [flat_map]. unfold rs_push. cbn [rs_threshold rs_count_ rs_sample_size rs_skip rs_samples].
    destruct (N.leb_spec (4 * n) (N.of_nat k)); [lia|].
    destruct (N.leb_spec n (N.of_nat k)); [lia|].
    rewrite szadd_small by lia. cbn [app Nat.add]. do 2 f_equal. lia.
Qed.

(** States in the accept-reject phase. *)
Definition filled (n m : nat) (s : rsv nat) : Prop :=
  rs_sample_size s = N.of_nat n /\ rs_threshold s = (4 * N.of_nat n)%N /\
  rs_count_ s = N.of_nat m /\
  NoDup (rs_samples s) /\ length (rs_samples s) = n /\
  (forall p, In p (rs_samples s) -> p < m).

Definition put (n : nat) (s : rsv nat) (m i : nat) : rsv nat :=
  Rsv (N.of_nat n) (4 * N.of_nat n) (N.of_nat (S m)) (rs_skip s)
    (if i <? n then set_nth (rs_samples s) i m else rs_samples s).

Lemma next_filled n m s :
  0 < n -> (N.of_nat n < 4611686018427387904)%N -> n <= m < 4 * n -> filled n m s ->
  rs_next m s = map (put n s m) (seq 0 (S m)).
Proof.
  intros H0 Hn Hm (F1 & F2 & F3 & F4 & F5 & F6). pose proof szmod_4 as HM.
  unfold rs_next, rs_outcomes, rs_request. rewrite F1, F2, F3.
  destruct (N.leb_spec (4 * N.of_nat n) (N.of_nat m)); [lia|].
  destruct (N.leb_spec (N.of_nat n) (N.of_nat m)); [|lia].
  rewrite Nat2N.id. change (N.to_nat 0) with 0. rewrite Nat.sub_0_r.
  assert (E : forall i, i <= m -> rs_push s m 0%N (N.of_nat i) =
    Some (put n s m i, i <? n)).
  { intros i Hi. unfold rs_push. rewrite F1, F2, F3.
    destruct (N.leb_spec (4 * N.of_nat n) (N.of_nat m)); [lia|].
    destruct (N.leb_spec (N.of_nat n) (N.of_nat m)); [|lia].
    unfold put. rewrite szadd_small by lia. replace (N.of_nat m + 1)%N with (N.of_nat (S m)) by lia.
    destruct (N.ltb_spec (N.of_nat i) (N.of_nat n)); destruct (Nat.ltb_spec i n); try lia.
    - rewrite rs_assign_some by lia. cbn [obind]. rewrite Nat2N.id. reflexivity.
    - reflexivity. }
  assert (G : forall l, (forall i, In i l -> i <= m) ->
    flat_map (fun i => match rs_push s m 0%N i with Some (s', _) => [s'] | None => [] end)
      (map N.of_nat l) = map (put n s m) l).
  { induction l as [|i l IH]; intros Hl; [reflexivity|]. cbn [map flat_map].
    rewrite E by (apply Hl; left; reflexivity). cbn [app]. f_equal. apply IH.
    intros j Hj. apply Hl. right. exact Hj. }
  apply G. intros i Hi. apply in_seq in Hi. lia.
Qed.

Lemma put_filled n m s i : n <= m -> filled n m s -> filled n (S m) (put n s m i).
Proof.
  intros Hm (F1 & F2 & F3 & F4 & F5 & F6). unfold filled, put. cbn [rs_sample_size rs_threshold rs_count_ rs_samples]. repeat split.
  - destruct (i <? n); [|exact F4]. apply NoDup_set_nth; [exact F4|].
    intros H. apply F6 in H. lia.
  - destruct (i <? n); [rewrite set_nth_length|]; exact F5.
  - intros p Hp. destruct (i <? n).
    + apply in_set_nth in Hp. destruct Hp as [->|Hp]; [lia|]. apply F6 in Hp. lia.
    + apply F6 in Hp. lia.
Qed.

Lemma all_filled n m :
  0 < n -> (N.of_nat n < 4611686018427387904)%N -> n <= m <= 4 * n ->
  forall s, In s (rs_all (rs_new (N.of_nat n)) (seq 0 m)) -> filled n m s.
Proof.
  intros H0 Hn. induction m as [|m IH]; intros Hm; [lia|].
  destruct (Nat.eq_dec n (S m)) as [E|E].
  - rewrite rs_all_fill by lia. intros s [<-|[]]. unfold filled. cbn [rs_sample_size rs_threshold rs_count_ rs_samples].
    rewrite seq_length. repeat split; try lia; [apply seq_NoDup|].
    intros p Hp. apply in_seq in Hp. lia.
  - rewrite seq_S, rs_all_snoc. intros s Hs. apply in_flat_map in Hs.
    destruct Hs as (s0 & H1 & H2). cbn [Nat.add] in H2. specialize (IH ltac:(lia) s0 H1).
    rewrite (next_filled n m s0) in H2 by (auto; lia). apply in_map_iff in H2.
    destruct H2 as (i & <- & _). apply put_filled; [lia|exact IH].
Qed.

Lemma number_map {A B} (p : B -> bool) (f : A -> B) l : number p (map f l) = number (fun a => p (f a)) l.
Proof.
  unfold number. induction l as [|a l IH]; [reflexivity|]. cbn. destruct (p (f a)); cbn; congruence.
Qed.

Lemma number_ext {A} (p q : A -> bool) l : (forall a, In a l -> p a = q a) -> number p l = number q l.
Proof. intros H. unfold number. f_equal. apply filter_ext_in. exact H. Qed.

Lemma number_const_true {A} (l : list A) : number (fun _ => true) l = length l.
Proof. unfold number. induction l; cbn; congruence. Qed.
Lemma number_const_false {A} (l : list A) : number (fun _ => false) l = 0.
Proof. unfold number. induction l; cbn; congruence. Qed.

Lemma all_step (p : rsv nat -> bool) n m :
  0 < n -> (N.of_nat n < 4611686018427387904)%N -> n <= m < 4 * n ->
  number p (rs_all (rs_new (N.of_nat n)) (seq 0 (S m))) =
  list_sum (map (fun s => number (fun i => p (put n s m i)) (seq 0 (S m)))
              (rs_all (rs_new (N.of_nat n)) (seq 0 m))).
Proof.
  intros H0 Hn Hm. 
  assert (E : rs_all (rs_new (N.of_nat n)) (seq 0 (S m)) =
    flat_map (rs_next m) (rs_all (rs_new (N.of_nat n)) (seq 0 m))).
  { rewrite seq_S. apply rs_all_snoc. }
  rewrite E, number_flat_map.
  apply list_sum_ext. intros s Hs. apply all_filled in Hs; [|lia|exact Hn|lia].
  rewrite (next_filled n m s H0 Hn Hm Hs), number_map.
  apply number_ext. intros i _. reflexivity.
Qed.

Lemma all_length n m :
  0 < n -> (N.of_nat n < 4611686018427387904)%N -> n <= m <= 4 * n ->
  fact n * length (rs_all (rs_new (N.of_nat n)) (seq 0 m)) = fact m.
Proof.
  intros H0 Hn. induction m as [|m IH]; intros Hm; [lia|].
  destruct (Nat.eq_dec n (S m)) as [E|E].
  - rewrite rs_all_fill by lia. rewrite E. cbn [length]. lia.
  - rewrite <- number_const_true, all_step by (auto; lia).
    rewrite (list_sum_ext _ (fun _ => S m)).
    + rewrite list_sum_const. specialize (IH ltac:(lia)).
      set (A := rs_all _ (seq 0 m)) in *. cbn [fact]. rewrite <- IH. ring.
    + intros s _. rewrite number_const_true, seq_length. reflexivity.
Qed.

(** Restriction to the first [n] indices. *)
Lemma number_split n m (p : nat -> bool) :
  n <= m -> number p (seq 0 m) = number p (seq 0 n) + number p (seq n (m - n)).
Proof.
  intros H. replace m with (n + (m - n)) at 1 by lia. rewrite seq_app, number_app. reflexivity.
Qed.

Lemma remove_length (m : nat) l : NoDup l -> In m l -> S (length (remove Nat.eq_dec m l)) = length l.
Proof.
  induction l as [|a l IH]; intros ND H; [destruct H|]. inversion_clear ND as [|? ? Ha ND'].
  cbn. destruct (Nat.eq_dec m a) as [->|Hne].
  - rewrite notin_remove by exact Ha. reflexivity.
  - destruct H as [->|H]; [congruence|]. cbn. rewrite IH by assumption. reflexivity.
Qed.

Lemma uniform_count n m S :
  0 < n -> (N.of_nat n < 4611686018427387904)%N -> n <= m <= 4 * n ->
  NoDup S -> length S = n -> (forall p, In p S -> p < m) ->
  number (fun s => same_elements (rs_samples s) S) (rs_all (rs_new (N.of_nat n)) (seq 0 m))
  = fact (m - n).
Proof.
  intros H0 Hn. revert S. induction m as [|m IH]; intros S Hm ND HL HS; [lia|].
  destruct (Nat.eq_dec n (Datatypes.S m)) as [E|E].
  - rewrite rs_all_fill by lia. rewrite <- E, Nat.sub_diag. unfold number. cbn [filter rs_samples].
    assert (P : same_elements (seq 0 n) S = true).
    { apply same_elements_perm; [apply seq_NoDup|exact ND|].
      apply Permutation_sym, NoDup_Permutation_bis; [exact ND|rewrite seq_length; lia|].
      intros p Hp. apply in_seq. apply HS in Hp. lia. }
    rewrite P. reflexivity.
  - rewrite all_step by (auto; lia).
    set (A := rs_all (rs_new (N.of_nat n)) (seq 0 m)) in *.
    assert (HA : forall s, In s A -> filled n m s) by (apply all_filled; auto; lia).
    destruct (in_dec Nat.eq_dec m S) as [Hin|Hin].
    + (* the new position is in S *)
      set (S' := remove Nat.eq_dec m S).
      assert (NS' : NoDup (m :: S')).
      { constructor; [apply remove_In|]. apply NoDup_remove'. exact ND. }
      assert (PS : Permutation (m :: S') S).
      { apply NoDup_Permutation; [exact NS'|exact ND|]. intros x. split.
        - intros [<-|Hx]; [exact Hin|]. apply in_remove in Hx. tauto.
        - intros Hx. destruct (Nat.eq_dec m x) as [->|Hne]; [left; reflexivity|].
          right. apply in_in_remove; auto. }
      set (Q := filter (fun q => negb (mem q S')) (seq 0 m)).
      assert (NQ : NoDup Q) by (apply NoDup_filter, seq_NoDup).
      assert (HQ : forall q, In q Q <-> q < m /\ ~ In q S').
      { intros q. unfold Q. rewrite filter_In, in_seq, negb_true_iff. split.
        - intros [Hq Hm']. split; [lia|]. intros Hi. apply mem_In in Hi. congruence.
        - intros [Hq Hi]. split; [lia|]. destruct (mem q S') eqn:Em; [|reflexivity].
          apply mem_In in Em. contradiction. }
      assert (LQ : length Q = m - n + 1).
      { assert (LS' : Datatypes.S (length S') = n) by (rewrite <- HL; apply remove_length; assumption).
        assert (NS'' : NoDup S') by (inversion NS'; assumption).
        assert (P : Permutation (Q ++ S') (seq 0 m)).
        { apply NoDup_Permutation; [|apply seq_NoDup|].
          - apply NoDup_app_disjoint; auto. intros x Hx Hx'. apply HQ in Hx. tauto.
          - intros x. rewrite in_app_iff, HQ, in_seq. split.
            + intros [[Hx _]|Hx]; [lia|]. apply in_remove in Hx. destruct Hx as [Hx Hne].
              apply HS in Hx. lia.
            + intros [_ Hx]. destruct (in_dec Nat.eq_dec x S') as [Hi|Hi]; [right; exact Hi|left; split; [lia|exact Hi]]. }
        apply Permutation_length in P. rewrite app_length, seq_length in P. lia. }
      rewrite (list_sum_ext _ (fun s => list_sum (map (fun q => if same_elements (rs_samples s) (q :: S') then 1 else 0) Q))).
      * rewrite list_sum_swap.
        rewrite (list_sum_ext _ (fun _ => fact (m - n))).
        -- rewrite list_sum_const, LQ. replace (Datatypes.S m - n) with (Datatypes.S (m - n)) by lia.
           cbn [fact]. ring.
        -- intros q Hq. rewrite <- number_sum. apply HQ in Hq. destruct Hq as [Hq1 Hq2].
           apply IH; [lia| | |].
           ++ constructor; [exact Hq2|]. inversion NS'; assumption.
           ++ cbn [length]. rewrite <- HL. apply remove_length; assumption.
           ++ intros p [<-|Hp]; [exact Hq1|]. apply in_remove in Hp. destruct Hp as [Hp Hne].
              apply HS in Hp. lia.
      * intros s Hs. destruct (HA s Hs) as (F1 & F2 & F3 & F4 & F5 & F6).
        rewrite (number_split n (Datatypes.S m)) by lia.
        rewrite (number_ext _ (fun _ => false) (seq n _)).
        2:{ intros i Hi. apply in_seq in Hi. unfold put. cbn [rs_samples].
            destruct (Nat.ltb_spec i n); [lia|].
            destruct (same_elements (rs_samples s) S) eqn:Es; [|reflexivity].
            apply same_elements_iff in Es. destruct Es as [_ Es]. apply Es in Hin.
            apply F6 in Hin. lia. }
        rewrite number_const_false, Nat.add_0_r.
        assert (Hmd : ~ In m (rs_samples s)) by (intros Hi; apply F6 in Hi; lia).
        rewrite <- (slots_values (rs_samples s) S' Q m); auto.
        -- rewrite F5. apply number_ext. intros i Hi. apply in_seq in Hi. unfold put. cbn [rs_samples].
           destruct (Nat.ltb_spec i n); [|lia]. apply bool_iff.
           rewrite !same_elements_perm by (auto; apply NoDup_set_nth; auto).
           rewrite PS. reflexivity.
        -- intros q. rewrite !HQ. tauto.
        -- intros q Hq Hq'. apply HQ. split; [apply F6; exact Hq|exact Hq'].
    + rewrite (list_sum_ext _ (fun s => (m + 1 - n) * (if same_elements (rs_samples s) S then 1 else 0))).
      * rewrite list_sum_scale, <- number_sum. rewrite IH; auto; [|lia|].
        -- replace (Datatypes.S m - n) with (Datatypes.S (m - n)) by lia. cbn [fact].
           replace (m + 1 - n) with (Datatypes.S (m - n)) by lia. ring.
        -- intros p Hp. specialize (HS p Hp). destruct (Nat.eq_dec p m); [subst; contradiction|lia].
      * intros s Hs. destruct (HA s Hs) as (F1 & F2 & F3 & F4 & F5 & F6).
        rewrite (number_split n (Datatypes.S m)) by lia.
        rewrite (number_ext _ (fun _ => false) (seq 0 n)).
        2:{ intros i Hi. apply in_seq in Hi. unfold put. cbn [rs_samples].
            destruct (Nat.ltb_spec i n); [|lia].
            destruct (same_elements (set_nth (rs_samples s) i m) S) eqn:Es; [|reflexivity].
            apply same_elements_iff in Es. destruct Es as [Es _]. exfalso. apply Hin. apply Es.
            apply (nth_error_In _ i). apply set_nth_same. lia. }
        rewrite number_const_false. cbn [Nat.add].
        rewrite (number_ext _ (fun _ => same_elements (rs_samples s) S)).
        2:{ intros i Hi. apply in_seq in Hi. unfold put. cbn [rs_samples].
            destruct (Nat.ltb_spec i n); [lia|reflexivity]. }
        destruct (same_elements (rs_samples s) S);
          rewrite ?number_const_true, ?number_const_false, ?seq_length; lia.
Qed.

Lemma inclusion_count n m p :
  0 < n -> (N.of_nat n < 4611686018427387904)%N -> n <= m <= 4 * n -> p < m ->
  m * number (fun s => mem p (rs_samples s)) (rs_all (rs_new (N.of_nat n)) (seq 0 m))
  = n * length (rs_all (rs_new (N.of_nat n)) (seq 0 m)).
Proof.
  intros H0 Hn. induction m as [|m IH]; intros Hm Hp; [lia|].
  destruct (Nat.eq_dec n (S m)) as [E|E].
  - rewrite rs_all_fill by lia. unfold number. cbn [filter rs_samples length].
    assert (mem p (seq 0 (S m)) = true) as -> by (apply mem_In, in_seq; lia). cbn [length]. lia.
  - set (A := rs_all (rs_new (N.of_nat n)) (seq 0 m)) in *.
    assert (HA : forall s, In s A -> filled n m s) by (apply all_filled; auto; lia).
    assert (HT : length (rs_all (rs_new (N.of_nat n)) (seq 0 (S m))) = S m * length A).
    { rewrite <- number_const_true, all_step by (auto; lia). fold A.
      rewrite (list_sum_ext _ (fun _ => S m)); [apply list_sum_const|].
      intros s _. rewrite number_const_true, seq_length. reflexivity. }
    rewrite HT, all_step by (auto; lia). fold A.
    destruct (Nat.eq_dec p m) as [->|Hne].
    + rewrite (list_sum_ext _ (fun _ => n)); [rewrite list_sum_const; ring|].
      intros s Hs. destruct (HA s Hs) as (F1 & F2 & F3 & F4 & F5 & F6).
      rewrite (number_split n (S m)) by lia.
      rewrite (number_ext _ (fun _ => true) (seq 0 n)).
      2:{ intros i Hi. apply in_seq in Hi. unfold put. cbn [rs_samples].
          destruct (Nat.ltb_spec i n); [|lia]. apply mem_In.
          apply (nth_error_In _ i). apply set_nth_same. lia. }
      rewrite (number_ext _ (fun _ => false) (seq n _)).
      2:{ intros i Hi. apply in_seq in Hi. unfold put. cbn [rs_samples].
          destruct (Nat.ltb_spec i n); [lia|].
          destruct (mem m (rs_samples s)) eqn:Em; [|reflexivity]. apply mem_In, F6 in Em. lia. }
      rewrite number_const_true, number_const_false, seq_length. lia.
    + rewrite (list_sum_ext _ (fun s => m * (if mem p (rs_samples s) then 1 else 0))).
      * rewrite list_sum_scale, <- number_sum, (IH ltac:(lia) ltac:(lia)). ring.
      * intros s Hs. destruct (HA s Hs) as (F1 & F2 & F3 & F4 & F5 & F6).
        rewrite (number_split n (S m)) by lia.
        rewrite (number_ext _ (fun _ => mem p (rs_samples s)) (seq n _)).
        2:{ intros i Hi. apply in_seq in Hi. unfold put. cbn [rs_samples].
            destruct (Nat.ltb_spec i n); [lia|reflexivity]. }
        rewrite (number_ext _ (fun i => mem p (set_nth (rs_samples s) i m)) (seq 0 n)).
        2:{ intros i Hi. apply in_seq in Hi. unfold put. cbn [rs_samples].
            destruct (Nat.ltb_spec i n); [reflexivity|lia]. }
        destruct (mem p (rs_samples s)) eqn:Ep.
        -- (* one slot holds p *)
           rewrite number_const_true, seq_length.
           assert (C : number (fun i => mem p (set_nth (rs_samples s) i m)) (seq 0 n) = n - 1).
           { apply mem_In in Ep. rewrite <- F5. clear - F4 Ep Hne.
             rewrite (number_ext _ (fun i => match nth_error (rs_samples s) i with
                        Some q => negb (Nat.eqb q p) | None => false end)).
             - rewrite (number_seq_nth (fun _ q => negb (Nat.eqb q p)) (rs_samples s)).
               induction (rs_samples s) as [|a l IHl]; [destruct Ep|].
               inversion_clear F4 as [|? ? Ha ND]. unfold number in *. cbn [filter].
               destruct (Nat.eqb_spec a p) as [->|Hap]; cbn [negb length].
               + rewrite (filter_all_true _ l); [lia|]. intros x Hx.
                 destruct (Nat.eqb_spec x p); [subst; contradiction|reflexivity].
               + destruct Ep as [->|Ep]; [congruence|]. rewrite IHl by assumption.
                 destruct l; [destruct Ep|cbn; lia].
             - intros i Hi. apply in_seq in Hi. destruct (nth_error (rs_samples s) i) as [q|] eqn:Eq.
               2:{ apply nth_error_None in Eq. lia. }
               apply bool_iff. rewrite mem_In, negb_true_iff, Nat.eqb_neq.
               destruct (set_nth_perm (rs_samples s) i m q Eq) as (r & P1 & P2).
               assert (NR : NoDup (q :: r)) by (apply (Permutation_NoDup P1 F4)).
               inversion_clear NR as [|? ? Hq NR']. split.
               + intros Hi2 ->. apply (Permutation_in _ P2) in Hi2. destruct Hi2 as [->|Hi2]; [congruence|contradiction].
               + intros Hqp. apply (Permutation_in _ P1) in Ep. destruct Ep as [->|Ep]; [congruence|].
                 apply (Permutation_in _ (Permutation_sym P2)). right. exact Ep. }
           rewrite C. lia.
        -- rewrite (number_ext _ (fun _ => false) (seq 0 n)).
           ++ rewrite !number_const_false. lia.
           ++ intros i Hi. destruct (mem p (set_nth (rs_samples s) i m)) eqn:Em; [|reflexivity].
              apply mem_In, in_set_nth in Em. destruct Em as [->|Em]; [congruence|].
              apply mem_In in Em. congruence.
Qed.
