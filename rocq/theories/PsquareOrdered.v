(** * P-square in rounded arithmetic: the heights stay in order *)

From Coq Require Import Reals ZArith NArith Bool List Lia Lra Sorting.Sorted Sorting.Permutation.
From Flocq Require Import Core.
From Verif Require Import Arith History HistoryLemmas Psquare PsquareLemmas PsquareGeneric SpecOrder
  Rounded RoundedProofs ApproxInstances CorrectRounding PsquareFloat.
Import ListNotations.
Local Open Scope R_scope.

Section Ordered.
Variables emin prec : Z.
Hypothesis prec8 : (8 <= prec)%Z.
Hypothesis emin34 : (emin <= -34)%Z.
Variable F : num.
Variable val : F -> R -> Prop.
Variable B : R.
Hypothesis C : correct F val emin prec B.
(** A magnitude that leaves room for the intermediate results. *)
Variable k : Z.
Hypothesis k_emin : (emin <= k)%Z.
Hypothesis k_B : bpow radix2 (k + 30) <= B.
Hypothesis one_B : 1 <= B.

Local Lemma prec_pos : (0 < prec)%Z. Proof. lia. Qed.
Local Lemma emin_neg : (emin <= 0)%Z. Proof. lia. Qed.
Local Instance precgt2 : Prec_gt_0 prec := prec_pos.
Notation fexp := (FLT_exp emin prec).
Notation fmt := (generic_format radix2 fexp).
Notation rnd := (rounding emin prec ZnearestE).

Lemma rbound x j : (emin <= j)%Z -> Rabs x <= bpow radix2 j -> Rabs (rnd x) <= bpow radix2 j.
Proof.
  intros Hj H. apply abs_round_le_generic; try typeclasses eauto; [|exact H].
  apply generic_format_FLT_bpow; [exact prec_pos|exact Hj].
Qed.

Lemma B_ge j : (j <= k + 30)%Z -> bpow radix2 j <= B.
Proof. intros H. apply Rle_trans with (2 := k_B). apply bpow_le. exact H. Qed.

(** [x] denotes [a], which is at most 2^j. *)
Definition vb (x : F) (a : R) (j : Z) : Prop := val x a /\ Rabs a <= bpow radix2 j.

Lemma bpow_S j : bpow radix2 (j + 1) = 2 * bpow radix2 j.
Proof. rewrite bpow_plus. change (bpow radix2 1) with 2. ring. Qed.

Lemma vb_add x y a b j : (k <= j)%Z -> (j + 1 <= k + 30)%Z -> vb x a j -> vb y b j ->
  vb (nadd x y) (rnd (a + b)) (j + 1).
Proof.
  intros H0 H1 [X Xa] [Y Ya].
  assert (T : Rabs (a + b) <= bpow radix2 (j + 1)).
  { rewrite bpow_S. pose proof (Rabs_triang a b). lra. }
  split; [apply (co_add _ _ _ _ _ C); [exact X|exact Y|]|apply rbound; [lia|exact T]].
  apply Rle_trans with (1 := T). apply B_ge. exact H1.
Qed.

Lemma vb_sub x y a b j : (k <= j)%Z -> (j + 1 <= k + 30)%Z -> vb x a j -> vb y b j ->
  vb (nsub x y) (rnd (a - b)) (j + 1).
Proof.
  intros H0 H1 [X Xa] [Y Ya].
  assert (T : Rabs (a - b) <= bpow radix2 (j + 1)).
  { rewrite bpow_S. pose proof (Rabs_triang a (- b)). rewrite Rabs_Ropp in *. unfold Rminus. lra. }
  split; [apply (co_sub _ _ _ _ _ C); [exact X|exact Y|]|apply rbound; [lia|exact T]].
  apply Rle_trans with (1 := T). apply B_ge. exact H1.
Qed.

Lemma vb_mul x y a b i j : (emin <= i + j)%Z -> (i + j <= k + 30)%Z -> vb x a i -> vb y b j ->
  vb (nmul x y) (rnd (a * b)) (i + j).
Proof.
  intros H0 H1 [X Xa] [Y Ya].
  assert (T : Rabs (a * b) <= bpow radix2 (i + j)).
  { rewrite Rabs_mult, bpow_plus. apply Rmult_le_compat; try apply Rabs_pos; assumption. }
  split; [apply (co_mul _ _ _ _ _ C); [exact X|exact Y|]|apply rbound; [lia|exact T]].
  apply Rle_trans with (1 := T). apply B_ge. exact H1.
Qed.

Lemma vb_div x y a b j : (emin <= j)%Z -> (j <= k + 30)%Z -> vb x a j -> val y b -> 1 <= b ->
  vb (ndiv x y) (rnd (a / b)) j.
Proof.
  intros H0 H1 [X Xa] Y Hb.
  assert (T : Rabs (a / b) <= bpow radix2 j).
  { unfold Rdiv. rewrite Rabs_mult, (Rabs_pos_eq (/ b)) by (apply Rlt_le, Rinv_0_lt_compat; lra).
    apply Rle_trans with (Rabs a * / 1); [|rewrite Rinv_1, Rmult_1_r; exact Xa].
    apply Rmult_le_compat_l; [apply Rabs_pos|]. apply Rinv_le; lra. }
  split; [apply (co_div _ _ _ _ _ C); [exact X|exact Y|lra|]|apply rbound; [lia|exact T]].
  apply Rle_trans with (1 := T). apply B_ge. exact H1.
Qed.

Lemma ofsz_exact m : (m <= 134217728)%N -> (Z.of_N m <= 2 ^ prec)%Z -> vb (nofsz m) (IZR (Z.of_N m)) 27.
Proof.
  intros H1 H2. split.
  - rewrite <- (integer_exact emin prec prec_pos emin_neg ZnearestE (Z.of_N m)) by (try typeclasses eauto; lia).
    apply (co_ofsz _ _ _ _ _ C). unfold szmod. lia.
  - rewrite Rabs_pos_eq by (apply IZR_le; lia). change (bpow radix2 27) with (IZR 134217728). apply IZR_le. lia.
Qed.

(** Heights and their values. *)
Definition heights_are (h : list F) (r : nat -> R) : Prop :=
  (forall j, (j < length h)%nat -> val (hat F h j) (r j) /\ Rabs (r j) <= bpow radix2 k) /\
  (forall j, (S j < length h)%nat -> r j <= r (S j)).

Lemma heights_le h r i j : heights_are h r -> (i <= j)%nat -> (j < length h)%nat -> r i <= r j.
Proof.
  intros [_ H] Hij Hj. induction j as [|j IH]; [replace i with 0%nat by lia; lra|].
  destruct (Nat.eq_dec i (S j)) as [->|N]; [lra|].
  apply Rle_trans with (r j); [apply IH; lia|apply H; lia].
Qed.

Lemma parabolic_val p h r i (s : Z) :
  heights_are h r -> increasing p -> length h = length p ->
  (pat p (length p - 1) <= 134217728)%N -> (Z.of_N (pat p (length p - 1)) <= 2 ^ prec)%Z ->
  (0 < i)%nat -> (S i < length p)%nat -> s = 1%Z \/ s = (-1)%Z ->
  let f := (pat p (i + 1) - pat p i)%N in
  let g := (pat p i - pat p (i - 1))%N in
  (s = 1%Z -> (1 < f)%N) -> (s = (-1)%Z -> (1 < g)%N) ->
  let a := r (i - 1)%nat in let c := r i in let b := r (i + 1)%nat in
  let fr := IZR (Z.of_N f) in let gr := IZR (Z.of_N g) in
  val (psq_parabolic F p h i s)
    (rnd (c + rnd (rnd (IZR s / (fr + gr)) *
       rnd (rnd ((gr + IZR s) * rnd (rnd (b - c) / fr)) +
            rnd ((fr - IZR s) * rnd (rnd (c - a) / gr)))))).
Proof.
  intros Hh Hi Hl Hb Hp H0 H1 Hs f g Hf Hg a c b fr gr.
  assert (Pm : forall j, (j < length p)%nat -> (pat p j <= pat p (length p - 1))%N).
  { intros j Hj. destruct (Nat.eq_dec j (length p - 1)) as [->|N]; [lia|].
    pose proof (increasing_lt p j (length p - 1) Hi ltac:(lia) ltac:(lia)). lia. }
  pose proof (Pm (i + 1)%nat ltac:(lia)) as P1.
  assert (L1 : (pat p i < pat p (i + 1))%N) by (apply increasing_lt; [exact Hi|lia|lia]).
  assert (L2 : (pat p (i - 1) < pat p i)%N) by (apply increasing_lt; [exact Hi|lia|lia]).
  assert (M : (134217728 < szmod)%N) by reflexivity.
  set (n := pat p (length p - 1)) in *.
  assert (Ef : szsub (pat p (i + 1)) (pat p i) = f) by (apply szsub_small; lia).
  assert (Eg : szsub (pat p i) (pat p (i - 1)) = g) by (apply szsub_small; lia).
  assert (Et : szsub (pat p (i + 1)) (pat p (i - 1)) = (f + g)%N).
  { rewrite szsub_small by lia. unfold f, g. lia. }
  destruct Hh as [Hv Hm].
  destruct (Hv (i - 1)%nat ltac:(lia)) as [Va Ba].
  destruct (Hv i ltac:(lia)) as [Vc Bc].
  destruct (Hv (i + 1)%nat ltac:(lia)) as [Vb Bb].
  fold a in Va, Ba. fold c in Vc, Bc. fold b in Vb, Bb.
  assert (Hfg : (1 <= f)%N /\ (1 <= g)%N /\ (f + g <= n)%N).
  { unfold f, g. pose proof (Pm (i - 1)%nat ltac:(lia)). lia. }
  destruct Hfg as (F1 & G1 & FG).
  assert (IX : forall m, (m <= n)%N -> vb (nofsz m) (IZR (Z.of_N m)) 27).
  { intros m Hm'. apply ofsz_exact; lia. }
  assert (fr1 : 1 <= fr) by (unfold fr; apply IZR_le; lia).
  assert (gr1 : 1 <= gr) by (unfold gr; apply IZR_le; lia).
  unfold psq_parabolic. rewrite Ef, Eg, Et.
  assert (Al : exists m, szadd g (sz_of_int s) = m /\ (m <= n)%N /\ IZR (Z.of_N m) = gr + IZR s).
  { destruct Hs as [->| ->].
    - exists (g + 1)%N. rewrite sz_of_int_1, szadd_small by lia. split; [reflexivity|]. split; [lia|].
      unfold gr. rewrite <- plus_IZR. f_equal. lia.
    - exists (g - 1)%N. rewrite szadd_m1 by (specialize (Hg eq_refl); lia). split; [reflexivity|]. split; [lia|].
      unfold gr. rewrite <- plus_IZR. f_equal. specialize (Hg eq_refl); lia. }
  assert (Be : exists m, szsub f (sz_of_int s) = m /\ (m <= n)%N /\ IZR (Z.of_N m) = fr - IZR s).
  { destruct Hs as [->| ->].
    - exists (f - 1)%N. rewrite sz_of_int_1, szsub_small by lia. split; [reflexivity|]. split; [lia|].
      unfold fr. rewrite <- minus_IZR. f_equal. lia.
    - exists (f + 1)%N. rewrite szsub_m1 by lia. split; [reflexivity|]. split; [lia|].
      unfold fr. rewrite <- minus_IZR. f_equal. lia. }
  destruct Al as (ma & -> & Ma & <-). destruct Be as (mb & -> & Mb & <-).
  assert (Et' : fr + gr = IZR (Z.of_N (f + g))) by (unfold fr, gr; rewrite <- plus_IZR; f_equal; lia).
  rewrite Et'.
  destruct (IX (f + g)%N ltac:(lia)) as [Vt _].
  destruct (IX f ltac:(lia)) as [Vf _]. destruct (IX g ltac:(lia)) as [Vg _].
  pose proof (IX ma Ma) as Vma. pose proof (IX mb Mb) as Vmb.
  assert (Sv : vb (nofz s) (IZR s) 0).
  { split; [apply (co_ofz _ _ _ _ _ C); destruct Hs; lia|].
    rewrite <- abs_IZR. change (bpow radix2 0) with 1. apply IZR_le. destruct Hs; lia. }
  assert (Rv : vb (ndiv (nofz s) (nofsz (f + g))) (rnd (IZR s / IZR (Z.of_N (f + g)))) 0).
  { destruct Sv as [Sv Sb].
    assert (T1 : 1 <= IZR (Z.of_N (f + g))) by (apply IZR_le; lia).
    assert (T : Rabs (IZR s / IZR (Z.of_N (f + g))) <= 1).
    { unfold Rdiv. rewrite Rabs_mult, (Rabs_pos_eq (/ _)) by (apply Rlt_le, Rinv_0_lt_compat; lra).
      change (bpow radix2 0) with 1 in Sb.
      rewrite <- (Rmult_1_r 1). apply Rmult_le_compat; try apply Rabs_pos; try exact Sb.
      - apply Rlt_le, Rinv_0_lt_compat; lra.
      - rewrite <- Rinv_1. apply Rinv_le; lra. }
    split; [apply (co_div _ _ _ _ _ C); [exact Sv|exact Vt|lra|]|apply rbound; [lia|exact T]]. lra. }
  apply (vb_add _ _ _ _ (k + 29)); [lia|lia| |].
  - split; [exact Vc|]. apply Rle_trans with (1 := Bc). apply bpow_le. lia.
  - replace (k + 29)%Z with (0 + (k + 29))%Z by lia. apply vb_mul; [lia|lia|exact Rv|].
    replace (k + 29)%Z with (k + 28 + 1)%Z by lia. apply vb_add; [lia|lia| |].
    + replace (k + 28)%Z with (27 + (k + 1))%Z by lia. apply vb_mul; [lia|lia|exact Vma|].
      apply vb_div; [lia|lia| |exact Vf|exact fr1]. apply vb_sub; [lia|lia|split; assumption|split; assumption].
    + replace (k + 28)%Z with (27 + (k + 1))%Z by lia. apply vb_mul; [lia|lia|exact Vmb|].
      apply vb_div; [lia|lia| |exact Vg|exact gr1]. apply vb_sub; [lia|lia|split; assumption|split; assumption].
Qed.

Lemma pat_ge_index p i : increasing p -> (i < length p)%nat -> (N.of_nat i <= pat p i)%N.
Proof.
  intros Hi. induction i as [|i IH]; intros H; [lia|].
  specialize (IH ltac:(lia)). pose proof (Hi i H). lia.
Qed.

Lemma rnd_m1 x : fmt x -> rnd (-1 * x) = - x.
Proof.
  intros H. replace (-1 * x) with (- x) by ring. apply rnd_fix; [typeclasses eauto|].
  apply generic_format_opp. exact H.
Qed.

Lemma rnd_opp x : rnd (- x) = - rnd x.
Proof. apply round_NE_opp. Qed.

(** linear() for a marker that moves up *)
Lemma linear_up p h r i :
  heights_are h r -> increasing p -> length h = length p ->
  (pat p (length p - 1) <= 134217728)%N -> (Z.of_N (pat p (length p - 1)) <= 2 ^ prec)%Z ->
  (0 < i)%nat -> (S i < length p)%nat -> (1 < pat p (i + 1) - pat p i)%N ->
  exists v, val (psq_linear F p h i 1) v /\ r i <= v <= r (i + 1)%nat.
Proof.
  intros Hh Hi Hl Hb Hp H0 H1 Hf.
  pose proof (pat_ge_index p (length p - 1) Hi ltac:(lia)) as Hlen.
  assert (Pm : (pat p (i + 1) <= pat p (length p - 1))%N).
  { destruct (Nat.eq_dec (i + 1) (length p - 1)) as [->|N]; [lia|].
    pose proof (increasing_lt p (i + 1) (length p - 1) Hi ltac:(lia) ltac:(lia)). lia. }
  unfold psq_linear. rewrite idx_shift_p by (unfold szmod; lia).
  rewrite szsub_small by (unfold szmod; lia).
  set (f := (pat p (i + 1) - pat p i)%N) in *.
  pose proof Hh as [Hv Hm].
  destruct (Hv i ltac:(lia)) as [Vc Bc]. destruct (Hv (i + 1)%nat ltac:(lia)) as [Vb Bb].
  assert (Hle : r i <= r (i + 1)%nat) by (apply (heights_le h); [exact Hh|lia|lia]).
  destruct (ofsz_exact f ltac:(lia) ltac:(lia)) as [Vf _].
  set (fr := IZR (Z.of_N f)) in *.
  assert (fr2 : 2 <= fr) by (unfold fr; apply IZR_le; lia).
  set (c := r i) in *. set (b := r (i + 1)%nat) in *.
  assert (Q : vb (ndiv (nsub (hat F h (i + 1)) (hat F h i)) (nofsz f)) (rnd (rnd (b - c) / fr)) (k + 1)).
  { apply vb_div; [lia|lia| |exact Vf|lra]. apply vb_sub; [lia|lia|split; assumption|split; assumption]. }
  assert (S1 : vb (nofz 1) 1 0).
  { split; [apply (co_ofz _ _ _ _ _ C); lia|]. rewrite Rabs_R1. change (bpow radix2 0) with 1. lra. }
  pose proof (vb_mul _ _ _ _ 0 (k + 1) ltac:(lia) ltac:(lia) S1 Q) as T.
  rewrite Rmult_1_l in T. rewrite (rnd_fix emin prec ZnearestE (rnd (rnd (b - c) / fr))) in T by (apply rnd_fmt; typeclasses eauto).
  exists (rnd (c + rnd (rnd (b - c) / fr))). split.
  - refine (proj1 (vb_add _ _ _ _ (k + 1) _ _ _ T)); [lia|lia|].
    split; [exact Vc|]. apply Rle_trans with (1 := Bc). apply bpow_le. lia.
  - apply step_up; try typeclasses eauto.
    + apply (co_fmt _ _ _ _ _ C _ _ Vc).
    + apply (co_fmt _ _ _ _ _ C _ _ Vb).
    + exact Hle.
    + exact fr2.
Qed.

(** linear() for a marker that moves down *)
Lemma linear_down p h r i :
  heights_are h r -> increasing p -> length h = length p ->
  (pat p (length p - 1) <= 134217728)%N -> (Z.of_N (pat p (length p - 1)) <= 2 ^ prec)%Z ->
  (0 < i)%nat -> (S i < length p)%nat ->
  exists K, bpow radix2 63 <= K /\
    val (psq_linear F p h i (-1)) (rnd (r i + rnd (rnd (r i - r (i - 1)%nat) / K))).
Proof.
  intros Hh Hi Hl Hb Hp H0 H1.
  pose proof (pat_ge_index p (length p - 1) Hi ltac:(lia)) as Hlen.
  assert (Pm : (pat p i <= pat p (length p - 1))%N).
  { pose proof (increasing_lt p i (length p - 1) Hi ltac:(lia) ltac:(lia)). lia. }
  assert (L2 : (pat p (i - 1) < pat p i)%N) by (apply increasing_lt; [exact Hi|lia|lia]).
  unfold psq_linear. rewrite idx_shift_m by (unfold szmod; lia).
  rewrite szsub_neg by (unfold szmod; lia).
  set (m := (szmod - (pat p i - pat p (i - 1)))%N) in *.
  assert (M1 : (9223372036854775808 <= m)%N) by (unfold m, szmod; lia).
  assert (M2 : (m < szmod)%N) by (unfold m, szmod; lia).
  pose proof Hh as [Hv Hm].
  destruct (Hv i ltac:(lia)) as [Vc Bc]. destruct (Hv (i - 1)%nat ltac:(lia)) as [Va Ba].
  set (c := r i) in *. set (a := r (i - 1)%nat) in *.
  pose proof (co_ofsz _ _ _ _ _ C m M2) as Vm.
  set (K := rnd (IZR (Z.of_N m))) in *.
  assert (HK : bpow radix2 63 <= K).
  { unfold K. rewrite <- (rnd_fix emin prec ZnearestE (bpow radix2 63)).
    - apply rmono; [exact prec8|]. change (bpow radix2 63) with (IZR 9223372036854775808). apply IZR_le. lia.
    - apply generic_format_FLT_bpow; [exact prec_pos|lia]. }
  exists K. split; [exact HK|].
  assert (K1 : 1 <= K) by (apply Rle_trans with (2 := HK); change 1 with (bpow radix2 0); apply bpow_le; lia).
  assert (Q : vb (ndiv (nsub (hat F h (i - 1)) (hat F h i)) (nofsz m)) (rnd (rnd (a - c) / K)) (k + 1)).
  { apply vb_div; [lia|lia| |exact Vm|exact K1]. apply vb_sub; [lia|lia|split; assumption|split; assumption]. }
  assert (S1 : vb (nofz (-1)) (-1) 0).
  { split; [apply (co_ofz _ _ _ _ _ C); lia|]. rewrite <- abs_IZR. change (bpow radix2 0) with 1. apply IZR_le. lia. }
  pose proof (vb_mul _ _ _ _ 0 (k + 1) ltac:(lia) ltac:(lia) S1 Q) as T.
  rewrite rnd_m1 in T by (apply rnd_fmt; typeclasses eauto).
  replace (a - c) with (- (c - a)) in T by ring. rewrite rnd_opp in T.
  replace (- rnd (c - a) / K) with (- (rnd (c - a) / K)) in T by (field; lra).
  rewrite rnd_opp, Ropp_involutive in T.
  refine (proj1 (vb_add _ _ _ _ (k + 1) _ _ _ T)); [lia|lia|].
  split; [exact Vc|]. apply Rle_trans with (1 := Bc). apply bpow_le. lia.
Qed.

Lemma heights_set h r i v x : heights_are h r -> (0 < i)%nat -> (S i < length h)%nat ->
  val x v -> r (i - 1)%nat <= v <= r (i + 1)%nat ->
  heights_are (aset h i x) (fun j => if Nat.eqb j i then v else r j).
Proof.
  intros [Hv Hm] H0 H1 V [L U]. split; intros j Hj; rewrite aset_length in Hj.
  - unfold hat. rewrite nth_aset. destruct (Nat.eqb_spec j i) as [->|N]; cbn [andb].
    + rewrite (proj2 (Nat.ltb_lt _ _)) by lia. split; [exact V|].
      destruct (Hv (i - 1)%nat ltac:(lia)) as [_ B1]. destruct (Hv (i + 1)%nat ltac:(lia)) as [_ B2].
      apply Rabs_le. apply Rabs_le_inv in B1. apply Rabs_le_inv in B2. lra.
    + apply Hv. exact Hj.
  - destruct (Nat.eqb_spec j i) as [E1|N1]; destruct (Nat.eqb_spec (S j) i) as [E|N2].
    + lia.
    + replace (S j) with (i + 1)%nat by lia. exact U.
    + replace j with (i - 1)%nat by lia. exact L.
    + apply Hm. exact Hj.
Qed.

Lemma adjust_ordered d p h r i :
  heights_are h r -> increasing p -> length h = length p ->
  (pat p (length p - 1) <= 134217728)%N -> (Z.of_N (pat p (length p - 1)) <= 2 ^ prec)%Z ->
  (0 < i)%nat -> (S i < length p)%nat ->
  exists r', heights_are (snd (psq_adjust F d (p, h) i)) r'.
Proof.
  intros Hh Hi Hl Hb Hp H0 H1.
  assert (Pm : (pat p (i + 1) <= pat p (length p - 1))%N).
  { destruct (Nat.eq_dec (i + 1) (length p - 1)) as [->|N]; [lia|].
    pose proof (increasing_lt p (i + 1) (length p - 1) Hi ltac:(lia) ltac:(lia)). lia. }
  assert (L1 : (pat p i < pat p (i + 1))%N) by (apply increasing_lt; [exact Hi|lia|lia]).
  assert (L2 : (pat p (i - 1) < pat p i)%N) by (apply increasing_lt; [exact Hi|lia|lia]).
  pose proof Hh as [Hv Hm].
  destruct (Hv (i - 1)%nat ltac:(lia)) as [Va _]. destruct (Hv i ltac:(lia)) as [Vc _].
  destruct (Hv (i + 1)%nat ltac:(lia)) as [Vb _].
  assert (Hac : r (i - 1)%nat <= r i) by (apply (heights_le h); [exact Hh|lia|lia]).
  assert (Hcb : r i <= r (i + 1)%nat) by (apply (heights_le h); [exact Hh|lia|lia]).
  unfold psq_adjust.
  rewrite (szsub_small (pat p (i + 1))) by (unfold szmod; lia).
  rewrite (szsub_small (pat p i)) by (unfold szmod; lia).
  match goal with |- context [((?t =? 1)%Z && _)%bool] => set (s := t) end.
  destruct (((s =? 1)%Z && _ || (s =? -1)%Z && _)%bool) eqn:Cond; [|exists r; exact Hh].
  cbn [snd].
  assert (Hs : s = 1%Z /\ (1 < pat p (i + 1) - pat p i)%N \/ s = (-1)%Z /\ (1 < pat p i - pat p (i - 1))%N).
  { apply orb_true_iff in Cond. destruct Cond as [E|E]; apply andb_true_iff in E; destruct E as [E1 E2];
      apply Z.eqb_eq in E1; apply N.ltb_lt in E2; [left|right]; split; assumption. }
  clear Cond. clearbody s.
  assert (PV := parabolic_val p h r i s Hh Hi Hl Hb Hp H0 H1 ltac:(tauto)).
  cbv zeta in PV.
  specialize (PV ltac:(intros E; destruct Hs as [[_ G]|[G _]]; [exact G|congruence])).
  specialize (PV ltac:(intros E; destruct Hs as [[G _]|[_ G]]; [congruence|exact G])).
  match type of PV with val _ ?z => remember z as y eqn:Ey in PV end.
  assert (Lin : (r (i - 1)%nat < y /\ y < r (i + 1)%nat) \/
                exists v, val (psq_linear F p h i s) v /\ r (i - 1)%nat <= v <= r (i + 1)%nat).
  { destruct Hs as [[-> G]|[-> G]].
    - right. destruct (linear_up p h r i Hh Hi Hl Hb Hp H0 H1 G) as (v & Vv & Lv). exists v. split; [exact Vv|lra].
    - destruct (linear_down p h r i Hh Hi Hl Hb Hp H0 H1) as (K & HK & VK).
      set (fr := IZR (Z.of_N (pat p (i + 1) - pat p i))) in *.
      set (gr := IZR (Z.of_N (pat p i - pat p (i - 1)))) in *.
      assert (DS := down_step emin prec prec8 emin34 (r (i - 1)%nat) (r i) (r (i + 1)%nat) fr gr K
         (co_fmt _ _ _ _ _ C _ _ Va) (co_fmt _ _ _ _ _ C _ _ Vc) (co_fmt _ _ _ _ _ C _ _ Vb) Hac Hcb
         ltac:(unfold fr; apply IZR_le; lia) ltac:(unfold gr; apply IZR_le; lia)
         ltac:(unfold fr, gr; rewrite <- plus_IZR; change (bpow radix2 27) with (IZR 134217728); apply IZR_le; lia) HK).
      cbv zeta in DS.
      replace (-1 / (fr + gr)) with (- (1 / (fr + gr))) in Ey by (unfold Rdiv; ring).
      replace (gr + -1) with (gr - 1) in Ey by ring. replace (fr - -1) with (fr + 1) in Ey by ring.
      rewrite rnd_opp, Ropp_mult_distr_l_reverse, rnd_opp in Ey.
      match type of Ey with _ = rnd (_ + - ?z) => change (r i + - z) with (r i - z) in Ey end.
      rewrite <- Ey in DS. destruct DS as [DS|DS]; [left; exact DS|right].
      eexists. split; [exact VK|lra]. }
  rewrite (co_lt _ _ _ _ _ C _ _ _ _ Va PV), (co_lt _ _ _ _ _ C _ _ _ _ PV Vb).
  destruct (Rlt_bool_spec (r (i - 1)%nat) y) as [Y1|Y1]; destruct (Rlt_bool_spec y (r (i + 1)%nat)) as [Y2|Y2]; cbn [andb].
  { eexists. apply heights_set; [exact Hh|exact H0|lia|exact PV|lra]. }
  all: destruct Lin as [[? ?]|(v & Vv & Lv)]; [exfalso; lra|].
  all: eexists; apply heights_set; [exact Hh|exact H0|lia|exact Vv|exact Lv].
Qed.

Lemma loop_ordered d idx : forall p h r,
  heights_are h r -> increasing p -> length h = length p ->
  (pat p (length p - 1) <= 134217728)%N -> (Z.of_N (pat p (length p - 1)) <= 2 ^ prec)%Z ->
  Forall (fun i => (0 < i)%nat /\ (S i < length p)%nat) idx ->
  exists r', heights_are (snd (fold_left (psq_adjust F d) idx (p, h))) r'.
Proof.
  induction idx as [|i idx IH]; intros p h r Hh Hi Hl Hb Hp Hx; [exists r; exact Hh|].
  inversion Hx as [|? ? [I0 I1] Hx']; subst. cbn [fold_left].
  destruct (adjust_ordered d p h r i Hh Hi Hl Hb Hp I0 I1) as [r' Hr'].
  destruct (psq_adjust F d (p, h) i) as [p' h'] eqn:E. cbn [snd] in Hr'.
  destruct (adjust_spec F d p h i p' h' Hi ltac:(unfold szmod; lia) I0 I1 E) as (Hi' & Lp & Lh & Sp & _).
  assert (Last : pat p' (length p' - 1) = pat p (length p - 1)).
  { rewrite Lp. apply Sp. lia. }
  apply (IH p' h' r'); [exact Hr'|exact Hi'|lia|rewrite Last; exact Hb|rewrite Last; exact Hp|].
  rewrite Lp. exact Hx'.
Qed.

(** The new extreme heights *)
Lemma cell_ordered qs h r x v m h' : let L := parameter_length F qs in
  heights_are h r -> length h = L -> val x v -> Rabs v <= bpow radix2 k ->
  psq_cell F qs h x = (m, h') -> exists r', heights_are h' r'.
Proof.
  intros L Hh Hl V Bv E.
  assert (L3 : (3 <= L)%nat) by (unfold L, parameter_length; lia).
  fold L in Hl. pose proof Hh as [Hv Hm].
  destruct (Hv 0%nat ltac:(lia)) as [V0 _]. destruct (Hv (L - 1)%nat ltac:(lia)) as [VL _].
  unfold psq_cell in E. fold L in E.
  rewrite (co_lt _ _ _ _ _ C _ _ _ _ V V0), (co_le _ _ _ _ _ C _ _ _ _ VL V) in E.
  destruct (Rlt_bool_spec v (r 0%nat)) as [A|A].
  - injection E as _ <-. exists (fun j => if Nat.eqb j 0 then v else r j). split; intros j Hj; rewrite aset_length in Hj.
    + unfold hat. rewrite nth_aset. destruct (Nat.eqb_spec j 0) as [->|N]; cbn [andb].
      * rewrite (proj2 (Nat.ltb_lt _ _)) by lia. split; assumption.
      * apply Hv. exact Hj.
    + destruct (Nat.eqb_spec j 0) as [->|N]; cbn [Nat.eqb].
      * pose proof (Hm 0%nat ltac:(lia)). lra.
      * apply Hm. exact Hj.
  - destruct (Rle_bool_spec (r (L - 1)%nat) v) as [Bd|Bd]; injection E as _ <-; [|exists r; exact Hh].
    exists (fun j => if Nat.eqb j (L - 1) then v else r j). split; intros j Hj; rewrite aset_length in Hj.
    + unfold hat. rewrite nth_aset. destruct (Nat.eqb_spec j (L - 1)) as [->|N]; cbn [andb].
      * rewrite (proj2 (Nat.ltb_lt _ _)) by lia. split; assumption.
      * apply Hv. exact Hj.
    + destruct (Nat.eqb_spec j (L - 1)) as [->|N]; [lia|].
      destruct (Nat.eqb_spec (S j) (L - 1)) as [E|N2].
      * pose proof (Hm j ltac:(lia)) as G. rewrite E in G. lra.
      * apply Hm. exact Hj.
Qed.

Definition small (x : F) : Prop := exists v, val x v /\ Rabs v <= bpow radix2 k.

Lemma small_list (h : list F) : Forall small h ->
  exists hs, Forall2 val h hs /\ Forall (fun v => Rabs v <= bpow radix2 k) hs.
Proof.
  induction 1 as [|x h (v & V & Bv) _ (hs & H1 & H2)]; [exists []; split; constructor|].
  exists (v :: hs). split; constructor; assumption.
Qed.

Lemma forall2_nth (h : list F) hs j : Forall2 val h hs -> (j < length h)%nat -> val (nth j h n0) (nth j hs 0).
Proof.
  intros H. revert j. induction H as [|x v h hs V _ IH]; intros j Hj; [cbn in Hj; lia|].
  destruct j as [|j]; [exact V|]. cbn [nth]. apply IH. cbn in Hj. lia.
Qed.

Lemma forall2_length (h : list F) hs : Forall2 val h hs -> length h = length hs.
Proof. induction 1; cbn; congruence. Qed.

Let P (x : F) : Prop := exists v, val x v.
Lemma total_P : total_on F P.
Proof. apply (correct_total F val emin prec B C). Qed.

Lemma sorted_rev_nth (l : list F) i j : StronglySorted (fge F) l -> (i < j)%nat -> (j < length l)%nat ->
  nle (nth j l n0) (nth i l n0) = true.
Proof.
  intros H. revert i j. induction H as [|x l H1 IH H2]; intros i j Hij Hj; [cbn in Hj; lia|].
  destruct j as [|j]; [lia|]. cbn [nth]. cbn in Hj.
  destruct i as [|i].
  - rewrite Forall_forall in H2. apply H2. apply nth_In. lia.
  - apply IH; lia.
Qed.

Section Runs.
Variable qs : list F.
Notation L := (parameter_length F qs).

Lemma start_ordered l : length l = L -> fits F l -> Forall small l ->
  exists r, heights_are (ps_heights F (st F qs l)) r.
Proof.
  intros Hl Hs Hf. unfold fits in Hs.
  rewrite st_short by lia. rewrite Hl, Nat.sub_diag. cbn [repeat]. rewrite app_nil_r. cbn [ps_heights].
  assert (Fa : Forall small (asc F l)).
  { rewrite Forall_forall in *. intros x Hx. apply Hf. apply (Permutation_in x (Permutation_sym (asc_perm F l)) Hx). }
  destruct (small_list _ Fa) as (hs & H2 & Hb).
  exists (fun j => nth j hs 0). split; intros j Hj.
  - split; [apply forall2_nth; assumption|]. rewrite Forall_forall in Hb. apply Hb. apply nth_In.
    rewrite <- (forall2_length _ _ H2). exact Hj.
  - assert (Hd : StronglySorted (fge F) (desc F l)).
    { apply (desc_sorted F P total_P). rewrite Forall_forall in *. intros x Hx.
      destruct (Hf x Hx) as (v & V & _). exists v. exact V. }
    assert (La : length (asc F l) = length (desc F l)) by (unfold asc; apply rev_length).
    assert (O : nle (nth j (asc F l) n0) (nth (S j) (asc F l) n0) = true).
    { unfold asc in *. rewrite rev_length in Hj. rewrite !rev_nth by lia.
      apply sorted_rev_nth; [exact Hd|lia|lia]. }
    rewrite (co_le _ _ _ _ _ C _ _ _ _ (forall2_nth _ _ j H2 ltac:(lia)) (forall2_nth _ _ (S j) H2 Hj)) in O.
    destruct (Rle_bool_spec (nth j hs 0) (nth (S j) hs 0)); [assumption|discriminate].
Qed.

Definition room (n : nat) : Prop := (N.of_nat n <= 134217728)%N /\ (Z.of_nat n <= 2 ^ prec)%Z.

Lemma room_fits l : room (length l) -> fits F l.
Proof. intros [H _]. unfold fits, szmod. lia. Qed.

Lemma st_ordered l : room (length l) -> Forall small l -> (L <= length l)%nat ->
  exists r, heights_are (ps_heights F (st F qs l)) r.
Proof.
  induction l as [|x l IH] using rev_ind; intros Hr Hf HL.
  { cbn in HL. pose proof (L_ge F qs). lia. }
  pose proof (room_fits _ Hr) as Hfit.
  rewrite length_snoc in Hr, HL.
  assert (Hr' : room (length l)) by (destruct Hr; split; lia).
  pose proof (room_fits _ Hr') as Hfit'.
  pose proof Hf as Hf0.
  apply Forall_app in Hf. destruct Hf as [Hf Hx]. inversion Hx as [|? ? Sx _]; subst.
  destruct (Nat.eq_dec (S (length l)) L) as [E|NE].
  - apply start_ordered; [rewrite length_snoc; exact E|exact Hfit|exact Hf0].
  - assert (HL' : (L <= length l)%nat) by lia.
    destruct (IH Hr' Hf HL') as [r Hrr].
    assert (FP : Forall P l).
    { rewrite Forall_forall in *. intros y Hy. destruct (Hf y Hy) as (v & V & _). exists v. exact V. }
    assert (Px : P x) by (destruct Sx as (v & V & _); exists v; exact V).
    pose proof (long_inv_st F qs P total_P l Hfit' FP HL') as [Pl Hh Hi H1 Hn _ _].
    destruct Sx as (v & V & Bv).
    rewrite st_snoc. unfold psq_push. rewrite (st_count F qs l Hfit').
    destruct (N.leb_spec (N.of_nat L) (N.of_nat (length l))); [|lia].
    destruct (psq_cell F qs (ps_heights F (st F qs l)) x) as [m h'] eqn:Ec.
    destruct (cell_ordered qs _ r x v m h' Hrr Hh V Bv Ec) as [r' Hr2].
    cbn [ps_heights].
    assert (Hlen' : length h' = L).
    { rewrite <- Hh. unfold psq_cell in Ec.
      destruct (nlt _ _); [|destruct (nle _ _)]; injection Ec as _ <-; rewrite ?aset_length; reflexivity. }
    assert (Lp : length (bump_from m (ps_positions F (st F qs l))) = L) by (rewrite bump_from_length; exact Pl).
    pose proof (L_ge F qs) as L3.
    assert (Last : (pat (bump_from m (ps_positions F (st F qs l))) (L - 1) <= N.of_nat (S (length l)))%N).
    { rewrite pat_bump by lia. destruct (Nat.ltb _ _); [lia|]. rewrite Hn, szadd_small by (unfold fits in Hfit; rewrite length_snoc in Hfit; lia). lia. }
    destruct Hr as [R1 R2].
    apply (loop_ordered _ _ _ _ r'); [exact Hr2| |lia|rewrite Lp; lia|rewrite Lp; lia|].
    + apply increasing_bump; [exact Hi|rewrite Pl, Hn; unfold fits in Hfit; rewrite length_snoc in Hfit; lia].
    + rewrite Lp. apply Forall_forall. intros i Hin. apply in_seq in Hin. lia.
Qed.

(** The heights, as numbers: in order, between the smallest and the largest
    value pushed. *)
Lemma float_heights l vs : room (length l) -> Forall2 val l vs ->
  Forall (fun v => Rabs v <= bpow radix2 k) vs -> (L <= length l)%nat ->
  exists hs, Forall2 val (ps_heights F (st F qs l)) hs /\ StronglySorted Rle hs /\
    Forall (fun h => in_hull h vs) hs.
Proof.
  intros Hr H2 Hb HL.
  assert (Sm : Forall small l).
  { clear - H2 Hb. induction H2 as [|x v l vs V _ IH]; [constructor|]. inversion Hb; subst.
    constructor; [exists v; split; assumption|apply IH; assumption]. }
  destruct (st_ordered l Hr Sm HL) as [r Hrr].
  assert (FP : Forall P l).
  { rewrite Forall_forall in *. intros y Hy. destruct (Sm y Hy) as (v & V & _). exists v. exact V. }
  pose proof (long_inv_st F qs P total_P l (room_fits _ Hr) FP HL) as [_ Hh _ _ _ [Mi _] [Ma _]].
  set (h := ps_heights F (st F qs l)) in *.
  pose proof (L_ge F qs) as L3.
  assert (InV : forall x a, In x l -> val x a -> In a vs).
  { clear - H2 C. intros x a Hx Va. induction H2 as [|y v l vs V _ IH]; [destruct Hx|].
    destruct Hx as [->|Hx]; [left; apply (co_inj _ _ _ _ _ C x v a V Va)|right; apply IH; exact Hx]. }
  pose proof Hrr as [Hv Hm].
  exists (map r (seq 0 (length h))). split; [|split].
  - assert (G : forall (t : list F) b, (forall j, (j < length t)%nat -> val (nth j t n0) (r (b + j)%nat)) ->
      Forall2 val t (map r (seq b (length t)))).
    { induction t as [|x t IH]; intros b H; [constructor|]. cbn [length seq map]. constructor.
      - specialize (H 0%nat ltac:(cbn; lia)). cbn [nth] in H. rewrite Nat.add_0_r in H. exact H.
      - apply IH. intros j Hj. specialize (H (S j) ltac:(cbn; lia)). cbn [nth] in H.
        replace (S b + j)%nat with (b + S j)%nat by lia. exact H. }
    apply G. intros j Hj. apply Hv. exact Hj.
  - assert (G : forall n b, (b + n <= length h)%nat -> StronglySorted Rle (map r (seq b n))).
    { induction n as [|n IH]; intros b Hn; [constructor|]. cbn [seq map]. constructor; [apply IH; lia|].
      apply Forall_forall. intros y Hy. apply in_map_iff in Hy. destruct Hy as (j & <- & Hj). apply in_seq in Hj.
      apply (heights_le h); [exact Hrr|lia|lia]. }
    apply G. lia.
  - apply Forall_forall. intros y Hy. apply in_map_iff in Hy. destruct Hy as (j & <- & Hj). apply in_seq in Hj.
    split.
    + exists (r 0%nat). split; [|apply (heights_le h); [exact Hrr|lia|lia]].
      apply (InV (hat F h 0)); [exact Mi|apply Hv; lia].
    + exists (r (L - 1)%nat). split; [|apply (heights_le h); [exact Hrr|lia|lia]].
      apply (InV (hat F h (L - 1))); [exact Ma|apply Hv; lia].
Qed.

End Runs.
End Ordered.
