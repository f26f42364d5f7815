(** * P-square: how far the positions are from the quantiles, with rounding *)

From Coq Require Import Reals ZArith NArith Bool List Lia Lra Sorting.Sorted.
From Flocq Require Import Core.Raux.
From Verif Require Import Arith History HistoryLemmas Psquare PsquareLemmas PsquareGeneric SpecOrder PsquareTrack.
Import ListNotations.
Local Open Scope R_scope.

(** What is needed of an arithmetic: [den x a] says that [x] denotes [a], results
    up to [K] are rounded by [rnd], with error [u], and differences have the right
    sign. *)
Record steady (F : num) (den : F -> R -> Prop) (rnd : R -> R) (u K : R) : Prop := {
  sd_add : forall x y a b, den x a -> den y b -> 0 <= a -> 0 <= b -> a + b <= K -> den (nadd x y) (rnd (a + b));
  sd_mul : forall x y a b, den x a -> den y b -> 0 <= a -> 0 <= b -> a * b <= K -> den (nmul x y) (rnd (a * b));
  sd_half : forall x a, den x a -> 0 <= a <= K -> den (ndiv x (nofz 2)) (rnd (a / 2));
  sd_sz : forall q : N, IZR (Z.of_N q) <= K -> den (nofsz q) (IZR (Z.of_N q));
  sd_zero : den n0 0;
  sd_one : den n1 1;
  sd_rep : forall x a, den x a -> rnd a = a;
  sd_mono : forall a b, a <= b -> rnd a <= rnd b;
  sd_err : forall a, 0 <= a -> Rabs (rnd a - a) <= u * Rmax 1 a;
  sd_double : forall x a, den x a -> 0 <= a <= 1 -> rnd (a + a) = a + a;
  sd_u : 0 <= u;
  sd_sign : forall x y a b, den x a -> den y b -> 0 <= a <= K -> 0 <= b <= K ->
    (nlt n0 (nsub x y) = true <-> b < a) /\ (nlt (nsub x y) n0 = true <-> a < b)
}.

Lemma F2_length {A B} (R : A -> B -> Prop) l l' : Forall2 R l l' -> length l = length l'.
Proof. induction 1; cbn; congruence. Qed.

Section Rounded.
Variable F : num.
Variable den : F -> R -> Prop.
Variable rnd : R -> R.
Variables u K : R.
Hypothesis S : steady F den rnd u K.
Variable qs : list F.
Variable rqs : list R.
Hypothesis Hq : Forall2 den qs rqs.
Hypothesis sorted : StronglySorted Rle rqs.
Hypothesis unit : Forall (fun q => 0 <= q <= 1) rqs.
Notation L := (parameter_length F qs).
Hypothesis LK : INR L <= K.

Lemma rep_int z : IZR (Z.of_N z) <= K -> rnd (IZR (Z.of_N z)) = IZR (Z.of_N z).
Proof. intros H. apply (sd_rep _ _ _ _ _ S (nofsz z)), (sd_sz _ _ _ _ _ S), H. Qed.
Lemma rep_nat n : INR n <= K -> rnd (INR n) = INR n.
Proof. intros H. rewrite INR_IZR_INZ, <- nat_N_Z in *. apply rep_int. exact H. Qed.
Lemma rnd0 : rnd 0 = 0. Proof. exact (sd_rep _ _ _ _ _ S _ _ (sd_zero _ _ _ _ _ S)). Qed.
Lemma rnd1 : rnd 1 = 1. Proof. exact (sd_rep _ _ _ _ _ S _ _ (sd_one _ _ _ _ _ S)). Qed.
Lemma K3 : 3 <= K.
Proof. pose proof (L_ge F qs) as H. apply le_INR in H. cbn [INR] in H. lra. Qed.
Lemma rnd_pos a : 0 <= a -> 0 <= rnd a.
Proof. intros H. rewrite <- rnd0. apply (sd_mono _ _ _ _ _ S), H. Qed.
Lemma rnd_two : rnd 2 = 2.
Proof. pose proof K3. pose proof (rep_nat 2) as H1. cbn [INR] in H1. apply H1. lra. Qed.

Lemma rnd_ge1 a : 1 <= a -> 1 <= rnd a.
Proof. intros H. rewrite <- rnd1 at 1. apply (sd_mono _ _ _ _ _ S), H. Qed.
Lemma rnd_le_nat a n : a <= INR n -> INR n <= K -> rnd a <= INR n.
Proof. intros H HK. rewrite <- (rep_nat n HK). apply (sd_mono _ _ _ _ _ S), H. Qed.

(** The increments. *)
Fixpoint rdel (r : R) (q : list R) : list R :=
  match q with
  | [] => [rnd (rnd (r + 1) / 2); 1]
  | x :: t => rnd (rnd (r + x) / 2) :: x :: rdel x t
  end.

Lemma mid_between x y a b : den x a -> den y b -> 0 <= a <= b -> b <= 1 ->
  den (ndiv (nadd x y) (nofz 2)) (rnd (rnd (a + b) / 2)) /\ a <= rnd (rnd (a + b) / 2) <= b.
Proof.
  intros X Y H1 H2. pose proof K3 as K3.
  pose proof (sd_double _ _ _ _ _ S x a X ltac:(lra)) as Ea.
  pose proof (sd_double _ _ _ _ _ S y b Y ltac:(lra)) as Eb.
  assert (A0 : a + a <= rnd (a + b)) by (rewrite <- Ea; apply (sd_mono _ _ _ _ _ S); lra).
  assert (A1 : rnd (a + b) <= b + b) by (rewrite <- Eb; apply (sd_mono _ _ _ _ _ S); lra).
  split; [apply (sd_half _ _ _ _ _ S); [apply (sd_add _ _ _ _ _ S); try assumption; lra|lra]|].
  split.
  - rewrite <- (sd_rep _ _ _ _ _ S x a X) at 1. apply (sd_mono _ _ _ _ _ S). lra.
  - rewrite <- (sd_rep _ _ _ _ _ S y b Y) at 2. apply (sd_mono _ _ _ _ _ S). lra.
Qed.

Lemma ss_cons2 (a b : R) l : a <= b -> StronglySorted Rle (b :: l) -> StronglySorted Rle (a :: b :: l).
Proof.
  intros H H1. constructor; [exact H1|]. inversion H1 as [|? ? _ H2]; subst. constructor; [exact H|].
  eapply Forall_impl; [|exact H2]. cbn. intros c Hc. lra.
Qed.

Lemma rdel_spec q rq prev r : Forall2 den q rq -> den prev r -> 0 <= r <= 1 ->
  StronglySorted Rle (r :: rq) -> Forall (fun x => 0 <= x <= 1) rq ->
  Forall2 den (deltas_from F prev q) (rdel r rq) /\ StronglySorted Rle (r :: rdel r rq) /\
  Forall (fun x => 0 <= x <= 1) (rdel r rq).
Proof.
  intros HF. revert prev r. induction HF as [|x y q rq Hx HF IH]; intros prev r Hp Hr Hs Hu; cbn [deltas_from rdel].
  - destruct (mid_between prev n1 r 1 Hp (sd_one _ _ _ _ _ S) ltac:(lra) ltac:(lra)) as [M1 M2].
    split; [repeat constructor; [exact M1|exact (sd_one _ _ _ _ _ S)]|]. split.
    + apply ss_cons2; [lra|]. apply ss_cons2; [lra|]. repeat constructor.
    + constructor; [lra|constructor; [lra|constructor]].
  - inversion Hu as [|? ? U1 U2]; subst. inversion Hs as [|? ? S1 S2]; subst. inversion S2 as [|? ? S3 S4]; subst.
    destruct (mid_between prev x r y Hp Hx ltac:(lra) ltac:(lra)) as [M1 M2].
    destruct (IH x y Hx U1 S1 U2) as (I1 & I2 & I3).
    split; [constructor; [exact M1|constructor; [exact Hx|exact I1]]|]. split.
    + apply ss_cons2; [lra|]. apply ss_cons2; [lra|]. exact I2.
    + constructor; [lra|constructor; [lra|exact I3]].
Qed.

Definition dl (i : nat) : R := nth i (0 :: rdel 0 rqs) 0.

Lemma rdel_length r q : length (rdel r q) = (2 * length q + 2)%nat.
Proof. revert r; induction q as [|x q IH]; intros r; cbn [rdel length]; [reflexivity|rewrite IH; lia]. Qed.
Lemma dl_length : length (0 :: rdel 0 rqs) = L.
Proof. cbn [length]. rewrite rdel_length. unfold parameter_length, quantile_length. pose proof (F2_length _ _ _ Hq). lia. Qed.

Lemma start_sorted : StronglySorted Rle (0 :: rqs).
Proof. constructor; [exact sorted|]. eapply Forall_impl; [|exact unit]. cbn. intros; lra. Qed.

Lemma deltas_all : Forall2 den (constant_deltas F qs) (0 :: rdel 0 rqs) /\
  StronglySorted Rle (0 :: rdel 0 rqs) /\ Forall (fun x => 0 <= x <= 1) (0 :: rdel 0 rqs).
Proof.
  destruct (rdel_spec qs rqs n0 0 Hq (sd_zero _ _ _ _ _ S) ltac:(lra) start_sorted unit) as (A & B & C).
  split; [|split]; [constructor; [exact (sd_zero _ _ _ _ _ S)|exact A]|exact B|constructor; [lra|exact C]].
Qed.

Lemma Forall2_nth {A B} (R : A -> B -> Prop) l l' i d d' : Forall2 R l l' -> (i < length l')%nat -> R (nth i l d) (nth i l' d').
Proof. intros H. revert i. induction H; intros i Hi; cbn in *; [lia|]. destruct i; [assumption|]. apply IHForall2. lia. Qed.

Lemma dl_den i : (i < L)%nat -> den (nth i (constant_deltas F qs) n0) (dl i).
Proof. intros Hi. apply Forall2_nth; [apply deltas_all|rewrite dl_length; exact Hi]. Qed.
Lemma dl_unit i : (i < L)%nat -> 0 <= dl i <= 1.
Proof. intros Hi. destruct deltas_all as (_ & _ & H). rewrite Forall_forall in H. apply H. apply nth_In. rewrite dl_length. exact Hi. Qed.
Lemma ss_nth (l : list R) i : StronglySorted Rle l -> (Datatypes.S i < length l)%nat -> nth i l 0 <= nth (Datatypes.S i) l 0.
Proof.
  intros H. revert i. induction H as [|a l H IH Hf]; intros i Hi; cbn in *; [lia|].
  destruct i; [|apply IH; lia]. rewrite Forall_forall in Hf. apply Hf. apply nth_In. lia.
Qed.
Lemma dl_mono i : (Datatypes.S i < L)%nat -> dl i <= dl (Datatypes.S i).
Proof. intros Hi. destruct deltas_all as (_ & H & _). apply ss_nth; [exact H|rewrite dl_length; exact Hi]. Qed.
Lemma dl_first : dl 0 = 0. Proof. reflexivity. Qed.
Lemma rdel_last r q : nth (2 * length q + 1) (rdel r q) 0 = 1.
Proof.
  revert r; induction q as [|x q IH]; intros r; [reflexivity|]. cbn [rdel length].
  replace (2 * Datatypes.S (length q) + 1)%nat with (Datatypes.S (Datatypes.S (2 * length q + 1))) by lia. apply IH.
Qed.
Lemma dl_last : dl (L - 1) = 1.
Proof.
  unfold dl, parameter_length, quantile_length. rewrite (F2_length _ _ _ Hq).
  replace (2 * length rqs + 3 - 1)%nat with (Datatypes.S (2 * length rqs + 1)) by lia. apply rdel_last.
Qed.
Lemma rdel_quantile r q k d : (k < length q)%nat -> nth (2 * k + 1) (rdel r q) 0 = nth k q d.
Proof.
  revert r k; induction q as [|x q IH]; intros r k Hk; cbn [length] in Hk; [lia|]. cbn [rdel].
  destruct k; [reflexivity|]. replace (2 * Datatypes.S k + 1)%nat with (Datatypes.S (Datatypes.S (2 * k + 1))) by lia.
  apply IH. lia.
Qed.
Lemma dl_quantile k q : nth_error rqs k = Some q -> dl (2 * k + 2) = q.
Proof.
  intros H. unfold dl. replace (2 * k + 2)%nat with (Datatypes.S (2 * k + 1)) by lia. cbn [nth].
  rewrite (rdel_quantile 0 rqs k 0) by (apply nth_error_Some; congruence). apply nth_error_nth. exact H.
Qed.

(** The desired positions. *)
Fixpoint D (m i : nat) : R :=
  match m with
  | O => rnd (1 + rnd (INR (L - 1) * dl i))
  | Datatypes.S m => rnd (D m i + dl i)
  end.

Lemma INR_L1 : INR (L - 1) = INR L - 1.
Proof. pose proof (L_ge F qs). rewrite minus_INR by lia. reflexivity. Qed.

Lemma L_real : 3 <= INR L.
Proof. pose proof (L_ge F qs) as H. apply le_INR in H. cbn [INR] in H. lra. Qed.

Lemma prod_range i : (i < L)%nat -> 0 <= INR (L - 1) * dl i <= INR (L - 1).
Proof.
  intros Hi. pose proof (dl_unit i Hi). pose proof (pos_INR (L - 1)). split; [apply Rmult_le_pos; lra|].
  rewrite <- (Rmult_1_r (INR (L - 1))) at 2. apply Rmult_le_compat_l; lra.
Qed.
Lemma rprod_range i : (i < L)%nat -> 0 <= rnd (INR (L - 1) * dl i) <= INR (L - 1).
Proof.
  intros Hi. pose proof (prod_range i Hi). pose proof INR_L1. split; [apply rnd_pos; lra|apply rnd_le_nat; lra].
Qed.

Lemma D_range m i : (i < L)%nat -> INR (L + m) <= K -> 1 <= D m i <= INR (L + m).
Proof.
  intros Hi. induction m as [|m IH]; intros HK; cbn [D].
  - pose proof (rprod_range i Hi). pose proof INR_L1. rewrite Nat.add_0_r in *.
    split; [apply rnd_ge1; lra|apply rnd_le_nat; lra].
  - rewrite Nat.add_succ_r in *. pose proof HK as HK'. rewrite S_INR in HK'.
    specialize (IH ltac:(lra)). pose proof (dl_unit i Hi).
    split; [apply rnd_ge1; lra|apply rnd_le_nat; [rewrite S_INR; lra|exact HK]].
Qed.

Lemma D_den m i : (i < L)%nat -> INR (L + m) <= K -> den (hat F (desired F qs m) i) (D m i) /\ length (desired F qs m) = L.
Proof.
  intros Hi. pose proof deltas_all as (Hd & _ & _). pose proof (F2_length _ _ _ Hd) as HL. rewrite dl_length in HL.
  induction m as [|m IH]; intros HK.
  - unfold desired, hat; cbn [Nat.iter nat_rect psq_init psq_initialize ps_desired]. split; [|rewrite map_length; exact HL].
    rewrite (nth_indep _ n0 (nadd n1 (nmul (nofsz (N.of_nat (2 * (quantile_length F qs + 1)))) n0))) by (rewrite map_length; lia).
    rewrite (map_nth (fun d => nadd n1 (nmul (nofsz (N.of_nat (2 * (quantile_length F qs + 1)))) d))).
    cbn [D]. pose proof (rprod_range i Hi). pose proof (prod_range i Hi). pose proof INR_L1. rewrite Nat.add_0_r in HK.
    apply (sd_add _ _ _ _ _ S); [exact (sd_one _ _ _ _ _ S)| |lra|lra|lra].
    assert (E : INR (L - 1) = IZR (Z.of_N (N.of_nat (2 * (quantile_length F qs + 1))))).
    { rewrite nat_N_Z, <- INR_IZR_INZ. f_equal. unfold parameter_length. lia. }
    apply (sd_mul _ _ _ _ _ S); [rewrite E; apply (sd_sz _ _ _ _ _ S); rewrite <- E; lra|apply dl_den; exact Hi|apply pos_INR|apply dl_unit; exact Hi|lra].
  - rewrite Nat.add_succ_r, S_INR in HK. destruct (IH ltac:(lra)) as [I1 I2].
    change (desired F qs (Datatypes.S m)) with (add_deltas F (desired F qs m) (constant_deltas F qs)). unfold hat in *.
    unfold add_deltas. split; [|rewrite map_length, combine_length; lia].
    rewrite (nth_indep _ n0 (nadd (fst (@n0 F, @n0 F)) (snd (@n0 F, @n0 F)))) by (rewrite map_length, combine_length; lia).
    rewrite (map_nth (fun xy : F * F => nadd (fst xy) (snd xy))), combine_nth by lia. cbn [fst snd].
    pose proof (D_range m i Hi ltac:(lra)). pose proof (dl_unit i Hi).
    cbn [D]. apply (sd_add _ _ _ _ _ S); [exact I1|apply dl_den; exact Hi|lra|lra|lra].
Qed.

Lemma D_mono m i : (Datatypes.S i < L)%nat -> D m i <= D m (Datatypes.S i).
Proof.
  intros Hi. pose proof (dl_mono i Hi). induction m as [|m IH]; cbn [D]; apply (sd_mono _ _ _ _ _ S); [|lra].
  apply Rplus_le_compat_l, (sd_mono _ _ _ _ _ S), Rmult_le_compat_l; [apply pos_INR|assumption].
Qed.
Lemma D_first m : D m 0 = 1.
Proof. induction m as [|m IH]; cbn [D]; rewrite dl_first; [rewrite Rmult_0_r, rnd0, Rplus_0_r; exact rnd1|rewrite IH, Rplus_0_r; exact rnd1]. Qed.
Lemma D_last m : INR (L + m) <= K -> D m (L - 1) = INR (L + m).
Proof.
  induction m as [|m IH]; intros HK; cbn [D]; rewrite dl_last.
  - rewrite Rmult_1_r. pose proof INR_L1. rewrite Nat.add_0_r in *. rewrite (rep_nat (L - 1)) by lra. rewrite H.
    replace (1 + (INR L - 1)) with (INR L) by ring. apply rep_nat. lra.
  - rewrite Nat.add_succ_r, S_INR in *. rewrite IH by lra. rewrite <- S_INR. apply rep_nat. rewrite S_INR. lra.
Qed.
Lemma D_step m i : (i < L)%nat -> INR (L + Datatypes.S m) <= K ->
  0 <= D (Datatypes.S m) i - D m i <= 1 + u * INR (L + Datatypes.S m) /\
  Rabs (D (Datatypes.S m) i - D m i - dl i) <= u * INR (L + Datatypes.S m).
Proof.
  intros Hi HK. rewrite Nat.add_succ_r, S_INR in *. pose proof (D_range m i Hi ltac:(lra)) as R1. pose proof (dl_unit i Hi) as R2.
  destruct (D_den m i Hi ltac:(lra)) as [H1 _]. cbn [D].
  pose proof (sd_err _ _ _ _ _ S (D m i + dl i) ltac:(lra)) as E. rewrite Rmax_right in E by lra.
  assert (E2 : u * (D m i + dl i) <= u * (INR (L + m) + 1)) by (apply Rmult_le_compat_l; [apply (sd_u _ _ _ _ _ S)|lra]).
  split.
  - split; [|apply Rabs_le_inv in E; lra].
    rewrite <- (sd_rep _ _ _ _ _ S _ _ H1) at 2. pose proof (sd_mono _ _ _ _ _ S (D m i) (D m i + dl i) ltac:(lra)). lra.
  - replace (rnd (D m i + dl i) - D m i - dl i) with (rnd (D m i + dl i) - (D m i + dl i)) by ring. lra.
Qed.

Lemma D_ideal m i : (i < L)%nat -> INR (L + m) <= K ->
  Rabs (D m i - (1 + INR (L + m - 1) * dl i)) <= u * (INR (L + m) * INR (L + m)).
Proof.
  intros Hi. pose proof L_real as HL. pose proof (sd_u _ _ _ _ _ S) as Hu. pose proof INR_L1 as HL1.
  induction m as [|m IH]; intros HK.
  - rewrite Nat.add_0_r in *. cbn [D]. pose proof (prod_range i Hi). pose proof (rprod_range i Hi).
    pose proof (sd_err _ _ _ _ _ S (INR (L - 1) * dl i) ltac:(lra)) as E1.
    pose proof (sd_err _ _ _ _ _ S (1 + rnd (INR (L - 1) * dl i)) ltac:(lra)) as E2.
    assert (M1 : u * Rmax 1 (INR (L - 1) * dl i) <= u * INR L) by (apply Rmult_le_compat_l; [exact Hu|apply Rmax_lub; lra]).
    assert (M2 : u * Rmax 1 (1 + rnd (INR (L - 1) * dl i)) <= u * INR L) by (apply Rmult_le_compat_l; [exact Hu|apply Rmax_lub; lra]).
    assert (M3 : u * (3 * INR L) <= u * (INR L * INR L)) by (apply Rmult_le_compat_l; [exact Hu|apply Rmult_le_compat_r; lra]).
    assert (M4 : 0 <= u * INR L) by (apply Rmult_le_pos; lra).
    apply Rabs_le_inv in E1, E2. apply Rabs_le. lra.
  - destruct (D_step m i Hi HK) as [_ E]. rewrite Nat.add_succ_r, S_INR in *. specialize (IH ltac:(lra)).
    replace (Datatypes.S (L + m) - 1)%nat with (Datatypes.S (L + m - 1)) by (pose proof (L_ge F qs); lia). rewrite S_INR.
    assert (M1 : 0 <= u * INR (L + m)) by (apply Rmult_le_pos; [exact Hu|apply pos_INR]).
    apply Rabs_le_inv in E, IH. apply Rabs_le. split; lra.
Qed.

(** The slack from rounding the steps. *)
Fixpoint slack (m : nat) : R :=
  match m with O => 0 | Datatypes.S m => slack m + u * INR (L + Datatypes.S m) end.
Lemma slack_le m : 0 <= slack m <= u * (INR (L + m) * INR (L + m)).
Proof.
  pose proof (sd_u _ _ _ _ _ S) as Hu. induction m as [|m IH]; cbn [slack].
  - split; [lra|]. apply Rmult_le_pos; [exact Hu|]. apply Rmult_le_pos; apply pos_INR.
  - rewrite Nat.add_succ_r, S_INR. assert (M1 : 0 <= u * INR (L + m)) by (apply Rmult_le_pos; [exact Hu|apply pos_INR]). lra.
Qed.

Definition up (m i : nat) : R := 2 * INR (L - 1 - i) + slack m.
Definition down (m i : nat) : R := INR i.

Lemma carries_general m : INR (L + Datatypes.S m) <= K ->
  carries F qs (up m) (down m) (D m) (up (Datatypes.S m)) (down (Datatypes.S m)) (D (Datatypes.S m)).
Proof.
  intros HK. assert (HK' : INR (L + m) <= K) by (rewrite Nat.add_succ_r, S_INR in HK; lra).
  pose proof (slack_le m) as S0. pose proof (slack_le (Datatypes.S m)) as S1. pose proof (L_ge F qs) as HL.
  assert (Su : slack m + u * INR (L + Datatypes.S m) = slack (Datatypes.S m)) by reflexivity.
  assert (Sm : 0 <= u * INR (L + Datatypes.S m)) by (apply Rmult_le_pos; [apply (sd_u _ _ _ _ _ S)|apply pos_INR]).
  constructor; unfold up, down.
  - rewrite !D_first. repeat split; lra.
  - rewrite !D_last by assumption. rewrite Nat.add_succ_r, S_INR in *. repeat split; lra.
  - intros i Hi. pose proof (D_step m i ltac:(lia) HK) as [E1 _]. pose proof (D_step m (Datatypes.S i) ltac:(lia) HK) as [E2 _].
    pose proof (D_mono (Datatypes.S m) i ltac:(lia)) as E3.
    replace (L - 1 - i)%nat with (Datatypes.S (L - 1 - Datatypes.S i)) by lia. rewrite S_INR.
    pose proof (pos_INR (L - 1 - Datatypes.S i)). split; [lra|]. split; [lra|]. split; [lra|].
    intros z Hz. lra.
  - intros i Hi. pose proof (D_step m i ltac:(lia) HK) as [E1 _].
    pose proof (D_mono (Datatypes.S m) (i - 1) ltac:(lia)) as E3. replace (Datatypes.S (i - 1)) with i in E3 by lia.
    assert (Ei : INR i = INR (i - 1) + 1) by (rewrite <- S_INR; f_equal; lia).
    pose proof (pos_INR (i - 1)). split; [lra|]. split; [lra|]. split; [lra|].
    intros z Hz. lra.
Qed.

Lemma signs_general m i : INR (L + m) <= K -> (i < L)%nat ->
  compares F (N.of_nat (L + m)) (hat F (desired F qs m) i) (D m i).
Proof.
  intros HK Hi q Hqb. destruct (D_den m i Hi HK) as [H _]. pose proof (D_range m i Hi HK) as R1.
  assert (B : 0 <= IZR (Z.of_N q) <= INR (L + m)).
  { rewrite INR_IZR_INZ, <- nat_N_Z. split; [apply (IZR_le 0); lia|apply IZR_le; lia]. }
  apply (sd_sign _ _ _ _ _ S); [exact H|apply (sd_sz _ _ _ _ _ S); lra|lra|lra].
Qed.

Variable P : F -> Prop.
Hypothesis HP : total_on F P.
Notation fits := (PsquareGeneric.fits F).

Theorem general_tracks l k q : fits l -> Forall P l -> (L <= length l)%nat -> INR (length l) <= K ->
  nth_error rqs k = Some q ->
  let n := INR (length l) in let p := posr (ps_positions F (st F qs l)) (2 * k + 2) in
  1 + (n - 1) * q - 4 * INR (length rqs - k) - 2 * u * (n * n) <= p <= 1 + (n - 1) * q + 2 * INR (k + 1) + u * (n * n).
Proof.
  intros Hs Hf Hn HK Hk n p. pose proof (L_ge F qs) as HL.
  assert (Hk' : (k < length rqs)%nat) by (apply nth_error_Some; congruence).
  assert (EL : L = (2 * length rqs + 3)%nat) by (unfold parameter_length, quantile_length; rewrite (F2_length _ _ _ Hq); reflexivity).
  set (m := (length l - L)%nat). assert (Em : (L + m)%nat = length l) by (unfold m; lia).
  assert (Kall : forall j, (j <= m)%nat -> INR (L + j) <= K).
  { intros j Hj. apply Rle_trans with (2 := HK). apply le_INR. lia. }
  pose proof (st_tracks F qs P HP up down D m) as T.
  assert (T1 : forall i, (i < L)%nat -> - down 0 i <= D 0 i - INR (Datatypes.S i) <= up 0 i).
  { intros i Hi. pose proof (D_range 0 i Hi (Kall 0%nat ltac:(lia))) as R1. unfold up, down. cbn [slack].
    rewrite Nat.add_0_r in R1. rewrite S_INR. pose proof INR_L1 as I1.
    assert (I2 : INR (L - 1 - i) = INR (L - 1) - INR i) by (rewrite <- minus_INR by lia; reflexivity).
    pose proof (pos_INR (L - 1 - i)). lra. }
  specialize (T T1 (fun j Hj => carries_general j (Kall (Datatypes.S j) ltac:(lia)))).
  specialize (T (fun j Hj i Hi => signs_general (Datatypes.S j) i (Kall (Datatypes.S j) ltac:(lia)) ltac:(lia))).
  specialize (T l Hs Hf ltac:(unfold m; lia) (2 * k + 2)%nat ltac:(lia)).
  fold m in T. fold p in T. unfold up, down in T.
  pose proof (D_ideal m (2 * k + 2) ltac:(lia) (Kall m ltac:(lia))) as I. rewrite (dl_quantile k q Hk), Em in I. fold n in I.
  rewrite minus_INR in I by lia. change (INR 1) with 1 in I. fold n in I. apply Rabs_le_inv in I.
  pose proof (slack_le m) as S1. rewrite Em in S1. fold n in S1.
  replace (L - 1 - (2 * k + 2))%nat with (2 * (length rqs - k))%nat in T by lia.
  replace (2 * k + 2)%nat with (2 * (k + 1))%nat in T by lia. rewrite !mult_INR in T. change (INR 2) with 2 in T.
  fold (posr (ps_positions F (st F qs l)) (2 * (k + 1))) in T.
  assert (Ep : p = posr (ps_positions F (st F qs l)) (2 * (k + 1))) by (unfold p; f_equal; lia). rewrite <- ?Ep in T.
  replace (D m (2 * k + 2)) with (D m (2 * (k + 1))) in I by (f_equal; lia). lra.
Qed.
End Rounded.
