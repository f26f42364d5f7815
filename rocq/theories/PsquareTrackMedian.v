(** * P-square positions: the median *)

From Coq Require Import Reals ZArith NArith Bool List Lia Lra Sorting.Sorted.
From Verif Require Import Arith History HistoryLemmas Psquare PsquareLemmas PsquareGeneric SpecOrder PsquareTrack PsquareTrackRounded.
Import ListNotations.
Local Open Scope R_scope.

Section Median.
Variable F : num.
Variable den : F -> R -> Prop.
Variable rnd : R -> R.
Variables u K K4 : R.
Hypothesis S : steady F den rnd u K.
Variable x : F.
Hypothesis Hx : den x (/ 2).
Hypothesis quarters : forall z, (0 <= z)%Z -> IZR z / 4 <= K4 -> rnd (IZR z / 4) = IZR z / 4.
Hypothesis K5 : 5 <= K4 <= K.
Notation qs := [x].
Notation rqs := [/ 2].
Notation D := (D F rnd qs rqs).
Notation dl := (dl rnd rqs).

Lemma med_den : Forall2 den qs rqs. Proof. constructor; [exact Hx|constructor]. Qed.
Lemma med_sorted : StronglySorted Rle rqs. Proof. repeat constructor. Qed.
Lemma med_unit : Forall (fun q => 0 <= q <= 1) rqs. Proof. constructor; [lra|constructor]. Qed.

Lemma quarter r z : (0 <= z)%Z -> r = IZR z / 4 -> r <= K4 -> rnd r = r.
Proof. intros H -> H1. apply quarters; assumption. Qed.

Lemma med_dl i : (i < 5)%nat -> dl i = INR i / 4.
Proof.
  intros Hi. unfold dl. cbn [rdel].
  assert (E1 : rnd (rnd (0 + / 2) / 2) = / 4).
  { rewrite (quarter (0 + / 2) 2) by (try lia; lra). rewrite (quarter ((0 + / 2) / 2) 1) by (try lia; lra). lra. }
  assert (E2 : rnd (rnd (/ 2 + 1) / 2) = 3 / 4).
  { rewrite (quarter (/ 2 + 1) 6) by (try lia; lra). rewrite (quarter ((/ 2 + 1) / 2) 3) by (try lia; lra). lra. }
  rewrite E1, E2. destruct i as [|[|[|[|[|i]]]]]; cbn [nth INR]; try lra. lia.
Qed.

Lemma med_D m i : (i < 5)%nat -> INR (5 + m) <= K4 -> D m i = 1 + INR (4 + m) * (INR i / 4).
Proof.
  intros Hi. assert (I5 : INR i <= 4) by (rewrite INR_IZR_INZ; apply IZR_le; lia). pose proof (pos_INR i) as I0.
  induction m as [|m IH]; intros HK; cbn [PsquareTrackRounded.D].
  - rewrite med_dl by exact Hi. change (parameter_length F qs - 1)%nat with 4%nat. cbn [Nat.add] in *.
    replace (INR 4) with 4 by (cbn [INR]; lra).
    rewrite (quarter (4 * (INR i / 4)) (4 * Z.of_nat i)) by (rewrite ?mult_IZR, <- ?INR_IZR_INZ; try lia; lra).
    apply (quarter _ (4 + 4 * Z.of_nat i)); [lia| |lra]. rewrite plus_IZR, mult_IZR, <- INR_IZR_INZ. lra.
  - replace (5 + Datatypes.S m)%nat with (Datatypes.S (5 + m)) in HK by lia. replace (4 + Datatypes.S m)%nat with (Datatypes.S (4 + m)) by lia.
    rewrite S_INR in *. rewrite IH by lra. rewrite med_dl by exact Hi.
    replace (5 + m)%nat with (Datatypes.S (4 + m)) in HK by lia. rewrite S_INR in HK. pose proof (pos_INR (4 + m)) as M0.
    rewrite (quarter _ (4 + (Z.of_nat (4 + m) + 1) * Z.of_nat i)).
    + ring.
    + lia.
    + rewrite plus_IZR, mult_IZR, plus_IZR, <- !INR_IZR_INZ. field.
    + assert ((INR (4 + m) + 1) * (INR i / 4) <= (INR (4 + m) + 1) * 1) by (apply Rmult_le_compat_l; lra). lra.
Qed.

Definition mup (m i : nat) : R := match m with O => 0 | _ => match i with 1%nat | 2%nat => 1 | 3%nat => 3 / 4 | _ => 0 end end.
Definition mdown (m i : nat) : R := match i with 1%nat | 3%nat => 3 / 4 | 2%nat => / 2 | _ => 0 end.

Lemma med_carries m : INR (5 + Datatypes.S m) <= K4 ->
  carries F qs (mup m) (mdown m) (D m) (mup (Datatypes.S m)) (mdown (Datatypes.S m)) (D (Datatypes.S m)).
Proof.
  intros HK. assert (HK' : INR (5 + m) <= K4) by (replace (5 + Datatypes.S m)%nat with (Datatypes.S (5 + m)) in HK by lia; rewrite S_INR in HK; lra).
  pose proof (fun i Hi => med_D m i Hi HK') as E0. pose proof (fun i Hi => med_D (Datatypes.S m) i Hi HK) as E1.
  replace (4 + Datatypes.S m)%nat with (Datatypes.S (4 + m)) in E1 by lia. rewrite S_INR in E1.
  change (parameter_length F qs) with 5%nat in *.
  assert (Q : forall i, INR (4 + m) * (INR i / 4) = IZR (Z.of_nat (4 + m) * Z.of_nat i) / 4) by (intros i; rewrite mult_IZR, <- !INR_IZR_INZ; field).
  assert (M : match m with O => INR (4 + m) = 4 | _ => 5 <= INR (4 + m) end).
  { destruct m; [cbn [INR Nat.add]; lra|]. change 5 with (IZR 5). rewrite INR_IZR_INZ. apply IZR_le. lia. }
  (* integer gaps *)
  assert (G4 : forall i z, (i < 5)%nat -> 1 + (INR (4 + m) + 1) * (INR i / 4) < IZR z ->
    1 + (INR (4 + m) + 1) * (INR i / 4) + / 4 <= IZR z).
  { intros i z Hi H. assert (E : 1 + (INR (4 + m) + 1) * (INR i / 4) = IZR (4 + Z.of_nat (5 + m) * Z.of_nat i) / 4).
    { rewrite plus_IZR, mult_IZR, <- !INR_IZR_INZ. replace (5 + m)%nat with (Datatypes.S (4 + m)) by lia. rewrite S_INR. field. }
    rewrite E in *. set (w := (4 + Z.of_nat (5 + m) * Z.of_nat i)%Z) in *.
    assert (IZR w < IZR (4 * z)) by (rewrite mult_IZR; lra). apply lt_IZR in H0.
    assert (IZR (w + 1) <= IZR (4 * z)) by (apply IZR_le; lia). rewrite mult_IZR, plus_IZR in H1. lra. }
  assert (G4' : forall i z, (i < 5)%nat -> IZR z < 1 + (INR (4 + m) + 1) * (INR i / 4) ->
    IZR z + / 4 <= 1 + (INR (4 + m) + 1) * (INR i / 4)).
  { intros i z Hi H. assert (E : 1 + (INR (4 + m) + 1) * (INR i / 4) = IZR (4 + Z.of_nat (5 + m) * Z.of_nat i) / 4).
    { rewrite plus_IZR, mult_IZR, <- !INR_IZR_INZ. replace (5 + m)%nat with (Datatypes.S (4 + m)) by lia. rewrite S_INR. field. }
    rewrite E in *. set (w := (4 + Z.of_nat (5 + m) * Z.of_nat i)%Z) in *.
    assert (IZR (4 * z) < IZR w) by (rewrite mult_IZR; lra). apply lt_IZR in H0.
    assert (IZR (4 * z + 1) <= IZR w) by (apply IZR_le; lia). rewrite plus_IZR, mult_IZR in H1. lra. }
  assert (G2 : forall z, IZR z < 1 + (INR (4 + m) + 1) * (2 / 4) -> IZR z + / 2 <= 1 + (INR (4 + m) + 1) * (2 / 4)).
  { intros z H. assert (E : 1 + (INR (4 + m) + 1) * (2 / 4) = IZR (2 + Z.of_nat (5 + m)) / 2).
    { rewrite plus_IZR, <- !INR_IZR_INZ. replace (5 + m)%nat with (Datatypes.S (4 + m)) by lia. rewrite S_INR. field. }
    rewrite E in *. set (w := (2 + Z.of_nat (5 + m))%Z) in *.
    assert (IZR (2 * z) < IZR w) by (rewrite mult_IZR; lra). apply lt_IZR in H0.
    assert (IZR (2 * z + 1) <= IZR w) by (apply IZR_le; lia). rewrite plus_IZR, mult_IZR in H1. lra. }
  assert (N : INR 0 = 0 /\ INR 1 = 1 /\ INR 2 = 2 /\ INR 3 = 3 /\ INR 4 = 4) by (cbn [INR]; repeat split; lra).
  destruct N as (N0 & N1 & N2 & N3 & N4).
  constructor; change (parameter_length F qs) with 5%nat.
  - rewrite (E0 0%nat), (E1 0%nat) by lia. rewrite N0. unfold mup, mdown. destruct m; repeat split; lra.
  - change (5 - 1)%nat with 4%nat. rewrite (E0 4%nat), (E1 4%nat) by lia. rewrite N4. unfold mup, mdown. destruct m; repeat split; lra.
  - intros i Hi. assert (C : i = 1%nat \/ i = 2%nat \/ i = 3%nat) by lia.
    pose proof (fun z => G4 i z ltac:(lia)) as G. rewrite <- (E1 i) in G by lia.
    rewrite (E0 i), (E0 (Datatypes.S i)), (E1 (Datatypes.S i)) by lia. 
    assert (U : forall j, mup (Datatypes.S m) j = match j with 1%nat | 2%nat => 1 | 3%nat => 3 / 4 | _ => 0 end) by reflexivity. rewrite U.
    destruct C as [-> |[-> | ->]]; (split; [lra|]; split; [|split; [|intros z Hz; specialize (G z Hz); lra]]);
      rewrite (E1 _) by lia; rewrite ?N1, ?N2, ?N3, ?N4; unfold mup; destruct m; lra.
  - intros i Hi. assert (C : i = 1%nat \/ i = 2%nat \/ i = 3%nat) by lia.
    pose proof (fun z => G4' i z ltac:(lia)) as G. rewrite (E0 i), (E1 i), (E1 (i - 1)%nat) by lia.
    destruct C as [-> |[-> | ->]]; cbn [Nat.sub]; unfold mdown; rewrite ?N1, ?N2, ?N3, ?N0 in *;
      (split; [lra|]; split; [lra|]; split; [destruct m; lra|]); intros z Hz; first [specialize (G z Hz); lra|specialize (G2 z Hz); lra].
Qed.

Variable P : F -> Prop.
Hypothesis HP : total_on F P.

Theorem median_tracks l : PsquareGeneric.fits F l -> Forall P l -> (5 <= length l)%nat -> INR (length l) <= K4 ->
  let n := INR (length l) in let p := posr (ps_positions F (st F qs l)) in
  n - 1 <= 4 * p 1%nat <= n + 6 /\ n - 1 <= 2 * p 2%nat <= n + 2 /\ 3 * n - 2 <= 4 * p 3%nat <= 3 * n + 4.
Proof.
  intros Hs Hf Hn HK n p. set (m := (length l - 5)%nat). assert (Em : (5 + m)%nat = length l) by (unfold m; lia).
  assert (Kall : forall j, (j <= m)%nat -> INR (5 + j) <= K4).
  { intros j Hj. apply Rle_trans with (2 := HK). apply le_INR. lia. }
  assert (N : INR 1 = 1 /\ INR 2 = 2 /\ INR 3 = 3 /\ INR 4 = 4) by (cbn [INR]; repeat split; lra).
  destruct N as (N1 & N2 & N3 & N4).
  pose proof (st_tracks F qs P HP mup mdown D m) as T.
  assert (T1 : forall i, (i < parameter_length F qs)%nat -> - mdown 0 i <= D 0 i - INR (Datatypes.S i) <= mup 0 i).
  { change (parameter_length F qs) with 5%nat. intros i Hi. rewrite (med_D 0 i Hi (Kall 0%nat ltac:(lia))).
    rewrite S_INR, Nat.add_0_r, N4. unfold mup, mdown. destruct i as [|[|[|[|[|i]]]]]; try lia; lra. }
  specialize (T T1 (fun j Hj => med_carries j (Kall (Datatypes.S j) ltac:(lia)))).
  assert (L5 : INR (parameter_length F qs) <= K).
  { change (parameter_length F qs) with (Datatypes.S 4). rewrite S_INR, N4. lra. }
  specialize (T (fun j Hj i Hi => signs_general F den rnd u K S qs rqs med_den med_sorted med_unit L5 (Datatypes.S j) i
    (Rle_trans _ _ _ (Kall (Datatypes.S j) ltac:(lia)) (proj2 K5)) ltac:(lia))).
  specialize (T l Hs Hf ltac:(change (parameter_length F qs) with 5%nat; lia)).
  change (parameter_length F qs) with 5%nat in T. fold m in T.
  assert (En : INR (4 + m) = n - 1).
  { unfold n. rewrite <- Em. replace (5 + m)%nat with (Datatypes.S (4 + m)) by lia. rewrite S_INR. lra. }
  assert (U : forall j, mup m j <= match j with 1%nat | 2%nat => 1 | 3%nat => 3 / 4 | _ => 0 end).
  { intros j. destruct m; cbn; [destruct j as [|[|[|[|j]]]]; lra|lra]. }
  pose proof (T 1%nat ltac:(change (parameter_length F qs) with 5%nat; lia)) as A1.
  pose proof (T 2%nat ltac:(change (parameter_length F qs) with 5%nat; lia)) as A2.
  pose proof (T 3%nat ltac:(change (parameter_length F qs) with 5%nat; lia)) as A3.
  rewrite med_D in A1, A2, A3 by (try lia; apply Kall; lia). rewrite En in *. rewrite ?N1, ?N2, ?N3 in *.
  pose proof (U 1%nat) as U1. pose proof (U 2%nat) as U2. pose proof (U 3%nat) as U3. cbn in U1, U2, U3. unfold mdown in *.
  fold (p 1%nat) in A1. fold (p 2%nat) in A2. fold (p 3%nat) in A3. lra.
Qed.
End Median.
