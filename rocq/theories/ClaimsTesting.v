(** * Claim C79: the comparison helpers of the test header *)

From Coq Require Import NArith ZArith List Bool Arith.
From Verif Require Import LightweightTest SpecReport.
Import ListNotations.
(* @end-header *)
From Coq Require Import Lia.

Section Loop.
Context {A B : Type}.
Variable p : A -> B -> bool.

Lemma skip_equal_spec : forall (l : list A) (m : list B) i, exists l' m' k,
  skip_equal p l m i i = (l', m', k, k) /\
  k + length l' = i + length l /\ k + length m' = i + length m /\ length l' <= length l /\
  differences p k l' m' = differences p i l m /\
  match l', m' with a :: _, b :: _ => p a b = false | _, _ => True end.
Proof.
  induction l as [|a l IH]; intros [|b m] i; cbn [skip_equal];
    try (eexists _, _, _; split; [reflexivity|]; repeat split; reflexivity).
  destruct (p a b) eqn:E.
  - destruct (IH m (S i)) as (l' & m' & k & E1 & L1 & L2 & L3 & D & H).
    exists l', m', k. split; [exact E1|]. cbn [length differences]. rewrite E.
    repeat split; try lia; assumption.
  - eexists _, _, _. split; [reflexivity|]. repeat split; [|exact E]. lia.
Qed.

Definition show (d : nat * A * B) : message A B :=
  let '(i, a, b) := d in Differs i a b.

(** What the rest of the loop prints after [c] reported differences. *)
Definition rest (c : nat) (d : list (nat * A * B)) : list (message A B) :=
  (if Nat.eqb c 0 then match d with [] => [] | _ :: _ => [Contents] end else [])
  ++ map show (firstn (8 - c) d) ++ (if Nat.ltb (8 - c) (length d) then [Ellipsis] else []).

Lemma rest_nil c : rest c [] = [].
Proof.
  unfold rest. rewrite firstn_nil.
  destruct (Nat.eqb c 0); destruct (Nat.ltb_spec (8 - c) (@length (nat * A * B) [])) as [X|X];
    cbn in *; (lia || reflexivity).
Qed.

Lemma rest_cons c i a b d : c < 8 ->
  rest c ((i, a, b) :: d) =
  (if Nat.eqb c 0 then [Contents] else []) ++ Differs i a b :: rest (S c) d.
Proof.
  intros H. unfold rest. replace (8 - c) with (S (8 - S c)) by lia. cbn [firstn map length show].
  replace (Nat.ltb (S (8 - S c)) (S (length d))) with (Nat.ltb (8 - S c) (length d)).
  2:{ destruct (Nat.ltb_spec (8 - S c) (length d)), (Nat.ltb_spec (S (8 - S c)) (S (length d))); (lia || reflexivity). }
  replace (Nat.eqb (S c) 0) with false by reflexivity. reflexivity.
Qed.

Lemma loop_spec : forall fuel l m i c out, length l < fuel -> c <= 8 ->
  let d := differences p i l m in
  exists l' m' k,
    scan_loop p fuel (Scan l m i i c out)
    = Some (Scan l' m' k k (c + Nat.min (8 - c) (length d)) (out ++ rest c d)) /\
    k + length l' = i + length l /\ k + length m' = i + length m.
Proof.
  induction fuel as [|fuel IH]; intros l m i c out Hf Hc; [lia|].
  cbn zeta. cbn [scan_loop first_it second_it first_index second_index error_count output].
  destruct (skip_equal_spec l m i) as (l' & m' & k & E & L1 & L2 & L3 & D & H).
  rewrite E, <- D. clear E D.
  destruct l' as [|a l'].
  { exists [], m', k. cbn [differences length]. rewrite Nat.min_0_r, Nat.add_0_r, rest_nil, app_nil_r.
    repeat split; assumption. }
  destruct m' as [|b m'].
  { exists (a :: l'), [], k. cbn [differences length]. rewrite Nat.min_0_r, Nat.add_0_r, rest_nil, app_nil_r.
    repeat split; assumption. }
  cbn [differences]. rewrite H. cbn [length] in L1, L2, L3.
  destruct (Nat.eq_dec c 8) as [->|N].
  - exists (a :: l'), (b :: m'), k. cbn. repeat split; cbn; lia.
  - assert (T : andb (negb (Nat.eqb c 0)) (Nat.leb max_count c) = false).
    { unfold max_count. destruct (Nat.eqb c 0); [reflexivity|]. cbn [negb andb].
      apply Nat.leb_gt. lia. }
    rewrite T, rest_cons by lia. cbn [length].
    replace (c + Nat.min (8 - c) (S (length (differences p (S k) l' m'))))
      with (S c + Nat.min (8 - S c) (length (differences p (S k) l' m'))) by lia.
    destruct l' as [|a' l''].
    + exists [], m', (S k). cbn [differences length]. rewrite Nat.min_0_r, Nat.add_0_r, rest_nil.
      rewrite app_assoc. repeat split; cbn in *; lia.
    + destruct (IH (a' :: l'') m' (S k) (S c)
        (out ++ (if Nat.eqb c 0 then [Contents] else []) ++ [Differs k a b]))
        as (l3 & m3 & k3 & E3 & M1 & M2); [cbn in *; lia|lia|].
      exists l3, m3, k3. split; [|cbn in *; lia].
      rewrite E3, <- !app_assoc. reflexivity.
Qed.

Lemma no_differences : forall l m i,
  differences p i l m = [] /\ length l = length m <-> matching p l m.
Proof.
  induction l as [|a l IH]; intros [|b m] i; cbn; unfold matching in *.
  - split; [constructor|split; reflexivity].
  - split; [intros [_ H]; discriminate|intros H; inversion H].
  - split; [intros [_ H]; discriminate|intros H; inversion H].
  - split.
    + destruct (p a b) eqn:E; intros [D L]; [|discriminate].
      constructor; [exact E|]. apply (IH m (S i)). split; [exact D|lia].
    + intros H; inversion H as [|? ? ? ? Hp Hr]; subst. rewrite Hp.
      apply (IH m (S i)) in Hr. destruct Hr as [D L]. split; [exact D|lia].
Qed.
End Loop.

(** ** C79 *)

(** @prop C79_report: comparing two ranges always ends; it prints a heading, the
    first eight positions at which the ranges differ, with the elements, in
    order, and dots if there are more; then both sizes if they differ. *)
Lemma c79_report : forall (A B : Type) (v : N) (p : A -> B -> bool) (l : list A) (m : list B) (e : N),
  let d := differences p 0 l m in
  exists e', test_all v p l m e =
    Some ((match d with [] => [] | _ :: _ => [Contents] end)
          ++ map (fun x => Differs (fst (fst x)) (snd (fst x)) (snd x)) (firstn 8 d)
          ++ (if Nat.ltb 8 (length d) then [Ellipsis] else [])
          ++ (if Nat.eqb (length l) (length m) then []
              else match d with
                   | [] => [Sizes (length l) (length m)]
                   | _ :: _ => [SizesToo (length l) (length m)]
                   end), e').
Proof.
  intros A B v p l m e d. unfold test_all.
  destruct (loop_spec p (S (length l)) l m 0 0 []) as (l' & m' & k & E & L1 & L2); [lia|lia|].
  fold d in E. rewrite E. cbn [first_it second_it first_index second_index error_count output].
  rewrite L1, L2. cbn [plus app]. eexists. f_equal. f_equal. unfold rest. cbn [Nat.eqb Nat.sub].
  rewrite <- !app_assoc. f_equal. f_equal; [apply map_ext; intros [[i a] b]; reflexivity|]. f_equal.
  destruct (Nat.eqb (length l) (length m)); [reflexivity|]. cbn [negb]. destruct d; reflexivity.
Qed.

(** @ex C79_report_ex: nine differences and different sizes. *)
Lemma c79_report_ex :
  let l := repeat 1%Z 9 in let m := repeat 2%Z 12 in
  length (differences Z.eqb 0 l m) = 9 /\ Nat.eqb (length l) (length m) = false /\
  test_all 106700 Z.eqb [1; 2; 3]%Z [1; 5]%Z 0%N
  = Some ([Contents; Differs 1 2%Z 5%Z; SizesToo 3 2], 1%N).
Proof. repeat split; vm_compute; reflexivity. Qed.

(** @prop C79_verdict: something is printed exactly if the ranges do not match
    element by element, different lengths included.  Before Boost 1.68 exactly
    then, too, the failure is counted, once. *)
Lemma c79_verdict : forall (A B : Type) (v : N) (p : A -> B -> bool) (l : list A) (m : list B) (e : N),
  exists out e', test_all v p l m e = Some (out, e') /\
    (out = [] <-> matching p l m) /\
    (matching p l m -> e' = e) /\
    ((v < 106800)%N -> ~ matching p l m -> e' = N.succ e).
Proof.
  intros A B v p l m e. pose proof (no_differences p l m 0) as M. unfold test_all.
  destruct (loop_spec p (S (length l)) l m 0 0 []) as (l' & m' & k & E & L1 & L2); [lia|lia|].
  rewrite E. cbn [first_it second_it first_index second_index error_count output].
  rewrite L1, L2. cbn [plus app]. rewrite Nat.sub_0_r.
  eexists _, _. split; [reflexivity|].
  destruct (differences p 0 l m) as [|[[i a] b] d] eqn:D.
  - rewrite rest_nil. cbn [length Nat.min app].
    destruct (Nat.eqb_spec (length l) (length m)) as [Q|Q]; cbn [negb Nat.eqb].
    + assert (H : matching p l m) by (apply M; split; [reflexivity|exact Q]).
      repeat split; intros; try reflexivity; try exact H; contradiction.
    + assert (H : ~ matching p l m) by (intros K; apply M in K; destruct K; contradiction).
      repeat split; intros K; try discriminate; try contradiction.
      intros _. unfold test_failure. rewrite (proj2 (N.leb_gt _ _) K). reflexivity.
  - assert (H : ~ matching p l m) by (intros K; apply M in K; destruct K; discriminate).
    rewrite rest_cons by lia. cbn [Nat.eqb app length].
    replace (Nat.eqb (if negb (Nat.eqb (length l) (length m)) then S (Nat.min 8 (S (length d)))
              else Nat.min 8 (S (length d))) 0) with false.
    2:{ symmetry; apply Nat.eqb_neq. destruct (negb _); lia. }
    repeat split; intros K; try discriminate; try contradiction.
    intros _. unfold test_failure. rewrite (proj2 (N.leb_gt _ _) K). reflexivity.
Qed.

(** @ex C79_verdict_ex: [1, 2] matches itself but not [1, 3] and not [1]. *)
Lemma c79_verdict_ex :
  matching Z.eqb [1; 2]%Z [1; 2]%Z /\ ~ matching Z.eqb [1; 2]%Z [1; 3]%Z /\
  ~ matching Z.eqb [1; 2]%Z [1]%Z /\ (106700 < 106800)%N.
Proof.
  unfold matching. repeat split.
  - repeat constructor.
  - intros H. inversion H as [|? ? ? ? _ H']; subst. inversion H' as [|? ? ? ? H'' _]; discriminate.
  - intros H. inversion H as [|? ? ? ? _ H']; subst. inversion H'.
Qed.

(** @prop C79_single: TRIAL_TEST_WITH prints a message exactly if the predicate
    fails; with Boost before 1.68 the counter of failed checks goes up by one
    exactly then and otherwise stays as it was. *)
Lemma c79_single : forall (A : Type) (v : N) (p : A -> A -> bool) (x y : A) (e : N),
  (fst (test_with v p x y e) = true <-> p x y = false) /\
  ((v < 106800)%N ->
   snd (test_with v p x y e) = if p x y then e else N.succ e).
Proof.
  intros A v p x y e; unfold test_with, test_failure, test_success.
  destruct (p x y); cbn [fst snd]; (split; [split; congruence|]); intros H; [reflexivity|].
  apply N.leb_gt in H; rewrite H; reflexivity.
Qed.

(** @ex C79_single_ex: 1 against 2 and 3 against 3 under Boost 1.67. *)
Lemma c79_single_ex :
  (106700 < 106800)%N /\
  test_with 106700 Z.eqb 1%Z 2%Z 0%N = (true, 1%N) /\ test_with 106700 Z.eqb 3%Z 3%Z 0%N = (false, 0%N).
Proof. repeat split. Qed.

(** @prop C79_counted_refuted: with Boost 1.68 or later no failure is counted: a
    check whose predicate fails leaves the counter, and with it the exit status
    of the test program, as it was. *)
Lemma c79_counted_refuted :
  (forall (A : Type) (v : N) (p : A -> A -> bool) (x y : A) (e : N),
     (106800 <= v)%N -> snd (test_with v p x y e) = e) /\
  (exists (v : N) (p : Z -> Z -> bool) (x y : Z) (e : N),
     (106800 <= v)%N /\ p x y = false /\ test_with v p x y e = (true, e)).
Proof.
  split.
  - intros A v p x y e H. unfold test_with, test_failure, test_success.
    destruct (p x y); [reflexivity|]. cbn. rewrite (proj2 (N.leb_le _ _) H). reflexivity.
  - exists 107400%N, Z.eqb, 1%Z, 2%Z, 0%N. repeat split. discriminate.
Qed.
