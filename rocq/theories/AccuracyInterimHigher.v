(** * Error bounds for interim skewness and kurtosis *)

From Coq Require Import Reals ZArith NArith Bool List Lra Lia Psatz.
From Flocq Require Import Core.
From Verif Require Import Arith History HistoryLemmas SpecStats StatsLemmas SpecBlocks BlockLemmas Buffer Cumulative
  CumulativeProofs CumulativeStats Window WindowProofs Interim InterimStats Approx AccuracyProofs AccuracyVariance AccuracyInterim.
Import ListNotations.
Local Open Scope R_scope.

Section Accuracy.
Context {F : num} {val : F -> R -> Prop} {B e t : R} {K : N}.
Hypothesis AP : approx F val B e t K.
Hypothesis V0 : val (nofsz 0) 0.

Local Notation He := (ap_e _ _ _ _ _ _ AP).
Local Notation Ht := (ap_t _ _ _ _ _ _ AP).
Local Notation within := (@within F val).

(** The weighted average; the current block counts once it has two values. *)
Lemma duo_stat_err {S : Type} (W : nat) (csize : S -> N) (cempty : S -> bool) (g : S -> F) (d : duo S) (s : nat) (p a E X : R) :
  (0 < W)%nat -> csize (active d) = N.of_nat s -> within (g (passive d)) p E X ->
  ((2 <= s)%nat -> within (g (active d)) a E X) -> cempty (passive d) = false ->
  (1 <= s <= W)%nat -> (2 * N.of_nat W < szmod)%N -> (2 * N.of_nat W <= K)%N ->
  8 * INR W * X + 5 * t <= B ->
  let wp := INR W - INR s + 1 in
  let wa := 2 * (INR s - 1) in
  exists r, val (duo_stat F (N.of_nat W) csize cempty g d) r /\
    Rabs (r - (wp * p + wa * a) / (wp + wa)) <= E + 7 * (e * X) + 11 * t.
Proof.
  intros HW Hs Hp Ha Hne Hb H2 HK HB wp wa. pose proof He as [E0 E1]. pose proof Ht as T0.
  unfold duo_stat. rewrite Hne, Hs.
  destruct Hp as (pv & Vp & Ep & Xp).
  assert (X0 : 0 <= X) by (eapply Rle_trans; [apply Rabs_pos|exact Xp]).
  assert (EX : 0 <= e * X) by (apply Rmult_le_pos; lra).
  assert (I1 : 1 <= INR s <= INR W) by (split; [apply (le_INR 1)|apply le_INR]; lia).
  destruct (N.leb_spec (N.of_nat s) 1) as [H3|H3].
  { assert (s = 1%nat) by lia. subst s. exists pv. split; [exact Vp|].
    replace ((wp * p + wa * a) / (wp + wa)) with p; [lra|].
    unfold wp, wa. change (INR 1) with 1. cbn in I1. field. lra. }
  destruct (Ha ltac:(lia)) as (av & Va & Ea & Xa).
  rewrite (szsub_small (N.of_nat s) 1) by (unfold szmod in *; lia).
  rewrite (szsub_small (N.of_nat W)) by (unfold szmod in *; lia).
  rewrite szmul_small by lia. rewrite szadd_small by lia.
  assert (C1 : IZR (Z.of_N (N.of_nat W - (N.of_nat s - 1))) = wp).
  { replace (N.of_nat W - (N.of_nat s - 1))%N with (N.of_nat (W - (s - 1))) by lia. rewrite inr_count.
    rewrite (minus_INR W (s - 1)), (minus_INR s 1) by lia. cbn [INR]. unfold wp. ring. }
  assert (C2 : IZR (Z.of_N (2 * (N.of_nat s - 1))) = wa).
  { replace (N.of_nat s - 1)%N with (N.of_nat (s - 1)) by lia.
    rewrite N2Z.inj_mul, mult_IZR, inr_count, (minus_INR s 1) by lia. reflexivity. }
  assert (C3 : IZR (Z.of_N (N.of_nat W - (N.of_nat s - 1) + 2 * (N.of_nat s - 1))) = wp + wa).
  { rewrite N2Z.inj_add, plus_IZR, C1, C2. reflexivity. }
  pose proof (weight_val AP V0 (N.of_nat W - (N.of_nat s - 1)) ltac:(lia)) as V1. rewrite C1 in V1.
  pose proof (weight_val AP V0 (2 * (N.of_nat s - 1)) ltac:(lia)) as V2. rewrite C2 in V2.
  pose proof (weight_val AP V0 (N.of_nat W - (N.of_nat s - 1) + 2 * (N.of_nat s - 1)) ltac:(lia)) as V3. rewrite C3 in V3.
  assert (P1 : 1 <= wp) by (unfold wp; lra).
  assert (P2 : 0 <= wa) by (unfold wa; lra).
  assert (P3 : wp + wa <= 2 * INR W) by (unfold wp, wa; lra).
  assert (P4 : (wp + wa) * X <= 2 * INR W * X) by (apply Rmult_le_compat_r; assumption).
  assert (P5 : 0 <= wp * X) by (apply Rmult_le_pos; lra).
  assert (P6 : 0 <= wa * X) by (apply Rmult_le_pos; lra).
  destruct (ap_mul _ _ _ _ _ _ AP _ _ _ _ V1 Vp) as (r1 & Vr1 & Nr1).
  { rewrite Rabs_mult, (Rabs_pos_eq wp) by lra.
    apply Rle_trans with (wp * X); [apply Rmult_le_compat_l; lra|]. lra. }
  destruct (ap_mul _ _ _ _ _ _ AP _ _ _ _ V2 Va) as (r2 & Vr2 & Nr2).
  { rewrite Rabs_mult, (Rabs_pos_eq wa) by lra.
    apply Rle_trans with (wa * X); [apply Rmult_le_compat_l; lra|]. lra. }
  rewrite Rmult_comm in Nr1, Nr2.
  destruct (wavg_err AP _ _ _ pv av wp wa X r1 r2 Vr1 Nr1 Vr2 Nr2 V3) as (r & Vr & Er);
    try assumption; try lra.
  exists r. split; [exact Vr|].
  pose proof (wavg_diff pv av p a wp wa E Ep Ea ltac:(lra) ltac:(lra) ltac:(lra)) as Df.
  rewrite (Rmult_comm wp p), (Rmult_comm wa a).
  set (x := (pv * wp + av * wa) / (wp + wa)) in *.
  set (y := (p * wp + a * wa) / (wp + wa)) in *.
  replace (r - y) with ((r - x) + (x - y)) by ring. eapply Rle_trans; [apply Rabs_triang|]. lra.
Qed.

(** Both blocks. *)
Lemma duo_stat_accuracy {S A : Type} (W : nat) (l : list A)
  (cpush : S -> A -> S) (cinit : S) (csize : S -> N) (cempty : S -> bool) (g : S -> F) (v : list A -> R) (E X : R) :
  (0 < W)%nat -> l <> [] -> (2 * N.of_nat W < szmod)%N -> (2 * N.of_nat W <= K)%N -> 8 * INR W * X + 5 * t <= B ->
  (forall c, (length c <= W)%nat -> csize (fold_left cpush c cinit) = N.of_nat (length c)) ->
  (forall s, cempty s = N.eqb (csize s) 0) ->
  ((W < length l)%nat -> within (g (fold_left cpush (prev_block W l) cinit)) (v (prev_block W l)) E X) ->
  ((length l <= W)%nat \/ (2 <= length (cur_block W l))%nat ->
    within (g (fold_left cpush (cur_block W l) cinit)) (v (cur_block W l)) E X) ->
  let s := INR (length (cur_block W l)) in
  let wp := INR W - s + 1 in
  let wa := 2 * (s - 1) in
  exists r, val (duo_stat F (N.of_nat W) csize cempty g
      (Duo (fold_left cpush (cur_block W l) cinit) (fold_left cpush (prev_block W l) cinit))) r /\
    ((length l <= W)%nat -> Rabs (r - v l) <= E) /\
    ((W < length l)%nat -> Rabs (r - (wp * v (prev_block W l) + wa * v (cur_block W l)) / (wp + wa)) <= E + 7 * (e * X) + 11 * t).
Proof.
  intros HW NE HS HK HB Hsz Hem Hp Hc s wp wa.
  pose proof (cur_block_le W HW l) as Lc. pose proof (prev_block_le W HW l) as Lp.
  pose proof (cur_block_pos W HW l NE) as Pc.
  destruct (Nat.le_gt_cases (length l) W) as [H|H].
  - destruct (short_blocks W HW l H) as [E1' E2']. specialize (Hc (or_introl H)). rewrite E1' in Hc. rewrite E1', E2'.
    unfold duo_stat. cbn [active passive]. rewrite Hem, Hsz by (cbn; lia). cbn [length N.of_nat N.eqb].
    destruct Hc as (r & Vr & Er & _). exists r. split; [exact Vr|]. split; [|lia]. intros _. exact Er.
  - pose proof (long_prev W HW l H) as Lq.
    destruct (duo_stat_err W csize cempty g
      (Duo (fold_left cpush (cur_block W l) cinit) (fold_left cpush (prev_block W l) cinit))
      (length (cur_block W l)) (v (prev_block W l)) (v (cur_block W l)) E X) as (r & Vr & Er); try assumption.
    + cbn [active]. apply Hsz. lia.
    + exact (Hp H).
    + intros G. exact (Hc (or_intror G)).
    + cbn [passive]. rewrite Hem, Hsz by lia. apply N.eqb_neq. lia.
    + lia.
    + exists r. split; [exact Vr|]. split; [lia|]. intros _. exact Er.
Qed.
End Accuracy.
