(** * The P-square estimator with fused multiply-adds *)

From Coq Require Import Reals ZArith NArith Bool List Lia Lra Sorting.Sorted Sorting.Permutation.
From Flocq Require Import Core.
From Verif Require Import Arith History HistoryLemmas Psquare PsquareLemmas PsquareGeneric SpecOrder SpecPsquare
  Rounded RoundedProofs ApproxInstances CorrectRounding PsquareFloat PsquareOrdered PsquareFew
  Contracted ContractedPsquare ContractedStep ContractedPsquareRuns.
Import ListNotations.
Local Open Scope R_scope.

Section Fused.
Variables emin prec : Z.
Hypothesis prec8 : (8 <= prec)%Z.
Hypothesis emin34 : (emin <= -34)%Z.
Variable F : num.
Variable U : fused F.
Variable val : F -> R -> Prop.
Variable B : R.
Hypothesis C : correct F val emin prec B.
Local Lemma prec_pos : (0 < prec)%Z. Proof. lia. Qed.
Local Lemma emin_neg : (emin <= 0)%Z. Proof. lia. Qed.
Local Instance precgt6 : Prec_gt_0 prec := prec_pos.
Notation fexp := (FLT_exp emin prec).
Notation fmt := (generic_format radix2 fexp).
Notation rnd := (rounding emin prec ZnearestE).
Notation sel := (sel emin prec).
(** The fused operation rounds once. *)
Hypothesis fma_ok : forall x y z a b c, val x a -> val y b -> val z c -> Rabs (a * b + c) <= B ->
  val (fma U x y z) (rnd (a * b + c)).
Variable k : Z.
Hypothesis k_emin : (emin <= k)%Z.
Hypothesis k_B : bpow radix2 (k + 30) <= B.
Hypothesis one_B : 1 <= B.
Notation heights_are := (heights_are F val k).
Notation vb := (vb F val).

Lemma vb_fma x y z a b c i j : (emin <= i + j + 1)%Z -> (i + j + 1 <= k + 30)%Z ->
  vb x a i -> vb y b j -> vb z c (i + j) -> vb (fma U x y z) (rnd (a * b + c)) (i + j + 1).
Proof.
  intros H0 H1 [X Xa] [Y Ya] [Zv Zc].
  assert (T : Rabs (a * b + c) <= bpow radix2 (i + j + 1)).
  { rewrite bpow_S. apply Rle_trans with (1 := Rabs_triang _ _).
    assert (Rabs (a * b) <= bpow radix2 (i + j)).
    { rewrite Rabs_mult, bpow_plus. apply Rmult_le_compat; try apply Rabs_pos; assumption. }
    lra. }
  split.
  - apply fma_ok; [exact X|exact Y|exact Zv|]. apply Rle_trans with (1 := T).
    apply Rle_trans with (2 := k_B). apply bpow_le. exact H1.
  - apply (rbound emin prec); [assumption|exact H0|exact T].
Qed.

Lemma parabolic_fma_val first p h r i (s : Z) :
  heights_are h r -> increasing p -> length h = length p ->
  (pat p (length p - 1) <= 134217728)%N -> (Z.of_N (pat p (length p - 1)) <= 2 ^ prec)%Z ->
  (0 < i)%nat -> (S i < length p)%nat -> s = 1%Z \/ s = (-1)%Z ->
  let f := (pat p (i + 1) - pat p i)%N in
  let g := (pat p i - pat p (i - 1))%N in
  (s = 1%Z -> (1 < f)%N) -> (s = (-1)%Z -> (1 < g)%N) ->
  let a := r (i - 1)%nat in let c := r i in let b := r (i + 1)%nat in
  let fr := IZR (Z.of_N f) in let gr := IZR (Z.of_N g) in
  val (psq_parabolic_fma F U first p h i s)
    (rnd (rnd (IZR s / (fr + gr)) *
       rnd (sel first ((gr + IZR s) * rnd (rnd (b - c) / fr)) +
            sel (negb first) ((fr - IZR s) * rnd (rnd (c - a) / gr))) + c)).
Proof.
  intros Hh Hi Hl Hb Hp H0 H1 Hs f g Hf Hg a c b fr gr.
  assert (Pm : forall j, (j < length p)%nat -> (pat p j <= pat p (length p - 1))%N).
  { intros j Hj. destruct (Nat.eq_dec j (length p - 1)) as [->|N]; [lia|].
    pose proof (increasing_lt p j (length p - 1) Hi ltac:(lia) ltac:(lia)). lia. }
  pose proof (Pm (i + 1)%nat ltac:(lia)) as P1.
  assert (L1 : (pat p i < pat p (i + 1))%N) by (apply increasing_lt; [exact Hi|lia|lia]).
  assert (L2 : (pat p (i - 1) < pat p i)%N) by (apply increasing_lt; [exact Hi|lia|lia]).
  assert (M : (134217728 < szmod)%N) by reflexivity.
  set (n := pat p (length p - 1)) in *.
  assert (Ef : szsub (pat p (i + 1)) (pat p i) = f) by (apply szsub_small; lia).
  assert (Eg : szsub (pat p i) (pat p (i - 1)) = g) by (apply szsub_small; lia).
  assert (Et : szsub (pat p (i + 1)) (pat p (i - 1)) = (f + g)%N).
  { rewrite szsub_small by lia. unfold f, g. lia. }
  destruct Hh as [Hv Hm].
  destruct (Hv (i - 1)%nat ltac:(lia)) as [Va Ba].
  destruct (Hv i ltac:(lia)) as [Vc Bc].
  destruct (Hv (i + 1)%nat ltac:(lia)) as [Vb Bb].
  fold a in Va, Ba. fold c in Vc, Bc. fold b in Vb, Bb.
  assert (Hfg : (1 <= f)%N /\ (1 <= g)%N /\ (f + g <= n)%N).
  { unfold f, g. pose proof (Pm (i - 1)%nat ltac:(lia)). lia. }
  destruct Hfg as (F1 & G1 & FG).
  assert (IX : forall m, (m <= n)%N -> vb (nofsz m) (IZR (Z.of_N m)) 27).
  { intros m Hm'. apply (ofsz_exact emin prec prec8 emin34 F val B C); lia. }
  assert (fr1 : 1 <= fr) by (unfold fr; apply IZR_le; lia).
  assert (gr1 : 1 <= gr) by (unfold gr; apply IZR_le; lia).
  unfold psq_parabolic_fma. rewrite Ef, Eg, Et.
  assert (Al : exists m, szadd g (sz_of_int s) = m /\ (m <= n)%N /\ IZR (Z.of_N m) = gr + IZR s).
  { destruct Hs as [->| ->].
    - exists (g + 1)%N. rewrite sz_of_int_1, szadd_small by lia. split; [reflexivity|]. split; [lia|].
      unfold gr. rewrite <- plus_IZR. f_equal. lia.
    - exists (g - 1)%N. rewrite szadd_m1 by (specialize (Hg eq_refl); lia). split; [reflexivity|]. split; [lia|].
      unfold gr. rewrite <- plus_IZR. f_equal. specialize (Hg eq_refl); lia. }
  assert (Be : exists m, szsub f (sz_of_int s) = m /\ (m <= n)%N /\ IZR (Z.of_N m) = fr - IZR s).
  { destruct Hs as [->| ->].
    - exists (f - 1)%N. rewrite sz_of_int_1, szsub_small by lia. split; [reflexivity|]. split; [lia|].
      unfold fr. rewrite <- minus_IZR. f_equal. lia.
    - exists (f + 1)%N. rewrite szsub_m1 by lia. split; [reflexivity|]. split; [lia|].
      unfold fr. rewrite <- minus_IZR. f_equal. lia. }
  destruct Al as (ma & -> & Ma & <-). destruct Be as (mb & -> & Mb & <-).
  assert (Et' : fr + gr = IZR (Z.of_N (f + g))) by (unfold fr, gr; rewrite <- plus_IZR; f_equal; lia).
  rewrite Et'.
  destruct (IX (f + g)%N ltac:(lia)) as [Vt _].
  destruct (IX f ltac:(lia)) as [Vf _]. destruct (IX g ltac:(lia)) as [Vg _].
  pose proof (IX ma Ma) as Vma. pose proof (IX mb Mb) as Vmb.
  assert (Sv : vb (nofz s) (IZR s) 0).
  { split; [apply (co_ofz _ _ _ _ _ C); destruct Hs; lia|].
    rewrite <- abs_IZR. change (bpow radix2 0) with 1. apply IZR_le. destruct Hs; lia. }
  assert (Rv : vb (ndiv (nofz s) (nofsz (f + g))) (rnd (IZR s / IZR (Z.of_N (f + g)))) 0).
  { destruct Sv as [Sv Sb].
    assert (T1 : 1 <= IZR (Z.of_N (f + g))) by (apply IZR_le; lia).
    assert (T : Rabs (IZR s / IZR (Z.of_N (f + g))) <= 1).
    { unfold Rdiv. rewrite Rabs_mult, (Rabs_pos_eq (/ _)) by (apply Rlt_le, Rinv_0_lt_compat; lra).
      change (bpow radix2 0) with 1 in Sb.
      rewrite <- (Rmult_1_r 1). apply Rmult_le_compat; try apply Rabs_pos; try exact Sb.
      - apply Rlt_le, Rinv_0_lt_compat; lra.
      - rewrite <- Rinv_1. apply Rinv_le; lra. }
    split; [apply (co_div _ _ _ _ _ C); [exact Sv|exact Vt|lra|]|apply (rbound emin prec); [assumption|lia|exact T]]. lra. }
  assert (VX : vb (ndiv (nsub (hat F h (i + 1)) (hat F h i)) (nofsz f)) (rnd (rnd (b - c) / fr)) (k + 1)).
  { eapply vb_div; try eassumption; [lia|lia|].
    eapply vb_sub; try eassumption; [lia|lia|split; assumption|split; assumption]. }
  assert (VY : vb (ndiv (nsub (hat F h i) (hat F h (i - 1))) (nofsz g)) (rnd (rnd (c - a) / gr)) (k + 1)).
  { eapply vb_div; try eassumption; [lia|lia|].
    eapply vb_sub; try eassumption; [lia|lia|split; assumption|split; assumption]. }
  assert (VS : vb (if first then fma U (nofsz ma) (ndiv (nsub (hat F h (i + 1)) (hat F h i)) (nofsz f))
                       (nmul (nofsz mb) (ndiv (nsub (hat F h i) (hat F h (i - 1))) (nofsz g)))
                   else fma U (nofsz mb) (ndiv (nsub (hat F h i) (hat F h (i - 1))) (nofsz g))
                       (nmul (nofsz ma) (ndiv (nsub (hat F h (i + 1)) (hat F h i)) (nofsz f))))
     (rnd (sel first (IZR (Z.of_N ma) * rnd (rnd (b - c) / fr)) +
           sel (negb first) (IZR (Z.of_N mb) * rnd (rnd (c - a) / gr)))) (27 + (k + 1) + 1)).
  { destruct first; cbn [negb ContractedStep.sel].
    - apply vb_fma; [lia|lia|exact Vma|exact VX|].
      eapply vb_mul; try eassumption; lia.
    - rewrite Rplus_comm. apply vb_fma; [lia|lia|exact Vmb|exact VY|].
      eapply vb_mul; try eassumption; lia. }
  apply (vb_fma _ _ _ _ _ _ 0 (27 + (k + 1) + 1)); [lia|lia|exact Rv|exact VS|].
  split; [exact Vc|]. apply Rle_trans with (1 := Bc). apply bpow_le. lia.
Qed.

Lemma parabola_fma first : parabola_ok emin prec F val k (psq_parabolic_fma F U first).
Proof.
  intros p h r i s Hh Hi Hl Hb Hp H0 H1 Hs Hf Hg.
  eexists. split; [apply (parabolic_fma_val first p h r i s Hh Hi Hl Hb Hp H0 H1 Hs Hf Hg)|].
  intros -> K HK. specialize (Hg eq_refl). clear Hf Hs.
  assert (Pm : (pat p (i + 1) <= pat p (length p - 1))%N).
  { destruct (Nat.eq_dec (i + 1) (length p - 1)) as [->|N]; [lia|].
    pose proof (increasing_lt p (i + 1) (length p - 1) Hi ltac:(lia) ltac:(lia)). lia. }
  assert (L1 : (pat p i < pat p (i + 1))%N) by (apply increasing_lt; [exact Hi|lia|lia]).
  pose proof Hh as [Hv _].
  destruct (Hv (i - 1)%nat ltac:(lia)) as [Va _]. destruct (Hv i ltac:(lia)) as [Vc _].
  destruct (Hv (i + 1)%nat ltac:(lia)) as [Vb _].
  assert (Hac : r (i - 1)%nat <= r i) by (apply (heights_le F val k h); [exact Hh|lia|lia]).
  assert (Hcb : r i <= r (i + 1)%nat) by (apply (heights_le F val k h); [exact Hh|lia|lia]).
  set (fr := IZR (Z.of_N (pat p (i + 1) - pat p i))) in *.
  set (gr := IZR (Z.of_N (pat p i - pat p (i - 1)))) in *.
  assert (DS := down_step_fused emin prec prec8 emin34 first (negb first) true (r (i - 1)%nat) (r i) (r (i + 1)%nat) fr gr K
     (co_fmt _ _ _ _ _ C _ _ Va) (co_fmt _ _ _ _ _ C _ _ Vc) (co_fmt _ _ _ _ _ C _ _ Vb) Hac Hcb
     ltac:(unfold fr; apply IZR_le; lia) ltac:(unfold gr; apply IZR_le; lia)
     ltac:(unfold fr, gr; rewrite <- plus_IZR; change (bpow radix2 27) with (IZR 134217728); apply IZR_le; lia) HK).
  cbv zeta in DS. cbn [ContractedStep.sel] in DS.
  replace (-1 / (fr + gr)) with (- (1 / (fr + gr))) by (unfold Rdiv; ring).
  replace (gr + -1) with (gr - 1) by ring. replace (fr - -1) with (fr + 1) by ring.
  rewrite rnd_opp, Ropp_mult_distr_l_reverse, (Rplus_comm (- _)).
  exact DS.
Qed.

Variable qs : list F.
Notation L := (parameter_length F qs).
Notation stf first := (stw F (psq_parabolic_fma F U first) qs).

Lemma fused_heights first l vs : room prec (length l) -> Forall2 val l vs ->
  Forall (fun v => Rabs v <= bpow radix2 k) vs -> (L <= length l)%nat ->
  exists hs, Forall2 val (ps_heights F (stf first l)) hs /\ StronglySorted Rle hs /\
    Forall (fun h => in_hull h vs) hs.
Proof.
  intros. eapply with_float_heights; try eassumption. apply parabola_fma.
Qed.

(** 1 is a normal number. *)
Hypothesis normal : (emin + prec <= 0)%Z.
Hypothesis big_B : bpow radix2 30 <= B.
Notation u := (bpow radix2 (- prec)).

Lemma few_value_fma l vs i q w : nth_error qs i = Some q -> val q w -> 0 <= w <= 1 - 8 * u ->
  room prec (length l) -> Forall2 val l vs ->
  Forall (fun v => Rabs v <= bpow radix2 k) vs -> (2 <= length l <= L)%nat ->
  exists os, order_statistics vs os /\
  let rank := rnd (IZR (Z.of_nat (length l) - 1) * w) in
  let a := nth (Z.to_nat (Zfloor rank)) os 0 in
  let b := nth (Z.to_nat (Zfloor (rnd (rank + 1)))) os 0 in
  (0 <= Zfloor rank)%Z /\ (Zfloor rank < Zfloor (rnd (rank + 1)) < Z.of_nat (length l))%Z /\
  fmt (rank - IZR (Zfloor rank)) /\ fmt a /\ fmt b /\ a <= b /\
  exists x, psq_get_fma F U qs (st F qs l) (S i) = Some x /\
            val x (rnd ((rank - IZR (Zfloor rank)) * rnd (b - a) + a)).
Proof.
  intros Eq Vq Wb Hr H2 Hb Hl.
  pose proof (room_fits prec F l Hr) as Hfit. unfold fits in Hfit.
  destruct (ordered_values emin prec F val B C l vs H2) as (os & [Ho So] & A2).
  exists os. split; [split; assumption|]. intros rank a b.
  pose proof (forall2_length F val _ _ A2) as Los. rewrite asc_length in Los.
  destruct Hr as [R1 R2].
  pose proof (rank_bounds emin prec prec8 emin34 normal (Z.of_nat (length l)) w ltac:(lia) R2 Wb) as RB. cbv zeta in RB. fold rank in RB.
  assert (u0 : 0 < u) by apply bpow_gt_0.
  assert (N27 : IZR (Z.of_nat (length l)) <= 134217728) by (apply IZR_le; lia).
  assert (Enn : IZR (Z.of_nat (length l)) = IZR (Z.of_nat (length l) - 1) + 1) by (rewrite minus_IZR; ring).
  assert (Nn : 1 <= IZR (Z.of_nat (length l) - 1)) by (apply IZR_le; lia).
  change (bpow radix2 30) with 1073741824 in big_B.
  assert (Vn : val (nofsz (N.of_nat (length l - 1))) (IZR (Z.of_nat (length l) - 1))).
  { replace (Z.of_nat (length l) - 1)%Z with (Z.of_N (N.of_nat (length l - 1))) by lia.
    rewrite <- (integer_exact emin prec prec_pos emin_neg ZnearestE (Z.of_N _)) by (try typeclasses eauto; lia).
    apply (co_ofsz _ _ _ _ _ C). unfold szmod. lia. }
  destruct RB as [[Ra0 Ra1] [Rb0 Rb1]].
  assert (Vr : val (nmul (nofsz (N.of_nat (length l - 1))) q) rank).
  { apply (co_mul _ _ _ _ _ C); [exact Vn|exact Vq|]. rewrite Rabs_pos_eq by nra. nra. }
  assert (V1 : val n1 1) by (apply (co_ofz _ _ _ _ _ C 1%Z); lia).
  assert (Vr1 : val (nadd (nmul (nofsz (N.of_nat (length l - 1))) q) n1) (rnd (rank + 1))).
  { apply (co_add _ _ _ _ _ C); [exact Vr|exact V1|]. rewrite Rabs_pos_eq by lra. lra. }
  assert (P27 : IZR (Z.of_nat (length l)) <= bpow radix2 prec).
  { rewrite <- IZR_Zpower by lia. apply IZR_le. exact R2. }
  assert (Vf : val (nfloor (nmul (nofsz (N.of_nat (length l - 1))) q)) (IZR (Zfloor rank))).
  { apply (co_floor _ _ _ _ _ C); [exact Vr|]. lra. }
  assert (B63 : IZR (Z.of_nat (length l)) < bpow radix2 63).
  { apply Rle_lt_trans with (1 := N27). change (bpow radix2 63) with 9223372036854775808. lra. }
  pose proof (Zfloor_lb rank) as F0. pose proof (Zfloor_ub rank) as F0'.
  assert (Z0 : (0 <= Zfloor rank)%Z) by (apply Zfloor_lub; exact Ra0).
  assert (Z1 : (Zfloor rank + 1 <= Zfloor (rnd (rank + 1)))%Z) by (apply Zfloor_lub; rewrite plus_IZR; exact Rb0).
  assert (Z2 : (Zfloor (rnd (rank + 1)) < Z.of_nat (length l))%Z).
  { apply lt_IZR. apply Rle_lt_trans with (2 := Rb1). apply Zfloor_lb. }
  assert (Fr : fmt rank) by (apply (co_fmt _ _ _ _ _ C _ _ Vr)).
  assert (Fs : fmt (rank - IZR (Zfloor rank))) by (eapply fraction_fmt; eassumption).
  assert (Va : val (nth (Z.to_nat (Zfloor rank)) (asc F l) n0) a).
  { apply (forall2_nth F val); [exact A2|rewrite asc_length; lia]. }
  assert (Vb : val (nth (Z.to_nat (Zfloor (rnd (rank + 1)))) (asc F l) n0) b).
  { apply (forall2_nth F val); [exact A2|rewrite asc_length; lia]. }
  assert (Fa : fmt a) by exact (co_fmt _ _ _ _ _ C _ _ Va).
  assert (Fb : fmt b) by exact (co_fmt _ _ _ _ _ C _ _ Vb).
  assert (Hab : a <= b).
  { assert (G : forall t, StronglySorted Rle t -> forall i j, (i <= j)%nat -> (j < length t)%nat -> nth i t 0 <= nth j t 0).
    { induction 1 as [|x t H1 IH H3]; intros i' j' Hij Hbt; [cbn in Hbt; lia|].
      destruct i' as [|i'], j' as [|j']; cbn [nth]; cbn in Hbt; [lra| |lia|apply IH; lia].
      rewrite Forall_forall in H3. apply H3. apply nth_In. lia. }
    apply G; [exact So|lia|lia]. }
  split; [exact Z0|]. split; [lia|]. split; [exact Fs|]. split; [exact Fa|]. split; [exact Fb|]. split; [exact Hab|].
  rewrite Forall_forall in Hb.
  assert (Ba : Rabs a <= bpow radix2 k).
  { apply Hb. apply (Permutation_in _ (Permutation_sym Ho)). apply nth_In. lia. }
  assert (Bb : Rabs b <= bpow radix2 k).
  { apply Hb. apply (Permutation_in _ (Permutation_sym Ho)). apply nth_In. lia. }
  rewrite st_short by lia. unfold psq_get_fma. cbn [ps_count ps_heights].
  destruct (N.ltb_spec (N.of_nat L) (N.of_nat (length l))); [lia|].
  assert (Ecnt : szsub (N.of_nat (length l)) 1 = N.of_nat (length l - 1)).
  { rewrite szsub_small by (unfold szmod in *; lia). lia. }
  rewrite Ecnt.
  destruct (N.ltb_spec 1 (N.of_nat (length l))) as [G|G]; [|lia].
  assert (Li : (i < length qs)%nat) by (apply nth_error_Some; rewrite Eq; discriminate).
  destruct (Nat.eqb_spec (S i) 0) as [I0|I0]; [lia|].
  destruct (Nat.eqb_spec (S i) (1 + quantile_length F qs)) as [I1|I1]; [unfold quantile_length in I1; lia|].
  replace (S i - 1)%nat with i by lia. rewrite Eq.
  rewrite (co_tosz _ _ _ _ _ C _ _ Vr) by lra.
  rewrite (co_tosz _ _ _ _ _ C _ _ Vr1) by (pose proof (rpos emin prec prec8 (rank + 1) ltac:(lra)); lra).
  cbn [hread]. rewrite !(nth_error_asc F qs) by lia. rewrite !Z_N_nat.
  set (s := rank - IZR (Zfloor rank)) in *.
  assert (S01 : 0 <= s < 1) by (unfold s; lra).
  assert (Vs : val (nsub (nmul (nofsz (N.of_nat (length l - 1))) q)
                         (nfloor (nmul (nofsz (N.of_nat (length l - 1))) q))) s).
  { rewrite <- (rfix emin prec s Fs).
    apply (co_sub _ _ _ _ _ C); [exact Vr|exact Vf|]. fold s. rewrite Rabs_pos_eq by lra. lra. }
  assert (VD : vb (nsub (nth (Z.to_nat (Zfloor (rnd (rank + 1)))) (asc F l) n0) (nth (Z.to_nat (Zfloor rank)) (asc F l) n0)) (rnd (b - a)) (k + 1)).
  { apply (vb_sub emin prec prec8 F val B C k k_emin k_B); [lia|lia|split; assumption|split; assumption]. }
  eexists. split; [reflexivity|].
  refine (proj1 (vb_fma _ _ _ _ _ _ 0 (k + 1) _ _ _ VD _)); [lia|lia| |].
  - split; [exact Vs|]. rewrite Rabs_pos_eq by lra. change (bpow radix2 0) with 1. lra.
  - split; [exact Va|]. apply Rle_trans with (1 := Ba). apply bpow_le. lia.
Qed.

Lemma few_get_fma l vs index : weights_ok prec F val qs -> room prec (length l) -> Forall2 val l vs ->
  Forall (fun v => Rabs v <= bpow radix2 k) vs -> (1 <= length l <= L)%nat -> (index <= length qs + 1)%nat ->
  exists x v, psq_get_fma F U qs (st F qs l) index = Some x /\ val x v /\ in_hull v vs.
Proof.
  intros Hq Hr H2 Hb Hl Hi.
  pose proof (room_fits prec F l Hr) as Hfit. unfold fits in Hfit.
  destruct (ordered_values emin prec F val B C l vs H2) as (os & [Ho So] & A2).
  pose proof (forall2_length F val _ _ A2) as Los. rewrite asc_length in Los.
  assert (One : forall j, (j < length l)%nat -> exists x v, Some (nth j (asc F l) n0) = Some x /\ val x v /\ in_hull v vs).
  { intros j Hj. exists (nth j (asc F l) n0), (nth j os 0). split; [reflexivity|].
    split; [apply (forall2_nth F val); [exact A2|rewrite asc_length; exact Hj]|].
    assert (Iv : In (nth j os 0) vs) by (apply (Permutation_in _ (Permutation_sym Ho)); apply nth_In; lia).
    split; exists (nth j os 0); split; (exact Iv || lra). }
  destruct (Nat.eq_dec index 0) as [->|I0].
  { rewrite st_short by lia. unfold psq_get_fma. cbn [ps_count ps_heights].
    destruct (N.ltb_spec (N.of_nat L) (N.of_nat (length l))); [lia|].
    assert (Ecnt : szsub (N.of_nat (length l)) 1 = N.of_nat (length l - 1)).
    { rewrite szsub_small by (unfold szmod in *; lia). lia. }
    rewrite Ecnt. destruct (N.ltb_spec 1 (N.of_nat (length l))).
    - cbn [Nat.eqb]. rewrite (nth_error_asc F qs) by lia. apply One. lia.
    - destruct (N.ltb_spec 0 (N.of_nat (length l))); [|lia]. rewrite Nat2N.id, (nth_error_asc F qs) by lia. apply One. lia. }
  destruct (Nat.le_gt_cases (length l) 1) as [Le1|Gt1]; [|destruct (Nat.eq_dec index (1 + quantile_length F qs)) as [Ei|I1]].
  1,2: rewrite st_short by lia; unfold psq_get_fma; cbn [ps_count ps_heights];
    destruct (N.ltb_spec (N.of_nat L) (N.of_nat (length l))); [lia|];
    (assert (Ecnt : szsub (N.of_nat (length l)) 1 = N.of_nat (length l - 1)) by
      (rewrite szsub_small by (unfold szmod in *; lia); lia));
    rewrite Ecnt.
  { destruct (N.ltb_spec 1 (N.of_nat (length l))); [lia|].
    destruct (N.ltb_spec 0 (N.of_nat (length l))); [|lia]. rewrite Nat2N.id, (nth_error_asc F qs) by lia. apply One. lia. }
  { destruct (N.ltb_spec 1 (N.of_nat (length l))); [|lia].
    destruct (Nat.eqb_spec index 0); [contradiction|]. destruct (Nat.eqb_spec index (1 + quantile_length F qs)); [|contradiction].
    rewrite Nat2N.id, (nth_error_asc F qs) by lia. apply One. lia. }
  unfold quantile_length in I1. destruct index as [|i]; [contradiction|].
  destruct (nth_error qs i) as [q|] eqn:Eq.
  2:{ apply nth_error_None in Eq. lia. }
  pose proof (nth_error_In _ _ Eq) as Iq. unfold weights_ok in Hq. rewrite Forall_forall in Hq.
  destruct (Hq q Iq) as (w & Vq & Wb).
  destruct (few_value_fma l vs i q w Eq Vq Wb Hr H2 Hb ltac:(lia)) as (os' & [Ho' _] & Z0 & Z1 & Fs & Fa & Fb & Hab & x & Ex & Vx).
  assert (Los' : length os' = length l).
  { rewrite <- (Permutation_length Ho'), <- (forall2_length F val _ _ H2). reflexivity. }
  eexists _, _. split; [exact Ex|]. split; [exact Vx|].
  set (rank := rnd (IZR (Z.of_nat (length l) - 1) * w)) in *.
  pose proof (Zfloor_lb rank). pose proof (Zfloor_ub rank).
  destruct (interpolation_fused emin prec prec8 emin34 normal _ _ _ Fa Fb Hab Fs ltac:(lra)) as [I2 I3].
  rewrite Rplus_comm in I2, I3.
  split; eexists; (split; [|first [exact I2|exact I3]]); apply (Permutation_in _ (Permutation_sym Ho')); apply nth_In; lia.
Qed.

Lemma fused_get first l vs index : weights_ok prec F val qs -> room prec (length l) -> Forall2 val l vs ->
  Forall (fun v => Rabs v <= bpow radix2 k) vs -> l <> [] -> (index <= length qs + 1)%nat ->
  exists x v, psq_get_fma F U qs (stf first l) index = Some x /\ val x v /\ in_hull v vs.
Proof.
  intros Hq Hr H2 Hb Hne Hi.
  destruct (Nat.le_gt_cases (length l) L) as [Le|Gt].
  - rewrite stw_short by (destruct Hr; unfold szmod; lia).
    apply few_get_fma; try assumption. destruct l; [congruence|cbn in *; lia].
  - destruct (fused_heights first l vs Hr H2 Hb ltac:(lia)) as (hs & V & _ & Hull).
    unfold psq_get_fma. rewrite (stw_count F (psq_parabolic_fma F U first) qs l (room_fits prec F l Hr)).
    destruct (N.ltb_spec (N.of_nat L) (N.of_nat (length l))); [|lia].
    pose proof (stw_lengths F (psq_parabolic_fma F U first) qs l) as [_ Lh].
    assert (Li : (2 * index < L)%nat) by (unfold parameter_length, quantile_length; lia).
    rewrite (nth_error_nth' _ n0) by lia.
    exists (nth (2 * index) (ps_heights F (stf first l)) n0), (nth (2 * index) hs 0).
    split; [reflexivity|]. split; [apply (forall2_nth F val); [exact V|lia]|].
    rewrite Forall_forall in Hull. apply Hull. apply nth_In.
    rewrite <- (forall2_length F val _ _ V). lia.
Qed.

Lemma fused_get_ordered first l vs i j : room prec (length l) -> Forall2 val l vs ->
  Forall (fun v => Rabs v <= bpow radix2 k) vs -> (L < length l)%nat -> (i <= j)%nat -> (j <= length qs + 1)%nat ->
  exists x y v w, psq_get_fma F U qs (stf first l) i = Some x /\ psq_get_fma F U qs (stf first l) j = Some y /\
    val x v /\ val y w /\ v <= w.
Proof.
  intros Hr H2 Hb Gt Hij Hj.
  destruct (fused_heights first l vs Hr H2 Hb ltac:(lia)) as (hs & V & So & _).
  unfold psq_get_fma. rewrite (stw_count F (psq_parabolic_fma F U first) qs l (room_fits prec F l Hr)).
  destruct (N.ltb_spec (N.of_nat L) (N.of_nat (length l))); [|lia].
  pose proof (stw_lengths F (psq_parabolic_fma F U first) qs l) as [_ Lh].
  assert (Lj : (2 * j < L)%nat) by (unfold parameter_length, quantile_length; lia).
  rewrite !(nth_error_nth' _ n0) by lia.
  exists (nth (2 * i) (ps_heights F (stf first l)) n0), (nth (2 * j) (ps_heights F (stf first l)) n0), (nth (2 * i) hs 0), (nth (2 * j) hs 0).
  split; [reflexivity|]. split; [reflexivity|].
  split; [apply (forall2_nth F val); [exact V|lia]|]. split; [apply (forall2_nth F val); [exact V|lia]|].
  assert (Lhs : (2 * j < length hs)%nat) by (rewrite <- (forall2_length F val _ _ V); lia).
  assert (G : forall t, StronglySorted Rle t -> forall a b, (a <= b)%nat -> (b < length t)%nat -> nth a t 0 <= nth b t 0).
  { induction 1 as [|x t H1 IH H3]; intros a b Hab Hbt; [cbn in Hbt; lia|].
    destruct a as [|a], b as [|b]; cbn [nth]; cbn in Hbt; [lra| |lia|apply IH; lia].
    rewrite Forall_forall in H3. apply H3. apply nth_In. lia. }
  apply G; [exact So|lia|exact Lhs].
Qed.

End Fused.
