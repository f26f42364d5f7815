(** * Proofs about cumulative filters *)

From Coq Require Import Reals ZArith NArith Bool List Lia Lra Psatz Permutation.
From Flocq Require Import Core.Raux.
From Verif Require Import Arith History HistoryLemmas SpecStats StatsLemmas
  Cumulative.
Import ListNotations.

(** ** Any arithmetic: clear resets, size counts *)

Section AnyArith.
Variable F : num.

Lemma cmean_clear_init (s : cmean F) : cmean_clear F s = cmean_init F.
Proof. reflexivity. Qed.
Lemma cvar_clear_init (s : cvar F) : cvar_clear F s = cvar_init F.
Proof. reflexivity. Qed.
Lemma cskew_clear_init (s : cskew F) : cskew_clear F s = cskew_init F.
Proof. reflexivity. Qed.
Lemma ckurt_clear_init (s : ckurt F) : ckurt_clear F s = ckurt_init F.
Proof. reflexivity. Qed.
Lemma ccov_clear_init (s : ccov F) : ccov_clear F s = ccov_init F.
Proof. reflexivity. Qed.
Lemma ccorr_clear_init (s : ccorr F) : ccorr_clear F s = ccorr_init F.
Proof. reflexivity. Qed.
Lemma creg_clear_init (s : creg F) : creg_clear F s = creg_init F.
Proof. reflexivity. Qed.
Lemma ctrend_clear_init (s : ctrend F) : ctrend_clear F s = ctrend_init F.
Proof. reflexivity. Qed.

Lemma cmean_fold_size l :
  (N.of_nat (length l) < szmod)%N ->
  cmean_size F (fold_left (cmean_push F) l (cmean_init F)) =
  N.of_nat (length l).
Proof.
  induction l as [|x l IH] using rev_ind; intros H; [reflexivity|].
  rewrite length_snoc in H.
  rewrite fold_left_app; cbn [fold_left cmean_push cmean_size cm_count].
  unfold cmean_size in IH; rewrite IH by lia.
  rewrite szadd_small by lia; rewrite length_snoc; lia.
Qed.

(** The richer moments contain the simpler ones. *)
Lemma cvar_fold_super l s :
  cv_super F (fold_left (cvar_push F) l s) =
  fold_left (cmean_push F) l (cv_super F s).
Proof. revert s; induction l as [|x l IH]; intros s; cbn; auto; rewrite IH; reflexivity. Qed.

Lemma cskew_fold_super l s :
  cs_super F (fold_left (cskew_push F) l s) =
  fold_left (cvar_push F) l (cs_super F s).
Proof. revert s; induction l as [|x l IH]; intros s; cbn; auto; rewrite IH; reflexivity. Qed.

Lemma ckurt_fold_super l s :
  ck_super F (fold_left (ckurt_push F) l s) =
  fold_left (cskew_push F) l (ck_super F s).
Proof. revert s; induction l as [|x l IH]; intros s; cbn; auto; rewrite IH; reflexivity. Qed.

Lemma ccov_fold_x l s :
  cc_x F (fold_left (ccov_push F) l s) =
  fold_left (cmean_push F) (map fst l) (cc_x F s).
Proof. revert s; induction l as [|[x y] l IH]; intros s; cbn; auto; rewrite IH; reflexivity. Qed.

Lemma ccov_fold_y l s :
  cc_y F (fold_left (ccov_push F) l s) =
  fold_left (cmean_push F) (map snd l) (cc_y F s).
Proof. revert s; induction l as [|[x y] l IH]; intros s; cbn; auto; rewrite IH; reflexivity. Qed.

Lemma ccorr_fold l s :
  fold_left (ccorr_push F) l s =
  CCorr F (fold_left (ccov_push F) l (cr_co F s))
          (fold_left (cvar_push F) (map fst l) (cr_x F s))
          (fold_left (cvar_push F) (map snd l) (cr_y F s)).
Proof.
  revert s; induction l as [|p l IH]; intros s; cbn; [destruct s; reflexivity|].
  rewrite IH; reflexivity.
Qed.

Lemma creg_fold l s :
  fold_left (creg_push F) l s =
  CReg F (fold_left (ccov_push F) l (cg_co F s))
         (fold_left (cvar_push F) (map fst l) (cg_x F s))
         (fold_left (cvar_push F) (map snd l) (cg_y F s)).
Proof.
  revert s; induction l as [|p l IH]; intros s; cbn; [destruct s; reflexivity|].
  rewrite IH; reflexivity.
Qed.

End AnyArith.

(** ** Exact reals: the state is the textbook statistic *)

Section Exact.
Variable eps : R.
Notation F := (exact eps).
Local Open Scope R_scope.

Definition fins : list R -> list F := map Fin.
Definition finps : list (R * R) -> list (F * F) :=
  map (fun p => (Fin (fst p), Fin (snd p))).

Lemma fins_app a b : fins (a ++ b) = fins a ++ fins b.
Proof. apply map_app. Qed.
Lemma finps_app a b : finps (a ++ b) = finps a ++ finps b.
Proof. apply map_app. Qed.
Lemma map_fst_finps l : map fst (finps l) = fins (xs l).
Proof. unfold finps, fins, xs; rewrite !map_map; reflexivity. Qed.
Lemma map_snd_finps l : map snd (finps l) = fins (ys l).
Proof. unfold finps, fins, ys; rewrite !map_map; reflexivity. Qed.

Lemma cmean_push_exact l x :
  (N.of_nat (S (length l)) < szmod)%N ->
  cmean_push F (CMean F (Fin (mean l)) (N.of_nat (length l))) (Fin x) =
  CMean F (Fin (mean (l ++ [x]))) (N.of_nat (length (l ++ [x]))).
Proof.
  intros H; unfold cmean_push; cbn [cm_count cm_mean].
  rewrite szadd_small by lia.
  rewrite length_snoc.
  replace (N.of_nat (length l) + 1)%N with (N.of_nat (S (length l))) by lia.
  f_equal.
  cbn -[N.of_nat Z.of_N szadd].
  rewrite IZR_of_nat, Req_bool_false.
  - cbn [xlift2]; rewrite mean_snoc; unfold card; rewrite S_INR; reflexivity.
  - rewrite S_INR; pose proof (pos_INR (length l)); lra.
Qed.

Lemma cmean_exact l :
  (N.of_nat (length l) < szmod)%N ->
  fold_left (cmean_push F) (fins l) (cmean_init F) =
  CMean F (Fin (mean l)) (N.of_nat (length l)).
Proof.
  induction l as [|x l IH] using rev_ind; intros H.
  - cbn; unfold cmean_init, n0; cbn; f_equal; f_equal.
    unfold mean; cbn; lra.
  - rewrite length_snoc in H.
    rewrite fins_app, fold_left_app, IH by lia.
    apply cmean_push_exact; lia.
Qed.

Lemma cvar_push_exact l x :
  (N.of_nat (S (length l)) < szmod)%N ->
  cvar_push F (CVar F (CMean F (Fin (mean l)) (N.of_nat (length l)))
                      (Fin (csum 2 l))) (Fin x) =
  CVar F (CMean F (Fin (mean (l ++ [x]))) (N.of_nat (length (l ++ [x]))))
         (Fin (csum 2 (l ++ [x]))).
Proof.
  intros H; unfold cvar_push; cbn [cv_super cv_sum].
  rewrite cmean_push_exact by exact H.
  f_equal; cbn; f_equal.
  rewrite csum_2_snoc, mean_snoc.
  pose proof (card_nonneg l); field; lra.
Qed.

Lemma cvar_exact l :
  (N.of_nat (length l) < szmod)%N ->
  fold_left (cvar_push F) (fins l) (cvar_init F) =
  CVar F (CMean F (Fin (mean l)) (N.of_nat (length l))) (Fin (csum 2 l)).
Proof.
  induction l as [|x l IH] using rev_ind; intros H.
  - pose proof (cmean_exact [] H) as E; cbn in E |- *.
    unfold cvar_init; rewrite E; reflexivity.
  - rewrite length_snoc in H.
    rewrite fins_app, fold_left_app, IH by lia.
    apply cvar_push_exact; lia.
Qed.

(** Conversions of the size_t sub-expressions *)
Lemma nsz_sub_pred l :
  (N.of_nat (S (length l)) < szmod)%N ->
  IZR (Z.of_N (szsub (N.of_nat (S (length l))) 1)) = @card R l.
Proof.
  intros H; rewrite szsub_small by lia.
  replace (N.of_nat (S (length l)) - 1)%N with (N.of_nat (length l)) by lia.
  apply IZR_of_nat.
Qed.

Lemma nsz_sub_2 (l : list R) :
  (N.of_nat (S (length l)) < szmod)%N ->
  card l * IZR (Z.of_N (szsub (N.of_nat (S (length l))) 2)) =
  card l * (card l - 1).
Proof.
  intros H; destruct l as [|y l]; [unfold card; cbn [length INR]; ring|].
  rewrite szsub_small by (cbn [length] in *; lia).
  replace (N.of_nat (S (length (y :: l))) - 2)%N with (N.of_nat (length l))
    by (cbn [length]; lia).
  rewrite IZR_of_nat, card_cons; unfold card; ring.
Qed.

Lemma cskew_push_exact l x :
  (N.of_nat (S (length l)) < szmod)%N ->
  cskew_push F (CSkew F (CVar F (CMean F (Fin (mean l)) (N.of_nat (length l)))
                      (Fin (csum 2 l))) (Fin (csum 3 l))) (Fin x) =
  CSkew F (CVar F (CMean F (Fin (mean (l ++ [x]))) (N.of_nat (length (l ++ [x]))))
         (Fin (csum 2 (l ++ [x])))) (Fin (csum 3 (l ++ [x]))).
Proof.
  intros H; unfold cskew_push; cbn [cs_super cs_sum].
  rewrite cvar_push_exact by exact H.
  cbn [cvar_size cvar_mean cv_super cv_sum cmean_size cmean_mean cm_mean cm_count].
  rewrite szadd_small by lia.
  replace (N.of_nat (length l) + 1)%N with (N.of_nat (S (length l))) by lia.
  f_equal; cbn -[N.of_nat Z.of_N szsub].
  pose proof (pos_INR (length l)) as Hp.
  rewrite IZR_of_nat, Req_bool_false by (rewrite S_INR; lra).
  cbn [xlift2]; f_equal.
  rewrite nsz_sub_pred by exact H.
  rewrite csum_3_snoc.
  pose proof (nsz_sub_2 l H) as E2.
  replace ((x - mean l) * ((x - mean l) / INR (S (length l))) * card l *
     IZR (Z.of_N (szsub (N.of_nat (S (length l))) 2)))
    with ((x - mean l) * ((x - mean l) / INR (S (length l))) *
     (card l * IZR (Z.of_N (szsub (N.of_nat (S (length l))) 2)))) by ring.
  rewrite E2, S_INR; fold (card l).
  pose proof (card_nonneg l); field; lra.
Qed.

Lemma cskew_exact l :
  (N.of_nat (length l) < szmod)%N ->
  fold_left (cskew_push F) (fins l) (cskew_init F) =
  CSkew F (CVar F (CMean F (Fin (mean l)) (N.of_nat (length l)))
                  (Fin (csum 2 l))) (Fin (csum 3 l)).
Proof.
  induction l as [|x l IH] using rev_ind; intros H.
  - pose proof (cvar_exact [] H) as E; cbn in E |- *.
    unfold cskew_init; rewrite E; reflexivity.
  - rewrite length_snoc in H.
    rewrite fins_app, fold_left_app, IH by lia.
    apply cskew_push_exact; lia.
Qed.

(** [n * (n - 3) + 3] does not wrap up to n = 2^32 + 1 (for n = 1, 2 the
    subtraction wraps but the sum wraps back). *)
Lemma nsz_kurt_factor n :
  (1 <= n)%N -> (n <= 4294967297)%N ->
  IZR (Z.of_N (szadd (szmul n (szsub n 3)) 3)) =
  IZR (Z.of_N n) ^ 2 - 3 * IZR (Z.of_N n) + 3.
Proof.
  intros H1 H2.
  assert (C : n = 1%N \/ n = 2%N \/ (3 <= n)%N) by lia.
  destruct C as [->|[->|H3]].
  - vm_compute (szadd _ _); cbn; lra.
  - vm_compute (szadd _ _); cbn; lra.
  - assert (Hs : (n < szmod)%N) by (unfold szmod; lia).
    rewrite szsub_small by lia.
    assert (Hm : (n * (n - 3) + 3 < szmod)%N).
    { apply N.le_lt_trans with (4294967297 * (4294967297 - 3) + 3)%N;
        [nia|vm_compute; reflexivity]. }
    rewrite szmul_small by lia.
    rewrite szadd_small by exact Hm.
    rewrite N2Z.inj_add, N2Z.inj_mul, N2Z.inj_sub by exact H3.
    rewrite plus_IZR, mult_IZR, minus_IZR; cbn [Z.of_N]; ring.
Qed.

(** 2^32 + 1 *)
Definition kurt_limit : N := 4294967297%N.

Lemma ckurt_push_exact l x :
  (N.of_nat (S (length l)) <= kurt_limit)%N ->
  ckurt_push F (CKurt F (CSkew F (CVar F (CMean F (Fin (mean l))
     (N.of_nat (length l))) (Fin (csum 2 l))) (Fin (csum 3 l)))
     (Fin (csum 4 l))) (Fin x) =
  CKurt F (CSkew F (CVar F (CMean F (Fin (mean (l ++ [x])))
     (N.of_nat (length (l ++ [x])))) (Fin (csum 2 (l ++ [x]))))
     (Fin (csum 3 (l ++ [x])))) (Fin (csum 4 (l ++ [x]))).
Proof.
  intros H.
  assert (Hn : (N.of_nat (S (length l)) <= 4294967297)%N)
    by (unfold kurt_limit in H; lia).
  assert (Hs : (N.of_nat (S (length l)) < szmod)%N)
    by (unfold szmod; lia).
  unfold ckurt_push; cbn [ck_super ck_sum].
  rewrite cskew_push_exact by exact Hs.
  cbn [cs_super cs_sum cskew_size cskew_mean cvar_size cvar_mean cv_super
       cv_sum cmean_size cmean_mean cm_mean cm_count].
  rewrite szadd_small by lia.
  replace (N.of_nat (length l) + 1)%N with (N.of_nat (S (length l))) by lia.
  f_equal; cbn -[N.of_nat Z.of_N szsub szmul szadd].
  pose proof (pos_INR (length l)) as Hp.
  rewrite nsz_kurt_factor by lia.
  rewrite IZR_of_nat, Req_bool_false by (rewrite S_INR; lra).
  cbn [xlift2]; f_equal.
  rewrite nsz_sub_pred by exact Hs.
  rewrite csum_4_snoc, S_INR; fold (card l).
  pose proof (card_nonneg l); field; lra.
Qed.

Lemma ckurt_exact l :
  (N.of_nat (length l) <= kurt_limit)%N ->
  fold_left (ckurt_push F) (fins l) (ckurt_init F) =
  CKurt F (CSkew F (CVar F (CMean F (Fin (mean l)) (N.of_nat (length l)))
     (Fin (csum 2 l))) (Fin (csum 3 l))) (Fin (csum 4 l)).
Proof.
  induction l as [|x l IH] using rev_ind; intros H.
  - assert (E : (N.of_nat (@length R []) < szmod)%N) by reflexivity.
    pose proof (cskew_exact [] E) as E'; cbn in E' |- *.
    unfold ckurt_init; rewrite E'; reflexivity.
  - rewrite length_snoc in H.
    rewrite fins_app, fold_left_app, IH by lia.
    apply ckurt_push_exact; lia.
Qed.

(** Covariance *)
Lemma ccov_push_exact l p :
  (N.of_nat (S (length l)) < szmod)%N ->
  ccov_push F (CCov F (CMean F (Fin (mean (xs l))) (N.of_nat (length l)))
                      (CMean F (Fin (mean (ys l))) (N.of_nat (length l)))
                      (Fin (cosum l))) (Fin (fst p), Fin (snd p)) =
  CCov F (CMean F (Fin (mean (xs (l ++ [p])))) (N.of_nat (length (l ++ [p]))))
         (CMean F (Fin (mean (ys (l ++ [p])))) (N.of_nat (length (l ++ [p]))))
         (Fin (cosum (l ++ [p]))).
Proof.
  intros H; unfold ccov_push; cbn [cc_x cc_y cc_center].
  pose proof (cmean_push_exact (xs l) (fst p)) as Ex.
  pose proof (cmean_push_exact (ys l) (snd p)) as Ey.
  rewrite <- xs_snoc in Ex; rewrite <- ys_snoc in Ey.
  unfold xs, ys in Ex, Ey; rewrite !map_length in Ex, Ey.
  fold (xs l) (xs (l ++ [p])) in Ex; fold (ys l) (ys (l ++ [p])) in Ey.
  rewrite Ex, Ey by exact H.
  f_equal; cbn; f_equal.
  rewrite cosum_snoc, xs_snoc, mean_snoc, card_xs.
  pose proof (card_nonneg l); field; lra.
Qed.

Lemma ccov_exact l :
  (N.of_nat (length l) < szmod)%N ->
  fold_left (ccov_push F) (finps l) (ccov_init F) =
  CCov F (CMean F (Fin (mean (xs l))) (N.of_nat (length l)))
         (CMean F (Fin (mean (ys l))) (N.of_nat (length l)))
         (Fin (cosum l)).
Proof.
  induction l as [|p l IH] using rev_ind; intros H.
  - assert (E : (N.of_nat (@length R []) < szmod)%N) by reflexivity.
    pose proof (cmean_exact [] E) as E'; cbn in E' |- *.
    unfold ccov_init; rewrite E'; reflexivity.
  - rewrite length_snoc in H.
    rewrite finps_app, fold_left_app, IH by lia.
    apply ccov_push_exact; lia.
Qed.

End Exact.
