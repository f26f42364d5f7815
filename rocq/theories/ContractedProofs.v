(** * Contracted code as the plain code over an arithmetic with exact products *)

From Coq Require Import Reals ZArith NArith Bool List Lra Lia.
From Flocq Require Import Core.
From Verif Require Import Arith Buffer History HistoryLemmas Cumulative Decay Window Impulse ImpulseRuns Rounded RoundedProofs
  Approx ApproxInstances SignProofs ClaimsAccuracy Contracted.
Import ListNotations.
Local Open Scope R_scope.

Section Lazy.
Variables emin prec : Z.
Variable mode : R -> Z.
Notation F := (rounded emin prec mode).
Notation U := (rounded_fused emin prec mode).
Notation rnd := (rounding emin prec mode).

Definition xmul_exact (x y : xreal) : xreal :=
  match x, y with Fin a, Fin b => Fin (a * b) | _, _ => NonFin end.

(** As [rounded], but products are not rounded. *)
Definition lazy : num :=
  Num xreal (@nadd F) (@nsub F) xmul_exact (@ndiv F) (@nsqrt F) (@nfloor F) (@nabs F) (@nlt F) (@nle F) (@neq F)
    (@nofsz F) (@nofz F) (@neps F) (@nmin F) (@ntosz F).

Definition lval (x : lazy) (r : R) : Prop := x = Fin r.

Lemma approx_lazy (B : R) : (0 < prec)%Z -> (emin <= 0)%Z -> Valid_rnd mode ->
  approx lazy lval B (bpow radix2 (1 - prec)) (bpow radix2 emin) (Z.to_N (2 ^ prec)).
Proof.
  intros Hp He Hv. destruct (@approx_any emin prec Hp He mode B Hv) as [A1 A2 A3 A4 A5 A6 A7 _ A9 A10].
  constructor; try assumption.
  intros x y a b -> -> _. exists (a * b). split; [reflexivity|]. unfold near. rewrite Rminus_diag_eq, Rabs_R0 by reflexivity.
  pose proof (Rmult_le_pos _ _ (proj1 A1) (Rabs_pos (a * b))). lra.
Qed.

Lemma fma_lazy (a b c : xreal) : fma U a b c = @nadd lazy c (@nmul lazy a b).
Proof. destruct a, b, c; try reflexivity. cbn. f_equal. f_equal. ring. Qed.
Lemma fms_lazy (a b c : xreal) : fms U a b c = @nsub lazy (@nmul lazy a b) c.
Proof. destruct a, b, c; reflexivity. Qed.
Lemma fnma_lazy (a b c : xreal) : fnma U a b c = @nsub lazy c (@nmul lazy a b).
Proof. destruct a, b, c; reflexivity. Qed.

(** The same state over the two arithmetics. *)
Definition cm_l (s : cmean F) : cmean lazy := CMean lazy (cm_mean F s) (cm_count F s).
Definition cv_l (s : cvar F) : cvar lazy := CVar lazy (cm_l (cv_super F s)) (cv_sum F s).
Definition cc_l (s : ccov F) : ccov lazy := CCov lazy (cm_l (cc_x F s)) (cm_l (cc_y F s)) (cc_center F s).
Definition dm_l (s : dmean F) : dmean lazy := DMean lazy (dm_factor F s) (dm_norm F s) (dm_sum F s).
Definition dv_l (s : dvar F) : dvar lazy := DVar lazy (dm_l (dv_super F s)) (dv_factor F s) (dv_norm F s) (dv_sum F s).
Definition wm_l (s : wmean F) : wmean lazy := WMean lazy (wm_window F s) (wm_mean F s).
Definition wv_l (s : wvar F) : wvar lazy := WVar lazy (wm_l (wv_super F s)) (wv_sum F s).
Definition fir_l (s : fir F) : fir lazy := @Fir lazy (fir_input s) (fir_output s) (fir_coefficients s).
Definition iir_l (s : iir F) : iir lazy :=
  @Iir lazy (iir_input s) (iir_input_coefficients s) (iir_output s) (iir_scale s) (iir_output_coefficients s).

Lemma cv_step s x : cv_l (cvar_push_fma F U s x) = cvar_push lazy (cv_l s) x.
Proof. unfold cvar_push_fma, cv_l. cbn [cv_super cv_sum]. rewrite fma_lazy. reflexivity. Qed.

Lemma cc_step s p : cc_l (ccov_push_fma F U s p) = ccov_push lazy (cc_l s) p.
Proof. destruct p as [x y]. unfold ccov_push_fma, cc_l. cbn [cc_x cc_y cc_center]. rewrite fma_lazy. reflexivity. Qed.

Lemma dm_step s x : dm_l (dmean_push_fma F U s x) = dmean_push lazy (dm_l s) x.
Proof. unfold dmean_push_fma, dm_l. cbn [dm_factor dm_norm dm_sum]. rewrite !fma_lazy. reflexivity. Qed.

Lemma dv_step s x : dv_l (dvar_push_fma F U s x) = dvar_push lazy (dv_l s) x.
Proof.
  unfold dvar_push. cbn [dv_l dv_super dv_factor dv_norm dv_sum]. rewrite <- dm_step.
  unfold dvar_push_fma, dv_l. cbn [dv_super dv_factor dv_norm dv_sum]. rewrite !fma_lazy, fms_lazy. reflexivity.
Qed.

Lemma wv_step W s x : wv_l (wvar_push_fma F U W s x) = wvar_push lazy W (wv_l s) x.
Proof.
  destruct s as [[w m] sm]. unfold wvar_push_fma, wvar_push. cbn [wv_l wm_l wv_super wm_window].
  change (wmean_full lazy W (wm_l (WMean F w m))) with (wmean_full F W (WMean F w m)).
  destruct (wmean_full F W (WMean F w m)).
  - destruct w as [|o w]; cbn [rb_front hd_error].
    + reflexivity.
    + unfold wv_l at 1. cbn [wv_super wv_sum]. rewrite fnma_lazy, fma_lazy. reflexivity.
  - unfold wv_l at 1. cbn [wv_super wv_sum]. rewrite fma_lazy. reflexivity.
Qed.

Lemma inner_lazy (w c : list xreal) : inner_product_fma F U w c = inner_product lazy w c.
Proof.
  assert (G : forall (l : list (xreal * xreal)) (a : xreal),
    fold_left (fun (acc : F) (p : F * F) => fma U (fst p) (snd p) acc) l a =
    fold_left (fun (acc : lazy) (p : lazy * lazy) => @nadd lazy acc (@nmul lazy (fst p) (snd p))) l a).
  { intros l. induction l as [|p l IH]; intros a; [reflexivity|]. cbn [fold_left]. rewrite <- IH. f_equal. apply fma_lazy. }
  exact (G (combine w c) (@n0 lazy)).
Qed.

Lemma fir_step s x : fir_l (fir_push_fma F U s x) = fir_push lazy (fir_l s) x.
Proof. unfold fir_push_fma, fir_l. cbn [fir_input fir_output fir_coefficients]. rewrite inner_lazy. reflexivity. Qed.

Lemma iir_step s x : iir_l (iir_push_fma F U s x) = iir_push lazy (iir_l s) x.
Proof.
  unfold iir_push_fma, iir_l. cbn [iir_input iir_output iir_scale iir_input_coefficients iir_output_coefficients].
  rewrite !inner_lazy. reflexivity.
Qed.

(** Histories. *)
Lemma run_lazy {A S T} (f : S -> T) (ps : S -> A -> S) cs (pt : T -> A -> T) ct :
  (forall s a, f (ps s a) = pt (f s) a) -> (forall s, f (cs s) = ct (f s)) ->
  forall ops s, f (run ps cs s ops) = run pt ct (f s) ops.
Proof.
  intros HP HC ops. unfold run. induction ops as [|[a|] ops IH]; intros s; cbn; [reflexivity| |]; rewrite IH; cbn;
    rewrite ?HP, ?HC; reflexivity.
Qed.

Lemma cv_run ops : cv_l (run (cvar_push_fma F U) (cvar_clear F) (cvar_init F) ops)
  = run (cvar_push lazy) (cvar_clear lazy) (cvar_init lazy) ops.
Proof. apply (run_lazy cv_l); [exact cv_step|reflexivity]. Qed.
Lemma cc_run ops : cc_l (run (ccov_push_fma F U) (ccov_clear F) (ccov_init F) ops)
  = run (ccov_push lazy) (ccov_clear lazy) (ccov_init lazy) ops.
Proof. apply (run_lazy cc_l); [exact cc_step|reflexivity]. Qed.
Lemma dm_run f ops : dm_l (run (dmean_push_fma F U) (dmean_clear F) (dmean_init F f) ops)
  = run (dmean_push lazy) (dmean_clear lazy) (dmean_init lazy f) ops.
Proof. apply (run_lazy dm_l); [exact dm_step|reflexivity]. Qed.
Lemma dv_run f g ops : dv_l (run (dvar_push_fma F U) (dvar_clear F) (dvar_init F f g) ops)
  = run (dvar_push lazy) (dvar_clear lazy) (dvar_init lazy f g) ops.
Proof. apply (run_lazy dv_l); [exact dv_step|reflexivity]. Qed.
Lemma wv_run W ops : wv_l (run (wvar_push_fma F U W) (wvar_clear F) (wvar_init F) ops)
  = run (wvar_push lazy W) (wvar_clear lazy) (wvar_init lazy) ops.
Proof. apply (run_lazy wv_l); [apply wv_step|reflexivity]. Qed.
Lemma fir_run_l c ops : fir_l (run (fir_push_fma F U) (fir_clear F) (fir_new F c) ops) = fir_run lazy c ops.
Proof. apply (run_lazy fir_l); [exact fir_step|reflexivity]. Qed.
Lemma iir_run_l b a sc ops : iir_l (run (iir_push_fma F U) (iir_clear F) (iir_new F b a sc) ops) = iir_run lazy b a sc ops.
Proof. apply (run_lazy iir_l); [exact iir_step|reflexivity]. Qed.

Lemma lval_list (l : list R) : Forall2 lval (map Fin l) l.
Proof. induction l; cbn; constructor; [reflexivity|assumption]. Qed.

Lemma lin_nil (l : list R) : l <> [] -> map Fin l <> ([] : list lazy).
Proof. destruct l; [congruence|discriminate]. Qed.
End Lazy.
