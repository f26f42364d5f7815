(** * Contracted code over an IEEE format as the plain code over deferred products

    A product is kept as the pair of its factors; adding it to a number, or
    subtracting it, performs the fused operation.  The contracted push functions
    are then the plain push functions over this arithmetic. *)

From Coq Require Import Reals ZArith NArith Bool List Lra Lia.
From Coq Require Import Floats.SpecFloat.
From Flocq Require Import Core.
From Flocq Require Import IEEE754.BinarySingleNaN.
From Verif Require Import Arith Buffer History HistoryLemmas Cumulative Decay Window Impulse ImpulseRuns Rounded RoundedProofs
  Approx ApproxInstances Ieee IeeeProofs Contracted IeeeFused IeeeFusedProofs.
Import ListNotations.
Local Open Scope R_scope.

(** A number, a product not yet rounded, or the real result of an operation that
    the contracted code does not contain. *)
Inductive dval : Type :=
| Val (x : spec_float)
| Prod (x y : spec_float)
| Other (r : R).

Definition dreal (v : dval) : R :=
  match v with
  | Val x => ieee_real x
  | Prod x y => ieee_real x * ieee_real y
  | Other r => r
  end.

Section Deferred.
Variables prec emax : Z.
Hypothesis Hp : (1 < prec)%Z.
Hypothesis Hm : (prec < emax)%Z.
Notation F := (ieee prec emax).
Notation U := (ieee_fused prec emax).

Definition dadd (a b : dval) : dval :=
  match a, b with
  | Val x, Val y => Val (@nadd F x y)
  | Val z, Prod x y => Val (fma U x y z)
  | _, _ => Other (dreal a + dreal b)
  end.
Definition dsub (a b : dval) : dval :=
  match a, b with
  | Val x, Val y => Val (@nsub F x y)
  | Val z, Prod x y => Val (fnma U x y z)
  | Prod x y, Val z => Val (fms U x y z)
  | _, _ => Other (dreal a - dreal b)
  end.
Definition dmul (a b : dval) : dval :=
  match a, b with
  | Val x, Val y => Prod x y
  | _, _ => Other (dreal a * dreal b)
  end.
Definition ddiv (a b : dval) : dval :=
  match a, b with
  | Val x, Val y => Val (@ndiv F x y)
  | _, _ => Other (dreal a / dreal b)
  end.
Definition dfun (f : spec_float -> spec_float) (a : dval) : dval :=
  match a with Val x => Val (f x) | _ => a end.
Definition dlt (a b : dval) : bool :=
  match a, b with
  | Val x, Val y => @nlt F x y
  | _, _ => Rlt_bool (dreal a) (dreal b)
  end.
Definition dcmp (f : spec_float -> spec_float -> bool) (a b : dval) : bool :=
  match a, b with Val x, Val y => f x y | _, _ => false end.

Definition deferred : num :=
  Num dval dadd dsub dmul ddiv (dfun (@nsqrt F)) (dfun (@nfloor F)) (dfun (@nabs F)) dlt (dcmp (@nle F)) (dcmp (@neq F))
    (fun n => Val (@nofsz F n)) (fun z => Val (@nofz F z)) (Val (@neps F)) (Val (@nmin F))
    (fun a => match a with Val x => @ntosz F x | _ => None end).
Notation D := deferred.

Definition dfinite (v : dval) : Prop :=
  match v with
  | Val x => ieee_finite prec emax x
  | Prod x y => ieee_finite prec emax x /\ ieee_finite prec emax y
  | Other _ => True
  end.
Definition dden (v : D) (r : R) : Prop := dfinite v /\ dreal v = r.

Lemma denotes_opp x a : fdenotes prec emax x a -> fdenotes prec emax (SFopp x) (- a).
Proof.
  intros [[V Fi] <-]. destruct x as [s|s| |s m e]; try discriminate Fi; (split; [split; [exact V|reflexivity]|]); cbn.
  - ring.
  - destruct s; unfold ieee_real, SF2R; rewrite <- F2R_Zopp; reflexivity.
Qed.

Lemma approx_deferred :
  approx D dden (bpow radix2 (emax - 1)) (bpow radix2 (- prec)) (bpow radix2 (2 - emax - prec)) (Z.to_N (2 ^ prec)).
Proof.
  assert (N : forall x, near (bpow radix2 (- prec)) (bpow radix2 (2 - emax - prec)) x (rndf prec emax x)).
  { intros x. replace (2 - emax - prec)%Z with (3 - emax - prec - 1)%Z by lia. apply (rounding_nearest (3 - emax - prec) prec); lia. }
  destruct (approx_ieee prec emax Hp Hm) as [A1 A2 A3 A4 A5 A6 A7 A8 A9 A10].
  assert (NR : forall x, near (bpow radix2 (- prec)) (bpow radix2 (2 - emax - prec)) x x).
  { intros x. unfold near. rewrite Rminus_diag_eq, Rabs_R0 by reflexivity.
    pose proof (Rmult_le_pos _ _ (proj1 A1) (Rabs_pos x)). lra. }
  constructor; try assumption.
  - intros a b ra rb [Fa Ea] [Fb Eb] H. destruct a as [x|x y|q], b as [z|z w|q2]; cbn [dfinite dreal] in *;
      try (eexists; split; [split; [exact I|reflexivity]|]; cbn [dreal]; subst; apply NR).
    + destruct (A6 x z ra rb (conj Fa Ea) (conj Fb Eb) H) as (r & V & Nr). exists r. split; [exact V|exact Nr].
    + exists (rndf prec emax (ra + rb)). split; [|apply N].
      destruct Fb as [Fz Fw]. subst ra rb. rewrite Rplus_comm in H |- *.
      exact (denotes_fma prec emax Hp Hm z w x _ _ _ (conj Fz eq_refl) (conj Fw eq_refl) (conj Fa eq_refl) H).
  - intros a b ra rb [Fa Ea] [Fb Eb] H. destruct a as [x|x y|q], b as [z|z w|q2]; cbn [dfinite dreal] in *;
      try (eexists; split; [split; [exact I|reflexivity]|]; cbn [dreal]; subst; apply NR).
    + destruct (A7 x z ra rb (conj Fa Ea) (conj Fb Eb) H) as (r & V & Nr). exists r. split; [exact V|exact Nr].
    + exists (rndf prec emax (ra - rb)). split; [|apply N].
      destruct Fb as [Fz Fw]. subst ra rb.
      replace (ieee_real x - ieee_real z * ieee_real w) with (- ieee_real z * ieee_real w + ieee_real x) in * by ring.
      exact (denotes_fma prec emax Hp Hm (SFopp z) w x _ _ _ (denotes_opp z _ (conj Fz eq_refl)) (conj Fw eq_refl) (conj Fa eq_refl) H).
    + exists (rndf prec emax (ra - rb)). split; [|apply N].
      destruct Fa as [Fx Fy]. subst ra rb.
      replace (ieee_real x * ieee_real y - ieee_real z) with (ieee_real x * ieee_real y + - ieee_real z) in * by ring.
      exact (denotes_fma prec emax Hp Hm x y (SFopp z) _ _ _ (conj Fx eq_refl) (conj Fy eq_refl) (denotes_opp z _ (conj Fb eq_refl)) H).
  - intros a b ra rb [Fa Ea] [Fb Eb] H. exists (ra * rb). split; [|apply NR]. subst ra rb.
    destruct a as [x|x y|q], b as [z|z w|q2]; cbn [dfinite dreal] in *; split; cbn; auto.
  - intros a b ra rb [Fa Ea] [Fb Eb] Hz H. destruct a as [x|x y|q], b as [z|z w|q2]; cbn [dfinite dreal] in *;
      try (eexists; split; [split; [exact I|reflexivity]|]; cbn [dreal]; subst; apply NR).
    destruct (A9 x z ra rb (conj Fa Ea) (conj Fb Eb) Hz H) as (r & V & Nr). exists r. split; [exact V|exact Nr].
  - intros a b ra rb [Fa Ea] [Fb Eb]. destruct a as [x|x y|q], b as [z|z w|q2]; cbn [dfinite dreal] in *; subst; try reflexivity.
    exact (A10 x z _ _ (conj Fa eq_refl) (conj Fb eq_refl)).
Qed.

(** The same state over the two arithmetics. *)
Definition cm_d (s : cmean F) : cmean D := CMean D (Val (cm_mean F s)) (cm_count F s).
Definition cv_d (s : cvar F) : cvar D := CVar D (cm_d (cv_super F s)) (Val (cv_sum F s)).
Definition cc_d (s : ccov F) : ccov D := CCov D (cm_d (cc_x F s)) (cm_d (cc_y F s)) (Val (cc_center F s)).
Definition dm_d (s : dmean F) : dmean D := DMean D (Val (dm_factor F s)) (Val (dm_norm F s)) (Val (dm_sum F s)).
Definition dv_d (s : dvar F) : dvar D := DVar D (dm_d (dv_super F s)) (Val (dv_factor F s)) (Val (dv_norm F s)) (Val (dv_sum F s)).
Definition wm_d (s : wmean F) : wmean D := WMean D (map Val (wm_window F s)) (Val (wm_mean F s)).
Definition wv_d (s : wvar F) : wvar D := WVar D (wm_d (wv_super F s)) (Val (wv_sum F s)).
Definition fir_d (s : fir F) : fir D := @Fir D (map Val (fir_input s)) (Val (fir_output s)) (map Val (fir_coefficients s)).
Definition iir_d (s : iir F) : iir D :=
  @Iir D (map Val (iir_input s)) (map Val (iir_input_coefficients s)) (map Val (iir_output s)) (Val (iir_scale s))
    (map Val (iir_output_coefficients s)).
Definition pair_d (p : spec_float * spec_float) : dval * dval := (Val (fst p), Val (snd p)).

Lemma cm_step_d s x : cm_d (cmean_push F s x) = cmean_push D (cm_d s) (Val x).
Proof. reflexivity. Qed.
Lemma cv_step_d s x : cv_d (cvar_push_fma F U s x) = cvar_push D (cv_d s) (Val x).
Proof. reflexivity. Qed.
Lemma cc_step_d s p : cc_d (ccov_push_fma F U s p) = ccov_push D (cc_d s) (pair_d p).
Proof. destruct p as [x y]. reflexivity. Qed.
Lemma dm_step_d s x : dm_d (dmean_push_fma F U s x) = dmean_push D (dm_d s) (Val x).
Proof. reflexivity. Qed.

Lemma dm_mean_d s : dmean_mean D (dm_d s) = Val (dmean_mean F s).
Proof. destruct s as [f n q]. unfold dmean_mean. cbn [dm_d dm_norm dm_sum]. change (@nlt D (@n0 D) (Val n)) with (@nlt F (@n0 F) n). destruct (@nlt F _ _); reflexivity. Qed.
Lemma dv_step_d s x : dv_d (dvar_push_fma F U s x) = dvar_push D (dv_d s) (Val x).
Proof.
  unfold dvar_push. cbn [dv_d dv_super dv_factor dv_norm dv_sum]. rewrite <- dm_step_d, dm_mean_d. reflexivity.
Qed.

Lemma full_map {A B} (f : A -> B) W (l : list A) : rb_full W (map f l) = rb_full W l.
Proof. unfold rb_full. rewrite map_length. reflexivity. Qed.
Lemma back_map {A B} (f : A -> B) W (l : list A) x : map f (rb_push_back W l x) = rb_push_back W (map f l) (f x).
Proof.
  unfold rb_push_back. rewrite full_map. destruct (rb_full W l); rewrite map_app; [|reflexivity]. destruct l; reflexivity.
Qed.
Lemma removelast_map {A B} (f : A -> B) (l : list A) : map f (removelast l) = removelast (map f l).
Proof. induction l as [|a [|b l] IH]; [reflexivity|reflexivity|]. cbn [removelast map] in *. rewrite IH. reflexivity. Qed.
Lemma front_map {A B} (f : A -> B) W (l : list A) x : map f (rb_push_front W l x) = rb_push_front W (map f l) (f x).
Proof. unfold rb_push_front. rewrite full_map. destruct (rb_full W l); cbn; rewrite ?removelast_map; reflexivity. Qed.

Lemma wm_mean_d s : wmean_mean D (wm_d s) = Val (wmean_mean F s).
Proof. destruct s as [[|a w] m]; reflexivity. Qed.
Lemma wm_full_d W s : wmean_full D W (wm_d s) = wmean_full F W s.
Proof. exact (full_map Val W (wm_window F s)). Qed.
Lemma wv_size_d s : wvar_size D (wv_d s) = wvar_size F s.
Proof. destruct s as [[w m] q]. cbn. unfold wvar_size, wmean_size, rb_size. cbn. rewrite map_length. reflexivity. Qed.

Lemma wv_step_d W s x : wv_d (wvar_push_fma F U W s x) = wvar_push D W (wv_d s) (Val x).
Proof.
  unfold wvar_push_fma, wvar_push.
  change (wv_super D (wv_d s)) with (wm_d (wv_super F s)). rewrite wm_full_d, wm_mean_d, wv_size_d.
  change (wm_window D (wm_d (wv_super F s))) with (map Val (wm_window F (wv_super F s))).
  destruct (wmean_full F W (wv_super F s)).
  - destruct (wm_window F (wv_super F s)) as [|o w] eqn:E.
    + reflexivity.
    + cbn [rb_front hd_error map]. unfold wv_d at 1, wm_d at 1. cbn [wv_super wv_sum wm_window wm_mean]. rewrite back_map. reflexivity.
  - unfold wv_d at 1, wm_d at 1. cbn [wv_super wv_sum wm_window wm_mean]. rewrite back_map. reflexivity.
Qed.

Lemma inner_d (w c : list spec_float) : inner_product D (map Val w) (map Val c) = Val (inner_product_fma F U w c).
Proof.
  unfold inner_product, inner_product_fma. change (@n0 D) with (Val (@n0 F)). generalize (@n0 F). revert c.
  induction w as [|a w IH]; intros [|b c] z; try reflexivity. cbn [map combine fold_left]. rewrite <- IH. reflexivity.
Qed.

Lemma fir_step_d s x : fir_d (fir_push_fma F U s x) = fir_push D (fir_d s) (Val x).
Proof.
  unfold fir_push. cbn [fir_d fir_input fir_output fir_coefficients]. rewrite map_length, <- front_map, inner_d. reflexivity.
Qed.
Lemma iir_step_d s x : iir_d (iir_push_fma F U s x) = iir_push D (iir_d s) (Val x).
Proof.
  unfold iir_push. cbn [iir_d iir_input iir_output iir_scale iir_input_coefficients iir_output_coefficients].
  rewrite !map_length, <- front_map, !inner_d. unfold iir_d, iir_push_fma. cbn [iir_input iir_output iir_scale iir_input_coefficients iir_output_coefficients].
  rewrite (front_map Val (length (iir_output_coefficients s))). reflexivity.
Qed.

(** Histories. *)
Lemma run_d {A B S T} (g : A -> B) (f : S -> T) (ps : S -> A -> S) cs (pt : T -> B -> T) ct :
  (forall s a, f (ps s a) = pt (f s) (g a)) -> (forall s, f (cs s) = ct (f s)) ->
  forall ops s, f (run ps cs s ops) = run pt ct (f s) (map (op_map g) ops).
Proof.
  intros HP HC ops. unfold run. induction ops as [|[a|] ops IH]; intros s; cbn; [reflexivity| |]; rewrite IH; cbn;
    rewrite ?HP, ?HC; reflexivity.
Qed.
Notation dops := (map (op_map Val)).

Lemma cv_run_d ops : cv_d (run (cvar_push_fma F U) (cvar_clear F) (cvar_init F) ops)
  = run (cvar_push D) (cvar_clear D) (cvar_init D) (dops ops).
Proof. apply (run_d Val cv_d); [exact cv_step_d|reflexivity]. Qed.
Lemma cc_run_d ops : cc_d (run (ccov_push_fma F U) (ccov_clear F) (ccov_init F) ops)
  = run (ccov_push D) (ccov_clear D) (ccov_init D) (map (op_map pair_d) ops).
Proof. apply (run_d pair_d cc_d); [exact cc_step_d|reflexivity]. Qed.
Lemma dm_run_d f ops : dm_d (run (dmean_push_fma F U) (dmean_clear F) (dmean_init F f) ops)
  = run (dmean_push D) (dmean_clear D) (dmean_init D (Val f)) (dops ops).
Proof. apply (run_d Val dm_d); [exact dm_step_d|reflexivity]. Qed.
Lemma dv_run_d f g ops : dv_d (run (dvar_push_fma F U) (dvar_clear F) (dvar_init F f g) ops)
  = run (dvar_push D) (dvar_clear D) (dvar_init D (Val f) (Val g)) (dops ops).
Proof. apply (run_d Val dv_d); [exact dv_step_d|reflexivity]. Qed.
Lemma wv_run_d W ops : wv_d (run (wvar_push_fma F U W) (wvar_clear F) (wvar_init F) ops)
  = run (wvar_push D W) (wvar_clear D) (wvar_init D) (dops ops).
Proof. apply (run_d Val wv_d); [apply wv_step_d|reflexivity]. Qed.
Lemma fir_run_d c ops : fir_d (run (fir_push_fma F U) (fir_clear F) (fir_new F c) ops) = fir_run D (map Val c) (dops ops).
Proof. unfold fir_run. rewrite (run_d Val fir_d _ _ (fir_push D) (fir_clear D) fir_step_d); reflexivity. Qed.
Lemma iir_run_d b a sc ops : iir_d (run (iir_push_fma F U) (iir_clear F) (iir_new F b a sc) ops)
  = iir_run D (map Val b) (map Val a) (Val sc) (dops ops).
Proof.
  unfold iir_run. rewrite (run_d Val iir_d _ _ (iir_push D) (iir_clear D) iir_step_d); [|reflexivity].
  reflexivity.
Qed.
Lemma iir_value_d s : iir_value D (iir_d s) = Val (iir_value F s).
Proof. unfold iir_value. cbn [iir_d iir_output]. destruct (iir_output s); reflexivity. Qed.

(** What the statistics read. *)
Lemma cv_var_d s : cvar_variance D (cv_d s) = Val (cvar_variance F s).
Proof. reflexivity. Qed.
Lemma cc_var_d s : ccov_variance D (cc_d s) = Val (ccov_variance F s).
Proof. unfold ccov_variance. change (ccov_size D (cc_d s)) with (ccov_size F s). destruct (0 <? ccov_size F s)%N; reflexivity. Qed.
Lemma dv_var_d s : dvar_variance D (dv_d s) = Val (dvar_variance F s).
Proof.
  destruct s as [u f n q]. unfold dvar_variance. cbn [dv_d dv_norm dv_sum].
  change (@nlt D (@n0 D) (Val n)) with (@nlt F (@n0 F) n). destruct (@nlt F _ _); reflexivity.
Qed.
Lemma wv_var_d s : wvar_variance D (wv_d s) = Val (wvar_variance F s).
Proof. unfold wvar_variance. rewrite wv_size_d. destruct (0 <? wvar_size F s)%N; [|reflexivity].
  unfold nmax. cbn [wv_d wv_sum].
  change (@nlt D (@n0 D) _) with (@nlt F (@n0 F) (@ndiv F (wv_sum F s) (@nofsz F (wvar_size F s)))). destruct (@nlt F _ _); reflexivity. Qed.

Lemma dden_list (l : list spec_float) : Forall (ieee_finite prec emax) l -> Forall2 dden (map Val l) (map ieee_real l).
Proof. induction 1 as [|x l Hx _ IH]; constructor; [split; [exact Hx|reflexivity]|exact IH]. Qed.
End Deferred.
