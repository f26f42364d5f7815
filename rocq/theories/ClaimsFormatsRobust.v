(** * Claims C97 and C103 for every IEEE value type: classical inequalities between the reported
    statistics, and the effect of small errors in the data, both up to the rounding errors *)

From Coq Require Import Reals ZArith NArith List Bool.
From Coq Require Import Floats.SpecFloat.
From Flocq Require Import Core.
From Verif Require Import Arith History SpecStats SpecDecay SpecInequality SpecSensitivity Cumulative Window Decay Ieee.
Import ListNotations.
Local Open Scope R_scope.
(** A float of an integer. *)
Local Notation f32 z := (ieee_of_Z 24 128 z).
(* @end-header *)
From Coq Require Import Lia Lra Psatz.
From Flocq Require Import IEEE754.BinarySingleNaN.
From Verif Require Import HistoryLemmas StatsLemmas Approx ApproxInstances CumulativeProofs
  IeeeProofs AccuracyVariance ClaimsAccuracy ClaimsFormats ClaimsFormatsMore InterimStats Scaling Monotone InequalityProofs SensitivityProofs WindowProofs.

Lemma far_shift m m' d e l : Rabs (m' - m) <= e -> INR (far m' (d + e) l) <= INR (far m d l).
Proof.
  intros H. apply le_INR. unfold far. induction l as [|x l IH]; [cbn; lia|]. cbn [filter].
  destruct (Rle_dec (d + e) (Rabs (x - m'))) as [A|A], (Rle_dec d (Rabs (x - m))) as [B|B]; cbn [length]; try lia.
  exfalso. apply B. replace (x - m') with ((x - m) - (m' - m)) in A by ring.
  pose proof (Rabs_triang (x - m) (- (m' - m))) as T. rewrite Rabs_Ropp in T. unfold Rminus at 1 in A. lra.
Qed.

Lemma root_near v V e : 0 <= V -> Rabs (v - V) <= e -> Rabs (sqrt v - sqrt V) <= sqrt e.
Proof.
  intros HV H. pose proof (sqrt_pos v) as A. pose proof (sqrt_pos V) as B. pose proof (sqrt_sqrt V HV) as B2.
  destruct (Rle_dec 0 v) as [Hv|Hv].
  - pose proof (sqrt_sqrt v Hv) as A2.
    rewrite <- (sqrt_Rsqr (Rabs (sqrt v - sqrt V))) by apply Rabs_pos. apply sqrt_le_1_alt. eapply Rle_trans; [|exact H].
    unfold Rsqr. assert (E : v - V = (sqrt v - sqrt V) * (sqrt v + sqrt V)) by nra. rewrite E.
    rewrite Rabs_mult. apply Rmult_le_compat_l; [apply Rabs_pos|]. rewrite (Rabs_pos_eq (sqrt v + sqrt V)) by lra. apply Rabs_le. lra.
  - rewrite (sqrt_neg_0 v) by lra. rewrite Rabs_minus_sym, Rminus_0_r, Rabs_pos_eq by lra. apply sqrt_le_1_alt. apply Rabs_le_inv in H. lra.
Qed.

(** @prop C97_ieee: in every IEEE format, with the error bounds [Em] and [Ev] of C110 for mean()
    and variance(): mean() exceeds the range of the values by at most [Em]; variance() is at
    most a quarter of the squared range plus [Ev]; every value is within
    sqrt((n-1)(variance() + Ev)) + Em of mean(); and at most n (variance() + Ev) / d^2 values
    are further than d + Em from mean(). *)
Lemma c97_ieee : forall (prec emax : Z) (ops : list (op spec_float)) (M : R),
  (1 < prec < emax)%Z ->
  let l := since_clear ops in
  let n := INR (length l) in
  let u := bpow radix2 (- prec) in
  let eta := bpow radix2 (2 - emax - prec) in
  let big := bpow radix2 (emax - 1) in
  l <> [] -> (N.of_nat (length l) < szmod)%N ->
  64 * n * u <= 1 -> 32 * n * eta <= M -> 16 * M + 60 * n * eta <= big -> 64 * n * (M * M) + 16 * n * eta <= big ->
  Forall (fun x => ieee_finite prec emax x /\ Rabs (ieee_real x) <= M) l ->
  let F := ieee prec emax in
  let s := run (cvar_push F) (cvar_clear F) (cvar_init F) ops in
  let m := ieee_real (cvar_mean F s) in
  let v := ieee_real (cvar_variance F s) in
  let Em := (n + 25) * u * M + (3 * n + 11) * eta in
  let Ev := 5 * ((14 * n + 308) * u * (M * M) + (3 * n + 13) * (10 * M) * eta + 3 * eta) in
  let lv := map ieee_real l in
  ieee_finite prec emax (cvar_mean F s) /\ ieee_finite prec emax (cvar_variance F s) /\
  (forall a b, all_in a b lv -> a - Em <= m <= b + Em /\ v <= (b - a) ^ 2 / 4 + Ev) /\
  (forall x, In x lv -> Rabs (x - m) <= sqrt ((n - 1) * (v + Ev)) + Em) /\
  (forall d, 0 <= d -> INR (far m (d + Em) lv) * d ^ 2 <= n * (v + Ev)).
Proof.
  intros prec emax ops M Hp l n u eta big NE Hs Hn Ht HM HMM HF F s m v Em Ev lv.
  pose proof (bp (- prec)) as U0. fold u in U0. pose proof (inr_ge1 l NE) as N1. fold n in N1.
  assert (Hn16 : 16 * n * u <= 1) by nra.
  destruct (c110_mean prec emax ops M Hp NE Hs Hn16 HM HF) as [Fm Am].
  destruct (c110_variance prec emax ops M Hp NE Hs Hn Ht HM HMM HF) as [Fv Av].
  fold l in Am, Av. fold n u eta in Am, Av. fold Em in Am. fold Ev in Av. fold lv in Am, Av. fold F in Am, Av, Fm, Fv. fold s in Fv, Av. fold v in Av.
  assert (E : cvar_mean F s = cmean_mean F (run (cmean_push F) (cmean_clear F) (cmean_init F) ops)) by (unfold s; apply cvar_mean_run_any).
  rewrite <- E in Fm, Am. fold m in Am.
  assert (NL : lv <> []) by (unfold lv; destruct l; [congruence|discriminate]).
  assert (CN : card lv = n) by (unfold card, lv, n; rewrite map_length; reflexivity).
  assert (V : variance lv <= v + Ev) by (apply Rabs_le_inv in Av; lra).
  split; [exact Fm|]. split; [exact Fv|]. split; [|split].
  - intros a b H. pose proof (mean_bounds a b lv NL H) as B. pose proof (popoviciu a b lv NL H) as P.
    apply Rabs_le_inv in Am. apply Rabs_le_inv in Av. lra.
  - intros x Hx. pose proof (samuelson lv x Hx) as S. rewrite CN in S.
    assert (Q : Rabs (x - mean lv) <= sqrt ((n - 1) * (v + Ev))).
    { rewrite <- (sqrt_Rsqr (Rabs (x - mean lv))) by apply Rabs_pos. apply sqrt_le_1_alt. rewrite <- Rsqr_abs. unfold Rsqr. nra. }
    replace (x - m) with ((x - mean lv) - (m - mean lv)) by ring. unfold Rminus at 1. eapply Rle_trans; [apply Rabs_triang|]. rewrite Rabs_Ropp. lra.
  - intros d D0. pose proof (chebyshev d lv D0) as C. rewrite CN in C. pose proof (far_shift (mean lv) m d Em lv Am) as S.
    pose proof (pow2_ge_0 d). nra.
Qed.

(** @ex C97_ieee_ex: the floats 1, 2, 9: the mean is 4, one value is 5 away from it. *)
Lemma c97_ieee_ex :
  let l := since_clear [Push (f32 7); Clear; Push (f32 1); Push (f32 2); Push (f32 9)] in
  l = [f32 1; f32 2; f32 9] /\ 64 * 3 * bpow radix2 (- 24) <= 1 /\ 32 * 3 * bpow radix2 (2 - 128 - 24) <= 9 /\
  16 * 9 + 60 * 3 * bpow radix2 (2 - 128 - 24) <= bpow radix2 (128 - 1) /\
  64 * 3 * (9 * 9) + 16 * 3 * bpow radix2 (2 - 128 - 24) <= bpow radix2 (128 - 1) /\
  Forall (fun x => ieee_finite 24 128 x /\ Rabs (ieee_real x) <= 9) l /\
  all_in 1 9 (map ieee_real l) /\ far 4 5 (map ieee_real l) = 1%nat.
Proof.
  cbv zeta. pose proof float_tiny. pose proof float_big. split; [reflexivity|]. split; [cbn; lra|]. split; [lra|]. split; [lra|]. split; [lra|].
  change (since_clear _) with [f32 1; f32 2; f32 9].
  assert (E : map ieee_real [f32 1; f32 2; f32 9] = [1; 2; 9]).
  { cbn [map]. repeat (match goal with |- context [ieee_real ?x] => let y := eval vm_compute in x in change x with y end).
    unfold ieee_real, SF2R, F2R. cbn. repeat (apply f_equal2; [lra|]). reflexivity. }
  split; [fmags|]. rewrite E. split; [unfold all_in; repeat constructor; lra|].
  unfold far. cbn. rewrite (Rabs_left (1 - 4)), (Rabs_left (2 - 4)), (Rabs_pos_eq (9 - 4)) by lra.
  destruct (Rle_dec 5 (- (1 - 4))); [lra|]. destruct (Rle_dec 5 (- (2 - 4))); [lra|].
  destruct (Rle_dec 5 (9 - 4)); [reflexivity|lra].
Qed.

Lemma near_values d ops ops' : perturbed d (map (op_map ieee_real) ops) (map (op_map ieee_real) ops') ->
  nearby d (map ieee_real (since_clear ops)) (map ieee_real (since_clear ops')).
Proof. intros H. pose proof (related_since _ _ _ H) as G. rewrite !since_clear_op_map in G. exact G. Qed.

Lemma near_len d (l l' : list spec_float) : nearby d (map ieee_real l) (map ieee_real l') -> length l' = length l.
Proof. intros H. apply Forall2_len in H. rewrite !map_length in H. congruence. Qed.

Lemma len_ne {A} (l l' : list A) : length l' = length l -> l <> [] -> l' <> [].
Proof. destruct l, l'; cbn; congruence. Qed.

Lemma three_steps a b A B d e : Rabs (a - A) <= e -> Rabs (b - B) <= e -> Rabs (A - B) <= d -> Rabs (a - b) <= d + 2 * e.
Proof. intros H1 H2 H3. apply Rabs_le_inv in H1. apply Rabs_le_inv in H2. apply Rabs_le_inv in H3. apply Rabs_le. lra. Qed.

(** @prop C103_ieee_mean: in every IEEE format, for two histories whose values differ by at
    most d: the cumulative means differ by at most d, and the standard deviations by at most d,
    plus twice the rounding errors of C110. *)
Lemma c103_ieee_mean : forall (prec emax : Z) (d : R) (ops ops' : list (op spec_float)) (M : R),
  (1 < prec < emax)%Z ->
  perturbed d (map (op_map ieee_real) ops) (map (op_map ieee_real) ops') ->
  let l := since_clear ops in
  let n := INR (length l) in
  let u := bpow radix2 (- prec) in
  let eta := bpow radix2 (2 - emax - prec) in
  let big := bpow radix2 (emax - 1) in
  l <> [] -> (N.of_nat (length l) < szmod)%N ->
  64 * n * u <= 1 -> 32 * n * eta <= M -> 16 * M + 60 * n * eta <= big -> 64 * n * (M * M) + 16 * n * eta <= big ->
  Forall (fun x => ieee_finite prec emax x /\ Rabs (ieee_real x) <= M) l ->
  Forall (fun x => ieee_finite prec emax x /\ Rabs (ieee_real x) <= M) (since_clear ops') ->
  let F := ieee prec emax in
  let s := run (cvar_push F) (cvar_clear F) (cvar_init F) ops in
  let s' := run (cvar_push F) (cvar_clear F) (cvar_init F) ops' in
  let Em := (n + 25) * u * M + (3 * n + 11) * eta in
  let Ev := 5 * ((14 * n + 308) * u * (M * M) + (3 * n + 13) * (10 * M) * eta + 3 * eta) in
  Rabs (ieee_real (cvar_mean F s) - ieee_real (cvar_mean F s')) <= d + 2 * Em /\
  Rabs (sqrt (ieee_real (cvar_variance F s)) - sqrt (ieee_real (cvar_variance F s'))) <= d + 2 * sqrt Ev.
Proof.
  intros prec emax d ops ops' M Hp HP l n u eta big NE Hs Hn Ht HM HMM HF HF' F s s' Em Ev.
  pose proof (near_values _ _ _ HP) as H. fold l in H. pose proof (near_len _ _ _ H) as EL. pose proof (len_ne _ _ EL NE) as NE'.
  pose proof (bp (- prec)) as U0. fold u in U0. pose proof (inr_ge1 l NE) as N1. fold n in N1.
  assert (Hn16 : 16 * n * u <= 1) by nra.
  assert (EN : INR (length (since_clear ops')) = n) by (unfold n; rewrite EL; reflexivity).
  assert (Hs' : (N.of_nat (length (since_clear ops')) < szmod)%N) by (rewrite EL; exact Hs).
  pose proof (c110_mean prec emax ops M Hp NE Hs Hn16 HM HF) as [_ Am].
  pose proof (c110_variance prec emax ops M Hp NE Hs Hn Ht HM HMM HF) as [_ Av].
  pose proof (c110_mean prec emax ops' M Hp NE' Hs') as Am'. pose proof (c110_variance prec emax ops' M Hp NE' Hs') as Av'.
  cbv zeta in Am', Av'. rewrite EN in Am', Av'. destruct (Am' Hn16 HM HF') as [_ Bm]. destruct (Av' Hn Ht HM HMM HF') as [_ Bv]. clear Am' Av'.
  rewrite <- (cvar_mean_run_any (ieee prec emax)) in Am, Bm.
  assert (NL : map ieee_real l <> []) by (destruct l; [congruence|discriminate]).
  split.
  - exact (three_steps _ _ _ _ d Em Am Bm (mean_near d _ _ H NL)).
  - exact (three_steps _ _ _ _ d (sqrt Ev) (root_near _ _ _ (variance_nonneg _) Av) (root_near _ _ _ (variance_nonneg _) Bv) (deviation_near d _ _ H NL)).
Qed.

(** @ex C103_ieee_mean_ex: three floats, the second history off by at most 1. *)
Lemma c103_ieee_mean_ex :
  let ops := [Push (f32 7); Clear; Push (f32 1); Push (f32 2); Push (f32 9)] in
  let ops' := [Push (f32 7); Clear; Push (f32 1); Push (f32 3); Push (f32 8)] in
  perturbed 1 (map (op_map ieee_real) ops) (map (op_map ieee_real) ops') /\
  since_clear ops = [f32 1; f32 2; f32 9] /\ 64 * 3 * bpow radix2 (- 24) <= 1 /\ 32 * 3 * bpow radix2 (2 - 128 - 24) <= 9 /\
  16 * 9 + 60 * 3 * bpow radix2 (2 - 128 - 24) <= bpow radix2 (128 - 1) /\
  64 * 3 * (9 * 9) + 16 * 3 * bpow radix2 (2 - 128 - 24) <= bpow radix2 (128 - 1) /\
  Forall (fun x => ieee_finite 24 128 x /\ Rabs (ieee_real x) <= 9) (since_clear ops) /\
  Forall (fun x => ieee_finite 24 128 x /\ Rabs (ieee_real x) <= 9) (since_clear ops').
Proof.
  cbv zeta. pose proof float_tiny. pose proof float_big. split.
  { unfold perturbed, related. cbn [map op_map]. repeat (match goal with |- context [ieee_real (ieee_of_Z 24 128 ?x)] => let y := eval vm_compute in (ieee_of_Z 24 128 x) in change (ieee_of_Z 24 128 x) with y end).
    unfold ieee_real, SF2R, F2R. cbn. repeat (constructor; [first [exact I|apply Rabs_le; lra]|]). constructor. }
  split; [reflexivity|]. split; [cbn; lra|]. split; [lra|]. split; [lra|]. split; [lra|].
  split; [change (since_clear _) with [f32 1; f32 2; f32 9]; fmags|change (since_clear _) with [f32 1; f32 3; f32 8]; fmags].
Qed.

(** @prop C103_ieee_window_mean: likewise the window mean, after [n] pushes since the last
    clear, with the rounding errors of C110. *)
Lemma c103_ieee_window_mean : forall (prec emax : Z) (W : nat) (d : R) (ops ops' : list (op spec_float)) (M : R),
  (1 < prec < emax)%Z ->
  perturbed d (map (op_map ieee_real) ops) (map (op_map ieee_real) ops') ->
  let l := since_clear ops in
  let n := INR (length l) in
  let u := bpow radix2 (- prec) in
  let eta := bpow radix2 (2 - emax - prec) in
  let big := bpow radix2 (emax - 1) in
  (0 < W)%nat -> (Z.of_nat W <= 2 ^ prec)%Z -> (N.of_nat W < szmod)%N ->
  l <> [] -> 16 * n * u <= 1 -> 16 * M + 60 * n * eta <= big ->
  Forall (fun x => ieee_finite prec emax x /\ Rabs (ieee_real x) <= M) l ->
  Forall (fun x => ieee_finite prec emax x /\ Rabs (ieee_real x) <= M) (since_clear ops') ->
  let F := ieee prec emax in
  let m := wmean_mean F (run (wmean_push F W) (wmean_clear F) (wmean_init F) ops) in
  let m' := wmean_mean F (run (wmean_push F W) (wmean_clear F) (wmean_init F) ops') in
  Rabs (ieee_real m - ieee_real m') <= d + 2 * (n * (26 * u * M + 14 * eta)).
Proof.
  intros prec emax W d ops ops' M Hp HP l n u eta big HW HK Hs NE Hn HM HF HF' F m m'.
  pose proof (near_values _ _ _ HP) as H. fold l in H. pose proof (near_len _ _ _ H) as EL. pose proof (len_ne _ _ EL NE) as NE'.
  assert (EN : INR (length (since_clear ops')) = n) by (unfold n; rewrite EL; reflexivity).
  pose proof (c110_window_mean prec emax W ops M Hp HW HK Hs NE Hn HM HF) as [_ A].
  pose proof (c110_window_mean prec emax W ops' M Hp HW HK Hs NE') as A'. cbv zeta in A'. rewrite EN in A'. destruct (A' Hn HM HF') as [_ B]. clear A'.
  assert (NL : lastn W (map ieee_real l) <> []).
  { intros E. apply (f_equal (@length _)) in E. rewrite lastn_length, map_length in E. cbn in E. destruct l; [congruence|cbn in E; lia]. }
  pose proof (forall2_lastn _ W _ _ H) as H3.
  exact (three_steps _ _ _ _ d _ A B (mean_near d _ _ H3 NL)).
Qed.

(** @ex C103_ieee_window_mean_ex: a window of two floats. *)
Lemma c103_ieee_window_mean_ex :
  let ops := [Push (f32 7); Clear; Push (f32 1); Push (f32 2); Push (f32 9)] in
  let ops' := [Push (f32 7); Clear; Push (f32 1); Push (f32 3); Push (f32 8)] in
  perturbed 1 (map (op_map ieee_real) ops) (map (op_map ieee_real) ops') /\
  (Z.of_nat 2 <= 2 ^ 24)%Z /\ lastn 2 (since_clear ops) = [f32 2; f32 9] /\ 16 * 3 * bpow radix2 (- 24) <= 1 /\
  16 * 9 + 60 * 3 * bpow radix2 (2 - 128 - 24) <= bpow radix2 (128 - 1) /\
  Forall (fun x => ieee_finite 24 128 x /\ Rabs (ieee_real x) <= 9) (since_clear ops) /\
  Forall (fun x => ieee_finite 24 128 x /\ Rabs (ieee_real x) <= 9) (since_clear ops').
Proof.
  cbv zeta. pose proof float_tiny. pose proof float_big. destruct c103_ieee_mean_ex as (P & _ & _ & _ & _ & _ & F1 & F2).
  split; [exact P|]. split; [lia|]. split; [reflexivity|]. split; [cbn; lra|]. split; [lra|]. split; [exact F1|exact F2].
Qed.

(** @prop C103_ieee_decay_mean: likewise the mean of the decay filter, however many values are
    pushed. *)
Lemma c103_ieee_decay_mean : forall (prec emax : Z) (f : spec_float) (d : R) (l l' : list spec_float) (M : R),
  (1 < prec < emax)%Z ->
  let u := bpow radix2 (- prec) in
  let eta := bpow radix2 (2 - emax - prec) in
  let big := bpow radix2 (emax - 1) in
  let fv := ieee_real f in
  ieee_finite prec emax f -> 0 < fv <= 1 -> 104 * u <= fv -> 56 * eta <= fv * fv ->
  l <> [] -> 16 * (M + 1) <= big -> 32 <= big ->
  nearby d (map ieee_real l) (map ieee_real l') ->
  Forall (fun x => ieee_finite prec emax x /\ Rabs (ieee_real x) <= M) l ->
  Forall (fun x => ieee_finite prec emax x /\ Rabs (ieee_real x) <= M) l' ->
  let F := ieee prec emax in
  let m := dmean_mean F (run (dmean_push F) (dmean_clear F) (dmean_init F f) (pushes l)) in
  let m' := dmean_mean F (run (dmean_push F) (dmean_clear F) (dmean_init F f) (pushes l')) in
  Rabs (ieee_real m - ieee_real m') <= d + 2 * (209 * u * M / fv + 57 * eta * (1 + M) / (fv * fv)).
Proof.
  intros prec emax f d l l' M Hp u eta big fv Ff Hf Hu He NE HM H32 H HF HF' F m m'.
  pose proof (near_len _ _ _ H) as EL. pose proof (len_ne _ _ EL NE) as NE'.
  pose proof (c110_decay_mean prec emax f l M Hp Ff Hf Hu He NE HM H32 HF) as [_ A].
  pose proof (c110_decay_mean prec emax f l' M Hp Ff Hf Hu He NE' HM H32 HF') as [_ B].
  assert (NL : map ieee_real l <> []) by (destruct l; [congruence|discriminate]).
  exact (three_steps _ _ _ _ d _ A B (ewma_near fv d _ _ Hf H NL)).
Qed.

(** @ex C103_ieee_decay_mean_ex: factor 1/2, two floats. *)
Lemma c103_ieee_decay_mean_ex :
  let f := @ndiv (ieee 24 128) (f32 1) (f32 2) in
  ieee_finite 24 128 f /\ ieee_real f = / 2 /\ 104 * bpow radix2 (- 24) <= / 2 /\ 56 * bpow radix2 (2 - 128 - 24) <= / 2 * / 2 /\
  16 * (1000000 + 1) <= bpow radix2 (128 - 1) /\ 32 <= bpow radix2 (128 - 1) /\
  nearby 2 (map ieee_real [f32 1000000; f32 (-7)]) (map ieee_real [f32 999999; f32 (-5)]) /\
  Forall (fun x => ieee_finite 24 128 x /\ Rabs (ieee_real x) <= 1000000) [f32 1000000; f32 (-7)] /\
  Forall (fun x => ieee_finite 24 128 x /\ Rabs (ieee_real x) <= 1000000) [f32 999999; f32 (-5)].
Proof.
  cbv zeta. destruct c110_decay_mean_ex as (A & B & C & D & E & G & I). do 6 (split; [assumption|]). split.
  { unfold nearby. cbn [map]. repeat (match goal with |- context [ieee_real (ieee_of_Z 24 128 ?x)] => let y := eval vm_compute in (ieee_of_Z 24 128 x) in change (ieee_of_Z 24 128 x) with y end).
    unfold ieee_real, SF2R, F2R. cbn. repeat (constructor; [apply Rabs_le; lra|]). constructor. }
  split; [exact I|fmags].
Qed.
