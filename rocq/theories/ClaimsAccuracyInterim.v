(** * Claim C88: accuracy of the interim filters in rounded arithmetic *)

From Coq Require Import Reals ZArith NArith List Bool.
From Coq Require Import Floats.SpecFloat.
From Flocq Require Import Core.
From Verif Require Import Arith History SpecStats SpecBlocks Cumulative Interim Rounded Binary64 ExactRuns.
Import ListNotations.
Local Open Scope R_scope.
(* @end-header *)
From Coq Require Import Lia Lra Psatz.
From Flocq Require Import BinarySingleNaN.
From Verif Require Import HistoryLemmas StatsLemmas BlockLemmas CumulativeProofs WindowProofs InterimStats RoundedProofs
  Binary64Cumulative Approx ApproxInstances AccuracyProofs AccuracyVariance AccuracyInterim ClaimsAccuracy.

Definition xr (x : xreal) : R := match x with Fin r => r | NonFin => 0 end.

Lemma xr_fin (l : list R) : map xr (map Fin l) = l.
Proof. rewrite map_map. cbn. apply map_id. Qed.

Lemma imean_run_state (F : num) W ops : (0 < W)%nat -> (2 * N.of_nat W < szmod)%N ->
  run (imean_push F (N.of_nat W)) (imean_clear F) (imean_init F) ops =
  Duo (fold_left (cmean_push F) (cur_block W (since_clear ops)) (cmean_init F))
      (fold_left (cmean_push F) (prev_block W (since_clear ops)) (cmean_init F)).
Proof.
  intros HW HS. unfold imean_push, imean_clear, imean_init.
  apply (duo_run W HW); [lia|reflexivity|apply cmean_csize].
Qed.

Lemma ivar_run_state (F : num) W ops : (0 < W)%nat -> (N.of_nat W < szmod)%N ->
  run (ivar_push F (N.of_nat W)) (ivar_clear F) (ivar_init F) ops =
  Duo (fold_left (cvar_push F) (cur_block W (since_clear ops)) (cvar_init F))
      (fold_left (cvar_push F) (prev_block W (since_clear ops)) (cvar_init F)).
Proof.
  intros HW HS. unfold ivar_push, ivar_clear, ivar_init.
  apply (duo_run W HW); [lia|reflexivity|apply cvar_csize].
Qed.

Lemma icov_run_state (F : num) W ops : (0 < W)%nat -> (N.of_nat W < szmod)%N ->
  run (icov_push F (N.of_nat W)) (icov_clear F) (icov_init F) ops =
  Duo (fold_left (ccov_push F) (cur_block W (since_clear ops)) (ccov_init F))
      (fold_left (ccov_push F) (prev_block W (since_clear ops)) (ccov_init F)).
Proof.
  intros HW HS. unfold icov_push, icov_clear, icov_init.
  apply (duo_run W HW); [lia|reflexivity|apply ccov_csize].
Qed.

(** ** C88 *)

(** @prop C88_mean_rounded: in every format and rounding mode, for every
    window W and every number of pushes: if the last 2W values since the last
    clear() are at most [M] in magnitude, mean() is a number within
    [(W + 46) u M + (3 W + 29) eta] of the weighted mean of the two blocks (of the
    mean while at most W values were pushed). The bound does not grow with the
    number of pushes. *)
Lemma c88_mean_rounded : forall (emin prec : Z) (mode : R -> Z) (W : nat) (ops : list (op R)) (M : R),
  (0 < prec)%Z -> (emin <= 0)%Z -> Valid_rnd mode ->
  let l := since_clear ops in
  let u := bpow radix2 (1 - prec) in
  let eta := bpow radix2 emin in
  l <> [] -> (0 < W)%nat -> (2 * Z.of_nat W <= 2 ^ prec)%Z -> (2 * Z.of_nat W < 2 ^ 64)%Z ->
  16 * INR W * u <= 1 ->
  Forall (fun x => Rabs x <= M) (lastn (2 * W) l) ->
  let F := rounded emin prec mode in
  let w := N.of_nat W in
  let d := run (imean_push F w) (imean_clear F) (imean_init F) (fops emin prec mode ops) in
  let p := mean (prev_block W l) in
  let a := mean (cur_block W l) in
  let s := card (cur_block W l) in
  exists m, imean_mean F w d = Fin m /\
    ((length l <= W)%nat -> Rabs (m - mean l) <= (INR W + 46) * u * M + (3 * INR W + 29) * eta) /\
    ((W < length l)%nat -> Rabs (m - (p * (INR W - s) + a * (2 * s)) / (INR W + s)) <=
       (INR W + 46) * u * M + (3 * INR W + 29) * eta).
Proof.
  intros emin prec mode W ops M Hp He Hv l u eta NE HW HK H64 H16 HM F w d p a s.
  assert (HS : (2 * N.of_nat W < szmod)%N) by (unfold szmod; lia).
  assert (M0 : 0 <= M).
  { assert (NL : lastn (2 * W) l <> []).
    { intros Z. apply (f_equal (@length R)) in Z. rewrite (lastn_length (2 * W) l) in Z.
      destruct l; [congruence|]. cbn in Z. lia. }
    apply (magn_pos (fun x => x) M (lastn (2 * W) l)); assumption. }
  assert (T : 0 < eta) by apply bp.
  assert (W1 : 1 <= INR W) by (apply (le_INR 1); lia).
  destruct (imean_accuracy (F := F) (@approx_any emin prec Hp He mode
    (16 * M + 60 * INR W * eta + (24 * INR W * M + 112 * (INR W * INR W * eta) + 5 * eta)) Hv)
    (f_equal Fin (integer_exact emin prec Hp He mode 0 Hv ltac:(pose proof (Z.pow_pos_nonneg 2 prec ltac:(lia) ltac:(lia)); lia)))
    xr W M (map Fin l)) as (r & Vr & H1 & H2); try assumption.
  - destruct l; [congruence|discriminate].
  - change (@Fin) with (fun r : R => (Fin r : F)). rewrite lastn_map. apply Forall_map.
    eapply Forall_impl; [|exact HM]. intros x Hx. split; [reflexivity|exact Hx].
  - lia.
  - fold u eta. assert (0 <= INR W * M) by (apply Rmult_le_pos; lra).
    assert (0 <= INR W * INR W * eta) by (apply Rmult_le_pos; [nra|lra]). lra.
  - fold u eta. assert (0 <= INR W * eta) by (apply Rmult_le_pos; lra). lra.
  - unfold d, w, F. rewrite (imean_run_state (rounded emin prec mode) W _ HW HS), fops_since. fold l.
    exists r. split; [exact Vr|].
    fold u eta in H1, H2. rewrite map_length in H1, H2.
    rewrite cur_block_map, prev_block_map, !xr_fin in H2.
    change (map xr (map Fin l)) with (map xr (map Fin l)) in H1. rewrite xr_fin in H1.
    split.
    + intros L. specialize (H1 L). lra.
    + intros L. specialize (H2 L). unfold p, a, s. lra.
Qed.

(** @ex C88_mean_rounded_ex: a format of twelve bits rounding towards zero, W = 2,
    after five values of which an early one is out of bounds. *)
Lemma c88_mean_rounded_ex :
  let ops := [Push 3; Clear; Push 99; Push (-10); Push 3; Push 7; Push 2] in
  (0 < 12)%Z /\ (-20 <= 0)%Z /\ Valid_rnd Ztrunc /\ since_clear ops = [99; -10; 3; 7; 2] /\ (0 < 2)%nat /\
  (2 * Z.of_nat 2 <= 2 ^ 12)%Z /\ (2 * Z.of_nat 2 < 2 ^ 64)%Z /\ 16 * INR 2 * bpow radix2 (1 - 12) <= 1 /\
  Forall (fun x => Rabs x <= 10) (lastn (2 * 2) (since_clear ops)) /\
  cur_block 2 (since_clear ops) = [2] /\ prev_block 2 (since_clear ops) = [3; 7].
Proof.
  cbn zeta. split; [lia|]. split; [lia|]. split; [typeclasses eauto|]. split; [reflexivity|]. split; [lia|].
  split; [cbn; lia|]. split; [cbn; lia|]. split; [cbn; lra|]. split; [|split; reflexivity].
  cbn. repeat (apply Forall_cons; [apply Rabs_le; lra|]). apply Forall_nil.
Qed.

Lemma b64_tame M (c : list b64) : Forall (fun x => b64_finite x /\ Rabs (b64_real x) <= M) c ->
  Forall (@tame b64num denotes b64_real M) c.
Proof. apply Forall_impl. intros x [H1 H2]. split; [split; [exact H1|reflexivity]|exact H2]. Qed.

Lemma recent_nil {A} W (l : list A) : (0 < W)%nat -> l <> [] -> lastn (2 * W) l <> [].
Proof.
  intros HW NE Z. apply (f_equal (@length A)) in Z. rewrite lastn_length in Z.
  destruct l; [congruence|]. cbn in Z. lia.
Qed.

Lemma b64_W (W : nat) (k : Z) : (0 <= k)%Z -> (Z.of_nat W <= 2 ^ k)%Z -> INR W <= bpow radix2 k.
Proof.
  intros Hk H. rewrite INR_IZR_INZ. change radix2 with (Build_radix 2 (refl_equal true)).
  rewrite <- IZR_Zpower by exact Hk. apply IZR_le. exact H.
Qed.

(** @prop C88_mean_binary64: the same in binary64 for windows up to 2^49 and
    [M <= 2^960]; values before the last 2W may be anything, including NaN and
    infinities. *)
Lemma c88_mean_binary64 : forall (W : nat) (ops : list (op b64)) (M : R),
  let l := since_clear ops in
  l <> [] -> (0 < W)%nat -> (Z.of_nat W <= 2 ^ 49)%Z -> M <= bpow radix2 960 ->
  Forall (fun x => b64_finite x /\ Rabs (b64_real x) <= M) (lastn (2 * W) l) ->
  let w := N.of_nat W in
  let d := run (imean_push b64num w) (imean_clear b64num) (imean_init b64num) ops in
  let m := imean_mean b64num w d in
  let p := mean (map b64_real (prev_block W l)) in
  let a := mean (map b64_real (cur_block W l)) in
  let s := card (cur_block W l) in
  let bound := (INR W + 46) * bpow radix2 (-53) * M + (3 * INR W + 29) * bpow radix2 (-1075) in
  b64_finite m /\
  ((length l <= W)%nat -> Rabs (b64_real m - mean (map b64_real l)) <= bound) /\
  ((W < length l)%nat -> Rabs (b64_real m - (p * (INR W - s) + a * (2 * s)) / (INR W + s)) <= bound).
Proof.
  intros W ops M l NE HW HWb HM HF w d m p a s bound.
  assert (HS : (2 * N.of_nat W < szmod)%N) by (unfold szmod; lia).
  pose proof (b64_W W 49 ltac:(lia) HWb) as HW'.
  assert (W1 : 1 <= INR W) by (apply (le_INR 1); lia).
  assert (M0 : 0 <= M).
  { apply (magn_pos b64_real M (lastn (2 * W) l)); [apply recent_nil; assumption|].
    eapply Forall_impl; [|exact HF]. cbn. tauto. }
  assert (T : 0 < bpow radix2 (-1075)) by apply bp.
  assert (WT : INR W * INR W * bpow radix2 (-1075) <= bpow radix2 (49 + 49 + -1075)).
  { rewrite <- !bp_mul. apply Rmult_le_compat_r; [lra|]. apply Rmult_le_compat; lra. }
  assert (WM : INR W * M <= bpow radix2 (49 + 960)).
  { rewrite <- bp_mul. apply Rmult_le_compat; lra. }
  assert (M960 : bpow radix2 960 <= bpow radix2 (49 + 960)) by (apply bp_le; lia).
  assert (TT : INR W * bpow radix2 (-1075) <= INR W * INR W * bpow radix2 (-1075)).
  { apply Rmult_le_compat_r; [lra|]. nra. }
  assert (TW : bpow radix2 (-1075) <= INR W * bpow radix2 (-1075)) by nra.
  assert (Z1 : 1024 * bpow radix2 (49 + 960) <= bpow radix2 1022).
  { change 1024 with (bpow radix2 10). rewrite bp_mul. apply bp_le. lia. }
  assert (Z2 : 1024 * bpow radix2 (49 + 49 + -1075) <= bpow radix2 1022).
  { change 1024 with (bpow radix2 10). rewrite bp_mul. apply bp_le. lia. }
  assert (Z3 : bpow radix2 1023 = 2 * bpow radix2 1022) by (change 1023%Z with (1 + 1022)%Z; apply bp_double).
  destruct (imean_accuracy (F := b64num) approx_b64 denotes_zero b64_real W M l) as (r & (Fr & Er) & H1 & H2); try assumption.
  - apply b64_tame, HF.
  - change (Z.to_N (2 ^ 53)) with (2 ^ 53)%N. lia.
  - apply b64_lin, HW'.
  - lra.
  - lra.
  - unfold m, d, w. rewrite (imean_run_state b64num W ops HW HS). fold l.
    subst r. split; [exact Fr|]. unfold bound. rewrite !(Rmult_assoc _ _ M).
    split; [exact H1|]. intros L. specialize (H2 L). unfold card in H2. rewrite !map_length in H2. exact H2.
Qed.

(** @ex C88_mean_binary64_ex: W = 2 after NaN, infinity, 1.5, 2.5, 4, 0.5, 3;
    for W = 1000 and values up to 1 in magnitude the bound is below 1.2e-13. *)
Lemma c88_mean_binary64_ex :
  let d k := @ndiv b64num (b64_of_Z k) (b64_of_Z 2) in
  let ops := [Push S754_nan; Push (S754_infinity false); Push (d 3%Z); Push (d 5%Z); Push (d 8%Z); Push (d 1%Z); Push (d 6%Z)] in
  let l := since_clear ops in
  l <> [] /\ (0 < 2)%nat /\ (Z.of_nat 2 <= 2 ^ 49)%Z /\ 10 <= bpow radix2 960 /\
  Forall (fun x => b64_finite x /\ Rabs (b64_real x) <= 10) (lastn (2 * 2) l) /\
  cur_block 2 l = [d 6%Z] /\ prev_block 2 l = [d 8%Z; d 1%Z] /\
  (1000 + 46) * bpow radix2 (-53) * 1 + (3 * 1000 + 29) * bpow radix2 (-1075) < 12 / 10 ^ 14.
Proof.
  cbn zeta. split; [discriminate|]. split; [lia|]. split; [cbn; lia|]. split.
  { apply Rle_trans with (bpow radix2 4); [cbn; lra|apply bp_le; lia]. } split.
  { vm_compute lastn. magnitudes. } split; [reflexivity|]. split; [reflexivity|].
  assert (T : 0 < bpow radix2 (-1075) <= bpow radix2 (-80)) by (split; [apply bp|apply bp_le; lia]).
  revert T. generalize (bpow radix2 (-1075)). intros t T. cbn in T |- *. lra.
Qed.

Lemma variance_abs M l : 0 <= M -> l <> [] -> Forall (fun x => Rabs x <= M) l -> Rabs (variance l) <= 4 * (M * M).
Proof.
  intros M0 NE H. unfold variance. apply cosum_quot.
  - unfold card. apply lt_0_INR. destruct l; [congruence|cbn; lia].
  - apply csum_bound; assumption.
Qed.

Lemma covariance_abs Mx My l : 0 <= Mx -> 0 <= My -> l <> [] ->
  Forall (fun p => Rabs (fst p) <= Mx /\ Rabs (snd p) <= My) l -> Rabs (covariance l) <= 4 * (Mx * My).
Proof.
  intros X0 Y0 NE H. unfold covariance. apply cosum_quot.
  - unfold card. apply lt_0_INR. destruct l; [congruence|cbn; lia].
  - apply cross_bound; assumption.
Qed.

Lemma b64_square (W : nat) (Mx My : R) : 1 <= INR W <= bpow radix2 26 ->
  bpow radix2 (-1000) <= Mx <= bpow radix2 480 -> bpow radix2 (-1000) <= My <= bpow radix2 480 ->
  416 * (INR W * INR W * (Mx * My)) + 60 * (INR W * INR W * bpow radix2 (-1075)) + 5 * bpow radix2 (-1075)
    <= bpow radix2 1023.
Proof.
  intros [W1 WB] HX HY. pose proof (bp (-1000)) as P. pose proof (bp (-1075)) as T.
  assert (MM : 0 <= Mx * My <= bpow radix2 (480 + 480)).
  { split; [apply Rmult_le_pos; lra|]. rewrite <- bp_mul. apply Rmult_le_compat; lra. }
  assert (WW : 1 <= INR W * INR W <= bpow radix2 (26 + 26)).
  { split; [nra|]. rewrite <- bp_mul. apply Rmult_le_compat; lra. }
  assert (A : INR W * INR W * (Mx * My) <= bpow radix2 (26 + 26 + (480 + 480))).
  { rewrite (bpow_plus radix2 (26 + 26) (480 + 480)). apply Rmult_le_compat; lra. }
  assert (C : INR W * INR W * bpow radix2 (-1075) <= bpow radix2 (26 + 26 + -1075)).
  { rewrite (bpow_plus radix2 (26 + 26) (-1075)). apply Rmult_le_compat_r; lra. }
  assert (D : bpow radix2 (-1075) <= INR W * INR W * bpow radix2 (-1075)) by nra.
  assert (Z1 : 512 * bpow radix2 (26 + 26 + (480 + 480)) <= bpow radix2 1022).
  { change 512 with (bpow radix2 9). rewrite bp_mul. apply bp_le. lia. }
  assert (Z2 : 512 * bpow radix2 (26 + 26 + -1075) <= bpow radix2 1022).
  { change 512 with (bpow radix2 9). rewrite bp_mul. apply bp_le. lia. }
  assert (Z3 : bpow radix2 1023 = 2 * bpow radix2 1022) by (change 1023%Z with (1 + 1022)%Z; apply bp_double).
  pose proof (bp (26 + 26 + (480 + 480))). lra.
Qed.

(** @prop C88_variance_binary64: in binary64, windows up to 2^26, the last 2W
    values at most [M] in magnitude (between 2^-1000 and 2^480): variance() is
    finite and within [5 ((14 W + 454) u M^2 + (3 W + 13) 10 M eta + 27 eta)] of the
    weighted average of the variances of the two blocks, for every number of
    pushes. *)
Lemma c88_variance_binary64 : forall (W : nat) (ops : list (op b64)) (M : R),
  let l := since_clear ops in
  l <> [] -> (0 < W)%nat -> (Z.of_nat W <= 2 ^ 26)%Z -> bpow radix2 (-1000) <= M <= bpow radix2 480 ->
  Forall (fun x => b64_finite x /\ Rabs (b64_real x) <= M) (lastn (2 * W) l) ->
  let w := N.of_nat W in
  let u := bpow radix2 (-53) in
  let eta := bpow radix2 (-1075) in
  let d := run (ivar_push b64num w) (ivar_clear b64num) (ivar_init b64num) ops in
  let v := ivar_variance b64num w d in
  let vp := variance (map b64_real (prev_block W l)) in
  let va := variance (map b64_real (cur_block W l)) in
  let s := card (cur_block W l) in
  let wp := (INR W - s + 1) ^ 2 in
  let wa := 2 * (s - 1) in
  let bound := 5 * ((14 * INR W + 454) * u * (M * M) + (3 * INR W + 13) * (10 * M) * eta + 27 * eta) in
  b64_finite v /\
  ((length l <= W)%nat -> Rabs (b64_real v - variance (map b64_real l)) <= bound) /\
  ((W < length l)%nat -> Rabs (b64_real v - (wp * vp + wa * va) / (wp + wa)) <= bound).
Proof.
  intros W ops M l NE HW HWb HM HF w u eta d v vp va s wp wa bound.
  assert (HS : (N.of_nat W < szmod)%N) by (unfold szmod; lia).
  pose proof (b64_W W 26 ltac:(lia) HWb) as HW'.
  assert (W1 : 1 <= INR W) by (apply (le_INR 1); lia).
  pose proof (bp (-1000)) as P.
  assert (HW'' : INR W <= bpow radix2 47) by (eapply Rle_trans; [exact HW'|apply bp_le; lia]).
  destruct (b64_fine M M (INR W) W1 HW'' HM HM) as [Fi _].
  destruct (recent_blocks _ W l HW (b64_tame M _ HF)) as [Tc Tp].
  destruct (duo_block_accuracy approx_b64 denotes_zero W M M l (cvar_push b64num) (cvar_init b64num)
    (cvar_size b64num) (cvar_empty b64num) (cvar_variance b64num) (map b64_real) variance) as (r & (Fr & Er) & H1 & H2);
    try assumption.
  - change (Z.to_N (2 ^ 53)) with (2 ^ 53)%N. nia.
  - lia.
  - apply b64_square; [lra|exact HM|exact HM].
  - intros c Hc. assert (Hc' : (N.of_nat (length c) < szmod)%N) by lia. apply cvar_csize. exact Hc'.
  - reflexivity.
  - intros c Hc NEc Lc.
    assert (Tb : Forall (@tame b64num denotes b64_real M) c) by (destruct Hc; subst c; assumption).
    destruct (tame_vals (F := b64num) b64_real M c Tb) as [Vc Mc].
    assert (NEm : map b64_real c <> []) by (destruct c; [congruence|discriminate]).
    split; [apply variance_abs; [lra|exact NEm|exact Mc]|].
    apply (cvar_accuracy approx_b64 M c (map b64_real c)); try assumption.
    + apply (fine_le approx_b64 M M _ (INR W)); [split; [apply inr_ge1; exact NEc|apply le_INR; exact Lc]|exact Fi].
    + change (Z.to_N (2 ^ 53)) with (2 ^ 53)%N. assert (N.of_nat (length c) <= 2 ^ 53)%N as Z by lia. exact Z.
    + assert (N.of_nat (length c) < szmod)%N as Z by lia. exact Z.
  - unfold v, d, w. rewrite (ivar_run_state b64num W ops HW HS). fold l.
    subst r. split; [exact Fr|]. fold u eta in H1, H2.
    split; intros L; [specialize (H1 L)|specialize (H2 L)]; unfold bound.
    + eapply Rle_trans; [exact H1|]. lra.
    + eapply Rle_trans; [exact H2|]. lra.
Qed.

(** @ex C88_variance_binary64_ex: W = 4 after nine values, the first a NaN; for
    W = 1000 and values up to 1 the bound is below 1e-11. *)
Lemma c88_variance_binary64_ex :
  let d k := @ndiv b64num (b64_of_Z k) (b64_of_Z 2) in
  let ops := Push S754_nan :: map (fun k => Push (d k)) [3; 5; 8; 1; 6; -7; 2; 9]%Z in
  let l := since_clear ops in
  let u := bpow radix2 (-53) in
  let eta := bpow radix2 (-1075) in
  l <> [] /\ (0 < 4)%nat /\ (Z.of_nat 4 <= 2 ^ 26)%Z /\ bpow radix2 (-1000) <= 10 <= bpow radix2 480 /\
  Forall (fun x => b64_finite x /\ Rabs (b64_real x) <= 10) (lastn (2 * 4) l) /\
  cur_block 4 l = [d 9%Z] /\
  5 * ((14 * 1000 + 454) * u * (1 * 1) + (3 * 1000 + 13) * (10 * 1) * eta + 27 * eta) < 1 / 10 ^ 11.
Proof.
  cbn zeta. split; [discriminate|]. split; [lia|]. split; [cbn; lia|]. split.
  { split; [apply Rle_trans with (bpow radix2 0); [apply bp_le; lia|cbn; lra]|].
    apply Rle_trans with (bpow radix2 4); [cbn; lra|apply bp_le; lia]. } split.
  { vm_compute lastn. magnitudes. } split; [reflexivity|].
  assert (T : 0 < bpow radix2 (-1075) <= bpow radix2 (-80)) by (split; [apply bp|apply bp_le; lia]).
  revert T. generalize (bpow radix2 (-1075)). intros t T. cbn in T |- *. lra.
Qed.

(** @prop C88_covariance_binary64: likewise for covariance(), with separate bounds
    for the two coordinates. *)
Lemma c88_covariance_binary64 : forall (W : nat) (ops : list (op (b64 * b64))) (Mx My : R),
  let l := since_clear ops in
  l <> [] -> (0 < W)%nat -> (Z.of_nat W <= 2 ^ 26)%Z ->
  bpow radix2 (-1000) <= Mx <= bpow radix2 480 -> bpow radix2 (-1000) <= My <= bpow radix2 480 ->
  Forall (fun p => (b64_finite (fst p) /\ Rabs (b64_real (fst p)) <= Mx) /\
                   (b64_finite (snd p) /\ Rabs (b64_real (snd p)) <= My)) (lastn (2 * W) l) ->
  let real p := (b64_real (fst p), b64_real (snd p)) in
  let w := N.of_nat W in
  let u := bpow radix2 (-53) in
  let eta := bpow radix2 (-1075) in
  let d := run (icov_push b64num w) (icov_clear b64num) (icov_init b64num) ops in
  let v := icov_variance b64num w d in
  let vp := covariance (map real (prev_block W l)) in
  let va := covariance (map real (cur_block W l)) in
  let s := card (cur_block W l) in
  let wp := (INR W - s + 1) ^ 2 in
  let wa := 2 * (s - 1) in
  let bound := 5 * ((14 * INR W + 454) * u * (Mx * My) + (3 * INR W + 13) * (4 * Mx + 6 * My) * eta + 27 * eta) in
  b64_finite v /\
  ((length l <= W)%nat -> Rabs (b64_real v - covariance (map real l)) <= bound) /\
  ((W < length l)%nat -> Rabs (b64_real v - (wp * vp + wa * va) / (wp + wa)) <= bound).
Proof.
  intros W ops Mx My l NE HW HWb HX HY HF real w u eta d v vp va s wp wa bound.
  assert (HS : (N.of_nat W < szmod)%N) by (unfold szmod; lia).
  pose proof (b64_W W 26 ltac:(lia) HWb) as HW'.
  assert (W1 : 1 <= INR W) by (apply (le_INR 1); lia).
  pose proof (bp (-1000)) as P.
  assert (HW'' : INR W <= bpow radix2 47) by (eapply Rle_trans; [exact HW'|apply bp_le; lia]).
  destruct (b64_fine Mx My (INR W) W1 HW'' HX HY) as [Fi _].
  destruct (recent_blocks _ W l HW HF) as [Tc Tp].
  destruct (duo_block_accuracy approx_b64 denotes_zero W Mx My l (ccov_push b64num) (ccov_init b64num)
    (ccov_size b64num) (ccov_size0 b64num) (ccov_variance b64num) (map real) covariance) as (r & (Fr & Er) & H1 & H2);
    try assumption.
  - change (Z.to_N (2 ^ 53)) with (2 ^ 53)%N. nia.
  - lia.
  - apply b64_square; [lra|exact HX|exact HY].
  - intros c Hc. assert (Hc' : (N.of_nat (length c) < szmod)%N) by lia. apply ccov_csize. exact Hc'.
  - reflexivity.
  - intros c Hc NEc Lc.
    assert (Tb : Forall (fun p => (b64_finite (fst p) /\ Rabs (b64_real (fst p)) <= Mx) /\
                   (b64_finite (snd p) /\ Rabs (b64_real (snd p)) <= My)) c) by (destruct Hc; subst c; assumption).
    assert (Vc : Forall2 (@pval b64num denotes) c (map real c)).
    { clear - Tb. induction Tb as [|x c [[A1 _] [A2 _]] _ IH]; cbn; constructor; [|exact IH].
      split; (split; [assumption|reflexivity]). }
    assert (Mc : Forall (fun p => Rabs (fst p) <= Mx /\ Rabs (snd p) <= My) (map real c)).
    { apply Forall_map. eapply Forall_impl; [|exact Tb]. cbn. tauto. }
    assert (NEm : map real c <> []) by (destruct c; [congruence|discriminate]).
    split; [apply covariance_abs; [lra|lra|exact NEm|exact Mc]|].
    apply (ccov_accuracy approx_b64 Mx My c (map real c)); try assumption.
    + apply (fine_le approx_b64 Mx My _ (INR W)); [split; [apply inr_ge1; exact NEc|apply le_INR; exact Lc]|exact Fi].
    + change (Z.to_N (2 ^ 53)) with (2 ^ 53)%N. assert (N.of_nat (length c) <= 2 ^ 53)%N as Z by lia. exact Z.
    + assert (N.of_nat (length c) < szmod)%N as Z by lia. exact Z.
  - unfold v, d, w. rewrite (icov_run_state b64num W ops HW HS). fold l.
    subst r. split; [exact Fr|]. fold u eta in H1, H2.
    split; intros L; [specialize (H1 L)|specialize (H2 L)]; unfold bound.
    + eapply Rle_trans; [exact H1|]. lra.
    + eapply Rle_trans; [exact H2|]. lra.
Qed.

(** @ex C88_covariance_binary64_ex: W = 2 after five pairs. *)
Lemma c88_covariance_binary64_ex :
  let d k := @ndiv b64num (b64_of_Z k) (b64_of_Z 2) in
  let l := map (fun k => (d k, d (k * k)%Z)) [3; 5; 8; 1; -6]%Z in
  since_clear (map Push l) <> [] /\ (0 < 2)%nat /\ (Z.of_nat 2 <= 2 ^ 26)%Z /\
  bpow radix2 (-1000) <= 10 <= bpow radix2 480 /\ bpow radix2 (-1000) <= 40 <= bpow radix2 480 /\
  Forall (fun p => (b64_finite (fst p) /\ Rabs (b64_real (fst p)) <= 10) /\
                   (b64_finite (snd p) /\ Rabs (b64_real (snd p)) <= 40)) (lastn (2 * 2) (since_clear (map Push l))) /\
  prev_block 2 (since_clear (map Push l)) = [(d 8, d 64); (d 1, d 1)]%Z.
Proof.
  cbn zeta. split; [discriminate|]. split; [lia|]. split; [cbn; lia|].
  assert (R : bpow radix2 (-1000) <= 1 /\ 64 <= bpow radix2 480).
  { split; [apply Rle_trans with (bpow radix2 0); [apply bp_le; lia|cbn; lra]|].
    apply Rle_trans with (bpow radix2 6); [cbn; lra|apply bp_le; lia]. }
  split; [lra|]. split; [lra|]. split; [|reflexivity].
  vm_compute lastn. repeat (apply Forall_cons; [split; magnitude|]); apply Forall_nil.
Qed.
