(** * Claims C22, C30, C58, C62-C64, C73: integer value types *)

From Coq Require Import ZArith NArith List Bool.
From Verif Require Import History Arith CInt IntMoments SpecInt.
Import ListNotations.
Local Open Scope Z_scope.
(* @end-header *)
From Coq Require Import Lia.
From Verif Require Import HistoryLemmas IntProofs IntProofs2 IntExact IntWindowExact.

(** Prefix conditions on concrete histories. *)
Lemma prefix_cond {A} (C : list A -> Prop) (ops : list (op A)) :
  (forall k, (k <= length ops)%nat -> C (since_clear (firstn k ops))) ->
  forall pre post, ops = pre ++ post -> C (since_clear pre).
Proof.
  intros H pre post ->. specialize (H (length pre)). rewrite firstn_app, Nat.sub_diag, firstn_O, app_nil_r, firstn_all in H.
  apply H. rewrite app_length. lia.
Qed.

(** ** C58 *)

(** @prop C58_mean_partial: for every integer type and history such that, after
    every prefix, the number of values since the last clear does not exceed the
    largest value of the type and the difference of any two of them is
    representable in the promoted type: no push has undefined behaviour, mean()
    lies between the smallest and the largest value since the last clear, and
    differs from the true mean by at most (n-1)/2 after n values. *)
Lemma c58_mean : forall (T : ity) (ops : list (op Z)), In T all_ity ->
  (forall pre post, ops = pre ++ post ->
    let l := since_clear pre in
    Z.of_nat (length l) <= imax T /\
    Forall (fun x => imin T <= x <= imax T) l /\
    forall x y, In x l -> In y l -> imin (promote T) <= x - y <= imax (promote T)) ->
  let l := since_clear ops in
  let n := Z.of_nat (length l) in
  exists s, run_opt (icm_push T) icm_clear icm_init ops = Some s /\
    icm_count s = N.of_nat (length l) /\
    (l = [] -> icm_mean s = 0) /\
    (l <> [] -> zhull (icm_mean s) l) /\
    2 * Z.abs (n * icm_mean s - zsum l) <= n * (n - 1).
Proof. intros T ops HT H. exact (icm_run T HT ops H). Qed.

(** @ex C58_mean_partial_ex: the bounds are attained in 8-bit: 0, 1, 2, 3 after a
    clear; the mean is 0, the true mean 3/2. *)
Lemma c58_mean_ex :
  let ops := [Push (-100); Push 100; Clear; Push 0; Push 1; Push 2; Push 3] in
  In int8 all_ity /\
  (forall pre post, ops = pre ++ post ->
    let l := since_clear pre in
    Z.of_nat (length l) <= imax int8 /\
    Forall (fun x => imin int8 <= x <= imax int8) l /\
    forall x y, In x l -> In y l -> imin (promote int8) <= x - y <= imax (promote int8)) /\
  run_opt (icm_push int8) icm_clear icm_init ops = Some (ICM 0 4) /\
  zsum (since_clear ops) = 6.
Proof.
  cbv zeta. split; [cbn; tauto|]. split; [|split; reflexivity].
  apply (prefix_cond (fun l => Z.of_nat (length l) <= imax int8 /\
    Forall (fun x => imin int8 <= x <= imax int8) l /\
    forall x y, In x l -> In y l -> imin (promote int8) <= x - y <= imax (promote int8))).
  intros k Hk. cbn [length] in Hk.
  change (imax int8) with 127. change (imin int8) with (-128).
  change (imax (promote int8)) with 2147483647. change (imin (promote int8)) with (-2147483648).
  do 8 (destruct k as [|k]; [cbn; repeat split; try (intros x y X Y; cbn in X, Y); try (repeat constructor; lia); lia|]).
  lia.
Qed.

(** @prop C58_accuracy_refuted: in every integer type, for every bound K that
    fits, there are histories of values in range for which mean() is defined but
    further than K from the true mean. *)
Lemma c58_accuracy : forall (T : ity) (K : Z), In T all_ity -> 0 <= K -> 2 * K + 2 <= imax T ->
  exists (l : list Z) (s : icm),
    Forall (fun x => imin T <= x <= imax T) l /\
    run_opt (icm_push T) icm_clear icm_init (pushes l) = Some s /\
    K * Z.of_nat (length l) < Z.abs (Z.of_nat (length l) * icm_mean s - zsum l).
Proof.
  intros T K HT HK HB. exists (ramp (Z.to_nat (2 * K + 2))). eexists.
  rewrite ramp_length. set (n := Z.to_nat (2 * K + 2)).
  assert (En : Z.of_nat n = 2 * K + 2) by lia.
  split; [|split; [apply ramp_mean; [exact HT|lia]|]].
  - apply Forall_forall. intros x Hx. apply ramp_In in Hx. pose proof (inr_0 T HT). unfold inr in *. lia.
  - cbn [icm_mean]. pose proof (ramp_sum n) as S. rewrite En in *. nia.
Qed.

(** @ex C58_accuracy_refuted_ex: more than fifty units off in 8-bit. *)
Lemma c58_accuracy_ex : In int8 all_ity /\ 0 <= 50 /\ 2 * 50 + 2 <= imax int8.
Proof. split; [cbn; tauto|]. split; [lia|]. discriminate. Qed.

(** @prop C58_count_ub: in every integer type, whatever the values: a history
    with 2^bits or more pushes since the last clear has undefined behaviour (the
    count converts to the divisor 0). *)
Lemma c58_count : forall (T : ity) (ops : list (op Z)), In T all_ity ->
  2 ^ ibits T <= Z.of_nat (length (since_clear ops)) ->
  run_opt (icm_push T) icm_clear icm_init ops = None.
Proof.
  intros T ops HT H. destruct (run_opt (icm_push T) icm_clear icm_init ops) as [s|] eqn:E; [|reflexivity].
  pose proof (icm_alive T ops s HT E). lia.
Qed.

(** @ex C58_count_ub_ex: 256 pushes to an 8-bit filter. *)
Lemma c58_count_ex :
  In int8 all_ity /\ 2 ^ ibits int8 <= Z.of_nat (length (since_clear (pushes (repeat 1 256)))).
Proof. split; [cbn; tauto|]. vm_compute. discriminate. Qed.

(** @prop C58_no_ub_refuted: push() has undefined behaviour for 256 equal 8-bit
    values, and for the two int values 2^31-1, -2. *)
Lemma c58_no_ub : exists l1 l2 : list Z,
  Forall (fun x => imin int8 <= x <= imax int8) l1 /\
  run_opt (icm_push int8) icm_clear icm_init (pushes l1) = None /\
  Forall (fun x => imin int32 <= x <= imax int32) l2 /\
  run_opt (icm_push int32) icm_clear icm_init (pushes l2) = None.
Proof.
  exists (repeat 1 256), [2147483647; -2].
  split; [apply Forall_forall; intros x Hx; apply repeat_spec in Hx; subst x; cbn; lia|].
  split; [vm_compute; reflexivity|]. split; [|reflexivity].
  repeat constructor; cbn; lia.
Qed.

(** @prop C58_hull_refuted: mean() can leave the range of the values without
    undefined behaviour: 127 times -100 then 100 in 8-bit gives -101; 2 then 0 in
    32-bit unsigned gives 2^31+1. *)
Lemma c58_hull : exists l1 l2 : list Z,
  Forall (fun x => imin int8 <= x <= imax int8) l1 /\
  (exists s, run_opt (icm_push int8) icm_clear icm_init (pushes l1) = Some s /\
    ~ zhull (icm_mean s) l1) /\
  Forall (fun x => imin uint32 <= x <= imax uint32) l2 /\
  (exists s, run_opt (icm_push uint32) icm_clear icm_init (pushes l2) = Some s /\
    ~ zhull (icm_mean s) l2).
Proof.
  exists (repeat (-100) 127 ++ [100]), [2; 0]. split.
  { apply Forall_app. split; [|repeat constructor; cbn; lia].
    apply Forall_forall. intros x Hx. apply repeat_spec in Hx. subst x. cbn. lia. }
  split.
  { exists (ICM (-101) 128). split; [vm_compute; reflexivity|].
    intros [(a & Ha & La) _]. apply in_app_or in Ha. cbn [icm_mean] in La.
    destruct Ha as [Ha|[<-|[]]]; [apply repeat_spec in Ha|]; lia. }
  split; [repeat constructor; cbn; lia|].
  exists (ICM 2147483649 2). split; [reflexivity|].
  intros [_ (b & Hb & Lb)]. cbn in Hb, Lb. lia.
Qed.

(** ** C22 *)

(** @prop C22_drift_refuted: in every signed integer type and for every k with
    2k <= 2^(bits-1) there is a history of 2+6k values between -2 and 0, ending
    with 0, 0, after which the window of capacity 2 holds 0, 0 but mean() is -2k:
    the error grows without bound. *)
Lemma c22_drift : forall (T : ity) (k : nat), In T all_ity -> isigned T = true ->
  2 * Z.of_nat k <= 2 ^ (ibits T - 1) ->
  exists l : list Z,
    length l = (2 + 6 * k)%nat /\ Forall (fun x => -2 <= x <= 0) l /\
    lastn 2 l = [0; 0] /\
    exists s, run_opt (iwm_push T 2) iwm_clear iwm_init (pushes l) = Some s /\
      iwm_window s = [0; 0] /\ iwm_mean s = - (2 * Z.of_nat k).
Proof.
  intros T k HT HS Hk. exists ([0; 0] ++ rounds k).
  assert (L : length (rounds k) = (6 * k)%nat).
  { clear. induction k as [|k IH]; [reflexivity|]. cbn [rounds]. rewrite app_length, IH. cbn. lia. }
  split; [rewrite app_length, L; reflexivity|].
  split.
  { apply Forall_app. split; [repeat constructor; lia|]. clear. induction k as [|k IH]; [constructor|].
    cbn [rounds]. apply Forall_app. split; [exact IH|]. unfold round. repeat constructor; lia. }
  split.
  { destruct k as [|k]; [reflexivity|]. cbn [rounds]. rewrite app_assoc.
    unfold round. change [-2; -2; -1; -1; 0; 0] with ([-2; -2; -1; -1] ++ [0; 0]). rewrite app_assoc.
    unfold lastn. rewrite app_length. cbn [length].
    match goal with |- skipn (?a + 2 - 2) _ = _ => replace (a + 2 - 2)%nat with a by lia end.
    rewrite skipn_app, skipn_all, Nat.sub_diag. reflexivity. }
  eexists. split; [apply rounds_drift; [exact HT|exact HS|unfold imin; rewrite HS; lia]|].
  cbn [iwm_window iwm_mean]. split; [reflexivity|lia].
Qed.

(** @ex C22_drift_refuted_ex: a thousand rounds in int: mean() is -2000 for a
    window of zeros. *)
Lemma c22_drift_ex :
  In int32 all_ity /\ isigned int32 = true /\ 2 * Z.of_nat 1000 <= 2 ^ (ibits int32 - 1).
Proof. split; [cbn; tauto|]. split; [reflexivity|]. vm_compute. discriminate. Qed.

(** @prop C22_drift_partial: for every integer type and capacity W, if after
    every prefix the n values since the last clear lie in [lo,hi] with n units of
    room on both sides and their differences are representable: no push has
    undefined behaviour, the window holds the last W values, mean() is within
    their range until the window has filled, and afterwards the error is less
    than one unit per value pushed. *)
Lemma c22_bound : forall (T : ity) (W : nat) (lo hi : Z) (ops : list (op Z)),
  In T all_ity -> (0 < W)%nat -> Z.of_nat W <= imax T ->
  (forall pre post, ops = pre ++ post ->
    let l := since_clear pre in
    Forall (fun x => lo <= x <= hi) l /\
    imin T <= lo - Z.of_nat (length l) /\ hi + Z.of_nat (length l) <= imax T /\
    forall x y, In x l -> In y l -> imin (promote T) <= x - y <= imax (promote T)) ->
  let l := since_clear ops in
  let w := lastn W l in
  let k := Z.of_nat (length w) in
  exists s, run_opt (iwm_push T W) iwm_clear iwm_init ops = Some s /\
    iwm_window s = w /\
    ((length l <= W)%nat -> l <> [] -> zhull (iwm_mean s) l) /\
    (l <> [] -> Z.abs (k * iwm_mean s - zsum w) <= Z.of_nat (length l) * (k - 1)).
Proof.
  intros T W lo hi ops HT HW HWT H l w k.
  destruct (iwm_run T W HT HW HWT lo hi ops H) as (s & E & I1 & I2 & I3 & I4).
  exists s. split; [exact E|]. split; [exact I1|]. split; [exact I3|].
  intros NE. fold l in I4. unfold width in I4. fold w in I4. fold k in I4. destruct l; [congruence|]. lia.
Qed.

(** @ex C22_drift_partial_ex: capacity 2 over int with values between -2 and 0. *)
Lemma c22_bound_ex :
  let ops := [Push 0; Push 0; Push (-2); Push (-2); Push (-1)] in
  In int32 all_ity /\ (0 < 2)%nat /\ Z.of_nat 2 <= imax int32 /\
  (forall pre post, ops = pre ++ post ->
    let l := since_clear pre in
    Forall (fun x => -2 <= x <= 0) l /\
    imin int32 <= -2 - Z.of_nat (length l) /\ 0 + Z.of_nat (length l) <= imax int32 /\
    forall x y, In x l -> In y l -> imin (promote int32) <= x - y <= imax (promote int32)).
Proof.
  cbv zeta. split; [cbn; tauto|]. split; [lia|]. split; [discriminate|].
  apply (prefix_cond (fun l => Forall (fun x => -2 <= x <= 0) l /\
    imin int32 <= -2 - Z.of_nat (length l) /\ 0 + Z.of_nat (length l) <= imax int32 /\
    forall x y, In x l -> In y l -> imin (promote int32) <= x - y <= imax (promote int32))).
  intros k Hk. cbn [length] in Hk.
  change (promote int32) with int32. change (imax int32) with 2147483647. change (imin int32) with (-2147483648).
  do 6 (destruct k as [|k]; [cbn; repeat split; try (intros x y X Y; cbn in X, Y); try (repeat constructor; lia); lia|]).
  lia.
Qed.

(** ** C30 *)

(** @prop C30_negative_refuted: interim::moment<int, 2> given -1, -1, -1 reports
    mean() = 1431655764: the weighted sum is computed in std::size_t and divided
    as an unsigned number. *)
Lemma c30_negative : exists l s m,
  Forall (fun x => imin int32 <= x <= imax int32) l /\
  run_opt (iim_push int32 2) iim_clear iim_init (pushes l) = Some s /\
  iim_mean int32 2 s = Some m /\ ~ zhull m (lastn 4 l).
Proof.
  exists [-1; -1; -1], (IIM (ICM (-1) 1) (ICM (-1) 2)), 1431655764.
  split; [repeat constructor; cbn; lia|]. split; [reflexivity|]. split; [vm_compute; reflexivity|].
  intros [_ (b & Hb & Lb)]. cbn in Hb. lia.
Qed.

(** @prop C30_nonnegative_partial: for every integer type and window W with 2W
    representable, and histories of values between 0 and hi whose differences are
    representable, where hi * 2W < 2^64: no undefined behaviour, and mean() lies
    between the smallest and the largest of the last 2W values since the last
    clear. *)
Lemma c30_nonnegative : forall (T : ity) (W : nat) (hi : Z) (ops : list (op Z)),
  In T all_ity -> (0 < W)%nat -> 2 * Z.of_nat W <= imax T -> hi <= imax T ->
  hi * (2 * Z.of_nat W) < 2 ^ 64 ->
  (forall pre post, ops = pre ++ post ->
    let l := since_clear pre in
    Forall (fun x => 0 <= x <= hi) l /\
    forall x y, In x l -> In y l -> imin (promote T) <= x - y <= imax (promote T)) ->
  since_clear ops <> [] ->
  exists s m, run_opt (iim_push T (N.of_nat W)) iim_clear iim_init ops = Some s /\
    iim_mean T (N.of_nat W) s = Some m /\ zhull m (lastn (2 * W) (since_clear ops)).
Proof.
  intros T W hi ops HT HW H2 Hh Hp H NE.
  destruct (iim_run T W hi HT HW H2 Hh ops H) as (s & E & I).
  destruct (iim_mean_hull T W hi HT HW H2 Hh Hp _ s NE I) as (m & Em & Hm).
  exists s, m. auto.
Qed.

(** @ex C30_nonnegative_partial_ex: window 2 over int: 10, 20, 40; mean() is
    31. *)
Lemma c30_nonnegative_ex :
  let ops := [Push 10; Push 20; Push 40] in
  In int32 all_ity /\ (0 < 2)%nat /\ 2 * Z.of_nat 2 <= imax int32 /\ 100 <= imax int32 /\
  100 * (2 * Z.of_nat 2) < 2 ^ 64 /\
  (forall pre post, ops = pre ++ post ->
    let l := since_clear pre in
    Forall (fun x => 0 <= x <= 100) l /\
    forall x y, In x l -> In y l -> imin (promote int32) <= x - y <= imax (promote int32)) /\
  since_clear ops <> [] /\
  bind (run_opt (iim_push int32 2) iim_clear iim_init ops) (iim_mean int32 2) = Some 31.
Proof.
  cbv zeta. split; [cbn; tauto|]. split; [lia|]. split; [discriminate|]. split; [discriminate|].
  split; [reflexivity|]. split; [|split; [discriminate|reflexivity]].
  apply (prefix_cond (fun l => Forall (fun x => 0 <= x <= 100) l /\
    forall x y, In x l -> In y l -> imin (promote int32) <= x - y <= imax (promote int32))).
  intros k Hk. cbn [length] in Hk.
  change (promote int32) with int32. change (imax int32) with 2147483647. change (imin int32) with (-2147483648).
  do 4 (destruct k as [|k]; [cbn; repeat split; try (intros x y X Y; cbn in X, Y); try (repeat constructor; lia); lia|]).
  lia.
Qed.

(** ** C62 *)

(** @prop C62_fir_modular: for every integer type, coefficients and history
    without undefined behaviour, value() of the finite impulse response filter is
    the value of the type congruent to the inner product of the coefficients with
    the most recent values, newest first, modulo 2^bits. *)
Lemma c62_modular : forall (T : ity) (c : list Z) (ops : list (op Z)) (s : ifir),
  In T all_ity -> c <> [] ->
  run_opt (ifir_push T) ifir_clear (ifir_new c) ops = Some s ->
  let l := since_clear ops in l <> [] ->
  imin T <= ifir_output s <= imax T /\
  exists q, ifir_output s = zdot (rev l) c + q * 2 ^ ibits T.
Proof.
  intros T c ops s HT Hc E l NE. destruct (ifir_state T c ops s HT Hc E) as (_ & _ & ->); [|exact NE].
  fold l. split; [apply wrap_range, HT|].
  pose proof (wrap_mod T (zdot (rev l) c) HT) as M. pose proof (ity_bits T HT).
  assert (P : 0 < 2 ^ ibits T) by (apply Z.pow_pos_nonneg; lia).
  set (y := wrap T (zdot (rev l) c)) in *. set (z := zdot (rev l) c) in *.
  exists (y / 2 ^ ibits T - z / 2 ^ ibits T).
  pose proof (Z.div_mod y (2 ^ ibits T) ltac:(lia)). pose proof (Z.div_mod z (2 ^ ibits T) ltac:(lia)). lia.
Qed.

(** @ex C62_fir_modular_ex: 8-bit coefficients 100, 1: the input 3, 2 gives
    203 - 256 = -53. *)
Lemma c62_modular_ex :
  In int8 all_ity /\ [100; 1] <> [] /\
  run_opt (ifir_push int8) ifir_clear (ifir_new [100; 1]) [Push 3; Push 2] = Some (IFIR [2; 3] (-53) [100; 1]) /\
  since_clear [Push 3; Push 2] <> [].
Proof. split; [cbn; tauto|]. split; [discriminate|]. split; [reflexivity|discriminate]. Qed.

(** @prop C62_fir_clear: for every integer type and history without undefined
    behaviour, a further clear() is defined and forgets the values pushed, but
    leaves value() as it was (so that C46 fails for integers as well). *)
Lemma c62_clear : forall (T : ity) (c : list Z) (ops : list (op Z)) (s : ifir),
  run_opt (ifir_push T) ifir_clear (ifir_new c) ops = Some s ->
  exists s', run_opt (ifir_push T) ifir_clear (ifir_new c) (ops ++ [Clear]) = Some s' /\
    ifir_output s' = ifir_output s /\ ifir_input s' = [].
Proof.
  intros T c ops s E. exists (ifir_clear s). rewrite run_opt_snoc, E. repeat split; reflexivity.
Qed.

(** @ex C62_fir_clear_ex: 8-bit coefficients 2, 1: the input 3 gives 6, also
    after clear(), while a new filter gives 0. *)
Lemma c62_clear_ex :
  run_opt (ifir_push int8) ifir_clear (ifir_new [2; 1]) [Push 3] = Some (IFIR [3] 6 [2; 1]) /\
  ifir_output (ifir_new [2; 1]) = 0.
Proof. split; reflexivity. Qed.

(** @prop C62_fir_defined_partial: for the 8-bit types, signed 16-bit and the
    32- and 64-bit unsigned types no push has undefined behaviour, for all
    coefficients and values of the type. *)
Lemma c62_defined : forall (T : ity) (c : list Z) (ops : list (op Z)),
  In T [int8; int16; uint8; uint32; uint64] -> c <> [] ->
  Forall (fun x => imin T <= x <= imax T) c ->
  (forall pre post, ops = pre ++ post -> Forall (fun x => imin T <= x <= imax T) (since_clear pre)) ->
  exists s, run_opt (ifir_push T) ifir_clear (ifir_new c) ops = Some s.
Proof. exact ample_run. Qed.

(** @ex C62_fir_defined_partial_ex: the extreme values of signed 16-bit. *)
Lemma c62_defined_ex :
  let ops := [Push (-32768); Push 32767] in
  In int16 [int8; int16; uint8; uint32; uint64] /\ [-32768; -32768] <> [] /\
  Forall (fun x => imin int16 <= x <= imax int16) [-32768; -32768] /\
  (forall pre post, ops = pre ++ post -> Forall (fun x => imin int16 <= x <= imax int16) (since_clear pre)).
Proof.
  cbv zeta. split; [cbn; tauto|]. split; [discriminate|].
  change (imin int16) with (-32768). change (imax int16) with 32767.
  split; [repeat constructor; lia|].
  apply (prefix_cond (Forall (fun x => -32768 <= x <= 32767))).
  intros k Hk. cbn [length] in Hk.
  do 3 (destruct k as [|k]; [cbn; repeat constructor; lia|]). lia.
Qed.

(** @prop C62_fir_exact: for every integer type: if no value exceeds M in
    magnitude and M times the sum of the magnitudes of the coefficients fits the
    type (nothing negative for an unsigned type), then no push has undefined
    behaviour and value() is exactly the inner product of the coefficients with
    the most recent values. *)
Lemma c62_exact : forall (T : ity) (c : list Z) (ops : list (op Z)) (M : Z),
  In T all_ity -> c <> [] ->
  M * zsum (map Z.abs c) <= imax T ->
  (isigned T = false -> Forall (fun x => 0 <= x) c) ->
  (forall pre post, ops = pre ++ post ->
     Forall (fun x => Z.abs x <= M /\ (isigned T = false -> 0 <= x)) (since_clear pre)) ->
  exists s, run_opt (ifir_push T) ifir_clear (ifir_new c) ops = Some s /\
    let l := since_clear ops in
    (l <> [] -> ifir_output s = zdot (rev l) c).
Proof. exact fir_exact_run. Qed.

(** @ex C62_fir_exact_ex: int, coefficients 1000000, -2, 3 and values up to
    2000. *)
Lemma c62_exact_ex :
  let ops := [Push 2000; Clear; Push (-2000); Push 1] in
  In int32 all_ity /\ [1000000; -2; 3] <> [] /\
  2000 * zsum (map Z.abs [1000000; -2; 3]) <= imax int32 /\
  (isigned int32 = false -> Forall (fun x => 0 <= x) [1000000; -2; 3]) /\
  (forall pre post, ops = pre ++ post ->
     Forall (fun x => Z.abs x <= 2000 /\ (isigned int32 = false -> 0 <= x)) (since_clear pre)) /\
  zdot (rev (since_clear ops)) [1000000; -2; 3] = 1004000.
Proof.
  cbv zeta. split; [cbn; tauto|]. split; [discriminate|].
  split; [change (imax int32) with 2147483647; cbn; lia|].
  split; [discriminate|]. split; [|reflexivity].
  apply (prefix_cond (Forall (fun x => Z.abs x <= 2000 /\ (isigned int32 = false -> 0 <= x)))).
  intros k Hk. cbn [length] in Hk.
  do 5 (destruct k as [|k]; [cbn; repeat constructor; try lia; discriminate|]). lia.
Qed.

(** @prop C62_int_refuted: for int a single push of a value of the type is
    undefined behaviour when the product overflows: 2 times 2147483647. *)
Lemma c62_int : exists c x : Z,
  imin int32 <= c <= imax int32 /\ imin int32 <= x <= imax int32 /\
  run_opt (ifir_push int32) ifir_clear (ifir_new [c]) [Push x] = None.
Proof. exists 2, 2147483647. split; [cbn; lia|]. split; [cbn; lia|reflexivity]. Qed.

(** @prop C62_uint16_refuted: for unsigned 16-bit a single push is undefined
    behaviour: 65535 * 65535 overflows the promoted type int. *)
Lemma c62_uint16 : exists c x : Z,
  imin uint16 <= c <= imax uint16 /\ imin uint16 <= x <= imax uint16 /\
  run_opt (ifir_push uint16) ifir_clear (ifir_new [c]) [Push x] = None.
Proof. exists 65535, 65535. split; [cbn; lia|]. split; [cbn; lia|reflexivity]. Qed.

(** ** C63 *)

(** @prop C63_variance_nonnegative_partial: for int and the signed 64-bit type, in
    every history without undefined behaviour and with at most the largest value
    of the type pushes between clears, variance() is not negative. *)
Lemma c63_variance : forall (T : ity) (ops : list (op Z)) (s : icv) (v : Z),
  T = int32 \/ T = int64 ->
  (forall pre post, ops = pre ++ post -> Z.of_nat (length (since_clear pre)) <= imax T) ->
  run_opt (icv_push T) icv_clear icv_init ops = Some s ->
  icv_variance T s = Some v -> 0 <= v.
Proof.
  intros T ops s v HT HL E EV.
  pose proof (icv_nonneg T ops s HT HL E) as NN.
  assert (HA : In T all_ity) by (destruct HT as [->| ->]; cbn; tauto).
  assert (EP : promote T = T) by (destruct HT as [->| ->]; reflexivity).
  assert (ES : isigned T = true) by (destruct HT as [->| ->]; reflexivity).
  pose proof (icv_super_run T ops s E) as SR. destruct (icm_alive T ops _ HA SR) as [EC _].
  specialize (HL ops [] ltac:(rewrite app_nil_r; reflexivity)).
  unfold icv_variance in EV. rewrite EC in EV. rewrite wrap_id in EV;
    [|exact HA|pose proof (inr_0 T HA); unfold inr in *; lia].
  unfold idiv in EV. destruct (Z.eqb_spec (Z.of_N (N.of_nat (length (since_clear ops)))) 0) as [Z0|NZ]; [discriminate|].
  destruct (iresult _ _) as [q|] eqn:Eq; [|discriminate]. cbn [bind] in EV. rewrite EP in Eq.
  apply (iresult_signed _ _ _ ES) in Eq. destruct Eq as [-> Hq].
  injection EV as <-. rewrite wrap_id by assumption. apply Z.quot_pos; lia.
Qed.

(** @ex C63_variance_nonnegative_partial_ex: 0, 20 over int: variance 100. *)
Lemma c63_variance_ex :
  let ops := [Push 0; Push 20] in
  (int32 = int32 \/ int32 = int64) /\
  (forall pre post, ops = pre ++ post -> Z.of_nat (length (since_clear pre)) <= imax int32) /\
  run_opt (icv_push int32) icv_clear icv_init ops = Some (ICV (ICM 10 2) 200) /\
  icv_variance int32 (ICV (ICM 10 2) 200) = Some 100.
Proof.
  cbv zeta. split; [left; reflexivity|]. split; [|split; reflexivity].
  apply (prefix_cond (fun l => Z.of_nat (length l) <= imax int32)).
  intros k Hk. cbn [length] in Hk. do 3 (destruct k as [|k]; [discriminate|]). lia.
Qed.

(** @prop C63_int8_refuted: in 8-bit the same values 0, 20 give variance() =
    -28: the sum is converted to the value type. *)
Lemma c63_int8 : exists l s v,
  Forall (fun x => imin int8 <= x <= imax int8) l /\
  run_opt (icv_push int8) icv_clear icv_init (pushes l) = Some s /\
  icv_variance int8 s = Some v /\ v < 0.
Proof.
  exists [0; 20], (ICV (ICM 10 2) (-56)), (-28).
  split; [repeat constructor; cbn; lia|]. split; [reflexivity|]. split; [reflexivity|lia].
Qed.

(** @prop C63_covariance_refuted: covariance<int> of the decreasing points (0,0),
    (2,-2), (1,-1) is positive, 1431655764: a negative co-moment is divided by a
    std::size_t. *)
Lemma c63_covariance : exists l s v,
  (forall x y, In (x, y) l -> y = - x) /\
  run_opt (icc_push int32) icc_clear icc_init (pushes l) = Some s /\
  icc_variance int32 s = Some v /\ 0 < v.
Proof.
  exists [(0, 0); (2, -2); (1, -1)], (ICC (ICM 1 3) (ICM (-1) 3) (-2)), 1431655764.
  split.
  { intros x y H. cbn in H. destruct H as [H|[H|[H|[]]]]; injection H as <- <-; reflexivity. }
  split; [reflexivity|]. split; [reflexivity|lia].
Qed.

(** ** C64 *)

(** @prop C64_unbiased_mean_refuted: for int, four values -3 have mean() = -3 but
    unbiased_mean() = 1431655761 instead of -4. *)
Lemma c64_negative : exists l s m,
  run_opt (icm_push int32) icm_clear icm_init (pushes l) = Some s /\
  icm_unbiased_mean int32 s = Some m /\
  m <> Z.quot (icm_mean s * Z.of_nat (length l)) (Z.of_nat (length l) - 1).
Proof.
  exists [-3; -3; -3; -3], (ICM (-3) 4), 1431655761.
  split; [reflexivity|]. split; [reflexivity|]. vm_compute. discriminate.
Qed.

(** @prop C64_unbiased_mean_partial: for every integer type and history of at
    least two values without undefined behaviour: if mean() is not negative, the
    count fits the type and the result fits too, unbiased_mean() is
    mean() * n / (n - 1) rounded towards zero. *)
Lemma c64_nonnegative : forall (T : ity) (ops : list (op Z)) (s : icm),
  In T all_ity ->
  run_opt (icm_push T) icm_clear icm_init ops = Some s ->
  let n := Z.of_nat (length (since_clear ops)) in
  2 <= n -> n <= imax T -> 0 <= icm_mean s -> icm_mean s * n < 2 ^ 64 ->
  Z.quot (icm_mean s * n) (n - 1) <= imax T ->
  icm_unbiased_mean T s = Some (Z.quot (icm_mean s * n) (n - 1)).
Proof.
  intros T ops s HT E n H2 HM H0 HP HQ. destruct (icm_alive T ops s HT E) as [EC _].
  unfold icm_unbiased_mean. rewrite mixed_uint64 by exact HT. rewrite EC.
  rewrite szsub_small by (pose proof (imax_szmod T HT); lia).
  replace (Z.of_N (N.of_nat (length (since_clear ops)))) with n by lia.
  replace (Z.of_N (N.of_nat (length (since_clear ops)) - 1)) with (n - 1) by lia.
  pose proof uint64_in as U. pose proof (imax_szmod T HT) as HS. change (Z.of_N szmod) with (2 ^ 64) in HS.
  assert (UR : forall z, 0 <= z < 2 ^ 64 -> inr uint64 z)
    by (intros z Hz; unfold inr; change (imax uint64) with (2 ^ 64 - 1); change (imin uint64) with 0; lia).
  assert (B : icm_mean s <= icm_mean s * n) by nia.
  assert (Hz : 0 <= icm_mean s * n) by nia.
  rewrite (wrap_id uint64 (icm_mean s) U) by (apply UR; lia).
  rewrite (wrap_id uint64 n U) by (apply UR; lia).
  rewrite (wrap_id T (n - 1) HT) by (pose proof (inr_0 T HT); unfold inr in *; lia).
  rewrite (wrap_id uint64 (n - 1) U) by (apply UR; lia).
  unfold imul. rewrite (iresult_in uint64) by (try exact U; apply UR; lia). cbn [bind].
  unfold idiv. destruct (Z.eqb_spec (n - 1) 0) as [Z0|_]; [lia|].
  assert (Qp : 0 <= Z.quot (icm_mean s * n) (n - 1)) by (apply Z.quot_pos; lia).
  rewrite (iresult_in uint64) by (try exact U; apply UR; lia). cbn [bind].
  rewrite (wrap_id T) by (try exact HT; pose proof (inr_0 T HT); unfold inr in *; lia). reflexivity.
Qed.

(** @ex C64_unbiased_mean_partial_ex: 3, 3, 3, 3 over int: 4. *)
Lemma c64_nonnegative_ex :
  let ops := pushes [3; 3; 3; 3] in let s := ICM 3 4 in
  In int32 all_ity /\ run_opt (icm_push int32) icm_clear icm_init ops = Some s /\
  2 <= Z.of_nat (length (since_clear ops)) <= imax int32 /\ 0 <= icm_mean s /\
  icm_mean s * 4 < 2 ^ 64 /\ Z.quot (icm_mean s * 4) (4 - 1) <= imax int32 /\
  icm_unbiased_mean int32 s = Some 4.
Proof. cbv zeta. split; [cbn; tauto|]. repeat split; discriminate. Qed.

(** ** C73 *)

(** @prop C73_mean: for every integer type and history such that, after every
    prefix, the values since the last clear have an integer mean, are not more
    than the largest value of the type and have representable differences:
    mean() is exactly their mean. *)
Lemma c73_mean : forall (T : ity) (ops : list (op Z)), In T all_ity ->
  (forall pre post, ops = pre ++ post ->
    let l := since_clear pre in
    (Z.of_nat (length l) <= imax T /\
     Forall (fun x => imin T <= x <= imax T) l /\
     forall x y, In x l -> In y l -> imin (promote T) <= x - y <= imax (promote T)) /\
    integral_mean l) ->
  let l := since_clear ops in
  exists s, run_opt (icm_push T) icm_clear icm_init ops = Some s /\
    icm_count s = N.of_nat (length l) /\ Z.of_nat (length l) * icm_mean s = zsum l.
Proof.
  intros T ops HT H l. destruct (icm_exact_run T HT ops H) as (s & E & EC & EM).
  exists s. split; [exact E|]. split; [exact EC|]. rewrite EM. apply zmean_times.
  destruct (H ops [] (eq_sym (app_nil_r ops))) as [_ I]. exact I.
Qed.

(** @ex C73_mean_ex: 8-bit values 7, -3, -1, 9 after a clear; mean 3. *)
Lemma c73_mean_ex :
  let ops := [Push 5; Clear; Push 7; Push (-3); Push (-1); Push 9] in
  In int8 all_ity /\
  (forall pre post, ops = pre ++ post ->
    let l := since_clear pre in
    (Z.of_nat (length l) <= imax int8 /\
     Forall (fun x => imin int8 <= x <= imax int8) l /\
     forall x y, In x l -> In y l -> imin (promote int8) <= x - y <= imax (promote int8)) /\
    integral_mean l) /\
  run_opt (icm_push int8) icm_clear icm_init ops = Some (ICM 3 4).
Proof.
  cbv zeta. split; [cbn; tauto|]. split; [|reflexivity].
  apply (prefix_cond (fun l => (Z.of_nat (length l) <= imax int8 /\
    Forall (fun x => imin int8 <= x <= imax int8) l /\
    forall x y, In x l -> In y l -> imin (promote int8) <= x - y <= imax (promote int8)) /\ integral_mean l)).
  intros k Hk. cbn [length] in Hk.
  change (imax int8) with 127. change (imin int8) with (-128).
  change (imax (promote int8)) with 2147483647. change (imin (promote int8)) with (-2147483648).
  do 7 (destruct k as [|k]; [split; [cbn; repeat split; try (intros x y X Y; cbn in X, Y); try (repeat constructor; lia); lia
    |match goal with |- integral_mean ?l => let v := eval vm_compute in (zmean l) in exists v; reflexivity end]|]).
  lia.
Qed.

(** @prop C73_variance: if moreover twice the sum of the squared deviations from
    the mean is representable after every prefix, then variance() is that sum
    divided by the number of values, rounded down. *)
Lemma c73_variance : forall (T : ity) (ops : list (op Z)), In T all_ity ->
  (forall pre post, ops = pre ++ post ->
    let l := since_clear pre in
    (Z.of_nat (length l) <= imax T /\
     Forall (fun x => imin T <= x <= imax T) l /\
     forall x y, In x l -> In y l -> imin (promote T) <= x - y <= imax (promote T)) /\
    integral_mean l /\
    2 * zsum (map (fun x => (x - zmean l) ^ 2) l) <= imax T) ->
  let l := since_clear ops in
  l <> [] ->
  exists s, run_opt (icv_push T) icv_clear icv_init ops = Some s /\
    icv_variance T s = Some (zsum (map (fun x => (x - zmean l) ^ 2) l) / Z.of_nat (length l)).
Proof.
  intros T ops HT H l NE.
  assert (EQ : forall l, codev (twice l) = zsum (map (fun x => (x - zmean l) ^ 2) l)).
  { intros l0. unfold codev, zcodev. rewrite twice_fst, twice_snd. unfold twice. rewrite map_map.
    f_equal. apply map_ext. intros a. cbn [fst snd]. ring. }
  destruct (icv_exact_run T HT ops) as (s & E & X).
  { intros pre post Eo. destruct (H pre post Eo) as (R & I & B).
    pose proof (codev_twice_pos (since_clear pre)) as P. pose proof (inr_0 T HT) as Z0.
    rewrite <- EQ in B. unfold even_pairs. rewrite twice_fst, twice_snd. unfold inr in Z0.
    split; [exact R|]. split; [exact R|]. split; [exact I|]. split; [exact I|]. lia. }
  exists s. split; [exact E|]. rewrite <- EQ. apply icv_variance_exact; [exact HT|exact X|exact NE|].
  destruct (H ops [] (eq_sym (app_nil_r ops))) as [R _]. exact R.
Qed.

(** @ex C73_variance_ex: 16-bit values 7, -3, -1, 9 after a clear; the squared
    deviations sum to 104, variance 26. *)
Lemma c73_variance_ex :
  let ops := [Push 5; Clear; Push 7; Push (-3); Push (-1); Push 9] in
  In int16 all_ity /\
  (forall pre post, ops = pre ++ post ->
    let l := since_clear pre in
    (Z.of_nat (length l) <= imax int16 /\
     Forall (fun x => imin int16 <= x <= imax int16) l /\
     forall x y, In x l -> In y l -> imin (promote int16) <= x - y <= imax (promote int16)) /\
    integral_mean l /\
    2 * zsum (map (fun x => (x - zmean l) ^ 2) l) <= imax int16) /\
  exists s, run_opt (icv_push int16) icv_clear icv_init ops = Some s /\ icv_variance int16 s = Some 26.
Proof.
  cbv zeta. split; [cbn; tauto|]. split; [|eexists; split; reflexivity].
  apply (prefix_cond (fun l => (Z.of_nat (length l) <= imax int16 /\
    Forall (fun x => imin int16 <= x <= imax int16) l /\
    forall x y, In x l -> In y l -> imin (promote int16) <= x - y <= imax (promote int16)) /\ integral_mean l /\
    2 * zsum (map (fun x => (x - zmean l) ^ 2) l) <= imax int16)).
  intros k Hk. cbn [length] in Hk.
  change (imax int16) with 32767. change (imin int16) with (-32768).
  change (imax (promote int16)) with 2147483647. change (imin (promote int16)) with (-2147483648).
  do 7 (destruct k as [|k]; [split; [cbn; repeat split; try (intros x y X Y; cbn in X, Y); try (repeat constructor; lia); lia
    |split; [match goal with |- integral_mean ?l => let v := eval vm_compute in (zmean l) in exists v; reflexivity end
            |vm_compute; discriminate]]|]).
  lia.
Qed.

(** @prop C73_covariance: likewise for pairs: if after every prefix both
    coordinates have integer means and representable differences, and twice the
    sum C of the products of the deviations is representable, then covariance()
    is C divided by the number of values, rounded down, whenever C is not
    negative (C63 covers negative sums). *)
Lemma c73_covariance : forall (T : ity) (ops : list (op (Z * Z))), In T all_ity ->
  (forall pre post, ops = pre ++ post ->
    let l := since_clear pre in
    let fits := fun u : list Z =>
      Z.of_nat (length u) <= imax T /\
      Forall (fun x => imin T <= x <= imax T) u /\
      forall x y, In x u -> In y u -> imin (promote T) <= x - y <= imax (promote T) in
    let C := zcodev (zmean (map fst l)) (zmean (map snd l)) l in
    fits (map fst l) /\ fits (map snd l) /\
    integral_mean (map fst l) /\ integral_mean (map snd l) /\
    2 * Z.abs C <= imax T /\ imin T <= C) ->
  let l := since_clear ops in
  let C := zcodev (zmean (map fst l)) (zmean (map snd l)) l in
  l <> [] -> 0 <= C ->
  exists s, run_opt (icc_push T) icc_clear icc_init ops = Some s /\
    icc_variance T s = Some (C / Z.of_nat (length l)).
Proof.
  intros T ops HT H l C NE P. destruct (icc_exact_run T HT ops H) as (s & E & X).
  exists s. split; [exact E|]. apply icc_variance_exact; [exact HT|exact X|exact NE| |exact P].
  destruct (H ops [] (eq_sym (app_nil_r ops))) as [R _]. exact R.
Qed.

(** @ex C73_covariance_ex: 16-bit pairs (7,2), (-3,6), (-1,4), (9,20) after a
    clear; the deviations multiply to 4*(-6) + (-6)*(-2) + (-4)*(-4) + 6*12 = 76,
    covariance 19. *)
Lemma c73_covariance_ex :
  let ops := [Push (5, 1); Clear; Push (7, 2); Push (-3, 6); Push (-1, 4); Push (9, 20)] in
  In int16 all_ity /\
  (forall pre post, ops = pre ++ post ->
    let l := since_clear pre in
    let fits := fun u : list Z =>
      Z.of_nat (length u) <= imax int16 /\
      Forall (fun x => imin int16 <= x <= imax int16) u /\
      forall x y, In x u -> In y u -> imin (promote int16) <= x - y <= imax (promote int16) in
    let C := zcodev (zmean (map fst l)) (zmean (map snd l)) l in
    fits (map fst l) /\ fits (map snd l) /\
    integral_mean (map fst l) /\ integral_mean (map snd l) /\
    2 * Z.abs C <= imax int16 /\ imin int16 <= C) /\
  exists s, run_opt (icc_push int16) icc_clear icc_init ops = Some s /\ icc_variance int16 s = Some 19.
Proof.
  cbv zeta. split; [cbn; tauto|]. split; [|eexists; split; reflexivity].
  apply (prefix_cond (fun l => let fits := fun u : list Z =>
      Z.of_nat (length u) <= imax int16 /\
      Forall (fun x => imin int16 <= x <= imax int16) u /\
      forall x y, In x u -> In y u -> imin (promote int16) <= x - y <= imax (promote int16) in
    let C := zcodev (zmean (map fst l)) (zmean (map snd l)) l in
    fits (map fst l) /\ fits (map snd l) /\
    integral_mean (map fst l) /\ integral_mean (map snd l) /\
    2 * Z.abs C <= imax int16 /\ imin int16 <= C)).
  cbv zeta. intros k Hk. cbn [length] in Hk.
  change (imax int16) with 32767. change (imin int16) with (-32768).
  change (imax (promote int16)) with 2147483647. change (imin (promote int16)) with (-2147483648).
  do 7 (destruct k as [|k]; [
    split; [cbn; repeat split; try (intros x y X Y; cbn in X, Y); try (repeat constructor; lia); lia|];
    split; [cbn; repeat split; try (intros x y X Y; cbn in X, Y); try (repeat constructor; lia); lia|];
    split; [match goal with |- integral_mean ?l => let v := eval vm_compute in (zmean l) in exists v; reflexivity end|];
    split; [match goal with |- integral_mean ?l => let v := eval vm_compute in (zmean l) in exists v; reflexivity end|];
    split; vm_compute; discriminate|]).
  lia.
Qed.

(** @prop C73_window_mean: for every signed integer type and window size, if
    after every prefix the values since the last clear are at most B in absolute
    value, with 2B representable, and the values in the window have an integer
    mean: the window holds the last values and mean() is exactly their mean. *)
Lemma c73_window_mean : forall (T : ity) (W : nat) (B : Z) (ops : list (op Z)),
  In T all_ity -> isigned T = true -> (0 < W)%nat -> Z.of_nat W <= imax T -> 2 * B <= imax T ->
  (forall pre post, ops = pre ++ post ->
    let l := since_clear pre in
    Forall (fun x => Z.abs x <= B) l /\ integral_mean (lastn W l)) ->
  let w := lastn W (since_clear ops) in
  exists s, run_opt (iwm_push T W) iwm_clear iwm_init ops = Some s /\
    iwm_window s = w /\ Z.of_nat (length w) * iwm_mean s = zsum w.
Proof.
  intros T W B ops HT HS HW HWT HB H w.
  destruct (iwm_exact_run T W B HT HS HW HWT HB ops H) as (s & E & EW & EM & _ & I).
  exists s. split; [exact E|]. split; [exact EW|]. rewrite EM. apply zmean_times. exact I.
Qed.

(** @ex C73_window_mean_ex: 8-bit values 1, 3, 5, -1 in a window of two, after a
    clear; mean 2. *)
Lemma c73_window_mean_ex :
  let ops := [Push 6; Clear; Push 1; Push 3; Push 5; Push (-1)] in
  In int8 all_ity /\ isigned int8 = true /\ (0 < 2)%nat /\ Z.of_nat 2 <= imax int8 /\ 2 * 6 <= imax int8 /\
  (forall pre post, ops = pre ++ post ->
    let l := since_clear pre in
    Forall (fun x => Z.abs x <= 6) l /\ integral_mean (lastn 2 l)) /\
  run_opt (iwm_push int8 2) iwm_clear iwm_init ops = Some (IWM [5; -1] 2).
Proof.
  cbv zeta. split; [cbn; tauto|]. split; [reflexivity|]. split; [lia|]. split; [discriminate|]. split; [discriminate|].
  split; [|reflexivity].
  apply (prefix_cond (fun l => Forall (fun x => Z.abs x <= 6) l /\ integral_mean (lastn 2 l))).
  intros k Hk. cbn [length] in Hk.
  do 7 (destruct k as [|k]; [split; [cbn; repeat constructor; lia
    |match goal with |- integral_mean ?l => let v := eval vm_compute in (zmean l) in exists v; reflexivity end]|]).
  lia.
Qed.

(** @prop C73_window_variance: if moreover the type is a signed 32 or 64 bit integer
    and (W+1) * 4B^2 is representable, then variance() is the sum of the squared
    deviations of the values in the window from their mean, divided by their
    number and rounded down. *)
Lemma c73_window_variance : forall (T : ity) (W : nat) (B : Z) (ops : list (op Z)),
  In T [int32; int64] -> (0 < W)%nat -> Z.of_nat W <= imax T -> 2 * B <= imax T ->
  (Z.of_nat W + 1) * (4 * (B * B)) <= imax T ->
  (forall pre post, ops = pre ++ post ->
    let l := since_clear pre in
    Forall (fun x => Z.abs x <= B) l /\ integral_mean (lastn W l)) ->
  let w := lastn W (since_clear ops) in
  w <> [] ->
  exists s, run_opt (iwv_push T W) iwv_clear iwv_init ops = Some s /\
    iwv_variance T s = Some (zsum (map (fun x => (x - zmean w) ^ 2) w) / Z.of_nat (length w)).
Proof.
  intros T W B ops HT2 HW HWT HB HV H w NE.
  assert (HT : In T all_ity) by (cbn in *; tauto).
  assert (HS : isigned T = true) by (destruct HT2 as [<-|[<-|[]]]; reflexivity).
  destruct (iwv_exact_run T W B HT HS HW HWT HB HV ops H) as (s & E & X).
  exists s. split; [exact E|].
  apply (iwv_exact_variance T W B HT HS HW HWT HV); [exact X|].
  intros Z0. apply NE. unfold w. rewrite Z0. reflexivity.
Qed.

(** @ex C73_window_variance_ex: values 1, 3, 5, -1 over int in a window of two,
    after a clear; variance 9. *)
Lemma c73_window_variance_ex :
  let ops := [Push 6; Clear; Push 1; Push 3; Push 5; Push (-1)] in
  In int32 [int32; int64] /\ (0 < 2)%nat /\ Z.of_nat 2 <= imax int32 /\ 2 * 6 <= imax int32 /\
  (Z.of_nat 2 + 1) * (4 * (6 * 6)) <= imax int32 /\
  (forall pre post, ops = pre ++ post ->
    let l := since_clear pre in
    Forall (fun x => Z.abs x <= 6) l /\ integral_mean (lastn 2 l)) /\
  exists s, run_opt (iwv_push int32 2) iwv_clear iwv_init ops = Some s /\ iwv_variance int32 s = Some 9.
Proof.
  cbv zeta. split; [left; reflexivity|]. split; [lia|]. split; [discriminate|]. split; [discriminate|].
  split; [discriminate|]. split; [|eexists; split; reflexivity].
  apply (prefix_cond (fun l => Forall (fun x => Z.abs x <= 6) l /\ integral_mean (lastn 2 l))).
  intros k Hk. cbn [length] in Hk.
  do 7 (destruct k as [|k]; [split; [cbn; repeat constructor; lia
    |match goal with |- integral_mean ?l => let v := eval vm_compute in (zmean l) in exists v; reflexivity end]|]).
  lia.
Qed.
