(** * Claims C56-C57: push_inserter and close_to *)

From Coq Require Import List Arith NArith ZArith Reals Bool.
From Coq Require Import Floats.SpecFloat.
From Flocq Require Import Core.
From Verif Require Import Arith PushIterator SpecPushAll CloseTo Binary64 Cumulative.
Import ListNotations.
Local Open Scope R_scope.
(* @end-header *)
From Coq Require Import Lia Lra.
From Flocq Require Import IEEE754.BinarySingleNaN Relative.
From Verif Require Import HistoryLemmas CircularSpanProofs PushIteratorProofs CloseToProofs.

(** ** C56 *)

(** @prop C56_copy: for every filter type and push function, every memory of
    filters and every filter in it: std::copy (and std::move) through
    push_inserter succeeds exactly when pushing the values one by one does, and
    then leaves that filter in the state those pushes produce and every other
    filter alone. *)
Lemma c56_copy : forall (S A : Type) (push : S -> A -> option S)
    (xs : list A) (mem : list S) (a : nat) (s : S),
  nth_error mem a = Some s ->
  match push_all push s xs with
  | Some s' => exists mem', std_copy push xs mem (push_inserter a) = Some (mem', push_inserter a) /\
                            only_changed mem mem' a s'
  | None => std_copy push xs mem (push_inserter a) = None
  end.
Proof. intros S A push xs mem a s H. apply copy_spec. exact H. Qed.

(** @ex C56_copy_ex: copying 1, 2, 6 into the second of two binary64 cumulative
    means gives it mean 3 and leaves the first at its initial state. *)
Lemma c56_copy_ex :
  let push := fun (s : cmean b64num) x => Some (cmean_push b64num s x) in
  let mem := [cmean_init b64num; cmean_init b64num] in
  match std_copy push [b64_of_Z 1; b64_of_Z 2; b64_of_Z 6] mem (push_inserter 1) with
  | Some (mem', _) => map (fun s => (cmean_mean b64num s : b64, cmean_size b64num s)) mem' =
                      [(b64_of_Z 0, 0%N); (b64_of_Z 3, 3%N)]
  | None => False
  end.
Proof. vm_compute. reflexivity. Qed.

(** @prop C56_copy_if: std::copy_if through push_inserter pushes exactly the
    selected values, in order. *)
Lemma c56_copy_if : forall (S A : Type) (push : S -> A -> option S) (p : A -> bool)
    (xs : list A) (mem : list S) (a : nat) (s : S),
  nth_error mem a = Some s ->
  match push_all push s (filter p xs) with
  | Some s' => exists mem', std_copy_if push p xs mem (push_inserter a) = Some (mem', push_inserter a) /\
                            only_changed mem mem' a s'
  | None => std_copy_if push p xs mem (push_inserter a) = None
  end.
Proof. intros S A push p xs mem a s H. rewrite copy_if_copy. apply copy_spec. exact H. Qed.

(** @ex C56_copy_if_ex: only the even values arrive. *)
Lemma c56_copy_if_ex :
  std_copy_if (fun (s : list nat) x => Some (s ++ [x])) Nat.even [1; 2; 3; 4; 6]%nat
    [[]; [0]]%nat (push_inserter 1) = Some ([[]; [0; 2; 4; 6]]%nat, push_inserter 1).
Proof. reflexivity. Qed.

(** @prop C56_transform: std::transform through push_inserter pushes the
    transformed values in order. *)
Lemma c56_transform : forall (S A B : Type) (push : S -> A -> option S) (f : B -> A)
    (xs : list B) (mem : list S) (a : nat) (s : S),
  nth_error mem a = Some s ->
  match push_all push s (map f xs) with
  | Some s' => exists mem', std_transform push f xs mem (push_inserter a) = Some (mem', push_inserter a) /\
                            only_changed mem mem' a s'
  | None => std_transform push f xs mem (push_inserter a) = None
  end.
Proof. intros S A B push f xs mem a s H. rewrite transform_copy. apply copy_spec. exact H. Qed.

(** @ex C56_transform_ex: squares arrive in order. *)
Lemma c56_transform_ex :
  std_transform (fun (s : list nat) x => Some (s ++ [x])) (fun x => x * x)%nat [1; 2; 3]%nat
    [[]] (push_inserter 0) = Some ([[1; 4; 9]]%nat, push_inserter 0).
Proof. reflexivity. Qed.

(** @prop C56_postfix: loops written with postfix increments ( *it++ = x ) have
    the same effect as std::copy, for every iterator, valid or not. *)
Lemma c56_postfix : forall (S A : Type) (push : S -> A -> option S)
    (xs : list A) (mem : list S) (it : piter),
  post_copy push xs mem it = std_copy push xs mem it.
Proof. intros S A push xs mem it. apply post_copy_copy. Qed.

(** @ex C56_postfix_ex: two values through a postfix loop. *)
Lemma c56_postfix_ex :
  post_copy (fun (s : list nat) x => Some (s ++ [x])) [7; 8]%nat [[]] (push_inserter 0) =
  Some ([[7; 8]]%nat, push_inserter 0).
Proof. reflexivity. Qed.

(** @prop C56_interleaved: a program writing through any number of push
    iterators in any interleaving pushes to every filter exactly the values
    written through iterators for it, in program order. *)
Lemma c56_interleaved : forall (S A : Type) (push : S -> A -> option S)
    (os : list pi_op) (ws : list (nat * A)) (mem : list S),
  Forall2 write_of os ws ->
  Forall (fun w => (fst w < length mem)%nat) ws ->
  (forall a s, nth_error mem a = Some s -> push_all push s (written a ws) <> None) ->
  exists mem', pi_program push mem os = Some mem' /\
    length mem' = length mem /\
    forall a s, nth_error mem a = Some s -> nth_error mem' a = push_all push s (written a ws).
Proof. intros S A push os ws mem. apply program_spec. Qed.

(** @ex C56_interleaved_ex: writes alternating between two containers. *)
Lemma c56_interleaved_ex :
  let push := fun (s : list nat) x => Some (s ++ [x]) in
  let ws := [(0, 5); (1, 6); (0, 7)]%nat in
  let os := [Write (push_inserter 0) 5; WriteInc (push_inserter 1) 6;
             WriteInc (push_inserter 0) 7]%nat in
  Forall2 write_of os ws /\ written 0 ws = [5; 7]%nat /\
  pi_program push [[]; []] os = Some [[5; 7]; [6]]%nat.
Proof.
  cbv zeta. split; [|split; reflexivity].
  constructor; [left; reflexivity|]. constructor; [right; reflexivity|].
  constructor; [right; reflexivity|]. constructor.
Qed.

(** @prop C56_null: a write through a default constructed iterator is
    undefined; copying an empty range through one is not. *)
Lemma c56_null : forall (S A : Type) (push : S -> A -> option S) (xs : list A) (mem : list S),
  std_copy push xs mem pi_null = match xs with [] => Some (mem, pi_null) | _ => None end.
Proof. intros S A push [|x xs] mem; reflexivity. Qed.

(** @ex C56_null_ex: one value. *)
Lemma c56_null_ex :
  std_copy (fun (s : list nat) x => Some (s ++ [x])) [1]%nat [[]] pi_null = None.
Proof. reflexivity. Qed.

(** ** C57 *)

(** @prop C57_symmetric: on doubles, NaN and infinities included, and for all
    tolerances, the order of the arguments does not matter. *)
Lemma c57_symmetric : forall (t : closeness b64num) (x y : b64),
  close_to t x y = close_to t y x.
Proof. intros t x y. apply close_to_sym64. Qed.

(** @ex C57_symmetric_ex: 100 and 101 are close at 2 percent and apart at
    half a percent, either way round. *)
Lemma c57_symmetric_ex :
  let two_percent := @ndiv b64num (b64_of_Z 2) (b64_of_Z 100) in
  let half_percent := @ndiv b64num (b64_of_Z 1) (b64_of_Z 200) in
  close_to (n := b64num) (ct_relative_only two_percent) (b64_of_Z 100) (b64_of_Z 101) = true /\
  close_to (n := b64num) (ct_relative_only two_percent) (b64_of_Z 101) (b64_of_Z 100) = true /\
  close_to (n := b64num) (ct_relative_only half_percent) (b64_of_Z 100) (b64_of_Z 101) = false /\
  close_to (n := b64num) (ct_relative_only half_percent) (b64_of_Z 101) (b64_of_Z 100) = false.
Proof. vm_compute. repeat split. Qed.

(** @prop C57_never_close: NaN and the infinities are close to nothing, not
    even to themselves, whatever the tolerances. *)
Lemma c57_never_close : forall (t : closeness b64num) (x y : b64),
  x = S754_nan \/ (exists s, x = S754_infinity s) ->
  close_to t x y = false /\ close_to t y x = false.
Proof.
  intros t x y H. assert (F : is_finite_SF x = false) by (destruct H as [-> | (s & ->)]; reflexivity).
  rewrite (close_to_sym64 t y x). split; apply close_to_nonfinite64; exact F.
Qed.

(** @ex C57_never_close_ex: NaN, +inf with infinite tolerances. *)
Lemma c57_never_close_ex :
  close_to (n := b64num) (Closeness (n := b64num) (S754_infinity false) (S754_infinity false))
    (S754_infinity false) (S754_infinity false) = false /\
  close_to (n := b64num) ct_default S754_nan S754_nan = false.
Proof. vm_compute. split; reflexivity. Qed.

(** @prop C57_equal: finite doubles that denote the same number are close for
    every finite nonnegative relative and finite positive absolute tolerance. *)
Lemma c57_equal : forall r a x y : b64,
  b64_finite r -> b64_finite a -> b64_finite x -> b64_finite y ->
  0 <= b64_real r -> 0 < b64_real a -> b64_real x = b64_real y ->
  close_to (n := b64num) (Closeness (n := b64num) r a) x y = true.
Proof.
  intros r a x y Hr Ha Hx Hy Pr Pa E. apply close_to_real64; try assumption.
  rewrite E, Rminus_diag_eq by reflexivity. rewrite Rabs_R0, rnd64_0.
  split; [|right; exact Pa]. unfold in_range. rewrite Rabs_R0. apply bpow_gt_0.
Qed.

(** @ex C57_equal_ex: +0 and -0, and the largest double with itself, with the
    default tolerances, which meet the hypotheses. *)
Lemma c57_equal_ex :
  let big := S754_finite false 9007199254740991 971 in
  close_to (n := b64num) ct_default (S754_zero false) (S754_zero true) = true /\
  close_to (n := b64num) ct_default big big = true /\
  b64_finite (@neps b64num) /\ b64_finite (@nmin b64num) /\
  0 <= b64_real (@neps b64num) /\ 0 < b64_real (@nmin b64num).
Proof.
  cbv zeta. split; [reflexivity|]. split; [reflexivity|].
  split; [split; reflexivity|]. split; [split; reflexivity|].
  split; [apply Rlt_le|]; apply (F2R_gt_0 radix2 (Float radix2 4503599627370496 _)); reflexivity.
Qed.

(** @prop C57_apart: finite doubles farther apart than both tolerances are
    rejected; the distance, the relative tolerance and their comparison are
    those of the real numbers, so rounding never turns a rejection into an
    acceptance. *)
Lemma c57_apart : forall r a x y : b64,
  b64_finite r -> b64_finite a -> b64_finite x -> b64_finite y ->
  0 <= b64_real r ->
  let distance := Rabs (b64_real x - b64_real y) in
  b64_real r * Rmax (Rabs (b64_real x)) (Rabs (b64_real y)) <= distance ->
  b64_real a <= distance ->
  close_to (n := b64num) (Closeness (n := b64num) r a) x y = false.
Proof.
  intros r a x y Hr Ha Hx Hy Pr d H1 H2. apply not_true_is_false.
  rewrite close_to_real64 by assumption. fold d. intros (_ & [H|H]).
  - pose proof (rnd64_le _ _ H1). lra.
  - pose proof (rnd64_le _ _ H2) as H'. rewrite rnd64_rep in H' by (apply b64_real_rep; exact Ha). lra.
Qed.

(** @ex C57_apart_ex: 2 and 3 with relative tolerance 1/4. *)
Lemma c57_apart_ex :
  let r := @ndiv b64num (b64_of_Z 1) (b64_of_Z 4) in
  b64_finite r /\ b64_finite (b64_of_Z 2) /\
  close_to (n := b64num) (ct_relative_only r) (b64_of_Z 2) (b64_of_Z 3) = false.
Proof. vm_compute. repeat split. Qed.

(** @prop C57_exact: in exact arithmetic the test accepts precisely the pairs
    that differ by less than the relative tolerance times the larger magnitude
    or by less than the absolute tolerance. *)
Lemma c57_exact : forall eps r a x y : R,
  close_to (n := exact eps) (Closeness (n := exact eps) (Fin r) (Fin a)) (Fin x) (Fin y) = true <->
  Rabs (x - y) < r * Rabs x \/ Rabs (x - y) < r * Rabs y \/ Rabs (x - y) < a.
Proof.
  intros eps r a x y. rewrite close_to_exact.
  assert (M : forall u v, Rabs (x - y) < Rmax u v <-> Rabs (x - y) < u \/ Rabs (x - y) < v).
  { intros u v. unfold Rmax. destruct (Rle_dec u v); split; intros; lra. }
  destruct (Rlt_bool_spec (Rabs (x - y)) (Rmax (r * Rmax (Rabs x) (Rabs y)) a)) as [H|H].
  - split; [|reflexivity]. intros _. apply M in H. destruct H as [H|H]; [|tauto].
    unfold Rmax in H. destruct (Rle_dec (Rabs x) (Rabs y)); tauto.
  - split; [discriminate|]. intros C. exfalso. apply Rle_not_lt in H. apply H. apply M.
    pose proof (Rabs_pos (x - y)). pose proof (Rabs_pos x). pose proof (Rabs_pos y).
    pose proof (Rmax_l (Rabs x) (Rabs y)). pose proof (Rmax_r (Rabs x) (Rabs y)).
    destruct C as [C|[C|C]]; [left|left|right; exact C].
    + apply Rlt_le_trans with (1 := C). apply Rmult_le_compat_l; [|assumption].
      apply Rnot_lt_le. intros Hr. assert (r * Rabs x <= 0) by nra. lra.
    + apply Rlt_le_trans with (1 := C). apply Rmult_le_compat_l; [|assumption].
      apply Rnot_lt_le. intros Hr. assert (r * Rabs y <= 0) by nra. lra.
Qed.

(** @ex C57_exact_ex: 99 and 100 at two percent. *)
Lemma c57_exact_ex :
  close_to (n := exact 1) (Closeness (n := exact 1) (Fin (2 / 100)) (Fin 0)) (Fin 99) (Fin 100) = true.
Proof.
  apply c57_exact. right. left. rewrite (Rabs_left (99 - 100)) by lra.
  rewrite Rabs_pos_eq by lra. lra.
Qed.

(** @prop C57_accept_partial: in binary64 acceptance holds with a margin for the
    rounding of the two products: finite doubles whose distance, increased by
    one part in 2^51, is within the relative tolerance are accepted, unless the
    tolerance is below 2^-1021 or the distance is not a finite double. *)
Lemma c57_accept : forall r a x y : b64,
  b64_finite r -> b64_finite a -> b64_finite x -> b64_finite y ->
  0 <= b64_real r ->
  let distance := Rabs (b64_real x - b64_real y) in
  let tolerance := b64_real r * Rmax (Rabs (b64_real x)) (Rabs (b64_real y)) in
  distance * (1 + bpow radix2 (-51)) <= tolerance ->
  bpow radix2 (-1021) <= tolerance ->
  distance < bpow radix2 1023 ->
  close_to (n := b64num) (Closeness (n := b64num) r a) x y = true.
Proof.
  intros r a x y Hr Ha Hx Hy Pr d p H1 H2 H3. apply close_to_real64; try assumption.
  fold d. fold p. assert (D0 : 0 <= d) by apply Rabs_pos.
  assert (D1 : 0 <= rnd64 d) by (apply rnd64_nonneg; exact D0).
  split.
  - unfold in_range. rewrite Rabs_pos_eq by exact D1.
    apply Rle_lt_trans with (bpow radix2 1023).
    + rewrite <- (rnd64_rep (bpow radix2 1023)) by (apply rep64_bpow; lia).
      apply rnd64_le. lra.
    + apply bpow_lt. lia.
  - left.
    assert (Ep : rnd64 p >= p * (1 - bpow radix2 (-53))).
    { pose proof (relative_error_N_FLT radix2 (-1074) 53 eq_refl (fun z => negb (Z.even z)) p) as E.
      assert (P0 : 0 < p). { apply Rlt_le_trans with (2 := H2). apply bpow_gt_0. }
      rewrite (Rabs_pos_eq p) in E by lra.
      specialize (E (Rle_trans _ _ _ (bpow_le radix2 (-1074 + 53 - 1) (-1021) ltac:(lia)) H2)).
      fold (rnd64 p) in E. apply Rabs_le_inv in E.
      change (bpow radix2 (- (53) + 1)) with (bpow radix2 (-52)) in E.
      replace (bpow radix2 (-52)) with (2 * bpow radix2 (-53)) in E
        by (change 2 with (bpow radix2 1); rewrite <- bpow_plus; reflexivity).
      nra. }
    destruct (Rle_lt_dec (bpow radix2 (-1022)) d) as [L|L].
    + assert (Ed : rnd64 d <= d * (1 + bpow radix2 (-53))).
      { pose proof (relative_error_N_FLT radix2 (-1074) 53 eq_refl (fun z => negb (Z.even z)) d) as E.
        rewrite (Rabs_pos_eq d) in E by lra. specialize (E L).
        fold (rnd64 d) in E. apply Rabs_le_inv in E.
        change (bpow radix2 (- (53) + 1)) with (bpow radix2 (-52)) in E.
        replace (bpow radix2 (-52)) with (2 * bpow radix2 (-53)) in E
          by (change 2 with (bpow radix2 1); rewrite <- bpow_plus; reflexivity).
        nra. }
      assert (B51 : bpow radix2 (-51) = 4 * bpow radix2 (-53))
        by (change 4 with (bpow radix2 2); rewrite <- bpow_plus; reflexivity).
      assert (B53 : 0 < bpow radix2 (-53) < 1 / 4).
      { split; [apply bpow_gt_0|]. apply Rlt_le_trans with (bpow radix2 (-2)); [apply bpow_lt; lia|].
        cbn. lra. }
      assert (Dp : 0 < d). { apply Rlt_le_trans with (2 := L). apply bpow_gt_0. }
      rewrite B51 in H1. set (b := bpow radix2 (-53)) in *.
      assert (H4 : d * (1 + 4 * b) * (1 - b) <= p * (1 - b)) by (apply Rmult_le_compat_r; lra).
      assert (H5 : 0 < d * (b * (2 - 4 * b))).
      { apply Rmult_lt_0_compat; [exact Dp|]. apply Rmult_lt_0_compat; lra. }
      nra.
    + assert (L1 : rnd64 d <= bpow radix2 (-1022)).
      { rewrite <- (rnd64_rep (bpow radix2 (-1022))) by (apply rep64_bpow; lia). apply rnd64_le. lra. }
      assert (L2 : bpow radix2 (-1021) <= rnd64 p).
      { rewrite <- (rnd64_rep (bpow radix2 (-1021))) by (apply rep64_bpow; lia). apply rnd64_le. exact H2. }
      pose proof (bpow_lt radix2 (-1022) (-1021) ltac:(lia)). lra.
Qed.

(** @ex C57_accept_partial_ex: 2 and 3 with relative tolerance 1/2. *)
Lemma c57_accept_ex :
  let r := @ndiv b64num (b64_of_Z 1) (b64_of_Z 2) in
  close_to (n := b64num) (ct_relative_only r) (b64_of_Z 2) (b64_of_Z 3) = true /\
  Rabs (2 - 3) * (1 + bpow radix2 (-51)) <= / 2 * Rmax (Rabs 2) (Rabs 3).
Proof.
  cbv zeta. split; [vm_compute; reflexivity|].
  rewrite (Rabs_left (2 - 3)), (Rabs_pos_eq 2), (Rabs_pos_eq 3), (Rmax_right 2 3) by lra.
  assert (H : bpow radix2 (-51) < / 4) by (apply (bpow_lt radix2 (-51) (-2)); reflexivity).
  lra.
Qed.

(** @prop C57_accept_refuted: without the margin acceptance fails in binary64:
    there are finite doubles strictly within the relative tolerance that are
    rejected, because the product is rounded down onto the distance. *)
Lemma c57_accept_refuted : exists r x y : b64,
  b64_finite r /\ b64_finite x /\ b64_finite y /\
  Rabs (b64_real x - b64_real y) < b64_real r * Rmax (Rabs (b64_real x)) (Rabs (b64_real y)) /\
  close_to (n := b64num) (ct_relative_only (r : b64num)) x y = false.
Proof.
  exists (S754_finite false 4503599627370497 (-52)), (S754_finite false 4503599627370497 (-52)),
    (S754_finite true 4503599627370496 (-104)).
  split; [split; reflexivity|]. split; [split; reflexivity|]. split; [split; reflexivity|].
  split; [|reflexivity].
  unfold b64_real. cbn [SF2R cond_Zopp]. unfold F2R. cbn [Fnum Fexp].
  assert (E : bpow radix2 (-52) = 4503599627370496 * bpow radix2 (-104)).
  { change 4503599627370496 with (bpow radix2 52). rewrite <- bpow_plus. reflexivity. }
  assert (E1 : 4503599627370496 * bpow radix2 (-52) = 1).
  { change 4503599627370496 with (bpow radix2 52). rewrite <- bpow_plus. reflexivity. }
  assert (P : 0 < bpow radix2 (-104)) by apply bpow_gt_0.
  set (u := bpow radix2 (-104)) in *. clearbody u. rewrite E in *.
  assert (U : u = / 20282409603651670423947251286016) by lra. clear E E1 P. subst u.
  change (IZR (- (4503599627370496))) with (- (4503599627370496)).
  rewrite (Rabs_pos_eq (4503599627370497 * _)) by lra.
  rewrite (Rabs_pos_eq (4503599627370497 * _ - _)) by lra.
  rewrite Rmax_left by (rewrite Rabs_left; lra). lra.
Qed.

(** @ex C57_accept_refuted_ex: the same witness is accepted once the tolerance
    is increased by one unit in the last place. *)
Lemma c57_accept_refuted_ex :
  close_to (n := b64num) (ct_relative_only (S754_finite false 4503599627370498 (-52) : b64num))
    (S754_finite false 4503599627370497 (-52)) (S754_finite true 4503599627370496 (-104)) = true.
Proof. reflexivity. Qed.

(** @prop C57_default: close_to without arguments has relative tolerance 2^-52
    and absolute tolerance 2^-1022 in binary64; with one argument that is the
    relative tolerance.  So for finite doubles, with the distance computed in
    binary64, the default test is: the distance is finite and below the rounding
    of 2^-52 times the larger magnitude, or below 2^-1022. *)
Lemma c57_default : forall r x y : b64,
  b64_finite r -> b64_finite x -> b64_finite y -> 0 <= b64_real r ->
  let distance := rnd64 (Rabs (b64_real x - b64_real y)) in
  let larger := Rmax (Rabs (b64_real x)) (Rabs (b64_real y)) in
  (close_to (n := b64num) ct_default x y = true <->
   in_range distance /\
   (distance < rnd64 (bpow radix2 (-52) * larger) \/ distance < bpow radix2 (-1022))) /\
  (close_to (n := b64num) (ct_relative_only (n := b64num) r) x y = true <->
   in_range distance /\
   (distance < rnd64 (b64_real r * larger) \/ distance < bpow radix2 (-1022))).
Proof.
  intros r x y Hr Hx Hy Pr distance larger.
  assert (B : forall e, b64_real (S754_finite false 4503599627370496 e) = bpow radix2 (52 + e)).
  { intros e. rewrite bpow_plus. unfold b64_real, SF2R, F2R. cbn [Fnum Fexp cond_Zopp]. f_equal.
  }
  assert (Ea : b64_real (@nmin b64num) = bpow radix2 (-1022)) by exact (B (-1074)%Z).
  assert (Er : b64_real (@neps b64num) = bpow radix2 (-52)) by exact (B (-104)%Z).
  assert (Fa : b64_finite (@nmin b64num)) by (split; reflexivity).
  assert (Fr : b64_finite (@neps b64num)) by (split; reflexivity).
  split.
  - rewrite <- Ea, <- Er. apply (close_to_real64 (@neps b64num) (@nmin b64num) x y Fr Fa Hx Hy).
    rewrite Er. apply bpow_ge_0.
  - rewrite <- Ea. apply (close_to_real64 r (@nmin b64num) x y Hr Fa Hx Hy Pr).
Qed.

(** @ex C57_default_ex: 1 is close to the next larger double 1 + 2^-52 by
    default, but not to the second next. *)
Lemma c57_default_ex :
  close_to (n := b64num) ct_default (b64_of_Z 1) (S754_finite false 4503599627370497 (-52)) = true /\
  close_to (n := b64num) ct_default (b64_of_Z 1) (S754_finite false 4503599627370498 (-52)) = false.
Proof. vm_compute. split; reflexivity. Qed.
