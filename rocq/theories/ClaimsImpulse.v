(** * Claims C45-C47: impulse response filters *)

From Coq Require Import Reals ZArith NArith Bool List.
From Coq Require Import Floats.SpecFloat.
From Verif Require Import Arith History SpecStats SpecImpulse Impulse ExactRuns ImpulseRuns.
Import ListNotations.
Local Open Scope R_scope.
(* @end-header *)
From Coq Require Import Lia Lra Arith.
From Verif Require Import HistoryLemmas StatsLemmas Buffer ImpulseProofs.

Lemma len_pos {A} (l : list A) : l <> [] -> (0 < length l)%nat.
Proof. destruct l; [congruence|cbn; lia]. Qed.

(** ** C45 *)

(** @prop C45_fir_convolution: for every non-empty coefficient array and every
    history of pushes and clears, value() of the finite filter is the
    convolution of the coefficients with the values since the last clear (as
    soon as there is one), read at the latest of them. *)
Lemma c45 : forall (eps : R) (c : list R) (ops : list (op R)),
  c <> [] -> since_clear ops <> [] ->
  fir_value (exact eps) (run_fir eps c ops) =
  Fin (convolution c (since_clear ops) (length (since_clear ops) - 1)).
Proof. exact fir_value_exact. Qed.

(** @ex C45_fir_convolution_ex: coefficients 2, 3, 5; after a clear 1, 10, 100,
    1000 give 2*1000 + 3*100 + 5*10 = 2350. *)
Lemma c45_ex :
  let c := [2; 3; 5] in
  let ops := [Push 7; Clear; Push 1; Push 10; Push 100; Push 1000] in
  c <> [] /\ since_clear ops = [1; 10; 100; 1000] /\
  convolution c [1; 10; 100; 1000] 3 = 2350.
Proof.
  cbv zeta. split; [congruence|]. split; [reflexivity|].
  unfold convolution, sumto, back. cbn. ring.
Qed.

(** @prop C45_fir_order: in every arithmetic (hence bit for bit in binary64)
    value() is the sum of the products of the latest values with the
    coefficients, added from the newest value to the oldest, starting at 0. *)
Lemma c45_any : forall (F : num) (c : list F) (ops : list (op F)),
  c <> [] -> since_clear ops <> [] ->
  let h := since_clear ops in
  fir_value F (fir_run F c ops) = dot_before F c h (length h).
Proof.
  intros F c ops Hc Hh. destruct (fir_state F c ops Hc) as (_ & _ & H). apply H. exact Hh.
Qed.

(** @ex C45_fir_order_ex: in binary64 with all coefficients 1, pushing 1, then
    1e16, then -1e16 gives 1 (newest first), whereas adding oldest first would
    give 0. *)
Lemma c45_any_ex :
  let z := fun k => b64_of_Z k : b64num in
  let c := [z 1%Z; z 1%Z; z 1%Z] in
  let h := [z 1%Z; z 10000000000000000%Z; z (-10000000000000000)%Z] in
  c <> [] /\ since_clear (pushes h) <> [] /\
  dot_before b64num c h 3 = z 1%Z /\
  fold_left (@nadd b64num) h n0 = z 0%Z.
Proof.
  cbv zeta. split; [congruence|]. split; [cbn; congruence|].
  split; vm_compute; reflexivity.
Qed.

(** @prop C45_fir_bookkeeping: in every arithmetic, after any history with n
    values since the last clear and P coefficients, size() is min(P, n),
    empty() holds when n = 0, full() when n >= P, and capacity() is P. *)
Lemma c45_size : forall (F : num) (c : list F) (ops : list (op F)),
  c <> [] ->
  let s := fir_run F c ops in
  let n := length (since_clear ops) in
  fir_size F s = N.of_nat (Nat.min (length c) n) /\
  (fir_empty F s = true <-> n = 0%nat) /\
  (fir_full F s = true <-> (length c <= n)%nat) /\
  fir_capacity F s = N.of_nat (length c).
Proof.
  intros F c ops Hc s n. pose proof (len_pos c Hc) as HP.
  destruct (fir_state F c ops Hc) as (H1 & H2 & _).
  fold s in H1, H2. unfold fir_size, fir_empty, fir_full, fir_capacity, rb_size, rb_full.
  rewrite H1, H2, firstn_length, rev_length. fold n. split; [reflexivity|].
  split; [|split; [|reflexivity]].
  - pose proof (firstn_length (length c) (rev (since_clear ops))) as L.
    rewrite rev_length in L. fold n in L.
    destruct (firstn (length c) (rev (since_clear ops))); cbn in *; split; intros; try congruence; lia.
  - rewrite Nat.leb_le. lia.
Qed.

(** @ex C45_fir_bookkeeping_ex: two coefficients, three pushes: full with size
    2. *)
Lemma c45_size_ex :
  let z := fun k => b64_of_Z k : b64num in
  let s := fir_run b64num [z 1%Z; z 2%Z] (pushes [z 1%Z; z 2%Z; z 3%Z]) in
  fir_size b64num s = 2%N /\ fir_full b64num s = true /\ fir_empty b64num s = false.
Proof. cbv zeta. repeat split; vm_compute; reflexivity. Qed.

Lemma fir_pushes eps c l : c <> [] -> l <> [] ->
  fir_value (exact eps) (run_fir eps c (pushes l)) = Fin (convolution c l (length l - 1)).
Proof.
  intros Hc Hl. rewrite fir_value_exact; rewrite ?since_clear_pushes; auto.
Qed.

(** @prop C45_fir_linear: the response to a linear combination of two input
    sequences of equal length is the linear combination of the responses. *)
Lemma c45_linear : forall (eps : R) (c : list R) (u v : R) (x y : list R),
  c <> [] -> x <> [] -> length x = length y ->
  exists p q : R,
    fir_value (exact eps) (run_fir eps c (pushes x)) = Fin p /\
    fir_value (exact eps) (run_fir eps c (pushes y)) = Fin q /\
    fir_value (exact eps) (run_fir eps c (pushes (combination u v x y))) = Fin (u * p + v * q).
Proof.
  intros eps c u v x y Hc Hx L. pose proof (len_pos x Hx) as Lx.
  assert (Hy : y <> []) by (intros ->; cbn in L; lia).
  assert (Hz : combination u v x y <> []).
  { intros E. pose proof (length_combination u v x y L) as LL. rewrite E in LL. cbn in LL. lia. }
  do 2 eexists. rewrite !fir_pushes by assumption. split; [reflexivity|]. split; [reflexivity|].
  rewrite length_combination, convolution_linear, <- L by exact L. reflexivity.
Qed.

(** @ex C45_fir_linear_ex: 2*(1,2) - (3,0) is (-1,4). *)
Lemma c45_linear_ex :
  [1; 2] <> [] /\ length [1; 2] = length [3; 0] /\ combination 2 (-1) [1; 2] [3; 0] = [-1; 4].
Proof. split; [congruence|]. split; [reflexivity|]. unfold combination. cbn. repeat f_equal; ring. Qed.

(** @prop C45_fir_memory: in every arithmetic, value() depends only on the
    last P values: any two histories whose values since the last clear end with
    the same P values agree. *)
Lemma c45_memory : forall (F : num) (c : list F) (ops1 ops2 : list (op F)) (p q l : list F),
  c <> [] -> (length c <= length l)%nat ->
  since_clear ops1 = p ++ l -> since_clear ops2 = q ++ l ->
  fir_value F (fir_run F c ops1) = fir_value F (fir_run F c ops2).
Proof.
  intros F c ops1 ops2 p q l Hc Hl E1 E2. pose proof (len_pos c Hc) as HP.
  assert (G : forall ops p, since_clear ops = p ++ l ->
    fir_value F (fir_run F c ops) = dot_before F c l (length l)).
  { clear - Hc HP Hl. intros ops p E. destruct (fir_state F c ops Hc) as (_ & _ & H).
    unfold fir_value. rewrite H, E.
    - rewrite <- !inner_product_recent by lia. rewrite !firstn_all, rev_app_distr.
      rewrite firstn_app, rev_length. replace (length c - length l)%nat with 0%nat by lia.
      rewrite firstn_O, app_nil_r. reflexivity.
    - rewrite E. intros X. apply (f_equal (@length _)) in X. rewrite app_length in X. cbn in X. lia. }
  rewrite (G _ _ E1), (G _ _ E2). reflexivity.
Qed.

(** @ex C45_fir_memory_ex: two histories that end with 3, 4. *)
Lemma c45_memory_ex :
  since_clear [Push 9; Clear; Push 1; Push 3; Push 4] = [1] ++ [3; 4] /\
  since_clear [Push 5; Push 6; Push 3; Push 4] = [5; 6] ++ [3; 4] /\
  (length [1; 1] <= length [3; 4])%nat.
Proof. repeat split. cbn. lia. Qed.

(** @prop C45_fir_delay: the filter is shift invariant: preceding the input by
    any number of zeros does not change the response. *)
Lemma c45_delay : forall (eps : R) (c x : list R) (k : nat),
  c <> [] -> x <> [] ->
  fir_value (exact eps) (run_fir eps c (pushes (repeat 0 k ++ x))) =
  fir_value (exact eps) (run_fir eps c (pushes x)).
Proof.
  intros eps c x k Hc Hx. pose proof (len_pos x Hx) as Lx. rewrite !fir_pushes; auto.
  - apply (f_equal Fin). rewrite app_length, repeat_length.
    replace (k + length x - 1)%nat with (k + (length x - 1))%nat by lia.
    apply convolution_delay.
  - intros E. apply (f_equal (@length _)) in E. rewrite app_length in E. cbn in E. lia.
Qed.

(** @ex C45_fir_delay_ex: 3, 4 delayed by two zeros. *)
Lemma c45_delay_ex : repeat 0 2 ++ [3; 4] = [0; 0; 3; 4] /\ [1; 2] <> [] /\ [3; 4] <> [].
Proof. repeat split; congruence. Qed.

(** @prop C45_fir_impulse_response: after an impulse (a 1 followed by k zeros)
    value() is the coefficient of index k, and 0 once k reaches the number of
    coefficients. *)
Lemma c45_impulse : forall (eps : R) (c : list R) (k : nat),
  c <> [] ->
  fir_value (exact eps) (run_fir eps c (pushes (1 :: repeat 0 k))) = Fin (nth k c 0).
Proof.
  intros eps c k Hc. rewrite fir_pushes by (auto; congruence). apply (f_equal Fin).
  cbn [length]. rewrite repeat_length, Nat.sub_succ, Nat.sub_0_r. apply convolution_impulse.
Qed.

(** @ex C45_fir_impulse_response_ex: the third response of 2, 3, 5 is 5, the
    fourth is 0. *)
Lemma c45_impulse_ex : [2; 3; 5] <> [] /\ nth 2 [2; 3; 5] 0 = 5 /\ nth 3 [2; 3; 5] 0 = 0.
Proof. repeat split; congruence. Qed.

(** @prop C45_fir_bounded: if every value since the last clear is at most M in
    magnitude then so is value() up to the sum of the magnitudes of the
    coefficients. *)
Lemma c45_bound : forall (eps : R) (c : list R) (ops : list (op R)) (M : R),
  c <> [] -> since_clear ops <> [] ->
  (forall x, In x (since_clear ops) -> Rabs x <= M) ->
  exists v, fir_value (exact eps) (run_fir eps c ops) = Fin v /\ Rabs v <= abs_sum c * M.
Proof.
  intros eps c ops M Hc Hh H. eexists. rewrite fir_value_exact by assumption.
  split; [reflexivity|]. apply convolution_bound; [|exact H].
  destruct (since_clear ops) as [|x l]; [congruence|].
  eapply Rle_trans; [apply Rabs_pos|]. apply (H x). left. reflexivity.
Qed.

(** @ex C45_fir_bounded_ex: coefficients 2, -3 and values in [-1, 1]: the bound
    5 is attained by -1, 1. *)
Lemma c45_bound_ex :
  abs_sum [2; -3] * 1 = 5 /\ convolution [2; -3] [-1; 1] 1 = 5 /\
  (forall x, In x [-1; 1] -> Rabs x <= 1).
Proof.
  split; [unfold abs_sum; cbn; rewrite (Rabs_pos_eq 2), (Rabs_left (-3)) by lra; ring|].
  split; [unfold convolution, sumto, back; cbn; ring|].
  intros x [<-|[<-|[]]]; [rewrite Rabs_left by lra; lra|rewrite Rabs_pos_eq by lra; lra].
Qed.

(** ** C46 *)

(** @prop C46_fir_clear_refuted: clear() does not reset value(): there are
    coefficients and a push after which clear() leaves value() unlike that of
    any new filter. *)
Lemma c46_refuted :
  exists (c : list b64num) (x : b64num),
    c <> [] /\
    fir_value b64num (fir_run b64num c [Push x; Clear]) <>
    fir_value b64num (fir_new b64num c) /\
    fir_value b64num (fir_run b64num c [Push x; Clear]) =
    fir_value b64num (fir_run b64num c [Push x]) /\
    fir_empty b64num (fir_run b64num c [Push x; Clear]) = true.
Proof.
  exists [b64_of_Z 1%Z], (b64_of_Z 1%Z). split; [congruence|].
  split; [vm_compute; congruence|]. split; vm_compute; reflexivity.
Qed.

(** @prop C46_fir_clear_partial: what does hold of clear(), in every
    arithmetic.  size(), empty(), full() and capacity() after clear() and any
    further calls equal those of a new filter given the same further calls, and
    so does value() once one value has been pushed after the last clear().
    Missing: value() between clear() and the next push. *)
Lemma c46_partial : forall (F : num) (c : list F) (ops ops' : list (op F)),
  c <> [] ->
  let s := fir_run F c (ops ++ Clear :: ops') in
  let s' := fir_run F c ops' in
  fir_size F s = fir_size F s' /\
  fir_empty F s = fir_empty F s' /\
  fir_full F s = fir_full F s' /\
  fir_capacity F s = fir_capacity F s' /\
  (since_clear ops' <> [] -> fir_value F s = fir_value F s').
Proof.
  intros F c ops ops' Hc s s'.
  destruct (fir_state F c (ops ++ Clear :: ops') Hc) as (A1 & A2 & A3).
  destruct (fir_state F c ops' Hc) as (B1 & B2 & B3).
  rewrite since_clear_app_clear in *. fold s in A1, A2, A3. fold s' in B1, B2, B3.
  unfold fir_size, fir_empty, fir_full, fir_capacity, fir_value.
  rewrite A1, A2, B1, B2. repeat (split; [reflexivity|]).
  intros H. rewrite A3, B3 by exact H. reflexivity.
Qed.

(** @ex C46_fir_clear_partial_ex: values before the clear do not leak into a
    filter with two coefficients. *)
Lemma c46_partial_ex :
  let z := fun k => b64_of_Z k : b64num in
  since_clear [Push (z 3%Z)] <> [] /\
  fir_value b64num (fir_run b64num [z 1%Z; z 1%Z] [Push (z 5%Z); Clear; Push (z 3%Z)]) = z 3%Z.
Proof. cbv zeta. split; [cbn; congruence|vm_compute; reflexivity]. Qed.

(** ** C47 *)

(** @prop C47_iir_difference_equation: for all coefficient arrays, every scale
    other than 0 and every history, the difference equation with zero initial
    conditions has exactly one solution over the values since the last clear,
    and value() of the infinite filter is its last term (0 when there is
    none). *)
Lemma c47 : forall (eps : R) (b a : list R) (scale : R) (ops : list (op R)),
  b <> [] -> a <> [] -> scale <> 0 ->
  exists y,
    difference_equation b a scale (since_clear ops) y /\
    (forall y', difference_equation b a scale (since_clear ops) y' -> y' = y) /\
    iir_value (exact eps) (run_iir eps b a scale ops) = Fin (last y 0).
Proof.
  intros eps b a scale ops Hb Ha Hs.
  destruct (iir_value_exact eps b a scale ops Hb Ha Hs) as (y & D & V).
  exists y. split; [exact D|]. split; [|exact V].
  intros y' D'. exact (difference_equation_unique b a scale _ y' y Hs D' D).
Qed.

(** @ex C47_iir_difference_equation_ex: y_n = (x_n + y_(n-1)) / 2 on 4, 8 gives
    2, 5. *)
Lemma c47_ex :
  [1] <> [] /\ [-1] <> [] /\ 2 <> 0 /\ difference_equation [1] [-1] 2 [4; 8] [2; 5].
Proof.
  split; [congruence|]. split; [congruence|]. split; [lra|]. split; [reflexivity|].
  intros [|[|n]] Hn; cbn in Hn; [| |lia]; unfold sumto, back; cbn; ring.
Qed.

(** @prop C47_iir_order: in every arithmetic (hence bit for bit in binary64)
    the outputs follow the recursion y_n = (sum_i b_i x_(n-i) - sum_j a_j
    y_(n-1-j)) / scale with both sums added from the newest term to the
    oldest. *)
Lemma c47_any : forall (F : num) (b a : list F) (scale : F) (ops : list (op F)),
  b <> [] -> a <> [] ->
  exists y,
    length y = length (since_clear ops) /\
    iir_value F (iir_run F b a scale ops) = last y n0 /\
    forall n, (n < length y)%nat ->
      nth n y n0 =
      ndiv (nsub (dot_before F b (since_clear ops) (S n)) (dot_before F a y n)) scale.
Proof. exact iir_value_last. Qed.

(** @ex C47_iir_order_ex: y_n = x_n - y_(n-1)/2 in binary64 on 8, 8, 8 gives
    8, 4, 6. *)
Lemma c47_any_ex :
  let z := fun k => b64_of_Z k : b64num in
  let half := ndiv (z 1%Z) (z 2%Z) in
  let f := fun l => iir_value b64num (iir_run b64num [z 1%Z] [half] (z 1%Z) (pushes l)) in
  [z 1%Z] <> [] /\ [half] <> [] /\
  f [z 8%Z; z 8%Z] = z 4%Z /\ f [z 8%Z; z 8%Z; z 8%Z] = z 6%Z.
Proof.
  cbv zeta. split; [congruence|]. split; [congruence|]. split; vm_compute; reflexivity.
Qed.

(** @prop C47_iir_clear: in every arithmetic, clear() after any history leaves
    exactly the state of a new filter with the same coefficients and scale, so
    value() is 0, empty() holds and all later behaviour is that of a new
    filter; otherwise empty() holds just when nothing has been pushed since. *)
Lemma c47_clear : forall (F : num) (b a : list F) (scale : F) (ops ops' : list (op F)),
  b <> [] -> a <> [] ->
  iir_run F b a scale (ops ++ [Clear]) = iir_new F b a scale /\
  iir_value F (iir_new F b a scale) = n0 /\
  iir_value F (iir_run F b a scale (ops ++ Clear :: ops')) =
  iir_value F (iir_run F b a scale ops') /\
  (iir_empty F (iir_run F b a scale ops) = true <-> since_clear ops = []).
Proof.
  intros F b a scale ops ops' Hb Ha. split; [apply iir_cleared|]. split; [reflexivity|].
  split.
  - change (Clear :: ops') with ([Clear] ++ ops'). rewrite app_assoc.
    unfold iir_run at 1. rewrite run_app.
    fold (iir_run F b a scale (ops ++ [Clear])). rewrite iir_cleared. reflexivity.
  - destruct (iir_state F b a scale ops Hb Ha) as (_ & _ & _ & E & _).
    unfold iir_empty. rewrite E. pose proof (len_pos b Hb) as HP.
    pose proof (firstn_length (length b) (rev (since_clear ops))) as L. rewrite rev_length in L.
    split; intros H.
    + destruct (firstn _ _); [|discriminate]. cbn in L.
      destruct (since_clear ops); [reflexivity|]. cbn in L. lia.
    + rewrite H. cbn. rewrite firstn_nil. reflexivity.
Qed.

(** @ex C47_iir_clear_ex: an output before the clear would otherwise be fed
    back. *)
Lemma c47_clear_ex :
  let z := fun k => b64_of_Z k : b64num in
  let f := fun ops => iir_value b64num (iir_run b64num [z 1%Z] [z 1%Z] (z 1%Z) ops) in
  f [Push (z 5%Z); Push (z 3%Z)] = z (-2)%Z /\
  f [Push (z 5%Z); Clear; Push (z 3%Z)] = z 3%Z /\
  f [Push (z 5%Z); Clear] = z 0%Z.
Proof. cbv zeta. repeat split; vm_compute; reflexivity. Qed.

Lemma iir_pushes eps b a scale l : b <> [] -> a <> [] -> scale <> 0 ->
  exists y, difference_equation b a scale l y /\
    iir_value (exact eps) (run_iir eps b a scale (pushes l)) = Fin (last y 0).
Proof.
  intros Hb Ha Hs. destruct (iir_value_exact eps b a scale (pushes l) Hb Ha Hs) as (y & D & V).
  rewrite since_clear_pushes in D. exists y. auto.
Qed.

Lemma last_nth {A} (l : list A) d : last l d = nth (length l - 1) l d.
Proof.
  induction l as [|x l _] using rev_ind; [reflexivity|].
  rewrite last_last, app_length. cbn [length]. rewrite app_nth2 by lia.
  replace (length l + 1 - 1 - length l)%nat with 0%nat by lia. reflexivity.
Qed.

(** @prop C47_iir_linear: the response to a linear combination of two input
    sequences of equal length is the linear combination of the responses, and
    preceding the input by any number of zeros does not change the response. *)
Lemma c47_linear : forall (eps : R) (b a : list R) (scale u v : R) (x y : list R) (k : nat),
  b <> [] -> a <> [] -> scale <> 0 -> length x = length y ->
  exists p q : R,
    iir_value (exact eps) (run_iir eps b a scale (pushes x)) = Fin p /\
    iir_value (exact eps) (run_iir eps b a scale (pushes y)) = Fin q /\
    iir_value (exact eps) (run_iir eps b a scale (pushes (combination u v x y))) =
    Fin (u * p + v * q) /\
    iir_value (exact eps) (run_iir eps b a scale (pushes (repeat 0 k ++ x))) = Fin p.
Proof.
  intros eps b a scale u v x y k Hb Ha Hs L.
  destruct (iir_pushes eps b a scale x Hb Ha Hs) as (s & Ds & Vs).
  destruct (iir_pushes eps b a scale y Hb Ha Hs) as (t & Dt & Vt).
  destruct (iir_pushes eps b a scale (combination u v x y) Hb Ha Hs) as (w & Dw & Vw).
  destruct (iir_pushes eps b a scale (repeat 0 k ++ x) Hb Ha Hs) as (d & Dd & Vd).
  exists (last s 0), (last t 0). split; [exact Vs|]. split; [exact Vt|].
  pose proof (difference_equation_linear b a scale u v x y s t L Ds Dt) as Dc.
  rewrite (difference_equation_unique _ _ _ _ _ _ Hs Dw Dc) in Vw.
  pose proof (difference_equation_delay b a scale k x s Ds) as De.
  rewrite (difference_equation_unique _ _ _ _ _ _ Hs Dd De) in Vd.
  assert (Lst : length s = length t).
  { destruct Ds as [Ls _], Dt as [Lt _]. congruence. }
  rewrite Vw, Vd. split; apply (f_equal Fin).
  - rewrite !last_nth, length_combination, nth_combination, <- Lst by exact Lst. reflexivity.
  - destruct s as [|s0 s _] using rev_ind.
    + rewrite app_nil_r. cbn. clear. induction k as [|k IH]; [reflexivity|].
      cbn. destruct (repeat 0 k); [reflexivity|exact IH].
    + rewrite app_assoc, !last_last. reflexivity.
Qed.

(** @ex C47_iir_linear_ex: a filter with scale 2. *)
Lemma c47_linear_ex : [1] <> [] /\ [-1] <> [] /\ 2 <> 0 /\ length [4; 8] = length [0; 1].
Proof. repeat split; try congruence; lra. Qed.
