(** * Claims C86, C87: the recursive filter over an integer value type *)

From Coq Require Import ZArith NArith List Bool.
From Verif Require Import History Arith CInt IntMoments SpecInt IntInfinite SpecIntInfinite.
Import ListNotations.
Local Open Scope Z_scope.
(* @end-header *)
From Coq Require Import Lia.
From Verif Require Import Buffer HistoryLemmas IntProofs IntProofs2 IntInfiniteProofs ClaimsInteger.

(** ** C86 *)

(** @prop C86_response: for every signed integer type, coefficients and scale,
    bounds M on the inputs and Y on the outputs, and every history: if the two
    weighted sums fit the type, their difference fits the promoted type, and the
    difference over the scale cannot exceed Y, then no push has undefined
    behaviour and the outputs since the last clear(), of which value() is the
    newest, are the truncated quotients the recurrence prescribes and never
    exceed Y. *)
Lemma c86_response : forall (T : ity) (b a : list Z) (k M Y : Z) (ops : list (op Z)),
  In T all_ity -> isigned T = true -> b <> [] -> a <> [] ->
  k <> 0 -> 0 <= Y <= imax T ->
  let B := M * zsum (map Z.abs b) in
  let A := Y * zsum (map Z.abs a) in
  B <= imax T -> A <= imax T -> B + A <= imax (promote T) -> B + A < Z.abs k * (Y + 1) ->
  (forall pre post, ops = pre ++ post -> Forall (fun x => Z.abs x <= M) (since_clear pre)) ->
  exists s ys, run_opt (iiir_push T) iiir_clear (iiir_new b a k) ops = Some s /\
    int_response b a k (rev (since_clear ops)) ys /\
    Forall (fun y => Z.abs y <= Y) ys /\ iiir_value s = hd 0 ys.
Proof.
  intros T b a k M Y ops HT HS Hb Ha Hk HY B A H1 H2 H3 H4 HL.
  apply (iir_value_run T b a k M Y HT HS Hb Ha); [|exact HL].
  unfold iir_fits. repeat split; try assumption; lia.
Qed.

(** @ex C86_response_ex: an 8-bit filter with coefficients 3, -2 and -1, 1 and
    scale 4: inputs up to 20 give outputs up to 50; inputs 7, -5 after a clear()
    give 5 and -6. *)
Lemma c86_response_ex :
  let ops := [Push 20; Clear; Push 7; Push (-5)] in
  In int8 all_ity /\ isigned int8 = true /\ [3; -2] <> [] /\ [-1; 1] <> [] /\ 4 <> 0 /\ 0 <= 50 <= imax int8 /\
  20 * zsum (map Z.abs [3; -2]) <= imax int8 /\ 50 * zsum (map Z.abs [-1; 1]) <= imax int8 /\
  20 * zsum (map Z.abs [3; -2]) + 50 * zsum (map Z.abs [-1; 1]) <= imax (promote int8) /\
  20 * zsum (map Z.abs [3; -2]) + 50 * zsum (map Z.abs [-1; 1]) < Z.abs 4 * (50 + 1) /\
  (forall pre post, ops = pre ++ post -> Forall (fun x => Z.abs x <= 20) (since_clear pre)) /\
  option_map iiir_value (run_opt (iiir_push int8) iiir_clear (iiir_new [3; -2] [-1; 1] 4) ops) = Some (-6) /\
  int_response [3; -2] [-1; 1] 4 (rev (since_clear ops)) [-6; 5].
Proof.
  cbv zeta. split; [cbn; tauto|]. split; [reflexivity|]. split; [discriminate|]. split; [discriminate|].
  split; [discriminate|]. split; [cbn; lia|]. split; [cbn; lia|]. split; [cbn; lia|]. split; [cbn; lia|].
  split; [cbn; lia|]. split; [|split; [reflexivity|cbn; lia]].
  apply (prefix_cond (Forall (fun x => Z.abs x <= 20))).
  intros k Hk. cbn [length] in Hk.
  do 5 (destruct k as [|k]; [cbn; repeat constructor; lia|]). lia.
Qed.

(** @prop C86_unique: with a non-zero scale the recurrence determines the
    outputs: two sequences of outputs for the same inputs are equal, so that
    C86_response fixes value(). *)
Lemma c86_unique : forall (b a : list Z) (k : Z) (xs ys zs : list Z), k <> 0 ->
  int_response b a k xs ys -> int_response b a k xs zs -> ys = zs.
Proof. exact int_response_unique. Qed.

(** @ex C86_unique_ex: the outputs of C86_response_ex. *)
Lemma c86_unique_ex : 4 <> 0 /\ int_response [3; -2] [-1; 1] 4 [-5; 7] [-6; 5].
Proof. split; [discriminate|cbn; lia]. Qed.

(** @prop C86_clear: for every integer type, filter and history without undefined
    behaviour: empty() tells whether no value has been pushed since the last
    clear(), and clear() takes the filter back to its initial state. *)
Lemma c86_clear : forall (T : ity) (b a : list Z) (k : Z) (ops : list (op Z)) (s : iiir),
  run_opt (iiir_push T) iiir_clear (iiir_new b a k) ops = Some s ->
  (iiir_empty s = true <-> since_clear ops = []) /\
  iiir_clear s = iiir_new b a k /\ iiir_value (iiir_clear s) = 0 /\ iiir_empty (iiir_clear s) = true.
Proof.
  intros T b a k ops s E. rewrite (iir_cleared T b a k ops s E). split; [|repeat split; reflexivity].
  unfold iiir_empty. destruct ops as [|o ops _] using rev_ind; [injection E as <-; cbn; tauto|].
  rewrite run_opt_snoc in E. destruct (run_opt _ _ _ ops) as [s1|]; [|discriminate]. cbn [bind] in E.
  destruct o as [x|].
  - rewrite since_clear_snoc_push. unfold iiir_push in E.
    destruct (ifir_product T (rb_push_front _ _ x) _) as [p|]; [|discriminate]. cbn [bind] in E.
    destruct (ifir_product T (iiir_output s1) _) as [q|]; [|discriminate]. cbn [bind] in E.
    destruct (isub _ p q) as [d|]; [|discriminate]. cbn [bind] in E.
    destruct (idiv _ d _) as [r|]; [|discriminate]. cbn [bind] in E. injection E as <-. cbn [iiir_input].
    unfold rb_push_front. destruct (rb_full _ _); cbn; split; intros H; try discriminate;
      destruct (since_clear ops); discriminate.
  - injection E as <-. rewrite since_clear_snoc_clear. cbn. tauto.
Qed.

(** @ex C86_clear_ex: after the inputs 7, -5 value() is -6. *)
Lemma c86_clear_ex : exists s,
  run_opt (iiir_push int8) iiir_clear (iiir_new [3; -2] [-1; 1] 4) [Push 7; Push (-5)] = Some s /\
  iiir_value s = -6 /\ iiir_empty s = false.
Proof. eexists. split; [reflexivity|]. split; reflexivity. Qed.

(** @prop C86_zero_scale: a filter constructed with scale zero: every history
    with a push has undefined behaviour. *)
Lemma c86_zero : forall (T : ity) (b a : list Z) (ops : list (op Z)) (x : Z), In (Push x) ops ->
  run_opt (iiir_push T) iiir_clear (iiir_new b a 0) ops = None.
Proof. exact iir_zero_run. Qed.

(** @ex C86_zero_scale_ex: the same history is defined with scale one. *)
Lemma c86_zero_ex :
  In (Push 3) [Clear; Push 3] /\
  option_map iiir_value (run_opt (iiir_push int32) iiir_clear (iiir_new [2] [1] 1) [Clear; Push 3]) = Some 6.
Proof. split; [cbn; tauto|reflexivity]. Qed.

(** @prop C86_int_refuted: without the bound on the difference a push can be
    undefined although both weighted sums fit the type: int with coefficients 1
    and 1, inputs 2147483647 and -2147483648. *)
Lemma c86_int : exists x y : Z,
  imin int32 <= x <= imax int32 /\ imin int32 <= y <= imax int32 /\
  run_opt (iiir_push int32) iiir_clear (iiir_new [1] [1] 1) [Push x] <> None /\
  run_opt (iiir_push int32) iiir_clear (iiir_new [1] [1] 1) [Push x; Push y] = None.
Proof.
  exists 2147483647, (-2147483648). split; [cbn; lia|]. split; [cbn; lia|]. split; [discriminate|reflexivity].
Qed.

(** @prop C86_unsigned_refuted: for an unsigned type the difference is reduced
    before the division, so that the output is not even congruent to the quotient:
    unsigned, coefficients 1 and 2, scale 2, inputs 2 and 0 give 2147483647 where
    the recurrence gives -1. *)
Lemma c86_unsigned : exists (xs : list Z) (s : iiir),
  run_opt (iiir_push uint32) iiir_clear (iiir_new [1] [2] 2) (pushes xs) = Some s /\
  int_response [1] [2] 2 (rev xs) [-1; 1] /\ iiir_value s = 2147483647.
Proof.
  exists [2; 0]. eexists. split; [reflexivity|]. split; [cbn; lia|reflexivity].
Qed.

(** ** C87 *)

(** @prop C87_settle_partial: the unit-gain smoother (input coefficient 1, output
    coefficient 1 - k, scale k) over a signed type, fed a constant x: value() never
    exceeds x, never decreases, and from push x on is k - 1 below x (0 when x is
    smaller than k). *)
Lemma c87_settle : forall (T : ity) (k x : Z) (n : nat),
  In T all_ity -> isigned T = true -> 2 <= k -> 0 < x -> k * x <= imax T ->
  let s n := run_opt (iiir_push T) iiir_clear (iiir_new [1] [1 - k] k) (pushes (repeat x n)) in
  exists s0 s1, s n = Some s0 /\ s (S n) = Some s1 /\
    0 <= iiir_value s0 <= iiir_value s1 /\
    iiir_value s1 <= x - Z.min x (k - 1) /\
    (x <= Z.of_nat n -> iiir_value s0 = x - Z.min x (k - 1)).
Proof.
  intros T k x n HT HS Hk Hx HB s.
  destruct (smooth_run T k x n HT HS Hk Hx HB) as (s0 & E0 & V0).
  destruct (smooth_run T k x (S n) HT HS Hk Hx HB) as (s1 & E1 & V1).
  exists s0, s1. split; [exact E0|]. split; [exact E1|]. rewrite V0, V1.
  pose proof (smooth_below k x n Hk ltac:(lia)). pose proof (smooth_below k x (S n) Hk ltac:(lia)).
  split; [|split; [lia|apply smooth_settles; lia]].
  split; [lia|]. destruct (smooth_step k x n Hk ltac:(lia)) as [E|E]; [|lia].
  cbn [smooth]. pose proof (quot_abs (x - smooth k x n) k ltac:(lia)) as (Q1 & Q2 & Q3). nia.
Qed.

(** @ex C87_settle_partial_ex: int, scale 4, input 10: value() settles at 7 after
    2, 4, 5, 6, 7. *)
Lemma c87_settle_ex :
  In int32 all_ity /\ isigned int32 = true /\ 2 <= 4 /\ 0 < 10 /\ 4 * 10 <= imax int32 /\
  option_map iiir_value (run_opt (iiir_push int32) iiir_clear (iiir_new [1] [1 - 4] 4) (pushes (repeat 10 2))) = Some 4 /\
  option_map iiir_value (run_opt (iiir_push int32) iiir_clear (iiir_new [1] [1 - 4] 4) (pushes (repeat 10 9))) = Some 7.
Proof.
  split; [cbn; tauto|]. split; [reflexivity|]. split; [lia|]. split; [lia|]. split; [cbn; lia|].
  split; reflexivity.
Qed.

(** @prop C87_settle_refuted: a constant input is not reproduced however long it
    lasts: for int, scale 4 and input 3 the output stays 0 for ever. *)
Lemma c87_refuted : exists k x : Z, 2 <= k /\ 0 < x /\ k * x <= imax int32 /\
  forall n, exists s,
    run_opt (iiir_push int32) iiir_clear (iiir_new [1] [1 - k] k) (pushes (repeat x n)) = Some s /\
    iiir_value s = 0.
Proof.
  exists 4, 3. split; [lia|]. split; [lia|]. split; [cbn; lia|]. intros n.
  destruct (smooth_run int32 4 3 n ltac:(cbn; tauto) eq_refl ltac:(lia) ltac:(lia) ltac:(cbn; lia)) as (s & E & V).
  exists s. split; [exact E|]. rewrite V. pose proof (smooth_below 4 3 n ltac:(lia) ltac:(lia)). lia.
Qed.
