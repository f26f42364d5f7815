(** * Claim C41: comparing saved parameters of the P-square estimator *)

From Coq Require Import Reals ZArith NArith QArith_base List Bool.
From Coq Require Import Floats.SpecFloat.
From Flocq Require Import Core.
From Verif Require Import Arith History Psquare PsquareParameters Binary64.
Import ListNotations.
Local Open Scope R_scope.
(* @end-header *)
From Coq Require Import Lia Lra.
From Verif Require Import HistoryLemmas ExactRuns PsquareGeneric Binary64Cumulative CorrectRounding SpecParameters ClaimsPsquare ClaimsPsquareFloat.

Lemma neq_nan_l x : SFeqb S754_nan x = false.
Proof. reflexivity. Qed.
Lemma neq_nan_r x : SFeqb x S754_nan = false.
Proof. destruct x; reflexivity. Qed.

Lemma kinds (x : b64) : valid_binary 53 1024 x = true ->
  x = S754_nan \/ (exists s, x = S754_infinity s) \/ b64_finite x.
Proof.
  intros V. destruct x as [s|s| |s m e]; [right; right|right; left; eexists; reflexivity|left; reflexivity|right; right].
  - split; [exact V|reflexivity].
  - split; [exact V|reflexivity].
Qed.

Lemma eq_inf s (x : b64) : valid_binary 53 1024 x = true ->
  SFeqb (S754_infinity s) x = true <-> x = S754_infinity s.
Proof.
  intros _. destruct s, x as [t|t| |t m e]; try destruct t; cbn; split; intros H; try discriminate H; reflexivity.
Qed.

Lemma eqb_sym (x y : b64) : valid_binary 53 1024 x = true -> valid_binary 53 1024 y = true ->
  SFeqb x y = true ->
  (b64_finite x /\ b64_finite y /\ b64_real x = b64_real y) \/ exists s, x = S754_infinity s /\ y = S754_infinity s.
Proof.
  intros Vx Vy H. destruct (kinds x Vx) as [->|[[s ->]|Fx]]; [discriminate H| |].
  - right. exists s. split; [reflexivity|]. apply eq_inf; assumption.
  - destruct (kinds y Vy) as [->|[[s ->]|Fy]].
    + rewrite neq_nan_r in H. discriminate H.
    + exfalso. destruct Fx as [_ Fx]. destruct x as [t|t| |t m e]; try discriminate Fx; destruct s; try destruct t; discriminate H.
    + left. split; [exact Fx|]. split; [exact Fy|]. rewrite (eqb_real x y Fx Fy) in H.
      destruct (Req_bool_spec (b64_real x) (b64_real y)); [assumption|discriminate H].
Qed.

Lemma eqb_back (x y : b64) :
  (b64_finite x /\ b64_finite y /\ b64_real x = b64_real y) \/ (exists s, x = S754_infinity s /\ y = S754_infinity s) ->
  SFeqb x y = true.
Proof.
  intros [(Fx & Fy & E)|(s & -> & ->)].
  - rewrite (eqb_real x y Fx Fy). apply Req_bool_true. exact E.
  - destruct s; reflexivity.
Qed.

(** @prop C41_equality: in double, two saved parameter lists compare equal exactly
    if they have the same number of elements and element by element the same
    position and the same height: the same real number (+0 and -0 alike) or
    the same infinity; NaN is never equal. *)
Lemma c41_equality : forall a b : list (N * b64num),
  Forall (fun p => valid_binary 53 1024 (snd p) = true) a ->
  Forall (fun p => valid_binary 53 1024 (snd p) = true) b ->
  parameters_eq b64num a b = true <->
  Forall2 (fun p q => fst p = fst q /\
    ((b64_finite (snd p) /\ b64_finite (snd q) /\ b64_real (snd p) = b64_real (snd q)) \/
     exists s, snd p = S754_infinity s /\ snd q = S754_infinity s)) a b.
Proof.
  intros a b Va. revert b. induction Va as [|[n x] a Vx Va IH]; intros [|[m y] b] Vb.
  - split; [constructor|reflexivity].
  - split; [discriminate|intros H; inversion H].
  - split; [discriminate|intros H; inversion H].
  - inversion Vb as [|? ? Vy Vb']; subst. cbn [snd] in Vx, Vy. cbn [parameters_eq parameter_eq].
    unfold parameter_eq; cbn [fst snd].
    rewrite !andb_true_iff, N.eqb_eq, (IH b Vb'). split.
    + intros [[E1 E2] E3]. constructor; [|exact E3]. cbn [fst snd]. split; [exact E1|].
      apply eqb_sym; assumption.
    + intros H. inversion H as [|? ? ? ? [E1 E2] E3]; subst. cbn [fst snd] in *.
      split; [split; [exact E1|]|exact E3]. apply eqb_back. exact E2.
Qed.

(** @ex C41_equality_ex: two lists that differ in the sign of a zero, and two
    that differ in a position. *)
Lemma c41_equality_ex :
  let a : list (N * b64num) := [(1%N, S754_zero true); (2%N, S754_infinity true)] in
  let b : list (N * b64num) := [(1%N, S754_zero false); (2%N, S754_infinity true)] in
  let c : list (N * b64num) := [(1%N, S754_zero false); (3%N, S754_infinity true)] in
  Forall (fun p => valid_binary 53 1024 (snd p) = true) (a ++ b ++ c) /\
  parameters_eq b64num a b = true /\ parameters_eq b64num b c = false /\ parameters_eq b64num a [] = false.
Proof. cbn -[valid_binary]. split; [repeat constructor|]. split; [|split]; reflexivity. Qed.

Lemma parameters_eq_refl (a : list (N * b64num)) : Forall b64_finite (map snd a) -> parameters_eq b64num a a = true.
Proof.
  induction a as [|[n x] a IH]; intros H; [reflexivity|]. inversion H as [|? ? Hx Ha]; subst.
  cbn [parameters_eq]. unfold parameter_eq; cbn [fst snd]. rewrite N.eqb_refl, (IH Ha).
  change (neq x x) with (SFeqb x x). rewrite (eqb_back x x); [reflexivity|]. left. repeat split; try apply Hx.
Qed.

Lemma counts_b64 n : (n <= 2 ^ 53)%N -> counts_convert b64num n.
Proof.
  intros Hn p Hp.
  destruct (of_Z_exact (Z.of_N p)) as [Fx Rx]; [rewrite Z.abs_eq by lia; lia|].
  change (b64_tosz (b64_of_Z (Z.of_N p)) = Some p).
  rewrite (denotes_tosz _ (IZR (Z.of_N p))); [|split; assumption|].
  - rewrite Zfloor_IZR, N2Z.id. reflexivity.
  - split; [apply IZR_le; lia|]. change (bpow radix2 63) with (IZR (2 ^ 63)). apply IZR_lt.
    apply Z.le_lt_trans with (2 ^ 53)%Z; [lia|reflexivity].
Qed.

(** @prop C41_restore_double: in double, for every list of Q quantiles, every
    history (NaN and infinities included) with at most 2^53 values since the last
    clear and every target estimator, restoring parameters() is defined and
    reproduces them. *)
Lemma c41_double : forall (qs : list b64num) (ops : list (op b64num)) (t : psq b64num),
  (N.of_nat (length (since_clear ops)) <= 2 ^ 53)%N -> (N.of_nat (2 * length qs + 3) <= 2 ^ 53)%N ->
  let s := run (psq_push b64num qs) (psq_clear b64num qs) (psq_init b64num qs) ops in
  exists r, psq_restore b64num qs t (psq_parameters b64num s) = Some r /\
    psq_parameters b64num r = psq_parameters b64num s /\
    psq_size b64num r = N.of_nat (2 * length qs + 3).
Proof.
  intros qs ops t Hl Hq s.
  assert (S53 : (2 ^ 53 < szmod)%N) by reflexivity.
  destruct (c41_partial b64num qs ops t) as (r & R & P & N & _).
  - unfold ExactRuns.fits. lia.
  - lia.
  - apply counts_b64. lia.
  - exists r. auto.
Qed.

(** @ex C41_restore_double_ex: a NaN among the values; the parameters are not
    trivial. *)
Lemma c41_double_ex :
  let q := ratio_value b64num (1 # 2) in
  let ops := map Push [b64_of_Z 3; b64_of_Z 1; S754_nan; b64_of_Z 5; b64_of_Z 4; b64_of_Z 2; b64_of_Z 2] in
  let s := run (psq_push b64num [q]) (psq_clear b64num [q]) (psq_init b64num [q]) ops in
  (N.of_nat (length (since_clear ops)) <= 2 ^ 53)%N /\
  map fst (psq_parameters b64num s) <> [1; 2; 3; 4; 5]%N.
Proof. split; [vm_compute; discriminate|]. vm_compute. discriminate. Qed.

(** @prop C41_equality_restored: in double, after 2Q+3 to 2^27 finite values of
    magnitude at most 2^980 since the last clear, for every list of Q quantiles,
    parameters() compares equal to itself and to the parameters() of any
    estimator restored from it. *)
Lemma c41_equality_restored : forall (qs : list b64num) (ops : list (op b64num)) (t : psq b64num),
  let l := since_clear ops in
  Forall (fun x : b64num => b64_finite x /\ Rabs (b64_real x) <= bpow radix2 980) l ->
  (2 * length qs + 3 <= length l)%nat -> (N.of_nat (length l) <= 2 ^ 27)%N ->
  let s := run (psq_push b64num qs) (psq_clear b64num qs) (psq_init b64num qs) ops in
  let saved := psq_parameters b64num s in
  parameters_eq b64num saved saved = true /\
  exists r, psq_restore b64num qs t saved = Some r /\
    parameters_eq b64num (psq_parameters b64num r) saved = true.
Proof.
  intros qs ops t l Fl L0 L1 s saved.
  destruct (c74_order_binary64 qs ops Fl L0 L1) as (_ & Fh & _).
  assert (E : parameters_eq b64num saved saved = true) by (apply parameters_eq_refl; exact Fh).
  split; [exact E|].
  assert (Hs : ExactRuns.fits (since_clear ops)).
  { unfold ExactRuns.fits. eapply N.le_lt_trans; [exact L1|]. reflexivity. }
  fold l in Hs.
  destruct (c41_partial b64num qs ops t Hs) as (r & R & P & _).
  { eapply N.le_lt_trans with (2 ^ 27)%N; [lia|]. reflexivity. }
  { apply counts_b64. apply N.le_trans with (2 ^ 27)%N; [fold l; lia|]. discriminate. }
  exists r. split; [exact R|]. unfold saved, s. rewrite P. exact E.
Qed.

(** @ex C41_equality_restored_ex: six values after a clear, median. *)
Lemma c41_equality_restored_ex :
  let ops := [Push S754_nan; Clear] ++ map (fun z => Push (b64_of_Z z)) [3; 1; 2; 5; 4; 9]%Z in
  let l : list b64num := since_clear ops in
  Forall (fun x : b64num => b64_finite x /\ Rabs (b64_real x) <= bpow radix2 980) l /\
  (2 * length [ratio_value b64num (1 # 2)] + 3 <= length l)%nat /\ (N.of_nat (length l) <= 2 ^ 27)%N.
Proof.
  intros ops l. split; [|split; [cbn; lia|vm_compute; discriminate]].
  change l with (map d64 [3; 1; 2; 5; 4; 9]%Z). apply Forall_map.
  apply Forall_forall. intros z Hz. apply d64_ok; [|lia].
  cbn in Hz. repeat (destruct Hz as [<-|Hz]; [lia|]). destruct Hz.
Qed.

(** @prop C41_equality_refuted: after a NaN parameters() does not compare equal
    even to itself, nor do those of an estimator restored from them, although
    position and height agree element by element (C41_restore_partial). *)
Lemma c41_equality_refuted : exists (qs : list b64num) (l : list b64num),
  let s := run (psq_push b64num qs) (psq_clear b64num qs) (psq_init b64num qs) (pushes l) in
  let saved := psq_parameters b64num s in
  length l = (2 * length qs + 3)%nat /\
  parameters_eq b64num saved saved = false /\
  exists r, psq_restore b64num qs (psq_init b64num qs) saved = Some r /\
    parameters_eq b64num (psq_parameters b64num r) saved = false.
Proof.
  exists [ratio_value b64num (1 # 2)], [b64_of_Z 1; b64_of_Z 2; S754_nan; b64_of_Z 3; b64_of_Z 4].
  split; [reflexivity|]. split; [vm_compute; reflexivity|].
  match goal with |- exists r, ?o = Some r /\ parameters_eq b64num _ ?d = false =>
    assert (M : match o with Some r => parameters_eq b64num (psq_parameters b64num r) d | None => true end = false)
      by (vm_compute; reflexivity);
    destruct o as [r|]; [exists r; auto|discriminate M] end.
Qed.
