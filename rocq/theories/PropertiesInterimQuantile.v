(** * Property theorems: InterimQuantile

    Statements only; every proof is [exact] of a lemma in ClaimsInterimQuantile.v.
    Generated by tools/mkprops.py. *)

From Coq Require Import Reals ZArith NArith QArith_base List Bool.
From Coq Require Import Floats.SpecFloat.
From Flocq Require Import Core.
From Verif Require Import Arith History SpecBlocks Psquare InterimPsquare SpecCopies Rounded Binary64.
Import ListNotations.
Local Open Scope R_scope.
From Verif Require Import ClaimsInterimQuantile.

(** C98_range_binary64: for double, quantiles between 0 and 1 - 2^-50, half windows of
    1 to 2^27 values and every history whose last W values are finite with magnitude at
    most [M] (at most 2^980): every get<i> is defined and finite, and lies between the
    smallest and the largest of the last W values up to [7 u M + 11 eta]; while at most W/2
    values were pushed it lies in that range without tolerance. *)
Theorem C98_range_binary64 : forall (H : nat) (qs : list b64num) (o : nat) (ops : list (op b64num)) (i : nat) (M lo hi : R),
  (0 < H)%nat -> (N.of_nat H <= 2 ^ 27)%N ->
  Forall (fun q : b64num => b64_finite q /\ 0 <= b64_real q <= 1 - bpow radix2 (-50)) qs ->
  (i <= length qs + 1)%nat -> M <= bpow radix2 980 ->
  let W := N.of_nat (2 * H) in
  let l := since_clear ops in
  l <> [] ->
  (forall x : b64num, In x (lastn (2 * H) l) -> b64_finite x /\ Rabs (b64_real x) <= M /\ lo <= b64_real x <= hi) ->
  exists h v, exec b64num W qs
      (New o :: map (fun p => match p with Push x => PushTo o x | Clear => ClearOf o end) ops) = Some h /\
    ipq_get b64num W qs h o i = Some v /\ b64_finite v /\
    let slop := 7 * (bpow radix2 (-53) * M) + 11 * bpow radix2 (-1075) in
    lo - slop <= b64_real v <= hi + slop /\
    ((length l <= H)%nat -> lo <= b64_real v <= hi).
Proof. exact c98_range. Qed.
Print Assumptions C98_range_binary64.

(** C98_range_binary64_ex: the median with window 4 after five values, of which the
    last four are between 1 and 4. *)
Example C98_range_binary64_ex :
  let half := S754_finite false 4503599627370496 (-53) in
  let ops : list (op b64num) := [Push (b64_of_Z 9); Push (b64_of_Z 3); Push (b64_of_Z 1); Push (b64_of_Z 4); Push (b64_of_Z 2)]%Z in
  Forall (fun q : b64num => b64_finite q /\ 0 <= b64_real q <= 1 - bpow radix2 (-50)) [half] /\
  (2 < length (since_clear ops))%nat /\ 4 <= bpow radix2 980 /\
  forall x : b64num, In x (lastn (2 * 2) (since_clear ops)) -> b64_finite x /\ Rabs (b64_real x) <= 4 /\ 1 <= b64_real x <= 4.
Proof. exact c98_range_ex. Qed.

(** C98_tolerance_needed: the tolerance is needed: with window 4, the value 0.1 pushed
    three times gives a median above 0.1. *)
Theorem C98_tolerance_needed :
  exists (half tenth : b64num) (ops : list (op b64num)) (h : memory b64num) (v : b64num),
    b64_finite tenth /\ b64_real half = 1 / 2 /\
    since_clear ops = [tenth; tenth; tenth] /\
    exec b64num 4 [half] (New 0%nat :: map (fun p => match p with Push x => PushTo 0%nat x | Clear => ClearOf 0%nat end) ops) = Some h /\
    ipq_get b64num 4 [half] h 0%nat 1 = Some v /\ b64_real tenth < b64_real v.
Proof. exact c98_tolerance_needed. Qed.
Print Assumptions C98_tolerance_needed.

(** C98_order_binary64: in the same situation, once the current half window holds
    more than 2Q+3 values, get<i> does not decrease with i, whatever the quantiles are. *)
Theorem C98_order_binary64 : forall (H : nat) (qs : list b64num) (o : nat) (ops : list (op b64num)) (i j : nat),
  (0 < H)%nat -> (N.of_nat H <= 2 ^ 27)%N -> (i <= j <= length qs + 1)%nat ->
  let W := N.of_nat (2 * H) in
  let l := since_clear ops in
  (H < length l)%nat -> (2 * length qs + 3 < length (cur_block H l))%nat ->
  (forall x : b64num, In x (lastn (2 * H) l) -> b64_finite x /\ Rabs (b64_real x) <= bpow radix2 980) ->
  exists h v w, exec b64num W qs
      (New o :: map (fun p => match p with Push x => PushTo o x | Clear => ClearOf o end) ops) = Some h /\
    ipq_get b64num W qs h o i = Some v /\ ipq_get b64num W qs h o j = Some w /\
    b64_finite v /\ b64_finite w /\ b64_real v <= b64_real w.
Proof. exact c98_order. Qed.
Print Assumptions C98_order_binary64.

(** C98_order_binary64_ex: one quantile, half windows of seven values, fourteen values pushed. *)
Example C98_order_binary64_ex :
  let l := map b64_of_Z [3; 1; 4; 1; 5; 9; 2; 6; 5; 3; 5; 8; 9; 7]%Z in
  let ops : list (op b64num) := pushes l in
  (7 < length (since_clear ops))%nat /\ (2 * 1 + 3 < length (cur_block 7 (since_clear ops)))%nat /\
  forall x : b64num, In x (lastn (2 * 7) (since_clear ops)) -> b64_finite x /\ Rabs (b64_real x) <= bpow radix2 980.
Proof. exact c98_order_ex. Qed.
