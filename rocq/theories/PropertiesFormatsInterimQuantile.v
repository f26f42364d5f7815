(** * Property theorems: FormatsInterimQuantile

    Statements only; every proof is [exact] of a lemma in ClaimsFormatsInterimQuantile.v.
    Generated by tools/mkprops.py. *)

From Coq Require Import Reals ZArith NArith List Bool.
From Coq Require Import Floats.SpecFloat.
From Flocq Require Import Core.
From Verif Require Import Arith History SpecBlocks Psquare InterimPsquare SpecCopies Rounded Ieee.
Import ListNotations.
Local Open Scope R_scope.
(** A float of an integer. *)
Local Notation f32 z := (ieee_of_Z 24 128 z).
From Verif Require Import ClaimsFormatsInterimQuantile.

(** C98_range_formats: the same as C98_range_binary64 in every IEEE format with
    at least 8 bits in which size_t is in range, for windows of at most 2^28 and
    2^prec values of magnitude at most [M], at most 2^(emax-33), and quantiles between
    0 and 1 - 2^(3-prec). *)
Theorem C98_range_formats : forall (prec emax : Z) (H : nat) (qs : list (ieee prec emax)) (o : nat) (ops : list (op (ieee prec emax))) (i : nat) (M lo hi : R),
  (8 <= prec < emax)%Z -> (65 <= emax)%Z ->
  (0 < H)%nat -> (N.of_nat H <= 2 ^ 27)%N -> (Z.of_nat (2 * H) <= 2 ^ prec)%Z ->
  Forall (fun q : (ieee prec emax) => ieee_finite prec emax q /\ 0 <= ieee_real q <= 1 - bpow radix2 (3 - prec)) qs ->
  (i <= length qs + 1)%nat -> M <= bpow radix2 (emax - 33) ->
  let W := N.of_nat (2 * H) in
  let l := since_clear ops in
  l <> [] ->
  (forall x : (ieee prec emax), In x (lastn (2 * H) l) -> ieee_finite prec emax x /\ Rabs (ieee_real x) <= M /\ lo <= ieee_real x <= hi) ->
  exists h v, exec (ieee prec emax) W qs
      (New o :: map (fun p => match p with Push x => PushTo o x | Clear => ClearOf o end) ops) = Some h /\
    ipq_get (ieee prec emax) W qs h o i = Some v /\ ieee_finite prec emax v /\
    let slop := 7 * (bpow radix2 (- prec) * M) + 11 * bpow radix2 (2 - emax - prec) in
    lo - slop <= ieee_real v <= hi + slop /\
    ((length l <= H)%nat -> lo <= ieee_real v <= hi).
Proof. exact c98_range_formats. Qed.
Print Assumptions C98_range_formats.

(** C98_range_formats_ex: the median of floats with window 4 after five values. *)
Example C98_range_formats_ex :
  let half := S754_finite false 8388608 (-24) in
  let ops : list (op spec_float) := [Push (f32 9); Push (f32 3); Push (f32 1); Push (f32 4); Push (f32 2)] in
  (8 <= 24 < 128)%Z /\ (65 <= 128)%Z /\ (Z.of_nat (2 * 2) <= 2 ^ 24)%Z /\
  Forall (fun q => ieee_finite 24 128 q /\ 0 <= ieee_real q <= 1 - bpow radix2 (3 - 24)) [half] /\
  (2 < length (since_clear ops))%nat /\ 4 <= bpow radix2 (128 - 33) /\
  forall x, In x (lastn (2 * 2) (since_clear ops)) -> ieee_finite 24 128 x /\ Rabs (ieee_real x) <= 4 /\ 1 <= ieee_real x <= 4.
Proof. exact c98_range_formats_ex. Qed.

(** C98_order_formats: in the same formats, once the current half window holds
    more than 2Q+3 values, get<i> does not decrease with i, whatever the quantiles are. *)
Theorem C98_order_formats : forall (prec emax : Z) (H : nat) (qs : list (ieee prec emax)) (o : nat) (ops : list (op (ieee prec emax))) (i j : nat),
  (8 <= prec < emax)%Z -> (65 <= emax)%Z ->
  (0 < H)%nat -> (N.of_nat H <= 2 ^ 27)%N -> (Z.of_nat (2 * H) <= 2 ^ prec)%Z -> (i <= j <= length qs + 1)%nat ->
  let W := N.of_nat (2 * H) in
  let l := since_clear ops in
  (H < length l)%nat -> (2 * length qs + 3 < length (cur_block H l))%nat ->
  (forall x : (ieee prec emax), In x (lastn (2 * H) l) -> ieee_finite prec emax x /\ Rabs (ieee_real x) <= bpow radix2 (emax - 33)) ->
  exists h v w, exec (ieee prec emax) W qs
      (New o :: map (fun p => match p with Push x => PushTo o x | Clear => ClearOf o end) ops) = Some h /\
    ipq_get (ieee prec emax) W qs h o i = Some v /\ ipq_get (ieee prec emax) W qs h o j = Some w /\
    ieee_finite prec emax v /\ ieee_finite prec emax w /\ ieee_real v <= ieee_real w.
Proof. exact c98_order_formats. Qed.
Print Assumptions C98_order_formats.

(** C98_order_formats_ex: one quantile, half windows of seven floats, fourteen values pushed. *)
Example C98_order_formats_ex :
  let l := map (fun z => f32 z) [3; 1; 4; 1; 5; 9; 2; 6; 5; 3; 5; 8; 9; 7]%Z in
  let ops : list (op spec_float) := pushes l in
  (7 < length (since_clear ops))%nat /\ (2 * 1 + 3 < length (cur_block 7 (since_clear ops)))%nat /\ (Z.of_nat (2 * 7) <= 2 ^ 24)%Z /\
  forall x, In x (lastn (2 * 7) (since_clear ops)) -> ieee_finite 24 128 x /\ Rabs (ieee_real x) <= bpow radix2 (128 - 33).
Proof. exact c98_order_formats_ex. Qed.
