(** * Property theorems: QuantileSafety

    Statements only; every proof is [exact] of a lemma in ClaimsQuantileSafety.v.
    Generated by tools/mkprops.py. *)

From Coq Require Import Reals ZArith NArith Bool List QArith.
From Coq Require Import Floats.SpecFloat.
From Flocq Require Import Core.
From Verif Require Import Arith History Psquare ExactRuns PsquareRuns Rounded Binary64 Conformance.
Import ListNotations.
Local Open Scope R_scope.
From Verif Require Import ClaimsQuantileSafety.

(** C104_safe_binary64_partial: double, ratios between 0 and 1 - 2^-50, every
    history of pushes and clears with any doubles, NaN and infinities included: no
    get<i> reads outside the array, and while the values are stored an
    interpolated estimate is computed from two stored values. *)
Theorem C104_safe_binary64_partial : forall (qs : list b64num) (ops : list (op b64num)) (index : nat),
  Forall (fun q : b64num => b64_finite q /\ 0 <= b64_real q <= 1 - bpow radix2 (-50)) qs ->
  (Z.of_nat (2 * length qs + 3) <= 2 ^ 53)%Z ->
  let l := since_clear ops in
  (N.of_nat (length l) < szmod)%N -> (index <= length qs + 1)%nat ->
  let s := run (psq_push b64num qs) (psq_clear b64num qs) (psq_init b64num qs) ops in
  let h := ps_heights b64num s in
  (exists x, psq_get b64num qs s index = Some x) /\
  (forall i, index = S i -> (i < length qs)%nat -> (2 <= length l <= 2 * length qs + 3)%nat ->
   exists j k w, (j < length l)%nat /\ (k < length l)%nat /\
     psq_get b64num qs s index = Some (nadd (nth j h n0) (nmul w (nsub (nth k h n0) (nth j h n0))))).
Proof. exact c104_safe. Qed.
Print Assumptions C104_safe_binary64_partial.

(** C104_safe_binary64_partial_ex: the median of a NaN and an infinity, which
    is NaN, after a clear. *)
Example C104_safe_binary64_partial_ex :
  let half := S754_finite false 4503599627370496 (-53) in
  Forall (fun q : b64num => b64_finite q /\ 0 <= b64_real q <= 1 - bpow radix2 (-50)) [half] /\
  (Z.of_nat (2 * length [half] + 3) <= 2 ^ 53)%Z /\
  let ops := [Push (b64_of_Z 3); Clear; Push S754_nan; Push (S754_infinity false)] in
  (N.of_nat (length (since_clear ops)) < szmod)%N /\ (1 <= length [half] + 1)%nat /\
  psq_get b64num [half] (run (psq_push b64num [half]) (psq_clear b64num [half]) (psq_init b64num [half]) ops) 1 = Some S754_nan.
Proof. exact c104_safe_ex. Qed.

(** C104_safe_rounded_partial: the same in every binary format with at least 8
    bits of precision and round to nearest (float is 24), for ratios up to
    1 - 2^(3-precision) and every history, results that are not finite numbers
    included. *)
Theorem C104_safe_rounded_partial : forall (emin prec : Z) (qs : list R) (ops : list (op (rounded emin prec ZnearestE))) (index : nat),
  (8 <= prec)%Z -> (emin <= -34)%Z -> (emin + prec <= 0)%Z ->
  Forall (fun q => representable emin prec q /\ 0 <= q <= 1 - bpow radix2 (3 - prec)) qs ->
  (Z.of_nat (2 * length qs + 3) <= 2 ^ prec)%Z -> (N.of_nat (2 * length qs + 3) < 2 ^ 62)%N ->
  let F := rounded emin prec ZnearestE in
  let l := since_clear ops in
  (N.of_nat (length l) < szmod)%N -> (index <= length qs + 1)%nat ->
  let s := run (psq_push F (map Fin qs)) (psq_clear F (map Fin qs)) (psq_init F (map Fin qs)) ops in
  exists x, psq_get F (map Fin qs) s index = Some x.
Proof. exact c104_safe_rounded. Qed.
Print Assumptions C104_safe_rounded_partial.

(** C104_safe_rounded_partial_ex: float, the quartiles. *)
Example C104_safe_rounded_partial_ex :
  (8 <= 24)%Z /\ (-149 <= -34)%Z /\ (-149 + 24 <= 0)%Z /\
  Forall (fun q => representable (-149) 24 q /\ 0 <= q <= 1 - bpow radix2 (3 - 24)) [/ 4; / 2; 3 / 4] /\
  (Z.of_nat (2 * length [/ 4; / 2; 3 / 4]%R + 3) <= 2 ^ 24)%Z /\ (3 <= length [/ 4; / 2; 3 / 4]%R + 1)%nat.
Proof. exact c104_safe_rounded_ex. Qed.

(** C104_ratio_one: exact arithmetic: if the ratio 1 is listed, its estimate
    reads beyond the end of the array whenever exactly 2Q+3 values are stored,
    whatever they are. *)
Theorem C104_ratio_one : forall (eps : R) (before after : list R) (ops : list (op R)),
  let qs := before ++ [1] ++ after in
  (N.of_nat (2 * length qs + 3) < szmod)%N ->
  length (since_clear ops) = (2 * length qs + 3)%nat ->
  psq_get _ (rqs eps qs) (run_psq eps qs ops) (S (length before)) = None.
Proof. exact c104_one. Qed.
Print Assumptions C104_ratio_one.

(** C104_ratio_one_ex: five values and the ratio 1 alone. *)
Example C104_ratio_one_ex :
  (N.of_nat (2 * length ([] ++ [1%R] ++ []) + 3) < szmod)%N /\
  length (since_clear [Push 4; Clear; Push 1; Push 2; Push 3; Push 4; Push 5]) = (2 * length ([] ++ [1%R] ++ []) + 3)%nat.
Proof. exact c104_one_ex. Qed.

(** C104_near_one_refuted: ratios below 1 are not safe either. Double, five
    values: (2^53-1)/2^53, which double represents exactly, makes the rank plus 1
    round up to 5; 2^53/(2^53+1) is stored as 1; so is 99999999/100000000 in a
    float. *)
Theorem C104_near_one_refuted : exists (q q' f : Q) (l : list Z),
  let est (F : num) (q : Q) :=
    let qs := [ratio_value F q] in
    psq_get F qs (run (psq_push F qs) (psq_clear F qs) (psq_init F qs) (pushes (map (fun z => nofz z : F) l))) 1 in
  Forall (fun r => Qlt 0 r /\ Qlt r 1) [q; q'; f] /\ length l = 5%nat /\
  SFltb (ratio_value b64num q) (b64_of_Z 1) = true /\
  est b64num q = None /\ est b64num q' = None /\ est b32num f = None.
Proof. exact c104_near_one_refuted. Qed.
Print Assumptions C104_near_one_refuted.
