(** * Property theorems: ContractedPsquare

    Statements only; every proof is [exact] of a lemma in ClaimsContractedPsquare.v.
    Generated by tools/mkprops.py. *)

From Coq Require Import Reals ZArith NArith List Bool Sorting.Sorted.
From Flocq Require Import Core.
From Verif Require Import Arith History Psquare Rounded SpecPsquare Contracted ContractedPsquare.
Import ListNotations.
Local Open Scope R_scope.
From Verif Require Import ClaimsContractedPsquare.

(** C124_order: compiled with fused multiply-adds, whichever of the two inner
    products of parabolic() is fused: for every binary floating-point format
    with at least 8 bits of precision, round to nearest and no overflow, every
    list of Q quantiles of the value type and every history with 2Q+3 to 2^27
    (and at most 2^precision) representable values since the last clear, the
    marker heights reported by parameters() are numbers of the format in
    ascending order between the smallest and the largest value. *)
Theorem C124_order : forall (emin prec : Z) (first : bool) (ops : list (op R)),
  (8 <= prec)%Z -> (emin <= -34)%Z ->
  let F := rounded emin prec ZnearestE in
  forall qs : list F,
  let l := since_clear ops in
  Forall (representable emin prec) l ->
  (2 * length qs + 3 <= length l)%nat -> (N.of_nat (length l) <= 2 ^ 27)%N -> (Z.of_nat (length l) <= 2 ^ prec)%Z ->
  let s := run (psq_push_fma F (rounded_fused emin prec ZnearestE) qs first) (psq_clear F qs) (psq_init F qs) (fops emin prec ZnearestE ops) in
  exists hs : list R, map snd (psq_parameters F s) = map Fin hs /\
    StronglySorted Rle hs /\ Forall (representable emin prec) hs /\ Forall (fun h => in_hull h l) hs.
Proof. exact c124_order. Qed.
Print Assumptions C124_order.

(** C124_order_ex: single precision, one quantile that is not a number; seven
    values after a clear. *)
Example C124_order_ex :
  (8 <= 24)%Z /\ (-149 <= -34)%Z /\
  let ops := [Push 100; Clear; Push 3; Push 1; Push 2; Push 5; Push 4; Push 7; Push 6] in
  let l := since_clear ops in
  Forall (representable (-149) 24) l /\ (2 * length [@NonFin] + 3 <= length l)%nat /\
  (N.of_nat (length l) <= 2 ^ 27)%N /\ (Z.of_nat (length l) <= 2 ^ 24)%Z.
Proof. exact c124_order_ex. Qed.

(** C124_range: compiled with fused multiply-adds, the same formats (in which
    1 is a normal number), every quantile representable and between 0 and
    1 - 2^(3-precision): after one or more values, however few, get<i> is defined
    for every index and its result is a number between the smallest and the
    largest value since the last clear. *)
Theorem C124_range : forall (emin prec : Z) (first : bool) (qs : list R) (ops : list (op R)) (index : nat),
  (8 <= prec)%Z -> (emin <= -34)%Z -> (emin + prec <= 0)%Z ->
  Forall (fun q => representable emin prec q /\ 0 <= q <= 1 - bpow radix2 (3 - prec)) qs ->
  let l := since_clear ops in
  Forall (representable emin prec) l -> l <> [] ->
  (N.of_nat (length l) <= 2 ^ 27)%N -> (Z.of_nat (length l) <= 2 ^ prec)%Z ->
  (index <= length qs + 1)%nat ->
  let F := rounded emin prec ZnearestE in
  let s := run (psq_push_fma F (rounded_fused emin prec ZnearestE) (map Fin qs) first) (psq_clear F (map Fin qs)) (psq_init F (map Fin qs))
               (fops emin prec ZnearestE ops) in
  exists v, psq_get_fma F (rounded_fused emin prec ZnearestE) (map Fin qs) s index = Some (Fin v) /\ representable emin prec v /\ in_hull v l.
Proof. exact c124_range. Qed.
Print Assumptions C124_range.

(** C124_range_ex: single precision, quartiles; two values. *)
Example C124_range_ex :
  (8 <= 24)%Z /\ (-149 <= -34)%Z /\ (-149 + 24 <= 0)%Z /\
  Forall (fun q => representable (-149) 24 q /\ 0 <= q <= 1 - bpow radix2 (3 - 24)) [/ 4; / 2; 3 / 4] /\
  let ops := [Push 3; Push (-1)] in
  let l := since_clear ops in
  Forall (representable (-149) 24) l /\ l <> [] /\ (N.of_nat (length l) <= 2 ^ 27)%N /\
  (Z.of_nat (length l) <= 2 ^ 24)%Z /\ (4 <= length [/ 4; / 2; 3 / 4]%R + 1)%nat.
Proof. exact c124_range_ex. Qed.

(** C124_estimates_order: compiled with fused multiply-adds, once more than
    2Q+3 values have been pushed, the estimates are in the order of their
    indices. *)
Theorem C124_estimates_order : forall (emin prec : Z) (first : bool) (ops : list (op R)) (i j : nat),
  (8 <= prec)%Z -> (emin <= -34)%Z ->
  let F := rounded emin prec ZnearestE in
  let U := rounded_fused emin prec ZnearestE in
  forall qs : list F,
  let l := since_clear ops in
  Forall (representable emin prec) l ->
  (2 * length qs + 3 < length l)%nat -> (N.of_nat (length l) <= 2 ^ 27)%N -> (Z.of_nat (length l) <= 2 ^ prec)%Z ->
  (i <= j)%nat -> (j <= length qs + 1)%nat ->
  let s := run (psq_push_fma F U qs first) (psq_clear F qs) (psq_init F qs) (fops emin prec ZnearestE ops) in
  exists v w, psq_get_fma F U qs s i = Some (Fin v) /\ psq_get_fma F U qs s j = Some (Fin w) /\ v <= w.
Proof. exact c124_estimates_order. Qed.
Print Assumptions C124_estimates_order.

(** C124_estimates_order_ex: single precision, one quantile; seven values after
    a clear, the estimates 1 and 2. *)
Example C124_estimates_order_ex :
  (8 <= 24)%Z /\ (-149 <= -34)%Z /\
  let ops := [Push 100; Clear; Push 3; Push 1; Push 2; Push 5; Push 4; Push 7; Push 6] in
  let l := since_clear ops in
  Forall (representable (-149) 24) l /\ (2 * length [/ 2] + 3 < length l)%nat /\
  (N.of_nat (length l) <= 2 ^ 27)%N /\ (Z.of_nat (length l) <= 2 ^ 24)%Z /\ (1 <= 2)%nat /\ (2 <= length [/ 2]%R + 1)%nat.
Proof. exact c124_estimates_order_ex. Qed.

(** C124_cross_statement: if the compiler also fuses the product that
    gives the rank into the next statement (as the standard allows), an estimate
    can lie below every value: for double, the quantile 1/3 of 0, 0, 2^60 and
    2^60 is then -64, where it is 0 without that fusion. *)
Theorem C124_cross_statement : exists (q : R) (l : list R),
  representable (-1074) 53 q /\ Forall (representable (-1074) 53) l /\ Rabs (q - / 3) <= bpow radix2 (-55) /\
  let F := rounded (-1074) 53 ZnearestE in
  let U := rounded_fused (-1074) 53 ZnearestE in
  let s := run (psq_push_fma F U [Fin q] true) (psq_clear F [Fin q]) (psq_init F [Fin q]) (pushes (map Fin l)) in
  psq_get_fma F U [Fin q] s 1 = Some (Fin 0) /\
  exists v, psq_get_cross F U [Fin q] s 1 = Some (Fin v) /\ v = -64 /\ Forall (fun x => v < x) l.
Proof. exact c124_cross_statement. Qed.
Print Assumptions C124_cross_statement.
