(** * Property theorems: PsquareTypes

    Statements only; every proof is [exact] of a lemma in ClaimsPsquareTypes.v.
    Generated by tools/mkprops.py. *)

From Coq Require Import ZArith NArith QArith List Bool Sorting.Sorted.
From Verif Require Import Arith History SpecRatio Psquare PsquareTypes Binary64.
Import ListNotations.
From Verif Require Import ClaimsPsquareTypes.

(** C109_by_type: let the ratio types be listed in order of their quotients,
    which lie between 0 and 1, each in any notation, possibly several times, but
    [std::ratio<1, 1>] not among them. Then value<R>() compiles exactly when [R] is
    one of these types or [std::ratio<0, 1>] or [std::ratio<1, 1>]. It is get<i>()
    for the first position [i] at which that type was listed (counted from 1), the
    minimum and the maximum for the other two; get<i>() compiles for i up to the
    number of ratios plus 1. *)
Theorem C109_by_type : forall (F : num) (rs : list cratio) (s : psq F),
  let quotient_of r := quotient (written_num r) (written_den r) in
  Forall (fun r => written_den r <> 0%Z /\ (0 <= quotient_of r <= 1)%Q) rs ->
  StronglySorted Qle (map quotient_of rs) ->
  ~ In (CRatio 1 1) rs ->
  let get := psq_get F (map (cquantile F) rs) s in
  (forall i r, nth_error rs i = Some r -> (forall j, (j < i)%nat -> nth_error rs j <> Some r) -> r <> CRatio 0 1 ->
     cpsq_value F rs s r = Compiled (get (1 + i)%nat)) /\
  cpsq_value F rs s (CRatio 0 1) = Compiled (get 0%nat) /\
  cpsq_value F rs s (CRatio 1 1) = Compiled (get (1 + length rs)%nat) /\
  (forall r, cpsq_value F rs s r = Rejected <-> ~ In r (CRatio 0 1 :: CRatio 1 1 :: rs)) /\
  (forall i, cpsq_get F rs s i = if (i <=? 1 + length rs)%nat then Compiled (get i) else Rejected).
Proof. exact c109_by_type. Qed.
Print Assumptions C109_by_type.

(** C109_by_type_ex: 1/4, 2/4 and 3/4; value<std::ratio<2, 4>> is get<2>. *)
Example C109_by_type_ex :
  let rs := [CRatio 1 4; CRatio 2 4; CRatio 3 4] in
  let quotient_of r := quotient (written_num r) (written_den r) in
  Forall (fun r => written_den r <> 0%Z /\ (0 <= quotient_of r <= 1)%Q) rs /\
  StronglySorted Qle (map quotient_of rs) /\ ~ In (CRatio 1 1) rs /\
  nth_error rs 1 = Some (CRatio 2 4) /\ nth_error rs 0 <> Some (CRatio 2 4) /\ ~ In (CRatio 1 2) (CRatio 0 1 :: CRatio 1 1 :: rs).
Proof. exact c109_by_type_ex. Qed.

(** C109_default: if in addition no type is listed twice and
    [std::ratio<0, 1>] is not listed, value() and get() without an argument compile
    and return the estimate of the middle type. *)
Theorem C109_default : forall (F : num) (rs : list cratio) (s : psq F),
  let quotient_of r := quotient (written_num r) (written_den r) in
  Forall (fun r => written_den r <> 0%Z /\ (0 <= quotient_of r <= 1)%Q) rs ->
  StronglySorted Qle (map quotient_of rs) -> rs <> [] ->
  NoDup (CRatio 0 1 :: CRatio 1 1 :: rs) ->
  let middle := (length rs / 2)%nat in
  exists r, nth_error rs middle = Some r /\
    cpsq_value_default F rs s = cpsq_value F rs s r /\
    cpsq_value F rs s r = Compiled (psq_get_default F (map (cquantile F) rs) s).
Proof. exact c109_default. Qed.
Print Assumptions C109_default.

(** C109_default_ex: the quartiles. *)
Example C109_default_ex :
  let rs := [CRatio 1 4; CRatio 2 4; CRatio 3 4] in
  NoDup (CRatio 0 1 :: CRatio 1 1 :: rs) /\ nth_error rs (length rs / 2) = Some (CRatio 2 4).
Proof. exact c109_default_ex. Qed.

(** C109_above_one_rejected: whatever the ratios and their order, asking for a
    ratio above 1, listed or not, does not compile. *)
Theorem C109_above_one_rejected : forall (F : num) (rs : list cratio) (s : psq F) (r : cratio),
  Forall (fun r => written_den r <> 0%Z) rs -> written_den r <> 0%Z ->
  (1 < quotient (written_num r) (written_den r))%Q ->
  cpsq_value F rs s r = Rejected.
Proof. exact c109_above. Qed.
Print Assumptions C109_above_one_rejected.

(** C109_above_one_rejected_ex: 3/2, listed before 1/2. *)
Example C109_above_one_rejected_ex :
  Forall (fun r => written_den r <> 0%Z) [CRatio 3 2; CRatio 1 2] /\ (1 < quotient 3 2)%Q.
Proof. exact c109_above_ex. Qed.

(** C109_notation: two lists of ratio types that stand for the same quotients
    give estimators that behave the same: after any history get<i>() returns the
    same value. *)
Theorem C109_notation : forall (F : num) (rs rs' : list cratio) (ops : list (op F)) (i : nat),
  Forall2 (fun r r' => written_den r <> 0%Z /\ written_den r' <> 0%Z /\
    (quotient (written_num r) (written_den r) == quotient (written_num r') (written_den r'))%Q) rs rs' ->
  let result rs := let qs := map (cquantile F) rs in
    psq_get F qs (run (psq_push F qs) (psq_clear F qs) (psq_init F qs) ops) i in
  result rs = result rs'.
Proof. exact c109_notation. Qed.
Print Assumptions C109_notation.

(** C109_notation_ex: 1/2 as 2/4, 3/4 as -3/-4. *)
Example C109_notation_ex :
  Forall2 (fun r r' => written_den r <> 0%Z /\ written_den r' <> 0%Z /\
    (quotient (written_num r) (written_den r) == quotient (written_num r') (written_den r'))%Q)
    [CRatio 1 2; CRatio 3 4] [CRatio 2 4; CRatio (-3) (-4)].
Proof. exact c109_notation_ex. Qed.

(** C109_same_ratio_refuted: the median estimator rejects the question for
    2/4, although it is the ratio it was made for. *)
Theorem C109_same_ratio_refuted : exists (listed asked : cratio),
  (quotient (written_num listed) (written_den listed) == quotient (written_num asked) (written_den asked))%Q /\
  forall (F : num) (s : psq F), cpsq_value F [listed] s asked = Rejected.
Proof. exact c109_same_refuted. Qed.
Print Assumptions C109_same_ratio_refuted.

(** C109_negative_refuted: with a negative ratio among the quantiles
    value<std::ratio<0, 1>>() is no longer the minimum: for -1/2 and the values 1 to
    4 it compiles and reads outside the array. *)
Theorem C109_negative_refuted : exists (r : cratio) (l : list b64num),
  (quotient (written_num r) (written_den r) < 0)%Q /\
  let qs := map (cquantile b64num) [r] in
  let s := run (psq_push b64num qs) (psq_clear b64num qs) (psq_init b64num qs) (pushes l) in
  cpsq_value b64num [r] s (CRatio 0 1) = Compiled None.
Proof. exact c109_negative_refuted. Qed.
Print Assumptions C109_negative_refuted.

(** C109_lowest_terms: for ratios written in lowest terms, in any order, the
    lookup by type is the lookup by rational number: value<R>() for a type [R] of
    the list that is at most 1 compiles and returns [psq_value]. *)
Theorem C109_lowest_terms : forall (F : num) (rs : list cratio) (s : psq F) (r : cratio),
  let rational r := written_num r # Z.to_pos (written_den r) in
  Forall (fun r => lowest_terms (written_num r) (written_den r)) rs ->
  In r (CRatio 0 1 :: rs ++ [CRatio 1 1]) -> (rational r <= 1)%Q ->
  cpsq_value F rs s r = Compiled (psq_value F (ratio_value F) (map rational rs) s (rational r)).
Proof. exact c109_lowest. Qed.
Print Assumptions C109_lowest_terms.

(** C109_lowest_terms_ex: 3/4 and 1/4 in descending order. *)
Example C109_lowest_terms_ex :
  Forall (fun r => lowest_terms (written_num r) (written_den r)) [CRatio 3 4; CRatio 1 4] /\
  In (CRatio 3 4) (CRatio 0 1 :: [CRatio 3 4; CRatio 1 4] ++ [CRatio 1 1]) /\ (3 # 4 <= 1)%Q.
Proof. exact c109_lowest_ex. Qed.
