(** * Property theorems: InterimPsquare

    Statements only; every proof is [exact] of a lemma in ClaimsInterimPsquare.v.
    Generated by tools/mkprops.py. *)

From Coq Require Import Reals ZArith NArith Bool List QArith Sorting.Sorted.
From Coq Require Import Floats.SpecFloat.
From Verif Require Import Arith History SpecBlocks Psquare InterimPsquare SpecCopies
  ExactRuns PsquareRuns.
Import ListNotations.
Local Open Scope R_scope.
From Verif Require Import ClaimsInterimPsquare.

(** C43_interim_quantile: for every arithmetic, quantile list, even
    window W = 2H > 0 and history of an estimator that is not copied, no pointer
    access fails; get<i> is the P-square estimate of the values while at most H
    were pushed, afterwards (p*(H-s) + a*2s)/(H+s), where p and a are the P-square
    estimates of the previous and the current block of H values and s is the
    size of the current block; empty() iff there are no values. *)
Theorem C43_interim_quantile : forall (F : num) (H : nat) (qs : list F) (o : nat) (ops : list (op F)) (i : nat),
  (0 < H)%nat -> (N.of_nat (2 * H) < szmod)%N ->
  let W := N.of_nat (2 * H) in
  let l := since_clear ops in
  let est d := psq_get F qs (run (psq_push F qs) (psq_clear F qs) (psq_init F qs) (pushes d)) i in
  let s := N.of_nat (length (cur_block H l)) in
  exists h, exec F W qs (New o :: map (fun p => match p with
                                                | Push x => PushTo o x
                                                | Clear => ClearOf o end) ops) = Some h /\
    ipq_empty F h o = Some (match l with [] => true | _ => false end) /\
    ((length l <= H)%nat -> ipq_get F W qs h o i = est l) /\
    ((H < length l)%nat -> forall p a, est (prev_block H l) = Some p -> est (cur_block H l) = Some a ->
       ipq_get F W qs h o i =
       Some (ndiv (nadd (nmul p (nofsz (N.of_nat H - s))) (nmul a (nofsz (2 * s))))
                  (nofsz (N.of_nat H + s)))).
Proof. exact c43. Qed.
Print Assumptions C43_interim_quantile.

(** C43_interim_quantile_ex: window 4, five values after a clear; the
    blocks are 3, 4 and 5, the weights 1 and 2,
    the estimate 4.5. *)
Example C43_interim_quantile_ex :
  let ops : list (op b64num) := map (op_map b64_of_Z) ([Push 9; Clear; Push 1; Push 2; Push 3; Push 4; Push 5])%Z in
  let q := ratio_value b64num (1 # 2) in
  cur_block 2 (since_clear ops) = [b64_of_Z 5] /\
  prev_block 2 (since_clear ops) = [b64_of_Z 3; b64_of_Z 4] /\
  exists h, exec b64num 4 [q] (New 0 :: map (fun p => match p with
      | Push x => PushTo 0 x | Clear => ClearOf 0 end) ops) = Some h /\
    ipq_get b64num 4 [q] h 0 1 = Some (ndiv (b64_of_Z 9 : b64num) (b64_of_Z 2)).
Proof. exact c43_ex. Qed.

(** C29_interim_quantile: for every arithmetic, quantile list, even
    window and history before it, clear() leaves an interim quantile estimator
    that is not copied behaving like a new one: after the same further calls
    empty() and every get<i>() agree. *)
Theorem C29_interim_quantile : forall (F : num) (H : nat) (qs : list F) (o : nat) (before after : list (op F)),
  (0 < H)%nat -> (N.of_nat (2 * H) < szmod)%N ->
  let W := N.of_nat (2 * H) in
  let program ops := New o :: map (fun p => match p with
                                            | Push x => PushTo o x
                                            | Clear => ClearOf o end) ops in
  exists h h', exec F W qs (program (before ++ Clear :: after)) = Some h /\
    exec F W qs (program after) = Some h' /\
    ipq_empty F h o = ipq_empty F h' o /\
    forall i, ipq_get F W qs h o i = ipq_get F W qs h' o i.
Proof. exact c29_quantile. Qed.
Print Assumptions C29_interim_quantile.

(** C29_interim_quantile_ex: window 4; three values, a clear and three more;
    without the clear the median
    would differ. *)
Example C29_interim_quantile_ex :
  let program := fun ops : list (op b64num) => New 0 :: map (fun p => match p with
      | Push x => PushTo 0 x | Clear => ClearOf 0 end) ops in
  let before : list (op b64num) := map (op_map b64_of_Z) ([Push 9; Push 8; Push 7])%Z in
  let after : list (op b64num) := map (op_map b64_of_Z) ([Push 1; Push 2; Push 4])%Z in
  let q := ratio_value b64num (1 # 2) in
  exists h h', exec b64num 4 [q] (program (before ++ Clear :: after)) = Some h /\
    exec b64num 4 [q] (program (before ++ after)) = Some h' /\
    ipq_get b64num 4 [q] h 0 1 <> ipq_get b64num 4 [q] h' 0 1.
Proof. exact c29_quantile_ex. Qed.

(** C43_value: if the ratios are listed in strictly ascending order
    between 0 and 1, then in every memory value<q_i>() is get<i>(), value<0>() is
    get<0>(), value<1>() is get<Q+1>(), and value() and get() without argument
    are value<q>() of the middle ratio q. *)
Theorem C43_value : forall (F : num) (W : N) (of_ratio : Q -> F) (ratios : list Q) (h : memory F) (o : nat),
  StronglySorted Qlt (0%Q :: ratios ++ [1%Q]) ->
  let get := ipq_get F W (map of_ratio ratios) h o in
  let value := ipq_value F W of_ratio ratios h o in
  (forall i q, nth_error ratios i = Some q -> value q = get (S i)) /\
  value 0%Q = get 0%nat /\ value 1%Q = get (length ratios + 1)%nat /\
  forall below above q, ratios = below ++ q :: above ->
    (length below = length above \/ length below = S (length above)) ->
    ipq_value_default F W of_ratio ratios h o = value q /\
    ipq_get_default F W (map of_ratio ratios) h o = value q.
Proof. exact c43_value. Qed.
Print Assumptions C43_value.

(** C43_value_ex: the quartiles; the default is the median. *)
Example C43_value_ex :
  let ratios := [1 # 4; 1 # 2; 3 # 4]%Q in
  StronglySorted Qlt (0%Q :: ratios ++ [1%Q]) /\
  ratios = [1 # 4]%Q ++ (1 # 2)%Q :: [3 # 4]%Q.
Proof. exact c43_value_ex. Qed.

(** C43_interim_quantile_range: in exact arithmetic every estimate of
    an estimator that is not copied is a number within every interval containing
    the last W values. *)
Theorem C43_interim_quantile_range : forall (eps : R) (H : nat) (qs : list R) (o : nat) (ops : list (op R))
  (i : nat) (lo hi : R),
  (0 < H)%nat -> (N.of_nat (2 * H) < szmod)%N ->
  Forall (fun q => 0 <= q < 1) qs -> (N.of_nat (2 * length qs + 3) < szmod)%N ->
  (i <= length qs + 1)%nat ->
  let W := N.of_nat (2 * H) in
  let l := since_clear ops in
  l <> [] -> (forall x, In x (lastn (2 * H) l) -> lo <= x <= hi) ->
  exists h v, exec (exact eps) W (rqs eps qs)
      (New o :: map (fun p => match p with Push x => PushTo o (Fin x : exact eps)
                                         | Clear => ClearOf o end) ops) = Some h /\
    ipq_get (exact eps) W (rqs eps qs) h o i = Some (Fin v) /\ lo <= v <= hi.
Proof. exact c43_range. Qed.
Print Assumptions C43_interim_quantile_range.

(** C43_interim_quantile_range_ex: window 4, five values, the last four
    between 2 and 5. *)
Example C43_interim_quantile_range_ex :
  let ops := [Push 9; Clear; Push 100; Push 2; Push 3; Push 4; Push 5] in
  Forall (fun q => 0 <= q < 1) [1 / 2] /\ since_clear ops <> [] /\
  forall x, In x (lastn (2 * 2) (since_clear ops)) -> 2 <= x <= 5.
Proof. exact c43_range_ex. Qed.

(** C44_copies_partial: for every program over any number of objects
    in which every copy or assignment is followed at once by clear() of the
    target: if the program only uses existing objects then no pointer access
    fails and every object behaves according to its own history alone, with
    get<i> and empty() as in C43.  Missing: copies that are not cleared
    (C44_copies_refuted). *)
Theorem C44_copies_partial : forall (F : num) (H : nat) (qs : list F) (cs : list (cmd F)) hist,
  (0 < H)%nat -> (N.of_nat (2 * H) < szmod)%N ->
  cleared_copies cs -> vexec cs = Some hist ->
  let W := N.of_nat (2 * H) in
  exists h, exec F W qs cs = Some h /\
  forall o ops, hist o = Some ops ->
  let l := since_clear ops in
  let s := N.of_nat (length (cur_block H l)) in
  ipq_empty F h o = Some (match l with [] => true | _ => false end) /\
  forall i,
  let est d := psq_get F qs (run (psq_push F qs) (psq_clear F qs) (psq_init F qs) (pushes d)) i in
    ((length l <= H)%nat -> ipq_get F W qs h o i = est l) /\
    ((H < length l)%nat -> forall p a, est (prev_block H l) = Some p -> est (cur_block H l) = Some a ->
       ipq_get F W qs h o i =
       Some (ndiv (nadd (nmul p (nofsz (N.of_nat H - s))) (nmul a (nofsz (2 * s))))
                  (nofsz (N.of_nat H + s)))).
Proof. exact c44_partial. Qed.
Print Assumptions C44_copies_partial.

(** C44_copies_partial_ex: two objects, one copied from the other, cleared
    and used after the other was destroyed. *)
Example C44_copies_partial_ex :
  let cs : list (cmd b64num) := [New 0; PushTo (F := b64num) 0 (b64_of_Z 1); Copy 1 0; ClearOf 1; PushTo (F := b64num) 1 (b64_of_Z 2);
             PushTo (F := b64num) 0 (b64_of_Z 3); Destroy 0; PushTo (F := b64num) 1 (b64_of_Z 4)] in
  cleared_copies cs /\ exists hist, vexec cs = Some hist /\
    hist 1%nat = Some [Push (b64_of_Z 1); Clear; Push (b64_of_Z 2); Push (b64_of_Z 4)].
Proof. exact c44_partial_ex. Qed.

(** C44_copies_refuted: a value pushed to a copy changes the original:
    object 0 without any values reports 7 after 7 was pushed to its copy, and the
    copy's own members stay empty.  After the original is destroyed, pushing to
    the copy accesses memory that does not exist. *)
Theorem C44_copies_refuted : exists (cs : list (cmd b64num)) (h : memory b64num) (hist : histories),
  let q := ratio_value b64num (1 # 2) in
  exec b64num 4 [q] cs = Some h /\ vexec cs = Some hist /\
  hist 0%nat = Some [] /\ hist 1%nat = Some [Push (b64_of_Z 7)] /\
  ipq_empty b64num h 0 = Some false /\ ipq_get b64num 4 [q] h 0 1 = Some (b64_of_Z 7) /\
  (exists r, h 1%nat = Some r /\ psq_empty b64num (iq_first b64num r) = true /\
             psq_empty b64num (iq_second b64num r) = true) /\
  (exists hist', vexec (cs ++ [Destroy 0; PushTo (F := b64num) 1 (b64_of_Z 8)]) = Some hist') /\
  exec b64num 4 [q] (cs ++ [Destroy 0; PushTo (F := b64num) 1 (b64_of_Z 8)]) = None.
Proof. exact c44_refuted. Qed.
Print Assumptions C44_copies_refuted.
