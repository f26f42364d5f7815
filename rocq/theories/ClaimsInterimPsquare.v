(** * Claims C43-C44: interim quantile estimator *)

From Coq Require Import Reals ZArith NArith Bool List QArith Sorting.Sorted.
From Coq Require Import Floats.SpecFloat.
From Verif Require Import Arith History SpecBlocks Psquare InterimPsquare SpecCopies
  ExactRuns PsquareRuns.
Import ListNotations.
Local Open Scope R_scope.
(* @end-header *)
From Coq Require Import Lia Lra Psatz Sorting.Permutation.
From Flocq Require Import Core.Raux.
From Verif Require Import HistoryLemmas StatsLemmas WindowProofs BlockLemmas PsquareExact
  PsquareStats InterimPsquareProofs.
From Verif Require PsquareGeneric ClaimsPsquare.

Notation st := PsquareGeneric.st.

(** ** C43 *)

Lemma fresh_run (F : num) qs l :
  run (psq_push F qs) (psq_clear F qs) (psq_init F qs) (pushes l) = st F qs l.
Proof. rewrite PsquareGeneric.run_psq, since_clear_pushes; reflexivity. Qed.

Lemma combination (F : num) qs H h o l q b i :
  (0 < H)%nat -> (N.of_nat (2 * H) < szmod)%N ->
  h o = Some q -> good_obj F H qs o l q b ->
  let est d := psq_get F qs (run (psq_push F qs) (psq_clear F qs) (psq_init F qs) (pushes d)) i in
  let s := N.of_nat (length (cur_block H l)) in
  ((length l <= H)%nat -> ipq_get F (N.of_nat (2 * H)) qs h o i = est l) /\
  ((H < length l)%nat -> forall p a, est (prev_block H l) = Some p -> est (cur_block H l) = Some a ->
     ipq_get F (N.of_nat (2 * H)) qs h o i =
     Some (ndiv (nadd (nmul p (nofsz (N.of_nat H - s))) (nmul a (nofsz (2 * s))))
                (nofsz (N.of_nat H + s)))).
Proof.
  intros HH H64 Ho G est s; unfold est; rewrite !fresh_run.
  rewrite (get_good F H qs HH H64 h o l q b i Ho G); split.
  - intros Hl; destruct (Nat.leb_spec (length l) H); [reflexivity|lia].
  - intros Hl p a E1 E2; destruct (Nat.leb_spec (length l) H); [lia|].
    rewrite E1, E2; reflexivity.
Qed.

Lemma some_match {A} (e : option A) d :
  (match e with Some _ => true | None => false end) = true ->
  e = Some (match e with Some h => h | None => d end).
Proof. destruct e; [reflexivity|discriminate]. Qed.

Lemma none_match {A} (e : option A) :
  (match e with Some _ => true | None => false end) = false -> e = None.
Proof. destruct e; [discriminate|reflexivity]. Qed.

(** An estimator that is not copied. *)
Lemma alone (F : num) (H : nat) (qs : list F) (o : nat) (ops : list (op F)) :
  (0 < H)%nat -> (N.of_nat (2 * H) < szmod)%N ->
  exists h q b, exec F (N.of_nat (2 * H)) qs (New o :: map (fun p => match p with
                                                | Push x => PushTo o x
                                                | Clear => ClearOf o end) ops) = Some h /\
    h o = Some q /\ good_obj F H qs o (since_clear ops) q b.
Proof.
  intros HH H64.
  set (cs := New o :: map _ ops).
  assert (Hc : cleared_copies cs).
  { unfold cs; constructor; clear; induction ops as [|[x|] ops IH]; cbn; constructor; exact IH. }
  assert (Hv : exists f, vexec cs = Some f /\ f o = Some ops).
  { unfold cs, vexec; cbn [fold_left vstep].
    assert (K : forall ops (pre : list (op F)) f, f o = Some pre -> exists f',
      fold_left (fun r c => match r with Some h => vstep h c | None => None end)
        (map (fun p => match p with Push x => PushTo o x | Clear => ClearOf o end) ops) (Some f)
      = Some f' /\ f' o = Some (pre ++ ops)).
    { clear; induction ops as [|a ops IH]; intros pre f E.
      - exists f; rewrite app_nil_r; auto.
      - destruct (IH (pre ++ [a]) (hset f o (Some (pre ++ [a])))) as (f' & E1 & E2).
        { unfold hset; rewrite Nat.eqb_refl; reflexivity. }
        exists f'; rewrite <- app_assoc in E2; split; [|exact E2].
        destruct a; cbn [map fold_left vstep]; rewrite E; exact E1. }
    apply (K ops []); unfold hset; rewrite Nat.eqb_refl; reflexivity. }
  destruct Hv as (f & Hv & Hf).
  destruct (exec_ok F H qs HH H64 cs f Hc Hv) as (h & E & G).
  specialize (G o); rewrite Hf in G; destruct G as (q & b & Ho & G).
  exists h, q, b; auto.
Qed.

(** @prop C43_interim_quantile: for every arithmetic, quantile list, even
    window W = 2H > 0 and history of an estimator that is not copied, no pointer
    access fails; get<i> is the P-square estimate of the values while at most H
    were pushed, afterwards (p*(H-s) + a*2s)/(H+s), where p and a are the P-square
    estimates of the previous and the current block of H values and s is the
    size of the current block; empty() iff there are no values. *)
Lemma c43 : forall (F : num) (H : nat) (qs : list F) (o : nat) (ops : list (op F)) (i : nat),
  (0 < H)%nat -> (N.of_nat (2 * H) < szmod)%N ->
  let W := N.of_nat (2 * H) in
  let l := since_clear ops in
  let est d := psq_get F qs (run (psq_push F qs) (psq_clear F qs) (psq_init F qs) (pushes d)) i in
  let s := N.of_nat (length (cur_block H l)) in
  exists h, exec F W qs (New o :: map (fun p => match p with
                                                | Push x => PushTo o x
                                                | Clear => ClearOf o end) ops) = Some h /\
    ipq_empty F h o = Some (match l with [] => true | _ => false end) /\
    ((length l <= H)%nat -> ipq_get F W qs h o i = est l) /\
    ((H < length l)%nat -> forall p a, est (prev_block H l) = Some p -> est (cur_block H l) = Some a ->
       ipq_get F W qs h o i =
       Some (ndiv (nadd (nmul p (nofsz (N.of_nat H - s))) (nmul a (nofsz (2 * s))))
                  (nofsz (N.of_nat H + s)))).
Proof.
  intros F H qs o ops i HH H64 W l est s.
  destruct (alone F H qs o ops HH H64) as (h & q & b & E & Ho & G).
  exists h; split; [exact E|].
  split; [apply (empty_good F H qs HH H64 h o l q b Ho G)|].
  apply (combination F qs H h o l q b i HH H64 Ho G).
Qed.

(** @ex C43_interim_quantile_ex: window 4, five values after a clear; the
    blocks are 3, 4 and 5, the weights 1 and 2,
    the estimate 4.5. *)
Lemma c43_ex :
  let ops : list (op b64num) := map (op_map b64_of_Z) ([Push 9; Clear; Push 1; Push 2; Push 3; Push 4; Push 5])%Z in
  let q := ratio_value b64num (1 # 2) in
  cur_block 2 (since_clear ops) = [b64_of_Z 5] /\
  prev_block 2 (since_clear ops) = [b64_of_Z 3; b64_of_Z 4] /\
  exists h, exec b64num 4 [q] (New 0 :: map (fun p => match p with
      | Push x => PushTo 0 x | Clear => ClearOf 0 end) ops) = Some h /\
    ipq_get b64num 4 [q] h 0 1 = Some (ndiv (b64_of_Z 9 : b64num) (b64_of_Z 2)).
Proof.
  cbv zeta; do 2 (split; [vm_compute; reflexivity|]).
  match goal with |- exists h, ?e = Some h /\ _ =>
    exists (match e with Some h => h | None => fun _ => None end); split; [apply some_match|] end;
    vm_compute; reflexivity.
Qed.

(** @prop C29_interim_quantile: for every arithmetic, quantile list, even
    window and history before it, clear() leaves an interim quantile estimator
    that is not copied behaving like a new one: after the same further calls
    empty() and every get<i>() agree. *)
Lemma c29_quantile : forall (F : num) (H : nat) (qs : list F) (o : nat) (before after : list (op F)),
  (0 < H)%nat -> (N.of_nat (2 * H) < szmod)%N ->
  let W := N.of_nat (2 * H) in
  let program ops := New o :: map (fun p => match p with
                                            | Push x => PushTo o x
                                            | Clear => ClearOf o end) ops in
  exists h h', exec F W qs (program (before ++ Clear :: after)) = Some h /\
    exec F W qs (program after) = Some h' /\
    ipq_empty F h o = ipq_empty F h' o /\
    forall i, ipq_get F W qs h o i = ipq_get F W qs h' o i.
Proof.
  intros F H qs o before after HH H64 W program.
  destruct (alone F H qs o (before ++ Clear :: after) HH H64) as (h & q & b & E & Ho & G).
  destruct (alone F H qs o after HH H64) as (h' & q' & b' & E' & Ho' & G').
  exists h, h'. split; [exact E|]. split; [exact E'|].
  rewrite since_clear_app_clear in G.
  split.
  - rewrite (empty_good F H qs HH H64 h o _ q b Ho G), (empty_good F H qs HH H64 h' o _ q' b' Ho' G'). reflexivity.
  - intros i. unfold W.
    rewrite (get_good F H qs HH H64 h o _ q b i Ho G), (get_good F H qs HH H64 h' o _ q' b' i Ho' G'). reflexivity.
Qed.

(** @ex C29_interim_quantile_ex: window 4; three values, a clear and three more;
    without the clear the median
    would differ. *)
Lemma c29_quantile_ex :
  let program := fun ops : list (op b64num) => New 0 :: map (fun p => match p with
      | Push x => PushTo 0 x | Clear => ClearOf 0 end) ops in
  let before : list (op b64num) := map (op_map b64_of_Z) ([Push 9; Push 8; Push 7])%Z in
  let after : list (op b64num) := map (op_map b64_of_Z) ([Push 1; Push 2; Push 4])%Z in
  let q := ratio_value b64num (1 # 2) in
  exists h h', exec b64num 4 [q] (program (before ++ Clear :: after)) = Some h /\
    exec b64num 4 [q] (program (before ++ after)) = Some h' /\
    ipq_get b64num 4 [q] h 0 1 <> ipq_get b64num 4 [q] h' 0 1.
Proof.
  cbv zeta.
  match goal with |- exists h h', ?e = Some h /\ ?e' = Some h' /\ _ =>
    exists (match e with Some h => h | None => fun _ => None end), (match e' with Some h => h | None => fun _ => None end) end.
  split; [apply some_match; vm_compute; reflexivity|].
  split; [apply some_match; vm_compute; reflexivity|]. vm_compute. discriminate.
Qed.

(** @prop C43_value: if the ratios are listed in strictly ascending order
    between 0 and 1, then in every memory value<q_i>() is get<i>(), value<0>() is
    get<0>(), value<1>() is get<Q+1>(), and value() and get() without argument
    are value<q>() of the middle ratio q. *)
Lemma c43_value : forall (F : num) (W : N) (of_ratio : Q -> F) (ratios : list Q) (h : memory F) (o : nat),
  StronglySorted Qlt (0%Q :: ratios ++ [1%Q]) ->
  let get := ipq_get F W (map of_ratio ratios) h o in
  let value := ipq_value F W of_ratio ratios h o in
  (forall i q, nth_error ratios i = Some q -> value q = get (S i)) /\
  value 0%Q = get 0%nat /\ value 1%Q = get (length ratios + 1)%nat /\
  forall below above q, ratios = below ++ q :: above ->
    (length below = length above \/ length below = S (length above)) ->
    ipq_value_default F W of_ratio ratios h o = value q /\
    ipq_get_default F W (map of_ratio ratios) h o = value q.
Proof.
  intros F W of_ratio ratios h o Hs get value.
  pose proof (ClaimsPsquare.quantile_list_sorted ratios Hs) as Ea.
  assert (Ef : forall l i q, StronglySorted Qlt l -> nth_error l i = Some q -> ratio_find q l = i).
  { clear; intros l i q H; revert i; induction H as [|x l H IH Hx]; intros i E; [destruct i; discriminate|].
    cbn [ratio_find]; destruct (Qeq_bool q x) eqn:B.
    - apply Qeq_bool_iff in B; destruct i as [|i]; [reflexivity|].
      cbn in E; apply nth_error_In in E; rewrite Forall_forall in Hx; apply Hx in E.
      rewrite B in E; apply Qlt_irrefl in E; destruct E.
    - destruct i as [|i].
      + cbn in E; injection E as ->; rewrite (proj2 (Qeq_bool_iff q q) (Qeq_refl q)) in B; discriminate.
      + f_equal; apply IH; exact E. }
  assert (V : forall i q, nth_error ratios i = Some q -> value q = get (S i)).
  { intros i q E; unfold value, ipq_value, get; rewrite Ea; f_equal; apply Ef; [exact Hs|].
    cbn; rewrite nth_error_app1; [exact E|].
    apply nth_error_Some; rewrite E; discriminate. }
  split; [exact V|]. split; [|split].
  - unfold value, ipq_value, get; rewrite Ea; reflexivity.
  - unfold value, ipq_value, get; rewrite Ea; f_equal; apply Ef; [exact Hs|].
    rewrite Nat.add_1_r; cbn; rewrite nth_error_app2 by lia.
    rewrite Nat.sub_diag; reflexivity.
  - intros below above q Er Hm.
    assert (N : nth_error ratios (length below) = Some q).
    { rewrite Er, nth_error_app2, Nat.sub_diag by lia; reflexivity. }
    pose proof (ClaimsPsquare.middle_index below above q Hm) as M; rewrite <- Er in M.
    unfold ipq_value_default, ipq_get_default; rewrite map_length, M, Ea.
    split; [|symmetry; apply (V _ _ N)].
    fold (value (nth (1 + length below) (0%Q :: ratios ++ [1%Q]) 0%Q)); f_equal.
    cbn [Nat.add nth]; rewrite Er, <- app_assoc, app_nth2, Nat.sub_diag by lia; reflexivity.
Qed.

(** @ex C43_value_ex: the quartiles; the default is the median. *)
Lemma c43_value_ex :
  let ratios := [1 # 4; 1 # 2; 3 # 4]%Q in
  StronglySorted Qlt (0%Q :: ratios ++ [1%Q]) /\
  ratios = [1 # 4]%Q ++ (1 # 2)%Q :: [3 # 4]%Q.
Proof. split; [cbn; repeat constructor|reflexivity]. Qed.

(** @prop C43_interim_quantile_range: in exact arithmetic every estimate of
    an estimator that is not copied is a number within every interval containing
    the last W values. *)
Lemma c43_range : forall (eps : R) (H : nat) (qs : list R) (o : nat) (ops : list (op R))
  (i : nat) (lo hi : R),
  (0 < H)%nat -> (N.of_nat (2 * H) < szmod)%N ->
  Forall (fun q => 0 <= q < 1) qs -> (N.of_nat (2 * length qs + 3) < szmod)%N ->
  (i <= length qs + 1)%nat ->
  let W := N.of_nat (2 * H) in
  let l := since_clear ops in
  l <> [] -> (forall x, In x (lastn (2 * H) l) -> lo <= x <= hi) ->
  exists h v, exec (exact eps) W (rqs eps qs)
      (New o :: map (fun p => match p with Push x => PushTo o (Fin x : exact eps)
                                         | Clear => ClearOf o end) ops) = Some h /\
    ipq_get (exact eps) W (rqs eps qs) h o i = Some (Fin v) /\ lo <= v <= hi.
Proof.
  intros eps H qs o ops i lo hi HH H64 Hq HL Hi W l Hl Hr.
  destruct (c43 (exact eps) H (rqs eps qs) o (rops eps ops) i HH H64) as (h & E & _ & G1 & G2).
  unfold rops in E; rewrite map_map in E.
  assert (El : since_clear (rops eps ops) = map Fin l)
    by (unfold rops; rewrite since_clear_op_map; reflexivity).
  rewrite El in G1, G2; rewrite map_length in G1, G2.
  pose proof (ClaimsPsquare.length_bound qs eps HL) as HL'.
  assert (Eb : cur_block H (map Fin l : list (exact eps)) = map Fin (cur_block H l) /\
               prev_block H (map Fin l : list (exact eps)) = map Fin (prev_block H l)).
  { assert (K : forall n (t : list R), lastn n (map Fin t : list (exact eps)) = map Fin (lastn n t)).
    { intros n t; unfold lastn; rewrite map_length; apply skipn_map. }
    unfold cur_block, prev_block, cur_block; rewrite !K, !map_length, firstn_map, K; auto. }
  destruct Eb as [Eb1 Eb2]; rewrite Eb1, Eb2 in G2; rewrite !map_length in G2.
  assert (K : forall d, d <> [] -> (N.of_nat (length d) < szmod)%N ->
    psq_get (exact eps) (rqs eps qs)
     (run (psq_push _ (rqs eps qs)) (psq_clear _ (rqs eps qs)) (psq_init _ (rqs eps qs))
        (pushes (map Fin d))) i = Some (Fin (est eps qs d i))).
  { intros d Hd Hs; rewrite fresh_run; apply get_est; assumption. }
  exists h.
  assert (Em : map (fun p : op R => match p with
                            | Push x => PushTo o (Fin x : exact eps) | Clear => ClearOf o end) ops =
    map (fun x : op R => match op_map (Fin : R -> exact eps) x with
                         | Push x0 => PushTo o x0 | Clear => ClearOf o end) ops).
  { apply map_ext; intros [x|]; reflexivity. }
  rewrite Em.
  destruct (le_lt_dec (length l) H) as [Hn|Hn].
  - exists (est eps qs l i); split; [exact E|]; split.
    + etransitivity; [apply G1; exact Hn|apply K; [exact Hl|lia]].
    + apply est_range; try assumption; [lia|].
      intros x Hx; apply Hr; unfold lastn.
      replace (length l - 2 * H)%nat with 0%nat by lia; exact Hx.
  - pose proof (cur_block_le H HH l) as Hle; pose proof (cur_block_pos H HH l Hl) as Hpos.
    pose proof (long_prev H HH l Hn) as Hp.
    assert (Hc0 : cur_block H l <> []) by (intros E0; rewrite E0 in Hpos; cbn in Hpos; lia).
    assert (Hp0 : prev_block H l <> []) by (intros E0; rewrite E0 in Hp; cbn in Hp; lia).
    set (p := est eps qs (prev_block H l) i); set (a := est eps qs (cur_block H l) i).
    assert (Rp : lo <= p <= hi).
    { apply est_range; try assumption; [lia|].
      intros x Hx; apply Hr, prev_block_In; assumption. }
    assert (Ra : lo <= a <= hi).
    { apply est_range; try assumption; [lia|].
      intros x Hx; apply Hr, cur_block_In; assumption. }
    set (s := length (cur_block H l)) in *.
    exists ((p * INR (H - s) + a * INR (2 * s)) / INR (H + s)).
    split; [exact E|].
    assert (P1 : 0 < INR (H + s)) by (apply lt_0_INR; lia).
    split.
    + unfold W; rewrite (G2 Hn (Fin p) (Fin a)); [|apply K; [exact Hp0|lia]|apply K; [exact Hc0|lia]].
      apply (f_equal Some).
      rewrite !INR_IZR_INZ.
      unfold ndiv, nadd, nmul, nofsz; cbn [exact xnum xlift2].
      rewrite !N2Z.inj_add, N2Z.inj_sub, N2Z.inj_mul, !nat_N_Z by lia.
      rewrite Nat2Z.inj_add, Nat2Z.inj_sub, Nat2Z.inj_mul by lia.
      unfold xdiv; rewrite INR_IZR_INZ, Nat2Z.inj_add in P1.
      destruct (Req_bool _ _) eqn:Z; [|reflexivity].
      exfalso; revert Z; case Req_bool_spec; [lra|discriminate].
    + assert (P2 : 0 <= INR (H - s)) by apply pos_INR.
      assert (P3 : 0 <= INR (2 * s)) by apply pos_INR.
      assert (P4 : INR (H + s) = INR (H - s) + INR (2 * s))
        by (rewrite <- plus_INR; f_equal; lia).
      split; apply (Rmult_le_reg_r (INR (H + s))); try exact P1; unfold Rdiv;
        rewrite Rmult_assoc, Rinv_l, Rmult_1_r by lra; rewrite P4; nra.
Qed.

(** @ex C43_interim_quantile_range_ex: window 4, five values, the last four
    between 2 and 5. *)
Lemma c43_range_ex :
  let ops := [Push 9; Clear; Push 100; Push 2; Push 3; Push 4; Push 5] in
  Forall (fun q => 0 <= q < 1) [1 / 2] /\ since_clear ops <> [] /\
  forall x, In x (lastn (2 * 2) (since_clear ops)) -> 2 <= x <= 5.
Proof.
  cbv zeta; split; [repeat constructor; lra|]; split; [discriminate|].
  intros x Hx; cbn in Hx; repeat (destruct Hx as [<-|Hx]; [lra|]); destruct Hx.
Qed.

(** ** C44 *)

(** @prop C44_copies_partial: for every program over any number of objects
    in which every copy or assignment is followed at once by clear() of the
    target: if the program only uses existing objects then no pointer access
    fails and every object behaves according to its own history alone, with
    get<i> and empty() as in C43.  Missing: copies that are not cleared
    (C44_copies_refuted). *)
Lemma c44_partial : forall (F : num) (H : nat) (qs : list F) (cs : list (cmd F)) hist,
  (0 < H)%nat -> (N.of_nat (2 * H) < szmod)%N ->
  cleared_copies cs -> vexec cs = Some hist ->
  let W := N.of_nat (2 * H) in
  exists h, exec F W qs cs = Some h /\
  forall o ops, hist o = Some ops ->
  let l := since_clear ops in
  let s := N.of_nat (length (cur_block H l)) in
  ipq_empty F h o = Some (match l with [] => true | _ => false end) /\
  forall i,
  let est d := psq_get F qs (run (psq_push F qs) (psq_clear F qs) (psq_init F qs) (pushes d)) i in
    ((length l <= H)%nat -> ipq_get F W qs h o i = est l) /\
    ((H < length l)%nat -> forall p a, est (prev_block H l) = Some p -> est (cur_block H l) = Some a ->
       ipq_get F W qs h o i =
       Some (ndiv (nadd (nmul p (nofsz (N.of_nat H - s))) (nmul a (nofsz (2 * s))))
                  (nofsz (N.of_nat H + s)))).
Proof.
  intros F H qs cs hist HH H64 Hc Hv W.
  destruct (exec_ok F H qs HH H64 cs hist Hc Hv) as (h & E & G).
  exists h; split; [exact E|]; intros o ops Ho l s.
  specialize (G o); rewrite Ho in G; destruct G as (q & b & Hq & G).
  split; [apply (empty_good F H qs HH H64 h o l q b Hq G)|].
  intros i; apply (combination F qs H h o l q b i HH H64 Hq G).
Qed.

(** @ex C44_copies_partial_ex: two objects, one copied from the other, cleared
    and used after the other was destroyed. *)
Lemma c44_partial_ex :
  let cs : list (cmd b64num) := [New 0; PushTo (F := b64num) 0 (b64_of_Z 1); Copy 1 0; ClearOf 1; PushTo (F := b64num) 1 (b64_of_Z 2);
             PushTo (F := b64num) 0 (b64_of_Z 3); Destroy 0; PushTo (F := b64num) 1 (b64_of_Z 4)] in
  cleared_copies cs /\ exists hist, vexec cs = Some hist /\
    hist 1%nat = Some [Push (b64_of_Z 1); Clear; Push (b64_of_Z 2); Push (b64_of_Z 4)].
Proof.
  cbv zeta; split; [repeat constructor|].
  eexists; split; [reflexivity|reflexivity].
Qed.

(** @prop C44_copies_refuted: a value pushed to a copy changes the original:
    object 0 without any values reports 7 after 7 was pushed to its copy, and the
    copy's own members stay empty.  After the original is destroyed, pushing to
    the copy accesses memory that does not exist. *)
Lemma c44_refuted : exists (cs : list (cmd b64num)) (h : memory b64num) (hist : histories),
  let q := ratio_value b64num (1 # 2) in
  exec b64num 4 [q] cs = Some h /\ vexec cs = Some hist /\
  hist 0%nat = Some [] /\ hist 1%nat = Some [Push (b64_of_Z 7)] /\
  ipq_empty b64num h 0 = Some false /\ ipq_get b64num 4 [q] h 0 1 = Some (b64_of_Z 7) /\
  (exists r, h 1%nat = Some r /\ psq_empty b64num (iq_first b64num r) = true /\
             psq_empty b64num (iq_second b64num r) = true) /\
  (exists hist', vexec (cs ++ [Destroy 0; PushTo (F := b64num) 1 (b64_of_Z 8)]) = Some hist') /\
  exec b64num 4 [q] (cs ++ [Destroy 0; PushTo (F := b64num) 1 (b64_of_Z 8)]) = None.
Proof.
  set (cs := [New 0; Copy 1 0; PushTo (F := b64num) 1 (b64_of_Z 7)] : list (cmd b64num)).
  set (q := ratio_value b64num (1 # 2)).
  set (h := match exec b64num 4 [q] cs with Some h => h | None => fun _ => None end).
  exists cs, h, (match vexec cs with Some f => f | None => fun _ => None end); cbv zeta.
  split; [apply some_match; vm_compute; reflexivity|].
  split; [reflexivity|].
  split; [reflexivity|].
  split; [reflexivity|].
  split; [vm_compute; reflexivity|].
  split; [vm_compute; reflexivity|].
  split.
  { exists (match h 1%nat with Some r => r | None => ipq_new b64num [q] 0 end).
    split; [apply some_match; vm_compute; reflexivity|vm_compute; split; reflexivity]. }
  split; [|apply none_match; vm_compute; reflexivity].
  exists (match vexec (cs ++ [Destroy 0; PushTo (F := b64num) 1 (b64_of_Z 8)]) with
          | Some f => f | None => fun _ => None end).
  reflexivity.
Qed.
