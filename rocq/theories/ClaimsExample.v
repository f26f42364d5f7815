(** * Claim C84: the example programs *)

From Coq Require Import Reals List NArith.
From Verif Require Import Arith History SpecStats SpecExample ExactRuns ExampleRegression.
Import ListNotations.
Local Open Scope R_scope.
(* @end-header *)
From Coq Require Import Lia Lra.
From Verif Require Import Cumulative Window WindowRuns HistoryLemmas StatsLemmas CumulativeStats WindowStats ExampleProofs.

Lemma last_map {A B} (f : A -> B) l d : last (map f l) (f d) = f (last l d).
Proof. induction l as [|a [|b l] IH]; [reflexivity|reflexivity|exact IH]. Qed.

Lemma last_any {A} (l : list A) d e : l <> [] -> last l d = last l e.
Proof. induction l as [|a [|b l] IH]; [congruence|reflexivity|intros _; apply IH; congruence]. Qed.

Lemma ls_fitted l : l <> [] -> fitted (ls_intercept l) (ls_slope l) l.
Proof.
  intros H; destruct (ls_facts l H) as (H1 & H2 & _); split; [exact H1|].
  intros c Hc; apply (H2 c Hc).
Qed.

Lemma firstn_fits {A} (l : list A) n : fits l -> fits (firstn n l).
Proof. unfold fits; intros H; rewrite firstn_length; lia. Qed.

(** @prop C84_rows_partial: exact arithmetic, every file with at least one record:
    both programs terminate with status 0 and print one row for every record and
    one more for the last record repeated; row i holds the record and the line
    fitted to the records up to there (the last 64 of them in window.cpp).
    Missing: the extra row is not in the intended output (C84_rows_refuted). *)
Lemma c84_rows : forall (eps : R) (fuel : nat) (l : list (R * R)) (d : R * R),
  let F := exact eps in
  let file := Some (map (fun p => (Fin (fst p), Fin (snd p)) : F * F) l) in
  let l' := l ++ [last l d] in
  l <> [] -> fits l' -> (length l + 2 <= fuel)%nat ->
  exists oc ow,
    example_cumulative F fuel 2 file = (0%nat, Lines oc) /\
    example_window F fuel 2 file = (0%nat, Lines ow) /\
    length oc = S (length l) /\ length ow = S (length l) /\
    forall i, (i < S (length l))%nat ->
      (exists x y b a, nth_error oc i = Some (Fin x, Fin y, Fin b, Fin a) /\
         row (fun w => w) l' i x y b a) /\
      (exists x y b a, nth_error ow i = Some (Fin x, Fin y, Fin b, Fin a) /\
         row (lastn 64) l' i x y b a).
Proof.
  intros eps fuel l d F file l' Hl Hf Hfuel.
  set (g := fun p : R * R => (Fin (fst p), Fin (snd p)) : F * F).
  assert (Hg : map g l <> []) by (destruct l; cbn; congruence).
  assert (Hlen : (length (map g l) + 2 <= fuel)%nat) by (rewrite map_length; exact Hfuel).
  destruct (main_lines (creg_push F) (creg_slope F) (fun s => creg_at F s n0) (map g l) (g d) fuel
    (creg_init F) Hg Hlen) as (oc & E1 & L1 & H1).
  destruct (main_lines (wreg_push F 64) (wreg_slope F) (fun s => wreg_at F s n0) (map g l) (g d) fuel
    (wreg_init F) Hg Hlen) as (ow & E2 & L2 & H2).
  rewrite map_length in L1, L2.
  assert (EL : map g l ++ [last (map g l) (g d)] = map g l').
  { unfold l'; rewrite map_app, last_map; reflexivity. }
  rewrite EL in H1, H2.
  exists oc, ow; split; [exact E1|]; split; [exact E2|]; split; [exact L1|]; split; [exact L2|].
  intros i Hi.
  assert (Hi' : (i < length l')%nat) by (unfold l'; rewrite app_length; cbn; lia).
  destruct (nth_error l' i) as [[x y]|] eqn:Ei; [|apply nth_error_None in Ei; lia].
  assert (Eg : nth_error (map g l') i = Some (Fin x, Fin y)) by (rewrite nth_error_map, Ei; reflexivity).
  specialize (H1 i _ Eg); specialize (H2 i _ Eg); cbv zeta in H1, H2.
  set (w := firstn (S i) l') in *.
  assert (Hw : w <> []).
  { unfold w; destruct l' as [|z l'']; [cbn in Hi'; lia|discriminate]. }
  assert (Ew : firstn (S i) (map g l') = map g w) by (unfold w; apply firstn_map).
  rewrite Ew in H1, H2.
  assert (Rc : fold_left (creg_push F) (map g w) (creg_init F) = run_creg eps (pushes w)).
  { unfold run_creg, rpops, pushes; rewrite map_map. cbn [op_map]. fold g.
    rewrite <- (map_map g Push). symmetry; apply (run_pushes (creg_push F) (creg_clear F)). }
  assert (Rw : fold_left (wreg_push F 64) (map g w) (wreg_init F) = run_wreg eps 64 (pushes w)).
  { unfold run_wreg, rpops, pushes; rewrite map_map. cbn [op_map]. fold g.
    rewrite <- (map_map g Push). symmetry; apply (run_pushes (wreg_push F 64) (wreg_clear F)). }
  rewrite Rc in H1; rewrite Rw in H2.
  pose proof (creg_obs eps (pushes w)) as Oc; cbv zeta in Oc; rewrite since_clear_pushes in Oc.
  destruct (Oc (firstn_fits l' (S i) Hf) Hw) as (_ & Sc & Ac).
  assert (Hw' : lastn 64 w <> []).
  { intros H; apply (f_equal (@length _)) in H; unfold lastn in H; rewrite skipn_length in H; destruct w; [congruence|cbn [length] in H; lia]. }
  pose proof (wreg_obs eps 64 ltac:(lia) ltac:(reflexivity) (pushes w)) as Ow; cbv zeta in Ow;
    rewrite since_clear_pushes in Ow; destruct (Ow Hw') as (_ & Sw & Aw).
  change (n0 : F) with (Fin 0) in H1, H2.
  unfold F in H1, H2; cbn beta in H1, H2.
  rewrite Sc, (Ac 0) in H1; rewrite Sw, (Aw 0) in H2.
  split.
  - exists x, y, (ls_slope w), (ls_intercept w + ls_slope w * 0).
    split; [exact H1|]. split; [exact Ei|]. rewrite Rmult_0_r, Rplus_0_r. apply ls_fitted, Hw.
  - exists x, y, (ls_slope (lastn 64 w)), (ls_intercept (lastn 64 w) + ls_slope (lastn 64 w) * 0).
    split; [exact H2|]. split; [exact Ei|]. rewrite Rmult_0_r, Rplus_0_r. apply ls_fitted, Hw'.
Qed.

(** @ex C84_rows_partial_ex: the file 0,0 / 1,0 / 2,3. *)
Lemma c84_rows_ex :
  let l := [(0, 0); (1, 0); (2, 3)] in
  l <> [] /\ fits (l ++ [last l (0, 0)]) /\ (length l + 2 <= 5)%nat /\
  fitted (-1/2) (3/2) l.
Proof.
  cbv zeta; split; [discriminate|]; split; [reflexivity|]; split; [cbn; lia|].
  split.
  - intros a b; unfold sse; cbn. 
    pose proof (pow2_ge_0 (a + b - 1)); pose proof (pow2_ge_0 (b - 3/2)); nra.
  - intros c H; unfold constant in H; cbn in H; inversion H as [|? ? E1 H']; inversion H' as [|? ? E2 _]; lra.
Qed.

(** @prop C84_extra: any arithmetic, every file with at least one record: the
    programs print one row more than the file has records, and the last two rows
    show the same record. *)
Lemma c84_extra : forall (F : num) (fuel : nat) (l : list (F * F)),
  l <> [] -> (length l + 2 <= fuel)%nat ->
  exists oc ow,
    example_cumulative F fuel 2 (Some l) = (0%nat, Lines oc) /\
    example_window F fuel 2 (Some l) = (0%nat, Lines ow) /\
    map fst (map fst oc) = l ++ [last l (n0, n0)] /\
    map fst (map fst ow) = l ++ [last l (n0, n0)].
Proof.
  intros F fuel l Hl Hf.
  destruct (main_lines (creg_push F) (creg_slope F) (fun s => creg_at F s n0) l (n0, n0) fuel
    (creg_init F) Hl Hf) as (oc & E1 & L1 & H1).
  destruct (main_lines (wreg_push F 64) (wreg_slope F) (fun s => wreg_at F s n0) l (n0, n0) fuel
    (wreg_init F) Hl Hf) as (ow & E2 & L2 & H2).
  exists oc, ow; split; [exact E1|]; split; [exact E2|].
  assert (K : forall o : list (F * F * F * F), length o = S (length l) ->
    (forall i q, nth_error (l ++ [last l (n0, n0)]) i = Some q ->
       exists u v, nth_error o i = Some (fst q, snd q, u, v)) ->
    map fst (map fst o) = l ++ [last l (n0, n0)]).
  { clear; intros o L H; set (l' := l ++ [last l (n0, n0)]) in *.
    assert (L' : length o = length l') by (unfold l'; rewrite app_length; cbn; lia).
    clearbody l'; clear L; revert o L' H; induction l' as [|q l' IH]; intros [|r o] L' H; try discriminate; [reflexivity|].
    cbn [map]; f_equal.
    - destruct (H 0%nat q eq_refl) as (u & v & E); cbn in E; injection E as ->; destruct q; reflexivity.
    - apply IH; [cbn in L'; lia|]. intros i; exact (H (S i)). }
  split; apply K; try assumption; intros i q Hq; eauto.
Qed.

(** @ex C84_extra_ex: two records over double. *)
Lemma c84_extra_ex :
  let l := [(n0, n1); (n1, n0)] : list (b64num * b64num) in
  l <> [] /\ (length l + 2 <= 4)%nat /\ l ++ [last l (n0, n0)] = [(n0, n1); (n1, n0); (n1, n0)].
Proof. cbv zeta; split; [discriminate|]; split; [cbn; lia|reflexivity]. Qed.

(** @prop C84_rows_refuted: the last row is not the line fitted to the records of
    the file: 0,0 / 1,0 / 2,3 has the line -1/2 + 3/2 x, but the programs end
    with the line fitted to the file with 2,3 counted twice. *)
Lemma c84_rows_refuted : exists (l : list (R * R)) (fuel : nat),
  let F := exact 1 in
  let file := Some (map (fun p => (Fin (fst p), Fin (snd p)) : F * F) l) in
  exists oc x y b a,
    example_cumulative F fuel 2 file = (0%nat, Lines oc) /\
    last oc (Fin 0, Fin 0, Fin 0, Fin 0) = (Fin x, Fin y, Fin b, Fin a) /\
    ~ fitted a b l.
Proof.
  set (l := [(0, 0); (1, 0); (2, 3)]).
  exists l, 5%nat; cbv zeta.
  destruct (c84_rows 1 5 l (0, 0) ltac:(discriminate) ltac:(reflexivity) ltac:(cbn; lia))
    as (oc & ow & E1 & _ & L1 & _ & H).
  destruct (H 3%nat ltac:(cbn; lia)) as [(x & y & b & a & N1 & R1) _].
  exists oc, x, y, b, a; split; [exact E1|]; split.
  { cbn in L1. destruct oc as [|o0 [|o1 [|o2 [|o3 [|]]]]]; try discriminate.
    cbn in N1 |- *; congruence. }
  intros [B1 _]. destruct R1 as [_ [B2 _]].
  specialize (B1 (-1/2) (3/2)). specialize (B2 (-6/11) (18/11)).
  cbn in B2; unfold sse in B1, B2; cbn in B1, B2.
  assert (Q : (a + 1/2) * (a + 1/2) + (a + 1/2 + (b - 3/2)) * (a + 1/2 + (b - 3/2))
            + (a + 1/2 + 2 * (b - 3/2)) * (a + 1/2 + 2 * (b - 3/2)) <= 0) by lra.
  pose proof (Rle_0_sqr (a + 1/2)) as Q1; pose proof (Rle_0_sqr (a + 1/2 + (b - 3/2))) as Q2.
  pose proof (Rle_0_sqr (a + 1/2 + 2 * (b - 3/2))) as Q3; unfold Rsqr in *.
  assert (a + 1/2 = 0) by (apply Rsqr_0_uniq; unfold Rsqr; lra).
  assert (a + 1/2 + (b - 3/2) = 0) by (apply Rsqr_0_uniq; unfold Rsqr; lra).
  assert (a = -1/2) as -> by lra; assert (b = 3/2) as -> by lra.
  lra.
Qed.

(** @prop C84_no_records: any arithmetic: without exactly one argument the
    programs print no row and exit with 1; a file that cannot be opened prints no
    row and exits with 0; a file without records makes them use x and y before
    they have a value. *)
Lemma c84_none : forall (F : num) (fuel argc : nat) (content : option (list (F * F))),
  (argc <> 2%nat ->
   example_cumulative F fuel argc content = (1%nat, Lines []) /\
   example_window F fuel argc content = (1%nat, Lines [])) /\
  ((1 <= fuel)%nat ->
   example_cumulative F fuel 2 None = (0%nat, Lines []) /\
   example_window F fuel 2 None = (0%nat, Lines []) /\
   example_cumulative F fuel 2 (Some []) = (0%nat, Uninitialised) /\
   example_window F fuel 2 (Some []) = (0%nat, Uninitialised)).
Proof.
  intros F fuel argc content; split.
  - intros H; apply Nat.eqb_neq in H; unfold example_cumulative, example_window, example_main.
    rewrite H; split; reflexivity.
  - intros H; destruct fuel as [|fuel]; [lia|]; repeat split.
Qed.

(** @ex C84_no_records_ex: no argument; one argument and one round of fuel. *)
Lemma c84_none_ex : 1%nat <> 2%nat /\ (1 <= 1)%nat.
Proof. split; [discriminate|reflexivity]. Qed.
