(** * Lemmas about histories, size_t arithmetic and exact reals *)

From Coq Require Import Reals ZArith NArith List Lia Lra.
From Flocq Require Import Core.Raux.
From Verif Require Import Arith History SpecStats StatsLemmas.
Import ListNotations.

(** ** Histories *)

Lemma run_app {S A} (push : S -> A -> S) clear s ops1 ops2 :
  run push clear s (ops1 ++ ops2) = run push clear (run push clear s ops1) ops2.
Proof. apply fold_left_app. Qed.

Lemma run_pushes {S A} (push : S -> A -> S) clear s l :
  run push clear s (pushes l) = fold_left push l s.
Proof.
  revert s; induction l as [|a l IH]; intros s; [reflexivity|].
  apply IH.
Qed.

Lemma since_clear_from_pushes {A} (l acc : list A) :
  since_clear_from acc (pushes l) = acc ++ l.
Proof.
  revert acc; induction l as [|a l IH]; intros acc; cbn.
  - symmetry; apply app_nil_r.
  - fold (@pushes A l); rewrite IH, <- app_assoc; reflexivity.
Qed.

Lemma since_clear_pushes {A} (l : list A) : since_clear (pushes l) = l.
Proof. apply since_clear_from_pushes. Qed.

Lemma since_clear_from_app {A} (acc : list A) ops1 ops2 :
  since_clear_from acc (ops1 ++ ops2) =
  since_clear_from (since_clear_from acc ops1) ops2.
Proof.
  revert acc; induction ops1 as [|[a|] ops1 IH]; intros acc; cbn; auto.
Qed.

Lemma since_clear_app_clear {A} (ops1 ops2 : list (op A)) :
  since_clear (ops1 ++ Clear :: ops2) = since_clear ops2.
Proof. unfold since_clear; rewrite since_clear_from_app; reflexivity. Qed.

Lemma since_clear_snoc_push {A} (ops : list (op A)) a :
  since_clear (ops ++ [Push a]) = since_clear ops ++ [a].
Proof. unfold since_clear; rewrite since_clear_from_app; reflexivity. Qed.

(** If [clear] resets to the initial state (for all states satisfying an
    invariant), a history is equivalent to pushing the values since the last
    clear onto a new object. *)
Lemma run_since_clear_inv {S A} (Inv : S -> Prop) (push : S -> A -> S) clear init :
  Inv init -> (forall s a, Inv s -> Inv (push s a)) ->
  (forall s, Inv s -> clear s = init) ->
  forall ops, run push clear init ops = fold_left push (since_clear ops) init.
Proof.
  intros Hi Hp Hc ops.
  enough (H : forall acc s, Inv s -> s = fold_left push acc init ->
            run push clear s ops =
            fold_left push (since_clear_from acc ops) init)
    by (apply H; auto).
  induction ops as [|[a|] ops IH]; intros acc s Hs Heq; cbn.
  - exact Heq.
  - apply IH; [apply Hp, Hs|].
    rewrite fold_left_app; cbn; rewrite Heq; reflexivity.
  - apply IH; [rewrite Hc by exact Hs; exact Hi|cbn; apply Hc, Hs].
Qed.

Lemma run_since_clear {S A} (push : S -> A -> S) clear init :
  (forall s, clear s = init) ->
  forall ops, run push clear init ops = fold_left push (since_clear ops) init.
Proof.
  intros Hc; apply (run_since_clear_inv (fun _ => True)); auto.
Qed.

Lemma since_clear_op_map {A B} (f : A -> B) ops :
  since_clear (map (op_map f) ops) = map f (since_clear ops).
Proof.
  unfold since_clear.
  enough (H : forall acc, since_clear_from (map f acc) (map (op_map f) ops) =
                          map f (since_clear_from acc ops)) by apply (H []).
  induction ops as [|[a|] ops IH]; intros acc; cbn; auto.
  - rewrite <- IH, map_app; reflexivity.
  - apply (IH []).
Qed.

(** ** size_t *)

Lemma sz_small n : (n < szmod)%N -> sz n = n.
Proof. intros H; apply N.mod_small; exact H. Qed.

Lemma szadd_small a b : (a + b < szmod)%N -> szadd a b = (a + b)%N.
Proof. apply sz_small. Qed.

Lemma szmul_small a b : (a * b < szmod)%N -> szmul a b = (a * b)%N.
Proof. apply sz_small. Qed.

Lemma szsub_small a b : (b <= a)%N -> (a < szmod)%N -> szsub a b = (a - b)%N.
Proof.
  intros H1 H2; unfold szsub, sz.
  rewrite (N.mod_small b) by lia.
  replace (a + (szmod - b))%N with ((a - b) + 1 * szmod)%N by lia.
  rewrite N.mod_add by discriminate; apply N.mod_small; lia.
Qed.

Lemma sz_lt n : (sz n < szmod)%N.
Proof. apply N.mod_lt; discriminate. Qed.

(** ** Conversions *)

Lemma IZR_of_nat n : IZR (Z.of_N (N.of_nat n)) = INR n.
Proof. rewrite nat_N_Z, <- INR_IZR_INZ; reflexivity. Qed.

Lemma IZR_len {A} (l : list A) : IZR (Z.of_N (N.of_nat (length l))) = card l.
Proof. apply IZR_of_nat. Qed.

Lemma length_snoc {A} (l : list A) x : length (l ++ [x]) = S (length l).
Proof. rewrite app_length; cbn; lia. Qed.

(** ** Exact reals *)

Lemma Req_bool_neq x y : x <> y -> Req_bool x y = false.
Proof. apply Req_bool_false. Qed.

Lemma xdiv_fin rnd x y :
  y <> 0%R -> xdiv rnd (Fin x) (Fin y) = Fin (rnd (x / y)%R).
Proof. intros H; cbn; rewrite Req_bool_false by exact H; reflexivity. Qed.

Lemma xsqrt_fin rnd x :
  (0 <= x)%R -> xsqrt rnd (Fin x) = Fin (rnd (sqrt x)).
Proof. intros H; cbn; rewrite Rlt_bool_false by exact H; reflexivity. Qed.
