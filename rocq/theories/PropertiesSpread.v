(** * Property theorems: Spread

    Statements only; every proof is [exact] of a lemma in ClaimsSpread.v.
    Generated by tools/mkprops.py. *)

From Coq Require Import QArith Reals ZArith NArith List Bool Sorting.Sorted.
From Verif Require Import Arith History SpecPsquare SpecSpread Psquare ExactRuns PsquareRuns.
Import ListNotations.
Local Open Scope R_scope.
From Verif Require Import ClaimsSpread.

(** C115_ranks: when every value extends the range of the values so far by one
    step d at either end, every marker in parameters() holds exactly the value whose
    rank is the marker's position. *)
Theorem C115_ranks : forall (eps : R) (qs : list R) (ops : list (op R)) (d a : R) (ups : list bool) (s : list R),
  let l := since_clear ops in
  0 < d -> l = spread d a ups -> fits l -> (2 * length qs + 3 <= length l)%nat -> order_statistics l s ->
  forall i p h, nth_error (psq_parameters (exact eps) (run_psq eps qs ops)) i = Some (p, h) ->
  (1 <= p <= N.of_nat (length l))%N /\ h = Fin (nth (N.to_nat p - 1) s 0).
Proof. exact c115_ranks. Qed.
Print Assumptions C115_ranks.

(** C115_ranks_ex: eight values, four steps up, then down, up and down. *)
Example C115_ranks_ex : let ops := pushes [10; 13; 16; 19; 22; 7; 25; 4] in
  let l := since_clear ops in
  l = spread 3 10 [true; true; true; true; false; true; false] /\ fits l /\ (2 * length [/ 2] + 3 <= length l)%nat /\
  exists s, order_statistics l s /\ nth 3 s 0 = 13.
Proof. exact c115_ranks_ex. Qed.

(** C115_estimate: get() for the k-th quantile q is then within 4 Q steps of
    lo + (n-1) q d, which is the quantile of the values lo, lo + d, lo + 2 d, ... *)
Theorem C115_estimate : forall (eps : R) (qs : list R) (ops : list (op R)) (d a : R) (ups : list bool) (s : list R) (k : nat) (q : R),
  let l := since_clear ops in
  let n := INR (length l) in
  0 < d -> l = spread d a ups -> fits l -> (2 * length qs + 3 < length l)%nat -> order_statistics l s ->
  StronglySorted Rle qs -> Forall (fun r => 0 <= r <= 1) qs -> nth_error qs k = Some q ->
  exists v, psq_get (exact eps) (rqs eps qs) (run_psq eps qs ops) (k + 1) = Some (Fin v) /\
    - 4 * INR (length qs - k) * d <= v - (nth 0 s 0 + (n - 1) * q * d) <= 2 * INR (k + 1) * d.
Proof. exact c115_estimate. Qed.
Print Assumptions C115_estimate.

(** C115_estimate_ex: a hundred values rising by 1/2; the quartiles and the
    99th percentile. *)
Example C115_estimate_ex : let qs := [/ 4; / 2; 3 / 4; 99 / 100] in
  let ops := pushes (spread (/ 2) 0 (repeat true 99)) in
  let l := since_clear ops in
  l = spread (/ 2) 0 (repeat true 99) /\ length l = 100%nat /\ (2 * length qs + 3 < 100)%nat /\
  StronglySorted Rle qs /\ Forall (fun r => 0 <= r <= 1) qs /\ exists s, order_statistics l s /\ nth 0 s 0 = 0 /\ nth 99 s 0 = 99 / 2.
Proof. exact c115_estimate_ex. Qed.

(** C115_median: and the median estimate is at most one step below and half a
    step above the median of all the values. *)
Theorem C115_median : forall (eps : R) (ops : list (op R)) (d a : R) (ups : list bool) (s : list R),
  let l := since_clear ops in
  let n := INR (length l) in
  0 < d -> l = spread d a ups -> fits l -> (5 < length l)%nat -> order_statistics l s ->
  exists v, psq_get (exact eps) (rqs eps [/ 2]) (run_psq eps [/ 2] ops) 1 = Some (Fin v) /\
    let median := (nth 0 s 0 + nth (length l - 1) s 0) / 2 in
    median - d <= v <= median + d / 2.
Proof. exact c115_median. Qed.
Print Assumptions C115_median.

(** C115_median_ex: nine values falling by 2 from 100. *)
Example C115_median_ex : let ops := pushes (spread 2 100 (repeat false 8)) in
  let l := since_clear ops in
  l = [100; 98; 96; 94; 92; 90; 88; 86; 84] /\ fits l /\ (5 < length l)%nat /\ exists s, order_statistics l s /\ (nth 0 s 0 + nth 8 s 0) / 2 = 92.
Proof. exact c115_median_ex. Qed.
