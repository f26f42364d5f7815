(** * Property theorems: Track

    Statements only; every proof is [exact] of a lemma in ClaimsTrack.v.
    Generated by tools/mkprops.py. *)

From Coq Require Import QArith Reals ZArith NArith List Bool Sorting.Sorted.
From Coq Require Import Floats.SpecFloat.
From Flocq Require Import Core.
From Verif Require Import Arith History Psquare SpecOrder Ieee.
Import ListNotations.
Local Open Scope R_scope.
From Verif Require Import ClaimsTrack.

(** C114_exact: in exact arithmetic, for any list of quantiles in increasing
    order and any finite values, the position that parameters() gives for the k-th
    quantile q stays within a constant of its ideal value 1 + (n-1) q, however many
    values n there have been. *)
Theorem C114_exact : forall (eps : R) (rqs : list R) (ops : list (op (exact eps))) (k : nat) (q : R),
  let F := exact eps in
  let qs := map Fin rqs in
  let l := since_clear ops in
  let n := INR (length l) in
  StronglySorted Rle rqs -> Forall (fun r => 0 <= r <= 1) rqs ->
  Forall finite_value l -> (N.of_nat (length l) < szmod)%N -> (2 * length rqs + 3 <= length l)%nat ->
  nth_error rqs k = Some q ->
  exists p h,
    nth_error (psq_parameters F (run (psq_push F qs) (psq_clear F qs) (psq_init F qs) ops)) (2 * k + 2) = Some (p, h) /\
    1 + (n - 1) * q - 4 * INR (length rqs - k) <= IZR (Z.of_N p) <= 1 + (n - 1) * q + 2 * INR (k + 1).
Proof. exact c114_exact. Qed.
Print Assumptions C114_exact.

(** C114_exact_ex: the quartiles, eleven values. *)
Example C114_exact_ex : let rqs := [/ 4; / 2; 3 / 4] in
  let ops := Push (Fin 7) :: Clear :: map (fun z => Push (Fin (IZR z))) [3; 1; 4; 1; 5; 9; 2; 6; 5; 3; 5]%Z in
  StronglySorted Rle rqs /\ Forall (fun r => 0 <= r <= 1) rqs /\ Forall (@finite_value (fun x => x) 0 0) (since_clear ops) /\
  length (since_clear ops) = 11%nat /\ (2 * length rqs + 3 <= 11)%nat /\ nth_error rqs 2 = Some (3 / 4).
Proof. exact c114_exact_ex. Qed.

(** C114_fraction: so the fraction of the values that lies at or below the
    marker, as parameters() gives it, is within (4 Q + 1) / n of the quantile. *)
Theorem C114_fraction : forall (eps : R) (rqs : list R) (ops : list (op (exact eps))) (k : nat) (q : R),
  let F := exact eps in
  let qs := map Fin rqs in
  let l := since_clear ops in
  let n := INR (length l) in
  StronglySorted Rle rqs -> Forall (fun r => 0 <= r <= 1) rqs ->
  Forall finite_value l -> (N.of_nat (length l) < szmod)%N -> (2 * length rqs + 3 <= length l)%nat ->
  nth_error rqs k = Some q ->
  exists p h,
    nth_error (psq_parameters F (run (psq_push F qs) (psq_clear F qs) (psq_init F qs) ops)) (2 * k + 2) = Some (p, h) /\
    Rabs (IZR (Z.of_N p) / n - q) <= (4 * INR (length rqs) + 1) / n.
Proof. exact c114_fraction. Qed.
Print Assumptions C114_fraction.

(** C114_fraction_ex: a thousand values and two quantiles: within 0.009. *)
Example C114_fraction_ex : let rqs := [/ 2; 99 / 100] in
  let ops := map (fun i => Push (Fin (INR i))) (seq 0 1000) in
  StronglySorted Rle rqs /\ Forall (fun r => 0 <= r <= 1) rqs /\ Forall (@finite_value (fun x => x) 0 0) (since_clear ops) /\
  length (since_clear ops) = 1000%nat /\ (4 * INR (length rqs) + 1) / INR 1000 = 9 / 1000.
Proof. exact c114_fraction_ex. Qed.

(** C114_formats: in every IEEE format, up to 2^prec values, the position of
    the k-th quantile q is within the same constant of 1 + (n-1) q and twice
    n^2 2^-prec from the rounding of the desired positions. *)
Theorem C114_formats : forall (prec emax : Z) (qs : list (ieee prec emax)) (ops : list (op (ieee prec emax))) (k : nat) (x : ieee prec emax),
  (1 < prec)%Z -> (prec < emax)%Z ->
  let F := ieee prec emax in
  let l := since_clear ops in
  let n := INR (length l) in
  let q := ieee_real x in
  Forall (ieee_finite prec emax) qs -> StronglySorted Rle (map ieee_real qs) -> Forall (fun r => 0 <= r <= 1) (map ieee_real qs) ->
  Forall (ieee_finite prec emax) l -> (N.of_nat (length l) < szmod)%N -> (2 * length qs + 3 <= length l)%nat ->
  (Z.of_nat (length l) <= 2 ^ prec)%Z ->
  nth_error qs k = Some x ->
  exists p h,
    nth_error (psq_parameters F (run (psq_push F qs) (psq_clear F qs) (psq_init F qs) ops)) (2 * k + 2) = Some (p, h) /\
    1 + (n - 1) * q - 4 * INR (length qs - k) - 2 * bpow radix2 (- prec) * (n * n) <= IZR (Z.of_N p) <=
    1 + (n - 1) * q + 2 * INR (k + 1) + bpow radix2 (- prec) * (n * n).
Proof. exact c114_formats. Qed.
Print Assumptions C114_formats.

(** C114_formats_ex: float, the quartiles and a thousand equal values: the
    rounding adds less than 0.2 to the constant. *)
Example C114_formats_ex : let v z := ieee_of_Z 24 128 z in
  let F := ieee 24 128 in
  let qs := map (ratio_value F) [1 # 4; 1 # 2; 3 # 4]%Q in
  let ops := repeat (Push (v 7%Z)) 1000 in
  forallb (fun x => SFeqb x x) qs = true /\ Forall (ieee_finite 24 128) qs /\ map ieee_real qs = [/ 4; / 2; 3 / 4] /\
  length (since_clear ops) = 1000%nat /\ Forall (ieee_finite 24 128) (since_clear ops) /\ (2 * length qs + 3 <= 1000)%nat /\ (1000 <= 2 ^ 24)%Z /\
  2 * bpow radix2 (- 24) * (INR 1000 * INR 1000) < / 5.
Proof. exact c114_formats_ex. Qed.

(** C114_median_exact: for the median the positions of all three inner markers
    are as close to their ideal values as whole numbers allow, up to one: in exact
    arithmetic, after any n values. *)
Theorem C114_median_exact : forall (eps : R) (ops : list (op (exact eps))),
  let F := exact eps in
  let qs := [ratio_value F (1 # 2)] in
  let l := since_clear ops in
  let n := Z.of_nat (length l) in
  Forall finite_value l -> (N.of_nat (length l) < szmod)%N -> (5 <= length l)%nat ->
  exists p1 p2 p3, map (fun i => option_map fst (nth_error (psq_parameters F (run (psq_push F qs) (psq_clear F qs) (psq_init F qs) ops)) i)) [1; 2; 3]%nat =
      [Some p1; Some p2; Some p3] /\
    (n - 1 <= 4 * Z.of_N p1 <= n + 6 /\ n - 1 <= 2 * Z.of_N p2 <= n + 2 /\ 3 * n - 2 <= 4 * Z.of_N p3 <= 3 * n + 4)%Z.
Proof. exact c114_median_exact. Qed.
Print Assumptions C114_median_exact.

(** C114_median_exact_ex: eight values, of which three are before a clear(). *)
Example C114_median_exact_ex : let ops := map (fun z => Push (Fin (IZR z))) [3; 1; 4]%Z ++ Clear :: map (fun z => Push (Fin (IZR z))) [1; 5; 9; 2; 6]%Z in
  Forall (@finite_value (fun x => x) 0 0) (since_clear ops) /\ length (since_clear ops) = 5%nat.
Proof. exact c114_median_exact_ex. Qed.

(** C114_median_formats: the same holds in every IEEE format for streams of up
    to 2^(prec-2) values: no rounding error shows in the positions.  (Property C112
    shows that it fails beyond 2^(prec+4) values.) *)
Theorem C114_median_formats : forall (prec emax : Z) (ops : list (op (ieee prec emax))),
  (1 < prec)%Z -> (prec < emax)%Z ->
  let F := ieee prec emax in
  let qs := [ratio_value F (1 # 2)] in
  let l := since_clear ops in
  let n := Z.of_nat (length l) in
  Forall (ieee_finite prec emax) l -> (N.of_nat (length l) < szmod)%N -> (5 <= n <= 2 ^ (prec - 2))%Z ->
  exists p1 p2 p3, map (fun i => option_map fst (nth_error (psq_parameters F (run (psq_push F qs) (psq_clear F qs) (psq_init F qs) ops)) i)) [1; 2; 3]%nat =
      [Some p1; Some p2; Some p3] /\
    (n - 1 <= 4 * Z.of_N p1 <= n + 6 /\ n - 1 <= 2 * Z.of_N p2 <= n + 2 /\ 3 * n - 2 <= 4 * Z.of_N p3 <= 3 * n + 4)%Z.
Proof. exact c114_median_formats. Qed.
Print Assumptions C114_median_formats.

(** C114_median_formats_ex: double, six values; the inner positions are 2, 3 and 5. *)
Example C114_median_formats_ex : let F := ieee 53 1024 in
  let qs := [ratio_value F (1 # 2)] in
  let ops := pushes (map (ieee_of_Z 53 1024) [3; 1; 4; 1; 5; 9]%Z) in
  Forall (ieee_finite 53 1024) (since_clear ops) /\ (5 <= Z.of_nat (length (since_clear ops)) <= 2 ^ (53 - 2))%Z /\
  map fst (psq_parameters F (run (psq_push F qs) (psq_clear F qs) (psq_init F qs) ops)) = [1; 2; 3; 5; 6]%N.
Proof. exact c114_median_formats_ex. Qed.
