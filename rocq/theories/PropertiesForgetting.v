(** * Property theorems: Forgetting

    Statements only; every proof is [exact] of a lemma in ClaimsForgetting.v.
    Generated by tools/mkprops.py. *)

From Coq Require Import Reals ZArith NArith List Bool.
From Coq Require Import Floats.SpecFloat.
From Flocq Require Import Core.
From Verif Require Import Arith History SpecStats SpecDecay SpecImpulse Decay DecayRuns Impulse ImpulseRuns Binary64.
Import ListNotations.
Local Open Scope R_scope.
From Verif Require Import ClaimsForgetting.

(** C91_decay_mean: two decay filters with the same factor that have seen
    different histories (values since the last clear between lo and hi) and
    then receive the same values have means that differ by at most
    [(hi - lo) (1 - f)^n] after [n] of them. *)
Theorem C91_decay_mean : forall (eps f lo hi : R) (ops1 ops2 : list (op R)) (t : list R),
  0 < f <= 1 -> t <> [] ->
  Forall (fun x => lo <= x <= hi) (since_clear ops1) ->
  Forall (fun x => lo <= x <= hi) (since_clear ops2) ->
  Forall (fun x => lo <= x <= hi) t ->
  exists m1 m2,
    dmean_mean (exact eps) (run_dmean eps f (ops1 ++ pushes t)) = Fin m1 /\
    dmean_mean (exact eps) (run_dmean eps f (ops2 ++ pushes t)) = Fin m2 /\
    Rabs (m1 - m2) <= (hi - lo) * (1 - f) ^ length t.
Proof. exact c91_decay_mean. Qed.
Print Assumptions C91_decay_mean.

(** C91_decay_mean_ex: factor 1/2, histories 8, clear, 4 and 0, 0; then
    2, 2, 2: the means differ by at most 4/8. *)
Example C91_decay_mean_ex :
  let ops1 := [Push 8; Clear; Push 4] in
  let ops2 := [Push 0; Push 0] in
  let t := [2; 2; 2] in
  0 < 1 / 2 <= 1 /\ t <> [] /\
  Forall (fun x => 0 <= x <= 4) (since_clear ops1) /\
  Forall (fun x => 0 <= x <= 4) (since_clear ops2) /\
  Forall (fun x => 0 <= x <= 4) t /\ (4 - 0) * (1 - 1 / 2) ^ length t = 1 / 2.
Proof. exact c91_decay_mean_ex. Qed.

(** C91_decay_variance: the same for variance(): for filters that have not
    been cleared, the difference after [n] common values is at most
    [(hi - lo)^2 (2 n + 1) q^n], where [1 - q] is the smaller of the two factors. *)
Theorem C91_decay_variance : forall (eps fm fv q lo hi : R) (l1 l2 t : list R),
  0 < fm <= 1 -> 0 < fv <= 1 -> q = Rmax (1 - fm) (1 - fv) -> t <> [] ->
  Forall (fun x => lo <= x <= hi) l1 -> Forall (fun x => lo <= x <= hi) l2 ->
  Forall (fun x => lo <= x <= hi) t ->
  exists v1 v2,
    dvar_variance (exact eps) (run_dvar eps fm fv (pushes (l1 ++ t))) = Fin v1 /\
    dvar_variance (exact eps) (run_dvar eps fm fv (pushes (l2 ++ t))) = Fin v2 /\
    Rabs (v1 - v2) <= (hi - lo) ^ 2 * (2 * INR (length t) + 1) * q ^ length t.
Proof. exact c91_decay_variance. Qed.
Print Assumptions C91_decay_variance.

(** C91_decay_variance_ex: factors 1/2 and 1/4. *)
Example C91_decay_variance_ex :
  0 < 1 / 2 <= 1 /\ 0 < 1 / 4 <= 1 /\ 3 / 4 = Rmax (1 - 1 / 2) (1 - 1 / 4) /\
  Forall (fun x => 0 <= x <= 4) [0; 4; 1] /\ Forall (fun x => 0 <= x <= 4) [3] /\
  Forall (fun x => 0 <= x <= 4) [2; 1; 2].
Proof. exact c91_decay_variance_ex. Qed.

(** C91_decay_binary64: the same in binary64 up to twice the error bound of
    C67, which does not depend on the length of the histories. *)
Theorem C91_decay_binary64 : forall (f : b64) (l1 l2 t : list b64) (M lo hi : R),
  b64_finite f -> bpow radix2 (-46) <= b64_real f <= 1 -> t <> [] -> M <= bpow radix2 1018 ->
  Forall (fun x => b64_finite x /\ Rabs (b64_real x) <= M) (l1 ++ t) ->
  Forall (fun x => b64_finite x /\ Rabs (b64_real x) <= M) (l2 ++ t) ->
  Forall (fun x => lo <= b64_real x <= hi) (l1 ++ t) ->
  Forall (fun x => lo <= b64_real x <= hi) (l2 ++ t) ->
  let mean l := dmean_mean b64num (run (dmean_push b64num) (dmean_clear b64num) (dmean_init b64num f) (pushes (l ++ t))) in
  let E := 209 * bpow radix2 (-53) * M / b64_real f +
    57 * bpow radix2 (-1075) * (1 + M) / (b64_real f * b64_real f) in
  b64_finite (mean l1) /\ b64_finite (mean l2) /\
  Rabs (b64_real (mean l1) - b64_real (mean l2)) <= (hi - lo) * (1 - b64_real f) ^ length t + 2 * E.
Proof. exact c91_decay_binary64. Qed.
Print Assumptions C91_decay_binary64.

(** C91_decay_binary64_ex: factor 1/8, histories 1.5 and 2.5, 4, then 4, 0.5. *)
Example C91_decay_binary64_ex :
  let d k := @ndiv b64num (b64_of_Z k) (b64_of_Z 8) in
  let l1 := [d 12%Z] in
  let l2 := [d 20%Z; d 32%Z] in
  let t := [d 32%Z; d 4%Z] in
  b64_finite (d 1%Z) /\ bpow radix2 (-46) <= b64_real (d 1%Z) <= 1 /\ t <> [] /\ 4 <= bpow radix2 1018 /\
  Forall (fun x => b64_finite x /\ Rabs (b64_real x) <= 4) (l1 ++ t) /\
  Forall (fun x => b64_finite x /\ Rabs (b64_real x) <= 4) (l2 ++ t) /\
  Forall (fun x => 1 / 2 <= b64_real x <= 4) (l1 ++ t) /\
  Forall (fun x => 1 / 2 <= b64_real x <= 4) (l2 ++ t).
Proof. exact c91_decay_binary64_ex. Qed.

(** C91_iir: two recursive filters whose feedback coefficients are smaller
    than [|scale|] in total, with different histories of values of magnitude at
    most [M], then the same [n] values: each further [length a] of them reduce
    the difference of the outputs by the factor [rho = sum |a| / |scale|]. *)
Theorem C91_iir : forall (eps : R) (b a : list R) (scale : R) (ops1 ops2 : list (op R)) (t : list R) (M : R) (i : nat),
  b <> [] -> a <> [] -> abs_sum a < Rabs scale -> t <> [] ->
  Forall (fun x => Rabs x <= M) (since_clear ops1) -> Forall (fun x => Rabs x <= M) (since_clear ops2) ->
  Forall (fun x => Rabs x <= M) t ->
  (length b + i * length a <= length t)%nat ->
  exists v1 v2,
    iir_value (exact eps) (run_iir eps b a scale (ops1 ++ pushes t)) = Fin v1 /\
    iir_value (exact eps) (run_iir eps b a scale (ops2 ++ pushes t)) = Fin v2 /\
    Rabs (v1 - v2) <= (abs_sum a / Rabs scale) ^ S i * (abs_sum b * (2 * M) / (Rabs scale - abs_sum a)).
Proof. exact c91_iir. Qed.
Print Assumptions C91_iir.

(** C91_iir_ex: y_n = (x_n + y_(n-1)) / 2, one clear. *)
Example C91_iir_ex :
  let ops1 := [Push 1; Push (-1)] in
  let ops2 := [Push 3; Clear; Push 1; Push 1; Push 1] in
  let t := [1; 0; 1; 0] in
  [1] <> [] /\ [-1] <> [] /\ abs_sum [-1] < Rabs 2 /\ t <> [] /\
  Forall (fun x => Rabs x <= 1) (since_clear ops1) /\ Forall (fun x => Rabs x <= 1) (since_clear ops2) /\
  Forall (fun x => Rabs x <= 1) t /\ (1 + 3 * 1 <= length t)%nat /\
  (abs_sum [-1] / Rabs 2) ^ 4 * (abs_sum [1] * (2 * 1) / (Rabs 2 - abs_sum [-1])) = 1 / 8.
Proof. exact c91_iir_ex. Qed.

(** C91_iir_settles: such a filter that receives the same value [c] over and
    over settles at [c * sum b / (scale + sum a)], at the same pace and whatever
    it has seen before. *)
Theorem C91_iir_settles : forall (eps : R) (b a : list R) (scale : R) (ops : list (op R)) (c : R) (m : nat) (M : R) (i : nat),
  b <> [] -> a <> [] -> abs_sum a < Rabs scale ->
  Forall (fun x => Rabs x <= M) (since_clear ops) -> Rabs c <= M ->
  (length b + i * length a <= m)%nat ->
  scale + Rsum a <> 0 /\
  exists v,
    iir_value (exact eps) (run_iir eps b a scale (ops ++ pushes (repeat c m))) = Fin v /\
    Rabs (v - c * Rsum b / (scale + Rsum a)) <=
      (abs_sum a / Rabs scale) ^ S i * (2 * (abs_sum b * M / (Rabs scale - abs_sum a))).
Proof. exact c91_iir_settles. Qed.
Print Assumptions C91_iir_settles.

(** C91_iir_settles_ex: y_n = (x_n + y_(n-1)) / 2 settles at the value itself;
    after 11 of them it is within 1/256 times 8. *)
Example C91_iir_settles_ex :
  [1] <> [] /\ [-1] <> [] /\ abs_sum [-1] < Rabs 2 /\
  Forall (fun x => Rabs x <= 8) (since_clear [Push 8; Push (-8)]) /\ Rabs 3 <= 8 /\
  (1 + 10 * 1 <= 11)%nat /\ 3 * Rsum [1] / (2 + Rsum [-1]) = 3.
Proof. exact c91_iir_settles_ex. Qed.

(** C91_fir_settles: a finite filter that has received the same value as many
    times as it has coefficients returns that value times the sum of the
    coefficients, whatever it has seen before. *)
Theorem C91_fir_settles : forall (eps : R) (c : list R) (ops : list (op R)) (x : R) (m : nat),
  c <> [] -> (length c <= m)%nat ->
  fir_value (exact eps) (run_fir eps c (ops ++ pushes (repeat x m))) = Fin (x * Rsum c).
Proof. exact c91_fir_settles. Qed.
Print Assumptions C91_fir_settles.

(** C91_fir_settles_ex: a moving average of four values. *)
Example C91_fir_settles_ex :
  let c := [1/4; 1/4; 1/4; 1/4] in
  c <> [] /\ (length c <= 4)%nat /\ 7 * Rsum c = 7.
Proof. exact c91_fir_settles_ex. Qed.

(** C91_iir_binary64: the same in binary64 up to twice the error bound [E] of
    C69, under its conditions. *)
Theorem C91_iir_binary64 : forall (b a : list b64) (scale : b64) (ops1 ops2 : list (op b64)) (t : list b64) (M : R) (i : nat),
  let bv := map b64_real b in
  let av := map b64_real a in
  let s := Rabs (b64_real scale) in
  let u := bpow radix2 (-53) in
  let eta := bpow radix2 (-1075) in
  b <> [] -> a <> [] -> t <> [] ->
  Forall b64_finite b -> Forall b64_finite a -> b64_finite scale ->
  Forall (fun x => b64_finite x /\ Rabs (b64_real x) <= M) (since_clear ops1) ->
  Forall (fun x => b64_finite x /\ Rabs (b64_real x) <= M) (since_clear ops2) ->
  Forall (fun x => b64_finite x /\ Rabs (b64_real x) <= M) t ->
  abs_sum av < s ->
  let r := INR (length b + length a) in
  let rho := abs_sum av / s in
  let Y := abs_sum bv * M / (s - abs_sum av) in
  let E := 2 * ((8 * r + 19) * u * Y + (24 * r + 2) * eta / s + eta) / (1 - rho) in
  2 * (8 * r + 19) * u <= 1 - rho ->
  4 * (s * (Y + E)) + (12 * r + 2) * eta <= bpow radix2 1023 ->
  4 * (Y + E) + (12 * r + 2) * eta / s <= bpow radix2 1023 ->
  (length b + i * length a <= length t)%nat ->
  let value ops := iir_value b64num (iir_run b64num b a scale (ops ++ pushes t)) in
  b64_finite (value ops1) /\ b64_finite (value ops2) /\
  Rabs (b64_real (value ops1) - b64_real (value ops2)) <= rho ^ S i * (2 * Y) + 2 * E.
Proof. exact c91_iir_binary64. Qed.
Print Assumptions C91_iir_binary64.

(** C91_iir_binary64_ex: the exponential smoother with feedback one half; four
    common values after different histories. *)
Example C91_iir_binary64_ex :
  let z := b64_of_Z in
  let half := @ndiv b64num (z 1%Z) (z 2%Z) in
  let ops1 := [Push (z 99%Z); Clear; Push (z 1%Z); Push (z (-10)%Z); Push (z 3%Z)] in
  let ops2 := [Push (z 10%Z)] in
  let t := [z 1%Z; z 2%Z; z 3%Z; z 4%Z] in
  let u := bpow radix2 (-53) in
  let eta := bpow radix2 (-1075) in
  b64_finite half /\ b64_finite (z 1%Z) /\
  Forall (fun x => b64_finite x /\ Rabs (b64_real x) <= 10) (since_clear ops1) /\
  Forall (fun x => b64_finite x /\ Rabs (b64_real x) <= 10) (since_clear ops2) /\
  Forall (fun x => b64_finite x /\ Rabs (b64_real x) <= 10) t /\
  abs_sum (map b64_real [half]) = / 2 /\ abs_sum (map b64_real [z 1%Z]) = 1 /\ Rabs (b64_real (z 1%Z)) = 1 /\
  (length [z 1%Z] + 3 * length [half] <= length t)%nat /\
  let r := INR 2 in
  let Y := 1 * 10 / (1 - / 2) in
  let E := 2 * ((8 * r + 19) * u * Y + (24 * r + 2) * eta / 1 + eta) / (1 - / 2 / 1) in
  2 * (8 * r + 19) * u <= 1 - / 2 / 1 /\
  4 * (1 * (Y + E)) + (12 * r + 2) * eta <= bpow radix2 1023 /\
  4 * (Y + E) + (12 * r + 2) * eta / 1 <= bpow radix2 1023 /\
  (/ 2 / 1) ^ 4 * (2 * Y) + 2 * E < 3.
Proof. exact c91_iir_binary64_ex. Qed.
