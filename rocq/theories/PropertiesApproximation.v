(** * Property theorems: Approximation

    Statements only; every proof is [exact] of a lemma in ClaimsApproximation.v.
    Generated by tools/mkprops.py. *)

From Coq Require Import Reals ZArith NArith Bool List.
From Verif Require Import Arith History SpecStats SpecBlocks SpecInequality SpecLine Cumulative Window Interim
  ExactRuns WindowRuns InterimRuns.
Import ListNotations.
Local Open Scope R_scope.
From Verif Require Import ClaimsApproximation.

(** C102_mean_line: if the last 2W values lie on a straight line (they grow by
    the same amount from one to the next), the interim mean is exactly the mean of
    the last W values, at every moment. *)
Theorem C102_mean_line : forall (eps : R) (W : nat) (ops : list (op R)) (a b : R),
  (0 < W)%nat -> (2 * N.of_nat W < szmod)%N ->
  let l := since_clear ops in
  l <> [] -> on_line a b (lastn (2 * W) l) ->
  imean_mean _ (N.of_nat W) (run_imean eps W ops) = wmean_mean _ (run_wmean eps W ops) /\
  imean_mean _ (N.of_nat W) (run_imean eps W ops) = Fin (mean (lastn W l)).
Proof. exact c102_mean_line. Qed.
Print Assumptions C102_mean_line.

(** C102_mean_line_ex: windows of four over 1, 3, 5, 7, 9, 11: both means are 8. *)
Example C102_mean_line_ex :
  let l := since_clear (pushes [1; 3; 5; 7; 9; 11]) in
  l <> [] /\ (4 < length l)%nat /\ on_line 1 2 (lastn (2 * 4) l) /\ mean (lastn 4 l) = 8 /\
  mean (prev_block 4 l) = 4 /\ mean (cur_block 4 l) = 10.
Proof. exact c102_mean_line_ex. Qed.

(** C102_mean: with s values in the current block, the interim mean differs from
    the mean of the last W values by at most 2 s (W - s) / (W (W + s)) times the
    range of the last 2W values, which is at most 6 - 4 sqrt 2 (less than 0.3432)
    times that range. *)
Theorem C102_mean : forall (eps : R) (W : nat) (ops : list (op R)) (a b : R),
  (0 < W)%nat -> (2 * N.of_nat W < szmod)%N ->
  let l := since_clear ops in
  let s := card (cur_block W l) in
  l <> [] -> all_in a b (lastn (2 * W) l) ->
  exists mi mw,
    imean_mean _ (N.of_nat W) (run_imean eps W ops) = Fin mi /\
    wmean_mean _ (run_wmean eps W ops) = Fin mw /\ mw = mean (lastn W l) /\
    ((length l <= W)%nat -> mi = mw) /\
    ((W < length l)%nat -> Rabs (mi - mw) <= 2 * s * (INR W - s) / (INR W * (INR W + s)) * (b - a)) /\
    Rabs (mi - mw) <= (6 - 4 * sqrt 2) * (b - a) /\
    Rabs (mi - mw) <= 3432 / 10000 * (b - a).
Proof. exact c102_mean. Qed.
Print Assumptions C102_mean.

(** C102_mean_ex: windows of two: after 1, 0, 1 (one value in the current block) the
    means are 5/6 and 1/2, a third of the range apart. *)
Example C102_mean_ex :
  let l := since_clear (pushes [1; 0; 1]) in
  l <> [] /\ (2 < length l)%nat /\ all_in 0 1 (lastn (2 * 2) l) /\ card (cur_block 2 l) = 1 /\
  (mean (prev_block 2 l) * (2 - 1) + mean (cur_block 2 l) * (2 * 1)) / (2 + 1) - mean (lastn 2 l) = 1 / 3 /\
  2 * 1 * (2 - 1) / (2 * (2 + 1)) = 1 / 3.
Proof. exact c102_mean_ex. Qed.

(** C102_mean_sharp: the bound is attained: for every window size W and every s
    there is a stream of zeros and ones with s values in the current block for which
    the two means differ by exactly 2 s (W - s) / (W (W + s)). *)
Theorem C102_mean_sharp : forall (eps : R) (W s : nat),
  (0 < s <= W)%nat -> (2 * N.of_nat W < szmod)%N ->
  exists l mi mw, Forall (fun x => x = 0 \/ x = 1) l /\ length (cur_block W l) = s /\ (W < length l)%nat /\
    imean_mean _ (N.of_nat W) (run_imean eps W (pushes l)) = Fin mi /\
    wmean_mean _ (run_wmean eps W (pushes l)) = Fin mw /\
    mi - mw = 2 * INR s * (INR W - INR s) / (INR W * (INR W + INR s)).
Proof. exact c102_mean_sharp. Qed.
Print Assumptions C102_mean_sharp.

(** C102_mean_sharp_ex: windows of 12 with five values in the current block: the
    factor is 35/102. *)
Example C102_mean_sharp_ex :
  (0 < 5 <= 12)%nat /\ (2 * N.of_nat 12 < szmod)%N /\
  2 * INR 5 * (INR 12 - INR 5) / (INR 12 * (INR 12 + INR 5)) = 35 / 102.
Proof. exact c102_mean_sharp_ex. Qed.

(** C102_variance: the interim variance differs from the variance of the last W
    values by at most a quarter of the squared range of the last 2W values. *)
Theorem C102_variance : forall (eps : R) (W : nat) (ops : list (op R)) (a b : R),
  (0 < W)%nat -> (N.of_nat W <= 4294967296)%N ->
  let l := since_clear ops in
  l <> [] -> all_in a b (lastn (2 * W) l) ->
  exists vi vw,
    ivar_variance _ (N.of_nat W) (run_ivar eps W ops) = Fin vi /\
    wvar_variance _ (run_wvar eps W ops) = Fin vw /\ vw = variance (lastn W l) /\
    ((length l <= W)%nat -> vi = vw) /\
    Rabs (vi - vw) <= (b - a) ^ 2 / 4.
Proof. exact c102_variance. Qed.
Print Assumptions C102_variance.

(** C102_variance_ex: windows of two, values 0, 0, 4. *)
Example C102_variance_ex :
  let l := since_clear (pushes [0; 0; 4]) in
  l <> [] /\ all_in 0 4 (lastn (2 * 2) l) /\ (2 < length l)%nat /\ variance (lastn 2 l) = 4.
Proof. exact c102_variance_ex. Qed.

(** C102_variance_sharp: a change of level between two blocks is invisible to the
    interim variance: for every even window size there is a stream of zeros and ones
    for which it is 0 while the last W values are half zeros, half ones and have
    variance 1/4. *)
Theorem C102_variance_sharp : forall (eps : R) (h : nat),
  (0 < h)%nat -> (2 * N.of_nat h <= 4294967296)%N ->
  let W := (2 * h)%nat in
  exists l, Forall (fun x => x = 0 \/ x = 1) l /\ (W < length l)%nat /\
    ivar_variance _ (N.of_nat W) (run_ivar eps W (pushes l)) = Fin 0 /\
    wvar_variance _ (run_wvar eps W (pushes l)) = Fin (1 / 4).
Proof. exact c102_variance_sharp. Qed.
Print Assumptions C102_variance_sharp.

(** C102_variance_sharp_ex: windows of two: the stream 0, 0, 1. *)
Example C102_variance_sharp_ex :
  (0 < 1)%nat /\ (2 * N.of_nat 1 <= 4294967296)%N /\
  let l := [0; 0; 1] in prev_block 2 l = [0; 0] /\ cur_block 2 l = [1] /\ variance (lastn 2 l) = 1 / 4.
Proof. exact c102_variance_sharp_ex. Qed.

(** C102_variance_line: on a straight line the interim variance is at most the
    variance of the last W values, and smaller unless the current block holds one
    value or W values or all values are equal. *)
Theorem C102_variance_line : forall (eps : R) (W : nat) (ops : list (op R)) (a b : R),
  (0 < W)%nat -> (N.of_nat W <= 4294967296)%N ->
  let l := since_clear ops in
  let s := length (cur_block W l) in
  (W < length l)%nat -> on_line a b (lastn (2 * W) l) ->
  exists vi vw,
    ivar_variance _ (N.of_nat W) (run_ivar eps W ops) = Fin vi /\
    wvar_variance _ (run_wvar eps W ops) = Fin vw /\ vw = b * b * (INR W * INR W - 1) / 12 /\
    vi <= vw /\ ((1 < s < W)%nat -> b <> 0 -> vi < vw) /\ ((s = 1 \/ s = W)%nat -> vi = vw).
Proof. exact c102_variance_line. Qed.
Print Assumptions C102_variance_line.

(** C102_variance_line_ex: windows of four over 1, 3, 5, 7, 9, 11. *)
Example C102_variance_line_ex :
  let l := since_clear (pushes [1; 3; 5; 7; 9; 11]) in
  (4 < length l)%nat /\ on_line 1 2 (lastn (2 * 4) l) /\ (1 < length (cur_block 4 l) < 4)%nat /\ (2:R) <> 0.
Proof. exact c102_variance_line_ex. Qed.
