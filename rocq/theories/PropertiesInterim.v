(** * Property theorems: Interim

    Statements only; every proof is [exact] of a lemma in ClaimsInterim.v.
    Generated by tools/mkprops.py. *)

From Coq Require Import Reals ZArith NArith Bool List.
From Coq Require Import Floats.SpecFloat.
From Verif Require Import Arith History SpecStats SpecBlocks Cumulative Interim
  ExactRuns InterimRuns.
Import ListNotations.
Local Open Scope R_scope.
From Verif Require Import ClaimsInterim.

(** C23_interim_bookkeeping: for every arithmetic, window W>0 and history,
    every interim moment and covariance filter consists of two cumulative
    filters fed with exactly the current block and the complete block before
    it; capacity() is W, size() is min(W, pushes since clear), empty() iff that
    is 0 and full() iff it is W. *)
Theorem C23_interim_bookkeeping : forall (F : num) (W : nat) (ops : list (op F)) (pops : list (op (F * F))),
  (0 < W)%nat -> (N.of_nat W < szmod)%N ->
  let w := N.of_nat W in
  let l := since_clear ops in
  let p := since_clear pops in
  let n := N.min w (N.of_nat (length l)) in
  let k := N.min w (N.of_nat (length p)) in
  let m := run (imean_push F w) (imean_clear F) (imean_init F) ops in
  let v := run (ivar_push F w) (ivar_clear F) (ivar_init F) ops in
  let s := run (iskew_push F w) (iskew_clear F) (iskew_init F) ops in
  let u := run (ikurt_push F w) (ikurt_clear F) (ikurt_init F) ops in
  let c := run (icov_push F w) (icov_clear F) (icov_init F) pops in
  let fresh_m b := run (cmean_push F) (cmean_clear F) (cmean_init F) (pushes b) in
  let fresh_v b := run (cvar_push F) (cvar_clear F) (cvar_init F) (pushes b) in
  let fresh_s b := run (cskew_push F) (cskew_clear F) (cskew_init F) (pushes b) in
  let fresh_u b := run (ckurt_push F) (ckurt_clear F) (ckurt_init F) (pushes b) in
  let fresh_c b := run (ccov_push F) (ccov_clear F) (ccov_init F) (pushes b) in
  (m = Duo (fresh_m (cur_block W l)) (fresh_m (prev_block W l)) /\
   v = Duo (fresh_v (cur_block W l)) (fresh_v (prev_block W l)) /\
   s = Duo (fresh_s (cur_block W l)) (fresh_s (prev_block W l)) /\
   u = Duo (fresh_u (cur_block W l)) (fresh_u (prev_block W l)) /\
   c = Duo (fresh_c (cur_block W p)) (fresh_c (prev_block W p))) /\
  (imean_capacity F w m = w /\ ivar_capacity F w v = w /\ iskew_capacity F w s = w /\
   ikurt_capacity F w u = w /\ icov_capacity F w c = w) /\
  (imean_size F w m = n /\ ivar_size F w v = n /\ iskew_size F w s = n /\
   ikurt_size F w u = n /\ icov_size F w c = k) /\
  (imean_empty F w m = N.eqb n 0 /\ ivar_empty F w v = N.eqb n 0 /\
   iskew_empty F w s = N.eqb n 0 /\ ikurt_empty F w u = N.eqb n 0 /\
   icov_empty F w c = N.eqb k 0) /\
  (imean_full F w m = N.eqb n w /\ ivar_full F w v = N.eqb n w /\
   iskew_full F w s = N.eqb n w /\ ikurt_full F w u = N.eqb n w /\
   icov_full F w c = N.eqb k w).
Proof. exact c23. Qed.
Print Assumptions C23_interim_bookkeeping.

(** C23_interim_bookkeeping_ex: 7 values, W = 4: current block 5,6,7,
    previous block 1,2,3,4; and 4 values: only a current block. *)
Example C23_interim_bookkeeping_ex :
  cur_block 4 [1;2;3;4;5;6;7]%Z = [5;6;7]%Z /\
  prev_block 4 [1;2;3;4;5;6;7]%Z = [1;2;3;4]%Z /\
  cur_block 4 [1;2;3;4]%Z = [1;2;3;4]%Z /\ prev_block 4 [1;2;3;4]%Z = [] /\
  cur_block 4 [1;2;3;4;5;6;7;8;9]%Z = [9]%Z /\
  prev_block 4 [1;2;3;4;5;6;7;8;9]%Z = [5;6;7;8]%Z.
Proof. exact c23_ex. Qed.

(** C24_interim_mean: for every interim moment class, mean() is 0 when
    empty, the exact mean while at most W values were pushed, afterwards
    (mp*(W-s) + ma*2s)/(W+s) where s values are in the current block; it lies
    between any bounds of the last 2W values, and equals the mean of the last W
    values whenever the number of values is a multiple of W. *)
Theorem C24_interim_mean : forall (eps : R) (W : nat) (ops : list (op R)) (v : xreal),
  (0 < W)%nat -> (2 * N.of_nat W < szmod)%N ->
  let w := N.of_nat W in
  let l := since_clear ops in
  In v [imean_mean _ w (run_imean eps W ops); ivar_mean _ w (run_ivar eps W ops);
        iskew_mean _ w (run_iskew eps W ops); ikurt_mean _ w (run_ikurt eps W ops)] ->
  (l = [] -> v = Fin 0) /\
  ((0 < length l <= W)%nat -> v = Fin (mean l)) /\
  ((W < length l)%nat ->
   let s := card (cur_block W l) in
   v = Fin ((mean (prev_block W l) * (INR W - s) + mean (cur_block W l) * (2 * s))
            / (INR W + s))) /\
  (l <> [] -> exists r, v = Fin r /\
   forall lo hi, Forall (fun x => lo <= x <= hi) (lastn (2 * W) l) -> lo <= r <= hi) /\
  (forall k, (0 < k)%nat -> length l = (k * W)%nat -> v = Fin (mean (lastn W l))).
Proof. exact c24. Qed.
Print Assumptions C24_interim_mean.

(** C24_interim_mean_ex: W = 2; after 1,3,5 the mean is
    (2*(2-1) + 5*2)/(2+1) = 4. *)
Example C24_interim_mean_ex :
  let l := since_clear [Push 9; Clear; Push 1; Push 3; Push 5] in
  (2 < length l)%nat /\ cur_block 2 l = [5] /\ prev_block 2 l = [1; 3] /\
  imean_mean _ 2 (run_imean 1 2 [Push 9; Clear; Push 1; Push 3; Push 5]) = Fin 4.
Proof. exact c24_ex. Qed.

(** C25_interim_variance: for every W up to 2^32 and non-empty history,
    variance() of every interim class is the exact variance while at most W
    values were pushed; afterwards, with s values in the current block, it is
    the previous block's variance if s = 1 and otherwise
    ((W-s+1)^2*vp + 2(s-1)*va)/((W-s+1)^2 + 2(s-1)): a convex combination, so it
    lies between the two block variances, is never negative and is 0 when the
    last 2W values are equal. *)
Theorem C25_interim_variance : forall (eps : R) (W : nat) (ops : list (op R)) (v : xreal),
  (0 < W)%nat -> (N.of_nat W <= 4294967296)%N ->
  let w := N.of_nat W in
  let l := since_clear ops in
  let vp := variance (prev_block W l) in
  let va := variance (cur_block W l) in
  let s := card (cur_block W l) in
  let wp := (INR W - s + 1) ^ 2 in
  let wa := 2 * (s - 1) in
  l <> [] ->
  In v [ivar_variance _ w (run_ivar eps W ops); iskew_variance _ w (run_iskew eps W ops);
        ikurt_variance _ w (run_ikurt eps W ops)] ->
  ((length l <= W)%nat -> v = Fin (variance l)) /\
  ((W < length l)%nat ->
   v = Fin ((wp * vp + wa * va) / (wp + wa)) /\ 0 < wp /\ 0 <= wa) /\
  exists r, v = Fin r /\ 0 <= r /\
   ((W < length l)%nat -> Rmin vp va <= r <= Rmax vp va) /\
   (forall c, constant c (lastn (2 * W) l) -> r = 0).
Proof. exact c25. Qed.
Print Assumptions C25_interim_variance.

(** C25_interim_variance_ex: W = 2, values 0,2,1,5: previous block variance
    1, current block variance 4, result (1*1+2*4)/3 = 3. *)
Example C25_interim_variance_ex :
  let ops := [Push 0; Push 2; Push 1; Push 5] in
  since_clear ops <> [] /\ (2 < length (since_clear ops))%nat /\
  ivar_variance _ 2 (run_ivar 1 2 ops) = Fin 3.
Proof. exact c25_ex. Qed.

(** C26_interim_skewness_kurtosis: for every W (below 2^63 for skewness, up
    to 2^32+1 for kurtosis), skewness() and kurtosis() are the cumulative
    filter's value of the data while at most W values were pushed; afterwards,
    with s values in the current block, the previous block's value if s = 1 and
    otherwise ((W-s+1)*p + 2(s-1)*a)/(W+s-1) for the block values p and a (0 when
    the block's central sum is below epsilon), which lies between p and a. *)
Theorem C26_interim_skewness_kurtosis : forall (eps : R) (W : nat) (ops : list (op R)) (v : xreal) (f : list R -> R),
  0 < eps -> (0 < W)%nat -> (2 * N.of_nat W < szmod)%N ->
  let w := N.of_nat W in
  let l := since_clear ops in
  let skew b := cut eps (csum 3 b) (skewness b) in
  let kurt b := cut eps (csum 4 b) (kurtosis b) in
  (v = iskew_skewness _ w (run_iskew eps W ops) /\ f = skew \/
   v = ikurt_skewness _ w (run_ikurt eps W ops) /\ f = skew \/
   (w <= 4294967297)%N /\ v = ikurt_kurtosis _ w (run_ikurt eps W ops) /\ f = kurt) ->
  let p := f (prev_block W l) in
  let a := f (cur_block W l) in
  let s := card (cur_block W l) in
  ((length l <= W)%nat -> v = Fin (f l)) /\
  ((W < length l)%nat -> exists r, v = Fin r /\
   r = ((INR W - s + 1) * p + 2 * (s - 1) * a) / (INR W + s - 1) /\
   Rmin p a <= r <= Rmax p a).
Proof. exact c26. Qed.
Print Assumptions C26_interim_skewness_kurtosis.

(** C26_interim_skewness_kurtosis_ex: W = 4, a right-skewed block above
    epsilon followed by part of a block. *)
Example C26_interim_skewness_kurtosis_ex :
  let l := since_clear [Push 0; Push 0; Push 0; Push 4; Push 0; Push 3] in
  (4 < length l)%nat /\ prev_block 4 l = [0; 0; 0; 4] /\ cur_block 4 l = [0; 3] /\
  eps64 <= csum 3 (prev_block 4 l) /\ eps64 <= csum 4 (cur_block 4 l).
Proof. exact c26_ex. Qed.

(** C27_interim_covariance: for every W up to 2^32 and non-empty history of
    pairs, variance() of interim::covariance is the exact covariance while at
    most W pairs were pushed, afterwards the convex combination of the two block
    covariances with the weights of C25; on pairs (x,x) it equals the interim
    variance of x; when empty it is 0. *)
Theorem C27_interim_covariance : forall (eps : R) (W : nat) (ops : list (op (R * R))),
  (0 < W)%nat -> (N.of_nat W <= 4294967296)%N ->
  let w := N.of_nat W in
  let l := since_clear ops in
  let v := icov_variance _ w (run_icov eps W ops) in
  let cp := covariance (prev_block W l) in
  let ca := covariance (cur_block W l) in
  let s := card (cur_block W l) in
  let wp := (INR W - s + 1) ^ 2 in
  let wa := 2 * (s - 1) in
  (l = [] -> v = Fin 0) /\
  (l <> [] -> (length l <= W)%nat -> v = Fin (covariance l)) /\
  ((W < length l)%nat ->
   v = Fin ((wp * cp + wa * ca) / (wp + wa)) /\ 0 < wp /\ 0 <= wa) /\
  (forall xops : list (op R), since_clear xops <> [] ->
   icov_variance _ w (run_icov eps W (map (op_map (fun x => (x, x))) xops)) =
   ivar_variance _ w (run_ivar eps W xops)).
Proof. exact c27. Qed.
Print Assumptions C27_interim_covariance.

(** C27_interim_covariance_ex: W = 2, four pairs: block covariances 1 and 2,
    result (1*1+2*2)/3. *)
Example C27_interim_covariance_ex :
  let ops := [Push (0, 0); Push (2, 2); Push (0, 1); Push (2, 5)] in
  (2 < length (since_clear ops))%nat /\
  icov_variance _ 2 (run_icov 1 2 ops) = Fin (5 / 3).
Proof. exact c27_ex. Qed.

(** C28_interim_regression_collinear: for every W up to 2^32 and history of
    pushes, if all pairs of the current and previous block lie on a line
    y = a + b*x and x is not constant within one of the two blocks, then slope()
    is b and at(p) is a + b*p for every p; if x is constant within each block
    slope() is 0. *)
Theorem C28_interim_regression_collinear : forall (eps : R) (W : nat) (l : list (R * R)) (a b : R),
  (0 < W)%nat -> (N.of_nat W <= 4294967296)%N -> l <> [] ->
  let w := N.of_nat W in
  let s := run_ireg eps W (pushes l) in
  let cur := cur_block W l in
  let prev := prev_block W l in
  collinear a b cur -> collinear a b prev ->
  ((forall c, ~ constant c (xs cur)) \/ (forall c, ~ constant c (xs prev)) ->
   ireg_slope _ w s = Fin b /\
   forall p, ireg_at _ w s (Fin p) = Fin (a + b * p)) /\
  (forall c d, constant c (xs cur) -> constant d (xs prev) ->
   ireg_slope _ w s = Fin 0).
Proof. exact c28. Qed.
Print Assumptions C28_interim_regression_collinear.

(** C28_interim_regression_collinear_ex: W = 2, points on y = 1 + 3x with
    varying x, after points on another line have left both blocks. *)
Example C28_interim_regression_collinear_ex :
  let l := [(0, 5); (1, 9); (0, 1); (2, 7); (5, 16)] in
  collinear 1 3 (cur_block 2 l) /\ collinear 1 3 (prev_block 2 l) /\
  (forall c, ~ constant c (xs (prev_block 2 l))).
Proof. exact c28_ex. Qed.

(** C29_interim_clear_refuted: interim::regression::clear() leaves the mean
    of y behind: with W = 2, pushing (0,10), clearing and pushing (0,0) gives
    at(0) = 5 where a new filter gives 0. *)
Theorem C29_interim_clear_refuted : exists (before after : list (op (b64 * b64))),
  let run := run (ireg_push b64num 2) (ireg_clear b64num) (ireg_init b64num) in
  ireg_at b64num 2 (run (before ++ Clear :: after)) (b64_of_Z 0) = b64_of_Z 5 /\
  ireg_at b64num 2 (run after) (b64_of_Z 0) = b64_of_Z 0.
Proof. exact c29_refuted. Qed.
Print Assumptions C29_interim_clear_refuted.

(** C29_interim_clear_partial: for every arithmetic and window, after
    clear() the interim moments and covariance are in the state of a new filter,
    so every later call behaves as on a new one; for the regression this holds
    of size() and slope(). Missing: at() of the regression (refuted). *)
Theorem C29_interim_clear_partial : forall (F : num) (w : N)
    (before after : list (op F)) (pbefore pafter : list (op (F * F))),
  run (imean_push F w) (imean_clear F) (imean_init F) (before ++ Clear :: after) =
  run (imean_push F w) (imean_clear F) (imean_init F) after /\
  run (ivar_push F w) (ivar_clear F) (ivar_init F) (before ++ Clear :: after) =
  run (ivar_push F w) (ivar_clear F) (ivar_init F) after /\
  run (iskew_push F w) (iskew_clear F) (iskew_init F) (before ++ Clear :: after) =
  run (iskew_push F w) (iskew_clear F) (iskew_init F) after /\
  run (ikurt_push F w) (ikurt_clear F) (ikurt_init F) (before ++ Clear :: after) =
  run (ikurt_push F w) (ikurt_clear F) (ikurt_init F) after /\
  run (icov_push F w) (icov_clear F) (icov_init F) (pbefore ++ Clear :: pafter) =
  run (icov_push F w) (icov_clear F) (icov_init F) pafter /\
  (let run := run (ireg_push F w) (ireg_clear F) (ireg_init F) in
   ireg_size F w (run (pbefore ++ Clear :: pafter)) = ireg_size F w (run pafter) /\
   ireg_slope F w (run (pbefore ++ Clear :: pafter)) = ireg_slope F w (run pafter)).
Proof. exact c29_partial. Qed.
Print Assumptions C29_interim_clear_partial.

(** C29_interim_clear_partial_ex: a history on which clear() matters. *)
Example C29_interim_clear_partial_ex :
  let run := run (imean_push b64num 2) (imean_clear b64num) (imean_init b64num) in
  let one := Push (b64_of_Z 1) in let three := Push (b64_of_Z 3) in
  imean_mean b64num 2 (run [one; Clear; three]) = b64_of_Z 3 /\
  imean_mean b64num 2 (run [one; three]) = b64_of_Z 2.
Proof. exact c29_ex. Qed.
