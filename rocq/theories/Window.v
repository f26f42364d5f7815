(** * Model of include/trial/online/window/ *)

From Coq Require Import ZArith NArith Bool List.
From Verif Require Import Arith Buffer.
Import ListNotations.

Section Window.
Variable F : num.
Variable W : nat.  (* template parameter N / Window *)
Local Open Scope num_scope.

(** ** basic_moment<T, N, with::mean> *)

(** window/moment.hpp:52-56 *)
Record wmean : Type := WMean { wm_window : list F; wm_mean : F }.

(** window/moment.hpp:54-55 *)
Definition wmean_init : wmean := WMean [] n0.

(** window/detail/moment.ipp:26-31.  [circular::array::capacity()] is the
    template argument. *)
Definition wmean_capacity (s : wmean) : N := N.of_nat W.

(** window/detail/moment.ipp:34-38 *)
Definition wmean_clear (s : wmean) : wmean := WMean [] n0.

(** window/detail/moment.ipp:41-44 *)
Definition wmean_empty (s : wmean) : bool := rb_empty (wm_window s).

(** window/detail/moment.ipp:47-50 *)
Definition wmean_size (s : wmean) : N := rb_size (wm_window s).

(** window/detail/moment.ipp:53-56 *)
Definition wmean_full (s : wmean) : bool := rb_full W (wm_window s).

(** window/detail/moment.ipp:59-62 *)
Definition wmean_mean (s : wmean) : F := wm_mean s.

(** Precondition of [member.window.front()] at
    window/detail/moment.ipp:69,101: evaluated only when full, and requires a
    non-empty buffer.  [false] is undefined behaviour. *)
Definition wmean_push_ok (s : wmean) : bool :=
  implb (wmean_full s) (negb (rb_empty (wm_window s))).

(** window/detail/moment.ipp:65-76.  (The value used for [front()] of an empty
    buffer is irrelevant under [wmean_push_ok].) *)
Definition wmean_push (s : wmean) (input : F) : wmean :=
  let m :=
    if wmean_full s
    then match rb_front (wm_window s) with
         | Some front => wm_mean s + (input - front) / nofsz (wmean_size s)
         | None => n0
         end
    else wm_mean s + (input - wm_mean s) / nofsz (szadd (wmean_size s) 1) in
  WMean (rb_push_back W (wm_window s) input) m.

(** ** basic_moment<T, N, with::variance> *)

(** window/moment.hpp:60-61,88-91 *)
Record wvar : Type := WVar { wv_super : wmean; wv_sum : F }.

(** window/detail/moment.ipp:83-86, window/moment.hpp:90 *)
Definition wvar_init : wvar := WVar wmean_init n0.

(** window/detail/moment.ipp:89-93 *)
Definition wvar_clear (s : wvar) : wvar := WVar (wmean_clear (wv_super s)) n0.

(** window/moment.hpp:76-80 ([using super::...]) *)
Definition wvar_capacity (s : wvar) : N := wmean_capacity (wv_super s).
(** window/moment.hpp:77 *)
Definition wvar_empty (s : wvar) : bool := wmean_empty (wv_super s).
(** window/moment.hpp:78 *)
Definition wvar_full (s : wvar) : bool := wmean_full (wv_super s).
(** window/moment.hpp:79 *)
Definition wvar_mean (s : wvar) : F := wmean_mean (wv_super s).
(** window/moment.hpp:80 *)
Definition wvar_size (s : wvar) : N := wmean_size (wv_super s).
(** Precondition of [front()] at window/detail/moment.ipp:101 *)
Definition wvar_push_ok (s : wvar) : bool := wmean_push_ok (wv_super s).

(** window/detail/moment.ipp:137-140; [new_mean] is the value of
    [super::mean()] at the call. *)
Definition wvar_delta (input old_mean new_mean : F) : F :=
  (input - old_mean) * (input - new_mean).

(** window/detail/moment.ipp:96-113 *)
Definition wvar_push (s : wvar) (input : F) : wvar :=
  let old_mean := wmean_mean (wv_super s) in
  let window := wm_window (wv_super s) in
  if wmean_full (wv_super s)
  then match rb_front window with
       | Some old_input =>
         let new_mean :=
           wm_mean (wv_super s)
           + (input - old_input) / nofsz (wvar_size s) in
         let super := WMean (rb_push_back W window input) new_mean in
         let sum1 := wv_sum s + wvar_delta input old_mean new_mean in
         WVar super (sum1 - wvar_delta old_input old_mean new_mean)
       | None => s
       end
  else
    let new_mean :=
      wm_mean (wv_super s)
      + (input - wm_mean (wv_super s)) / nofsz (szadd (wvar_size s) 1) in
    let super := WMean (rb_push_back W window input) new_mean in
    WVar super (wv_sum s + wvar_delta input old_mean new_mean).

(** window/detail/moment.ipp:116-123 *)
Definition wvar_variance (s : wvar) : F :=
  let count := wvar_size s in
  if N.ltb 0 count then nmax n0 (wv_sum s / nofsz count) else n0.

(** window/detail/moment.ipp:126-134 *)
Definition wvar_unbiased_variance (s : wvar) : F :=
  let count := wvar_size s in
  if N.ltb 1 count then nmax n0 (wv_sum s / nofsz (szsub count 1)) else n0.

(** ** basic_comoment<T, W, with::variance> *)

(** window/comoment.hpp:49-55 *)
Record wcov : Type :=
  WCov { wc_window : list (F * F); wc_x : F; wc_y : F; wc_xy : F }.

(** window/comoment.hpp:49-55, default initialisation *)
Definition wcov_init : wcov := WCov [] n0 n0 n0.

(** window/detail/comoment.ipp:19-22 *)
Definition wcov_size (s : wcov) : N := rb_size (wc_window s).

(** window/detail/comoment.ipp:25-29 *)
Definition wcov_clear (s : wcov) : wcov := WCov [] n0 n0 n0.

(** Precondition of [window.front()] at window/detail/comoment.ipp:36-37. *)
Definition wcov_push_ok (s : wcov) : bool :=
  implb (rb_full W (wc_window s)) (negb (rb_empty (wc_window s))).

(** window/detail/comoment.ipp:32-49 *)
Definition wcov_push (s : wcov) (p : F * F) : wcov :=
  let (x, y) := p in
  let window' := rb_push_back W (wc_window s) (x, y) in
  if rb_full W (wc_window s)
  then match rb_front (wc_window s) with
       | Some (front_x, front_y) =>
         WCov window'
              (wc_x s + (x - front_x))
              (wc_y s + (y - front_y))
              (wc_xy s + (x * y - front_x * front_y))
       | None => s
       end
  else WCov window' (wc_x s + x) (wc_y s + y) (wc_xy s + x * y).

(** window/detail/comoment.ipp:52-55 *)
Definition wcov_cosum (s : wcov) : F :=
  wc_xy s - (wc_x s * wc_y s) / nofsz (wcov_size s).

(** window/detail/comoment.ipp:58-63 *)
Definition wcov_variance (s : wcov) : F :=
  if N.ltb 0 (wcov_size s) then wcov_cosum s / nofsz (wcov_size s) else n0.

(** window/detail/comoment.ipp:66-71 *)
Definition wcov_unbiased_variance (s : wcov) : F :=
  if N.ltb 1 (wcov_size s)
  then wcov_cosum s / nofsz (szsub (wcov_size s) 1) else n0.

(** ** regression<T, W> *)

(** window/regression.hpp:27-28,60 *)
Record wreg : Type := WReg { wr_cov : wcov; wr_x : wvar }.

(** window/regression.hpp:60, default initialisation *)
Definition wreg_init : wreg := WReg wcov_init wvar_init.

(** window/detail/regression.ipp:19-23 *)
Definition wreg_clear (s : wreg) : wreg :=
  WReg (wcov_clear (wr_cov s)) (wvar_clear (wr_x s)).

(** window/detail/regression.ipp:26-29 *)
Definition wreg_size (s : wreg) : N := wcov_size (wr_cov s).

(** window/detail/regression.ipp:32-36 *)
Definition wreg_push (s : wreg) (p : F * F) : wreg :=
  WReg (wcov_push (wr_cov s) p) (wvar_push (wr_x s) (fst p)).

(** window/detail/regression.ipp:46-52 *)
Definition wreg_slope (s : wreg) : F :=
  let divisor := wvar_variance (wr_x s) in
  if divisor =? n0 then n0 else wcov_variance (wr_cov s) / divisor.

(** window/detail/regression.ipp:39-43 *)
Definition wreg_at (s : wreg) (position : F) : F :=
  let y_mean := wc_y (wr_cov s) / nofsz (wcov_size (wr_cov s)) in
  y_mean - wreg_slope s * (wvar_mean (wr_x s) - position).

End Window.
