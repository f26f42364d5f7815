(** * The window covariance compiled with contracted expressions

    window/detail/comoment.ipp:40 subtracts two products; a compiler can fuse only one
    of them with the subtraction, which one is its choice ([first]).  The sums of x and y
    contain no product, and in window/detail/comoment.ipp:52-55 the product is divided
    before it is subtracted. *)

From Coq Require Import List.
From Verif Require Import Arith Buffer Window Contracted.
Local Open Scope num_scope.

(** window/detail/comoment.ipp:32-49 *)
Definition wcov_push_fma (F : num) (U : fused F) (first : bool) (W : nat) (s : wcov F) (p : F * F) : wcov F :=
  let (x, y) := p in
  let window' := rb_push_back W (wc_window F s) (x, y) in
  if rb_full W (wc_window F s)
  then match rb_front (wc_window F s) with
       | Some (front_x, front_y) =>
         WCov F window'
              (wc_x F s + (x - front_x))
              (wc_y F s + (y - front_y))
              (wc_xy F s + (if first then fms U x y (front_x * front_y)
                            else fnma U front_x front_y (x * y)))
       | None => s
       end
  else WCov F window' (wc_x F s + x) (wc_y F s + y) (fma U x y (wc_xy F s)).
