(** * The code compiled with contracted expressions

    The C++ standard lets a compiler evaluate a product that feeds an addition
    or a subtraction without rounding the product (a fused multiply-add,
    [expr.pre]/6); GCC does so by default wherever the target has the
    instruction.  The sources do not switch this off, and contraction also
    happens across inlined functions.  The push functions below are those of
    Cumulative.v, Decay.v, Window.v and Impulse.v with every such product
    fused.  cumulative/detail/moment.ipp:56-61 and window/detail/moment.ipp:65-76
    (the plain means) contain no product, so they stay as they are. *)

From Coq Require Import Reals List NArith.
From Verif Require Import Arith Buffer History Cumulative Decay Window Impulse Rounded.
Import ListNotations.
Local Open Scope num_scope.

(** The fused operations, each with one rounding: [fma a b c = a * b + c],
    [fms a b c = a * b - c] and [fnma a b c = c - a * b]. *)
Record fused (F : num) : Type := Fused {
  fma : F -> F -> F -> F;
  fms : F -> F -> F -> F;
  fnma : F -> F -> F -> F
}.
Arguments fma {F}. Arguments fms {F}. Arguments fnma {F}.

Section Contracted.
Variable F : num.
Variable U : fused F.

(** cumulative/detail/moment.ipp:87-92 *)
Definition cvar_push_fma (s : cvar F) (input : F) : cvar F :=
  let diff := input - cmean_mean F (cv_super F s) in
  let super := cmean_push F (cv_super F s) input in
  CVar F super (fma U diff (input - cmean_mean F super) (cv_sum F s)).

(** cumulative/detail/comoment.ipp:33-39 *)
Definition ccov_push_fma (s : ccov F) (p : F * F) : ccov F :=
  let (x, y) := p in
  let xc := cmean_push F (cc_x F s) x in
  let center :=
    fma U (x - cmean_mean F xc) (y - cmean_mean F (cc_y F s)) (cc_center F s) in
  CCov F xc (cmean_push F (cc_y F s) y) center.

(** decay/detail/moment.ipp:50-55 *)
Definition dmean_push_fma (s : dmean F) (input : F) : dmean F :=
  DMean F (dm_factor F s)
    (fma U (dm_factor F s) (n1 - dm_norm F s) (dm_norm F s))
    (fma U (dm_factor F s) (input - dm_sum F s) (dm_sum F s)).

(** decay/detail/moment.ipp:87-95 *)
Definition dvar_push_fma (s : dvar F) (input : F) : dvar F :=
  let super := dmean_push_fma (dv_super F s) input in
  let mean := dmean_mean F super in
  let delta := input - mean in
  DVar F super (dv_factor F s)
    (fma U (dv_factor F s) (n1 - dv_norm F s) (dv_norm F s))
    (fma U (dv_factor F s) (fms U delta delta (dv_sum F s)) (dv_sum F s)).

(** window/detail/moment.ipp:96-113 with [delta] (137-140) inlined *)
Definition wvar_push_fma (W : nat) (s : wvar F) (input : F) : wvar F :=
  let old_mean := wmean_mean F (wv_super F s) in
  let window := wm_window F (wv_super F s) in
  if wmean_full F W (wv_super F s)
  then match rb_front window with
       | Some old_input =>
         let new_mean :=
           wm_mean F (wv_super F s)
           + (input - old_input) / nofsz (wvar_size F s) in
         let super := WMean F (rb_push_back W window input) new_mean in
         let sum1 := fma U (input - old_mean) (input - new_mean) (wv_sum F s) in
         WVar F super (fnma U (old_input - old_mean) (old_input - new_mean) sum1)
       | None => s
       end
  else
    let new_mean :=
      wm_mean F (wv_super F s)
      + (input - wm_mean F (wv_super F s)) / nofsz (szadd (wvar_size F s) 1) in
    let super := WMean F (rb_push_back W window input) new_mean in
    WVar F super (fma U (input - old_mean) (input - new_mean) (wv_sum F s)).

(** [std::inner_product] as called at impulse/detail/finite.ipp:73 and
    infinite.ipp:67-68, its loop body [acc = acc + *first1 * *first2] fused. *)
Definition inner_product_fma (w c : list F) : F :=
  fold_left (fun acc p => fma U (fst p) (snd p) acc) (combine w c) n0.

(** impulse/detail/finite.ipp:69-74 *)
Definition fir_push_fma (s : fir F) (x : F) : fir F :=
  let c := fir_coefficients s in
  let w := rb_push_front (length c) (fir_input s) x in
  Fir w (inner_product_fma w c) c.

(** impulse/detail/infinite.ipp:63-70 *)
Definition iir_push_fma (s : iir F) (x : F) : iir F :=
  let b := iir_input_coefficients s in
  let a := iir_output_coefficients s in
  let w := rb_push_front (length b) (iir_input s) x in
  let feedforward := inner_product_fma w b in
  let feedback := inner_product_fma (iir_output s) a in
  Iir w b
    (rb_push_front (length a) (iir_output s)
       ((feedforward - feedback) / iir_scale s))
    (iir_scale s) a.
End Contracted.

(** The fused operations of a rounded format (std::fma: one rounding of the
    exact result); "not finite" is absorbing as in [xnum] (Arith.v). *)
Definition xfused (rnd : R -> R) (op : R -> R -> R -> R) (x y z : xreal) : xreal :=
  match x, y, z with
  | Fin a, Fin b, Fin c => Fin (rnd (op a b c))
  | _, _, _ => NonFin
  end.

(** No lines of the code: the instruction the compiler emits. *)
Definition rounded_fused (emin prec : Z) (mode : R -> Z) : fused (rounded emin prec mode) :=
  let rnd := rounding emin prec mode in
  Fused (rounded emin prec mode)
    (xfused rnd (fun a b c => a * b + c)%R)
    (xfused rnd (fun a b c => a * b - c)%R)
    (xfused rnd (fun a b c => c - a * b)%R).
