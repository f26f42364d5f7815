(** * The interim filters compiled with contracted expressions

    The weighted averages add two products, of which a compiler can fuse one with the addition;
    which one is its choice ([first]). *)

From Coq Require Import NArith List.
From Verif Require Import Arith Cumulative Interim Contracted.
Local Open Scope num_scope.

(** The sum of two products in interim/detail/moment.ipp:103, 145 and
    interim/detail/comoment.ipp:75 *)
Definition sum_fma (F : num) (U : fused F) (first : bool) (a b c d : F) : F :=
  if first then fma U a b (c * d) else fma U c d (a * b).

(** interim/detail/moment.ipp:96-105 *)
Definition duo_mean_fma (F : num) (U : fused F) (first : bool) (W : N) {S : Type}
  (csize : S -> N) (cempty : S -> bool) (cmean : S -> F) (d : duo S) : F :=
  if cempty (passive d) then cmean (active d)
  else
    let size := csize (active d) in
    sum_fma F U first (cmean (passive d)) (nofsz (szsub W size))
            (cmean (active d)) (nofsz (szmul 2 size))
    / nofsz (szadd W size).

(** interim/detail/moment.ipp:134-147, interim/detail/comoment.ipp:64-77 *)
Definition duo_variance_fma (F : num) (U : fused F) (first : bool) (W : N) {S : Type}
  (csize : S -> N) (cempty : S -> bool) (cvariance : S -> F) (d : duo S) : F :=
  if cempty (passive d) then cvariance (active d)
  else if N.leb (csize (active d)) 1 then cvariance (passive d)
  else
    let size := szsub (csize (active d)) 1 in
    let passive_weight := szmul (szsub W size) (szsub W size) in
    let active_weight := szmul 2 size in
    sum_fma F U first (nofsz passive_weight) (cvariance (passive d))
            (nofsz active_weight) (cvariance (active d))
    / nofsz (szadd passive_weight active_weight).

(** interim/moment.hpp:66; push contains no product *)
Definition imean_mean_fma (F : num) (U : fused F) (first : bool) (W : N) : imean F -> F :=
  duo_mean_fma F U first W (cmean_size F) (cmean_empty F) (cmean_mean F).

(** interim/moment.hpp:85 *)
Definition ivar_push_fma (F : num) (U : fused F) (W : N) : ivar F -> F -> ivar F :=
  duo_push W (cvar_clear F) (cvar_push_fma F U) (cvar_size F).
(** interim/moment.hpp:103 *)
Definition ivar_variance_fma (F : num) (U : fused F) (first : bool) (W : N) : ivar F -> F :=
  duo_variance_fma F U first W (cvar_size F) (cvar_empty F) (cvar_variance F).

(** interim/detail/comoment.ipp:28-37 *)
Definition icov_push_fma (F : num) (U : fused F) (W : N) : icov F -> F * F -> icov F :=
  duo_push W (ccov_clear F) (ccov_push_fma F U) (ccov_size F).
(** interim/detail/comoment.ipp:64-77 *)
Definition icov_variance_fma (F : num) (U : fused F) (first : bool) (W : N) : icov F -> F :=
  duo_variance_fma F U first W (ccov_size F) (ccov_size0 F) (ccov_variance F).
