(** * Model of include/trial/online/interim/ (moments, covariance, regression) *)

From Coq Require Import ZArith NArith Bool List.
From Verif Require Import Arith Cumulative.
Import ListNotations.

Section Interim.
Variable F : num.
Variable W : N.  (* template parameter Window, a std::size_t *)
Local Open Scope num_scope.

(** ** detail::basic_moment<T, Window, Moment, UseMoment>

    The class template is parameterised by the cumulative filter [UseMoment]
    it is built on: [S] is that filter's state, and the arguments are its
    member functions. *)

(** interim/detail/moment.ipp:48-49, interim/comoment.hpp:59-60 *)
Record duo (S : Type) : Type := Duo { active : S; passive : S }.
Arguments Duo {S}.
Arguments active {S}.
Arguments passive {S}.

Section Leapfrog.
Context {S A : Type}.
Variable cinit : S.
Variable cclear : S -> S.
Variable cpush : S -> A -> S.
Variable csize : S -> N.
Variable cempty : S -> bool.
Variable cmean : S -> F.
Variable cvariance : S -> F.
Variable cstat : S -> F.

(** interim/detail/moment.ipp:48-49, default initialisation *)
Definition duo_init : duo S := Duo cinit cinit.

(** interim/detail/moment.ipp:53-57, interim/detail/comoment.ipp:21-25 *)
Definition duo_clear (d : duo S) : duo S :=
  Duo (cclear (active d)) (cclear (passive d)).

(** interim/detail/moment.ipp:60-69, interim/detail/comoment.ipp:28-37 *)
Definition duo_push (d : duo S) (input : A) : duo S :=
  let d1 := if N.leb W (csize (active d))
            then Duo (cclear (passive d)) (active d) (* swap, active.clear() *)
            else d in
  Duo (cpush (active d1) input) (passive d1).

(** interim/detail/moment.ipp:72-75, interim/detail/comoment.ipp:40-43 *)
Definition duo_capacity (d : duo S) : N := W.

(** interim/detail/moment.ipp:78-81 *)
Definition duo_size (d : duo S) : N :=
  if cempty (passive d) then csize (active d) else W.

(** interim/detail/moment.ipp:84-87 *)
Definition duo_empty (d : duo S) : bool := N.eqb (duo_size d) 0.

(** interim/detail/moment.ipp:90-93 *)
Definition duo_full (d : duo S) : bool :=
  N.eqb (csize (active d)) W || negb (cempty (passive d)).

(** interim/detail/moment.ipp:96-105 *)
Definition duo_mean (d : duo S) : F :=
  if cempty (passive d) then cmean (active d)
  else
    let size := csize (active d) in
    (cmean (passive d) * nofsz (szsub W size)
     + cmean (active d) * nofsz (szmul 2 size))
    / nofsz (szadd W size).

(** interim/detail/moment.ipp:134-147.  The weights are size_t expressions. *)
Definition duo_variance (d : duo S) : F :=
  if cempty (passive d) then cvariance (active d)
  else if N.leb (csize (active d)) 1 then cvariance (passive d)
  else
    let size := szsub (csize (active d)) 1 in
    let passive_weight := szmul (szsub W size) (szsub W size) in
    let active_weight := szmul 2 size in
    (nofsz passive_weight * cvariance (passive d)
     + nofsz active_weight * cvariance (active d))
    / nofsz (szadd passive_weight active_weight).

(** interim/detail/moment.ipp:177-190 (skewness) and 221-234 (kurtosis), which
    differ only in the member function called on the two halves. *)
Definition duo_stat (d : duo S) : F :=
  if cempty (passive d) then cstat (active d)
  else if N.leb (csize (active d)) 1 then cstat (passive d)
  else
    let size := szsub (csize (active d)) 1 in
    let passive_weight := szsub W size in
    let active_weight := szmul 2 size in
    (nofsz passive_weight * cstat (passive d)
     + nofsz active_weight * cstat (active d))
    / nofsz (szadd passive_weight active_weight).
End Leapfrog.

(** ** basic_moment<T, Window, with::mean>: interim/moment.hpp:38-67 *)
Definition imean : Type := duo (cmean F).
(** interim/moment.hpp:39 (default construction of the base class) *)
Definition imean_init : imean := duo_init (cmean_init F).
(** interim/moment.hpp:48 *)
Definition imean_clear : imean -> imean := duo_clear (cmean_clear F).
(** interim/moment.hpp:51 *)
Definition imean_push : imean -> F -> imean :=
  duo_push (cmean_clear F) (cmean_push F) (cmean_size F).
(** interim/moment.hpp:54 *)
Definition imean_capacity : imean -> N := duo_capacity.
(** interim/moment.hpp:57 *)
Definition imean_size : imean -> N := duo_size (cmean_size F) (cmean_empty F).
(** interim/moment.hpp:60 *)
Definition imean_empty : imean -> bool := duo_empty (cmean_size F) (cmean_empty F).
(** interim/moment.hpp:63 *)
Definition imean_full : imean -> bool := duo_full (cmean_size F) (cmean_empty F).
(** interim/moment.hpp:66 *)
Definition imean_mean : imean -> F :=
  duo_mean (cmean_size F) (cmean_empty F) (cmean_mean F).

(** ** basic_moment<T, Window, with::variance>: interim/moment.hpp:72-104 *)
Definition ivar : Type := duo (cvar F).
(** interim/moment.hpp:73 (default construction of the base class) *)
Definition ivar_init : ivar := duo_init (cvar_init F).
(** interim/moment.hpp:82 *)
Definition ivar_clear : ivar -> ivar := duo_clear (cvar_clear F).
(** interim/moment.hpp:85 *)
Definition ivar_push : ivar -> F -> ivar :=
  duo_push (cvar_clear F) (cvar_push F) (cvar_size F).
(** interim/moment.hpp:88 *)
Definition ivar_capacity : ivar -> N := duo_capacity.
(** interim/moment.hpp:91 *)
Definition ivar_size : ivar -> N := duo_size (cvar_size F) (cvar_empty F).
(** interim/moment.hpp:94 *)
Definition ivar_empty : ivar -> bool := duo_empty (cvar_size F) (cvar_empty F).
(** interim/moment.hpp:97 *)
Definition ivar_full : ivar -> bool := duo_full (cvar_size F) (cvar_empty F).
(** interim/moment.hpp:100 *)
Definition ivar_mean : ivar -> F :=
  duo_mean (cvar_size F) (cvar_empty F) (cvar_mean F).
(** interim/moment.hpp:103 *)
Definition ivar_variance : ivar -> F :=
  duo_variance (cvar_size F) (cvar_empty F) (cvar_variance F).

(** ** basic_moment<T, Window, with::skewness>: interim/moment.hpp:109-144 *)
Definition iskew : Type := duo (cskew F).
(** interim/moment.hpp:110 (default construction of the base class) *)
Definition iskew_init : iskew := duo_init (cskew_init F).
(** interim/moment.hpp:119 *)
Definition iskew_clear : iskew -> iskew := duo_clear (cskew_clear F).
(** interim/moment.hpp:122 *)
Definition iskew_push : iskew -> F -> iskew :=
  duo_push (cskew_clear F) (cskew_push F) (cskew_size F).
(** interim/moment.hpp:125 *)
Definition iskew_capacity : iskew -> N := duo_capacity.
(** interim/moment.hpp:128 *)
Definition iskew_size : iskew -> N := duo_size (cskew_size F) (cskew_empty F).
(** interim/moment.hpp:131 *)
Definition iskew_empty : iskew -> bool := duo_empty (cskew_size F) (cskew_empty F).
(** interim/moment.hpp:134 *)
Definition iskew_full : iskew -> bool := duo_full (cskew_size F) (cskew_empty F).
(** interim/moment.hpp:137 *)
Definition iskew_mean : iskew -> F :=
  duo_mean (cskew_size F) (cskew_empty F) (cskew_mean F).
(** interim/moment.hpp:140 *)
Definition iskew_variance : iskew -> F :=
  duo_variance (cskew_size F) (cskew_empty F) (cskew_variance F).
(** interim/moment.hpp:143 *)
Definition iskew_skewness : iskew -> F :=
  duo_stat (cskew_size F) (cskew_empty F) (cskew_skewness F).

(** ** basic_moment<T, Window, with::kurtosis>: interim/moment.hpp:149-187 *)
Definition ikurt : Type := duo (ckurt F).
(** interim/moment.hpp:150 (default construction of the base class) *)
Definition ikurt_init : ikurt := duo_init (ckurt_init F).
(** interim/moment.hpp:159 *)
Definition ikurt_clear : ikurt -> ikurt := duo_clear (ckurt_clear F).
(** interim/moment.hpp:162 *)
Definition ikurt_push : ikurt -> F -> ikurt :=
  duo_push (ckurt_clear F) (ckurt_push F) (ckurt_size F).
(** interim/moment.hpp:165 *)
Definition ikurt_capacity : ikurt -> N := duo_capacity.
(** interim/moment.hpp:168 *)
Definition ikurt_size : ikurt -> N := duo_size (ckurt_size F) (ckurt_empty F).
(** interim/moment.hpp:171 *)
Definition ikurt_empty : ikurt -> bool := duo_empty (ckurt_size F) (ckurt_empty F).
(** interim/moment.hpp:174 *)
Definition ikurt_full : ikurt -> bool := duo_full (ckurt_size F) (ckurt_empty F).
(** interim/moment.hpp:177 *)
Definition ikurt_mean : ikurt -> F :=
  duo_mean (ckurt_size F) (ckurt_empty F) (ckurt_mean F).
(** interim/moment.hpp:180 *)
Definition ikurt_variance : ikurt -> F :=
  duo_variance (ckurt_size F) (ckurt_empty F) (ckurt_variance F).
(** interim/moment.hpp:183 *)
Definition ikurt_skewness : ikurt -> F :=
  duo_stat (ckurt_size F) (ckurt_empty F) (ckurt_skewness F).
(** interim/moment.hpp:186 *)
Definition ikurt_kurtosis : ikurt -> F :=
  duo_stat (ckurt_size F) (ckurt_empty F) (ckurt_kurtosis F).

(** ** basic_comoment<T, Window, with::variance>: interim/comoment.hpp:29-61 *)

(** interim/detail/comoment.ipp:48 and 66: the test [passive.size() == 0]
    (cumulative::covariance has no [empty()]). *)
Definition ccov_size0 (s : ccov F) : bool := N.eqb (ccov_size F s) 0.

(** interim/comoment.hpp:59-60 *)
Definition icov : Type := duo (ccov F).
(** interim/comoment.hpp:59-60, default initialisation *)
Definition icov_init : icov := duo_init (ccov_init F).
(** interim/detail/comoment.ipp:21-25 *)
Definition icov_clear : icov -> icov := duo_clear (ccov_clear F).
(** interim/detail/comoment.ipp:28-37 *)
Definition icov_push : icov -> F * F -> icov :=
  duo_push (ccov_clear F) (ccov_push F) (ccov_size F).
(** interim/detail/comoment.ipp:40-43 *)
Definition icov_capacity : icov -> N := duo_capacity.
(** interim/detail/comoment.ipp:46-49 *)
Definition icov_size : icov -> N := duo_size (ccov_size F) ccov_size0.
(** interim/detail/comoment.ipp:52-55 *)
Definition icov_empty (d : icov) : bool := N.eqb (icov_size d) 0.
(** interim/detail/comoment.ipp:58-61 *)
Definition icov_full (d : icov) : bool := N.eqb (icov_size d) W.
(** interim/detail/comoment.ipp:64-77 *)
Definition icov_variance : icov -> F :=
  duo_variance (ccov_size F) ccov_size0 (ccov_variance F).

(** ** regression<T, Window> *)

(** interim/regression.hpp:26,61-62 *)
Record ireg : Type := IReg { ir_cov : icov; ir_x : ivar; ir_y : imean }.

(** interim/regression.hpp:61-62, default initialisation *)
Definition ireg_init : ireg := IReg icov_init ivar_init imean_init.

(** interim/detail/regression.ipp:19-23; [y_moment] is not cleared. *)
Definition ireg_clear (s : ireg) : ireg :=
  IReg (icov_clear (ir_cov s)) (ivar_clear (ir_x s)) (ir_y s).

(** interim/detail/regression.ipp:26-31 *)
Definition ireg_push (s : ireg) (p : F * F) : ireg :=
  IReg (icov_push (ir_cov s) p) (ivar_push (ir_x s) (fst p))
       (imean_push (ir_y s) (snd p)).

(** interim/regression.hpp:44 *)
Definition ireg_size (s : ireg) : N := icov_size (ir_cov s).

(** interim/detail/regression.ipp:40-46 *)
Definition ireg_slope (s : ireg) : F :=
  let divisor := ivar_variance (ir_x s) in
  if divisor =? n0 then n0 else icov_variance (ir_cov s) / divisor.

(** interim/detail/regression.ipp:34-37 *)
Definition ireg_at (s : ireg) (position : F) : F :=
  imean_mean (ir_y s) - ireg_slope s * (ivar_mean (ir_x s) - position).

End Interim.
Arguments Duo {S}.
Arguments active {S}.
Arguments passive {S}.
