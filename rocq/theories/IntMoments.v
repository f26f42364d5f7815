(** * Model of the filters instantiated with an integer value type *)

From Coq Require Import ZArith NArith Bool List.
From Verif Require Import Arith Buffer CInt.
Import ListNotations.
Local Open Scope Z_scope.

Section Int.
Variable T : ity.
Notation P := (promote T).

(** [std::size_t] operand converted to the common type with the value type; the
    mixed expressions at cumulative/detail/moment.ipp:53,
    interim/detail/moment.ipp:103-104, cumulative/detail/comoment.ipp:53. *)
Definition mixed : ity := common P uint64.

(** ** cumulative::basic_moment<T, with::mean> *)

(** cumulative/moment.hpp:70-75 *)
Record icm : Type := ICM { icm_mean : Z; icm_count : N }.

(** cumulative/moment.hpp:72-73 *)
Definition icm_init : icm := ICM 0 0.

(** cumulative/detail/moment.ipp:26-30 *)
Definition icm_clear (s : icm) : icm := ICM 0 0.

(** cumulative/detail/moment.ipp:56-61.  [mean += e] is
    [mean = value_type(mean + e)]. *)
Definition icm_push (s : icm) (x : Z) : option icm :=
  let count := szadd (icm_count s) 1 in
  d <- isub P x (icm_mean s) ;;
  q <- idiv P d (wrap T (Z.of_N count)) ;;
  m <- iadd P (icm_mean s) q ;;
  Some (ICM (wrap T m) count).

(** cumulative/detail/moment.ipp:50-54 *)
Definition icm_unbiased_mean (s : icm) : option Z :=
  a <- imul mixed (wrap mixed (icm_mean s)) (wrap mixed (Z.of_N (icm_count s))) ;;
  q <- idiv mixed a (wrap mixed (wrap T (Z.of_N (szsub (icm_count s) 1)))) ;;
  Some (wrap T q).

(** ** cumulative::basic_moment<T, with::variance> *)

(** cumulative/moment.hpp:80-82,116-120 *)
Record icv : Type := ICV { icv_super : icm; icv_sum : Z }.

(** cumulative/moment.hpp:118 *)
Definition icv_init : icv := ICV icm_init 0.

(** cumulative/detail/moment.ipp:67-72 *)
Definition icv_clear (s : icv) : icv := ICV (icm_clear (icv_super s)) 0.

(** cumulative/detail/moment.ipp:86-92 *)
Definition icv_push (s : icv) (x : Z) : option icv :=
  diff <- isub P x (icm_mean (icv_super s)) ;;
  super <- icm_push (icv_super s) x ;;
  e <- isub P x (icm_mean super) ;;
  p <- imul P diff e ;;
  v <- iadd P (icv_sum s) p ;;
  Some (ICV super (wrap T v)).

(** cumulative/detail/moment.ipp:74-78 *)
Definition icv_variance (s : icv) : option Z :=
  q <- idiv P (icv_sum s) (wrap T (Z.of_N (icm_count (icv_super s)))) ;;
  Some (wrap T q).

(** cumulative/detail/moment.ipp:80-84 *)
Definition icv_unbiased_variance (s : icv) : option Z :=
  q <- idiv P (icv_sum s) (wrap T (Z.of_N (szsub (icm_count (icv_super s)) 1))) ;;
  Some (wrap T q).

(** ** cumulative::basic_comoment<T, with::variance> *)

(** cumulative/comoment.hpp:45-49 *)
Record icc : Type := ICC { icc_x : icm; icc_y : icm; icc_center : Z }.

(** cumulative/comoment.hpp:45-49 *)
Definition icc_init : icc := ICC icm_init icm_init 0.

(** cumulative/detail/comoment.ipp:24-30 *)
Definition icc_clear (s : icc) : icc := ICC (icm_clear (icc_x s)) (icm_clear (icc_y s)) 0.

(** cumulative/detail/comoment.ipp:32-39 *)
Definition icc_push (s : icc) (xy : Z * Z) : option icc :=
  let (x, y) := xy in
  cx <- icm_push (icc_x s) x ;;
  dx <- isub P x (icm_mean cx) ;;
  dy <- isub P y (icm_mean (icc_y s)) ;;
  p <- imul P dx dy ;;
  c <- iadd P (icc_center s) p ;;
  cy <- icm_push (icc_y s) y ;;
  Some (ICC cx cy (wrap T c)).

(** cumulative/detail/comoment.ipp:41-47 *)
Definition icc_size (s : icc) : N := icm_count (icc_x s).

(** cumulative/detail/comoment.ipp:49-55: [center / size()] divides in the
    common type. *)
Definition icc_variance (s : icc) : option Z :=
  if N.ltb 0 (icc_size s)
  then q <- idiv mixed (wrap mixed (icc_center s)) (wrap mixed (Z.of_N (icc_size s))) ;;
       Some (wrap T q)
  else Some 0.

(** cumulative/detail/comoment.ipp:57-64 *)
Definition icc_unbiased_variance (s : icc) : option Z :=
  if N.ltb 1 (icc_size s)
  then q <- idiv mixed (wrap mixed (icc_center s)) (wrap mixed (Z.of_N (szsub (icc_size s) 1))) ;;
       Some (wrap T q)
  else Some 0.

(** ** window::basic_moment<T, N, with::mean> *)

Section Window.
Variable W : nat.  (* template parameter N *)

(** window/moment.hpp:52-56 *)
Record iwm : Type := IWM { iwm_window : list Z; iwm_mean : Z }.

(** window/moment.hpp:54-55 *)
Definition iwm_init : iwm := IWM [] 0.

(** window/detail/moment.ipp:34-38 *)
Definition iwm_clear (s : iwm) : iwm := IWM [] 0.

(** window/detail/moment.ipp:65-76 *)
Definition iwm_push (s : iwm) (x : Z) : option iwm :=
  let w := iwm_window s in
  m <- (if rb_full W w
        then front <- rb_front w ;;
             d <- isub P x front ;;
             q <- idiv P d (wrap T (Z.of_N (rb_size w))) ;;
             iadd P (iwm_mean s) q
        else d <- isub P x (iwm_mean s) ;;
             q <- idiv P d (wrap T (Z.of_N (szadd (rb_size w) 1))) ;;
             iadd P (iwm_mean s) q) ;;
  Some (IWM (rb_push_back W w x) (wrap T m)).

(** ** window::basic_moment<T, N, with::variance> *)

(** window/moment.hpp:60-61,88-91 *)
Record iwv : Type := IWV { iwv_super : iwm; iwv_sum : Z }.

(** window/detail/moment.ipp:83-86, window/moment.hpp:90 *)
Definition iwv_init : iwv := IWV iwm_init 0.

(** window/detail/moment.ipp:89-93 *)
Definition iwv_clear (s : iwv) : iwv := IWV (iwm_clear (iwv_super s)) 0.

(** window/detail/moment.ipp:137-140; the product is converted to the value
    type by the return. *)
Definition iwv_delta (x old_mean mean : Z) : option Z :=
  a <- isub P x old_mean ;;
  b <- isub P x mean ;;
  p <- imul P a b ;;
  Some (wrap T p).

(** window/detail/moment.ipp:96-113.  The mean and the buffer are updated as in
    [iwm_push] (lines 102-103, 109-110). *)
Definition iwv_push (s : iwv) (x : Z) : option iwv :=
  let w := iwm_window (iwv_super s) in
  let old_mean := iwm_mean (iwv_super s) in
  super <- iwm_push (iwv_super s) x ;;
  d <- iwv_delta x old_mean (iwm_mean super) ;;
  v <- iadd P (iwv_sum s) d ;;
  if rb_full W w
  then old_input <- rb_front w ;;
       e <- iwv_delta old_input old_mean (iwm_mean super) ;;
       r <- isub P (wrap T v) e ;;
       Some (IWV super (wrap T r))
  else Some (IWV super (wrap T v)).

(** window/detail/moment.ipp:116-123.  [std::max] takes two arguments of one
    type, so that this member can only be called if the quotient has the value
    type, that is if [P] is [T]. *)
Definition iwv_variance (s : iwv) : option Z :=
  let count := rb_size (iwm_window (iwv_super s)) in
  if N.ltb 0 count
  then q <- idiv P (iwv_sum s) (wrap T (Z.of_N count)) ;; Some (Z.max 0 q)
  else Some 0.

(** window/detail/moment.ipp:126-134.  The divisor is a [std::size_t]; by the
    same argument this member can only be called if the common type is [T],
    that is for 64 bit unsigned integers. *)
Definition iwv_unbiased_variance (s : iwv) : option Z :=
  let count := rb_size (iwm_window (iwv_super s)) in
  if N.ltb 1 count
  then q <- idiv mixed (wrap mixed (iwv_sum s)) (wrap mixed (Z.of_N (szsub count 1))) ;; Some (Z.max 0 q)
  else Some 0.
End Window.

(** ** interim::basic_moment<T, W, with::mean> *)

Section Interim.
Variable W : N.  (* template parameter Window *)

(** interim/detail/moment.ipp:48-49 *)
Record iim : Type := IIM { iim_active : icm; iim_passive : icm }.

(** interim/detail/moment.ipp:48-49 *)
Definition iim_init : iim := IIM icm_init icm_init.

(** interim/detail/moment.ipp:52-57 *)
Definition iim_clear (s : iim) : iim :=
  IIM (icm_clear (iim_active s)) (icm_clear (iim_passive s)).

(** interim/detail/moment.ipp:59-69 *)
Definition iim_push (s : iim) (x : Z) : option iim :=
  let s1 := if N.leb W (icm_count (iim_active s))
            then IIM (icm_clear (iim_passive s)) (iim_active s) else s in
  a <- icm_push (iim_active s1) x ;;
  Some (IIM a (iim_passive s1)).

(** interim/detail/moment.ipp:95-105: both products and the sum are computed in
    the common type of the value type and std::size_t. *)
Definition iim_mean (s : iim) : option Z :=
  if N.eqb (icm_count (iim_passive s)) 0 then Some (icm_mean (iim_active s))
  else
    let sz := icm_count (iim_active s) in
    a <- imul mixed (wrap mixed (icm_mean (iim_passive s))) (wrap mixed (Z.of_N (szsub W sz))) ;;
    b <- imul mixed (wrap mixed (icm_mean (iim_active s))) (wrap mixed (Z.of_N (szmul 2 sz))) ;;
    c <- iadd mixed a b ;;
    q <- idiv mixed c (wrap mixed (wrap T (Z.of_N (szadd W sz)))) ;;
    Some (wrap T q).
End Interim.

(** ** impulse::finite<T> *)

(** [std::inner_product] from [value_type()] at impulse/detail/finite.ipp:73;
    the accumulator has the value type. *)
Definition ifir_product (w c : list Z) : option Z :=
  fold_left (fun acc p =>
    a <- acc ;;
    m <- imul P (fst p) (snd p) ;;
    r <- iadd P a m ;;
    Some (wrap T r)) (combine w c) (Some 0).

(** impulse/finite.hpp:52-54 *)
Record ifir : Type := IFIR { ifir_input : list Z; ifir_output : Z; ifir_coefficients : list Z }.

(** impulse/detail/finite.ipp:21-37 *)
Definition ifir_new (c : list Z) : ifir := IFIR [] 0 c.

(** impulse/detail/finite.ipp:45-49 *)
Definition ifir_clear (s : ifir) : ifir := IFIR [] (ifir_output s) (ifir_coefficients s).

(** impulse/detail/finite.ipp:69-74 *)
Definition ifir_push (s : ifir) (x : Z) : option ifir :=
  let c := ifir_coefficients s in
  let w := rb_push_front (length c) (ifir_input s) x in
  y <- ifir_product w c ;;
  Some (IFIR w y c).

End Int.
