(** * Helpers for running the unit tests of the repository on the model

    Used by the generated Conformance*.v files, see tools/mkconformance.py. *)

From Coq Require Import ZArith NArith Bool List QArith SpecFloat.
From Verif Require Import Arith CInt IntMoments Psquare InterimPsquare.
Import ListNotations.
Local Open Scope Z_scope.

(** The type [float]: IEEE binary32.  [nfloor] and [ntosz] are not used by the
    filters tested with [float]; they go through the binary64 functions. *)
Definition b32num : num := {|
  carrier := spec_float;
  nadd := SFadd 24 128;
  nsub := SFsub 24 128;
  nmul := SFmul 24 128;
  ndiv := SFdiv 24 128;
  nsqrt := SFsqrt 24 128;
  nfloor := b64_floor;
  nabs := SFabs;
  nlt := SFltb;
  nle := SFleb;
  neq := SFeqb;
  nofsz := fun n => binary_normalize 24 128 (Z.of_N n) 0 false;
  nofz := fun z => binary_normalize 24 128 z 0 false;
  neps := S754_finite false 8388608 (-46);    (* 2^-23 *)
  nmin := S754_finite false 8388608 (-149);   (* 2^-126 *)
  ntosz := b64_tosz
|}.

(** The literal m * 2^e. *)
Class literal (F : num) := lit_of : Z -> Z -> F.
Global Instance literal_b64 : literal b64num := fun m e => binary_normalize 53 1024 m e false.
Global Instance literal_b32 : literal b32num := fun m e => binary_normalize 24 128 m e false.
Definition lit (F : num) {L : literal F} (m e : Z) : F := lit_of m e.

Definition all_true (l : list bool) : bool := forallb (fun b => b) l.
Definition is_some {A} (o : option A) : bool := match o with Some _ => true | None => false end.
Definition get_or_nan (o : option b64num) : b64num := match o with Some x => x | None => S754_nan end.
(** [psq_restore] of a state that is known to be defined; [d] is not used then. *)
Definition or_else {A} (o : option A) (d : A) : A := match o with Some x => x | None => d end.
Definition get_bool (o : option bool) : bool := match o with Some b => b | None => false end.
Definition oz_eqb (o : option Z) (z : Z) : bool := match o with Some x => x =? z | None => false end.

(** [push] through [push_inserter]: the filter at address 0 afterwards. *)
Definition copied {S I} (r : option (list S * I)) (s : S) : S :=
  match r with Some (x :: _, _) => x | _ => s end.

(** test/quantile/psquare_suite.cpp:144-150 *)
Definition param_close (t : b64num) (a b : N * b64num) : bool :=
  N.eqb (fst a) (fst b) && nle (nabs (nsub (snd a) (snd b))) t.
Fixpoint params_close (t : b64num) (a b : list (N * b64num)) : bool :=
  match a, b with
  | [], [] => true
  | x :: a', y :: b' => param_close t x y && params_close t a' b'
  | _, _ => false
  end.

(** One interim::psquare object, at address 0. *)
Definition ipq_one (F : num) (qs : list F) : memory F :=
  mset F (fun _ => None) 0%nat (Some (ipq_new F qs 0%nat)).
Definition ipq_do_push (F : num) (W : N) (qs : list F) (h : memory F) (x : F) := ipq_push F W qs h 0%nat x.
Definition ipq_do_clear (F : num) (qs : list F) (h : memory F) := ipq_clear F qs h 0%nat.
Definition ipq_is_empty (F : num) (h : memory F) := ipq_empty F h 0%nat.

(** Size and emptiness of the integer window filter. *)
Definition iwm_sz (s : iwm) : N := N.of_nat (length (iwm_window s)).
Definition iwm_em (s : iwm) : bool := N.eqb (iwm_sz s) 0.
Definition iwm_fl (W : N) (s : iwm) : bool := N.eqb (iwm_sz s) W.
Definition iwm_cap (W : N) (s : iwm) : N := W.
