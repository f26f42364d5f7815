(** * Conformance with test/window/moment_suite.cpp, test/window/comoment_suite.cpp, test/window/regression_suite.cpp

    Generated by tools/mkconformance.py: the unit tests of the repository,
    executed on the model.  These are tests of the transcription, not proofs of
    properties. *)

From Coq Require Import ZArith NArith Bool List QArith.
From Verif Require Import Arith Buffer Window CInt IntMoments CloseTo Conformance.
Import ListNotations.
Local Open Scope Z_scope.

(** test/window/moment_suite.cpp:22 *)
Example window_moment_mean_double_1_suite_test_ctor :
  (let filter_1 := wmean_init b64num in
   all_true [(N.eqb (wmean_capacity b64num 1 filter_1) 1);
     (Bool.eqb (wmean_empty b64num filter_1) true);
     (Bool.eqb (wmean_full b64num 1 filter_1) false);
     (N.eqb (wmean_size b64num filter_1) 0);
     (neq (n := b64num) (wmean_mean b64num filter_1) (lit b64num 0 0))]) = true.
Proof. vm_compute. reflexivity. Qed.

(** test/window/moment_suite.cpp:32 *)
Example window_moment_mean_double_1_suite_test_many :
  (let filter_1 := wmean_init b64num in
   let filter_2 := wmean_push b64num 1 filter_1 (lit b64num 1 0) in
   let filter_3 := wmean_push b64num 1 filter_2 (lit b64num 1 1) in
   let filter_4 := wmean_push b64num 1 filter_3 (lit b64num 3 0) in
   all_true [(N.eqb (wmean_capacity b64num 1 filter_1) 1);
     (Bool.eqb (wmean_empty b64num filter_2) false);
     (Bool.eqb (wmean_full b64num 1 filter_2) true);
     (N.eqb (wmean_size b64num filter_2) 1);
     (neq (n := b64num) (wmean_mean b64num filter_2) (lit b64num 1 0));
     (Bool.eqb (wmean_empty b64num filter_3) false);
     (Bool.eqb (wmean_full b64num 1 filter_3) true);
     (N.eqb (wmean_size b64num filter_3) 1);
     (neq (n := b64num) (wmean_mean b64num filter_3) (lit b64num 1 1));
     (Bool.eqb (wmean_empty b64num filter_4) false);
     (Bool.eqb (wmean_full b64num 1 filter_4) true);
     (N.eqb (wmean_size b64num filter_4) 1);
     (neq (n := b64num) (wmean_mean b64num filter_4) (lit b64num 3 0))]) = true.
Proof. vm_compute. reflexivity. Qed.

(** test/window/moment_suite.cpp:66 *)
Example window_moment_mean_double_2_suite_test_ctor :
  (let filter_1 := wmean_init b64num in
   all_true [(N.eqb (wmean_capacity b64num 2 filter_1) 2);
     (Bool.eqb (wmean_empty b64num filter_1) true);
     (Bool.eqb (wmean_full b64num 2 filter_1) false);
     (N.eqb (wmean_size b64num filter_1) 0);
     (neq (n := b64num) (wmean_mean b64num filter_1) (lit b64num 0 0))]) = true.
Proof. vm_compute. reflexivity. Qed.

(** test/window/moment_suite.cpp:76 *)
Example window_moment_mean_double_2_suite_test_one :
  (let filter_1 := wmean_init b64num in
   let filter_2 := wmean_push b64num 2 filter_1 (lit b64num 1 0) in
   all_true [(Bool.eqb (wmean_empty b64num filter_2) false);
     (Bool.eqb (wmean_full b64num 2 filter_2) false);
     (N.eqb (wmean_size b64num filter_2) 1);
     (neq (n := b64num) (wmean_mean b64num filter_2) (lit b64num 1 0))]) = true.
Proof. vm_compute. reflexivity. Qed.

(** test/window/moment_suite.cpp:86 *)
Example window_moment_mean_double_2_suite_test_same :
  (let filter_1 := wmean_init b64num in
   let filter_2 := wmean_push b64num 2 filter_1 (lit b64num 1 0) in
   let filter_3 := wmean_push b64num 2 filter_2 (lit b64num 1 0) in
   let filter_4 := wmean_push b64num 2 filter_3 (lit b64num 1 0) in
   all_true [(N.eqb (wmean_size b64num filter_2) 1);
     (neq (n := b64num) (wmean_mean b64num filter_2) (lit b64num 1 0));
     (N.eqb (wmean_size b64num filter_3) 2);
     (neq (n := b64num) (wmean_mean b64num filter_3) (lit b64num 1 0));
     (Bool.eqb (wmean_empty b64num filter_4) false);
     (Bool.eqb (wmean_full b64num 2 filter_4) true);
     (N.eqb (wmean_size b64num filter_4) 2);
     (neq (n := b64num) (wmean_mean b64num filter_4) (lit b64num 1 0))]) = true.
Proof. vm_compute. reflexivity. Qed.

(** test/window/moment_suite.cpp:102 *)
Example window_moment_mean_double_2_suite_test_two :
  (let filter_1 := wmean_init b64num in
   let filter_2 := wmean_push b64num 2 filter_1 (lit b64num 1 0) in
   let filter_3 := wmean_push b64num 2 filter_2 (lit b64num 3 0) in
   all_true [(neq (n := b64num) (wmean_mean b64num filter_2) (lit b64num 1 0));
     (neq (n := b64num) (wmean_mean b64num filter_3) (lit b64num 1 1))]) = true.
Proof. vm_compute. reflexivity. Qed.

(** test/window/moment_suite.cpp:111 *)
Example window_moment_mean_double_2_suite_test_three :
  (let filter_1 := wmean_init b64num in
   let filter_2 := wmean_push b64num 2 filter_1 (lit b64num 1 0) in
   let filter_3 := wmean_push b64num 2 filter_2 (lit b64num 3 0) in
   let filter_4 := wmean_push b64num 2 filter_3 (lit b64num 0 0) in
   all_true [(neq (n := b64num) (wmean_mean b64num filter_2) (lit b64num 1 0));
     (neq (n := b64num) (wmean_mean b64num filter_3) (lit b64num 1 1));
     (neq (n := b64num) (wmean_mean b64num filter_4) (lit b64num 3 (-1)))]) = true.
Proof. vm_compute. reflexivity. Qed.

(** test/window/moment_suite.cpp:122 *)
Example window_moment_mean_double_2_suite_test_linear_increase :
  (let filter_1 := wmean_init b64num in
   let filter_2 := wmean_push b64num 2 filter_1 (lit b64num 1 0) in
   let filter_3 := wmean_push b64num 2 filter_2 (lit b64num 1 1) in
   let filter_4 := wmean_push b64num 2 filter_3 (lit b64num 3 0) in
   let filter_5 := wmean_push b64num 2 filter_4 (lit b64num 1 2) in
   let filter_6 := wmean_push b64num 2 filter_5 (lit b64num 5 0) in
   let filter_7 := wmean_push b64num 2 filter_6 (lit b64num 3 1) in
   all_true [(neq (n := b64num) (wmean_mean b64num filter_2) (lit b64num 1 0));
     (neq (n := b64num) (wmean_mean b64num filter_3) (lit b64num 3 (-1)));
     (neq (n := b64num) (wmean_mean b64num filter_4) (lit b64num 5 (-1)));
     (neq (n := b64num) (wmean_mean b64num filter_5) (lit b64num 7 (-1)));
     (neq (n := b64num) (wmean_mean b64num filter_6) (lit b64num 9 (-1)));
     (neq (n := b64num) (wmean_mean b64num filter_7) (lit b64num 11 (-1)))]) = true.
Proof. vm_compute. reflexivity. Qed.

(** test/window/moment_suite.cpp:139 *)
Example window_moment_mean_double_2_suite_test_clear :
  (let filter_1 := wmean_init b64num in
   let filter_2 := wmean_push b64num 2 filter_1 (lit b64num 1 0) in
   let filter_3 := wmean_clear b64num filter_2 in
   let filter_4 := wmean_push b64num 2 filter_3 (lit b64num 1 1) in
   all_true [(N.eqb (wmean_size b64num filter_2) 1);
     (N.eqb (wmean_size b64num filter_3) 0);
     (N.eqb (wmean_size b64num filter_4) 1);
     (neq (n := b64num) (wmean_mean b64num filter_4) (lit b64num 1 1))]) = true.
Proof. vm_compute. reflexivity. Qed.

(** test/window/moment_suite.cpp:169 *)
Example window_moment_mean_double_3_suite_test_ctor :
  (let filter_1 := wmean_init b64num in
   all_true [(N.eqb (wmean_capacity b64num 3 filter_1) 3);
     (Bool.eqb (wmean_empty b64num filter_1) true);
     (Bool.eqb (wmean_full b64num 3 filter_1) false);
     (N.eqb (wmean_size b64num filter_1) 0);
     (neq (n := b64num) (wmean_mean b64num filter_1) (lit b64num 0 0))]) = true.
Proof. vm_compute. reflexivity. Qed.

(** test/window/moment_suite.cpp:179 *)
Example window_moment_mean_double_3_suite_test_linear_increase :
  (let filter_1 := wmean_init b64num in
   let filter_2 := wmean_push b64num 3 filter_1 (lit b64num 1 0) in
   let filter_3 := wmean_push b64num 3 filter_2 (lit b64num 1 1) in
   let filter_4 := wmean_push b64num 3 filter_3 (lit b64num 3 0) in
   let filter_5 := wmean_push b64num 3 filter_4 (lit b64num 1 2) in
   let filter_6 := wmean_push b64num 3 filter_5 (lit b64num 5 0) in
   let filter_7 := wmean_push b64num 3 filter_6 (lit b64num 3 1) in
   all_true [(close_to (n := b64num) (Closeness (lit b64num 5902958103587057 (-69)) (@nmin b64num)) (wmean_mean b64num filter_2) (lit b64num 1 0));
     (close_to (n := b64num) (Closeness (lit b64num 5902958103587057 (-69)) (@nmin b64num)) (wmean_mean b64num filter_3) (lit b64num 3 (-1)));
     (close_to (n := b64num) (Closeness (lit b64num 5902958103587057 (-69)) (@nmin b64num)) (wmean_mean b64num filter_4) (lit b64num 1 1));
     (close_to (n := b64num) (Closeness (lit b64num 5902958103587057 (-69)) (@nmin b64num)) (wmean_mean b64num filter_5) (lit b64num 3 0));
     (close_to (n := b64num) (Closeness (lit b64num 5902958103587057 (-69)) (@nmin b64num)) (wmean_mean b64num filter_6) (lit b64num 1 2));
     (close_to (n := b64num) (Closeness (lit b64num 5902958103587057 (-69)) (@nmin b64num)) (wmean_mean b64num filter_7) (lit b64num 5 0))]) = true.
Proof. vm_compute. reflexivity. Qed.

(** test/window/moment_suite.cpp:210 *)
Example window_moment_mean_double_4_suite_test_ctor :
  (let filter_1 := wmean_init b64num in
   all_true [(N.eqb (wmean_capacity b64num 4 filter_1) 4);
     (Bool.eqb (wmean_empty b64num filter_1) true);
     (Bool.eqb (wmean_full b64num 4 filter_1) false);
     (N.eqb (wmean_size b64num filter_1) 0);
     (neq (n := b64num) (wmean_mean b64num filter_1) (lit b64num 0 0))]) = true.
Proof. vm_compute. reflexivity. Qed.

(** test/window/moment_suite.cpp:220 *)
Example window_moment_mean_double_4_suite_test_same :
  (let filter_1 := wmean_init b64num in
   let filter_2 := wmean_push b64num 4 filter_1 (lit b64num 1 0) in
   let filter_3 := wmean_push b64num 4 filter_2 (lit b64num 1 0) in
   let filter_4 := wmean_push b64num 4 filter_3 (lit b64num 1 0) in
   let filter_5 := wmean_push b64num 4 filter_4 (lit b64num 1 0) in
   let filter_6 := wmean_push b64num 4 filter_5 (lit b64num 1 0) in
   all_true [(N.eqb (wmean_size b64num filter_2) 1);
     (neq (n := b64num) (wmean_mean b64num filter_2) (lit b64num 1 0));
     (N.eqb (wmean_size b64num filter_3) 2);
     (neq (n := b64num) (wmean_mean b64num filter_3) (lit b64num 1 0));
     (N.eqb (wmean_size b64num filter_4) 3);
     (neq (n := b64num) (wmean_mean b64num filter_4) (lit b64num 1 0));
     (N.eqb (wmean_size b64num filter_5) 4);
     (neq (n := b64num) (wmean_mean b64num filter_5) (lit b64num 1 0));
     (Bool.eqb (wmean_empty b64num filter_6) false);
     (Bool.eqb (wmean_full b64num 4 filter_6) true);
     (N.eqb (wmean_size b64num filter_6) 4);
     (neq (n := b64num) (wmean_mean b64num filter_6) (lit b64num 1 0))]) = true.
Proof. vm_compute. reflexivity. Qed.

(** test/window/moment_suite.cpp:242 *)
Example window_moment_mean_double_4_suite_test_linear_increase :
  (let filter_1 := wmean_init b64num in
   let filter_2 := wmean_push b64num 4 filter_1 (lit b64num 1 0) in
   let filter_3 := wmean_push b64num 4 filter_2 (lit b64num 1 1) in
   let filter_4 := wmean_push b64num 4 filter_3 (lit b64num 3 0) in
   let filter_5 := wmean_push b64num 4 filter_4 (lit b64num 1 2) in
   let filter_6 := wmean_push b64num 4 filter_5 (lit b64num 5 0) in
   let filter_7 := wmean_push b64num 4 filter_6 (lit b64num 3 1) in
   all_true [(neq (n := b64num) (wmean_mean b64num filter_2) (lit b64num 1 0));
     (neq (n := b64num) (wmean_mean b64num filter_3) (lit b64num 3 (-1)));
     (neq (n := b64num) (wmean_mean b64num filter_4) (lit b64num 1 1));
     (neq (n := b64num) (wmean_mean b64num filter_5) (lit b64num 5 (-1)));
     (neq (n := b64num) (wmean_mean b64num filter_6) (lit b64num 7 (-1)));
     (neq (n := b64num) (wmean_mean b64num filter_7) (lit b64num 9 (-1)))]) = true.
Proof. vm_compute. reflexivity. Qed.

(** test/window/moment_suite.cpp:259 *)
Example window_moment_mean_double_4_suite_test_linear_increase_from_offset :
  (let filter_1 := wmean_init b64num in
   let filter_2 := wmean_push b64num 4 filter_1 (lit b64num 5 1) in
   let filter_3 := wmean_push b64num 4 filter_2 (lit b64num 11 0) in
   let filter_4 := wmean_push b64num 4 filter_3 (lit b64num 3 2) in
   let filter_5 := wmean_push b64num 4 filter_4 (lit b64num 13 0) in
   let filter_6 := wmean_push b64num 4 filter_5 (lit b64num 7 1) in
   let filter_7 := wmean_push b64num 4 filter_6 (lit b64num 15 0) in
   all_true [(neq (n := b64num) (wmean_mean b64num filter_2) (lit b64num 5 1));
     (neq (n := b64num) (wmean_mean b64num filter_3) (lit b64num 21 (-1)));
     (neq (n := b64num) (wmean_mean b64num filter_4) (lit b64num 11 0));
     (neq (n := b64num) (wmean_mean b64num filter_5) (lit b64num 23 (-1)));
     (neq (n := b64num) (wmean_mean b64num filter_6) (lit b64num 25 (-1)));
     (neq (n := b64num) (wmean_mean b64num filter_7) (lit b64num 27 (-1)))]) = true.
Proof. vm_compute. reflexivity. Qed.

(** test/window/moment_suite.cpp:276 *)
Example window_moment_mean_double_4_suite_test_linear_decrease :
  (let filter_1 := wmean_init b64num in
   let filter_2 := wmean_push b64num 4 filter_1 (lit b64num 5 1) in
   let filter_3 := wmean_push b64num 4 filter_2 (lit b64num 9 0) in
   let filter_4 := wmean_push b64num 4 filter_3 (lit b64num 1 3) in
   let filter_5 := wmean_push b64num 4 filter_4 (lit b64num 7 0) in
   let filter_6 := wmean_push b64num 4 filter_5 (lit b64num 3 1) in
   let filter_7 := wmean_push b64num 4 filter_6 (lit b64num 5 0) in
   all_true [(neq (n := b64num) (wmean_mean b64num filter_2) (lit b64num 5 1));
     (neq (n := b64num) (wmean_mean b64num filter_3) (lit b64num 19 (-1)));
     (neq (n := b64num) (wmean_mean b64num filter_4) (lit b64num 9 0));
     (neq (n := b64num) (wmean_mean b64num filter_5) (lit b64num 17 (-1)));
     (neq (n := b64num) (wmean_mean b64num filter_6) (lit b64num 15 (-1)));
     (neq (n := b64num) (wmean_mean b64num filter_7) (lit b64num 13 (-1)))]) = true.
Proof. vm_compute. reflexivity. Qed.

(** test/window/moment_suite.cpp:309 *)
Example window_moment_mean_float_2_suite_test_ctor :
  (let filter_1 := wmean_init b32num in
   all_true [(N.eqb (wmean_capacity b32num 2 filter_1) 2);
     (Bool.eqb (wmean_empty b32num filter_1) true);
     (Bool.eqb (wmean_full b32num 2 filter_1) false);
     (N.eqb (wmean_size b32num filter_1) 0);
     (neq (n := b32num) (wmean_mean b32num filter_1) (lit b32num 0 0))]) = true.
Proof. vm_compute. reflexivity. Qed.

(** test/window/moment_suite.cpp:319 *)
Example window_moment_mean_float_2_suite_test_one :
  (let filter_1 := wmean_init b32num in
   let filter_2 := wmean_push b32num 2 filter_1 (lit b32num 1 0) in
   all_true [(Bool.eqb (wmean_empty b32num filter_2) false);
     (Bool.eqb (wmean_full b32num 2 filter_2) false);
     (N.eqb (wmean_size b32num filter_2) 1);
     (neq (n := b32num) (wmean_mean b32num filter_2) (lit b32num 1 0))]) = true.
Proof. vm_compute. reflexivity. Qed.

(** test/window/moment_suite.cpp:329 *)
Example window_moment_mean_float_2_suite_test_same :
  (let filter_1 := wmean_init b32num in
   let filter_2 := wmean_push b32num 2 filter_1 (lit b32num 1 0) in
   let filter_3 := wmean_push b32num 2 filter_2 (lit b32num 1 0) in
   let filter_4 := wmean_push b32num 2 filter_3 (lit b32num 1 0) in
   all_true [(N.eqb (wmean_size b32num filter_2) 1);
     (neq (n := b32num) (wmean_mean b32num filter_2) (lit b32num 1 0));
     (N.eqb (wmean_size b32num filter_3) 2);
     (neq (n := b32num) (wmean_mean b32num filter_3) (lit b32num 1 0));
     (Bool.eqb (wmean_empty b32num filter_4) false);
     (Bool.eqb (wmean_full b32num 2 filter_4) true);
     (N.eqb (wmean_size b32num filter_4) 2);
     (neq (n := b32num) (wmean_mean b32num filter_4) (lit b32num 1 0))]) = true.
Proof. vm_compute. reflexivity. Qed.

(** test/window/moment_suite.cpp:345 *)
Example window_moment_mean_float_2_suite_test_two :
  (let filter_1 := wmean_init b32num in
   let filter_2 := wmean_push b32num 2 filter_1 (lit b32num 1 0) in
   let filter_3 := wmean_push b32num 2 filter_2 (lit b32num 3 0) in
   all_true [(neq (n := b32num) (wmean_mean b32num filter_2) (lit b32num 1 0));
     (neq (n := b32num) (wmean_mean b32num filter_3) (lit b32num 1 1))]) = true.
Proof. vm_compute. reflexivity. Qed.

(** test/window/moment_suite.cpp:354 *)
Example window_moment_mean_float_2_suite_test_three :
  (let filter_1 := wmean_init b32num in
   let filter_2 := wmean_push b32num 2 filter_1 (lit b32num 1 0) in
   let filter_3 := wmean_push b32num 2 filter_2 (lit b32num 3 0) in
   let filter_4 := wmean_push b32num 2 filter_3 (lit b32num 0 0) in
   all_true [(neq (n := b32num) (wmean_mean b32num filter_2) (lit b32num 1 0));
     (neq (n := b32num) (wmean_mean b32num filter_3) (lit b32num 1 1));
     (neq (n := b32num) (wmean_mean b32num filter_4) (lit b32num 3 (-1)))]) = true.
Proof. vm_compute. reflexivity. Qed.

(** test/window/moment_suite.cpp:365 *)
Example window_moment_mean_float_2_suite_test_clear :
  (let filter_1 := wmean_init b32num in
   let filter_2 := wmean_push b32num 2 filter_1 (lit b32num 1 0) in
   let filter_3 := wmean_clear b32num filter_2 in
   let filter_4 := wmean_push b32num 2 filter_3 (lit b32num 1 1) in
   all_true [(N.eqb (wmean_size b32num filter_2) 1);
     (N.eqb (wmean_size b32num filter_3) 0);
     (N.eqb (wmean_size b32num filter_4) 1);
     (neq (n := b32num) (wmean_mean b32num filter_4) (lit b32num 1 1))]) = true.
Proof. vm_compute. reflexivity. Qed.

(** test/window/moment_suite.cpp:394 *)
Example window_moment_mean_int_2_suite_test_ctor :
  (let filter_1 := iwm_init in
   all_true [(N.eqb (iwm_cap 2 filter_1) 2);
     (Bool.eqb (iwm_em filter_1) true);
     (Bool.eqb (iwm_fl 2 filter_1) false);
     (N.eqb (iwm_sz filter_1) 0);
     (Z.eqb (iwm_mean filter_1) (0))]) = true.
Proof. vm_compute. reflexivity. Qed.

(** test/window/moment_suite.cpp:404 *)
Example window_moment_mean_int_2_suite_test_one :
  (let filter_1 := iwm_init in
   let filter_2 := match iwm_push int32 2 filter_1 (1) with Some s => s | None => filter_1 end in
   all_true [(is_some (iwm_push int32 2 filter_1 (1)));
     (Bool.eqb (iwm_em filter_2) false);
     (Bool.eqb (iwm_fl 2 filter_2) false);
     (N.eqb (iwm_sz filter_2) 1);
     (Z.eqb (iwm_mean filter_2) (1))]) = true.
Proof. vm_compute. reflexivity. Qed.

(** test/window/moment_suite.cpp:414 *)
Example window_moment_mean_int_2_suite_test_same :
  (let filter_1 := iwm_init in
   let filter_2 := match iwm_push int32 2 filter_1 (1) with Some s => s | None => filter_1 end in
   let filter_3 := match iwm_push int32 2 filter_2 (1) with Some s => s | None => filter_2 end in
   let filter_4 := match iwm_push int32 2 filter_3 (1) with Some s => s | None => filter_3 end in
   all_true [(is_some (iwm_push int32 2 filter_1 (1)));
     (N.eqb (iwm_sz filter_2) 1);
     (Z.eqb (iwm_mean filter_2) (1));
     (is_some (iwm_push int32 2 filter_2 (1)));
     (N.eqb (iwm_sz filter_3) 2);
     (Z.eqb (iwm_mean filter_3) (1));
     (is_some (iwm_push int32 2 filter_3 (1)));
     (Bool.eqb (iwm_em filter_4) false);
     (Bool.eqb (iwm_fl 2 filter_4) true);
     (N.eqb (iwm_sz filter_4) 2);
     (Z.eqb (iwm_mean filter_4) (1))]) = true.
Proof. vm_compute. reflexivity. Qed.

(** test/window/moment_suite.cpp:430 *)
Example window_moment_mean_int_2_suite_test_two :
  (let filter_1 := iwm_init in
   let filter_2 := match iwm_push int32 2 filter_1 (1) with Some s => s | None => filter_1 end in
   let filter_3 := match iwm_push int32 2 filter_2 (3) with Some s => s | None => filter_2 end in
   all_true [(is_some (iwm_push int32 2 filter_1 (1)));
     (Z.eqb (iwm_mean filter_2) (1));
     (is_some (iwm_push int32 2 filter_2 (3)));
     (Z.eqb (iwm_mean filter_3) (2))]) = true.
Proof. vm_compute. reflexivity. Qed.

(** test/window/moment_suite.cpp:439 *)
Example window_moment_mean_int_2_suite_test_three :
  (let filter_1 := iwm_init in
   let filter_2 := match iwm_push int32 2 filter_1 (1) with Some s => s | None => filter_1 end in
   let filter_3 := match iwm_push int32 2 filter_2 (3) with Some s => s | None => filter_2 end in
   let filter_4 := match iwm_push int32 2 filter_3 (0) with Some s => s | None => filter_3 end in
   all_true [(is_some (iwm_push int32 2 filter_1 (1)));
     (Z.eqb (iwm_mean filter_2) (1));
     (is_some (iwm_push int32 2 filter_2 (3)));
     (Z.eqb (iwm_mean filter_3) (2));
     (is_some (iwm_push int32 2 filter_3 (0)));
     (Z.eqb (iwm_mean filter_4) (2))]) = true.
Proof. vm_compute. reflexivity. Qed.

(** test/window/moment_suite.cpp:450 *)
Example window_moment_mean_int_2_suite_test_clear :
  (let filter_1 := iwm_init in
   let filter_2 := match iwm_push int32 2 filter_1 (1) with Some s => s | None => filter_1 end in
   let filter_3 := iwm_clear filter_2 in
   let filter_4 := match iwm_push int32 2 filter_3 (2) with Some s => s | None => filter_3 end in
   all_true [(is_some (iwm_push int32 2 filter_1 (1)));
     (N.eqb (iwm_sz filter_2) 1);
     (N.eqb (iwm_sz filter_3) 0);
     (is_some (iwm_push int32 2 filter_3 (2)));
     (N.eqb (iwm_sz filter_4) 1);
     (Z.eqb (iwm_mean filter_4) (2))]) = true.
Proof. vm_compute. reflexivity. Qed.

(** test/window/moment_suite.cpp:479 *)
Example window_moment_variance_double_1_suite_test_ctor :
  (let filter_1 := wvar_init b64num in
   all_true [(N.eqb (wvar_capacity b64num 1 filter_1) 1);
     (Bool.eqb (wvar_empty b64num filter_1) true);
     (Bool.eqb (wvar_full b64num 1 filter_1) false);
     (N.eqb (wvar_size b64num filter_1) 0);
     (neq (n := b64num) (wvar_mean b64num filter_1) (lit b64num 0 0));
     (neq (n := b64num) (wvar_variance b64num filter_1) (lit b64num 0 0));
     (neq (n := b64num) (wvar_unbiased_variance b64num filter_1) (lit b64num 0 0))]) = true.
Proof. vm_compute. reflexivity. Qed.

(** test/window/moment_suite.cpp:491 *)
Example window_moment_variance_double_1_suite_test_many :
  (let filter_1 := wvar_init b64num in
   let filter_2 := wvar_push b64num 1 filter_1 (lit b64num 1 0) in
   let filter_3 := wvar_push b64num 1 filter_2 (lit b64num 1 1) in
   let filter_4 := wvar_push b64num 1 filter_3 (lit b64num 3 0) in
   all_true [(N.eqb (wvar_capacity b64num 1 filter_1) 1);
     (Bool.eqb (wvar_empty b64num filter_2) false);
     (Bool.eqb (wvar_full b64num 1 filter_2) true);
     (N.eqb (wvar_size b64num filter_2) 1);
     (neq (n := b64num) (wvar_mean b64num filter_2) (lit b64num 1 0));
     (neq (n := b64num) (wvar_variance b64num filter_2) (lit b64num 0 0));
     (neq (n := b64num) (wvar_unbiased_variance b64num filter_2) (lit b64num 0 0));
     (Bool.eqb (wvar_empty b64num filter_3) false);
     (Bool.eqb (wvar_full b64num 1 filter_3) true);
     (N.eqb (wvar_size b64num filter_3) 1);
     (neq (n := b64num) (wvar_mean b64num filter_3) (lit b64num 1 1));
     (neq (n := b64num) (wvar_variance b64num filter_3) (lit b64num 0 0));
     (neq (n := b64num) (wvar_unbiased_variance b64num filter_3) (lit b64num 0 0));
     (Bool.eqb (wvar_empty b64num filter_4) false);
     (Bool.eqb (wvar_full b64num 1 filter_4) true);
     (N.eqb (wvar_size b64num filter_4) 1);
     (neq (n := b64num) (wvar_mean b64num filter_4) (lit b64num 3 0));
     (neq (n := b64num) (wvar_variance b64num filter_4) (lit b64num 0 0));
     (neq (n := b64num) (wvar_unbiased_variance b64num filter_4) (lit b64num 0 0))]) = true.
Proof. vm_compute. reflexivity. Qed.

(** test/window/moment_suite.cpp:531 *)
Example window_moment_variance_double_2_suite_test_ctor :
  (let filter_1 := wvar_init b64num in
   all_true [(N.eqb (wvar_capacity b64num 2 filter_1) 2);
     (Bool.eqb (wvar_empty b64num filter_1) true);
     (Bool.eqb (wvar_full b64num 2 filter_1) false);
     (N.eqb (wvar_size b64num filter_1) 0);
     (neq (n := b64num) (wvar_mean b64num filter_1) (lit b64num 0 0));
     (neq (n := b64num) (wvar_variance b64num filter_1) (lit b64num 0 0));
     (neq (n := b64num) (wvar_unbiased_variance b64num filter_1) (lit b64num 0 0))]) = true.
Proof. vm_compute. reflexivity. Qed.

(** test/window/moment_suite.cpp:543 *)
Example window_moment_variance_double_2_suite_test_one :
  (let filter_1 := wvar_init b64num in
   let filter_2 := wvar_push b64num 2 filter_1 (lit b64num 1 0) in
   all_true [(Bool.eqb (wvar_empty b64num filter_2) false);
     (Bool.eqb (wvar_full b64num 2 filter_2) false);
     (N.eqb (wvar_size b64num filter_2) 1);
     (neq (n := b64num) (wvar_mean b64num filter_2) (lit b64num 1 0));
     (neq (n := b64num) (wvar_variance b64num filter_2) (lit b64num 0 0));
     (neq (n := b64num) (wvar_unbiased_variance b64num filter_2) (lit b64num 0 0))]) = true.
Proof. vm_compute. reflexivity. Qed.

(** test/window/moment_suite.cpp:555 *)
Example window_moment_variance_double_2_suite_test_same :
  (let filter_1 := wvar_init b64num in
   let filter_2 := wvar_push b64num 2 filter_1 (lit b64num 1 0) in
   let filter_3 := wvar_push b64num 2 filter_2 (lit b64num 1 0) in
   let filter_4 := wvar_push b64num 2 filter_3 (lit b64num 1 0) in
   all_true [(N.eqb (wvar_size b64num filter_2) 1);
     (neq (n := b64num) (wvar_mean b64num filter_2) (lit b64num 1 0));
     (neq (n := b64num) (wvar_variance b64num filter_2) (lit b64num 0 0));
     (neq (n := b64num) (wvar_unbiased_variance b64num filter_2) (lit b64num 0 0));
     (N.eqb (wvar_size b64num filter_3) 2);
     (neq (n := b64num) (wvar_mean b64num filter_3) (lit b64num 1 0));
     (neq (n := b64num) (wvar_variance b64num filter_3) (lit b64num 0 0));
     (neq (n := b64num) (wvar_unbiased_variance b64num filter_3) (lit b64num 0 0));
     (Bool.eqb (wvar_empty b64num filter_4) false);
     (Bool.eqb (wvar_full b64num 2 filter_4) true);
     (N.eqb (wvar_size b64num filter_4) 2);
     (neq (n := b64num) (wvar_mean b64num filter_4) (lit b64num 1 0));
     (neq (n := b64num) (wvar_variance b64num filter_4) (lit b64num 0 0));
     (neq (n := b64num) (wvar_unbiased_variance b64num filter_4) (lit b64num 0 0))]) = true.
Proof. vm_compute. reflexivity. Qed.

(** test/window/moment_suite.cpp:577 *)
Example window_moment_variance_double_2_suite_test_two :
  (let filter_1 := wvar_init b64num in
   let filter_2 := wvar_push b64num 2 filter_1 (lit b64num 1 0) in
   let filter_3 := wvar_push b64num 2 filter_2 (lit b64num 3 0) in
   all_true [(neq (n := b64num) (wvar_mean b64num filter_2) (lit b64num 1 0));
     (neq (n := b64num) (wvar_variance b64num filter_2) (lit b64num 0 0));
     (neq (n := b64num) (wvar_unbiased_variance b64num filter_2) (lit b64num 0 0));
     (neq (n := b64num) (wvar_mean b64num filter_3) (lit b64num 1 1));
     (neq (n := b64num) (wvar_variance b64num filter_3) (lit b64num 1 0));
     (neq (n := b64num) (wvar_unbiased_variance b64num filter_3) (lit b64num 1 1))]) = true.
Proof. vm_compute. reflexivity. Qed.

(** test/window/moment_suite.cpp:590 *)
Example window_moment_variance_double_2_suite_test_three :
  (let filter_1 := wvar_init b64num in
   let filter_2 := wvar_push b64num 2 filter_1 (lit b64num 1 0) in
   let filter_3 := wvar_push b64num 2 filter_2 (lit b64num 3 0) in
   let filter_4 := wvar_push b64num 2 filter_3 (lit b64num 0 0) in
   all_true [(neq (n := b64num) (wvar_mean b64num filter_2) (lit b64num 1 0));
     (neq (n := b64num) (wvar_variance b64num filter_2) (lit b64num 0 0));
     (neq (n := b64num) (wvar_unbiased_variance b64num filter_2) (lit b64num 0 0));
     (neq (n := b64num) (wvar_mean b64num filter_3) (lit b64num 1 1));
     (neq (n := b64num) (wvar_variance b64num filter_3) (lit b64num 1 0));
     (neq (n := b64num) (wvar_unbiased_variance b64num filter_3) (lit b64num 1 1));
     (neq (n := b64num) (wvar_mean b64num filter_4) (lit b64num 3 (-1)));
     (neq (n := b64num) (wvar_variance b64num filter_4) (lit b64num 9 (-2)));
     (neq (n := b64num) (wvar_unbiased_variance b64num filter_4) (lit b64num 9 (-1)))]) = true.
Proof. vm_compute. reflexivity. Qed.

(** test/window/moment_suite.cpp:607 *)
Example window_moment_variance_double_2_suite_test_clear :
  (let filter_1 := wvar_init b64num in
   let filter_2 := wvar_push b64num 2 filter_1 (lit b64num 1 0) in
   let filter_3 := wvar_clear b64num filter_2 in
   let filter_4 := wvar_push b64num 2 filter_3 (lit b64num 1 1) in
   all_true [(N.eqb (wvar_size b64num filter_2) 1);
     (N.eqb (wvar_size b64num filter_3) 0);
     (N.eqb (wvar_size b64num filter_4) 1)]) = true.
Proof. vm_compute. reflexivity. Qed.

(** test/window/moment_suite.cpp:635 *)
Example window_moment_variance_double_4_suite_test_linear_increase :
  (let filter_1 := wvar_init b64num in
   let filter_2 := wvar_push b64num 4 filter_1 (lit b64num 1 0) in
   let filter_3 := wvar_push b64num 4 filter_2 (lit b64num 1 1) in
   let filter_4 := wvar_push b64num 4 filter_3 (lit b64num 3 0) in
   let filter_5 := wvar_push b64num 4 filter_4 (lit b64num 1 2) in
   let filter_6 := wvar_push b64num 4 filter_5 (lit b64num 5 0) in
   let filter_7 := wvar_push b64num 4 filter_6 (lit b64num 3 1) in
   let filter_8 := wvar_push b64num 4 filter_7 (lit b64num 7 0) in
   let filter_9 := wvar_push b64num 4 filter_8 (lit b64num 1 3) in
   let filter_10 := wvar_push b64num 4 filter_9 (lit b64num 9 0) in
   all_true [(neq (n := b64num) (wvar_mean b64num filter_2) (lit b64num 1 0));
     (close_to (n := b64num) (Closeness (lit b64num 5902958103587057 (-69)) (@nmin b64num)) (wvar_variance b64num filter_2) (lit b64num 0 0));
     (neq (n := b64num) (wvar_mean b64num filter_3) (lit b64num 3 (-1)));
     (close_to (n := b64num) (Closeness (lit b64num 5902958103587057 (-69)) (@nmin b64num)) (wvar_variance b64num filter_3) (lit b64num 1 (-2)));
     (neq (n := b64num) (wvar_mean b64num filter_4) (lit b64num 1 1));
     (close_to (n := b64num) (Closeness (lit b64num 5902958103587057 (-69)) (@nmin b64num)) (wvar_variance b64num filter_4) (lit b64num 6004802505560413 (-53)));
     (neq (n := b64num) (wvar_mean b64num filter_5) (lit b64num 5 (-1)));
     (close_to (n := b64num) (Closeness (lit b64num 5902958103587057 (-69)) (@nmin b64num)) (wvar_variance b64num filter_5) (lit b64num 5 (-2)));
     (neq (n := b64num) (wvar_mean b64num filter_6) (lit b64num 7 (-1)));
     (close_to (n := b64num) (Closeness (lit b64num 5902958103587057 (-69)) (@nmin b64num)) (wvar_variance b64num filter_6) (lit b64num 5 (-2)));
     (neq (n := b64num) (wvar_mean b64num filter_7) (lit b64num 9 (-1)));
     (close_to (n := b64num) (Closeness (lit b64num 5902958103587057 (-69)) (@nmin b64num)) (wvar_variance b64num filter_7) (lit b64num 5 (-2)));
     (neq (n := b64num) (wvar_mean b64num filter_8) (lit b64num 11 (-1)));
     (close_to (n := b64num) (Closeness (lit b64num 5902958103587057 (-69)) (@nmin b64num)) (wvar_variance b64num filter_8) (lit b64num 5 (-2)));
     (neq (n := b64num) (wvar_mean b64num filter_9) (lit b64num 13 (-1)));
     (close_to (n := b64num) (Closeness (lit b64num 5902958103587057 (-69)) (@nmin b64num)) (wvar_variance b64num filter_9) (lit b64num 5 (-2)));
     (neq (n := b64num) (wvar_mean b64num filter_10) (lit b64num 15 (-1)));
     (close_to (n := b64num) (Closeness (lit b64num 5902958103587057 (-69)) (@nmin b64num)) (wvar_variance b64num filter_10) (lit b64num 5 (-2)))]) = true.
Proof. vm_compute. reflexivity. Qed.

(** test/window/moment_suite.cpp:679 *)
Example window_moment_variance_double_4_suite_test_scatter :
  (let filter_1 := wvar_init b64num in
   let filter_2 := wvar_push b64num 4 filter_1 (lit b64num 1 0) in
   let filter_3 := wvar_push b64num 4 filter_2 (lit b64num 3 0) in
   let filter_4 := wvar_push b64num 4 filter_3 (lit b64num 0 0) in
   let filter_5 := wvar_push b64num 4 filter_4 (lit b64num 5 0) in
   let filter_6 := wvar_push b64num 4 filter_5 (lit b64num 1 1) in
   let filter_7 := wvar_push b64num 4 filter_6 (lit b64num 3 0) in
   let filter_8 := wvar_push b64num 4 filter_7 (lit b64num 1 2) in
   let filter_9 := wvar_push b64num 4 filter_8 (lit b64num 1 0) in
   all_true [(neq (n := b64num) (wvar_mean b64num filter_2) (lit b64num 1 0));
     (neq (n := b64num) (wvar_variance b64num filter_2) (lit b64num 0 0));
     (neq (n := b64num) (wvar_mean b64num filter_3) (lit b64num 1 1));
     (neq (n := b64num) (wvar_variance b64num filter_3) (lit b64num 1 0));
     (close_to (n := b64num) (Closeness (lit b64num 5902958103587057 (-69)) (@nmin b64num)) (wvar_mean b64num filter_4) (lit b64num 6004784491161903 (-52)));
     (close_to (n := b64num) (Closeness (lit b64num 5902958103587057 (-69)) (@nmin b64num)) (wvar_variance b64num filter_4) (lit b64num 7005619436352449 (-52)));
     (close_to (n := b64num) (Closeness (lit b64num 5902958103587057 (-69)) (@nmin b64num)) (wvar_mean b64num filter_5) (lit b64num 9 (-2)));
     (close_to (n := b64num) (Closeness (lit b64num 5902958103587057 (-69)) (@nmin b64num)) (wvar_variance b64num filter_5) (lit b64num 59 (-4)));
     (close_to (n := b64num) (Closeness (lit b64num 5902958103587057 (-69)) (@nmin b64num)) (wvar_mean b64num filter_6) (lit b64num 5 (-1)));
     (close_to (n := b64num) (Closeness (lit b64num 5902958103587057 (-69)) (@nmin b64num)) (wvar_variance b64num filter_6) (lit b64num 13 (-2)));
     (close_to (n := b64num) (Closeness (lit b64num 5902958103587057 (-69)) (@nmin b64num)) (wvar_mean b64num filter_7) (lit b64num 5 (-1)));
     (close_to (n := b64num) (Closeness (lit b64num 5902958103587057 (-69)) (@nmin b64num)) (wvar_variance b64num filter_7) (lit b64num 13 (-2)));
     (close_to (n := b64num) (Closeness (lit b64num 5902958103587057 (-69)) (@nmin b64num)) (wvar_mean b64num filter_8) (lit b64num 7 (-1)));
     (close_to (n := b64num) (Closeness (lit b64num 5902958103587057 (-69)) (@nmin b64num)) (wvar_variance b64num filter_8) (lit b64num 5 (-2)));
     (close_to (n := b64num) (Closeness (lit b64num 5902958103587057 (-69)) (@nmin b64num)) (wvar_mean b64num filter_9) (lit b64num 5 (-1)));
     (close_to (n := b64num) (Closeness (lit b64num 5902958103587057 (-69)) (@nmin b64num)) (wvar_variance b64num filter_9) (lit b64num 5 (-2)))]) = true.
Proof. vm_compute. reflexivity. Qed.

(** test/window/comoment_suite.cpp:23 *)
Example window_comoment_properties_suite_test_constant :
  (let filter_1 := wcov_init b64num in
   let filter_2 := wcov_push b64num 32 filter_1 ((lit b64num 0 0), (lit b64num 0 0)) in
   let filter_3 := wcov_push b64num 32 filter_2 ((lit b64num 1 0), (lit b64num 0 0)) in
   let filter_4 := wcov_push b64num 32 filter_3 ((lit b64num 5 1), (lit b64num 0 0)) in
   let filter_5 := wcov_push b64num 32 filter_4 ((lit b64num 25 2), (lit b64num 0 0)) in
   all_true [(neq (n := b64num) (wcov_unbiased_variance b64num filter_2) (lit b64num 0 0));
     (neq (n := b64num) (wcov_variance b64num filter_2) (lit b64num 0 0));
     (neq (n := b64num) (wcov_unbiased_variance b64num filter_3) (lit b64num 0 0));
     (neq (n := b64num) (wcov_variance b64num filter_3) (lit b64num 0 0));
     (neq (n := b64num) (wcov_unbiased_variance b64num filter_4) (lit b64num 0 0));
     (neq (n := b64num) (wcov_variance b64num filter_4) (lit b64num 0 0));
     (neq (n := b64num) (wcov_unbiased_variance b64num filter_5) (lit b64num 0 0));
     (neq (n := b64num) (wcov_variance b64num filter_5) (lit b64num 0 0))]) = true.
Proof. vm_compute. reflexivity. Qed.

(** test/window/comoment_suite.cpp:42 *)
Example window_comoment_properties_suite_test_same :
  (let filter_1 := wcov_init b64num in
   let average_2 := wvar_init b64num in
   let filter_3 := wcov_push b64num 32 filter_1 ((lit b64num 0 0), (lit b64num 0 0)) in
   let average_4 := wvar_push b64num 32 average_2 (lit b64num 0 0) in
   let filter_5 := wcov_push b64num 32 filter_3 ((lit b64num 1 0), (lit b64num 1 0)) in
   let average_6 := wvar_push b64num 32 average_4 (lit b64num 1 0) in
   let filter_7 := wcov_push b64num 32 filter_5 ((lit b64num 5 1), (lit b64num 5 1)) in
   let average_8 := wvar_push b64num 32 average_6 (lit b64num 5 1) in
   let filter_9 := wcov_push b64num 32 filter_7 ((lit b64num 25 2), (lit b64num 25 2)) in
   let average_10 := wvar_push b64num 32 average_8 (lit b64num 25 2) in
   all_true [(close_to (n := b64num) (Closeness (lit b64num 4722366482869645 (-72)) (@nmin b64num)) (wcov_unbiased_variance b64num filter_3) (lit b64num 0 0));
     (close_to (n := b64num) (Closeness (lit b64num 4722366482869645 (-72)) (@nmin b64num)) (wcov_variance b64num filter_3) (lit b64num 0 0));
     (close_to (n := b64num) (Closeness (lit b64num 4722366482869645 (-72)) (@nmin b64num)) (wcov_variance b64num filter_3) (wvar_variance b64num average_4));
     (close_to (n := b64num) (Closeness (lit b64num 4722366482869645 (-72)) (@nmin b64num)) (wcov_unbiased_variance b64num filter_5) (lit b64num 1 (-1)));
     (close_to (n := b64num) (Closeness (lit b64num 4722366482869645 (-72)) (@nmin b64num)) (wcov_variance b64num filter_5) (lit b64num 1 (-2)));
     (close_to (n := b64num) (Closeness (lit b64num 4722366482869645 (-72)) (@nmin b64num)) (wcov_variance b64num filter_5) (wvar_variance b64num average_6));
     (close_to (n := b64num) (Closeness (lit b64num 4722366482869645 (-72)) (@nmin b64num)) (wcov_unbiased_variance b64num filter_7) (lit b64num 8538074199731573 (-48)));
     (close_to (n := b64num) (Closeness (lit b64num 4722366482869645 (-72)) (@nmin b64num)) (wcov_variance b64num filter_7) (lit b64num 5692049466487715 (-48)));
     (close_to (n := b64num) (Closeness (lit b64num 4722366482869645 (-72)) (@nmin b64num)) (wcov_variance b64num filter_7) (wvar_variance b64num average_8));
     (close_to (n := b64num) (Closeness (lit b64num 4722366482869645 (-72)) (@nmin b64num)) (wcov_unbiased_variance b64num filter_9) (lit b64num 9361 (-2)));
     (close_to (n := b64num) (Closeness (lit b64num 4722366482869645 (-72)) (@nmin b64num)) (wcov_variance b64num filter_9) (lit b64num 28083 (-4)));
     (close_to (n := b64num) (Closeness (lit b64num 4722366482869645 (-72)) (@nmin b64num)) (wcov_variance b64num filter_9) (wvar_variance b64num average_10))]) = true.
Proof. vm_compute. reflexivity. Qed.

(** test/window/comoment_suite.cpp:82 *)
Example window_comoment_properties_suite_test_commutative :
  (let lhs_1 := wcov_init b64num in
   let rhs_2 := wcov_init b64num in
   let lhs_3 := wcov_push b64num 32 lhs_1 ((lit b64num 0 0), (lit b64num 0 0)) in
   let rhs_4 := wcov_push b64num 32 rhs_2 ((lit b64num 0 0), (lit b64num 0 0)) in
   let lhs_5 := wcov_push b64num 32 lhs_3 ((lit b64num (-1) 0), (lit b64num 1 0)) in
   let rhs_6 := wcov_push b64num 32 rhs_4 ((lit b64num 1 0), (lit b64num (-1) 0)) in
   let lhs_7 := wcov_push b64num 32 lhs_5 ((lit b64num (-1) 1), (lit b64num 5 1)) in
   let rhs_8 := wcov_push b64num 32 rhs_6 ((lit b64num 5 1), (lit b64num (-1) 1)) in
   let lhs_9 := wcov_push b64num 32 lhs_7 ((lit b64num (-3) 0), (lit b64num 25 2)) in
   let rhs_10 := wcov_push b64num 32 rhs_8 ((lit b64num 25 2), (lit b64num (-3) 0)) in
   let lhs_11 := wcov_push b64num 32 lhs_9 ((lit b64num (-1) 2), (lit b64num 125 3)) in
   let rhs_12 := wcov_push b64num 32 rhs_10 ((lit b64num 125 3), (lit b64num (-1) 2)) in
   all_true [(close_to (n := b64num) (Closeness (lit b64num 4722366482869645 (-72)) (@nmin b64num)) (wcov_unbiased_variance b64num lhs_3) (wcov_unbiased_variance b64num rhs_4));
     (close_to (n := b64num) (Closeness (lit b64num 4722366482869645 (-72)) (@nmin b64num)) (wcov_variance b64num lhs_3) (wcov_variance b64num rhs_4));
     (close_to (n := b64num) (Closeness (lit b64num 4722366482869645 (-72)) (@nmin b64num)) (wcov_unbiased_variance b64num lhs_5) (wcov_unbiased_variance b64num rhs_6));
     (close_to (n := b64num) (Closeness (lit b64num 4722366482869645 (-72)) (@nmin b64num)) (wcov_variance b64num lhs_5) (wcov_variance b64num rhs_6));
     (close_to (n := b64num) (Closeness (lit b64num 4722366482869645 (-72)) (@nmin b64num)) (wcov_unbiased_variance b64num lhs_7) (wcov_unbiased_variance b64num rhs_8));
     (close_to (n := b64num) (Closeness (lit b64num 4722366482869645 (-72)) (@nmin b64num)) (wcov_variance b64num lhs_7) (wcov_variance b64num rhs_8));
     (close_to (n := b64num) (Closeness (lit b64num 4722366482869645 (-72)) (@nmin b64num)) (wcov_unbiased_variance b64num lhs_9) (wcov_unbiased_variance b64num rhs_10));
     (close_to (n := b64num) (Closeness (lit b64num 4722366482869645 (-72)) (@nmin b64num)) (wcov_variance b64num lhs_9) (wcov_variance b64num rhs_10));
     (close_to (n := b64num) (Closeness (lit b64num 4722366482869645 (-72)) (@nmin b64num)) (wcov_unbiased_variance b64num lhs_11) (wcov_unbiased_variance b64num rhs_12));
     (close_to (n := b64num) (Closeness (lit b64num 4722366482869645 (-72)) (@nmin b64num)) (wcov_variance b64num lhs_11) (wcov_variance b64num rhs_12))]) = true.
Proof. vm_compute. reflexivity. Qed.

(** test/window/comoment_suite.cpp:130 *)
Example window_comoment_properties_suite_test_distributive :
  (let lhs_1 := wcov_init b64num in
   let rhs_2 := wcov_init b64num in
   let lhs_3 := wcov_push b64num 32 lhs_1 ((@nmul b64num (lit b64num 1 (-1)) (lit b64num 0 0)), (@nmul b64num (lit b64num 1 1) (lit b64num 0 0))) in
   let rhs_4 := wcov_push b64num 32 rhs_2 ((lit b64num 0 0), (lit b64num 0 0)) in
   let lhs_5 := wcov_push b64num 32 lhs_3 ((@nmul b64num (lit b64num 1 (-1)) (lit b64num (-1) 0)), (@nmul b64num (lit b64num 1 1) (lit b64num 1 0))) in
   let rhs_6 := wcov_push b64num 32 rhs_4 ((lit b64num (-1) 0), (lit b64num 1 0)) in
   let lhs_7 := wcov_push b64num 32 lhs_5 ((@nmul b64num (lit b64num 1 (-1)) (lit b64num (-1) 1)), (@nmul b64num (lit b64num 1 1) (lit b64num 5 1))) in
   let rhs_8 := wcov_push b64num 32 rhs_6 ((lit b64num (-1) 1), (lit b64num 5 1)) in
   let lhs_9 := wcov_push b64num 32 lhs_7 ((@nmul b64num (lit b64num 1 (-1)) (lit b64num (-3) 0)), (@nmul b64num (lit b64num 1 1) (lit b64num 25 2))) in
   let rhs_10 := wcov_push b64num 32 rhs_8 ((lit b64num (-3) 0), (lit b64num 25 2)) in
   let lhs_11 := wcov_push b64num 32 lhs_9 ((@nmul b64num (lit b64num 1 (-1)) (lit b64num (-1) 2)), (@nmul b64num (lit b64num 1 1) (lit b64num 125 3))) in
   let rhs_12 := wcov_push b64num 32 rhs_10 ((lit b64num (-1) 2), (lit b64num 125 3)) in
   all_true [(close_to (n := b64num) (Closeness (lit b64num 4722366482869645 (-72)) (@nmin b64num)) (wcov_unbiased_variance b64num lhs_3) (@nmul b64num (@nmul b64num (lit b64num 1 (-1)) (lit b64num 1 1)) (wcov_unbiased_variance b64num rhs_4)));
     (close_to (n := b64num) (Closeness (lit b64num 4722366482869645 (-72)) (@nmin b64num)) (wcov_variance b64num lhs_3) (@nmul b64num (@nmul b64num (lit b64num 1 (-1)) (lit b64num 1 1)) (wcov_variance b64num rhs_4)));
     (close_to (n := b64num) (Closeness (lit b64num 4722366482869645 (-72)) (@nmin b64num)) (wcov_unbiased_variance b64num lhs_5) (@nmul b64num (@nmul b64num (lit b64num 1 (-1)) (lit b64num 1 1)) (wcov_unbiased_variance b64num rhs_6)));
     (close_to (n := b64num) (Closeness (lit b64num 4722366482869645 (-72)) (@nmin b64num)) (wcov_variance b64num lhs_5) (@nmul b64num (@nmul b64num (lit b64num 1 (-1)) (lit b64num 1 1)) (wcov_variance b64num rhs_6)));
     (close_to (n := b64num) (Closeness (lit b64num 4722366482869645 (-72)) (@nmin b64num)) (wcov_unbiased_variance b64num lhs_7) (@nmul b64num (@nmul b64num (lit b64num 1 (-1)) (lit b64num 1 1)) (wcov_unbiased_variance b64num rhs_8)));
     (close_to (n := b64num) (Closeness (lit b64num 4722366482869645 (-72)) (@nmin b64num)) (wcov_variance b64num lhs_7) (@nmul b64num (@nmul b64num (lit b64num 1 (-1)) (lit b64num 1 1)) (wcov_variance b64num rhs_8)));
     (close_to (n := b64num) (Closeness (lit b64num 4722366482869645 (-72)) (@nmin b64num)) (wcov_unbiased_variance b64num lhs_9) (@nmul b64num (@nmul b64num (lit b64num 1 (-1)) (lit b64num 1 1)) (wcov_unbiased_variance b64num rhs_10)));
     (close_to (n := b64num) (Closeness (lit b64num 4722366482869645 (-72)) (@nmin b64num)) (wcov_variance b64num lhs_9) (@nmul b64num (@nmul b64num (lit b64num 1 (-1)) (lit b64num 1 1)) (wcov_variance b64num rhs_10)));
     (close_to (n := b64num) (Closeness (lit b64num 4722366482869645 (-72)) (@nmin b64num)) (wcov_unbiased_variance b64num lhs_11) (@nmul b64num (@nmul b64num (lit b64num 1 (-1)) (lit b64num 1 1)) (wcov_unbiased_variance b64num rhs_12)));
     (close_to (n := b64num) (Closeness (lit b64num 4722366482869645 (-72)) (@nmin b64num)) (wcov_variance b64num lhs_11) (@nmul b64num (@nmul b64num (lit b64num 1 (-1)) (lit b64num 1 1)) (wcov_variance b64num rhs_12)))]) = true.
Proof. vm_compute. reflexivity. Qed.

(** test/window/comoment_suite.cpp:180 *)
Example window_comoment_properties_suite_test_shift_invariant :
  (let lhs_1 := wcov_init b64num in
   let rhs_2 := wcov_init b64num in
   let lhs_3 := wcov_push b64num 32 lhs_1 ((@nadd b64num (lit b64num 0 0) (lit b64num 1 (-1))), (@nadd b64num (lit b64num 0 0) (lit b64num 1 1))) in
   let rhs_4 := wcov_push b64num 32 rhs_2 ((lit b64num 0 0), (lit b64num 0 0)) in
   let lhs_5 := wcov_push b64num 32 lhs_3 ((@nadd b64num (lit b64num (-1) 0) (lit b64num 1 (-1))), (@nadd b64num (lit b64num 1 0) (lit b64num 1 1))) in
   let rhs_6 := wcov_push b64num 32 rhs_4 ((lit b64num (-1) 0), (lit b64num 1 0)) in
   let lhs_7 := wcov_push b64num 32 lhs_5 ((@nadd b64num (lit b64num (-1) 1) (lit b64num 1 (-1))), (@nadd b64num (lit b64num 5 1) (lit b64num 1 1))) in
   let rhs_8 := wcov_push b64num 32 rhs_6 ((lit b64num (-1) 1), (lit b64num 5 1)) in
   let lhs_9 := wcov_push b64num 32 lhs_7 ((@nadd b64num (lit b64num (-3) 0) (lit b64num 1 (-1))), (@nadd b64num (lit b64num 25 2) (lit b64num 1 1))) in
   let rhs_10 := wcov_push b64num 32 rhs_8 ((lit b64num (-3) 0), (lit b64num 25 2)) in
   let lhs_11 := wcov_push b64num 32 lhs_9 ((@nadd b64num (lit b64num (-1) 2) (lit b64num 1 (-1))), (@nadd b64num (lit b64num 125 3) (lit b64num 1 1))) in
   let rhs_12 := wcov_push b64num 32 rhs_10 ((lit b64num (-1) 2), (lit b64num 125 3)) in
   all_true [(close_to (n := b64num) (Closeness (lit b64num 4722366482869645 (-72)) (@nmin b64num)) (wcov_unbiased_variance b64num lhs_3) (wcov_unbiased_variance b64num rhs_4));
     (close_to (n := b64num) (Closeness (lit b64num 4722366482869645 (-72)) (@nmin b64num)) (wcov_variance b64num lhs_3) (wcov_variance b64num rhs_4));
     (close_to (n := b64num) (Closeness (lit b64num 4722366482869645 (-72)) (@nmin b64num)) (wcov_unbiased_variance b64num lhs_5) (wcov_unbiased_variance b64num rhs_6));
     (close_to (n := b64num) (Closeness (lit b64num 4722366482869645 (-72)) (@nmin b64num)) (wcov_variance b64num lhs_5) (wcov_variance b64num rhs_6));
     (close_to (n := b64num) (Closeness (lit b64num 4722366482869645 (-72)) (@nmin b64num)) (wcov_unbiased_variance b64num lhs_7) (wcov_unbiased_variance b64num rhs_8));
     (close_to (n := b64num) (Closeness (lit b64num 4722366482869645 (-72)) (@nmin b64num)) (wcov_variance b64num lhs_7) (wcov_variance b64num rhs_8));
     (close_to (n := b64num) (Closeness (lit b64num 4722366482869645 (-72)) (@nmin b64num)) (wcov_unbiased_variance b64num lhs_9) (wcov_unbiased_variance b64num rhs_10));
     (close_to (n := b64num) (Closeness (lit b64num 4722366482869645 (-72)) (@nmin b64num)) (wcov_variance b64num lhs_9) (wcov_variance b64num rhs_10));
     (close_to (n := b64num) (Closeness (lit b64num 4722366482869645 (-72)) (@nmin b64num)) (wcov_unbiased_variance b64num lhs_11) (wcov_unbiased_variance b64num rhs_12));
     (close_to (n := b64num) (Closeness (lit b64num 4722366482869645 (-72)) (@nmin b64num)) (wcov_variance b64num lhs_11) (wcov_variance b64num rhs_12))]) = true.
Proof. vm_compute. reflexivity. Qed.

(** test/window/comoment_suite.cpp:246 *)
Example window_comoment_double_suite_test_empty :
  (let filter_1 := wcov_init b64num in
   all_true [(N.eqb (wcov_size b64num filter_1) 0);
     (neq (n := b64num) (wcov_variance b64num filter_1) (lit b64num 0 0));
     (neq (n := b64num) (wcov_unbiased_variance b64num filter_1) (lit b64num 0 0))]) = true.
Proof. vm_compute. reflexivity. Qed.

(** test/window/comoment_suite.cpp:254 *)
Example window_comoment_double_suite_test_same_no_increment :
  (let filter_1 := wcov_init b64num in
   let filter_2 := wcov_push b64num 4 filter_1 ((lit b64num 1 1), (lit b64num 1 1)) in
   let filter_3 := wcov_push b64num 4 filter_2 ((lit b64num 1 1), (lit b64num 1 1)) in
   let filter_4 := wcov_push b64num 4 filter_3 ((lit b64num 1 1), (lit b64num 1 1)) in
   let filter_5 := wcov_push b64num 4 filter_4 ((lit b64num 1 1), (lit b64num 1 1)) in
   let filter_6 := wcov_push b64num 4 filter_5 ((lit b64num 1 1), (lit b64num 1 1)) in
   all_true [(neq (n := b64num) (wcov_variance b64num filter_2) (lit b64num 0 0));
     (neq (n := b64num) (wcov_unbiased_variance b64num filter_2) (lit b64num 0 0));
     (neq (n := b64num) (wcov_variance b64num filter_3) (lit b64num 0 0));
     (neq (n := b64num) (wcov_unbiased_variance b64num filter_3) (lit b64num 0 0));
     (neq (n := b64num) (wcov_variance b64num filter_4) (lit b64num 0 0));
     (neq (n := b64num) (wcov_unbiased_variance b64num filter_4) (lit b64num 0 0));
     (neq (n := b64num) (wcov_variance b64num filter_5) (lit b64num 0 0));
     (neq (n := b64num) (wcov_unbiased_variance b64num filter_5) (lit b64num 0 0));
     (neq (n := b64num) (wcov_variance b64num filter_6) (lit b64num 0 0));
     (neq (n := b64num) (wcov_unbiased_variance b64num filter_6) (lit b64num 0 0))]) = true.
Proof. vm_compute. reflexivity. Qed.

(** test/window/comoment_suite.cpp:274 *)
Example window_comoment_double_suite_test_same_increment_by_one :
  (let filter_1 := wcov_init b64num in
   let filter_2 := wcov_push b64num 4 filter_1 ((lit b64num 1 0), (lit b64num 1 0)) in
   let filter_3 := wcov_push b64num 4 filter_2 ((lit b64num 1 1), (lit b64num 1 1)) in
   let filter_4 := wcov_push b64num 4 filter_3 ((lit b64num 3 0), (lit b64num 3 0)) in
   let filter_5 := wcov_push b64num 4 filter_4 ((lit b64num 1 2), (lit b64num 1 2)) in
   let filter_6 := wcov_push b64num 4 filter_5 ((lit b64num 5 0), (lit b64num 5 0)) in
   all_true [(neq (n := b64num) (wcov_variance b64num filter_2) (lit b64num 0 0));
     (neq (n := b64num) (wcov_unbiased_variance b64num filter_2) (lit b64num 0 0));
     (close_to (n := b64num) (Closeness (lit b64num 4722366482869645 (-72)) (@nmin b64num)) (wcov_variance b64num filter_3) (lit b64num 1 (-2)));
     (close_to (n := b64num) (Closeness (lit b64num 4722366482869645 (-72)) (@nmin b64num)) (wcov_unbiased_variance b64num filter_3) (lit b64num 1 (-1)));
     (close_to (n := b64num) (Closeness (lit b64num 4722366482869645 (-72)) (@nmin b64num)) (wcov_variance b64num filter_4) (lit b64num 6004802505560413 (-53)));
     (close_to (n := b64num) (Closeness (lit b64num 4722366482869645 (-72)) (@nmin b64num)) (wcov_unbiased_variance b64num filter_4) (lit b64num 1 0));
     (close_to (n := b64num) (Closeness (lit b64num 4722366482869645 (-72)) (@nmin b64num)) (wcov_variance b64num filter_5) (lit b64num 5 (-2)));
     (close_to (n := b64num) (Closeness (lit b64num 4722366482869645 (-72)) (@nmin b64num)) (wcov_unbiased_variance b64num filter_5) (lit b64num 3753000440075351 (-51)));
     (close_to (n := b64num) (Closeness (lit b64num 4722366482869645 (-72)) (@nmin b64num)) (wcov_variance b64num filter_6) (lit b64num 5 (-2)));
     (close_to (n := b64num) (Closeness (lit b64num 4722366482869645 (-72)) (@nmin b64num)) (wcov_unbiased_variance b64num filter_6) (lit b64num 3753000440075351 (-51)))]) = true.
Proof. vm_compute. reflexivity. Qed.

(** test/window/comoment_suite.cpp:296 *)
Example window_comoment_double_suite_test_same_increment_by_half :
  (let filter_1 := wcov_init b64num in
   let filter_2 := wcov_push b64num 4 filter_1 ((lit b64num 1 0), (lit b64num 1 0)) in
   let filter_3 := wcov_push b64num 4 filter_2 ((lit b64num 3 (-1)), (lit b64num 3 (-1))) in
   let filter_4 := wcov_push b64num 4 filter_3 ((lit b64num 1 1), (lit b64num 1 1)) in
   let filter_5 := wcov_push b64num 4 filter_4 ((lit b64num 5 (-1)), (lit b64num 5 (-1))) in
   let filter_6 := wcov_push b64num 4 filter_5 ((lit b64num 3 0), (lit b64num 3 0)) in
   all_true [(neq (n := b64num) (wcov_variance b64num filter_2) (lit b64num 0 0));
     (neq (n := b64num) (wcov_unbiased_variance b64num filter_2) (lit b64num 0 0));
     (close_to (n := b64num) (Closeness (lit b64num 4722366482869645 (-72)) (@nmin b64num)) (wcov_variance b64num filter_3) (lit b64num 1 (-4)));
     (close_to (n := b64num) (Closeness (lit b64num 4722366482869645 (-72)) (@nmin b64num)) (wcov_unbiased_variance b64num filter_3) (lit b64num 1 (-3)));
     (close_to (n := b64num) (Closeness (lit b64num 4722366482869645 (-72)) (@nmin b64num)) (wcov_variance b64num filter_4) (lit b64num 3002400352060281 (-54)));
     (close_to (n := b64num) (Closeness (lit b64num 4722366482869645 (-72)) (@nmin b64num)) (wcov_unbiased_variance b64num filter_4) (lit b64num 1 (-2)));
     (close_to (n := b64num) (Closeness (lit b64num 4722366482869645 (-72)) (@nmin b64num)) (wcov_variance b64num filter_5) (lit b64num 5 (-4)));
     (close_to (n := b64num) (Closeness (lit b64num 4722366482869645 (-72)) (@nmin b64num)) (wcov_unbiased_variance b64num filter_5) (lit b64num 3753002691875165 (-53)));
     (close_to (n := b64num) (Closeness (lit b64num 4722366482869645 (-72)) (@nmin b64num)) (wcov_variance b64num filter_6) (lit b64num 5 (-4)));
     (close_to (n := b64num) (Closeness (lit b64num 4722366482869645 (-72)) (@nmin b64num)) (wcov_unbiased_variance b64num filter_6) (lit b64num 3753002691875165 (-53)))]) = true.
Proof. vm_compute. reflexivity. Qed.

(** test/window/comoment_suite.cpp:318 *)
Example window_comoment_double_suite_test_exponential_increase :
  (let filter_1 := wcov_init b64num in
   let filter_2 := wcov_push b64num 4 filter_1 ((lit b64num 1 0), (lit b64num 1 0)) in
   let filter_3 := wcov_push b64num 4 filter_2 ((lit b64num 5 1), (lit b64num 5 1)) in
   let filter_4 := wcov_push b64num 4 filter_3 ((lit b64num 25 2), (lit b64num 25 2)) in
   let filter_5 := wcov_push b64num 4 filter_4 ((lit b64num 125 3), (lit b64num 125 3)) in
   let filter_6 := wcov_push b64num 4 filter_5 ((lit b64num 625 4), (lit b64num 625 4)) in
   let filter_7 := wcov_push b64num 4 filter_6 ((lit b64num 3125 5), (lit b64num 3125 5)) in
   let filter_8 := wcov_push b64num 4 filter_7 ((lit b64num 15625 6), (lit b64num 15625 6)) in
   all_true [(neq (n := b64num) (wcov_variance b64num filter_2) (lit b64num 0 0));
     (neq (n := b64num) (wcov_unbiased_variance b64num filter_2) (lit b64num 0 0));
     (close_to (n := b64num) (Closeness (lit b64num 5902958103587057 (-69)) (@nmin b64num)) (wcov_variance b64num filter_3) (lit b64num 81 (-2)));
     (close_to (n := b64num) (Closeness (lit b64num 5902958103587057 (-69)) (@nmin b64num)) (wcov_unbiased_variance b64num filter_3) (lit b64num 81 (-1)));
     (close_to (n := b64num) (Closeness (lit b64num 5902958103587057 (-69)) (@nmin b64num)) (wcov_variance b64num filter_4) (lit b64num 999 1));
     (close_to (n := b64num) (Closeness (lit b64num 5902958103587057 (-69)) (@nmin b64num)) (wcov_unbiased_variance b64num filter_4) (lit b64num 2997 0));
     (close_to (n := b64num) (Closeness (lit b64num 5902958103587057 (-69)) (@nmin b64num)) (wcov_variance b64num filter_5) (lit b64num 43845 2));
     (close_to (n := b64num) (Closeness (lit b64num 5902958103587057 (-69)) (@nmin b64num)) (wcov_unbiased_variance b64num filter_5) (lit b64num 14615 4));
     (close_to (n := b64num) (Closeness (lit b64num 5902958103587057 (-69)) (@nmin b64num)) (wcov_variance b64num filter_6) (lit b64num 1096125 4));
     (close_to (n := b64num) (Closeness (lit b64num 5902958103587057 (-69)) (@nmin b64num)) (wcov_unbiased_variance b64num filter_6) (lit b64num 365375 6));
     (close_to (n := b64num) (Closeness (lit b64num 5902958103587057 (-69)) (@nmin b64num)) (wcov_variance b64num filter_7) (lit b64num 27403125 6));
     (close_to (n := b64num) (Closeness (lit b64num 5902958103587057 (-69)) (@nmin b64num)) (wcov_unbiased_variance b64num filter_7) (lit b64num 9134375 8));
     (close_to (n := b64num) (Closeness (lit b64num 5902958103587057 (-69)) (@nmin b64num)) (wcov_variance b64num filter_8) (lit b64num 685078125 8));
     (close_to (n := b64num) (Closeness (lit b64num 5902958103587057 (-69)) (@nmin b64num)) (wcov_unbiased_variance b64num filter_8) (lit b64num 228359375 10))]) = true.
Proof. vm_compute. reflexivity. Qed.

(** test/window/comoment_suite.cpp:345 *)
Example window_comoment_double_suite_test_clear :
  (let filter_1 := wcov_init b64num in
   let filter_2 := wcov_push b64num 4 filter_1 ((lit b64num 0 0), (lit b64num 0 0)) in
   let filter_3 := wcov_clear b64num filter_2 in
   all_true [(N.eqb (wcov_size b64num filter_1) 0);
     (N.eqb (wcov_size b64num filter_2) 1);
     (N.eqb (wcov_size b64num filter_3) 0)]) = true.
Proof. vm_compute. reflexivity. Qed.

(** test/window/regression_suite.cpp:22 *)
Example window_regression_double_suite_test_ctor :
  (let filter_1 := wreg_init b64num in
   all_true [(N.eqb (wreg_size b64num filter_1) 0)]) = true.
Proof. vm_compute. reflexivity. Qed.

(** test/window/regression_suite.cpp:28 *)
Example window_regression_double_suite_test_same :
  (let filter_1 := wreg_init b64num in
   let filter_2 := wreg_push b64num 4 filter_1 ((lit b64num 1 0), (lit b64num 1 0)) in
   let filter_3 := wreg_push b64num 4 filter_2 ((lit b64num 1 0), (lit b64num 1 0)) in
   let filter_4 := wreg_push b64num 4 filter_3 ((lit b64num 1 0), (lit b64num 1 0)) in
   let filter_5 := wreg_push b64num 4 filter_4 ((lit b64num 1 0), (lit b64num 1 0)) in
   let filter_6 := wreg_push b64num 4 filter_5 ((lit b64num 1 0), (lit b64num 1 0)) in
   all_true [(N.eqb (wreg_size b64num filter_2) 1);
     (close_to (n := b64num) (Closeness (lit b64num 5902958103587057 (-69)) (@nmin b64num)) (wreg_slope b64num filter_2) (lit b64num 0 0));
     (close_to (n := b64num) (Closeness (lit b64num 5902958103587057 (-69)) (@nmin b64num)) (wreg_at b64num filter_2 (lit b64num 0 0)) (lit b64num 1 0));
     (N.eqb (wreg_size b64num filter_3) 2);
     (close_to (n := b64num) (Closeness (lit b64num 5902958103587057 (-69)) (@nmin b64num)) (wreg_slope b64num filter_3) (lit b64num 0 0));
     (close_to (n := b64num) (Closeness (lit b64num 5902958103587057 (-69)) (@nmin b64num)) (wreg_at b64num filter_3 (lit b64num 0 0)) (lit b64num 1 0));
     (N.eqb (wreg_size b64num filter_4) 3);
     (close_to (n := b64num) (Closeness (lit b64num 5902958103587057 (-69)) (@nmin b64num)) (wreg_slope b64num filter_4) (lit b64num 0 0));
     (close_to (n := b64num) (Closeness (lit b64num 5902958103587057 (-69)) (@nmin b64num)) (wreg_at b64num filter_4 (lit b64num 0 0)) (lit b64num 1 0));
     (N.eqb (wreg_size b64num filter_5) 4);
     (close_to (n := b64num) (Closeness (lit b64num 5902958103587057 (-69)) (@nmin b64num)) (wreg_slope b64num filter_5) (lit b64num 0 0));
     (close_to (n := b64num) (Closeness (lit b64num 5902958103587057 (-69)) (@nmin b64num)) (wreg_at b64num filter_5 (lit b64num 0 0)) (lit b64num 1 0));
     (N.eqb (wreg_size b64num filter_6) 4);
     (close_to (n := b64num) (Closeness (lit b64num 5902958103587057 (-69)) (@nmin b64num)) (wreg_slope b64num filter_6) (lit b64num 0 0));
     (close_to (n := b64num) (Closeness (lit b64num 5902958103587057 (-69)) (@nmin b64num)) (wreg_at b64num filter_6 (lit b64num 0 0)) (lit b64num 1 0))]) = true.
Proof. vm_compute. reflexivity. Qed.

(** test/window/regression_suite.cpp:60 *)
Example window_regression_double_suite_test_linear_increase :
  (let filter_1 := wreg_init b64num in
   let filter_2 := wreg_push b64num 4 filter_1 ((lit b64num 0 0), (lit b64num 0 0)) in
   let filter_3 := wreg_push b64num 4 filter_2 ((lit b64num 1 0), (lit b64num 1 0)) in
   let filter_4 := wreg_push b64num 4 filter_3 ((lit b64num 1 1), (lit b64num 1 1)) in
   let filter_5 := wreg_push b64num 4 filter_4 ((lit b64num 3 0), (lit b64num 3 0)) in
   let filter_6 := wreg_push b64num 4 filter_5 ((lit b64num 1 2), (lit b64num 1 2)) in
   let filter_7 := wreg_push b64num 4 filter_6 ((lit b64num 5 0), (lit b64num 5 0)) in
   all_true [(close_to (n := b64num) (Closeness (lit b64num 5902958103587057 (-69)) (@nmin b64num)) (wreg_slope b64num filter_2) (lit b64num 0 0));
     (close_to (n := b64num) (Closeness (lit b64num 5902958103587057 (-69)) (@nmin b64num)) (wreg_at b64num filter_2 (lit b64num 0 0)) (lit b64num 0 0));
     (close_to (n := b64num) (Closeness (lit b64num 5902958103587057 (-69)) (@nmin b64num)) (wreg_slope b64num filter_3) (lit b64num 1 0));
     (close_to (n := b64num) (Closeness (lit b64num 5902958103587057 (-69)) (@nmin b64num)) (wreg_at b64num filter_3 (lit b64num 0 0)) (lit b64num 0 0));
     (close_to (n := b64num) (Closeness (lit b64num 5902958103587057 (-69)) (@nmin b64num)) (wreg_at b64num filter_3 (lit b64num 1 0)) (lit b64num 1 0));
     (close_to (n := b64num) (Closeness (lit b64num 5902958103587057 (-69)) (@nmin b64num)) (wreg_slope b64num filter_4) (lit b64num 1 0));
     (close_to (n := b64num) (Closeness (lit b64num 5902958103587057 (-69)) (@nmin b64num)) (wreg_at b64num filter_4 (lit b64num 0 0)) (lit b64num 0 0));
     (close_to (n := b64num) (Closeness (lit b64num 5902958103587057 (-69)) (@nmin b64num)) (wreg_at b64num filter_4 (lit b64num 1 1)) (lit b64num 1 1));
     (close_to (n := b64num) (Closeness (lit b64num 5902958103587057 (-69)) (@nmin b64num)) (wreg_slope b64num filter_5) (lit b64num 1 0));
     (close_to (n := b64num) (Closeness (lit b64num 5902958103587057 (-69)) (@nmin b64num)) (wreg_at b64num filter_5 (lit b64num 0 0)) (lit b64num 0 0));
     (close_to (n := b64num) (Closeness (lit b64num 5902958103587057 (-69)) (@nmin b64num)) (wreg_at b64num filter_5 (lit b64num 3 0)) (lit b64num 3 0));
     (close_to (n := b64num) (Closeness (lit b64num 5902958103587057 (-69)) (@nmin b64num)) (wreg_slope b64num filter_6) (lit b64num 1 0));
     (close_to (n := b64num) (Closeness (lit b64num 5902958103587057 (-69)) (@nmin b64num)) (wreg_at b64num filter_6 (lit b64num 0 0)) (lit b64num 0 0));
     (close_to (n := b64num) (Closeness (lit b64num 5902958103587057 (-69)) (@nmin b64num)) (wreg_at b64num filter_6 (lit b64num 1 2)) (lit b64num 1 2));
     (close_to (n := b64num) (Closeness (lit b64num 5902958103587057 (-69)) (@nmin b64num)) (wreg_slope b64num filter_7) (lit b64num 1 0));
     (close_to (n := b64num) (Closeness (lit b64num 5902958103587057 (-69)) (@nmin b64num)) (wreg_at b64num filter_7 (lit b64num 0 0)) (lit b64num 0 0));
     (close_to (n := b64num) (Closeness (lit b64num 5902958103587057 (-69)) (@nmin b64num)) (wreg_at b64num filter_7 (lit b64num 5 0)) (lit b64num 5 0))]) = true.
Proof. vm_compute. reflexivity. Qed.

(** test/window/regression_suite.cpp:95 *)
Example window_regression_double_suite_test_exponential_increase :
  (let filter_1 := wreg_init b64num in
   let filter_2 := wreg_push b64num 4 filter_1 ((lit b64num 1 0), (lit b64num 1 0)) in
   let filter_3 := wreg_push b64num 4 filter_2 ((lit b64num 5 1), (lit b64num 5 1)) in
   let filter_4 := wreg_push b64num 4 filter_3 ((lit b64num 25 2), (lit b64num 25 2)) in
   let filter_5 := wreg_push b64num 4 filter_4 ((lit b64num 125 3), (lit b64num 125 3)) in
   let filter_6 := wreg_push b64num 4 filter_5 ((lit b64num 625 4), (lit b64num 625 4)) in
   let filter_7 := wreg_push b64num 4 filter_6 ((lit b64num 3125 5), (lit b64num 3125 5)) in
   let filter_8 := wreg_push b64num 4 filter_7 ((lit b64num 15625 6), (lit b64num 15625 6)) in
   all_true [(close_to (n := b64num) (Closeness (lit b64num 5902958103587057 (-69)) (@nmin b64num)) (wreg_slope b64num filter_2) (lit b64num 0 0));
     (close_to (n := b64num) (Closeness (lit b64num 5902958103587057 (-69)) (@nmin b64num)) (wreg_at b64num filter_2 (lit b64num 0 0)) (lit b64num 1 0));
     (close_to (n := b64num) (Closeness (lit b64num 5902958103587057 (-69)) (@nmin b64num)) (wreg_slope b64num filter_3) (lit b64num 1 0));
     (close_to (n := b64num) (Closeness (lit b64num 5902958103587057 (-69)) (@nmin b64num)) (wreg_at b64num filter_3 (lit b64num 0 0)) (lit b64num 0 0));
     (close_to (n := b64num) (Closeness (lit b64num 5902958103587057 (-69)) (@nmin b64num)) (wreg_slope b64num filter_4) (lit b64num 1 0));
     (close_to (n := b64num) (Closeness (lit b64num 5902958103587057 (-69)) (@nmin b64num)) (wreg_at b64num filter_4 (lit b64num 0 0)) (lit b64num 0 0));
     (close_to (n := b64num) (Closeness (lit b64num 5902958103587057 (-69)) (@nmin b64num)) (wreg_slope b64num filter_5) (lit b64num 1 0));
     (close_to (n := b64num) (Closeness (lit b64num 5902958103587057 (-69)) (@nmin b64num)) (wreg_at b64num filter_5 (lit b64num 0 0)) (lit b64num 0 0));
     (close_to (n := b64num) (Closeness (lit b64num 5902958103587057 (-69)) (@nmin b64num)) (wreg_slope b64num filter_6) (lit b64num 1 0));
     (close_to (n := b64num) (Closeness (lit b64num 5902958103587057 (-69)) (@nmin b64num)) (wreg_at b64num filter_6 (lit b64num 0 0)) (lit b64num 0 0));
     (close_to (n := b64num) (Closeness (lit b64num 5902958103587057 (-69)) (@nmin b64num)) (wreg_slope b64num filter_7) (lit b64num 1 0));
     (close_to (n := b64num) (Closeness (lit b64num 5902958103587057 (-69)) (@nmin b64num)) (wreg_at b64num filter_7 (lit b64num 0 0)) (lit b64num 0 0));
     (close_to (n := b64num) (Closeness (lit b64num 5902958103587057 (-69)) (@nmin b64num)) (wreg_slope b64num filter_8) (lit b64num 1 0));
     (close_to (n := b64num) (Closeness (lit b64num 5902958103587057 (-69)) (@nmin b64num)) (wreg_at b64num filter_8 (lit b64num 0 0)) (lit b64num 0 0))]) = true.
Proof. vm_compute. reflexivity. Qed.

(** test/window/regression_suite.cpp:129 *)
Example window_regression_double_suite_test_scatter :
  (let filter_1 := wreg_init b64num in
   let filter_2 := wreg_push b64num 4 filter_1 ((lit b64num 1 0), (lit b64num 1 0)) in
   let filter_3 := wreg_push b64num 4 filter_2 ((lit b64num 1 1), (lit b64num 1 1)) in
   let filter_4 := wreg_push b64num 4 filter_3 ((lit b64num 3 0), (lit b64num 5854679515581645 (-52))) in
   let filter_5 := wreg_push b64num 4 filter_4 ((lit b64num 1 2), (lit b64num 15 (-2))) in
   let filter_6 := wreg_push b64num 4 filter_5 ((lit b64num 5 0), (lit b64num 9 (-2))) in
   let filter_7 := wreg_push b64num 4 filter_6 ((lit b64num 3 1), (lit b64num 9 (-1))) in
   let filter_8 := wreg_push b64num 4 filter_7 ((lit b64num 7 0), (lit b64num 9 (-1))) in
   all_true [(close_to (n := b64num) (Closeness (lit b64num 5902958103587057 (-69)) (@nmin b64num)) (wreg_slope b64num filter_2) (lit b64num 0 0));
     (close_to (n := b64num) (Closeness (lit b64num 5902958103587057 (-69)) (@nmin b64num)) (wreg_at b64num filter_2 (lit b64num 0 0)) (lit b64num 1 0));
     (close_to (n := b64num) (Closeness (lit b64num 5902958103587057 (-69)) (@nmin b64num)) (wreg_at b64num filter_2 (lit b64num 1 0)) (lit b64num 1 0));
     (close_to (n := b64num) (Closeness (lit b64num 5902958103587057 (-69)) (@nmin b64num)) (wreg_slope b64num filter_3) (lit b64num 1 0));
     (close_to (n := b64num) (Closeness (lit b64num 5902958103587057 (-69)) (@nmin b64num)) (wreg_at b64num filter_3 (lit b64num 0 0)) (lit b64num 0 0));
     (close_to (n := b64num) (Closeness (lit b64num 5902958103587057 (-69)) (@nmin b64num)) (wreg_at b64num filter_3 (lit b64num 1 1)) (lit b64num 1 1));
     (close_to (n := b64num) (Closeness (lit b64num 5902958103587057 (-69)) (@nmin b64num)) (wreg_slope b64num filter_4) (lit b64num 5404319552844595 (-55)));
     (close_to (n := b64num) (Closeness (lit b64num 5902958103587057 (-69)) (@nmin b64num)) (wreg_at b64num filter_4 (lit b64num 0 0)) (lit b64num 1276016141421951 (-50)));
     (close_to (n := b64num) (Closeness (lit b64num 5902958103587057 (-69)) (@nmin b64num)) (wreg_at b64num filter_4 (lit b64num 3 0)) (lit b64num 7130684398004527 (-52)));
     (close_to (n := b64num) (Closeness (lit b64num 5902958103587057 (-69)) (@nmin b64num)) (wreg_slope b64num filter_5) (lit b64num 6800435437329449 (-53)));
     (close_to (n := b64num) (Closeness (lit b64num 5902958103587057 (-69)) (@nmin b64num)) (wreg_at b64num filter_5 (lit b64num 0 0)) (lit b64num 1 (-3)));
     (close_to (n := b64num) (Closeness (lit b64num 5902958103587057 (-69)) (@nmin b64num)) (wreg_at b64num filter_5 (lit b64num 1 2)) (lit b64num 7081910414040105 (-51)));
     (close_to (n := b64num) (Closeness (lit b64num 5902958103587057 (-69)) (@nmin b64num)) (wreg_slope b64num filter_6) (lit b64num 5764607523034235 (-54)));
     (close_to (n := b64num) (Closeness (lit b64num 5902958103587057 (-69)) (@nmin b64num)) (wreg_at b64num filter_6 (lit b64num 0 0)) (lit b64num 678354693872681 (-49)));
     (close_to (n := b64num) (Closeness (lit b64num 5902958103587057 (-69)) (@nmin b64num)) (wreg_at b64num filter_6 (lit b64num 5 0)) (lit b64num 6316298477387121 (-51)));
     (close_to (n := b64num) (Closeness (lit b64num 5902958103587057 (-69)) (@nmin b64num)) (wreg_slope b64num filter_7) (lit b64num 1823957849085051 (-51)));
     (close_to (n := b64num) (Closeness (lit b64num 5902958103587057 (-69)) (@nmin b64num)) (wreg_at b64num filter_7 (lit b64num 0 0)) (lit b64num (-6260003482044989) (-53)));
     (close_to (n := b64num) (Closeness (lit b64num 5902958103587057 (-69)) (@nmin b64num)) (wreg_at b64num filter_7 (lit b64num 3 1)) (lit b64num 4689373111999529 (-50)));
     (close_to (n := b64num) (Closeness (lit b64num 5902958103587057 (-69)) (@nmin b64num)) (wreg_slope b64num filter_8) (lit b64num 8106479329266893 (-54)));
     (close_to (n := b64num) (Closeness (lit b64num 5902958103587057 (-69)) (@nmin b64num)) (wreg_at b64num filter_8 (lit b64num 0 0)) (lit b64num 2871044762448691 (-51)));
     (close_to (n := b64num) (Closeness (lit b64num 5902958103587057 (-69)) (@nmin b64num)) (wreg_at b64num filter_8 (lit b64num 7 0)) (lit b64num 4982107087778611 (-50)))]) = true.
Proof. vm_compute. reflexivity. Qed.

(** test/window/regression_suite.cpp:187 *)
Example window_regression_anscombe_quartet_anscombe_I :
  (let filter_1 := wreg_init b64num in
   let filter_2 := wreg_push b64num 12 filter_1 ((lit b64num 5 1), (lit b64num 1131529406376837 (-47))) in
   let filter_3 := wreg_push b64num 12 filter_2 ((lit b64num 1 3), (lit b64num 7825004352556237 (-50))) in
   let filter_4 := wreg_push b64num 12 filter_3 ((lit b64num 13 0), (lit b64num 4267160646933545 (-49))) in
   let filter_5 := wreg_push b64num 12 filter_4 ((lit b64num 9 0), (lit b64num 4959589089641759 (-49))) in
   let filter_6 := wreg_push b64num 12 filter_5 ((lit b64num 11 0), (lit b64num 4689373111999529 (-49))) in
   let filter_7 := wreg_push b64num 12 filter_6 ((lit b64num 7 1), (lit b64num 1401745384019067 (-47))) in
   let filter_8 := wreg_push b64num 12 filter_7 ((lit b64num 3 1), (lit b64num 4075757662770299 (-49))) in
   let filter_9 := wreg_push b64num 12 filter_8 ((lit b64num 1 2), (lit b64num 2398166801574789 (-49))) in
   let filter_10 := wreg_push b64num 12 filter_9 ((lit b64num 3 2), (lit b64num 3051188747543511 (-48))) in
   let filter_11 := wreg_push b64num 12 filter_10 ((lit b64num 7 0), (lit b64num 678354693872681 (-47))) in
   let filter_12 := wreg_push b64num 12 filter_11 ((lit b64num 5 0), (lit b64num 799388933858263 (-47))) in
   all_true [(close_to (n := b64num) (Closeness (lit b64num 3602879701896397 (-56)) (@nmin b64num)) (wreg_slope b64num filter_12) (lit b64num 1 (-1)));
     (close_to (n := b64num) (Closeness (lit b64num 3602879701896397 (-56)) (@nmin b64num)) (wreg_at b64num filter_12 (lit b64num 0 0)) (lit b64num 3 0))]) = true.
Proof. vm_compute. reflexivity. Qed.

(** test/window/regression_suite.cpp:207 *)
Example window_regression_anscombe_quartet_anscombe_II :
  (let filter_1 := wreg_init b64num in
   let filter_2 := wreg_push b64num 12 filter_1 ((lit b64num 5 1), (lit b64num 643170321783849 (-46))) in
   let filter_3 := wreg_push b64num 12 filter_2 ((lit b64num 1 3), (lit b64num 572801577606185 (-46))) in
   let filter_4 := wreg_push b64num 12 filter_3 ((lit b64num 13 0), (lit b64num 4920182592902267 (-49))) in
   let filter_5 := wreg_push b64num 12 filter_4 ((lit b64num 9 0), (lit b64num 2468535545752453 (-48))) in
   let filter_6 := wreg_push b64num 12 filter_5 ((lit b64num 11 0), (lit b64num 5212916568681349 (-49))) in
   let filter_7 := wreg_push b64num 12 filter_6 ((lit b64num 7 1), (lit b64num 4559894622712627 (-49))) in
   let filter_8 := wreg_push b64num 12 filter_7 ((lit b64num 3 1), (lit b64num 6901766428945285 (-50))) in
   let filter_9 := wreg_push b64num 12 filter_8 ((lit b64num 1 2), (lit b64num 6980579422424269 (-51))) in
   let filter_10 := wreg_push b64num 12 filter_9 ((lit b64num 3 2), (lit b64num 5139733074736579 (-49))) in
   let filter_11 := wreg_push b64num 12 filter_10 ((lit b64num 7 0), (lit b64num 4087016661838725 (-49))) in
   let filter_12 := wreg_push b64num 12 filter_11 ((lit b64num 5 0), (lit b64num 2668382779217019 (-49))) in
   all_true [(close_to (n := b64num) (Closeness (lit b64num 3602879701896397 (-56)) (@nmin b64num)) (wreg_slope b64num filter_12) (lit b64num 1 (-1)));
     (close_to (n := b64num) (Closeness (lit b64num 3602879701896397 (-56)) (@nmin b64num)) (wreg_at b64num filter_12 (lit b64num 0 0)) (lit b64num 3 0))]) = true.
Proof. vm_compute. reflexivity. Qed.

(** test/window/regression_suite.cpp:227 *)
Example window_regression_anscombe_quartet_anscombe_III :
  (let filter_1 := wreg_init b64num in
   let filter_2 := wreg_push b64num 12 filter_1 ((lit b64num 5 1), (lit b64num 8399213305045975 (-50))) in
   let filter_3 := wreg_push b64num 12 filter_2 ((lit b64num 1 3), (lit b64num 1905585592331141 (-48))) in
   let filter_4 := wreg_push b64num 12 filter_3 ((lit b64num 13 0), (lit b64num 7171982406587515 (-49))) in
   let filter_5 := wreg_push b64num 12 filter_4 ((lit b64num 9 0), (lit b64num 8005148337651057 (-50))) in
   let filter_6 := wreg_push b64num 12 filter_5 ((lit b64num 11 0), (lit b64num 8793278272440893 (-50))) in
   let filter_7 := wreg_push b64num 12 filter_6 ((lit b64num 7 1), (lit b64num 2488238794122199 (-48))) in
   let filter_8 := wreg_push b64num 12 filter_7 ((lit b64num 3 1), (lit b64num 3422735716801577 (-49))) in
   let filter_9 := wreg_push b64num 12 filter_8 ((lit b64num 1 2), (lit b64num 6068600497881743 (-50))) in
   let filter_10 := wreg_push b64num 12 filter_9 ((lit b64num 3 2), (lit b64num 4588042120383693 (-49))) in
   let filter_11 := wreg_push b64num 12 filter_10 ((lit b64num 7 0), (lit b64num 3614138700964823 (-49))) in
   let filter_12 := wreg_push b64num 12 filter_11 ((lit b64num 5 0), (lit b64num 1612851616552059 (-48))) in
   all_true [(close_to (n := b64num) (Closeness (lit b64num 3602879701896397 (-56)) (@nmin b64num)) (wreg_slope b64num filter_12) (lit b64num 1 (-1)));
     (close_to (n := b64num) (Closeness (lit b64num 3602879701896397 (-56)) (@nmin b64num)) (wreg_at b64num filter_12 (lit b64num 0 0)) (lit b64num 3 0))]) = true.
Proof. vm_compute. reflexivity. Qed.

(** test/window/regression_suite.cpp:247 *)
Example window_regression_anscombe_quartet_anscombe_IV :
  (let filter_1 := wreg_init b64num in
   let filter_2 := wreg_push b64num 12 filter_1 ((lit b64num 1 3), (lit b64num 3704210693512233 (-49))) in
   let filter_3 := wreg_push b64num 12 filter_2 ((lit b64num 1 3), (lit b64num 3242591731706757 (-49))) in
   let filter_4 := wreg_push b64num 12 filter_3 ((lit b64num 1 3), (lit b64num 8680688281756631 (-50))) in
   let filter_5 := wreg_push b64num 12 filter_4 ((lit b64num 1 3), (lit b64num 2488238794122199 (-48))) in
   let filter_6 := wreg_push b64num 12 filter_5 ((lit b64num 1 3), (lit b64num 4768186105478513 (-49))) in
   let filter_7 := wreg_push b64num 12 filter_6 ((lit b64num 1 3), (lit b64num 7926335344172073 (-50))) in
   let filter_8 := wreg_push b64num 12 filter_7 ((lit b64num 1 3), (lit b64num 21 (-2))) in
   let filter_9 := wreg_push b64num 12 filter_8 ((lit b64num 19 0), (lit b64num 25 (-1))) in
   let filter_10 := wreg_push b64num 12 filter_9 ((lit b64num 1 3), (lit b64num 6260003482044989 (-50))) in
   let filter_11 := wreg_push b64num 12 filter_10 ((lit b64num 1 3), (lit b64num 2226467065781289 (-48))) in
   let filter_12 := wreg_push b64num 12 filter_11 ((lit b64num 1 3), (lit b64num 7757450358145679 (-50))) in
   all_true [(close_to (n := b64num) (Closeness (lit b64num 3602879701896397 (-56)) (@nmin b64num)) (wreg_slope b64num filter_12) (lit b64num 1 (-1)));
     (close_to (n := b64num) (Closeness (lit b64num 3602879701896397 (-56)) (@nmin b64num)) (wreg_at b64num filter_12 (lit b64num 0 0)) (lit b64num 3 0))]) = true.
Proof. vm_compute. reflexivity. Qed.

