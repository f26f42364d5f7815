(** * Conformance with test/cumulative/moment_suite.cpp, test/cumulative/comoment_suite.cpp, test/cumulative/correlation_suite.cpp, test/cumulative/regression_suite.cpp, test/cumulative/trend_suite.cpp

    Generated by tools/mkconformance.py: the unit tests of the repository,
    executed on the model.  These are tests of the transcription, not proofs of
    properties. *)

From Coq Require Import ZArith NArith Bool List QArith.
From Verif Require Import Arith Cumulative CInt IntMoments PushIterator CloseTo Conformance.
Import ListNotations.
Local Open Scope Z_scope.

(** test/cumulative/moment_suite.cpp:25 *)
Example cumulative_moment_mean_double_suite_test_ctor :
  (let filter_1 := cmean_init b64num in
   all_true [(N.eqb (cmean_size b64num filter_1) 0)]) = true.
Proof. vm_compute. reflexivity. Qed.

(** test/cumulative/moment_suite.cpp:31 *)
Example cumulative_moment_mean_double_suite_test_same :
  (let filter_1 := cmean_init b64num in
   let filter_2 := cmean_push b64num filter_1 (lit b64num 1 0) in
   let filter_3 := cmean_push b64num filter_2 (lit b64num 1 0) in
   let filter_4 := cmean_push b64num filter_3 (lit b64num 1 0) in
   all_true [(N.eqb (cmean_size b64num filter_2) 1);
     (neq (n := b64num) (cmean_mean b64num filter_2) (lit b64num 1 0));
     (N.eqb (cmean_size b64num filter_3) 2);
     (neq (n := b64num) (cmean_mean b64num filter_3) (lit b64num 1 0));
     (neq (n := b64num) (cmean_unbiased_mean b64num filter_3) (lit b64num 1 1));
     (N.eqb (cmean_size b64num filter_4) 3);
     (neq (n := b64num) (cmean_mean b64num filter_4) (lit b64num 1 0));
     (neq (n := b64num) (cmean_unbiased_mean b64num filter_4) (lit b64num 3 (-1)))]) = true.
Proof. vm_compute. reflexivity. Qed.

(** test/cumulative/moment_suite.cpp:48 *)
Example cumulative_moment_mean_double_suite_test_linear_increase :
  (let filter_1 := cmean_init b64num in
   let filter_2 := cmean_push b64num filter_1 (lit b64num 1 0) in
   let filter_3 := cmean_push b64num filter_2 (lit b64num 3 0) in
   let filter_4 := cmean_push b64num filter_3 (lit b64num 5 0) in
   all_true [(N.eqb (cmean_size b64num filter_2) 1);
     (neq (n := b64num) (cmean_mean b64num filter_2) (lit b64num 1 0));
     (N.eqb (cmean_size b64num filter_3) 2);
     (neq (n := b64num) (cmean_mean b64num filter_3) (lit b64num 1 1));
     (neq (n := b64num) (cmean_unbiased_mean b64num filter_3) (lit b64num 1 2));
     (N.eqb (cmean_size b64num filter_4) 3);
     (neq (n := b64num) (cmean_mean b64num filter_4) (lit b64num 3 0));
     (neq (n := b64num) (cmean_unbiased_mean b64num filter_4) (lit b64num 9 (-1)))]) = true.
Proof. vm_compute. reflexivity. Qed.

(** test/cumulative/moment_suite.cpp:65 *)
Example cumulative_moment_mean_double_suite_test_linear_decrease :
  (let filter_1 := cmean_init b64num in
   let filter_2 := cmean_push b64num filter_1 (lit b64num 5 0) in
   let filter_3 := cmean_push b64num filter_2 (lit b64num 3 0) in
   let filter_4 := cmean_push b64num filter_3 (lit b64num 1 0) in
   all_true [(N.eqb (cmean_size b64num filter_2) 1);
     (neq (n := b64num) (cmean_mean b64num filter_2) (lit b64num 5 0));
     (N.eqb (cmean_size b64num filter_3) 2);
     (neq (n := b64num) (cmean_mean b64num filter_3) (lit b64num 1 2));
     (neq (n := b64num) (cmean_unbiased_mean b64num filter_3) (lit b64num 1 3));
     (N.eqb (cmean_size b64num filter_4) 3);
     (neq (n := b64num) (cmean_mean b64num filter_4) (lit b64num 3 0));
     (neq (n := b64num) (cmean_unbiased_mean b64num filter_4) (lit b64num 9 (-1)))]) = true.
Proof. vm_compute. reflexivity. Qed.

(** test/cumulative/moment_suite.cpp:82 *)
Example cumulative_moment_mean_double_suite_test_exponential_increase :
  (let filter_1 := cmean_init b64num in
   let filter_2 := cmean_push b64num filter_1 (lit b64num 1 0) in
   let filter_3 := cmean_push b64num filter_2 (lit b64num 5 1) in
   let filter_4 := cmean_push b64num filter_3 (lit b64num 25 2) in
   let filter_5 := cmean_push b64num filter_4 (lit b64num 125 3) in
   let filter_6 := cmean_push b64num filter_5 (lit b64num 625 4) in
   let filter_7 := cmean_push b64num filter_6 (lit b64num 3125 5) in
   let filter_8 := cmean_push b64num filter_7 (lit b64num 15625 6) in
   let filter_9 := cmean_push b64num filter_8 (lit b64num 78125 7) in
   let filter_10 := cmean_push b64num filter_9 (lit b64num 390625 8) in
   let filter_11 := cmean_push b64num filter_10 (lit b64num 1953125 9) in
   all_true [(neq (n := b64num) (cmean_mean b64num filter_2) (lit b64num 1 0));
     (close_to (n := b64num) (Closeness (lit b64num 5902958103587057 (-69)) (@nmin b64num)) (cmean_mean b64num filter_3) (lit b64num 11 (-1)));
     (close_to (n := b64num) (Closeness (lit b64num 5902958103587057 (-69)) (@nmin b64num)) (cmean_unbiased_mean b64num filter_3) (lit b64num 11 0));
     (close_to (n := b64num) (Closeness (lit b64num 5902958103587057 (-69)) (@nmin b64num)) (cmean_mean b64num filter_4) (lit b64num 37 0));
     (close_to (n := b64num) (Closeness (lit b64num 5902958103587057 (-69)) (@nmin b64num)) (cmean_unbiased_mean b64num filter_4) (lit b64num 111 (-1)));
     (close_to (n := b64num) (Closeness (lit b64num 5902958103587057 (-69)) (@nmin b64num)) (cmean_mean b64num filter_5) (lit b64num 1111 (-2)));
     (close_to (n := b64num) (Closeness (lit b64num 5902958103587057 (-69)) (@nmin b64num)) (cmean_unbiased_mean b64num filter_5) (lit b64num 1628743078010631 (-42)));
     (close_to (n := b64num) (Closeness (lit b64num 5902958103587057 (-69)) (@nmin b64num)) (cmean_mean b64num filter_6) (lit b64num 2443334739243827 (-40)));
     (close_to (n := b64num) (Closeness (lit b64num 5902958103587057 (-69)) (@nmin b64num)) (cmean_unbiased_mean b64num filter_6) (lit b64num 11111 (-2)));
     (close_to (n := b64num) (Closeness (lit b64num 5902958103587057 (-69)) (@nmin b64num)) (cmean_mean b64num filter_7) (lit b64num 37037 (-1)));
     (close_to (n := b64num) (Closeness (lit b64num 5902958103587057 (-69)) (@nmin b64num)) (cmean_unbiased_mean b64num filter_7) (lit b64num 6108391823690957 (-38)));
     (close_to (n := b64num) (Closeness (lit b64num 5902958103587057 (-69)) (@nmin b64num)) (cmean_mean b64num filter_8) (lit b64num 79365 1));
     (close_to (n := b64num) (Closeness (lit b64num 5902958103587057 (-69)) (@nmin b64num)) (cmean_unbiased_mean b64num filter_8) (lit b64num 185185 0));
     (close_to (n := b64num) (Closeness (lit b64num 5902958103587057 (-69)) (@nmin b64num)) (cmean_mean b64num filter_9) (lit b64num 694445 1));
     (close_to (n := b64num) (Closeness (lit b64num 5902958103587057 (-69)) (@nmin b64num)) (cmean_unbiased_mean b64num filter_9) (lit b64num 396825 2));
     (close_to (n := b64num) (Closeness (lit b64num 5902958103587057 (-69)) (@nmin b64num)) (cmean_mean b64num filter_10) (lit b64num 3086425 2));
     (close_to (n := b64num) (Closeness (lit b64num 5902958103587057 (-69)) (@nmin b64num)) (cmean_unbiased_mean b64num filter_10) (lit b64num 3472225 2));
     (close_to (n := b64num) (Closeness (lit b64num 5902958103587057 (-69)) (@nmin b64num)) (cmean_mean b64num filter_11) (lit b64num 13888875 3));
     (close_to (n := b64num) (Closeness (lit b64num 5902958103587057 (-69)) (@nmin b64num)) (cmean_unbiased_mean b64num filter_11) (lit b64num 241125 9))]) = true.
Proof. vm_compute. reflexivity. Qed.

(** test/cumulative/moment_suite.cpp:134 *)
Example cumulative_moment_mean_int_suite_test_ctor :
  (let filter_1 := icm_init in
   all_true [(N.eqb (icm_count filter_1) 0)]) = true.
Proof. vm_compute. reflexivity. Qed.

(** test/cumulative/moment_suite.cpp:140 *)
Example cumulative_moment_mean_int_suite_test_same :
  (let filter_1 := icm_init in
   let filter_2 := match icm_push int32 filter_1 (1) with Some s => s | None => filter_1 end in
   let filter_3 := match icm_push int32 filter_2 (1) with Some s => s | None => filter_2 end in
   let filter_4 := match icm_push int32 filter_3 (1) with Some s => s | None => filter_3 end in
   all_true [(is_some (icm_push int32 filter_1 (1)));
     (N.eqb (icm_count filter_2) 1);
     (Z.eqb (icm_mean filter_2) (1));
     (is_some (icm_push int32 filter_2 (1)));
     (N.eqb (icm_count filter_3) 2);
     (Z.eqb (icm_mean filter_3) (1));
     (is_some (icm_push int32 filter_3 (1)));
     (N.eqb (icm_count filter_4) 3);
     (Z.eqb (icm_mean filter_4) (1))]) = true.
Proof. vm_compute. reflexivity. Qed.

(** test/cumulative/moment_suite.cpp:154 *)
Example cumulative_moment_mean_int_suite_test_linear_increase :
  (let filter_1 := icm_init in
   let filter_2 := match icm_push int32 filter_1 (1) with Some s => s | None => filter_1 end in
   let filter_3 := match icm_push int32 filter_2 (3) with Some s => s | None => filter_2 end in
   let filter_4 := match icm_push int32 filter_3 (5) with Some s => s | None => filter_3 end in
   all_true [(is_some (icm_push int32 filter_1 (1)));
     (N.eqb (icm_count filter_2) 1);
     (Z.eqb (icm_mean filter_2) (1));
     (is_some (icm_push int32 filter_2 (3)));
     (N.eqb (icm_count filter_3) 2);
     (Z.eqb (icm_mean filter_3) (2));
     (is_some (icm_push int32 filter_3 (5)));
     (N.eqb (icm_count filter_4) 3);
     (Z.eqb (icm_mean filter_4) (3))]) = true.
Proof. vm_compute. reflexivity. Qed.

(** test/cumulative/moment_suite.cpp:182 *)
Example cumulative_moment_variance_double_suite_test_ctor :
  (let filter_1 := cvar_init b64num in
   all_true [(N.eqb (cvar_size b64num filter_1) 0)]) = true.
Proof. vm_compute. reflexivity. Qed.

(** test/cumulative/moment_suite.cpp:188 *)
Example cumulative_moment_variance_double_suite_test_same :
  (let filter_1 := cvar_init b64num in
   let filter_2 := cvar_push b64num filter_1 (lit b64num 1 0) in
   let filter_3 := cvar_push b64num filter_2 (lit b64num 1 0) in
   let filter_4 := cvar_push b64num filter_3 (lit b64num 1 0) in
   all_true [(neq (n := b64num) (cvar_mean b64num filter_2) (lit b64num 1 0));
     (neq (n := b64num) (cvar_variance b64num filter_2) (lit b64num 0 0));
     (neq (n := b64num) (cvar_mean b64num filter_3) (lit b64num 1 0));
     (neq (n := b64num) (cvar_variance b64num filter_3) (lit b64num 0 0));
     (neq (n := b64num) (cvar_unbiased_variance b64num filter_3) (lit b64num 0 0));
     (neq (n := b64num) (cvar_mean b64num filter_4) (lit b64num 1 0));
     (neq (n := b64num) (cvar_variance b64num filter_4) (lit b64num 0 0));
     (neq (n := b64num) (cvar_unbiased_variance b64num filter_4) (lit b64num 0 0))]) = true.
Proof. vm_compute. reflexivity. Qed.

(** test/cumulative/moment_suite.cpp:205 *)
Example cumulative_moment_variance_double_suite_test_linear_increase :
  (let filter_1 := cvar_init b64num in
   let filter_2 := cvar_push b64num filter_1 (lit b64num 1 0) in
   let filter_3 := cvar_push b64num filter_2 (lit b64num 1 1) in
   let filter_4 := cvar_push b64num filter_3 (lit b64num 3 0) in
   let filter_5 := cvar_push b64num filter_4 (lit b64num 1 2) in
   let filter_6 := cvar_push b64num filter_5 (lit b64num 5 0) in
   let filter_7 := cvar_push b64num filter_6 (lit b64num 3 1) in
   let filter_8 := cvar_push b64num filter_7 (lit b64num 7 0) in
   let filter_9 := cvar_push b64num filter_8 (lit b64num 1 3) in
   let filter_10 := cvar_push b64num filter_9 (lit b64num 9 0) in
   let filter_11 := cvar_push b64num filter_10 (lit b64num 5 1) in
   all_true [(neq (n := b64num) (cvar_mean b64num filter_2) (lit b64num 1 0));
     (neq (n := b64num) (cvar_variance b64num filter_2) (lit b64num 0 0));
     (close_to (n := b64num) (Closeness (lit b64num 5902958103587057 (-69)) (@nmin b64num)) (cvar_mean b64num filter_3) (lit b64num 3 (-1)));
     (close_to (n := b64num) (Closeness (lit b64num 5902958103587057 (-69)) (@nmin b64num)) (cvar_variance b64num filter_3) (lit b64num 1 (-2)));
     (close_to (n := b64num) (Closeness (lit b64num 5902958103587057 (-69)) (@nmin b64num)) (cvar_unbiased_variance b64num filter_3) (lit b64num 1 (-1)));
     (close_to (n := b64num) (Closeness (lit b64num 5902958103587057 (-69)) (@nmin b64num)) (cvar_mean b64num filter_4) (lit b64num 1 1));
     (close_to (n := b64num) (Closeness (lit b64num 5902958103587057 (-69)) (@nmin b64num)) (cvar_variance b64num filter_4) (lit b64num 6004802505560413 (-53)));
     (close_to (n := b64num) (Closeness (lit b64num 5902958103587057 (-69)) (@nmin b64num)) (cvar_unbiased_variance b64num filter_4) (lit b64num 1 0));
     (close_to (n := b64num) (Closeness (lit b64num 5902958103587057 (-69)) (@nmin b64num)) (cvar_mean b64num filter_5) (lit b64num 5 (-1)));
     (close_to (n := b64num) (Closeness (lit b64num 5902958103587057 (-69)) (@nmin b64num)) (cvar_variance b64num filter_5) (lit b64num 5 (-2)));
     (close_to (n := b64num) (Closeness (lit b64num 5902958103587057 (-69)) (@nmin b64num)) (cvar_unbiased_variance b64num filter_5) (lit b64num 3753000440075351 (-51)));
     (close_to (n := b64num) (Closeness (lit b64num 5902958103587057 (-69)) (@nmin b64num)) (cvar_mean b64num filter_6) (lit b64num 3 0));
     (close_to (n := b64num) (Closeness (lit b64num 5902958103587057 (-69)) (@nmin b64num)) (cvar_variance b64num filter_6) (lit b64num 1 1));
     (close_to (n := b64num) (Closeness (lit b64num 5902958103587057 (-69)) (@nmin b64num)) (cvar_unbiased_variance b64num filter_6) (lit b64num 5 (-1)));
     (close_to (n := b64num) (Closeness (lit b64num 5902958103587057 (-69)) (@nmin b64num)) (cvar_mean b64num filter_7) (lit b64num 7 (-1)));
     (close_to (n := b64num) (Closeness (lit b64num 5902958103587057 (-69)) (@nmin b64num)) (cvar_variance b64num filter_7) (lit b64num 820969620322669 (-48)));
     (close_to (n := b64num) (Closeness (lit b64num 5902958103587057 (-69)) (@nmin b64num)) (cvar_unbiased_variance b64num filter_7) (lit b64num 7 (-1)));
     (close_to (n := b64num) (Closeness (lit b64num 5902958103587057 (-69)) (@nmin b64num)) (cvar_mean b64num filter_8) (lit b64num 1 2));
     (close_to (n := b64num) (Closeness (lit b64num 5902958103587057 (-69)) (@nmin b64num)) (cvar_variance b64num filter_8) (lit b64num 1 2));
     (close_to (n := b64num) (Closeness (lit b64num 5902958103587057 (-69)) (@nmin b64num)) (cvar_unbiased_variance b64num filter_8) (lit b64num 1313550829566317 (-48)));
     (close_to (n := b64num) (Closeness (lit b64num 5902958103587057 (-69)) (@nmin b64num)) (cvar_mean b64num filter_9) (lit b64num 9 (-1)));
     (close_to (n := b64num) (Closeness (lit b64num 5902958103587057 (-69)) (@nmin b64num)) (cvar_variance b64num filter_9) (lit b64num 21 (-2)));
     (close_to (n := b64num) (Closeness (lit b64num 5902958103587057 (-69)) (@nmin b64num)) (cvar_unbiased_variance b64num filter_9) (lit b64num 3 1));
     (close_to (n := b64num) (Closeness (lit b64num 5902958103587057 (-69)) (@nmin b64num)) (cvar_mean b64num filter_10) (lit b64num 5 0));
     (close_to (n := b64num) (Closeness (lit b64num 5902958103587057 (-69)) (@nmin b64num)) (cvar_variance b64num filter_10) (lit b64num 1876500782987629 (-48)));
     (close_to (n := b64num) (Closeness (lit b64num 5902958103587057 (-69)) (@nmin b64num)) (cvar_unbiased_variance b64num filter_10) (lit b64num 15 (-1)));
     (close_to (n := b64num) (Closeness (lit b64num 5902958103587057 (-69)) (@nmin b64num)) (cvar_mean b64num filter_11) (lit b64num 11 (-1)));
     (close_to (n := b64num) (Closeness (lit b64num 5902958103587057 (-69)) (@nmin b64num)) (cvar_variance b64num filter_11) (lit b64num 33 (-2)));
     (close_to (n := b64num) (Closeness (lit b64num 5902958103587057 (-69)) (@nmin b64num)) (cvar_unbiased_variance b64num filter_11) (lit b64num 2580188224764269 (-48)))]) = true.
Proof. vm_compute. reflexivity. Qed.

(** test/cumulative/moment_suite.cpp:251 *)
Example cumulative_moment_variance_double_suite_test_exponential_increase :
  (let filter_1 := cvar_init b64num in
   let filter_2 := cvar_push b64num filter_1 (lit b64num 1 0) in
   let filter_3 := cvar_push b64num filter_2 (lit b64num 5 1) in
   let filter_4 := cvar_push b64num filter_3 (lit b64num 25 2) in
   let filter_5 := cvar_push b64num filter_4 (lit b64num 125 3) in
   let filter_6 := cvar_push b64num filter_5 (lit b64num 625 4) in
   let filter_7 := cvar_push b64num filter_6 (lit b64num 3125 5) in
   let filter_8 := cvar_push b64num filter_7 (lit b64num 15625 6) in
   let filter_9 := cvar_push b64num filter_8 (lit b64num 78125 7) in
   let filter_10 := cvar_push b64num filter_9 (lit b64num 390625 8) in
   let filter_11 := cvar_push b64num filter_10 (lit b64num 1953125 9) in
   all_true [(neq (n := b64num) (cvar_mean b64num filter_2) (lit b64num 1 0));
     (neq (n := b64num) (cvar_variance b64num filter_2) (lit b64num 0 0));
     (close_to (n := b64num) (Closeness (lit b64num 5902958103587057 (-69)) (@nmin b64num)) (cvar_mean b64num filter_3) (lit b64num 11 (-1)));
     (close_to (n := b64num) (Closeness (lit b64num 5902958103587057 (-69)) (@nmin b64num)) (cvar_variance b64num filter_3) (lit b64num 81 (-2)));
     (close_to (n := b64num) (Closeness (lit b64num 5902958103587057 (-69)) (@nmin b64num)) (cvar_unbiased_variance b64num filter_3) (lit b64num 81 (-1)));
     (close_to (n := b64num) (Closeness (lit b64num 5902958103587057 (-69)) (@nmin b64num)) (cvar_mean b64num filter_4) (lit b64num 37 0));
     (close_to (n := b64num) (Closeness (lit b64num 5902958103587057 (-69)) (@nmin b64num)) (cvar_variance b64num filter_4) (lit b64num 999 1));
     (close_to (n := b64num) (Closeness (lit b64num 5902958103587057 (-69)) (@nmin b64num)) (cvar_unbiased_variance b64num filter_4) (lit b64num 2997 0));
     (close_to (n := b64num) (Closeness (lit b64num 5902958103587057 (-69)) (@nmin b64num)) (cvar_mean b64num filter_5) (lit b64num 1111 (-2)));
     (close_to (n := b64num) (Closeness (lit b64num 5902958103587057 (-69)) (@nmin b64num)) (cvar_variance b64num filter_5) (lit b64num 43845 2));
     (close_to (n := b64num) (Closeness (lit b64num 5902958103587057 (-69)) (@nmin b64num)) (cvar_unbiased_variance b64num filter_5) (lit b64num 14615 4));
     (close_to (n := b64num) (Closeness (lit b64num 5902958103587057 (-69)) (@nmin b64num)) (cvar_mean b64num filter_6) (lit b64num 2443334739243827 (-40)));
     (close_to (n := b64num) (Closeness (lit b64num 5902958103587057 (-69)) (@nmin b64num)) (cvar_variance b64num filter_6) (lit b64num 1907975 3));
     (close_to (n := b64num) (Closeness (lit b64num 5902958103587057 (-69)) (@nmin b64num)) (cvar_unbiased_variance b64num filter_6) (lit b64num 2384975 3));
     (close_to (n := b64num) (Closeness (lit b64num 5902958103587057 (-69)) (@nmin b64num)) (cvar_mean b64num filter_7) (lit b64num 37037 (-1)));
     (close_to (n := b64num) (Closeness (lit b64num 5902958103587057 (-69)) (@nmin b64num)) (cvar_variance b64num filter_7) (lit b64num 83785625 4));
     (close_to (n := b64num) (Closeness (lit b64num 5902958103587057 (-69)) (@nmin b64num)) (cvar_unbiased_variance b64num filter_7) (lit b64num 25135625 6));
     (close_to (n := b64num) (Closeness (lit b64num 5902958103587057 (-69)) (@nmin b64num)) (cvar_mean b64num filter_8) (lit b64num 79365 1));
     (close_to (n := b64num) (Closeness (lit b64num 5902958103587057 (-69)) (@nmin b64num)) (cvar_variance b64num filter_8) (lit b64num 1861015625 6));
     (close_to (n := b64num) (Closeness (lit b64num 5902958103587057 (-69)) (@nmin b64num)) (cvar_unbiased_variance b64num filter_8) (lit b64num 542796875 8));
     (close_to (n := b64num) (Closeness (lit b64num 5902958103587057 (-69)) (@nmin b64num)) (cvar_mean b64num filter_9) (lit b64num 694445 1));
     (close_to (n := b64num) (Closeness (lit b64num 5902958103587057 (-69)) (@nmin b64num)) (cvar_variance b64num filter_9) (lit b64num 41786328125 8));
     (close_to (n := b64num) (Closeness (lit b64num 5902958103587057 (-69)) (@nmin b64num)) (cvar_unbiased_variance b64num filter_9) (lit b64num 23877734375 9));
     (close_to (n := b64num) (Closeness (lit b64num 5902958103587057 (-69)) (@nmin b64num)) (cvar_mean b64num filter_10) (lit b64num 3086425 2));
     (close_to (n := b64num) (Closeness (lit b64num 5902958103587057 (-69)) (@nmin b64num)) (cvar_variance b64num filter_10) (lit b64num 1894373046875 9));
     (close_to (n := b64num) (Closeness (lit b64num 5902958103587057 (-69)) (@nmin b64num)) (cvar_unbiased_variance b64num filter_10) (lit b64num 266396484375 12));
     (close_to (n := b64num) (Closeness (lit b64num 5902958103587057 (-69)) (@nmin b64num)) (cvar_mean b64num filter_11) (lit b64num 13888875 3));
     (close_to (n := b64num) (Closeness (lit b64num 5902958103587057 (-69)) (@nmin b64num)) (cvar_variance b64num filter_11) (lit b64num 10823291015625 13));
     (close_to (n := b64num) (Closeness (lit b64num 5902958103587057 (-69)) (@nmin b64num)) (cvar_unbiased_variance b64num filter_11) (lit b64num 6012939453125 14))]) = true.
Proof. vm_compute. reflexivity. Qed.

(** test/cumulative/moment_suite.cpp:297 *)
Example cumulative_moment_variance_double_suite_test_scatter :
  (let filter_1 := cvar_init b64num in
   let filter_2 := cvar_push b64num filter_1 (lit b64num 1 0) in
   let filter_3 := cvar_push b64num filter_2 (lit b64num 3 0) in
   let filter_4 := cvar_push b64num filter_3 (lit b64num 0 0) in
   let filter_5 := cvar_push b64num filter_4 (lit b64num 5 0) in
   let filter_6 := cvar_push b64num filter_5 (lit b64num 1 1) in
   let filter_7 := cvar_push b64num filter_6 (lit b64num 3 0) in
   let filter_8 := cvar_push b64num filter_7 (lit b64num 1 2) in
   let filter_9 := cvar_push b64num filter_8 (lit b64num 1 0) in
   all_true [(neq (n := b64num) (cvar_mean b64num filter_2) (lit b64num 1 0));
     (neq (n := b64num) (cvar_variance b64num filter_2) (lit b64num 0 0));
     (close_to (n := b64num) (Closeness (lit b64num 5902958103587057 (-69)) (@nmin b64num)) (cvar_mean b64num filter_3) (lit b64num 1 1));
     (close_to (n := b64num) (Closeness (lit b64num 5902958103587057 (-69)) (@nmin b64num)) (cvar_variance b64num filter_3) (lit b64num 1 0));
     (close_to (n := b64num) (Closeness (lit b64num 5902958103587057 (-69)) (@nmin b64num)) (cvar_mean b64num filter_4) (lit b64num 6004784491161903 (-52)));
     (close_to (n := b64num) (Closeness (lit b64num 5902958103587057 (-69)) (@nmin b64num)) (cvar_variance b64num filter_4) (lit b64num 7005619436352449 (-52)));
     (close_to (n := b64num) (Closeness (lit b64num 5902958103587057 (-69)) (@nmin b64num)) (cvar_mean b64num filter_5) (lit b64num 9 (-2)));
     (close_to (n := b64num) (Closeness (lit b64num 5902958103587057 (-69)) (@nmin b64num)) (cvar_variance b64num filter_5) (lit b64num 59 (-4)));
     (close_to (n := b64num) (Closeness (lit b64num 5902958103587057 (-69)) (@nmin b64num)) (cvar_mean b64num filter_6) (lit b64num 2476979795053773 (-50)));
     (close_to (n := b64num) (Closeness (lit b64num 5902958103587057 (-69)) (@nmin b64num)) (cvar_variance b64num filter_6) (lit b64num 3332663724254167 (-50)));
     (close_to (n := b64num) (Closeness (lit b64num 5902958103587057 (-69)) (@nmin b64num)) (cvar_mean b64num filter_7) (lit b64num 656774007408275 (-48)));
     (close_to (n := b64num) (Closeness (lit b64num 5902958103587057 (-69)) (@nmin b64num)) (cvar_variance b64num filter_7) (lit b64num 179831547870671 (-46)));
     (close_to (n := b64num) (Closeness (lit b64num 5902958103587057 (-69)) (@nmin b64num)) (cvar_mean b64num filter_8) (lit b64num 5790345594904657 (-51)));
     (close_to (n := b64num) (Closeness (lit b64num 5902958103587057 (-69)) (@nmin b64num)) (cvar_variance b64num filter_8) (lit b64num 5698427126510025 (-51)));
     (close_to (n := b64num) (Closeness (lit b64num 5902958103587057 (-69)) (@nmin b64num)) (cvar_mean b64num filter_9) (lit b64num 19 (-3)));
     (close_to (n := b64num) (Closeness (lit b64num 5902958103587057 (-69)) (@nmin b64num)) (cvar_variance b64num filter_9) (lit b64num 1398581605280839 (-49)))]) = true.
Proof. vm_compute. reflexivity. Qed.

(** test/cumulative/moment_suite.cpp:351 *)
Example cumulative_moment_skewness_double_suite_test_ctor :
  (let filter_1 := cskew_init b64num in
   all_true [(N.eqb (cskew_size b64num filter_1) 0)]) = true.
Proof. vm_compute. reflexivity. Qed.

(** test/cumulative/moment_suite.cpp:357 *)
Example cumulative_moment_skewness_double_suite_test_same :
  (let filter_1 := cskew_init b64num in
   let filter_2 := cskew_push b64num filter_1 (lit b64num 1 0) in
   let filter_3 := cskew_push b64num filter_2 (lit b64num 1 0) in
   let filter_4 := cskew_push b64num filter_3 (lit b64num 1 0) in
   all_true [(neq (n := b64num) (cskew_mean b64num filter_2) (lit b64num 1 0));
     (neq (n := b64num) (cskew_variance b64num filter_2) (lit b64num 0 0));
     (neq (n := b64num) (cskew_skewness b64num filter_2) (lit b64num 0 0));
     (neq (n := b64num) (cskew_unbiased_skewness b64num filter_2) (lit b64num 0 0));
     (neq (n := b64num) (cskew_mean b64num filter_3) (lit b64num 1 0));
     (neq (n := b64num) (cskew_variance b64num filter_3) (lit b64num 0 0));
     (neq (n := b64num) (cskew_skewness b64num filter_3) (lit b64num 0 0));
     (neq (n := b64num) (cskew_unbiased_skewness b64num filter_3) (lit b64num 0 0));
     (neq (n := b64num) (cskew_mean b64num filter_4) (lit b64num 1 0));
     (neq (n := b64num) (cskew_variance b64num filter_4) (lit b64num 0 0));
     (neq (n := b64num) (cskew_skewness b64num filter_4) (lit b64num 0 0));
     (neq (n := b64num) (cskew_unbiased_skewness b64num filter_4) (lit b64num 0 0))]) = true.
Proof. vm_compute. reflexivity. Qed.

(** test/cumulative/moment_suite.cpp:377 *)
Example cumulative_moment_skewness_double_suite_test_linear_increase :
  (let filter_1 := cskew_init b64num in
   let filter_2 := cskew_push b64num filter_1 (lit b64num 1 0) in
   let filter_3 := cskew_push b64num filter_2 (lit b64num 1 1) in
   let filter_4 := cskew_push b64num filter_3 (lit b64num 3 0) in
   let filter_5 := cskew_push b64num filter_4 (lit b64num 1 2) in
   let filter_6 := cskew_push b64num filter_5 (lit b64num 5 0) in
   all_true [(neq (n := b64num) (cskew_mean b64num filter_2) (lit b64num 1 0));
     (neq (n := b64num) (cskew_variance b64num filter_2) (lit b64num 0 0));
     (neq (n := b64num) (cskew_skewness b64num filter_2) (lit b64num 0 0));
     (neq (n := b64num) (cskew_unbiased_skewness b64num filter_2) (lit b64num 0 0));
     (close_to (n := b64num) (Closeness (lit b64num 5902958103587057 (-69)) (@nmin b64num)) (cskew_mean b64num filter_3) (lit b64num 3 (-1)));
     (close_to (n := b64num) (Closeness (lit b64num 5902958103587057 (-69)) (@nmin b64num)) (cskew_variance b64num filter_3) (lit b64num 1 (-2)));
     (neq (n := b64num) (cskew_skewness b64num filter_3) (lit b64num 0 0));
     (neq (n := b64num) (cskew_skewness b64num filter_3) (lit b64num 0 0));
     (close_to (n := b64num) (Closeness (lit b64num 5902958103587057 (-69)) (@nmin b64num)) (cskew_mean b64num filter_4) (lit b64num 1 1));
     (close_to (n := b64num) (Closeness (lit b64num 5902958103587057 (-69)) (@nmin b64num)) (cskew_variance b64num filter_4) (lit b64num 6004802505560413 (-53)));
     (neq (n := b64num) (cskew_skewness b64num filter_4) (lit b64num 0 0));
     (neq (n := b64num) (cskew_unbiased_skewness b64num filter_4) (lit b64num 0 0));
     (close_to (n := b64num) (Closeness (lit b64num 5902958103587057 (-69)) (@nmin b64num)) (cskew_mean b64num filter_5) (lit b64num 5 (-1)));
     (close_to (n := b64num) (Closeness (lit b64num 5902958103587057 (-69)) (@nmin b64num)) (cskew_variance b64num filter_5) (lit b64num 5 (-2)));
     (neq (n := b64num) (cskew_skewness b64num filter_5) (lit b64num 0 0));
     (neq (n := b64num) (cskew_unbiased_skewness b64num filter_5) (lit b64num 0 0));
     (close_to (n := b64num) (Closeness (lit b64num 5902958103587057 (-69)) (@nmin b64num)) (cskew_mean b64num filter_6) (lit b64num 3 0));
     (close_to (n := b64num) (Closeness (lit b64num 5902958103587057 (-69)) (@nmin b64num)) (cskew_variance b64num filter_6) (lit b64num 1 1));
     (neq (n := b64num) (cskew_skewness b64num filter_6) (lit b64num 0 0));
     (neq (n := b64num) (cskew_unbiased_skewness b64num filter_6) (lit b64num 0 0))]) = true.
Proof. vm_compute. reflexivity. Qed.

(** test/cumulative/moment_suite.cpp:408 *)
Example cumulative_moment_skewness_double_suite_test_exponential_increase :
  (let filter_1 := cskew_init b64num in
   let filter_2 := cskew_push b64num filter_1 (lit b64num 1 0) in
   let filter_3 := cskew_push b64num filter_2 (lit b64num 5 1) in
   let filter_4 := cskew_push b64num filter_3 (lit b64num 25 2) in
   let filter_5 := cskew_push b64num filter_4 (lit b64num 125 3) in
   let filter_6 := cskew_push b64num filter_5 (lit b64num 625 4) in
   let filter_7 := cskew_push b64num filter_6 (lit b64num 3125 5) in
   let filter_8 := cskew_push b64num filter_7 (lit b64num 15625 6) in
   let filter_9 := cskew_push b64num filter_8 (lit b64num 78125 7) in
   let filter_10 := cskew_push b64num filter_9 (lit b64num 390625 8) in
   let filter_11 := cskew_push b64num filter_10 (lit b64num 1953125 9) in
   all_true [(neq (n := b64num) (cskew_mean b64num filter_2) (lit b64num 1 0));
     (neq (n := b64num) (cskew_variance b64num filter_2) (lit b64num 0 0));
     (neq (n := b64num) (cskew_skewness b64num filter_2) (lit b64num 0 0));
     (neq (n := b64num) (cskew_unbiased_skewness b64num filter_2) (lit b64num 0 0));
     (close_to (n := b64num) (Closeness (lit b64num 5902958103587057 (-69)) (@nmin b64num)) (cskew_mean b64num filter_3) (lit b64num 11 (-1)));
     (close_to (n := b64num) (Closeness (lit b64num 5902958103587057 (-69)) (@nmin b64num)) (cskew_variance b64num filter_3) (lit b64num 81 (-2)));
     (close_to (n := b64num) (Closeness (lit b64num 5902958103587057 (-69)) (@nmin b64num)) (cskew_skewness b64num filter_3) (lit b64num 0 0));
     (close_to (n := b64num) (Closeness (lit b64num 5902958103587057 (-69)) (@nmin b64num)) (cskew_unbiased_skewness b64num filter_3) (lit b64num 0 0));
     (close_to (n := b64num) (Closeness (lit b64num 5902958103587057 (-69)) (@nmin b64num)) (cskew_mean b64num filter_4) (lit b64num 37 0));
     (close_to (n := b64num) (Closeness (lit b64num 5902958103587057 (-69)) (@nmin b64num)) (cskew_variance b64num filter_4) (lit b64num 999 1));
     (close_to (n := b64num) (Closeness (lit b64num 5902958103587057 (-69)) (@nmin b64num)) (cskew_skewness b64num filter_4) (lit b64num 385997894562391 (-49)));
     (close_to (n := b64num) (Closeness (lit b64num 5902958103587057 (-69)) (@nmin b64num)) (cskew_unbiased_skewness b64num filter_4) (lit b64num 7563975718153843 (-52)));
     (close_to (n := b64num) (Closeness (lit b64num 5902958103587057 (-69)) (@nmin b64num)) (cskew_mean b64num filter_5) (lit b64num 1111 (-2)));
     (close_to (n := b64num) (Closeness (lit b64num 5902958103587057 (-69)) (@nmin b64num)) (cskew_variance b64num filter_5) (lit b64num 43845 2));
     (close_to (n := b64num) (Closeness (lit b64num 5902958103587057 (-69)) (@nmin b64num)) (cskew_skewness b64num filter_5) (lit b64num 1267560633121563 (-50)));
     (close_to (n := b64num) (Closeness (lit b64num 5902958103587057 (-69)) (@nmin b64num)) (cskew_unbiased_skewness b64num filter_5) (lit b64num 8782019273372467 (-52)));
     (close_to (n := b64num) (Closeness (lit b64num 5902958103587057 (-69)) (@nmin b64num)) (cskew_mean b64num filter_6) (lit b64num 2443334739243827 (-40)));
     (close_to (n := b64num) (Closeness (lit b64num 5902958103587057 (-69)) (@nmin b64num)) (cskew_variance b64num filter_6) (lit b64num 1907975 3));
     (close_to (n := b64num) (Closeness (lit b64num 5902958103587057 (-69)) (@nmin b64num)) (cskew_skewness b64num filter_6) (lit b64num 6605654753445675 (-52)));
     (close_to (n := b64num) (Closeness (lit b64num 5902958103587057 (-69)) (@nmin b64num)) (cskew_unbiased_skewness b64num filter_6) (lit b64num 4923560292622795 (-51)));
     (close_to (n := b64num) (Closeness (lit b64num 5902958103587057 (-69)) (@nmin b64num)) (cskew_mean b64num filter_7) (lit b64num 37037 (-1)));
     (close_to (n := b64num) (Closeness (lit b64num 5902958103587057 (-69)) (@nmin b64num)) (cskew_variance b64num filter_7) (lit b64num 83785625 4));
     (close_to (n := b64num) (Closeness (lit b64num 5902958103587057 (-69)) (@nmin b64num)) (cskew_skewness b64num filter_7) (lit b64num 7891522519052499 (-52)));
     (close_to (n := b64num) (Closeness (lit b64num 5902958103587057 (-69)) (@nmin b64num)) (cskew_unbiased_skewness b64num filter_7) (lit b64num 168842764779887 (-46)));
     (close_to (n := b64num) (Closeness (lit b64num 5902958103587057 (-69)) (@nmin b64num)) (cskew_mean b64num filter_8) (lit b64num 79365 1));
     (close_to (n := b64num) (Closeness (lit b64num 5902958103587057 (-69)) (@nmin b64num)) (cskew_variance b64num filter_8) (lit b64num 1861015625 6));
     (close_to (n := b64num) (Closeness (lit b64num 5902958103587057 (-69)) (@nmin b64num)) (cskew_skewness b64num filter_8) (lit b64num 2253837692516633 (-50)));
     (close_to (n := b64num) (Closeness (lit b64num 5902958103587057 (-69)) (@nmin b64num)) (cskew_unbiased_skewness b64num filter_8) (lit b64num 1460652467145073 (-49)));
     (close_to (n := b64num) (Closeness (lit b64num 5902958103587057 (-69)) (@nmin b64num)) (cskew_mean b64num filter_9) (lit b64num 347225 2));
     (close_to (n := b64num) (Closeness (lit b64num 5902958103587057 (-69)) (@nmin b64num)) (cskew_variance b64num filter_9) (lit b64num 41786328125 8));
     (close_to (n := b64num) (Closeness (lit b64num 5902958103587057 (-69)) (@nmin b64num)) (cskew_skewness b64num filter_9) (lit b64num 626504188412811 (-48)));
     (close_to (n := b64num) (Closeness (lit b64num 5902958103587057 (-69)) (@nmin b64num)) (cskew_unbiased_skewness b64num filter_9) (lit b64num 6251108872780933 (-51)));
     (close_to (n := b64num) (Closeness (lit b64num 5902958103587057 (-69)) (@nmin b64num)) (cskew_mean b64num filter_10) (lit b64num 12345679 0));
     (close_to (n := b64num) (Closeness (lit b64num 5902958103587057 (-69)) (@nmin b64num)) (cskew_variance b64num filter_10) (lit b64num 1894373046875 9));
     (close_to (n := b64num) (Closeness (lit b64num 5902958103587057 (-69)) (@nmin b64num)) (cskew_skewness b64num filter_10) (lit b64num 1368255491290033 (-49)));
     (close_to (n := b64num) (Closeness (lit b64num 5902958103587057 (-69)) (@nmin b64num)) (cskew_unbiased_skewness b64num filter_10) (lit b64num 3317126305539739 (-50)));
     (close_to (n := b64num) (Closeness (lit b64num 5902958103587057 (-69)) (@nmin b64num)) (cskew_mean b64num filter_11) (lit b64num 6944375 4));
     (close_to (n := b64num) (Closeness (lit b64num 5902958103587057 (-69)) (@nmin b64num)) (cskew_variance b64num filter_11) (lit b64num 10823291015625 13));
     (close_to (n := b64num) (Closeness (lit b64num 5902958103587057 (-69)) (@nmin b64num)) (cskew_skewness b64num filter_11) (lit b64num 5899918173838581 (-51)));
     (close_to (n := b64num) (Closeness (lit b64num 5902958103587057 (-69)) (@nmin b64num)) (cskew_unbiased_skewness b64num filter_11) (lit b64num 6996432093112613 (-51)))]) = true.
Proof. vm_compute. reflexivity. Qed.

(** test/cumulative/moment_suite.cpp:464 *)
Example cumulative_moment_skewness_double_suite_test_left_skew :
  (let filter_1 := cskew_init b64num in
   let filter_2 := cskew_push b64num filter_1 (lit b64num 1 0) in
   let filter_3 := cskew_push b64num filter_2 (lit b64num 1 1) in
   let filter_4 := cskew_push b64num filter_3 (lit b64num 5 0) in
   let filter_5 := cskew_push b64num filter_4 (lit b64num 15 0) in
   all_true [(neq (n := b64num) (cskew_mean b64num filter_2) (lit b64num 1 0));
     (neq (n := b64num) (cskew_variance b64num filter_2) (lit b64num 0 0));
     (neq (n := b64num) (cskew_skewness b64num filter_2) (lit b64num 0 0));
     (neq (n := b64num) (cskew_unbiased_skewness b64num filter_2) (lit b64num 0 0));
     (close_to (n := b64num) (Closeness (lit b64num 5902958103587057 (-69)) (@nmin b64num)) (cskew_mean b64num filter_3) (lit b64num 3 (-1)));
     (close_to (n := b64num) (Closeness (lit b64num 5902958103587057 (-69)) (@nmin b64num)) (cskew_variance b64num filter_3) (lit b64num 1 (-2)));
     (close_to (n := b64num) (Closeness (lit b64num 5902958103587057 (-69)) (@nmin b64num)) (cskew_skewness b64num filter_3) (lit b64num 0 0));
     (close_to (n := b64num) (Closeness (lit b64num 5902958103587057 (-69)) (@nmin b64num)) (cskew_unbiased_skewness b64num filter_3) (lit b64num 0 0));
     (close_to (n := b64num) (Closeness (lit b64num 5902958103587057 (-69)) (@nmin b64num)) (cskew_mean b64num filter_4) (lit b64num 750600876145005 (-48)));
     (close_to (n := b64num) (Closeness (lit b64num 5902958103587057 (-69)) (@nmin b64num)) (cskew_variance b64num filter_4) (lit b64num 813150245469647 (-48)));
     (close_to (n := b64num) (Closeness (lit b64num 5902958103587057 (-69)) (@nmin b64num)) (cskew_skewness b64num filter_4) (lit b64num 1188950301625811 (-51)));
     (close_to (n := b64num) (Closeness (lit b64num 5902958103587057 (-69)) (@nmin b64num)) (cskew_unbiased_skewness b64num filter_4) (lit b64num 5824685542063357 (-52)));
     (close_to (n := b64num) (Closeness (lit b64num 5902958103587057 (-69)) (@nmin b64num)) (cskew_mean b64num filter_5) (lit b64num 23 (-2)));
     (close_to (n := b64num) (Closeness (lit b64num 5902958103587057 (-69)) (@nmin b64num)) (cskew_variance b64num filter_5) (lit b64num 491 (-4)));
     (close_to (n := b64num) (Closeness (lit b64num 5902958103587057 (-69)) (@nmin b64num)) (cskew_skewness b64num filter_5) (lit b64num 1044992739536913 (-50)));
     (close_to (n := b64num) (Closeness (lit b64num 5902958103587057 (-69)) (@nmin b64num)) (cskew_unbiased_skewness b64num filter_5) (lit b64num 3619948344484131 (-51)))]) = true.
Proof. vm_compute. reflexivity. Qed.

(** test/cumulative/moment_suite.cpp:506 *)
Example cumulative_moment_kurtosis_double_suite_test_ctor :
  (let filter_1 := ckurt_init b64num in
   all_true [(N.eqb (ckurt_size b64num filter_1) 0)]) = true.
Proof. vm_compute. reflexivity. Qed.

(** test/cumulative/moment_suite.cpp:512 *)
Example cumulative_moment_kurtosis_double_suite_test_same :
  (let filter_1 := ckurt_init b64num in
   let filter_2 := ckurt_push b64num filter_1 (lit b64num 1 0) in
   let filter_3 := ckurt_push b64num filter_2 (lit b64num 1 0) in
   let filter_4 := ckurt_push b64num filter_3 (lit b64num 1 0) in
   all_true [(neq (n := b64num) (ckurt_mean b64num filter_2) (lit b64num 1 0));
     (neq (n := b64num) (ckurt_variance b64num filter_2) (lit b64num 0 0));
     (neq (n := b64num) (ckurt_skewness b64num filter_2) (lit b64num 0 0));
     (neq (n := b64num) (ckurt_kurtosis b64num filter_2) (lit b64num 0 0));
     (neq (n := b64num) (ckurt_unbiased_kurtosis b64num filter_2) (lit b64num 0 0));
     (neq (n := b64num) (ckurt_mean b64num filter_3) (lit b64num 1 0));
     (neq (n := b64num) (ckurt_variance b64num filter_3) (lit b64num 0 0));
     (neq (n := b64num) (ckurt_skewness b64num filter_3) (lit b64num 0 0));
     (neq (n := b64num) (ckurt_kurtosis b64num filter_3) (lit b64num 0 0));
     (neq (n := b64num) (ckurt_unbiased_kurtosis b64num filter_3) (lit b64num 0 0));
     (neq (n := b64num) (ckurt_mean b64num filter_4) (lit b64num 1 0));
     (neq (n := b64num) (ckurt_variance b64num filter_4) (lit b64num 0 0));
     (neq (n := b64num) (ckurt_skewness b64num filter_4) (lit b64num 0 0));
     (neq (n := b64num) (ckurt_kurtosis b64num filter_4) (lit b64num 0 0));
     (neq (n := b64num) (ckurt_unbiased_kurtosis b64num filter_4) (lit b64num 0 0))]) = true.
Proof. vm_compute. reflexivity. Qed.

(** test/cumulative/moment_suite.cpp:535 *)
Example cumulative_moment_kurtosis_double_suite_test_linear_increase :
  (let filter_1 := ckurt_init b64num in
   let filter_2 := ckurt_push b64num filter_1 (lit b64num 1 0) in
   let filter_3 := ckurt_push b64num filter_2 (lit b64num 1 1) in
   let filter_4 := ckurt_push b64num filter_3 (lit b64num 3 0) in
   let filter_5 := ckurt_push b64num filter_4 (lit b64num 1 2) in
   let filter_6 := ckurt_push b64num filter_5 (lit b64num 5 0) in
   all_true [(neq (n := b64num) (ckurt_mean b64num filter_2) (lit b64num 1 0));
     (neq (n := b64num) (ckurt_variance b64num filter_2) (lit b64num 0 0));
     (neq (n := b64num) (ckurt_skewness b64num filter_2) (lit b64num 0 0));
     (neq (n := b64num) (ckurt_kurtosis b64num filter_2) (lit b64num 0 0));
     (neq (n := b64num) (ckurt_unbiased_kurtosis b64num filter_2) (lit b64num 0 0));
     (close_to (n := b64num) (Closeness (lit b64num 5902958103587057 (-69)) (@nmin b64num)) (ckurt_mean b64num filter_3) (lit b64num 3 (-1)));
     (close_to (n := b64num) (Closeness (lit b64num 5902958103587057 (-69)) (@nmin b64num)) (ckurt_variance b64num filter_3) (lit b64num 1 (-2)));
     (close_to (n := b64num) (Closeness (lit b64num 5902958103587057 (-69)) (@nmin b64num)) (ckurt_skewness b64num filter_3) (lit b64num 0 0));
     (close_to (n := b64num) (Closeness (lit b64num 5902958103587057 (-69)) (@nmin b64num)) (ckurt_kurtosis b64num filter_3) (lit b64num 1 0));
     (close_to (n := b64num) (Closeness (lit b64num 5902958103587057 (-69)) (@nmin b64num)) (ckurt_unbiased_kurtosis b64num filter_3) (lit b64num 0 0));
     (close_to (n := b64num) (Closeness (lit b64num 5902958103587057 (-69)) (@nmin b64num)) (ckurt_mean b64num filter_4) (lit b64num 1 1));
     (close_to (n := b64num) (Closeness (lit b64num 5902958103587057 (-69)) (@nmin b64num)) (ckurt_variance b64num filter_4) (lit b64num 6004802505560413 (-53)));
     (close_to (n := b64num) (Closeness (lit b64num 5902958103587057 (-69)) (@nmin b64num)) (ckurt_skewness b64num filter_4) (lit b64num 0 0));
     (close_to (n := b64num) (Closeness (lit b64num 5902958103587057 (-69)) (@nmin b64num)) (ckurt_kurtosis b64num filter_4) (lit b64num 3 (-1)));
     (close_to (n := b64num) (Closeness (lit b64num 5902958103587057 (-69)) (@nmin b64num)) (ckurt_unbiased_kurtosis b64num filter_4) (lit b64num 0 0));
     (close_to (n := b64num) (Closeness (lit b64num 5902958103587057 (-69)) (@nmin b64num)) (ckurt_mean b64num filter_5) (lit b64num 5 (-1)));
     (close_to (n := b64num) (Closeness (lit b64num 5902958103587057 (-69)) (@nmin b64num)) (ckurt_variance b64num filter_5) (lit b64num 5 (-2)));
     (close_to (n := b64num) (Closeness (lit b64num 5902958103587057 (-69)) (@nmin b64num)) (ckurt_skewness b64num filter_5) (lit b64num 0 0));
     (close_to (n := b64num) (Closeness (lit b64num 5902958103587057 (-69)) (@nmin b64num)) (ckurt_kurtosis b64num filter_5) (lit b64num 7385903388887613 (-52)));
     (close_to (n := b64num) (Closeness (lit b64num 5902958103587057 (-69)) (@nmin b64num)) (ckurt_unbiased_kurtosis b64num filter_5) (lit b64num 8106479329266893 (-52)));
     (close_to (n := b64num) (Closeness (lit b64num 5902958103587057 (-69)) (@nmin b64num)) (ckurt_mean b64num filter_6) (lit b64num 3 0));
     (close_to (n := b64num) (Closeness (lit b64num 5902958103587057 (-69)) (@nmin b64num)) (ckurt_variance b64num filter_6) (lit b64num 1 1));
     (close_to (n := b64num) (Closeness (lit b64num 5902958103587057 (-69)) (@nmin b64num)) (ckurt_skewness b64num filter_6) (lit b64num 0 0));
     (close_to (n := b64num) (Closeness (lit b64num 5902958103587057 (-69)) (@nmin b64num)) (ckurt_kurtosis b64num filter_6) (lit b64num 7656119366529843 (-52)));
     (close_to (n := b64num) (Closeness (lit b64num 5902958103587057 (-69)) (@nmin b64num)) (ckurt_unbiased_kurtosis b64num filter_6) (lit b64num 8106479329266893 (-52)))]) = true.
Proof. vm_compute. reflexivity. Qed.

(** test/cumulative/moment_suite.cpp:571 *)
Example cumulative_moment_kurtosis_double_suite_test_exponential_increase :
  (let filter_1 := ckurt_init b64num in
   let filter_2 := ckurt_push b64num filter_1 (lit b64num 1 0) in
   let filter_3 := ckurt_push b64num filter_2 (lit b64num 5 1) in
   let filter_4 := ckurt_push b64num filter_3 (lit b64num 25 2) in
   let filter_5 := ckurt_push b64num filter_4 (lit b64num 125 3) in
   let filter_6 := ckurt_push b64num filter_5 (lit b64num 625 4) in
   let filter_7 := ckurt_push b64num filter_6 (lit b64num 3125 5) in
   let filter_8 := ckurt_push b64num filter_7 (lit b64num 15625 6) in
   let filter_9 := ckurt_push b64num filter_8 (lit b64num 78125 7) in
   let filter_10 := ckurt_push b64num filter_9 (lit b64num 390625 8) in
   let filter_11 := ckurt_push b64num filter_10 (lit b64num 1953125 9) in
   all_true [(neq (n := b64num) (ckurt_mean b64num filter_2) (lit b64num 1 0));
     (neq (n := b64num) (ckurt_variance b64num filter_2) (lit b64num 0 0));
     (neq (n := b64num) (ckurt_skewness b64num filter_2) (lit b64num 0 0));
     (neq (n := b64num) (ckurt_kurtosis b64num filter_2) (lit b64num 0 0));
     (neq (n := b64num) (ckurt_unbiased_kurtosis b64num filter_2) (lit b64num 0 0));
     (close_to (n := b64num) (Closeness (lit b64num 5902958103587057 (-69)) (@nmin b64num)) (ckurt_mean b64num filter_3) (lit b64num 11 (-1)));
     (close_to (n := b64num) (Closeness (lit b64num 5902958103587057 (-69)) (@nmin b64num)) (ckurt_variance b64num filter_3) (lit b64num 81 (-2)));
     (close_to (n := b64num) (Closeness (lit b64num 5902958103587057 (-69)) (@nmin b64num)) (ckurt_skewness b64num filter_3) (lit b64num 0 0));
     (close_to (n := b64num) (Closeness (lit b64num 5902958103587057 (-69)) (@nmin b64num)) (ckurt_kurtosis b64num filter_3) (lit b64num 1 0));
     (close_to (n := b64num) (Closeness (lit b64num 5902958103587057 (-69)) (@nmin b64num)) (ckurt_unbiased_kurtosis b64num filter_3) (lit b64num 0 0));
     (close_to (n := b64num) (Closeness (lit b64num 5902958103587057 (-69)) (@nmin b64num)) (ckurt_mean b64num filter_4) (lit b64num 37 0));
     (close_to (n := b64num) (Closeness (lit b64num 5902958103587057 (-69)) (@nmin b64num)) (ckurt_variance b64num filter_4) (lit b64num 999 1));
     (close_to (n := b64num) (Closeness (lit b64num 5902958103587057 (-69)) (@nmin b64num)) (ckurt_skewness b64num filter_4) (lit b64num 385997894562391 (-49)));
     (close_to (n := b64num) (Closeness (lit b64num 5902958103587057 (-69)) (@nmin b64num)) (ckurt_kurtosis b64num filter_4) (lit b64num 3 (-1)));
     (close_to (n := b64num) (Closeness (lit b64num 5902958103587057 (-69)) (@nmin b64num)) (ckurt_unbiased_kurtosis b64num filter_4) (lit b64num 0 0));
     (close_to (n := b64num) (Closeness (lit b64num 5902958103587057 (-69)) (@nmin b64num)) (ckurt_mean b64num filter_5) (lit b64num 1111 (-2)));
     (close_to (n := b64num) (Closeness (lit b64num 5902958103587057 (-69)) (@nmin b64num)) (ckurt_variance b64num filter_5) (lit b64num 43845 2));
     (close_to (n := b64num) (Closeness (lit b64num 5902958103587057 (-69)) (@nmin b64num)) (ckurt_skewness b64num filter_5) (lit b64num 1267560633121563 (-50)));
     (close_to (n := b64num) (Closeness (lit b64num 5902958103587057 (-69)) (@nmin b64num)) (ckurt_kurtosis b64num filter_5) (lit b64num 2600018136873535 (-50)));
     (close_to (n := b64num) (Closeness (lit b64num 5902958103587057 (-69)) (@nmin b64num)) (ckurt_unbiased_kurtosis b64num filter_5) (lit b64num 7678198263703027 (-50)));
     (close_to (n := b64num) (Closeness (lit b64num 5902958103587057 (-69)) (@nmin b64num)) (ckurt_mean b64num filter_6) (lit b64num 2443334739243827 (-40)));
     (close_to (n := b64num) (Closeness (lit b64num 5902958103587057 (-69)) (@nmin b64num)) (ckurt_variance b64num filter_6) (lit b64num 1907975 3));
     (close_to (n := b64num) (Closeness (lit b64num 5902958103587057 (-69)) (@nmin b64num)) (ckurt_skewness b64num filter_6) (lit b64num 6605654753445675 (-52)));
     (close_to (n := b64num) (Closeness (lit b64num 5902958103587057 (-69)) (@nmin b64num)) (ckurt_kurtosis b64num filter_6) (lit b64num 7210758399379175 (-51)));
     (close_to (n := b64num) (Closeness (lit b64num 5902958103587057 (-69)) (@nmin b64num)) (ckurt_unbiased_kurtosis b64num filter_6) (lit b64num 8792039782543367 (-50)));
     (close_to (n := b64num) (Closeness (lit b64num 5902958103587057 (-69)) (@nmin b64num)) (ckurt_mean b64num filter_7) (lit b64num 37037 (-1)));
     (close_to (n := b64num) (Closeness (lit b64num 5902958103587057 (-69)) (@nmin b64num)) (ckurt_variance b64num filter_7) (lit b64num 83785625 4));
     (close_to (n := b64num) (Closeness (lit b64num 5902958103587057 (-69)) (@nmin b64num)) (ckurt_skewness b64num filter_7) (lit b64num 7891522519052499 (-52)));
     (close_to (n := b64num) (Closeness (lit b64num 5902958103587057 (-69)) (@nmin b64num)) (ckurt_kurtosis b64num filter_7) (lit b64num 4649583809291711 (-50)));
     (close_to (n := b64num) (Closeness (lit b64num 5902958103587057 (-69)) (@nmin b64num)) (ckurt_unbiased_kurtosis b64num filter_7) (lit b64num 4951049138848357 (-49)));
     (close_to (n := b64num) (Closeness (lit b64num 5902958103587057 (-69)) (@nmin b64num)) (ckurt_mean b64num filter_8) (lit b64num 79365 1));
     (close_to (n := b64num) (Closeness (lit b64num 5902958103587057 (-69)) (@nmin b64num)) (ckurt_variance b64num filter_8) (lit b64num 1861015625 6));
     (close_to (n := b64num) (Closeness (lit b64num 5902958103587057 (-69)) (@nmin b64num)) (ckurt_skewness b64num filter_8) (lit b64num 2253837692516633 (-50)));
     (close_to (n := b64num) (Closeness (lit b64num 5902958103587057 (-69)) (@nmin b64num)) (ckurt_kurtosis b64num filter_8) (lit b64num 2856717686134119 (-49)));
     (close_to (n := b64num) (Closeness (lit b64num 5902958103587057 (-69)) (@nmin b64num)) (ckurt_unbiased_kurtosis b64num filter_8) (lit b64num 2752518464505601 (-48)));
     (close_to (n := b64num) (Closeness (lit b64num 5902958103587057 (-69)) (@nmin b64num)) (ckurt_mean b64num filter_9) (lit b64num 347225 2));
     (close_to (n := b64num) (Closeness (lit b64num 5902958103587057 (-69)) (@nmin b64num)) (ckurt_variance b64num filter_9) (lit b64num 41786328125 8));
     (close_to (n := b64num) (Closeness (lit b64num 5902958103587057 (-69)) (@nmin b64num)) (ckurt_skewness b64num filter_9) (lit b64num 626504188412811 (-48)));
     (close_to (n := b64num) (Closeness (lit b64num 5902958103587057 (-69)) (@nmin b64num)) (ckurt_kurtosis b64num filter_9) (lit b64num 1697144927827599 (-48)));
     (close_to (n := b64num) (Closeness (lit b64num 5902958103587057 (-69)) (@nmin b64num)) (ckurt_unbiased_kurtosis b64num filter_9) (lit b64num 3029205551862409 (-48)));
     (close_to (n := b64num) (Closeness (lit b64num 5902958103587057 (-69)) (@nmin b64num)) (ckurt_mean b64num filter_10) (lit b64num 12345679 0));
     (close_to (n := b64num) (Closeness (lit b64num 5902958103587057 (-69)) (@nmin b64num)) (ckurt_variance b64num filter_10) (lit b64num 1894373046875 9));
     (close_to (n := b64num) (Closeness (lit b64num 5902958103587057 (-69)) (@nmin b64num)) (ckurt_skewness b64num filter_10) (lit b64num 1368255491290033 (-49)));
     (close_to (n := b64num) (Closeness (lit b64num 5902958103587057 (-69)) (@nmin b64num)) (ckurt_kurtosis b64num filter_10) (lit b64num 7870817219765663 (-50)));
     (close_to (n := b64num) (Closeness (lit b64num 5902958103587057 (-69)) (@nmin b64num)) (ckurt_unbiased_kurtosis b64num filter_10) (lit b64num 1652849210742643 (-47)));
     (close_to (n := b64num) (Closeness (lit b64num 5902958103587057 (-69)) (@nmin b64num)) (ckurt_mean b64num filter_11) (lit b64num 6944375 4));
     (close_to (n := b64num) (Closeness (lit b64num 5902958103587057 (-69)) (@nmin b64num)) (ckurt_variance b64num filter_11) (lit b64num 10823291015625 13));
     (close_to (n := b64num) (Closeness (lit b64num 5902958103587057 (-69)) (@nmin b64num)) (ckurt_skewness b64num filter_11) (lit b64num 5899918173838581 (-51)));
     (close_to (n := b64num) (Closeness (lit b64num 5902958103587057 (-69)) (@nmin b64num)) (ckurt_kurtosis b64num filter_11) (lit b64num 4478897383414369 (-49)));
     (close_to (n := b64num) (Closeness (lit b64num 5902958103587057 (-69)) (@nmin b64num)) (ckurt_unbiased_kurtosis b64num filter_11) (lit b64num 7164101107239617 (-49)))]) = true.
Proof. vm_compute. reflexivity. Qed.

(** test/cumulative/moment_suite.cpp:637 *)
Example cumulative_moment_kurtosis_double_suite_test_left_skew :
  (let filter_1 := ckurt_init b64num in
   let filter_2 := ckurt_push b64num filter_1 (lit b64num 1 0) in
   let filter_3 := ckurt_push b64num filter_2 (lit b64num 1 1) in
   let filter_4 := ckurt_push b64num filter_3 (lit b64num 5 0) in
   let filter_5 := ckurt_push b64num filter_4 (lit b64num 15 0) in
   all_true [(neq (n := b64num) (ckurt_mean b64num filter_2) (lit b64num 1 0));
     (neq (n := b64num) (ckurt_variance b64num filter_2) (lit b64num 0 0));
     (neq (n := b64num) (ckurt_skewness b64num filter_2) (lit b64num 0 0));
     (neq (n := b64num) (ckurt_kurtosis b64num filter_2) (lit b64num 0 0));
     (neq (n := b64num) (ckurt_unbiased_kurtosis b64num filter_2) (lit b64num 0 0));
     (close_to (n := b64num) (Closeness (lit b64num 5902958103587057 (-69)) (@nmin b64num)) (ckurt_mean b64num filter_3) (lit b64num 3 (-1)));
     (close_to (n := b64num) (Closeness (lit b64num 5902958103587057 (-69)) (@nmin b64num)) (ckurt_variance b64num filter_3) (lit b64num 1 (-2)));
     (close_to (n := b64num) (Closeness (lit b64num 5902958103587057 (-69)) (@nmin b64num)) (ckurt_skewness b64num filter_3) (lit b64num 0 0));
     (close_to (n := b64num) (Closeness (lit b64num 5902958103587057 (-69)) (@nmin b64num)) (ckurt_kurtosis b64num filter_3) (lit b64num 1 0));
     (close_to (n := b64num) (Closeness (lit b64num 5902958103587057 (-69)) (@nmin b64num)) (ckurt_unbiased_kurtosis b64num filter_3) (lit b64num 0 0));
     (close_to (n := b64num) (Closeness (lit b64num 5902958103587057 (-69)) (@nmin b64num)) (ckurt_mean b64num filter_4) (lit b64num 750600876145005 (-48)));
     (close_to (n := b64num) (Closeness (lit b64num 5902958103587057 (-69)) (@nmin b64num)) (ckurt_variance b64num filter_4) (lit b64num 813150245469647 (-48)));
     (close_to (n := b64num) (Closeness (lit b64num 5902958103587057 (-69)) (@nmin b64num)) (ckurt_skewness b64num filter_4) (lit b64num 1188950301625811 (-51)));
     (close_to (n := b64num) (Closeness (lit b64num 5902958103587057 (-69)) (@nmin b64num)) (ckurt_kurtosis b64num filter_4) (lit b64num 3 (-1)));
     (close_to (n := b64num) (Closeness (lit b64num 5902958103587057 (-69)) (@nmin b64num)) (ckurt_unbiased_kurtosis b64num filter_4) (lit b64num 0 0));
     (close_to (n := b64num) (Closeness (lit b64num 5902958103587057 (-69)) (@nmin b64num)) (ckurt_mean b64num filter_5) (lit b64num 23 (-2)));
     (close_to (n := b64num) (Closeness (lit b64num 5902958103587057 (-69)) (@nmin b64num)) (ckurt_variance b64num filter_5) (lit b64num 491 (-4)));
     (close_to (n := b64num) (Closeness (lit b64num 5902958103587057 (-69)) (@nmin b64num)) (ckurt_skewness b64num filter_5) (lit b64num 1044992739536913 (-50)));
     (close_to (n := b64num) (Closeness (lit b64num 5902958103587057 (-69)) (@nmin b64num)) (ckurt_kurtosis b64num filter_5) (lit b64num 2399540399461137 (-50)));
     (close_to (n := b64num) (Closeness (lit b64num 5902958103587057 (-69)) (@nmin b64num)) (ckurt_unbiased_kurtosis b64num filter_5) (lit b64num 6174615233110045 (-50)))]) = true.
Proof. vm_compute. reflexivity. Qed.

(** test/cumulative/moment_suite.cpp:703 *)
Example cumulative_moment_algorithm_suite_copy_empty :
  (let filter_1 := cmean_init b64num in
   let filter_2 := copied (std_copy (fun s x => Some (cmean_push b64num s x)) [] [filter_1] (push_inserter 0)) filter_1 in
   all_true [(N.eqb (cmean_size b64num filter_2) 0)]) = true.
Proof. vm_compute. reflexivity. Qed.

(** test/cumulative/moment_suite.cpp:711 *)
Example cumulative_moment_algorithm_suite_copy_sequence :
  (let filter_1 := cmean_init b64num in
   let filter_2 := copied (std_copy (fun s x => Some (cmean_push b64num s x)) [(lit b64num 1 0); (lit b64num 1 1); (lit b64num 3 0); (lit b64num 1 2); (lit b64num 5 0)] [filter_1] (push_inserter 0)) filter_1 in
   all_true [(N.eqb (cmean_size b64num filter_2) 5);
     (neq (n := b64num) (cmean_mean b64num filter_2) (lit b64num 3 0))]) = true.
Proof. vm_compute. reflexivity. Qed.

(** test/cumulative/moment_suite.cpp:720 *)
Example cumulative_moment_algorithm_suite_copy_if_empty :
  (let filter_1 := cmean_init b64num in
   let filter_2 := copied (std_copy_if (fun s x => Some (cmean_push b64num s x)) (fun x => nlt x (lit b64num 3 0)) [] [filter_1] (push_inserter 0)) filter_1 in
   all_true [(N.eqb (cmean_size b64num filter_2) 0)]) = true.
Proof. vm_compute. reflexivity. Qed.

(** test/cumulative/moment_suite.cpp:728 *)
Example cumulative_moment_algorithm_suite_copy_if_sequence :
  (let filter_1 := cmean_init b64num in
   let filter_2 := copied (std_copy_if (fun s x => Some (cmean_push b64num s x)) (fun x => nlt x (lit b64num 3 0)) [(lit b64num 1 0); (lit b64num 1 1); (lit b64num 3 0); (lit b64num 1 2); (lit b64num 5 0)] [filter_1] (push_inserter 0)) filter_1 in
   all_true [(N.eqb (cmean_size b64num filter_2) 2);
     (neq (n := b64num) (cmean_mean b64num filter_2) (lit b64num 3 (-1)))]) = true.
Proof. vm_compute. reflexivity. Qed.

(** test/cumulative/moment_suite.cpp:737 *)
Example cumulative_moment_algorithm_suite_move_empty :
  (let filter_1 := cmean_init b64num in
   let filter_2 := copied (std_copy (fun s x => Some (cmean_push b64num s x)) [] [filter_1] (push_inserter 0)) filter_1 in
   all_true [(N.eqb (cmean_size b64num filter_2) 0)]) = true.
Proof. vm_compute. reflexivity. Qed.

(** test/cumulative/moment_suite.cpp:745 *)
Example cumulative_moment_algorithm_suite_move_sequence :
  (let filter_1 := cmean_init b64num in
   let filter_2 := copied (std_copy (fun s x => Some (cmean_push b64num s x)) [(lit b64num 1 0); (lit b64num 1 1); (lit b64num 3 0); (lit b64num 1 2); (lit b64num 5 0)] [filter_1] (push_inserter 0)) filter_1 in
   all_true [(N.eqb (cmean_size b64num filter_2) 5);
     (neq (n := b64num) (cmean_mean b64num filter_2) (lit b64num 3 0))]) = true.
Proof. vm_compute. reflexivity. Qed.

(** test/cumulative/moment_suite.cpp:754 *)
Example cumulative_moment_algorithm_suite_transform_empty :
  (let filter_1 := cmean_init b64num in
   let filter_2 := copied (std_transform (fun s x => Some (cmean_push b64num s x)) (fun x : b64num => nmul x x) [] [filter_1] (push_inserter 0)) filter_1 in
   all_true [(N.eqb (cmean_size b64num filter_2) 0)]) = true.
Proof. vm_compute. reflexivity. Qed.

(** test/cumulative/moment_suite.cpp:762 *)
Example cumulative_moment_algorithm_suite_transform_sequence :
  (let filter_1 := cmean_init b64num in
   let filter_2 := copied (std_transform (fun s x => Some (cmean_push b64num s x)) (fun x : b64num => nmul x x) [(lit b64num 1 0); (lit b64num 1 1); (lit b64num 3 0); (lit b64num 1 2); (lit b64num 5 0)] [filter_1] (push_inserter 0)) filter_1 in
   all_true [(N.eqb (cmean_size b64num filter_2) 5);
     (neq (n := b64num) (cmean_mean b64num filter_2) (lit b64num 11 0))]) = true.
Proof. vm_compute. reflexivity. Qed.

(** test/cumulative/comoment_suite.cpp:22 *)
Example cumulative_comoment_covariance_double_suite_test_ctor :
  (let filter_1 := ccov_init b64num in
   all_true [(N.eqb (ccov_size b64num filter_1) 0);
     (neq (n := b64num) (ccov_unbiased_variance b64num filter_1) (lit b64num 0 0));
     (neq (n := b64num) (ccov_variance b64num filter_1) (lit b64num 0 0))]) = true.
Proof. vm_compute. reflexivity. Qed.

(** test/cumulative/comoment_suite.cpp:30 *)
Example cumulative_comoment_covariance_double_suite_test_same_no_increment :
  (let filter_1 := ccov_init b64num in
   let filter_2 := ccov_push b64num filter_1 ((lit b64num 1 1), (lit b64num 1 1)) in
   let filter_3 := ccov_push b64num filter_2 ((lit b64num 1 1), (lit b64num 1 1)) in
   let filter_4 := ccov_push b64num filter_3 ((lit b64num 1 1), (lit b64num 1 1)) in
   all_true [(N.eqb (ccov_size b64num filter_2) 1);
     (neq (n := b64num) (ccov_unbiased_variance b64num filter_2) (lit b64num 0 0));
     (neq (n := b64num) (ccov_variance b64num filter_2) (lit b64num 0 0));
     (N.eqb (ccov_size b64num filter_3) 2);
     (neq (n := b64num) (ccov_unbiased_variance b64num filter_3) (lit b64num 0 0));
     (neq (n := b64num) (ccov_variance b64num filter_3) (lit b64num 0 0));
     (N.eqb (ccov_size b64num filter_4) 3);
     (neq (n := b64num) (ccov_unbiased_variance b64num filter_4) (lit b64num 0 0));
     (neq (n := b64num) (ccov_variance b64num filter_4) (lit b64num 0 0))]) = true.
Proof. vm_compute. reflexivity. Qed.

(** test/cumulative/comoment_suite.cpp:47 *)
Example cumulative_comoment_covariance_double_suite_test_same_increment_by_one :
  (let filter_1 := ccov_init b64num in
   let filter_2 := ccov_push b64num filter_1 ((lit b64num 1 0), (lit b64num 1 0)) in
   let filter_3 := ccov_push b64num filter_2 ((lit b64num 1 1), (lit b64num 1 1)) in
   let filter_4 := ccov_push b64num filter_3 ((lit b64num 3 0), (lit b64num 3 0)) in
   let filter_5 := ccov_push b64num filter_4 ((lit b64num 1 2), (lit b64num 1 2)) in
   let filter_6 := ccov_push b64num filter_5 ((lit b64num 5 0), (lit b64num 5 0)) in
   all_true [(neq (n := b64num) (ccov_unbiased_variance b64num filter_2) (lit b64num 0 0));
     (neq (n := b64num) (ccov_variance b64num filter_2) (lit b64num 0 0));
     (close_to (n := b64num) (Closeness (lit b64num 5902958103587057 (-69)) (@nmin b64num)) (ccov_unbiased_variance b64num filter_3) (lit b64num 1 (-1)));
     (close_to (n := b64num) (Closeness (lit b64num 5902958103587057 (-69)) (@nmin b64num)) (ccov_variance b64num filter_3) (lit b64num 1 (-2)));
     (close_to (n := b64num) (Closeness (lit b64num 5902958103587057 (-69)) (@nmin b64num)) (ccov_unbiased_variance b64num filter_4) (lit b64num 1 0));
     (close_to (n := b64num) (Closeness (lit b64num 5902958103587057 (-69)) (@nmin b64num)) (ccov_variance b64num filter_4) (lit b64num 6004802505560413 (-53)));
     (close_to (n := b64num) (Closeness (lit b64num 5902958103587057 (-69)) (@nmin b64num)) (ccov_unbiased_variance b64num filter_5) (lit b64num 3753000440075351 (-51)));
     (close_to (n := b64num) (Closeness (lit b64num 5902958103587057 (-69)) (@nmin b64num)) (ccov_variance b64num filter_5) (lit b64num 5 (-2)));
     (close_to (n := b64num) (Closeness (lit b64num 5902958103587057 (-69)) (@nmin b64num)) (ccov_unbiased_variance b64num filter_6) (lit b64num 5 (-1)));
     (close_to (n := b64num) (Closeness (lit b64num 5902958103587057 (-69)) (@nmin b64num)) (ccov_variance b64num filter_6) (lit b64num 1 1))]) = true.
Proof. vm_compute. reflexivity. Qed.

(** test/cumulative/comoment_suite.cpp:68 *)
Example cumulative_comoment_covariance_double_suite_test_same_increment_by_half :
  (let filter_1 := ccov_init b64num in
   let filter_2 := ccov_push b64num filter_1 ((lit b64num 1 0), (lit b64num 1 0)) in
   let filter_3 := ccov_push b64num filter_2 ((lit b64num 3 (-1)), (lit b64num 3 (-1))) in
   let filter_4 := ccov_push b64num filter_3 ((lit b64num 1 1), (lit b64num 1 1)) in
   let filter_5 := ccov_push b64num filter_4 ((lit b64num 5 (-1)), (lit b64num 5 (-1))) in
   let filter_6 := ccov_push b64num filter_5 ((lit b64num 3 0), (lit b64num 3 0)) in
   all_true [(neq (n := b64num) (ccov_unbiased_variance b64num filter_2) (lit b64num 0 0));
     (neq (n := b64num) (ccov_variance b64num filter_2) (lit b64num 0 0));
     (close_to (n := b64num) (Closeness (lit b64num 5902958103587057 (-69)) (@nmin b64num)) (ccov_unbiased_variance b64num filter_3) (lit b64num 1 (-3)));
     (close_to (n := b64num) (Closeness (lit b64num 5902958103587057 (-69)) (@nmin b64num)) (ccov_variance b64num filter_3) (lit b64num 1 (-4)));
     (close_to (n := b64num) (Closeness (lit b64num 5902958103587057 (-69)) (@nmin b64num)) (ccov_unbiased_variance b64num filter_4) (lit b64num 1 (-2)));
     (close_to (n := b64num) (Closeness (lit b64num 5902958103587057 (-69)) (@nmin b64num)) (ccov_variance b64num filter_4) (lit b64num 1501202878189917 (-53)));
     (close_to (n := b64num) (Closeness (lit b64num 5902958103587057 (-69)) (@nmin b64num)) (ccov_unbiased_variance b64num filter_5) (lit b64num 3753002691875165 (-53)));
     (close_to (n := b64num) (Closeness (lit b64num 5902958103587057 (-69)) (@nmin b64num)) (ccov_variance b64num filter_5) (lit b64num 5 (-4)));
     (close_to (n := b64num) (Closeness (lit b64num 5902958103587057 (-69)) (@nmin b64num)) (ccov_unbiased_variance b64num filter_6) (lit b64num 5 (-3)));
     (close_to (n := b64num) (Closeness (lit b64num 5902958103587057 (-69)) (@nmin b64num)) (ccov_variance b64num filter_6) (lit b64num 1 (-1)))]) = true.
Proof. vm_compute. reflexivity. Qed.

(** test/cumulative/comoment_suite.cpp:89 *)
Example cumulative_comoment_covariance_double_suite_test_shifted_no_increment :
  (let filter_1 := ccov_init b64num in
   let filter_2 := ccov_push b64num filter_1 ((lit b64num 1 0), (lit b64num 1 1)) in
   let filter_3 := ccov_push b64num filter_2 ((lit b64num 1 0), (lit b64num 1 1)) in
   let filter_4 := ccov_push b64num filter_3 ((lit b64num 1 0), (lit b64num 1 1)) in
   all_true [(neq (n := b64num) (ccov_unbiased_variance b64num filter_2) (lit b64num 0 0));
     (neq (n := b64num) (ccov_variance b64num filter_2) (lit b64num 0 0));
     (neq (n := b64num) (ccov_unbiased_variance b64num filter_3) (lit b64num 0 0));
     (neq (n := b64num) (ccov_variance b64num filter_3) (lit b64num 0 0));
     (neq (n := b64num) (ccov_unbiased_variance b64num filter_4) (lit b64num 0 0));
     (neq (n := b64num) (ccov_variance b64num filter_4) (lit b64num 0 0))]) = true.
Proof. vm_compute. reflexivity. Qed.

(** test/cumulative/comoment_suite.cpp:103 *)
Example cumulative_comoment_covariance_double_suite_test_shifted_increment_by_one :
  (let filter_1 := ccov_init b64num in
   let filter_2 := ccov_push b64num filter_1 ((lit b64num 1 0), (lit b64num 1 1)) in
   let filter_3 := ccov_push b64num filter_2 ((lit b64num 1 1), (lit b64num 3 0)) in
   let filter_4 := ccov_push b64num filter_3 ((lit b64num 3 0), (lit b64num 1 2)) in
   let filter_5 := ccov_push b64num filter_4 ((lit b64num 1 2), (lit b64num 5 0)) in
   let filter_6 := ccov_push b64num filter_5 ((lit b64num 5 0), (lit b64num 3 1)) in
   all_true [(neq (n := b64num) (ccov_unbiased_variance b64num filter_2) (lit b64num 0 0));
     (neq (n := b64num) (ccov_variance b64num filter_2) (lit b64num 0 0));
     (close_to (n := b64num) (Closeness (lit b64num 5902958103587057 (-69)) (@nmin b64num)) (ccov_unbiased_variance b64num filter_3) (lit b64num 1 (-1)));
     (close_to (n := b64num) (Closeness (lit b64num 5902958103587057 (-69)) (@nmin b64num)) (ccov_variance b64num filter_3) (lit b64num 1 (-2)));
     (close_to (n := b64num) (Closeness (lit b64num 5902958103587057 (-69)) (@nmin b64num)) (ccov_unbiased_variance b64num filter_4) (lit b64num 1 0));
     (close_to (n := b64num) (Closeness (lit b64num 5902958103587057 (-69)) (@nmin b64num)) (ccov_variance b64num filter_4) (lit b64num 6004802505560413 (-53)));
     (close_to (n := b64num) (Closeness (lit b64num 5902958103587057 (-69)) (@nmin b64num)) (ccov_unbiased_variance b64num filter_5) (lit b64num 3753000440075351 (-51)));
     (close_to (n := b64num) (Closeness (lit b64num 5902958103587057 (-69)) (@nmin b64num)) (ccov_variance b64num filter_5) (lit b64num 5 (-2)));
     (close_to (n := b64num) (Closeness (lit b64num 5902958103587057 (-69)) (@nmin b64num)) (ccov_unbiased_variance b64num filter_6) (lit b64num 5 (-1)));
     (close_to (n := b64num) (Closeness (lit b64num 5902958103587057 (-69)) (@nmin b64num)) (ccov_variance b64num filter_6) (lit b64num 1 1))]) = true.
Proof. vm_compute. reflexivity. Qed.

(** test/cumulative/comoment_suite.cpp:124 *)
Example cumulative_comoment_covariance_double_suite_test_up_down_by_one :
  (let filter_1 := ccov_init b64num in
   let filter_2 := ccov_push b64num filter_1 ((lit b64num 0 0), (lit b64num 0 0)) in
   let filter_3 := ccov_push b64num filter_2 ((lit b64num 1 0), (lit b64num (-1) 0)) in
   let filter_4 := ccov_push b64num filter_3 ((lit b64num 1 1), (lit b64num (-1) 1)) in
   let filter_5 := ccov_push b64num filter_4 ((lit b64num 3 0), (lit b64num (-3) 0)) in
   let filter_6 := ccov_push b64num filter_5 ((lit b64num 1 2), (lit b64num (-1) 2)) in
   all_true [(neq (n := b64num) (ccov_unbiased_variance b64num filter_2) (lit b64num 0 0));
     (neq (n := b64num) (ccov_variance b64num filter_2) (lit b64num 0 0));
     (close_to (n := b64num) (Closeness (lit b64num 5902958103587057 (-69)) (@nmin b64num)) (ccov_unbiased_variance b64num filter_3) (lit b64num (-1) (-1)));
     (close_to (n := b64num) (Closeness (lit b64num 5902958103587057 (-69)) (@nmin b64num)) (ccov_variance b64num filter_3) (lit b64num (-1) (-2)));
     (close_to (n := b64num) (Closeness (lit b64num 5902958103587057 (-69)) (@nmin b64num)) (ccov_unbiased_variance b64num filter_4) (lit b64num (-1) 0));
     (close_to (n := b64num) (Closeness (lit b64num 5902958103587057 (-69)) (@nmin b64num)) (ccov_variance b64num filter_4) (lit b64num (-6004802505560413) (-53)));
     (close_to (n := b64num) (Closeness (lit b64num 5902958103587057 (-69)) (@nmin b64num)) (ccov_unbiased_variance b64num filter_5) (lit b64num (-3753000440075351) (-51)));
     (close_to (n := b64num) (Closeness (lit b64num 5902958103587057 (-69)) (@nmin b64num)) (ccov_variance b64num filter_5) (lit b64num (-5) (-2)));
     (close_to (n := b64num) (Closeness (lit b64num 5902958103587057 (-69)) (@nmin b64num)) (ccov_unbiased_variance b64num filter_6) (lit b64num (-5) (-1)));
     (close_to (n := b64num) (Closeness (lit b64num 5902958103587057 (-69)) (@nmin b64num)) (ccov_variance b64num filter_6) (lit b64num (-1) 1))]) = true.
Proof. vm_compute. reflexivity. Qed.

(** test/cumulative/comoment_suite.cpp:145 *)
Example cumulative_comoment_covariance_double_suite_test_down_up_by_one :
  (let filter_1 := ccov_init b64num in
   let filter_2 := ccov_push b64num filter_1 ((lit b64num 0 0), (lit b64num 0 0)) in
   let filter_3 := ccov_push b64num filter_2 ((lit b64num (-1) 0), (lit b64num 1 0)) in
   let filter_4 := ccov_push b64num filter_3 ((lit b64num (-1) 1), (lit b64num 1 1)) in
   let filter_5 := ccov_push b64num filter_4 ((lit b64num (-3) 0), (lit b64num 3 0)) in
   let filter_6 := ccov_push b64num filter_5 ((lit b64num (-1) 2), (lit b64num 1 2)) in
   all_true [(neq (n := b64num) (ccov_unbiased_variance b64num filter_2) (lit b64num 0 0));
     (neq (n := b64num) (ccov_variance b64num filter_2) (lit b64num 0 0));
     (close_to (n := b64num) (Closeness (lit b64num 5902958103587057 (-69)) (@nmin b64num)) (ccov_unbiased_variance b64num filter_3) (lit b64num (-1) (-1)));
     (close_to (n := b64num) (Closeness (lit b64num 5902958103587057 (-69)) (@nmin b64num)) (ccov_variance b64num filter_3) (lit b64num (-1) (-2)));
     (close_to (n := b64num) (Closeness (lit b64num 5902958103587057 (-69)) (@nmin b64num)) (ccov_unbiased_variance b64num filter_4) (lit b64num (-1) 0));
     (close_to (n := b64num) (Closeness (lit b64num 5902958103587057 (-69)) (@nmin b64num)) (ccov_variance b64num filter_4) (lit b64num (-6004802505560413) (-53)));
     (close_to (n := b64num) (Closeness (lit b64num 5902958103587057 (-69)) (@nmin b64num)) (ccov_unbiased_variance b64num filter_5) (lit b64num (-3753000440075351) (-51)));
     (close_to (n := b64num) (Closeness (lit b64num 5902958103587057 (-69)) (@nmin b64num)) (ccov_variance b64num filter_5) (lit b64num (-5) (-2)));
     (close_to (n := b64num) (Closeness (lit b64num 5902958103587057 (-69)) (@nmin b64num)) (ccov_unbiased_variance b64num filter_6) (lit b64num (-5) (-1)));
     (close_to (n := b64num) (Closeness (lit b64num 5902958103587057 (-69)) (@nmin b64num)) (ccov_variance b64num filter_6) (lit b64num (-1) 1))]) = true.
Proof. vm_compute. reflexivity. Qed.

(** test/cumulative/comoment_suite.cpp:166 *)
Example cumulative_comoment_covariance_double_suite_test_exponential_increase :
  (let filter_1 := ccov_init b64num in
   let filter_2 := ccov_push b64num filter_1 ((lit b64num 1 0), (lit b64num 1 0)) in
   let filter_3 := ccov_push b64num filter_2 ((lit b64num 5 1), (lit b64num 5 1)) in
   let filter_4 := ccov_push b64num filter_3 ((lit b64num 25 2), (lit b64num 25 2)) in
   let filter_5 := ccov_push b64num filter_4 ((lit b64num 125 3), (lit b64num 125 3)) in
   let filter_6 := ccov_push b64num filter_5 ((lit b64num 625 4), (lit b64num 625 4)) in
   let filter_7 := ccov_push b64num filter_6 ((lit b64num 3125 5), (lit b64num 3125 5)) in
   let filter_8 := ccov_push b64num filter_7 ((lit b64num 15625 6), (lit b64num 15625 6)) in
   all_true [(neq (n := b64num) (ccov_variance b64num filter_2) (lit b64num 0 0));
     (neq (n := b64num) (ccov_unbiased_variance b64num filter_2) (lit b64num 0 0));
     (close_to (n := b64num) (Closeness (lit b64num 7378697629483821 (-66)) (@nmin b64num)) (ccov_variance b64num filter_3) (lit b64num 81 (-2)));
     (close_to (n := b64num) (Closeness (lit b64num 7378697629483821 (-66)) (@nmin b64num)) (ccov_unbiased_variance b64num filter_3) (lit b64num 81 (-1)));
     (close_to (n := b64num) (Closeness (lit b64num 7378697629483821 (-66)) (@nmin b64num)) (ccov_variance b64num filter_4) (lit b64num 999 1));
     (close_to (n := b64num) (Closeness (lit b64num 7378697629483821 (-66)) (@nmin b64num)) (ccov_unbiased_variance b64num filter_4) (lit b64num 2997 0));
     (close_to (n := b64num) (Closeness (lit b64num 7378697629483821 (-66)) (@nmin b64num)) (ccov_variance b64num filter_5) (lit b64num 43845 2));
     (close_to (n := b64num) (Closeness (lit b64num 7378697629483821 (-66)) (@nmin b64num)) (ccov_unbiased_variance b64num filter_5) (lit b64num 14615 4));
     (close_to (n := b64num) (Closeness (lit b64num 7378697629483821 (-66)) (@nmin b64num)) (ccov_variance b64num filter_6) (lit b64num 59625 8));
     (close_to (n := b64num) (Closeness (lit b64num 7378697629483821 (-66)) (@nmin b64num)) (ccov_unbiased_variance b64num filter_6) (lit b64num 298125 6));
     (close_to (n := b64num) (Closeness (lit b64num 7378697629483821 (-66)) (@nmin b64num)) (ccov_variance b64num filter_7) (lit b64num 20946875 6));
     (close_to (n := b64num) (Closeness (lit b64num 7378697629483821 (-66)) (@nmin b64num)) (ccov_unbiased_variance b64num filter_7) (lit b64num 50271875 5));
     (close_to (n := b64num) (Closeness (lit b64num 7378697629483821 (-66)) (@nmin b64num)) (ccov_variance b64num filter_8) (lit b64num 465234375 8));
     (close_to (n := b64num) (Closeness (lit b64num 7378697629483821 (-66)) (@nmin b64num)) (ccov_unbiased_variance b64num filter_8) (lit b64num 135703125 10))]) = true.
Proof. vm_compute. reflexivity. Qed.

(** test/cumulative/comoment_suite.cpp:193 *)
Example cumulative_comoment_covariance_double_suite_test_clear :
  (let filter_1 := ccov_init b64num in
   let filter_2 := ccov_push b64num filter_1 ((lit b64num 0 0), (lit b64num 0 0)) in
   let filter_3 := ccov_clear b64num filter_2 in
   all_true [(N.eqb (ccov_size b64num filter_1) 0);
     (N.eqb (ccov_size b64num filter_2) 1);
     (N.eqb (ccov_size b64num filter_3) 0)]) = true.
Proof. vm_compute. reflexivity. Qed.

(** test/cumulative/comoment_suite.cpp:224 *)
Example cumulative_comoment_covariance_properties_suite_test_constant :
  (let filter_1 := ccov_init b64num in
   let filter_2 := ccov_push b64num filter_1 ((lit b64num 0 0), (lit b64num 0 0)) in
   let filter_3 := ccov_push b64num filter_2 ((lit b64num 1 0), (lit b64num 0 0)) in
   let filter_4 := ccov_push b64num filter_3 ((lit b64num 5 1), (lit b64num 0 0)) in
   let filter_5 := ccov_push b64num filter_4 ((lit b64num 25 2), (lit b64num 0 0)) in
   all_true [(neq (n := b64num) (ccov_unbiased_variance b64num filter_2) (lit b64num 0 0));
     (neq (n := b64num) (ccov_variance b64num filter_2) (lit b64num 0 0));
     (neq (n := b64num) (ccov_unbiased_variance b64num filter_3) (lit b64num 0 0));
     (neq (n := b64num) (ccov_variance b64num filter_3) (lit b64num 0 0));
     (neq (n := b64num) (ccov_unbiased_variance b64num filter_4) (lit b64num 0 0));
     (neq (n := b64num) (ccov_variance b64num filter_4) (lit b64num 0 0));
     (neq (n := b64num) (ccov_unbiased_variance b64num filter_5) (lit b64num 0 0));
     (neq (n := b64num) (ccov_variance b64num filter_5) (lit b64num 0 0))]) = true.
Proof. vm_compute. reflexivity. Qed.

(** test/cumulative/comoment_suite.cpp:243 *)
Example cumulative_comoment_covariance_properties_suite_test_same :
  (let filter_1 := ccov_init b64num in
   let average_2 := cvar_init b64num in
   let filter_3 := ccov_push b64num filter_1 ((lit b64num 0 0), (lit b64num 0 0)) in
   let average_4 := cvar_push b64num average_2 (lit b64num 0 0) in
   let filter_5 := ccov_push b64num filter_3 ((lit b64num 1 0), (lit b64num 1 0)) in
   let average_6 := cvar_push b64num average_4 (lit b64num 1 0) in
   let filter_7 := ccov_push b64num filter_5 ((lit b64num 5 1), (lit b64num 5 1)) in
   let average_8 := cvar_push b64num average_6 (lit b64num 5 1) in
   let filter_9 := ccov_push b64num filter_7 ((lit b64num 25 2), (lit b64num 25 2)) in
   let average_10 := cvar_push b64num average_8 (lit b64num 25 2) in
   all_true [(close_to (n := b64num) (Closeness (lit b64num 4722366482869645 (-72)) (@nmin b64num)) (ccov_unbiased_variance b64num filter_3) (lit b64num 0 0));
     (close_to (n := b64num) (Closeness (lit b64num 4722366482869645 (-72)) (@nmin b64num)) (ccov_variance b64num filter_3) (lit b64num 0 0));
     (close_to (n := b64num) (Closeness (lit b64num 4722366482869645 (-72)) (@nmin b64num)) (ccov_unbiased_variance b64num filter_3) (cvar_variance b64num average_4));
     (close_to (n := b64num) (Closeness (lit b64num 4722366482869645 (-72)) (@nmin b64num)) (ccov_unbiased_variance b64num filter_5) (lit b64num 1 (-1)));
     (close_to (n := b64num) (Closeness (lit b64num 4722366482869645 (-72)) (@nmin b64num)) (ccov_variance b64num filter_5) (lit b64num 1 (-2)));
     (close_to (n := b64num) (Closeness (lit b64num 4722366482869645 (-72)) (@nmin b64num)) (ccov_variance b64num filter_5) (cvar_variance b64num average_6));
     (close_to (n := b64num) (Closeness (lit b64num 4722366482869645 (-72)) (@nmin b64num)) (ccov_unbiased_variance b64num filter_7) (lit b64num 8538074199731573 (-48)));
     (close_to (n := b64num) (Closeness (lit b64num 4722366482869645 (-72)) (@nmin b64num)) (ccov_variance b64num filter_7) (lit b64num 5692049466487715 (-48)));
     (close_to (n := b64num) (Closeness (lit b64num 4722366482869645 (-72)) (@nmin b64num)) (ccov_variance b64num filter_7) (cvar_variance b64num average_8));
     (close_to (n := b64num) (Closeness (lit b64num 4722366482869645 (-72)) (@nmin b64num)) (ccov_unbiased_variance b64num filter_9) (lit b64num 9361 (-2)));
     (close_to (n := b64num) (Closeness (lit b64num 4722366482869645 (-72)) (@nmin b64num)) (ccov_variance b64num filter_9) (lit b64num 28083 (-4)));
     (close_to (n := b64num) (Closeness (lit b64num 4722366482869645 (-72)) (@nmin b64num)) (ccov_variance b64num filter_9) (cvar_variance b64num average_10))]) = true.
Proof. vm_compute. reflexivity. Qed.

(** test/cumulative/comoment_suite.cpp:283 *)
Example cumulative_comoment_covariance_properties_suite_test_commutative :
  (let lhs_1 := ccov_init b64num in
   let rhs_2 := ccov_init b64num in
   let lhs_3 := ccov_push b64num lhs_1 ((lit b64num 0 0), (lit b64num 0 0)) in
   let rhs_4 := ccov_push b64num rhs_2 ((lit b64num 0 0), (lit b64num 0 0)) in
   let lhs_5 := ccov_push b64num lhs_3 ((lit b64num (-1) 0), (lit b64num 1 0)) in
   let rhs_6 := ccov_push b64num rhs_4 ((lit b64num 1 0), (lit b64num (-1) 0)) in
   let lhs_7 := ccov_push b64num lhs_5 ((lit b64num (-1) 1), (lit b64num 5 1)) in
   let rhs_8 := ccov_push b64num rhs_6 ((lit b64num 5 1), (lit b64num (-1) 1)) in
   let lhs_9 := ccov_push b64num lhs_7 ((lit b64num (-3) 0), (lit b64num 25 2)) in
   let rhs_10 := ccov_push b64num rhs_8 ((lit b64num 25 2), (lit b64num (-3) 0)) in
   let lhs_11 := ccov_push b64num lhs_9 ((lit b64num (-1) 2), (lit b64num 125 3)) in
   let rhs_12 := ccov_push b64num rhs_10 ((lit b64num 125 3), (lit b64num (-1) 2)) in
   all_true [(close_to (n := b64num) (Closeness (lit b64num 4722366482869645 (-72)) (@nmin b64num)) (ccov_unbiased_variance b64num lhs_3) (ccov_unbiased_variance b64num rhs_4));
     (close_to (n := b64num) (Closeness (lit b64num 4722366482869645 (-72)) (@nmin b64num)) (ccov_unbiased_variance b64num lhs_5) (ccov_unbiased_variance b64num rhs_6));
     (close_to (n := b64num) (Closeness (lit b64num 4722366482869645 (-72)) (@nmin b64num)) (ccov_unbiased_variance b64num lhs_7) (ccov_unbiased_variance b64num rhs_8));
     (close_to (n := b64num) (Closeness (lit b64num 4722366482869645 (-72)) (@nmin b64num)) (ccov_unbiased_variance b64num lhs_9) (ccov_unbiased_variance b64num rhs_10));
     (close_to (n := b64num) (Closeness (lit b64num 4722366482869645 (-72)) (@nmin b64num)) (ccov_unbiased_variance b64num lhs_11) (ccov_unbiased_variance b64num rhs_12))]) = true.
Proof. vm_compute. reflexivity. Qed.

(** test/cumulative/comoment_suite.cpp:326 *)
Example cumulative_comoment_covariance_properties_suite_test_distributive :
  (let lhs_1 := ccov_init b64num in
   let rhs_2 := ccov_init b64num in
   let lhs_3 := ccov_push b64num lhs_1 ((@nmul b64num (lit b64num 1 (-1)) (lit b64num 0 0)), (@nmul b64num (lit b64num 1 1) (lit b64num 0 0))) in
   let rhs_4 := ccov_push b64num rhs_2 ((lit b64num 0 0), (lit b64num 0 0)) in
   let lhs_5 := ccov_push b64num lhs_3 ((@nmul b64num (lit b64num 1 (-1)) (lit b64num (-1) 0)), (@nmul b64num (lit b64num 1 1) (lit b64num 1 0))) in
   let rhs_6 := ccov_push b64num rhs_4 ((lit b64num (-1) 0), (lit b64num 1 0)) in
   let lhs_7 := ccov_push b64num lhs_5 ((@nmul b64num (lit b64num 1 (-1)) (lit b64num (-1) 1)), (@nmul b64num (lit b64num 1 1) (lit b64num 5 1))) in
   let rhs_8 := ccov_push b64num rhs_6 ((lit b64num (-1) 1), (lit b64num 5 1)) in
   let lhs_9 := ccov_push b64num lhs_7 ((@nmul b64num (lit b64num 1 (-1)) (lit b64num (-3) 0)), (@nmul b64num (lit b64num 1 1) (lit b64num 25 2))) in
   let rhs_10 := ccov_push b64num rhs_8 ((lit b64num (-3) 0), (lit b64num 25 2)) in
   let lhs_11 := ccov_push b64num lhs_9 ((@nmul b64num (lit b64num 1 (-1)) (lit b64num (-1) 2)), (@nmul b64num (lit b64num 1 1) (lit b64num 125 3))) in
   let rhs_12 := ccov_push b64num rhs_10 ((lit b64num (-1) 2), (lit b64num 125 3)) in
   all_true [(close_to (n := b64num) (Closeness (lit b64num 4722366482869645 (-72)) (@nmin b64num)) (ccov_unbiased_variance b64num lhs_3) (@nmul b64num (@nmul b64num (lit b64num 1 (-1)) (lit b64num 1 1)) (ccov_unbiased_variance b64num rhs_4)));
     (close_to (n := b64num) (Closeness (lit b64num 4722366482869645 (-72)) (@nmin b64num)) (ccov_unbiased_variance b64num lhs_5) (@nmul b64num (@nmul b64num (lit b64num 1 (-1)) (lit b64num 1 1)) (ccov_unbiased_variance b64num rhs_6)));
     (close_to (n := b64num) (Closeness (lit b64num 4722366482869645 (-72)) (@nmin b64num)) (ccov_unbiased_variance b64num lhs_7) (@nmul b64num (@nmul b64num (lit b64num 1 (-1)) (lit b64num 1 1)) (ccov_unbiased_variance b64num rhs_8)));
     (close_to (n := b64num) (Closeness (lit b64num 4722366482869645 (-72)) (@nmin b64num)) (ccov_unbiased_variance b64num lhs_9) (@nmul b64num (@nmul b64num (lit b64num 1 (-1)) (lit b64num 1 1)) (ccov_unbiased_variance b64num rhs_10)));
     (close_to (n := b64num) (Closeness (lit b64num 4722366482869645 (-72)) (@nmin b64num)) (ccov_unbiased_variance b64num lhs_11) (@nmul b64num (@nmul b64num (lit b64num 1 (-1)) (lit b64num 1 1)) (ccov_unbiased_variance b64num rhs_12)))]) = true.
Proof. vm_compute. reflexivity. Qed.

(** test/cumulative/comoment_suite.cpp:371 *)
Example cumulative_comoment_covariance_properties_suite_test_shift_invariant :
  (let lhs_1 := ccov_init b64num in
   let rhs_2 := ccov_init b64num in
   let lhs_3 := ccov_push b64num lhs_1 ((@nadd b64num (lit b64num 0 0) (lit b64num 1 (-1))), (@nadd b64num (lit b64num 0 0) (lit b64num 1 1))) in
   let rhs_4 := ccov_push b64num rhs_2 ((lit b64num 0 0), (lit b64num 0 0)) in
   let lhs_5 := ccov_push b64num lhs_3 ((@nadd b64num (lit b64num (-1) 0) (lit b64num 1 (-1))), (@nadd b64num (lit b64num 1 0) (lit b64num 1 1))) in
   let rhs_6 := ccov_push b64num rhs_4 ((lit b64num (-1) 0), (lit b64num 1 0)) in
   let lhs_7 := ccov_push b64num lhs_5 ((@nadd b64num (lit b64num (-1) 1) (lit b64num 1 (-1))), (@nadd b64num (lit b64num 5 1) (lit b64num 1 1))) in
   let rhs_8 := ccov_push b64num rhs_6 ((lit b64num (-1) 1), (lit b64num 5 1)) in
   let lhs_9 := ccov_push b64num lhs_7 ((@nadd b64num (lit b64num (-3) 0) (lit b64num 1 (-1))), (@nadd b64num (lit b64num 25 2) (lit b64num 1 1))) in
   let rhs_10 := ccov_push b64num rhs_8 ((lit b64num (-3) 0), (lit b64num 25 2)) in
   let lhs_11 := ccov_push b64num lhs_9 ((@nadd b64num (lit b64num (-1) 2) (lit b64num 1 (-1))), (@nadd b64num (lit b64num 125 3) (lit b64num 1 1))) in
   let rhs_12 := ccov_push b64num rhs_10 ((lit b64num (-1) 2), (lit b64num 125 3)) in
   all_true [(close_to (n := b64num) (Closeness (lit b64num 4722366482869645 (-72)) (@nmin b64num)) (ccov_unbiased_variance b64num lhs_3) (ccov_unbiased_variance b64num rhs_4));
     (close_to (n := b64num) (Closeness (lit b64num 4722366482869645 (-72)) (@nmin b64num)) (ccov_unbiased_variance b64num lhs_5) (ccov_unbiased_variance b64num rhs_6));
     (close_to (n := b64num) (Closeness (lit b64num 4722366482869645 (-72)) (@nmin b64num)) (ccov_unbiased_variance b64num lhs_7) (ccov_unbiased_variance b64num rhs_8));
     (close_to (n := b64num) (Closeness (lit b64num 4722366482869645 (-72)) (@nmin b64num)) (ccov_unbiased_variance b64num lhs_9) (ccov_unbiased_variance b64num rhs_10));
     (close_to (n := b64num) (Closeness (lit b64num 4722366482869645 (-72)) (@nmin b64num)) (ccov_unbiased_variance b64num lhs_11) (ccov_unbiased_variance b64num rhs_12))]) = true.
Proof. vm_compute. reflexivity. Qed.

(** test/cumulative/correlation_suite.cpp:22 *)
Example cumulative_correlation_double_suite_test_empty :
  (let filter_1 := ccorr_init b64num in
   all_true [(N.eqb (ccorr_size b64num filter_1) 0)]) = true.
Proof. vm_compute. reflexivity. Qed.

(** test/cumulative/correlation_suite.cpp:28 *)
Example cumulative_correlation_double_suite_test_hinton :
  (let filter_1 := ccorr_init b64num in
   let filter_2 := ccorr_push b64num filter_1 ((lit b64num 5 3), (lit b64num 29 1)) in
   let filter_3 := ccorr_push b64num filter_2 ((lit b64num 43 0), (lit b64num 73 0)) in
   let filter_4 := ccorr_push b64num filter_3 ((lit b64num 9 1), (lit b64num 7 3)) in
   let filter_5 := ccorr_push b64num filter_4 ((lit b64num 5 1), (lit b64num 47 0)) in
   let filter_6 := ccorr_push b64num filter_5 ((lit b64num 25 0), (lit b64num 29 1)) in
   let filter_7 := ccorr_push b64num filter_6 ((lit b64num 33 0), (lit b64num 27 1)) in
   let filter_8 := ccorr_push b64num filter_7 ((lit b64num 27 0), (lit b64num 45 0)) in
   let filter_9 := ccorr_push b64num filter_8 ((lit b64num 17 0), (lit b64num 1 5)) in
   let filter_10 := ccorr_push b64num filter_9 ((lit b64num 15 1), (lit b64num 17 2)) in
   let filter_11 := ccorr_push b64num filter_10 ((lit b64num 47 0), (lit b64num 69 0)) in
   all_true [(close_to (n := b64num) (Closeness (lit b64num 5902958103587057 (-69)) (@nmin b64num)) (ccorr_value b64num filter_2) (lit b64num 1 0));
     (close_to (n := b64num) (Closeness (lit b64num 5902958103587057 (-69)) (@nmin b64num)) (ccorr_value b64num filter_3) (lit b64num 1 0));
     (close_to (n := b64num) (Closeness (lit b64num 5902958103587057 (-69)) (@nmin b64num)) (ccorr_value b64num filter_4) (lit b64num 1520933148157427 (-51)));
     (close_to (n := b64num) (Closeness (lit b64num 5902958103587057 (-69)) (@nmin b64num)) (ccorr_value b64num filter_5) (lit b64num 3797300097809981 (-52)));
     (close_to (n := b64num) (Closeness (lit b64num 5902958103587057 (-69)) (@nmin b64num)) (ccorr_value b64num filter_6) (lit b64num 3791175202316757 (-52)));
     (close_to (n := b64num) (Closeness (lit b64num 5902958103587057 (-69)) (@nmin b64num)) (ccorr_value b64num filter_7) (lit b64num 3468852576985851 (-52)));
     (close_to (n := b64num) (Closeness (lit b64num 5902958103587057 (-69)) (@nmin b64num)) (ccorr_value b64num filter_8) (lit b64num 6086074464435941 (-53)));
     (close_to (n := b64num) (Closeness (lit b64num 5902958103587057 (-69)) (@nmin b64num)) (ccorr_value b64num filter_9) (lit b64num 3100683307448313 (-52)));
     (close_to (n := b64num) (Closeness (lit b64num 5902958103587057 (-69)) (@nmin b64num)) (ccorr_value b64num filter_10) (lit b64num 6006450823024031 (-53)));
     (close_to (n := b64num) (Closeness (lit b64num 5902958103587057 (-69)) (@nmin b64num)) (ccorr_value b64num filter_11) (lit b64num 1622894643721095 (-51)))]) = true.
Proof. vm_compute. reflexivity. Qed.

(** test/cumulative/correlation_suite.cpp:67 *)
Example cumulative_correlation_anscombe_quartet_anscombe_I :
  (let filter_1 := ccorr_init b64num in
   let filter_2 := ccorr_push b64num filter_1 ((lit b64num 5 1), (lit b64num 1131529406376837 (-47))) in
   let filter_3 := ccorr_push b64num filter_2 ((lit b64num 1 3), (lit b64num 7825004352556237 (-50))) in
   let filter_4 := ccorr_push b64num filter_3 ((lit b64num 13 0), (lit b64num 4267160646933545 (-49))) in
   let filter_5 := ccorr_push b64num filter_4 ((lit b64num 9 0), (lit b64num 4959589089641759 (-49))) in
   let filter_6 := ccorr_push b64num filter_5 ((lit b64num 11 0), (lit b64num 4689373111999529 (-49))) in
   let filter_7 := ccorr_push b64num filter_6 ((lit b64num 7 1), (lit b64num 1401745384019067 (-47))) in
   let filter_8 := ccorr_push b64num filter_7 ((lit b64num 3 1), (lit b64num 4075757662770299 (-49))) in
   let filter_9 := ccorr_push b64num filter_8 ((lit b64num 1 2), (lit b64num 2398166801574789 (-49))) in
   let filter_10 := ccorr_push b64num filter_9 ((lit b64num 3 2), (lit b64num 3051188747543511 (-48))) in
   let filter_11 := ccorr_push b64num filter_10 ((lit b64num 7 0), (lit b64num 678354693872681 (-47))) in
   let filter_12 := ccorr_push b64num filter_11 ((lit b64num 5 0), (lit b64num 799388933858263 (-47))) in
   all_true [(close_to (n := b64num) (Closeness (lit b64num 3602879701896397 (-56)) (@nmin b64num)) (ccorr_value b64num filter_12) (lit b64num 7349874591868649 (-53)))]) = true.
Proof. vm_compute. reflexivity. Qed.

(** test/cumulative/correlation_suite.cpp:86 *)
Example cumulative_correlation_anscombe_quartet_anscombe_II :
  (let filter_1 := ccorr_init b64num in
   let filter_2 := ccorr_push b64num filter_1 ((lit b64num 5 1), (lit b64num 643170321783849 (-46))) in
   let filter_3 := ccorr_push b64num filter_2 ((lit b64num 1 3), (lit b64num 572801577606185 (-46))) in
   let filter_4 := ccorr_push b64num filter_3 ((lit b64num 13 0), (lit b64num 4920182592902267 (-49))) in
   let filter_5 := ccorr_push b64num filter_4 ((lit b64num 9 0), (lit b64num 2468535545752453 (-48))) in
   let filter_6 := ccorr_push b64num filter_5 ((lit b64num 11 0), (lit b64num 5212916568681349 (-49))) in
   let filter_7 := ccorr_push b64num filter_6 ((lit b64num 7 1), (lit b64num 4559894622712627 (-49))) in
   let filter_8 := ccorr_push b64num filter_7 ((lit b64num 3 1), (lit b64num 6901766428945285 (-50))) in
   let filter_9 := ccorr_push b64num filter_8 ((lit b64num 1 2), (lit b64num 6980579422424269 (-51))) in
   let filter_10 := ccorr_push b64num filter_9 ((lit b64num 3 2), (lit b64num 5139733074736579 (-49))) in
   let filter_11 := ccorr_push b64num filter_10 ((lit b64num 7 0), (lit b64num 4087016661838725 (-49))) in
   let filter_12 := ccorr_push b64num filter_11 ((lit b64num 5 0), (lit b64num 2668382779217019 (-49))) in
   all_true [(close_to (n := b64num) (Closeness (lit b64num 3602879701896397 (-56)) (@nmin b64num)) (ccorr_value b64num filter_12) (lit b64num 7349874591868649 (-53)))]) = true.
Proof. vm_compute. reflexivity. Qed.

(** test/cumulative/correlation_suite.cpp:105 *)
Example cumulative_correlation_anscombe_quartet_anscombe_III :
  (let filter_1 := ccorr_init b64num in
   let filter_2 := ccorr_push b64num filter_1 ((lit b64num 5 1), (lit b64num 8399213305045975 (-50))) in
   let filter_3 := ccorr_push b64num filter_2 ((lit b64num 1 3), (lit b64num 1905585592331141 (-48))) in
   let filter_4 := ccorr_push b64num filter_3 ((lit b64num 13 0), (lit b64num 7171982406587515 (-49))) in
   let filter_5 := ccorr_push b64num filter_4 ((lit b64num 9 0), (lit b64num 8005148337651057 (-50))) in
   let filter_6 := ccorr_push b64num filter_5 ((lit b64num 11 0), (lit b64num 8793278272440893 (-50))) in
   let filter_7 := ccorr_push b64num filter_6 ((lit b64num 7 1), (lit b64num 2488238794122199 (-48))) in
   let filter_8 := ccorr_push b64num filter_7 ((lit b64num 3 1), (lit b64num 3422735716801577 (-49))) in
   let filter_9 := ccorr_push b64num filter_8 ((lit b64num 1 2), (lit b64num 6068600497881743 (-50))) in
   let filter_10 := ccorr_push b64num filter_9 ((lit b64num 3 2), (lit b64num 4588042120383693 (-49))) in
   let filter_11 := ccorr_push b64num filter_10 ((lit b64num 7 0), (lit b64num 3614138700964823 (-49))) in
   let filter_12 := ccorr_push b64num filter_11 ((lit b64num 5 0), (lit b64num 1612851616552059 (-48))) in
   all_true [(close_to (n := b64num) (Closeness (lit b64num 3602879701896397 (-56)) (@nmin b64num)) (ccorr_value b64num filter_12) (lit b64num 7349874591868649 (-53)))]) = true.
Proof. vm_compute. reflexivity. Qed.

(** test/cumulative/correlation_suite.cpp:124 *)
Example cumulative_correlation_anscombe_quartet_anscombe_IV :
  (let filter_1 := ccorr_init b64num in
   let filter_2 := ccorr_push b64num filter_1 ((lit b64num 1 3), (lit b64num 3704210693512233 (-49))) in
   let filter_3 := ccorr_push b64num filter_2 ((lit b64num 1 3), (lit b64num 3242591731706757 (-49))) in
   let filter_4 := ccorr_push b64num filter_3 ((lit b64num 1 3), (lit b64num 8680688281756631 (-50))) in
   let filter_5 := ccorr_push b64num filter_4 ((lit b64num 1 3), (lit b64num 2488238794122199 (-48))) in
   let filter_6 := ccorr_push b64num filter_5 ((lit b64num 1 3), (lit b64num 4768186105478513 (-49))) in
   let filter_7 := ccorr_push b64num filter_6 ((lit b64num 1 3), (lit b64num 7926335344172073 (-50))) in
   let filter_8 := ccorr_push b64num filter_7 ((lit b64num 1 3), (lit b64num 21 (-2))) in
   let filter_9 := ccorr_push b64num filter_8 ((lit b64num 19 0), (lit b64num 25 (-1))) in
   let filter_10 := ccorr_push b64num filter_9 ((lit b64num 1 3), (lit b64num 6260003482044989 (-50))) in
   let filter_11 := ccorr_push b64num filter_10 ((lit b64num 1 3), (lit b64num 2226467065781289 (-48))) in
   let filter_12 := ccorr_push b64num filter_11 ((lit b64num 1 3), (lit b64num 7757450358145679 (-50))) in
   all_true [(close_to (n := b64num) (Closeness (lit b64num 3602879701896397 (-56)) (@nmin b64num)) (ccorr_value b64num filter_12) (lit b64num 7349874591868649 (-53)))]) = true.
Proof. vm_compute. reflexivity. Qed.

(** test/cumulative/regression_suite.cpp:25 *)
Example cumulative_regression_cumulative_double_test_ctor :
  (let filter_1 := creg_init b64num in
   all_true [(N.eqb (creg_size b64num filter_1) 0)]) = true.
Proof. vm_compute. reflexivity. Qed.

(** test/cumulative/regression_suite.cpp:31 *)
Example cumulative_regression_cumulative_double_test_same :
  (let filter_1 := creg_init b64num in
   let filter_2 := creg_push b64num filter_1 ((lit b64num 1 0), (lit b64num 1 0)) in
   let filter_3 := creg_push b64num filter_2 ((lit b64num 1 0), (lit b64num 1 0)) in
   let filter_4 := creg_push b64num filter_3 ((lit b64num 1 0), (lit b64num 1 0)) in
   all_true [(N.eqb (creg_size b64num filter_2) 1);
     (close_to (n := b64num) (Closeness (lit b64num 5902958103587057 (-69)) (@nmin b64num)) (creg_slope b64num filter_2) (lit b64num 0 0));
     (close_to (n := b64num) (Closeness (lit b64num 5902958103587057 (-69)) (@nmin b64num)) (creg_at b64num filter_2 (lit b64num 0 0)) (lit b64num 1 0));
     (N.eqb (creg_size b64num filter_3) 2);
     (close_to (n := b64num) (Closeness (lit b64num 5902958103587057 (-69)) (@nmin b64num)) (creg_slope b64num filter_3) (lit b64num 0 0));
     (close_to (n := b64num) (Closeness (lit b64num 5902958103587057 (-69)) (@nmin b64num)) (creg_at b64num filter_3 (lit b64num 0 0)) (lit b64num 1 0));
     (N.eqb (creg_size b64num filter_4) 3);
     (close_to (n := b64num) (Closeness (lit b64num 5902958103587057 (-69)) (@nmin b64num)) (creg_slope b64num filter_4) (lit b64num 0 0));
     (close_to (n := b64num) (Closeness (lit b64num 5902958103587057 (-69)) (@nmin b64num)) (creg_at b64num filter_4 (lit b64num 0 0)) (lit b64num 1 0))]) = true.
Proof. vm_compute. reflexivity. Qed.

(** test/cumulative/regression_suite.cpp:52 *)
Example cumulative_regression_cumulative_double_test_linear_increase :
  (let filter_1 := creg_init b64num in
   let filter_2 := creg_push b64num filter_1 ((lit b64num 0 0), (lit b64num 0 0)) in
   let filter_3 := creg_push b64num filter_2 ((lit b64num 1 0), (lit b64num 1 0)) in
   let filter_4 := creg_push b64num filter_3 ((lit b64num 1 1), (lit b64num 1 1)) in
   let filter_5 := creg_push b64num filter_4 ((lit b64num 3 0), (lit b64num 3 0)) in
   let filter_6 := creg_push b64num filter_5 ((lit b64num 1 2), (lit b64num 1 2)) in
   all_true [(N.eqb (creg_size b64num filter_2) 1);
     (close_to (n := b64num) (Closeness (lit b64num 5902958103587057 (-69)) (@nmin b64num)) (creg_slope b64num filter_2) (lit b64num 0 0));
     (close_to (n := b64num) (Closeness (lit b64num 5902958103587057 (-69)) (@nmin b64num)) (creg_at b64num filter_2 (lit b64num 0 0)) (lit b64num 0 0));
     (N.eqb (creg_size b64num filter_3) 2);
     (close_to (n := b64num) (Closeness (lit b64num 5902958103587057 (-69)) (@nmin b64num)) (creg_slope b64num filter_3) (lit b64num 1 0));
     (close_to (n := b64num) (Closeness (lit b64num 5902958103587057 (-69)) (@nmin b64num)) (creg_at b64num filter_3 (lit b64num 0 0)) (lit b64num 0 0));
     (close_to (n := b64num) (Closeness (lit b64num 5902958103587057 (-69)) (@nmin b64num)) (creg_at b64num filter_3 (lit b64num 1 0)) (lit b64num 1 0));
     (N.eqb (creg_size b64num filter_4) 3);
     (close_to (n := b64num) (Closeness (lit b64num 5902958103587057 (-69)) (@nmin b64num)) (creg_slope b64num filter_4) (lit b64num 1 0));
     (close_to (n := b64num) (Closeness (lit b64num 5902958103587057 (-69)) (@nmin b64num)) (creg_at b64num filter_4 (lit b64num 0 0)) (lit b64num 0 0));
     (close_to (n := b64num) (Closeness (lit b64num 5902958103587057 (-69)) (@nmin b64num)) (creg_at b64num filter_4 (lit b64num 1 1)) (lit b64num 1 1));
     (N.eqb (creg_size b64num filter_5) 4);
     (close_to (n := b64num) (Closeness (lit b64num 5902958103587057 (-69)) (@nmin b64num)) (creg_slope b64num filter_5) (lit b64num 1 0));
     (close_to (n := b64num) (Closeness (lit b64num 5902958103587057 (-69)) (@nmin b64num)) (creg_at b64num filter_5 (lit b64num 0 0)) (lit b64num 0 0));
     (close_to (n := b64num) (Closeness (lit b64num 5902958103587057 (-69)) (@nmin b64num)) (creg_at b64num filter_5 (lit b64num 3 0)) (lit b64num 3 0));
     (N.eqb (creg_size b64num filter_6) 5);
     (close_to (n := b64num) (Closeness (lit b64num 5902958103587057 (-69)) (@nmin b64num)) (creg_slope b64num filter_6) (lit b64num 1 0));
     (close_to (n := b64num) (Closeness (lit b64num 5902958103587057 (-69)) (@nmin b64num)) (creg_at b64num filter_6 (lit b64num 0 0)) (lit b64num 0 0));
     (close_to (n := b64num) (Closeness (lit b64num 5902958103587057 (-69)) (@nmin b64num)) (creg_at b64num filter_6 (lit b64num 1 2)) (lit b64num 1 2))]) = true.
Proof. vm_compute. reflexivity. Qed.

(** test/cumulative/regression_suite.cpp:87 *)
Example cumulative_regression_cumulative_double_test_linear_increase__offset :
  (let filter_1 := creg_init b64num in
   let filter_2 := creg_push b64num filter_1 ((lit b64num 1 1), (lit b64num 1 1)) in
   let filter_3 := creg_push b64num filter_2 ((lit b64num 3 0), (lit b64num 3 0)) in
   let filter_4 := creg_push b64num filter_3 ((lit b64num 1 2), (lit b64num 1 2)) in
   all_true [(close_to (n := b64num) (Closeness (lit b64num 5902958103587057 (-69)) (@nmin b64num)) (creg_slope b64num filter_2) (lit b64num 0 0));
     (close_to (n := b64num) (Closeness (lit b64num 5902958103587057 (-69)) (@nmin b64num)) (creg_at b64num filter_2 (lit b64num 0 0)) (lit b64num 1 1));
     (close_to (n := b64num) (Closeness (lit b64num 5902958103587057 (-69)) (@nmin b64num)) (creg_slope b64num filter_3) (lit b64num 1 0));
     (close_to (n := b64num) (Closeness (lit b64num 5902958103587057 (-69)) (@nmin b64num)) (creg_at b64num filter_3 (lit b64num 0 0)) (lit b64num 0 0));
     (close_to (n := b64num) (Closeness (lit b64num 5902958103587057 (-69)) (@nmin b64num)) (creg_slope b64num filter_4) (lit b64num 1 0));
     (close_to (n := b64num) (Closeness (lit b64num 5902958103587057 (-69)) (@nmin b64num)) (creg_at b64num filter_4 (lit b64num 0 0)) (lit b64num 0 0))]) = true.
Proof. vm_compute. reflexivity. Qed.

(** test/cumulative/regression_suite.cpp:105 *)
Example cumulative_regression_cumulative_double_test_linear_decrease :
  (let filter_1 := creg_init b64num in
   let filter_2 := creg_push b64num filter_1 ((lit b64num 1 1), (lit b64num 1 1)) in
   let filter_3 := creg_push b64num filter_2 ((lit b64num 1 0), (lit b64num 1 0)) in
   let filter_4 := creg_push b64num filter_3 ((lit b64num 0 0), (lit b64num 0 0)) in
   let filter_5 := creg_push b64num filter_4 ((lit b64num (-1) 0), (lit b64num (-1) 0)) in
   let filter_6 := creg_push b64num filter_5 ((lit b64num (-1) 1), (lit b64num (-1) 1)) in
   all_true [(close_to (n := b64num) (Closeness (lit b64num 5902958103587057 (-69)) (@nmin b64num)) (creg_slope b64num filter_2) (lit b64num 0 0));
     (close_to (n := b64num) (Closeness (lit b64num 5902958103587057 (-69)) (@nmin b64num)) (creg_at b64num filter_2 (lit b64num 0 0)) (lit b64num 1 1));
     (close_to (n := b64num) (Closeness (lit b64num 5902958103587057 (-69)) (@nmin b64num)) (creg_slope b64num filter_3) (lit b64num 1 0));
     (close_to (n := b64num) (Closeness (lit b64num 5902958103587057 (-69)) (@nmin b64num)) (creg_at b64num filter_3 (lit b64num 0 0)) (lit b64num 0 0));
     (close_to (n := b64num) (Closeness (lit b64num 5902958103587057 (-69)) (@nmin b64num)) (creg_slope b64num filter_4) (lit b64num 1 0));
     (close_to (n := b64num) (Closeness (lit b64num 5902958103587057 (-69)) (@nmin b64num)) (creg_at b64num filter_4 (lit b64num 0 0)) (lit b64num 0 0));
     (close_to (n := b64num) (Closeness (lit b64num 5902958103587057 (-69)) (@nmin b64num)) (creg_slope b64num filter_5) (lit b64num 1 0));
     (close_to (n := b64num) (Closeness (lit b64num 5902958103587057 (-69)) (@nmin b64num)) (creg_at b64num filter_5 (lit b64num 0 0)) (lit b64num 0 0));
     (close_to (n := b64num) (Closeness (lit b64num 5902958103587057 (-69)) (@nmin b64num)) (creg_slope b64num filter_6) (lit b64num 1 0));
     (close_to (n := b64num) (Closeness (lit b64num 5902958103587057 (-69)) (@nmin b64num)) (creg_at b64num filter_6 (lit b64num 0 0)) (lit b64num 0 0))]) = true.
Proof. vm_compute. reflexivity. Qed.

(** test/cumulative/regression_suite.cpp:131 *)
Example cumulative_regression_cumulative_double_test_scatter :
  (let filter_1 := creg_init b64num in
   let filter_2 := creg_push b64num filter_1 ((lit b64num 1 0), (lit b64num 1 0)) in
   let filter_3 := creg_push b64num filter_2 ((lit b64num 1 1), (lit b64num 1 1)) in
   let filter_4 := creg_push b64num filter_3 ((lit b64num 3 0), (lit b64num 5854679515581645 (-52))) in
   let filter_5 := creg_push b64num filter_4 ((lit b64num 1 2), (lit b64num 15 (-2))) in
   let filter_6 := creg_push b64num filter_5 ((lit b64num 5 0), (lit b64num 9 (-2))) in
   all_true [(close_to (n := b64num) (Closeness (lit b64num 5902958103587057 (-69)) (@nmin b64num)) (creg_slope b64num filter_2) (lit b64num 0 0));
     (close_to (n := b64num) (Closeness (lit b64num 5902958103587057 (-69)) (@nmin b64num)) (creg_at b64num filter_2 (lit b64num 0 0)) (lit b64num 1 0));
     (close_to (n := b64num) (Closeness (lit b64num 5902958103587057 (-69)) (@nmin b64num)) (creg_slope b64num filter_3) (lit b64num 1 0));
     (close_to (n := b64num) (Closeness (lit b64num 5902958103587057 (-69)) (@nmin b64num)) (creg_at b64num filter_3 (lit b64num 0 0)) (lit b64num 0 0));
     (close_to (n := b64num) (Closeness (lit b64num 5902958103587057 (-69)) (@nmin b64num)) (creg_slope b64num filter_4) (lit b64num 5404319552844595 (-55)));
     (close_to (n := b64num) (Closeness (lit b64num 5902958103587057 (-69)) (@nmin b64num)) (creg_at b64num filter_4 (lit b64num 0 0)) (lit b64num 1276016141421951 (-50)));
     (close_to (n := b64num) (Closeness (lit b64num 5902958103587057 (-69)) (@nmin b64num)) (creg_slope b64num filter_5) (lit b64num 6800435437329449 (-53)));
     (close_to (n := b64num) (Closeness (lit b64num 5902958103587057 (-69)) (@nmin b64num)) (creg_at b64num filter_5 (lit b64num 0 0)) (lit b64num 1 (-3)));
     (close_to (n := b64num) (Closeness (lit b64num 5902958103587057 (-69)) (@nmin b64num)) (creg_slope b64num filter_6) (lit b64num 7656119366529843 (-54)));
     (close_to (n := b64num) (Closeness (lit b64num 5902958103587057 (-69)) (@nmin b64num)) (creg_at b64num filter_6 (lit b64num 0 0)) (lit b64num 7070651414971679 (-53)))]) = true.
Proof. vm_compute. reflexivity. Qed.

(** test/cumulative/regression_suite.cpp:174 *)
Example cumulative_regression_anscombe_quartet_anscombe_I :
  (let filter_1 := creg_init b64num in
   let filter_2 := creg_push b64num filter_1 ((lit b64num 5 1), (lit b64num 1131529406376837 (-47))) in
   let filter_3 := creg_push b64num filter_2 ((lit b64num 1 3), (lit b64num 7825004352556237 (-50))) in
   let filter_4 := creg_push b64num filter_3 ((lit b64num 13 0), (lit b64num 4267160646933545 (-49))) in
   let filter_5 := creg_push b64num filter_4 ((lit b64num 9 0), (lit b64num 4959589089641759 (-49))) in
   let filter_6 := creg_push b64num filter_5 ((lit b64num 11 0), (lit b64num 4689373111999529 (-49))) in
   let filter_7 := creg_push b64num filter_6 ((lit b64num 7 1), (lit b64num 1401745384019067 (-47))) in
   let filter_8 := creg_push b64num filter_7 ((lit b64num 3 1), (lit b64num 4075757662770299 (-49))) in
   let filter_9 := creg_push b64num filter_8 ((lit b64num 1 2), (lit b64num 2398166801574789 (-49))) in
   let filter_10 := creg_push b64num filter_9 ((lit b64num 3 2), (lit b64num 3051188747543511 (-48))) in
   let filter_11 := creg_push b64num filter_10 ((lit b64num 7 0), (lit b64num 678354693872681 (-47))) in
   let filter_12 := creg_push b64num filter_11 ((lit b64num 5 0), (lit b64num 799388933858263 (-47))) in
   all_true [(close_to (n := b64num) (Closeness (lit b64num 3602879701896397 (-56)) (@nmin b64num)) (creg_slope b64num filter_12) (lit b64num 1 (-1)));
     (close_to (n := b64num) (Closeness (lit b64num 3602879701896397 (-56)) (@nmin b64num)) (creg_at b64num filter_12 (lit b64num 0 0)) (lit b64num 3 0))]) = true.
Proof. vm_compute. reflexivity. Qed.

(** test/cumulative/regression_suite.cpp:194 *)
Example cumulative_regression_anscombe_quartet_anscombe_II :
  (let filter_1 := creg_init b64num in
   let filter_2 := creg_push b64num filter_1 ((lit b64num 5 1), (lit b64num 643170321783849 (-46))) in
   let filter_3 := creg_push b64num filter_2 ((lit b64num 1 3), (lit b64num 572801577606185 (-46))) in
   let filter_4 := creg_push b64num filter_3 ((lit b64num 13 0), (lit b64num 4920182592902267 (-49))) in
   let filter_5 := creg_push b64num filter_4 ((lit b64num 9 0), (lit b64num 2468535545752453 (-48))) in
   let filter_6 := creg_push b64num filter_5 ((lit b64num 11 0), (lit b64num 5212916568681349 (-49))) in
   let filter_7 := creg_push b64num filter_6 ((lit b64num 7 1), (lit b64num 4559894622712627 (-49))) in
   let filter_8 := creg_push b64num filter_7 ((lit b64num 3 1), (lit b64num 6901766428945285 (-50))) in
   let filter_9 := creg_push b64num filter_8 ((lit b64num 1 2), (lit b64num 6980579422424269 (-51))) in
   let filter_10 := creg_push b64num filter_9 ((lit b64num 3 2), (lit b64num 5139733074736579 (-49))) in
   let filter_11 := creg_push b64num filter_10 ((lit b64num 7 0), (lit b64num 4087016661838725 (-49))) in
   let filter_12 := creg_push b64num filter_11 ((lit b64num 5 0), (lit b64num 2668382779217019 (-49))) in
   all_true [(close_to (n := b64num) (Closeness (lit b64num 3602879701896397 (-56)) (@nmin b64num)) (creg_slope b64num filter_12) (lit b64num 1 (-1)));
     (close_to (n := b64num) (Closeness (lit b64num 3602879701896397 (-56)) (@nmin b64num)) (creg_at b64num filter_12 (lit b64num 0 0)) (lit b64num 3 0))]) = true.
Proof. vm_compute. reflexivity. Qed.

(** test/cumulative/regression_suite.cpp:214 *)
Example cumulative_regression_anscombe_quartet_anscombe_III :
  (let filter_1 := creg_init b64num in
   let filter_2 := creg_push b64num filter_1 ((lit b64num 5 1), (lit b64num 8399213305045975 (-50))) in
   let filter_3 := creg_push b64num filter_2 ((lit b64num 1 3), (lit b64num 1905585592331141 (-48))) in
   let filter_4 := creg_push b64num filter_3 ((lit b64num 13 0), (lit b64num 7171982406587515 (-49))) in
   let filter_5 := creg_push b64num filter_4 ((lit b64num 9 0), (lit b64num 8005148337651057 (-50))) in
   let filter_6 := creg_push b64num filter_5 ((lit b64num 11 0), (lit b64num 8793278272440893 (-50))) in
   let filter_7 := creg_push b64num filter_6 ((lit b64num 7 1), (lit b64num 2488238794122199 (-48))) in
   let filter_8 := creg_push b64num filter_7 ((lit b64num 3 1), (lit b64num 3422735716801577 (-49))) in
   let filter_9 := creg_push b64num filter_8 ((lit b64num 1 2), (lit b64num 6068600497881743 (-50))) in
   let filter_10 := creg_push b64num filter_9 ((lit b64num 3 2), (lit b64num 4588042120383693 (-49))) in
   let filter_11 := creg_push b64num filter_10 ((lit b64num 7 0), (lit b64num 3614138700964823 (-49))) in
   let filter_12 := creg_push b64num filter_11 ((lit b64num 5 0), (lit b64num 1612851616552059 (-48))) in
   all_true [(close_to (n := b64num) (Closeness (lit b64num 3602879701896397 (-56)) (@nmin b64num)) (creg_slope b64num filter_12) (lit b64num 1 (-1)));
     (close_to (n := b64num) (Closeness (lit b64num 3602879701896397 (-56)) (@nmin b64num)) (creg_at b64num filter_12 (lit b64num 0 0)) (lit b64num 3 0))]) = true.
Proof. vm_compute. reflexivity. Qed.

(** test/cumulative/regression_suite.cpp:234 *)
Example cumulative_regression_anscombe_quartet_anscombe_IV :
  (let filter_1 := creg_init b64num in
   let filter_2 := creg_push b64num filter_1 ((lit b64num 1 3), (lit b64num 3704210693512233 (-49))) in
   let filter_3 := creg_push b64num filter_2 ((lit b64num 1 3), (lit b64num 3242591731706757 (-49))) in
   let filter_4 := creg_push b64num filter_3 ((lit b64num 1 3), (lit b64num 8680688281756631 (-50))) in
   let filter_5 := creg_push b64num filter_4 ((lit b64num 1 3), (lit b64num 2488238794122199 (-48))) in
   let filter_6 := creg_push b64num filter_5 ((lit b64num 1 3), (lit b64num 4768186105478513 (-49))) in
   let filter_7 := creg_push b64num filter_6 ((lit b64num 1 3), (lit b64num 7926335344172073 (-50))) in
   let filter_8 := creg_push b64num filter_7 ((lit b64num 1 3), (lit b64num 21 (-2))) in
   let filter_9 := creg_push b64num filter_8 ((lit b64num 19 0), (lit b64num 25 (-1))) in
   let filter_10 := creg_push b64num filter_9 ((lit b64num 1 3), (lit b64num 6260003482044989 (-50))) in
   let filter_11 := creg_push b64num filter_10 ((lit b64num 1 3), (lit b64num 2226467065781289 (-48))) in
   let filter_12 := creg_push b64num filter_11 ((lit b64num 1 3), (lit b64num 7757450358145679 (-50))) in
   all_true [(close_to (n := b64num) (Closeness (lit b64num 3602879701896397 (-56)) (@nmin b64num)) (creg_slope b64num filter_12) (lit b64num 1 (-1)));
     (close_to (n := b64num) (Closeness (lit b64num 3602879701896397 (-56)) (@nmin b64num)) (creg_at b64num filter_12 (lit b64num 0 0)) (lit b64num 3 0))]) = true.
Proof. vm_compute. reflexivity. Qed.

(** test/cumulative/trend_suite.cpp:22 *)
Example cumulative_trend_double_suite_test_ctor :
  (let filter_1 := ctrend_init b64num in
   all_true [(N.eqb (ctrend_size b64num filter_1) 0);
     (neq (n := b64num) (ctrend_value b64num filter_1) (lit b64num 0 0))]) = true.
Proof. vm_compute. reflexivity. Qed.

(** test/cumulative/trend_suite.cpp:29 *)
Example cumulative_trend_double_suite_test_same :
  (let filter_1 := ctrend_init b64num in
   let filter_2 := ctrend_push b64num filter_1 (lit b64num 1 0) in
   let filter_3 := ctrend_push b64num filter_2 (lit b64num 1 0) in
   let filter_4 := ctrend_push b64num filter_3 (lit b64num 1 0) in
   let filter_5 := ctrend_push b64num filter_4 (lit b64num 1 0) in
   let filter_6 := ctrend_push b64num filter_5 (lit b64num 1 0) in
   all_true [(N.eqb (ctrend_size b64num filter_2) 1);
     (close_to (n := b64num) (Closeness (lit b64num 5902958103587057 (-69)) (@nmin b64num)) (ctrend_value b64num filter_2) (lit b64num 1 0));
     (N.eqb (ctrend_size b64num filter_3) 2);
     (close_to (n := b64num) (Closeness (lit b64num 5902958103587057 (-69)) (@nmin b64num)) (ctrend_value b64num filter_3) (lit b64num 1 0));
     (N.eqb (ctrend_size b64num filter_4) 3);
     (close_to (n := b64num) (Closeness (lit b64num 5902958103587057 (-69)) (@nmin b64num)) (ctrend_value b64num filter_4) (lit b64num 1 0));
     (N.eqb (ctrend_size b64num filter_5) 4);
     (close_to (n := b64num) (Closeness (lit b64num 5902958103587057 (-69)) (@nmin b64num)) (ctrend_value b64num filter_5) (lit b64num 1 0));
     (N.eqb (ctrend_size b64num filter_6) 5);
     (close_to (n := b64num) (Closeness (lit b64num 5902958103587057 (-69)) (@nmin b64num)) (ctrend_value b64num filter_6) (lit b64num 1 0))]) = true.
Proof. vm_compute. reflexivity. Qed.

(** test/cumulative/trend_suite.cpp:51 *)
Example cumulative_trend_double_suite_test_linear_increase :
  (let filter_1 := ctrend_init b64num in
   let filter_2 := ctrend_push b64num filter_1 (lit b64num 1 0) in
   let filter_3 := ctrend_push b64num filter_2 (lit b64num 1 1) in
   let filter_4 := ctrend_push b64num filter_3 (lit b64num 3 0) in
   let filter_5 := ctrend_push b64num filter_4 (lit b64num 1 2) in
   let filter_6 := ctrend_push b64num filter_5 (lit b64num 5 0) in
   let filter_7 := ctrend_push b64num filter_6 (lit b64num 3 1) in
   let filter_8 := ctrend_push b64num filter_7 (lit b64num 7 0) in
   let filter_9 := ctrend_push b64num filter_8 (lit b64num 1 3) in
   let filter_10 := ctrend_push b64num filter_9 (lit b64num 9 0) in
   let filter_11 := ctrend_push b64num filter_10 (lit b64num 5 1) in
   all_true [(close_to (n := b64num) (Closeness (lit b64num 5902958103587057 (-69)) (@nmin b64num)) (ctrend_value b64num filter_2) (lit b64num 1 0));
     (close_to (n := b64num) (Closeness (lit b64num 5902958103587057 (-69)) (@nmin b64num)) (ctrend_value b64num filter_3) (lit b64num 1 1));
     (close_to (n := b64num) (Closeness (lit b64num 5902958103587057 (-69)) (@nmin b64num)) (ctrend_value b64num filter_4) (lit b64num 3 0));
     (close_to (n := b64num) (Closeness (lit b64num 5902958103587057 (-69)) (@nmin b64num)) (ctrend_value b64num filter_5) (lit b64num 1 2));
     (close_to (n := b64num) (Closeness (lit b64num 5902958103587057 (-69)) (@nmin b64num)) (ctrend_value b64num filter_6) (lit b64num 5 0));
     (close_to (n := b64num) (Closeness (lit b64num 5902958103587057 (-69)) (@nmin b64num)) (ctrend_value b64num filter_7) (lit b64num 3 1));
     (close_to (n := b64num) (Closeness (lit b64num 5902958103587057 (-69)) (@nmin b64num)) (ctrend_value b64num filter_8) (lit b64num 7 0));
     (close_to (n := b64num) (Closeness (lit b64num 5902958103587057 (-69)) (@nmin b64num)) (ctrend_value b64num filter_9) (lit b64num 1 3));
     (close_to (n := b64num) (Closeness (lit b64num 5902958103587057 (-69)) (@nmin b64num)) (ctrend_value b64num filter_10) (lit b64num 9 0));
     (close_to (n := b64num) (Closeness (lit b64num 5902958103587057 (-69)) (@nmin b64num)) (ctrend_value b64num filter_11) (lit b64num 5 1))]) = true.
Proof. vm_compute. reflexivity. Qed.

(** test/cumulative/trend_suite.cpp:78 *)
Example cumulative_trend_double_suite_test_linear_increase_offset :
  (let filter_1 := ctrend_init b64num in
   let filter_2 := ctrend_push b64num filter_1 (lit b64num 5 1) in
   let filter_3 := ctrend_push b64num filter_2 (lit b64num 11 0) in
   let filter_4 := ctrend_push b64num filter_3 (lit b64num 3 2) in
   all_true [(close_to (n := b64num) (Closeness (lit b64num 5902958103587057 (-69)) (@nmin b64num)) (ctrend_value b64num filter_2) (lit b64num 5 1));
     (close_to (n := b64num) (Closeness (lit b64num 5902958103587057 (-69)) (@nmin b64num)) (ctrend_value b64num filter_3) (lit b64num 11 0));
     (close_to (n := b64num) (Closeness (lit b64num 5902958103587057 (-69)) (@nmin b64num)) (ctrend_value b64num filter_4) (lit b64num 3 2))]) = true.
Proof. vm_compute. reflexivity. Qed.

(** test/cumulative/trend_suite.cpp:91 *)
Example cumulative_trend_double_suite_test_linear_decrease :
  (let filter_1 := ctrend_init b64num in
   let filter_2 := ctrend_push b64num filter_1 (lit b64num 5 1) in
   let filter_3 := ctrend_push b64num filter_2 (lit b64num 9 0) in
   let filter_4 := ctrend_push b64num filter_3 (lit b64num 1 3) in
   let filter_5 := ctrend_push b64num filter_4 (lit b64num 7 0) in
   let filter_6 := ctrend_push b64num filter_5 (lit b64num 3 1) in
   let filter_7 := ctrend_push b64num filter_6 (lit b64num 5 0) in
   let filter_8 := ctrend_push b64num filter_7 (lit b64num 1 2) in
   let filter_9 := ctrend_push b64num filter_8 (lit b64num 3 0) in
   let filter_10 := ctrend_push b64num filter_9 (lit b64num 1 1) in
   let filter_11 := ctrend_push b64num filter_10 (lit b64num 1 0) in
   all_true [(close_to (n := b64num) (Closeness (lit b64num 5902958103587057 (-69)) (@nmin b64num)) (ctrend_value b64num filter_2) (lit b64num 5 1));
     (close_to (n := b64num) (Closeness (lit b64num 5902958103587057 (-69)) (@nmin b64num)) (ctrend_value b64num filter_3) (lit b64num 9 0));
     (close_to (n := b64num) (Closeness (lit b64num 5902958103587057 (-69)) (@nmin b64num)) (ctrend_value b64num filter_4) (lit b64num 1 3));
     (close_to (n := b64num) (Closeness (lit b64num 5902958103587057 (-69)) (@nmin b64num)) (ctrend_value b64num filter_5) (lit b64num 7 0));
     (close_to (n := b64num) (Closeness (lit b64num 5902958103587057 (-69)) (@nmin b64num)) (ctrend_value b64num filter_6) (lit b64num 3 1));
     (close_to (n := b64num) (Closeness (lit b64num 5902958103587057 (-69)) (@nmin b64num)) (ctrend_value b64num filter_7) (lit b64num 5 0));
     (close_to (n := b64num) (Closeness (lit b64num 5902958103587057 (-69)) (@nmin b64num)) (ctrend_value b64num filter_8) (lit b64num 1 2));
     (close_to (n := b64num) (Closeness (lit b64num 5902958103587057 (-69)) (@nmin b64num)) (ctrend_value b64num filter_9) (lit b64num 3 0));
     (close_to (n := b64num) (Closeness (lit b64num 5902958103587057 (-69)) (@nmin b64num)) (ctrend_value b64num filter_10) (lit b64num 1 1));
     (close_to (n := b64num) (Closeness (lit b64num 5902958103587057 (-69)) (@nmin b64num)) (ctrend_value b64num filter_11) (lit b64num 1 0))]) = true.
Proof. vm_compute. reflexivity. Qed.

(** test/cumulative/trend_suite.cpp:118 *)
Example cumulative_trend_double_suite_test_alternating :
  (let filter_1 := ctrend_init b64num in
   let filter_2 := ctrend_push b64num filter_1 (lit b64num 1 0) in
   let filter_3 := ctrend_push b64num filter_2 (lit b64num 1 1) in
   let filter_4 := ctrend_push b64num filter_3 (lit b64num 1 0) in
   let filter_5 := ctrend_push b64num filter_4 (lit b64num 1 1) in
   let filter_6 := ctrend_push b64num filter_5 (lit b64num 1 0) in
   let filter_7 := ctrend_push b64num filter_6 (lit b64num 1 1) in
   let filter_8 := ctrend_push b64num filter_7 (lit b64num 1 0) in
   let filter_9 := ctrend_push b64num filter_8 (lit b64num 1 1) in
   let filter_10 := ctrend_push b64num filter_9 (lit b64num 1 0) in
   let filter_11 := ctrend_push b64num filter_10 (lit b64num 1 1) in
   let filter_12 := ctrend_push b64num filter_11 (lit b64num 1 0) in
   let filter_13 := ctrend_push b64num filter_12 (lit b64num 1 1) in
   let filter_14 := ctrend_push b64num filter_13 (lit b64num 1 0) in
   let filter_15 := ctrend_push b64num filter_14 (lit b64num 1 1) in
   let filter_16 := ctrend_push b64num filter_15 (lit b64num 1 0) in
   let filter_17 := ctrend_push b64num filter_16 (lit b64num 1 1) in
   let filter_18 := ctrend_push b64num filter_17 (lit b64num 1 0) in
   let filter_19 := ctrend_push b64num filter_18 (lit b64num 1 1) in
   let filter_20 := ctrend_push b64num filter_19 (lit b64num 1 0) in
   let filter_21 := ctrend_push b64num filter_20 (lit b64num 1 1) in
   let filter_22 := ctrend_push b64num filter_21 (lit b64num 125 3) in
   let filter_23 := ctrend_push b64num filter_22 (lit b64num 1 1) in
   let filter_24 := ctrend_push b64num filter_23 (lit b64num 1 0) in
   let filter_25 := ctrend_push b64num filter_24 (lit b64num 1 1) in
   let filter_26 := ctrend_push b64num filter_25 (lit b64num 1 0) in
   let filter_27 := ctrend_push b64num filter_26 (lit b64num 1 1) in
   let filter_28 := ctrend_push b64num filter_27 (lit b64num 1 0) in
   let filter_29 := ctrend_push b64num filter_28 (lit b64num 1 1) in
   let filter_30 := ctrend_push b64num filter_29 (lit b64num 1 0) in
   let filter_31 := ctrend_push b64num filter_30 (lit b64num 1 1) in
   let filter_32 := ctrend_push b64num filter_31 (lit b64num 1 0) in
   let filter_33 := ctrend_push b64num filter_32 (lit b64num 1 1) in
   let filter_34 := ctrend_push b64num filter_33 (lit b64num 1 0) in
   let filter_35 := ctrend_push b64num filter_34 (lit b64num 1 1) in
   let filter_36 := ctrend_push b64num filter_35 (lit b64num 1 0) in
   let filter_37 := ctrend_push b64num filter_36 (lit b64num 1 1) in
   let filter_38 := ctrend_push b64num filter_37 (lit b64num 1 0) in
   let filter_39 := ctrend_push b64num filter_38 (lit b64num 1 1) in
   all_true [(close_to (n := b64num) (Closeness (lit b64num 5902958103587057 (-69)) (@nmin b64num)) (ctrend_value b64num filter_2) (lit b64num 1 0));
     (close_to (n := b64num) (Closeness (lit b64num 5902958103587057 (-69)) (@nmin b64num)) (ctrend_value b64num filter_3) (lit b64num 1 1));
     (close_to (n := b64num) (Closeness (lit b64num 5902958103587057 (-69)) (@nmin b64num)) (ctrend_value b64num filter_4) (lit b64num 6505179445759039 (-52)));
     (close_to (n := b64num) (Closeness (lit b64num 5902958103587057 (-69)) (@nmin b64num)) (ctrend_value b64num filter_5) (lit b64num 8256584304847151 (-52)));
     (close_to (n := b64num) (Closeness (lit b64num 5902958103587057 (-69)) (@nmin b64num)) (ctrend_value b64num filter_6) (lit b64num 6785438450570305 (-52)));
     (close_to (n := b64num) (Closeness (lit b64num 5902958103587057 (-69)) (@nmin b64num)) (ctrend_value b64num filter_7) (lit b64num 1976584840456637 (-50)));
     (close_to (n := b64num) (Closeness (lit b64num 5902958103587057 (-69)) (@nmin b64num)) (ctrend_value b64num filter_8) (lit b64num 6868755043676659 (-52)));
     (close_to (n := b64num) (Closeness (lit b64num 5902958103587057 (-69)) (@nmin b64num)) (ctrend_value b64num filter_9) (lit b64num 3849496817491205 (-51)));
     (close_to (n := b64num) (Closeness (lit b64num 5902958103587057 (-69)) (@nmin b64num)) (ctrend_value b64num filter_10) (lit b64num 3449577170580705 (-51)));
     (close_to (n := b64num) (Closeness (lit b64num 5902958103587057 (-69)) (@nmin b64num)) (ctrend_value b64num filter_11) (lit b64num 7560327802455673 (-52)));
     (close_to (n := b64num) (Closeness (lit b64num 5902958103587057 (-69)) (@nmin b64num)) (ctrend_value b64num filter_12) (lit b64num 3455116598122371 (-51)));
     (close_to (n := b64num) (Closeness (lit b64num 5902958103587057 (-69)) (@nmin b64num)) (ctrend_value b64num filter_13) (lit b64num 3730151427365887 (-51)));
     (close_to (n := b64num) (Closeness (lit b64num 5902958103587057 (-69)) (@nmin b64num)) (ctrend_value b64num filter_14) (lit b64num 6913070464009985 (-52)));
     (close_to (n := b64num) (Closeness (lit b64num 5902958103587057 (-69)) (@nmin b64num)) (ctrend_value b64num filter_15) (lit b64num 3692163564509017 (-51)));
     (close_to (n := b64num) (Closeness (lit b64num 5902958103587057 (-69)) (@nmin b64num)) (ctrend_value b64num filter_16) (lit b64num 1728019918022991 (-50)));
     (close_to (n := b64num) (Closeness (lit b64num 5902958103587057 (-69)) (@nmin b64num)) (ctrend_value b64num filter_17) (lit b64num 915559286246285 (-49)));
     (close_to (n := b64num) (Closeness (lit b64num 5902958103587057 (-69)) (@nmin b64num)) (ctrend_value b64num filter_18) (lit b64num 3454598684165223 (-51)));
     (close_to (n := b64num) (Closeness (lit b64num 5902958103587057 (-69)) (@nmin b64num)) (ctrend_value b64num filter_19) (lit b64num 1818992630495875 (-50)));
     (close_to (n := b64num) (Closeness (lit b64num 5902958103587057 (-69)) (@nmin b64num)) (ctrend_value b64num filter_20) (lit b64num 6905504416636003 (-52)));
     (close_to (n := b64num) (Closeness (lit b64num 5902958103587057 (-69)) (@nmin b64num)) (ctrend_value b64num filter_21) (lit b64num 7235753377311081 (-52)));
     (close_to (n := b64num) (Closeness (lit b64num 5902958103587057 (-69)) (@nmin b64num)) (ctrend_value b64num filter_22) (lit b64num 1228954932690813 (-43)));
     (close_to (n := b64num) (Closeness (lit b64num 5902958103587057 (-69)) (@nmin b64num)) (ctrend_value b64num filter_23) (lit b64num 4551942954620551 (-45)));
     (close_to (n := b64num) (Closeness (lit b64num 5902958103587057 (-69)) (@nmin b64num)) (ctrend_value b64num filter_24) (lit b64num 8442419713971061 (-46)));
     (close_to (n := b64num) (Closeness (lit b64num 5902958103587057 (-69)) (@nmin b64num)) (ctrend_value b64num filter_25) (lit b64num 3927666640648405 (-45)));
     (close_to (n := b64num) (Closeness (lit b64num 5902958103587057 (-69)) (@nmin b64num)) (ctrend_value b64num filter_26) (lit b64num 228634646902997 (-41)));
     (close_to (n := b64num) (Closeness (lit b64num 5902958103587057 (-69)) (@nmin b64num)) (ctrend_value b64num filter_27) (lit b64num 6835014638218353 (-46)));
     (close_to (n := b64num) (Closeness (lit b64num 5902958103587057 (-69)) (@nmin b64num)) (ctrend_value b64num filter_28) (lit b64num 1597275495028333 (-44)));
     (close_to (n := b64num) (Closeness (lit b64num 5902958103587057 (-69)) (@nmin b64num)) (ctrend_value b64num filter_29) (lit b64num 2994563019103745 (-45)));
     (close_to (n := b64num) (Closeness (lit b64num 5902958103587057 (-69)) (@nmin b64num)) (ctrend_value b64num filter_30) (lit b64num 701938778483825 (-43)));
     (close_to (n := b64num) (Closeness (lit b64num 5902958103587057 (-69)) (@nmin b64num)) (ctrend_value b64num filter_31) (lit b64num 2639573815350683 (-45)));
     (close_to (n := b64num) (Closeness (lit b64num 5902958103587057 (-69)) (@nmin b64num)) (ctrend_value b64num filter_32) (lit b64num 620327747814477 (-43)));
     (close_to (n := b64num) (Closeness (lit b64num 5902958103587057 (-69)) (@nmin b64num)) (ctrend_value b64num filter_33) (lit b64num 4676833401787069 (-46)));
     (close_to (n := b64num) (Closeness (lit b64num 5902958103587057 (-69)) (@nmin b64num)) (ctrend_value b64num filter_34) (lit b64num 8812137095880507 (-47)));
     (close_to (n := b64num) (Closeness (lit b64num 5902958103587057 (-69)) (@nmin b64num)) (ctrend_value b64num filter_35) (lit b64num 4161065691336881 (-46)));
     (close_to (n := b64num) (Closeness (lit b64num 5902958103587057 (-69)) (@nmin b64num)) (ctrend_value b64num filter_36) (lit b64num 1963731285645145 (-45)));
     (close_to (n := b64num) (Closeness (lit b64num 5902958103587057 (-69)) (@nmin b64num)) (ctrend_value b64num filter_37) (lit b64num 464468016335369 (-43)));
     (close_to (n := b64num) (Closeness (lit b64num 5902958103587057 (-69)) (@nmin b64num)) (ctrend_value b64num filter_38) (lit b64num 7025348017470099 (-47)));
     (close_to (n := b64num) (Closeness (lit b64num 5902958103587057 (-69)) (@nmin b64num)) (ctrend_value b64num filter_39) (lit b64num 1664210244490127 (-45)))]) = true.
Proof. vm_compute. reflexivity. Qed.

(** test/cumulative/trend_suite.cpp:209 *)
Example cumulative_trend_double_suite_test_scatter :
  (let filter_1 := ctrend_init b64num in
   let filter_2 := ctrend_push b64num filter_1 (lit b64num 1 0) in
   let filter_3 := ctrend_push b64num filter_2 (lit b64num 1 1) in
   let filter_4 := ctrend_push b64num filter_3 (lit b64num 5854679515581645 (-52)) in
   let filter_5 := ctrend_push b64num filter_4 (lit b64num 15 (-2)) in
   let filter_6 := ctrend_push b64num filter_5 (lit b64num 9 (-2)) in
   let filter_7 := ctrend_push b64num filter_6 (lit b64num 3152519739159347 (-51)) in
   let filter_8 := ctrend_push b64num filter_7 (lit b64num 2308094809027379 (-49)) in
   all_true [(close_to (n := b64num) (Closeness (lit b64num 5902958103587057 (-69)) (@nmin b64num)) (ctrend_value b64num filter_2) (lit b64num 1 0));
     (close_to (n := b64num) (Closeness (lit b64num 5902958103587057 (-69)) (@nmin b64num)) (ctrend_value b64num filter_3) (lit b64num 1 1));
     (close_to (n := b64num) (Closeness (lit b64num 5902958103587057 (-69)) (@nmin b64num)) (ctrend_value b64num filter_4) (lit b64num 7556049382809671 (-52)));
     (close_to (n := b64num) (Closeness (lit b64num 5902958103587057 (-69)) (@nmin b64num)) (ctrend_value b64num filter_5) (lit b64num 6900820673023537 (-51)));
     (close_to (n := b64num) (Closeness (lit b64num 5902958103587057 (-69)) (@nmin b64num)) (ctrend_value b64num filter_6) (lit b64num 838139593902019 (-48)));
     (close_to (n := b64num) (Closeness (lit b64num 5902958103587057 (-69)) (@nmin b64num)) (ctrend_value b64num filter_7) (lit b64num 1425045882591175 (-49)));
     (close_to (n := b64num) (Closeness (lit b64num 5902958103587057 (-69)) (@nmin b64num)) (ctrend_value b64num filter_8) (lit b64num 7390429506513121 (-51)))]) = true.
Proof. vm_compute. reflexivity. Qed.

(** test/cumulative/trend_suite.cpp:230 *)
Example cumulative_trend_double_suite_test_clear :
  (let filter_1 := ctrend_init b64num in
   let filter_2 := ctrend_push b64num filter_1 (lit b64num 1 0) in
   let filter_3 := ctrend_clear b64num filter_2 in
   let filter_4 := ctrend_push b64num filter_3 (lit b64num 1 1) in
   all_true [(close_to (n := b64num) (Closeness (lit b64num 5902958103587057 (-69)) (@nmin b64num)) (ctrend_value b64num filter_2) (lit b64num 1 0));
     (close_to (n := b64num) (Closeness (lit b64num 5902958103587057 (-69)) (@nmin b64num)) (ctrend_value b64num filter_4) (lit b64num 1 1))]) = true.
Proof. vm_compute. reflexivity. Qed.

