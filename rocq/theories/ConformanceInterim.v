(** * Conformance with test/interim/moment_suite.cpp, test/interim/comoment_suite.cpp, test/interim/regression_suite.cpp

    Generated by tools/mkconformance.py: the unit tests of the repository,
    executed on the model.  These are tests of the transcription, not proofs of
    properties. *)

From Coq Require Import ZArith NArith Bool List QArith.
From Verif Require Import Arith Cumulative Interim CloseTo Conformance.
Import ListNotations.
Local Open Scope Z_scope.

(** test/interim/moment_suite.cpp:22 *)
Example interim_moment_mean_api_suite_test_ctor :
  (let filter_1 := imean_init b64num in
   let filter_2 := imean_push b64num 4 filter_1 (lit b64num 1 0) in
   let assign_3 := imean_init b64num in
   let massign_4 := imean_init b64num in
   all_true [(negb (imean_empty b64num 4 filter_2));
     (negb (imean_empty b64num 4 filter_2));
     (negb (imean_empty b64num 4 filter_2));
     (negb (imean_empty b64num 4 filter_2));
     (negb (imean_empty b64num 4 filter_2))]) = true.
Proof. vm_compute. reflexivity. Qed.

(** test/interim/moment_suite.cpp:47 *)
Example interim_moment_mean_api_suite_test_clear :
  (let filter_1 := imean_init b64num in
   let filter_2 := imean_push b64num 4 filter_1 (lit b64num 1 0) in
   let filter_3 := imean_push b64num 4 filter_2 (lit b64num 1 1) in
   let filter_4 := imean_push b64num 4 filter_3 (lit b64num 3 0) in
   let filter_5 := imean_push b64num 4 filter_4 (lit b64num 1 2) in
   let filter_6 := imean_push b64num 4 filter_5 (lit b64num 5 0) in
   let filter_7 := imean_clear b64num filter_6 in
   all_true [(N.eqb (imean_size b64num 4 filter_6) 4);
     (N.eqb (imean_size b64num 4 filter_7) 0)]) = true.
Proof. vm_compute. reflexivity. Qed.

(** test/interim/moment_suite.cpp:60 *)
Example interim_moment_mean_api_suite_test_capacity :
  (let filter_1 := imean_init b64num in
   all_true [(N.eqb (imean_capacity b64num 4 filter_1) 4)]) = true.
Proof. vm_compute. reflexivity. Qed.

(** test/interim/moment_suite.cpp:66 *)
Example interim_moment_mean_api_suite_test_size :
  (let filter_1 := imean_init b64num in
   let filter_2 := imean_push b64num 4 filter_1 (lit b64num 1 0) in
   let filter_3 := imean_push b64num 4 filter_2 (lit b64num 1 1) in
   let filter_4 := imean_push b64num 4 filter_3 (lit b64num 3 0) in
   let filter_5 := imean_push b64num 4 filter_4 (lit b64num 1 2) in
   let filter_6 := imean_push b64num 4 filter_5 (lit b64num 5 0) in
   all_true [(N.eqb (imean_size b64num 4 filter_1) 0);
     (N.eqb (imean_size b64num 4 filter_2) 1);
     (N.eqb (imean_size b64num 4 filter_3) 2);
     (N.eqb (imean_size b64num 4 filter_4) 3);
     (N.eqb (imean_size b64num 4 filter_5) 4);
     (N.eqb (imean_size b64num 4 filter_6) 4)]) = true.
Proof. vm_compute. reflexivity. Qed.

(** test/interim/moment_suite.cpp:82 *)
Example interim_moment_mean_api_suite_test_empty :
  (let filter_1 := imean_init b64num in
   let filter_2 := imean_push b64num 4 filter_1 (lit b64num 1 0) in
   all_true [(imean_empty b64num 4 filter_1);
     (negb (imean_empty b64num 4 filter_2))]) = true.
Proof. vm_compute. reflexivity. Qed.

(** test/interim/moment_suite.cpp:90 *)
Example interim_moment_mean_api_suite_test_full :
  (let filter_1 := imean_init b64num in
   let filter_2 := imean_push b64num 4 filter_1 (lit b64num 1 0) in
   let filter_3 := imean_push b64num 4 filter_2 (lit b64num 1 1) in
   let filter_4 := imean_push b64num 4 filter_3 (lit b64num 3 0) in
   let filter_5 := imean_push b64num 4 filter_4 (lit b64num 1 2) in
   let filter_6 := imean_push b64num 4 filter_5 (lit b64num 5 0) in
   all_true [(negb (imean_full b64num 4 filter_1));
     (negb (imean_full b64num 4 filter_4));
     (imean_full b64num 4 filter_5);
     (imean_full b64num 4 filter_6)]) = true.
Proof. vm_compute. reflexivity. Qed.

(** test/interim/moment_suite.cpp:121 *)
Example interim_moment_mean_double_suite_test_same :
  (let filter_1 := imean_init b64num in
   let filter_2 := imean_push b64num 4 filter_1 (lit b64num 1 0) in
   let filter_3 := imean_push b64num 4 filter_2 (lit b64num 1 0) in
   let filter_4 := imean_push b64num 4 filter_3 (lit b64num 1 0) in
   let filter_5 := imean_push b64num 4 filter_4 (lit b64num 1 0) in
   let filter_6 := imean_push b64num 4 filter_5 (lit b64num 1 0) in
   all_true [(N.eqb (imean_size b64num 4 filter_2) 1);
     (neq (n := b64num) (imean_mean b64num 4 filter_2) (lit b64num 1 0));
     (N.eqb (imean_size b64num 4 filter_3) 2);
     (neq (n := b64num) (imean_mean b64num 4 filter_3) (lit b64num 1 0));
     (N.eqb (imean_size b64num 4 filter_4) 3);
     (neq (n := b64num) (imean_mean b64num 4 filter_4) (lit b64num 1 0));
     (N.eqb (imean_size b64num 4 filter_5) 4);
     (neq (n := b64num) (imean_mean b64num 4 filter_5) (lit b64num 1 0));
     (N.eqb (imean_size b64num 4 filter_6) 4);
     (neq (n := b64num) (imean_mean b64num 4 filter_6) (lit b64num 1 0))]) = true.
Proof. vm_compute. reflexivity. Qed.

(** test/interim/moment_suite.cpp:146 *)
Example interim_moment_mean_double_suite_test_linear_increase :
  (let filter_1 := imean_init b64num in
   let filter_2 := imean_push b64num 4 filter_1 (lit b64num 1 0) in
   let filter_3 := imean_push b64num 4 filter_2 (lit b64num 1 1) in
   let filter_4 := imean_push b64num 4 filter_3 (lit b64num 3 0) in
   let filter_5 := imean_push b64num 4 filter_4 (lit b64num 1 2) in
   let filter_6 := imean_push b64num 4 filter_5 (lit b64num 5 0) in
   let filter_7 := imean_push b64num 4 filter_6 (lit b64num 3 1) in
   all_true [(N.eqb (imean_size b64num 4 filter_2) 1);
     (neq (n := b64num) (imean_mean b64num 4 filter_2) (lit b64num 1 0));
     (N.eqb (imean_size b64num 4 filter_3) 2);
     (neq (n := b64num) (imean_mean b64num 4 filter_3) (lit b64num 3 (-1)));
     (N.eqb (imean_size b64num 4 filter_4) 3);
     (neq (n := b64num) (imean_mean b64num 4 filter_4) (lit b64num 1 1));
     (N.eqb (imean_size b64num 4 filter_5) 4);
     (neq (n := b64num) (imean_mean b64num 4 filter_5) (lit b64num 5 (-1)));
     (N.eqb (imean_size b64num 4 filter_6) 4);
     (neq (n := b64num) (imean_mean b64num 4 filter_6) (lit b64num 7 (-1)));
     (N.eqb (imean_size b64num 4 filter_7) 4);
     (neq (n := b64num) (imean_mean b64num 4 filter_7) (lit b64num 9 (-1)))]) = true.
Proof. vm_compute. reflexivity. Qed.

(** test/interim/moment_suite.cpp:177 *)
Example interim_moment_mean_double_suite_test_linear_increase_from_offset :
  (let filter_1 := imean_init b64num in
   let filter_2 := imean_push b64num 4 filter_1 (lit b64num 5 1) in
   let filter_3 := imean_push b64num 4 filter_2 (lit b64num 11 0) in
   let filter_4 := imean_push b64num 4 filter_3 (lit b64num 3 2) in
   let filter_5 := imean_push b64num 4 filter_4 (lit b64num 13 0) in
   let filter_6 := imean_push b64num 4 filter_5 (lit b64num 7 1) in
   let filter_7 := imean_push b64num 4 filter_6 (lit b64num 15 0) in
   all_true [(neq (n := b64num) (imean_mean b64num 4 filter_2) (lit b64num 5 1));
     (neq (n := b64num) (imean_mean b64num 4 filter_3) (lit b64num 21 (-1)));
     (neq (n := b64num) (imean_mean b64num 4 filter_4) (lit b64num 11 0));
     (neq (n := b64num) (imean_mean b64num 4 filter_5) (lit b64num 23 (-1)));
     (neq (n := b64num) (imean_mean b64num 4 filter_6) (lit b64num 25 (-1)));
     (neq (n := b64num) (imean_mean b64num 4 filter_7) (lit b64num 27 (-1)))]) = true.
Proof. vm_compute. reflexivity. Qed.

(** test/interim/moment_suite.cpp:194 *)
Example interim_moment_mean_double_suite_test_linear_decrease :
  (let filter_1 := imean_init b64num in
   let filter_2 := imean_push b64num 4 filter_1 (lit b64num 5 1) in
   let filter_3 := imean_push b64num 4 filter_2 (lit b64num 9 0) in
   let filter_4 := imean_push b64num 4 filter_3 (lit b64num 1 3) in
   let filter_5 := imean_push b64num 4 filter_4 (lit b64num 7 0) in
   let filter_6 := imean_push b64num 4 filter_5 (lit b64num 3 1) in
   let filter_7 := imean_push b64num 4 filter_6 (lit b64num 5 0) in
   all_true [(neq (n := b64num) (imean_mean b64num 4 filter_2) (lit b64num 5 1));
     (neq (n := b64num) (imean_mean b64num 4 filter_3) (lit b64num 19 (-1)));
     (neq (n := b64num) (imean_mean b64num 4 filter_4) (lit b64num 9 0));
     (neq (n := b64num) (imean_mean b64num 4 filter_5) (lit b64num 17 (-1)));
     (neq (n := b64num) (imean_mean b64num 4 filter_6) (lit b64num 15 (-1)));
     (neq (n := b64num) (imean_mean b64num 4 filter_7) (lit b64num 13 (-1)))]) = true.
Proof. vm_compute. reflexivity. Qed.

(** test/interim/moment_suite.cpp:226 *)
Example interim_moment_variance_api_suite_test_ctor :
  (let filter_1 := ivar_init b64num in
   let filter_2 := ivar_push b64num 4 filter_1 (lit b64num 1 0) in
   let assign_3 := ivar_init b64num in
   let massign_4 := ivar_init b64num in
   all_true [(negb (ivar_empty b64num 4 filter_2));
     (negb (ivar_empty b64num 4 filter_2));
     (negb (ivar_empty b64num 4 filter_2));
     (negb (ivar_empty b64num 4 filter_2));
     (negb (ivar_empty b64num 4 filter_2))]) = true.
Proof. vm_compute. reflexivity. Qed.

(** test/interim/moment_suite.cpp:251 *)
Example interim_moment_variance_api_suite_test_clear :
  (let filter_1 := ivar_init b64num in
   let filter_2 := ivar_push b64num 4 filter_1 (lit b64num 1 0) in
   let filter_3 := ivar_push b64num 4 filter_2 (lit b64num 1 1) in
   let filter_4 := ivar_push b64num 4 filter_3 (lit b64num 3 0) in
   let filter_5 := ivar_push b64num 4 filter_4 (lit b64num 1 2) in
   let filter_6 := ivar_push b64num 4 filter_5 (lit b64num 5 0) in
   let filter_7 := ivar_clear b64num filter_6 in
   all_true [(N.eqb (ivar_size b64num 4 filter_6) 4);
     (N.eqb (ivar_size b64num 4 filter_7) 0)]) = true.
Proof. vm_compute. reflexivity. Qed.

(** test/interim/moment_suite.cpp:264 *)
Example interim_moment_variance_api_suite_test_capacity :
  (let filter_1 := ivar_init b64num in
   all_true [(N.eqb (ivar_capacity b64num 4 filter_1) 4)]) = true.
Proof. vm_compute. reflexivity. Qed.

(** test/interim/moment_suite.cpp:270 *)
Example interim_moment_variance_api_suite_test_size :
  (let filter_1 := ivar_init b64num in
   let filter_2 := ivar_push b64num 4 filter_1 (lit b64num 1 0) in
   let filter_3 := ivar_push b64num 4 filter_2 (lit b64num 1 1) in
   let filter_4 := ivar_push b64num 4 filter_3 (lit b64num 3 0) in
   let filter_5 := ivar_push b64num 4 filter_4 (lit b64num 1 2) in
   let filter_6 := ivar_push b64num 4 filter_5 (lit b64num 5 0) in
   all_true [(N.eqb (ivar_size b64num 4 filter_1) 0);
     (N.eqb (ivar_size b64num 4 filter_2) 1);
     (N.eqb (ivar_size b64num 4 filter_3) 2);
     (N.eqb (ivar_size b64num 4 filter_4) 3);
     (N.eqb (ivar_size b64num 4 filter_5) 4);
     (N.eqb (ivar_size b64num 4 filter_6) 4)]) = true.
Proof. vm_compute. reflexivity. Qed.

(** test/interim/moment_suite.cpp:286 *)
Example interim_moment_variance_api_suite_test_empty :
  (let filter_1 := ivar_init b64num in
   let filter_2 := ivar_push b64num 4 filter_1 (lit b64num 1 0) in
   all_true [(ivar_empty b64num 4 filter_1);
     (negb (ivar_empty b64num 4 filter_2))]) = true.
Proof. vm_compute. reflexivity. Qed.

(** test/interim/moment_suite.cpp:294 *)
Example interim_moment_variance_api_suite_test_full :
  (let filter_1 := ivar_init b64num in
   let filter_2 := ivar_push b64num 4 filter_1 (lit b64num 1 0) in
   let filter_3 := ivar_push b64num 4 filter_2 (lit b64num 1 1) in
   let filter_4 := ivar_push b64num 4 filter_3 (lit b64num 3 0) in
   let filter_5 := ivar_push b64num 4 filter_4 (lit b64num 1 2) in
   let filter_6 := ivar_push b64num 4 filter_5 (lit b64num 5 0) in
   all_true [(negb (ivar_full b64num 4 filter_1));
     (negb (ivar_full b64num 4 filter_4));
     (ivar_full b64num 4 filter_5);
     (ivar_full b64num 4 filter_6)]) = true.
Proof. vm_compute. reflexivity. Qed.

(** test/interim/moment_suite.cpp:325 *)
Example interim_moment_variance_double_suite_test_linear_increase :
  (let filter_1 := ivar_init b64num in
   let filter_2 := ivar_push b64num 4 filter_1 (lit b64num 1 0) in
   let filter_3 := ivar_push b64num 4 filter_2 (lit b64num 1 1) in
   let filter_4 := ivar_push b64num 4 filter_3 (lit b64num 3 0) in
   let filter_5 := ivar_push b64num 4 filter_4 (lit b64num 1 2) in
   let filter_6 := ivar_push b64num 4 filter_5 (lit b64num 5 0) in
   let filter_7 := ivar_push b64num 4 filter_6 (lit b64num 3 1) in
   let filter_8 := ivar_push b64num 4 filter_7 (lit b64num 7 0) in
   let filter_9 := ivar_push b64num 4 filter_8 (lit b64num 1 3) in
   let filter_10 := ivar_push b64num 4 filter_9 (lit b64num 9 0) in
   all_true [(neq (n := b64num) (ivar_mean b64num 4 filter_2) (lit b64num 1 0));
     (close_to (n := b64num) (Closeness (lit b64num 5902958103587057 (-69)) (@nmin b64num)) (ivar_variance b64num 4 filter_2) (lit b64num 0 0));
     (neq (n := b64num) (ivar_mean b64num 4 filter_3) (lit b64num 3 (-1)));
     (close_to (n := b64num) (Closeness (lit b64num 5902958103587057 (-69)) (@nmin b64num)) (ivar_variance b64num 4 filter_3) (lit b64num 1 (-2)));
     (neq (n := b64num) (ivar_mean b64num 4 filter_4) (lit b64num 1 1));
     (close_to (n := b64num) (Closeness (lit b64num 5902958103587057 (-69)) (@nmin b64num)) (ivar_variance b64num 4 filter_4) (lit b64num 6004802505560413 (-53)));
     (neq (n := b64num) (ivar_mean b64num 4 filter_5) (lit b64num 5 (-1)));
     (close_to (n := b64num) (Closeness (lit b64num 5902958103587057 (-69)) (@nmin b64num)) (ivar_variance b64num 4 filter_5) (lit b64num 5 (-2)));
     (neq (n := b64num) (ivar_mean b64num 4 filter_6) (lit b64num 7 (-1)));
     (close_to (n := b64num) (Closeness (lit b64num 5902958103587057 (-69)) (@nmin b64num)) (ivar_variance b64num 4 filter_6) (lit b64num 5 (-2)));
     (neq (n := b64num) (ivar_mean b64num 4 filter_7) (lit b64num 9 (-1)));
     (close_to (n := b64num) (Closeness (lit b64num 5902958103587057 (-69)) (@nmin b64num)) (ivar_variance b64num 4 filter_7) (lit b64num 601331881245577 (-49)));
     (neq (n := b64num) (ivar_mean b64num 4 filter_8) (lit b64num 11 (-1)));
     (close_to (n := b64num) (Closeness (lit b64num 5902958103587057 (-69)) (@nmin b64num)) (ivar_variance b64num 4 filter_8) (lit b64num 8631896283393699 (-53)));
     (neq (n := b64num) (ivar_mean b64num 4 filter_9) (lit b64num 13 (-1)));
     (close_to (n := b64num) (Closeness (lit b64num 5902958103587057 (-69)) (@nmin b64num)) (ivar_variance b64num 4 filter_9) (lit b64num 5 (-2)));
     (neq (n := b64num) (ivar_mean b64num 4 filter_10) (lit b64num 15 (-1)));
     (close_to (n := b64num) (Closeness (lit b64num 5902958103587057 (-69)) (@nmin b64num)) (ivar_variance b64num 4 filter_10) (lit b64num 5 (-2)))]) = true.
Proof. vm_compute. reflexivity. Qed.

(** test/interim/moment_suite.cpp:369 *)
Example interim_moment_variance_double_suite_test_scatter :
  (let filter_1 := ivar_init b64num in
   let filter_2 := ivar_push b64num 4 filter_1 (lit b64num 1 0) in
   let filter_3 := ivar_push b64num 4 filter_2 (lit b64num 3 0) in
   let filter_4 := ivar_push b64num 4 filter_3 (lit b64num 0 0) in
   let filter_5 := ivar_push b64num 4 filter_4 (lit b64num 5 0) in
   let filter_6 := ivar_push b64num 4 filter_5 (lit b64num 1 1) in
   let filter_7 := ivar_push b64num 4 filter_6 (lit b64num 3 0) in
   let filter_8 := ivar_push b64num 4 filter_7 (lit b64num 1 2) in
   let filter_9 := ivar_push b64num 4 filter_8 (lit b64num 1 0) in
   all_true [(neq (n := b64num) (ivar_mean b64num 4 filter_2) (lit b64num 1 0));
     (neq (n := b64num) (ivar_variance b64num 4 filter_2) (lit b64num 0 0));
     (close_to (n := b64num) (Closeness (lit b64num 5902958103587057 (-69)) (@nmin b64num)) (ivar_mean b64num 4 filter_3) (lit b64num 1 1));
     (close_to (n := b64num) (Closeness (lit b64num 5902958103587057 (-69)) (@nmin b64num)) (ivar_variance b64num 4 filter_3) (lit b64num 1 0));
     (close_to (n := b64num) (Closeness (lit b64num 5902958103587057 (-69)) (@nmin b64num)) (ivar_mean b64num 4 filter_4) (lit b64num 6004784491161903 (-52)));
     (close_to (n := b64num) (Closeness (lit b64num 5902958103587057 (-69)) (@nmin b64num)) (ivar_variance b64num 4 filter_4) (lit b64num 7005619436352449 (-52)));
     (close_to (n := b64num) (Closeness (lit b64num 5902958103587057 (-69)) (@nmin b64num)) (ivar_mean b64num 4 filter_5) (lit b64num 9 (-2)));
     (close_to (n := b64num) (Closeness (lit b64num 5902958103587057 (-69)) (@nmin b64num)) (ivar_variance b64num 4 filter_5) (lit b64num 59 (-4)));
     (close_to (n := b64num) (Closeness (lit b64num 5902958103587057 (-69)) (@nmin b64num)) (ivar_mean b64num 4 filter_6) (lit b64num 4841369599423283 (-51)));
     (close_to (n := b64num) (Closeness (lit b64num 5902958103587057 (-69)) (@nmin b64num)) (ivar_variance b64num 4 filter_6) (lit b64num 59 (-4)));
     (close_to (n := b64num) (Closeness (lit b64num 5902958103587057 (-69)) (@nmin b64num)) (ivar_mean b64num 4 filter_7) (lit b64num 680232131967341 (-48)));
     (close_to (n := b64num) (Closeness (lit b64num 5902958103587057 (-69)) (@nmin b64num)) (ivar_variance b64num 4 filter_7) (lit b64num 49 (-4)));
     (close_to (n := b64num) (Closeness (lit b64num 5902958103587057 (-69)) (@nmin b64num)) (ivar_mean b64num 4 filter_8) (lit b64num 6514141609017507 (-51)));
     (close_to (n := b64num) (Closeness (lit b64num 5902958103587057 (-69)) (@nmin b64num)) (ivar_variance b64num 4 filter_8) (lit b64num 612793542297235 (-48)));
     (close_to (n := b64num) (Closeness (lit b64num 5902958103587057 (-69)) (@nmin b64num)) (ivar_mean b64num 4 filter_9) (lit b64num 5 (-1)));
     (close_to (n := b64num) (Closeness (lit b64num 5902958103587057 (-69)) (@nmin b64num)) (ivar_variance b64num 4 filter_9) (lit b64num 899712245057475 (-49)))]) = true.
Proof. vm_compute. reflexivity. Qed.

(** test/interim/moment_suite.cpp:422 *)
Example interim_moment_skewness_api_suite_test_ctor :
  (let filter_1 := iskew_init b64num in
   let filter_2 := iskew_push b64num 4 filter_1 (lit b64num 1 0) in
   let assign_3 := iskew_init b64num in
   let massign_4 := iskew_init b64num in
   all_true [(negb (iskew_empty b64num 4 filter_2));
     (negb (iskew_empty b64num 4 filter_2));
     (negb (iskew_empty b64num 4 filter_2));
     (negb (iskew_empty b64num 4 filter_2));
     (negb (iskew_empty b64num 4 filter_2))]) = true.
Proof. vm_compute. reflexivity. Qed.

(** test/interim/moment_suite.cpp:447 *)
Example interim_moment_skewness_api_suite_test_clear :
  (let filter_1 := iskew_init b64num in
   let filter_2 := iskew_push b64num 4 filter_1 (lit b64num 1 0) in
   let filter_3 := iskew_push b64num 4 filter_2 (lit b64num 1 1) in
   let filter_4 := iskew_push b64num 4 filter_3 (lit b64num 3 0) in
   let filter_5 := iskew_push b64num 4 filter_4 (lit b64num 1 2) in
   let filter_6 := iskew_push b64num 4 filter_5 (lit b64num 5 0) in
   let filter_7 := iskew_clear b64num filter_6 in
   all_true [(N.eqb (iskew_size b64num 4 filter_6) 4);
     (N.eqb (iskew_size b64num 4 filter_7) 0)]) = true.
Proof. vm_compute. reflexivity. Qed.

(** test/interim/moment_suite.cpp:460 *)
Example interim_moment_skewness_api_suite_test_capacity :
  (let filter_1 := iskew_init b64num in
   all_true [(N.eqb (iskew_capacity b64num 4 filter_1) 4)]) = true.
Proof. vm_compute. reflexivity. Qed.

(** test/interim/moment_suite.cpp:466 *)
Example interim_moment_skewness_api_suite_test_size :
  (let filter_1 := iskew_init b64num in
   let filter_2 := iskew_push b64num 4 filter_1 (lit b64num 1 0) in
   let filter_3 := iskew_push b64num 4 filter_2 (lit b64num 1 1) in
   let filter_4 := iskew_push b64num 4 filter_3 (lit b64num 3 0) in
   let filter_5 := iskew_push b64num 4 filter_4 (lit b64num 1 2) in
   let filter_6 := iskew_push b64num 4 filter_5 (lit b64num 5 0) in
   all_true [(N.eqb (iskew_size b64num 4 filter_1) 0);
     (N.eqb (iskew_size b64num 4 filter_2) 1);
     (N.eqb (iskew_size b64num 4 filter_3) 2);
     (N.eqb (iskew_size b64num 4 filter_4) 3);
     (N.eqb (iskew_size b64num 4 filter_5) 4);
     (N.eqb (iskew_size b64num 4 filter_6) 4)]) = true.
Proof. vm_compute. reflexivity. Qed.

(** test/interim/moment_suite.cpp:482 *)
Example interim_moment_skewness_api_suite_test_empty :
  (let filter_1 := iskew_init b64num in
   let filter_2 := iskew_push b64num 4 filter_1 (lit b64num 1 0) in
   all_true [(iskew_empty b64num 4 filter_1);
     (negb (iskew_empty b64num 4 filter_2))]) = true.
Proof. vm_compute. reflexivity. Qed.

(** test/interim/moment_suite.cpp:490 *)
Example interim_moment_skewness_api_suite_test_full :
  (let filter_1 := iskew_init b64num in
   let filter_2 := iskew_push b64num 4 filter_1 (lit b64num 1 0) in
   let filter_3 := iskew_push b64num 4 filter_2 (lit b64num 1 1) in
   let filter_4 := iskew_push b64num 4 filter_3 (lit b64num 3 0) in
   let filter_5 := iskew_push b64num 4 filter_4 (lit b64num 1 2) in
   let filter_6 := iskew_push b64num 4 filter_5 (lit b64num 5 0) in
   all_true [(negb (iskew_full b64num 4 filter_1));
     (negb (iskew_full b64num 4 filter_4));
     (iskew_full b64num 4 filter_5);
     (iskew_full b64num 4 filter_6)]) = true.
Proof. vm_compute. reflexivity. Qed.

(** test/interim/moment_suite.cpp:521 *)
Example interim_moment_skewness_double_suite_test_linear_increase :
  (let filter_1 := iskew_init b64num in
   let filter_2 := iskew_push b64num 4 filter_1 (lit b64num 1 0) in
   let filter_3 := iskew_push b64num 4 filter_2 (lit b64num 1 1) in
   let filter_4 := iskew_push b64num 4 filter_3 (lit b64num 3 0) in
   let filter_5 := iskew_push b64num 4 filter_4 (lit b64num 1 2) in
   let filter_6 := iskew_push b64num 4 filter_5 (lit b64num 5 0) in
   let filter_7 := iskew_push b64num 4 filter_6 (lit b64num 3 1) in
   let filter_8 := iskew_push b64num 4 filter_7 (lit b64num 7 0) in
   let filter_9 := iskew_push b64num 4 filter_8 (lit b64num 1 3) in
   let filter_10 := iskew_push b64num 4 filter_9 (lit b64num 9 0) in
   all_true [(neq (n := b64num) (iskew_mean b64num 4 filter_2) (lit b64num 1 0));
     (close_to (n := b64num) (Closeness (lit b64num 5902958103587057 (-69)) (@nmin b64num)) (iskew_variance b64num 4 filter_2) (lit b64num 0 0));
     (close_to (n := b64num) (Closeness (lit b64num 5902958103587057 (-69)) (@nmin b64num)) (iskew_skewness b64num 4 filter_2) (lit b64num 0 0));
     (neq (n := b64num) (iskew_mean b64num 4 filter_3) (lit b64num 3 (-1)));
     (close_to (n := b64num) (Closeness (lit b64num 5902958103587057 (-69)) (@nmin b64num)) (iskew_variance b64num 4 filter_3) (lit b64num 1 (-2)));
     (close_to (n := b64num) (Closeness (lit b64num 5902958103587057 (-69)) (@nmin b64num)) (iskew_skewness b64num 4 filter_3) (lit b64num 0 0));
     (neq (n := b64num) (iskew_mean b64num 4 filter_4) (lit b64num 1 1));
     (close_to (n := b64num) (Closeness (lit b64num 5902958103587057 (-69)) (@nmin b64num)) (iskew_variance b64num 4 filter_4) (lit b64num 6004802505560413 (-53)));
     (close_to (n := b64num) (Closeness (lit b64num 5902958103587057 (-69)) (@nmin b64num)) (iskew_skewness b64num 4 filter_4) (lit b64num 0 0));
     (neq (n := b64num) (iskew_mean b64num 4 filter_5) (lit b64num 5 (-1)));
     (close_to (n := b64num) (Closeness (lit b64num 5902958103587057 (-69)) (@nmin b64num)) (iskew_variance b64num 4 filter_5) (lit b64num 5 (-2)));
     (close_to (n := b64num) (Closeness (lit b64num 5902958103587057 (-69)) (@nmin b64num)) (iskew_skewness b64num 4 filter_5) (lit b64num 0 0));
     (neq (n := b64num) (iskew_mean b64num 4 filter_6) (lit b64num 7 (-1)));
     (close_to (n := b64num) (Closeness (lit b64num 5902958103587057 (-69)) (@nmin b64num)) (iskew_variance b64num 4 filter_6) (lit b64num 5 (-2)));
     (close_to (n := b64num) (Closeness (lit b64num 5902958103587057 (-69)) (@nmin b64num)) (iskew_skewness b64num 4 filter_6) (lit b64num 0 0));
     (neq (n := b64num) (iskew_mean b64num 4 filter_7) (lit b64num 9 (-1)));
     (close_to (n := b64num) (Closeness (lit b64num 5902958103587057 (-69)) (@nmin b64num)) (iskew_variance b64num 4 filter_7) (lit b64num 601331881245577 (-49)));
     (close_to (n := b64num) (Closeness (lit b64num 5902958103587057 (-69)) (@nmin b64num)) (iskew_skewness b64num 4 filter_7) (lit b64num 0 0));
     (neq (n := b64num) (iskew_mean b64num 4 filter_8) (lit b64num 11 (-1)));
     (close_to (n := b64num) (Closeness (lit b64num 5902958103587057 (-69)) (@nmin b64num)) (iskew_variance b64num 4 filter_8) (lit b64num 8631896283393699 (-53)));
     (close_to (n := b64num) (Closeness (lit b64num 5902958103587057 (-69)) (@nmin b64num)) (iskew_skewness b64num 4 filter_8) (lit b64num 0 0));
     (neq (n := b64num) (iskew_mean b64num 4 filter_9) (lit b64num 13 (-1)));
     (close_to (n := b64num) (Closeness (lit b64num 5902958103587057 (-69)) (@nmin b64num)) (iskew_variance b64num 4 filter_9) (lit b64num 5 (-2)));
     (close_to (n := b64num) (Closeness (lit b64num 5902958103587057 (-69)) (@nmin b64num)) (iskew_skewness b64num 4 filter_9) (lit b64num 0 0));
     (neq (n := b64num) (iskew_mean b64num 4 filter_10) (lit b64num 15 (-1)));
     (close_to (n := b64num) (Closeness (lit b64num 5902958103587057 (-69)) (@nmin b64num)) (iskew_variance b64num 4 filter_10) (lit b64num 5 (-2)));
     (close_to (n := b64num) (Closeness (lit b64num 5902958103587057 (-69)) (@nmin b64num)) (iskew_skewness b64num 4 filter_10) (lit b64num 0 0))]) = true.
Proof. vm_compute. reflexivity. Qed.

(** test/interim/moment_suite.cpp:574 *)
Example interim_moment_skewness_double_suite_test_scatter :
  (let filter_1 := iskew_init b64num in
   let filter_2 := iskew_push b64num 4 filter_1 (lit b64num 1 0) in
   let filter_3 := iskew_push b64num 4 filter_2 (lit b64num 3 0) in
   let filter_4 := iskew_push b64num 4 filter_3 (lit b64num 0 0) in
   let filter_5 := iskew_push b64num 4 filter_4 (lit b64num 5 0) in
   let filter_6 := iskew_push b64num 4 filter_5 (lit b64num 7 0) in
   let filter_7 := iskew_push b64num 4 filter_6 (lit b64num 1 0) in
   let filter_8 := iskew_push b64num 4 filter_7 (lit b64num 1 2) in
   let filter_9 := iskew_push b64num 4 filter_8 (lit b64num 1 0) in
   all_true [(neq (n := b64num) (iskew_mean b64num 4 filter_2) (lit b64num 1 0));
     (neq (n := b64num) (iskew_variance b64num 4 filter_2) (lit b64num 0 0));
     (close_to (n := b64num) (Closeness (lit b64num 5902958103587057 (-69)) (lit b64num 5902958103587057 (-69))) (iskew_skewness b64num 4 filter_2) (lit b64num 0 0));
     (close_to (n := b64num) (Closeness (lit b64num 5902958103587057 (-69)) (lit b64num 5902958103587057 (-69))) (iskew_mean b64num 4 filter_3) (lit b64num 1 1));
     (close_to (n := b64num) (Closeness (lit b64num 5902958103587057 (-69)) (lit b64num 5902958103587057 (-69))) (iskew_variance b64num 4 filter_3) (lit b64num 1 0));
     (close_to (n := b64num) (Closeness (lit b64num 5902958103587057 (-69)) (lit b64num 5902958103587057 (-69))) (iskew_skewness b64num 4 filter_3) (lit b64num 0 0));
     (close_to (n := b64num) (Closeness (lit b64num 5902958103587057 (-69)) (lit b64num 5902958103587057 (-69))) (iskew_mean b64num 4 filter_4) (lit b64num 6004784491161903 (-52)));
     (close_to (n := b64num) (Closeness (lit b64num 5902958103587057 (-69)) (lit b64num 5902958103587057 (-69))) (iskew_variance b64num 4 filter_4) (lit b64num 7005619436352449 (-52)));
     (close_to (n := b64num) (Closeness (lit b64num 5902958103587057 (-69)) (lit b64num 5902958103587057 (-69))) (iskew_skewness b64num 4 filter_4) (lit b64num 6877897350920221 (-54)));
     (close_to (n := b64num) (Closeness (lit b64num 5902958103587057 (-69)) (lit b64num 5902958103587057 (-69))) (iskew_mean b64num 4 filter_5) (lit b64num 9 (-2)));
     (close_to (n := b64num) (Closeness (lit b64num 5902958103587057 (-69)) (lit b64num 5902958103587057 (-69))) (iskew_variance b64num 4 filter_5) (lit b64num 59 (-4)));
     (close_to (n := b64num) (Closeness (lit b64num 5902958103587057 (-69)) (lit b64num 5902958103587057 (-69))) (iskew_skewness b64num 4 filter_5) (lit b64num 1252135804397819 (-52)));
     (close_to (n := b64num) (Closeness (lit b64num 5902958103587057 (-69)) (lit b64num 5902958103587057 (-69))) (iskew_mean b64num 4 filter_6) (lit b64num 2336242306698445 (-49)));
     (close_to (n := b64num) (Closeness (lit b64num 5902958103587057 (-69)) (lit b64num 5902958103587057 (-69))) (iskew_variance b64num 4 filter_6) (lit b64num 59 (-4)));
     (close_to (n := b64num) (Closeness (lit b64num 5902958103587057 (-69)) (lit b64num 5902958103587057 (-69))) (iskew_skewness b64num 4 filter_6) (lit b64num 1252135804397819 (-52)));
     (close_to (n := b64num) (Closeness (lit b64num 5902958103587057 (-69)) (lit b64num 5902958103587057 (-69))) (iskew_mean b64num 4 filter_7) (lit b64num 961707108677997 (-48)));
     (close_to (n := b64num) (Closeness (lit b64num 5902958103587057 (-69)) (lit b64num 5902958103587057 (-69))) (iskew_variance b64num 4 filter_7) (lit b64num 5239273885500535 (-50)));
     (close_to (n := b64num) (Closeness (lit b64num 5902958103587057 (-69)) (lit b64num 5902958103587057 (-69))) (iskew_skewness b64num 4 filter_7) (lit b64num 6010323918703569 (-55)));
     (close_to (n := b64num) (Closeness (lit b64num 5902958103587057 (-69)) (lit b64num 5902958103587057 (-69))) (iskew_mean b64num 4 filter_8) (lit b64num 15 (-2)));
     (close_to (n := b64num) (Closeness (lit b64num 5902958103587057 (-69)) (lit b64num 5902958103587057 (-69))) (iskew_variance b64num 4 filter_8) (lit b64num 155 (-5)));
     (close_to (n := b64num) (Closeness (lit b64num 5902958103587057 (-69)) (lit b64num 5902958103587057 (-69))) (iskew_skewness b64num 4 filter_8) (lit b64num 6678297815435161 (-56)));
     (close_to (n := b64num) (Closeness (lit b64num 5902958103587057 (-69)) (lit b64num 5902958103587057 (-69))) (iskew_mean b64num 4 filter_9) (lit b64num 13 (-2)));
     (close_to (n := b64num) (Closeness (lit b64num 5902958103587057 (-69)) (lit b64num 5902958103587057 (-69))) (iskew_variance b64num 4 filter_9) (lit b64num 6564401780858961 (-50)));
     (close_to (n := b64num) (Closeness (lit b64num 5902958103587057 (-69)) (lit b64num 5902958103587057 (-69))) (iskew_skewness b64num 4 filter_9) (lit b64num 8333821038456555 (-54)))]) = true.
Proof. vm_compute. reflexivity. Qed.

(** test/interim/moment_suite.cpp:635 *)
Example interim_moment_kurtosis_api_suite_test_ctor :
  (let filter_1 := ikurt_init b64num in
   let filter_2 := ikurt_push b64num 4 filter_1 (lit b64num 1 0) in
   let assign_3 := ikurt_init b64num in
   let massign_4 := ikurt_init b64num in
   all_true [(negb (ikurt_empty b64num 4 filter_2));
     (negb (ikurt_empty b64num 4 filter_2));
     (negb (ikurt_empty b64num 4 filter_2));
     (negb (ikurt_empty b64num 4 filter_2));
     (negb (ikurt_empty b64num 4 filter_2))]) = true.
Proof. vm_compute. reflexivity. Qed.

(** test/interim/moment_suite.cpp:660 *)
Example interim_moment_kurtosis_api_suite_test_clear :
  (let filter_1 := ikurt_init b64num in
   let filter_2 := ikurt_push b64num 4 filter_1 (lit b64num 1 0) in
   let filter_3 := ikurt_push b64num 4 filter_2 (lit b64num 1 1) in
   let filter_4 := ikurt_push b64num 4 filter_3 (lit b64num 3 0) in
   let filter_5 := ikurt_push b64num 4 filter_4 (lit b64num 1 2) in
   let filter_6 := ikurt_push b64num 4 filter_5 (lit b64num 5 0) in
   let filter_7 := ikurt_clear b64num filter_6 in
   all_true [(N.eqb (ikurt_size b64num 4 filter_6) 4);
     (N.eqb (ikurt_size b64num 4 filter_7) 0)]) = true.
Proof. vm_compute. reflexivity. Qed.

(** test/interim/moment_suite.cpp:673 *)
Example interim_moment_kurtosis_api_suite_test_capacity :
  (let filter_1 := ikurt_init b64num in
   all_true [(N.eqb (ikurt_capacity b64num 4 filter_1) 4)]) = true.
Proof. vm_compute. reflexivity. Qed.

(** test/interim/moment_suite.cpp:679 *)
Example interim_moment_kurtosis_api_suite_test_size :
  (let filter_1 := ikurt_init b64num in
   let filter_2 := ikurt_push b64num 4 filter_1 (lit b64num 1 0) in
   let filter_3 := ikurt_push b64num 4 filter_2 (lit b64num 1 1) in
   let filter_4 := ikurt_push b64num 4 filter_3 (lit b64num 3 0) in
   let filter_5 := ikurt_push b64num 4 filter_4 (lit b64num 1 2) in
   let filter_6 := ikurt_push b64num 4 filter_5 (lit b64num 5 0) in
   all_true [(N.eqb (ikurt_size b64num 4 filter_1) 0);
     (N.eqb (ikurt_size b64num 4 filter_2) 1);
     (N.eqb (ikurt_size b64num 4 filter_3) 2);
     (N.eqb (ikurt_size b64num 4 filter_4) 3);
     (N.eqb (ikurt_size b64num 4 filter_5) 4);
     (N.eqb (ikurt_size b64num 4 filter_6) 4)]) = true.
Proof. vm_compute. reflexivity. Qed.

(** test/interim/moment_suite.cpp:695 *)
Example interim_moment_kurtosis_api_suite_test_empty :
  (let filter_1 := ikurt_init b64num in
   let filter_2 := ikurt_push b64num 4 filter_1 (lit b64num 1 0) in
   all_true [(ikurt_empty b64num 4 filter_1);
     (negb (ikurt_empty b64num 4 filter_2))]) = true.
Proof. vm_compute. reflexivity. Qed.

(** test/interim/moment_suite.cpp:703 *)
Example interim_moment_kurtosis_api_suite_test_full :
  (let filter_1 := ikurt_init b64num in
   let filter_2 := ikurt_push b64num 4 filter_1 (lit b64num 1 0) in
   let filter_3 := ikurt_push b64num 4 filter_2 (lit b64num 1 1) in
   let filter_4 := ikurt_push b64num 4 filter_3 (lit b64num 3 0) in
   let filter_5 := ikurt_push b64num 4 filter_4 (lit b64num 1 2) in
   let filter_6 := ikurt_push b64num 4 filter_5 (lit b64num 5 0) in
   all_true [(negb (ikurt_full b64num 4 filter_1));
     (negb (ikurt_full b64num 4 filter_4));
     (ikurt_full b64num 4 filter_5);
     (ikurt_full b64num 4 filter_6)]) = true.
Proof. vm_compute. reflexivity. Qed.

(** test/interim/moment_suite.cpp:734 *)
Example interim_moment_kurtosis_double_suite_test_linear_increase :
  (let filter_1 := ikurt_init b64num in
   let filter_2 := ikurt_push b64num 4 filter_1 (lit b64num 1 0) in
   let filter_3 := ikurt_push b64num 4 filter_2 (lit b64num 1 1) in
   let filter_4 := ikurt_push b64num 4 filter_3 (lit b64num 3 0) in
   let filter_5 := ikurt_push b64num 4 filter_4 (lit b64num 1 2) in
   let filter_6 := ikurt_push b64num 4 filter_5 (lit b64num 5 0) in
   let filter_7 := ikurt_push b64num 4 filter_6 (lit b64num 3 1) in
   let filter_8 := ikurt_push b64num 4 filter_7 (lit b64num 7 0) in
   let filter_9 := ikurt_push b64num 4 filter_8 (lit b64num 1 3) in
   let filter_10 := ikurt_push b64num 4 filter_9 (lit b64num 9 0) in
   all_true [(neq (n := b64num) (ikurt_mean b64num 4 filter_2) (lit b64num 1 0));
     (close_to (n := b64num) (Closeness (lit b64num 5902958103587057 (-69)) (@nmin b64num)) (ikurt_variance b64num 4 filter_2) (lit b64num 0 0));
     (close_to (n := b64num) (Closeness (lit b64num 5902958103587057 (-69)) (@nmin b64num)) (ikurt_skewness b64num 4 filter_2) (lit b64num 0 0));
     (close_to (n := b64num) (Closeness (lit b64num 5902958103587057 (-69)) (@nmin b64num)) (ikurt_kurtosis b64num 4 filter_2) (lit b64num 0 0));
     (neq (n := b64num) (ikurt_mean b64num 4 filter_3) (lit b64num 3 (-1)));
     (close_to (n := b64num) (Closeness (lit b64num 5902958103587057 (-69)) (@nmin b64num)) (ikurt_variance b64num 4 filter_3) (lit b64num 1 (-2)));
     (close_to (n := b64num) (Closeness (lit b64num 5902958103587057 (-69)) (@nmin b64num)) (ikurt_skewness b64num 4 filter_3) (lit b64num 0 0));
     (close_to (n := b64num) (Closeness (lit b64num 5902958103587057 (-69)) (@nmin b64num)) (ikurt_kurtosis b64num 4 filter_3) (lit b64num 1 0));
     (neq (n := b64num) (ikurt_mean b64num 4 filter_4) (lit b64num 1 1));
     (close_to (n := b64num) (Closeness (lit b64num 5902958103587057 (-69)) (@nmin b64num)) (ikurt_variance b64num 4 filter_4) (lit b64num 6004802505560413 (-53)));
     (close_to (n := b64num) (Closeness (lit b64num 5902958103587057 (-69)) (@nmin b64num)) (ikurt_skewness b64num 4 filter_4) (lit b64num 0 0));
     (close_to (n := b64num) (Closeness (lit b64num 5902958103587057 (-69)) (@nmin b64num)) (ikurt_kurtosis b64num 4 filter_4) (lit b64num 3 (-1)));
     (neq (n := b64num) (ikurt_mean b64num 4 filter_5) (lit b64num 5 (-1)));
     (close_to (n := b64num) (Closeness (lit b64num 5902958103587057 (-69)) (@nmin b64num)) (ikurt_variance b64num 4 filter_5) (lit b64num 5 (-2)));
     (close_to (n := b64num) (Closeness (lit b64num 5902958103587057 (-69)) (@nmin b64num)) (ikurt_skewness b64num 4 filter_5) (lit b64num 0 0));
     (close_to (n := b64num) (Closeness (lit b64num 5902958103587057 (-69)) (@nmin b64num)) (ikurt_kurtosis b64num 4 filter_5) (lit b64num 7385903388887613 (-52)));
     (neq (n := b64num) (ikurt_mean b64num 4 filter_6) (lit b64num 7 (-1)));
     (close_to (n := b64num) (Closeness (lit b64num 5902958103587057 (-69)) (@nmin b64num)) (ikurt_variance b64num 4 filter_6) (lit b64num 5 (-2)));
     (close_to (n := b64num) (Closeness (lit b64num 5902958103587057 (-69)) (@nmin b64num)) (ikurt_skewness b64num 4 filter_6) (lit b64num 0 0));
     (close_to (n := b64num) (Closeness (lit b64num 5902958103587057 (-69)) (@nmin b64num)) (ikurt_kurtosis b64num 4 filter_6) (lit b64num 7385903388887613 (-52)));
     (neq (n := b64num) (ikurt_mean b64num 4 filter_7) (lit b64num 9 (-1)));
     (close_to (n := b64num) (Closeness (lit b64num 5902958103587057 (-69)) (@nmin b64num)) (ikurt_variance b64num 4 filter_7) (lit b64num 601331881245577 (-49)));
     (close_to (n := b64num) (Closeness (lit b64num 5902958103587057 (-69)) (@nmin b64num)) (ikurt_skewness b64num 4 filter_7) (lit b64num 0 0));
     (close_to (n := b64num) (Closeness (lit b64num 5902958103587057 (-69)) (@nmin b64num)) (ikurt_kurtosis b64num 4 filter_7) (lit b64num 3116490942140383 (-51)));
     (neq (n := b64num) (ikurt_mean b64num 4 filter_8) (lit b64num 11 (-1)));
     (close_to (n := b64num) (Closeness (lit b64num 5902958103587057 (-69)) (@nmin b64num)) (ikurt_variance b64num 4 filter_8) (lit b64num 8631896283393699 (-53)));
     (close_to (n := b64num) (Closeness (lit b64num 5902958103587057 (-69)) (@nmin b64num)) (ikurt_skewness b64num 4 filter_8) (lit b64num 0 0));
     (close_to (n := b64num) (Closeness (lit b64num 5902958103587057 (-69)) (@nmin b64num)) (ikurt_kurtosis b64num 4 filter_8) (lit b64num 6965582435665125 (-52)));
     (neq (n := b64num) (ikurt_mean b64num 4 filter_9) (lit b64num 13 (-1)));
     (close_to (n := b64num) (Closeness (lit b64num 5902958103587057 (-69)) (@nmin b64num)) (ikurt_variance b64num 4 filter_9) (lit b64num 5 (-2)));
     (close_to (n := b64num) (Closeness (lit b64num 5902958103587057 (-69)) (@nmin b64num)) (ikurt_skewness b64num 4 filter_9) (lit b64num 0 0));
     (close_to (n := b64num) (Closeness (lit b64num 5902958103587057 (-69)) (@nmin b64num)) (ikurt_kurtosis b64num 4 filter_9) (lit b64num 7385903388887613 (-52)));
     (neq (n := b64num) (ikurt_mean b64num 4 filter_10) (lit b64num 15 (-1)));
     (close_to (n := b64num) (Closeness (lit b64num 5902958103587057 (-69)) (@nmin b64num)) (ikurt_variance b64num 4 filter_10) (lit b64num 5 (-2)));
     (close_to (n := b64num) (Closeness (lit b64num 5902958103587057 (-69)) (@nmin b64num)) (ikurt_skewness b64num 4 filter_10) (lit b64num 0 0));
     (close_to (n := b64num) (Closeness (lit b64num 5902958103587057 (-69)) (@nmin b64num)) (ikurt_kurtosis b64num 4 filter_10) (lit b64num 7385903388887613 (-52)))]) = true.
Proof. vm_compute. reflexivity. Qed.

(** test/interim/moment_suite.cpp:796 *)
Example interim_moment_kurtosis_double_suite_test_scatter :
  (let filter_1 := ikurt_init b64num in
   let filter_2 := ikurt_push b64num 4 filter_1 (lit b64num 1 0) in
   let filter_3 := ikurt_push b64num 4 filter_2 (lit b64num 3 0) in
   let filter_4 := ikurt_push b64num 4 filter_3 (lit b64num 0 0) in
   let filter_5 := ikurt_push b64num 4 filter_4 (lit b64num 5 0) in
   let filter_6 := ikurt_push b64num 4 filter_5 (lit b64num 7 0) in
   let filter_7 := ikurt_push b64num 4 filter_6 (lit b64num 1 0) in
   let filter_8 := ikurt_push b64num 4 filter_7 (lit b64num 1 2) in
   let filter_9 := ikurt_push b64num 4 filter_8 (lit b64num 1 0) in
   all_true [(neq (n := b64num) (ikurt_mean b64num 4 filter_2) (lit b64num 1 0));
     (neq (n := b64num) (ikurt_variance b64num 4 filter_2) (lit b64num 0 0));
     (close_to (n := b64num) (Closeness (lit b64num 5902958103587057 (-69)) (lit b64num 5902958103587057 (-69))) (ikurt_skewness b64num 4 filter_2) (lit b64num 0 0));
     (close_to (n := b64num) (Closeness (lit b64num 5902958103587057 (-69)) (lit b64num 5902958103587057 (-69))) (ikurt_kurtosis b64num 4 filter_2) (lit b64num 0 0));
     (close_to (n := b64num) (Closeness (lit b64num 5902958103587057 (-69)) (lit b64num 5902958103587057 (-69))) (ikurt_mean b64num 4 filter_3) (lit b64num 1 1));
     (close_to (n := b64num) (Closeness (lit b64num 5902958103587057 (-69)) (lit b64num 5902958103587057 (-69))) (ikurt_variance b64num 4 filter_3) (lit b64num 1 0));
     (close_to (n := b64num) (Closeness (lit b64num 5902958103587057 (-69)) (lit b64num 5902958103587057 (-69))) (ikurt_skewness b64num 4 filter_3) (lit b64num 0 0));
     (close_to (n := b64num) (Closeness (lit b64num 5902958103587057 (-69)) (lit b64num 5902958103587057 (-69))) (ikurt_kurtosis b64num 4 filter_3) (lit b64num 1 0));
     (close_to (n := b64num) (Closeness (lit b64num 5902958103587057 (-69)) (lit b64num 5902958103587057 (-69))) (ikurt_mean b64num 4 filter_4) (lit b64num 6004784491161903 (-52)));
     (close_to (n := b64num) (Closeness (lit b64num 5902958103587057 (-69)) (lit b64num 5902958103587057 (-69))) (ikurt_variance b64num 4 filter_4) (lit b64num 7005619436352449 (-52)));
     (close_to (n := b64num) (Closeness (lit b64num 5902958103587057 (-69)) (lit b64num 5902958103587057 (-69))) (ikurt_skewness b64num 4 filter_4) (lit b64num 6877897350920221 (-54)));
     (close_to (n := b64num) (Closeness (lit b64num 5902958103587057 (-69)) (lit b64num 5902958103587057 (-69))) (ikurt_kurtosis b64num 4 filter_4) (lit b64num 3 (-1)));
     (close_to (n := b64num) (Closeness (lit b64num 5902958103587057 (-69)) (lit b64num 5902958103587057 (-69))) (ikurt_mean b64num 4 filter_5) (lit b64num 9 (-2)));
     (close_to (n := b64num) (Closeness (lit b64num 5902958103587057 (-69)) (lit b64num 5902958103587057 (-69))) (ikurt_variance b64num 4 filter_5) (lit b64num 59 (-4)));
     (close_to (n := b64num) (Closeness (lit b64num 5902958103587057 (-69)) (lit b64num 5902958103587057 (-69))) (ikurt_skewness b64num 4 filter_5) (lit b64num 1252135804397819 (-52)));
     (close_to (n := b64num) (Closeness (lit b64num 5902958103587057 (-69)) (lit b64num 5902958103587057 (-69))) (ikurt_kurtosis b64num 4 filter_5) (lit b64num 3542981826852369 (-51)));
     (close_to (n := b64num) (Closeness (lit b64num 5902958103587057 (-69)) (lit b64num 5902958103587057 (-69))) (ikurt_mean b64num 4 filter_6) (lit b64num 2336242306698445 (-49)));
     (close_to (n := b64num) (Closeness (lit b64num 5902958103587057 (-69)) (lit b64num 5902958103587057 (-69))) (ikurt_variance b64num 4 filter_6) (lit b64num 59 (-4)));
     (close_to (n := b64num) (Closeness (lit b64num 5902958103587057 (-69)) (lit b64num 5902958103587057 (-69))) (ikurt_skewness b64num 4 filter_6) (lit b64num 1252135804397819 (-52)));
     (close_to (n := b64num) (Closeness (lit b64num 5902958103587057 (-69)) (lit b64num 5902958103587057 (-69))) (ikurt_kurtosis b64num 4 filter_6) (lit b64num 3542981826852369 (-51)));
     (close_to (n := b64num) (Closeness (lit b64num 5902958103587057 (-69)) (lit b64num 5902958103587057 (-69))) (ikurt_mean b64num 4 filter_7) (lit b64num 961707108677997 (-48)));
     (close_to (n := b64num) (Closeness (lit b64num 5902958103587057 (-69)) (lit b64num 5902958103587057 (-69))) (ikurt_variance b64num 4 filter_7) (lit b64num 5239273885500535 (-50)));
     (close_to (n := b64num) (Closeness (lit b64num 5902958103587057 (-69)) (lit b64num 5902958103587057 (-69))) (ikurt_skewness b64num 4 filter_7) (lit b64num 6010323918703569 (-55)));
     (close_to (n := b64num) (Closeness (lit b64num 5902958103587057 (-69)) (lit b64num 5902958103587057 (-69))) (ikurt_kurtosis b64num 4 filter_7) (lit b64num 6053018043171041 (-52)));
     (close_to (n := b64num) (Closeness (lit b64num 5902958103587057 (-69)) (lit b64num 5902958103587057 (-69))) (ikurt_mean b64num 4 filter_8) (lit b64num 15 (-2)));
     (close_to (n := b64num) (Closeness (lit b64num 5902958103587057 (-69)) (lit b64num 5902958103587057 (-69))) (ikurt_variance b64num 4 filter_8) (lit b64num 155 (-5)));
     (close_to (n := b64num) (Closeness (lit b64num 5902958103587057 (-69)) (lit b64num 5902958103587057 (-69))) (ikurt_skewness b64num 4 filter_8) (lit b64num 6678297815435161 (-56)));
     (close_to (n := b64num) (Closeness (lit b64num 5902958103587057 (-69)) (lit b64num 5902958103587057 (-69))) (ikurt_kurtosis b64num 4 filter_8) (lit b64num 1716400630984375 (-50)));
     (close_to (n := b64num) (Closeness (lit b64num 5902958103587057 (-69)) (lit b64num 5902958103587057 (-69))) (ikurt_mean b64num 4 filter_9) (lit b64num 13 (-2)));
     (close_to (n := b64num) (Closeness (lit b64num 5902958103587057 (-69)) (lit b64num 5902958103587057 (-69))) (ikurt_variance b64num 4 filter_9) (lit b64num 6564401780858961 (-50)));
     (close_to (n := b64num) (Closeness (lit b64num 5902958103587057 (-69)) (lit b64num 5902958103587057 (-69))) (ikurt_skewness b64num 4 filter_9) (lit b64num 8333821038456555 (-54)));
     (close_to (n := b64num) (Closeness (lit b64num 5902958103587057 (-69)) (lit b64num 5902958103587057 (-69))) (ikurt_kurtosis b64num 4 filter_9) (lit b64num 7297092404235867 (-52)))]) = true.
Proof. vm_compute. reflexivity. Qed.

(** test/interim/comoment_suite.cpp:22 *)
Example interim_comoment_api_suite_test_ctor :
  (let filter_1 := icov_init b64num in
   let filter_2 := icov_push b64num 4 filter_1 ((lit b64num 1 0), (lit b64num 1 0)) in
   let assign_3 := icov_init b64num in
   let massign_4 := icov_init b64num in
   all_true [(negb (icov_empty b64num 4 filter_2));
     (negb (icov_empty b64num 4 filter_2));
     (negb (icov_empty b64num 4 filter_2));
     (negb (icov_empty b64num 4 filter_2));
     (negb (icov_empty b64num 4 filter_2))]) = true.
Proof. vm_compute. reflexivity. Qed.

(** test/interim/comoment_suite.cpp:47 *)
Example interim_comoment_api_suite_test_clear :
  (let filter_1 := icov_init b64num in
   let filter_2 := icov_push b64num 4 filter_1 ((lit b64num 1 0), (lit b64num 1 0)) in
   let filter_3 := icov_clear b64num filter_2 in
   all_true [(N.eqb (icov_size b64num 4 filter_2) 1);
     (N.eqb (icov_size b64num 4 filter_3) 0)]) = true.
Proof. vm_compute. reflexivity. Qed.

(** test/interim/comoment_suite.cpp:57 *)
Example interim_comoment_api_suite_test_capacity :
  (let filter_1 := icov_init b64num in
   all_true [(N.eqb (icov_capacity b64num 4 filter_1) 4)]) = true.
Proof. vm_compute. reflexivity. Qed.

(** test/interim/comoment_suite.cpp:63 *)
Example interim_comoment_api_suite_test_size :
  (let filter_1 := icov_init b64num in
   let filter_2 := icov_push b64num 4 filter_1 ((lit b64num 1 0), (lit b64num 1 0)) in
   let filter_3 := icov_push b64num 4 filter_2 ((lit b64num 1 1), (lit b64num 1 1)) in
   let filter_4 := icov_push b64num 4 filter_3 ((lit b64num 3 0), (lit b64num 3 0)) in
   let filter_5 := icov_push b64num 4 filter_4 ((lit b64num 1 2), (lit b64num 1 2)) in
   let filter_6 := icov_push b64num 4 filter_5 ((lit b64num 5 0), (lit b64num 5 0)) in
   all_true [(N.eqb (icov_size b64num 4 filter_1) 0);
     (N.eqb (icov_size b64num 4 filter_2) 1);
     (N.eqb (icov_size b64num 4 filter_3) 2);
     (N.eqb (icov_size b64num 4 filter_4) 3);
     (N.eqb (icov_size b64num 4 filter_5) 4);
     (N.eqb (icov_size b64num 4 filter_6) 4)]) = true.
Proof. vm_compute. reflexivity. Qed.

(** test/interim/comoment_suite.cpp:79 *)
Example interim_comoment_api_suite_test_empty :
  (let filter_1 := icov_init b64num in
   let filter_2 := icov_push b64num 4 filter_1 ((lit b64num 1 0), (lit b64num 1 0)) in
   all_true [(icov_empty b64num 4 filter_1);
     (negb (icov_empty b64num 4 filter_2))]) = true.
Proof. vm_compute. reflexivity. Qed.

(** test/interim/comoment_suite.cpp:87 *)
Example interim_comoment_api_suite_test_full :
  (let filter_1 := icov_init b64num in
   let filter_2 := icov_push b64num 4 filter_1 ((lit b64num 1 0), (lit b64num 1 0)) in
   let filter_3 := icov_push b64num 4 filter_2 ((lit b64num 1 1), (lit b64num 1 1)) in
   let filter_4 := icov_push b64num 4 filter_3 ((lit b64num 3 0), (lit b64num 3 0)) in
   let filter_5 := icov_push b64num 4 filter_4 ((lit b64num 1 2), (lit b64num 1 2)) in
   let filter_6 := icov_push b64num 4 filter_5 ((lit b64num 5 0), (lit b64num 5 0)) in
   all_true [(negb (icov_full b64num 4 filter_1));
     (negb (icov_full b64num 4 filter_4));
     (icov_full b64num 4 filter_5);
     (icov_full b64num 4 filter_6)]) = true.
Proof. vm_compute. reflexivity. Qed.

(** test/interim/comoment_suite.cpp:118 *)
Example interim_comoment_double_4_suite_test_same_no_increment :
  (let filter_1 := icov_init b64num in
   let filter_2 := icov_push b64num 4 filter_1 ((lit b64num 1 1), (lit b64num 1 1)) in
   let filter_3 := icov_push b64num 4 filter_2 ((lit b64num 1 1), (lit b64num 1 1)) in
   let filter_4 := icov_push b64num 4 filter_3 ((lit b64num 1 1), (lit b64num 1 1)) in
   let filter_5 := icov_push b64num 4 filter_4 ((lit b64num 1 1), (lit b64num 1 1)) in
   let filter_6 := icov_push b64num 4 filter_5 ((lit b64num 1 1), (lit b64num 1 1)) in
   let filter_7 := icov_push b64num 4 filter_6 ((lit b64num 1 1), (lit b64num 1 1)) in
   let filter_8 := icov_push b64num 4 filter_7 ((lit b64num 1 1), (lit b64num 1 1)) in
   let filter_9 := icov_push b64num 4 filter_8 ((lit b64num 1 1), (lit b64num 1 1)) in
   all_true [(neq (n := b64num) (icov_variance b64num 4 filter_2) (lit b64num 0 0));
     (neq (n := b64num) (icov_variance b64num 4 filter_3) (lit b64num 0 0));
     (neq (n := b64num) (icov_variance b64num 4 filter_4) (lit b64num 0 0));
     (neq (n := b64num) (icov_variance b64num 4 filter_5) (lit b64num 0 0));
     (neq (n := b64num) (icov_variance b64num 4 filter_6) (lit b64num 0 0));
     (neq (n := b64num) (icov_variance b64num 4 filter_7) (lit b64num 0 0));
     (neq (n := b64num) (icov_variance b64num 4 filter_8) (lit b64num 0 0));
     (neq (n := b64num) (icov_variance b64num 4 filter_9) (lit b64num 0 0))]) = true.
Proof. vm_compute. reflexivity. Qed.

(** test/interim/comoment_suite.cpp:148 *)
Example interim_comoment_double_4_suite_test_same_increment_by_one :
  (let filter_1 := icov_init b64num in
   let filter_2 := icov_push b64num 4 filter_1 ((lit b64num 1 0), (lit b64num 1 0)) in
   let filter_3 := icov_push b64num 4 filter_2 ((lit b64num 1 1), (lit b64num 1 1)) in
   let filter_4 := icov_push b64num 4 filter_3 ((lit b64num 3 0), (lit b64num 3 0)) in
   let filter_5 := icov_push b64num 4 filter_4 ((lit b64num 1 2), (lit b64num 1 2)) in
   let filter_6 := icov_push b64num 4 filter_5 ((lit b64num 5 0), (lit b64num 5 0)) in
   let filter_7 := icov_push b64num 4 filter_6 ((lit b64num 3 1), (lit b64num 3 1)) in
   let filter_8 := icov_push b64num 4 filter_7 ((lit b64num 7 0), (lit b64num 7 0)) in
   let filter_9 := icov_push b64num 4 filter_8 ((lit b64num 1 3), (lit b64num 1 3)) in
   all_true [(neq (n := b64num) (icov_variance b64num 4 filter_2) (lit b64num 0 0));
     (close_to (n := b64num) (Closeness (lit b64num 5902958103587057 (-69)) (@nmin b64num)) (icov_variance b64num 4 filter_3) (lit b64num 1 (-2)));
     (close_to (n := b64num) (Closeness (lit b64num 5902958103587057 (-69)) (@nmin b64num)) (icov_variance b64num 4 filter_4) (lit b64num 6004802505560413 (-53)));
     (close_to (n := b64num) (Closeness (lit b64num 5902958103587057 (-69)) (@nmin b64num)) (icov_variance b64num 4 filter_5) (lit b64num 5 (-2)));
     (close_to (n := b64num) (Closeness (lit b64num 5902958103587057 (-69)) (@nmin b64num)) (icov_variance b64num 4 filter_6) (lit b64num 5 (-2)));
     (close_to (n := b64num) (Closeness (lit b64num 5902958103587057 (-69)) (@nmin b64num)) (icov_variance b64num 4 filter_7) (lit b64num 601331881245577 (-49)));
     (close_to (n := b64num) (Closeness (lit b64num 5902958103587057 (-69)) (@nmin b64num)) (icov_variance b64num 4 filter_8) (lit b64num 8631869261795935 (-53)));
     (close_to (n := b64num) (Closeness (lit b64num 5902958103587057 (-69)) (@nmin b64num)) (icov_variance b64num 4 filter_9) (lit b64num 5 (-2)))]) = true.
Proof. vm_compute. reflexivity. Qed.

(** test/interim/comoment_suite.cpp:179 *)
Example interim_comoment_double_4_suite_test_same_increment_by_half :
  (let filter_1 := icov_init b64num in
   let filter_2 := icov_push b64num 4 filter_1 ((lit b64num 1 0), (lit b64num 1 0)) in
   let filter_3 := icov_push b64num 4 filter_2 ((lit b64num 3 (-1)), (lit b64num 3 (-1))) in
   let filter_4 := icov_push b64num 4 filter_3 ((lit b64num 1 1), (lit b64num 1 1)) in
   let filter_5 := icov_push b64num 4 filter_4 ((lit b64num 5 (-1)), (lit b64num 5 (-1))) in
   let filter_6 := icov_push b64num 4 filter_5 ((lit b64num 3 0), (lit b64num 3 0)) in
   let filter_7 := icov_push b64num 4 filter_6 ((lit b64num 7 (-1)), (lit b64num 7 (-1))) in
   let filter_8 := icov_push b64num 4 filter_7 ((lit b64num 1 2), (lit b64num 1 2)) in
   let filter_9 := icov_push b64num 4 filter_8 ((lit b64num 9 (-1)), (lit b64num 9 (-1))) in
   all_true [(neq (n := b64num) (icov_variance b64num 4 filter_2) (lit b64num 0 0));
     (close_to (n := b64num) (Closeness (lit b64num 5902958103587057 (-69)) (@nmin b64num)) (icov_variance b64num 4 filter_3) (lit b64num 1 (-4)));
     (close_to (n := b64num) (Closeness (lit b64num 5902958103587057 (-69)) (@nmin b64num)) (icov_variance b64num 4 filter_4) (lit b64num 1501202878189917 (-53)));
     (close_to (n := b64num) (Closeness (lit b64num 5902958103587057 (-69)) (@nmin b64num)) (icov_variance b64num 4 filter_5) (lit b64num 5 (-4)));
     (close_to (n := b64num) (Closeness (lit b64num 5902958103587057 (-69)) (@nmin b64num)) (icov_variance b64num 4 filter_6) (lit b64num 5 (-4)));
     (close_to (n := b64num) (Closeness (lit b64num 5902958103587057 (-69)) (@nmin b64num)) (icov_variance b64num 4 filter_7) (lit b64num 601331881245577 (-51)));
     (close_to (n := b64num) (Closeness (lit b64num 5902958103587057 (-69)) (@nmin b64num)) (icov_variance b64num 4 filter_8) (lit b64num 2157971819048611 (-53)));
     (close_to (n := b64num) (Closeness (lit b64num 5902958103587057 (-69)) (@nmin b64num)) (icov_variance b64num 4 filter_9) (lit b64num 5 (-4)))]) = true.
Proof. vm_compute. reflexivity. Qed.

(** test/interim/comoment_suite.cpp:210 *)
Example interim_comoment_double_4_suite_test_exponential_increase :
  (let filter_1 := icov_init b64num in
   let filter_2 := icov_push b64num 4 filter_1 ((lit b64num 1 0), (lit b64num 1 0)) in
   let filter_3 := icov_push b64num 4 filter_2 ((lit b64num 5 1), (lit b64num 5 1)) in
   let filter_4 := icov_push b64num 4 filter_3 ((lit b64num 25 2), (lit b64num 25 2)) in
   let filter_5 := icov_push b64num 4 filter_4 ((lit b64num 125 3), (lit b64num 125 3)) in
   let filter_6 := icov_push b64num 4 filter_5 ((lit b64num 625 4), (lit b64num 625 4)) in
   let filter_7 := icov_push b64num 4 filter_6 ((lit b64num 3125 5), (lit b64num 3125 5)) in
   let filter_8 := icov_push b64num 4 filter_7 ((lit b64num 15625 6), (lit b64num 15625 6)) in
   all_true [(neq (n := b64num) (icov_variance b64num 4 filter_2) (lit b64num 0 0));
     (close_to (n := b64num) (Closeness (lit b64num 5902958103587057 (-69)) (@nmin b64num)) (icov_variance b64num 4 filter_3) (lit b64num 81 (-2)));
     (close_to (n := b64num) (Closeness (lit b64num 5902958103587057 (-69)) (@nmin b64num)) (icov_variance b64num 4 filter_4) (lit b64num 999 1));
     (close_to (n := b64num) (Closeness (lit b64num 5902958103587057 (-69)) (@nmin b64num)) (icov_variance b64num 4 filter_5) (lit b64num 43845 2));
     (close_to (n := b64num) (Closeness (lit b64num 5902958103587057 (-69)) (@nmin b64num)) (icov_variance b64num 4 filter_6) (lit b64num 43845 2));
     (close_to (n := b64num) (Closeness (lit b64num 5902958103587057 (-69)) (@nmin b64num)) (icov_variance b64num 4 filter_7) (lit b64num 46040625 3));
     (close_to (n := b64num) (Closeness (lit b64num 5902958103587057 (-69)) (@nmin b64num)) (icov_variance b64num 4 filter_8) (lit b64num 3121878125 5))]) = true.
Proof. vm_compute. reflexivity. Qed.

(** test/interim/regression_suite.cpp:22 *)
Example interim_regression_double_suite_test_ctor :
  (let filter_1 := ireg_init b64num in
   all_true [(N.eqb (ireg_size b64num 4 filter_1) 0)]) = true.
Proof. vm_compute. reflexivity. Qed.

(** test/interim/regression_suite.cpp:28 *)
Example interim_regression_double_suite_test_same :
  (let filter_1 := ireg_init b64num in
   let filter_2 := ireg_push b64num 4 filter_1 ((lit b64num 1 0), (lit b64num 1 0)) in
   let filter_3 := ireg_push b64num 4 filter_2 ((lit b64num 1 0), (lit b64num 1 0)) in
   let filter_4 := ireg_push b64num 4 filter_3 ((lit b64num 1 0), (lit b64num 1 0)) in
   let filter_5 := ireg_push b64num 4 filter_4 ((lit b64num 1 0), (lit b64num 1 0)) in
   let filter_6 := ireg_push b64num 4 filter_5 ((lit b64num 1 0), (lit b64num 1 0)) in
   let filter_7 := ireg_push b64num 4 filter_6 ((lit b64num 1 0), (lit b64num 1 0)) in
   all_true [(N.eqb (ireg_size b64num 4 filter_2) 1);
     (close_to (n := b64num) (Closeness (lit b64num 5902958103587057 (-69)) (@nmin b64num)) (ireg_slope b64num 4 filter_2) (lit b64num 0 0));
     (close_to (n := b64num) (Closeness (lit b64num 5902958103587057 (-69)) (@nmin b64num)) (ireg_at b64num 4 filter_2 (lit b64num 0 0)) (lit b64num 1 0));
     (N.eqb (ireg_size b64num 4 filter_3) 2);
     (close_to (n := b64num) (Closeness (lit b64num 5902958103587057 (-69)) (@nmin b64num)) (ireg_slope b64num 4 filter_3) (lit b64num 0 0));
     (close_to (n := b64num) (Closeness (lit b64num 5902958103587057 (-69)) (@nmin b64num)) (ireg_at b64num 4 filter_3 (lit b64num 0 0)) (lit b64num 1 0));
     (N.eqb (ireg_size b64num 4 filter_4) 3);
     (close_to (n := b64num) (Closeness (lit b64num 5902958103587057 (-69)) (@nmin b64num)) (ireg_slope b64num 4 filter_4) (lit b64num 0 0));
     (close_to (n := b64num) (Closeness (lit b64num 5902958103587057 (-69)) (@nmin b64num)) (ireg_at b64num 4 filter_4 (lit b64num 0 0)) (lit b64num 1 0));
     (N.eqb (ireg_size b64num 4 filter_5) 4);
     (close_to (n := b64num) (Closeness (lit b64num 5902958103587057 (-69)) (@nmin b64num)) (ireg_slope b64num 4 filter_5) (lit b64num 0 0));
     (close_to (n := b64num) (Closeness (lit b64num 5902958103587057 (-69)) (@nmin b64num)) (ireg_at b64num 4 filter_5 (lit b64num 0 0)) (lit b64num 1 0));
     (N.eqb (ireg_size b64num 4 filter_6) 4);
     (close_to (n := b64num) (Closeness (lit b64num 5902958103587057 (-69)) (@nmin b64num)) (ireg_slope b64num 4 filter_6) (lit b64num 0 0));
     (close_to (n := b64num) (Closeness (lit b64num 5902958103587057 (-69)) (@nmin b64num)) (ireg_at b64num 4 filter_6 (lit b64num 0 0)) (lit b64num 1 0));
     (N.eqb (ireg_size b64num 4 filter_7) 4);
     (close_to (n := b64num) (Closeness (lit b64num 5902958103587057 (-69)) (@nmin b64num)) (ireg_slope b64num 4 filter_7) (lit b64num 0 0));
     (close_to (n := b64num) (Closeness (lit b64num 5902958103587057 (-69)) (@nmin b64num)) (ireg_at b64num 4 filter_7 (lit b64num 0 0)) (lit b64num 1 0))]) = true.
Proof. vm_compute. reflexivity. Qed.

(** test/interim/regression_suite.cpp:66 *)
Example interim_regression_double_suite_test_linear_increase_slope_1 :
  (let filter_1 := ireg_init b64num in
   let filter_2 := ireg_push b64num 4 filter_1 ((lit b64num 0 0), (lit b64num 0 0)) in
   let filter_3 := ireg_push b64num 4 filter_2 ((lit b64num 1 0), (lit b64num 1 0)) in
   let filter_4 := ireg_push b64num 4 filter_3 ((lit b64num 1 1), (lit b64num 1 1)) in
   let filter_5 := ireg_push b64num 4 filter_4 ((lit b64num 3 0), (lit b64num 3 0)) in
   let filter_6 := ireg_push b64num 4 filter_5 ((lit b64num 1 2), (lit b64num 1 2)) in
   let filter_7 := ireg_push b64num 4 filter_6 ((lit b64num 5 0), (lit b64num 5 0)) in
   let filter_8 := ireg_push b64num 4 filter_7 ((lit b64num 3 1), (lit b64num 3 1)) in
   let filter_9 := ireg_push b64num 4 filter_8 ((lit b64num 7 0), (lit b64num 7 0)) in
   let filter_10 := ireg_push b64num 4 filter_9 ((lit b64num 1 3), (lit b64num 1 3)) in
   all_true [(close_to (n := b64num) (Closeness (lit b64num 5902958103587057 (-69)) (@nmin b64num)) (ireg_slope b64num 4 filter_2) (lit b64num 0 0));
     (close_to (n := b64num) (Closeness (lit b64num 5902958103587057 (-69)) (@nmin b64num)) (ireg_at b64num 4 filter_2 (lit b64num 0 0)) (lit b64num 0 0));
     (close_to (n := b64num) (Closeness (lit b64num 5902958103587057 (-69)) (@nmin b64num)) (ireg_slope b64num 4 filter_3) (lit b64num 1 0));
     (close_to (n := b64num) (Closeness (lit b64num 5902958103587057 (-69)) (@nmin b64num)) (ireg_at b64num 4 filter_3 (lit b64num 0 0)) (lit b64num 0 0));
     (close_to (n := b64num) (Closeness (lit b64num 5902958103587057 (-69)) (@nmin b64num)) (ireg_at b64num 4 filter_3 (lit b64num 1 0)) (lit b64num 1 0));
     (close_to (n := b64num) (Closeness (lit b64num 5902958103587057 (-69)) (@nmin b64num)) (ireg_slope b64num 4 filter_4) (lit b64num 1 0));
     (close_to (n := b64num) (Closeness (lit b64num 5902958103587057 (-69)) (@nmin b64num)) (ireg_at b64num 4 filter_4 (lit b64num 0 0)) (lit b64num 0 0));
     (close_to (n := b64num) (Closeness (lit b64num 5902958103587057 (-69)) (@nmin b64num)) (ireg_at b64num 4 filter_4 (lit b64num 1 1)) (lit b64num 1 1));
     (close_to (n := b64num) (Closeness (lit b64num 5902958103587057 (-69)) (@nmin b64num)) (ireg_slope b64num 4 filter_5) (lit b64num 1 0));
     (close_to (n := b64num) (Closeness (lit b64num 5902958103587057 (-69)) (@nmin b64num)) (ireg_at b64num 4 filter_5 (lit b64num 0 0)) (lit b64num 0 0));
     (close_to (n := b64num) (Closeness (lit b64num 5902958103587057 (-69)) (@nmin b64num)) (ireg_at b64num 4 filter_5 (lit b64num 3 0)) (lit b64num 3 0));
     (close_to (n := b64num) (Closeness (lit b64num 5902958103587057 (-69)) (@nmin b64num)) (ireg_slope b64num 4 filter_6) (lit b64num 1 0));
     (close_to (n := b64num) (Closeness (lit b64num 5902958103587057 (-69)) (@nmin b64num)) (ireg_at b64num 4 filter_6 (lit b64num 0 0)) (lit b64num 0 0));
     (close_to (n := b64num) (Closeness (lit b64num 5902958103587057 (-69)) (@nmin b64num)) (ireg_at b64num 4 filter_6 (lit b64num 1 2)) (lit b64num 1 2));
     (close_to (n := b64num) (Closeness (lit b64num 5902958103587057 (-69)) (@nmin b64num)) (ireg_slope b64num 4 filter_7) (lit b64num 1 0));
     (close_to (n := b64num) (Closeness (lit b64num 5902958103587057 (-69)) (@nmin b64num)) (ireg_at b64num 4 filter_7 (lit b64num 0 0)) (lit b64num 0 0));
     (close_to (n := b64num) (Closeness (lit b64num 5902958103587057 (-69)) (@nmin b64num)) (ireg_at b64num 4 filter_7 (lit b64num 5 0)) (lit b64num 5 0));
     (close_to (n := b64num) (Closeness (lit b64num 5902958103587057 (-69)) (@nmin b64num)) (ireg_slope b64num 4 filter_8) (lit b64num 1 0));
     (close_to (n := b64num) (Closeness (lit b64num 5902958103587057 (-69)) (@nmin b64num)) (ireg_at b64num 4 filter_8 (lit b64num 0 0)) (lit b64num 0 0));
     (close_to (n := b64num) (Closeness (lit b64num 5902958103587057 (-69)) (@nmin b64num)) (ireg_at b64num 4 filter_8 (lit b64num 3 1)) (lit b64num 3 1));
     (close_to (n := b64num) (Closeness (lit b64num 5902958103587057 (-69)) (@nmin b64num)) (ireg_slope b64num 4 filter_9) (lit b64num 1 0));
     (close_to (n := b64num) (Closeness (lit b64num 5902958103587057 (-69)) (@nmin b64num)) (ireg_at b64num 4 filter_9 (lit b64num 0 0)) (lit b64num 0 0));
     (close_to (n := b64num) (Closeness (lit b64num 5902958103587057 (-69)) (@nmin b64num)) (ireg_at b64num 4 filter_9 (lit b64num 7 0)) (lit b64num 7 0));
     (close_to (n := b64num) (Closeness (lit b64num 5902958103587057 (-69)) (@nmin b64num)) (ireg_slope b64num 4 filter_10) (lit b64num 1 0));
     (close_to (n := b64num) (Closeness (lit b64num 5902958103587057 (-69)) (@nmin b64num)) (ireg_at b64num 4 filter_10 (lit b64num 0 0)) (lit b64num 0 0));
     (close_to (n := b64num) (Closeness (lit b64num 5902958103587057 (-69)) (@nmin b64num)) (ireg_at b64num 4 filter_10 (lit b64num 1 3)) (lit b64num 1 3))]) = true.
Proof. vm_compute. reflexivity. Qed.

(** test/interim/regression_suite.cpp:118 *)
Example interim_regression_double_suite_test_linear_increase_slope_2 :
  (let filter_1 := ireg_init b64num in
   let filter_2 := ireg_push b64num 4 filter_1 ((lit b64num 0 0), (lit b64num 0 0)) in
   let filter_3 := ireg_push b64num 4 filter_2 ((lit b64num 1 0), (lit b64num 1 1)) in
   let filter_4 := ireg_push b64num 4 filter_3 ((lit b64num 1 1), (lit b64num 1 2)) in
   let filter_5 := ireg_push b64num 4 filter_4 ((lit b64num 3 0), (lit b64num 3 1)) in
   let filter_6 := ireg_push b64num 4 filter_5 ((lit b64num 1 2), (lit b64num 1 3)) in
   let filter_7 := ireg_push b64num 4 filter_6 ((lit b64num 5 0), (lit b64num 5 1)) in
   let filter_8 := ireg_push b64num 4 filter_7 ((lit b64num 3 1), (lit b64num 3 2)) in
   let filter_9 := ireg_push b64num 4 filter_8 ((lit b64num 7 0), (lit b64num 7 1)) in
   let filter_10 := ireg_push b64num 4 filter_9 ((lit b64num 1 3), (lit b64num 1 4)) in
   all_true [(close_to (n := b64num) (Closeness (lit b64num 5902958103587057 (-69)) (@nmin b64num)) (ireg_slope b64num 4 filter_2) (lit b64num 0 0));
     (close_to (n := b64num) (Closeness (lit b64num 5902958103587057 (-69)) (@nmin b64num)) (ireg_at b64num 4 filter_2 (lit b64num 0 0)) (lit b64num 0 0));
     (close_to (n := b64num) (Closeness (lit b64num 5902958103587057 (-69)) (@nmin b64num)) (ireg_slope b64num 4 filter_3) (lit b64num 1 1));
     (close_to (n := b64num) (Closeness (lit b64num 5902958103587057 (-69)) (@nmin b64num)) (ireg_at b64num 4 filter_3 (lit b64num 0 0)) (lit b64num 0 0));
     (close_to (n := b64num) (Closeness (lit b64num 5902958103587057 (-69)) (@nmin b64num)) (ireg_at b64num 4 filter_3 (lit b64num 1 0)) (lit b64num 1 1));
     (close_to (n := b64num) (Closeness (lit b64num 5902958103587057 (-69)) (@nmin b64num)) (ireg_slope b64num 4 filter_4) (lit b64num 1 1));
     (close_to (n := b64num) (Closeness (lit b64num 5902958103587057 (-69)) (@nmin b64num)) (ireg_at b64num 4 filter_4 (lit b64num 0 0)) (lit b64num 0 0));
     (close_to (n := b64num) (Closeness (lit b64num 5902958103587057 (-69)) (@nmin b64num)) (ireg_at b64num 4 filter_4 (lit b64num 1 1)) (lit b64num 1 2));
     (close_to (n := b64num) (Closeness (lit b64num 5902958103587057 (-69)) (@nmin b64num)) (ireg_slope b64num 4 filter_5) (lit b64num 1 1));
     (close_to (n := b64num) (Closeness (lit b64num 5902958103587057 (-69)) (@nmin b64num)) (ireg_at b64num 4 filter_5 (lit b64num 0 0)) (lit b64num 0 0));
     (close_to (n := b64num) (Closeness (lit b64num 5902958103587057 (-69)) (@nmin b64num)) (ireg_at b64num 4 filter_5 (lit b64num 3 0)) (lit b64num 3 1));
     (close_to (n := b64num) (Closeness (lit b64num 5902958103587057 (-69)) (@nmin b64num)) (ireg_slope b64num 4 filter_6) (lit b64num 1 1));
     (close_to (n := b64num) (Closeness (lit b64num 5902958103587057 (-69)) (@nmin b64num)) (ireg_at b64num 4 filter_6 (lit b64num 0 0)) (lit b64num 0 0));
     (close_to (n := b64num) (Closeness (lit b64num 5902958103587057 (-69)) (@nmin b64num)) (ireg_at b64num 4 filter_6 (lit b64num 1 2)) (lit b64num 1 3));
     (close_to (n := b64num) (Closeness (lit b64num 5902958103587057 (-69)) (@nmin b64num)) (ireg_slope b64num 4 filter_7) (lit b64num 1 1));
     (close_to (n := b64num) (Closeness (lit b64num 5902958103587057 (-69)) (@nmin b64num)) (ireg_at b64num 4 filter_7 (lit b64num 0 0)) (lit b64num 0 0));
     (close_to (n := b64num) (Closeness (lit b64num 5902958103587057 (-69)) (@nmin b64num)) (ireg_at b64num 4 filter_7 (lit b64num 5 0)) (lit b64num 5 1));
     (close_to (n := b64num) (Closeness (lit b64num 5902958103587057 (-69)) (@nmin b64num)) (ireg_slope b64num 4 filter_8) (lit b64num 1 1));
     (close_to (n := b64num) (Closeness (lit b64num 5902958103587057 (-69)) (@nmin b64num)) (ireg_at b64num 4 filter_8 (lit b64num 0 0)) (lit b64num 0 0));
     (close_to (n := b64num) (Closeness (lit b64num 5902958103587057 (-69)) (@nmin b64num)) (ireg_at b64num 4 filter_8 (lit b64num 3 1)) (lit b64num 3 2));
     (close_to (n := b64num) (Closeness (lit b64num 5902958103587057 (-69)) (@nmin b64num)) (ireg_slope b64num 4 filter_9) (lit b64num 1 1));
     (close_to (n := b64num) (Closeness (lit b64num 5902958103587057 (-69)) (@nmin b64num)) (ireg_at b64num 4 filter_9 (lit b64num 0 0)) (lit b64num 0 0));
     (close_to (n := b64num) (Closeness (lit b64num 5902958103587057 (-69)) (@nmin b64num)) (ireg_at b64num 4 filter_9 (lit b64num 7 0)) (lit b64num 7 1));
     (close_to (n := b64num) (Closeness (lit b64num 5902958103587057 (-69)) (@nmin b64num)) (ireg_slope b64num 4 filter_10) (lit b64num 1 1));
     (close_to (n := b64num) (Closeness (lit b64num 5902958103587057 (-69)) (@nmin b64num)) (ireg_at b64num 4 filter_10 (lit b64num 0 0)) (lit b64num 0 0));
     (close_to (n := b64num) (Closeness (lit b64num 5902958103587057 (-69)) (@nmin b64num)) (ireg_at b64num 4 filter_10 (lit b64num 1 3)) (lit b64num 1 4))]) = true.
Proof. vm_compute. reflexivity. Qed.

(** test/interim/regression_suite.cpp:170 *)
Example interim_regression_double_suite_test_linear_increase_slope_1_absolute_error :
  (let filter_1 := ireg_init b64num in
   let filter_2 := ireg_push b64num 4 filter_1 ((lit b64num 0 0), (lit b64num 0 0)) in
   let filter_3 := ireg_push b64num 4 filter_2 ((lit b64num 1 0), (@nadd b64num (lit b64num 1 0) (lit b64num 5764607523034235 (-59)))) in
   let filter_4 := ireg_push b64num 4 filter_3 ((lit b64num 1 1), (@nsub b64num (lit b64num 1 1) (lit b64num 5764607523034235 (-59)))) in
   let filter_5 := ireg_push b64num 4 filter_4 ((lit b64num 3 0), (@nadd b64num (lit b64num 3 0) (lit b64num 5764607523034235 (-59)))) in
   let filter_6 := ireg_push b64num 4 filter_5 ((lit b64num 1 2), (@nsub b64num (lit b64num 1 2) (lit b64num 5764607523034235 (-59)))) in
   let filter_7 := ireg_push b64num 4 filter_6 ((lit b64num 5 0), (@nadd b64num (lit b64num 5 0) (lit b64num 5764607523034235 (-59)))) in
   let filter_8 := ireg_push b64num 4 filter_7 ((lit b64num 3 1), (@nsub b64num (lit b64num 3 1) (lit b64num 5764607523034235 (-59)))) in
   let filter_9 := ireg_push b64num 4 filter_8 ((lit b64num 7 0), (@nadd b64num (lit b64num 7 0) (lit b64num 5764607523034235 (-59)))) in
   let filter_10 := ireg_push b64num 4 filter_9 ((lit b64num 1 3), (@nsub b64num (lit b64num 1 3) (lit b64num 5764607523034235 (-59)))) in
   let filter_11 := ireg_push b64num 4 filter_10 ((lit b64num 9 0), (@nadd b64num (lit b64num 9 0) (lit b64num 5764607523034235 (-59)))) in
   let filter_12 := ireg_push b64num 4 filter_11 ((lit b64num 5 1), (@nsub b64num (lit b64num 5 1) (lit b64num 5764607523034235 (-59)))) in
   let filter_13 := ireg_push b64num 4 filter_12 ((lit b64num 11 0), (@nadd b64num (lit b64num 11 0) (lit b64num 5764607523034235 (-59)))) in
   let filter_14 := ireg_push b64num 4 filter_13 ((lit b64num 3 2), (@nsub b64num (lit b64num 3 2) (lit b64num 5764607523034235 (-59)))) in
   let filter_15 := ireg_push b64num 4 filter_14 ((lit b64num 13 0), (@nadd b64num (lit b64num 13 0) (lit b64num 5764607523034235 (-59)))) in
   let filter_16 := ireg_push b64num 4 filter_15 ((lit b64num 7 1), (@nsub b64num (lit b64num 7 1) (lit b64num 5764607523034235 (-59)))) in
   all_true [(close_to (n := b64num) (Closeness (lit b64num 5902958103587057 (-69)) (@nmin b64num)) (ireg_slope b64num 4 filter_2) (lit b64num 0 0));
     (close_to (n := b64num) (Closeness (lit b64num 5902958103587057 (-69)) (@nmin b64num)) (ireg_at b64num 4 filter_2 (lit b64num 0 0)) (lit b64num 0 0));
     (close_to (n := b64num) (Closeness (lit b64num 5902958103587057 (-69)) (@nmin b64num)) (ireg_slope b64num 4 filter_3) (lit b64num 4548635623644201 (-52)));
     (close_to (n := b64num) (Closeness (lit b64num 5902958103587057 (-69)) (@nmin b64num)) (ireg_at b64num 4 filter_3 (lit b64num 0 0)) (lit b64num 0 0));
     (close_to (n := b64num) (Closeness (lit b64num 5902958103587057 (-69)) (@nmin b64num)) (ireg_at b64num 4 filter_3 (lit b64num 1 0)) (lit b64num 4548635623644201 (-52)));
     (close_to (n := b64num) (Closeness (lit b64num 5902958103587057 (-69)) (@nmin b64num)) (ireg_slope b64num 4 filter_4) (lit b64num 8962163258467287 (-53)));
     (close_to (n := b64num) (Closeness (lit b64num 5902958103587057 (-69)) (@nmin b64num)) (ireg_at b64num 4 filter_4 (lit b64num 0 0)) (lit b64num 5764607523034235 (-60)));
     (close_to (n := b64num) (Closeness (lit b64num 5902958103587057 (-69)) (@nmin b64num)) (ireg_at b64num 4 filter_4 (lit b64num 1 1)) (lit b64num 2246170314151035 (-50)));
     (close_to (n := b64num) (Closeness (lit b64num 5902958103587057 (-69)) (@nmin b64num)) (ireg_slope b64num 4 filter_5) (lit b64num 2254051613498933 (-51)));
     (close_to (n := b64num) (Closeness (lit b64num 5902958103587057 (-69)) (@nmin b64num)) (ireg_at b64num 4 filter_5 (lit b64num 0 0)) (lit b64num 1152921504606847 (-60)));
     (close_to (n := b64num) (Closeness (lit b64num 5902958103587057 (-69)) (@nmin b64num)) (ireg_at b64num 4 filter_5 (lit b64num 3 0)) (lit b64num 6764406640310485 (-51)));
     (close_to (n := b64num) (Closeness (lit b64num 5902958103587057 (-69)) (@nmin b64num)) (ireg_slope b64num 4 filter_6) (lit b64num 2254051613498933 (-51)));
     (close_to (n := b64num) (Closeness (lit b64num 5902958103587057 (-69)) (@nmin b64num)) (ireg_at b64num 4 filter_6 (lit b64num 0 0)) (lit b64num (-5764607523034235) (-60)));
     (close_to (n := b64num) (Closeness (lit b64num 5902958103587057 (-69)) (@nmin b64num)) (ireg_at b64num 4 filter_6 (lit b64num 1 2)) (lit b64num 9004947454927307 (-51)));
     (close_to (n := b64num) (Closeness (lit b64num 5902958103587057 (-69)) (@nmin b64num)) (ireg_slope b64num 4 filter_7) (lit b64num 4511751142696037 (-52)));
     (close_to (n := b64num) (Closeness (lit b64num 5902958103587057 (-69)) (@nmin b64num)) (ireg_at b64num 4 filter_7 (lit b64num 0 0)) (lit b64num (-396060962749769) (-56)));
     (close_to (n := b64num) (Closeness (lit b64num 5902958103587057 (-69)) (@nmin b64num)) (ireg_at b64num 4 filter_7 (lit b64num 5 0)) (lit b64num 5633496478882411 (-50)));
     (close_to (n := b64num) (Closeness (lit b64num 5902958103587057 (-69)) (@nmin b64num)) (ireg_slope b64num 4 filter_8) (lit b64num 4506526967128287 (-52)));
     (close_to (n := b64num) (Closeness (lit b64num 5902958103587057 (-69)) (@nmin b64num)) (ireg_at b64num 4 filter_8 (lit b64num 0 0)) (lit b64num (-1566474448309323) (-58)));
     (close_to (n := b64num) (Closeness (lit b64num 5902958103587057 (-69)) (@nmin b64num)) (ireg_at b64num 4 filter_8 (lit b64num 3 1)) (lit b64num 6753688073197343 (-50)));
     (close_to (n := b64num) (Closeness (lit b64num 5902958103587057 (-69)) (@nmin b64num)) (ireg_slope b64num 4 filter_9) (lit b64num 4519677478040209 (-52)));
     (close_to (n := b64num) (Closeness (lit b64num 5902958103587057 (-69)) (@nmin b64num)) (ireg_at b64num 4 filter_9 (lit b64num 0 0)) (lit b64num (-2830854639374037) (-57)));
     (close_to (n := b64num) (Closeness (lit b64num 5902958103587057 (-69)) (@nmin b64num)) (ireg_at b64num 4 filter_9 (lit b64num 7 0)) (lit b64num 1971833542849761 (-48)));
     (close_to (n := b64num) (Closeness (lit b64num 5902958103587057 (-69)) (@nmin b64num)) (ireg_slope b64num 4 filter_10) (lit b64num 2260807012939989 (-51)));
     (close_to (n := b64num) (Closeness (lit b64num 5902958103587057 (-69)) (@nmin b64num)) (ireg_at b64num 4 filter_10 (lit b64num 0 0)) (lit b64num (-1080863910568919) (-55)));
     (close_to (n := b64num) (Closeness (lit b64num 5902958103587057 (-69)) (@nmin b64num)) (ireg_at b64num 4 filter_10 (lit b64num 1 3)) (lit b64num 4504725527277339 (-49)));
     (close_to (n := b64num) (Closeness (lit b64num 5902958103587057 (-69)) (@nmin b64num)) (ireg_slope b64num 4 filter_11) (lit b64num 2262338236813295 (-51)));
     (close_to (n := b64num) (Closeness (lit b64num 5902958103587057 (-69)) (@nmin b64num)) (ireg_at b64num 4 filter_11 (lit b64num 0 0)) (lit b64num (-5059365438666227) (-57)));
     (close_to (n := b64num) (Closeness (lit b64num 5902958103587057 (-69)) (@nmin b64num)) (ireg_at b64num 4 filter_11 (lit b64num 9 0)) (lit b64num 2535250744732413 (-48)));
     (close_to (n := b64num) (Closeness (lit b64num 5902958103587057 (-69)) (@nmin b64num)) (ireg_slope b64num 4 filter_12) (lit b64num 4515354022397933 (-52)));
     (close_to (n := b64num) (Closeness (lit b64num 5902958103587057 (-69)) (@nmin b64num)) (ireg_at b64num 4 filter_12 (lit b64num 0 0)) (lit b64num (-901840421061389) (-55)));
     (close_to (n := b64num) (Closeness (lit b64num 5902958103587057 (-69)) (@nmin b64num)) (ireg_at b64num 4 filter_12 (lit b64num 5 1)) (lit b64num 5630118779161883 (-49)));
     (close_to (n := b64num) (Closeness (lit b64num 5902958103587057 (-69)) (@nmin b64num)) (ireg_slope b64num 4 filter_13) (lit b64num 2260807012939989 (-51)));
     (close_to (n := b64num) (Closeness (lit b64num 5902958103587057 (-69)) (@nmin b64num)) (ireg_at b64num 4 filter_13 (lit b64num 0 0)) (lit b64num (-5476377146882523) (-57)));
     (close_to (n := b64num) (Closeness (lit b64num 5902958103587057 (-69)) (@nmin b64num)) (ireg_at b64num 4 filter_13 (lit b64num 11 0)) (lit b64num 387239199209685 (-45)));
     (close_to (n := b64num) (Closeness (lit b64num 5902958103587057 (-69)) (@nmin b64num)) (ireg_slope b64num 4 filter_14) (lit b64num 2260807012939989 (-51)));
     (close_to (n := b64num) (Closeness (lit b64num 5902958103587057 (-69)) (@nmin b64num)) (ireg_at b64num 4 filter_14 (lit b64num 0 0)) (lit b64num (-3314649325744685) (-56)));
     (close_to (n := b64num) (Closeness (lit b64num 5902958103587057 (-69)) (@nmin b64num)) (ireg_at b64num 4 filter_14 (lit b64num 3 2)) (lit b64num 6756525340962587 (-49)));
     (close_to (n := b64num) (Closeness (lit b64num 5902958103587057 (-69)) (@nmin b64num)) (ireg_slope b64num 4 filter_15) (lit b64num 2262338236813295 (-51)));
     (close_to (n := b64num) (Closeness (lit b64num 5902958103587057 (-69)) (@nmin b64num)) (ireg_at b64num 4 filter_15 (lit b64num 0 0)) (lit b64num (-3878860287061661) (-56)));
     (close_to (n := b64num) (Closeness (lit b64num 5902958103587057 (-69)) (@nmin b64num)) (ireg_at b64num 4 filter_15 (lit b64num 13 0)) (lit b64num 7322290044151005 (-49)));
     (close_to (n := b64num) (Closeness (lit b64num 5902958103587057 (-69)) (@nmin b64num)) (ireg_slope b64num 4 filter_16) (lit b64num 4515354022397933 (-52)));
     (close_to (n := b64num) (Closeness (lit b64num 5902958103587057 (-69)) (@nmin b64num)) (ireg_at b64num 4 filter_16 (lit b64num 0 0)) (lit b64num (-79862332192161) (-51)));
     (close_to (n := b64num) (Closeness (lit b64num 5902958103587057 (-69)) (@nmin b64num)) (ireg_at b64num 4 filter_16 (lit b64num 7 1)) (lit b64num 7881918592847131 (-49)))]) = true.
Proof. vm_compute. reflexivity. Qed.

(** test/interim/regression_suite.cpp:255 *)
Example interim_regression_double_suite_test_linear_increase_slope_1_relative_error :
  (let filter_1 := ireg_init b64num in
   let filter_2 := ireg_push b64num 4 filter_1 ((lit b64num 0 0), (lit b64num 0 0)) in
   let filter_3 := ireg_push b64num 4 filter_2 ((lit b64num 1 0), (@nmul b64num (lit b64num 1 0) (@nadd b64num (lit b64num 1 0) (lit b64num 5764607523034235 (-59))))) in
   let filter_4 := ireg_push b64num 4 filter_3 ((lit b64num 1 1), (@nmul b64num (lit b64num 1 1) (@nsub b64num (lit b64num 1 0) (lit b64num 5764607523034235 (-59))))) in
   let filter_5 := ireg_push b64num 4 filter_4 ((lit b64num 3 0), (@nmul b64num (lit b64num 3 0) (@nadd b64num (lit b64num 1 0) (lit b64num 5764607523034235 (-59))))) in
   let filter_6 := ireg_push b64num 4 filter_5 ((lit b64num 1 2), (@nmul b64num (lit b64num 1 2) (@nsub b64num (lit b64num 1 0) (lit b64num 5764607523034235 (-59))))) in
   let filter_7 := ireg_push b64num 4 filter_6 ((lit b64num 5 0), (@nmul b64num (lit b64num 5 0) (@nadd b64num (lit b64num 1 0) (lit b64num 5764607523034235 (-59))))) in
   let filter_8 := ireg_push b64num 4 filter_7 ((lit b64num 3 1), (@nmul b64num (lit b64num 3 1) (@nsub b64num (lit b64num 1 0) (lit b64num 5764607523034235 (-59))))) in
   let filter_9 := ireg_push b64num 4 filter_8 ((lit b64num 7 0), (@nmul b64num (lit b64num 7 0) (@nadd b64num (lit b64num 1 0) (lit b64num 5764607523034235 (-59))))) in
   let filter_10 := ireg_push b64num 4 filter_9 ((lit b64num 1 3), (@nmul b64num (lit b64num 1 3) (@nsub b64num (lit b64num 1 0) (lit b64num 5764607523034235 (-59))))) in
   let filter_11 := ireg_push b64num 4 filter_10 ((lit b64num 9 0), (@nmul b64num (lit b64num 9 0) (@nadd b64num (lit b64num 1 0) (lit b64num 5764607523034235 (-59))))) in
   let filter_12 := ireg_push b64num 4 filter_11 ((lit b64num 5 1), (@nmul b64num (lit b64num 5 1) (@nsub b64num (lit b64num 1 0) (lit b64num 5764607523034235 (-59))))) in
   let filter_13 := ireg_push b64num 4 filter_12 ((lit b64num 11 0), (@nmul b64num (lit b64num 11 0) (@nadd b64num (lit b64num 1 0) (lit b64num 5764607523034235 (-59))))) in
   let filter_14 := ireg_push b64num 4 filter_13 ((lit b64num 3 2), (@nmul b64num (lit b64num 3 2) (@nsub b64num (lit b64num 1 0) (lit b64num 5764607523034235 (-59))))) in
   let filter_15 := ireg_push b64num 4 filter_14 ((lit b64num 13 0), (@nmul b64num (lit b64num 13 0) (@nadd b64num (lit b64num 1 0) (lit b64num 5764607523034235 (-59))))) in
   let filter_16 := ireg_push b64num 4 filter_15 ((lit b64num 7 1), (@nmul b64num (lit b64num 7 1) (@nsub b64num (lit b64num 1 0) (lit b64num 5764607523034235 (-59))))) in
   all_true [(close_to (n := b64num) (Closeness (lit b64num 5902958103587057 (-69)) (@nmin b64num)) (ireg_slope b64num 4 filter_2) (lit b64num 0 0));
     (close_to (n := b64num) (Closeness (lit b64num 5902958103587057 (-69)) (@nmin b64num)) (ireg_at b64num 4 filter_2 (lit b64num 0 0)) (lit b64num 0 0));
     (close_to (n := b64num) (Closeness (lit b64num 5902958103587057 (-69)) (@nmin b64num)) (ireg_slope b64num 4 filter_3) (lit b64num 4548635623644201 (-52)));
     (close_to (n := b64num) (Closeness (lit b64num 5902958103587057 (-69)) (@nmin b64num)) (ireg_at b64num 4 filter_3 (lit b64num 0 0)) (lit b64num 0 0));
     (close_to (n := b64num) (Closeness (lit b64num 5902958103587057 (-69)) (@nmin b64num)) (ireg_at b64num 4 filter_3 (lit b64num 1 0)) (lit b64num 4548635623644201 (-52)));
     (close_to (n := b64num) (Closeness (lit b64num 5902958103587057 (-69)) (@nmin b64num)) (ireg_slope b64num 4 filter_4) (lit b64num 4458563631096791 (-52)));
     (close_to (n := b64num) (Closeness (lit b64num 5902958103587057 (-69)) (@nmin b64num)) (ireg_at b64num 4 filter_4 (lit b64num 0 0)) (lit b64num 7686181794762467 (-60)));
     (close_to (n := b64num) (Closeness (lit b64num 5902958103587057 (-69)) (@nmin b64num)) (ireg_at b64num 4 filter_4 (lit b64num 1 1)) (lit b64num 8947166271708143 (-52)));
     (close_to (n := b64num) (Closeness (lit b64num 5902958103587057 (-69)) (@nmin b64num)) (ireg_slope b64num 4 filter_5) (lit b64num 4530621225134719 (-52)));
     (close_to (n := b64num) (Closeness (lit b64num 5902958103587057 (-69)) (@nmin b64num)) (ireg_at b64num 4 filter_5 (lit b64num 0 0)) (lit b64num (-1152921504606847) (-58)));
     (close_to (n := b64num) (Closeness (lit b64num 5902958103587057 (-69)) (@nmin b64num)) (ireg_at b64num 4 filter_5 (lit b64num 3 0)) (lit b64num 6786924638447337 (-51)));
     (close_to (n := b64num) (Closeness (lit b64num 5902958103587057 (-69)) (@nmin b64num)) (ireg_slope b64num 4 filter_6) (lit b64num 4530621225134719 (-52)));
     (close_to (n := b64num) (Closeness (lit b64num 5902958103587057 (-69)) (@nmin b64num)) (ireg_at b64num 4 filter_6 (lit b64num 0 0)) (lit b64num (-8070450532247929) (-58)));
     (close_to (n := b64num) (Closeness (lit b64num 5902958103587057 (-69)) (@nmin b64num)) (ireg_at b64num 4 filter_6 (lit b64num 1 2)) (lit b64num 8998192055486251 (-51)));
     (close_to (n := b64num) (Closeness (lit b64num 5902958103587057 (-69)) (@nmin b64num)) (ireg_slope b64num 4 filter_7) (lit b64num 284168692237777 (-48)));
     (close_to (n := b64num) (Closeness (lit b64num 5902958103587057 (-69)) (@nmin b64num)) (ireg_at b64num 4 filter_7 (lit b64num 0 0)) (lit b64num (-8217620962310993) (-58)));
     (close_to (n := b64num) (Closeness (lit b64num 5902958103587057 (-69)) (@nmin b64num)) (ireg_at b64num 4 filter_7 (lit b64num 5 0)) (lit b64num 5651296956409593 (-50)));
     (close_to (n := b64num) (Closeness (lit b64num 5902958103587057 (-69)) (@nmin b64num)) (ireg_slope b64num 4 filter_8) (lit b64num 4505536175210265 (-52)));
     (close_to (n := b64num) (Closeness (lit b64num 5902958103587057 (-69)) (@nmin b64num)) (ireg_at b64num 4 filter_8 (lit b64num 0 0)) (lit b64num (-1118910320220945) (-56)));
     (close_to (n := b64num) (Closeness (lit b64num 5902958103587057 (-69)) (@nmin b64num)) (ireg_at b64num 4 filter_8 (lit b64num 3 1)) (lit b64num 6740852814259337 (-50)));
     (close_to (n := b64num) (Closeness (lit b64num 5902958103587057 (-69)) (@nmin b64num)) (ireg_slope b64num 4 filter_9) (lit b64num 287022848501623 (-48)));
     (close_to (n := b64num) (Closeness (lit b64num 5902958103587057 (-69)) (@nmin b64num)) (ireg_at b64num 4 filter_9 (lit b64num 0 0)) (lit b64num (-465802805859303) (-52)));
     (close_to (n := b64num) (Closeness (lit b64num 5902958103587057 (-69)) (@nmin b64num)) (ireg_at b64num 4 filter_9 (lit b64num 7 0)) (lit b64num 3960110853838959 (-49)));
     (close_to (n := b64num) (Closeness (lit b64num 5902958103587057 (-69)) (@nmin b64num)) (ireg_slope b64num 4 filter_10) (lit b64num 4602678819172647 (-52)));
     (close_to (n := b64num) (Closeness (lit b64num 5902958103587057 (-69)) (@nmin b64num)) (ireg_at b64num 4 filter_10 (lit b64num 0 0)) (lit b64num (-3098476543630901) (-54)));
     (close_to (n := b64num) (Closeness (lit b64num 5902958103587057 (-69)) (@nmin b64num)) (ireg_at b64num 4 filter_10 (lit b64num 1 3)) (lit b64num 4505851427184181 (-49)));
     (close_to (n := b64num) (Closeness (lit b64num 5902958103587057 (-69)) (@nmin b64num)) (ireg_slope b64num 4 filter_11) (lit b64num 4631051496825081 (-52)));
     (close_to (n := b64num) (Closeness (lit b64num 5902958103587057 (-69)) (@nmin b64num)) (ireg_at b64num 4 filter_11 (lit b64num 0 0)) (lit b64num (-7466391721427979) (-55)));
     (close_to (n := b64num) (Closeness (lit b64num 5902958103587057 (-69)) (@nmin b64num)) (ireg_at b64num 4 filter_11 (lit b64num 9 0)) (lit b64num 5093261556081649 (-49)));
     (close_to (n := b64num) (Closeness (lit b64num 5902958103587057 (-69)) (@nmin b64num)) (ireg_slope b64num 4 filter_12) (lit b64num 4552553755320013 (-52)));
     (close_to (n := b64num) (Closeness (lit b64num 5902958103587057 (-69)) (@nmin b64num)) (ireg_at b64num 4 filter_12 (lit b64num 0 0)) (lit b64num (-4229456510853199) (-55)));
     (close_to (n := b64num) (Closeness (lit b64num 5902958103587057 (-69)) (@nmin b64num)) (ireg_at b64num 4 filter_12 (lit b64num 5 1)) (lit b64num 5624601869618355 (-49)));
     (close_to (n := b64num) (Closeness (lit b64num 5902958103587057 (-69)) (@nmin b64num)) (ireg_slope b64num 4 filter_13) (lit b64num 583052896257987 (-49)));
     (close_to (n := b64num) (Closeness (lit b64num 5902958103587057 (-69)) (@nmin b64num)) (ireg_at b64num 4 filter_13 (lit b64num 0 0)) (lit b64num (-6021961220140695) (-54)));
     (close_to (n := b64num) (Closeness (lit b64num 5902958103587057 (-69)) (@nmin b64num)) (ireg_at b64num 4 filter_13 (lit b64num 11 0)) (lit b64num 6225438354904921 (-49)));
     (close_to (n := b64num) (Closeness (lit b64num 5902958103587057 (-69)) (@nmin b64num)) (ireg_slope b64num 4 filter_14) (lit b64num 4674736413210575 (-52)));
     (close_to (n := b64num) (Closeness (lit b64num 5902958103587057 (-69)) (@nmin b64num)) (ireg_at b64num 4 filter_14 (lit b64num 0 0)) (lit b64num (-7998392938210001) (-54)));
     (close_to (n := b64num) (Closeness (lit b64num 5902958103587057 (-69)) (@nmin b64num)) (ireg_at b64num 4 filter_14 (lit b64num 3 2)) (lit b64num 211317338765525 (-44)));
     (close_to (n := b64num) (Closeness (lit b64num 5902958103587057 (-69)) (@nmin b64num)) (ireg_slope b64num 4 filter_15) (lit b64num 4715358881849457 (-52)));
     (close_to (n := b64num) (Closeness (lit b64num 5902958103587057 (-69)) (@nmin b64num)) (ireg_at b64num 4 filter_15 (lit b64num 0 0)) (lit b64num (-4825561964731213) (-53)));
     (close_to (n := b64num) (Closeness (lit b64num 5902958103587057 (-69)) (@nmin b64num)) (ireg_at b64num 4 filter_15 (lit b64num 13 0)) (lit b64num 7360852115960365 (-49)));
     (close_to (n := b64num) (Closeness (lit b64num 5902958103587057 (-69)) (@nmin b64num)) (ireg_slope b64num 4 filter_16) (lit b64num 287470393714593 (-48)));
     (close_to (n := b64num) (Closeness (lit b64num 5902958103587057 (-69)) (@nmin b64num)) (ireg_at b64num 4 filter_16 (lit b64num 0 0)) (lit b64num (-5453552903971009) (-54)));
     (close_to (n := b64num) (Closeness (lit b64num 5902958103587057 (-69)) (@nmin b64num)) (ireg_at b64num 4 filter_16 (lit b64num 7 1)) (lit b64num 1969691518276993 (-47)))]) = true.
Proof. vm_compute. reflexivity. Qed.

(** test/interim/regression_suite.cpp:340 *)
Example interim_regression_double_suite_test_exponential_increase :
  (let filter_1 := ireg_init b64num in
   let filter_2 := ireg_push b64num 4 filter_1 ((lit b64num 1 0), (lit b64num 1 0)) in
   let filter_3 := ireg_push b64num 4 filter_2 ((lit b64num 5 1), (lit b64num 5 1)) in
   let filter_4 := ireg_push b64num 4 filter_3 ((lit b64num 25 2), (lit b64num 25 2)) in
   let filter_5 := ireg_push b64num 4 filter_4 ((lit b64num 125 3), (lit b64num 125 3)) in
   let filter_6 := ireg_push b64num 4 filter_5 ((lit b64num 625 4), (lit b64num 625 4)) in
   let filter_7 := ireg_push b64num 4 filter_6 ((lit b64num 3125 5), (lit b64num 3125 5)) in
   let filter_8 := ireg_push b64num 4 filter_7 ((lit b64num 15625 6), (lit b64num 15625 6)) in
   all_true [(close_to (n := b64num) (Closeness (lit b64num 5902958103587057 (-69)) (@nmin b64num)) (ireg_slope b64num 4 filter_2) (lit b64num 0 0));
     (close_to (n := b64num) (Closeness (lit b64num 5902958103587057 (-69)) (@nmin b64num)) (ireg_at b64num 4 filter_2 (lit b64num 0 0)) (lit b64num 1 0));
     (close_to (n := b64num) (Closeness (lit b64num 5902958103587057 (-69)) (@nmin b64num)) (ireg_slope b64num 4 filter_3) (lit b64num 1 0));
     (close_to (n := b64num) (Closeness (lit b64num 5902958103587057 (-69)) (@nmin b64num)) (ireg_at b64num 4 filter_3 (lit b64num 0 0)) (lit b64num 0 0));
     (close_to (n := b64num) (Closeness (lit b64num 5902958103587057 (-69)) (@nmin b64num)) (ireg_slope b64num 4 filter_4) (lit b64num 1 0));
     (close_to (n := b64num) (Closeness (lit b64num 5902958103587057 (-69)) (@nmin b64num)) (ireg_at b64num 4 filter_4 (lit b64num 0 0)) (lit b64num 0 0));
     (close_to (n := b64num) (Closeness (lit b64num 5902958103587057 (-69)) (@nmin b64num)) (ireg_slope b64num 4 filter_5) (lit b64num 1 0));
     (close_to (n := b64num) (Closeness (lit b64num 5902958103587057 (-69)) (@nmin b64num)) (ireg_at b64num 4 filter_5 (lit b64num 0 0)) (lit b64num 0 0));
     (close_to (n := b64num) (Closeness (lit b64num 5902958103587057 (-69)) (@nmin b64num)) (ireg_slope b64num 4 filter_6) (lit b64num 1 0));
     (close_to (n := b64num) (Closeness (lit b64num 5902958103587057 (-69)) (@nmin b64num)) (ireg_at b64num 4 filter_6 (lit b64num 0 0)) (lit b64num 0 0));
     (close_to (n := b64num) (Closeness (lit b64num 5902958103587057 (-69)) (@nmin b64num)) (ireg_slope b64num 4 filter_7) (lit b64num 1 0));
     (close_to (n := b64num) (Closeness (lit b64num 5902958103587057 (-69)) (@nmin b64num)) (ireg_at b64num 4 filter_7 (lit b64num 0 0)) (lit b64num 0 0));
     (close_to (n := b64num) (Closeness (lit b64num 5902958103587057 (-69)) (@nmin b64num)) (ireg_slope b64num 4 filter_8) (lit b64num 1 0));
     (close_to (n := b64num) (Closeness (lit b64num 5902958103587057 (-69)) (@nmin b64num)) (ireg_at b64num 4 filter_8 (lit b64num 0 0)) (lit b64num 0 0))]) = true.
Proof. vm_compute. reflexivity. Qed.

(** test/interim/regression_suite.cpp:376 *)
Example interim_regression_double_suite_test_scatter :
  (let filter_1 := ireg_init b64num in
   let filter_2 := ireg_push b64num 4 filter_1 ((lit b64num 1 0), (lit b64num 1 0)) in
   let filter_3 := ireg_push b64num 4 filter_2 ((lit b64num 1 1), (lit b64num 1 1)) in
   let filter_4 := ireg_push b64num 4 filter_3 ((lit b64num 3 0), (lit b64num 5854679515581645 (-52))) in
   let filter_5 := ireg_push b64num 4 filter_4 ((lit b64num 1 2), (lit b64num 15 (-2))) in
   let filter_6 := ireg_push b64num 4 filter_5 ((lit b64num 5 0), (lit b64num 9 (-2))) in
   let filter_7 := ireg_push b64num 4 filter_6 ((lit b64num 3 1), (lit b64num 9 (-1))) in
   let filter_8 := ireg_push b64num 4 filter_7 ((lit b64num 7 0), (lit b64num 9 (-1))) in
   all_true [(close_to (n := b64num) (Closeness (lit b64num 5902958103587057 (-69)) (@nmin b64num)) (ireg_slope b64num 4 filter_2) (lit b64num 0 0));
     (close_to (n := b64num) (Closeness (lit b64num 5902958103587057 (-69)) (@nmin b64num)) (ireg_at b64num 4 filter_2 (lit b64num 0 0)) (lit b64num 1 0));
     (close_to (n := b64num) (Closeness (lit b64num 5902958103587057 (-69)) (@nmin b64num)) (ireg_at b64num 4 filter_2 (lit b64num 1 0)) (lit b64num 1 0));
     (close_to (n := b64num) (Closeness (lit b64num 5902958103587057 (-69)) (@nmin b64num)) (ireg_slope b64num 4 filter_3) (lit b64num 1 0));
     (close_to (n := b64num) (Closeness (lit b64num 5902958103587057 (-69)) (@nmin b64num)) (ireg_at b64num 4 filter_3 (lit b64num 0 0)) (lit b64num 0 0));
     (close_to (n := b64num) (Closeness (lit b64num 5902958103587057 (-69)) (@nmin b64num)) (ireg_at b64num 4 filter_3 (lit b64num 1 1)) (lit b64num 1 1));
     (close_to (n := b64num) (Closeness (lit b64num 5902958103587057 (-69)) (@nmin b64num)) (ireg_slope b64num 4 filter_4) (lit b64num 5404319552844595 (-55)));
     (close_to (n := b64num) (Closeness (lit b64num 5902958103587057 (-69)) (@nmin b64num)) (ireg_at b64num 4 filter_4 (lit b64num 0 0)) (lit b64num 1276016141421951 (-50)));
     (close_to (n := b64num) (Closeness (lit b64num 5902958103587057 (-69)) (@nmin b64num)) (ireg_at b64num 4 filter_4 (lit b64num 3 0)) (lit b64num 7130684398004527 (-52)));
     (close_to (n := b64num) (Closeness (lit b64num 5902958103587057 (-69)) (@nmin b64num)) (ireg_slope b64num 4 filter_5) (lit b64num 6800435437329449 (-53)));
     (close_to (n := b64num) (Closeness (lit b64num 5902958103587057 (-69)) (@nmin b64num)) (ireg_at b64num 4 filter_5 (lit b64num 0 0)) (lit b64num 1 (-3)));
     (close_to (n := b64num) (Closeness (lit b64num 5902958103587057 (-69)) (@nmin b64num)) (ireg_at b64num 4 filter_5 (lit b64num 1 2)) (lit b64num 7081910414040105 (-51)));
     (close_to (n := b64num) (Closeness (lit b64num 5902958103587057 (-69)) (@nmin b64num)) (ireg_slope b64num 4 filter_6) (lit b64num 6800435437329449 (-53)));
     (close_to (n := b64num) (Closeness (lit b64num 5902958103587057 (-69)) (@nmin b64num)) (ireg_at b64num 4 filter_6 (lit b64num 0 0)) (lit b64num (-4818851601286431) (-53)));
     (close_to (n := b64num) (Closeness (lit b64num 5902958103587057 (-69)) (@nmin b64num)) (ireg_at b64num 4 filter_6 (lit b64num 5 0)) (lit b64num 1823957849085051 (-49)));
     (close_to (n := b64num) (Closeness (lit b64num 5902958103587057 (-69)) (@nmin b64num)) (ireg_slope b64num 4 filter_7) (lit b64num 7373446432318307 (-53)));
     (close_to (n := b64num) (Closeness (lit b64num 5902958103587057 (-69)) (@nmin b64num)) (ireg_at b64num 4 filter_7 (lit b64num 0 0)) (lit b64num (-6871979621009857) (-53)));
     (close_to (n := b64num) (Closeness (lit b64num 5902958103587057 (-69)) (@nmin b64num)) (ireg_at b64num 4 filter_7 (lit b64num 3 1)) (lit b64num 4671088497512405 (-50)));
     (close_to (n := b64num) (Closeness (lit b64num 5902958103587057 (-69)) (@nmin b64num)) (ireg_slope b64num 4 filter_8) (lit b64num 1989906488154399 (-51)));
     (close_to (n := b64num) (Closeness (lit b64num 5902958103587057 (-69)) (@nmin b64num)) (ireg_at b64num 4 filter_8 (lit b64num 0 0)) (lit b64num (-3059160118883957) (-51)));
     (close_to (n := b64num) (Closeness (lit b64num 5902958103587057 (-69)) (@nmin b64num)) (ireg_at b64num 4 filter_8 (lit b64num 7 0)) (lit b64num 1358772599324651 (-48)))]) = true.
Proof. vm_compute. reflexivity. Qed.

