(** * Conformance with test/decay/moment_suite.cpp

    Generated by tools/mkconformance.py: the unit tests of the repository,
    executed on the model.  These are tests of the transcription, not proofs of
    properties. *)

From Coq Require Import ZArith NArith Bool List QArith.
From Verif Require Import Arith Decay CloseTo Conformance.
Import ListNotations.
Local Open Scope Z_scope.

(** test/decay/moment_suite.cpp:27 *)
Example decay_moment_mean_double_suite_test_ctor :
  (let filter_1 := dmean_init b64num (lit b64num 1 (-3)) in
   all_true [(neq (n := b64num) (dmean_mean b64num filter_1) (lit b64num 0 0));
     (neq (n := b64num) (dmean_mean b64num filter_1) (lit b64num 0 0));
     (neq (n := b64num) (dmean_mean b64num filter_1) (lit b64num 0 0))]) = true.
Proof. vm_compute. reflexivity. Qed.

(** test/decay/moment_suite.cpp:41 *)
Example decay_moment_mean_double_suite_test_same :
  (let filter_1 := dmean_init b64num (lit b64num 1 (-3)) in
   let filter_2 := dmean_push b64num filter_1 (lit b64num 1 0) in
   let filter_3 := dmean_push b64num filter_2 (lit b64num 1 0) in
   let filter_4 := dmean_push b64num filter_3 (lit b64num 1 0) in
   all_true [(neq (n := b64num) (dmean_mean b64num filter_2) (lit b64num 1 0));
     (neq (n := b64num) (dmean_mean b64num filter_3) (lit b64num 1 0));
     (neq (n := b64num) (dmean_mean b64num filter_4) (lit b64num 1 0))]) = true.
Proof. vm_compute. reflexivity. Qed.

(** test/decay/moment_suite.cpp:52 *)
Example decay_moment_mean_double_suite_test_alternating :
  (let filter_1 := dmean_init b64num (lit b64num 1 (-3)) in
   let filter_2 := dmean_push b64num filter_1 (lit b64num 1 0) in
   let filter_3 := dmean_push b64num filter_2 (lit b64num 1 1) in
   let filter_4 := dmean_push b64num filter_3 (lit b64num 1 0) in
   let filter_5 := dmean_push b64num filter_4 (lit b64num 1 1) in
   let filter_6 := dmean_push b64num filter_5 (lit b64num 1 0) in
   let filter_7 := dmean_push b64num filter_6 (lit b64num 1 1) in
   let filter_8 := dmean_push b64num filter_7 (lit b64num 1 0) in
   let filter_9 := dmean_push b64num filter_8 (lit b64num 1 1) in
   let filter_10 := dmean_push b64num filter_9 (lit b64num 1 0) in
   let filter_11 := dmean_push b64num filter_10 (lit b64num 1 1) in
   let filter_12 := dmean_push b64num filter_11 (lit b64num 1 0) in
   let filter_13 := dmean_push b64num filter_12 (lit b64num 1 1) in
   let filter_14 := dmean_push b64num filter_13 (lit b64num 1 0) in
   let filter_15 := dmean_push b64num filter_14 (lit b64num 1 1) in
   let filter_16 := dmean_push b64num filter_15 (lit b64num 1 0) in
   let filter_17 := dmean_push b64num filter_16 (lit b64num 1 1) in
   let filter_18 := dmean_push b64num filter_17 (lit b64num 1 0) in
   let filter_19 := dmean_push b64num filter_18 (lit b64num 1 1) in
   let filter_20 := dmean_push b64num filter_19 (lit b64num 1 0) in
   let filter_21 := dmean_push b64num filter_20 (lit b64num 1 1) in
   let filter_22 := dmean_push b64num filter_21 (lit b64num 125 3) in
   let filter_23 := dmean_push b64num filter_22 (lit b64num 1 1) in
   let filter_24 := dmean_push b64num filter_23 (lit b64num 1 0) in
   let filter_25 := dmean_push b64num filter_24 (lit b64num 1 1) in
   let filter_26 := dmean_push b64num filter_25 (lit b64num 1 0) in
   let filter_27 := dmean_push b64num filter_26 (lit b64num 1 1) in
   all_true [(close_to (n := b64num) (Closeness (lit b64num 5902958103587057 (-69)) (@nmin b64num)) (dmean_mean b64num filter_2) (lit b64num 1 0));
     (close_to (n := b64num) (Closeness (lit b64num 5902958103587057 (-69)) (@nmin b64num)) (dmean_mean b64num filter_3) (lit b64num 6905504416636003 (-52)));
     (close_to (n := b64num) (Closeness (lit b64num 5902958103587057 (-69)) (@nmin b64num)) (dmean_mean b64num filter_4) (lit b64num 374744524993499 (-48)));
     (close_to (n := b64num) (Closeness (lit b64num 5902958103587057 (-69)) (@nmin b64num)) (dmean_mean b64num filter_5) (lit b64num 6905504416636003 (-52)));
     (close_to (n := b64num) (Closeness (lit b64num 5902958103587057 (-69)) (@nmin b64num)) (dmean_mean b64num filter_6) (lit b64num 6289141771634077 (-52)));
     (close_to (n := b64num) (Closeness (lit b64num 5902958103587057 (-69)) (@nmin b64num)) (dmean_mean b64num filter_7) (lit b64num 6905504416636003 (-52)));
     (close_to (n := b64num) (Closeness (lit b64num 5902958103587057 (-69)) (@nmin b64num)) (dmean_mean b64num filter_8) (lit b64num 6411144285539543 (-52)));
     (close_to (n := b64num) (Closeness (lit b64num 5902958103587057 (-69)) (@nmin b64num)) (dmean_mean b64num filter_9) (lit b64num 6905504416636003 (-52)));
     (close_to (n := b64num) (Closeness (lit b64num 5902958103587057 (-69)) (@nmin b64num)) (dmean_mean b64num filter_10) (lit b64num 6476221300155047 (-52)));
     (close_to (n := b64num) (Closeness (lit b64num 5902958103587057 (-69)) (@nmin b64num)) (dmean_mean b64num filter_11) (lit b64num 6905504416636003 (-52)));
     (close_to (n := b64num) (Closeness (lit b64num 5902958103587057 (-69)) (@nmin b64num)) (dmean_mean b64num filter_12) (lit b64num 3257746344452859 (-51)));
     (close_to (n := b64num) (Closeness (lit b64num 5902958103587057 (-69)) (@nmin b64num)) (dmean_mean b64num filter_13) (lit b64num 6905504416636003 (-52)));
     (close_to (n := b64num) (Closeness (lit b64num 5902958103587057 (-69)) (@nmin b64num)) (dmean_mean b64num filter_14) (lit b64num 1635257024698227 (-50)));
     (close_to (n := b64num) (Closeness (lit b64num 5902958103587057 (-69)) (@nmin b64num)) (dmean_mean b64num filter_15) (lit b64num 6905504416636003 (-52)));
     (close_to (n := b64num) (Closeness (lit b64num 5902958103587057 (-69)) (@nmin b64num)) (dmean_mean b64num filter_16) (lit b64num 409903564334427 (-48)));
     (close_to (n := b64num) (Closeness (lit b64num 5902958103587057 (-69)) (@nmin b64num)) (dmean_mean b64num filter_17) (lit b64num 6905504416636003 (-52)));
     (close_to (n := b64num) (Closeness (lit b64num 5902958103587057 (-69)) (@nmin b64num)) (dmean_mean b64num filter_18) (lit b64num 51333647033885 (-45)));
     (close_to (n := b64num) (Closeness (lit b64num 5902958103587057 (-69)) (@nmin b64num)) (dmean_mean b64num filter_19) (lit b64num 6905504416636003 (-52)));
     (close_to (n := b64num) (Closeness (lit b64num 5902958103587057 (-69)) (@nmin b64num)) (dmean_mean b64num filter_20) (lit b64num 1644872209902663 (-50)));
     (close_to (n := b64num) (Closeness (lit b64num 5902958103587057 (-69)) (@nmin b64num)) (dmean_mean b64num filter_21) (lit b64num 6905504416636003 (-52)));
     (close_to (n := b64num) (Closeness (lit b64num 5902958103587057 (-69)) (@nmin b64num)) (dmean_mean b64num filter_22) (lit b64num 2364161105950933 (-44)));
     (close_to (n := b64num) (Closeness (lit b64num 5902958103587057 (-69)) (@nmin b64num)) (dmean_mean b64num filter_23) (lit b64num 8227020988043231 (-46)));
     (close_to (n := b64num) (Closeness (lit b64num 5902958103587057 (-69)) (@nmin b64num)) (dmean_mean b64num filter_24) (lit b64num 1789459572251951 (-44)));
     (close_to (n := b64num) (Closeness (lit b64num 5902958103587057 (-69)) (@nmin b64num)) (dmean_mean b64num filter_25) (lit b64num 6243621638400429 (-46)));
     (close_to (n := b64num) (Closeness (lit b64num 5902958103587057 (-69)) (@nmin b64num)) (dmean_mean b64num filter_26) (lit b64num 2721782100736239 (-45)));
     (close_to (n := b64num) (Closeness (lit b64num 5902958103587057 (-69)) (@nmin b64num)) (dmean_mean b64num filter_27) (lit b64num 2379730190600241 (-45)))]) = true.
Proof. vm_compute. reflexivity. Qed.

(** test/decay/moment_suite.cpp:119 *)
Example decay_moment_mean_double_suite_test_linear_increase :
  (let filter_1 := dmean_init b64num (lit b64num 1 (-3)) in
   let filter_2 := dmean_push b64num filter_1 (lit b64num 1 0) in
   let filter_3 := dmean_push b64num filter_2 (lit b64num 1 1) in
   let filter_4 := dmean_push b64num filter_3 (lit b64num 3 0) in
   let filter_5 := dmean_push b64num filter_4 (lit b64num 1 2) in
   let filter_6 := dmean_push b64num filter_5 (lit b64num 5 0) in
   let filter_7 := dmean_push b64num filter_6 (lit b64num 3 1) in
   let filter_8 := dmean_push b64num filter_7 (lit b64num 7 0) in
   let filter_9 := dmean_push b64num filter_8 (lit b64num 1 3) in
   let filter_10 := dmean_push b64num filter_9 (lit b64num 9 0) in
   let filter_11 := dmean_push b64num filter_10 (lit b64num 5 1) in
   all_true [(close_to (n := b64num) (Closeness (lit b64num 5902958103587057 (-69)) (@nmin b64num)) (dmean_mean b64num filter_2) (lit b64num 1 0));
     (close_to (n := b64num) (Closeness (lit b64num 5902958103587057 (-69)) (@nmin b64num)) (dmean_mean b64num filter_3) (lit b64num 6905504416636003 (-52)));
     (close_to (n := b64num) (Closeness (lit b64num 5902958103587057 (-69)) (@nmin b64num)) (dmean_mean b64num filter_4) (lit b64num 4703469378833199 (-51)));
     (close_to (n := b64num) (Closeness (lit b64num 5902958103587057 (-69)) (@nmin b64num)) (dmean_mean b64num filter_5) (lit b64num 3001739223634983 (-50)));
     (close_to (n := b64num) (Closeness (lit b64num 5902958103587057 (-69)) (@nmin b64num)) (dmean_mean b64num filter_6) (lit b64num 459510714229913 (-47)));
     (close_to (n := b64num) (Closeness (lit b64num 5902958103587057 (-69)) (@nmin b64num)) (dmean_mean b64num filter_7) (lit b64num 4374402613060305 (-50)));
     (close_to (n := b64num) (Closeness (lit b64num 5902958103587057 (-69)) (@nmin b64num)) (dmean_mean b64num filter_8) (lit b64num 5096217043337111 (-50)));
     (close_to (n := b64num) (Closeness (lit b64num 5902958103587057 (-69)) (@nmin b64num)) (dmean_mean b64num filter_9) (lit b64num 5841011090712575 (-50)));
     (close_to (n := b64num) (Closeness (lit b64num 5902958103587057 (-69)) (@nmin b64num)) (dmean_mean b64num filter_10) (lit b64num 3304088384618501 (-49)));
     (close_to (n := b64num) (Closeness (lit b64num 5902958103587057 (-69)) (@nmin b64num)) (dmean_mean b64num filter_11) (lit b64num 924632632120553 (-47)))]) = true.
Proof. vm_compute. reflexivity. Qed.

(** test/decay/moment_suite.cpp:146 *)
Example decay_moment_mean_double_suite_test_linear_decrease :
  (let filter_1 := dmean_init b64num (lit b64num 1 (-3)) in
   let filter_2 := dmean_push b64num filter_1 (lit b64num 5 1) in
   let filter_3 := dmean_push b64num filter_2 (lit b64num 9 0) in
   let filter_4 := dmean_push b64num filter_3 (lit b64num 1 3) in
   let filter_5 := dmean_push b64num filter_4 (lit b64num 7 0) in
   let filter_6 := dmean_push b64num filter_5 (lit b64num 3 1) in
   let filter_7 := dmean_push b64num filter_6 (lit b64num 5 0) in
   let filter_8 := dmean_push b64num filter_7 (lit b64num 1 2) in
   let filter_9 := dmean_push b64num filter_8 (lit b64num 3 0) in
   let filter_10 := dmean_push b64num filter_9 (lit b64num 1 1) in
   let filter_11 := dmean_push b64num filter_10 (lit b64num 1 0) in
   all_true [(close_to (n := b64num) (Closeness (lit b64num 5902958103587057 (-69)) (@nmin b64num)) (dmean_mean b64num filter_2) (lit b64num 5 1));
     (close_to (n := b64num) (Closeness (lit b64num 5902958103587057 (-69)) (@nmin b64num)) (dmean_mean b64num filter_3) (lit b64num 1332315358888733 (-47)));
     (close_to (n := b64num) (Closeness (lit b64num 5902958103587057 (-69)) (@nmin b64num)) (dmean_mean b64num filter_4) (lit b64num 1254145535731533 (-47)));
     (close_to (n := b64num) (Closeness (lit b64num 5902958103587057 (-69)) (@nmin b64num)) (dmean_mean b64num filter_5) (lit b64num 4691579875816941 (-49)));
     (close_to (n := b64num) (Closeness (lit b64num 5902958103587057 (-69)) (@nmin b64num)) (dmean_mean b64num filter_6) (lit b64num 1088601657678695 (-47)));
     (close_to (n := b64num) (Closeness (lit b64num 5902958103587057 (-69)) (@nmin b64num)) (dmean_mean b64num filter_7) (lit b64num 8010496362208559 (-50)));
     (close_to (n := b64num) (Closeness (lit b64num 5902958103587057 (-69)) (@nmin b64num)) (dmean_mean b64num filter_8) (lit b64num 7288681931931753 (-50)));
     (close_to (n := b64num) (Closeness (lit b64num 5902958103587057 (-69)) (@nmin b64num)) (dmean_mean b64num filter_9) (lit b64num 6543887884556289 (-50)));
     (close_to (n := b64num) (Closeness (lit b64num 5902958103587057 (-69)) (@nmin b64num)) (dmean_mean b64num filter_10) (lit b64num 2888361103015931 (-49)));
     (close_to (n := b64num) (Closeness (lit b64num 5902958103587057 (-69)) (@nmin b64num)) (dmean_mean b64num filter_11) (lit b64num 623479739788055 (-47)))]) = true.
Proof. vm_compute. reflexivity. Qed.

(** test/decay/moment_suite.cpp:173 *)
Example decay_moment_mean_double_suite_test_exponential_increase :
  (let filter_1 := dmean_init b64num (lit b64num 1 (-3)) in
   let filter_2 := dmean_push b64num filter_1 (lit b64num 1 0) in
   let filter_3 := dmean_push b64num filter_2 (lit b64num 5 1) in
   let filter_4 := dmean_push b64num filter_3 (lit b64num 25 2) in
   let filter_5 := dmean_push b64num filter_4 (lit b64num 125 3) in
   let filter_6 := dmean_push b64num filter_5 (lit b64num 625 4) in
   let filter_7 := dmean_push b64num filter_6 (lit b64num 3125 5) in
   let filter_8 := dmean_push b64num filter_7 (lit b64num 15625 6) in
   let filter_9 := dmean_push b64num filter_8 (lit b64num 78125 7) in
   let filter_10 := dmean_push b64num filter_9 (lit b64num 390625 8) in
   let filter_11 := dmean_push b64num filter_10 (lit b64num 1953125 9) in
   all_true [(neq (n := b64num) (dmean_mean b64num filter_2) (lit b64num 1 0));
     (close_to (n := b64num) (Closeness (lit b64num 5902958103587057 (-69)) (@nmin b64num)) (dmean_mean b64num filter_3) (lit b64num 6530219459687219 (-50)));
     (close_to (n := b64num) (Closeness (lit b64num 5902958103587057 (-69)) (@nmin b64num)) (dmean_mean b64num filter_4) (lit b64num 2918402927280259 (-46)));
     (close_to (n := b64num) (Closeness (lit b64num 5902958103587057 (-69)) (@nmin b64num)) (dmean_mean b64num filter_5) (lit b64num 1455797375640535 (-42)));
     (close_to (n := b64num) (Closeness (lit b64num 5902958103587057 (-69)) (@nmin b64num)) (dmean_mean b64num filter_6) (lit b64num 6184357082054001 (-41)));
     (close_to (n := b64num) (Closeness (lit b64num 5902958103587057 (-69)) (@nmin b64num)) (dmean_mean b64num filter_7) (lit b64num 6831320718953677 (-38)));
     (close_to (n := b64num) (Closeness (lit b64num 5902958103587057 (-69)) (@nmin b64num)) (dmean_mean b64num filter_8) (lit b64num 225565 0));
     (close_to (n := b64num) (Closeness (lit b64num 5902958103587057 (-69)) (@nmin b64num)) (dmean_mean b64num filter_9) (lit b64num 130435 4));
     (close_to (n := b64num) (Closeness (lit b64num 5902958103587057 (-69)) (@nmin b64num)) (dmean_mean b64num filter_10) (lit b64num 4896975 2));
     (close_to (n := b64num) (Closeness (lit b64num 5902958103587057 (-69)) (@nmin b64num)) (dmean_mean b64num filter_11) (lit b64num 23236125 3))]) = true.
Proof. vm_compute. reflexivity. Qed.

(** test/decay/moment_suite.cpp:200 *)
Example decay_moment_mean_double_suite_test_clear :
  (let filter_1 := dmean_init b64num (lit b64num 1 (-3)) in
   let filter_2 := dmean_push b64num filter_1 (lit b64num 1 0) in
   let filter_3 := dmean_clear b64num filter_2 in
   all_true [(neq (n := b64num) (dmean_mean b64num filter_2) (lit b64num 1 0));
     (neq (n := b64num) (dmean_mean b64num filter_3) (lit b64num 0 0))]) = true.
Proof. vm_compute. reflexivity. Qed.

(** test/decay/moment_suite.cpp:227 *)
Example decay_moment_mean_float_suite_test_ctor :
  (let filter_1 := dmean_init b32num (lit b32num 1 (-3)) in
   all_true [(neq (n := b32num) (dmean_mean b32num filter_1) (lit b32num 0 0))]) = true.
Proof. vm_compute. reflexivity. Qed.

(** test/decay/moment_suite.cpp:233 *)
Example decay_moment_mean_float_suite_test_same :
  (let filter_1 := dmean_init b32num (lit b32num 1 (-3)) in
   let filter_2 := dmean_push b32num filter_1 (lit b32num 1 0) in
   let filter_3 := dmean_push b32num filter_2 (lit b32num 1 0) in
   let filter_4 := dmean_push b32num filter_3 (lit b32num 1 0) in
   all_true [(neq (n := b32num) (dmean_mean b32num filter_2) (lit b32num 1 0));
     (neq (n := b32num) (dmean_mean b32num filter_3) (lit b32num 1 0));
     (neq (n := b32num) (dmean_mean b32num filter_4) (lit b32num 1 0))]) = true.
Proof. vm_compute. reflexivity. Qed.

(** test/decay/moment_suite.cpp:244 *)
Example decay_moment_mean_float_suite_test_linear_increase :
  (let filter_1 := dmean_init b32num (lit b32num 1 (-3)) in
   let filter_2 := dmean_push b32num filter_1 (lit b32num 1 0) in
   let filter_3 := dmean_push b32num filter_2 (lit b32num 1 1) in
   let filter_4 := dmean_push b32num filter_3 (lit b32num 3 0) in
   let filter_5 := dmean_push b32num filter_4 (lit b32num 1 2) in
   let filter_6 := dmean_push b32num filter_5 (lit b32num 3 1) in
   let filter_7 := dmean_push b32num filter_6 (lit b32num 5 0) in
   let filter_8 := dmean_push b32num filter_7 (lit b32num 7 0) in
   let filter_9 := dmean_push b32num filter_8 (lit b32num 1 3) in
   let filter_10 := dmean_push b32num filter_9 (lit b32num 9 0) in
   let filter_11 := dmean_push b32num filter_10 (lit b32num 5 1) in
   all_true [(neq (n := b32num) (dmean_mean b32num filter_2) (lit b32num 1 0));
     (close_to (n := b32num) (Closeness (lit b32num 5902958103587057 (-69)) (@nmin b32num)) (dmean_mean b32num filter_3) (lit b32num 6905504416636003 (-52)));
     (close_to (n := b32num) (Closeness (lit b32num 5902958103587057 (-69)) (@nmin b32num)) (dmean_mean b32num filter_4) (lit b32num 4703469378833199 (-51)));
     (close_to (n := b32num) (Closeness (lit b32num 5902958103587057 (-69)) (@nmin b32num)) (dmean_mean b32num filter_5) (lit b32num 3001739223634983 (-50)));
     (close_to (n := b32num) (Closeness (lit b32num 5902958103587057 (-69)) (@nmin b32num)) (dmean_mean b32num filter_6) (lit b32num 3965025406932327 (-50)));
     (close_to (n := b32num) (Closeness (lit b32num 5902958103587057 (-69)) (@nmin b32num)) (dmean_mean b32num filter_7) (lit b32num 8684966701402633 (-51)));
     (close_to (n := b32num) (Closeness (lit b32num 5902958103587057 (-69)) (@nmin b32num)) (dmean_mean b32num filter_8) (lit b32num 1267718259108521 (-48)));
     (close_to (n := b32num) (Closeness (lit b32num 5902958103587057 (-69)) (@nmin b32num)) (dmean_mean b32num filter_9) (lit b32num 2910242967705417 (-49)));
     (close_to (n := b32num) (Closeness (lit b32num 5902958103587057 (-69)) (@nmin b32num)) (dmean_mean b32num filter_10) (lit b32num 411957627976973 (-46)));
     (close_to (n := b32num) (Closeness (lit b32num 5902958103587057 (-69)) (@nmin b32num)) (dmean_mean b32num filter_11) (lit b32num 3691533060561185 (-49)))]) = true.
Proof. vm_compute. reflexivity. Qed.

(** test/decay/moment_suite.cpp:270 *)
Example decay_moment_mean_float_suite_test_linear_decrease :
  (let filter_1 := dmean_init b32num (lit b32num 1 (-3)) in
   let filter_2 := dmean_push b32num filter_1 (lit b32num 5 1) in
   let filter_3 := dmean_push b32num filter_2 (lit b32num 9 0) in
   let filter_4 := dmean_push b32num filter_3 (lit b32num 1 3) in
   let filter_5 := dmean_push b32num filter_4 (lit b32num 7 0) in
   let filter_6 := dmean_push b32num filter_5 (lit b32num 5 0) in
   let filter_7 := dmean_push b32num filter_6 (lit b32num 3 1) in
   let filter_8 := dmean_push b32num filter_7 (lit b32num 1 2) in
   let filter_9 := dmean_push b32num filter_8 (lit b32num 3 0) in
   let filter_10 := dmean_push b32num filter_9 (lit b32num 1 1) in
   let filter_11 := dmean_push b32num filter_10 (lit b32num 1 0) in
   all_true [(neq (n := b32num) (dmean_mean b32num filter_2) (lit b32num 5 1));
     (close_to (n := b32num) (Closeness (lit b32num 5902958103587057 (-69)) (@nmin b32num)) (dmean_mean b32num filter_3) (lit b32num 1332315358888733 (-47)));
     (close_to (n := b32num) (Closeness (lit b32num 5902958103587057 (-69)) (@nmin b32num)) (dmean_mean b32num filter_4) (lit b32num 1254145535731533 (-47)));
     (close_to (n := b32num) (Closeness (lit b32num 5902958103587057 (-69)) (@nmin b32num)) (dmean_mean b32num filter_5) (lit b32num 4691579875816941 (-49)));
     (close_to (n := b32num) (Closeness (lit b32num 5902958103587057 (-69)) (@nmin b32num)) (dmean_mean b32num filter_6) (lit b32num 8419873568336537 (-50)));
     (close_to (n := b32num) (Closeness (lit b32num 5902958103587057 (-69)) (@nmin b32num)) (dmean_mean b32num filter_7) (lit b32num 8042415624567547 (-50)));
     (close_to (n := b32num) (Closeness (lit b32num 5902958103587057 (-69)) (@nmin b32num)) (dmean_mean b32num filter_8) (lit b32num 1828506484708695 (-48)));
     (close_to (n := b32num) (Closeness (lit b32num 5902958103587057 (-69)) (@nmin b32num)) (dmean_mean b32num filter_9) (lit b32num 3282206519929015 (-49)));
     (close_to (n := b32num) (Closeness (lit b32num 5902958103587057 (-69)) (@nmin b32num)) (dmean_mean b32num filter_10) (lit b32num 362098557977331 (-46)));
     (close_to (n := b32num) (Closeness (lit b32num 5902958103587057 (-69)) (@nmin b32num)) (dmean_mean b32num filter_11) (lit b32num 2500916427073247 (-49)))]) = true.
Proof. vm_compute. reflexivity. Qed.

(** test/decay/moment_suite.cpp:296 *)
Example decay_moment_mean_float_suite_test_clear :
  (let filter_1 := dmean_init b32num (lit b32num 1 (-3)) in
   let filter_2 := dmean_push b32num filter_1 (lit b32num 1 0) in
   let filter_3 := dmean_clear b32num filter_2 in
   all_true [(neq (n := b32num) (dmean_mean b32num filter_2) (lit b32num 1 0));
     (neq (n := b32num) (dmean_mean b32num filter_3) (lit b32num 0 0))]) = true.
Proof. vm_compute. reflexivity. Qed.

(** test/decay/moment_suite.cpp:321 *)
Example decay_moment_variance_double_suite_test_ctor :
  (let filter_1 := dvar_init b64num (lit b64num 1 (-3)) (lit b64num 1 (-2)) in
   all_true [(neq (n := b64num) (dvar_mean b64num filter_1) (lit b64num 0 0));
     (neq (n := b64num) (dvar_variance b64num filter_1) (lit b64num 0 0))]) = true.
Proof. vm_compute. reflexivity. Qed.

(** test/decay/moment_suite.cpp:328 *)
Example decay_moment_variance_double_suite_test_same :
  (let filter_1 := dvar_init b64num (lit b64num 1 (-3)) (lit b64num 1 (-2)) in
   let filter_2 := dvar_push b64num filter_1 (lit b64num 1 0) in
   let filter_3 := dvar_push b64num filter_2 (lit b64num 1 0) in
   let filter_4 := dvar_push b64num filter_3 (lit b64num 1 0) in
   all_true [(close_to (n := b64num) (Closeness (lit b64num 5902958103587057 (-69)) (@nmin b64num)) (dvar_mean b64num filter_2) (lit b64num 1 0));
     (close_to (n := b64num) (Closeness (lit b64num 5902958103587057 (-69)) (@nmin b64num)) (dvar_variance b64num filter_2) (lit b64num 0 0));
     (close_to (n := b64num) (Closeness (lit b64num 5902958103587057 (-69)) (@nmin b64num)) (dvar_mean b64num filter_3) (lit b64num 1 0));
     (close_to (n := b64num) (Closeness (lit b64num 5902958103587057 (-69)) (@nmin b64num)) (dvar_variance b64num filter_3) (lit b64num 0 0));
     (close_to (n := b64num) (Closeness (lit b64num 5902958103587057 (-69)) (@nmin b64num)) (dvar_mean b64num filter_4) (lit b64num 1 0));
     (close_to (n := b64num) (Closeness (lit b64num 5902958103587057 (-69)) (@nmin b64num)) (dvar_variance b64num filter_4) (lit b64num 0 0))]) = true.
Proof. vm_compute. reflexivity. Qed.

(** test/decay/moment_suite.cpp:343 *)
Example decay_moment_variance_double_suite_test_linear_increase :
  (let filter_1 := dvar_init b64num (lit b64num 1 (-3)) (lit b64num 1 (-2)) in
   let filter_2 := dvar_push b64num filter_1 (lit b64num 1 0) in
   let filter_3 := dvar_push b64num filter_2 (lit b64num 1 1) in
   let filter_4 := dvar_push b64num filter_3 (lit b64num 3 0) in
   let filter_5 := dvar_push b64num filter_4 (lit b64num 1 2) in
   let filter_6 := dvar_push b64num filter_5 (lit b64num 5 0) in
   let filter_7 := dvar_push b64num filter_6 (lit b64num 3 1) in
   let filter_8 := dvar_push b64num filter_7 (lit b64num 7 0) in
   let filter_9 := dvar_push b64num filter_8 (lit b64num 1 3) in
   let filter_10 := dvar_push b64num filter_9 (lit b64num 9 0) in
   let filter_11 := dvar_push b64num filter_10 (lit b64num 5 1) in
   all_true [(neq (n := b64num) (dvar_mean b64num filter_2) (lit b64num 1 0));
     (close_to (n := b64num) (Closeness (lit b64num 5902958103587057 (-69)) (@nmin b64num)) (dvar_variance b64num filter_2) (lit b64num 0 0));
     (close_to (n := b64num) (Closeness (lit b64num 5902958103587057 (-69)) (@nmin b64num)) (dvar_mean b64num filter_3) (lit b64num 6905504416636003 (-52)));
     (close_to (n := b64num) (Closeness (lit b64num 5902958103587057 (-69)) (@nmin b64num)) (dvar_variance b64num filter_3) (lit b64num 280222976014247 (-51)));
     (close_to (n := b64num) (Closeness (lit b64num 5902958103587057 (-69)) (@nmin b64num)) (dvar_mean b64num filter_4) (lit b64num 4703469378833199 (-51)));
     (close_to (n := b64num) (Closeness (lit b64num 5902958103587057 (-69)) (@nmin b64num)) (dvar_variance b64num filter_4) (lit b64num 7740913140313975 (-54)));
     (close_to (n := b64num) (Closeness (lit b64num 5902958103587057 (-69)) (@nmin b64num)) (dvar_mean b64num filter_5) (lit b64num 3001739223634983 (-50)));
     (close_to (n := b64num) (Closeness (lit b64num 5902958103587057 (-69)) (@nmin b64num)) (dvar_variance b64num filter_5) (lit b64num 8316266007109065 (-53)));
     (close_to (n := b64num) (Closeness (lit b64num 5902958103587057 (-69)) (@nmin b64num)) (dvar_mean b64num filter_6) (lit b64num 459510714229913 (-47)));
     (close_to (n := b64num) (Closeness (lit b64num 5902958103587057 (-69)) (@nmin b64num)) (dvar_variance b64num filter_6) (lit b64num 7238770789061419 (-52)));
     (close_to (n := b64num) (Closeness (lit b64num 5902958103587057 (-69)) (@nmin b64num)) (dvar_mean b64num filter_7) (lit b64num 4374402613060305 (-50)));
     (close_to (n := b64num) (Closeness (lit b64num 5902958103587057 (-69)) (@nmin b64num)) (dvar_variance b64num filter_7) (lit b64num 5581333536198393 (-51)));
     (close_to (n := b64num) (Closeness (lit b64num 5902958103587057 (-69)) (@nmin b64num)) (dvar_mean b64num filter_8) (lit b64num 5096217043337111 (-50)));
     (close_to (n := b64num) (Closeness (lit b64num 5902958103587057 (-69)) (@nmin b64num)) (dvar_variance b64num filter_8) (lit b64num 7946353844515735 (-51)));
     (close_to (n := b64num) (Closeness (lit b64num 5902958103587057 (-69)) (@nmin b64num)) (dvar_mean b64num filter_9) (lit b64num 5841011090712575 (-50)));
     (close_to (n := b64num) (Closeness (lit b64num 5902958103587057 (-69)) (@nmin b64num)) (dvar_variance b64num filter_9) (lit b64num 667869750990209 (-47)));
     (close_to (n := b64num) (Closeness (lit b64num 5902958103587057 (-69)) (@nmin b64num)) (dvar_mean b64num filter_10) (lit b64num 3304088384618501 (-49)));
     (close_to (n := b64num) (Closeness (lit b64num 5902958103587057 (-69)) (@nmin b64num)) (dvar_variance b64num filter_10) (lit b64num 6881680374607213 (-50)));
     (close_to (n := b64num) (Closeness (lit b64num 5902958103587057 (-69)) (@nmin b64num)) (dvar_mean b64num filter_11) (lit b64num 924632632120553 (-47)));
     (close_to (n := b64num) (Closeness (lit b64num 5902958103587057 (-69)) (@nmin b64num)) (dvar_variance b64num filter_11) (lit b64num 4283959073543637 (-49)))]) = true.
Proof. vm_compute. reflexivity. Qed.

(** test/decay/moment_suite.cpp:379 *)
Example decay_moment_variance_double_suite_test_linear_decrease :
  (let filter_1 := dvar_init b64num (lit b64num 1 (-3)) (lit b64num 1 (-2)) in
   let filter_2 := dvar_push b64num filter_1 (lit b64num 5 1) in
   let filter_3 := dvar_push b64num filter_2 (lit b64num 9 0) in
   let filter_4 := dvar_push b64num filter_3 (lit b64num 1 3) in
   let filter_5 := dvar_push b64num filter_4 (lit b64num 7 0) in
   let filter_6 := dvar_push b64num filter_5 (lit b64num 3 1) in
   let filter_7 := dvar_push b64num filter_6 (lit b64num 5 0) in
   let filter_8 := dvar_push b64num filter_7 (lit b64num 1 2) in
   let filter_9 := dvar_push b64num filter_8 (lit b64num 3 0) in
   let filter_10 := dvar_push b64num filter_9 (lit b64num 1 1) in
   let filter_11 := dvar_push b64num filter_10 (lit b64num 1 0) in
   all_true [(neq (n := b64num) (dvar_mean b64num filter_2) (lit b64num 5 1));
     (close_to (n := b64num) (Closeness (lit b64num 5902958103587057 (-69)) (@nmin b64num)) (dvar_variance b64num filter_2) (lit b64num 0 0));
     (close_to (n := b64num) (Closeness (lit b64num 5902958103587057 (-69)) (@nmin b64num)) (dvar_mean b64num filter_3) (lit b64num 1332315358888733 (-47)));
     (close_to (n := b64num) (Closeness (lit b64num 5902958103587057 (-69)) (@nmin b64num)) (dvar_variance b64num filter_3) (lit b64num 280222976014247 (-51)));
     (close_to (n := b64num) (Closeness (lit b64num 5902958103587057 (-69)) (@nmin b64num)) (dvar_mean b64num filter_4) (lit b64num 1254145535731533 (-47)));
     (close_to (n := b64num) (Closeness (lit b64num 5902958103587057 (-69)) (@nmin b64num)) (dvar_variance b64num filter_4) (lit b64num 7740913140313975 (-54)));
     (close_to (n := b64num) (Closeness (lit b64num 5902958103587057 (-69)) (@nmin b64num)) (dvar_mean b64num filter_5) (lit b64num 4691579875816941 (-49)));
     (close_to (n := b64num) (Closeness (lit b64num 5902958103587057 (-69)) (@nmin b64num)) (dvar_variance b64num filter_5) (lit b64num 8316266007109065 (-53)));
     (close_to (n := b64num) (Closeness (lit b64num 5902958103587057 (-69)) (@nmin b64num)) (dvar_mean b64num filter_6) (lit b64num 1088601657678695 (-47)));
     (close_to (n := b64num) (Closeness (lit b64num 5902958103587057 (-69)) (@nmin b64num)) (dvar_variance b64num filter_6) (lit b64num 7238770789061419 (-52)));
     (close_to (n := b64num) (Closeness (lit b64num 5902958103587057 (-69)) (@nmin b64num)) (dvar_mean b64num filter_7) (lit b64num 8010496362208559 (-50)));
     (close_to (n := b64num) (Closeness (lit b64num 5902958103587057 (-69)) (@nmin b64num)) (dvar_variance b64num filter_7) (lit b64num 5581333536198393 (-51)));
     (close_to (n := b64num) (Closeness (lit b64num 5902958103587057 (-69)) (@nmin b64num)) (dvar_mean b64num filter_8) (lit b64num 7288681931931753 (-50)));
     (close_to (n := b64num) (Closeness (lit b64num 5902958103587057 (-69)) (@nmin b64num)) (dvar_variance b64num filter_8) (lit b64num 7946353844515735 (-51)));
     (close_to (n := b64num) (Closeness (lit b64num 5902958103587057 (-69)) (@nmin b64num)) (dvar_mean b64num filter_9) (lit b64num 6543887884556289 (-50)));
     (close_to (n := b64num) (Closeness (lit b64num 5902958103587057 (-69)) (@nmin b64num)) (dvar_variance b64num filter_9) (lit b64num 667869750990209 (-47)));
     (close_to (n := b64num) (Closeness (lit b64num 5902958103587057 (-69)) (@nmin b64num)) (dvar_mean b64num filter_10) (lit b64num 2888361103015931 (-49)));
     (close_to (n := b64num) (Closeness (lit b64num 5902958103587057 (-69)) (@nmin b64num)) (dvar_variance b64num filter_10) (lit b64num 6881680374607213 (-50)));
     (close_to (n := b64num) (Closeness (lit b64num 5902958103587057 (-69)) (@nmin b64num)) (dvar_mean b64num filter_11) (lit b64num 623479739788055 (-47)));
     (close_to (n := b64num) (Closeness (lit b64num 5902958103587057 (-69)) (@nmin b64num)) (dvar_variance b64num filter_11) (lit b64num 4283959073543637 (-49)))]) = true.
Proof. vm_compute. reflexivity. Qed.

(** test/decay/moment_suite.cpp:415 *)
Example decay_moment_variance_double_suite_test_exponential_increase :
  (let filter_1 := dvar_init b64num (lit b64num 1 (-3)) (lit b64num 1 (-2)) in
   let filter_2 := dvar_push b64num filter_1 (lit b64num 1 0) in
   let filter_3 := dvar_push b64num filter_2 (lit b64num 5 1) in
   let filter_4 := dvar_push b64num filter_3 (lit b64num 25 2) in
   let filter_5 := dvar_push b64num filter_4 (lit b64num 125 3) in
   let filter_6 := dvar_push b64num filter_5 (lit b64num 625 4) in
   let filter_7 := dvar_push b64num filter_6 (lit b64num 3125 5) in
   let filter_8 := dvar_push b64num filter_7 (lit b64num 15625 6) in
   let filter_9 := dvar_push b64num filter_8 (lit b64num 78125 7) in
   let filter_10 := dvar_push b64num filter_9 (lit b64num 390625 8) in
   let filter_11 := dvar_push b64num filter_10 (lit b64num 1953125 9) in
   all_true [(neq (n := b64num) (dvar_mean b64num filter_2) (lit b64num 1 0));
     (close_to (n := b64num) (Closeness (lit b64num 7378697629483821 (-66)) (@nmin b64num)) (dvar_variance b64num filter_2) (lit b64num 0 0));
     (close_to (n := b64num) (Closeness (lit b64num 7378697629483821 (-66)) (@nmin b64num)) (dvar_mean b64num filter_3) (lit b64num 6530219459687219 (-50)));
     (close_to (n := b64num) (Closeness (lit b64num 7378697629483821 (-66)) (@nmin b64num)) (dvar_variance b64num filter_3) (lit b64num 5674535530486825 (-49)));
     (close_to (n := b64num) (Closeness (lit b64num 7378697629483821 (-66)) (@nmin b64num)) (dvar_mean b64num filter_4) (lit b64num 1459215537388965 (-45)));
     (close_to (n := b64num) (Closeness (lit b64num 7378697629483821 (-66)) (@nmin b64num)) (dvar_variance b64num filter_4) (lit b64num 1634929810037801 (-40)));
     (close_to (n := b64num) (Closeness (lit b64num 7378697629483821 (-66)) (@nmin b64num)) (dvar_mean b64num filter_5) (lit b64num 1455797375640535 (-42)));
     (close_to (n := b64num) (Closeness (lit b64num 7378697629483821 (-66)) (@nmin b64num)) (dvar_variance b64num filter_5) (lit b64num 164617 0));
     (close_to (n := b64num) (Closeness (lit b64num 7378697629483821 (-66)) (@nmin b64num)) (dvar_mean b64num filter_6) (lit b64num 6184357082054001 (-41)));
     (close_to (n := b64num) (Closeness (lit b64num 7378697629483821 (-66)) (@nmin b64num)) (dvar_variance b64num filter_6) (lit b64num 4261225 2));
     (close_to (n := b64num) (Closeness (lit b64num 7378697629483821 (-66)) (@nmin b64num)) (dvar_mean b64num filter_7) (lit b64num 6831320718953677 (-38)));
     (close_to (n := b64num) (Closeness (lit b64num 7378697629483821 (-66)) (@nmin b64num)) (dvar_variance b64num filter_7) (lit b64num 108083125 4));
     (close_to (n := b64num) (Closeness (lit b64num 7378697629483821 (-66)) (@nmin b64num)) (dvar_mean b64num filter_8) (lit b64num 225565 0));
     (close_to (n := b64num) (Closeness (lit b64num 7378697629483821 (-66)) (@nmin b64num)) (dvar_variance b64num filter_8) (lit b64num 2722890625 6));
     (close_to (n := b64num) (Closeness (lit b64num 7378697629483821 (-66)) (@nmin b64num)) (dvar_mean b64num filter_9) (lit b64num 130435 4));
     (close_to (n := b64num) (Closeness (lit b64num 7378697629483821 (-66)) (@nmin b64num)) (dvar_variance b64num filter_9) (lit b64num 34221484375 9));
     (close_to (n := b64num) (Closeness (lit b64num 7378697629483821 (-66)) (@nmin b64num)) (dvar_mean b64num filter_10) (lit b64num 4896975 2));
     (close_to (n := b64num) (Closeness (lit b64num 7378697629483821 (-66)) (@nmin b64num)) (dvar_variance b64num filter_10) (lit b64num 859638671875 11));
     (close_to (n := b64num) (Closeness (lit b64num 7378697629483821 (-66)) (@nmin b64num)) (dvar_mean b64num filter_11) (lit b64num 23236125 3));
     (close_to (n := b64num) (Closeness (lit b64num 7378697629483821 (-66)) (@nmin b64num)) (dvar_variance b64num filter_11) (lit b64num 10795654296875 14))]) = true.
Proof. vm_compute. reflexivity. Qed.

(** test/decay/moment_suite.cpp:451 *)
Example decay_moment_variance_double_suite_test_clear :
  (let filter_1 := dvar_init b64num (lit b64num 1 (-3)) (lit b64num 1 (-2)) in
   let filter_2 := dvar_push b64num filter_1 (lit b64num 0 0) in
   let filter_3 := dvar_push b64num filter_2 (lit b64num 1 0) in
   let filter_4 := dvar_clear b64num filter_3 in
   all_true [(close_to (n := b64num) (Closeness (lit b64num 5902958103587057 (-69)) (@nmin b64num)) (dvar_mean b64num filter_2) (lit b64num 0 0));
     (close_to (n := b64num) (Closeness (lit b64num 5902958103587057 (-69)) (@nmin b64num)) (dvar_variance b64num filter_2) (lit b64num 0 0));
     (close_to (n := b64num) (Closeness (lit b64num 5902958103587057 (-69)) (@nmin b64num)) (dvar_mean b64num filter_3) (lit b64num 4803836600128777 (-53)));
     (close_to (n := b64num) (Closeness (lit b64num 5902958103587057 (-69)) (@nmin b64num)) (dvar_variance b64num filter_3) (lit b64num 280222976014247 (-51)));
     (neq (n := b64num) (dvar_mean b64num filter_4) (lit b64num 0 0));
     (neq (n := b64num) (dvar_variance b64num filter_4) (lit b64num 0 0))]) = true.
Proof. vm_compute. reflexivity. Qed.

(** test/decay/moment_suite.cpp:483 *)
Example decay_moment_skewness_double_suite_test_ctor :
  (let filter_1 := dskew_init b64num (lit b64num 1 (-3)) (lit b64num 1 (-2)) (lit b64num 1 (-2)) in
   all_true [(neq (n := b64num) (dskew_mean b64num filter_1) (lit b64num 0 0));
     (neq (n := b64num) (dskew_variance b64num filter_1) (lit b64num 0 0));
     (neq (n := b64num) (dskew_skewness b64num filter_1) (lit b64num 0 0))]) = true.
Proof. vm_compute. reflexivity. Qed.

(** test/decay/moment_suite.cpp:491 *)
Example decay_moment_skewness_double_suite_test_same :
  (let filter_1 := dskew_init b64num (lit b64num 1 (-3)) (lit b64num 1 (-2)) (lit b64num 1 (-2)) in
   let filter_2 := dskew_push b64num filter_1 (lit b64num 1 0) in
   let filter_3 := dskew_push b64num filter_2 (lit b64num 1 0) in
   let filter_4 := dskew_push b64num filter_3 (lit b64num 1 0) in
   let filter_5 := dskew_push b64num filter_4 (lit b64num 1 0) in
   all_true [(neq (n := b64num) (dskew_mean b64num filter_2) (lit b64num 1 0));
     (neq (n := b64num) (dskew_variance b64num filter_2) (lit b64num 0 0));
     (neq (n := b64num) (dskew_skewness b64num filter_2) (lit b64num 0 0));
     (neq (n := b64num) (dskew_mean b64num filter_3) (lit b64num 1 0));
     (neq (n := b64num) (dskew_variance b64num filter_3) (lit b64num 0 0));
     (neq (n := b64num) (dskew_skewness b64num filter_3) (lit b64num 0 0));
     (neq (n := b64num) (dskew_mean b64num filter_4) (lit b64num 1 0));
     (neq (n := b64num) (dskew_variance b64num filter_4) (lit b64num 0 0));
     (neq (n := b64num) (dskew_skewness b64num filter_4) (lit b64num 0 0));
     (neq (n := b64num) (dskew_mean b64num filter_5) (lit b64num 1 0));
     (neq (n := b64num) (dskew_variance b64num filter_5) (lit b64num 0 0));
     (neq (n := b64num) (dskew_skewness b64num filter_5) (lit b64num 0 0))]) = true.
Proof. vm_compute. reflexivity. Qed.

(** test/decay/moment_suite.cpp:512 *)
Example decay_moment_skewness_double_suite_test_linear_increase :
  (let filter_1 := dskew_init b64num (lit b64num 1 (-3)) (lit b64num 1 (-2)) (lit b64num 1 (-2)) in
   let filter_2 := dskew_push b64num filter_1 (lit b64num 1 0) in
   let filter_3 := dskew_push b64num filter_2 (lit b64num 1 1) in
   let filter_4 := dskew_push b64num filter_3 (lit b64num 3 0) in
   let filter_5 := dskew_push b64num filter_4 (lit b64num 1 2) in
   let filter_6 := dskew_push b64num filter_5 (lit b64num 5 0) in
   let filter_7 := dskew_push b64num filter_6 (lit b64num 3 1) in
   let filter_8 := dskew_push b64num filter_7 (lit b64num 7 0) in
   let filter_9 := dskew_push b64num filter_8 (lit b64num 1 3) in
   let filter_10 := dskew_push b64num filter_9 (lit b64num 9 0) in
   let filter_11 := dskew_push b64num filter_10 (lit b64num 5 1) in
   all_true [(neq (n := b64num) (dskew_mean b64num filter_2) (lit b64num 1 0));
     (neq (n := b64num) (dskew_variance b64num filter_2) (lit b64num 0 0));
     (close_to (n := b64num) (Closeness (lit b64num 5902958103587057 (-69)) (@nmin b64num)) (dskew_skewness b64num filter_2) (lit b64num 0 0));
     (close_to (n := b64num) (Closeness (lit b64num 5902958103587057 (-69)) (@nmin b64num)) (dskew_mean b64num filter_3) (lit b64num 6905504416636003 (-52)));
     (close_to (n := b64num) (Closeness (lit b64num 5902958103587057 (-69)) (@nmin b64num)) (dskew_variance b64num filter_3) (lit b64num 280222976014247 (-51)));
     (close_to (n := b64num) (Closeness (lit b64num 5902958103587057 (-69)) (@nmin b64num)) (dskew_skewness b64num filter_3) (lit b64num 2978860937527941 (-51)));
     (close_to (n := b64num) (Closeness (lit b64num 5902958103587057 (-69)) (@nmin b64num)) (dskew_mean b64num filter_4) (lit b64num 4703469378833199 (-51)));
     (close_to (n := b64num) (Closeness (lit b64num 5902958103587057 (-69)) (@nmin b64num)) (dskew_variance b64num filter_4) (lit b64num 7740913140313975 (-54)));
     (close_to (n := b64num) (Closeness (lit b64num 5902958103587057 (-69)) (@nmin b64num)) (dskew_skewness b64num filter_4) (lit b64num 5758437591544737 (-52)));
     (close_to (n := b64num) (Closeness (lit b64num 5902958103587057 (-69)) (@nmin b64num)) (dskew_mean b64num filter_5) (lit b64num 3001739223634983 (-50)));
     (close_to (n := b64num) (Closeness (lit b64num 5902958103587057 (-69)) (@nmin b64num)) (dskew_variance b64num filter_5) (lit b64num 8316266007109065 (-53)));
     (close_to (n := b64num) (Closeness (lit b64num 5902958103587057 (-69)) (@nmin b64num)) (dskew_skewness b64num filter_5) (lit b64num 5566088851459743 (-52)));
     (close_to (n := b64num) (Closeness (lit b64num 5902958103587057 (-69)) (@nmin b64num)) (dskew_mean b64num filter_6) (lit b64num 459510714229913 (-47)));
     (close_to (n := b64num) (Closeness (lit b64num 5902958103587057 (-69)) (@nmin b64num)) (dskew_variance b64num filter_6) (lit b64num 7238770789061419 (-52)));
     (close_to (n := b64num) (Closeness (lit b64num 5902958103587057 (-69)) (@nmin b64num)) (dskew_skewness b64num filter_6) (lit b64num 5412290924185041 (-52)));
     (close_to (n := b64num) (Closeness (lit b64num 5902958103587057 (-69)) (@nmin b64num)) (dskew_mean b64num filter_7) (lit b64num 4374402613060305 (-50)));
     (close_to (n := b64num) (Closeness (lit b64num 5902958103587057 (-69)) (@nmin b64num)) (dskew_variance b64num filter_7) (lit b64num 5581333536198393 (-51)));
     (close_to (n := b64num) (Closeness (lit b64num 5902958103587057 (-69)) (@nmin b64num)) (dskew_skewness b64num filter_7) (lit b64num 41299415957871 (-45)));
     (close_to (n := b64num) (Closeness (lit b64num 5902958103587057 (-69)) (@nmin b64num)) (dskew_mean b64num filter_8) (lit b64num 5096217043337111 (-50)));
     (close_to (n := b64num) (Closeness (lit b64num 5902958103587057 (-69)) (@nmin b64num)) (dskew_variance b64num filter_8) (lit b64num 7946353844515735 (-51)));
     (close_to (n := b64num) (Closeness (lit b64num 5902958103587057 (-69)) (@nmin b64num)) (dskew_skewness b64num filter_8) (lit b64num 1295190216835481 (-50)));
     (close_to (n := b64num) (Closeness (lit b64num 5902958103587057 (-69)) (@nmin b64num)) (dskew_mean b64num filter_9) (lit b64num 5841011090712575 (-50)));
     (close_to (n := b64num) (Closeness (lit b64num 5902958103587057 (-69)) (@nmin b64num)) (dskew_variance b64num filter_9) (lit b64num 667869750990209 (-47)));
     (close_to (n := b64num) (Closeness (lit b64num 5902958103587057 (-69)) (@nmin b64num)) (dskew_skewness b64num filter_9) (lit b64num 5090778946787061 (-52)));
     (close_to (n := b64num) (Closeness (lit b64num 5902958103587057 (-69)) (@nmin b64num)) (dskew_mean b64num filter_10) (lit b64num 3304088384618501 (-49)));
     (close_to (n := b64num) (Closeness (lit b64num 5902958103587057 (-69)) (@nmin b64num)) (dskew_variance b64num filter_10) (lit b64num 6881680374607213 (-50)));
     (close_to (n := b64num) (Closeness (lit b64num 5902958103587057 (-69)) (@nmin b64num)) (dskew_skewness b64num filter_10) (lit b64num 1253351776297209 (-50)));
     (close_to (n := b64num) (Closeness (lit b64num 5902958103587057 (-69)) (@nmin b64num)) (dskew_mean b64num filter_11) (lit b64num 924632632120553 (-47)));
     (close_to (n := b64num) (Closeness (lit b64num 5902958103587057 (-69)) (@nmin b64num)) (dskew_variance b64num filter_11) (lit b64num 4283959073543637 (-49)));
     (close_to (n := b64num) (Closeness (lit b64num 5902958103587057 (-69)) (@nmin b64num)) (dskew_skewness b64num filter_11) (lit b64num 4946393542733563 (-52)))]) = true.
Proof. vm_compute. reflexivity. Qed.

(** test/decay/moment_suite.cpp:561 *)
Example decay_moment_skewness_double_suite_test_exponential_increase :
  (let filter_1 := dskew_init b64num (lit b64num 1 (-3)) (lit b64num 1 (-2)) (lit b64num 1 (-2)) in
   let filter_2 := dskew_push b64num filter_1 (lit b64num 1 0) in
   let filter_3 := dskew_push b64num filter_2 (lit b64num 5 1) in
   let filter_4 := dskew_push b64num filter_3 (lit b64num 25 2) in
   let filter_5 := dskew_push b64num filter_4 (lit b64num 125 3) in
   let filter_6 := dskew_push b64num filter_5 (lit b64num 625 4) in
   let filter_7 := dskew_push b64num filter_6 (lit b64num 3125 5) in
   let filter_8 := dskew_push b64num filter_7 (lit b64num 15625 6) in
   let filter_9 := dskew_push b64num filter_8 (lit b64num 78125 7) in
   let filter_10 := dskew_push b64num filter_9 (lit b64num 390625 8) in
   let filter_11 := dskew_push b64num filter_10 (lit b64num 1953125 9) in
   all_true [(neq (n := b64num) (dskew_mean b64num filter_2) (lit b64num 1 0));
     (close_to (n := b64num) (Closeness (lit b64num 5902958103587057 (-69)) (@nmin b64num)) (dskew_variance b64num filter_2) (lit b64num 0 0));
     (close_to (n := b64num) (Closeness (lit b64num 5902958103587057 (-69)) (@nmin b64num)) (dskew_skewness b64num filter_2) (lit b64num 0 0));
     (close_to (n := b64num) (Closeness (lit b64num 5902958103587057 (-69)) (@nmin b64num)) (dskew_mean b64num filter_3) (lit b64num 6530219459687219 (-50)));
     (close_to (n := b64num) (Closeness (lit b64num 5902958103587057 (-69)) (@nmin b64num)) (dskew_variance b64num filter_3) (lit b64num 5674535530486825 (-49)));
     (close_to (n := b64num) (Closeness (lit b64num 5902958103587057 (-69)) (@nmin b64num)) (dskew_skewness b64num filter_3) (lit b64num 2978860937527941 (-51)));
     (close_to (n := b64num) (Closeness (lit b64num 5902958103587057 (-69)) (@nmin b64num)) (dskew_mean b64num filter_4) (lit b64num 1459215537388965 (-45)));
     (close_to (n := b64num) (Closeness (lit b64num 5902958103587057 (-69)) (@nmin b64num)) (dskew_variance b64num filter_4) (lit b64num 1634929810037801 (-40)));
     (close_to (n := b64num) (Closeness (lit b64num 5902958103587057 (-69)) (@nmin b64num)) (dskew_skewness b64num filter_4) (lit b64num 851371732557187 (-49)));
     (close_to (n := b64num) (Closeness (lit b64num 5902958103587057 (-69)) (@nmin b64num)) (dskew_mean b64num filter_5) (lit b64num 1455797375640535 (-42)));
     (close_to (n := b64num) (Closeness (lit b64num 5902958103587057 (-69)) (@nmin b64num)) (dskew_variance b64num filter_5) (lit b64num 164617 0));
     (close_to (n := b64num) (Closeness (lit b64num 5902958103587057 (-69)) (@nmin b64num)) (dskew_skewness b64num filter_5) (lit b64num 7386939216801909 (-52)));
     (close_to (n := b64num) (Closeness (lit b64num 5902958103587057 (-69)) (@nmin b64num)) (dskew_mean b64num filter_6) (lit b64num 6184357082054001 (-41)));
     (close_to (n := b64num) (Closeness (lit b64num 5902958103587057 (-69)) (@nmin b64num)) (dskew_variance b64num filter_6) (lit b64num 4261225 2));
     (close_to (n := b64num) (Closeness (lit b64num 5902958103587057 (-69)) (@nmin b64num)) (dskew_skewness b64num filter_6) (lit b64num 7794424911086391 (-52)));
     (close_to (n := b64num) (Closeness (lit b64num 5902958103587057 (-69)) (@nmin b64num)) (dskew_mean b64num filter_7) (lit b64num 6831320718953677 (-38)));
     (close_to (n := b64num) (Closeness (lit b64num 5902958103587057 (-69)) (@nmin b64num)) (dskew_variance b64num filter_7) (lit b64num 108083125 4));
     (close_to (n := b64num) (Closeness (lit b64num 5902958103587057 (-69)) (@nmin b64num)) (dskew_skewness b64num filter_7) (lit b64num 8087834426809579 (-52)));
     (close_to (n := b64num) (Closeness (lit b64num 5902958103587057 (-69)) (@nmin b64num)) (dskew_mean b64num filter_8) (lit b64num 225565 0));
     (close_to (n := b64num) (Closeness (lit b64num 5902958103587057 (-69)) (@nmin b64num)) (dskew_variance b64num filter_8) (lit b64num 2722890625 6));
     (close_to (n := b64num) (Closeness (lit b64num 5902958103587057 (-69)) (@nmin b64num)) (dskew_skewness b64num filter_8) (lit b64num 8301575265124583 (-52)));
     (close_to (n := b64num) (Closeness (lit b64num 5902958103587057 (-69)) (@nmin b64num)) (dskew_mean b64num filter_9) (lit b64num 130435 4));
     (close_to (n := b64num) (Closeness (lit b64num 5902958103587057 (-69)) (@nmin b64num)) (dskew_variance b64num filter_9) (lit b64num 34221484375 9));
     (close_to (n := b64num) (Closeness (lit b64num 5902958103587057 (-69)) (@nmin b64num)) (dskew_skewness b64num filter_9) (lit b64num 8458480676142171 (-52)));
     (close_to (n := b64num) (Closeness (lit b64num 5902958103587057 (-69)) (@nmin b64num)) (dskew_mean b64num filter_10) (lit b64num 4896975 2));
     (close_to (n := b64num) (Closeness (lit b64num 5902958103587057 (-69)) (@nmin b64num)) (dskew_variance b64num filter_10) (lit b64num 859638671875 11));
     (close_to (n := b64num) (Closeness (lit b64num 5902958103587057 (-69)) (@nmin b64num)) (dskew_skewness b64num filter_10) (lit b64num 8574403330550687 (-52)));
     (close_to (n := b64num) (Closeness (lit b64num 5902958103587057 (-69)) (@nmin b64num)) (dskew_mean b64num filter_11) (lit b64num 23236125 3));
     (close_to (n := b64num) (Closeness (lit b64num 5902958103587057 (-69)) (@nmin b64num)) (dskew_variance b64num filter_11) (lit b64num 10795654296875 14));
     (close_to (n := b64num) (Closeness (lit b64num 5902958103587057 (-69)) (@nmin b64num)) (dskew_skewness b64num filter_11) (lit b64num 2165083002860229 (-50)))]) = true.
Proof. vm_compute. reflexivity. Qed.

(** test/decay/moment_suite.cpp:608 *)
Example decay_moment_skewness_double_suite_test_left_skew :
  (let filter_1 := dskew_init b64num (lit b64num 1 (-3)) (lit b64num 1 (-2)) (lit b64num 1 (-2)) in
   let filter_2 := dskew_push b64num filter_1 (lit b64num 1 0) in
   let filter_3 := dskew_push b64num filter_2 (lit b64num 1 1) in
   let filter_4 := dskew_push b64num filter_3 (lit b64num 5 0) in
   let filter_5 := dskew_push b64num filter_4 (lit b64num 15 0) in
   all_true [(neq (n := b64num) (dskew_mean b64num filter_2) (lit b64num 1 0));
     (neq (n := b64num) (dskew_variance b64num filter_2) (lit b64num 0 0));
     (neq (n := b64num) (dskew_skewness b64num filter_2) (lit b64num 0 0));
     (close_to (n := b64num) (Closeness (lit b64num 5902958103587057 (-69)) (@nmin b64num)) (dskew_mean b64num filter_3) (lit b64num 6905504416636003 (-52)));
     (close_to (n := b64num) (Closeness (lit b64num 5902958103587057 (-69)) (@nmin b64num)) (dskew_variance b64num filter_3) (lit b64num 280222976014247 (-51)));
     (close_to (n := b64num) (Closeness (lit b64num 5902958103587057 (-69)) (@nmin b64num)) (dskew_skewness b64num filter_3) (lit b64num 2978860937527941 (-51)));
     (close_to (n := b64num) (Closeness (lit b64num 5902958103587057 (-69)) (@nmin b64num)) (dskew_mean b64num filter_4) (lit b64num 6408960039720269 (-51)));
     (close_to (n := b64num) (Closeness (lit b64num 5902958103587057 (-69)) (@nmin b64num)) (dskew_variance b64num filter_4) (lit b64num 4676335191078291 (-51)));
     (close_to (n := b64num) (Closeness (lit b64num 5902958103587057 (-69)) (@nmin b64num)) (dskew_skewness b64num filter_4) (lit b64num 1637947925475581 (-50)));
     (close_to (n := b64num) (Closeness (lit b64num 5902958103587057 (-69)) (@nmin b64num)) (dskew_mean b64num filter_5) (lit b64num 3668970026428059 (-49)));
     (close_to (n := b64num) (Closeness (lit b64num 5902958103587057 (-69)) (@nmin b64num)) (dskew_variance b64num filter_5) (lit b64num 7777716556468847 (-48)));
     (close_to (n := b64num) (Closeness (lit b64num 5902958103587057 (-69)) (@nmin b64num)) (dskew_skewness b64num filter_5) (lit b64num 875831908033343 (-49)))]) = true.
Proof. vm_compute. reflexivity. Qed.

(** test/decay/moment_suite.cpp:647 *)
Example decay_moment_kurtosis_double_suite_test_ctor :
  (let filter_1 := dkurt_init b64num (lit b64num 1 (-3)) (lit b64num 1 (-2)) (lit b64num 1 (-2)) (lit b64num 1 (-2)) in
   all_true [(neq (n := b64num) (dkurt_mean b64num filter_1) (lit b64num 0 0));
     (neq (n := b64num) (dkurt_variance b64num filter_1) (lit b64num 0 0));
     (neq (n := b64num) (dkurt_skewness b64num filter_1) (lit b64num 0 0));
     (neq (n := b64num) (dkurt_kurtosis b64num filter_1) (lit b64num 0 0))]) = true.
Proof. vm_compute. reflexivity. Qed.

(** test/decay/moment_suite.cpp:656 *)
Example decay_moment_kurtosis_double_suite_test_same :
  (let filter_1 := dkurt_init b64num (lit b64num 1 (-3)) (lit b64num 1 (-2)) (lit b64num 1 (-2)) (lit b64num 1 (-2)) in
   let filter_2 := dkurt_push b64num filter_1 (lit b64num 1 0) in
   let filter_3 := dkurt_push b64num filter_2 (lit b64num 1 0) in
   let filter_4 := dkurt_push b64num filter_3 (lit b64num 1 0) in
   all_true [(neq (n := b64num) (dkurt_mean b64num filter_2) (lit b64num 1 0));
     (neq (n := b64num) (dkurt_variance b64num filter_2) (lit b64num 0 0));
     (neq (n := b64num) (dkurt_skewness b64num filter_2) (lit b64num 0 0));
     (neq (n := b64num) (dkurt_kurtosis b64num filter_2) (lit b64num 0 0));
     (neq (n := b64num) (dkurt_mean b64num filter_3) (lit b64num 1 0));
     (neq (n := b64num) (dkurt_variance b64num filter_3) (lit b64num 0 0));
     (neq (n := b64num) (dkurt_skewness b64num filter_3) (lit b64num 0 0));
     (neq (n := b64num) (dkurt_kurtosis b64num filter_3) (lit b64num 0 0));
     (neq (n := b64num) (dkurt_mean b64num filter_4) (lit b64num 1 0));
     (neq (n := b64num) (dkurt_variance b64num filter_4) (lit b64num 0 0));
     (neq (n := b64num) (dkurt_skewness b64num filter_4) (lit b64num 0 0));
     (neq (n := b64num) (dkurt_kurtosis b64num filter_4) (lit b64num 0 0))]) = true.
Proof. vm_compute. reflexivity. Qed.

(** test/decay/moment_suite.cpp:676 *)
Example decay_moment_kurtosis_double_suite_test_linear_increase :
  (let filter_1 := dkurt_init b64num (lit b64num 1 (-3)) (lit b64num 1 (-2)) (lit b64num 1 (-2)) (lit b64num 1 (-2)) in
   let filter_2 := dkurt_push b64num filter_1 (lit b64num 1 0) in
   let filter_3 := dkurt_push b64num filter_2 (lit b64num 1 1) in
   let filter_4 := dkurt_push b64num filter_3 (lit b64num 3 0) in
   let filter_5 := dkurt_push b64num filter_4 (lit b64num 1 2) in
   let filter_6 := dkurt_push b64num filter_5 (lit b64num 5 0) in
   let filter_7 := dkurt_push b64num filter_6 (lit b64num 3 1) in
   let filter_8 := dkurt_push b64num filter_7 (lit b64num 7 0) in
   let filter_9 := dkurt_push b64num filter_8 (lit b64num 1 3) in
   let filter_10 := dkurt_push b64num filter_9 (lit b64num 9 0) in
   let filter_11 := dkurt_push b64num filter_10 (lit b64num 5 1) in
   all_true [(neq (n := b64num) (dkurt_mean b64num filter_2) (lit b64num 1 0));
     (neq (n := b64num) (dkurt_variance b64num filter_2) (lit b64num 0 0));
     (neq (n := b64num) (dkurt_skewness b64num filter_2) (lit b64num 0 0));
     (neq (n := b64num) (dkurt_kurtosis b64num filter_2) (lit b64num 0 0));
     (close_to (n := b64num) (Closeness (lit b64num 5902958103587057 (-69)) (@nmin b64num)) (dkurt_mean b64num filter_3) (lit b64num 6905504416636003 (-52)));
     (close_to (n := b64num) (Closeness (lit b64num 5902958103587057 (-69)) (@nmin b64num)) (dkurt_variance b64num filter_3) (lit b64num 280222976014247 (-51)));
     (close_to (n := b64num) (Closeness (lit b64num 5902958103587057 (-69)) (@nmin b64num)) (dkurt_skewness b64num filter_3) (lit b64num 2978860937527941 (-51)));
     (close_to (n := b64num) (Closeness (lit b64num 5902958103587057 (-69)) (@nmin b64num)) (dkurt_kurtosis b64num filter_3) (lit b64num 7 (-2)));
     (close_to (n := b64num) (Closeness (lit b64num 5902958103587057 (-69)) (@nmin b64num)) (dkurt_mean b64num filter_4) (lit b64num 4703469378833199 (-51)));
     (close_to (n := b64num) (Closeness (lit b64num 5902958103587057 (-69)) (@nmin b64num)) (dkurt_variance b64num filter_4) (lit b64num 7740913140313975 (-54)));
     (close_to (n := b64num) (Closeness (lit b64num 5902958103587057 (-69)) (@nmin b64num)) (dkurt_skewness b64num filter_4) (lit b64num 5758437591544737 (-52)));
     (close_to (n := b64num) (Closeness (lit b64num 5902958103587057 (-69)) (@nmin b64num)) (dkurt_kurtosis b64num filter_4) (lit b64num 3823713709624509 (-51)));
     (close_to (n := b64num) (Closeness (lit b64num 5902958103587057 (-69)) (@nmin b64num)) (dkurt_mean b64num filter_5) (lit b64num 3001739223634983 (-50)));
     (close_to (n := b64num) (Closeness (lit b64num 5902958103587057 (-69)) (@nmin b64num)) (dkurt_variance b64num filter_5) (lit b64num 8316266007109065 (-53)));
     (close_to (n := b64num) (Closeness (lit b64num 5902958103587057 (-69)) (@nmin b64num)) (dkurt_skewness b64num filter_5) (lit b64num 5566088851459743 (-52)));
     (close_to (n := b64num) (Closeness (lit b64num 5902958103587057 (-69)) (@nmin b64num)) (dkurt_kurtosis b64num filter_5) (lit b64num 1791948514733515 (-50)));
     (close_to (n := b64num) (Closeness (lit b64num 5902958103587057 (-69)) (@nmin b64num)) (dkurt_mean b64num filter_6) (lit b64num 459510714229913 (-47)));
     (close_to (n := b64num) (Closeness (lit b64num 5902958103587057 (-69)) (@nmin b64num)) (dkurt_variance b64num filter_6) (lit b64num 7238770789061419 (-52)));
     (close_to (n := b64num) (Closeness (lit b64num 5902958103587057 (-69)) (@nmin b64num)) (dkurt_skewness b64num filter_6) (lit b64num 5412290924185041 (-52)));
     (close_to (n := b64num) (Closeness (lit b64num 5902958103587057 (-69)) (@nmin b64num)) (dkurt_kurtosis b64num filter_6) (lit b64num 3383644472036001 (-51)));
     (close_to (n := b64num) (Closeness (lit b64num 5902958103587057 (-69)) (@nmin b64num)) (dkurt_mean b64num filter_7) (lit b64num 4374402613060305 (-50)));
     (close_to (n := b64num) (Closeness (lit b64num 5902958103587057 (-69)) (@nmin b64num)) (dkurt_variance b64num filter_7) (lit b64num 5581333536198393 (-51)));
     (close_to (n := b64num) (Closeness (lit b64num 5902958103587057 (-69)) (@nmin b64num)) (dkurt_skewness b64num filter_7) (lit b64num 41299415957871 (-45)));
     (close_to (n := b64num) (Closeness (lit b64num 5902958103587057 (-69)) (@nmin b64num)) (dkurt_kurtosis b64num filter_7) (lit b64num 6439336819206883 (-52)));
     (close_to (n := b64num) (Closeness (lit b64num 5902958103587057 (-69)) (@nmin b64num)) (dkurt_mean b64num filter_8) (lit b64num 5096217043337111 (-50)));
     (close_to (n := b64num) (Closeness (lit b64num 5902958103587057 (-69)) (@nmin b64num)) (dkurt_variance b64num filter_8) (lit b64num 7946353844515735 (-51)));
     (close_to (n := b64num) (Closeness (lit b64num 5902958103587057 (-69)) (@nmin b64num)) (dkurt_skewness b64num filter_8) (lit b64num 1295190216835481 (-50)));
     (close_to (n := b64num) (Closeness (lit b64num 5902958103587057 (-69)) (@nmin b64num)) (dkurt_kurtosis b64num filter_8) (lit b64num 3083412002877347 (-51)));
     (close_to (n := b64num) (Closeness (lit b64num 5902958103587057 (-69)) (@nmin b64num)) (dkurt_mean b64num filter_9) (lit b64num 5841011090712575 (-50)));
     (close_to (n := b64num) (Closeness (lit b64num 5902958103587057 (-69)) (@nmin b64num)) (dkurt_variance b64num filter_9) (lit b64num 667869750990209 (-47)));
     (close_to (n := b64num) (Closeness (lit b64num 5902958103587057 (-69)) (@nmin b64num)) (dkurt_skewness b64num filter_9) (lit b64num 5090778946787061 (-52)));
     (close_to (n := b64num) (Closeness (lit b64num 5902958103587057 (-69)) (@nmin b64num)) (dkurt_kurtosis b64num filter_9) (lit b64num 5937320568743893 (-52)));
     (close_to (n := b64num) (Closeness (lit b64num 5902958103587057 (-69)) (@nmin b64num)) (dkurt_mean b64num filter_10) (lit b64num 3304088384618501 (-49)));
     (close_to (n := b64num) (Closeness (lit b64num 5902958103587057 (-69)) (@nmin b64num)) (dkurt_variance b64num filter_10) (lit b64num 6881680374607213 (-50)));
     (close_to (n := b64num) (Closeness (lit b64num 5902958103587057 (-69)) (@nmin b64num)) (dkurt_skewness b64num filter_10) (lit b64num 1253351776297209 (-50)));
     (close_to (n := b64num) (Closeness (lit b64num 5902958103587057 (-69)) (@nmin b64num)) (dkurt_kurtosis b64num filter_10) (lit b64num 2871044762448691 (-51)));
     (close_to (n := b64num) (Closeness (lit b64num 5902958103587057 (-69)) (@nmin b64num)) (dkurt_mean b64num filter_11) (lit b64num 924632632120553 (-47)));
     (close_to (n := b64num) (Closeness (lit b64num 5902958103587057 (-69)) (@nmin b64num)) (dkurt_variance b64num filter_11) (lit b64num 4283959073543637 (-49)));
     (close_to (n := b64num) (Closeness (lit b64num 5902958103587057 (-69)) (@nmin b64num)) (dkurt_skewness b64num filter_11) (lit b64num 4946393542733563 (-52)));
     (close_to (n := b64num) (Closeness (lit b64num 5902958103587057 (-69)) (@nmin b64num)) (dkurt_kurtosis b64num filter_11) (lit b64num 2787457953364695 (-51)))]) = true.
Proof. vm_compute. reflexivity. Qed.

(** test/decay/moment_suite.cpp:735 *)
Example decay_moment_kurtosis_double_suite_test_exponential_increase :
  (let filter_1 := dkurt_init b64num (lit b64num 1 (-3)) (lit b64num 1 (-2)) (lit b64num 1 (-2)) (lit b64num 1 (-2)) in
   let filter_2 := dkurt_push b64num filter_1 (lit b64num 1 0) in
   let filter_3 := dkurt_push b64num filter_2 (lit b64num 5 1) in
   let filter_4 := dkurt_push b64num filter_3 (lit b64num 25 2) in
   let filter_5 := dkurt_push b64num filter_4 (lit b64num 125 3) in
   let filter_6 := dkurt_push b64num filter_5 (lit b64num 625 4) in
   let filter_7 := dkurt_push b64num filter_6 (lit b64num 3125 5) in
   let filter_8 := dkurt_push b64num filter_7 (lit b64num 15625 6) in
   let filter_9 := dkurt_push b64num filter_8 (lit b64num 78125 7) in
   let filter_10 := dkurt_push b64num filter_9 (lit b64num 390625 8) in
   let filter_11 := dkurt_push b64num filter_10 (lit b64num 1953125 9) in
   all_true [(neq (n := b64num) (dkurt_mean b64num filter_2) (lit b64num 1 0));
     (close_to (n := b64num) (Closeness (lit b64num 5902958103587057 (-69)) (@nmin b64num)) (dkurt_variance b64num filter_2) (lit b64num 0 0));
     (close_to (n := b64num) (Closeness (lit b64num 5902958103587057 (-69)) (@nmin b64num)) (dkurt_skewness b64num filter_2) (lit b64num 0 0));
     (close_to (n := b64num) (Closeness (lit b64num 5902958103587057 (-69)) (@nmin b64num)) (dkurt_kurtosis b64num filter_2) (lit b64num 0 0));
     (close_to (n := b64num) (Closeness (lit b64num 5902958103587057 (-69)) (@nmin b64num)) (dkurt_mean b64num filter_3) (lit b64num 6530219459687219 (-50)));
     (close_to (n := b64num) (Closeness (lit b64num 5902958103587057 (-69)) (@nmin b64num)) (dkurt_variance b64num filter_3) (lit b64num 5674535530486825 (-49)));
     (close_to (n := b64num) (Closeness (lit b64num 5902958103587057 (-69)) (@nmin b64num)) (dkurt_skewness b64num filter_3) (lit b64num 2978860937527941 (-51)));
     (close_to (n := b64num) (Closeness (lit b64num 5902958103587057 (-69)) (@nmin b64num)) (dkurt_kurtosis b64num filter_3) (lit b64num 7 (-2)));
     (close_to (n := b64num) (Closeness (lit b64num 5902958103587057 (-69)) (@nmin b64num)) (dkurt_mean b64num filter_4) (lit b64num 1459215537388965 (-45)));
     (close_to (n := b64num) (Closeness (lit b64num 5902958103587057 (-69)) (@nmin b64num)) (dkurt_variance b64num filter_4) (lit b64num 1634929810037801 (-40)));
     (close_to (n := b64num) (Closeness (lit b64num 5902958103587057 (-69)) (@nmin b64num)) (dkurt_skewness b64num filter_4) (lit b64num 851371732557187 (-49)));
     (close_to (n := b64num) (Closeness (lit b64num 5902958103587057 (-69)) (@nmin b64num)) (dkurt_kurtosis b64num filter_4) (lit b64num 2583703847223385 (-50)));
     (close_to (n := b64num) (Closeness (lit b64num 5902958103587057 (-69)) (@nmin b64num)) (dkurt_mean b64num filter_5) (lit b64num 1455797375640535 (-42)));
     (close_to (n := b64num) (Closeness (lit b64num 5902958103587057 (-69)) (@nmin b64num)) (dkurt_variance b64num filter_5) (lit b64num 164617 0));
     (close_to (n := b64num) (Closeness (lit b64num 5902958103587057 (-69)) (@nmin b64num)) (dkurt_skewness b64num filter_5) (lit b64num 7386939216801909 (-52)));
     (close_to (n := b64num) (Closeness (lit b64num 5902958103587057 (-69)) (@nmin b64num)) (dkurt_kurtosis b64num filter_5) (lit b64num 6087177846344647 (-51)));
     (close_to (n := b64num) (Closeness (lit b64num 5902958103587057 (-69)) (@nmin b64num)) (dkurt_mean b64num filter_6) (lit b64num 6184357082054001 (-41)));
     (close_to (n := b64num) (Closeness (lit b64num 5902958103587057 (-69)) (@nmin b64num)) (dkurt_variance b64num filter_6) (lit b64num 4261225 2));
     (close_to (n := b64num) (Closeness (lit b64num 5902958103587057 (-69)) (@nmin b64num)) (dkurt_skewness b64num filter_6) (lit b64num 7794424911086391 (-52)));
     (close_to (n := b64num) (Closeness (lit b64num 5902958103587057 (-69)) (@nmin b64num)) (dkurt_kurtosis b64num filter_6) (lit b64num 3390613792459357 (-50)));
     (close_to (n := b64num) (Closeness (lit b64num 5902958103587057 (-69)) (@nmin b64num)) (dkurt_mean b64num filter_7) (lit b64num 6831320718953677 (-38)));
     (close_to (n := b64num) (Closeness (lit b64num 5902958103587057 (-69)) (@nmin b64num)) (dkurt_variance b64num filter_7) (lit b64num 108083125 4));
     (close_to (n := b64num) (Closeness (lit b64num 5902958103587057 (-69)) (@nmin b64num)) (dkurt_skewness b64num filter_7) (lit b64num 8087834426809579 (-52)));
     (close_to (n := b64num) (Closeness (lit b64num 5902958103587057 (-69)) (@nmin b64num)) (dkurt_kurtosis b64num filter_7) (lit b64num 912919050964739 (-48)));
     (close_to (n := b64num) (Closeness (lit b64num 5902958103587057 (-69)) (@nmin b64num)) (dkurt_mean b64num filter_8) (lit b64num 225565 0));
     (close_to (n := b64num) (Closeness (lit b64num 5902958103587057 (-69)) (@nmin b64num)) (dkurt_variance b64num filter_8) (lit b64num 2722890625 6));
     (close_to (n := b64num) (Closeness (lit b64num 5902958103587057 (-69)) (@nmin b64num)) (dkurt_skewness b64num filter_8) (lit b64num 8301575265124583 (-52)));
     (close_to (n := b64num) (Closeness (lit b64num 5902958103587057 (-69)) (@nmin b64num)) (dkurt_kurtosis b64num filter_8) (lit b64num 7695570899265609 (-51)));
     (close_to (n := b64num) (Closeness (lit b64num 5902958103587057 (-69)) (@nmin b64num)) (dkurt_mean b64num filter_9) (lit b64num 130435 4));
     (close_to (n := b64num) (Closeness (lit b64num 5902958103587057 (-69)) (@nmin b64num)) (dkurt_variance b64num filter_9) (lit b64num 34221484375 9));
     (close_to (n := b64num) (Closeness (lit b64num 5902958103587057 (-69)) (@nmin b64num)) (dkurt_skewness b64num filter_9) (lit b64num 8458480676142171 (-52)));
     (close_to (n := b64num) (Closeness (lit b64num 5902958103587057 (-69)) (@nmin b64num)) (dkurt_kurtosis b64num filter_9) (lit b64num 7989993724904955 (-51)));
     (close_to (n := b64num) (Closeness (lit b64num 5902958103587057 (-69)) (@nmin b64num)) (dkurt_mean b64num filter_10) (lit b64num 4896975 2));
     (close_to (n := b64num) (Closeness (lit b64num 5902958103587057 (-69)) (@nmin b64num)) (dkurt_variance b64num filter_10) (lit b64num 859638671875 11));
     (close_to (n := b64num) (Closeness (lit b64num 5902958103587057 (-69)) (@nmin b64num)) (dkurt_skewness b64num filter_10) (lit b64num 8574403330550687 (-52)));
     (close_to (n := b64num) (Closeness (lit b64num 5902958103587057 (-69)) (@nmin b64num)) (dkurt_kurtosis b64num filter_10) (lit b64num 8210917804625615 (-51)));
     (close_to (n := b64num) (Closeness (lit b64num 5902958103587057 (-69)) (@nmin b64num)) (dkurt_mean b64num filter_11) (lit b64num 23236125 3));
     (close_to (n := b64num) (Closeness (lit b64num 5902958103587057 (-69)) (@nmin b64num)) (dkurt_variance b64num filter_11) (lit b64num 10795654296875 14));
     (close_to (n := b64num) (Closeness (lit b64num 5902958103587057 (-69)) (@nmin b64num)) (dkurt_skewness b64num filter_11) (lit b64num 2165083002860229 (-50)));
     (close_to (n := b64num) (Closeness (lit b64num 5902958103587057 (-69)) (@nmin b64num)) (dkurt_kurtosis b64num filter_11) (lit b64num 8376650270912849 (-51)))]) = true.
Proof. vm_compute. reflexivity. Qed.

(** test/decay/moment_suite.cpp:792 *)
Example decay_moment_kurtosis_double_suite_test_left_skew :
  (let filter_1 := dkurt_init b64num (lit b64num 1 (-3)) (lit b64num 1 (-2)) (lit b64num 1 (-2)) (lit b64num 1 (-2)) in
   let filter_2 := dkurt_push b64num filter_1 (lit b64num 1 0) in
   let filter_3 := dkurt_push b64num filter_2 (lit b64num 1 1) in
   let filter_4 := dkurt_push b64num filter_3 (lit b64num 5 0) in
   let filter_5 := dkurt_push b64num filter_4 (lit b64num 15 0) in
   all_true [(neq (n := b64num) (dkurt_mean b64num filter_2) (lit b64num 1 0));
     (neq (n := b64num) (dkurt_variance b64num filter_2) (lit b64num 0 0));
     (neq (n := b64num) (dkurt_skewness b64num filter_2) (lit b64num 0 0));
     (neq (n := b64num) (dkurt_kurtosis b64num filter_2) (lit b64num 0 0));
     (close_to (n := b64num) (Closeness (lit b64num 5902958103587057 (-69)) (@nmin b64num)) (dkurt_mean b64num filter_3) (lit b64num 6905504416636003 (-52)));
     (close_to (n := b64num) (Closeness (lit b64num 5902958103587057 (-69)) (@nmin b64num)) (dkurt_variance b64num filter_3) (lit b64num 280222976014247 (-51)));
     (close_to (n := b64num) (Closeness (lit b64num 5902958103587057 (-69)) (@nmin b64num)) (dkurt_skewness b64num filter_3) (lit b64num 2978860937527941 (-51)));
     (close_to (n := b64num) (Closeness (lit b64num 5902958103587057 (-69)) (@nmin b64num)) (dkurt_kurtosis b64num filter_3) (lit b64num 7 (-2)));
     (close_to (n := b64num) (Closeness (lit b64num 5902958103587057 (-69)) (@nmin b64num)) (dkurt_mean b64num filter_4) (lit b64num 6408960039720269 (-51)));
     (close_to (n := b64num) (Closeness (lit b64num 5902958103587057 (-69)) (@nmin b64num)) (dkurt_variance b64num filter_4) (lit b64num 4676335191078291 (-51)));
     (close_to (n := b64num) (Closeness (lit b64num 5902958103587057 (-69)) (@nmin b64num)) (dkurt_skewness b64num filter_4) (lit b64num 1637947925475581 (-50)));
     (close_to (n := b64num) (Closeness (lit b64num 5902958103587057 (-69)) (@nmin b64num)) (dkurt_kurtosis b64num filter_4) (lit b64num 2433565094645921 (-50)));
     (close_to (n := b64num) (Closeness (lit b64num 5902958103587057 (-69)) (@nmin b64num)) (dkurt_mean b64num filter_5) (lit b64num 3668970026428059 (-49)));
     (close_to (n := b64num) (Closeness (lit b64num 5902958103587057 (-69)) (@nmin b64num)) (dkurt_variance b64num filter_5) (lit b64num 7777716556468847 (-48)));
     (close_to (n := b64num) (Closeness (lit b64num 5902958103587057 (-69)) (@nmin b64num)) (dkurt_skewness b64num filter_5) (lit b64num 875831908033343 (-49)));
     (close_to (n := b64num) (Closeness (lit b64num 5902958103587057 (-69)) (@nmin b64num)) (dkurt_kurtosis b64num filter_5) (lit b64num 2800833644257985 (-50)))]) = true.
Proof. vm_compute. reflexivity. Qed.

