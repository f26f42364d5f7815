(** * Conformance with test/impulse/finite_suite.cpp, test/impulse/infinite_suite.cpp

    Generated by tools/mkconformance.py: the unit tests of the repository,
    executed on the model.  These are tests of the transcription, not proofs of
    properties. *)

From Coq Require Import ZArith NArith Bool List QArith.
From Verif Require Import Arith Impulse CloseTo Conformance.
Import ListNotations.
Local Open Scope Z_scope.

(** test/impulse/finite_suite.cpp:22 *)
Example impulse_finite_double_1_suite_test_half :
  (let filter_1 := fir_new b64num [(lit b64num 1 (-1))] in
   let filter_2 := fir_push b64num filter_1 (lit b64num 1 0) in
   let filter_3 := fir_push b64num filter_2 (lit b64num 3 0) in
   let filter_4 := fir_push b64num filter_3 (lit b64num 5 0) in
   all_true [(N.eqb (fir_capacity b64num filter_1) 1);
     (fir_empty b64num filter_1);
     (negb (fir_full b64num filter_1));
     (N.eqb (fir_size b64num filter_1) 0);
     (close_to (n := b64num) (Closeness (lit b64num 5902958103587057 (-69)) (@nmin b64num)) (fir_value b64num filter_1) (lit b64num 0 0));
     (negb (fir_empty b64num filter_2));
     (fir_full b64num filter_2);
     (N.eqb (fir_size b64num filter_2) 1);
     (close_to (n := b64num) (Closeness (lit b64num 5902958103587057 (-69)) (@nmin b64num)) (fir_value b64num filter_2) (@nmul b64num (lit b64num 1 0) (lit b64num 1 (-1))));
     (N.eqb (fir_size b64num filter_3) 1);
     (close_to (n := b64num) (Closeness (lit b64num 5902958103587057 (-69)) (@nmin b64num)) (fir_value b64num filter_3) (@nmul b64num (lit b64num 3 0) (lit b64num 1 (-1))));
     (close_to (n := b64num) (Closeness (lit b64num 5902958103587057 (-69)) (@nmin b64num)) (fir_value b64num filter_4) (@nmul b64num (lit b64num 5 0) (lit b64num 1 (-1))))]) = true.
Proof. vm_compute. reflexivity. Qed.

(** test/impulse/finite_suite.cpp:43 *)
Example impulse_finite_double_1_suite_test_quarter :
  (let filter_1 := fir_new b64num [(lit b64num 1 (-2))] in
   let filter_2 := fir_push b64num filter_1 (lit b64num 1 0) in
   let filter_3 := fir_push b64num filter_2 (lit b64num 1 0) in
   let filter_4 := fir_push b64num filter_3 (lit b64num 1 1) in
   let filter_5 := fir_push b64num filter_4 (lit b64num 3 0) in
   all_true [(neq (n := b64num) (fir_value b64num filter_1) (lit b64num 0 0));
     (close_to (n := b64num) (Closeness (lit b64num 5902958103587057 (-69)) (@nmin b64num)) (fir_value b64num filter_2) (@nmul b64num (lit b64num 1 0) (lit b64num 1 (-2))));
     (close_to (n := b64num) (Closeness (lit b64num 5902958103587057 (-69)) (@nmin b64num)) (fir_value b64num filter_3) (@nmul b64num (lit b64num 1 0) (lit b64num 1 (-2))));
     (close_to (n := b64num) (Closeness (lit b64num 5902958103587057 (-69)) (@nmin b64num)) (fir_value b64num filter_4) (@nmul b64num (lit b64num 1 1) (lit b64num 1 (-2))));
     (close_to (n := b64num) (Closeness (lit b64num 5902958103587057 (-69)) (@nmin b64num)) (fir_value b64num filter_5) (@nmul b64num (lit b64num 3 0) (lit b64num 1 (-2))))]) = true.
Proof. vm_compute. reflexivity. Qed.

(** test/impulse/finite_suite.cpp:69 *)
Example impulse_finite_double_2_suite_test_half_half :
  (let filter_1 := fir_new b64num [(lit b64num 1 (-1)); (lit b64num 1 (-1))] in
   let filter_2 := fir_push b64num filter_1 (lit b64num 1 0) in
   let filter_3 := fir_push b64num filter_2 (lit b64num 3 0) in
   let filter_4 := fir_push b64num filter_3 (lit b64num 3 1) in
   all_true [(N.eqb (fir_capacity b64num filter_1) 2);
     (fir_empty b64num filter_1);
     (negb (fir_full b64num filter_1));
     (N.eqb (fir_size b64num filter_1) 0);
     (neq (n := b64num) (fir_value b64num filter_1) (lit b64num 0 0));
     (negb (fir_empty b64num filter_2));
     (negb (fir_full b64num filter_2));
     (N.eqb (fir_size b64num filter_2) 1);
     (close_to (n := b64num) (Closeness (lit b64num 5902958103587057 (-69)) (@nmin b64num)) (fir_value b64num filter_2) (lit b64num 1 (-1)));
     (negb (fir_empty b64num filter_3));
     (fir_full b64num filter_3);
     (N.eqb (fir_size b64num filter_3) 2);
     (close_to (n := b64num) (Closeness (lit b64num 5902958103587057 (-69)) (@nmin b64num)) (fir_value b64num filter_3) (@nadd b64num (@nmul b64num (lit b64num 3 0) (lit b64num 1 (-1))) (@nmul b64num (lit b64num 1 0) (lit b64num 1 (-1)))));
     (N.eqb (fir_size b64num filter_4) 2);
     (close_to (n := b64num) (Closeness (lit b64num 5902958103587057 (-69)) (@nmin b64num)) (fir_value b64num filter_4) (@nadd b64num (@nmul b64num (lit b64num 3 1) (lit b64num 1 (-1))) (@nmul b64num (lit b64num 3 0) (lit b64num 1 (-1)))))]) = true.
Proof. vm_compute. reflexivity. Qed.

(** test/impulse/finite_suite.cpp:93 *)
Example impulse_finite_double_2_suite_test_half_quarter :
  (let filter_1 := fir_new b64num [(lit b64num 1 (-1)); (lit b64num 1 (-2))] in
   let filter_2 := fir_push b64num filter_1 (lit b64num 1 0) in
   let filter_3 := fir_push b64num filter_2 (lit b64num 3 0) in
   let filter_4 := fir_push b64num filter_3 (lit b64num 3 1) in
   let filter_5 := fir_push b64num filter_4 (lit b64num 9 0) in
   all_true [(close_to (n := b64num) (Closeness (lit b64num 5902958103587057 (-69)) (@nmin b64num)) (fir_value b64num filter_2) (@nmul b64num (lit b64num 1 0) (lit b64num 1 (-1))));
     (close_to (n := b64num) (Closeness (lit b64num 5902958103587057 (-69)) (@nmin b64num)) (fir_value b64num filter_3) (@nadd b64num (@nmul b64num (lit b64num 3 0) (lit b64num 1 (-1))) (@nmul b64num (lit b64num 1 0) (lit b64num 1 (-2)))));
     (close_to (n := b64num) (Closeness (lit b64num 5902958103587057 (-69)) (@nmin b64num)) (fir_value b64num filter_4) (@nadd b64num (@nmul b64num (lit b64num 3 1) (lit b64num 1 (-1))) (@nmul b64num (lit b64num 3 0) (lit b64num 1 (-2)))));
     (close_to (n := b64num) (Closeness (lit b64num 5902958103587057 (-69)) (@nmin b64num)) (fir_value b64num filter_5) (@nadd b64num (@nmul b64num (lit b64num 9 0) (lit b64num 1 (-1))) (@nmul b64num (lit b64num 3 1) (lit b64num 1 (-2)))))]) = true.
Proof. vm_compute. reflexivity. Qed.

(** test/impulse/infinite_suite.cpp:23 *)
Example impulse_infinite_api_suite_test_empty :
  (let filter_1 := iir_new b64num [(lit b64num 1 0)] [(lit b64num 1 0)] (lit b64num 1 0) in
   let filter_2 := iir_push b64num filter_1 (lit b64num 1 0) in
   all_true [(iir_empty b64num filter_1);
     (negb (iir_empty b64num filter_2))]) = true.
Proof. vm_compute. reflexivity. Qed.

(** test/impulse/infinite_suite.cpp:31 *)
Example impulse_infinite_api_suite_test_value :
  (let filter_1 := iir_new b64num [(lit b64num 1 0)] [(lit b64num 1 0)] (lit b64num 1 0) in
   all_true [(iir_empty b64num filter_1);
     (neq (n := b64num) (iir_value b64num filter_1) (lit b64num 0 0))]) = true.
Proof. vm_compute. reflexivity. Qed.

(** test/impulse/infinite_suite.cpp:51 *)
Example impulse_infinite_double_1_1_suite_test_input_one_output_one :
  (let filter_1 := iir_new b64num [(lit b64num 1 0)] [(lit b64num 1 0)] (lit b64num 1 0) in
   let filter_2 := iir_push b64num filter_1 (lit b64num 1 0) in
   let filter_3 := iir_push b64num filter_2 (lit b64num 1 1) in
   let filter_4 := iir_push b64num filter_3 (lit b64num 3 0) in
   all_true [(close_to (n := b64num) (Closeness (lit b64num 5902958103587057 (-69)) (@nmin b64num)) (iir_value b64num filter_2) (@nmul b64num (lit b64num 1 0) (lit b64num 1 0)));
     (close_to (n := b64num) (Closeness (lit b64num 5902958103587057 (-69)) (@nmin b64num)) (iir_value b64num filter_3) (@nsub b64num (@nmul b64num (lit b64num 1 1) (lit b64num 1 0)) (@nmul b64num (iir_value b64num filter_2) (lit b64num 1 0))));
     (close_to (n := b64num) (Closeness (lit b64num 5902958103587057 (-69)) (@nmin b64num)) (iir_value b64num filter_4) (@nsub b64num (@nmul b64num (lit b64num 3 0) (lit b64num 1 0)) (@nmul b64num (iir_value b64num filter_3) (lit b64num 1 0))))]) = true.
Proof. vm_compute. reflexivity. Qed.

(** test/impulse/infinite_suite.cpp:67 *)
Example impulse_infinite_double_1_1_suite_test_input_one_output_one_scale_half :
  (let filter_1 := iir_new b64num [(lit b64num 1 0)] [(lit b64num 1 0)] (lit b64num 1 1) in
   let filter_2 := iir_push b64num filter_1 (lit b64num 1 0) in
   let filter_3 := iir_push b64num filter_2 (lit b64num 1 1) in
   let filter_4 := iir_push b64num filter_3 (lit b64num 3 0) in
   all_true [(close_to (n := b64num) (Closeness (lit b64num 5902958103587057 (-69)) (@nmin b64num)) (iir_value b64num filter_2) (@ndiv b64num (@nmul b64num (lit b64num 1 0) (lit b64num 1 0)) (lit b64num 1 1)));
     (close_to (n := b64num) (Closeness (lit b64num 5902958103587057 (-69)) (@nmin b64num)) (iir_value b64num filter_3) (@ndiv b64num (@nsub b64num (@nmul b64num (lit b64num 1 1) (lit b64num 1 0)) (iir_value b64num filter_2)) (lit b64num 1 1)));
     (close_to (n := b64num) (Closeness (lit b64num 5902958103587057 (-69)) (@nmin b64num)) (iir_value b64num filter_4) (@ndiv b64num (@nsub b64num (@nmul b64num (lit b64num 3 0) (lit b64num 1 0)) (iir_value b64num filter_3)) (lit b64num 1 1)))]) = true.
Proof. vm_compute. reflexivity. Qed.

(** test/impulse/infinite_suite.cpp:84 *)
Example impulse_infinite_double_1_1_suite_test_input_half_output_half :
  (let filter_1 := iir_new b64num [(lit b64num 1 (-1))] [(lit b64num 1 (-1))] (lit b64num 1 0) in
   let filter_2 := iir_push b64num filter_1 (lit b64num 1 0) in
   let filter_3 := iir_push b64num filter_2 (lit b64num 1 1) in
   let filter_4 := iir_push b64num filter_3 (lit b64num 3 0) in
   all_true [(close_to (n := b64num) (Closeness (lit b64num 5902958103587057 (-69)) (@nmin b64num)) (iir_value b64num filter_2) (@nmul b64num (lit b64num 1 0) (lit b64num 1 (-1))));
     (close_to (n := b64num) (Closeness (lit b64num 5902958103587057 (-69)) (@nmin b64num)) (iir_value b64num filter_3) (@nsub b64num (@nmul b64num (lit b64num 1 1) (lit b64num 1 (-1))) (@nmul b64num (iir_value b64num filter_2) (lit b64num 1 (-1)))));
     (close_to (n := b64num) (Closeness (lit b64num 5902958103587057 (-69)) (@nmin b64num)) (iir_value b64num filter_4) (@nsub b64num (@nmul b64num (lit b64num 3 0) (lit b64num 1 (-1))) (@nmul b64num (iir_value b64num filter_3) (lit b64num 1 (-1)))))]) = true.
Proof. vm_compute. reflexivity. Qed.

(** test/impulse/infinite_suite.cpp:100 *)
Example impulse_infinite_double_1_1_suite_test_input_half_output_quarter :
  (let filter_1 := iir_new b64num [(lit b64num 1 (-1))] [(lit b64num 1 (-2))] (lit b64num 1 0) in
   let filter_2 := iir_push b64num filter_1 (lit b64num 1 0) in
   let filter_3 := iir_push b64num filter_2 (lit b64num 1 1) in
   let filter_4 := iir_push b64num filter_3 (lit b64num 3 0) in
   all_true [(close_to (n := b64num) (Closeness (lit b64num 5902958103587057 (-69)) (@nmin b64num)) (iir_value b64num filter_2) (@nmul b64num (lit b64num 1 0) (lit b64num 1 (-1))));
     (close_to (n := b64num) (Closeness (lit b64num 5902958103587057 (-69)) (@nmin b64num)) (iir_value b64num filter_3) (@nsub b64num (@nmul b64num (lit b64num 1 1) (lit b64num 1 (-1))) (@nmul b64num (iir_value b64num filter_2) (lit b64num 1 (-2)))));
     (close_to (n := b64num) (Closeness (lit b64num 5902958103587057 (-69)) (@nmin b64num)) (iir_value b64num filter_4) (@nsub b64num (@nmul b64num (lit b64num 3 0) (lit b64num 1 (-1))) (@nmul b64num (iir_value b64num filter_3) (lit b64num 1 (-2)))))]) = true.
Proof. vm_compute. reflexivity. Qed.

(** test/impulse/infinite_suite.cpp:131 *)
Example impulse_infinite_double_1_2_suite_test_input_half_output_half_half :
  (let filter_1 := iir_new b64num [(lit b64num 1 (-1))] [(lit b64num 1 (-1)); (lit b64num 1 (-1))] (lit b64num 1 0) in
   let filter_2 := iir_push b64num filter_1 (lit b64num 1 0) in
   let filter_3 := iir_push b64num filter_2 (lit b64num 1 1) in
   let filter_4 := iir_push b64num filter_3 (lit b64num 3 0) in
   let filter_5 := iir_push b64num filter_4 (lit b64num 1 2) in
   all_true [(close_to (n := b64num) (Closeness (lit b64num 5902958103587057 (-69)) (@nmin b64num)) (iir_value b64num filter_2) (@nmul b64num (lit b64num 1 0) (lit b64num 1 (-1))));
     (close_to (n := b64num) (Closeness (lit b64num 5902958103587057 (-69)) (@nmin b64num)) (iir_value b64num filter_3) (@nsub b64num (@nmul b64num (lit b64num 1 1) (lit b64num 1 (-1))) (@nmul b64num (iir_value b64num filter_2) (lit b64num 1 (-1)))));
     (close_to (n := b64num) (Closeness (lit b64num 5902958103587057 (-69)) (@nmin b64num)) (iir_value b64num filter_4) (@nsub b64num (@nsub b64num (@nmul b64num (lit b64num 3 0) (lit b64num 1 (-1))) (@nmul b64num (iir_value b64num filter_3) (lit b64num 1 (-1)))) (@nmul b64num (iir_value b64num filter_2) (lit b64num 1 (-1)))));
     (close_to (n := b64num) (Closeness (lit b64num 5902958103587057 (-69)) (@nmin b64num)) (iir_value b64num filter_5) (@nsub b64num (@nsub b64num (@nmul b64num (lit b64num 1 2) (lit b64num 1 (-1))) (@nmul b64num (iir_value b64num filter_4) (lit b64num 1 (-1)))) (@nmul b64num (iir_value b64num filter_3) (lit b64num 1 (-1)))))]) = true.
Proof. vm_compute. reflexivity. Qed.

(** test/impulse/infinite_suite.cpp:150 *)
Example impulse_infinite_double_1_2_suite_test_input_half_output_half_quarter :
  (let filter_1 := iir_new b64num [(lit b64num 1 (-1))] [(lit b64num 1 (-1)); (lit b64num 1 (-2))] (lit b64num 1 0) in
   let filter_2 := iir_push b64num filter_1 (lit b64num 1 0) in
   let filter_3 := iir_push b64num filter_2 (lit b64num 1 1) in
   let filter_4 := iir_push b64num filter_3 (lit b64num 3 0) in
   let filter_5 := iir_push b64num filter_4 (lit b64num 1 2) in
   all_true [(close_to (n := b64num) (Closeness (lit b64num 5902958103587057 (-69)) (@nmin b64num)) (iir_value b64num filter_2) (@nmul b64num (lit b64num 1 0) (lit b64num 1 (-1))));
     (close_to (n := b64num) (Closeness (lit b64num 5902958103587057 (-69)) (@nmin b64num)) (iir_value b64num filter_3) (@nsub b64num (@nmul b64num (lit b64num 1 1) (lit b64num 1 (-1))) (@nmul b64num (iir_value b64num filter_2) (lit b64num 1 (-1)))));
     (close_to (n := b64num) (Closeness (lit b64num 5902958103587057 (-69)) (@nmin b64num)) (iir_value b64num filter_4) (@nsub b64num (@nsub b64num (@nmul b64num (lit b64num 3 0) (lit b64num 1 (-1))) (@nmul b64num (iir_value b64num filter_3) (lit b64num 1 (-1)))) (@nmul b64num (iir_value b64num filter_2) (lit b64num 1 (-2)))));
     (close_to (n := b64num) (Closeness (lit b64num 5902958103587057 (-69)) (@nmin b64num)) (iir_value b64num filter_5) (@nsub b64num (@nsub b64num (@nmul b64num (lit b64num 1 2) (lit b64num 1 (-1))) (@nmul b64num (iir_value b64num filter_4) (lit b64num 1 (-1)))) (@nmul b64num (iir_value b64num filter_3) (lit b64num 1 (-2)))))]) = true.
Proof. vm_compute. reflexivity. Qed.

(** test/impulse/infinite_suite.cpp:182 *)
Example impulse_infinite_double_2_1_suite_test_input_half_half_output_half :
  (let filter_1 := iir_new b64num [(lit b64num 1 (-1)); (lit b64num 1 (-1))] [(lit b64num 1 (-1))] (lit b64num 1 0) in
   let filter_2 := iir_push b64num filter_1 (lit b64num 1 0) in
   let filter_3 := iir_push b64num filter_2 (lit b64num 1 1) in
   let filter_4 := iir_push b64num filter_3 (lit b64num 3 0) in
   let filter_5 := iir_push b64num filter_4 (lit b64num 1 2) in
   all_true [(close_to (n := b64num) (Closeness (lit b64num 5902958103587057 (-69)) (@nmin b64num)) (iir_value b64num filter_2) (@nmul b64num (lit b64num 1 0) (lit b64num 1 (-1))));
     (close_to (n := b64num) (Closeness (lit b64num 5902958103587057 (-69)) (@nmin b64num)) (iir_value b64num filter_3) (@nsub b64num (@nadd b64num (@nmul b64num (lit b64num 1 1) (lit b64num 1 (-1))) (@nmul b64num (lit b64num 1 0) (lit b64num 1 (-1)))) (@nmul b64num (iir_value b64num filter_2) (lit b64num 1 (-1)))));
     (close_to (n := b64num) (Closeness (lit b64num 5902958103587057 (-69)) (@nmin b64num)) (iir_value b64num filter_4) (@nsub b64num (@nadd b64num (@nmul b64num (lit b64num 3 0) (lit b64num 1 (-1))) (@nmul b64num (lit b64num 1 1) (lit b64num 1 (-1)))) (@nmul b64num (iir_value b64num filter_3) (lit b64num 1 (-1)))));
     (close_to (n := b64num) (Closeness (lit b64num 5902958103587057 (-69)) (@nmin b64num)) (iir_value b64num filter_5) (@nsub b64num (@nadd b64num (@nmul b64num (lit b64num 1 2) (lit b64num 1 (-1))) (@nmul b64num (lit b64num 3 0) (lit b64num 1 (-1)))) (@nmul b64num (iir_value b64num filter_4) (lit b64num 1 (-1)))))]) = true.
Proof. vm_compute. reflexivity. Qed.

(** test/impulse/infinite_suite.cpp:201 *)
Example impulse_infinite_double_2_1_suite_test_input_half_quarter_output_half :
  (let filter_1 := iir_new b64num [(lit b64num 1 (-1)); (lit b64num 1 (-2))] [(lit b64num 1 (-1))] (lit b64num 1 0) in
   let filter_2 := iir_push b64num filter_1 (lit b64num 1 0) in
   let filter_3 := iir_push b64num filter_2 (lit b64num 1 1) in
   let filter_4 := iir_push b64num filter_3 (lit b64num 3 0) in
   let filter_5 := iir_push b64num filter_4 (lit b64num 1 2) in
   all_true [(close_to (n := b64num) (Closeness (lit b64num 5902958103587057 (-69)) (@nmin b64num)) (iir_value b64num filter_2) (@nmul b64num (lit b64num 1 0) (lit b64num 1 (-1))));
     (close_to (n := b64num) (Closeness (lit b64num 5902958103587057 (-69)) (@nmin b64num)) (iir_value b64num filter_3) (@nsub b64num (@nadd b64num (@nmul b64num (lit b64num 1 1) (lit b64num 1 (-1))) (@nmul b64num (lit b64num 1 0) (lit b64num 1 (-2)))) (@nmul b64num (iir_value b64num filter_2) (lit b64num 1 (-1)))));
     (close_to (n := b64num) (Closeness (lit b64num 5902958103587057 (-69)) (@nmin b64num)) (iir_value b64num filter_4) (@nsub b64num (@nadd b64num (@nmul b64num (lit b64num 3 0) (lit b64num 1 (-1))) (@nmul b64num (lit b64num 1 1) (lit b64num 1 (-2)))) (@nmul b64num (iir_value b64num filter_3) (lit b64num 1 (-1)))));
     (close_to (n := b64num) (Closeness (lit b64num 5902958103587057 (-69)) (@nmin b64num)) (iir_value b64num filter_5) (@nsub b64num (@nadd b64num (@nmul b64num (lit b64num 1 2) (lit b64num 1 (-1))) (@nmul b64num (lit b64num 3 0) (lit b64num 1 (-2)))) (@nmul b64num (iir_value b64num filter_4) (lit b64num 1 (-1)))))]) = true.
Proof. vm_compute. reflexivity. Qed.

(** test/impulse/infinite_suite.cpp:233 *)
Example impulse_infinite_double_3_3_suite_test_first :
  (let filter_1 := iir_new b64num [(lit b64num 1 0); (lit b64num 3602879701896397 (-54)); (lit b64num 5404319552844595 (-54))] [(lit b64num 3602879701896397 (-55)); (lit b64num 1 (-1)); (lit b64num 1 (-2))] (lit b64num 1 0) in
   let filter_2 := iir_push b64num filter_1 (lit b64num 5 1) in
   let filter_3 := iir_push b64num filter_2 (lit b64num 5 0) in
   let filter_4 := iir_push b64num filter_3 (lit b64num 5 2) in
   let filter_5 := iir_push b64num filter_4 (lit b64num (-5) 1) in
   let filter_6 := iir_push b64num filter_5 (lit b64num (-5) 0) in
   all_true [(close_to (n := b64num) (Closeness (lit b64num 5902958103587057 (-69)) (@nmin b64num)) (iir_value b64num filter_2) (@nmul b64num (lit b64num 5 1) (lit b64num 1 0)));
     (close_to (n := b64num) (Closeness (lit b64num 5902958103587057 (-69)) (@nmin b64num)) (iir_value b64num filter_3) (@nsub b64num (@nadd b64num (@nmul b64num (lit b64num 5 0) (lit b64num 1 0)) (@nmul b64num (lit b64num 5 1) (lit b64num 3602879701896397 (-54)))) (@nmul b64num (lit b64num 3602879701896397 (-55)) (iir_value b64num filter_2))));
     (close_to (n := b64num) (Closeness (lit b64num 5902958103587057 (-69)) (@nmin b64num)) (iir_value b64num filter_4) (@nsub b64num (@nsub b64num (@nadd b64num (@nadd b64num (@nmul b64num (lit b64num 5 2) (lit b64num 1 0)) (@nmul b64num (lit b64num 5 0) (lit b64num 3602879701896397 (-54)))) (@nmul b64num (lit b64num 5 1) (lit b64num 5404319552844595 (-54)))) (@nmul b64num (lit b64num 3602879701896397 (-55)) (iir_value b64num filter_3))) (@nmul b64num (lit b64num 1 (-1)) (iir_value b64num filter_2))));
     (close_to (n := b64num) (Closeness (lit b64num 5902958103587057 (-69)) (@nmin b64num)) (iir_value b64num filter_5) (@nsub b64num (@nsub b64num (@nsub b64num (@nadd b64num (@nadd b64num (@nmul b64num (lit b64num (-5) 1) (lit b64num 1 0)) (@nmul b64num (lit b64num 5 2) (lit b64num 3602879701896397 (-54)))) (@nmul b64num (lit b64num 5 0) (lit b64num 5404319552844595 (-54)))) (@nmul b64num (lit b64num 3602879701896397 (-55)) (iir_value b64num filter_4))) (@nmul b64num (lit b64num 1 (-1)) (iir_value b64num filter_3))) (@nmul b64num (lit b64num 1 (-2)) (iir_value b64num filter_2))));
     (close_to (n := b64num) (Closeness (lit b64num 5902958103587057 (-69)) (@nmin b64num)) (iir_value b64num filter_6) (@nsub b64num (@nsub b64num (@nsub b64num (@nadd b64num (@nsub b64num (@nmul b64num (lit b64num (-5) 0) (lit b64num 1 0)) (@nmul b64num (lit b64num 5 1) (lit b64num 3602879701896397 (-54)))) (@nmul b64num (lit b64num 5 2) (lit b64num 5404319552844595 (-54)))) (@nmul b64num (lit b64num 3602879701896397 (-55)) (iir_value b64num filter_5))) (@nmul b64num (lit b64num 1 (-1)) (iir_value b64num filter_4))) (@nmul b64num (lit b64num 1 (-2)) (iir_value b64num filter_3))))]) = true.
Proof. vm_compute. reflexivity. Qed.

