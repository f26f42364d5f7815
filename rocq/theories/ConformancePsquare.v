(** * Conformance with test/quantile/psquare_suite.cpp

    Generated by tools/mkconformance.py: the unit tests of the repository,
    executed on the model.  These are tests of the transcription, not proofs of
    properties. *)

From Coq Require Import ZArith NArith Bool List QArith.
From Verif Require Import Arith Psquare CloseTo Conformance.
Import ListNotations.
Local Open Scope Z_scope.

(** test/quantile/psquare_suite.cpp:24 *)
Example quantile_psquare_api_suite_test_ctor :
  (let filter_1 := psq_init b64num (map (ratio_value b64num) [(1#2)]%Q) in
   let filter_2 := psq_push b64num (map (ratio_value b64num) [(1#2)]%Q) filter_1 (lit b64num 1 0) in
   let assign_3 := psq_init b64num (map (ratio_value b64num) [(1#2)]%Q) in
   let massign_4 := psq_init b64num (map (ratio_value b64num) [(1#2)]%Q) in
   all_true [(negb (psq_empty b64num filter_2));
     (negb (psq_empty b64num filter_2));
     (negb (psq_empty b64num filter_2));
     (negb (psq_empty b64num filter_2));
     (negb (psq_empty b64num filter_2))]) = true.
Proof. vm_compute. reflexivity. Qed.

(** test/quantile/psquare_suite.cpp:49 *)
Example quantile_psquare_api_suite_test_empty :
  (let quantile_1 := psq_init b64num (map (ratio_value b64num) [(1#2)]%Q) in
   let quantile_2 := psq_push b64num (map (ratio_value b64num) [(1#2)]%Q) quantile_1 (lit b64num 1 0) in
   all_true [(psq_empty b64num quantile_1);
     (negb (psq_empty b64num quantile_2))]) = true.
Proof. vm_compute. reflexivity. Qed.

(** test/quantile/psquare_suite.cpp:57 *)
Example quantile_psquare_api_suite_test_clear :
  (let quantile_1 := psq_init b64num (map (ratio_value b64num) [(1#2)]%Q) in
   let quantile_2 := psq_push b64num (map (ratio_value b64num) [(1#2)]%Q) quantile_1 (lit b64num 1 0) in
   let quantile_3 := psq_push b64num (map (ratio_value b64num) [(1#2)]%Q) quantile_2 (lit b64num 1 1) in
   let quantile_4 := psq_push b64num (map (ratio_value b64num) [(1#2)]%Q) quantile_3 (lit b64num 3 0) in
   let quantile_5 := psq_clear b64num (map (ratio_value b64num) [(1#2)]%Q) quantile_4 in
   all_true [(negb (psq_empty b64num quantile_4));
     (neq (n := b64num) (get_or_nan (psq_value b64num (ratio_value b64num) [(1#2)]%Q quantile_4 (1#2)%Q)) (lit b64num 1 1));
     (psq_empty b64num quantile_5);
     (neq (n := b64num) (get_or_nan (psq_value b64num (ratio_value b64num) [(1#2)]%Q quantile_5 (1#2)%Q)) (lit b64num 0 0))]) = true.
Proof. vm_compute. reflexivity. Qed.

(** test/quantile/psquare_suite.cpp:70 *)
Example quantile_psquare_api_suite_test_value :
  (let quantile_1 := psq_init b64num (map (ratio_value b64num) [(1#4); (1#2); (3#4)]%Q) in
   let quantile_2 := psq_push b64num (map (ratio_value b64num) [(1#4); (1#2); (3#4)]%Q) quantile_1 (lit b64num 1 0) in
   let quantile_3 := psq_push b64num (map (ratio_value b64num) [(1#4); (1#2); (3#4)]%Q) quantile_2 (lit b64num 1 1) in
   let quantile_4 := psq_push b64num (map (ratio_value b64num) [(1#4); (1#2); (3#4)]%Q) quantile_3 (lit b64num 3 0) in
   let quantile_5 := psq_push b64num (map (ratio_value b64num) [(1#4); (1#2); (3#4)]%Q) quantile_4 (lit b64num 1 2) in
   let quantile_6 := psq_push b64num (map (ratio_value b64num) [(1#4); (1#2); (3#4)]%Q) quantile_5 (lit b64num 5 0) in
   let quantile_7 := psq_push b64num (map (ratio_value b64num) [(1#4); (1#2); (3#4)]%Q) quantile_6 (lit b64num 3 1) in
   let quantile_8 := psq_push b64num (map (ratio_value b64num) [(1#4); (1#2); (3#4)]%Q) quantile_7 (lit b64num 7 0) in
   let quantile_9 := psq_push b64num (map (ratio_value b64num) [(1#4); (1#2); (3#4)]%Q) quantile_8 (lit b64num 1 3) in
   let quantile_10 := psq_push b64num (map (ratio_value b64num) [(1#4); (1#2); (3#4)]%Q) quantile_9 (lit b64num 9 0) in
   let quantile_11 := psq_push b64num (map (ratio_value b64num) [(1#4); (1#2); (3#4)]%Q) quantile_10 (lit b64num 5 1) in
   all_true [(close_to (n := b64num) (Closeness (lit b64num 5902958103587057 (-69)) (@nmin b64num)) (get_or_nan (psq_value b64num (ratio_value b64num) [(1#4); (1#2); (3#4)]%Q quantile_6 0%Q)) (lit b64num 1 0));
     (close_to (n := b64num) (Closeness (lit b64num 5902958103587057 (-69)) (@nmin b64num)) (get_or_nan (psq_value b64num (ratio_value b64num) [(1#4); (1#2); (3#4)]%Q quantile_6 (1#2)%Q)) (lit b64num 3 0));
     (close_to (n := b64num) (Closeness (lit b64num 5902958103587057 (-69)) (@nmin b64num)) (get_or_nan (psq_value b64num (ratio_value b64num) [(1#4); (1#2); (3#4)]%Q quantile_6 (3#4)%Q)) (lit b64num 1 2));
     (close_to (n := b64num) (Closeness (lit b64num 5902958103587057 (-69)) (@nmin b64num)) (get_or_nan (psq_value b64num (ratio_value b64num) [(1#4); (1#2); (3#4)]%Q quantile_6 1%Q)) (lit b64num 5 0));
     (close_to (n := b64num) (Closeness (lit b64num 5902958103587057 (-69)) (@nmin b64num)) (get_or_nan (psq_value b64num (ratio_value b64num) [(1#4); (1#2); (3#4)]%Q quantile_6 (1#2)%Q)) (get_or_nan (psq_value b64num (ratio_value b64num) [(1#4); (1#2); (3#4)]%Q quantile_6 (1#2)%Q)));
     (close_to (n := b64num) (Closeness (lit b64num 5902958103587057 (-69)) (@nmin b64num)) (get_or_nan (psq_value b64num (ratio_value b64num) [(1#4); (1#2); (3#4)]%Q quantile_11 0%Q)) (lit b64num 1 0));
     (close_to (n := b64num) (Closeness (lit b64num 5902958103587057 (-69)) (@nmin b64num)) (get_or_nan (psq_value b64num (ratio_value b64num) [(1#4); (1#2); (3#4)]%Q quantile_11 (1#4)%Q)) (lit b64num 3 0));
     (close_to (n := b64num) (Closeness (lit b64num 5902958103587057 (-69)) (@nmin b64num)) (get_or_nan (psq_value b64num (ratio_value b64num) [(1#4); (1#2); (3#4)]%Q quantile_11 (1#2)%Q)) (lit b64num 5 0));
     (close_to (n := b64num) (Closeness (lit b64num 5902958103587057 (-69)) (@nmin b64num)) (get_or_nan (psq_value b64num (ratio_value b64num) [(1#4); (1#2); (3#4)]%Q quantile_11 (3#4)%Q)) (lit b64num 7 0));
     (close_to (n := b64num) (Closeness (lit b64num 5902958103587057 (-69)) (@nmin b64num)) (get_or_nan (psq_value b64num (ratio_value b64num) [(1#4); (1#2); (3#4)]%Q quantile_11 1%Q)) (lit b64num 5 1))]) = true.
Proof. vm_compute. reflexivity. Qed.

(** test/quantile/psquare_suite.cpp:96 *)
Example quantile_psquare_api_suite_test_get :
  (let quantile_1 := psq_init b64num (map (ratio_value b64num) [(1#4); (1#2); (3#4)]%Q) in
   let quantile_2 := psq_push b64num (map (ratio_value b64num) [(1#4); (1#2); (3#4)]%Q) quantile_1 (lit b64num 1 0) in
   let quantile_3 := psq_push b64num (map (ratio_value b64num) [(1#4); (1#2); (3#4)]%Q) quantile_2 (lit b64num 1 1) in
   let quantile_4 := psq_push b64num (map (ratio_value b64num) [(1#4); (1#2); (3#4)]%Q) quantile_3 (lit b64num 3 0) in
   let quantile_5 := psq_push b64num (map (ratio_value b64num) [(1#4); (1#2); (3#4)]%Q) quantile_4 (lit b64num 1 2) in
   let quantile_6 := psq_push b64num (map (ratio_value b64num) [(1#4); (1#2); (3#4)]%Q) quantile_5 (lit b64num 5 0) in
   let quantile_7 := psq_push b64num (map (ratio_value b64num) [(1#4); (1#2); (3#4)]%Q) quantile_6 (lit b64num 3 1) in
   let quantile_8 := psq_push b64num (map (ratio_value b64num) [(1#4); (1#2); (3#4)]%Q) quantile_7 (lit b64num 7 0) in
   let quantile_9 := psq_push b64num (map (ratio_value b64num) [(1#4); (1#2); (3#4)]%Q) quantile_8 (lit b64num 1 3) in
   let quantile_10 := psq_push b64num (map (ratio_value b64num) [(1#4); (1#2); (3#4)]%Q) quantile_9 (lit b64num 9 0) in
   let quantile_11 := psq_push b64num (map (ratio_value b64num) [(1#4); (1#2); (3#4)]%Q) quantile_10 (lit b64num 5 1) in
   all_true [(close_to (n := b64num) (Closeness (lit b64num 5902958103587057 (-69)) (@nmin b64num)) (get_or_nan (psq_get b64num (map (ratio_value b64num) [(1#4); (1#2); (3#4)]%Q) quantile_6 0)) (lit b64num 1 0));
     (close_to (n := b64num) (Closeness (lit b64num 5902958103587057 (-69)) (@nmin b64num)) (get_or_nan (psq_get b64num (map (ratio_value b64num) [(1#4); (1#2); (3#4)]%Q) quantile_6 1)) (lit b64num 1 1));
     (close_to (n := b64num) (Closeness (lit b64num 5902958103587057 (-69)) (@nmin b64num)) (get_or_nan (psq_get b64num (map (ratio_value b64num) [(1#4); (1#2); (3#4)]%Q) quantile_6 2)) (lit b64num 3 0));
     (close_to (n := b64num) (Closeness (lit b64num 5902958103587057 (-69)) (@nmin b64num)) (get_or_nan (psq_get b64num (map (ratio_value b64num) [(1#4); (1#2); (3#4)]%Q) quantile_6 3)) (lit b64num 1 2));
     (close_to (n := b64num) (Closeness (lit b64num 5902958103587057 (-69)) (@nmin b64num)) (get_or_nan (psq_get b64num (map (ratio_value b64num) [(1#4); (1#2); (3#4)]%Q) quantile_6 4)) (lit b64num 5 0));
     (close_to (n := b64num) (Closeness (lit b64num 5902958103587057 (-69)) (@nmin b64num)) (get_or_nan (psq_get b64num (map (ratio_value b64num) [(1#4); (1#2); (3#4)]%Q) quantile_6 2)) (get_or_nan (psq_get b64num (map (ratio_value b64num) [(1#4); (1#2); (3#4)]%Q) quantile_6 2)));
     (close_to (n := b64num) (Closeness (lit b64num 5902958103587057 (-69)) (@nmin b64num)) (get_or_nan (psq_get b64num (map (ratio_value b64num) [(1#4); (1#2); (3#4)]%Q) quantile_11 0)) (lit b64num 1 0));
     (close_to (n := b64num) (Closeness (lit b64num 5902958103587057 (-69)) (@nmin b64num)) (get_or_nan (psq_get b64num (map (ratio_value b64num) [(1#4); (1#2); (3#4)]%Q) quantile_11 1)) (lit b64num 3 0));
     (close_to (n := b64num) (Closeness (lit b64num 5902958103587057 (-69)) (@nmin b64num)) (get_or_nan (psq_get b64num (map (ratio_value b64num) [(1#4); (1#2); (3#4)]%Q) quantile_11 2)) (lit b64num 5 0));
     (close_to (n := b64num) (Closeness (lit b64num 5902958103587057 (-69)) (@nmin b64num)) (get_or_nan (psq_get b64num (map (ratio_value b64num) [(1#4); (1#2); (3#4)]%Q) quantile_11 3)) (lit b64num 7 0));
     (close_to (n := b64num) (Closeness (lit b64num 5902958103587057 (-69)) (@nmin b64num)) (get_or_nan (psq_get b64num (map (ratio_value b64num) [(1#4); (1#2); (3#4)]%Q) quantile_11 4)) (lit b64num 5 1))]) = true.
Proof. vm_compute. reflexivity. Qed.

(** test/quantile/psquare_suite.cpp:139 *)
Example quantile_psquare_paper_example_test_median :
  (let quantile_1 := psq_init b64num (map (ratio_value b64num) [(1#2)]%Q) in
   let quantile_2 := psq_push b64num (map (ratio_value b64num) [(1#2)]%Q) quantile_1 (lit b64num 5764607523034235 (-58)) in
   let quantile_3 := psq_push b64num (map (ratio_value b64num) [(1#2)]%Q) quantile_2 (lit b64num 1 (-1)) in
   let quantile_4 := psq_push b64num (map (ratio_value b64num) [(1#2)]%Q) quantile_3 (lit b64num 3332663724254167 (-52)) in
   let quantile_5 := psq_push b64num (map (ratio_value b64num) [(1#2)]%Q) quantile_4 (lit b64num 7633601368392991 (-51)) in
   let quantile_6 := psq_push b64num (map (ratio_value b64num) [(1#2)]%Q) quantile_5 (lit b64num 7475975381435023 (-53)) in
   let quantile_7 := psq_push b64num (map (ratio_value b64num) [(1#2)]%Q) quantile_6 (lit b64num 6296595229017375 (-48)) in
   let quantile_8 := psq_push b64num (map (ratio_value b64num) [(1#2)]%Q) quantile_7 (lit b64num 5713942027226317 (-49)) in
   let quantile_9 := psq_push b64num (map (ratio_value b64num) [(1#2)]%Q) quantile_8 (lit b64num 2171579445322711 (-47)) in
   let quantile_10 := psq_push b64num (map (ratio_value b64num) [(1#2)]%Q) quantile_9 (lit b64num 5435281800282767 (-47)) in
   let quantile_11 := psq_push b64num (map (ratio_value b64num) [(1#2)]%Q) quantile_10 (lit b64num 8962163258467287 (-49)) in
   let quantile_12 := psq_push b64num (map (ratio_value b64num) [(1#2)]%Q) quantile_11 (lit b64num 4869517097094349 (-47)) in
   let quantile_13 := psq_push b64num (map (ratio_value b64num) [(1#2)]%Q) quantile_12 (lit b64num 5787125521171087 (-49)) in
   let quantile_14 := psq_push b64num (map (ratio_value b64num) [(1#2)]%Q) quantile_13 (lit b64num 6620291452234629 (-52)) in
   let quantile_15 := psq_push b64num (map (ratio_value b64num) [(1#2)]%Q) quantile_14 (lit b64num 3602879701896397 (-53)) in
   let quantile_16 := psq_push b64num (map (ratio_value b64num) [(1#2)]%Q) quantile_15 (lit b64num 3602879701896397 (-56)) in
   all_true [(params_close (lit b64num 5902958103587057 (-69)) (psq_parameters b64num quantile_1) [(1%N, (lit b64num 0 0)); (2%N, (lit b64num 0 0)); (3%N, (lit b64num 0 0)); (4%N, (lit b64num 0 0)); (5%N, (lit b64num 0 0))]);
     (close_to (n := b64num) (Closeness (lit b64num 5902958103587057 (-69)) (@nmin b64num)) (get_or_nan (psq_value b64num (ratio_value b64num) [(1#2)]%Q quantile_2 (1#2)%Q)) (lit b64num 5764607523034235 (-58)));
     (params_close (lit b64num 5902958103587057 (-69)) (psq_parameters b64num quantile_2) [(1%N, (lit b64num 5764607523034235 (-58))); (2%N, (lit b64num 0 0)); (3%N, (lit b64num 0 0)); (4%N, (lit b64num 0 0)); (5%N, (lit b64num 0 0))]);
     (close_to (n := b64num) (Closeness (lit b64num 5902958103587057 (-69)) (@nmin b64num)) (get_or_nan (psq_value b64num (ratio_value b64num) [(1#2)]%Q quantile_3 (1#2)%Q)) (lit b64num 1170935903116329 (-52)));
     (params_close (lit b64num 5902958103587057 (-69)) (psq_parameters b64num quantile_3) [(1%N, (lit b64num 5764607523034235 (-58))); (2%N, (lit b64num 1 (-1))); (3%N, (lit b64num 0 0)); (4%N, (lit b64num 0 0)); (5%N, (lit b64num 0 0))]);
     (close_to (n := b64num) (Closeness (lit b64num 5902958103587057 (-69)) (@nmin b64num)) (get_or_nan (psq_value b64num (ratio_value b64num) [(1#2)]%Q quantile_4 (1#2)%Q)) (lit b64num 1 (-1)));
     (params_close (lit b64num 5902958103587057 (-69)) (psq_parameters b64num quantile_4) [(1%N, (lit b64num 5764607523034235 (-58))); (2%N, (lit b64num 1 (-1))); (3%N, (lit b64num 3332663724254167 (-52))); (4%N, (lit b64num 0 0)); (5%N, (lit b64num 0 0))]);
     (close_to (n := b64num) (Closeness (lit b64num 5902958103587057 (-69)) (@nmin b64num)) (get_or_nan (psq_value b64num (ratio_value b64num) [(1#2)]%Q quantile_5 (1#2)%Q)) (lit b64num 5584463537939415 (-53)));
     (params_close (lit b64num 5902958103587057 (-69)) (psq_parameters b64num quantile_5) [(1%N, (lit b64num 5764607523034235 (-58))); (2%N, (lit b64num 1 (-1))); (3%N, (lit b64num 3332663724254167 (-52))); (4%N, (lit b64num 7633601368392991 (-51))); (5%N, (lit b64num 0 0))]);
     (close_to (n := b64num) (Closeness (lit b64num 5902958103587057 (-69)) (@nmin b64num)) (get_or_nan (psq_value b64num (ratio_value b64num) [(1#2)]%Q quantile_6 (1#2)%Q)) (lit b64num 3332663724254167 (-52)));
     (params_close (lit b64num 5902958103587057 (-69)) (psq_parameters b64num quantile_6) [(1%N, (lit b64num 5764607523034235 (-58))); (2%N, (lit b64num 1 (-1))); (3%N, (lit b64num 3332663724254167 (-52))); (4%N, (lit b64num 7475975381435023 (-53))); (5%N, (lit b64num 7633601368392991 (-51)))]);
     (close_to (n := b64num) (Closeness (lit b64num 5902958103587057 (-69)) (@nmin b64num)) (get_or_nan (psq_value b64num (ratio_value b64num) [(1#2)]%Q quantile_7 (1#2)%Q)) (lit b64num 3332663724254167 (-52)));
     (params_close (lit b64num 5902958103587057 (-69)) (psq_parameters b64num quantile_7) [(1%N, (lit b64num 5764607523034235 (-58))); (2%N, (lit b64num 1 (-1))); (3%N, (lit b64num 3332663724254167 (-52))); (5%N, (lit b64num 1131529406376837 (-47))); (6%N, (lit b64num 6296595229017375 (-48)))]);
     (close_to (n := b64num) (Closeness (lit b64num 5902958103587057 (-69)) (@nmin b64num)) (get_or_nan (psq_value b64num (ratio_value b64num) [(1#2)]%Q quantile_8 (1#2)%Q)) (lit b64num 1831461971964157 (-49)));
     (params_close (lit b64num 5902958103587057 (-69)) (psq_parameters b64num quantile_8) [(1%N, (lit b64num 5764607523034235 (-58))); (2%N, (lit b64num 1 (-1))); (4%N, (lit b64num 1831461971964157 (-49))); (6%N, (lit b64num 8113358577697701 (-49))); (7%N, (lit b64num 6296595229017375 (-48)))]);
     (close_to (n := b64num) (Closeness (lit b64num 5902958103587057 (-69)) (@nmin b64num)) (get_or_nan (psq_value b64num (ratio_value b64num) [(1#2)]%Q quantile_9 (1#2)%Q)) (lit b64num 4239846315193543 (-49)));
     (params_close (lit b64num 5902958103587057 (-69)) (psq_parameters b64num quantile_9) [(1%N, (lit b64num 5764607523034235 (-58))); (3%N, (lit b64num 7105689420072621 (-52))); (5%N, (lit b64num 4239846315193543 (-49))); (7%N, (lit b64num 5448905189155563 (-48))); (8%N, (lit b64num 6296595229017375 (-48)))]);
     (close_to (n := b64num) (Closeness (lit b64num 5902958103587057 (-69)) (@nmin b64num)) (get_or_nan (psq_value b64num (ratio_value b64num) [(1#2)]%Q quantile_10 (1#2)%Q)) (lit b64num 4239846315193543 (-49)));
     (params_close (lit b64num 5902958103587057 (-69)) (psq_parameters b64num quantile_10) [(1%N, (lit b64num 5764607523034235 (-58))); (3%N, (lit b64num 7105689420072621 (-52))); (5%N, (lit b64num 4239846315193543 (-49))); (7%N, (lit b64num 5448905189155563 (-48))); (9%N, (lit b64num 5435281800282767 (-47)))]);
     (close_to (n := b64num) (Closeness (lit b64num 5902958103587057 (-69)) (@nmin b64num)) (get_or_nan (psq_value b64num (ratio_value b64num) [(1#2)]%Q quantile_11 (1#2)%Q)) (lit b64num 6342081585253817 (-49)));
     (params_close (lit b64num 5902958103587057 (-69)) (psq_parameters b64num quantile_11) [(1%N, (lit b64num 5764607523034235 (-58))); (4%N, (lit b64num 4509386752891667 (-50))); (6%N, (lit b64num 6342081585253817 (-49))); (7%N, (lit b64num 7833994663312375 (-49))); (10%N, (lit b64num 5435281800282767 (-47)))]);
     (close_to (n := b64num) (Closeness (lit b64num 5902958103587057 (-69)) (@nmin b64num)) (get_or_nan (psq_value b64num (ratio_value b64num) [(1#2)]%Q quantile_12 (1#2)%Q)) (lit b64num 6342081585253817 (-49)));
     (params_close (lit b64num 5902958103587057 (-69)) (psq_parameters b64num quantile_12) [(1%N, (lit b64num 5764607523034235 (-58))); (3%N, (lit b64num 1977057718417511 (-50))); (6%N, (lit b64num 6342081585253817 (-49))); (8%N, (lit b64num 5059929289339573 (-48))); (11%N, (lit b64num 5435281800282767 (-47)))]);
     (close_to (n := b64num) (Closeness (lit b64num 5902958103587057 (-69)) (@nmin b64num)) (get_or_nan (psq_value b64num (ratio_value b64num) [(1#2)]%Q quantile_13 (1#2)%Q)) (lit b64num 4698521048742625 (-49)));
     (params_close (lit b64num 5902958103587057 (-69)) (psq_parameters b64num quantile_13) [(1%N, (lit b64num 5764607523034235 (-58))); (4%N, (lit b64num 7608156030498347 (-51))); (6%N, (lit b64num 4698521048742625 (-49))); (10%N, (lit b64num 6652368340580575 (-48))); (12%N, (lit b64num 5435281800282767 (-47)))]);
     (close_to (n := b64num) (Closeness (lit b64num 5902958103587057 (-69)) (@nmin b64num)) (get_or_nan (psq_value b64num (ratio_value b64num) [(1#2)]%Q quantile_14 (1#2)%Q)) (lit b64num 4698521048742625 (-49)));
     (params_close (lit b64num 5902958103587057 (-69)) (psq_parameters b64num quantile_14) [(1%N, (lit b64num 5764607523034235 (-58))); (4%N, (lit b64num 3866295244101297 (-51))); (7%N, (lit b64num 4698521048742625 (-49))); (10%N, (lit b64num 5059929289339573 (-48))); (13%N, (lit b64num 5435281800282767 (-47)))]);
     (close_to (n := b64num) (Closeness (lit b64num 5902958103587057 (-69)) (@nmin b64num)) (get_or_nan (psq_value b64num (ratio_value b64num) [(1#2)]%Q quantile_15 (1#2)%Q)) (lit b64num 6590500140699573 (-50)));
     (params_close (lit b64num 5902958103587057 (-69)) (psq_parameters b64num quantile_15) [(1%N, (lit b64num 5764607523034235 (-58))); (4%N, (lit b64num 2375702846633465 (-52))); (7%N, (lit b64num 6590500140699573 (-50))); (10%N, (lit b64num 7484734882710259 (-49))); (14%N, (lit b64num 5435281800282767 (-47)))]);
     (close_to (n := b64num) (Closeness (lit b64num 5902958103587057 (-69)) (@nmin b64num)) (get_or_nan (psq_value b64num (ratio_value b64num) [(1#2)]%Q quantile_16 (1#2)%Q)) (lit b64num 6590500140699573 (-50)));
     (params_close (lit b64num 5902958103587057 (-69)) (psq_parameters b64num quantile_16) [(1%N, (lit b64num 5764607523034235 (-58))); (4%N, (lit b64num 2375702846633465 (-52))); (8%N, (lit b64num 6590500140699573 (-50))); (12%N, (lit b64num 5059929289339573 (-48))); (15%N, (lit b64num 5435281800282767 (-47)))])]) = true.
Proof. vm_compute. reflexivity. Qed.

(** test/quantile/psquare_suite.cpp:247 *)
Example quantile_psquare_paper_example_test_lower_quartile :
  (let quantile_1 := psq_init b64num (map (ratio_value b64num) [(1#4)]%Q) in
   let quantile_2 := psq_push b64num (map (ratio_value b64num) [(1#4)]%Q) quantile_1 (lit b64num 5764607523034235 (-58)) in
   let quantile_3 := psq_push b64num (map (ratio_value b64num) [(1#4)]%Q) quantile_2 (lit b64num 1 (-1)) in
   let quantile_4 := psq_push b64num (map (ratio_value b64num) [(1#4)]%Q) quantile_3 (lit b64num 3332663724254167 (-52)) in
   let quantile_5 := psq_push b64num (map (ratio_value b64num) [(1#4)]%Q) quantile_4 (lit b64num 7633601368392991 (-51)) in
   let quantile_6 := psq_push b64num (map (ratio_value b64num) [(1#4)]%Q) quantile_5 (lit b64num 7475975381435023 (-53)) in
   let quantile_7 := psq_push b64num (map (ratio_value b64num) [(1#4)]%Q) quantile_6 (lit b64num 6296595229017375 (-48)) in
   let quantile_8 := psq_push b64num (map (ratio_value b64num) [(1#4)]%Q) quantile_7 (lit b64num 5713942027226317 (-49)) in
   let quantile_9 := psq_push b64num (map (ratio_value b64num) [(1#4)]%Q) quantile_8 (lit b64num 2171579445322711 (-47)) in
   let quantile_10 := psq_push b64num (map (ratio_value b64num) [(1#4)]%Q) quantile_9 (lit b64num 5435281800282767 (-47)) in
   let quantile_11 := psq_push b64num (map (ratio_value b64num) [(1#4)]%Q) quantile_10 (lit b64num 8962163258467287 (-49)) in
   let quantile_12 := psq_push b64num (map (ratio_value b64num) [(1#4)]%Q) quantile_11 (lit b64num 4869517097094349 (-47)) in
   let quantile_13 := psq_push b64num (map (ratio_value b64num) [(1#4)]%Q) quantile_12 (lit b64num 5787125521171087 (-49)) in
   let quantile_14 := psq_push b64num (map (ratio_value b64num) [(1#4)]%Q) quantile_13 (lit b64num 6620291452234629 (-52)) in
   let quantile_15 := psq_push b64num (map (ratio_value b64num) [(1#4)]%Q) quantile_14 (lit b64num 3602879701896397 (-53)) in
   let quantile_16 := psq_push b64num (map (ratio_value b64num) [(1#4)]%Q) quantile_15 (lit b64num 3602879701896397 (-56)) in
   all_true [(close_to (n := b64num) (Closeness (lit b64num 5902958103587057 (-69)) (@nmin b64num)) (get_or_nan (psq_value b64num (ratio_value b64num) [(1#4)]%Q quantile_2 (1#4)%Q)) (lit b64num 5764607523034235 (-58)));
     (close_to (n := b64num) (Closeness (lit b64num 5902958103587057 (-69)) (@nmin b64num)) (get_or_nan (psq_value b64num (ratio_value b64num) [(1#4)]%Q quantile_3 (1#4)%Q)) (lit b64num 1261007895663739 (-53)));
     (close_to (n := b64num) (Closeness (lit b64num 5902958103587057 (-69)) (@nmin b64num)) (get_or_nan (psq_value b64num (ratio_value b64num) [(1#4)]%Q quantile_4 (1#4)%Q)) (lit b64num 1170935903116329 (-52)));
     (close_to (n := b64num) (Closeness (lit b64num 5902958103587057 (-69)) (@nmin b64num)) (get_or_nan (psq_value b64num (ratio_value b64num) [(1#4)]%Q quantile_5 (1#4)%Q)) (lit b64num 3422735716801577 (-53)));
     (close_to (n := b64num) (Closeness (lit b64num 5902958103587057 (-69)) (@nmin b64num)) (get_or_nan (psq_value b64num (ratio_value b64num) [(1#4)]%Q quantile_6 (1#4)%Q)) (lit b64num 1 (-1)));
     (params_close (lit b64num 5902958103587057 (-69)) (psq_parameters b64num quantile_6) [(1%N, (lit b64num 5764607523034235 (-58))); (2%N, (lit b64num 1 (-1))); (3%N, (lit b64num 3332663724254167 (-52))); (4%N, (lit b64num 7475975381435023 (-53))); (5%N, (lit b64num 7633601368392991 (-51)))]);
     (close_to (n := b64num) (Closeness (lit b64num 5902958103587057 (-69)) (@nmin b64num)) (get_or_nan (psq_value b64num (ratio_value b64num) [(1#4)]%Q quantile_7 (1#4)%Q)) (lit b64num 3332663724254167 (-52)));
     (params_close (lit b64num 5902958103587057 (-69)) (psq_parameters b64num quantile_7) [(1%N, (lit b64num 5764607523034235 (-58))); (2%N, (lit b64num 1 (-1))); (3%N, (lit b64num 3332663724254167 (-52))); (5%N, (lit b64num 1131529406376837 (-47))); (6%N, (lit b64num 6296595229017375 (-48)))]);
     (close_to (n := b64num) (Closeness (lit b64num 5902958103587057 (-69)) (@nmin b64num)) (get_or_nan (psq_value b64num (ratio_value b64num) [(1#4)]%Q quantile_8 (1#4)%Q)) (lit b64num 3332663724254167 (-52)));
     (params_close (lit b64num 5902958103587057 (-69)) (psq_parameters b64num quantile_8) [(1%N, (lit b64num 5764607523034235 (-58))); (2%N, (lit b64num 1 (-1))); (3%N, (lit b64num 3332663724254167 (-52))); (4%N, (lit b64num 7906632095802327 (-51))); (7%N, (lit b64num 6296595229017375 (-48)))]);
     (close_to (n := b64num) (Closeness (lit b64num 5902958103587057 (-69)) (@nmin b64num)) (get_or_nan (psq_value b64num (ratio_value b64num) [(1#4)]%Q quantile_9 (1#4)%Q)) (lit b64num 3332663724254167 (-52)));
     (params_close (lit b64num 5902958103587057 (-69)) (psq_parameters b64num quantile_9) [(1%N, (lit b64num 5764607523034235 (-58))); (2%N, (lit b64num 1 (-1))); (3%N, (lit b64num 3332663724254167 (-52))); (5%N, (lit b64num 1987176743830259 (-48))); (8%N, (lit b64num 6296595229017375 (-48)))]);
     (close_to (n := b64num) (Closeness (lit b64num 5902958103587057 (-69)) (@nmin b64num)) (get_or_nan (psq_value b64num (ratio_value b64num) [(1#4)]%Q quantile_10 (1#4)%Q)) (lit b64num 3332663724254167 (-52)));
     (params_close (lit b64num 5902958103587057 (-69)) (psq_parameters b64num quantile_10) [(1%N, (lit b64num 5764607523034235 (-58))); (2%N, (lit b64num 1 (-1))); (3%N, (lit b64num 3332663724254167 (-52))); (6%N, (lit b64num 7084646350813733 (-49))); (9%N, (lit b64num 5435281800282767 (-47)))]);
     (close_to (n := b64num) (Closeness (lit b64num 5902958103587057 (-69)) (@nmin b64num)) (get_or_nan (psq_value b64num (ratio_value b64num) [(1#4)]%Q quantile_11 (1#4)%Q)) (lit b64num 6381915923957909 (-51)));
     (params_close (lit b64num 5902958103587057 (-69)) (psq_parameters b64num quantile_11) [(1%N, (lit b64num 5764607523034235 (-58))); (2%N, (lit b64num 1 (-1))); (4%N, (lit b64num 6381915923957909 (-51))); (7%N, (lit b64num 2572249223046145 (-47))); (10%N, (lit b64num 5435281800282767 (-47)))]);
     (close_to (n := b64num) (Closeness (lit b64num 5902958103587057 (-69)) (@nmin b64num)) (get_or_nan (psq_value b64num (ratio_value b64num) [(1#4)]%Q quantile_12 (1#4)%Q)) (lit b64num 6381915923957909 (-51)));
     (params_close (lit b64num 5902958103587057 (-69)) (psq_parameters b64num quantile_12) [(1%N, (lit b64num 5764607523034235 (-58))); (3%N, (lit b64num 3238200722070071 (-51))); (4%N, (lit b64num 6381915923957909 (-51))); (8%N, (lit b64num 6583474525280875 (-48))); (11%N, (lit b64num 5435281800282767 (-47)))]);
     (close_to (n := b64num) (Closeness (lit b64num 5902958103587057 (-69)) (@nmin b64num)) (get_or_nan (psq_value b64num (ratio_value b64num) [(1#4)]%Q quantile_13 (1#4)%Q)) (lit b64num 5613781971513597 (-52)));
     (params_close (lit b64num 5902958103587057 (-69)) (psq_parameters b64num quantile_13) [(1%N, (lit b64num 5764607523034235 (-58))); (2%N, (lit b64num 1 (-1))); (3%N, (lit b64num 5613781971513597 (-52))); (8%N, (lit b64num 2663946733584059 (-47))); (12%N, (lit b64num 5435281800282767 (-47)))]);
     (close_to (n := b64num) (Closeness (lit b64num 5902958103587057 (-69)) (@nmin b64num)) (get_or_nan (psq_value b64num (ratio_value b64num) [(1#4)]%Q quantile_14 (1#4)%Q)) (lit b64num 5903611125533025 (-51)));
     (params_close (lit b64num 5902958103587057 (-69)) (psq_parameters b64num quantile_14) [(1%N, (lit b64num 5764607523034235 (-58))); (2%N, (lit b64num 1 (-1))); (4%N, (lit b64num 5903611125533025 (-51))); (8%N, (lit b64num 4202047040571069 (-48))); (13%N, (lit b64num 5435281800282767 (-47)))]);
     (close_to (n := b64num) (Closeness (lit b64num 5902958103587057 (-69)) (@nmin b64num)) (get_or_nan (psq_value b64num (ratio_value b64num) [(1#4)]%Q quantile_15 (1#4)%Q)) (lit b64num 5095732906377169 (-52)));
     (params_close (lit b64num 5902958103587057 (-69)) (psq_parameters b64num quantile_15) [(1%N, (lit b64num 5764607523034235 (-58))); (2%N, (lit b64num 986900807943461 (-54))); (4%N, (lit b64num 5095732906377169 (-52))); (10%N, (lit b64num 1328238193851079 (-46))); (14%N, (lit b64num 5435281800282767 (-47)))]);
     (close_to (n := b64num) (Closeness (lit b64num 5902958103587057 (-69)) (@nmin b64num)) (get_or_nan (psq_value b64num (ratio_value b64num) [(1#4)]%Q quantile_16 (1#4)%Q)) (lit b64num 7031271939829951 (-55)));
     (params_close (lit b64num 5902958103587057 (-69)) (psq_parameters b64num quantile_16) [(1%N, (lit b64num 5764607523034235 (-58))); (2%N, (lit b64num 986900807943461 (-54))); (4%N, (lit b64num 7031271939829951 (-55))); (10%N, (lit b64num 1053417285589863 (-46))); (15%N, (lit b64num 5435281800282767 (-47)))])]) = true.
Proof. vm_compute. reflexivity. Qed.

(** test/quantile/psquare_suite.cpp:335 *)
Example quantile_psquare_paper_example_test_upper_quartile :
  (let quantile_1 := psq_init b64num (map (ratio_value b64num) [(3#4)]%Q) in
   let quantile_2 := psq_push b64num (map (ratio_value b64num) [(3#4)]%Q) quantile_1 (lit b64num 5764607523034235 (-58)) in
   let quantile_3 := psq_push b64num (map (ratio_value b64num) [(3#4)]%Q) quantile_2 (lit b64num 1 (-1)) in
   let quantile_4 := psq_push b64num (map (ratio_value b64num) [(3#4)]%Q) quantile_3 (lit b64num 3332663724254167 (-52)) in
   let quantile_5 := psq_push b64num (map (ratio_value b64num) [(3#4)]%Q) quantile_4 (lit b64num 7633601368392991 (-51)) in
   let quantile_6 := psq_push b64num (map (ratio_value b64num) [(3#4)]%Q) quantile_5 (lit b64num 7475975381435023 (-53)) in
   let quantile_7 := psq_push b64num (map (ratio_value b64num) [(3#4)]%Q) quantile_6 (lit b64num 6296595229017375 (-48)) in
   let quantile_8 := psq_push b64num (map (ratio_value b64num) [(3#4)]%Q) quantile_7 (lit b64num 5713942027226317 (-49)) in
   let quantile_9 := psq_push b64num (map (ratio_value b64num) [(3#4)]%Q) quantile_8 (lit b64num 2171579445322711 (-47)) in
   let quantile_10 := psq_push b64num (map (ratio_value b64num) [(3#4)]%Q) quantile_9 (lit b64num 5435281800282767 (-47)) in
   let quantile_11 := psq_push b64num (map (ratio_value b64num) [(3#4)]%Q) quantile_10 (lit b64num 8962163258467287 (-49)) in
   let quantile_12 := psq_push b64num (map (ratio_value b64num) [(3#4)]%Q) quantile_11 (lit b64num 4869517097094349 (-47)) in
   let quantile_13 := psq_push b64num (map (ratio_value b64num) [(3#4)]%Q) quantile_12 (lit b64num 5787125521171087 (-49)) in
   let quantile_14 := psq_push b64num (map (ratio_value b64num) [(3#4)]%Q) quantile_13 (lit b64num 6620291452234629 (-52)) in
   let quantile_15 := psq_push b64num (map (ratio_value b64num) [(3#4)]%Q) quantile_14 (lit b64num 3602879701896397 (-53)) in
   let quantile_16 := psq_push b64num (map (ratio_value b64num) [(3#4)]%Q) quantile_15 (lit b64num 3602879701896397 (-56)) in
   all_true [(close_to (n := b64num) (Closeness (lit b64num 5902958103587057 (-69)) (@nmin b64num)) (get_or_nan (psq_value b64num (ratio_value b64num) [(3#4)]%Q quantile_2 (3#4)%Q)) (lit b64num 5764607523034235 (-58)));
     (close_to (n := b64num) (Closeness (lit b64num 5902958103587057 (-69)) (@nmin b64num)) (get_or_nan (psq_value b64num (ratio_value b64num) [(3#4)]%Q quantile_3 (3#4)%Q)) (lit b64num 3422735716801577 (-53)));
     (close_to (n := b64num) (Closeness (lit b64num 5902958103587057 (-69)) (@nmin b64num)) (get_or_nan (psq_value b64num (ratio_value b64num) [(3#4)]%Q quantile_4 (3#4)%Q)) (lit b64num 5584463537939415 (-53)));
     (close_to (n := b64num) (Closeness (lit b64num 5902958103587057 (-69)) (@nmin b64num)) (get_or_nan (psq_value b64num (ratio_value b64num) [(3#4)]%Q quantile_5 (3#4)%Q)) (lit b64num 6316298477387121 (-52)));
     (close_to (n := b64num) (Closeness (lit b64num 5902958103587057 (-69)) (@nmin b64num)) (get_or_nan (psq_value b64num (ratio_value b64num) [(3#4)]%Q quantile_6 (3#4)%Q)) (lit b64num 7475975381435023 (-53)));
     (params_close (lit b64num 5902958103587057 (-69)) (psq_parameters b64num quantile_6) [(1%N, (lit b64num 5764607523034235 (-58))); (2%N, (lit b64num 1 (-1))); (3%N, (lit b64num 3332663724254167 (-52))); (4%N, (lit b64num 7475975381435023 (-53))); (5%N, (lit b64num 7633601368392991 (-51)))]);
     (close_to (n := b64num) (Closeness (lit b64num 5902958103587057 (-69)) (@nmin b64num)) (get_or_nan (psq_value b64num (ratio_value b64num) [(3#4)]%Q quantile_7 (3#4)%Q)) (lit b64num 3332663724254167 (-52)));
     (params_close (lit b64num 5902958103587057 (-69)) (psq_parameters b64num quantile_7) [(1%N, (lit b64num 5764607523034235 (-58))); (2%N, (lit b64num 1 (-1))); (3%N, (lit b64num 3332663724254167 (-52))); (5%N, (lit b64num 1131529406376837 (-47))); (6%N, (lit b64num 6296595229017375 (-48)))]);
     (close_to (n := b64num) (Closeness (lit b64num 5902958103587057 (-69)) (@nmin b64num)) (get_or_nan (psq_value b64num (ratio_value b64num) [(3#4)]%Q quantile_8 (3#4)%Q)) (lit b64num 1831461971964157 (-49)));
     (params_close (lit b64num 5902958103587057 (-69)) (psq_parameters b64num quantile_8) [(1%N, (lit b64num 5764607523034235 (-58))); (2%N, (lit b64num 1 (-1))); (4%N, (lit b64num 1831461971964157 (-49))); (6%N, (lit b64num 8113358577697701 (-49))); (7%N, (lit b64num 6296595229017375 (-48)))]);
     (close_to (n := b64num) (Closeness (lit b64num 5902958103587057 (-69)) (@nmin b64num)) (get_or_nan (psq_value b64num (ratio_value b64num) [(3#4)]%Q quantile_9 (3#4)%Q)) (lit b64num 8479693756286993 (-50)));
     (params_close (lit b64num 5902958103587057 (-69)) (psq_parameters b64num quantile_9) [(1%N, (lit b64num 5764607523034235 (-58))); (3%N, (lit b64num 7105689420072621 (-52))); (5%N, (lit b64num 8479693756286993 (-50))); (7%N, (lit b64num 5448905189155563 (-48))); (8%N, (lit b64num 6296595229017375 (-48)))]);
     (close_to (n := b64num) (Closeness (lit b64num 5902958103587057 (-69)) (@nmin b64num)) (get_or_nan (psq_value b64num (ratio_value b64num) [(3#4)]%Q quantile_10 (3#4)%Q)) (lit b64num 3560441719657731 (-48)));
     (params_close (lit b64num 5902958103587057 (-69)) (psq_parameters b64num quantile_10) [(1%N, (lit b64num 5764607523034235 (-58))); (4%N, (lit b64num 281836601686985 (-46))); (6%N, (lit b64num 3560441719657731 (-48))); (8%N, (lit b64num 7885611544541575 (-48))); (9%N, (lit b64num 5435281800282767 (-47)))]);
     (close_to (n := b64num) (Closeness (lit b64num 5902958103587057 (-69)) (@nmin b64num)) (get_or_nan (psq_value b64num (ratio_value b64num) [(3#4)]%Q quantile_11 (3#4)%Q)) (lit b64num 2486921491231193 (-47)));
     (params_close (lit b64num 5902958103587057 (-69)) (psq_parameters b64num quantile_11) [(1%N, (lit b64num 5764607523034235 (-58))); (5%N, (lit b64num 8701461135037877 (-50))); (7%N, (lit b64num 2486921491231193 (-47))); (8%N, (lit b64num 5920038005173859 (-48))); (10%N, (lit b64num 5435281800282767 (-47)))]);
     (close_to (n := b64num) (Closeness (lit b64num 5902958103587057 (-69)) (@nmin b64num)) (get_or_nan (psq_value b64num (ratio_value b64num) [(3#4)]%Q quantile_12 (3#4)%Q)) (lit b64num 2486921491231193 (-47)));
     (params_close (lit b64num 5902958103587057 (-69)) (psq_parameters b64num quantile_12) [(1%N, (lit b64num 5764607523034235 (-58))); (4%N, (lit b64num 4818119766346983 (-50))); (7%N, (lit b64num 2486921491231193 (-47))); (9%N, (lit b64num 7218223115761541 (-48))); (11%N, (lit b64num 5435281800282767 (-47)))]);
     (close_to (n := b64num) (Closeness (lit b64num 5902958103587057 (-69)) (@nmin b64num)) (get_or_nan (psq_value b64num (ratio_value b64num) [(3#4)]%Q quantile_13 (3#4)%Q)) (lit b64num 6075564188805565 (-48)));
     (params_close (lit b64num 5902958103587057 (-69)) (psq_parameters b64num quantile_13) [(1%N, (lit b64num 5764607523034235 (-58))); (5%N, (lit b64num 1914274724862199 (-48))); (9%N, (lit b64num 6075564188805565 (-48))); (11%N, (lit b64num 4408276719132549 (-47))); (12%N, (lit b64num 5435281800282767 (-47)))]);
     (close_to (n := b64num) (Closeness (lit b64num 5902958103587057 (-69)) (@nmin b64num)) (get_or_nan (psq_value b64num (ratio_value b64num) [(3#4)]%Q quantile_14 (3#4)%Q)) (lit b64num 6075564188805565 (-48)));
     (params_close (lit b64num 5902958103587057 (-69)) (psq_parameters b64num quantile_14) [(1%N, (lit b64num 5764607523034235 (-58))); (5%N, (lit b64num 2479676325330661 (-49))); (10%N, (lit b64num 6075564188805565 (-48))); (11%N, (lit b64num 7218223115761541 (-48))); (13%N, (lit b64num 5435281800282767 (-47)))]);
     (close_to (n := b64num) (Closeness (lit b64num 5902958103587057 (-69)) (@nmin b64num)) (get_or_nan (psq_value b64num (ratio_value b64num) [(3#4)]%Q quantile_15 (3#4)%Q)) (lit b64num 2501817146998721 (-47)));
     (params_close (lit b64num 5902958103587057 (-69)) (psq_parameters b64num quantile_15) [(1%N, (lit b64num 5764607523034235 (-58))); (5%N, (lit b64num 704875266178359 (-48))); (10%N, (lit b64num 2501817146998721 (-47))); (13%N, (lit b64num 8864674400283551 (-48))); (14%N, (lit b64num 5435281800282767 (-47)))]);
     (close_to (n := b64num) (Closeness (lit b64num 5902958103587057 (-69)) (@nmin b64num)) (get_or_nan (psq_value b64num (ratio_value b64num) [(3#4)]%Q quantile_16 (3#4)%Q)) (lit b64num 3094571078329041 (-47)));
     (params_close (lit b64num 5902958103587057 (-69)) (psq_parameters b64num quantile_16) [(1%N, (lit b64num 5764607523034235 (-58))); (7%N, (lit b64num 2553327067736771 (-49))); (12%N, (lit b64num 3094571078329041 (-47))); (13%N, (lit b64num 7304199647397811 (-48))); (15%N, (lit b64num 5435281800282767 (-47)))])]) = true.
Proof. vm_compute. reflexivity. Qed.

(** test/quantile/psquare_suite.cpp:423 *)
Example quantile_psquare_paper_example_test_quartiles :
  (let quantile_1 := psq_init b64num (map (ratio_value b64num) [(1#4); (1#2); (3#4)]%Q) in
   let quantile_2 := psq_push b64num (map (ratio_value b64num) [(1#4); (1#2); (3#4)]%Q) quantile_1 (lit b64num 5764607523034235 (-58)) in
   let quantile_3 := psq_push b64num (map (ratio_value b64num) [(1#4); (1#2); (3#4)]%Q) quantile_2 (lit b64num 1 (-1)) in
   let quantile_4 := psq_push b64num (map (ratio_value b64num) [(1#4); (1#2); (3#4)]%Q) quantile_3 (lit b64num 3332663724254167 (-52)) in
   let quantile_5 := psq_push b64num (map (ratio_value b64num) [(1#4); (1#2); (3#4)]%Q) quantile_4 (lit b64num 7633601368392991 (-51)) in
   let quantile_6 := psq_push b64num (map (ratio_value b64num) [(1#4); (1#2); (3#4)]%Q) quantile_5 (lit b64num 7475975381435023 (-53)) in
   let quantile_7 := psq_push b64num (map (ratio_value b64num) [(1#4); (1#2); (3#4)]%Q) quantile_6 (lit b64num 6296595229017375 (-48)) in
   let quantile_8 := psq_push b64num (map (ratio_value b64num) [(1#4); (1#2); (3#4)]%Q) quantile_7 (lit b64num 5713942027226317 (-49)) in
   let quantile_9 := psq_push b64num (map (ratio_value b64num) [(1#4); (1#2); (3#4)]%Q) quantile_8 (lit b64num 2171579445322711 (-47)) in
   let quantile_10 := psq_push b64num (map (ratio_value b64num) [(1#4); (1#2); (3#4)]%Q) quantile_9 (lit b64num 5435281800282767 (-47)) in
   let quantile_11 := psq_push b64num (map (ratio_value b64num) [(1#4); (1#2); (3#4)]%Q) quantile_10 (lit b64num 8962163258467287 (-49)) in
   let quantile_12 := psq_push b64num (map (ratio_value b64num) [(1#4); (1#2); (3#4)]%Q) quantile_11 (lit b64num 4869517097094349 (-47)) in
   let quantile_13 := psq_push b64num (map (ratio_value b64num) [(1#4); (1#2); (3#4)]%Q) quantile_12 (lit b64num 5787125521171087 (-49)) in
   let quantile_14 := psq_push b64num (map (ratio_value b64num) [(1#4); (1#2); (3#4)]%Q) quantile_13 (lit b64num 6620291452234629 (-52)) in
   let quantile_15 := psq_push b64num (map (ratio_value b64num) [(1#4); (1#2); (3#4)]%Q) quantile_14 (lit b64num 3602879701896397 (-53)) in
   let quantile_16 := psq_push b64num (map (ratio_value b64num) [(1#4); (1#2); (3#4)]%Q) quantile_15 (lit b64num 3602879701896397 (-56)) in
   all_true [(params_close (lit b64num 5902958103587057 (-69)) (psq_parameters b64num quantile_1) [(1%N, (lit b64num 0 0)); (2%N, (lit b64num 0 0)); (3%N, (lit b64num 0 0)); (4%N, (lit b64num 0 0)); (5%N, (lit b64num 0 0)); (6%N, (lit b64num 0 0)); (7%N, (lit b64num 0 0)); (8%N, (lit b64num 0 0)); (9%N, (lit b64num 0 0))]);
     (close_to (n := b64num) (Closeness (lit b64num 5902958103587057 (-69)) (@nmin b64num)) (get_or_nan (psq_value b64num (ratio_value b64num) [(1#4); (1#2); (3#4)]%Q quantile_2 (1#4)%Q)) (lit b64num 5764607523034235 (-58)));
     (close_to (n := b64num) (Closeness (lit b64num 5902958103587057 (-69)) (@nmin b64num)) (get_or_nan (psq_value b64num (ratio_value b64num) [(1#4); (1#2); (3#4)]%Q quantile_2 (1#2)%Q)) (lit b64num 5764607523034235 (-58)));
     (close_to (n := b64num) (Closeness (lit b64num 5902958103587057 (-69)) (@nmin b64num)) (get_or_nan (psq_value b64num (ratio_value b64num) [(1#4); (1#2); (3#4)]%Q quantile_2 (3#4)%Q)) (lit b64num 5764607523034235 (-58)));
     (params_close (lit b64num 5902958103587057 (-69)) (psq_parameters b64num quantile_2) [(1%N, (lit b64num 5764607523034235 (-58))); (2%N, (lit b64num 0 0)); (3%N, (lit b64num 0 0)); (4%N, (lit b64num 0 0)); (5%N, (lit b64num 0 0)); (6%N, (lit b64num 0 0)); (7%N, (lit b64num 0 0)); (8%N, (lit b64num 0 0)); (9%N, (lit b64num 0 0))]);
     (close_to (n := b64num) (Closeness (lit b64num 5902958103587057 (-69)) (@nmin b64num)) (get_or_nan (psq_value b64num (ratio_value b64num) [(1#4); (1#2); (3#4)]%Q quantile_3 (1#4)%Q)) (lit b64num 1261007895663739 (-53)));
     (close_to (n := b64num) (Closeness (lit b64num 5902958103587057 (-69)) (@nmin b64num)) (get_or_nan (psq_value b64num (ratio_value b64num) [(1#4); (1#2); (3#4)]%Q quantile_3 (1#2)%Q)) (lit b64num 1170935903116329 (-52)));
     (close_to (n := b64num) (Closeness (lit b64num 5902958103587057 (-69)) (@nmin b64num)) (get_or_nan (psq_value b64num (ratio_value b64num) [(1#4); (1#2); (3#4)]%Q quantile_3 (3#4)%Q)) (lit b64num 3422735716801577 (-53)));
     (params_close (lit b64num 5902958103587057 (-69)) (psq_parameters b64num quantile_3) [(1%N, (lit b64num 5764607523034235 (-58))); (2%N, (lit b64num 1 (-1))); (3%N, (lit b64num 0 0)); (4%N, (lit b64num 0 0)); (5%N, (lit b64num 0 0)); (6%N, (lit b64num 0 0)); (7%N, (lit b64num 0 0)); (8%N, (lit b64num 0 0)); (9%N, (lit b64num 0 0))]);
     (close_to (n := b64num) (Closeness (lit b64num 5902958103587057 (-69)) (@nmin b64num)) (get_or_nan (psq_value b64num (ratio_value b64num) [(1#4); (1#2); (3#4)]%Q quantile_4 (1#4)%Q)) (lit b64num 1170935903116329 (-52)));
     (close_to (n := b64num) (Closeness (lit b64num 5902958103587057 (-69)) (@nmin b64num)) (get_or_nan (psq_value b64num (ratio_value b64num) [(1#4); (1#2); (3#4)]%Q quantile_4 (1#2)%Q)) (lit b64num 1 (-1)));
     (close_to (n := b64num) (Closeness (lit b64num 5902958103587057 (-69)) (@nmin b64num)) (get_or_nan (psq_value b64num (ratio_value b64num) [(1#4); (1#2); (3#4)]%Q quantile_4 (3#4)%Q)) (lit b64num 5584463537939415 (-53)));
     (params_close (lit b64num 5902958103587057 (-69)) (psq_parameters b64num quantile_4) [(1%N, (lit b64num 5764607523034235 (-58))); (2%N, (lit b64num 1 (-1))); (3%N, (lit b64num 3332663724254167 (-52))); (4%N, (lit b64num 0 0)); (5%N, (lit b64num 0 0)); (6%N, (lit b64num 0 0)); (7%N, (lit b64num 0 0)); (8%N, (lit b64num 0 0)); (9%N, (lit b64num 0 0))]);
     (close_to (n := b64num) (Closeness (lit b64num 5902958103587057 (-69)) (@nmin b64num)) (get_or_nan (psq_value b64num (ratio_value b64num) [(1#4); (1#2); (3#4)]%Q quantile_5 (1#4)%Q)) (lit b64num 3422735716801577 (-53)));
     (close_to (n := b64num) (Closeness (lit b64num 5902958103587057 (-69)) (@nmin b64num)) (get_or_nan (psq_value b64num (ratio_value b64num) [(1#4); (1#2); (3#4)]%Q quantile_5 (1#2)%Q)) (lit b64num 5584463537939415 (-53)));
     (close_to (n := b64num) (Closeness (lit b64num 5902958103587057 (-69)) (@nmin b64num)) (get_or_nan (psq_value b64num (ratio_value b64num) [(1#4); (1#2); (3#4)]%Q quantile_5 (3#4)%Q)) (lit b64num 6316298477387121 (-52)));
     (params_close (lit b64num 5902958103587057 (-69)) (psq_parameters b64num quantile_5) [(1%N, (lit b64num 5764607523034235 (-58))); (2%N, (lit b64num 1 (-1))); (3%N, (lit b64num 3332663724254167 (-52))); (4%N, (lit b64num 7633601368392991 (-51))); (5%N, (lit b64num 0 0)); (6%N, (lit b64num 0 0)); (7%N, (lit b64num 0 0)); (8%N, (lit b64num 0 0)); (9%N, (lit b64num 0 0))]);
     (close_to (n := b64num) (Closeness (lit b64num 5902958103587057 (-69)) (@nmin b64num)) (get_or_nan (psq_value b64num (ratio_value b64num) [(1#4); (1#2); (3#4)]%Q quantile_6 (1#4)%Q)) (lit b64num 1 (-1)));
     (close_to (n := b64num) (Closeness (lit b64num 5902958103587057 (-69)) (@nmin b64num)) (get_or_nan (psq_value b64num (ratio_value b64num) [(1#4); (1#2); (3#4)]%Q quantile_6 (1#2)%Q)) (lit b64num 3332663724254167 (-52)));
     (close_to (n := b64num) (Closeness (lit b64num 5902958103587057 (-69)) (@nmin b64num)) (get_or_nan (psq_value b64num (ratio_value b64num) [(1#4); (1#2); (3#4)]%Q quantile_6 (3#4)%Q)) (lit b64num 7475975381435023 (-53)));
     (params_close (lit b64num 5902958103587057 (-69)) (psq_parameters b64num quantile_6) [(1%N, (lit b64num 5764607523034235 (-58))); (2%N, (lit b64num 1 (-1))); (3%N, (lit b64num 3332663724254167 (-52))); (4%N, (lit b64num 7475975381435023 (-53))); (5%N, (lit b64num 7633601368392991 (-51))); (6%N, (lit b64num 0 0)); (7%N, (lit b64num 0 0)); (8%N, (lit b64num 0 0)); (9%N, (lit b64num 0 0))]);
     (close_to (n := b64num) (Closeness (lit b64num 5902958103587057 (-69)) (@nmin b64num)) (get_or_nan (psq_value b64num (ratio_value b64num) [(1#4); (1#2); (3#4)]%Q quantile_7 (1#4)%Q)) (lit b64num 1261007895663739 (-51)));
     (close_to (n := b64num) (Closeness (lit b64num 5902958103587057 (-69)) (@nmin b64num)) (get_or_nan (psq_value b64num (ratio_value b64num) [(1#4); (1#2); (3#4)]%Q quantile_7 (1#2)%Q)) (lit b64num 7070651414971679 (-53)));
     (close_to (n := b64num) (Closeness (lit b64num 5902958103587057 (-69)) (@nmin b64num)) (get_or_nan (psq_value b64num (ratio_value b64num) [(1#4); (1#2); (3#4)]%Q quantile_7 (3#4)%Q)) (lit b64num 11 (-2)));
     (params_close (lit b64num 5902958103587057 (-69)) (psq_parameters b64num quantile_7) [(1%N, (lit b64num 5764607523034235 (-58))); (2%N, (lit b64num 1 (-1))); (3%N, (lit b64num 3332663724254167 (-52))); (4%N, (lit b64num 7475975381435023 (-53))); (5%N, (lit b64num 7633601368392991 (-51))); (6%N, (lit b64num 6296595229017375 (-48))); (7%N, (lit b64num 0 0)); (8%N, (lit b64num 0 0)); (9%N, (lit b64num 0 0))]);
     (close_to (n := b64num) (Closeness (lit b64num 5902958103587057 (-69)) (@nmin b64num)) (get_or_nan (psq_value b64num (ratio_value b64num) [(1#4); (1#2); (3#4)]%Q quantile_8 (1#4)%Q)) (lit b64num 5584463537939415 (-53)));
     (close_to (n := b64num) (Closeness (lit b64num 5902958103587057 (-69)) (@nmin b64num)) (get_or_nan (psq_value b64num (ratio_value b64num) [(1#4); (1#2); (3#4)]%Q quantile_8 (1#2)%Q)) (lit b64num 7475975381435023 (-53)));
     (close_to (n := b64num) (Closeness (lit b64num 5902958103587057 (-69)) (@nmin b64num)) (get_or_nan (psq_value b64num (ratio_value b64num) [(1#4); (1#2); (3#4)]%Q quantile_8 (3#4)%Q)) (lit b64num 1905585592331141 (-48)));
     (params_close (lit b64num 5902958103587057 (-69)) (psq_parameters b64num quantile_8) [(1%N, (lit b64num 5764607523034235 (-58))); (2%N, (lit b64num 1 (-1))); (3%N, (lit b64num 3332663724254167 (-52))); (4%N, (lit b64num 7475975381435023 (-53))); (5%N, (lit b64num 7633601368392991 (-51))); (6%N, (lit b64num 5713942027226317 (-49))); (7%N, (lit b64num 6296595229017375 (-48))); (8%N, (lit b64num 0 0)); (9%N, (lit b64num 0 0))]);
     (close_to (n := b64num) (Closeness (lit b64num 5902958103587057 (-69)) (@nmin b64num)) (get_or_nan (psq_value b64num (ratio_value b64num) [(1#4); (1#2); (3#4)]%Q quantile_9 (1#4)%Q)) (lit b64num 6124895493223875 (-53)));
     (close_to (n := b64num) (Closeness (lit b64num 5902958103587057 (-69)) (@nmin b64num)) (get_or_nan (psq_value b64num (ratio_value b64num) [(1#4); (1#2); (3#4)]%Q quantile_9 (1#2)%Q)) (lit b64num 4751297606875873 (-51)));
     (close_to (n := b64num) (Closeness (lit b64num 5902958103587057 (-69)) (@nmin b64num)) (get_or_nan (psq_value b64num (ratio_value b64num) [(1#4); (1#2); (3#4)]%Q quantile_9 (3#4)%Q)) (lit b64num 6457035965742449 (-49)));
     (params_close (lit b64num 5902958103587057 (-69)) (psq_parameters b64num quantile_9) [(1%N, (lit b64num 5764607523034235 (-58))); (2%N, (lit b64num 1 (-1))); (3%N, (lit b64num 3332663724254167 (-52))); (4%N, (lit b64num 7475975381435023 (-53))); (5%N, (lit b64num 7633601368392991 (-51))); (6%N, (lit b64num 5713942027226317 (-49))); (7%N, (lit b64num 2171579445322711 (-47))); (8%N, (lit b64num 6296595229017375 (-48))); (9%N, (lit b64num 0 0))]);
     (close_to (n := b64num) (Closeness (lit b64num 5902958103587057 (-69)) (@nmin b64num)) (get_or_nan (psq_value b64num (ratio_value b64num) [(1#4); (1#2); (3#4)]%Q quantile_10 (1#4)%Q)) (lit b64num 3332663724254167 (-52)));
     (close_to (n := b64num) (Closeness (lit b64num 5902958103587057 (-69)) (@nmin b64num)) (get_or_nan (psq_value b64num (ratio_value b64num) [(1#4); (1#2); (3#4)]%Q quantile_10 (1#2)%Q)) (lit b64num 7633601368392991 (-51)));
     (close_to (n := b64num) (Closeness (lit b64num 5902958103587057 (-69)) (@nmin b64num)) (get_or_nan (psq_value b64num (ratio_value b64num) [(1#4); (1#2); (3#4)]%Q quantile_10 (3#4)%Q)) (lit b64num 2171579445322711 (-47)));
     (params_close (lit b64num 5902958103587057 (-69)) (psq_parameters b64num quantile_10) [(1%N, (lit b64num 5764607523034235 (-58))); (2%N, (lit b64num 1 (-1))); (3%N, (lit b64num 3332663724254167 (-52))); (4%N, (lit b64num 7475975381435023 (-53))); (5%N, (lit b64num 7633601368392991 (-51))); (6%N, (lit b64num 5713942027226317 (-49))); (7%N, (lit b64num 2171579445322711 (-47))); (8%N, (lit b64num 6296595229017375 (-48))); (9%N, (lit b64num 5435281800282767 (-47)))]);
     (close_to (n := b64num) (Closeness (lit b64num 5902958103587057 (-69)) (@nmin b64num)) (get_or_nan (psq_value b64num (ratio_value b64num) [(1#4); (1#2); (3#4)]%Q quantile_11 (1#4)%Q)) (lit b64num 3332663724254167 (-52)));
     (close_to (n := b64num) (Closeness (lit b64num 5902958103587057 (-69)) (@nmin b64num)) (get_or_nan (psq_value b64num (ratio_value b64num) [(1#4); (1#2); (3#4)]%Q quantile_11 (1#2)%Q)) (lit b64num 7633601368392991 (-51)));
     (close_to (n := b64num) (Closeness (lit b64num 5902958103587057 (-69)) (@nmin b64num)) (get_or_nan (psq_value b64num (ratio_value b64num) [(1#4); (1#2); (3#4)]%Q quantile_11 (3#4)%Q)) (lit b64num 2744849678765119 (-47)));
     (params_close (lit b64num 5902958103587057 (-69)) (psq_parameters b64num quantile_11) [(1%N, (lit b64num 5764607523034235 (-58))); (2%N, (lit b64num 1 (-1))); (3%N, (lit b64num 3332663724254167 (-52))); (4%N, (lit b64num 7475975381435023 (-53))); (5%N, (lit b64num 7633601368392991 (-51))); (6%N, (lit b64num 5713942027226317 (-49))); (8%N, (lit b64num 2744849678765119 (-47))); (9%N, (lit b64num 6296595229017375 (-48))); (10%N, (lit b64num 5435281800282767 (-47)))]);
     (close_to (n := b64num) (Closeness (lit b64num 5902958103587057 (-69)) (@nmin b64num)) (get_or_nan (psq_value b64num (ratio_value b64num) [(1#4); (1#2); (3#4)]%Q quantile_12 (1#4)%Q)) (lit b64num 3332663724254167 (-52)));
     (close_to (n := b64num) (Closeness (lit b64num 5902958103587057 (-69)) (@nmin b64num)) (get_or_nan (psq_value b64num (ratio_value b64num) [(1#4); (1#2); (3#4)]%Q quantile_12 (1#2)%Q)) (lit b64num 7633601368392991 (-51)));
     (close_to (n := b64num) (Closeness (lit b64num 5902958103587057 (-69)) (@nmin b64num)) (get_or_nan (psq_value b64num (ratio_value b64num) [(1#4); (1#2); (3#4)]%Q quantile_12 (3#4)%Q)) (lit b64num 2744849678765119 (-47)));
     (params_close (lit b64num 5902958103587057 (-69)) (psq_parameters b64num quantile_12) [(1%N, (lit b64num 5764607523034235 (-58))); (2%N, (lit b64num 1 (-1))); (3%N, (lit b64num 3332663724254167 (-52))); (4%N, (lit b64num 7475975381435023 (-53))); (5%N, (lit b64num 7633601368392991 (-51))); (7%N, (lit b64num 2184402037886765 (-47))); (8%N, (lit b64num 2744849678765119 (-47))); (10%N, (lit b64num 8090215705112551 (-48))); (11%N, (lit b64num 5435281800282767 (-47)))]);
     (close_to (n := b64num) (Closeness (lit b64num 5902958103587057 (-69)) (@nmin b64num)) (get_or_nan (psq_value b64num (ratio_value b64num) [(1#4); (1#2); (3#4)]%Q quantile_13 (1#4)%Q)) (lit b64num 3332663724254167 (-52)));
     (close_to (n := b64num) (Closeness (lit b64num 5902958103587057 (-69)) (@nmin b64num)) (get_or_nan (psq_value b64num (ratio_value b64num) [(1#4); (1#2); (3#4)]%Q quantile_13 (1#2)%Q)) (lit b64num 7534353291604813 (-50)));
     (close_to (n := b64num) (Closeness (lit b64num 5902958103587057 (-69)) (@nmin b64num)) (get_or_nan (psq_value b64num (ratio_value b64num) [(1#4); (1#2); (3#4)]%Q quantile_13 (3#4)%Q)) (lit b64num 6755258703567389 (-48)));
     (params_close (lit b64num 5902958103587057 (-69)) (psq_parameters b64num quantile_13) [(1%N, (lit b64num 5764607523034235 (-58))); (2%N, (lit b64num 1 (-1))); (3%N, (lit b64num 3332663724254167 (-52))); (4%N, (lit b64num 7475975381435023 (-53))); (6%N, (lit b64num 7534353291604813 (-50))); (7%N, (lit b64num 6333530375461347 (-49))); (10%N, (lit b64num 1688815379579289 (-46))); (11%N, (lit b64num 8090215705112551 (-48))); (12%N, (lit b64num 5435281800282767 (-47)))]);
     (close_to (n := b64num) (Closeness (lit b64num 5902958103587057 (-69)) (@nmin b64num)) (get_or_nan (psq_value b64num (ratio_value b64num) [(1#4); (1#2); (3#4)]%Q quantile_14 (1#4)%Q)) (lit b64num 3332663724254167 (-52)));
     (close_to (n := b64num) (Closeness (lit b64num 5902958103587057 (-69)) (@nmin b64num)) (get_or_nan (psq_value b64num (ratio_value b64num) [(1#4); (1#2); (3#4)]%Q quantile_14 (1#2)%Q)) (lit b64num 7534353291604813 (-50)));
     (close_to (n := b64num) (Closeness (lit b64num 5902958103587057 (-69)) (@nmin b64num)) (get_or_nan (psq_value b64num (ratio_value b64num) [(1#4); (1#2); (3#4)]%Q quantile_14 (3#4)%Q)) (lit b64num 1381833844166555 (-46)));
     (params_close (lit b64num 5902958103587057 (-69)) (psq_parameters b64num quantile_14) [(1%N, (lit b64num 5764607523034235 (-58))); (2%N, (lit b64num 1 (-1))); (3%N, (lit b64num 3332663724254167 (-52))); (5%N, (lit b64num 4170276959949737 (-51))); (7%N, (lit b64num 7534353291604813 (-50))); (9%N, (lit b64num 8812874560319489 (-49))); (10%N, (lit b64num 1381833844166555 (-46))); (11%N, (lit b64num 6309140568729369 (-48))); (13%N, (lit b64num 5435281800282767 (-47)))]);
     (close_to (n := b64num) (Closeness (lit b64num 5902958103587057 (-69)) (@nmin b64num)) (get_or_nan (psq_value b64num (ratio_value b64num) [(1#4); (1#2); (3#4)]%Q quantile_15 (1#4)%Q)) (lit b64num 1370208927628405 (-50)));
     (close_to (n := b64num) (Closeness (lit b64num 5902958103587057 (-69)) (@nmin b64num)) (get_or_nan (psq_value b64num (ratio_value b64num) [(1#4); (1#2); (3#4)]%Q quantile_15 (1#2)%Q)) (lit b64num 8458953554103045 (-51)));
     (close_to (n := b64num) (Closeness (lit b64num 5902958103587057 (-69)) (@nmin b64num)) (get_or_nan (psq_value b64num (ratio_value b64num) [(1#4); (1#2); (3#4)]%Q quantile_15 (3#4)%Q)) (lit b64num 2260113177122397 (-47)));
     (params_close (lit b64num 5902958103587057 (-69)) (psq_parameters b64num quantile_15) [(1%N, (lit b64num 5764607523034235 (-58))); (2%N, (lit b64num 1170935903116329 (-52))); (5%N, (lit b64num 1370208927628405 (-50))); (6%N, (lit b64num 4170276959949737 (-51))); (7%N, (lit b64num 8458953554103045 (-51))); (9%N, (lit b64num 3287813501465091 (-48))); (10%N, (lit b64num 2260113177122397 (-47))); (13%N, (lit b64num 2060821856736835 (-46))); (14%N, (lit b64num 5435281800282767 (-47)))]);
     (close_to (n := b64num) (Closeness (lit b64num 5902958103587057 (-69)) (@nmin b64num)) (get_or_nan (psq_value b64num (ratio_value b64num) [(1#4); (1#2); (3#4)]%Q quantile_16 (1#4)%Q)) (lit b64num 6524094564193995 (-53)));
     (close_to (n := b64num) (Closeness (lit b64num 5902958103587057 (-69)) (@nmin b64num)) (get_or_nan (psq_value b64num (ratio_value b64num) [(1#4); (1#2); (3#4)]%Q quantile_16 (1#2)%Q)) (lit b64num 8458953554103045 (-51)));
     (close_to (n := b64num) (Closeness (lit b64num 5902958103587057 (-69)) (@nmin b64num)) (get_or_nan (psq_value b64num (ratio_value b64num) [(1#4); (1#2); (3#4)]%Q quantile_16 (3#4)%Q)) (lit b64num 5742176782140163 (-48)));
     (params_close (lit b64num 5902958103587057 (-69)) (psq_parameters b64num quantile_16) [(1%N, (lit b64num 5764607523034235 (-58))); (2%N, (lit b64num 7220170922600379 (-56))); (5%N, (lit b64num 6524094564193995 (-53))); (6%N, (lit b64num 947152037632289 (-50))); (8%N, (lit b64num 8458953554103045 (-51))); (9%N, (lit b64num 4267053686442395 (-49))); (12%N, (lit b64num 5742176782140163 (-48))); (13%N, (lit b64num 6533825154138883 (-48))); (15%N, (lit b64num 5435281800282767 (-47)))]);
     (close_to (n := b64num) (Closeness (lit b64num 5902958103587057 (-69)) (@nmin b64num)) (get_or_nan (psq_value b64num (ratio_value b64num) [(1#4); (1#2); (3#4)]%Q quantile_16 0%Q)) (lit b64num 5764607523034235 (-58)));
     (close_to (n := b64num) (Closeness (lit b64num 5902958103587057 (-69)) (@nmin b64num)) (get_or_nan (psq_value b64num (ratio_value b64num) [(1#4); (1#2); (3#4)]%Q quantile_16 (1#4)%Q)) (lit b64num 6524094564193995 (-53)));
     (close_to (n := b64num) (Closeness (lit b64num 5902958103587057 (-69)) (@nmin b64num)) (get_or_nan (psq_value b64num (ratio_value b64num) [(1#4); (1#2); (3#4)]%Q quantile_16 (1#2)%Q)) (lit b64num 8458953554103045 (-51)));
     (close_to (n := b64num) (Closeness (lit b64num 5902958103587057 (-69)) (@nmin b64num)) (get_or_nan (psq_value b64num (ratio_value b64num) [(1#4); (1#2); (3#4)]%Q quantile_16 (3#4)%Q)) (lit b64num 5742176782140163 (-48)));
     (close_to (n := b64num) (Closeness (lit b64num 5902958103587057 (-69)) (@nmin b64num)) (get_or_nan (psq_value b64num (ratio_value b64num) [(1#4); (1#2); (3#4)]%Q quantile_16 1%Q)) (lit b64num 5435281800282767 (-47)));
     (close_to (n := b64num) (Closeness (lit b64num 5902958103587057 (-69)) (@nmin b64num)) (get_or_nan (psq_get b64num (map (ratio_value b64num) [(1#4); (1#2); (3#4)]%Q) quantile_16 0)) (get_or_nan (psq_value b64num (ratio_value b64num) [(1#4); (1#2); (3#4)]%Q quantile_16 0%Q)));
     (close_to (n := b64num) (Closeness (lit b64num 5902958103587057 (-69)) (@nmin b64num)) (get_or_nan (psq_get b64num (map (ratio_value b64num) [(1#4); (1#2); (3#4)]%Q) quantile_16 1)) (get_or_nan (psq_value b64num (ratio_value b64num) [(1#4); (1#2); (3#4)]%Q quantile_16 (1#4)%Q)));
     (close_to (n := b64num) (Closeness (lit b64num 5902958103587057 (-69)) (@nmin b64num)) (get_or_nan (psq_get b64num (map (ratio_value b64num) [(1#4); (1#2); (3#4)]%Q) quantile_16 2)) (get_or_nan (psq_value b64num (ratio_value b64num) [(1#4); (1#2); (3#4)]%Q quantile_16 (1#2)%Q)));
     (close_to (n := b64num) (Closeness (lit b64num 5902958103587057 (-69)) (@nmin b64num)) (get_or_nan (psq_get b64num (map (ratio_value b64num) [(1#4); (1#2); (3#4)]%Q) quantile_16 3)) (get_or_nan (psq_value b64num (ratio_value b64num) [(1#4); (1#2); (3#4)]%Q quantile_16 (3#4)%Q)));
     (close_to (n := b64num) (Closeness (lit b64num 5902958103587057 (-69)) (@nmin b64num)) (get_or_nan (psq_get b64num (map (ratio_value b64num) [(1#4); (1#2); (3#4)]%Q) quantile_16 4)) (get_or_nan (psq_value b64num (ratio_value b64num) [(1#4); (1#2); (3#4)]%Q quantile_16 1%Q)));
     (close_to (n := b64num) (Closeness (lit b64num 5902958103587057 (-69)) (@nmin b64num)) (get_or_nan (psq_get b64num (map (ratio_value b64num) [(1#4); (1#2); (3#4)]%Q) quantile_16 2)) (get_or_nan (psq_value b64num (ratio_value b64num) [(1#4); (1#2); (3#4)]%Q quantile_16 (1#2)%Q)));
     (close_to (n := b64num) (Closeness (lit b64num 5902958103587057 (-69)) (@nmin b64num)) (get_or_nan (psq_get b64num (map (ratio_value b64num) [(1#4); (1#2); (3#4)]%Q) quantile_16 2)) (get_or_nan (psq_value b64num (ratio_value b64num) [(1#4); (1#2); (3#4)]%Q quantile_16 (1#2)%Q)));
     (close_to (n := b64num) (Closeness (lit b64num 5902958103587057 (-69)) (@nmin b64num)) (get_or_nan (psq_get b64num (map (ratio_value b64num) [(1#4); (1#2); (3#4)]%Q) quantile_16 2)) (get_or_nan (psq_value b64num (ratio_value b64num) [(1#4); (1#2); (3#4)]%Q quantile_16 (1#2)%Q)))]) = true.
Proof. vm_compute. reflexivity. Qed.

(** test/quantile/psquare_suite.cpp:640 *)
Example quantile_psquare_double_quartile_suite_test_linear_increase :
  (let quantile_1 := psq_init b64num (map (ratio_value b64num) [(1#4); (1#2); (3#4)]%Q) in
   let quantile_2 := psq_push b64num (map (ratio_value b64num) [(1#4); (1#2); (3#4)]%Q) quantile_1 (lit b64num 1 0) in
   let quantile_3 := psq_push b64num (map (ratio_value b64num) [(1#4); (1#2); (3#4)]%Q) quantile_2 (lit b64num 1 1) in
   let quantile_4 := psq_push b64num (map (ratio_value b64num) [(1#4); (1#2); (3#4)]%Q) quantile_3 (lit b64num 3 0) in
   let quantile_5 := psq_push b64num (map (ratio_value b64num) [(1#4); (1#2); (3#4)]%Q) quantile_4 (lit b64num 1 2) in
   let quantile_6 := psq_push b64num (map (ratio_value b64num) [(1#4); (1#2); (3#4)]%Q) quantile_5 (lit b64num 5 0) in
   let quantile_7 := psq_push b64num (map (ratio_value b64num) [(1#4); (1#2); (3#4)]%Q) quantile_6 (lit b64num 3 1) in
   let quantile_8 := psq_push b64num (map (ratio_value b64num) [(1#4); (1#2); (3#4)]%Q) quantile_7 (lit b64num 7 0) in
   let quantile_9 := psq_push b64num (map (ratio_value b64num) [(1#4); (1#2); (3#4)]%Q) quantile_8 (lit b64num 1 3) in
   let quantile_10 := psq_push b64num (map (ratio_value b64num) [(1#4); (1#2); (3#4)]%Q) quantile_9 (lit b64num 9 0) in
   let quantile_11 := psq_push b64num (map (ratio_value b64num) [(1#4); (1#2); (3#4)]%Q) quantile_10 (lit b64num 5 1) in
   let quantile_12 := psq_push b64num (map (ratio_value b64num) [(1#4); (1#2); (3#4)]%Q) quantile_11 (lit b64num 11 0) in
   let quantile_13 := psq_push b64num (map (ratio_value b64num) [(1#4); (1#2); (3#4)]%Q) quantile_12 (lit b64num 3 2) in
   let quantile_14 := psq_push b64num (map (ratio_value b64num) [(1#4); (1#2); (3#4)]%Q) quantile_13 (lit b64num 13 0) in
   let quantile_15 := psq_push b64num (map (ratio_value b64num) [(1#4); (1#2); (3#4)]%Q) quantile_14 (lit b64num 7 1) in
   let quantile_16 := psq_push b64num (map (ratio_value b64num) [(1#4); (1#2); (3#4)]%Q) quantile_15 (lit b64num 15 0) in
   let quantile_17 := psq_push b64num (map (ratio_value b64num) [(1#4); (1#2); (3#4)]%Q) quantile_16 (lit b64num 1 4) in
   let quantile_18 := psq_push b64num (map (ratio_value b64num) [(1#4); (1#2); (3#4)]%Q) quantile_17 (lit b64num 17 0) in
   let quantile_19 := psq_push b64num (map (ratio_value b64num) [(1#4); (1#2); (3#4)]%Q) quantile_18 (lit b64num 9 1) in
   let quantile_20 := psq_push b64num (map (ratio_value b64num) [(1#4); (1#2); (3#4)]%Q) quantile_19 (lit b64num 19 0) in
   let quantile_21 := psq_push b64num (map (ratio_value b64num) [(1#4); (1#2); (3#4)]%Q) quantile_20 (lit b64num 5 2) in
   let quantile_22 := psq_push b64num (map (ratio_value b64num) [(1#4); (1#2); (3#4)]%Q) quantile_21 (lit b64num 21 0) in
   all_true [(close_to (n := b64num) (Closeness (lit b64num 5902958103587057 (-69)) (@nmin b64num)) (get_or_nan (psq_value b64num (ratio_value b64num) [(1#4); (1#2); (3#4)]%Q quantile_2 0%Q)) (lit b64num 1 0));
     (close_to (n := b64num) (Closeness (lit b64num 5902958103587057 (-69)) (@nmin b64num)) (get_or_nan (psq_value b64num (ratio_value b64num) [(1#4); (1#2); (3#4)]%Q quantile_2 (1#4)%Q)) (lit b64num 1 0));
     (close_to (n := b64num) (Closeness (lit b64num 5902958103587057 (-69)) (@nmin b64num)) (get_or_nan (psq_value b64num (ratio_value b64num) [(1#4); (1#2); (3#4)]%Q quantile_2 (1#2)%Q)) (lit b64num 1 0));
     (close_to (n := b64num) (Closeness (lit b64num 5902958103587057 (-69)) (@nmin b64num)) (get_or_nan (psq_value b64num (ratio_value b64num) [(1#4); (1#2); (3#4)]%Q quantile_2 (3#4)%Q)) (lit b64num 1 0));
     (close_to (n := b64num) (Closeness (lit b64num 5902958103587057 (-69)) (@nmin b64num)) (get_or_nan (psq_value b64num (ratio_value b64num) [(1#4); (1#2); (3#4)]%Q quantile_2 1%Q)) (lit b64num 1 0));
     (close_to (n := b64num) (Closeness (lit b64num 5902958103587057 (-69)) (@nmin b64num)) (get_or_nan (psq_value b64num (ratio_value b64num) [(1#4); (1#2); (3#4)]%Q quantile_3 0%Q)) (lit b64num 1 0));
     (close_to (n := b64num) (Closeness (lit b64num 5902958103587057 (-69)) (@nmin b64num)) (get_or_nan (psq_value b64num (ratio_value b64num) [(1#4); (1#2); (3#4)]%Q quantile_3 (1#4)%Q)) (lit b64num 5 (-2)));
     (close_to (n := b64num) (Closeness (lit b64num 5902958103587057 (-69)) (@nmin b64num)) (get_or_nan (psq_value b64num (ratio_value b64num) [(1#4); (1#2); (3#4)]%Q quantile_3 (1#2)%Q)) (lit b64num 3 (-1)));
     (close_to (n := b64num) (Closeness (lit b64num 5902958103587057 (-69)) (@nmin b64num)) (get_or_nan (psq_value b64num (ratio_value b64num) [(1#4); (1#2); (3#4)]%Q quantile_3 (3#4)%Q)) (lit b64num 7 (-2)));
     (close_to (n := b64num) (Closeness (lit b64num 5902958103587057 (-69)) (@nmin b64num)) (get_or_nan (psq_value b64num (ratio_value b64num) [(1#4); (1#2); (3#4)]%Q quantile_3 1%Q)) (lit b64num 1 1));
     (close_to (n := b64num) (Closeness (lit b64num 5902958103587057 (-69)) (@nmin b64num)) (get_or_nan (psq_value b64num (ratio_value b64num) [(1#4); (1#2); (3#4)]%Q quantile_4 0%Q)) (lit b64num 1 0));
     (close_to (n := b64num) (Closeness (lit b64num 5902958103587057 (-69)) (@nmin b64num)) (get_or_nan (psq_value b64num (ratio_value b64num) [(1#4); (1#2); (3#4)]%Q quantile_4 (1#4)%Q)) (lit b64num 3 (-1)));
     (close_to (n := b64num) (Closeness (lit b64num 5902958103587057 (-69)) (@nmin b64num)) (get_or_nan (psq_value b64num (ratio_value b64num) [(1#4); (1#2); (3#4)]%Q quantile_4 (1#2)%Q)) (lit b64num 1 1));
     (close_to (n := b64num) (Closeness (lit b64num 5902958103587057 (-69)) (@nmin b64num)) (get_or_nan (psq_value b64num (ratio_value b64num) [(1#4); (1#2); (3#4)]%Q quantile_4 (3#4)%Q)) (lit b64num 5 (-1)));
     (close_to (n := b64num) (Closeness (lit b64num 5902958103587057 (-69)) (@nmin b64num)) (get_or_nan (psq_value b64num (ratio_value b64num) [(1#4); (1#2); (3#4)]%Q quantile_4 1%Q)) (lit b64num 3 0));
     (close_to (n := b64num) (Closeness (lit b64num 5902958103587057 (-69)) (@nmin b64num)) (get_or_nan (psq_value b64num (ratio_value b64num) [(1#4); (1#2); (3#4)]%Q quantile_5 0%Q)) (lit b64num 1 0));
     (close_to (n := b64num) (Closeness (lit b64num 5902958103587057 (-69)) (@nmin b64num)) (get_or_nan (psq_value b64num (ratio_value b64num) [(1#4); (1#2); (3#4)]%Q quantile_5 (1#4)%Q)) (lit b64num 7 (-2)));
     (close_to (n := b64num) (Closeness (lit b64num 5902958103587057 (-69)) (@nmin b64num)) (get_or_nan (psq_value b64num (ratio_value b64num) [(1#4); (1#2); (3#4)]%Q quantile_5 (1#2)%Q)) (lit b64num 5 (-1)));
     (close_to (n := b64num) (Closeness (lit b64num 5902958103587057 (-69)) (@nmin b64num)) (get_or_nan (psq_value b64num (ratio_value b64num) [(1#4); (1#2); (3#4)]%Q quantile_5 (3#4)%Q)) (lit b64num 13 (-2)));
     (close_to (n := b64num) (Closeness (lit b64num 5902958103587057 (-69)) (@nmin b64num)) (get_or_nan (psq_value b64num (ratio_value b64num) [(1#4); (1#2); (3#4)]%Q quantile_5 1%Q)) (lit b64num 1 2));
     (close_to (n := b64num) (Closeness (lit b64num 5902958103587057 (-69)) (@nmin b64num)) (get_or_nan (psq_value b64num (ratio_value b64num) [(1#4); (1#2); (3#4)]%Q quantile_6 0%Q)) (lit b64num 1 0));
     (close_to (n := b64num) (Closeness (lit b64num 5902958103587057 (-69)) (@nmin b64num)) (get_or_nan (psq_value b64num (ratio_value b64num) [(1#4); (1#2); (3#4)]%Q quantile_6 (1#4)%Q)) (lit b64num 1 1));
     (close_to (n := b64num) (Closeness (lit b64num 5902958103587057 (-69)) (@nmin b64num)) (get_or_nan (psq_value b64num (ratio_value b64num) [(1#4); (1#2); (3#4)]%Q quantile_6 (1#2)%Q)) (lit b64num 3 0));
     (close_to (n := b64num) (Closeness (lit b64num 5902958103587057 (-69)) (@nmin b64num)) (get_or_nan (psq_value b64num (ratio_value b64num) [(1#4); (1#2); (3#4)]%Q quantile_6 (3#4)%Q)) (lit b64num 1 2));
     (close_to (n := b64num) (Closeness (lit b64num 5902958103587057 (-69)) (@nmin b64num)) (get_or_nan (psq_value b64num (ratio_value b64num) [(1#4); (1#2); (3#4)]%Q quantile_6 1%Q)) (lit b64num 5 0));
     (close_to (n := b64num) (Closeness (lit b64num 5902958103587057 (-69)) (@nmin b64num)) (get_or_nan (psq_value b64num (ratio_value b64num) [(1#4); (1#2); (3#4)]%Q quantile_7 0%Q)) (lit b64num 1 0));
     (close_to (n := b64num) (Closeness (lit b64num 5902958103587057 (-69)) (@nmin b64num)) (get_or_nan (psq_value b64num (ratio_value b64num) [(1#4); (1#2); (3#4)]%Q quantile_7 (1#4)%Q)) (lit b64num 9 (-2)));
     (close_to (n := b64num) (Closeness (lit b64num 5902958103587057 (-69)) (@nmin b64num)) (get_or_nan (psq_value b64num (ratio_value b64num) [(1#4); (1#2); (3#4)]%Q quantile_7 (1#2)%Q)) (lit b64num 7 (-1)));
     (close_to (n := b64num) (Closeness (lit b64num 5902958103587057 (-69)) (@nmin b64num)) (get_or_nan (psq_value b64num (ratio_value b64num) [(1#4); (1#2); (3#4)]%Q quantile_7 (3#4)%Q)) (lit b64num 19 (-2)));
     (close_to (n := b64num) (Closeness (lit b64num 5902958103587057 (-69)) (@nmin b64num)) (get_or_nan (psq_value b64num (ratio_value b64num) [(1#4); (1#2); (3#4)]%Q quantile_7 1%Q)) (lit b64num 3 1));
     (close_to (n := b64num) (Closeness (lit b64num 5902958103587057 (-69)) (@nmin b64num)) (get_or_nan (psq_value b64num (ratio_value b64num) [(1#4); (1#2); (3#4)]%Q quantile_8 0%Q)) (lit b64num 1 0));
     (close_to (n := b64num) (Closeness (lit b64num 5902958103587057 (-69)) (@nmin b64num)) (get_or_nan (psq_value b64num (ratio_value b64num) [(1#4); (1#2); (3#4)]%Q quantile_8 (1#4)%Q)) (lit b64num 5 (-1)));
     (close_to (n := b64num) (Closeness (lit b64num 5902958103587057 (-69)) (@nmin b64num)) (get_or_nan (psq_value b64num (ratio_value b64num) [(1#4); (1#2); (3#4)]%Q quantile_8 (1#2)%Q)) (lit b64num 1 2));
     (close_to (n := b64num) (Closeness (lit b64num 5902958103587057 (-69)) (@nmin b64num)) (get_or_nan (psq_value b64num (ratio_value b64num) [(1#4); (1#2); (3#4)]%Q quantile_8 (3#4)%Q)) (lit b64num 11 (-1)));
     (close_to (n := b64num) (Closeness (lit b64num 5902958103587057 (-69)) (@nmin b64num)) (get_or_nan (psq_value b64num (ratio_value b64num) [(1#4); (1#2); (3#4)]%Q quantile_8 1%Q)) (lit b64num 7 0));
     (close_to (n := b64num) (Closeness (lit b64num 5902958103587057 (-69)) (@nmin b64num)) (get_or_nan (psq_value b64num (ratio_value b64num) [(1#4); (1#2); (3#4)]%Q quantile_9 0%Q)) (lit b64num 1 0));
     (close_to (n := b64num) (Closeness (lit b64num 5902958103587057 (-69)) (@nmin b64num)) (get_or_nan (psq_value b64num (ratio_value b64num) [(1#4); (1#2); (3#4)]%Q quantile_9 (1#4)%Q)) (lit b64num 11 (-2)));
     (close_to (n := b64num) (Closeness (lit b64num 5902958103587057 (-69)) (@nmin b64num)) (get_or_nan (psq_value b64num (ratio_value b64num) [(1#4); (1#2); (3#4)]%Q quantile_9 (1#2)%Q)) (lit b64num 9 (-1)));
     (close_to (n := b64num) (Closeness (lit b64num 5902958103587057 (-69)) (@nmin b64num)) (get_or_nan (psq_value b64num (ratio_value b64num) [(1#4); (1#2); (3#4)]%Q quantile_9 (3#4)%Q)) (lit b64num 25 (-2)));
     (close_to (n := b64num) (Closeness (lit b64num 5902958103587057 (-69)) (@nmin b64num)) (get_or_nan (psq_value b64num (ratio_value b64num) [(1#4); (1#2); (3#4)]%Q quantile_9 1%Q)) (lit b64num 1 3));
     (close_to (n := b64num) (Closeness (lit b64num 5902958103587057 (-69)) (@nmin b64num)) (get_or_nan (psq_value b64num (ratio_value b64num) [(1#4); (1#2); (3#4)]%Q quantile_10 0%Q)) (lit b64num 1 0));
     (close_to (n := b64num) (Closeness (lit b64num 5902958103587057 (-69)) (@nmin b64num)) (get_or_nan (psq_value b64num (ratio_value b64num) [(1#4); (1#2); (3#4)]%Q quantile_10 (1#4)%Q)) (lit b64num 3 0));
     (close_to (n := b64num) (Closeness (lit b64num 5902958103587057 (-69)) (@nmin b64num)) (get_or_nan (psq_value b64num (ratio_value b64num) [(1#4); (1#2); (3#4)]%Q quantile_10 (1#2)%Q)) (lit b64num 5 0));
     (close_to (n := b64num) (Closeness (lit b64num 5902958103587057 (-69)) (@nmin b64num)) (get_or_nan (psq_value b64num (ratio_value b64num) [(1#4); (1#2); (3#4)]%Q quantile_10 (3#4)%Q)) (lit b64num 7 0));
     (close_to (n := b64num) (Closeness (lit b64num 5902958103587057 (-69)) (@nmin b64num)) (get_or_nan (psq_value b64num (ratio_value b64num) [(1#4); (1#2); (3#4)]%Q quantile_10 1%Q)) (lit b64num 9 0));
     (close_to (n := b64num) (Closeness (lit b64num 5902958103587057 (-69)) (@nmin b64num)) (get_or_nan (psq_value b64num (ratio_value b64num) [(1#4); (1#2); (3#4)]%Q quantile_11 0%Q)) (lit b64num 1 0));
     (close_to (n := b64num) (Closeness (lit b64num 5902958103587057 (-69)) (@nmin b64num)) (get_or_nan (psq_value b64num (ratio_value b64num) [(1#4); (1#2); (3#4)]%Q quantile_11 (1#4)%Q)) (lit b64num 3 0));
     (close_to (n := b64num) (Closeness (lit b64num 5902958103587057 (-69)) (@nmin b64num)) (get_or_nan (psq_value b64num (ratio_value b64num) [(1#4); (1#2); (3#4)]%Q quantile_11 (1#2)%Q)) (lit b64num 5 0));
     (close_to (n := b64num) (Closeness (lit b64num 5902958103587057 (-69)) (@nmin b64num)) (get_or_nan (psq_value b64num (ratio_value b64num) [(1#4); (1#2); (3#4)]%Q quantile_11 (3#4)%Q)) (lit b64num 7 0));
     (close_to (n := b64num) (Closeness (lit b64num 5902958103587057 (-69)) (@nmin b64num)) (get_or_nan (psq_value b64num (ratio_value b64num) [(1#4); (1#2); (3#4)]%Q quantile_11 1%Q)) (lit b64num 5 1));
     (close_to (n := b64num) (Closeness (lit b64num 5902958103587057 (-69)) (@nmin b64num)) (get_or_nan (psq_value b64num (ratio_value b64num) [(1#4); (1#2); (3#4)]%Q quantile_12 0%Q)) (lit b64num 1 0));
     (close_to (n := b64num) (Closeness (lit b64num 5902958103587057 (-69)) (@nmin b64num)) (get_or_nan (psq_value b64num (ratio_value b64num) [(1#4); (1#2); (3#4)]%Q quantile_12 (1#4)%Q)) (lit b64num 3 0));
     (close_to (n := b64num) (Closeness (lit b64num 5902958103587057 (-69)) (@nmin b64num)) (get_or_nan (psq_value b64num (ratio_value b64num) [(1#4); (1#2); (3#4)]%Q quantile_12 (1#2)%Q)) (lit b64num 5 0));
     (close_to (n := b64num) (Closeness (lit b64num 5902958103587057 (-69)) (@nmin b64num)) (get_or_nan (psq_value b64num (ratio_value b64num) [(1#4); (1#2); (3#4)]%Q quantile_12 (3#4)%Q)) (lit b64num 1 3));
     (close_to (n := b64num) (Closeness (lit b64num 5902958103587057 (-69)) (@nmin b64num)) (get_or_nan (psq_value b64num (ratio_value b64num) [(1#4); (1#2); (3#4)]%Q quantile_12 1%Q)) (lit b64num 11 0));
     (close_to (n := b64num) (Closeness (lit b64num 5902958103587057 (-69)) (@nmin b64num)) (get_or_nan (psq_value b64num (ratio_value b64num) [(1#4); (1#2); (3#4)]%Q quantile_13 0%Q)) (lit b64num 1 0));
     (close_to (n := b64num) (Closeness (lit b64num 5902958103587057 (-69)) (@nmin b64num)) (get_or_nan (psq_value b64num (ratio_value b64num) [(1#4); (1#2); (3#4)]%Q quantile_13 (1#4)%Q)) (lit b64num 3 0));
     (close_to (n := b64num) (Closeness (lit b64num 5902958103587057 (-69)) (@nmin b64num)) (get_or_nan (psq_value b64num (ratio_value b64num) [(1#4); (1#2); (3#4)]%Q quantile_13 (1#2)%Q)) (lit b64num 5 0));
     (close_to (n := b64num) (Closeness (lit b64num 5902958103587057 (-69)) (@nmin b64num)) (get_or_nan (psq_value b64num (ratio_value b64num) [(1#4); (1#2); (3#4)]%Q quantile_13 (3#4)%Q)) (lit b64num 9 0));
     (close_to (n := b64num) (Closeness (lit b64num 5902958103587057 (-69)) (@nmin b64num)) (get_or_nan (psq_value b64num (ratio_value b64num) [(1#4); (1#2); (3#4)]%Q quantile_13 1%Q)) (lit b64num 3 2));
     (close_to (n := b64num) (Closeness (lit b64num 5902958103587057 (-69)) (@nmin b64num)) (get_or_nan (psq_value b64num (ratio_value b64num) [(1#4); (1#2); (3#4)]%Q quantile_14 0%Q)) (lit b64num 1 0));
     (close_to (n := b64num) (Closeness (lit b64num 5902958103587057 (-69)) (@nmin b64num)) (get_or_nan (psq_value b64num (ratio_value b64num) [(1#4); (1#2); (3#4)]%Q quantile_14 (1#4)%Q)) (lit b64num 3 0));
     (close_to (n := b64num) (Closeness (lit b64num 5902958103587057 (-69)) (@nmin b64num)) (get_or_nan (psq_value b64num (ratio_value b64num) [(1#4); (1#2); (3#4)]%Q quantile_14 (1#2)%Q)) (lit b64num 3 1));
     (close_to (n := b64num) (Closeness (lit b64num 5902958103587057 (-69)) (@nmin b64num)) (get_or_nan (psq_value b64num (ratio_value b64num) [(1#4); (1#2); (3#4)]%Q quantile_14 (3#4)%Q)) (lit b64num 5 1));
     (close_to (n := b64num) (Closeness (lit b64num 5902958103587057 (-69)) (@nmin b64num)) (get_or_nan (psq_value b64num (ratio_value b64num) [(1#4); (1#2); (3#4)]%Q quantile_14 1%Q)) (lit b64num 13 0));
     (close_to (n := b64num) (Closeness (lit b64num 5902958103587057 (-69)) (@nmin b64num)) (get_or_nan (psq_value b64num (ratio_value b64num) [(1#4); (1#2); (3#4)]%Q quantile_15 0%Q)) (lit b64num 1 0));
     (close_to (n := b64num) (Closeness (lit b64num 5902958103587057 (-69)) (@nmin b64num)) (get_or_nan (psq_value b64num (ratio_value b64num) [(1#4); (1#2); (3#4)]%Q quantile_15 (1#4)%Q)) (lit b64num 3 0));
     (close_to (n := b64num) (Closeness (lit b64num 5902958103587057 (-69)) (@nmin b64num)) (get_or_nan (psq_value b64num (ratio_value b64num) [(1#4); (1#2); (3#4)]%Q quantile_15 (1#2)%Q)) (lit b64num 7 0));
     (close_to (n := b64num) (Closeness (lit b64num 5902958103587057 (-69)) (@nmin b64num)) (get_or_nan (psq_value b64num (ratio_value b64num) [(1#4); (1#2); (3#4)]%Q quantile_15 (3#4)%Q)) (lit b64num 11 0));
     (close_to (n := b64num) (Closeness (lit b64num 5902958103587057 (-69)) (@nmin b64num)) (get_or_nan (psq_value b64num (ratio_value b64num) [(1#4); (1#2); (3#4)]%Q quantile_15 1%Q)) (lit b64num 7 1));
     (close_to (n := b64num) (Closeness (lit b64num 5902958103587057 (-69)) (@nmin b64num)) (get_or_nan (psq_value b64num (ratio_value b64num) [(1#4); (1#2); (3#4)]%Q quantile_16 0%Q)) (lit b64num 1 0));
     (close_to (n := b64num) (Closeness (lit b64num 5902958103587057 (-69)) (@nmin b64num)) (get_or_nan (psq_value b64num (ratio_value b64num) [(1#4); (1#2); (3#4)]%Q quantile_16 (1#4)%Q)) (lit b64num 1 2));
     (close_to (n := b64num) (Closeness (lit b64num 5902958103587057 (-69)) (@nmin b64num)) (get_or_nan (psq_value b64num (ratio_value b64num) [(1#4); (1#2); (3#4)]%Q quantile_16 (1#2)%Q)) (lit b64num 1 3));
     (close_to (n := b64num) (Closeness (lit b64num 5902958103587057 (-69)) (@nmin b64num)) (get_or_nan (psq_value b64num (ratio_value b64num) [(1#4); (1#2); (3#4)]%Q quantile_16 (3#4)%Q)) (lit b64num 3 2));
     (close_to (n := b64num) (Closeness (lit b64num 5902958103587057 (-69)) (@nmin b64num)) (get_or_nan (psq_value b64num (ratio_value b64num) [(1#4); (1#2); (3#4)]%Q quantile_16 1%Q)) (lit b64num 15 0));
     (close_to (n := b64num) (Closeness (lit b64num 5902958103587057 (-69)) (@nmin b64num)) (get_or_nan (psq_value b64num (ratio_value b64num) [(1#4); (1#2); (3#4)]%Q quantile_17 0%Q)) (lit b64num 1 0));
     (close_to (n := b64num) (Closeness (lit b64num 5902958103587057 (-69)) (@nmin b64num)) (get_or_nan (psq_value b64num (ratio_value b64num) [(1#4); (1#2); (3#4)]%Q quantile_17 (1#4)%Q)) (lit b64num 5 0));
     (close_to (n := b64num) (Closeness (lit b64num 5902958103587057 (-69)) (@nmin b64num)) (get_or_nan (psq_value b64num (ratio_value b64num) [(1#4); (1#2); (3#4)]%Q quantile_17 (1#2)%Q)) (lit b64num 9 0));
     (close_to (n := b64num) (Closeness (lit b64num 5902958103587057 (-69)) (@nmin b64num)) (get_or_nan (psq_value b64num (ratio_value b64num) [(1#4); (1#2); (3#4)]%Q quantile_17 (3#4)%Q)) (lit b64num 13 0));
     (close_to (n := b64num) (Closeness (lit b64num 5902958103587057 (-69)) (@nmin b64num)) (get_or_nan (psq_value b64num (ratio_value b64num) [(1#4); (1#2); (3#4)]%Q quantile_17 1%Q)) (lit b64num 1 4));
     (close_to (n := b64num) (Closeness (lit b64num 5902958103587057 (-69)) (@nmin b64num)) (get_or_nan (psq_value b64num (ratio_value b64num) [(1#4); (1#2); (3#4)]%Q quantile_18 0%Q)) (lit b64num 1 0));
     (close_to (n := b64num) (Closeness (lit b64num 5902958103587057 (-69)) (@nmin b64num)) (get_or_nan (psq_value b64num (ratio_value b64num) [(1#4); (1#2); (3#4)]%Q quantile_18 (1#4)%Q)) (lit b64num 5 0));
     (close_to (n := b64num) (Closeness (lit b64num 5902958103587057 (-69)) (@nmin b64num)) (get_or_nan (psq_value b64num (ratio_value b64num) [(1#4); (1#2); (3#4)]%Q quantile_18 (1#2)%Q)) (lit b64num 9 0));
     (close_to (n := b64num) (Closeness (lit b64num 5902958103587057 (-69)) (@nmin b64num)) (get_or_nan (psq_value b64num (ratio_value b64num) [(1#4); (1#2); (3#4)]%Q quantile_18 (3#4)%Q)) (lit b64num 13 0));
     (close_to (n := b64num) (Closeness (lit b64num 5902958103587057 (-69)) (@nmin b64num)) (get_or_nan (psq_value b64num (ratio_value b64num) [(1#4); (1#2); (3#4)]%Q quantile_18 1%Q)) (lit b64num 17 0));
     (close_to (n := b64num) (Closeness (lit b64num 5902958103587057 (-69)) (@nmin b64num)) (get_or_nan (psq_value b64num (ratio_value b64num) [(1#4); (1#2); (3#4)]%Q quantile_19 0%Q)) (lit b64num 1 0));
     (close_to (n := b64num) (Closeness (lit b64num 5902958103587057 (-69)) (@nmin b64num)) (get_or_nan (psq_value b64num (ratio_value b64num) [(1#4); (1#2); (3#4)]%Q quantile_19 (1#4)%Q)) (lit b64num 3 1));
     (close_to (n := b64num) (Closeness (lit b64num 5902958103587057 (-69)) (@nmin b64num)) (get_or_nan (psq_value b64num (ratio_value b64num) [(1#4); (1#2); (3#4)]%Q quantile_19 (1#2)%Q)) (lit b64num 5 1));
     (close_to (n := b64num) (Closeness (lit b64num 5902958103587057 (-69)) (@nmin b64num)) (get_or_nan (psq_value b64num (ratio_value b64num) [(1#4); (1#2); (3#4)]%Q quantile_19 (3#4)%Q)) (lit b64num 7 1));
     (close_to (n := b64num) (Closeness (lit b64num 5902958103587057 (-69)) (@nmin b64num)) (get_or_nan (psq_value b64num (ratio_value b64num) [(1#4); (1#2); (3#4)]%Q quantile_19 1%Q)) (lit b64num 9 1));
     (close_to (n := b64num) (Closeness (lit b64num 5902958103587057 (-69)) (@nmin b64num)) (get_or_nan (psq_value b64num (ratio_value b64num) [(1#4); (1#2); (3#4)]%Q quantile_20 0%Q)) (lit b64num 1 0));
     (close_to (n := b64num) (Closeness (lit b64num 5902958103587057 (-69)) (@nmin b64num)) (get_or_nan (psq_value b64num (ratio_value b64num) [(1#4); (1#2); (3#4)]%Q quantile_20 (1#4)%Q)) (lit b64num 5 0));
     (close_to (n := b64num) (Closeness (lit b64num 5902958103587057 (-69)) (@nmin b64num)) (get_or_nan (psq_value b64num (ratio_value b64num) [(1#4); (1#2); (3#4)]%Q quantile_20 (1#2)%Q)) (lit b64num 5 1));
     (close_to (n := b64num) (Closeness (lit b64num 5902958103587057 (-69)) (@nmin b64num)) (get_or_nan (psq_value b64num (ratio_value b64num) [(1#4); (1#2); (3#4)]%Q quantile_20 (3#4)%Q)) (lit b64num 15 0));
     (close_to (n := b64num) (Closeness (lit b64num 5902958103587057 (-69)) (@nmin b64num)) (get_or_nan (psq_value b64num (ratio_value b64num) [(1#4); (1#2); (3#4)]%Q quantile_20 1%Q)) (lit b64num 19 0));
     (close_to (n := b64num) (Closeness (lit b64num 5902958103587057 (-69)) (@nmin b64num)) (get_or_nan (psq_value b64num (ratio_value b64num) [(1#4); (1#2); (3#4)]%Q quantile_21 0%Q)) (lit b64num 1 0));
     (close_to (n := b64num) (Closeness (lit b64num 5902958103587057 (-69)) (@nmin b64num)) (get_or_nan (psq_value b64num (ratio_value b64num) [(1#4); (1#2); (3#4)]%Q quantile_21 (1#4)%Q)) (lit b64num 3 1));
     (close_to (n := b64num) (Closeness (lit b64num 5902958103587057 (-69)) (@nmin b64num)) (get_or_nan (psq_value b64num (ratio_value b64num) [(1#4); (1#2); (3#4)]%Q quantile_21 (1#2)%Q)) (lit b64num 11 0));
     (close_to (n := b64num) (Closeness (lit b64num 5902958103587057 (-69)) (@nmin b64num)) (get_or_nan (psq_value b64num (ratio_value b64num) [(1#4); (1#2); (3#4)]%Q quantile_21 (3#4)%Q)) (lit b64num 1 4));
     (close_to (n := b64num) (Closeness (lit b64num 5902958103587057 (-69)) (@nmin b64num)) (get_or_nan (psq_value b64num (ratio_value b64num) [(1#4); (1#2); (3#4)]%Q quantile_21 1%Q)) (lit b64num 5 2));
     (close_to (n := b64num) (Closeness (lit b64num 5902958103587057 (-69)) (@nmin b64num)) (get_or_nan (psq_value b64num (ratio_value b64num) [(1#4); (1#2); (3#4)]%Q quantile_22 0%Q)) (lit b64num 1 0));
     (close_to (n := b64num) (Closeness (lit b64num 5902958103587057 (-69)) (@nmin b64num)) (get_or_nan (psq_value b64num (ratio_value b64num) [(1#4); (1#2); (3#4)]%Q quantile_22 (1#4)%Q)) (lit b64num 3 1));
     (close_to (n := b64num) (Closeness (lit b64num 5902958103587057 (-69)) (@nmin b64num)) (get_or_nan (psq_value b64num (ratio_value b64num) [(1#4); (1#2); (3#4)]%Q quantile_22 (1#2)%Q)) (lit b64num 11 0));
     (close_to (n := b64num) (Closeness (lit b64num 5902958103587057 (-69)) (@nmin b64num)) (get_or_nan (psq_value b64num (ratio_value b64num) [(1#4); (1#2); (3#4)]%Q quantile_22 (3#4)%Q)) (lit b64num 1 4));
     (close_to (n := b64num) (Closeness (lit b64num 5902958103587057 (-69)) (@nmin b64num)) (get_or_nan (psq_value b64num (ratio_value b64num) [(1#4); (1#2); (3#4)]%Q quantile_22 1%Q)) (lit b64num 21 0))]) = true.
Proof. vm_compute. reflexivity. Qed.

(** test/quantile/psquare_suite.cpp:807 *)
Example quantile_psquare_double_90_suite_test_empty :
  (let quantile_1 := psq_init b64num (map (ratio_value b64num) [(9#10)]%Q) in
   all_true [(neq (n := b64num) (get_or_nan (psq_value b64num (ratio_value b64num) [(9#10)]%Q quantile_1 (9#10)%Q)) (lit b64num 0 0))]) = true.
Proof. vm_compute. reflexivity. Qed.

(** test/quantile/psquare_suite.cpp:813 *)
Example quantile_psquare_double_90_suite_test_linear_increase :
  (let quantile_1 := psq_init b64num (map (ratio_value b64num) [(9#10)]%Q) in
   let quantile_2 := psq_push b64num (map (ratio_value b64num) [(9#10)]%Q) quantile_1 (lit b64num 1 0) in
   let quantile_3 := psq_push b64num (map (ratio_value b64num) [(9#10)]%Q) quantile_2 (lit b64num 1 1) in
   let quantile_4 := psq_push b64num (map (ratio_value b64num) [(9#10)]%Q) quantile_3 (lit b64num 3 0) in
   let quantile_5 := psq_push b64num (map (ratio_value b64num) [(9#10)]%Q) quantile_4 (lit b64num 1 2) in
   let quantile_6 := psq_push b64num (map (ratio_value b64num) [(9#10)]%Q) quantile_5 (lit b64num 5 0) in
   let quantile_7 := psq_push b64num (map (ratio_value b64num) [(9#10)]%Q) quantile_6 (lit b64num 3 1) in
   let quantile_8 := psq_push b64num (map (ratio_value b64num) [(9#10)]%Q) quantile_7 (lit b64num 7 0) in
   let quantile_9 := psq_push b64num (map (ratio_value b64num) [(9#10)]%Q) quantile_8 (lit b64num 1 3) in
   let quantile_10 := psq_push b64num (map (ratio_value b64num) [(9#10)]%Q) quantile_9 (lit b64num 9 0) in
   let quantile_11 := psq_push b64num (map (ratio_value b64num) [(9#10)]%Q) quantile_10 (lit b64num 5 1) in
   let quantile_12 := psq_push b64num (map (ratio_value b64num) [(9#10)]%Q) quantile_11 (lit b64num 11 0) in
   all_true [(neq (n := b64num) (get_or_nan (psq_value b64num (ratio_value b64num) [(9#10)]%Q quantile_2 (9#10)%Q)) (lit b64num 1 0));
     (neq (n := b64num) (get_or_nan (psq_value b64num (ratio_value b64num) [(9#10)]%Q quantile_3 (9#10)%Q)) (lit b64num 4278419646001971 (-51)));
     (neq (n := b64num) (get_or_nan (psq_value b64num (ratio_value b64num) [(9#10)]%Q quantile_4 (9#10)%Q)) (lit b64num 3152519739159347 (-50)));
     (neq (n := b64num) (get_or_nan (psq_value b64num (ratio_value b64num) [(9#10)]%Q quantile_5 (9#10)%Q)) (lit b64num 4165829655317709 (-50)));
     (neq (n := b64num) (get_or_nan (psq_value b64num (ratio_value b64num) [(9#10)]%Q quantile_6 (9#10)%Q)) (lit b64num 2589569785738035 (-49)));
     (neq (n := b64num) (get_or_nan (psq_value b64num (ratio_value b64num) [(9#10)]%Q quantile_7 (9#10)%Q)) (lit b64num 3 0));
     (neq (n := b64num) (get_or_nan (psq_value b64num (ratio_value b64num) [(9#10)]%Q quantile_8 (9#10)%Q)) (lit b64num 1 2));
     (neq (n := b64num) (get_or_nan (psq_value b64num (ratio_value b64num) [(9#10)]%Q quantile_9 (9#10)%Q)) (lit b64num 5 0));
     (neq (n := b64num) (get_or_nan (psq_value b64num (ratio_value b64num) [(9#10)]%Q quantile_10 (9#10)%Q)) (lit b64num 3 1));
     (neq (n := b64num) (get_or_nan (psq_value b64num (ratio_value b64num) [(9#10)]%Q quantile_11 (9#10)%Q)) (lit b64num 7 0));
     (neq (n := b64num) (get_or_nan (psq_value b64num (ratio_value b64num) [(9#10)]%Q quantile_12 (9#10)%Q)) (lit b64num 1 3))]) = true.
Proof. vm_compute. reflexivity. Qed.

(** test/quantile/psquare_suite.cpp:856 *)
Example quantile_psquare_double_approx_suite_test_count_100 :
  (let quantile_1 := psq_init b64num (map (ratio_value b64num) [(1#2)]%Q) in
   let quantile_2 := or_else (psq_restore b64num (map (ratio_value b64num) [(1#2)]%Q) quantile_1 [(20%N, (lit b64num (-1) 1)); (40%N, (lit b64num 1 (-1))); (60%N, (lit b64num 1 0)); (80%N, (lit b64num 3 (-1))); (100%N, (lit b64num 1 2))]) quantile_1 in
   let quantile_3 := psq_push b64num (map (ratio_value b64num) [(1#2)]%Q) quantile_2 (lit b64num 125 3) in
   all_true [(close_to (n := b64num) (Closeness (lit b64num 5902958103587057 (-69)) (@nmin b64num)) (get_or_nan (psq_value b64num (ratio_value b64num) [(1#2)]%Q quantile_3 (1#2)%Q)) (lit b64num 4610704233708621 (-52)));
     (params_close (lit b64num 5902958103587057 (-69)) (psq_parameters b64num quantile_3) [(20%N, (lit b64num (-1) 1)); (41%N, (lit b64num 2578310786669609 (-52))); (61%N, (lit b64num 4610704233708621 (-52))); (81%N, (lit b64num 7117471962597729 (-48))); (101%N, (lit b64num 125 3))])]) = true.
Proof. vm_compute. reflexivity. Qed.

