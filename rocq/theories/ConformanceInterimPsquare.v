(** * Conformance with test/interim/psquare_quantile_suite.cpp

    Generated by tools/mkconformance.py: the unit tests of the repository,
    executed on the model.  These are tests of the transcription, not proofs of
    properties. *)

From Coq Require Import ZArith NArith Bool List QArith.
From Verif Require Import Arith Psquare InterimPsquare CloseTo Conformance.
Import ListNotations.
Local Open Scope Z_scope.

(** test/interim/psquare_quantile_suite.cpp:37 *)
Example interim_psquare_quantile_api_suite_test_empty :
  (let filter_1 := ipq_one b64num (map (ratio_value b64num) [(1#2)]%Q) in
   let filter_2 := match ipq_do_push b64num 8 (map (ratio_value b64num) [(1#2)]%Q) filter_1 (lit b64num 1 0) with Some s => s | None => filter_1 end in
   all_true [(get_bool (ipq_is_empty b64num filter_1));
     (is_some (ipq_do_push b64num 8 (map (ratio_value b64num) [(1#2)]%Q) filter_1 (lit b64num 1 0)));
     (negb (get_bool (ipq_is_empty b64num filter_2)))]) = true.
Proof. vm_compute. reflexivity. Qed.

(** test/interim/psquare_quantile_suite.cpp:45 *)
Example interim_psquare_quantile_api_suite_test_clear :
  (let filter_1 := ipq_one b64num (map (ratio_value b64num) [(1#2)]%Q) in
   let filter_2 := match ipq_do_push b64num 8 (map (ratio_value b64num) [(1#2)]%Q) filter_1 (lit b64num 1 0) with Some s => s | None => filter_1 end in
   let filter_3 := match ipq_do_push b64num 8 (map (ratio_value b64num) [(1#2)]%Q) filter_2 (lit b64num 1 1) with Some s => s | None => filter_2 end in
   let filter_4 := match ipq_do_push b64num 8 (map (ratio_value b64num) [(1#2)]%Q) filter_3 (lit b64num 3 0) with Some s => s | None => filter_3 end in
   let filter_5 := match ipq_do_push b64num 8 (map (ratio_value b64num) [(1#2)]%Q) filter_4 (lit b64num 1 2) with Some s => s | None => filter_4 end in
   let filter_6 := match ipq_do_push b64num 8 (map (ratio_value b64num) [(1#2)]%Q) filter_5 (lit b64num 5 0) with Some s => s | None => filter_5 end in
   let filter_7 := match ipq_do_clear b64num (map (ratio_value b64num) [(1#2)]%Q) filter_6 with Some s => s | None => filter_6 end in
   all_true [(is_some (ipq_do_push b64num 8 (map (ratio_value b64num) [(1#2)]%Q) filter_1 (lit b64num 1 0)));
     (is_some (ipq_do_push b64num 8 (map (ratio_value b64num) [(1#2)]%Q) filter_2 (lit b64num 1 1)));
     (is_some (ipq_do_push b64num 8 (map (ratio_value b64num) [(1#2)]%Q) filter_3 (lit b64num 3 0)));
     (is_some (ipq_do_push b64num 8 (map (ratio_value b64num) [(1#2)]%Q) filter_4 (lit b64num 1 2)));
     (is_some (ipq_do_push b64num 8 (map (ratio_value b64num) [(1#2)]%Q) filter_5 (lit b64num 5 0)));
     (negb (get_bool (ipq_is_empty b64num filter_6)));
     (get_bool (ipq_is_empty b64num filter_7))]) = true.
Proof. vm_compute. reflexivity. Qed.

(** test/interim/psquare_quantile_suite.cpp:72 *)
Example interim_psquare_quantile_double_quartile_suite_test_linear_increase :
  (let filter_1 := ipq_one b64num (map (ratio_value b64num) [(1#2)]%Q) in
   let filter_2 := match ipq_do_push b64num 8 (map (ratio_value b64num) [(1#2)]%Q) filter_1 (lit b64num 1 0) with Some s => s | None => filter_1 end in
   let filter_3 := match ipq_do_push b64num 8 (map (ratio_value b64num) [(1#2)]%Q) filter_2 (lit b64num 1 1) with Some s => s | None => filter_2 end in
   let filter_4 := match ipq_do_push b64num 8 (map (ratio_value b64num) [(1#2)]%Q) filter_3 (lit b64num 3 0) with Some s => s | None => filter_3 end in
   let filter_5 := match ipq_do_push b64num 8 (map (ratio_value b64num) [(1#2)]%Q) filter_4 (lit b64num 1 2) with Some s => s | None => filter_4 end in
   let filter_6 := match ipq_do_push b64num 8 (map (ratio_value b64num) [(1#2)]%Q) filter_5 (lit b64num 5 0) with Some s => s | None => filter_5 end in
   let filter_7 := match ipq_do_push b64num 8 (map (ratio_value b64num) [(1#2)]%Q) filter_6 (lit b64num 3 1) with Some s => s | None => filter_6 end in
   let filter_8 := match ipq_do_push b64num 8 (map (ratio_value b64num) [(1#2)]%Q) filter_7 (lit b64num 7 0) with Some s => s | None => filter_7 end in
   let filter_9 := match ipq_do_push b64num 8 (map (ratio_value b64num) [(1#2)]%Q) filter_8 (lit b64num 1 3) with Some s => s | None => filter_8 end in
   let filter_10 := match ipq_do_push b64num 8 (map (ratio_value b64num) [(1#2)]%Q) filter_9 (lit b64num 9 0) with Some s => s | None => filter_9 end in
   let filter_11 := match ipq_do_push b64num 8 (map (ratio_value b64num) [(1#2)]%Q) filter_10 (lit b64num 5 1) with Some s => s | None => filter_10 end in
   let filter_12 := match ipq_do_push b64num 8 (map (ratio_value b64num) [(1#2)]%Q) filter_11 (lit b64num 11 0) with Some s => s | None => filter_11 end in
   let filter_13 := match ipq_do_push b64num 8 (map (ratio_value b64num) [(1#2)]%Q) filter_12 (lit b64num 3 2) with Some s => s | None => filter_12 end in
   all_true [(is_some (ipq_do_push b64num 8 (map (ratio_value b64num) [(1#2)]%Q) filter_1 (lit b64num 1 0)));
     (close_to (n := b64num) (Closeness (lit b64num 7378697629483821 (-66)) (@nmin b64num)) (get_or_nan (ipq_get b64num 8 (map (ratio_value b64num) [(1#2)]%Q) filter_2 0 0)) (lit b64num 1 0));
     (close_to (n := b64num) (Closeness (lit b64num 7378697629483821 (-66)) (@nmin b64num)) (get_or_nan (ipq_get b64num 8 (map (ratio_value b64num) [(1#2)]%Q) filter_2 0 1)) (lit b64num 1 0));
     (close_to (n := b64num) (Closeness (lit b64num 7378697629483821 (-66)) (@nmin b64num)) (get_or_nan (ipq_get b64num 8 (map (ratio_value b64num) [(1#2)]%Q) filter_2 0 2)) (lit b64num 1 0));
     (is_some (ipq_do_push b64num 8 (map (ratio_value b64num) [(1#2)]%Q) filter_2 (lit b64num 1 1)));
     (close_to (n := b64num) (Closeness (lit b64num 7378697629483821 (-66)) (@nmin b64num)) (get_or_nan (ipq_get b64num 8 (map (ratio_value b64num) [(1#2)]%Q) filter_3 0 0)) (lit b64num 1 0));
     (close_to (n := b64num) (Closeness (lit b64num 7378697629483821 (-66)) (@nmin b64num)) (get_or_nan (ipq_get b64num 8 (map (ratio_value b64num) [(1#2)]%Q) filter_3 0 1)) (lit b64num 3 (-1)));
     (close_to (n := b64num) (Closeness (lit b64num 7378697629483821 (-66)) (@nmin b64num)) (get_or_nan (ipq_get b64num 8 (map (ratio_value b64num) [(1#2)]%Q) filter_3 0 2)) (lit b64num 1 1));
     (is_some (ipq_do_push b64num 8 (map (ratio_value b64num) [(1#2)]%Q) filter_3 (lit b64num 3 0)));
     (close_to (n := b64num) (Closeness (lit b64num 7378697629483821 (-66)) (@nmin b64num)) (get_or_nan (ipq_get b64num 8 (map (ratio_value b64num) [(1#2)]%Q) filter_4 0 0)) (lit b64num 1 0));
     (close_to (n := b64num) (Closeness (lit b64num 7378697629483821 (-66)) (@nmin b64num)) (get_or_nan (ipq_get b64num 8 (map (ratio_value b64num) [(1#2)]%Q) filter_4 0 1)) (lit b64num 1 1));
     (close_to (n := b64num) (Closeness (lit b64num 7378697629483821 (-66)) (@nmin b64num)) (get_or_nan (ipq_get b64num 8 (map (ratio_value b64num) [(1#2)]%Q) filter_4 0 2)) (lit b64num 3 0));
     (is_some (ipq_do_push b64num 8 (map (ratio_value b64num) [(1#2)]%Q) filter_4 (lit b64num 1 2)));
     (close_to (n := b64num) (Closeness (lit b64num 7378697629483821 (-66)) (@nmin b64num)) (get_or_nan (ipq_get b64num 8 (map (ratio_value b64num) [(1#2)]%Q) filter_5 0 0)) (lit b64num 1 0));
     (close_to (n := b64num) (Closeness (lit b64num 7378697629483821 (-66)) (@nmin b64num)) (get_or_nan (ipq_get b64num 8 (map (ratio_value b64num) [(1#2)]%Q) filter_5 0 1)) (lit b64num 5 (-1)));
     (close_to (n := b64num) (Closeness (lit b64num 7378697629483821 (-66)) (@nmin b64num)) (get_or_nan (ipq_get b64num 8 (map (ratio_value b64num) [(1#2)]%Q) filter_5 0 2)) (lit b64num 1 2));
     (is_some (ipq_do_push b64num 8 (map (ratio_value b64num) [(1#2)]%Q) filter_5 (lit b64num 5 0)));
     (close_to (n := b64num) (Closeness (lit b64num 7378697629483821 (-66)) (@nmin b64num)) (get_or_nan (ipq_get b64num 8 (map (ratio_value b64num) [(1#2)]%Q) filter_6 0 0)) (lit b64num 5854679515581645 (-51)));
     (close_to (n := b64num) (Closeness (lit b64num 7378697629483821 (-66)) (@nmin b64num)) (get_or_nan (ipq_get b64num 8 (map (ratio_value b64num) [(1#2)]%Q) filter_6 0 1)) (lit b64num 7 (-1)));
     (close_to (n := b64num) (Closeness (lit b64num 7378697629483821 (-66)) (@nmin b64num)) (get_or_nan (ipq_get b64num 8 (map (ratio_value b64num) [(1#2)]%Q) filter_6 0 2)) (lit b64num 2476979795053773 (-49)));
     (is_some (ipq_do_push b64num 8 (map (ratio_value b64num) [(1#2)]%Q) filter_6 (lit b64num 3 1)));
     (close_to (n := b64num) (Closeness (lit b64num 7378697629483821 (-66)) (@nmin b64num)) (get_or_nan (ipq_get b64num 8 (map (ratio_value b64num) [(1#2)]%Q) filter_7 0 0)) (lit b64num 1032075852855661 (-48)));
     (close_to (n := b64num) (Closeness (lit b64num 7378697629483821 (-66)) (@nmin b64num)) (get_or_nan (ipq_get b64num 8 (map (ratio_value b64num) [(1#2)]%Q) filter_7 0 1)) (lit b64num 9 (-1)));
     (close_to (n := b64num) (Closeness (lit b64num 7378697629483821 (-66)) (@nmin b64num)) (get_or_nan (ipq_get b64num 8 (map (ratio_value b64num) [(1#2)]%Q) filter_7 0 2)) (lit b64num 1501198937540243 (-48)));
     (is_some (ipq_do_push b64num 8 (map (ratio_value b64num) [(1#2)]%Q) filter_7 (lit b64num 7 0)));
     (close_to (n := b64num) (Closeness (lit b64num 7378697629483821 (-66)) (@nmin b64num)) (get_or_nan (ipq_get b64num 8 (map (ratio_value b64num) [(1#2)]%Q) filter_8 0 0)) (lit b64num 4986126550446039 (-50)));
     (close_to (n := b64num) (Closeness (lit b64num 7378697629483821 (-66)) (@nmin b64num)) (get_or_nan (ipq_get b64num 8 (map (ratio_value b64num) [(1#2)]%Q) filter_8 0 1)) (lit b64num 11 (-1)));
     (close_to (n := b64num) (Closeness (lit b64num 7378697629483821 (-66)) (@nmin b64num)) (get_or_nan (ipq_get b64num 8 (map (ratio_value b64num) [(1#2)]%Q) filter_8 0 2)) (lit b64num 7398772424822825 (-50)));
     (is_some (ipq_do_push b64num 8 (map (ratio_value b64num) [(1#2)]%Q) filter_8 (lit b64num 1 3)));
     (close_to (n := b64num) (Closeness (lit b64num 7378697629483821 (-66)) (@nmin b64num)) (get_or_nan (ipq_get b64num 8 (map (ratio_value b64num) [(1#2)]%Q) filter_9 0 0)) (lit b64num 5 0));
     (close_to (n := b64num) (Closeness (lit b64num 7378697629483821 (-66)) (@nmin b64num)) (get_or_nan (ipq_get b64num 8 (map (ratio_value b64num) [(1#2)]%Q) filter_9 0 1)) (lit b64num 13 (-1)));
     (close_to (n := b64num) (Closeness (lit b64num 7378697629483821 (-66)) (@nmin b64num)) (get_or_nan (ipq_get b64num 8 (map (ratio_value b64num) [(1#2)]%Q) filter_9 0 2)) (lit b64num 1 3));
     (is_some (ipq_do_push b64num 8 (map (ratio_value b64num) [(1#2)]%Q) filter_9 (lit b64num 9 0)));
     (close_to (n := b64num) (Closeness (lit b64num 7378697629483821 (-66)) (@nmin b64num)) (get_or_nan (ipq_get b64num 8 (map (ratio_value b64num) [(1#2)]%Q) filter_10 0 0)) (lit b64num 3715469692580659 (-49)));
     (close_to (n := b64num) (Closeness (lit b64num 7378697629483821 (-66)) (@nmin b64num)) (get_or_nan (ipq_get b64num 8 (map (ratio_value b64num) [(1#2)]%Q) filter_10 0 1)) (lit b64num 15 (-1)));
     (close_to (n := b64num) (Closeness (lit b64num 7378697629483821 (-66)) (@nmin b64num)) (get_or_nan (ipq_get b64num 8 (map (ratio_value b64num) [(1#2)]%Q) filter_10 0 2)) (lit b64num 4728779608739021 (-49)));
     (is_some (ipq_do_push b64num 8 (map (ratio_value b64num) [(1#2)]%Q) filter_10 (lit b64num 5 1)));
     (close_to (n := b64num) (Closeness (lit b64num 7378697629483821 (-66)) (@nmin b64num)) (get_or_nan (ipq_get b64num 8 (map (ratio_value b64num) [(1#2)]%Q) filter_11 0 0)) (lit b64num 2157975759698285 (-48)));
     (close_to (n := b64num) (Closeness (lit b64num 7378697629483821 (-66)) (@nmin b64num)) (get_or_nan (ipq_get b64num 8 (map (ratio_value b64num) [(1#2)]%Q) filter_11 0 1)) (lit b64num 17 (-1)));
     (close_to (n := b64num) (Closeness (lit b64num 7378697629483821 (-66)) (@nmin b64num)) (get_or_nan (ipq_get b64num 8 (map (ratio_value b64num) [(1#2)]%Q) filter_11 0 2)) (lit b64num 2627098844382867 (-48)));
     (is_some (ipq_do_push b64num 8 (map (ratio_value b64num) [(1#2)]%Q) filter_11 (lit b64num 11 0)));
     (close_to (n := b64num) (Closeness (lit b64num 7378697629483821 (-66)) (@nmin b64num)) (get_or_nan (ipq_get b64num 8 (map (ratio_value b64num) [(1#2)]%Q) filter_12 0 0)) (lit b64num 1186215772227067 (-47)));
     (close_to (n := b64num) (Closeness (lit b64num 7378697629483821 (-66)) (@nmin b64num)) (get_or_nan (ipq_get b64num 8 (map (ratio_value b64num) [(1#2)]%Q) filter_12 0 1)) (lit b64num 19 (-1)));
     (close_to (n := b64num) (Closeness (lit b64num 7378697629483821 (-66)) (@nmin b64num)) (get_or_nan (ipq_get b64num 8 (map (ratio_value b64num) [(1#2)]%Q) filter_12 0 2)) (lit b64num 2975584568799029 (-48)));
     (is_some (ipq_do_push b64num 8 (map (ratio_value b64num) [(1#2)]%Q) filter_12 (lit b64num 3 2)));
     (close_to (n := b64num) (Closeness (lit b64num 7378697629483821 (-66)) (@nmin b64num)) (get_or_nan (ipq_get b64num 8 (map (ratio_value b64num) [(1#2)]%Q) filter_13 0 0)) (lit b64num 9 0));
     (close_to (n := b64num) (Closeness (lit b64num 7378697629483821 (-66)) (@nmin b64num)) (get_or_nan (ipq_get b64num 8 (map (ratio_value b64num) [(1#2)]%Q) filter_13 0 1)) (lit b64num 21 (-1)));
     (close_to (n := b64num) (Closeness (lit b64num 7378697629483821 (-66)) (@nmin b64num)) (get_or_nan (ipq_get b64num 8 (map (ratio_value b64num) [(1#2)]%Q) filter_13 0 2)) (lit b64num 3 2))]) = true.
Proof. vm_compute. reflexivity. Qed.

(** test/interim/psquare_quantile_suite.cpp:138 *)
Example interim_psquare_quantile_double_quartile_suite_test_linear_increase_with_approximation :
  (let filter_1 := ipq_one b64num (map (ratio_value b64num) [(1#2)]%Q) in
   let filter_2 := match ipq_do_push b64num 12 (map (ratio_value b64num) [(1#2)]%Q) filter_1 (lit b64num 1 0) with Some s => s | None => filter_1 end in
   let filter_3 := match ipq_do_push b64num 12 (map (ratio_value b64num) [(1#2)]%Q) filter_2 (lit b64num 1 1) with Some s => s | None => filter_2 end in
   let filter_4 := match ipq_do_push b64num 12 (map (ratio_value b64num) [(1#2)]%Q) filter_3 (lit b64num 3 0) with Some s => s | None => filter_3 end in
   let filter_5 := match ipq_do_push b64num 12 (map (ratio_value b64num) [(1#2)]%Q) filter_4 (lit b64num 1 2) with Some s => s | None => filter_4 end in
   let filter_6 := match ipq_do_push b64num 12 (map (ratio_value b64num) [(1#2)]%Q) filter_5 (lit b64num 5 0) with Some s => s | None => filter_5 end in
   let filter_7 := match ipq_do_push b64num 12 (map (ratio_value b64num) [(1#2)]%Q) filter_6 (lit b64num 3 1) with Some s => s | None => filter_6 end in
   let filter_8 := match ipq_do_push b64num 12 (map (ratio_value b64num) [(1#2)]%Q) filter_7 (lit b64num 7 0) with Some s => s | None => filter_7 end in
   let filter_9 := match ipq_do_push b64num 12 (map (ratio_value b64num) [(1#2)]%Q) filter_8 (lit b64num 1 3) with Some s => s | None => filter_8 end in
   let filter_10 := match ipq_do_push b64num 12 (map (ratio_value b64num) [(1#2)]%Q) filter_9 (lit b64num 9 0) with Some s => s | None => filter_9 end in
   let filter_11 := match ipq_do_push b64num 12 (map (ratio_value b64num) [(1#2)]%Q) filter_10 (lit b64num 5 1) with Some s => s | None => filter_10 end in
   let filter_12 := match ipq_do_push b64num 12 (map (ratio_value b64num) [(1#2)]%Q) filter_11 (lit b64num 11 0) with Some s => s | None => filter_11 end in
   let filter_13 := match ipq_do_push b64num 12 (map (ratio_value b64num) [(1#2)]%Q) filter_12 (lit b64num 3 2) with Some s => s | None => filter_12 end in
   let filter_14 := match ipq_do_push b64num 12 (map (ratio_value b64num) [(1#2)]%Q) filter_13 (lit b64num 13 0) with Some s => s | None => filter_13 end in
   let filter_15 := match ipq_do_push b64num 12 (map (ratio_value b64num) [(1#2)]%Q) filter_14 (lit b64num 7 1) with Some s => s | None => filter_14 end in
   all_true [(is_some (ipq_do_push b64num 12 (map (ratio_value b64num) [(1#2)]%Q) filter_1 (lit b64num 1 0)));
     (close_to (n := b64num) (Closeness (lit b64num 7378697629483821 (-66)) (@nmin b64num)) (get_or_nan (ipq_get b64num 12 (map (ratio_value b64num) [(1#2)]%Q) filter_2 0 0)) (lit b64num 1 0));
     (close_to (n := b64num) (Closeness (lit b64num 7378697629483821 (-66)) (@nmin b64num)) (get_or_nan (ipq_get b64num 12 (map (ratio_value b64num) [(1#2)]%Q) filter_2 0 1)) (lit b64num 1 0));
     (close_to (n := b64num) (Closeness (lit b64num 7378697629483821 (-66)) (@nmin b64num)) (get_or_nan (ipq_get b64num 12 (map (ratio_value b64num) [(1#2)]%Q) filter_2 0 2)) (lit b64num 1 0));
     (is_some (ipq_do_push b64num 12 (map (ratio_value b64num) [(1#2)]%Q) filter_2 (lit b64num 1 1)));
     (close_to (n := b64num) (Closeness (lit b64num 7378697629483821 (-66)) (@nmin b64num)) (get_or_nan (ipq_get b64num 12 (map (ratio_value b64num) [(1#2)]%Q) filter_3 0 0)) (lit b64num 1 0));
     (close_to (n := b64num) (Closeness (lit b64num 7378697629483821 (-66)) (@nmin b64num)) (get_or_nan (ipq_get b64num 12 (map (ratio_value b64num) [(1#2)]%Q) filter_3 0 1)) (lit b64num 3 (-1)));
     (close_to (n := b64num) (Closeness (lit b64num 7378697629483821 (-66)) (@nmin b64num)) (get_or_nan (ipq_get b64num 12 (map (ratio_value b64num) [(1#2)]%Q) filter_3 0 2)) (lit b64num 1 1));
     (is_some (ipq_do_push b64num 12 (map (ratio_value b64num) [(1#2)]%Q) filter_3 (lit b64num 3 0)));
     (close_to (n := b64num) (Closeness (lit b64num 7378697629483821 (-66)) (@nmin b64num)) (get_or_nan (ipq_get b64num 12 (map (ratio_value b64num) [(1#2)]%Q) filter_4 0 0)) (lit b64num 1 0));
     (close_to (n := b64num) (Closeness (lit b64num 7378697629483821 (-66)) (@nmin b64num)) (get_or_nan (ipq_get b64num 12 (map (ratio_value b64num) [(1#2)]%Q) filter_4 0 1)) (lit b64num 1 1));
     (close_to (n := b64num) (Closeness (lit b64num 7378697629483821 (-66)) (@nmin b64num)) (get_or_nan (ipq_get b64num 12 (map (ratio_value b64num) [(1#2)]%Q) filter_4 0 2)) (lit b64num 3 0));
     (is_some (ipq_do_push b64num 12 (map (ratio_value b64num) [(1#2)]%Q) filter_4 (lit b64num 1 2)));
     (close_to (n := b64num) (Closeness (lit b64num 7378697629483821 (-66)) (@nmin b64num)) (get_or_nan (ipq_get b64num 12 (map (ratio_value b64num) [(1#2)]%Q) filter_5 0 0)) (lit b64num 1 0));
     (close_to (n := b64num) (Closeness (lit b64num 7378697629483821 (-66)) (@nmin b64num)) (get_or_nan (ipq_get b64num 12 (map (ratio_value b64num) [(1#2)]%Q) filter_5 0 1)) (lit b64num 5 (-1)));
     (close_to (n := b64num) (Closeness (lit b64num 7378697629483821 (-66)) (@nmin b64num)) (get_or_nan (ipq_get b64num 12 (map (ratio_value b64num) [(1#2)]%Q) filter_5 0 2)) (lit b64num 1 2));
     (is_some (ipq_do_push b64num 12 (map (ratio_value b64num) [(1#2)]%Q) filter_5 (lit b64num 5 0)));
     (close_to (n := b64num) (Closeness (lit b64num 7378697629483821 (-66)) (@nmin b64num)) (get_or_nan (ipq_get b64num 12 (map (ratio_value b64num) [(1#2)]%Q) filter_6 0 0)) (lit b64num 1 0));
     (close_to (n := b64num) (Closeness (lit b64num 7378697629483821 (-66)) (@nmin b64num)) (get_or_nan (ipq_get b64num 12 (map (ratio_value b64num) [(1#2)]%Q) filter_6 0 1)) (lit b64num 3 0));
     (close_to (n := b64num) (Closeness (lit b64num 7378697629483821 (-66)) (@nmin b64num)) (get_or_nan (ipq_get b64num 12 (map (ratio_value b64num) [(1#2)]%Q) filter_6 0 2)) (lit b64num 5 0));
     (is_some (ipq_do_push b64num 12 (map (ratio_value b64num) [(1#2)]%Q) filter_6 (lit b64num 3 1)));
     (close_to (n := b64num) (Closeness (lit b64num 7378697629483821 (-66)) (@nmin b64num)) (get_or_nan (ipq_get b64num 12 (map (ratio_value b64num) [(1#2)]%Q) filter_7 0 0)) (lit b64num 1 0));
     (close_to (n := b64num) (Closeness (lit b64num 7378697629483821 (-66)) (@nmin b64num)) (get_or_nan (ipq_get b64num 12 (map (ratio_value b64num) [(1#2)]%Q) filter_7 0 1)) (lit b64num 3 0));
     (close_to (n := b64num) (Closeness (lit b64num 7378697629483821 (-66)) (@nmin b64num)) (get_or_nan (ipq_get b64num 12 (map (ratio_value b64num) [(1#2)]%Q) filter_7 0 2)) (lit b64num 3 1));
     (is_some (ipq_do_push b64num 12 (map (ratio_value b64num) [(1#2)]%Q) filter_7 (lit b64num 7 0)));
     (close_to (n := b64num) (Closeness (lit b64num 7378697629483821 (-66)) (@nmin b64num)) (get_or_nan (ipq_get b64num 12 (map (ratio_value b64num) [(1#2)]%Q) filter_8 0 0)) (lit b64num 1528009429071933 (-49)));
     (close_to (n := b64num) (Closeness (lit b64num 7378697629483821 (-66)) (@nmin b64num)) (get_or_nan (ipq_get b64num 12 (map (ratio_value b64num) [(1#2)]%Q) filter_8 0 1)) (lit b64num 4664445688062033 (-50)));
     (close_to (n := b64num) (Closeness (lit b64num 7378697629483821 (-66)) (@nmin b64num)) (get_or_nan (ipq_get b64num 12 (map (ratio_value b64num) [(1#2)]%Q) filter_8 0 2)) (lit b64num 3538540151719875 (-49)));
     (is_some (ipq_do_push b64num 12 (map (ratio_value b64num) [(1#2)]%Q) filter_8 (lit b64num 1 3)));
     (close_to (n := b64num) (Closeness (lit b64num 7378697629483821 (-66)) (@nmin b64num)) (get_or_nan (ipq_get b64num 12 (map (ratio_value b64num) [(1#2)]%Q) filter_9 0 0)) (lit b64num 1 2));
     (close_to (n := b64num) (Closeness (lit b64num 7378697629483821 (-66)) (@nmin b64num)) (get_or_nan (ipq_get b64num 12 (map (ratio_value b64num) [(1#2)]%Q) filter_9 0 1)) (lit b64num 21 (-2)));
     (close_to (n := b64num) (Closeness (lit b64num 7378697629483821 (-66)) (@nmin b64num)) (get_or_nan (ipq_get b64num 12 (map (ratio_value b64num) [(1#2)]%Q) filter_9 0 2)) (lit b64num 7 0));
     (is_some (ipq_do_push b64num 12 (map (ratio_value b64num) [(1#2)]%Q) filter_9 (lit b64num 9 0)));
     (close_to (n := b64num) (Closeness (lit b64num 7378697629483821 (-66)) (@nmin b64num)) (get_or_nan (ipq_get b64num 12 (map (ratio_value b64num) [(1#2)]%Q) filter_10 0 0)) (lit b64num 5 0));
     (close_to (n := b64num) (Closeness (lit b64num 7378697629483821 (-66)) (@nmin b64num)) (get_or_nan (ipq_get b64num 12 (map (ratio_value b64num) [(1#2)]%Q) filter_10 0 1)) (lit b64num 1782673914250899 (-48)));
     (close_to (n := b64num) (Closeness (lit b64num 7378697629483821 (-66)) (@nmin b64num)) (get_or_nan (ipq_get b64num 12 (map (ratio_value b64num) [(1#2)]%Q) filter_10 0 2)) (lit b64num 1 3));
     (is_some (ipq_do_push b64num 12 (map (ratio_value b64num) [(1#2)]%Q) filter_10 (lit b64num 5 1)));
     (close_to (n := b64num) (Closeness (lit b64num 7378697629483821 (-66)) (@nmin b64num)) (get_or_nan (ipq_get b64num 12 (map (ratio_value b64num) [(1#2)]%Q) filter_11 0 0)) (lit b64num 6530219459687219 (-50)));
     (close_to (n := b64num) (Closeness (lit b64num 7378697629483821 (-66)) (@nmin b64num)) (get_or_nan (ipq_get b64num 12 (map (ratio_value b64num) [(1#2)]%Q) filter_11 0 1)) (lit b64num 4165829655317709 (-49)));
     (close_to (n := b64num) (Closeness (lit b64num 7378697629483821 (-66)) (@nmin b64num)) (get_or_nan (ipq_get b64num 12 (map (ratio_value b64num) [(1#2)]%Q) filter_11 0 2)) (lit b64num 2589569785738035 (-48)));
     (is_some (ipq_do_push b64num 12 (map (ratio_value b64num) [(1#2)]%Q) filter_11 (lit b64num 11 0)));
     (close_to (n := b64num) (Closeness (lit b64num 7378697629483821 (-66)) (@nmin b64num)) (get_or_nan (ipq_get b64num 12 (map (ratio_value b64num) [(1#2)]%Q) filter_12 0 0)) (lit b64num 7267177243711059 (-50)));
     (close_to (n := b64num) (Closeness (lit b64num 7378697629483821 (-66)) (@nmin b64num)) (get_or_nan (ipq_get b64num 12 (map (ratio_value b64num) [(1#2)]%Q) filter_12 0 1)) (lit b64num 4759488528698153 (-49)));
     (close_to (n := b64num) (Closeness (lit b64num 7378697629483821 (-66)) (@nmin b64num)) (get_or_nan (ipq_get b64num 12 (map (ratio_value b64num) [(1#2)]%Q) filter_12 0 2)) (lit b64num 2968294366902223 (-48)));
     (is_some (ipq_do_push b64num 12 (map (ratio_value b64num) [(1#2)]%Q) filter_12 (lit b64num 3 2)));
     (close_to (n := b64num) (Closeness (lit b64num 7378697629483821 (-66)) (@nmin b64num)) (get_or_nan (ipq_get b64num 12 (map (ratio_value b64num) [(1#2)]%Q) filter_13 0 0)) (lit b64num 7 0));
     (close_to (n := b64num) (Closeness (lit b64num 7378697629483821 (-66)) (@nmin b64num)) (get_or_nan (ipq_get b64num 12 (map (ratio_value b64num) [(1#2)]%Q) filter_13 0 1)) (lit b64num 9 0));
     (close_to (n := b64num) (Closeness (lit b64num 7378697629483821 (-66)) (@nmin b64num)) (get_or_nan (ipq_get b64num 12 (map (ratio_value b64num) [(1#2)]%Q) filter_13 0 2)) (lit b64num 3 2));
     (is_some (ipq_do_push b64num 12 (map (ratio_value b64num) [(1#2)]%Q) filter_13 (lit b64num 13 0)));
     (close_to (n := b64num) (Closeness (lit b64num 7378697629483821 (-66)) (@nmin b64num)) (get_or_nan (ipq_get b64num 12 (map (ratio_value b64num) [(1#2)]%Q) filter_14 0 0)) (lit b64num 4905709149599805 (-49)));
     (close_to (n := b64num) (Closeness (lit b64num 7378697629483821 (-66)) (@nmin b64num)) (get_or_nan (ipq_get b64num 12 (map (ratio_value b64num) [(1#2)]%Q) filter_14 0 1)) (lit b64num 5709945082557025 (-49)));
     (close_to (n := b64num) (Closeness (lit b64num 7378697629483821 (-66)) (@nmin b64num)) (get_or_nan (ipq_get b64num 12 (map (ratio_value b64num) [(1#2)]%Q) filter_14 0 2)) (lit b64num 6916234242748213 (-49)));
     (is_some (ipq_do_push b64num 12 (map (ratio_value b64num) [(1#2)]%Q) filter_14 (lit b64num 7 1)));
     (close_to (n := b64num) (Closeness (lit b64num 7378697629483821 (-66)) (@nmin b64num)) (get_or_nan (ipq_get b64num 12 (map (ratio_value b64num) [(1#2)]%Q) filter_15 0 0)) (lit b64num 5 1));
     (close_to (n := b64num) (Closeness (lit b64num 7378697629483821 (-66)) (@nmin b64num)) (get_or_nan (ipq_get b64num 12 (map (ratio_value b64num) [(1#2)]%Q) filter_15 0 1)) (lit b64num 45 (-2)));
     (close_to (n := b64num) (Closeness (lit b64num 7378697629483821 (-66)) (@nmin b64num)) (get_or_nan (ipq_get b64num 12 (map (ratio_value b64num) [(1#2)]%Q) filter_15 0 2)) (lit b64num 13 0))]) = true.
Proof. vm_compute. reflexivity. Qed.

(** test/interim/psquare_quantile_suite.cpp:218 *)
Example interim_psquare_quantile_double_quartile_suite_test_linear_decrease :
  (let filter_1 := ipq_one b64num (map (ratio_value b64num) [(1#2)]%Q) in
   let filter_2 := match ipq_do_push b64num 12 (map (ratio_value b64num) [(1#2)]%Q) filter_1 (lit b64num 25 2) with Some s => s | None => filter_1 end in
   let filter_3 := match ipq_do_push b64num 12 (map (ratio_value b64num) [(1#2)]%Q) filter_2 (lit b64num 99 0) with Some s => s | None => filter_2 end in
   let filter_4 := match ipq_do_push b64num 12 (map (ratio_value b64num) [(1#2)]%Q) filter_3 (lit b64num 49 1) with Some s => s | None => filter_3 end in
   let filter_5 := match ipq_do_push b64num 12 (map (ratio_value b64num) [(1#2)]%Q) filter_4 (lit b64num 97 0) with Some s => s | None => filter_4 end in
   let filter_6 := match ipq_do_push b64num 12 (map (ratio_value b64num) [(1#2)]%Q) filter_5 (lit b64num 3 5) with Some s => s | None => filter_5 end in
   let filter_7 := match ipq_do_push b64num 12 (map (ratio_value b64num) [(1#2)]%Q) filter_6 (lit b64num 95 0) with Some s => s | None => filter_6 end in
   let filter_8 := match ipq_do_push b64num 12 (map (ratio_value b64num) [(1#2)]%Q) filter_7 (lit b64num 47 1) with Some s => s | None => filter_7 end in
   let filter_9 := match ipq_do_push b64num 12 (map (ratio_value b64num) [(1#2)]%Q) filter_8 (lit b64num 93 0) with Some s => s | None => filter_8 end in
   let filter_10 := match ipq_do_push b64num 12 (map (ratio_value b64num) [(1#2)]%Q) filter_9 (lit b64num 23 2) with Some s => s | None => filter_9 end in
   let filter_11 := match ipq_do_push b64num 12 (map (ratio_value b64num) [(1#2)]%Q) filter_10 (lit b64num 91 0) with Some s => s | None => filter_10 end in
   let filter_12 := match ipq_do_push b64num 12 (map (ratio_value b64num) [(1#2)]%Q) filter_11 (lit b64num 45 1) with Some s => s | None => filter_11 end in
   let filter_13 := match ipq_do_push b64num 12 (map (ratio_value b64num) [(1#2)]%Q) filter_12 (lit b64num 89 0) with Some s => s | None => filter_12 end in
   let filter_14 := match ipq_do_push b64num 12 (map (ratio_value b64num) [(1#2)]%Q) filter_13 (lit b64num 11 3) with Some s => s | None => filter_13 end in
   let filter_15 := match ipq_do_push b64num 12 (map (ratio_value b64num) [(1#2)]%Q) filter_14 (lit b64num 87 0) with Some s => s | None => filter_14 end in
   all_true [(is_some (ipq_do_push b64num 12 (map (ratio_value b64num) [(1#2)]%Q) filter_1 (lit b64num 25 2)));
     (close_to (n := b64num) (Closeness (lit b64num 7378697629483821 (-66)) (@nmin b64num)) (get_or_nan (ipq_get b64num 12 (map (ratio_value b64num) [(1#2)]%Q) filter_2 0 0)) (lit b64num 25 2));
     (close_to (n := b64num) (Closeness (lit b64num 7378697629483821 (-66)) (@nmin b64num)) (get_or_nan (ipq_get b64num 12 (map (ratio_value b64num) [(1#2)]%Q) filter_2 0 1)) (lit b64num 25 2));
     (close_to (n := b64num) (Closeness (lit b64num 7378697629483821 (-66)) (@nmin b64num)) (get_or_nan (ipq_get b64num 12 (map (ratio_value b64num) [(1#2)]%Q) filter_2 0 2)) (lit b64num 25 2));
     (is_some (ipq_do_push b64num 12 (map (ratio_value b64num) [(1#2)]%Q) filter_2 (lit b64num 99 0)));
     (close_to (n := b64num) (Closeness (lit b64num 7378697629483821 (-66)) (@nmin b64num)) (get_or_nan (ipq_get b64num 12 (map (ratio_value b64num) [(1#2)]%Q) filter_3 0 0)) (lit b64num 99 0));
     (close_to (n := b64num) (Closeness (lit b64num 7378697629483821 (-66)) (@nmin b64num)) (get_or_nan (ipq_get b64num 12 (map (ratio_value b64num) [(1#2)]%Q) filter_3 0 1)) (lit b64num 199 (-1)));
     (close_to (n := b64num) (Closeness (lit b64num 7378697629483821 (-66)) (@nmin b64num)) (get_or_nan (ipq_get b64num 12 (map (ratio_value b64num) [(1#2)]%Q) filter_3 0 2)) (lit b64num 25 2));
     (is_some (ipq_do_push b64num 12 (map (ratio_value b64num) [(1#2)]%Q) filter_3 (lit b64num 49 1)));
     (close_to (n := b64num) (Closeness (lit b64num 7378697629483821 (-66)) (@nmin b64num)) (get_or_nan (ipq_get b64num 12 (map (ratio_value b64num) [(1#2)]%Q) filter_4 0 0)) (lit b64num 49 1));
     (close_to (n := b64num) (Closeness (lit b64num 7378697629483821 (-66)) (@nmin b64num)) (get_or_nan (ipq_get b64num 12 (map (ratio_value b64num) [(1#2)]%Q) filter_4 0 1)) (lit b64num 99 0));
     (close_to (n := b64num) (Closeness (lit b64num 7378697629483821 (-66)) (@nmin b64num)) (get_or_nan (ipq_get b64num 12 (map (ratio_value b64num) [(1#2)]%Q) filter_4 0 2)) (lit b64num 25 2));
     (is_some (ipq_do_push b64num 12 (map (ratio_value b64num) [(1#2)]%Q) filter_4 (lit b64num 97 0)));
     (close_to (n := b64num) (Closeness (lit b64num 7378697629483821 (-66)) (@nmin b64num)) (get_or_nan (ipq_get b64num 12 (map (ratio_value b64num) [(1#2)]%Q) filter_5 0 0)) (lit b64num 97 0));
     (close_to (n := b64num) (Closeness (lit b64num 7378697629483821 (-66)) (@nmin b64num)) (get_or_nan (ipq_get b64num 12 (map (ratio_value b64num) [(1#2)]%Q) filter_5 0 1)) (lit b64num 197 (-1)));
     (close_to (n := b64num) (Closeness (lit b64num 7378697629483821 (-66)) (@nmin b64num)) (get_or_nan (ipq_get b64num 12 (map (ratio_value b64num) [(1#2)]%Q) filter_5 0 2)) (lit b64num 25 2));
     (is_some (ipq_do_push b64num 12 (map (ratio_value b64num) [(1#2)]%Q) filter_5 (lit b64num 3 5)));
     (close_to (n := b64num) (Closeness (lit b64num 7378697629483821 (-66)) (@nmin b64num)) (get_or_nan (ipq_get b64num 12 (map (ratio_value b64num) [(1#2)]%Q) filter_6 0 0)) (lit b64num 3 5));
     (close_to (n := b64num) (Closeness (lit b64num 7378697629483821 (-66)) (@nmin b64num)) (get_or_nan (ipq_get b64num 12 (map (ratio_value b64num) [(1#2)]%Q) filter_6 0 1)) (lit b64num 49 1));
     (close_to (n := b64num) (Closeness (lit b64num 7378697629483821 (-66)) (@nmin b64num)) (get_or_nan (ipq_get b64num 12 (map (ratio_value b64num) [(1#2)]%Q) filter_6 0 2)) (lit b64num 25 2));
     (is_some (ipq_do_push b64num 12 (map (ratio_value b64num) [(1#2)]%Q) filter_6 (lit b64num 95 0)));
     (close_to (n := b64num) (Closeness (lit b64num 7378697629483821 (-66)) (@nmin b64num)) (get_or_nan (ipq_get b64num 12 (map (ratio_value b64num) [(1#2)]%Q) filter_7 0 0)) (lit b64num 95 0));
     (close_to (n := b64num) (Closeness (lit b64num 7378697629483821 (-66)) (@nmin b64num)) (get_or_nan (ipq_get b64num 12 (map (ratio_value b64num) [(1#2)]%Q) filter_7 0 1)) (lit b64num 97 0));
     (close_to (n := b64num) (Closeness (lit b64num 7378697629483821 (-66)) (@nmin b64num)) (get_or_nan (ipq_get b64num 12 (map (ratio_value b64num) [(1#2)]%Q) filter_7 0 2)) (lit b64num 25 2));
     (is_some (ipq_do_push b64num 12 (map (ratio_value b64num) [(1#2)]%Q) filter_7 (lit b64num 47 1)));
     (close_to (n := b64num) (Closeness (lit b64num 7378697629483821 (-66)) (@nmin b64num)) (get_or_nan (ipq_get b64num 12 (map (ratio_value b64num) [(1#2)]%Q) filter_8 0 0)) (lit b64num 6664926346666521 (-46)));
     (close_to (n := b64num) (Closeness (lit b64num 7378697629483821 (-66)) (@nmin b64num)) (get_or_nan (ipq_get b64num 12 (map (ratio_value b64num) [(1#2)]%Q) filter_8 0 1)) (lit b64num 1691363783649683 (-44)));
     (close_to (n := b64num) (Closeness (lit b64num 7378697629483821 (-66)) (@nmin b64num)) (get_or_nan (ipq_get b64num 12 (map (ratio_value b64num) [(1#2)]%Q) filter_8 0 2)) (lit b64num 6916241279622631 (-46)));
     (is_some (ipq_do_push b64num 12 (map (ratio_value b64num) [(1#2)]%Q) filter_8 (lit b64num 93 0)));
     (close_to (n := b64num) (Closeness (lit b64num 7378697629483821 (-66)) (@nmin b64num)) (get_or_nan (ipq_get b64num 12 (map (ratio_value b64num) [(1#2)]%Q) filter_9 0 0)) (lit b64num 47 1));
     (close_to (n := b64num) (Closeness (lit b64num 7378697629483821 (-66)) (@nmin b64num)) (get_or_nan (ipq_get b64num 12 (map (ratio_value b64num) [(1#2)]%Q) filter_9 0 1)) (lit b64num 381 (-2)));
     (close_to (n := b64num) (Closeness (lit b64num 7378697629483821 (-66)) (@nmin b64num)) (get_or_nan (ipq_get b64num 12 (map (ratio_value b64num) [(1#2)]%Q) filter_9 0 2)) (lit b64num 97 0));
     (is_some (ipq_do_push b64num 12 (map (ratio_value b64num) [(1#2)]%Q) filter_9 (lit b64num 23 2)));
     (close_to (n := b64num) (Closeness (lit b64num 7378697629483821 (-66)) (@nmin b64num)) (get_or_nan (ipq_get b64num 12 (map (ratio_value b64num) [(1#2)]%Q) filter_10 0 0)) (lit b64num 93 0));
     (close_to (n := b64num) (Closeness (lit b64num 7378697629483821 (-66)) (@nmin b64num)) (get_or_nan (ipq_get b64num 12 (map (ratio_value b64num) [(1#2)]%Q) filter_10 0 1)) (lit b64num 6638115855134831 (-46)));
     (close_to (n := b64num) (Closeness (lit b64num 7378697629483821 (-66)) (@nmin b64num)) (get_or_nan (ipq_get b64num 12 (map (ratio_value b64num) [(1#2)]%Q) filter_10 0 2)) (lit b64num 3 5));
     (is_some (ipq_do_push b64num 12 (map (ratio_value b64num) [(1#2)]%Q) filter_10 (lit b64num 91 0)));
     (close_to (n := b64num) (Closeness (lit b64num 7378697629483821 (-66)) (@nmin b64num)) (get_or_nan (ipq_get b64num 12 (map (ratio_value b64num) [(1#2)]%Q) filter_11 0 0)) (lit b64num 6459850715509555 (-46)));
     (close_to (n := b64num) (Closeness (lit b64num 7378697629483821 (-66)) (@nmin b64num)) (get_or_nan (ipq_get b64num 12 (map (ratio_value b64num) [(1#2)]%Q) filter_11 0 1)) (lit b64num 3286220353096909 (-45)));
     (close_to (n := b64num) (Closeness (lit b64num 7378697629483821 (-66)) (@nmin b64num)) (get_or_nan (ipq_get b64num 12 (map (ratio_value b64num) [(1#2)]%Q) filter_11 0 2)) (lit b64num 6699104445713613 (-46)));
     (is_some (ipq_do_push b64num 12 (map (ratio_value b64num) [(1#2)]%Q) filter_11 (lit b64num 45 1)));
     (close_to (n := b64num) (Closeness (lit b64num 7378697629483821 (-66)) (@nmin b64num)) (get_or_nan (ipq_get b64num 12 (map (ratio_value b64num) [(1#2)]%Q) filter_12 0 0)) (lit b64num 1591292392554627 (-44)));
     (close_to (n := b64num) (Closeness (lit b64num 7378697629483821 (-66)) (@nmin b64num)) (get_or_nan (ipq_get b64num 12 (map (ratio_value b64num) [(1#2)]%Q) filter_12 0 1)) (lit b64num 1626476764643459 (-44)));
     (close_to (n := b64num) (Closeness (lit b64num 7378697629483821 (-66)) (@nmin b64num)) (get_or_nan (ipq_get b64num 12 (map (ratio_value b64num) [(1#2)]%Q) filter_12 0 2)) (lit b64num 1663262025662333 (-44)));
     (is_some (ipq_do_push b64num 12 (map (ratio_value b64num) [(1#2)]%Q) filter_12 (lit b64num 89 0)));
     (close_to (n := b64num) (Closeness (lit b64num 7378697629483821 (-66)) (@nmin b64num)) (get_or_nan (ipq_get b64num 12 (map (ratio_value b64num) [(1#2)]%Q) filter_13 0 0)) (lit b64num 89 0));
     (close_to (n := b64num) (Closeness (lit b64num 7378697629483821 (-66)) (@nmin b64num)) (get_or_nan (ipq_get b64num 12 (map (ratio_value b64num) [(1#2)]%Q) filter_13 0 1)) (lit b64num 91 0));
     (close_to (n := b64num) (Closeness (lit b64num 7378697629483821 (-66)) (@nmin b64num)) (get_or_nan (ipq_get b64num 12 (map (ratio_value b64num) [(1#2)]%Q) filter_13 0 2)) (lit b64num 47 1));
     (is_some (ipq_do_push b64num 12 (map (ratio_value b64num) [(1#2)]%Q) filter_13 (lit b64num 11 3)));
     (close_to (n := b64num) (Closeness (lit b64num 7378697629483821 (-66)) (@nmin b64num)) (get_or_nan (ipq_get b64num 12 (map (ratio_value b64num) [(1#2)]%Q) filter_14 0 0)) (lit b64num 6242713881600537 (-46)));
     (close_to (n := b64num) (Closeness (lit b64num 7378697629483821 (-66)) (@nmin b64num)) (get_or_nan (ipq_get b64num 12 (map (ratio_value b64num) [(1#2)]%Q) filter_14 0 1)) (lit b64num 1585810667383187 (-44)));
     (close_to (n := b64num) (Closeness (lit b64num 7378697629483821 (-66)) (@nmin b64num)) (get_or_nan (ipq_get b64num 12 (map (ratio_value b64num) [(1#2)]%Q) filter_14 0 2)) (lit b64num 6494028814556647 (-46)));
     (is_some (ipq_do_push b64num 12 (map (ratio_value b64num) [(1#2)]%Q) filter_14 (lit b64num 87 0)));
     (close_to (n := b64num) (Closeness (lit b64num 7378697629483821 (-66)) (@nmin b64num)) (get_or_nan (ipq_get b64num 12 (map (ratio_value b64num) [(1#2)]%Q) filter_15 0 0)) (lit b64num 11 3));
     (close_to (n := b64num) (Closeness (lit b64num 7378697629483821 (-66)) (@nmin b64num)) (get_or_nan (ipq_get b64num 12 (map (ratio_value b64num) [(1#2)]%Q) filter_15 0 1)) (lit b64num 357 (-2)));
     (close_to (n := b64num) (Closeness (lit b64num 7378697629483821 (-66)) (@nmin b64num)) (get_or_nan (ipq_get b64num 12 (map (ratio_value b64num) [(1#2)]%Q) filter_15 0 2)) (lit b64num 91 0))]) = true.
Proof. vm_compute. reflexivity. Qed.

(** test/interim/psquare_quantile_suite.cpp:298 *)
Example interim_psquare_quantile_double_quartile_suite_test_linear_decrease_negative :
  (let filter_1 := ipq_one b64num (map (ratio_value b64num) [(1#2)]%Q) in
   let filter_2 := match ipq_do_push b64num 12 (map (ratio_value b64num) [(1#2)]%Q) filter_1 (lit b64num (-1) 0) with Some s => s | None => filter_1 end in
   let filter_3 := match ipq_do_push b64num 12 (map (ratio_value b64num) [(1#2)]%Q) filter_2 (lit b64num (-1) 1) with Some s => s | None => filter_2 end in
   let filter_4 := match ipq_do_push b64num 12 (map (ratio_value b64num) [(1#2)]%Q) filter_3 (lit b64num (-3) 0) with Some s => s | None => filter_3 end in
   let filter_5 := match ipq_do_push b64num 12 (map (ratio_value b64num) [(1#2)]%Q) filter_4 (lit b64num (-1) 2) with Some s => s | None => filter_4 end in
   let filter_6 := match ipq_do_push b64num 12 (map (ratio_value b64num) [(1#2)]%Q) filter_5 (lit b64num (-5) 0) with Some s => s | None => filter_5 end in
   let filter_7 := match ipq_do_push b64num 12 (map (ratio_value b64num) [(1#2)]%Q) filter_6 (lit b64num (-3) 1) with Some s => s | None => filter_6 end in
   let filter_8 := match ipq_do_push b64num 12 (map (ratio_value b64num) [(1#2)]%Q) filter_7 (lit b64num (-7) 0) with Some s => s | None => filter_7 end in
   let filter_9 := match ipq_do_push b64num 12 (map (ratio_value b64num) [(1#2)]%Q) filter_8 (lit b64num (-1) 3) with Some s => s | None => filter_8 end in
   let filter_10 := match ipq_do_push b64num 12 (map (ratio_value b64num) [(1#2)]%Q) filter_9 (lit b64num (-9) 0) with Some s => s | None => filter_9 end in
   let filter_11 := match ipq_do_push b64num 12 (map (ratio_value b64num) [(1#2)]%Q) filter_10 (lit b64num (-5) 1) with Some s => s | None => filter_10 end in
   let filter_12 := match ipq_do_push b64num 12 (map (ratio_value b64num) [(1#2)]%Q) filter_11 (lit b64num (-11) 0) with Some s => s | None => filter_11 end in
   let filter_13 := match ipq_do_push b64num 12 (map (ratio_value b64num) [(1#2)]%Q) filter_12 (lit b64num (-3) 2) with Some s => s | None => filter_12 end in
   let filter_14 := match ipq_do_push b64num 12 (map (ratio_value b64num) [(1#2)]%Q) filter_13 (lit b64num (-13) 0) with Some s => s | None => filter_13 end in
   let filter_15 := match ipq_do_push b64num 12 (map (ratio_value b64num) [(1#2)]%Q) filter_14 (lit b64num (-7) 1) with Some s => s | None => filter_14 end in
   all_true [(is_some (ipq_do_push b64num 12 (map (ratio_value b64num) [(1#2)]%Q) filter_1 (lit b64num (-1) 0)));
     (close_to (n := b64num) (Closeness (lit b64num 7378697629483821 (-66)) (@nmin b64num)) (get_or_nan (ipq_get b64num 12 (map (ratio_value b64num) [(1#2)]%Q) filter_2 0 0)) (lit b64num (-1) 0));
     (close_to (n := b64num) (Closeness (lit b64num 7378697629483821 (-66)) (@nmin b64num)) (get_or_nan (ipq_get b64num 12 (map (ratio_value b64num) [(1#2)]%Q) filter_2 0 1)) (lit b64num (-1) 0));
     (close_to (n := b64num) (Closeness (lit b64num 7378697629483821 (-66)) (@nmin b64num)) (get_or_nan (ipq_get b64num 12 (map (ratio_value b64num) [(1#2)]%Q) filter_2 0 2)) (lit b64num (-1) 0));
     (is_some (ipq_do_push b64num 12 (map (ratio_value b64num) [(1#2)]%Q) filter_2 (lit b64num (-1) 1)));
     (close_to (n := b64num) (Closeness (lit b64num 7378697629483821 (-66)) (@nmin b64num)) (get_or_nan (ipq_get b64num 12 (map (ratio_value b64num) [(1#2)]%Q) filter_3 0 0)) (lit b64num (-1) 1));
     (close_to (n := b64num) (Closeness (lit b64num 7378697629483821 (-66)) (@nmin b64num)) (get_or_nan (ipq_get b64num 12 (map (ratio_value b64num) [(1#2)]%Q) filter_3 0 1)) (lit b64num (-3) (-1)));
     (close_to (n := b64num) (Closeness (lit b64num 7378697629483821 (-66)) (@nmin b64num)) (get_or_nan (ipq_get b64num 12 (map (ratio_value b64num) [(1#2)]%Q) filter_3 0 2)) (lit b64num (-1) 0));
     (is_some (ipq_do_push b64num 12 (map (ratio_value b64num) [(1#2)]%Q) filter_3 (lit b64num (-3) 0)));
     (close_to (n := b64num) (Closeness (lit b64num 7378697629483821 (-66)) (@nmin b64num)) (get_or_nan (ipq_get b64num 12 (map (ratio_value b64num) [(1#2)]%Q) filter_4 0 0)) (lit b64num (-3) 0));
     (close_to (n := b64num) (Closeness (lit b64num 7378697629483821 (-66)) (@nmin b64num)) (get_or_nan (ipq_get b64num 12 (map (ratio_value b64num) [(1#2)]%Q) filter_4 0 1)) (lit b64num (-1) 1));
     (close_to (n := b64num) (Closeness (lit b64num 7378697629483821 (-66)) (@nmin b64num)) (get_or_nan (ipq_get b64num 12 (map (ratio_value b64num) [(1#2)]%Q) filter_4 0 2)) (lit b64num (-1) 0));
     (is_some (ipq_do_push b64num 12 (map (ratio_value b64num) [(1#2)]%Q) filter_4 (lit b64num (-1) 2)));
     (close_to (n := b64num) (Closeness (lit b64num 7378697629483821 (-66)) (@nmin b64num)) (get_or_nan (ipq_get b64num 12 (map (ratio_value b64num) [(1#2)]%Q) filter_5 0 0)) (lit b64num (-1) 2));
     (close_to (n := b64num) (Closeness (lit b64num 7378697629483821 (-66)) (@nmin b64num)) (get_or_nan (ipq_get b64num 12 (map (ratio_value b64num) [(1#2)]%Q) filter_5 0 1)) (lit b64num (-5) (-1)));
     (close_to (n := b64num) (Closeness (lit b64num 7378697629483821 (-66)) (@nmin b64num)) (get_or_nan (ipq_get b64num 12 (map (ratio_value b64num) [(1#2)]%Q) filter_5 0 2)) (lit b64num (-1) 0));
     (is_some (ipq_do_push b64num 12 (map (ratio_value b64num) [(1#2)]%Q) filter_5 (lit b64num (-5) 0)));
     (close_to (n := b64num) (Closeness (lit b64num 7378697629483821 (-66)) (@nmin b64num)) (get_or_nan (ipq_get b64num 12 (map (ratio_value b64num) [(1#2)]%Q) filter_6 0 0)) (lit b64num (-5) 0));
     (close_to (n := b64num) (Closeness (lit b64num 7378697629483821 (-66)) (@nmin b64num)) (get_or_nan (ipq_get b64num 12 (map (ratio_value b64num) [(1#2)]%Q) filter_6 0 1)) (lit b64num (-3) 0));
     (close_to (n := b64num) (Closeness (lit b64num 7378697629483821 (-66)) (@nmin b64num)) (get_or_nan (ipq_get b64num 12 (map (ratio_value b64num) [(1#2)]%Q) filter_6 0 2)) (lit b64num (-1) 0));
     (is_some (ipq_do_push b64num 12 (map (ratio_value b64num) [(1#2)]%Q) filter_6 (lit b64num (-3) 1)));
     (close_to (n := b64num) (Closeness (lit b64num 7378697629483821 (-66)) (@nmin b64num)) (get_or_nan (ipq_get b64num 12 (map (ratio_value b64num) [(1#2)]%Q) filter_7 0 0)) (lit b64num (-3) 1));
     (close_to (n := b64num) (Closeness (lit b64num 7378697629483821 (-66)) (@nmin b64num)) (get_or_nan (ipq_get b64num 12 (map (ratio_value b64num) [(1#2)]%Q) filter_7 0 1)) (lit b64num (-1) 2));
     (close_to (n := b64num) (Closeness (lit b64num 7378697629483821 (-66)) (@nmin b64num)) (get_or_nan (ipq_get b64num 12 (map (ratio_value b64num) [(1#2)]%Q) filter_7 0 2)) (lit b64num (-1) 0));
     (is_some (ipq_do_push b64num 12 (map (ratio_value b64num) [(1#2)]%Q) filter_7 (lit b64num (-7) 0)));
     (close_to (n := b64num) (Closeness (lit b64num 7378697629483821 (-66)) (@nmin b64num)) (get_or_nan (ipq_get b64num 12 (map (ratio_value b64num) [(1#2)]%Q) filter_8 0 0)) (lit b64num (-3538540151719875) (-49)));
     (close_to (n := b64num) (Closeness (lit b64num 7378697629483821 (-66)) (@nmin b64num)) (get_or_nan (ipq_get b64num 12 (map (ratio_value b64num) [(1#2)]%Q) filter_8 0 1)) (lit b64num (-5468653473521583) (-50)));
     (close_to (n := b64num) (Closeness (lit b64num 7378697629483821 (-66)) (@nmin b64num)) (get_or_nan (ipq_get b64num 12 (map (ratio_value b64num) [(1#2)]%Q) filter_8 0 2)) (lit b64num (-1528009429071933) (-49)));
     (is_some (ipq_do_push b64num 12 (map (ratio_value b64num) [(1#2)]%Q) filter_8 (lit b64num (-1) 3)));
     (close_to (n := b64num) (Closeness (lit b64num 7378697629483821 (-66)) (@nmin b64num)) (get_or_nan (ipq_get b64num 12 (map (ratio_value b64num) [(1#2)]%Q) filter_9 0 0)) (lit b64num (-7) 0));
     (close_to (n := b64num) (Closeness (lit b64num 7378697629483821 (-66)) (@nmin b64num)) (get_or_nan (ipq_get b64num 12 (map (ratio_value b64num) [(1#2)]%Q) filter_9 0 1)) (lit b64num (-23) (-2)));
     (close_to (n := b64num) (Closeness (lit b64num 7378697629483821 (-66)) (@nmin b64num)) (get_or_nan (ipq_get b64num 12 (map (ratio_value b64num) [(1#2)]%Q) filter_9 0 2)) (lit b64num (-1) 2));
     (is_some (ipq_do_push b64num 12 (map (ratio_value b64num) [(1#2)]%Q) filter_9 (lit b64num (-9) 0)));
     (close_to (n := b64num) (Closeness (lit b64num 7378697629483821 (-66)) (@nmin b64num)) (get_or_nan (ipq_get b64num 12 (map (ratio_value b64num) [(1#2)]%Q) filter_10 0 0)) (lit b64num (-1) 3));
     (close_to (n := b64num) (Closeness (lit b64num 7378697629483821 (-66)) (@nmin b64num)) (get_or_nan (ipq_get b64num 12 (map (ratio_value b64num) [(1#2)]%Q) filter_10 0 1)) (lit b64num (-1876500782987629) (-48)));
     (close_to (n := b64num) (Closeness (lit b64num 7378697629483821 (-66)) (@nmin b64num)) (get_or_nan (ipq_get b64num 12 (map (ratio_value b64num) [(1#2)]%Q) filter_10 0 2)) (lit b64num (-5) 0));
     (is_some (ipq_do_push b64num 12 (map (ratio_value b64num) [(1#2)]%Q) filter_10 (lit b64num (-5) 1)));
     (close_to (n := b64num) (Closeness (lit b64num 7378697629483821 (-66)) (@nmin b64num)) (get_or_nan (ipq_get b64num 12 (map (ratio_value b64num) [(1#2)]%Q) filter_11 0 0)) (lit b64num (-2589569785738035) (-48)));
     (close_to (n := b64num) (Closeness (lit b64num 7378697629483821 (-66)) (@nmin b64num)) (get_or_nan (ipq_get b64num 12 (map (ratio_value b64num) [(1#2)]%Q) filter_11 0 1)) (lit b64num (-4278419646001971) (-49)));
     (close_to (n := b64num) (Closeness (lit b64num 7378697629483821 (-66)) (@nmin b64num)) (get_or_nan (ipq_get b64num 12 (map (ratio_value b64num) [(1#2)]%Q) filter_11 0 2)) (lit b64num (-6530219459687219) (-50)));
     (is_some (ipq_do_push b64num 12 (map (ratio_value b64num) [(1#2)]%Q) filter_11 (lit b64num (-11) 0)));
     (close_to (n := b64num) (Closeness (lit b64num 7378697629483821 (-66)) (@nmin b64num)) (get_or_nan (ipq_get b64num 12 (map (ratio_value b64num) [(1#2)]%Q) filter_12 0 0)) (lit b64num (-2968294366902223) (-48)));
     (close_to (n := b64num) (Closeness (lit b64num 7378697629483821 (-66)) (@nmin b64num)) (get_or_nan (ipq_get b64num 12 (map (ratio_value b64num) [(1#2)]%Q) filter_12 0 1)) (lit b64num (-4810660679464151) (-49)));
     (close_to (n := b64num) (Closeness (lit b64num 7378697629483821 (-66)) (@nmin b64num)) (get_or_nan (ipq_get b64num 12 (map (ratio_value b64num) [(1#2)]%Q) filter_12 0 2)) (lit b64num (-7267177243711059) (-50)));
     (is_some (ipq_do_push b64num 12 (map (ratio_value b64num) [(1#2)]%Q) filter_12 (lit b64num (-3) 2)));
     (close_to (n := b64num) (Closeness (lit b64num 7378697629483821 (-66)) (@nmin b64num)) (get_or_nan (ipq_get b64num 12 (map (ratio_value b64num) [(1#2)]%Q) filter_13 0 0)) (lit b64num (-3) 2));
     (close_to (n := b64num) (Closeness (lit b64num 7378697629483821 (-66)) (@nmin b64num)) (get_or_nan (ipq_get b64num 12 (map (ratio_value b64num) [(1#2)]%Q) filter_13 0 1)) (lit b64num (-5) 1));
     (close_to (n := b64num) (Closeness (lit b64num 7378697629483821 (-66)) (@nmin b64num)) (get_or_nan (ipq_get b64num 12 (map (ratio_value b64num) [(1#2)]%Q) filter_13 0 2)) (lit b64num (-7) 0));
     (is_some (ipq_do_push b64num 12 (map (ratio_value b64num) [(1#2)]%Q) filter_13 (lit b64num (-13) 0)));
     (close_to (n := b64num) (Closeness (lit b64num 7378697629483821 (-66)) (@nmin b64num)) (get_or_nan (ipq_get b64num 12 (map (ratio_value b64num) [(1#2)]%Q) filter_14 0 0)) (lit b64num (-6916234242748213) (-49)));
     (close_to (n := b64num) (Closeness (lit b64num 7378697629483821 (-66)) (@nmin b64num)) (get_or_nan (ipq_get b64num 12 (map (ratio_value b64num) [(1#2)]%Q) filter_14 0 1)) (lit b64num (-6112003939290527) (-49)));
     (close_to (n := b64num) (Closeness (lit b64num 7378697629483821 (-66)) (@nmin b64num)) (get_or_nan (ipq_get b64num 12 (map (ratio_value b64num) [(1#2)]%Q) filter_14 0 2)) (lit b64num (-4905709149599805) (-49)));
     (is_some (ipq_do_push b64num 12 (map (ratio_value b64num) [(1#2)]%Q) filter_14 (lit b64num (-7) 1)));
     (close_to (n := b64num) (Closeness (lit b64num 7378697629483821 (-66)) (@nmin b64num)) (get_or_nan (ipq_get b64num 12 (map (ratio_value b64num) [(1#2)]%Q) filter_15 0 0)) (lit b64num (-13) 0));
     (close_to (n := b64num) (Closeness (lit b64num 7378697629483821 (-66)) (@nmin b64num)) (get_or_nan (ipq_get b64num 12 (map (ratio_value b64num) [(1#2)]%Q) filter_15 0 1)) (lit b64num (-47) (-2)));
     (close_to (n := b64num) (Closeness (lit b64num 7378697629483821 (-66)) (@nmin b64num)) (get_or_nan (ipq_get b64num 12 (map (ratio_value b64num) [(1#2)]%Q) filter_15 0 2)) (lit b64num (-5) 1))]) = true.
Proof. vm_compute. reflexivity. Qed.

