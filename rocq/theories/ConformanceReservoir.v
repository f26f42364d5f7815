(** * Conformance with test/sampling/reservoir_suite.cpp and
      test/interim/psquare_quantile_suite.cpp

    Transcribed by hand: test_alpha with the draws given in its comments, and
    the copy constructor test of interim::psquare.  These are tests of the
    transcription, not proofs of properties. *)

From Coq Require Import ZArith NArith Bool List QArith SpecFloat.
From Verif Require Import Arith CircularSpan Reservoir Psquare InterimPsquare Conformance.
Import ListNotations.
Local Open Scope N_scope.

(** What a push returns, the size, the count and the data after every push. *)
Fixpoint observe (s : rsv N) (cs : list (N * N * N)) : list (bool * N * N * list N) :=
  match cs with
  | [] => []
  | (x, skip, index) :: cs' =>
    match rs_push s x skip index with
    | Some (s', r) => (r, rs_length s', rs_count s', rs_data s') :: observe s' cs'
    | None => []
    end
  end.

(** test/sampling/reservoir_suite.cpp:55-182 *)
Example reservoir_test_alpha :
  observe (rs_new 2)
    [(11, 0, 0); (22, 0, 0);
     (33, 0, 2); (44, 0, 1); (55, 0, 0); (66, 0, 1); (77, 0, 2); (88, 0, 0);
     (90, 0, 1); (100, 2, 0); (110, 0, 0); (120, 0, 0); (130, 0, 0)]
  = [(true, 1, 1, [11]); (true, 2, 2, [11; 22]);
     (false, 2, 3, [11; 22]); (true, 2, 4, [11; 44]); (true, 2, 5, [55; 44]);
     (true, 2, 6, [55; 66]); (false, 2, 7, [55; 66]); (true, 2, 8, [88; 66]);
     (true, 2, 9, [88; 90]); (true, 2, 10, [100; 90]); (false, 2, 11, [100; 90]);
     (false, 2, 12, [100; 90]); (true, 2, 13, [130; 90])].
Proof. vm_compute. reflexivity. Qed.

(** The emptiness of object [o] after a program. *)
Definition empty_after (cs : list (cmd b64num)) (o : nat) : option bool :=
  let qs := [ratio_value b64num (1#2)] in
  match exec b64num 8 qs cs with
  | Some h => ipq_empty b64num h o
  | None => None
  end.

(** test/interim/psquare_quantile_suite.cpp, api_suite::test_ctor: objects
    filter, copy, assign, mover, massign.  The class has no move operations of
    its own and its members are arithmetic, so a move is a copy. *)
Example interim_psquare_test_ctor :
  let one := lit b64num 1 0 in
  let cs := [New 0%nat; PushTo 0%nat one; Copy 1%nat 0%nat; New 2%nat; Assign 2%nat 0%nat;
             Copy 3%nat 1%nat; New 4%nat; Assign 4%nat 2%nat] in
  map (empty_after cs) [0; 1; 2; 3; 4]%nat = [Some false; Some false; Some false; Some false; Some false].
Proof. vm_compute. reflexivity. Qed.
