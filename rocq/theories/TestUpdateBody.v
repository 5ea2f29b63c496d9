(** test/unit_tests/test_body_pos.cpp:836-910, TEST UpdateBody. Produced by tools/translate_tests.py. *)
From Coq Require Import ZArith List.
From Verif Require Import Outcome Num State ModelBodyPos TestLang.
Import ListNotations.
Open Scope Z_scope.

Definition BP_UB_1 : list cmd := [
  UpdateB [(5, 5, 9); (5, 5, 13); (6, 6, 15); (7, 11, 9); (7, 11, 10); (7, 12, 10); (7, 12, 11); (7, 13, 9); (10, 10, 9)];
  ExpB 0 5 5 (-10000);
  ExpB 1 5 5 40000;
  ExpB 0 6 6 50000;
  ExpB 1 6 6 60000;
  ExpB 0 7 11 (-10000);
  ExpB 1 7 11 10000;
  ExpB 0 7 12 0;
  ExpB 1 7 12 20000;
  ExpB 0 7 13 (-10000);
  ExpB 1 7 13 0;
  ExpB 0 10 10 (-10000);
  ExpB 1 10 10 0].

Definition BP_UB_2 : list cmd := [
  UpdateB [(4, 4, 9); (5, 5, 13); (6, 6, 8); (7, 11, 10); (7, 11, 13); (7, 12, 7); (7, 12, 10); (7, 13, 7); (7, 13, 12); (10, 10, 11)];
  ExpB 0 4 4 (-10000);
  ExpB 1 4 4 0;
  ExpB 0 5 5 (-10000);
  ExpB 1 5 5 40000;
  ExpB 0 6 6 50000;
  ExpB 1 6 6 60000;
  ExpB 2 6 6 (-20000);
  ExpB 3 6 6 (-10000);
  ExpB 0 7 11 (-10000);
  ExpB 1 7 11 40000;
  ExpB 0 7 12 (-30000);
  ExpB 1 7 12 20000;
  ExpB 0 7 13 (-30000);
  ExpB 1 7 13 30000;
  ExpB 0 10 10 (-10000);
  ExpB 1 10 10 0;
  ExpB 2 10 10 10000;
  ExpB 3 10 10 20000].

Definition BP_UB_3 : list cmd := [
  UpdateB [(6, 6, 6); (6, 6, 17)];
  ExpB 0 6 6 (-40000);
  ExpB 1 6 6 80000;
  ExpB 2 6 6 0;
  ExpB 3 6 6 0].

Definition BP_UB_4 : list cmd := [
  UpdateB [(10, 10, 13)];
  ExpB 0 10 10 (-10000);
  ExpB 1 10 10 0;
  ExpB 2 10 10 10000;
  ExpB 3 10 10 40000;
  Reset [] [(0, 4, 4); (0, 5, 5); (0, 6, 6); (0, 7, 11); (0, 7, 12); (0, 7, 13); (0, 10, 10); (2, 10, 10)] []].

Definition update_body_tests : list cmd :=
  BP_UB_1 ++ BP_UB_2 ++ BP_UB_3 ++ BP_UB_4.

Example update_body_tests_pass : z_run update_body_tests = None.
Proof. vm_compute. reflexivity. Qed.
