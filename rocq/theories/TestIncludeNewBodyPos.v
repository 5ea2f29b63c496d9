(** test/unit_tests/test_body_pos.cpp:733-834, TEST IncludeNewBodyPos. Produced by tools/translate_tests.py. *)
From Coq Require Import ZArith List.
From Verif Require Import Outcome Num State ModelBodyPos TestLang.
Import ListNotations.
Open Scope Z_scope.

Definition setup : list cmd := [
  SetH 6 9 None (Some 100000) (Some 200000) None None None None None None;
  SetH 8 11 None (Some 50000) (Some 60000) None None (Some 80000) (Some 90000) None None;
  SetH 9 8 None None None None None (Some 120000) (Some 140000) None None].

Definition BP_INB_1 : list cmd := [
  Include 5 5 10000 20000;
  ExpB 0 5 5 10000;
  ExpB 1 5 5 20000;
  ExpB 2 5 5 0;
  ExpB 3 5 5 0].

Definition BP_INB_2 : list cmd := [
  Include 6 9 10000 20000;
  ExpB 0 6 9 100000;
  ExpB 1 6 9 200000;
  ExpB 2 6 9 10000;
  ExpB 3 6 9 20000].

Definition BP_INB_3 : list cmd := [
  Include 9 8 160000 170000;
  ExpB 0 9 8 160000;
  ExpB 1 9 8 170000;
  ExpB 2 9 8 120000;
  ExpB 3 9 8 140000].

Definition BP_INB_4 : list cmd := [
  Include 6 9 20000 40000;
  ExpB 0 6 9 100000;
  ExpB 1 6 9 200000;
  ExpB 2 6 9 10000;
  ExpB 3 6 9 40000].

Definition BP_INB_5 : list cmd := [
  Include 6 9 (-20000) 10000;
  ExpB 0 6 9 100000;
  ExpB 1 6 9 200000;
  ExpB 2 6 9 (-20000);
  ExpB 3 6 9 40000].

Definition BP_INB_6 : list cmd := [
  Include 6 9 200000 250000;
  ExpB 0 6 9 100000;
  ExpB 1 6 9 250000;
  ExpB 2 6 9 (-20000);
  ExpB 3 6 9 40000].

Definition BP_INB_7 : list cmd := [
  Include 6 9 70000 100000;
  ExpB 0 6 9 70000;
  ExpB 1 6 9 250000;
  ExpB 2 6 9 (-20000);
  ExpB 3 6 9 40000].

Definition BP_INB_8 : list cmd := [
  Include 6 9 (-40000) 60000;
  ExpB 0 6 9 70000;
  ExpB 1 6 9 250000;
  ExpB 2 6 9 (-40000);
  ExpB 3 6 9 60000].

Definition BP_INB_9 : list cmd := [
  Include 8 11 60000 80000;
  ExpB 0 8 11 50000;
  ExpB 1 8 11 90000;
  ExpB 2 8 11 0;
  ExpB 3 8 11 0].

Definition BP_INB_10 : list cmd := [
  Include 6 9 90000 250000;
  ExpB 0 6 9 70000;
  ExpB 1 6 9 250000;
  ExpB 2 6 9 (-40000);
  ExpB 3 6 9 60000].

Definition BP_INB_11 : list cmd := [
  Include 6 9 (-40000) 60000;
  ExpB 0 6 9 70000;
  ExpB 1 6 9 250000;
  ExpB 2 6 9 (-40000);
  ExpB 3 6 9 60000].

Definition BP_INB_12 : list cmd := [
  Include 6 9 300000 310000;
  ExpB 0 6 9 70000;
  ExpB 1 6 9 310000;
  ExpB 2 6 9 (-40000);
  ExpB 3 6 9 60000;
  Reset [] [(0, 5, 5); (0, 6, 9); (2, 6, 9); (0, 8, 11); (0, 9, 8); (2, 9, 8)] []].

Definition include_tests : list cmd :=
  setup ++ BP_INB_1 ++ BP_INB_2 ++ BP_INB_3 ++ BP_INB_4 ++ BP_INB_5 ++ BP_INB_6 ++ BP_INB_7 ++ BP_INB_8 ++ BP_INB_9 ++ BP_INB_10 ++ BP_INB_11 ++ BP_INB_12.

Example include_tests_pass : z_run include_tests = None.
Proof. vm_compute. reflexivity. Qed.
