(** test/unit_tests/test_utils.cpp:465-613, TEST CheckSoil. Produced by tools/translate_tests.py. *)
From Coq Require Import ZArith List.
From Verif Require Import Outcome Num State ModelBodyPos TestLang.
Import ListNotations.
Open Scope Z_scope.

Definition UT_CS_1 : list cmd := [
  Soil true].

Definition UT_CS_2 : list cmd := [
  SetT 1 1 (-20000);
  SetT 1 2 (-15000);
  SetT 2 1 0;
  SetT 2 2 0;
  Soil true].

Definition UT_CS_3 : list cmd := [
  SetH 1 1 None (Some (-20000)) (Some 0) None None None None None None;
  SetH 1 2 None (Some (-15000)) (Some 0) None None (Some 10000) (Some 20000) None None;
  SetH 2 1 None None None None None (Some 0) (Some 15000) None None;
  SetH 2 2 None (Some 5000) (Some 10000) None None None None None None;
  Soil true].

Definition UT_CS_4 : list cmd := [
  SetH 1 1 None None None (Some 0) (Some 10000) None None None None;
  SetH 1 2 None None None (Some 0) (Some 10000) None None (Some 20000) (Some 30000);
  SetH 2 1 None None None None None None None (Some 15000) (Some 25000);
  SetH 2 2 None None None (Some 10000) (Some 15000) None None None None;
  Push 0 1 1 0 0 0 0;
  Push 0 1 2 0 0 0 0;
  Push 2 1 2 0 0 0 0;
  Push 2 2 1 0 0 0 0;
  Push 0 2 2 0 0 0 0;
  Soil true].

Definition UT_CS_5 : list cmd := [
  SetT 1 1 50000;
  Soil false;
  SetT 1 1 (-20000);
  SetT 2 1 5000;
  Soil false;
  SetT 2 1 0;
  Soil true].

Definition UT_CS_6 : list cmd := [
  SetH 1 1 None (Some 0) (Some (-10000)) None None None None None None;
  Soil false;
  SetH 1 1 None (Some 10000) (Some 10000) None None None None None None;
  Soil false;
  SetH 1 1 None (Some 41000) (Some 40000) None None None None None None;
  Soil false;
  SetH 1 1 None (Some 41000) (Some 0) None None None None None None;
  Soil false;
  SetH 1 1 None (Some 0) (Some (-40000)) None None None None None None;
  Soil false;
  SetH 1 1 None (Some (-20000)) (Some 0) (Some 0) (Some 10000) None None None None;
  SetH 2 1 None None None None None (Some 16000) (Some 15000) None None;
  Soil false;
  SetH 2 1 None None None None None (Some 0) (Some 15000) None None;
  Soil true].

Definition UT_CS_7 : list cmd := [
  SetH 1 1 None None None (Some 0) (Some (-10000)) None None None None;
  Soil false;
  SetH 1 1 None None None (Some 20000) (Some 0) None None None None;
  Soil false;
  SetH 1 1 None None None (Some 0) (Some 10000) None None None None;
  SetH 2 1 None None None None None None None (Some 15000) (Some 14000);
  Soil false;
  SetH 2 1 None None None None None None None (Some 15000) (Some 25000);
  Soil true].

Definition UT_CS_8 : list cmd := [
  SetH 1 1 None (Some (-20000)) (Some 5000) None None None None None None;
  Soil false;
  SetH 1 1 None (Some (-20000)) (Some 0) None None None None None None;
  SetH 1 2 None None None None None (Some 10000) (Some 25000) None None;
  Soil false;
  SetH 1 2 None None None None None (Some 10000) (Some 45000) None None;
  Soil false;
  SetH 1 2 None None None None None (Some 10000) (Some 20000) None None;
  Soil true].

Definition UT_CS_9 : list cmd := [
  SetH 1 1 None None None (Some 10000) (Some 10000) None None None None;
  Soil false;
  SetH 1 1 None None None (Some 5000) (Some 10000) None None None None;
  Soil false;
  SetH 1 1 None None None (Some 0) (Some 10000) None None None None;
  SetH 2 1 None None None None None None None (Some 20000) (Some 25000);
  Soil false;
  SetH 2 1 None None None None None None None (Some 15000) (Some 25000);
  Soil true].

Definition UT_CS_10 : list cmd := [
  SetH 1 2 None None None None None (Some 0) (Some 0) None None;
  Soil false;
  SetH 1 2 None None None None None (Some 10000) (Some 20000) None None;
  SetH 1 1 None (Some 0) (Some 0) None None None None None None;
  Soil false;
  SetH 1 1 None (Some (-20000)) (Some 0) None None None None None None;
  Soil true].

Definition UT_CS_11 : list cmd := [
  SetT 3 2 (-20000);
  SetH 3 2 None (Some (-15000)) (Some 10000) None None (Some 0) (Some 20000) None None;
  Soil false;
  SetH 3 2 None (Some (-15000)) (Some 0) None None None None None None;
  Soil false;
  SetH 3 2 None (Some 0) (Some 20000) None None (Some (-20000)) (Some 10000) None None;
  Soil false;
  SetH 3 2 None None None None None (Some (-20000)) (Some 0) None None;
  Soil false;
  SetH 3 2 None (Some 0) (Some 0) None None (Some 0) (Some 0) None None;
  Soil true].

Definition UT_CS_12 : list cmd := [
  SetH 3 2 None (Some (-15000)) (Some 0) (Some 0) (Some 15000) (Some 10000) (Some 20000) None None;
  Soil false;
  SetH 3 2 None (Some 10000) (Some 20000) (Some 0) (Some 0) (Some (-15000)) (Some 0) (Some 0) (Some 15000);
  Soil false;
  SetH 3 2 None None None None None None None (Some 0) (Some 10000);
  Soil true;
  SetH 3 2 None (Some 0) (Some 0) None None (Some 0) (Some 0) (Some 0) (Some 0);
  Soil true].

Definition check_soil_tests : list cmd :=
  UT_CS_1 ++ UT_CS_2 ++ UT_CS_3 ++ UT_CS_4 ++ UT_CS_5 ++ UT_CS_6 ++ UT_CS_7 ++ UT_CS_8 ++ UT_CS_9 ++ UT_CS_10 ++ UT_CS_11 ++ UT_CS_12.

Example check_soil_tests_pass : z_run check_soil_tests = None.
Proof. vm_compute. reflexivity. Qed.
