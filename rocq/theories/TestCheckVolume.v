(** test/unit_tests/test_utils.cpp:401-463, TEST CheckVolume. Produced by tools/translate_tests.py. *)
From Coq Require Import ZArith List.
From Verif Require Import Outcome Num State ModelBodyPos TestLang.
Import ListNotations.
Open Scope Z_scope.

Definition UT_CV_1 : list cmd := [
  Volume 0 true;
  Volume 1 false;
  Volume (-1) false].

Definition UT_CV_2 : list cmd := [
  SetT 1 2 20000;
  Volume 2 true;
  Volume 0 false;
  Volume 1 false;
  Volume 3 false;
  SetT 1 2 0].

Definition UT_CV_3 : list cmd := [
  SetH 1 1 None None None (Some 0) (Some 10000) None None None None;
  SetH 2 1 None None None None None None None (Some 0) (Some 20000);
  SetH 2 2 None None None (Some (-10000)) (Some 0) None None (Some 20000) (Some 30000);
  Push 0 1 1 0 0 0 10000;
  Push 2 2 1 0 0 0 20000;
  Push 0 2 2 0 0 0 10000;
  Push 2 2 2 0 0 0 10000;
  Volume 5 true;
  Volume 0 false].

Definition UT_CV_4 : list cmd := [
  SetRecH 2%nat 0;
  Volume 5 false;
  SetRecH 2%nat 10000;
  Push 0 2 2 0 0 0 5000;
  Volume 5 false;
  SetBS 1 2 2 5000;
  Push 0 5 5 0 0 0 5000;
  Volume 5 false].

Definition check_volume_tests : list cmd :=
  UT_CV_1 ++ UT_CV_2 ++ UT_CV_3 ++ UT_CV_4.

Example check_volume_tests_pass : z_run check_volume_tests = None.
Proof. vm_compute. reflexivity. Qed.
