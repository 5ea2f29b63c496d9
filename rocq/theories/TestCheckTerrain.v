(** test/unit_tests/test_relax.cpp:109-511, TEST CheckUnstableTerrainCell. Produced by tools/translate_tests.py. *)
From Coq Require Import ZArith List.
From Verif Require Import Outcome Num State ModelBodyPos TestLang.
Import ListNotations.
Open Scope Z_scope.

Definition RE_CUT_1 : list cmd := [
  CheckUT 10 15 (-10000);
  ExpStatus 0].

Definition RE_CUT_2 : list cmd := [
  SetT 10 15 (-20000);
  CheckUT 10 15 (-10000);
  ExpStatus 40;
  Reset [(10, 15)] [] []].

Definition RE_CUT_3 : list cmd := [
  SetH 10 15 (Some (-20000)) (Some (-10000)) (Some 0) None None None None None None;
  CheckUT 10 15 (-10000);
  ExpStatus 10;
  Reset [(10, 15)] [(0, 10, 15)] []].

Definition RE_CUT_4 : list cmd := [
  SetH 10 15 (Some (-40000)) (Some (-40000)) (Some 0) None None None None None None;
  CheckUT 10 15 (-10000);
  ExpStatus 0;
  Reset [(10, 15)] [(0, 10, 15)] []].

Definition RE_CUT_5 : list cmd := [
  SetH 10 15 (Some (-40000)) (Some (-40000)) (Some (-20000)) None None None None None None;
  CheckUT 10 15 (-10000);
  ExpStatus 14;
  Reset [(10, 15)] [(0, 10, 15)] []].

Definition RE_CUT_6 : list cmd := [
  SetH 9 15 (Some (-80000)) (Some (-70000)) (Some (-50000)) (Some (-50000)) (Some (-30000)) None None None None;
  CheckUT 9 15 (-10000);
  ExpStatus 10;
  Reset [(9, 15)] [(0, 9, 15)] [(0, 9, 15)]].

Definition RE_CUT_7 : list cmd := [
  SetH 10 15 (Some (-80000)) (Some (-80000)) (Some (-50000)) (Some (-50000)) (Some 0) None None None None;
  CheckUT 10 15 (-10000);
  ExpStatus 0;
  Reset [(10, 15)] [(0, 10, 15)] [(0, 10, 15)]].

Definition RE_CUT_8 : list cmd := [
  SetH 9 15 (Some (-80000)) (Some (-80000)) (Some (-50000)) (Some (-50000)) (Some (-30000)) None None None None;
  CheckUT 9 15 (-10000);
  ExpStatus 13;
  Reset [(9, 15)] [(0, 9, 15)] [(0, 9, 15)]].

Definition RE_CUT_9 : list cmd := [
  SetH 10 15 (Some (-20000)) None None None None (Some (-10000)) (Some 0) None None;
  CheckUT 10 15 (-10000);
  ExpStatus 20;
  Reset [(10, 15)] [(2, 10, 15)] []].

Definition RE_CUT_10 : list cmd := [
  SetH 10 15 (Some (-40000)) None None None None (Some (-40000)) (Some 0) None None;
  CheckUT 10 15 (-10000);
  ExpStatus 0;
  Reset [(10, 15)] [(2, 10, 15)] []].

Definition RE_CUT_11 : list cmd := [
  SetH 10 15 (Some (-40000)) None None None None (Some (-40000)) (Some (-20000)) None None;
  CheckUT 10 15 (-10000);
  ExpStatus 22;
  Reset [(10, 15)] [(2, 10, 15)] []].

Definition RE_CUT_12 : list cmd := [
  SetH 9 15 (Some (-80000)) None None None None (Some (-70000)) (Some (-50000)) (Some (-50000)) (Some (-30000));
  CheckUT 9 15 (-10000);
  ExpStatus 20;
  Reset [(9, 15)] [(2, 9, 15)] [(2, 9, 15)]].

Definition RE_CUT_13 : list cmd := [
  SetH 10 15 (Some (-80000)) None None None None (Some (-80000)) (Some (-50000)) (Some (-50000)) (Some 0);
  CheckUT 10 15 (-10000);
  ExpStatus 0;
  Reset [(10, 15)] [(2, 10, 15)] [(2, 10, 15)]].

Definition RE_CUT_14 : list cmd := [
  SetH 9 15 (Some (-80000)) None None None None (Some (-80000)) (Some (-50000)) (Some (-50000)) (Some (-30000));
  CheckUT 9 15 (-10000);
  ExpStatus 21;
  Reset [(9, 15)] [(2, 9, 15)] [(2, 9, 15)]].

Definition RE_CUT_15 : list cmd := [
  SetH 9 15 (Some (-80000)) (Some (-70000)) (Some (-60000)) None None (Some (-40000)) (Some (-30000)) None None;
  CheckUT 9 15 (-10000);
  ExpStatus 30;
  Reset [(9, 15)] [(0, 9, 15); (2, 9, 15)] []].

Definition RE_CUT_16 : list cmd := [
  SetH 10 15 (Some (-80000)) (Some (-80000)) (Some (-60000)) None None (Some 20000) (Some 40000) None None;
  CheckUT 10 15 (-10000);
  ExpStatus 34;
  Reset [(10, 15)] [(0, 10, 15); (2, 10, 15)] []].

Definition RE_CUT_17 : list cmd := [
  SetH 9 15 (Some (-80000)) (Some (-80000)) (Some (-60000)) None None (Some (-40000)) (Some (-30000)) None None;
  CheckUT 9 15 (-10000);
  ExpStatus 34;
  Reset [(9, 15)] [(0, 9, 15); (2, 9, 15)] []].

Definition RE_CUT_18 : list cmd := [
  SetH 10 15 (Some (-80000)) (Some (-70000)) (Some (-60000)) None None (Some (-40000)) (Some (-30000)) (Some (-30000)) (Some (-20000));
  CheckUT 10 15 (-10000);
  ExpStatus 30;
  Reset [(10, 15)] [(0, 10, 15); (2, 10, 15)] [(2, 10, 15)]].

Definition RE_CUT_19 : list cmd := [
  SetH 10 15 (Some (-80000)) (Some (-80000)) (Some (-60000)) None None (Some (-40000)) (Some (-30000)) (Some (-30000)) (Some 20000);
  CheckUT 10 15 (-10000);
  ExpStatus 34;
  Reset [(10, 15)] [(0, 10, 15); (2, 10, 15)] [(2, 10, 15)]].

Definition RE_CUT_20 : list cmd := [
  SetH 10 15 (Some (-80000)) (Some (-80000)) (Some (-60000)) None None (Some (-40000)) (Some (-30000)) (Some (-30000)) (Some (-20000));
  CheckUT 10 15 (-10000);
  ExpStatus 34;
  Reset [(10, 15)] [(0, 10, 15); (2, 10, 15)] [(2, 10, 15)]].

Definition RE_CUT_21 : list cmd := [
  SetH 10 15 (Some (-80000)) (Some (-70000)) (Some (-60000)) (Some (-60000)) (Some (-50000)) (Some (-40000)) (Some (-30000)) None None;
  CheckUT 10 15 (-10000);
  ExpStatus 30;
  Reset [(10, 15)] [(0, 10, 15); (2, 10, 15)] [(0, 10, 15)]].

Definition RE_CUT_22 : list cmd := [
  SetH 10 15 (Some (-80000)) (Some (-80000)) (Some (-60000)) (Some (-60000)) (Some (-50000)) (Some (-40000)) (Some 0) None None;
  CheckUT 10 15 (-10000);
  ExpStatus 33;
  Reset [(10, 15)] [(0, 10, 15); (2, 10, 15)] [(0, 10, 15)]].

Definition RE_CUT_23 : list cmd := [
  SetH 10 15 (Some (-80000)) (Some (-80000)) (Some (-60000)) (Some (-60000)) (Some (-50000)) (Some (-40000)) (Some (-30000)) None None;
  CheckUT 10 15 (-10000);
  ExpStatus 33;
  Reset [(10, 15)] [(0, 10, 15); (2, 10, 15)] [(0, 10, 15)]].

Definition RE_CUT_24 : list cmd := [
  SetH 10 15 (Some (-80000)) (Some (-70000)) (Some (-60000)) (Some (-60000)) (Some (-50000)) (Some (-40000)) (Some (-30000)) (Some (-30000)) (Some (-20000));
  CheckUT 10 15 (-10000);
  ExpStatus 30;
  Reset [(10, 15)] [(0, 10, 15); (2, 10, 15)] [(0, 10, 15); (2, 10, 15)]].

Definition RE_CUT_25 : list cmd := [
  SetH 10 15 (Some (-80000)) (Some (-80000)) (Some (-60000)) (Some (-60000)) (Some (-50000)) (Some (-40000)) (Some (-30000)) (Some (-30000)) (Some 0);
  CheckUT 10 15 (-10000);
  ExpStatus 33;
  Reset [(10, 15)] [(0, 10, 15); (2, 10, 15)] [(0, 10, 15); (2, 10, 15)]].

Definition RE_CUT_26 : list cmd := [
  SetH 10 15 (Some (-80000)) (Some (-80000)) (Some (-60000)) (Some (-60000)) (Some (-50000)) (Some (-40000)) (Some (-30000)) (Some (-30000)) (Some (-20000));
  CheckUT 10 15 (-10000);
  ExpStatus 33;
  Reset [(10, 15)] [(0, 10, 15); (2, 10, 15)] [(0, 10, 15); (2, 10, 15)]].

Definition RE_CUT_27 : list cmd := [
  SetH 10 15 (Some (-80000)) (Some (-70000)) (Some (-60000)) (Some (-60000)) (Some (-40000)) (Some (-40000)) (Some (-30000)) None None;
  CheckUT 10 15 (-10000);
  ExpStatus 30;
  Reset [(10, 15)] [(0, 10, 15); (2, 10, 15)] [(0, 10, 15)]].

Definition RE_CUT_28 : list cmd := [
  SetH 10 15 (Some (-80000)) (Some (-80000)) (Some (-60000)) (Some (-60000)) (Some (-40000)) (Some (-40000)) (Some 0) None None;
  CheckUT 10 15 (-10000);
  ExpStatus 0;
  Reset [(10, 15)] [(0, 10, 15); (2, 10, 15)] [(0, 10, 15)]].

Definition RE_CUT_29 : list cmd := [
  SetH 10 15 (Some (-80000)) (Some (-80000)) (Some (-60000)) (Some (-60000)) (Some (-40000)) (Some (-40000)) (Some (-30000)) None None;
  CheckUT 10 15 (-10000);
  ExpStatus 32;
  Reset [(10, 15)] [(0, 10, 15); (2, 10, 15)] [(0, 10, 15)]].

Definition RE_CUT_30 : list cmd := [
  SetH 10 15 (Some (-80000)) (Some (-70000)) (Some (-60000)) (Some (-60000)) (Some (-40000)) (Some (-40000)) (Some (-30000)) (Some (-30000)) (Some (-20000));
  CheckUT 10 15 (-10000);
  ExpStatus 30;
  Reset [(10, 15)] [(0, 10, 15); (2, 10, 15)] [(0, 10, 15); (2, 10, 15)]].

Definition RE_CUT_31 : list cmd := [
  SetH 10 15 (Some (-70000)) (Some (-70000)) (Some (-60000)) (Some (-60000)) (Some (-40000)) (Some (-40000)) (Some (-30000)) (Some (-30000)) (Some 20000);
  CheckUT 10 15 (-10000);
  ExpStatus 0;
  Reset [(10, 15)] [(0, 10, 15); (2, 10, 15)] [(0, 10, 15); (2, 10, 15)]].

Definition RE_CUT_32 : list cmd := [
  SetH 10 15 (Some (-70000)) (Some (-70000)) (Some (-60000)) (Some (-60000)) (Some (-40000)) (Some (-40000)) (Some (-30000)) (Some (-30000)) (Some (-20000));
  CheckUT 10 15 (-10000);
  ExpStatus 31;
  Reset [(10, 15)] [(0, 10, 15); (2, 10, 15)] [(0, 10, 15); (2, 10, 15)]].

Definition RE_CUT_33 : list cmd := [
  SetH 9 15 (Some (-80000)) (Some (-40000)) (Some (-30000)) None None (Some (-70000)) (Some (-60000)) None None;
  CheckUT 9 15 (-10000);
  ExpStatus 30;
  Reset [(9, 15)] [(0, 9, 15); (2, 9, 15)] []].

Definition RE_CUT_34 : list cmd := [
  SetH 10 15 (Some (-80000)) (Some (-40000)) (Some 0) None None (Some (-80000)) (Some (-60000)) None None;
  CheckUT 10 15 (-10000);
  ExpStatus 32;
  Reset [(10, 15)] [(0, 10, 15); (2, 10, 15)] []].

Definition RE_CUT_35 : list cmd := [
  SetH 9 15 (Some (-80000)) (Some (-40000)) (Some (-30000)) None None (Some (-80000)) (Some (-60000)) None None;
  CheckUT 9 15 (-10000);
  ExpStatus 32;
  Reset [(9, 15)] [(0, 9, 15); (2, 9, 15)] []].

Definition RE_CUT_36 : list cmd := [
  SetH 10 15 (Some (-80000)) (Some (-40000)) (Some (-30000)) (Some (-30000)) (Some (-20000)) (Some (-70000)) (Some (-60000)) None None;
  CheckUT 10 15 (-10000);
  ExpStatus 30;
  Reset [(10, 15)] [(0, 10, 15); (2, 10, 15)] [(0, 10, 15)]].

Definition RE_CUT_37 : list cmd := [
  SetH 10 15 (Some (-80000)) (Some (-40000)) (Some (-30000)) (Some (-30000)) (Some 0) (Some (-80000)) (Some (-60000)) None None;
  CheckUT 10 15 (-10000);
  ExpStatus 32;
  Reset [(10, 15)] [(0, 10, 15); (2, 10, 15)] [(0, 10, 15)]].

Definition RE_CUT_38 : list cmd := [
  SetH 10 15 (Some (-80000)) (Some (-40000)) (Some (-30000)) (Some (-30000)) (Some (-20000)) (Some (-80000)) (Some (-60000)) None None;
  CheckUT 10 15 (-10000);
  ExpStatus 32;
  Reset [(10, 15)] [(0, 10, 15); (2, 10, 15)] [(0, 10, 15)]].

Definition RE_CUT_39 : list cmd := [
  SetH 10 15 (Some (-80000)) (Some (-40000)) (Some (-30000)) None None (Some (-70000)) (Some (-60000)) (Some (-60000)) (Some (-50000));
  CheckUT 10 15 (-10000);
  ExpStatus 30;
  Reset [(10, 15)] [(0, 10, 15); (2, 10, 15)] [(2, 10, 15)]].

Definition RE_CUT_40 : list cmd := [
  SetH 10 15 (Some (-80000)) (Some (-40000)) (Some 0) None None (Some (-80000)) (Some (-60000)) (Some (-60000)) (Some (-50000));
  CheckUT 10 15 (-10000);
  ExpStatus 31;
  Reset [(10, 15)] [(0, 10, 15); (2, 10, 15)] [(2, 10, 15)]].

Definition RE_CUT_41 : list cmd := [
  SetH 10 15 (Some (-80000)) (Some (-40000)) (Some (-30000)) None None (Some (-80000)) (Some (-60000)) (Some (-60000)) (Some (-50000));
  CheckUT 10 15 (-10000);
  ExpStatus 31;
  Reset [(10, 15)] [(0, 10, 15); (2, 10, 15)] [(2, 10, 15)]].

Definition RE_CUT_42 : list cmd := [
  SetH 10 15 (Some (-80000)) (Some (-40000)) (Some (-30000)) (Some (-30000)) (Some (-20000)) (Some (-70000)) (Some (-60000)) (Some (-60000)) (Some (-50000));
  CheckUT 10 15 (-10000);
  ExpStatus 30;
  Reset [(10, 15)] [(0, 10, 15); (2, 10, 15)] [(0, 10, 15); (2, 10, 15)]].

Definition RE_CUT_43 : list cmd := [
  SetH 10 15 (Some (-80000)) (Some (-40000)) (Some (-30000)) (Some (-30000)) (Some 0) (Some (-80000)) (Some (-60000)) (Some (-60000)) (Some (-50000));
  CheckUT 10 15 (-10000);
  ExpStatus 31;
  Reset [(10, 15)] [(0, 10, 15); (2, 10, 15)] [(0, 10, 15); (2, 10, 15)]].

Definition RE_CUT_44 : list cmd := [
  SetH 10 15 (Some (-80000)) (Some (-40000)) (Some (-30000)) (Some (-30000)) (Some (-20000)) (Some (-80000)) (Some (-60000)) (Some (-60000)) (Some (-50000));
  CheckUT 10 15 (-10000);
  ExpStatus 31;
  Reset [(10, 15)] [(0, 10, 15); (2, 10, 15)] [(0, 10, 15); (2, 10, 15)]].

Definition RE_CUT_45 : list cmd := [
  SetH 10 15 (Some (-80000)) (Some (-40000)) (Some (-30000)) None None (Some (-70000)) (Some (-60000)) (Some (-60000)) (Some (-40000));
  CheckUT 10 15 (-10000);
  ExpStatus 30;
  Reset [(10, 15)] [(0, 10, 15); (2, 10, 15)] [(2, 10, 15)]].

Definition RE_CUT_46 : list cmd := [
  SetH 10 15 (Some (-80000)) (Some (-40000)) (Some 0) None None (Some (-80000)) (Some (-60000)) (Some (-60000)) (Some (-40000));
  CheckUT 10 15 (-10000);
  ExpStatus 0;
  Reset [(10, 15)] [(0, 10, 15); (2, 10, 15)] [(2, 10, 15)]].

Definition RE_CUT_47 : list cmd := [
  SetH 10 15 (Some (-80000)) (Some (-40000)) (Some (-30000)) None None (Some (-80000)) (Some (-60000)) (Some (-60000)) (Some (-40000));
  CheckUT 10 15 (-10000);
  ExpStatus 34;
  Reset [(10, 15)] [(0, 10, 15); (2, 10, 15)] [(2, 10, 15)]].

Definition RE_CUT_48 : list cmd := [
  SetH 10 15 (Some (-80000)) (Some (-40000)) (Some (-30000)) (Some (-30000)) (Some (-20000)) (Some (-70000)) (Some (-60000)) (Some (-60000)) (Some (-40000));
  CheckUT 10 15 (-10000);
  ExpStatus 30;
  Reset [(10, 15)] [(0, 10, 15); (2, 10, 15)] [(0, 10, 15); (2, 10, 15)]].

Definition RE_CUT_49 : list cmd := [
  SetH 10 15 (Some (-80000)) (Some (-40000)) (Some (-30000)) (Some (-30000)) (Some 0) (Some (-80000)) (Some (-60000)) (Some (-60000)) (Some (-40000));
  CheckUT 10 15 (-10000);
  ExpStatus 0;
  Reset [(10, 15)] [(0, 10, 15); (2, 10, 15)] [(0, 10, 15); (2, 10, 15)]].

Definition RE_CUT_50 : list cmd := [
  SetH 10 15 (Some (-80000)) (Some (-40000)) (Some (-30000)) (Some (-30000)) (Some (-20000)) (Some (-80000)) (Some (-60000)) (Some (-60000)) (Some (-40000));
  CheckUT 10 15 (-10000);
  ExpStatus 33;
  Reset [(10, 15)] [(0, 10, 15); (2, 10, 15)] [(0, 10, 15); (2, 10, 15)]].

Definition RE_CUT_51 : list cmd := [
  SetH 10 15 (Some (-100000)) (Some (-40000)) (Some (-20000)) None None None None None None;
  CheckUT 10 15 (-60000);
  ExpStatus 10;
  Reset [(10, 15)] [(0, 10, 15)] []].

Definition RE_CUT_52 : list cmd := [
  SetH 10 15 (Some (-40000)) (Some (-40000)) (Some (-10000)) None None None None None None;
  CheckUT 10 15 (-10000);
  ExpStatus 0;
  Reset [(10, 15)] [(0, 10, 15)] []].

Definition RE_CUT_53 : list cmd := [
  SetT 10 15 (-40000);
  CheckUT 10 15 (-40000);
  ExpStatus 0;
  Reset [(10, 15)] [] []].

Definition check_terrain_tests : list cmd :=
  RE_CUT_1 ++ RE_CUT_2 ++ RE_CUT_3 ++ RE_CUT_4 ++ RE_CUT_5 ++ RE_CUT_6 ++ RE_CUT_7 ++ RE_CUT_8 ++ RE_CUT_9 ++ RE_CUT_10 ++ RE_CUT_11 ++ RE_CUT_12 ++ RE_CUT_13 ++ RE_CUT_14 ++ RE_CUT_15 ++ RE_CUT_16 ++ RE_CUT_17 ++ RE_CUT_18 ++ RE_CUT_19 ++ RE_CUT_20 ++ RE_CUT_21 ++ RE_CUT_22 ++ RE_CUT_23 ++ RE_CUT_24 ++ RE_CUT_25 ++ RE_CUT_26 ++ RE_CUT_27 ++ RE_CUT_28 ++ RE_CUT_29 ++ RE_CUT_30 ++ RE_CUT_31 ++ RE_CUT_32 ++ RE_CUT_33 ++ RE_CUT_34 ++ RE_CUT_35 ++ RE_CUT_36 ++ RE_CUT_37 ++ RE_CUT_38 ++ RE_CUT_39 ++ RE_CUT_40 ++ RE_CUT_41 ++ RE_CUT_42 ++ RE_CUT_43 ++ RE_CUT_44 ++ RE_CUT_45 ++ RE_CUT_46 ++ RE_CUT_47 ++ RE_CUT_48 ++ RE_CUT_49 ++ RE_CUT_50 ++ RE_CUT_51 ++ RE_CUT_52 ++ RE_CUT_53.

Example check_terrain_tests_pass : z_run check_terrain_tests = None.
Proof. vm_compute. reflexivity. Qed.
