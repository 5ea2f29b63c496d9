(** test/unit_tests/test_relax.cpp:513-909, TEST RelaxUnstableTerrainCell. Produced by tools/translate_tests.py. *)
From Coq Require Import ZArith List.
From Verif Require Import Outcome Num State ModelBodyPos TestLang.
Import ListNotations.
Open Scope Z_scope.

Definition RE_RUT_1 : list cmd := [
  SetT 10 14 40000;
  SetT 10 15 10000;
  RelaxUT 40 10000 10 14 10 15;
  ExpT 10 14 30000;
  ExpT 10 15 20000;
  ExpRecs 0%nat;
  Reset [(10, 14); (10, 15)] [] []].

Definition RE_RUT_2 : list cmd := [
  SetH 10 15 (Some (-80000)) (Some (-30000)) (Some (-10000)) None None None None None None;
  RelaxUT 10 10000 10 14 10 15;
  ExpT 10 14 (-40000);
  ExpT 10 15 (-40000);
  ExpRecs 0%nat;
  Reset [(10, 14); (10, 15)] [(0, 10, 15)] []].

Definition RE_RUT_3 : list cmd := [
  SetH 10 15 (Some (-80000)) (Some (-50000)) (Some (-20000)) None None None None None None;
  RelaxUT 10 10000 10 14 10 15;
  ExpT 10 14 (-30000);
  ExpT 10 15 (-50000);
  ExpRecs 0%nat;
  Reset [(10, 14); (10, 15)] [(0, 10, 15)] []].

Definition RE_RUT_4 : list cmd := [
  SetH 10 15 (Some (-40000)) (Some (-40000)) (Some (-20000)) None None None None None None;
  RelaxUT 14 10000 10 14 10 15;
  ExpT 10 14 (-10000);
  ExpH 10 15 (Some (-40000)) (Some (-20000)) (Some (-10000)) None None;
  ExpRec 0%nat 0 10 15 0 50000 (-20000) 10000;
  ExpRecs 1%nat;
  Reset [(10, 14); (10, 15)] [(0, 10, 15)] [(0, 10, 15)]].

Definition RE_RUT_5 : list cmd := [
  SetH 10 15 (Some (-70000)) (Some (-20000)) (Some (-10000)) (Some (-10000)) (Some 30000) None None None None;
  Push 0 10 15 0 50000 (-10000) 40000;
  RelaxUT 10 10000 10 14 10 15;
  ExpT 10 14 (-30000);
  ExpH 10 15 (Some (-40000)) (Some (-10000)) (Some 30000) None None;
  ExpRecs 1%nat;
  Reset [(10, 14); (10, 15)] [(0, 10, 15)] [(0, 10, 15)]].

Definition RE_RUT_6 : list cmd := [
  SetH 10 15 (Some (-80000)) (Some (-70000)) (Some (-50000)) (Some (-50000)) (Some (-30000)) None None None None;
  Push 0 10 15 0 50000 (-50000) 20000;
  RelaxUT 10 10000 10 14 10 15;
  ExpT 10 14 (-10000);
  ExpH 10 15 (Some (-70000)) (Some (-50000)) (Some (-30000)) None None;
  ExpRecs 1%nat;
  Reset [(10, 14); (10, 15)] [(0, 10, 15)] [(0, 10, 15)]].

Definition RE_RUT_7 : list cmd := [
  SetH 10 15 (Some (-80000)) (Some (-80000)) (Some (-50000)) (Some (-50000)) (Some (-30000)) None None None None;
  Push 0 10 15 0 50000 (-50000) 20000;
  RelaxUT 13 10000 10 14 10 15;
  ExpT 10 14 (-10000);
  ExpH 10 15 (Some (-80000)) (Some (-50000)) (Some (-20000)) None None;
  ExpRec 1%nat 0 10 15 0 50000 (-50000) 10000;
  ExpRecs 2%nat;
  Reset [(10, 14); (10, 15)] [(0, 10, 15)] [(0, 10, 15)]].

Definition RE_RUT_8 : list cmd := [
  SetH 10 15 (Some (-60000)) None None None None (Some 0) (Some 30000) None None;
  RelaxUT 20 10000 10 14 10 15;
  ExpT 10 14 (-30000);
  ExpT 10 15 (-30000);
  ExpRecs 0%nat;
  Reset [(10, 14); (10, 15)] [(2, 10, 15)] []].

Definition RE_RUT_9 : list cmd := [
  SetH 10 15 (Some (-60000)) None None None None (Some (-40000)) (Some 30000) None None;
  RelaxUT 20 10000 10 14 10 15;
  ExpT 10 14 (-20000);
  ExpT 10 15 (-40000);
  ExpRecs 0%nat;
  Reset [(10, 14); (10, 15)] [(2, 10, 15)] []].

Definition RE_RUT_10 : list cmd := [
  SetH 10 15 (Some (-40000)) None None None None (Some (-40000)) (Some (-30000)) None None;
  RelaxUT 22 10000 10 14 10 15;
  ExpT 10 14 (-10000);
  ExpH 10 15 (Some (-40000)) None None (Some (-30000)) (Some (-20000));
  ExpRec 0%nat 2 10 15 0 50000 (-30000) 10000;
  ExpRecs 1%nat;
  Reset [(10, 14); (10, 15)] [(2, 10, 15)] [(2, 10, 15)]].

Definition RE_RUT_11 : list cmd := [
  SetH 10 15 (Some (-30000)) None None None None (Some 0) (Some 30000) (Some 30000) (Some 50000);
  Push 2 10 15 0 50000 30000 20000;
  RelaxUT 20 10000 10 14 10 15;
  ExpT 10 14 (-10000);
  ExpH 10 15 (Some (-20000)) None None (Some 30000) (Some 50000);
  ExpRecs 1%nat;
  Reset [(10, 14); (10, 15)] [(2, 10, 15)] [(2, 10, 15)]].

Definition RE_RUT_12 : list cmd := [
  SetH 10 15 (Some (-80000)) None None None None (Some (-70000)) (Some (-50000)) (Some (-50000)) (Some (-30000));
  Push 2 10 15 0 50000 (-50000) 20000;
  RelaxUT 20 10000 10 14 10 15;
  ExpT 10 14 (-10000);
  ExpH 10 15 (Some (-70000)) None None (Some (-50000)) (Some (-30000));
  ExpRecs 1%nat;
  Reset [(10, 14); (10, 15)] [(2, 10, 15)] [(2, 10, 15)]].

Definition RE_RUT_13 : list cmd := [
  SetH 10 15 (Some (-80000)) None None None None (Some (-80000)) (Some (-50000)) (Some (-50000)) (Some (-30000));
  Push 2 10 15 0 50000 (-50000) 20000;
  RelaxUT 21 10000 10 14 10 15;
  ExpT 10 14 (-10000);
  ExpH 10 15 (Some (-80000)) None None (Some (-50000)) (Some (-20000));
  ExpRec 1%nat 2 10 15 0 50000 (-50000) 10000;
  ExpRecs 2%nat;
  Reset [(10, 14); (10, 15)] [(2, 10, 15)] [(2, 10, 15)]].

Definition RE_RUT_14 : list cmd := [
  SetH 10 15 (Some (-50000)) (Some (-10000)) (Some 0) None None (Some 20000) (Some 40000) None None;
  RelaxUT 30 10000 10 14 10 15;
  ExpT 10 14 (-20000);
  ExpT 10 15 (-30000);
  ExpRecs 0%nat;
  Reset [(10, 14); (10, 15)] [(0, 10, 15); (2, 10, 15)] []].

Definition RE_RUT_15 : list cmd := [
  SetH 10 15 (Some (-80000)) (Some (-70000)) (Some (-60000)) None None (Some (-40000)) (Some (-30000)) None None;
  RelaxUT 30 10000 10 14 10 15;
  ExpT 10 14 (-10000);
  ExpT 10 15 (-70000);
  ExpRecs 0%nat;
  Reset [(10, 14); (10, 15)] [(0, 10, 15); (2, 10, 15)] []].

Definition RE_RUT_16 : list cmd := [
  SetH 10 15 (Some (-80000)) (Some (-80000)) (Some (-60000)) None None (Some 10000) (Some 30000) None None;
  RelaxUT 34 10000 10 14 10 15;
  ExpT 10 14 (-30000);
  ExpH 10 15 (Some (-80000)) (Some (-60000)) (Some (-30000)) None None;
  ExpRec 0%nat 0 10 15 0 50000 (-60000) 30000;
  ExpRecs 1%nat;
  Reset [(10, 14); (10, 15)] [(0, 10, 15); (2, 10, 15)] [(0, 10, 15)]].

Definition RE_RUT_17 : list cmd := [
  SetH 10 15 (Some (-80000)) (Some (-80000)) (Some (-60000)) None None (Some (-40000)) (Some 30000) None None;
  RelaxUT 34 10000 10 14 10 15;
  ExpT 10 14 (-20000);
  ExpH 10 15 (Some (-80000)) (Some (-60000)) (Some (-40000)) None None;
  ExpRec 0%nat 0 10 15 0 50000 (-60000) 20000;
  ExpRecs 1%nat;
  Reset [(10, 14); (10, 15)] [(0, 10, 15); (2, 10, 15)] [(0, 10, 15)]].

Definition RE_RUT_18 : list cmd := [
  SetH 10 15 (Some (-80000)) (Some (-80000)) (Some (-60000)) (Some (-60000)) (Some (-40000)) (Some (-40000)) (Some (-30000)) None None;
  Push 0 10 15 0 50000 (-60000) 20000;
  RelaxUT 32 10000 10 14 10 15;
  ExpT 10 14 (-10000);
  ExpH 10 15 (Some (-80000)) (Some (-60000)) (Some (-40000)) (Some (-30000)) (Some (-20000));
  ExpRec 1%nat 2 10 15 0 50000 (-30000) 10000;
  ExpRecs 2%nat;
  Reset [(10, 14); (10, 15)] [(0, 10, 15); (2, 10, 15)] [(0, 10, 15); (2, 10, 15)]].

Definition RE_RUT_19 : list cmd := [
  SetH 10 15 (Some (-80000)) (Some (-80000)) (Some (-40000)) (Some (-40000)) (Some (-30000)) (Some 40000) (Some 70000) (Some 70000) (Some 90000);
  Push 0 10 15 0 50000 (-40000) 10000;
  Push 2 10 15 0 50000 70000 20000;
  RelaxUT 33 10000 10 14 10 15;
  ExpT 10 14 (-10000);
  ExpH 10 15 (Some (-80000)) (Some (-40000)) (Some (-20000)) (Some 70000) (Some 90000);
  ExpRec 2%nat 0 10 15 0 50000 (-40000) 10000;
  ExpRecs 3%nat;
  Reset [(10, 14); (10, 15)] [(0, 10, 15); (2, 10, 15)] [(0, 10, 15); (2, 10, 15)]].

Definition RE_RUT_20 : list cmd := [
  SetH 10 15 (Some (-80000)) (Some (-80000)) (Some (-60000)) (Some (-60000)) (Some (-50000)) (Some (-40000)) (Some (-30000)) (Some (-30000)) (Some (-20000));
  Push 0 10 15 0 50000 (-60000) 10000;
  Push 2 10 15 0 50000 (-30000) 10000;
  RelaxUT 33 10000 10 14 10 15;
  ExpT 10 14 (-10000);
  ExpH 10 15 (Some (-80000)) (Some (-60000)) (Some (-40000)) (Some (-30000)) (Some (-20000));
  ExpRec 2%nat 0 10 15 0 50000 (-60000) 10000;
  ExpRecs 3%nat;
  Reset [(10, 14); (10, 15)] [(0, 10, 15); (2, 10, 15)] [(0, 10, 15); (2, 10, 15)]].

Definition RE_RUT_21 : list cmd := [
  SetH 10 15 (Some (-80000)) (Some (-80000)) (Some (-60000)) (Some (-60000)) (Some (-40000)) (Some (-40000)) (Some (-30000)) (Some (-30000)) (Some (-20000));
  Push 0 10 15 0 50000 (-60000) 20000;
  Push 2 10 15 0 50000 (-30000) 10000;
  RelaxUT 31 10000 10 14 10 15;
  ExpT 10 14 (-10000);
  ExpH 10 15 (Some (-80000)) (Some (-60000)) (Some (-40000)) (Some (-30000)) (Some (-10000));
  ExpRec 2%nat 2 10 15 0 50000 (-30000) 10000;
  ExpRecs 3%nat;
  Reset [(10, 14); (10, 15)] [(0, 10, 15); (2, 10, 15)] [(0, 10, 15); (2, 10, 15)]].

Definition RE_RUT_22 : list cmd := [
  SetH 10 15 (Some (-80000)) (Some (-10000)) (Some 0) None None (Some (-30000)) (Some (-20000)) None None;
  RelaxUT 30 10000 10 14 10 15;
  ExpT 10 14 (-40000);
  ExpT 10 15 (-40000);
  ExpRecs 0%nat;
  Reset [(10, 14); (10, 15)] [(0, 10, 15); (2, 10, 15)] []].

Definition RE_RUT_23 : list cmd := [
  SetH 10 15 (Some (-80000)) (Some (-40000)) (Some (-30000)) None None (Some (-70000)) (Some (-60000)) None None;
  RelaxUT 30 10000 10 14 10 15;
  ExpT 10 14 (-10000);
  ExpT 10 15 (-70000);
  ExpRecs 0%nat;
  Reset [(10, 14); (10, 15)] [(0, 10, 15); (2, 10, 15)] []].

Definition RE_RUT_24 : list cmd := [
  SetH 10 15 (Some (-80000)) (Some (-20000)) (Some 30000) None None (Some (-80000)) (Some (-60000)) None None;
  RelaxUT 32 10000 10 14 10 15;
  ExpT 10 14 (-30000);
  ExpH 10 15 (Some (-80000)) None None (Some (-60000)) (Some (-30000));
  ExpRec 0%nat 2 10 15 0 50000 (-60000) 30000;
  ExpRecs 1%nat;
  Reset [(10, 14); (10, 15)] [(0, 10, 15); (2, 10, 15)] [(2, 10, 15)]].

Definition RE_RUT_25 : list cmd := [
  SetH 10 15 (Some (-80000)) (Some (-30000)) (Some 30000) None None (Some (-80000)) (Some (-40000)) None None;
  RelaxUT 32 10000 10 14 10 15;
  ExpT 10 14 (-10000);
  ExpH 10 15 (Some (-80000)) None None (Some (-40000)) (Some (-30000));
  ExpRec 0%nat 2 10 15 0 50000 (-40000) 10000;
  ExpRecs 1%nat;
  Reset [(10, 14); (10, 15)] [(0, 10, 15); (2, 10, 15)] [(2, 10, 15)]].

Definition RE_RUT_26 : list cmd := [
  SetH 10 15 (Some (-80000)) (Some (-60000)) (Some (-40000)) None None (Some (-80000)) (Some (-70000)) (Some (-70000)) (Some (-60000));
  Push 2 10 15 0 50000 (-70000) 10000;
  RelaxUT 34 10000 10 14 10 15;
  ExpT 10 14 (-20000);
  ExpH 10 15 (Some (-80000)) (Some (-40000)) (Some (-20000)) (Some (-70000)) (Some (-60000));
  ExpRec 1%nat 0 10 15 0 50000 (-40000) 20000;
  ExpRecs 2%nat;
  Reset [(10, 14); (10, 15)] [(0, 10, 15); (2, 10, 15)] [(0, 10, 15); (2, 10, 15)]].

Definition RE_RUT_27 : list cmd := [
  SetH 10 15 (Some (-80000)) (Some (-20000)) (Some (-10000)) (Some (-10000)) (Some 50000) (Some (-80000)) (Some (-70000)) (Some (-70000)) (Some (-60000));
  Push 0 10 15 0 50000 (-10000) 60000;
  Push 2 10 15 0 50000 (-70000) 10000;
  RelaxUT 31 10000 10 14 10 15;
  ExpT 10 14 (-30000);
  ExpH 10 15 (Some (-80000)) (Some (-10000)) (Some 50000) (Some (-70000)) (Some (-30000));
  ExpRec 2%nat 2 10 15 0 50000 (-70000) 30000;
  ExpRecs 3%nat;
  Reset [(10, 14); (10, 15)] [(0, 10, 15); (2, 10, 15)] [(0, 10, 15); (2, 10, 15)]].

Definition RE_RUT_28 : list cmd := [
  SetH 10 15 (Some (-80000)) (Some (-50000)) (Some (-40000)) (Some (-40000)) (Some 50000) (Some (-80000)) (Some (-70000)) (Some (-70000)) (Some (-60000));
  Push 0 10 15 0 50000 (-40000) 90000;
  Push 2 10 15 0 50000 (-70000) 10000;
  RelaxUT 31 10000 10 14 10 15;
  ExpT 10 14 (-10000);
  ExpH 10 15 (Some (-80000)) (Some (-40000)) (Some 50000) (Some (-70000)) (Some (-50000));
  ExpRec 2%nat 2 10 15 0 50000 (-70000) 10000;
  ExpRecs 3%nat;
  Reset [(10, 14); (10, 15)] [(0, 10, 15); (2, 10, 15)] [(0, 10, 15); (2, 10, 15)]].

Definition RE_RUT_29 : list cmd := [
  SetH 10 15 (Some (-80000)) (Some (-50000)) (Some (-40000)) (Some (-40000)) (Some (-30000)) (Some (-80000)) (Some (-70000)) (Some (-70000)) (Some (-50000));
  Push 0 10 15 0 50000 (-40000) 10000;
  Push 2 10 15 0 50000 (-70000) 20000;
  RelaxUT 33 10000 10 14 10 15;
  ExpT 10 14 (-10000);
  ExpH 10 15 (Some (-80000)) (Some (-40000)) (Some (-20000)) (Some (-70000)) (Some (-50000));
  ExpRec 2%nat 0 10 15 0 50000 (-40000) 10000;
  ExpRecs 3%nat;
  Reset [(10, 14); (10, 15)] [(0, 10, 15); (2, 10, 15)] [(0, 10, 15); (2, 10, 15)]].

Definition relax_terrain_cell_tests : list cmd :=
  RE_RUT_1 ++ RE_RUT_2 ++ RE_RUT_3 ++ RE_RUT_4 ++ RE_RUT_5 ++ RE_RUT_6 ++ RE_RUT_7 ++ RE_RUT_8 ++ RE_RUT_9 ++ RE_RUT_10 ++ RE_RUT_11 ++ RE_RUT_12 ++ RE_RUT_13 ++ RE_RUT_14 ++ RE_RUT_15 ++ RE_RUT_16 ++ RE_RUT_17 ++ RE_RUT_18 ++ RE_RUT_19 ++ RE_RUT_20 ++ RE_RUT_21 ++ RE_RUT_22 ++ RE_RUT_23 ++ RE_RUT_24 ++ RE_RUT_25 ++ RE_RUT_26 ++ RE_RUT_27 ++ RE_RUT_28 ++ RE_RUT_29.

Example relax_terrain_cell_tests_pass : z_run relax_terrain_cell_tests = None.
Proof. vm_compute. reflexivity. Qed.
