(** The unit tests of test/unit_tests/test_body_soil.cpp, in binary32.
    Produced by tools/translate_geometry.py. *)
From Coq Require Import ZArith List Bool.
From Coq Require Import Floats.SpecFloat.
From Verif Require Import Outcome Num State Flt FltB ModelTypes ModelGeometry ModelBodyPos
  ModelUtils ModelRaster ModelProgram TestLang TestBinary32 TestGeoLang.
Import ListNotations.
Open Scope Z_scope.

Definition BS_UBS_1 : list bcmd := [
  BSet 11 10 None (Some (slit 0 1)) (Some (slit 1 1)) None None None None None None;
  BSet 10 10 None None None (Some (slit 1 1)) (Some (slit 2 1)) None None None None;
  BPush 0 10 10 (mkVec (slit 0 1) (slit 0 1) (slit 0 1)) (slit 1 1);
  BUpdate (mkVec (g_cell_xy test_grid) (slit 0 1) (slit 0 1)) (mkQuat (slit 10 1) (slit 0 1) (slit 0 1) (slit 0 1));
  BExp 11 10 None (Some (slit 1 1)) (Some (slit 2 1)) None None;
  BRec 0 0 11 10 (mkVec (slit 0 1) (slit 0 1) (slit 0 1)) (slit 1 1);
  BPose;
  BReset [] [(0, 11, 10)] [(0, 11, 10)]].

Definition BS_UBS_2 : list bcmd := [
  BSet 11 10 None (Some (slit 0 1)) (Some (slit 1 1)) None None None None None None;
  BSet 10 10 None None None None None None None (Some (slit 1 1)) (Some (slit 2 1));
  BPush 2 10 10 (mkVec (slit 0 1) (slit 0 1) (slit 0 1)) (slit 1 1);
  BUpdate (mkVec (g_cell_xy test_grid) (slit 0 1) (slit 0 1)) (mkQuat (slit 10 1) (slit 0 1) (slit 0 1) (slit 0 1));
  BExp 11 10 None (Some (slit 1 1)) (Some (slit 2 1)) None None;
  BRec 0 0 11 10 (mkVec (slit 0 1) (slit 0 1) (slit 0 1)) (slit 1 1);
  BPose;
  BReset [] [(0, 11, 10)] [(0, 11, 10)]].

Definition BS_UBS_3 : list bcmd := [
  BSet 11 10 None None None None None (Some (slit 0 1)) (Some (slit 1 1)) None None;
  BSet 10 10 None None None (Some (slit 1 1)) (Some (slit 2 1)) None None None None;
  BPush 0 10 10 (mkVec (slit 0 1) (slit 0 1) (slit 0 1)) (slit 1 1);
  BUpdate (mkVec (g_cell_xy test_grid) (slit 0 1) (slit 0 1)) (mkQuat (slit 10 1) (slit 0 1) (slit 0 1) (slit 0 1));
  BExp 11 10 None None None (Some (slit 1 1)) (Some (slit 2 1));
  BRec 0 2 11 10 (mkVec (slit 0 1) (slit 0 1) (slit 0 1)) (slit 1 1);
  BPose;
  BReset [] [(2, 11, 10)] [(2, 11, 10)]].

Definition BS_UBS_4 : list bcmd := [
  BSet 11 10 None None None None None (Some (slit 0 1)) (Some (slit 1 1)) None None;
  BSet 10 10 None None None None None None None (Some (slit 1 1)) (Some (slit 2 1));
  BPush 2 10 10 (mkVec (slit 0 1) (slit 0 1) (slit 0 1)) (slit 1 1);
  BUpdate (mkVec (g_cell_xy test_grid) (slit 0 1) (slit 0 1)) (mkQuat (slit 10 1) (slit 0 1) (slit 0 1) (slit 0 1));
  BExp 11 10 None None None (Some (slit 1 1)) (Some (slit 2 1));
  BRec 0 2 11 10 (mkVec (slit 0 1) (slit 0 1) (slit 0 1)) (slit 1 1);
  BPose;
  BReset [] [(2, 11, 10)] [(2, 11, 10)]].

Definition BS_UBS_5 : list bcmd := [
  BSet 10 11 None (Some (slit 0 1)) (Some (slit 1 1)) None None None None None None;
  BSet 11 10 None None None (Some (slit 1 1)) (Some (slit 2 1)) None None None None;
  BPush 0 11 10 (mkVec (slit 1 1) (slit 0 1) (slit 0 1)) (slit 1 1);
  BUpdate (mkVec (slit 0 1) (slit 0 1) (slit 0 1)) (mkQuat (slit 707107 6) (slit 0 1) (slit 0 1) (slit (-707107) 6));
  BExp 10 11 None (Some (slit 1 1)) (Some (slit 2 1)) None None;
  BRec 0 0 10 11 (mkVec (slit 1 1) (slit 0 1) (slit 0 1)) (slit 1 1);
  BPose;
  BReset [] [(0, 10, 11)] [(0, 10, 11)]].

Definition BS_UBS_6 : list bcmd := [
  BSet 11 11 None (Some (slit 0 1)) (Some (slit 1 1)) None None None None None None;
  BSet 11 10 None None None (Some (slit 1 1)) (Some (slit 2 1)) None None None None;
  BPush 0 11 10 (mkVec (slit 1 1) (slit 0 1) (slit 0 1)) (slit 1 1);
  BUpdate (mkVec (slit 0 1) (slit 0 1) (slit 0 1)) (mkQuat (slit 92388 5) (slit 0 1) (slit 0 1) (slit (-382683) 6));
  BExp 11 11 None (Some (slit 1 1)) (Some (slit 2 1)) None None;
  BRec 0 0 11 11 (mkVec (slit 1 1) (slit 0 1) (slit 0 1)) (slit 1 1);
  BPose;
  BReset [] [(0, 11, 11)] [(0, 11, 11)]].

Definition BS_UBS_7 : list bcmd := [
  BSet 12 11 None (Some (slit 0 1)) (Some (slit 1 1)) None None None None None None;
  BSet 11 10 None None None (Some (slit 1 1)) (Some (slit 2 1)) None None None None;
  BPush 0 11 10 (mkVec (slit 1 1) (slit 0 1) (slit 0 1)) (slit 1 1);
  BUpdate (mkVec (g_cell_xy test_grid) (slit 0 1) (slit 0 1)) (mkQuat (slit 92388 5) (slit 0 1) (slit 0 1) (slit (-382683) 6));
  BExp 12 11 None (Some (slit 1 1)) (Some (slit 2 1)) None None;
  BRec 0 0 12 11 (mkVec (slit 1 1) (slit 0 1) (slit 0 1)) (slit 1 1);
  BPose;
  BReset [] [(0, 12, 11)] [(0, 12, 11)]].

Definition BS_UBS_8 : list bcmd := [
  BSet 11 10 None None None (Some (slit 1 1)) (Some (slit 2 1)) None None None None;
  BPush 0 11 10 (mkVec (slit 1 1) (slit 0 1) (slit 0 1)) (slit 1 1);
  BUpdate (mkVec (slit 0 1) (slit 0 1) (slit 0 1)) (mkQuat (slit 0 1) (slit 0 1) (slit 10 1) (slit 0 1));
  BWarned;
  BExp 9 10 (Some (slit 1 1)) None None None None;
  BPose;
  BReset [(9, 10)] [] []].

Definition BS_UBS_9 : list bcmd := [
  BSet 10 10 None (Some (slit 0 1)) (Some (slit 1 1)) None None None None None None;
  BSet 11 10 None None None (Some (slit 1 1)) (Some (slit 2 1)) None None None None;
  BSet 12 10 None None None (Some (slit 1 1)) (Some (slit 3 1)) None None None None;
  BPush 0 11 10 (mkVec (slit 1 1) (slit 0 1) (slit 0 1)) (slit 1 1);
  BPush 0 12 10 (mkVec (slit 2 1) (slit 0 1) (slit 0 1)) (slit 2 1);
  BUpdate (mkVec (slit 0 1) (slit 0 1) (slit 0 1)) (mkQuat (slit 707107 6) (slit 0 1) (slit 707107 6) (slit 0 1));
  BExp 10 10 None (Some (slit 1 1)) (Some (slit 4 1)) None None;
  BRec 0 0 10 10 (mkVec (slit 1 1) (slit 0 1) (slit 0 1)) (slit 1 1);
  BRec 1 0 10 10 (mkVec (slit 2 1) (slit 0 1) (slit 0 1)) (slit 2 1);
  BPose;
  BReset [] [(0, 10, 10)] [(0, 10, 10)]].

Definition BS_UBS_10 : list bcmd := [
  BSet 10 10 None (Some (slit 0 1)) (Some (slit 1 1)) None None None None None None;
  BSet 11 10 None None None (Some (slit 1 1)) (Some (slit 2 1)) None None None None;
  BSet 12 10 None None None None None None None (Some (slit 1 1)) (Some (slit 3 1));
  BPush 0 11 10 (mkVec (slit 1 1) (slit 0 1) (slit 0 1)) (slit 1 1);
  BPush 2 12 10 (mkVec (slit 2 1) (slit 0 1) (slit 0 1)) (slit 2 1);
  BUpdate (mkVec (slit 0 1) (slit 0 1) (slit 0 1)) (mkQuat (slit 707107 6) (slit 0 1) (slit 707107 6) (slit 0 1));
  BExp 10 10 None (Some (slit 1 1)) (Some (slit 4 1)) None None;
  BRec 0 0 10 10 (mkVec (slit 1 1) (slit 0 1) (slit 0 1)) (slit 1 1);
  BRec 1 0 10 10 (mkVec (slit 2 1) (slit 0 1) (slit 0 1)) (slit 2 1);
  BPose;
  BReset [] [(0, 10, 10)] [(0, 10, 10)]].

Definition BS_UBS_11 : list bcmd := [
  BSet 10 10 None None None None None (Some (slit 0 1)) (Some (slit 1 1)) None None;
  BSet 11 10 None None None (Some (slit 1 1)) (Some (slit 2 1)) None None None None;
  BSet 12 10 None None None None None None None (Some (slit 1 1)) (Some (slit 3 1));
  BPush 0 11 10 (mkVec (slit 1 1) (slit 0 1) (slit 0 1)) (slit 1 1);
  BPush 2 12 10 (mkVec (slit 2 1) (slit 0 1) (slit 0 1)) (slit 2 1);
  BUpdate (mkVec (slit 0 1) (slit 0 1) (slit 0 1)) (mkQuat (slit 707107 6) (slit 0 1) (slit 707107 6) (slit 0 1));
  BExp 10 10 None None None (Some (slit 1 1)) (Some (slit 4 1));
  BRec 0 2 10 10 (mkVec (slit 1 1) (slit 0 1) (slit 0 1)) (slit 1 1);
  BRec 1 2 10 10 (mkVec (slit 2 1) (slit 0 1) (slit 0 1)) (slit 2 1);
  BPose;
  BReset [] [(2, 10, 10)] [(2, 10, 10)]].

Definition BS_UBS_12 : list bcmd := [
  BSet 10 10 None (Some (slit 0 1)) (Some (slit 1 1)) (Some (slit 1 1)) (Some (slit 15 2)) None None None None;
  BPush 0 10 10 (mkVec (slit 0 1) (slit 0 1) (slit 0 1)) (slit 5 2);
  BUpdate (mkVec (slit 0 1) (slit 0 1) (slit 0 1)) (mkQuat (slit 707107 6) (slit 0 1) (slit 707107 6) (slit 0 1));
  BExp 10 10 None (Some (slit 0 1)) (Some (slit 0 1)) None None;
  BRecs 0;
  BPose;
  BReset [] [(0, 10, 10)] [(0, 10, 10)]].

Definition BS_UBS_13 : list bcmd := [
  BSet 10 10 None (Some (slit 0 1)) (Some (slit 1 1)) (Some (slit 1 1)) (Some (slit 195 3)) None None None None;
  BPush 0 10 10 (mkVec (slit 0 1) (slit 0 1) (slit 0 1)) (slit 95 3);
  BUpdate (mkVec (slit 0 1) (slit 0 1) (slit 0 1)) (mkQuat (slit 707107 6) (slit 0 1) (slit 707107 6) (slit 0 1));
  BExp 10 10 None (Some (slit 1 1)) (Some (slit 2 1)) None None;
  BRec 0 0 10 10 (mkVec (slit 0 1) (slit 0 1) (slit 0 1)) (slit 1 1);
  BPose;
  BReset [] [(0, 10, 10)] [(0, 10, 10)]].

Definition BS_UBS_14 : list bcmd := [
  BSet 10 9 None (Some (slit 0 1)) (Some (slit 1 1)) None None None None None None;
  BSet 10 10 None (Some (slit 0 1)) (Some (slit 1 1)) None None None None None None;
  BSet 10 11 None (Some (slit 0 1)) (Some (slit 1 1)) None None None None None None;
  BSet 11 9 None (Some (slit 0 1)) (Some (slit 1 1)) None None None None None None;
  BSet 11 10 None (Some (slit 0 1)) (Some (slit 1 1)) None None None None None None;
  BSet 11 11 None (Some (slit 0 1)) (Some (slit 1 1)) None None None None None None;
  BSet 12 9 None (Some (slit 0 1)) (Some (slit 1 1)) None None None None None None;
  BSet 12 10 None (Some (slit 0 1)) (Some (slit 1 1)) None None None None None None;
  BSet 12 11 None (Some (slit 0 1)) (Some (slit 1 1)) None None None None None None;
  BSet 10 10 None None None (Some (slit 1 1)) (Some (slit 2 1)) None None None None;
  BPush 0 10 10 (mkVec (slit 0 1) (slit 0 1) (slit 0 1)) (slit 1 1);
  BUpdate (mkVec (g_cell_xy test_grid) (slit 1 2) (slit 0 1)) (mkQuat (slit 10 1) (slit 0 1) (slit 0 1) (slit 0 1));
  BExp 11 10 None (Some (slit 1 1)) (Some (slit 2 1)) None None;
  BRec 0 0 11 10 (mkVec (slit 0 1) (slit 0 1) (slit 0 1)) (slit 1 1);
  BPose;
  BSet 11 10 None (Some (slit 2 1)) (Some (slit 3 1)) (Some (slit 0 1)) (Some (slit 0 1)) None None None None;
  BSet 10 10 None None None (Some (slit 1 1)) (Some (slit 2 1)) None None None None;
  BRecI 10;
  BUpdate (mkVec (g_cell_xy test_grid) (slit 1 2) (slit 0 1)) (mkQuat (slit 10 1) (slit 0 1) (slit 0 1) (slit 0 1));
  BExp 12 10 None (Some (slit 1 1)) (Some (slit 2 1)) None None;
  BRec 0 0 12 10 (mkVec (slit 0 1) (slit 0 1) (slit 0 1)) (slit 1 1);
  BPose;
  BSet 12 10 None (Some (slit 2 1)) (Some (slit 3 1)) (Some (slit 0 1)) (Some (slit 0 1)) None None None None;
  BSet 10 10 None None None (Some (slit 1 1)) (Some (slit 2 1)) None None None None;
  BRecI 10;
  BUpdate (mkVec (g_cell_xy test_grid) (slit 1 2) (slit 0 1)) (mkQuat (slit 10 1) (slit 0 1) (slit 0 1) (slit 0 1));
  BExp 12 11 None (Some (slit 1 1)) (Some (slit 2 1)) None None;
  BRec 0 0 12 11 (mkVec (slit 0 1) (slit 0 1) (slit 0 1)) (slit 1 1);
  BPose;
  BSet 12 11 None (Some (slit 2 1)) (Some (slit 3 1)) (Some (slit 0 1)) (Some (slit 0 1)) None None None None;
  BSet 10 10 None None None (Some (slit 1 1)) (Some (slit 2 1)) None None None None;
  BRecI 10;
  BRecJ 10;
  BUpdate (mkVec (g_cell_xy test_grid) (slit 1 2) (slit 0 1)) (mkQuat (slit 10 1) (slit 0 1) (slit 0 1) (slit 0 1));
  BExp 11 11 None (Some (slit 1 1)) (Some (slit 2 1)) None None;
  BRec 0 0 11 11 (mkVec (slit 0 1) (slit 0 1) (slit 0 1)) (slit 1 1);
  BPose;
  BSet 11 11 None (Some (slit 2 1)) (Some (slit 3 1)) (Some (slit 0 1)) (Some (slit 0 1)) None None None None;
  BSet 10 10 None None None (Some (slit 1 1)) (Some (slit 2 1)) None None None None;
  BRecI 10;
  BRecJ 10;
  BUpdate (mkVec (g_cell_xy test_grid) (slit 1 2) (slit 0 1)) (mkQuat (slit 10 1) (slit 0 1) (slit 0 1) (slit 0 1));
  BExp 12 9 None (Some (slit 1 1)) (Some (slit 2 1)) None None;
  BRec 0 0 12 9 (mkVec (slit 0 1) (slit 0 1) (slit 0 1)) (slit 1 1);
  BPose;
  BSet 12 9 None (Some (slit 2 1)) (Some (slit 3 1)) (Some (slit 0 1)) (Some (slit 0 1)) None None None None;
  BSet 10 10 None None None (Some (slit 1 1)) (Some (slit 2 1)) None None None None;
  BRecI 10;
  BRecJ 10;
  BUpdate (mkVec (g_cell_xy test_grid) (slit 1 2) (slit 0 1)) (mkQuat (slit 10 1) (slit 0 1) (slit 0 1) (slit 0 1));
  BExp 11 9 None (Some (slit 1 1)) (Some (slit 2 1)) None None;
  BRec 0 0 11 9 (mkVec (slit 0 1) (slit 0 1) (slit 0 1)) (slit 1 1);
  BPose;
  BSet 11 9 None (Some (slit 2 1)) (Some (slit 3 1)) (Some (slit 0 1)) (Some (slit 0 1)) None None None None;
  BSet 10 10 None None None (Some (slit 1 1)) (Some (slit 2 1)) None None None None;
  BRecI 10;
  BRecJ 10;
  BUpdate (mkVec (g_cell_xy test_grid) (slit 1 2) (slit 0 1)) (mkQuat (slit 10 1) (slit 0 1) (slit 0 1) (slit 0 1));
  BExp 10 11 None (Some (slit 1 1)) (Some (slit 2 1)) None None;
  BRec 0 0 10 11 (mkVec (slit 0 1) (slit 0 1) (slit 0 1)) (slit 1 1);
  BPose;
  BSet 10 11 None (Some (slit 2 1)) (Some (slit 3 1)) (Some (slit 0 1)) (Some (slit 0 1)) None None None None;
  BSet 10 10 None None None (Some (slit 1 1)) (Some (slit 2 1)) None None None None;
  BRecJ 10;
  BUpdate (mkVec (g_cell_xy test_grid) (slit 1 2) (slit 0 1)) (mkQuat (slit 10 1) (slit 0 1) (slit 0 1) (slit 0 1));
  BExp 10 10 None (Some (slit 1 1)) (Some (slit 2 1)) None None;
  BRec 0 0 10 10 (mkVec (slit 0 1) (slit 0 1) (slit 0 1)) (slit 1 1);
  BPose;
  BSet 10 10 None (Some (slit 2 1)) (Some (slit 3 1)) (Some (slit 1 1)) (Some (slit 2 1)) None None None None;
  BUpdate (mkVec (g_cell_xy test_grid) (slit 1 2) (slit 0 1)) (mkQuat (slit 10 1) (slit 0 1) (slit 0 1) (slit 0 1));
  BExp 10 9 None (Some (slit 1 1)) (Some (slit 2 1)) None None;
  BRec 0 0 10 9 (mkVec (slit 0 1) (slit 0 1) (slit 0 1)) (slit 1 1);
  BPose;
  BReset [] [(0, 10, 9); (0, 10, 10); (0, 10, 11); (0, 11, 9); (0, 11, 10); (0, 11, 11); (0, 12, 9); (0, 12, 10); (0, 12, 11)] [(0, 10, 9)]].

Definition BS_UBS_15 : list bcmd := [
  BSet 9 8 None (Some (slit 0 1)) (Some (slit 1 1)) None None None None None None;
  BSet 9 9 None (Some (slit 0 1)) (Some (slit 1 1)) None None None None None None;
  BSet 9 10 None (Some (slit 0 1)) (Some (slit 1 1)) None None None None None None;
  BSet 10 8 None (Some (slit 0 1)) (Some (slit 1 1)) None None None None None None;
  BSet 10 9 None (Some (slit 0 1)) (Some (slit 1 1)) None None None None None None;
  BSet 10 10 None (Some (slit 0 1)) (Some (slit 1 1)) None None None None None None;
  BSet 11 8 None (Some (slit 0 1)) (Some (slit 1 1)) None None None None None None;
  BSet 11 9 None (Some (slit 0 1)) (Some (slit 1 1)) None None None None None None;
  BSet 11 10 None (Some (slit 0 1)) (Some (slit 1 1)) None None None None None None;
  BSet 10 10 None None None (Some (slit 1 1)) (Some (slit 2 1)) None None None None;
  BPush 0 10 10 (mkVec (slit 0 1) (slit 0 1) (slit 0 1)) (slit 1 1);
  BUpdate (mkVec (slit (-1) 2) (SFopp (g_cell_xy test_grid)) (slit 0 1)) (mkQuat (slit 10 1) (slit 0 1) (slit 0 1) (slit 0 1));
  BExp 10 9 None (Some (slit 1 1)) (Some (slit 2 1)) None None;
  BRec 0 0 10 9 (mkVec (slit 0 1) (slit 0 1) (slit 0 1)) (slit 1 1);
  BPose;
  BSet 10 9 None (Some (slit 2 1)) (Some (slit 3 1)) (Some (slit 0 1)) (Some (slit 0 1)) None None None None;
  BSet 10 10 None None None (Some (slit 1 1)) (Some (slit 2 1)) None None None None;
  BRecJ 10;
  BUpdate (mkVec (slit (-1) 2) (SFopp (g_cell_xy test_grid)) (slit 0 1)) (mkQuat (slit 10 1) (slit 0 1) (slit 0 1) (slit 0 1));
  BExp 10 8 None (Some (slit 1 1)) (Some (slit 2 1)) None None;
  BRec 0 0 10 8 (mkVec (slit 0 1) (slit 0 1) (slit 0 1)) (slit 1 1);
  BPose;
  BSet 10 8 None (Some (slit 2 1)) (Some (slit 3 1)) (Some (slit 0 1)) (Some (slit 0 1)) None None None None;
  BSet 10 10 None None None (Some (slit 1 1)) (Some (slit 2 1)) None None None None;
  BRecJ 10;
  BUpdate (mkVec (slit (-1) 2) (SFopp (g_cell_xy test_grid)) (slit 0 1)) (mkQuat (slit 10 1) (slit 0 1) (slit 0 1) (slit 0 1));
  BExp 9 8 None (Some (slit 1 1)) (Some (slit 2 1)) None None;
  BRec 0 0 9 8 (mkVec (slit 0 1) (slit 0 1) (slit 0 1)) (slit 1 1);
  BPose;
  BSet 9 8 None (Some (slit 2 1)) (Some (slit 3 1)) (Some (slit 0 1)) (Some (slit 0 1)) None None None None;
  BSet 10 10 None None None (Some (slit 1 1)) (Some (slit 2 1)) None None None None;
  BRecI 10;
  BRecJ 10;
  BUpdate (mkVec (slit (-1) 2) (SFopp (g_cell_xy test_grid)) (slit 0 1)) (mkQuat (slit 10 1) (slit 0 1) (slit 0 1) (slit 0 1));
  BExp 9 9 None (Some (slit 1 1)) (Some (slit 2 1)) None None;
  BRec 0 0 9 9 (mkVec (slit 0 1) (slit 0 1) (slit 0 1)) (slit 1 1);
  BPose;
  BSet 9 9 None (Some (slit 2 1)) (Some (slit 3 1)) (Some (slit 0 1)) (Some (slit 0 1)) None None None None;
  BSet 10 10 None None None (Some (slit 1 1)) (Some (slit 2 1)) None None None None;
  BRecI 10;
  BRecJ 10;
  BUpdate (mkVec (slit (-1) 2) (SFopp (g_cell_xy test_grid)) (slit 0 1)) (mkQuat (slit 10 1) (slit 0 1) (slit 0 1) (slit 0 1));
  BExp 11 8 None (Some (slit 1 1)) (Some (slit 2 1)) None None;
  BRec 0 0 11 8 (mkVec (slit 0 1) (slit 0 1) (slit 0 1)) (slit 1 1);
  BPose;
  BSet 11 8 None (Some (slit 2 1)) (Some (slit 3 1)) (Some (slit 0 1)) (Some (slit 0 1)) None None None None;
  BSet 10 10 None None None (Some (slit 1 1)) (Some (slit 2 1)) None None None None;
  BRecI 10;
  BRecJ 10;
  BUpdate (mkVec (slit (-1) 2) (SFopp (g_cell_xy test_grid)) (slit 0 1)) (mkQuat (slit 10 1) (slit 0 1) (slit 0 1) (slit 0 1));
  BExp 11 9 None (Some (slit 1 1)) (Some (slit 2 1)) None None;
  BRec 0 0 11 9 (mkVec (slit 0 1) (slit 0 1) (slit 0 1)) (slit 1 1);
  BPose;
  BSet 11 9 None (Some (slit 2 1)) (Some (slit 3 1)) (Some (slit 0 1)) (Some (slit 0 1)) None None None None;
  BSet 10 10 None None None (Some (slit 1 1)) (Some (slit 2 1)) None None None None;
  BRecI 10;
  BRecJ 10;
  BUpdate (mkVec (slit (-1) 2) (SFopp (g_cell_xy test_grid)) (slit 0 1)) (mkQuat (slit 10 1) (slit 0 1) (slit 0 1) (slit 0 1));
  BExp 9 10 None (Some (slit 1 1)) (Some (slit 2 1)) None None;
  BRec 0 0 9 10 (mkVec (slit 0 1) (slit 0 1) (slit 0 1)) (slit 1 1);
  BPose;
  BSet 9 10 None (Some (slit 2 1)) (Some (slit 3 1)) (Some (slit 0 1)) (Some (slit 0 1)) None None None None;
  BSet 10 10 None None None (Some (slit 1 1)) (Some (slit 2 1)) None None None None;
  BRecI 10;
  BUpdate (mkVec (slit (-1) 2) (SFopp (g_cell_xy test_grid)) (slit 0 1)) (mkQuat (slit 10 1) (slit 0 1) (slit 0 1) (slit 0 1));
  BExp 10 10 None (Some (slit 1 1)) (Some (slit 2 1)) None None;
  BRec 0 0 10 10 (mkVec (slit 0 1) (slit 0 1) (slit 0 1)) (slit 1 1);
  BPose;
  BSet 10 10 None (Some (slit 2 1)) (Some (slit 3 1)) (Some (slit 1 1)) (Some (slit 2 1)) None None None None;
  BUpdate (mkVec (slit (-1) 2) (SFopp (g_cell_xy test_grid)) (slit 0 1)) (mkQuat (slit 10 1) (slit 0 1) (slit 0 1) (slit 0 1));
  BExp 11 10 None (Some (slit 1 1)) (Some (slit 2 1)) None None;
  BRec 0 0 11 10 (mkVec (slit 0 1) (slit 0 1) (slit 0 1)) (slit 1 1);
  BPose;
  BReset [] [(0, 9, 8); (0, 9, 9); (0, 9, 10); (0, 10, 8); (0, 10, 9); (0, 10, 10); (0, 11, 8); (0, 11, 9); (0, 11, 10)] [(0, 11, 10)]].

Definition BS_UBS_16 : list bcmd := [
  BSet 10 9 None (Some (slit 2 1)) (Some (slit 3 1)) None None None None None None;
  BSet 10 10 None (Some (slit 2 1)) (Some (slit 3 1)) None None None None None None;
  BSet 10 11 None (Some (slit 2 1)) (Some (slit 3 1)) None None None None None None;
  BSet 11 9 None (Some (slit 2 1)) (Some (slit 3 1)) None None None None None None;
  BSet 11 10 None (Some (slit 2 1)) (Some (slit 3 1)) None None None None None None;
  BSet 11 11 None (Some (slit 2 1)) (Some (slit 3 1)) None None None None None None;
  BSet 12 9 None (Some (slit 2 1)) (Some (slit 3 1)) None None None None None None;
  BSet 12 10 None (Some (slit 2 1)) (Some (slit 3 1)) None None None None None None;
  BSet 12 11 None (Some (slit 2 1)) (Some (slit 3 1)) None None None None None None;
  BSet 10 10 None None None (Some (slit 1 1)) (Some (slit 2 1)) None None None None;
  BSet 10 9 None (Some (slit 0 1)) (Some (slit 1 1)) None None None None None None;
  BPush 0 10 10 (mkVec (slit 0 1) (slit 0 1) (slit 0 1)) (slit 1 1);
  BUpdate (mkVec (g_cell_xy test_grid) (slit 1 2) (slit 0 1)) (mkQuat (slit 10 1) (slit 0 1) (slit 0 1) (slit 0 1));
  BExp 10 9 None (Some (slit 1 1)) (Some (slit 2 1)) None None;
  BRec 0 0 10 9 (mkVec (slit 0 1) (slit 0 1) (slit 0 1)) (slit 1 1);
  BPose;
  BReset [] [(0, 10, 9); (0, 10, 10); (0, 10, 11); (0, 11, 9); (0, 11, 10); (0, 11, 11); (0, 12, 9); (0, 12, 10); (0, 12, 11)] [(0, 10, 9)]].

Definition BS_UBS_17 : list bcmd := [
  BSet 10 9 None (Some (slit 2 1)) (Some (slit 3 1)) None None None None None None;
  BSet 10 10 None (Some (slit 2 1)) (Some (slit 3 1)) None None None None None None;
  BSet 10 11 None (Some (slit 2 1)) (Some (slit 3 1)) None None None None None None;
  BSet 11 9 None (Some (slit 2 1)) (Some (slit 3 1)) None None None None None None;
  BSet 11 10 None (Some (slit 2 1)) (Some (slit 3 1)) None None None None None None;
  BSet 11 11 None (Some (slit 2 1)) (Some (slit 3 1)) None None None None None None;
  BSet 12 9 None (Some (slit 2 1)) (Some (slit 3 1)) None None None None None None;
  BSet 12 10 None (Some (slit 2 1)) (Some (slit 3 1)) None None None None None None;
  BSet 12 11 None (Some (slit 2 1)) (Some (slit 3 1)) None None None None None None;
  BSet 10 10 None None None (Some (slit 1 1)) (Some (slit 2 1)) None None None None;
  BSet 11 9 None (Some (slit (-2) 1)) (Some (slit (-1) 1)) None None None None None None;
  BPush 0 10 10 (mkVec (slit 0 1) (slit 0 1) (slit 0 1)) (slit 1 1);
  BUpdate (mkVec (g_cell_xy test_grid) (slit 1 2) (slit 0 1)) (mkQuat (slit 10 1) (slit 0 1) (slit 0 1) (slit 0 1));
  BExp 11 9 None (Some (slit (-1) 1)) (Some (slit 0 1)) None None;
  BRec 0 0 11 9 (mkVec (slit 0 1) (slit 0 1) (slit 0 1)) (slit 1 1);
  BPose;
  BReset [] [(0, 10, 9); (0, 10, 10); (0, 10, 11); (0, 11, 9); (0, 11, 10); (0, 11, 11); (0, 12, 9); (0, 12, 10); (0, 12, 11)] [(0, 11, 9)]].

Definition update_body_soil_tests : list bcmd :=
  BS_UBS_1
  ++ BS_UBS_2
  ++ BS_UBS_3
  ++ BS_UBS_4
  ++ BS_UBS_5
  ++ BS_UBS_6
  ++ BS_UBS_7
  ++ BS_UBS_8
  ++ BS_UBS_9
  ++ BS_UBS_10
  ++ BS_UBS_11
  ++ BS_UBS_12
  ++ BS_UBS_13
  ++ BS_UBS_14
  ++ BS_UBS_15
  ++ BS_UBS_16
  ++ BS_UBS_17.

Example update_body_soil_binary32 : bs_run update_body_soil_tests = None.
Proof. vm_cast_no_check (@eq_refl (option nat) None). Qed.
