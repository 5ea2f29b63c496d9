(** test/unit_tests/test_intersecting_cells.cpp:22-353, TEST MoveBodySoil. Produced by tools/translate_tests.py. *)
From Coq Require Import ZArith List.
From Verif Require Import Outcome Num State ModelBodyPos TestLang.
Import ListNotations.
Open Scope Z_scope.

Definition IC_MBS_1 : list cmd := [
  SetH 10 15 None (Some 30000) (Some 70000) (Some 70000) (Some 90000) (Some (-20000)) (Some 0) (Some 0) (Some 90000);
  Push 0 10 15 0 50000 70000 20000;
  Push 2 10 15 0 50000 0 90000;
  MoveBS 2 10 15 30000 5 7 60000 false;
  ExpWall false;
  ExpWalkH 0;
  ExpT 5 7 60000;
  ExpRecs 2%nat;
  Reset [(5, 7)] [(0, 10, 15); (2, 10, 15)] [(0, 10, 15); (2, 10, 15)]].

Definition IC_MBS_2 : list cmd := [
  SetH 10 15 None (Some 30000) (Some 70000) (Some 70000) (Some 90000) (Some (-20000)) (Some 0) (Some 0) (Some 90000);
  Push 0 10 15 0 50000 70000 20000;
  Push 2 10 15 0 50000 0 90000;
  SetH 5 7 None (Some 0) (Some 30000) None None None None None None;
  MoveBS 2 10 15 30000 5 7 60000 false;
  ExpWall true;
  ExpWalkH 60000;
  ExpRecs 2%nat;
  Reset [] [(0, 5, 7); (0, 10, 15); (2, 10, 15)] [(0, 10, 15); (2, 10, 15)]].

Definition IC_MBS_3 : list cmd := [
  SetH 10 15 None (Some 30000) (Some 70000) (Some 70000) (Some 90000) (Some (-20000)) (Some 0) (Some 0) (Some 90000);
  Push 0 10 15 0 50000 70000 20000;
  Push 2 10 15 0 50000 0 90000;
  SetH 5 7 None (Some 10000) (Some 20000) None None None None None None;
  MoveBS 2 10 15 30000 5 7 60000 false;
  ExpWall false;
  ExpWalkH 0;
  ExpT 5 7 60000;
  ExpRecs 2%nat;
  Reset [(5, 7)] [(0, 5, 7); (0, 10, 15); (2, 10, 15)] [(0, 10, 15); (2, 10, 15)]].

Definition IC_MBS_4 : list cmd := [
  SetH 10 15 None (Some 30000) (Some 70000) (Some 70000) (Some 90000) (Some (-20000)) (Some 0) (Some 0) (Some 90000);
  Push 0 10 15 0 50000 70000 20000;
  Push 2 10 15 0 50000 0 90000;
  SetH 5 7 None (Some 0) (Some 20000) None None None None None None;
  MoveBS 2 10 15 30000 5 7 60000 false;
  ExpWall false;
  ExpWalkH 0;
  ExpH 5 7 None (Some 20000) (Some 80000) None None;
  ExpRec 2%nat 0 5 7 (-50000) (-30000) 20000 60000;
  ExpRecs 3%nat;
  Reset [] [(0, 5, 7); (0, 10, 15); (2, 10, 15)] [(0, 5, 7); (0, 10, 15); (2, 10, 15)]].

Definition IC_MBS_5 : list cmd := [
  SetH 10 15 None (Some 30000) (Some 70000) (Some 70000) (Some 90000) (Some (-20000)) (Some 0) (Some 0) (Some 90000);
  Push 0 10 15 0 50000 70000 20000;
  Push 2 10 15 0 50000 0 90000;
  SetH 5 7 None (Some 0) (Some 10000) (Some 10000) (Some 40000) None None None None;
  Push 0 5 7 (-50000) (-30000) 10000 30000;
  MoveBS 2 10 15 30000 5 7 60000 false;
  ExpWall false;
  ExpWalkH 0;
  ExpH 5 7 None (Some 10000) (Some 100000) None None;
  ExpRec 3%nat 0 5 7 (-50000) (-30000) 10000 60000;
  ExpRecs 4%nat;
  Reset [] [(0, 5, 7); (0, 10, 15); (2, 10, 15)] [(0, 5, 7); (0, 10, 15); (2, 10, 15)]].

Definition IC_MBS_6 : list cmd := [
  SetH 10 15 None (Some 30000) (Some 70000) (Some 70000) (Some 90000) (Some (-20000)) (Some 0) (Some 0) (Some 90000);
  Push 0 10 15 0 50000 70000 20000;
  Push 2 10 15 0 50000 0 90000;
  SetH 5 7 None None None None None (Some 0) (Some 60000) (Some 60000) (Some 70000);
  Push 2 5 7 (-50000) (-30000) 60000 10000;
  MoveBS 2 10 15 30000 5 7 60000 false;
  ExpWall true;
  ExpWalkH 60000;
  ExpH 5 7 None None None (Some 60000) (Some 70000);
  ExpRecs 3%nat;
  Reset [] [(2, 5, 7); (0, 10, 15); (2, 10, 15)] [(2, 5, 7); (0, 10, 15); (2, 10, 15)]].

Definition IC_MBS_7 : list cmd := [
  SetH 10 15 None (Some 30000) (Some 70000) (Some 70000) (Some 90000) (Some (-20000)) (Some 0) (Some 0) (Some 90000);
  Push 0 10 15 0 50000 70000 20000;
  Push 2 10 15 0 50000 0 90000;
  SetH 5 7 None None None None None (Some 30000) (Some 60000) None None;
  MoveBS 2 10 15 30000 5 7 60000 false;
  ExpWall false;
  ExpWalkH 0;
  ExpT 5 7 60000;
  ExpRecs 2%nat;
  Reset [(5, 7)] [(2, 5, 7); (0, 10, 15); (2, 10, 15)] [(0, 10, 15); (2, 10, 15)]].

Definition IC_MBS_8 : list cmd := [
  SetH 10 15 None (Some 30000) (Some 70000) (Some 70000) (Some 90000) (Some (-20000)) (Some 0) (Some 0) (Some 90000);
  Push 0 10 15 0 50000 70000 20000;
  Push 2 10 15 0 50000 0 90000;
  SetH 5 7 (Some (-20000)) None None None None (Some (-20000)) (Some 0) None None;
  MoveBS 2 10 15 30000 5 7 60000 false;
  ExpWall false;
  ExpWalkH 0;
  ExpH 5 7 None None None (Some 0) (Some 60000);
  ExpRec 2%nat 2 5 7 (-50000) (-30000) 0 60000;
  ExpRecs 3%nat;
  Reset [(5, 7)] [(2, 5, 7); (0, 10, 15); (2, 10, 15)] [(2, 5, 7); (0, 10, 15); (2, 10, 15)]].

Definition IC_MBS_9 : list cmd := [
  SetH 10 15 None (Some 30000) (Some 70000) (Some 70000) (Some 90000) (Some (-20000)) (Some 0) (Some 0) (Some 90000);
  Push 0 10 15 0 50000 70000 20000;
  Push 2 10 15 0 50000 0 90000;
  SetH 5 7 (Some (-20000)) None None None None (Some (-20000)) (Some 0) (Some 0) (Some 30000);
  Push 2 5 7 (-50000) (-30000) 0 30000;
  MoveBS 2 10 15 30000 5 7 60000 false;
  ExpWall false;
  ExpWalkH 0;
  ExpH 5 7 None None None (Some 0) (Some 90000);
  ExpRec 3%nat 2 5 7 (-50000) (-30000) 0 60000;
  ExpRecs 4%nat;
  Reset [(5, 7)] [(2, 5, 7); (0, 10, 15); (2, 10, 15)] [(2, 5, 7); (0, 10, 15); (2, 10, 15)]].

Definition IC_MBS_10 : list cmd := [
  SetH 10 15 None (Some 30000) (Some 70000) (Some 70000) (Some 90000) (Some (-20000)) (Some 0) (Some 0) (Some 90000);
  Push 0 10 15 0 50000 70000 20000;
  Push 2 10 15 0 50000 0 90000;
  SetH 5 7 None (Some 0) (Some 10000) (Some 10000) (Some 20000) (Some 20000) (Some 40000) None None;
  Push 0 5 7 (-50000) (-30000) 20000 20000;
  MoveBS 2 10 15 30000 5 7 60000 false;
  ExpWall false;
  ExpWalkH 60000;
  ExpWalkInd 0;
  ExpWalkI 5;
  ExpWalkJ 7;
  ExpH 5 7 None (Some 10000) (Some 20000) None None;
  ExpRecs 3%nat;
  Reset [] [(0, 5, 7); (2, 5, 7); (0, 10, 15); (2, 10, 15)] [(0, 5, 7); (0, 10, 15); (2, 10, 15)]].

Definition IC_MBS_11 : list cmd := [
  SetH 10 15 None (Some 30000) (Some 70000) (Some 70000) (Some 90000) (Some (-20000)) (Some 0) (Some 0) (Some 90000);
  Push 0 10 15 0 50000 70000 20000;
  Push 2 10 15 0 50000 0 90000;
  SetH 5 7 None (Some 0) (Some 20000) None None (Some 80000) (Some 90000) None None;
  MoveBS 2 10 15 30000 5 7 60000 false;
  ExpWall false;
  ExpWalkH 0;
  ExpH 5 7 None (Some 20000) (Some 80000) None None;
  ExpRec 2%nat 0 5 7 (-50000) (-30000) 20000 60000;
  ExpRecs 3%nat;
  Reset [] [(0, 5, 7); (2, 5, 7); (0, 10, 15); (2, 10, 15)] [(0, 5, 7); (0, 10, 15); (2, 10, 15)]].

Definition IC_MBS_12 : list cmd := [
  SetH 10 15 None (Some 30000) (Some 70000) (Some 70000) (Some 90000) (Some (-20000)) (Some 0) (Some 0) (Some 90000);
  Push 0 10 15 0 50000 70000 20000;
  Push 2 10 15 0 50000 0 90000;
  SetH 5 7 None (Some 0) (Some 10000) None None (Some 40000) (Some 90000) None None;
  MoveBS 2 10 15 30000 5 7 60000 false;
  ExpWall false;
  ExpWalkH 30000;
  ExpWalkInd 0;
  ExpWalkI 5;
  ExpWalkJ 7;
  ExpH 5 7 None (Some 10000) (Some 40000) None None;
  ExpRec 2%nat 0 5 7 (-50000) (-30000) 10000 30000;
  ExpRecs 3%nat;
  Reset [] [(0, 5, 7); (2, 5, 7); (0, 10, 15); (2, 10, 15)] [(0, 5, 7); (0, 10, 15); (2, 10, 15)]].

Definition IC_MBS_13 : list cmd := [
  SetH 10 15 None (Some 30000) (Some 70000) (Some 70000) (Some 90000) (Some (-20000)) (Some 0) (Some 0) (Some 90000);
  Push 0 10 15 0 50000 70000 20000;
  Push 2 10 15 0 50000 0 90000;
  SetH 5 7 None (Some 0) (Some 10000) (Some 10000) (Some 20000) (Some 90000) (Some 100000) None None;
  Push 0 5 7 (-50000) (-30000) 10000 10000;
  MoveBS 2 10 15 30000 5 7 60000 false;
  ExpWall false;
  ExpWalkH 0;
  ExpH 5 7 None (Some 10000) (Some 80000) None None;
  ExpRec 3%nat 0 5 7 (-50000) (-30000) 10000 60000;
  ExpRecs 4%nat;
  Reset [] [(0, 5, 7); (2, 5, 7); (0, 10, 15); (2, 10, 15)] [(0, 5, 7); (0, 10, 15); (2, 10, 15)]].

Definition IC_MBS_14 : list cmd := [
  SetH 10 15 None (Some 30000) (Some 70000) (Some 70000) (Some 90000) (Some (-20000)) (Some 0) (Some 0) (Some 90000);
  Push 0 10 15 0 50000 70000 20000;
  Push 2 10 15 0 50000 0 90000;
  SetH 5 7 None (Some 0) (Some 10000) (Some 10000) (Some 20000) (Some 40000) (Some 50000) None None;
  Push 0 5 7 (-50000) (-30000) 10000 10000;
  MoveBS 2 10 15 30000 5 7 60000 false;
  ExpWall false;
  ExpWalkH 40000;
  ExpWalkInd 0;
  ExpWalkI 5;
  ExpWalkJ 7;
  ExpH 5 7 None (Some 10000) (Some 40000) None None;
  ExpRec 3%nat 0 5 7 (-50000) (-30000) 10000 20000;
  ExpRecs 4%nat;
  Reset [] [(0, 5, 7); (2, 5, 7); (0, 10, 15); (2, 10, 15)] [(0, 5, 7); (0, 10, 15); (2, 10, 15)]].

Definition IC_MBS_15 : list cmd := [
  SetH 10 15 None (Some 30000) (Some 70000) (Some 70000) (Some 90000) (Some (-20000)) (Some 0) (Some 0) (Some 90000);
  Push 0 10 15 0 50000 70000 20000;
  Push 2 10 15 0 50000 0 90000;
  SetH 5 7 None (Some 60000) (Some 70000) None None (Some 0) (Some 10000) (Some 10000) (Some 60000);
  Push 2 5 7 (-50000) (-30000) 10000 50000;
  MoveBS 2 10 15 30000 5 7 60000 false;
  ExpWall false;
  ExpWalkH 60000;
  ExpWalkInd 2;
  ExpWalkI 5;
  ExpWalkJ 7;
  ExpH 5 7 None None None (Some 10000) (Some 60000);
  ExpRecs 3%nat;
  Reset [] [(0, 5, 7); (2, 5, 7); (0, 10, 15); (2, 10, 15)] [(2, 5, 7); (0, 10, 15); (2, 10, 15)]].

Definition IC_MBS_16 : list cmd := [
  SetH 10 15 None (Some 30000) (Some 70000) (Some 70000) (Some 90000) (Some (-20000)) (Some 0) (Some 0) (Some 90000);
  Push 0 10 15 0 50000 70000 20000;
  Push 2 10 15 0 50000 0 90000;
  SetH 5 7 (Some (-10000)) (Some 80000) (Some 90000) None None (Some (-10000)) (Some 0) None None;
  MoveBS 2 10 15 30000 5 7 60000 false;
  ExpWall false;
  ExpWalkH 0;
  ExpH 5 7 None None None (Some 0) (Some 60000);
  ExpRec 2%nat 2 5 7 (-50000) (-30000) 0 60000;
  ExpRecs 3%nat;
  Reset [(5, 7)] [(0, 5, 7); (2, 5, 7); (0, 10, 15); (2, 10, 15)] [(2, 5, 7); (0, 10, 15); (2, 10, 15)]].

Definition IC_MBS_17 : list cmd := [
  SetH 10 15 None (Some 30000) (Some 70000) (Some 70000) (Some 90000) (Some (-20000)) (Some 0) (Some 0) (Some 90000);
  Push 0 10 15 0 50000 70000 20000;
  Push 2 10 15 0 50000 0 90000;
  SetH 5 7 (Some (-10000)) (Some 30000) (Some 90000) None None (Some (-10000)) (Some 20000) None None;
  MoveBS 2 10 15 30000 5 7 60000 false;
  ExpWall false;
  ExpWalkH 50000;
  ExpWalkInd 2;
  ExpWalkI 5;
  ExpWalkJ 7;
  ExpH 5 7 None None None (Some 20000) (Some 30000);
  ExpRec 2%nat 2 5 7 (-50000) (-30000) 20000 10000;
  ExpRecs 3%nat;
  Reset [(5, 7)] [(0, 5, 7); (2, 5, 7); (0, 10, 15); (2, 10, 15)] [(2, 5, 7); (0, 10, 15); (2, 10, 15)]].

Definition IC_MBS_18 : list cmd := [
  SetH 10 15 None (Some 30000) (Some 70000) (Some 70000) (Some 90000) (Some (-20000)) (Some 0) (Some 0) (Some 90000);
  Push 0 10 15 0 50000 70000 20000;
  Push 2 10 15 0 50000 0 90000;
  SetH 5 7 (Some (-10000)) (Some 80000) (Some 90000) None None (Some (-10000)) (Some 0) (Some 0) (Some 20000);
  Push 2 5 7 (-50000) (-30000) 0 20000;
  MoveBS 2 10 15 30000 5 7 60000 false;
  ExpWall false;
  ExpWalkH 0;
  ExpH 5 7 None None None (Some 0) (Some 80000);
  ExpRec 3%nat 2 5 7 (-50000) (-30000) 0 60000;
  ExpRecs 4%nat;
  Reset [(5, 7)] [(0, 5, 7); (2, 5, 7); (0, 10, 15); (2, 10, 15)] [(2, 5, 7); (0, 10, 15); (2, 10, 15)]].

Definition IC_MBS_19 : list cmd := [
  SetH 10 15 None (Some 30000) (Some 70000) (Some 70000) (Some 90000) (Some (-20000)) (Some 0) (Some 0) (Some 90000);
  Push 0 10 15 0 50000 70000 20000;
  Push 2 10 15 0 50000 0 90000;
  SetH 5 7 (Some (-10000)) (Some 60000) (Some 90000) None None (Some (-10000)) (Some 0) (Some 0) (Some 20000);
  Push 2 5 7 (-50000) (-30000) 0 20000;
  MoveBS 2 10 15 30000 5 7 60000 false;
  ExpWall false;
  ExpWalkH 20000;
  ExpWalkInd 2;
  ExpWalkI 5;
  ExpWalkJ 7;
  ExpH 5 7 None None None (Some 0) (Some 60000);
  ExpRec 3%nat 2 5 7 (-50000) (-30000) 0 40000;
  ExpRecs 4%nat;
  Reset [(5, 7)] [(0, 5, 7); (2, 5, 7); (0, 10, 15); (2, 10, 15)] [(2, 5, 7); (0, 10, 15); (2, 10, 15)]].

Definition move_body_soil_tests : list cmd :=
  IC_MBS_1 ++ IC_MBS_2 ++ IC_MBS_3 ++ IC_MBS_4 ++ IC_MBS_5 ++ IC_MBS_6 ++ IC_MBS_7 ++ IC_MBS_8 ++ IC_MBS_9 ++ IC_MBS_10 ++ IC_MBS_11 ++ IC_MBS_12 ++ IC_MBS_13 ++ IC_MBS_14 ++ IC_MBS_15 ++ IC_MBS_16 ++ IC_MBS_17 ++ IC_MBS_18 ++ IC_MBS_19.

Example move_body_soil_tests_pass : z_run move_body_soil_tests = None.
Proof. vm_compute. reflexivity. Qed.
