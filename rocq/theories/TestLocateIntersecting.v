(** test/unit_tests/test_intersecting_cells.cpp:7494-7575, TEST LocateIntersectingCells. Produced by tools/translate_tests.py. *)
From Coq Require Import ZArith List.
From Verif Require Import Outcome Num State ModelBodyPos TestLang.
Import ListNotations.
Open Scope Z_scope.

Definition setup : list cmd := [
  SetBodyArea (mkArea 4 20 1 20);
  SetBodyArea (mkArea 4 12 1 20);
  SetBodyArea (mkArea 4 12 8 20);
  SetBodyArea (mkArea 4 12 8 17)].

Definition IC_LIC_1 : list cmd := [
  SetH 5 10 None (Some 0) (Some 10000) None None None None None None;
  LocateI;
  ExpCells 0%nat;
  Reset [] [(0, 5, 10)] []].

Definition IC_LIC_2 : list cmd := [
  SetH 11 11 (Some (-10000)) (Some (-10000)) (Some 0) None None None None None None;
  LocateI;
  ExpCells 0%nat;
  Reset [(11, 11)] [(0, 11, 11)] []].

Definition IC_LIC_3 : list cmd := [
  SetH 6 10 None None None None None (Some 0) (Some 10000) None None;
  LocateI;
  ExpCells 0%nat;
  Reset [] [(2, 6, 10)] []].

Definition IC_LIC_4 : list cmd := [
  SetH 7 10 None (Some 0) (Some 10000) None None (Some 20000) (Some 30000) None None;
  LocateI;
  ExpCells 0%nat;
  Reset [] [(0, 7, 10); (2, 7, 10)] []].

Definition IC_LIC_5 : list cmd := [
  SetH 10 11 (Some 10000) (Some (-10000)) (Some 0) None None None None None None;
  LocateI;
  ExpI 0%nat 0 10 11;
  ExpCells 1%nat;
  Reset [(10, 11)] [(0, 10, 11)] []].

Definition IC_LIC_6 : list cmd := [
  SetH 10 12 (Some 10000) None None None None (Some (-10000)) (Some 0) None None;
  LocateI;
  ExpI 0%nat 2 10 12;
  ExpCells 1%nat;
  Reset [(10, 12)] [(2, 10, 12)] []].

Definition IC_LIC_7 : list cmd := [
  SetH 10 13 (Some 10000) (Some (-20000)) (Some 0) None None (Some 0) (Some 30000) None None;
  LocateI;
  ExpI 0%nat 0 10 13;
  ExpI 1%nat 2 10 13;
  ExpCells 2%nat;
  Reset [(10, 13)] [(0, 10, 13); (2, 10, 13)] []].

Definition IC_LIC_8 : list cmd := [
  SetH 10 14 (Some 10000) (Some 20000) (Some 30000) None None (Some (-10000)) (Some 0) None None;
  LocateI;
  ExpI 0%nat 2 10 14;
  ExpCells 1%nat;
  Reset [(10, 14)] [(0, 10, 14); (2, 10, 14)] []].

Definition IC_LIC_9 : list cmd := [
  SetH 10 15 (Some 10000) (Some (-30000)) (Some (-20000)) None None (Some 50000) (Some 60000) None None;
  LocateI;
  ExpI 0%nat 0 10 15;
  ExpCells 1%nat;
  Reset [(10, 15)] [(0, 10, 15); (2, 10, 15)] []].

Definition IC_LIC_10 : list cmd := [
  SetH 10 16 (Some 10000) (Some (-30000)) (Some (-20000)) None None (Some (-60000)) (Some (-40000)) None None;
  LocateI;
  ExpI 0%nat 0 10 16;
  ExpI 1%nat 2 10 16;
  ExpCells 2%nat;
  Reset [(10, 16)] [(0, 10, 16); (2, 10, 16)] []].

Definition locate_intersecting_tests : list cmd :=
  setup ++ IC_LIC_1 ++ IC_LIC_2 ++ IC_LIC_3 ++ IC_LIC_4 ++ IC_LIC_5 ++ IC_LIC_6 ++ IC_LIC_7 ++ IC_LIC_8 ++ IC_LIC_9 ++ IC_LIC_10.

Example locate_intersecting_tests_pass : z_run locate_intersecting_tests = None.
Proof. vm_compute. reflexivity. Qed.
