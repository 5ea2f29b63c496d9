(** test/unit_tests/test_relax.cpp:24-107, TEST LocateUnstableTerrainCell. Produced by tools/translate_tests.py. *)
From Coq Require Import ZArith List.
From Verif Require Import Outcome Num State ModelBodyPos TestLang.
Import ListNotations.
Open Scope Z_scope.

Definition setup : list cmd := [
  SetImpactArea (mkArea 2 20 1 20);
  SetImpactArea (mkArea 2 17 1 20);
  SetImpactArea (mkArea 2 17 2 20);
  SetImpactArea (mkArea 2 17 2 17)].

Definition RE_LUT_1 : list cmd := [
  LocateUnstable 10000;
  ExpCells 0%nat].

Definition RE_LUT_2 : list cmd := [
  SetT 7 13 10000;
  LocateUnstable 10000;
  ExpCells 0%nat;
  LocateUnstable 0;
  ExpCell 0%nat 7 13;
  ExpCells 1%nat;
  SetT 7 13 0].

Definition RE_LUT_3 : list cmd := [
  SetT 5 13 20000;
  LocateUnstable 10000;
  ExpCell 0%nat 5 13;
  ExpCells 1%nat;
  LocateUnstable 20000;
  ExpCells 0%nat;
  SetT 5 13 0].

Definition RE_LUT_4 : list cmd := [
  SetT 9 9 (-10000);
  LocateUnstable 10000;
  ExpCells 0%nat;
  LocateUnstable 0;
  ExpCell 0%nat 8 9;
  ExpCell 1%nat 9 8;
  ExpCell 2%nat 9 10;
  ExpCell 3%nat 10 9;
  ExpCells 4%nat;
  SetT 9 9 0].

Definition RE_LUT_5 : list cmd := [
  SetT 11 13 (-20000);
  LocateUnstable 10000;
  ExpCell 0%nat 10 13;
  ExpCell 1%nat 11 12;
  ExpCell 2%nat 11 14;
  ExpCell 3%nat 12 13;
  ExpCells 4%nat;
  LocateUnstable 20000;
  ExpCells 0%nat;
  SetT 11 13 0].

Definition RE_LUT_6 : list cmd := [
  SetT 15 5 (-40000);
  SetT 15 6 (-20000);
  LocateUnstable 10000;
  ExpCell 0%nat 14 5;
  ExpCell 1%nat 14 6;
  ExpCell 2%nat 15 4;
  ExpCell 3%nat 15 6;
  ExpCell 4%nat 15 7;
  ExpCell 5%nat 16 5;
  ExpCell 6%nat 16 6;
  ExpCells 7%nat;
  SetT 15 5 0;
  SetT 15 6 0].

Definition RE_LUT_7 : list cmd := [
  SetT 5 2 (-20000);
  LocateUnstable 10000;
  ExpCell 0%nat 4 2;
  ExpCell 1%nat 5 3;
  ExpCell 2%nat 6 2;
  ExpCells 3%nat;
  SetT 5 2 0].

Definition locate_unstable_tests : list cmd :=
  setup ++ RE_LUT_1 ++ RE_LUT_2 ++ RE_LUT_3 ++ RE_LUT_4 ++ RE_LUT_5 ++ RE_LUT_6 ++ RE_LUT_7.

Example locate_unstable_tests_pass : z_run locate_unstable_tests = None.
Proof. vm_compute. reflexivity. Qed.
