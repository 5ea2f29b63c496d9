(** test/unit_tests/test_relax.cpp:1599-2452, TEST CheckUnstableBodyCell. Produced by tools/translate_tests.py. *)
From Coq Require Import ZArith List.
From Verif Require Import Outcome Num State ModelBodyPos TestLang.
Import ListNotations.
Open Scope Z_scope.

Definition RE_CUB_1 : list cmd := [
  SetH 10 14 (Some (-20000)) (Some (-20000)) (Some 0) (Some 0) (Some 20000) None None None None;
  SetT 10 15 10000;
  CheckUB 10 14 0 10 15 10000;
  ExpStatus 0;
  Reset [(10, 14); (10, 15)] [(0, 10, 14)] [(0, 10, 14)]].

Definition RE_CUB_2 : list cmd := [
  SetT 10 15 (-20000);
  SetH 10 14 (Some (-20000)) (Some (-20000)) (Some 0) (Some 0) (Some 20000) None None None None;
  CheckUB 10 14 0 10 15 10000;
  ExpStatus 40;
  Reset [(10, 14); (10, 15)] [(0, 10, 14)] [(0, 10, 14)]].

Definition RE_CUB_3 : list cmd := [
  SetH 10 14 (Some (-20000)) (Some (-20000)) (Some 0) (Some 0) (Some 20000) None None None None;
  SetH 10 15 (Some (-20000)) (Some (-20000)) (Some 10000) None None None None None None;
  CheckUB 10 14 0 10 15 10000;
  ExpStatus 0;
  Reset [(10, 14); (10, 15)] [(0, 10, 14); (0, 10, 15)] [(0, 10, 14)]].

Definition RE_CUB_4 : list cmd := [
  SetH 10 14 (Some (-20000)) (Some (-20000)) (Some 0) (Some 0) (Some 20000) None None None None;
  SetH 10 15 (Some (-20000)) (Some 10000) (Some 20000) None None None None None None;
  CheckUB 10 14 0 10 15 10000;
  ExpStatus 10;
  Reset [(10, 14); (10, 15)] [(0, 10, 14); (0, 10, 15)] [(0, 10, 14)]].

Definition RE_CUB_5 : list cmd := [
  SetH 10 14 (Some (-20000)) (Some (-20000)) (Some 0) (Some 0) (Some 20000) None None None None;
  SetH 10 15 (Some (-20000)) (Some (-20000)) (Some 0) None None None None None None;
  CheckUB 10 14 0 10 15 10000;
  ExpStatus 14;
  Reset [(10, 14); (10, 15)] [(0, 10, 14); (0, 10, 15)] [(0, 10, 14)]].

Definition RE_CUB_6 : list cmd := [
  SetH 10 14 (Some (-20000)) (Some (-20000)) (Some 0) (Some 0) (Some 20000) None None None None;
  SetH 10 15 (Some (-20000)) (Some (-20000)) (Some 0) (Some 0) (Some 10000) None None None None;
  CheckUB 10 14 0 10 15 10000;
  ExpStatus 0;
  Reset [(10, 14); (10, 15)] [(0, 10, 14); (0, 10, 15)] [(0, 10, 14); (0, 10, 15)]].

Definition RE_CUB_7 : list cmd := [
  SetH 10 14 (Some (-20000)) (Some (-20000)) (Some 0) (Some 0) (Some 20000) None None None None;
  SetH 10 15 (Some (-20000)) (Some 30000) (Some 50000) (Some 50000) (Some 70000) None None None None;
  CheckUB 10 14 0 10 15 10000;
  ExpStatus 10;
  Reset [(10, 14); (10, 15)] [(0, 10, 14); (0, 10, 15)] [(0, 10, 14); (0, 10, 15)]].

Definition RE_CUB_8 : list cmd := [
  SetH 10 14 (Some (-20000)) (Some (-20000)) (Some 0) (Some 0) (Some 20000) None None None None;
  SetH 10 15 (Some (-20000)) (Some (-20000)) (Some (-10000)) (Some (-10000)) (Some 0) None None None None;
  CheckUB 10 14 0 10 15 10000;
  ExpStatus 13;
  Reset [(10, 14); (10, 15)] [(0, 10, 14); (0, 10, 15)] [(0, 10, 14); (0, 10, 15)]].

Definition RE_CUB_9 : list cmd := [
  SetH 10 14 (Some (-20000)) (Some (-20000)) (Some 0) (Some 0) (Some 20000) None None None None;
  SetH 10 15 (Some (-20000)) None None None None (Some (-20000)) (Some 10000) None None;
  CheckUB 10 14 0 10 15 10000;
  ExpStatus 0;
  Reset [(10, 14); (10, 15)] [(0, 10, 14); (2, 10, 15)] [(0, 10, 14)]].

Definition RE_CUB_10 : list cmd := [
  SetH 10 14 (Some (-20000)) (Some (-20000)) (Some 0) (Some 0) (Some 20000) None None None None;
  SetH 10 15 (Some (-20000)) None None None None (Some 40000) (Some 50000) None None;
  CheckUB 10 14 0 10 15 10000;
  ExpStatus 20;
  Reset [(10, 14); (10, 15)] [(0, 10, 14); (2, 10, 15)] [(0, 10, 14)]].

Definition RE_CUB_11 : list cmd := [
  SetH 10 14 (Some (-20000)) (Some (-20000)) (Some 0) (Some 0) (Some 20000) None None None None;
  SetH 10 15 (Some (-20000)) None None None None (Some (-20000)) (Some 0) None None;
  CheckUB 10 14 0 10 15 10000;
  ExpStatus 22;
  Reset [(10, 14); (10, 15)] [(0, 10, 14); (2, 10, 15)] [(0, 10, 14)]].

Definition RE_CUB_12 : list cmd := [
  SetH 10 14 (Some (-20000)) (Some (-20000)) (Some 0) (Some 0) (Some 20000) None None None None;
  SetH 10 15 (Some (-20000)) None None None None (Some (-20000)) (Some 0) (Some 0) (Some 10000);
  CheckUB 10 14 0 10 15 10000;
  ExpStatus 0;
  Reset [(10, 14); (10, 15)] [(0, 10, 14); (2, 10, 15)] [(0, 10, 14); (2, 10, 15)]].

Definition RE_CUB_13 : list cmd := [
  SetH 10 14 (Some (-20000)) (Some (-20000)) (Some 0) (Some 0) (Some 20000) None None None None;
  SetH 10 15 (Some (-20000)) None None None None (Some 10000) (Some 20000) (Some 20000) (Some 30000);
  CheckUB 10 14 0 10 15 10000;
  ExpStatus 20;
  Reset [(10, 14); (10, 15)] [(0, 10, 14); (2, 10, 15)] [(0, 10, 14); (2, 10, 15)]].

Definition RE_CUB_14 : list cmd := [
  SetH 10 14 (Some (-20000)) (Some (-20000)) (Some 0) (Some 0) (Some 20000) None None None None;
  SetH 10 15 (Some (-20000)) None None None None (Some (-20000)) (Some (-10000)) (Some (-10000)) (Some 0);
  CheckUB 10 14 0 10 15 10000;
  ExpStatus 21;
  Reset [(10, 14); (10, 15)] [(0, 10, 14); (2, 10, 15)] [(0, 10, 14); (2, 10, 15)]].

Definition RE_CUB_15 : list cmd := [
  SetH 10 14 (Some (-20000)) (Some (-20000)) (Some 0) (Some 0) (Some 20000) None None None None;
  SetH 10 15 (Some (-20000)) (Some (-20000)) (Some (-10000)) None None (Some 10000) (Some 20000) None None;
  CheckUB 10 14 0 10 15 (-10000);
  ExpStatus 0;
  Reset [(10, 14); (10, 15)] [(0, 10, 14); (0, 10, 15); (2, 10, 15)] [(0, 10, 14)]].

Definition RE_CUB_16 : list cmd := [
  SetH 10 14 (Some (-20000)) (Some (-20000)) (Some 0) (Some 0) (Some 20000) None None None None;
  SetH 10 15 (Some (-20000)) (Some (-20000)) (Some (-10000)) None None (Some 10000) (Some 20000) None None;
  CheckUB 10 14 0 10 15 10000;
  ExpStatus 34;
  Reset [(10, 14); (10, 15)] [(0, 10, 14); (0, 10, 15); (2, 10, 15)] [(0, 10, 14)]].

Definition RE_CUB_17 : list cmd := [
  SetH 10 14 (Some (-20000)) (Some (-20000)) (Some 0) (Some 0) (Some 40000) None None None None;
  SetH 10 15 (Some (-40000)) (Some (-40000)) (Some (-10000)) None None (Some 10000) (Some 20000) None None;
  CheckUB 10 14 0 10 15 (-10000);
  ExpStatus 0;
  Reset [(10, 14); (10, 15)] [(0, 10, 14); (0, 10, 15); (2, 10, 15)] [(0, 10, 14)]].

Definition RE_CUB_18 : list cmd := [
  SetH 10 14 (Some (-20000)) (Some (-20000)) (Some 0) (Some 0) (Some 40000) None None None None;
  SetH 10 15 (Some (-20000)) (Some (-20000)) (Some (-10000)) None None (Some 10000) (Some 20000) None None;
  CheckUB 10 14 0 10 15 10000;
  ExpStatus 34;
  Reset [(10, 14); (10, 15)] [(0, 10, 14); (0, 10, 15); (2, 10, 15)] [(0, 10, 14)]].

Definition RE_CUB_19 : list cmd := [
  SetH 10 14 (Some (-20000)) (Some (-20000)) (Some 0) (Some 0) (Some 20000) None None None None;
  SetH 10 15 (Some (-20000)) (Some (-20000)) (Some (-10000)) None None (Some 10000) (Some 20000) (Some 20000) (Some 30000);
  CheckUB 10 14 0 10 15 (-10000);
  ExpStatus 0;
  Reset [(10, 14); (10, 15)] [(0, 10, 14); (0, 10, 15); (2, 10, 15)] [(0, 10, 14); (2, 10, 15)]].

Definition RE_CUB_20 : list cmd := [
  SetH 10 14 (Some (-20000)) (Some (-20000)) (Some 0) (Some 0) (Some 20000) None None None None;
  SetH 10 15 (Some (-20000)) (Some (-20000)) (Some (-10000)) None None (Some 10000) (Some 20000) (Some 20000) (Some 30000);
  CheckUB 10 14 0 10 15 10000;
  ExpStatus 34;
  Reset [(10, 14); (10, 15)] [(0, 10, 14); (0, 10, 15); (2, 10, 15)] [(0, 10, 14); (2, 10, 15)]].

Definition RE_CUB_21 : list cmd := [
  SetH 10 14 (Some (-20000)) (Some (-20000)) (Some 0) (Some 0) (Some 50000) None None None None;
  SetH 10 15 (Some (-20000)) (Some (-20000)) (Some (-10000)) None None (Some 10000) (Some 20000) (Some 20000) (Some 30000);
  CheckUB 10 14 0 10 15 (-10000);
  ExpStatus 0;
  Reset [(10, 14); (10, 15)] [(0, 10, 14); (0, 10, 15); (2, 10, 15)] [(0, 10, 14); (2, 10, 15)]].

Definition RE_CUB_22 : list cmd := [
  SetH 10 14 (Some (-20000)) (Some (-20000)) (Some 0) (Some 0) (Some 50000) None None None None;
  SetH 10 15 (Some (-20000)) (Some (-20000)) (Some (-10000)) None None (Some 10000) (Some 20000) (Some 20000) (Some 30000);
  CheckUB 10 14 0 10 15 0;
  ExpStatus 34;
  Reset [(10, 14); (10, 15)] [(0, 10, 14); (0, 10, 15); (2, 10, 15)] [(0, 10, 14); (2, 10, 15)]].

Definition RE_CUB_23 : list cmd := [
  SetH 10 14 (Some (-20000)) (Some (-20000)) (Some 0) (Some 0) (Some 20000) None None None None;
  SetH 10 15 (Some (-40000)) (Some (-40000)) (Some (-30000)) None None (Some 0) (Some 30000) (Some 30000) (Some 40000);
  CheckUB 10 14 0 10 15 10000;
  ExpStatus 0;
  Reset [(10, 14); (10, 15)] [(0, 10, 14); (0, 10, 15); (2, 10, 15)] [(0, 10, 14); (2, 10, 15)]].

Definition RE_CUB_24 : list cmd := [
  SetH 10 14 (Some (-20000)) (Some (-20000)) (Some 0) (Some 0) (Some 40000) None None None None;
  SetH 10 15 (Some (-40000)) (Some (-40000)) (Some (-30000)) None None (Some 0) (Some 20000) (Some 20000) (Some 30000);
  CheckUB 10 14 0 10 15 30000;
  ExpStatus 0;
  Reset [(10, 14); (10, 15)] [(0, 10, 14); (0, 10, 15); (2, 10, 15)] [(0, 10, 14); (2, 10, 15)]].

Definition RE_CUB_25 : list cmd := [
  SetH 10 14 (Some (-20000)) (Some (-20000)) (Some 0) (Some 0) (Some 50000) None None None None;
  SetH 10 15 (Some (-40000)) (Some (-40000)) (Some (-30000)) None None (Some 0) (Some 10000) None None;
  CheckUB 10 14 0 10 15 20000;
  ExpStatus 32;
  Reset [(10, 14); (10, 15)] [(0, 10, 14); (0, 10, 15); (2, 10, 15)] [(0, 10, 14)]].

Definition RE_CUB_26 : list cmd := [
  SetH 10 14 (Some (-20000)) (Some (-20000)) (Some 0) (Some 0) (Some 40000) None None None None;
  SetH 10 15 (Some (-40000)) (Some (-40000)) (Some (-30000)) None None (Some 0) (Some 50000) (Some 50000) (Some 60000);
  CheckUB 10 14 0 10 15 10000;
  ExpStatus 0;
  Reset [(10, 14); (10, 15)] [(0, 10, 14); (0, 10, 15); (2, 10, 15)] [(0, 10, 14); (2, 10, 15)]].

Definition RE_CUB_27 : list cmd := [
  SetH 10 14 (Some (-20000)) (Some (-20000)) (Some 0) (Some 0) (Some 40000) None None None None;
  SetH 10 15 (Some (-40000)) (Some (-40000)) (Some (-30000)) None None (Some 0) (Some 10000) (Some 10000) (Some 30000);
  CheckUB 10 14 0 10 15 10000;
  ExpStatus 0;
  Reset [(10, 14); (10, 15)] [(0, 10, 14); (0, 10, 15); (2, 10, 15)] [(0, 10, 14); (2, 10, 15)]].

Definition RE_CUB_28 : list cmd := [
  SetH 10 14 (Some (-20000)) (Some (-20000)) (Some 0) (Some 0) (Some 50000) None None None None;
  SetH 10 15 (Some (-40000)) (Some (-40000)) (Some (-30000)) None None (Some 0) (Some 10000) (Some 10000) (Some 20000);
  CheckUB 10 14 0 10 15 30000;
  ExpStatus 31;
  Reset [(10, 14); (10, 15)] [(0, 10, 14); (0, 10, 15); (2, 10, 15)] [(0, 10, 14); (2, 10, 15)]].

Definition RE_CUB_29 : list cmd := [
  SetH 10 14 (Some (-20000)) (Some (-20000)) (Some 0) (Some 0) (Some 20000) None None None None;
  SetH 10 15 (Some (-20000)) (Some (-20000)) (Some (-10000)) (Some (-10000)) (Some 0) (Some 10000) (Some 20000) None None;
  CheckUB 10 14 0 10 15 (-10000);
  ExpStatus 0;
  Reset [(10, 14); (10, 15)] [(0, 10, 14); (0, 10, 15); (2, 10, 15)] [(0, 10, 14); (0, 10, 15)]].

Definition RE_CUB_30 : list cmd := [
  SetH 10 14 (Some (-20000)) (Some (-20000)) (Some 0) (Some 0) (Some 20000) None None None None;
  SetH 10 15 (Some (-20000)) (Some (-20000)) (Some (-10000)) (Some (-10000)) (Some 0) (Some 10000) (Some 20000) None None;
  CheckUB 10 14 0 10 15 10000;
  ExpStatus 33;
  Reset [(10, 14); (10, 15)] [(0, 10, 14); (0, 10, 15); (2, 10, 15)] [(0, 10, 14); (0, 10, 15)]].

Definition RE_CUB_31 : list cmd := [
  SetH 10 14 (Some (-20000)) (Some (-20000)) (Some 0) (Some 0) (Some 40000) None None None None;
  SetH 10 15 (Some (-20000)) (Some (-20000)) (Some (-10000)) (Some (-10000)) (Some 0) (Some 10000) (Some 20000) None None;
  CheckUB 10 14 0 10 15 (-10000);
  ExpStatus 0;
  Reset [(10, 14); (10, 15)] [(0, 10, 14); (0, 10, 15); (2, 10, 15)] [(0, 10, 14); (0, 10, 15)]].

Definition RE_CUB_32 : list cmd := [
  SetH 10 14 (Some (-20000)) (Some (-20000)) (Some 0) (Some 0) (Some 40000) None None None None;
  SetH 10 15 (Some (-20000)) (Some (-20000)) (Some (-10000)) (Some (-10000)) (Some 0) (Some 10000) (Some 20000) None None;
  CheckUB 10 14 0 10 15 10000;
  ExpStatus 33;
  Reset [(10, 14); (10, 15)] [(0, 10, 14); (0, 10, 15); (2, 10, 15)] [(0, 10, 14); (0, 10, 15)]].

Definition RE_CUB_33 : list cmd := [
  SetH 10 14 (Some (-20000)) (Some (-20000)) (Some 0) (Some 0) (Some 20000) None None None None;
  SetH 10 15 (Some (-20000)) (Some (-20000)) (Some (-10000)) (Some (-10000)) (Some 0) (Some 10000) (Some 20000) (Some 20000) (Some 30000);
  CheckUB 10 14 0 10 15 (-10000);
  ExpStatus 0;
  Reset [(10, 14); (10, 15)] [(0, 10, 14); (0, 10, 15); (2, 10, 15)] [(0, 10, 14); (0, 10, 15); (2, 10, 15)]].

Definition RE_CUB_34 : list cmd := [
  SetH 10 14 (Some (-20000)) (Some (-20000)) (Some 0) (Some 0) (Some 20000) None None None None;
  SetH 10 15 (Some (-20000)) (Some (-20000)) (Some (-10000)) (Some (-10000)) (Some 0) (Some 10000) (Some 20000) (Some 20000) (Some 30000);
  CheckUB 10 14 0 10 15 10000;
  ExpStatus 33;
  Reset [(10, 14); (10, 15)] [(0, 10, 14); (0, 10, 15); (2, 10, 15)] [(0, 10, 14); (0, 10, 15); (2, 10, 15)]].

Definition RE_CUB_35 : list cmd := [
  SetH 10 14 (Some (-20000)) (Some (-20000)) (Some 0) (Some 0) (Some 50000) None None None None;
  SetH 10 15 (Some (-20000)) (Some (-20000)) (Some (-10000)) (Some (-10000)) (Some 0) (Some 10000) (Some 20000) (Some 20000) (Some 30000);
  CheckUB 10 14 0 10 15 (-10000);
  ExpStatus 0;
  Reset [(10, 14); (10, 15)] [(0, 10, 14); (0, 10, 15); (2, 10, 15)] [(0, 10, 14); (0, 10, 15); (2, 10, 15)]].

Definition RE_CUB_36 : list cmd := [
  SetH 10 14 (Some (-20000)) (Some (-20000)) (Some 0) (Some 0) (Some 50000) None None None None;
  SetH 10 15 (Some (-20000)) (Some (-20000)) (Some (-10000)) (Some (-10000)) (Some 0) (Some 10000) (Some 20000) (Some 20000) (Some 30000);
  CheckUB 10 14 0 10 15 10000;
  ExpStatus 33;
  Reset [(10, 14); (10, 15)] [(0, 10, 14); (0, 10, 15); (2, 10, 15)] [(0, 10, 14); (0, 10, 15); (2, 10, 15)]].

Definition RE_CUB_37 : list cmd := [
  SetH 10 14 (Some (-20000)) (Some (-20000)) (Some 10000) (Some 10000) (Some 20000) None None None None;
  SetH 10 15 (Some (-30000)) (Some (-30000)) (Some (-20000)) (Some (-20000)) (Some 0) (Some 10000) (Some 30000) None None;
  CheckUB 10 14 0 10 15 10000;
  ExpStatus 0;
  Reset [(10, 14); (10, 15)] [(0, 10, 14); (0, 10, 15); (2, 10, 15)] [(0, 10, 14); (0, 10, 15)]].

Definition RE_CUB_38 : list cmd := [
  SetH 10 14 (Some (-20000)) (Some (-20000)) (Some 10000) (Some 10000) (Some 50000) None None None None;
  SetH 10 15 (Some (-30000)) (Some (-30000)) (Some (-20000)) (Some (-20000)) (Some 0) (Some 10000) (Some 20000) None None;
  CheckUB 10 14 0 10 15 10000;
  ExpStatus 0;
  Reset [(10, 14); (10, 15)] [(0, 10, 14); (0, 10, 15); (2, 10, 15)] [(0, 10, 14); (0, 10, 15)]].

Definition RE_CUB_39 : list cmd := [
  SetH 10 14 (Some (-20000)) (Some (-20000)) (Some 10000) (Some 10000) (Some 40000) None None None None;
  SetH 10 15 (Some (-30000)) (Some (-30000)) (Some (-20000)) (Some (-20000)) (Some 0) (Some 10000) (Some 20000) None None;
  CheckUB 10 14 0 10 15 30000;
  ExpStatus 32;
  Reset [(10, 14); (10, 15)] [(0, 10, 14); (0, 10, 15); (2, 10, 15)] [(0, 10, 14); (0, 10, 15)]].

Definition RE_CUB_40 : list cmd := [
  SetH 10 14 (Some (-20000)) (Some (-20000)) (Some 10000) (Some 10000) (Some 20000) None None None None;
  SetH 10 15 (Some (-30000)) (Some (-30000)) (Some (-20000)) (Some (-20000)) (Some 0) (Some 10000) (Some 30000) (Some 30000) (Some 50000);
  CheckUB 10 14 0 10 15 10000;
  ExpStatus 0;
  Reset [(10, 14); (10, 15)] [(0, 10, 14); (0, 10, 15); (2, 10, 15)] [(0, 10, 14); (0, 10, 15); (2, 10, 15)]].

Definition RE_CUB_41 : list cmd := [
  SetH 10 14 (Some (-20000)) (Some (-20000)) (Some 10000) (Some 10000) (Some 50000) None None None None;
  SetH 10 15 (Some (-40000)) (Some (-40000)) (Some (-30000)) (Some (-30000)) (Some 0) (Some 10000) (Some 20000) (Some 20000) (Some 30000);
  CheckUB 10 14 0 10 15 10000;
  ExpStatus 0;
  Reset [(10, 14); (10, 15)] [(0, 10, 14); (0, 10, 15); (2, 10, 15)] [(0, 10, 14); (0, 10, 15); (2, 10, 15)]].

Definition RE_CUB_42 : list cmd := [
  SetH 10 14 (Some (-20000)) (Some (-20000)) (Some 10000) (Some 10000) (Some 50000) None None None None;
  SetH 10 15 (Some (-40000)) (Some (-40000)) (Some (-30000)) (Some (-30000)) (Some 0) (Some 10000) (Some 20000) (Some 20000) (Some 30000);
  CheckUB 10 14 0 10 15 40000;
  ExpStatus 31;
  Reset [(10, 14); (10, 15)] [(0, 10, 14); (0, 10, 15); (2, 10, 15)] [(0, 10, 14); (0, 10, 15); (2, 10, 15)]].

Definition RE_CUB_43 : list cmd := [
  SetH 10 14 (Some (-40000)) (Some (-40000)) (Some (-30000)) (Some (-30000)) (Some 20000) None None None None;
  SetH 10 15 (Some (-40000)) (Some (-40000)) (Some (-30000)) (Some (-30000)) (Some 0) (Some 0) (Some 50000) None None;
  CheckUB 10 14 0 10 15 10000;
  ExpStatus 0;
  Reset [(10, 14); (10, 15)] [(0, 10, 14); (0, 10, 15); (2, 10, 15)] [(0, 10, 14); (0, 10, 15)]].

Definition RE_CUB_44 : list cmd := [
  SetH 10 14 (Some (-40000)) (Some (-40000)) (Some (-30000)) (Some (-30000)) (Some 50000) None None None None;
  SetH 10 15 (Some (-40000)) (Some (-40000)) (Some (-30000)) (Some (-30000)) (Some 0) (Some 0) (Some 20000) None None;
  CheckUB 10 14 0 10 15 10000;
  ExpStatus 0;
  Reset [(10, 14); (10, 15)] [(0, 10, 14); (0, 10, 15); (2, 10, 15)] [(0, 10, 14); (0, 10, 15)]].

Definition RE_CUB_45 : list cmd := [
  SetH 10 14 (Some (-40000)) (Some (-40000)) (Some (-30000)) (Some (-30000)) (Some 30000) None None None None;
  SetH 10 15 (Some (-40000)) (Some (-40000)) (Some (-30000)) (Some (-30000)) (Some 0) (Some 0) (Some 10000) None None;
  CheckUB 10 14 0 10 15 20000;
  ExpStatus 32;
  Reset [(10, 14); (10, 15)] [(0, 10, 14); (0, 10, 15); (2, 10, 15)] [(0, 10, 14); (0, 10, 15)]].

Definition RE_CUB_46 : list cmd := [
  SetH 10 14 (Some (-40000)) (Some (-40000)) (Some (-30000)) (Some (-30000)) (Some 20000) None None None None;
  SetH 10 15 (Some (-40000)) (Some (-40000)) (Some (-30000)) (Some (-30000)) (Some 0) (Some 0) (Some 10000) (Some 10000) (Some 50000);
  CheckUB 10 14 0 10 15 10000;
  ExpStatus 0;
  Reset [(10, 14); (10, 15)] [(0, 10, 14); (0, 10, 15); (2, 10, 15)] [(0, 10, 14); (0, 10, 15); (2, 10, 15)]].

Definition RE_CUB_47 : list cmd := [
  SetH 10 14 (Some (-40000)) (Some (-40000)) (Some (-30000)) (Some (-30000)) (Some 40000) None None None None;
  SetH 10 15 (Some (-40000)) (Some (-40000)) (Some (-30000)) (Some (-30000)) (Some 0) (Some 0) (Some 10000) (Some 10000) (Some 20000);
  CheckUB 10 14 0 10 15 10000;
  ExpStatus 0;
  Reset [(10, 14); (10, 15)] [(0, 10, 14); (0, 10, 15); (2, 10, 15)] [(0, 10, 14); (0, 10, 15); (2, 10, 15)]].

Definition RE_CUB_48 : list cmd := [
  SetH 10 14 (Some (-40000)) (Some (-40000)) (Some (-30000)) (Some (-30000)) (Some 40000) None None None None;
  SetH 10 15 (Some (-40000)) (Some (-40000)) (Some (-30000)) (Some (-30000)) (Some 0) (Some 0) (Some 10000) (Some 10000) (Some 20000);
  CheckUB 10 14 0 10 15 30000;
  ExpStatus 31;
  Reset [(10, 14); (10, 15)] [(0, 10, 14); (0, 10, 15); (2, 10, 15)] [(0, 10, 14); (0, 10, 15); (2, 10, 15)]].

Definition RE_CUB_49 : list cmd := [
  SetH 10 14 (Some (-20000)) (Some (-20000)) (Some 0) (Some 0) (Some 20000) None None None None;
  SetH 10 15 (Some (-40000)) (Some (-40000)) (Some (-30000)) (Some (-30000)) (Some 0) (Some 0) (Some 50000) None None;
  CheckUB 10 14 0 10 15 10000;
  ExpStatus 0;
  Reset [(10, 14); (10, 15)] [(0, 10, 14); (0, 10, 15); (2, 10, 15)] [(0, 10, 14); (0, 10, 15)]].

Definition RE_CUB_50 : list cmd := [
  SetH 10 14 (Some (-20000)) (Some (-20000)) (Some 0) (Some 0) (Some 30000) None None None None;
  SetH 10 15 (Some (-40000)) (Some (-40000)) (Some (-30000)) (Some (-30000)) (Some 0) (Some 0) (Some 10000) None None;
  CheckUB 10 14 0 10 15 (-10000);
  ExpStatus 0;
  Reset [(10, 14); (10, 15)] [(0, 10, 14); (0, 10, 15); (2, 10, 15)] [(0, 10, 14); (0, 10, 15)]].

Definition RE_CUB_51 : list cmd := [
  SetH 10 14 (Some (-20000)) (Some (-20000)) (Some 0) (Some 0) (Some 20000) None None None None;
  SetH 10 15 (Some (-40000)) (Some (-40000)) (Some (-30000)) (Some (-30000)) (Some 0) (Some 0) (Some 10000) None None;
  CheckUB 10 14 0 10 15 20000;
  ExpStatus 32;
  Reset [(10, 14); (10, 15)] [(0, 10, 14); (0, 10, 15); (2, 10, 15)] [(0, 10, 14); (0, 10, 15)]].

Definition RE_CUB_52 : list cmd := [
  SetH 10 14 (Some (-20000)) (Some (-20000)) (Some 0) (Some 0) (Some 20000) None None None None;
  SetH 10 15 (Some (-40000)) (Some (-40000)) (Some (-30000)) (Some (-30000)) (Some 0) (Some 0) (Some 10000) (Some 10000) (Some 30000);
  CheckUB 10 14 0 10 15 10000;
  ExpStatus 0;
  Reset [(10, 14); (10, 15)] [(0, 10, 14); (0, 10, 15); (2, 10, 15)] [(0, 10, 14); (0, 10, 15); (2, 10, 15)]].

Definition RE_CUB_53 : list cmd := [
  SetH 10 14 (Some (-20000)) (Some (-20000)) (Some 0) (Some 0) (Some 50000) None None None None;
  SetH 10 15 (Some (-40000)) (Some (-40000)) (Some (-30000)) (Some (-30000)) (Some 0) (Some 0) (Some 10000) (Some 10000) (Some 20000);
  CheckUB 10 14 0 10 15 (-10000);
  ExpStatus 0;
  Reset [(10, 14); (10, 15)] [(0, 10, 14); (0, 10, 15); (2, 10, 15)] [(0, 10, 14); (0, 10, 15); (2, 10, 15)]].

Definition RE_CUB_54 : list cmd := [
  SetH 10 14 (Some (-20000)) (Some (-20000)) (Some 0) (Some 0) (Some 50000) None None None None;
  SetH 10 15 (Some (-40000)) (Some (-40000)) (Some (-30000)) (Some (-30000)) (Some 0) (Some 0) (Some 10000) (Some 10000) (Some 20000);
  CheckUB 10 14 0 10 15 30000;
  ExpStatus 31;
  Reset [(10, 14); (10, 15)] [(0, 10, 14); (0, 10, 15); (2, 10, 15)] [(0, 10, 14); (0, 10, 15); (2, 10, 15)]].

Definition RE_CUB_55 : list cmd := [
  SetH 10 14 (Some (-20000)) (Some (-20000)) (Some 0) (Some 0) (Some 20000) None None None None;
  SetH 10 15 (Some (-20000)) (Some 10000) (Some 20000) None None (Some (-20000)) (Some (-10000)) None None;
  CheckUB 10 14 0 10 15 (-10000);
  ExpStatus 0;
  Reset [(10, 14); (10, 15)] [(0, 10, 14); (0, 10, 15); (2, 10, 15)] [(0, 10, 14)]].

Definition RE_CUB_56 : list cmd := [
  SetH 10 14 (Some (-20000)) (Some (-20000)) (Some 0) (Some 0) (Some 20000) None None None None;
  SetH 10 15 (Some (-20000)) (Some 10000) (Some 20000) None None (Some (-20000)) (Some (-10000)) None None;
  CheckUB 10 14 0 10 15 10000;
  ExpStatus 32;
  Reset [(10, 14); (10, 15)] [(0, 10, 14); (0, 10, 15); (2, 10, 15)] [(0, 10, 14)]].

Definition RE_CUB_57 : list cmd := [
  SetH 10 14 (Some (-20000)) (Some (-20000)) (Some 0) (Some 0) (Some 30000) None None None None;
  SetH 10 15 (Some (-20000)) (Some 10000) (Some 20000) None None (Some (-20000)) (Some (-10000)) None None;
  CheckUB 10 14 0 10 15 (-10000);
  ExpStatus 0;
  Reset [(10, 14); (10, 15)] [(0, 10, 14); (0, 10, 15); (2, 10, 15)] [(0, 10, 14)]].

Definition RE_CUB_58 : list cmd := [
  SetH 10 14 (Some (-20000)) (Some (-20000)) (Some 0) (Some 0) (Some 30000) None None None None;
  SetH 10 15 (Some (-20000)) (Some 10000) (Some 20000) None None (Some (-20000)) (Some (-10000)) None None;
  CheckUB 10 14 0 10 15 0;
  ExpStatus 32;
  Reset [(10, 14); (10, 15)] [(0, 10, 14); (0, 10, 15); (2, 10, 15)] [(0, 10, 14)]].

Definition RE_CUB_59 : list cmd := [
  SetH 10 14 (Some (-20000)) (Some (-20000)) (Some 0) (Some 0) (Some 20000) None None None None;
  SetH 10 15 (Some (-20000)) (Some 10000) (Some 20000) (Some 20000) (Some 30000) (Some (-20000)) (Some (-10000)) None None;
  CheckUB 10 14 0 10 15 (-10000);
  ExpStatus 0;
  Reset [(10, 14); (10, 15)] [(0, 10, 14); (0, 10, 15); (2, 10, 15)] [(0, 10, 14); (0, 10, 15)]].

Definition RE_CUB_60 : list cmd := [
  SetH 10 14 (Some (-20000)) (Some (-20000)) (Some 0) (Some 0) (Some 20000) None None None None;
  SetH 10 15 (Some (-20000)) (Some 10000) (Some 20000) (Some 20000) (Some 30000) (Some (-20000)) (Some (-10000)) None None;
  CheckUB 10 14 0 10 15 10000;
  ExpStatus 32;
  Reset [(10, 14); (10, 15)] [(0, 10, 14); (0, 10, 15); (2, 10, 15)] [(0, 10, 14); (0, 10, 15)]].

Definition RE_CUB_61 : list cmd := [
  SetH 10 14 (Some (-20000)) (Some (-20000)) (Some 0) (Some 0) (Some 50000) None None None None;
  SetH 10 15 (Some (-20000)) (Some 10000) (Some 20000) (Some 20000) (Some 30000) (Some (-20000)) (Some (-10000)) None None;
  CheckUB 10 14 0 10 15 (-10000);
  ExpStatus 0;
  Reset [(10, 14); (10, 15)] [(0, 10, 14); (0, 10, 15); (2, 10, 15)] [(0, 10, 14); (0, 10, 15)]].

Definition RE_CUB_62 : list cmd := [
  SetH 10 14 (Some (-20000)) (Some (-20000)) (Some 0) (Some 0) (Some 50000) None None None None;
  SetH 10 15 (Some (-20000)) (Some 10000) (Some 20000) (Some 20000) (Some 30000) (Some (-20000)) (Some (-10000)) None None;
  CheckUB 10 14 0 10 15 10000;
  ExpStatus 32;
  Reset [(10, 14); (10, 15)] [(0, 10, 14); (0, 10, 15); (2, 10, 15)] [(0, 10, 14); (0, 10, 15)]].

Definition RE_CUB_63 : list cmd := [
  SetH 10 14 (Some (-20000)) (Some (-20000)) (Some 0) (Some 0) (Some 20000) None None None None;
  SetH 10 15 (Some (-40000)) (Some 0) (Some 40000) None None (Some (-40000)) (Some (-30000)) None None;
  CheckUB 10 14 0 10 15 10000;
  ExpStatus 0;
  Reset [(10, 14); (10, 15)] [(0, 10, 14); (0, 10, 15); (2, 10, 15)] [(0, 10, 14)]].

Definition RE_CUB_64 : list cmd := [
  SetH 10 14 (Some (-20000)) (Some (-20000)) (Some 0) (Some 0) (Some 40000) None None None None;
  SetH 10 15 (Some (-40000)) (Some 0) (Some 10000) None None (Some (-40000)) (Some (-30000)) None None;
  CheckUB 10 14 0 10 15 10000;
  ExpStatus 0;
  Reset [(10, 14); (10, 15)] [(0, 10, 14); (0, 10, 15); (2, 10, 15)] [(0, 10, 14)]].

Definition RE_CUB_65 : list cmd := [
  SetH 10 14 (Some (-20000)) (Some (-20000)) (Some 0) (Some 0) (Some 40000) None None None None;
  SetH 10 15 (Some (-40000)) (Some 0) (Some 10000) None None (Some (-40000)) (Some (-30000)) None None;
  CheckUB 10 14 0 10 15 20000;
  ExpStatus 34;
  Reset [(10, 14); (10, 15)] [(0, 10, 14); (0, 10, 15); (2, 10, 15)] [(0, 10, 14)]].

Definition RE_CUB_66 : list cmd := [
  SetH 10 14 (Some (-20000)) (Some (-20000)) (Some 0) (Some 0) (Some 20000) None None None None;
  SetH 10 15 (Some (-40000)) (Some 0) (Some 10000) (Some 10000) (Some 30000) (Some (-40000)) (Some (-30000)) None None;
  CheckUB 10 14 0 10 15 10000;
  ExpStatus 0;
  Reset [(10, 14); (10, 15)] [(0, 10, 14); (0, 10, 15); (2, 10, 15)] [(0, 10, 14); (0, 10, 15)]].

Definition RE_CUB_67 : list cmd := [
  SetH 10 14 (Some (-20000)) (Some (-20000)) (Some 0) (Some 0) (Some 50000) None None None None;
  SetH 10 15 (Some (-40000)) (Some 0) (Some 10000) (Some 10000) (Some 30000) (Some (-40000)) (Some (-30000)) None None;
  CheckUB 10 14 0 10 15 10000;
  ExpStatus 0;
  Reset [(10, 14); (10, 15)] [(0, 10, 14); (0, 10, 15); (2, 10, 15)] [(0, 10, 14); (0, 10, 15)]].

Definition RE_CUB_68 : list cmd := [
  SetH 10 14 (Some (-20000)) (Some (-20000)) (Some 0) (Some 0) (Some 40000) None None None None;
  SetH 10 15 (Some (-40000)) (Some 0) (Some 10000) (Some 10000) (Some 20000) (Some (-40000)) (Some (-30000)) None None;
  CheckUB 10 14 0 10 15 30000;
  ExpStatus 33;
  Reset [(10, 14); (10, 15)] [(0, 10, 14); (0, 10, 15); (2, 10, 15)] [(0, 10, 14); (0, 10, 15)]].

Definition RE_CUB_69 : list cmd := [
  SetH 10 14 (Some (-20000)) (Some (-20000)) (Some 0) (Some 0) (Some 20000) None None None None;
  SetH 10 15 (Some (-20000)) (Some 10000) (Some 20000) None None (Some (-20000)) (Some (-10000)) (Some (-10000)) (Some 0);
  CheckUB 10 14 0 10 15 0;
  ExpStatus 0;
  Reset [(10, 14); (10, 15)] [(0, 10, 14); (0, 10, 15); (2, 10, 15)] [(0, 10, 14); (2, 10, 15)]].

Definition RE_CUB_70 : list cmd := [
  SetH 10 14 (Some (-20000)) (Some (-20000)) (Some 0) (Some 0) (Some 20000) None None None None;
  SetH 10 15 (Some (-20000)) (Some 10000) (Some 20000) None None (Some (-20000)) (Some (-10000)) (Some (-10000)) (Some 0);
  CheckUB 10 14 0 10 15 10000;
  ExpStatus 31;
  Reset [(10, 14); (10, 15)] [(0, 10, 14); (0, 10, 15); (2, 10, 15)] [(0, 10, 14); (2, 10, 15)]].

Definition RE_CUB_71 : list cmd := [
  SetH 10 14 (Some (-20000)) (Some (-20000)) (Some 0) (Some 0) (Some 50000) None None None None;
  SetH 10 15 (Some (-20000)) (Some 10000) (Some 20000) None None (Some (-20000)) (Some (-10000)) (Some (-10000)) (Some 0);
  CheckUB 10 14 0 10 15 0;
  ExpStatus 0;
  Reset [(10, 14); (10, 15)] [(0, 10, 14); (0, 10, 15); (2, 10, 15)] [(0, 10, 14); (2, 10, 15)]].

Definition RE_CUB_72 : list cmd := [
  SetH 10 14 (Some (-20000)) (Some (-20000)) (Some 0) (Some 0) (Some 50000) None None None None;
  SetH 10 15 (Some (-20000)) (Some 10000) (Some 20000) None None (Some (-20000)) (Some (-10000)) (Some (-10000)) (Some 0);
  CheckUB 10 14 0 10 15 10000;
  ExpStatus 31;
  Reset [(10, 14); (10, 15)] [(0, 10, 14); (0, 10, 15); (2, 10, 15)] [(0, 10, 14); (2, 10, 15)]].

Definition RE_CUB_73 : list cmd := [
  SetH 10 14 (Some (-20000)) (Some (-20000)) (Some 0) (Some 0) (Some 20000) None None None None;
  SetH 10 15 (Some (-20000)) (Some 10000) (Some 20000) (Some 20000) (Some 30000) (Some (-20000)) (Some (-10000)) (Some (-10000)) (Some 0);
  CheckUB 10 14 0 10 15 (-10000);
  ExpStatus 0;
  Reset [(10, 14); (10, 15)] [(0, 10, 14); (0, 10, 15); (2, 10, 15)] [(0, 10, 14); (0, 10, 15); (2, 10, 15)]].

Definition RE_CUB_74 : list cmd := [
  SetH 10 14 (Some (-20000)) (Some (-20000)) (Some 0) (Some 0) (Some 20000) None None None None;
  SetH 10 15 (Some (-20000)) (Some 10000) (Some 20000) (Some 20000) (Some 30000) (Some (-20000)) (Some (-10000)) (Some (-10000)) (Some 0);
  CheckUB 10 14 0 10 15 10000;
  ExpStatus 31;
  Reset [(10, 14); (10, 15)] [(0, 10, 14); (0, 10, 15); (2, 10, 15)] [(0, 10, 14); (0, 10, 15); (2, 10, 15)]].

Definition RE_CUB_75 : list cmd := [
  SetH 10 14 (Some (-20000)) (Some (-20000)) (Some 0) (Some 0) (Some 50000) None None None None;
  SetH 10 15 (Some (-20000)) (Some 10000) (Some 20000) (Some 20000) (Some 30000) (Some (-20000)) (Some (-10000)) (Some (-10000)) (Some 0);
  CheckUB 10 14 0 10 15 (-10000);
  ExpStatus 0;
  Reset [(10, 14); (10, 15)] [(0, 10, 14); (0, 10, 15); (2, 10, 15)] [(0, 10, 14); (0, 10, 15); (2, 10, 15)]].

Definition RE_CUB_76 : list cmd := [
  SetH 10 14 (Some (-20000)) (Some (-20000)) (Some 0) (Some 0) (Some 50000) None None None None;
  SetH 10 15 (Some (-20000)) (Some 10000) (Some 20000) (Some 20000) (Some 30000) (Some (-20000)) (Some (-10000)) (Some (-10000)) (Some 0);
  CheckUB 10 14 0 10 15 10000;
  ExpStatus 31;
  Reset [(10, 14); (10, 15)] [(0, 10, 14); (0, 10, 15); (2, 10, 15)] [(0, 10, 14); (0, 10, 15); (2, 10, 15)]].

Definition RE_CUB_77 : list cmd := [
  SetH 10 14 (Some (-20000)) (Some (-20000)) (Some 0) (Some 0) (Some 20000) None None None None;
  SetH 10 15 (Some (-40000)) (Some 0) (Some 30000) None None (Some (-40000)) (Some (-30000)) (Some (-30000)) (Some 0);
  CheckUB 10 14 0 10 15 10000;
  ExpStatus 0;
  Reset [(10, 14); (10, 15)] [(0, 10, 14); (0, 10, 15); (2, 10, 15)] [(0, 10, 14); (2, 10, 15)]].

Definition RE_CUB_78 : list cmd := [
  SetH 10 14 (Some (-20000)) (Some (-20000)) (Some 10000) (Some 10000) (Some 40000) None None None None;
  SetH 10 15 (Some (-40000)) (Some 10000) (Some 20000) None None (Some (-40000)) (Some (-30000)) (Some (-30000)) (Some 0);
  CheckUB 10 14 0 10 15 20000;
  ExpStatus 0;
  Reset [(10, 14); (10, 15)] [(0, 10, 14); (0, 10, 15); (2, 10, 15)] [(0, 10, 14); (2, 10, 15)]].

Definition RE_CUB_79 : list cmd := [
  SetH 10 14 (Some (-20000)) (Some (-20000)) (Some 10000) (Some 10000) (Some 40000) None None None None;
  SetH 10 15 (Some (-40000)) (Some 10000) (Some 20000) None None (Some (-40000)) (Some (-30000)) (Some (-30000)) (Some 0);
  CheckUB 10 14 0 10 15 40000;
  ExpStatus 34;
  Reset [(10, 14); (10, 15)] [(0, 10, 14); (0, 10, 15); (2, 10, 15)] [(0, 10, 14); (2, 10, 15)]].

Definition RE_CUB_80 : list cmd := [
  SetH 10 14 (Some (-20000)) (Some (-20000)) (Some 10000) (Some 10000) (Some 20000) None None None None;
  SetH 10 15 (Some (-40000)) (Some 10000) (Some 30000) (Some 30000) (Some 40000) (Some (-40000)) (Some (-30000)) (Some (-30000)) (Some 0);
  CheckUB 10 14 0 10 15 10000;
  ExpStatus 0;
  Reset [(10, 14); (10, 15)] [(0, 10, 14); (0, 10, 15); (2, 10, 15)] [(0, 10, 14); (0, 10, 15); (2, 10, 15)]].

Definition RE_CUB_81 : list cmd := [
  SetH 10 14 (Some (-20000)) (Some (-20000)) (Some 10000) (Some 10000) (Some 60000) None None None None;
  SetH 10 15 (Some (-40000)) (Some 10000) (Some 30000) (Some 30000) (Some 40000) (Some (-40000)) (Some (-30000)) (Some (-30000)) (Some 0);
  CheckUB 10 14 0 10 15 10000;
  ExpStatus 0;
  Reset [(10, 14); (10, 15)] [(0, 10, 14); (0, 10, 15); (2, 10, 15)] [(0, 10, 14); (0, 10, 15); (2, 10, 15)]].

Definition RE_CUB_82 : list cmd := [
  SetH 10 14 (Some (-20000)) (Some (-20000)) (Some 10000) (Some 10000) (Some 60000) None None None None;
  SetH 10 15 (Some (-40000)) (Some 10000) (Some 30000) (Some 30000) (Some 40000) (Some (-40000)) (Some (-30000)) (Some (-30000)) (Some 0);
  CheckUB 10 14 0 10 15 60000;
  ExpStatus 33;
  Reset [(10, 14); (10, 15)] [(0, 10, 14); (0, 10, 15); (2, 10, 15)] [(0, 10, 14); (0, 10, 15); (2, 10, 15)]].

Definition RE_CUB_83 : list cmd := [
  SetH 10 14 (Some (-40000)) (Some (-40000)) (Some (-30000)) (Some (-30000)) (Some 20000) None None None None;
  SetH 10 15 (Some (-40000)) (Some 0) (Some 30000) None None (Some (-40000)) (Some (-30000)) (Some (-30000)) (Some 0);
  CheckUB 10 14 0 10 15 10000;
  ExpStatus 0;
  Reset [(10, 14); (10, 15)] [(0, 10, 14); (0, 10, 15); (2, 10, 15)] [(0, 10, 14); (2, 10, 15)]].

Definition RE_CUB_84 : list cmd := [
  SetH 10 14 (Some (-40000)) (Some (-40000)) (Some (-30000)) (Some (-30000)) (Some 30000) None None None None;
  SetH 10 15 (Some (-40000)) (Some 0) (Some 10000) None None (Some (-40000)) (Some (-30000)) (Some (-30000)) (Some 0);
  CheckUB 10 14 0 10 15 (-10000);
  ExpStatus 0;
  Reset [(10, 14); (10, 15)] [(0, 10, 14); (0, 10, 15); (2, 10, 15)] [(0, 10, 14); (2, 10, 15)]].

Definition RE_CUB_85 : list cmd := [
  SetH 10 14 (Some (-40000)) (Some (-40000)) (Some (-30000)) (Some (-30000)) (Some 20000) None None None None;
  SetH 10 15 (Some (-40000)) (Some 0) (Some 10000) None None (Some (-40000)) (Some (-30000)) (Some (-30000)) (Some 0);
  CheckUB 10 14 0 10 15 20000;
  ExpStatus 34;
  Reset [(10, 14); (10, 15)] [(0, 10, 14); (0, 10, 15); (2, 10, 15)] [(0, 10, 14); (2, 10, 15)]].

Definition RE_CUB_86 : list cmd := [
  SetH 10 14 (Some (-40000)) (Some (-40000)) (Some (-30000)) (Some (-30000)) (Some 20000) None None None None;
  SetH 10 15 (Some (-40000)) (Some 0) (Some 10000) (Some 10000) (Some 50000) (Some (-40000)) (Some (-30000)) (Some (-30000)) (Some 0);
  CheckUB 10 14 0 10 15 10000;
  ExpStatus 0;
  Reset [(10, 14); (10, 15)] [(0, 10, 14); (0, 10, 15); (2, 10, 15)] [(0, 10, 14); (0, 10, 15); (2, 10, 15)]].

Definition RE_CUB_87 : list cmd := [
  SetH 10 14 (Some (-40000)) (Some (-40000)) (Some (-30000)) (Some (-30000)) (Some 40000) None None None None;
  SetH 10 15 (Some (-40000)) (Some 0) (Some 10000) (Some 10000) (Some 20000) (Some (-40000)) (Some (-30000)) (Some (-30000)) (Some 0);
  CheckUB 10 14 0 10 15 10000;
  ExpStatus 0;
  Reset [(10, 14); (10, 15)] [(0, 10, 14); (0, 10, 15); (2, 10, 15)] [(0, 10, 14); (0, 10, 15); (2, 10, 15)]].

Definition RE_CUB_88 : list cmd := [
  SetH 10 14 (Some (-40000)) (Some (-40000)) (Some (-30000)) (Some (-30000)) (Some 40000) None None None None;
  SetH 10 15 (Some (-40000)) (Some 0) (Some 10000) (Some 10000) (Some 20000) (Some (-40000)) (Some (-30000)) (Some (-30000)) (Some 0);
  CheckUB 10 14 0 10 15 30000;
  ExpStatus 33;
  Reset [(10, 14); (10, 15)] [(0, 10, 14); (0, 10, 15); (2, 10, 15)] [(0, 10, 14); (0, 10, 15); (2, 10, 15)]].

Definition RE_CUB_89 : list cmd := [
  SetH 10 14 (Some (-20000)) (Some (-20000)) (Some 0) (Some 0) (Some 20000) None None None None;
  SetH 10 15 (Some (-40000)) (Some 0) (Some 30000) None None (Some (-40000)) (Some (-30000)) (Some (-30000)) (Some 0);
  CheckUB 10 14 0 10 15 10000;
  ExpStatus 0;
  Reset [(10, 14); (10, 15)] [(0, 10, 14); (0, 10, 15); (2, 10, 15)] [(0, 10, 14); (2, 10, 15)]].

Definition RE_CUB_90 : list cmd := [
  SetH 10 14 (Some (-20000)) (Some (-20000)) (Some 0) (Some 0) (Some 30000) None None None None;
  SetH 10 15 (Some (-40000)) (Some 0) (Some 10000) None None (Some (-40000)) (Some (-30000)) (Some (-30000)) (Some 0);
  CheckUB 10 14 0 10 15 (-10000);
  ExpStatus 0;
  Reset [(10, 14); (10, 15)] [(0, 10, 14); (0, 10, 15); (2, 10, 15)] [(0, 10, 14); (2, 10, 15)]].

Definition RE_CUB_91 : list cmd := [
  SetH 10 14 (Some (-20000)) (Some (-20000)) (Some 0) (Some 0) (Some 30000) None None None None;
  SetH 10 15 (Some (-40000)) (Some 0) (Some 10000) None None (Some (-40000)) (Some (-30000)) (Some (-30000)) (Some 0);
  CheckUB 10 14 0 10 15 20000;
  ExpStatus 34;
  Reset [(10, 14); (10, 15)] [(0, 10, 14); (0, 10, 15); (2, 10, 15)] [(0, 10, 14); (2, 10, 15)]].

Definition RE_CUB_92 : list cmd := [
  SetH 10 14 (Some (-20000)) (Some (-20000)) (Some 0) (Some 0) (Some 20000) None None None None;
  SetH 10 15 (Some (-40000)) (Some 0) (Some 10000) (Some 10000) (Some 50000) (Some (-40000)) (Some (-30000)) (Some (-30000)) (Some 0);
  CheckUB 10 14 0 10 15 10000;
  ExpStatus 0;
  Reset [(10, 14); (10, 15)] [(0, 10, 14); (0, 10, 15); (2, 10, 15)] [(0, 10, 14); (0, 10, 15); (2, 10, 15)]].

Definition RE_CUB_93 : list cmd := [
  SetH 10 14 (Some (-20000)) (Some (-20000)) (Some 0) (Some 0) (Some 50000) None None None None;
  SetH 10 15 (Some (-40000)) (Some 0) (Some 10000) (Some 10000) (Some 20000) (Some (-40000)) (Some (-30000)) (Some (-30000)) (Some 0);
  CheckUB 10 14 0 10 15 0;
  ExpStatus 0;
  Reset [(10, 14); (10, 15)] [(0, 10, 14); (0, 10, 15); (2, 10, 15)] [(0, 10, 14); (0, 10, 15); (2, 10, 15)]].

Definition RE_CUB_94 : list cmd := [
  SetH 10 14 (Some (-20000)) (Some (-20000)) (Some 0) (Some 0) (Some 50000) None None None None;
  SetH 10 15 (Some (-40000)) (Some 0) (Some 10000) (Some 10000) (Some 20000) (Some (-40000)) (Some (-30000)) (Some (-30000)) (Some 0);
  CheckUB 10 14 0 10 15 30000;
  ExpStatus 33;
  Reset [(10, 14); (10, 15)] [(0, 10, 14); (0, 10, 15); (2, 10, 15)] [(0, 10, 14); (0, 10, 15); (2, 10, 15)]].

Definition check_body_tests : list cmd :=
  RE_CUB_1 ++ RE_CUB_2 ++ RE_CUB_3 ++ RE_CUB_4 ++ RE_CUB_5 ++ RE_CUB_6 ++ RE_CUB_7 ++ RE_CUB_8 ++ RE_CUB_9 ++ RE_CUB_10 ++ RE_CUB_11 ++ RE_CUB_12 ++ RE_CUB_13 ++ RE_CUB_14 ++ RE_CUB_15 ++ RE_CUB_16 ++ RE_CUB_17 ++ RE_CUB_18 ++ RE_CUB_19 ++ RE_CUB_20 ++ RE_CUB_21 ++ RE_CUB_22 ++ RE_CUB_23 ++ RE_CUB_24 ++ RE_CUB_25 ++ RE_CUB_26 ++ RE_CUB_27 ++ RE_CUB_28 ++ RE_CUB_29 ++ RE_CUB_30 ++ RE_CUB_31 ++ RE_CUB_32 ++ RE_CUB_33 ++ RE_CUB_34 ++ RE_CUB_35 ++ RE_CUB_36 ++ RE_CUB_37 ++ RE_CUB_38 ++ RE_CUB_39 ++ RE_CUB_40 ++ RE_CUB_41 ++ RE_CUB_42 ++ RE_CUB_43 ++ RE_CUB_44 ++ RE_CUB_45 ++ RE_CUB_46 ++ RE_CUB_47 ++ RE_CUB_48 ++ RE_CUB_49 ++ RE_CUB_50 ++ RE_CUB_51 ++ RE_CUB_52 ++ RE_CUB_53 ++ RE_CUB_54 ++ RE_CUB_55 ++ RE_CUB_56 ++ RE_CUB_57 ++ RE_CUB_58 ++ RE_CUB_59 ++ RE_CUB_60 ++ RE_CUB_61 ++ RE_CUB_62 ++ RE_CUB_63 ++ RE_CUB_64 ++ RE_CUB_65 ++ RE_CUB_66 ++ RE_CUB_67 ++ RE_CUB_68 ++ RE_CUB_69 ++ RE_CUB_70 ++ RE_CUB_71 ++ RE_CUB_72 ++ RE_CUB_73 ++ RE_CUB_74 ++ RE_CUB_75 ++ RE_CUB_76 ++ RE_CUB_77 ++ RE_CUB_78 ++ RE_CUB_79 ++ RE_CUB_80 ++ RE_CUB_81 ++ RE_CUB_82 ++ RE_CUB_83 ++ RE_CUB_84 ++ RE_CUB_85 ++ RE_CUB_86 ++ RE_CUB_87 ++ RE_CUB_88 ++ RE_CUB_89 ++ RE_CUB_90 ++ RE_CUB_91 ++ RE_CUB_92 ++ RE_CUB_93 ++ RE_CUB_94.

Example check_body_tests_pass : z_run check_body_tests = None.
Proof. vm_compute. reflexivity. Qed.
