(** test/unit_tests/test_relax.cpp:2454-3908, TEST RelaxUnstableBodyCell. Produced by tools/translate_tests.py. *)
From Coq Require Import ZArith List.
From Verif Require Import Outcome Num State ModelBodyPos TestLang.
Import ListNotations.
Open Scope Z_scope.

Definition RE_RUB_1 : list cmd := [
  SetH 10 14 (Some (-20000)) (Some (-20000)) (Some 0) (Some 0) (Some 20000) None None None None;
  SetT 10 15 0;
  Push 0 10 14 0 40000 0 20000;
  RelaxUB 40 10000 0%nat 10 14 0 10 15;
  ExpH 10 14 (Some (-20000)) (Some 0) (Some 10000) None None;
  ExpT 10 15 10000;
  ExpPends 0%nat;
  ExpRecH 0%nat 10000;
  Reset [(10, 14); (10, 15)] [(0, 10, 14)] [(0, 10, 14)]].

Definition RE_RUB_2 : list cmd := [
  SetH 10 14 (Some (-20000)) (Some (-20000)) (Some 0) (Some 0) (Some 20000) None None None None;
  SetT 10 15 (-20000);
  Push 0 10 14 0 40000 0 20000;
  RelaxUB 40 10000 0%nat 10 14 0 10 15;
  ExpH 10 14 (Some (-20000)) (Some 0) (Some 0) None None;
  ExpT 10 15 0;
  ExpPends 0%nat;
  ExpRecH 0%nat 0;
  Reset [(10, 14); (10, 15)] [(0, 10, 14)] [(0, 10, 14)]].

Definition RE_RUB_3 : list cmd := [
  SetH 10 14 (Some (-20000)) (Some (-20000)) (Some 0) (Some 0) (Some 40000) None None None None;
  SetT 10 15 0;
  Push 0 10 14 0 40000 0 10000;
  Push 0 10 14 0 40000 0 30000;
  RelaxUB 40 10000 0%nat 10 14 0 10 15;
  ExpH 10 14 (Some (-20000)) (Some 0) (Some 30000) None None;
  ExpT 10 15 10000;
  ExpPends 0%nat;
  ExpRecH 0%nat 0;
  ExpRecH 1%nat 30000;
  Reset [(10, 14); (10, 15)] [(0, 10, 14)] [(0, 10, 14)]].

Definition RE_RUB_4 : list cmd := [
  SetH 10 14 (Some (-20000)) (Some (-20000)) (Some 0) (Some 0) (Some 20000) None None None None;
  SetH 10 15 (Some 0) (Some 30000) (Some 40000) None None None None None None;
  Push 0 10 14 0 40000 0 20000;
  RelaxUB 10 10000 0%nat 10 14 0 10 15;
  ExpH 10 14 (Some (-20000)) (Some 0) (Some 10000) None None;
  ExpT 10 15 10000;
  ExpPends 0%nat;
  ExpRecH 0%nat 10000;
  Reset [(10, 14); (10, 15)] [(0, 10, 14); (0, 10, 15)] [(0, 10, 14)]].

Definition RE_RUB_5 : list cmd := [
  SetH 10 14 (Some (-20000)) (Some (-20000)) (Some 0) (Some 0) (Some 20000) None None None None;
  SetH 10 15 (Some (-40000)) (Some 10000) (Some 40000) None None None None None None;
  Push 0 10 14 0 40000 0 20000;
  RelaxUB 10 10000 0%nat 10 14 0 10 15;
  ExpH 10 14 (Some (-20000)) (Some 0) (Some 0) None None;
  ExpH 10 15 (Some (-20000)) None None None None;
  ExpPends 0%nat;
  ExpRecH 0%nat 0;
  Reset [(10, 14); (10, 15)] [(0, 10, 14); (0, 10, 15)] [(0, 10, 14); (0, 10, 15)]].

Definition RE_RUB_6 : list cmd := [
  SetH 10 14 (Some (-20000)) (Some (-20000)) (Some 0) (Some 0) (Some 40000) None None None None;
  SetH 10 15 (Some 0) (Some 10000) (Some 20000) None None None None None None;
  Push 0 10 14 0 40000 0 40000;
  RelaxUB 10 10000 0%nat 10 14 0 10 15;
  ExpH 10 14 (Some (-20000)) (Some 0) (Some 30000) None None;
  ExpT 10 15 10000;
  ExpPends 0%nat;
  ExpRecH 0%nat 30000;
  Reset [(10, 14); (10, 15)] [(0, 10, 14); (0, 10, 15)] [(0, 10, 14)]].

Definition RE_RUB_7 : list cmd := [
  SetH 10 14 (Some (-20000)) (Some (-20000)) (Some 0) (Some 0) (Some 40000) None None None None;
  SetH 10 15 (Some 0) (Some 30000) (Some 40000) None None None None None None;
  Push 0 10 14 0 40000 0 10000;
  Push 0 10 14 0 40000 0 30000;
  RelaxUB 10 10000 0%nat 10 14 0 10 15;
  ExpH 10 14 (Some (-20000)) (Some 0) (Some 30000) None None;
  ExpT 10 15 10000;
  ExpPends 0%nat;
  ExpRecH 0%nat 0;
  ExpRecH 1%nat 30000;
  Reset [(10, 14); (10, 15)] [(0, 10, 14); (0, 10, 15)] [(0, 10, 14)]].

Definition RE_RUB_8 : list cmd := [
  SetH 10 14 (Some (-20000)) (Some (-20000)) (Some 0) (Some 0) (Some 60000) None None None None;
  SetH 10 15 (Some 0) (Some 10000) (Some 40000) None None None None None None;
  Push 0 10 14 0 40000 0 30000;
  Push 0 10 14 0 40000 0 30000;
  RelaxUB 10 10000 0%nat 10 14 0 10 15;
  ExpH 10 14 (Some (-20000)) (Some 0) (Some 50000) None None;
  ExpT 10 15 10000;
  ExpPends 0%nat;
  ExpRecH 0%nat 20000;
  ExpRecH 1%nat 30000;
  Reset [(10, 14); (10, 15)] [(0, 10, 14); (0, 10, 15)] [(0, 10, 14)]].

Definition RE_RUB_9 : list cmd := [
  SetH 10 14 (Some (-20000)) (Some (-20000)) (Some 0) (Some 0) (Some 20000) None None None None;
  SetH 10 15 (Some (-20000)) (Some (-20000)) (Some 0) None None None None None None;
  Push 0 10 14 0 40000 0 20000;
  RelaxUB 14 10000 0%nat 10 14 0 10 15;
  ExpH 10 14 (Some (-20000)) (Some 0) (Some 10000) None None;
  ExpH 10 15 (Some (-20000)) (Some 0) (Some 10000) None None;
  ExpPend 0%nat 0 10 15 0 50000 0 10000;
  ExpRecH 0%nat 10000;
  ExpPends 1%nat;
  Reset [(10, 14); (10, 15)] [(0, 10, 14); (0, 10, 15)] [(0, 10, 14); (0, 10, 15)];
  ClearPend].

Definition RE_RUB_10 : list cmd := [
  SetH 10 14 (Some (-20000)) (Some (-20000)) (Some 0) (Some 0) (Some 20000) None None None None;
  SetH 10 15 (Some (-30000)) (Some (-30000)) (Some (-20000)) None None None None None None;
  Push 0 10 14 0 40000 0 20000;
  RelaxUB 14 10000 0%nat 10 14 0 10 15;
  ExpH 10 14 (Some (-20000)) (Some 0) (Some 0) None None;
  ExpH 10 15 (Some (-30000)) (Some (-20000)) (Some 0) None None;
  ExpPend 0%nat 0 10 15 0 50000 (-20000) 20000;
  ExpRecH 0%nat 0;
  ExpPends 1%nat;
  Reset [(10, 14); (10, 15)] [(0, 10, 14); (0, 10, 15)] [(0, 10, 14); (0, 10, 15)];
  ClearPend].

Definition RE_RUB_11 : list cmd := [
  SetH 10 14 (Some (-20000)) (Some (-20000)) (Some 0) (Some 0) (Some 20000) None None None None;
  SetH 10 15 (Some (-30000)) (Some (-30000)) (Some (-20000)) None None None None None None;
  Push 0 10 14 0 40000 0 10000;
  Push 0 10 14 0 40000 0 10000;
  RelaxUB 14 10000 0%nat 10 14 0 10 15;
  ExpH 10 14 (Some (-20000)) (Some 0) (Some 10000) None None;
  ExpH 10 15 (Some (-30000)) (Some (-20000)) (Some (-10000)) None None;
  ExpPend 0%nat 0 10 15 0 50000 (-20000) 10000;
  ExpRecH 0%nat 0;
  ExpRecH 1%nat 10000;
  ExpPends 1%nat;
  Reset [(10, 14); (10, 15)] [(0, 10, 14); (0, 10, 15)] [(0, 10, 14); (0, 10, 15)];
  ClearPend].

Definition RE_RUB_12 : list cmd := [
  SetH 10 14 (Some (-20000)) (Some (-20000)) (Some 0) (Some 0) (Some 20000) None None None None;
  SetH 10 15 (Some (-30000)) (Some (-30000)) (Some (-20000)) (Some (-20000)) (Some 0) None None None None;
  Push 0 10 14 0 40000 0 20000;
  Push 0 10 15 0 50000 (-20000) 20000;
  RelaxUB 13 10000 0%nat 10 14 0 10 15;
  ExpH 10 14 (Some (-20000)) (Some 0) (Some 10000) None None;
  ExpH 10 15 (Some (-30000)) (Some (-20000)) (Some 10000) None None;
  ExpPend 0%nat 0 10 15 0 50000 (-20000) 10000;
  ExpRecH 0%nat 10000;
  ExpRecH 1%nat 20000;
  ExpPends 1%nat;
  Reset [(10, 14); (10, 15)] [(0, 10, 14); (0, 10, 15)] [(0, 10, 14); (0, 10, 15)];
  ClearPend].

Definition RE_RUB_13 : list cmd := [
  SetH 10 14 (Some (-20000)) (Some (-20000)) (Some 10000) (Some 10000) (Some 20000) None None None None;
  SetH 10 15 (Some (-30000)) (Some (-30000)) (Some (-20000)) (Some (-20000)) (Some (-10000)) None None None None;
  Push 0 10 14 0 40000 10000 10000;
  Push 0 10 15 0 50000 (-20000) 10000;
  RelaxUB 13 10000 0%nat 10 14 0 10 15;
  ExpH 10 14 (Some (-20000)) (Some 0) (Some 0) None None;
  ExpH 10 15 (Some (-30000)) (Some (-20000)) (Some 0) None None;
  ExpPend 0%nat 0 10 15 0 50000 (-20000) 10000;
  ExpRecH 0%nat 0;
  ExpRecH 1%nat 10000;
  ExpPends 1%nat;
  Reset [(10, 14); (10, 15)] [(0, 10, 14); (0, 10, 15)] [(0, 10, 14); (0, 10, 15)];
  ClearPend].

Definition RE_RUB_14 : list cmd := [
  SetH 10 14 (Some (-20000)) (Some (-20000)) (Some 20000) (Some 20000) (Some 40000) None None None None;
  SetH 10 15 (Some (-30000)) (Some (-30000)) (Some (-20000)) (Some (-20000)) (Some (-10000)) None None None None;
  Push 0 10 14 0 40000 20000 10000;
  Push 0 10 14 0 40000 20000 10000;
  Push 0 10 15 0 50000 (-20000) 10000;
  RelaxUB 13 10000 0%nat 10 14 0 10 15;
  ExpH 10 14 (Some (-20000)) (Some 20000) (Some 30000) None None;
  ExpH 10 15 (Some (-30000)) (Some (-20000)) (Some 0) None None;
  ExpPend 0%nat 0 10 15 0 50000 (-20000) 10000;
  ExpRecH 0%nat 0;
  ExpRecH 1%nat 10000;
  ExpRecH 2%nat 10000;
  ExpPends 1%nat;
  Reset [(10, 14); (10, 15)] [(0, 10, 14); (0, 10, 15)] [(0, 10, 14); (0, 10, 15)];
  ClearPend].

Definition RE_RUB_15 : list cmd := [
  SetH 10 14 (Some (-20000)) (Some (-20000)) (Some 0) (Some 0) (Some 20000) None None None None;
  SetH 10 15 (Some 0) None None None None (Some 50000) (Some 60000) None None;
  Push 0 10 14 0 40000 10000 20000;
  RelaxUB 20 10000 0%nat 10 14 0 10 15;
  ExpH 10 14 (Some (-20000)) (Some 0) (Some 10000) None None;
  ExpT 10 15 10000;
  ExpRecH 0%nat 10000;
  ExpPends 0%nat;
  Reset [(10, 14); (10, 15)] [(0, 10, 14); (2, 10, 15)] [(0, 10, 14); (2, 10, 15)]].

Definition RE_RUB_16 : list cmd := [
  SetH 10 14 (Some (-20000)) (Some (-20000)) (Some 0) (Some 0) (Some 20000) None None None None;
  SetH 10 15 (Some (-40000)) None None None None (Some 50000) (Some 60000) None None;
  Push 0 10 14 0 40000 0 20000;
  RelaxUB 20 10000 0%nat 10 14 0 10 15;
  ExpH 10 14 (Some (-20000)) (Some 0) (Some 0) None None;
  ExpT 10 15 (-20000);
  ExpRecH 0%nat 0;
  ExpPends 0%nat;
  Reset [(10, 14); (10, 15)] [(0, 10, 14); (2, 10, 15)] [(0, 10, 14)]].

Definition RE_RUB_17 : list cmd := [
  SetH 10 14 (Some (-20000)) (Some (-20000)) (Some 0) (Some 0) (Some 40000) None None None None;
  SetH 10 15 (Some 0) None None None None (Some 10000) (Some 60000) None None;
  Push 0 10 14 0 40000 0 40000;
  RelaxUB 20 10000 0%nat 10 14 0 10 15;
  ExpH 10 14 (Some (-20000)) (Some 0) (Some 30000) None None;
  ExpT 10 15 10000;
  ExpRecH 0%nat 30000;
  ExpPends 0%nat;
  Reset [(10, 14); (10, 15)] [(0, 10, 14); (2, 10, 15)] [(0, 10, 14); (2, 10, 15)]].

Definition RE_RUB_18 : list cmd := [
  SetH 10 14 (Some (-20000)) (Some (-20000)) (Some 0) (Some 0) (Some 20000) None None None None;
  SetH 10 15 (Some (-40000)) None None None None (Some 50000) (Some 60000) None None;
  Push 0 10 14 0 40000 0 10000;
  Push 0 10 14 0 40000 0 10000;
  RelaxUB 20 10000 0%nat 10 14 0 10 15;
  ExpH 10 14 (Some (-20000)) (Some 0) (Some 10000) None None;
  ExpT 10 15 (-30000);
  ExpRecH 0%nat 0;
  ExpRecH 1%nat 10000;
  ExpPends 0%nat;
  Reset [(10, 14); (10, 15)] [(0, 10, 14); (2, 10, 15)] [(0, 10, 14)]].

Definition RE_RUB_19 : list cmd := [
  SetH 10 14 (Some (-20000)) (Some (-20000)) (Some 0) (Some 0) (Some 60000) None None None None;
  SetH 10 15 (Some 0) None None None None (Some 10000) (Some 60000) None None;
  Push 0 10 14 0 40000 0 20000;
  Push 0 10 14 0 40000 0 40000;
  RelaxUB 20 10000 0%nat 10 14 0 10 15;
  ExpH 10 14 (Some (-20000)) (Some 0) (Some 50000) None None;
  ExpT 10 15 10000;
  ExpRecH 0%nat 10000;
  ExpRecH 1%nat 40000;
  ExpPends 0%nat;
  Reset [(10, 14); (10, 15)] [(0, 10, 14); (2, 10, 15)] [(0, 10, 14)]].

Definition RE_RUB_20 : list cmd := [
  SetH 10 14 (Some (-20000)) (Some (-20000)) (Some 0) (Some 0) (Some 20000) None None None None;
  SetH 10 15 (Some (-20000)) None None None None (Some (-20000)) (Some 0) None None;
  Push 0 10 14 0 40000 0 20000;
  RelaxUB 22 10000 0%nat 10 14 0 10 15;
  ExpH 10 14 (Some (-20000)) (Some 0) (Some 10000) None None;
  ExpH 10 15 (Some (-20000)) None None (Some 0) (Some 10000);
  ExpPend 0%nat 2 10 15 0 50000 0 10000;
  ExpRecH 0%nat 10000;
  ExpPends 1%nat;
  Reset [(10, 14); (10, 15)] [(0, 10, 14); (2, 10, 15)] [(0, 10, 14); (2, 10, 15)];
  ClearPend].

Definition RE_RUB_21 : list cmd := [
  SetH 10 14 (Some (-20000)) (Some (-20000)) (Some 10000) (Some 10000) (Some 20000) None None None None;
  SetH 10 15 (Some (-20000)) None None None None (Some (-20000)) (Some (-10000)) None None;
  Push 0 10 14 0 40000 10000 10000;
  RelaxUB 22 10000 0%nat 10 14 0 10 15;
  ExpH 10 14 (Some (-20000)) (Some 0) (Some 0) None None;
  ExpH 10 15 (Some (-20000)) None None (Some (-10000)) (Some 0);
  ExpPend 0%nat 2 10 15 0 50000 (-10000) 10000;
  ExpRecH 0%nat 0;
  ExpPends 1%nat;
  Reset [(10, 14); (10, 15)] [(0, 10, 14); (2, 10, 15)] [(0, 10, 14); (2, 10, 15)];
  ClearPend].

Definition RE_RUB_22 : list cmd := [
  SetH 10 14 (Some (-20000)) (Some (-20000)) (Some 10000) (Some 10000) (Some 30000) None None None None;
  SetH 10 15 (Some (-30000)) None None None None (Some (-30000)) (Some (-20000)) None None;
  Push 0 10 14 0 40000 10000 10000;
  Push 0 10 14 0 40000 10000 10000;
  RelaxUB 22 10000 0%nat 10 14 0 10 15;
  ExpH 10 14 (Some (-20000)) (Some 10000) (Some 20000) None None;
  ExpH 10 15 (Some (-30000)) None None (Some (-20000)) (Some (-10000));
  ExpPend 0%nat 2 10 15 0 50000 (-20000) 10000;
  ExpRecH 0%nat 0;
  ExpRecH 1%nat 10000;
  ExpPends 1%nat;
  Reset [(10, 14); (10, 15)] [(0, 10, 14); (2, 10, 15)] [(0, 10, 14); (2, 10, 15)];
  ClearPend].

Definition RE_RUB_23 : list cmd := [
  SetH 10 14 (Some (-20000)) (Some (-20000)) (Some 0) (Some 0) (Some 20000) None None None None;
  SetH 10 15 (Some (-20000)) None None None None (Some (-20000)) (Some (-10000)) (Some (-10000)) (Some 0);
  Push 0 10 14 0 40000 0 20000;
  Push 2 10 15 0 50000 (-10000) 10000;
  RelaxUB 21 10000 0%nat 10 14 0 10 15;
  ExpH 10 14 (Some (-20000)) (Some 0) (Some 10000) None None;
  ExpH 10 15 (Some (-20000)) None None (Some (-10000)) (Some 10000);
  ExpPend 0%nat 2 10 15 0 50000 (-10000) 10000;
  ExpRecH 0%nat 10000;
  ExpRecH 1%nat 10000;
  ExpPends 1%nat;
  Reset [(10, 14); (10, 15)] [(0, 10, 14); (2, 10, 15)] [(0, 10, 14); (2, 10, 15)];
  ClearPend].

Definition RE_RUB_24 : list cmd := [
  SetH 10 14 (Some (-20000)) (Some (-20000)) (Some 10000) (Some 10000) (Some 20000) None None None None;
  SetH 10 15 (Some (-20000)) None None None None (Some (-20000)) (Some (-10000)) (Some (-10000)) (Some 0);
  Push 0 10 14 0 40000 10000 10000;
  Push 2 10 15 0 50000 (-10000) 10000;
  RelaxUB 21 10000 0%nat 10 14 0 10 15;
  ExpH 10 14 (Some (-20000)) (Some 0) (Some 0) None None;
  ExpH 10 15 (Some (-20000)) None None (Some (-10000)) (Some 10000);
  ExpPend 0%nat 2 10 15 0 50000 (-10000) 10000;
  ExpRecH 0%nat 0;
  ExpRecH 1%nat 10000;
  ExpPends 1%nat;
  Reset [(10, 14); (10, 15)] [(0, 10, 14); (2, 10, 15)] [(0, 10, 14); (2, 10, 15)];
  ClearPend].

Definition RE_RUB_25 : list cmd := [
  SetH 10 14 (Some (-20000)) (Some (-20000)) (Some 10000) (Some 10000) (Some 30000) None None None None;
  SetH 10 15 (Some (-30000)) None None None None (Some (-30000)) (Some (-20000)) (Some (-20000)) (Some (-10000));
  Push 0 10 14 0 40000 10000 10000;
  Push 0 10 14 0 40000 10000 10000;
  Push 2 10 15 0 50000 (-20000) 10000;
  RelaxUB 21 10000 0%nat 10 14 0 10 15;
  ExpH 10 14 (Some (-20000)) (Some 10000) (Some 20000) None None;
  ExpH 10 15 (Some (-30000)) None None (Some (-20000)) (Some 0);
  ExpPend 0%nat 2 10 15 0 50000 (-20000) 10000;
  ExpRecH 0%nat 0;
  ExpRecH 1%nat 10000;
  ExpRecH 2%nat 10000;
  ExpPends 1%nat;
  Reset [(10, 14); (10, 15)] [(0, 10, 14); (2, 10, 15)] [(0, 10, 14); (2, 10, 15)];
  ClearPend].

Definition RE_RUB_26 : list cmd := [
  SetH 10 14 (Some (-20000)) (Some (-20000)) (Some 0) (Some 0) (Some 30000) None None None None;
  SetH 10 15 (Some (-20000)) (Some (-20000)) (Some (-10000)) None None (Some 10000) (Some 30000) None None;
  Push 0 10 14 0 40000 0 30000;
  RelaxUB 34 10000 0%nat 10 14 0 10 15;
  ExpH 10 14 (Some (-20000)) (Some 0) (Some 10000) None None;
  ExpH 10 15 (Some (-20000)) (Some (-10000)) (Some 10000) None None;
  ExpPend 0%nat 0 10 15 0 50000 (-10000) 20000;
  ExpRecH 0%nat 10000;
  ExpPends 1%nat;
  Reset [(10, 14); (10, 15)] [(0, 10, 14); (0, 10, 15); (2, 10, 15)] [(0, 10, 14); (0, 10, 15)];
  ClearPend].

Definition RE_RUB_27 : list cmd := [
  SetH 10 14 (Some (-20000)) (Some (-20000)) (Some 0) (Some 0) (Some 10000) None None None None;
  SetH 10 15 (Some (-20000)) (Some (-20000)) (Some (-10000)) None None (Some 10000) (Some 30000) None None;
  Push 0 10 14 0 40000 0 10000;
  RelaxUB 34 10000 0%nat 10 14 0 10 15;
  ExpH 10 14 (Some (-20000)) (Some 0) (Some 0) None None;
  ExpH 10 15 (Some (-20000)) (Some (-10000)) (Some 0) None None;
  ExpPend 0%nat 0 10 15 0 50000 (-10000) 10000;
  ExpRecH 0%nat 0;
  ExpPends 1%nat;
  Reset [(10, 14); (10, 15)] [(0, 10, 14); (0, 10, 15); (2, 10, 15)] [(0, 10, 14); (0, 10, 15)];
  ClearPend].

Definition RE_RUB_28 : list cmd := [
  SetH 10 14 (Some (-20000)) (Some (-20000)) (Some 0) (Some 0) (Some 20000) None None None None;
  SetH 10 15 (Some (-30000)) (Some (-30000)) (Some (-20000)) None None (Some 10000) (Some 30000) None None;
  Push 0 10 14 0 40000 0 10000;
  Push 0 10 14 0 40000 0 10000;
  RelaxUB 34 10000 0%nat 10 14 0 10 15;
  ExpH 10 14 (Some (-20000)) (Some 0) (Some 10000) None None;
  ExpH 10 15 (Some (-30000)) (Some (-20000)) (Some (-10000)) None None;
  ExpPend 0%nat 0 10 15 0 50000 (-20000) 10000;
  ExpRecH 0%nat 0;
  ExpRecH 1%nat 10000;
  ExpPends 1%nat;
  Reset [(10, 14); (10, 15)] [(0, 10, 14); (0, 10, 15); (2, 10, 15)] [(0, 10, 14); (0, 10, 15)];
  ClearPend].

Definition RE_RUB_29 : list cmd := [
  SetH 10 14 (Some (-20000)) (Some (-20000)) (Some 0) (Some 0) (Some 50000) None None None None;
  SetH 10 15 (Some (-20000)) (Some (-20000)) (Some (-10000)) None None (Some 10000) (Some 30000) None None;
  Push 0 10 14 0 40000 0 50000;
  RelaxUB 34 10000 0%nat 10 14 0 10 15;
  ExpH 10 14 (Some (-20000)) (Some 0) (Some 30000) None None;
  ExpH 10 15 (Some (-20000)) (Some (-10000)) (Some 10000) None None;
  ExpPend 0%nat 0 10 15 0 50000 (-10000) 20000;
  ExpRecH 0%nat 30000;
  ExpPends 1%nat;
  Reset [(10, 14); (10, 15)] [(0, 10, 14); (0, 10, 15); (2, 10, 15)] [(0, 10, 14); (0, 10, 15)];
  ClearPend].

Definition RE_RUB_30 : list cmd := [
  SetH 10 14 (Some (-20000)) (Some (-20000)) (Some 0) (Some 0) (Some 90000) None None None None;
  SetH 10 15 (Some (-20000)) (Some (-20000)) (Some (-10000)) None None (Some 0) (Some 30000) None None;
  Push 0 10 14 0 40000 0 20000;
  Push 0 10 14 0 40000 0 70000;
  RelaxUB 34 10000 0%nat 10 14 0 10 15;
  ExpH 10 14 (Some (-20000)) (Some 0) (Some 80000) None None;
  ExpH 10 15 (Some (-20000)) (Some (-10000)) (Some 0) None None;
  ExpPend 0%nat 0 10 15 0 50000 (-10000) 10000;
  ExpRecH 0%nat 10000;
  ExpRecH 1%nat 70000;
  ExpPends 1%nat;
  Reset [(10, 14); (10, 15)] [(0, 10, 14); (0, 10, 15); (2, 10, 15)] [(0, 10, 14); (0, 10, 15)];
  ClearPend].

Definition RE_RUB_31 : list cmd := [
  SetH 10 14 (Some (-20000)) (Some (-20000)) (Some 0) (Some 0) (Some 50000) None None None None;
  SetH 10 15 (Some (-20000)) (Some (-20000)) (Some (-10000)) None None (Some 0) (Some 30000) None None;
  Push 0 10 14 0 40000 0 50000;
  RelaxUB 32 10000 0%nat 10 14 0 10 15;
  ExpH 10 14 (Some (-20000)) (Some 0) (Some 40000) None None;
  ExpH 10 15 (Some (-20000)) None None (Some 30000) (Some 40000);
  ExpPend 0%nat 2 10 15 0 50000 30000 10000;
  ExpRecH 0%nat 40000;
  ExpPends 1%nat;
  Reset [(10, 14); (10, 15)] [(0, 10, 14); (0, 10, 15); (2, 10, 15)] [(0, 10, 14); (2, 10, 15)];
  ClearPend].

Definition RE_RUB_32 : list cmd := [
  SetH 10 14 (Some (-20000)) (Some (-20000)) (Some 50000) (Some 50000) (Some 80000) None None None None;
  SetH 10 15 (Some (-20000)) (Some (-20000)) (Some (-10000)) None None (Some 0) (Some 20000) None None;
  Push 0 10 14 0 40000 50000 30000;
  RelaxUB 32 10000 0%nat 10 14 0 10 15;
  ExpH 10 14 (Some (-20000)) (Some 0) (Some 0) None None;
  ExpH 10 15 (Some (-20000)) None None (Some 20000) (Some 50000);
  ExpPend 0%nat 2 10 15 0 50000 20000 30000;
  ExpRecH 0%nat 0;
  ExpPends 1%nat;
  Reset [(10, 14); (10, 15)] [(0, 10, 14); (0, 10, 15); (2, 10, 15)] [(0, 10, 14); (2, 10, 15)];
  ClearPend].

Definition RE_RUB_33 : list cmd := [
  SetH 10 14 (Some (-20000)) (Some (-20000)) (Some 50000) (Some 50000) (Some 80000) None None None None;
  SetH 10 15 (Some (-20000)) (Some (-20000)) (Some (-10000)) None None (Some 0) (Some 20000) None None;
  Push 0 10 14 0 40000 50000 10000;
  Push 0 10 14 0 40000 50000 20000;
  RelaxUB 32 10000 0%nat 10 14 0 10 15;
  ExpH 10 14 (Some (-20000)) (Some 50000) (Some 70000) None None;
  ExpH 10 15 (Some (-20000)) None None (Some 20000) (Some 30000);
  ExpPend 0%nat 2 10 15 0 50000 20000 10000;
  ExpRecH 0%nat 0;
  ExpRecH 1%nat 20000;
  ExpPends 1%nat;
  Reset [(10, 14); (10, 15)] [(0, 10, 14); (0, 10, 15); (2, 10, 15)] [(0, 10, 14); (2, 10, 15)];
  ClearPend].

Definition RE_RUB_34 : list cmd := [
  SetH 10 14 (Some (-20000)) (Some (-20000)) (Some 0) (Some 0) (Some 30000) None None None None;
  SetH 10 15 (Some (-30000)) (Some (-30000)) (Some (-20000)) (Some (-20000)) (Some (-10000)) (Some 10000) (Some 30000) (Some 30000) (Some 50000);
  Push 0 10 14 0 40000 50000 30000;
  Push 0 10 15 0 50000 (-20000) 10000;
  Push 2 10 15 0 50000 30000 20000;
  RelaxUB 33 10000 0%nat 10 14 0 10 15;
  ExpH 10 14 (Some (-20000)) (Some 0) (Some 10000) None None;
  ExpH 10 15 (Some (-30000)) (Some (-20000)) (Some 10000) (Some 30000) (Some 50000);
  ExpPend 0%nat 0 10 15 0 50000 (-20000) 20000;
  ExpRecH 0%nat 10000;
  ExpPends 1%nat;
  Reset [(10, 14); (10, 15)] [(0, 10, 14); (0, 10, 15); (2, 10, 15)] [(0, 10, 14); (0, 10, 15); (2, 10, 15)];
  ClearPend].

Definition RE_RUB_35 : list cmd := [
  SetH 10 14 (Some (-20000)) (Some (-20000)) (Some 10000) (Some 10000) (Some 30000) None None None None;
  SetH 10 15 (Some (-30000)) (Some (-30000)) (Some (-20000)) (Some (-20000)) (Some (-10000)) (Some 20000) (Some 30000) (Some 30000) (Some 50000);
  Push 0 10 14 0 40000 10000 20000;
  Push 0 10 15 0 50000 (-20000) 10000;
  Push 2 10 15 0 50000 30000 20000;
  RelaxUB 33 10000 0%nat 10 14 0 10 15;
  ExpH 10 14 (Some (-20000)) (Some 0) (Some 0) None None;
  ExpH 10 15 (Some (-30000)) (Some (-20000)) (Some 10000) (Some 30000) (Some 50000);
  ExpPend 0%nat 0 10 15 0 50000 (-20000) 20000;
  ExpRecH 0%nat 0;
  ExpPends 1%nat;
  Reset [(10, 14); (10, 15)] [(0, 10, 14); (0, 10, 15); (2, 10, 15)] [(0, 10, 14); (0, 10, 15); (2, 10, 15)];
  ClearPend].

Definition RE_RUB_36 : list cmd := [
  SetH 10 14 (Some (-20000)) (Some (-20000)) (Some 10000) (Some 10000) (Some 30000) None None None None;
  SetH 10 15 (Some (-30000)) (Some (-30000)) (Some (-20000)) (Some (-20000)) (Some (-10000)) (Some 20000) (Some 30000) (Some 30000) (Some 50000);
  Push 0 10 14 0 40000 10000 10000;
  Push 0 10 14 0 40000 10000 10000;
  Push 0 10 15 0 50000 (-20000) 10000;
  Push 2 10 15 0 50000 30000 20000;
  RelaxUB 33 10000 0%nat 10 14 0 10 15;
  ExpH 10 14 (Some (-20000)) (Some 10000) (Some 20000) None None;
  ExpH 10 15 (Some (-30000)) (Some (-20000)) (Some 0) (Some 30000) (Some 50000);
  ExpPend 0%nat 0 10 15 0 50000 (-20000) 10000;
  ExpRecH 0%nat 0;
  ExpRecH 1%nat 10000;
  ExpPends 1%nat;
  Reset [(10, 14); (10, 15)] [(0, 10, 14); (0, 10, 15); (2, 10, 15)] [(0, 10, 14); (0, 10, 15); (2, 10, 15)];
  ClearPend].

Definition RE_RUB_37 : list cmd := [
  SetH 10 14 (Some (-20000)) (Some (-20000)) (Some 10000) (Some 10000) (Some 90000) None None None None;
  SetH 10 15 (Some (-30000)) (Some (-30000)) (Some (-20000)) (Some (-20000)) (Some (-10000)) (Some 20000) (Some 30000) (Some 30000) (Some 50000);
  Push 0 10 14 0 40000 10000 80000;
  Push 0 10 15 0 50000 (-20000) 10000;
  Push 2 10 15 0 50000 30000 20000;
  RelaxUB 33 10000 0%nat 10 14 0 10 15;
  ExpH 10 14 (Some (-20000)) (Some 10000) (Some 60000) None None;
  ExpH 10 15 (Some (-30000)) (Some (-20000)) (Some 20000) (Some 30000) (Some 50000);
  ExpPend 0%nat 0 10 15 0 50000 (-20000) 30000;
  ExpRecH 0%nat 50000;
  ExpPends 1%nat;
  Reset [(10, 14); (10, 15)] [(0, 10, 14); (0, 10, 15); (2, 10, 15)] [(0, 10, 14); (0, 10, 15); (2, 10, 15)];
  ClearPend].

Definition RE_RUB_38 : list cmd := [
  SetH 10 14 (Some (-20000)) (Some (-20000)) (Some 10000) (Some 10000) (Some 90000) None None None None;
  SetH 10 15 (Some (-30000)) (Some (-30000)) (Some (-20000)) (Some (-20000)) (Some (-10000)) (Some 0) (Some 30000) (Some 30000) (Some 50000);
  Push 0 10 14 0 40000 10000 20000;
  Push 0 10 14 0 40000 10000 60000;
  Push 0 10 15 0 50000 (-20000) 10000;
  Push 2 10 15 0 50000 30000 20000;
  RelaxUB 33 10000 0%nat 10 14 0 10 15;
  ExpH 10 14 (Some (-20000)) (Some 10000) (Some 80000) None None;
  ExpH 10 15 (Some (-30000)) (Some (-20000)) (Some 0) (Some 30000) (Some 50000);
  ExpPend 0%nat 0 10 15 0 50000 (-20000) 10000;
  ExpRecH 0%nat 10000;
  ExpRecH 1%nat 60000;
  ExpPends 1%nat;
  Reset [(10, 14); (10, 15)] [(0, 10, 14); (0, 10, 15); (2, 10, 15)] [(0, 10, 14); (0, 10, 15); (2, 10, 15)];
  ClearPend].

Definition RE_RUB_39 : list cmd := [
  SetH 10 14 (Some (-20000)) (Some (-20000)) (Some 10000) (Some 10000) (Some 90000) None None None None;
  SetH 10 15 (Some (-30000)) (Some (-30000)) (Some (-20000)) (Some (-20000)) (Some (-10000)) (Some 10000) (Some 30000) (Some 30000) (Some 50000);
  Push 0 10 14 0 40000 10000 80000;
  Push 0 10 15 0 50000 (-20000) 10000;
  Push 2 10 15 0 50000 30000 20000;
  RelaxUB 31 10000 0%nat 10 14 0 10 15;
  ExpH 10 14 (Some (-20000)) (Some 10000) (Some 70000) None None;
  ExpH 10 15 (Some (-30000)) (Some (-20000)) (Some (-10000)) (Some 30000) (Some 70000);
  ExpPend 0%nat 2 10 15 0 50000 30000 20000;
  ExpRecH 0%nat 60000;
  ExpPends 1%nat;
  Reset [(10, 14); (10, 15)] [(0, 10, 14); (0, 10, 15); (2, 10, 15)] [(0, 10, 14); (0, 10, 15); (2, 10, 15)];
  ClearPend].

Definition RE_RUB_40 : list cmd := [
  SetH 10 14 (Some (-20000)) (Some (-20000)) (Some 70000) (Some 70000) (Some 90000) None None None None;
  SetH 10 15 (Some (-30000)) (Some (-30000)) (Some (-20000)) (Some (-20000)) (Some (-10000)) (Some 10000) (Some 30000) (Some 30000) (Some 50000);
  Push 0 10 14 0 40000 70000 20000;
  Push 0 10 15 0 50000 (-20000) 10000;
  Push 2 10 15 0 50000 30000 20000;
  RelaxUB 31 10000 0%nat 10 14 0 10 15;
  ExpH 10 14 (Some (-20000)) (Some 0) (Some 0) None None;
  ExpH 10 15 (Some (-30000)) (Some (-20000)) (Some (-10000)) (Some 30000) (Some 70000);
  ExpPend 0%nat 2 10 15 0 50000 30000 20000;
  ExpRecH 0%nat 0;
  ExpPends 1%nat;
  Reset [(10, 14); (10, 15)] [(0, 10, 14); (0, 10, 15); (2, 10, 15)] [(0, 10, 14); (0, 10, 15); (2, 10, 15)];
  ClearPend].

Definition RE_RUB_41 : list cmd := [
  SetH 10 14 (Some (-20000)) (Some (-20000)) (Some 10000) (Some 10000) (Some 90000) None None None None;
  SetH 10 15 (Some (-30000)) (Some (-30000)) (Some (-20000)) (Some (-20000)) (Some (-10000)) (Some 10000) (Some 30000) (Some 30000) (Some 50000);
  Push 0 10 14 0 40000 10000 10000;
  Push 0 10 14 0 40000 10000 80000;
  Push 0 10 15 0 50000 (-20000) 10000;
  Push 2 10 15 0 50000 30000 20000;
  RelaxUB 31 10000 0%nat 10 14 0 10 15;
  ExpH 10 14 (Some (-20000)) (Some 10000) (Some 80000) None None;
  ExpH 10 15 (Some (-30000)) (Some (-20000)) (Some (-10000)) (Some 30000) (Some 60000);
  ExpPend 0%nat 2 10 15 0 50000 30000 10000;
  ExpRecH 0%nat 0;
  ExpRecH 1%nat 80000;
  ExpPends 1%nat;
  Reset [(10, 14); (10, 15)] [(0, 10, 14); (0, 10, 15); (2, 10, 15)] [(0, 10, 14); (0, 10, 15); (2, 10, 15)];
  ClearPend].

Definition RE_RUB_42 : list cmd := [
  SetH 10 14 (Some (-20000)) (Some (-20000)) (Some 0) (Some 0) (Some 80000) None None None None;
  SetH 10 15 (Some (-30000)) (Some (-30000)) (Some (-20000)) (Some (-20000)) (Some 10000) (Some 10000) (Some 20000) None None;
  Push 0 10 14 0 40000 0 80000;
  Push 0 10 15 0 50000 (-20000) 30000;
  RelaxUB 32 10000 0%nat 10 14 0 10 15;
  ExpH 10 14 (Some (-20000)) (Some 0) (Some 50000) None None;
  ExpH 10 15 (Some (-30000)) (Some (-20000)) (Some 10000) (Some 20000) (Some 50000);
  ExpPend 0%nat 2 10 15 0 50000 20000 30000;
  ExpRecH 0%nat 50000;
  ExpPends 1%nat;
  Reset [(10, 14); (10, 15)] [(0, 10, 14); (0, 10, 15); (2, 10, 15)] [(0, 10, 14); (0, 10, 15); (2, 10, 15)];
  ClearPend].

Definition RE_RUB_43 : list cmd := [
  SetH 10 14 (Some (-20000)) (Some (-20000)) (Some 60000) (Some 60000) (Some 80000) None None None None;
  SetH 10 15 (Some (-30000)) (Some (-30000)) (Some (-20000)) (Some (-20000)) (Some 10000) (Some 10000) (Some 20000) None None;
  Push 0 10 14 0 40000 60000 20000;
  Push 0 10 15 0 50000 (-20000) 30000;
  RelaxUB 32 10000 0%nat 10 14 0 10 15;
  ExpH 10 14 (Some (-20000)) (Some 0) (Some 0) None None;
  ExpH 10 15 (Some (-30000)) (Some (-20000)) (Some 10000) (Some 20000) (Some 40000);
  ExpPend 0%nat 2 10 15 0 50000 20000 20000;
  ExpRecH 0%nat 0;
  ExpPends 1%nat;
  Reset [(10, 14); (10, 15)] [(0, 10, 14); (0, 10, 15); (2, 10, 15)] [(0, 10, 14); (0, 10, 15); (2, 10, 15)];
  ClearPend].

Definition RE_RUB_44 : list cmd := [
  SetH 10 14 (Some (-20000)) (Some (-20000)) (Some 0) (Some 0) (Some 80000) None None None None;
  SetH 10 15 (Some (-30000)) (Some (-30000)) (Some (-20000)) (Some (-20000)) (Some 10000) (Some 10000) (Some 20000) None None;
  Push 0 10 14 0 40000 0 10000;
  Push 0 10 14 0 40000 0 70000;
  Push 0 10 15 0 50000 (-20000) 30000;
  RelaxUB 32 10000 0%nat 10 14 0 10 15;
  ExpH 10 14 (Some (-20000)) (Some 0) (Some 70000) None None;
  ExpH 10 15 (Some (-30000)) (Some (-20000)) (Some 10000) (Some 20000) (Some 30000);
  ExpPend 0%nat 2 10 15 0 50000 20000 10000;
  ExpRecH 0%nat 0;
  ExpRecH 1%nat 70000;
  ExpPends 1%nat;
  Reset [(10, 14); (10, 15)] [(0, 10, 14); (0, 10, 15); (2, 10, 15)] [(0, 10, 14); (0, 10, 15); (2, 10, 15)];
  ClearPend].

Definition RE_RUB_45 : list cmd := [
  SetH 10 14 (Some (-20000)) (Some (-20000)) (Some 0) (Some 0) (Some 80000) None None None None;
  SetH 10 15 (Some (-30000)) (Some (-30000)) (Some (-20000)) (Some (-20000)) (Some 10000) (Some 10000) (Some 20000) (Some 20000) (Some 40000);
  Push 0 10 14 0 40000 0 80000;
  Push 0 10 15 0 50000 (-20000) 30000;
  Push 2 10 15 0 50000 20000 20000;
  RelaxUB 31 10000 0%nat 10 14 0 10 15;
  ExpH 10 14 (Some (-20000)) (Some 0) (Some 60000) None None;
  ExpH 10 15 (Some (-30000)) (Some (-20000)) (Some 10000) (Some 20000) (Some 60000);
  ExpPend 0%nat 2 10 15 0 50000 20000 20000;
  ExpRecH 0%nat 60000;
  ExpPends 1%nat;
  Reset [(10, 14); (10, 15)] [(0, 10, 14); (0, 10, 15); (2, 10, 15)] [(0, 10, 14); (0, 10, 15); (2, 10, 15)];
  ClearPend].

Definition RE_RUB_46 : list cmd := [
  SetH 10 14 (Some (-20000)) (Some (-20000)) (Some 70000) (Some 70000) (Some 80000) None None None None;
  SetH 10 15 (Some (-30000)) (Some (-30000)) (Some (-20000)) (Some (-20000)) (Some 10000) (Some 10000) (Some 20000) (Some 20000) (Some 40000);
  Push 0 10 14 0 40000 70000 10000;
  Push 0 10 15 0 50000 (-20000) 30000;
  Push 2 10 15 0 50000 20000 20000;
  RelaxUB 31 10000 0%nat 10 14 0 10 15;
  ExpH 10 14 (Some (-20000)) (Some 0) (Some 0) None None;
  ExpH 10 15 (Some (-30000)) (Some (-20000)) (Some 10000) (Some 20000) (Some 50000);
  ExpPend 0%nat 2 10 15 0 50000 20000 10000;
  ExpRecH 0%nat 0;
  ExpPends 1%nat;
  Reset [(10, 14); (10, 15)] [(0, 10, 14); (0, 10, 15); (2, 10, 15)] [(0, 10, 14); (0, 10, 15); (2, 10, 15)];
  ClearPend].

Definition RE_RUB_47 : list cmd := [
  SetH 10 14 (Some (-20000)) (Some (-20000)) (Some 0) (Some 0) (Some 80000) None None None None;
  SetH 10 15 (Some (-30000)) (Some (-30000)) (Some (-20000)) (Some (-20000)) (Some 10000) (Some 10000) (Some 20000) (Some 20000) (Some 40000);
  Push 0 10 14 0 40000 0 10000;
  Push 0 10 14 0 40000 0 70000;
  Push 0 10 15 0 50000 (-20000) 30000;
  Push 2 10 15 0 50000 20000 20000;
  RelaxUB 31 10000 0%nat 10 14 0 10 15;
  ExpH 10 14 (Some (-20000)) (Some 0) (Some 70000) None None;
  ExpH 10 15 (Some (-30000)) (Some (-20000)) (Some 10000) (Some 20000) (Some 50000);
  ExpPend 0%nat 2 10 15 0 50000 20000 10000;
  ExpRecH 0%nat 0;
  ExpRecH 1%nat 70000;
  ExpPends 1%nat;
  Reset [(10, 14); (10, 15)] [(0, 10, 14); (0, 10, 15); (2, 10, 15)] [(0, 10, 14); (0, 10, 15); (2, 10, 15)];
  ClearPend].

Definition RE_RUB_48 : list cmd := [
  SetH 10 14 (Some (-20000)) (Some (-20000)) (Some 0) (Some 0) (Some 30000) None None None None;
  SetH 10 15 (Some (-20000)) (Some 10000) (Some 30000) None None (Some (-20000)) (Some (-10000)) None None;
  Push 0 10 14 0 40000 0 30000;
  RelaxUB 32 10000 0%nat 10 14 0 10 15;
  ExpH 10 14 (Some (-20000)) (Some 0) (Some 10000) None None;
  ExpH 10 15 (Some (-20000)) None None (Some (-10000)) (Some 10000);
  ExpPend 0%nat 2 10 15 0 50000 (-10000) 20000;
  ExpRecH 0%nat 10000;
  ExpPends 1%nat;
  Reset [(10, 14); (10, 15)] [(0, 10, 14); (0, 10, 15); (2, 10, 15)] [(0, 10, 14); (2, 10, 15)];
  ClearPend].

Definition RE_RUB_49 : list cmd := [
  SetH 10 14 (Some (-20000)) (Some (-20000)) (Some 10000) (Some 10000) (Some 30000) None None None None;
  SetH 10 15 (Some (-20000)) (Some 20000) (Some 40000) None None (Some (-20000)) (Some 0) None None;
  Push 0 10 14 0 40000 10000 20000;
  RelaxUB 32 0 0%nat 10 14 0 10 15;
  ExpH 10 14 (Some (-20000)) (Some 0) (Some 0) None None;
  ExpH 10 15 (Some (-20000)) None None (Some 0) (Some 20000);
  ExpPend 0%nat 2 10 15 0 50000 0 20000;
  ExpRecH 0%nat 0;
  ExpPends 1%nat;
  Reset [(10, 14); (10, 15)] [(0, 10, 14); (0, 10, 15); (2, 10, 15)] [(0, 10, 14); (2, 10, 15)];
  ClearPend].

Definition RE_RUB_50 : list cmd := [
  SetH 10 14 (Some (-20000)) (Some (-20000)) (Some 10000) (Some 10000) (Some 30000) None None None None;
  SetH 10 15 (Some (-20000)) (Some 20000) (Some 40000) None None (Some (-20000)) (Some 0) None None;
  Push 0 10 14 0 40000 10000 10000;
  Push 0 10 14 0 40000 10000 10000;
  RelaxUB 32 0 1%nat 10 14 0 10 15;
  ExpH 10 14 (Some (-20000)) (Some 10000) (Some 20000) None None;
  ExpH 10 15 (Some (-20000)) None None (Some 0) (Some 10000);
  ExpPend 0%nat 2 10 15 0 50000 0 10000;
  ExpRecH 0%nat 10000;
  ExpRecH 1%nat 0;
  ExpPends 1%nat;
  Reset [(10, 14); (10, 15)] [(0, 10, 14); (0, 10, 15); (2, 10, 15)] [(0, 10, 14); (2, 10, 15)];
  ClearPend].

Definition RE_RUB_51 : list cmd := [
  SetH 10 14 (Some (-20000)) (Some (-20000)) (Some 10000) (Some 10000) (Some 80000) None None None None;
  SetH 10 15 (Some (-20000)) (Some 20000) (Some 40000) None None (Some (-20000)) (Some 0) None None;
  Push 0 10 14 0 40000 10000 70000;
  RelaxUB 32 10000 0%nat 10 14 0 10 15;
  ExpH 10 14 (Some (-20000)) (Some 10000) (Some 60000) None None;
  ExpH 10 15 (Some (-20000)) None None (Some 0) (Some 20000);
  ExpPend 0%nat 2 10 15 0 50000 0 20000;
  ExpRecH 0%nat 50000;
  ExpPends 1%nat;
  Reset [(10, 14); (10, 15)] [(0, 10, 14); (0, 10, 15); (2, 10, 15)] [(0, 10, 14); (2, 10, 15)];
  ClearPend].

Definition RE_RUB_52 : list cmd := [
  SetH 10 14 (Some (-20000)) (Some (-20000)) (Some 10000) (Some 10000) (Some 100000) None None None None;
  SetH 10 15 (Some (-20000)) (Some 10000) (Some 40000) None None (Some (-20000)) (Some 0) None None;
  Push 0 10 14 0 40000 10000 20000;
  Push 0 10 14 0 40000 10000 70000;
  RelaxUB 32 10000 0%nat 10 14 0 10 15;
  ExpH 10 14 (Some (-20000)) (Some 10000) (Some 90000) None None;
  ExpH 10 15 (Some (-20000)) None None (Some 0) (Some 10000);
  ExpPend 0%nat 2 10 15 0 50000 0 10000;
  ExpRecH 0%nat 10000;
  ExpRecH 1%nat 70000;
  ExpPends 1%nat;
  Reset [(10, 14); (10, 15)] [(0, 10, 14); (0, 10, 15); (2, 10, 15)] [(0, 10, 14); (2, 10, 15)];
  ClearPend].

Definition RE_RUB_53 : list cmd := [
  SetH 10 14 (Some (-20000)) (Some (-20000)) (Some 10000) (Some 10000) (Some 80000) None None None None;
  SetH 10 15 (Some (-20000)) (Some 10000) (Some 40000) None None (Some (-20000)) (Some 0) None None;
  Push 0 10 14 0 40000 10000 70000;
  RelaxUB 34 10000 0%nat 10 14 0 10 15;
  ExpH 10 14 (Some (-20000)) (Some 10000) (Some 60000) None None;
  ExpH 10 15 (Some (-20000)) (Some 40000) (Some 60000) None None;
  ExpPend 0%nat 0 10 15 0 50000 40000 20000;
  ExpRecH 0%nat 50000;
  ExpPends 1%nat;
  Reset [(10, 14); (10, 15)] [(0, 10, 14); (0, 10, 15); (2, 10, 15)] [(0, 10, 14); (0, 10, 15)];
  ClearPend].

Definition RE_RUB_54 : list cmd := [
  SetH 10 14 (Some (-20000)) (Some (-20000)) (Some 60000) (Some 60000) (Some 80000) None None None None;
  SetH 10 15 (Some (-20000)) (Some 10000) (Some 20000) None None (Some (-20000)) (Some 0) None None;
  Push 0 10 14 0 40000 60000 20000;
  RelaxUB 34 10000 0%nat 10 14 0 10 15;
  ExpH 10 14 (Some (-20000)) (Some 0) (Some 0) None None;
  ExpH 10 15 (Some (-20000)) (Some 20000) (Some 40000) None None;
  ExpPend 0%nat 0 10 15 0 50000 20000 20000;
  ExpRecH 0%nat 0;
  ExpPends 1%nat;
  Reset [(10, 14); (10, 15)] [(0, 10, 14); (0, 10, 15); (2, 10, 15)] [(0, 10, 14); (0, 10, 15)];
  ClearPend].

Definition RE_RUB_55 : list cmd := [
  SetH 10 14 (Some (-20000)) (Some (-20000)) (Some 10000) (Some 10000) (Some 80000) None None None None;
  SetH 10 15 (Some (-20000)) (Some 10000) (Some 40000) None None (Some (-20000)) (Some 0) None None;
  Push 0 10 14 0 40000 10000 10000;
  Push 0 10 14 0 40000 10000 60000;
  RelaxUB 34 10000 0%nat 10 14 0 10 15;
  ExpH 10 14 (Some (-20000)) (Some 10000) (Some 70000) None None;
  ExpH 10 15 (Some (-20000)) (Some 40000) (Some 50000) None None;
  ExpPend 0%nat 0 10 15 0 50000 40000 10000;
  ExpRecH 0%nat 0;
  ExpRecH 1%nat 60000;
  ExpPends 1%nat;
  Reset [(10, 14); (10, 15)] [(0, 10, 14); (0, 10, 15); (2, 10, 15)] [(0, 10, 14); (0, 10, 15)];
  ClearPend].

Definition RE_RUB_56 : list cmd := [
  SetH 10 14 (Some (-20000)) (Some (-20000)) (Some 0) (Some 0) (Some 30000) None None None None;
  SetH 10 15 (Some (-30000)) (Some 10000) (Some 30000) (Some 30000) (Some 80000) (Some (-30000)) (Some (-20000)) (Some (-20000)) (Some (-10000));
  Push 0 10 14 0 40000 0 30000;
  Push 0 10 15 0 50000 30000 50000;
  Push 2 10 15 0 50000 (-20000) 10000;
  RelaxUB 31 10000 0%nat 10 14 0 10 15;
  ExpH 10 14 (Some (-20000)) (Some 0) (Some 10000) None None;
  ExpH 10 15 (Some (-30000)) (Some 30000) (Some 80000) (Some (-20000)) (Some 10000);
  ExpPend 0%nat 2 10 15 0 50000 (-20000) 20000;
  ExpRecH 0%nat 10000;
  ExpPends 1%nat;
  Reset [(10, 14); (10, 15)] [(0, 10, 14); (0, 10, 15); (2, 10, 15)] [(0, 10, 14); (0, 10, 15); (2, 10, 15)];
  ClearPend].

Definition RE_RUB_57 : list cmd := [
  SetH 10 14 (Some (-20000)) (Some (-20000)) (Some 0) (Some 0) (Some 10000) None None None None;
  SetH 10 15 (Some (-30000)) (Some 10000) (Some 30000) (Some 30000) (Some 80000) (Some (-30000)) (Some (-20000)) (Some (-20000)) (Some (-10000));
  Push 0 10 14 0 40000 0 10000;
  Push 0 10 15 0 50000 30000 50000;
  Push 2 10 15 0 50000 (-20000) 10000;
  RelaxUB 31 10000 0%nat 10 14 0 10 15;
  ExpH 10 14 (Some (-20000)) (Some 0) (Some 0) None None;
  ExpH 10 15 (Some (-30000)) (Some 30000) (Some 80000) (Some (-20000)) (Some 0);
  ExpPend 0%nat 2 10 15 0 50000 (-20000) 10000;
  ExpRecH 0%nat 0;
  ExpPends 1%nat;
  Reset [(10, 14); (10, 15)] [(0, 10, 14); (0, 10, 15); (2, 10, 15)] [(0, 10, 14); (0, 10, 15); (2, 10, 15)];
  ClearPend].

Definition RE_RUB_58 : list cmd := [
  SetH 10 14 (Some (-20000)) (Some (-20000)) (Some 0) (Some 0) (Some 20000) None None None None;
  SetH 10 15 (Some (-40000)) (Some 10000) (Some 30000) (Some 30000) (Some 80000) (Some (-40000)) (Some (-30000)) (Some (-30000)) (Some (-20000));
  Push 0 10 14 0 40000 0 10000;
  Push 0 10 14 0 40000 0 10000;
  Push 0 10 15 0 50000 30000 50000;
  Push 2 10 15 0 50000 (-30000) 10000;
  RelaxUB 31 10000 0%nat 10 14 0 10 15;
  ExpH 10 14 (Some (-20000)) (Some 0) (Some 10000) None None;
  ExpH 10 15 (Some (-40000)) (Some 30000) (Some 80000) (Some (-30000)) (Some (-10000));
  ExpPend 0%nat 2 10 15 0 50000 (-30000) 10000;
  ExpRecH 0%nat 0;
  ExpRecH 1%nat 10000;
  ExpPends 1%nat;
  Reset [(10, 14); (10, 15)] [(0, 10, 14); (0, 10, 15); (2, 10, 15)] [(0, 10, 14); (0, 10, 15); (2, 10, 15)];
  ClearPend].

Definition RE_RUB_59 : list cmd := [
  SetH 10 14 (Some (-20000)) (Some (-20000)) (Some 0) (Some 0) (Some 80000) None None None None;
  SetH 10 15 (Some (-30000)) (Some 10000) (Some 30000) (Some 30000) (Some 80000) (Some (-30000)) (Some (-20000)) (Some (-20000)) (Some (-10000));
  Push 0 10 14 0 40000 0 80000;
  Push 0 10 15 0 50000 30000 50000;
  Push 2 10 15 0 50000 (-20000) 10000;
  RelaxUB 31 10000 0%nat 10 14 0 10 15;
  ExpH 10 14 (Some (-20000)) (Some 0) (Some 60000) None None;
  ExpH 10 15 (Some (-30000)) (Some 30000) (Some 80000) (Some (-20000)) (Some 10000);
  ExpPend 0%nat 2 10 15 0 50000 (-20000) 20000;
  ExpRecH 0%nat 60000;
  ExpPends 1%nat;
  Reset [(10, 14); (10, 15)] [(0, 10, 14); (0, 10, 15); (2, 10, 15)] [(0, 10, 14); (0, 10, 15); (2, 10, 15)];
  ClearPend].

Definition RE_RUB_60 : list cmd := [
  SetH 10 14 (Some (-20000)) (Some (-20000)) (Some 0) (Some 0) (Some 100000) None None None None;
  SetH 10 15 (Some (-30000)) (Some 0) (Some 30000) (Some 30000) (Some 80000) (Some (-30000)) (Some (-20000)) (Some (-20000)) (Some (-10000));
  Push 0 10 14 0 40000 0 20000;
  Push 0 10 14 0 40000 0 80000;
  Push 0 10 15 0 50000 30000 50000;
  Push 2 10 15 0 50000 (-20000) 10000;
  RelaxUB 31 10000 0%nat 10 14 0 10 15;
  ExpH 10 14 (Some (-20000)) (Some 0) (Some 90000) None None;
  ExpH 10 15 (Some (-30000)) (Some 30000) (Some 80000) (Some (-20000)) (Some 0);
  ExpPend 0%nat 2 10 15 0 50000 (-20000) 10000;
  ExpRecH 0%nat 10000;
  ExpRecH 1%nat 80000;
  ExpPends 1%nat;
  Reset [(10, 14); (10, 15)] [(0, 10, 14); (0, 10, 15); (2, 10, 15)] [(0, 10, 14); (0, 10, 15); (2, 10, 15)];
  ClearPend].

Definition RE_RUB_61 : list cmd := [
  SetH 10 14 (Some (-20000)) (Some (-20000)) (Some 10000) (Some 10000) (Some 80000) None None None None;
  SetH 10 15 (Some (-30000)) (Some 10000) (Some 30000) (Some 30000) (Some 50000) (Some (-30000)) (Some (-20000)) (Some (-20000)) (Some (-10000));
  Push 0 10 14 0 40000 10000 70000;
  Push 0 10 15 0 50000 30000 20000;
  Push 2 10 15 0 50000 (-20000) 10000;
  RelaxUB 33 10000 0%nat 10 14 0 10 15;
  ExpH 10 14 (Some (-20000)) (Some 10000) (Some 70000) None None;
  ExpH 10 15 (Some (-30000)) (Some 30000) (Some 60000) (Some (-20000)) (Some (-10000));
  ExpPend 0%nat 0 10 15 0 50000 30000 10000;
  ExpRecH 0%nat 60000;
  ExpPends 1%nat;
  Reset [(10, 14); (10, 15)] [(0, 10, 14); (0, 10, 15); (2, 10, 15)] [(0, 10, 14); (0, 10, 15); (2, 10, 15)];
  ClearPend].

Definition RE_RUB_62 : list cmd := [
  SetH 10 14 (Some (-20000)) (Some (-20000)) (Some 60000) (Some 60000) (Some 80000) None None None None;
  SetH 10 15 (Some (-30000)) (Some 10000) (Some 30000) (Some 30000) (Some 40000) (Some (-30000)) (Some (-20000)) (Some (-20000)) (Some (-10000));
  Push 0 10 14 0 40000 60000 20000;
  Push 0 10 15 0 50000 30000 10000;
  Push 2 10 15 0 50000 (-20000) 10000;
  RelaxUB 33 10000 0%nat 10 14 0 10 15;
  ExpH 10 14 (Some (-20000)) (Some 0) (Some 0) None None;
  ExpH 10 15 (Some (-30000)) (Some 30000) (Some 60000) (Some (-20000)) (Some (-10000));
  ExpPend 0%nat 0 10 15 0 50000 30000 20000;
  ExpRecH 0%nat 0;
  ExpPends 1%nat;
  Reset [(10, 14); (10, 15)] [(0, 10, 14); (0, 10, 15); (2, 10, 15)] [(0, 10, 14); (0, 10, 15); (2, 10, 15)];
  ClearPend].

Definition RE_RUB_63 : list cmd := [
  SetH 10 14 (Some (-20000)) (Some (-20000)) (Some 10000) (Some 10000) (Some 80000) None None None None;
  SetH 10 15 (Some (-30000)) (Some 10000) (Some 30000) (Some 30000) (Some 40000) (Some (-30000)) (Some (-20000)) (Some (-20000)) (Some (-10000));
  Push 0 10 14 0 40000 10000 60000;
  Push 0 10 14 0 40000 10000 10000;
  Push 0 10 15 0 50000 30000 10000;
  Push 2 10 15 0 50000 (-20000) 10000;
  RelaxUB 33 10000 1%nat 10 14 0 10 15;
  ExpH 10 14 (Some (-20000)) (Some 10000) (Some 70000) None None;
  ExpH 10 15 (Some (-30000)) (Some 30000) (Some 50000) (Some (-20000)) (Some (-10000));
  ExpPend 0%nat 0 10 15 0 50000 30000 10000;
  ExpRecH 0%nat 60000;
  ExpRecH 1%nat 0;
  ExpPends 1%nat;
  Reset [(10, 14); (10, 15)] [(0, 10, 14); (0, 10, 15); (2, 10, 15)] [(0, 10, 14); (0, 10, 15); (2, 10, 15)];
  ClearPend].

Definition RE_RUB_64 : list cmd := [
  SetH 10 14 (Some (-20000)) (Some (-20000)) (Some 0) (Some 0) (Some 80000) None None None None;
  SetH 10 15 (Some (-30000)) (Some 40000) (Some 50000) None None (Some (-30000)) (Some (-20000)) (Some (-20000)) (Some 40000);
  Push 0 10 14 0 40000 0 80000;
  Push 2 10 15 0 50000 (-20000) 60000;
  RelaxUB 34 10000 0%nat 10 14 0 10 15;
  ExpH 10 14 (Some (-20000)) (Some 0) (Some 70000) None None;
  ExpH 10 15 (Some (-30000)) (Some 50000) (Some 60000) (Some (-20000)) (Some 40000);
  ExpPend 0%nat 0 10 15 0 50000 50000 10000;
  ExpRecH 0%nat 70000;
  ExpPends 1%nat;
  Reset [(10, 14); (10, 15)] [(0, 10, 14); (0, 10, 15); (2, 10, 15)] [(0, 10, 14); (0, 10, 15); (2, 10, 15)];
  ClearPend].

Definition RE_RUB_65 : list cmd := [
  SetH 10 14 (Some (-20000)) (Some (-20000)) (Some 70000) (Some 70000) (Some 80000) None None None None;
  SetH 10 15 (Some (-30000)) (Some 40000) (Some 50000) None None (Some (-30000)) (Some (-20000)) (Some (-20000)) (Some 40000);
  Push 0 10 14 0 40000 70000 10000;
  Push 2 10 15 0 50000 (-20000) 60000;
  RelaxUB 34 10000 0%nat 10 14 0 10 15;
  ExpH 10 14 (Some (-20000)) (Some 0) (Some 0) None None;
  ExpH 10 15 (Some (-30000)) (Some 50000) (Some 60000) (Some (-20000)) (Some 40000);
  ExpPend 0%nat 0 10 15 0 50000 50000 10000;
  ExpRecH 0%nat 0;
  ExpPends 1%nat;
  Reset [(10, 14); (10, 15)] [(0, 10, 14); (0, 10, 15); (2, 10, 15)] [(0, 10, 14); (0, 10, 15); (2, 10, 15)];
  ClearPend].

Definition RE_RUB_66 : list cmd := [
  SetH 10 14 (Some (-20000)) (Some (-20000)) (Some 0) (Some 0) (Some 90000) None None None None;
  SetH 10 15 (Some (-30000)) (Some 40000) (Some 50000) None None (Some (-30000)) (Some (-20000)) (Some (-20000)) (Some 40000);
  Push 0 10 14 0 40000 0 10000;
  Push 0 10 14 0 40000 0 80000;
  Push 2 10 15 0 50000 (-20000) 60000;
  RelaxUB 34 10000 0%nat 10 14 0 10 15;
  ExpH 10 14 (Some (-20000)) (Some 0) (Some 80000) None None;
  ExpH 10 15 (Some (-30000)) (Some 50000) (Some 60000) (Some (-20000)) (Some 40000);
  ExpPend 0%nat 0 10 15 0 50000 50000 10000;
  ExpRecH 0%nat 0;
  ExpRecH 1%nat 80000;
  ExpPends 1%nat;
  Reset [(10, 14); (10, 15)] [(0, 10, 14); (0, 10, 15); (2, 10, 15)] [(0, 10, 14); (0, 10, 15); (2, 10, 15)];
  ClearPend].

Definition RE_RUB_67 : list cmd := [
  SetH 10 14 (Some (-20000)) (Some (-20000)) (Some 0) (Some 0) (Some 80000) None None None None;
  SetH 10 15 (Some (-30000)) (Some 40000) (Some 50000) (Some 50000) (Some 60000) (Some (-30000)) (Some (-20000)) (Some (-20000)) (Some 40000);
  Push 0 10 14 0 40000 0 80000;
  Push 0 10 15 0 50000 50000 10000;
  Push 2 10 15 0 50000 (-20000) 60000;
  RelaxUB 33 10000 0%nat 10 14 0 10 15;
  ExpH 10 14 (Some (-20000)) (Some 0) (Some 70000) None None;
  ExpH 10 15 (Some (-30000)) (Some 50000) (Some 70000) (Some (-20000)) (Some 40000);
  ExpPend 0%nat 0 10 15 0 50000 50000 10000;
  ExpRecH 0%nat 70000;
  ExpPends 1%nat;
  Reset [(10, 14); (10, 15)] [(0, 10, 14); (0, 10, 15); (2, 10, 15)] [(0, 10, 14); (0, 10, 15); (2, 10, 15)];
  ClearPend].

Definition RE_RUB_68 : list cmd := [
  SetH 10 14 (Some (-20000)) (Some (-20000)) (Some 70000) (Some 70000) (Some 80000) None None None None;
  SetH 10 15 (Some (-30000)) (Some 40000) (Some 50000) (Some 50000) (Some 60000) (Some (-30000)) (Some (-20000)) (Some (-20000)) (Some 40000);
  Push 0 10 14 0 40000 0 10000;
  Push 0 10 15 0 50000 50000 10000;
  Push 2 10 15 0 50000 (-20000) 60000;
  RelaxUB 33 10000 0%nat 10 14 0 10 15;
  ExpH 10 14 (Some (-20000)) (Some 0) (Some 0) None None;
  ExpH 10 15 (Some (-30000)) (Some 50000) (Some 70000) (Some (-20000)) (Some 40000);
  ExpPend 0%nat 0 10 15 0 50000 50000 10000;
  ExpRecH 0%nat 0;
  ExpPends 1%nat;
  Reset [(10, 14); (10, 15)] [(0, 10, 14); (0, 10, 15); (2, 10, 15)] [(0, 10, 14); (0, 10, 15); (2, 10, 15)];
  ClearPend].

Definition RE_RUB_69 : list cmd := [
  SetH 10 14 (Some (-20000)) (Some (-20000)) (Some 0) (Some 0) (Some 100000) None None None None;
  SetH 10 15 (Some (-30000)) (Some 40000) (Some 50000) (Some 50000) (Some 60000) (Some (-30000)) (Some (-20000)) (Some (-20000)) (Some 40000);
  Push 0 10 14 0 40000 0 10000;
  Push 0 10 14 0 40000 0 90000;
  Push 0 10 15 0 50000 50000 10000;
  Push 2 10 15 0 50000 (-20000) 60000;
  RelaxUB 33 10000 0%nat 10 14 0 10 15;
  ExpH 10 14 (Some (-20000)) (Some 0) (Some 90000) None None;
  ExpH 10 15 (Some (-30000)) (Some 50000) (Some 70000) (Some (-20000)) (Some 40000);
  ExpPend 0%nat 0 10 15 0 50000 50000 10000;
  ExpRecH 0%nat 0;
  ExpRecH 1%nat 90000;
  ExpPends 1%nat;
  Reset [(10, 14); (10, 15)] [(0, 10, 14); (0, 10, 15); (2, 10, 15)] [(0, 10, 14); (0, 10, 15); (2, 10, 15)];
  ClearPend].

Definition relax_body_cell_tests : list cmd :=
  RE_RUB_1 ++ RE_RUB_2 ++ RE_RUB_3 ++ RE_RUB_4 ++ RE_RUB_5 ++ RE_RUB_6 ++ RE_RUB_7 ++ RE_RUB_8 ++ RE_RUB_9 ++ RE_RUB_10 ++ RE_RUB_11 ++ RE_RUB_12 ++ RE_RUB_13 ++ RE_RUB_14 ++ RE_RUB_15 ++ RE_RUB_16 ++ RE_RUB_17 ++ RE_RUB_18 ++ RE_RUB_19 ++ RE_RUB_20 ++ RE_RUB_21 ++ RE_RUB_22 ++ RE_RUB_23 ++ RE_RUB_24 ++ RE_RUB_25 ++ RE_RUB_26 ++ RE_RUB_27 ++ RE_RUB_28 ++ RE_RUB_29 ++ RE_RUB_30 ++ RE_RUB_31 ++ RE_RUB_32 ++ RE_RUB_33 ++ RE_RUB_34 ++ RE_RUB_35 ++ RE_RUB_36 ++ RE_RUB_37 ++ RE_RUB_38 ++ RE_RUB_39 ++ RE_RUB_40 ++ RE_RUB_41 ++ RE_RUB_42 ++ RE_RUB_43 ++ RE_RUB_44 ++ RE_RUB_45 ++ RE_RUB_46 ++ RE_RUB_47 ++ RE_RUB_48 ++ RE_RUB_49 ++ RE_RUB_50 ++ RE_RUB_51 ++ RE_RUB_52 ++ RE_RUB_53 ++ RE_RUB_54 ++ RE_RUB_55 ++ RE_RUB_56 ++ RE_RUB_57 ++ RE_RUB_58 ++ RE_RUB_59 ++ RE_RUB_60 ++ RE_RUB_61 ++ RE_RUB_62 ++ RE_RUB_63 ++ RE_RUB_64 ++ RE_RUB_65 ++ RE_RUB_66 ++ RE_RUB_67 ++ RE_RUB_68 ++ RE_RUB_69.

Example relax_body_cell_tests_pass : z_run relax_body_cell_tests = None.
Proof. vm_compute. reflexivity. Qed.
