(** test/unit_tests/test_intersecting_cells.cpp:355-7492, TEST MoveIntersectingBodySoil. Produced by tools/translate_tests.py. *)
From Coq Require Import ZArith List.
From Verif Require Import Outcome Num State ModelBodyPos TestLang.
Import ListNotations.
Open Scope Z_scope.

Definition seed1234 : list Z :=
  [822569775; 2137449171; 2671936806; 3512589365; 1880026316; 2629000564; 3373089432; 3312965625; 3349970575; 3696548529; 1170776343; 646980841; 1187404954; 852631582; 3444014763; 3501098142; 4115177196; 682106748; 3762102042; 498808182; 1536813498; 55437432; 2151757680; 2090933724; 2935450949; 1421700432; 3061031881; 3447310719; 1590214902; 421988862; 2410319279; 240490034; 2160725744; 1901221627; 59135052; 95107365; 3319265058; 1248669606; 3790915066; 1058256067; 1567173351; 3170917515; 2643106432; 3819197161; 323759947; 4239731024; 1584087043; 504415490; 4007806227; 1691282316; 2797647809; 1944459723; 1705972083; 2311327339; 3387570170; 3395696081; 1360800782; 2000751859; 2439965127; 1869737788; 3732873706; 2445892203; 1873350574; 4162935708; 3445197905; 174187351; 617473805; 2354155636; 3024777824; 1986751372; 3026153669; 1616935933; 939704945; 1408371679; 3972276197; 3494080159; 1898980089; 2776921084; 3905482329; 203695188].

Definition seed2000 : list Z :=
  [2450353078; 3557200712; 2424632526; 3926724557; 2097841718; 104281723; 1445160932; 2545455388; 1614341532; 3665415858; 2285076663; 2276480014; 292514276; 1290931727; 2510533211; 1759081154; 1021763115; 1299920385; 690444270; 581160204; 653346782; 2507948951; 545758119; 3721107161; 1406349101; 1735688316; 2981368187; 3083663772; 1541749216; 4088733610; 3828386358; 653142881; 867067463; 3201021993; 475034116; 3112374032; 2265839022; 3828737533; 3726551232; 4067210691; 1124741896; 365267519; 2144885722; 2350583075; 1840670082; 1057922960; 2276349344; 3305998388; 2465082827; 1780164310; 1683007223; 229067601; 341510502; 3899087221; 3724943567; 3219651571; 706537500; 3311383866; 3450927268; 2765806523; 1236642413; 1296240996; 1153504430; 828455733; 3081544613; 542811461; 3785608468; 2409225112; 4261123093; 1154469831; 1968598426; 2504307790; 3372104540; 3905390504; 3172666300; 3122435636; 2034023398; 1527465882; 2082349197; 2429845496].

Definition IC_MIBS_1 : list cmd := [
  Seed seed1234;
  SetH 10 15 None (Some 0) (Some 30000) (Some 30000) (Some 80000) (Some 50000) (Some 60000) (Some 60000) (Some 70000);
  Push 0 10 15 0 50000 30000 50000;
  Push 2 10 15 0 50000 60000 10000;
  MoveIBS;
  ExpH 10 15 None (Some 30000) (Some 50000) (Some 60000) (Some 70000);
  ExpT 11 15 30000;
  ExpRecH 0%nat 20000;
  ExpRecs 2%nat;
  Reset [(11, 15)] [(0, 10, 15); (2, 10, 15)] [(0, 10, 15); (2, 10, 15)]].

Definition IC_MIBS_2 : list cmd := [
  Seed seed1234;
  SetH 10 15 None (Some 50000) (Some 60000) (Some 60000) (Some 70000) (Some 0) (Some 30000) (Some 30000) (Some 80000);
  Push 0 10 15 0 50000 60000 10000;
  Push 2 10 15 0 50000 30000 50000;
  MoveIBS;
  ExpH 10 15 None (Some 60000) (Some 70000) (Some 30000) (Some 50000);
  ExpT 11 15 30000;
  ExpRecH 1%nat 20000;
  ExpRecs 2%nat;
  Reset [(11, 15)] [(0, 10, 15); (2, 10, 15)] [(0, 10, 15); (2, 10, 15)]].

Definition IC_MIBS_3 : list cmd := [
  Seed seed1234;
  SetH 10 15 None (Some 0) (Some 30000) (Some 30000) (Some 80000) (Some 50000) (Some 60000) (Some 60000) (Some 70000);
  SetH 11 15 None (Some 40000) (Some 100000) None None None None None None;
  Push 0 10 15 0 50000 30000 50000;
  Push 2 10 15 0 50000 60000 10000;
  MoveIBS;
  ExpH 10 15 None (Some 30000) (Some 50000) (Some 60000) (Some 70000);
  ExpT 11 15 30000;
  ExpRecH 0%nat 20000;
  ExpRecs 2%nat;
  Reset [(11, 15)] [(0, 10, 15); (2, 10, 15); (0, 11, 15)] [(0, 10, 15); (2, 10, 15)]].

Definition IC_MIBS_4 : list cmd := [
  Seed seed1234;
  SetH 10 15 None (Some 0) (Some 30000) (Some 30000) (Some 80000) (Some 50000) (Some 60000) (Some 60000) (Some 70000);
  SetH 11 15 (Some 30000) (Some 40000) (Some 100000) None None None None None None;
  Push 0 10 15 0 50000 30000 50000;
  Push 2 10 15 0 50000 60000 10000;
  MoveIBS;
  ExpH 10 15 None (Some 30000) (Some 50000) (Some 60000) (Some 70000);
  ExpT 11 15 60000;
  ExpRecH 0%nat 20000;
  ExpRecs 2%nat;
  Reset [(11, 15)] [(0, 10, 15); (2, 10, 15); (0, 11, 15)] [(0, 10, 15); (2, 10, 15)]].

Definition IC_MIBS_5 : list cmd := [
  Seed seed1234;
  SetH 10 15 None (Some 0) (Some 30000) (Some 30000) (Some 80000) (Some 50000) (Some 60000) (Some 60000) (Some 70000);
  SetH 11 15 None (Some 0) (Some 20000) None None None None None None;
  Push 0 10 15 0 50000 30000 50000;
  Push 2 10 15 0 50000 60000 10000;
  MoveIBS;
  ExpH 10 15 None (Some 30000) (Some 50000) (Some 60000) (Some 70000);
  ExpH 11 15 None (Some 20000) (Some 50000) None None;
  ExpRecH 0%nat 20000;
  ExpRec 2%nat 0 11 15 10000 50000 20000 30000;
  ExpRecs 3%nat;
  Reset [] [(0, 10, 15); (2, 10, 15); (0, 11, 15)] [(0, 10, 15); (2, 10, 15); (0, 11, 15)]].

Definition IC_MIBS_6 : list cmd := [
  Seed seed1234;
  SetH 10 15 None (Some 0) (Some 30000) (Some 30000) (Some 80000) (Some 50000) (Some 60000) (Some 60000) (Some 70000);
  SetH 11 15 None (Some 40000) (Some 70000) (Some 70000) (Some 80000) None None None None;
  Push 0 10 15 0 50000 30000 50000;
  Push 2 10 15 0 50000 60000 10000;
  Push 0 11 15 10000 50000 70000 10000;
  MoveIBS;
  ExpH 10 15 None (Some 30000) (Some 50000) (Some 60000) (Some 70000);
  ExpH 11 15 (Some 30000) (Some 70000) (Some 80000) None None;
  ExpRecH 0%nat 20000;
  ExpRecs 3%nat;
  Reset [(11, 15)] [(0, 10, 15); (2, 10, 15); (0, 11, 15)] [(0, 10, 15); (2, 10, 15); (0, 11, 15)]].

Definition IC_MIBS_7 : list cmd := [
  Seed seed1234;
  SetH 10 15 None (Some 0) (Some 30000) (Some 30000) (Some 80000) (Some 50000) (Some 60000) (Some 60000) (Some 70000);
  SetH 11 15 (Some 40000) (Some 40000) (Some 70000) (Some 70000) (Some 80000) None None None None;
  Push 0 10 15 0 50000 30000 50000;
  Push 2 10 15 0 50000 60000 10000;
  Push 0 11 15 10000 50000 70000 10000;
  MoveIBS;
  ExpH 10 15 None (Some 30000) (Some 50000) (Some 60000) (Some 70000);
  ExpH 11 15 (Some 70000) (Some 70000) (Some 80000) None None;
  ExpRecH 0%nat 20000;
  ExpRecs 3%nat;
  Reset [(11, 15)] [(0, 10, 15); (2, 10, 15); (0, 11, 15)] [(0, 10, 15); (2, 10, 15); (0, 11, 15)]].

Definition IC_MIBS_8 : list cmd := [
  Seed seed1234;
  SetH 10 15 None (Some 0) (Some 30000) (Some 30000) (Some 80000) (Some 50000) (Some 60000) (Some 60000) (Some 70000);
  SetH 11 15 None (Some 0) (Some 10000) (Some 10000) (Some 20000) None None None None;
  Push 0 10 15 0 50000 30000 50000;
  Push 2 10 15 0 50000 60000 10000;
  Push 0 11 15 10000 50000 10000 10000;
  MoveIBS;
  ExpH 10 15 None (Some 30000) (Some 50000) (Some 60000) (Some 70000);
  ExpH 11 15 None (Some 10000) (Some 50000) None None;
  ExpRecH 0%nat 20000;
  ExpRec 3%nat 0 11 15 10000 50000 10000 30000;
  ExpRecs 4%nat;
  Reset [] [(0, 10, 15); (2, 10, 15); (0, 11, 15)] [(0, 10, 15); (2, 10, 15); (0, 11, 15)]].

Definition IC_MIBS_9 : list cmd := [
  Seed seed1234;
  SetH 10 15 None (Some 0) (Some 30000) (Some 30000) (Some 80000) (Some 50000) (Some 60000) (Some 60000) (Some 70000);
  SetH 11 15 None (Some 30000) (Some 50000) None None None None None None;
  Push 0 10 15 0 50000 30000 50000;
  Push 2 10 15 0 50000 60000 10000;
  MoveIBS;
  ExpH 10 15 None (Some 30000) (Some 50000) (Some 60000) (Some 70000);
  ExpT 10 16 30000;
  ExpRecH 0%nat 20000;
  ExpRecs 2%nat;
  Reset [(10, 16)] [(0, 10, 15); (2, 10, 15); (0, 11, 15)] [(0, 10, 15); (2, 10, 15)]].

Definition IC_MIBS_10 : list cmd := [
  Seed seed1234;
  SetH 10 15 None (Some 0) (Some 30000) (Some 30000) (Some 80000) (Some 50000) (Some 60000) (Some 60000) (Some 70000);
  SetH 11 15 None None None None None (Some 40000) (Some 100000) None None;
  Push 0 10 15 0 50000 30000 50000;
  Push 2 10 15 0 50000 60000 10000;
  MoveIBS;
  ExpH 10 15 None (Some 30000) (Some 50000) (Some 60000) (Some 70000);
  ExpT 11 15 30000;
  ExpRecH 0%nat 20000;
  ExpRecs 2%nat;
  Reset [(11, 15)] [(0, 10, 15); (2, 10, 15); (2, 11, 15)] [(0, 10, 15); (2, 10, 15)]].

Definition IC_MIBS_11 : list cmd := [
  Seed seed1234;
  SetH 10 15 None (Some 0) (Some 30000) (Some 30000) (Some 80000) (Some 50000) (Some 60000) (Some 60000) (Some 70000);
  SetH 11 15 (Some 30000) None None None None (Some 40000) (Some 50000) None None;
  Push 0 10 15 0 50000 30000 50000;
  Push 2 10 15 0 50000 60000 10000;
  MoveIBS;
  ExpH 10 15 None (Some 30000) (Some 50000) (Some 60000) (Some 70000);
  ExpT 11 15 60000;
  ExpRecH 0%nat 20000;
  ExpRecs 2%nat;
  Reset [(11, 15)] [(0, 10, 15); (2, 10, 15); (2, 11, 15)] [(0, 10, 15); (2, 10, 15)]].

Definition IC_MIBS_12 : list cmd := [
  Seed seed1234;
  SetH 10 15 None (Some 0) (Some 30000) (Some 30000) (Some 80000) (Some 50000) (Some 60000) (Some 60000) (Some 70000);
  SetH 11 15 None None None None None (Some 0) (Some 20000) None None;
  Push 0 10 15 0 50000 30000 50000;
  Push 2 10 15 0 50000 60000 10000;
  MoveIBS;
  ExpH 10 15 None (Some 30000) (Some 50000) (Some 60000) (Some 70000);
  ExpH 11 15 None None None (Some 20000) (Some 50000);
  ExpRecH 0%nat 20000;
  ExpRec 2%nat 2 11 15 10000 50000 20000 30000;
  ExpRecs 3%nat;
  Reset [] [(0, 10, 15); (2, 10, 15); (2, 11, 15)] [(0, 10, 15); (2, 10, 15); (2, 11, 15)]].

Definition IC_MIBS_13 : list cmd := [
  Seed seed1234;
  SetH 10 15 None (Some 0) (Some 30000) (Some 30000) (Some 80000) (Some 50000) (Some 60000) (Some 60000) (Some 70000);
  SetH 11 15 None None None None None (Some 40000) (Some 50000) (Some 50000) (Some 80000);
  Push 0 10 15 0 50000 30000 50000;
  Push 2 10 15 0 50000 60000 10000;
  Push 2 11 15 10000 50000 50000 30000;
  MoveIBS;
  ExpH 10 15 None (Some 30000) (Some 50000) (Some 60000) (Some 70000);
  ExpH 11 15 (Some 30000) None None (Some 50000) (Some 80000);
  ExpRecH 0%nat 20000;
  ExpRecs 3%nat;
  Reset [(11, 15)] [(0, 10, 15); (2, 10, 15); (2, 11, 15)] [(0, 10, 15); (2, 10, 15); (2, 11, 15)]].

Definition IC_MIBS_14 : list cmd := [
  Seed seed1234;
  SetH 10 15 None (Some 0) (Some 30000) (Some 30000) (Some 80000) (Some 50000) (Some 60000) (Some 60000) (Some 70000);
  SetH 11 15 (Some 30000) None None None None (Some 40000) (Some 50000) (Some 50000) (Some 60000);
  Push 0 10 15 0 50000 30000 50000;
  Push 2 10 15 0 50000 60000 10000;
  Push 2 11 15 10000 50000 50000 10000;
  MoveIBS;
  ExpH 10 15 None (Some 30000) (Some 50000) (Some 60000) (Some 70000);
  ExpH 11 15 (Some 60000) None None (Some 50000) (Some 60000);
  ExpRecH 0%nat 20000;
  ExpRecs 3%nat;
  Reset [(11, 15)] [(0, 10, 15); (2, 10, 15); (2, 11, 15)] [(0, 10, 15); (2, 10, 15); (2, 11, 15)]].

Definition IC_MIBS_15 : list cmd := [
  Seed seed1234;
  SetH 10 15 None (Some 0) (Some 30000) (Some 30000) (Some 80000) (Some 50000) (Some 60000) (Some 60000) (Some 70000);
  SetH 11 15 None None None None None (Some 0) (Some 10000) (Some 10000) (Some 20000);
  Push 0 10 15 0 50000 30000 50000;
  Push 2 10 15 0 50000 60000 10000;
  Push 2 11 15 10000 50000 10000 10000;
  MoveIBS;
  ExpH 10 15 None (Some 30000) (Some 50000) (Some 60000) (Some 70000);
  ExpH 11 15 None None None (Some 10000) (Some 50000);
  ExpRecH 0%nat 20000;
  ExpRec 3%nat 2 11 15 10000 50000 10000 30000;
  ExpRecs 4%nat;
  Reset [] [(0, 10, 15); (2, 10, 15); (2, 11, 15)] [(0, 10, 15); (2, 10, 15); (2, 11, 15)]].

Definition IC_MIBS_16 : list cmd := [
  Seed seed1234;
  SetH 10 15 None (Some 0) (Some 30000) (Some 30000) (Some 80000) (Some 50000) (Some 60000) (Some 60000) (Some 70000);
  SetH 11 15 None None None None None (Some 0) (Some 90000) None None;
  Push 0 10 15 0 50000 30000 50000;
  Push 2 10 15 0 50000 60000 10000;
  MoveIBS;
  ExpH 10 15 None (Some 30000) (Some 50000) (Some 60000) (Some 70000);
  ExpT 10 16 30000;
  ExpRecH 0%nat 20000;
  ExpRecs 2%nat;
  Reset [(10, 16)] [(0, 10, 15); (2, 10, 15); (2, 11, 15)] [(0, 10, 15); (2, 10, 15)]].

Definition IC_MIBS_17 : list cmd := [
  Seed seed1234;
  SetH 10 15 None (Some 50000) (Some 60000) (Some 60000) (Some 70000) (Some 0) (Some 30000) (Some 30000) (Some 80000);
  SetH 11 15 None (Some 40000) (Some 100000) None None None None None None;
  Push 0 10 15 0 50000 60000 10000;
  Push 2 10 15 0 50000 30000 50000;
  MoveIBS;
  ExpH 10 15 None (Some 60000) (Some 70000) (Some 30000) (Some 50000);
  ExpT 11 15 30000;
  ExpRecH 1%nat 20000;
  ExpRecs 2%nat;
  Reset [(11, 15)] [(0, 10, 15); (2, 10, 15); (0, 11, 15)] [(0, 10, 15); (2, 10, 15)]].

Definition IC_MIBS_18 : list cmd := [
  Seed seed1234;
  SetH 10 15 None (Some 50000) (Some 60000) (Some 60000) (Some 70000) (Some 0) (Some 30000) (Some 30000) (Some 80000);
  SetH 11 15 (Some 40000) (Some 40000) (Some 100000) None None None None None None;
  Push 0 10 15 0 50000 60000 10000;
  Push 2 10 15 0 50000 30000 50000;
  MoveIBS;
  ExpH 10 15 None (Some 60000) (Some 70000) (Some 30000) (Some 50000);
  ExpT 11 15 70000;
  ExpRecH 1%nat 20000;
  ExpRecs 2%nat;
  Reset [(11, 15)] [(0, 10, 15); (2, 10, 15); (0, 11, 15)] [(0, 10, 15); (2, 10, 15)]].

Definition IC_MIBS_19 : list cmd := [
  Seed seed1234;
  SetH 10 15 None (Some 50000) (Some 60000) (Some 60000) (Some 70000) (Some 0) (Some 30000) (Some 30000) (Some 80000);
  SetH 11 15 None (Some 0) (Some 20000) None None None None None None;
  Push 0 10 15 0 50000 60000 10000;
  Push 2 10 15 0 50000 30000 50000;
  MoveIBS;
  ExpH 10 15 None (Some 60000) (Some 70000) (Some 30000) (Some 50000);
  ExpH 11 15 None (Some 20000) (Some 50000) None None;
  ExpRecH 1%nat 20000;
  ExpRec 2%nat 0 11 15 10000 50000 20000 30000;
  ExpRecs 3%nat;
  Reset [] [(0, 10, 15); (2, 10, 15); (0, 11, 15)] [(0, 10, 15); (2, 10, 15); (0, 11, 15)]].

Definition IC_MIBS_20 : list cmd := [
  Seed seed1234;
  SetH 10 15 None (Some 50000) (Some 60000) (Some 60000) (Some 70000) (Some 0) (Some 30000) (Some 30000) (Some 80000);
  SetH 11 15 None (Some 40000) (Some 100000) (Some 100000) (Some 200000) None None None None;
  Push 0 10 15 0 50000 60000 10000;
  Push 2 10 15 0 50000 30000 50000;
  Push 0 11 15 10000 50000 100000 100000;
  MoveIBS;
  ExpH 10 15 None (Some 60000) (Some 70000) (Some 30000) (Some 50000);
  ExpH 11 15 (Some 30000) (Some 100000) (Some 200000) None None;
  ExpRecH 1%nat 20000;
  ExpRecs 3%nat;
  Reset [(11, 15)] [(0, 10, 15); (2, 10, 15); (0, 11, 15)] [(0, 10, 15); (2, 10, 15); (0, 11, 15)]].

Definition IC_MIBS_21 : list cmd := [
  Seed seed1234;
  SetH 10 15 None (Some 50000) (Some 60000) (Some 60000) (Some 70000) (Some 0) (Some 30000) (Some 30000) (Some 80000);
  SetH 11 15 (Some 40000) (Some 40000) (Some 50000) (Some 50000) (Some 60000) None None None None;
  Push 0 10 15 0 50000 60000 10000;
  Push 2 10 15 0 50000 30000 50000;
  Push 0 11 15 10000 50000 50000 10000;
  MoveIBS;
  ExpH 10 15 None (Some 60000) (Some 70000) (Some 30000) (Some 50000);
  ExpH 11 15 (Some 70000) (Some 50000) (Some 60000) None None;
  ExpRecH 1%nat 20000;
  ExpRecs 3%nat;
  Reset [(11, 15)] [(0, 10, 15); (2, 10, 15); (0, 11, 15)] [(0, 10, 15); (2, 10, 15); (0, 11, 15)]].

Definition IC_MIBS_22 : list cmd := [
  Seed seed1234;
  SetH 10 15 None (Some 50000) (Some 60000) (Some 60000) (Some 70000) (Some 0) (Some 30000) (Some 30000) (Some 80000);
  SetH 11 15 None (Some 0) (Some 10000) (Some 10000) (Some 20000) None None None None;
  Push 0 10 15 0 50000 60000 10000;
  Push 2 10 15 0 50000 30000 50000;
  Push 0 11 15 10000 50000 10000 10000;
  MoveIBS;
  ExpH 10 15 None (Some 60000) (Some 70000) (Some 30000) (Some 50000);
  ExpH 11 15 None (Some 10000) (Some 50000) None None;
  ExpRecH 1%nat 20000;
  ExpRec 3%nat 0 11 15 10000 50000 10000 30000;
  ExpRecs 4%nat;
  Reset [] [(0, 10, 15); (2, 10, 15); (0, 11, 15)] [(0, 10, 15); (2, 10, 15); (0, 11, 15)]].

Definition IC_MIBS_23 : list cmd := [
  Seed seed1234;
  SetH 10 15 None (Some 50000) (Some 60000) (Some 60000) (Some 70000) (Some 0) (Some 30000) (Some 30000) (Some 80000);
  SetH 11 15 None (Some 0) (Some 70000) None None None None None None;
  Push 0 10 15 0 50000 60000 10000;
  Push 2 10 15 0 50000 30000 50000;
  MoveIBS;
  ExpH 10 15 None (Some 60000) (Some 70000) (Some 30000) (Some 50000);
  ExpT 10 16 30000;
  ExpRecH 1%nat 20000;
  ExpRecs 2%nat;
  Reset [(10, 16)] [(0, 10, 15); (2, 10, 15); (0, 11, 15)] [(0, 10, 15); (2, 10, 15)]].

Definition IC_MIBS_24 : list cmd := [
  Seed seed1234;
  SetH 10 15 None (Some 50000) (Some 60000) (Some 60000) (Some 70000) (Some 0) (Some 30000) (Some 30000) (Some 80000);
  SetH 11 15 None None None None None (Some 40000) (Some 100000) None None;
  Push 0 10 15 0 50000 60000 10000;
  Push 2 10 15 0 50000 30000 50000;
  MoveIBS;
  ExpH 10 15 None (Some 60000) (Some 70000) (Some 30000) (Some 50000);
  ExpT 11 15 30000;
  ExpRecH 1%nat 20000;
  ExpRecs 2%nat;
  Reset [(11, 15)] [(0, 10, 15); (2, 10, 15); (2, 11, 15)] [(0, 10, 15); (2, 10, 15)]].

Definition IC_MIBS_25 : list cmd := [
  Seed seed1234;
  SetH 10 15 None (Some 50000) (Some 60000) (Some 60000) (Some 70000) (Some 0) (Some 30000) (Some 30000) (Some 80000);
  SetH 11 15 (Some 20000) None None None None (Some 40000) (Some 100000) None None;
  Push 0 10 15 0 50000 60000 10000;
  Push 2 10 15 0 50000 30000 50000;
  MoveIBS;
  ExpH 10 15 None (Some 60000) (Some 70000) (Some 30000) (Some 50000);
  ExpT 11 15 50000;
  ExpRecH 1%nat 20000;
  ExpRecs 2%nat;
  Reset [(11, 15)] [(0, 10, 15); (2, 10, 15); (2, 11, 15)] [(0, 10, 15); (2, 10, 15)]].

Definition IC_MIBS_26 : list cmd := [
  Seed seed1234;
  SetH 10 15 None (Some 50000) (Some 60000) (Some 60000) (Some 70000) (Some 0) (Some 30000) (Some 30000) (Some 80000);
  SetH 11 15 None None None None None (Some 0) (Some 20000) None None;
  Push 0 10 15 0 50000 60000 10000;
  Push 2 10 15 0 50000 30000 50000;
  MoveIBS;
  ExpH 10 15 None (Some 60000) (Some 70000) (Some 30000) (Some 50000);
  ExpH 11 15 None None None (Some 20000) (Some 50000);
  ExpRecH 1%nat 20000;
  ExpRec 2%nat 2 11 15 10000 50000 20000 30000;
  ExpRecs 3%nat;
  Reset [] [(0, 10, 15); (2, 10, 15); (2, 11, 15)] [(0, 10, 15); (2, 10, 15); (2, 11, 15)]].

Definition IC_MIBS_27 : list cmd := [
  Seed seed1234;
  SetH 10 15 None (Some 50000) (Some 60000) (Some 60000) (Some 70000) (Some 0) (Some 30000) (Some 30000) (Some 80000);
  SetH 11 15 None None None None None (Some 40000) (Some 50000) (Some 50000) (Some 90000);
  Push 0 10 15 0 50000 60000 10000;
  Push 2 10 15 0 50000 30000 50000;
  Push 2 11 15 10000 50000 50000 40000;
  MoveIBS;
  ExpH 10 15 None (Some 60000) (Some 70000) (Some 30000) (Some 50000);
  ExpH 11 15 (Some 30000) None None (Some 50000) (Some 90000);
  ExpRecH 1%nat 20000;
  ExpRecs 3%nat;
  Reset [(11, 15)] [(0, 10, 15); (2, 10, 15); (2, 11, 15)] [(0, 10, 15); (2, 10, 15); (2, 11, 15)]].

Definition IC_MIBS_28 : list cmd := [
  Seed seed1234;
  SetH 10 15 None (Some 50000) (Some 60000) (Some 60000) (Some 70000) (Some 0) (Some 30000) (Some 30000) (Some 80000);
  SetH 11 15 (Some 20000) None None None None (Some 40000) (Some 100000) (Some 100000) (Some 120000);
  Push 0 10 15 0 50000 60000 10000;
  Push 2 10 15 0 50000 30000 50000;
  Push 2 11 15 10000 50000 100000 20000;
  MoveIBS;
  ExpH 10 15 None (Some 60000) (Some 70000) (Some 30000) (Some 50000);
  ExpH 11 15 (Some 50000) None None (Some 100000) (Some 120000);
  ExpRecH 1%nat 20000;
  ExpRecs 3%nat;
  Reset [(11, 15)] [(0, 10, 15); (2, 10, 15); (2, 11, 15)] [(0, 10, 15); (2, 10, 15); (2, 11, 15)]].

Definition IC_MIBS_29 : list cmd := [
  Seed seed1234;
  SetH 10 15 None (Some 50000) (Some 60000) (Some 60000) (Some 70000) (Some 0) (Some 30000) (Some 30000) (Some 80000);
  SetH 11 15 None None None None None (Some 0) (Some 10000) (Some 10000) (Some 20000);
  Push 0 10 15 0 50000 60000 10000;
  Push 2 10 15 0 50000 30000 50000;
  Push 2 11 15 10000 50000 10000 10000;
  MoveIBS;
  ExpH 10 15 None (Some 60000) (Some 70000) (Some 30000) (Some 50000);
  ExpH 11 15 None None None (Some 10000) (Some 50000);
  ExpRecH 1%nat 20000;
  ExpRec 3%nat 2 11 15 10000 50000 10000 30000;
  ExpRecs 4%nat;
  Reset [] [(0, 10, 15); (2, 10, 15); (2, 11, 15)] [(0, 10, 15); (2, 10, 15); (2, 11, 15)]].

Definition IC_MIBS_30 : list cmd := [
  Seed seed1234;
  SetH 10 15 None (Some 50000) (Some 60000) (Some 60000) (Some 70000) (Some 0) (Some 30000) (Some 30000) (Some 80000);
  SetH 11 15 None None None None None (Some 30000) (Some 50000) None None;
  Push 0 10 15 0 50000 60000 10000;
  Push 2 10 15 0 50000 30000 50000;
  MoveIBS;
  ExpH 10 15 None (Some 60000) (Some 70000) (Some 30000) (Some 50000);
  ExpT 10 16 30000;
  ExpRecH 1%nat 20000;
  ExpRecs 2%nat;
  Reset [(10, 16)] [(0, 10, 15); (2, 10, 15); (2, 11, 15)] [(0, 10, 15); (2, 10, 15)]].

Definition IC_MIBS_31 : list cmd := [
  Seed seed1234;
  SetH 10 15 None (Some 0) (Some 30000) (Some 30000) (Some 80000) (Some 50000) (Some 60000) (Some 60000) (Some 70000);
  SetH 11 15 None (Some 0) (Some 20000) None None (Some 50000) (Some 70000) None None;
  Push 0 10 15 0 50000 30000 50000;
  Push 2 10 15 0 50000 60000 10000;
  MoveIBS;
  ExpH 10 15 None (Some 30000) (Some 50000) (Some 60000) (Some 70000);
  ExpH 11 15 None (Some 20000) (Some 50000) None None;
  ExpRecH 0%nat 20000;
  ExpRec 2%nat 0 11 15 10000 50000 20000 30000;
  ExpRecs 3%nat;
  Reset [] [(0, 10, 15); (2, 10, 15); (0, 11, 15); (2, 11, 15)] [(0, 10, 15); (2, 10, 15); (0, 11, 15)]].

Definition IC_MIBS_32 : list cmd := [
  Seed seed1234;
  SetH 10 15 None (Some 0) (Some 30000) (Some 30000) (Some 80000) (Some 50000) (Some 60000) (Some 60000) (Some 70000);
  SetH 11 15 None (Some 0) (Some 20000) None None (Some 40000) (Some 70000) None None;
  Push 0 10 15 0 50000 30000 50000;
  Push 2 10 15 0 50000 60000 10000;
  MoveIBS;
  ExpH 10 15 None (Some 30000) (Some 50000) (Some 60000) (Some 70000);
  ExpH 11 15 None (Some 20000) (Some 40000) None None;
  ExpT 12 15 10000;
  ExpRecH 0%nat 20000;
  ExpRec 2%nat 0 11 15 10000 50000 20000 20000;
  ExpRecs 3%nat;
  Reset [(12, 15)] [(0, 10, 15); (2, 10, 15); (0, 11, 15); (2, 11, 15)] [(0, 10, 15); (2, 10, 15); (0, 11, 15)]].

Definition IC_MIBS_33 : list cmd := [
  Seed seed1234;
  SetH 10 15 None (Some 0) (Some 30000) (Some 30000) (Some 80000) (Some 50000) (Some 60000) (Some 60000) (Some 70000);
  SetH 11 15 None (Some 0) (Some 20000) None None (Some 30000) (Some 70000) None None;
  SetH 12 15 (Some 20000) (Some 30000) (Some 40000) None None None None None None;
  Push 0 10 15 0 50000 30000 50000;
  Push 2 10 15 0 50000 60000 10000;
  MoveIBS;
  ExpH 10 15 None (Some 30000) (Some 50000) (Some 60000) (Some 70000);
  ExpH 11 15 None (Some 20000) (Some 30000) None None;
  ExpT 12 15 40000;
  ExpRecH 0%nat 20000;
  ExpRec 2%nat 0 11 15 10000 50000 20000 10000;
  ExpRecs 3%nat;
  Reset [(12, 15)] [(0, 10, 15); (2, 10, 15); (0, 11, 15); (2, 11, 15); (0, 12, 15)] [(0, 10, 15); (2, 10, 15); (0, 11, 15)]].

Definition IC_MIBS_34 : list cmd := [
  Seed seed1234;
  SetH 10 15 None (Some 0) (Some 30000) (Some 30000) (Some 80000) (Some 50000) (Some 60000) (Some 60000) (Some 70000);
  SetH 11 15 None (Some 0) (Some 20000) None None (Some 30000) (Some 70000) None None;
  SetH 12 15 None (Some 0) (Some 20000) None None None None None None;
  Push 0 10 15 0 50000 30000 50000;
  Push 2 10 15 0 50000 60000 10000;
  MoveIBS;
  ExpH 10 15 None (Some 30000) (Some 50000) (Some 60000) (Some 70000);
  ExpH 11 15 None (Some 20000) (Some 30000) None None;
  ExpH 12 15 None (Some 20000) (Some 40000) None None;
  ExpRecH 0%nat 20000;
  ExpRec 2%nat 0 11 15 10000 50000 20000 10000;
  ExpRec 3%nat 0 12 15 20000 50000 20000 20000;
  ExpRecs 4%nat;
  Reset [] [(0, 10, 15); (2, 10, 15); (0, 11, 15); (2, 11, 15); (0, 12, 15)] [(0, 10, 15); (2, 10, 15); (0, 11, 15); (0, 12, 15)]].

Definition IC_MIBS_35 : list cmd := [
  Seed seed1234;
  SetH 10 15 None (Some 0) (Some 30000) (Some 30000) (Some 80000) (Some 50000) (Some 60000) (Some 60000) (Some 70000);
  SetH 11 15 None (Some 0) (Some 20000) None None (Some 30000) (Some 70000) None None;
  SetH 12 15 None (Some 0) (Some 20000) (Some 20000) (Some 40000) None None None None;
  Push 0 10 15 0 50000 30000 50000;
  Push 2 10 15 0 50000 60000 10000;
  Push 0 12 15 20000 50000 20000 20000;
  MoveIBS;
  ExpH 10 15 None (Some 30000) (Some 50000) (Some 60000) (Some 70000);
  ExpH 11 15 None (Some 20000) (Some 30000) None None;
  ExpH 12 15 None (Some 20000) (Some 60000) None None;
  ExpRecH 0%nat 20000;
  ExpRec 3%nat 0 11 15 10000 50000 20000 10000;
  ExpRec 4%nat 0 12 15 20000 50000 20000 20000;
  ExpRecs 5%nat;
  Reset [] [(0, 10, 15); (2, 10, 15); (0, 11, 15); (2, 11, 15); (0, 12, 15)] [(0, 10, 15); (2, 10, 15); (0, 11, 15); (0, 12, 15)]].

Definition IC_MIBS_36 : list cmd := [
  Seed seed1234;
  SetH 10 15 None (Some 0) (Some 30000) (Some 30000) (Some 80000) (Some 50000) (Some 60000) (Some 60000) (Some 70000);
  SetH 11 15 None (Some 0) (Some 20000) None None (Some 30000) (Some 70000) None None;
  SetH 12 15 None (Some 20000) (Some 30000) None None None None None None;
  Push 0 10 15 0 50000 30000 50000;
  Push 2 10 15 0 50000 60000 10000;
  MoveIBS;
  ExpH 10 15 None (Some 30000) (Some 50000) (Some 60000) (Some 70000);
  ExpH 11 15 None (Some 20000) (Some 30000) None None;
  ExpT 10 16 20000;
  ExpRecH 0%nat 20000;
  ExpRec 2%nat 0 11 15 10000 50000 20000 10000;
  ExpRecs 3%nat;
  Reset [(10, 16)] [(0, 10, 15); (2, 10, 15); (0, 11, 15); (2, 11, 15); (0, 12, 15)] [(0, 10, 15); (2, 10, 15); (0, 11, 15)]].

Definition IC_MIBS_37 : list cmd := [
  Seed seed1234;
  SetH 10 15 None (Some 0) (Some 30000) (Some 30000) (Some 80000) (Some 50000) (Some 60000) (Some 60000) (Some 70000);
  SetH 11 15 None (Some 0) (Some 20000) None None (Some 30000) (Some 70000) None None;
  SetH 12 15 (Some 20000) None None None None (Some 30000) (Some 40000) None None;
  Push 0 10 15 0 50000 30000 50000;
  Push 2 10 15 0 50000 60000 10000;
  MoveIBS;
  ExpH 10 15 None (Some 30000) (Some 50000) (Some 60000) (Some 70000);
  ExpH 11 15 None (Some 20000) (Some 30000) None None;
  ExpT 12 15 40000;
  ExpRecH 0%nat 20000;
  ExpRec 2%nat 0 11 15 10000 50000 20000 10000;
  ExpRecs 3%nat;
  Reset [(12, 15)] [(0, 10, 15); (2, 10, 15); (0, 11, 15); (2, 11, 15); (2, 12, 15)] [(0, 10, 15); (2, 10, 15); (0, 11, 15)]].

Definition IC_MIBS_38 : list cmd := [
  Seed seed1234;
  SetH 10 15 None (Some 0) (Some 30000) (Some 30000) (Some 80000) (Some 50000) (Some 60000) (Some 60000) (Some 70000);
  SetH 11 15 None (Some 0) (Some 20000) None None (Some 30000) (Some 70000) None None;
  SetH 12 15 None None None None None (Some 0) (Some 20000) None None;
  Push 0 10 15 0 50000 30000 50000;
  Push 2 10 15 0 50000 60000 10000;
  MoveIBS;
  ExpH 10 15 None (Some 30000) (Some 50000) (Some 60000) (Some 70000);
  ExpH 11 15 None (Some 20000) (Some 30000) None None;
  ExpH 12 15 None None None (Some 20000) (Some 40000);
  ExpRecH 0%nat 20000;
  ExpRec 2%nat 0 11 15 10000 50000 20000 10000;
  ExpRec 3%nat 2 12 15 20000 50000 20000 20000;
  ExpRecs 4%nat;
  Reset [] [(0, 10, 15); (2, 10, 15); (0, 11, 15); (2, 11, 15); (2, 12, 15)] [(0, 10, 15); (2, 10, 15); (0, 11, 15); (2, 12, 15)]].

Definition IC_MIBS_39 : list cmd := [
  Seed seed1234;
  SetH 10 15 None (Some 0) (Some 30000) (Some 30000) (Some 80000) (Some 50000) (Some 60000) (Some 60000) (Some 70000);
  SetH 11 15 None (Some 0) (Some 40000) None None (Some 60000) (Some 80000) None None;
  SetH 12 15 None None None None None (Some 0) (Some 10000) (Some 10000) (Some 20000);
  Push 0 10 15 0 50000 30000 50000;
  Push 2 10 15 0 50000 60000 10000;
  Push 2 12 15 20000 50000 10000 10000;
  MoveIBS;
  ExpH 10 15 None (Some 30000) (Some 50000) (Some 60000) (Some 70000);
  ExpH 11 15 None (Some 40000) (Some 60000) None None;
  ExpH 12 15 None None None (Some 10000) (Some 30000);
  ExpRecH 0%nat 20000;
  ExpRec 3%nat 0 11 15 10000 50000 40000 20000;
  ExpRec 4%nat 2 12 15 20000 50000 10000 10000;
  ExpRecs 5%nat;
  Reset [] [(0, 10, 15); (2, 10, 15); (0, 11, 15); (2, 11, 15); (2, 12, 15)] [(0, 10, 15); (2, 10, 15); (0, 11, 15); (2, 12, 15)]].

Definition IC_MIBS_40 : list cmd := [
  Seed seed1234;
  SetH 10 15 None (Some 0) (Some 30000) (Some 30000) (Some 80000) (Some 50000) (Some 60000) (Some 60000) (Some 70000);
  SetH 11 15 None (Some 0) (Some 20000) None None (Some 30000) (Some 70000) None None;
  SetH 12 15 None None None None None (Some 20000) (Some 30000) None None;
  Push 0 10 15 0 50000 30000 50000;
  Push 2 10 15 0 50000 60000 10000;
  MoveIBS;
  ExpH 10 15 None (Some 30000) (Some 50000) (Some 60000) (Some 70000);
  ExpH 11 15 None (Some 20000) (Some 30000) None None;
  ExpT 10 16 20000;
  ExpRecH 0%nat 20000;
  ExpRec 2%nat 0 11 15 10000 50000 20000 10000;
  ExpRecs 3%nat;
  Reset [(10, 16)] [(0, 10, 15); (2, 10, 15); (0, 11, 15); (2, 11, 15); (2, 12, 15)] [(0, 10, 15); (2, 10, 15); (0, 11, 15)]].

Definition IC_MIBS_41 : list cmd := [
  Seed seed1234;
  SetH 10 15 None (Some 0) (Some 30000) (Some 30000) (Some 80000) (Some 50000) (Some 60000) (Some 60000) (Some 70000);
  SetH 11 15 None (Some 0) (Some 20000) None None (Some 30000) (Some 70000) None None;
  SetH 12 15 None (Some 0) (Some 20000) None None (Some 70000) (Some 80000) None None;
  Push 0 10 15 0 50000 30000 50000;
  Push 2 10 15 0 50000 60000 10000;
  MoveIBS;
  ExpH 10 15 None (Some 30000) (Some 50000) (Some 60000) (Some 70000);
  ExpH 11 15 None (Some 20000) (Some 30000) None None;
  ExpH 12 15 None (Some 20000) (Some 40000) None None;
  ExpRecH 0%nat 20000;
  ExpRec 2%nat 0 11 15 10000 50000 20000 10000;
  ExpRec 3%nat 0 12 15 20000 50000 20000 20000;
  ExpRecs 4%nat;
  Reset [] [(0, 10, 15); (2, 10, 15); (0, 11, 15); (2, 11, 15); (0, 12, 15); (2, 12, 15)] [(0, 10, 15); (2, 10, 15); (0, 11, 15); (0, 12, 15)]].

Definition IC_MIBS_42 : list cmd := [
  Seed seed1234;
  SetH 10 15 None (Some 0) (Some 30000) (Some 30000) (Some 80000) (Some 50000) (Some 60000) (Some 60000) (Some 70000);
  SetH 11 15 None (Some 0) (Some 20000) None None (Some 30000) (Some 70000) None None;
  SetH 12 15 None (Some 0) (Some 20000) None None (Some 30000) (Some 80000) None None;
  Push 0 10 15 0 50000 30000 50000;
  Push 2 10 15 0 50000 60000 10000;
  MoveIBS;
  ExpH 10 15 None (Some 30000) (Some 50000) (Some 60000) (Some 70000);
  ExpH 11 15 None (Some 20000) (Some 30000) None None;
  ExpH 12 15 None (Some 20000) (Some 30000) None None;
  ExpT 13 15 10000;
  ExpRecH 0%nat 20000;
  ExpRec 2%nat 0 11 15 10000 50000 20000 10000;
  ExpRec 3%nat 0 12 15 20000 50000 20000 10000;
  ExpRecs 4%nat;
  Reset [(13, 15)] [(0, 10, 15); (2, 10, 15); (0, 11, 15); (2, 11, 15); (0, 12, 15); (2, 12, 15)] [(0, 10, 15); (2, 10, 15); (0, 11, 15); (0, 12, 15)]].

Definition IC_MIBS_43 : list cmd := [
  Seed seed1234;
  SetH 10 15 None (Some 0) (Some 30000) (Some 30000) (Some 80000) (Some 50000) (Some 60000) (Some 60000) (Some 70000);
  SetH 11 15 None (Some 0) (Some 20000) None None (Some 30000) (Some 70000) None None;
  SetH 12 15 None (Some 0) (Some 20000) (Some 20000) (Some 30000) (Some 70000) (Some 80000) (Some 80000) (Some 90000);
  Push 0 10 15 0 50000 30000 50000;
  Push 2 10 15 0 50000 60000 10000;
  Push 0 12 15 20000 50000 20000 10000;
  Push 2 12 15 20000 50000 80000 10000;
  MoveIBS;
  ExpH 10 15 None (Some 30000) (Some 50000) (Some 60000) (Some 70000);
  ExpH 11 15 None (Some 20000) (Some 30000) None None;
  ExpH 12 15 None (Some 20000) (Some 50000) (Some 80000) (Some 90000);
  ExpRecH 0%nat 20000;
  ExpRec 4%nat 0 11 15 10000 50000 20000 10000;
  ExpRec 5%nat 0 12 15 20000 50000 20000 20000;
  ExpRecs 6%nat;
  Reset [] [(0, 10, 15); (2, 10, 15); (0, 11, 15); (2, 11, 15); (0, 12, 15); (2, 12, 15)] [(0, 10, 15); (2, 10, 15); (0, 11, 15); (0, 12, 15); (2, 12, 15)]].

Definition IC_MIBS_44 : list cmd := [
  Seed seed1234;
  SetH 10 15 None (Some 0) (Some 30000) (Some 30000) (Some 80000) (Some 50000) (Some 60000) (Some 60000) (Some 70000);
  SetH 11 15 None (Some 0) (Some 20000) None None (Some 30000) (Some 70000) None None;
  SetH 12 15 None (Some 0) (Some 20000) (Some 20000) (Some 30000) (Some 40000) (Some 80000) (Some 80000) (Some 90000);
  Push 0 10 15 0 50000 30000 50000;
  Push 2 10 15 0 50000 60000 10000;
  Push 0 12 15 20000 50000 20000 10000;
  Push 2 12 15 20000 50000 80000 10000;
  MoveIBS;
  ExpH 10 15 None (Some 30000) (Some 50000) (Some 60000) (Some 70000);
  ExpH 11 15 None (Some 20000) (Some 30000) None None;
  ExpH 12 15 None (Some 20000) (Some 40000) (Some 80000) (Some 90000);
  ExpT 13 15 10000;
  ExpRecH 0%nat 20000;
  ExpRec 4%nat 0 11 15 10000 50000 20000 10000;
  ExpRec 5%nat 0 12 15 20000 50000 20000 10000;
  ExpRecs 6%nat;
  Reset [(13, 15)] [(0, 10, 15); (2, 10, 15); (0, 11, 15); (2, 11, 15); (0, 12, 15); (2, 12, 15)] [(0, 10, 15); (2, 10, 15); (0, 11, 15); (0, 12, 15); (2, 12, 15)]].

Definition IC_MIBS_45 : list cmd := [
  Seed seed1234;
  SetH 10 15 None (Some 0) (Some 30000) (Some 30000) (Some 80000) (Some 50000) (Some 60000) (Some 60000) (Some 70000);
  SetH 11 15 None (Some 0) (Some 20000) None None (Some 30000) (Some 70000) None None;
  SetH 12 15 None (Some 0) (Some 20000) (Some 20000) (Some 30000) (Some 30000) (Some 80000) (Some 80000) (Some 90000);
  Push 0 10 15 0 50000 30000 50000;
  Push 2 10 15 0 50000 60000 10000;
  Push 0 12 15 20000 50000 20000 10000;
  Push 2 12 15 20000 50000 80000 10000;
  MoveIBS;
  ExpH 10 15 None (Some 30000) (Some 50000) (Some 60000) (Some 70000);
  ExpH 11 15 None (Some 20000) (Some 30000) None None;
  ExpT 13 15 20000;
  ExpRecH 0%nat 20000;
  ExpRec 4%nat 0 11 15 10000 50000 20000 10000;
  ExpRecs 5%nat;
  Reset [(13, 15)] [(0, 10, 15); (2, 10, 15); (0, 11, 15); (2, 11, 15); (0, 12, 15); (2, 12, 15)] [(0, 10, 15); (2, 10, 15); (0, 11, 15); (0, 12, 15); (2, 12, 15)]].

Definition IC_MIBS_46 : list cmd := [
  Seed seed1234;
  SetH 10 15 None (Some 0) (Some 30000) (Some 30000) (Some 80000) (Some 50000) (Some 60000) (Some 60000) (Some 70000);
  SetH 11 15 None (Some 0) (Some 20000) None None (Some 30000) (Some 70000) None None;
  SetH 12 15 None (Some 70000) (Some 80000) None None (Some 0) (Some 20000) None None;
  Push 0 10 15 0 50000 30000 50000;
  Push 2 10 15 0 50000 60000 10000;
  MoveIBS;
  ExpH 10 15 None (Some 30000) (Some 50000) (Some 60000) (Some 70000);
  ExpH 11 15 None (Some 20000) (Some 30000) None None;
  ExpH 12 15 None None None (Some 20000) (Some 40000);
  ExpRecH 0%nat 20000;
  ExpRec 2%nat 0 11 15 10000 50000 20000 10000;
  ExpRec 3%nat 2 12 15 20000 50000 20000 20000;
  ExpRecs 4%nat;
  Reset [] [(0, 10, 15); (2, 10, 15); (0, 11, 15); (2, 11, 15); (0, 12, 15); (2, 12, 15)] [(0, 10, 15); (2, 10, 15); (0, 11, 15); (2, 12, 15)]].

Definition IC_MIBS_47 : list cmd := [
  Seed seed1234;
  SetH 10 15 None (Some 0) (Some 30000) (Some 30000) (Some 80000) (Some 50000) (Some 60000) (Some 60000) (Some 70000);
  SetH 11 15 None (Some 0) (Some 20000) None None (Some 30000) (Some 70000) None None;
  SetH 12 15 None (Some 30000) (Some 80000) None None (Some 0) (Some 20000) None None;
  Push 0 10 15 0 50000 30000 50000;
  Push 2 10 15 0 50000 60000 10000;
  MoveIBS;
  ExpH 10 15 None (Some 30000) (Some 50000) (Some 60000) (Some 70000);
  ExpH 11 15 None (Some 20000) (Some 30000) None None;
  ExpH 12 15 None None None (Some 20000) (Some 30000);
  ExpT 13 15 10000;
  ExpRecH 0%nat 20000;
  ExpRec 2%nat 0 11 15 10000 50000 20000 10000;
  ExpRec 3%nat 2 12 15 20000 50000 20000 10000;
  ExpRecs 4%nat;
  Reset [(13, 15)] [(0, 10, 15); (2, 10, 15); (0, 11, 15); (2, 11, 15); (0, 12, 15); (2, 12, 15)] [(0, 10, 15); (2, 10, 15); (0, 11, 15); (2, 12, 15)]].

Definition IC_MIBS_48 : list cmd := [
  Seed seed1234;
  SetH 10 15 None (Some 0) (Some 30000) (Some 30000) (Some 80000) (Some 50000) (Some 60000) (Some 60000) (Some 70000);
  SetH 11 15 None (Some 0) (Some 20000) None None (Some 30000) (Some 70000) None None;
  SetH 12 15 None (Some 70000) (Some 80000) (Some 80000) (Some 90000) (Some 0) (Some 20000) (Some 20000) (Some 30000);
  Push 0 10 15 0 50000 30000 50000;
  Push 2 10 15 0 50000 60000 10000;
  Push 0 12 15 20000 50000 80000 10000;
  Push 2 12 15 20000 50000 20000 10000;
  MoveIBS;
  ExpH 10 15 None (Some 30000) (Some 50000) (Some 60000) (Some 70000);
  ExpH 11 15 None (Some 20000) (Some 30000) None None;
  ExpH 12 15 None (Some 80000) (Some 90000) (Some 20000) (Some 50000);
  ExpRecH 0%nat 20000;
  ExpRec 4%nat 0 11 15 10000 50000 20000 10000;
  ExpRec 5%nat 2 12 15 20000 50000 20000 20000;
  ExpRecs 6%nat;
  Reset [] [(0, 10, 15); (2, 10, 15); (0, 11, 15); (2, 11, 15); (0, 12, 15); (2, 12, 15)] [(0, 10, 15); (2, 10, 15); (0, 11, 15); (0, 12, 15); (2, 12, 15)]].

Definition IC_MIBS_49 : list cmd := [
  Seed seed1234;
  SetH 10 15 None (Some 0) (Some 30000) (Some 30000) (Some 80000) (Some 50000) (Some 60000) (Some 60000) (Some 70000);
  SetH 11 15 None (Some 0) (Some 20000) None None (Some 30000) (Some 70000) None None;
  SetH 12 15 None (Some 40000) (Some 80000) (Some 80000) (Some 90000) (Some 0) (Some 20000) (Some 20000) (Some 30000);
  Push 0 10 15 0 50000 30000 50000;
  Push 2 10 15 0 50000 60000 10000;
  Push 0 12 15 20000 50000 80000 10000;
  Push 2 12 15 20000 50000 20000 10000;
  MoveIBS;
  ExpH 10 15 None (Some 30000) (Some 50000) (Some 60000) (Some 70000);
  ExpH 11 15 None (Some 20000) (Some 30000) None None;
  ExpH 12 15 None (Some 80000) (Some 90000) (Some 20000) (Some 40000);
  ExpT 13 15 10000;
  ExpRecH 0%nat 20000;
  ExpRec 4%nat 0 11 15 10000 50000 20000 10000;
  ExpRec 5%nat 2 12 15 20000 50000 20000 10000;
  ExpRecs 6%nat;
  Reset [(13, 15)] [(0, 10, 15); (2, 10, 15); (0, 11, 15); (2, 11, 15); (0, 12, 15); (2, 12, 15)] [(0, 10, 15); (2, 10, 15); (0, 11, 15); (0, 12, 15); (2, 12, 15)]].

Definition IC_MIBS_50 : list cmd := [
  Seed seed1234;
  SetH 10 15 None (Some 0) (Some 30000) (Some 30000) (Some 80000) (Some 50000) (Some 60000) (Some 60000) (Some 70000);
  SetH 11 15 None (Some 0) (Some 20000) None None (Some 30000) (Some 70000) None None;
  SetH 12 15 None (Some 30000) (Some 80000) (Some 80000) (Some 90000) (Some 0) (Some 20000) (Some 20000) (Some 30000);
  Push 0 10 15 0 50000 30000 50000;
  Push 2 10 15 0 50000 60000 10000;
  Push 0 12 15 20000 50000 80000 10000;
  Push 2 12 15 20000 50000 20000 10000;
  MoveIBS;
  ExpH 10 15 None (Some 30000) (Some 50000) (Some 60000) (Some 70000);
  ExpH 11 15 None (Some 20000) (Some 30000) None None;
  ExpT 13 15 20000;
  ExpRecH 0%nat 20000;
  ExpRec 4%nat 0 11 15 10000 50000 20000 10000;
  ExpRecs 5%nat;
  Reset [(13, 15)] [(0, 10, 15); (2, 10, 15); (0, 11, 15); (2, 11, 15); (0, 12, 15); (2, 12, 15)] [(0, 10, 15); (2, 10, 15); (0, 11, 15); (0, 12, 15); (2, 12, 15)]].

Definition IC_MIBS_51 : list cmd := [
  Seed seed1234;
  SetH 10 15 None (Some 0) (Some 30000) (Some 30000) (Some 80000) (Some 50000) (Some 60000) (Some 60000) (Some 70000);
  SetH 11 15 None (Some 0) (Some 10000) (Some 10000) (Some 20000) (Some 50000) (Some 70000) (Some 70000) (Some 90000);
  Push 0 10 15 0 50000 30000 50000;
  Push 2 10 15 0 50000 60000 10000;
  Push 0 11 15 10000 50000 10000 10000;
  Push 2 11 15 10000 50000 70000 20000;
  MoveIBS;
  ExpH 10 15 None (Some 30000) (Some 50000) (Some 60000) (Some 70000);
  ExpH 11 15 None (Some 10000) (Some 50000) (Some 70000) (Some 90000);
  ExpRecH 0%nat 20000;
  ExpRec 4%nat 0 11 15 10000 50000 10000 30000;
  ExpRecs 5%nat;
  Reset [] [(0, 10, 15); (2, 10, 15); (0, 11, 15); (2, 11, 15)] [(0, 10, 15); (2, 10, 15); (0, 11, 15); (2, 11, 15)]].

Definition IC_MIBS_52 : list cmd := [
  Seed seed1234;
  SetH 10 15 None (Some 0) (Some 30000) (Some 30000) (Some 80000) (Some 50000) (Some 60000) (Some 60000) (Some 70000);
  SetH 11 15 None (Some 0) (Some 10000) (Some 10000) (Some 20000) (Some 40000) (Some 70000) (Some 70000) (Some 90000);
  Push 0 10 15 0 50000 30000 50000;
  Push 2 10 15 0 50000 60000 10000;
  Push 0 11 15 10000 50000 10000 10000;
  Push 2 11 15 10000 50000 70000 20000;
  MoveIBS;
  ExpH 10 15 None (Some 30000) (Some 50000) (Some 60000) (Some 70000);
  ExpH 11 15 None (Some 10000) (Some 40000) (Some 70000) (Some 90000);
  ExpT 12 15 10000;
  ExpRecH 0%nat 20000;
  ExpRec 4%nat 0 11 15 10000 50000 10000 20000;
  ExpRecs 5%nat;
  Reset [(12, 15)] [(0, 10, 15); (2, 10, 15); (0, 11, 15); (2, 11, 15)] [(0, 10, 15); (2, 10, 15); (0, 11, 15); (2, 11, 15)]].

Definition IC_MIBS_53 : list cmd := [
  Seed seed1234;
  SetH 10 15 None (Some 0) (Some 30000) (Some 30000) (Some 80000) (Some 50000) (Some 60000) (Some 60000) (Some 70000);
  SetH 11 15 None (Some 0) (Some 10000) (Some 10000) (Some 60000) (Some 70000) (Some 80000) (Some 80000) (Some 90000);
  SetH 12 15 (Some 10000) (Some 20000) (Some 40000) None None None None None None;
  Push 0 10 15 0 50000 30000 50000;
  Push 2 10 15 0 50000 60000 10000;
  Push 0 11 15 10000 50000 10000 50000;
  Push 2 11 15 10000 50000 80000 10000;
  MoveIBS;
  ExpH 10 15 None (Some 30000) (Some 50000) (Some 60000) (Some 70000);
  ExpH 11 15 None (Some 10000) (Some 70000) (Some 80000) (Some 90000);
  ExpT 12 15 30000;
  ExpRecH 0%nat 20000;
  ExpRec 4%nat 0 11 15 10000 50000 10000 10000;
  ExpRecs 5%nat;
  Reset [(12, 15)] [(0, 10, 15); (2, 10, 15); (0, 11, 15); (2, 11, 15); (0, 12, 15)] [(0, 10, 15); (2, 10, 15); (0, 11, 15); (2, 11, 15)]].

Definition IC_MIBS_54 : list cmd := [
  Seed seed1234;
  SetH 10 15 None (Some 0) (Some 30000) (Some 30000) (Some 80000) (Some 50000) (Some 60000) (Some 60000) (Some 70000);
  SetH 11 15 None (Some 0) (Some 30000) (Some 30000) (Some 40000) (Some 50000) (Some 80000) (Some 80000) (Some 90000);
  SetH 12 15 None (Some 0) (Some 30000) None None None None None None;
  Push 0 10 15 0 50000 30000 50000;
  Push 2 10 15 0 50000 60000 10000;
  Push 0 11 15 10000 50000 30000 10000;
  Push 2 11 15 10000 50000 80000 10000;
  MoveIBS;
  ExpH 10 15 None (Some 30000) (Some 50000) (Some 60000) (Some 70000);
  ExpH 11 15 None (Some 30000) (Some 50000) (Some 80000) (Some 90000);
  ExpH 12 15 None (Some 30000) (Some 50000) None None;
  ExpRecH 0%nat 20000;
  ExpRec 4%nat 0 11 15 10000 50000 30000 10000;
  ExpRec 5%nat 0 12 15 20000 50000 30000 20000;
  ExpRecs 6%nat;
  Reset [] [(0, 10, 15); (2, 10, 15); (0, 11, 15); (2, 11, 15); (0, 12, 15)] [(0, 10, 15); (2, 10, 15); (0, 11, 15); (2, 11, 15); (0, 12, 15)]].

Definition IC_MIBS_55 : list cmd := [
  Seed seed1234;
  SetH 10 15 None (Some 0) (Some 30000) (Some 30000) (Some 80000) (Some 50000) (Some 60000) (Some 60000) (Some 70000);
  SetH 11 15 None (Some 0) (Some 30000) (Some 30000) (Some 40000) (Some 50000) (Some 80000) (Some 80000) (Some 90000);
  SetH 12 15 None (Some 0) (Some 30000) (Some 30000) (Some 40000) None None None None;
  Push 0 10 15 0 50000 30000 50000;
  Push 2 10 15 0 50000 60000 10000;
  Push 0 11 15 10000 50000 30000 10000;
  Push 2 11 15 10000 50000 80000 10000;
  Push 0 12 15 20000 50000 30000 10000;
  MoveIBS;
  ExpH 10 15 None (Some 30000) (Some 50000) (Some 60000) (Some 70000);
  ExpH 11 15 None (Some 30000) (Some 50000) (Some 80000) (Some 90000);
  ExpH 12 15 None (Some 30000) (Some 60000) None None;
  ExpRecH 0%nat 20000;
  ExpRec 5%nat 0 11 15 10000 50000 30000 10000;
  ExpRec 6%nat 0 12 15 20000 50000 30000 20000;
  ExpRecs 7%nat;
  Reset [] [(0, 10, 15); (2, 10, 15); (0, 11, 15); (2, 11, 15); (0, 12, 15)] [(0, 10, 15); (2, 10, 15); (0, 11, 15); (2, 11, 15); (0, 12, 15)]].

Definition IC_MIBS_56 : list cmd := [
  Seed seed1234;
  SetH 10 15 None (Some 0) (Some 30000) (Some 30000) (Some 80000) (Some 50000) (Some 60000) (Some 60000) (Some 70000);
  SetH 11 15 None (Some 0) (Some 30000) (Some 30000) (Some 40000) (Some 50000) (Some 80000) (Some 80000) (Some 90000);
  SetH 12 15 None (Some 30000) (Some 50000) None None None None None None;
  Push 0 10 15 0 50000 30000 50000;
  Push 2 10 15 0 50000 60000 10000;
  Push 0 11 15 10000 50000 30000 10000;
  Push 2 11 15 10000 50000 80000 10000;
  MoveIBS;
  ExpH 10 15 None (Some 30000) (Some 50000) (Some 60000) (Some 70000);
  ExpH 11 15 None (Some 30000) (Some 50000) (Some 80000) (Some 90000);
  ExpT 10 16 20000;
  ExpRecH 0%nat 20000;
  ExpRec 4%nat 0 11 15 10000 50000 30000 10000;
  ExpRecs 5%nat;
  Reset [(10, 16)] [(0, 10, 15); (2, 10, 15); (0, 11, 15); (2, 11, 15); (0, 12, 15)] [(0, 10, 15); (2, 10, 15); (0, 11, 15); (2, 11, 15)]].

Definition IC_MIBS_57 : list cmd := [
  Seed seed1234;
  SetH 10 15 None (Some 0) (Some 30000) (Some 30000) (Some 80000) (Some 50000) (Some 60000) (Some 60000) (Some 70000);
  SetH 11 15 None (Some 0) (Some 10000) (Some 10000) (Some 60000) (Some 70000) (Some 80000) (Some 80000) (Some 90000);
  SetH 12 15 (Some 10000) None None None None (Some 20000) (Some 40000) None None;
  Push 0 10 15 0 50000 30000 50000;
  Push 2 10 15 0 50000 60000 10000;
  Push 0 11 15 10000 50000 10000 50000;
  Push 2 11 15 10000 50000 80000 10000;
  MoveIBS;
  ExpH 10 15 None (Some 30000) (Some 50000) (Some 60000) (Some 70000);
  ExpH 11 15 None (Some 10000) (Some 70000) (Some 80000) (Some 90000);
  ExpT 12 15 30000;
  ExpRecH 0%nat 20000;
  ExpRec 4%nat 0 11 15 10000 50000 10000 10000;
  ExpRecs 5%nat;
  Reset [(12, 15)] [(0, 10, 15); (2, 10, 15); (0, 11, 15); (2, 11, 15); (2, 12, 15)] [(0, 10, 15); (2, 10, 15); (0, 11, 15); (2, 11, 15)]].

Definition IC_MIBS_58 : list cmd := [
  Seed seed1234;
  SetH 10 15 None (Some 0) (Some 30000) (Some 30000) (Some 80000) (Some 50000) (Some 60000) (Some 60000) (Some 70000);
  SetH 11 15 None (Some 0) (Some 30000) (Some 30000) (Some 40000) (Some 50000) (Some 80000) (Some 80000) (Some 90000);
  SetH 12 15 None None None None None (Some 0) (Some 30000) None None;
  Push 0 10 15 0 50000 30000 50000;
  Push 2 10 15 0 50000 60000 10000;
  Push 0 11 15 10000 50000 30000 10000;
  Push 2 11 15 10000 50000 80000 10000;
  MoveIBS;
  ExpH 10 15 None (Some 30000) (Some 50000) (Some 60000) (Some 70000);
  ExpH 11 15 None (Some 30000) (Some 50000) (Some 80000) (Some 90000);
  ExpH 12 15 None None None (Some 30000) (Some 50000);
  ExpRecH 0%nat 20000;
  ExpRec 4%nat 0 11 15 10000 50000 30000 10000;
  ExpRec 5%nat 2 12 15 20000 50000 30000 20000;
  ExpRecs 6%nat;
  Reset [] [(0, 10, 15); (2, 10, 15); (0, 11, 15); (2, 11, 15); (2, 12, 15)] [(0, 10, 15); (2, 10, 15); (0, 11, 15); (2, 11, 15); (2, 12, 15)]].

Definition IC_MIBS_59 : list cmd := [
  Seed seed1234;
  SetH 10 15 None (Some 0) (Some 30000) (Some 30000) (Some 80000) (Some 50000) (Some 60000) (Some 60000) (Some 70000);
  SetH 11 15 None (Some 0) (Some 30000) (Some 30000) (Some 40000) (Some 50000) (Some 80000) (Some 80000) (Some 90000);
  SetH 12 15 None None None None None (Some 0) (Some 30000) (Some 30000) (Some 40000);
  Push 0 10 15 0 50000 30000 50000;
  Push 2 10 15 0 50000 60000 10000;
  Push 0 11 15 10000 50000 30000 10000;
  Push 2 11 15 10000 50000 80000 10000;
  Push 2 12 15 20000 50000 30000 10000;
  MoveIBS;
  ExpH 10 15 None (Some 30000) (Some 50000) (Some 60000) (Some 70000);
  ExpH 11 15 None (Some 30000) (Some 50000) (Some 80000) (Some 90000);
  ExpH 12 15 None None None (Some 30000) (Some 60000);
  ExpRecH 0%nat 20000;
  ExpRec 5%nat 0 11 15 10000 50000 30000 10000;
  ExpRec 6%nat 2 12 15 20000 50000 30000 20000;
  ExpRecs 7%nat;
  Reset [] [(0, 10, 15); (2, 10, 15); (0, 11, 15); (2, 11, 15); (2, 12, 15)] [(0, 10, 15); (2, 10, 15); (0, 11, 15); (2, 11, 15); (2, 12, 15)]].

Definition IC_MIBS_60 : list cmd := [
  Seed seed1234;
  SetH 10 15 None (Some 0) (Some 30000) (Some 30000) (Some 80000) (Some 50000) (Some 60000) (Some 60000) (Some 70000);
  SetH 11 15 None (Some 0) (Some 30000) (Some 30000) (Some 40000) (Some 50000) (Some 80000) (Some 80000) (Some 90000);
  SetH 12 15 None None None None None (Some 30000) (Some 50000) None None;
  Push 0 10 15 0 50000 30000 50000;
  Push 2 10 15 0 50000 60000 10000;
  Push 0 11 15 10000 50000 30000 10000;
  Push 2 11 15 10000 50000 80000 10000;
  MoveIBS;
  ExpH 10 15 None (Some 30000) (Some 50000) (Some 60000) (Some 70000);
  ExpH 11 15 None (Some 30000) (Some 50000) (Some 80000) (Some 90000);
  ExpT 10 16 20000;
  ExpRecH 0%nat 20000;
  ExpRec 4%nat 0 11 15 10000 50000 30000 10000;
  ExpRecs 5%nat;
  Reset [(10, 16)] [(0, 10, 15); (2, 10, 15); (0, 11, 15); (2, 11, 15); (2, 12, 15)] [(0, 10, 15); (2, 10, 15); (0, 11, 15); (2, 11, 15)]].

Definition IC_MIBS_61 : list cmd := [
  Seed seed1234;
  SetH 10 15 None (Some 0) (Some 30000) (Some 30000) (Some 80000) (Some 50000) (Some 60000) (Some 60000) (Some 70000);
  SetH 11 15 None (Some 0) (Some 10000) (Some 10000) (Some 60000) (Some 70000) (Some 80000) (Some 80000) (Some 90000);
  SetH 12 15 None (Some 10000) (Some 40000) None None (Some 70000) (Some 90000) None None;
  Push 0 10 15 0 50000 30000 50000;
  Push 2 10 15 0 50000 60000 10000;
  Push 0 11 15 10000 50000 10000 50000;
  Push 2 11 15 10000 50000 80000 10000;
  MoveIBS;
  ExpH 10 15 None (Some 30000) (Some 50000) (Some 60000) (Some 70000);
  ExpH 11 15 None (Some 10000) (Some 70000) (Some 80000) (Some 90000);
  ExpH 12 15 None (Some 40000) (Some 60000) None None;
  ExpRecH 0%nat 20000;
  ExpRec 4%nat 0 11 15 10000 50000 10000 10000;
  ExpRec 5%nat 0 12 15 20000 50000 40000 20000;
  ExpRecs 6%nat;
  Reset [] [(0, 10, 15); (2, 10, 15); (0, 11, 15); (2, 11, 15); (0, 12, 15); (2, 12, 15)] [(0, 10, 15); (2, 10, 15); (0, 11, 15); (2, 11, 15); (0, 12, 15)]].

Definition IC_MIBS_62 : list cmd := [
  Seed seed1234;
  SetH 10 15 None (Some 0) (Some 30000) (Some 30000) (Some 80000) (Some 50000) (Some 60000) (Some 60000) (Some 70000);
  SetH 11 15 None (Some 0) (Some 10000) (Some 10000) (Some 60000) (Some 70000) (Some 80000) (Some 80000) (Some 90000);
  SetH 12 15 None (Some 10000) (Some 40000) None None (Some 50000) (Some 90000) None None;
  Push 0 10 15 0 50000 30000 50000;
  Push 2 10 15 0 50000 60000 10000;
  Push 0 11 15 10000 50000 10000 50000;
  Push 2 11 15 10000 50000 80000 10000;
  MoveIBS;
  ExpH 10 15 None (Some 30000) (Some 50000) (Some 60000) (Some 70000);
  ExpH 11 15 None (Some 10000) (Some 70000) (Some 80000) (Some 90000);
  ExpH 12 15 None (Some 40000) (Some 50000) None None;
  ExpT 13 15 10000;
  ExpRecH 0%nat 20000;
  ExpRec 4%nat 0 11 15 10000 50000 10000 10000;
  ExpRec 5%nat 0 12 15 20000 50000 40000 10000;
  ExpRecs 6%nat;
  Reset [(13, 15)] [(0, 10, 15); (2, 10, 15); (0, 11, 15); (2, 11, 15); (0, 12, 15); (2, 12, 15)] [(0, 10, 15); (2, 10, 15); (0, 11, 15); (2, 11, 15); (0, 12, 15)]].

Definition IC_MIBS_63 : list cmd := [
  Seed seed1234;
  SetH 10 15 None (Some 0) (Some 30000) (Some 30000) (Some 80000) (Some 50000) (Some 60000) (Some 60000) (Some 70000);
  SetH 11 15 None (Some 0) (Some 10000) (Some 10000) (Some 60000) (Some 70000) (Some 80000) (Some 80000) (Some 90000);
  SetH 12 15 None (Some 10000) (Some 20000) (Some 20000) (Some 30000) (Some 70000) (Some 90000) (Some 90000) (Some 130000);
  Push 0 10 15 0 50000 30000 50000;
  Push 2 10 15 0 50000 60000 10000;
  Push 0 11 15 10000 50000 10000 50000;
  Push 2 11 15 10000 50000 80000 10000;
  Push 0 12 15 20000 50000 20000 10000;
  Push 2 12 15 20000 50000 90000 40000;
  MoveIBS;
  ExpH 10 15 None (Some 30000) (Some 50000) (Some 60000) (Some 70000);
  ExpH 11 15 None (Some 10000) (Some 70000) (Some 80000) (Some 90000);
  ExpH 12 15 None (Some 20000) (Some 50000) (Some 90000) (Some 130000);
  ExpRecH 0%nat 20000;
  ExpRec 6%nat 0 11 15 10000 50000 10000 10000;
  ExpRec 7%nat 0 12 15 20000 50000 20000 20000;
  ExpRecs 8%nat;
  Reset [] [(0, 10, 15); (2, 10, 15); (0, 11, 15); (2, 11, 15); (0, 12, 15); (2, 12, 15)] [(0, 10, 15); (2, 10, 15); (0, 11, 15); (2, 11, 15); (0, 12, 15); (2, 12, 15)]].

Definition IC_MIBS_64 : list cmd := [
  Seed seed1234;
  SetH 10 15 None (Some 0) (Some 30000) (Some 30000) (Some 80000) (Some 50000) (Some 60000) (Some 60000) (Some 70000);
  SetH 11 15 None (Some 0) (Some 10000) (Some 10000) (Some 60000) (Some 70000) (Some 80000) (Some 80000) (Some 90000);
  SetH 12 15 None (Some 10000) (Some 20000) (Some 20000) (Some 30000) (Some 40000) (Some 90000) (Some 90000) (Some 130000);
  Push 0 10 15 0 50000 30000 50000;
  Push 2 10 15 0 50000 60000 10000;
  Push 0 11 15 10000 50000 10000 50000;
  Push 2 11 15 10000 50000 80000 10000;
  Push 0 12 15 20000 50000 20000 10000;
  Push 2 12 15 20000 50000 90000 40000;
  MoveIBS;
  ExpH 10 15 None (Some 30000) (Some 50000) (Some 60000) (Some 70000);
  ExpH 11 15 None (Some 10000) (Some 70000) (Some 80000) (Some 90000);
  ExpH 12 15 None (Some 20000) (Some 40000) (Some 90000) (Some 130000);
  ExpT 13 15 10000;
  ExpRecH 0%nat 20000;
  ExpRec 6%nat 0 11 15 10000 50000 10000 10000;
  ExpRec 7%nat 0 12 15 20000 50000 20000 10000;
  ExpRecs 8%nat;
  Reset [(13, 15)] [(0, 10, 15); (2, 10, 15); (0, 11, 15); (2, 11, 15); (0, 12, 15); (2, 12, 15)] [(0, 10, 15); (2, 10, 15); (0, 11, 15); (2, 11, 15); (0, 12, 15); (2, 12, 15)]].

Definition IC_MIBS_65 : list cmd := [
  Seed seed1234;
  SetH 10 15 None (Some 0) (Some 30000) (Some 30000) (Some 80000) (Some 50000) (Some 60000) (Some 60000) (Some 70000);
  SetH 11 15 None (Some 0) (Some 10000) (Some 10000) (Some 60000) (Some 70000) (Some 80000) (Some 80000) (Some 90000);
  SetH 12 15 None (Some 10000) (Some 20000) (Some 20000) (Some 40000) (Some 40000) (Some 90000) (Some 90000) (Some 130000);
  Push 0 10 15 0 50000 30000 50000;
  Push 2 10 15 0 50000 60000 10000;
  Push 0 11 15 10000 50000 10000 50000;
  Push 2 11 15 10000 50000 80000 10000;
  Push 0 12 15 20000 50000 20000 20000;
  Push 2 12 15 20000 50000 90000 40000;
  MoveIBS;
  ExpH 10 15 None (Some 30000) (Some 50000) (Some 60000) (Some 70000);
  ExpH 11 15 None (Some 10000) (Some 70000) (Some 80000) (Some 90000);
  ExpT 13 15 20000;
  ExpRecH 0%nat 20000;
  ExpRec 6%nat 0 11 15 10000 50000 10000 10000;
  ExpRecs 7%nat;
  Reset [(13, 15)] [(0, 10, 15); (2, 10, 15); (0, 11, 15); (2, 11, 15); (0, 12, 15); (2, 12, 15)] [(0, 10, 15); (2, 10, 15); (0, 11, 15); (2, 11, 15); (0, 12, 15); (2, 12, 15)]].

Definition IC_MIBS_66 : list cmd := [
  Seed seed1234;
  SetH 10 15 None (Some 0) (Some 30000) (Some 30000) (Some 80000) (Some 50000) (Some 60000) (Some 60000) (Some 70000);
  SetH 11 15 None (Some 0) (Some 10000) (Some 10000) (Some 60000) (Some 70000) (Some 80000) (Some 80000) (Some 90000);
  SetH 12 15 None (Some 70000) (Some 90000) None None (Some 10000) (Some 40000) None None;
  Push 0 10 15 0 50000 30000 50000;
  Push 2 10 15 0 50000 60000 10000;
  Push 0 11 15 10000 50000 10000 50000;
  Push 2 11 15 10000 50000 80000 10000;
  MoveIBS;
  ExpH 10 15 None (Some 30000) (Some 50000) (Some 60000) (Some 70000);
  ExpH 11 15 None (Some 10000) (Some 70000) (Some 80000) (Some 90000);
  ExpH 12 15 None None None (Some 40000) (Some 60000);
  ExpRecH 0%nat 20000;
  ExpRec 4%nat 0 11 15 10000 50000 10000 10000;
  ExpRec 5%nat 2 12 15 20000 50000 40000 20000;
  ExpRecs 6%nat;
  Reset [] [(0, 10, 15); (2, 10, 15); (0, 11, 15); (2, 11, 15); (0, 12, 15); (2, 12, 15)] [(0, 10, 15); (2, 10, 15); (0, 11, 15); (2, 11, 15); (2, 12, 15)]].

Definition IC_MIBS_67 : list cmd := [
  Seed seed1234;
  SetH 10 15 None (Some 0) (Some 30000) (Some 30000) (Some 80000) (Some 50000) (Some 60000) (Some 60000) (Some 70000);
  SetH 11 15 None (Some 0) (Some 10000) (Some 10000) (Some 60000) (Some 70000) (Some 80000) (Some 80000) (Some 90000);
  SetH 12 15 None (Some 50000) (Some 90000) None None (Some 10000) (Some 40000) None None;
  Push 0 10 15 0 50000 30000 50000;
  Push 2 10 15 0 50000 60000 10000;
  Push 0 11 15 10000 50000 10000 50000;
  Push 2 11 15 10000 50000 80000 10000;
  MoveIBS;
  ExpH 10 15 None (Some 30000) (Some 50000) (Some 60000) (Some 70000);
  ExpH 11 15 None (Some 10000) (Some 70000) (Some 80000) (Some 90000);
  ExpH 12 15 None None None (Some 40000) (Some 50000);
  ExpT 13 15 10000;
  ExpRecH 0%nat 20000;
  ExpRec 4%nat 0 11 15 10000 50000 10000 10000;
  ExpRec 5%nat 2 12 15 20000 50000 40000 10000;
  ExpRecs 6%nat;
  Reset [(13, 15)] [(0, 10, 15); (2, 10, 15); (0, 11, 15); (2, 11, 15); (0, 12, 15); (2, 12, 15)] [(0, 10, 15); (2, 10, 15); (0, 11, 15); (2, 11, 15); (2, 12, 15)]].

Definition IC_MIBS_68 : list cmd := [
  Seed seed1234;
  SetH 10 15 None (Some 0) (Some 30000) (Some 30000) (Some 80000) (Some 50000) (Some 60000) (Some 60000) (Some 70000);
  SetH 11 15 None (Some 0) (Some 10000) (Some 10000) (Some 60000) (Some 70000) (Some 80000) (Some 80000) (Some 90000);
  SetH 12 15 None (Some 70000) (Some 90000) (Some 90000) (Some 130000) (Some 10000) (Some 20000) (Some 20000) (Some 30000);
  Push 0 10 15 0 50000 30000 50000;
  Push 2 10 15 0 50000 60000 10000;
  Push 0 11 15 10000 50000 10000 50000;
  Push 2 11 15 10000 50000 80000 10000;
  Push 0 12 15 20000 50000 90000 40000;
  Push 2 12 15 20000 50000 20000 10000;
  MoveIBS;
  ExpH 10 15 None (Some 30000) (Some 50000) (Some 60000) (Some 70000);
  ExpH 11 15 None (Some 10000) (Some 70000) (Some 80000) (Some 90000);
  ExpH 12 15 None (Some 90000) (Some 130000) (Some 20000) (Some 50000);
  ExpRecH 0%nat 20000;
  ExpRec 6%nat 0 11 15 10000 50000 10000 10000;
  ExpRec 7%nat 2 12 15 20000 50000 20000 20000;
  ExpRecs 8%nat;
  Reset [] [(0, 10, 15); (2, 10, 15); (0, 11, 15); (2, 11, 15); (0, 12, 15); (2, 12, 15)] [(0, 10, 15); (2, 10, 15); (0, 11, 15); (2, 11, 15); (0, 12, 15); (2, 12, 15)]].

Definition IC_MIBS_69 : list cmd := [
  Seed seed1234;
  SetH 10 15 None (Some 0) (Some 30000) (Some 30000) (Some 80000) (Some 50000) (Some 60000) (Some 60000) (Some 70000);
  SetH 11 15 None (Some 0) (Some 10000) (Some 10000) (Some 60000) (Some 70000) (Some 80000) (Some 80000) (Some 90000);
  SetH 12 15 None (Some 40000) (Some 90000) (Some 90000) (Some 130000) (Some 10000) (Some 20000) (Some 20000) (Some 30000);
  Push 0 10 15 0 50000 30000 50000;
  Push 2 10 15 0 50000 60000 10000;
  Push 0 11 15 10000 50000 10000 50000;
  Push 2 11 15 10000 50000 80000 10000;
  Push 0 12 15 20000 50000 90000 40000;
  Push 2 12 15 20000 50000 20000 10000;
  MoveIBS;
  ExpH 10 15 None (Some 30000) (Some 50000) (Some 60000) (Some 70000);
  ExpH 11 15 None (Some 10000) (Some 70000) (Some 80000) (Some 90000);
  ExpH 12 15 None (Some 90000) (Some 130000) (Some 20000) (Some 40000);
  ExpT 13 15 10000;
  ExpRecH 0%nat 20000;
  ExpRec 6%nat 0 11 15 10000 50000 10000 10000;
  ExpRec 7%nat 2 12 15 20000 50000 20000 10000;
  ExpRecs 8%nat;
  Reset [(13, 15)] [(0, 10, 15); (2, 10, 15); (0, 11, 15); (2, 11, 15); (0, 12, 15); (2, 12, 15)] [(0, 10, 15); (2, 10, 15); (0, 11, 15); (2, 11, 15); (0, 12, 15); (2, 12, 15)]].

Definition IC_MIBS_70 : list cmd := [
  Seed seed1234;
  SetH 10 15 None (Some 0) (Some 30000) (Some 30000) (Some 80000) (Some 50000) (Some 60000) (Some 60000) (Some 70000);
  SetH 11 15 None (Some 0) (Some 10000) (Some 10000) (Some 60000) (Some 70000) (Some 80000) (Some 80000) (Some 90000);
  SetH 12 15 None (Some 40000) (Some 90000) (Some 90000) (Some 130000) (Some 10000) (Some 20000) (Some 20000) (Some 40000);
  Push 0 10 15 0 50000 30000 50000;
  Push 2 10 15 0 50000 60000 10000;
  Push 0 11 15 10000 50000 10000 50000;
  Push 2 11 15 10000 50000 80000 10000;
  Push 0 12 15 20000 50000 90000 40000;
  Push 2 12 15 20000 50000 20000 20000;
  MoveIBS;
  ExpH 10 15 None (Some 30000) (Some 50000) (Some 60000) (Some 70000);
  ExpH 11 15 None (Some 10000) (Some 70000) (Some 80000) (Some 90000);
  ExpT 13 15 20000;
  ExpRecH 0%nat 20000;
  ExpRec 6%nat 0 11 15 10000 50000 10000 10000;
  ExpRecs 7%nat;
  Reset [(13, 15)] [(0, 10, 15); (2, 10, 15); (0, 11, 15); (2, 11, 15); (0, 12, 15); (2, 12, 15)] [(0, 10, 15); (2, 10, 15); (0, 11, 15); (2, 11, 15); (0, 12, 15); (2, 12, 15)]].

Definition IC_MIBS_71 : list cmd := [
  Seed seed1234;
  SetH 10 15 None (Some 0) (Some 30000) (Some 30000) (Some 80000) (Some 50000) (Some 60000) (Some 60000) (Some 70000);
  SetH 11 15 None (Some 0) (Some 10000) (Some 10000) (Some 40000) (Some 40000) (Some 70000) (Some 70000) (Some 90000);
  Push 0 10 15 0 50000 30000 50000;
  Push 2 10 15 0 50000 60000 10000;
  Push 0 11 15 10000 50000 10000 30000;
  Push 2 11 15 10000 50000 70000 20000;
  MoveIBS;
  ExpH 10 15 None (Some 30000) (Some 50000) (Some 60000) (Some 70000);
  ExpT 12 15 30000;
  ExpRecH 0%nat 20000;
  ExpRecs 4%nat;
  Reset [(12, 15)] [(0, 10, 15); (2, 10, 15); (0, 11, 15); (2, 11, 15)] [(0, 10, 15); (2, 10, 15); (0, 11, 15); (2, 11, 15)]].

Definition IC_MIBS_72 : list cmd := [
  Seed seed1234;
  SetH 10 15 None (Some 0) (Some 30000) (Some 30000) (Some 80000) (Some 50000) (Some 60000) (Some 60000) (Some 70000);
  SetH 11 15 None (Some 0) (Some 10000) (Some 10000) (Some 70000) (Some 70000) (Some 80000) (Some 80000) (Some 90000);
  SetH 12 15 (Some 10000) (Some 20000) (Some 40000) None None None None None None;
  Push 0 10 15 0 50000 30000 50000;
  Push 2 10 15 0 50000 60000 10000;
  Push 0 11 15 10000 50000 10000 60000;
  Push 2 11 15 10000 50000 80000 10000;
  MoveIBS;
  ExpH 10 15 None (Some 30000) (Some 50000) (Some 60000) (Some 70000);
  ExpT 12 15 40000;
  ExpRecH 0%nat 20000;
  ExpRecs 4%nat;
  Reset [(12, 15)] [(0, 10, 15); (2, 10, 15); (0, 11, 15); (2, 11, 15); (0, 12, 15)] [(0, 10, 15); (2, 10, 15); (0, 11, 15); (2, 11, 15)]].

Definition IC_MIBS_73 : list cmd := [
  Seed seed1234;
  SetH 10 15 None (Some 0) (Some 30000) (Some 30000) (Some 80000) (Some 50000) (Some 60000) (Some 60000) (Some 70000);
  SetH 11 15 None (Some 0) (Some 30000) (Some 30000) (Some 50000) (Some 50000) (Some 80000) (Some 80000) (Some 90000);
  SetH 12 15 None (Some 0) (Some 30000) None None None None None None;
  Push 0 10 15 0 50000 30000 50000;
  Push 2 10 15 0 50000 60000 10000;
  Push 0 11 15 10000 50000 30000 20000;
  Push 2 11 15 10000 50000 80000 10000;
  MoveIBS;
  ExpH 10 15 None (Some 30000) (Some 50000) (Some 60000) (Some 70000);
  ExpH 12 15 None (Some 30000) (Some 60000) None None;
  ExpRecH 0%nat 20000;
  ExpRec 4%nat 0 12 15 20000 50000 30000 30000;
  ExpRecs 5%nat;
  Reset [] [(0, 10, 15); (2, 10, 15); (0, 11, 15); (2, 11, 15); (0, 12, 15)] [(0, 10, 15); (2, 10, 15); (0, 11, 15); (2, 11, 15); (0, 12, 15)]].

Definition IC_MIBS_74 : list cmd := [
  Seed seed1234;
  SetH 10 15 None (Some 0) (Some 30000) (Some 30000) (Some 80000) (Some 50000) (Some 60000) (Some 60000) (Some 70000);
  SetH 11 15 None (Some 0) (Some 30000) (Some 30000) (Some 50000) (Some 50000) (Some 80000) (Some 80000) (Some 90000);
  SetH 12 15 None (Some 0) (Some 30000) (Some 30000) (Some 40000) None None None None;
  Push 0 10 15 0 50000 30000 50000;
  Push 2 10 15 0 50000 60000 10000;
  Push 0 11 15 10000 50000 30000 20000;
  Push 2 11 15 10000 50000 80000 10000;
  Push 0 12 15 20000 50000 30000 10000;
  MoveIBS;
  ExpH 10 15 None (Some 30000) (Some 50000) (Some 60000) (Some 70000);
  ExpH 12 15 None (Some 30000) (Some 70000) None None;
  ExpRecH 0%nat 20000;
  ExpRec 5%nat 0 12 15 20000 50000 30000 30000;
  ExpRecs 6%nat;
  Reset [] [(0, 10, 15); (2, 10, 15); (0, 11, 15); (2, 11, 15); (0, 12, 15)] [(0, 10, 15); (2, 10, 15); (0, 11, 15); (2, 11, 15); (0, 12, 15)]].

Definition IC_MIBS_75 : list cmd := [
  Seed seed1234;
  SetH 10 15 None (Some 0) (Some 30000) (Some 30000) (Some 80000) (Some 50000) (Some 60000) (Some 60000) (Some 70000);
  SetH 11 15 None (Some 0) (Some 30000) (Some 30000) (Some 50000) (Some 50000) (Some 80000) (Some 80000) (Some 90000);
  SetH 12 15 None (Some 30000) (Some 50000) None None None None None None;
  Push 0 10 15 0 50000 30000 50000;
  Push 2 10 15 0 50000 60000 10000;
  Push 0 11 15 10000 50000 30000 20000;
  Push 2 11 15 10000 50000 80000 10000;
  MoveIBS;
  ExpH 10 15 None (Some 30000) (Some 50000) (Some 60000) (Some 70000);
  ExpT 10 16 30000;
  ExpRecH 0%nat 20000;
  ExpRecs 4%nat;
  Reset [(10, 16)] [(0, 10, 15); (2, 10, 15); (0, 11, 15); (2, 11, 15); (0, 12, 15)] [(0, 10, 15); (2, 10, 15); (0, 11, 15); (2, 11, 15)]].

Definition IC_MIBS_76 : list cmd := [
  Seed seed1234;
  SetH 10 15 None (Some 0) (Some 30000) (Some 30000) (Some 80000) (Some 50000) (Some 60000) (Some 60000) (Some 70000);
  SetH 11 15 None (Some 0) (Some 10000) (Some 10000) (Some 70000) (Some 70000) (Some 80000) (Some 80000) (Some 90000);
  SetH 12 15 (Some 10000) None None None None (Some 20000) (Some 40000) None None;
  Push 0 10 15 0 50000 30000 50000;
  Push 2 10 15 0 50000 60000 10000;
  Push 0 11 15 10000 50000 10000 60000;
  Push 2 11 15 10000 50000 80000 10000;
  MoveIBS;
  ExpH 10 15 None (Some 30000) (Some 50000) (Some 60000) (Some 70000);
  ExpT 12 15 40000;
  ExpRecH 0%nat 20000;
  ExpRecs 4%nat;
  Reset [(12, 15)] [(0, 10, 15); (2, 10, 15); (0, 11, 15); (2, 11, 15); (2, 12, 15)] [(0, 10, 15); (2, 10, 15); (0, 11, 15); (2, 11, 15)]].

Definition IC_MIBS_77 : list cmd := [
  Seed seed1234;
  SetH 10 15 None (Some 0) (Some 30000) (Some 30000) (Some 80000) (Some 50000) (Some 60000) (Some 60000) (Some 70000);
  SetH 11 15 None (Some 0) (Some 30000) (Some 30000) (Some 50000) (Some 50000) (Some 80000) (Some 80000) (Some 90000);
  SetH 12 15 None None None None None (Some 0) (Some 30000) None None;
  Push 0 10 15 0 50000 30000 50000;
  Push 2 10 15 0 50000 60000 10000;
  Push 0 11 15 10000 50000 30000 20000;
  Push 2 11 15 10000 50000 80000 10000;
  MoveIBS;
  ExpH 10 15 None (Some 30000) (Some 50000) (Some 60000) (Some 70000);
  ExpH 12 15 None None None (Some 30000) (Some 60000);
  ExpRecH 0%nat 20000;
  ExpRec 4%nat 2 12 15 20000 50000 30000 30000;
  ExpRecs 5%nat;
  Reset [] [(0, 10, 15); (2, 10, 15); (0, 11, 15); (2, 11, 15); (2, 12, 15)] [(0, 10, 15); (2, 10, 15); (0, 11, 15); (2, 11, 15); (2, 12, 15)]].

Definition IC_MIBS_78 : list cmd := [
  Seed seed1234;
  SetH 10 15 None (Some 0) (Some 30000) (Some 30000) (Some 80000) (Some 50000) (Some 60000) (Some 60000) (Some 70000);
  SetH 11 15 None (Some 0) (Some 30000) (Some 30000) (Some 50000) (Some 50000) (Some 80000) (Some 80000) (Some 90000);
  SetH 12 15 None None None None None (Some 0) (Some 30000) (Some 30000) (Some 40000);
  Push 0 10 15 0 50000 30000 50000;
  Push 2 10 15 0 50000 60000 10000;
  Push 0 11 15 10000 50000 30000 20000;
  Push 2 11 15 10000 50000 80000 10000;
  Push 2 12 15 20000 50000 30000 10000;
  MoveIBS;
  ExpH 10 15 None (Some 30000) (Some 50000) (Some 60000) (Some 70000);
  ExpH 12 15 None None None (Some 30000) (Some 70000);
  ExpRecH 0%nat 20000;
  ExpRec 5%nat 2 12 15 20000 50000 30000 30000;
  ExpRecs 6%nat;
  Reset [] [(0, 10, 15); (2, 10, 15); (0, 11, 15); (2, 11, 15); (2, 12, 15)] [(0, 10, 15); (2, 10, 15); (0, 11, 15); (2, 11, 15); (2, 12, 15)]].

Definition IC_MIBS_79 : list cmd := [
  Seed seed1234;
  SetH 10 15 None (Some 0) (Some 30000) (Some 30000) (Some 80000) (Some 50000) (Some 60000) (Some 60000) (Some 70000);
  SetH 11 15 None (Some 0) (Some 30000) (Some 30000) (Some 50000) (Some 50000) (Some 80000) (Some 80000) (Some 90000);
  SetH 12 15 None None None None None (Some 30000) (Some 50000) None None;
  Push 0 10 15 0 50000 30000 50000;
  Push 2 10 15 0 50000 60000 10000;
  Push 0 11 15 10000 50000 30000 20000;
  Push 2 11 15 10000 50000 80000 10000;
  MoveIBS;
  ExpH 10 15 None (Some 30000) (Some 50000) (Some 60000) (Some 70000);
  ExpT 10 16 30000;
  ExpRecH 0%nat 20000;
  ExpRecs 4%nat;
  Reset [(10, 16)] [(0, 10, 15); (2, 10, 15); (0, 11, 15); (2, 11, 15); (2, 12, 15)] [(0, 10, 15); (2, 10, 15); (0, 11, 15); (2, 11, 15)]].

Definition IC_MIBS_80 : list cmd := [
  Seed seed1234;
  SetH 10 15 None (Some 0) (Some 30000) (Some 30000) (Some 80000) (Some 50000) (Some 60000) (Some 60000) (Some 70000);
  SetH 11 15 None (Some 0) (Some 10000) (Some 10000) (Some 70000) (Some 70000) (Some 80000) (Some 80000) (Some 90000);
  SetH 12 15 None (Some 10000) (Some 40000) None None (Some 70000) (Some 90000) None None;
  Push 0 10 15 0 50000 30000 50000;
  Push 2 10 15 0 50000 60000 10000;
  Push 0 11 15 10000 50000 10000 60000;
  Push 2 11 15 10000 50000 80000 10000;
  MoveIBS;
  ExpH 10 15 None (Some 30000) (Some 50000) (Some 60000) (Some 70000);
  ExpH 12 15 None (Some 40000) (Some 70000) None None;
  ExpRecH 0%nat 20000;
  ExpRec 4%nat 0 12 15 20000 50000 40000 30000;
  ExpRecs 5%nat;
  Reset [] [(0, 10, 15); (2, 10, 15); (0, 11, 15); (2, 11, 15); (0, 12, 15); (2, 12, 15)] [(0, 10, 15); (2, 10, 15); (0, 11, 15); (2, 11, 15); (0, 12, 15)]].

Definition IC_MIBS_81 : list cmd := [
  Seed seed1234;
  SetH 10 15 None (Some 0) (Some 30000) (Some 30000) (Some 80000) (Some 50000) (Some 60000) (Some 60000) (Some 70000);
  SetH 11 15 None (Some 0) (Some 10000) (Some 10000) (Some 70000) (Some 70000) (Some 80000) (Some 80000) (Some 90000);
  SetH 12 15 None (Some 10000) (Some 40000) None None (Some 50000) (Some 90000) None None;
  Push 0 10 15 0 50000 30000 50000;
  Push 2 10 15 0 50000 60000 10000;
  Push 0 11 15 10000 50000 10000 60000;
  Push 2 11 15 10000 50000 80000 10000;
  MoveIBS;
  ExpH 10 15 None (Some 30000) (Some 50000) (Some 60000) (Some 70000);
  ExpH 12 15 None (Some 40000) (Some 50000) None None;
  ExpT 13 15 20000;
  ExpRecH 0%nat 20000;
  ExpRec 4%nat 0 12 15 20000 50000 40000 10000;
  ExpRecs 5%nat;
  Reset [(13, 15)] [(0, 10, 15); (2, 10, 15); (0, 11, 15); (2, 11, 15); (0, 12, 15); (2, 12, 15)] [(0, 10, 15); (2, 10, 15); (0, 11, 15); (2, 11, 15); (0, 12, 15)]].

Definition IC_MIBS_82 : list cmd := [
  Seed seed1234;
  SetH 10 15 None (Some 0) (Some 30000) (Some 30000) (Some 80000) (Some 50000) (Some 60000) (Some 60000) (Some 70000);
  SetH 11 15 None (Some 0) (Some 10000) (Some 10000) (Some 70000) (Some 70000) (Some 80000) (Some 80000) (Some 90000);
  SetH 12 15 None (Some 10000) (Some 20000) (Some 20000) (Some 30000) (Some 70000) (Some 90000) (Some 90000) (Some 130000);
  Push 0 10 15 0 50000 30000 50000;
  Push 2 10 15 0 50000 60000 10000;
  Push 0 11 15 10000 50000 10000 60000;
  Push 2 11 15 10000 50000 80000 10000;
  Push 0 12 15 20000 50000 20000 10000;
  Push 2 12 15 20000 50000 90000 40000;
  MoveIBS;
  ExpH 10 15 None (Some 30000) (Some 50000) (Some 60000) (Some 70000);
  ExpH 12 15 None (Some 20000) (Some 60000) (Some 90000) (Some 130000);
  ExpRecH 0%nat 20000;
  ExpRec 6%nat 0 12 15 20000 50000 20000 30000;
  ExpRecs 7%nat;
  Reset [] [(0, 10, 15); (2, 10, 15); (0, 11, 15); (2, 11, 15); (0, 12, 15); (2, 12, 15)] [(0, 10, 15); (2, 10, 15); (0, 11, 15); (2, 11, 15); (0, 12, 15); (2, 12, 15)]].

Definition IC_MIBS_83 : list cmd := [
  Seed seed1234;
  SetH 10 15 None (Some 0) (Some 30000) (Some 30000) (Some 80000) (Some 50000) (Some 60000) (Some 60000) (Some 70000);
  SetH 11 15 None (Some 0) (Some 10000) (Some 10000) (Some 70000) (Some 70000) (Some 80000) (Some 80000) (Some 90000);
  SetH 12 15 None (Some 10000) (Some 20000) (Some 20000) (Some 30000) (Some 40000) (Some 90000) (Some 90000) (Some 130000);
  Push 0 10 15 0 50000 30000 50000;
  Push 2 10 15 0 50000 60000 10000;
  Push 0 11 15 10000 50000 10000 60000;
  Push 2 11 15 10000 50000 80000 10000;
  Push 0 12 15 20000 50000 20000 10000;
  Push 2 12 15 20000 50000 90000 40000;
  MoveIBS;
  ExpH 10 15 None (Some 30000) (Some 50000) (Some 60000) (Some 70000);
  ExpH 12 15 None (Some 20000) (Some 40000) (Some 90000) (Some 130000);
  ExpT 13 15 20000;
  ExpRecH 0%nat 20000;
  ExpRec 6%nat 0 12 15 20000 50000 20000 10000;
  ExpRecs 7%nat;
  Reset [(13, 15)] [(0, 10, 15); (2, 10, 15); (0, 11, 15); (2, 11, 15); (0, 12, 15); (2, 12, 15)] [(0, 10, 15); (2, 10, 15); (0, 11, 15); (2, 11, 15); (0, 12, 15); (2, 12, 15)]].

Definition IC_MIBS_84 : list cmd := [
  Seed seed1234;
  SetH 10 15 None (Some 0) (Some 30000) (Some 30000) (Some 80000) (Some 50000) (Some 60000) (Some 60000) (Some 70000);
  SetH 11 15 None (Some 0) (Some 10000) (Some 10000) (Some 70000) (Some 70000) (Some 80000) (Some 80000) (Some 90000);
  SetH 12 15 None (Some 10000) (Some 20000) (Some 20000) (Some 40000) (Some 40000) (Some 90000) (Some 90000) (Some 130000);
  Push 0 10 15 0 50000 30000 50000;
  Push 2 10 15 0 50000 60000 10000;
  Push 0 11 15 10000 50000 10000 60000;
  Push 2 11 15 10000 50000 80000 10000;
  Push 0 12 15 20000 50000 20000 20000;
  Push 2 12 15 20000 50000 90000 40000;
  MoveIBS;
  ExpH 10 15 None (Some 30000) (Some 50000) (Some 60000) (Some 70000);
  ExpT 13 15 30000;
  ExpRecH 0%nat 20000;
  ExpRecs 6%nat;
  Reset [(13, 15)] [(0, 10, 15); (2, 10, 15); (0, 11, 15); (2, 11, 15); (0, 12, 15); (2, 12, 15)] [(0, 10, 15); (2, 10, 15); (0, 11, 15); (2, 11, 15); (0, 12, 15); (2, 12, 15)]].

Definition IC_MIBS_85 : list cmd := [
  Seed seed1234;
  SetH 10 15 None (Some 0) (Some 30000) (Some 30000) (Some 80000) (Some 50000) (Some 60000) (Some 60000) (Some 70000);
  SetH 11 15 None (Some 0) (Some 10000) (Some 10000) (Some 70000) (Some 70000) (Some 80000) (Some 80000) (Some 90000);
  SetH 12 15 None (Some 70000) (Some 90000) None None (Some 10000) (Some 40000) None None;
  Push 0 10 15 0 50000 30000 50000;
  Push 2 10 15 0 50000 60000 10000;
  Push 0 11 15 10000 50000 10000 60000;
  Push 2 11 15 10000 50000 80000 10000;
  MoveIBS;
  ExpH 10 15 None (Some 30000) (Some 50000) (Some 60000) (Some 70000);
  ExpH 12 15 None None None (Some 40000) (Some 70000);
  ExpRecH 0%nat 20000;
  ExpRec 4%nat 2 12 15 20000 50000 40000 30000;
  ExpRecs 5%nat;
  Reset [] [(0, 10, 15); (2, 10, 15); (0, 11, 15); (2, 11, 15); (0, 12, 15); (2, 12, 15)] [(0, 10, 15); (2, 10, 15); (0, 11, 15); (2, 11, 15); (2, 12, 15)]].

Definition IC_MIBS_86 : list cmd := [
  Seed seed1234;
  SetH 10 15 None (Some 0) (Some 30000) (Some 30000) (Some 80000) (Some 50000) (Some 60000) (Some 60000) (Some 70000);
  SetH 11 15 None (Some 0) (Some 10000) (Some 10000) (Some 70000) (Some 70000) (Some 80000) (Some 80000) (Some 90000);
  SetH 12 15 None (Some 50000) (Some 90000) None None (Some 10000) (Some 40000) None None;
  Push 0 10 15 0 50000 30000 50000;
  Push 2 10 15 0 50000 60000 10000;
  Push 0 11 15 10000 50000 10000 60000;
  Push 2 11 15 10000 50000 80000 10000;
  MoveIBS;
  ExpH 10 15 None (Some 30000) (Some 50000) (Some 60000) (Some 70000);
  ExpH 12 15 None None None (Some 40000) (Some 50000);
  ExpT 13 15 20000;
  ExpRecH 0%nat 20000;
  ExpRec 4%nat 2 12 15 20000 50000 40000 10000;
  ExpRecs 5%nat;
  Reset [(13, 15)] [(0, 10, 15); (2, 10, 15); (0, 11, 15); (2, 11, 15); (0, 12, 15); (2, 12, 15)] [(0, 10, 15); (2, 10, 15); (0, 11, 15); (2, 11, 15); (2, 12, 15)]].

Definition IC_MIBS_87 : list cmd := [
  Seed seed1234;
  SetH 10 15 None (Some 0) (Some 30000) (Some 30000) (Some 80000) (Some 50000) (Some 60000) (Some 60000) (Some 70000);
  SetH 11 15 None (Some 0) (Some 10000) (Some 10000) (Some 70000) (Some 70000) (Some 80000) (Some 80000) (Some 90000);
  SetH 12 15 None (Some 70000) (Some 90000) (Some 90000) (Some 130000) (Some 10000) (Some 20000) (Some 20000) (Some 30000);
  Push 0 10 15 0 50000 30000 50000;
  Push 2 10 15 0 50000 60000 10000;
  Push 0 11 15 10000 50000 10000 60000;
  Push 2 11 15 10000 50000 80000 10000;
  Push 0 12 15 20000 50000 90000 40000;
  Push 2 12 15 20000 50000 20000 10000;
  MoveIBS;
  ExpH 10 15 None (Some 30000) (Some 50000) (Some 60000) (Some 70000);
  ExpH 12 15 None (Some 90000) (Some 130000) (Some 20000) (Some 60000);
  ExpRecH 0%nat 20000;
  ExpRec 6%nat 2 12 15 20000 50000 20000 30000;
  ExpRecs 7%nat;
  Reset [] [(0, 10, 15); (2, 10, 15); (0, 11, 15); (2, 11, 15); (0, 12, 15); (2, 12, 15)] [(0, 10, 15); (2, 10, 15); (0, 11, 15); (2, 11, 15); (0, 12, 15); (2, 12, 15)]].

Definition IC_MIBS_88 : list cmd := [
  Seed seed1234;
  SetH 10 15 None (Some 0) (Some 30000) (Some 30000) (Some 80000) (Some 50000) (Some 60000) (Some 60000) (Some 70000);
  SetH 11 15 None (Some 0) (Some 10000) (Some 10000) (Some 70000) (Some 70000) (Some 80000) (Some 80000) (Some 90000);
  SetH 12 15 None (Some 40000) (Some 90000) (Some 90000) (Some 130000) (Some 10000) (Some 20000) (Some 20000) (Some 30000);
  Push 0 10 15 0 50000 30000 50000;
  Push 2 10 15 0 50000 60000 10000;
  Push 0 11 15 10000 50000 10000 60000;
  Push 2 11 15 10000 50000 80000 10000;
  Push 0 12 15 20000 50000 90000 40000;
  Push 2 12 15 20000 50000 20000 10000;
  MoveIBS;
  ExpH 10 15 None (Some 30000) (Some 50000) (Some 60000) (Some 70000);
  ExpH 12 15 None (Some 90000) (Some 130000) (Some 20000) (Some 40000);
  ExpT 13 15 20000;
  ExpRecH 0%nat 20000;
  ExpRec 6%nat 2 12 15 20000 50000 20000 10000;
  ExpRecs 7%nat;
  Reset [(13, 15)] [(0, 10, 15); (2, 10, 15); (0, 11, 15); (2, 11, 15); (0, 12, 15); (2, 12, 15)] [(0, 10, 15); (2, 10, 15); (0, 11, 15); (2, 11, 15); (0, 12, 15); (2, 12, 15)]].

Definition IC_MIBS_89 : list cmd := [
  Seed seed1234;
  SetH 10 15 None (Some 0) (Some 30000) (Some 30000) (Some 80000) (Some 50000) (Some 60000) (Some 60000) (Some 70000);
  SetH 11 15 None (Some 0) (Some 10000) (Some 10000) (Some 70000) (Some 70000) (Some 80000) (Some 80000) (Some 90000);
  SetH 12 15 None (Some 40000) (Some 90000) (Some 90000) (Some 130000) (Some 10000) (Some 20000) (Some 20000) (Some 40000);
  Push 0 10 15 0 50000 30000 50000;
  Push 2 10 15 0 50000 60000 10000;
  Push 0 11 15 10000 50000 10000 60000;
  Push 2 11 15 10000 50000 80000 10000;
  Push 0 12 15 20000 50000 90000 40000;
  Push 2 12 15 20000 50000 20000 20000;
  MoveIBS;
  ExpH 10 15 None (Some 30000) (Some 50000) (Some 60000) (Some 70000);
  ExpT 13 15 30000;
  ExpRecH 0%nat 20000;
  ExpRecs 6%nat;
  Reset [(13, 15)] [(0, 10, 15); (2, 10, 15); (0, 11, 15); (2, 11, 15); (0, 12, 15); (2, 12, 15)] [(0, 10, 15); (2, 10, 15); (0, 11, 15); (2, 11, 15); (0, 12, 15); (2, 12, 15)]].

Definition IC_MIBS_90 : list cmd := [
  Seed seed1234;
  SetH 10 15 None (Some 0) (Some 30000) (Some 30000) (Some 80000) (Some 50000) (Some 60000) (Some 60000) (Some 70000);
  SetH 11 15 None (Some 50000) (Some 70000) None None (Some 0) (Some 20000) None None;
  Push 0 10 15 0 50000 30000 50000;
  Push 2 10 15 0 50000 60000 10000;
  MoveIBS;
  ExpH 10 15 None (Some 30000) (Some 50000) (Some 60000) (Some 70000);
  ExpH 11 15 None None None (Some 20000) (Some 50000);
  ExpRecH 0%nat 20000;
  ExpRec 2%nat 2 11 15 10000 50000 20000 30000;
  ExpRecs 3%nat;
  Reset [] [(0, 10, 15); (2, 10, 15); (0, 11, 15); (2, 11, 15)] [(0, 10, 15); (2, 10, 15); (2, 11, 15)]].

Definition IC_MIBS_91 : list cmd := [
  Seed seed1234;
  SetH 10 15 None (Some 0) (Some 30000) (Some 30000) (Some 80000) (Some 50000) (Some 60000) (Some 60000) (Some 70000);
  SetH 11 15 None (Some 40000) (Some 70000) None None (Some 0) (Some 20000) None None;
  Push 0 10 15 0 50000 30000 50000;
  Push 2 10 15 0 50000 60000 10000;
  MoveIBS;
  ExpH 10 15 None (Some 30000) (Some 50000) (Some 60000) (Some 70000);
  ExpH 11 15 None None None (Some 20000) (Some 40000);
  ExpT 12 15 10000;
  ExpRecH 0%nat 20000;
  ExpRec 2%nat 2 11 15 10000 50000 20000 20000;
  ExpRecs 3%nat;
  Reset [(12, 15)] [(0, 10, 15); (2, 10, 15); (0, 11, 15); (2, 11, 15)] [(0, 10, 15); (2, 10, 15); (2, 11, 15)]].

Definition IC_MIBS_92 : list cmd := [
  Seed seed1234;
  SetH 10 15 None (Some 0) (Some 30000) (Some 30000) (Some 80000) (Some 50000) (Some 60000) (Some 60000) (Some 70000);
  SetH 11 15 None (Some 30000) (Some 70000) None None (Some 0) (Some 20000) None None;
  SetH 12 15 (Some 20000) (Some 30000) (Some 40000) None None None None None None;
  Push 0 10 15 0 50000 30000 50000;
  Push 2 10 15 0 50000 60000 10000;
  MoveIBS;
  ExpH 10 15 None (Some 30000) (Some 50000) (Some 60000) (Some 70000);
  ExpH 11 15 None None None (Some 20000) (Some 30000);
  ExpT 12 15 40000;
  ExpRecH 0%nat 20000;
  ExpRec 2%nat 2 11 15 10000 50000 20000 10000;
  ExpRecs 3%nat;
  Reset [(12, 15)] [(0, 10, 15); (2, 10, 15); (0, 11, 15); (2, 11, 15); (0, 12, 15)] [(0, 10, 15); (2, 10, 15); (2, 11, 15)]].

Definition IC_MIBS_93 : list cmd := [
  Seed seed1234;
  SetH 10 15 None (Some 0) (Some 30000) (Some 30000) (Some 80000) (Some 50000) (Some 60000) (Some 60000) (Some 70000);
  SetH 11 15 None (Some 30000) (Some 70000) None None (Some 0) (Some 20000) None None;
  SetH 12 15 None (Some 0) (Some 20000) None None None None None None;
  Push 0 10 15 0 50000 30000 50000;
  Push 2 10 15 0 50000 60000 10000;
  MoveIBS;
  ExpH 10 15 None (Some 30000) (Some 50000) (Some 60000) (Some 70000);
  ExpH 11 15 None None None (Some 20000) (Some 30000);
  ExpH 12 15 None (Some 20000) (Some 40000) None None;
  ExpRecH 0%nat 20000;
  ExpRec 2%nat 2 11 15 10000 50000 20000 10000;
  ExpRec 3%nat 0 12 15 20000 50000 20000 20000;
  ExpRecs 4%nat;
  Reset [] [(0, 10, 15); (2, 10, 15); (0, 11, 15); (2, 11, 15); (0, 12, 15)] [(0, 10, 15); (2, 10, 15); (2, 11, 15); (0, 12, 15)]].

Definition IC_MIBS_94 : list cmd := [
  Seed seed1234;
  SetH 10 15 None (Some 0) (Some 30000) (Some 30000) (Some 80000) (Some 50000) (Some 60000) (Some 60000) (Some 70000);
  SetH 11 15 None (Some 30000) (Some 70000) None None (Some 0) (Some 20000) None None;
  SetH 12 15 None (Some 0) (Some 20000) (Some 20000) (Some 40000) None None None None;
  Push 0 10 15 0 50000 30000 50000;
  Push 2 10 15 0 50000 60000 10000;
  Push 0 12 15 20000 50000 20000 20000;
  MoveIBS;
  ExpH 10 15 None (Some 30000) (Some 50000) (Some 60000) (Some 70000);
  ExpH 11 15 None None None (Some 20000) (Some 30000);
  ExpH 12 15 None (Some 20000) (Some 60000) None None;
  ExpRecH 0%nat 20000;
  ExpRec 3%nat 2 11 15 10000 50000 20000 10000;
  ExpRec 4%nat 0 12 15 20000 50000 20000 20000;
  ExpRecs 5%nat;
  Reset [] [(0, 10, 15); (2, 10, 15); (0, 11, 15); (2, 11, 15); (0, 12, 15)] [(0, 10, 15); (2, 10, 15); (2, 11, 15); (0, 12, 15)]].

Definition IC_MIBS_95 : list cmd := [
  Seed seed1234;
  SetH 10 15 None (Some 0) (Some 30000) (Some 30000) (Some 80000) (Some 50000) (Some 60000) (Some 60000) (Some 70000);
  SetH 11 15 None (Some 30000) (Some 70000) None None (Some 0) (Some 20000) None None;
  SetH 12 15 None (Some 20000) (Some 30000) None None None None None None;
  Push 0 10 15 0 50000 30000 50000;
  Push 2 10 15 0 50000 60000 10000;
  MoveIBS;
  ExpH 10 15 None (Some 30000) (Some 50000) (Some 60000) (Some 70000);
  ExpH 11 15 None None None (Some 20000) (Some 30000);
  ExpT 10 16 20000;
  ExpRecH 0%nat 20000;
  ExpRec 2%nat 2 11 15 10000 50000 20000 10000;
  ExpRecs 3%nat;
  Reset [(10, 16)] [(0, 10, 15); (2, 10, 15); (0, 11, 15); (2, 11, 15); (0, 12, 15)] [(0, 10, 15); (2, 10, 15); (2, 11, 15)]].

Definition IC_MIBS_96 : list cmd := [
  Seed seed1234;
  SetH 10 15 None (Some 0) (Some 30000) (Some 30000) (Some 80000) (Some 50000) (Some 60000) (Some 60000) (Some 70000);
  SetH 11 15 None (Some 30000) (Some 70000) None None (Some 0) (Some 20000) None None;
  SetH 12 15 (Some 20000) None None None None (Some 30000) (Some 40000) None None;
  Push 0 10 15 0 50000 30000 50000;
  Push 2 10 15 0 50000 60000 10000;
  MoveIBS;
  ExpH 10 15 None (Some 30000) (Some 50000) (Some 60000) (Some 70000);
  ExpH 11 15 None None None (Some 20000) (Some 30000);
  ExpT 12 15 40000;
  ExpRecH 0%nat 20000;
  ExpRec 2%nat 2 11 15 10000 50000 20000 10000;
  ExpRecs 3%nat;
  Reset [(12, 15)] [(0, 10, 15); (2, 10, 15); (0, 11, 15); (2, 11, 15); (2, 12, 15)] [(0, 10, 15); (2, 10, 15); (2, 11, 15)]].

Definition IC_MIBS_97 : list cmd := [
  Seed seed1234;
  SetH 10 15 None (Some 0) (Some 30000) (Some 30000) (Some 80000) (Some 50000) (Some 60000) (Some 60000) (Some 70000);
  SetH 11 15 None (Some 30000) (Some 70000) None None (Some 0) (Some 20000) None None;
  SetH 12 15 None None None None None (Some 0) (Some 20000) None None;
  Push 0 10 15 0 50000 30000 50000;
  Push 2 10 15 0 50000 60000 10000;
  MoveIBS;
  ExpH 10 15 None (Some 30000) (Some 50000) (Some 60000) (Some 70000);
  ExpH 11 15 None None None (Some 20000) (Some 30000);
  ExpH 12 15 None None None (Some 20000) (Some 40000);
  ExpRecH 0%nat 20000;
  ExpRec 2%nat 2 11 15 10000 50000 20000 10000;
  ExpRec 3%nat 2 12 15 20000 50000 20000 20000;
  ExpRecs 4%nat;
  Reset [] [(0, 10, 15); (2, 10, 15); (0, 11, 15); (2, 11, 15); (2, 12, 15)] [(0, 10, 15); (2, 10, 15); (2, 11, 15); (2, 12, 15)]].

Definition IC_MIBS_98 : list cmd := [
  Seed seed1234;
  SetH 10 15 None (Some 0) (Some 30000) (Some 30000) (Some 80000) (Some 50000) (Some 60000) (Some 60000) (Some 70000);
  SetH 11 15 None (Some 60000) (Some 80000) None None (Some 0) (Some 40000) None None;
  SetH 12 15 None None None None None (Some 0) (Some 10000) (Some 10000) (Some 20000);
  Push 0 10 15 0 50000 30000 50000;
  Push 2 10 15 0 50000 60000 10000;
  Push 2 12 15 20000 50000 10000 10000;
  MoveIBS;
  ExpH 10 15 None (Some 30000) (Some 50000) (Some 60000) (Some 70000);
  ExpH 11 15 None None None (Some 40000) (Some 60000);
  ExpH 12 15 None None None (Some 10000) (Some 30000);
  ExpRecH 0%nat 20000;
  ExpRec 3%nat 2 11 15 10000 50000 40000 20000;
  ExpRec 4%nat 2 12 15 20000 50000 10000 10000;
  ExpRecs 5%nat;
  Reset [] [(0, 10, 15); (2, 10, 15); (0, 11, 15); (2, 11, 15); (2, 12, 15)] [(0, 10, 15); (2, 10, 15); (2, 11, 15); (2, 12, 15)]].

Definition IC_MIBS_99 : list cmd := [
  Seed seed1234;
  SetH 10 15 None (Some 0) (Some 30000) (Some 30000) (Some 80000) (Some 50000) (Some 60000) (Some 60000) (Some 70000);
  SetH 11 15 None (Some 30000) (Some 70000) None None (Some 0) (Some 20000) None None;
  SetH 12 15 None None None None None (Some 20000) (Some 30000) None None;
  Push 0 10 15 0 50000 30000 50000;
  Push 2 10 15 0 50000 60000 10000;
  MoveIBS;
  ExpH 10 15 None (Some 30000) (Some 50000) (Some 60000) (Some 70000);
  ExpH 11 15 None None None (Some 20000) (Some 30000);
  ExpT 10 16 20000;
  ExpRecH 0%nat 20000;
  ExpRec 2%nat 2 11 15 10000 50000 20000 10000;
  ExpRecs 3%nat;
  Reset [(10, 16)] [(0, 10, 15); (2, 10, 15); (0, 11, 15); (2, 11, 15); (2, 12, 15)] [(0, 10, 15); (2, 10, 15); (2, 11, 15)]].

Definition IC_MIBS_100 : list cmd := [
  Seed seed1234;
  SetH 10 15 None (Some 0) (Some 30000) (Some 30000) (Some 80000) (Some 50000) (Some 60000) (Some 60000) (Some 70000);
  SetH 11 15 None (Some 30000) (Some 70000) None None (Some 0) (Some 20000) None None;
  SetH 12 15 None (Some 0) (Some 20000) None None (Some 70000) (Some 80000) None None;
  Push 0 10 15 0 50000 30000 50000;
  Push 2 10 15 0 50000 60000 10000;
  MoveIBS;
  ExpH 10 15 None (Some 30000) (Some 50000) (Some 60000) (Some 70000);
  ExpH 11 15 None None None (Some 20000) (Some 30000);
  ExpH 12 15 None (Some 20000) (Some 40000) None None;
  ExpRecH 0%nat 20000;
  ExpRec 2%nat 2 11 15 10000 50000 20000 10000;
  ExpRec 3%nat 0 12 15 20000 50000 20000 20000;
  ExpRecs 4%nat;
  Reset [] [(0, 10, 15); (2, 10, 15); (0, 11, 15); (2, 11, 15); (0, 12, 15); (2, 12, 15)] [(0, 10, 15); (2, 10, 15); (2, 11, 15); (0, 12, 15)]].

Definition IC_MIBS_101 : list cmd := [
  Seed seed1234;
  SetH 10 15 None (Some 0) (Some 30000) (Some 30000) (Some 80000) (Some 50000) (Some 60000) (Some 60000) (Some 70000);
  SetH 11 15 None (Some 30000) (Some 70000) None None (Some 0) (Some 20000) None None;
  SetH 12 15 None (Some 0) (Some 20000) None None (Some 30000) (Some 80000) None None;
  Push 0 10 15 0 50000 30000 50000;
  Push 2 10 15 0 50000 60000 10000;
  MoveIBS;
  ExpH 10 15 None (Some 30000) (Some 50000) (Some 60000) (Some 70000);
  ExpH 11 15 None None None (Some 20000) (Some 30000);
  ExpH 12 15 None (Some 20000) (Some 30000) None None;
  ExpT 13 15 10000;
  ExpRecH 0%nat 20000;
  ExpRec 2%nat 2 11 15 10000 50000 20000 10000;
  ExpRec 3%nat 0 12 15 20000 50000 20000 10000;
  ExpRecs 4%nat;
  Reset [(13, 15)] [(0, 10, 15); (2, 10, 15); (0, 11, 15); (2, 11, 15); (0, 12, 15); (2, 12, 15)] [(0, 10, 15); (2, 10, 15); (2, 11, 15); (0, 12, 15)]].

Definition IC_MIBS_102 : list cmd := [
  Seed seed1234;
  SetH 10 15 None (Some 0) (Some 30000) (Some 30000) (Some 80000) (Some 50000) (Some 60000) (Some 60000) (Some 70000);
  SetH 11 15 None (Some 30000) (Some 70000) None None (Some 0) (Some 20000) None None;
  SetH 12 15 None (Some 0) (Some 20000) (Some 20000) (Some 30000) (Some 70000) (Some 80000) (Some 80000) (Some 90000);
  Push 0 10 15 0 50000 30000 50000;
  Push 2 10 15 0 50000 60000 10000;
  Push 0 12 15 20000 50000 20000 10000;
  Push 2 12 15 20000 50000 80000 10000;
  MoveIBS;
  ExpH 10 15 None (Some 30000) (Some 50000) (Some 60000) (Some 70000);
  ExpH 11 15 None None None (Some 20000) (Some 30000);
  ExpH 12 15 None (Some 20000) (Some 50000) (Some 80000) (Some 90000);
  ExpRecH 0%nat 20000;
  ExpRec 4%nat 2 11 15 10000 50000 20000 10000;
  ExpRec 5%nat 0 12 15 20000 50000 20000 20000;
  ExpRecs 6%nat;
  Reset [] [(0, 10, 15); (2, 10, 15); (0, 11, 15); (2, 11, 15); (0, 12, 15); (2, 12, 15)] [(0, 10, 15); (2, 10, 15); (2, 11, 15); (0, 12, 15); (2, 12, 15)]].

Definition IC_MIBS_103 : list cmd := [
  Seed seed1234;
  SetH 10 15 None (Some 0) (Some 30000) (Some 30000) (Some 80000) (Some 50000) (Some 60000) (Some 60000) (Some 70000);
  SetH 11 15 None (Some 30000) (Some 70000) None None (Some 0) (Some 20000) None None;
  SetH 12 15 None (Some 0) (Some 20000) (Some 20000) (Some 30000) (Some 40000) (Some 80000) (Some 80000) (Some 90000);
  Push 0 10 15 0 50000 30000 50000;
  Push 2 10 15 0 50000 60000 10000;
  Push 0 12 15 20000 50000 20000 10000;
  Push 2 12 15 20000 50000 80000 10000;
  MoveIBS;
  ExpH 10 15 None (Some 30000) (Some 50000) (Some 60000) (Some 70000);
  ExpH 11 15 None None None (Some 20000) (Some 30000);
  ExpH 12 15 None (Some 20000) (Some 40000) (Some 80000) (Some 90000);
  ExpT 13 15 10000;
  ExpRecH 0%nat 20000;
  ExpRec 4%nat 2 11 15 10000 50000 20000 10000;
  ExpRec 5%nat 0 12 15 20000 50000 20000 10000;
  ExpRecs 6%nat;
  Reset [(13, 15)] [(0, 10, 15); (2, 10, 15); (0, 11, 15); (2, 11, 15); (0, 12, 15); (2, 12, 15)] [(0, 10, 15); (2, 10, 15); (2, 11, 15); (0, 12, 15); (2, 12, 15)]].

Definition IC_MIBS_104 : list cmd := [
  Seed seed1234;
  SetH 10 15 None (Some 0) (Some 30000) (Some 30000) (Some 80000) (Some 50000) (Some 60000) (Some 60000) (Some 70000);
  SetH 11 15 None (Some 30000) (Some 70000) None None (Some 0) (Some 20000) None None;
  SetH 12 15 None (Some 0) (Some 20000) (Some 20000) (Some 30000) (Some 30000) (Some 80000) (Some 80000) (Some 90000);
  Push 0 10 15 0 50000 30000 50000;
  Push 2 10 15 0 50000 60000 10000;
  Push 0 12 15 20000 50000 20000 10000;
  Push 2 12 15 20000 50000 80000 10000;
  MoveIBS;
  ExpH 10 15 None (Some 30000) (Some 50000) (Some 60000) (Some 70000);
  ExpH 11 15 None None None (Some 20000) (Some 30000);
  ExpT 13 15 20000;
  ExpRecH 0%nat 20000;
  ExpRec 4%nat 2 11 15 10000 50000 20000 10000;
  ExpRecs 5%nat;
  Reset [(13, 15)] [(0, 10, 15); (2, 10, 15); (0, 11, 15); (2, 11, 15); (0, 12, 15); (2, 12, 15)] [(0, 10, 15); (2, 10, 15); (2, 11, 15); (0, 12, 15); (2, 12, 15)]].

Definition IC_MIBS_105 : list cmd := [
  Seed seed1234;
  SetH 10 15 None (Some 0) (Some 30000) (Some 30000) (Some 80000) (Some 50000) (Some 60000) (Some 60000) (Some 70000);
  SetH 11 15 None (Some 30000) (Some 70000) None None (Some 0) (Some 20000) None None;
  SetH 12 15 None (Some 70000) (Some 80000) None None (Some 0) (Some 20000) None None;
  Push 0 10 15 0 50000 30000 50000;
  Push 2 10 15 0 50000 60000 10000;
  MoveIBS;
  ExpH 10 15 None (Some 30000) (Some 50000) (Some 60000) (Some 70000);
  ExpH 11 15 None None None (Some 20000) (Some 30000);
  ExpH 12 15 None None None (Some 20000) (Some 40000);
  ExpRecH 0%nat 20000;
  ExpRec 2%nat 2 11 15 10000 50000 20000 10000;
  ExpRec 3%nat 2 12 15 20000 50000 20000 20000;
  ExpRecs 4%nat;
  Reset [] [(0, 10, 15); (2, 10, 15); (0, 11, 15); (2, 11, 15); (0, 12, 15); (2, 12, 15)] [(0, 10, 15); (2, 10, 15); (2, 11, 15); (2, 12, 15)]].

Definition IC_MIBS_106 : list cmd := [
  Seed seed1234;
  SetH 10 15 None (Some 0) (Some 30000) (Some 30000) (Some 80000) (Some 50000) (Some 60000) (Some 60000) (Some 70000);
  SetH 11 15 None (Some 30000) (Some 70000) None None (Some 0) (Some 20000) None None;
  SetH 12 15 None (Some 30000) (Some 80000) None None (Some 0) (Some 20000) None None;
  Push 0 10 15 0 50000 30000 50000;
  Push 2 10 15 0 50000 60000 10000;
  MoveIBS;
  ExpH 10 15 None (Some 30000) (Some 50000) (Some 60000) (Some 70000);
  ExpH 11 15 None None None (Some 20000) (Some 30000);
  ExpH 12 15 None None None (Some 20000) (Some 30000);
  ExpT 13 15 10000;
  ExpRecH 0%nat 20000;
  ExpRec 2%nat 2 11 15 10000 50000 20000 10000;
  ExpRec 3%nat 2 12 15 20000 50000 20000 10000;
  ExpRecs 4%nat;
  Reset [(13, 15)] [(0, 10, 15); (2, 10, 15); (0, 11, 15); (2, 11, 15); (0, 12, 15); (2, 12, 15)] [(0, 10, 15); (2, 10, 15); (2, 11, 15); (2, 12, 15)]].

Definition IC_MIBS_107 : list cmd := [
  Seed seed1234;
  SetH 10 15 None (Some 0) (Some 30000) (Some 30000) (Some 80000) (Some 50000) (Some 60000) (Some 60000) (Some 70000);
  SetH 11 15 None (Some 30000) (Some 70000) None None (Some 0) (Some 20000) None None;
  SetH 12 15 None (Some 70000) (Some 80000) (Some 80000) (Some 90000) (Some 0) (Some 20000) (Some 20000) (Some 30000);
  Push 0 10 15 0 50000 30000 50000;
  Push 2 10 15 0 50000 60000 10000;
  Push 0 12 15 20000 50000 80000 10000;
  Push 2 12 15 20000 50000 20000 10000;
  MoveIBS;
  ExpH 10 15 None (Some 30000) (Some 50000) (Some 60000) (Some 70000);
  ExpH 11 15 None None None (Some 20000) (Some 30000);
  ExpH 12 15 None (Some 80000) (Some 90000) (Some 20000) (Some 50000);
  ExpRecH 0%nat 20000;
  ExpRec 4%nat 2 11 15 10000 50000 20000 10000;
  ExpRec 5%nat 2 12 15 20000 50000 20000 20000;
  ExpRecs 6%nat;
  Reset [] [(0, 10, 15); (2, 10, 15); (0, 11, 15); (2, 11, 15); (0, 12, 15); (2, 12, 15)] [(0, 10, 15); (2, 10, 15); (2, 11, 15); (0, 12, 15); (2, 12, 15)]].

Definition IC_MIBS_108 : list cmd := [
  Seed seed1234;
  SetH 10 15 None (Some 0) (Some 30000) (Some 30000) (Some 80000) (Some 50000) (Some 60000) (Some 60000) (Some 70000);
  SetH 11 15 None (Some 30000) (Some 70000) None None (Some 0) (Some 20000) None None;
  SetH 12 15 None (Some 40000) (Some 80000) (Some 80000) (Some 90000) (Some 0) (Some 20000) (Some 20000) (Some 30000);
  Push 0 10 15 0 50000 30000 50000;
  Push 2 10 15 0 50000 60000 10000;
  Push 0 12 15 20000 50000 80000 10000;
  Push 2 12 15 20000 50000 20000 10000;
  MoveIBS;
  ExpH 10 15 None (Some 30000) (Some 50000) (Some 60000) (Some 70000);
  ExpH 11 15 None None None (Some 20000) (Some 30000);
  ExpH 12 15 None (Some 80000) (Some 90000) (Some 20000) (Some 40000);
  ExpT 13 15 10000;
  ExpRecH 0%nat 20000;
  ExpRec 4%nat 2 11 15 10000 50000 20000 10000;
  ExpRec 5%nat 2 12 15 20000 50000 20000 10000;
  ExpRecs 6%nat;
  Reset [(13, 15)] [(0, 10, 15); (2, 10, 15); (0, 11, 15); (2, 11, 15); (0, 12, 15); (2, 12, 15)] [(0, 10, 15); (2, 10, 15); (2, 11, 15); (0, 12, 15); (2, 12, 15)]].

Definition IC_MIBS_109 : list cmd := [
  Seed seed1234;
  SetH 10 15 None (Some 0) (Some 30000) (Some 30000) (Some 80000) (Some 50000) (Some 60000) (Some 60000) (Some 70000);
  SetH 11 15 None (Some 30000) (Some 70000) None None (Some 0) (Some 20000) None None;
  SetH 12 15 None (Some 30000) (Some 80000) (Some 80000) (Some 90000) (Some 0) (Some 20000) (Some 20000) (Some 30000);
  Push 0 10 15 0 50000 30000 50000;
  Push 2 10 15 0 50000 60000 10000;
  Push 0 12 15 20000 50000 80000 10000;
  Push 2 12 15 20000 50000 20000 10000;
  MoveIBS;
  ExpH 10 15 None (Some 30000) (Some 50000) (Some 60000) (Some 70000);
  ExpH 11 15 None None None (Some 20000) (Some 30000);
  ExpT 13 15 20000;
  ExpRecH 0%nat 20000;
  ExpRec 4%nat 2 11 15 10000 50000 20000 10000;
  ExpRecs 5%nat;
  Reset [(13, 15)] [(0, 10, 15); (2, 10, 15); (0, 11, 15); (2, 11, 15); (0, 12, 15); (2, 12, 15)] [(0, 10, 15); (2, 10, 15); (2, 11, 15); (0, 12, 15); (2, 12, 15)]].

Definition IC_MIBS_110 : list cmd := [
  Seed seed1234;
  SetH 10 15 None (Some 0) (Some 30000) (Some 30000) (Some 80000) (Some 50000) (Some 60000) (Some 60000) (Some 70000);
  SetH 11 15 None (Some 50000) (Some 70000) (Some 70000) (Some 90000) (Some 0) (Some 10000) (Some 10000) (Some 20000);
  Push 0 10 15 0 50000 30000 50000;
  Push 2 10 15 0 50000 60000 10000;
  Push 0 11 15 10000 50000 70000 20000;
  Push 2 11 15 10000 50000 10000 10000;
  MoveIBS;
  ExpH 10 15 None (Some 30000) (Some 50000) (Some 60000) (Some 70000);
  ExpH 11 15 None (Some 70000) (Some 90000) (Some 10000) (Some 50000);
  ExpRecH 0%nat 20000;
  ExpRec 4%nat 2 11 15 10000 50000 10000 30000;
  ExpRecs 5%nat;
  Reset [] [(0, 10, 15); (2, 10, 15); (0, 11, 15); (2, 11, 15)] [(0, 10, 15); (2, 10, 15); (0, 11, 15); (2, 11, 15)]].

Definition IC_MIBS_111 : list cmd := [
  Seed seed1234;
  SetH 10 15 None (Some 0) (Some 30000) (Some 30000) (Some 80000) (Some 50000) (Some 60000) (Some 60000) (Some 70000);
  SetH 11 15 None (Some 40000) (Some 70000) (Some 70000) (Some 90000) (Some 0) (Some 10000) (Some 10000) (Some 20000);
  Push 0 10 15 0 50000 30000 50000;
  Push 2 10 15 0 50000 60000 10000;
  Push 0 11 15 10000 50000 70000 20000;
  Push 2 11 15 10000 50000 10000 10000;
  MoveIBS;
  ExpH 10 15 None (Some 30000) (Some 50000) (Some 60000) (Some 70000);
  ExpH 11 15 None (Some 70000) (Some 90000) (Some 10000) (Some 40000);
  ExpT 12 15 10000;
  ExpRecH 0%nat 20000;
  ExpRec 4%nat 2 11 15 10000 50000 10000 20000;
  ExpRecs 5%nat;
  Reset [(12, 15)] [(0, 10, 15); (2, 10, 15); (0, 11, 15); (2, 11, 15)] [(0, 10, 15); (2, 10, 15); (0, 11, 15); (2, 11, 15)]].

Definition IC_MIBS_112 : list cmd := [
  Seed seed1234;
  SetH 10 15 None (Some 0) (Some 30000) (Some 30000) (Some 80000) (Some 50000) (Some 60000) (Some 60000) (Some 70000);
  SetH 11 15 None (Some 70000) (Some 80000) (Some 80000) (Some 90000) (Some 0) (Some 10000) (Some 10000) (Some 60000);
  SetH 12 15 (Some 10000) (Some 20000) (Some 40000) None None None None None None;
  Push 0 10 15 0 50000 30000 50000;
  Push 2 10 15 0 50000 60000 10000;
  Push 0 11 15 10000 50000 80000 10000;
  Push 2 11 15 10000 50000 10000 50000;
  MoveIBS;
  ExpH 10 15 None (Some 30000) (Some 50000) (Some 60000) (Some 70000);
  ExpH 11 15 None (Some 80000) (Some 90000) (Some 10000) (Some 70000);
  ExpT 12 15 30000;
  ExpRecH 0%nat 20000;
  ExpRec 4%nat 2 11 15 10000 50000 10000 10000;
  ExpRecs 5%nat;
  Reset [(12, 15)] [(0, 10, 15); (2, 10, 15); (0, 11, 15); (2, 11, 15); (0, 12, 15)] [(0, 10, 15); (2, 10, 15); (0, 11, 15); (2, 11, 15)]].

Definition IC_MIBS_113 : list cmd := [
  Seed seed1234;
  SetH 10 15 None (Some 0) (Some 30000) (Some 30000) (Some 80000) (Some 50000) (Some 60000) (Some 60000) (Some 70000);
  SetH 11 15 None (Some 50000) (Some 80000) (Some 80000) (Some 90000) (Some 0) (Some 30000) (Some 30000) (Some 40000);
  SetH 12 15 None (Some 0) (Some 30000) None None None None None None;
  Push 0 10 15 0 50000 30000 50000;
  Push 2 10 15 0 50000 60000 10000;
  Push 0 11 15 10000 50000 80000 10000;
  Push 2 11 15 10000 50000 30000 10000;
  MoveIBS;
  ExpH 10 15 None (Some 30000) (Some 50000) (Some 60000) (Some 70000);
  ExpH 11 15 None (Some 80000) (Some 90000) (Some 30000) (Some 50000);
  ExpH 12 15 None (Some 30000) (Some 50000) None None;
  ExpRecH 0%nat 20000;
  ExpRec 4%nat 2 11 15 10000 50000 30000 10000;
  ExpRec 5%nat 0 12 15 20000 50000 30000 20000;
  ExpRecs 6%nat;
  Reset [] [(0, 10, 15); (2, 10, 15); (0, 11, 15); (2, 11, 15); (0, 12, 15)] [(0, 10, 15); (2, 10, 15); (0, 11, 15); (2, 11, 15); (0, 12, 15)]].

Definition IC_MIBS_114 : list cmd := [
  Seed seed1234;
  SetH 10 15 None (Some 0) (Some 30000) (Some 30000) (Some 80000) (Some 50000) (Some 60000) (Some 60000) (Some 70000);
  SetH 11 15 None (Some 50000) (Some 80000) (Some 80000) (Some 90000) (Some 0) (Some 30000) (Some 30000) (Some 40000);
  SetH 12 15 None (Some 0) (Some 30000) (Some 30000) (Some 40000) None None None None;
  Push 0 10 15 0 50000 30000 50000;
  Push 2 10 15 0 50000 60000 10000;
  Push 0 11 15 10000 50000 80000 10000;
  Push 2 11 15 10000 50000 30000 10000;
  Push 0 12 15 20000 50000 30000 10000;
  MoveIBS;
  ExpH 10 15 None (Some 30000) (Some 50000) (Some 60000) (Some 70000);
  ExpH 11 15 None (Some 80000) (Some 90000) (Some 30000) (Some 50000);
  ExpH 12 15 None (Some 30000) (Some 60000) None None;
  ExpRecH 0%nat 20000;
  ExpRec 5%nat 2 11 15 10000 50000 30000 10000;
  ExpRec 6%nat 0 12 15 20000 50000 30000 20000;
  ExpRecs 7%nat;
  Reset [] [(0, 10, 15); (2, 10, 15); (0, 11, 15); (2, 11, 15); (0, 12, 15)] [(0, 10, 15); (2, 10, 15); (0, 11, 15); (2, 11, 15); (0, 12, 15)]].

Definition IC_MIBS_115 : list cmd := [
  Seed seed1234;
  SetH 10 15 None (Some 0) (Some 30000) (Some 30000) (Some 80000) (Some 50000) (Some 60000) (Some 60000) (Some 70000);
  SetH 11 15 None (Some 50000) (Some 80000) (Some 80000) (Some 90000) (Some 0) (Some 30000) (Some 30000) (Some 40000);
  SetH 12 15 None (Some 30000) (Some 50000) None None None None None None;
  Push 0 10 15 0 50000 30000 50000;
  Push 2 10 15 0 50000 60000 10000;
  Push 0 11 15 10000 50000 80000 10000;
  Push 2 11 15 10000 50000 30000 10000;
  MoveIBS;
  ExpH 10 15 None (Some 30000) (Some 50000) (Some 60000) (Some 70000);
  ExpH 11 15 None (Some 80000) (Some 90000) (Some 30000) (Some 50000);
  ExpT 10 16 20000;
  ExpRecH 0%nat 20000;
  ExpRec 4%nat 2 11 15 10000 50000 30000 10000;
  ExpRecs 5%nat;
  Reset [(10, 16)] [(0, 10, 15); (2, 10, 15); (0, 11, 15); (2, 11, 15); (0, 12, 15)] [(0, 10, 15); (2, 10, 15); (0, 11, 15); (2, 11, 15)]].

Definition IC_MIBS_116 : list cmd := [
  Seed seed1234;
  SetH 10 15 None (Some 0) (Some 30000) (Some 30000) (Some 80000) (Some 50000) (Some 60000) (Some 60000) (Some 70000);
  SetH 11 15 None (Some 70000) (Some 80000) (Some 80000) (Some 90000) (Some 0) (Some 10000) (Some 10000) (Some 60000);
  SetH 12 15 (Some 10000) None None None None (Some 20000) (Some 40000) None None;
  Push 0 10 15 0 50000 30000 50000;
  Push 2 10 15 0 50000 60000 10000;
  Push 0 11 15 10000 50000 80000 10000;
  Push 2 11 15 10000 50000 10000 50000;
  MoveIBS;
  ExpH 10 15 None (Some 30000) (Some 50000) (Some 60000) (Some 70000);
  ExpH 11 15 None (Some 80000) (Some 90000) (Some 10000) (Some 70000);
  ExpT 12 15 30000;
  ExpRecH 0%nat 20000;
  ExpRec 4%nat 2 11 15 10000 50000 10000 10000;
  ExpRecs 5%nat;
  Reset [(12, 15)] [(0, 10, 15); (2, 10, 15); (0, 11, 15); (2, 11, 15); (2, 12, 15)] [(0, 10, 15); (2, 10, 15); (0, 11, 15); (2, 11, 15)]].

Definition IC_MIBS_117 : list cmd := [
  Seed seed1234;
  SetH 10 15 None (Some 0) (Some 30000) (Some 30000) (Some 80000) (Some 50000) (Some 60000) (Some 60000) (Some 70000);
  SetH 11 15 None (Some 50000) (Some 80000) (Some 80000) (Some 90000) (Some 0) (Some 30000) (Some 30000) (Some 40000);
  SetH 12 15 None None None None None (Some 0) (Some 30000) None None;
  Push 0 10 15 0 50000 30000 50000;
  Push 2 10 15 0 50000 60000 10000;
  Push 0 11 15 10000 50000 80000 10000;
  Push 2 11 15 10000 50000 30000 10000;
  MoveIBS;
  ExpH 10 15 None (Some 30000) (Some 50000) (Some 60000) (Some 70000);
  ExpH 11 15 None (Some 80000) (Some 90000) (Some 30000) (Some 50000);
  ExpH 12 15 None None None (Some 30000) (Some 50000);
  ExpRecH 0%nat 20000;
  ExpRec 4%nat 2 11 15 10000 50000 30000 10000;
  ExpRec 5%nat 2 12 15 20000 50000 30000 20000;
  ExpRecs 6%nat;
  Reset [] [(0, 10, 15); (2, 10, 15); (0, 11, 15); (2, 11, 15); (2, 12, 15)] [(0, 10, 15); (2, 10, 15); (0, 11, 15); (2, 11, 15); (2, 12, 15)]].

Definition IC_MIBS_118 : list cmd := [
  Seed seed1234;
  SetH 10 15 None (Some 0) (Some 30000) (Some 30000) (Some 80000) (Some 50000) (Some 60000) (Some 60000) (Some 70000);
  SetH 11 15 None (Some 50000) (Some 80000) (Some 80000) (Some 90000) (Some 0) (Some 30000) (Some 30000) (Some 40000);
  SetH 12 15 None None None None None (Some 0) (Some 30000) (Some 30000) (Some 40000);
  Push 0 10 15 0 50000 30000 50000;
  Push 2 10 15 0 50000 60000 10000;
  Push 0 11 15 10000 50000 80000 10000;
  Push 2 11 15 10000 50000 30000 10000;
  Push 2 12 15 20000 50000 30000 10000;
  MoveIBS;
  ExpH 10 15 None (Some 30000) (Some 50000) (Some 60000) (Some 70000);
  ExpH 11 15 None (Some 80000) (Some 90000) (Some 30000) (Some 50000);
  ExpH 12 15 None None None (Some 30000) (Some 60000);
  ExpRecH 0%nat 20000;
  ExpRec 5%nat 2 11 15 10000 50000 30000 10000;
  ExpRec 6%nat 2 12 15 20000 50000 30000 20000;
  ExpRecs 7%nat;
  Reset [] [(0, 10, 15); (2, 10, 15); (0, 11, 15); (2, 11, 15); (2, 12, 15)] [(0, 10, 15); (2, 10, 15); (0, 11, 15); (2, 11, 15); (2, 12, 15)]].

Definition IC_MIBS_119 : list cmd := [
  Seed seed1234;
  SetH 10 15 None (Some 0) (Some 30000) (Some 30000) (Some 80000) (Some 50000) (Some 60000) (Some 60000) (Some 70000);
  SetH 11 15 None (Some 50000) (Some 80000) (Some 80000) (Some 90000) (Some 0) (Some 30000) (Some 30000) (Some 40000);
  SetH 12 15 None None None None None (Some 30000) (Some 50000) None None;
  Push 0 10 15 0 50000 30000 50000;
  Push 2 10 15 0 50000 60000 10000;
  Push 0 11 15 10000 50000 80000 10000;
  Push 2 11 15 10000 50000 30000 10000;
  MoveIBS;
  ExpH 10 15 None (Some 30000) (Some 50000) (Some 60000) (Some 70000);
  ExpH 11 15 None (Some 80000) (Some 90000) (Some 30000) (Some 50000);
  ExpT 10 16 20000;
  ExpRecH 0%nat 20000;
  ExpRec 4%nat 2 11 15 10000 50000 30000 10000;
  ExpRecs 5%nat;
  Reset [(10, 16)] [(0, 10, 15); (2, 10, 15); (0, 11, 15); (2, 11, 15); (2, 12, 15)] [(0, 10, 15); (2, 10, 15); (0, 11, 15); (2, 11, 15)]].

Definition IC_MIBS_120 : list cmd := [
  Seed seed1234;
  SetH 10 15 None (Some 0) (Some 30000) (Some 30000) (Some 80000) (Some 50000) (Some 60000) (Some 60000) (Some 70000);
  SetH 11 15 None (Some 70000) (Some 80000) (Some 80000) (Some 90000) (Some 0) (Some 10000) (Some 10000) (Some 60000);
  SetH 12 15 None (Some 10000) (Some 40000) None None (Some 70000) (Some 90000) None None;
  Push 0 10 15 0 50000 30000 50000;
  Push 2 10 15 0 50000 60000 10000;
  Push 0 11 15 10000 50000 80000 10000;
  Push 2 11 15 10000 50000 10000 50000;
  MoveIBS;
  ExpH 10 15 None (Some 30000) (Some 50000) (Some 60000) (Some 70000);
  ExpH 11 15 None (Some 80000) (Some 90000) (Some 10000) (Some 70000);
  ExpH 12 15 None (Some 40000) (Some 60000) None None;
  ExpRecH 0%nat 20000;
  ExpRec 4%nat 2 11 15 10000 50000 10000 10000;
  ExpRec 5%nat 0 12 15 20000 50000 40000 20000;
  ExpRecs 6%nat;
  Reset [] [(0, 10, 15); (2, 10, 15); (0, 11, 15); (2, 11, 15); (0, 12, 15); (2, 12, 15)] [(0, 10, 15); (2, 10, 15); (0, 11, 15); (2, 11, 15); (0, 12, 15)]].

Definition IC_MIBS_121 : list cmd := [
  Seed seed1234;
  SetH 10 15 None (Some 0) (Some 30000) (Some 30000) (Some 80000) (Some 50000) (Some 60000) (Some 60000) (Some 70000);
  SetH 11 15 None (Some 70000) (Some 80000) (Some 80000) (Some 90000) (Some 0) (Some 10000) (Some 10000) (Some 60000);
  SetH 12 15 None (Some 10000) (Some 40000) None None (Some 50000) (Some 90000) None None;
  Push 0 10 15 0 50000 30000 50000;
  Push 2 10 15 0 50000 60000 10000;
  Push 0 11 15 10000 50000 80000 10000;
  Push 2 11 15 10000 50000 10000 50000;
  MoveIBS;
  ExpH 10 15 None (Some 30000) (Some 50000) (Some 60000) (Some 70000);
  ExpH 11 15 None (Some 80000) (Some 90000) (Some 10000) (Some 70000);
  ExpH 12 15 None (Some 40000) (Some 50000) None None;
  ExpT 13 15 10000;
  ExpRecH 0%nat 20000;
  ExpRec 4%nat 2 11 15 10000 50000 10000 10000;
  ExpRec 5%nat 0 12 15 20000 50000 40000 10000;
  ExpRecs 6%nat;
  Reset [(13, 15)] [(0, 10, 15); (2, 10, 15); (0, 11, 15); (2, 11, 15); (0, 12, 15); (2, 12, 15)] [(0, 10, 15); (2, 10, 15); (0, 11, 15); (2, 11, 15); (0, 12, 15)]].

Definition IC_MIBS_122 : list cmd := [
  Seed seed1234;
  SetH 10 15 None (Some 0) (Some 30000) (Some 30000) (Some 80000) (Some 50000) (Some 60000) (Some 60000) (Some 70000);
  SetH 11 15 None (Some 70000) (Some 80000) (Some 80000) (Some 90000) (Some 0) (Some 10000) (Some 10000) (Some 60000);
  SetH 12 15 None (Some 10000) (Some 20000) (Some 20000) (Some 30000) (Some 70000) (Some 90000) (Some 90000) (Some 130000);
  Push 0 10 15 0 50000 30000 50000;
  Push 2 10 15 0 50000 60000 10000;
  Push 0 11 15 10000 50000 80000 10000;
  Push 2 11 15 10000 50000 10000 50000;
  Push 0 12 15 20000 50000 20000 10000;
  Push 2 12 15 20000 50000 90000 40000;
  MoveIBS;
  ExpH 10 15 None (Some 30000) (Some 50000) (Some 60000) (Some 70000);
  ExpH 11 15 None (Some 80000) (Some 90000) (Some 10000) (Some 70000);
  ExpH 12 15 None (Some 20000) (Some 50000) (Some 90000) (Some 130000);
  ExpRecH 0%nat 20000;
  ExpRec 6%nat 2 11 15 10000 50000 10000 10000;
  ExpRec 7%nat 0 12 15 20000 50000 20000 20000;
  ExpRecs 8%nat;
  Reset [] [(0, 10, 15); (2, 10, 15); (0, 11, 15); (2, 11, 15); (0, 12, 15); (2, 12, 15)] [(0, 10, 15); (2, 10, 15); (0, 11, 15); (2, 11, 15); (0, 12, 15); (2, 12, 15)]].

Definition IC_MIBS_123 : list cmd := [
  Seed seed1234;
  SetH 10 15 None (Some 0) (Some 30000) (Some 30000) (Some 80000) (Some 50000) (Some 60000) (Some 60000) (Some 70000);
  SetH 11 15 None (Some 70000) (Some 80000) (Some 80000) (Some 90000) (Some 0) (Some 10000) (Some 10000) (Some 60000);
  SetH 12 15 None (Some 10000) (Some 20000) (Some 20000) (Some 30000) (Some 40000) (Some 90000) (Some 90000) (Some 130000);
  Push 0 10 15 0 50000 30000 50000;
  Push 2 10 15 0 50000 60000 10000;
  Push 0 11 15 10000 50000 80000 10000;
  Push 2 11 15 10000 50000 10000 50000;
  Push 0 12 15 20000 50000 20000 10000;
  Push 2 12 15 20000 50000 90000 40000;
  MoveIBS;
  ExpH 10 15 None (Some 30000) (Some 50000) (Some 60000) (Some 70000);
  ExpH 11 15 None (Some 80000) (Some 90000) (Some 10000) (Some 70000);
  ExpH 12 15 None (Some 20000) (Some 40000) (Some 90000) (Some 130000);
  ExpT 13 15 10000;
  ExpRecH 0%nat 20000;
  ExpRec 6%nat 2 11 15 10000 50000 10000 10000;
  ExpRec 7%nat 0 12 15 20000 50000 20000 10000;
  ExpRecs 8%nat;
  Reset [(13, 15)] [(0, 10, 15); (2, 10, 15); (0, 11, 15); (2, 11, 15); (0, 12, 15); (2, 12, 15)] [(0, 10, 15); (2, 10, 15); (0, 11, 15); (2, 11, 15); (0, 12, 15); (2, 12, 15)]].

Definition IC_MIBS_124 : list cmd := [
  Seed seed1234;
  SetH 10 15 None (Some 0) (Some 30000) (Some 30000) (Some 80000) (Some 50000) (Some 60000) (Some 60000) (Some 70000);
  SetH 11 15 None (Some 70000) (Some 80000) (Some 80000) (Some 90000) (Some 0) (Some 10000) (Some 10000) (Some 60000);
  SetH 12 15 None (Some 10000) (Some 20000) (Some 20000) (Some 40000) (Some 40000) (Some 90000) (Some 90000) (Some 130000);
  Push 0 10 15 0 50000 30000 50000;
  Push 2 10 15 0 50000 60000 10000;
  Push 0 11 15 10000 50000 80000 10000;
  Push 2 11 15 10000 50000 10000 50000;
  Push 0 12 15 20000 50000 20000 20000;
  Push 2 12 15 20000 50000 90000 40000;
  MoveIBS;
  ExpH 10 15 None (Some 30000) (Some 50000) (Some 60000) (Some 70000);
  ExpH 11 15 None (Some 80000) (Some 90000) (Some 10000) (Some 70000);
  ExpT 13 15 20000;
  ExpRecH 0%nat 20000;
  ExpRec 6%nat 2 11 15 10000 50000 10000 10000;
  ExpRecs 7%nat;
  Reset [(13, 15)] [(0, 10, 15); (2, 10, 15); (0, 11, 15); (2, 11, 15); (0, 12, 15); (2, 12, 15)] [(0, 10, 15); (2, 10, 15); (0, 11, 15); (2, 11, 15); (0, 12, 15); (2, 12, 15)]].

Definition IC_MIBS_125 : list cmd := [
  Seed seed1234;
  SetH 10 15 None (Some 0) (Some 30000) (Some 30000) (Some 80000) (Some 50000) (Some 60000) (Some 60000) (Some 70000);
  SetH 11 15 None (Some 70000) (Some 80000) (Some 80000) (Some 90000) (Some 0) (Some 10000) (Some 10000) (Some 60000);
  SetH 12 15 None (Some 70000) (Some 90000) None None (Some 10000) (Some 40000) None None;
  Push 0 10 15 0 50000 30000 50000;
  Push 2 10 15 0 50000 60000 10000;
  Push 0 11 15 10000 50000 80000 10000;
  Push 2 11 15 10000 50000 10000 50000;
  MoveIBS;
  ExpH 10 15 None (Some 30000) (Some 50000) (Some 60000) (Some 70000);
  ExpH 11 15 None (Some 80000) (Some 90000) (Some 10000) (Some 70000);
  ExpH 12 15 None None None (Some 40000) (Some 60000);
  ExpRecH 0%nat 20000;
  ExpRec 4%nat 2 11 15 10000 50000 10000 10000;
  ExpRec 5%nat 2 12 15 20000 50000 40000 20000;
  ExpRecs 6%nat;
  Reset [] [(0, 10, 15); (2, 10, 15); (0, 11, 15); (2, 11, 15); (0, 12, 15); (2, 12, 15)] [(0, 10, 15); (2, 10, 15); (0, 11, 15); (2, 11, 15); (2, 12, 15)]].

Definition IC_MIBS_126 : list cmd := [
  Seed seed1234;
  SetH 10 15 None (Some 0) (Some 30000) (Some 30000) (Some 80000) (Some 50000) (Some 60000) (Some 60000) (Some 70000);
  SetH 11 15 None (Some 70000) (Some 80000) (Some 80000) (Some 90000) (Some 0) (Some 10000) (Some 10000) (Some 60000);
  SetH 12 15 None (Some 50000) (Some 90000) None None (Some 10000) (Some 40000) None None;
  Push 0 10 15 0 50000 30000 50000;
  Push 2 10 15 0 50000 60000 10000;
  Push 0 11 15 10000 50000 80000 10000;
  Push 2 11 15 10000 50000 10000 50000;
  MoveIBS;
  ExpH 10 15 None (Some 30000) (Some 50000) (Some 60000) (Some 70000);
  ExpH 11 15 None (Some 80000) (Some 90000) (Some 10000) (Some 70000);
  ExpH 12 15 None None None (Some 40000) (Some 50000);
  ExpT 13 15 10000;
  ExpRecH 0%nat 20000;
  ExpRec 4%nat 2 11 15 10000 50000 10000 10000;
  ExpRec 5%nat 2 12 15 20000 50000 40000 10000;
  ExpRecs 6%nat;
  Reset [(13, 15)] [(0, 10, 15); (2, 10, 15); (0, 11, 15); (2, 11, 15); (0, 12, 15); (2, 12, 15)] [(0, 10, 15); (2, 10, 15); (0, 11, 15); (2, 11, 15); (2, 12, 15)]].

Definition IC_MIBS_127 : list cmd := [
  Seed seed1234;
  SetH 10 15 None (Some 0) (Some 30000) (Some 30000) (Some 80000) (Some 50000) (Some 60000) (Some 60000) (Some 70000);
  SetH 11 15 None (Some 70000) (Some 80000) (Some 80000) (Some 90000) (Some 0) (Some 10000) (Some 10000) (Some 60000);
  SetH 12 15 None (Some 70000) (Some 90000) (Some 90000) (Some 130000) (Some 10000) (Some 20000) (Some 20000) (Some 30000);
  Push 0 10 15 0 50000 30000 50000;
  Push 2 10 15 0 50000 60000 10000;
  Push 0 11 15 10000 50000 80000 10000;
  Push 2 11 15 10000 50000 10000 50000;
  Push 0 12 15 20000 50000 90000 40000;
  Push 2 12 15 20000 50000 20000 10000;
  MoveIBS;
  ExpH 10 15 None (Some 30000) (Some 50000) (Some 60000) (Some 70000);
  ExpH 11 15 None (Some 80000) (Some 90000) (Some 10000) (Some 70000);
  ExpH 12 15 None (Some 90000) (Some 130000) (Some 20000) (Some 50000);
  ExpRecH 0%nat 20000;
  ExpRec 6%nat 2 11 15 10000 50000 10000 10000;
  ExpRec 7%nat 2 12 15 20000 50000 20000 20000;
  ExpRecs 8%nat;
  Reset [] [(0, 10, 15); (2, 10, 15); (0, 11, 15); (2, 11, 15); (0, 12, 15); (2, 12, 15)] [(0, 10, 15); (2, 10, 15); (0, 11, 15); (2, 11, 15); (0, 12, 15); (2, 12, 15)]].

Definition IC_MIBS_128 : list cmd := [
  Seed seed1234;
  SetH 10 15 None (Some 0) (Some 30000) (Some 30000) (Some 80000) (Some 50000) (Some 60000) (Some 60000) (Some 70000);
  SetH 11 15 None (Some 70000) (Some 80000) (Some 80000) (Some 90000) (Some 0) (Some 10000) (Some 10000) (Some 60000);
  SetH 12 15 None (Some 40000) (Some 90000) (Some 90000) (Some 130000) (Some 10000) (Some 20000) (Some 20000) (Some 30000);
  Push 0 10 15 0 50000 30000 50000;
  Push 2 10 15 0 50000 60000 10000;
  Push 0 11 15 10000 50000 80000 10000;
  Push 2 11 15 10000 50000 10000 50000;
  Push 0 12 15 20000 50000 90000 40000;
  Push 2 12 15 20000 50000 20000 10000;
  MoveIBS;
  ExpH 10 15 None (Some 30000) (Some 50000) (Some 60000) (Some 70000);
  ExpH 11 15 None (Some 80000) (Some 90000) (Some 10000) (Some 70000);
  ExpH 12 15 None (Some 90000) (Some 130000) (Some 20000) (Some 40000);
  ExpT 13 15 10000;
  ExpRecH 0%nat 20000;
  ExpRec 6%nat 2 11 15 10000 50000 10000 10000;
  ExpRec 7%nat 2 12 15 20000 50000 20000 10000;
  ExpRecs 8%nat;
  Reset [(13, 15)] [(0, 10, 15); (2, 10, 15); (0, 11, 15); (2, 11, 15); (0, 12, 15); (2, 12, 15)] [(0, 10, 15); (2, 10, 15); (0, 11, 15); (2, 11, 15); (0, 12, 15); (2, 12, 15)]].

Definition IC_MIBS_129 : list cmd := [
  Seed seed1234;
  SetH 10 15 None (Some 0) (Some 30000) (Some 30000) (Some 80000) (Some 50000) (Some 60000) (Some 60000) (Some 70000);
  SetH 11 15 None (Some 70000) (Some 80000) (Some 80000) (Some 90000) (Some 0) (Some 10000) (Some 10000) (Some 60000);
  SetH 12 15 None (Some 40000) (Some 90000) (Some 90000) (Some 130000) (Some 10000) (Some 20000) (Some 20000) (Some 40000);
  Push 0 10 15 0 50000 30000 50000;
  Push 2 10 15 0 50000 60000 10000;
  Push 0 11 15 10000 50000 80000 10000;
  Push 2 11 15 10000 50000 10000 50000;
  Push 0 12 15 20000 50000 90000 40000;
  Push 2 12 15 20000 50000 20000 20000;
  MoveIBS;
  ExpH 10 15 None (Some 30000) (Some 50000) (Some 60000) (Some 70000);
  ExpH 11 15 None (Some 80000) (Some 90000) (Some 10000) (Some 70000);
  ExpT 13 15 20000;
  ExpRecH 0%nat 20000;
  ExpRec 6%nat 2 11 15 10000 50000 10000 10000;
  ExpRecs 7%nat;
  Reset [(13, 15)] [(0, 10, 15); (2, 10, 15); (0, 11, 15); (2, 11, 15); (0, 12, 15); (2, 12, 15)] [(0, 10, 15); (2, 10, 15); (0, 11, 15); (2, 11, 15); (0, 12, 15); (2, 12, 15)]].

Definition IC_MIBS_130 : list cmd := [
  Seed seed1234;
  SetH 10 15 None (Some 0) (Some 30000) (Some 30000) (Some 80000) (Some 50000) (Some 60000) (Some 60000) (Some 70000);
  SetH 11 15 None (Some 40000) (Some 70000) (Some 70000) (Some 90000) (Some 0) (Some 10000) (Some 10000) (Some 40000);
  Push 0 10 15 0 50000 30000 50000;
  Push 2 10 15 0 50000 60000 10000;
  Push 0 11 15 10000 50000 70000 20000;
  Push 2 11 15 10000 50000 10000 30000;
  MoveIBS;
  ExpH 10 15 None (Some 30000) (Some 50000) (Some 60000) (Some 70000);
  ExpT 12 15 30000;
  ExpRecH 0%nat 20000;
  ExpRecs 4%nat;
  Reset [(12, 15)] [(0, 10, 15); (2, 10, 15); (0, 11, 15); (2, 11, 15)] [(0, 10, 15); (2, 10, 15); (0, 11, 15); (2, 11, 15)]].

Definition IC_MIBS_131 : list cmd := [
  Seed seed1234;
  SetH 10 15 None (Some 0) (Some 30000) (Some 30000) (Some 80000) (Some 50000) (Some 60000) (Some 60000) (Some 70000);
  SetH 11 15 None (Some 70000) (Some 80000) (Some 80000) (Some 90000) (Some 0) (Some 10000) (Some 10000) (Some 70000);
  SetH 12 15 (Some 10000) (Some 20000) (Some 40000) None None None None None None;
  Push 0 10 15 0 50000 30000 50000;
  Push 2 10 15 0 50000 60000 10000;
  Push 0 11 15 10000 50000 80000 10000;
  Push 2 11 15 10000 50000 10000 60000;
  MoveIBS;
  ExpH 10 15 None (Some 30000) (Some 50000) (Some 60000) (Some 70000);
  ExpT 12 15 40000;
  ExpRecH 0%nat 20000;
  ExpRecs 4%nat;
  Reset [(12, 15)] [(0, 10, 15); (2, 10, 15); (0, 11, 15); (2, 11, 15); (0, 12, 15)] [(0, 10, 15); (2, 10, 15); (0, 11, 15); (2, 11, 15)]].

Definition IC_MIBS_132 : list cmd := [
  Seed seed1234;
  SetH 10 15 None (Some 0) (Some 30000) (Some 30000) (Some 80000) (Some 50000) (Some 60000) (Some 60000) (Some 70000);
  SetH 11 15 None (Some 50000) (Some 80000) (Some 80000) (Some 90000) (Some 0) (Some 30000) (Some 30000) (Some 50000);
  SetH 12 15 None (Some 0) (Some 30000) None None None None None None;
  Push 0 10 15 0 50000 30000 50000;
  Push 2 10 15 0 50000 60000 10000;
  Push 0 11 15 10000 50000 80000 10000;
  Push 2 11 15 10000 50000 30000 20000;
  MoveIBS;
  ExpH 10 15 None (Some 30000) (Some 50000) (Some 60000) (Some 70000);
  ExpH 12 15 None (Some 30000) (Some 60000) None None;
  ExpRecH 0%nat 20000;
  ExpRec 4%nat 0 12 15 20000 50000 30000 30000;
  ExpRecs 5%nat;
  Reset [] [(0, 10, 15); (2, 10, 15); (0, 11, 15); (2, 11, 15); (0, 12, 15)] [(0, 10, 15); (2, 10, 15); (0, 11, 15); (2, 11, 15); (0, 12, 15)]].

Definition IC_MIBS_133 : list cmd := [
  Seed seed1234;
  SetH 10 15 None (Some 0) (Some 30000) (Some 30000) (Some 80000) (Some 50000) (Some 60000) (Some 60000) (Some 70000);
  SetH 11 15 None (Some 50000) (Some 80000) (Some 80000) (Some 90000) (Some 0) (Some 30000) (Some 30000) (Some 50000);
  SetH 12 15 None (Some 0) (Some 30000) (Some 30000) (Some 40000) None None None None;
  Push 0 10 15 0 50000 30000 50000;
  Push 2 10 15 0 50000 60000 10000;
  Push 0 11 15 10000 50000 80000 10000;
  Push 2 11 15 10000 50000 30000 20000;
  Push 0 12 15 20000 50000 30000 10000;
  MoveIBS;
  ExpH 10 15 None (Some 30000) (Some 50000) (Some 60000) (Some 70000);
  ExpH 12 15 None (Some 30000) (Some 70000) None None;
  ExpRecH 0%nat 20000;
  ExpRec 5%nat 0 12 15 20000 50000 30000 30000;
  ExpRecs 6%nat;
  Reset [] [(0, 10, 15); (2, 10, 15); (0, 11, 15); (2, 11, 15); (0, 12, 15)] [(0, 10, 15); (2, 10, 15); (0, 11, 15); (2, 11, 15); (0, 12, 15)]].

Definition IC_MIBS_134 : list cmd := [
  Seed seed1234;
  SetH 10 15 None (Some 0) (Some 30000) (Some 30000) (Some 80000) (Some 50000) (Some 60000) (Some 60000) (Some 70000);
  SetH 11 15 None (Some 50000) (Some 80000) (Some 80000) (Some 90000) (Some 0) (Some 30000) (Some 30000) (Some 50000);
  SetH 12 15 None (Some 30000) (Some 50000) None None None None None None;
  Push 0 10 15 0 50000 30000 50000;
  Push 2 10 15 0 50000 60000 10000;
  Push 0 11 15 10000 50000 80000 10000;
  Push 2 11 15 10000 50000 30000 20000;
  MoveIBS;
  ExpH 10 15 None (Some 30000) (Some 50000) (Some 60000) (Some 70000);
  ExpT 10 16 30000;
  ExpRecH 0%nat 20000;
  ExpRecs 4%nat;
  Reset [(10, 16)] [(0, 10, 15); (2, 10, 15); (0, 11, 15); (2, 11, 15); (0, 12, 15)] [(0, 10, 15); (2, 10, 15); (0, 11, 15); (2, 11, 15)]].

Definition IC_MIBS_135 : list cmd := [
  Seed seed1234;
  SetH 10 15 None (Some 0) (Some 30000) (Some 30000) (Some 80000) (Some 50000) (Some 60000) (Some 60000) (Some 70000);
  SetH 11 15 None (Some 70000) (Some 80000) (Some 80000) (Some 90000) (Some 0) (Some 10000) (Some 10000) (Some 70000);
  SetH 12 15 (Some 10000) None None None None (Some 20000) (Some 40000) None None;
  Push 0 10 15 0 50000 30000 50000;
  Push 2 10 15 0 50000 60000 10000;
  Push 0 11 15 10000 50000 80000 10000;
  Push 2 11 15 10000 50000 10000 60000;
  MoveIBS;
  ExpH 10 15 None (Some 30000) (Some 50000) (Some 60000) (Some 70000);
  ExpT 12 15 40000;
  ExpRecH 0%nat 20000;
  ExpRecs 4%nat;
  Reset [(12, 15)] [(0, 10, 15); (2, 10, 15); (0, 11, 15); (2, 11, 15); (2, 12, 15)] [(0, 10, 15); (2, 10, 15); (0, 11, 15); (2, 11, 15)]].

Definition IC_MIBS_136 : list cmd := [
  Seed seed1234;
  SetH 10 15 None (Some 0) (Some 30000) (Some 30000) (Some 80000) (Some 50000) (Some 60000) (Some 60000) (Some 70000);
  SetH 11 15 None (Some 50000) (Some 80000) (Some 80000) (Some 90000) (Some 0) (Some 30000) (Some 30000) (Some 50000);
  SetH 12 15 None None None None None (Some 0) (Some 30000) None None;
  Push 0 10 15 0 50000 30000 50000;
  Push 2 10 15 0 50000 60000 10000;
  Push 0 11 15 10000 50000 80000 10000;
  Push 2 11 15 10000 50000 30000 20000;
  MoveIBS;
  ExpH 10 15 None (Some 30000) (Some 50000) (Some 60000) (Some 70000);
  ExpH 12 15 None None None (Some 30000) (Some 60000);
  ExpRecH 0%nat 20000;
  ExpRec 4%nat 2 12 15 20000 50000 30000 30000;
  ExpRecs 5%nat;
  Reset [] [(0, 10, 15); (2, 10, 15); (0, 11, 15); (2, 11, 15); (2, 12, 15)] [(0, 10, 15); (2, 10, 15); (0, 11, 15); (2, 11, 15); (2, 12, 15)]].

Definition IC_MIBS_137 : list cmd := [
  Seed seed1234;
  SetH 10 15 None (Some 0) (Some 30000) (Some 30000) (Some 80000) (Some 50000) (Some 60000) (Some 60000) (Some 70000);
  SetH 11 15 None (Some 50000) (Some 80000) (Some 80000) (Some 90000) (Some 0) (Some 30000) (Some 30000) (Some 50000);
  SetH 12 15 None None None None None (Some 0) (Some 30000) (Some 30000) (Some 40000);
  Push 0 10 15 0 50000 30000 50000;
  Push 2 10 15 0 50000 60000 10000;
  Push 0 11 15 10000 50000 80000 10000;
  Push 2 11 15 10000 50000 30000 20000;
  Push 2 12 15 20000 50000 30000 10000;
  MoveIBS;
  ExpH 10 15 None (Some 30000) (Some 50000) (Some 60000) (Some 70000);
  ExpH 12 15 None None None (Some 30000) (Some 70000);
  ExpRecH 0%nat 20000;
  ExpRec 5%nat 2 12 15 20000 50000 30000 30000;
  ExpRecs 6%nat;
  Reset [] [(0, 10, 15); (2, 10, 15); (0, 11, 15); (2, 11, 15); (2, 12, 15)] [(0, 10, 15); (2, 10, 15); (0, 11, 15); (2, 11, 15); (2, 12, 15)]].

Definition IC_MIBS_138 : list cmd := [
  Seed seed1234;
  SetH 10 15 None (Some 0) (Some 30000) (Some 30000) (Some 80000) (Some 50000) (Some 60000) (Some 60000) (Some 70000);
  SetH 11 15 None (Some 50000) (Some 80000) (Some 80000) (Some 90000) (Some 0) (Some 30000) (Some 30000) (Some 50000);
  SetH 12 15 None None None None None (Some 30000) (Some 50000) None None;
  Push 0 10 15 0 50000 30000 50000;
  Push 2 10 15 0 50000 60000 10000;
  Push 0 11 15 10000 50000 80000 10000;
  Push 2 11 15 10000 50000 30000 20000;
  MoveIBS;
  ExpH 10 15 None (Some 30000) (Some 50000) (Some 60000) (Some 70000);
  ExpT 10 16 30000;
  ExpRecH 0%nat 20000;
  ExpRecs 4%nat;
  Reset [(10, 16)] [(0, 10, 15); (2, 10, 15); (0, 11, 15); (2, 11, 15); (2, 12, 15)] [(0, 10, 15); (2, 10, 15); (0, 11, 15); (2, 11, 15)]].

Definition IC_MIBS_139 : list cmd := [
  Seed seed1234;
  SetH 10 15 None (Some 0) (Some 30000) (Some 30000) (Some 80000) (Some 50000) (Some 60000) (Some 60000) (Some 70000);
  SetH 11 15 None (Some 70000) (Some 80000) (Some 80000) (Some 90000) (Some 0) (Some 10000) (Some 10000) (Some 70000);
  SetH 12 15 None (Some 10000) (Some 40000) None None (Some 70000) (Some 90000) None None;
  Push 0 10 15 0 50000 30000 50000;
  Push 2 10 15 0 50000 60000 10000;
  Push 0 11 15 10000 50000 80000 10000;
  Push 2 11 15 10000 50000 10000 60000;
  MoveIBS;
  ExpH 10 15 None (Some 30000) (Some 50000) (Some 60000) (Some 70000);
  ExpH 12 15 None (Some 40000) (Some 70000) None None;
  ExpRecH 0%nat 20000;
  ExpRec 4%nat 0 12 15 20000 50000 40000 30000;
  ExpRecs 5%nat;
  Reset [] [(0, 10, 15); (2, 10, 15); (0, 11, 15); (2, 11, 15); (0, 12, 15); (2, 12, 15)] [(0, 10, 15); (2, 10, 15); (0, 11, 15); (2, 11, 15); (0, 12, 15)]].

Definition IC_MIBS_140 : list cmd := [
  Seed seed1234;
  SetH 10 15 None (Some 0) (Some 30000) (Some 30000) (Some 80000) (Some 50000) (Some 60000) (Some 60000) (Some 70000);
  SetH 11 15 None (Some 70000) (Some 80000) (Some 80000) (Some 90000) (Some 0) (Some 10000) (Some 10000) (Some 70000);
  SetH 12 15 None (Some 10000) (Some 40000) None None (Some 50000) (Some 90000) None None;
  Push 0 10 15 0 50000 30000 50000;
  Push 2 10 15 0 50000 60000 10000;
  Push 0 11 15 10000 50000 80000 10000;
  Push 2 11 15 10000 50000 10000 60000;
  MoveIBS;
  ExpH 10 15 None (Some 30000) (Some 50000) (Some 60000) (Some 70000);
  ExpH 12 15 None (Some 40000) (Some 50000) None None;
  ExpT 13 15 20000;
  ExpRecH 0%nat 20000;
  ExpRec 4%nat 0 12 15 20000 50000 40000 10000;
  ExpRecs 5%nat;
  Reset [(13, 15)] [(0, 10, 15); (2, 10, 15); (0, 11, 15); (2, 11, 15); (0, 12, 15); (2, 12, 15)] [(0, 10, 15); (2, 10, 15); (0, 11, 15); (2, 11, 15); (0, 12, 15)]].

Definition IC_MIBS_141 : list cmd := [
  Seed seed1234;
  SetH 10 15 None (Some 0) (Some 30000) (Some 30000) (Some 80000) (Some 50000) (Some 60000) (Some 60000) (Some 70000);
  SetH 11 15 None (Some 70000) (Some 80000) (Some 80000) (Some 90000) (Some 0) (Some 10000) (Some 10000) (Some 70000);
  SetH 12 15 None (Some 10000) (Some 20000) (Some 20000) (Some 30000) (Some 70000) (Some 90000) (Some 90000) (Some 130000);
  Push 0 10 15 0 50000 30000 50000;
  Push 2 10 15 0 50000 60000 10000;
  Push 0 11 15 10000 50000 80000 10000;
  Push 2 11 15 10000 50000 10000 60000;
  Push 0 12 15 20000 50000 20000 10000;
  Push 2 12 15 20000 50000 90000 40000;
  MoveIBS;
  ExpH 10 15 None (Some 30000) (Some 50000) (Some 60000) (Some 70000);
  ExpH 12 15 None (Some 20000) (Some 60000) (Some 90000) (Some 130000);
  ExpRecH 0%nat 20000;
  ExpRec 6%nat 0 12 15 20000 50000 20000 30000;
  ExpRecs 7%nat;
  Reset [] [(0, 10, 15); (2, 10, 15); (0, 11, 15); (2, 11, 15); (0, 12, 15); (2, 12, 15)] [(0, 10, 15); (2, 10, 15); (0, 11, 15); (2, 11, 15); (0, 12, 15); (2, 12, 15)]].

Definition IC_MIBS_142 : list cmd := [
  Seed seed1234;
  SetH 10 15 None (Some 0) (Some 30000) (Some 30000) (Some 80000) (Some 50000) (Some 60000) (Some 60000) (Some 70000);
  SetH 11 15 None (Some 70000) (Some 80000) (Some 80000) (Some 90000) (Some 0) (Some 10000) (Some 10000) (Some 70000);
  SetH 12 15 None (Some 10000) (Some 20000) (Some 20000) (Some 30000) (Some 40000) (Some 90000) (Some 90000) (Some 130000);
  Push 0 10 15 0 50000 30000 50000;
  Push 2 10 15 0 50000 60000 10000;
  Push 0 11 15 10000 50000 80000 10000;
  Push 2 11 15 10000 50000 10000 60000;
  Push 0 12 15 20000 50000 20000 10000;
  Push 2 12 15 20000 50000 90000 40000;
  MoveIBS;
  ExpH 10 15 None (Some 30000) (Some 50000) (Some 60000) (Some 70000);
  ExpH 12 15 None (Some 20000) (Some 40000) (Some 90000) (Some 130000);
  ExpT 13 15 20000;
  ExpRecH 0%nat 20000;
  ExpRec 6%nat 0 12 15 20000 50000 20000 10000;
  ExpRecs 7%nat;
  Reset [(13, 15)] [(0, 10, 15); (2, 10, 15); (0, 11, 15); (2, 11, 15); (0, 12, 15); (2, 12, 15)] [(0, 10, 15); (2, 10, 15); (0, 11, 15); (2, 11, 15); (0, 12, 15); (2, 12, 15)]].

Definition IC_MIBS_143 : list cmd := [
  Seed seed1234;
  SetH 10 15 None (Some 0) (Some 30000) (Some 30000) (Some 80000) (Some 50000) (Some 60000) (Some 60000) (Some 70000);
  SetH 11 15 None (Some 70000) (Some 80000) (Some 80000) (Some 90000) (Some 0) (Some 10000) (Some 10000) (Some 70000);
  SetH 12 15 None (Some 10000) (Some 20000) (Some 20000) (Some 40000) (Some 40000) (Some 90000) (Some 90000) (Some 130000);
  Push 0 10 15 0 50000 30000 50000;
  Push 2 10 15 0 50000 60000 10000;
  Push 0 11 15 10000 50000 80000 10000;
  Push 2 11 15 10000 50000 10000 60000;
  Push 0 12 15 20000 50000 20000 20000;
  Push 2 12 15 20000 50000 90000 40000;
  MoveIBS;
  ExpH 10 15 None (Some 30000) (Some 50000) (Some 60000) (Some 70000);
  ExpT 13 15 30000;
  ExpRecH 0%nat 20000;
  ExpRecs 6%nat;
  Reset [(13, 15)] [(0, 10, 15); (2, 10, 15); (0, 11, 15); (2, 11, 15); (0, 12, 15); (2, 12, 15)] [(0, 10, 15); (2, 10, 15); (0, 11, 15); (2, 11, 15); (0, 12, 15); (2, 12, 15)]].

Definition IC_MIBS_144 : list cmd := [
  Seed seed1234;
  SetH 10 15 None (Some 0) (Some 30000) (Some 30000) (Some 80000) (Some 50000) (Some 60000) (Some 60000) (Some 70000);
  SetH 11 15 None (Some 70000) (Some 80000) (Some 80000) (Some 90000) (Some 0) (Some 10000) (Some 10000) (Some 70000);
  SetH 12 15 None (Some 70000) (Some 90000) None None (Some 10000) (Some 40000) None None;
  Push 0 10 15 0 50000 30000 50000;
  Push 2 10 15 0 50000 60000 10000;
  Push 0 11 15 10000 50000 80000 10000;
  Push 2 11 15 10000 50000 10000 60000;
  MoveIBS;
  ExpH 10 15 None (Some 30000) (Some 50000) (Some 60000) (Some 70000);
  ExpH 12 15 None None None (Some 40000) (Some 70000);
  ExpRecH 0%nat 20000;
  ExpRec 4%nat 2 12 15 20000 50000 40000 30000;
  ExpRecs 5%nat;
  Reset [] [(0, 10, 15); (2, 10, 15); (0, 11, 15); (2, 11, 15); (0, 12, 15); (2, 12, 15)] [(0, 10, 15); (2, 10, 15); (0, 11, 15); (2, 11, 15); (2, 12, 15)]].

Definition IC_MIBS_145 : list cmd := [
  Seed seed1234;
  SetH 10 15 None (Some 0) (Some 30000) (Some 30000) (Some 80000) (Some 50000) (Some 60000) (Some 60000) (Some 70000);
  SetH 11 15 None (Some 70000) (Some 80000) (Some 80000) (Some 90000) (Some 0) (Some 10000) (Some 10000) (Some 70000);
  SetH 12 15 None (Some 50000) (Some 90000) None None (Some 10000) (Some 40000) None None;
  Push 0 10 15 0 50000 30000 50000;
  Push 2 10 15 0 50000 60000 10000;
  Push 0 11 15 10000 50000 80000 10000;
  Push 2 11 15 10000 50000 10000 60000;
  MoveIBS;
  ExpH 10 15 None (Some 30000) (Some 50000) (Some 60000) (Some 70000);
  ExpH 12 15 None None None (Some 40000) (Some 50000);
  ExpT 13 15 20000;
  ExpRecH 0%nat 20000;
  ExpRec 4%nat 2 12 15 20000 50000 40000 10000;
  ExpRecs 5%nat;
  Reset [(13, 15)] [(0, 10, 15); (2, 10, 15); (0, 11, 15); (2, 11, 15); (0, 12, 15); (2, 12, 15)] [(0, 10, 15); (2, 10, 15); (0, 11, 15); (2, 11, 15); (2, 12, 15)]].

Definition IC_MIBS_146 : list cmd := [
  Seed seed1234;
  SetH 10 15 None (Some 0) (Some 30000) (Some 30000) (Some 80000) (Some 50000) (Some 60000) (Some 60000) (Some 70000);
  SetH 11 15 None (Some 70000) (Some 80000) (Some 80000) (Some 90000) (Some 0) (Some 10000) (Some 10000) (Some 70000);
  SetH 12 15 None (Some 70000) (Some 90000) (Some 90000) (Some 130000) (Some 10000) (Some 20000) (Some 20000) (Some 30000);
  Push 0 10 15 0 50000 30000 50000;
  Push 2 10 15 0 50000 60000 10000;
  Push 0 11 15 10000 50000 80000 10000;
  Push 2 11 15 10000 50000 10000 60000;
  Push 0 12 15 20000 50000 90000 40000;
  Push 2 12 15 20000 50000 20000 10000;
  MoveIBS;
  ExpH 10 15 None (Some 30000) (Some 50000) (Some 60000) (Some 70000);
  ExpH 12 15 None (Some 90000) (Some 130000) (Some 20000) (Some 60000);
  ExpRecH 0%nat 20000;
  ExpRec 6%nat 2 12 15 20000 50000 20000 30000;
  ExpRecs 7%nat;
  Reset [] [(0, 10, 15); (2, 10, 15); (0, 11, 15); (2, 11, 15); (0, 12, 15); (2, 12, 15)] [(0, 10, 15); (2, 10, 15); (0, 11, 15); (2, 11, 15); (0, 12, 15); (2, 12, 15)]].

Definition IC_MIBS_147 : list cmd := [
  Seed seed1234;
  SetH 10 15 None (Some 0) (Some 30000) (Some 30000) (Some 80000) (Some 50000) (Some 60000) (Some 60000) (Some 70000);
  SetH 11 15 None (Some 70000) (Some 80000) (Some 80000) (Some 90000) (Some 0) (Some 10000) (Some 10000) (Some 70000);
  SetH 12 15 None (Some 40000) (Some 90000) (Some 90000) (Some 130000) (Some 10000) (Some 20000) (Some 20000) (Some 30000);
  Push 0 10 15 0 50000 30000 50000;
  Push 2 10 15 0 50000 60000 10000;
  Push 0 11 15 10000 50000 80000 10000;
  Push 2 11 15 10000 50000 10000 60000;
  Push 0 12 15 20000 50000 90000 40000;
  Push 2 12 15 20000 50000 20000 10000;
  MoveIBS;
  ExpH 10 15 None (Some 30000) (Some 50000) (Some 60000) (Some 70000);
  ExpH 12 15 None (Some 90000) (Some 130000) (Some 20000) (Some 40000);
  ExpT 13 15 20000;
  ExpRecH 0%nat 20000;
  ExpRec 6%nat 2 12 15 20000 50000 20000 10000;
  ExpRecs 7%nat;
  Reset [(13, 15)] [(0, 10, 15); (2, 10, 15); (0, 11, 15); (2, 11, 15); (0, 12, 15); (2, 12, 15)] [(0, 10, 15); (2, 10, 15); (0, 11, 15); (2, 11, 15); (0, 12, 15); (2, 12, 15)]].

Definition IC_MIBS_148 : list cmd := [
  Seed seed1234;
  SetH 10 15 None (Some 0) (Some 30000) (Some 30000) (Some 80000) (Some 50000) (Some 60000) (Some 60000) (Some 70000);
  SetH 11 15 None (Some 70000) (Some 80000) (Some 80000) (Some 90000) (Some 0) (Some 10000) (Some 10000) (Some 70000);
  SetH 12 15 None (Some 40000) (Some 90000) (Some 90000) (Some 130000) (Some 10000) (Some 20000) (Some 20000) (Some 40000);
  Push 0 10 15 0 50000 30000 50000;
  Push 2 10 15 0 50000 60000 10000;
  Push 0 11 15 10000 50000 80000 10000;
  Push 2 11 15 10000 50000 10000 60000;
  Push 0 12 15 20000 50000 90000 40000;
  Push 2 12 15 20000 50000 20000 20000;
  MoveIBS;
  ExpH 10 15 None (Some 30000) (Some 50000) (Some 60000) (Some 70000);
  ExpT 13 15 30000;
  ExpRecH 0%nat 20000;
  ExpRecs 6%nat;
  Reset [(13, 15)] [(0, 10, 15); (2, 10, 15); (0, 11, 15); (2, 11, 15); (0, 12, 15); (2, 12, 15)] [(0, 10, 15); (2, 10, 15); (0, 11, 15); (2, 11, 15); (0, 12, 15); (2, 12, 15)]].

Definition IC_MIBS_149 : list cmd := [
  Seed seed1234;
  SetH 10 15 None (Some 50000) (Some 60000) (Some 60000) (Some 70000) (Some 0) (Some 30000) (Some 30000) (Some 80000);
  SetH 11 15 None (Some 0) (Some 20000) None None (Some 50000) (Some 70000) None None;
  Push 0 10 15 0 50000 60000 10000;
  Push 2 10 15 0 50000 30000 50000;
  MoveIBS;
  ExpH 10 15 None (Some 60000) (Some 70000) (Some 30000) (Some 50000);
  ExpH 11 15 None (Some 20000) (Some 50000) None None;
  ExpRecH 1%nat 20000;
  ExpRec 2%nat 0 11 15 10000 50000 20000 30000;
  ExpRecs 3%nat;
  Reset [] [(0, 10, 15); (2, 10, 15); (0, 11, 15); (2, 11, 15)] [(0, 10, 15); (2, 10, 15); (0, 11, 15)]].

Definition IC_MIBS_150 : list cmd := [
  Seed seed1234;
  SetH 10 15 None (Some 50000) (Some 60000) (Some 60000) (Some 70000) (Some 0) (Some 30000) (Some 30000) (Some 80000);
  SetH 11 15 None (Some 0) (Some 20000) None None (Some 40000) (Some 70000) None None;
  Push 0 10 15 0 50000 60000 10000;
  Push 2 10 15 0 50000 30000 50000;
  MoveIBS;
  ExpH 10 15 None (Some 60000) (Some 70000) (Some 30000) (Some 50000);
  ExpH 11 15 None (Some 20000) (Some 40000) None None;
  ExpT 12 15 10000;
  ExpRecH 1%nat 20000;
  ExpRec 2%nat 0 11 15 10000 50000 20000 20000;
  ExpRecs 3%nat;
  Reset [(12, 15)] [(0, 10, 15); (2, 10, 15); (0, 11, 15); (2, 11, 15)] [(0, 10, 15); (2, 10, 15); (0, 11, 15)]].

Definition IC_MIBS_151 : list cmd := [
  Seed seed1234;
  SetH 10 15 None (Some 50000) (Some 60000) (Some 60000) (Some 70000) (Some 0) (Some 30000) (Some 30000) (Some 80000);
  SetH 11 15 None (Some 0) (Some 20000) None None (Some 30000) (Some 70000) None None;
  SetH 12 15 (Some 20000) (Some 30000) (Some 40000) None None None None None None;
  Push 0 10 15 0 50000 60000 10000;
  Push 2 10 15 0 50000 30000 50000;
  MoveIBS;
  ExpH 10 15 None (Some 60000) (Some 70000) (Some 30000) (Some 50000);
  ExpH 11 15 None (Some 20000) (Some 30000) None None;
  ExpT 12 15 40000;
  ExpRecH 1%nat 20000;
  ExpRec 2%nat 0 11 15 10000 50000 20000 10000;
  ExpRecs 3%nat;
  Reset [(12, 15)] [(0, 10, 15); (2, 10, 15); (0, 11, 15); (2, 11, 15); (0, 12, 15)] [(0, 10, 15); (2, 10, 15); (0, 11, 15)]].

Definition IC_MIBS_152 : list cmd := [
  Seed seed1234;
  SetH 10 15 None (Some 50000) (Some 60000) (Some 60000) (Some 70000) (Some 0) (Some 30000) (Some 30000) (Some 80000);
  SetH 11 15 None (Some 0) (Some 20000) None None (Some 30000) (Some 70000) None None;
  SetH 12 15 None (Some 0) (Some 20000) None None None None None None;
  Push 0 10 15 0 50000 60000 10000;
  Push 2 10 15 0 50000 30000 50000;
  MoveIBS;
  ExpH 10 15 None (Some 60000) (Some 70000) (Some 30000) (Some 50000);
  ExpH 11 15 None (Some 20000) (Some 30000) None None;
  ExpH 12 15 None (Some 20000) (Some 40000) None None;
  ExpRecH 1%nat 20000;
  ExpRec 2%nat 0 11 15 10000 50000 20000 10000;
  ExpRec 3%nat 0 12 15 20000 50000 20000 20000;
  ExpRecs 4%nat;
  Reset [] [(0, 10, 15); (2, 10, 15); (0, 11, 15); (2, 11, 15); (0, 12, 15)] [(0, 10, 15); (2, 10, 15); (0, 11, 15); (0, 12, 15)]].

Definition IC_MIBS_153 : list cmd := [
  Seed seed1234;
  SetH 10 15 None (Some 50000) (Some 60000) (Some 60000) (Some 70000) (Some 0) (Some 30000) (Some 30000) (Some 80000);
  SetH 11 15 None (Some 0) (Some 20000) None None (Some 30000) (Some 70000) None None;
  SetH 12 15 None (Some 0) (Some 20000) (Some 20000) (Some 40000) None None None None;
  Push 0 10 15 0 50000 60000 10000;
  Push 2 10 15 0 50000 30000 50000;
  Push 0 12 15 20000 50000 20000 20000;
  MoveIBS;
  ExpH 10 15 None (Some 60000) (Some 70000) (Some 30000) (Some 50000);
  ExpH 11 15 None (Some 20000) (Some 30000) None None;
  ExpH 12 15 None (Some 20000) (Some 60000) None None;
  ExpRecH 1%nat 20000;
  ExpRec 3%nat 0 11 15 10000 50000 20000 10000;
  ExpRec 4%nat 0 12 15 20000 50000 20000 20000;
  ExpRecs 5%nat;
  Reset [] [(0, 10, 15); (2, 10, 15); (0, 11, 15); (2, 11, 15); (0, 12, 15)] [(0, 10, 15); (2, 10, 15); (0, 11, 15); (0, 12, 15)]].

Definition IC_MIBS_154 : list cmd := [
  Seed seed1234;
  SetH 10 15 None (Some 50000) (Some 60000) (Some 60000) (Some 70000) (Some 0) (Some 30000) (Some 30000) (Some 80000);
  SetH 11 15 None (Some 0) (Some 20000) None None (Some 30000) (Some 70000) None None;
  SetH 12 15 None (Some 20000) (Some 30000) None None None None None None;
  Push 0 10 15 0 50000 60000 10000;
  Push 2 10 15 0 50000 30000 50000;
  MoveIBS;
  ExpH 10 15 None (Some 60000) (Some 70000) (Some 30000) (Some 50000);
  ExpH 11 15 None (Some 20000) (Some 30000) None None;
  ExpT 10 16 20000;
  ExpRecH 1%nat 20000;
  ExpRec 2%nat 0 11 15 10000 50000 20000 10000;
  ExpRecs 3%nat;
  Reset [(10, 16)] [(0, 10, 15); (2, 10, 15); (0, 11, 15); (2, 11, 15); (0, 12, 15)] [(0, 10, 15); (2, 10, 15); (0, 11, 15)]].

Definition IC_MIBS_155 : list cmd := [
  Seed seed1234;
  SetH 10 15 None (Some 50000) (Some 60000) (Some 60000) (Some 70000) (Some 0) (Some 30000) (Some 30000) (Some 80000);
  SetH 11 15 None (Some 0) (Some 20000) None None (Some 30000) (Some 70000) None None;
  SetH 12 15 (Some 20000) None None None None (Some 30000) (Some 40000) None None;
  Push 0 10 15 0 50000 60000 10000;
  Push 2 10 15 0 50000 30000 50000;
  MoveIBS;
  ExpH 10 15 None (Some 60000) (Some 70000) (Some 30000) (Some 50000);
  ExpH 11 15 None (Some 20000) (Some 30000) None None;
  ExpT 12 15 40000;
  ExpRecH 1%nat 20000;
  ExpRec 2%nat 0 11 15 10000 50000 20000 10000;
  ExpRecs 3%nat;
  Reset [(12, 15)] [(0, 10, 15); (2, 10, 15); (0, 11, 15); (2, 11, 15); (2, 12, 15)] [(0, 10, 15); (2, 10, 15); (0, 11, 15)]].

Definition IC_MIBS_156 : list cmd := [
  Seed seed1234;
  SetH 10 15 None (Some 50000) (Some 60000) (Some 60000) (Some 70000) (Some 0) (Some 30000) (Some 30000) (Some 80000);
  SetH 11 15 None (Some 0) (Some 20000) None None (Some 30000) (Some 70000) None None;
  SetH 12 15 None None None None None (Some 0) (Some 20000) None None;
  Push 0 10 15 0 50000 60000 10000;
  Push 2 10 15 0 50000 30000 50000;
  MoveIBS;
  ExpH 10 15 None (Some 60000) (Some 70000) (Some 30000) (Some 50000);
  ExpH 11 15 None (Some 20000) (Some 30000) None None;
  ExpH 12 15 None None None (Some 20000) (Some 40000);
  ExpRecH 1%nat 20000;
  ExpRec 2%nat 0 11 15 10000 50000 20000 10000;
  ExpRec 3%nat 2 12 15 20000 50000 20000 20000;
  ExpRecs 4%nat;
  Reset [] [(0, 10, 15); (2, 10, 15); (0, 11, 15); (2, 11, 15); (2, 12, 15)] [(0, 10, 15); (2, 10, 15); (0, 11, 15); (2, 12, 15)]].

Definition IC_MIBS_157 : list cmd := [
  Seed seed1234;
  SetH 10 15 None (Some 50000) (Some 60000) (Some 60000) (Some 70000) (Some 0) (Some 30000) (Some 30000) (Some 80000);
  SetH 11 15 None (Some 0) (Some 40000) None None (Some 60000) (Some 80000) None None;
  SetH 12 15 None None None None None (Some 0) (Some 10000) (Some 10000) (Some 20000);
  Push 0 10 15 0 50000 60000 10000;
  Push 2 10 15 0 50000 30000 50000;
  Push 2 12 15 20000 50000 10000 10000;
  MoveIBS;
  ExpH 10 15 None (Some 60000) (Some 70000) (Some 30000) (Some 50000);
  ExpH 11 15 None (Some 40000) (Some 60000) None None;
  ExpH 12 15 None None None (Some 10000) (Some 30000);
  ExpRecH 1%nat 20000;
  ExpRec 3%nat 0 11 15 10000 50000 40000 20000;
  ExpRec 4%nat 2 12 15 20000 50000 10000 10000;
  ExpRecs 5%nat;
  Reset [] [(0, 10, 15); (2, 10, 15); (0, 11, 15); (2, 11, 15); (2, 12, 15)] [(0, 10, 15); (2, 10, 15); (0, 11, 15); (2, 12, 15)]].

Definition IC_MIBS_158 : list cmd := [
  Seed seed1234;
  SetH 10 15 None (Some 50000) (Some 60000) (Some 60000) (Some 70000) (Some 0) (Some 30000) (Some 30000) (Some 80000);
  SetH 11 15 None (Some 0) (Some 20000) None None (Some 30000) (Some 70000) None None;
  SetH 12 15 None None None None None (Some 20000) (Some 30000) None None;
  Push 0 10 15 0 50000 60000 10000;
  Push 2 10 15 0 50000 30000 50000;
  MoveIBS;
  ExpH 10 15 None (Some 60000) (Some 70000) (Some 30000) (Some 50000);
  ExpH 11 15 None (Some 20000) (Some 30000) None None;
  ExpT 10 16 20000;
  ExpRecH 1%nat 20000;
  ExpRec 2%nat 0 11 15 10000 50000 20000 10000;
  ExpRecs 3%nat;
  Reset [(10, 16)] [(0, 10, 15); (2, 10, 15); (0, 11, 15); (2, 11, 15); (2, 12, 15)] [(0, 10, 15); (2, 10, 15); (0, 11, 15)]].

Definition IC_MIBS_159 : list cmd := [
  Seed seed1234;
  SetH 10 15 None (Some 50000) (Some 60000) (Some 60000) (Some 70000) (Some 0) (Some 30000) (Some 30000) (Some 80000);
  SetH 11 15 None (Some 0) (Some 20000) None None (Some 30000) (Some 70000) None None;
  SetH 12 15 None (Some 0) (Some 20000) None None (Some 70000) (Some 80000) None None;
  Push 0 10 15 0 50000 60000 10000;
  Push 2 10 15 0 50000 30000 50000;
  MoveIBS;
  ExpH 10 15 None (Some 60000) (Some 70000) (Some 30000) (Some 50000);
  ExpH 11 15 None (Some 20000) (Some 30000) None None;
  ExpH 12 15 None (Some 20000) (Some 40000) None None;
  ExpRecH 1%nat 20000;
  ExpRec 2%nat 0 11 15 10000 50000 20000 10000;
  ExpRec 3%nat 0 12 15 20000 50000 20000 20000;
  ExpRecs 4%nat;
  Reset [] [(0, 10, 15); (2, 10, 15); (0, 11, 15); (2, 11, 15); (0, 12, 15); (2, 12, 15)] [(0, 10, 15); (2, 10, 15); (0, 11, 15); (0, 12, 15)]].

Definition IC_MIBS_160 : list cmd := [
  Seed seed1234;
  SetH 10 15 None (Some 50000) (Some 60000) (Some 60000) (Some 70000) (Some 0) (Some 30000) (Some 30000) (Some 80000);
  SetH 11 15 None (Some 0) (Some 20000) None None (Some 30000) (Some 70000) None None;
  SetH 12 15 None (Some 0) (Some 20000) None None (Some 30000) (Some 80000) None None;
  Push 0 10 15 0 50000 60000 10000;
  Push 2 10 15 0 50000 30000 50000;
  MoveIBS;
  ExpH 10 15 None (Some 60000) (Some 70000) (Some 30000) (Some 50000);
  ExpH 11 15 None (Some 20000) (Some 30000) None None;
  ExpH 12 15 None (Some 20000) (Some 30000) None None;
  ExpT 13 15 10000;
  ExpRecH 1%nat 20000;
  ExpRec 2%nat 0 11 15 10000 50000 20000 10000;
  ExpRec 3%nat 0 12 15 20000 50000 20000 10000;
  ExpRecs 4%nat;
  Reset [(13, 15)] [(0, 10, 15); (2, 10, 15); (0, 11, 15); (2, 11, 15); (0, 12, 15); (2, 12, 15)] [(0, 10, 15); (2, 10, 15); (0, 11, 15); (0, 12, 15)]].

Definition IC_MIBS_161 : list cmd := [
  Seed seed1234;
  SetH 10 15 None (Some 50000) (Some 60000) (Some 60000) (Some 70000) (Some 0) (Some 30000) (Some 30000) (Some 80000);
  SetH 11 15 None (Some 0) (Some 20000) None None (Some 30000) (Some 70000) None None;
  SetH 12 15 None (Some 0) (Some 20000) (Some 20000) (Some 30000) (Some 70000) (Some 80000) (Some 80000) (Some 90000);
  Push 0 10 15 0 50000 60000 10000;
  Push 2 10 15 0 50000 30000 50000;
  Push 0 12 15 20000 50000 20000 10000;
  Push 2 12 15 20000 50000 80000 10000;
  MoveIBS;
  ExpH 10 15 None (Some 60000) (Some 70000) (Some 30000) (Some 50000);
  ExpH 11 15 None (Some 20000) (Some 30000) None None;
  ExpH 12 15 None (Some 20000) (Some 50000) (Some 80000) (Some 90000);
  ExpRecH 1%nat 20000;
  ExpRec 4%nat 0 11 15 10000 50000 20000 10000;
  ExpRec 5%nat 0 12 15 20000 50000 20000 20000;
  ExpRecs 6%nat;
  Reset [] [(0, 10, 15); (2, 10, 15); (0, 11, 15); (2, 11, 15); (0, 12, 15); (2, 12, 15)] [(0, 10, 15); (2, 10, 15); (0, 11, 15); (0, 12, 15); (2, 12, 15)]].

Definition IC_MIBS_162 : list cmd := [
  Seed seed1234;
  SetH 10 15 None (Some 50000) (Some 60000) (Some 60000) (Some 70000) (Some 0) (Some 30000) (Some 30000) (Some 80000);
  SetH 11 15 None (Some 0) (Some 20000) None None (Some 30000) (Some 70000) None None;
  SetH 12 15 None (Some 0) (Some 20000) (Some 20000) (Some 30000) (Some 40000) (Some 80000) (Some 80000) (Some 90000);
  Push 0 10 15 0 50000 60000 10000;
  Push 2 10 15 0 50000 30000 50000;
  Push 0 12 15 20000 50000 20000 10000;
  Push 2 12 15 20000 50000 80000 10000;
  MoveIBS;
  ExpH 10 15 None (Some 60000) (Some 70000) (Some 30000) (Some 50000);
  ExpH 11 15 None (Some 20000) (Some 30000) None None;
  ExpH 12 15 None (Some 20000) (Some 40000) (Some 80000) (Some 90000);
  ExpT 13 15 10000;
  ExpRecH 1%nat 20000;
  ExpRec 4%nat 0 11 15 10000 50000 20000 10000;
  ExpRec 5%nat 0 12 15 20000 50000 20000 10000;
  ExpRecs 6%nat;
  Reset [(13, 15)] [(0, 10, 15); (2, 10, 15); (0, 11, 15); (2, 11, 15); (0, 12, 15); (2, 12, 15)] [(0, 10, 15); (2, 10, 15); (0, 11, 15); (0, 12, 15); (2, 12, 15)]].

Definition IC_MIBS_163 : list cmd := [
  Seed seed1234;
  SetH 10 15 None (Some 50000) (Some 60000) (Some 60000) (Some 70000) (Some 0) (Some 30000) (Some 30000) (Some 80000);
  SetH 11 15 None (Some 0) (Some 20000) None None (Some 30000) (Some 70000) None None;
  SetH 12 15 None (Some 0) (Some 20000) (Some 20000) (Some 30000) (Some 30000) (Some 80000) (Some 80000) (Some 90000);
  Push 0 10 15 0 50000 60000 10000;
  Push 2 10 15 0 50000 30000 50000;
  Push 0 12 15 20000 50000 20000 10000;
  Push 2 12 15 20000 50000 80000 10000;
  MoveIBS;
  ExpH 10 15 None (Some 60000) (Some 70000) (Some 30000) (Some 50000);
  ExpH 11 15 None (Some 20000) (Some 30000) None None;
  ExpT 13 15 20000;
  ExpRecH 1%nat 20000;
  ExpRec 4%nat 0 11 15 10000 50000 20000 10000;
  ExpRecs 5%nat;
  Reset [(13, 15)] [(0, 10, 15); (2, 10, 15); (0, 11, 15); (2, 11, 15); (0, 12, 15); (2, 12, 15)] [(0, 10, 15); (2, 10, 15); (0, 11, 15); (0, 12, 15); (2, 12, 15)]].

Definition IC_MIBS_164 : list cmd := [
  Seed seed1234;
  SetH 10 15 None (Some 50000) (Some 60000) (Some 60000) (Some 70000) (Some 0) (Some 30000) (Some 30000) (Some 80000);
  SetH 11 15 None (Some 0) (Some 20000) None None (Some 30000) (Some 70000) None None;
  SetH 12 15 None (Some 70000) (Some 80000) None None (Some 0) (Some 20000) None None;
  Push 0 10 15 0 50000 60000 10000;
  Push 2 10 15 0 50000 30000 50000;
  MoveIBS;
  ExpH 10 15 None (Some 60000) (Some 70000) (Some 30000) (Some 50000);
  ExpH 11 15 None (Some 20000) (Some 30000) None None;
  ExpH 12 15 None None None (Some 20000) (Some 40000);
  ExpRecH 1%nat 20000;
  ExpRec 2%nat 0 11 15 10000 50000 20000 10000;
  ExpRec 3%nat 2 12 15 20000 50000 20000 20000;
  ExpRecs 4%nat;
  Reset [] [(0, 10, 15); (2, 10, 15); (0, 11, 15); (2, 11, 15); (0, 12, 15); (2, 12, 15)] [(0, 10, 15); (2, 10, 15); (0, 11, 15); (2, 12, 15)]].

Definition IC_MIBS_165 : list cmd := [
  Seed seed1234;
  SetH 10 15 None (Some 50000) (Some 60000) (Some 60000) (Some 70000) (Some 0) (Some 30000) (Some 30000) (Some 80000);
  SetH 11 15 None (Some 0) (Some 20000) None None (Some 30000) (Some 70000) None None;
  SetH 12 15 None (Some 30000) (Some 80000) None None (Some 0) (Some 20000) None None;
  Push 0 10 15 0 50000 60000 10000;
  Push 2 10 15 0 50000 30000 50000;
  MoveIBS;
  ExpH 10 15 None (Some 60000) (Some 70000) (Some 30000) (Some 50000);
  ExpH 11 15 None (Some 20000) (Some 30000) None None;
  ExpH 12 15 None None None (Some 20000) (Some 30000);
  ExpT 13 15 10000;
  ExpRecH 1%nat 20000;
  ExpRec 2%nat 0 11 15 10000 50000 20000 10000;
  ExpRec 3%nat 2 12 15 20000 50000 20000 10000;
  ExpRecs 4%nat;
  Reset [(13, 15)] [(0, 10, 15); (2, 10, 15); (0, 11, 15); (2, 11, 15); (0, 12, 15); (2, 12, 15)] [(0, 10, 15); (2, 10, 15); (0, 11, 15); (2, 12, 15)]].

Definition IC_MIBS_166 : list cmd := [
  Seed seed1234;
  SetH 10 15 None (Some 50000) (Some 60000) (Some 60000) (Some 70000) (Some 0) (Some 30000) (Some 30000) (Some 80000);
  SetH 11 15 None (Some 0) (Some 20000) None None (Some 30000) (Some 70000) None None;
  SetH 12 15 None (Some 70000) (Some 80000) (Some 80000) (Some 90000) (Some 0) (Some 20000) (Some 20000) (Some 30000);
  Push 0 10 15 0 50000 60000 10000;
  Push 2 10 15 0 50000 30000 50000;
  Push 0 12 15 20000 50000 80000 10000;
  Push 2 12 15 20000 50000 20000 10000;
  MoveIBS;
  ExpH 10 15 None (Some 60000) (Some 70000) (Some 30000) (Some 50000);
  ExpH 11 15 None (Some 20000) (Some 30000) None None;
  ExpH 12 15 None (Some 80000) (Some 90000) (Some 20000) (Some 50000);
  ExpRecH 1%nat 20000;
  ExpRec 4%nat 0 11 15 10000 50000 20000 10000;
  ExpRec 5%nat 2 12 15 20000 50000 20000 20000;
  ExpRecs 6%nat;
  Reset [] [(0, 10, 15); (2, 10, 15); (0, 11, 15); (2, 11, 15); (0, 12, 15); (2, 12, 15)] [(0, 10, 15); (2, 10, 15); (0, 11, 15); (0, 12, 15); (2, 12, 15)]].

Definition IC_MIBS_167 : list cmd := [
  Seed seed1234;
  SetH 10 15 None (Some 50000) (Some 60000) (Some 60000) (Some 70000) (Some 0) (Some 30000) (Some 30000) (Some 80000);
  SetH 11 15 None (Some 0) (Some 20000) None None (Some 30000) (Some 70000) None None;
  SetH 12 15 None (Some 40000) (Some 80000) (Some 80000) (Some 90000) (Some 0) (Some 20000) (Some 20000) (Some 30000);
  Push 0 10 15 0 50000 60000 10000;
  Push 2 10 15 0 50000 30000 50000;
  Push 0 12 15 20000 50000 80000 10000;
  Push 2 12 15 20000 50000 20000 10000;
  MoveIBS;
  ExpH 10 15 None (Some 60000) (Some 70000) (Some 30000) (Some 50000);
  ExpH 11 15 None (Some 20000) (Some 30000) None None;
  ExpH 12 15 None (Some 80000) (Some 90000) (Some 20000) (Some 40000);
  ExpT 13 15 10000;
  ExpRecH 1%nat 20000;
  ExpRec 4%nat 0 11 15 10000 50000 20000 10000;
  ExpRec 5%nat 2 12 15 20000 50000 20000 10000;
  ExpRecs 6%nat;
  Reset [(13, 15)] [(0, 10, 15); (2, 10, 15); (0, 11, 15); (2, 11, 15); (0, 12, 15); (2, 12, 15)] [(0, 10, 15); (2, 10, 15); (0, 11, 15); (0, 12, 15); (2, 12, 15)]].

Definition IC_MIBS_168 : list cmd := [
  Seed seed1234;
  SetH 10 15 None (Some 50000) (Some 60000) (Some 60000) (Some 70000) (Some 0) (Some 30000) (Some 30000) (Some 80000);
  SetH 11 15 None (Some 0) (Some 20000) None None (Some 30000) (Some 70000) None None;
  SetH 12 15 None (Some 30000) (Some 80000) (Some 80000) (Some 90000) (Some 0) (Some 20000) (Some 20000) (Some 30000);
  Push 0 10 15 0 50000 60000 10000;
  Push 2 10 15 0 50000 30000 50000;
  Push 0 12 15 20000 50000 80000 10000;
  Push 2 12 15 20000 50000 20000 10000;
  MoveIBS;
  ExpH 10 15 None (Some 60000) (Some 70000) (Some 30000) (Some 50000);
  ExpH 11 15 None (Some 20000) (Some 30000) None None;
  ExpT 13 15 20000;
  ExpRecH 1%nat 20000;
  ExpRec 4%nat 0 11 15 10000 50000 20000 10000;
  ExpRecs 5%nat;
  Reset [(13, 15)] [(0, 10, 15); (2, 10, 15); (0, 11, 15); (2, 11, 15); (0, 12, 15); (2, 12, 15)] [(0, 10, 15); (2, 10, 15); (0, 11, 15); (0, 12, 15); (2, 12, 15)]].

Definition IC_MIBS_169 : list cmd := [
  Seed seed1234;
  SetH 10 15 None (Some 50000) (Some 60000) (Some 60000) (Some 70000) (Some 0) (Some 30000) (Some 30000) (Some 80000);
  SetH 11 15 None (Some 0) (Some 10000) (Some 10000) (Some 20000) (Some 50000) (Some 70000) (Some 70000) (Some 90000);
  Push 0 10 15 0 50000 60000 10000;
  Push 2 10 15 0 50000 30000 50000;
  Push 0 11 15 10000 50000 10000 10000;
  Push 2 11 15 10000 50000 70000 20000;
  MoveIBS;
  ExpH 10 15 None (Some 60000) (Some 70000) (Some 30000) (Some 50000);
  ExpH 11 15 None (Some 10000) (Some 50000) (Some 70000) (Some 90000);
  ExpRecH 1%nat 20000;
  ExpRec 4%nat 0 11 15 10000 50000 10000 30000;
  ExpRecs 5%nat;
  Reset [] [(0, 10, 15); (2, 10, 15); (0, 11, 15); (2, 11, 15)] [(0, 10, 15); (2, 10, 15); (0, 11, 15); (2, 11, 15)]].

Definition IC_MIBS_170 : list cmd := [
  Seed seed1234;
  SetH 10 15 None (Some 50000) (Some 60000) (Some 60000) (Some 70000) (Some 0) (Some 30000) (Some 30000) (Some 80000);
  SetH 11 15 None (Some 0) (Some 10000) (Some 10000) (Some 20000) (Some 40000) (Some 70000) (Some 70000) (Some 90000);
  Push 0 10 15 0 50000 60000 10000;
  Push 2 10 15 0 50000 30000 50000;
  Push 0 11 15 10000 50000 10000 10000;
  Push 2 11 15 10000 50000 70000 20000;
  MoveIBS;
  ExpH 10 15 None (Some 60000) (Some 70000) (Some 30000) (Some 50000);
  ExpH 11 15 None (Some 10000) (Some 40000) (Some 70000) (Some 90000);
  ExpT 12 15 10000;
  ExpRecH 1%nat 20000;
  ExpRec 4%nat 0 11 15 10000 50000 10000 20000;
  ExpRecs 5%nat;
  Reset [(12, 15)] [(0, 10, 15); (2, 10, 15); (0, 11, 15); (2, 11, 15)] [(0, 10, 15); (2, 10, 15); (0, 11, 15); (2, 11, 15)]].

Definition IC_MIBS_171 : list cmd := [
  Seed seed1234;
  SetH 10 15 None (Some 50000) (Some 60000) (Some 60000) (Some 70000) (Some 0) (Some 30000) (Some 30000) (Some 80000);
  SetH 11 15 None (Some 0) (Some 10000) (Some 10000) (Some 60000) (Some 70000) (Some 80000) (Some 80000) (Some 90000);
  SetH 12 15 (Some 10000) (Some 20000) (Some 40000) None None None None None None;
  Push 0 10 15 0 50000 60000 10000;
  Push 2 10 15 0 50000 30000 50000;
  Push 0 11 15 10000 50000 10000 50000;
  Push 2 11 15 10000 50000 80000 10000;
  MoveIBS;
  ExpH 10 15 None (Some 60000) (Some 70000) (Some 30000) (Some 50000);
  ExpH 11 15 None (Some 10000) (Some 70000) (Some 80000) (Some 90000);
  ExpT 12 15 30000;
  ExpRecH 1%nat 20000;
  ExpRec 4%nat 0 11 15 10000 50000 10000 10000;
  ExpRecs 5%nat;
  Reset [(12, 15)] [(0, 10, 15); (2, 10, 15); (0, 11, 15); (2, 11, 15); (0, 12, 15)] [(0, 10, 15); (2, 10, 15); (0, 11, 15); (2, 11, 15)]].

Definition IC_MIBS_172 : list cmd := [
  Seed seed1234;
  SetH 10 15 None (Some 50000) (Some 60000) (Some 60000) (Some 70000) (Some 0) (Some 30000) (Some 30000) (Some 80000);
  SetH 11 15 None (Some 0) (Some 30000) (Some 30000) (Some 40000) (Some 50000) (Some 80000) (Some 80000) (Some 90000);
  SetH 12 15 None (Some 0) (Some 30000) None None None None None None;
  Push 0 10 15 0 50000 60000 10000;
  Push 2 10 15 0 50000 30000 50000;
  Push 0 11 15 10000 50000 30000 10000;
  Push 2 11 15 10000 50000 80000 10000;
  MoveIBS;
  ExpH 10 15 None (Some 60000) (Some 70000) (Some 30000) (Some 50000);
  ExpH 11 15 None (Some 30000) (Some 50000) (Some 80000) (Some 90000);
  ExpH 12 15 None (Some 30000) (Some 50000) None None;
  ExpRecH 1%nat 20000;
  ExpRec 4%nat 0 11 15 10000 50000 30000 10000;
  ExpRec 5%nat 0 12 15 20000 50000 30000 20000;
  ExpRecs 6%nat;
  Reset [] [(0, 10, 15); (2, 10, 15); (0, 11, 15); (2, 11, 15); (0, 12, 15)] [(0, 10, 15); (2, 10, 15); (0, 11, 15); (2, 11, 15); (0, 12, 15)]].

Definition IC_MIBS_173 : list cmd := [
  Seed seed1234;
  SetH 10 15 None (Some 50000) (Some 60000) (Some 60000) (Some 70000) (Some 0) (Some 30000) (Some 30000) (Some 80000);
  SetH 11 15 None (Some 0) (Some 30000) (Some 30000) (Some 40000) (Some 50000) (Some 80000) (Some 80000) (Some 90000);
  SetH 12 15 None (Some 0) (Some 30000) (Some 30000) (Some 40000) None None None None;
  Push 0 10 15 0 50000 60000 10000;
  Push 2 10 15 0 50000 30000 50000;
  Push 0 11 15 10000 50000 30000 10000;
  Push 2 11 15 10000 50000 80000 10000;
  Push 0 12 15 20000 50000 30000 10000;
  MoveIBS;
  ExpH 10 15 None (Some 60000) (Some 70000) (Some 30000) (Some 50000);
  ExpH 11 15 None (Some 30000) (Some 50000) (Some 80000) (Some 90000);
  ExpH 12 15 None (Some 30000) (Some 60000) None None;
  ExpRecH 1%nat 20000;
  ExpRec 5%nat 0 11 15 10000 50000 30000 10000;
  ExpRec 6%nat 0 12 15 20000 50000 30000 20000;
  ExpRecs 7%nat;
  Reset [] [(0, 10, 15); (2, 10, 15); (0, 11, 15); (2, 11, 15); (0, 12, 15)] [(0, 10, 15); (2, 10, 15); (0, 11, 15); (2, 11, 15); (0, 12, 15)]].

Definition IC_MIBS_174 : list cmd := [
  Seed seed1234;
  SetH 10 15 None (Some 50000) (Some 60000) (Some 60000) (Some 70000) (Some 0) (Some 30000) (Some 30000) (Some 80000);
  SetH 11 15 None (Some 0) (Some 30000) (Some 30000) (Some 40000) (Some 50000) (Some 80000) (Some 80000) (Some 90000);
  SetH 12 15 None (Some 30000) (Some 50000) None None None None None None;
  Push 0 10 15 0 50000 60000 10000;
  Push 2 10 15 0 50000 30000 50000;
  Push 0 11 15 10000 50000 30000 10000;
  Push 2 11 15 10000 50000 80000 10000;
  MoveIBS;
  ExpH 10 15 None (Some 60000) (Some 70000) (Some 30000) (Some 50000);
  ExpH 11 15 None (Some 30000) (Some 50000) (Some 80000) (Some 90000);
  ExpT 10 16 20000;
  ExpRecH 1%nat 20000;
  ExpRec 4%nat 0 11 15 10000 50000 30000 10000;
  ExpRecs 5%nat;
  Reset [(10, 16)] [(0, 10, 15); (2, 10, 15); (0, 11, 15); (2, 11, 15); (0, 12, 15)] [(0, 10, 15); (2, 10, 15); (0, 11, 15); (2, 11, 15)]].

Definition IC_MIBS_175 : list cmd := [
  Seed seed1234;
  SetH 10 15 None (Some 50000) (Some 60000) (Some 60000) (Some 70000) (Some 0) (Some 30000) (Some 30000) (Some 80000);
  SetH 11 15 None (Some 0) (Some 10000) (Some 10000) (Some 60000) (Some 70000) (Some 80000) (Some 80000) (Some 90000);
  SetH 12 15 (Some 10000) None None None None (Some 20000) (Some 40000) None None;
  Push 0 10 15 0 50000 60000 10000;
  Push 2 10 15 0 50000 30000 50000;
  Push 0 11 15 10000 50000 10000 50000;
  Push 2 11 15 10000 50000 80000 10000;
  MoveIBS;
  ExpH 10 15 None (Some 60000) (Some 70000) (Some 30000) (Some 50000);
  ExpH 11 15 None (Some 10000) (Some 70000) (Some 80000) (Some 90000);
  ExpT 12 15 30000;
  ExpRecH 1%nat 20000;
  ExpRec 4%nat 0 11 15 10000 50000 10000 10000;
  ExpRecs 5%nat;
  Reset [(12, 15)] [(0, 10, 15); (2, 10, 15); (0, 11, 15); (2, 11, 15); (2, 12, 15)] [(0, 10, 15); (2, 10, 15); (0, 11, 15); (2, 11, 15)]].

Definition IC_MIBS_176 : list cmd := [
  Seed seed1234;
  SetH 10 15 None (Some 50000) (Some 60000) (Some 60000) (Some 70000) (Some 0) (Some 30000) (Some 30000) (Some 80000);
  SetH 11 15 None (Some 0) (Some 30000) (Some 30000) (Some 40000) (Some 50000) (Some 80000) (Some 80000) (Some 90000);
  SetH 12 15 None None None None None (Some 0) (Some 30000) None None;
  Push 0 10 15 0 50000 60000 10000;
  Push 2 10 15 0 50000 30000 50000;
  Push 0 11 15 10000 50000 30000 10000;
  Push 2 11 15 10000 50000 80000 10000;
  MoveIBS;
  ExpH 10 15 None (Some 60000) (Some 70000) (Some 30000) (Some 50000);
  ExpH 11 15 None (Some 30000) (Some 50000) (Some 80000) (Some 90000);
  ExpH 12 15 None None None (Some 30000) (Some 50000);
  ExpRecH 1%nat 20000;
  ExpRec 4%nat 0 11 15 10000 50000 30000 10000;
  ExpRec 5%nat 2 12 15 20000 50000 30000 20000;
  ExpRecs 6%nat;
  Reset [] [(0, 10, 15); (2, 10, 15); (0, 11, 15); (2, 11, 15); (2, 12, 15)] [(0, 10, 15); (2, 10, 15); (0, 11, 15); (2, 11, 15); (2, 12, 15)]].

Definition IC_MIBS_177 : list cmd := [
  Seed seed1234;
  SetH 10 15 None (Some 50000) (Some 60000) (Some 60000) (Some 70000) (Some 0) (Some 30000) (Some 30000) (Some 80000);
  SetH 11 15 None (Some 0) (Some 30000) (Some 30000) (Some 40000) (Some 50000) (Some 80000) (Some 80000) (Some 90000);
  SetH 12 15 None None None None None (Some 0) (Some 30000) (Some 30000) (Some 40000);
  Push 0 10 15 0 50000 60000 10000;
  Push 2 10 15 0 50000 30000 50000;
  Push 0 11 15 10000 50000 30000 10000;
  Push 2 11 15 10000 50000 80000 10000;
  Push 2 12 15 20000 50000 30000 10000;
  MoveIBS;
  ExpH 10 15 None (Some 60000) (Some 70000) (Some 30000) (Some 50000);
  ExpH 11 15 None (Some 30000) (Some 50000) (Some 80000) (Some 90000);
  ExpH 12 15 None None None (Some 30000) (Some 60000);
  ExpRecH 1%nat 20000;
  ExpRec 5%nat 0 11 15 10000 50000 30000 10000;
  ExpRec 6%nat 2 12 15 20000 50000 30000 20000;
  ExpRecs 7%nat;
  Reset [] [(0, 10, 15); (2, 10, 15); (0, 11, 15); (2, 11, 15); (2, 12, 15)] [(0, 10, 15); (2, 10, 15); (0, 11, 15); (2, 11, 15); (2, 12, 15)]].

Definition IC_MIBS_178 : list cmd := [
  Seed seed1234;
  SetH 10 15 None (Some 50000) (Some 60000) (Some 60000) (Some 70000) (Some 0) (Some 30000) (Some 30000) (Some 80000);
  SetH 11 15 None (Some 0) (Some 30000) (Some 30000) (Some 40000) (Some 50000) (Some 80000) (Some 80000) (Some 90000);
  SetH 12 15 None None None None None (Some 30000) (Some 50000) None None;
  Push 0 10 15 0 50000 60000 10000;
  Push 2 10 15 0 50000 30000 50000;
  Push 0 11 15 10000 50000 30000 10000;
  Push 2 11 15 10000 50000 80000 10000;
  MoveIBS;
  ExpH 10 15 None (Some 60000) (Some 70000) (Some 30000) (Some 50000);
  ExpH 11 15 None (Some 30000) (Some 50000) (Some 80000) (Some 90000);
  ExpT 10 16 20000;
  ExpRecH 1%nat 20000;
  ExpRec 4%nat 0 11 15 10000 50000 30000 10000;
  ExpRecs 5%nat;
  Reset [(10, 16)] [(0, 10, 15); (2, 10, 15); (0, 11, 15); (2, 11, 15); (2, 12, 15)] [(0, 10, 15); (2, 10, 15); (0, 11, 15); (2, 11, 15)]].

Definition IC_MIBS_179 : list cmd := [
  Seed seed1234;
  SetH 10 15 None (Some 50000) (Some 60000) (Some 60000) (Some 70000) (Some 0) (Some 30000) (Some 30000) (Some 80000);
  SetH 11 15 None (Some 0) (Some 10000) (Some 10000) (Some 60000) (Some 70000) (Some 80000) (Some 80000) (Some 90000);
  SetH 12 15 None (Some 10000) (Some 40000) None None (Some 70000) (Some 90000) None None;
  Push 0 10 15 0 50000 60000 10000;
  Push 2 10 15 0 50000 30000 50000;
  Push 0 11 15 10000 50000 10000 50000;
  Push 2 11 15 10000 50000 80000 10000;
  MoveIBS;
  ExpH 10 15 None (Some 60000) (Some 70000) (Some 30000) (Some 50000);
  ExpH 11 15 None (Some 10000) (Some 70000) (Some 80000) (Some 90000);
  ExpH 12 15 None (Some 40000) (Some 60000) None None;
  ExpRecH 1%nat 20000;
  ExpRec 4%nat 0 11 15 10000 50000 10000 10000;
  ExpRec 5%nat 0 12 15 20000 50000 40000 20000;
  ExpRecs 6%nat;
  Reset [] [(0, 10, 15); (2, 10, 15); (0, 11, 15); (2, 11, 15); (0, 12, 15); (2, 12, 15)] [(0, 10, 15); (2, 10, 15); (0, 11, 15); (2, 11, 15); (0, 12, 15)]].

Definition IC_MIBS_180 : list cmd := [
  Seed seed1234;
  SetH 10 15 None (Some 50000) (Some 60000) (Some 60000) (Some 70000) (Some 0) (Some 30000) (Some 30000) (Some 80000);
  SetH 11 15 None (Some 0) (Some 10000) (Some 10000) (Some 60000) (Some 70000) (Some 80000) (Some 80000) (Some 90000);
  SetH 12 15 None (Some 10000) (Some 40000) None None (Some 50000) (Some 90000) None None;
  Push 0 10 15 0 50000 60000 10000;
  Push 2 10 15 0 50000 30000 50000;
  Push 0 11 15 10000 50000 10000 50000;
  Push 2 11 15 10000 50000 80000 10000;
  MoveIBS;
  ExpH 10 15 None (Some 60000) (Some 70000) (Some 30000) (Some 50000);
  ExpH 11 15 None (Some 10000) (Some 70000) (Some 80000) (Some 90000);
  ExpH 12 15 None (Some 40000) (Some 50000) None None;
  ExpT 13 15 10000;
  ExpRecH 1%nat 20000;
  ExpRec 4%nat 0 11 15 10000 50000 10000 10000;
  ExpRec 5%nat 0 12 15 20000 50000 40000 10000;
  ExpRecs 6%nat;
  Reset [(13, 15)] [(0, 10, 15); (2, 10, 15); (0, 11, 15); (2, 11, 15); (0, 12, 15); (2, 12, 15)] [(0, 10, 15); (2, 10, 15); (0, 11, 15); (2, 11, 15); (0, 12, 15)]].

Definition IC_MIBS_181 : list cmd := [
  Seed seed1234;
  SetH 10 15 None (Some 50000) (Some 60000) (Some 60000) (Some 70000) (Some 0) (Some 30000) (Some 30000) (Some 80000);
  SetH 11 15 None (Some 0) (Some 10000) (Some 10000) (Some 60000) (Some 70000) (Some 80000) (Some 80000) (Some 90000);
  SetH 12 15 None (Some 10000) (Some 20000) (Some 20000) (Some 30000) (Some 70000) (Some 90000) (Some 90000) (Some 130000);
  Push 0 10 15 0 50000 60000 10000;
  Push 2 10 15 0 50000 30000 50000;
  Push 0 11 15 10000 50000 10000 50000;
  Push 2 11 15 10000 50000 80000 10000;
  Push 0 12 15 20000 50000 20000 10000;
  Push 2 12 15 20000 50000 90000 40000;
  MoveIBS;
  ExpH 10 15 None (Some 60000) (Some 70000) (Some 30000) (Some 50000);
  ExpH 11 15 None (Some 10000) (Some 70000) (Some 80000) (Some 90000);
  ExpH 12 15 None (Some 20000) (Some 50000) (Some 90000) (Some 130000);
  ExpRecH 1%nat 20000;
  ExpRec 6%nat 0 11 15 10000 50000 10000 10000;
  ExpRec 7%nat 0 12 15 20000 50000 20000 20000;
  ExpRecs 8%nat;
  Reset [] [(0, 10, 15); (2, 10, 15); (0, 11, 15); (2, 11, 15); (0, 12, 15); (2, 12, 15)] [(0, 10, 15); (2, 10, 15); (0, 11, 15); (2, 11, 15); (0, 12, 15); (2, 12, 15)]].

Definition IC_MIBS_182 : list cmd := [
  Seed seed1234;
  SetH 10 15 None (Some 50000) (Some 60000) (Some 60000) (Some 70000) (Some 0) (Some 30000) (Some 30000) (Some 80000);
  SetH 11 15 None (Some 0) (Some 10000) (Some 10000) (Some 60000) (Some 70000) (Some 80000) (Some 80000) (Some 90000);
  SetH 12 15 None (Some 10000) (Some 20000) (Some 20000) (Some 30000) (Some 40000) (Some 90000) (Some 90000) (Some 130000);
  Push 0 10 15 0 50000 60000 10000;
  Push 2 10 15 0 50000 30000 50000;
  Push 0 11 15 10000 50000 10000 50000;
  Push 2 11 15 10000 50000 80000 10000;
  Push 0 12 15 20000 50000 20000 10000;
  Push 2 12 15 20000 50000 90000 40000;
  MoveIBS;
  ExpH 10 15 None (Some 60000) (Some 70000) (Some 30000) (Some 50000);
  ExpH 11 15 None (Some 10000) (Some 70000) (Some 80000) (Some 90000);
  ExpH 12 15 None (Some 20000) (Some 40000) (Some 90000) (Some 130000);
  ExpT 13 15 10000;
  ExpRecH 1%nat 20000;
  ExpRec 6%nat 0 11 15 10000 50000 10000 10000;
  ExpRec 7%nat 0 12 15 20000 50000 20000 10000;
  ExpRecs 8%nat;
  Reset [(13, 15)] [(0, 10, 15); (2, 10, 15); (0, 11, 15); (2, 11, 15); (0, 12, 15); (2, 12, 15)] [(0, 10, 15); (2, 10, 15); (0, 11, 15); (2, 11, 15); (0, 12, 15); (2, 12, 15)]].

Definition IC_MIBS_183 : list cmd := [
  Seed seed1234;
  SetH 10 15 None (Some 50000) (Some 60000) (Some 60000) (Some 70000) (Some 0) (Some 30000) (Some 30000) (Some 80000);
  SetH 11 15 None (Some 0) (Some 10000) (Some 10000) (Some 60000) (Some 70000) (Some 80000) (Some 80000) (Some 90000);
  SetH 12 15 None (Some 10000) (Some 20000) (Some 20000) (Some 40000) (Some 40000) (Some 90000) (Some 90000) (Some 130000);
  Push 0 10 15 0 50000 60000 10000;
  Push 2 10 15 0 50000 30000 50000;
  Push 0 11 15 10000 50000 10000 50000;
  Push 2 11 15 10000 50000 80000 10000;
  Push 0 12 15 20000 50000 20000 20000;
  Push 2 12 15 20000 50000 90000 40000;
  MoveIBS;
  ExpH 10 15 None (Some 60000) (Some 70000) (Some 30000) (Some 50000);
  ExpH 11 15 None (Some 10000) (Some 70000) (Some 80000) (Some 90000);
  ExpT 13 15 20000;
  ExpRecH 1%nat 20000;
  ExpRec 6%nat 0 11 15 10000 50000 10000 10000;
  ExpRecs 7%nat;
  Reset [(13, 15)] [(0, 10, 15); (2, 10, 15); (0, 11, 15); (2, 11, 15); (0, 12, 15); (2, 12, 15)] [(0, 10, 15); (2, 10, 15); (0, 11, 15); (2, 11, 15); (0, 12, 15); (2, 12, 15)]].

Definition IC_MIBS_184 : list cmd := [
  Seed seed1234;
  SetH 10 15 None (Some 50000) (Some 60000) (Some 60000) (Some 70000) (Some 0) (Some 30000) (Some 30000) (Some 80000);
  SetH 11 15 None (Some 0) (Some 10000) (Some 10000) (Some 60000) (Some 70000) (Some 80000) (Some 80000) (Some 90000);
  SetH 12 15 None (Some 70000) (Some 90000) None None (Some 10000) (Some 40000) None None;
  Push 0 10 15 0 50000 60000 10000;
  Push 2 10 15 0 50000 30000 50000;
  Push 0 11 15 10000 50000 10000 50000;
  Push 2 11 15 10000 50000 80000 10000;
  MoveIBS;
  ExpH 10 15 None (Some 60000) (Some 70000) (Some 30000) (Some 50000);
  ExpH 11 15 None (Some 10000) (Some 70000) (Some 80000) (Some 90000);
  ExpH 12 15 None None None (Some 40000) (Some 60000);
  ExpRecH 1%nat 20000;
  ExpRec 4%nat 0 11 15 10000 50000 10000 10000;
  ExpRec 5%nat 2 12 15 20000 50000 40000 20000;
  ExpRecs 6%nat;
  Reset [] [(0, 10, 15); (2, 10, 15); (0, 11, 15); (2, 11, 15); (0, 12, 15); (2, 12, 15)] [(0, 10, 15); (2, 10, 15); (0, 11, 15); (2, 11, 15); (2, 12, 15)]].

Definition IC_MIBS_185 : list cmd := [
  Seed seed1234;
  SetH 10 15 None (Some 50000) (Some 60000) (Some 60000) (Some 70000) (Some 0) (Some 30000) (Some 30000) (Some 80000);
  SetH 11 15 None (Some 0) (Some 10000) (Some 10000) (Some 60000) (Some 70000) (Some 80000) (Some 80000) (Some 90000);
  SetH 12 15 None (Some 50000) (Some 90000) None None (Some 10000) (Some 40000) None None;
  Push 0 10 15 0 50000 60000 10000;
  Push 2 10 15 0 50000 30000 50000;
  Push 0 11 15 10000 50000 10000 50000;
  Push 2 11 15 10000 50000 80000 10000;
  MoveIBS;
  ExpH 10 15 None (Some 60000) (Some 70000) (Some 30000) (Some 50000);
  ExpH 11 15 None (Some 10000) (Some 70000) (Some 80000) (Some 90000);
  ExpH 12 15 None None None (Some 40000) (Some 50000);
  ExpT 13 15 10000;
  ExpRecH 1%nat 20000;
  ExpRec 4%nat 0 11 15 10000 50000 10000 10000;
  ExpRec 5%nat 2 12 15 20000 50000 40000 10000;
  ExpRecs 6%nat;
  Reset [(13, 15)] [(0, 10, 15); (2, 10, 15); (0, 11, 15); (2, 11, 15); (0, 12, 15); (2, 12, 15)] [(0, 10, 15); (2, 10, 15); (0, 11, 15); (2, 11, 15); (2, 12, 15)]].

Definition IC_MIBS_186 : list cmd := [
  Seed seed1234;
  SetH 10 15 None (Some 50000) (Some 60000) (Some 60000) (Some 70000) (Some 0) (Some 30000) (Some 30000) (Some 80000);
  SetH 11 15 None (Some 0) (Some 10000) (Some 10000) (Some 60000) (Some 70000) (Some 80000) (Some 80000) (Some 90000);
  SetH 12 15 None (Some 70000) (Some 90000) (Some 90000) (Some 130000) (Some 10000) (Some 20000) (Some 20000) (Some 30000);
  Push 0 10 15 0 50000 60000 10000;
  Push 2 10 15 0 50000 30000 50000;
  Push 0 11 15 10000 50000 10000 50000;
  Push 2 11 15 10000 50000 80000 10000;
  Push 0 12 15 20000 50000 90000 40000;
  Push 2 12 15 20000 50000 20000 10000;
  MoveIBS;
  ExpH 10 15 None (Some 60000) (Some 70000) (Some 30000) (Some 50000);
  ExpH 11 15 None (Some 10000) (Some 70000) (Some 80000) (Some 90000);
  ExpH 12 15 None (Some 90000) (Some 130000) (Some 20000) (Some 50000);
  ExpRecH 1%nat 20000;
  ExpRec 6%nat 0 11 15 10000 50000 10000 10000;
  ExpRec 7%nat 2 12 15 20000 50000 20000 20000;
  ExpRecs 8%nat;
  Reset [] [(0, 10, 15); (2, 10, 15); (0, 11, 15); (2, 11, 15); (0, 12, 15); (2, 12, 15)] [(0, 10, 15); (2, 10, 15); (0, 11, 15); (2, 11, 15); (0, 12, 15); (2, 12, 15)]].

Definition IC_MIBS_187 : list cmd := [
  Seed seed1234;
  SetH 10 15 None (Some 50000) (Some 60000) (Some 60000) (Some 70000) (Some 0) (Some 30000) (Some 30000) (Some 80000);
  SetH 11 15 None (Some 0) (Some 10000) (Some 10000) (Some 60000) (Some 70000) (Some 80000) (Some 80000) (Some 90000);
  SetH 12 15 None (Some 40000) (Some 90000) (Some 90000) (Some 130000) (Some 10000) (Some 20000) (Some 20000) (Some 30000);
  Push 0 10 15 0 50000 60000 10000;
  Push 2 10 15 0 50000 30000 50000;
  Push 0 11 15 10000 50000 10000 50000;
  Push 2 11 15 10000 50000 80000 10000;
  Push 0 12 15 20000 50000 90000 40000;
  Push 2 12 15 20000 50000 20000 10000;
  MoveIBS;
  ExpH 10 15 None (Some 60000) (Some 70000) (Some 30000) (Some 50000);
  ExpH 11 15 None (Some 10000) (Some 70000) (Some 80000) (Some 90000);
  ExpH 12 15 None (Some 90000) (Some 130000) (Some 20000) (Some 40000);
  ExpT 13 15 10000;
  ExpRecH 1%nat 20000;
  ExpRec 6%nat 0 11 15 10000 50000 10000 10000;
  ExpRec 7%nat 2 12 15 20000 50000 20000 10000;
  ExpRecs 8%nat;
  Reset [(13, 15)] [(0, 10, 15); (2, 10, 15); (0, 11, 15); (2, 11, 15); (0, 12, 15); (2, 12, 15)] [(0, 10, 15); (2, 10, 15); (0, 11, 15); (2, 11, 15); (0, 12, 15); (2, 12, 15)]].

Definition IC_MIBS_188 : list cmd := [
  Seed seed1234;
  SetH 10 15 None (Some 50000) (Some 60000) (Some 60000) (Some 70000) (Some 0) (Some 30000) (Some 30000) (Some 80000);
  SetH 11 15 None (Some 0) (Some 10000) (Some 10000) (Some 60000) (Some 70000) (Some 80000) (Some 80000) (Some 90000);
  SetH 12 15 None (Some 40000) (Some 90000) (Some 90000) (Some 130000) (Some 10000) (Some 20000) (Some 20000) (Some 40000);
  Push 0 10 15 0 50000 60000 10000;
  Push 2 10 15 0 50000 30000 50000;
  Push 0 11 15 10000 50000 10000 50000;
  Push 2 11 15 10000 50000 80000 10000;
  Push 0 12 15 20000 50000 90000 40000;
  Push 2 12 15 20000 50000 20000 20000;
  MoveIBS;
  ExpH 10 15 None (Some 60000) (Some 70000) (Some 30000) (Some 50000);
  ExpH 11 15 None (Some 10000) (Some 70000) (Some 80000) (Some 90000);
  ExpT 13 15 20000;
  ExpRecH 1%nat 20000;
  ExpRec 6%nat 0 11 15 10000 50000 10000 10000;
  ExpRecs 7%nat;
  Reset [(13, 15)] [(0, 10, 15); (2, 10, 15); (0, 11, 15); (2, 11, 15); (0, 12, 15); (2, 12, 15)] [(0, 10, 15); (2, 10, 15); (0, 11, 15); (2, 11, 15); (0, 12, 15); (2, 12, 15)]].

Definition IC_MIBS_189 : list cmd := [
  Seed seed1234;
  SetH 10 15 None (Some 50000) (Some 60000) (Some 60000) (Some 70000) (Some 0) (Some 30000) (Some 30000) (Some 80000);
  SetH 11 15 None (Some 0) (Some 10000) (Some 10000) (Some 40000) (Some 40000) (Some 70000) (Some 70000) (Some 90000);
  Push 0 10 15 0 50000 60000 10000;
  Push 2 10 15 0 50000 30000 50000;
  Push 0 11 15 10000 50000 10000 30000;
  Push 2 11 15 10000 50000 70000 20000;
  MoveIBS;
  ExpH 10 15 None (Some 60000) (Some 70000) (Some 30000) (Some 50000);
  ExpT 12 15 30000;
  ExpRecH 1%nat 20000;
  ExpRecs 4%nat;
  Reset [(12, 15)] [(0, 10, 15); (2, 10, 15); (0, 11, 15); (2, 11, 15)] [(0, 10, 15); (2, 10, 15); (0, 11, 15); (2, 11, 15)]].

Definition IC_MIBS_190 : list cmd := [
  Seed seed1234;
  SetH 10 15 None (Some 50000) (Some 60000) (Some 60000) (Some 70000) (Some 0) (Some 30000) (Some 30000) (Some 80000);
  SetH 11 15 None (Some 0) (Some 10000) (Some 10000) (Some 70000) (Some 70000) (Some 80000) (Some 80000) (Some 90000);
  SetH 12 15 (Some 10000) (Some 20000) (Some 40000) None None None None None None;
  Push 0 10 15 0 50000 60000 10000;
  Push 2 10 15 0 50000 30000 50000;
  Push 0 11 15 10000 50000 10000 60000;
  Push 2 11 15 10000 50000 80000 10000;
  MoveIBS;
  ExpH 10 15 None (Some 60000) (Some 70000) (Some 30000) (Some 50000);
  ExpT 12 15 40000;
  ExpRecH 1%nat 20000;
  ExpRecs 4%nat;
  Reset [(12, 15)] [(0, 10, 15); (2, 10, 15); (0, 11, 15); (2, 11, 15); (0, 12, 15)] [(0, 10, 15); (2, 10, 15); (0, 11, 15); (2, 11, 15)]].

Definition IC_MIBS_191 : list cmd := [
  Seed seed1234;
  SetH 10 15 None (Some 50000) (Some 60000) (Some 60000) (Some 70000) (Some 0) (Some 30000) (Some 30000) (Some 80000);
  SetH 11 15 None (Some 0) (Some 30000) (Some 30000) (Some 50000) (Some 50000) (Some 80000) (Some 80000) (Some 90000);
  SetH 12 15 None (Some 0) (Some 30000) None None None None None None;
  Push 0 10 15 0 50000 60000 10000;
  Push 2 10 15 0 50000 30000 50000;
  Push 0 11 15 10000 50000 30000 20000;
  Push 2 11 15 10000 50000 80000 10000;
  MoveIBS;
  ExpH 10 15 None (Some 60000) (Some 70000) (Some 30000) (Some 50000);
  ExpH 12 15 None (Some 30000) (Some 60000) None None;
  ExpRecH 1%nat 20000;
  ExpRec 4%nat 0 12 15 20000 50000 30000 30000;
  ExpRecs 5%nat;
  Reset [] [(0, 10, 15); (2, 10, 15); (0, 11, 15); (2, 11, 15); (0, 12, 15)] [(0, 10, 15); (2, 10, 15); (0, 11, 15); (2, 11, 15); (0, 12, 15)]].

Definition IC_MIBS_192 : list cmd := [
  Seed seed1234;
  SetH 10 15 None (Some 50000) (Some 60000) (Some 60000) (Some 70000) (Some 0) (Some 30000) (Some 30000) (Some 80000);
  SetH 11 15 None (Some 0) (Some 30000) (Some 30000) (Some 50000) (Some 50000) (Some 80000) (Some 80000) (Some 90000);
  SetH 12 15 None (Some 0) (Some 30000) (Some 30000) (Some 40000) None None None None;
  Push 0 10 15 0 50000 60000 10000;
  Push 2 10 15 0 50000 30000 50000;
  Push 0 11 15 10000 50000 30000 20000;
  Push 2 11 15 10000 50000 80000 10000;
  Push 0 12 15 20000 50000 30000 10000;
  MoveIBS;
  ExpH 10 15 None (Some 60000) (Some 70000) (Some 30000) (Some 50000);
  ExpH 12 15 None (Some 30000) (Some 70000) None None;
  ExpRecH 1%nat 20000;
  ExpRec 5%nat 0 12 15 20000 50000 30000 30000;
  ExpRecs 6%nat;
  Reset [] [(0, 10, 15); (2, 10, 15); (0, 11, 15); (2, 11, 15); (0, 12, 15)] [(0, 10, 15); (2, 10, 15); (0, 11, 15); (2, 11, 15); (0, 12, 15)]].

Definition IC_MIBS_193 : list cmd := [
  Seed seed1234;
  SetH 10 15 None (Some 50000) (Some 60000) (Some 60000) (Some 70000) (Some 0) (Some 30000) (Some 30000) (Some 80000);
  SetH 11 15 None (Some 0) (Some 30000) (Some 30000) (Some 50000) (Some 50000) (Some 80000) (Some 80000) (Some 90000);
  SetH 12 15 None (Some 30000) (Some 50000) None None None None None None;
  Push 0 10 15 0 50000 60000 10000;
  Push 2 10 15 0 50000 30000 50000;
  Push 0 11 15 10000 50000 30000 20000;
  Push 2 11 15 10000 50000 80000 10000;
  MoveIBS;
  ExpH 10 15 None (Some 60000) (Some 70000) (Some 30000) (Some 50000);
  ExpT 10 16 30000;
  ExpRecH 1%nat 20000;
  ExpRecs 4%nat;
  Reset [(10, 16)] [(0, 10, 15); (2, 10, 15); (0, 11, 15); (2, 11, 15); (0, 12, 15)] [(0, 10, 15); (2, 10, 15); (0, 11, 15); (2, 11, 15)]].

Definition IC_MIBS_194 : list cmd := [
  Seed seed1234;
  SetH 10 15 None (Some 50000) (Some 60000) (Some 60000) (Some 70000) (Some 0) (Some 30000) (Some 30000) (Some 80000);
  SetH 11 15 None (Some 0) (Some 10000) (Some 10000) (Some 70000) (Some 70000) (Some 80000) (Some 80000) (Some 90000);
  SetH 12 15 (Some 10000) None None None None (Some 20000) (Some 40000) None None;
  Push 0 10 15 0 50000 60000 10000;
  Push 2 10 15 0 50000 30000 50000;
  Push 0 11 15 10000 50000 10000 60000;
  Push 2 11 15 10000 50000 80000 10000;
  MoveIBS;
  ExpH 10 15 None (Some 60000) (Some 70000) (Some 30000) (Some 50000);
  ExpT 12 15 40000;
  ExpRecH 1%nat 20000;
  ExpRecs 4%nat;
  Reset [(12, 15)] [(0, 10, 15); (2, 10, 15); (0, 11, 15); (2, 11, 15); (2, 12, 15)] [(0, 10, 15); (2, 10, 15); (0, 11, 15); (2, 11, 15)]].

Definition IC_MIBS_195 : list cmd := [
  Seed seed1234;
  SetH 10 15 None (Some 50000) (Some 60000) (Some 60000) (Some 70000) (Some 0) (Some 30000) (Some 30000) (Some 80000);
  SetH 11 15 None (Some 0) (Some 30000) (Some 30000) (Some 50000) (Some 50000) (Some 80000) (Some 80000) (Some 90000);
  SetH 12 15 None None None None None (Some 0) (Some 30000) None None;
  Push 0 10 15 0 50000 60000 10000;
  Push 2 10 15 0 50000 30000 50000;
  Push 0 11 15 10000 50000 30000 20000;
  Push 2 11 15 10000 50000 80000 10000;
  MoveIBS;
  ExpH 10 15 None (Some 60000) (Some 70000) (Some 30000) (Some 50000);
  ExpH 12 15 None None None (Some 30000) (Some 60000);
  ExpRecH 1%nat 20000;
  ExpRec 4%nat 2 12 15 20000 50000 30000 30000;
  ExpRecs 5%nat;
  Reset [] [(0, 10, 15); (2, 10, 15); (0, 11, 15); (2, 11, 15); (2, 12, 15)] [(0, 10, 15); (2, 10, 15); (0, 11, 15); (2, 11, 15); (2, 12, 15)]].

Definition IC_MIBS_196 : list cmd := [
  Seed seed1234;
  SetH 10 15 None (Some 50000) (Some 60000) (Some 60000) (Some 70000) (Some 0) (Some 30000) (Some 30000) (Some 80000);
  SetH 11 15 None (Some 0) (Some 30000) (Some 30000) (Some 50000) (Some 50000) (Some 80000) (Some 80000) (Some 90000);
  SetH 12 15 None None None None None (Some 0) (Some 30000) (Some 30000) (Some 40000);
  Push 0 10 15 0 50000 60000 10000;
  Push 2 10 15 0 50000 30000 50000;
  Push 0 11 15 10000 50000 30000 20000;
  Push 2 11 15 10000 50000 80000 10000;
  Push 2 12 15 20000 50000 30000 10000;
  MoveIBS;
  ExpH 10 15 None (Some 60000) (Some 70000) (Some 30000) (Some 50000);
  ExpH 12 15 None None None (Some 30000) (Some 70000);
  ExpRecH 1%nat 20000;
  ExpRec 5%nat 2 12 15 20000 50000 30000 30000;
  ExpRecs 6%nat;
  Reset [] [(0, 10, 15); (2, 10, 15); (0, 11, 15); (2, 11, 15); (2, 12, 15)] [(0, 10, 15); (2, 10, 15); (0, 11, 15); (2, 11, 15); (2, 12, 15)]].

Definition IC_MIBS_197 : list cmd := [
  Seed seed1234;
  SetH 10 15 None (Some 50000) (Some 60000) (Some 60000) (Some 70000) (Some 0) (Some 30000) (Some 30000) (Some 80000);
  SetH 11 15 None (Some 0) (Some 30000) (Some 30000) (Some 50000) (Some 50000) (Some 80000) (Some 80000) (Some 90000);
  SetH 12 15 None None None None None (Some 30000) (Some 50000) None None;
  Push 0 10 15 0 50000 60000 10000;
  Push 2 10 15 0 50000 30000 50000;
  Push 0 11 15 10000 50000 30000 20000;
  Push 2 11 15 10000 50000 80000 10000;
  MoveIBS;
  ExpH 10 15 None (Some 60000) (Some 70000) (Some 30000) (Some 50000);
  ExpT 10 16 30000;
  ExpRecH 1%nat 20000;
  ExpRecs 4%nat;
  Reset [(10, 16)] [(0, 10, 15); (2, 10, 15); (0, 11, 15); (2, 11, 15); (2, 12, 15)] [(0, 10, 15); (2, 10, 15); (0, 11, 15); (2, 11, 15)]].

Definition IC_MIBS_198 : list cmd := [
  Seed seed1234;
  SetH 10 15 None (Some 50000) (Some 60000) (Some 60000) (Some 70000) (Some 0) (Some 30000) (Some 30000) (Some 80000);
  SetH 11 15 None (Some 0) (Some 10000) (Some 10000) (Some 70000) (Some 70000) (Some 80000) (Some 80000) (Some 90000);
  SetH 12 15 None (Some 10000) (Some 40000) None None (Some 70000) (Some 90000) None None;
  Push 0 10 15 0 50000 60000 10000;
  Push 2 10 15 0 50000 30000 50000;
  Push 0 11 15 10000 50000 10000 60000;
  Push 2 11 15 10000 50000 80000 10000;
  MoveIBS;
  ExpH 10 15 None (Some 60000) (Some 70000) (Some 30000) (Some 50000);
  ExpH 12 15 None (Some 40000) (Some 70000) None None;
  ExpRecH 1%nat 20000;
  ExpRec 4%nat 0 12 15 20000 50000 40000 30000;
  ExpRecs 5%nat;
  Reset [] [(0, 10, 15); (2, 10, 15); (0, 11, 15); (2, 11, 15); (0, 12, 15); (2, 12, 15)] [(0, 10, 15); (2, 10, 15); (0, 11, 15); (2, 11, 15); (0, 12, 15)]].

Definition IC_MIBS_199 : list cmd := [
  Seed seed1234;
  SetH 10 15 None (Some 50000) (Some 60000) (Some 60000) (Some 70000) (Some 0) (Some 30000) (Some 30000) (Some 80000);
  SetH 11 15 None (Some 0) (Some 10000) (Some 10000) (Some 70000) (Some 70000) (Some 80000) (Some 80000) (Some 90000);
  SetH 12 15 None (Some 10000) (Some 40000) None None (Some 50000) (Some 90000) None None;
  Push 0 10 15 0 50000 60000 10000;
  Push 2 10 15 0 50000 30000 50000;
  Push 0 11 15 10000 50000 10000 60000;
  Push 2 11 15 10000 50000 80000 10000;
  MoveIBS;
  ExpH 10 15 None (Some 60000) (Some 70000) (Some 30000) (Some 50000);
  ExpH 12 15 None (Some 40000) (Some 50000) None None;
  ExpT 13 15 20000;
  ExpRecH 1%nat 20000;
  ExpRec 4%nat 0 12 15 20000 50000 40000 10000;
  ExpRecs 5%nat;
  Reset [(13, 15)] [(0, 10, 15); (2, 10, 15); (0, 11, 15); (2, 11, 15); (0, 12, 15); (2, 12, 15)] [(0, 10, 15); (2, 10, 15); (0, 11, 15); (2, 11, 15); (0, 12, 15)]].

Definition IC_MIBS_200 : list cmd := [
  Seed seed1234;
  SetH 10 15 None (Some 50000) (Some 60000) (Some 60000) (Some 70000) (Some 0) (Some 30000) (Some 30000) (Some 80000);
  SetH 11 15 None (Some 0) (Some 10000) (Some 10000) (Some 70000) (Some 70000) (Some 80000) (Some 80000) (Some 90000);
  SetH 12 15 None (Some 10000) (Some 20000) (Some 20000) (Some 30000) (Some 70000) (Some 90000) (Some 90000) (Some 130000);
  Push 0 10 15 0 50000 60000 10000;
  Push 2 10 15 0 50000 30000 50000;
  Push 0 11 15 10000 50000 10000 60000;
  Push 2 11 15 10000 50000 80000 10000;
  Push 0 12 15 20000 50000 20000 10000;
  Push 2 12 15 20000 50000 90000 40000;
  MoveIBS;
  ExpH 10 15 None (Some 60000) (Some 70000) (Some 30000) (Some 50000);
  ExpH 12 15 None (Some 20000) (Some 60000) (Some 90000) (Some 130000);
  ExpRecH 1%nat 20000;
  ExpRec 6%nat 0 12 15 20000 50000 20000 30000;
  ExpRecs 7%nat;
  Reset [] [(0, 10, 15); (2, 10, 15); (0, 11, 15); (2, 11, 15); (0, 12, 15); (2, 12, 15)] [(0, 10, 15); (2, 10, 15); (0, 11, 15); (2, 11, 15); (0, 12, 15); (2, 12, 15)]].

Definition IC_MIBS_201 : list cmd := [
  Seed seed1234;
  SetH 10 15 None (Some 50000) (Some 60000) (Some 60000) (Some 70000) (Some 0) (Some 30000) (Some 30000) (Some 80000);
  SetH 11 15 None (Some 0) (Some 10000) (Some 10000) (Some 70000) (Some 70000) (Some 80000) (Some 80000) (Some 90000);
  SetH 12 15 None (Some 10000) (Some 20000) (Some 20000) (Some 30000) (Some 40000) (Some 90000) (Some 90000) (Some 130000);
  Push 0 10 15 0 50000 60000 10000;
  Push 2 10 15 0 50000 30000 50000;
  Push 0 11 15 10000 50000 10000 60000;
  Push 2 11 15 10000 50000 80000 10000;
  Push 0 12 15 20000 50000 20000 10000;
  Push 2 12 15 20000 50000 90000 40000;
  MoveIBS;
  ExpH 10 15 None (Some 60000) (Some 70000) (Some 30000) (Some 50000);
  ExpH 12 15 None (Some 20000) (Some 40000) (Some 90000) (Some 130000);
  ExpT 13 15 20000;
  ExpRecH 1%nat 20000;
  ExpRec 6%nat 0 12 15 20000 50000 20000 10000;
  ExpRecs 7%nat;
  Reset [(13, 15)] [(0, 10, 15); (2, 10, 15); (0, 11, 15); (2, 11, 15); (0, 12, 15); (2, 12, 15)] [(0, 10, 15); (2, 10, 15); (0, 11, 15); (2, 11, 15); (0, 12, 15); (2, 12, 15)]].

Definition IC_MIBS_202 : list cmd := [
  Seed seed1234;
  SetH 10 15 None (Some 50000) (Some 60000) (Some 60000) (Some 70000) (Some 0) (Some 30000) (Some 30000) (Some 80000);
  SetH 11 15 None (Some 0) (Some 10000) (Some 10000) (Some 70000) (Some 70000) (Some 80000) (Some 80000) (Some 90000);
  SetH 12 15 None (Some 10000) (Some 20000) (Some 20000) (Some 40000) (Some 40000) (Some 90000) (Some 90000) (Some 130000);
  Push 0 10 15 0 50000 60000 10000;
  Push 2 10 15 0 50000 30000 50000;
  Push 0 11 15 10000 50000 10000 60000;
  Push 2 11 15 10000 50000 80000 10000;
  Push 0 12 15 20000 50000 20000 20000;
  Push 2 12 15 20000 50000 90000 40000;
  MoveIBS;
  ExpH 10 15 None (Some 60000) (Some 70000) (Some 30000) (Some 50000);
  ExpT 13 15 30000;
  ExpRecH 1%nat 20000;
  ExpRecs 6%nat;
  Reset [(13, 15)] [(0, 10, 15); (2, 10, 15); (0, 11, 15); (2, 11, 15); (0, 12, 15); (2, 12, 15)] [(0, 10, 15); (2, 10, 15); (0, 11, 15); (2, 11, 15); (0, 12, 15); (2, 12, 15)]].

Definition IC_MIBS_203 : list cmd := [
  Seed seed1234;
  SetH 10 15 None (Some 50000) (Some 60000) (Some 60000) (Some 70000) (Some 0) (Some 30000) (Some 30000) (Some 80000);
  SetH 11 15 None (Some 0) (Some 10000) (Some 10000) (Some 70000) (Some 70000) (Some 80000) (Some 80000) (Some 90000);
  SetH 12 15 None (Some 70000) (Some 90000) None None (Some 10000) (Some 40000) None None;
  Push 0 10 15 0 50000 60000 10000;
  Push 2 10 15 0 50000 30000 50000;
  Push 0 11 15 10000 50000 10000 60000;
  Push 2 11 15 10000 50000 80000 10000;
  MoveIBS;
  ExpH 10 15 None (Some 60000) (Some 70000) (Some 30000) (Some 50000);
  ExpH 12 15 None None None (Some 40000) (Some 70000);
  ExpRecH 1%nat 20000;
  ExpRec 4%nat 2 12 15 20000 50000 40000 30000;
  ExpRecs 5%nat;
  Reset [] [(0, 10, 15); (2, 10, 15); (0, 11, 15); (2, 11, 15); (0, 12, 15); (2, 12, 15)] [(0, 10, 15); (2, 10, 15); (0, 11, 15); (2, 11, 15); (2, 12, 15)]].

Definition IC_MIBS_204 : list cmd := [
  Seed seed1234;
  SetH 10 15 None (Some 50000) (Some 60000) (Some 60000) (Some 70000) (Some 0) (Some 30000) (Some 30000) (Some 80000);
  SetH 11 15 None (Some 0) (Some 10000) (Some 10000) (Some 70000) (Some 70000) (Some 80000) (Some 80000) (Some 90000);
  SetH 12 15 None (Some 50000) (Some 90000) None None (Some 10000) (Some 40000) None None;
  Push 0 10 15 0 50000 60000 10000;
  Push 2 10 15 0 50000 30000 50000;
  Push 0 11 15 10000 50000 10000 60000;
  Push 2 11 15 10000 50000 80000 10000;
  MoveIBS;
  ExpH 10 15 None (Some 60000) (Some 70000) (Some 30000) (Some 50000);
  ExpH 12 15 None None None (Some 40000) (Some 50000);
  ExpT 13 15 20000;
  ExpRecH 1%nat 20000;
  ExpRec 4%nat 2 12 15 20000 50000 40000 10000;
  ExpRecs 5%nat;
  Reset [(13, 15)] [(0, 10, 15); (2, 10, 15); (0, 11, 15); (2, 11, 15); (0, 12, 15); (2, 12, 15)] [(0, 10, 15); (2, 10, 15); (0, 11, 15); (2, 11, 15); (2, 12, 15)]].

Definition IC_MIBS_205 : list cmd := [
  Seed seed1234;
  SetH 10 15 None (Some 50000) (Some 60000) (Some 60000) (Some 70000) (Some 0) (Some 30000) (Some 30000) (Some 80000);
  SetH 11 15 None (Some 0) (Some 10000) (Some 10000) (Some 70000) (Some 70000) (Some 80000) (Some 80000) (Some 90000);
  SetH 12 15 None (Some 70000) (Some 90000) (Some 90000) (Some 130000) (Some 10000) (Some 20000) (Some 20000) (Some 30000);
  Push 0 10 15 0 50000 60000 10000;
  Push 2 10 15 0 50000 30000 50000;
  Push 0 11 15 10000 50000 10000 60000;
  Push 2 11 15 10000 50000 80000 10000;
  Push 0 12 15 20000 50000 90000 40000;
  Push 2 12 15 20000 50000 20000 10000;
  MoveIBS;
  ExpH 10 15 None (Some 60000) (Some 70000) (Some 30000) (Some 50000);
  ExpH 12 15 None (Some 90000) (Some 130000) (Some 20000) (Some 60000);
  ExpRecH 1%nat 20000;
  ExpRec 6%nat 2 12 15 20000 50000 20000 30000;
  ExpRecs 7%nat;
  Reset [] [(0, 10, 15); (2, 10, 15); (0, 11, 15); (2, 11, 15); (0, 12, 15); (2, 12, 15)] [(0, 10, 15); (2, 10, 15); (0, 11, 15); (2, 11, 15); (0, 12, 15); (2, 12, 15)]].

Definition IC_MIBS_206 : list cmd := [
  Seed seed1234;
  SetH 10 15 None (Some 50000) (Some 60000) (Some 60000) (Some 70000) (Some 0) (Some 30000) (Some 30000) (Some 80000);
  SetH 11 15 None (Some 0) (Some 10000) (Some 10000) (Some 70000) (Some 70000) (Some 80000) (Some 80000) (Some 90000);
  SetH 12 15 None (Some 40000) (Some 90000) (Some 90000) (Some 130000) (Some 10000) (Some 20000) (Some 20000) (Some 30000);
  Push 0 10 15 0 50000 60000 10000;
  Push 2 10 15 0 50000 30000 50000;
  Push 0 11 15 10000 50000 10000 60000;
  Push 2 11 15 10000 50000 80000 10000;
  Push 0 12 15 20000 50000 90000 40000;
  Push 2 12 15 20000 50000 20000 10000;
  MoveIBS;
  ExpH 10 15 None (Some 60000) (Some 70000) (Some 30000) (Some 50000);
  ExpH 12 15 None (Some 90000) (Some 130000) (Some 20000) (Some 40000);
  ExpT 13 15 20000;
  ExpRecH 1%nat 20000;
  ExpRec 6%nat 2 12 15 20000 50000 20000 10000;
  ExpRecs 7%nat;
  Reset [(13, 15)] [(0, 10, 15); (2, 10, 15); (0, 11, 15); (2, 11, 15); (0, 12, 15); (2, 12, 15)] [(0, 10, 15); (2, 10, 15); (0, 11, 15); (2, 11, 15); (0, 12, 15); (2, 12, 15)]].

Definition IC_MIBS_207 : list cmd := [
  Seed seed1234;
  SetH 10 15 None (Some 50000) (Some 60000) (Some 60000) (Some 70000) (Some 0) (Some 30000) (Some 30000) (Some 80000);
  SetH 11 15 None (Some 0) (Some 10000) (Some 10000) (Some 70000) (Some 70000) (Some 80000) (Some 80000) (Some 90000);
  SetH 12 15 None (Some 40000) (Some 90000) (Some 90000) (Some 130000) (Some 10000) (Some 20000) (Some 20000) (Some 40000);
  Push 0 10 15 0 50000 60000 10000;
  Push 2 10 15 0 50000 30000 50000;
  Push 0 11 15 10000 50000 10000 60000;
  Push 2 11 15 10000 50000 80000 10000;
  Push 0 12 15 20000 50000 90000 40000;
  Push 2 12 15 20000 50000 20000 20000;
  MoveIBS;
  ExpH 10 15 None (Some 60000) (Some 70000) (Some 30000) (Some 50000);
  ExpT 13 15 30000;
  ExpRecH 1%nat 20000;
  ExpRecs 6%nat;
  Reset [(13, 15)] [(0, 10, 15); (2, 10, 15); (0, 11, 15); (2, 11, 15); (0, 12, 15); (2, 12, 15)] [(0, 10, 15); (2, 10, 15); (0, 11, 15); (2, 11, 15); (0, 12, 15); (2, 12, 15)]].

Definition IC_MIBS_208 : list cmd := [
  Seed seed1234;
  SetH 10 15 None (Some 50000) (Some 60000) (Some 60000) (Some 70000) (Some 0) (Some 30000) (Some 30000) (Some 80000);
  SetH 11 15 None (Some 50000) (Some 70000) None None (Some 0) (Some 20000) None None;
  Push 0 10 15 0 50000 60000 10000;
  Push 2 10 15 0 50000 30000 50000;
  MoveIBS;
  ExpH 10 15 None (Some 60000) (Some 70000) (Some 30000) (Some 50000);
  ExpH 11 15 None None None (Some 20000) (Some 50000);
  ExpRecH 1%nat 20000;
  ExpRec 2%nat 2 11 15 10000 50000 20000 30000;
  ExpRecs 3%nat;
  Reset [] [(0, 10, 15); (2, 10, 15); (0, 11, 15); (2, 11, 15)] [(0, 10, 15); (2, 10, 15); (2, 11, 15)]].

Definition IC_MIBS_209 : list cmd := [
  Seed seed1234;
  SetH 10 15 None (Some 50000) (Some 60000) (Some 60000) (Some 70000) (Some 0) (Some 30000) (Some 30000) (Some 80000);
  SetH 11 15 None (Some 40000) (Some 70000) None None (Some 0) (Some 20000) None None;
  Push 0 10 15 0 50000 60000 10000;
  Push 2 10 15 0 50000 30000 50000;
  MoveIBS;
  ExpH 10 15 None (Some 60000) (Some 70000) (Some 30000) (Some 50000);
  ExpH 11 15 None None None (Some 20000) (Some 40000);
  ExpT 12 15 10000;
  ExpRecH 1%nat 20000;
  ExpRec 2%nat 2 11 15 10000 50000 20000 20000;
  ExpRecs 3%nat;
  Reset [(12, 15)] [(0, 10, 15); (2, 10, 15); (0, 11, 15); (2, 11, 15)] [(0, 10, 15); (2, 10, 15); (2, 11, 15)]].

Definition IC_MIBS_210 : list cmd := [
  Seed seed1234;
  SetH 10 15 None (Some 50000) (Some 60000) (Some 60000) (Some 70000) (Some 0) (Some 30000) (Some 30000) (Some 80000);
  SetH 11 15 None (Some 30000) (Some 70000) None None (Some 0) (Some 20000) None None;
  SetH 12 15 (Some 20000) (Some 30000) (Some 40000) None None None None None None;
  Push 0 10 15 0 50000 60000 10000;
  Push 2 10 15 0 50000 30000 50000;
  MoveIBS;
  ExpH 10 15 None (Some 60000) (Some 70000) (Some 30000) (Some 50000);
  ExpH 11 15 None None None (Some 20000) (Some 30000);
  ExpT 12 15 40000;
  ExpRecH 1%nat 20000;
  ExpRec 2%nat 2 11 15 10000 50000 20000 10000;
  ExpRecs 3%nat;
  Reset [(12, 15)] [(0, 10, 15); (2, 10, 15); (0, 11, 15); (2, 11, 15); (0, 12, 15)] [(0, 10, 15); (2, 10, 15); (2, 11, 15)]].

Definition IC_MIBS_211 : list cmd := [
  Seed seed1234;
  SetH 10 15 None (Some 50000) (Some 60000) (Some 60000) (Some 70000) (Some 0) (Some 30000) (Some 30000) (Some 80000);
  SetH 11 15 None (Some 30000) (Some 70000) None None (Some 0) (Some 20000) None None;
  SetH 12 15 None (Some 0) (Some 20000) None None None None None None;
  Push 0 10 15 0 50000 60000 10000;
  Push 2 10 15 0 50000 30000 50000;
  MoveIBS;
  ExpH 10 15 None (Some 60000) (Some 70000) (Some 30000) (Some 50000);
  ExpH 11 15 None None None (Some 20000) (Some 30000);
  ExpH 12 15 None (Some 20000) (Some 40000) None None;
  ExpRecH 1%nat 20000;
  ExpRec 2%nat 2 11 15 10000 50000 20000 10000;
  ExpRec 3%nat 0 12 15 20000 50000 20000 20000;
  ExpRecs 4%nat;
  Reset [] [(0, 10, 15); (2, 10, 15); (0, 11, 15); (2, 11, 15); (0, 12, 15)] [(0, 10, 15); (2, 10, 15); (2, 11, 15); (0, 12, 15)]].

Definition IC_MIBS_212 : list cmd := [
  Seed seed1234;
  SetH 10 15 None (Some 50000) (Some 60000) (Some 60000) (Some 70000) (Some 0) (Some 30000) (Some 30000) (Some 80000);
  SetH 11 15 None (Some 30000) (Some 70000) None None (Some 0) (Some 20000) None None;
  SetH 12 15 None (Some 0) (Some 20000) (Some 20000) (Some 40000) None None None None;
  Push 0 10 15 0 50000 60000 10000;
  Push 2 10 15 0 50000 30000 50000;
  Push 0 12 15 20000 50000 20000 20000;
  MoveIBS;
  ExpH 10 15 None (Some 60000) (Some 70000) (Some 30000) (Some 50000);
  ExpH 11 15 None None None (Some 20000) (Some 30000);
  ExpH 12 15 None (Some 20000) (Some 60000) None None;
  ExpRecH 1%nat 20000;
  ExpRec 3%nat 2 11 15 10000 50000 20000 10000;
  ExpRec 4%nat 0 12 15 20000 50000 20000 20000;
  ExpRecs 5%nat;
  Reset [] [(0, 10, 15); (2, 10, 15); (0, 11, 15); (2, 11, 15); (0, 12, 15)] [(0, 10, 15); (2, 10, 15); (2, 11, 15); (0, 12, 15)]].

Definition IC_MIBS_213 : list cmd := [
  Seed seed1234;
  SetH 10 15 None (Some 50000) (Some 60000) (Some 60000) (Some 70000) (Some 0) (Some 30000) (Some 30000) (Some 80000);
  SetH 11 15 None (Some 30000) (Some 70000) None None (Some 0) (Some 20000) None None;
  SetH 12 15 None (Some 20000) (Some 30000) None None None None None None;
  Push 0 10 15 0 50000 60000 10000;
  Push 2 10 15 0 50000 30000 50000;
  MoveIBS;
  ExpH 10 15 None (Some 60000) (Some 70000) (Some 30000) (Some 50000);
  ExpH 11 15 None None None (Some 20000) (Some 30000);
  ExpT 10 16 20000;
  ExpRecH 1%nat 20000;
  ExpRec 2%nat 2 11 15 10000 50000 20000 10000;
  ExpRecs 3%nat;
  Reset [(10, 16)] [(0, 10, 15); (2, 10, 15); (0, 11, 15); (2, 11, 15); (0, 12, 15)] [(0, 10, 15); (2, 10, 15); (2, 11, 15)]].

Definition IC_MIBS_214 : list cmd := [
  Seed seed1234;
  SetH 10 15 None (Some 50000) (Some 60000) (Some 60000) (Some 70000) (Some 0) (Some 30000) (Some 30000) (Some 80000);
  SetH 11 15 None (Some 30000) (Some 70000) None None (Some 0) (Some 20000) None None;
  SetH 12 15 (Some 20000) None None None None (Some 30000) (Some 40000) None None;
  Push 0 10 15 0 50000 60000 10000;
  Push 2 10 15 0 50000 30000 50000;
  MoveIBS;
  ExpH 10 15 None (Some 60000) (Some 70000) (Some 30000) (Some 50000);
  ExpH 11 15 None None None (Some 20000) (Some 30000);
  ExpT 12 15 40000;
  ExpRecH 1%nat 20000;
  ExpRec 2%nat 2 11 15 10000 50000 20000 10000;
  ExpRecs 3%nat;
  Reset [(12, 15)] [(0, 10, 15); (2, 10, 15); (0, 11, 15); (2, 11, 15); (2, 12, 15)] [(0, 10, 15); (2, 10, 15); (2, 11, 15)]].

Definition IC_MIBS_215 : list cmd := [
  Seed seed1234;
  SetH 10 15 None (Some 50000) (Some 60000) (Some 60000) (Some 70000) (Some 0) (Some 30000) (Some 30000) (Some 80000);
  SetH 11 15 None (Some 30000) (Some 70000) None None (Some 0) (Some 20000) None None;
  SetH 12 15 None None None None None (Some 0) (Some 20000) None None;
  Push 0 10 15 0 50000 60000 10000;
  Push 2 10 15 0 50000 30000 50000;
  MoveIBS;
  ExpH 10 15 None (Some 60000) (Some 70000) (Some 30000) (Some 50000);
  ExpH 11 15 None None None (Some 20000) (Some 30000);
  ExpH 12 15 None None None (Some 20000) (Some 40000);
  ExpRecH 1%nat 20000;
  ExpRec 2%nat 2 11 15 10000 50000 20000 10000;
  ExpRec 3%nat 2 12 15 20000 50000 20000 20000;
  ExpRecs 4%nat;
  Reset [] [(0, 10, 15); (2, 10, 15); (0, 11, 15); (2, 11, 15); (2, 12, 15)] [(0, 10, 15); (2, 10, 15); (2, 11, 15); (2, 12, 15)]].

Definition IC_MIBS_216 : list cmd := [
  Seed seed1234;
  SetH 10 15 None (Some 50000) (Some 60000) (Some 60000) (Some 70000) (Some 0) (Some 30000) (Some 30000) (Some 80000);
  SetH 11 15 None (Some 60000) (Some 80000) None None (Some 0) (Some 40000) None None;
  SetH 12 15 None None None None None (Some 0) (Some 10000) (Some 10000) (Some 20000);
  Push 0 10 15 0 50000 60000 10000;
  Push 2 10 15 0 50000 30000 50000;
  Push 2 12 15 20000 50000 10000 10000;
  MoveIBS;
  ExpH 10 15 None (Some 60000) (Some 70000) (Some 30000) (Some 50000);
  ExpH 11 15 None None None (Some 40000) (Some 60000);
  ExpH 12 15 None None None (Some 10000) (Some 30000);
  ExpRecH 1%nat 20000;
  ExpRec 3%nat 2 11 15 10000 50000 40000 20000;
  ExpRec 4%nat 2 12 15 20000 50000 10000 10000;
  ExpRecs 5%nat;
  Reset [] [(0, 10, 15); (2, 10, 15); (0, 11, 15); (2, 11, 15); (2, 12, 15)] [(0, 10, 15); (2, 10, 15); (2, 11, 15); (2, 12, 15)]].

Definition IC_MIBS_217 : list cmd := [
  Seed seed1234;
  SetH 10 15 None (Some 50000) (Some 60000) (Some 60000) (Some 70000) (Some 0) (Some 30000) (Some 30000) (Some 80000);
  SetH 11 15 None (Some 30000) (Some 70000) None None (Some 0) (Some 20000) None None;
  SetH 12 15 None None None None None (Some 20000) (Some 30000) None None;
  Push 0 10 15 0 50000 60000 10000;
  Push 2 10 15 0 50000 30000 50000;
  MoveIBS;
  ExpH 10 15 None (Some 60000) (Some 70000) (Some 30000) (Some 50000);
  ExpH 11 15 None None None (Some 20000) (Some 30000);
  ExpT 10 16 20000;
  ExpRecH 1%nat 20000;
  ExpRec 2%nat 2 11 15 10000 50000 20000 10000;
  ExpRecs 3%nat;
  Reset [(10, 16)] [(0, 10, 15); (2, 10, 15); (0, 11, 15); (2, 11, 15); (2, 12, 15)] [(0, 10, 15); (2, 10, 15); (2, 11, 15)]].

Definition IC_MIBS_218 : list cmd := [
  Seed seed1234;
  SetH 10 15 None (Some 50000) (Some 60000) (Some 60000) (Some 70000) (Some 0) (Some 30000) (Some 30000) (Some 80000);
  SetH 11 15 None (Some 30000) (Some 70000) None None (Some 0) (Some 20000) None None;
  SetH 12 15 None (Some 0) (Some 20000) None None (Some 70000) (Some 80000) None None;
  Push 0 10 15 0 50000 60000 10000;
  Push 2 10 15 0 50000 30000 50000;
  MoveIBS;
  ExpH 10 15 None (Some 60000) (Some 70000) (Some 30000) (Some 50000);
  ExpH 11 15 None None None (Some 20000) (Some 30000);
  ExpH 12 15 None (Some 20000) (Some 40000) None None;
  ExpRecH 1%nat 20000;
  ExpRec 2%nat 2 11 15 10000 50000 20000 10000;
  ExpRec 3%nat 0 12 15 20000 50000 20000 20000;
  ExpRecs 4%nat;
  Reset [] [(0, 10, 15); (2, 10, 15); (0, 11, 15); (2, 11, 15); (0, 12, 15); (2, 12, 15)] [(0, 10, 15); (2, 10, 15); (2, 11, 15); (0, 12, 15)]].

Definition IC_MIBS_219 : list cmd := [
  Seed seed1234;
  SetH 10 15 None (Some 50000) (Some 60000) (Some 60000) (Some 70000) (Some 0) (Some 30000) (Some 30000) (Some 80000);
  SetH 11 15 None (Some 30000) (Some 70000) None None (Some 0) (Some 20000) None None;
  SetH 12 15 None (Some 0) (Some 20000) None None (Some 30000) (Some 80000) None None;
  Push 0 10 15 0 50000 60000 10000;
  Push 2 10 15 0 50000 30000 50000;
  MoveIBS;
  ExpH 10 15 None (Some 60000) (Some 70000) (Some 30000) (Some 50000);
  ExpH 11 15 None None None (Some 20000) (Some 30000);
  ExpH 12 15 None (Some 20000) (Some 30000) None None;
  ExpT 13 15 10000;
  ExpRecH 1%nat 20000;
  ExpRec 2%nat 2 11 15 10000 50000 20000 10000;
  ExpRec 3%nat 0 12 15 20000 50000 20000 10000;
  ExpRecs 4%nat;
  Reset [(13, 15)] [(0, 10, 15); (2, 10, 15); (0, 11, 15); (2, 11, 15); (0, 12, 15); (2, 12, 15)] [(0, 10, 15); (2, 10, 15); (2, 11, 15); (0, 12, 15)]].

Definition IC_MIBS_220 : list cmd := [
  Seed seed1234;
  SetH 10 15 None (Some 50000) (Some 60000) (Some 60000) (Some 70000) (Some 0) (Some 30000) (Some 30000) (Some 80000);
  SetH 11 15 None (Some 30000) (Some 70000) None None (Some 0) (Some 20000) None None;
  SetH 12 15 None (Some 0) (Some 20000) (Some 20000) (Some 30000) (Some 70000) (Some 80000) (Some 80000) (Some 90000);
  Push 0 10 15 0 50000 60000 10000;
  Push 2 10 15 0 50000 30000 50000;
  Push 0 12 15 20000 50000 20000 10000;
  Push 2 12 15 20000 50000 80000 10000;
  MoveIBS;
  ExpH 10 15 None (Some 60000) (Some 70000) (Some 30000) (Some 50000);
  ExpH 11 15 None None None (Some 20000) (Some 30000);
  ExpH 12 15 None (Some 20000) (Some 50000) (Some 80000) (Some 90000);
  ExpRecH 1%nat 20000;
  ExpRec 4%nat 2 11 15 10000 50000 20000 10000;
  ExpRec 5%nat 0 12 15 20000 50000 20000 20000;
  ExpRecs 6%nat;
  Reset [] [(0, 10, 15); (2, 10, 15); (0, 11, 15); (2, 11, 15); (0, 12, 15); (2, 12, 15)] [(0, 10, 15); (2, 10, 15); (2, 11, 15); (0, 12, 15); (2, 12, 15)]].

Definition IC_MIBS_221 : list cmd := [
  Seed seed1234;
  SetH 10 15 None (Some 50000) (Some 60000) (Some 60000) (Some 70000) (Some 0) (Some 30000) (Some 30000) (Some 80000);
  SetH 11 15 None (Some 30000) (Some 70000) None None (Some 0) (Some 20000) None None;
  SetH 12 15 None (Some 0) (Some 20000) (Some 20000) (Some 30000) (Some 40000) (Some 80000) (Some 80000) (Some 90000);
  Push 0 10 15 0 50000 60000 10000;
  Push 2 10 15 0 50000 30000 50000;
  Push 0 12 15 20000 50000 20000 10000;
  Push 2 12 15 20000 50000 80000 10000;
  MoveIBS;
  ExpH 10 15 None (Some 60000) (Some 70000) (Some 30000) (Some 50000);
  ExpH 11 15 None None None (Some 20000) (Some 30000);
  ExpH 12 15 None (Some 20000) (Some 40000) (Some 80000) (Some 90000);
  ExpT 13 15 10000;
  ExpRecH 1%nat 20000;
  ExpRec 4%nat 2 11 15 10000 50000 20000 10000;
  ExpRec 5%nat 0 12 15 20000 50000 20000 10000;
  ExpRecs 6%nat;
  Reset [(13, 15)] [(0, 10, 15); (2, 10, 15); (0, 11, 15); (2, 11, 15); (0, 12, 15); (2, 12, 15)] [(0, 10, 15); (2, 10, 15); (2, 11, 15); (0, 12, 15); (2, 12, 15)]].

Definition IC_MIBS_222 : list cmd := [
  Seed seed1234;
  SetH 10 15 None (Some 50000) (Some 60000) (Some 60000) (Some 70000) (Some 0) (Some 30000) (Some 30000) (Some 80000);
  SetH 11 15 None (Some 30000) (Some 70000) None None (Some 0) (Some 20000) None None;
  SetH 12 15 None (Some 0) (Some 20000) (Some 20000) (Some 30000) (Some 30000) (Some 80000) (Some 80000) (Some 90000);
  Push 0 10 15 0 50000 60000 10000;
  Push 2 10 15 0 50000 30000 50000;
  Push 0 12 15 20000 50000 20000 10000;
  Push 2 12 15 20000 50000 80000 10000;
  MoveIBS;
  ExpH 10 15 None (Some 60000) (Some 70000) (Some 30000) (Some 50000);
  ExpH 11 15 None None None (Some 20000) (Some 30000);
  ExpT 13 15 20000;
  ExpRecH 1%nat 20000;
  ExpRec 4%nat 2 11 15 10000 50000 20000 10000;
  ExpRecs 5%nat;
  Reset [(13, 15)] [(0, 10, 15); (2, 10, 15); (0, 11, 15); (2, 11, 15); (0, 12, 15); (2, 12, 15)] [(0, 10, 15); (2, 10, 15); (2, 11, 15); (0, 12, 15); (2, 12, 15)]].

Definition IC_MIBS_223 : list cmd := [
  Seed seed1234;
  SetH 10 15 None (Some 50000) (Some 60000) (Some 60000) (Some 70000) (Some 0) (Some 30000) (Some 30000) (Some 80000);
  SetH 11 15 None (Some 30000) (Some 70000) None None (Some 0) (Some 20000) None None;
  SetH 12 15 None (Some 70000) (Some 80000) None None (Some 0) (Some 20000) None None;
  Push 0 10 15 0 50000 60000 10000;
  Push 2 10 15 0 50000 30000 50000;
  MoveIBS;
  ExpH 10 15 None (Some 60000) (Some 70000) (Some 30000) (Some 50000);
  ExpH 11 15 None None None (Some 20000) (Some 30000);
  ExpH 12 15 None None None (Some 20000) (Some 40000);
  ExpRecH 1%nat 20000;
  ExpRec 2%nat 2 11 15 10000 50000 20000 10000;
  ExpRec 3%nat 2 12 15 20000 50000 20000 20000;
  ExpRecs 4%nat;
  Reset [] [(0, 10, 15); (2, 10, 15); (0, 11, 15); (2, 11, 15); (0, 12, 15); (2, 12, 15)] [(0, 10, 15); (2, 10, 15); (2, 11, 15); (2, 12, 15)]].

Definition IC_MIBS_224 : list cmd := [
  Seed seed1234;
  SetH 10 15 None (Some 50000) (Some 60000) (Some 60000) (Some 70000) (Some 0) (Some 30000) (Some 30000) (Some 80000);
  SetH 11 15 None (Some 30000) (Some 70000) None None (Some 0) (Some 20000) None None;
  SetH 12 15 None (Some 30000) (Some 80000) None None (Some 0) (Some 20000) None None;
  Push 0 10 15 0 50000 60000 10000;
  Push 2 10 15 0 50000 30000 50000;
  MoveIBS;
  ExpH 10 15 None (Some 60000) (Some 70000) (Some 30000) (Some 50000);
  ExpH 11 15 None None None (Some 20000) (Some 30000);
  ExpH 12 15 None None None (Some 20000) (Some 30000);
  ExpT 13 15 10000;
  ExpRecH 1%nat 20000;
  ExpRec 2%nat 2 11 15 10000 50000 20000 10000;
  ExpRec 3%nat 2 12 15 20000 50000 20000 10000;
  ExpRecs 4%nat;
  Reset [(13, 15)] [(0, 10, 15); (2, 10, 15); (0, 11, 15); (2, 11, 15); (0, 12, 15); (2, 12, 15)] [(0, 10, 15); (2, 10, 15); (2, 11, 15); (2, 12, 15)]].

Definition IC_MIBS_225 : list cmd := [
  Seed seed1234;
  SetH 10 15 None (Some 50000) (Some 60000) (Some 60000) (Some 70000) (Some 0) (Some 30000) (Some 30000) (Some 80000);
  SetH 11 15 None (Some 30000) (Some 70000) None None (Some 0) (Some 20000) None None;
  SetH 12 15 None (Some 70000) (Some 80000) (Some 80000) (Some 90000) (Some 0) (Some 20000) (Some 20000) (Some 30000);
  Push 0 10 15 0 50000 60000 10000;
  Push 2 10 15 0 50000 30000 50000;
  Push 0 12 15 20000 50000 80000 10000;
  Push 2 12 15 20000 50000 20000 10000;
  MoveIBS;
  ExpH 10 15 None (Some 60000) (Some 70000) (Some 30000) (Some 50000);
  ExpH 11 15 None None None (Some 20000) (Some 30000);
  ExpH 12 15 None (Some 80000) (Some 90000) (Some 20000) (Some 50000);
  ExpRecH 1%nat 20000;
  ExpRec 4%nat 2 11 15 10000 50000 20000 10000;
  ExpRec 5%nat 2 12 15 20000 50000 20000 20000;
  ExpRecs 6%nat;
  Reset [] [(0, 10, 15); (2, 10, 15); (0, 11, 15); (2, 11, 15); (0, 12, 15); (2, 12, 15)] [(0, 10, 15); (2, 10, 15); (2, 11, 15); (0, 12, 15); (2, 12, 15)]].

Definition IC_MIBS_226 : list cmd := [
  Seed seed1234;
  SetH 10 15 None (Some 50000) (Some 60000) (Some 60000) (Some 70000) (Some 0) (Some 30000) (Some 30000) (Some 80000);
  SetH 11 15 None (Some 30000) (Some 70000) None None (Some 0) (Some 20000) None None;
  SetH 12 15 None (Some 40000) (Some 80000) (Some 80000) (Some 90000) (Some 0) (Some 20000) (Some 20000) (Some 30000);
  Push 0 10 15 0 50000 60000 10000;
  Push 2 10 15 0 50000 30000 50000;
  Push 0 12 15 20000 50000 80000 10000;
  Push 2 12 15 20000 50000 20000 10000;
  MoveIBS;
  ExpH 10 15 None (Some 60000) (Some 70000) (Some 30000) (Some 50000);
  ExpH 11 15 None None None (Some 20000) (Some 30000);
  ExpH 12 15 None (Some 80000) (Some 90000) (Some 20000) (Some 40000);
  ExpT 13 15 10000;
  ExpRecH 1%nat 20000;
  ExpRec 4%nat 2 11 15 10000 50000 20000 10000;
  ExpRec 5%nat 2 12 15 20000 50000 20000 10000;
  ExpRecs 6%nat;
  Reset [(13, 15)] [(0, 10, 15); (2, 10, 15); (0, 11, 15); (2, 11, 15); (0, 12, 15); (2, 12, 15)] [(0, 10, 15); (2, 10, 15); (2, 11, 15); (0, 12, 15); (2, 12, 15)]].

Definition IC_MIBS_227 : list cmd := [
  Seed seed1234;
  SetH 10 15 None (Some 50000) (Some 60000) (Some 60000) (Some 70000) (Some 0) (Some 30000) (Some 30000) (Some 80000);
  SetH 11 15 None (Some 30000) (Some 70000) None None (Some 0) (Some 20000) None None;
  SetH 12 15 None (Some 30000) (Some 80000) (Some 80000) (Some 90000) (Some 0) (Some 20000) (Some 20000) (Some 30000);
  Push 0 10 15 0 50000 60000 10000;
  Push 2 10 15 0 50000 30000 50000;
  Push 0 12 15 20000 50000 80000 10000;
  Push 2 12 15 20000 50000 20000 10000;
  MoveIBS;
  ExpH 10 15 None (Some 60000) (Some 70000) (Some 30000) (Some 50000);
  ExpH 11 15 None None None (Some 20000) (Some 30000);
  ExpT 13 15 20000;
  ExpRecH 1%nat 20000;
  ExpRec 4%nat 2 11 15 10000 50000 20000 10000;
  ExpRecs 5%nat;
  Reset [(13, 15)] [(0, 10, 15); (2, 10, 15); (0, 11, 15); (2, 11, 15); (0, 12, 15); (2, 12, 15)] [(0, 10, 15); (2, 10, 15); (2, 11, 15); (0, 12, 15); (2, 12, 15)]].

Definition IC_MIBS_228 : list cmd := [
  Seed seed1234;
  SetH 10 15 None (Some 50000) (Some 60000) (Some 60000) (Some 70000) (Some 0) (Some 30000) (Some 30000) (Some 80000);
  SetH 11 15 None (Some 50000) (Some 70000) (Some 70000) (Some 90000) (Some 0) (Some 10000) (Some 10000) (Some 20000);
  Push 0 10 15 0 50000 60000 10000;
  Push 2 10 15 0 50000 30000 50000;
  Push 0 11 15 10000 50000 70000 20000;
  Push 2 11 15 10000 50000 10000 10000;
  MoveIBS;
  ExpH 10 15 None (Some 60000) (Some 70000) (Some 30000) (Some 50000);
  ExpH 11 15 None (Some 70000) (Some 90000) (Some 10000) (Some 50000);
  ExpRecH 1%nat 20000;
  ExpRec 4%nat 2 11 15 10000 50000 10000 30000;
  ExpRecs 5%nat;
  Reset [] [(0, 10, 15); (2, 10, 15); (0, 11, 15); (2, 11, 15)] [(0, 10, 15); (2, 10, 15); (0, 11, 15); (2, 11, 15)]].

Definition IC_MIBS_229 : list cmd := [
  Seed seed1234;
  SetH 10 15 None (Some 50000) (Some 60000) (Some 60000) (Some 70000) (Some 0) (Some 30000) (Some 30000) (Some 80000);
  SetH 11 15 None (Some 40000) (Some 70000) (Some 70000) (Some 90000) (Some 0) (Some 10000) (Some 10000) (Some 20000);
  Push 0 10 15 0 50000 60000 10000;
  Push 2 10 15 0 50000 30000 50000;
  Push 0 11 15 10000 50000 70000 20000;
  Push 2 11 15 10000 50000 10000 10000;
  MoveIBS;
  ExpH 10 15 None (Some 60000) (Some 70000) (Some 30000) (Some 50000);
  ExpH 11 15 None (Some 70000) (Some 90000) (Some 10000) (Some 40000);
  ExpT 12 15 10000;
  ExpRecH 1%nat 20000;
  ExpRec 4%nat 2 11 15 10000 50000 10000 20000;
  ExpRecs 5%nat;
  Reset [(12, 15)] [(0, 10, 15); (2, 10, 15); (0, 11, 15); (2, 11, 15)] [(0, 10, 15); (2, 10, 15); (0, 11, 15); (2, 11, 15)]].

Definition IC_MIBS_230 : list cmd := [
  Seed seed1234;
  SetH 10 15 None (Some 50000) (Some 60000) (Some 60000) (Some 70000) (Some 0) (Some 30000) (Some 30000) (Some 80000);
  SetH 11 15 None (Some 70000) (Some 80000) (Some 80000) (Some 90000) (Some 0) (Some 10000) (Some 10000) (Some 60000);
  SetH 12 15 (Some 10000) (Some 20000) (Some 40000) None None None None None None;
  Push 0 10 15 0 50000 60000 10000;
  Push 2 10 15 0 50000 30000 50000;
  Push 0 11 15 10000 50000 80000 10000;
  Push 2 11 15 10000 50000 10000 50000;
  MoveIBS;
  ExpH 10 15 None (Some 60000) (Some 70000) (Some 30000) (Some 50000);
  ExpH 11 15 None (Some 80000) (Some 90000) (Some 10000) (Some 70000);
  ExpT 12 15 30000;
  ExpRecH 1%nat 20000;
  ExpRec 4%nat 2 11 15 10000 50000 10000 10000;
  ExpRecs 5%nat;
  Reset [(12, 15)] [(0, 10, 15); (2, 10, 15); (0, 11, 15); (2, 11, 15); (0, 12, 15)] [(0, 10, 15); (2, 10, 15); (0, 11, 15); (2, 11, 15)]].

Definition IC_MIBS_231 : list cmd := [
  Seed seed1234;
  SetH 10 15 None (Some 50000) (Some 60000) (Some 60000) (Some 70000) (Some 0) (Some 30000) (Some 30000) (Some 80000);
  SetH 11 15 None (Some 50000) (Some 80000) (Some 80000) (Some 90000) (Some 0) (Some 30000) (Some 30000) (Some 40000);
  SetH 12 15 None (Some 0) (Some 30000) None None None None None None;
  Push 0 10 15 0 50000 60000 10000;
  Push 2 10 15 0 50000 30000 50000;
  Push 0 11 15 10000 50000 80000 10000;
  Push 2 11 15 10000 50000 30000 10000;
  MoveIBS;
  ExpH 10 15 None (Some 60000) (Some 70000) (Some 30000) (Some 50000);
  ExpH 11 15 None (Some 80000) (Some 90000) (Some 30000) (Some 50000);
  ExpH 12 15 None (Some 30000) (Some 50000) None None;
  ExpRecH 1%nat 20000;
  ExpRec 4%nat 2 11 15 10000 50000 30000 10000;
  ExpRec 5%nat 0 12 15 20000 50000 30000 20000;
  ExpRecs 6%nat;
  Reset [] [(0, 10, 15); (2, 10, 15); (0, 11, 15); (2, 11, 15); (0, 12, 15)] [(0, 10, 15); (2, 10, 15); (0, 11, 15); (2, 11, 15); (0, 12, 15)]].

Definition IC_MIBS_232 : list cmd := [
  Seed seed1234;
  SetH 10 15 None (Some 50000) (Some 60000) (Some 60000) (Some 70000) (Some 0) (Some 30000) (Some 30000) (Some 80000);
  SetH 11 15 None (Some 50000) (Some 80000) (Some 80000) (Some 90000) (Some 0) (Some 30000) (Some 30000) (Some 40000);
  SetH 12 15 None (Some 0) (Some 30000) (Some 30000) (Some 40000) None None None None;
  Push 0 10 15 0 50000 60000 10000;
  Push 2 10 15 0 50000 30000 50000;
  Push 0 11 15 10000 50000 80000 10000;
  Push 2 11 15 10000 50000 30000 10000;
  Push 0 12 15 20000 50000 30000 10000;
  MoveIBS;
  ExpH 10 15 None (Some 60000) (Some 70000) (Some 30000) (Some 50000);
  ExpH 11 15 None (Some 80000) (Some 90000) (Some 30000) (Some 50000);
  ExpH 12 15 None (Some 30000) (Some 60000) None None;
  ExpRecH 1%nat 20000;
  ExpRec 5%nat 2 11 15 10000 50000 30000 10000;
  ExpRec 6%nat 0 12 15 20000 50000 30000 20000;
  ExpRecs 7%nat;
  Reset [] [(0, 10, 15); (2, 10, 15); (0, 11, 15); (2, 11, 15); (0, 12, 15)] [(0, 10, 15); (2, 10, 15); (0, 11, 15); (2, 11, 15); (0, 12, 15)]].

Definition IC_MIBS_233 : list cmd := [
  Seed seed1234;
  SetH 10 15 None (Some 50000) (Some 60000) (Some 60000) (Some 70000) (Some 0) (Some 30000) (Some 30000) (Some 80000);
  SetH 11 15 None (Some 50000) (Some 80000) (Some 80000) (Some 90000) (Some 0) (Some 30000) (Some 30000) (Some 40000);
  SetH 12 15 None (Some 30000) (Some 50000) None None None None None None;
  Push 0 10 15 0 50000 60000 10000;
  Push 2 10 15 0 50000 30000 50000;
  Push 0 11 15 10000 50000 80000 10000;
  Push 2 11 15 10000 50000 30000 10000;
  MoveIBS;
  ExpH 10 15 None (Some 60000) (Some 70000) (Some 30000) (Some 50000);
  ExpH 11 15 None (Some 80000) (Some 90000) (Some 30000) (Some 50000);
  ExpT 10 16 20000;
  ExpRecH 1%nat 20000;
  ExpRec 4%nat 2 11 15 10000 50000 30000 10000;
  ExpRecs 5%nat;
  Reset [(10, 16)] [(0, 10, 15); (2, 10, 15); (0, 11, 15); (2, 11, 15); (0, 12, 15)] [(0, 10, 15); (2, 10, 15); (0, 11, 15); (2, 11, 15)]].

Definition IC_MIBS_234 : list cmd := [
  Seed seed1234;
  SetH 10 15 None (Some 50000) (Some 60000) (Some 60000) (Some 70000) (Some 0) (Some 30000) (Some 30000) (Some 80000);
  SetH 11 15 None (Some 70000) (Some 80000) (Some 80000) (Some 90000) (Some 0) (Some 10000) (Some 10000) (Some 60000);
  SetH 12 15 (Some 10000) None None None None (Some 20000) (Some 40000) None None;
  Push 0 10 15 0 50000 60000 10000;
  Push 2 10 15 0 50000 30000 50000;
  Push 0 11 15 10000 50000 80000 10000;
  Push 2 11 15 10000 50000 10000 50000;
  MoveIBS;
  ExpH 10 15 None (Some 60000) (Some 70000) (Some 30000) (Some 50000);
  ExpH 11 15 None (Some 80000) (Some 90000) (Some 10000) (Some 70000);
  ExpT 12 15 30000;
  ExpRecH 1%nat 20000;
  ExpRec 4%nat 2 11 15 10000 50000 10000 10000;
  ExpRecs 5%nat;
  Reset [(12, 15)] [(0, 10, 15); (2, 10, 15); (0, 11, 15); (2, 11, 15); (2, 12, 15)] [(0, 10, 15); (2, 10, 15); (0, 11, 15); (2, 11, 15)]].

Definition IC_MIBS_235 : list cmd := [
  Seed seed1234;
  SetH 10 15 None (Some 50000) (Some 60000) (Some 60000) (Some 70000) (Some 0) (Some 30000) (Some 30000) (Some 80000);
  SetH 11 15 None (Some 50000) (Some 80000) (Some 80000) (Some 90000) (Some 0) (Some 30000) (Some 30000) (Some 40000);
  SetH 12 15 None None None None None (Some 0) (Some 30000) None None;
  Push 0 10 15 0 50000 60000 10000;
  Push 2 10 15 0 50000 30000 50000;
  Push 0 11 15 10000 50000 80000 10000;
  Push 2 11 15 10000 50000 30000 10000;
  MoveIBS;
  ExpH 10 15 None (Some 60000) (Some 70000) (Some 30000) (Some 50000);
  ExpH 11 15 None (Some 80000) (Some 90000) (Some 30000) (Some 50000);
  ExpH 12 15 None None None (Some 30000) (Some 50000);
  ExpRecH 1%nat 20000;
  ExpRec 4%nat 2 11 15 10000 50000 30000 10000;
  ExpRec 5%nat 2 12 15 20000 50000 30000 20000;
  ExpRecs 6%nat;
  Reset [] [(0, 10, 15); (2, 10, 15); (0, 11, 15); (2, 11, 15); (2, 12, 15)] [(0, 10, 15); (2, 10, 15); (0, 11, 15); (2, 11, 15); (2, 12, 15)]].

Definition IC_MIBS_236 : list cmd := [
  Seed seed1234;
  SetH 10 15 None (Some 50000) (Some 60000) (Some 60000) (Some 70000) (Some 0) (Some 30000) (Some 30000) (Some 80000);
  SetH 11 15 None (Some 50000) (Some 80000) (Some 80000) (Some 90000) (Some 0) (Some 30000) (Some 30000) (Some 40000);
  SetH 12 15 None None None None None (Some 0) (Some 30000) (Some 30000) (Some 40000);
  Push 0 10 15 0 50000 60000 10000;
  Push 2 10 15 0 50000 30000 50000;
  Push 0 11 15 10000 50000 80000 10000;
  Push 2 11 15 10000 50000 30000 10000;
  Push 2 12 15 20000 50000 30000 10000;
  MoveIBS;
  ExpH 10 15 None (Some 60000) (Some 70000) (Some 30000) (Some 50000);
  ExpH 11 15 None (Some 80000) (Some 90000) (Some 30000) (Some 50000);
  ExpH 12 15 None None None (Some 30000) (Some 60000);
  ExpRecH 1%nat 20000;
  ExpRec 5%nat 2 11 15 10000 50000 30000 10000;
  ExpRec 6%nat 2 12 15 20000 50000 30000 20000;
  ExpRecs 7%nat;
  Reset [] [(0, 10, 15); (2, 10, 15); (0, 11, 15); (2, 11, 15); (2, 12, 15)] [(0, 10, 15); (2, 10, 15); (0, 11, 15); (2, 11, 15); (2, 12, 15)]].

Definition IC_MIBS_237 : list cmd := [
  Seed seed1234;
  SetH 10 15 None (Some 50000) (Some 60000) (Some 60000) (Some 70000) (Some 0) (Some 30000) (Some 30000) (Some 80000);
  SetH 11 15 None (Some 50000) (Some 80000) (Some 80000) (Some 90000) (Some 0) (Some 30000) (Some 30000) (Some 40000);
  SetH 12 15 None None None None None (Some 30000) (Some 50000) None None;
  Push 0 10 15 0 50000 60000 10000;
  Push 2 10 15 0 50000 30000 50000;
  Push 0 11 15 10000 50000 80000 10000;
  Push 2 11 15 10000 50000 30000 10000;
  MoveIBS;
  ExpH 10 15 None (Some 60000) (Some 70000) (Some 30000) (Some 50000);
  ExpH 11 15 None (Some 80000) (Some 90000) (Some 30000) (Some 50000);
  ExpT 10 16 20000;
  ExpRecH 1%nat 20000;
  ExpRec 4%nat 2 11 15 10000 50000 30000 10000;
  ExpRecs 5%nat;
  Reset [(10, 16)] [(0, 10, 15); (2, 10, 15); (0, 11, 15); (2, 11, 15); (2, 12, 15)] [(0, 10, 15); (2, 10, 15); (0, 11, 15); (2, 11, 15)]].

Definition IC_MIBS_238 : list cmd := [
  Seed seed1234;
  SetH 10 15 None (Some 50000) (Some 60000) (Some 60000) (Some 70000) (Some 0) (Some 30000) (Some 30000) (Some 80000);
  SetH 11 15 None (Some 70000) (Some 80000) (Some 80000) (Some 90000) (Some 0) (Some 10000) (Some 10000) (Some 60000);
  SetH 12 15 None (Some 10000) (Some 40000) None None (Some 70000) (Some 90000) None None;
  Push 0 10 15 0 50000 60000 10000;
  Push 2 10 15 0 50000 30000 50000;
  Push 0 11 15 10000 50000 80000 10000;
  Push 2 11 15 10000 50000 10000 50000;
  MoveIBS;
  ExpH 10 15 None (Some 60000) (Some 70000) (Some 30000) (Some 50000);
  ExpH 11 15 None (Some 80000) (Some 90000) (Some 10000) (Some 70000);
  ExpH 12 15 None (Some 40000) (Some 60000) None None;
  ExpRecH 1%nat 20000;
  ExpRec 4%nat 2 11 15 10000 50000 10000 10000;
  ExpRec 5%nat 0 12 15 20000 50000 40000 20000;
  ExpRecs 6%nat;
  Reset [] [(0, 10, 15); (2, 10, 15); (0, 11, 15); (2, 11, 15); (0, 12, 15); (2, 12, 15)] [(0, 10, 15); (2, 10, 15); (0, 11, 15); (2, 11, 15); (0, 12, 15)]].

Definition IC_MIBS_239 : list cmd := [
  Seed seed1234;
  SetH 10 15 None (Some 50000) (Some 60000) (Some 60000) (Some 70000) (Some 0) (Some 30000) (Some 30000) (Some 80000);
  SetH 11 15 None (Some 70000) (Some 80000) (Some 80000) (Some 90000) (Some 0) (Some 10000) (Some 10000) (Some 60000);
  SetH 12 15 None (Some 10000) (Some 40000) None None (Some 50000) (Some 90000) None None;
  Push 0 10 15 0 50000 60000 10000;
  Push 2 10 15 0 50000 30000 50000;
  Push 0 11 15 10000 50000 80000 10000;
  Push 2 11 15 10000 50000 10000 50000;
  MoveIBS;
  ExpH 10 15 None (Some 60000) (Some 70000) (Some 30000) (Some 50000);
  ExpH 11 15 None (Some 80000) (Some 90000) (Some 10000) (Some 70000);
  ExpH 12 15 None (Some 40000) (Some 50000) None None;
  ExpT 13 15 10000;
  ExpRecH 1%nat 20000;
  ExpRec 4%nat 2 11 15 10000 50000 10000 10000;
  ExpRec 5%nat 0 12 15 20000 50000 40000 10000;
  ExpRecs 6%nat;
  Reset [(13, 15)] [(0, 10, 15); (2, 10, 15); (0, 11, 15); (2, 11, 15); (0, 12, 15); (2, 12, 15)] [(0, 10, 15); (2, 10, 15); (0, 11, 15); (2, 11, 15); (0, 12, 15)]].

Definition IC_MIBS_240 : list cmd := [
  Seed seed1234;
  SetH 10 15 None (Some 50000) (Some 60000) (Some 60000) (Some 70000) (Some 0) (Some 30000) (Some 30000) (Some 80000);
  SetH 11 15 None (Some 70000) (Some 80000) (Some 80000) (Some 90000) (Some 0) (Some 10000) (Some 10000) (Some 60000);
  SetH 12 15 None (Some 10000) (Some 20000) (Some 20000) (Some 30000) (Some 70000) (Some 90000) (Some 90000) (Some 130000);
  Push 0 10 15 0 50000 60000 10000;
  Push 2 10 15 0 50000 30000 50000;
  Push 0 11 15 10000 50000 80000 10000;
  Push 2 11 15 10000 50000 10000 50000;
  Push 0 12 15 20000 50000 20000 10000;
  Push 2 12 15 20000 50000 90000 40000;
  MoveIBS;
  ExpH 10 15 None (Some 60000) (Some 70000) (Some 30000) (Some 50000);
  ExpH 11 15 None (Some 80000) (Some 90000) (Some 10000) (Some 70000);
  ExpH 12 15 None (Some 20000) (Some 50000) (Some 90000) (Some 130000);
  ExpRecH 1%nat 20000;
  ExpRec 6%nat 2 11 15 10000 50000 10000 10000;
  ExpRec 7%nat 0 12 15 20000 50000 20000 20000;
  ExpRecs 8%nat;
  Reset [] [(0, 10, 15); (2, 10, 15); (0, 11, 15); (2, 11, 15); (0, 12, 15); (2, 12, 15)] [(0, 10, 15); (2, 10, 15); (0, 11, 15); (2, 11, 15); (0, 12, 15); (2, 12, 15)]].

Definition IC_MIBS_241 : list cmd := [
  Seed seed1234;
  SetH 10 15 None (Some 50000) (Some 60000) (Some 60000) (Some 70000) (Some 0) (Some 30000) (Some 30000) (Some 80000);
  SetH 11 15 None (Some 70000) (Some 80000) (Some 80000) (Some 90000) (Some 0) (Some 10000) (Some 10000) (Some 60000);
  SetH 12 15 None (Some 10000) (Some 20000) (Some 20000) (Some 30000) (Some 40000) (Some 90000) (Some 90000) (Some 130000);
  Push 0 10 15 0 50000 60000 10000;
  Push 2 10 15 0 50000 30000 50000;
  Push 0 11 15 10000 50000 80000 10000;
  Push 2 11 15 10000 50000 10000 50000;
  Push 0 12 15 20000 50000 20000 10000;
  Push 2 12 15 20000 50000 90000 40000;
  MoveIBS;
  ExpH 10 15 None (Some 60000) (Some 70000) (Some 30000) (Some 50000);
  ExpH 11 15 None (Some 80000) (Some 90000) (Some 10000) (Some 70000);
  ExpH 12 15 None (Some 20000) (Some 40000) (Some 90000) (Some 130000);
  ExpT 13 15 10000;
  ExpRecH 1%nat 20000;
  ExpRec 6%nat 2 11 15 10000 50000 10000 10000;
  ExpRec 7%nat 0 12 15 20000 50000 20000 10000;
  ExpRecs 8%nat;
  Reset [(13, 15)] [(0, 10, 15); (2, 10, 15); (0, 11, 15); (2, 11, 15); (0, 12, 15); (2, 12, 15)] [(0, 10, 15); (2, 10, 15); (0, 11, 15); (2, 11, 15); (0, 12, 15); (2, 12, 15)]].

Definition IC_MIBS_242 : list cmd := [
  Seed seed1234;
  SetH 10 15 None (Some 50000) (Some 60000) (Some 60000) (Some 70000) (Some 0) (Some 30000) (Some 30000) (Some 80000);
  SetH 11 15 None (Some 70000) (Some 80000) (Some 80000) (Some 90000) (Some 0) (Some 10000) (Some 10000) (Some 60000);
  SetH 12 15 None (Some 10000) (Some 20000) (Some 20000) (Some 40000) (Some 40000) (Some 90000) (Some 90000) (Some 130000);
  Push 0 10 15 0 50000 60000 10000;
  Push 2 10 15 0 50000 30000 50000;
  Push 0 11 15 10000 50000 80000 10000;
  Push 2 11 15 10000 50000 10000 50000;
  Push 0 12 15 20000 50000 20000 20000;
  Push 2 12 15 20000 50000 90000 40000;
  MoveIBS;
  ExpH 10 15 None (Some 60000) (Some 70000) (Some 30000) (Some 50000);
  ExpH 11 15 None (Some 80000) (Some 90000) (Some 10000) (Some 70000);
  ExpT 13 15 20000;
  ExpRecH 1%nat 20000;
  ExpRec 6%nat 2 11 15 10000 50000 10000 10000;
  ExpRecs 7%nat;
  Reset [(13, 15)] [(0, 10, 15); (2, 10, 15); (0, 11, 15); (2, 11, 15); (0, 12, 15); (2, 12, 15)] [(0, 10, 15); (2, 10, 15); (0, 11, 15); (2, 11, 15); (0, 12, 15); (2, 12, 15)]].

Definition IC_MIBS_243 : list cmd := [
  Seed seed1234;
  SetH 10 15 None (Some 50000) (Some 60000) (Some 60000) (Some 70000) (Some 0) (Some 30000) (Some 30000) (Some 80000);
  SetH 11 15 None (Some 70000) (Some 80000) (Some 80000) (Some 90000) (Some 0) (Some 10000) (Some 10000) (Some 60000);
  SetH 12 15 None (Some 70000) (Some 90000) None None (Some 10000) (Some 40000) None None;
  Push 0 10 15 0 50000 60000 10000;
  Push 2 10 15 0 50000 30000 50000;
  Push 0 11 15 10000 50000 80000 10000;
  Push 2 11 15 10000 50000 10000 50000;
  MoveIBS;
  ExpH 10 15 None (Some 60000) (Some 70000) (Some 30000) (Some 50000);
  ExpH 11 15 None (Some 80000) (Some 90000) (Some 10000) (Some 70000);
  ExpH 12 15 None None None (Some 40000) (Some 60000);
  ExpRecH 1%nat 20000;
  ExpRec 4%nat 2 11 15 10000 50000 10000 10000;
  ExpRec 5%nat 2 12 15 20000 50000 40000 20000;
  ExpRecs 6%nat;
  Reset [] [(0, 10, 15); (2, 10, 15); (0, 11, 15); (2, 11, 15); (0, 12, 15); (2, 12, 15)] [(0, 10, 15); (2, 10, 15); (0, 11, 15); (2, 11, 15); (2, 12, 15)]].

Definition IC_MIBS_244 : list cmd := [
  Seed seed1234;
  SetH 10 15 None (Some 50000) (Some 60000) (Some 60000) (Some 70000) (Some 0) (Some 30000) (Some 30000) (Some 80000);
  SetH 11 15 None (Some 70000) (Some 80000) (Some 80000) (Some 90000) (Some 0) (Some 10000) (Some 10000) (Some 60000);
  SetH 12 15 None (Some 50000) (Some 90000) None None (Some 10000) (Some 40000) None None;
  Push 0 10 15 0 50000 60000 10000;
  Push 2 10 15 0 50000 30000 50000;
  Push 0 11 15 10000 50000 80000 10000;
  Push 2 11 15 10000 50000 10000 50000;
  MoveIBS;
  ExpH 10 15 None (Some 60000) (Some 70000) (Some 30000) (Some 50000);
  ExpH 11 15 None (Some 80000) (Some 90000) (Some 10000) (Some 70000);
  ExpH 12 15 None None None (Some 40000) (Some 50000);
  ExpT 13 15 10000;
  ExpRecH 1%nat 20000;
  ExpRec 4%nat 2 11 15 10000 50000 10000 10000;
  ExpRec 5%nat 2 12 15 20000 50000 40000 10000;
  ExpRecs 6%nat;
  Reset [(13, 15)] [(0, 10, 15); (2, 10, 15); (0, 11, 15); (2, 11, 15); (0, 12, 15); (2, 12, 15)] [(0, 10, 15); (2, 10, 15); (0, 11, 15); (2, 11, 15); (2, 12, 15)]].

Definition IC_MIBS_245 : list cmd := [
  Seed seed1234;
  SetH 10 15 None (Some 50000) (Some 60000) (Some 60000) (Some 70000) (Some 0) (Some 30000) (Some 30000) (Some 80000);
  SetH 11 15 None (Some 70000) (Some 80000) (Some 80000) (Some 90000) (Some 0) (Some 10000) (Some 10000) (Some 60000);
  SetH 12 15 None (Some 70000) (Some 90000) (Some 90000) (Some 130000) (Some 10000) (Some 20000) (Some 20000) (Some 30000);
  Push 0 10 15 0 50000 60000 10000;
  Push 2 10 15 0 50000 30000 50000;
  Push 0 11 15 10000 50000 80000 10000;
  Push 2 11 15 10000 50000 10000 50000;
  Push 0 12 15 20000 50000 90000 40000;
  Push 2 12 15 20000 50000 20000 10000;
  MoveIBS;
  ExpH 10 15 None (Some 60000) (Some 70000) (Some 30000) (Some 50000);
  ExpH 11 15 None (Some 80000) (Some 90000) (Some 10000) (Some 70000);
  ExpH 12 15 None (Some 90000) (Some 130000) (Some 20000) (Some 50000);
  ExpRecH 1%nat 20000;
  ExpRec 6%nat 2 11 15 10000 50000 10000 10000;
  ExpRec 7%nat 2 12 15 20000 50000 20000 20000;
  ExpRecs 8%nat;
  Reset [] [(0, 10, 15); (2, 10, 15); (0, 11, 15); (2, 11, 15); (0, 12, 15); (2, 12, 15)] [(0, 10, 15); (2, 10, 15); (0, 11, 15); (2, 11, 15); (0, 12, 15); (2, 12, 15)]].

Definition IC_MIBS_246 : list cmd := [
  Seed seed1234;
  SetH 10 15 None (Some 50000) (Some 60000) (Some 60000) (Some 70000) (Some 0) (Some 30000) (Some 30000) (Some 80000);
  SetH 11 15 None (Some 70000) (Some 80000) (Some 80000) (Some 90000) (Some 0) (Some 10000) (Some 10000) (Some 60000);
  SetH 12 15 None (Some 40000) (Some 90000) (Some 90000) (Some 130000) (Some 10000) (Some 20000) (Some 20000) (Some 30000);
  Push 0 10 15 0 50000 60000 10000;
  Push 2 10 15 0 50000 30000 50000;
  Push 0 11 15 10000 50000 80000 10000;
  Push 2 11 15 10000 50000 10000 50000;
  Push 0 12 15 20000 50000 90000 40000;
  Push 2 12 15 20000 50000 20000 10000;
  MoveIBS;
  ExpH 10 15 None (Some 60000) (Some 70000) (Some 30000) (Some 50000);
  ExpH 11 15 None (Some 80000) (Some 90000) (Some 10000) (Some 70000);
  ExpH 12 15 None (Some 90000) (Some 130000) (Some 20000) (Some 40000);
  ExpT 13 15 10000;
  ExpRecH 1%nat 20000;
  ExpRec 6%nat 2 11 15 10000 50000 10000 10000;
  ExpRec 7%nat 2 12 15 20000 50000 20000 10000;
  ExpRecs 8%nat;
  Reset [(13, 15)] [(0, 10, 15); (2, 10, 15); (0, 11, 15); (2, 11, 15); (0, 12, 15); (2, 12, 15)] [(0, 10, 15); (2, 10, 15); (0, 11, 15); (2, 11, 15); (0, 12, 15); (2, 12, 15)]].

Definition IC_MIBS_247 : list cmd := [
  Seed seed1234;
  SetH 10 15 None (Some 50000) (Some 60000) (Some 60000) (Some 70000) (Some 0) (Some 30000) (Some 30000) (Some 80000);
  SetH 11 15 None (Some 70000) (Some 80000) (Some 80000) (Some 90000) (Some 0) (Some 10000) (Some 10000) (Some 60000);
  SetH 12 15 None (Some 40000) (Some 90000) (Some 90000) (Some 130000) (Some 10000) (Some 20000) (Some 20000) (Some 40000);
  Push 0 10 15 0 50000 60000 10000;
  Push 2 10 15 0 50000 30000 50000;
  Push 0 11 15 10000 50000 80000 10000;
  Push 2 11 15 10000 50000 10000 50000;
  Push 0 12 15 20000 50000 90000 40000;
  Push 2 12 15 20000 50000 20000 20000;
  MoveIBS;
  ExpH 10 15 None (Some 60000) (Some 70000) (Some 30000) (Some 50000);
  ExpH 11 15 None (Some 80000) (Some 90000) (Some 10000) (Some 70000);
  ExpT 13 15 20000;
  ExpRecH 1%nat 20000;
  ExpRec 6%nat 2 11 15 10000 50000 10000 10000;
  ExpRecs 7%nat;
  Reset [(13, 15)] [(0, 10, 15); (2, 10, 15); (0, 11, 15); (2, 11, 15); (0, 12, 15); (2, 12, 15)] [(0, 10, 15); (2, 10, 15); (0, 11, 15); (2, 11, 15); (0, 12, 15); (2, 12, 15)]].

Definition IC_MIBS_248 : list cmd := [
  Seed seed1234;
  SetH 10 15 None (Some 50000) (Some 60000) (Some 60000) (Some 70000) (Some 0) (Some 30000) (Some 30000) (Some 80000);
  SetH 11 15 None (Some 40000) (Some 70000) (Some 70000) (Some 90000) (Some 0) (Some 10000) (Some 10000) (Some 40000);
  Push 0 10 15 0 50000 60000 10000;
  Push 2 10 15 0 50000 30000 50000;
  Push 0 11 15 10000 50000 70000 20000;
  Push 2 11 15 10000 50000 10000 30000;
  MoveIBS;
  ExpH 10 15 None (Some 60000) (Some 70000) (Some 30000) (Some 50000);
  ExpT 12 15 30000;
  ExpRecH 1%nat 20000;
  ExpRecs 4%nat;
  Reset [(12, 15)] [(0, 10, 15); (2, 10, 15); (0, 11, 15); (2, 11, 15)] [(0, 10, 15); (2, 10, 15); (0, 11, 15); (2, 11, 15)]].

Definition IC_MIBS_249 : list cmd := [
  Seed seed1234;
  SetH 10 15 None (Some 50000) (Some 60000) (Some 60000) (Some 70000) (Some 0) (Some 30000) (Some 30000) (Some 80000);
  SetH 11 15 None (Some 70000) (Some 80000) (Some 80000) (Some 90000) (Some 0) (Some 10000) (Some 10000) (Some 70000);
  SetH 12 15 (Some 10000) (Some 20000) (Some 40000) None None None None None None;
  Push 0 10 15 0 50000 60000 10000;
  Push 2 10 15 0 50000 30000 50000;
  Push 0 11 15 10000 50000 80000 10000;
  Push 2 11 15 10000 50000 10000 60000;
  MoveIBS;
  ExpH 10 15 None (Some 60000) (Some 70000) (Some 30000) (Some 50000);
  ExpT 12 15 40000;
  ExpRecH 1%nat 20000;
  ExpRecs 4%nat;
  Reset [(12, 15)] [(0, 10, 15); (2, 10, 15); (0, 11, 15); (2, 11, 15); (0, 12, 15)] [(0, 10, 15); (2, 10, 15); (0, 11, 15); (2, 11, 15)]].

Definition IC_MIBS_250 : list cmd := [
  Seed seed1234;
  SetH 10 15 None (Some 50000) (Some 60000) (Some 60000) (Some 70000) (Some 0) (Some 30000) (Some 30000) (Some 80000);
  SetH 11 15 None (Some 50000) (Some 80000) (Some 80000) (Some 90000) (Some 0) (Some 30000) (Some 30000) (Some 50000);
  SetH 12 15 None (Some 0) (Some 30000) None None None None None None;
  Push 0 10 15 0 50000 60000 10000;
  Push 2 10 15 0 50000 30000 50000;
  Push 0 11 15 10000 50000 80000 10000;
  Push 2 11 15 10000 50000 30000 20000;
  MoveIBS;
  ExpH 10 15 None (Some 60000) (Some 70000) (Some 30000) (Some 50000);
  ExpH 12 15 None (Some 30000) (Some 60000) None None;
  ExpRecH 1%nat 20000;
  ExpRec 4%nat 0 12 15 20000 50000 30000 30000;
  ExpRecs 5%nat;
  Reset [] [(0, 10, 15); (2, 10, 15); (0, 11, 15); (2, 11, 15); (0, 12, 15)] [(0, 10, 15); (2, 10, 15); (0, 11, 15); (2, 11, 15); (0, 12, 15)]].

Definition IC_MIBS_251 : list cmd := [
  Seed seed1234;
  SetH 10 15 None (Some 50000) (Some 60000) (Some 60000) (Some 70000) (Some 0) (Some 30000) (Some 30000) (Some 80000);
  SetH 11 15 None (Some 50000) (Some 80000) (Some 80000) (Some 90000) (Some 0) (Some 30000) (Some 30000) (Some 50000);
  SetH 12 15 None (Some 0) (Some 30000) (Some 30000) (Some 40000) None None None None;
  Push 0 10 15 0 50000 60000 10000;
  Push 2 10 15 0 50000 30000 50000;
  Push 0 11 15 10000 50000 80000 10000;
  Push 2 11 15 10000 50000 30000 20000;
  Push 0 12 15 20000 50000 30000 10000;
  MoveIBS;
  ExpH 10 15 None (Some 60000) (Some 70000) (Some 30000) (Some 50000);
  ExpH 12 15 None (Some 30000) (Some 70000) None None;
  ExpRecH 1%nat 20000;
  ExpRec 5%nat 0 12 15 20000 50000 30000 30000;
  ExpRecs 6%nat;
  Reset [] [(0, 10, 15); (2, 10, 15); (0, 11, 15); (2, 11, 15); (0, 12, 15)] [(0, 10, 15); (2, 10, 15); (0, 11, 15); (2, 11, 15); (0, 12, 15)]].

Definition IC_MIBS_252 : list cmd := [
  Seed seed1234;
  SetH 10 15 None (Some 50000) (Some 60000) (Some 60000) (Some 70000) (Some 0) (Some 30000) (Some 30000) (Some 80000);
  SetH 11 15 None (Some 50000) (Some 80000) (Some 80000) (Some 90000) (Some 0) (Some 30000) (Some 30000) (Some 50000);
  SetH 12 15 None (Some 30000) (Some 50000) None None None None None None;
  Push 0 10 15 0 50000 60000 10000;
  Push 2 10 15 0 50000 30000 50000;
  Push 0 11 15 10000 50000 80000 10000;
  Push 2 11 15 10000 50000 30000 20000;
  MoveIBS;
  ExpH 10 15 None (Some 60000) (Some 70000) (Some 30000) (Some 50000);
  ExpT 10 16 30000;
  ExpRecH 1%nat 20000;
  ExpRecs 4%nat;
  Reset [(10, 16)] [(0, 10, 15); (2, 10, 15); (0, 11, 15); (2, 11, 15); (0, 12, 15)] [(0, 10, 15); (2, 10, 15); (0, 11, 15); (2, 11, 15)]].

Definition IC_MIBS_253 : list cmd := [
  Seed seed1234;
  SetH 10 15 None (Some 50000) (Some 60000) (Some 60000) (Some 70000) (Some 0) (Some 30000) (Some 30000) (Some 80000);
  SetH 11 15 None (Some 70000) (Some 80000) (Some 80000) (Some 90000) (Some 0) (Some 10000) (Some 10000) (Some 70000);
  SetH 12 15 (Some 10000) None None None None (Some 20000) (Some 40000) None None;
  Push 0 10 15 0 50000 60000 10000;
  Push 2 10 15 0 50000 30000 50000;
  Push 0 11 15 10000 50000 80000 10000;
  Push 2 11 15 10000 50000 10000 60000;
  MoveIBS;
  ExpH 10 15 None (Some 60000) (Some 70000) (Some 30000) (Some 50000);
  ExpT 12 15 40000;
  ExpRecH 1%nat 20000;
  ExpRecs 4%nat;
  Reset [(12, 15)] [(0, 10, 15); (2, 10, 15); (0, 11, 15); (2, 11, 15); (2, 12, 15)] [(0, 10, 15); (2, 10, 15); (0, 11, 15); (2, 11, 15)]].

Definition IC_MIBS_254 : list cmd := [
  Seed seed1234;
  SetH 10 15 None (Some 50000) (Some 60000) (Some 60000) (Some 70000) (Some 0) (Some 30000) (Some 30000) (Some 80000);
  SetH 11 15 None (Some 50000) (Some 80000) (Some 80000) (Some 90000) (Some 0) (Some 30000) (Some 30000) (Some 50000);
  SetH 12 15 None None None None None (Some 0) (Some 30000) None None;
  Push 0 10 15 0 50000 60000 10000;
  Push 2 10 15 0 50000 30000 50000;
  Push 0 11 15 10000 50000 80000 10000;
  Push 2 11 15 10000 50000 30000 20000;
  MoveIBS;
  ExpH 10 15 None (Some 60000) (Some 70000) (Some 30000) (Some 50000);
  ExpH 12 15 None None None (Some 30000) (Some 60000);
  ExpRecH 1%nat 20000;
  ExpRec 4%nat 2 12 15 20000 50000 30000 30000;
  ExpRecs 5%nat;
  Reset [] [(0, 10, 15); (2, 10, 15); (0, 11, 15); (2, 11, 15); (2, 12, 15)] [(0, 10, 15); (2, 10, 15); (0, 11, 15); (2, 11, 15); (2, 12, 15)]].

Definition IC_MIBS_255 : list cmd := [
  Seed seed1234;
  SetH 10 15 None (Some 50000) (Some 60000) (Some 60000) (Some 70000) (Some 0) (Some 30000) (Some 30000) (Some 80000);
  SetH 11 15 None (Some 50000) (Some 80000) (Some 80000) (Some 90000) (Some 0) (Some 30000) (Some 30000) (Some 50000);
  SetH 12 15 None None None None None (Some 0) (Some 30000) (Some 30000) (Some 40000);
  Push 0 10 15 0 50000 60000 10000;
  Push 2 10 15 0 50000 30000 50000;
  Push 0 11 15 10000 50000 80000 10000;
  Push 2 11 15 10000 50000 30000 20000;
  Push 2 12 15 20000 50000 30000 10000;
  MoveIBS;
  ExpH 10 15 None (Some 60000) (Some 70000) (Some 30000) (Some 50000);
  ExpH 12 15 None None None (Some 30000) (Some 70000);
  ExpRecH 1%nat 20000;
  ExpRec 5%nat 2 12 15 20000 50000 30000 30000;
  ExpRecs 6%nat;
  Reset [] [(0, 10, 15); (2, 10, 15); (0, 11, 15); (2, 11, 15); (2, 12, 15)] [(0, 10, 15); (2, 10, 15); (0, 11, 15); (2, 11, 15); (2, 12, 15)]].

Definition IC_MIBS_256 : list cmd := [
  Seed seed1234;
  SetH 10 15 None (Some 50000) (Some 60000) (Some 60000) (Some 70000) (Some 0) (Some 30000) (Some 30000) (Some 80000);
  SetH 11 15 None (Some 50000) (Some 80000) (Some 80000) (Some 90000) (Some 0) (Some 30000) (Some 30000) (Some 50000);
  SetH 12 15 None None None None None (Some 30000) (Some 50000) None None;
  Push 0 10 15 0 50000 60000 10000;
  Push 2 10 15 0 50000 30000 50000;
  Push 0 11 15 10000 50000 80000 10000;
  Push 2 11 15 10000 50000 30000 20000;
  MoveIBS;
  ExpH 10 15 None (Some 60000) (Some 70000) (Some 30000) (Some 50000);
  ExpT 10 16 30000;
  ExpRecH 1%nat 20000;
  ExpRecs 4%nat;
  Reset [(10, 16)] [(0, 10, 15); (2, 10, 15); (0, 11, 15); (2, 11, 15); (2, 12, 15)] [(0, 10, 15); (2, 10, 15); (0, 11, 15); (2, 11, 15)]].

Definition IC_MIBS_257 : list cmd := [
  Seed seed1234;
  SetH 10 15 None (Some 50000) (Some 60000) (Some 60000) (Some 70000) (Some 0) (Some 30000) (Some 30000) (Some 80000);
  SetH 11 15 None (Some 70000) (Some 80000) (Some 80000) (Some 90000) (Some 0) (Some 10000) (Some 10000) (Some 70000);
  SetH 12 15 None (Some 10000) (Some 40000) None None (Some 70000) (Some 90000) None None;
  Push 0 10 15 0 50000 60000 10000;
  Push 2 10 15 0 50000 30000 50000;
  Push 0 11 15 10000 50000 80000 10000;
  Push 2 11 15 10000 50000 10000 60000;
  MoveIBS;
  ExpH 10 15 None (Some 60000) (Some 70000) (Some 30000) (Some 50000);
  ExpH 12 15 None (Some 40000) (Some 70000) None None;
  ExpRecH 1%nat 20000;
  ExpRec 4%nat 0 12 15 20000 50000 40000 30000;
  ExpRecs 5%nat;
  Reset [] [(0, 10, 15); (2, 10, 15); (0, 11, 15); (2, 11, 15); (0, 12, 15); (2, 12, 15)] [(0, 10, 15); (2, 10, 15); (0, 11, 15); (2, 11, 15); (0, 12, 15)]].

Definition IC_MIBS_258 : list cmd := [
  Seed seed1234;
  SetH 10 15 None (Some 50000) (Some 60000) (Some 60000) (Some 70000) (Some 0) (Some 30000) (Some 30000) (Some 80000);
  SetH 11 15 None (Some 70000) (Some 80000) (Some 80000) (Some 90000) (Some 0) (Some 10000) (Some 10000) (Some 70000);
  SetH 12 15 None (Some 10000) (Some 40000) None None (Some 50000) (Some 90000) None None;
  Push 0 10 15 0 50000 60000 10000;
  Push 2 10 15 0 50000 30000 50000;
  Push 0 11 15 10000 50000 80000 10000;
  Push 2 11 15 10000 50000 10000 60000;
  MoveIBS;
  ExpH 10 15 None (Some 60000) (Some 70000) (Some 30000) (Some 50000);
  ExpH 12 15 None (Some 40000) (Some 50000) None None;
  ExpT 13 15 20000;
  ExpRecH 1%nat 20000;
  ExpRec 4%nat 0 12 15 20000 50000 40000 10000;
  ExpRecs 5%nat;
  Reset [(13, 15)] [(0, 10, 15); (2, 10, 15); (0, 11, 15); (2, 11, 15); (0, 12, 15); (2, 12, 15)] [(0, 10, 15); (2, 10, 15); (0, 11, 15); (2, 11, 15); (0, 12, 15)]].

Definition IC_MIBS_259 : list cmd := [
  Seed seed1234;
  SetH 10 15 None (Some 50000) (Some 60000) (Some 60000) (Some 70000) (Some 0) (Some 30000) (Some 30000) (Some 80000);
  SetH 11 15 None (Some 70000) (Some 80000) (Some 80000) (Some 90000) (Some 0) (Some 10000) (Some 10000) (Some 70000);
  SetH 12 15 None (Some 10000) (Some 20000) (Some 20000) (Some 30000) (Some 70000) (Some 90000) (Some 90000) (Some 130000);
  Push 0 10 15 0 50000 60000 10000;
  Push 2 10 15 0 50000 30000 50000;
  Push 0 11 15 10000 50000 80000 10000;
  Push 2 11 15 10000 50000 10000 60000;
  Push 0 12 15 20000 50000 20000 10000;
  Push 2 12 15 20000 50000 90000 40000;
  MoveIBS;
  ExpH 10 15 None (Some 60000) (Some 70000) (Some 30000) (Some 50000);
  ExpH 12 15 None (Some 20000) (Some 60000) (Some 90000) (Some 130000);
  ExpRecH 1%nat 20000;
  ExpRec 6%nat 0 12 15 20000 50000 20000 30000;
  ExpRecs 7%nat;
  Reset [] [(0, 10, 15); (2, 10, 15); (0, 11, 15); (2, 11, 15); (0, 12, 15); (2, 12, 15)] [(0, 10, 15); (2, 10, 15); (0, 11, 15); (2, 11, 15); (0, 12, 15); (2, 12, 15)]].

Definition IC_MIBS_260 : list cmd := [
  Seed seed1234;
  SetH 10 15 None (Some 50000) (Some 60000) (Some 60000) (Some 70000) (Some 0) (Some 30000) (Some 30000) (Some 80000);
  SetH 11 15 None (Some 70000) (Some 80000) (Some 80000) (Some 90000) (Some 0) (Some 10000) (Some 10000) (Some 70000);
  SetH 12 15 None (Some 10000) (Some 20000) (Some 20000) (Some 30000) (Some 40000) (Some 90000) (Some 90000) (Some 130000);
  Push 0 10 15 0 50000 60000 10000;
  Push 2 10 15 0 50000 30000 50000;
  Push 0 11 15 10000 50000 80000 10000;
  Push 2 11 15 10000 50000 10000 60000;
  Push 0 12 15 20000 50000 20000 10000;
  Push 2 12 15 20000 50000 90000 40000;
  MoveIBS;
  ExpH 10 15 None (Some 60000) (Some 70000) (Some 30000) (Some 50000);
  ExpH 12 15 None (Some 20000) (Some 40000) (Some 90000) (Some 130000);
  ExpT 13 15 20000;
  ExpRecH 1%nat 20000;
  ExpRec 6%nat 0 12 15 20000 50000 20000 10000;
  ExpRecs 7%nat;
  Reset [(13, 15)] [(0, 10, 15); (2, 10, 15); (0, 11, 15); (2, 11, 15); (0, 12, 15); (2, 12, 15)] [(0, 10, 15); (2, 10, 15); (0, 11, 15); (2, 11, 15); (0, 12, 15); (2, 12, 15)]].

Definition IC_MIBS_261 : list cmd := [
  Seed seed1234;
  SetH 10 15 None (Some 50000) (Some 60000) (Some 60000) (Some 70000) (Some 0) (Some 30000) (Some 30000) (Some 80000);
  SetH 11 15 None (Some 70000) (Some 80000) (Some 80000) (Some 90000) (Some 0) (Some 10000) (Some 10000) (Some 70000);
  SetH 12 15 None (Some 10000) (Some 20000) (Some 20000) (Some 40000) (Some 40000) (Some 90000) (Some 90000) (Some 130000);
  Push 0 10 15 0 50000 60000 10000;
  Push 2 10 15 0 50000 30000 50000;
  Push 0 11 15 10000 50000 80000 10000;
  Push 2 11 15 10000 50000 10000 60000;
  Push 0 12 15 20000 50000 20000 20000;
  Push 2 12 15 20000 50000 90000 40000;
  MoveIBS;
  ExpH 10 15 None (Some 60000) (Some 70000) (Some 30000) (Some 50000);
  ExpT 13 15 30000;
  ExpRecH 1%nat 20000;
  ExpRecs 6%nat;
  Reset [(13, 15)] [(0, 10, 15); (2, 10, 15); (0, 11, 15); (2, 11, 15); (0, 12, 15); (2, 12, 15)] [(0, 10, 15); (2, 10, 15); (0, 11, 15); (2, 11, 15); (0, 12, 15); (2, 12, 15)]].

Definition IC_MIBS_262 : list cmd := [
  Seed seed1234;
  SetH 10 15 None (Some 50000) (Some 60000) (Some 60000) (Some 70000) (Some 0) (Some 30000) (Some 30000) (Some 80000);
  SetH 11 15 None (Some 70000) (Some 80000) (Some 80000) (Some 90000) (Some 0) (Some 10000) (Some 10000) (Some 70000);
  SetH 12 15 None (Some 70000) (Some 90000) None None (Some 10000) (Some 40000) None None;
  Push 0 10 15 0 50000 60000 10000;
  Push 2 10 15 0 50000 30000 50000;
  Push 0 11 15 10000 50000 80000 10000;
  Push 2 11 15 10000 50000 10000 60000;
  MoveIBS;
  ExpH 10 15 None (Some 60000) (Some 70000) (Some 30000) (Some 50000);
  ExpH 12 15 None None None (Some 40000) (Some 70000);
  ExpRecH 1%nat 20000;
  ExpRec 4%nat 2 12 15 20000 50000 40000 30000;
  ExpRecs 5%nat;
  Reset [] [(0, 10, 15); (2, 10, 15); (0, 11, 15); (2, 11, 15); (0, 12, 15); (2, 12, 15)] [(0, 10, 15); (2, 10, 15); (0, 11, 15); (2, 11, 15); (2, 12, 15)]].

Definition IC_MIBS_263 : list cmd := [
  Seed seed1234;
  SetH 10 15 None (Some 50000) (Some 60000) (Some 60000) (Some 70000) (Some 0) (Some 30000) (Some 30000) (Some 80000);
  SetH 11 15 None (Some 70000) (Some 80000) (Some 80000) (Some 90000) (Some 0) (Some 10000) (Some 10000) (Some 70000);
  SetH 12 15 None (Some 50000) (Some 90000) None None (Some 10000) (Some 40000) None None;
  Push 0 10 15 0 50000 60000 10000;
  Push 2 10 15 0 50000 30000 50000;
  Push 0 11 15 10000 50000 80000 10000;
  Push 2 11 15 10000 50000 10000 60000;
  MoveIBS;
  ExpH 10 15 None (Some 60000) (Some 70000) (Some 30000) (Some 50000);
  ExpH 12 15 None None None (Some 40000) (Some 50000);
  ExpT 13 15 20000;
  ExpRecH 1%nat 20000;
  ExpRec 4%nat 2 12 15 20000 50000 40000 10000;
  ExpRecs 5%nat;
  Reset [(13, 15)] [(0, 10, 15); (2, 10, 15); (0, 11, 15); (2, 11, 15); (0, 12, 15); (2, 12, 15)] [(0, 10, 15); (2, 10, 15); (0, 11, 15); (2, 11, 15); (2, 12, 15)]].

Definition IC_MIBS_264 : list cmd := [
  Seed seed1234;
  SetH 10 15 None (Some 50000) (Some 60000) (Some 60000) (Some 70000) (Some 0) (Some 30000) (Some 30000) (Some 80000);
  SetH 11 15 None (Some 70000) (Some 80000) (Some 80000) (Some 90000) (Some 0) (Some 10000) (Some 10000) (Some 70000);
  SetH 12 15 None (Some 70000) (Some 90000) (Some 90000) (Some 130000) (Some 10000) (Some 20000) (Some 20000) (Some 30000);
  Push 0 10 15 0 50000 60000 10000;
  Push 2 10 15 0 50000 30000 50000;
  Push 0 11 15 10000 50000 80000 10000;
  Push 2 11 15 10000 50000 10000 60000;
  Push 0 12 15 20000 50000 90000 40000;
  Push 2 12 15 20000 50000 20000 10000;
  MoveIBS;
  ExpH 10 15 None (Some 60000) (Some 70000) (Some 30000) (Some 50000);
  ExpH 12 15 None (Some 90000) (Some 130000) (Some 20000) (Some 60000);
  ExpRecH 1%nat 20000;
  ExpRec 6%nat 2 12 15 20000 50000 20000 30000;
  ExpRecs 7%nat;
  Reset [] [(0, 10, 15); (2, 10, 15); (0, 11, 15); (2, 11, 15); (0, 12, 15); (2, 12, 15)] [(0, 10, 15); (2, 10, 15); (0, 11, 15); (2, 11, 15); (0, 12, 15); (2, 12, 15)]].

Definition IC_MIBS_265 : list cmd := [
  Seed seed1234;
  SetH 10 15 None (Some 50000) (Some 60000) (Some 60000) (Some 70000) (Some 0) (Some 30000) (Some 30000) (Some 80000);
  SetH 11 15 None (Some 70000) (Some 80000) (Some 80000) (Some 90000) (Some 0) (Some 10000) (Some 10000) (Some 70000);
  SetH 12 15 None (Some 40000) (Some 90000) (Some 90000) (Some 130000) (Some 10000) (Some 20000) (Some 20000) (Some 30000);
  Push 0 10 15 0 50000 60000 10000;
  Push 2 10 15 0 50000 30000 50000;
  Push 0 11 15 10000 50000 80000 10000;
  Push 2 11 15 10000 50000 10000 60000;
  Push 0 12 15 20000 50000 90000 40000;
  Push 2 12 15 20000 50000 20000 10000;
  MoveIBS;
  ExpH 10 15 None (Some 60000) (Some 70000) (Some 30000) (Some 50000);
  ExpH 12 15 None (Some 90000) (Some 130000) (Some 20000) (Some 40000);
  ExpT 13 15 20000;
  ExpRecH 1%nat 20000;
  ExpRec 6%nat 2 12 15 20000 50000 20000 10000;
  ExpRecs 7%nat;
  Reset [(13, 15)] [(0, 10, 15); (2, 10, 15); (0, 11, 15); (2, 11, 15); (0, 12, 15); (2, 12, 15)] [(0, 10, 15); (2, 10, 15); (0, 11, 15); (2, 11, 15); (0, 12, 15); (2, 12, 15)]].

Definition IC_MIBS_266 : list cmd := [
  Seed seed1234;
  SetH 10 15 None (Some 50000) (Some 60000) (Some 60000) (Some 70000) (Some 0) (Some 30000) (Some 30000) (Some 80000);
  SetH 11 15 None (Some 70000) (Some 80000) (Some 80000) (Some 90000) (Some 0) (Some 10000) (Some 10000) (Some 70000);
  SetH 12 15 None (Some 40000) (Some 90000) (Some 90000) (Some 130000) (Some 10000) (Some 20000) (Some 20000) (Some 40000);
  Push 0 10 15 0 50000 60000 10000;
  Push 2 10 15 0 50000 30000 50000;
  Push 0 11 15 10000 50000 80000 10000;
  Push 2 11 15 10000 50000 10000 60000;
  Push 0 12 15 20000 50000 90000 40000;
  Push 2 12 15 20000 50000 20000 20000;
  MoveIBS;
  ExpH 10 15 None (Some 60000) (Some 70000) (Some 30000) (Some 50000);
  ExpT 13 15 30000;
  ExpRecH 1%nat 20000;
  ExpRecs 6%nat;
  Reset [(13, 15)] [(0, 10, 15); (2, 10, 15); (0, 11, 15); (2, 11, 15); (0, 12, 15); (2, 12, 15)] [(0, 10, 15); (2, 10, 15); (0, 11, 15); (2, 11, 15); (0, 12, 15); (2, 12, 15)]].

Definition IC_MIBS_267 : list cmd := [
  Seed seed1234;
  SetH 10 15 None (Some 0) (Some 30000) (Some 30000) (Some 80000) (Some 50000) (Some 60000) (Some 60000) (Some 70000);
  SetH 11 15 None (Some 0) (Some 20000) (Some 20000) (Some 80000) None None None None;
  Push 0 10 15 0 50000 30000 50000;
  Push 2 10 15 0 50000 60000 10000;
  Push 0 11 15 10000 50000 20000 60000;
  MoveIBS;
  ExpH 10 15 None (Some 30000) (Some 50000) (Some 60000) (Some 70000);
  ExpH 11 15 None (Some 20000) (Some 110000) None None;
  ExpRecH 0%nat 20000;
  ExpRec 3%nat 0 11 15 10000 50000 20000 30000;
  ExpRecs 4%nat;
  Reset [] [(0, 10, 15); (2, 10, 15); (0, 11, 15)] [(0, 10, 15); (2, 10, 15); (0, 11, 15)]].

Definition IC_MIBS_268 : list cmd := [
  Seed seed1234;
  SetH 10 15 None (Some 0) (Some 30000) (Some 30000) (Some 80000) (Some 50000) (Some 60000) (Some 60000) (Some 70000);
  SetH 11 15 None None None None None (Some 0) (Some 20000) (Some 20000) (Some 50000);
  Push 0 10 15 0 50000 30000 50000;
  Push 2 10 15 0 50000 60000 10000;
  Push 2 11 15 10000 50000 20000 30000;
  MoveIBS;
  ExpH 10 15 None (Some 30000) (Some 50000) (Some 60000) (Some 70000);
  ExpH 11 15 None None None (Some 20000) (Some 80000);
  ExpRecH 0%nat 20000;
  ExpRec 3%nat 2 11 15 10000 50000 20000 30000;
  ExpRecs 4%nat;
  Reset [] [(0, 10, 15); (2, 10, 15); (2, 11, 15)] [(0, 10, 15); (2, 10, 15); (2, 11, 15)]].

Definition IC_MIBS_269 : list cmd := [
  Seed seed1234;
  SetH 10 15 None (Some (-60000)) (Some (-50000)) (Some (-50000)) (Some 0) (Some (-30000)) (Some 0) (Some 0) (Some 10000);
  Push 0 10 15 0 50000 (-50000) 50000;
  Push 2 10 15 0 50000 0 10000;
  MoveIBS;
  ExpH 10 15 None (Some (-50000)) (Some (-30000)) (Some 0) (Some 10000);
  ExpT 11 15 30000;
  ExpRecH 0%nat 20000;
  ExpRecs 2%nat;
  Reset [(11, 15)] [(0, 10, 15); (2, 10, 15)] [(0, 10, 15); (2, 10, 15)]].

Definition IC_MIBS_270 : list cmd := [
  Seed seed1234;
  SetH 10 15 None (Some 0) (Some 30000) (Some 30000) (Some 120000) (Some 80000) (Some 90000) (Some 90000) (Some 170000);
  SetH 11 15 None (Some 10000) (Some 20000) (Some 20000) (Some 40000) None None None None;
  SetH 11 16 None (Some 0) (Some 10000) None None None None None None;
  SetH 11 14 None (Some 0) (Some 10000) None None None None None None;
  Push 0 10 15 0 50000 30000 20000;
  Push 0 10 15 0 50000 30000 10000;
  Push 2 10 15 0 50000 90000 80000;
  Push 0 10 15 0 50000 30000 20000;
  Push 0 10 15 0 50000 30000 40000;
  Push 0 11 15 10000 50000 20000 20000;
  MoveIBS;
  ExpH 10 15 None (Some 30000) (Some 80000) (Some 90000) (Some 170000);
  ExpH 11 15 None (Some 20000) (Some 60000) None None;
  ExpH 11 16 None (Some 10000) (Some 20000) None None;
  ExpH 11 14 None (Some 10000) (Some 20000) None None;
  ExpRecH 0%nat 0;
  ExpRecH 1%nat 0;
  ExpRecH 3%nat 10000;
  ExpRec 6%nat 0 11 15 10000 50000 20000 20000;
  ExpRec 7%nat 0 11 16 10000 60000 10000 10000;
  ExpRec 8%nat 0 11 14 10000 40000 10000 10000;
  ExpRecs 9%nat;
  Reset [] [(0, 10, 15); (2, 10, 15); (0, 11, 14); (0, 11, 15); (0, 11, 16)] [(0, 10, 15); (2, 10, 15); (0, 11, 14); (0, 11, 15); (0, 11, 16)]].

Definition IC_MIBS_271 : list cmd := [
  Seed seed1234;
  SetH 10 15 None (Some 50000) (Some 60000) (Some 60000) (Some 90000) (Some 0) (Some 30000) (Some 30000) (Some 50000);
  SetH 11 15 None None None None None (Some 0) (Some 10000) (Some 10000) (Some 90000);
  Push 0 10 15 0 50000 60000 30000;
  Push 2 10 15 0 50000 30000 20000;
  Push 2 11 15 10000 50000 10000 80000;
  MoveIBS;
  ExpH 10 15 None (Some 60000) (Some 90000) (Some 30000) (Some 50000);
  ExpH 11 15 None None None (Some 10000) (Some 90000);
  ExpRecs 3%nat;
  Reset [] [(0, 10, 15); (2, 10, 15); (2, 11, 15)] [(0, 10, 15); (2, 10, 15); (2, 11, 15)]].

Definition IC_MIBS_272 : list cmd := [
  Seed seed1234;
  SetH 10 15 None (Some 0) (Some 30000) (Some 30000) (Some 130000) (Some 50000) (Some 60000) (Some 60000) (Some 70000);
  SetH 11 15 None (Some 0) (Some 30000) None None (Some 40000) (Some 70000) None None;
  SetH 12 15 None (Some 0) (Some 70000) None None None None None None;
  SetH 11 16 None (Some 0) (Some 30000) None None (Some 40000) (Some 70000) None None;
  SetH 12 17 None (Some 0) (Some 70000) None None None None None None;
  SetH 10 16 None (Some 0) (Some 30000) None None (Some 40000) (Some 70000) None None;
  SetH 10 17 None (Some 0) (Some 70000) None None None None None None;
  SetH 9 16 None (Some 0) (Some 30000) None None (Some 40000) (Some 70000) None None;
  SetH 8 17 None (Some 0) (Some 70000) None None None None None None;
  SetH 9 15 None (Some 0) (Some 30000) None None (Some 40000) (Some 70000) None None;
  SetH 8 15 None (Some 0) (Some 70000) None None None None None None;
  SetH 9 14 None (Some 0) (Some 30000) None None (Some 40000) (Some 70000) None None;
  SetH 8 13 None (Some 0) (Some 70000) None None None None None None;
  SetH 10 14 None (Some 0) (Some 30000) None None (Some 40000) (Some 70000) None None;
  SetH 10 13 None (Some 0) (Some 70000) None None None None None None;
  SetH 11 14 None (Some 0) (Some 30000) None None (Some 40000) (Some 70000) None None;
  SetH 12 13 None (Some 0) (Some 70000) None None None None None None;
  Push 0 10 15 0 50000 30000 100000;
  Push 2 10 15 0 50000 60000 10000;
  MoveIBS;
  ExpH 10 15 None (Some 30000) (Some 50000) (Some 60000) (Some 70000);
  ExpH 11 15 None (Some 30000) (Some 40000) None None;
  ExpH 11 16 None (Some 30000) (Some 40000) None None;
  ExpH 10 16 None (Some 30000) (Some 40000) None None;
  ExpH 9 16 None (Some 30000) (Some 40000) None None;
  ExpH 9 15 None (Some 30000) (Some 40000) None None;
  ExpH 9 14 None (Some 30000) (Some 40000) None None;
  ExpH 10 14 None (Some 30000) (Some 40000) None None;
  ExpH 11 14 None (Some 30000) (Some 40000) None None;
  ExpRecH 0%nat 20000;
  ExpRecs 10%nat;
  Reset [] [(0, 10, 15); (2, 10, 15); (0, 11, 15); (2, 11, 15); (0, 12, 15); (0, 11, 16); (2, 11, 16); (0, 12, 17); (0, 10, 16); (2, 10, 16); (0, 10, 17); (0, 9, 16); (2, 9, 16); (0, 8, 17); (0, 9, 15); (2, 9, 15); (0, 8, 15); (0, 9, 14); (2, 9, 14); (0, 8, 13); (0, 10, 14); (2, 10, 14); (0, 10, 13); (0, 11, 14); (2, 11, 14); (0, 12, 13)] [(0, 10, 15); (2, 10, 15); (0, 11, 15); (0, 11, 16); (0, 10, 16); (0, 9, 16); (0, 9, 15); (0, 9, 14); (0, 10, 14); (0, 11, 14)]].

Definition IC_MIBS_273 : list cmd := [
  Seed seed1234;
  SetH 10 15 None (Some 0) (Some 30000) (Some 30000) (Some 80000) (Some 50000) (Some 60000) (Some 60000) (Some 70000);
  Push 0 10 15 0 50000 30000 50000;
  Push 2 10 15 0 50000 60000 10000;
  MoveIBS;
  ExpH 10 15 None (Some 30000) (Some 50000) (Some 60000) (Some 70000);
  ExpT 11 15 30000;
  ExpRecH 0%nat 20000;
  ExpRecs 2%nat;
  Seed seed2000;
  SetT 11 15 0;
  SetBS 1 10 15 80000;
  SetRecH 0%nat 50000;
  MoveIBS;
  ExpH 10 15 None (Some 30000) (Some 50000) (Some 60000) (Some 70000);
  ExpT 9 16 30000;
  ExpRecH 0%nat 20000;
  ExpRecs 2%nat;
  Reset [(9, 16)] [(0, 10, 15); (2, 10, 15)] [(0, 10, 15); (2, 10, 15)]].

Definition IC_MIBS_274 : list cmd := [
  Seed seed1234;
  SetH 10 15 None (Some 0) (Some 30000) (Some 30000) (Some 80000) (Some 50000) (Some 60000) (Some 60000) (Some 70000);
  SetH 11 15 None (Some 0) (Some 70000) None None None None None None;
  SetH 11 16 None (Some 0) (Some 70000) None None None None None None;
  SetH 10 16 None (Some 0) (Some 70000) None None None None None None;
  SetH 9 16 None (Some 0) (Some 70000) None None None None None None;
  SetH 9 15 None (Some 0) (Some 70000) None None None None None None;
  SetH 9 14 None (Some 0) (Some 70000) None None None None None None;
  SetH 10 14 None (Some 0) (Some 70000) None None None None None None;
  SetH 11 14 None (Some 0) (Some 70000) None None None None None None;
  Push 0 10 15 0 50000 30000 50000;
  Push 2 10 15 0 50000 60000 10000;
  MoveIBS;
  ExpLog 1%nat;
  ExpH 10 15 None (Some 30000) (Some 50000) (Some 60000) (Some 70000);
  ExpRecH 0%nat 20000;
  ExpRecs 2%nat;
  Reset [] [(0, 10, 15); (2, 10, 15); (0, 11, 15); (0, 11, 16); (0, 10, 16); (0, 9, 16); (0, 9, 15); (0, 9, 14); (0, 10, 14); (0, 11, 14)] [(0, 10, 15); (2, 10, 15)]].

Definition move_intersecting_body_soil_tests : list cmd :=
  IC_MIBS_1 ++ IC_MIBS_2 ++ IC_MIBS_3 ++ IC_MIBS_4 ++ IC_MIBS_5 ++ IC_MIBS_6 ++ IC_MIBS_7 ++ IC_MIBS_8 ++ IC_MIBS_9 ++ IC_MIBS_10 ++ IC_MIBS_11 ++ IC_MIBS_12 ++ IC_MIBS_13 ++ IC_MIBS_14 ++ IC_MIBS_15 ++ IC_MIBS_16 ++ IC_MIBS_17 ++ IC_MIBS_18 ++ IC_MIBS_19 ++ IC_MIBS_20 ++ IC_MIBS_21 ++ IC_MIBS_22 ++ IC_MIBS_23 ++ IC_MIBS_24 ++ IC_MIBS_25 ++ IC_MIBS_26 ++ IC_MIBS_27 ++ IC_MIBS_28 ++ IC_MIBS_29 ++ IC_MIBS_30 ++ IC_MIBS_31 ++ IC_MIBS_32 ++ IC_MIBS_33 ++ IC_MIBS_34 ++ IC_MIBS_35 ++ IC_MIBS_36 ++ IC_MIBS_37 ++ IC_MIBS_38 ++ IC_MIBS_39 ++ IC_MIBS_40 ++ IC_MIBS_41 ++ IC_MIBS_42 ++ IC_MIBS_43 ++ IC_MIBS_44 ++ IC_MIBS_45 ++ IC_MIBS_46 ++ IC_MIBS_47 ++ IC_MIBS_48 ++ IC_MIBS_49 ++ IC_MIBS_50 ++ IC_MIBS_51 ++ IC_MIBS_52 ++ IC_MIBS_53 ++ IC_MIBS_54 ++ IC_MIBS_55 ++ IC_MIBS_56 ++ IC_MIBS_57 ++ IC_MIBS_58 ++ IC_MIBS_59 ++ IC_MIBS_60 ++ IC_MIBS_61 ++ IC_MIBS_62 ++ IC_MIBS_63 ++ IC_MIBS_64 ++ IC_MIBS_65 ++ IC_MIBS_66 ++ IC_MIBS_67 ++ IC_MIBS_68 ++ IC_MIBS_69 ++ IC_MIBS_70 ++ IC_MIBS_71 ++ IC_MIBS_72 ++ IC_MIBS_73 ++ IC_MIBS_74 ++ IC_MIBS_75 ++ IC_MIBS_76 ++ IC_MIBS_77 ++ IC_MIBS_78 ++ IC_MIBS_79 ++ IC_MIBS_80 ++ IC_MIBS_81 ++ IC_MIBS_82 ++ IC_MIBS_83 ++ IC_MIBS_84 ++ IC_MIBS_85 ++ IC_MIBS_86 ++ IC_MIBS_87 ++ IC_MIBS_88 ++ IC_MIBS_89 ++ IC_MIBS_90 ++ IC_MIBS_91 ++ IC_MIBS_92 ++ IC_MIBS_93 ++ IC_MIBS_94 ++ IC_MIBS_95 ++ IC_MIBS_96 ++ IC_MIBS_97 ++ IC_MIBS_98 ++ IC_MIBS_99 ++ IC_MIBS_100 ++ IC_MIBS_101 ++ IC_MIBS_102 ++ IC_MIBS_103 ++ IC_MIBS_104 ++ IC_MIBS_105 ++ IC_MIBS_106 ++ IC_MIBS_107 ++ IC_MIBS_108 ++ IC_MIBS_109 ++ IC_MIBS_110 ++ IC_MIBS_111 ++ IC_MIBS_112 ++ IC_MIBS_113 ++ IC_MIBS_114 ++ IC_MIBS_115 ++ IC_MIBS_116 ++ IC_MIBS_117 ++ IC_MIBS_118 ++ IC_MIBS_119 ++ IC_MIBS_120 ++ IC_MIBS_121 ++ IC_MIBS_122 ++ IC_MIBS_123 ++ IC_MIBS_124 ++ IC_MIBS_125 ++ IC_MIBS_126 ++ IC_MIBS_127 ++ IC_MIBS_128 ++ IC_MIBS_129 ++ IC_MIBS_130 ++ IC_MIBS_131 ++ IC_MIBS_132 ++ IC_MIBS_133 ++ IC_MIBS_134 ++ IC_MIBS_135 ++ IC_MIBS_136 ++ IC_MIBS_137 ++ IC_MIBS_138 ++ IC_MIBS_139 ++ IC_MIBS_140 ++ IC_MIBS_141 ++ IC_MIBS_142 ++ IC_MIBS_143 ++ IC_MIBS_144 ++ IC_MIBS_145 ++ IC_MIBS_146 ++ IC_MIBS_147 ++ IC_MIBS_148 ++ IC_MIBS_149 ++ IC_MIBS_150 ++ IC_MIBS_151 ++ IC_MIBS_152 ++ IC_MIBS_153 ++ IC_MIBS_154 ++ IC_MIBS_155 ++ IC_MIBS_156 ++ IC_MIBS_157 ++ IC_MIBS_158 ++ IC_MIBS_159 ++ IC_MIBS_160 ++ IC_MIBS_161 ++ IC_MIBS_162 ++ IC_MIBS_163 ++ IC_MIBS_164 ++ IC_MIBS_165 ++ IC_MIBS_166 ++ IC_MIBS_167 ++ IC_MIBS_168 ++ IC_MIBS_169 ++ IC_MIBS_170 ++ IC_MIBS_171 ++ IC_MIBS_172 ++ IC_MIBS_173 ++ IC_MIBS_174 ++ IC_MIBS_175 ++ IC_MIBS_176 ++ IC_MIBS_177 ++ IC_MIBS_178 ++ IC_MIBS_179 ++ IC_MIBS_180 ++ IC_MIBS_181 ++ IC_MIBS_182 ++ IC_MIBS_183 ++ IC_MIBS_184 ++ IC_MIBS_185 ++ IC_MIBS_186 ++ IC_MIBS_187 ++ IC_MIBS_188 ++ IC_MIBS_189 ++ IC_MIBS_190 ++ IC_MIBS_191 ++ IC_MIBS_192 ++ IC_MIBS_193 ++ IC_MIBS_194 ++ IC_MIBS_195 ++ IC_MIBS_196 ++ IC_MIBS_197 ++ IC_MIBS_198 ++ IC_MIBS_199 ++ IC_MIBS_200 ++ IC_MIBS_201 ++ IC_MIBS_202 ++ IC_MIBS_203 ++ IC_MIBS_204 ++ IC_MIBS_205 ++ IC_MIBS_206 ++ IC_MIBS_207 ++ IC_MIBS_208 ++ IC_MIBS_209 ++ IC_MIBS_210 ++ IC_MIBS_211 ++ IC_MIBS_212 ++ IC_MIBS_213 ++ IC_MIBS_214 ++ IC_MIBS_215 ++ IC_MIBS_216 ++ IC_MIBS_217 ++ IC_MIBS_218 ++ IC_MIBS_219 ++ IC_MIBS_220 ++ IC_MIBS_221 ++ IC_MIBS_222 ++ IC_MIBS_223 ++ IC_MIBS_224 ++ IC_MIBS_225 ++ IC_MIBS_226 ++ IC_MIBS_227 ++ IC_MIBS_228 ++ IC_MIBS_229 ++ IC_MIBS_230 ++ IC_MIBS_231 ++ IC_MIBS_232 ++ IC_MIBS_233 ++ IC_MIBS_234 ++ IC_MIBS_235 ++ IC_MIBS_236 ++ IC_MIBS_237 ++ IC_MIBS_238 ++ IC_MIBS_239 ++ IC_MIBS_240 ++ IC_MIBS_241 ++ IC_MIBS_242 ++ IC_MIBS_243 ++ IC_MIBS_244 ++ IC_MIBS_245 ++ IC_MIBS_246 ++ IC_MIBS_247 ++ IC_MIBS_248 ++ IC_MIBS_249 ++ IC_MIBS_250 ++ IC_MIBS_251 ++ IC_MIBS_252 ++ IC_MIBS_253 ++ IC_MIBS_254 ++ IC_MIBS_255 ++ IC_MIBS_256 ++ IC_MIBS_257 ++ IC_MIBS_258 ++ IC_MIBS_259 ++ IC_MIBS_260 ++ IC_MIBS_261 ++ IC_MIBS_262 ++ IC_MIBS_263 ++ IC_MIBS_264 ++ IC_MIBS_265 ++ IC_MIBS_266 ++ IC_MIBS_267 ++ IC_MIBS_268 ++ IC_MIBS_269 ++ IC_MIBS_270 ++ IC_MIBS_271 ++ IC_MIBS_272 ++ IC_MIBS_273 ++ IC_MIBS_274.

Example move_intersecting_body_soil_tests_pass : z_run move_intersecting_body_soil_tests = None.
Proof. vm_compute. reflexivity. Qed.
