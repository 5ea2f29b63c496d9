(** test/unit_tests/test_intersecting_cells.cpp:7577-7936, TEST MoveIntersectingBody. Produced by tools/translate_tests.py. *)
From Coq Require Import ZArith List.
From Verif Require Import Outcome Num State ModelBodyPos TestLang.
Import ListNotations.
Open Scope Z_scope.

Definition seed1234 : list Z :=
  [822569775; 2137449171; 2671936806; 3512589365; 1880026316; 2629000564; 3373089432; 3312965625; 3349970575; 3696548529; 1170776343; 646980841; 1187404954; 852631582; 3444014763; 3501098142; 4115177196; 682106748; 3762102042; 498808182; 1536813498; 55437432; 2151757680; 2090933724; 2935450949; 1421700432; 3061031881; 3447310719; 1590214902; 421988862; 2410319279; 240490034; 2160725744; 1901221627; 59135052; 95107365; 3319265058; 1248669606; 3790915066; 1058256067; 1567173351; 3170917515; 2643106432; 3819197161; 323759947; 4239731024; 1584087043; 504415490; 4007806227; 1691282316; 2797647809; 1944459723; 1705972083; 2311327339; 3387570170; 3395696081; 1360800782; 2000751859; 2439965127; 1869737788; 3732873706; 2445892203; 1873350574; 4162935708; 3445197905; 174187351; 617473805; 2354155636; 3024777824; 1986751372; 3026153669; 1616935933; 939704945; 1408371679; 3972276197; 3494080159; 1898980089; 2776921084; 3905482329; 203695188].

Definition seed2000 : list Z :=
  [2450353078; 3557200712; 2424632526; 3926724557; 2097841718; 104281723; 1445160932; 2545455388; 1614341532; 3665415858; 2285076663; 2276480014; 292514276; 1290931727; 2510533211; 1759081154; 1021763115; 1299920385; 690444270; 581160204; 653346782; 2507948951; 545758119; 3721107161; 1406349101; 1735688316; 2981368187; 3083663772; 1541749216; 4088733610; 3828386358; 653142881; 867067463; 3201021993; 475034116; 3112374032; 2265839022; 3828737533; 3726551232; 4067210691; 1124741896; 365267519; 2144885722; 2350583075; 1840670082; 1057922960; 2276349344; 3305998388; 2465082827; 1780164310; 1683007223; 229067601; 341510502; 3899087221; 3724943567; 3219651571; 706537500; 3311383866; 3450927268; 2765806523; 1236642413; 1296240996; 1153504430; 828455733; 3081544613; 542811461; 3785608468; 2409225112; 4261123093; 1154469831; 1968598426; 2504307790; 3372104540; 3905390504; 3172666300; 3122435636; 2034023398; 1527465882; 2082349197; 2429845496].

Definition setup : list cmd := [
  SetBodyArea (mkArea 1 20 1 20);
  SetBodyArea (mkArea 1 20 1 20);
  SetBodyArea (mkArea 1 20 1 20);
  SetBodyArea (mkArea 1 20 1 20)].

Definition IC_MIB_1 : list cmd := [
  SetB 0 11 16 0;
  SetB 1 11 16 50000;
  SetB 0 11 17 0;
  SetB 1 11 17 50000;
  SetB 0 11 18 0;
  SetB 1 11 18 50000;
  SetB 0 12 16 0;
  SetB 1 12 16 50000;
  SetB 0 12 17 0;
  SetB 1 12 17 50000;
  SetB 0 12 18 0;
  SetB 1 12 18 50000;
  SetH 10 16 None (Some 0) (Some 50000) None None None None None None;
  SetH 10 18 None (Some 0) (Some 50000) None None None None None None;
  SetT 11 17 10000;
  MoveIB;
  ExpT 10 17 10000;
  Reset [(10, 17)] [(0, 10, 16); (0, 10, 18); (0, 11, 16); (0, 11, 17); (0, 11, 18); (0, 12, 16); (0, 12, 17); (0, 12, 18)] []].

Definition IC_MIB_2 : list cmd := [
  SetB 0 10 16 0;
  SetB 1 10 16 50000;
  SetB 0 10 17 0;
  SetB 1 10 17 50000;
  SetB 0 10 18 0;
  SetB 1 10 18 50000;
  SetB 0 11 16 0;
  SetB 1 11 16 50000;
  SetB 0 11 17 0;
  SetB 1 11 17 50000;
  SetB 0 11 18 0;
  SetB 1 11 18 50000;
  SetH 12 16 None (Some 0) (Some 50000) None None None None None None;
  SetH 12 18 None (Some 0) (Some 50000) None None None None None None;
  SetT 11 17 20000;
  MoveIB;
  ExpT 12 17 20000;
  Reset [(12, 17)] [(0, 10, 16); (0, 10, 17); (0, 10, 18); (0, 11, 16); (0, 11, 17); (0, 11, 18); (0, 12, 16); (0, 12, 18)] []].

Definition IC_MIB_3 : list cmd := [
  SetB 0 10 17 0;
  SetB 1 10 17 50000;
  SetB 0 10 18 0;
  SetB 1 10 18 50000;
  SetB 0 11 17 0;
  SetB 1 11 17 50000;
  SetB 0 11 18 0;
  SetB 1 11 18 50000;
  SetB 0 12 17 0;
  SetB 1 12 17 50000;
  SetB 0 12 18 0;
  SetB 1 12 18 50000;
  SetH 10 16 None (Some 0) (Some 50000) None None None None None None;
  SetH 12 16 None (Some 0) (Some 50000) None None None None None None;
  SetT 11 17 5000;
  MoveIB;
  ExpT 11 16 5000;
  Reset [(11, 16)] [(0, 10, 16); (0, 10, 17); (0, 10, 18); (0, 11, 17); (0, 11, 18); (0, 12, 16); (0, 12, 17); (0, 12, 18)] []].

Definition IC_MIB_4 : list cmd := [
  SetB 0 10 16 0;
  SetB 1 10 16 50000;
  SetB 0 10 17 0;
  SetB 1 10 17 50000;
  SetB 0 11 16 0;
  SetB 1 11 16 50000;
  SetB 0 11 17 0;
  SetB 1 11 17 50000;
  SetB 0 12 16 0;
  SetB 1 12 16 50000;
  SetB 0 12 17 0;
  SetB 1 12 17 50000;
  SetH 10 18 None (Some 0) (Some 50000) None None None None None None;
  SetH 12 18 None (Some 0) (Some 50000) None None None None None None;
  SetT 11 17 25000;
  MoveIB;
  ExpT 11 18 25000;
  Reset [(11, 18)] [(0, 10, 16); (0, 10, 17); (0, 10, 18); (0, 11, 16); (0, 11, 17); (0, 12, 16); (0, 12, 17); (0, 12, 18)] []].

Definition IC_MIB_5 : list cmd := [
  SetB 0 10 17 0;
  SetB 1 10 17 50000;
  SetB 0 10 18 0;
  SetB 1 10 18 50000;
  SetB 0 11 17 0;
  SetB 1 11 17 50000;
  SetB 0 11 18 0;
  SetB 1 11 18 50000;
  SetB 0 12 17 0;
  SetB 1 12 17 50000;
  SetB 0 12 18 0;
  SetB 1 12 18 50000;
  SetH 11 16 None (Some 0) (Some 50000) None None None None None None;
  SetH 12 16 None (Some 0) (Some 50000) None None None None None None;
  SetT 11 17 40000;
  MoveIB;
  ExpT 10 16 40000;
  Reset [(10, 16)] [(0, 10, 17); (0, 10, 18); (0, 11, 16); (0, 11, 17); (0, 11, 18); (0, 12, 16); (0, 12, 17); (0, 12, 18)] []].

Definition IC_MIB_6 : list cmd := [
  SetB 0 10 17 0;
  SetB 1 10 17 50000;
  SetB 0 10 18 0;
  SetB 1 10 18 50000;
  SetB 0 11 17 0;
  SetB 1 11 17 50000;
  SetB 0 11 18 0;
  SetB 1 11 18 50000;
  SetB 0 12 17 0;
  SetB 1 12 17 50000;
  SetB 0 12 18 0;
  SetB 1 12 18 50000;
  SetH 10 16 None (Some 0) (Some 50000) None None None None None None;
  SetH 11 16 None (Some 0) (Some 50000) None None None None None None;
  SetT 11 17 10000;
  MoveIB;
  ExpT 12 16 10000;
  Reset [(12, 16)] [(0, 10, 16); (0, 10, 17); (0, 10, 18); (0, 11, 16); (0, 11, 17); (0, 11, 18); (0, 12, 17); (0, 12, 18)] []].

Definition IC_MIB_7 : list cmd := [
  SetB 0 10 16 0;
  SetB 1 10 16 50000;
  SetB 0 10 17 0;
  SetB 1 10 17 50000;
  SetB 0 11 16 0;
  SetB 1 11 16 50000;
  SetB 0 11 17 0;
  SetB 1 11 17 50000;
  SetB 0 12 16 0;
  SetB 1 12 16 50000;
  SetB 0 12 17 0;
  SetB 1 12 17 50000;
  SetH 11 18 None (Some 0) (Some 50000) None None None None None None;
  SetH 12 18 None (Some 0) (Some 50000) None None None None None None;
  SetT 11 17 50000;
  MoveIB;
  ExpT 10 18 50000;
  Reset [(10, 18)] [(0, 10, 16); (0, 10, 17); (0, 11, 16); (0, 11, 17); (0, 11, 18); (0, 12, 16); (0, 12, 17); (0, 12, 18)] []].

Definition IC_MIB_8 : list cmd := [
  SetB 0 10 16 0;
  SetB 1 10 16 50000;
  SetB 0 10 17 0;
  SetB 1 10 17 50000;
  SetB 0 11 16 0;
  SetB 1 11 16 50000;
  SetB 0 11 17 0;
  SetB 1 11 17 50000;
  SetB 0 12 16 0;
  SetB 1 12 16 50000;
  SetB 0 12 17 0;
  SetB 1 12 17 50000;
  SetH 10 18 None (Some 0) (Some 50000) None None None None None None;
  SetH 11 18 None (Some 0) (Some 50000) None None None None None None;
  SetT 11 17 80000;
  MoveIB;
  ExpT 12 18 80000;
  Reset [(12, 18)] [(0, 10, 16); (0, 10, 17); (0, 10, 18); (0, 11, 16); (0, 11, 17); (0, 11, 18); (0, 12, 16); (0, 12, 17)] []].

Definition IC_MIB_9 : list cmd := [
  SetB 2 10 16 0;
  SetB 3 10 16 50000;
  SetB 2 10 17 0;
  SetB 3 10 17 50000;
  SetB 2 11 16 0;
  SetB 3 11 16 50000;
  SetB 2 11 17 0;
  SetB 3 11 17 50000;
  SetB 2 12 16 0;
  SetB 3 12 16 50000;
  SetB 2 12 17 0;
  SetB 3 12 17 50000;
  SetH 11 18 None None None None None (Some 0) (Some 50000) None None;
  SetH 12 18 None None None None None (Some 0) (Some 50000) None None;
  SetT 11 17 50000;
  MoveIB;
  ExpT 10 18 50000;
  Reset [(10, 18)] [(2, 10, 16); (2, 10, 17); (2, 11, 16); (2, 11, 17); (2, 11, 18); (2, 12, 16); (2, 12, 17); (2, 12, 18)] []].

Definition IC_MIB_10 : list cmd := [
  SetH 10 16 None None None None None (Some 0) (Some 50000) None None;
  SetH 10 17 None None None None None (Some 0) (Some 50000) None None;
  SetH 11 16 None (Some 0) (Some 50000) None None None None None None;
  SetH 11 17 (Some 50000) (Some 0) (Some 50000) None None None None None None;
  SetH 11 18 None (Some 0) (Some 50000) None None None None None None;
  SetH 12 16 None (Some 0) (Some 50000) None None None None None None;
  SetH 12 17 None (Some 0) (Some 50000) None None None None None None;
  SetH 12 18 None None None None None (Some 0) (Some 50000) None None;
  MoveIB;
  ExpT 10 18 50000;
  Reset [(10, 18)] [(2, 10, 16); (2, 10, 17); (0, 11, 16); (0, 11, 17); (0, 11, 18); (0, 12, 16); (2, 12, 16); (0, 12, 17); (2, 12, 17); (2, 12, 18)] []].

Definition IC_MIB_11 : list cmd := [
  SetB 0 10 16 0;
  SetB 1 10 16 20000;
  SetB 0 10 17 0;
  SetB 1 10 17 20000;
  SetB 0 11 16 0;
  SetB 1 11 16 20000;
  SetB 0 11 17 0;
  SetB 1 11 17 20000;
  SetB 0 12 16 0;
  SetB 1 12 16 20000;
  SetB 0 12 17 0;
  SetB 1 12 17 20000;
  SetH 10 18 None (Some 0) (Some 50000) None None None None None None;
  SetH 11 18 None (Some 0) (Some 50000) None None None None None None;
  SetH 11 17 (Some 80000) (Some 50000) (Some 60000) None None (Some (-20000)) (Some 30000) None None;
  MoveIB;
  ExpT 11 17 (-20000);
  ExpT 12 18 100000;
  Reset [(12, 18); (11, 17)] [(0, 10, 16); (0, 10, 17); (0, 10, 18); (0, 11, 16); (0, 11, 17); (2, 11, 17); (0, 11, 18); (0, 12, 16); (0, 12, 17)] []].

Definition IC_MIB_12 : list cmd := [
  SetB 0 8 14 0;
  SetB 1 8 14 20000;
  SetB 0 8 15 0;
  SetB 1 8 15 20000;
  SetB 0 8 16 0;
  SetB 1 8 16 20000;
  SetB 0 8 17 0;
  SetB 1 8 17 20000;
  SetB 0 8 18 0;
  SetB 1 8 18 20000;
  SetB 0 8 19 0;
  SetB 1 8 19 20000;
  SetB 0 8 20 0;
  SetB 1 8 20 20000;
  SetB 0 9 14 0;
  SetB 1 9 14 20000;
  SetB 0 9 15 0;
  SetB 1 9 15 20000;
  SetB 0 9 16 0;
  SetB 1 9 16 20000;
  SetB 0 9 17 0;
  SetB 1 9 17 20000;
  SetB 0 9 18 0;
  SetB 1 9 18 20000;
  SetB 0 9 19 0;
  SetB 1 9 19 20000;
  SetB 0 9 20 0;
  SetB 1 9 20 20000;
  SetB 0 10 14 0;
  SetB 1 10 14 20000;
  SetB 0 10 15 0;
  SetB 1 10 15 20000;
  SetB 0 10 16 0;
  SetB 1 10 16 20000;
  SetB 0 10 17 0;
  SetB 1 10 17 20000;
  SetB 0 10 18 0;
  SetB 1 10 18 20000;
  SetB 0 10 19 0;
  SetB 1 10 19 20000;
  SetB 0 10 20 0;
  SetB 1 10 20 20000;
  SetB 0 11 14 0;
  SetB 1 11 14 20000;
  SetB 0 11 15 0;
  SetB 1 11 15 20000;
  SetB 0 11 16 0;
  SetB 1 11 16 20000;
  SetB 0 11 17 0;
  SetB 1 11 17 20000;
  SetB 0 11 18 0;
  SetB 1 11 18 20000;
  SetB 0 11 19 0;
  SetB 1 11 19 20000;
  SetB 0 11 20 0;
  SetB 1 11 20 20000;
  SetB 0 12 14 0;
  SetB 1 12 14 20000;
  SetB 0 12 15 0;
  SetB 1 12 15 20000;
  SetB 0 12 16 0;
  SetB 1 12 16 20000;
  SetB 0 12 17 0;
  SetB 1 12 17 20000;
  SetB 0 12 18 0;
  SetB 1 12 18 20000;
  SetB 0 12 19 0;
  SetB 1 12 19 20000;
  SetB 0 12 20 0;
  SetB 1 12 20 20000;
  SetB 0 13 14 0;
  SetB 1 13 14 20000;
  SetB 0 13 15 0;
  SetB 1 13 15 20000;
  SetB 0 13 16 0;
  SetB 1 13 16 20000;
  SetB 0 13 17 0;
  SetB 1 13 17 20000;
  SetB 0 13 18 0;
  SetB 1 13 18 20000;
  SetB 0 13 19 0;
  SetB 1 13 19 20000;
  SetB 0 13 20 0;
  SetB 1 13 20 20000;
  SetB 0 14 14 0;
  SetB 1 14 14 20000;
  SetB 0 14 15 0;
  SetB 1 14 15 20000;
  SetB 0 14 16 0;
  SetB 1 14 16 20000;
  SetB 0 14 17 0;
  SetB 1 14 17 20000;
  SetB 0 14 18 0;
  SetB 1 14 18 20000;
  SetB 0 14 19 0;
  SetB 1 14 19 20000;
  SetB 0 14 20 0;
  SetB 1 14 20 20000;
  SetH 8 17 None (Some 0) (Some 0) None None None None None None;
  SetH 11 17 (Some 50000) (Some (-40000)) (Some 60000) None None None None None None;
  MoveIB;
  ExpT 11 17 (-40000);
  ExpT 8 17 90000;
  Reset [(8, 17); (11, 17)] [(0, 8, 14); (0, 8, 15); (0, 8, 16); (0, 8, 17); (0, 8, 18); (0, 8, 19); (0, 8, 20); (0, 9, 14); (0, 9, 15); (0, 9, 16); (0, 9, 17); (0, 9, 18); (0, 9, 19); (0, 9, 20); (0, 10, 14); (0, 10, 15); (0, 10, 16); (0, 10, 17); (0, 10, 18); (0, 10, 19); (0, 10, 20); (0, 11, 14); (0, 11, 15); (0, 11, 16); (0, 11, 17); (0, 11, 18); (0, 11, 19); (0, 11, 20); (0, 12, 14); (0, 12, 15); (0, 12, 16); (0, 12, 17); (0, 12, 18); (0, 12, 19); (0, 12, 20); (0, 13, 14); (0, 13, 15); (0, 13, 16); (0, 13, 17); (0, 13, 18); (0, 13, 19); (0, 13, 20); (0, 14, 14); (0, 14, 15); (0, 14, 16); (0, 14, 17); (0, 14, 18); (0, 14, 19); (0, 14, 20)] []].

Definition IC_MIB_13 : list cmd := [
  Seed seed1234;
  SetB 0 8 14 0;
  SetB 1 8 14 20000;
  SetB 0 8 15 0;
  SetB 1 8 15 20000;
  SetB 0 8 16 0;
  SetB 1 8 16 20000;
  SetB 0 8 17 0;
  SetB 1 8 17 20000;
  SetB 0 8 18 0;
  SetB 1 8 18 20000;
  SetB 0 8 19 0;
  SetB 1 8 19 20000;
  SetB 0 8 20 0;
  SetB 1 8 20 20000;
  SetB 0 9 14 0;
  SetB 1 9 14 20000;
  SetB 0 9 15 0;
  SetB 1 9 15 20000;
  SetB 0 9 16 0;
  SetB 1 9 16 20000;
  SetB 0 9 17 0;
  SetB 1 9 17 20000;
  SetB 0 9 18 0;
  SetB 1 9 18 20000;
  SetB 0 9 19 0;
  SetB 1 9 19 20000;
  SetB 0 9 20 0;
  SetB 1 9 20 20000;
  SetB 0 10 14 0;
  SetB 1 10 14 20000;
  SetB 0 10 15 0;
  SetB 1 10 15 20000;
  SetB 0 10 16 0;
  SetB 1 10 16 20000;
  SetB 0 10 17 0;
  SetB 1 10 17 20000;
  SetB 0 10 18 0;
  SetB 1 10 18 20000;
  SetB 0 10 19 0;
  SetB 1 10 19 20000;
  SetB 0 10 20 0;
  SetB 1 10 20 20000;
  SetB 0 11 14 0;
  SetB 1 11 14 20000;
  SetB 0 11 15 0;
  SetB 1 11 15 20000;
  SetB 0 11 16 0;
  SetB 1 11 16 20000;
  SetB 0 11 17 0;
  SetB 1 11 17 20000;
  SetB 0 11 18 0;
  SetB 1 11 18 20000;
  SetB 0 11 19 0;
  SetB 1 11 19 20000;
  SetB 0 11 20 0;
  SetB 1 11 20 20000;
  SetB 0 12 14 0;
  SetB 1 12 14 20000;
  SetB 0 12 15 0;
  SetB 1 12 15 20000;
  SetB 0 12 16 0;
  SetB 1 12 16 20000;
  SetB 0 12 17 0;
  SetB 1 12 17 20000;
  SetB 0 12 18 0;
  SetB 1 12 18 20000;
  SetB 0 12 19 0;
  SetB 1 12 19 20000;
  SetB 0 12 20 0;
  SetB 1 12 20 20000;
  SetB 0 13 14 0;
  SetB 1 13 14 20000;
  SetB 0 13 15 0;
  SetB 1 13 15 20000;
  SetB 0 13 16 0;
  SetB 1 13 16 20000;
  SetB 0 13 17 0;
  SetB 1 13 17 20000;
  SetB 0 13 18 0;
  SetB 1 13 18 20000;
  SetB 0 13 19 0;
  SetB 1 13 19 20000;
  SetB 0 13 20 0;
  SetB 1 13 20 20000;
  SetB 0 14 14 0;
  SetB 1 14 14 20000;
  SetB 0 14 15 0;
  SetB 1 14 15 20000;
  SetB 0 14 16 0;
  SetB 1 14 16 20000;
  SetB 0 14 17 0;
  SetB 1 14 17 20000;
  SetB 0 14 18 0;
  SetB 1 14 18 20000;
  SetB 0 14 19 0;
  SetB 1 14 19 20000;
  SetB 0 14 20 0;
  SetB 1 14 20 20000;
  SetH 8 17 None (Some 25000) (Some 40000) None None None None None None;
  SetH 10 17 None (Some 10000) (Some 20000) None None None None None None;
  SetH 11 17 (Some 50000) (Some (-50000)) (Some 60000) None None None None None None;
  SetH 12 17 None (Some 20000) (Some 30000) None None None None None None;
  SetH 13 17 None (Some 5000) (Some 40000) None None (Some 60000) (Some 70000) None None;
  SetH 13 19 None (Some 30000) (Some 50000) None None None None None None;
  SetH 14 20 None (Some 0) (Some 0) None None (Some 20000) (Some 40000) None None;
  MoveIB;
  ExpT 11 17 (-50000);
  ExpT 10 17 10000;
  ExpT 8 17 15000;
  ExpT 12 17 20000;
  ExpT 13 17 5000;
  ExpT 13 19 30000;
  ExpT 14 20 20000;
  Reset [(11, 17); (10, 17); (8, 17); (12, 17); (13, 17); (13, 19); (14, 20)] [(0, 8, 14); (0, 8, 15); (0, 8, 16); (0, 8, 17); (0, 8, 18); (0, 8, 19); (0, 8, 20); (0, 9, 14); (0, 9, 15); (0, 9, 16); (0, 9, 17); (0, 9, 18); (0, 9, 19); (0, 9, 20); (0, 10, 14); (0, 10, 15); (0, 10, 16); (0, 10, 17); (0, 10, 18); (0, 10, 19); (0, 10, 20); (0, 11, 14); (0, 11, 15); (0, 11, 16); (0, 11, 17); (0, 11, 18); (0, 11, 19); (0, 11, 20); (0, 12, 14); (0, 12, 15); (0, 12, 16); (0, 12, 17); (0, 12, 18); (0, 12, 19); (0, 12, 20); (0, 13, 14); (0, 13, 15); (0, 13, 16); (0, 13, 17); (0, 13, 18); (0, 13, 19); (0, 13, 20); (0, 14, 14); (0, 14, 15); (0, 14, 16); (0, 14, 17); (0, 14, 18); (0, 14, 19); (2, 13, 17); (2, 14, 20)] []].

Definition IC_MIB_14 : list cmd := [
  Seed seed1234;
  SetB 0 8 14 0;
  SetB 1 8 14 20000;
  SetB 0 8 15 0;
  SetB 1 8 15 20000;
  SetB 0 8 16 0;
  SetB 1 8 16 20000;
  SetB 0 8 17 0;
  SetB 1 8 17 20000;
  SetB 0 8 18 0;
  SetB 1 8 18 20000;
  SetB 0 8 19 0;
  SetB 1 8 19 20000;
  SetB 0 8 20 0;
  SetB 1 8 20 20000;
  SetB 0 9 14 0;
  SetB 1 9 14 20000;
  SetB 0 9 15 0;
  SetB 1 9 15 20000;
  SetB 0 9 16 0;
  SetB 1 9 16 20000;
  SetB 0 9 17 0;
  SetB 1 9 17 20000;
  SetB 0 9 18 0;
  SetB 1 9 18 20000;
  SetB 0 9 19 0;
  SetB 1 9 19 20000;
  SetB 0 9 20 0;
  SetB 1 9 20 20000;
  SetB 0 10 14 0;
  SetB 1 10 14 20000;
  SetB 0 10 15 0;
  SetB 1 10 15 20000;
  SetB 0 10 16 0;
  SetB 1 10 16 20000;
  SetB 0 10 17 0;
  SetB 1 10 17 20000;
  SetB 0 10 18 0;
  SetB 1 10 18 20000;
  SetB 0 10 19 0;
  SetB 1 10 19 20000;
  SetB 0 10 20 0;
  SetB 1 10 20 20000;
  SetB 0 11 14 0;
  SetB 1 11 14 20000;
  SetB 0 11 15 0;
  SetB 1 11 15 20000;
  SetB 0 11 16 0;
  SetB 1 11 16 20000;
  SetB 0 11 17 0;
  SetB 1 11 17 20000;
  SetB 0 11 18 0;
  SetB 1 11 18 20000;
  SetB 0 11 19 0;
  SetB 1 11 19 20000;
  SetB 0 11 20 0;
  SetB 1 11 20 20000;
  SetB 0 12 14 0;
  SetB 1 12 14 20000;
  SetB 0 12 15 0;
  SetB 1 12 15 20000;
  SetB 0 12 16 0;
  SetB 1 12 16 20000;
  SetB 0 12 17 0;
  SetB 1 12 17 20000;
  SetB 0 12 18 0;
  SetB 1 12 18 20000;
  SetB 0 12 19 0;
  SetB 1 12 19 20000;
  SetB 0 12 20 0;
  SetB 1 12 20 20000;
  SetB 0 13 14 0;
  SetB 1 13 14 20000;
  SetB 0 13 15 0;
  SetB 1 13 15 20000;
  SetB 0 13 16 0;
  SetB 1 13 16 20000;
  SetB 0 13 17 0;
  SetB 1 13 17 20000;
  SetB 0 13 18 0;
  SetB 1 13 18 20000;
  SetB 0 13 19 0;
  SetB 1 13 19 20000;
  SetB 0 13 20 0;
  SetB 1 13 20 20000;
  SetB 0 14 14 0;
  SetB 1 14 14 20000;
  SetB 0 14 15 0;
  SetB 1 14 15 20000;
  SetB 0 14 16 0;
  SetB 1 14 16 20000;
  SetB 0 14 17 0;
  SetB 1 14 17 20000;
  SetB 0 14 18 0;
  SetB 1 14 18 20000;
  SetB 0 14 19 0;
  SetB 1 14 19 20000;
  SetB 0 14 20 0;
  SetB 1 14 20 20000;
  SetH 8 17 None (Some 25000) (Some 40000) None None None None None None;
  SetH 10 17 None (Some 10000) (Some 20000) None None None None None None;
  SetH 11 17 (Some 80000) (Some (-50000)) (Some 60000) None None None None None None;
  SetH 12 17 None (Some 20000) (Some 30000) None None None None None None;
  SetH 13 17 None (Some 5000) (Some 40000) None None (Some 60000) (Some 70000) None None;
  SetH 13 19 None (Some 30000) (Some 50000) None None None None None None;
  SetH 14 20 None (Some 0) (Some 0) None None (Some 20000) (Some 40000) None None;
  MoveIB;
  ExpT 11 17 (-50000);
  ExpT 10 17 10000;
  ExpT 8 17 25000;
  ExpT 12 17 20000;
  ExpT 13 17 5000;
  ExpT 13 19 30000;
  ExpT 14 20 20000;
  ExpT 15 17 20000;
  Reset [(11, 17); (10, 17); (8, 17); (12, 17); (13, 17); (13, 19); (14, 20); (15, 17)] [(0, 8, 14); (0, 8, 15); (0, 8, 16); (0, 8, 17); (0, 8, 18); (0, 8, 19); (0, 8, 20); (0, 9, 14); (0, 9, 15); (0, 9, 16); (0, 9, 17); (0, 9, 18); (0, 9, 19); (0, 9, 20); (0, 10, 14); (0, 10, 15); (0, 10, 16); (0, 10, 17); (0, 10, 18); (0, 10, 19); (0, 10, 20); (0, 11, 14); (0, 11, 15); (0, 11, 16); (0, 11, 17); (0, 11, 18); (0, 11, 19); (0, 11, 20); (0, 12, 14); (0, 12, 15); (0, 12, 16); (0, 12, 17); (0, 12, 18); (0, 12, 19); (0, 12, 20); (0, 13, 14); (0, 13, 15); (0, 13, 16); (0, 13, 17); (0, 13, 18); (0, 13, 19); (0, 13, 20); (0, 14, 14); (0, 14, 15); (0, 14, 16); (0, 14, 17); (0, 14, 18); (0, 14, 19); (2, 13, 17); (2, 14, 20)] []].

Definition IC_MIB_15 : list cmd := [
  Seed seed1234;
  SetB 0 8 14 0;
  SetB 1 8 14 20000;
  SetB 0 8 15 0;
  SetB 1 8 15 20000;
  SetB 0 8 16 0;
  SetB 1 8 16 20000;
  SetB 0 8 17 0;
  SetB 1 8 17 20000;
  SetB 0 8 18 0;
  SetB 1 8 18 20000;
  SetB 0 8 19 0;
  SetB 1 8 19 20000;
  SetB 0 8 20 0;
  SetB 1 8 20 20000;
  SetB 0 9 14 0;
  SetB 1 9 14 20000;
  SetB 0 9 15 0;
  SetB 1 9 15 20000;
  SetB 0 9 16 0;
  SetB 1 9 16 20000;
  SetB 0 9 17 0;
  SetB 1 9 17 20000;
  SetB 0 9 18 0;
  SetB 1 9 18 20000;
  SetB 0 9 19 0;
  SetB 1 9 19 20000;
  SetB 0 9 20 0;
  SetB 1 9 20 20000;
  SetB 0 10 14 0;
  SetB 1 10 14 20000;
  SetB 0 10 15 0;
  SetB 1 10 15 20000;
  SetB 0 10 16 0;
  SetB 1 10 16 20000;
  SetB 0 10 17 0;
  SetB 1 10 17 20000;
  SetB 0 10 18 0;
  SetB 1 10 18 20000;
  SetB 0 10 19 0;
  SetB 1 10 19 20000;
  SetB 0 10 20 0;
  SetB 1 10 20 20000;
  SetB 0 11 14 0;
  SetB 1 11 14 20000;
  SetB 0 11 15 0;
  SetB 1 11 15 20000;
  SetB 0 11 16 0;
  SetB 1 11 16 20000;
  SetB 0 11 17 0;
  SetB 1 11 17 20000;
  SetB 0 11 18 0;
  SetB 1 11 18 20000;
  SetB 0 11 19 0;
  SetB 1 11 19 20000;
  SetB 0 11 20 0;
  SetB 1 11 20 20000;
  SetB 0 12 14 0;
  SetB 1 12 14 20000;
  SetB 0 12 15 0;
  SetB 1 12 15 20000;
  SetB 0 12 16 0;
  SetB 1 12 16 20000;
  SetB 0 12 17 0;
  SetB 1 12 17 20000;
  SetB 0 12 18 0;
  SetB 1 12 18 20000;
  SetB 0 12 19 0;
  SetB 1 12 19 20000;
  SetB 0 12 20 0;
  SetB 1 12 20 20000;
  SetB 0 13 14 0;
  SetB 1 13 14 20000;
  SetB 0 13 15 0;
  SetB 1 13 15 20000;
  SetB 0 13 16 0;
  SetB 1 13 16 20000;
  SetB 0 13 17 0;
  SetB 1 13 17 20000;
  SetB 0 13 18 0;
  SetB 1 13 18 20000;
  SetB 0 13 19 0;
  SetB 1 13 19 20000;
  SetB 0 13 20 0;
  SetB 1 13 20 20000;
  SetB 0 14 14 0;
  SetB 1 14 14 20000;
  SetB 0 14 15 0;
  SetB 1 14 15 20000;
  SetB 0 14 16 0;
  SetB 1 14 16 20000;
  SetB 0 14 17 0;
  SetB 1 14 17 20000;
  SetB 0 14 18 0;
  SetB 1 14 18 20000;
  SetB 0 14 19 0;
  SetB 1 14 19 20000;
  SetB 0 14 20 0;
  SetB 1 14 20 20000;
  SetH 8 17 None (Some 25000) (Some 40000) None None None None None None;
  SetH 10 17 None (Some 10000) (Some 20000) None None None None None None;
  SetH 11 17 (Some 60000) (Some (-50000)) (Some 60000) None None None None None None;
  SetH 12 17 None (Some 20000) (Some 30000) None None None None None None;
  SetH 13 17 None (Some 5000) (Some 40000) None None (Some 60000) (Some 70000) None None;
  SetH 13 19 None (Some 30000) (Some 50000) None None None None None None;
  SetH 14 20 None (Some 0) (Some 0) None None (Some 20000) (Some 40000) None None;
  MoveIB;
  ExpT 11 17 (-50000);
  ExpT 10 17 10000;
  ExpT 8 17 25000;
  ExpT 12 17 20000;
  ExpT 13 17 5000;
  ExpT 13 19 30000;
  ExpT 14 20 20000;
  Reset [(11, 17); (10, 17); (8, 17); (12, 17); (13, 17); (13, 19); (14, 20)] [(0, 8, 14); (0, 8, 15); (0, 8, 16); (0, 8, 17); (0, 8, 18); (0, 8, 19); (0, 8, 20); (0, 9, 14); (0, 9, 15); (0, 9, 16); (0, 9, 17); (0, 9, 18); (0, 9, 19); (0, 9, 20); (0, 10, 14); (0, 10, 15); (0, 10, 16); (0, 10, 17); (0, 10, 18); (0, 10, 19); (0, 10, 20); (0, 11, 14); (0, 11, 15); (0, 11, 16); (0, 11, 17); (0, 11, 18); (0, 11, 19); (0, 11, 20); (0, 12, 14); (0, 12, 15); (0, 12, 16); (0, 12, 17); (0, 12, 18); (0, 12, 19); (0, 12, 20); (0, 13, 14); (0, 13, 15); (0, 13, 16); (0, 13, 17); (0, 13, 18); (0, 13, 19); (0, 13, 20); (0, 14, 14); (0, 14, 15); (0, 14, 16); (0, 14, 17); (0, 14, 18); (0, 14, 19); (2, 13, 17); (2, 14, 20)] []].

Definition IC_MIB_16 : list cmd := [
  SetB 0 8 14 0;
  SetB 1 8 14 20000;
  SetB 0 8 15 0;
  SetB 1 8 15 20000;
  SetB 0 8 16 0;
  SetB 1 8 16 20000;
  SetB 0 8 17 0;
  SetB 1 8 17 20000;
  SetB 0 8 18 0;
  SetB 1 8 18 20000;
  SetB 0 8 19 0;
  SetB 1 8 19 20000;
  SetB 0 8 20 0;
  SetB 1 8 20 20000;
  SetB 0 9 14 0;
  SetB 1 9 14 20000;
  SetB 0 9 15 0;
  SetB 1 9 15 20000;
  SetB 0 9 16 0;
  SetB 1 9 16 20000;
  SetB 0 9 17 0;
  SetB 1 9 17 20000;
  SetB 0 9 18 0;
  SetB 1 9 18 20000;
  SetB 0 9 19 0;
  SetB 1 9 19 20000;
  SetB 0 9 20 0;
  SetB 1 9 20 20000;
  SetB 0 10 14 0;
  SetB 1 10 14 20000;
  SetB 0 10 15 0;
  SetB 1 10 15 20000;
  SetB 0 10 16 0;
  SetB 1 10 16 20000;
  SetB 0 10 17 0;
  SetB 1 10 17 20000;
  SetB 0 10 18 0;
  SetB 1 10 18 20000;
  SetB 0 10 19 0;
  SetB 1 10 19 20000;
  SetB 0 10 20 0;
  SetB 1 10 20 20000;
  SetB 0 11 14 0;
  SetB 1 11 14 20000;
  SetB 0 11 15 0;
  SetB 1 11 15 20000;
  SetB 0 11 16 0;
  SetB 1 11 16 20000;
  SetB 0 11 17 0;
  SetB 1 11 17 20000;
  SetB 0 11 18 0;
  SetB 1 11 18 20000;
  SetB 0 11 19 0;
  SetB 1 11 19 20000;
  SetB 0 11 20 0;
  SetB 1 11 20 20000;
  SetB 0 12 14 0;
  SetB 1 12 14 20000;
  SetB 0 12 15 0;
  SetB 1 12 15 20000;
  SetB 0 12 16 0;
  SetB 1 12 16 20000;
  SetB 0 12 17 0;
  SetB 1 12 17 20000;
  SetB 0 12 18 0;
  SetB 1 12 18 20000;
  SetB 0 12 19 0;
  SetB 1 12 19 20000;
  SetB 0 12 20 0;
  SetB 1 12 20 20000;
  SetB 0 13 14 0;
  SetB 1 13 14 20000;
  SetB 0 13 15 0;
  SetB 1 13 15 20000;
  SetB 0 13 16 0;
  SetB 1 13 16 20000;
  SetB 0 13 17 0;
  SetB 1 13 17 20000;
  SetB 0 13 18 0;
  SetB 1 13 18 20000;
  SetB 0 13 19 0;
  SetB 1 13 19 20000;
  SetB 0 13 20 0;
  SetB 1 13 20 20000;
  SetB 0 14 14 0;
  SetB 1 14 14 20000;
  SetB 0 14 15 0;
  SetB 1 14 15 20000;
  SetB 0 14 16 0;
  SetB 1 14 16 20000;
  SetB 0 14 17 0;
  SetB 1 14 17 20000;
  SetB 0 14 18 0;
  SetB 1 14 18 20000;
  SetB 0 14 19 0;
  SetB 1 14 19 20000;
  SetB 0 14 20 0;
  SetB 1 14 20 20000;
  MoveIB;
  Reset [] [(0, 8, 14); (0, 8, 15); (0, 8, 16); (0, 8, 17); (0, 8, 18); (0, 8, 19); (0, 8, 20); (0, 9, 14); (0, 9, 15); (0, 9, 16); (0, 9, 17); (0, 9, 18); (0, 9, 19); (0, 9, 20); (0, 10, 14); (0, 10, 15); (0, 10, 16); (0, 10, 17); (0, 10, 18); (0, 10, 19); (0, 10, 20); (0, 11, 14); (0, 11, 15); (0, 11, 16); (0, 11, 17); (0, 11, 18); (0, 11, 19); (0, 11, 20); (0, 12, 14); (0, 12, 15); (0, 12, 16); (0, 12, 17); (0, 12, 18); (0, 12, 19); (0, 12, 20); (0, 13, 14); (0, 13, 15); (0, 13, 16); (0, 13, 17); (0, 13, 18); (0, 13, 19); (0, 13, 20); (0, 14, 14); (0, 14, 15); (0, 14, 16); (0, 14, 17); (0, 14, 18); (0, 14, 19); (0, 14, 20)] []].

Definition IC_MIB_17 : list cmd := [
  Seed seed1234;
  SetH 11 17 (Some 50000) (Some (-40000)) (Some 60000) None None None None None None;
  MoveIB;
  ExpT 11 17 (-40000);
  ExpT 12 17 90000;
  SetT 12 17 0;
  Seed seed2000;
  SetT 11 17 50000;
  MoveIB;
  ExpT 11 17 (-40000);
  ExpT 10 18 90000;
  Reset [(11, 17); (10, 18)] [(0, 11, 17)] []].

Definition move_intersecting_body_tests : list cmd :=
  setup ++ IC_MIB_1 ++ IC_MIB_2 ++ IC_MIB_3 ++ IC_MIB_4 ++ IC_MIB_5 ++ IC_MIB_6 ++ IC_MIB_7 ++ IC_MIB_8 ++ IC_MIB_9 ++ IC_MIB_10 ++ IC_MIB_11 ++ IC_MIB_12 ++ IC_MIB_13 ++ IC_MIB_14 ++ IC_MIB_15 ++ IC_MIB_16 ++ IC_MIB_17.

Example move_intersecting_body_tests_pass : z_run move_intersecting_body_tests = None.
Proof. vm_compute. reflexivity. Qed.
