(** test/unit_tests/test_relax.cpp:911-1597, TEST RelaxTerrain. Produced by tools/translate_tests.py. *)
From Coq Require Import ZArith List.
From Verif Require Import Outcome Num State ModelBodyPos TestLang.
Import ListNotations.
Open Scope Z_scope.

Definition seed200 : list Z :=
  [4070049562; 2122330729; 973013776; 638056260; 2553015082; 1106425527; 1839571788; 2465016911; 3281959257; 3528833550; 12286171; 498868409; 1535123033; 1871685771; 3907109766; 3122568234; 1958852920; 2801210881; 4216810503; 4155276339; 3725269915; 2682156233; 4234955919; 1399657089; 3965400302; 3035724055; 1304352853; 2614434200; 3633986823; 529536406; 520644406; 804106189; 3374024464; 901064691; 1075911018; 1305152454; 412444451; 2222010872; 4052263156; 1608212639; 3547858336; 4169944493; 2226189499; 3507354541; 3751655741; 3231367956; 2484104690; 242126421; 1933098226; 2438403444; 2921251968; 2076918915; 1801419319; 4114935135; 2750468984; 3518949560; 2614158851; 2726963873; 452836040; 1430754432; 4149129908; 3810107226; 3258593469; 2677078342; 2919039438; 3623223907; 1414539340; 921523898; 113622852; 1299833022; 3451695087; 423770164; 4178269550; 2462891014; 1215209938; 4001772799; 2787754464; 3907856283; 1140636356; 2157504704; 806118745; 895390148; 1799796914; 2156219358; 2860443511; 1447471201; 2222266781; 1146535128; 3670017430; 2056959111; 734487969; 1248656286; 4201158841; 2542992481; 1293917847; 2238784389; 998361256; 1159937306; 3400169665; 2680669537; 3796621393; 1440632135; 4240414938; 428034048; 68992685; 1296478802; 878320166; 1270647589; 2772654235; 1806628734; 2193319644; 983952811; 903355114; 24718766; 1326861729; 2629256621; 75622543; 1172329297; 2769762333; 3321734769; 2270606024; 1276850931; 2625824448; 3805317659; 1284734151; 3024496888; 3821815012; 3594806515; 3090783261; 4051644134; 4092724334; 1610685600; 1705561791; 1128815659; 4246210007; 766696062; 1943423257; 3604793281; 3127049333; 1767654495; 1478011604; 2856650145; 3934860148; 979657068; 276666367; 2332604053; 39917964; 632478634; 2049827373; 3873539983; 2019750583; 1131736370; 135885181; 3064685280; 3921725839; 1934491197; 3995452714; 3705766025; 2208914378; 1262195799; 2333563696; 657309221; 2376200026; 1245312708; 3627684475; 2356370602; 3939784310; 3340661830; 1050947561; 1998457606; 3894465885; 225488430; 2959262815; 3669493948; 3105589767; 2523361792; 1273860978; 3356936562; 2270488939; 289652731; 742830352; 3746241917; 1669756104; 1260733599; 23599388; 3577143635; 682229332; 2847283848; 3291246801; 2085309516; 2217928463; 3570532317; 2914727745; 809200600; 294285120; 1372207965; 3731448834; 3016204355; 1670372996; 2640292583; 240957245; 914593982; 2063948091; 3319329228; 3518656152; 3897025613; 2198470673; 2361820318; 113076557; 3236976500; 3603698792; 2453303386; 651879988; 2567889894; 4111776131; 994129566; 124527299; 3637485200; 940927060; 3517037487; 3956418466; 671941162; 1387034634; 3676803557; 4290939705; 2213355003; 2388421429; 2016429077; 2668794840; 2145642639; 1483136728; 3615144350; 3809382142; 3000157492; 486243697; 2865740557; 723599746; 2710304289; 3030986600; 3424744219; 4037099371; 673672778; 3710936895; 3208499029; 3771284671; 2703956760; 721315039; 2679318933; 426263978; 4257246340].

Definition seed201 : list Z :=
  [489216512; 2274346537; 3212123648; 3608376673; 2624480100; 3044573685; 3477599839; 993946583; 3061699593; 3641870179; 601453520; 4045611898; 1148954812; 120790751; 633956314; 1267762447; 979544227; 3082147848; 1011729946; 3732212045; 2963629698; 4071182360; 637149026; 530929569; 1913862432; 2790582325; 3010095805; 438150115; 415059817; 1710212645; 3790878096; 2187204741; 3735901247; 387496954; 3627504528; 2434375304; 1175541456; 3456923824; 3374467938; 1775690998; 3011355316; 961054235; 2124851288; 3379408407; 3592041382; 3221793424; 1735956018; 3456715796; 743987114; 3704899304; 1569388700; 2905771440; 4282463733; 2181060862; 1463099384; 1418985704; 2170589137; 2422072491; 2316479716; 4026259913; 1070894588; 1317930870; 3490706281; 1587002453; 827392603; 1460452534; 344672784; 2889586395; 404423630; 2423862103; 1503090136; 3288147290; 3373847043; 723735461; 2923549792; 4029122032; 162948576; 2612458762; 1251700058; 2344124010; 1304510346; 3032560762; 4225598684; 3346209984; 698825020; 1537638160; 4132027197; 4184602426; 3013695890; 586492796; 3043631772; 3459259800; 3855497806; 2558828970; 1357981100; 2583731164; 1291768217; 741191428; 4056887158; 3350877795; 403382364; 3163585131; 2971230758; 1318512593; 4127557885; 3613854050; 3064817841; 3308708582; 371193750; 2030590272; 3929926938; 2071364329; 880563190; 4068508373; 1307661973; 350988450; 2860426977; 1341023678; 3180416256; 1485771904; 3540080922; 998673223; 3214730766; 3919456670; 2513603287; 1828196426; 3218929132; 2026020579; 1600475988; 553113173; 2107624203; 2462605240; 1103321564; 542791776; 3484225722; 1138352390; 1908176709; 1954726146; 2994673905; 3880962360; 296934280; 3536407048; 3711774152; 2630214293; 4015087279; 1379299934; 2139121961; 2062397078; 341019839; 647198156; 2866939738; 2321294494; 784355322; 1998498841; 1922539508; 1111091163; 457110523; 2102261763; 844240500; 3207956705; 1677956247; 1619541237; 3190119565; 524631031; 506419006; 3835295007; 2064348576; 2126881684; 1438519065; 277671172; 463543435; 2574259657; 4021791995; 3035747388; 3474962270; 1058922229; 3373624829; 907669101; 56409840; 3794696708; 3345908400; 1372830671; 1427789552; 3051914940; 3781368258; 244783614; 1970893579; 3652456093; 1645546283; 441803233; 2161812353; 4132400947; 4076576123; 3651876770; 54056312; 2441645773; 3734696004; 4283809983; 1967095939; 1208158997; 872605199; 3088500899; 3109238242; 1638494011; 3322713848; 2833748831; 1393293820; 939194119; 418503255; 1649161259; 3131877953; 3187137331; 3831394330; 1296687484; 723165075; 778037251; 335798272; 3841725481; 3360392532; 3102968548; 852820260; 1445394500; 559278905; 2189466729; 840291122; 788841035; 901218734; 2122300122; 1132789833; 3884873424; 2664433691; 1084560264; 1011858998; 747325123; 731668405; 3492233268; 2698751253; 2571581986; 1339824301; 1136753431; 3101197349; 975084742; 48165800; 1271493354; 3576127435; 2090513739; 2310101016; 2886305745; 1883030722; 968439745].

Definition setup : list cmd := [
  SetImpactArea (mkArea 4 20 1 20);
  SetImpactArea (mkArea 4 16 1 20);
  SetImpactArea (mkArea 4 16 9 20);
  SetImpactArea (mkArea 4 16 9 20)].

Definition RE_RT_1 : list cmd := [
  Seed seed200;
  SetRelaxArea (mkArea 10 20 1 20);
  SetRelaxArea (mkArea 10 15 1 20);
  SetRelaxArea (mkArea 10 15 10 20);
  SetRelaxArea (mkArea 10 15 10 15);
  SetT 10 15 (-10000);
  RelaxT;
  ExpRelaxArea (mkArea 10 15 10 15);
  ExpT 10 15 (-10000);
  ExpT 10 16 0;
  ExpRecs 0%nat;
  Reset [(10, 15); (10, 16)] [] []].

Definition RE_RT_2 : list cmd := [
  Seed seed200;
  SetRelaxArea (mkArea 10 15 10 15);
  SetRelaxArea (mkArea 10 15 10 15);
  SetRelaxArea (mkArea 10 15 10 15);
  SetRelaxArea (mkArea 10 15 10 15);
  SetT 10 15 (-20000);
  RelaxT;
  ExpRelaxArea (mkArea 5 15 10 20);
  ExpT 10 15 (-10000);
  ExpT 10 16 (-10000);
  ExpRecs 0%nat;
  Reset [(10, 15); (10, 16)] [] []].

Definition RE_RT_3 : list cmd := [
  Seed seed200;
  SetRelaxArea (mkArea 10 15 10 15);
  SetRelaxArea (mkArea 10 15 10 15);
  SetRelaxArea (mkArea 10 15 10 15);
  SetRelaxArea (mkArea 10 15 10 15);
  SetH 10 15 (Some (-20000)) (Some (-10000)) (Some 0) None None None None None None;
  RelaxT;
  ExpRelaxArea (mkArea 5 15 10 20);
  ExpT 10 15 (-10000);
  ExpT 10 16 (-10000);
  ExpRecs 0%nat;
  Reset [(10, 15); (10, 16)] [(0, 10, 15)] []].

Definition RE_RT_4 : list cmd := [
  Seed seed200;
  SetRelaxArea (mkArea 10 15 10 15);
  SetRelaxArea (mkArea 10 15 10 15);
  SetRelaxArea (mkArea 10 15 10 15);
  SetRelaxArea (mkArea 10 15 10 15);
  SetH 10 15 (Some (-40000)) (Some (-40000)) (Some 0) None None None None None None;
  RelaxT;
  ExpRelaxArea (mkArea 5 15 10 20);
  ExpT 10 15 (-40000);
  ExpRecs 0%nat;
  Reset [(10, 15); (10, 16)] [(0, 10, 15)] []].

Definition RE_RT_5 : list cmd := [
  Seed seed200;
  SetRelaxArea (mkArea 10 15 10 15);
  SetRelaxArea (mkArea 10 15 10 15);
  SetRelaxArea (mkArea 10 15 10 15);
  SetRelaxArea (mkArea 10 15 10 15);
  SetH 10 15 (Some (-40000)) (Some (-40000)) (Some (-20000)) None None None None None None;
  RelaxT;
  ExpRelaxArea (mkArea 5 15 10 20);
  ExpT 10 16 (-10000);
  ExpH 10 15 (Some (-40000)) (Some (-20000)) (Some (-10000)) None None;
  ExpRec 0%nat 0 10 15 0 50000 (-20000) 10000;
  ExpRecs 1%nat;
  Reset [(10, 15); (10, 16)] [(0, 10, 15)] [(0, 10, 15)]].

Definition RE_RT_6 : list cmd := [
  Seed seed200;
  SetRelaxArea (mkArea 10 15 10 15);
  SetRelaxArea (mkArea 10 15 10 15);
  SetRelaxArea (mkArea 10 15 10 15);
  SetRelaxArea (mkArea 10 15 10 15);
  SetH 10 15 (Some (-80000)) (Some (-70000)) (Some (-50000)) (Some (-50000)) (Some 0) None None None None;
  Push 0 10 15 0 50000 (-50000) 50000;
  RelaxT;
  ExpRelaxArea (mkArea 5 15 10 20);
  ExpT 10 16 (-10000);
  ExpH 10 15 (Some (-70000)) (Some (-50000)) (Some 0) None None;
  ExpRecs 1%nat;
  Reset [(10, 15); (10, 16)] [(0, 10, 15)] [(0, 10, 15)]].

Definition RE_RT_7 : list cmd := [
  Seed seed200;
  SetRelaxArea (mkArea 10 15 10 15);
  SetRelaxArea (mkArea 10 15 10 15);
  SetRelaxArea (mkArea 10 15 10 15);
  SetRelaxArea (mkArea 10 15 10 15);
  SetH 10 15 (Some (-80000)) (Some (-80000)) (Some (-50000)) (Some (-50000)) (Some 0) None None None None;
  Push 0 10 15 0 50000 (-50000) 50000;
  RelaxT;
  ExpRelaxArea (mkArea 5 15 10 20);
  ExpH 10 15 (Some (-80000)) (Some (-50000)) (Some 0) None None;
  ExpRecs 1%nat;
  Reset [(10, 15)] [(0, 10, 15)] [(0, 10, 15)]].

Definition RE_RT_8 : list cmd := [
  Seed seed200;
  SetRelaxArea (mkArea 10 15 10 15);
  SetRelaxArea (mkArea 10 15 10 15);
  SetRelaxArea (mkArea 10 15 10 15);
  SetRelaxArea (mkArea 10 15 10 15);
  SetH 10 15 (Some (-80000)) (Some (-80000)) (Some (-50000)) (Some (-50000)) (Some (-30000)) None None None None;
  Push 0 10 15 0 50000 (-50000) 20000;
  RelaxT;
  ExpRelaxArea (mkArea 5 15 10 20);
  ExpT 10 16 (-10000);
  ExpT 9 15 (-10000);
  ExpH 10 15 (Some (-80000)) (Some (-50000)) (Some (-10000)) None None;
  ExpRec 1%nat 0 10 15 0 50000 (-50000) 10000;
  ExpRec 2%nat 0 10 15 0 50000 (-50000) 10000;
  ExpRecs 3%nat;
  Reset [(9, 15); (10, 15); (10, 16)] [(0, 10, 15)] [(0, 10, 15)]].

Definition RE_RT_9 : list cmd := [
  Seed seed200;
  SetRelaxArea (mkArea 10 15 10 15);
  SetRelaxArea (mkArea 10 15 10 15);
  SetRelaxArea (mkArea 10 15 10 15);
  SetRelaxArea (mkArea 10 15 10 15);
  SetH 10 15 (Some (-20000)) None None None None (Some (-10000)) (Some 0) None None;
  RelaxT;
  ExpRelaxArea (mkArea 5 15 10 20);
  ExpT 10 15 (-10000);
  ExpT 10 16 (-10000);
  ExpRecs 0%nat;
  Reset [(10, 15); (10, 16)] [(2, 10, 15)] []].

Definition RE_RT_10 : list cmd := [
  Seed seed200;
  SetRelaxArea (mkArea 10 15 10 15);
  SetRelaxArea (mkArea 10 15 10 15);
  SetRelaxArea (mkArea 10 15 10 15);
  SetRelaxArea (mkArea 10 15 10 15);
  SetH 10 15 (Some (-40000)) None None None None (Some (-40000)) (Some 0) None None;
  RelaxT;
  ExpRelaxArea (mkArea 5 15 10 20);
  ExpT 10 15 (-40000);
  ExpRecs 0%nat;
  Reset [(10, 15)] [(2, 10, 15)] []].

Definition RE_RT_11 : list cmd := [
  Seed seed200;
  SetRelaxArea (mkArea 10 15 10 15);
  SetRelaxArea (mkArea 10 15 10 15);
  SetRelaxArea (mkArea 10 15 10 15);
  SetRelaxArea (mkArea 10 15 10 15);
  SetH 10 15 (Some (-40000)) None None None None (Some (-40000)) (Some (-20000)) None None;
  RelaxT;
  ExpRelaxArea (mkArea 5 15 10 20);
  ExpT 10 16 (-10000);
  ExpH 10 15 (Some (-40000)) None None (Some (-20000)) (Some (-10000));
  ExpRec 0%nat 2 10 15 0 50000 (-20000) 10000;
  ExpRecs 1%nat;
  Reset [(10, 15); (10, 16)] [(2, 10, 15)] [(2, 10, 15)]].

Definition RE_RT_12 : list cmd := [
  Seed seed200;
  SetRelaxArea (mkArea 10 15 10 15);
  SetRelaxArea (mkArea 10 15 10 15);
  SetRelaxArea (mkArea 10 15 10 15);
  SetRelaxArea (mkArea 10 15 10 15);
  SetH 10 15 (Some (-80000)) None None None None (Some (-70000)) (Some (-50000)) (Some (-50000)) (Some (-10000));
  Push 2 10 15 0 50000 (-50000) 40000;
  RelaxT;
  ExpRelaxArea (mkArea 5 15 10 20);
  ExpT 10 16 (-10000);
  ExpH 10 15 (Some (-70000)) None None (Some (-50000)) (Some (-10000));
  ExpRecs 1%nat;
  Reset [(10, 15); (10, 16)] [(2, 10, 15)] [(2, 10, 15)]].

Definition RE_RT_13 : list cmd := [
  Seed seed200;
  SetRelaxArea (mkArea 10 15 10 15);
  SetRelaxArea (mkArea 10 15 10 15);
  SetRelaxArea (mkArea 10 15 10 15);
  SetRelaxArea (mkArea 10 15 10 15);
  SetH 10 15 (Some (-80000)) None None None None (Some (-80000)) (Some (-50000)) (Some (-50000)) (Some 0);
  Push 2 10 15 0 50000 (-50000) 50000;
  RelaxT;
  ExpRelaxArea (mkArea 5 15 10 20);
  ExpH 10 15 (Some (-80000)) None None (Some (-50000)) (Some 0);
  ExpRecs 1%nat;
  Reset [(10, 15)] [(2, 10, 15)] [(2, 10, 15)]].

Definition RE_RT_14 : list cmd := [
  Seed seed200;
  SetRelaxArea (mkArea 10 15 10 15);
  SetRelaxArea (mkArea 10 15 10 15);
  SetRelaxArea (mkArea 10 15 10 15);
  SetRelaxArea (mkArea 10 15 10 15);
  SetH 10 15 (Some (-80000)) None None None None (Some (-80000)) (Some (-50000)) (Some (-50000)) (Some (-20000));
  Push 2 10 15 0 50000 (-50000) 30000;
  RelaxT;
  ExpRelaxArea (mkArea 5 15 10 20);
  ExpT 10 16 (-10000);
  ExpH 10 15 (Some (-80000)) None None (Some (-50000)) (Some (-10000));
  ExpRec 1%nat 2 10 15 0 50000 (-50000) 10000;
  ExpRecs 2%nat;
  Reset [(10, 15); (10, 16)] [(2, 10, 15)] [(2, 10, 15)]].

Definition RE_RT_15 : list cmd := [
  Seed seed200;
  SetRelaxArea (mkArea 10 15 10 15);
  SetRelaxArea (mkArea 10 15 10 15);
  SetRelaxArea (mkArea 10 15 10 15);
  SetRelaxArea (mkArea 10 15 10 15);
  SetH 10 15 (Some (-40000)) (Some (-20000)) (Some 0) None None (Some 20000) (Some 40000) None None;
  RelaxT;
  ExpRelaxArea (mkArea 5 15 10 20);
  ExpT 10 15 (-20000);
  ExpT 10 16 (-20000);
  ExpRecs 0%nat;
  Reset [(10, 15); (10, 16)] [(0, 10, 15); (2, 10, 15)] []].

Definition RE_RT_16 : list cmd := [
  Seed seed200;
  SetRelaxArea (mkArea 10 15 10 15);
  SetRelaxArea (mkArea 10 15 10 15);
  SetRelaxArea (mkArea 10 15 10 15);
  SetRelaxArea (mkArea 10 15 10 15);
  SetH 10 15 (Some (-80000)) (Some (-80000)) (Some (-60000)) None None (Some (-40000)) (Some 0) None None;
  RelaxT;
  ExpRelaxArea (mkArea 5 15 10 20);
  ExpT 10 16 (-20000);
  ExpH 10 15 (Some (-80000)) (Some (-60000)) (Some (-40000)) None None;
  ExpRec 0%nat 0 10 15 0 50000 (-60000) 20000;
  ExpRecs 1%nat;
  Reset [(10, 15); (10, 16)] [(0, 10, 15); (2, 10, 15)] [(0, 10, 15)]].

Definition RE_RT_17 : list cmd := [
  Seed seed200;
  SetRelaxArea (mkArea 10 15 10 15);
  SetRelaxArea (mkArea 10 15 10 15);
  SetRelaxArea (mkArea 10 15 10 15);
  SetRelaxArea (mkArea 10 15 10 15);
  SetH 10 15 (Some (-80000)) (Some (-80000)) (Some (-60000)) None None (Some (-40000)) (Some (-20000)) None None;
  RelaxT;
  ExpRelaxArea (mkArea 5 15 10 20);
  ExpT 10 16 (-20000);
  ExpT 9 15 (-10000);
  ExpH 10 15 (Some (-80000)) (Some (-60000)) (Some (-40000)) (Some (-20000)) (Some (-10000));
  ExpRec 0%nat 0 10 15 0 50000 (-60000) 20000;
  ExpRec 1%nat 2 10 15 0 50000 (-20000) 10000;
  ExpRecs 2%nat;
  Reset [(9, 15); (10, 15); (10, 16)] [(0, 10, 15); (2, 10, 15)] [(0, 10, 15); (2, 10, 15)]].

Definition RE_RT_18 : list cmd := [
  Seed seed200;
  SetRelaxArea (mkArea 10 15 10 15);
  SetRelaxArea (mkArea 10 15 10 15);
  SetRelaxArea (mkArea 10 15 10 15);
  SetRelaxArea (mkArea 10 15 10 15);
  SetH 10 15 (Some (-40000)) (Some (-20000)) (Some (-10000)) None None (Some 40000) (Some 50000) (Some 50000) (Some 70000);
  Push 2 10 15 0 50000 50000 20000;
  RelaxT;
  ExpRelaxArea (mkArea 5 15 10 20);
  ExpT 10 16 (-20000);
  ExpH 10 15 (Some (-20000)) None None (Some 50000) (Some 70000);
  ExpRecs 1%nat;
  Reset [(10, 15); (10, 16)] [(0, 10, 15); (2, 10, 15)] [(2, 10, 15)]].

Definition RE_RT_19 : list cmd := [
  Seed seed200;
  SetRelaxArea (mkArea 10 15 10 15);
  SetRelaxArea (mkArea 10 15 10 15);
  SetRelaxArea (mkArea 10 15 10 15);
  SetRelaxArea (mkArea 10 15 10 15);
  SetH 10 15 (Some (-80000)) (Some (-80000)) (Some (-60000)) None None (Some (-40000)) (Some (-30000)) (Some (-30000)) (Some 0);
  Push 2 10 15 0 50000 (-30000) 30000;
  RelaxT;
  ExpRelaxArea (mkArea 5 15 10 20);
  ExpT 10 16 (-20000);
  ExpH 10 15 (Some (-80000)) (Some (-60000)) (Some (-40000)) (Some (-30000)) (Some 0);
  ExpRec 1%nat 0 10 15 0 50000 (-60000) 20000;
  ExpRecs 2%nat;
  Reset [(10, 15); (10, 16)] [(0, 10, 15); (2, 10, 15)] [(0, 10, 15); (2, 10, 15)]].

Definition RE_RT_20 : list cmd := [
  Seed seed200;
  SetRelaxArea (mkArea 10 15 10 15);
  SetRelaxArea (mkArea 10 15 10 15);
  SetRelaxArea (mkArea 10 15 10 15);
  SetRelaxArea (mkArea 10 15 10 15);
  SetH 10 15 (Some (-80000)) (Some (-80000)) (Some (-60000)) None None (Some (-40000)) (Some (-30000)) (Some (-30000)) (Some (-20000));
  Push 2 10 15 0 50000 (-30000) 30000;
  RelaxT;
  ExpRelaxArea (mkArea 5 15 10 20);
  ExpT 10 16 (-20000);
  ExpT 9 15 (-10000);
  ExpH 10 15 (Some (-80000)) (Some (-60000)) (Some (-40000)) (Some (-30000)) (Some (-10000));
  ExpRec 1%nat 0 10 15 0 50000 (-60000) 20000;
  ExpRec 2%nat 2 10 15 0 50000 (-30000) 10000;
  ExpRecs 3%nat;
  Reset [(9, 15); (10, 15); (10, 16)] [(0, 10, 15); (2, 10, 15)] [(0, 10, 15); (2, 10, 15)]].

Definition RE_RT_21 : list cmd := [
  Seed seed200;
  SetRelaxArea (mkArea 10 15 10 15);
  SetRelaxArea (mkArea 10 15 10 15);
  SetRelaxArea (mkArea 10 15 10 15);
  SetRelaxArea (mkArea 10 15 10 15);
  SetH 10 15 (Some (-30000)) (Some (-10000)) (Some 0) (Some 0) (Some 10000) (Some 20000) (Some 30000) None None;
  Push 0 10 15 0 50000 (-50000) 10000;
  RelaxT;
  ExpRelaxArea (mkArea 5 15 10 20);
  ExpT 10 16 (-10000);
  ExpT 9 15 (-10000);
  ExpH 10 15 (Some (-10000)) (Some 0) (Some 10000) None None;
  ExpRecs 1%nat;
  Reset [(9, 15); (10, 15); (10, 16)] [(0, 10, 15); (2, 10, 15)] [(0, 10, 15)]].

Definition RE_RT_22 : list cmd := [
  Seed seed200;
  SetRelaxArea (mkArea 10 15 10 15);
  SetRelaxArea (mkArea 10 15 10 15);
  SetRelaxArea (mkArea 10 15 10 15);
  SetRelaxArea (mkArea 10 15 10 15);
  SetH 10 15 (Some (-80000)) (Some (-80000)) (Some (-60000)) (Some (-60000)) (Some (-50000)) (Some (-40000)) (Some 0) None None;
  Push 0 10 15 0 50000 (-60000) 10000;
  RelaxT;
  ExpRelaxArea (mkArea 5 15 10 20);
  ExpT 10 16 (-10000);
  ExpH 10 15 (Some (-80000)) (Some (-60000)) (Some (-40000)) None None;
  ExpRec 1%nat 0 10 15 0 50000 (-60000) 10000;
  ExpRecs 2%nat;
  Reset [(10, 15); (10, 16)] [(0, 10, 15); (2, 10, 15)] [(0, 10, 15)]].

Definition RE_RT_23 : list cmd := [
  Seed seed200;
  SetRelaxArea (mkArea 10 15 10 15);
  SetRelaxArea (mkArea 10 15 10 15);
  SetRelaxArea (mkArea 10 15 10 15);
  SetRelaxArea (mkArea 10 15 10 15);
  SetH 10 15 (Some (-80000)) (Some (-80000)) (Some (-60000)) (Some (-60000)) (Some (-50000)) (Some (-40000)) (Some (-20000)) None None;
  Push 0 10 15 0 50000 (-60000) 10000;
  RelaxT;
  ExpRelaxArea (mkArea 5 15 10 20);
  ExpT 10 16 (-10000);
  ExpT 9 15 (-10000);
  ExpH 10 15 (Some (-80000)) (Some (-60000)) (Some (-40000)) (Some (-20000)) (Some (-10000));
  ExpRec 1%nat 0 10 15 0 50000 (-60000) 10000;
  ExpRec 2%nat 2 10 15 0 50000 (-20000) 10000;
  ExpRecs 3%nat;
  Reset [(9, 15); (10, 15); (10, 16)] [(0, 10, 15); (2, 10, 15)] [(0, 10, 15); (2, 10, 15)]].

Definition RE_RT_24 : list cmd := [
  Seed seed200;
  SetRelaxArea (mkArea 10 15 10 15);
  SetRelaxArea (mkArea 10 15 10 15);
  SetRelaxArea (mkArea 10 15 10 15);
  SetRelaxArea (mkArea 10 15 10 15);
  SetH 10 15 (Some (-60000)) (Some (-50000)) (Some (-40000)) (Some (-40000)) (Some 0) (Some 0) (Some 30000) (Some 30000) (Some 40000);
  Push 0 10 15 0 50000 (-40000) 40000;
  Push 2 10 15 0 50000 (-60000) 10000;
  RelaxT;
  ExpRelaxArea (mkArea 5 15 10 20);
  ExpT 10 16 (-10000);
  ExpH 10 15 (Some (-50000)) (Some (-40000)) (Some 0) (Some 30000) (Some 40000);
  ExpRecs 2%nat;
  Reset [(10, 15); (10, 16)] [(0, 10, 15); (2, 10, 15)] [(0, 10, 15); (2, 10, 15)]].

Definition RE_RT_25 : list cmd := [
  Seed seed200;
  SetRelaxArea (mkArea 10 15 10 15);
  SetRelaxArea (mkArea 10 15 10 15);
  SetRelaxArea (mkArea 10 15 10 15);
  SetRelaxArea (mkArea 10 15 10 15);
  SetH 10 15 (Some (-80000)) (Some (-80000)) (Some (-60000)) (Some (-60000)) (Some (-50000)) (Some (-40000)) (Some (-30000)) (Some (-30000)) (Some 0);
  Push 0 10 15 0 50000 (-60000) 10000;
  Push 2 10 15 0 50000 (-30000) 30000;
  RelaxT;
  ExpRelaxArea (mkArea 5 15 10 20);
  ExpT 10 16 (-10000);
  ExpH 10 15 (Some (-80000)) (Some (-60000)) (Some (-40000)) (Some (-30000)) (Some 0);
  ExpRec 2%nat 0 10 15 0 50000 (-60000) 10000;
  ExpRecs 3%nat;
  Reset [(10, 15); (10, 16)] [(0, 10, 15); (2, 10, 15)] [(0, 10, 15); (2, 10, 15)]].

Definition RE_RT_26 : list cmd := [
  Seed seed200;
  SetRelaxArea (mkArea 10 15 10 15);
  SetRelaxArea (mkArea 10 15 10 15);
  SetRelaxArea (mkArea 10 15 10 15);
  SetRelaxArea (mkArea 10 15 10 15);
  SetH 10 15 (Some (-80000)) (Some (-80000)) (Some (-60000)) (Some (-60000)) (Some (-50000)) (Some (-40000)) (Some (-30000)) (Some (-30000)) (Some (-20000));
  Push 0 10 15 0 50000 (-60000) 10000;
  Push 2 10 15 0 50000 (-30000) 30000;
  RelaxT;
  ExpRelaxArea (mkArea 5 15 10 20);
  ExpT 10 16 (-10000);
  ExpT 9 15 (-10000);
  ExpH 10 15 (Some (-80000)) (Some (-60000)) (Some (-40000)) (Some (-30000)) (Some (-10000));
  ExpRec 2%nat 0 10 15 0 50000 (-60000) 10000;
  ExpRec 3%nat 2 10 15 0 50000 (-30000) 10000;
  ExpRecs 4%nat;
  Reset [(9, 15); (10, 15); (10, 16)] [(0, 10, 15); (2, 10, 15)] [(0, 10, 15); (2, 10, 15)]].

Definition RE_RT_27 : list cmd := [
  Seed seed200;
  SetRelaxArea (mkArea 10 15 10 15);
  SetRelaxArea (mkArea 10 15 10 15);
  SetRelaxArea (mkArea 10 15 10 15);
  SetRelaxArea (mkArea 10 15 10 15);
  SetH 10 15 (Some (-80000)) (Some 40000) (Some 70000) None None (Some (-70000)) (Some (-10000)) None None;
  RelaxT;
  ExpRelaxArea (mkArea 5 15 10 20);
  ExpT 10 15 (-70000);
  ExpT 10 16 (-10000);
  ExpRecs 0%nat;
  Reset [(10, 15); (10, 16)] [(0, 10, 15); (2, 10, 15)] []].

Definition RE_RT_28 : list cmd := [
  Seed seed200;
  SetRelaxArea (mkArea 10 15 10 15);
  SetRelaxArea (mkArea 10 15 10 15);
  SetRelaxArea (mkArea 10 15 10 15);
  SetRelaxArea (mkArea 10 15 10 15);
  SetH 10 15 (Some (-80000)) (Some (-40000)) (Some 0) None None (Some (-80000)) (Some (-60000)) None None;
  RelaxT;
  ExpRelaxArea (mkArea 5 15 10 20);
  ExpT 10 16 (-20000);
  ExpH 10 15 (Some (-80000)) None None (Some (-60000)) (Some (-40000));
  ExpRec 0%nat 2 10 15 0 50000 (-60000) 20000;
  ExpRecs 1%nat;
  Reset [(10, 15); (10, 16)] [(0, 10, 15); (2, 10, 15)] [(2, 10, 15)]].

Definition RE_RT_29 : list cmd := [
  Seed seed200;
  SetRelaxArea (mkArea 10 15 10 15);
  SetRelaxArea (mkArea 10 15 10 15);
  SetRelaxArea (mkArea 10 15 10 15);
  SetRelaxArea (mkArea 10 15 10 15);
  SetH 10 15 (Some (-80000)) (Some (-40000)) (Some (-20000)) None None (Some (-80000)) (Some (-60000)) None None;
  RelaxT;
  ExpRelaxArea (mkArea 5 15 10 20);
  ExpT 10 16 (-20000);
  ExpT 9 15 (-10000);
  ExpH 10 15 (Some (-80000)) (Some (-20000)) (Some (-10000)) (Some (-60000)) (Some (-40000));
  ExpRec 0%nat 2 10 15 0 50000 (-60000) 20000;
  ExpRec 1%nat 0 10 15 0 50000 (-20000) 10000;
  ExpRecs 2%nat;
  Reset [(9, 15); (10, 15); (10, 16)] [(0, 10, 15); (2, 10, 15)] [(0, 10, 15); (2, 10, 15)]].

Definition RE_RT_30 : list cmd := [
  Seed seed200;
  SetRelaxArea (mkArea 10 15 10 15);
  SetRelaxArea (mkArea 10 15 10 15);
  SetRelaxArea (mkArea 10 15 10 15);
  SetRelaxArea (mkArea 10 15 10 15);
  SetH 10 15 (Some (-20000)) (Some 40000) (Some 50000) (Some 50000) (Some 60000) (Some 0) (Some 20000) None None;
  Push 0 10 15 0 50000 50000 10000;
  RelaxT;
  ExpRelaxArea (mkArea 5 15 10 20);
  ExpT 10 16 (-10000);
  ExpH 10 15 (Some (-10000)) (Some 50000) (Some 60000) None None;
  ExpRecs 1%nat;
  Reset [(10, 15); (10, 16)] [(0, 10, 15); (2, 10, 15)] [(0, 10, 15)]].

Definition RE_RT_31 : list cmd := [
  Seed seed200;
  SetRelaxArea (mkArea 10 15 10 15);
  SetRelaxArea (mkArea 10 15 10 15);
  SetRelaxArea (mkArea 10 15 10 15);
  SetRelaxArea (mkArea 10 15 10 15);
  SetH 10 15 (Some (-80000)) (Some 40000) (Some 50000) (Some 50000) (Some 60000) (Some (-80000)) (Some (-20000)) None None;
  Push 0 10 15 0 50000 50000 10000;
  RelaxT;
  ExpRelaxArea (mkArea 5 15 10 20);
  ExpT 10 16 (-10000);
  ExpH 10 15 (Some (-80000)) (Some 50000) (Some 60000) (Some (-20000)) (Some (-10000));
  ExpRec 1%nat 2 10 15 0 50000 (-20000) 10000;
  ExpRecs 2%nat;
  Reset [(10, 15); (10, 16)] [(0, 10, 15); (2, 10, 15)] [(0, 10, 15); (2, 10, 15)]].

Definition RE_RT_32 : list cmd := [
  Seed seed200;
  SetRelaxArea (mkArea 10 15 10 15);
  SetRelaxArea (mkArea 10 15 10 15);
  SetRelaxArea (mkArea 10 15 10 15);
  SetRelaxArea (mkArea 10 15 10 15);
  SetH 10 15 (Some (-80000)) (Some (-40000)) (Some (-30000)) (Some (-30000)) (Some (-20000)) (Some (-80000)) (Some (-60000)) None None;
  Push 0 10 15 0 50000 (-30000) 20000;
  RelaxT;
  ExpRelaxArea (mkArea 5 15 10 20);
  ExpT 10 16 (-20000);
  ExpT 9 15 (-10000);
  ExpH 10 15 (Some (-80000)) (Some (-30000)) (Some (-10000)) (Some (-60000)) (Some (-40000));
  ExpRec 1%nat 2 10 15 0 50000 (-60000) 20000;
  ExpRec 2%nat 0 10 15 0 50000 (-30000) 10000;
  ExpRecs 3%nat;
  Reset [(9, 15); (10, 15); (10, 16)] [(0, 10, 15); (2, 10, 15)] [(0, 10, 15); (2, 10, 15)]].

Definition RE_RT_33 : list cmd := [
  Seed seed200;
  SetRelaxArea (mkArea 10 15 10 15);
  SetRelaxArea (mkArea 10 15 10 15);
  SetRelaxArea (mkArea 10 15 10 15);
  SetRelaxArea (mkArea 10 15 10 15);
  SetH 10 15 (Some (-80000)) (Some (-40000)) (Some (-10000)) None None (Some (-70000)) (Some (-60000)) (Some (-60000)) (Some (-40000));
  Push 2 10 15 0 50000 (-60000) 20000;
  RelaxT;
  ExpRelaxArea (mkArea 5 15 10 20);
  ExpT 10 16 (-10000);
  ExpH 10 15 (Some (-70000)) None None (Some (-60000)) (Some (-40000));
  ExpRecs 1%nat;
  Reset [(10, 15); (10, 16)] [(0, 10, 15); (2, 10, 15)] [(2, 10, 15)]].

Definition RE_RT_34 : list cmd := [
  Seed seed200;
  SetRelaxArea (mkArea 10 15 10 15);
  SetRelaxArea (mkArea 10 15 10 15);
  SetRelaxArea (mkArea 10 15 10 15);
  SetRelaxArea (mkArea 10 15 10 15);
  SetH 10 15 (Some (-80000)) (Some (-10000)) (Some 10000) None None (Some (-80000)) (Some (-60000)) (Some (-60000)) (Some (-50000));
  Push 2 10 15 0 50000 (-60000) 10000;
  RelaxT;
  ExpRelaxArea (mkArea 5 15 10 20);
  ExpT 10 16 (-20000);
  ExpT 9 15 (-10000);
  ExpT 10 14 (-10000);
  ExpH 10 15 (Some (-80000)) None None (Some (-60000)) (Some (-10000));
  ExpRec 1%nat 2 10 15 0 50000 (-60000) 20000;
  ExpRec 2%nat 2 10 15 0 50000 (-60000) 10000;
  ExpRec 3%nat 2 10 15 0 50000 (-60000) 10000;
  ExpRecs 4%nat;
  Reset [(9, 15); (10, 14); (10, 15); (10, 16)] [(0, 10, 15); (2, 10, 15)] [(2, 10, 15)]].

Definition RE_RT_35 : list cmd := [
  Seed seed200;
  SetRelaxArea (mkArea 10 15 10 15);
  SetRelaxArea (mkArea 10 15 10 15);
  SetRelaxArea (mkArea 10 15 10 15);
  SetRelaxArea (mkArea 10 15 10 15);
  SetH 10 15 (Some (-80000)) (Some (-40000)) (Some (-20000)) None None (Some (-80000)) (Some (-60000)) (Some (-60000)) (Some (-50000));
  Push 2 10 15 0 50000 (-60000) 20000;
  RelaxT;
  ExpRelaxArea (mkArea 5 15 10 20);
  ExpT 10 16 (-10000);
  ExpT 9 15 (-10000);
  ExpH 10 15 (Some (-80000)) (Some (-20000)) (Some (-10000)) (Some (-60000)) (Some (-40000));
  ExpRec 1%nat 2 10 15 0 50000 (-60000) 10000;
  ExpRec 2%nat 0 10 15 0 50000 (-20000) 10000;
  ExpRecs 3%nat;
  Reset [(9, 15); (10, 15); (10, 16)] [(0, 10, 15); (2, 10, 15)] [(0, 10, 15); (2, 10, 15)]].

Definition RE_RT_36 : list cmd := [
  Seed seed200;
  SetRelaxArea (mkArea 10 15 10 15);
  SetRelaxArea (mkArea 10 15 10 15);
  SetRelaxArea (mkArea 10 15 10 15);
  SetRelaxArea (mkArea 10 15 10 15);
  SetH 10 15 (Some (-80000)) (Some (-40000)) (Some (-30000)) (Some (-30000)) (Some (-10000)) (Some (-70000)) (Some (-60000)) (Some (-60000)) (Some (-40000));
  Push 0 10 15 0 50000 (-30000) 20000;
  Push 2 10 15 0 50000 (-60000) 20000;
  RelaxT;
  ExpRelaxArea (mkArea 5 15 10 20);
  ExpT 10 16 (-10000);
  ExpH 10 15 (Some (-70000)) (Some (-30000)) (Some (-10000)) (Some (-60000)) (Some (-40000));
  ExpRecs 2%nat;
  Reset [(10, 15); (10, 16)] [(0, 10, 15); (2, 10, 15)] [(0, 10, 15); (2, 10, 15)]].

Definition RE_RT_37 : list cmd := [
  Seed seed200;
  SetRelaxArea (mkArea 10 15 10 15);
  SetRelaxArea (mkArea 10 15 10 15);
  SetRelaxArea (mkArea 10 15 10 15);
  SetRelaxArea (mkArea 10 15 10 15);
  SetH 10 15 (Some (-80000)) (Some (-40000)) (Some (-30000)) (Some (-30000)) (Some 0) (Some (-80000)) (Some (-60000)) (Some (-60000)) (Some (-50000));
  Push 0 10 15 0 50000 (-30000) 30000;
  Push 2 10 15 0 50000 (-60000) 10000;
  RelaxT;
  ExpRelaxArea (mkArea 5 15 10 20);
  ExpT 10 16 (-10000);
  ExpH 10 15 (Some (-80000)) (Some (-30000)) (Some 0) (Some (-60000)) (Some (-40000));
  ExpRec 2%nat 2 10 15 0 50000 (-60000) 10000;
  ExpRecs 3%nat;
  Reset [(10, 15); (10, 16)] [(0, 10, 15); (2, 10, 15)] [(0, 10, 15); (2, 10, 15)]].

Definition RE_RT_38 : list cmd := [
  Seed seed200;
  SetRelaxArea (mkArea 10 15 10 15);
  SetRelaxArea (mkArea 10 15 10 15);
  SetRelaxArea (mkArea 10 15 10 15);
  SetRelaxArea (mkArea 10 15 10 15);
  SetH 10 15 (Some (-80000)) (Some (-40000)) (Some (-30000)) (Some (-30000)) (Some (-20000)) (Some (-80000)) (Some (-60000)) (Some (-60000)) (Some (-50000));
  Push 0 10 15 0 50000 (-30000) 10000;
  Push 2 10 15 0 50000 (-60000) 10000;
  RelaxT;
  ExpRelaxArea (mkArea 5 15 10 20);
  ExpT 10 16 (-10000);
  ExpT 9 15 (-10000);
  ExpH 10 15 (Some (-80000)) (Some (-30000)) (Some (-10000)) (Some (-60000)) (Some (-40000));
  ExpRec 2%nat 2 10 15 0 50000 (-60000) 10000;
  ExpRec 3%nat 0 10 15 0 50000 (-30000) 10000;
  ExpRecs 4%nat;
  Reset [(9, 15); (10, 15); (10, 16)] [(0, 10, 15); (2, 10, 15)] [(0, 10, 15); (2, 10, 15)]].

Definition RE_RT_39 : list cmd := [
  Seed seed200;
  SetRelaxArea (mkArea 10 15 10 15);
  SetRelaxArea (mkArea 10 15 10 15);
  SetRelaxArea (mkArea 10 15 10 15);
  SetRelaxArea (mkArea 10 15 10 15);
  SetH 10 15 (Some (-60000)) (Some 0) (Some 20000) None None None None None None;
  RelaxT;
  ExpRelaxArea (mkArea 5 15 10 20);
  ExpT 10 15 (-10000);
  ExpT 10 16 (-30000);
  ExpT 9 15 (-10000);
  ExpT 10 14 (-10000);
  ExpRecs 0%nat;
  Reset [(9, 15); (10, 14); (10, 15); (10, 16)] [(0, 10, 15)] []].

Definition RE_RT_40 : list cmd := [
  Seed seed200;
  SetRelaxArea (mkArea 10 15 10 15);
  SetRelaxArea (mkArea 10 15 10 15);
  SetRelaxArea (mkArea 10 15 10 15);
  SetRelaxArea (mkArea 10 15 10 15);
  SetT 10 15 (-40000);
  RelaxT;
  ExpRelaxArea (mkArea 5 15 10 20);
  ExpT 10 15 (-10000);
  ExpT 10 16 (-20000);
  ExpT 9 15 (-10000);
  ExpRecs 0%nat;
  Reset [(9, 15); (10, 15); (10, 16)] [] []].

Definition RE_RT_41 : list cmd := [
  Seed seed200;
  SetRelaxArea (mkArea 10 15 10 15);
  SetRelaxArea (mkArea 10 15 10 15);
  SetRelaxArea (mkArea 10 15 10 15);
  SetRelaxArea (mkArea 10 15 10 15);
  SetT 10 15 (-20000);
  RelaxT;
  ExpT 10 15 (-10000);
  ExpT 10 16 (-10000);
  ExpRecs 0%nat;
  Seed seed201;
  SetT 10 15 (-20000);
  SetT 10 16 0;
  RelaxT;
  ExpT 10 15 (-10000);
  ExpT 11 15 (-10000);
  ExpRecs 0%nat;
  Reset [(10, 15); (11, 15)] [] []].

Definition relax_terrain_tests : list cmd :=
  setup ++ RE_RT_1 ++ RE_RT_2 ++ RE_RT_3 ++ RE_RT_4 ++ RE_RT_5 ++ RE_RT_6 ++ RE_RT_7 ++ RE_RT_8 ++ RE_RT_9 ++ RE_RT_10 ++ RE_RT_11 ++ RE_RT_12 ++ RE_RT_13 ++ RE_RT_14 ++ RE_RT_15 ++ RE_RT_16 ++ RE_RT_17 ++ RE_RT_18 ++ RE_RT_19 ++ RE_RT_20 ++ RE_RT_21 ++ RE_RT_22 ++ RE_RT_23 ++ RE_RT_24 ++ RE_RT_25 ++ RE_RT_26 ++ RE_RT_27 ++ RE_RT_28 ++ RE_RT_29 ++ RE_RT_30 ++ RE_RT_31 ++ RE_RT_32 ++ RE_RT_33 ++ RE_RT_34 ++ RE_RT_35 ++ RE_RT_36 ++ RE_RT_37 ++ RE_RT_38 ++ RE_RT_39 ++ RE_RT_40 ++ RE_RT_41.

Example relax_terrain_tests_pass : z_run relax_terrain_tests = None.
Proof. vm_compute. reflexivity. Qed.
