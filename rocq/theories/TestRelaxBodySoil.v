(** test/unit_tests/test_relax.cpp:3910-5886, TEST RelaxBodySoil. Produced by tools/translate_tests.py. *)
From Coq Require Import ZArith List.
From Verif Require Import Outcome Num State ModelBodyPos TestLang.
Import ListNotations.
Open Scope Z_scope.

Definition seed1234 : list Z :=
  [822569775; 2137449171; 2671936806; 3512589365; 1880026316; 2629000564; 3373089432; 3312965625; 3349970575; 3696548529; 1170776343; 646980841; 1187404954; 852631582; 3444014763; 3501098142; 4115177196; 682106748; 3762102042; 498808182; 1536813498; 55437432; 2151757680; 2090933724; 2935450949; 1421700432; 3061031881; 3447310719; 1590214902; 421988862; 2410319279; 240490034; 2160725744; 1901221627; 59135052; 95107365; 3319265058; 1248669606; 3790915066; 1058256067; 1567173351; 3170917515; 2643106432; 3819197161; 323759947; 4239731024; 1584087043; 504415490; 4007806227; 1691282316; 2797647809; 1944459723; 1705972083; 2311327339; 3387570170; 3395696081; 1360800782; 2000751859; 2439965127; 1869737788; 3732873706; 2445892203; 1873350574; 4162935708; 3445197905; 174187351; 617473805; 2354155636; 3024777824; 1986751372; 3026153669; 1616935933; 939704945; 1408371679; 3972276197; 3494080159; 1898980089; 2776921084; 3905482329; 203695188; 256878637; 4273310224; 791506985; 2960244552; 203389368; 3992369388; 2898591558; 3943280568; 2553893974; 4188889004; 2290549722; 1705110483; 186075439; 1127970481; 2411336722; 1847486037; 1415915182; 3283634658; 2160226085; 2575824237; 480582438; 347664519; 2607877092; 3025995459; 2430713733; 704431854; 29051439; 138939382; 2651891956; 1409395062; 3917537967; 2035213199; 3395275298; 292421642; 4260957468; 1643729924; 4118022226; 509186151; 3401460057; 3849701687; 1225143531; 3282680142; 2683996823; 1612351922; 2053397241; 110871102; 840418487; 3893520724; 1642040937; 3377638656; 231385721; 2659938658; 1939815161; 908767578; 4217678241; 1255436146; 532329849; 2841312753; 512737045; 3806461895; 3171932356; 2882680951; 2522449895; 1415968209; 2025646330; 890612148; 460106176; 49959381; 984486260; 307276649; 3865321074; 3135566249; 1789942785; 4208379022; 2301465347; 2963597086; 26665356; 4254486517; 1291246281; 2965822317; 1876441875; 4072158234; 2629159904; 2506734660; 3943630715; 2283003876; 2687518528; 724377750; 3032236472; 682074068; 643530888; 4028530348; 3204317937; 3084922776; 3569147870; 2046735081; 2721831439; 3795262280; 1882526594; 1736035728; 655295083; 736449666; 2441300722; 566214223; 2268705987; 1769132078; 4086355426; 106755897; 2063126967; 2420475172; 2158476888; 3358140065; 2305874297; 1147013802; 3518446082; 920218071; 245309805; 762601684; 2875144483; 1843682066; 3294740812; 4175194053; 3041332341; 199851601; 3422518480; 3940007432; 2395564525; 682599499; 4148236303; 4051797780; 632034064; 3277753792; 127332925; 231405425; 2550753120; 1091272318; 489908435; 3985612089; 4083697201; 3600520510; 1398902713; 673985747; 831585947; 2966860119; 1966286057; 1576022947; 3953098916; 4026414676; 3775573309; 2634381852; 1084976385; 3003684619; 1494686398; 2160137725; 784212625; 3054198046; 3873184550; 577182818; 3034515353; 3560235576; 3120974311; 3190498712; 3865847820; 1962944972; 3346483040; 339746312; 2573350191; 1602222935; 1250373401; 4009937645].

Definition seed1235 : list Z :=
  [4096379083; 3613105954; 4261150722; 3397365999; 2059878851; 3746432327; 4051901603; 1055877174; 3215964281; 596636008; 3607686416; 1104808720; 1040367154; 2960858946; 1571868623; 1262842132; 1597704654; 3918677030; 2804124200; 3815735267; 3056996414; 2005902799; 3325107595; 2966843551; 1950438318; 1704327006; 4032348728; 1304651077; 4112085452; 21515518; 968778981; 2288511936; 1895472903; 2226208946; 758208613; 3503864005; 3491425715; 4180752272; 3471534787; 2890320507; 2747676810; 1677898930; 3218977681; 2004996507; 3980801804; 3720668042; 747796959; 2903733195; 3517580515; 2403539043; 939451309; 2163196252; 4130683607; 400868435; 717722145; 3594726388; 2975556394; 3690107797; 483324989; 3415836506; 1590295174; 2670412947; 1072355984; 3401332957; 2216266231; 1607286377; 1788689892; 761520232; 718384290; 1804263122; 3989093716; 959166871; 2133140827; 2511204579; 3400179926; 1237407703; 3081838456; 1721471570; 2938538309; 3174391742; 2637859831; 3675742515; 1349302950; 371910595; 2491344644; 946983422; 2344674459; 926014329; 2093527583; 644196110; 2114683425; 843147766; 719798582; 123543736; 4085716622; 2352456079; 4115153343; 3549121034; 2452542076; 1348761546; 4166349603; 826394660; 765602420; 2073021624; 2052392439; 3443279670; 1546383161; 3567835956; 1215931359; 800390357; 800239524; 4270792860; 3533965159; 2345419582; 3672067456; 348657846; 431077549; 1728717801; 1478526929; 3299146689; 3216028888; 2869590858; 1405392106; 434576265; 1680107528; 419105904; 721194792; 2517758866; 2874976699; 1205915829; 1152527307; 1517676246; 3669907449; 1886821838; 1295643275; 606325042; 1655157670; 3060833153; 3832768298; 2832982714; 602088989; 290627132; 1329825354; 1187104332; 2907269089; 2031733161; 1578604759; 3541842966; 4147050427; 4033851165; 415741867; 2249371541; 972844278; 1631751203; 3137624510; 1749642090; 2157802771; 597958862; 524510402; 2039720354; 3462358138; 1160006424; 2865327980; 167474495; 4147857519; 29048773; 2058020308; 4145512139; 1968512654; 211411298; 1605900887; 2220552072; 618627072; 2116339245; 19644596; 3292291567; 4196009720; 558002721; 2054254330; 843148153; 1008833731; 1591798069; 36285375; 4085727583; 580193024; 2200121828; 1816301606; 812749263; 1642302601; 1943393660; 2416441455; 3143280137; 2655337252; 1453320854; 1952241748; 1567382869; 303713945; 3861005955; 3975799598; 1254193365; 3806292430; 3661927314; 2543171729; 484797791; 440325492; 4175413151; 3286643730; 3483670584; 3584659514; 1189672445; 1344757221; 500717662; 1437828765; 4212033308; 958664174; 2374094149; 2045018571; 620194487; 155635701; 3177276141; 593670642; 2556298293; 106140291; 831195200; 3904552636; 2630687271; 2397960719; 2581931702; 3112676546; 2979067800; 3623638525; 33330328; 310308506; 2537312085; 3969944295; 3049230455; 3574757960; 2339599089; 4045176047; 916534238; 246723367; 3734073313; 2747258405; 4232396387; 3894266805; 1740300323; 2648966424; 1707557474; 639477881; 2541859604].

Definition seed1236 : list Z :=
  [1108096547; 2317922635; 2090137425; 1068775964; 3363267561; 4062799416; 3961727967; 933714255; 930847201; 1726857399; 2500153956; 695830305; 1569320137; 1243287899; 1125491071; 2832353847; 1742082067; 4017536470; 1869565510; 1256076092; 1702671801; 1197383990; 4183070364; 3520591406; 3469077471; 2609299218; 905528311; 2892286044; 896011428; 3338733887; 875447116; 1185974985; 2559538782; 3675524307; 2859320655; 1024033686; 1851435039; 2074184436; 1188101726; 63323424; 3566515959; 2065287548; 2033339664; 3661524771; 2547569612; 2275853178; 1726903656; 3210860678; 866756456; 677155754; 2968473529; 412682357; 2931484335; 3014958735; 1099590193; 2483696211; 1660966056; 348638511; 237976446; 3847969432; 3550708597; 702737724; 306897219; 339711779; 2069995585; 496984681; 1851023354; 3763784902; 3533626148; 3580021105; 1810489453; 2813356568; 1793980145; 1989108488; 2456381683; 2777357988; 1928687726; 1502019197; 3288598637; 3751058475; 3710767015; 3024854580; 2817148158; 2861653842; 4006302237; 2109324359; 4021855640; 177624341; 2813062294; 2560729097; 2252751839; 3844204469; 3737345439; 3604558615; 2732436794; 1609543694; 33820377; 440619823; 4172629367; 1517301818; 809517258; 3679701669; 1205809960; 3590826982; 1933817161; 228687387; 2633905127; 3947846292; 568979798; 2062260053; 1732155377; 4130000733; 1973131156; 2037873720; 3567503444; 3116993324; 1273923244; 1583053449; 4580612; 590777042; 2463958059; 1884602056; 2679756673; 1303273900; 1319621001; 3706416886; 1828392006; 1187282008; 4246545112; 34161498; 1758882657; 615330598; 1811234992; 3658805312; 70552909; 198652439; 1589287746; 2942987009; 491913537; 2320312727; 2123052070; 3049021833; 2684370473; 1618242836; 2736575952; 1847965213; 4159409806; 1620917104; 1984047028; 2425868599; 2022898818; 1947654841; 1162669083; 3290225673; 391120074; 3165097624; 3741609824; 2369362379; 1795244024; 1998459107; 3337436145; 3973727134; 214863181; 2812562445; 410163554; 895038697; 1255736583; 1108304029; 1508518322; 1147156429; 400941495; 166948607; 4129312278; 900867676; 602786725; 2629493585; 653694113; 331354908; 2688951913; 1205219383; 3224906389; 3117023379; 520531863; 1153039388; 3484058014; 1475258724; 1959969895; 932423581; 739128677; 2159579452; 992142401; 3448981419; 2783445990; 1466970479; 536152663; 2640363649; 3872704240; 3624543711; 1555166661; 3134727917; 573769049; 83827880; 2266176012; 3918826461; 2408435472; 2071507803; 3731598739; 2856070876; 1824987202; 807780066; 2412500400; 3836747306; 1883115267; 4284898121; 2434602702; 2876590662; 2411008728; 3956748848; 3757050538; 1312548477; 4024351916; 2222511190; 3103860202; 408606016; 361929591; 1568224900; 4246358896; 4291633366; 1146111381; 4149269813; 3255985061; 859842876; 3863956844; 1392551871; 1449976190; 2025158608; 1432761818; 1140878439; 3285581939; 1210585313; 3076925233; 2632966622; 3673594451; 1521615691; 2006521130; 3367257732; 2401022596; 2796231817; 1483171172; 1067916835].

Definition seed200 : list Z :=
  [4070049562; 2122330729; 973013776; 638056260; 2553015082; 1106425527; 1839571788; 2465016911; 3281959257; 3528833550; 12286171; 498868409; 1535123033; 1871685771; 3907109766; 3122568234; 1958852920; 2801210881; 4216810503; 4155276339; 3725269915; 2682156233; 4234955919; 1399657089; 3965400302; 3035724055; 1304352853; 2614434200; 3633986823; 529536406; 520644406; 804106189; 3374024464; 901064691; 1075911018; 1305152454; 412444451; 2222010872; 4052263156; 1608212639; 3547858336; 4169944493; 2226189499; 3507354541; 3751655741; 3231367956; 2484104690; 242126421; 1933098226; 2438403444; 2921251968; 2076918915; 1801419319; 4114935135; 2750468984; 3518949560; 2614158851; 2726963873; 452836040; 1430754432; 4149129908; 3810107226; 3258593469; 2677078342; 2919039438; 3623223907; 1414539340; 921523898; 113622852; 1299833022; 3451695087; 423770164; 4178269550; 2462891014; 1215209938; 4001772799; 2787754464; 3907856283; 1140636356; 2157504704; 806118745; 895390148; 1799796914; 2156219358; 2860443511; 1447471201; 2222266781; 1146535128; 3670017430; 2056959111; 734487969; 1248656286; 4201158841; 2542992481; 1293917847; 2238784389; 998361256; 1159937306; 3400169665; 2680669537; 3796621393; 1440632135; 4240414938; 428034048; 68992685; 1296478802; 878320166; 1270647589; 2772654235; 1806628734; 2193319644; 983952811; 903355114; 24718766; 1326861729; 2629256621; 75622543; 1172329297; 2769762333; 3321734769; 2270606024; 1276850931; 2625824448; 3805317659; 1284734151; 3024496888; 3821815012; 3594806515; 3090783261; 4051644134; 4092724334; 1610685600; 1705561791; 1128815659; 4246210007; 766696062; 1943423257; 3604793281; 3127049333; 1767654495; 1478011604; 2856650145; 3934860148; 979657068; 276666367; 2332604053; 39917964; 632478634; 2049827373; 3873539983; 2019750583; 1131736370; 135885181; 3064685280; 3921725839; 1934491197; 3995452714; 3705766025; 2208914378; 1262195799; 2333563696; 657309221; 2376200026; 1245312708; 3627684475; 2356370602; 3939784310; 3340661830; 1050947561; 1998457606; 3894465885; 225488430; 2959262815; 3669493948; 3105589767; 2523361792; 1273860978; 3356936562; 2270488939; 289652731; 742830352; 3746241917; 1669756104; 1260733599; 23599388; 3577143635; 682229332; 2847283848; 3291246801; 2085309516; 2217928463; 3570532317; 2914727745; 809200600; 294285120; 1372207965; 3731448834; 3016204355; 1670372996; 2640292583; 240957245; 914593982; 2063948091; 3319329228; 3518656152; 3897025613; 2198470673; 2361820318; 113076557; 3236976500; 3603698792; 2453303386; 651879988; 2567889894; 4111776131; 994129566; 124527299; 3637485200; 940927060; 3517037487; 3956418466; 671941162; 1387034634; 3676803557; 4290939705; 2213355003; 2388421429; 2016429077; 2668794840; 2145642639; 1483136728; 3615144350; 3809382142; 3000157492; 486243697; 2865740557; 723599746; 2710304289; 3030986600; 3424744219; 4037099371; 673672778; 3710936895; 3208499029; 3771284671; 2703956760; 721315039; 2679318933; 426263978; 4257246340].

Definition setup : list cmd := [
  SetImpactArea (mkArea 2 20 1 20);
  SetImpactArea (mkArea 2 20 1 20);
  SetImpactArea (mkArea 2 20 2 20);
  SetImpactArea (mkArea 2 20 2 20)].

Definition RE_RBS_1 : list cmd := [
  Seed seed1234;
  SetH 10 14 (Some (-80000)) (Some (-80000)) (Some (-70000)) (Some (-70000)) (Some 0) None None None None;
  Push 0 10 14 0 40000 (-70000) 70000;
  RelaxBS;
  ExpH 10 14 (Some (-80000)) (Some (-70000)) (Some 0) None None;
  ExpRecH 0%nat 70000;
  ExpRecs 1%nat;
  Reset [(10, 14); (10, 15)] [(0, 10, 14)] [(0, 10, 14)]].

Definition RE_RBS_2 : list cmd := [
  Seed seed1234;
  SetH 10 14 (Some (-30000)) (Some (-30000)) (Some (-20000)) (Some (-20000)) (Some 0) None None None None;
  SetT 10 15 (-20000);
  Push 0 10 14 0 40000 (-20000) 20000;
  RelaxBS;
  ExpH 10 14 (Some (-30000)) (Some (-20000)) (Some (-10000)) None None;
  ExpT 10 15 (-10000);
  ExpRecH 0%nat 10000;
  ExpRecs 1%nat;
  Reset [(10, 14); (10, 15)] [(0, 10, 14)] [(0, 10, 14)]].

Definition RE_RBS_3 : list cmd := [
  Seed seed1234;
  SetH 10 14 (Some (-30000)) (Some (-30000)) (Some (-20000)) (Some (-20000)) (Some 0) None None None None;
  SetT 10 15 (-40000);
  Push 0 10 14 0 40000 (-20000) 20000;
  RelaxBS;
  ExpH 10 14 (Some (-30000)) (Some 0) (Some 0) None None;
  ExpT 10 15 (-20000);
  ExpRecH 0%nat 0;
  ExpRecs 1%nat;
  Reset [(10, 14); (10, 15)] [(0, 10, 14)] [(0, 10, 14)]].

Definition RE_RBS_4 : list cmd := [
  Seed seed1234;
  SetH 10 14 (Some (-30000)) (Some (-30000)) (Some (-20000)) (Some (-20000)) (Some 0) None None None None;
  SetT 10 15 (-40000);
  Push 0 10 14 0 40000 (-20000) 10000;
  Push 0 10 14 0 40000 (-20000) 10000;
  RelaxBS;
  ExpH 10 14 (Some (-30000)) (Some 0) (Some 0) None None;
  ExpT 10 15 (-20000);
  ExpRecH 0%nat 0;
  ExpRecH 1%nat 0;
  ExpRecs 2%nat;
  Reset [(10, 14); (10, 15)] [(0, 10, 14)] [(0, 10, 14)]].

Definition RE_RBS_5 : list cmd := [
  Seed seed1234;
  SetH 10 14 (Some (-80000)) (Some (-80000)) (Some (-70000)) (Some (-70000)) (Some 0) None None None None;
  SetH 10 15 (Some (-40000)) (Some (-40000)) (Some 0) None None None None None None;
  Push 0 10 14 0 40000 (-70000) 70000;
  RelaxBS;
  ExpH 10 14 (Some (-80000)) (Some (-70000)) (Some 0) None None;
  ExpT 10 15 (-40000);
  ExpRecH 0%nat 70000;
  ExpRecs 1%nat;
  Reset [(10, 14); (10, 15)] [(0, 10, 14); (0, 10, 15)] [(0, 10, 14)]].

Definition RE_RBS_6 : list cmd := [
  Seed seed1234;
  SetH 10 14 (Some (-40000)) (Some (-40000)) (Some (-30000)) (Some (-30000)) (Some (-10000)) None None None None;
  SetH 10 15 (Some (-30000)) (Some (-10000)) (Some 0) None None None None None None;
  Push 0 10 14 0 40000 (-30000) 20000;
  RelaxBS;
  ExpH 10 14 (Some (-40000)) (Some (-30000)) (Some (-20000)) None None;
  ExpT 10 15 (-20000);
  ExpRecH 0%nat 10000;
  ExpRecs 1%nat;
  Reset [(10, 14); (10, 15)] [(0, 10, 14); (0, 10, 15)] [(0, 10, 14)]].

Definition RE_RBS_7 : list cmd := [
  Seed seed1234;
  SetH 10 14 (Some (-40000)) (Some (-40000)) (Some (-30000)) (Some (-30000)) (Some (-10000)) (Some 0) (Some 20000) None None;
  SetH 10 15 (Some (-60000)) (Some (-10000)) (Some 0) None None None None None None;
  Push 0 10 14 0 40000 (-30000) 20000;
  RelaxBS;
  ExpH 10 14 (Some (-40000)) (Some 0) (Some 0) None None;
  ExpT 10 15 (-40000);
  ExpRecH 0%nat 0;
  ExpRecs 1%nat;
  Reset [(10, 14); (10, 15)] [(0, 10, 14); (2, 10, 14); (0, 10, 15)] [(0, 10, 14); (0, 10, 15)]].

Definition RE_RBS_8 : list cmd := [
  Seed seed1234;
  SetH 10 14 (Some (-40000)) (Some (-40000)) (Some (-30000)) (Some (-30000)) (Some 10000) None None None None;
  SetH 10 15 (Some (-30000)) (Some (-20000)) (Some 0) None None None None None None;
  Push 0 10 14 0 40000 (-30000) 40000;
  RelaxBS;
  ExpH 10 14 (Some (-40000)) (Some (-30000)) (Some 0) None None;
  ExpT 10 15 (-20000);
  ExpRecH 0%nat 30000;
  ExpRecs 1%nat;
  Reset [(10, 14); (10, 15)] [(0, 10, 14); (0, 10, 15)] [(0, 10, 14)]].

Definition RE_RBS_9 : list cmd := [
  Seed seed1234;
  SetH 10 14 (Some (-40000)) (Some (-40000)) (Some (-30000)) (Some (-30000)) (Some (-10000)) (Some 0) (Some 20000) None None;
  SetH 10 15 (Some (-60000)) (Some (-10000)) (Some 0) None None None None None None;
  Push 0 10 14 0 40000 (-30000) 10000;
  Push 0 10 14 0 40000 (-30000) 10000;
  RelaxBS;
  ExpH 10 14 (Some (-40000)) (Some 0) (Some 0) None None;
  ExpT 10 15 (-40000);
  ExpRecH 0%nat 0;
  ExpRecH 1%nat 0;
  ExpRecs 2%nat;
  Reset [(10, 14); (10, 15)] [(0, 10, 14); (2, 10, 14); (0, 10, 15)] [(0, 10, 14); (0, 10, 15)]].

Definition RE_RBS_10 : list cmd := [
  Seed seed1234;
  SetH 10 14 (Some (-40000)) (Some (-40000)) (Some (-30000)) (Some (-30000)) (Some (-10000)) None None None None;
  SetH 10 15 (Some (-40000)) (Some (-40000)) (Some (-30000)) None None None None None None;
  Push 0 10 14 0 40000 (-30000) 20000;
  RelaxBS;
  ExpH 10 14 (Some (-40000)) (Some (-30000)) (Some (-20000)) None None;
  ExpH 10 15 (Some (-40000)) (Some (-30000)) (Some (-20000)) None None;
  ExpRec 1%nat 0 10 15 0 50000 (-30000) 10000;
  ExpRecH 0%nat 10000;
  ExpRecs 2%nat;
  Reset [(10, 14); (10, 15)] [(0, 10, 14); (0, 10, 15)] [(0, 10, 14); (0, 10, 15)]].

Definition RE_RBS_11 : list cmd := [
  Seed seed1234;
  SetH 10 14 (Some (-40000)) (Some (-40000)) (Some (-30000)) (Some (-30000)) (Some (-10000)) None None None None;
  SetH 10 15 (Some (-60000)) (Some (-60000)) (Some (-50000)) None None None None None None;
  Push 0 10 14 0 40000 (-30000) 20000;
  RelaxBS;
  ExpH 10 14 (Some (-40000)) (Some 0) (Some 0) None None;
  ExpH 10 15 (Some (-60000)) (Some (-50000)) (Some (-30000)) None None;
  ExpRec 1%nat 0 10 15 0 50000 (-50000) 20000;
  ExpRecH 0%nat 0;
  ExpRecs 2%nat;
  Reset [(10, 14); (10, 15)] [(0, 10, 14); (0, 10, 15)] [(0, 10, 14); (0, 10, 15)]].

Definition RE_RBS_12 : list cmd := [
  Seed seed1234;
  SetH 10 14 (Some (-40000)) (Some (-40000)) (Some (-30000)) (Some (-30000)) (Some (-10000)) None None None None;
  SetH 10 15 (Some (-60000)) (Some (-60000)) (Some (-50000)) None None None None None None;
  Push 0 10 14 0 40000 (-30000) 10000;
  Push 0 10 14 0 40000 (-30000) 10000;
  RelaxBS;
  ExpH 10 14 (Some (-40000)) (Some 0) (Some 0) None None;
  ExpH 10 15 (Some (-60000)) (Some (-50000)) (Some (-30000)) None None;
  ExpRec 2%nat 0 10 15 0 50000 (-50000) 10000;
  ExpRec 3%nat 0 10 15 0 50000 (-50000) 10000;
  ExpRecH 0%nat 0;
  ExpRecH 1%nat 0;
  ExpRecs 4%nat;
  Reset [(10, 14); (10, 15)] [(0, 10, 14); (0, 10, 15)] [(0, 10, 14); (0, 10, 15)]].

Definition RE_RBS_13 : list cmd := [
  Seed seed1234;
  SetH 10 14 (Some (-80000)) (Some (-80000)) (Some (-70000)) (Some (-70000)) (Some 0) None None None None;
  SetH 10 15 (Some (-40000)) (Some (-40000)) (Some (-20000)) (Some (-20000)) (Some 0) None None None None;
  Push 0 10 14 0 40000 (-70000) 70000;
  Push 0 10 15 0 50000 (-20000) 20000;
  RelaxBS;
  ExpH 10 14 (Some (-80000)) (Some (-70000)) (Some 0) None None;
  ExpH 10 15 (Some (-40000)) (Some (-20000)) (Some 0) None None;
  ExpRecH 0%nat 70000;
  ExpRecs 2%nat;
  Reset [(10, 14); (10, 15)] [(0, 10, 14); (0, 10, 15)] [(0, 10, 14); (0, 10, 15)]].

Definition RE_RBS_14 : list cmd := [
  Seed seed1234;
  SetH 10 14 (Some (-40000)) (Some (-40000)) (Some (-30000)) (Some (-30000)) (Some 0) None None None None;
  SetH 10 15 (Some (-40000)) (Some (-40000)) (Some (-30000)) (Some (-30000)) (Some (-20000)) None None None None;
  Push 0 10 14 0 40000 (-30000) 30000;
  Push 0 10 15 0 50000 (-30000) 10000;
  RelaxBS;
  ExpH 10 14 (Some (-40000)) (Some (-30000)) (Some (-10000)) None None;
  ExpH 10 15 (Some (-40000)) (Some (-30000)) (Some (-10000)) None None;
  ExpRec 2%nat 0 10 15 0 50000 (-30000) 10000;
  ExpRecH 0%nat 20000;
  ExpRecs 3%nat;
  Reset [(10, 14); (10, 15)] [(0, 10, 14); (0, 10, 15)] [(0, 10, 14); (0, 10, 15)]].

Definition RE_RBS_15 : list cmd := [
  Seed seed1234;
  SetH 10 14 (Some (-40000)) (Some (-40000)) (Some (-30000)) (Some (-30000)) (Some (-10000)) None None None None;
  SetH 10 15 (Some (-70000)) (Some (-70000)) (Some (-60000)) (Some (-60000)) (Some (-50000)) None None None None;
  Push 0 10 14 0 40000 (-30000) 20000;
  Push 0 10 15 0 50000 (-60000) 10000;
  RelaxBS;
  ExpH 10 14 (Some (-40000)) (Some 0) (Some 0) None None;
  ExpH 10 15 (Some (-70000)) (Some (-60000)) (Some (-30000)) None None;
  ExpRec 2%nat 0 10 15 0 50000 (-60000) 20000;
  ExpRecH 0%nat 0;
  ExpRecs 3%nat;
  Reset [(10, 14); (10, 15)] [(0, 10, 14); (0, 10, 15)] [(0, 10, 14); (0, 10, 15)]].

Definition RE_RBS_16 : list cmd := [
  Seed seed1234;
  SetH 10 14 (Some (-40000)) (Some (-40000)) (Some (-30000)) (Some (-30000)) (Some (-10000)) None None None None;
  SetH 10 15 (Some (-70000)) (Some (-70000)) (Some (-60000)) (Some (-60000)) (Some (-50000)) None None None None;
  Push 0 10 14 0 40000 (-30000) 10000;
  Push 0 10 14 0 40000 (-30000) 10000;
  Push 0 10 15 0 50000 (-60000) 10000;
  RelaxBS;
  ExpH 10 14 (Some (-40000)) (Some 0) (Some 0) None None;
  ExpH 10 15 (Some (-70000)) (Some (-60000)) (Some (-30000)) None None;
  ExpRec 3%nat 0 10 15 0 50000 (-60000) 10000;
  ExpRec 4%nat 0 10 15 0 50000 (-60000) 10000;
  ExpRecH 0%nat 0;
  ExpRecH 1%nat 0;
  ExpRecs 5%nat;
  Reset [(10, 14); (10, 15)] [(0, 10, 14); (0, 10, 15)] [(0, 10, 14); (0, 10, 15)]].

Definition RE_RBS_17 : list cmd := [
  Seed seed1234;
  SetH 10 14 (Some (-80000)) (Some (-80000)) (Some (-70000)) (Some (-70000)) (Some 0) None None None None;
  SetH 10 15 (Some (-40000)) None None None None (Some (-40000)) (Some 10000) None None;
  Push 0 10 14 0 40000 (-70000) 70000;
  RelaxBS;
  ExpH 10 14 (Some (-80000)) (Some (-70000)) (Some 0) None None;
  ExpT 10 15 (-40000);
  ExpRecH 0%nat 70000;
  ExpRecs 1%nat;
  Reset [(10, 14); (10, 15)] [(0, 10, 14); (2, 10, 15)] [(0, 10, 14)]].

Definition RE_RBS_18 : list cmd := [
  Seed seed1234;
  SetH 10 14 (Some (-40000)) (Some (-40000)) (Some (-30000)) (Some (-30000)) (Some (-10000)) None None None None;
  SetH 10 15 (Some (-30000)) None None None None (Some 0) (Some 10000) None None;
  Push 0 10 14 0 40000 (-30000) 20000;
  RelaxBS;
  ExpH 10 14 (Some (-40000)) (Some (-30000)) (Some (-20000)) None None;
  ExpT 10 15 (-20000);
  ExpRecH 0%nat 10000;
  ExpRecs 1%nat;
  Reset [(10, 14); (10, 15)] [(0, 10, 14); (2, 10, 15)] [(0, 10, 14)]].

Definition RE_RBS_19 : list cmd := [
  Seed seed1234;
  SetH 10 14 (Some (-40000)) (Some (-40000)) (Some (-30000)) (Some (-30000)) (Some (-10000)) None None None None;
  SetH 10 15 (Some (-60000)) None None None None (Some 0) (Some 10000) None None;
  Push 0 10 14 0 40000 (-30000) 20000;
  RelaxBS;
  ExpH 10 14 (Some (-40000)) (Some 0) (Some 0) None None;
  ExpT 10 15 (-40000);
  ExpRecH 0%nat 0;
  ExpRecs 1%nat;
  Reset [(10, 14); (10, 15)] [(0, 10, 14); (2, 10, 15)] [(0, 10, 14)]].

Definition RE_RBS_20 : list cmd := [
  Seed seed1234;
  SetH 10 14 (Some (-40000)) (Some (-40000)) (Some (-30000)) (Some (-30000)) (Some 10000) None None None None;
  SetH 10 15 (Some (-30000)) None None None None (Some (-20000)) (Some 10000) None None;
  Push 0 10 14 0 40000 (-30000) 40000;
  RelaxBS;
  ExpH 10 14 (Some (-40000)) (Some (-30000)) (Some 0) None None;
  ExpT 10 15 (-20000);
  ExpRecH 0%nat 30000;
  ExpRecs 1%nat;
  Reset [(10, 14); (10, 15)] [(0, 10, 14); (2, 10, 15)] [(0, 10, 14)]].

Definition RE_RBS_21 : list cmd := [
  Seed seed1234;
  SetH 10 14 (Some (-40000)) (Some (-40000)) (Some (-30000)) (Some (-30000)) (Some (-10000)) None None None None;
  SetH 10 15 (Some (-60000)) None None None None (Some 0) (Some 10000) None None;
  Push 0 10 14 0 40000 (-30000) 10000;
  Push 0 10 14 0 40000 (-30000) 10000;
  RelaxBS;
  ExpH 10 14 (Some (-40000)) (Some 0) (Some 0) None None;
  ExpT 10 15 (-40000);
  ExpRecH 0%nat 0;
  ExpRecH 1%nat 0;
  ExpRecs 2%nat;
  Reset [(10, 14); (10, 15)] [(0, 10, 14); (2, 10, 15)] [(0, 10, 14)]].

Definition RE_RBS_22 : list cmd := [
  Seed seed1234;
  SetH 10 14 (Some (-40000)) (Some (-40000)) (Some (-30000)) (Some (-30000)) (Some (-10000)) None None None None;
  SetH 10 15 (Some (-40000)) None None None None (Some (-40000)) (Some (-30000)) None None;
  Push 0 10 14 0 40000 (-30000) 20000;
  RelaxBS;
  ExpH 10 14 (Some (-40000)) (Some (-30000)) (Some (-20000)) None None;
  ExpH 10 15 (Some (-40000)) None None (Some (-30000)) (Some (-20000));
  ExpRec 1%nat 2 10 15 0 50000 (-30000) 10000;
  ExpRecH 0%nat 10000;
  ExpRecs 2%nat;
  Reset [(10, 14); (10, 15)] [(0, 10, 14); (2, 10, 15)] [(0, 10, 14); (2, 10, 15)]].

Definition RE_RBS_23 : list cmd := [
  Seed seed1234;
  SetH 10 14 (Some (-40000)) (Some (-40000)) (Some (-30000)) (Some (-30000)) (Some (-10000)) None None None None;
  SetH 10 15 (Some (-60000)) None None None None (Some (-60000)) (Some (-50000)) None None;
  Push 0 10 14 0 40000 (-30000) 40000;
  RelaxBS;
  ExpH 10 14 (Some (-40000)) (Some 0) (Some 0) None None;
  ExpH 10 15 (Some (-60000)) None None (Some (-50000)) (Some (-30000));
  ExpRec 1%nat 2 10 15 0 50000 (-50000) 20000;
  ExpRecH 0%nat 0;
  ExpRecs 2%nat;
  Reset [(10, 14); (10, 15)] [(0, 10, 14); (2, 10, 15)] [(0, 10, 14); (2, 10, 15)]].

Definition RE_RBS_24 : list cmd := [
  Seed seed1234;
  SetH 10 14 (Some (-40000)) (Some (-40000)) (Some (-30000)) (Some (-30000)) (Some (-10000)) None None None None;
  SetH 10 15 (Some (-60000)) None None None None (Some (-60000)) (Some (-50000)) None None;
  Push 0 10 14 0 40000 (-30000) 10000;
  Push 0 10 14 0 40000 (-30000) 10000;
  RelaxBS;
  ExpH 10 14 (Some (-40000)) (Some 0) (Some 0) None None;
  ExpH 10 15 (Some (-60000)) None None (Some (-50000)) (Some (-30000));
  ExpRec 2%nat 2 10 15 0 50000 (-50000) 10000;
  ExpRec 3%nat 2 10 15 0 50000 (-50000) 10000;
  ExpRecH 0%nat 0;
  ExpRecH 1%nat 0;
  ExpRecs 4%nat;
  Reset [(10, 14); (10, 15)] [(0, 10, 14); (2, 10, 15)] [(0, 10, 14); (2, 10, 15)]].

Definition RE_RBS_25 : list cmd := [
  Seed seed1234;
  SetH 10 14 (Some (-80000)) (Some (-80000)) (Some (-70000)) (Some (-70000)) (Some 0) None None None None;
  SetH 10 15 (Some (-40000)) None None None None (Some (-40000)) (Some (-30000)) (Some (-30000)) (Some (-10000));
  Push 0 10 14 0 40000 (-70000) 70000;
  Push 2 10 15 0 50000 (-30000) 20000;
  RelaxBS;
  ExpH 10 14 (Some (-80000)) (Some (-70000)) (Some 0) None None;
  ExpH 10 15 (Some (-40000)) None None (Some (-30000)) (Some (-10000));
  ExpRecH 0%nat 70000;
  ExpRecs 2%nat;
  Reset [(10, 14); (10, 15)] [(0, 10, 14); (2, 10, 15)] [(0, 10, 14); (2, 10, 15)]].

Definition RE_RBS_26 : list cmd := [
  Seed seed1234;
  SetH 10 14 (Some (-40000)) (Some (-40000)) (Some (-30000)) (Some (-30000)) (Some 0) None None None None;
  SetH 10 15 (Some (-40000)) None None None None (Some (-40000)) (Some (-30000)) (Some (-30000)) (Some (-20000));
  Push 0 10 14 0 40000 (-30000) 30000;
  Push 2 10 15 0 50000 (-30000) 10000;
  RelaxBS;
  ExpH 10 14 (Some (-40000)) (Some (-30000)) (Some (-10000)) None None;
  ExpH 10 15 (Some (-40000)) None None (Some (-30000)) (Some (-10000));
  ExpRec 2%nat 2 10 15 0 50000 (-30000) 10000;
  ExpRecH 0%nat 20000;
  ExpRecs 3%nat;
  Reset [(10, 14); (10, 15)] [(0, 10, 14); (2, 10, 15)] [(0, 10, 14); (2, 10, 15)]].

Definition RE_RBS_27 : list cmd := [
  Seed seed1234;
  SetH 10 14 (Some (-40000)) (Some (-40000)) (Some (-30000)) (Some (-30000)) (Some (-10000)) None None None None;
  SetH 10 15 (Some (-70000)) None None None None (Some (-70000)) (Some (-60000)) (Some (-60000)) (Some (-50000));
  Push 0 10 14 0 40000 (-30000) 20000;
  Push 2 10 15 0 50000 (-60000) 10000;
  RelaxBS;
  ExpH 10 14 (Some (-40000)) (Some 0) (Some 0) None None;
  ExpH 10 15 (Some (-70000)) None None (Some (-60000)) (Some (-30000));
  ExpRec 2%nat 2 10 15 0 50000 (-60000) 20000;
  ExpRecH 0%nat 0;
  ExpRecs 3%nat;
  Reset [(10, 14); (10, 15)] [(0, 10, 14); (2, 10, 15)] [(0, 10, 14); (2, 10, 15)]].

Definition RE_RBS_28 : list cmd := [
  Seed seed1234;
  SetH 10 14 (Some (-40000)) (Some (-40000)) (Some (-30000)) (Some (-30000)) (Some (-10000)) None None None None;
  SetH 10 15 (Some (-70000)) None None None None (Some (-70000)) (Some (-60000)) (Some (-60000)) (Some (-50000));
  Push 0 10 14 0 40000 (-30000) 10000;
  Push 0 10 14 0 40000 (-30000) 10000;
  Push 2 10 15 0 50000 (-60000) 10000;
  RelaxBS;
  ExpH 10 14 (Some (-40000)) (Some 0) (Some 0) None None;
  ExpH 10 15 (Some (-70000)) None None (Some (-60000)) (Some (-30000));
  ExpRec 3%nat 2 10 15 0 50000 (-60000) 10000;
  ExpRec 4%nat 2 10 15 0 50000 (-60000) 10000;
  ExpRecH 0%nat 0;
  ExpRecH 1%nat 0;
  ExpRecs 5%nat;
  Reset [(10, 14); (10, 15)] [(0, 10, 14); (2, 10, 15)] [(0, 10, 14); (2, 10, 15)]].

Definition RE_RBS_29 : list cmd := [
  Seed seed1234;
  SetH 10 14 (Some (-80000)) (Some (-80000)) (Some (-70000)) (Some (-70000)) (Some 0) None None None None;
  SetH 10 15 (Some (-40000)) (Some (-40000)) (Some (-10000)) None None (Some 10000) (Some 30000) None None;
  Push 0 10 14 0 40000 (-70000) 70000;
  RelaxBS;
  ExpH 10 14 (Some (-80000)) (Some (-70000)) (Some 0) None None;
  ExpT 10 15 (-40000);
  ExpRecH 0%nat 70000;
  ExpRecs 1%nat;
  Reset [(10, 14); (10, 15)] [(0, 10, 14); (0, 10, 15); (2, 10, 15)] [(0, 10, 14)]].

Definition RE_RBS_30 : list cmd := [
  Seed seed1234;
  SetH 10 14 (Some (-40000)) (Some (-40000)) (Some (-30000)) (Some (-30000)) (Some (-10000)) None None None None;
  SetH 10 15 (Some (-40000)) (Some (-40000)) (Some (-30000)) None None (Some 10000) (Some 30000) None None;
  Push 0 10 14 0 40000 (-30000) 20000;
  RelaxBS;
  ExpH 10 14 (Some (-40000)) (Some (-30000)) (Some (-20000)) None None;
  ExpH 10 15 (Some (-40000)) (Some (-30000)) (Some (-20000)) None None;
  ExpRec 1%nat 0 10 15 0 50000 (-30000) 10000;
  ExpRecH 0%nat 10000;
  ExpRecs 2%nat;
  Reset [(10, 14); (10, 15)] [(0, 10, 14); (0, 10, 15); (2, 10, 15)] [(0, 10, 14); (0, 10, 15)]].

Definition RE_RBS_31 : list cmd := [
  Seed seed1234;
  SetH 10 14 (Some (-40000)) (Some (-40000)) (Some (-30000)) (Some (-30000)) (Some (-10000)) None None None None;
  SetH 10 15 (Some (-60000)) (Some (-60000)) (Some (-50000)) None None (Some 10000) (Some 30000) None None;
  Push 0 10 14 0 40000 (-30000) 20000;
  RelaxBS;
  ExpH 10 14 (Some (-40000)) (Some 0) (Some 0) None None;
  ExpH 10 15 (Some (-60000)) (Some (-50000)) (Some (-30000)) None None;
  ExpRec 1%nat 0 10 15 0 50000 (-50000) 20000;
  ExpRecH 0%nat 0;
  ExpRecs 2%nat;
  Reset [(10, 14); (10, 15)] [(0, 10, 14); (0, 10, 15); (2, 10, 15)] [(0, 10, 14); (0, 10, 15)]].

Definition RE_RBS_32 : list cmd := [
  Seed seed1236;
  SetH 10 14 (Some (-40000)) (Some (-40000)) (Some (-30000)) (Some (-30000)) (Some 30000) None None None None;
  SetH 10 15 (Some (-60000)) (Some (-60000)) (Some (-40000)) None None (Some (-20000)) (Some 0) None None;
  Push 0 10 14 0 40000 (-30000) 60000;
  RelaxBS;
  ExpH 10 14 (Some (-40000)) (Some (-30000)) (Some 10000) None None;
  ExpH 10 15 (Some (-60000)) (Some (-40000)) (Some (-20000)) None None;
  ExpRec 1%nat 0 10 15 0 50000 (-40000) 20000;
  ExpRecH 0%nat 40000;
  ExpRecs 2%nat;
  Reset [(10, 14); (10, 15)] [(0, 10, 14); (0, 10, 15); (2, 10, 15)] [(0, 10, 14); (0, 10, 15)]].

Definition RE_RBS_33 : list cmd := [
  Seed seed1234;
  SetH 10 14 (Some (-40000)) (Some (-40000)) (Some (-30000)) (Some (-30000)) (Some (-10000)) None None None None;
  SetH 10 15 (Some (-60000)) (Some (-60000)) (Some (-50000)) None None (Some 10000) (Some 30000) None None;
  Push 0 10 14 0 40000 (-30000) 10000;
  Push 0 10 14 0 40000 (-30000) 10000;
  RelaxBS;
  ExpH 10 14 (Some (-40000)) (Some 0) (Some 0) None None;
  ExpH 10 15 (Some (-60000)) (Some (-50000)) (Some (-30000)) None None;
  ExpRec 2%nat 0 10 15 0 50000 (-50000) 10000;
  ExpRec 3%nat 0 10 15 0 50000 (-50000) 10000;
  ExpRecH 0%nat 0;
  ExpRecH 1%nat 0;
  ExpRecs 4%nat;
  Reset [(10, 14); (10, 15)] [(0, 10, 14); (0, 10, 15); (2, 10, 15)] [(0, 10, 14); (0, 10, 15)]].

Definition RE_RBS_34 : list cmd := [
  Seed seed1234;
  SetH 10 14 (Some (-40000)) (Some (-40000)) (Some (-20000)) (Some (-20000)) (Some 0) None None None None;
  SetH 10 15 (Some (-60000)) (Some (-60000)) (Some (-50000)) None None (Some (-40000)) (Some (-20000)) None None;
  Push 0 10 14 0 40000 (-20000) 20000;
  RelaxBS;
  ExpH 10 14 (Some (-40000)) (Some (-20000)) (Some (-10000)) None None;
  ExpH 10 15 (Some (-60000)) None None (Some (-20000)) (Some (-10000));
  ExpRec 1%nat 2 10 15 0 50000 (-20000) 10000;
  ExpRecH 0%nat 10000;
  ExpRecs 2%nat;
  Reset [(10, 14); (10, 15)] [(0, 10, 14); (0, 10, 15); (2, 10, 15)] [(0, 10, 14); (2, 10, 15)]].

Definition RE_RBS_35 : list cmd := [
  Seed seed1234;
  SetH 10 14 (Some (-40000)) (Some (-40000)) (Some (-20000)) (Some (-20000)) (Some 0) None None None None;
  SetH 10 15 (Some (-80000)) (Some (-80000)) (Some (-70000)) None None (Some (-60000)) (Some (-50000)) None None;
  Push 0 10 14 0 40000 (-20000) 20000;
  RelaxBS;
  ExpH 10 14 (Some (-40000)) (Some 0) (Some 0) None None;
  ExpH 10 15 (Some (-80000)) None None (Some (-50000)) (Some (-30000));
  ExpRec 1%nat 2 10 15 0 50000 (-50000) 20000;
  ExpRecH 0%nat 0;
  ExpRecs 2%nat;
  Reset [(10, 14); (10, 15)] [(0, 10, 14); (0, 10, 15); (2, 10, 15)] [(0, 10, 14); (2, 10, 15)]].

Definition RE_RBS_36 : list cmd := [
  Seed seed1234;
  SetH 10 14 (Some (-40000)) (Some (-40000)) (Some (-20000)) (Some (-20000)) (Some 0) None None None None;
  SetH 10 15 (Some (-80000)) (Some (-80000)) (Some (-70000)) None None (Some (-60000)) (Some (-50000)) None None;
  Push 0 10 14 0 40000 (-20000) 10000;
  Push 0 10 14 0 40000 (-20000) 10000;
  RelaxBS;
  ExpH 10 14 (Some (-40000)) (Some 0) (Some 0) None None;
  ExpH 10 15 (Some (-80000)) None None (Some (-50000)) (Some (-30000));
  ExpRec 2%nat 2 10 15 0 50000 (-50000) 10000;
  ExpRec 3%nat 2 10 15 0 50000 (-50000) 10000;
  ExpRecH 0%nat 0;
  ExpRecH 1%nat 0;
  ExpRecs 4%nat;
  Reset [(10, 14); (10, 15)] [(0, 10, 14); (0, 10, 15); (2, 10, 15)] [(0, 10, 14); (2, 10, 15)]].

Definition RE_RBS_37 : list cmd := [
  Seed seed1234;
  SetH 10 14 (Some (-40000)) (Some (-40000)) (Some (-30000)) (Some (-30000)) (Some 0) None None None None;
  SetH 10 15 (Some (-40000)) (Some (-40000)) (Some (-20000)) None None (Some (-10000)) (Some 0) (Some 0) (Some 10000);
  Push 2 10 15 0 50000 0 10000;
  Push 0 10 14 0 40000 (-30000) 30000;
  RelaxBS;
  ExpH 10 14 (Some (-40000)) (Some (-30000)) (Some (-10000)) None None;
  ExpH 10 15 (Some (-40000)) (Some (-20000)) (Some (-10000)) (Some 0) (Some 10000);
  ExpRec 2%nat 0 10 15 0 50000 (-20000) 10000;
  ExpRecH 1%nat 20000;
  ExpRecs 3%nat;
  Reset [(10, 14); (10, 15)] [(0, 10, 14); (0, 10, 15); (2, 10, 15)] [(0, 10, 14); (0, 10, 15); (2, 10, 15)]].

Definition RE_RBS_38 : list cmd := [
  Seed seed1234;
  SetH 10 14 (Some (-40000)) (Some (-40000)) (Some (-20000)) (Some (-20000)) (Some 0) None None None None;
  SetH 10 15 (Some (-50000)) (Some (-50000)) (Some (-40000)) None None (Some (-10000)) (Some 0) (Some 0) (Some 10000);
  Push 2 10 15 0 50000 0 10000;
  Push 0 10 14 0 40000 (-20000) 20000;
  RelaxBS;
  ExpH 10 14 (Some (-40000)) (Some 0) (Some 0) None None;
  ExpH 10 15 (Some (-50000)) (Some (-40000)) (Some (-20000)) (Some 0) (Some 10000);
  ExpRec 2%nat 0 10 15 0 50000 (-40000) 20000;
  ExpRecH 1%nat 0;
  ExpRecs 3%nat;
  Reset [(10, 14); (10, 15)] [(0, 10, 14); (0, 10, 15); (2, 10, 15)] [(0, 10, 14); (0, 10, 15); (2, 10, 15)]].

Definition RE_RBS_39 : list cmd := [
  Seed seed1234;
  SetH 10 14 (Some (-40000)) (Some (-40000)) (Some (-30000)) (Some (-30000)) (Some 10000) None None None None;
  SetH 10 15 (Some (-50000)) (Some (-50000)) (Some (-30000)) None None (Some (-20000)) (Some 0) (Some 0) (Some 10000);
  Push 2 10 15 0 50000 0 10000;
  Push 0 10 14 0 40000 (-30000) 40000;
  RelaxBS;
  ExpH 10 14 (Some (-40000)) (Some (-30000)) (Some 0) None None;
  ExpH 10 15 (Some (-50000)) (Some (-30000)) (Some (-20000)) (Some 0) (Some 10000);
  ExpRec 2%nat 0 10 15 0 50000 (-30000) 10000;
  ExpRecH 1%nat 30000;
  ExpRecs 3%nat;
  Reset [(10, 14); (10, 15)] [(0, 10, 14); (0, 10, 15); (2, 10, 15)] [(0, 10, 14); (0, 10, 15); (2, 10, 15)]].

Definition RE_RBS_40 : list cmd := [
  Seed seed1234;
  SetH 10 14 (Some (-40000)) (Some (-40000)) (Some (-20000)) (Some (-20000)) (Some 0) None None None None;
  SetH 10 15 (Some (-50000)) (Some (-50000)) (Some (-40000)) None None (Some (-10000)) (Some 0) (Some 0) (Some 10000);
  Push 2 10 15 0 50000 0 10000;
  Push 0 10 14 0 40000 (-20000) 10000;
  Push 0 10 14 0 40000 (-20000) 10000;
  RelaxBS;
  ExpH 10 14 (Some (-40000)) (Some 0) (Some 0) None None;
  ExpH 10 15 (Some (-50000)) (Some (-40000)) (Some (-20000)) (Some 0) (Some 10000);
  ExpRec 3%nat 0 10 15 0 50000 (-40000) 10000;
  ExpRec 4%nat 0 10 15 0 50000 (-40000) 10000;
  ExpRecH 1%nat 0;
  ExpRecH 2%nat 0;
  ExpRecs 5%nat;
  Reset [(10, 14); (10, 15)] [(0, 10, 14); (0, 10, 15); (2, 10, 15)] [(0, 10, 14); (0, 10, 15); (2, 10, 15)]].

Definition RE_RBS_41 : list cmd := [
  Seed seed1234;
  SetH 10 14 (Some (-30000)) (Some (-30000)) (Some (-20000)) (Some (-20000)) (Some 0) None None None None;
  SetH 10 15 (Some (-60000)) (Some (-60000)) (Some (-50000)) None None (Some (-40000)) (Some (-30000)) (Some (-30000)) (Some (-20000));
  Push 2 10 15 0 50000 (-30000) 10000;
  Push 0 10 14 0 40000 (-10000) 20000;
  RelaxBS;
  ExpH 10 14 (Some (-30000)) (Some (-20000)) (Some (-10000)) None None;
  ExpH 10 15 (Some (-60000)) None None (Some (-30000)) (Some (-10000));
  ExpRec 2%nat 2 10 15 0 50000 (-30000) 10000;
  ExpRecH 1%nat 10000;
  ExpRecs 3%nat;
  Reset [(10, 14); (10, 15)] [(0, 10, 14); (0, 10, 15); (2, 10, 15)] [(0, 10, 14); (2, 10, 15)]].

Definition RE_RBS_42 : list cmd := [
  Seed seed1234;
  SetH 10 14 (Some (-30000)) (Some (-30000)) (Some (-10000)) (Some (-10000)) (Some 0) None None None None;
  SetH 10 15 (Some (-60000)) (Some (-60000)) (Some (-50000)) None None (Some (-40000)) (Some (-30000)) (Some (-30000)) (Some (-20000));
  Push 0 10 14 0 40000 (-10000) 10000;
  Push 2 10 15 0 50000 (-30000) 10000;
  RelaxBS;
  ExpH 10 14 (Some (-30000)) (Some 0) (Some 0) None None;
  ExpH 10 15 (Some (-60000)) None None (Some (-30000)) (Some (-10000));
  ExpRec 2%nat 2 10 15 0 50000 (-30000) 10000;
  ExpRecH 0%nat 0;
  ExpRecs 3%nat;
  Reset [(10, 14); (10, 15)] [(0, 10, 14); (0, 10, 15); (2, 10, 15)] [(0, 10, 14); (2, 10, 15)]].

Definition RE_RBS_43 : list cmd := [
  Seed seed200;
  SetH 10 14 (Some (-30000)) (Some (-30000)) (Some 0) (Some 0) (Some 20000) None None None None;
  SetH 10 15 (Some (-70000)) (Some (-70000)) (Some (-60000)) None None (Some (-50000)) (Some (-40000)) (Some (-40000)) (Some (-30000));
  Push 0 10 14 0 40000 0 10000;
  Push 0 10 14 0 40000 0 10000;
  Push 2 10 15 0 50000 (-40000) 10000;
  RelaxBS;
  ExpH 10 14 (Some (-30000)) (Some 0) (Some 0) None None;
  ExpH 10 15 (Some (-70000)) None None (Some (-40000)) (Some (-10000));
  ExpRec 2%nat 2 10 15 0 50000 (-40000) 10000;
  ExpRec 3%nat 2 10 15 0 50000 (-40000) 10000;
  ExpRec 4%nat 2 10 15 0 50000 (-40000) 10000;
  ExpRecH 0%nat 0;
  ExpRecH 1%nat 0;
  ExpRecs 5%nat;
  Reset [(10, 14); (10, 15)] [(0, 10, 14); (0, 10, 15); (2, 10, 15)] [(0, 10, 14); (2, 10, 15)]].

Definition RE_RBS_44 : list cmd := [
  Seed seed1234;
  SetH 10 14 (Some (-40000)) (Some (-40000)) (Some (-30000)) (Some (-30000)) (Some (-10000)) None None None None;
  SetH 10 15 (Some (-60000)) (Some (-60000)) (Some (-50000)) (Some (-50000)) (Some (-30000)) (Some 10000) (Some 30000) None None;
  Push 0 10 14 0 40000 (-30000) 20000;
  Push 0 10 15 0 50000 (-50000) 20000;
  RelaxBS;
  ExpH 10 14 (Some (-40000)) (Some (-30000)) (Some (-20000)) None None;
  ExpH 10 15 (Some (-60000)) (Some (-50000)) (Some (-20000)) None None;
  ExpRec 2%nat 0 10 15 0 50000 (-50000) 10000;
  ExpRecH 0%nat 10000;
  ExpRecs 3%nat;
  Reset [(10, 14); (10, 15)] [(0, 10, 14); (0, 10, 15); (2, 10, 15)] [(0, 10, 14); (0, 10, 15)]].

Definition RE_RBS_45 : list cmd := [
  Seed seed1234;
  SetH 10 14 (Some (-40000)) (Some (-40000)) (Some (-30000)) (Some (-30000)) (Some (-20000)) None None None None;
  SetH 10 15 (Some (-60000)) (Some (-60000)) (Some (-50000)) (Some (-50000)) (Some (-40000)) (Some 10000) (Some 30000) None None;
  Push 0 10 14 0 40000 (-30000) 10000;
  Push 0 10 15 0 50000 (-50000) 10000;
  RelaxBS;
  ExpH 10 14 (Some (-40000)) (Some 0) (Some 0) None None;
  ExpH 10 15 (Some (-60000)) (Some (-50000)) (Some (-30000)) None None;
  ExpRec 2%nat 0 10 15 0 50000 (-50000) 10000;
  ExpRecH 0%nat 0;
  ExpRecs 3%nat;
  Reset [(10, 14); (10, 15)] [(0, 10, 14); (0, 10, 15); (2, 10, 15)] [(0, 10, 14); (0, 10, 15)]].

Definition RE_RBS_46 : list cmd := [
  Seed seed1234;
  SetH 10 14 (Some (-40000)) (Some (-40000)) (Some (-30000)) (Some (-30000)) (Some 10000) None None None None;
  SetH 10 15 (Some (-60000)) (Some (-60000)) (Some (-40000)) (Some (-40000)) (Some (-30000)) (Some (-20000)) (Some 30000) None None;
  Push 0 10 14 0 40000 (-30000) 40000;
  Push 0 10 15 0 50000 (-40000) 10000;
  RelaxBS;
  ExpH 10 14 (Some (-40000)) (Some (-30000)) (Some 0) None None;
  ExpH 10 15 (Some (-60000)) (Some (-40000)) (Some (-20000)) None None;
  ExpRec 2%nat 0 10 15 0 50000 (-40000) 10000;
  ExpRecH 0%nat 30000;
  ExpRecs 3%nat;
  Reset [(10, 14); (10, 15)] [(0, 10, 14); (0, 10, 15); (2, 10, 15)] [(0, 10, 14); (0, 10, 15)]].

Definition RE_RBS_47 : list cmd := [
  Seed seed1234;
  SetH 10 14 (Some (-40000)) (Some (-40000)) (Some (-10000)) (Some (-10000)) (Some 10000) None None None None;
  SetH 10 15 (Some (-60000)) (Some (-60000)) (Some (-50000)) (Some (-50000)) (Some (-40000)) (Some 10000) (Some 30000) None None;
  Push 0 10 14 0 40000 (-10000) 10000;
  Push 0 10 14 0 40000 (-10000) 10000;
  Push 0 10 15 0 50000 (-50000) 10000;
  RelaxBS;
  ExpH 10 14 (Some (-40000)) (Some 0) (Some 0) None None;
  ExpH 10 15 (Some (-60000)) (Some (-50000)) (Some (-20000)) None None;
  ExpRec 3%nat 0 10 15 0 50000 (-50000) 10000;
  ExpRec 4%nat 0 10 15 0 50000 (-50000) 10000;
  ExpRecH 0%nat 0;
  ExpRecH 1%nat 0;
  ExpRecs 5%nat;
  Reset [(10, 14); (10, 15)] [(0, 10, 14); (0, 10, 15); (2, 10, 15)] [(0, 10, 14); (0, 10, 15)]].

Definition RE_RBS_48 : list cmd := [
  Seed seed1234;
  SetH 10 14 (Some (-40000)) (Some (-40000)) (Some (-20000)) (Some (-20000)) (Some 0) None None None None;
  SetH 10 15 (Some (-80000)) (Some (-80000)) (Some (-70000)) (Some (-70000)) (Some (-60000)) (Some (-40000)) (Some (-20000)) None None;
  Push 0 10 14 0 40000 (-20000) 20000;
  Push 2 10 15 0 50000 (-70000) 10000;
  RelaxBS;
  ExpH 10 14 (Some (-40000)) (Some (-20000)) (Some (-10000)) None None;
  ExpH 10 15 (Some (-80000)) (Some (-70000)) (Some (-60000)) (Some (-20000)) (Some (-10000));
  ExpRec 2%nat 2 10 15 0 50000 (-20000) 10000;
  ExpRecH 0%nat 10000;
  ExpRecs 3%nat;
  Reset [(10, 14); (10, 15)] [(0, 10, 14); (0, 10, 15); (2, 10, 15)] [(0, 10, 14); (0, 10, 15); (2, 10, 15)]].

Definition RE_RBS_49 : list cmd := [
  Seed seed1234;
  SetH 10 14 (Some (-40000)) (Some (-40000)) (Some (-20000)) (Some (-20000)) (Some 0) None None None None;
  SetH 10 15 (Some (-80000)) (Some (-80000)) (Some (-70000)) (Some (-70000)) (Some (-60000)) (Some (-50000)) (Some (-40000)) None None;
  Push 0 10 14 0 40000 (-20000) 20000;
  Push 0 10 15 0 50000 (-70000) 10000;
  RelaxBS;
  ExpH 10 14 (Some (-40000)) (Some 0) (Some 0) None None;
  ExpH 10 15 (Some (-80000)) (Some (-70000)) (Some (-60000)) (Some (-40000)) (Some (-20000));
  ExpRec 2%nat 2 10 15 0 50000 (-40000) 20000;
  ExpRecH 0%nat 0;
  ExpRecs 3%nat;
  Reset [(10, 14); (10, 15)] [(0, 10, 14); (0, 10, 15); (2, 10, 15)] [(0, 10, 14); (0, 10, 15); (2, 10, 15)]].

Definition RE_RBS_50 : list cmd := [
  Seed seed1234;
  SetH 10 14 (Some (-40000)) (Some (-40000)) (Some (-20000)) (Some (-20000)) (Some 0) None None None None;
  SetH 10 15 (Some (-80000)) (Some (-80000)) (Some (-70000)) (Some (-70000)) (Some (-60000)) (Some (-50000)) (Some (-40000)) None None;
  Push 0 10 14 0 40000 (-20000) 10000;
  Push 0 10 14 0 40000 (-20000) 10000;
  Push 0 10 15 0 50000 (-70000) 10000;
  RelaxBS;
  ExpH 10 14 (Some (-40000)) (Some 0) (Some 0) None None;
  ExpH 10 15 (Some (-80000)) (Some (-70000)) (Some (-60000)) (Some (-40000)) (Some (-20000));
  ExpRec 3%nat 2 10 15 0 50000 (-40000) 10000;
  ExpRec 4%nat 2 10 15 0 50000 (-40000) 10000;
  ExpRecH 0%nat 0;
  ExpRecH 1%nat 0;
  ExpRecs 5%nat;
  Reset [(10, 14); (10, 15)] [(0, 10, 14); (0, 10, 15); (2, 10, 15)] [(0, 10, 14); (0, 10, 15); (2, 10, 15)]].

Definition RE_RBS_51 : list cmd := [
  Seed seed1234;
  SetH 10 14 (Some (-40000)) (Some (-40000)) (Some (-30000)) (Some (-30000)) (Some 0) None None None None;
  SetH 10 15 (Some (-60000)) (Some (-60000)) (Some (-50000)) (Some (-50000)) (Some (-40000)) (Some (-20000)) (Some (-10000)) (Some (-10000)) (Some 0);
  Push 0 10 15 0 50000 (-50000) 10000;
  Push 2 10 15 0 50000 (-10000) 10000;
  Push 0 10 14 0 40000 (-30000) 30000;
  RelaxBS;
  ExpH 10 14 (Some (-40000)) (Some (-30000)) (Some (-20000)) None None;
  ExpH 10 15 (Some (-60000)) (Some (-50000)) (Some (-20000)) (Some (-10000)) (Some 0);
  ExpRec 3%nat 0 10 15 0 50000 (-50000) 20000;
  ExpRecH 2%nat 10000;
  ExpRecs 4%nat;
  Reset [(10, 14); (10, 15)] [(0, 10, 14); (0, 10, 15); (2, 10, 15)] [(0, 10, 14); (0, 10, 15); (2, 10, 15)]].

Definition RE_RBS_52 : list cmd := [
  Seed seed1234;
  SetH 10 14 (Some (-40000)) (Some (-40000)) (Some (-30000)) (Some (-30000)) (Some (-10000)) None None None None;
  SetH 10 15 (Some (-70000)) (Some (-70000)) (Some (-60000)) (Some (-60000)) (Some (-50000)) (Some (-20000)) (Some (-10000)) (Some (-10000)) (Some 0);
  Push 2 10 15 0 50000 (-10000) 10000;
  Push 0 10 14 0 40000 (-30000) 20000;
  Push 0 10 15 0 50000 (-60000) 10000;
  RelaxBS;
  ExpH 10 14 (Some (-40000)) (Some 0) (Some 0) None None;
  ExpH 10 15 (Some (-70000)) (Some (-60000)) (Some (-30000)) (Some (-10000)) (Some 0);
  ExpRec 3%nat 0 10 15 0 50000 (-60000) 20000;
  ExpRecH 1%nat 0;
  ExpRecs 4%nat;
  Reset [(10, 14); (10, 15)] [(0, 10, 14); (0, 10, 15); (2, 10, 15)] [(0, 10, 14); (0, 10, 15); (2, 10, 15)]].

Definition RE_RBS_53 : list cmd := [
  Seed seed1236;
  SetH 10 14 (Some (-40000)) (Some (-40000)) (Some (-30000)) (Some (-30000)) (Some 20000) None None None None;
  SetH 10 15 (Some (-60000)) (Some (-60000)) (Some (-50000)) (Some (-50000)) (Some (-30000)) (Some (-20000)) (Some 0) (Some 0) (Some 10000);
  Push 0 10 14 0 40000 (-30000) 50000;
  Push 0 10 15 0 50000 (-50000) 20000;
  Push 2 10 15 0 50000 0 10000;
  RelaxBS;
  ExpH 10 14 (Some (-40000)) (Some (-30000)) (Some 10000) None None;
  ExpH 10 15 (Some (-60000)) (Some (-50000)) (Some (-20000)) (Some 0) (Some 10000);
  ExpRec 3%nat 0 10 15 0 50000 (-50000) 10000;
  ExpRecH 0%nat 40000;
  ExpRecs 4%nat;
  Reset [(10, 14); (10, 15)] [(0, 10, 14); (0, 10, 15); (2, 10, 15)] [(0, 10, 14); (0, 10, 15); (2, 10, 15)]].

Definition RE_RBS_54 : list cmd := [
  Seed seed1234;
  SetH 10 14 (Some (-40000)) (Some (-40000)) (Some (-30000)) (Some (-30000)) (Some (-10000)) None None None None;
  SetH 10 15 (Some (-70000)) (Some (-70000)) (Some (-60000)) (Some (-60000)) (Some (-50000)) (Some (-20000)) (Some (-10000)) (Some (-10000)) (Some 0);
  Push 2 10 15 0 50000 (-10000) 10000;
  Push 0 10 14 0 40000 (-30000) 10000;
  Push 0 10 14 0 40000 (-30000) 10000;
  Push 0 10 15 0 50000 (-60000) 10000;
  RelaxBS;
  ExpH 10 14 (Some (-40000)) (Some 0) (Some 0) None None;
  ExpH 10 15 (Some (-70000)) (Some (-60000)) (Some (-30000)) (Some (-10000)) (Some 0);
  ExpRec 4%nat 0 10 15 0 50000 (-60000) 10000;
  ExpRec 5%nat 0 10 15 0 50000 (-60000) 10000;
  ExpRecH 1%nat 0;
  ExpRecH 2%nat 0;
  ExpRecs 6%nat;
  Reset [(10, 14); (10, 15)] [(0, 10, 14); (0, 10, 15); (2, 10, 15)] [(0, 10, 14); (0, 10, 15); (2, 10, 15)]].

Definition RE_RBS_55 : list cmd := [
  Seed seed1234;
  SetH 10 14 (Some (-40000)) (Some (-40000)) (Some (-20000)) (Some (-20000)) (Some 10000) None None None None;
  SetH 10 15 (Some (-60000)) (Some (-60000)) (Some (-50000)) (Some (-50000)) (Some (-40000)) (Some (-30000)) (Some (-20000)) (Some (-20000)) (Some (-10000));
  Push 0 10 14 0 40000 (-20000) 30000;
  Push 0 10 15 0 50000 (-50000) 10000;
  Push 2 10 15 0 50000 (-20000) 10000;
  RelaxBS;
  ExpH 10 14 (Some (-40000)) (Some (-20000)) (Some 0) None None;
  ExpH 10 15 (Some (-60000)) (Some (-50000)) (Some (-40000)) (Some (-20000)) (Some 0);
  ExpRec 3%nat 2 10 15 0 50000 (-20000) 10000;
  ExpRecH 0%nat 20000;
  ExpRecs 4%nat;
  Reset [(10, 14); (10, 15)] [(0, 10, 14); (0, 10, 15); (2, 10, 15)] [(0, 10, 14); (0, 10, 15); (2, 10, 15)]].

Definition RE_RBS_56 : list cmd := [
  Seed seed1234;
  SetH 10 14 (Some (-40000)) (Some (-40000)) (Some (-10000)) (Some (-10000)) (Some 0) None None None None;
  SetH 10 15 (Some (-80000)) (Some (-80000)) (Some (-70000)) (Some (-70000)) (Some (-60000)) (Some (-50000)) (Some (-40000)) (Some (-40000)) (Some (-30000));
  Push 0 10 14 0 40000 (-10000) 10000;
  Push 0 10 15 0 50000 (-70000) 10000;
  Push 2 10 15 0 50000 (-40000) 10000;
  RelaxBS;
  ExpH 10 14 (Some (-40000)) (Some 0) (Some 0) None None;
  ExpH 10 15 (Some (-80000)) (Some (-70000)) (Some (-60000)) (Some (-40000)) (Some (-20000));
  ExpRec 3%nat 2 10 15 0 50000 (-40000) 10000;
  ExpRecH 0%nat 0;
  ExpRecs 4%nat;
  Reset [(10, 14); (10, 15)] [(0, 10, 14); (0, 10, 15); (2, 10, 15)] [(0, 10, 14); (0, 10, 15); (2, 10, 15)]].

Definition RE_RBS_57 : list cmd := [
  Seed seed1234;
  SetH 10 14 (Some (-40000)) (Some (-40000)) (Some (-20000)) (Some (-20000)) (Some 0) None None None None;
  SetH 10 15 (Some (-90000)) (Some (-90000)) (Some (-80000)) (Some (-80000)) (Some (-70000)) (Some (-60000)) (Some (-50000)) (Some (-50000)) (Some (-40000));
  Push 0 10 14 0 40000 (-20000) 10000;
  Push 0 10 14 0 40000 (-20000) 10000;
  Push 0 10 15 0 50000 (-80000) 10000;
  Push 2 10 15 0 50000 (-50000) 10000;
  RelaxBS;
  ExpH 10 14 (Some (-40000)) (Some 0) (Some 0) None None;
  ExpH 10 15 (Some (-90000)) (Some (-80000)) (Some (-70000)) (Some (-50000)) (Some (-20000));
  ExpRec 4%nat 2 10 15 0 50000 (-50000) 10000;
  ExpRec 5%nat 2 10 15 0 50000 (-50000) 10000;
  ExpRecH 0%nat 0;
  ExpRecH 1%nat 0;
  ExpRecs 6%nat;
  Reset [(10, 14); (10, 15)] [(0, 10, 14); (0, 10, 15); (2, 10, 15)] [(0, 10, 14); (0, 10, 15); (2, 10, 15)]].

Definition RE_RBS_58 : list cmd := [
  Seed seed1234;
  SetH 10 14 (Some (-80000)) (Some (-80000)) (Some (-70000)) (Some (-70000)) (Some 0) None None None None;
  SetH 10 15 (Some (-60000)) (Some (-60000)) (Some (-50000)) (Some (-50000)) (Some (-40000)) (Some (-40000)) (Some (-10000)) None None;
  Push 0 10 14 0 40000 (-70000) 70000;
  Push 0 10 15 0 50000 (-50000) 10000;
  RelaxBS;
  ExpH 10 14 (Some (-80000)) (Some (-70000)) (Some 0) None None;
  ExpH 10 15 (Some (-60000)) (Some (-50000)) (Some (-40000)) None None;
  ExpRecH 0%nat 70000;
  ExpRecs 2%nat;
  Reset [(10, 14); (10, 15)] [(0, 10, 14); (0, 10, 15); (2, 10, 15)] [(0, 10, 14); (0, 10, 15)]].

Definition RE_RBS_59 : list cmd := [
  Seed seed1234;
  SetT 9 13 20000;
  SetT 9 14 20000;
  SetT 9 15 20000;
  SetT 10 13 20000;
  SetT 10 14 20000;
  SetT 10 15 20000;
  SetT 11 13 20000;
  SetT 11 14 20000;
  SetT 11 15 20000;
  SetH 10 14 (Some (-80000)) (Some (-80000)) (Some (-70000)) (Some (-70000)) (Some 0) None None None None;
  SetH 10 15 (Some (-40000)) (Some (-40000)) (Some (-30000)) (Some (-30000)) (Some (-10000)) (Some (-10000)) (Some 0) (Some 0) (Some 10000);
  Push 0 10 14 0 40000 (-70000) 70000;
  Push 0 10 15 0 50000 (-30000) 20000;
  Push 2 10 15 0 50000 0 10000;
  RelaxBS;
  ExpH 10 14 (Some (-80000)) (Some (-70000)) (Some 0) None None;
  ExpH 10 15 (Some (-40000)) (Some (-30000)) (Some (-10000)) (Some 0) (Some 10000);
  ExpRecH 0%nat 70000;
  ExpRecs 3%nat;
  Reset [(9, 13); (9, 14); (9, 15); (10, 13); (10, 14); (10, 15); (11, 13); (11, 14); (11, 15)] [(0, 10, 14); (0, 10, 15); (2, 10, 15)] [(0, 10, 14); (0, 10, 15); (2, 10, 15)]].

Definition RE_RBS_60 : list cmd := [
  Seed seed1234;
  SetH 10 14 (Some (-80000)) (Some (-80000)) (Some (-70000)) (Some (-70000)) (Some 0) None None None None;
  SetH 10 15 (Some (-80000)) (Some (-80000)) (Some (-70000)) (Some (-70000)) (Some (-50000)) (Some (-50000)) (Some (-40000)) None None;
  Push 0 10 14 0 40000 (-70000) 70000;
  Push 0 10 15 0 50000 (-70000) 20000;
  RelaxBS;
  ExpH 10 14 (Some (-80000)) (Some (-70000)) (Some (-20000)) None None;
  ExpH 10 15 (Some (-80000)) (Some (-70000)) (Some (-50000)) (Some (-40000)) (Some (-20000));
  ExpRec 2%nat 2 10 15 0 50000 (-40000) 20000;
  ExpRecH 0%nat 50000;
  ExpRecs 3%nat;
  Reset [(10, 14); (10, 15)] [(0, 10, 14); (0, 10, 15); (2, 10, 15)] [(0, 10, 14); (0, 10, 15); (2, 10, 15)]].

Definition RE_RBS_61 : list cmd := [
  Seed seed1234;
  SetH 10 14 (Some (-80000)) (Some (-80000)) (Some (-70000)) (Some (-70000)) (Some 0) None None None None;
  SetH 10 15 (Some (-80000)) (Some (-80000)) (Some (-70000)) (Some (-70000)) (Some (-50000)) (Some (-50000)) (Some (-40000)) None None;
  Push 0 10 14 0 40000 (-70000) 10000;
  Push 0 10 14 0 40000 (-70000) 60000;
  Push 0 10 15 0 50000 (-70000) 20000;
  RelaxBS;
  ExpH 10 14 (Some (-80000)) (Some (-70000)) (Some (-20000)) None None;
  ExpH 10 15 (Some (-80000)) (Some (-70000)) (Some (-50000)) (Some (-40000)) (Some (-20000));
  ExpRec 3%nat 2 10 15 0 50000 (-40000) 10000;
  ExpRec 4%nat 2 10 15 0 50000 (-40000) 10000;
  ExpRecH 0%nat 0;
  ExpRecH 1%nat 50000;
  ExpRecs 5%nat;
  Reset [(10, 14); (10, 15)] [(0, 10, 14); (0, 10, 15); (2, 10, 15)] [(0, 10, 14); (0, 10, 15); (2, 10, 15)]].

Definition RE_RBS_62 : list cmd := [
  Seed seed1234;
  SetH 10 14 (Some (-80000)) (Some (-80000)) (Some (-70000)) (Some (-70000)) (Some 0) None None None None;
  SetH 10 15 (Some (-80000)) (Some (-80000)) (Some (-70000)) (Some (-70000)) (Some (-50000)) (Some (-50000)) (Some (-40000)) (Some (-40000)) (Some (-20000));
  Push 0 10 14 0 40000 (-70000) 70000;
  Push 0 10 15 0 50000 (-70000) 20000;
  Push 2 10 15 0 50000 (-40000) 20000;
  RelaxBS;
  ExpH 10 14 (Some (-80000)) (Some (-70000)) (Some (-10000)) None None;
  ExpH 10 15 (Some (-80000)) (Some (-70000)) (Some (-50000)) (Some (-40000)) (Some (-10000));
  ExpRec 3%nat 2 10 15 0 50000 (-40000) 10000;
  ExpRecH 0%nat 60000;
  ExpRecs 4%nat;
  Reset [(10, 14); (10, 15)] [(0, 10, 14); (0, 10, 15); (2, 10, 15)] [(0, 10, 14); (0, 10, 15); (2, 10, 15)]].

Definition RE_RBS_63 : list cmd := [
  Seed seed1234;
  SetH 10 14 (Some (-80000)) (Some (-80000)) (Some (-70000)) (Some (-70000)) (Some 10000) None None None None;
  SetH 10 15 (Some (-80000)) (Some (-80000)) (Some (-70000)) (Some (-70000)) (Some (-50000)) (Some (-50000)) (Some (-40000)) (Some (-40000)) (Some (-30000));
  Push 0 10 14 0 40000 (-70000) 10000;
  Push 0 10 14 0 40000 (-70000) 70000;
  Push 0 10 15 0 50000 (-70000) 20000;
  Push 2 10 15 0 50000 (-40000) 10000;
  RelaxBS;
  ExpH 10 14 (Some (-80000)) (Some (-70000)) (Some (-10000)) None None;
  ExpH 10 15 (Some (-80000)) (Some (-70000)) (Some (-50000)) (Some (-40000)) (Some (-10000));
  ExpRec 4%nat 2 10 15 0 50000 (-40000) 10000;
  ExpRec 5%nat 2 10 15 0 50000 (-40000) 10000;
  ExpRecH 0%nat 0;
  ExpRecH 1%nat 60000;
  ExpRecs 6%nat;
  Reset [(10, 14); (10, 15)] [(0, 10, 14); (0, 10, 15); (2, 10, 15)] [(0, 10, 14); (0, 10, 15); (2, 10, 15)]].

Definition RE_RBS_64 : list cmd := [
  Seed seed1234;
  SetH 10 14 (Some (-80000)) (Some (-80000)) (Some (-70000)) (Some (-70000)) (Some 0) None None None None;
  SetH 10 15 (Some (-40000)) (Some 0) (Some 10000) None None (Some (-40000)) (Some (-10000)) None None;
  Push 0 10 14 0 40000 (-70000) 70000;
  RelaxBS;
  ExpH 10 14 (Some (-80000)) (Some (-70000)) (Some 0) None None;
  ExpT 10 15 (-40000);
  ExpRecH 0%nat 70000;
  ExpRecs 1%nat;
  Reset [(10, 14); (10, 15)] [(0, 10, 14); (0, 10, 15); (2, 10, 15)] [(0, 10, 14)]].

Definition RE_RBS_65 : list cmd := [
  Seed seed1234;
  SetH 10 14 (Some (-40000)) (Some (-40000)) (Some (-30000)) (Some (-30000)) (Some 0) None None None None;
  SetH 10 15 (Some (-40000)) (Some (-10000)) (Some 0) None None (Some (-40000)) (Some (-30000)) None None;
  Push 0 10 14 0 40000 (-30000) 30000;
  RelaxBS;
  ExpH 10 14 (Some (-40000)) (Some (-30000)) (Some (-10000)) None None;
  ExpH 10 15 (Some (-40000)) None None (Some (-30000)) (Some (-20000));
  ExpRec 1%nat 2 10 15 0 50000 (-30000) 10000;
  ExpRecH 0%nat 20000;
  ExpRecs 2%nat;
  Reset [(10, 14); (10, 15)] [(0, 10, 14); (0, 10, 15); (2, 10, 15)] [(0, 10, 14); (2, 10, 15)]].

Definition RE_RBS_66 : list cmd := [
  Seed seed1234;
  SetH 10 14 (Some (-40000)) (Some (-40000)) (Some (-30000)) (Some (-30000)) (Some (-10000)) None None None None;
  SetH 10 15 (Some (-60000)) (Some (-10000)) (Some 0) None None (Some (-60000)) (Some (-50000)) None None;
  Push 0 10 14 0 40000 (-30000) 20000;
  RelaxBS;
  ExpH 10 14 (Some (-40000)) (Some 0) (Some 0) None None;
  ExpH 10 15 (Some (-60000)) None None (Some (-50000)) (Some (-30000));
  ExpRec 1%nat 2 10 15 0 50000 (-50000) 20000;
  ExpRecH 0%nat 0;
  ExpRecs 2%nat;
  Reset [(10, 14); (10, 15)] [(0, 10, 14); (0, 10, 15); (2, 10, 15)] [(0, 10, 14); (2, 10, 15)]].

Definition RE_RBS_67 : list cmd := [
  Seed seed1234;
  SetH 10 14 (Some (-80000)) (Some (-80000)) (Some (-70000)) (Some (-70000)) (Some 0) None None None None;
  SetH 10 15 (Some (-80000)) (Some (-50000)) (Some (-30000)) None None (Some (-80000)) (Some (-70000)) None None;
  Push 0 10 14 0 40000 (-70000) 70000;
  RelaxBS;
  ExpH 10 14 (Some (-80000)) (Some (-70000)) (Some (-20000)) None None;
  ExpH 10 15 (Some (-80000)) None None (Some (-70000)) (Some (-50000));
  ExpRec 1%nat 2 10 15 0 50000 (-70000) 20000;
  ExpRecH 0%nat 50000;
  ExpRecs 2%nat;
  Reset [(10, 14); (10, 15)] [(0, 10, 14); (0, 10, 15); (2, 10, 15)] [(0, 10, 14); (2, 10, 15)]].

Definition RE_RBS_68 : list cmd := [
  Seed seed1234;
  SetH 10 14 (Some (-40000)) (Some (-40000)) (Some (-30000)) (Some (-30000)) (Some (-10000)) None None None None;
  SetH 10 15 (Some (-60000)) (Some (-10000)) (Some 0) None None (Some (-60000)) (Some (-50000)) None None;
  Push 0 10 14 0 40000 (-30000) 10000;
  Push 0 10 14 0 40000 (-30000) 10000;
  RelaxBS;
  ExpH 10 14 (Some (-40000)) (Some 0) (Some 0) None None;
  ExpH 10 15 (Some (-60000)) None None (Some (-50000)) (Some (-30000));
  ExpRec 2%nat 2 10 15 0 50000 (-50000) 10000;
  ExpRec 3%nat 2 10 15 0 50000 (-50000) 10000;
  ExpRecH 0%nat 0;
  ExpRecH 1%nat 0;
  ExpRecs 4%nat;
  Reset [(10, 14); (10, 15)] [(0, 10, 14); (0, 10, 15); (2, 10, 15)] [(0, 10, 14); (2, 10, 15)]].

Definition RE_RBS_69 : list cmd := [
  Seed seed1234;
  SetH 10 14 (Some (-40000)) (Some (-40000)) (Some (-30000)) (Some (-30000)) (Some 0) None None None None;
  SetH 10 15 (Some (-60000)) (Some (-30000)) (Some (-20000)) None None (Some (-60000)) (Some (-50000)) None None;
  Push 0 10 14 0 40000 (-30000) 30000;
  RelaxBS;
  ExpH 10 14 (Some (-40000)) (Some (-30000)) (Some (-10000)) None None;
  ExpH 10 15 (Some (-60000)) (Some (-20000)) (Some (-10000)) None None;
  ExpRec 1%nat 0 10 15 0 50000 (-20000) 10000;
  ExpRecH 0%nat 20000;
  ExpRecs 2%nat;
  Reset [(10, 14); (10, 15)] [(0, 10, 14); (0, 10, 15); (2, 10, 15)] [(0, 10, 14); (0, 10, 15)]].

Definition RE_RBS_70 : list cmd := [
  Seed seed1234;
  SetH 10 14 (Some (-40000)) (Some (-40000)) (Some (-30000)) (Some (-30000)) (Some (-20000)) None None None None;
  SetH 10 15 (Some (-80000)) (Some (-50000)) (Some (-40000)) None None (Some (-80000)) (Some (-70000)) None None;
  Push 0 10 14 0 40000 (-30000) 10000;
  RelaxBS;
  ExpH 10 14 (Some (-40000)) (Some 0) (Some 0) None None;
  ExpH 10 15 (Some (-80000)) (Some (-40000)) (Some (-30000)) None None;
  ExpRec 1%nat 0 10 15 0 50000 (-40000) 10000;
  ExpRecH 0%nat 0;
  ExpRecs 2%nat;
  Reset [(10, 14); (10, 15)] [(0, 10, 14); (0, 10, 15); (2, 10, 15)] [(0, 10, 14); (0, 10, 15)]].

Definition RE_RBS_71 : list cmd := [
  Seed seed1234;
  SetH 10 14 (Some (-40000)) (Some (-40000)) (Some (-30000)) (Some (-30000)) (Some 10000) None None None None;
  SetH 10 15 (Some (-60000)) (Some (-40000)) (Some (-30000)) None None (Some (-60000)) (Some (-50000)) None None;
  Push 0 10 14 0 40000 (-30000) 10000;
  Push 0 10 14 0 40000 (-30000) 30000;
  RelaxBS;
  ExpH 10 14 (Some (-40000)) (Some (-30000)) (Some (-10000)) None None;
  ExpH 10 15 (Some (-60000)) (Some (-30000)) (Some (-10000)) None None;
  ExpRec 2%nat 0 10 15 0 50000 (-30000) 10000;
  ExpRec 3%nat 0 10 15 0 50000 (-30000) 10000;
  ExpRecH 0%nat 0;
  ExpRecH 1%nat 20000;
  ExpRecs 4%nat;
  Reset [(10, 14); (10, 15)] [(0, 10, 14); (0, 10, 15); (2, 10, 15)] [(0, 10, 14); (0, 10, 15)]].

Definition RE_RBS_72 : list cmd := [
  Seed seed1234;
  SetH 10 14 (Some (-40000)) (Some (-40000)) (Some (-30000)) (Some (-30000)) (Some 0) None None None None;
  SetH 10 15 (Some (-40000)) (Some (-10000)) (Some 0) (Some 0) (Some 10000) (Some (-40000)) (Some (-30000)) None None;
  Push 0 10 15 0 50000 0 10000;
  Push 0 10 14 0 40000 (-30000) 30000;
  RelaxBS;
  ExpH 10 14 (Some (-40000)) (Some (-30000)) (Some (-10000)) None None;
  ExpH 10 15 (Some (-40000)) (Some 0) (Some 10000) (Some (-30000)) (Some (-20000));
  ExpRec 2%nat 2 10 15 0 50000 (-30000) 10000;
  ExpRecH 1%nat 20000;
  ExpRecs 3%nat;
  Reset [(10, 14); (10, 15)] [(0, 10, 14); (0, 10, 15); (2, 10, 15)] [(0, 10, 14); (0, 10, 15); (2, 10, 15)]].

Definition RE_RBS_73 : list cmd := [
  Seed seed1234;
  SetH 10 14 (Some (-40000)) (Some (-40000)) (Some (-20000)) (Some (-20000)) (Some 0) None None None None;
  SetH 10 15 (Some (-60000)) (Some (-10000)) (Some 0) (Some 0) (Some 10000) (Some (-60000)) (Some (-50000)) None None;
  Push 0 10 15 0 50000 0 10000;
  Push 0 10 14 0 40000 (-20000) 20000;
  RelaxBS;
  ExpH 10 14 (Some (-40000)) (Some 0) (Some 0) None None;
  ExpH 10 15 (Some (-60000)) (Some 0) (Some 10000) (Some (-50000)) (Some (-30000));
  ExpRec 2%nat 2 10 15 0 50000 (-50000) 20000;
  ExpRecH 1%nat 0;
  ExpRecs 3%nat;
  Reset [(10, 14); (10, 15)] [(0, 10, 14); (0, 10, 15); (2, 10, 15)] [(0, 10, 14); (0, 10, 15); (2, 10, 15)]].

Definition RE_RBS_74 : list cmd := [
  Seed seed1234;
  SetH 10 14 (Some (-50000)) (Some (-50000)) (Some (-40000)) (Some (-40000)) (Some 10000) None None None None;
  SetH 10 15 (Some (-60000)) (Some (-20000)) (Some 0) (Some 0) (Some 10000) (Some (-60000)) (Some (-30000)) None None;
  Push 0 10 15 0 50000 0 10000;
  Push 0 10 14 0 40000 (-40000) 50000;
  RelaxBS;
  ExpH 10 14 (Some (-50000)) (Some (-40000)) (Some 0) None None;
  ExpH 10 15 (Some (-60000)) (Some 0) (Some 10000) (Some (-30000)) (Some (-20000));
  ExpRec 2%nat 2 10 15 0 50000 (-30000) 10000;
  ExpRecH 1%nat 40000;
  ExpRecs 3%nat;
  Reset [(10, 14); (10, 15)] [(0, 10, 14); (0, 10, 15); (2, 10, 15)] [(0, 10, 14); (0, 10, 15); (2, 10, 15)]].

Definition RE_RBS_75 : list cmd := [
  Seed seed1234;
  SetH 10 14 (Some (-40000)) (Some (-40000)) (Some (-20000)) (Some (-20000)) (Some 0) None None None None;
  SetH 10 15 (Some (-60000)) (Some (-10000)) (Some 0) (Some 0) (Some 10000) (Some (-60000)) (Some (-50000)) None None;
  Push 0 10 15 0 50000 0 10000;
  Push 0 10 14 0 40000 (-20000) 10000;
  Push 0 10 14 0 40000 (-20000) 10000;
  RelaxBS;
  ExpH 10 14 (Some (-40000)) (Some 0) (Some 0) None None;
  ExpH 10 15 (Some (-60000)) (Some 0) (Some 10000) (Some (-50000)) (Some (-30000));
  ExpRec 3%nat 2 10 15 0 50000 (-50000) 10000;
  ExpRec 4%nat 2 10 15 0 50000 (-50000) 10000;
  ExpRecH 1%nat 0;
  ExpRecH 2%nat 0;
  ExpRecs 5%nat;
  Reset [(10, 14); (10, 15)] [(0, 10, 14); (0, 10, 15); (2, 10, 15)] [(0, 10, 14); (0, 10, 15); (2, 10, 15)]].

Definition RE_RBS_76 : list cmd := [
  Seed seed1234;
  SetH 10 14 (Some (-40000)) (Some (-40000)) (Some (-20000)) (Some (-20000)) (Some 0) None None None None;
  SetH 10 15 (Some (-60000)) (Some (-40000)) (Some (-30000)) (Some (-30000)) (Some (-20000)) (Some (-60000)) (Some (-50000)) None None;
  Push 0 10 14 0 40000 (-20000) 20000;
  Push 0 10 15 0 50000 (-30000) 10000;
  RelaxBS;
  ExpH 10 14 (Some (-40000)) (Some (-20000)) (Some (-10000)) None None;
  ExpH 10 15 (Some (-60000)) (Some (-30000)) (Some (-10000)) None None;
  ExpRec 2%nat 0 10 15 0 50000 (-30000) 10000;
  ExpRecH 0%nat 10000;
  ExpRecs 3%nat;
  Reset [(10, 14); (10, 15)] [(0, 10, 14); (0, 10, 15); (2, 10, 15)] [(0, 10, 14); (0, 10, 15)]].

Definition RE_RBS_77 : list cmd := [
  Seed seed1234;
  SetH 10 14 (Some (-40000)) (Some (-40000)) (Some (-20000)) (Some (-20000)) (Some 0) None None None None;
  SetH 10 15 (Some (-80000)) (Some (-60000)) (Some (-50000)) (Some (-50000)) (Some (-40000)) (Some (-80000)) (Some (-70000)) None None;
  Push 0 10 14 0 40000 (-20000) 20000;
  Push 0 10 15 0 50000 (-50000) 10000;
  RelaxBS;
  ExpH 10 14 (Some (-40000)) (Some 0) (Some 0) None None;
  ExpH 10 15 (Some (-80000)) (Some (-50000)) (Some (-20000)) None None;
  ExpRec 2%nat 0 10 15 0 50000 (-50000) 20000;
  ExpRecH 0%nat 0;
  ExpRecs 3%nat;
  Reset [(10, 14); (10, 15)] [(0, 10, 14); (0, 10, 15); (2, 10, 15)] [(0, 10, 14); (0, 10, 15)]].

Definition RE_RBS_78 : list cmd := [
  Seed seed1234;
  SetH 10 14 (Some (-40000)) (Some (-40000)) (Some (-20000)) (Some (-20000)) (Some 0) None None None None;
  SetH 10 15 (Some (-80000)) (Some (-60000)) (Some (-50000)) (Some (-50000)) (Some (-40000)) (Some (-80000)) (Some (-70000)) None None;
  Push 0 10 14 0 40000 (-20000) 10000;
  Push 0 10 14 0 40000 (-20000) 10000;
  Push 0 10 15 0 50000 (-50000) 10000;
  RelaxBS;
  ExpH 10 14 (Some (-40000)) (Some 0) (Some 0) None None;
  ExpH 10 15 (Some (-80000)) (Some (-50000)) (Some (-20000)) None None;
  ExpRec 3%nat 0 10 15 0 50000 (-50000) 10000;
  ExpRec 4%nat 0 10 15 0 50000 (-50000) 10000;
  ExpRecH 0%nat 0;
  ExpRecH 1%nat 0;
  ExpRecs 5%nat;
  Reset [(10, 14); (10, 15)] [(0, 10, 14); (0, 10, 15); (2, 10, 15)] [(0, 10, 14); (0, 10, 15)]].

Definition RE_RBS_79 : list cmd := [
  Seed seed1234;
  SetH 10 14 (Some (-40000)) (Some (-40000)) (Some (-30000)) (Some (-30000)) (Some 0) None None None None;
  SetH 10 15 (Some (-60000)) (Some (-10000)) (Some 0) None None (Some (-60000)) (Some (-50000)) (Some (-50000)) (Some (-40000));
  Push 0 10 14 0 40000 (-30000) 30000;
  Push 2 10 15 0 50000 (-50000) 10000;
  RelaxBS;
  ExpH 10 14 (Some (-40000)) (Some (-30000)) (Some (-20000)) None None;
  ExpH 10 15 (Some (-60000)) None None (Some (-50000)) (Some (-20000));
  ExpRec 2%nat 2 10 15 0 50000 (-50000) 20000;
  ExpRecH 0%nat 10000;
  ExpRecs 3%nat;
  Reset [(10, 14); (10, 15)] [(0, 10, 14); (0, 10, 15); (2, 10, 15)] [(0, 10, 14); (2, 10, 15)]].

Definition RE_RBS_80 : list cmd := [
  Seed seed1234;
  SetH 10 14 (Some (-40000)) (Some (-40000)) (Some (-30000)) (Some (-30000)) (Some (-10000)) None None None None;
  SetH 10 15 (Some (-70000)) (Some (-10000)) (Some 0) None None (Some (-70000)) (Some (-60000)) (Some (-60000)) (Some (-50000));
  Push 0 10 14 0 40000 (-30000) 20000;
  Push 2 10 15 0 50000 (-60000) 10000;
  RelaxBS;
  ExpH 10 14 (Some (-40000)) (Some 0) (Some 0) None None;
  ExpH 10 15 (Some (-70000)) None None (Some (-60000)) (Some (-30000));
  ExpRec 2%nat 2 10 15 0 50000 (-60000) 20000;
  ExpRecH 0%nat 0;
  ExpRecs 3%nat;
  Reset [(10, 14); (10, 15)] [(0, 10, 14); (0, 10, 15); (2, 10, 15)] [(0, 10, 14); (2, 10, 15)]].

Definition RE_RBS_81 : list cmd := [
  Seed seed1234;
  SetH 10 14 (Some (-80000)) (Some (-80000)) (Some (-70000)) (Some (-70000)) (Some 0) None None None None;
  SetH 10 15 (Some (-70000)) (Some (-40000)) (Some 0) None None (Some (-70000)) (Some (-60000)) (Some (-60000)) (Some (-50000));
  Push 0 10 14 0 40000 (-70000) 70000;
  Push 2 10 15 0 50000 (-60000) 10000;
  RelaxBS;
  ExpH 10 14 (Some (-80000)) (Some (-70000)) (Some (-10000)) None None;
  ExpH 10 15 (Some (-70000)) None None (Some (-60000)) (Some (-40000));
  ExpRec 2%nat 2 10 15 0 50000 (-60000) 10000;
  ExpRecH 0%nat 60000;
  ExpRecs 3%nat;
  Reset [(10, 14); (10, 15)] [(0, 10, 14); (0, 10, 15); (2, 10, 15)] [(0, 10, 14); (2, 10, 15)]].

Definition RE_RBS_82 : list cmd := [
  Seed seed1234;
  SetH 10 14 (Some (-40000)) (Some (-40000)) (Some (-30000)) (Some (-30000)) (Some (-10000)) None None None None;
  SetH 10 15 (Some (-70000)) (Some (-10000)) (Some 0) None None (Some (-70000)) (Some (-60000)) (Some (-60000)) (Some (-50000));
  Push 0 10 14 0 40000 (-30000) 10000;
  Push 0 10 14 0 40000 (-30000) 10000;
  Push 2 10 15 0 50000 (-60000) 10000;
  RelaxBS;
  ExpH 10 14 (Some (-40000)) (Some 0) (Some 0) None None;
  ExpH 10 15 (Some (-70000)) None None (Some (-60000)) (Some (-30000));
  ExpRec 3%nat 2 10 15 0 50000 (-60000) 10000;
  ExpRec 4%nat 2 10 15 0 50000 (-60000) 10000;
  ExpRecH 0%nat 0;
  ExpRecH 1%nat 0;
  ExpRecs 5%nat;
  Reset [(10, 14); (10, 15)] [(0, 10, 14); (0, 10, 15); (2, 10, 15)] [(0, 10, 14); (2, 10, 15)]].

Definition RE_RBS_83 : list cmd := [
  Seed seed1234;
  SetH 10 14 (Some (-40000)) (Some (-40000)) (Some (-30000)) (Some (-30000)) (Some 0) None None None None;
  SetH 10 15 (Some (-60000)) (Some (-40000)) (Some (-30000)) None None (Some (-60000)) (Some (-50000)) (Some (-50000)) (Some (-40000));
  Push 0 10 14 0 40000 (-30000) 30000;
  Push 2 10 15 0 50000 (-50000) 10000;
  RelaxBS;
  ExpH 10 14 (Some (-40000)) (Some (-30000)) (Some (-10000)) None None;
  ExpH 10 15 (Some (-60000)) (Some (-30000)) (Some (-20000)) (Some (-50000)) (Some (-40000));
  ExpRec 2%nat 0 10 15 0 50000 (-30000) 10000;
  ExpRecH 0%nat 20000;
  ExpRecs 3%nat;
  Reset [(10, 14); (10, 15)] [(0, 10, 14); (0, 10, 15); (2, 10, 15)] [(0, 10, 14); (0, 10, 15); (2, 10, 15)]].

Definition RE_RBS_84 : list cmd := [
  Seed seed1234;
  SetH 10 14 (Some (-40000)) (Some (-40000)) (Some (-20000)) (Some (-20000)) (Some 0) None None None None;
  SetH 10 15 (Some (-70000)) (Some (-50000)) (Some (-40000)) None None (Some (-70000)) (Some (-60000)) (Some (-60000)) (Some (-50000));
  Push 0 10 14 0 40000 (-20000) 20000;
  Push 2 10 15 0 50000 (-60000) 10000;
  RelaxBS;
  ExpH 10 14 (Some (-40000)) (Some 0) (Some 0) None None;
  ExpH 10 15 (Some (-70000)) (Some (-40000)) (Some (-20000)) (Some (-60000)) (Some (-50000));
  ExpRec 2%nat 0 10 15 0 50000 (-40000) 20000;
  ExpRecH 0%nat 0;
  ExpRecs 3%nat;
  Reset [(10, 14); (10, 15)] [(0, 10, 14); (0, 10, 15); (2, 10, 15)] [(0, 10, 14); (0, 10, 15); (2, 10, 15)]].

Definition RE_RBS_85 : list cmd := [
  Seed seed1234;
  SetH 10 14 (Some (-40000)) (Some (-40000)) (Some (-20000)) (Some (-20000)) (Some 0) None None None None;
  SetH 10 15 (Some (-70000)) (Some (-50000)) (Some (-40000)) None None (Some (-70000)) (Some (-60000)) (Some (-60000)) (Some (-50000));
  Push 0 10 14 0 40000 (-20000) 10000;
  Push 0 10 14 0 40000 (-20000) 10000;
  Push 2 10 15 0 50000 (-60000) 10000;
  RelaxBS;
  ExpH 10 14 (Some (-40000)) (Some 0) (Some 0) None None;
  ExpH 10 15 (Some (-70000)) (Some (-40000)) (Some (-20000)) (Some (-60000)) (Some (-50000));
  ExpRec 3%nat 0 10 15 0 50000 (-40000) 10000;
  ExpRec 4%nat 0 10 15 0 50000 (-40000) 10000;
  ExpRecH 0%nat 0;
  ExpRecH 1%nat 0;
  ExpRecs 5%nat;
  Reset [(10, 14); (10, 15)] [(0, 10, 14); (0, 10, 15); (2, 10, 15)] [(0, 10, 14); (0, 10, 15); (2, 10, 15)]].

Definition RE_RBS_86 : list cmd := [
  Seed seed1234;
  SetH 10 14 (Some (-40000)) (Some (-40000)) (Some (-30000)) (Some (-30000)) (Some 0) None None None None;
  SetH 10 15 (Some (-80000)) (Some (-10000)) (Some 0) (Some 0) (Some 10000) (Some (-80000)) (Some (-70000)) (Some (-70000)) (Some (-40000));
  Push 0 10 15 0 50000 0 10000;
  Push 0 10 14 0 40000 (-30000) 30000;
  Push 2 10 15 0 50000 (-70000) 30000;
  RelaxBS;
  ExpH 10 14 (Some (-40000)) (Some (-30000)) (Some (-20000)) None None;
  ExpH 10 15 (Some (-80000)) (Some 0) (Some 10000) (Some (-70000)) (Some (-20000));
  ExpRec 3%nat 2 10 15 0 50000 (-70000) 20000;
  ExpRecH 1%nat 10000;
  ExpRecs 4%nat;
  Reset [(10, 14); (10, 15)] [(0, 10, 14); (0, 10, 15); (2, 10, 15)] [(0, 10, 14); (0, 10, 15); (2, 10, 15)]].

Definition RE_RBS_87 : list cmd := [
  Seed seed1234;
  SetH 10 14 (Some (-40000)) (Some (-40000)) (Some (-20000)) (Some (-20000)) (Some 0) None None None None;
  SetH 10 15 (Some (-80000)) (Some (-10000)) (Some 0) (Some 0) (Some 10000) (Some (-80000)) (Some (-70000)) (Some (-70000)) (Some (-60000));
  Push 0 10 15 0 50000 0 10000;
  Push 0 10 14 0 40000 (-20000) 20000;
  Push 2 10 15 0 50000 (-70000) 10000;
  RelaxBS;
  ExpH 10 14 (Some (-40000)) (Some 0) (Some 0) None None;
  ExpH 10 15 (Some (-80000)) (Some 0) (Some 10000) (Some (-70000)) (Some (-40000));
  ExpRec 3%nat 2 10 15 0 50000 (-70000) 20000;
  ExpRecH 1%nat 0;
  ExpRecs 4%nat;
  Reset [(10, 14); (10, 15)] [(0, 10, 14); (0, 10, 15); (2, 10, 15)] [(0, 10, 14); (0, 10, 15); (2, 10, 15)]].

Definition RE_RBS_88 : list cmd := [
  Seed seed1234;
  SetH 10 14 (Some (-80000)) (Some (-80000)) (Some (-70000)) (Some (-70000)) (Some 0) None None None None;
  SetH 10 15 (Some (-80000)) (Some (-40000)) (Some (-30000)) (Some (-30000)) (Some (-20000)) (Some (-80000)) (Some (-70000)) (Some (-70000)) (Some (-60000));
  Push 0 10 14 0 40000 (-70000) 70000;
  Push 0 10 15 0 50000 (-30000) 10000;
  Push 2 10 15 0 50000 (-70000) 10000;
  RelaxBS;
  ExpH 10 14 (Some (-80000)) (Some (-70000)) (Some (-20000)) None None;
  ExpH 10 15 (Some (-80000)) (Some (-30000)) (Some (-20000)) (Some (-70000)) (Some (-40000));
  ExpRec 3%nat 2 10 15 0 50000 (-70000) 20000;
  ExpRecH 0%nat 50000;
  ExpRecs 4%nat;
  Reset [(10, 14); (10, 15)] [(0, 10, 14); (0, 10, 15); (2, 10, 15)] [(0, 10, 14); (0, 10, 15); (2, 10, 15)]].

Definition RE_RBS_89 : list cmd := [
  Seed seed1234;
  SetH 10 14 (Some (-40000)) (Some (-40000)) (Some (-20000)) (Some (-20000)) (Some 0) None None None None;
  SetH 10 15 (Some (-80000)) (Some (-10000)) (Some 0) (Some 0) (Some 10000) (Some (-80000)) (Some (-70000)) (Some (-70000)) (Some (-60000));
  Push 0 10 15 0 50000 0 10000;
  Push 0 10 14 0 40000 (-20000) 10000;
  Push 0 10 14 0 40000 (-20000) 10000;
  Push 2 10 15 0 50000 (-70000) 10000;
  RelaxBS;
  ExpH 10 14 (Some (-40000)) (Some 0) (Some 0) None None;
  ExpH 10 15 (Some (-80000)) (Some 0) (Some 10000) (Some (-70000)) (Some (-40000));
  ExpRec 4%nat 2 10 15 0 50000 (-70000) 10000;
  ExpRec 5%nat 2 10 15 0 50000 (-70000) 10000;
  ExpRecH 1%nat 0;
  ExpRecH 2%nat 0;
  ExpRecs 6%nat;
  Reset [(10, 14); (10, 15)] [(0, 10, 14); (0, 10, 15); (2, 10, 15)] [(0, 10, 14); (0, 10, 15); (2, 10, 15)]].

Definition RE_RBS_90 : list cmd := [
  Seed seed1234;
  SetH 10 14 (Some (-40000)) (Some (-40000)) (Some (-30000)) (Some (-30000)) (Some 10000) None None None None;
  SetH 10 15 (Some (-80000)) (Some (-30000)) (Some (-20000)) (Some (-20000)) (Some (-10000)) (Some (-80000)) (Some (-70000)) (Some (-70000)) (Some (-40000));
  Push 0 10 14 0 40000 (-30000) 40000;
  Push 0 10 15 0 50000 (-20000) 10000;
  Push 2 10 15 0 50000 (-70000) 30000;
  RelaxBS;
  ExpH 10 14 (Some (-40000)) (Some (-30000)) (Some 0) None None;
  ExpH 10 15 (Some (-80000)) (Some (-20000)) (Some 0) (Some (-70000)) (Some (-40000));
  ExpRec 3%nat 0 10 15 0 50000 (-20000) 10000;
  ExpRecH 0%nat 30000;
  ExpRecs 4%nat;
  Reset [(10, 14); (10, 15)] [(0, 10, 14); (0, 10, 15); (2, 10, 15)] [(0, 10, 14); (0, 10, 15); (2, 10, 15)]].

Definition RE_RBS_91 : list cmd := [
  Seed seed1234;
  SetH 10 14 (Some (-40000)) (Some (-40000)) (Some (-10000)) (Some (-10000)) (Some 10000) None None None None;
  SetH 10 15 (Some (-80000)) (Some (-50000)) (Some (-40000)) (Some (-40000)) (Some (-30000)) (Some (-80000)) (Some (-70000)) (Some (-70000)) (Some (-60000));
  Push 0 10 14 0 40000 (-10000) 20000;
  Push 0 10 15 0 50000 (-40000) 10000;
  Push 2 10 15 0 50000 (-70000) 10000;
  RelaxBS;
  ExpH 10 14 (Some (-40000)) (Some 0) (Some 0) None None;
  ExpH 10 15 (Some (-80000)) (Some (-40000)) (Some (-10000)) (Some (-70000)) (Some (-60000));
  ExpRec 3%nat 0 10 15 0 50000 (-40000) 20000;
  ExpRecH 0%nat 0;
  ExpRecs 4%nat;
  Reset [(10, 14); (10, 15)] [(0, 10, 14); (0, 10, 15); (2, 10, 15)] [(0, 10, 14); (0, 10, 15); (2, 10, 15)]].

Definition RE_RBS_92 : list cmd := [
  Seed seed1234;
  SetH 10 14 (Some (-40000)) (Some (-40000)) (Some (-10000)) (Some (-10000)) (Some 10000) None None None None;
  SetH 10 15 (Some (-80000)) (Some (-50000)) (Some (-40000)) (Some (-40000)) (Some (-30000)) (Some (-80000)) (Some (-70000)) (Some (-70000)) (Some (-60000));
  Push 0 10 14 0 40000 (-10000) 10000;
  Push 0 10 14 0 40000 (-10000) 10000;
  Push 0 10 15 0 50000 (-40000) 10000;
  Push 2 10 15 0 50000 (-70000) 10000;
  RelaxBS;
  ExpH 10 14 (Some (-40000)) (Some 0) (Some 0) None None;
  ExpH 10 15 (Some (-80000)) (Some (-40000)) (Some (-10000)) (Some (-70000)) (Some (-60000));
  ExpRec 4%nat 0 10 15 0 50000 (-40000) 10000;
  ExpRec 5%nat 0 10 15 0 50000 (-40000) 10000;
  ExpRecH 0%nat 0;
  ExpRecH 1%nat 0;
  ExpRecs 6%nat;
  Reset [(10, 14); (10, 15)] [(0, 10, 14); (0, 10, 15); (2, 10, 15)] [(0, 10, 14); (0, 10, 15); (2, 10, 15)]].

Definition RE_RBS_93 : list cmd := [
  Seed seed1234;
  SetH 10 14 (Some (-80000)) (Some (-80000)) (Some (-70000)) (Some (-70000)) (Some 0) None None None None;
  SetH 10 15 (Some (-40000)) (Some 0) (Some 10000) None None (Some (-40000)) (Some (-20000)) (Some (-20000)) (Some 0);
  Push 0 10 14 0 40000 (-70000) 70000;
  Push 2 10 15 0 50000 (-30000) 20000;
  RelaxBS;
  ExpH 10 14 (Some (-80000)) (Some (-70000)) (Some 0) None None;
  ExpH 10 15 (Some (-40000)) None None (Some (-20000)) (Some 0);
  ExpRecH 0%nat 70000;
  ExpRecs 2%nat;
  Reset [(10, 14); (10, 15)] [(0, 10, 14); (0, 10, 15); (2, 10, 15)] [(0, 10, 14); (2, 10, 15)]].

Definition RE_RBS_94 : list cmd := [
  Seed seed1234;
  SetT 9 13 20000;
  SetT 9 14 20000;
  SetT 9 15 20000;
  SetT 10 13 20000;
  SetT 10 14 20000;
  SetT 10 15 20000;
  SetT 11 13 20000;
  SetT 11 14 20000;
  SetT 11 15 20000;
  SetH 10 14 (Some (-80000)) (Some (-80000)) (Some (-70000)) (Some (-70000)) (Some 0) None None None None;
  SetH 10 15 (Some (-40000)) (Some (-10000)) (Some 0) (Some 0) (Some 10000) (Some (-40000)) (Some (-30000)) (Some (-30000)) (Some (-10000));
  Push 0 10 14 0 40000 (-70000) 70000;
  Push 0 10 15 0 50000 0 10000;
  Push 2 10 15 0 50000 (-30000) 20000;
  RelaxBS;
  ExpH 10 14 (Some (-80000)) (Some (-70000)) (Some 0) None None;
  ExpH 10 15 (Some (-40000)) (Some 0) (Some 10000) (Some (-30000)) (Some (-10000));
  ExpRecH 0%nat 70000;
  ExpRecs 3%nat;
  Reset [(9, 13); (9, 14); (9, 15); (10, 13); (10, 14); (10, 15); (11, 13); (11, 14); (11, 15)] [(0, 10, 14); (0, 10, 15); (2, 10, 15)] [(0, 10, 14); (0, 10, 15); (2, 10, 15)]].

Definition RE_RBS_95 : list cmd := [
  Seed seed1234;
  SetH 10 14 (Some (-80000)) (Some (-80000)) (Some (-70000)) (Some (-70000)) (Some 0) None None None None;
  SetH 10 15 (Some (-80000)) (Some (-40000)) (Some (-30000)) None None (Some (-80000)) (Some (-70000)) (Some (-70000)) (Some (-40000));
  Push 0 10 14 0 40000 (-70000) 70000;
  Push 2 10 15 0 50000 (-70000) 30000;
  RelaxBS;
  ExpH 10 14 (Some (-80000)) (Some (-70000)) (Some (-10000)) None None;
  ExpH 10 15 (Some (-80000)) (Some (-30000)) (Some (-20000)) (Some (-70000)) (Some (-40000));
  ExpRec 2%nat 0 10 15 0 50000 (-30000) 10000;
  ExpRecH 0%nat 60000;
  ExpRecs 3%nat;
  Reset [(10, 14); (10, 15)] [(0, 10, 14); (0, 10, 15); (2, 10, 15)] [(0, 10, 14); (0, 10, 15); (2, 10, 15)]].

Definition RE_RBS_96 : list cmd := [
  Seed seed1234;
  SetH 10 14 (Some (-80000)) (Some (-80000)) (Some (-70000)) (Some (-70000)) (Some 0) None None None None;
  SetH 10 15 (Some (-80000)) (Some (-60000)) (Some (-50000)) None None (Some (-80000)) (Some (-70000)) (Some (-70000)) (Some (-60000));
  Push 0 10 14 0 40000 (-70000) 10000;
  Push 0 10 14 0 40000 (-70000) 60000;
  Push 2 10 15 0 50000 (-70000) 10000;
  RelaxBS;
  ExpH 10 14 (Some (-80000)) (Some (-70000)) (Some (-20000)) None None;
  ExpH 10 15 (Some (-80000)) (Some (-50000)) (Some (-30000)) (Some (-70000)) (Some (-60000));
  ExpRec 3%nat 0 10 15 0 50000 (-50000) 10000;
  ExpRec 4%nat 0 10 15 0 50000 (-50000) 10000;
  ExpRecH 0%nat 0;
  ExpRecH 1%nat 50000;
  ExpRecs 5%nat;
  Reset [(10, 14); (10, 15)] [(0, 10, 14); (0, 10, 15); (2, 10, 15)] [(0, 10, 14); (0, 10, 15); (2, 10, 15)]].

Definition RE_RBS_97 : list cmd := [
  Seed seed1234;
  SetH 10 14 (Some (-80000)) (Some (-80000)) (Some (-70000)) (Some (-70000)) (Some 0) None None None None;
  SetH 10 15 (Some (-80000)) (Some (-40000)) (Some (-30000)) (Some (-30000)) (Some (-20000)) (Some (-80000)) (Some (-70000)) (Some (-70000)) (Some (-40000));
  Push 0 10 14 0 40000 (-70000) 70000;
  Push 0 10 15 0 50000 (-30000) 10000;
  Push 2 10 15 0 50000 (-70000) 30000;
  RelaxBS;
  ExpH 10 14 (Some (-80000)) (Some (-70000)) (Some (-10000)) None None;
  ExpH 10 15 (Some (-80000)) (Some (-30000)) (Some (-10000)) (Some (-70000)) (Some (-40000));
  ExpRec 3%nat 0 10 15 0 50000 (-30000) 10000;
  ExpRecH 0%nat 60000;
  ExpRecs 4%nat;
  Reset [(10, 14); (10, 15)] [(0, 10, 14); (0, 10, 15); (2, 10, 15)] [(0, 10, 14); (0, 10, 15); (2, 10, 15)]].

Definition RE_RBS_98 : list cmd := [
  Seed seed1234;
  SetH 10 14 (Some (-80000)) (Some (-80000)) (Some (-70000)) (Some (-70000)) (Some 0) None None None None;
  SetH 10 15 (Some (-80000)) (Some (-60000)) (Some (-50000)) (Some (-50000)) (Some (-40000)) (Some (-80000)) (Some (-70000)) (Some (-70000)) (Some (-60000));
  Push 0 10 14 0 40000 (-70000) 10000;
  Push 0 10 14 0 40000 (-70000) 60000;
  Push 0 10 15 0 50000 (-50000) 10000;
  Push 2 10 15 0 50000 (-70000) 10000;
  RelaxBS;
  ExpH 10 14 (Some (-80000)) (Some (-70000)) (Some (-20000)) None None;
  ExpH 10 15 (Some (-80000)) (Some (-50000)) (Some (-20000)) (Some (-70000)) (Some (-60000));
  ExpRec 4%nat 0 10 15 0 50000 (-50000) 10000;
  ExpRec 5%nat 0 10 15 0 50000 (-50000) 10000;
  ExpRecH 0%nat 0;
  ExpRecH 1%nat 50000;
  ExpRecs 6%nat;
  Reset [(10, 14); (10, 15)] [(0, 10, 14); (0, 10, 15); (2, 10, 15)] [(0, 10, 14); (0, 10, 15); (2, 10, 15)]].

Definition RE_RBS_99 : list cmd := [
  Seed seed1234;
  SetH 10 14 (Some (-60000)) (Some (-60000)) (Some (-50000)) (Some (-50000)) (Some 0) None None None None;
  SetT 10 13 (-40000);
  SetT 10 15 (-40000);
  Push 0 10 14 0 40000 (-50000) 50000;
  RelaxBS;
  ExpH 10 14 (Some (-60000)) (Some (-50000)) (Some (-30000)) None None;
  ExpT 10 13 (-20000);
  ExpT 10 15 (-30000);
  ExpRecH 0%nat 20000;
  ExpRecs 1%nat;
  Seed seed1235;
  SetBS 1 10 14 0;
  SetT 10 13 (-40000);
  SetT 10 15 (-40000);
  SetRecH 0%nat 50000;
  RelaxBS;
  ExpH 10 14 (Some (-60000)) (Some (-50000)) (Some (-30000)) None None;
  ExpT 10 13 (-30000);
  ExpT 10 15 (-20000);
  ExpRecH 0%nat 20000;
  ExpRecs 1%nat;
  Reset [(10, 13); (10, 14); (10, 15)] [(0, 10, 14)] [(0, 10, 14)]].

Definition relax_body_soil_tests : list cmd :=
  setup ++ RE_RBS_1 ++ RE_RBS_2 ++ RE_RBS_3 ++ RE_RBS_4 ++ RE_RBS_5 ++ RE_RBS_6 ++ RE_RBS_7 ++ RE_RBS_8 ++ RE_RBS_9 ++ RE_RBS_10 ++ RE_RBS_11 ++ RE_RBS_12 ++ RE_RBS_13 ++ RE_RBS_14 ++ RE_RBS_15 ++ RE_RBS_16 ++ RE_RBS_17 ++ RE_RBS_18 ++ RE_RBS_19 ++ RE_RBS_20 ++ RE_RBS_21 ++ RE_RBS_22 ++ RE_RBS_23 ++ RE_RBS_24 ++ RE_RBS_25 ++ RE_RBS_26 ++ RE_RBS_27 ++ RE_RBS_28 ++ RE_RBS_29 ++ RE_RBS_30 ++ RE_RBS_31 ++ RE_RBS_32 ++ RE_RBS_33 ++ RE_RBS_34 ++ RE_RBS_35 ++ RE_RBS_36 ++ RE_RBS_37 ++ RE_RBS_38 ++ RE_RBS_39 ++ RE_RBS_40 ++ RE_RBS_41 ++ RE_RBS_42 ++ RE_RBS_43 ++ RE_RBS_44 ++ RE_RBS_45 ++ RE_RBS_46 ++ RE_RBS_47 ++ RE_RBS_48 ++ RE_RBS_49 ++ RE_RBS_50 ++ RE_RBS_51 ++ RE_RBS_52 ++ RE_RBS_53 ++ RE_RBS_54 ++ RE_RBS_55 ++ RE_RBS_56 ++ RE_RBS_57 ++ RE_RBS_58 ++ RE_RBS_59 ++ RE_RBS_60 ++ RE_RBS_61 ++ RE_RBS_62 ++ RE_RBS_63 ++ RE_RBS_64 ++ RE_RBS_65 ++ RE_RBS_66 ++ RE_RBS_67 ++ RE_RBS_68 ++ RE_RBS_69 ++ RE_RBS_70 ++ RE_RBS_71 ++ RE_RBS_72 ++ RE_RBS_73 ++ RE_RBS_74 ++ RE_RBS_75 ++ RE_RBS_76 ++ RE_RBS_77 ++ RE_RBS_78 ++ RE_RBS_79 ++ RE_RBS_80 ++ RE_RBS_81 ++ RE_RBS_82 ++ RE_RBS_83 ++ RE_RBS_84 ++ RE_RBS_85 ++ RE_RBS_86 ++ RE_RBS_87 ++ RE_RBS_88 ++ RE_RBS_89 ++ RE_RBS_90 ++ RE_RBS_91 ++ RE_RBS_92 ++ RE_RBS_93 ++ RE_RBS_94 ++ RE_RBS_95 ++ RE_RBS_96 ++ RE_RBS_97 ++ RE_RBS_98 ++ RE_RBS_99.

Example relax_body_soil_tests_pass : z_run relax_body_soil_tests = None.
Proof. vm_compute. reflexivity. Qed.
