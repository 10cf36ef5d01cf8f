(** Model of the two CRC routines:
    modules/nginx-rtmp-module/hls/ngx_rtmp_mpegts.c:122-138 and
    modules/nginx-ts-module/src/ngx_ts_stream.c:1446-1458. *)
From Verif Require Import Base.

(** ngx_rtmp_mpegts.c:75-119 [crc32table] *)
Definition crc_table : list Z :=
  [0; 79764919; 159529838; 222504665; 319059676; 398814059; 445009330; 507990021;
   638119352; 583659535; 797628118; 726387553; 890018660; 835552979; 1015980042; 944750013;
   1276238704; 1221641927; 1167319070; 1095957929; 1595256236; 1540665371; 1452775106; 1381403509;
   1780037320; 1859660671; 1671105958; 1733955601; 2031960084; 2111593891; 1889500026; 1952343757;
   2552477408; 2632100695; 2443283854; 2506133561; 2334638140; 2414271883; 2191915858; 2254759653;
   3190512472; 3135915759; 3081330742; 3009969537; 2905550212; 2850959411; 2762807018; 2691435357;
   3560074640; 3505614887; 3719321342; 3648080713; 3342211916; 3287746299; 3467911202; 3396681109;
   4063920168; 4143685023; 4223187782; 4286162673; 3779000052; 3858754371; 3904687514; 3967668269;
   881225847; 809987520; 1023691545; 969234094; 662832811; 591600412; 771767749; 717299826;
   311336399; 374308984; 453813921; 533576470; 25881363; 88864420; 134795389; 214552010;
   2023205639; 2086057648; 1897238633; 1976864222; 1804852699; 1867694188; 1645340341; 1724971778;
   1587496639; 1516133128; 1461550545; 1406951526; 1302016099; 1230646740; 1142491917; 1087903418;
   2896545431; 2825181984; 2770861561; 2716262478; 3215044683; 3143675388; 3055782693; 3001194130;
   2326604591; 2389456536; 2200899649; 2280525302; 2578013683; 2640855108; 2418763421; 2498394922;
   3769900519; 3832873040; 3912640137; 3992402750; 4088425275; 4151408268; 4197601365; 4277358050;
   3334271071; 3263032808; 3476998961; 3422541446; 3585640067; 3514407732; 3694837229; 3640369242;
   1762451694; 1842216281; 1619975040; 1682949687; 2047383090; 2127137669; 1938468188; 2001449195;
   1325665622; 1271206113; 1183200824; 1111960463; 1543535498; 1489069629; 1434599652; 1363369299;
   622672798; 568075817; 748617968; 677256519; 907627842; 853037301; 1067152940; 995781531;
   51762726; 131386257; 177728840; 240578815; 269590778; 349224269; 429104020; 491947555;
   4046411278; 4126034873; 4172115296; 4234965207; 3794477266; 3874110821; 3953728444; 4016571915;
   3609705398; 3555108353; 3735388376; 3664026991; 3290680682; 3236090077; 3449943556; 3378572211;
   3174993278; 3120533705; 3032266256; 2961025959; 2923101090; 2868635157; 2813903052; 2742672763;
   2604032198; 2683796849; 2461293480; 2524268063; 2284983834; 2364738477; 2175806836; 2238787779;
   1569362073; 1498123566; 1409854455; 1355396672; 1317987909; 1246755826; 1192025387; 1137557660;
   2072149281; 2135122070; 1912620623; 1992383480; 1753615357; 1816598090; 1627664531; 1707420964;
   295390185; 358241886; 404320391; 483945776; 43990325; 106832002; 186451547; 266083308;
   932423249; 861060070; 1041341759; 986742920; 613929101; 542559546; 756411363; 701822548;
   3316196985; 3244833742; 3425377559; 3370778784; 3601682597; 3530312978; 3744426955; 3689838204;
   3819031489; 3881883254; 3928223919; 4007849240; 4037393693; 4100235434; 4180117107; 4259748804;
   2310601993; 2373574846; 2151335527; 2231098320; 2596047829; 2659030626; 2470359227; 2550115596;
   2947551409; 2876312838; 2788305887; 2733848168; 3165939309; 3094707162; 3040238851; 2985771188].

(** ngx_ts_stream.c:60-125 [ngx_ts_crc32_table_ieee] *)
Definition ts_crc_table : list Z :=
  [0; 3072180484; 1849393673; 3643163405; 3698721811; 1802224919; 2991425050; 89147166;
   3102541862; 267438370; 3604384303; 1640713003; 1687882805; 3548826929; 178294332; 3183300408;
   1893405004; 3351695432; 518034245; 2851951169; 2897024351; 464573531; 3264649046; 1972065874;
   3358988650; 2133579886; 2785909603; 286284391; 339746169; 2740837501; 2054922096; 3446038132;
   3770033048; 1470882460; 2391646609; 965763221; 1019225995; 2346575503; 1392223618; 3857081478;
   1482369982; 4014402234; 912304567; 2172479667; 2217553837; 858844841; 3927354788; 1561029792;
   2423075540; 661713872; 4267094237; 1229681113; 1276851911; 4211537859; 572568782; 2503833034;
   679492338; 2677930998; 1186707707; 4054219263; 4109778657; 1139539941; 2597174504; 768638444;
   2003863092; 3228387120; 424346685; 2924922169; 2869330471; 471548707; 3309109294; 1914749226;
   3483209234; 2021674774; 2712013851; 381406495; 334203393; 2767604485; 2110785544; 3402483980;
   128685944; 2964739708; 1771050353; 3733836917; 3688731499; 1824543343; 3051753826; 50057318;
   3209076574; 140205658; 3514637655; 1717623891; 1664129869; 3559742025; 218831172; 3122059328;
   2546378156; 551249064; 4194117541; 1323361953; 1269866943; 4239220923; 629875638; 2459361970;
   791391626; 2553703566; 1091579779; 4128108167; 4083001753; 1145071773; 2640718736; 712764052;
   3877483744; 1342207460; 2300983017; 1044117485; 996913395; 2356572663; 1431319290; 3796759550;
   1609612486; 3907878338; 835403471; 2262237131; 2206644437; 882604497; 3988601564; 1520499672;
   4007660649; 1509805421; 2161872480; 935743332; 848693370; 2240530814; 1554877043; 3954199415;
   1443693647; 3775972683; 943097414; 2401978178; 2323316828; 1030144344; 3829432917; 1398621009;
   2654674213; 690412577; 4026572588; 1193106984; 1112348982; 4115716146; 745970495; 2607503931;
   651564291; 2446054407; 1223530250; 4293940750; 4204794128; 1304285204; 2493223705; 596005405;
   240529393; 3108761333; 1617800696; 3614469372; 3525323746; 1698556646; 3155929579; 184969455;
   3065718743; 27715283; 3632309726; 1872585946; 1791828932; 3721454272; 83272141; 3018547401;
   2123185853; 3381723065; 280411316; 2813033904; 2734373550; 367459242; 3435182247; 2078112163;
   3328194203; 1904080799; 2824582290; 524711318; 437662344; 2903241612; 1949151361; 3274731909;
   2576386653; 781011801; 4155181140; 1085720912; 1172737614; 4076556106; 735906887; 2629881155;
   561873531; 2522891135; 1329987698; 4166762870; 4245390952; 1242974060; 2469397601; 606979429;
   3914046225; 1582717461; 2272270616; 812505116; 893230850; 2183159302; 1527127307; 3961248783;
   1369871159; 3871035955; 1067258174; 2290143290; 2379257636; 986535456; 3823834413; 1425462313;
   2032576965; 3459999937; 387787724; 2684414664; 2773528022; 307064018; 3412799455; 2088169179;
   3251347939; 1993760999; 2951750634; 418243310; 498968048; 2862638324; 1938171897; 3298551549;
   167622793; 3202382221; 1741044352; 3504077700; 3582704794; 1654029726; 3148889747; 212729751;
   2970661039; 101544363; 3744150182; 1748431778; 1835447484; 3665524152; 56440501; 3024156593].

(** ngx_rtmp_mpegts.c:129: one byte.  The index is at most 255, so the table is
    never read outside its 256 entries. *)
Definition crc_step (crc x : Z) : Z :=
  Z.lxor (u32 (Z.shiftl crc 8)) (nth (Z.to_nat (Z.land (Z.lxor (Z.shiftr crc 24) x) 255)) crc_table 0).

(** ngx_rtmp_mpegts.c:122-138 [ngx_rtmp_mpegts_crc32]: the returned value, and the
    four bytes stored in crc_buf *)
Definition mpegts_crc32 (data : list Z) : Z := fold_left crc_step data 4294967295.
Definition mpegts_crc_buf (data : list Z) : list Z :=
  let crc := mpegts_crc32 data in
  [u8 (Z.shiftr (Z.land crc 4278190080) 24); u8 (Z.shiftr (Z.land crc 16711680) 16);
   u8 (Z.shiftr (Z.land crc 65280) 8); u8 (Z.land crc 255)].

(** ngx_ts_stream.c:1446-1458 [ngx_ts_crc32], and lines 999-1002: how callers
    store it *)
Definition ts_crc_step (crc x : Z) : Z :=
  Z.lxor (nth (Z.to_nat (Z.land (Z.lxor crc x) 255)) ts_crc_table 0) (Z.shiftr crc 8).
Definition ts_crc32 (data : list Z) : Z := fold_left ts_crc_step data 4294967295.
Definition ts_crc_bytes (data : list Z) : list Z :=
  let crc := ts_crc32 data in
  [u8 crc; u8 (Z.shiftr crc 8); u8 (Z.shiftr crc 16); u8 (Z.shiftr crc 24)].
