(** Constant tables of the hash functions, copied from /repo by a script. *)
From Verif Require Import Base.

(** hash/sha256.h 9-27 K256. *)
Definition K256 : list Z :=
  [1116352408; 1899447441; 3049323471; 3921009573; 961987163; 1508970993; 2453635748; 2870763221;
   3624381080; 310598401; 607225278; 1426881987; 1925078388; 2162078206; 2614888103; 3248222580;
   3835390401; 4022224774; 264347078; 604807628; 770255983; 1249150122; 1555081692; 1996064986;
   2554220882; 2821834349; 2952996808; 3210313671; 3336571891; 3584528711; 113926993; 338241895;
   666307205; 773529912; 1294757372; 1396182291; 1695183700; 1986661051; 2177026350; 2456956037;
   2730485921; 2820302411; 3259730800; 3345764771; 3516065817; 3600352804; 4094571909; 275423344;
   430227734; 506948616; 659060556; 883997877; 958139571; 1322822218; 1537002063; 1747873779;
   1955562222; 2024104815; 2227730452; 2361852424; 2428436474; 2756734187; 3204031479; 3329325298].
(** hash/sha256_scalar.h 55-70: the sixteen literals of the first rounds. *)
Definition K256_lit16 : list Z :=
  [1116352408; 1899447441; 3049323471; 3921009573; 961987163; 1508970993; 2453635748; 2870763221;
   3624381080; 310598401; 607225278; 1426881987; 1925078388; 2162078206; 2614888103; 3248222580].
(** hash/sha512.h 9-51 K512. *)
Definition K512 : list Z :=
  [4794697086780616226; 8158064640168781261; 13096744586834688815; 16840607885511220156;
   4131703408338449720; 6480981068601479193; 10538285296894168987; 12329834152419229976;
   15566598209576043074; 1334009975649890238; 2608012711638119052; 6128411473006802146;
   8268148722764581231; 9286055187155687089; 11230858885718282805; 13951009754708518548;
   16472876342353939154; 17275323862435702243; 1135362057144423861; 2597628984639134821;
   3308224258029322869; 5365058923640841347; 6679025012923562964; 8573033837759648693;
   10970295158949994411; 12119686244451234320; 12683024718118986047; 13788192230050041572;
   14330467153632333762; 15395433587784984357; 489312712824947311; 1452737877330783856;
   2861767655752347644; 3322285676063803686; 5560940570517711597; 5996557281743188959;
   7280758554555802590; 8532644243296465576; 9350256976987008742; 10552545826968843579;
   11727347734174303076; 12113106623233404929; 14000437183269869457; 14369950271660146224;
   15101387698204529176; 15463397548674623760; 17586052441742319658; 1182934255886127544;
   1847814050463011016; 2177327727835720531; 2830643537854262169; 3796741975233480872;
   4115178125766777443; 5681478168544905931; 6601373596472566643; 7507060721942968483;
   8399075790359081724; 8693463985226723168; 9568029438360202098; 10144078919501101548;
   10430055236837252648; 11840083180663258601; 13761210420658862357; 14299343276471374635;
   14566680578165727644; 15097957966210449927; 16922976911328602910; 17689382322260857208;
   500013540394364858; 748580250866718886; 1242879168328830382; 1977374033974150939;
   2944078676154940804; 3659926193048069267; 4368137639120453308; 4836135668995329356;
   5532061633213252278; 6448918945643986474; 6902733635092675308; 7801388544844847127].
(** hash/sha512_scalar.h 55-70: the sixteen literals of the first rounds. *)
Definition K512_lit16 : list Z :=
  [4794697086780616226; 8158064640168781261; 13096744586834688815; 16840607885511220156;
   4131703408338449720; 6480981068601479193; 10538285296894168987; 12329834152419229976;
   15566598209576043074; 1334009975649890238; 2608012711638119052; 6128411473006802146;
   8268148722764581231; 9286055187155687089; 11230858885718282805; 13951009754708518548].
(** hash/crc32.h 47 crc32_tb. *)
Definition crc32_tb : list Z :=
  [0; 1996959894; 3993919788; 2567524794; 124634137; 1886057615; 3915621685; 2657392035;
   249268274; 2044508324; 3772115230; 2547177864; 162941995; 2125561021; 3887607047; 2428444049;
   498536548; 1789927666; 4089016648; 2227061214; 450548861; 1843258603; 4107580753; 2211677639;
   325883990; 1684777152; 4251122042; 2321926636; 335633487; 1661365465; 4195302755; 2366115317;
   997073096; 1281953886; 3579855332; 2724688242; 1006888145; 1258607687; 3524101629; 2768942443;
   901097722; 1119000684; 3686517206; 2898065728; 853044451; 1172266101; 3705015759; 2882616665;
   651767980; 1373503546; 3369554304; 3218104598; 565507253; 1454621731; 3485111705; 3099436303;
   671266974; 1594198024; 3322730930; 2970347812; 795835527; 1483230225; 3244367275; 3060149565;
   1994146192; 31158534; 2563907772; 4023717930; 1907459465; 112637215; 2680153253; 3904427059;
   2013776290; 251722036; 2517215374; 3775830040; 2137656763; 141376813; 2439277719; 3865271297;
   1802195444; 476864866; 2238001368; 4066508878; 1812370925; 453092731; 2181625025; 4111451223;
   1706088902; 314042704; 2344532202; 4240017532; 1658658271; 366619977; 2362670323; 4224994405;
   1303535960; 984961486; 2747007092; 3569037538; 1256170817; 1037604311; 2765210733; 3554079995;
   1131014506; 879679996; 2909243462; 3663771856; 1141124467; 855842277; 2852801631; 3708648649;
   1342533948; 654459306; 3188396048; 3373015174; 1466479909; 544179635; 3110523913; 3462522015;
   1591671054; 702138776; 2966460450; 3352799412; 1504918807; 783551873; 3082640443; 3233442989;
   3988292384; 2596254646; 62317068; 1957810842; 3939845945; 2647816111; 81470997; 1943803523;
   3814918930; 2489596804; 225274430; 2053790376; 3826175755; 2466906013; 167816743; 2097651377;
   4027552580; 2265490386; 503444072; 1762050814; 4150417245; 2154129355; 426522225; 1852507879;
   4275313526; 2312317920; 282753626; 1742555852; 4189708143; 2394877945; 397917763; 1622183637;
   3604390888; 2714866558; 953729732; 1340076626; 3518719985; 2797360999; 1068828381; 1219638859;
   3624741850; 2936675148; 906185462; 1090812512; 3747672003; 2825379669; 829329135; 1181335161;
   3412177804; 3160834842; 628085408; 1382605366; 3423369109; 3138078467; 570562233; 1426400815;
   3317316542; 2998733608; 733239954; 1555261956; 3268935591; 3050360625; 752459403; 1541320221;
   2607071920; 3965973030; 1969922972; 40735498; 2617837225; 3943577151; 1913087877; 83908371;
   2512341634; 3803740692; 2075208622; 213261112; 2463272603; 3855990285; 2094854071; 198958881;
   2262029012; 4057260610; 1759359992; 534414190; 2176718541; 4139329115; 1873836001; 414664567;
   2282248934; 4279200368; 1711684554; 285281116; 2405801727; 4167216745; 1634467795; 376229701;
   2685067896; 3608007406; 1308918612; 956543938; 2808555105; 3495958263; 1231636301; 1047427035;
   2932959818; 3654703836; 1088359270; 936918000; 2847714899; 3736837829; 1202900863; 817233897;
   3183342108; 3401237130; 1404277552; 615818150; 3134207493; 3453421203; 1423857449; 601450431;
   3009837614; 3294710456; 1567103746; 711928724; 3020668471; 3272380065; 1510334235; 755167117].
(** hash/crc32.h 49 crc32c_tb. *)
Definition crc32c_tb : list Z :=
  [0; 4067132163; 3778769143; 324072436; 3348797215; 904991772; 648144872; 3570033899;
   2329499855; 2024987596; 1809983544; 2575936315; 1296289744; 3207089363; 2893594407; 1578318884;
   274646895; 3795141740; 4049975192; 51262619; 3619967088; 632279923; 922689671; 3298075524;
   2592579488; 1760304291; 2075979607; 2312596564; 1562183871; 2943781820; 3156637768; 1313733451;
   549293790; 3537243613; 3246849577; 871202090; 3878099393; 357341890; 102525238; 4101499445;
   2858735121; 1477399826; 1264559846; 3107202533; 1845379342; 2677391885; 2361733625; 2125378298;
   820201905; 3263744690; 3520608582; 598981189; 4151959214; 85089709; 373468761; 3827903834;
   3124367742; 1213305469; 1526817161; 2842354314; 2107672161; 2412447074; 2627466902; 1861252501;
   1098587580; 3004210879; 2688576843; 1378610760; 2262928035; 1955203488; 1742404180; 2511436119;
   3416409459; 969524848; 714683780; 3639785095; 205050476; 4266873199; 3976438427; 526918040;
   1361435347; 2739821008; 2954799652; 1114974503; 2529119692; 1691668175; 2005155131; 2247081528;
   3690758684; 697762079; 986182379; 3366744552; 476452099; 3993867776; 4250756596; 255256311;
   1640403810; 2477592673; 2164122517; 1922457750; 2791048317; 1412925310; 1197962378; 3037525897;
   3944729517; 427051182; 170179418; 4165941337; 746937522; 3740196785; 3451792453; 1070968646;
   1905808397; 2213795598; 2426610938; 1657317369; 3053634322; 1147748369; 1463399397; 2773627110;
   4215344322; 153784257; 444234805; 3893493558; 1021025245; 3467647198; 3722505002; 797665321;
   2197175160; 1889384571; 1674398607; 2443626636; 1164749927; 3070701412; 2757221520; 1446797203;
   137323447; 4198817972; 3910406976; 461344835; 3484808360; 1037989803; 781091935; 3705997148;
   2460548119; 1623424788; 1939049696; 2180517859; 1429367560; 2807687179; 3020495871; 1180866812;
   410100952; 3927582683; 4182430767; 186734380; 3756733383; 763408580; 1053836080; 3434856499;
   2722870694; 1344288421; 1131464017; 2971354706; 1708204729; 2545590714; 2229949006; 1988219213;
   680717673; 3673779818; 3383336350; 1002577565; 4010310262; 493091189; 238226049; 4233660802;
   2987750089; 1082061258; 1395524158; 2705686845; 1972364758; 2279892693; 2494862625; 1725896226;
   952904198; 3399985413; 3656866545; 731699698; 4283874585; 222117402; 510512622; 3959836397;
   3280807620; 837199303; 582374963; 3504198960; 68661723; 4135334616; 3844915500; 390545967;
   1230274059; 3141532936; 2825850620; 1510247935; 2395924756; 2091215383; 1878366691; 2644384480;
   3553878443; 565732008; 854102364; 3229815391; 340358836; 3861050807; 4117890627; 119113024;
   1493875044; 2875275879; 3090270611; 1247431312; 2660249211; 1828433272; 2141937292; 2378227087;
   3811616794; 291187481; 34330861; 4032846830; 615137029; 3603020806; 3314634738; 939183345;
   1776939221; 2609017814; 2295496738; 2058945313; 2926798794; 1545135305; 1330124605; 3173225534;
   4084100981; 17165430; 307568514; 3762199681; 888469610; 3332340585; 3587147933; 665062302;
   2042050490; 2346497209; 2559330125; 1793573966; 3190661285; 1279665062; 1595330642; 2910671697].
(** hash/md5.h 252-344 md5_main_le: the 64 steps in order: function (0 F, 1 G, 2 H, 3 I), message word index,
    rotation, constant.  The target register of step i is a, d, c, b for i mod 4 = 0, 1, 2, 3 and the other
    three follow cyclically (checked by the extraction script). *)
Definition md5_steps : list (Z * nat * Z * Z) :=
  [(0, 0%nat, 7, 3614090360); (0, 1%nat, 12, 3905402710); (0, 2%nat, 17, 606105819); (0, 3%nat, 22, 3250441966);
   (0, 4%nat, 7, 4118548399); (0, 5%nat, 12, 1200080426); (0, 6%nat, 17, 2821735955); (0, 7%nat, 22, 4249261313);
   (0, 8%nat, 7, 1770035416); (0, 9%nat, 12, 2336552879); (0, 10%nat, 17, 4294925233); (0, 11%nat, 22, 2304563134);
   (0, 12%nat, 7, 1804603682); (0, 13%nat, 12, 4254626195); (0, 14%nat, 17, 2792965006); (0, 15%nat, 22, 1236535329);
   (1, 1%nat, 5, 4129170786); (1, 6%nat, 9, 3225465664); (1, 11%nat, 14, 643717713); (1, 0%nat, 20, 3921069994);
   (1, 5%nat, 5, 3593408605); (1, 10%nat, 9, 38016083); (1, 15%nat, 14, 3634488961); (1, 4%nat, 20, 3889429448);
   (1, 9%nat, 5, 568446438); (1, 14%nat, 9, 3275163606); (1, 3%nat, 14, 4107603335); (1, 8%nat, 20, 1163531501);
   (1, 13%nat, 5, 2850285829); (1, 2%nat, 9, 4243563512); (1, 7%nat, 14, 1735328473); (1, 12%nat, 20, 2368359562);
   (2, 5%nat, 4, 4294588738); (2, 8%nat, 11, 2272392833); (2, 11%nat, 16, 1839030562); (2, 14%nat, 23, 4259657740);
   (2, 1%nat, 4, 2763975236); (2, 4%nat, 11, 1272893353); (2, 7%nat, 16, 4139469664); (2, 10%nat, 23, 3200236656);
   (2, 13%nat, 4, 681279174); (2, 0%nat, 11, 3936430074); (2, 3%nat, 16, 3572445317); (2, 6%nat, 23, 76029189);
   (2, 9%nat, 4, 3654602809); (2, 12%nat, 11, 3873151461); (2, 15%nat, 16, 530742520); (2, 2%nat, 23, 3299628645);
   (3, 0%nat, 6, 4096336452); (3, 7%nat, 10, 1126891415); (3, 14%nat, 15, 2878612391); (3, 5%nat, 21, 4237533241);
   (3, 12%nat, 6, 1700485571); (3, 3%nat, 10, 2399980690); (3, 10%nat, 15, 4293915773); (3, 1%nat, 21, 2240044497);
   (3, 8%nat, 6, 1873313359); (3, 15%nat, 10, 4264355552); (3, 6%nat, 15, 2734768916); (3, 13%nat, 21, 1309151649);
   (3, 4%nat, 6, 4149444226); (3, 11%nat, 10, 3174756917); (3, 2%nat, 15, 718787259); (3, 9%nat, 21, 3951481745)].
