(** * UnicodeData: concrete character tables. GENERATED by tools/gen_unicode.pl from the Unicode
    database of perl (Unicode 15.0.0); used only to instantiate the [unicode] parameter and the
    example segmenter, never as a hypothesis.  Ranges are sorted and inclusive. *)

From Coq Require Import ZArith.
From Verif Require Import Base Utf8 Unicode.
Local Open Scope N_scope.

(** General category P (unicode.IsPunct) *)
Definition gc_P : list (N * N) :=
  [ (33,35); (37,42); (44,47); (58,59); (63,64); (91,93); (95,95); (123,123);
    (125,125); (161,161); (167,167); (171,171); (182,183); (187,187); (191,191); (894,894);
    (903,903); (1370,1375); (1417,1418); (1470,1470); (1472,1472); (1475,1475); (1478,1478); (1523,1524);
    (1545,1546); (1548,1549); (1563,1563); (1565,1567); (1642,1645); (1748,1748); (1792,1805); (2039,2041);
    (2096,2110); (2142,2142); (2404,2405); (2416,2416); (2557,2557); (2678,2678); (2800,2800); (3191,3191);
    (3204,3204); (3572,3572); (3663,3663); (3674,3675); (3844,3858); (3860,3860); (3898,3901); (3973,3973);
    (4048,4052); (4057,4058); (4170,4175); (4347,4347); (4960,4968); (5120,5120); (5742,5742); (5787,5788);
    (5867,5869); (5941,5942); (6100,6102); (6104,6106); (6144,6154); (6468,6469); (6686,6687); (6816,6822);
    (6824,6829); (7002,7008); (7037,7038); (7164,7167); (7227,7231); (7294,7295); (7360,7367); (7379,7379);
    (8208,8231); (8240,8259); (8261,8273); (8275,8286); (8317,8318); (8333,8334); (8968,8971); (9001,9002);
    (10088,10101); (10181,10182); (10214,10223); (10627,10648); (10712,10715); (10748,10749); (11513,11516); (11518,11519);
    (11632,11632); (11776,11822); (11824,11855); (11858,11869); (12289,12291); (12296,12305); (12308,12319); (12336,12336);
    (12349,12349); (12448,12448); (12539,12539); (42238,42239); (42509,42511); (42611,42611); (42622,42622); (42738,42743);
    (43124,43127); (43214,43215); (43256,43258); (43260,43260); (43310,43311); (43359,43359); (43457,43469); (43486,43487);
    (43612,43615); (43742,43743); (43760,43761); (44011,44011); (64830,64831); (65040,65049); (65072,65106); (65108,65121);
    (65123,65123); (65128,65128); (65130,65131); (65281,65283); (65285,65290); (65292,65295); (65306,65307); (65311,65312);
    (65339,65341); (65343,65343); (65371,65371); (65373,65373); (65375,65381); (65792,65794); (66463,66463); (66512,66512);
    (66927,66927); (67671,67671); (67871,67871); (67903,67903); (68176,68184); (68223,68223); (68336,68342); (68409,68415);
    (68505,68508); (69293,69293); (69461,69465); (69510,69513); (69703,69709); (69819,69820); (69822,69825); (69952,69955);
    (70004,70005); (70085,70088); (70093,70093); (70107,70107); (70109,70111); (70200,70205); (70313,70313); (70731,70735);
    (70746,70747); (70749,70749); (70854,70854); (71105,71127); (71233,71235); (71264,71276); (71353,71353); (71484,71486);
    (71739,71739); (72004,72006); (72162,72162); (72255,72262); (72346,72348); (72350,72354); (72448,72457); (72769,72773);
    (72816,72817); (73463,73464); (73539,73551); (73727,73727); (74864,74868); (77809,77810); (92782,92783); (92917,92917);
    (92983,92987); (92996,92996); (93847,93850); (94178,94178); (113823,113823); (121479,121483); (125278,125279)].

(** White_Space (unicode.IsSpace) *)
Definition white_space : list (N * N) :=
  [ (9,13); (32,32); (133,133); (160,160); (5760,5760); (8192,8202); (8232,8233); (8239,8239);
    (8287,8287); (12288,12288)].

(** General category L (unicode.IsLetter) *)
Definition gc_L : list (N * N) :=
  [ (65,90); (97,122); (170,170); (181,181); (186,186); (192,214); (216,246); (248,705);
    (710,721); (736,740); (748,748); (750,750); (880,884); (886,887); (890,893); (895,895);
    (902,902); (904,906); (908,908); (910,929); (931,1013); (1015,1153); (1162,1327); (1329,1366);
    (1369,1369); (1376,1416); (1488,1514); (1519,1522); (1568,1610); (1646,1647); (1649,1747); (1749,1749);
    (1765,1766); (1774,1775); (1786,1788); (1791,1791); (1808,1808); (1810,1839); (1869,1957); (1969,1969);
    (1994,2026); (2036,2037); (2042,2042); (2048,2069); (2074,2074); (2084,2084); (2088,2088); (2112,2136);
    (2144,2154); (2160,2183); (2185,2190); (2208,2249); (2308,2361); (2365,2365); (2384,2384); (2392,2401);
    (2417,2432); (2437,2444); (2447,2448); (2451,2472); (2474,2480); (2482,2482); (2486,2489); (2493,2493);
    (2510,2510); (2524,2525); (2527,2529); (2544,2545); (2556,2556); (2565,2570); (2575,2576); (2579,2600);
    (2602,2608); (2610,2611); (2613,2614); (2616,2617); (2649,2652); (2654,2654); (2674,2676); (2693,2701);
    (2703,2705); (2707,2728); (2730,2736); (2738,2739); (2741,2745); (2749,2749); (2768,2768); (2784,2785);
    (2809,2809); (2821,2828); (2831,2832); (2835,2856); (2858,2864); (2866,2867); (2869,2873); (2877,2877);
    (2908,2909); (2911,2913); (2929,2929); (2947,2947); (2949,2954); (2958,2960); (2962,2965); (2969,2970);
    (2972,2972); (2974,2975); (2979,2980); (2984,2986); (2990,3001); (3024,3024); (3077,3084); (3086,3088);
    (3090,3112); (3114,3129); (3133,3133); (3160,3162); (3165,3165); (3168,3169); (3200,3200); (3205,3212);
    (3214,3216); (3218,3240); (3242,3251); (3253,3257); (3261,3261); (3293,3294); (3296,3297); (3313,3314);
    (3332,3340); (3342,3344); (3346,3386); (3389,3389); (3406,3406); (3412,3414); (3423,3425); (3450,3455);
    (3461,3478); (3482,3505); (3507,3515); (3517,3517); (3520,3526); (3585,3632); (3634,3635); (3648,3654);
    (3713,3714); (3716,3716); (3718,3722); (3724,3747); (3749,3749); (3751,3760); (3762,3763); (3773,3773);
    (3776,3780); (3782,3782); (3804,3807); (3840,3840); (3904,3911); (3913,3948); (3976,3980); (4096,4138);
    (4159,4159); (4176,4181); (4186,4189); (4193,4193); (4197,4198); (4206,4208); (4213,4225); (4238,4238);
    (4256,4293); (4295,4295); (4301,4301); (4304,4346); (4348,4680); (4682,4685); (4688,4694); (4696,4696);
    (4698,4701); (4704,4744); (4746,4749); (4752,4784); (4786,4789); (4792,4798); (4800,4800); (4802,4805);
    (4808,4822); (4824,4880); (4882,4885); (4888,4954); (4992,5007); (5024,5109); (5112,5117); (5121,5740);
    (5743,5759); (5761,5786); (5792,5866); (5873,5880); (5888,5905); (5919,5937); (5952,5969); (5984,5996);
    (5998,6000); (6016,6067); (6103,6103); (6108,6108); (6176,6264); (6272,6276); (6279,6312); (6314,6314);
    (6320,6389); (6400,6430); (6480,6509); (6512,6516); (6528,6571); (6576,6601); (6656,6678); (6688,6740);
    (6823,6823); (6917,6963); (6981,6988); (7043,7072); (7086,7087); (7098,7141); (7168,7203); (7245,7247);
    (7258,7293); (7296,7304); (7312,7354); (7357,7359); (7401,7404); (7406,7411); (7413,7414); (7418,7418);
    (7424,7615); (7680,7957); (7960,7965); (7968,8005); (8008,8013); (8016,8023); (8025,8025); (8027,8027);
    (8029,8029); (8031,8061); (8064,8116); (8118,8124); (8126,8126); (8130,8132); (8134,8140); (8144,8147);
    (8150,8155); (8160,8172); (8178,8180); (8182,8188); (8305,8305); (8319,8319); (8336,8348); (8450,8450);
    (8455,8455); (8458,8467); (8469,8469); (8473,8477); (8484,8484); (8486,8486); (8488,8488); (8490,8493);
    (8495,8505); (8508,8511); (8517,8521); (8526,8526); (8579,8580); (11264,11492); (11499,11502); (11506,11507);
    (11520,11557); (11559,11559); (11565,11565); (11568,11623); (11631,11631); (11648,11670); (11680,11686); (11688,11694);
    (11696,11702); (11704,11710); (11712,11718); (11720,11726); (11728,11734); (11736,11742); (11823,11823); (12293,12294);
    (12337,12341); (12347,12348); (12353,12438); (12445,12447); (12449,12538); (12540,12543); (12549,12591); (12593,12686);
    (12704,12735); (12784,12799); (13312,19903); (19968,42124); (42192,42237); (42240,42508); (42512,42527); (42538,42539);
    (42560,42606); (42623,42653); (42656,42725); (42775,42783); (42786,42888); (42891,42954); (42960,42961); (42963,42963);
    (42965,42969); (42994,43009); (43011,43013); (43015,43018); (43020,43042); (43072,43123); (43138,43187); (43250,43255);
    (43259,43259); (43261,43262); (43274,43301); (43312,43334); (43360,43388); (43396,43442); (43471,43471); (43488,43492);
    (43494,43503); (43514,43518); (43520,43560); (43584,43586); (43588,43595); (43616,43638); (43642,43642); (43646,43695);
    (43697,43697); (43701,43702); (43705,43709); (43712,43712); (43714,43714); (43739,43741); (43744,43754); (43762,43764);
    (43777,43782); (43785,43790); (43793,43798); (43808,43814); (43816,43822); (43824,43866); (43868,43881); (43888,44002);
    (44032,55203); (55216,55238); (55243,55291); (63744,64109); (64112,64217); (64256,64262); (64275,64279); (64285,64285);
    (64287,64296); (64298,64310); (64312,64316); (64318,64318); (64320,64321); (64323,64324); (64326,64433); (64467,64829);
    (64848,64911); (64914,64967); (65008,65019); (65136,65140); (65142,65276); (65313,65338); (65345,65370); (65382,65470);
    (65474,65479); (65482,65487); (65490,65495); (65498,65500); (65536,65547); (65549,65574); (65576,65594); (65596,65597);
    (65599,65613); (65616,65629); (65664,65786); (66176,66204); (66208,66256); (66304,66335); (66349,66368); (66370,66377);
    (66384,66421); (66432,66461); (66464,66499); (66504,66511); (66560,66717); (66736,66771); (66776,66811); (66816,66855);
    (66864,66915); (66928,66938); (66940,66954); (66956,66962); (66964,66965); (66967,66977); (66979,66993); (66995,67001);
    (67003,67004); (67072,67382); (67392,67413); (67424,67431); (67456,67461); (67463,67504); (67506,67514); (67584,67589);
    (67592,67592); (67594,67637); (67639,67640); (67644,67644); (67647,67669); (67680,67702); (67712,67742); (67808,67826);
    (67828,67829); (67840,67861); (67872,67897); (67968,68023); (68030,68031); (68096,68096); (68112,68115); (68117,68119);
    (68121,68149); (68192,68220); (68224,68252); (68288,68295); (68297,68324); (68352,68405); (68416,68437); (68448,68466);
    (68480,68497); (68608,68680); (68736,68786); (68800,68850); (68864,68899); (69248,69289); (69296,69297); (69376,69404);
    (69415,69415); (69424,69445); (69488,69505); (69552,69572); (69600,69622); (69635,69687); (69745,69746); (69749,69749);
    (69763,69807); (69840,69864); (69891,69926); (69956,69956); (69959,69959); (69968,70002); (70006,70006); (70019,70066);
    (70081,70084); (70106,70106); (70108,70108); (70144,70161); (70163,70187); (70207,70208); (70272,70278); (70280,70280);
    (70282,70285); (70287,70301); (70303,70312); (70320,70366); (70405,70412); (70415,70416); (70419,70440); (70442,70448);
    (70450,70451); (70453,70457); (70461,70461); (70480,70480); (70493,70497); (70656,70708); (70727,70730); (70751,70753);
    (70784,70831); (70852,70853); (70855,70855); (71040,71086); (71128,71131); (71168,71215); (71236,71236); (71296,71338);
    (71352,71352); (71424,71450); (71488,71494); (71680,71723); (71840,71903); (71935,71942); (71945,71945); (71948,71955);
    (71957,71958); (71960,71983); (71999,71999); (72001,72001); (72096,72103); (72106,72144); (72161,72161); (72163,72163);
    (72192,72192); (72203,72242); (72250,72250); (72272,72272); (72284,72329); (72349,72349); (72368,72440); (72704,72712);
    (72714,72750); (72768,72768); (72818,72847); (72960,72966); (72968,72969); (72971,73008); (73030,73030); (73056,73061);
    (73063,73064); (73066,73097); (73112,73112); (73440,73458); (73474,73474); (73476,73488); (73490,73523); (73648,73648);
    (73728,74649); (74880,75075); (77712,77808); (77824,78895); (78913,78918); (82944,83526); (92160,92728); (92736,92766);
    (92784,92862); (92880,92909); (92928,92975); (92992,92995); (93027,93047); (93053,93071); (93760,93823); (93952,94026);
    (94032,94032); (94099,94111); (94176,94177); (94179,94179); (94208,100343); (100352,101589); (101632,101640); (110576,110579);
    (110581,110587); (110589,110590); (110592,110882); (110898,110898); (110928,110930); (110933,110933); (110948,110951); (110960,111355);
    (113664,113770); (113776,113788); (113792,113800); (113808,113817); (119808,119892); (119894,119964); (119966,119967); (119970,119970);
    (119973,119974); (119977,119980); (119982,119993); (119995,119995); (119997,120003); (120005,120069); (120071,120074); (120077,120084);
    (120086,120092); (120094,120121); (120123,120126); (120128,120132); (120134,120134); (120138,120144); (120146,120485); (120488,120512);
    (120514,120538); (120540,120570); (120572,120596); (120598,120628); (120630,120654); (120656,120686); (120688,120712); (120714,120744);
    (120746,120770); (120772,120779); (122624,122654); (122661,122666); (122928,122989); (123136,123180); (123191,123197); (123214,123214);
    (123536,123565); (123584,123627); (124112,124139); (124896,124902); (124904,124907); (124909,124910); (124912,124926); (124928,125124);
    (125184,125251); (125259,125259); (126464,126467); (126469,126495); (126497,126498); (126500,126500); (126503,126503); (126505,126514);
    (126516,126519); (126521,126521); (126523,126523); (126530,126530); (126535,126535); (126537,126537); (126539,126539); (126541,126543);
    (126545,126546); (126548,126548); (126551,126551); (126553,126553); (126555,126555); (126557,126557); (126559,126559); (126561,126562);
    (126564,126564); (126567,126570); (126572,126578); (126580,126583); (126585,126588); (126590,126590); (126592,126601); (126603,126619);
    (126625,126627); (126629,126633); (126635,126651); (131072,173791); (173824,177977); (177984,178205); (178208,183969); (183984,191456);
    (194560,195101); (196608,201546); (201552,205743)].

(** General category N (unicode.IsNumber) *)
Definition gc_N : list (N * N) :=
  [ (48,57); (178,179); (185,185); (188,190); (1632,1641); (1776,1785); (1984,1993); (2406,2415);
    (2534,2543); (2548,2553); (2662,2671); (2790,2799); (2918,2927); (2930,2935); (3046,3058); (3174,3183);
    (3192,3198); (3302,3311); (3416,3422); (3430,3448); (3558,3567); (3664,3673); (3792,3801); (3872,3891);
    (4160,4169); (4240,4249); (4969,4988); (5870,5872); (6112,6121); (6128,6137); (6160,6169); (6470,6479);
    (6608,6618); (6784,6793); (6800,6809); (6992,7001); (7088,7097); (7232,7241); (7248,7257); (8304,8304);
    (8308,8313); (8320,8329); (8528,8578); (8581,8585); (9312,9371); (9450,9471); (10102,10131); (11517,11517);
    (12295,12295); (12321,12329); (12344,12346); (12690,12693); (12832,12841); (12872,12879); (12881,12895); (12928,12937);
    (12977,12991); (42528,42537); (42726,42735); (43056,43061); (43216,43225); (43264,43273); (43472,43481); (43504,43513);
    (43600,43609); (44016,44025); (65296,65305); (65799,65843); (65856,65912); (65930,65931); (66273,66299); (66336,66339);
    (66369,66369); (66378,66378); (66513,66517); (66720,66729); (67672,67679); (67705,67711); (67751,67759); (67835,67839);
    (67862,67867); (68028,68029); (68032,68047); (68050,68095); (68160,68168); (68221,68222); (68253,68255); (68331,68335);
    (68440,68447); (68472,68479); (68521,68527); (68858,68863); (68912,68921); (69216,69246); (69405,69414); (69457,69460);
    (69573,69579); (69714,69743); (69872,69881); (69942,69951); (70096,70105); (70113,70132); (70384,70393); (70736,70745);
    (70864,70873); (71248,71257); (71360,71369); (71472,71483); (71904,71922); (72016,72025); (72784,72812); (73040,73049);
    (73120,73129); (73552,73561); (73664,73684); (74752,74862); (92768,92777); (92864,92873); (93008,93017); (93019,93025);
    (93824,93846); (119488,119507); (119520,119539); (119648,119672); (120782,120831); (123200,123209); (123632,123641); (124144,124153);
    (125127,125135); (125264,125273); (126065,126123); (126125,126127); (126129,126132); (126209,126253); (126255,126269); (127232,127244);
    (130032,130041)].

(** Simple lower-case mapping: (lo, hi, stride, delta) *)
Definition lower_runs : list (N * N * N * Z) :=
  [ (65,90,1,(32)%Z); (192,214,1,(32)%Z); (216,222,1,(32)%Z); (256,302,2,(1)%Z); (304,304,1,(-199)%Z); (306,310,2,(1)%Z);
    (313,327,2,(1)%Z); (330,374,2,(1)%Z); (376,376,1,(-121)%Z); (377,381,2,(1)%Z); (385,385,1,(210)%Z); (386,388,2,(1)%Z);
    (390,390,1,(206)%Z); (391,391,1,(1)%Z); (393,394,1,(205)%Z); (395,395,1,(1)%Z); (398,398,1,(79)%Z); (399,399,1,(202)%Z);
    (400,400,1,(203)%Z); (401,401,1,(1)%Z); (403,403,1,(205)%Z); (404,404,1,(207)%Z); (406,406,1,(211)%Z); (407,407,1,(209)%Z);
    (408,408,1,(1)%Z); (412,412,1,(211)%Z); (413,413,1,(213)%Z); (415,415,1,(214)%Z); (416,420,2,(1)%Z); (422,422,1,(218)%Z);
    (423,423,1,(1)%Z); (425,425,1,(218)%Z); (428,428,1,(1)%Z); (430,430,1,(218)%Z); (431,431,1,(1)%Z); (433,434,1,(217)%Z);
    (435,437,2,(1)%Z); (439,439,1,(219)%Z); (440,440,1,(1)%Z); (444,444,1,(1)%Z); (452,452,1,(2)%Z); (453,453,1,(1)%Z);
    (455,455,1,(2)%Z); (456,456,1,(1)%Z); (458,458,1,(2)%Z); (459,475,2,(1)%Z); (478,494,2,(1)%Z); (497,497,1,(2)%Z);
    (498,500,2,(1)%Z); (502,502,1,(-97)%Z); (503,503,1,(-56)%Z); (504,542,2,(1)%Z); (544,544,1,(-130)%Z); (546,562,2,(1)%Z);
    (570,570,1,(10795)%Z); (571,571,1,(1)%Z); (573,573,1,(-163)%Z); (574,574,1,(10792)%Z); (577,577,1,(1)%Z); (579,579,1,(-195)%Z);
    (580,580,1,(69)%Z); (581,581,1,(71)%Z); (582,590,2,(1)%Z); (880,882,2,(1)%Z); (886,886,1,(1)%Z); (895,895,1,(116)%Z);
    (902,902,1,(38)%Z); (904,906,1,(37)%Z); (908,908,1,(64)%Z); (910,911,1,(63)%Z); (913,929,1,(32)%Z); (931,939,1,(32)%Z);
    (975,975,1,(8)%Z); (984,1006,2,(1)%Z); (1012,1012,1,(-60)%Z); (1015,1015,1,(1)%Z); (1017,1017,1,(-7)%Z); (1018,1018,1,(1)%Z);
    (1021,1023,1,(-130)%Z); (1024,1039,1,(80)%Z); (1040,1071,1,(32)%Z); (1120,1152,2,(1)%Z); (1162,1214,2,(1)%Z); (1216,1216,1,(15)%Z);
    (1217,1229,2,(1)%Z); (1232,1326,2,(1)%Z); (1329,1366,1,(48)%Z); (4256,4293,1,(7264)%Z); (4295,4295,1,(7264)%Z); (4301,4301,1,(7264)%Z);
    (5024,5103,1,(38864)%Z); (5104,5109,1,(8)%Z); (7312,7354,1,(-3008)%Z); (7357,7359,1,(-3008)%Z); (7680,7828,2,(1)%Z); (7838,7838,1,(-7615)%Z);
    (7840,7934,2,(1)%Z); (7944,7951,1,(-8)%Z); (7960,7965,1,(-8)%Z); (7976,7983,1,(-8)%Z); (7992,7999,1,(-8)%Z); (8008,8013,1,(-8)%Z);
    (8025,8031,2,(-8)%Z); (8040,8047,1,(-8)%Z); (8072,8079,1,(-8)%Z); (8088,8095,1,(-8)%Z); (8104,8111,1,(-8)%Z); (8120,8121,1,(-8)%Z);
    (8122,8123,1,(-74)%Z); (8124,8124,1,(-9)%Z); (8136,8139,1,(-86)%Z); (8140,8140,1,(-9)%Z); (8152,8153,1,(-8)%Z); (8154,8155,1,(-100)%Z);
    (8168,8169,1,(-8)%Z); (8170,8171,1,(-112)%Z); (8172,8172,1,(-7)%Z); (8184,8185,1,(-128)%Z); (8186,8187,1,(-126)%Z); (8188,8188,1,(-9)%Z);
    (8486,8486,1,(-7517)%Z); (8490,8490,1,(-8383)%Z); (8491,8491,1,(-8262)%Z); (8498,8498,1,(28)%Z); (8544,8559,1,(16)%Z); (8579,8579,1,(1)%Z);
    (9398,9423,1,(26)%Z); (11264,11311,1,(48)%Z); (11360,11360,1,(1)%Z); (11362,11362,1,(-10743)%Z); (11363,11363,1,(-3814)%Z); (11364,11364,1,(-10727)%Z);
    (11367,11371,2,(1)%Z); (11373,11373,1,(-10780)%Z); (11374,11374,1,(-10749)%Z); (11375,11375,1,(-10783)%Z); (11376,11376,1,(-10782)%Z); (11378,11378,1,(1)%Z);
    (11381,11381,1,(1)%Z); (11390,11391,1,(-10815)%Z); (11392,11490,2,(1)%Z); (11499,11501,2,(1)%Z); (11506,11506,1,(1)%Z); (42560,42604,2,(1)%Z);
    (42624,42650,2,(1)%Z); (42786,42798,2,(1)%Z); (42802,42862,2,(1)%Z); (42873,42875,2,(1)%Z); (42877,42877,1,(-35332)%Z); (42878,42886,2,(1)%Z);
    (42891,42891,1,(1)%Z); (42893,42893,1,(-42280)%Z); (42896,42898,2,(1)%Z); (42902,42920,2,(1)%Z); (42922,42922,1,(-42308)%Z); (42923,42923,1,(-42319)%Z);
    (42924,42924,1,(-42315)%Z); (42925,42925,1,(-42305)%Z); (42926,42926,1,(-42308)%Z); (42928,42928,1,(-42258)%Z); (42929,42929,1,(-42282)%Z); (42930,42930,1,(-42261)%Z);
    (42931,42931,1,(928)%Z); (42932,42946,2,(1)%Z); (42948,42948,1,(-48)%Z); (42949,42949,1,(-42307)%Z); (42950,42950,1,(-35384)%Z); (42951,42953,2,(1)%Z);
    (42960,42960,1,(1)%Z); (42966,42968,2,(1)%Z); (42997,42997,1,(1)%Z); (65313,65338,1,(32)%Z); (66560,66599,1,(40)%Z); (66736,66771,1,(40)%Z);
    (66928,66938,1,(39)%Z); (66940,66954,1,(39)%Z); (66956,66962,1,(39)%Z); (66964,66965,1,(39)%Z); (68736,68786,1,(64)%Z); (71840,71871,1,(32)%Z);
    (93760,93791,1,(32)%Z); (125184,125217,1,(34)%Z)].

(** Word_Break classes (UAX #29). *)
Inductive wbclass := WOther | WCR | WDoubleQuote | WExtendNumLet | WExtend | WFormat | WHebrew | WKatakana | WALetter | WLF | WMidNumLet | WMidLetter | WMidNum | WNewline | WNumeric | WRI | WSingleQuote | WWSegSpace | WZWJ.

Definition wb_ranges : list (N * N * wbclass) :=
  [ (10,10,WLF); (11,12,WNewline); (13,13,WCR); (32,32,WWSegSpace); (34,34,WDoubleQuote); (39,39,WSingleQuote);
    (44,44,WMidNum); (46,46,WMidNumLet); (48,57,WNumeric); (58,58,WMidLetter); (59,59,WMidNum); (65,90,WALetter);
    (95,95,WExtendNumLet); (97,122,WALetter); (133,133,WNewline); (170,170,WALetter); (173,173,WFormat); (181,181,WALetter);
    (183,183,WMidLetter); (186,186,WALetter); (192,214,WALetter); (216,246,WALetter); (248,727,WALetter); (734,767,WALetter);
    (768,879,WExtend); (880,884,WALetter); (886,887,WALetter); (890,893,WALetter); (894,894,WMidNum); (895,895,WALetter);
    (902,902,WALetter); (903,903,WMidLetter); (904,906,WALetter); (908,908,WALetter); (910,929,WALetter); (931,1013,WALetter);
    (1015,1153,WALetter); (1155,1161,WExtend); (1162,1327,WALetter); (1329,1366,WALetter); (1369,1372,WALetter); (1374,1374,WALetter);
    (1375,1375,WMidLetter); (1376,1416,WALetter); (1417,1417,WMidNum); (1418,1418,WALetter); (1425,1469,WExtend); (1471,1471,WExtend);
    (1473,1474,WExtend); (1476,1477,WExtend); (1479,1479,WExtend); (1488,1514,WHebrew); (1519,1522,WHebrew); (1523,1523,WALetter);
    (1524,1524,WMidLetter); (1536,1541,WFormat); (1548,1549,WMidNum); (1552,1562,WExtend); (1564,1564,WFormat); (1568,1610,WALetter);
    (1611,1631,WExtend); (1632,1641,WNumeric); (1643,1643,WNumeric); (1644,1644,WMidNum); (1646,1647,WALetter); (1648,1648,WExtend);
    (1649,1747,WALetter); (1749,1749,WALetter); (1750,1756,WExtend); (1757,1757,WFormat); (1759,1764,WExtend); (1765,1766,WALetter);
    (1767,1768,WExtend); (1770,1773,WExtend); (1774,1775,WALetter); (1776,1785,WNumeric); (1786,1788,WALetter); (1791,1791,WALetter);
    (1807,1807,WFormat); (1808,1808,WALetter); (1809,1809,WExtend); (1810,1839,WALetter); (1840,1866,WExtend); (1869,1957,WALetter);
    (1958,1968,WExtend); (1969,1969,WALetter); (1984,1993,WNumeric); (1994,2026,WALetter); (2027,2035,WExtend); (2036,2037,WALetter);
    (2040,2040,WMidNum); (2042,2042,WALetter); (2045,2045,WExtend); (2048,2069,WALetter); (2070,2073,WExtend); (2074,2074,WALetter);
    (2075,2083,WExtend); (2084,2084,WALetter); (2085,2087,WExtend); (2088,2088,WALetter); (2089,2093,WExtend); (2112,2136,WALetter);
    (2137,2139,WExtend); (2144,2154,WALetter); (2160,2183,WALetter); (2185,2190,WALetter); (2192,2193,WFormat); (2200,2207,WExtend);
    (2208,2249,WALetter); (2250,2273,WExtend); (2274,2274,WFormat); (2275,2307,WExtend); (2308,2361,WALetter); (2362,2364,WExtend);
    (2365,2365,WALetter); (2366,2383,WExtend); (2384,2384,WALetter); (2385,2391,WExtend); (2392,2401,WALetter); (2402,2403,WExtend);
    (2406,2415,WNumeric); (2417,2432,WALetter); (2433,2435,WExtend); (2437,2444,WALetter); (2447,2448,WALetter); (2451,2472,WALetter);
    (2474,2480,WALetter); (2482,2482,WALetter); (2486,2489,WALetter); (2492,2492,WExtend); (2493,2493,WALetter); (2494,2500,WExtend);
    (2503,2504,WExtend); (2507,2509,WExtend); (2510,2510,WALetter); (2519,2519,WExtend); (2524,2525,WALetter); (2527,2529,WALetter);
    (2530,2531,WExtend); (2534,2543,WNumeric); (2544,2545,WALetter); (2556,2556,WALetter); (2558,2558,WExtend); (2561,2563,WExtend);
    (2565,2570,WALetter); (2575,2576,WALetter); (2579,2600,WALetter); (2602,2608,WALetter); (2610,2611,WALetter); (2613,2614,WALetter);
    (2616,2617,WALetter); (2620,2620,WExtend); (2622,2626,WExtend); (2631,2632,WExtend); (2635,2637,WExtend); (2641,2641,WExtend);
    (2649,2652,WALetter); (2654,2654,WALetter); (2662,2671,WNumeric); (2672,2673,WExtend); (2674,2676,WALetter); (2677,2677,WExtend);
    (2689,2691,WExtend); (2693,2701,WALetter); (2703,2705,WALetter); (2707,2728,WALetter); (2730,2736,WALetter); (2738,2739,WALetter);
    (2741,2745,WALetter); (2748,2748,WExtend); (2749,2749,WALetter); (2750,2757,WExtend); (2759,2761,WExtend); (2763,2765,WExtend);
    (2768,2768,WALetter); (2784,2785,WALetter); (2786,2787,WExtend); (2790,2799,WNumeric); (2809,2809,WALetter); (2810,2815,WExtend);
    (2817,2819,WExtend); (2821,2828,WALetter); (2831,2832,WALetter); (2835,2856,WALetter); (2858,2864,WALetter); (2866,2867,WALetter);
    (2869,2873,WALetter); (2876,2876,WExtend); (2877,2877,WALetter); (2878,2884,WExtend); (2887,2888,WExtend); (2891,2893,WExtend);
    (2901,2903,WExtend); (2908,2909,WALetter); (2911,2913,WALetter); (2914,2915,WExtend); (2918,2927,WNumeric); (2929,2929,WALetter);
    (2946,2946,WExtend); (2947,2947,WALetter); (2949,2954,WALetter); (2958,2960,WALetter); (2962,2965,WALetter); (2969,2970,WALetter);
    (2972,2972,WALetter); (2974,2975,WALetter); (2979,2980,WALetter); (2984,2986,WALetter); (2990,3001,WALetter); (3006,3010,WExtend);
    (3014,3016,WExtend); (3018,3021,WExtend); (3024,3024,WALetter); (3031,3031,WExtend); (3046,3055,WNumeric); (3072,3076,WExtend);
    (3077,3084,WALetter); (3086,3088,WALetter); (3090,3112,WALetter); (3114,3129,WALetter); (3132,3132,WExtend); (3133,3133,WALetter);
    (3134,3140,WExtend); (3142,3144,WExtend); (3146,3149,WExtend); (3157,3158,WExtend); (3160,3162,WALetter); (3165,3165,WALetter);
    (3168,3169,WALetter); (3170,3171,WExtend); (3174,3183,WNumeric); (3200,3200,WALetter); (3201,3203,WExtend); (3205,3212,WALetter);
    (3214,3216,WALetter); (3218,3240,WALetter); (3242,3251,WALetter); (3253,3257,WALetter); (3260,3260,WExtend); (3261,3261,WALetter);
    (3262,3268,WExtend); (3270,3272,WExtend); (3274,3277,WExtend); (3285,3286,WExtend); (3293,3294,WALetter); (3296,3297,WALetter);
    (3298,3299,WExtend); (3302,3311,WNumeric); (3313,3314,WALetter); (3315,3315,WExtend); (3328,3331,WExtend); (3332,3340,WALetter);
    (3342,3344,WALetter); (3346,3386,WALetter); (3387,3388,WExtend); (3389,3389,WALetter); (3390,3396,WExtend); (3398,3400,WExtend);
    (3402,3405,WExtend); (3406,3406,WALetter); (3412,3414,WALetter); (3415,3415,WExtend); (3423,3425,WALetter); (3426,3427,WExtend);
    (3430,3439,WNumeric); (3450,3455,WALetter); (3457,3459,WExtend); (3461,3478,WALetter); (3482,3505,WALetter); (3507,3515,WALetter);
    (3517,3517,WALetter); (3520,3526,WALetter); (3530,3530,WExtend); (3535,3540,WExtend); (3542,3542,WExtend); (3544,3551,WExtend);
    (3558,3567,WNumeric); (3570,3571,WExtend); (3633,3633,WExtend); (3636,3642,WExtend); (3655,3662,WExtend); (3664,3673,WNumeric);
    (3761,3761,WExtend); (3764,3772,WExtend); (3784,3790,WExtend); (3792,3801,WNumeric); (3840,3840,WALetter); (3864,3865,WExtend);
    (3872,3881,WNumeric); (3893,3893,WExtend); (3895,3895,WExtend); (3897,3897,WExtend); (3902,3903,WExtend); (3904,3911,WALetter);
    (3913,3948,WALetter); (3953,3972,WExtend); (3974,3975,WExtend); (3976,3980,WALetter); (3981,3991,WExtend); (3993,4028,WExtend);
    (4038,4038,WExtend); (4139,4158,WExtend); (4160,4169,WNumeric); (4182,4185,WExtend); (4190,4192,WExtend); (4194,4196,WExtend);
    (4199,4205,WExtend); (4209,4212,WExtend); (4226,4237,WExtend); (4239,4239,WExtend); (4240,4249,WNumeric); (4250,4253,WExtend);
    (4256,4293,WALetter); (4295,4295,WALetter); (4301,4301,WALetter); (4304,4346,WALetter); (4348,4680,WALetter); (4682,4685,WALetter);
    (4688,4694,WALetter); (4696,4696,WALetter); (4698,4701,WALetter); (4704,4744,WALetter); (4746,4749,WALetter); (4752,4784,WALetter);
    (4786,4789,WALetter); (4792,4798,WALetter); (4800,4800,WALetter); (4802,4805,WALetter); (4808,4822,WALetter); (4824,4880,WALetter);
    (4882,4885,WALetter); (4888,4954,WALetter); (4957,4959,WExtend); (4992,5007,WALetter); (5024,5109,WALetter); (5112,5117,WALetter);
    (5121,5740,WALetter); (5743,5759,WALetter); (5760,5760,WWSegSpace); (5761,5786,WALetter); (5792,5866,WALetter); (5870,5880,WALetter);
    (5888,5905,WALetter); (5906,5909,WExtend); (5919,5937,WALetter); (5938,5940,WExtend); (5952,5969,WALetter); (5970,5971,WExtend);
    (5984,5996,WALetter); (5998,6000,WALetter); (6002,6003,WExtend); (6068,6099,WExtend); (6109,6109,WExtend); (6112,6121,WNumeric);
    (6155,6157,WExtend); (6158,6158,WFormat); (6159,6159,WExtend); (6160,6169,WNumeric); (6176,6264,WALetter); (6272,6276,WALetter);
    (6277,6278,WExtend); (6279,6312,WALetter); (6313,6313,WExtend); (6314,6314,WALetter); (6320,6389,WALetter); (6400,6430,WALetter);
    (6432,6443,WExtend); (6448,6459,WExtend); (6470,6479,WNumeric); (6608,6617,WNumeric); (6656,6678,WALetter); (6679,6683,WExtend);
    (6741,6750,WExtend); (6752,6780,WExtend); (6783,6783,WExtend); (6784,6793,WNumeric); (6800,6809,WNumeric); (6832,6862,WExtend);
    (6912,6916,WExtend); (6917,6963,WALetter); (6964,6980,WExtend); (6981,6988,WALetter); (6992,7001,WNumeric); (7019,7027,WExtend);
    (7040,7042,WExtend); (7043,7072,WALetter); (7073,7085,WExtend); (7086,7087,WALetter); (7088,7097,WNumeric); (7098,7141,WALetter);
    (7142,7155,WExtend); (7168,7203,WALetter); (7204,7223,WExtend); (7232,7241,WNumeric); (7245,7247,WALetter); (7248,7257,WNumeric);
    (7258,7293,WALetter); (7296,7304,WALetter); (7312,7354,WALetter); (7357,7359,WALetter); (7376,7378,WExtend); (7380,7400,WExtend);
    (7401,7404,WALetter); (7405,7405,WExtend); (7406,7411,WALetter); (7412,7412,WExtend); (7413,7414,WALetter); (7415,7417,WExtend);
    (7418,7418,WALetter); (7424,7615,WALetter); (7616,7679,WExtend); (7680,7957,WALetter); (7960,7965,WALetter); (7968,8005,WALetter);
    (8008,8013,WALetter); (8016,8023,WALetter); (8025,8025,WALetter); (8027,8027,WALetter); (8029,8029,WALetter); (8031,8061,WALetter);
    (8064,8116,WALetter); (8118,8124,WALetter); (8126,8126,WALetter); (8130,8132,WALetter); (8134,8140,WALetter); (8144,8147,WALetter);
    (8150,8155,WALetter); (8160,8172,WALetter); (8178,8180,WALetter); (8182,8188,WALetter); (8192,8198,WWSegSpace); (8200,8202,WWSegSpace);
    (8204,8204,WExtend); (8205,8205,WZWJ); (8206,8207,WFormat); (8216,8217,WMidNumLet); (8228,8228,WMidNumLet); (8231,8231,WMidLetter);
    (8232,8233,WNewline); (8234,8238,WFormat); (8239,8239,WExtendNumLet); (8255,8256,WExtendNumLet); (8260,8260,WMidNum); (8276,8276,WExtendNumLet);
    (8287,8287,WWSegSpace); (8288,8292,WFormat); (8294,8303,WFormat); (8305,8305,WALetter); (8319,8319,WALetter); (8336,8348,WALetter);
    (8400,8432,WExtend); (8450,8450,WALetter); (8455,8455,WALetter); (8458,8467,WALetter); (8469,8469,WALetter); (8473,8477,WALetter);
    (8484,8484,WALetter); (8486,8486,WALetter); (8488,8488,WALetter); (8490,8493,WALetter); (8495,8505,WALetter); (8508,8511,WALetter);
    (8517,8521,WALetter); (8526,8526,WALetter); (8544,8584,WALetter); (9398,9449,WALetter); (11264,11492,WALetter); (11499,11502,WALetter);
    (11503,11505,WExtend); (11506,11507,WALetter); (11520,11557,WALetter); (11559,11559,WALetter); (11565,11565,WALetter); (11568,11623,WALetter);
    (11631,11631,WALetter); (11647,11647,WExtend); (11648,11670,WALetter); (11680,11686,WALetter); (11688,11694,WALetter); (11696,11702,WALetter);
    (11704,11710,WALetter); (11712,11718,WALetter); (11720,11726,WALetter); (11728,11734,WALetter); (11736,11742,WALetter); (11744,11775,WExtend);
    (11823,11823,WALetter); (12288,12288,WWSegSpace); (12293,12293,WALetter); (12330,12335,WExtend); (12337,12341,WKatakana); (12347,12348,WALetter);
    (12441,12442,WExtend); (12443,12444,WKatakana); (12448,12538,WKatakana); (12540,12543,WKatakana); (12549,12591,WALetter); (12593,12686,WALetter);
    (12704,12735,WALetter); (12784,12799,WKatakana); (13008,13054,WKatakana); (13056,13143,WKatakana); (40960,42124,WALetter); (42192,42237,WALetter);
    (42240,42508,WALetter); (42512,42527,WALetter); (42528,42537,WNumeric); (42538,42539,WALetter); (42560,42606,WALetter); (42607,42610,WExtend);
    (42612,42621,WExtend); (42623,42653,WALetter); (42654,42655,WExtend); (42656,42735,WALetter); (42736,42737,WExtend); (42760,42954,WALetter);
    (42960,42961,WALetter); (42963,42963,WALetter); (42965,42969,WALetter); (42994,43009,WALetter); (43010,43010,WExtend); (43011,43013,WALetter);
    (43014,43014,WExtend); (43015,43018,WALetter); (43019,43019,WExtend); (43020,43042,WALetter); (43043,43047,WExtend); (43052,43052,WExtend);
    (43072,43123,WALetter); (43136,43137,WExtend); (43138,43187,WALetter); (43188,43205,WExtend); (43216,43225,WNumeric); (43232,43249,WExtend);
    (43250,43255,WALetter); (43259,43259,WALetter); (43261,43262,WALetter); (43263,43263,WExtend); (43264,43273,WNumeric); (43274,43301,WALetter);
    (43302,43309,WExtend); (43312,43334,WALetter); (43335,43347,WExtend); (43360,43388,WALetter); (43392,43395,WExtend); (43396,43442,WALetter);
    (43443,43456,WExtend); (43471,43471,WALetter); (43472,43481,WNumeric); (43493,43493,WExtend); (43504,43513,WNumeric); (43520,43560,WALetter);
    (43561,43574,WExtend); (43584,43586,WALetter); (43587,43587,WExtend); (43588,43595,WALetter); (43596,43597,WExtend); (43600,43609,WNumeric);
    (43643,43645,WExtend); (43696,43696,WExtend); (43698,43700,WExtend); (43703,43704,WExtend); (43710,43711,WExtend); (43713,43713,WExtend);
    (43744,43754,WALetter); (43755,43759,WExtend); (43762,43764,WALetter); (43765,43766,WExtend); (43777,43782,WALetter); (43785,43790,WALetter);
    (43793,43798,WALetter); (43808,43814,WALetter); (43816,43822,WALetter); (43824,43881,WALetter); (43888,44002,WALetter); (44003,44010,WExtend);
    (44012,44013,WExtend); (44016,44025,WNumeric); (44032,55203,WALetter); (55216,55238,WALetter); (55243,55291,WALetter); (64256,64262,WALetter);
    (64275,64279,WALetter); (64285,64285,WHebrew); (64286,64286,WExtend); (64287,64296,WHebrew); (64298,64310,WHebrew); (64312,64316,WHebrew);
    (64318,64318,WHebrew); (64320,64321,WHebrew); (64323,64324,WHebrew); (64326,64335,WHebrew); (64336,64433,WALetter); (64467,64829,WALetter);
    (64848,64911,WALetter); (64914,64967,WALetter); (65008,65019,WALetter); (65024,65039,WExtend); (65040,65040,WMidNum); (65043,65043,WMidLetter);
    (65044,65044,WMidNum); (65056,65071,WExtend); (65075,65076,WExtendNumLet); (65101,65103,WExtendNumLet); (65104,65104,WMidNum); (65106,65106,WMidNumLet);
    (65108,65108,WMidNum); (65109,65109,WMidLetter); (65136,65140,WALetter); (65142,65276,WALetter); (65279,65279,WFormat); (65287,65287,WMidNumLet);
    (65292,65292,WMidNum); (65294,65294,WMidNumLet); (65296,65305,WNumeric); (65306,65306,WMidLetter); (65307,65307,WMidNum); (65313,65338,WALetter);
    (65343,65343,WExtendNumLet); (65345,65370,WALetter); (65382,65437,WKatakana); (65438,65439,WExtend); (65440,65470,WALetter); (65474,65479,WALetter);
    (65482,65487,WALetter); (65490,65495,WALetter); (65498,65500,WALetter); (65529,65531,WFormat); (65536,65547,WALetter); (65549,65574,WALetter);
    (65576,65594,WALetter); (65596,65597,WALetter); (65599,65613,WALetter); (65616,65629,WALetter); (65664,65786,WALetter); (65856,65908,WALetter);
    (66045,66045,WExtend); (66176,66204,WALetter); (66208,66256,WALetter); (66272,66272,WExtend); (66304,66335,WALetter); (66349,66378,WALetter);
    (66384,66421,WALetter); (66422,66426,WExtend); (66432,66461,WALetter); (66464,66499,WALetter); (66504,66511,WALetter); (66513,66517,WALetter);
    (66560,66717,WALetter); (66720,66729,WNumeric); (66736,66771,WALetter); (66776,66811,WALetter); (66816,66855,WALetter); (66864,66915,WALetter);
    (66928,66938,WALetter); (66940,66954,WALetter); (66956,66962,WALetter); (66964,66965,WALetter); (66967,66977,WALetter); (66979,66993,WALetter);
    (66995,67001,WALetter); (67003,67004,WALetter); (67072,67382,WALetter); (67392,67413,WALetter); (67424,67431,WALetter); (67456,67461,WALetter);
    (67463,67504,WALetter); (67506,67514,WALetter); (67584,67589,WALetter); (67592,67592,WALetter); (67594,67637,WALetter); (67639,67640,WALetter);
    (67644,67644,WALetter); (67647,67669,WALetter); (67680,67702,WALetter); (67712,67742,WALetter); (67808,67826,WALetter); (67828,67829,WALetter);
    (67840,67861,WALetter); (67872,67897,WALetter); (67968,68023,WALetter); (68030,68031,WALetter); (68096,68096,WALetter); (68097,68099,WExtend);
    (68101,68102,WExtend); (68108,68111,WExtend); (68112,68115,WALetter); (68117,68119,WALetter); (68121,68149,WALetter); (68152,68154,WExtend);
    (68159,68159,WExtend); (68192,68220,WALetter); (68224,68252,WALetter); (68288,68295,WALetter); (68297,68324,WALetter); (68325,68326,WExtend);
    (68352,68405,WALetter); (68416,68437,WALetter); (68448,68466,WALetter); (68480,68497,WALetter); (68608,68680,WALetter); (68736,68786,WALetter);
    (68800,68850,WALetter); (68864,68899,WALetter); (68900,68903,WExtend); (68912,68921,WNumeric); (69248,69289,WALetter); (69291,69292,WExtend);
    (69296,69297,WALetter); (69373,69375,WExtend); (69376,69404,WALetter); (69415,69415,WALetter); (69424,69445,WALetter); (69446,69456,WExtend);
    (69488,69505,WALetter); (69506,69509,WExtend); (69552,69572,WALetter); (69600,69622,WALetter); (69632,69634,WExtend); (69635,69687,WALetter);
    (69688,69702,WExtend); (69734,69743,WNumeric); (69744,69744,WExtend); (69745,69746,WALetter); (69747,69748,WExtend); (69749,69749,WALetter);
    (69759,69762,WExtend); (69763,69807,WALetter); (69808,69818,WExtend); (69821,69821,WFormat); (69826,69826,WExtend); (69837,69837,WFormat);
    (69840,69864,WALetter); (69872,69881,WNumeric); (69888,69890,WExtend); (69891,69926,WALetter); (69927,69940,WExtend); (69942,69951,WNumeric);
    (69956,69956,WALetter); (69957,69958,WExtend); (69959,69959,WALetter); (69968,70002,WALetter); (70003,70003,WExtend); (70006,70006,WALetter);
    (70016,70018,WExtend); (70019,70066,WALetter); (70067,70080,WExtend); (70081,70084,WALetter); (70089,70092,WExtend); (70094,70095,WExtend);
    (70096,70105,WNumeric); (70106,70106,WALetter); (70108,70108,WALetter); (70144,70161,WALetter); (70163,70187,WALetter); (70188,70199,WExtend);
    (70206,70206,WExtend); (70207,70208,WALetter); (70209,70209,WExtend); (70272,70278,WALetter); (70280,70280,WALetter); (70282,70285,WALetter);
    (70287,70301,WALetter); (70303,70312,WALetter); (70320,70366,WALetter); (70367,70378,WExtend); (70384,70393,WNumeric); (70400,70403,WExtend);
    (70405,70412,WALetter); (70415,70416,WALetter); (70419,70440,WALetter); (70442,70448,WALetter); (70450,70451,WALetter); (70453,70457,WALetter);
    (70459,70460,WExtend); (70461,70461,WALetter); (70462,70468,WExtend); (70471,70472,WExtend); (70475,70477,WExtend); (70480,70480,WALetter);
    (70487,70487,WExtend); (70493,70497,WALetter); (70498,70499,WExtend); (70502,70508,WExtend); (70512,70516,WExtend); (70656,70708,WALetter);
    (70709,70726,WExtend); (70727,70730,WALetter); (70736,70745,WNumeric); (70750,70750,WExtend); (70751,70753,WALetter); (70784,70831,WALetter);
    (70832,70851,WExtend); (70852,70853,WALetter); (70855,70855,WALetter); (70864,70873,WNumeric); (71040,71086,WALetter); (71087,71093,WExtend);
    (71096,71104,WExtend); (71128,71131,WALetter); (71132,71133,WExtend); (71168,71215,WALetter); (71216,71232,WExtend); (71236,71236,WALetter);
    (71248,71257,WNumeric); (71296,71338,WALetter); (71339,71351,WExtend); (71352,71352,WALetter); (71360,71369,WNumeric); (71453,71467,WExtend);
    (71472,71481,WNumeric); (71680,71723,WALetter); (71724,71738,WExtend); (71840,71903,WALetter); (71904,71913,WNumeric); (71935,71942,WALetter);
    (71945,71945,WALetter); (71948,71955,WALetter); (71957,71958,WALetter); (71960,71983,WALetter); (71984,71989,WExtend); (71991,71992,WExtend);
    (71995,71998,WExtend); (71999,71999,WALetter); (72000,72000,WExtend); (72001,72001,WALetter); (72002,72003,WExtend); (72016,72025,WNumeric);
    (72096,72103,WALetter); (72106,72144,WALetter); (72145,72151,WExtend); (72154,72160,WExtend); (72161,72161,WALetter); (72163,72163,WALetter);
    (72164,72164,WExtend); (72192,72192,WALetter); (72193,72202,WExtend); (72203,72242,WALetter); (72243,72249,WExtend); (72250,72250,WALetter);
    (72251,72254,WExtend); (72263,72263,WExtend); (72272,72272,WALetter); (72273,72283,WExtend); (72284,72329,WALetter); (72330,72345,WExtend);
    (72349,72349,WALetter); (72368,72440,WALetter); (72704,72712,WALetter); (72714,72750,WALetter); (72751,72758,WExtend); (72760,72767,WExtend);
    (72768,72768,WALetter); (72784,72793,WNumeric); (72818,72847,WALetter); (72850,72871,WExtend); (72873,72886,WExtend); (72960,72966,WALetter);
    (72968,72969,WALetter); (72971,73008,WALetter); (73009,73014,WExtend); (73018,73018,WExtend); (73020,73021,WExtend); (73023,73029,WExtend);
    (73030,73030,WALetter); (73031,73031,WExtend); (73040,73049,WNumeric); (73056,73061,WALetter); (73063,73064,WALetter); (73066,73097,WALetter);
    (73098,73102,WExtend); (73104,73105,WExtend); (73107,73111,WExtend); (73112,73112,WALetter); (73120,73129,WNumeric); (73440,73458,WALetter);
    (73459,73462,WExtend); (73472,73473,WExtend); (73474,73474,WALetter); (73475,73475,WExtend); (73476,73488,WALetter); (73490,73523,WALetter);
    (73524,73530,WExtend); (73534,73538,WExtend); (73552,73561,WNumeric); (73648,73648,WALetter); (73728,74649,WALetter); (74752,74862,WALetter);
    (74880,75075,WALetter); (77712,77808,WALetter); (77824,78895,WALetter); (78896,78911,WFormat); (78912,78912,WExtend); (78913,78918,WALetter);
    (78919,78933,WExtend); (82944,83526,WALetter); (92160,92728,WALetter); (92736,92766,WALetter); (92768,92777,WNumeric); (92784,92862,WALetter);
    (92864,92873,WNumeric); (92880,92909,WALetter); (92912,92916,WExtend); (92928,92975,WALetter); (92976,92982,WExtend); (92992,92995,WALetter);
    (93008,93017,WNumeric); (93027,93047,WALetter); (93053,93071,WALetter); (93760,93823,WALetter); (93952,94026,WALetter); (94031,94031,WExtend);
    (94032,94032,WALetter); (94033,94087,WExtend); (94095,94098,WExtend); (94099,94111,WALetter); (94176,94177,WALetter); (94179,94179,WALetter);
    (94180,94180,WExtend); (94192,94193,WExtend); (110576,110579,WKatakana); (110581,110587,WKatakana); (110589,110590,WKatakana); (110592,110592,WKatakana);
    (110880,110882,WKatakana); (110933,110933,WKatakana); (110948,110951,WKatakana); (113664,113770,WALetter); (113776,113788,WALetter); (113792,113800,WALetter);
    (113808,113817,WALetter); (113821,113822,WExtend); (113824,113827,WFormat); (118528,118573,WExtend); (118576,118598,WExtend); (119141,119145,WExtend);
    (119149,119154,WExtend); (119155,119162,WFormat); (119163,119170,WExtend); (119173,119179,WExtend); (119210,119213,WExtend); (119362,119364,WExtend);
    (119808,119892,WALetter); (119894,119964,WALetter); (119966,119967,WALetter); (119970,119970,WALetter); (119973,119974,WALetter); (119977,119980,WALetter);
    (119982,119993,WALetter); (119995,119995,WALetter); (119997,120003,WALetter); (120005,120069,WALetter); (120071,120074,WALetter); (120077,120084,WALetter);
    (120086,120092,WALetter); (120094,120121,WALetter); (120123,120126,WALetter); (120128,120132,WALetter); (120134,120134,WALetter); (120138,120144,WALetter);
    (120146,120485,WALetter); (120488,120512,WALetter); (120514,120538,WALetter); (120540,120570,WALetter); (120572,120596,WALetter); (120598,120628,WALetter);
    (120630,120654,WALetter); (120656,120686,WALetter); (120688,120712,WALetter); (120714,120744,WALetter); (120746,120770,WALetter); (120772,120779,WALetter);
    (120782,120831,WNumeric); (121344,121398,WExtend); (121403,121452,WExtend); (121461,121461,WExtend); (121476,121476,WExtend); (121499,121503,WExtend);
    (121505,121519,WExtend); (122624,122654,WALetter); (122661,122666,WALetter); (122880,122886,WExtend); (122888,122904,WExtend); (122907,122913,WExtend);
    (122915,122916,WExtend); (122918,122922,WExtend); (122928,122989,WALetter); (123023,123023,WExtend); (123136,123180,WALetter); (123184,123190,WExtend);
    (123191,123197,WALetter); (123200,123209,WNumeric); (123214,123214,WALetter); (123536,123565,WALetter); (123566,123566,WExtend); (123584,123627,WALetter);
    (123628,123631,WExtend); (123632,123641,WNumeric); (124112,124139,WALetter); (124140,124143,WExtend); (124144,124153,WNumeric); (124896,124902,WALetter);
    (124904,124907,WALetter); (124909,124910,WALetter); (124912,124926,WALetter); (124928,125124,WALetter); (125136,125142,WExtend); (125184,125251,WALetter);
    (125252,125258,WExtend); (125259,125259,WALetter); (125264,125273,WNumeric); (126464,126467,WALetter); (126469,126495,WALetter); (126497,126498,WALetter);
    (126500,126500,WALetter); (126503,126503,WALetter); (126505,126514,WALetter); (126516,126519,WALetter); (126521,126521,WALetter); (126523,126523,WALetter);
    (126530,126530,WALetter); (126535,126535,WALetter); (126537,126537,WALetter); (126539,126539,WALetter); (126541,126543,WALetter); (126545,126546,WALetter);
    (126548,126548,WALetter); (126551,126551,WALetter); (126553,126553,WALetter); (126555,126555,WALetter); (126557,126557,WALetter); (126559,126559,WALetter);
    (126561,126562,WALetter); (126564,126564,WALetter); (126567,126570,WALetter); (126572,126578,WALetter); (126580,126583,WALetter); (126585,126588,WALetter);
    (126590,126590,WALetter); (126592,126601,WALetter); (126603,126619,WALetter); (126625,126627,WALetter); (126629,126633,WALetter); (126635,126651,WALetter);
    (127280,127305,WALetter); (127312,127337,WALetter); (127344,127369,WALetter); (127462,127487,WRI); (127995,127999,WExtend); (130032,130041,WNumeric);
    (917505,917505,WFormat); (917536,917631,WExtend); (917760,917999,WExtend)].

(** Extended_Pictographic *)
Definition ext_pict : list (N * N) :=
  [ (169,169); (174,174); (8252,8252); (8265,8265); (8482,8482); (8505,8505); (8596,8601); (8617,8618);
    (8986,8987); (9000,9000); (9096,9096); (9167,9167); (9193,9203); (9208,9210); (9410,9410); (9642,9643);
    (9654,9654); (9664,9664); (9723,9726); (9728,9733); (9735,9746); (9748,9861); (9872,9989); (9992,10002);
    (10004,10004); (10006,10006); (10013,10013); (10017,10017); (10024,10024); (10035,10036); (10052,10052); (10055,10055);
    (10060,10060); (10062,10062); (10067,10069); (10071,10071); (10083,10087); (10133,10135); (10145,10145); (10160,10160);
    (10175,10175); (10548,10549); (11013,11015); (11035,11036); (11088,11088); (11093,11093); (12336,12336); (12349,12349);
    (12951,12951); (12953,12953); (126976,127231); (127245,127247); (127279,127279); (127340,127345); (127358,127359); (127374,127374);
    (127377,127386); (127405,127461); (127489,127503); (127514,127514); (127535,127535); (127538,127546); (127548,127551); (127561,127994);
    (128000,128317); (128326,128591); (128640,128767); (128884,128895); (128981,129023); (129036,129039); (129096,129103); (129114,129119);
    (129160,129167); (129198,129279); (129292,129338); (129340,129349); (129351,129791); (130048,131069)].

Fixpoint range_mem (l : list (N * N)) (x : N) : bool :=
  match l with
  | [] => false
  | (lo, hi) :: l' => if x <? lo then false else if x <=? hi then true else range_mem l' x
  end.

Fixpoint lower_lookup (l : list (N * N * N * Z)) (x : N) : N :=
  match l with
  | [] => x
  | (lo, hi, stride, delta) :: l' =>
    if x <? lo then x
    else if (x <=? hi) && ((x - lo) mod stride =? 0) then Z.to_N (Z.of_N x + delta)
    else lower_lookup l' x
  end.

Fixpoint wb_lookup (l : list (N * N * wbclass)) (x : N) : wbclass :=
  match l with
  | [] => WOther
  | (lo, hi, c) :: l' => if x <? lo then WOther else if x <=? hi then c else wb_lookup l' x
  end.

(** A concrete instance of the Go tables. *)
Definition go_unicode : unicode := {|
  uIsPunct := range_mem gc_P;
  uIsSpace := range_mem white_space;
  uIsLetter := range_mem gc_L;
  uIsNumber := range_mem gc_N;
  uToLower := lower_lookup lower_runs
|}.
