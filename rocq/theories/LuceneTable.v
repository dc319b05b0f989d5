(** * LuceneTable: the switch of /repo/filters/ascii/ASCIIFoldingFilter.java (foldToASCII), the file fold.go was
    ported from. GENERATED by tools/gen_tables.py.  One entry per arm: the characters and their replacement. *)

From Verif Require Import Base.
Local Open Scope N_scope.

Definition lucene_arms : list (list N * list N) :=
  [
   (* :189-224 *) ([192; 193; 194; 195; 196; 197; 256; 258; 260; 399; 461; 478;
   480; 506; 512; 514; 550; 570; 7424; 7680; 7840; 7842; 7844; 7846;
   7848; 7850; 7852; 7854; 7856; 7858; 7860; 7862; 9398; 65313], [65]);
   (* :225-267 *) ([224; 225; 226; 227; 228; 229; 257; 259; 261; 462; 479; 481;
   507; 513; 515; 551; 592; 601; 602; 7567; 7573; 7681; 7834; 7841;
   7843; 7845; 7847; 7849; 7851; 7853; 7855; 7857; 7859; 7861; 7863; 8336;
   8340; 9424; 11365; 11375; 65345], [97]);
   (* :268-271 *) ([42802], [65; 65]);
   (* :272-278 *) ([198; 482; 508; 7425], [65; 69]);
   (* :279-282 *) ([42804], [65; 79]);
   (* :283-286 *) ([42806], [65; 85]);
   (* :287-291 *) ([42808; 42810], [65; 86]);
   (* :292-295 *) ([42812], [65; 89]);
   (* :296-300 *) ([9372], [40; 97; 41]);
   (* :301-304 *) ([42803], [97; 97]);
   (* :305-311 *) ([230; 483; 509; 7426], [97; 101]);
   (* :312-315 *) ([42805], [97; 111]);
   (* :316-319 *) ([42807], [97; 117]);
   (* :320-324 *) ([42809; 42811], [97; 118]);
   (* :325-328 *) ([42813], [97; 121]);
   (* :329-340 *) ([385; 386; 579; 665; 7427; 7682; 7684; 7686; 9399; 65314], [66]);
   (* :341-352 *) ([384; 387; 595; 7532; 7552; 7683; 7685; 7687; 9425; 65346], [98]);
   (* :353-357 *) ([9373], [40; 98; 41]);
   (* :358-371 *) ([199; 262; 264; 266; 268; 391; 571; 663; 7428; 7688; 9400; 65315], [67]);
   (* :372-387 *) ([231; 263; 265; 267; 269; 392; 572; 597; 7689; 8580; 9426; 42814;
   42815; 65347], [99]);
   (* :388-392 *) ([9374], [40; 99; 41]);
   (* :393-410 *) ([208; 270; 272; 393; 394; 395; 7429; 7430; 7690; 7692; 7694; 7696;
   7698; 9401; 42873; 65316], [68]);
   (* :411-430 *) ([240; 271; 273; 396; 545; 598; 599; 7533; 7553; 7569; 7691; 7693;
   7695; 7697; 7699; 9427; 42874; 65348], [100]);
   (* :431-435 *) ([452; 497], [68; 90]);
   (* :436-440 *) ([453; 498], [68; 122]);
   (* :441-445 *) ([9375], [40; 100; 41]);
   (* :446-449 *) ([568], [100; 98]);
   (* :450-456 *) ([454; 499; 675; 677], [100; 122]);
   (* :457-490 *) ([200; 201; 202; 203; 274; 276; 278; 280; 282; 398; 400; 516;
   518; 552; 582; 7431; 7700; 7702; 7704; 7706; 7708; 7864; 7866; 7868;
   7870; 7872; 7874; 7876; 7878; 9402; 11387; 65317], [69]);
   (* :491-533 *) ([232; 233; 234; 235; 275; 277; 279; 281; 283; 477; 517; 519;
   553; 583; 600; 603; 604; 605; 606; 666; 7432; 7570; 7571; 7572;
   7701; 7703; 7705; 7707; 7709; 7865; 7867; 7869; 7871; 7873; 7875; 7877;
   7879; 8337; 9428; 11384; 65349], [101]);
   (* :534-538 *) ([9376], [40; 101; 41]);
   (* :539-547 *) ([401; 7710; 9403; 42800; 42875; 43003; 65318], [70]);
   (* :548-557 *) ([402; 7534; 7554; 7711; 7835; 9429; 42876; 65350], [102]);
   (* :558-562 *) ([9377], [40; 102; 41]);
   (* :563-566 *) ([64256], [102; 102]);
   (* :567-571 *) ([64259], [102; 102; 105]);
   (* :572-576 *) ([64260], [102; 102; 108]);
   (* :577-580 *) ([64257], [102; 105]);
   (* :581-584 *) ([64258], [102; 108]);
   (* :585-603 *) ([284; 286; 288; 290; 403; 484; 485; 486; 487; 500; 610; 667;
   7712; 9404; 42877; 42878; 65319], [71]);
   (* :604-619 *) ([285; 287; 289; 291; 501; 608; 609; 7543; 7545; 7555; 7713; 9430;
   42879; 65351], [103]);
   (* :620-624 *) ([9378], [40; 103; 41]);
   (* :625-639 *) ([292; 294; 542; 668; 7714; 7716; 7718; 7720; 7722; 9405; 11367; 11381;
   65320], [72]);
   (* :640-658 *) ([293; 295; 543; 613; 614; 686; 687; 7715; 7717; 7719; 7721; 7723;
   7830; 9431; 11368; 11382; 65352], [104]);
   (* :659-662 *) ([502], [72; 86]);
   (* :663-667 *) ([9379], [40; 104; 41]);
   (* :668-671 *) ([405], [104; 118]);
   (* :672-696 *) ([204; 205; 206; 207; 296; 298; 300; 302; 304; 406; 407; 463;
   520; 522; 618; 7547; 7724; 7726; 7880; 7882; 9406; 43006; 65321], [73]);
   (* :697-722 *) ([236; 237; 238; 239; 297; 299; 301; 303; 305; 464; 521; 523;
   616; 7433; 7522; 7548; 7574; 7725; 7727; 7881; 7883; 8305; 9432; 65353], [105]);
   (* :723-726 *) ([306], [73; 74]);
   (* :727-731 *) ([9380], [40; 105; 41]);
   (* :732-735 *) ([307], [105; 106]);
   (* :736-742 *) ([308; 584; 7434; 9407; 65322], [74]);
   (* :743-754 *) ([309; 496; 567; 585; 607; 644; 669; 9433; 11388; 65354], [106]);
   (* :755-759 *) ([9381], [40; 106; 41]);
   (* :760-774 *) ([310; 408; 488; 7435; 7728; 7730; 7732; 9408; 11369; 42816; 42818; 42820;
   65323], [75]);
   (* :775-790 *) ([311; 409; 489; 670; 7556; 7729; 7731; 7733; 9434; 11370; 42817; 42819;
   42821; 65355], [107]);
   (* :791-795 *) ([9382], [40; 107; 41]);
   (* :796-816 *) ([313; 315; 317; 319; 321; 573; 671; 7436; 7734; 7736; 7738; 7740;
   9409; 11360; 11362; 42822; 42824; 42880; 65324], [76]);
   (* :817-839 *) ([314; 316; 318; 320; 322; 410; 564; 619; 620; 621; 7557; 7735;
   7737; 7739; 7741; 9435; 11361; 42823; 42825; 42881; 65356], [108]);
   (* :840-843 *) ([455], [76; 74]);
   (* :844-847 *) ([7930], [76; 76]);
   (* :848-851 *) ([456], [76; 106]);
   (* :852-856 *) ([9383], [40; 108; 41]);
   (* :857-860 *) ([457], [108; 106]);
   (* :861-864 *) ([7931], [108; 108]);
   (* :865-868 *) ([682], [108; 115]);
   (* :869-872 *) ([683], [108; 122]);
   (* :873-884 *) ([412; 7437; 7742; 7744; 7746; 9410; 11374; 43005; 43007; 65325], [77]);
   (* :885-896 *) ([623; 624; 625; 7535; 7558; 7743; 7745; 7747; 9436; 65357], [109]);
   (* :897-901 *) ([9384], [40; 109; 41]);
   (* :902-919 *) ([209; 323; 325; 327; 330; 413; 504; 544; 628; 7438; 7748; 7750;
   7752; 7754; 9411; 65326], [78]);
   (* :920-941 *) ([241; 324; 326; 328; 329; 331; 414; 505; 565; 626; 627; 7536;
   7559; 7749; 7751; 7753; 7755; 8319; 9437; 65358], [110]);
   (* :942-945 *) ([458], [78; 74]);
   (* :946-949 *) ([459], [78; 106]);
   (* :950-954 *) ([9385], [40; 110; 41]);
   (* :955-958 *) ([460], [110; 106]);
   (* :959-1004 *) ([210; 211; 212; 213; 214; 216; 332; 334; 336; 390; 415; 416;
   465; 490; 492; 510; 524; 526; 554; 556; 558; 560; 7439; 7440;
   7756; 7758; 7760; 7762; 7884; 7886; 7888; 7890; 7892; 7894; 7896; 7898;
   7900; 7902; 7904; 7906; 9412; 42826; 42828; 65327], [79]);
   (* :1005-1053 *) ([242; 243; 244; 245; 246; 248; 333; 335; 337; 417; 466; 491;
   493; 511; 525; 527; 555; 557; 559; 561; 596; 629; 7446; 7447;
   7575; 7757; 7759; 7761; 7763; 7885; 7887; 7889; 7891; 7893; 7895; 7897;
   7899; 7901; 7903; 7905; 7907; 8338; 9438; 11386; 42827; 42829; 65359], [111]);
   (* :1054-1058 *) ([338; 630], [79; 69]);
   (* :1059-1062 *) ([42830], [79; 79]);
   (* :1063-1067 *) ([546; 7445], [79; 85]);
   (* :1068-1072 *) ([9386], [40; 111; 41]);
   (* :1073-1077 *) ([339; 7444], [111; 101]);
   (* :1078-1081 *) ([42831], [111; 111]);
   (* :1082-1085 *) ([547], [111; 117]);
   (* :1086-1097 *) ([420; 7448; 7764; 7766; 9413; 11363; 42832; 42834; 42836; 65328], [80]);
   (* :1098-1111 *) ([421; 7537; 7549; 7560; 7765; 7767; 9439; 42833; 42835; 42837; 43004; 65360], [112]);
   (* :1112-1116 *) ([9387], [40; 112; 41]);
   (* :1117-1123 *) ([586; 9414; 42838; 42840; 65329], [81]);
   (* :1124-1132 *) ([312; 587; 672; 9440; 42839; 42841; 65361], [113]);
   (* :1133-1137 *) ([9388], [40; 113; 41]);
   (* :1138-1141 *) ([569], [113; 112]);
   (* :1142-1162 *) ([340; 342; 344; 528; 530; 588; 640; 641; 7449; 7450; 7768; 7770;
   7772; 7774; 9415; 11364; 42842; 42882; 65330], [82]);
   (* :1163-1186 *) ([341; 343; 345; 529; 531; 589; 636; 637; 638; 639; 7523; 7538;
   7539; 7561; 7769; 7771; 7773; 7775; 9441; 42843; 42883; 65362], [114]);
   (* :1187-1191 *) ([9389], [40; 114; 41]);
   (* :1192-1207 *) ([346; 348; 350; 352; 536; 7776; 7778; 7780; 7782; 7784; 9416; 42801;
   42885; 65331], [83]);
   (* :1208-1229 *) ([347; 349; 351; 353; 383; 537; 575; 642; 7540; 7562; 7777; 7779;
   7781; 7783; 7785; 7836; 7837; 9442; 42884; 65363], [115]);
   (* :1230-1233 *) ([7838], [83; 83]);
   (* :1234-1238 *) ([9390], [40; 115; 41]);
   (* :1239-1242 *) ([223], [115; 115]);
   (* :1243-1246 *) ([64262], [115; 116]);
   (* :1247-1263 *) ([354; 356; 358; 428; 430; 538; 574; 7451; 7786; 7788; 7790; 7792;
   9417; 42886; 65332], [84]);
   (* :1264-1283 *) ([355; 357; 359; 427; 429; 539; 566; 647; 648; 7541; 7787; 7789;
   7791; 7793; 7831; 9443; 11366; 65364], [116]);
   (* :1284-1288 *) ([222; 42854], [84; 72]);
   (* :1289-1292 *) ([42792], [84; 90]);
   (* :1293-1297 *) ([9391], [40; 116; 41]);
   (* :1298-1301 *) ([680], [116; 99]);
   (* :1302-1307 *) ([254; 7546; 42855], [116; 104]);
   (* :1308-1311 *) ([678], [116; 115]);
   (* :1312-1315 *) ([42793], [116; 122]);
   (* :1316-1352 *) ([217; 218; 219; 220; 360; 362; 364; 366; 368; 370; 431; 467;
   469; 471; 473; 475; 532; 534; 580; 7452; 7550; 7794; 7796; 7798;
   7800; 7802; 7908; 7910; 7912; 7914; 7916; 7918; 7920; 9418; 65333], [85]);
   (* :1353-1389 *) ([249; 250; 251; 252; 361; 363; 365; 367; 369; 371; 432; 468;
   470; 472; 474; 476; 533; 535; 649; 7524; 7577; 7795; 7797; 7799;
   7801; 7803; 7909; 7911; 7913; 7915; 7917; 7919; 7921; 9444; 65365], [117]);
   (* :1390-1394 *) ([9392], [40; 117; 41]);
   (* :1395-1398 *) ([7531], [117; 101]);
   (* :1399-1410 *) ([434; 581; 7456; 7804; 7806; 7932; 9419; 42846; 42856; 65334], [86]);
   (* :1411-1423 *) ([651; 652; 7525; 7564; 7805; 7807; 9445; 11377; 11380; 42847; 65366], [118]);
   (* :1424-1427 *) ([42848], [86; 89]);
   (* :1428-1432 *) ([9393], [40; 118; 41]);
   (* :1433-1436 *) ([42849], [118; 121]);
   (* :1437-1449 *) ([372; 503; 7457; 7808; 7810; 7812; 7814; 7816; 9420; 11378; 65335], [87]);
   (* :1450-1463 *) ([373; 447; 653; 7809; 7811; 7813; 7815; 7817; 7832; 9446; 11379; 65367], [119]);
   (* :1464-1468 *) ([9394], [40; 119; 41]);
   (* :1469-1474 *) ([7818; 7820; 9421; 65336], [88]);
   (* :1475-1482 *) ([7565; 7819; 7821; 8339; 9447; 65368], [120]);
   (* :1483-1487 *) ([9395], [40; 120; 41]);
   (* :1488-1504 *) ([221; 374; 376; 435; 562; 590; 655; 7822; 7922; 7924; 7926; 7928;
   7934; 9422; 65337], [89]);
   (* :1505-1522 *) ([253; 255; 375; 436; 563; 591; 654; 7823; 7833; 7923; 7925; 7927;
   7929; 7935; 9448; 65369], [121]);
   (* :1523-1527 *) ([9396], [40; 121; 41]);
   (* :1528-1543 *) ([377; 379; 381; 437; 540; 548; 7458; 7824; 7826; 7828; 9423; 11371;
   42850; 65338], [90]);
   (* :1544-1563 *) ([378; 380; 382; 438; 541; 549; 576; 656; 657; 7542; 7566; 7825;
   7827; 7829; 9449; 11372; 42851; 65370], [122]);
   (* :1564-1568 *) ([9397], [40; 122; 41]);
   (* :1569-1575 *) ([8304; 8320; 9450; 9471; 65296], [48]);
   (* :1576-1585 *) ([185; 8321; 9312; 9461; 10102; 10112; 10122; 65297], [49]);
   (* :1586-1589 *) ([9352], [49; 46]);
   (* :1590-1594 *) ([9332], [40; 49; 41]);
   (* :1595-1604 *) ([178; 8322; 9313; 9462; 10103; 10113; 10123; 65298], [50]);
   (* :1605-1608 *) ([9353], [50; 46]);
   (* :1609-1613 *) ([9333], [40; 50; 41]);
   (* :1614-1623 *) ([179; 8323; 9314; 9463; 10104; 10114; 10124; 65299], [51]);
   (* :1624-1627 *) ([9354], [51; 46]);
   (* :1628-1632 *) ([9334], [40; 51; 41]);
   (* :1633-1642 *) ([8308; 8324; 9315; 9464; 10105; 10115; 10125; 65300], [52]);
   (* :1643-1646 *) ([9355], [52; 46]);
   (* :1647-1651 *) ([9335], [40; 52; 41]);
   (* :1652-1661 *) ([8309; 8325; 9316; 9465; 10106; 10116; 10126; 65301], [53]);
   (* :1662-1665 *) ([9356], [53; 46]);
   (* :1666-1670 *) ([9336], [40; 53; 41]);
   (* :1671-1680 *) ([8310; 8326; 9317; 9466; 10107; 10117; 10127; 65302], [54]);
   (* :1681-1684 *) ([9357], [54; 46]);
   (* :1685-1689 *) ([9337], [40; 54; 41]);
   (* :1690-1699 *) ([8311; 8327; 9318; 9467; 10108; 10118; 10128; 65303], [55]);
   (* :1700-1703 *) ([9358], [55; 46]);
   (* :1704-1708 *) ([9338], [40; 55; 41]);
   (* :1709-1718 *) ([8312; 8328; 9319; 9468; 10109; 10119; 10129; 65304], [56]);
   (* :1719-1722 *) ([9359], [56; 46]);
   (* :1723-1727 *) ([9339], [40; 56; 41]);
   (* :1728-1737 *) ([8313; 8329; 9320; 9469; 10110; 10120; 10130; 65305], [57]);
   (* :1738-1741 *) ([9360], [57; 46]);
   (* :1742-1746 *) ([9340], [40; 57; 41]);
   (* :1747-1754 *) ([9321; 9470; 10111; 10121; 10131], [49; 48]);
   (* :1755-1759 *) ([9361], [49; 48; 46]);
   (* :1760-1765 *) ([9341], [40; 49; 48; 41]);
   (* :1766-1770 *) ([9322; 9451], [49; 49]);
   (* :1771-1775 *) ([9362], [49; 49; 46]);
   (* :1776-1781 *) ([9342], [40; 49; 49; 41]);
   (* :1782-1786 *) ([9323; 9452], [49; 50]);
   (* :1787-1791 *) ([9363], [49; 50; 46]);
   (* :1792-1797 *) ([9343], [40; 49; 50; 41]);
   (* :1798-1802 *) ([9324; 9453], [49; 51]);
   (* :1803-1807 *) ([9364], [49; 51; 46]);
   (* :1808-1813 *) ([9344], [40; 49; 51; 41]);
   (* :1814-1818 *) ([9325; 9454], [49; 52]);
   (* :1819-1823 *) ([9365], [49; 52; 46]);
   (* :1824-1829 *) ([9345], [40; 49; 52; 41]);
   (* :1830-1834 *) ([9326; 9455], [49; 53]);
   (* :1835-1839 *) ([9366], [49; 53; 46]);
   (* :1840-1845 *) ([9346], [40; 49; 53; 41]);
   (* :1846-1850 *) ([9327; 9456], [49; 54]);
   (* :1851-1855 *) ([9367], [49; 54; 46]);
   (* :1856-1861 *) ([9347], [40; 49; 54; 41]);
   (* :1862-1866 *) ([9328; 9457], [49; 55]);
   (* :1867-1871 *) ([9368], [49; 55; 46]);
   (* :1872-1877 *) ([9348], [40; 49; 55; 41]);
   (* :1878-1882 *) ([9329; 9458], [49; 56]);
   (* :1883-1887 *) ([9369], [49; 56; 46]);
   (* :1888-1893 *) ([9349], [40; 49; 56; 41]);
   (* :1894-1898 *) ([9330; 9459], [49; 57]);
   (* :1899-1903 *) ([9370], [49; 57; 46]);
   (* :1904-1909 *) ([9350], [40; 49; 57; 41]);
   (* :1910-1914 *) ([9331; 9460], [50; 48]);
   (* :1915-1919 *) ([9371], [50; 48; 46]);
   (* :1920-1925 *) ([9351], [40; 50; 48; 41]);
   (* :1926-1939 *) ([171; 187; 8220; 8221; 8222; 8243; 8246; 10077; 10078; 10094; 10095; 65282], [34]);
   (* :1940-1952 *) ([8216; 8217; 8218; 8219; 8242; 8245; 8249; 8250; 10075; 10076; 65287], [39]);
   (* :1953-1962 *) ([8208; 8209; 8210; 8211; 8212; 8315; 8331; 65293], [45]);
   (* :1963-1967 *) ([8261; 10098; 65339], [91]);
   (* :1968-1972 *) ([8262; 10099; 65341], [93]);
   (* :1973-1979 *) ([8317; 8333; 10088; 10090; 65288], [40]);
   (* :1980-1983 *) ([11816], [40; 40]);
   (* :1984-1990 *) ([8318; 8334; 10089; 10091; 65289], [41]);
   (* :1991-1994 *) ([11817], [41; 41]);
   (* :1995-1999 *) ([10092; 10096; 65308], [60]);
   (* :2000-2004 *) ([10093; 10097; 65310], [62]);
   (* :2005-2008 *) ([10100; 65371], [123]);
   (* :2009-2012 *) ([10101; 65373], [125]);
   (* :2013-2017 *) ([8314; 8330; 65291], [43]);
   (* :2018-2022 *) ([8316; 8332; 65309], [61]);
   (* :2023-2025 *) ([65281], [33]);
   (* :2026-2029 *) ([8252], [33; 33]);
   (* :2030-2033 *) ([8265], [33; 63]);
   (* :2034-2036 *) ([65283], [35]);
   (* :2037-2039 *) ([65284], [36]);
   (* :2040-2043 *) ([8274; 65285], [37]);
   (* :2044-2046 *) ([65286], [38]);
   (* :2047-2050 *) ([8270; 65290], [42]);
   (* :2051-2053 *) ([65292], [44]);
   (* :2054-2056 *) ([65294], [46]);
   (* :2057-2060 *) ([8260; 65295], [47]);
   (* :2061-2063 *) ([65306], [58]);
   (* :2064-2067 *) ([8271; 65307], [59]);
   (* :2068-2070 *) ([65311], [63]);
   (* :2071-2074 *) ([8263], [63; 63]);
   (* :2075-2078 *) ([8264], [63; 33]);
   (* :2079-2081 *) ([65312], [64]);
   (* :2082-2084 *) ([65340], [92]);
   (* :2085-2088 *) ([8248; 65342], [94]);
   (* :2089-2091 *) ([65343], [95]);
   (* :2092-2095 *) ([8275; 65374], [126])].
