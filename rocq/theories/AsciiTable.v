(** * AsciiTable: the switch of /repo/filters/ascii/fold.go:15-2153. GENERATED by tools/gen_tables.py.
    One entry per [case]: the runes, the runes written, and whether the arm sets [folded = true]. *)

From Verif Require Import Base.
Local Open Scope N_scope.

Definition fold_arms : list (list N * list N * bool) :=
  [
   (* fold.go:16-52 *) ([192; 193; 194; 195; 196; 197; 256; 258; 260; 399; 461; 478;
   480; 506; 512; 514; 550; 570; 7424; 7680; 7840; 7842; 7844; 7846;
   7848; 7850; 7852; 7854; 7856; 7858; 7860; 7862; 9398; 65313], [65], true);
   (* fold.go:53-96 *) ([224; 225; 226; 227; 228; 229; 257; 259; 261; 462; 479; 481;
   507; 513; 515; 551; 592; 601; 602; 7567; 7573; 7681; 7834; 7841;
   7843; 7845; 7847; 7849; 7851; 7853; 7855; 7857; 7859; 7861; 7863; 8336;
   8340; 9424; 11365; 11375; 65345], [97], true);
   (* fold.go:97-101 *) ([42802], [65; 65], true);
   (* fold.go:102-109 *) ([198; 482; 508; 7425], [65; 69], true);
   (* fold.go:110-114 *) ([42804], [65; 79], true);
   (* fold.go:115-119 *) ([42806], [65; 85], true);
   (* fold.go:120-125 *) ([42808; 42810], [65; 86], true);
   (* fold.go:126-130 *) ([42812], [65; 89], true);
   (* fold.go:131-136 *) ([9372], [40; 97; 41], true);
   (* fold.go:137-141 *) ([42803], [97; 97], true);
   (* fold.go:142-149 *) ([230; 483; 509; 7426], [97; 101], true);
   (* fold.go:150-154 *) ([42805], [97; 111], true);
   (* fold.go:155-159 *) ([42807], [97; 117], true);
   (* fold.go:160-165 *) ([42809; 42811], [97; 118], true);
   (* fold.go:166-170 *) ([42813], [97; 121], true);
   (* fold.go:171-183 *) ([385; 386; 579; 665; 7427; 7682; 7684; 7686; 9399; 65314], [66], true);
   (* fold.go:184-196 *) ([384; 387; 595; 7532; 7552; 7683; 7685; 7687; 9425; 65346], [98], true);
   (* fold.go:197-202 *) ([9373], [40; 98; 41], true);
   (* fold.go:203-217 *) ([199; 262; 264; 266; 268; 391; 571; 663; 7428; 7688; 9400; 65315], [67], true);
   (* fold.go:218-234 *) ([231; 263; 265; 267; 269; 392; 572; 597; 7689; 8580; 9426; 42814;
   42815; 65347], [99], true);
   (* fold.go:235-240 *) ([9374], [40; 99; 41], true);
   (* fold.go:241-259 *) ([208; 270; 272; 393; 394; 395; 7429; 7430; 7690; 7692; 7694; 7696;
   7698; 9401; 42873; 65316], [68], true);
   (* fold.go:260-280 *) ([240; 271; 273; 396; 545; 598; 599; 7533; 7553; 7569; 7691; 7693;
   7695; 7697; 7699; 9427; 42874; 65348], [100], true);
   (* fold.go:281-286 *) ([452; 497], [68; 90], true);
   (* fold.go:287-292 *) ([453; 498], [68; 122], true);
   (* fold.go:293-298 *) ([9375], [40; 100; 41], true);
   (* fold.go:299-303 *) ([568], [100; 98], true);
   (* fold.go:304-311 *) ([454; 499; 675; 677], [100; 122], true);
   (* fold.go:312-346 *) ([200; 201; 202; 203; 274; 276; 278; 280; 282; 398; 400; 516;
   518; 552; 582; 7431; 7700; 7702; 7704; 7706; 7708; 7864; 7866; 7868;
   7870; 7872; 7874; 7876; 7878; 9402; 11387; 65317], [69], true);
   (* fold.go:347-390 *) ([232; 233; 234; 235; 275; 277; 279; 281; 283; 477; 517; 519;
   553; 583; 600; 603; 604; 605; 606; 666; 7432; 7570; 7571; 7572;
   7701; 7703; 7705; 7707; 7709; 7865; 7867; 7869; 7871; 7873; 7875; 7877;
   7879; 8337; 9428; 11384; 65349], [101], true);
   (* fold.go:391-396 *) ([9376], [40; 101; 41], true);
   (* fold.go:397-406 *) ([401; 7710; 9403; 42800; 42875; 43003; 65318], [70], true);
   (* fold.go:407-417 *) ([402; 7534; 7554; 7711; 7835; 9429; 42876; 65350], [102], true);
   (* fold.go:418-423 *) ([9377], [40; 102; 41], true);
   (* fold.go:424-428 *) ([64256], [102; 102], true);
   (* fold.go:429-434 *) ([64259], [102; 102; 105], true);
   (* fold.go:435-440 *) ([64260], [102; 102; 108], true);
   (* fold.go:441-445 *) ([64257], [102; 105], true);
   (* fold.go:446-450 *) ([64258], [102; 108], true);
   (* fold.go:451-470 *) ([284; 286; 288; 290; 403; 484; 485; 486; 487; 500; 610; 667;
   7712; 9404; 42877; 42878; 65319], [71], true);
   (* fold.go:471-487 *) ([285; 287; 289; 291; 501; 608; 609; 7543; 7545; 7555; 7713; 9430;
   42879; 65351], [103], true);
   (* fold.go:488-493 *) ([9378], [40; 103; 41], true);
   (* fold.go:494-509 *) ([292; 294; 542; 668; 7714; 7716; 7718; 7720; 7722; 9405; 11367; 11381;
   65320], [72], true);
   (* fold.go:510-529 *) ([293; 295; 543; 613; 614; 686; 687; 7715; 7717; 7719; 7721; 7723;
   7830; 9431; 11368; 11382; 65352], [104], true);
   (* fold.go:530-534 *) ([502], [72; 86], true);
   (* fold.go:535-540 *) ([9379], [40; 104; 41], true);
   (* fold.go:541-545 *) ([405], [104; 118], true);
   (* fold.go:546-571 *) ([204; 205; 206; 207; 296; 298; 300; 302; 304; 406; 407; 463;
   520; 522; 618; 7547; 7724; 7726; 7880; 7882; 9406; 43006; 65321], [73], true);
   (* fold.go:572-598 *) ([236; 237; 238; 239; 297; 299; 301; 303; 305; 464; 521; 523;
   616; 7433; 7522; 7548; 7574; 7725; 7727; 7881; 7883; 8305; 9432; 65353], [105], true);
   (* fold.go:599-603 *) ([306], [73; 74], true);
   (* fold.go:604-609 *) ([9380], [40; 105; 41], true);
   (* fold.go:610-614 *) ([307], [105; 106], true);
   (* fold.go:615-622 *) ([308; 584; 7434; 9407; 65322], [74], true);
   (* fold.go:623-635 *) ([309; 496; 567; 585; 607; 644; 669; 9433; 11388; 65354], [106], true);
   (* fold.go:636-641 *) ([9381], [40; 106; 41], true);
   (* fold.go:642-657 *) ([310; 408; 488; 7435; 7728; 7730; 7732; 9408; 11369; 42816; 42818; 42820;
   65323], [75], true);
   (* fold.go:658-674 *) ([311; 409; 489; 670; 7556; 7729; 7731; 7733; 9434; 11370; 42817; 42819;
   42821; 65355], [107], true);
   (* fold.go:675-680 *) ([9382], [40; 107; 41], true);
   (* fold.go:681-702 *) ([313; 315; 317; 319; 321; 573; 671; 7436; 7734; 7736; 7738; 7740;
   9409; 11360; 11362; 42822; 42824; 42880; 65324], [76], true);
   (* fold.go:703-726 *) ([314; 316; 318; 320; 322; 410; 564; 619; 620; 621; 7557; 7735;
   7737; 7739; 7741; 9435; 11361; 42823; 42825; 42881; 65356], [108], true);
   (* fold.go:727-731 *) ([455], [76; 74], true);
   (* fold.go:732-736 *) ([7930], [76; 76], true);
   (* fold.go:737-741 *) ([456], [76; 106], true);
   (* fold.go:742-747 *) ([9383], [40; 108; 41], true);
   (* fold.go:748-752 *) ([457], [108; 106], true);
   (* fold.go:753-757 *) ([7931], [108; 108], true);
   (* fold.go:758-762 *) ([682], [108; 115], true);
   (* fold.go:763-767 *) ([683], [108; 122], true);
   (* fold.go:768-780 *) ([412; 7437; 7742; 7744; 7746; 9410; 11374; 43005; 43007; 65325], [77], true);
   (* fold.go:781-793 *) ([623; 624; 625; 7535; 7558; 7743; 7745; 7747; 9436; 65357], [109], true);
   (* fold.go:794-799 *) ([9384], [40; 109; 41], true);
   (* fold.go:800-818 *) ([209; 323; 325; 327; 330; 413; 504; 544; 628; 7438; 7748; 7750;
   7752; 7754; 9411; 65326], [78], true);
   (* fold.go:819-841 *) ([241; 324; 326; 328; 329; 331; 414; 505; 565; 626; 627; 7536;
   7559; 7749; 7751; 7753; 7755; 8319; 9437; 65358], [110], true);
   (* fold.go:842-846 *) ([458], [78; 74], true);
   (* fold.go:847-851 *) ([459], [78; 106], true);
   (* fold.go:852-857 *) ([9385], [40; 110; 41], true);
   (* fold.go:858-862 *) ([460], [110; 106], true);
   (* fold.go:863-909 *) ([210; 211; 212; 213; 214; 216; 332; 334; 336; 390; 415; 416;
   465; 490; 492; 510; 524; 526; 554; 556; 558; 560; 7439; 7440;
   7756; 7758; 7760; 7762; 7884; 7886; 7888; 7890; 7892; 7894; 7896; 7898;
   7900; 7902; 7904; 7906; 9412; 42826; 42828; 65327], [79], true);
   (* fold.go:910-959 *) ([242; 243; 244; 245; 246; 248; 333; 335; 337; 417; 466; 491;
   493; 511; 525; 527; 555; 557; 559; 561; 596; 629; 7446; 7447;
   7575; 7757; 7759; 7761; 7763; 7885; 7887; 7889; 7891; 7893; 7895; 7897;
   7899; 7901; 7903; 7905; 7907; 8338; 9438; 11386; 42827; 42829; 65359], [111], true);
   (* fold.go:960-965 *) ([338; 630], [79; 69], true);
   (* fold.go:966-970 *) ([42830], [79; 79], true);
   (* fold.go:971-976 *) ([546; 7445], [79; 85], true);
   (* fold.go:977-982 *) ([9386], [40; 111; 41], true);
   (* fold.go:983-988 *) ([339; 7444], [111; 101], true);
   (* fold.go:989-993 *) ([42831], [111; 111], true);
   (* fold.go:994-998 *) ([547], [111; 117], true);
   (* fold.go:999-1011 *) ([420; 7448; 7764; 7766; 9413; 11363; 42832; 42834; 42836; 65328], [80], true);
   (* fold.go:1012-1026 *) ([421; 7537; 7549; 7560; 7765; 7767; 9439; 42833; 42835; 42837; 43004; 65360], [112], true);
   (* fold.go:1027-1032 *) ([9387], [40; 112; 41], true);
   (* fold.go:1033-1040 *) ([586; 9414; 42838; 42840; 65329], [81], true);
   (* fold.go:1041-1050 *) ([312; 587; 672; 9440; 42839; 42841; 65361], [113], true);
   (* fold.go:1051-1056 *) ([9388], [40; 113; 41], true);
   (* fold.go:1057-1061 *) ([569], [113; 112], true);
   (* fold.go:1062-1083 *) ([340; 342; 344; 528; 530; 588; 640; 641; 7449; 7450; 7768; 7770;
   7772; 7774; 9415; 11364; 42842; 42882; 65330], [82], true);
   (* fold.go:1084-1108 *) ([341; 343; 345; 529; 531; 589; 636; 637; 638; 639; 7523; 7538;
   7539; 7561; 7769; 7771; 7773; 7775; 9441; 42843; 42883; 65362], [114], true);
   (* fold.go:1109-1114 *) ([9389], [40; 114; 41], true);
   (* fold.go:1115-1131 *) ([346; 348; 350; 352; 536; 7776; 7778; 7780; 7782; 7784; 9416; 42801;
   42885; 65331], [83], true);
   (* fold.go:1132-1154 *) ([347; 349; 351; 353; 383; 537; 575; 642; 7540; 7562; 7777; 7779;
   7781; 7783; 7785; 7836; 7837; 9442; 42884; 65363], [115], true);
   (* fold.go:1155-1159 *) ([7838], [83; 83], true);
   (* fold.go:1160-1165 *) ([9390], [40; 115; 41], true);
   (* fold.go:1166-1170 *) ([223], [115; 115], true);
   (* fold.go:1171-1175 *) ([64262], [115; 116], true);
   (* fold.go:1176-1193 *) ([354; 356; 358; 428; 430; 538; 574; 7451; 7786; 7788; 7790; 7792;
   9417; 42886; 65332], [84], true);
   (* fold.go:1194-1214 *) ([355; 357; 359; 427; 429; 539; 566; 647; 648; 7541; 7787; 7789;
   7791; 7793; 7831; 9443; 11366; 65364], [116], true);
   (* fold.go:1215-1220 *) ([222; 42854], [84; 72], true);
   (* fold.go:1221-1225 *) ([42792], [84; 90], true);
   (* fold.go:1226-1231 *) ([9391], [40; 116; 41], true);
   (* fold.go:1232-1236 *) ([680], [116; 114], true);
   (* fold.go:1237-1243 *) ([254; 7546; 42855], [116; 104], true);
   (* fold.go:1244-1248 *) ([678], [116; 115], true);
   (* fold.go:1249-1253 *) ([42793], [116; 122], true);
   (* fold.go:1254-1291 *) ([217; 218; 219; 220; 360; 362; 364; 366; 368; 370; 431; 467;
   469; 471; 473; 475; 532; 534; 580; 7452; 7550; 7794; 7796; 7798;
   7800; 7802; 7908; 7910; 7912; 7914; 7916; 7918; 7920; 9418; 65333], [85], true);
   (* fold.go:1292-1329 *) ([249; 250; 251; 252; 361; 363; 365; 367; 369; 371; 432; 468;
   470; 472; 474; 476; 533; 535; 649; 7524; 7577; 7795; 7797; 7799;
   7801; 7803; 7909; 7911; 7913; 7915; 7917; 7919; 7921; 9444; 65365], [117], true);
   (* fold.go:1330-1335 *) ([9392], [40; 117; 41], true);
   (* fold.go:1336-1340 *) ([7531], [117; 101], true);
   (* fold.go:1341-1353 *) ([434; 581; 7456; 7804; 7806; 7932; 9419; 42846; 42856; 65334], [86], true);
   (* fold.go:1354-1367 *) ([651; 652; 7525; 7564; 7805; 7807; 9445; 11377; 11380; 42847; 65366], [118], true);
   (* fold.go:1368-1372 *) ([42848], [86; 89], true);
   (* fold.go:1373-1378 *) ([9393], [40; 118; 41], true);
   (* fold.go:1379-1383 *) ([42849], [118; 121], true);
   (* fold.go:1384-1397 *) ([372; 503; 7457; 7808; 7810; 7812; 7814; 7816; 9420; 11378; 65335], [87], true);
   (* fold.go:1398-1412 *) ([373; 447; 653; 7809; 7811; 7813; 7815; 7817; 7832; 9446; 11379; 65367], [119], true);
   (* fold.go:1413-1418 *) ([9394], [40; 119; 41], true);
   (* fold.go:1419-1425 *) ([7818; 7820; 9421; 65336], [88], true);
   (* fold.go:1426-1434 *) ([7565; 7819; 7821; 8339; 9447; 65368], [120], true);
   (* fold.go:1435-1440 *) ([9395], [40; 120; 41], true);
   (* fold.go:1441-1458 *) ([221; 374; 376; 435; 562; 590; 655; 7822; 7922; 7924; 7926; 7928;
   7934; 9422; 65337], [89], true);
   (* fold.go:1459-1477 *) ([253; 255; 375; 436; 563; 591; 654; 7823; 7833; 7923; 7925; 7927;
   7929; 7935; 9448; 65369], [121], true);
   (* fold.go:1478-1483 *) ([9396], [40; 121; 41], true);
   (* fold.go:1484-1500 *) ([377; 379; 381; 437; 540; 548; 7458; 7824; 7826; 7828; 9423; 11371;
   42850; 65338], [90], true);
   (* fold.go:1501-1521 *) ([378; 380; 382; 438; 541; 549; 576; 656; 657; 7542; 7566; 7825;
   7827; 7829; 9449; 11372; 42851; 65370], [122], true);
   (* fold.go:1522-1527 *) ([9397], [40; 122; 41], true);
   (* fold.go:1528-1535 *) ([8304; 8320; 9450; 9471; 65296], [48], true);
   (* fold.go:1536-1546 *) ([185; 8321; 9312; 9461; 10102; 10112; 10122; 65297], [49], true);
   (* fold.go:1547-1551 *) ([9352], [49; 46], true);
   (* fold.go:1552-1557 *) ([9332], [40; 49; 41], true);
   (* fold.go:1558-1568 *) ([178; 8322; 9313; 9462; 10103; 10113; 10123; 65298], [50], true);
   (* fold.go:1569-1573 *) ([9353], [50; 46], true);
   (* fold.go:1574-1579 *) ([9333], [40; 50; 41], true);
   (* fold.go:1580-1590 *) ([179; 8323; 9314; 9463; 10104; 10114; 10124; 65299], [51], true);
   (* fold.go:1591-1595 *) ([9354], [51; 46], true);
   (* fold.go:1596-1601 *) ([9334], [40; 51; 41], true);
   (* fold.go:1602-1612 *) ([8308; 8324; 9315; 9464; 10105; 10115; 10125; 65300], [52], true);
   (* fold.go:1613-1617 *) ([9355], [52; 46], true);
   (* fold.go:1618-1623 *) ([9335], [40; 52; 41], true);
   (* fold.go:1624-1634 *) ([8309; 8325; 9316; 9465; 10106; 10116; 10126; 65301], [53], true);
   (* fold.go:1635-1639 *) ([9356], [53; 46], true);
   (* fold.go:1640-1645 *) ([9336], [40; 53; 41], true);
   (* fold.go:1646-1656 *) ([8310; 8326; 9317; 9466; 10107; 10117; 10127; 65302], [54], true);
   (* fold.go:1657-1661 *) ([9357], [54; 46], true);
   (* fold.go:1662-1667 *) ([9337], [40; 54; 41], true);
   (* fold.go:1668-1678 *) ([8311; 8327; 9318; 9467; 10108; 10118; 10128; 65303], [55], true);
   (* fold.go:1679-1683 *) ([9358], [55; 46], true);
   (* fold.go:1684-1689 *) ([9338], [40; 55; 41], true);
   (* fold.go:1690-1700 *) ([8312; 8328; 9319; 9468; 10109; 10119; 10129; 65304], [56], true);
   (* fold.go:1701-1705 *) ([9359], [56; 46], true);
   (* fold.go:1706-1711 *) ([9339], [40; 56; 41], true);
   (* fold.go:1712-1722 *) ([8313; 8329; 9320; 9469; 10110; 10120; 10130; 65305], [57], true);
   (* fold.go:1723-1727 *) ([9360], [57; 46], true);
   (* fold.go:1728-1733 *) ([9340], [40; 57; 41], true);
   (* fold.go:1734-1742 *) ([9321; 9470; 10111; 10121; 10131], [49; 48], true);
   (* fold.go:1743-1748 *) ([9361], [49; 48; 46], true);
   (* fold.go:1749-1755 *) ([9341], [40; 49; 48; 41], true);
   (* fold.go:1756-1761 *) ([9322; 9451], [49; 49], true);
   (* fold.go:1762-1767 *) ([9362], [49; 49; 46], true);
   (* fold.go:1768-1774 *) ([9342], [40; 49; 49; 41], true);
   (* fold.go:1775-1780 *) ([9323; 9452], [49; 50], true);
   (* fold.go:1781-1786 *) ([9363], [49; 50; 46], true);
   (* fold.go:1787-1793 *) ([9343], [40; 49; 50; 41], true);
   (* fold.go:1794-1799 *) ([9324; 9453], [49; 51], true);
   (* fold.go:1800-1805 *) ([9364], [49; 51; 46], true);
   (* fold.go:1806-1812 *) ([9344], [40; 49; 51; 41], true);
   (* fold.go:1813-1818 *) ([9325; 9454], [49; 52], true);
   (* fold.go:1819-1824 *) ([9365], [49; 52; 46], true);
   (* fold.go:1825-1831 *) ([9345], [40; 49; 52; 41], true);
   (* fold.go:1832-1837 *) ([9326; 9455], [49; 53], true);
   (* fold.go:1838-1843 *) ([9366], [49; 53; 46], true);
   (* fold.go:1844-1850 *) ([9346], [40; 49; 53; 41], true);
   (* fold.go:1851-1856 *) ([9327; 9456], [49; 54], true);
   (* fold.go:1857-1862 *) ([9367], [49; 54; 46], true);
   (* fold.go:1863-1869 *) ([9347], [40; 49; 54; 41], true);
   (* fold.go:1870-1875 *) ([9328; 9457], [49; 55], true);
   (* fold.go:1876-1881 *) ([9368], [49; 55; 46], true);
   (* fold.go:1882-1888 *) ([9348], [40; 49; 55; 41], true);
   (* fold.go:1889-1894 *) ([9329; 9458], [49; 56], true);
   (* fold.go:1895-1900 *) ([9369], [49; 56; 46], true);
   (* fold.go:1901-1907 *) ([9349], [40; 49; 56; 41], true);
   (* fold.go:1908-1913 *) ([9330; 9459], [49; 57], true);
   (* fold.go:1914-1919 *) ([9370], [49; 57; 46], true);
   (* fold.go:1920-1926 *) ([9350], [40; 49; 57; 41], true);
   (* fold.go:1927-1932 *) ([9331; 9460], [50; 48], true);
   (* fold.go:1933-1938 *) ([9371], [50; 48; 46], true);
   (* fold.go:1939-1945 *) ([9351], [40; 50; 48; 41], true);
   (* fold.go:1946-1960 *) ([171; 187; 8220; 8221; 8222; 8243; 8246; 10077; 10078; 10094; 10095; 65282], [34], true);
   (* fold.go:1961-1974 *) ([8216; 8217; 8218; 8219; 8242; 8245; 8249; 8250; 10075; 10076; 65287], [39], true);
   (* fold.go:1975-1985 *) ([8208; 8209; 8210; 8211; 8212; 8315; 8331; 65293], [45], true);
   (* fold.go:1986-1991 *) ([8261; 10098; 65339], [91], true);
   (* fold.go:1992-1997 *) ([8262; 10099; 65341], [93], true);
   (* fold.go:1998-2005 *) ([8317; 8333; 10088; 10090; 65288], [40], true);
   (* fold.go:2006-2010 *) ([11816], [40; 40], true);
   (* fold.go:2011-2018 *) ([8318; 8334; 10089; 10091; 65289], [41], true);
   (* fold.go:2019-2023 *) ([11817], [41; 41], true);
   (* fold.go:2024-2029 *) ([10092; 10096; 65308], [60], true);
   (* fold.go:2030-2035 *) ([10093; 10097; 65310], [62], true);
   (* fold.go:2036-2040 *) ([10100; 65371], [123], true);
   (* fold.go:2041-2045 *) ([10101; 65373], [125], true);
   (* fold.go:2046-2051 *) ([8314; 8330; 65291], [43], true);
   (* fold.go:2052-2057 *) ([8316; 8332; 65309], [61], true);
   (* fold.go:2058-2061 *) ([65281], [33], true);
   (* fold.go:2062-2066 *) ([8252], [33; 33], true);
   (* fold.go:2067-2071 *) ([8265], [33; 63], true);
   (* fold.go:2072-2075 *) ([65283], [35], true);
   (* fold.go:2076-2079 *) ([65284], [36], true);
   (* fold.go:2080-2084 *) ([8274; 65285], [37], true);
   (* fold.go:2085-2088 *) ([65286], [38], true);
   (* fold.go:2089-2093 *) ([8270; 65290], [42], true);
   (* fold.go:2094-2097 *) ([65292], [44], true);
   (* fold.go:2098-2101 *) ([65294], [46], true);
   (* fold.go:2102-2106 *) ([8260; 65295], [47], true);
   (* fold.go:2107-2110 *) ([65306], [58], true);
   (* fold.go:2111-2115 *) ([8271; 65307], [59], true);
   (* fold.go:2116-2119 *) ([65311], [63], true);
   (* fold.go:2120-2124 *) ([8263], [63; 63], true);
   (* fold.go:2125-2129 *) ([8264], [63; 33], true);
   (* fold.go:2130-2133 *) ([65312], [64], true);
   (* fold.go:2134-2137 *) ([65340], [92], true);
   (* fold.go:2138-2142 *) ([8248; 65342], [94], true);
   (* fold.go:2143-2146 *) ([65343], [95], true);
   (* fold.go:2147-2150 *) ([8275; 65374], [126], false)].
