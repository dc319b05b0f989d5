(** * UpperTable: capital letters. GENERATED by tools/gen_upper.pl from the Unicode database of perl (Unicode 15.0.0). *)

From Coq Require Import ZArith.
From Verif Require Import Base.
Local Open Scope N_scope.

(** Simple upper-case mapping: (lo, hi, stride, delta); cf. [UnicodeData.lower_runs]. *)
Definition upper_runs : list (N * N * N * Z) :=
  [ (97,122,1,(-32)%Z); (181,181,1,(743)%Z); (224,246,1,(-32)%Z); (248,254,1,(-32)%Z); (255,255,1,(121)%Z); (257,303,2,(-1)%Z);
    (305,305,1,(-232)%Z); (307,311,2,(-1)%Z); (314,328,2,(-1)%Z); (331,375,2,(-1)%Z); (378,382,2,(-1)%Z); (383,383,1,(-300)%Z);
    (384,384,1,(195)%Z); (387,389,2,(-1)%Z); (392,392,1,(-1)%Z); (396,396,1,(-1)%Z); (402,402,1,(-1)%Z); (405,405,1,(97)%Z);
    (409,409,1,(-1)%Z); (410,410,1,(163)%Z); (414,414,1,(130)%Z); (417,421,2,(-1)%Z); (424,424,1,(-1)%Z); (429,429,1,(-1)%Z);
    (432,432,1,(-1)%Z); (436,438,2,(-1)%Z); (441,441,1,(-1)%Z); (445,445,1,(-1)%Z); (447,447,1,(56)%Z); (453,453,1,(-1)%Z);
    (454,454,1,(-2)%Z); (456,456,1,(-1)%Z); (457,457,1,(-2)%Z); (459,459,1,(-1)%Z); (460,460,1,(-2)%Z); (462,476,2,(-1)%Z);
    (477,477,1,(-79)%Z); (479,495,2,(-1)%Z); (498,498,1,(-1)%Z); (499,499,1,(-2)%Z); (501,501,1,(-1)%Z); (505,543,2,(-1)%Z);
    (547,563,2,(-1)%Z); (572,572,1,(-1)%Z); (575,576,1,(10815)%Z); (578,578,1,(-1)%Z); (583,591,2,(-1)%Z); (592,592,1,(10783)%Z);
    (593,593,1,(10780)%Z); (594,594,1,(10782)%Z); (595,595,1,(-210)%Z); (596,596,1,(-206)%Z); (598,599,1,(-205)%Z); (601,601,1,(-202)%Z);
    (603,603,1,(-203)%Z); (604,604,1,(42319)%Z); (608,608,1,(-205)%Z); (609,609,1,(42315)%Z); (611,611,1,(-207)%Z); (613,613,1,(42280)%Z);
    (614,614,1,(42308)%Z); (616,616,1,(-209)%Z); (617,617,1,(-211)%Z); (618,618,1,(42308)%Z); (619,619,1,(10743)%Z); (620,620,1,(42305)%Z);
    (623,623,1,(-211)%Z); (625,625,1,(10749)%Z); (626,626,1,(-213)%Z); (629,629,1,(-214)%Z); (637,637,1,(10727)%Z); (640,640,1,(-218)%Z);
    (642,642,1,(42307)%Z); (643,643,1,(-218)%Z); (647,647,1,(42282)%Z); (648,648,1,(-218)%Z); (649,649,1,(-69)%Z); (650,651,1,(-217)%Z);
    (652,652,1,(-71)%Z); (658,658,1,(-219)%Z); (669,669,1,(42261)%Z); (670,670,1,(42258)%Z); (837,837,1,(84)%Z); (881,883,2,(-1)%Z);
    (887,887,1,(-1)%Z); (891,893,1,(130)%Z); (940,940,1,(-38)%Z); (941,943,1,(-37)%Z); (945,961,1,(-32)%Z); (962,962,1,(-31)%Z);
    (963,971,1,(-32)%Z); (972,972,1,(-64)%Z); (973,974,1,(-63)%Z); (976,976,1,(-62)%Z); (977,977,1,(-57)%Z); (981,981,1,(-47)%Z);
    (982,982,1,(-54)%Z); (983,983,1,(-8)%Z); (985,1007,2,(-1)%Z); (1008,1008,1,(-86)%Z); (1009,1009,1,(-80)%Z); (1010,1010,1,(7)%Z);
    (1011,1011,1,(-116)%Z); (1013,1013,1,(-96)%Z); (1016,1016,1,(-1)%Z); (1019,1019,1,(-1)%Z); (1072,1103,1,(-32)%Z); (1104,1119,1,(-80)%Z);
    (1121,1153,2,(-1)%Z); (1163,1215,2,(-1)%Z); (1218,1230,2,(-1)%Z); (1231,1231,1,(-15)%Z); (1233,1327,2,(-1)%Z); (1377,1414,1,(-48)%Z);
    (4304,4346,1,(3008)%Z); (4349,4351,1,(3008)%Z); (5112,5117,1,(-8)%Z); (7296,7296,1,(-6254)%Z); (7297,7297,1,(-6253)%Z); (7298,7298,1,(-6244)%Z);
    (7299,7300,1,(-6242)%Z); (7301,7301,1,(-6243)%Z); (7302,7302,1,(-6236)%Z); (7303,7303,1,(-6181)%Z); (7304,7304,1,(35266)%Z); (7545,7545,1,(35332)%Z);
    (7549,7549,1,(3814)%Z); (7566,7566,1,(35384)%Z); (7681,7829,2,(-1)%Z); (7835,7835,1,(-59)%Z); (7841,7935,2,(-1)%Z); (7936,7943,1,(8)%Z);
    (7952,7957,1,(8)%Z); (7968,7975,1,(8)%Z); (7984,7991,1,(8)%Z); (8000,8005,1,(8)%Z); (8017,8023,2,(8)%Z); (8032,8039,1,(8)%Z);
    (8048,8049,1,(74)%Z); (8050,8053,1,(86)%Z); (8054,8055,1,(100)%Z); (8056,8057,1,(128)%Z); (8058,8059,1,(112)%Z); (8060,8061,1,(126)%Z);
    (8064,8071,1,(8)%Z); (8080,8087,1,(8)%Z); (8096,8103,1,(8)%Z); (8112,8113,1,(8)%Z); (8115,8115,1,(9)%Z); (8126,8126,1,(-7205)%Z);
    (8131,8131,1,(9)%Z); (8144,8145,1,(8)%Z); (8160,8161,1,(8)%Z); (8165,8165,1,(7)%Z); (8179,8179,1,(9)%Z); (8526,8526,1,(-28)%Z);
    (8560,8575,1,(-16)%Z); (8580,8580,1,(-1)%Z); (9424,9449,1,(-26)%Z); (11312,11359,1,(-48)%Z); (11361,11361,1,(-1)%Z); (11365,11365,1,(-10795)%Z);
    (11366,11366,1,(-10792)%Z); (11368,11372,2,(-1)%Z); (11379,11379,1,(-1)%Z); (11382,11382,1,(-1)%Z); (11393,11491,2,(-1)%Z); (11500,11502,2,(-1)%Z);
    (11507,11507,1,(-1)%Z); (11520,11557,1,(-7264)%Z); (11559,11559,1,(-7264)%Z); (11565,11565,1,(-7264)%Z); (42561,42605,2,(-1)%Z); (42625,42651,2,(-1)%Z);
    (42787,42799,2,(-1)%Z); (42803,42863,2,(-1)%Z); (42874,42876,2,(-1)%Z); (42879,42887,2,(-1)%Z); (42892,42892,1,(-1)%Z); (42897,42899,2,(-1)%Z);
    (42900,42900,1,(48)%Z); (42903,42921,2,(-1)%Z); (42933,42947,2,(-1)%Z); (42952,42954,2,(-1)%Z); (42961,42961,1,(-1)%Z); (42967,42969,2,(-1)%Z);
    (42998,42998,1,(-1)%Z); (43859,43859,1,(-928)%Z); (43888,43967,1,(-38864)%Z); (65345,65370,1,(-32)%Z); (66600,66639,1,(-40)%Z); (66776,66811,1,(-40)%Z);
    (66967,66977,1,(-39)%Z); (66979,66993,1,(-39)%Z); (66995,67001,1,(-39)%Z); (67003,67004,1,(-39)%Z); (68800,68850,1,(-64)%Z); (71872,71903,1,(-32)%Z);
    (93792,93823,1,(-32)%Z); (125218,125251,1,(-34)%Z)].
