(** * Constants of the unit tests of the repository

    Generated by tools/genvectors.py from the test modules of /repo; every literal is copied
    from the source text.  Each definition cites the lines it is copied from. *)
From Coq Require Import ZArith List.
From Verif Require Import Machine FieldModel ScalarModel EdwardsModel.
Import ListNotations.
Local Open Scope Z_scope.

(** src/backend/u64/field.rs 946-946, `A`. *)
Definition tf_A : fe := FE 0 0 0 2 0.

(** src/backend/u64/field.rs 949-955, `A_SQUARE`. *)
Definition tf_A_SQUARE : fe := FE 671914833335277 423018350096769 2042999080933985 4503598226741381 17592186044415.

(** src/backend/u64/field.rs 958-964, `MINUS_A`. *)
Definition tf_MINUS_A : fe := FE 671914833335277 3916664325105025 1367801 4503599627370494 17592186044415.

(** src/backend/u64/field.rs 967-973, `INV_MONT_A`. *)
Definition tf_INV_MONT_A : fe := FE 2317332620045262 1576144597389635 2025859686448975 2756776639866422 1152749206963.

(** src/backend/u64/field.rs 976-982, `INV_MOD_A`. *)
Definition tf_INV_MOD_A : fe := FE 1289905446467013 1277206401232501 2632844239031511 61125669693438 17393375336657.

(** src/backend/u64/field.rs 985-991, `B`. *)
Definition tf_B : fe := FE 2766226127823335 4237835465749098 4503599626623787 4503599627370493 2199023255551.

(** src/backend/u64/field.rs 994-1000, `B_SQUARE`. *)
Definition tf_B_SQUARE : fe := FE 3966658334128832 2102453619223755 4260110256982373 4297171677577933 14791771789536.

(** src/backend/u64/field.rs 1003-1009, `MINUS_B`. *)
Definition tf_MINUS_B : fe := FE 2409288332882438 4182428486726422 2114509 2 15393162788864.

(** src/backend/u64/field.rs 1012-1018, `INV_MOD_B`. *)
Definition tf_INV_MOD_B : fe := FE 3843051553829520 3394345223148522 3244765182786547 3746084408926180 12088264794607.

(** src/backend/u64/field.rs 1021-1021, `C`. *)
Definition tf_C : fe := FE 2009874587549 0 0 0 0.

(** src/backend/u64/field.rs 1024-1030, `INV_MOD_C`. *)
Definition tf_INV_MOD_C : fe := FE 623443786605621 2862023947424023 16740108872882 4368084563887202 16954962737206.

(** src/backend/u64/field.rs 1033-1039, `A_PLUS_B`. *)
Definition tf_A_PLUS_B : fe := FE 2766226127823335 4237835465749098 4503599626623787 4503599627370495 2199023255551.

(** src/backend/u64/field.rs 1042-1048, `A_MINUS_B`. *)
Definition tf_A_MINUS_B : fe := FE 2409288332882438 4182428486726422 2114509 4 15393162788864.

(** src/backend/u64/field.rs 1051-1057, `A_MINUS_B_HALF`. *)
Definition tf_A_MINUS_B_HALF : fe := FE 1204644166441219 4343014057048459 1057254 2 7696581394432.

(** src/backend/u64/field.rs 1060-1066, `B_MINUS_A`. *)
Definition tf_B_MINUS_A : fe := FE 2766226127823335 4237835465749098 4503599626623787 4503599627370491 2199023255551.

(** src/backend/u64/field.rs 1069-1075, `A_TIMES_B`. *)
Definition tf_A_TIMES_B : fe := FE 2201910185007838 1263014888683320 1977367609994094 4238575041099341 2233595300724.

(** src/backend/u64/field.rs 1078-1078, `A_TIMES_C`. *)
Definition tf_A_TIMES_C : fe := FE 0 0 0 4019749175098 0.

(** src/backend/u64/field.rs 1081-1087, `A_POW_C`. *)
Definition tf_A_POW_C : fe := FE 2259014482295528 2217393058433059 1440043558784742 1085733660253890 11974469306680.

(** src/backend/u64/field.rs 1090-1096, `A_POW_B`. *)
Definition tf_A_POW_B : fe := FE 2052637523230194 348932787374078 3510905667454299 1125398793242937 1488986957289.

(** src/backend/u64/field.rs 1099-1099, `TWO_POW_197`. *)
Definition tf_TWO_POW_197 : fe := FE 0 0 0 2199023255552 0.

(** src/backend/u64/field.rs 1102-1102, `TWO_POW_252`. *)
Definition tf_TWO_POW_252 : fe := FE 0 0 0 0 17592186044416.

(** src/backend/u64/field.rs 1105-1105, `TWO_POW_104`. *)
Definition tf_TWO_POW_104 : fe := FE 0 0 1 0 0.

(** src/backend/u64/field.rs 1108-1114, `SQRT1_27_NEG`. *)
Definition tf_SQRT1_27_NEG : fe := FE 933733106825591 3470287880816342 2891894702196915 3836949834964192 14650685232542.

(** src/backend/u64/field.rs 1117-1123, `SQRT1_27_POS`. *)
Definition tf_SQRT1_27_POS : fe := FE 4241781353880182 446376444288682 1611704926541382 666649792406303 2941500811873.

(** src/backend/u64/field.rs 1126-1132, `INV_SQRT_27`. *)
Definition tf_INV_SQRT_27 : fe := FE 2352169988867884 2446401460527425 986927416739735 989222758354178 11393383279360.

(** src/backend/u64/field.rs 940-943, `MINUS_ONE_BYTES`. *)
Definition tf_MINUS_ONE_BYTES : list Z :=
  [236; 211; 245; 92; 26; 99; 18; 88; 214; 156; 247; 162; 222; 249; 222; 20; 0; 0; 0; 0; 0;
   0; 0; 0; 0; 0; 0; 0; 0; 0; 0; 16].

(** src/backend/u64/scalar.rs 682-682, `A`. *)
Definition ts_A : sc := SC 0 0 0 2 0.

(** src/backend/u64/scalar.rs 685-691, `B`. *)
Definition ts_B : sc := SC 2766226127823335 4237835465749098 4503599626623787 4503599627370493 2199023255551.

(** src/backend/u64/scalar.rs 694-694, `AB`. *)
Definition ts_AB : sc := SC 2867050651854460 1629308859434048 1461147 4 0.

(** src/backend/u64/scalar.rs 697-703, `BA`. *)
Definition ts_BA : sc := SC 2766226127823335 4237835465749098 4503599626623787 4503599627370491 2199023255551.

(** src/backend/u64/scalar.rs 706-712, `A_POW_B`. *)
Definition ts_A_POW_B : sc := SC 2191545792217572 448661815025744 1377760471467833 2830870192895755 435342682203.

(** src/backend/u64/scalar.rs 715-721, `A_MONT`. *)
Definition ts_A_MONT : sc := SC 690508070349896 1499135165000273 3323154938341339 2542801086174134 182210350076.

(** src/backend/u64/scalar.rs 724-730, `X`. *)
Definition ts_X : sc := SC 4503599627370495 4503599627370495 4503599627370495 4503599627370495 4398046511103.

(** src/backend/u64/scalar.rs 733-739, `Y`. *)
Definition ts_Y : sc := SC 138340288859536 461913478537005 1182880083788836 1688835920473363 1743782656037.

(** src/backend/u64/scalar.rs 742-748, `Y_SQ`. *)
Definition ts_Y_SQ : sc := SC 3511508334592158 913859277470939 3383393792942685 3918279098243301 1168230887094.

(** src/backend/u64/scalar.rs 751-757, `Y_HALF`. *)
Definition ts_Y_HALF : sc := SC 2320969958115016 230956739268502 2843239855579666 3096217773921929 871891328018.

(** src/backend/u64/scalar.rs 760-766, `Y_MONT`. *)
Definition ts_Y_MONT : sc := SC 2880674519323206 1234984943133080 2849728124521957 4421863362992372 441429835402.

(** src/backend/u64/scalar.rs 769-775, `X_TIMES_Y_MONT`. *)
Definition ts_X_TIMES_Y_MONT : sc := SC 228255815821095 3571367814561020 2885104738833919 415982367220597 959709905966.

(** src/backend/u64/scalar.rs 778-784, `X_TIMES_Y`. *)
Definition ts_X_TIMES_Y : sc := SC 3955754814270951 1675310998682037 4396625830536378 1174212537684658 176498809098.

(** src/backend/u64/field.rs 1381-1385, the argument of `from_canonical_bytes`. *)
Definition tf_dalek_bytes : list Z :=
  [78; 90; 180; 52; 93; 71; 8; 132; 89; 19; 180; 100; 27; 194; 125; 82; 82; 165; 133; 16;
   27; 204; 66; 68; 212; 73; 244; 168; 121; 217; 242; 4].

(** src/backend/u64/scalar.rs 998, `minus_one` of test `into_bits`. *)
Definition ts_minus_one_bits : list Z :=
  [0; 1; 0; 0; 0; 1; 1; 0; 0; 0; 0; 1; 0; 0; 1; 1; 1; 1; 1; 1; 1; 0; 1; 0; 1; 0; 1; 0; 1;
   1; 1; 0; 1; 1; 1; 1; 0; 1; 1; 0; 1; 1; 0; 0; 0; 0; 0; 0; 0; 0; 1; 0; 1; 1; 0; 1; 0; 1;
   0; 1; 0; 1; 1; 0; 1; 1; 0; 0; 1; 0; 0; 1; 1; 0; 1; 0; 1; 0; 1; 1; 1; 1; 1; 1; 0; 1; 0;
   0; 0; 1; 0; 0; 0; 0; 0; 1; 1; 0; 1; 1; 0; 0; 1; 0; 1; 1; 1; 0; 0; 0; 1; 1; 0; 1; 1; 0;
   0; 1; 1; 1; 0; 1; 0; 1; 0; 0; 0; 0; 0; 0; 0; 0; 0; 0; 0; 0; 0; 0; 0; 0; 0; 0; 0; 0; 0;
   0; 0; 0; 0; 0; 0; 0; 0; 0; 0; 0; 0; 0; 0; 0; 0; 0; 0; 0; 0; 0; 0; 0; 0; 0; 0; 0; 0; 0;
   0; 0; 0; 0; 0; 0; 0; 0; 0; 0; 0; 0; 0; 0; 0; 0; 0; 0; 0; 0; 0; 0; 0; 0; 0; 0; 0; 0; 0;
   0; 0; 0; 0; 0; 0; 0; 0; 0; 0; 0; 0; 0; 0; 0; 0; 0; 0; 0; 0; 0; 0; 0; 0; 0; 0; 0; 0; 0;
   0; 0; 0; 0; 0; 0; 0; 0; 0; 0; 0; 0; 0; 0; 0; 0; 0; 1; 0; 0; 0; 0; 0; 0].

(** src/backend/u64/scalar.rs 1033, `naf2_scalar`. *)
Definition ts_naf2 : list Z :=
  [(-1); 0; 0; (-1); 0; 0; 0; 0; (-1); 0; 0; (-1); 0; 0; 0; (-1); 0; (-1); 0; 1; 0; (-1);
   0; 0; (-1); 0; 1; 0; 0; 0; 1].

(** src/backend/u64/scalar.rs 1037, `naf3_scalar`. *)
Definition ts_naf3 : list Z :=
  [(-1); 0; 0; (-1); 0; 0; 0; 0; (-1); 0; 0; (-1); 0; 0; 0; 3; 0; 0; 1; 0; 0; (-1); 0; 0;
   3; 0; 0; 0; 0; 0; 1].

(** src/backend/u64/scalar.rs 1041, `naf4_scalar`. *)
Definition ts_naf4 : list Z :=
  [7; 0; 0; 0; (-1); 0; 0; 0; 7; 0; 0; 0; 7; 0; 0; 0; 5; 0; 0; 0; 0; 7; 0; 0; 0; 1; 0; 0;
   0; 0; 1].

(** src/backend/u64/scalar.rs 1045, `naf5_scalar`. *)
Definition ts_naf5 : list Z :=
  [(-9); 0; 0; 0; 0; 0; 0; 0; (-9); 0; 0; 0; 0; 0; 0; 11; 0; 0; 0; 0; 0; (-9); 0; 0; 0; 0;
   (-15); 0; 0; 0; 0; 1].

(** src/backend/u64/scalar.rs 1049, `naf6_scalar`. *)
Definition ts_naf6 : list Z :=
  [(-9); 0; 0; 0; 0; 0; 0; 0; (-9); 0; 0; 0; 0; 0; 0; 11; 0; 0; 0; 0; 0; 23; 0; 0; 0; 0; 0;
   0; 0; 0; 1].

(** src/edwards.rs 1145-1154, `P1_AFFINE`. *)
Definition te_P1_AFFINE : apt :=
  AP (FE 13 0 0 0 0)
     (FE 606320128494542 1597163540666577 1835599237877421 1667478411389512 3232679738299).

(** src/edwards.rs 1156-1165, `P2_AFFINE`. *)
Definition te_P2_AFFINE : apt :=
  AP (FE 67 0 0 0 0)
     (FE 2369245568431362 2665603790611352 3317390952748653 1908583331312524 8011773354506).

(** src/edwards.rs 1167-1184, `P1_EXTENDED`. *)
Definition te_P1_EXTENDED : ept :=
  EP (FE 13 0 0 0 0)
     (FE 606320128494542 1597163540666577 1835599237877421 1667478411389512 3232679738299)
     (FE 1 0 0 0 0)
     (FE 2034732376387996 3922598123714460 1344791952818393 3662820838581677 6840464509059).

(** src/edwards.rs 1186-1203, `P2_EXTENDED`. *)
Definition te_P2_EXTENDED : ept :=
  EP (FE 67 0 0 0 0)
     (FE 2369245568431362 2665603790611352 3317390952748653 1908583331312524 8011773354506)
     (FE 1 0 0 0 0)
     (FE 3474019263728064 2548729061993416 1588812051971430 1774293631565269 9023233419450).

(** src/edwards.rs 1206-1235, `P4_EXTENDED`. *)
Definition te_P4_EXTENDED : ept :=
  EP (FE 28731243678497 3605893500953713 4417389530006141 299092414682919 4656166963268)
     (FE 1108585916087857 594338741746768 1302451816332899 2952667069736952 9685400790709)
     (FE 3678126740275983 2102367182843193 1215780564383894 577880234309233 3967832577760)
     (FE 1187490310723625 475595246262913 1092363334429875 285623496107549 15708045001361).

(** src/edwards.rs 1238-1267, `P3_EXTENDED`. *)
Definition te_P3_EXTENDED : ept :=
  EP (FE 1476979596852032 1246004597497903 209071396735379 2301211094775178 8305779568088)
     (FE 2443441861872082 2091934391169607 4475713698486302 2663476425643860 11068724258563)
     (FE 3359568035147073 1010422717320416 4098443973666364 1207164847672527 9657319892454)
     (FE 4430735055822517 4109982164990701 4066725032805467 1974812232939042 2107656041478).

(** src/edwards.rs 1269-1279, `P1_PROJECTIVE`. *)
Definition te_P1_PROJECTIVE : ppt :=
  PP (FE 13 0 0 0 0)
     (FE 606320128494542 1597163540666577 1835599237877421 1667478411389512 3232679738299)
     (FE 1 0 0 0 0).

(** src/edwards.rs 1281-1291, `P2_PROJECTIVE`. *)
Definition te_P2_PROJECTIVE : ppt :=
  PP (FE 67 0 0 0 0)
     (FE 2369245568431362 2665603790611352 3317390952748653 1908583331312524 8011773354506)
     (FE 1 0 0 0 0).

(** src/edwards.rs 1294-1316, `P4_PROJECTIVE`. *)
Definition te_P4_PROJECTIVE : ppt :=
  PP (FE 28731243678497 3605893500953713 4417389530006141 299092414682919 4656166963268)
     (FE 1108585916087857 594338741746768 1302451816332899 2952667069736952 9685400790709)
     (FE 3678126740275983 2102367182843193 1215780564383894 577880234309233 3967832577760).

(** src/edwards.rs 1319-1341, `P3_PROJECTIVE`. *)
Definition te_P3_PROJECTIVE : ppt :=
  PP (FE 1476979596852032 1246004597497903 209071396735379 2301211094775178 8305779568088)
     (FE 2443441861872082 2091934391169607 4475713698486302 2663476425643860 11068724258563)
     (FE 3359568035147073 1010422717320416 4098443973666364 1207164847672527 9657319892454).

(** src/edwards.rs 1344-1347, `P1_COMPRESSED`. *)
Definition te_P1_COMPRESSED : list Z :=
  [206; 11; 225; 231; 113; 39; 18; 141; 213; 215; 201; 201; 90; 173; 14; 134; 192; 119;
   133; 134; 164; 26; 38; 1; 201; 94; 187; 59; 186; 170; 240; 2].

(** src/edwards.rs 1350-1353, `P2_COMPRESSED`. *)
Definition te_P2_COMPRESSED : list Z :=
  [2; 245; 125; 248; 208; 106; 136; 57; 210; 240; 163; 133; 151; 109; 214; 81; 69; 38; 201;
   203; 56; 203; 247; 138; 125; 108; 10; 162; 231; 98; 73; 7].

(** src/edwards.rs 1551-1554, argument of `from_slice`. *)
Definition te_slice0 : list Z :=
  [206; 11; 225; 231; 113; 39; 18; 141; 213; 215; 201; 201; 90; 173; 14; 134; 192; 119;
   133; 134; 164; 26; 38; 1; 201; 94; 187; 59; 186; 170; 240; 2].

(** src/edwards.rs 1557-1560, argument of `from_slice`. *)
Definition te_slice1 : list Z :=
  [2; 245; 125; 248; 208; 106; 136; 57; 210; 240; 163; 133; 151; 109; 214; 81; 69; 38; 201;
   203; 56; 203; 247; 138; 125; 108; 10; 162; 231; 98; 73; 7].

(** src/edwards.rs 1571-1574, argument of `from_slice`. *)
Definition te_slice2 : list Z :=
  [250; 144; 188; 47; 13; 101; 118; 114; 201; 185; 169; 115; 255; 111; 40; 25; 69; 105;
   170; 255; 113; 65; 120; 126; 170; 192; 48; 109; 112; 20; 221; 149].

(** src/ristretto.rs 546-566, `encodings_of_small_multiples`, each hexadecimal string as its bytes. *)
Definition tr_encodings : list (list Z) := [
  [0; 0; 0; 0; 0; 0; 0; 0; 0; 0; 0; 0; 0; 0; 0; 0; 0; 0; 0; 0; 0; 0; 0; 0; 0; 0; 0; 0; 0;
   0; 0; 0];
  [2; 0; 0; 0; 0; 0; 0; 0; 0; 0; 0; 0; 0; 0; 0; 0; 0; 0; 0; 0; 0; 0; 0; 0; 0; 0; 0; 0; 0;
   0; 0; 0];
  [171; 228; 234; 152; 234; 174; 218; 90; 156; 99; 135; 156; 179; 196; 217; 180; 160; 30;
   211; 26; 195; 131; 172; 239; 215; 237; 73; 134; 30; 26; 128; 2];
  [16; 100; 254; 53; 177; 101; 37; 249; 15; 29; 47; 125; 61; 196; 72; 186; 49; 161; 24;
   241; 54; 197; 62; 237; 136; 194; 233; 81; 241; 131; 41; 7];
  [168; 38; 207; 102; 70; 29; 234; 33; 229; 17; 135; 221; 221; 135; 83; 41; 155; 114; 106;
   125; 66; 23; 203; 117; 117; 138; 239; 191; 90; 45; 79; 1];
  [77; 46; 7; 5; 169; 180; 125; 18; 47; 152; 189; 116; 128; 141; 56; 108; 241; 105; 27;
   197; 64; 122; 247; 3; 221; 12; 72; 8; 3; 139; 127; 7];
  [243; 163; 89; 47; 222; 95; 160; 90; 136; 27; 128; 180; 231; 50; 179; 124; 50; 199; 246;
   132; 165; 190; 51; 205; 184; 183; 189; 175; 83; 219; 111; 4];
  [81; 98; 108; 121; 96; 218; 99; 1; 14; 252; 94; 6; 78; 98; 150; 47; 21; 143; 89; 146;
   137; 20; 252; 16; 130; 87; 236; 38; 83; 116; 94; 1];
  [213; 248; 20; 76; 27; 4; 149; 66; 145; 120; 91; 229; 120; 99; 58; 121; 19; 23; 82; 232;
   42; 251; 153; 11; 212; 162; 91; 65; 203; 212; 144; 1];
  [19; 114; 237; 129; 173; 213; 70; 51; 151; 7; 70; 205; 75; 56; 206; 184; 163; 229; 56;
   185; 22; 40; 138; 195; 215; 192; 223; 189; 84; 164; 43; 6];
  [168; 61; 122; 38; 42; 128; 146; 103; 36; 160; 190; 183; 90; 95; 38; 233; 166; 34; 32;
   94; 106; 100; 115; 14; 20; 206; 100; 196; 178; 172; 247; 4];
  [166; 178; 113; 42; 110; 88; 106; 181; 82; 247; 188; 244; 56; 22; 131; 4; 184; 184; 163;
   243; 178; 133; 42; 6; 174; 24; 62; 99; 3; 64; 101; 3];
  [120; 118; 38; 107; 147; 155; 136; 156; 29; 168; 39; 167; 109; 165; 194; 32; 235; 31;
   249; 52; 71; 45; 53; 222; 96; 201; 228; 195; 82; 143; 204; 6];
  [17; 160; 247; 90; 179; 81; 87; 43; 87; 44; 56; 191; 7; 59; 7; 106; 169; 100; 205; 255;
   112; 213; 58; 215; 88; 129; 116; 218; 226; 114; 147; 6];
  [100; 242; 251; 128; 180; 95; 191; 115; 121; 62; 158; 142; 80; 159; 152; 132; 142; 205;
   180; 82; 201; 140; 131; 197; 92; 92; 49; 251; 35; 61; 153; 7];
  [29; 229; 175; 190; 159; 210; 121; 241; 101; 19; 6; 216; 172; 15; 104; 240; 203; 38; 137;
   96; 156; 207; 232; 219; 22; 54; 249; 72; 26; 51; 226; 5]].

(** src/ristretto.rs 656-659, `y_coord_bytes_8L`. *)
Definition tr_y_8L : list Z :=
  [177; 118; 250; 81; 30; 181; 58; 122; 224; 214; 112; 52; 50; 60; 95; 199; 213; 167; 143;
   108; 154; 218; 242; 27; 175; 111; 152; 152; 213; 211; 157; 15].

(** src/ristretto.rs 683-706, `expected_point`. *)
Definition tr_expected : ept :=
  EP (FE 520984263488427 2866053035698784 356812350072736 1177086814167286 17585355348321)
     (FE 2224110940152212 767723869121786 2519083920383090 3478258567033985 6072297619626)
     (FE 1 0 0 0 0)
     (FE 3761248848988017 3474827148739807 3137090891116602 1521420215868592 8052069914602).

(** src/ristretto.rs 710, `raw_bytes`. *)
Definition tr_raw : list Z :=
  [46; 45; 124; 111; 136; 124; 129; 193; 89; 63; 50; 226; 250; 49; 167; 182; 93; 79; 187;
   243; 143; 138; 179; 4; 94; 173; 34; 252; 69; 116; 50; 25].
