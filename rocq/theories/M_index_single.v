(** Index tables of the single-byte encodings and of the ISO-2022-JP katakana. Copied from lib/whatwg/encoding/indexes_code_point.cpp and indexes_pointer.cpp;
    4294967295 stands for a missing entry. Data only. *)
From Coq Require Import ZArith List.
Import ListNotations.
Open Scope Z_scope.

(** indexes_code_point.cpp:10 *)
Definition index_code_point_ibm866 : list Z := concat [
  [1040; 1041; 1042; 1043; 1044; 1045; 1046; 1047; 1048; 1049; 1050; 1051; 1052; 1053; 1054; 1055];
  [1056; 1057; 1058; 1059; 1060; 1061; 1062; 1063; 1064; 1065; 1066; 1067; 1068; 1069; 1070; 1071];
  [1072; 1073; 1074; 1075; 1076; 1077; 1078; 1079; 1080; 1081; 1082; 1083; 1084; 1085; 1086; 1087];
  [9617; 9618; 9619; 9474; 9508; 9569; 9570; 9558; 9557; 9571; 9553; 9559; 9565; 9564; 9563; 9488];
  [9492; 9524; 9516; 9500; 9472; 9532; 9566; 9567; 9562; 9556; 9577; 9574; 9568; 9552; 9580; 9575];
  [9576; 9572; 9573; 9561; 9560; 9554; 9555; 9579; 9578; 9496; 9484; 9608; 9604; 9612; 9616; 9600];
  [1088; 1089; 1090; 1091; 1092; 1093; 1094; 1095; 1096; 1097; 1098; 1099; 1100; 1101; 1102; 1103];
  [1025; 1105; 1028; 1108; 1031; 1111; 1038; 1118; 176; 8729; 183; 8730; 8470; 164; 9632; 160]].

(** indexes_code_point.cpp:11 *)
Definition index_code_point_iso_2022_jp_katakana : list Z := concat [
  [12290; 12300; 12301; 12289; 12539; 12530; 12449; 12451; 12453; 12455; 12457; 12515; 12517; 12519; 12483; 12540];
  [12450; 12452; 12454; 12456; 12458; 12459; 12461; 12463; 12465; 12467; 12469; 12471; 12473; 12475; 12477; 12479];
  [12481; 12484; 12486; 12488; 12490; 12491; 12492; 12493; 12494; 12495; 12498; 12501; 12504; 12507; 12510; 12511];
  [12512; 12513; 12514; 12516; 12518; 12520; 12521; 12522; 12523; 12524; 12525; 12527; 12531; 12443; 12444]].

(** indexes_code_point.cpp:12 *)
Definition index_code_point_iso_8859_2 : list Z := concat [
  [128; 129; 130; 131; 132; 133; 134; 135; 136; 137; 138; 139; 140; 141; 142; 143];
  [144; 145; 146; 147; 148; 149; 150; 151; 152; 153; 154; 155; 156; 157; 158; 159];
  [160; 260; 728; 321; 164; 317; 346; 167; 168; 352; 350; 356; 377; 173; 381; 379];
  [176; 261; 731; 322; 180; 318; 347; 711; 184; 353; 351; 357; 378; 733; 382; 380];
  [340; 193; 194; 258; 196; 313; 262; 199; 268; 201; 280; 203; 282; 205; 206; 270];
  [272; 323; 327; 211; 212; 336; 214; 215; 344; 366; 218; 368; 220; 221; 354; 223];
  [341; 225; 226; 259; 228; 314; 263; 231; 269; 233; 281; 235; 283; 237; 238; 271];
  [273; 324; 328; 243; 244; 337; 246; 247; 345; 367; 250; 369; 252; 253; 355; 729]].

(** indexes_code_point.cpp:13 *)
Definition index_code_point_iso_8859_3 : list Z := concat [
  [128; 129; 130; 131; 132; 133; 134; 135; 136; 137; 138; 139; 140; 141; 142; 143];
  [144; 145; 146; 147; 148; 149; 150; 151; 152; 153; 154; 155; 156; 157; 158; 159];
  [160; 294; 728; 163; 164; 4294967295; 292; 167; 168; 304; 350; 286; 308; 173; 4294967295; 379];
  [176; 295; 178; 179; 180; 181; 293; 183; 184; 305; 351; 287; 309; 189; 4294967295; 380];
  [192; 193; 194; 4294967295; 196; 266; 264; 199; 200; 201; 202; 203; 204; 205; 206; 207];
  [4294967295; 209; 210; 211; 212; 288; 214; 215; 284; 217; 218; 219; 220; 364; 348; 223];
  [224; 225; 226; 4294967295; 228; 267; 265; 231; 232; 233; 234; 235; 236; 237; 238; 239];
  [4294967295; 241; 242; 243; 244; 289; 246; 247; 285; 249; 250; 251; 252; 365; 349; 729]].

(** indexes_code_point.cpp:14 *)
Definition index_code_point_iso_8859_4 : list Z := concat [
  [128; 129; 130; 131; 132; 133; 134; 135; 136; 137; 138; 139; 140; 141; 142; 143];
  [144; 145; 146; 147; 148; 149; 150; 151; 152; 153; 154; 155; 156; 157; 158; 159];
  [160; 260; 312; 342; 164; 296; 315; 167; 168; 352; 274; 290; 358; 173; 381; 175];
  [176; 261; 731; 343; 180; 297; 316; 711; 184; 353; 275; 291; 359; 330; 382; 331];
  [256; 193; 194; 195; 196; 197; 198; 302; 268; 201; 280; 203; 278; 205; 206; 298];
  [272; 325; 332; 310; 212; 213; 214; 215; 216; 370; 218; 219; 220; 360; 362; 223];
  [257; 225; 226; 227; 228; 229; 230; 303; 269; 233; 281; 235; 279; 237; 238; 299];
  [273; 326; 333; 311; 244; 245; 246; 247; 248; 371; 250; 251; 252; 361; 363; 729]].

(** indexes_code_point.cpp:15 *)
Definition index_code_point_iso_8859_5 : list Z := concat [
  [128; 129; 130; 131; 132; 133; 134; 135; 136; 137; 138; 139; 140; 141; 142; 143];
  [144; 145; 146; 147; 148; 149; 150; 151; 152; 153; 154; 155; 156; 157; 158; 159];
  [160; 1025; 1026; 1027; 1028; 1029; 1030; 1031; 1032; 1033; 1034; 1035; 1036; 173; 1038; 1039];
  [1040; 1041; 1042; 1043; 1044; 1045; 1046; 1047; 1048; 1049; 1050; 1051; 1052; 1053; 1054; 1055];
  [1056; 1057; 1058; 1059; 1060; 1061; 1062; 1063; 1064; 1065; 1066; 1067; 1068; 1069; 1070; 1071];
  [1072; 1073; 1074; 1075; 1076; 1077; 1078; 1079; 1080; 1081; 1082; 1083; 1084; 1085; 1086; 1087];
  [1088; 1089; 1090; 1091; 1092; 1093; 1094; 1095; 1096; 1097; 1098; 1099; 1100; 1101; 1102; 1103];
  [8470; 1105; 1106; 1107; 1108; 1109; 1110; 1111; 1112; 1113; 1114; 1115; 1116; 167; 1118; 1119]].

(** indexes_code_point.cpp:16 *)
Definition index_code_point_iso_8859_6 : list Z := concat [
  [128; 129; 130; 131; 132; 133; 134; 135; 136; 137; 138; 139; 140; 141; 142; 143];
  [144; 145; 146; 147; 148; 149; 150; 151; 152; 153; 154; 155; 156; 157; 158; 159];
  [160; 4294967295; 4294967295; 4294967295; 164; 4294967295; 4294967295; 4294967295; 4294967295; 4294967295; 4294967295; 4294967295; 1548; 173; 4294967295; 4294967295];
  [4294967295; 4294967295; 4294967295; 4294967295; 4294967295; 4294967295; 4294967295; 4294967295; 4294967295; 4294967295; 4294967295; 1563; 4294967295; 4294967295; 4294967295; 1567];
  [4294967295; 1569; 1570; 1571; 1572; 1573; 1574; 1575; 1576; 1577; 1578; 1579; 1580; 1581; 1582; 1583];
  [1584; 1585; 1586; 1587; 1588; 1589; 1590; 1591; 1592; 1593; 1594; 4294967295; 4294967295; 4294967295; 4294967295; 4294967295];
  [1600; 1601; 1602; 1603; 1604; 1605; 1606; 1607; 1608; 1609; 1610; 1611; 1612; 1613; 1614; 1615];
  [1616; 1617; 1618; 4294967295; 4294967295; 4294967295; 4294967295; 4294967295; 4294967295; 4294967295; 4294967295; 4294967295; 4294967295; 4294967295; 4294967295; 4294967295]].

(** indexes_code_point.cpp:17 *)
Definition index_code_point_iso_8859_7 : list Z := concat [
  [128; 129; 130; 131; 132; 133; 134; 135; 136; 137; 138; 139; 140; 141; 142; 143];
  [144; 145; 146; 147; 148; 149; 150; 151; 152; 153; 154; 155; 156; 157; 158; 159];
  [160; 8216; 8217; 163; 8364; 8367; 166; 167; 168; 169; 890; 171; 172; 173; 4294967295; 8213];
  [176; 177; 178; 179; 900; 901; 902; 183; 904; 905; 906; 187; 908; 189; 910; 911];
  [912; 913; 914; 915; 916; 917; 918; 919; 920; 921; 922; 923; 924; 925; 926; 927];
  [928; 929; 4294967295; 931; 932; 933; 934; 935; 936; 937; 938; 939; 940; 941; 942; 943];
  [944; 945; 946; 947; 948; 949; 950; 951; 952; 953; 954; 955; 956; 957; 958; 959];
  [960; 961; 962; 963; 964; 965; 966; 967; 968; 969; 970; 971; 972; 973; 974; 4294967295]].

(** indexes_code_point.cpp:18 *)
Definition index_code_point_iso_8859_8 : list Z := concat [
  [128; 129; 130; 131; 132; 133; 134; 135; 136; 137; 138; 139; 140; 141; 142; 143];
  [144; 145; 146; 147; 148; 149; 150; 151; 152; 153; 154; 155; 156; 157; 158; 159];
  [160; 4294967295; 162; 163; 164; 165; 166; 167; 168; 169; 215; 171; 172; 173; 174; 175];
  [176; 177; 178; 179; 180; 181; 182; 183; 184; 185; 247; 187; 188; 189; 190; 4294967295];
  [4294967295; 4294967295; 4294967295; 4294967295; 4294967295; 4294967295; 4294967295; 4294967295; 4294967295; 4294967295; 4294967295; 4294967295; 4294967295; 4294967295; 4294967295; 4294967295];
  [4294967295; 4294967295; 4294967295; 4294967295; 4294967295; 4294967295; 4294967295; 4294967295; 4294967295; 4294967295; 4294967295; 4294967295; 4294967295; 4294967295; 4294967295; 8215];
  [1488; 1489; 1490; 1491; 1492; 1493; 1494; 1495; 1496; 1497; 1498; 1499; 1500; 1501; 1502; 1503];
  [1504; 1505; 1506; 1507; 1508; 1509; 1510; 1511; 1512; 1513; 1514; 4294967295; 4294967295; 8206; 8207; 4294967295]].

(** indexes_code_point.cpp:19 *)
Definition index_code_point_iso_8859_10 : list Z := concat [
  [128; 129; 130; 131; 132; 133; 134; 135; 136; 137; 138; 139; 140; 141; 142; 143];
  [144; 145; 146; 147; 148; 149; 150; 151; 152; 153; 154; 155; 156; 157; 158; 159];
  [160; 260; 274; 290; 298; 296; 310; 167; 315; 272; 352; 358; 381; 173; 362; 330];
  [176; 261; 275; 291; 299; 297; 311; 183; 316; 273; 353; 359; 382; 8213; 363; 331];
  [256; 193; 194; 195; 196; 197; 198; 302; 268; 201; 280; 203; 278; 205; 206; 207];
  [208; 325; 332; 211; 212; 213; 214; 360; 216; 370; 218; 219; 220; 221; 222; 223];
  [257; 225; 226; 227; 228; 229; 230; 303; 269; 233; 281; 235; 279; 237; 238; 239];
  [240; 326; 333; 243; 244; 245; 246; 361; 248; 371; 250; 251; 252; 253; 254; 312]].

(** indexes_code_point.cpp:20 *)
Definition index_code_point_iso_8859_13 : list Z := concat [
  [128; 129; 130; 131; 132; 133; 134; 135; 136; 137; 138; 139; 140; 141; 142; 143];
  [144; 145; 146; 147; 148; 149; 150; 151; 152; 153; 154; 155; 156; 157; 158; 159];
  [160; 8221; 162; 163; 164; 8222; 166; 167; 216; 169; 342; 171; 172; 173; 174; 198];
  [176; 177; 178; 179; 8220; 181; 182; 183; 248; 185; 343; 187; 188; 189; 190; 230];
  [260; 302; 256; 262; 196; 197; 280; 274; 268; 201; 377; 278; 290; 310; 298; 315];
  [352; 323; 325; 211; 332; 213; 214; 215; 370; 321; 346; 362; 220; 379; 381; 223];
  [261; 303; 257; 263; 228; 229; 281; 275; 269; 233; 378; 279; 291; 311; 299; 316];
  [353; 324; 326; 243; 333; 245; 246; 247; 371; 322; 347; 363; 252; 380; 382; 8217]].

(** indexes_code_point.cpp:21 *)
Definition index_code_point_iso_8859_14 : list Z := concat [
  [128; 129; 130; 131; 132; 133; 134; 135; 136; 137; 138; 139; 140; 141; 142; 143];
  [144; 145; 146; 147; 148; 149; 150; 151; 152; 153; 154; 155; 156; 157; 158; 159];
  [160; 7682; 7683; 163; 266; 267; 7690; 167; 7808; 169; 7810; 7691; 7922; 173; 174; 376];
  [7710; 7711; 288; 289; 7744; 7745; 182; 7766; 7809; 7767; 7811; 7776; 7923; 7812; 7813; 7777];
  [192; 193; 194; 195; 196; 197; 198; 199; 200; 201; 202; 203; 204; 205; 206; 207];
  [372; 209; 210; 211; 212; 213; 214; 7786; 216; 217; 218; 219; 220; 221; 374; 223];
  [224; 225; 226; 227; 228; 229; 230; 231; 232; 233; 234; 235; 236; 237; 238; 239];
  [373; 241; 242; 243; 244; 245; 246; 7787; 248; 249; 250; 251; 252; 253; 375; 255]].

(** indexes_code_point.cpp:22 *)
Definition index_code_point_iso_8859_15 : list Z := concat [
  [128; 129; 130; 131; 132; 133; 134; 135; 136; 137; 138; 139; 140; 141; 142; 143];
  [144; 145; 146; 147; 148; 149; 150; 151; 152; 153; 154; 155; 156; 157; 158; 159];
  [160; 161; 162; 163; 8364; 165; 352; 167; 353; 169; 170; 171; 172; 173; 174; 175];
  [176; 177; 178; 179; 381; 181; 182; 183; 382; 185; 186; 187; 338; 339; 376; 191];
  [192; 193; 194; 195; 196; 197; 198; 199; 200; 201; 202; 203; 204; 205; 206; 207];
  [208; 209; 210; 211; 212; 213; 214; 215; 216; 217; 218; 219; 220; 221; 222; 223];
  [224; 225; 226; 227; 228; 229; 230; 231; 232; 233; 234; 235; 236; 237; 238; 239];
  [240; 241; 242; 243; 244; 245; 246; 247; 248; 249; 250; 251; 252; 253; 254; 255]].

(** indexes_code_point.cpp:23 *)
Definition index_code_point_iso_8859_16 : list Z := concat [
  [128; 129; 130; 131; 132; 133; 134; 135; 136; 137; 138; 139; 140; 141; 142; 143];
  [144; 145; 146; 147; 148; 149; 150; 151; 152; 153; 154; 155; 156; 157; 158; 159];
  [160; 260; 261; 321; 8364; 8222; 352; 167; 353; 169; 536; 171; 377; 173; 378; 379];
  [176; 177; 268; 322; 381; 8221; 182; 183; 382; 269; 537; 187; 338; 339; 376; 380];
  [192; 193; 194; 258; 196; 262; 198; 199; 200; 201; 202; 203; 204; 205; 206; 207];
  [272; 323; 210; 211; 212; 336; 214; 346; 368; 217; 218; 219; 220; 280; 538; 223];
  [224; 225; 226; 259; 228; 263; 230; 231; 232; 233; 234; 235; 236; 237; 238; 239];
  [273; 324; 242; 243; 244; 337; 246; 347; 369; 249; 250; 251; 252; 281; 539; 255]].

(** indexes_code_point.cpp:24 *)
Definition index_code_point_koi8_r : list Z := concat [
  [9472; 9474; 9484; 9488; 9492; 9496; 9500; 9508; 9516; 9524; 9532; 9600; 9604; 9608; 9612; 9616];
  [9617; 9618; 9619; 8992; 9632; 8729; 8730; 8776; 8804; 8805; 160; 8993; 176; 178; 183; 247];
  [9552; 9553; 9554; 1105; 9555; 9556; 9557; 9558; 9559; 9560; 9561; 9562; 9563; 9564; 9565; 9566];
  [9567; 9568; 9569; 1025; 9570; 9571; 9572; 9573; 9574; 9575; 9576; 9577; 9578; 9579; 9580; 169];
  [1102; 1072; 1073; 1094; 1076; 1077; 1092; 1075; 1093; 1080; 1081; 1082; 1083; 1084; 1085; 1086];
  [1087; 1103; 1088; 1089; 1090; 1091; 1078; 1074; 1100; 1099; 1079; 1096; 1101; 1097; 1095; 1098];
  [1070; 1040; 1041; 1062; 1044; 1045; 1060; 1043; 1061; 1048; 1049; 1050; 1051; 1052; 1053; 1054];
  [1055; 1071; 1056; 1057; 1058; 1059; 1046; 1042; 1068; 1067; 1047; 1064; 1069; 1065; 1063; 1066]].

(** indexes_code_point.cpp:25 *)
Definition index_code_point_koi8_u : list Z := concat [
  [9472; 9474; 9484; 9488; 9492; 9496; 9500; 9508; 9516; 9524; 9532; 9600; 9604; 9608; 9612; 9616];
  [9617; 9618; 9619; 8992; 9632; 8729; 8730; 8776; 8804; 8805; 160; 8993; 176; 178; 183; 247];
  [9552; 9553; 9554; 1105; 1108; 9556; 1110; 1111; 9559; 9560; 9561; 9562; 9563; 1169; 1118; 9566];
  [9567; 9568; 9569; 1025; 1028; 9571; 1030; 1031; 9574; 9575; 9576; 9577; 9578; 1168; 1038; 169];
  [1102; 1072; 1073; 1094; 1076; 1077; 1092; 1075; 1093; 1080; 1081; 1082; 1083; 1084; 1085; 1086];
  [1087; 1103; 1088; 1089; 1090; 1091; 1078; 1074; 1100; 1099; 1079; 1096; 1101; 1097; 1095; 1098];
  [1070; 1040; 1041; 1062; 1044; 1045; 1060; 1043; 1061; 1048; 1049; 1050; 1051; 1052; 1053; 1054];
  [1055; 1071; 1056; 1057; 1058; 1059; 1046; 1042; 1068; 1067; 1047; 1064; 1069; 1065; 1063; 1066]].

(** indexes_code_point.cpp:26 *)
Definition index_code_point_macintosh : list Z := concat [
  [196; 197; 199; 201; 209; 214; 220; 225; 224; 226; 228; 227; 229; 231; 233; 232];
  [234; 235; 237; 236; 238; 239; 241; 243; 242; 244; 246; 245; 250; 249; 251; 252];
  [8224; 176; 162; 163; 167; 8226; 182; 223; 174; 169; 8482; 180; 168; 8800; 198; 216];
  [8734; 177; 8804; 8805; 165; 181; 8706; 8721; 8719; 960; 8747; 170; 186; 937; 230; 248];
  [191; 161; 172; 8730; 402; 8776; 8710; 171; 187; 8230; 160; 192; 195; 213; 338; 339];
  [8211; 8212; 8220; 8221; 8216; 8217; 247; 9674; 255; 376; 8260; 8364; 8249; 8250; 64257; 64258];
  [8225; 183; 8218; 8222; 8240; 194; 202; 193; 203; 200; 205; 206; 207; 204; 211; 212];
  [63743; 210; 218; 219; 217; 305; 710; 732; 175; 728; 729; 730; 184; 733; 731; 711]].

(** indexes_code_point.cpp:27 *)
Definition index_code_point_windows_874 : list Z := concat [
  [8364; 129; 130; 131; 132; 8230; 134; 135; 136; 137; 138; 139; 140; 141; 142; 143];
  [144; 8216; 8217; 8220; 8221; 8226; 8211; 8212; 152; 153; 154; 155; 156; 157; 158; 159];
  [160; 3585; 3586; 3587; 3588; 3589; 3590; 3591; 3592; 3593; 3594; 3595; 3596; 3597; 3598; 3599];
  [3600; 3601; 3602; 3603; 3604; 3605; 3606; 3607; 3608; 3609; 3610; 3611; 3612; 3613; 3614; 3615];
  [3616; 3617; 3618; 3619; 3620; 3621; 3622; 3623; 3624; 3625; 3626; 3627; 3628; 3629; 3630; 3631];
  [3632; 3633; 3634; 3635; 3636; 3637; 3638; 3639; 3640; 3641; 3642; 4294967295; 4294967295; 4294967295; 4294967295; 3647];
  [3648; 3649; 3650; 3651; 3652; 3653; 3654; 3655; 3656; 3657; 3658; 3659; 3660; 3661; 3662; 3663];
  [3664; 3665; 3666; 3667; 3668; 3669; 3670; 3671; 3672; 3673; 3674; 3675; 4294967295; 4294967295; 4294967295; 4294967295]].

(** indexes_code_point.cpp:28 *)
Definition index_code_point_windows_1250 : list Z := concat [
  [8364; 129; 8218; 131; 8222; 8230; 8224; 8225; 136; 8240; 352; 8249; 346; 356; 381; 377];
  [144; 8216; 8217; 8220; 8221; 8226; 8211; 8212; 152; 8482; 353; 8250; 347; 357; 382; 378];
  [160; 711; 728; 321; 164; 260; 166; 167; 168; 169; 350; 171; 172; 173; 174; 379];
  [176; 177; 731; 322; 180; 181; 182; 183; 184; 261; 351; 187; 317; 733; 318; 380];
  [340; 193; 194; 258; 196; 313; 262; 199; 268; 201; 280; 203; 282; 205; 206; 270];
  [272; 323; 327; 211; 212; 336; 214; 215; 344; 366; 218; 368; 220; 221; 354; 223];
  [341; 225; 226; 259; 228; 314; 263; 231; 269; 233; 281; 235; 283; 237; 238; 271];
  [273; 324; 328; 243; 244; 337; 246; 247; 345; 367; 250; 369; 252; 253; 355; 729]].

(** indexes_code_point.cpp:29 *)
Definition index_code_point_windows_1251 : list Z := concat [
  [1026; 1027; 8218; 1107; 8222; 8230; 8224; 8225; 8364; 8240; 1033; 8249; 1034; 1036; 1035; 1039];
  [1106; 8216; 8217; 8220; 8221; 8226; 8211; 8212; 152; 8482; 1113; 8250; 1114; 1116; 1115; 1119];
  [160; 1038; 1118; 1032; 164; 1168; 166; 167; 1025; 169; 1028; 171; 172; 173; 174; 1031];
  [176; 177; 1030; 1110; 1169; 181; 182; 183; 1105; 8470; 1108; 187; 1112; 1029; 1109; 1111];
  [1040; 1041; 1042; 1043; 1044; 1045; 1046; 1047; 1048; 1049; 1050; 1051; 1052; 1053; 1054; 1055];
  [1056; 1057; 1058; 1059; 1060; 1061; 1062; 1063; 1064; 1065; 1066; 1067; 1068; 1069; 1070; 1071];
  [1072; 1073; 1074; 1075; 1076; 1077; 1078; 1079; 1080; 1081; 1082; 1083; 1084; 1085; 1086; 1087];
  [1088; 1089; 1090; 1091; 1092; 1093; 1094; 1095; 1096; 1097; 1098; 1099; 1100; 1101; 1102; 1103]].

(** indexes_code_point.cpp:30 *)
Definition index_code_point_windows_1252 : list Z := concat [
  [8364; 129; 8218; 402; 8222; 8230; 8224; 8225; 710; 8240; 352; 8249; 338; 141; 381; 143];
  [144; 8216; 8217; 8220; 8221; 8226; 8211; 8212; 732; 8482; 353; 8250; 339; 157; 382; 376];
  [160; 161; 162; 163; 164; 165; 166; 167; 168; 169; 170; 171; 172; 173; 174; 175];
  [176; 177; 178; 179; 180; 181; 182; 183; 184; 185; 186; 187; 188; 189; 190; 191];
  [192; 193; 194; 195; 196; 197; 198; 199; 200; 201; 202; 203; 204; 205; 206; 207];
  [208; 209; 210; 211; 212; 213; 214; 215; 216; 217; 218; 219; 220; 221; 222; 223];
  [224; 225; 226; 227; 228; 229; 230; 231; 232; 233; 234; 235; 236; 237; 238; 239];
  [240; 241; 242; 243; 244; 245; 246; 247; 248; 249; 250; 251; 252; 253; 254; 255]].

(** indexes_code_point.cpp:31 *)
Definition index_code_point_windows_1253 : list Z := concat [
  [8364; 129; 8218; 402; 8222; 8230; 8224; 8225; 136; 8240; 138; 8249; 140; 141; 142; 143];
  [144; 8216; 8217; 8220; 8221; 8226; 8211; 8212; 152; 8482; 154; 8250; 156; 157; 158; 159];
  [160; 901; 902; 163; 164; 165; 166; 167; 168; 169; 4294967295; 171; 172; 173; 174; 8213];
  [176; 177; 178; 179; 900; 181; 182; 183; 904; 905; 906; 187; 908; 189; 910; 911];
  [912; 913; 914; 915; 916; 917; 918; 919; 920; 921; 922; 923; 924; 925; 926; 927];
  [928; 929; 4294967295; 931; 932; 933; 934; 935; 936; 937; 938; 939; 940; 941; 942; 943];
  [944; 945; 946; 947; 948; 949; 950; 951; 952; 953; 954; 955; 956; 957; 958; 959];
  [960; 961; 962; 963; 964; 965; 966; 967; 968; 969; 970; 971; 972; 973; 974; 4294967295]].

(** indexes_code_point.cpp:32 *)
Definition index_code_point_windows_1254 : list Z := concat [
  [8364; 129; 8218; 402; 8222; 8230; 8224; 8225; 710; 8240; 352; 8249; 338; 141; 142; 143];
  [144; 8216; 8217; 8220; 8221; 8226; 8211; 8212; 732; 8482; 353; 8250; 339; 157; 158; 376];
  [160; 161; 162; 163; 164; 165; 166; 167; 168; 169; 170; 171; 172; 173; 174; 175];
  [176; 177; 178; 179; 180; 181; 182; 183; 184; 185; 186; 187; 188; 189; 190; 191];
  [192; 193; 194; 195; 196; 197; 198; 199; 200; 201; 202; 203; 204; 205; 206; 207];
  [286; 209; 210; 211; 212; 213; 214; 215; 216; 217; 218; 219; 220; 304; 350; 223];
  [224; 225; 226; 227; 228; 229; 230; 231; 232; 233; 234; 235; 236; 237; 238; 239];
  [287; 241; 242; 243; 244; 245; 246; 247; 248; 249; 250; 251; 252; 305; 351; 255]].

(** indexes_code_point.cpp:33 *)
Definition index_code_point_windows_1255 : list Z := concat [
  [8364; 129; 8218; 402; 8222; 8230; 8224; 8225; 710; 8240; 138; 8249; 140; 141; 142; 143];
  [144; 8216; 8217; 8220; 8221; 8226; 8211; 8212; 732; 8482; 154; 8250; 156; 157; 158; 159];
  [160; 161; 162; 163; 8362; 165; 166; 167; 168; 169; 215; 171; 172; 173; 174; 175];
  [176; 177; 178; 179; 180; 181; 182; 183; 184; 185; 247; 187; 188; 189; 190; 191];
  [1456; 1457; 1458; 1459; 1460; 1461; 1462; 1463; 1464; 1465; 1466; 1467; 1468; 1469; 1470; 1471];
  [1472; 1473; 1474; 1475; 1520; 1521; 1522; 1523; 1524; 4294967295; 4294967295; 4294967295; 4294967295; 4294967295; 4294967295; 4294967295];
  [1488; 1489; 1490; 1491; 1492; 1493; 1494; 1495; 1496; 1497; 1498; 1499; 1500; 1501; 1502; 1503];
  [1504; 1505; 1506; 1507; 1508; 1509; 1510; 1511; 1512; 1513; 1514; 4294967295; 4294967295; 8206; 8207; 4294967295]].

(** indexes_code_point.cpp:34 *)
Definition index_code_point_windows_1256 : list Z := concat [
  [8364; 1662; 8218; 402; 8222; 8230; 8224; 8225; 710; 8240; 1657; 8249; 338; 1670; 1688; 1672];
  [1711; 8216; 8217; 8220; 8221; 8226; 8211; 8212; 1705; 8482; 1681; 8250; 339; 8204; 8205; 1722];
  [160; 1548; 162; 163; 164; 165; 166; 167; 168; 169; 1726; 171; 172; 173; 174; 175];
  [176; 177; 178; 179; 180; 181; 182; 183; 184; 185; 1563; 187; 188; 189; 190; 1567];
  [1729; 1569; 1570; 1571; 1572; 1573; 1574; 1575; 1576; 1577; 1578; 1579; 1580; 1581; 1582; 1583];
  [1584; 1585; 1586; 1587; 1588; 1589; 1590; 215; 1591; 1592; 1593; 1594; 1600; 1601; 1602; 1603];
  [224; 1604; 226; 1605; 1606; 1607; 1608; 231; 232; 233; 234; 235; 1609; 1610; 238; 239];
  [1611; 1612; 1613; 1614; 244; 1615; 1616; 247; 1617; 249; 1618; 251; 252; 8206; 8207; 1746]].

(** indexes_code_point.cpp:35 *)
Definition index_code_point_windows_1257 : list Z := concat [
  [8364; 129; 8218; 131; 8222; 8230; 8224; 8225; 136; 8240; 138; 8249; 140; 168; 711; 184];
  [144; 8216; 8217; 8220; 8221; 8226; 8211; 8212; 152; 8482; 154; 8250; 156; 175; 731; 159];
  [160; 4294967295; 162; 163; 164; 4294967295; 166; 167; 216; 169; 342; 171; 172; 173; 174; 198];
  [176; 177; 178; 179; 180; 181; 182; 183; 248; 185; 343; 187; 188; 189; 190; 230];
  [260; 302; 256; 262; 196; 197; 280; 274; 268; 201; 377; 278; 290; 310; 298; 315];
  [352; 323; 325; 211; 332; 213; 214; 215; 370; 321; 346; 362; 220; 379; 381; 223];
  [261; 303; 257; 263; 228; 229; 281; 275; 269; 233; 378; 279; 291; 311; 299; 316];
  [353; 324; 326; 243; 333; 245; 246; 247; 371; 322; 347; 363; 252; 380; 382; 729]].

(** indexes_code_point.cpp:36 *)
Definition index_code_point_windows_1258 : list Z := concat [
  [8364; 129; 8218; 402; 8222; 8230; 8224; 8225; 710; 8240; 138; 8249; 338; 141; 142; 143];
  [144; 8216; 8217; 8220; 8221; 8226; 8211; 8212; 732; 8482; 154; 8250; 339; 157; 158; 376];
  [160; 161; 162; 163; 164; 165; 166; 167; 168; 169; 170; 171; 172; 173; 174; 175];
  [176; 177; 178; 179; 180; 181; 182; 183; 184; 185; 186; 187; 188; 189; 190; 191];
  [192; 193; 194; 258; 196; 197; 198; 199; 200; 201; 202; 203; 768; 205; 206; 207];
  [272; 209; 777; 211; 212; 416; 214; 215; 216; 217; 218; 219; 220; 431; 771; 223];
  [224; 225; 226; 259; 228; 229; 230; 231; 232; 233; 234; 235; 769; 237; 238; 239];
  [273; 241; 803; 243; 244; 417; 246; 247; 248; 249; 250; 251; 252; 432; 8363; 255]].

(** indexes_code_point.cpp:37 *)
Definition index_code_point_x_mac_cyrillic : list Z := concat [
  [1040; 1041; 1042; 1043; 1044; 1045; 1046; 1047; 1048; 1049; 1050; 1051; 1052; 1053; 1054; 1055];
  [1056; 1057; 1058; 1059; 1060; 1061; 1062; 1063; 1064; 1065; 1066; 1067; 1068; 1069; 1070; 1071];
  [8224; 176; 1168; 163; 167; 8226; 182; 1030; 174; 169; 8482; 1026; 1106; 8800; 1027; 1107];
  [8734; 177; 8804; 8805; 1110; 181; 1169; 1032; 1028; 1108; 1031; 1111; 1033; 1113; 1034; 1114];
  [1112; 1029; 172; 8730; 402; 8776; 8710; 171; 187; 8230; 160; 1035; 1115; 1036; 1116; 1109];
  [8211; 8212; 8220; 8221; 8216; 8217; 247; 8222; 1038; 1118; 1039; 1119; 8470; 1025; 1105; 1103];
  [1072; 1073; 1074; 1075; 1076; 1077; 1078; 1079; 1080; 1081; 1082; 1083; 1084; 1085; 1086; 1087];
  [1088; 1089; 1090; 1091; 1092; 1093; 1094; 1095; 1096; 1097; 1098; 1099; 1100; 1101; 1102; 8364]].

(** indexes_pointer.cpp:20 *)
Definition index_pointer_ibm866_0 : list Z := concat [
  [160; 164; 176; 183; 1025; 1028; 1031; 1038; 1040; 1041; 1042; 1043; 1044; 1045; 1046; 1047];
  [1048; 1049; 1050; 1051; 1052; 1053; 1054; 1055; 1056; 1057; 1058; 1059; 1060; 1061; 1062; 1063];
  [1064; 1065; 1066; 1067; 1068; 1069; 1070; 1071; 1072; 1073; 1074; 1075; 1076; 1077; 1078; 1079];
  [1080; 1081; 1082; 1083; 1084; 1085; 1086; 1087; 1088; 1089; 1090; 1091; 1092; 1093; 1094; 1095];
  [1096; 1097; 1098; 1099; 1100; 1101; 1102; 1103; 1105; 1108; 1111; 1118; 8470; 8729; 8730; 9472];
  [9474; 9484; 9488; 9492; 9496; 9500; 9508; 9516; 9524; 9532; 9552; 9553; 9554; 9555; 9556; 9557];
  [9558; 9559; 9560; 9561; 9562; 9563; 9564; 9565; 9566; 9567; 9568; 9569; 9570; 9571; 9572; 9573];
  [9574; 9575; 9576; 9577; 9578; 9579; 9580; 9600; 9604; 9608; 9612; 9616; 9617; 9618; 9619; 9632]].

(** indexes_pointer.cpp:21 *)
Definition index_pointer_ibm866_1 : list Z := concat [
  [127; 125; 120; 122; 112; 114; 116; 118; 0; 1; 2; 3; 4; 5; 6; 7];
  [8; 9; 10; 11; 12; 13; 14; 15; 16; 17; 18; 19; 20; 21; 22; 23];
  [24; 25; 26; 27; 28; 29; 30; 31; 32; 33; 34; 35; 36; 37; 38; 39];
  [40; 41; 42; 43; 44; 45; 46; 47; 96; 97; 98; 99; 100; 101; 102; 103];
  [104; 105; 106; 107; 108; 109; 110; 111; 113; 115; 117; 119; 124; 121; 123; 68];
  [51; 90; 63; 64; 89; 67; 52; 66; 65; 69; 77; 58; 85; 86; 73; 56];
  [55; 59; 84; 83; 72; 62; 61; 60; 70; 71; 76; 53; 54; 57; 81; 82];
  [75; 79; 80; 74; 88; 87; 78; 95; 92; 91; 93; 94; 48; 49; 50; 126]].

(** indexes_pointer.cpp:23 *)
Definition index_pointer_iso_2022_jp_katakana_0 : list Z := concat [
  [12289; 12290; 12300; 12301; 12443; 12444; 12449; 12450; 12451; 12452; 12453; 12454; 12455; 12456; 12457; 12458];
  [12459; 12461; 12463; 12465; 12467; 12469; 12471; 12473; 12475; 12477; 12479; 12481; 12483; 12484; 12486; 12488];
  [12490; 12491; 12492; 12493; 12494; 12495; 12498; 12501; 12504; 12507; 12510; 12511; 12512; 12513; 12514; 12515];
  [12516; 12517; 12518; 12519; 12520; 12521; 12522; 12523; 12524; 12525; 12527; 12530; 12531; 12539; 12540]].

(** indexes_pointer.cpp:24 *)
Definition index_pointer_iso_2022_jp_katakana_1 : list Z := concat [
  [3; 0; 1; 2; 61; 62; 6; 16; 7; 17; 8; 18; 9; 19; 10; 20];
  [21; 22; 23; 24; 25; 26; 27; 28; 29; 30; 31; 32; 14; 33; 34; 35];
  [36; 37; 38; 39; 40; 41; 42; 43; 44; 45; 46; 47; 48; 49; 50; 11];
  [51; 12; 52; 13; 53; 54; 55; 56; 57; 58; 59; 5; 60; 4; 15]].

(** indexes_pointer.cpp:26 *)
Definition index_pointer_iso_8859_2_0 : list Z := concat [
  [128; 129; 130; 131; 132; 133; 134; 135; 136; 137; 138; 139; 140; 141; 142; 143];
  [144; 145; 146; 147; 148; 149; 150; 151; 152; 153; 154; 155; 156; 157; 158; 159];
  [160; 164; 167; 168; 173; 176; 180; 184; 193; 194; 196; 199; 201; 203; 205; 206];
  [211; 212; 214; 215; 218; 220; 221; 223; 225; 226; 228; 231; 233; 235; 237; 238];
  [243; 244; 246; 247; 250; 252; 253; 258; 259; 260; 261; 262; 263; 268; 269; 270];
  [271; 272; 273; 280; 281; 282; 283; 313; 314; 317; 318; 321; 322; 323; 324; 327];
  [328; 336; 337; 340; 341; 344; 345; 346; 347; 350; 351; 352; 353; 354; 355; 356];
  [357; 366; 367; 368; 369; 377; 378; 379; 380; 381; 382; 711; 728; 729; 731; 733]].

(** indexes_pointer.cpp:27 *)
Definition index_pointer_iso_8859_2_1 : list Z := concat [
  [0; 1; 2; 3; 4; 5; 6; 7; 8; 9; 10; 11; 12; 13; 14; 15];
  [16; 17; 18; 19; 20; 21; 22; 23; 24; 25; 26; 27; 28; 29; 30; 31];
  [32; 36; 39; 40; 45; 48; 52; 56; 65; 66; 68; 71; 73; 75; 77; 78];
  [83; 84; 86; 87; 90; 92; 93; 95; 97; 98; 100; 103; 105; 107; 109; 110];
  [115; 116; 118; 119; 122; 124; 125; 67; 99; 33; 49; 70; 102; 72; 104; 79];
  [111; 80; 112; 74; 106; 76; 108; 69; 101; 37; 53; 35; 51; 81; 113; 82];
  [114; 85; 117; 64; 96; 88; 120; 38; 54; 42; 58; 41; 57; 94; 126; 43];
  [59; 89; 121; 91; 123; 44; 60; 47; 63; 46; 62; 55; 34; 127; 50; 61]].

(** indexes_pointer.cpp:29 *)
Definition index_pointer_iso_8859_3_0 : list Z := concat [
  [128; 129; 130; 131; 132; 133; 134; 135; 136; 137; 138; 139; 140; 141; 142; 143];
  [144; 145; 146; 147; 148; 149; 150; 151; 152; 153; 154; 155; 156; 157; 158; 159];
  [160; 163; 164; 167; 168; 173; 176; 178; 179; 180; 181; 183; 184; 189; 192; 193];
  [194; 196; 199; 200; 201; 202; 203; 204; 205; 206; 207; 209; 210; 211; 212; 214];
  [215; 217; 218; 219; 220; 223; 224; 225; 226; 228; 231; 232; 233; 234; 235; 236];
  [237; 238; 239; 241; 242; 243; 244; 246; 247; 249; 250; 251; 252; 264; 265; 266];
  [267; 284; 285; 286; 287; 288; 289; 292; 293; 294; 295; 304; 305; 308; 309; 348];
  [349; 350; 351; 364; 365; 379; 380; 728; 729]].

(** indexes_pointer.cpp:30 *)
Definition index_pointer_iso_8859_3_1 : list Z := concat [
  [0; 1; 2; 3; 4; 5; 6; 7; 8; 9; 10; 11; 12; 13; 14; 15];
  [16; 17; 18; 19; 20; 21; 22; 23; 24; 25; 26; 27; 28; 29; 30; 31];
  [32; 35; 36; 39; 40; 45; 48; 50; 51; 52; 53; 55; 56; 61; 64; 65];
  [66; 68; 71; 72; 73; 74; 75; 76; 77; 78; 79; 81; 82; 83; 84; 86];
  [87; 89; 90; 91; 92; 95; 96; 97; 98; 100; 103; 104; 105; 106; 107; 108];
  [109; 110; 111; 113; 114; 115; 116; 118; 119; 121; 122; 123; 124; 70; 102; 69];
  [101; 88; 120; 43; 59; 85; 117; 38; 54; 33; 49; 41; 57; 44; 60; 94];
  [126; 42; 58; 93; 125; 47; 63; 34; 127]].

(** indexes_pointer.cpp:32 *)
Definition index_pointer_iso_8859_4_0 : list Z := concat [
  [128; 129; 130; 131; 132; 133; 134; 135; 136; 137; 138; 139; 140; 141; 142; 143];
  [144; 145; 146; 147; 148; 149; 150; 151; 152; 153; 154; 155; 156; 157; 158; 159];
  [160; 164; 167; 168; 173; 175; 176; 180; 184; 193; 194; 195; 196; 197; 198; 201];
  [203; 205; 206; 212; 213; 214; 215; 216; 218; 219; 220; 223; 225; 226; 227; 228];
  [229; 230; 233; 235; 237; 238; 244; 245; 246; 247; 248; 250; 251; 252; 256; 257];
  [260; 261; 268; 269; 272; 273; 274; 275; 278; 279; 280; 281; 290; 291; 296; 297];
  [298; 299; 302; 303; 310; 311; 312; 315; 316; 325; 326; 330; 331; 332; 333; 342];
  [343; 352; 353; 358; 359; 360; 361; 362; 363; 370; 371; 381; 382; 711; 729; 731]].

(** indexes_pointer.cpp:33 *)
Definition index_pointer_iso_8859_4_1 : list Z := concat [
  [0; 1; 2; 3; 4; 5; 6; 7; 8; 9; 10; 11; 12; 13; 14; 15];
  [16; 17; 18; 19; 20; 21; 22; 23; 24; 25; 26; 27; 28; 29; 30; 31];
  [32; 36; 39; 40; 45; 47; 48; 52; 56; 65; 66; 67; 68; 69; 70; 73];
  [75; 77; 78; 84; 85; 86; 87; 88; 90; 91; 92; 95; 97; 98; 99; 100];
  [101; 102; 105; 107; 109; 110; 116; 117; 118; 119; 120; 122; 123; 124; 64; 96];
  [33; 49; 72; 104; 80; 112; 42; 58; 76; 108; 74; 106; 43; 59; 37; 53];
  [79; 111; 71; 103; 83; 115; 34; 38; 54; 81; 113; 61; 63; 82; 114; 35];
  [51; 41; 57; 44; 60; 93; 125; 94; 126; 89; 121; 46; 62; 55; 127; 50]].

(** indexes_pointer.cpp:35 *)
Definition index_pointer_iso_8859_5_0 : list Z := concat [
  [128; 129; 130; 131; 132; 133; 134; 135; 136; 137; 138; 139; 140; 141; 142; 143];
  [144; 145; 146; 147; 148; 149; 150; 151; 152; 153; 154; 155; 156; 157; 158; 159];
  [160; 167; 173; 1025; 1026; 1027; 1028; 1029; 1030; 1031; 1032; 1033; 1034; 1035; 1036; 1038];
  [1039; 1040; 1041; 1042; 1043; 1044; 1045; 1046; 1047; 1048; 1049; 1050; 1051; 1052; 1053; 1054];
  [1055; 1056; 1057; 1058; 1059; 1060; 1061; 1062; 1063; 1064; 1065; 1066; 1067; 1068; 1069; 1070];
  [1071; 1072; 1073; 1074; 1075; 1076; 1077; 1078; 1079; 1080; 1081; 1082; 1083; 1084; 1085; 1086];
  [1087; 1088; 1089; 1090; 1091; 1092; 1093; 1094; 1095; 1096; 1097; 1098; 1099; 1100; 1101; 1102];
  [1103; 1105; 1106; 1107; 1108; 1109; 1110; 1111; 1112; 1113; 1114; 1115; 1116; 1118; 1119; 8470]].

(** indexes_pointer.cpp:36 *)
Definition index_pointer_iso_8859_5_1 : list Z := concat [
  [0; 1; 2; 3; 4; 5; 6; 7; 8; 9; 10; 11; 12; 13; 14; 15];
  [16; 17; 18; 19; 20; 21; 22; 23; 24; 25; 26; 27; 28; 29; 30; 31];
  [32; 125; 45; 33; 34; 35; 36; 37; 38; 39; 40; 41; 42; 43; 44; 46];
  [47; 48; 49; 50; 51; 52; 53; 54; 55; 56; 57; 58; 59; 60; 61; 62];
  [63; 64; 65; 66; 67; 68; 69; 70; 71; 72; 73; 74; 75; 76; 77; 78];
  [79; 80; 81; 82; 83; 84; 85; 86; 87; 88; 89; 90; 91; 92; 93; 94];
  [95; 96; 97; 98; 99; 100; 101; 102; 103; 104; 105; 106; 107; 108; 109; 110];
  [111; 113; 114; 115; 116; 117; 118; 119; 120; 121; 122; 123; 124; 126; 127; 112]].

(** indexes_pointer.cpp:38 *)
Definition index_pointer_iso_8859_6_0 : list Z := concat [
  [128; 129; 130; 131; 132; 133; 134; 135; 136; 137; 138; 139; 140; 141; 142; 143];
  [144; 145; 146; 147; 148; 149; 150; 151; 152; 153; 154; 155; 156; 157; 158; 159];
  [160; 164; 173; 1548; 1563; 1567; 1569; 1570; 1571; 1572; 1573; 1574; 1575; 1576; 1577; 1578];
  [1579; 1580; 1581; 1582; 1583; 1584; 1585; 1586; 1587; 1588; 1589; 1590; 1591; 1592; 1593; 1594];
  [1600; 1601; 1602; 1603; 1604; 1605; 1606; 1607; 1608; 1609; 1610; 1611; 1612; 1613; 1614; 1615];
  [1616; 1617; 1618]].

(** indexes_pointer.cpp:39 *)
Definition index_pointer_iso_8859_6_1 : list Z := concat [
  [0; 1; 2; 3; 4; 5; 6; 7; 8; 9; 10; 11; 12; 13; 14; 15];
  [16; 17; 18; 19; 20; 21; 22; 23; 24; 25; 26; 27; 28; 29; 30; 31];
  [32; 36; 45; 44; 59; 63; 65; 66; 67; 68; 69; 70; 71; 72; 73; 74];
  [75; 76; 77; 78; 79; 80; 81; 82; 83; 84; 85; 86; 87; 88; 89; 90];
  [96; 97; 98; 99; 100; 101; 102; 103; 104; 105; 106; 107; 108; 109; 110; 111];
  [112; 113; 114]].

(** indexes_pointer.cpp:41 *)
Definition index_pointer_iso_8859_7_0 : list Z := concat [
  [128; 129; 130; 131; 132; 133; 134; 135; 136; 137; 138; 139; 140; 141; 142; 143];
  [144; 145; 146; 147; 148; 149; 150; 151; 152; 153; 154; 155; 156; 157; 158; 159];
  [160; 163; 166; 167; 168; 169; 171; 172; 173; 176; 177; 178; 179; 183; 187; 189];
  [890; 900; 901; 902; 904; 905; 906; 908; 910; 911; 912; 913; 914; 915; 916; 917];
  [918; 919; 920; 921; 922; 923; 924; 925; 926; 927; 928; 929; 931; 932; 933; 934];
  [935; 936; 937; 938; 939; 940; 941; 942; 943; 944; 945; 946; 947; 948; 949; 950];
  [951; 952; 953; 954; 955; 956; 957; 958; 959; 960; 961; 962; 963; 964; 965; 966];
  [967; 968; 969; 970; 971; 972; 973; 974; 8213; 8216; 8217; 8364; 8367]].

(** indexes_pointer.cpp:42 *)
Definition index_pointer_iso_8859_7_1 : list Z := concat [
  [0; 1; 2; 3; 4; 5; 6; 7; 8; 9; 10; 11; 12; 13; 14; 15];
  [16; 17; 18; 19; 20; 21; 22; 23; 24; 25; 26; 27; 28; 29; 30; 31];
  [32; 35; 38; 39; 40; 41; 43; 44; 45; 48; 49; 50; 51; 55; 59; 61];
  [42; 52; 53; 54; 56; 57; 58; 60; 62; 63; 64; 65; 66; 67; 68; 69];
  [70; 71; 72; 73; 74; 75; 76; 77; 78; 79; 80; 81; 83; 84; 85; 86];
  [87; 88; 89; 90; 91; 92; 93; 94; 95; 96; 97; 98; 99; 100; 101; 102];
  [103; 104; 105; 106; 107; 108; 109; 110; 111; 112; 113; 114; 115; 116; 117; 118];
  [119; 120; 121; 122; 123; 124; 125; 126; 47; 33; 34; 36; 37]].

(** indexes_pointer.cpp:44 *)
Definition index_pointer_iso_8859_8_0 : list Z := concat [
  [128; 129; 130; 131; 132; 133; 134; 135; 136; 137; 138; 139; 140; 141; 142; 143];
  [144; 145; 146; 147; 148; 149; 150; 151; 152; 153; 154; 155; 156; 157; 158; 159];
  [160; 162; 163; 164; 165; 166; 167; 168; 169; 171; 172; 173; 174; 175; 176; 177];
  [178; 179; 180; 181; 182; 183; 184; 185; 187; 188; 189; 190; 215; 247; 1488; 1489];
  [1490; 1491; 1492; 1493; 1494; 1495; 1496; 1497; 1498; 1499; 1500; 1501; 1502; 1503; 1504; 1505];
  [1506; 1507; 1508; 1509; 1510; 1511; 1512; 1513; 1514; 8206; 8207; 8215]].

(** indexes_pointer.cpp:45 *)
Definition index_pointer_iso_8859_8_1 : list Z := concat [
  [0; 1; 2; 3; 4; 5; 6; 7; 8; 9; 10; 11; 12; 13; 14; 15];
  [16; 17; 18; 19; 20; 21; 22; 23; 24; 25; 26; 27; 28; 29; 30; 31];
  [32; 34; 35; 36; 37; 38; 39; 40; 41; 43; 44; 45; 46; 47; 48; 49];
  [50; 51; 52; 53; 54; 55; 56; 57; 59; 60; 61; 62; 42; 58; 96; 97];
  [98; 99; 100; 101; 102; 103; 104; 105; 106; 107; 108; 109; 110; 111; 112; 113];
  [114; 115; 116; 117; 118; 119; 120; 121; 122; 125; 126; 95]].

(** indexes_pointer.cpp:47 *)
Definition index_pointer_iso_8859_10_0 : list Z := concat [
  [128; 129; 130; 131; 132; 133; 134; 135; 136; 137; 138; 139; 140; 141; 142; 143];
  [144; 145; 146; 147; 148; 149; 150; 151; 152; 153; 154; 155; 156; 157; 158; 159];
  [160; 167; 173; 176; 183; 193; 194; 195; 196; 197; 198; 201; 203; 205; 206; 207];
  [208; 211; 212; 213; 214; 216; 218; 219; 220; 221; 222; 223; 225; 226; 227; 228];
  [229; 230; 233; 235; 237; 238; 239; 240; 243; 244; 245; 246; 248; 250; 251; 252];
  [253; 254; 256; 257; 260; 261; 268; 269; 272; 273; 274; 275; 278; 279; 280; 281];
  [290; 291; 296; 297; 298; 299; 302; 303; 310; 311; 312; 315; 316; 325; 326; 330];
  [331; 332; 333; 352; 353; 358; 359; 360; 361; 362; 363; 370; 371; 381; 382; 8213]].

(** indexes_pointer.cpp:48 *)
Definition index_pointer_iso_8859_10_1 : list Z := concat [
  [0; 1; 2; 3; 4; 5; 6; 7; 8; 9; 10; 11; 12; 13; 14; 15];
  [16; 17; 18; 19; 20; 21; 22; 23; 24; 25; 26; 27; 28; 29; 30; 31];
  [32; 39; 45; 48; 55; 65; 66; 67; 68; 69; 70; 73; 75; 77; 78; 79];
  [80; 83; 84; 85; 86; 88; 90; 91; 92; 93; 94; 95; 97; 98; 99; 100];
  [101; 102; 105; 107; 109; 110; 111; 112; 115; 116; 117; 118; 120; 122; 123; 124];
  [125; 126; 64; 96; 33; 49; 72; 104; 41; 57; 34; 50; 76; 108; 74; 106];
  [35; 51; 37; 53; 36; 52; 71; 103; 38; 54; 127; 40; 56; 81; 113; 47];
  [63; 82; 114; 42; 58; 43; 59; 87; 119; 46; 62; 89; 121; 44; 60; 61]].

(** indexes_pointer.cpp:50 *)
Definition index_pointer_iso_8859_13_0 : list Z := concat [
  [128; 129; 130; 131; 132; 133; 134; 135; 136; 137; 138; 139; 140; 141; 142; 143];
  [144; 145; 146; 147; 148; 149; 150; 151; 152; 153; 154; 155; 156; 157; 158; 159];
  [160; 162; 163; 164; 166; 167; 169; 171; 172; 173; 174; 176; 177; 178; 179; 181];
  [182; 183; 185; 187; 188; 189; 190; 196; 197; 198; 201; 211; 213; 214; 215; 216];
  [220; 223; 228; 229; 230; 233; 243; 245; 246; 247; 248; 252; 256; 257; 260; 261];
  [262; 263; 268; 269; 274; 275; 278; 279; 280; 281; 290; 291; 298; 299; 302; 303];
  [310; 311; 315; 316; 321; 322; 323; 324; 325; 326; 332; 333; 342; 343; 346; 347];
  [352; 353; 362; 363; 370; 371; 377; 378; 379; 380; 381; 382; 8217; 8220; 8221; 8222]].

(** indexes_pointer.cpp:51 *)
Definition index_pointer_iso_8859_13_1 : list Z := concat [
  [0; 1; 2; 3; 4; 5; 6; 7; 8; 9; 10; 11; 12; 13; 14; 15];
  [16; 17; 18; 19; 20; 21; 22; 23; 24; 25; 26; 27; 28; 29; 30; 31];
  [32; 34; 35; 36; 38; 39; 41; 43; 44; 45; 46; 48; 49; 50; 51; 53];
  [54; 55; 57; 59; 60; 61; 62; 68; 69; 47; 73; 83; 85; 86; 87; 40];
  [92; 95; 100; 101; 63; 105; 115; 117; 118; 119; 56; 124; 66; 98; 64; 96];
  [67; 99; 72; 104; 71; 103; 75; 107; 70; 102; 76; 108; 78; 110; 65; 97];
  [77; 109; 79; 111; 89; 121; 81; 113; 82; 114; 84; 116; 42; 58; 90; 122];
  [80; 112; 91; 123; 88; 120; 74; 106; 93; 125; 94; 126; 127; 52; 33; 37]].

(** indexes_pointer.cpp:53 *)
Definition index_pointer_iso_8859_14_0 : list Z := concat [
  [128; 129; 130; 131; 132; 133; 134; 135; 136; 137; 138; 139; 140; 141; 142; 143];
  [144; 145; 146; 147; 148; 149; 150; 151; 152; 153; 154; 155; 156; 157; 158; 159];
  [160; 163; 167; 169; 173; 174; 182; 192; 193; 194; 195; 196; 197; 198; 199; 200];
  [201; 202; 203; 204; 205; 206; 207; 209; 210; 211; 212; 213; 214; 216; 217; 218];
  [219; 220; 221; 223; 224; 225; 226; 227; 228; 229; 230; 231; 232; 233; 234; 235];
  [236; 237; 238; 239; 241; 242; 243; 244; 245; 246; 248; 249; 250; 251; 252; 253];
  [255; 266; 267; 288; 289; 372; 373; 374; 375; 376; 7682; 7683; 7690; 7691; 7710; 7711];
  [7744; 7745; 7766; 7767; 7776; 7777; 7786; 7787; 7808; 7809; 7810; 7811; 7812; 7813; 7922; 7923]].

(** indexes_pointer.cpp:54 *)
Definition index_pointer_iso_8859_14_1 : list Z := concat [
  [0; 1; 2; 3; 4; 5; 6; 7; 8; 9; 10; 11; 12; 13; 14; 15];
  [16; 17; 18; 19; 20; 21; 22; 23; 24; 25; 26; 27; 28; 29; 30; 31];
  [32; 35; 39; 41; 45; 46; 54; 64; 65; 66; 67; 68; 69; 70; 71; 72];
  [73; 74; 75; 76; 77; 78; 79; 81; 82; 83; 84; 85; 86; 88; 89; 90];
  [91; 92; 93; 95; 96; 97; 98; 99; 100; 101; 102; 103; 104; 105; 106; 107];
  [108; 109; 110; 111; 113; 114; 115; 116; 117; 118; 120; 121; 122; 123; 124; 125];
  [127; 36; 37; 50; 51; 80; 112; 94; 126; 47; 33; 34; 38; 43; 48; 49];
  [52; 53; 55; 57; 59; 63; 87; 119; 40; 56; 42; 58; 61; 62; 44; 60]].

(** indexes_pointer.cpp:56 *)
Definition index_pointer_iso_8859_15_0 : list Z := concat [
  [128; 129; 130; 131; 132; 133; 134; 135; 136; 137; 138; 139; 140; 141; 142; 143];
  [144; 145; 146; 147; 148; 149; 150; 151; 152; 153; 154; 155; 156; 157; 158; 159];
  [160; 161; 162; 163; 165; 167; 169; 170; 171; 172; 173; 174; 175; 176; 177; 178];
  [179; 181; 182; 183; 185; 186; 187; 191; 192; 193; 194; 195; 196; 197; 198; 199];
  [200; 201; 202; 203; 204; 205; 206; 207; 208; 209; 210; 211; 212; 213; 214; 215];
  [216; 217; 218; 219; 220; 221; 222; 223; 224; 225; 226; 227; 228; 229; 230; 231];
  [232; 233; 234; 235; 236; 237; 238; 239; 240; 241; 242; 243; 244; 245; 246; 247];
  [248; 249; 250; 251; 252; 253; 254; 255; 338; 339; 352; 353; 376; 381; 382; 8364]].

(** indexes_pointer.cpp:57 *)
Definition index_pointer_iso_8859_15_1 : list Z := concat [
  [0; 1; 2; 3; 4; 5; 6; 7; 8; 9; 10; 11; 12; 13; 14; 15];
  [16; 17; 18; 19; 20; 21; 22; 23; 24; 25; 26; 27; 28; 29; 30; 31];
  [32; 33; 34; 35; 37; 39; 41; 42; 43; 44; 45; 46; 47; 48; 49; 50];
  [51; 53; 54; 55; 57; 58; 59; 63; 64; 65; 66; 67; 68; 69; 70; 71];
  [72; 73; 74; 75; 76; 77; 78; 79; 80; 81; 82; 83; 84; 85; 86; 87];
  [88; 89; 90; 91; 92; 93; 94; 95; 96; 97; 98; 99; 100; 101; 102; 103];
  [104; 105; 106; 107; 108; 109; 110; 111; 112; 113; 114; 115; 116; 117; 118; 119];
  [120; 121; 122; 123; 124; 125; 126; 127; 60; 61; 38; 40; 62; 52; 56; 36]].

(** indexes_pointer.cpp:59 *)
Definition index_pointer_iso_8859_16_0 : list Z := concat [
  [128; 129; 130; 131; 132; 133; 134; 135; 136; 137; 138; 139; 140; 141; 142; 143];
  [144; 145; 146; 147; 148; 149; 150; 151; 152; 153; 154; 155; 156; 157; 158; 159];
  [160; 167; 169; 171; 173; 176; 177; 182; 183; 187; 192; 193; 194; 196; 198; 199];
  [200; 201; 202; 203; 204; 205; 206; 207; 210; 211; 212; 214; 217; 218; 219; 220];
  [223; 224; 225; 226; 228; 230; 231; 232; 233; 234; 235; 236; 237; 238; 239; 242];
  [243; 244; 246; 249; 250; 251; 252; 255; 258; 259; 260; 261; 262; 263; 268; 269];
  [272; 273; 280; 281; 321; 322; 323; 324; 336; 337; 338; 339; 346; 347; 352; 353];
  [368; 369; 376; 377; 378; 379; 380; 381; 382; 536; 537; 538; 539; 8221; 8222; 8364]].

(** indexes_pointer.cpp:60 *)
Definition index_pointer_iso_8859_16_1 : list Z := concat [
  [0; 1; 2; 3; 4; 5; 6; 7; 8; 9; 10; 11; 12; 13; 14; 15];
  [16; 17; 18; 19; 20; 21; 22; 23; 24; 25; 26; 27; 28; 29; 30; 31];
  [32; 39; 41; 43; 45; 48; 49; 54; 55; 59; 64; 65; 66; 68; 70; 71];
  [72; 73; 74; 75; 76; 77; 78; 79; 82; 83; 84; 86; 89; 90; 91; 92];
  [95; 96; 97; 98; 100; 102; 103; 104; 105; 106; 107; 108; 109; 110; 111; 114];
  [115; 116; 118; 121; 122; 123; 124; 127; 67; 99; 33; 34; 69; 101; 50; 57];
  [80; 112; 93; 125; 35; 51; 81; 113; 85; 117; 60; 61; 87; 119; 38; 40];
  [88; 120; 62; 44; 46; 47; 63; 52; 56; 42; 58; 94; 126; 53; 37; 36]].

(** indexes_pointer.cpp:62 *)
Definition index_pointer_koi8_r_0 : list Z := concat [
  [160; 169; 176; 178; 183; 247; 1025; 1040; 1041; 1042; 1043; 1044; 1045; 1046; 1047; 1048];
  [1049; 1050; 1051; 1052; 1053; 1054; 1055; 1056; 1057; 1058; 1059; 1060; 1061; 1062; 1063; 1064];
  [1065; 1066; 1067; 1068; 1069; 1070; 1071; 1072; 1073; 1074; 1075; 1076; 1077; 1078; 1079; 1080];
  [1081; 1082; 1083; 1084; 1085; 1086; 1087; 1088; 1089; 1090; 1091; 1092; 1093; 1094; 1095; 1096];
  [1097; 1098; 1099; 1100; 1101; 1102; 1103; 1105; 8729; 8730; 8776; 8804; 8805; 8992; 8993; 9472];
  [9474; 9484; 9488; 9492; 9496; 9500; 9508; 9516; 9524; 9532; 9552; 9553; 9554; 9555; 9556; 9557];
  [9558; 9559; 9560; 9561; 9562; 9563; 9564; 9565; 9566; 9567; 9568; 9569; 9570; 9571; 9572; 9573];
  [9574; 9575; 9576; 9577; 9578; 9579; 9580; 9600; 9604; 9608; 9612; 9616; 9617; 9618; 9619; 9632]].

(** indexes_pointer.cpp:63 *)
Definition index_pointer_koi8_r_1 : list Z := concat [
  [26; 63; 28; 29; 30; 31; 51; 97; 98; 119; 103; 100; 101; 118; 122; 105];
  [106; 107; 108; 109; 110; 111; 112; 114; 115; 116; 117; 102; 104; 99; 126; 123];
  [125; 127; 121; 120; 124; 96; 113; 65; 66; 87; 71; 68; 69; 86; 90; 73];
  [74; 75; 76; 77; 78; 79; 80; 82; 83; 84; 85; 70; 72; 67; 94; 91];
  [93; 95; 89; 88; 92; 64; 81; 35; 21; 22; 23; 24; 25; 19; 27; 0];
  [1; 2; 3; 4; 5; 6; 7; 8; 9; 10; 32; 33; 34; 36; 37; 38];
  [39; 40; 41; 42; 43; 44; 45; 46; 47; 48; 49; 50; 52; 53; 54; 55];
  [56; 57; 58; 59; 60; 61; 62; 11; 12; 13; 14; 15; 16; 17; 18; 20]].

(** indexes_pointer.cpp:65 *)
Definition index_pointer_koi8_u_0 : list Z := concat [
  [160; 169; 176; 178; 183; 247; 1025; 1028; 1030; 1031; 1038; 1040; 1041; 1042; 1043; 1044];
  [1045; 1046; 1047; 1048; 1049; 1050; 1051; 1052; 1053; 1054; 1055; 1056; 1057; 1058; 1059; 1060];
  [1061; 1062; 1063; 1064; 1065; 1066; 1067; 1068; 1069; 1070; 1071; 1072; 1073; 1074; 1075; 1076];
  [1077; 1078; 1079; 1080; 1081; 1082; 1083; 1084; 1085; 1086; 1087; 1088; 1089; 1090; 1091; 1092];
  [1093; 1094; 1095; 1096; 1097; 1098; 1099; 1100; 1101; 1102; 1103; 1105; 1108; 1110; 1111; 1118];
  [1168; 1169; 8729; 8730; 8776; 8804; 8805; 8992; 8993; 9472; 9474; 9484; 9488; 9492; 9496; 9500];
  [9508; 9516; 9524; 9532; 9552; 9553; 9554; 9556; 9559; 9560; 9561; 9562; 9563; 9566; 9567; 9568];
  [9569; 9571; 9574; 9575; 9576; 9577; 9578; 9600; 9604; 9608; 9612; 9616; 9617; 9618; 9619; 9632]].

(** indexes_pointer.cpp:66 *)
Definition index_pointer_koi8_u_1 : list Z := concat [
  [26; 63; 28; 29; 30; 31; 51; 52; 54; 55; 62; 97; 98; 119; 103; 100];
  [101; 118; 122; 105; 106; 107; 108; 109; 110; 111; 112; 114; 115; 116; 117; 102];
  [104; 99; 126; 123; 125; 127; 121; 120; 124; 96; 113; 65; 66; 87; 71; 68];
  [69; 86; 90; 73; 74; 75; 76; 77; 78; 79; 80; 82; 83; 84; 85; 70];
  [72; 67; 94; 91; 93; 95; 89; 88; 92; 64; 81; 35; 36; 38; 39; 46];
  [61; 45; 21; 22; 23; 24; 25; 19; 27; 0; 1; 2; 3; 4; 5; 6];
  [7; 8; 9; 10; 32; 33; 34; 37; 40; 41; 42; 43; 44; 47; 48; 49];
  [50; 53; 56; 57; 58; 59; 60; 11; 12; 13; 14; 15; 16; 17; 18; 20]].

(** indexes_pointer.cpp:68 *)
Definition index_pointer_macintosh_0 : list Z := concat [
  [160; 161; 162; 163; 165; 167; 168; 169; 170; 171; 172; 174; 175; 176; 177; 180];
  [181; 182; 183; 184; 186; 187; 191; 192; 193; 194; 195; 196; 197; 198; 199; 200];
  [201; 202; 203; 204; 205; 206; 207; 209; 210; 211; 212; 213; 214; 216; 217; 218];
  [219; 220; 223; 224; 225; 226; 227; 228; 229; 230; 231; 232; 233; 234; 235; 236];
  [237; 238; 239; 241; 242; 243; 244; 245; 246; 247; 248; 249; 250; 251; 252; 255];
  [305; 338; 339; 376; 402; 710; 711; 728; 729; 730; 731; 732; 733; 937; 960; 8211];
  [8212; 8216; 8217; 8218; 8220; 8221; 8222; 8224; 8225; 8226; 8230; 8240; 8249; 8250; 8260; 8364];
  [8482; 8706; 8710; 8719; 8721; 8730; 8734; 8747; 8776; 8800; 8804; 8805; 9674; 63743; 64257; 64258]].

(** indexes_pointer.cpp:69 *)
Definition index_pointer_macintosh_1 : list Z := concat [
  [74; 65; 34; 35; 52; 36; 44; 41; 59; 71; 66; 40; 120; 33; 49; 43];
  [53; 38; 97; 124; 60; 72; 64; 75; 103; 101; 76; 0; 1; 46; 2; 105];
  [3; 102; 104; 109; 106; 107; 108; 4; 113; 110; 111; 77; 5; 47; 116; 114];
  [115; 6; 39; 8; 7; 9; 11; 10; 12; 62; 13; 15; 14; 16; 17; 19];
  [18; 20; 21; 22; 24; 23; 25; 27; 26; 86; 63; 29; 28; 30; 31; 88];
  [117; 78; 79; 89; 68; 118; 127; 121; 122; 123; 126; 119; 125; 61; 57; 80];
  [81; 84; 85; 98; 82; 83; 99; 32; 96; 37; 73; 100; 92; 93; 90; 91];
  [42; 54; 70; 56; 55; 67; 48; 58; 69; 45; 50; 51; 87; 112; 94; 95]].

(** indexes_pointer.cpp:71 *)
Definition index_pointer_windows_874_0 : list Z := concat [
  [129; 130; 131; 132; 134; 135; 136; 137; 138; 139; 140; 141; 142; 143; 144; 152];
  [153; 154; 155; 156; 157; 158; 159; 160; 3585; 3586; 3587; 3588; 3589; 3590; 3591; 3592];
  [3593; 3594; 3595; 3596; 3597; 3598; 3599; 3600; 3601; 3602; 3603; 3604; 3605; 3606; 3607; 3608];
  [3609; 3610; 3611; 3612; 3613; 3614; 3615; 3616; 3617; 3618; 3619; 3620; 3621; 3622; 3623; 3624];
  [3625; 3626; 3627; 3628; 3629; 3630; 3631; 3632; 3633; 3634; 3635; 3636; 3637; 3638; 3639; 3640];
  [3641; 3642; 3647; 3648; 3649; 3650; 3651; 3652; 3653; 3654; 3655; 3656; 3657; 3658; 3659; 3660];
  [3661; 3662; 3663; 3664; 3665; 3666; 3667; 3668; 3669; 3670; 3671; 3672; 3673; 3674; 3675; 8211];
  [8212; 8216; 8217; 8220; 8221; 8226; 8230; 8364]].

(** indexes_pointer.cpp:72 *)
Definition index_pointer_windows_874_1 : list Z := concat [
  [1; 2; 3; 4; 6; 7; 8; 9; 10; 11; 12; 13; 14; 15; 16; 24];
  [25; 26; 27; 28; 29; 30; 31; 32; 33; 34; 35; 36; 37; 38; 39; 40];
  [41; 42; 43; 44; 45; 46; 47; 48; 49; 50; 51; 52; 53; 54; 55; 56];
  [57; 58; 59; 60; 61; 62; 63; 64; 65; 66; 67; 68; 69; 70; 71; 72];
  [73; 74; 75; 76; 77; 78; 79; 80; 81; 82; 83; 84; 85; 86; 87; 88];
  [89; 90; 95; 96; 97; 98; 99; 100; 101; 102; 103; 104; 105; 106; 107; 108];
  [109; 110; 111; 112; 113; 114; 115; 116; 117; 118; 119; 120; 121; 122; 123; 22];
  [23; 17; 18; 19; 20; 21; 5; 0]].

(** indexes_pointer.cpp:74 *)
Definition index_pointer_windows_1250_0 : list Z := concat [
  [129; 131; 136; 144; 152; 160; 164; 166; 167; 168; 169; 171; 172; 173; 174; 176];
  [177; 180; 181; 182; 183; 184; 187; 193; 194; 196; 199; 201; 203; 205; 206; 211];
  [212; 214; 215; 218; 220; 221; 223; 225; 226; 228; 231; 233; 235; 237; 238; 243];
  [244; 246; 247; 250; 252; 253; 258; 259; 260; 261; 262; 263; 268; 269; 270; 271];
  [272; 273; 280; 281; 282; 283; 313; 314; 317; 318; 321; 322; 323; 324; 327; 328];
  [336; 337; 340; 341; 344; 345; 346; 347; 350; 351; 352; 353; 354; 355; 356; 357];
  [366; 367; 368; 369; 377; 378; 379; 380; 381; 382; 711; 728; 729; 731; 733; 8211];
  [8212; 8216; 8217; 8218; 8220; 8221; 8222; 8224; 8225; 8226; 8230; 8240; 8249; 8250; 8364; 8482]].

(** indexes_pointer.cpp:75 *)
Definition index_pointer_windows_1250_1 : list Z := concat [
  [1; 3; 8; 16; 24; 32; 36; 38; 39; 40; 41; 43; 44; 45; 46; 48];
  [49; 52; 53; 54; 55; 56; 59; 65; 66; 68; 71; 73; 75; 77; 78; 83];
  [84; 86; 87; 90; 92; 93; 95; 97; 98; 100; 103; 105; 107; 109; 110; 115];
  [116; 118; 119; 122; 124; 125; 67; 99; 37; 57; 70; 102; 72; 104; 79; 111];
  [80; 112; 74; 106; 76; 108; 69; 101; 60; 62; 35; 51; 81; 113; 82; 114];
  [85; 117; 64; 96; 88; 120; 12; 28; 42; 58; 10; 26; 94; 126; 13; 29];
  [89; 121; 91; 123; 15; 31; 47; 63; 14; 30; 33; 34; 127; 50; 61; 22];
  [23; 17; 18; 2; 19; 20; 4; 6; 7; 21; 5; 9; 11; 27; 0; 25]].

(** indexes_pointer.cpp:77 *)
Definition index_pointer_windows_1251_0 : list Z := concat [
  [152; 160; 164; 166; 167; 169; 171; 172; 173; 174; 176; 177; 181; 182; 183; 187];
  [1025; 1026; 1027; 1028; 1029; 1030; 1031; 1032; 1033; 1034; 1035; 1036; 1038; 1039; 1040; 1041];
  [1042; 1043; 1044; 1045; 1046; 1047; 1048; 1049; 1050; 1051; 1052; 1053; 1054; 1055; 1056; 1057];
  [1058; 1059; 1060; 1061; 1062; 1063; 1064; 1065; 1066; 1067; 1068; 1069; 1070; 1071; 1072; 1073];
  [1074; 1075; 1076; 1077; 1078; 1079; 1080; 1081; 1082; 1083; 1084; 1085; 1086; 1087; 1088; 1089];
  [1090; 1091; 1092; 1093; 1094; 1095; 1096; 1097; 1098; 1099; 1100; 1101; 1102; 1103; 1105; 1106];
  [1107; 1108; 1109; 1110; 1111; 1112; 1113; 1114; 1115; 1116; 1118; 1119; 1168; 1169; 8211; 8212];
  [8216; 8217; 8218; 8220; 8221; 8222; 8224; 8225; 8226; 8230; 8240; 8249; 8250; 8364; 8470; 8482]].

(** indexes_pointer.cpp:78 *)
Definition index_pointer_windows_1251_1 : list Z := concat [
  [24; 32; 36; 38; 39; 41; 43; 44; 45; 46; 48; 49; 53; 54; 55; 59];
  [40; 0; 1; 42; 61; 50; 47; 35; 10; 12; 14; 13; 33; 15; 64; 65];
  [66; 67; 68; 69; 70; 71; 72; 73; 74; 75; 76; 77; 78; 79; 80; 81];
  [82; 83; 84; 85; 86; 87; 88; 89; 90; 91; 92; 93; 94; 95; 96; 97];
  [98; 99; 100; 101; 102; 103; 104; 105; 106; 107; 108; 109; 110; 111; 112; 113];
  [114; 115; 116; 117; 118; 119; 120; 121; 122; 123; 124; 125; 126; 127; 56; 16];
  [3; 58; 62; 51; 63; 60; 26; 28; 30; 29; 34; 31; 37; 52; 22; 23];
  [17; 18; 2; 19; 20; 4; 6; 7; 21; 5; 9; 11; 27; 8; 57; 25]].

(** indexes_pointer.cpp:80 *)
Definition index_pointer_windows_1252_0 : list Z := concat [
  [129; 141; 143; 144; 157; 160; 161; 162; 163; 164; 165; 166; 167; 168; 169; 170];
  [171; 172; 173; 174; 175; 176; 177; 178; 179; 180; 181; 182; 183; 184; 185; 186];
  [187; 188; 189; 190; 191; 192; 193; 194; 195; 196; 197; 198; 199; 200; 201; 202];
  [203; 204; 205; 206; 207; 208; 209; 210; 211; 212; 213; 214; 215; 216; 217; 218];
  [219; 220; 221; 222; 223; 224; 225; 226; 227; 228; 229; 230; 231; 232; 233; 234];
  [235; 236; 237; 238; 239; 240; 241; 242; 243; 244; 245; 246; 247; 248; 249; 250];
  [251; 252; 253; 254; 255; 338; 339; 352; 353; 376; 381; 382; 402; 710; 732; 8211];
  [8212; 8216; 8217; 8218; 8220; 8221; 8222; 8224; 8225; 8226; 8230; 8240; 8249; 8250; 8364; 8482]].

(** indexes_pointer.cpp:81 *)
Definition index_pointer_windows_1252_1 : list Z := concat [
  [1; 13; 15; 16; 29; 32; 33; 34; 35; 36; 37; 38; 39; 40; 41; 42];
  [43; 44; 45; 46; 47; 48; 49; 50; 51; 52; 53; 54; 55; 56; 57; 58];
  [59; 60; 61; 62; 63; 64; 65; 66; 67; 68; 69; 70; 71; 72; 73; 74];
  [75; 76; 77; 78; 79; 80; 81; 82; 83; 84; 85; 86; 87; 88; 89; 90];
  [91; 92; 93; 94; 95; 96; 97; 98; 99; 100; 101; 102; 103; 104; 105; 106];
  [107; 108; 109; 110; 111; 112; 113; 114; 115; 116; 117; 118; 119; 120; 121; 122];
  [123; 124; 125; 126; 127; 12; 28; 10; 26; 31; 14; 30; 3; 8; 24; 22];
  [23; 17; 18; 2; 19; 20; 4; 6; 7; 21; 5; 9; 11; 27; 0; 25]].

(** indexes_pointer.cpp:83 *)
Definition index_pointer_windows_1253_0 : list Z := concat [
  [129; 136; 138; 140; 141; 142; 143; 144; 152; 154; 156; 157; 158; 159; 160; 163];
  [164; 165; 166; 167; 168; 169; 171; 172; 173; 174; 176; 177; 178; 179; 181; 182];
  [183; 187; 189; 402; 900; 901; 902; 904; 905; 906; 908; 910; 911; 912; 913; 914];
  [915; 916; 917; 918; 919; 920; 921; 922; 923; 924; 925; 926; 927; 928; 929; 931];
  [932; 933; 934; 935; 936; 937; 938; 939; 940; 941; 942; 943; 944; 945; 946; 947];
  [948; 949; 950; 951; 952; 953; 954; 955; 956; 957; 958; 959; 960; 961; 962; 963];
  [964; 965; 966; 967; 968; 969; 970; 971; 972; 973; 974; 8211; 8212; 8213; 8216; 8217];
  [8218; 8220; 8221; 8222; 8224; 8225; 8226; 8230; 8240; 8249; 8250; 8364; 8482]].

(** indexes_pointer.cpp:84 *)
Definition index_pointer_windows_1253_1 : list Z := concat [
  [1; 8; 10; 12; 13; 14; 15; 16; 24; 26; 28; 29; 30; 31; 32; 35];
  [36; 37; 38; 39; 40; 41; 43; 44; 45; 46; 48; 49; 50; 51; 53; 54];
  [55; 59; 61; 3; 52; 33; 34; 56; 57; 58; 60; 62; 63; 64; 65; 66];
  [67; 68; 69; 70; 71; 72; 73; 74; 75; 76; 77; 78; 79; 80; 81; 83];
  [84; 85; 86; 87; 88; 89; 90; 91; 92; 93; 94; 95; 96; 97; 98; 99];
  [100; 101; 102; 103; 104; 105; 106; 107; 108; 109; 110; 111; 112; 113; 114; 115];
  [116; 117; 118; 119; 120; 121; 122; 123; 124; 125; 126; 22; 23; 47; 17; 18];
  [2; 19; 20; 4; 6; 7; 21; 5; 9; 11; 27; 0; 25]].

(** indexes_pointer.cpp:86 *)
Definition index_pointer_windows_1254_0 : list Z := concat [
  [129; 141; 142; 143; 144; 157; 158; 160; 161; 162; 163; 164; 165; 166; 167; 168];
  [169; 170; 171; 172; 173; 174; 175; 176; 177; 178; 179; 180; 181; 182; 183; 184];
  [185; 186; 187; 188; 189; 190; 191; 192; 193; 194; 195; 196; 197; 198; 199; 200];
  [201; 202; 203; 204; 205; 206; 207; 209; 210; 211; 212; 213; 214; 215; 216; 217];
  [218; 219; 220; 223; 224; 225; 226; 227; 228; 229; 230; 231; 232; 233; 234; 235];
  [236; 237; 238; 239; 241; 242; 243; 244; 245; 246; 247; 248; 249; 250; 251; 252];
  [255; 286; 287; 304; 305; 338; 339; 350; 351; 352; 353; 376; 402; 710; 732; 8211];
  [8212; 8216; 8217; 8218; 8220; 8221; 8222; 8224; 8225; 8226; 8230; 8240; 8249; 8250; 8364; 8482]].

(** indexes_pointer.cpp:87 *)
Definition index_pointer_windows_1254_1 : list Z := concat [
  [1; 13; 14; 15; 16; 29; 30; 32; 33; 34; 35; 36; 37; 38; 39; 40];
  [41; 42; 43; 44; 45; 46; 47; 48; 49; 50; 51; 52; 53; 54; 55; 56];
  [57; 58; 59; 60; 61; 62; 63; 64; 65; 66; 67; 68; 69; 70; 71; 72];
  [73; 74; 75; 76; 77; 78; 79; 81; 82; 83; 84; 85; 86; 87; 88; 89];
  [90; 91; 92; 95; 96; 97; 98; 99; 100; 101; 102; 103; 104; 105; 106; 107];
  [108; 109; 110; 111; 113; 114; 115; 116; 117; 118; 119; 120; 121; 122; 123; 124];
  [127; 80; 112; 93; 125; 12; 28; 94; 126; 10; 26; 31; 3; 8; 24; 22];
  [23; 17; 18; 2; 19; 20; 4; 6; 7; 21; 5; 9; 11; 27; 0; 25]].

(** indexes_pointer.cpp:89 *)
Definition index_pointer_windows_1255_0 : list Z := concat [
  [129; 138; 140; 141; 142; 143; 144; 154; 156; 157; 158; 159; 160; 161; 162; 163];
  [165; 166; 167; 168; 169; 171; 172; 173; 174; 175; 176; 177; 178; 179; 180; 181];
  [182; 183; 184; 185; 187; 188; 189; 190; 191; 215; 247; 402; 710; 732; 1456; 1457];
  [1458; 1459; 1460; 1461; 1462; 1463; 1464; 1465; 1466; 1467; 1468; 1469; 1470; 1471; 1472; 1473];
  [1474; 1475; 1488; 1489; 1490; 1491; 1492; 1493; 1494; 1495; 1496; 1497; 1498; 1499; 1500; 1501];
  [1502; 1503; 1504; 1505; 1506; 1507; 1508; 1509; 1510; 1511; 1512; 1513; 1514; 1520; 1521; 1522];
  [1523; 1524; 8206; 8207; 8211; 8212; 8216; 8217; 8218; 8220; 8221; 8222; 8224; 8225; 8226; 8230];
  [8240; 8249; 8250; 8362; 8364; 8482]].

(** indexes_pointer.cpp:90 *)
Definition index_pointer_windows_1255_1 : list Z := concat [
  [1; 10; 12; 13; 14; 15; 16; 26; 28; 29; 30; 31; 32; 33; 34; 35];
  [37; 38; 39; 40; 41; 43; 44; 45; 46; 47; 48; 49; 50; 51; 52; 53];
  [54; 55; 56; 57; 59; 60; 61; 62; 63; 42; 58; 3; 8; 24; 64; 65];
  [66; 67; 68; 69; 70; 71; 72; 73; 74; 75; 76; 77; 78; 79; 80; 81];
  [82; 83; 96; 97; 98; 99; 100; 101; 102; 103; 104; 105; 106; 107; 108; 109];
  [110; 111; 112; 113; 114; 115; 116; 117; 118; 119; 120; 121; 122; 84; 85; 86];
  [87; 88; 125; 126; 22; 23; 17; 18; 2; 19; 20; 4; 6; 7; 21; 5];
  [9; 11; 27; 36; 0; 25]].

(** indexes_pointer.cpp:92 *)
Definition index_pointer_windows_1256_0 : list Z := concat [
  [160; 162; 163; 164; 165; 166; 167; 168; 169; 171; 172; 173; 174; 175; 176; 177];
  [178; 179; 180; 181; 182; 183; 184; 185; 187; 188; 189; 190; 215; 224; 226; 231];
  [232; 233; 234; 235; 238; 239; 244; 247; 249; 251; 252; 338; 339; 402; 710; 1548];
  [1563; 1567; 1569; 1570; 1571; 1572; 1573; 1574; 1575; 1576; 1577; 1578; 1579; 1580; 1581; 1582];
  [1583; 1584; 1585; 1586; 1587; 1588; 1589; 1590; 1591; 1592; 1593; 1594; 1600; 1601; 1602; 1603];
  [1604; 1605; 1606; 1607; 1608; 1609; 1610; 1611; 1612; 1613; 1614; 1615; 1616; 1617; 1618; 1657];
  [1662; 1670; 1672; 1681; 1688; 1705; 1711; 1722; 1726; 1729; 1746; 8204; 8205; 8206; 8207; 8211];
  [8212; 8216; 8217; 8218; 8220; 8221; 8222; 8224; 8225; 8226; 8230; 8240; 8249; 8250; 8364; 8482]].

(** indexes_pointer.cpp:93 *)
Definition index_pointer_windows_1256_1 : list Z := concat [
  [32; 34; 35; 36; 37; 38; 39; 40; 41; 43; 44; 45; 46; 47; 48; 49];
  [50; 51; 52; 53; 54; 55; 56; 57; 59; 60; 61; 62; 87; 96; 98; 103];
  [104; 105; 106; 107; 110; 111; 116; 119; 121; 123; 124; 12; 28; 3; 8; 33];
  [58; 63; 65; 66; 67; 68; 69; 70; 71; 72; 73; 74; 75; 76; 77; 78];
  [79; 80; 81; 82; 83; 84; 85; 86; 88; 89; 90; 91; 92; 93; 94; 95];
  [97; 99; 100; 101; 102; 108; 109; 112; 113; 114; 115; 117; 118; 120; 122; 10];
  [1; 13; 15; 26; 14; 24; 16; 31; 42; 64; 127; 29; 30; 125; 126; 22];
  [23; 17; 18; 2; 19; 20; 4; 6; 7; 21; 5; 9; 11; 27; 0; 25]].

(** indexes_pointer.cpp:95 *)
Definition index_pointer_windows_1257_0 : list Z := concat [
  [129; 131; 136; 138; 140; 144; 152; 154; 156; 159; 160; 162; 163; 164; 166; 167];
  [168; 169; 171; 172; 173; 174; 175; 176; 177; 178; 179; 180; 181; 182; 183; 184];
  [185; 187; 188; 189; 190; 196; 197; 198; 201; 211; 213; 214; 215; 216; 220; 223];
  [228; 229; 230; 233; 243; 245; 246; 247; 248; 252; 256; 257; 260; 261; 262; 263];
  [268; 269; 274; 275; 278; 279; 280; 281; 290; 291; 298; 299; 302; 303; 310; 311];
  [315; 316; 321; 322; 323; 324; 325; 326; 332; 333; 342; 343; 346; 347; 352; 353];
  [362; 363; 370; 371; 377; 378; 379; 380; 381; 382; 711; 729; 731; 8211; 8212; 8216];
  [8217; 8218; 8220; 8221; 8222; 8224; 8225; 8226; 8230; 8240; 8249; 8250; 8364; 8482]].

(** indexes_pointer.cpp:96 *)
Definition index_pointer_windows_1257_1 : list Z := concat [
  [1; 3; 8; 10; 12; 16; 24; 26; 28; 31; 32; 34; 35; 36; 38; 39];
  [13; 41; 43; 44; 45; 46; 29; 48; 49; 50; 51; 52; 53; 54; 55; 15];
  [57; 59; 60; 61; 62; 68; 69; 47; 73; 83; 85; 86; 87; 40; 92; 95];
  [100; 101; 63; 105; 115; 117; 118; 119; 56; 124; 66; 98; 64; 96; 67; 99];
  [72; 104; 71; 103; 75; 107; 70; 102; 76; 108; 78; 110; 65; 97; 77; 109];
  [79; 111; 89; 121; 81; 113; 82; 114; 84; 116; 42; 58; 90; 122; 80; 112];
  [91; 123; 88; 120; 74; 106; 93; 125; 94; 126; 14; 127; 30; 22; 23; 17];
  [18; 2; 19; 20; 4; 6; 7; 21; 5; 9; 11; 27; 0; 25]].

(** indexes_pointer.cpp:98 *)
Definition index_pointer_windows_1258_0 : list Z := concat [
  [129; 138; 141; 142; 143; 144; 154; 157; 158; 160; 161; 162; 163; 164; 165; 166];
  [167; 168; 169; 170; 171; 172; 173; 174; 175; 176; 177; 178; 179; 180; 181; 182];
  [183; 184; 185; 186; 187; 188; 189; 190; 191; 192; 193; 194; 196; 197; 198; 199];
  [200; 201; 202; 203; 205; 206; 207; 209; 211; 212; 214; 215; 216; 217; 218; 219];
  [220; 223; 224; 225; 226; 228; 229; 230; 231; 232; 233; 234; 235; 237; 238; 239];
  [241; 243; 244; 246; 247; 248; 249; 250; 251; 252; 255; 258; 259; 272; 273; 338];
  [339; 376; 402; 416; 417; 431; 432; 710; 732; 768; 769; 771; 777; 803; 8211; 8212];
  [8216; 8217; 8218; 8220; 8221; 8222; 8224; 8225; 8226; 8230; 8240; 8249; 8250; 8363; 8364; 8482]].

(** indexes_pointer.cpp:99 *)
Definition index_pointer_windows_1258_1 : list Z := concat [
  [1; 10; 13; 14; 15; 16; 26; 29; 30; 32; 33; 34; 35; 36; 37; 38];
  [39; 40; 41; 42; 43; 44; 45; 46; 47; 48; 49; 50; 51; 52; 53; 54];
  [55; 56; 57; 58; 59; 60; 61; 62; 63; 64; 65; 66; 68; 69; 70; 71];
  [72; 73; 74; 75; 77; 78; 79; 81; 83; 84; 86; 87; 88; 89; 90; 91];
  [92; 95; 96; 97; 98; 100; 101; 102; 103; 104; 105; 106; 107; 109; 110; 111];
  [113; 115; 116; 118; 119; 120; 121; 122; 123; 124; 127; 67; 99; 80; 112; 12];
  [28; 31; 3; 85; 117; 93; 125; 8; 24; 76; 108; 94; 82; 114; 22; 23];
  [17; 18; 2; 19; 20; 4; 6; 7; 21; 5; 9; 11; 27; 126; 0; 25]].

(** indexes_pointer.cpp:101 *)
Definition index_pointer_x_mac_cyrillic_0 : list Z := concat [
  [160; 163; 167; 169; 171; 172; 174; 176; 177; 181; 182; 187; 247; 402; 1025; 1026];
  [1027; 1028; 1029; 1030; 1031; 1032; 1033; 1034; 1035; 1036; 1038; 1039; 1040; 1041; 1042; 1043];
  [1044; 1045; 1046; 1047; 1048; 1049; 1050; 1051; 1052; 1053; 1054; 1055; 1056; 1057; 1058; 1059];
  [1060; 1061; 1062; 1063; 1064; 1065; 1066; 1067; 1068; 1069; 1070; 1071; 1072; 1073; 1074; 1075];
  [1076; 1077; 1078; 1079; 1080; 1081; 1082; 1083; 1084; 1085; 1086; 1087; 1088; 1089; 1090; 1091];
  [1092; 1093; 1094; 1095; 1096; 1097; 1098; 1099; 1100; 1101; 1102; 1103; 1105; 1106; 1107; 1108];
  [1109; 1110; 1111; 1112; 1113; 1114; 1115; 1116; 1118; 1119; 1168; 1169; 8211; 8212; 8216; 8217];
  [8220; 8221; 8222; 8224; 8226; 8230; 8364; 8470; 8482; 8710; 8730; 8734; 8776; 8800; 8804; 8805]].

(** indexes_pointer.cpp:102 *)
Definition index_pointer_x_mac_cyrillic_1 : list Z := concat [
  [74; 35; 36; 41; 71; 66; 40; 33; 49; 53; 38; 72; 86; 68; 93; 43];
  [46; 56; 65; 39; 58; 55; 60; 62; 75; 77; 88; 90; 0; 1; 2; 3];
  [4; 5; 6; 7; 8; 9; 10; 11; 12; 13; 14; 15; 16; 17; 18; 19];
  [20; 21; 22; 23; 24; 25; 26; 27; 28; 29; 30; 31; 96; 97; 98; 99];
  [100; 101; 102; 103; 104; 105; 106; 107; 108; 109; 110; 111; 112; 113; 114; 115];
  [116; 117; 118; 119; 120; 121; 122; 123; 124; 125; 126; 95; 94; 44; 47; 57];
  [79; 52; 59; 64; 61; 63; 76; 78; 89; 91; 34; 54; 80; 81; 84; 85];
  [82; 83; 87; 32; 37; 73; 127; 92; 42; 70; 67; 48; 69; 45; 50; 51]].
