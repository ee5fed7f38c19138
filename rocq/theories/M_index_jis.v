(** Index tables of JIS X 0208, JIS X 0212 and Shift_JIS. Copied from lib/whatwg/encoding/indexes_code_point.cpp and indexes_pointer.cpp;
    4294967295 stands for a missing entry. Data only. *)
From Coq Require Import ZArith List.
Import ListNotations.
Open Scope Z_scope.

(** indexes_code_point.cpp:8 *)
Definition index_code_point_jis0208 : list Z := concat [
  [12288; 12289; 12290; 65292; 65294; 12539; 65306; 65307; 65311; 65281; 12443; 12444; 180; 65344; 168; 65342; 65507; 65343; 12541; 12542; 12445; 12446; 12291; 20189; 12293; 12294; 12295; 12540; 8213; 8208; 65295; 65340; 65374; 8741; 65372; 8230; 8229; 8216; 8217; 8220; 8221; 65288; 65289; 12308; 12309; 65339; 65341; 65371; 65373; 12296; 12297; 12298; 12299; 12300; 12301; 12302; 12303; 12304; 12305; 65291; 65293; 177; 215; 247; 65309; 8800; 65308; 65310; 8806; 8807; 8734; 8756; 9794; 9792; 176; 8242; 8243; 8451; 65509; 65284; 65504; 65505; 65285; 65283; 65286; 65290; 65312; 167; 9734; 9733; 9675; 9679; 9678; 9671];
  [9670; 9633; 9632; 9651; 9650; 9661; 9660; 8251; 12306; 8594; 8592; 8593; 8595; 12307; 4294967295; 4294967295; 4294967295; 4294967295; 4294967295; 4294967295; 4294967295; 4294967295; 4294967295; 4294967295; 4294967295; 8712; 8715; 8838; 8839; 8834; 8835; 8746; 8745; 4294967295; 4294967295; 4294967295; 4294967295; 4294967295; 4294967295; 4294967295; 4294967295; 8743; 8744; 65506; 8658; 8660; 8704; 8707; 4294967295; 4294967295; 4294967295; 4294967295; 4294967295; 4294967295; 4294967295; 4294967295; 4294967295; 4294967295; 4294967295; 8736; 8869; 8978; 8706; 8711; 8801; 8786; 8810; 8811; 8730; 8765; 8733; 8757; 8747; 8748; 4294967295; 4294967295; 4294967295; 4294967295; 4294967295; 4294967295; 4294967295; 8491; 8240; 9839; 9837; 9834; 8224; 8225; 182; 4294967295; 4294967295; 4294967295; 4294967295; 9711];
  [4294967295; 4294967295; 4294967295; 4294967295; 4294967295; 4294967295; 4294967295; 4294967295; 4294967295; 4294967295; 4294967295; 4294967295; 4294967295; 4294967295; 4294967295; 65296; 65297; 65298; 65299; 65300; 65301; 65302; 65303; 65304; 65305; 4294967295; 4294967295; 4294967295; 4294967295; 4294967295; 4294967295; 4294967295; 65313; 65314; 65315; 65316; 65317; 65318; 65319; 65320; 65321; 65322; 65323; 65324; 65325; 65326; 65327; 65328; 65329; 65330; 65331; 65332; 65333; 65334; 65335; 65336; 65337; 65338; 4294967295; 4294967295; 4294967295; 4294967295; 4294967295; 4294967295; 65345; 65346; 65347; 65348; 65349; 65350; 65351; 65352; 65353; 65354; 65355; 65356; 65357; 65358; 65359; 65360; 65361; 65362; 65363; 65364; 65365; 65366; 65367; 65368; 65369; 65370; 4294967295; 4294967295; 4294967295; 4294967295];
  [12353; 12354; 12355; 12356; 12357; 12358; 12359; 12360; 12361; 12362; 12363; 12364; 12365; 12366; 12367; 12368; 12369; 12370; 12371; 12372; 12373; 12374; 12375; 12376; 12377; 12378; 12379; 12380; 12381; 12382; 12383; 12384; 12385; 12386; 12387; 12388; 12389; 12390; 12391; 12392; 12393; 12394; 12395; 12396; 12397; 12398; 12399; 12400; 12401; 12402; 12403; 12404; 12405; 12406; 12407; 12408; 12409; 12410; 12411; 12412; 12413; 12414; 12415; 12416; 12417; 12418; 12419; 12420; 12421; 12422; 12423; 12424; 12425; 12426; 12427; 12428; 12429; 12430; 12431; 12432; 12433; 12434; 12435; 4294967295; 4294967295; 4294967295; 4294967295; 4294967295; 4294967295; 4294967295; 4294967295; 4294967295; 4294967295; 4294967295];
  [12449; 12450; 12451; 12452; 12453; 12454; 12455; 12456; 12457; 12458; 12459; 12460; 12461; 12462; 12463; 12464; 12465; 12466; 12467; 12468; 12469; 12470; 12471; 12472; 12473; 12474; 12475; 12476; 12477; 12478; 12479; 12480; 12481; 12482; 12483; 12484; 12485; 12486; 12487; 12488; 12489; 12490; 12491; 12492; 12493; 12494; 12495; 12496; 12497; 12498; 12499; 12500; 12501; 12502; 12503; 12504; 12505; 12506; 12507; 12508; 12509; 12510; 12511; 12512; 12513; 12514; 12515; 12516; 12517; 12518; 12519; 12520; 12521; 12522; 12523; 12524; 12525; 12526; 12527; 12528; 12529; 12530; 12531; 12532; 12533; 12534; 4294967295; 4294967295; 4294967295; 4294967295; 4294967295; 4294967295; 4294967295; 4294967295];
  [913; 914; 915; 916; 917; 918; 919; 920; 921; 922; 923; 924; 925; 926; 927; 928; 929; 931; 932; 933; 934; 935; 936; 937; 4294967295; 4294967295; 4294967295; 4294967295; 4294967295; 4294967295; 4294967295; 4294967295; 945; 946; 947; 948; 949; 950; 951; 952; 953; 954; 955; 956; 957; 958; 959; 960; 961; 963; 964; 965; 966; 967; 968; 969; 4294967295; 4294967295; 4294967295; 4294967295; 4294967295; 4294967295; 4294967295; 4294967295; 4294967295; 4294967295; 4294967295; 4294967295; 4294967295; 4294967295; 4294967295; 4294967295; 4294967295; 4294967295; 4294967295; 4294967295; 4294967295; 4294967295; 4294967295; 4294967295; 4294967295; 4294967295; 4294967295; 4294967295; 4294967295; 4294967295; 4294967295; 4294967295; 4294967295; 4294967295; 4294967295; 4294967295; 4294967295; 4294967295];
  [1040; 1041; 1042; 1043; 1044; 1045; 1025; 1046; 1047; 1048; 1049; 1050; 1051; 1052; 1053; 1054; 1055; 1056; 1057; 1058; 1059; 1060; 1061; 1062; 1063; 1064; 1065; 1066; 1067; 1068; 1069; 1070; 1071; 4294967295; 4294967295; 4294967295; 4294967295; 4294967295; 4294967295; 4294967295; 4294967295; 4294967295; 4294967295; 4294967295; 4294967295; 4294967295; 4294967295; 4294967295; 1072; 1073; 1074; 1075; 1076; 1077; 1105; 1078; 1079; 1080; 1081; 1082; 1083; 1084; 1085; 1086; 1087; 1088; 1089; 1090; 1091; 1092; 1093; 1094; 1095; 1096; 1097; 1098; 1099; 1100; 1101; 1102; 1103; 4294967295; 4294967295; 4294967295; 4294967295; 4294967295; 4294967295; 4294967295; 4294967295; 4294967295; 4294967295; 4294967295; 4294967295; 4294967295];
  [9472; 9474; 9484; 9488; 9496; 9492; 9500; 9516; 9508; 9524; 9532; 9473; 9475; 9487; 9491; 9499; 9495; 9507; 9523; 9515; 9531; 9547; 9504; 9519; 9512; 9527; 9535; 9501; 9520; 9509; 9528; 9538; 4294967295; 4294967295; 4294967295; 4294967295; 4294967295; 4294967295; 4294967295; 4294967295; 4294967295; 4294967295; 4294967295; 4294967295; 4294967295; 4294967295; 4294967295; 4294967295; 4294967295; 4294967295; 4294967295; 4294967295; 4294967295; 4294967295; 4294967295; 4294967295; 4294967295; 4294967295; 4294967295; 4294967295; 4294967295; 4294967295; 4294967295; 4294967295; 4294967295; 4294967295; 4294967295; 4294967295; 4294967295; 4294967295; 4294967295; 4294967295; 4294967295; 4294967295; 4294967295; 4294967295; 4294967295; 4294967295; 4294967295; 4294967295; 4294967295; 4294967295; 4294967295; 4294967295; 4294967295; 4294967295; 4294967295; 4294967295; 4294967295; 4294967295; 4294967295; 4294967295; 4294967295; 4294967295];
  [4294967295; 4294967295; 4294967295; 4294967295; 4294967295; 4294967295; 4294967295; 4294967295; 4294967295; 4294967295; 4294967295; 4294967295; 4294967295; 4294967295; 4294967295; 4294967295; 4294967295; 4294967295; 4294967295; 4294967295; 4294967295; 4294967295; 4294967295; 4294967295; 4294967295; 4294967295; 4294967295; 4294967295; 4294967295; 4294967295; 4294967295; 4294967295; 4294967295; 4294967295; 4294967295; 4294967295; 4294967295; 4294967295; 4294967295; 4294967295; 4294967295; 4294967295; 4294967295; 4294967295; 4294967295; 4294967295; 4294967295; 4294967295; 4294967295; 4294967295; 4294967295; 4294967295; 4294967295; 4294967295; 4294967295; 4294967295; 4294967295; 4294967295; 4294967295; 4294967295; 4294967295; 4294967295; 4294967295; 4294967295; 4294967295; 4294967295; 4294967295; 4294967295; 4294967295; 4294967295; 4294967295; 4294967295; 4294967295; 4294967295; 4294967295; 4294967295; 4294967295; 4294967295; 4294967295; 4294967295; 4294967295; 4294967295; 4294967295; 4294967295; 4294967295; 4294967295; 4294967295; 4294967295; 4294967295; 4294967295; 4294967295; 4294967295; 4294967295; 4294967295];
  [4294967295; 4294967295; 4294967295; 4294967295; 4294967295; 4294967295; 4294967295; 4294967295; 4294967295; 4294967295; 4294967295; 4294967295; 4294967295; 4294967295; 4294967295; 4294967295; 4294967295; 4294967295; 4294967295; 4294967295; 4294967295; 4294967295; 4294967295; 4294967295; 4294967295; 4294967295; 4294967295; 4294967295; 4294967295; 4294967295; 4294967295; 4294967295; 4294967295; 4294967295; 4294967295; 4294967295; 4294967295; 4294967295; 4294967295; 4294967295; 4294967295; 4294967295; 4294967295; 4294967295; 4294967295; 4294967295; 4294967295; 4294967295; 4294967295; 4294967295; 4294967295; 4294967295; 4294967295; 4294967295; 4294967295; 4294967295; 4294967295; 4294967295; 4294967295; 4294967295; 4294967295; 4294967295; 4294967295; 4294967295; 4294967295; 4294967295; 4294967295; 4294967295; 4294967295; 4294967295; 4294967295; 4294967295; 4294967295; 4294967295; 4294967295; 4294967295; 4294967295; 4294967295; 4294967295; 4294967295; 4294967295; 4294967295; 4294967295; 4294967295; 4294967295; 4294967295; 4294967295; 4294967295; 4294967295; 4294967295; 4294967295; 4294967295; 4294967295; 4294967295];
  [4294967295; 4294967295; 4294967295; 4294967295; 4294967295; 4294967295; 4294967295; 4294967295; 4294967295; 4294967295; 4294967295; 4294967295; 4294967295; 4294967295; 4294967295; 4294967295; 4294967295; 4294967295; 4294967295; 4294967295; 4294967295; 4294967295; 4294967295; 4294967295; 4294967295; 4294967295; 4294967295; 4294967295; 4294967295; 4294967295; 4294967295; 4294967295; 4294967295; 4294967295; 4294967295; 4294967295; 4294967295; 4294967295; 4294967295; 4294967295; 4294967295; 4294967295; 4294967295; 4294967295; 4294967295; 4294967295; 4294967295; 4294967295; 4294967295; 4294967295; 4294967295; 4294967295; 4294967295; 4294967295; 4294967295; 4294967295; 4294967295; 4294967295; 4294967295; 4294967295; 4294967295; 4294967295; 4294967295; 4294967295; 4294967295; 4294967295; 4294967295; 4294967295; 4294967295; 4294967295; 4294967295; 4294967295; 4294967295; 4294967295; 4294967295; 4294967295; 4294967295; 4294967295; 4294967295; 4294967295; 4294967295; 4294967295; 4294967295; 4294967295; 4294967295; 4294967295; 4294967295; 4294967295; 4294967295; 4294967295; 4294967295; 4294967295; 4294967295; 4294967295];
  [4294967295; 4294967295; 4294967295; 4294967295; 4294967295; 4294967295; 4294967295; 4294967295; 4294967295; 4294967295; 4294967295; 4294967295; 4294967295; 4294967295; 4294967295; 4294967295; 4294967295; 4294967295; 4294967295; 4294967295; 4294967295; 4294967295; 4294967295; 4294967295; 4294967295; 4294967295; 4294967295; 4294967295; 4294967295; 4294967295; 4294967295; 4294967295; 4294967295; 4294967295; 4294967295; 4294967295; 4294967295; 4294967295; 4294967295; 4294967295; 4294967295; 4294967295; 4294967295; 4294967295; 4294967295; 4294967295; 4294967295; 4294967295; 4294967295; 4294967295; 4294967295; 4294967295; 4294967295; 4294967295; 4294967295; 4294967295; 4294967295; 4294967295; 4294967295; 4294967295; 4294967295; 4294967295; 4294967295; 4294967295; 4294967295; 4294967295; 4294967295; 4294967295; 4294967295; 4294967295; 4294967295; 4294967295; 4294967295; 4294967295; 4294967295; 4294967295; 4294967295; 4294967295; 4294967295; 4294967295; 4294967295; 4294967295; 4294967295; 4294967295; 4294967295; 4294967295; 4294967295; 4294967295; 4294967295; 4294967295; 4294967295; 4294967295; 4294967295; 4294967295];
  [9312; 9313; 9314; 9315; 9316; 9317; 9318; 9319; 9320; 9321; 9322; 9323; 9324; 9325; 9326; 9327; 9328; 9329; 9330; 9331; 8544; 8545; 8546; 8547; 8548; 8549; 8550; 8551; 8552; 8553; 4294967295; 13129; 13076; 13090; 13133; 13080; 13095; 13059; 13110; 13137; 13143; 13069; 13094; 13091; 13099; 13130; 13115; 13212; 13213; 13214; 13198; 13199; 13252; 13217; 4294967295; 4294967295; 4294967295; 4294967295; 4294967295; 4294967295; 4294967295; 4294967295; 13179; 12317; 12319; 8470; 13261; 8481; 12964; 12965; 12966; 12967; 12968; 12849; 12850; 12857; 13182; 13181; 13180; 8786; 8801; 8747; 8750; 8721; 8730; 8869; 8736; 8735; 8895; 8757; 8745; 8746; 4294967295; 4294967295];
  [4294967295; 4294967295; 4294967295; 4294967295; 4294967295; 4294967295; 4294967295; 4294967295; 4294967295; 4294967295; 4294967295; 4294967295; 4294967295; 4294967295; 4294967295; 4294967295; 4294967295; 4294967295; 4294967295; 4294967295; 4294967295; 4294967295; 4294967295; 4294967295; 4294967295; 4294967295; 4294967295; 4294967295; 4294967295; 4294967295; 4294967295; 4294967295; 4294967295; 4294967295; 4294967295; 4294967295; 4294967295; 4294967295; 4294967295; 4294967295; 4294967295; 4294967295; 4294967295; 4294967295; 4294967295; 4294967295; 4294967295; 4294967295; 4294967295; 4294967295; 4294967295; 4294967295; 4294967295; 4294967295; 4294967295; 4294967295; 4294967295; 4294967295; 4294967295; 4294967295; 4294967295; 4294967295; 4294967295; 4294967295; 4294967295; 4294967295; 4294967295; 4294967295; 4294967295; 4294967295; 4294967295; 4294967295; 4294967295; 4294967295; 4294967295; 4294967295; 4294967295; 4294967295; 4294967295; 4294967295; 4294967295; 4294967295; 4294967295; 4294967295; 4294967295; 4294967295; 4294967295; 4294967295; 4294967295; 4294967295; 4294967295; 4294967295; 4294967295; 4294967295];
  [4294967295; 4294967295; 4294967295; 4294967295; 4294967295; 4294967295; 4294967295; 4294967295; 4294967295; 4294967295; 4294967295; 4294967295; 4294967295; 4294967295; 4294967295; 4294967295; 4294967295; 4294967295; 4294967295; 4294967295; 4294967295; 4294967295; 4294967295; 4294967295; 4294967295; 4294967295; 4294967295; 4294967295; 4294967295; 4294967295; 4294967295; 4294967295; 4294967295; 4294967295; 4294967295; 4294967295; 4294967295; 4294967295; 4294967295; 4294967295; 4294967295; 4294967295; 4294967295; 4294967295; 4294967295; 4294967295; 4294967295; 4294967295; 4294967295; 4294967295; 4294967295; 4294967295; 4294967295; 4294967295; 4294967295; 4294967295; 4294967295; 4294967295; 4294967295; 4294967295; 4294967295; 4294967295; 4294967295; 4294967295; 4294967295; 4294967295; 4294967295; 4294967295; 4294967295; 4294967295; 4294967295; 4294967295; 4294967295; 4294967295; 4294967295; 4294967295; 4294967295; 4294967295; 4294967295; 4294967295; 4294967295; 4294967295; 4294967295; 4294967295; 4294967295; 4294967295; 4294967295; 4294967295; 4294967295; 4294967295; 4294967295; 4294967295; 4294967295; 4294967295];
  [20124; 21782; 23043; 38463; 21696; 24859; 25384; 23030; 36898; 33909; 33564; 31312; 24746; 25569; 28197; 26093; 33894; 33446; 39925; 26771; 22311; 26017; 25201; 23451; 22992; 34427; 39156; 32098; 32190; 39822; 25110; 31903; 34999; 23433; 24245; 25353; 26263; 26696; 38343; 38797; 26447; 20197; 20234; 20301; 20381; 20553; 22258; 22839; 22996; 23041; 23561; 24799; 24847; 24944; 26131; 26885; 28858; 30031; 30064; 31227; 32173; 32239; 32963; 33806; 34915; 35586; 36949; 36986; 21307; 20117; 20133; 22495; 32946; 37057; 30959; 19968; 22769; 28322; 36920; 31282; 33576; 33419; 39983; 20801; 21360; 21693; 21729; 22240; 23035; 24341; 39154; 28139; 32996; 34093];
  [38498; 38512; 38560; 38907; 21515; 21491; 23431; 28879; 32701; 36802; 38632; 21359; 40284; 31418; 19985; 30867; 33276; 28198; 22040; 21764; 27421; 34074; 39995; 23013; 21417; 28006; 29916; 38287; 22082; 20113; 36939; 38642; 33615; 39180; 21473; 21942; 23344; 24433; 26144; 26355; 26628; 27704; 27891; 27945; 29787; 30408; 31310; 38964; 33521; 34907; 35424; 37613; 28082; 30123; 30410; 39365; 24742; 35585; 36234; 38322; 27022; 21421; 20870; 22290; 22576; 22852; 23476; 24310; 24616; 25513; 25588; 27839; 28436; 28814; 28948; 29017; 29141; 29503; 32257; 33398; 33489; 34199; 36960; 37467; 40219; 22633; 26044; 27738; 29989; 20985; 22830; 22885; 24448; 24540];
  [25276; 26106; 27178; 27431; 27572; 29579; 32705; 35158; 40236; 40206; 40644; 23713; 27798; 33659; 20740; 23627; 25014; 33222; 26742; 29281; 20057; 20474; 21368; 24681; 28201; 31311; 38899; 19979; 21270; 20206; 20309; 20285; 20385; 20339; 21152; 21487; 22025; 22799; 23233; 23478; 23521; 31185; 26247; 26524; 26550; 27468; 27827; 28779; 29634; 31117; 31166; 31292; 31623; 33457; 33499; 33540; 33655; 33775; 33747; 34662; 35506; 22057; 36008; 36838; 36942; 38686; 34442; 20420; 23784; 25105; 29273; 30011; 33253; 33469; 34558; 36032; 38597; 39187; 39381; 20171; 20250; 35299; 22238; 22602; 22730; 24315; 24555; 24618; 24724; 24674; 25040; 25106; 25296; 25913];
  [39745; 26214; 26800; 28023; 28784; 30028; 30342; 32117; 33445; 34809; 38283; 38542; 35997; 20977; 21182; 22806; 21683; 23475; 23830; 24936; 27010; 28079; 30861; 33995; 34903; 35442; 37799; 39608; 28012; 39336; 34521; 22435; 26623; 34510; 37390; 21123; 22151; 21508; 24275; 25313; 25785; 26684; 26680; 27579; 29554; 30906; 31339; 35226; 35282; 36203; 36611; 37101; 38307; 38548; 38761; 23398; 23731; 27005; 38989; 38990; 25499; 31520; 27179; 27263; 26806; 39949; 28511; 21106; 21917; 24688; 25324; 27963; 28167; 28369; 33883; 35088; 36676; 19988; 39993; 21494; 26907; 27194; 38788; 26666; 20828; 31427; 33970; 37340; 37772; 22107; 40232; 26658; 33541; 33841];
  [31909; 21000; 33477; 29926; 20094; 20355; 20896; 23506; 21002; 21208; 21223; 24059; 21914; 22570; 23014; 23436; 23448; 23515; 24178; 24185; 24739; 24863; 24931; 25022; 25563; 25954; 26577; 26707; 26874; 27454; 27475; 27735; 28450; 28567; 28485; 29872; 29976; 30435; 30475; 31487; 31649; 31777; 32233; 32566; 32752; 32925; 33382; 33694; 35251; 35532; 36011; 36996; 37969; 38291; 38289; 38306; 38501; 38867; 39208; 33304; 20024; 21547; 23736; 24012; 29609; 30284; 30524; 23721; 32747; 36107; 38593; 38929; 38996; 39000; 20225; 20238; 21361; 21916; 22120; 22522; 22855; 23305; 23492; 23696; 24076; 24190; 24524; 25582; 26426; 26071; 26082; 26399; 26827; 26820];
  [27231; 24112; 27589; 27671; 27773; 30079; 31048; 23395; 31232; 32000; 24509; 35215; 35352; 36020; 36215; 36556; 36637; 39138; 39438; 39740; 20096; 20605; 20736; 22931; 23452; 25135; 25216; 25836; 27450; 29344; 30097; 31047; 32681; 34811; 35516; 35696; 25516; 33738; 38816; 21513; 21507; 21931; 26708; 27224; 35440; 30759; 26485; 40653; 21364; 23458; 33050; 34384; 36870; 19992; 20037; 20167; 20241; 21450; 21560; 23470; 24339; 24613; 25937; 26429; 27714; 27762; 27875; 28792; 29699; 31350; 31406; 31496; 32026; 31998; 32102; 26087; 29275; 21435; 23621; 24040; 25298; 25312; 25369; 28192; 34394; 35377; 36317; 37624; 28417; 31142; 39770; 20136; 20139; 20140];
  [20379; 20384; 20689; 20807; 31478; 20849; 20982; 21332; 21281; 21375; 21483; 21932; 22659; 23777; 24375; 24394; 24623; 24656; 24685; 25375; 25945; 27211; 27841; 29378; 29421; 30703; 33016; 33029; 33288; 34126; 37111; 37857; 38911; 39255; 39514; 20208; 20957; 23597; 26241; 26989; 23616; 26354; 26997; 29577; 26704; 31873; 20677; 21220; 22343; 24062; 37670; 26020; 27427; 27453; 29748; 31105; 31165; 31563; 32202; 33465; 33740; 34943; 35167; 35641; 36817; 37329; 21535; 37504; 20061; 20534; 21477; 21306; 29399; 29590; 30697; 33510; 36527; 39366; 39368; 39378; 20855; 24858; 34398; 21936; 31354; 20598; 23507; 36935; 38533; 20018; 27355; 37351; 23633; 23624];
  [25496; 31391; 27795; 38772; 36705; 31402; 29066; 38536; 31874; 26647; 32368; 26705; 37740; 21234; 21531; 34219; 35347; 32676; 36557; 37089; 21350; 34952; 31041; 20418; 20670; 21009; 20804; 21843; 22317; 29674; 22411; 22865; 24418; 24452; 24693; 24950; 24935; 25001; 25522; 25658; 25964; 26223; 26690; 28179; 30054; 31293; 31995; 32076; 32153; 32331; 32619; 33550; 33610; 34509; 35336; 35427; 35686; 36605; 38938; 40335; 33464; 36814; 39912; 21127; 25119; 25731; 28608; 38553; 26689; 20625; 27424; 27770; 28500; 31348; 32080; 34880; 35363; 26376; 20214; 20537; 20518; 20581; 20860; 21048; 21091; 21927; 22287; 22533; 23244; 24314; 25010; 25080; 25331; 25458];
  [26908; 27177; 29309; 29356; 29486; 30740; 30831; 32121; 30476; 32937; 35211; 35609; 36066; 36562; 36963; 37749; 38522; 38997; 39443; 40568; 20803; 21407; 21427; 24187; 24358; 28187; 28304; 29572; 29694; 32067; 33335; 35328; 35578; 38480; 20046; 20491; 21476; 21628; 22266; 22993; 23396; 24049; 24235; 24359; 25144; 25925; 26543; 28246; 29392; 31946; 34996; 32929; 32993; 33776; 34382; 35463; 36328; 37431; 38599; 39015; 40723; 20116; 20114; 20237; 21320; 21577; 21566; 23087; 24460; 24481; 24735; 26791; 27278; 29786; 30849; 35486; 35492; 35703; 37264; 20062; 39881; 20132; 20348; 20399; 20505; 20502; 20809; 20844; 21151; 21177; 21246; 21402; 21475; 21521];
  [21518; 21897; 22353; 22434; 22909; 23380; 23389; 23439; 24037; 24039; 24055; 24184; 24195; 24218; 24247; 24344; 24658; 24908; 25239; 25304; 25511; 25915; 26114; 26179; 26356; 26477; 26657; 26775; 27083; 27743; 27946; 28009; 28207; 28317; 30002; 30343; 30828; 31295; 31968; 32005; 32024; 32094; 32177; 32789; 32771; 32943; 32945; 33108; 33167; 33322; 33618; 34892; 34913; 35611; 36002; 36092; 37066; 37237; 37489; 30783; 37628; 38308; 38477; 38917; 39321; 39640; 40251; 21083; 21163; 21495; 21512; 22741; 25335; 28640; 35946; 36703; 40633; 20811; 21051; 21578; 22269; 31296; 37239; 40288; 40658; 29508; 28425; 33136; 29969; 24573; 24794; 39592; 29403; 36796];
  [27492; 38915; 20170; 22256; 22372; 22718; 23130; 24680; 25031; 26127; 26118; 26681; 26801; 28151; 30165; 32058; 33390; 39746; 20123; 20304; 21449; 21766; 23919; 24038; 24046; 26619; 27801; 29811; 30722; 35408; 37782; 35039; 22352; 24231; 25387; 20661; 20652; 20877; 26368; 21705; 22622; 22971; 23472; 24425; 25165; 25505; 26685; 27507; 28168; 28797; 37319; 29312; 30741; 30758; 31085; 25998; 32048; 33756; 35009; 36617; 38555; 21092; 22312; 26448; 32618; 36001; 20916; 22338; 38442; 22586; 27018; 32948; 21682; 23822; 22524; 30869; 40442; 20316; 21066; 21643; 25662; 26152; 26388; 26613; 31364; 31574; 32034; 37679; 26716; 39853; 31545; 21273; 20874; 21047];
  [23519; 25334; 25774; 25830; 26413; 27578; 34217; 38609; 30352; 39894; 25420; 37638; 39851; 30399; 26194; 19977; 20632; 21442; 23665; 24808; 25746; 25955; 26719; 29158; 29642; 29987; 31639; 32386; 34453; 35715; 36059; 37240; 39184; 26028; 26283; 27531; 20181; 20180; 20282; 20351; 21050; 21496; 21490; 21987; 22235; 22763; 22987; 22985; 23039; 23376; 23629; 24066; 24107; 24535; 24605; 25351; 25903; 23388; 26031; 26045; 26088; 26525; 27490; 27515; 27663; 29509; 31049; 31169; 31992; 32025; 32043; 32930; 33026; 33267; 35222; 35422; 35433; 35430; 35468; 35566; 36039; 36060; 38604; 39164; 27503; 20107; 20284; 20365; 20816; 23383; 23546; 24904; 25345; 26178];
  [27425; 28363; 27835; 29246; 29885; 30164; 30913; 31034; 32780; 32819; 33258; 33940; 36766; 27728; 40575; 24335; 35672; 40235; 31482; 36600; 23437; 38635; 19971; 21489; 22519; 22833; 23241; 23460; 24713; 28287; 28422; 30142; 36074; 23455; 34048; 31712; 20594; 26612; 33437; 23649; 34122; 32286; 33294; 20889; 23556; 25448; 36198; 26012; 29038; 31038; 32023; 32773; 35613; 36554; 36974; 34503; 37034; 20511; 21242; 23610; 26451; 28796; 29237; 37196; 37320; 37675; 33509; 23490; 24369; 24825; 20027; 21462; 23432; 25163; 26417; 27530; 29417; 29664; 31278; 33131; 36259; 37202; 39318; 20754; 21463; 21610; 23551; 25480; 27193; 32172; 38656; 22234; 21454; 21608];
  [23447; 23601; 24030; 20462; 24833; 25342; 27954; 31168; 31179; 32066; 32333; 32722; 33261; 33311; 33936; 34886; 35186; 35728; 36468; 36655; 36913; 37195; 37228; 38598; 37276; 20160; 20303; 20805; 21313; 24467; 25102; 26580; 27713; 28171; 29539; 32294; 37325; 37507; 21460; 22809; 23487; 28113; 31069; 32302; 31899; 22654; 29087; 20986; 34899; 36848; 20426; 23803; 26149; 30636; 31459; 33308; 39423; 20934; 24490; 26092; 26991; 27529; 28147; 28310; 28516; 30462; 32020; 24033; 36981; 37255; 38918; 20966; 21021; 25152; 26257; 26329; 28186; 24246; 32210; 32626; 26360; 34223; 34295; 35576; 21161; 21465; 22899; 24207; 24464; 24661; 37604; 38500; 20663; 20767];
  [21213; 21280; 21319; 21484; 21736; 21830; 21809; 22039; 22888; 22974; 23100; 23477; 23558; 23567; 23569; 23578; 24196; 24202; 24288; 24432; 25215; 25220; 25307; 25484; 25463; 26119; 26124; 26157; 26230; 26494; 26786; 27167; 27189; 27836; 28040; 28169; 28248; 28988; 28966; 29031; 30151; 30465; 30813; 30977; 31077; 31216; 31456; 31505; 31911; 32057; 32918; 33750; 33931; 34121; 34909; 35059; 35359; 35388; 35412; 35443; 35937; 36062; 37284; 37478; 37758; 37912; 38556; 38808; 19978; 19976; 19998; 20055; 20887; 21104; 22478; 22580; 22732; 23330; 24120; 24773; 25854; 26465; 26454; 27972; 29366; 30067; 31331; 33976; 35698; 37304; 37664; 22065; 22516; 39166];
  [25325; 26893; 27542; 29165; 32340; 32887; 33394; 35302; 39135; 34645; 36785; 23611; 20280; 20449; 20405; 21767; 23072; 23517; 23529; 24515; 24910; 25391; 26032; 26187; 26862; 27035; 28024; 28145; 30003; 30137; 30495; 31070; 31206; 32051; 33251; 33455; 34218; 35242; 35386; 36523; 36763; 36914; 37341; 38663; 20154; 20161; 20995; 22645; 22764; 23563; 29978; 23613; 33102; 35338; 36805; 38499; 38765; 31525; 35535; 38920; 37218; 22259; 21416; 36887; 21561; 22402; 24101; 25512; 27700; 28810; 30561; 31883; 32736; 34928; 36930; 37204; 37648; 37656; 38543; 29790; 39620; 23815; 23913; 25968; 26530; 36264; 38619; 25454; 26441; 26905; 33733; 38935; 38592; 35070];
  [28548; 25722; 23544; 19990; 28716; 30045; 26159; 20932; 21046; 21218; 22995; 24449; 24615; 25104; 25919; 25972; 26143; 26228; 26866; 26646; 27491; 28165; 29298; 29983; 30427; 31934; 32854; 22768; 35069; 35199; 35488; 35475; 35531; 36893; 37266; 38738; 38745; 25993; 31246; 33030; 38587; 24109; 24796; 25114; 26021; 26132; 26512; 30707; 31309; 31821; 32318; 33034; 36012; 36196; 36321; 36447; 30889; 20999; 25305; 25509; 25666; 25240; 35373; 31363; 31680; 35500; 38634; 32118; 33292; 34633; 20185; 20808; 21315; 21344; 23459; 23554; 23574; 24029; 25126; 25159; 25776; 26643; 26676; 27849; 27973; 27927; 26579; 28508; 29006; 29053; 26059; 31359; 31661; 32218];
  [32330; 32680; 33146; 33307; 33337; 34214; 35438; 36046; 36341; 36984; 36983; 37549; 37521; 38275; 39854; 21069; 21892; 28472; 28982; 20840; 31109; 32341; 33203; 31950; 22092; 22609; 23720; 25514; 26366; 26365; 26970; 29401; 30095; 30094; 30990; 31062; 31199; 31895; 32032; 32068; 34311; 35380; 38459; 36961; 40736; 20711; 21109; 21452; 21474; 20489; 21930; 22766; 22863; 29245; 23435; 23652; 21277; 24803; 24819; 25436; 25475; 25407; 25531; 25805; 26089; 26361; 24035; 27085; 27133; 28437; 29157; 20105; 30185; 30456; 31379; 31967; 32207; 32156; 32865; 33609; 33624; 33900; 33980; 34299; 35013; 36208; 36865; 36973; 37783; 38684; 39442; 20687; 22679; 24974];
  [33235; 34101; 36104; 36896; 20419; 20596; 21063; 21363; 24687; 25417; 26463; 28204; 36275; 36895; 20439; 23646; 36042; 26063; 32154; 21330; 34966; 20854; 25539; 23384; 23403; 23562; 25613; 26449; 36956; 20182; 22810; 22826; 27760; 35409; 21822; 22549; 22949; 24816; 25171; 26561; 33333; 26965; 38464; 39364; 39464; 20307; 22534; 23550; 32784; 23729; 24111; 24453; 24608; 24907; 25140; 26367; 27888; 28382; 32974; 33151; 33492; 34955; 36024; 36864; 36910; 38538; 40667; 39899; 20195; 21488; 22823; 31532; 37261; 38988; 40441; 28381; 28711; 21331; 21828; 23429; 25176; 25246; 25299; 27810; 28655; 29730; 35351; 37944; 28609; 35582; 33592; 20967; 34552; 21482];
  [21481; 20294; 36948; 36784; 22890; 33073; 24061; 31466; 36799; 26842; 35895; 29432; 40008; 27197; 35504; 20025; 21336; 22022; 22374; 25285; 25506; 26086; 27470; 28129; 28251; 28845; 30701; 31471; 31658; 32187; 32829; 32966; 34507; 35477; 37723; 22243; 22727; 24382; 26029; 26262; 27264; 27573; 30007; 35527; 20516; 30693; 22320; 24347; 24677; 26234; 27744; 30196; 31258; 32622; 33268; 34584; 36933; 39347; 31689; 30044; 31481; 31569; 33988; 36880; 31209; 31378; 33590; 23265; 30528; 20013; 20210; 23449; 24544; 25277; 26172; 26609; 27880; 34411; 34935; 35387; 37198; 37619; 39376; 27159; 28710; 29482; 33511; 33879; 36015; 19969; 20806; 20939; 21899; 23541];
  [24086; 24115; 24193; 24340; 24373; 24427; 24500; 25074; 25361; 26274; 26397; 28526; 29266; 30010; 30522; 32884; 33081; 33144; 34678; 35519; 35548; 36229; 36339; 37530; 38263; 38914; 40165; 21189; 25431; 30452; 26389; 27784; 29645; 36035; 37806; 38515; 27941; 22684; 26894; 27084; 36861; 37786; 30171; 36890; 22618; 26626; 25524; 27131; 20291; 28460; 26584; 36795; 34086; 32180; 37716; 26943; 28528; 22378; 22775; 23340; 32044; 29226; 21514; 37347; 40372; 20141; 20302; 20572; 20597; 21059; 35998; 21576; 22564; 23450; 24093; 24213; 24237; 24311; 24351; 24716; 25269; 25402; 25552; 26799; 27712; 30855; 31118; 31243; 32224; 33351; 35330; 35558; 36420; 36883];
  [37048; 37165; 37336; 40718; 27877; 25688; 25826; 25973; 28404; 30340; 31515; 36969; 37841; 28346; 21746; 24505; 25764; 36685; 36845; 37444; 20856; 22635; 22825; 23637; 24215; 28155; 32399; 29980; 36028; 36578; 39003; 28857; 20253; 27583; 28593; 30000; 38651; 20814; 21520; 22581; 22615; 22956; 23648; 24466; 26007; 26460; 28193; 30331; 33759; 36077; 36884; 37117; 37709; 30757; 30778; 21162; 24230; 22303; 22900; 24594; 20498; 20826; 20908; 20941; 20992; 21776; 22612; 22616; 22871; 23445; 23798; 23947; 24764; 25237; 25645; 26481; 26691; 26812; 26847; 30423; 28120; 28271; 28059; 28783; 29128; 24403; 30168; 31095; 31561; 31572; 31570; 31958; 32113; 21040];
  [33891; 34153; 34276; 35342; 35588; 35910; 36367; 36867; 36879; 37913; 38518; 38957; 39472; 38360; 20685; 21205; 21516; 22530; 23566; 24999; 25758; 27934; 30643; 31461; 33012; 33796; 36947; 37509; 23776; 40199; 21311; 24471; 24499; 28060; 29305; 30563; 31167; 31716; 27602; 29420; 35501; 26627; 27233; 20984; 31361; 26932; 23626; 40182; 33515; 23493; 37193; 28702; 22136; 23663; 24775; 25958; 27788; 35930; 36929; 38931; 21585; 26311; 37389; 22856; 37027; 20869; 20045; 20970; 34201; 35598; 28760; 25466; 37707; 26978; 39348; 32260; 30071; 21335; 26976; 36575; 38627; 27741; 20108; 23612; 24336; 36841; 21250; 36049; 32905; 34425; 24319; 26085; 20083; 20837];
  [22914; 23615; 38894; 20219; 22922; 24525; 35469; 28641; 31152; 31074; 23527; 33905; 29483; 29105; 24180; 24565; 25467; 25754; 29123; 31896; 20035; 24316; 20043; 22492; 22178; 24745; 28611; 32013; 33021; 33075; 33215; 36786; 35223; 34468; 24052; 25226; 25773; 35207; 26487; 27874; 27966; 29750; 30772; 23110; 32629; 33453; 39340; 20467; 24259; 25309; 25490; 25943; 26479; 30403; 29260; 32972; 32954; 36649; 37197; 20493; 22521; 23186; 26757; 26995; 29028; 29437; 36023; 22770; 36064; 38506; 36889; 34687; 31204; 30695; 33833; 20271; 21093; 21338; 25293; 26575; 27850; 30333; 31636; 31893; 33334; 34180; 36843; 26333; 28448; 29190; 32283; 33707; 39361; 40614];
  [20989; 31665; 30834; 31672; 32903; 31560; 27368; 24161; 32908; 30033; 30048; 20843; 37474; 28300; 30330; 37271; 39658; 20240; 32624; 25244; 31567; 38309; 40169; 22138; 22617; 34532; 38588; 20276; 21028; 21322; 21453; 21467; 24070; 25644; 26001; 26495; 27710; 27726; 29256; 29359; 29677; 30036; 32321; 33324; 34281; 36009; 31684; 37318; 29033; 38930; 39151; 25405; 26217; 30058; 30436; 30928; 34115; 34542; 21290; 21329; 21542; 22915; 24199; 24444; 24754; 25161; 25209; 25259; 26000; 27604; 27852; 30130; 30382; 30865; 31192; 32203; 32631; 32933; 34987; 35513; 36027; 36991; 38750; 39131; 27147; 31800; 20633; 23614; 24494; 26503; 27608; 29749; 30473; 32654];
  [40763; 26570; 31255; 21305; 30091; 39661; 24422; 33181; 33777; 32920; 24380; 24517; 30050; 31558; 36924; 26727; 23019; 23195; 32016; 30334; 35628; 20469; 24426; 27161; 27703; 28418; 29922; 31080; 34920; 35413; 35961; 24287; 25551; 30149; 31186; 33495; 37672; 37618; 33948; 34541; 39981; 21697; 24428; 25996; 27996; 28693; 36007; 36051; 38971; 25935; 29942; 19981; 20184; 22496; 22827; 23142; 23500; 20904; 24067; 24220; 24598; 25206; 25975; 26023; 26222; 28014; 29238; 31526; 33104; 33178; 33433; 35676; 36000; 36070; 36212; 38428; 38468; 20398; 25771; 27494; 33310; 33889; 34154; 37096; 23553; 26963; 39080; 33914; 34135; 20239; 21103; 24489; 24133; 26381];
  [31119; 33145; 35079; 35206; 28149; 24343; 25173; 27832; 20175; 29289; 39826; 20998; 21563; 22132; 22707; 24996; 25198; 28954; 22894; 31881; 31966; 32027; 38640; 25991; 32862; 19993; 20341; 20853; 22592; 24163; 24179; 24330; 26564; 20006; 34109; 38281; 38491; 31859; 38913; 20731; 22721; 30294; 30887; 21029; 30629; 34065; 31622; 20559; 22793; 29255; 31687; 32232; 36794; 36820; 36941; 20415; 21193; 23081; 24321; 38829; 20445; 33303; 37610; 22275; 25429; 27497; 29995; 35036; 36628; 31298; 21215; 22675; 24917; 25098; 26286; 27597; 31807; 33769; 20515; 20472; 21253; 21574; 22577; 22857; 23453; 23792; 23791; 23849; 24214; 25265; 25447; 25918; 26041; 26379];
  [27861; 27873; 28921; 30770; 32299; 32990; 33459; 33804; 34028; 34562; 35090; 35370; 35914; 37030; 37586; 39165; 40179; 40300; 20047; 20129; 20621; 21078; 22346; 22952; 24125; 24536; 24537; 25151; 26292; 26395; 26576; 26834; 20882; 32033; 32938; 33192; 35584; 35980; 36031; 37502; 38450; 21536; 38956; 21271; 20693; 21340; 22696; 25778; 26420; 29287; 30566; 31302; 37350; 21187; 27809; 27526; 22528; 24140; 22868; 26412; 32763; 20961; 30406; 25705; 30952; 39764; 40635; 22475; 22969; 26151; 26522; 27598; 21737; 27097; 24149; 33180; 26517; 39850; 26622; 40018; 26717; 20134; 20451; 21448; 25273; 26411; 27819; 36804; 20397; 32365; 40639; 19975; 24930; 28288];
  [28459; 34067; 21619; 26410; 39749; 24051; 31637; 23724; 23494; 34588; 28234; 34001; 31252; 33032; 22937; 31885; 27665; 30496; 21209; 22818; 28961; 29279; 30683; 38695; 40289; 26891; 23167; 23064; 20901; 21517; 21629; 26126; 30431; 36855; 37528; 40180; 23018; 29277; 28357; 20813; 26825; 32191; 32236; 38754; 40634; 25720; 27169; 33538; 22916; 23391; 27611; 29467; 30450; 32178; 32791; 33945; 20786; 26408; 40665; 30446; 26466; 21247; 39173; 23588; 25147; 31870; 36016; 21839; 24758; 32011; 38272; 21249; 20063; 20918; 22812; 29242; 32822; 37326; 24357; 30690; 21380; 24441; 32004; 34220; 35379; 36493; 38742; 26611; 34222; 37971; 24841; 24840; 27833; 30290];
  [35565; 36664; 21807; 20305; 20778; 21191; 21451; 23461; 24189; 24736; 24962; 25558; 26377; 26586; 28263; 28044; 29494; 29495; 30001; 31056; 35029; 35480; 36938; 37009; 37109; 38596; 34701; 22805; 20104; 20313; 19982; 35465; 36671; 38928; 20653; 24188; 22934; 23481; 24248; 25562; 25594; 25793; 26332; 26954; 27096; 27915; 28342; 29076; 29992; 31407; 32650; 32768; 33865; 33993; 35201; 35617; 36362; 36965; 38525; 39178; 24958; 25233; 27442; 27779; 28020; 32716; 32764; 28096; 32645; 34746; 35064; 26469; 33713; 38972; 38647; 27931; 32097; 33853; 37226; 20081; 21365; 23888; 27396; 28651; 34253; 34349; 35239; 21033; 21519; 23653; 26446; 26792; 29702; 29827];
  [30178; 35023; 35041; 37324; 38626; 38520; 24459; 29575; 31435; 33870; 25504; 30053; 21129; 27969; 28316; 29705; 30041; 30827; 31890; 38534; 31452; 40845; 20406; 24942; 26053; 34396; 20102; 20142; 20698; 20001; 20940; 23534; 26009; 26753; 28092; 29471; 30274; 30637; 31260; 31975; 33391; 35538; 36988; 37327; 38517; 38936; 21147; 32209; 20523; 21400; 26519; 28107; 29136; 29747; 33256; 36650; 38563; 40023; 40607; 29792; 22593; 28057; 32047; 39006; 20196; 20278; 20363; 20919; 21169; 23994; 24604; 29618; 31036; 33491; 37428; 38583; 38646; 38666; 40599; 40802; 26278; 27508; 21015; 21155; 28872; 35010; 24265; 24651; 24976; 28451; 29001; 31806; 32244; 32879];
  [34030; 36899; 37676; 21570; 39791; 27347; 28809; 36034; 36335; 38706; 21172; 23105; 24266; 24324; 26391; 27004; 27028; 28010; 28431; 29282; 29436; 31725; 32769; 32894; 34635; 37070; 20845; 40595; 31108; 32907; 37682; 35542; 20525; 21644; 35441; 27498; 36036; 33031; 24785; 26528; 40434; 20121; 20120; 39952; 35435; 34241; 34152; 26880; 28286; 30871; 33109; 4294967295; 4294967295; 4294967295; 4294967295; 4294967295; 4294967295; 4294967295; 4294967295; 4294967295; 4294967295; 4294967295; 4294967295; 4294967295; 4294967295; 4294967295; 4294967295; 4294967295; 4294967295; 4294967295; 4294967295; 4294967295; 4294967295; 4294967295; 4294967295; 4294967295; 4294967295; 4294967295; 4294967295; 4294967295; 4294967295; 4294967295; 4294967295; 4294967295; 4294967295; 4294967295; 4294967295; 4294967295; 4294967295; 4294967295; 4294967295; 4294967295; 4294967295; 4294967295];
  [24332; 19984; 19989; 20010; 20017; 20022; 20028; 20031; 20034; 20054; 20056; 20098; 20101; 35947; 20106; 33298; 24333; 20110; 20126; 20127; 20128; 20130; 20144; 20147; 20150; 20174; 20173; 20164; 20166; 20162; 20183; 20190; 20205; 20191; 20215; 20233; 20314; 20272; 20315; 20317; 20311; 20295; 20342; 20360; 20367; 20376; 20347; 20329; 20336; 20369; 20335; 20358; 20374; 20760; 20436; 20447; 20430; 20440; 20443; 20433; 20442; 20432; 20452; 20453; 20506; 20520; 20500; 20522; 20517; 20485; 20252; 20470; 20513; 20521; 20524; 20478; 20463; 20497; 20486; 20547; 20551; 26371; 20565; 20560; 20552; 20570; 20566; 20588; 20600; 20608; 20634; 20613; 20660; 20658];
  [20681; 20682; 20659; 20674; 20694; 20702; 20709; 20717; 20707; 20718; 20729; 20725; 20745; 20737; 20738; 20758; 20757; 20756; 20762; 20769; 20794; 20791; 20796; 20795; 20799; 20800; 20818; 20812; 20820; 20834; 31480; 20841; 20842; 20846; 20864; 20866; 22232; 20876; 20873; 20879; 20881; 20883; 20885; 20886; 20900; 20902; 20898; 20905; 20906; 20907; 20915; 20913; 20914; 20912; 20917; 20925; 20933; 20937; 20955; 20960; 34389; 20969; 20973; 20976; 20981; 20990; 20996; 21003; 21012; 21006; 21031; 21034; 21038; 21043; 21049; 21071; 21060; 21067; 21068; 21086; 21076; 21098; 21108; 21097; 21107; 21119; 21117; 21133; 21140; 21138; 21105; 21128; 21137; 36776];
  [36775; 21164; 21165; 21180; 21173; 21185; 21197; 21207; 21214; 21219; 21222; 39149; 21216; 21235; 21237; 21240; 21241; 21254; 21256; 30008; 21261; 21264; 21263; 21269; 21274; 21283; 21295; 21297; 21299; 21304; 21312; 21318; 21317; 19991; 21321; 21325; 20950; 21342; 21353; 21358; 22808; 21371; 21367; 21378; 21398; 21408; 21414; 21413; 21422; 21424; 21430; 21443; 31762; 38617; 21471; 26364; 29166; 21486; 21480; 21485; 21498; 21505; 21565; 21568; 21548; 21549; 21564; 21550; 21558; 21545; 21533; 21582; 21647; 21621; 21646; 21599; 21617; 21623; 21616; 21650; 21627; 21632; 21622; 21636; 21648; 21638; 21703; 21666; 21688; 21669; 21676; 21700; 21704; 21672];
  [21675; 21698; 21668; 21694; 21692; 21720; 21733; 21734; 21775; 21780; 21757; 21742; 21741; 21754; 21730; 21817; 21824; 21859; 21836; 21806; 21852; 21829; 21846; 21847; 21816; 21811; 21853; 21913; 21888; 21679; 21898; 21919; 21883; 21886; 21912; 21918; 21934; 21884; 21891; 21929; 21895; 21928; 21978; 21957; 21983; 21956; 21980; 21988; 21972; 22036; 22007; 22038; 22014; 22013; 22043; 22009; 22094; 22096; 29151; 22068; 22070; 22066; 22072; 22123; 22116; 22063; 22124; 22122; 22150; 22144; 22154; 22176; 22164; 22159; 22181; 22190; 22198; 22196; 22210; 22204; 22209; 22211; 22208; 22216; 22222; 22225; 22227; 22231; 22254; 22265; 22272; 22271; 22276; 22281];
  [22280; 22283; 22285; 22291; 22296; 22294; 21959; 22300; 22310; 22327; 22328; 22350; 22331; 22336; 22351; 22377; 22464; 22408; 22369; 22399; 22409; 22419; 22432; 22451; 22436; 22442; 22448; 22467; 22470; 22484; 22482; 22483; 22538; 22486; 22499; 22539; 22553; 22557; 22642; 22561; 22626; 22603; 22640; 27584; 22610; 22589; 22649; 22661; 22713; 22687; 22699; 22714; 22750; 22715; 22712; 22702; 22725; 22739; 22737; 22743; 22745; 22744; 22757; 22748; 22756; 22751; 22767; 22778; 22777; 22779; 22780; 22781; 22786; 22794; 22800; 22811; 26790; 22821; 22828; 22829; 22834; 22840; 22846; 31442; 22869; 22864; 22862; 22874; 22872; 22882; 22880; 22887; 22892; 22889];
  [22904; 22913; 22941; 20318; 20395; 22947; 22962; 22982; 23016; 23004; 22925; 23001; 23002; 23077; 23071; 23057; 23068; 23049; 23066; 23104; 23148; 23113; 23093; 23094; 23138; 23146; 23194; 23228; 23230; 23243; 23234; 23229; 23267; 23255; 23270; 23273; 23254; 23290; 23291; 23308; 23307; 23318; 23346; 23248; 23338; 23350; 23358; 23363; 23365; 23360; 23377; 23381; 23386; 23387; 23397; 23401; 23408; 23411; 23413; 23416; 25992; 23418; 23424; 23427; 23462; 23480; 23491; 23495; 23497; 23508; 23504; 23524; 23526; 23522; 23518; 23525; 23531; 23536; 23542; 23539; 23557; 23559; 23560; 23565; 23571; 23584; 23586; 23592; 23608; 23609; 23617; 23622; 23630; 23635];
  [23632; 23631; 23409; 23660; 23662; 20066; 23670; 23673; 23692; 23697; 23700; 22939; 23723; 23739; 23734; 23740; 23735; 23749; 23742; 23751; 23769; 23785; 23805; 23802; 23789; 23948; 23786; 23819; 23829; 23831; 23900; 23839; 23835; 23825; 23828; 23842; 23834; 23833; 23832; 23884; 23890; 23886; 23883; 23916; 23923; 23926; 23943; 23940; 23938; 23970; 23965; 23980; 23982; 23997; 23952; 23991; 23996; 24009; 24013; 24019; 24018; 24022; 24027; 24043; 24050; 24053; 24075; 24090; 24089; 24081; 24091; 24118; 24119; 24132; 24131; 24128; 24142; 24151; 24148; 24159; 24162; 24164; 24135; 24181; 24182; 24186; 40636; 24191; 24224; 24257; 24258; 24264; 24272; 24271];
  [24278; 24291; 24285; 24282; 24283; 24290; 24289; 24296; 24297; 24300; 24305; 24307; 24304; 24308; 24312; 24318; 24323; 24329; 24413; 24412; 24331; 24337; 24342; 24361; 24365; 24376; 24385; 24392; 24396; 24398; 24367; 24401; 24406; 24407; 24409; 24417; 24429; 24435; 24439; 24451; 24450; 24447; 24458; 24456; 24465; 24455; 24478; 24473; 24472; 24480; 24488; 24493; 24508; 24534; 24571; 24548; 24568; 24561; 24541; 24755; 24575; 24609; 24672; 24601; 24592; 24617; 24590; 24625; 24603; 24597; 24619; 24614; 24591; 24634; 24666; 24641; 24682; 24695; 24671; 24650; 24646; 24653; 24675; 24643; 24676; 24642; 24684; 24683; 24665; 24705; 24717; 24807; 24707; 24730];
  [24708; 24731; 24726; 24727; 24722; 24743; 24715; 24801; 24760; 24800; 24787; 24756; 24560; 24765; 24774; 24757; 24792; 24909; 24853; 24838; 24822; 24823; 24832; 24820; 24826; 24835; 24865; 24827; 24817; 24845; 24846; 24903; 24894; 24872; 24871; 24906; 24895; 24892; 24876; 24884; 24893; 24898; 24900; 24947; 24951; 24920; 24921; 24922; 24939; 24948; 24943; 24933; 24945; 24927; 24925; 24915; 24949; 24985; 24982; 24967; 25004; 24980; 24986; 24970; 24977; 25003; 25006; 25036; 25034; 25033; 25079; 25032; 25027; 25030; 25018; 25035; 32633; 25037; 25062; 25059; 25078; 25082; 25076; 25087; 25085; 25084; 25086; 25088; 25096; 25097; 25101; 25100; 25108; 25115];
  [25118; 25121; 25130; 25134; 25136; 25138; 25139; 25153; 25166; 25182; 25187; 25179; 25184; 25192; 25212; 25218; 25225; 25214; 25234; 25235; 25238; 25300; 25219; 25236; 25303; 25297; 25275; 25295; 25343; 25286; 25812; 25288; 25308; 25292; 25290; 25282; 25287; 25243; 25289; 25356; 25326; 25329; 25383; 25346; 25352; 25327; 25333; 25424; 25406; 25421; 25628; 25423; 25494; 25486; 25472; 25515; 25462; 25507; 25487; 25481; 25503; 25525; 25451; 25449; 25534; 25577; 25536; 25542; 25571; 25545; 25554; 25590; 25540; 25622; 25652; 25606; 25619; 25638; 25654; 25885; 25623; 25640; 25615; 25703; 25711; 25718; 25678; 25898; 25749; 25747; 25765; 25769; 25736; 25788];
  [25818; 25810; 25797; 25799; 25787; 25816; 25794; 25841; 25831; 33289; 25824; 25825; 25260; 25827; 25839; 25900; 25846; 25844; 25842; 25850; 25856; 25853; 25880; 25884; 25861; 25892; 25891; 25899; 25908; 25909; 25911; 25910; 25912; 30027; 25928; 25942; 25941; 25933; 25944; 25950; 25949; 25970; 25976; 25986; 25987; 35722; 26011; 26015; 26027; 26039; 26051; 26054; 26049; 26052; 26060; 26066; 26075; 26073; 26080; 26081; 26097; 26482; 26122; 26115; 26107; 26483; 26165; 26166; 26164; 26140; 26191; 26180; 26185; 26177; 26206; 26205; 26212; 26215; 26216; 26207; 26210; 26224; 26243; 26248; 26254; 26249; 26244; 26264; 26269; 26305; 26297; 26313; 26302; 26300];
  [26308; 26296; 26326; 26330; 26336; 26175; 26342; 26345; 26352; 26357; 26359; 26383; 26390; 26398; 26406; 26407; 38712; 26414; 26431; 26422; 26433; 26424; 26423; 26438; 26462; 26464; 26457; 26467; 26468; 26505; 26480; 26537; 26492; 26474; 26508; 26507; 26534; 26529; 26501; 26551; 26607; 26548; 26604; 26547; 26601; 26552; 26596; 26590; 26589; 26594; 26606; 26553; 26574; 26566; 26599; 27292; 26654; 26694; 26665; 26688; 26701; 26674; 26702; 26803; 26667; 26713; 26723; 26743; 26751; 26783; 26767; 26797; 26772; 26781; 26779; 26755; 27310; 26809; 26740; 26805; 26784; 26810; 26895; 26765; 26750; 26881; 26826; 26888; 26840; 26914; 26918; 26849; 26892; 26829];
  [26836; 26855; 26837; 26934; 26898; 26884; 26839; 26851; 26917; 26873; 26848; 26863; 26920; 26922; 26906; 26915; 26913; 26822; 27001; 26999; 26972; 27000; 26987; 26964; 27006; 26990; 26937; 26996; 26941; 26969; 26928; 26977; 26974; 26973; 27009; 26986; 27058; 27054; 27088; 27071; 27073; 27091; 27070; 27086; 23528; 27082; 27101; 27067; 27075; 27047; 27182; 27025; 27040; 27036; 27029; 27060; 27102; 27112; 27138; 27163; 27135; 27402; 27129; 27122; 27111; 27141; 27057; 27166; 27117; 27156; 27115; 27146; 27154; 27329; 27171; 27155; 27204; 27148; 27250; 27190; 27256; 27207; 27234; 27225; 27238; 27208; 27192; 27170; 27280; 27277; 27296; 27268; 27298; 27299];
  [27287; 34327; 27323; 27331; 27330; 27320; 27315; 27308; 27358; 27345; 27359; 27306; 27354; 27370; 27387; 27397; 34326; 27386; 27410; 27414; 39729; 27423; 27448; 27447; 30428; 27449; 39150; 27463; 27459; 27465; 27472; 27481; 27476; 27483; 27487; 27489; 27512; 27513; 27519; 27520; 27524; 27523; 27533; 27544; 27541; 27550; 27556; 27562; 27563; 27567; 27570; 27569; 27571; 27575; 27580; 27590; 27595; 27603; 27615; 27628; 27627; 27635; 27631; 40638; 27656; 27667; 27668; 27675; 27684; 27683; 27742; 27733; 27746; 27754; 27778; 27789; 27802; 27777; 27803; 27774; 27752; 27763; 27794; 27792; 27844; 27889; 27859; 27837; 27863; 27845; 27869; 27822; 27825; 27838];
  [27834; 27867; 27887; 27865; 27882; 27935; 34893; 27958; 27947; 27965; 27960; 27929; 27957; 27955; 27922; 27916; 28003; 28051; 28004; 27994; 28025; 27993; 28046; 28053; 28644; 28037; 28153; 28181; 28170; 28085; 28103; 28134; 28088; 28102; 28140; 28126; 28108; 28136; 28114; 28101; 28154; 28121; 28132; 28117; 28138; 28142; 28205; 28270; 28206; 28185; 28274; 28255; 28222; 28195; 28267; 28203; 28278; 28237; 28191; 28227; 28218; 28238; 28196; 28415; 28189; 28216; 28290; 28330; 28312; 28361; 28343; 28371; 28349; 28335; 28356; 28338; 28372; 28373; 28303; 28325; 28354; 28319; 28481; 28433; 28748; 28396; 28408; 28414; 28479; 28402; 28465; 28399; 28466; 28364];
  [28478; 28435; 28407; 28550; 28538; 28536; 28545; 28544; 28527; 28507; 28659; 28525; 28546; 28540; 28504; 28558; 28561; 28610; 28518; 28595; 28579; 28577; 28580; 28601; 28614; 28586; 28639; 28629; 28652; 28628; 28632; 28657; 28654; 28635; 28681; 28683; 28666; 28689; 28673; 28687; 28670; 28699; 28698; 28532; 28701; 28696; 28703; 28720; 28734; 28722; 28753; 28771; 28825; 28818; 28847; 28913; 28844; 28856; 28851; 28846; 28895; 28875; 28893; 28889; 28937; 28925; 28956; 28953; 29029; 29013; 29064; 29030; 29026; 29004; 29014; 29036; 29071; 29179; 29060; 29077; 29096; 29100; 29143; 29113; 29118; 29138; 29129; 29140; 29134; 29152; 29164; 29159; 29173; 29180];
  [29177; 29183; 29197; 29200; 29211; 29224; 29229; 29228; 29232; 29234; 29243; 29244; 29247; 29248; 29254; 29259; 29272; 29300; 29310; 29314; 29313; 29319; 29330; 29334; 29346; 29351; 29369; 29362; 29379; 29382; 29380; 29390; 29394; 29410; 29408; 29409; 29433; 29431; 20495; 29463; 29450; 29468; 29462; 29469; 29492; 29487; 29481; 29477; 29502; 29518; 29519; 40664; 29527; 29546; 29544; 29552; 29560; 29557; 29563; 29562; 29640; 29619; 29646; 29627; 29632; 29669; 29678; 29662; 29858; 29701; 29807; 29733; 29688; 29746; 29754; 29781; 29759; 29791; 29785; 29761; 29788; 29801; 29808; 29795; 29802; 29814; 29822; 29835; 29854; 29863; 29898; 29903; 29908; 29681];
  [29920; 29923; 29927; 29929; 29934; 29938; 29936; 29937; 29944; 29943; 29956; 29955; 29957; 29964; 29966; 29965; 29973; 29971; 29982; 29990; 29996; 30012; 30020; 30029; 30026; 30025; 30043; 30022; 30042; 30057; 30052; 30055; 30059; 30061; 30072; 30070; 30086; 30087; 30068; 30090; 30089; 30082; 30100; 30106; 30109; 30117; 30115; 30146; 30131; 30147; 30133; 30141; 30136; 30140; 30129; 30157; 30154; 30162; 30169; 30179; 30174; 30206; 30207; 30204; 30209; 30192; 30202; 30194; 30195; 30219; 30221; 30217; 30239; 30247; 30240; 30241; 30242; 30244; 30260; 30256; 30267; 30279; 30280; 30278; 30300; 30296; 30305; 30306; 30312; 30313; 30314; 30311; 30316; 30320];
  [30322; 30326; 30328; 30332; 30336; 30339; 30344; 30347; 30350; 30358; 30355; 30361; 30362; 30384; 30388; 30392; 30393; 30394; 30402; 30413; 30422; 30418; 30430; 30433; 30437; 30439; 30442; 34351; 30459; 30472; 30471; 30468; 30505; 30500; 30494; 30501; 30502; 30491; 30519; 30520; 30535; 30554; 30568; 30571; 30555; 30565; 30591; 30590; 30585; 30606; 30603; 30609; 30624; 30622; 30640; 30646; 30649; 30655; 30652; 30653; 30651; 30663; 30669; 30679; 30682; 30684; 30691; 30702; 30716; 30732; 30738; 31014; 30752; 31018; 30789; 30862; 30836; 30854; 30844; 30874; 30860; 30883; 30901; 30890; 30895; 30929; 30918; 30923; 30932; 30910; 30908; 30917; 30922; 30956];
  [30951; 30938; 30973; 30964; 30983; 30994; 30993; 31001; 31020; 31019; 31040; 31072; 31063; 31071; 31066; 31061; 31059; 31098; 31103; 31114; 31133; 31143; 40779; 31146; 31150; 31155; 31161; 31162; 31177; 31189; 31207; 31212; 31201; 31203; 31240; 31245; 31256; 31257; 31264; 31263; 31104; 31281; 31291; 31294; 31287; 31299; 31319; 31305; 31329; 31330; 31337; 40861; 31344; 31353; 31357; 31368; 31383; 31381; 31384; 31382; 31401; 31432; 31408; 31414; 31429; 31428; 31423; 36995; 31431; 31434; 31437; 31439; 31445; 31443; 31449; 31450; 31453; 31457; 31458; 31462; 31469; 31472; 31490; 31503; 31498; 31494; 31539; 31512; 31513; 31518; 31541; 31528; 31542; 31568];
  [31610; 31492; 31565; 31499; 31564; 31557; 31605; 31589; 31604; 31591; 31600; 31601; 31596; 31598; 31645; 31640; 31647; 31629; 31644; 31642; 31627; 31634; 31631; 31581; 31641; 31691; 31681; 31692; 31695; 31668; 31686; 31709; 31721; 31761; 31764; 31718; 31717; 31840; 31744; 31751; 31763; 31731; 31735; 31767; 31757; 31734; 31779; 31783; 31786; 31775; 31799; 31787; 31805; 31820; 31811; 31828; 31823; 31808; 31824; 31832; 31839; 31844; 31830; 31845; 31852; 31861; 31875; 31888; 31908; 31917; 31906; 31915; 31905; 31912; 31923; 31922; 31921; 31918; 31929; 31933; 31936; 31941; 31938; 31960; 31954; 31964; 31970; 39739; 31983; 31986; 31988; 31990; 31994; 32006];
  [32002; 32028; 32021; 32010; 32069; 32075; 32046; 32050; 32063; 32053; 32070; 32115; 32086; 32078; 32114; 32104; 32110; 32079; 32099; 32147; 32137; 32091; 32143; 32125; 32155; 32186; 32174; 32163; 32181; 32199; 32189; 32171; 32317; 32162; 32175; 32220; 32184; 32159; 32176; 32216; 32221; 32228; 32222; 32251; 32242; 32225; 32261; 32266; 32291; 32289; 32274; 32305; 32287; 32265; 32267; 32290; 32326; 32358; 32315; 32309; 32313; 32323; 32311; 32306; 32314; 32359; 32349; 32342; 32350; 32345; 32346; 32377; 32362; 32361; 32380; 32379; 32387; 32213; 32381; 36782; 32383; 32392; 32393; 32396; 32402; 32400; 32403; 32404; 32406; 32398; 32411; 32412; 32568; 32570];
  [32581; 32588; 32589; 32590; 32592; 32593; 32597; 32596; 32600; 32607; 32608; 32616; 32617; 32615; 32632; 32642; 32646; 32643; 32648; 32647; 32652; 32660; 32670; 32669; 32666; 32675; 32687; 32690; 32697; 32686; 32694; 32696; 35697; 32709; 32710; 32714; 32725; 32724; 32737; 32742; 32745; 32755; 32761; 39132; 32774; 32772; 32779; 32786; 32792; 32793; 32796; 32801; 32808; 32831; 32827; 32842; 32838; 32850; 32856; 32858; 32863; 32866; 32872; 32883; 32882; 32880; 32886; 32889; 32893; 32895; 32900; 32902; 32901; 32923; 32915; 32922; 32941; 20880; 32940; 32987; 32997; 32985; 32989; 32964; 32986; 32982; 33033; 33007; 33009; 33051; 33065; 33059; 33071; 33099];
  [38539; 33094; 33086; 33107; 33105; 33020; 33137; 33134; 33125; 33126; 33140; 33155; 33160; 33162; 33152; 33154; 33184; 33173; 33188; 33187; 33119; 33171; 33193; 33200; 33205; 33214; 33208; 33213; 33216; 33218; 33210; 33225; 33229; 33233; 33241; 33240; 33224; 33242; 33247; 33248; 33255; 33274; 33275; 33278; 33281; 33282; 33285; 33287; 33290; 33293; 33296; 33302; 33321; 33323; 33336; 33331; 33344; 33369; 33368; 33373; 33370; 33375; 33380; 33378; 33384; 33386; 33387; 33326; 33393; 33399; 33400; 33406; 33421; 33426; 33451; 33439; 33467; 33452; 33505; 33507; 33503; 33490; 33524; 33523; 33530; 33683; 33539; 33531; 33529; 33502; 33542; 33500; 33545; 33497];
  [33589; 33588; 33558; 33586; 33585; 33600; 33593; 33616; 33605; 33583; 33579; 33559; 33560; 33669; 33690; 33706; 33695; 33698; 33686; 33571; 33678; 33671; 33674; 33660; 33717; 33651; 33653; 33696; 33673; 33704; 33780; 33811; 33771; 33742; 33789; 33795; 33752; 33803; 33729; 33783; 33799; 33760; 33778; 33805; 33826; 33824; 33725; 33848; 34054; 33787; 33901; 33834; 33852; 34138; 33924; 33911; 33899; 33965; 33902; 33922; 33897; 33862; 33836; 33903; 33913; 33845; 33994; 33890; 33977; 33983; 33951; 34009; 33997; 33979; 34010; 34000; 33985; 33990; 34006; 33953; 34081; 34047; 34036; 34071; 34072; 34092; 34079; 34069; 34068; 34044; 34112; 34147; 34136; 34120];
  [34113; 34306; 34123; 34133; 34176; 34212; 34184; 34193; 34186; 34216; 34157; 34196; 34203; 34282; 34183; 34204; 34167; 34174; 34192; 34249; 34234; 34255; 34233; 34256; 34261; 34269; 34277; 34268; 34297; 34314; 34323; 34315; 34302; 34298; 34310; 34338; 34330; 34352; 34367; 34381; 20053; 34388; 34399; 34407; 34417; 34451; 34467; 34473; 34474; 34443; 34444; 34486; 34479; 34500; 34502; 34480; 34505; 34851; 34475; 34516; 34526; 34537; 34540; 34527; 34523; 34543; 34578; 34566; 34568; 34560; 34563; 34555; 34577; 34569; 34573; 34553; 34570; 34612; 34623; 34615; 34619; 34597; 34601; 34586; 34656; 34655; 34680; 34636; 34638; 34676; 34647; 34664; 34670; 34649];
  [34643; 34659; 34666; 34821; 34722; 34719; 34690; 34735; 34763; 34749; 34752; 34768; 38614; 34731; 34756; 34739; 34759; 34758; 34747; 34799; 34802; 34784; 34831; 34829; 34814; 34806; 34807; 34830; 34770; 34833; 34838; 34837; 34850; 34849; 34865; 34870; 34873; 34855; 34875; 34884; 34882; 34898; 34905; 34910; 34914; 34923; 34945; 34942; 34974; 34933; 34941; 34997; 34930; 34946; 34967; 34962; 34990; 34969; 34978; 34957; 34980; 34992; 35007; 34993; 35011; 35012; 35028; 35032; 35033; 35037; 35065; 35074; 35068; 35060; 35048; 35058; 35076; 35084; 35082; 35091; 35139; 35102; 35109; 35114; 35115; 35137; 35140; 35131; 35126; 35128; 35148; 35101; 35168; 35166];
  [35174; 35172; 35181; 35178; 35183; 35188; 35191; 35198; 35203; 35208; 35210; 35219; 35224; 35233; 35241; 35238; 35244; 35247; 35250; 35258; 35261; 35263; 35264; 35290; 35292; 35293; 35303; 35316; 35320; 35331; 35350; 35344; 35340; 35355; 35357; 35365; 35382; 35393; 35419; 35410; 35398; 35400; 35452; 35437; 35436; 35426; 35461; 35458; 35460; 35496; 35489; 35473; 35493; 35494; 35482; 35491; 35524; 35533; 35522; 35546; 35563; 35571; 35559; 35556; 35569; 35604; 35552; 35554; 35575; 35550; 35547; 35596; 35591; 35610; 35553; 35606; 35600; 35607; 35616; 35635; 38827; 35622; 35627; 35646; 35624; 35649; 35660; 35663; 35662; 35657; 35670; 35675; 35674; 35691];
  [35679; 35692; 35695; 35700; 35709; 35712; 35724; 35726; 35730; 35731; 35734; 35737; 35738; 35898; 35905; 35903; 35912; 35916; 35918; 35920; 35925; 35938; 35948; 35960; 35962; 35970; 35977; 35973; 35978; 35981; 35982; 35988; 35964; 35992; 25117; 36013; 36010; 36029; 36018; 36019; 36014; 36022; 36040; 36033; 36068; 36067; 36058; 36093; 36090; 36091; 36100; 36101; 36106; 36103; 36111; 36109; 36112; 40782; 36115; 36045; 36116; 36118; 36199; 36205; 36209; 36211; 36225; 36249; 36290; 36286; 36282; 36303; 36314; 36310; 36300; 36315; 36299; 36330; 36331; 36319; 36323; 36348; 36360; 36361; 36351; 36381; 36382; 36368; 36383; 36418; 36405; 36400; 36404; 36426];
  [36423; 36425; 36428; 36432; 36424; 36441; 36452; 36448; 36394; 36451; 36437; 36470; 36466; 36476; 36481; 36487; 36485; 36484; 36491; 36490; 36499; 36497; 36500; 36505; 36522; 36513; 36524; 36528; 36550; 36529; 36542; 36549; 36552; 36555; 36571; 36579; 36604; 36603; 36587; 36606; 36618; 36613; 36629; 36626; 36633; 36627; 36636; 36639; 36635; 36620; 36646; 36659; 36667; 36665; 36677; 36674; 36670; 36684; 36681; 36678; 36686; 36695; 36700; 36706; 36707; 36708; 36764; 36767; 36771; 36781; 36783; 36791; 36826; 36837; 36834; 36842; 36847; 36999; 36852; 36869; 36857; 36858; 36881; 36885; 36897; 36877; 36894; 36886; 36875; 36903; 36918; 36917; 36921; 36856];
  [36943; 36944; 36945; 36946; 36878; 36937; 36926; 36950; 36952; 36958; 36968; 36975; 36982; 38568; 36978; 36994; 36989; 36993; 36992; 37002; 37001; 37007; 37032; 37039; 37041; 37045; 37090; 37092; 25160; 37083; 37122; 37138; 37145; 37170; 37168; 37194; 37206; 37208; 37219; 37221; 37225; 37235; 37234; 37259; 37257; 37250; 37282; 37291; 37295; 37290; 37301; 37300; 37306; 37312; 37313; 37321; 37323; 37328; 37334; 37343; 37345; 37339; 37372; 37365; 37366; 37406; 37375; 37396; 37420; 37397; 37393; 37470; 37463; 37445; 37449; 37476; 37448; 37525; 37439; 37451; 37456; 37532; 37526; 37523; 37531; 37466; 37583; 37561; 37559; 37609; 37647; 37626; 37700; 37678];
  [37657; 37666; 37658; 37667; 37690; 37685; 37691; 37724; 37728; 37756; 37742; 37718; 37808; 37804; 37805; 37780; 37817; 37846; 37847; 37864; 37861; 37848; 37827; 37853; 37840; 37832; 37860; 37914; 37908; 37907; 37891; 37895; 37904; 37942; 37931; 37941; 37921; 37946; 37953; 37970; 37956; 37979; 37984; 37986; 37982; 37994; 37417; 38000; 38005; 38007; 38013; 37978; 38012; 38014; 38017; 38015; 38274; 38279; 38282; 38292; 38294; 38296; 38297; 38304; 38312; 38311; 38317; 38332; 38331; 38329; 38334; 38346; 28662; 38339; 38349; 38348; 38357; 38356; 38358; 38364; 38369; 38373; 38370; 38433; 38440; 38446; 38447; 38466; 38476; 38479; 38475; 38519; 38492; 38494];
  [38493; 38495; 38502; 38514; 38508; 38541; 38552; 38549; 38551; 38570; 38567; 38577; 38578; 38576; 38580; 38582; 38584; 38585; 38606; 38603; 38601; 38605; 35149; 38620; 38669; 38613; 38649; 38660; 38662; 38664; 38675; 38670; 38673; 38671; 38678; 38681; 38692; 38698; 38704; 38713; 38717; 38718; 38724; 38726; 38728; 38722; 38729; 38748; 38752; 38756; 38758; 38760; 21202; 38763; 38769; 38777; 38789; 38780; 38785; 38778; 38790; 38795; 38799; 38800; 38812; 38824; 38822; 38819; 38835; 38836; 38851; 38854; 38856; 38859; 38876; 38893; 40783; 38898; 31455; 38902; 38901; 38927; 38924; 38968; 38948; 38945; 38967; 38973; 38982; 38991; 38987; 39019; 39023; 39024];
  [39025; 39028; 39027; 39082; 39087; 39089; 39094; 39108; 39107; 39110; 39145; 39147; 39171; 39177; 39186; 39188; 39192; 39201; 39197; 39198; 39204; 39200; 39212; 39214; 39229; 39230; 39234; 39241; 39237; 39248; 39243; 39249; 39250; 39244; 39253; 39319; 39320; 39333; 39341; 39342; 39356; 39391; 39387; 39389; 39384; 39377; 39405; 39406; 39409; 39410; 39419; 39416; 39425; 39439; 39429; 39394; 39449; 39467; 39479; 39493; 39490; 39488; 39491; 39486; 39509; 39501; 39515; 39511; 39519; 39522; 39525; 39524; 39529; 39531; 39530; 39597; 39600; 39612; 39616; 39631; 39633; 39635; 39636; 39646; 39647; 39650; 39651; 39654; 39663; 39659; 39662; 39668; 39665; 39671];
  [39675; 39686; 39704; 39706; 39711; 39714; 39715; 39717; 39719; 39720; 39721; 39722; 39726; 39727; 39730; 39748; 39747; 39759; 39757; 39758; 39761; 39768; 39796; 39827; 39811; 39825; 39830; 39831; 39839; 39840; 39848; 39860; 39872; 39882; 39865; 39878; 39887; 39889; 39890; 39907; 39906; 39908; 39892; 39905; 39994; 39922; 39921; 39920; 39957; 39956; 39945; 39955; 39948; 39942; 39944; 39954; 39946; 39940; 39982; 39963; 39973; 39972; 39969; 39984; 40007; 39986; 40006; 39998; 40026; 40032; 40039; 40054; 40056; 40167; 40172; 40176; 40201; 40200; 40171; 40195; 40198; 40234; 40230; 40367; 40227; 40223; 40260; 40213; 40210; 40257; 40255; 40254; 40262; 40264];
  [40285; 40286; 40292; 40273; 40272; 40281; 40306; 40329; 40327; 40363; 40303; 40314; 40346; 40356; 40361; 40370; 40388; 40385; 40379; 40376; 40378; 40390; 40399; 40386; 40409; 40403; 40440; 40422; 40429; 40431; 40445; 40474; 40475; 40478; 40565; 40569; 40573; 40577; 40584; 40587; 40588; 40594; 40597; 40593; 40605; 40613; 40617; 40632; 40618; 40621; 38753; 40652; 40654; 40655; 40656; 40660; 40668; 40670; 40669; 40672; 40677; 40680; 40687; 40692; 40694; 40695; 40697; 40699; 40700; 40701; 40711; 40712; 30391; 40725; 40737; 40748; 40766; 40778; 40786; 40788; 40803; 40799; 40800; 40801; 40806; 40807; 40812; 40810; 40823; 40818; 40822; 40853; 40860; 40864];
  [22575; 27079; 36953; 29796; 20956; 29081; 4294967295; 4294967295; 4294967295; 4294967295; 4294967295; 4294967295; 4294967295; 4294967295; 4294967295; 4294967295; 4294967295; 4294967295; 4294967295; 4294967295; 4294967295; 4294967295; 4294967295; 4294967295; 4294967295; 4294967295; 4294967295; 4294967295; 4294967295; 4294967295; 4294967295; 4294967295; 4294967295; 4294967295; 4294967295; 4294967295; 4294967295; 4294967295; 4294967295; 4294967295; 4294967295; 4294967295; 4294967295; 4294967295; 4294967295; 4294967295; 4294967295; 4294967295; 4294967295; 4294967295; 4294967295; 4294967295; 4294967295; 4294967295; 4294967295; 4294967295; 4294967295; 4294967295; 4294967295; 4294967295; 4294967295; 4294967295; 4294967295; 4294967295; 4294967295; 4294967295; 4294967295; 4294967295; 4294967295; 4294967295; 4294967295; 4294967295; 4294967295; 4294967295; 4294967295; 4294967295; 4294967295; 4294967295; 4294967295; 4294967295; 4294967295; 4294967295; 4294967295; 4294967295; 4294967295; 4294967295; 4294967295; 4294967295; 4294967295; 4294967295; 4294967295; 4294967295; 4294967295; 4294967295];
  [4294967295; 4294967295; 4294967295; 4294967295; 4294967295; 4294967295; 4294967295; 4294967295; 4294967295; 4294967295; 4294967295; 4294967295; 4294967295; 4294967295; 4294967295; 4294967295; 4294967295; 4294967295; 4294967295; 4294967295; 4294967295; 4294967295; 4294967295; 4294967295; 4294967295; 4294967295; 4294967295; 4294967295; 4294967295; 4294967295; 4294967295; 4294967295; 4294967295; 4294967295; 4294967295; 4294967295; 4294967295; 4294967295; 4294967295; 4294967295; 4294967295; 4294967295; 4294967295; 4294967295; 4294967295; 4294967295; 4294967295; 4294967295; 4294967295; 4294967295; 4294967295; 4294967295; 4294967295; 4294967295; 4294967295; 4294967295; 4294967295; 4294967295; 4294967295; 4294967295; 4294967295; 4294967295; 4294967295; 4294967295; 4294967295; 4294967295; 4294967295; 4294967295; 4294967295; 4294967295; 4294967295; 4294967295; 4294967295; 4294967295; 4294967295; 4294967295; 4294967295; 4294967295; 4294967295; 4294967295; 4294967295; 4294967295; 4294967295; 4294967295; 4294967295; 4294967295; 4294967295; 4294967295; 4294967295; 4294967295; 4294967295; 4294967295; 4294967295; 4294967295];
  [4294967295; 4294967295; 4294967295; 4294967295; 4294967295; 4294967295; 4294967295; 4294967295; 4294967295; 4294967295; 4294967295; 4294967295; 4294967295; 4294967295; 4294967295; 4294967295; 4294967295; 4294967295; 4294967295; 4294967295; 4294967295; 4294967295; 4294967295; 4294967295; 4294967295; 4294967295; 4294967295; 4294967295; 4294967295; 4294967295; 4294967295; 4294967295; 4294967295; 4294967295; 4294967295; 4294967295; 4294967295; 4294967295; 4294967295; 4294967295; 4294967295; 4294967295; 4294967295; 4294967295; 4294967295; 4294967295; 4294967295; 4294967295; 4294967295; 4294967295; 4294967295; 4294967295; 4294967295; 4294967295; 4294967295; 4294967295; 4294967295; 4294967295; 4294967295; 4294967295; 4294967295; 4294967295; 4294967295; 4294967295; 4294967295; 4294967295; 4294967295; 4294967295; 4294967295; 4294967295; 4294967295; 4294967295; 4294967295; 4294967295; 4294967295; 4294967295; 4294967295; 4294967295; 4294967295; 4294967295; 4294967295; 4294967295; 4294967295; 4294967295; 4294967295; 4294967295; 4294967295; 4294967295; 4294967295; 4294967295; 4294967295; 4294967295; 4294967295; 4294967295];
  [4294967295; 4294967295; 4294967295; 4294967295; 4294967295; 4294967295; 4294967295; 4294967295; 4294967295; 4294967295; 4294967295; 4294967295; 4294967295; 4294967295; 4294967295; 4294967295; 4294967295; 4294967295; 4294967295; 4294967295; 4294967295; 4294967295; 4294967295; 4294967295; 4294967295; 4294967295; 4294967295; 4294967295; 4294967295; 4294967295; 4294967295; 4294967295; 4294967295; 4294967295; 4294967295; 4294967295; 4294967295; 4294967295; 4294967295; 4294967295; 4294967295; 4294967295; 4294967295; 4294967295; 4294967295; 4294967295; 4294967295; 4294967295; 4294967295; 4294967295; 4294967295; 4294967295; 4294967295; 4294967295; 4294967295; 4294967295; 4294967295; 4294967295; 4294967295; 4294967295; 4294967295; 4294967295; 4294967295; 4294967295; 4294967295; 4294967295; 4294967295; 4294967295; 4294967295; 4294967295; 4294967295; 4294967295; 4294967295; 4294967295; 4294967295; 4294967295; 4294967295; 4294967295; 4294967295; 4294967295; 4294967295; 4294967295; 4294967295; 4294967295; 4294967295; 4294967295; 4294967295; 4294967295; 4294967295; 4294967295; 4294967295; 4294967295; 4294967295; 4294967295];
  [4294967295; 4294967295; 4294967295; 4294967295; 4294967295; 4294967295; 4294967295; 4294967295; 4294967295; 4294967295; 4294967295; 4294967295; 4294967295; 4294967295; 4294967295; 4294967295; 4294967295; 4294967295; 4294967295; 4294967295; 4294967295; 4294967295; 4294967295; 4294967295; 4294967295; 4294967295; 4294967295; 4294967295; 4294967295; 4294967295; 4294967295; 4294967295; 4294967295; 4294967295; 4294967295; 4294967295; 4294967295; 4294967295; 4294967295; 4294967295; 4294967295; 4294967295; 4294967295; 4294967295; 4294967295; 4294967295; 4294967295; 4294967295; 4294967295; 4294967295; 4294967295; 4294967295; 4294967295; 4294967295; 4294967295; 4294967295; 4294967295; 4294967295; 4294967295; 4294967295; 4294967295; 4294967295; 4294967295; 4294967295; 4294967295; 4294967295; 4294967295; 4294967295; 4294967295; 4294967295; 4294967295; 4294967295; 4294967295; 4294967295; 4294967295; 4294967295; 4294967295; 4294967295; 4294967295; 4294967295; 4294967295; 4294967295; 4294967295; 4294967295; 4294967295; 4294967295; 4294967295; 4294967295; 4294967295; 4294967295; 4294967295; 4294967295; 4294967295; 4294967295];
  [32394; 35100; 37704; 37512; 34012; 20425; 28859; 26161; 26824; 37625; 26363; 24389; 20008; 20193; 20220; 20224; 20227; 20281; 20310; 20370; 20362; 20378; 20372; 20429; 20544; 20514; 20479; 20510; 20550; 20592; 20546; 20628; 20724; 20696; 20810; 20836; 20893; 20926; 20972; 21013; 21148; 21158; 21184; 21211; 21248; 21255; 21284; 21362; 21395; 21426; 21469; 64014; 21660; 21642; 21673; 21759; 21894; 22361; 22373; 22444; 22472; 22471; 64015; 64016; 22686; 22706; 22795; 22867; 22875; 22877; 22883; 22948; 22970; 23382; 23488; 29999; 23512; 23532; 23582; 23718; 23738; 23797; 23847; 23891; 64017; 23874; 23917; 23992; 23993; 24016; 24353; 24372; 24423; 24503];
  [24542; 24669; 24709; 24714; 24798; 24789; 24864; 24818; 24849; 24887; 24880; 24984; 25107; 25254; 25589; 25696; 25757; 25806; 25934; 26112; 26133; 26171; 26121; 26158; 26142; 26148; 26213; 26199; 26201; 64018; 26227; 26265; 26272; 26290; 26303; 26362; 26382; 63785; 26470; 26555; 26706; 26560; 26625; 26692; 26831; 64019; 26984; 64020; 27032; 27106; 27184; 27243; 27206; 27251; 27262; 27362; 27364; 27606; 27711; 27740; 27782; 27759; 27866; 27908; 28039; 28015; 28054; 28076; 28111; 28152; 28146; 28156; 28217; 28252; 28199; 28220; 28351; 28552; 28597; 28661; 28677; 28679; 28712; 28805; 28843; 28943; 28932; 29020; 28998; 28999; 64021; 29121; 29182; 29361];
  [29374; 29476; 64022; 29559; 29629; 29641; 29654; 29667; 29650; 29703; 29685; 29734; 29738; 29737; 29742; 29794; 29833; 29855; 29953; 30063; 30338; 30364; 30366; 30363; 30374; 64023; 30534; 21167; 30753; 30798; 30820; 30842; 31024; 64024; 64025; 64026; 31124; 64027; 31131; 31441; 31463; 64028; 31467; 31646; 64029; 32072; 32092; 32183; 32160; 32214; 32338; 32583; 32673; 64030; 33537; 33634; 33663; 33735; 33782; 33864; 33972; 34131; 34137; 34155; 64031; 34224; 64032; 64033; 34823; 35061; 35346; 35383; 35449; 35495; 35518; 35551; 64034; 35574; 35667; 35711; 36080; 36084; 36114; 36214; 64035; 36559; 64036; 64037; 36967; 37086; 64038; 37141; 37159; 37338];
  [37335; 37342; 37357; 37358; 37348; 37349; 37382; 37392; 37386; 37434; 37440; 37436; 37454; 37465; 37457; 37433; 37479; 37543; 37495; 37496; 37607; 37591; 37593; 37584; 64039; 37589; 37600; 37587; 37669; 37665; 37627; 64040; 37662; 37631; 37661; 37634; 37744; 37719; 37796; 37830; 37854; 37880; 37937; 37957; 37960; 38290; 63964; 64041; 38557; 38575; 38707; 38715; 38723; 38733; 38735; 38737; 38741; 38999; 39013; 64042; 64043; 39207; 64044; 39326; 39502; 39641; 39644; 39797; 39794; 39823; 39857; 39867; 39936; 40304; 40299; 64045; 40473; 40657; 4294967295; 4294967295; 8560; 8561; 8562; 8563; 8564; 8565; 8566; 8567; 8568; 8569; 65506; 65508; 65287; 65282];
  [4294967295; 4294967295; 4294967295; 4294967295; 4294967295; 4294967295; 4294967295; 4294967295; 4294967295; 4294967295; 4294967295; 4294967295; 4294967295; 4294967295; 4294967295; 4294967295; 4294967295; 4294967295; 4294967295; 4294967295; 4294967295; 4294967295; 4294967295; 4294967295; 4294967295; 4294967295; 4294967295; 4294967295; 4294967295; 4294967295; 4294967295; 4294967295; 4294967295; 4294967295; 4294967295; 4294967295; 4294967295; 4294967295; 4294967295; 4294967295; 4294967295; 4294967295; 4294967295; 4294967295; 4294967295; 4294967295; 4294967295; 4294967295; 4294967295; 4294967295; 4294967295; 4294967295; 4294967295; 4294967295; 4294967295; 4294967295; 4294967295; 4294967295; 4294967295; 4294967295; 4294967295; 4294967295; 4294967295; 4294967295; 4294967295; 4294967295; 4294967295; 4294967295; 4294967295; 4294967295; 4294967295; 4294967295; 4294967295; 4294967295; 4294967295; 4294967295; 4294967295; 4294967295; 4294967295; 4294967295; 4294967295; 4294967295; 4294967295; 4294967295; 4294967295; 4294967295; 4294967295; 4294967295; 4294967295; 4294967295; 4294967295; 4294967295; 4294967295; 4294967295];
  [4294967295; 4294967295; 4294967295; 4294967295; 4294967295; 4294967295; 4294967295; 4294967295; 4294967295; 4294967295; 4294967295; 4294967295; 4294967295; 4294967295; 4294967295; 4294967295; 4294967295; 4294967295; 4294967295; 4294967295; 4294967295; 4294967295; 4294967295; 4294967295; 4294967295; 4294967295; 4294967295; 4294967295; 4294967295; 4294967295; 4294967295; 4294967295; 4294967295; 4294967295; 4294967295; 4294967295; 4294967295; 4294967295; 4294967295; 4294967295; 4294967295; 4294967295; 4294967295; 4294967295; 4294967295; 4294967295; 4294967295; 4294967295; 4294967295; 4294967295; 4294967295; 4294967295; 4294967295; 4294967295; 4294967295; 4294967295; 4294967295; 4294967295; 4294967295; 4294967295; 4294967295; 4294967295; 4294967295; 4294967295; 4294967295; 4294967295; 4294967295; 4294967295; 4294967295; 4294967295; 4294967295; 4294967295; 4294967295; 4294967295; 4294967295; 4294967295; 4294967295; 4294967295; 4294967295; 4294967295; 4294967295; 4294967295; 4294967295; 4294967295; 4294967295; 4294967295; 4294967295; 4294967295; 4294967295; 4294967295; 4294967295; 4294967295; 4294967295; 4294967295];
  [4294967295; 4294967295; 4294967295; 4294967295; 4294967295; 4294967295; 4294967295; 4294967295; 4294967295; 4294967295; 4294967295; 4294967295; 4294967295; 4294967295; 4294967295; 4294967295; 4294967295; 4294967295; 4294967295; 4294967295; 4294967295; 4294967295; 4294967295; 4294967295; 4294967295; 4294967295; 4294967295; 4294967295; 4294967295; 4294967295; 4294967295; 4294967295; 4294967295; 4294967295; 4294967295; 4294967295; 4294967295; 4294967295; 4294967295; 4294967295; 4294967295; 4294967295; 4294967295; 4294967295; 4294967295; 4294967295; 4294967295; 4294967295; 4294967295; 4294967295; 4294967295; 4294967295; 4294967295; 4294967295; 4294967295; 4294967295; 4294967295; 4294967295; 4294967295; 4294967295; 4294967295; 4294967295; 4294967295; 4294967295; 4294967295; 4294967295; 4294967295; 4294967295; 4294967295; 4294967295; 4294967295; 4294967295; 4294967295; 4294967295; 4294967295; 4294967295; 4294967295; 4294967295; 4294967295; 4294967295; 4294967295; 4294967295; 4294967295; 4294967295; 4294967295; 4294967295; 4294967295; 4294967295; 4294967295; 4294967295; 4294967295; 4294967295; 4294967295; 4294967295];
  [4294967295; 4294967295; 4294967295; 4294967295; 4294967295; 4294967295; 4294967295; 4294967295; 4294967295; 4294967295; 4294967295; 4294967295; 4294967295; 4294967295; 4294967295; 4294967295; 4294967295; 4294967295; 4294967295; 4294967295; 4294967295; 4294967295; 4294967295; 4294967295; 4294967295; 4294967295; 4294967295; 4294967295; 4294967295; 4294967295; 4294967295; 4294967295; 4294967295; 4294967295; 4294967295; 4294967295; 4294967295; 4294967295; 4294967295; 4294967295; 4294967295; 4294967295; 4294967295; 4294967295; 4294967295; 4294967295; 4294967295; 4294967295; 4294967295; 4294967295; 4294967295; 4294967295; 4294967295; 4294967295; 4294967295; 4294967295; 4294967295; 4294967295; 4294967295; 4294967295; 4294967295; 4294967295; 4294967295; 4294967295; 4294967295; 4294967295; 4294967295; 4294967295; 4294967295; 4294967295; 4294967295; 4294967295; 4294967295; 4294967295; 4294967295; 4294967295; 4294967295; 4294967295; 4294967295; 4294967295; 4294967295; 4294967295; 4294967295; 4294967295; 4294967295; 4294967295; 4294967295; 4294967295; 4294967295; 4294967295; 4294967295; 4294967295; 4294967295; 4294967295];
  [4294967295; 4294967295; 4294967295; 4294967295; 4294967295; 4294967295; 4294967295; 4294967295; 4294967295; 4294967295; 4294967295; 4294967295; 4294967295; 4294967295; 4294967295; 4294967295; 4294967295; 4294967295; 4294967295; 4294967295; 4294967295; 4294967295; 4294967295; 4294967295; 4294967295; 4294967295; 4294967295; 4294967295; 4294967295; 4294967295; 4294967295; 4294967295; 4294967295; 4294967295; 4294967295; 4294967295; 4294967295; 4294967295; 4294967295; 4294967295; 4294967295; 4294967295; 4294967295; 4294967295; 4294967295; 4294967295; 4294967295; 4294967295; 4294967295; 4294967295; 4294967295; 4294967295; 4294967295; 4294967295; 4294967295; 4294967295; 4294967295; 4294967295; 4294967295; 4294967295; 4294967295; 4294967295; 4294967295; 4294967295; 4294967295; 4294967295; 4294967295; 4294967295; 4294967295; 4294967295; 4294967295; 4294967295; 4294967295; 4294967295; 4294967295; 4294967295; 4294967295; 4294967295; 4294967295; 4294967295; 4294967295; 4294967295; 4294967295; 4294967295; 4294967295; 4294967295; 4294967295; 4294967295; 4294967295; 4294967295; 4294967295; 4294967295; 4294967295; 4294967295];
  [4294967295; 4294967295; 4294967295; 4294967295; 4294967295; 4294967295; 4294967295; 4294967295; 4294967295; 4294967295; 4294967295; 4294967295; 4294967295; 4294967295; 4294967295; 4294967295; 4294967295; 4294967295; 4294967295; 4294967295; 4294967295; 4294967295; 4294967295; 4294967295; 4294967295; 4294967295; 4294967295; 4294967295; 4294967295; 4294967295; 4294967295; 4294967295; 4294967295; 4294967295; 4294967295; 4294967295; 4294967295; 4294967295; 4294967295; 4294967295; 4294967295; 4294967295; 4294967295; 4294967295; 4294967295; 4294967295; 4294967295; 4294967295; 4294967295; 4294967295; 4294967295; 4294967295; 4294967295; 4294967295; 4294967295; 4294967295; 4294967295; 4294967295; 4294967295; 4294967295; 4294967295; 4294967295; 4294967295; 4294967295; 4294967295; 4294967295; 4294967295; 4294967295; 4294967295; 4294967295; 4294967295; 4294967295; 4294967295; 4294967295; 4294967295; 4294967295; 4294967295; 4294967295; 4294967295; 4294967295; 4294967295; 4294967295; 4294967295; 4294967295; 4294967295; 4294967295; 4294967295; 4294967295; 4294967295; 4294967295; 4294967295; 4294967295; 4294967295; 4294967295];
  [4294967295; 4294967295; 4294967295; 4294967295; 4294967295; 4294967295; 4294967295; 4294967295; 4294967295; 4294967295; 4294967295; 4294967295; 4294967295; 4294967295; 4294967295; 4294967295; 4294967295; 4294967295; 4294967295; 4294967295; 4294967295; 4294967295; 4294967295; 4294967295; 4294967295; 4294967295; 4294967295; 4294967295; 4294967295; 4294967295; 4294967295; 4294967295; 4294967295; 4294967295; 4294967295; 4294967295; 4294967295; 4294967295; 4294967295; 4294967295; 4294967295; 4294967295; 4294967295; 4294967295; 4294967295; 4294967295; 4294967295; 4294967295; 4294967295; 4294967295; 4294967295; 4294967295; 4294967295; 4294967295; 4294967295; 4294967295; 4294967295; 4294967295; 4294967295; 4294967295; 4294967295; 4294967295; 4294967295; 4294967295; 4294967295; 4294967295; 4294967295; 4294967295; 4294967295; 4294967295; 4294967295; 4294967295; 4294967295; 4294967295; 4294967295; 4294967295; 4294967295; 4294967295; 4294967295; 4294967295; 4294967295; 4294967295; 4294967295; 4294967295; 4294967295; 4294967295; 4294967295; 4294967295; 4294967295; 4294967295; 4294967295; 4294967295; 4294967295; 4294967295];
  [4294967295; 4294967295; 4294967295; 4294967295; 4294967295; 4294967295; 4294967295; 4294967295; 4294967295; 4294967295; 4294967295; 4294967295; 4294967295; 4294967295; 4294967295; 4294967295; 4294967295; 4294967295; 4294967295; 4294967295; 4294967295; 4294967295; 4294967295; 4294967295; 4294967295; 4294967295; 4294967295; 4294967295; 4294967295; 4294967295; 4294967295; 4294967295; 4294967295; 4294967295; 4294967295; 4294967295; 4294967295; 4294967295; 4294967295; 4294967295; 4294967295; 4294967295; 4294967295; 4294967295; 4294967295; 4294967295; 4294967295; 4294967295; 4294967295; 4294967295; 4294967295; 4294967295; 4294967295; 4294967295; 4294967295; 4294967295; 4294967295; 4294967295; 4294967295; 4294967295; 4294967295; 4294967295; 4294967295; 4294967295; 4294967295; 4294967295; 4294967295; 4294967295; 4294967295; 4294967295; 4294967295; 4294967295; 4294967295; 4294967295; 4294967295; 4294967295; 4294967295; 4294967295; 4294967295; 4294967295; 4294967295; 4294967295; 4294967295; 4294967295; 4294967295; 4294967295; 4294967295; 4294967295; 4294967295; 4294967295; 4294967295; 4294967295; 4294967295; 4294967295];
  [4294967295; 4294967295; 4294967295; 4294967295; 4294967295; 4294967295; 4294967295; 4294967295; 4294967295; 4294967295; 4294967295; 4294967295; 4294967295; 4294967295; 4294967295; 4294967295; 4294967295; 4294967295; 4294967295; 4294967295; 4294967295; 4294967295; 4294967295; 4294967295; 4294967295; 4294967295; 4294967295; 4294967295; 4294967295; 4294967295; 4294967295; 4294967295; 4294967295; 4294967295; 4294967295; 4294967295; 4294967295; 4294967295; 4294967295; 4294967295; 4294967295; 4294967295; 4294967295; 4294967295; 4294967295; 4294967295; 4294967295; 4294967295; 4294967295; 4294967295; 4294967295; 4294967295; 4294967295; 4294967295; 4294967295; 4294967295; 4294967295; 4294967295; 4294967295; 4294967295; 4294967295; 4294967295; 4294967295; 4294967295; 4294967295; 4294967295; 4294967295; 4294967295; 4294967295; 4294967295; 4294967295; 4294967295; 4294967295; 4294967295; 4294967295; 4294967295; 4294967295; 4294967295; 4294967295; 4294967295; 4294967295; 4294967295; 4294967295; 4294967295; 4294967295; 4294967295; 4294967295; 4294967295; 4294967295; 4294967295; 4294967295; 4294967295; 4294967295; 4294967295];
  [4294967295; 4294967295; 4294967295; 4294967295; 4294967295; 4294967295; 4294967295; 4294967295; 4294967295; 4294967295; 4294967295; 4294967295; 4294967295; 4294967295; 4294967295; 4294967295; 4294967295; 4294967295; 4294967295; 4294967295; 4294967295; 4294967295; 4294967295; 4294967295; 4294967295; 4294967295; 4294967295; 4294967295; 4294967295; 4294967295; 4294967295; 4294967295; 4294967295; 4294967295; 4294967295; 4294967295; 4294967295; 4294967295; 4294967295; 4294967295; 4294967295; 4294967295; 4294967295; 4294967295; 4294967295; 4294967295; 4294967295; 4294967295; 4294967295; 4294967295; 4294967295; 4294967295; 4294967295; 4294967295; 4294967295; 4294967295; 4294967295; 4294967295; 4294967295; 4294967295; 4294967295; 4294967295; 4294967295; 4294967295; 4294967295; 4294967295; 4294967295; 4294967295; 4294967295; 4294967295; 4294967295; 4294967295; 4294967295; 4294967295; 4294967295; 4294967295; 4294967295; 4294967295; 4294967295; 4294967295; 4294967295; 4294967295; 4294967295; 4294967295; 4294967295; 4294967295; 4294967295; 4294967295; 4294967295; 4294967295; 4294967295; 4294967295; 4294967295; 4294967295];
  [4294967295; 4294967295; 4294967295; 4294967295; 4294967295; 4294967295; 4294967295; 4294967295; 4294967295; 4294967295; 4294967295; 4294967295; 4294967295; 4294967295; 4294967295; 4294967295; 4294967295; 4294967295; 4294967295; 4294967295; 4294967295; 4294967295; 4294967295; 4294967295; 4294967295; 4294967295; 4294967295; 4294967295; 4294967295; 4294967295; 4294967295; 4294967295; 4294967295; 4294967295; 4294967295; 4294967295; 4294967295; 4294967295; 4294967295; 4294967295; 4294967295; 4294967295; 4294967295; 4294967295; 4294967295; 4294967295; 4294967295; 4294967295; 4294967295; 4294967295; 4294967295; 4294967295; 4294967295; 4294967295; 4294967295; 4294967295; 4294967295; 4294967295; 4294967295; 4294967295; 4294967295; 4294967295; 4294967295; 4294967295; 4294967295; 4294967295; 4294967295; 4294967295; 4294967295; 4294967295; 4294967295; 4294967295; 4294967295; 4294967295; 4294967295; 4294967295; 4294967295; 4294967295; 4294967295; 4294967295; 4294967295; 4294967295; 4294967295; 4294967295; 4294967295; 4294967295; 4294967295; 4294967295; 4294967295; 4294967295; 4294967295; 4294967295; 4294967295; 4294967295];
  [4294967295; 4294967295; 4294967295; 4294967295; 4294967295; 4294967295; 4294967295; 4294967295; 4294967295; 4294967295; 4294967295; 4294967295; 4294967295; 4294967295; 4294967295; 4294967295; 4294967295; 4294967295; 4294967295; 4294967295; 4294967295; 4294967295; 4294967295; 4294967295; 4294967295; 4294967295; 4294967295; 4294967295; 4294967295; 4294967295; 4294967295; 4294967295; 4294967295; 4294967295; 4294967295; 4294967295; 4294967295; 4294967295; 4294967295; 4294967295; 4294967295; 4294967295; 4294967295; 4294967295; 4294967295; 4294967295; 4294967295; 4294967295; 4294967295; 4294967295; 4294967295; 4294967295; 4294967295; 4294967295; 4294967295; 4294967295; 4294967295; 4294967295; 4294967295; 4294967295; 4294967295; 4294967295; 4294967295; 4294967295; 4294967295; 4294967295; 4294967295; 4294967295; 4294967295; 4294967295; 4294967295; 4294967295; 4294967295; 4294967295; 4294967295; 4294967295; 4294967295; 4294967295; 4294967295; 4294967295; 4294967295; 4294967295; 4294967295; 4294967295; 4294967295; 4294967295; 4294967295; 4294967295; 4294967295; 4294967295; 4294967295; 4294967295; 4294967295; 4294967295];
  [4294967295; 4294967295; 4294967295; 4294967295; 4294967295; 4294967295; 4294967295; 4294967295; 4294967295; 4294967295; 4294967295; 4294967295; 4294967295; 4294967295; 4294967295; 4294967295; 4294967295; 4294967295; 4294967295; 4294967295; 4294967295; 4294967295; 4294967295; 4294967295; 4294967295; 4294967295; 4294967295; 4294967295; 4294967295; 4294967295; 4294967295; 4294967295; 4294967295; 4294967295; 4294967295; 4294967295; 4294967295; 4294967295; 4294967295; 4294967295; 4294967295; 4294967295; 4294967295; 4294967295; 4294967295; 4294967295; 4294967295; 4294967295; 4294967295; 4294967295; 4294967295; 4294967295; 4294967295; 4294967295; 4294967295; 4294967295; 4294967295; 4294967295; 4294967295; 4294967295; 4294967295; 4294967295; 4294967295; 4294967295; 4294967295; 4294967295; 4294967295; 4294967295; 4294967295; 4294967295; 4294967295; 4294967295; 4294967295; 4294967295; 4294967295; 4294967295; 4294967295; 4294967295; 4294967295; 4294967295; 4294967295; 4294967295; 4294967295; 4294967295; 4294967295; 4294967295; 4294967295; 4294967295; 4294967295; 4294967295; 4294967295; 4294967295; 4294967295; 4294967295];
  [4294967295; 4294967295; 4294967295; 4294967295; 4294967295; 4294967295; 4294967295; 4294967295; 4294967295; 4294967295; 4294967295; 4294967295; 4294967295; 4294967295; 4294967295; 4294967295; 4294967295; 4294967295; 4294967295; 4294967295; 4294967295; 4294967295; 4294967295; 4294967295; 4294967295; 4294967295; 4294967295; 4294967295; 4294967295; 4294967295; 4294967295; 4294967295; 4294967295; 4294967295; 4294967295; 4294967295; 4294967295; 4294967295; 4294967295; 4294967295; 4294967295; 4294967295; 4294967295; 4294967295; 4294967295; 4294967295; 4294967295; 4294967295; 4294967295; 4294967295; 4294967295; 4294967295; 4294967295; 4294967295; 4294967295; 4294967295; 4294967295; 4294967295; 4294967295; 4294967295; 4294967295; 4294967295; 4294967295; 4294967295; 4294967295; 4294967295; 4294967295; 4294967295; 4294967295; 4294967295; 4294967295; 4294967295; 4294967295; 4294967295; 4294967295; 4294967295; 4294967295; 4294967295; 4294967295; 4294967295; 4294967295; 4294967295; 4294967295; 4294967295; 4294967295; 4294967295; 4294967295; 4294967295; 4294967295; 4294967295; 4294967295; 4294967295; 4294967295; 4294967295];
  [4294967295; 4294967295; 4294967295; 4294967295; 4294967295; 4294967295; 4294967295; 4294967295; 4294967295; 4294967295; 4294967295; 4294967295; 4294967295; 4294967295; 4294967295; 4294967295; 4294967295; 4294967295; 4294967295; 4294967295; 4294967295; 4294967295; 4294967295; 4294967295; 4294967295; 4294967295; 4294967295; 4294967295; 4294967295; 4294967295; 4294967295; 4294967295; 4294967295; 4294967295; 4294967295; 4294967295; 4294967295; 4294967295; 4294967295; 4294967295; 4294967295; 4294967295; 4294967295; 4294967295; 4294967295; 4294967295; 4294967295; 4294967295; 4294967295; 4294967295; 4294967295; 4294967295; 4294967295; 4294967295; 4294967295; 4294967295; 4294967295; 4294967295; 4294967295; 4294967295; 4294967295; 4294967295; 4294967295; 4294967295; 4294967295; 4294967295; 4294967295; 4294967295; 4294967295; 4294967295; 4294967295; 4294967295; 4294967295; 4294967295; 4294967295; 4294967295; 4294967295; 4294967295; 4294967295; 4294967295; 4294967295; 4294967295; 4294967295; 4294967295; 4294967295; 4294967295; 4294967295; 4294967295; 4294967295; 4294967295; 4294967295; 4294967295; 4294967295; 4294967295];
  [4294967295; 4294967295; 4294967295; 4294967295; 4294967295; 4294967295; 4294967295; 4294967295; 4294967295; 4294967295; 4294967295; 4294967295; 4294967295; 4294967295; 4294967295; 4294967295; 4294967295; 4294967295; 4294967295; 4294967295; 4294967295; 4294967295; 4294967295; 4294967295; 4294967295; 4294967295; 4294967295; 4294967295; 4294967295; 4294967295; 4294967295; 4294967295; 4294967295; 4294967295; 4294967295; 4294967295; 4294967295; 4294967295; 4294967295; 4294967295; 4294967295; 4294967295; 4294967295; 4294967295; 4294967295; 4294967295; 4294967295; 4294967295; 4294967295; 4294967295; 4294967295; 4294967295; 4294967295; 4294967295; 4294967295; 4294967295; 4294967295; 4294967295; 4294967295; 4294967295; 4294967295; 4294967295; 4294967295; 4294967295; 4294967295; 4294967295; 4294967295; 4294967295; 4294967295; 4294967295; 4294967295; 4294967295; 4294967295; 4294967295; 4294967295; 4294967295; 4294967295; 4294967295; 4294967295; 4294967295; 4294967295; 4294967295; 4294967295; 4294967295; 4294967295; 4294967295; 4294967295; 4294967295; 4294967295; 4294967295; 4294967295; 4294967295; 4294967295; 4294967295];
  [4294967295; 4294967295; 4294967295; 4294967295; 4294967295; 4294967295; 4294967295; 4294967295; 4294967295; 4294967295; 4294967295; 4294967295; 4294967295; 4294967295; 4294967295; 4294967295; 4294967295; 4294967295; 4294967295; 4294967295; 4294967295; 4294967295; 4294967295; 4294967295; 4294967295; 4294967295; 4294967295; 4294967295; 4294967295; 4294967295; 4294967295; 4294967295; 4294967295; 4294967295; 4294967295; 4294967295; 4294967295; 4294967295; 4294967295; 4294967295; 4294967295; 4294967295; 4294967295; 4294967295; 4294967295; 4294967295; 4294967295; 4294967295; 4294967295; 4294967295; 4294967295; 4294967295; 4294967295; 4294967295; 4294967295; 4294967295; 4294967295; 4294967295; 4294967295; 4294967295; 4294967295; 4294967295; 4294967295; 4294967295; 4294967295; 4294967295; 4294967295; 4294967295; 4294967295; 4294967295; 4294967295; 4294967295; 4294967295; 4294967295; 4294967295; 4294967295; 4294967295; 4294967295; 4294967295; 4294967295; 4294967295; 4294967295; 4294967295; 4294967295; 4294967295; 4294967295; 4294967295; 4294967295; 4294967295; 4294967295; 4294967295; 4294967295; 4294967295; 4294967295];
  [4294967295; 4294967295; 4294967295; 4294967295; 4294967295; 4294967295; 4294967295; 4294967295; 4294967295; 4294967295; 4294967295; 4294967295; 4294967295; 4294967295; 4294967295; 4294967295; 4294967295; 4294967295; 4294967295; 4294967295; 4294967295; 4294967295; 4294967295; 4294967295; 4294967295; 4294967295; 4294967295; 4294967295; 4294967295; 4294967295; 4294967295; 4294967295; 4294967295; 4294967295; 4294967295; 4294967295; 4294967295; 4294967295; 4294967295; 4294967295; 4294967295; 4294967295; 4294967295; 4294967295; 4294967295; 4294967295; 4294967295; 4294967295; 4294967295; 4294967295; 4294967295; 4294967295; 4294967295; 4294967295; 4294967295; 4294967295; 4294967295; 4294967295; 4294967295; 4294967295; 4294967295; 4294967295; 4294967295; 4294967295; 4294967295; 4294967295; 4294967295; 4294967295; 4294967295; 4294967295; 4294967295; 4294967295; 4294967295; 4294967295; 4294967295; 4294967295; 4294967295; 4294967295; 4294967295; 4294967295; 4294967295; 4294967295; 4294967295; 4294967295; 4294967295; 4294967295; 4294967295; 4294967295; 4294967295; 4294967295; 4294967295; 4294967295; 4294967295; 4294967295];
  [4294967295; 4294967295; 4294967295; 4294967295; 4294967295; 4294967295; 4294967295; 4294967295; 4294967295; 4294967295; 4294967295; 4294967295; 4294967295; 4294967295; 4294967295; 4294967295; 4294967295; 4294967295; 4294967295; 4294967295; 4294967295; 4294967295; 4294967295; 4294967295; 4294967295; 4294967295; 4294967295; 4294967295; 4294967295; 4294967295; 4294967295; 4294967295; 4294967295; 4294967295; 4294967295; 4294967295; 4294967295; 4294967295; 4294967295; 4294967295; 4294967295; 4294967295; 4294967295; 4294967295; 4294967295; 4294967295; 4294967295; 4294967295; 4294967295; 4294967295; 4294967295; 4294967295; 4294967295; 4294967295; 4294967295; 4294967295; 4294967295; 4294967295; 4294967295; 4294967295; 4294967295; 4294967295; 4294967295; 4294967295; 4294967295; 4294967295; 4294967295; 4294967295; 4294967295; 4294967295; 4294967295; 4294967295; 4294967295; 4294967295; 4294967295; 4294967295; 4294967295; 4294967295; 4294967295; 4294967295; 4294967295; 4294967295; 4294967295; 4294967295; 4294967295; 4294967295; 4294967295; 4294967295; 4294967295; 4294967295; 4294967295; 4294967295; 4294967295; 4294967295];
  [4294967295; 4294967295; 4294967295; 4294967295; 4294967295; 4294967295; 4294967295; 4294967295; 4294967295; 4294967295; 4294967295; 4294967295; 4294967295; 4294967295; 4294967295; 4294967295; 4294967295; 4294967295; 4294967295; 4294967295; 4294967295; 4294967295; 4294967295; 4294967295; 4294967295; 4294967295; 4294967295; 4294967295; 4294967295; 4294967295; 4294967295; 4294967295; 4294967295; 4294967295; 4294967295; 4294967295; 4294967295; 4294967295; 4294967295; 4294967295; 4294967295; 4294967295; 4294967295; 4294967295; 4294967295; 4294967295; 4294967295; 4294967295; 4294967295; 4294967295; 4294967295; 4294967295; 4294967295; 4294967295; 4294967295; 4294967295; 4294967295; 4294967295; 4294967295; 4294967295; 4294967295; 4294967295; 4294967295; 4294967295; 4294967295; 4294967295; 4294967295; 4294967295; 4294967295; 4294967295; 4294967295; 4294967295; 4294967295; 4294967295; 4294967295; 4294967295; 4294967295; 4294967295; 4294967295; 4294967295; 4294967295; 4294967295; 4294967295; 4294967295; 4294967295; 4294967295; 4294967295; 4294967295; 4294967295; 4294967295; 4294967295; 4294967295; 4294967295; 4294967295];
  [4294967295; 4294967295; 4294967295; 4294967295; 4294967295; 4294967295; 4294967295; 4294967295; 4294967295; 4294967295; 4294967295; 4294967295; 4294967295; 4294967295; 4294967295; 4294967295; 4294967295; 4294967295; 4294967295; 4294967295; 4294967295; 4294967295; 4294967295; 4294967295; 4294967295; 4294967295; 4294967295; 4294967295; 4294967295; 4294967295; 4294967295; 4294967295; 4294967295; 4294967295; 4294967295; 4294967295; 4294967295; 4294967295; 4294967295; 4294967295; 4294967295; 4294967295; 4294967295; 4294967295; 4294967295; 4294967295; 4294967295; 4294967295; 4294967295; 4294967295; 4294967295; 4294967295; 4294967295; 4294967295; 4294967295; 4294967295; 4294967295; 4294967295; 4294967295; 4294967295; 4294967295; 4294967295; 4294967295; 4294967295; 4294967295; 4294967295; 4294967295; 4294967295; 4294967295; 4294967295; 4294967295; 4294967295; 4294967295; 4294967295; 4294967295; 4294967295; 4294967295; 4294967295; 4294967295; 4294967295; 4294967295; 4294967295; 4294967295; 4294967295; 4294967295; 4294967295; 4294967295; 4294967295; 4294967295; 4294967295; 4294967295; 4294967295; 4294967295; 4294967295];
  [4294967295; 4294967295; 4294967295; 4294967295; 4294967295; 4294967295; 4294967295; 4294967295; 4294967295; 4294967295; 4294967295; 4294967295; 4294967295; 4294967295; 4294967295; 4294967295; 4294967295; 4294967295; 4294967295; 4294967295; 4294967295; 4294967295; 4294967295; 4294967295; 4294967295; 4294967295; 4294967295; 4294967295; 4294967295; 4294967295; 4294967295; 4294967295; 4294967295; 4294967295; 4294967295; 4294967295; 4294967295; 4294967295; 4294967295; 4294967295; 4294967295; 4294967295; 4294967295; 4294967295; 4294967295; 4294967295; 4294967295; 4294967295; 4294967295; 4294967295; 4294967295; 4294967295; 4294967295; 4294967295; 4294967295; 4294967295; 4294967295; 4294967295; 4294967295; 4294967295; 4294967295; 4294967295; 4294967295; 4294967295; 4294967295; 4294967295; 4294967295; 4294967295; 4294967295; 4294967295; 4294967295; 4294967295; 4294967295; 4294967295; 4294967295; 4294967295; 4294967295; 4294967295; 4294967295; 4294967295; 4294967295; 4294967295; 4294967295; 4294967295; 4294967295; 4294967295; 4294967295; 4294967295; 4294967295; 4294967295; 4294967295; 4294967295; 4294967295; 4294967295];
  [8560; 8561; 8562; 8563; 8564; 8565; 8566; 8567; 8568; 8569; 8544; 8545; 8546; 8547; 8548; 8549; 8550; 8551; 8552; 8553; 65506; 65508; 65287; 65282; 12849; 8470; 8481; 8757; 32394; 35100; 37704; 37512; 34012; 20425; 28859; 26161; 26824; 37625; 26363; 24389; 20008; 20193; 20220; 20224; 20227; 20281; 20310; 20370; 20362; 20378; 20372; 20429; 20544; 20514; 20479; 20510; 20550; 20592; 20546; 20628; 20724; 20696; 20810; 20836; 20893; 20926; 20972; 21013; 21148; 21158; 21184; 21211; 21248; 21255; 21284; 21362; 21395; 21426; 21469; 64014; 21660; 21642; 21673; 21759; 21894; 22361; 22373; 22444; 22472; 22471; 64015; 64016; 22686; 22706];
  [22795; 22867; 22875; 22877; 22883; 22948; 22970; 23382; 23488; 29999; 23512; 23532; 23582; 23718; 23738; 23797; 23847; 23891; 64017; 23874; 23917; 23992; 23993; 24016; 24353; 24372; 24423; 24503; 24542; 24669; 24709; 24714; 24798; 24789; 24864; 24818; 24849; 24887; 24880; 24984; 25107; 25254; 25589; 25696; 25757; 25806; 25934; 26112; 26133; 26171; 26121; 26158; 26142; 26148; 26213; 26199; 26201; 64018; 26227; 26265; 26272; 26290; 26303; 26362; 26382; 63785; 26470; 26555; 26706; 26560; 26625; 26692; 26831; 64019; 26984; 64020; 27032; 27106; 27184; 27243; 27206; 27251; 27262; 27362; 27364; 27606; 27711; 27740; 27782; 27759; 27866; 27908; 28039; 28015];
  [28054; 28076; 28111; 28152; 28146; 28156; 28217; 28252; 28199; 28220; 28351; 28552; 28597; 28661; 28677; 28679; 28712; 28805; 28843; 28943; 28932; 29020; 28998; 28999; 64021; 29121; 29182; 29361; 29374; 29476; 64022; 29559; 29629; 29641; 29654; 29667; 29650; 29703; 29685; 29734; 29738; 29737; 29742; 29794; 29833; 29855; 29953; 30063; 30338; 30364; 30366; 30363; 30374; 64023; 30534; 21167; 30753; 30798; 30820; 30842; 31024; 64024; 64025; 64026; 31124; 64027; 31131; 31441; 31463; 64028; 31467; 31646; 64029; 32072; 32092; 32183; 32160; 32214; 32338; 32583; 32673; 64030; 33537; 33634; 33663; 33735; 33782; 33864; 33972; 34131; 34137; 34155; 64031; 34224];
  [64032; 64033; 34823; 35061; 35346; 35383; 35449; 35495; 35518; 35551; 64034; 35574; 35667; 35711; 36080; 36084; 36114; 36214; 64035; 36559; 64036; 64037; 36967; 37086; 64038; 37141; 37159; 37338; 37335; 37342; 37357; 37358; 37348; 37349; 37382; 37392; 37386; 37434; 37440; 37436; 37454; 37465; 37457; 37433; 37479; 37543; 37495; 37496; 37607; 37591; 37593; 37584; 64039; 37589; 37600; 37587; 37669; 37665; 37627; 64040; 37662; 37631; 37661; 37634; 37744; 37719; 37796; 37830; 37854; 37880; 37937; 37957; 37960; 38290; 63964; 64041; 38557; 38575; 38707; 38715; 38723; 38733; 38735; 38737; 38741; 38999; 39013; 64042; 64043; 39207; 64044; 39326; 39502; 39641];
  [39644; 39797; 39794; 39823; 39857; 39867; 39936; 40304; 40299; 64045; 40473; 40657; 4294967295; 4294967295; 4294967295; 4294967295; 4294967295; 4294967295; 4294967295; 4294967295; 4294967295; 4294967295; 4294967295; 4294967295; 4294967295; 4294967295; 4294967295; 4294967295; 4294967295; 4294967295; 4294967295; 4294967295; 4294967295; 4294967295; 4294967295; 4294967295; 4294967295; 4294967295; 4294967295; 4294967295; 4294967295; 4294967295; 4294967295; 4294967295; 4294967295; 4294967295; 4294967295; 4294967295; 4294967295; 4294967295; 4294967295; 4294967295; 4294967295; 4294967295; 4294967295; 4294967295; 4294967295; 4294967295; 4294967295; 4294967295; 4294967295; 4294967295; 4294967295; 4294967295; 4294967295; 4294967295; 4294967295; 4294967295; 4294967295; 4294967295; 4294967295; 4294967295; 4294967295; 4294967295; 4294967295; 4294967295; 4294967295; 4294967295; 4294967295; 4294967295; 4294967295; 4294967295; 4294967295; 4294967295; 4294967295; 4294967295; 4294967295; 4294967295; 4294967295; 4294967295; 4294967295; 4294967295; 4294967295; 4294967295];
  [4294967295; 4294967295; 4294967295; 4294967295; 4294967295; 4294967295; 4294967295; 4294967295; 4294967295; 4294967295; 4294967295; 4294967295; 4294967295; 4294967295; 4294967295; 4294967295; 4294967295; 4294967295; 4294967295; 4294967295; 4294967295; 4294967295; 4294967295; 4294967295; 4294967295; 4294967295; 4294967295; 4294967295; 4294967295; 4294967295; 4294967295; 4294967295; 4294967295; 4294967295; 4294967295; 4294967295; 4294967295; 4294967295; 4294967295; 4294967295; 4294967295; 4294967295; 4294967295; 4294967295; 4294967295; 4294967295; 4294967295; 4294967295; 4294967295; 4294967295; 4294967295; 4294967295; 4294967295; 4294967295; 4294967295; 4294967295; 4294967295; 4294967295; 4294967295; 4294967295; 4294967295; 4294967295; 4294967295; 4294967295; 4294967295; 4294967295; 4294967295; 4294967295; 4294967295; 4294967295; 4294967295; 4294967295; 4294967295; 4294967295; 4294967295; 4294967295; 4294967295; 4294967295; 4294967295; 4294967295; 4294967295; 4294967295; 4294967295; 4294967295; 4294967295; 4294967295; 4294967295; 4294967295; 4294967295; 4294967295; 4294967295; 4294967295; 4294967295; 4294967295]].

(** indexes_code_point.cpp:9 *)
Definition index_code_point_jis0212 : list Z := concat [
  [4294967295; 4294967295; 4294967295; 4294967295; 4294967295; 4294967295; 4294967295; 4294967295; 4294967295; 4294967295; 4294967295; 4294967295; 4294967295; 4294967295; 4294967295; 4294967295; 4294967295; 4294967295; 4294967295; 4294967295; 4294967295; 4294967295; 4294967295; 4294967295; 4294967295; 4294967295; 4294967295; 4294967295; 4294967295; 4294967295; 4294967295; 4294967295; 4294967295; 4294967295; 4294967295; 4294967295; 4294967295; 4294967295; 4294967295; 4294967295; 4294967295; 4294967295; 4294967295; 4294967295; 4294967295; 4294967295; 4294967295; 4294967295; 4294967295; 4294967295; 4294967295; 4294967295; 4294967295; 4294967295; 4294967295; 4294967295; 4294967295; 4294967295; 4294967295; 4294967295; 4294967295; 4294967295; 4294967295; 4294967295; 4294967295; 4294967295; 4294967295; 4294967295; 4294967295; 4294967295; 4294967295; 4294967295; 4294967295; 4294967295; 4294967295; 4294967295; 4294967295; 4294967295; 4294967295; 4294967295; 4294967295; 4294967295; 4294967295; 4294967295; 4294967295; 4294967295; 4294967295; 4294967295; 4294967295; 4294967295; 4294967295; 4294967295; 4294967295; 4294967295];
  [4294967295; 4294967295; 4294967295; 4294967295; 4294967295; 4294967295; 4294967295; 4294967295; 4294967295; 4294967295; 4294967295; 4294967295; 4294967295; 4294967295; 728; 711; 184; 729; 733; 175; 731; 730; 65374; 900; 901; 4294967295; 4294967295; 4294967295; 4294967295; 4294967295; 4294967295; 4294967295; 4294967295; 161; 166; 191; 4294967295; 4294967295; 4294967295; 4294967295; 4294967295; 4294967295; 4294967295; 4294967295; 4294967295; 4294967295; 4294967295; 4294967295; 4294967295; 4294967295; 4294967295; 4294967295; 4294967295; 4294967295; 4294967295; 4294967295; 4294967295; 4294967295; 4294967295; 4294967295; 4294967295; 4294967295; 4294967295; 4294967295; 4294967295; 4294967295; 4294967295; 4294967295; 4294967295; 4294967295; 4294967295; 4294967295; 4294967295; 4294967295; 186; 170; 169; 174; 8482; 164; 8470; 4294967295; 4294967295; 4294967295; 4294967295; 4294967295; 4294967295; 4294967295; 4294967295; 4294967295; 4294967295; 4294967295; 4294967295; 4294967295];
  [4294967295; 4294967295; 4294967295; 4294967295; 4294967295; 4294967295; 4294967295; 4294967295; 4294967295; 4294967295; 4294967295; 4294967295; 4294967295; 4294967295; 4294967295; 4294967295; 4294967295; 4294967295; 4294967295; 4294967295; 4294967295; 4294967295; 4294967295; 4294967295; 4294967295; 4294967295; 4294967295; 4294967295; 4294967295; 4294967295; 4294967295; 4294967295; 4294967295; 4294967295; 4294967295; 4294967295; 4294967295; 4294967295; 4294967295; 4294967295; 4294967295; 4294967295; 4294967295; 4294967295; 4294967295; 4294967295; 4294967295; 4294967295; 4294967295; 4294967295; 4294967295; 4294967295; 4294967295; 4294967295; 4294967295; 4294967295; 4294967295; 4294967295; 4294967295; 4294967295; 4294967295; 4294967295; 4294967295; 4294967295; 4294967295; 4294967295; 4294967295; 4294967295; 4294967295; 4294967295; 4294967295; 4294967295; 4294967295; 4294967295; 4294967295; 4294967295; 4294967295; 4294967295; 4294967295; 4294967295; 4294967295; 4294967295; 4294967295; 4294967295; 4294967295; 4294967295; 4294967295; 4294967295; 4294967295; 4294967295; 4294967295; 4294967295; 4294967295; 4294967295];
  [4294967295; 4294967295; 4294967295; 4294967295; 4294967295; 4294967295; 4294967295; 4294967295; 4294967295; 4294967295; 4294967295; 4294967295; 4294967295; 4294967295; 4294967295; 4294967295; 4294967295; 4294967295; 4294967295; 4294967295; 4294967295; 4294967295; 4294967295; 4294967295; 4294967295; 4294967295; 4294967295; 4294967295; 4294967295; 4294967295; 4294967295; 4294967295; 4294967295; 4294967295; 4294967295; 4294967295; 4294967295; 4294967295; 4294967295; 4294967295; 4294967295; 4294967295; 4294967295; 4294967295; 4294967295; 4294967295; 4294967295; 4294967295; 4294967295; 4294967295; 4294967295; 4294967295; 4294967295; 4294967295; 4294967295; 4294967295; 4294967295; 4294967295; 4294967295; 4294967295; 4294967295; 4294967295; 4294967295; 4294967295; 4294967295; 4294967295; 4294967295; 4294967295; 4294967295; 4294967295; 4294967295; 4294967295; 4294967295; 4294967295; 4294967295; 4294967295; 4294967295; 4294967295; 4294967295; 4294967295; 4294967295; 4294967295; 4294967295; 4294967295; 4294967295; 4294967295; 4294967295; 4294967295; 4294967295; 4294967295; 4294967295; 4294967295; 4294967295; 4294967295];
  [4294967295; 4294967295; 4294967295; 4294967295; 4294967295; 4294967295; 4294967295; 4294967295; 4294967295; 4294967295; 4294967295; 4294967295; 4294967295; 4294967295; 4294967295; 4294967295; 4294967295; 4294967295; 4294967295; 4294967295; 4294967295; 4294967295; 4294967295; 4294967295; 4294967295; 4294967295; 4294967295; 4294967295; 4294967295; 4294967295; 4294967295; 4294967295; 4294967295; 4294967295; 4294967295; 4294967295; 4294967295; 4294967295; 4294967295; 4294967295; 4294967295; 4294967295; 4294967295; 4294967295; 4294967295; 4294967295; 4294967295; 4294967295; 4294967295; 4294967295; 4294967295; 4294967295; 4294967295; 4294967295; 4294967295; 4294967295; 4294967295; 4294967295; 4294967295; 4294967295; 4294967295; 4294967295; 4294967295; 4294967295; 4294967295; 4294967295; 4294967295; 4294967295; 4294967295; 4294967295; 4294967295; 4294967295; 4294967295; 4294967295; 4294967295; 4294967295; 4294967295; 4294967295; 4294967295; 4294967295; 4294967295; 4294967295; 4294967295; 4294967295; 4294967295; 4294967295; 4294967295; 4294967295; 4294967295; 4294967295; 4294967295; 4294967295; 4294967295; 4294967295];
  [4294967295; 4294967295; 4294967295; 4294967295; 4294967295; 4294967295; 4294967295; 4294967295; 4294967295; 4294967295; 4294967295; 4294967295; 4294967295; 4294967295; 4294967295; 4294967295; 4294967295; 4294967295; 4294967295; 4294967295; 4294967295; 4294967295; 4294967295; 4294967295; 4294967295; 4294967295; 4294967295; 4294967295; 4294967295; 4294967295; 4294967295; 4294967295; 4294967295; 4294967295; 4294967295; 4294967295; 4294967295; 4294967295; 4294967295; 4294967295; 4294967295; 4294967295; 4294967295; 4294967295; 4294967295; 4294967295; 4294967295; 4294967295; 4294967295; 4294967295; 4294967295; 4294967295; 4294967295; 4294967295; 4294967295; 4294967295; 4294967295; 4294967295; 4294967295; 4294967295; 4294967295; 4294967295; 4294967295; 4294967295; 902; 904; 905; 906; 938; 4294967295; 908; 4294967295; 910; 939; 4294967295; 911; 4294967295; 4294967295; 4294967295; 4294967295; 940; 941; 942; 943; 970; 912; 972; 962; 973; 971; 944; 974; 4294967295; 4294967295];
  [4294967295; 4294967295; 4294967295; 4294967295; 4294967295; 4294967295; 4294967295; 4294967295; 4294967295; 4294967295; 4294967295; 4294967295; 4294967295; 4294967295; 4294967295; 4294967295; 4294967295; 4294967295; 4294967295; 4294967295; 4294967295; 4294967295; 4294967295; 4294967295; 4294967295; 4294967295; 4294967295; 4294967295; 4294967295; 4294967295; 4294967295; 4294967295; 4294967295; 1026; 1027; 1028; 1029; 1030; 1031; 1032; 1033; 1034; 1035; 1036; 1038; 1039; 4294967295; 4294967295; 4294967295; 4294967295; 4294967295; 4294967295; 4294967295; 4294967295; 4294967295; 4294967295; 4294967295; 4294967295; 4294967295; 4294967295; 4294967295; 4294967295; 4294967295; 4294967295; 4294967295; 4294967295; 4294967295; 4294967295; 4294967295; 4294967295; 4294967295; 4294967295; 4294967295; 4294967295; 4294967295; 4294967295; 4294967295; 4294967295; 4294967295; 4294967295; 4294967295; 1106; 1107; 1108; 1109; 1110; 1111; 1112; 1113; 1114; 1115; 1116; 1118; 1119];
  [4294967295; 4294967295; 4294967295; 4294967295; 4294967295; 4294967295; 4294967295; 4294967295; 4294967295; 4294967295; 4294967295; 4294967295; 4294967295; 4294967295; 4294967295; 4294967295; 4294967295; 4294967295; 4294967295; 4294967295; 4294967295; 4294967295; 4294967295; 4294967295; 4294967295; 4294967295; 4294967295; 4294967295; 4294967295; 4294967295; 4294967295; 4294967295; 4294967295; 4294967295; 4294967295; 4294967295; 4294967295; 4294967295; 4294967295; 4294967295; 4294967295; 4294967295; 4294967295; 4294967295; 4294967295; 4294967295; 4294967295; 4294967295; 4294967295; 4294967295; 4294967295; 4294967295; 4294967295; 4294967295; 4294967295; 4294967295; 4294967295; 4294967295; 4294967295; 4294967295; 4294967295; 4294967295; 4294967295; 4294967295; 4294967295; 4294967295; 4294967295; 4294967295; 4294967295; 4294967295; 4294967295; 4294967295; 4294967295; 4294967295; 4294967295; 4294967295; 4294967295; 4294967295; 4294967295; 4294967295; 4294967295; 4294967295; 4294967295; 4294967295; 4294967295; 4294967295; 4294967295; 4294967295; 4294967295; 4294967295; 4294967295; 4294967295; 4294967295; 4294967295];
  [198; 272; 4294967295; 294; 4294967295; 306; 4294967295; 321; 319; 4294967295; 330; 216; 338; 4294967295; 358; 222; 4294967295; 4294967295; 4294967295; 4294967295; 4294967295; 4294967295; 4294967295; 4294967295; 4294967295; 4294967295; 4294967295; 4294967295; 4294967295; 4294967295; 4294967295; 4294967295; 230; 273; 240; 295; 305; 307; 312; 322; 320; 329; 331; 248; 339; 223; 359; 254; 4294967295; 4294967295; 4294967295; 4294967295; 4294967295; 4294967295; 4294967295; 4294967295; 4294967295; 4294967295; 4294967295; 4294967295; 4294967295; 4294967295; 4294967295; 4294967295; 4294967295; 4294967295; 4294967295; 4294967295; 4294967295; 4294967295; 4294967295; 4294967295; 4294967295; 4294967295; 4294967295; 4294967295; 4294967295; 4294967295; 4294967295; 4294967295; 4294967295; 4294967295; 4294967295; 4294967295; 4294967295; 4294967295; 4294967295; 4294967295; 4294967295; 4294967295; 4294967295; 4294967295; 4294967295; 4294967295];
  [193; 192; 196; 194; 258; 461; 256; 260; 197; 195; 262; 264; 268; 199; 266; 270; 201; 200; 203; 202; 282; 278; 274; 280; 4294967295; 284; 286; 290; 288; 292; 205; 204; 207; 206; 463; 304; 298; 302; 296; 308; 310; 313; 317; 315; 323; 327; 325; 209; 211; 210; 214; 212; 465; 336; 332; 213; 340; 344; 342; 346; 348; 352; 350; 356; 354; 218; 217; 220; 219; 364; 467; 368; 362; 370; 366; 360; 471; 475; 473; 469; 372; 221; 376; 374; 377; 381; 379; 4294967295; 4294967295; 4294967295; 4294967295; 4294967295; 4294967295; 4294967295];
  [225; 224; 228; 226; 259; 462; 257; 261; 229; 227; 263; 265; 269; 231; 267; 271; 233; 232; 235; 234; 283; 279; 275; 281; 501; 285; 287; 4294967295; 289; 293; 237; 236; 239; 238; 464; 4294967295; 299; 303; 297; 309; 311; 314; 318; 316; 324; 328; 326; 241; 243; 242; 246; 244; 466; 337; 333; 245; 341; 345; 343; 347; 349; 353; 351; 357; 355; 250; 249; 252; 251; 365; 468; 369; 363; 371; 367; 361; 472; 476; 474; 470; 373; 253; 255; 375; 378; 382; 380; 4294967295; 4294967295; 4294967295; 4294967295; 4294967295; 4294967295; 4294967295];
  [4294967295; 4294967295; 4294967295; 4294967295; 4294967295; 4294967295; 4294967295; 4294967295; 4294967295; 4294967295; 4294967295; 4294967295; 4294967295; 4294967295; 4294967295; 4294967295; 4294967295; 4294967295; 4294967295; 4294967295; 4294967295; 4294967295; 4294967295; 4294967295; 4294967295; 4294967295; 4294967295; 4294967295; 4294967295; 4294967295; 4294967295; 4294967295; 4294967295; 4294967295; 4294967295; 4294967295; 4294967295; 4294967295; 4294967295; 4294967295; 4294967295; 4294967295; 4294967295; 4294967295; 4294967295; 4294967295; 4294967295; 4294967295; 4294967295; 4294967295; 4294967295; 4294967295; 4294967295; 4294967295; 4294967295; 4294967295; 4294967295; 4294967295; 4294967295; 4294967295; 4294967295; 4294967295; 4294967295; 4294967295; 4294967295; 4294967295; 4294967295; 4294967295; 4294967295; 4294967295; 4294967295; 4294967295; 4294967295; 4294967295; 4294967295; 4294967295; 4294967295; 4294967295; 4294967295; 4294967295; 4294967295; 4294967295; 4294967295; 4294967295; 4294967295; 4294967295; 4294967295; 4294967295; 4294967295; 4294967295; 4294967295; 4294967295; 4294967295; 4294967295];
  [4294967295; 4294967295; 4294967295; 4294967295; 4294967295; 4294967295; 4294967295; 4294967295; 4294967295; 4294967295; 4294967295; 4294967295; 4294967295; 4294967295; 4294967295; 4294967295; 4294967295; 4294967295; 4294967295; 4294967295; 4294967295; 4294967295; 4294967295; 4294967295; 4294967295; 4294967295; 4294967295; 4294967295; 4294967295; 4294967295; 4294967295; 4294967295; 4294967295; 4294967295; 4294967295; 4294967295; 4294967295; 4294967295; 4294967295; 4294967295; 4294967295; 4294967295; 4294967295; 4294967295; 4294967295; 4294967295; 4294967295; 4294967295; 4294967295; 4294967295; 4294967295; 4294967295; 4294967295; 4294967295; 4294967295; 4294967295; 4294967295; 4294967295; 4294967295; 4294967295; 4294967295; 4294967295; 4294967295; 4294967295; 4294967295; 4294967295; 4294967295; 4294967295; 4294967295; 4294967295; 4294967295; 4294967295; 4294967295; 4294967295; 4294967295; 4294967295; 4294967295; 4294967295; 4294967295; 4294967295; 4294967295; 4294967295; 4294967295; 4294967295; 4294967295; 4294967295; 4294967295; 4294967295; 4294967295; 4294967295; 4294967295; 4294967295; 4294967295; 4294967295];
  [4294967295; 4294967295; 4294967295; 4294967295; 4294967295; 4294967295; 4294967295; 4294967295; 4294967295; 4294967295; 4294967295; 4294967295; 4294967295; 4294967295; 4294967295; 4294967295; 4294967295; 4294967295; 4294967295; 4294967295; 4294967295; 4294967295; 4294967295; 4294967295; 4294967295; 4294967295; 4294967295; 4294967295; 4294967295; 4294967295; 4294967295; 4294967295; 4294967295; 4294967295; 4294967295; 4294967295; 4294967295; 4294967295; 4294967295; 4294967295; 4294967295; 4294967295; 4294967295; 4294967295; 4294967295; 4294967295; 4294967295; 4294967295; 4294967295; 4294967295; 4294967295; 4294967295; 4294967295; 4294967295; 4294967295; 4294967295; 4294967295; 4294967295; 4294967295; 4294967295; 4294967295; 4294967295; 4294967295; 4294967295; 4294967295; 4294967295; 4294967295; 4294967295; 4294967295; 4294967295; 4294967295; 4294967295; 4294967295; 4294967295; 4294967295; 4294967295; 4294967295; 4294967295; 4294967295; 4294967295; 4294967295; 4294967295; 4294967295; 4294967295; 4294967295; 4294967295; 4294967295; 4294967295; 4294967295; 4294967295; 4294967295; 4294967295; 4294967295; 4294967295];
  [4294967295; 4294967295; 4294967295; 4294967295; 4294967295; 4294967295; 4294967295; 4294967295; 4294967295; 4294967295; 4294967295; 4294967295; 4294967295; 4294967295; 4294967295; 4294967295; 4294967295; 4294967295; 4294967295; 4294967295; 4294967295; 4294967295; 4294967295; 4294967295; 4294967295; 4294967295; 4294967295; 4294967295; 4294967295; 4294967295; 4294967295; 4294967295; 4294967295; 4294967295; 4294967295; 4294967295; 4294967295; 4294967295; 4294967295; 4294967295; 4294967295; 4294967295; 4294967295; 4294967295; 4294967295; 4294967295; 4294967295; 4294967295; 4294967295; 4294967295; 4294967295; 4294967295; 4294967295; 4294967295; 4294967295; 4294967295; 4294967295; 4294967295; 4294967295; 4294967295; 4294967295; 4294967295; 4294967295; 4294967295; 4294967295; 4294967295; 4294967295; 4294967295; 4294967295; 4294967295; 4294967295; 4294967295; 4294967295; 4294967295; 4294967295; 4294967295; 4294967295; 4294967295; 4294967295; 4294967295; 4294967295; 4294967295; 4294967295; 4294967295; 4294967295; 4294967295; 4294967295; 4294967295; 4294967295; 4294967295; 4294967295; 4294967295; 4294967295; 4294967295];
  [19970; 19972; 19973; 19980; 19986; 19999; 20003; 20004; 20008; 20011; 20014; 20015; 20016; 20021; 20032; 20033; 20036; 20039; 20049; 20058; 20060; 20067; 20072; 20073; 20084; 20085; 20089; 20095; 20109; 20118; 20119; 20125; 20143; 20153; 20163; 20176; 20186; 20187; 20192; 20193; 20194; 20200; 20207; 20209; 20211; 20213; 20221; 20222; 20223; 20224; 20226; 20227; 20232; 20235; 20236; 20242; 20245; 20246; 20247; 20249; 20270; 20273; 20320; 20275; 20277; 20279; 20281; 20283; 20286; 20288; 20290; 20296; 20297; 20299; 20300; 20306; 20308; 20310; 20312; 20319; 20323; 20330; 20332; 20334; 20337; 20343; 20344; 20345; 20346; 20349; 20350; 20353; 20354; 20356];
  [20357; 20361; 20362; 20364; 20366; 20368; 20370; 20371; 20372; 20375; 20377; 20378; 20382; 20383; 20402; 20407; 20409; 20411; 20412; 20413; 20414; 20416; 20417; 20421; 20422; 20424; 20425; 20427; 20428; 20429; 20431; 20434; 20444; 20448; 20450; 20464; 20466; 20476; 20477; 20479; 20480; 20481; 20484; 20487; 20490; 20492; 20494; 20496; 20499; 20503; 20504; 20507; 20508; 20509; 20510; 20514; 20519; 20526; 20528; 20530; 20531; 20533; 20544; 20545; 20546; 20549; 20550; 20554; 20556; 20558; 20561; 20562; 20563; 20567; 20569; 20575; 20576; 20578; 20579; 20582; 20583; 20586; 20589; 20592; 20593; 20539; 20609; 20611; 20612; 20614; 20618; 20622; 20623; 20624];
  [20626; 20627; 20628; 20630; 20635; 20636; 20638; 20639; 20640; 20641; 20642; 20650; 20655; 20656; 20665; 20666; 20669; 20672; 20675; 20676; 20679; 20684; 20686; 20688; 20691; 20692; 20696; 20700; 20701; 20703; 20706; 20708; 20710; 20712; 20713; 20719; 20721; 20726; 20730; 20734; 20739; 20742; 20743; 20744; 20747; 20748; 20749; 20750; 20722; 20752; 20759; 20761; 20763; 20764; 20765; 20766; 20771; 20775; 20776; 20780; 20781; 20783; 20785; 20787; 20788; 20789; 20792; 20793; 20802; 20810; 20815; 20819; 20821; 20823; 20824; 20831; 20836; 20838; 20862; 20867; 20868; 20875; 20878; 20888; 20893; 20897; 20899; 20909; 20920; 20922; 20924; 20926; 20927; 20930];
  [20936; 20943; 20945; 20946; 20947; 20949; 20952; 20958; 20962; 20965; 20974; 20978; 20979; 20980; 20983; 20993; 20994; 20997; 21010; 21011; 21013; 21014; 21016; 21026; 21032; 21041; 21042; 21045; 21052; 21061; 21065; 21077; 21079; 21080; 21082; 21084; 21087; 21088; 21089; 21094; 21102; 21111; 21112; 21113; 21120; 21122; 21125; 21130; 21132; 21139; 21141; 21142; 21143; 21144; 21146; 21148; 21156; 21157; 21158; 21159; 21167; 21168; 21174; 21175; 21176; 21178; 21179; 21181; 21184; 21188; 21190; 21192; 21196; 21199; 21201; 21204; 21206; 21211; 21212; 21217; 21221; 21224; 21225; 21226; 21228; 21232; 21233; 21236; 21238; 21239; 21248; 21251; 21258; 21259];
  [21260; 21265; 21267; 21272; 21275; 21276; 21278; 21279; 21285; 21287; 21288; 21289; 21291; 21292; 21293; 21296; 21298; 21301; 21308; 21309; 21310; 21314; 21324; 21323; 21337; 21339; 21345; 21347; 21349; 21356; 21357; 21362; 21369; 21374; 21379; 21383; 21384; 21390; 21395; 21396; 21401; 21405; 21409; 21412; 21418; 21419; 21423; 21426; 21428; 21429; 21431; 21432; 21434; 21437; 21440; 21445; 21455; 21458; 21459; 21461; 21466; 21469; 21470; 21472; 21478; 21479; 21493; 21506; 21523; 21530; 21537; 21543; 21544; 21546; 21551; 21553; 21556; 21557; 21571; 21572; 21575; 21581; 21583; 21598; 21602; 21604; 21606; 21607; 21609; 21611; 21613; 21614; 21620; 21631];
  [21633; 21635; 21637; 21640; 21641; 21645; 21649; 21653; 21654; 21660; 21663; 21665; 21670; 21671; 21673; 21674; 21677; 21678; 21681; 21687; 21689; 21690; 21691; 21695; 21702; 21706; 21709; 21710; 21728; 21738; 21740; 21743; 21750; 21756; 21758; 21759; 21760; 21761; 21765; 21768; 21769; 21772; 21773; 21774; 21781; 21802; 21803; 21810; 21813; 21814; 21819; 21820; 21821; 21825; 21831; 21833; 21834; 21837; 21840; 21841; 21848; 21850; 21851; 21854; 21856; 21857; 21860; 21862; 21887; 21889; 21890; 21894; 21896; 21902; 21903; 21905; 21906; 21907; 21908; 21911; 21923; 21924; 21933; 21938; 21951; 21953; 21955; 21958; 21961; 21963; 21964; 21966; 21969; 21970];
  [21971; 21975; 21976; 21979; 21982; 21986; 21993; 22006; 22015; 22021; 22024; 22026; 22029; 22030; 22031; 22032; 22033; 22034; 22041; 22060; 22064; 22067; 22069; 22071; 22073; 22075; 22076; 22077; 22079; 22080; 22081; 22083; 22084; 22086; 22089; 22091; 22093; 22095; 22100; 22110; 22112; 22113; 22114; 22115; 22118; 22121; 22125; 22127; 22129; 22130; 22133; 22148; 22149; 22152; 22155; 22156; 22165; 22169; 22170; 22173; 22174; 22175; 22182; 22183; 22184; 22185; 22187; 22188; 22189; 22193; 22195; 22199; 22206; 22213; 22217; 22218; 22219; 22223; 22224; 22220; 22221; 22233; 22236; 22237; 22239; 22241; 22244; 22245; 22246; 22247; 22248; 22257; 22251; 22253];
  [22262; 22263; 22273; 22274; 22279; 22282; 22284; 22289; 22293; 22298; 22299; 22301; 22304; 22306; 22307; 22308; 22309; 22313; 22314; 22316; 22318; 22319; 22323; 22324; 22333; 22334; 22335; 22341; 22342; 22348; 22349; 22354; 22370; 22373; 22375; 22376; 22379; 22381; 22382; 22383; 22384; 22385; 22387; 22388; 22389; 22391; 22393; 22394; 22395; 22396; 22398; 22401; 22403; 22412; 22420; 22423; 22425; 22426; 22428; 22429; 22430; 22431; 22433; 22421; 22439; 22440; 22441; 22444; 22456; 22461; 22471; 22472; 22476; 22479; 22485; 22493; 22494; 22500; 22502; 22503; 22505; 22509; 22512; 22517; 22518; 22520; 22525; 22526; 22527; 22531; 22532; 22536; 22537; 22497];
  [22540; 22541; 22555; 22558; 22559; 22560; 22566; 22567; 22573; 22578; 22585; 22591; 22601; 22604; 22605; 22607; 22608; 22613; 22623; 22625; 22628; 22631; 22632; 22648; 22652; 22655; 22656; 22657; 22663; 22664; 22665; 22666; 22668; 22669; 22671; 22672; 22676; 22678; 22685; 22688; 22689; 22690; 22694; 22697; 22705; 22706; 22724; 22716; 22722; 22728; 22733; 22734; 22736; 22738; 22740; 22742; 22746; 22749; 22753; 22754; 22761; 22771; 22789; 22790; 22795; 22796; 22802; 22803; 22804; 34369; 22813; 22817; 22819; 22820; 22824; 22831; 22832; 22835; 22837; 22838; 22847; 22851; 22854; 22866; 22867; 22873; 22875; 22877; 22878; 22879; 22881; 22883; 22891; 22893];
  [22895; 22898; 22901; 22902; 22905; 22907; 22908; 22923; 22924; 22926; 22930; 22933; 22935; 22943; 22948; 22951; 22957; 22958; 22959; 22960; 22963; 22967; 22970; 22972; 22977; 22979; 22980; 22984; 22986; 22989; 22994; 23005; 23006; 23007; 23011; 23012; 23015; 23022; 23023; 23025; 23026; 23028; 23031; 23040; 23044; 23052; 23053; 23054; 23058; 23059; 23070; 23075; 23076; 23079; 23080; 23082; 23085; 23088; 23108; 23109; 23111; 23112; 23116; 23120; 23125; 23134; 23139; 23141; 23143; 23149; 23159; 23162; 23163; 23166; 23179; 23184; 23187; 23190; 23193; 23196; 23198; 23199; 23200; 23202; 23207; 23212; 23217; 23218; 23219; 23221; 23224; 23226; 23227; 23231];
  [23236; 23238; 23240; 23247; 23258; 23260; 23264; 23269; 23274; 23278; 23285; 23286; 23293; 23296; 23297; 23304; 23319; 23348; 23321; 23323; 23325; 23329; 23333; 23341; 23352; 23361; 23371; 23372; 23378; 23382; 23390; 23400; 23406; 23407; 23420; 23421; 23422; 23423; 23425; 23428; 23430; 23434; 23438; 23440; 23441; 23443; 23444; 23446; 23464; 23465; 23468; 23469; 23471; 23473; 23474; 23479; 23482; 23484; 23488; 23489; 23501; 23503; 23510; 23511; 23512; 23513; 23514; 23520; 23535; 23537; 23540; 23549; 23564; 23575; 23582; 23583; 23587; 23590; 23593; 23595; 23596; 23598; 23600; 23602; 23605; 23606; 23641; 23642; 23644; 23650; 23651; 23655; 23656; 23657];
  [23661; 23664; 23668; 23669; 23674; 23675; 23676; 23677; 23687; 23688; 23690; 23695; 23698; 23709; 23711; 23712; 23714; 23715; 23718; 23722; 23730; 23732; 23733; 23738; 23753; 23755; 23762; 23773; 23767; 23790; 23793; 23794; 23796; 23809; 23814; 23821; 23826; 23851; 23843; 23844; 23846; 23847; 23857; 23860; 23865; 23869; 23871; 23874; 23875; 23878; 23880; 23893; 23889; 23897; 23882; 23903; 23904; 23905; 23906; 23908; 23914; 23917; 23920; 23929; 23930; 23934; 23935; 23937; 23939; 23944; 23946; 23954; 23955; 23956; 23957; 23961; 23963; 23967; 23968; 23975; 23979; 23984; 23988; 23992; 23993; 24003; 24007; 24011; 24016; 24014; 24024; 24025; 24032; 24036];
  [24041; 24056; 24057; 24064; 24071; 24077; 24082; 24084; 24085; 24088; 24095; 24096; 24110; 24104; 24114; 24117; 24126; 24139; 24144; 24137; 24145; 24150; 24152; 24155; 24156; 24158; 24168; 24170; 24171; 24172; 24173; 24174; 24176; 24192; 24203; 24206; 24226; 24228; 24229; 24232; 24234; 24236; 24241; 24243; 24253; 24254; 24255; 24262; 24268; 24267; 24270; 24273; 24274; 24276; 24277; 24284; 24286; 24293; 24299; 24322; 24326; 24327; 24328; 24334; 24345; 24348; 24349; 24353; 24354; 24355; 24356; 24360; 24363; 24364; 24366; 24368; 24372; 24374; 24379; 24381; 24383; 24384; 24388; 24389; 24391; 24397; 24400; 24404; 24408; 24411; 24416; 24419; 24420; 24423];
  [24431; 24434; 24436; 24437; 24440; 24442; 24445; 24446; 24457; 24461; 24463; 24470; 24476; 24477; 24482; 24487; 24491; 24484; 24492; 24495; 24496; 24497; 24504; 24516; 24519; 24520; 24521; 24523; 24528; 24529; 24530; 24531; 24532; 24542; 24545; 24546; 24552; 24553; 24554; 24556; 24557; 24558; 24559; 24562; 24563; 24566; 24570; 24572; 24583; 24586; 24589; 24595; 24596; 24599; 24600; 24602; 24607; 24612; 24621; 24627; 24629; 24640; 24647; 24648; 24649; 24652; 24657; 24660; 24662; 24663; 24669; 24673; 24679; 24689; 24702; 24703; 24706; 24710; 24712; 24714; 24718; 24721; 24723; 24725; 24728; 24733; 24734; 24738; 24740; 24741; 24744; 24752; 24753; 24759];
  [24763; 24766; 24770; 24772; 24776; 24777; 24778; 24779; 24782; 24783; 24788; 24789; 24793; 24795; 24797; 24798; 24802; 24805; 24818; 24821; 24824; 24828; 24829; 24834; 24839; 24842; 24844; 24848; 24849; 24850; 24851; 24852; 24854; 24855; 24857; 24860; 24862; 24866; 24874; 24875; 24880; 24881; 24885; 24886; 24887; 24889; 24897; 24901; 24902; 24905; 24926; 24928; 24940; 24946; 24952; 24955; 24956; 24959; 24960; 24961; 24963; 24964; 24971; 24973; 24978; 24979; 24983; 24984; 24988; 24989; 24991; 24992; 24997; 25000; 25002; 25005; 25016; 25017; 25020; 25024; 25025; 25026; 25038; 25039; 25045; 25052; 25053; 25054; 25055; 25057; 25058; 25063; 25065; 25061];
  [25068; 25069; 25071; 25089; 25091; 25092; 25095; 25107; 25109; 25116; 25120; 25122; 25123; 25127; 25129; 25131; 25145; 25149; 25154; 25155; 25156; 25158; 25164; 25168; 25169; 25170; 25172; 25174; 25178; 25180; 25188; 25197; 25199; 25203; 25210; 25213; 25229; 25230; 25231; 25232; 25254; 25256; 25267; 25270; 25271; 25274; 25278; 25279; 25284; 25294; 25301; 25302; 25306; 25322; 25330; 25332; 25340; 25341; 25347; 25348; 25354; 25355; 25357; 25360; 25363; 25366; 25368; 25385; 25386; 25389; 25397; 25398; 25401; 25404; 25409; 25410; 25411; 25412; 25414; 25418; 25419; 25422; 25426; 25427; 25428; 25432; 25435; 25445; 25446; 25452; 25453; 25457; 25460; 25461];
  [25464; 25468; 25469; 25471; 25474; 25476; 25479; 25482; 25488; 25492; 25493; 25497; 25498; 25502; 25508; 25510; 25517; 25518; 25519; 25533; 25537; 25541; 25544; 25550; 25553; 25555; 25556; 25557; 25564; 25568; 25573; 25578; 25580; 25586; 25587; 25589; 25592; 25593; 25609; 25610; 25616; 25618; 25620; 25624; 25630; 25632; 25634; 25636; 25637; 25641; 25642; 25647; 25648; 25653; 25661; 25663; 25675; 25679; 25681; 25682; 25683; 25684; 25690; 25691; 25692; 25693; 25695; 25696; 25697; 25699; 25709; 25715; 25716; 25723; 25725; 25733; 25735; 25743; 25744; 25745; 25752; 25753; 25755; 25757; 25759; 25761; 25763; 25766; 25768; 25772; 25779; 25789; 25790; 25791];
  [25796; 25801; 25802; 25803; 25804; 25806; 25808; 25809; 25813; 25815; 25828; 25829; 25833; 25834; 25837; 25840; 25845; 25847; 25851; 25855; 25857; 25860; 25864; 25865; 25866; 25871; 25875; 25876; 25878; 25881; 25883; 25886; 25887; 25890; 25894; 25897; 25902; 25905; 25914; 25916; 25917; 25923; 25927; 25929; 25936; 25938; 25940; 25951; 25952; 25959; 25963; 25978; 25981; 25985; 25989; 25994; 26002; 26005; 26008; 26013; 26016; 26019; 26022; 26030; 26034; 26035; 26036; 26047; 26050; 26056; 26057; 26062; 26064; 26068; 26070; 26072; 26079; 26096; 26098; 26100; 26101; 26105; 26110; 26111; 26112; 26116; 26120; 26121; 26125; 26129; 26130; 26133; 26134; 26141];
  [26142; 26145; 26146; 26147; 26148; 26150; 26153; 26154; 26155; 26156; 26158; 26160; 26161; 26163; 26169; 26167; 26176; 26181; 26182; 26186; 26188; 26193; 26190; 26199; 26200; 26201; 26203; 26204; 26208; 26209; 26363; 26218; 26219; 26220; 26238; 26227; 26229; 26239; 26231; 26232; 26233; 26235; 26240; 26236; 26251; 26252; 26253; 26256; 26258; 26265; 26266; 26267; 26268; 26271; 26272; 26276; 26285; 26289; 26290; 26293; 26299; 26303; 26304; 26306; 26307; 26312; 26316; 26318; 26319; 26324; 26331; 26335; 26344; 26347; 26348; 26350; 26362; 26373; 26375; 26382; 26387; 26393; 26396; 26400; 26402; 26419; 26430; 26437; 26439; 26440; 26444; 26452; 26453; 26461];
  [26470; 26476; 26478; 26484; 26486; 26491; 26497; 26500; 26510; 26511; 26513; 26515; 26518; 26520; 26521; 26523; 26544; 26545; 26546; 26549; 26555; 26556; 26557; 26617; 26560; 26562; 26563; 26565; 26568; 26569; 26578; 26583; 26585; 26588; 26593; 26598; 26608; 26610; 26614; 26615; 26706; 26644; 26649; 26653; 26655; 26664; 26663; 26668; 26669; 26671; 26672; 26673; 26675; 26683; 26687; 26692; 26693; 26698; 26700; 26709; 26711; 26712; 26715; 26731; 26734; 26735; 26736; 26737; 26738; 26741; 26745; 26746; 26747; 26748; 26754; 26756; 26758; 26760; 26774; 26776; 26778; 26780; 26785; 26787; 26789; 26793; 26794; 26798; 26802; 26811; 26821; 26824; 26828; 26831];
  [26832; 26833; 26835; 26838; 26841; 26844; 26845; 26853; 26856; 26858; 26859; 26860; 26861; 26864; 26865; 26869; 26870; 26875; 26876; 26877; 26886; 26889; 26890; 26896; 26897; 26899; 26902; 26903; 26929; 26931; 26933; 26936; 26939; 26946; 26949; 26953; 26958; 26967; 26971; 26979; 26980; 26981; 26982; 26984; 26985; 26988; 26992; 26993; 26994; 27002; 27003; 27007; 27008; 27021; 27026; 27030; 27032; 27041; 27045; 27046; 27048; 27051; 27053; 27055; 27063; 27064; 27066; 27068; 27077; 27080; 27089; 27094; 27095; 27106; 27109; 27118; 27119; 27121; 27123; 27125; 27134; 27136; 27137; 27139; 27151; 27153; 27157; 27162; 27165; 27168; 27172; 27176; 27184; 27186];
  [27188; 27191; 27195; 27198; 27199; 27205; 27206; 27209; 27210; 27214; 27216; 27217; 27218; 27221; 27222; 27227; 27236; 27239; 27242; 27249; 27251; 27262; 27265; 27267; 27270; 27271; 27273; 27275; 27281; 27291; 27293; 27294; 27295; 27301; 27307; 27311; 27312; 27313; 27316; 27325; 27326; 27327; 27334; 27337; 27336; 27340; 27344; 27348; 27349; 27350; 27356; 27357; 27364; 27367; 27372; 27376; 27377; 27378; 27388; 27389; 27394; 27395; 27398; 27399; 27401; 27407; 27408; 27409; 27415; 27419; 27422; 27428; 27432; 27435; 27436; 27439; 27445; 27446; 27451; 27455; 27462; 27466; 27469; 27474; 27478; 27480; 27485; 27488; 27495; 27499; 27502; 27504; 27509; 27517];
  [27518; 27522; 27525; 27543; 27547; 27551; 27552; 27554; 27555; 27560; 27561; 27564; 27565; 27566; 27568; 27576; 27577; 27581; 27582; 27587; 27588; 27593; 27596; 27606; 27610; 27617; 27619; 27622; 27623; 27630; 27633; 27639; 27641; 27647; 27650; 27652; 27653; 27657; 27661; 27662; 27664; 27666; 27673; 27679; 27686; 27687; 27688; 27692; 27694; 27699; 27701; 27702; 27706; 27707; 27711; 27722; 27723; 27725; 27727; 27730; 27732; 27737; 27739; 27740; 27755; 27757; 27759; 27764; 27766; 27768; 27769; 27771; 27781; 27782; 27783; 27785; 27796; 27797; 27799; 27800; 27804; 27807; 27824; 27826; 27828; 27842; 27846; 27853; 27855; 27856; 27857; 27858; 27860; 27862];
  [27866; 27868; 27872; 27879; 27881; 27883; 27884; 27886; 27890; 27892; 27908; 27911; 27914; 27918; 27919; 27921; 27923; 27930; 27942; 27943; 27944; 27751; 27950; 27951; 27953; 27961; 27964; 27967; 27991; 27998; 27999; 28001; 28005; 28007; 28015; 28016; 28028; 28034; 28039; 28049; 28050; 28052; 28054; 28055; 28056; 28074; 28076; 28084; 28087; 28089; 28093; 28095; 28100; 28104; 28106; 28110; 28111; 28118; 28123; 28125; 28127; 28128; 28130; 28133; 28137; 28143; 28144; 28148; 28150; 28156; 28160; 28164; 28190; 28194; 28199; 28210; 28214; 28217; 28219; 28220; 28228; 28229; 28232; 28233; 28235; 28239; 28241; 28242; 28243; 28244; 28247; 28252; 28253; 28254];
  [28258; 28259; 28264; 28275; 28283; 28285; 28301; 28307; 28313; 28320; 28327; 28333; 28334; 28337; 28339; 28347; 28351; 28352; 28353; 28355; 28359; 28360; 28362; 28365; 28366; 28367; 28395; 28397; 28398; 28409; 28411; 28413; 28420; 28424; 28426; 28428; 28429; 28438; 28440; 28442; 28443; 28454; 28457; 28458; 28463; 28464; 28467; 28470; 28475; 28476; 28461; 28495; 28497; 28498; 28499; 28503; 28505; 28506; 28509; 28510; 28513; 28514; 28520; 28524; 28541; 28542; 28547; 28551; 28552; 28555; 28556; 28557; 28560; 28562; 28563; 28564; 28566; 28570; 28575; 28576; 28581; 28582; 28583; 28584; 28590; 28591; 28592; 28597; 28598; 28604; 28613; 28615; 28616; 28618];
  [28634; 28638; 28648; 28649; 28656; 28661; 28665; 28668; 28669; 28672; 28677; 28678; 28679; 28685; 28695; 28704; 28707; 28719; 28724; 28727; 28729; 28732; 28739; 28740; 28744; 28745; 28746; 28747; 28756; 28757; 28765; 28766; 28750; 28772; 28773; 28780; 28782; 28789; 28790; 28798; 28801; 28805; 28806; 28820; 28821; 28822; 28823; 28824; 28827; 28836; 28843; 28848; 28849; 28852; 28855; 28874; 28881; 28883; 28884; 28885; 28886; 28888; 28892; 28900; 28922; 28931; 28932; 28933; 28934; 28935; 28939; 28940; 28943; 28958; 28960; 28971; 28973; 28975; 28976; 28977; 28984; 28993; 28997; 28998; 28999; 29002; 29003; 29008; 29010; 29015; 29018; 29020; 29022; 29024];
  [29032; 29049; 29056; 29061; 29063; 29068; 29074; 29082; 29083; 29088; 29090; 29103; 29104; 29106; 29107; 29114; 29119; 29120; 29121; 29124; 29131; 29132; 29139; 29142; 29145; 29146; 29148; 29176; 29182; 29184; 29191; 29192; 29193; 29203; 29207; 29210; 29213; 29215; 29220; 29227; 29231; 29236; 29240; 29241; 29249; 29250; 29251; 29253; 29262; 29263; 29264; 29267; 29269; 29270; 29274; 29276; 29278; 29280; 29283; 29288; 29291; 29294; 29295; 29297; 29303; 29304; 29307; 29308; 29311; 29316; 29321; 29325; 29326; 29331; 29339; 29352; 29357; 29358; 29361; 29364; 29374; 29377; 29383; 29385; 29388; 29397; 29398; 29400; 29407; 29413; 29427; 29428; 29434; 29435];
  [29438; 29442; 29444; 29445; 29447; 29451; 29453; 29458; 29459; 29464; 29465; 29470; 29474; 29476; 29479; 29480; 29484; 29489; 29490; 29493; 29498; 29499; 29501; 29507; 29517; 29520; 29522; 29526; 29528; 29533; 29534; 29535; 29536; 29542; 29543; 29545; 29547; 29548; 29550; 29551; 29553; 29559; 29561; 29564; 29568; 29569; 29571; 29573; 29574; 29582; 29584; 29587; 29589; 29591; 29592; 29596; 29598; 29599; 29600; 29602; 29605; 29606; 29610; 29611; 29613; 29621; 29623; 29625; 29628; 29629; 29631; 29637; 29638; 29641; 29643; 29644; 29647; 29650; 29651; 29654; 29657; 29661; 29665; 29667; 29670; 29671; 29673; 29684; 29685; 29687; 29689; 29690; 29691; 29693];
  [29695; 29696; 29697; 29700; 29703; 29706; 29713; 29722; 29723; 29732; 29734; 29736; 29737; 29738; 29739; 29740; 29741; 29742; 29743; 29744; 29745; 29753; 29760; 29763; 29764; 29766; 29767; 29771; 29773; 29777; 29778; 29783; 29789; 29794; 29798; 29799; 29800; 29803; 29805; 29806; 29809; 29810; 29824; 29825; 29829; 29830; 29831; 29833; 29839; 29840; 29841; 29842; 29848; 29849; 29850; 29852; 29855; 29856; 29857; 29859; 29862; 29864; 29865; 29866; 29867; 29870; 29871; 29873; 29874; 29877; 29881; 29883; 29887; 29896; 29897; 29900; 29904; 29907; 29912; 29914; 29915; 29918; 29919; 29924; 29928; 29930; 29931; 29935; 29940; 29946; 29947; 29948; 29951; 29958];
  [29970; 29974; 29975; 29984; 29985; 29988; 29991; 29993; 29994; 29999; 30006; 30009; 30013; 30014; 30015; 30016; 30019; 30023; 30024; 30030; 30032; 30034; 30039; 30046; 30047; 30049; 30063; 30065; 30073; 30074; 30075; 30076; 30077; 30078; 30081; 30085; 30096; 30098; 30099; 30101; 30105; 30108; 30114; 30116; 30132; 30138; 30143; 30144; 30145; 30148; 30150; 30156; 30158; 30159; 30167; 30172; 30175; 30176; 30177; 30180; 30183; 30188; 30190; 30191; 30193; 30201; 30208; 30210; 30211; 30212; 30215; 30216; 30218; 30220; 30223; 30226; 30227; 30229; 30230; 30233; 30235; 30236; 30237; 30238; 30243; 30245; 30246; 30249; 30253; 30258; 30259; 30261; 30264; 30265];
  [30266; 30268; 30282; 30272; 30273; 30275; 30276; 30277; 30281; 30283; 30293; 30297; 30303; 30308; 30309; 30317; 30318; 30319; 30321; 30324; 30337; 30341; 30348; 30349; 30357; 30363; 30364; 30365; 30367; 30368; 30370; 30371; 30372; 30373; 30374; 30375; 30376; 30378; 30381; 30397; 30401; 30405; 30409; 30411; 30412; 30414; 30420; 30425; 30432; 30438; 30440; 30444; 30448; 30449; 30454; 30457; 30460; 30464; 30470; 30474; 30478; 30482; 30484; 30485; 30487; 30489; 30490; 30492; 30498; 30504; 30509; 30510; 30511; 30516; 30517; 30518; 30521; 30525; 30526; 30530; 30533; 30534; 30538; 30541; 30542; 30543; 30546; 30550; 30551; 30556; 30558; 30559; 30560; 30562];
  [30564; 30567; 30570; 30572; 30576; 30578; 30579; 30580; 30586; 30589; 30592; 30596; 30604; 30605; 30612; 30613; 30614; 30618; 30623; 30626; 30631; 30634; 30638; 30639; 30641; 30645; 30654; 30659; 30665; 30673; 30674; 30677; 30681; 30686; 30687; 30688; 30692; 30694; 30698; 30700; 30704; 30705; 30708; 30712; 30715; 30725; 30726; 30729; 30733; 30734; 30737; 30749; 30753; 30754; 30755; 30765; 30766; 30768; 30773; 30775; 30787; 30788; 30791; 30792; 30796; 30798; 30802; 30812; 30814; 30816; 30817; 30819; 30820; 30824; 30826; 30830; 30842; 30846; 30858; 30863; 30868; 30872; 30881; 30877; 30878; 30879; 30884; 30888; 30892; 30893; 30896; 30897; 30898; 30899];
  [30907; 30909; 30911; 30919; 30920; 30921; 30924; 30926; 30930; 30931; 30933; 30934; 30948; 30939; 30943; 30944; 30945; 30950; 30954; 30962; 30963; 30976; 30966; 30967; 30970; 30971; 30975; 30982; 30988; 30992; 31002; 31004; 31006; 31007; 31008; 31013; 31015; 31017; 31021; 31025; 31028; 31029; 31035; 31037; 31039; 31044; 31045; 31046; 31050; 31051; 31055; 31057; 31060; 31064; 31067; 31068; 31079; 31081; 31083; 31090; 31097; 31099; 31100; 31102; 31115; 31116; 31121; 31123; 31124; 31125; 31126; 31128; 31131; 31132; 31137; 31144; 31145; 31147; 31151; 31153; 31156; 31160; 31163; 31170; 31172; 31175; 31176; 31178; 31183; 31188; 31190; 31194; 31197; 31198];
  [31200; 31202; 31205; 31210; 31211; 31213; 31217; 31224; 31228; 31234; 31235; 31239; 31241; 31242; 31244; 31249; 31253; 31259; 31262; 31265; 31271; 31275; 31277; 31279; 31280; 31284; 31285; 31288; 31289; 31290; 31300; 31301; 31303; 31304; 31308; 31317; 31318; 31321; 31324; 31325; 31327; 31328; 31333; 31335; 31338; 31341; 31349; 31352; 31358; 31360; 31362; 31365; 31366; 31370; 31371; 31376; 31377; 31380; 31390; 31392; 31395; 31404; 31411; 31413; 31417; 31419; 31420; 31430; 31433; 31436; 31438; 31441; 31451; 31464; 31465; 31467; 31468; 31473; 31476; 31483; 31485; 31486; 31495; 31508; 31519; 31523; 31527; 31529; 31530; 31531; 31533; 31534; 31535; 31536];
  [31537; 31540; 31549; 31551; 31552; 31553; 31559; 31566; 31573; 31584; 31588; 31590; 31593; 31594; 31597; 31599; 31602; 31603; 31607; 31620; 31625; 31630; 31632; 31633; 31638; 31643; 31646; 31648; 31653; 31660; 31663; 31664; 31666; 31669; 31670; 31674; 31675; 31676; 31677; 31682; 31685; 31688; 31690; 31700; 31702; 31703; 31705; 31706; 31707; 31720; 31722; 31730; 31732; 31733; 31736; 31737; 31738; 31740; 31742; 31745; 31746; 31747; 31748; 31750; 31753; 31755; 31756; 31758; 31759; 31769; 31771; 31776; 31781; 31782; 31784; 31788; 31793; 31795; 31796; 31798; 31801; 31802; 31814; 31818; 31829; 31825; 31826; 31827; 31833; 31834; 31835; 31836; 31837; 31838];
  [31841; 31843; 31847; 31849; 31853; 31854; 31856; 31858; 31865; 31868; 31869; 31878; 31879; 31887; 31892; 31902; 31904; 31910; 31920; 31926; 31927; 31930; 31931; 31932; 31935; 31940; 31943; 31944; 31945; 31949; 31951; 31955; 31956; 31957; 31959; 31961; 31962; 31965; 31974; 31977; 31979; 31989; 32003; 32007; 32008; 32009; 32015; 32017; 32018; 32019; 32022; 32029; 32030; 32035; 32038; 32042; 32045; 32049; 32060; 32061; 32062; 32064; 32065; 32071; 32072; 32077; 32081; 32083; 32087; 32089; 32090; 32092; 32093; 32101; 32103; 32106; 32112; 32120; 32122; 32123; 32127; 32129; 32130; 32131; 32133; 32134; 32136; 32139; 32140; 32141; 32145; 32150; 32151; 32157];
  [32158; 32166; 32167; 32170; 32179; 32182; 32183; 32185; 32194; 32195; 32196; 32197; 32198; 32204; 32205; 32206; 32215; 32217; 32256; 32226; 32229; 32230; 32234; 32235; 32237; 32241; 32245; 32246; 32249; 32250; 32264; 32272; 32273; 32277; 32279; 32284; 32285; 32288; 32295; 32296; 32300; 32301; 32303; 32307; 32310; 32319; 32324; 32325; 32327; 32334; 32336; 32338; 32344; 32351; 32353; 32354; 32357; 32363; 32366; 32367; 32371; 32376; 32382; 32385; 32390; 32391; 32394; 32397; 32401; 32405; 32408; 32410; 32413; 32414; 32572; 32571; 32573; 32574; 32575; 32579; 32580; 32583; 32591; 32594; 32595; 32603; 32604; 32605; 32609; 32611; 32612; 32613; 32614; 32621];
  [32625; 32637; 32638; 32639; 32640; 32651; 32653; 32655; 32656; 32657; 32662; 32663; 32668; 32673; 32674; 32678; 32682; 32685; 32692; 32700; 32703; 32704; 32707; 32712; 32718; 32719; 32731; 32735; 32739; 32741; 32744; 32748; 32750; 32751; 32754; 32762; 32765; 32766; 32767; 32775; 32776; 32778; 32781; 32782; 32783; 32785; 32787; 32788; 32790; 32797; 32798; 32799; 32800; 32804; 32806; 32812; 32814; 32816; 32820; 32821; 32823; 32825; 32826; 32828; 32830; 32832; 32836; 32864; 32868; 32870; 32877; 32881; 32885; 32897; 32904; 32910; 32924; 32926; 32934; 32935; 32939; 32952; 32953; 32968; 32973; 32975; 32978; 32980; 32981; 32983; 32984; 32992; 33005; 33006];
  [33008; 33010; 33011; 33014; 33017; 33018; 33022; 33027; 33035; 33046; 33047; 33048; 33052; 33054; 33056; 33060; 33063; 33068; 33072; 33077; 33082; 33084; 33093; 33095; 33098; 33100; 33106; 33111; 33120; 33121; 33127; 33128; 33129; 33133; 33135; 33143; 33153; 33168; 33156; 33157; 33158; 33163; 33166; 33174; 33176; 33179; 33182; 33186; 33198; 33202; 33204; 33211; 33227; 33219; 33221; 33226; 33230; 33231; 33237; 33239; 33243; 33245; 33246; 33249; 33252; 33259; 33260; 33264; 33265; 33266; 33269; 33270; 33272; 33273; 33277; 33279; 33280; 33283; 33295; 33299; 33300; 33305; 33306; 33309; 33313; 33314; 33320; 33330; 33332; 33338; 33347; 33348; 33349; 33350];
  [33355; 33358; 33359; 33361; 33366; 33372; 33376; 33379; 33383; 33389; 33396; 33403; 33405; 33407; 33408; 33409; 33411; 33412; 33415; 33417; 33418; 33422; 33425; 33428; 33430; 33432; 33434; 33435; 33440; 33441; 33443; 33444; 33447; 33448; 33449; 33450; 33454; 33456; 33458; 33460; 33463; 33466; 33468; 33470; 33471; 33478; 33488; 33493; 33498; 33504; 33506; 33508; 33512; 33514; 33517; 33519; 33526; 33527; 33533; 33534; 33536; 33537; 33543; 33544; 33546; 33547; 33620; 33563; 33565; 33566; 33567; 33569; 33570; 33580; 33581; 33582; 33584; 33587; 33591; 33594; 33596; 33597; 33602; 33603; 33604; 33607; 33613; 33614; 33617; 33621; 33622; 33623; 33648; 33656];
  [33661; 33663; 33664; 33666; 33668; 33670; 33677; 33682; 33684; 33685; 33688; 33689; 33691; 33692; 33693; 33702; 33703; 33705; 33708; 33726; 33727; 33728; 33735; 33737; 33743; 33744; 33745; 33748; 33757; 33619; 33768; 33770; 33782; 33784; 33785; 33788; 33793; 33798; 33802; 33807; 33809; 33813; 33817; 33709; 33839; 33849; 33861; 33863; 33864; 33866; 33869; 33871; 33873; 33874; 33878; 33880; 33881; 33882; 33884; 33888; 33892; 33893; 33895; 33898; 33904; 33907; 33908; 33910; 33912; 33916; 33917; 33921; 33925; 33938; 33939; 33941; 33950; 33958; 33960; 33961; 33962; 33967; 33969; 33972; 33978; 33981; 33982; 33984; 33986; 33991; 33992; 33996; 33999; 34003];
  [34012; 34023; 34026; 34031; 34032; 34033; 34034; 34039; 34098; 34042; 34043; 34045; 34050; 34051; 34055; 34060; 34062; 34064; 34076; 34078; 34082; 34083; 34084; 34085; 34087; 34090; 34091; 34095; 34099; 34100; 34102; 34111; 34118; 34127; 34128; 34129; 34130; 34131; 34134; 34137; 34140; 34141; 34142; 34143; 34144; 34145; 34146; 34148; 34155; 34159; 34169; 34170; 34171; 34173; 34175; 34177; 34181; 34182; 34185; 34187; 34188; 34191; 34195; 34200; 34205; 34207; 34208; 34210; 34213; 34215; 34228; 34230; 34231; 34232; 34236; 34237; 34238; 34239; 34242; 34247; 34250; 34251; 34254; 34221; 34264; 34266; 34271; 34272; 34278; 34280; 34285; 34291; 34294; 34300];
  [34303; 34304; 34308; 34309; 34317; 34318; 34320; 34321; 34322; 34328; 34329; 34331; 34334; 34337; 34343; 34345; 34358; 34360; 34362; 34364; 34365; 34368; 34370; 34374; 34386; 34387; 34390; 34391; 34392; 34393; 34397; 34400; 34401; 34402; 34403; 34404; 34409; 34412; 34415; 34421; 34422; 34423; 34426; 34445; 34449; 34454; 34456; 34458; 34460; 34465; 34470; 34471; 34472; 34477; 34481; 34483; 34484; 34485; 34487; 34488; 34489; 34495; 34496; 34497; 34499; 34501; 34513; 34514; 34517; 34519; 34522; 34524; 34528; 34531; 34533; 34535; 34440; 34554; 34556; 34557; 34564; 34565; 34567; 34571; 34574; 34575; 34576; 34579; 34580; 34585; 34590; 34591; 34593; 34595];
  [34600; 34606; 34607; 34609; 34610; 34617; 34618; 34620; 34621; 34622; 34624; 34627; 34629; 34637; 34648; 34653; 34657; 34660; 34661; 34671; 34673; 34674; 34683; 34691; 34692; 34693; 34694; 34695; 34696; 34697; 34699; 34700; 34704; 34707; 34709; 34711; 34712; 34713; 34718; 34720; 34723; 34727; 34732; 34733; 34734; 34737; 34741; 34750; 34751; 34753; 34760; 34761; 34762; 34766; 34773; 34774; 34777; 34778; 34780; 34783; 34786; 34787; 34788; 34794; 34795; 34797; 34801; 34803; 34808; 34810; 34815; 34817; 34819; 34822; 34825; 34826; 34827; 34832; 34841; 34834; 34835; 34836; 34840; 34842; 34843; 34844; 34846; 34847; 34856; 34861; 34862; 34864; 34866; 34869];
  [34874; 34876; 34881; 34883; 34885; 34888; 34889; 34890; 34891; 34894; 34897; 34901; 34902; 34904; 34906; 34908; 34911; 34912; 34916; 34921; 34929; 34937; 34939; 34944; 34968; 34970; 34971; 34972; 34975; 34976; 34984; 34986; 35002; 35005; 35006; 35008; 35018; 35019; 35020; 35021; 35022; 35025; 35026; 35027; 35035; 35038; 35047; 35055; 35056; 35057; 35061; 35063; 35073; 35078; 35085; 35086; 35087; 35093; 35094; 35096; 35097; 35098; 35100; 35104; 35110; 35111; 35112; 35120; 35121; 35122; 35125; 35129; 35130; 35134; 35136; 35138; 35141; 35142; 35145; 35151; 35154; 35159; 35162; 35163; 35164; 35169; 35170; 35171; 35179; 35182; 35184; 35187; 35189; 35194];
  [35195; 35196; 35197; 35209; 35213; 35216; 35220; 35221; 35227; 35228; 35231; 35232; 35237; 35248; 35252; 35253; 35254; 35255; 35260; 35284; 35285; 35286; 35287; 35288; 35301; 35305; 35307; 35309; 35313; 35315; 35318; 35321; 35325; 35327; 35332; 35333; 35335; 35343; 35345; 35346; 35348; 35349; 35358; 35360; 35362; 35364; 35366; 35371; 35372; 35375; 35381; 35383; 35389; 35390; 35392; 35395; 35397; 35399; 35401; 35405; 35406; 35411; 35414; 35415; 35416; 35420; 35421; 35425; 35429; 35431; 35445; 35446; 35447; 35449; 35450; 35451; 35454; 35455; 35456; 35459; 35462; 35467; 35471; 35472; 35474; 35478; 35479; 35481; 35487; 35495; 35497; 35502; 35503; 35507];
  [35510; 35511; 35515; 35518; 35523; 35526; 35528; 35529; 35530; 35537; 35539; 35540; 35541; 35543; 35549; 35551; 35564; 35568; 35572; 35573; 35574; 35580; 35583; 35589; 35590; 35595; 35601; 35612; 35614; 35615; 35594; 35629; 35632; 35639; 35644; 35650; 35651; 35652; 35653; 35654; 35656; 35666; 35667; 35668; 35673; 35661; 35678; 35683; 35693; 35702; 35704; 35705; 35708; 35710; 35713; 35716; 35717; 35723; 35725; 35727; 35732; 35733; 35740; 35742; 35743; 35896; 35897; 35901; 35902; 35909; 35911; 35913; 35915; 35919; 35921; 35923; 35924; 35927; 35928; 35931; 35933; 35929; 35939; 35940; 35942; 35944; 35945; 35949; 35955; 35957; 35958; 35963; 35966; 35974];
  [35975; 35979; 35984; 35986; 35987; 35993; 35995; 35996; 36004; 36025; 36026; 36037; 36038; 36041; 36043; 36047; 36054; 36053; 36057; 36061; 36065; 36072; 36076; 36079; 36080; 36082; 36085; 36087; 36088; 36094; 36095; 36097; 36099; 36105; 36114; 36119; 36123; 36197; 36201; 36204; 36206; 36223; 36226; 36228; 36232; 36237; 36240; 36241; 36245; 36254; 36255; 36256; 36262; 36267; 36268; 36271; 36274; 36277; 36279; 36281; 36283; 36288; 36293; 36294; 36295; 36296; 36298; 36302; 36305; 36308; 36309; 36311; 36313; 36324; 36325; 36327; 36332; 36336; 36284; 36337; 36338; 36340; 36349; 36353; 36356; 36357; 36358; 36363; 36369; 36372; 36374; 36384; 36385; 36386];
  [36387; 36390; 36391; 36401; 36403; 36406; 36407; 36408; 36409; 36413; 36416; 36417; 36427; 36429; 36430; 36431; 36436; 36443; 36444; 36445; 36446; 36449; 36450; 36457; 36460; 36461; 36463; 36464; 36465; 36473; 36474; 36475; 36482; 36483; 36489; 36496; 36498; 36501; 36506; 36507; 36509; 36510; 36514; 36519; 36521; 36525; 36526; 36531; 36533; 36538; 36539; 36544; 36545; 36547; 36548; 36551; 36559; 36561; 36564; 36572; 36584; 36590; 36592; 36593; 36599; 36601; 36602; 36589; 36608; 36610; 36615; 36616; 36623; 36624; 36630; 36631; 36632; 36638; 36640; 36641; 36643; 36645; 36647; 36648; 36652; 36653; 36654; 36660; 36661; 36662; 36663; 36666; 36672; 36673];
  [36675; 36679; 36687; 36689; 36690; 36691; 36692; 36693; 36696; 36701; 36702; 36709; 36765; 36768; 36769; 36772; 36773; 36774; 36789; 36790; 36792; 36798; 36800; 36801; 36806; 36810; 36811; 36813; 36816; 36818; 36819; 36821; 36832; 36835; 36836; 36840; 36846; 36849; 36853; 36854; 36859; 36862; 36866; 36868; 36872; 36876; 36888; 36891; 36904; 36905; 36911; 36906; 36908; 36909; 36915; 36916; 36919; 36927; 36931; 36932; 36940; 36955; 36957; 36962; 36966; 36967; 36972; 36976; 36980; 36985; 36997; 37000; 37003; 37004; 37006; 37008; 37013; 37015; 37016; 37017; 37019; 37024; 37025; 37026; 37029; 37040; 37042; 37043; 37044; 37046; 37053; 37068; 37054; 37059];
  [37060; 37061; 37063; 37064; 37077; 37079; 37080; 37081; 37084; 37085; 37087; 37093; 37074; 37110; 37099; 37103; 37104; 37108; 37118; 37119; 37120; 37124; 37125; 37126; 37128; 37133; 37136; 37140; 37142; 37143; 37144; 37146; 37148; 37150; 37152; 37157; 37154; 37155; 37159; 37161; 37166; 37167; 37169; 37172; 37174; 37175; 37177; 37178; 37180; 37181; 37187; 37191; 37192; 37199; 37203; 37207; 37209; 37210; 37211; 37217; 37220; 37223; 37229; 37236; 37241; 37242; 37243; 37249; 37251; 37253; 37254; 37258; 37262; 37265; 37267; 37268; 37269; 37272; 37278; 37281; 37286; 37288; 37292; 37293; 37294; 37296; 37297; 37298; 37299; 37302; 37307; 37308; 37309; 37311];
  [37314; 37315; 37317; 37331; 37332; 37335; 37337; 37338; 37342; 37348; 37349; 37353; 37354; 37356; 37357; 37358; 37359; 37360; 37361; 37367; 37369; 37371; 37373; 37376; 37377; 37380; 37381; 37382; 37383; 37385; 37386; 37388; 37392; 37394; 37395; 37398; 37400; 37404; 37405; 37411; 37412; 37413; 37414; 37416; 37422; 37423; 37424; 37427; 37429; 37430; 37432; 37433; 37434; 37436; 37438; 37440; 37442; 37443; 37446; 37447; 37450; 37453; 37454; 37455; 37457; 37464; 37465; 37468; 37469; 37472; 37473; 37477; 37479; 37480; 37481; 37486; 37487; 37488; 37493; 37494; 37495; 37496; 37497; 37499; 37500; 37501; 37503; 37512; 37513; 37514; 37517; 37518; 37522; 37527];
  [37529; 37535; 37536; 37540; 37541; 37543; 37544; 37547; 37551; 37554; 37558; 37560; 37562; 37563; 37564; 37565; 37567; 37568; 37569; 37570; 37571; 37573; 37574; 37575; 37576; 37579; 37580; 37581; 37582; 37584; 37587; 37589; 37591; 37592; 37593; 37596; 37597; 37599; 37600; 37601; 37603; 37605; 37607; 37608; 37612; 37614; 37616; 37625; 37627; 37631; 37632; 37634; 37640; 37645; 37649; 37652; 37653; 37660; 37661; 37662; 37663; 37665; 37668; 37669; 37671; 37673; 37674; 37683; 37684; 37686; 37687; 37703; 37704; 37705; 37712; 37713; 37714; 37717; 37719; 37720; 37722; 37726; 37732; 37733; 37735; 37737; 37738; 37741; 37743; 37744; 37745; 37747; 37748; 37750];
  [37754; 37757; 37759; 37760; 37761; 37762; 37768; 37770; 37771; 37773; 37775; 37778; 37781; 37784; 37787; 37790; 37793; 37795; 37796; 37798; 37800; 37803; 37812; 37813; 37814; 37818; 37801; 37825; 37828; 37829; 37830; 37831; 37833; 37834; 37835; 37836; 37837; 37843; 37849; 37852; 37854; 37855; 37858; 37862; 37863; 37881; 37879; 37880; 37882; 37883; 37885; 37889; 37890; 37892; 37896; 37897; 37901; 37902; 37903; 37909; 37910; 37911; 37919; 37934; 37935; 37937; 37938; 37939; 37940; 37947; 37951; 37949; 37955; 37957; 37960; 37962; 37964; 37973; 37977; 37980; 37983; 37985; 37987; 37992; 37995; 37997; 37998; 37999; 38001; 38002; 38020; 38019; 38264; 38265];
  [38270; 38276; 38280; 38284; 38285; 38286; 38301; 38302; 38303; 38305; 38310; 38313; 38315; 38316; 38324; 38326; 38330; 38333; 38335; 38342; 38344; 38345; 38347; 38352; 38353; 38354; 38355; 38361; 38362; 38365; 38366; 38367; 38368; 38372; 38374; 38429; 38430; 38434; 38436; 38437; 38438; 38444; 38449; 38451; 38455; 38456; 38457; 38458; 38460; 38461; 38465; 38482; 38484; 38486; 38487; 38488; 38497; 38510; 38516; 38523; 38524; 38526; 38527; 38529; 38530; 38531; 38532; 38537; 38545; 38550; 38554; 38557; 38559; 38564; 38565; 38566; 38569; 38574; 38575; 38579; 38586; 38602; 38610; 23986; 38616; 38618; 38621; 38622; 38623; 38633; 38639; 38641; 38650; 38658];
  [38659; 38661; 38665; 38682; 38683; 38685; 38689; 38690; 38691; 38696; 38705; 38707; 38721; 38723; 38730; 38734; 38735; 38741; 38743; 38744; 38746; 38747; 38755; 38759; 38762; 38766; 38771; 38774; 38775; 38776; 38779; 38781; 38783; 38784; 38793; 38805; 38806; 38807; 38809; 38810; 38814; 38815; 38818; 38828; 38830; 38833; 38834; 38837; 38838; 38840; 38841; 38842; 38844; 38846; 38847; 38849; 38852; 38853; 38855; 38857; 38858; 38860; 38861; 38862; 38864; 38865; 38868; 38871; 38872; 38873; 38877; 38878; 38880; 38875; 38881; 38884; 38895; 38897; 38900; 38903; 38904; 38906; 38919; 38922; 38937; 38925; 38926; 38932; 38934; 38940; 38942; 38944; 38947; 38950];
  [38955; 38958; 38959; 38960; 38962; 38963; 38965; 38949; 38974; 38980; 38983; 38986; 38993; 38994; 38995; 38998; 38999; 39001; 39002; 39010; 39011; 39013; 39014; 39018; 39020; 39083; 39085; 39086; 39088; 39092; 39095; 39096; 39098; 39099; 39103; 39106; 39109; 39112; 39116; 39137; 39139; 39141; 39142; 39143; 39146; 39155; 39158; 39170; 39175; 39176; 39185; 39189; 39190; 39191; 39194; 39195; 39196; 39199; 39202; 39206; 39207; 39211; 39217; 39218; 39219; 39220; 39221; 39225; 39226; 39227; 39228; 39232; 39233; 39238; 39239; 39240; 39245; 39246; 39252; 39256; 39257; 39259; 39260; 39262; 39263; 39264; 39323; 39325; 39327; 39334; 39344; 39345; 39346; 39349];
  [39353; 39354; 39357; 39359; 39363; 39369; 39379; 39380; 39385; 39386; 39388; 39390; 39399; 39402; 39403; 39404; 39408; 39412; 39413; 39417; 39421; 39422; 39426; 39427; 39428; 39435; 39436; 39440; 39441; 39446; 39454; 39456; 39458; 39459; 39460; 39463; 39469; 39470; 39475; 39477; 39478; 39480; 39495; 39489; 39492; 39498; 39499; 39500; 39502; 39505; 39508; 39510; 39517; 39594; 39596; 39598; 39599; 39602; 39604; 39605; 39606; 39609; 39611; 39614; 39615; 39617; 39619; 39622; 39624; 39630; 39632; 39634; 39637; 39638; 39639; 39643; 39644; 39648; 39652; 39653; 39655; 39657; 39660; 39666; 39667; 39669; 39673; 39674; 39677; 39679; 39680; 39681; 39682; 39683];
  [39684; 39685; 39688; 39689; 39691; 39692; 39693; 39694; 39696; 39698; 39702; 39705; 39707; 39708; 39712; 39718; 39723; 39725; 39731; 39732; 39733; 39735; 39737; 39738; 39741; 39752; 39755; 39756; 39765; 39766; 39767; 39771; 39774; 39777; 39779; 39781; 39782; 39784; 39786; 39787; 39788; 39789; 39790; 39795; 39797; 39799; 39800; 39801; 39807; 39808; 39812; 39813; 39814; 39815; 39817; 39818; 39819; 39821; 39823; 39824; 39828; 39834; 39837; 39838; 39846; 39847; 39849; 39852; 39856; 39857; 39858; 39863; 39864; 39867; 39868; 39870; 39871; 39873; 39879; 39880; 39886; 39888; 39895; 39896; 39901; 39903; 39909; 39911; 39914; 39915; 39919; 39923; 39927; 39928];
  [39929; 39930; 39933; 39935; 39936; 39938; 39947; 39951; 39953; 39958; 39960; 39961; 39962; 39964; 39966; 39970; 39971; 39974; 39975; 39976; 39977; 39978; 39985; 39989; 39990; 39991; 39997; 40001; 40003; 40004; 40005; 40009; 40010; 40014; 40015; 40016; 40019; 40020; 40022; 40024; 40027; 40029; 40030; 40031; 40035; 40041; 40042; 40028; 40043; 40040; 40046; 40048; 40050; 40053; 40055; 40059; 40166; 40178; 40183; 40185; 40203; 40194; 40209; 40215; 40216; 40220; 40221; 40222; 40239; 40240; 40242; 40243; 40244; 40250; 40252; 40261; 40253; 40258; 40259; 40263; 40266; 40275; 40276; 40287; 40291; 40290; 40293; 40297; 40298; 40299; 40304; 40310; 40311; 40315];
  [40316; 40318; 40323; 40324; 40326; 40330; 40333; 40334; 40338; 40339; 40341; 40342; 40343; 40344; 40353; 40362; 40364; 40366; 40369; 40373; 40377; 40380; 40383; 40387; 40391; 40393; 40394; 40404; 40405; 40406; 40407; 40410; 40414; 40415; 40416; 40421; 40423; 40425; 40427; 40430; 40432; 40435; 40436; 40446; 40458; 40450; 40455; 40462; 40464; 40465; 40466; 40469; 40470; 40473; 40476; 40477; 40570; 40571; 40572; 40576; 40578; 40579; 40580; 40581; 40583; 40590; 40591; 40598; 40600; 40603; 40606; 40612; 40616; 40620; 40622; 40623; 40624; 40627; 40628; 40629; 40646; 40648; 40651; 40661; 40671; 40676; 40679; 40684; 40685; 40686; 40688; 40689; 40690; 40693];
  [40696; 40703; 40706; 40707; 40713; 40719; 40720; 40721; 40722; 40724; 40726; 40727; 40729; 40730; 40731; 40735; 40738; 40742; 40746; 40747; 40751; 40753; 40754; 40756; 40759; 40761; 40762; 40764; 40765; 40767; 40769; 40771; 40772; 40773; 40774; 40775; 40787; 40789; 40790; 40791; 40792; 40794; 40797; 40798; 40808; 40809; 40813; 40814; 40815; 40816; 40817; 40819; 40821; 40826; 40829; 40847; 40848; 40849; 40850; 40852; 40854; 40855; 40862; 40865; 40866; 40867; 40869; 4294967295; 4294967295; 4294967295; 4294967295; 4294967295; 4294967295; 4294967295; 4294967295; 4294967295; 4294967295; 4294967295; 4294967295; 4294967295; 4294967295; 4294967295; 4294967295; 4294967295; 4294967295; 4294967295; 4294967295; 4294967295; 4294967295; 4294967295; 4294967295; 4294967295; 4294967295; 4294967295];
  [4294967295; 4294967295; 4294967295; 4294967295; 4294967295; 4294967295; 4294967295; 4294967295; 4294967295; 4294967295; 4294967295; 4294967295; 4294967295; 4294967295; 4294967295; 4294967295; 4294967295; 4294967295; 4294967295; 4294967295; 4294967295; 4294967295; 4294967295; 4294967295; 4294967295; 4294967295; 4294967295; 4294967295; 4294967295; 4294967295; 4294967295; 4294967295; 4294967295; 4294967295; 4294967295; 4294967295; 4294967295; 4294967295; 4294967295; 4294967295; 4294967295; 4294967295; 4294967295; 4294967295; 4294967295; 4294967295; 4294967295; 4294967295; 4294967295; 4294967295; 4294967295; 4294967295; 4294967295; 4294967295; 4294967295; 4294967295; 4294967295; 4294967295; 4294967295; 4294967295; 4294967295; 4294967295; 4294967295; 4294967295; 4294967295; 4294967295; 4294967295; 4294967295; 4294967295; 4294967295; 4294967295; 4294967295; 4294967295; 4294967295; 4294967295; 4294967295; 4294967295; 4294967295; 4294967295; 4294967295; 4294967295; 4294967295; 4294967295; 4294967295; 4294967295; 4294967295; 4294967295; 4294967295; 4294967295; 4294967295; 4294967295; 4294967295; 4294967295; 4294967295];
  [4294967295; 4294967295; 4294967295; 4294967295; 4294967295; 4294967295; 4294967295; 4294967295; 4294967295; 4294967295; 4294967295; 4294967295; 4294967295; 4294967295; 4294967295; 4294967295; 4294967295; 4294967295; 4294967295; 4294967295; 4294967295; 4294967295; 4294967295; 4294967295; 4294967295; 4294967295; 4294967295; 4294967295; 4294967295; 4294967295; 4294967295; 4294967295; 4294967295; 4294967295; 4294967295; 4294967295; 4294967295; 4294967295; 4294967295; 4294967295; 4294967295; 4294967295; 4294967295; 4294967295; 4294967295; 4294967295; 4294967295; 4294967295; 4294967295; 4294967295; 4294967295; 4294967295; 4294967295; 4294967295; 4294967295; 4294967295; 4294967295; 4294967295; 4294967295; 4294967295; 4294967295; 4294967295; 4294967295; 4294967295; 4294967295; 4294967295; 4294967295; 4294967295; 4294967295; 4294967295; 4294967295; 4294967295; 4294967295; 4294967295; 4294967295; 4294967295; 4294967295; 4294967295; 4294967295; 4294967295; 4294967295; 4294967295; 4294967295; 4294967295; 4294967295; 4294967295; 4294967295; 4294967295; 4294967295; 4294967295; 4294967295; 4294967295; 4294967295; 4294967295];
  [4294967295; 4294967295; 4294967295; 4294967295; 4294967295; 4294967295; 4294967295; 4294967295; 4294967295; 4294967295; 4294967295; 4294967295; 4294967295; 4294967295; 4294967295; 4294967295; 4294967295; 4294967295; 4294967295; 4294967295; 4294967295; 4294967295; 4294967295; 4294967295; 4294967295; 4294967295; 4294967295; 4294967295; 4294967295; 4294967295; 4294967295; 4294967295; 4294967295; 4294967295; 4294967295; 4294967295; 4294967295; 4294967295; 4294967295; 4294967295; 4294967295; 4294967295; 4294967295; 4294967295; 4294967295; 4294967295; 4294967295; 4294967295; 4294967295; 4294967295; 4294967295; 4294967295; 4294967295; 4294967295; 4294967295; 4294967295; 4294967295; 4294967295; 4294967295; 4294967295; 4294967295; 4294967295; 4294967295; 4294967295; 4294967295; 4294967295; 4294967295; 4294967295; 4294967295; 4294967295; 4294967295; 4294967295; 4294967295; 4294967295; 4294967295; 4294967295; 4294967295; 4294967295; 4294967295; 4294967295; 4294967295; 4294967295; 4294967295; 4294967295; 4294967295; 4294967295; 4294967295; 4294967295; 4294967295; 4294967295; 4294967295; 4294967295; 4294967295; 4294967295];
  [4294967295; 4294967295; 4294967295; 4294967295; 4294967295; 4294967295; 4294967295; 4294967295; 4294967295; 4294967295; 4294967295; 4294967295; 4294967295; 4294967295; 4294967295; 4294967295; 4294967295; 4294967295; 4294967295; 4294967295; 4294967295; 4294967295; 4294967295; 4294967295; 4294967295; 4294967295; 4294967295; 4294967295; 4294967295; 4294967295; 4294967295; 4294967295; 4294967295; 4294967295; 4294967295; 4294967295; 4294967295; 4294967295; 4294967295; 4294967295; 4294967295; 4294967295; 4294967295; 4294967295; 4294967295; 4294967295; 4294967295; 4294967295; 4294967295; 4294967295; 4294967295; 4294967295; 4294967295; 4294967295; 4294967295; 4294967295; 4294967295; 4294967295; 4294967295; 4294967295; 4294967295; 4294967295; 4294967295; 4294967295; 4294967295; 4294967295; 4294967295; 4294967295; 4294967295; 4294967295; 4294967295; 4294967295; 4294967295; 4294967295; 4294967295; 4294967295; 4294967295; 4294967295; 4294967295; 4294967295; 4294967295; 4294967295; 4294967295; 4294967295; 4294967295; 4294967295; 4294967295; 4294967295; 4294967295; 4294967295; 4294967295; 4294967295; 4294967295; 4294967295];
  [4294967295; 4294967295; 4294967295; 4294967295; 4294967295; 4294967295; 4294967295; 4294967295; 4294967295; 4294967295; 4294967295; 4294967295; 4294967295; 4294967295; 4294967295; 4294967295; 4294967295; 4294967295; 4294967295; 4294967295; 4294967295; 4294967295; 4294967295; 4294967295; 4294967295; 4294967295; 4294967295; 4294967295; 4294967295; 4294967295; 4294967295; 4294967295; 4294967295; 4294967295; 4294967295; 4294967295; 4294967295; 4294967295; 4294967295; 4294967295; 4294967295; 4294967295; 4294967295; 4294967295; 4294967295; 4294967295; 4294967295; 4294967295; 4294967295; 4294967295; 4294967295; 4294967295; 4294967295; 4294967295; 4294967295; 4294967295; 4294967295; 4294967295; 4294967295; 4294967295; 4294967295; 4294967295; 4294967295; 4294967295; 4294967295; 4294967295; 4294967295; 4294967295; 4294967295; 4294967295; 4294967295; 4294967295; 4294967295; 4294967295; 4294967295; 4294967295; 4294967295; 4294967295; 4294967295; 4294967295; 4294967295; 4294967295; 4294967295; 4294967295; 4294967295; 4294967295; 4294967295; 4294967295; 4294967295; 4294967295; 4294967295; 4294967295; 4294967295; 4294967295];
  [4294967295; 4294967295; 4294967295; 4294967295; 4294967295; 4294967295; 4294967295; 4294967295; 4294967295; 4294967295; 4294967295; 4294967295; 4294967295; 4294967295; 4294967295; 4294967295; 4294967295; 4294967295; 4294967295; 4294967295; 4294967295; 4294967295; 4294967295; 4294967295; 4294967295; 4294967295; 4294967295; 4294967295; 4294967295; 4294967295; 4294967295; 4294967295; 4294967295; 4294967295; 4294967295; 4294967295; 4294967295; 4294967295; 4294967295; 4294967295; 4294967295; 4294967295; 4294967295; 4294967295; 4294967295; 4294967295; 4294967295; 4294967295; 4294967295; 4294967295; 4294967295; 4294967295; 4294967295; 4294967295; 4294967295; 4294967295; 4294967295; 4294967295; 4294967295; 4294967295; 4294967295; 4294967295; 4294967295; 4294967295; 4294967295; 4294967295; 4294967295; 4294967295; 4294967295; 4294967295; 4294967295; 4294967295; 4294967295; 4294967295; 4294967295; 4294967295; 4294967295; 4294967295; 4294967295; 4294967295; 4294967295; 4294967295; 4294967295; 4294967295; 4294967295; 4294967295; 4294967295; 4294967295; 4294967295; 4294967295; 4294967295; 4294967295; 4294967295; 4294967295];
  [4294967295; 4294967295; 4294967295; 4294967295; 4294967295; 4294967295; 4294967295; 4294967295; 4294967295; 4294967295; 4294967295; 4294967295; 4294967295; 4294967295; 4294967295; 4294967295; 4294967295; 4294967295; 4294967295; 4294967295; 4294967295; 4294967295; 4294967295; 4294967295; 4294967295; 4294967295; 4294967295; 4294967295; 4294967295; 4294967295; 4294967295; 4294967295; 4294967295; 4294967295; 4294967295; 4294967295; 4294967295; 4294967295; 4294967295; 4294967295; 4294967295; 4294967295; 4294967295; 4294967295; 4294967295; 4294967295; 4294967295; 4294967295; 4294967295; 4294967295; 4294967295; 4294967295; 4294967295; 4294967295; 4294967295; 4294967295; 4294967295; 4294967295; 4294967295; 4294967295; 4294967295; 4294967295; 4294967295; 4294967295; 4294967295; 4294967295; 4294967295; 4294967295; 4294967295; 4294967295; 4294967295; 4294967295; 4294967295; 4294967295; 4294967295; 4294967295; 4294967295; 4294967295; 4294967295; 4294967295; 4294967295; 4294967295; 4294967295; 4294967295; 4294967295; 4294967295; 4294967295; 4294967295; 4294967295; 4294967295; 4294967295; 4294967295; 4294967295; 4294967295];
  [4294967295; 4294967295; 4294967295; 4294967295; 4294967295; 4294967295; 4294967295; 4294967295; 4294967295; 4294967295; 4294967295; 4294967295; 4294967295; 4294967295; 4294967295; 4294967295; 4294967295; 4294967295; 4294967295; 4294967295; 4294967295; 4294967295; 4294967295; 4294967295; 4294967295; 4294967295; 4294967295; 4294967295; 4294967295; 4294967295; 4294967295; 4294967295; 4294967295; 4294967295; 4294967295; 4294967295; 4294967295; 4294967295; 4294967295; 4294967295; 4294967295; 4294967295; 4294967295; 4294967295; 4294967295; 4294967295; 4294967295; 4294967295; 4294967295; 4294967295; 4294967295; 4294967295; 4294967295; 4294967295; 4294967295; 4294967295; 4294967295; 4294967295; 4294967295; 4294967295; 4294967295; 4294967295; 4294967295; 4294967295; 4294967295; 4294967295; 4294967295; 4294967295; 4294967295; 4294967295; 4294967295; 4294967295; 4294967295; 4294967295; 4294967295; 4294967295; 4294967295; 4294967295; 4294967295; 4294967295; 4294967295; 4294967295; 4294967295; 4294967295; 4294967295; 4294967295; 4294967295; 4294967295; 4294967295; 4294967295; 4294967295; 4294967295; 4294967295; 4294967295];
  [4294967295; 4294967295; 4294967295; 4294967295; 4294967295; 4294967295; 4294967295; 4294967295; 4294967295; 4294967295; 4294967295; 4294967295; 4294967295; 4294967295; 4294967295; 4294967295; 4294967295; 4294967295; 4294967295; 4294967295; 4294967295; 4294967295; 4294967295; 4294967295; 4294967295; 4294967295; 4294967295; 4294967295; 4294967295; 4294967295; 4294967295; 4294967295; 4294967295; 4294967295; 4294967295; 4294967295; 4294967295; 4294967295; 4294967295; 4294967295; 4294967295; 4294967295; 4294967295; 4294967295; 4294967295; 4294967295; 4294967295; 4294967295; 4294967295; 4294967295; 4294967295; 4294967295; 4294967295; 4294967295; 4294967295; 4294967295; 4294967295; 4294967295; 4294967295; 4294967295; 4294967295; 4294967295; 4294967295; 4294967295; 4294967295; 4294967295; 4294967295; 4294967295; 4294967295; 4294967295; 4294967295; 4294967295; 4294967295; 4294967295; 4294967295; 4294967295; 4294967295; 4294967295; 4294967295; 4294967295; 4294967295; 4294967295; 4294967295; 4294967295; 4294967295; 4294967295; 4294967295; 4294967295; 4294967295; 4294967295; 4294967295; 4294967295; 4294967295; 4294967295];
  [4294967295; 4294967295; 4294967295; 4294967295; 4294967295; 4294967295; 4294967295; 4294967295; 4294967295; 4294967295; 4294967295; 4294967295; 4294967295; 4294967295; 4294967295; 4294967295; 4294967295; 4294967295; 4294967295; 4294967295; 4294967295; 4294967295; 4294967295; 4294967295; 4294967295; 4294967295; 4294967295; 4294967295; 4294967295; 4294967295; 4294967295; 4294967295; 4294967295; 4294967295; 4294967295; 4294967295; 4294967295; 4294967295; 4294967295; 4294967295; 4294967295; 4294967295; 4294967295; 4294967295; 4294967295; 4294967295; 4294967295; 4294967295; 4294967295; 4294967295; 4294967295; 4294967295; 4294967295; 4294967295; 4294967295; 4294967295; 4294967295; 4294967295; 4294967295; 4294967295; 4294967295; 4294967295; 4294967295; 4294967295; 4294967295; 4294967295; 4294967295; 4294967295; 4294967295; 4294967295; 4294967295; 4294967295; 4294967295; 4294967295; 4294967295; 4294967295; 4294967295; 4294967295; 4294967295; 4294967295; 4294967295; 4294967295; 4294967295; 4294967295; 4294967295; 4294967295; 4294967295; 4294967295; 4294967295; 4294967295; 4294967295; 4294967295; 4294967295; 4294967295];
  [4294967295; 4294967295; 4294967295; 4294967295; 4294967295; 4294967295; 4294967295; 4294967295; 4294967295; 4294967295; 4294967295; 4294967295; 4294967295; 4294967295; 4294967295; 4294967295; 4294967295; 4294967295; 4294967295; 4294967295; 4294967295; 4294967295; 4294967295; 4294967295; 4294967295; 4294967295; 4294967295; 4294967295; 4294967295; 4294967295; 4294967295; 4294967295; 4294967295; 4294967295; 4294967295; 4294967295; 4294967295; 4294967295; 4294967295; 4294967295; 4294967295; 4294967295; 4294967295; 4294967295; 4294967295; 4294967295; 4294967295; 4294967295; 4294967295; 4294967295; 4294967295; 4294967295; 4294967295; 4294967295; 4294967295; 4294967295; 4294967295; 4294967295; 4294967295; 4294967295; 4294967295; 4294967295; 4294967295; 4294967295; 4294967295; 4294967295; 4294967295; 4294967295; 4294967295; 4294967295; 4294967295; 4294967295; 4294967295; 4294967295; 4294967295; 4294967295; 4294967295; 4294967295; 4294967295; 4294967295; 4294967295; 4294967295; 4294967295; 4294967295; 4294967295; 4294967295; 4294967295; 4294967295; 4294967295; 4294967295; 4294967295; 4294967295; 4294967295; 4294967295];
  [4294967295; 4294967295; 4294967295; 4294967295; 4294967295; 4294967295; 4294967295; 4294967295; 4294967295; 4294967295; 4294967295; 4294967295; 4294967295; 4294967295; 4294967295; 4294967295; 4294967295; 4294967295; 4294967295; 4294967295; 4294967295; 4294967295; 4294967295; 4294967295; 4294967295; 4294967295; 4294967295; 4294967295; 4294967295; 4294967295; 4294967295; 4294967295; 4294967295; 4294967295; 4294967295; 4294967295; 4294967295; 4294967295; 4294967295; 4294967295; 4294967295; 4294967295; 4294967295; 4294967295; 4294967295; 4294967295; 4294967295; 4294967295; 4294967295; 4294967295; 4294967295; 4294967295; 4294967295; 4294967295; 4294967295; 4294967295; 4294967295; 4294967295; 4294967295; 4294967295; 4294967295; 4294967295; 4294967295; 4294967295; 4294967295; 4294967295; 4294967295; 4294967295; 4294967295; 4294967295; 4294967295; 4294967295; 4294967295; 4294967295; 4294967295; 4294967295; 4294967295; 4294967295; 4294967295; 4294967295; 4294967295; 4294967295; 4294967295; 4294967295; 4294967295; 4294967295; 4294967295; 4294967295; 4294967295; 4294967295; 4294967295; 4294967295; 4294967295; 4294967295];
  [4294967295; 4294967295; 4294967295; 4294967295; 4294967295; 4294967295; 4294967295; 4294967295; 4294967295; 4294967295; 4294967295; 4294967295; 4294967295; 4294967295; 4294967295; 4294967295; 4294967295; 4294967295; 4294967295; 4294967295; 4294967295; 4294967295; 4294967295; 4294967295; 4294967295; 4294967295; 4294967295; 4294967295; 4294967295; 4294967295; 4294967295; 4294967295; 4294967295; 4294967295; 4294967295; 4294967295; 4294967295; 4294967295; 4294967295; 4294967295; 4294967295; 4294967295; 4294967295; 4294967295; 4294967295; 4294967295; 4294967295; 4294967295; 4294967295; 4294967295; 4294967295; 4294967295; 4294967295; 4294967295; 4294967295; 4294967295; 4294967295; 4294967295; 4294967295; 4294967295; 4294967295; 4294967295; 4294967295; 4294967295; 4294967295; 4294967295; 4294967295; 4294967295; 4294967295; 4294967295; 4294967295; 4294967295; 4294967295; 4294967295; 4294967295; 4294967295; 4294967295; 4294967295; 4294967295; 4294967295; 4294967295; 4294967295; 4294967295; 4294967295; 4294967295; 4294967295; 4294967295; 4294967295; 4294967295; 4294967295; 4294967295; 4294967295; 4294967295; 4294967295];
  [4294967295; 4294967295; 4294967295; 4294967295; 4294967295; 4294967295; 4294967295; 4294967295; 4294967295; 4294967295; 4294967295; 4294967295; 4294967295; 4294967295; 4294967295; 4294967295; 4294967295; 4294967295; 4294967295; 4294967295; 4294967295; 4294967295; 4294967295; 4294967295; 4294967295; 4294967295; 4294967295; 4294967295; 4294967295; 4294967295; 4294967295; 4294967295; 4294967295; 4294967295; 4294967295; 4294967295; 4294967295; 4294967295; 4294967295; 4294967295; 4294967295; 4294967295; 4294967295; 4294967295; 4294967295; 4294967295; 4294967295; 4294967295; 4294967295; 4294967295; 4294967295; 4294967295; 4294967295; 4294967295; 4294967295; 4294967295; 4294967295; 4294967295; 4294967295; 4294967295; 4294967295; 4294967295; 4294967295; 4294967295; 4294967295; 4294967295; 4294967295; 4294967295; 4294967295; 4294967295; 4294967295; 4294967295; 4294967295; 4294967295; 4294967295; 4294967295; 4294967295; 4294967295; 4294967295; 4294967295; 4294967295; 4294967295; 4294967295; 4294967295; 4294967295; 4294967295; 4294967295; 4294967295; 4294967295; 4294967295; 4294967295; 4294967295; 4294967295; 4294967295];
  [4294967295; 4294967295; 4294967295; 4294967295; 4294967295; 4294967295; 4294967295; 4294967295; 4294967295; 4294967295; 4294967295; 4294967295; 4294967295; 4294967295; 4294967295; 4294967295; 4294967295; 4294967295; 4294967295; 4294967295; 4294967295; 4294967295; 4294967295; 4294967295; 4294967295; 4294967295; 4294967295; 4294967295; 4294967295; 4294967295; 4294967295; 4294967295; 4294967295; 4294967295; 4294967295; 4294967295; 4294967295; 4294967295; 4294967295; 4294967295; 4294967295; 4294967295; 4294967295; 4294967295; 4294967295; 4294967295; 4294967295; 4294967295; 4294967295; 4294967295; 4294967295; 4294967295; 4294967295; 4294967295; 4294967295; 4294967295; 4294967295; 4294967295; 4294967295; 4294967295; 4294967295; 4294967295; 4294967295; 4294967295; 4294967295; 4294967295; 4294967295; 4294967295; 4294967295; 4294967295; 4294967295; 4294967295; 4294967295; 4294967295; 4294967295; 4294967295; 4294967295; 4294967295; 4294967295; 4294967295; 4294967295; 4294967295; 4294967295; 4294967295; 4294967295; 4294967295; 4294967295; 4294967295; 4294967295; 4294967295; 4294967295; 4294967295; 4294967295; 4294967295];
  [4294967295; 4294967295; 4294967295; 4294967295; 4294967295; 4294967295; 4294967295; 4294967295; 4294967295; 4294967295; 4294967295; 4294967295; 4294967295; 4294967295; 4294967295; 4294967295; 4294967295; 4294967295; 4294967295; 4294967295; 4294967295; 4294967295; 4294967295; 4294967295; 4294967295; 4294967295; 4294967295; 4294967295; 4294967295; 4294967295; 4294967295; 4294967295; 4294967295; 4294967295; 4294967295; 4294967295; 4294967295; 4294967295; 4294967295; 4294967295; 4294967295; 4294967295; 4294967295; 4294967295; 4294967295; 4294967295; 4294967295; 4294967295; 4294967295; 4294967295; 4294967295; 4294967295; 4294967295; 4294967295; 4294967295; 4294967295; 4294967295; 4294967295; 4294967295; 4294967295; 4294967295; 4294967295; 4294967295; 4294967295; 4294967295; 4294967295; 4294967295; 4294967295; 4294967295; 4294967295; 4294967295; 4294967295; 4294967295; 4294967295; 4294967295; 4294967295; 4294967295; 4294967295; 4294967295; 4294967295; 4294967295; 4294967295; 4294967295; 4294967295; 4294967295; 4294967295; 4294967295; 4294967295; 4294967295; 4294967295; 4294967295; 4294967295; 4294967295; 4294967295];
  [4294967295; 4294967295; 4294967295; 4294967295; 4294967295; 4294967295; 4294967295; 4294967295; 4294967295; 4294967295; 4294967295; 4294967295; 4294967295; 4294967295; 4294967295; 4294967295; 4294967295; 4294967295; 4294967295; 4294967295; 4294967295; 4294967295; 4294967295; 4294967295; 4294967295; 4294967295; 4294967295; 4294967295; 4294967295; 4294967295; 4294967295; 4294967295; 4294967295; 4294967295; 4294967295; 4294967295; 4294967295; 4294967295; 4294967295; 4294967295; 4294967295; 4294967295; 4294967295; 4294967295; 4294967295; 4294967295; 4294967295; 4294967295; 4294967295; 4294967295; 4294967295; 4294967295; 4294967295; 4294967295; 4294967295; 4294967295; 4294967295; 4294967295; 4294967295; 4294967295; 4294967295; 4294967295; 4294967295; 4294967295; 4294967295; 4294967295; 4294967295; 4294967295; 4294967295; 4294967295; 4294967295; 4294967295; 4294967295; 4294967295; 4294967295; 4294967295; 4294967295; 4294967295; 4294967295; 4294967295; 4294967295; 4294967295; 4294967295; 4294967295; 4294967295; 4294967295; 4294967295; 4294967295; 4294967295; 4294967295; 4294967295; 4294967295; 4294967295; 4294967295]].

(** indexes_pointer.cpp:14 *)
Definition index_pointer_jis0208_0 : list Z := concat [
  [167; 168; 176; 177; 180; 182; 215; 247; 913; 914; 915; 916; 917; 918; 919; 920; 921; 922; 923; 924; 925; 926; 927; 928; 929; 931; 932; 933; 934; 935; 936; 937; 945; 946; 947; 948; 949; 950; 951; 952; 953; 954; 955; 956; 957; 958; 959; 960; 961; 963; 964; 965; 966; 967; 968; 969; 1025; 1040; 1041; 1042; 1043; 1044; 1045; 1046; 1047; 1048; 1049; 1050; 1051; 1052; 1053; 1054; 1055; 1056; 1057; 1058; 1059; 1060; 1061; 1062; 1063; 1064; 1065; 1066; 1067; 1068; 1069; 1070; 1071; 1072; 1073; 1074; 1075; 1076; 1077; 1078; 1079; 1080; 1081; 1082];
  [1083; 1084; 1085; 1086; 1087; 1088; 1089; 1090; 1091; 1092; 1093; 1094; 1095; 1096; 1097; 1098; 1099; 1100; 1101; 1102; 1103; 1105; 8208; 8213; 8216; 8217; 8220; 8221; 8224; 8225; 8229; 8230; 8240; 8242; 8243; 8251; 8451; 8470; 8481; 8491; 8544; 8545; 8546; 8547; 8548; 8549; 8550; 8551; 8552; 8553; 8560; 8561; 8562; 8563; 8564; 8565; 8566; 8567; 8568; 8569; 8592; 8593; 8594; 8595; 8658; 8660; 8704; 8706; 8707; 8711; 8712; 8715; 8721; 8730; 8733; 8734; 8735; 8736; 8741; 8743; 8744; 8745; 8746; 8747; 8748; 8750; 8756; 8757; 8765; 8786; 8800; 8801; 8806; 8807; 8810; 8811; 8834; 8835; 8838; 8839];
  [8869; 8895; 8978; 9312; 9313; 9314; 9315; 9316; 9317; 9318; 9319; 9320; 9321; 9322; 9323; 9324; 9325; 9326; 9327; 9328; 9329; 9330; 9331; 9472; 9473; 9474; 9475; 9484; 9487; 9488; 9491; 9492; 9495; 9496; 9499; 9500; 9501; 9504; 9507; 9508; 9509; 9512; 9515; 9516; 9519; 9520; 9523; 9524; 9527; 9528; 9531; 9532; 9535; 9538; 9547; 9632; 9633; 9650; 9651; 9660; 9661; 9670; 9671; 9675; 9678; 9679; 9711; 9733; 9734; 9792; 9794; 9834; 9837; 9839; 12288; 12289; 12290; 12291; 12293; 12294; 12295; 12296; 12297; 12298; 12299; 12300; 12301; 12302; 12303; 12304; 12305; 12306; 12307; 12308; 12309; 12317; 12319; 12353; 12354; 12355];
  [12356; 12357; 12358; 12359; 12360; 12361; 12362; 12363; 12364; 12365; 12366; 12367; 12368; 12369; 12370; 12371; 12372; 12373; 12374; 12375; 12376; 12377; 12378; 12379; 12380; 12381; 12382; 12383; 12384; 12385; 12386; 12387; 12388; 12389; 12390; 12391; 12392; 12393; 12394; 12395; 12396; 12397; 12398; 12399; 12400; 12401; 12402; 12403; 12404; 12405; 12406; 12407; 12408; 12409; 12410; 12411; 12412; 12413; 12414; 12415; 12416; 12417; 12418; 12419; 12420; 12421; 12422; 12423; 12424; 12425; 12426; 12427; 12428; 12429; 12430; 12431; 12432; 12433; 12434; 12435; 12443; 12444; 12445; 12446; 12449; 12450; 12451; 12452; 12453; 12454; 12455; 12456; 12457; 12458; 12459; 12460; 12461; 12462; 12463; 12464];
  [12465; 12466; 12467; 12468; 12469; 12470; 12471; 12472; 12473; 12474; 12475; 12476; 12477; 12478; 12479; 12480; 12481; 12482; 12483; 12484; 12485; 12486; 12487; 12488; 12489; 12490; 12491; 12492; 12493; 12494; 12495; 12496; 12497; 12498; 12499; 12500; 12501; 12502; 12503; 12504; 12505; 12506; 12507; 12508; 12509; 12510; 12511; 12512; 12513; 12514; 12515; 12516; 12517; 12518; 12519; 12520; 12521; 12522; 12523; 12524; 12525; 12526; 12527; 12528; 12529; 12530; 12531; 12532; 12533; 12534; 12539; 12540; 12541; 12542; 12849; 12850; 12857; 12964; 12965; 12966; 12967; 12968; 13059; 13069; 13076; 13080; 13090; 13091; 13094; 13095; 13099; 13110; 13115; 13129; 13130; 13133; 13137; 13143; 13179; 13180];
  [13181; 13182; 13198; 13199; 13212; 13213; 13214; 13217; 13252; 13261; 19968; 19969; 19971; 19975; 19976; 19977; 19978; 19979; 19981; 19982; 19984; 19985; 19988; 19989; 19990; 19991; 19992; 19993; 19998; 20001; 20006; 20008; 20010; 20013; 20017; 20018; 20022; 20024; 20025; 20027; 20028; 20031; 20034; 20035; 20037; 20043; 20045; 20046; 20047; 20053; 20054; 20055; 20056; 20057; 20061; 20062; 20063; 20066; 20081; 20083; 20094; 20096; 20098; 20101; 20102; 20104; 20105; 20106; 20107; 20108; 20110; 20113; 20114; 20116; 20117; 20120; 20121; 20123; 20124; 20126; 20127; 20128; 20129; 20130; 20132; 20133; 20134; 20136; 20139; 20140; 20141; 20142; 20144; 20147; 20150; 20154; 20160; 20161; 20162; 20164];
  [20166; 20167; 20170; 20171; 20173; 20174; 20175; 20180; 20181; 20182; 20183; 20184; 20185; 20189; 20190; 20191; 20193; 20195; 20196; 20197; 20205; 20206; 20208; 20210; 20214; 20215; 20219; 20220; 20224; 20225; 20227; 20233; 20234; 20237; 20238; 20239; 20240; 20241; 20250; 20252; 20253; 20271; 20272; 20276; 20278; 20280; 20281; 20282; 20284; 20285; 20291; 20294; 20295; 20301; 20302; 20303; 20304; 20305; 20307; 20309; 20310; 20311; 20313; 20314; 20315; 20316; 20317; 20318; 20329; 20335; 20336; 20339; 20341; 20342; 20347; 20348; 20351; 20355; 20358; 20360; 20362; 20363; 20365; 20367; 20369; 20370; 20372; 20374; 20376; 20378; 20379; 20381; 20384; 20385; 20395; 20397; 20398; 20399; 20405; 20406];
  [20415; 20418; 20419; 20420; 20425; 20426; 20429; 20430; 20432; 20433; 20436; 20439; 20440; 20442; 20443; 20445; 20447; 20449; 20451; 20452; 20453; 20462; 20463; 20467; 20469; 20470; 20472; 20474; 20478; 20479; 20485; 20486; 20489; 20491; 20493; 20495; 20497; 20498; 20500; 20502; 20505; 20506; 20510; 20511; 20513; 20514; 20515; 20516; 20517; 20518; 20520; 20521; 20522; 20523; 20524; 20525; 20534; 20537; 20544; 20546; 20547; 20550; 20551; 20552; 20553; 20559; 20560; 20565; 20566; 20570; 20572; 20581; 20588; 20592; 20594; 20596; 20597; 20598; 20600; 20605; 20608; 20613; 20621; 20625; 20628; 20632; 20633; 20634; 20652; 20653; 20658; 20659; 20660; 20661; 20663; 20670; 20674; 20677; 20681; 20682];
  [20685; 20687; 20689; 20693; 20694; 20696; 20698; 20702; 20707; 20709; 20711; 20717; 20718; 20724; 20725; 20729; 20731; 20736; 20737; 20738; 20740; 20745; 20754; 20756; 20757; 20758; 20760; 20762; 20767; 20769; 20778; 20786; 20791; 20794; 20795; 20796; 20799; 20800; 20801; 20803; 20804; 20805; 20806; 20807; 20808; 20809; 20810; 20811; 20812; 20813; 20814; 20816; 20818; 20820; 20826; 20828; 20834; 20836; 20837; 20840; 20841; 20842; 20843; 20844; 20845; 20846; 20849; 20853; 20854; 20855; 20856; 20860; 20864; 20866; 20869; 20870; 20873; 20874; 20876; 20877; 20879; 20880; 20881; 20882; 20883; 20885; 20886; 20887; 20889; 20893; 20896; 20898; 20900; 20901; 20902; 20904; 20905; 20906; 20907; 20908];
  [20912; 20913; 20914; 20915; 20916; 20917; 20918; 20919; 20925; 20926; 20932; 20933; 20934; 20937; 20939; 20940; 20941; 20950; 20955; 20956; 20957; 20960; 20961; 20966; 20967; 20969; 20970; 20972; 20973; 20976; 20977; 20981; 20982; 20984; 20985; 20986; 20989; 20990; 20992; 20995; 20996; 20998; 20999; 21000; 21002; 21003; 21006; 21009; 21012; 21013; 21015; 21021; 21028; 21029; 21031; 21033; 21034; 21038; 21040; 21043; 21046; 21047; 21048; 21049; 21050; 21051; 21059; 21060; 21063; 21066; 21067; 21068; 21069; 21071; 21076; 21078; 21083; 21086; 21091; 21092; 21093; 21097; 21098; 21103; 21104; 21105; 21106; 21107; 21108; 21109; 21117; 21119; 21123; 21127; 21128; 21129; 21133; 21137; 21138; 21140];
  [21147; 21148; 21151; 21152; 21155; 21158; 21161; 21162; 21163; 21164; 21165; 21167; 21169; 21172; 21173; 21177; 21180; 21182; 21184; 21185; 21187; 21189; 21191; 21193; 21197; 21202; 21205; 21207; 21208; 21209; 21211; 21213; 21214; 21215; 21216; 21218; 21219; 21220; 21222; 21223; 21234; 21235; 21237; 21240; 21241; 21242; 21246; 21247; 21248; 21249; 21250; 21253; 21254; 21255; 21256; 21261; 21263; 21264; 21269; 21270; 21271; 21273; 21274; 21277; 21280; 21281; 21283; 21284; 21290; 21295; 21297; 21299; 21304; 21305; 21306; 21307; 21311; 21312; 21313; 21315; 21317; 21318; 21319; 21320; 21321; 21322; 21325; 21329; 21330; 21331; 21332; 21335; 21336; 21338; 21340; 21342; 21344; 21350; 21353; 21358];
  [21359; 21360; 21361; 21362; 21363; 21364; 21365; 21367; 21368; 21371; 21375; 21378; 21380; 21395; 21398; 21400; 21402; 21407; 21408; 21413; 21414; 21416; 21417; 21421; 21422; 21424; 21426; 21427; 21430; 21435; 21442; 21443; 21448; 21449; 21450; 21451; 21452; 21453; 21454; 21460; 21462; 21463; 21465; 21467; 21469; 21471; 21473; 21474; 21475; 21476; 21477; 21480; 21481; 21482; 21483; 21484; 21485; 21486; 21487; 21488; 21489; 21490; 21491; 21494; 21495; 21496; 21498; 21505; 21507; 21508; 21512; 21513; 21514; 21515; 21516; 21517; 21518; 21519; 21520; 21521; 21531; 21533; 21535; 21536; 21542; 21545; 21547; 21548; 21549; 21550; 21558; 21560; 21561; 21563; 21564; 21565; 21566; 21568; 21570; 21574];
  [21576; 21577; 21578; 21582; 21585; 21599; 21608; 21610; 21616; 21617; 21619; 21621; 21622; 21623; 21627; 21628; 21629; 21632; 21636; 21638; 21642; 21643; 21644; 21646; 21647; 21648; 21650; 21660; 21666; 21668; 21669; 21672; 21673; 21675; 21676; 21679; 21682; 21683; 21688; 21692; 21693; 21694; 21696; 21697; 21698; 21700; 21703; 21704; 21705; 21720; 21729; 21730; 21733; 21734; 21736; 21737; 21741; 21742; 21746; 21754; 21757; 21759; 21764; 21766; 21767; 21775; 21776; 21780; 21782; 21806; 21807; 21809; 21811; 21816; 21817; 21822; 21824; 21828; 21829; 21830; 21836; 21839; 21843; 21846; 21847; 21852; 21853; 21859; 21883; 21884; 21886; 21888; 21891; 21892; 21894; 21895; 21897; 21898; 21899; 21912];
  [21913; 21914; 21916; 21917; 21918; 21919; 21927; 21928; 21929; 21930; 21931; 21932; 21934; 21936; 21942; 21956; 21957; 21959; 21972; 21978; 21980; 21983; 21987; 21988; 22007; 22009; 22013; 22014; 22022; 22025; 22036; 22038; 22039; 22040; 22043; 22057; 22063; 22065; 22066; 22068; 22070; 22072; 22082; 22092; 22094; 22096; 22107; 22116; 22120; 22122; 22123; 22124; 22132; 22136; 22138; 22144; 22150; 22151; 22154; 22159; 22164; 22176; 22178; 22181; 22190; 22196; 22198; 22204; 22208; 22209; 22210; 22211; 22216; 22222; 22225; 22227; 22231; 22232; 22234; 22235; 22238; 22240; 22243; 22254; 22256; 22258; 22259; 22265; 22266; 22269; 22271; 22272; 22275; 22276; 22280; 22281; 22283; 22285; 22287; 22290];
  [22291; 22294; 22296; 22300; 22303; 22310; 22311; 22312; 22317; 22320; 22327; 22328; 22331; 22336; 22338; 22343; 22346; 22350; 22351; 22352; 22353; 22361; 22369; 22372; 22373; 22374; 22377; 22378; 22399; 22402; 22408; 22409; 22411; 22419; 22432; 22434; 22435; 22436; 22442; 22444; 22448; 22451; 22464; 22467; 22470; 22471; 22472; 22475; 22478; 22482; 22483; 22484; 22486; 22492; 22495; 22496; 22499; 22516; 22519; 22521; 22522; 22524; 22528; 22530; 22533; 22534; 22538; 22539; 22549; 22553; 22557; 22561; 22564; 22570; 22575; 22576; 22577; 22580; 22581; 22586; 22589; 22592; 22593; 22602; 22603; 22609; 22610; 22612; 22615; 22616; 22617; 22618; 22622; 22626; 22633; 22635; 22640; 22642; 22645; 22649];
  [22654; 22659; 22661; 22675; 22679; 22684; 22686; 22687; 22696; 22699; 22702; 22706; 22707; 22712; 22713; 22714; 22715; 22718; 22721; 22725; 22727; 22730; 22732; 22737; 22739; 22741; 22743; 22744; 22745; 22748; 22750; 22751; 22756; 22757; 22763; 22764; 22766; 22767; 22768; 22769; 22770; 22775; 22777; 22778; 22779; 22780; 22781; 22786; 22793; 22794; 22795; 22799; 22800; 22805; 22806; 22808; 22809; 22810; 22811; 22812; 22818; 22821; 22823; 22825; 22826; 22827; 22828; 22829; 22830; 22833; 22834; 22839; 22840; 22846; 22852; 22855; 22856; 22857; 22862; 22863; 22864; 22865; 22867; 22868; 22869; 22871; 22872; 22874; 22875; 22877; 22880; 22882; 22883; 22885; 22887; 22888; 22889; 22890; 22892; 22894];
  [22899; 22900; 22904; 22909; 22913; 22914; 22915; 22916; 22922; 22925; 22931; 22934; 22937; 22939; 22941; 22947; 22948; 22949; 22952; 22956; 22962; 22969; 22970; 22971; 22974; 22982; 22985; 22987; 22992; 22993; 22995; 22996; 23001; 23002; 23004; 23013; 23014; 23016; 23018; 23019; 23030; 23035; 23039; 23041; 23043; 23049; 23057; 23064; 23066; 23068; 23071; 23072; 23077; 23081; 23087; 23093; 23094; 23100; 23104; 23105; 23110; 23113; 23130; 23138; 23142; 23146; 23148; 23167; 23186; 23194; 23195; 23228; 23229; 23230; 23233; 23234; 23241; 23243; 23244; 23248; 23254; 23255; 23265; 23267; 23270; 23273; 23290; 23291; 23305; 23307; 23308; 23318; 23330; 23338; 23340; 23344; 23346; 23350; 23358; 23360];
  [23363; 23365; 23376; 23377; 23380; 23381; 23382; 23383; 23384; 23386; 23387; 23388; 23389; 23391; 23395; 23396; 23397; 23398; 23401; 23403; 23408; 23409; 23411; 23413; 23416; 23418; 23424; 23427; 23429; 23431; 23432; 23433; 23435; 23436; 23437; 23439; 23445; 23447; 23448; 23449; 23450; 23451; 23452; 23453; 23455; 23458; 23459; 23460; 23461; 23462; 23470; 23472; 23475; 23476; 23477; 23478; 23480; 23481; 23487; 23488; 23490; 23491; 23492; 23493; 23494; 23495; 23497; 23500; 23504; 23506; 23507; 23508; 23512; 23515; 23517; 23518; 23519; 23521; 23522; 23524; 23525; 23526; 23527; 23528; 23529; 23531; 23532; 23534; 23536; 23539; 23541; 23542; 23544; 23546; 23550; 23551; 23553; 23554; 23556; 23557];
  [23558; 23559; 23560; 23561; 23562; 23563; 23565; 23566; 23567; 23569; 23571; 23574; 23578; 23582; 23584; 23586; 23588; 23592; 23597; 23601; 23608; 23609; 23610; 23611; 23612; 23613; 23614; 23615; 23616; 23617; 23621; 23622; 23624; 23626; 23627; 23629; 23630; 23631; 23632; 23633; 23635; 23637; 23646; 23648; 23649; 23652; 23653; 23660; 23662; 23663; 23665; 23670; 23673; 23692; 23696; 23697; 23700; 23713; 23718; 23720; 23721; 23723; 23724; 23729; 23731; 23734; 23735; 23736; 23738; 23739; 23740; 23742; 23749; 23751; 23769; 23776; 23777; 23784; 23785; 23786; 23789; 23791; 23792; 23797; 23798; 23802; 23803; 23805; 23815; 23819; 23822; 23825; 23828; 23829; 23830; 23831; 23832; 23833; 23834; 23835];
  [23839; 23842; 23847; 23849; 23874; 23883; 23884; 23886; 23888; 23890; 23891; 23900; 23913; 23916; 23917; 23919; 23923; 23926; 23938; 23940; 23943; 23947; 23948; 23952; 23965; 23970; 23980; 23982; 23991; 23992; 23993; 23994; 23996; 23997; 24009; 24012; 24013; 24016; 24018; 24019; 24022; 24027; 24029; 24030; 24033; 24035; 24037; 24038; 24039; 24040; 24043; 24046; 24049; 24050; 24051; 24052; 24053; 24055; 24059; 24061; 24062; 24066; 24067; 24070; 24075; 24076; 24081; 24086; 24089; 24090; 24091; 24093; 24101; 24107; 24109; 24111; 24112; 24115; 24118; 24119; 24120; 24125; 24128; 24131; 24132; 24133; 24135; 24140; 24142; 24148; 24149; 24151; 24159; 24161; 24162; 24163; 24164; 24178; 24179; 24180];
  [24181; 24182; 24184; 24185; 24186; 24187; 24188; 24189; 24190; 24191; 24193; 24195; 24196; 24199; 24202; 24207; 24213; 24214; 24215; 24218; 24220; 24224; 24230; 24231; 24235; 24237; 24245; 24246; 24247; 24248; 24257; 24258; 24259; 24264; 24265; 24266; 24271; 24272; 24275; 24278; 24282; 24283; 24285; 24287; 24288; 24289; 24290; 24291; 24296; 24297; 24300; 24304; 24305; 24307; 24308; 24310; 24311; 24312; 24314; 24315; 24316; 24318; 24319; 24321; 24323; 24324; 24329; 24330; 24331; 24332; 24333; 24335; 24336; 24337; 24339; 24340; 24341; 24342; 24343; 24344; 24347; 24351; 24353; 24357; 24358; 24359; 24361; 24365; 24367; 24369; 24372; 24373; 24375; 24376; 24380; 24382; 24385; 24389; 24392; 24394];
  [24396; 24398; 24401; 24403; 24406; 24407; 24409; 24412; 24413; 24417; 24418; 24422; 24423; 24425; 24426; 24427; 24428; 24429; 24432; 24433; 24435; 24439; 24441; 24444; 24447; 24448; 24449; 24450; 24451; 24452; 24453; 24455; 24456; 24458; 24459; 24460; 24464; 24465; 24466; 24467; 24471; 24472; 24473; 24478; 24480; 24481; 24488; 24489; 24490; 24493; 24494; 24499; 24500; 24503; 24505; 24508; 24509; 24515; 24517; 24524; 24525; 24534; 24535; 24536; 24537; 24540; 24541; 24542; 24544; 24548; 24555; 24560; 24561; 24565; 24568; 24571; 24573; 24575; 24590; 24591; 24592; 24594; 24597; 24598; 24601; 24603; 24604; 24605; 24608; 24609; 24613; 24614; 24615; 24616; 24617; 24618; 24619; 24623; 24625; 24634];
  [24641; 24642; 24643; 24646; 24650; 24651; 24653; 24656; 24658; 24661; 24665; 24666; 24669; 24671; 24672; 24674; 24675; 24676; 24677; 24680; 24681; 24682; 24683; 24684; 24685; 24687; 24688; 24693; 24695; 24705; 24707; 24708; 24709; 24713; 24714; 24715; 24716; 24717; 24722; 24724; 24726; 24727; 24730; 24731; 24735; 24736; 24739; 24742; 24743; 24745; 24746; 24754; 24755; 24756; 24757; 24758; 24760; 24764; 24765; 24773; 24774; 24775; 24785; 24787; 24789; 24792; 24794; 24796; 24798; 24799; 24800; 24801; 24803; 24807; 24808; 24816; 24817; 24818; 24819; 24820; 24822; 24823; 24825; 24826; 24827; 24832; 24833; 24835; 24838; 24840; 24841; 24845; 24846; 24847; 24849; 24853; 24858; 24859; 24863; 24864];
  [24865; 24871; 24872; 24876; 24880; 24884; 24887; 24892; 24893; 24894; 24895; 24898; 24900; 24903; 24904; 24906; 24907; 24908; 24909; 24910; 24915; 24917; 24920; 24921; 24922; 24925; 24927; 24930; 24931; 24933; 24935; 24936; 24939; 24942; 24943; 24944; 24945; 24947; 24948; 24949; 24950; 24951; 24958; 24962; 24967; 24970; 24974; 24976; 24977; 24980; 24982; 24984; 24985; 24986; 24996; 24999; 25001; 25003; 25004; 25006; 25010; 25014; 25018; 25022; 25027; 25030; 25031; 25032; 25033; 25034; 25035; 25036; 25037; 25040; 25059; 25062; 25074; 25076; 25078; 25079; 25080; 25082; 25084; 25085; 25086; 25087; 25088; 25096; 25097; 25098; 25100; 25101; 25102; 25104; 25105; 25106; 25107; 25108; 25110; 25114];
  [25115; 25117; 25118; 25119; 25121; 25126; 25130; 25134; 25135; 25136; 25138; 25139; 25140; 25144; 25147; 25151; 25152; 25153; 25159; 25160; 25161; 25163; 25165; 25166; 25171; 25173; 25176; 25179; 25182; 25184; 25187; 25192; 25198; 25201; 25206; 25209; 25212; 25214; 25215; 25216; 25218; 25219; 25220; 25225; 25226; 25233; 25234; 25235; 25236; 25237; 25238; 25239; 25240; 25243; 25244; 25246; 25254; 25259; 25260; 25265; 25269; 25273; 25275; 25276; 25277; 25282; 25285; 25286; 25287; 25288; 25289; 25290; 25292; 25293; 25295; 25296; 25297; 25298; 25299; 25300; 25303; 25304; 25305; 25307; 25308; 25309; 25312; 25313; 25324; 25325; 25326; 25327; 25329; 25331; 25333; 25334; 25335; 25342; 25343; 25345];
  [25346; 25351; 25352; 25353; 25356; 25361; 25369; 25375; 25383; 25384; 25387; 25391; 25402; 25405; 25406; 25407; 25417; 25420; 25421; 25423; 25424; 25429; 25431; 25436; 25447; 25448; 25449; 25451; 25454; 25458; 25462; 25463; 25466; 25467; 25472; 25475; 25480; 25481; 25484; 25486; 25487; 25490; 25494; 25496; 25499; 25503; 25504; 25505; 25506; 25507; 25509; 25511; 25512; 25513; 25514; 25515; 25516; 25522; 25524; 25525; 25531; 25534; 25536; 25539; 25540; 25542; 25545; 25551; 25552; 25554; 25558; 25562; 25563; 25569; 25571; 25577; 25582; 25588; 25589; 25590; 25594; 25606; 25613; 25615; 25619; 25622; 25623; 25628; 25638; 25640; 25644; 25645; 25652; 25654; 25658; 25662; 25666; 25678; 25688; 25696];
  [25703; 25705; 25711; 25718; 25720; 25722; 25731; 25736; 25746; 25747; 25749; 25754; 25757; 25758; 25764; 25765; 25769; 25771; 25773; 25774; 25776; 25778; 25785; 25787; 25788; 25793; 25794; 25797; 25799; 25805; 25806; 25810; 25812; 25816; 25818; 25824; 25825; 25826; 25827; 25830; 25831; 25836; 25839; 25841; 25842; 25844; 25846; 25850; 25853; 25854; 25856; 25861; 25880; 25884; 25885; 25891; 25892; 25898; 25899; 25900; 25903; 25908; 25909; 25910; 25911; 25912; 25913; 25915; 25918; 25919; 25925; 25928; 25933; 25934; 25935; 25937; 25941; 25942; 25943; 25944; 25945; 25949; 25950; 25954; 25955; 25958; 25964; 25968; 25970; 25972; 25973; 25975; 25976; 25986; 25987; 25991; 25992; 25993; 25996; 25998];
  [26000; 26001; 26007; 26009; 26011; 26012; 26015; 26017; 26020; 26021; 26023; 26027; 26028; 26029; 26031; 26032; 26039; 26041; 26044; 26045; 26049; 26051; 26052; 26053; 26054; 26059; 26060; 26063; 26066; 26071; 26073; 26075; 26080; 26081; 26082; 26085; 26086; 26087; 26088; 26089; 26092; 26093; 26097; 26106; 26107; 26112; 26114; 26115; 26118; 26119; 26121; 26122; 26124; 26126; 26127; 26131; 26132; 26133; 26140; 26142; 26143; 26144; 26148; 26149; 26151; 26152; 26157; 26158; 26159; 26161; 26164; 26165; 26166; 26171; 26172; 26175; 26177; 26178; 26179; 26180; 26185; 26187; 26191; 26194; 26199; 26201; 26205; 26206; 26207; 26210; 26212; 26213; 26214; 26215; 26216; 26217; 26222; 26223; 26224; 26227];
  [26228; 26230; 26234; 26241; 26243; 26244; 26247; 26248; 26249; 26254; 26257; 26262; 26263; 26264; 26265; 26269; 26272; 26274; 26278; 26283; 26286; 26290; 26292; 26296; 26297; 26300; 26302; 26303; 26305; 26308; 26311; 26313; 26326; 26329; 26330; 26332; 26333; 26336; 26342; 26345; 26352; 26354; 26355; 26356; 26357; 26359; 26360; 26361; 26362; 26363; 26364; 26365; 26366; 26367; 26368; 26371; 26376; 26377; 26379; 26381; 26382; 26383; 26388; 26389; 26390; 26391; 26395; 26397; 26398; 26399; 26406; 26407; 26408; 26410; 26411; 26412; 26413; 26414; 26417; 26420; 26422; 26423; 26424; 26426; 26429; 26431; 26433; 26438; 26441; 26446; 26447; 26448; 26449; 26451; 26454; 26457; 26460; 26462; 26463; 26464];
  [26465; 26466; 26467; 26468; 26469; 26470; 26474; 26477; 26479; 26480; 26481; 26482; 26483; 26485; 26487; 26492; 26494; 26495; 26501; 26503; 26505; 26507; 26508; 26512; 26517; 26519; 26522; 26524; 26525; 26528; 26529; 26530; 26534; 26537; 26543; 26547; 26548; 26550; 26551; 26552; 26553; 26555; 26560; 26561; 26564; 26566; 26570; 26574; 26575; 26576; 26577; 26579; 26580; 26584; 26586; 26589; 26590; 26594; 26596; 26599; 26601; 26604; 26606; 26607; 26609; 26611; 26612; 26613; 26619; 26622; 26623; 26625; 26626; 26627; 26628; 26643; 26646; 26647; 26654; 26657; 26658; 26665; 26666; 26667; 26674; 26676; 26680; 26681; 26684; 26685; 26688; 26689; 26690; 26691; 26692; 26694; 26696; 26701; 26702; 26704];
  [26705; 26706; 26707; 26708; 26713; 26716; 26717; 26719; 26723; 26727; 26740; 26742; 26743; 26750; 26751; 26753; 26755; 26757; 26765; 26767; 26771; 26772; 26775; 26779; 26781; 26783; 26784; 26786; 26790; 26791; 26792; 26797; 26799; 26800; 26801; 26803; 26805; 26806; 26809; 26810; 26812; 26820; 26822; 26824; 26825; 26826; 26827; 26829; 26831; 26834; 26836; 26837; 26839; 26840; 26842; 26847; 26848; 26849; 26851; 26855; 26862; 26863; 26866; 26873; 26874; 26880; 26881; 26884; 26885; 26888; 26891; 26892; 26893; 26894; 26895; 26898; 26905; 26906; 26907; 26908; 26913; 26914; 26915; 26917; 26918; 26920; 26922; 26928; 26932; 26934; 26937; 26941; 26943; 26954; 26963; 26964; 26965; 26969; 26970; 26972];
  [26973; 26974; 26976; 26977; 26978; 26984; 26986; 26987; 26989; 26990; 26991; 26995; 26996; 26997; 26999; 27000; 27001; 27004; 27005; 27006; 27009; 27010; 27018; 27022; 27025; 27028; 27029; 27032; 27035; 27036; 27040; 27047; 27054; 27057; 27058; 27060; 27067; 27070; 27071; 27073; 27075; 27079; 27082; 27083; 27084; 27085; 27086; 27088; 27091; 27096; 27097; 27101; 27102; 27106; 27111; 27112; 27115; 27117; 27122; 27129; 27131; 27133; 27135; 27138; 27141; 27146; 27147; 27148; 27154; 27155; 27156; 27159; 27161; 27163; 27166; 27167; 27169; 27170; 27171; 27177; 27178; 27179; 27182; 27184; 27189; 27190; 27192; 27193; 27194; 27197; 27204; 27206; 27207; 27208; 27211; 27224; 27225; 27231; 27233; 27234];
  [27238; 27243; 27250; 27251; 27256; 27262; 27263; 27264; 27268; 27277; 27278; 27280; 27287; 27292; 27296; 27298; 27299; 27306; 27308; 27310; 27315; 27320; 27323; 27329; 27330; 27331; 27345; 27347; 27354; 27355; 27358; 27359; 27362; 27364; 27368; 27370; 27386; 27387; 27396; 27397; 27402; 27410; 27414; 27421; 27423; 27424; 27425; 27427; 27431; 27442; 27447; 27448; 27449; 27450; 27453; 27454; 27459; 27463; 27465; 27468; 27470; 27472; 27475; 27476; 27481; 27483; 27487; 27489; 27490; 27491; 27492; 27494; 27497; 27498; 27503; 27507; 27508; 27512; 27513; 27515; 27519; 27520; 27523; 27524; 27526; 27529; 27530; 27531; 27533; 27541; 27542; 27544; 27550; 27556; 27562; 27563; 27567; 27569; 27570; 27571];
  [27572; 27573; 27575; 27578; 27579; 27580; 27583; 27584; 27589; 27590; 27595; 27597; 27598; 27602; 27603; 27604; 27606; 27608; 27611; 27615; 27627; 27628; 27631; 27635; 27656; 27663; 27665; 27667; 27668; 27671; 27675; 27683; 27684; 27700; 27703; 27704; 27710; 27711; 27712; 27713; 27714; 27726; 27728; 27733; 27735; 27738; 27740; 27741; 27742; 27743; 27744; 27746; 27752; 27754; 27759; 27760; 27762; 27763; 27770; 27773; 27774; 27777; 27778; 27779; 27782; 27784; 27788; 27789; 27792; 27794; 27795; 27798; 27801; 27802; 27803; 27809; 27810; 27819; 27822; 27825; 27827; 27832; 27833; 27834; 27835; 27836; 27837; 27838; 27839; 27841; 27844; 27845; 27849; 27850; 27852; 27859; 27861; 27863; 27865; 27866];
  [27867; 27869; 27873; 27874; 27875; 27877; 27880; 27882; 27887; 27888; 27889; 27891; 27908; 27915; 27916; 27922; 27927; 27929; 27931; 27934; 27935; 27941; 27945; 27946; 27947; 27954; 27955; 27957; 27958; 27960; 27963; 27965; 27966; 27969; 27972; 27973; 27993; 27994; 27996; 28003; 28004; 28006; 28009; 28010; 28012; 28014; 28015; 28020; 28023; 28024; 28025; 28037; 28039; 28040; 28044; 28046; 28051; 28053; 28054; 28057; 28059; 28060; 28076; 28079; 28082; 28085; 28088; 28092; 28096; 28101; 28102; 28103; 28107; 28108; 28111; 28113; 28114; 28117; 28120; 28121; 28126; 28129; 28132; 28134; 28136; 28138; 28139; 28140; 28142; 28145; 28146; 28147; 28149; 28151; 28152; 28153; 28154; 28155; 28156; 28165];
  [28167; 28168; 28169; 28170; 28171; 28179; 28181; 28185; 28186; 28187; 28189; 28191; 28192; 28193; 28195; 28196; 28197; 28198; 28199; 28201; 28203; 28204; 28205; 28206; 28207; 28216; 28217; 28218; 28220; 28222; 28227; 28234; 28237; 28238; 28246; 28248; 28251; 28252; 28255; 28263; 28267; 28270; 28271; 28274; 28278; 28286; 28287; 28288; 28290; 28300; 28303; 28304; 28310; 28312; 28316; 28317; 28319; 28322; 28325; 28330; 28335; 28338; 28342; 28343; 28346; 28349; 28351; 28354; 28356; 28357; 28361; 28363; 28364; 28369; 28371; 28372; 28373; 28381; 28382; 28396; 28399; 28402; 28404; 28407; 28408; 28414; 28415; 28417; 28418; 28422; 28425; 28431; 28433; 28435; 28436; 28437; 28448; 28450; 28451; 28459];
  [28460; 28465; 28466; 28472; 28478; 28479; 28481; 28485; 28500; 28504; 28507; 28508; 28511; 28516; 28518; 28525; 28526; 28527; 28528; 28532; 28536; 28538; 28540; 28544; 28545; 28546; 28548; 28550; 28552; 28558; 28561; 28567; 28577; 28579; 28580; 28586; 28593; 28595; 28597; 28601; 28608; 28609; 28610; 28611; 28614; 28628; 28629; 28632; 28635; 28639; 28640; 28641; 28644; 28651; 28652; 28654; 28655; 28657; 28659; 28661; 28662; 28666; 28670; 28673; 28677; 28679; 28681; 28683; 28687; 28689; 28693; 28696; 28698; 28699; 28701; 28702; 28703; 28710; 28711; 28712; 28716; 28720; 28722; 28734; 28748; 28753; 28760; 28771; 28779; 28783; 28784; 28792; 28796; 28797; 28805; 28809; 28810; 28814; 28818; 28825];
  [28843; 28844; 28845; 28846; 28847; 28851; 28856; 28857; 28858; 28859; 28872; 28875; 28879; 28889; 28893; 28895; 28913; 28921; 28925; 28932; 28937; 28943; 28948; 28953; 28954; 28956; 28961; 28966; 28982; 28988; 28998; 28999; 29001; 29004; 29006; 29013; 29014; 29017; 29020; 29026; 29028; 29029; 29030; 29031; 29033; 29036; 29038; 29053; 29060; 29064; 29066; 29071; 29076; 29077; 29081; 29087; 29096; 29100; 29105; 29113; 29118; 29121; 29123; 29128; 29129; 29134; 29136; 29138; 29140; 29141; 29143; 29151; 29152; 29157; 29158; 29159; 29164; 29165; 29166; 29173; 29177; 29179; 29180; 29182; 29183; 29190; 29197; 29200; 29211; 29224; 29226; 29228; 29229; 29232; 29234; 29237; 29238; 29242; 29243; 29244];
  [29245; 29246; 29247; 29248; 29254; 29255; 29256; 29259; 29260; 29266; 29272; 29273; 29275; 29277; 29279; 29281; 29282; 29287; 29289; 29298; 29300; 29305; 29309; 29310; 29312; 29313; 29314; 29319; 29330; 29334; 29344; 29346; 29351; 29356; 29359; 29361; 29362; 29366; 29369; 29374; 29378; 29379; 29380; 29382; 29390; 29392; 29394; 29399; 29401; 29403; 29408; 29409; 29410; 29417; 29420; 29421; 29431; 29432; 29433; 29436; 29437; 29450; 29462; 29463; 29467; 29468; 29469; 29471; 29476; 29477; 29481; 29482; 29483; 29486; 29487; 29492; 29494; 29495; 29502; 29503; 29508; 29509; 29518; 29519; 29527; 29539; 29544; 29546; 29552; 29554; 29557; 29559; 29560; 29562; 29563; 29572; 29575; 29577; 29579; 29590];
  [29609; 29618; 29619; 29627; 29629; 29632; 29634; 29640; 29641; 29642; 29645; 29646; 29650; 29654; 29662; 29664; 29667; 29669; 29674; 29677; 29678; 29681; 29685; 29688; 29694; 29699; 29701; 29702; 29703; 29705; 29730; 29733; 29734; 29737; 29738; 29742; 29746; 29747; 29748; 29749; 29750; 29754; 29759; 29761; 29781; 29785; 29786; 29787; 29788; 29790; 29791; 29792; 29794; 29795; 29796; 29801; 29802; 29807; 29808; 29811; 29814; 29822; 29827; 29833; 29835; 29854; 29855; 29858; 29863; 29872; 29885; 29898; 29903; 29908; 29916; 29920; 29922; 29923; 29926; 29927; 29929; 29934; 29936; 29937; 29938; 29942; 29943; 29944; 29953; 29955; 29956; 29957; 29964; 29965; 29966; 29969; 29971; 29973; 29976; 29978];
  [29980; 29982; 29983; 29987; 29989; 29990; 29992; 29995; 29996; 29999; 30000; 30001; 30002; 30003; 30007; 30008; 30010; 30011; 30012; 30020; 30022; 30025; 30026; 30027; 30028; 30029; 30031; 30033; 30036; 30041; 30042; 30043; 30044; 30045; 30048; 30050; 30052; 30053; 30054; 30055; 30057; 30058; 30059; 30061; 30063; 30064; 30067; 30068; 30070; 30071; 30072; 30079; 30082; 30086; 30087; 30089; 30090; 30091; 30094; 30095; 30097; 30100; 30106; 30109; 30115; 30117; 30123; 30129; 30130; 30131; 30133; 30136; 30137; 30140; 30141; 30142; 30146; 30147; 30149; 30151; 30154; 30157; 30162; 30164; 30165; 30168; 30169; 30171; 30174; 30178; 30179; 30185; 30192; 30194; 30195; 30196; 30202; 30204; 30206; 30207];
  [30209; 30217; 30219; 30221; 30239; 30240; 30241; 30242; 30244; 30247; 30256; 30260; 30267; 30274; 30278; 30279; 30280; 30284; 30290; 30294; 30296; 30300; 30305; 30306; 30311; 30312; 30313; 30314; 30316; 30320; 30322; 30326; 30328; 30330; 30331; 30332; 30333; 30334; 30336; 30338; 30339; 30340; 30342; 30343; 30344; 30347; 30350; 30352; 30355; 30358; 30361; 30362; 30363; 30364; 30366; 30374; 30382; 30384; 30388; 30391; 30392; 30393; 30394; 30399; 30402; 30403; 30406; 30408; 30410; 30413; 30418; 30422; 30423; 30427; 30428; 30430; 30431; 30433; 30435; 30436; 30437; 30439; 30442; 30446; 30450; 30452; 30456; 30459; 30462; 30465; 30468; 30471; 30472; 30473; 30475; 30476; 30491; 30494; 30495; 30496];
  [30500; 30501; 30502; 30505; 30519; 30520; 30522; 30524; 30528; 30534; 30535; 30554; 30555; 30561; 30563; 30565; 30566; 30568; 30571; 30585; 30590; 30591; 30603; 30606; 30609; 30622; 30624; 30629; 30636; 30637; 30640; 30643; 30646; 30649; 30651; 30652; 30653; 30655; 30663; 30669; 30679; 30682; 30683; 30684; 30690; 30691; 30693; 30695; 30697; 30701; 30702; 30703; 30707; 30716; 30722; 30732; 30738; 30740; 30741; 30752; 30753; 30757; 30758; 30759; 30770; 30772; 30778; 30783; 30789; 30798; 30813; 30820; 30827; 30828; 30831; 30834; 30836; 30842; 30844; 30849; 30854; 30855; 30860; 30861; 30862; 30865; 30867; 30869; 30871; 30874; 30883; 30887; 30889; 30890; 30895; 30901; 30906; 30908; 30910; 30913];
  [30917; 30918; 30922; 30923; 30928; 30929; 30932; 30938; 30951; 30952; 30956; 30959; 30964; 30973; 30977; 30983; 30990; 30993; 30994; 31001; 31014; 31018; 31019; 31020; 31024; 31034; 31036; 31038; 31040; 31041; 31047; 31048; 31049; 31056; 31059; 31061; 31062; 31063; 31066; 31069; 31070; 31071; 31072; 31074; 31077; 31080; 31085; 31095; 31098; 31103; 31104; 31105; 31108; 31109; 31114; 31117; 31118; 31119; 31124; 31131; 31133; 31142; 31143; 31146; 31150; 31152; 31155; 31161; 31162; 31165; 31166; 31167; 31168; 31169; 31177; 31179; 31185; 31186; 31189; 31192; 31199; 31201; 31203; 31204; 31206; 31207; 31209; 31212; 31216; 31227; 31232; 31240; 31243; 31245; 31246; 31252; 31255; 31256; 31257; 31258];
  [31260; 31263; 31264; 31278; 31281; 31282; 31287; 31291; 31292; 31293; 31294; 31295; 31296; 31298; 31299; 31302; 31305; 31309; 31310; 31311; 31312; 31319; 31329; 31330; 31331; 31337; 31339; 31344; 31348; 31350; 31353; 31354; 31357; 31359; 31361; 31363; 31364; 31368; 31378; 31379; 31381; 31382; 31383; 31384; 31391; 31401; 31402; 31406; 31407; 31408; 31414; 31418; 31423; 31427; 31428; 31429; 31431; 31432; 31434; 31435; 31437; 31439; 31441; 31442; 31443; 31445; 31449; 31450; 31452; 31453; 31455; 31456; 31457; 31458; 31459; 31461; 31462; 31463; 31466; 31467; 31469; 31471; 31472; 31478; 31480; 31481; 31482; 31487; 31490; 31492; 31494; 31496; 31498; 31499; 31503; 31505; 31512; 31513; 31515; 31518];
  [31520; 31525; 31526; 31528; 31532; 31539; 31541; 31542; 31545; 31557; 31558; 31560; 31561; 31563; 31564; 31565; 31567; 31568; 31569; 31570; 31572; 31574; 31581; 31589; 31591; 31596; 31598; 31600; 31601; 31604; 31605; 31610; 31622; 31623; 31627; 31629; 31631; 31634; 31636; 31637; 31639; 31640; 31641; 31642; 31644; 31645; 31646; 31647; 31649; 31658; 31661; 31665; 31668; 31672; 31680; 31681; 31684; 31686; 31687; 31689; 31691; 31692; 31695; 31709; 31712; 31716; 31717; 31718; 31721; 31725; 31731; 31734; 31735; 31744; 31751; 31757; 31761; 31762; 31763; 31764; 31767; 31775; 31777; 31779; 31783; 31786; 31787; 31799; 31800; 31805; 31806; 31807; 31808; 31811; 31820; 31821; 31823; 31824; 31828; 31830];
  [31832; 31839; 31840; 31844; 31845; 31852; 31859; 31861; 31870; 31873; 31874; 31875; 31881; 31883; 31885; 31888; 31890; 31893; 31895; 31896; 31899; 31903; 31905; 31906; 31908; 31909; 31911; 31912; 31915; 31917; 31918; 31921; 31922; 31923; 31929; 31933; 31934; 31936; 31938; 31941; 31946; 31950; 31954; 31958; 31960; 31964; 31966; 31967; 31968; 31970; 31975; 31983; 31986; 31988; 31990; 31992; 31994; 31995; 31998; 32000; 32002; 32004; 32005; 32006; 32010; 32011; 32013; 32016; 32020; 32021; 32023; 32024; 32025; 32026; 32027; 32028; 32032; 32033; 32034; 32043; 32044; 32046; 32047; 32048; 32050; 32051; 32053; 32057; 32058; 32063; 32066; 32067; 32068; 32069; 32070; 32072; 32075; 32076; 32078; 32079];
  [32080; 32086; 32091; 32092; 32094; 32097; 32098; 32099; 32102; 32104; 32110; 32113; 32114; 32115; 32117; 32118; 32121; 32125; 32137; 32143; 32147; 32153; 32154; 32155; 32156; 32159; 32160; 32162; 32163; 32171; 32172; 32173; 32174; 32175; 32176; 32177; 32178; 32180; 32181; 32183; 32184; 32186; 32187; 32189; 32190; 32191; 32199; 32202; 32203; 32207; 32209; 32210; 32213; 32214; 32216; 32218; 32220; 32221; 32222; 32224; 32225; 32228; 32232; 32233; 32236; 32239; 32242; 32244; 32251; 32257; 32260; 32261; 32265; 32266; 32267; 32274; 32283; 32286; 32287; 32289; 32290; 32291; 32294; 32299; 32302; 32305; 32306; 32309; 32311; 32313; 32314; 32315; 32317; 32318; 32321; 32323; 32326; 32330; 32331; 32333];
  [32338; 32340; 32341; 32342; 32345; 32346; 32349; 32350; 32358; 32359; 32361; 32362; 32365; 32368; 32377; 32379; 32380; 32381; 32383; 32386; 32387; 32392; 32393; 32394; 32396; 32398; 32399; 32400; 32402; 32403; 32404; 32406; 32411; 32412; 32566; 32568; 32570; 32581; 32583; 32588; 32589; 32590; 32592; 32593; 32596; 32597; 32600; 32607; 32608; 32615; 32616; 32617; 32618; 32619; 32622; 32624; 32626; 32629; 32631; 32632; 32633; 32642; 32643; 32645; 32646; 32647; 32648; 32650; 32652; 32654; 32660; 32666; 32669; 32670; 32673; 32675; 32676; 32680; 32681; 32686; 32687; 32690; 32694; 32696; 32697; 32701; 32705; 32709; 32710; 32714; 32716; 32722; 32724; 32725; 32736; 32737; 32742; 32745; 32747; 32752];
  [32755; 32761; 32763; 32764; 32768; 32769; 32771; 32772; 32773; 32774; 32779; 32780; 32784; 32786; 32789; 32791; 32792; 32793; 32796; 32801; 32808; 32819; 32822; 32827; 32829; 32831; 32838; 32842; 32850; 32854; 32856; 32858; 32862; 32863; 32865; 32866; 32872; 32879; 32880; 32882; 32883; 32884; 32886; 32887; 32889; 32893; 32894; 32895; 32900; 32901; 32902; 32903; 32905; 32907; 32908; 32915; 32918; 32920; 32922; 32923; 32925; 32929; 32930; 32933; 32937; 32938; 32940; 32941; 32943; 32945; 32946; 32948; 32954; 32963; 32964; 32966; 32972; 32974; 32982; 32985; 32986; 32987; 32989; 32990; 32993; 32996; 32997; 33007; 33009; 33012; 33016; 33020; 33021; 33026; 33029; 33030; 33031; 33032; 33033; 33034];
  [33050; 33051; 33059; 33065; 33071; 33073; 33075; 33081; 33086; 33094; 33099; 33102; 33104; 33105; 33107; 33108; 33109; 33119; 33125; 33126; 33131; 33134; 33136; 33137; 33140; 33144; 33145; 33146; 33151; 33152; 33154; 33155; 33160; 33162; 33167; 33171; 33173; 33178; 33180; 33181; 33184; 33187; 33188; 33192; 33193; 33200; 33203; 33205; 33208; 33210; 33213; 33214; 33215; 33216; 33218; 33222; 33224; 33225; 33229; 33233; 33235; 33240; 33241; 33242; 33247; 33248; 33251; 33253; 33255; 33256; 33258; 33261; 33267; 33268; 33274; 33275; 33276; 33278; 33281; 33282; 33285; 33287; 33288; 33289; 33290; 33292; 33293; 33294; 33296; 33298; 33302; 33303; 33304; 33307; 33308; 33310; 33311; 33321; 33322; 33323];
  [33324; 33326; 33331; 33333; 33334; 33335; 33336; 33337; 33344; 33351; 33368; 33369; 33370; 33373; 33375; 33378; 33380; 33382; 33384; 33386; 33387; 33390; 33391; 33393; 33394; 33398; 33399; 33400; 33406; 33419; 33421; 33426; 33433; 33437; 33439; 33445; 33446; 33451; 33452; 33453; 33455; 33457; 33459; 33464; 33465; 33467; 33469; 33477; 33489; 33490; 33491; 33492; 33495; 33497; 33499; 33500; 33502; 33503; 33505; 33507; 33509; 33510; 33511; 33515; 33521; 33523; 33524; 33529; 33530; 33531; 33537; 33538; 33539; 33540; 33541; 33542; 33545; 33550; 33558; 33559; 33560; 33564; 33571; 33576; 33579; 33583; 33585; 33586; 33588; 33589; 33590; 33592; 33593; 33600; 33605; 33609; 33610; 33615; 33616; 33618];
  [33624; 33634; 33651; 33653; 33655; 33659; 33660; 33663; 33669; 33671; 33673; 33674; 33678; 33683; 33686; 33690; 33694; 33695; 33696; 33698; 33704; 33706; 33707; 33713; 33717; 33725; 33729; 33733; 33735; 33738; 33740; 33742; 33747; 33750; 33752; 33756; 33759; 33760; 33769; 33771; 33775; 33776; 33777; 33778; 33780; 33782; 33783; 33787; 33789; 33795; 33796; 33799; 33803; 33804; 33805; 33806; 33811; 33824; 33826; 33833; 33834; 33836; 33841; 33845; 33848; 33852; 33853; 33862; 33864; 33865; 33870; 33879; 33883; 33889; 33890; 33891; 33894; 33897; 33899; 33900; 33901; 33902; 33903; 33905; 33909; 33911; 33913; 33914; 33922; 33924; 33931; 33936; 33940; 33945; 33948; 33951; 33953; 33965; 33970; 33972];
  [33976; 33977; 33979; 33980; 33983; 33985; 33988; 33990; 33993; 33994; 33995; 33997; 34000; 34001; 34006; 34009; 34010; 34012; 34028; 34030; 34036; 34044; 34047; 34048; 34054; 34065; 34067; 34068; 34069; 34071; 34072; 34074; 34079; 34081; 34086; 34092; 34093; 34101; 34109; 34112; 34113; 34115; 34120; 34121; 34122; 34123; 34126; 34131; 34133; 34135; 34136; 34137; 34138; 34147; 34152; 34153; 34154; 34155; 34157; 34167; 34174; 34176; 34180; 34183; 34184; 34186; 34192; 34193; 34196; 34199; 34201; 34203; 34204; 34212; 34214; 34216; 34217; 34218; 34219; 34220; 34222; 34223; 34224; 34233; 34234; 34241; 34249; 34253; 34255; 34256; 34261; 34268; 34269; 34276; 34277; 34281; 34282; 34295; 34297; 34298];
  [34299; 34302; 34306; 34310; 34311; 34314; 34315; 34323; 34326; 34327; 34330; 34338; 34349; 34351; 34352; 34367; 34381; 34382; 34384; 34388; 34389; 34394; 34396; 34398; 34399; 34407; 34411; 34417; 34425; 34427; 34442; 34443; 34444; 34451; 34453; 34467; 34468; 34473; 34474; 34475; 34479; 34480; 34486; 34500; 34502; 34503; 34505; 34507; 34509; 34510; 34516; 34521; 34523; 34526; 34527; 34532; 34537; 34540; 34541; 34542; 34543; 34552; 34553; 34555; 34558; 34560; 34562; 34563; 34566; 34568; 34569; 34570; 34573; 34577; 34578; 34584; 34586; 34588; 34597; 34601; 34612; 34615; 34619; 34623; 34633; 34635; 34636; 34638; 34643; 34645; 34647; 34649; 34655; 34656; 34659; 34662; 34664; 34666; 34670; 34676];
  [34678; 34680; 34687; 34690; 34701; 34719; 34722; 34731; 34735; 34739; 34746; 34747; 34749; 34752; 34756; 34758; 34759; 34763; 34768; 34770; 34784; 34799; 34802; 34806; 34807; 34809; 34811; 34814; 34821; 34823; 34829; 34830; 34831; 34833; 34837; 34838; 34849; 34850; 34851; 34855; 34865; 34870; 34873; 34875; 34880; 34882; 34884; 34886; 34892; 34893; 34898; 34899; 34903; 34905; 34907; 34909; 34910; 34913; 34914; 34915; 34920; 34923; 34928; 34930; 34933; 34935; 34941; 34942; 34943; 34945; 34946; 34952; 34955; 34957; 34962; 34966; 34967; 34969; 34974; 34978; 34980; 34987; 34990; 34992; 34993; 34996; 34997; 34999; 35007; 35009; 35010; 35011; 35012; 35013; 35023; 35028; 35029; 35032; 35033; 35036];
  [35037; 35039; 35041; 35048; 35058; 35059; 35060; 35061; 35064; 35065; 35068; 35069; 35070; 35074; 35076; 35079; 35082; 35084; 35088; 35090; 35091; 35100; 35101; 35102; 35109; 35114; 35115; 35126; 35128; 35131; 35137; 35139; 35140; 35148; 35149; 35158; 35166; 35167; 35168; 35172; 35174; 35178; 35181; 35183; 35186; 35188; 35191; 35198; 35199; 35201; 35203; 35206; 35207; 35208; 35210; 35211; 35215; 35219; 35222; 35223; 35224; 35226; 35233; 35238; 35239; 35241; 35242; 35244; 35247; 35250; 35251; 35258; 35261; 35263; 35264; 35282; 35290; 35292; 35293; 35299; 35302; 35303; 35316; 35320; 35328; 35330; 35331; 35336; 35338; 35340; 35342; 35344; 35346; 35347; 35350; 35351; 35352; 35355; 35357; 35359];
  [35363; 35365; 35370; 35373; 35377; 35379; 35380; 35382; 35383; 35386; 35387; 35388; 35393; 35398; 35400; 35408; 35409; 35410; 35412; 35413; 35419; 35422; 35424; 35426; 35427; 35430; 35433; 35435; 35436; 35437; 35438; 35440; 35441; 35442; 35443; 35449; 35452; 35458; 35460; 35461; 35463; 35465; 35468; 35469; 35473; 35475; 35477; 35480; 35482; 35486; 35488; 35489; 35491; 35492; 35493; 35494; 35495; 35496; 35500; 35501; 35504; 35506; 35513; 35516; 35518; 35519; 35522; 35524; 35527; 35531; 35532; 35533; 35535; 35538; 35542; 35546; 35547; 35548; 35550; 35551; 35552; 35553; 35554; 35556; 35558; 35559; 35563; 35565; 35566; 35569; 35571; 35574; 35575; 35576; 35578; 35582; 35584; 35585; 35586; 35588];
  [35591; 35596; 35598; 35600; 35604; 35606; 35607; 35609; 35610; 35611; 35613; 35616; 35617; 35622; 35624; 35627; 35628; 35635; 35641; 35646; 35649; 35657; 35660; 35662; 35663; 35667; 35670; 35672; 35674; 35675; 35676; 35679; 35686; 35691; 35692; 35695; 35696; 35697; 35698; 35700; 35703; 35709; 35711; 35712; 35715; 35722; 35724; 35726; 35728; 35730; 35731; 35734; 35737; 35738; 35895; 35898; 35903; 35905; 35910; 35912; 35914; 35916; 35918; 35920; 35925; 35930; 35937; 35938; 35946; 35947; 35948; 35960; 35961; 35962; 35964; 35970; 35973; 35977; 35978; 35980; 35981; 35982; 35988; 35992; 35997; 35998; 36000; 36001; 36002; 36007; 36008; 36009; 36010; 36011; 36012; 36013; 36014; 36015; 36016; 36018];
  [36019; 36020; 36022; 36023; 36024; 36027; 36028; 36029; 36031; 36032; 36033; 36034; 36035; 36036; 36039; 36040; 36042; 36045; 36046; 36049; 36051; 36058; 36059; 36060; 36062; 36064; 36066; 36067; 36068; 36070; 36074; 36077; 36080; 36084; 36090; 36091; 36092; 36093; 36100; 36101; 36103; 36104; 36106; 36107; 36109; 36111; 36112; 36114; 36115; 36116; 36118; 36196; 36198; 36199; 36203; 36205; 36208; 36209; 36211; 36212; 36214; 36215; 36225; 36229; 36234; 36249; 36259; 36264; 36275; 36282; 36286; 36290; 36299; 36300; 36303; 36310; 36314; 36315; 36317; 36319; 36321; 36323; 36328; 36330; 36331; 36335; 36339; 36341; 36348; 36351; 36360; 36361; 36362; 36367; 36368; 36381; 36382; 36383; 36394; 36400];
  [36404; 36405; 36418; 36420; 36423; 36424; 36425; 36426; 36428; 36432; 36437; 36441; 36447; 36448; 36451; 36452; 36466; 36468; 36470; 36476; 36481; 36484; 36485; 36487; 36490; 36491; 36493; 36497; 36499; 36500; 36505; 36513; 36522; 36523; 36524; 36527; 36528; 36529; 36542; 36549; 36550; 36552; 36554; 36555; 36556; 36557; 36559; 36562; 36571; 36575; 36578; 36579; 36587; 36600; 36603; 36604; 36605; 36606; 36611; 36613; 36617; 36618; 36620; 36626; 36627; 36628; 36629; 36633; 36635; 36636; 36637; 36639; 36646; 36649; 36650; 36655; 36659; 36664; 36665; 36667; 36670; 36671; 36674; 36676; 36677; 36678; 36681; 36684; 36685; 36686; 36695; 36700; 36703; 36705; 36706; 36707; 36708; 36763; 36764; 36766];
  [36767; 36771; 36775; 36776; 36781; 36782; 36783; 36784; 36785; 36786; 36791; 36794; 36795; 36796; 36799; 36802; 36804; 36805; 36814; 36817; 36820; 36826; 36834; 36837; 36838; 36841; 36842; 36843; 36845; 36847; 36848; 36852; 36855; 36856; 36857; 36858; 36861; 36864; 36865; 36867; 36869; 36870; 36875; 36877; 36878; 36879; 36880; 36881; 36883; 36884; 36885; 36886; 36887; 36889; 36890; 36893; 36894; 36895; 36896; 36897; 36898; 36899; 36903; 36910; 36913; 36914; 36917; 36918; 36920; 36921; 36924; 36926; 36929; 36930; 36933; 36935; 36937; 36938; 36939; 36941; 36942; 36943; 36944; 36945; 36946; 36947; 36948; 36949; 36950; 36952; 36953; 36956; 36958; 36960; 36961; 36963; 36965; 36967; 36968; 36969];
  [36973; 36974; 36975; 36978; 36981; 36982; 36983; 36984; 36986; 36988; 36989; 36991; 36992; 36993; 36994; 36995; 36996; 36999; 37001; 37002; 37007; 37009; 37027; 37030; 37032; 37034; 37039; 37041; 37045; 37048; 37057; 37066; 37070; 37083; 37086; 37089; 37090; 37092; 37096; 37101; 37109; 37111; 37117; 37122; 37138; 37141; 37145; 37159; 37165; 37168; 37170; 37193; 37194; 37195; 37196; 37197; 37198; 37202; 37204; 37206; 37208; 37218; 37219; 37221; 37225; 37226; 37228; 37234; 37235; 37237; 37239; 37240; 37250; 37255; 37257; 37259; 37261; 37264; 37266; 37271; 37276; 37282; 37284; 37290; 37291; 37295; 37300; 37301; 37304; 37306; 37312; 37313; 37318; 37319; 37320; 37321; 37323; 37324; 37325; 37326];
  [37327; 37328; 37329; 37334; 37335; 37336; 37338; 37339; 37340; 37341; 37342; 37343; 37345; 37347; 37348; 37349; 37350; 37351; 37357; 37358; 37365; 37366; 37372; 37375; 37382; 37386; 37389; 37390; 37392; 37393; 37396; 37397; 37406; 37417; 37420; 37428; 37431; 37433; 37434; 37436; 37439; 37440; 37444; 37445; 37448; 37449; 37451; 37454; 37456; 37457; 37463; 37465; 37466; 37467; 37470; 37474; 37476; 37478; 37479; 37489; 37495; 37496; 37502; 37504; 37507; 37509; 37512; 37521; 37523; 37525; 37526; 37528; 37530; 37531; 37532; 37543; 37549; 37559; 37561; 37583; 37584; 37586; 37587; 37589; 37591; 37593; 37600; 37604; 37607; 37609; 37610; 37613; 37618; 37619; 37624; 37625; 37626; 37627; 37628; 37631];
  [37634; 37638; 37647; 37648; 37656; 37657; 37658; 37661; 37662; 37664; 37665; 37666; 37667; 37669; 37670; 37672; 37675; 37676; 37678; 37679; 37682; 37685; 37690; 37691; 37700; 37704; 37707; 37709; 37716; 37718; 37719; 37723; 37724; 37728; 37740; 37742; 37744; 37749; 37756; 37758; 37772; 37780; 37782; 37783; 37786; 37796; 37799; 37804; 37805; 37806; 37808; 37817; 37827; 37830; 37832; 37840; 37841; 37846; 37847; 37848; 37853; 37854; 37857; 37860; 37861; 37864; 37880; 37891; 37895; 37904; 37907; 37908; 37912; 37913; 37914; 37921; 37931; 37937; 37941; 37942; 37944; 37946; 37953; 37956; 37957; 37960; 37969; 37970; 37971; 37978; 37979; 37982; 37984; 37986; 37994; 38000; 38005; 38007; 38012; 38013];
  [38014; 38015; 38017; 38263; 38272; 38274; 38275; 38279; 38281; 38282; 38283; 38287; 38289; 38290; 38291; 38292; 38294; 38296; 38297; 38304; 38306; 38307; 38308; 38309; 38311; 38312; 38317; 38322; 38329; 38331; 38332; 38334; 38339; 38343; 38346; 38348; 38349; 38356; 38357; 38358; 38360; 38364; 38369; 38370; 38373; 38428; 38433; 38440; 38442; 38446; 38447; 38450; 38459; 38463; 38464; 38466; 38468; 38475; 38476; 38477; 38479; 38480; 38491; 38492; 38493; 38494; 38495; 38498; 38499; 38500; 38501; 38502; 38506; 38508; 38512; 38514; 38515; 38517; 38518; 38519; 38520; 38522; 38525; 38533; 38534; 38536; 38538; 38539; 38541; 38542; 38543; 38548; 38549; 38551; 38552; 38553; 38555; 38556; 38557; 38560];
  [38563; 38567; 38568; 38570; 38575; 38576; 38577; 38578; 38580; 38582; 38583; 38584; 38585; 38587; 38588; 38592; 38593; 38596; 38597; 38598; 38599; 38601; 38603; 38604; 38605; 38606; 38609; 38613; 38614; 38617; 38619; 38620; 38626; 38627; 38632; 38634; 38635; 38640; 38642; 38646; 38647; 38649; 38651; 38656; 38660; 38662; 38663; 38664; 38666; 38669; 38670; 38671; 38673; 38675; 38678; 38681; 38684; 38686; 38692; 38695; 38698; 38704; 38706; 38707; 38712; 38713; 38715; 38717; 38718; 38722; 38723; 38724; 38726; 38728; 38729; 38733; 38735; 38737; 38738; 38741; 38742; 38745; 38748; 38750; 38752; 38753; 38754; 38756; 38758; 38760; 38761; 38763; 38765; 38769; 38772; 38777; 38778; 38780; 38785; 38788];
  [38789; 38790; 38795; 38797; 38799; 38800; 38808; 38812; 38816; 38819; 38822; 38824; 38827; 38829; 38835; 38836; 38851; 38854; 38856; 38859; 38867; 38876; 38893; 38894; 38898; 38899; 38901; 38902; 38907; 38911; 38913; 38914; 38915; 38917; 38918; 38920; 38924; 38927; 38928; 38929; 38930; 38931; 38935; 38936; 38938; 38945; 38948; 38956; 38957; 38964; 38967; 38968; 38971; 38972; 38973; 38982; 38987; 38988; 38989; 38990; 38991; 38996; 38997; 38999; 39000; 39003; 39006; 39013; 39015; 39019; 39023; 39024; 39025; 39027; 39028; 39080; 39082; 39087; 39089; 39094; 39107; 39108; 39110; 39131; 39132; 39135; 39138; 39145; 39147; 39149; 39150; 39151; 39154; 39156; 39164; 39165; 39166; 39171; 39173; 39177];
  [39178; 39180; 39184; 39186; 39187; 39188; 39192; 39197; 39198; 39200; 39201; 39204; 39207; 39208; 39212; 39214; 39229; 39230; 39234; 39237; 39241; 39243; 39244; 39248; 39249; 39250; 39253; 39255; 39318; 39319; 39320; 39321; 39326; 39333; 39336; 39340; 39341; 39342; 39347; 39348; 39356; 39361; 39364; 39365; 39366; 39368; 39376; 39377; 39378; 39381; 39384; 39387; 39389; 39391; 39394; 39405; 39406; 39409; 39410; 39416; 39419; 39423; 39425; 39429; 39438; 39439; 39442; 39443; 39449; 39464; 39467; 39472; 39479; 39486; 39488; 39490; 39491; 39493; 39501; 39502; 39509; 39511; 39514; 39515; 39519; 39522; 39524; 39525; 39529; 39530; 39531; 39592; 39597; 39600; 39608; 39612; 39616; 39620; 39631; 39633];
  [39635; 39636; 39640; 39641; 39644; 39646; 39647; 39650; 39651; 39654; 39658; 39659; 39661; 39662; 39663; 39665; 39668; 39671; 39675; 39686; 39704; 39706; 39711; 39714; 39715; 39717; 39719; 39720; 39721; 39722; 39726; 39727; 39729; 39730; 39739; 39740; 39745; 39746; 39747; 39748; 39749; 39757; 39758; 39759; 39761; 39764; 39768; 39770; 39791; 39794; 39796; 39797; 39811; 39822; 39823; 39825; 39826; 39827; 39830; 39831; 39839; 39840; 39848; 39850; 39851; 39853; 39854; 39857; 39860; 39865; 39867; 39872; 39878; 39881; 39882; 39887; 39889; 39890; 39892; 39894; 39899; 39905; 39906; 39907; 39908; 39912; 39920; 39921; 39922; 39925; 39936; 39940; 39942; 39944; 39945; 39946; 39948; 39949; 39952; 39954];
  [39955; 39956; 39957; 39963; 39969; 39972; 39973; 39981; 39982; 39983; 39984; 39986; 39993; 39994; 39995; 39998; 40006; 40007; 40008; 40018; 40023; 40026; 40032; 40039; 40054; 40056; 40165; 40167; 40169; 40171; 40172; 40176; 40179; 40180; 40182; 40195; 40198; 40199; 40200; 40201; 40206; 40210; 40213; 40219; 40223; 40227; 40230; 40232; 40234; 40235; 40236; 40251; 40254; 40255; 40257; 40260; 40262; 40264; 40272; 40273; 40281; 40284; 40285; 40286; 40288; 40289; 40292; 40299; 40300; 40303; 40304; 40306; 40314; 40327; 40329; 40335; 40346; 40356; 40361; 40363; 40367; 40370; 40372; 40376; 40378; 40379; 40385; 40386; 40388; 40390; 40399; 40403; 40409; 40422; 40429; 40431; 40434; 40440; 40441; 40442];
  [40445; 40473; 40474; 40475; 40478; 40565; 40568; 40569; 40573; 40575; 40577; 40584; 40587; 40588; 40593; 40594; 40595; 40597; 40599; 40605; 40607; 40613; 40614; 40617; 40618; 40621; 40632; 40633; 40634; 40635; 40636; 40638; 40639; 40644; 40652; 40653; 40654; 40655; 40656; 40657; 40658; 40660; 40664; 40665; 40667; 40668; 40669; 40670; 40672; 40677; 40680; 40687; 40692; 40694; 40695; 40697; 40699; 40700; 40701; 40711; 40712; 40718; 40723; 40725; 40736; 40737; 40748; 40763; 40766; 40778; 40779; 40782; 40783; 40786; 40788; 40799; 40800; 40801; 40802; 40803; 40806; 40807; 40810; 40812; 40818; 40822; 40823; 40845; 40853; 40860; 40861; 40864; 63785; 63964; 64014; 64015; 64016; 64017; 64018; 64019];
  [64020; 64021; 64022; 64023; 64024; 64025; 64026; 64027; 64028; 64029; 64030; 64031; 64032; 64033; 64034; 64035; 64036; 64037; 64038; 64039; 64040; 64041; 64042; 64043; 64044; 64045; 65281; 65282; 65283; 65284; 65285; 65286; 65287; 65288; 65289; 65290; 65291; 65292; 65293; 65294; 65295; 65296; 65297; 65298; 65299; 65300; 65301; 65302; 65303; 65304; 65305; 65306; 65307; 65308; 65309; 65310; 65311; 65312; 65313; 65314; 65315; 65316; 65317; 65318; 65319; 65320; 65321; 65322; 65323; 65324; 65325; 65326; 65327; 65328; 65329; 65330; 65331; 65332; 65333; 65334; 65335; 65336; 65337; 65338; 65339; 65340; 65341; 65342; 65343; 65344; 65345; 65346; 65347; 65348; 65349; 65350; 65351; 65352; 65353; 65354];
  [65355; 65356; 65357; 65358; 65359; 65360; 65361; 65362; 65363; 65364; 65365; 65366; 65367; 65368; 65369; 65370; 65371; 65372; 65373; 65374; 65504; 65505; 65506; 65507; 65508; 65509]].

(** indexes_pointer.cpp:15 *)
Definition index_pointer_jis0208_1 : list Z := concat [
  [87; 14; 74; 61; 12; 182; 62; 63; 470; 471; 472; 473; 474; 475; 476; 477; 478; 479; 480; 481; 482; 483; 484; 485; 486; 487; 488; 489; 490; 491; 492; 493; 502; 503; 504; 505; 506; 507; 508; 509; 510; 511; 512; 513; 514; 515; 516; 517; 518; 519; 520; 521; 522; 523; 524; 525; 570; 564; 565; 566; 567; 568; 569; 571; 572; 573; 574; 575; 576; 577; 578; 579; 580; 581; 582; 583; 584; 585; 586; 587; 588; 589; 590; 591; 592; 593; 594; 595; 596; 612; 613; 614; 615; 616; 617; 619; 620; 621; 622; 623];
  [624; 625; 626; 627; 628; 629; 630; 631; 632; 633; 634; 635; 636; 637; 638; 639; 640; 641; 642; 643; 644; 618; 29; 28; 37; 38; 39; 40; 180; 181; 36; 35; 176; 75; 76; 101; 77; 1193; 1195; 175; 1148; 1149; 1150; 1151; 1152; 1153; 1154; 1155; 1156; 1157; 8634; 8635; 8636; 8637; 8638; 8639; 8640; 8641; 8642; 8643; 104; 105; 103; 106; 138; 139; 140; 156; 141; 157; 119; 120; 1211; 162; 164; 70; 1215; 153; 33; 135; 136; 126; 125; 166; 167; 1210; 71; 165; 163; 159; 65; 158; 68; 69; 160; 161; 123; 124; 121; 122];
  [154; 1216; 155; 1128; 1129; 1130; 1131; 1132; 1133; 1134; 1135; 1136; 1137; 1138; 1139; 1140; 1141; 1142; 1143; 1144; 1145; 1146; 1147; 658; 669; 659; 670; 660; 671; 661; 672; 663; 674; 662; 673; 664; 685; 680; 675; 666; 687; 682; 677; 665; 681; 686; 676; 667; 683; 688; 678; 668; 684; 689; 679; 96; 95; 98; 97; 100; 99; 94; 93; 90; 92; 91; 187; 89; 88; 73; 72; 179; 178; 177; 0; 1; 2; 22; 24; 25; 26; 49; 50; 51; 52; 53; 54; 55; 56; 57; 58; 102; 107; 43; 44; 1191; 1192; 282; 283; 284];
  [285; 286; 287; 288; 289; 290; 291; 292; 293; 294; 295; 296; 297; 298; 299; 300; 301; 302; 303; 304; 305; 306; 307; 308; 309; 310; 311; 312; 313; 314; 315; 316; 317; 318; 319; 320; 321; 322; 323; 324; 325; 326; 327; 328; 329; 330; 331; 332; 333; 334; 335; 336; 337; 338; 339; 340; 341; 342; 343; 344; 345; 346; 347; 348; 349; 350; 351; 352; 353; 354; 355; 356; 357; 358; 359; 360; 361; 362; 363; 364; 10; 11; 20; 21; 376; 377; 378; 379; 380; 381; 382; 383; 384; 385; 386; 387; 388; 389; 390; 391];
  [392; 393; 394; 395; 396; 397; 398; 399; 400; 401; 402; 403; 404; 405; 406; 407; 408; 409; 410; 411; 412; 413; 414; 415; 416; 417; 418; 419; 420; 421; 422; 423; 424; 425; 426; 427; 428; 429; 430; 431; 432; 433; 434; 435; 436; 437; 438; 439; 440; 441; 442; 443; 444; 445; 446; 447; 448; 449; 450; 451; 452; 453; 454; 455; 456; 457; 458; 459; 460; 461; 5; 27; 18; 19; 1201; 1202; 1203; 1196; 1197; 1198; 1199; 1200; 1165; 1169; 1160; 1163; 1161; 1171; 1170; 1164; 1172; 1166; 1174; 1159; 1173; 1162; 1167; 1168; 1190; 1206];
  [1205; 1204; 1178; 1179; 1175; 1176; 1177; 1181; 1180; 1194; 1485; 3285; 2560; 4039; 2795; 2459; 2794; 1625; 3811; 4166; 4419; 1518; 1769; 4420; 2917; 4639; 1933; 3879; 2796; 4259; 3887; 8284; 4421; 3265; 4422; 2063; 4423; 1846; 3211; 2608; 4424; 4425; 4426; 3592; 1934; 3594; 3544; 2196; 3966; 6808; 4427; 2797; 4428; 1618; 2042; 2241; 4114; 4987; 4215; 3570; 1790; 1900; 4429; 4430; 4256; 4164; 3079; 4432; 2529; 3560; 4435; 1533; 2224; 2223; 1479; 4366; 4365; 2368; 1410; 4436; 4437; 4438; 3967; 4439; 2243; 1480; 4029; 1971; 1972; 1973; 3355; 4257; 4440; 4441; 4442; 2864; 2657; 2865; 4447; 4445];
  [4446; 1935; 2352; 1677; 4444; 4443; 3862; 2481; 2480; 3131; 4448; 3812; 2984; 23; 4449; 4451; 8285; 3170; 4294; 1451; 4450; 1627; 2009; 3266; 2146; 4452; 3575; 8286; 8287; 1860; 8288; 4453; 1452; 2225; 1861; 3849; 3683; 1936; 1678; 4488; 3416; 3647; 4455; 3693; 4295; 2832; 8289; 2482; 2530; 1629; 3338; 3197; 4459; 1453; 3356; 2658; 2369; 4139; 3147; 1628; 8290; 4458; 4165; 4454; 4456; 2427; 4457; 4891; 4465; 4468; 4466; 1631; 3880; 4460; 4464; 2244; 2483; 1791; 4469; 4461; 8292; 4296; 2531; 4462; 4467; 8291; 8294; 4470; 4463; 8293; 1974; 1454; 1975; 1630; 4892; 4036; 3837; 2245; 2834; 4252];
  [3909; 2091; 3106; 1665; 8277; 2682; 8295; 4474; 4479; 4477; 4472; 3116; 4475; 4478; 4476; 3914; 4473; 2833; 4030; 4480; 4481; 2635; 4494; 3619; 3781; 4489; 3933; 1619; 4493; 8298; 4487; 4496; 3057; 2197; 3631; 5960; 4495; 3444; 4484; 2247; 2246; 4482; 8299; 2595; 4490; 8297; 3932; 3240; 4486; 2148; 4483; 4491; 4485; 4278; 4492; 4356; 2043; 2147; 8296; 8302; 4497; 8300; 4498; 4502; 1455; 3901; 4501; 4500; 4504; 4503; 3357; 2149; 4505; 8301; 2574; 3107; 3358; 2059; 4506; 1901; 4507; 4509; 3968; 2137; 8303; 2460; 3752; 4508; 2386; 4170; 4511; 4514; 4510; 2385; 2724; 2092; 4515; 2020; 4512; 4513];
  [3492; 3099; 1976; 3992; 4516; 8305; 4258; 4517; 4520; 4518; 3053; 4519; 4521; 8304; 4523; 4522; 3893; 1902; 4525; 4526; 1612; 4524; 2621; 4529; 4528; 4527; 4471; 4530; 2725; 4531; 4140; 4098; 4533; 4532; 4535; 4534; 4536; 4537; 1493; 2182; 2094; 2659; 3286; 1977; 2985; 2248; 8306; 2333; 4539; 4081; 3421; 2532; 4538; 4540; 3445; 1776; 4541; 8307; 3571; 3027; 4543; 4544; 3677; 2249; 4350; 4545; 1979; 3881; 3123; 2054; 3404; 2150; 4546; 4547; 3543; 1566; 4550; 2442; 4549; 2387; 4551; 6563; 4552; 3980; 4553; 4554; 4555; 2798; 2581; 8308; 1792; 4558; 4556; 4070; 4557; 3817; 4559; 4560; 4561; 3446];
  [4565; 4563; 4564; 4562; 2416; 4566; 4115; 4297; 4567; 8309; 2921; 4568; 2689; 4569; 3287; 4260; 3447; 4642; 4570; 7806; 2010; 4571; 4009; 2703; 3193; 4573; 3545; 8310; 4574; 4575; 1705; 4576; 1980; 3521; 1593; 2679; 3666; 4577; 3448; 2866; 4578; 3865; 2971; 1787; 1794; 4579; 4581; 2093; 4580; 8311; 4312; 2704; 3694; 3897; 4582; 4223; 4583; 4584; 3477; 4585; 2922; 2443; 2151; 4586; 2484; 2334; 3359; 4588; 3108; 2428; 4589; 4590; 3023; 4587; 4592; 3969; 2323; 4591; 2152; 2411; 3648; 4595; 4593; 3850; 2799; 4602; 1759; 4596; 4594; 3054; 4598; 4597; 1727; 2131; 4603; 4242; 4599; 4604; 4601; 4600];
  [4276; 8312; 2250; 1632; 4313; 8313; 2716; 3439; 2324; 4607; 4608; 8487; 4298; 4334; 4610; 2251; 4609; 1706; 8314; 4611; 4001; 3317; 4141; 3910; 4612; 7478; 3493; 4613; 1795; 4060; 8315; 2726; 4614; 3924; 4618; 2923; 4615; 2021; 4616; 1796; 2081; 4619; 4620; 4621; 4622; 2596; 2252; 4103; 8316; 4113; 3564; 3934; 4623; 8317; 4624; 4626; 4628; 4627; 4629; 1626; 3991; 2441; 4630; 3064; 2727; 1982; 4631; 8318; 3724; 4632; 4633; 4634; 4635; 3763; 2045; 1478; 3508; 4636; 2660; 2986; 4638; 4637; 2728; 2226; 4640; 3695; 4641; 3725; 3121; 3179; 1981; 3555; 3212; 3649; 3993; 4643; 2987; 2088; 4644; 4645];
  [1515; 1494; 1862; 8319; 3109; 1928; 4216; 4648; 1620; 4647; 1983; 4649; 4122; 8320; 4650; 4279; 2253; 2183; 4651; 4653; 4652; 2882; 1528; 1565; 4654; 4655; 8321; 2184; 4656; 1957; 2461; 4657; 4031; 2370; 1937; 4142; 3055; 3696; 2630; 2670; 2609; 2622; 2717; 3697; 8322; 4660; 1538; 3056; 2254; 2198; 2044; 4664; 3196; 3195; 1984; 2729; 4665; 4663; 1633; 3171; 2561; 2486; 1509; 1771; 2325; 2485; 4666; 4667; 1920; 1729; 2326; 1919; 3352; 1508; 3494; 4071; 2256; 4224; 3422; 2255; 2082; 4676; 2040; 3989; 3726; 4675; 1847; 4670; 4671; 4673; 4674; 1938; 2884; 3866; 4672; 4668; 2228; 4669; 4327; 3935];
  [3361; 2227; 2335; 4677; 3538; 4681; 2631; 2623; 4684; 4682; 4044; 4679; 4688; 4683; 4686; 2199; 4072; 4687; 4689; 4691; 8325; 2429; 4357; 4680; 4678; 4690; 4685; 8324; 4693; 4702; 4695; 4699; 8326; 4700; 4696; 4729; 2422; 1708; 4694; 4704; 1495; 4703; 1414; 3801; 4701; 4697; 4692; 4698; 2389; 4705; 1496; 4714; 4706; 4707; 2730; 4020; 4712; 4711; 3398; 4713; 4710; 8327; 1523; 2371; 2835; 4708; 3449; 4709; 1411; 4719; 4138; 2732; 4725; 4724; 4715; 3136; 4716; 3180; 4721; 2731; 4718; 4109; 2095; 4722; 4723; 4720; 4726; 4717; 4732; 4737; 4733; 4728; 4738; 3024; 8328; 4740; 2257; 4730; 3288; 4734];
  [4727; 1798; 1863; 1760; 4735; 4731; 2153; 4741; 4739; 3058; 1921; 1985; 4736; 2057; 1539; 4745; 4743; 4800; 4748; 4742; 4746; 4744; 2487; 4747; 4750; 4755; 4753; 4752; 3213; 1634; 4749; 4751; 2733; 1522; 4754; 1659; 4765; 2817; 4761; 4759; 4760; 4762; 1532; 3032; 4756; 4757; 1781; 4764; 1864; 4767; 4763; 4766; 3867; 3530; 3689; 4769; 4768; 1728; 4770; 4773; 4772; 4771; 3596; 4774; 4775; 4777; 4776; 4779; 4782; 4780; 4778; 4781; 4783; 4784; 4785; 4786; 4787; 4548; 2629; 2488; 1680; 1497; 3231; 4788; 2353; 1456; 2881; 4789; 2200; 2336; 4791; 4790; 3917; 4792; 4794; 4793; 4795; 4796; 2154; 1567];
  [4797; 4799; 4798; 4801; 3441; 4802; 1430; 2412; 2096; 3242; 4803; 4804; 4806; 4807; 2417; 2022; 3970; 4805; 4808; 2382; 2258; 8329; 4812; 2354; 8330; 3214; 4809; 3347; 4813; 2885; 4811; 4814; 2098; 4815; 4816; 2259; 1723; 4818; 4819; 8331; 4820; 4817; 4810; 4821; 4822; 8333; 8332; 4015; 2800; 4824; 4825; 4823; 4827; 3595; 1481; 3813; 4828; 2818; 2562; 3632; 1865; 2424; 4004; 3495; 2155; 3148; 4826; 4829; 3137; 4830; 4831; 4833; 3362; 1799; 7802; 1568; 3936; 2801; 3423; 2419; 4839; 3882; 4290; 1681; 4835; 3033; 4838; 3450; 3424; 3451; 3690; 3334; 2390; 4834; 1589; 3405; 4836; 4832; 2867; 4840];
  [2677; 1986; 4841; 3925; 3100; 3327; 8336; 4843; 3994; 4844; 4849; 8337; 3868; 4848; 4842; 4845; 4847; 2355; 3894; 4850; 3232; 1682; 2802; 4852; 4851; 2327; 4853; 4855; 4854; 4857; 4846; 4859; 4858; 4856; 2489; 2868; 3059; 4860; 2941; 1486; 3639; 3348; 4862; 4861; 4863; 4864; 4865; 4866; 3902; 4867; 8338; 1635; 4868; 4163; 1707; 4646; 2671; 3132; 4869; 4116; 4061; 4871; 3172; 3406; 3133; 3814; 4872; 4873; 1594; 2563; 4874; 1457; 4875; 4876; 1569; 1866; 3541; 3937; 4880; 3060; 4879; 2099; 8339; 4006; 4878; 3452; 4882; 4881; 8340; 8341; 4884; 4883; 8342; 1595; 4885; 2734; 4887; 3200; 4886; 3872];
  [2718; 3442; 4888; 2260; 4889; 3572; 3727; 4090; 3576; 4898; 1903; 4172; 4056; 4993; 4890; 4893; 8343; 3138; 3971; 3425; 4894; 4016; 8344; 2391; 2735; 4895; 2491; 2490; 1434; 2201; 2924; 1458; 4899; 4900; 4897; 1527; 1800; 4896; 4078; 3776; 1417; 1498; 2492; 1459; 1412; 4905; 4903; 4069; 4906; 4904; 4902; 2836; 4901; 3911; 2229; 4910; 4911; 2736; 4907; 4335; 3615; 4909; 2356; 4912; 3815; 4913; 4908; 4068; 3633; 4914; 3777; 4915; 4919; 4916; 1636; 4918; 2564; 4917; 2156; 4931; 4924; 4921; 3263; 4920; 4922; 4923; 4925; 4926; 1867; 4928; 4927; 4929; 2803; 4932; 3349; 1540; 4930; 4933; 4934; 4937];
  [4935; 4936; 2493; 4938; 2261; 4939; 8345; 2533; 3125; 4940; 4941; 2501; 2262; 4091; 1887; 2202; 4942; 1747; 4943; 3126; 4944; 4984; 4945; 4946; 4947; 4949; 4950; 4951; 3181; 1510; 2610; 1443; 3062; 1801; 2558; 2263; 3453; 2632; 1802; 3267; 3363; 1433; 1904; 3938; 2571; 1929; 2988; 2565; 4143; 4952; 1939; 2392; 1709; 1570; 2737; 1637; 4953; 4173; 2672; 8346; 2605; 4954; 1868; 3527; 4050; 4955; 4956; 3816; 4958; 1793; 2060; 4957; 8348; 1803; 2837; 4962; 2444; 1638; 4961; 4959; 4963; 4960; 3582; 5590; 2838; 4964; 8349; 4261; 4965; 4967; 3289; 4966; 2916; 2534; 3149; 2624; 3844; 2989; 2582; 4968];
  [2738; 4969; 4970; 1460; 3127; 2869; 4971; 3496; 2739; 2740; 4972; 2990; 2741; 8350; 4973; 4974; 4105; 4975; 2011; 2633; 4976; 4977; 2597; 2831; 3561; 2871; 3753; 3573; 2014; 4978; 1958; 4979; 2067; 3524; 1613; 2494; 4980; 4983; 4982; 2066; 4981; 3407; 3117; 3426; 2577; 3063; 4225; 4985; 4986; 3531; 2462; 4988; 4989; 4990; 1869; 4991; 4992; 1609; 8351; 3034; 1853; 4994; 4049; 3151; 1748; 4996; 4998; 1848; 8352; 4995; 4997; 5000; 4999; 5001; 5002; 3506; 1987; 1666; 5003; 5008; 5006; 3940; 3939; 8353; 3454; 5005; 2683; 5004; 2901; 5009; 2423; 5015; 5016; 5010; 1710; 5011; 5020; 5019; 5018; 5014];
  [5013; 5017; 8354; 3941; 8357; 5024; 5021; 5023; 4217; 5022; 8355; 5012; 2902; 5025; 8358; 2372; 5026; 5027; 5030; 5029; 5028; 3455; 5007; 5036; 5032; 5031; 5033; 5034; 5037; 8359; 8360; 4299; 5038; 5035; 5039; 1849; 5040; 8361; 5042; 5041; 5043; 5044; 2991; 2634; 2699; 3074; 2264; 2373; 2265; 1959; 5045; 2374; 2203; 5046; 4047; 3606; 5047; 2266; 1797; 3202; 2023; 2495; 3818; 3698; 5048; 1870; 5051; 3290; 5050; 5049; 5052; 3364; 2886; 2496; 2955; 3152; 1881; 3291; 5053; 5054; 2804; 3972; 5057; 5056; 5055; 3852; 5064; 4005; 5058; 5060; 4022; 5059; 5061; 3673; 5062; 3883; 5063; 1804; 3884; 3586];
  [5065; 5066; 2267; 1805; 5067; 2185; 4171; 4144; 1871; 5069; 3292; 2268; 2742; 3728; 2743; 2719; 3365; 3942; 3408; 2269; 3819; 5070; 3440; 2383; 2204; 3366; 1444; 2709; 2270; 4174; 5071; 5072; 3620; 5073; 4316; 4336; 5075; 5074; 1730; 5076; 5079; 5080; 5078; 3791; 2744; 5082; 5081; 5077; 5083; 5084; 5085; 5088; 5086; 5087; 5089; 1571; 3367; 5090; 2157; 1683; 3593; 5091; 3568; 3912; 5092; 4337; 5093; 3885; 5096; 4418; 4434; 2553; 3562; 5097; 1940; 3293; 1499; 5098; 3859; 2271; 3243; 3368; 8362; 4120; 2186; 2205; 5099; 5100; 5106; 2606; 8363; 3294; 1988; 5101; 3770; 3233; 5102; 8283; 5103; 1989];
  [5104; 5105; 5107; 3469; 5108; 5109; 5110; 5095; 5094; 5111; 2100; 3766; 8364; 2393; 3782; 3295; 3802; 5112; 2745; 1541; 5113; 5114; 4123; 3729; 5117; 1596; 2925; 5116; 5115; 2101; 3153; 5121; 5119; 5118; 4236; 2230; 2720; 5120; 3427; 2661; 3509; 5124; 5123; 5122; 5125; 2231; 5126; 3851; 2690; 5127; 3754; 3510; 3296; 8365; 3399; 5128; 1890; 2839; 3771; 1872; 3577; 5129; 2497; 3973; 3974; 1597; 5134; 8366; 3268; 5131; 1684; 5182; 5133; 3587; 5132; 5130; 2345; 5136; 5142; 5148; 5140; 3443; 5145; 3820; 5139; 5144; 4300; 2498; 3154; 5137; 1941; 5147; 2926; 1572; 5141; 1685; 5146; 1990; 5143; 5149];
  [5151; 5161; 5159; 5156; 5155; 4317; 5157; 1991; 2272; 2721; 5164; 5150; 8367; 5154; 5138; 1687; 5158; 5160; 3244; 2357; 1621; 5152; 5163; 5162; 1992; 3110; 1761; 2102; 5153; 5165; 5168; 5170; 8368; 2566; 8369; 5176; 3369; 5166; 5174; 1686; 5172; 5173; 5169; 5171; 2232; 4145; 1806; 1560; 5175; 3597; 1422; 3730; 5135; 5181; 5185; 4110; 5178; 3456; 5183; 2805; 5184; 3532; 4362; 5180; 8371; 5186; 2346; 2956; 8370; 1461; 5179; 5177; 3065; 5167; 2463; 3139; 5198; 8373; 3066; 5193; 5190; 5191; 2607; 5194; 5197; 5192; 2636; 5195; 5189; 4133; 4132; 5199; 5200; 1462; 8374; 5188; 2055; 1415; 1807; 8372];
  [5196; 5204; 5203; 5208; 8376; 5209; 8375; 5207; 5210; 5202; 5206; 5211; 5212; 5201; 2535; 5205; 3155; 2273; 5187; 2840; 5225; 3926; 5215; 5216; 5217; 5224; 5223; 4040; 1808; 5221; 2104; 1711; 5218; 4253; 5220; 1463; 5222; 5213; 5219; 5226; 2103; 5214; 4196; 4146; 5229; 5233; 3101; 4318; 5234; 5231; 5228; 8377; 5227; 5232; 3869; 3497; 2105; 5235; 5230; 5236; 2158; 1614; 5244; 1809; 5242; 5243; 2358; 5241; 5239; 5238; 5245; 5237; 5247; 1688; 5249; 5248; 3297; 5252; 5250; 5240; 2159; 5251; 5255; 5254; 5256; 5253; 5257; 5258; 5259; 3927; 5261; 5260; 2662; 2927; 1667; 1689; 8378; 5262; 1440; 2957];
  [5263; 7084; 5264; 2132; 5265; 2992; 5266; 5267; 1905; 5268; 5269; 5270; 3156; 2206; 4106; 3975; 2705; 5271; 2993; 7266; 3731; 2611; 2394; 5272; 3140; 3860; 3182; 5275; 5273; 5276; 5274; 5277; 3870; 1432; 3821; 3732; 5278; 5281; 2746; 1906; 5279; 5286; 2747; 5280; 3607; 4197; 5282; 5283; 5287; 3457; 5284; 2274; 2975; 5301; 3685; 3183; 8379; 3733; 5370; 3943; 3370; 4032; 5290; 1598; 3269; 5299; 3215; 5293; 5300; 5295; 5302; 5298; 5297; 3650; 5291; 1690; 5289; 1960; 3184; 5285; 5288; 2275; 2972; 2748; 5296; 3621; 1961; 1731; 1762; 2820; 5304; 5309; 5305; 2160; 5310; 2445; 2328; 2637; 5292; 2536];
  [5307; 2499; 5308; 1445; 5303; 3298; 1962; 1993; 5306; 1416; 2384; 2841; 3371; 3717; 5312; 3069; 3111; 2454; 5313; 5315; 5311; 3918; 3318; 3067; 3944; 2583; 5327; 5326; 2907; 2161; 5320; 2750; 3549; 3588; 5318; 3068; 2625; 5323; 2749; 5317; 5322; 3622; 5316; 2068; 1752; 5324; 4240; 2395; 3216; 5321; 2973; 2276; 2887; 1573; 3035; 5319; 1916; 2106; 3336; 5325; 3070; 5328; 5330; 3124; 5336; 5331; 5333; 3792; 3372; 5334; 4147; 4175; 1810; 1423; 5332; 5329; 1873; 1574; 8380; 5335; 4176; 5339; 3128; 5346; 5340; 5337; 5344; 5314; 5341; 5345; 3699; 3458; 5338; 5342; 2107; 2430; 2974; 5350; 3389; 8381];
  [5347; 4011; 5348; 5349; 4087; 2915; 2133; 5356; 2464; 5353; 5352; 3589; 8382; 3498; 3400; 5354; 5355; 3838; 3608; 2446; 2994; 3995; 1732; 5362; 5357; 4177; 5364; 5360; 5361; 3071; 8383; 5359; 5294; 5363; 5358; 5368; 5369; 3390; 5371; 2447; 5366; 1907; 5372; 5365; 5376; 5375; 5374; 5377; 5379; 2806; 5378; 5382; 5380; 5381; 5343; 5384; 5383; 5351; 5385; 5373; 2500; 5386; 5387; 5389; 5388; 5390; 1691; 2277; 3945; 2928; 2207; 5392; 5395; 8384; 3809; 1942; 5394; 5393; 3623; 5396; 1994; 5398; 5397; 1811; 2465; 3533; 2108; 2903; 5399; 2929; 3391; 3822; 5400; 5401; 5402; 3877; 4948; 2951; 3803; 2405];
  [3734; 3700; 3428; 4262; 5404; 2585; 5405; 1431; 2025; 2958; 3823; 5406; 2477; 3234; 2502; 2842; 5407; 3946; 1590; 2503; 5410; 5408; 5411; 4254; 5409; 3004; 5412; 3119; 5413; 1875; 5415; 5414; 5416; 5417; 1876; 3569; 3217; 1955; 2504; 3072; 2691; 1425; 5418; 1599; 5422; 8385; 2278; 5421; 2360; 2751; 8388; 5420; 2752; 4073; 2359; 1464; 2959; 8386; 5427; 8390; 2930; 1542; 8391; 2684; 4017; 2431; 2753; 8389; 2920; 8279; 5426; 5424; 5425; 8387; 3270; 5457; 5431; 2537; 2279; 5429; 5430; 2843; 5428; 2458; 8393; 8394; 5433; 5432; 5437; 5438; 5434; 8392; 1693; 5435; 5436; 3718; 3824; 2109; 5439; 8396];
  [2931; 2754; 3245; 2012; 5440; 5444; 1640; 5441; 5443; 5442; 2706; 3235; 1446; 5445; 8397; 5446; 8398; 3299; 4310; 2478; 3928; 8399; 3976; 5453; 5448; 5451; 5450; 8400; 5447; 5452; 3539; 5449; 5454; 2707; 5455; 4178; 3659; 5456; 5458; 5459; 5460; 2015; 1543; 2280; 5461; 5462; 2712; 3073; 8401; 8282; 4661; 3037; 3036; 3157; 2388; 4499; 2145; 4148; 3947; 3853; 8402; 5463; 2432; 3320; 5464; 4338; 3977; 3300; 5465; 1877; 5466; 5467; 4099; 4045; 4033; 4007; 2448; 5469; 2612; 3996; 5471; 5474; 5473; 1874; 1943; 5470; 5472; 5475; 2908; 4226; 1450; 2413; 3129; 2598; 2808; 5478; 3429; 5476; 3112; 5477];
  [2807; 4102; 5479; 5480; 4207; 8404; 5485; 2281; 3624; 5482; 3459; 5419; 5423; 1926; 3610; 5484; 2755; 3701; 5490; 3755; 5481; 5487; 5486; 2960; 4024; 4280; 4018; 1641; 2505; 4363; 5489; 2904; 5488; 5483; 2208; 5495; 5493; 1642; 5491; 5497; 5503; 8405; 8407; 3141; 3886; 5505; 3761; 5504; 3651; 3978; 1812; 3000; 2663; 3340; 4149; 5500; 5499; 5501; 5498; 5506; 5496; 5494; 5502; 5492; 3271; 4129; 2575; 2433; 2375; 4026; 1724; 8408; 3335; 3519; 1544; 2995; 2933; 2077; 5508; 2282; 1783; 5510; 1775; 5516; 5513; 2996; 1734; 2361; 1733; 2396; 5511; 2136; 2110; 3460; 8409; 5509; 1447; 5512; 5514; 2018];
  [2079; 8406; 1813; 1922; 5517; 2438; 4028; 2466; 5518; 3775; 5530; 1616; 5519; 5536; 5520; 4263; 5527; 3634; 5535; 5522; 1429; 5524; 2283; 5526; 5525; 5521; 5532; 2756; 4870; 2233; 4227; 5523; 3373; 1694; 2362; 5515; 5531; 1756; 5529; 5533; 3461; 1879; 5563; 8280; 4082; 5538; 1878; 5545; 8410; 3979; 5546; 5548; 5552; 5540; 3205; 3462; 5556; 5543; 5553; 5547; 2844; 5557; 2932; 5555; 1814; 4371; 5537; 5551; 1465; 5539; 4067; 5544; 2821; 3328; 5534; 5550; 2909; 5560; 1772; 2162; 5562; 5541; 5561; 5554; 5542; 5558; 5559; 5576; 3523; 5549; 5572; 5574; 3345; 4179; 3845; 5569; 3143; 5575; 3038; 5566];
  [5579; 5578; 3556; 5577; 3551; 8412; 5581; 5568; 2013; 5571; 2692; 3635; 5573; 2016; 5565; 5567; 5564; 4339; 1749; 5570; 5580; 1712; 2420; 1564; 5597; 4340; 5600; 8414; 2845; 5599; 5598; 5595; 5583; 5612; 5582; 5601; 5593; 5588; 5585; 5586; 5594; 7803; 5591; 2284; 3329; 3075; 5589; 5584; 5587; 4180; 4021; 5592; 5602; 8415; 5610; 5603; 5616; 5614; 5609; 5608; 3337; 3076; 5606; 5604; 5611; 5617; 3750; 5623; 5618; 5621; 5615; 3279; 3783; 5605; 5613; 2757; 4088; 5633; 5620; 2163; 1600; 1754; 5596; 8416; 2758; 5625; 5632; 2626; 1773; 3209; 5622; 8418; 5627; 5631; 1995; 1923; 5629; 1880; 3520; 5628];
  [5630; 8417; 5624; 8419; 5626; 8420; 1755; 3236; 5637; 5635; 2234; 5634; 5640; 5507; 5636; 5638; 5639; 5651; 5647; 5528; 5646; 5645; 5642; 5619; 5644; 5643; 5649; 4329; 5652; 2064; 5648; 5650; 8421; 8422; 3672; 5653; 5657; 5654; 4218; 5655; 5607; 5658; 5659; 1524; 5661; 2138; 2538; 2026; 1601; 4198; 5663; 5662; 5665; 1908; 2027; 1815; 5668; 5667; 5669; 1643; 3218; 5670; 1816; 5672; 5671; 5673; 5674; 5675; 2506; 2934; 2350; 3839; 3919; 4359; 2528; 2397; 4311; 5676; 5677; 2507; 5678; 5679; 5681; 5680; 4003; 2693; 2613; 2479; 5682; 5684; 2822; 5683; 5685; 5686; 5687; 5688; 5689; 5691; 5690; 5692];
  [1602; 3237; 5693; 2449; 1735; 5694; 3417; 4837; 1882; 5695; 5696; 3929; 4019; 3516; 5697; 3735; 8423; 3756; 4092; 5698; 5700; 5699; 5702; 5701; 5704; 2508; 4058; 5705; 5706; 1883; 5707; 5709; 5708; 2888; 3784; 1545; 3702; 8424; 3374; 2664; 1944; 3703; 2551; 5711; 1817; 1591; 8425; 3559; 5710; 2285; 3246; 5712; 5720; 5713; 8427; 3134; 1945; 5721; 2139; 1884; 5719; 5717; 5714; 4199; 8426; 3321; 3534; 5715; 5723; 5722; 2070; 1610; 2376; 5716; 5718; 4002; 3185; 4034; 5731; 5732; 1644; 3861; 4134; 5734; 2540; 2759; 5727; 5733; 1575; 1996; 5724; 5729; 2997; 3652; 3736; 5726; 3948; 5728; 5737; 8428];
  [5735; 5730; 3949; 3611; 1946; 3388; 3272; 5738; 5736; 3158; 5725; 1546; 8429; 4181; 5749; 5748; 2999; 5745; 4211; 3499; 5739; 3326; 1547; 2286; 5742; 2638; 5747; 5746; 5741; 5744; 1763; 5743; 3612; 4243; 2809; 2998; 5755; 5753; 3804; 5750; 5752; 1529; 2287; 4341; 1720; 3825; 8431; 4200; 1695; 2846; 5754; 5759; 8430; 2760; 4151; 5756; 5751; 5757; 8432; 4291; 3466; 3511; 8433; 1713; 1556; 5763; 5766; 4264; 4203; 5773; 5767; 5764; 4281; 5770; 8434; 2673; 5772; 5777; 3464; 5775; 5769; 3219; 5776; 5765; 5771; 5778; 1501; 5768; 5779; 2847; 8436; 2694; 3858; 2363; 8435; 5760; 5774; 3409; 8437; 2935];
  [1764; 2398; 2761; 5762; 2665; 2111; 5761; 5783; 2708; 2187; 5798; 5792; 1963; 3430; 5787; 5796; 1424; 1521; 8440; 1622; 5789; 3113; 5780; 5782; 2288; 5799; 8438; 5794; 8441; 5786; 5793; 4052; 5791; 5795; 2209; 2762; 3220; 8439; 5785; 4150; 5788; 5781; 3465; 5784; 5790; 4372; 2567; 4041; 5800; 3679; 5812; 2188; 2695; 5802; 4244; 2289; 5815; 1487; 5813; 5801; 5807; 5809; 4182; 5804; 3397; 5806; 8442; 5814; 5808; 4080; 5803; 2539; 5827; 1765; 5805; 5810; 5811; 3177; 3159; 5819; 5825; 5823; 3392; 5830; 5820; 5821; 5797; 1968; 3785; 2568; 2342; 4342; 5817; 5829; 1576; 3077; 3660; 1818; 4319; 4042];
  [3339; 5824; 5826; 3025; 5828; 5822; 5816; 1820; 2140; 5842; 5837; 3001; 1758; 2696; 5846; 5839; 3301; 5836; 3346; 5871; 5833; 5832; 5841; 5835; 5834; 5840; 2914; 5831; 8443; 5843; 5844; 1819; 5849; 5848; 5850; 5853; 3418; 5847; 8444; 5851; 2134; 3190; 5845; 3598; 5852; 5857; 5855; 5858; 5861; 5854; 2329; 3579; 5758; 4219; 5856; 5860; 3186; 5859; 5838; 8445; 7404; 5864; 5868; 5866; 8446; 8447; 5862; 5863; 5867; 5865; 3805; 5873; 5870; 5869; 5872; 3529; 5874; 3280; 3178; 8448; 2918; 5875; 5877; 5876; 5818; 5878; 3548; 5879; 1645; 3467; 1696; 1947; 2599; 2399; 8449; 4330; 2889; 1577; 5881; 5880];
  [8450; 5884; 3221; 5887; 5882; 5886; 5885; 3415; 1466; 8278; 4314; 5889; 1511; 5891; 5890; 5888; 5883; 3950; 5893; 8452; 5892; 8451; 1578; 5895; 3871; 5894; 4062; 2764; 3026; 2763; 8454; 8455; 4320; 5901; 3002; 5897; 5902; 1579; 8453; 5900; 3636; 5896; 5899; 2765; 3714; 5903; 2586; 3003; 5906; 5898; 2074; 5904; 4183; 5907; 7807; 2678; 5908; 5909; 3585; 5911; 5912; 8457; 3590; 3468; 5914; 5916; 4282; 5913; 5915; 1580; 5910; 4758; 5917; 3078; 2467; 5919; 5918; 2823; 4662; 5920; 5922; 5905; 5921; 8458; 5923; 3661; 5924; 5925; 5926; 5927; 3351; 5929; 5928; 5930; 5931; 2600; 3826; 4117; 5932; 5933];
  [3061; 2541; 5934; 5935; 5936; 3903; 3704; 5937; 3626; 3302; 5938; 1668; 1956; 4079; 4063; 1617; 4343; 3997; 3863; 2936; 5939; 3512; 2164; 5940; 2401; 5942; 5941; 5943; 5944; 5945; 1909; 5946; 5947; 2165; 3705; 8459; 5949; 2810; 5948; 8460; 1997; 5950; 5952; 5951; 5953; 2210; 5954; 2046; 3039; 2348; 5956; 5957; 5955; 2614; 3517; 1998; 5959; 3207; 5958; 4344; 3637; 5962; 5964; 5961; 4093; 5963; 5965; 4265; 8461; 5969; 5968; 3281; 3584; 2166; 5967; 5966; 4152; 4153; 5970; 1581; 2341; 2509; 5971; 5972; 5974; 2666; 5976; 5975; 5977; 1736; 5979; 8463; 5978; 5981; 5980; 2189; 4237; 2017; 1603; 2047];
  [1850; 4301; 5983; 5985; 8464; 5986; 1646; 5982; 8465; 2468; 3322; 5984; 8468; 8466; 5989; 2615; 8467; 5987; 2097; 3706; 5988; 6015; 8470; 5994; 2190; 1948; 5991; 4228; 8469; 4245; 3187; 5993; 8471; 8473; 8472; 8474; 5995; 4283; 2028; 3757; 3613; 5996; 5998; 6001; 5997; 6000; 2235; 1548; 6002; 2899; 5999; 4289; 8475; 6005; 7805; 6003; 6006; 5992; 6004; 2377; 6007; 6008; 4229; 8476; 6009; 6010; 8477; 5990; 6011; 1821; 2542; 6012; 6013; 6014; 1530; 6016; 3786; 6017; 1789; 6018; 6019; 6020; 6022; 6023; 6021; 3810; 6025; 6024; 8478; 6027; 6026; 6028; 6029; 6031; 6030; 2344; 6033; 6032; 1822; 2870];
  [3411; 6034; 2937; 2469; 1592; 6035; 4184; 3920; 6036; 8347; 3419; 4154; 2290; 2848; 3238; 4625; 3303; 1669; 6037; 6038; 6043; 6041; 6040; 5391; 1697; 6039; 1467; 3675; 3707; 4246; 6044; 6042; 3255; 2919; 3676; 3772; 6046; 4241; 2112; 6047; 6045; 3719; 6048; 6049; 8479; 1468; 2811; 6054; 6051; 3554; 6050; 1885; 6057; 6052; 6053; 6056; 6055; 3764; 3041; 3040; 1910; 6058; 6059; 6060; 6062; 6061; 1557; 6070; 3737; 6064; 6066; 6068; 2849; 6069; 6067; 2569; 6063; 6065; 3793; 2766; 6072; 6071; 6073; 2543; 2364; 3470; 6074; 3332; 6076; 4230; 6075; 3080; 6081; 6083; 6084; 3247; 6082; 6079; 6077; 6078];
  [6080; 6087; 6085; 6086; 6088; 6090; 6091; 6092; 6093; 6089; 6095; 6094; 6096; 4266; 6099; 6097; 6098; 1851; 4135; 3895; 6101; 6100; 6102; 6103; 6107; 6104; 6105; 6106; 6108; 6109; 6110; 6111; 6112; 3680; 3431; 6113; 3653; 3779; 6114; 8480; 6115; 3393; 1698; 2291; 6116; 6117; 6118; 2452; 6120; 6119; 6121; 6122; 8483; 8481; 8482; 8484; 3738; 6123; 6124; 7780; 6125; 6126; 6127; 2457; 6128; 3625; 4010; 1549; 1558; 6129; 6131; 6130; 3463; 2938; 5664; 6132; 4074; 6133; 1823; 3720; 6134; 6135; 6136; 4101; 4094; 3319; 3081; 6138; 2697; 2767; 6141; 6140; 6139; 3758; 1824; 2170; 6147; 6144; 2850; 4059];
  [6143; 6145; 6146; 6142; 6148; 6149; 3304; 1852; 3264; 8486; 6150; 6151; 6154; 2890; 3513; 6155; 3998; 6152; 6153; 6158; 6157; 6156; 6160; 6159; 6161; 6163; 6162; 3898; 2685; 4267; 6164; 3500; 6165; 6166; 6170; 6168; 6169; 6167; 6171; 6172; 6173; 6174; 4064; 6175; 4121; 6176; 3241; 3645; 2048; 3222; 6177; 1999; 2961; 6178; 2378; 6179; 6180; 2167; 2402; 6182; 8488; 3437; 2403; 1925; 3951; 3614; 3438; 2315; 6184; 8489; 2768; 8490; 4247; 2292; 2168; 3668; 6186; 8491; 6188; 2236; 6187; 3375; 6190; 1714; 6185; 3739; 1519; 2425; 4373; 6189; 6191; 3896; 2970; 6193; 6194; 6192; 1737; 6200; 6199; 2544];
  [6201; 6196; 6202; 6197; 3721; 6195; 6198; 6205; 6204; 4012; 6203; 1484; 6207; 6206; 2769; 6208; 3042; 6210; 6209; 6211; 6181; 6183; 6213; 6212; 8492; 2545; 4302; 2587; 6214; 2090; 1911; 1886; 2510; 4155; 6220; 6219; 3043; 6216; 6218; 2674; 2851; 6217; 6215; 3581; 2770; 3787; 2404; 3471; 6221; 6222; 6244; 2029; 4352; 3028; 6223; 1647; 3376; 3854; 8496; 8498; 6224; 1969; 6225; 6227; 6228; 3580; 6229; 6230; 6231; 2030; 1648; 3514; 2639; 2511; 6232; 2640; 1639; 3794; 6233; 3740; 3044; 6236; 6237; 3644; 2852; 6234; 3260; 6235; 2771; 1469; 1888; 6238; 3377; 6239; 2952; 4054; 3762; 6240; 6241; 3248];
  [4268; 6243; 6242; 2616; 6245; 1489; 6248; 6246; 1649; 2113; 6247; 2293; 2337; 3923; 6249; 3999; 6251; 2962; 1550; 1623; 1421; 6250; 6252; 6253; 2812; 6254; 1738; 6256; 2141; 1949; 6257; 2058; 6258; 3005; 3522; 2977; 2434; 6259; 3261; 3082; 6261; 6263; 6260; 6262; 2069; 6264; 2073; 1950; 4185; 6266; 6267; 1517; 6270; 1777; 6269; 6268; 6272; 6265; 6273; 4238; 6274; 6275; 8499; 4877; 6277; 6276; 6278; 6279; 4250; 6280; 7504; 2772; 6281; 6282; 2686; 3501; 6283; 8500; 3203; 8502; 6284; 3223; 6285; 1978; 4542; 3256; 2556; 1825; 6286; 6299; 6289; 1951; 6288; 6301; 6287; 2773; 6291; 6292; 3394; 6293];
  [1753; 2877; 3827; 6295; 3173; 6290; 6294; 6296; 2440; 6303; 3773; 3671; 3472; 2031; 6302; 6300; 3686; 6297; 3257; 3474; 3473; 2435; 6321; 6305; 6307; 6310; 6311; 6308; 6309; 6306; 6304; 6298; 3900; 1650; 6318; 6315; 6320; 6319; 3654; 4048; 2470; 6313; 6322; 6317; 6316; 6312; 8503; 6314; 1826; 3224; 3006; 3667; 6327; 3669; 2978; 6324; 3712; 6328; 3904; 3254; 6323; 6325; 6326; 6329; 2573; 3515; 6334; 6333; 6330; 4345; 6339; 6343; 6340; 6336; 6337; 6342; 6331; 4658; 6338; 6332; 6341; 6347; 1827; 6344; 6345; 6346; 6349; 6348; 3751; 6350; 4321; 3930; 6355; 6352; 6351; 2963; 6354; 6356; 6353; 6360];
  [6357; 6358; 6335; 6359; 6361; 6362; 3891; 6363; 4107; 2019; 2076; 6364; 3873; 2891; 4057; 6365; 4248; 3655; 3045; 3591; 2676; 1441; 6370; 6368; 6366; 1786; 2774; 6371; 6369; 6367; 6375; 6374; 6373; 6372; 6376; 6377; 2939; 6378; 6380; 6379; 2211; 3031; 6382; 3475; 6381; 6383; 3874; 3083; 2294; 6384; 4269; 6386; 6387; 6388; 6389; 2512; 6390; 2114; 1953; 1889; 6392; 4124; 2295; 6391; 6395; 4111; 3599; 3778; 2698; 6394; 2588; 2296; 2513; 1952; 3875; 6393; 3046; 3981; 2436; 2514; 3350; 6398; 4292; 2406; 6399; 2853; 6401; 2775; 2365; 6400; 2641; 2191; 3047; 6396; 6402; 8505; 6397; 2115; 6405; 6409];
  [2142; 6404; 6413; 8506; 2297; 4212; 1437; 6410; 1954; 6407; 6408; 3476; 6406; 6403; 1699; 2981; 2169; 6415; 6412; 6414; 6411; 2116; 3120; 6416; 3085; 6429; 8508; 6425; 6419; 6423; 2627; 1470; 6418; 6426; 6430; 2298; 4095; 3343; 6420; 8507; 6428; 6417; 3225; 6422; 1438; 4083; 6421; 2032; 3741; 3084; 4277; 2710; 6469; 8509; 6431; 3007; 6427; 6432; 6434; 3378; 6437; 6433; 3905; 1828; 4084; 1471; 6436; 4322; 6435; 1582; 3553; 6438; 6445; 6439; 6446; 6442; 3662; 2579; 6444; 6441; 6447; 6440; 2667; 3952; 2675; 6443; 6455; 6451; 6454; 6452; 6456; 6450; 6424; 2964; 3708; 6453; 6448; 3008; 2117; 2642];
  [8510; 2824; 3029; 6459; 6461; 6462; 6458; 6460; 6449; 6457; 6465; 6464; 4037; 2078; 6463; 6467; 6466; 6470; 6472; 2471; 6468; 6473; 6474; 8272; 6475; 6481; 3410; 6477; 6476; 6478; 6479; 6480; 6482; 6483; 1829; 6484; 6485; 6486; 8511; 6487; 6488; 6489; 6490; 6491; 6493; 6492; 6494; 6495; 6496; 6499; 6497; 6498; 2414; 2118; 3249; 3684; 2711; 3616; 3742; 6500; 5246; 6501; 6503; 4204; 6502; 6505; 6504; 4186; 6506; 3759; 6507; 6510; 6509; 6508; 8512; 6511; 2085; 3009; 1912; 6515; 6512; 6513; 6516; 6517; 6514; 1512; 1604; 6519; 6520; 6521; 4201; 2643; 6523; 6522; 2892; 6524; 6525; 6526; 1854; 1830];
  [6527; 6528; 4008; 4202; 4187; 4346; 2300; 6531; 2589; 6530; 6532; 2546; 3150; 6533; 2299; 4096; 6534; 6535; 6536; 6537; 6538; 2547; 4118; 6540; 3226; 6539; 6542; 6541; 6543; 2940; 6544; 6545; 3878; 6546; 3086; 6547; 6548; 4323; 6551; 6550; 6549; 3305; 6552; 2825; 6553; 6554; 4347; 6555; 6556; 6558; 6557; 3670; 3566; 4353; 3674; 6560; 2776; 3769; 6561; 6559; 1831; 2213; 2515; 3743; 2171; 3982; 6564; 6562; 2301; 2302; 1482; 2421; 3628; 1472; 6569; 3227; 3627; 3160; 6571; 6567; 6570; 6565; 6568; 3953; 2214; 1502; 6566; 6573; 6574; 3502; 2000; 6585; 3600; 2516; 2001; 2953; 4361; 4055; 6572; 2965];
  [1930; 6575; 6577; 6576; 6578; 3201; 3601; 3306; 6582; 6581; 6579; 2872; 3828; 6584; 6583; 2303; 4374; 6600; 6588; 6589; 2617; 6587; 2343; 6586; 6590; 3307; 3855; 3010; 3161; 6594; 6595; 6591; 6592; 6593; 2304; 6601; 6597; 3829; 4023; 3767; 6596; 6599; 6598; 3983; 6602; 6603; 3030; 6604; 6606; 6610; 6607; 6605; 3602; 6608; 6609; 1615; 6616; 6611; 6612; 6613; 3102; 6615; 6614; 6617; 6618; 6619; 2854; 1670; 6620; 4284; 2548; 2644; 2517; 3250; 6621; 6622; 1520; 6623; 6624; 6625; 6626; 6627; 2002; 5367; 6628; 2982; 6629; 2580; 6630; 4433; 6631; 3915; 1845; 3011; 2687; 3840; 2645; 6632; 2305; 6633];
  [3709; 6647; 6635; 3142; 3656; 2192; 6634; 3012; 6636; 3379; 6638; 6637; 6640; 6639; 6641; 6643; 6642; 1832; 6644; 6645; 6646; 2366; 4270; 6648; 2826; 1583; 6649; 6650; 6651; 1491; 6652; 6653; 3830; 2576; 6655; 1700; 1427; 6654; 6657; 3617; 2855; 1651; 3954; 2128; 2033; 6656; 1671; 1788; 1584; 6661; 4303; 3162; 3795; 6673; 1652; 6671; 6669; 6660; 6658; 6659; 2604; 2049; 3282; 3526; 1552; 6663; 6662; 6668; 6664; 6667; 8514; 4089; 6666; 1653; 1784; 6670; 6672; 2119; 6676; 6685; 6686; 1420; 6693; 1490; 6684; 6683; 6678; 6677; 6675; 6674; 3262; 3192; 6680; 6679; 6682; 3087; 2120; 1536; 6681; 2306];
  [3088; 8515; 6699; 6700; 1654; 1611; 6697; 8516; 6687; 6695; 6702; 6696; 6694; 6665; 6692; 6688; 1833; 6690; 6701; 6691; 6703; 6689; 3663; 4208; 6698; 6720; 6712; 2910; 8517; 1917; 2034; 6707; 1656; 2777; 6710; 2407; 3432; 6715; 3931; 6706; 1655; 2215; 3768; 6716; 6704; 8518; 6713; 6723; 6708; 6709; 3503; 6714; 6711; 3955; 6717; 1473; 6705; 6719; 6718; 3646; 6725; 6736; 1785; 6739; 6721; 6726; 4213; 6735; 8519; 4188; 4239; 3283; 1766; 3841; 6741; 3478; 1426; 6734; 6730; 3089; 6724; 6732; 6737; 3583; 1419; 6729; 6738; 3847; 6733; 6728; 2778; 2646; 2549; 4097; 3798; 6744; 6753; 6731; 1778; 8520];
  [2813; 6742; 6747; 3090; 6743; 6750; 3258; 6751; 4189; 6740; 1715; 6746; 6749; 4053; 6752; 6745; 6748; 8276; 3956; 4324; 6756; 6763; 6755; 2572; 6722; 3899; 4043; 6762; 6761; 6757; 6758; 1525; 6760; 6754; 3342; 6759; 1503; 3103; 3888; 6764; 6768; 3722; 6767; 2779; 2578; 6770; 2003; 8521; 6771; 3848; 6766; 8522; 6727; 6765; 4370; 3479; 3842; 8523; 6778; 6784; 6785; 6772; 3657; 6782; 6774; 6776; 6786; 6775; 6779; 1585; 3546; 6780; 6783; 6773; 3013; 6777; 2450; 2856; 2083; 4125; 4130; 2713; 8525; 6790; 6788; 4369; 6787; 4220; 6789; 6791; 6792; 6795; 6793; 3480; 6794; 3710; 6781; 2714; 6796; 6801];
  [3091; 6800; 6769; 6802; 3048; 6797; 6799; 6798; 5656; 5641; 6804; 6803; 4221; 6137; 6805; 6806; 6807; 2216; 1931; 6809; 4572; 1964; 4255; 2056; 6810; 6811; 3273; 6812; 3567; 1435; 1664; 6817; 6818; 6813; 2472; 6814; 3605; 6815; 6816; 6826; 6820; 6823; 6819; 6821; 6822; 2593; 6824; 3228; 2121; 1725; 6827; 1722; 6832; 6828; 6831; 3691; 6829; 6830; 3799; 3723; 6833; 3194; 6843; 6839; 1672; 6837; 3957; 6838; 6835; 6836; 6841; 6844; 6842; 6840; 6834; 3251; 6851; 4051; 6849; 6850; 6845; 6847; 6848; 6846; 2983; 4348; 6855; 6856; 6862; 2829; 6858; 6861; 6853; 6852; 6863; 1657; 6859; 6864; 6860; 6857];
  [3308; 6854; 3643; 6868; 4162; 6867; 6866; 6875; 6869; 6877; 4205; 6880; 6871; 6872; 6876; 6879; 6878; 6870; 6873; 6890; 6883; 6881; 6882; 6887; 6888; 1701; 1913; 6886; 6865; 8528; 6885; 6889; 6884; 6891; 6893; 6892; 6895; 6894; 6825; 6899; 6896; 6897; 6898; 6900; 2143; 6902; 6901; 2647; 2307; 5740; 6903; 2680; 1716; 6904; 1553; 2780; 6905; 2308; 6906; 1474; 3788; 6907; 2893; 6914; 6911; 3274; 6912; 6909; 2035; 6908; 6915; 2089; 3163; 6921; 6917; 3122; 6916; 6919; 6910; 6920; 6922; 3744; 6918; 6923; 6925; 2212; 6913; 1442; 6924; 2408; 4315; 6926; 6927; 3092; 4231; 6928; 4156; 6929; 6930; 3921];
  [6931; 2381; 4232; 6936; 6937; 2781; 6935; 8529; 4206; 6932; 6934; 2942; 2913; 6933; 6938; 3856; 6940; 6939; 1767; 3958; 6941; 8273; 6953; 6943; 6944; 6945; 6946; 6950; 6951; 6949; 6947; 6942; 6948; 6952; 7448; 1605; 6955; 2036; 6954; 6957; 6956; 6959; 6958; 6960; 2648; 6961; 6962; 6963; 2943; 4190; 6964; 3857; 3609; 6965; 6966; 2172; 1891; 6967; 2518; 3604; 6968; 1739; 6969; 6971; 4222; 6970; 2857; 6972; 6973; 6974; 1834; 6975; 6976; 6977; 6978; 1740; 6979; 6980; 6981; 1679; 2827; 6982; 6983; 6984; 2193; 3380; 6985; 2122; 2873; 6988; 3481; 6987; 8530; 2084; 6986; 3188; 1892; 6989; 6990; 2782];
  [2144; 6991; 3959; 2976; 1965; 4126; 3049; 6992; 8531; 2858; 3275; 2783; 6993; 6996; 6997; 2379; 3135; 6995; 2784; 3789; 6994; 2519; 1554; 7001; 2123; 2521; 2520; 4368; 7000; 6999; 3014; 1924; 4358; 1717; 2785; 8532; 6998; 7003; 7004; 7002; 2217; 4167; 2522; 3578; 7007; 2945; 3229; 4157; 7010; 2237; 2944; 7006; 7011; 2238; 7008; 7009; 8533; 7005; 2979; 3518; 3210; 1658; 3745; 1914; 8534; 3309; 7014; 7012; 3239; 2946; 1835; 7013; 2878; 4271; 4355; 7015; 7026; 3310; 7025; 8535; 7022; 7030; 7023; 7019; 3381; 7018; 7016; 4136; 2523; 7020; 7017; 8537; 7024; 2715; 2194; 3191; 3984; 1561; 1475; 3482];
  [7028; 7027; 3547; 7032; 7021; 7031; 7033; 2173; 7029; 2309; 2590; 7034; 4191; 7037; 7040; 7038; 3780; 7035; 2037; 7039; 7041; 7045; 7042; 7044; 7043; 8538; 7046; 2554; 7048; 7047; 3831; 7050; 2124; 7049; 7051; 7052; 1915; 6518; 2814; 7053; 2239; 7054; 8539; 7055; 2473; 5403; 7056; 7057; 2649; 7058; 7059; 7060; 7061; 7062; 3206; 7063; 7065; 7064; 3483; 7066; 3960; 7067; 7068; 7069; 7070; 3535; 2786; 7071; 2330; 4431; 7072; 7073; 3790; 7074; 7082; 7075; 7077; 7076; 7078; 3985; 7079; 7080; 7081; 7083; 1704; 3360; 3832; 2415; 2310; 3806; 1660; 3711; 7086; 1836; 2966; 7085; 7090; 3284; 4108; 7088];
  [7089; 1893; 7091; 3638; 3164; 3746; 3412; 7087; 3986; 1673; 7093; 4331; 3323; 4360; 2524; 7092; 3118; 7109; 3015; 3565; 3807; 7096; 2474; 2525; 2787; 3640; 2174; 7095; 7094; 3833; 2570; 3433; 8540; 8541; 7098; 7099; 2311; 7097; 7100; 7101; 7103; 3104; 7102; 1855; 7105; 7104; 7106; 8542; 7108; 7110; 7111; 2967; 2584; 7112; 1741; 7113; 3093; 7114; 7115; 3834; 8543; 1894; 7116; 3311; 1562; 7117; 2618; 2905; 3114; 7120; 7119; 7118; 7126; 7124; 7121; 7123; 7122; 7125; 1966; 7129; 2968; 7130; 2218; 7127; 7128; 4332; 3312; 3016; 7131; 7134; 7132; 7133; 4192; 3484; 7137; 7135; 7136; 7138; 7152; 7141];
  [7142; 7140; 7139; 3382; 7144; 7148; 7145; 7143; 7146; 7147; 7154; 7149; 2969; 7151; 7153; 7150; 7156; 2650; 7155; 7157; 7158; 7161; 7160; 7159; 7163; 7162; 4127; 7165; 7164; 7166; 7167; 7169; 7168; 2859; 7170; 2050; 7171; 7173; 7174; 7175; 7172; 7176; 2591; 7177; 1895; 2086; 8545; 2175; 7178; 3557; 3413; 7179; 7182; 2557; 7181; 7180; 2125; 7183; 1742; 7185; 2409; 7184; 7193; 7187; 7189; 3922; 7186; 7188; 7192; 7190; 1896; 7191; 7194; 3629; 4285; 2651; 7195; 4137; 7197; 7196; 7200; 4168; 7199; 1768; 7198; 7203; 7202; 7201; 3401; 7204; 7205; 7206; 2331; 2072; 7207; 7208; 7209; 2860; 7210; 2550];
  [7211; 7212; 4606; 4605; 7213; 6471; 7214; 3199; 2830; 3603; 7215; 3906; 3341; 2349; 3204; 1513; 4035; 2874; 2129; 2038; 3907; 7216; 7218; 7217; 1661; 3563; 7219; 3658; 3402; 7220; 2681; 7222; 4075; 7237; 7224; 7225; 3330; 3165; 3094; 3485; 7223; 1932; 7232; 7229; 7242; 3486; 3259; 7226; 3383; 3434; 7227; 7231; 2883; 3642; 3333; 2947; 7230; 3115; 3105; 7228; 1418; 4325; 7233; 3166; 2652; 2861; 7235; 7234; 1488; 7236; 3774; 7244; 3536; 2894; 3252; 2061; 7243; 4158; 1534; 3908; 1662; 7238; 7239; 7240; 7241; 3504; 3198; 1476; 7245; 7246; 7804; 3130; 7247; 1586; 3051; 2176; 4193; 8548; 7248; 3395];
  [3095; 2592; 7249; 7252; 2700; 7250; 3018; 3017; 1477; 4272; 7254; 3747; 7256; 7255; 7253; 6271; 1837; 7221; 7258; 7257; 7259; 4159; 3542; 3961; 7260; 2594; 7261; 7262; 7263; 3384; 1483; 2312; 4349; 7267; 8549; 2087; 7264; 7265; 3843; 1743; 4160; 2004; 3435; 7268; 7269; 8551; 7270; 8552; 3385; 7272; 7271; 3528; 7273; 2653; 2601; 3630; 3276; 2619; 2895; 7274; 7275; 2880; 7276; 7277; 7278; 4214; 2654; 7280; 7279; 2313; 2338; 2475; 7283; 2701; 7282; 7281; 3174; 2240; 2948; 3681; 2656; 7284; 2788; 7287; 7285; 7286; 7289; 7288; 2815; 7290; 7291; 7292; 3713; 2400; 2602; 7293; 7294; 4233; 2668; 4119];
  [4273; 7295; 2039; 7296; 8554; 3386; 8553; 7299; 1779; 2862; 8555; 7297; 7298; 3353; 8558; 8559; 4000; 2065; 8556; 8557; 7301; 7302; 7300; 7304; 8560; 8562; 3540; 1726; 8561; 7308; 7305; 7307; 7303; 7378; 7306; 4304; 2219; 8569; 8563; 8565; 7316; 8564; 3403; 7311; 7314; 7312; 7317; 8566; 7318; 8568; 7310; 8567; 7323; 1587; 7309; 3678; 7313; 2789; 8570; 2314; 8572; 8573; 3987; 2041; 2669; 3505; 8275; 3020; 7321; 7315; 7320; 4076; 3313; 7322; 7319; 8571; 3019; 7326; 7325; 7324; 8577; 3962; 8581; 8579; 8575; 8576; 8580; 2722; 8574; 7327; 3916; 1555; 3797; 3277; 1967; 8281; 7329; 8584; 2316; 8587];
  [8589; 2455; 7328; 2896; 2897; 7332; 7334; 8588; 8586; 2816; 8583; 7333; 7335; 8582; 2024; 3796; 2603; 4326; 7331; 2437; 4354; 7337; 7336; 7338; 7330; 8274; 3550; 3436; 3344; 7343; 8591; 3230; 7339; 7340; 2080; 7342; 8590; 2177; 7341; 2790; 1780; 7347; 2380; 3096; 3331; 8592; 1718; 7345; 7346; 3324; 7344; 7348; 7354; 8593; 7357; 7356; 3396; 7349; 7350; 7353; 7355; 8594; 2005; 7358; 7352; 7351; 8595; 7362; 7363; 7364; 7361; 7360; 2791; 3487; 7359; 7368; 7366; 8596; 7367; 7365; 3189; 7369; 7370; 7372; 8597; 8598; 1838; 7371; 4131; 7383; 7373; 7376; 7374; 7375; 7377; 7379; 7380; 7381; 7384; 7382];
  [7385; 7387; 7386; 3314; 4112; 7388; 3021; 7389; 3889; 7390; 1702; 1531; 1840; 8599; 1839; 7391; 7392; 7393; 7394; 7395; 1841; 1744; 2317; 3687; 7397; 7396; 7398; 1563; 7401; 7400; 7399; 7402; 7405; 1448; 7403; 7407; 7406; 7409; 7408; 7410; 3491; 7411; 7412; 7414; 7413; 3835; 7415; 7416; 2418; 7417; 7418; 3988; 3050; 1413; 3144; 7419; 3836; 7422; 7420; 2318; 7421; 2195; 3890; 7424; 7426; 7425; 7427; 1504; 2875; 2723; 1842; 7428; 3641; 7430; 1505; 7429; 3325; 4274; 3488; 7423; 4235; 2178; 4194; 2062; 4249; 2075; 3167; 6580; 7431; 1703; 2898; 1745; 7433; 7434; 7432; 2135; 2410; 2792; 8602; 1506];
  [4286; 7436; 7251; 7435; 8603; 7439; 7437; 7438; 7440; 7441; 4305; 7442; 7443; 2954; 3692; 2912; 1856; 4161; 1674; 2655; 2220; 7446; 7445; 2526; 7447; 7444; 2451; 7451; 6874; 4659; 2906; 7449; 4234; 3558; 1514; 2980; 2559; 3876; 1535; 4306; 4210; 7452; 3420; 2628; 7453; 7454; 2863; 7455; 4307; 7450; 7457; 7459; 7458; 7456; 7460; 7461; 3097; 1663; 7462; 4065; 7463; 7464; 4333; 8604; 5468; 7465; 8605; 7466; 7467; 7471; 8606; 7468; 7469; 7470; 7472; 8607; 8608; 8609; 2949; 8610; 4128; 2950; 7473; 3748; 7474; 7758; 4085; 7475; 7476; 7477; 1746; 7479; 2876; 7480; 2071; 7481; 7485; 7483; 7484; 1774];
  [7482; 7486; 7487; 1449; 7488; 7489; 2793; 7490; 1918; 7493; 7492; 7491; 7036; 3913; 7494; 7495; 7496; 7497; 7498; 7499; 1843; 7500; 7501; 3574; 7503; 1624; 7506; 7505; 1507; 2006; 3892; 3315; 2351; 2319; 2702; 2879; 7508; 7507; 4169; 1857; 3715; 3537; 2911; 4275; 2126; 7511; 7510; 3990; 3489; 1551; 7512; 7509; 3808; 4209; 7513; 7514; 7516; 3175; 1750; 1751; 7515; 1858; 2179; 8611; 1859; 3414; 4293; 8612; 2221; 7517; 7518; 7519; 7520; 7522; 7521; 3846; 7523; 7524; 7525; 7526; 7528; 7527; 7529; 3749; 6529; 2828; 1897; 7530; 7531; 4617; 5666; 3716; 1500; 1436; 2527; 3963; 2819; 7532; 4104; 7533];
  [4195; 1537; 2476; 7534; 1675; 7535; 7536; 7538; 7539; 7541; 7537; 7540; 8615; 1844; 7542; 7543; 7544; 7545; 7546; 7548; 7547; 7550; 7553; 7549; 7551; 7552; 7554; 2007; 2620; 7555; 7556; 2320; 8617; 7557; 1721; 3618; 7558; 7559; 3253; 3552; 7560; 3664; 3145; 1559; 2051; 2052; 3278; 7565; 2053; 1676; 7564; 7562; 7563; 7561; 7575; 7566; 7567; 7568; 7569; 7571; 7570; 2688; 7572; 7574; 1898; 7573; 3098; 2180; 7576; 3146; 7577; 3490; 7578; 7583; 7581; 7580; 7582; 7579; 7585; 8618; 7584; 7587; 2008; 7586; 7588; 7589; 7591; 7590; 7592; 7594; 7593; 2347; 7595; 7596; 1719; 7597; 7598; 2900; 7599; 7600];
  [7601; 7602; 2321; 8619; 8620; 7603; 7604; 7605; 7606; 7607; 3682; 7609; 3765; 7610; 7608; 7612; 7611; 7613; 7614; 7615; 7616; 7617; 7618; 7619; 7620; 7621; 7622; 7623; 7624; 7625; 7626; 7627; 5660; 7628; 6385; 1899; 1692; 2367; 7630; 7629; 4046; 7632; 7633; 7631; 7634; 4013; 7635; 1970; 4328; 8622; 7636; 8621; 7638; 1439; 8623; 7639; 3864; 7637; 7640; 7641; 7642; 7643; 7644; 4025; 2456; 2439; 3022; 8624; 7645; 7648; 8625; 7646; 7649; 2242; 7647; 7650; 7651; 7652; 7656; 2453; 3169; 7657; 7654; 7653; 7655; 2130; 7661; 7660; 7659; 1428; 8626; 7671; 7667; 7668; 7664; 7670; 7666; 1757; 4367; 7669];
  [7665; 7663; 7662; 7673; 7676; 7675; 7674; 3800; 7672; 1492; 7677; 7679; 1770; 7658; 1526; 7681; 7680; 7678; 3208; 4027; 4287; 7682; 7683; 7684; 7685; 7686; 3316; 7687; 3688; 7692; 7688; 7689; 3964; 4077; 3525; 7693; 7694; 3507; 7691; 7690; 1607; 7702; 7701; 1588; 7699; 7698; 7696; 1782; 7695; 2555; 1606; 2322; 7705; 7704; 7703; 7700; 7706; 7707; 7712; 7711; 7713; 1516; 7708; 7709; 2339; 4066; 7710; 8628; 3965; 7718; 8627; 7714; 7719; 7716; 7715; 2127; 7720; 7721; 7722; 7717; 7697; 7723; 3354; 7727; 7728; 7726; 7725; 7731; 7724; 7729; 7730; 7733; 7732; 7735; 7736; 7737; 4364; 7734; 3176; 2426];
  [7738; 8630; 7739; 7740; 7741; 7742; 2181; 7743; 7744; 2552; 7745; 7746; 7747; 7748; 7751; 7749; 4351; 7750; 4308; 7752; 4288; 7753; 3665; 7754; 7756; 7757; 7755; 2332; 4086; 4014; 5068; 5703; 4038; 1608; 7759; 1927; 7760; 7761; 7762; 8631; 2340; 7763; 5973; 4100; 3168; 7764; 7766; 7765; 7767; 7768; 7769; 7770; 7771; 7772; 7773; 7774; 7775; 7776; 7777; 7778; 7779; 3387; 2222; 7781; 3052; 7782; 7783; 3760; 7784; 7785; 6226; 7107; 7502; 7786; 7787; 7789; 7790; 7791; 4309; 7788; 7792; 7793; 7795; 7794; 7797; 7798; 7796; 4251; 7799; 7800; 6255; 7801; 8403; 8600; 8323; 8334; 8335; 8356; 8395; 8411];
  [8413; 8456; 8462; 8485; 8493; 8494; 8495; 8497; 8501; 8504; 8513; 8524; 8526; 8527; 8536; 8544; 8546; 8547; 8550; 8578; 8585; 8601; 8613; 8614; 8616; 8629; 9; 8647; 83; 79; 82; 84; 8646; 41; 42; 85; 59; 3; 60; 4; 30; 203; 204; 205; 206; 207; 208; 209; 210; 211; 212; 6; 7; 66; 64; 67; 8; 86; 220; 221; 222; 223; 224; 225; 226; 227; 228; 229; 230; 231; 232; 233; 234; 235; 236; 237; 238; 239; 240; 241; 242; 243; 244; 245; 45; 31; 46; 15; 17; 13; 252; 253; 254; 255; 256; 257; 258; 259; 260; 261];
  [262; 263; 264; 265; 266; 267; 268; 269; 270; 271; 272; 273; 274; 275; 276; 277; 47; 34; 48; 32; 80; 81; 137; 16; 8645; 78]].

(** indexes_pointer.cpp:106 *)
Definition index_pointer_Shift_JIS_0 : list Z := concat [
  [167; 168; 176; 177; 180; 182; 215; 247; 913; 914; 915; 916; 917; 918; 919; 920; 921; 922; 923; 924; 925; 926; 927; 928; 929; 931; 932; 933; 934; 935; 936; 937; 945; 946; 947; 948; 949; 950; 951; 952; 953; 954; 955; 956; 957; 958; 959; 960; 961; 963; 964; 965; 966; 967; 968; 969; 1025; 1040; 1041; 1042; 1043; 1044; 1045; 1046; 1047; 1048; 1049; 1050; 1051; 1052; 1053; 1054; 1055; 1056; 1057; 1058; 1059; 1060; 1061; 1062; 1063; 1064; 1065; 1066; 1067; 1068; 1069; 1070; 1071; 1072; 1073; 1074; 1075; 1076; 1077; 1078; 1079; 1080; 1081; 1082];
  [1083; 1084; 1085; 1086; 1087; 1088; 1089; 1090; 1091; 1092; 1093; 1094; 1095; 1096; 1097; 1098; 1099; 1100; 1101; 1102; 1103; 1105; 8208; 8213; 8216; 8217; 8220; 8221; 8224; 8225; 8229; 8230; 8240; 8242; 8243; 8251; 8451; 8470; 8481; 8491; 8544; 8545; 8546; 8547; 8548; 8549; 8550; 8551; 8552; 8553; 8560; 8561; 8562; 8563; 8564; 8565; 8566; 8567; 8568; 8569; 8592; 8593; 8594; 8595; 8658; 8660; 8704; 8706; 8707; 8711; 8712; 8715; 8721; 8730; 8733; 8734; 8735; 8736; 8741; 8743; 8744; 8745; 8746; 8747; 8748; 8750; 8756; 8757; 8765; 8786; 8800; 8801; 8806; 8807; 8810; 8811; 8834; 8835; 8838; 8839];
  [8869; 8895; 8978; 9312; 9313; 9314; 9315; 9316; 9317; 9318; 9319; 9320; 9321; 9322; 9323; 9324; 9325; 9326; 9327; 9328; 9329; 9330; 9331; 9472; 9473; 9474; 9475; 9484; 9487; 9488; 9491; 9492; 9495; 9496; 9499; 9500; 9501; 9504; 9507; 9508; 9509; 9512; 9515; 9516; 9519; 9520; 9523; 9524; 9527; 9528; 9531; 9532; 9535; 9538; 9547; 9632; 9633; 9650; 9651; 9660; 9661; 9670; 9671; 9675; 9678; 9679; 9711; 9733; 9734; 9792; 9794; 9834; 9837; 9839; 12288; 12289; 12290; 12291; 12293; 12294; 12295; 12296; 12297; 12298; 12299; 12300; 12301; 12302; 12303; 12304; 12305; 12306; 12307; 12308; 12309; 12317; 12319; 12353; 12354; 12355];
  [12356; 12357; 12358; 12359; 12360; 12361; 12362; 12363; 12364; 12365; 12366; 12367; 12368; 12369; 12370; 12371; 12372; 12373; 12374; 12375; 12376; 12377; 12378; 12379; 12380; 12381; 12382; 12383; 12384; 12385; 12386; 12387; 12388; 12389; 12390; 12391; 12392; 12393; 12394; 12395; 12396; 12397; 12398; 12399; 12400; 12401; 12402; 12403; 12404; 12405; 12406; 12407; 12408; 12409; 12410; 12411; 12412; 12413; 12414; 12415; 12416; 12417; 12418; 12419; 12420; 12421; 12422; 12423; 12424; 12425; 12426; 12427; 12428; 12429; 12430; 12431; 12432; 12433; 12434; 12435; 12443; 12444; 12445; 12446; 12449; 12450; 12451; 12452; 12453; 12454; 12455; 12456; 12457; 12458; 12459; 12460; 12461; 12462; 12463; 12464];
  [12465; 12466; 12467; 12468; 12469; 12470; 12471; 12472; 12473; 12474; 12475; 12476; 12477; 12478; 12479; 12480; 12481; 12482; 12483; 12484; 12485; 12486; 12487; 12488; 12489; 12490; 12491; 12492; 12493; 12494; 12495; 12496; 12497; 12498; 12499; 12500; 12501; 12502; 12503; 12504; 12505; 12506; 12507; 12508; 12509; 12510; 12511; 12512; 12513; 12514; 12515; 12516; 12517; 12518; 12519; 12520; 12521; 12522; 12523; 12524; 12525; 12526; 12527; 12528; 12529; 12530; 12531; 12532; 12533; 12534; 12539; 12540; 12541; 12542; 12849; 12850; 12857; 12964; 12965; 12966; 12967; 12968; 13059; 13069; 13076; 13080; 13090; 13091; 13094; 13095; 13099; 13110; 13115; 13129; 13130; 13133; 13137; 13143; 13179; 13180];
  [13181; 13182; 13198; 13199; 13212; 13213; 13214; 13217; 13252; 13261; 19968; 19969; 19971; 19975; 19976; 19977; 19978; 19979; 19981; 19982; 19984; 19985; 19988; 19989; 19990; 19991; 19992; 19993; 19998; 20001; 20006; 20008; 20010; 20013; 20017; 20018; 20022; 20024; 20025; 20027; 20028; 20031; 20034; 20035; 20037; 20043; 20045; 20046; 20047; 20053; 20054; 20055; 20056; 20057; 20061; 20062; 20063; 20066; 20081; 20083; 20094; 20096; 20098; 20101; 20102; 20104; 20105; 20106; 20107; 20108; 20110; 20113; 20114; 20116; 20117; 20120; 20121; 20123; 20124; 20126; 20127; 20128; 20129; 20130; 20132; 20133; 20134; 20136; 20139; 20140; 20141; 20142; 20144; 20147; 20150; 20154; 20160; 20161; 20162; 20164];
  [20166; 20167; 20170; 20171; 20173; 20174; 20175; 20180; 20181; 20182; 20183; 20184; 20185; 20189; 20190; 20191; 20193; 20195; 20196; 20197; 20205; 20206; 20208; 20210; 20214; 20215; 20219; 20220; 20224; 20225; 20227; 20233; 20234; 20237; 20238; 20239; 20240; 20241; 20250; 20252; 20253; 20271; 20272; 20276; 20278; 20280; 20281; 20282; 20284; 20285; 20291; 20294; 20295; 20301; 20302; 20303; 20304; 20305; 20307; 20309; 20310; 20311; 20313; 20314; 20315; 20316; 20317; 20318; 20329; 20335; 20336; 20339; 20341; 20342; 20347; 20348; 20351; 20355; 20358; 20360; 20362; 20363; 20365; 20367; 20369; 20370; 20372; 20374; 20376; 20378; 20379; 20381; 20384; 20385; 20395; 20397; 20398; 20399; 20405; 20406];
  [20415; 20418; 20419; 20420; 20425; 20426; 20429; 20430; 20432; 20433; 20436; 20439; 20440; 20442; 20443; 20445; 20447; 20449; 20451; 20452; 20453; 20462; 20463; 20467; 20469; 20470; 20472; 20474; 20478; 20479; 20485; 20486; 20489; 20491; 20493; 20495; 20497; 20498; 20500; 20502; 20505; 20506; 20510; 20511; 20513; 20514; 20515; 20516; 20517; 20518; 20520; 20521; 20522; 20523; 20524; 20525; 20534; 20537; 20544; 20546; 20547; 20550; 20551; 20552; 20553; 20559; 20560; 20565; 20566; 20570; 20572; 20581; 20588; 20592; 20594; 20596; 20597; 20598; 20600; 20605; 20608; 20613; 20621; 20625; 20628; 20632; 20633; 20634; 20652; 20653; 20658; 20659; 20660; 20661; 20663; 20670; 20674; 20677; 20681; 20682];
  [20685; 20687; 20689; 20693; 20694; 20696; 20698; 20702; 20707; 20709; 20711; 20717; 20718; 20724; 20725; 20729; 20731; 20736; 20737; 20738; 20740; 20745; 20754; 20756; 20757; 20758; 20760; 20762; 20767; 20769; 20778; 20786; 20791; 20794; 20795; 20796; 20799; 20800; 20801; 20803; 20804; 20805; 20806; 20807; 20808; 20809; 20810; 20811; 20812; 20813; 20814; 20816; 20818; 20820; 20826; 20828; 20834; 20836; 20837; 20840; 20841; 20842; 20843; 20844; 20845; 20846; 20849; 20853; 20854; 20855; 20856; 20860; 20864; 20866; 20869; 20870; 20873; 20874; 20876; 20877; 20879; 20880; 20881; 20882; 20883; 20885; 20886; 20887; 20889; 20893; 20896; 20898; 20900; 20901; 20902; 20904; 20905; 20906; 20907; 20908];
  [20912; 20913; 20914; 20915; 20916; 20917; 20918; 20919; 20925; 20926; 20932; 20933; 20934; 20937; 20939; 20940; 20941; 20950; 20955; 20956; 20957; 20960; 20961; 20966; 20967; 20969; 20970; 20972; 20973; 20976; 20977; 20981; 20982; 20984; 20985; 20986; 20989; 20990; 20992; 20995; 20996; 20998; 20999; 21000; 21002; 21003; 21006; 21009; 21012; 21013; 21015; 21021; 21028; 21029; 21031; 21033; 21034; 21038; 21040; 21043; 21046; 21047; 21048; 21049; 21050; 21051; 21059; 21060; 21063; 21066; 21067; 21068; 21069; 21071; 21076; 21078; 21083; 21086; 21091; 21092; 21093; 21097; 21098; 21103; 21104; 21105; 21106; 21107; 21108; 21109; 21117; 21119; 21123; 21127; 21128; 21129; 21133; 21137; 21138; 21140];
  [21147; 21148; 21151; 21152; 21155; 21158; 21161; 21162; 21163; 21164; 21165; 21167; 21169; 21172; 21173; 21177; 21180; 21182; 21184; 21185; 21187; 21189; 21191; 21193; 21197; 21202; 21205; 21207; 21208; 21209; 21211; 21213; 21214; 21215; 21216; 21218; 21219; 21220; 21222; 21223; 21234; 21235; 21237; 21240; 21241; 21242; 21246; 21247; 21248; 21249; 21250; 21253; 21254; 21255; 21256; 21261; 21263; 21264; 21269; 21270; 21271; 21273; 21274; 21277; 21280; 21281; 21283; 21284; 21290; 21295; 21297; 21299; 21304; 21305; 21306; 21307; 21311; 21312; 21313; 21315; 21317; 21318; 21319; 21320; 21321; 21322; 21325; 21329; 21330; 21331; 21332; 21335; 21336; 21338; 21340; 21342; 21344; 21350; 21353; 21358];
  [21359; 21360; 21361; 21362; 21363; 21364; 21365; 21367; 21368; 21371; 21375; 21378; 21380; 21395; 21398; 21400; 21402; 21407; 21408; 21413; 21414; 21416; 21417; 21421; 21422; 21424; 21426; 21427; 21430; 21435; 21442; 21443; 21448; 21449; 21450; 21451; 21452; 21453; 21454; 21460; 21462; 21463; 21465; 21467; 21469; 21471; 21473; 21474; 21475; 21476; 21477; 21480; 21481; 21482; 21483; 21484; 21485; 21486; 21487; 21488; 21489; 21490; 21491; 21494; 21495; 21496; 21498; 21505; 21507; 21508; 21512; 21513; 21514; 21515; 21516; 21517; 21518; 21519; 21520; 21521; 21531; 21533; 21535; 21536; 21542; 21545; 21547; 21548; 21549; 21550; 21558; 21560; 21561; 21563; 21564; 21565; 21566; 21568; 21570; 21574];
  [21576; 21577; 21578; 21582; 21585; 21599; 21608; 21610; 21616; 21617; 21619; 21621; 21622; 21623; 21627; 21628; 21629; 21632; 21636; 21638; 21642; 21643; 21644; 21646; 21647; 21648; 21650; 21660; 21666; 21668; 21669; 21672; 21673; 21675; 21676; 21679; 21682; 21683; 21688; 21692; 21693; 21694; 21696; 21697; 21698; 21700; 21703; 21704; 21705; 21720; 21729; 21730; 21733; 21734; 21736; 21737; 21741; 21742; 21746; 21754; 21757; 21759; 21764; 21766; 21767; 21775; 21776; 21780; 21782; 21806; 21807; 21809; 21811; 21816; 21817; 21822; 21824; 21828; 21829; 21830; 21836; 21839; 21843; 21846; 21847; 21852; 21853; 21859; 21883; 21884; 21886; 21888; 21891; 21892; 21894; 21895; 21897; 21898; 21899; 21912];
  [21913; 21914; 21916; 21917; 21918; 21919; 21927; 21928; 21929; 21930; 21931; 21932; 21934; 21936; 21942; 21956; 21957; 21959; 21972; 21978; 21980; 21983; 21987; 21988; 22007; 22009; 22013; 22014; 22022; 22025; 22036; 22038; 22039; 22040; 22043; 22057; 22063; 22065; 22066; 22068; 22070; 22072; 22082; 22092; 22094; 22096; 22107; 22116; 22120; 22122; 22123; 22124; 22132; 22136; 22138; 22144; 22150; 22151; 22154; 22159; 22164; 22176; 22178; 22181; 22190; 22196; 22198; 22204; 22208; 22209; 22210; 22211; 22216; 22222; 22225; 22227; 22231; 22232; 22234; 22235; 22238; 22240; 22243; 22254; 22256; 22258; 22259; 22265; 22266; 22269; 22271; 22272; 22275; 22276; 22280; 22281; 22283; 22285; 22287; 22290];
  [22291; 22294; 22296; 22300; 22303; 22310; 22311; 22312; 22317; 22320; 22327; 22328; 22331; 22336; 22338; 22343; 22346; 22350; 22351; 22352; 22353; 22361; 22369; 22372; 22373; 22374; 22377; 22378; 22399; 22402; 22408; 22409; 22411; 22419; 22432; 22434; 22435; 22436; 22442; 22444; 22448; 22451; 22464; 22467; 22470; 22471; 22472; 22475; 22478; 22482; 22483; 22484; 22486; 22492; 22495; 22496; 22499; 22516; 22519; 22521; 22522; 22524; 22528; 22530; 22533; 22534; 22538; 22539; 22549; 22553; 22557; 22561; 22564; 22570; 22575; 22576; 22577; 22580; 22581; 22586; 22589; 22592; 22593; 22602; 22603; 22609; 22610; 22612; 22615; 22616; 22617; 22618; 22622; 22626; 22633; 22635; 22640; 22642; 22645; 22649];
  [22654; 22659; 22661; 22675; 22679; 22684; 22686; 22687; 22696; 22699; 22702; 22706; 22707; 22712; 22713; 22714; 22715; 22718; 22721; 22725; 22727; 22730; 22732; 22737; 22739; 22741; 22743; 22744; 22745; 22748; 22750; 22751; 22756; 22757; 22763; 22764; 22766; 22767; 22768; 22769; 22770; 22775; 22777; 22778; 22779; 22780; 22781; 22786; 22793; 22794; 22795; 22799; 22800; 22805; 22806; 22808; 22809; 22810; 22811; 22812; 22818; 22821; 22823; 22825; 22826; 22827; 22828; 22829; 22830; 22833; 22834; 22839; 22840; 22846; 22852; 22855; 22856; 22857; 22862; 22863; 22864; 22865; 22867; 22868; 22869; 22871; 22872; 22874; 22875; 22877; 22880; 22882; 22883; 22885; 22887; 22888; 22889; 22890; 22892; 22894];
  [22899; 22900; 22904; 22909; 22913; 22914; 22915; 22916; 22922; 22925; 22931; 22934; 22937; 22939; 22941; 22947; 22948; 22949; 22952; 22956; 22962; 22969; 22970; 22971; 22974; 22982; 22985; 22987; 22992; 22993; 22995; 22996; 23001; 23002; 23004; 23013; 23014; 23016; 23018; 23019; 23030; 23035; 23039; 23041; 23043; 23049; 23057; 23064; 23066; 23068; 23071; 23072; 23077; 23081; 23087; 23093; 23094; 23100; 23104; 23105; 23110; 23113; 23130; 23138; 23142; 23146; 23148; 23167; 23186; 23194; 23195; 23228; 23229; 23230; 23233; 23234; 23241; 23243; 23244; 23248; 23254; 23255; 23265; 23267; 23270; 23273; 23290; 23291; 23305; 23307; 23308; 23318; 23330; 23338; 23340; 23344; 23346; 23350; 23358; 23360];
  [23363; 23365; 23376; 23377; 23380; 23381; 23382; 23383; 23384; 23386; 23387; 23388; 23389; 23391; 23395; 23396; 23397; 23398; 23401; 23403; 23408; 23409; 23411; 23413; 23416; 23418; 23424; 23427; 23429; 23431; 23432; 23433; 23435; 23436; 23437; 23439; 23445; 23447; 23448; 23449; 23450; 23451; 23452; 23453; 23455; 23458; 23459; 23460; 23461; 23462; 23470; 23472; 23475; 23476; 23477; 23478; 23480; 23481; 23487; 23488; 23490; 23491; 23492; 23493; 23494; 23495; 23497; 23500; 23504; 23506; 23507; 23508; 23512; 23515; 23517; 23518; 23519; 23521; 23522; 23524; 23525; 23526; 23527; 23528; 23529; 23531; 23532; 23534; 23536; 23539; 23541; 23542; 23544; 23546; 23550; 23551; 23553; 23554; 23556; 23557];
  [23558; 23559; 23560; 23561; 23562; 23563; 23565; 23566; 23567; 23569; 23571; 23574; 23578; 23582; 23584; 23586; 23588; 23592; 23597; 23601; 23608; 23609; 23610; 23611; 23612; 23613; 23614; 23615; 23616; 23617; 23621; 23622; 23624; 23626; 23627; 23629; 23630; 23631; 23632; 23633; 23635; 23637; 23646; 23648; 23649; 23652; 23653; 23660; 23662; 23663; 23665; 23670; 23673; 23692; 23696; 23697; 23700; 23713; 23718; 23720; 23721; 23723; 23724; 23729; 23731; 23734; 23735; 23736; 23738; 23739; 23740; 23742; 23749; 23751; 23769; 23776; 23777; 23784; 23785; 23786; 23789; 23791; 23792; 23797; 23798; 23802; 23803; 23805; 23815; 23819; 23822; 23825; 23828; 23829; 23830; 23831; 23832; 23833; 23834; 23835];
  [23839; 23842; 23847; 23849; 23874; 23883; 23884; 23886; 23888; 23890; 23891; 23900; 23913; 23916; 23917; 23919; 23923; 23926; 23938; 23940; 23943; 23947; 23948; 23952; 23965; 23970; 23980; 23982; 23991; 23992; 23993; 23994; 23996; 23997; 24009; 24012; 24013; 24016; 24018; 24019; 24022; 24027; 24029; 24030; 24033; 24035; 24037; 24038; 24039; 24040; 24043; 24046; 24049; 24050; 24051; 24052; 24053; 24055; 24059; 24061; 24062; 24066; 24067; 24070; 24075; 24076; 24081; 24086; 24089; 24090; 24091; 24093; 24101; 24107; 24109; 24111; 24112; 24115; 24118; 24119; 24120; 24125; 24128; 24131; 24132; 24133; 24135; 24140; 24142; 24148; 24149; 24151; 24159; 24161; 24162; 24163; 24164; 24178; 24179; 24180];
  [24181; 24182; 24184; 24185; 24186; 24187; 24188; 24189; 24190; 24191; 24193; 24195; 24196; 24199; 24202; 24207; 24213; 24214; 24215; 24218; 24220; 24224; 24230; 24231; 24235; 24237; 24245; 24246; 24247; 24248; 24257; 24258; 24259; 24264; 24265; 24266; 24271; 24272; 24275; 24278; 24282; 24283; 24285; 24287; 24288; 24289; 24290; 24291; 24296; 24297; 24300; 24304; 24305; 24307; 24308; 24310; 24311; 24312; 24314; 24315; 24316; 24318; 24319; 24321; 24323; 24324; 24329; 24330; 24331; 24332; 24333; 24335; 24336; 24337; 24339; 24340; 24341; 24342; 24343; 24344; 24347; 24351; 24353; 24357; 24358; 24359; 24361; 24365; 24367; 24369; 24372; 24373; 24375; 24376; 24380; 24382; 24385; 24389; 24392; 24394];
  [24396; 24398; 24401; 24403; 24406; 24407; 24409; 24412; 24413; 24417; 24418; 24422; 24423; 24425; 24426; 24427; 24428; 24429; 24432; 24433; 24435; 24439; 24441; 24444; 24447; 24448; 24449; 24450; 24451; 24452; 24453; 24455; 24456; 24458; 24459; 24460; 24464; 24465; 24466; 24467; 24471; 24472; 24473; 24478; 24480; 24481; 24488; 24489; 24490; 24493; 24494; 24499; 24500; 24503; 24505; 24508; 24509; 24515; 24517; 24524; 24525; 24534; 24535; 24536; 24537; 24540; 24541; 24542; 24544; 24548; 24555; 24560; 24561; 24565; 24568; 24571; 24573; 24575; 24590; 24591; 24592; 24594; 24597; 24598; 24601; 24603; 24604; 24605; 24608; 24609; 24613; 24614; 24615; 24616; 24617; 24618; 24619; 24623; 24625; 24634];
  [24641; 24642; 24643; 24646; 24650; 24651; 24653; 24656; 24658; 24661; 24665; 24666; 24669; 24671; 24672; 24674; 24675; 24676; 24677; 24680; 24681; 24682; 24683; 24684; 24685; 24687; 24688; 24693; 24695; 24705; 24707; 24708; 24709; 24713; 24714; 24715; 24716; 24717; 24722; 24724; 24726; 24727; 24730; 24731; 24735; 24736; 24739; 24742; 24743; 24745; 24746; 24754; 24755; 24756; 24757; 24758; 24760; 24764; 24765; 24773; 24774; 24775; 24785; 24787; 24789; 24792; 24794; 24796; 24798; 24799; 24800; 24801; 24803; 24807; 24808; 24816; 24817; 24818; 24819; 24820; 24822; 24823; 24825; 24826; 24827; 24832; 24833; 24835; 24838; 24840; 24841; 24845; 24846; 24847; 24849; 24853; 24858; 24859; 24863; 24864];
  [24865; 24871; 24872; 24876; 24880; 24884; 24887; 24892; 24893; 24894; 24895; 24898; 24900; 24903; 24904; 24906; 24907; 24908; 24909; 24910; 24915; 24917; 24920; 24921; 24922; 24925; 24927; 24930; 24931; 24933; 24935; 24936; 24939; 24942; 24943; 24944; 24945; 24947; 24948; 24949; 24950; 24951; 24958; 24962; 24967; 24970; 24974; 24976; 24977; 24980; 24982; 24984; 24985; 24986; 24996; 24999; 25001; 25003; 25004; 25006; 25010; 25014; 25018; 25022; 25027; 25030; 25031; 25032; 25033; 25034; 25035; 25036; 25037; 25040; 25059; 25062; 25074; 25076; 25078; 25079; 25080; 25082; 25084; 25085; 25086; 25087; 25088; 25096; 25097; 25098; 25100; 25101; 25102; 25104; 25105; 25106; 25107; 25108; 25110; 25114];
  [25115; 25117; 25118; 25119; 25121; 25126; 25130; 25134; 25135; 25136; 25138; 25139; 25140; 25144; 25147; 25151; 25152; 25153; 25159; 25160; 25161; 25163; 25165; 25166; 25171; 25173; 25176; 25179; 25182; 25184; 25187; 25192; 25198; 25201; 25206; 25209; 25212; 25214; 25215; 25216; 25218; 25219; 25220; 25225; 25226; 25233; 25234; 25235; 25236; 25237; 25238; 25239; 25240; 25243; 25244; 25246; 25254; 25259; 25260; 25265; 25269; 25273; 25275; 25276; 25277; 25282; 25285; 25286; 25287; 25288; 25289; 25290; 25292; 25293; 25295; 25296; 25297; 25298; 25299; 25300; 25303; 25304; 25305; 25307; 25308; 25309; 25312; 25313; 25324; 25325; 25326; 25327; 25329; 25331; 25333; 25334; 25335; 25342; 25343; 25345];
  [25346; 25351; 25352; 25353; 25356; 25361; 25369; 25375; 25383; 25384; 25387; 25391; 25402; 25405; 25406; 25407; 25417; 25420; 25421; 25423; 25424; 25429; 25431; 25436; 25447; 25448; 25449; 25451; 25454; 25458; 25462; 25463; 25466; 25467; 25472; 25475; 25480; 25481; 25484; 25486; 25487; 25490; 25494; 25496; 25499; 25503; 25504; 25505; 25506; 25507; 25509; 25511; 25512; 25513; 25514; 25515; 25516; 25522; 25524; 25525; 25531; 25534; 25536; 25539; 25540; 25542; 25545; 25551; 25552; 25554; 25558; 25562; 25563; 25569; 25571; 25577; 25582; 25588; 25589; 25590; 25594; 25606; 25613; 25615; 25619; 25622; 25623; 25628; 25638; 25640; 25644; 25645; 25652; 25654; 25658; 25662; 25666; 25678; 25688; 25696];
  [25703; 25705; 25711; 25718; 25720; 25722; 25731; 25736; 25746; 25747; 25749; 25754; 25757; 25758; 25764; 25765; 25769; 25771; 25773; 25774; 25776; 25778; 25785; 25787; 25788; 25793; 25794; 25797; 25799; 25805; 25806; 25810; 25812; 25816; 25818; 25824; 25825; 25826; 25827; 25830; 25831; 25836; 25839; 25841; 25842; 25844; 25846; 25850; 25853; 25854; 25856; 25861; 25880; 25884; 25885; 25891; 25892; 25898; 25899; 25900; 25903; 25908; 25909; 25910; 25911; 25912; 25913; 25915; 25918; 25919; 25925; 25928; 25933; 25934; 25935; 25937; 25941; 25942; 25943; 25944; 25945; 25949; 25950; 25954; 25955; 25958; 25964; 25968; 25970; 25972; 25973; 25975; 25976; 25986; 25987; 25991; 25992; 25993; 25996; 25998];
  [26000; 26001; 26007; 26009; 26011; 26012; 26015; 26017; 26020; 26021; 26023; 26027; 26028; 26029; 26031; 26032; 26039; 26041; 26044; 26045; 26049; 26051; 26052; 26053; 26054; 26059; 26060; 26063; 26066; 26071; 26073; 26075; 26080; 26081; 26082; 26085; 26086; 26087; 26088; 26089; 26092; 26093; 26097; 26106; 26107; 26112; 26114; 26115; 26118; 26119; 26121; 26122; 26124; 26126; 26127; 26131; 26132; 26133; 26140; 26142; 26143; 26144; 26148; 26149; 26151; 26152; 26157; 26158; 26159; 26161; 26164; 26165; 26166; 26171; 26172; 26175; 26177; 26178; 26179; 26180; 26185; 26187; 26191; 26194; 26199; 26201; 26205; 26206; 26207; 26210; 26212; 26213; 26214; 26215; 26216; 26217; 26222; 26223; 26224; 26227];
  [26228; 26230; 26234; 26241; 26243; 26244; 26247; 26248; 26249; 26254; 26257; 26262; 26263; 26264; 26265; 26269; 26272; 26274; 26278; 26283; 26286; 26290; 26292; 26296; 26297; 26300; 26302; 26303; 26305; 26308; 26311; 26313; 26326; 26329; 26330; 26332; 26333; 26336; 26342; 26345; 26352; 26354; 26355; 26356; 26357; 26359; 26360; 26361; 26362; 26363; 26364; 26365; 26366; 26367; 26368; 26371; 26376; 26377; 26379; 26381; 26382; 26383; 26388; 26389; 26390; 26391; 26395; 26397; 26398; 26399; 26406; 26407; 26408; 26410; 26411; 26412; 26413; 26414; 26417; 26420; 26422; 26423; 26424; 26426; 26429; 26431; 26433; 26438; 26441; 26446; 26447; 26448; 26449; 26451; 26454; 26457; 26460; 26462; 26463; 26464];
  [26465; 26466; 26467; 26468; 26469; 26470; 26474; 26477; 26479; 26480; 26481; 26482; 26483; 26485; 26487; 26492; 26494; 26495; 26501; 26503; 26505; 26507; 26508; 26512; 26517; 26519; 26522; 26524; 26525; 26528; 26529; 26530; 26534; 26537; 26543; 26547; 26548; 26550; 26551; 26552; 26553; 26555; 26560; 26561; 26564; 26566; 26570; 26574; 26575; 26576; 26577; 26579; 26580; 26584; 26586; 26589; 26590; 26594; 26596; 26599; 26601; 26604; 26606; 26607; 26609; 26611; 26612; 26613; 26619; 26622; 26623; 26625; 26626; 26627; 26628; 26643; 26646; 26647; 26654; 26657; 26658; 26665; 26666; 26667; 26674; 26676; 26680; 26681; 26684; 26685; 26688; 26689; 26690; 26691; 26692; 26694; 26696; 26701; 26702; 26704];
  [26705; 26706; 26707; 26708; 26713; 26716; 26717; 26719; 26723; 26727; 26740; 26742; 26743; 26750; 26751; 26753; 26755; 26757; 26765; 26767; 26771; 26772; 26775; 26779; 26781; 26783; 26784; 26786; 26790; 26791; 26792; 26797; 26799; 26800; 26801; 26803; 26805; 26806; 26809; 26810; 26812; 26820; 26822; 26824; 26825; 26826; 26827; 26829; 26831; 26834; 26836; 26837; 26839; 26840; 26842; 26847; 26848; 26849; 26851; 26855; 26862; 26863; 26866; 26873; 26874; 26880; 26881; 26884; 26885; 26888; 26891; 26892; 26893; 26894; 26895; 26898; 26905; 26906; 26907; 26908; 26913; 26914; 26915; 26917; 26918; 26920; 26922; 26928; 26932; 26934; 26937; 26941; 26943; 26954; 26963; 26964; 26965; 26969; 26970; 26972];
  [26973; 26974; 26976; 26977; 26978; 26984; 26986; 26987; 26989; 26990; 26991; 26995; 26996; 26997; 26999; 27000; 27001; 27004; 27005; 27006; 27009; 27010; 27018; 27022; 27025; 27028; 27029; 27032; 27035; 27036; 27040; 27047; 27054; 27057; 27058; 27060; 27067; 27070; 27071; 27073; 27075; 27079; 27082; 27083; 27084; 27085; 27086; 27088; 27091; 27096; 27097; 27101; 27102; 27106; 27111; 27112; 27115; 27117; 27122; 27129; 27131; 27133; 27135; 27138; 27141; 27146; 27147; 27148; 27154; 27155; 27156; 27159; 27161; 27163; 27166; 27167; 27169; 27170; 27171; 27177; 27178; 27179; 27182; 27184; 27189; 27190; 27192; 27193; 27194; 27197; 27204; 27206; 27207; 27208; 27211; 27224; 27225; 27231; 27233; 27234];
  [27238; 27243; 27250; 27251; 27256; 27262; 27263; 27264; 27268; 27277; 27278; 27280; 27287; 27292; 27296; 27298; 27299; 27306; 27308; 27310; 27315; 27320; 27323; 27329; 27330; 27331; 27345; 27347; 27354; 27355; 27358; 27359; 27362; 27364; 27368; 27370; 27386; 27387; 27396; 27397; 27402; 27410; 27414; 27421; 27423; 27424; 27425; 27427; 27431; 27442; 27447; 27448; 27449; 27450; 27453; 27454; 27459; 27463; 27465; 27468; 27470; 27472; 27475; 27476; 27481; 27483; 27487; 27489; 27490; 27491; 27492; 27494; 27497; 27498; 27503; 27507; 27508; 27512; 27513; 27515; 27519; 27520; 27523; 27524; 27526; 27529; 27530; 27531; 27533; 27541; 27542; 27544; 27550; 27556; 27562; 27563; 27567; 27569; 27570; 27571];
  [27572; 27573; 27575; 27578; 27579; 27580; 27583; 27584; 27589; 27590; 27595; 27597; 27598; 27602; 27603; 27604; 27606; 27608; 27611; 27615; 27627; 27628; 27631; 27635; 27656; 27663; 27665; 27667; 27668; 27671; 27675; 27683; 27684; 27700; 27703; 27704; 27710; 27711; 27712; 27713; 27714; 27726; 27728; 27733; 27735; 27738; 27740; 27741; 27742; 27743; 27744; 27746; 27752; 27754; 27759; 27760; 27762; 27763; 27770; 27773; 27774; 27777; 27778; 27779; 27782; 27784; 27788; 27789; 27792; 27794; 27795; 27798; 27801; 27802; 27803; 27809; 27810; 27819; 27822; 27825; 27827; 27832; 27833; 27834; 27835; 27836; 27837; 27838; 27839; 27841; 27844; 27845; 27849; 27850; 27852; 27859; 27861; 27863; 27865; 27866];
  [27867; 27869; 27873; 27874; 27875; 27877; 27880; 27882; 27887; 27888; 27889; 27891; 27908; 27915; 27916; 27922; 27927; 27929; 27931; 27934; 27935; 27941; 27945; 27946; 27947; 27954; 27955; 27957; 27958; 27960; 27963; 27965; 27966; 27969; 27972; 27973; 27993; 27994; 27996; 28003; 28004; 28006; 28009; 28010; 28012; 28014; 28015; 28020; 28023; 28024; 28025; 28037; 28039; 28040; 28044; 28046; 28051; 28053; 28054; 28057; 28059; 28060; 28076; 28079; 28082; 28085; 28088; 28092; 28096; 28101; 28102; 28103; 28107; 28108; 28111; 28113; 28114; 28117; 28120; 28121; 28126; 28129; 28132; 28134; 28136; 28138; 28139; 28140; 28142; 28145; 28146; 28147; 28149; 28151; 28152; 28153; 28154; 28155; 28156; 28165];
  [28167; 28168; 28169; 28170; 28171; 28179; 28181; 28185; 28186; 28187; 28189; 28191; 28192; 28193; 28195; 28196; 28197; 28198; 28199; 28201; 28203; 28204; 28205; 28206; 28207; 28216; 28217; 28218; 28220; 28222; 28227; 28234; 28237; 28238; 28246; 28248; 28251; 28252; 28255; 28263; 28267; 28270; 28271; 28274; 28278; 28286; 28287; 28288; 28290; 28300; 28303; 28304; 28310; 28312; 28316; 28317; 28319; 28322; 28325; 28330; 28335; 28338; 28342; 28343; 28346; 28349; 28351; 28354; 28356; 28357; 28361; 28363; 28364; 28369; 28371; 28372; 28373; 28381; 28382; 28396; 28399; 28402; 28404; 28407; 28408; 28414; 28415; 28417; 28418; 28422; 28425; 28431; 28433; 28435; 28436; 28437; 28448; 28450; 28451; 28459];
  [28460; 28465; 28466; 28472; 28478; 28479; 28481; 28485; 28500; 28504; 28507; 28508; 28511; 28516; 28518; 28525; 28526; 28527; 28528; 28532; 28536; 28538; 28540; 28544; 28545; 28546; 28548; 28550; 28552; 28558; 28561; 28567; 28577; 28579; 28580; 28586; 28593; 28595; 28597; 28601; 28608; 28609; 28610; 28611; 28614; 28628; 28629; 28632; 28635; 28639; 28640; 28641; 28644; 28651; 28652; 28654; 28655; 28657; 28659; 28661; 28662; 28666; 28670; 28673; 28677; 28679; 28681; 28683; 28687; 28689; 28693; 28696; 28698; 28699; 28701; 28702; 28703; 28710; 28711; 28712; 28716; 28720; 28722; 28734; 28748; 28753; 28760; 28771; 28779; 28783; 28784; 28792; 28796; 28797; 28805; 28809; 28810; 28814; 28818; 28825];
  [28843; 28844; 28845; 28846; 28847; 28851; 28856; 28857; 28858; 28859; 28872; 28875; 28879; 28889; 28893; 28895; 28913; 28921; 28925; 28932; 28937; 28943; 28948; 28953; 28954; 28956; 28961; 28966; 28982; 28988; 28998; 28999; 29001; 29004; 29006; 29013; 29014; 29017; 29020; 29026; 29028; 29029; 29030; 29031; 29033; 29036; 29038; 29053; 29060; 29064; 29066; 29071; 29076; 29077; 29081; 29087; 29096; 29100; 29105; 29113; 29118; 29121; 29123; 29128; 29129; 29134; 29136; 29138; 29140; 29141; 29143; 29151; 29152; 29157; 29158; 29159; 29164; 29165; 29166; 29173; 29177; 29179; 29180; 29182; 29183; 29190; 29197; 29200; 29211; 29224; 29226; 29228; 29229; 29232; 29234; 29237; 29238; 29242; 29243; 29244];
  [29245; 29246; 29247; 29248; 29254; 29255; 29256; 29259; 29260; 29266; 29272; 29273; 29275; 29277; 29279; 29281; 29282; 29287; 29289; 29298; 29300; 29305; 29309; 29310; 29312; 29313; 29314; 29319; 29330; 29334; 29344; 29346; 29351; 29356; 29359; 29361; 29362; 29366; 29369; 29374; 29378; 29379; 29380; 29382; 29390; 29392; 29394; 29399; 29401; 29403; 29408; 29409; 29410; 29417; 29420; 29421; 29431; 29432; 29433; 29436; 29437; 29450; 29462; 29463; 29467; 29468; 29469; 29471; 29476; 29477; 29481; 29482; 29483; 29486; 29487; 29492; 29494; 29495; 29502; 29503; 29508; 29509; 29518; 29519; 29527; 29539; 29544; 29546; 29552; 29554; 29557; 29559; 29560; 29562; 29563; 29572; 29575; 29577; 29579; 29590];
  [29609; 29618; 29619; 29627; 29629; 29632; 29634; 29640; 29641; 29642; 29645; 29646; 29650; 29654; 29662; 29664; 29667; 29669; 29674; 29677; 29678; 29681; 29685; 29688; 29694; 29699; 29701; 29702; 29703; 29705; 29730; 29733; 29734; 29737; 29738; 29742; 29746; 29747; 29748; 29749; 29750; 29754; 29759; 29761; 29781; 29785; 29786; 29787; 29788; 29790; 29791; 29792; 29794; 29795; 29796; 29801; 29802; 29807; 29808; 29811; 29814; 29822; 29827; 29833; 29835; 29854; 29855; 29858; 29863; 29872; 29885; 29898; 29903; 29908; 29916; 29920; 29922; 29923; 29926; 29927; 29929; 29934; 29936; 29937; 29938; 29942; 29943; 29944; 29953; 29955; 29956; 29957; 29964; 29965; 29966; 29969; 29971; 29973; 29976; 29978];
  [29980; 29982; 29983; 29987; 29989; 29990; 29992; 29995; 29996; 29999; 30000; 30001; 30002; 30003; 30007; 30008; 30010; 30011; 30012; 30020; 30022; 30025; 30026; 30027; 30028; 30029; 30031; 30033; 30036; 30041; 30042; 30043; 30044; 30045; 30048; 30050; 30052; 30053; 30054; 30055; 30057; 30058; 30059; 30061; 30063; 30064; 30067; 30068; 30070; 30071; 30072; 30079; 30082; 30086; 30087; 30089; 30090; 30091; 30094; 30095; 30097; 30100; 30106; 30109; 30115; 30117; 30123; 30129; 30130; 30131; 30133; 30136; 30137; 30140; 30141; 30142; 30146; 30147; 30149; 30151; 30154; 30157; 30162; 30164; 30165; 30168; 30169; 30171; 30174; 30178; 30179; 30185; 30192; 30194; 30195; 30196; 30202; 30204; 30206; 30207];
  [30209; 30217; 30219; 30221; 30239; 30240; 30241; 30242; 30244; 30247; 30256; 30260; 30267; 30274; 30278; 30279; 30280; 30284; 30290; 30294; 30296; 30300; 30305; 30306; 30311; 30312; 30313; 30314; 30316; 30320; 30322; 30326; 30328; 30330; 30331; 30332; 30333; 30334; 30336; 30338; 30339; 30340; 30342; 30343; 30344; 30347; 30350; 30352; 30355; 30358; 30361; 30362; 30363; 30364; 30366; 30374; 30382; 30384; 30388; 30391; 30392; 30393; 30394; 30399; 30402; 30403; 30406; 30408; 30410; 30413; 30418; 30422; 30423; 30427; 30428; 30430; 30431; 30433; 30435; 30436; 30437; 30439; 30442; 30446; 30450; 30452; 30456; 30459; 30462; 30465; 30468; 30471; 30472; 30473; 30475; 30476; 30491; 30494; 30495; 30496];
  [30500; 30501; 30502; 30505; 30519; 30520; 30522; 30524; 30528; 30534; 30535; 30554; 30555; 30561; 30563; 30565; 30566; 30568; 30571; 30585; 30590; 30591; 30603; 30606; 30609; 30622; 30624; 30629; 30636; 30637; 30640; 30643; 30646; 30649; 30651; 30652; 30653; 30655; 30663; 30669; 30679; 30682; 30683; 30684; 30690; 30691; 30693; 30695; 30697; 30701; 30702; 30703; 30707; 30716; 30722; 30732; 30738; 30740; 30741; 30752; 30753; 30757; 30758; 30759; 30770; 30772; 30778; 30783; 30789; 30798; 30813; 30820; 30827; 30828; 30831; 30834; 30836; 30842; 30844; 30849; 30854; 30855; 30860; 30861; 30862; 30865; 30867; 30869; 30871; 30874; 30883; 30887; 30889; 30890; 30895; 30901; 30906; 30908; 30910; 30913];
  [30917; 30918; 30922; 30923; 30928; 30929; 30932; 30938; 30951; 30952; 30956; 30959; 30964; 30973; 30977; 30983; 30990; 30993; 30994; 31001; 31014; 31018; 31019; 31020; 31024; 31034; 31036; 31038; 31040; 31041; 31047; 31048; 31049; 31056; 31059; 31061; 31062; 31063; 31066; 31069; 31070; 31071; 31072; 31074; 31077; 31080; 31085; 31095; 31098; 31103; 31104; 31105; 31108; 31109; 31114; 31117; 31118; 31119; 31124; 31131; 31133; 31142; 31143; 31146; 31150; 31152; 31155; 31161; 31162; 31165; 31166; 31167; 31168; 31169; 31177; 31179; 31185; 31186; 31189; 31192; 31199; 31201; 31203; 31204; 31206; 31207; 31209; 31212; 31216; 31227; 31232; 31240; 31243; 31245; 31246; 31252; 31255; 31256; 31257; 31258];
  [31260; 31263; 31264; 31278; 31281; 31282; 31287; 31291; 31292; 31293; 31294; 31295; 31296; 31298; 31299; 31302; 31305; 31309; 31310; 31311; 31312; 31319; 31329; 31330; 31331; 31337; 31339; 31344; 31348; 31350; 31353; 31354; 31357; 31359; 31361; 31363; 31364; 31368; 31378; 31379; 31381; 31382; 31383; 31384; 31391; 31401; 31402; 31406; 31407; 31408; 31414; 31418; 31423; 31427; 31428; 31429; 31431; 31432; 31434; 31435; 31437; 31439; 31441; 31442; 31443; 31445; 31449; 31450; 31452; 31453; 31455; 31456; 31457; 31458; 31459; 31461; 31462; 31463; 31466; 31467; 31469; 31471; 31472; 31478; 31480; 31481; 31482; 31487; 31490; 31492; 31494; 31496; 31498; 31499; 31503; 31505; 31512; 31513; 31515; 31518];
  [31520; 31525; 31526; 31528; 31532; 31539; 31541; 31542; 31545; 31557; 31558; 31560; 31561; 31563; 31564; 31565; 31567; 31568; 31569; 31570; 31572; 31574; 31581; 31589; 31591; 31596; 31598; 31600; 31601; 31604; 31605; 31610; 31622; 31623; 31627; 31629; 31631; 31634; 31636; 31637; 31639; 31640; 31641; 31642; 31644; 31645; 31646; 31647; 31649; 31658; 31661; 31665; 31668; 31672; 31680; 31681; 31684; 31686; 31687; 31689; 31691; 31692; 31695; 31709; 31712; 31716; 31717; 31718; 31721; 31725; 31731; 31734; 31735; 31744; 31751; 31757; 31761; 31762; 31763; 31764; 31767; 31775; 31777; 31779; 31783; 31786; 31787; 31799; 31800; 31805; 31806; 31807; 31808; 31811; 31820; 31821; 31823; 31824; 31828; 31830];
  [31832; 31839; 31840; 31844; 31845; 31852; 31859; 31861; 31870; 31873; 31874; 31875; 31881; 31883; 31885; 31888; 31890; 31893; 31895; 31896; 31899; 31903; 31905; 31906; 31908; 31909; 31911; 31912; 31915; 31917; 31918; 31921; 31922; 31923; 31929; 31933; 31934; 31936; 31938; 31941; 31946; 31950; 31954; 31958; 31960; 31964; 31966; 31967; 31968; 31970; 31975; 31983; 31986; 31988; 31990; 31992; 31994; 31995; 31998; 32000; 32002; 32004; 32005; 32006; 32010; 32011; 32013; 32016; 32020; 32021; 32023; 32024; 32025; 32026; 32027; 32028; 32032; 32033; 32034; 32043; 32044; 32046; 32047; 32048; 32050; 32051; 32053; 32057; 32058; 32063; 32066; 32067; 32068; 32069; 32070; 32072; 32075; 32076; 32078; 32079];
  [32080; 32086; 32091; 32092; 32094; 32097; 32098; 32099; 32102; 32104; 32110; 32113; 32114; 32115; 32117; 32118; 32121; 32125; 32137; 32143; 32147; 32153; 32154; 32155; 32156; 32159; 32160; 32162; 32163; 32171; 32172; 32173; 32174; 32175; 32176; 32177; 32178; 32180; 32181; 32183; 32184; 32186; 32187; 32189; 32190; 32191; 32199; 32202; 32203; 32207; 32209; 32210; 32213; 32214; 32216; 32218; 32220; 32221; 32222; 32224; 32225; 32228; 32232; 32233; 32236; 32239; 32242; 32244; 32251; 32257; 32260; 32261; 32265; 32266; 32267; 32274; 32283; 32286; 32287; 32289; 32290; 32291; 32294; 32299; 32302; 32305; 32306; 32309; 32311; 32313; 32314; 32315; 32317; 32318; 32321; 32323; 32326; 32330; 32331; 32333];
  [32338; 32340; 32341; 32342; 32345; 32346; 32349; 32350; 32358; 32359; 32361; 32362; 32365; 32368; 32377; 32379; 32380; 32381; 32383; 32386; 32387; 32392; 32393; 32394; 32396; 32398; 32399; 32400; 32402; 32403; 32404; 32406; 32411; 32412; 32566; 32568; 32570; 32581; 32583; 32588; 32589; 32590; 32592; 32593; 32596; 32597; 32600; 32607; 32608; 32615; 32616; 32617; 32618; 32619; 32622; 32624; 32626; 32629; 32631; 32632; 32633; 32642; 32643; 32645; 32646; 32647; 32648; 32650; 32652; 32654; 32660; 32666; 32669; 32670; 32673; 32675; 32676; 32680; 32681; 32686; 32687; 32690; 32694; 32696; 32697; 32701; 32705; 32709; 32710; 32714; 32716; 32722; 32724; 32725; 32736; 32737; 32742; 32745; 32747; 32752];
  [32755; 32761; 32763; 32764; 32768; 32769; 32771; 32772; 32773; 32774; 32779; 32780; 32784; 32786; 32789; 32791; 32792; 32793; 32796; 32801; 32808; 32819; 32822; 32827; 32829; 32831; 32838; 32842; 32850; 32854; 32856; 32858; 32862; 32863; 32865; 32866; 32872; 32879; 32880; 32882; 32883; 32884; 32886; 32887; 32889; 32893; 32894; 32895; 32900; 32901; 32902; 32903; 32905; 32907; 32908; 32915; 32918; 32920; 32922; 32923; 32925; 32929; 32930; 32933; 32937; 32938; 32940; 32941; 32943; 32945; 32946; 32948; 32954; 32963; 32964; 32966; 32972; 32974; 32982; 32985; 32986; 32987; 32989; 32990; 32993; 32996; 32997; 33007; 33009; 33012; 33016; 33020; 33021; 33026; 33029; 33030; 33031; 33032; 33033; 33034];
  [33050; 33051; 33059; 33065; 33071; 33073; 33075; 33081; 33086; 33094; 33099; 33102; 33104; 33105; 33107; 33108; 33109; 33119; 33125; 33126; 33131; 33134; 33136; 33137; 33140; 33144; 33145; 33146; 33151; 33152; 33154; 33155; 33160; 33162; 33167; 33171; 33173; 33178; 33180; 33181; 33184; 33187; 33188; 33192; 33193; 33200; 33203; 33205; 33208; 33210; 33213; 33214; 33215; 33216; 33218; 33222; 33224; 33225; 33229; 33233; 33235; 33240; 33241; 33242; 33247; 33248; 33251; 33253; 33255; 33256; 33258; 33261; 33267; 33268; 33274; 33275; 33276; 33278; 33281; 33282; 33285; 33287; 33288; 33289; 33290; 33292; 33293; 33294; 33296; 33298; 33302; 33303; 33304; 33307; 33308; 33310; 33311; 33321; 33322; 33323];
  [33324; 33326; 33331; 33333; 33334; 33335; 33336; 33337; 33344; 33351; 33368; 33369; 33370; 33373; 33375; 33378; 33380; 33382; 33384; 33386; 33387; 33390; 33391; 33393; 33394; 33398; 33399; 33400; 33406; 33419; 33421; 33426; 33433; 33437; 33439; 33445; 33446; 33451; 33452; 33453; 33455; 33457; 33459; 33464; 33465; 33467; 33469; 33477; 33489; 33490; 33491; 33492; 33495; 33497; 33499; 33500; 33502; 33503; 33505; 33507; 33509; 33510; 33511; 33515; 33521; 33523; 33524; 33529; 33530; 33531; 33537; 33538; 33539; 33540; 33541; 33542; 33545; 33550; 33558; 33559; 33560; 33564; 33571; 33576; 33579; 33583; 33585; 33586; 33588; 33589; 33590; 33592; 33593; 33600; 33605; 33609; 33610; 33615; 33616; 33618];
  [33624; 33634; 33651; 33653; 33655; 33659; 33660; 33663; 33669; 33671; 33673; 33674; 33678; 33683; 33686; 33690; 33694; 33695; 33696; 33698; 33704; 33706; 33707; 33713; 33717; 33725; 33729; 33733; 33735; 33738; 33740; 33742; 33747; 33750; 33752; 33756; 33759; 33760; 33769; 33771; 33775; 33776; 33777; 33778; 33780; 33782; 33783; 33787; 33789; 33795; 33796; 33799; 33803; 33804; 33805; 33806; 33811; 33824; 33826; 33833; 33834; 33836; 33841; 33845; 33848; 33852; 33853; 33862; 33864; 33865; 33870; 33879; 33883; 33889; 33890; 33891; 33894; 33897; 33899; 33900; 33901; 33902; 33903; 33905; 33909; 33911; 33913; 33914; 33922; 33924; 33931; 33936; 33940; 33945; 33948; 33951; 33953; 33965; 33970; 33972];
  [33976; 33977; 33979; 33980; 33983; 33985; 33988; 33990; 33993; 33994; 33995; 33997; 34000; 34001; 34006; 34009; 34010; 34012; 34028; 34030; 34036; 34044; 34047; 34048; 34054; 34065; 34067; 34068; 34069; 34071; 34072; 34074; 34079; 34081; 34086; 34092; 34093; 34101; 34109; 34112; 34113; 34115; 34120; 34121; 34122; 34123; 34126; 34131; 34133; 34135; 34136; 34137; 34138; 34147; 34152; 34153; 34154; 34155; 34157; 34167; 34174; 34176; 34180; 34183; 34184; 34186; 34192; 34193; 34196; 34199; 34201; 34203; 34204; 34212; 34214; 34216; 34217; 34218; 34219; 34220; 34222; 34223; 34224; 34233; 34234; 34241; 34249; 34253; 34255; 34256; 34261; 34268; 34269; 34276; 34277; 34281; 34282; 34295; 34297; 34298];
  [34299; 34302; 34306; 34310; 34311; 34314; 34315; 34323; 34326; 34327; 34330; 34338; 34349; 34351; 34352; 34367; 34381; 34382; 34384; 34388; 34389; 34394; 34396; 34398; 34399; 34407; 34411; 34417; 34425; 34427; 34442; 34443; 34444; 34451; 34453; 34467; 34468; 34473; 34474; 34475; 34479; 34480; 34486; 34500; 34502; 34503; 34505; 34507; 34509; 34510; 34516; 34521; 34523; 34526; 34527; 34532; 34537; 34540; 34541; 34542; 34543; 34552; 34553; 34555; 34558; 34560; 34562; 34563; 34566; 34568; 34569; 34570; 34573; 34577; 34578; 34584; 34586; 34588; 34597; 34601; 34612; 34615; 34619; 34623; 34633; 34635; 34636; 34638; 34643; 34645; 34647; 34649; 34655; 34656; 34659; 34662; 34664; 34666; 34670; 34676];
  [34678; 34680; 34687; 34690; 34701; 34719; 34722; 34731; 34735; 34739; 34746; 34747; 34749; 34752; 34756; 34758; 34759; 34763; 34768; 34770; 34784; 34799; 34802; 34806; 34807; 34809; 34811; 34814; 34821; 34823; 34829; 34830; 34831; 34833; 34837; 34838; 34849; 34850; 34851; 34855; 34865; 34870; 34873; 34875; 34880; 34882; 34884; 34886; 34892; 34893; 34898; 34899; 34903; 34905; 34907; 34909; 34910; 34913; 34914; 34915; 34920; 34923; 34928; 34930; 34933; 34935; 34941; 34942; 34943; 34945; 34946; 34952; 34955; 34957; 34962; 34966; 34967; 34969; 34974; 34978; 34980; 34987; 34990; 34992; 34993; 34996; 34997; 34999; 35007; 35009; 35010; 35011; 35012; 35013; 35023; 35028; 35029; 35032; 35033; 35036];
  [35037; 35039; 35041; 35048; 35058; 35059; 35060; 35061; 35064; 35065; 35068; 35069; 35070; 35074; 35076; 35079; 35082; 35084; 35088; 35090; 35091; 35100; 35101; 35102; 35109; 35114; 35115; 35126; 35128; 35131; 35137; 35139; 35140; 35148; 35149; 35158; 35166; 35167; 35168; 35172; 35174; 35178; 35181; 35183; 35186; 35188; 35191; 35198; 35199; 35201; 35203; 35206; 35207; 35208; 35210; 35211; 35215; 35219; 35222; 35223; 35224; 35226; 35233; 35238; 35239; 35241; 35242; 35244; 35247; 35250; 35251; 35258; 35261; 35263; 35264; 35282; 35290; 35292; 35293; 35299; 35302; 35303; 35316; 35320; 35328; 35330; 35331; 35336; 35338; 35340; 35342; 35344; 35346; 35347; 35350; 35351; 35352; 35355; 35357; 35359];
  [35363; 35365; 35370; 35373; 35377; 35379; 35380; 35382; 35383; 35386; 35387; 35388; 35393; 35398; 35400; 35408; 35409; 35410; 35412; 35413; 35419; 35422; 35424; 35426; 35427; 35430; 35433; 35435; 35436; 35437; 35438; 35440; 35441; 35442; 35443; 35449; 35452; 35458; 35460; 35461; 35463; 35465; 35468; 35469; 35473; 35475; 35477; 35480; 35482; 35486; 35488; 35489; 35491; 35492; 35493; 35494; 35495; 35496; 35500; 35501; 35504; 35506; 35513; 35516; 35518; 35519; 35522; 35524; 35527; 35531; 35532; 35533; 35535; 35538; 35542; 35546; 35547; 35548; 35550; 35551; 35552; 35553; 35554; 35556; 35558; 35559; 35563; 35565; 35566; 35569; 35571; 35574; 35575; 35576; 35578; 35582; 35584; 35585; 35586; 35588];
  [35591; 35596; 35598; 35600; 35604; 35606; 35607; 35609; 35610; 35611; 35613; 35616; 35617; 35622; 35624; 35627; 35628; 35635; 35641; 35646; 35649; 35657; 35660; 35662; 35663; 35667; 35670; 35672; 35674; 35675; 35676; 35679; 35686; 35691; 35692; 35695; 35696; 35697; 35698; 35700; 35703; 35709; 35711; 35712; 35715; 35722; 35724; 35726; 35728; 35730; 35731; 35734; 35737; 35738; 35895; 35898; 35903; 35905; 35910; 35912; 35914; 35916; 35918; 35920; 35925; 35930; 35937; 35938; 35946; 35947; 35948; 35960; 35961; 35962; 35964; 35970; 35973; 35977; 35978; 35980; 35981; 35982; 35988; 35992; 35997; 35998; 36000; 36001; 36002; 36007; 36008; 36009; 36010; 36011; 36012; 36013; 36014; 36015; 36016; 36018];
  [36019; 36020; 36022; 36023; 36024; 36027; 36028; 36029; 36031; 36032; 36033; 36034; 36035; 36036; 36039; 36040; 36042; 36045; 36046; 36049; 36051; 36058; 36059; 36060; 36062; 36064; 36066; 36067; 36068; 36070; 36074; 36077; 36080; 36084; 36090; 36091; 36092; 36093; 36100; 36101; 36103; 36104; 36106; 36107; 36109; 36111; 36112; 36114; 36115; 36116; 36118; 36196; 36198; 36199; 36203; 36205; 36208; 36209; 36211; 36212; 36214; 36215; 36225; 36229; 36234; 36249; 36259; 36264; 36275; 36282; 36286; 36290; 36299; 36300; 36303; 36310; 36314; 36315; 36317; 36319; 36321; 36323; 36328; 36330; 36331; 36335; 36339; 36341; 36348; 36351; 36360; 36361; 36362; 36367; 36368; 36381; 36382; 36383; 36394; 36400];
  [36404; 36405; 36418; 36420; 36423; 36424; 36425; 36426; 36428; 36432; 36437; 36441; 36447; 36448; 36451; 36452; 36466; 36468; 36470; 36476; 36481; 36484; 36485; 36487; 36490; 36491; 36493; 36497; 36499; 36500; 36505; 36513; 36522; 36523; 36524; 36527; 36528; 36529; 36542; 36549; 36550; 36552; 36554; 36555; 36556; 36557; 36559; 36562; 36571; 36575; 36578; 36579; 36587; 36600; 36603; 36604; 36605; 36606; 36611; 36613; 36617; 36618; 36620; 36626; 36627; 36628; 36629; 36633; 36635; 36636; 36637; 36639; 36646; 36649; 36650; 36655; 36659; 36664; 36665; 36667; 36670; 36671; 36674; 36676; 36677; 36678; 36681; 36684; 36685; 36686; 36695; 36700; 36703; 36705; 36706; 36707; 36708; 36763; 36764; 36766];
  [36767; 36771; 36775; 36776; 36781; 36782; 36783; 36784; 36785; 36786; 36791; 36794; 36795; 36796; 36799; 36802; 36804; 36805; 36814; 36817; 36820; 36826; 36834; 36837; 36838; 36841; 36842; 36843; 36845; 36847; 36848; 36852; 36855; 36856; 36857; 36858; 36861; 36864; 36865; 36867; 36869; 36870; 36875; 36877; 36878; 36879; 36880; 36881; 36883; 36884; 36885; 36886; 36887; 36889; 36890; 36893; 36894; 36895; 36896; 36897; 36898; 36899; 36903; 36910; 36913; 36914; 36917; 36918; 36920; 36921; 36924; 36926; 36929; 36930; 36933; 36935; 36937; 36938; 36939; 36941; 36942; 36943; 36944; 36945; 36946; 36947; 36948; 36949; 36950; 36952; 36953; 36956; 36958; 36960; 36961; 36963; 36965; 36967; 36968; 36969];
  [36973; 36974; 36975; 36978; 36981; 36982; 36983; 36984; 36986; 36988; 36989; 36991; 36992; 36993; 36994; 36995; 36996; 36999; 37001; 37002; 37007; 37009; 37027; 37030; 37032; 37034; 37039; 37041; 37045; 37048; 37057; 37066; 37070; 37083; 37086; 37089; 37090; 37092; 37096; 37101; 37109; 37111; 37117; 37122; 37138; 37141; 37145; 37159; 37165; 37168; 37170; 37193; 37194; 37195; 37196; 37197; 37198; 37202; 37204; 37206; 37208; 37218; 37219; 37221; 37225; 37226; 37228; 37234; 37235; 37237; 37239; 37240; 37250; 37255; 37257; 37259; 37261; 37264; 37266; 37271; 37276; 37282; 37284; 37290; 37291; 37295; 37300; 37301; 37304; 37306; 37312; 37313; 37318; 37319; 37320; 37321; 37323; 37324; 37325; 37326];
  [37327; 37328; 37329; 37334; 37335; 37336; 37338; 37339; 37340; 37341; 37342; 37343; 37345; 37347; 37348; 37349; 37350; 37351; 37357; 37358; 37365; 37366; 37372; 37375; 37382; 37386; 37389; 37390; 37392; 37393; 37396; 37397; 37406; 37417; 37420; 37428; 37431; 37433; 37434; 37436; 37439; 37440; 37444; 37445; 37448; 37449; 37451; 37454; 37456; 37457; 37463; 37465; 37466; 37467; 37470; 37474; 37476; 37478; 37479; 37489; 37495; 37496; 37502; 37504; 37507; 37509; 37512; 37521; 37523; 37525; 37526; 37528; 37530; 37531; 37532; 37543; 37549; 37559; 37561; 37583; 37584; 37586; 37587; 37589; 37591; 37593; 37600; 37604; 37607; 37609; 37610; 37613; 37618; 37619; 37624; 37625; 37626; 37627; 37628; 37631];
  [37634; 37638; 37647; 37648; 37656; 37657; 37658; 37661; 37662; 37664; 37665; 37666; 37667; 37669; 37670; 37672; 37675; 37676; 37678; 37679; 37682; 37685; 37690; 37691; 37700; 37704; 37707; 37709; 37716; 37718; 37719; 37723; 37724; 37728; 37740; 37742; 37744; 37749; 37756; 37758; 37772; 37780; 37782; 37783; 37786; 37796; 37799; 37804; 37805; 37806; 37808; 37817; 37827; 37830; 37832; 37840; 37841; 37846; 37847; 37848; 37853; 37854; 37857; 37860; 37861; 37864; 37880; 37891; 37895; 37904; 37907; 37908; 37912; 37913; 37914; 37921; 37931; 37937; 37941; 37942; 37944; 37946; 37953; 37956; 37957; 37960; 37969; 37970; 37971; 37978; 37979; 37982; 37984; 37986; 37994; 38000; 38005; 38007; 38012; 38013];
  [38014; 38015; 38017; 38263; 38272; 38274; 38275; 38279; 38281; 38282; 38283; 38287; 38289; 38290; 38291; 38292; 38294; 38296; 38297; 38304; 38306; 38307; 38308; 38309; 38311; 38312; 38317; 38322; 38329; 38331; 38332; 38334; 38339; 38343; 38346; 38348; 38349; 38356; 38357; 38358; 38360; 38364; 38369; 38370; 38373; 38428; 38433; 38440; 38442; 38446; 38447; 38450; 38459; 38463; 38464; 38466; 38468; 38475; 38476; 38477; 38479; 38480; 38491; 38492; 38493; 38494; 38495; 38498; 38499; 38500; 38501; 38502; 38506; 38508; 38512; 38514; 38515; 38517; 38518; 38519; 38520; 38522; 38525; 38533; 38534; 38536; 38538; 38539; 38541; 38542; 38543; 38548; 38549; 38551; 38552; 38553; 38555; 38556; 38557; 38560];
  [38563; 38567; 38568; 38570; 38575; 38576; 38577; 38578; 38580; 38582; 38583; 38584; 38585; 38587; 38588; 38592; 38593; 38596; 38597; 38598; 38599; 38601; 38603; 38604; 38605; 38606; 38609; 38613; 38614; 38617; 38619; 38620; 38626; 38627; 38632; 38634; 38635; 38640; 38642; 38646; 38647; 38649; 38651; 38656; 38660; 38662; 38663; 38664; 38666; 38669; 38670; 38671; 38673; 38675; 38678; 38681; 38684; 38686; 38692; 38695; 38698; 38704; 38706; 38707; 38712; 38713; 38715; 38717; 38718; 38722; 38723; 38724; 38726; 38728; 38729; 38733; 38735; 38737; 38738; 38741; 38742; 38745; 38748; 38750; 38752; 38753; 38754; 38756; 38758; 38760; 38761; 38763; 38765; 38769; 38772; 38777; 38778; 38780; 38785; 38788];
  [38789; 38790; 38795; 38797; 38799; 38800; 38808; 38812; 38816; 38819; 38822; 38824; 38827; 38829; 38835; 38836; 38851; 38854; 38856; 38859; 38867; 38876; 38893; 38894; 38898; 38899; 38901; 38902; 38907; 38911; 38913; 38914; 38915; 38917; 38918; 38920; 38924; 38927; 38928; 38929; 38930; 38931; 38935; 38936; 38938; 38945; 38948; 38956; 38957; 38964; 38967; 38968; 38971; 38972; 38973; 38982; 38987; 38988; 38989; 38990; 38991; 38996; 38997; 38999; 39000; 39003; 39006; 39013; 39015; 39019; 39023; 39024; 39025; 39027; 39028; 39080; 39082; 39087; 39089; 39094; 39107; 39108; 39110; 39131; 39132; 39135; 39138; 39145; 39147; 39149; 39150; 39151; 39154; 39156; 39164; 39165; 39166; 39171; 39173; 39177];
  [39178; 39180; 39184; 39186; 39187; 39188; 39192; 39197; 39198; 39200; 39201; 39204; 39207; 39208; 39212; 39214; 39229; 39230; 39234; 39237; 39241; 39243; 39244; 39248; 39249; 39250; 39253; 39255; 39318; 39319; 39320; 39321; 39326; 39333; 39336; 39340; 39341; 39342; 39347; 39348; 39356; 39361; 39364; 39365; 39366; 39368; 39376; 39377; 39378; 39381; 39384; 39387; 39389; 39391; 39394; 39405; 39406; 39409; 39410; 39416; 39419; 39423; 39425; 39429; 39438; 39439; 39442; 39443; 39449; 39464; 39467; 39472; 39479; 39486; 39488; 39490; 39491; 39493; 39501; 39502; 39509; 39511; 39514; 39515; 39519; 39522; 39524; 39525; 39529; 39530; 39531; 39592; 39597; 39600; 39608; 39612; 39616; 39620; 39631; 39633];
  [39635; 39636; 39640; 39641; 39644; 39646; 39647; 39650; 39651; 39654; 39658; 39659; 39661; 39662; 39663; 39665; 39668; 39671; 39675; 39686; 39704; 39706; 39711; 39714; 39715; 39717; 39719; 39720; 39721; 39722; 39726; 39727; 39729; 39730; 39739; 39740; 39745; 39746; 39747; 39748; 39749; 39757; 39758; 39759; 39761; 39764; 39768; 39770; 39791; 39794; 39796; 39797; 39811; 39822; 39823; 39825; 39826; 39827; 39830; 39831; 39839; 39840; 39848; 39850; 39851; 39853; 39854; 39857; 39860; 39865; 39867; 39872; 39878; 39881; 39882; 39887; 39889; 39890; 39892; 39894; 39899; 39905; 39906; 39907; 39908; 39912; 39920; 39921; 39922; 39925; 39936; 39940; 39942; 39944; 39945; 39946; 39948; 39949; 39952; 39954];
  [39955; 39956; 39957; 39963; 39969; 39972; 39973; 39981; 39982; 39983; 39984; 39986; 39993; 39994; 39995; 39998; 40006; 40007; 40008; 40018; 40023; 40026; 40032; 40039; 40054; 40056; 40165; 40167; 40169; 40171; 40172; 40176; 40179; 40180; 40182; 40195; 40198; 40199; 40200; 40201; 40206; 40210; 40213; 40219; 40223; 40227; 40230; 40232; 40234; 40235; 40236; 40251; 40254; 40255; 40257; 40260; 40262; 40264; 40272; 40273; 40281; 40284; 40285; 40286; 40288; 40289; 40292; 40299; 40300; 40303; 40304; 40306; 40314; 40327; 40329; 40335; 40346; 40356; 40361; 40363; 40367; 40370; 40372; 40376; 40378; 40379; 40385; 40386; 40388; 40390; 40399; 40403; 40409; 40422; 40429; 40431; 40434; 40440; 40441; 40442];
  [40445; 40473; 40474; 40475; 40478; 40565; 40568; 40569; 40573; 40575; 40577; 40584; 40587; 40588; 40593; 40594; 40595; 40597; 40599; 40605; 40607; 40613; 40614; 40617; 40618; 40621; 40632; 40633; 40634; 40635; 40636; 40638; 40639; 40644; 40652; 40653; 40654; 40655; 40656; 40657; 40658; 40660; 40664; 40665; 40667; 40668; 40669; 40670; 40672; 40677; 40680; 40687; 40692; 40694; 40695; 40697; 40699; 40700; 40701; 40711; 40712; 40718; 40723; 40725; 40736; 40737; 40748; 40763; 40766; 40778; 40779; 40782; 40783; 40786; 40788; 40799; 40800; 40801; 40802; 40803; 40806; 40807; 40810; 40812; 40818; 40822; 40823; 40845; 40853; 40860; 40861; 40864; 63785; 63964; 64014; 64015; 64016; 64017; 64018; 64019];
  [64020; 64021; 64022; 64023; 64024; 64025; 64026; 64027; 64028; 64029; 64030; 64031; 64032; 64033; 64034; 64035; 64036; 64037; 64038; 64039; 64040; 64041; 64042; 64043; 64044; 64045; 65281; 65282; 65283; 65284; 65285; 65286; 65287; 65288; 65289; 65290; 65291; 65292; 65293; 65294; 65295; 65296; 65297; 65298; 65299; 65300; 65301; 65302; 65303; 65304; 65305; 65306; 65307; 65308; 65309; 65310; 65311; 65312; 65313; 65314; 65315; 65316; 65317; 65318; 65319; 65320; 65321; 65322; 65323; 65324; 65325; 65326; 65327; 65328; 65329; 65330; 65331; 65332; 65333; 65334; 65335; 65336; 65337; 65338; 65339; 65340; 65341; 65342; 65343; 65344; 65345; 65346; 65347; 65348; 65349; 65350; 65351; 65352; 65353; 65354];
  [65355; 65356; 65357; 65358; 65359; 65360; 65361; 65362; 65363; 65364; 65365; 65366; 65367; 65368; 65369; 65370; 65371; 65372; 65373; 65374; 65504; 65505; 65506; 65507; 65508; 65509]].

(** indexes_pointer.cpp:107 *)
Definition index_pointer_Shift_JIS_1 : list Z := concat [
  [87; 14; 74; 61; 12; 182; 62; 63; 470; 471; 472; 473; 474; 475; 476; 477; 478; 479; 480; 481; 482; 483; 484; 485; 486; 487; 488; 489; 490; 491; 492; 493; 502; 503; 504; 505; 506; 507; 508; 509; 510; 511; 512; 513; 514; 515; 516; 517; 518; 519; 520; 521; 522; 523; 524; 525; 570; 564; 565; 566; 567; 568; 569; 571; 572; 573; 574; 575; 576; 577; 578; 579; 580; 581; 582; 583; 584; 585; 586; 587; 588; 589; 590; 591; 592; 593; 594; 595; 596; 612; 613; 614; 615; 616; 617; 619; 620; 621; 622; 623];
  [624; 625; 626; 627; 628; 629; 630; 631; 632; 633; 634; 635; 636; 637; 638; 639; 640; 641; 642; 643; 644; 618; 29; 28; 37; 38; 39; 40; 180; 181; 36; 35; 176; 75; 76; 101; 77; 1193; 1195; 175; 1148; 1149; 1150; 1151; 1152; 1153; 1154; 1155; 1156; 1157; 8634; 8635; 8636; 8637; 8638; 8639; 8640; 8641; 8642; 8643; 104; 105; 103; 106; 138; 139; 140; 156; 141; 157; 119; 120; 1211; 162; 164; 70; 1215; 153; 33; 135; 136; 126; 125; 166; 167; 1210; 71; 165; 163; 159; 65; 158; 68; 69; 160; 161; 123; 124; 121; 122];
  [154; 1216; 155; 1128; 1129; 1130; 1131; 1132; 1133; 1134; 1135; 1136; 1137; 1138; 1139; 1140; 1141; 1142; 1143; 1144; 1145; 1146; 1147; 658; 669; 659; 670; 660; 671; 661; 672; 663; 674; 662; 673; 664; 685; 680; 675; 666; 687; 682; 677; 665; 681; 686; 676; 667; 683; 688; 678; 668; 684; 689; 679; 96; 95; 98; 97; 100; 99; 94; 93; 90; 92; 91; 187; 89; 88; 73; 72; 179; 178; 177; 0; 1; 2; 22; 24; 25; 26; 49; 50; 51; 52; 53; 54; 55; 56; 57; 58; 102; 107; 43; 44; 1191; 1192; 282; 283; 284];
  [285; 286; 287; 288; 289; 290; 291; 292; 293; 294; 295; 296; 297; 298; 299; 300; 301; 302; 303; 304; 305; 306; 307; 308; 309; 310; 311; 312; 313; 314; 315; 316; 317; 318; 319; 320; 321; 322; 323; 324; 325; 326; 327; 328; 329; 330; 331; 332; 333; 334; 335; 336; 337; 338; 339; 340; 341; 342; 343; 344; 345; 346; 347; 348; 349; 350; 351; 352; 353; 354; 355; 356; 357; 358; 359; 360; 361; 362; 363; 364; 10; 11; 20; 21; 376; 377; 378; 379; 380; 381; 382; 383; 384; 385; 386; 387; 388; 389; 390; 391];
  [392; 393; 394; 395; 396; 397; 398; 399; 400; 401; 402; 403; 404; 405; 406; 407; 408; 409; 410; 411; 412; 413; 414; 415; 416; 417; 418; 419; 420; 421; 422; 423; 424; 425; 426; 427; 428; 429; 430; 431; 432; 433; 434; 435; 436; 437; 438; 439; 440; 441; 442; 443; 444; 445; 446; 447; 448; 449; 450; 451; 452; 453; 454; 455; 456; 457; 458; 459; 460; 461; 5; 27; 18; 19; 1201; 1202; 1203; 1196; 1197; 1198; 1199; 1200; 1165; 1169; 1160; 1163; 1161; 1171; 1170; 1164; 1172; 1166; 1174; 1159; 1173; 1162; 1167; 1168; 1190; 1206];
  [1205; 1204; 1178; 1179; 1175; 1176; 1177; 1181; 1180; 1194; 1485; 3285; 2560; 4039; 2795; 2459; 2794; 1625; 3811; 4166; 4419; 1518; 1769; 4420; 2917; 4639; 1933; 3879; 2796; 4259; 3887; 8284; 4421; 3265; 4422; 2063; 4423; 1846; 3211; 2608; 4424; 4425; 4426; 3592; 1934; 3594; 3544; 2196; 3966; 6808; 4427; 2797; 4428; 1618; 2042; 2241; 4114; 4987; 4215; 3570; 1790; 1900; 4429; 4430; 4256; 4164; 3079; 4432; 2529; 3560; 4435; 1533; 2224; 2223; 1479; 4366; 4365; 2368; 1410; 4436; 4437; 4438; 3967; 4439; 2243; 1480; 4029; 1971; 1972; 1973; 3355; 4257; 4440; 4441; 4442; 2864; 2657; 2865; 4447; 4445];
  [4446; 1935; 2352; 1677; 4444; 4443; 3862; 2481; 2480; 3131; 4448; 3812; 2984; 23; 4449; 4451; 8285; 3170; 4294; 1451; 4450; 1627; 2009; 3266; 2146; 4452; 3575; 8286; 8287; 1860; 8288; 4453; 1452; 2225; 1861; 3849; 3683; 1936; 1678; 4488; 3416; 3647; 4455; 3693; 4295; 2832; 8289; 2482; 2530; 1629; 3338; 3197; 4459; 1453; 3356; 2658; 2369; 4139; 3147; 1628; 8290; 4458; 4165; 4454; 4456; 2427; 4457; 4891; 4465; 4468; 4466; 1631; 3880; 4460; 4464; 2244; 2483; 1791; 4469; 4461; 8292; 4296; 2531; 4462; 4467; 8291; 8294; 4470; 4463; 8293; 1974; 1454; 1975; 1630; 4892; 4036; 3837; 2245; 2834; 4252];
  [3909; 2091; 3106; 1665; 8277; 2682; 8295; 4474; 4479; 4477; 4472; 3116; 4475; 4478; 4476; 3914; 4473; 2833; 4030; 4480; 4481; 2635; 4494; 3619; 3781; 4489; 3933; 1619; 4493; 8298; 4487; 4496; 3057; 2197; 3631; 5960; 4495; 3444; 4484; 2247; 2246; 4482; 8299; 2595; 4490; 8297; 3932; 3240; 4486; 2148; 4483; 4491; 4485; 4278; 4492; 4356; 2043; 2147; 8296; 8302; 4497; 8300; 4498; 4502; 1455; 3901; 4501; 4500; 4504; 4503; 3357; 2149; 4505; 8301; 2574; 3107; 3358; 2059; 4506; 1901; 4507; 4509; 3968; 2137; 8303; 2460; 3752; 4508; 2386; 4170; 4511; 4514; 4510; 2385; 2724; 2092; 4515; 2020; 4512; 4513];
  [3492; 3099; 1976; 3992; 4516; 8305; 4258; 4517; 4520; 4518; 3053; 4519; 4521; 8304; 4523; 4522; 3893; 1902; 4525; 4526; 1612; 4524; 2621; 4529; 4528; 4527; 4471; 4530; 2725; 4531; 4140; 4098; 4533; 4532; 4535; 4534; 4536; 4537; 1493; 2182; 2094; 2659; 3286; 1977; 2985; 2248; 8306; 2333; 4539; 4081; 3421; 2532; 4538; 4540; 3445; 1776; 4541; 8307; 3571; 3027; 4543; 4544; 3677; 2249; 4350; 4545; 1979; 3881; 3123; 2054; 3404; 2150; 4546; 4547; 3543; 1566; 4550; 2442; 4549; 2387; 4551; 6563; 4552; 3980; 4553; 4554; 4555; 2798; 2581; 8308; 1792; 4558; 4556; 4070; 4557; 3817; 4559; 4560; 4561; 3446];
  [4565; 4563; 4564; 4562; 2416; 4566; 4115; 4297; 4567; 8309; 2921; 4568; 2689; 4569; 3287; 4260; 3447; 4642; 4570; 7806; 2010; 4571; 4009; 2703; 3193; 4573; 3545; 8310; 4574; 4575; 1705; 4576; 1980; 3521; 1593; 2679; 3666; 4577; 3448; 2866; 4578; 3865; 2971; 1787; 1794; 4579; 4581; 2093; 4580; 8311; 4312; 2704; 3694; 3897; 4582; 4223; 4583; 4584; 3477; 4585; 2922; 2443; 2151; 4586; 2484; 2334; 3359; 4588; 3108; 2428; 4589; 4590; 3023; 4587; 4592; 3969; 2323; 4591; 2152; 2411; 3648; 4595; 4593; 3850; 2799; 4602; 1759; 4596; 4594; 3054; 4598; 4597; 1727; 2131; 4603; 4242; 4599; 4604; 4601; 4600];
  [4276; 8312; 2250; 1632; 4313; 8313; 2716; 3439; 2324; 4607; 4608; 8487; 4298; 4334; 4610; 2251; 4609; 1706; 8314; 4611; 4001; 3317; 4141; 3910; 4612; 7478; 3493; 4613; 1795; 4060; 8315; 2726; 4614; 3924; 4618; 2923; 4615; 2021; 4616; 1796; 2081; 4619; 4620; 4621; 4622; 2596; 2252; 4103; 8316; 4113; 3564; 3934; 4623; 8317; 4624; 4626; 4628; 4627; 4629; 1626; 3991; 2441; 4630; 3064; 2727; 1982; 4631; 8318; 3724; 4632; 4633; 4634; 4635; 3763; 2045; 1478; 3508; 4636; 2660; 2986; 4638; 4637; 2728; 2226; 4640; 3695; 4641; 3725; 3121; 3179; 1981; 3555; 3212; 3649; 3993; 4643; 2987; 2088; 4644; 4645];
  [1515; 1494; 1862; 8319; 3109; 1928; 4216; 4648; 1620; 4647; 1983; 4649; 4122; 8320; 4650; 4279; 2253; 2183; 4651; 4653; 4652; 2882; 1528; 1565; 4654; 4655; 8321; 2184; 4656; 1957; 2461; 4657; 4031; 2370; 1937; 4142; 3055; 3696; 2630; 2670; 2609; 2622; 2717; 3697; 8322; 4660; 1538; 3056; 2254; 2198; 2044; 4664; 3196; 3195; 1984; 2729; 4665; 4663; 1633; 3171; 2561; 2486; 1509; 1771; 2325; 2485; 4666; 4667; 1920; 1729; 2326; 1919; 3352; 1508; 3494; 4071; 2256; 4224; 3422; 2255; 2082; 4676; 2040; 3989; 3726; 4675; 1847; 4670; 4671; 4673; 4674; 1938; 2884; 3866; 4672; 4668; 2228; 4669; 4327; 3935];
  [3361; 2227; 2335; 4677; 3538; 4681; 2631; 2623; 4684; 4682; 4044; 4679; 4688; 4683; 4686; 2199; 4072; 4687; 4689; 4691; 8325; 2429; 4357; 4680; 4678; 4690; 4685; 8324; 4693; 4702; 4695; 4699; 8326; 4700; 4696; 4729; 2422; 1708; 4694; 4704; 1495; 4703; 1414; 3801; 4701; 4697; 4692; 4698; 2389; 4705; 1496; 4714; 4706; 4707; 2730; 4020; 4712; 4711; 3398; 4713; 4710; 8327; 1523; 2371; 2835; 4708; 3449; 4709; 1411; 4719; 4138; 2732; 4725; 4724; 4715; 3136; 4716; 3180; 4721; 2731; 4718; 4109; 2095; 4722; 4723; 4720; 4726; 4717; 4732; 4737; 4733; 4728; 4738; 3024; 8328; 4740; 2257; 4730; 3288; 4734];
  [4727; 1798; 1863; 1760; 4735; 4731; 2153; 4741; 4739; 3058; 1921; 1985; 4736; 2057; 1539; 4745; 4743; 4800; 4748; 4742; 4746; 4744; 2487; 4747; 4750; 4755; 4753; 4752; 3213; 1634; 4749; 4751; 2733; 1522; 4754; 1659; 4765; 2817; 4761; 4759; 4760; 4762; 1532; 3032; 4756; 4757; 1781; 4764; 1864; 4767; 4763; 4766; 3867; 3530; 3689; 4769; 4768; 1728; 4770; 4773; 4772; 4771; 3596; 4774; 4775; 4777; 4776; 4779; 4782; 4780; 4778; 4781; 4783; 4784; 4785; 4786; 4787; 4548; 2629; 2488; 1680; 1497; 3231; 4788; 2353; 1456; 2881; 4789; 2200; 2336; 4791; 4790; 3917; 4792; 4794; 4793; 4795; 4796; 2154; 1567];
  [4797; 4799; 4798; 4801; 3441; 4802; 1430; 2412; 2096; 3242; 4803; 4804; 4806; 4807; 2417; 2022; 3970; 4805; 4808; 2382; 2258; 8329; 4812; 2354; 8330; 3214; 4809; 3347; 4813; 2885; 4811; 4814; 2098; 4815; 4816; 2259; 1723; 4818; 4819; 8331; 4820; 4817; 4810; 4821; 4822; 8333; 8332; 4015; 2800; 4824; 4825; 4823; 4827; 3595; 1481; 3813; 4828; 2818; 2562; 3632; 1865; 2424; 4004; 3495; 2155; 3148; 4826; 4829; 3137; 4830; 4831; 4833; 3362; 1799; 7802; 1568; 3936; 2801; 3423; 2419; 4839; 3882; 4290; 1681; 4835; 3033; 4838; 3450; 3424; 3451; 3690; 3334; 2390; 4834; 1589; 3405; 4836; 4832; 2867; 4840];
  [2677; 1986; 4841; 3925; 3100; 3327; 8336; 4843; 3994; 4844; 4849; 8337; 3868; 4848; 4842; 4845; 4847; 2355; 3894; 4850; 3232; 1682; 2802; 4852; 4851; 2327; 4853; 4855; 4854; 4857; 4846; 4859; 4858; 4856; 2489; 2868; 3059; 4860; 2941; 1486; 3639; 3348; 4862; 4861; 4863; 4864; 4865; 4866; 3902; 4867; 8338; 1635; 4868; 4163; 1707; 4646; 2671; 3132; 4869; 4116; 4061; 4871; 3172; 3406; 3133; 3814; 4872; 4873; 1594; 2563; 4874; 1457; 4875; 4876; 1569; 1866; 3541; 3937; 4880; 3060; 4879; 2099; 8339; 4006; 4878; 3452; 4882; 4881; 8340; 8341; 4884; 4883; 8342; 1595; 4885; 2734; 4887; 3200; 4886; 3872];
  [2718; 3442; 4888; 2260; 4889; 3572; 3727; 4090; 3576; 4898; 1903; 4172; 4056; 4993; 4890; 4893; 8343; 3138; 3971; 3425; 4894; 4016; 8344; 2391; 2735; 4895; 2491; 2490; 1434; 2201; 2924; 1458; 4899; 4900; 4897; 1527; 1800; 4896; 4078; 3776; 1417; 1498; 2492; 1459; 1412; 4905; 4903; 4069; 4906; 4904; 4902; 2836; 4901; 3911; 2229; 4910; 4911; 2736; 4907; 4335; 3615; 4909; 2356; 4912; 3815; 4913; 4908; 4068; 3633; 4914; 3777; 4915; 4919; 4916; 1636; 4918; 2564; 4917; 2156; 4931; 4924; 4921; 3263; 4920; 4922; 4923; 4925; 4926; 1867; 4928; 4927; 4929; 2803; 4932; 3349; 1540; 4930; 4933; 4934; 4937];
  [4935; 4936; 2493; 4938; 2261; 4939; 8345; 2533; 3125; 4940; 4941; 2501; 2262; 4091; 1887; 2202; 4942; 1747; 4943; 3126; 4944; 4984; 4945; 4946; 4947; 4949; 4950; 4951; 3181; 1510; 2610; 1443; 3062; 1801; 2558; 2263; 3453; 2632; 1802; 3267; 3363; 1433; 1904; 3938; 2571; 1929; 2988; 2565; 4143; 4952; 1939; 2392; 1709; 1570; 2737; 1637; 4953; 4173; 2672; 8346; 2605; 4954; 1868; 3527; 4050; 4955; 4956; 3816; 4958; 1793; 2060; 4957; 8348; 1803; 2837; 4962; 2444; 1638; 4961; 4959; 4963; 4960; 3582; 5590; 2838; 4964; 8349; 4261; 4965; 4967; 3289; 4966; 2916; 2534; 3149; 2624; 3844; 2989; 2582; 4968];
  [2738; 4969; 4970; 1460; 3127; 2869; 4971; 3496; 2739; 2740; 4972; 2990; 2741; 8350; 4973; 4974; 4105; 4975; 2011; 2633; 4976; 4977; 2597; 2831; 3561; 2871; 3753; 3573; 2014; 4978; 1958; 4979; 2067; 3524; 1613; 2494; 4980; 4983; 4982; 2066; 4981; 3407; 3117; 3426; 2577; 3063; 4225; 4985; 4986; 3531; 2462; 4988; 4989; 4990; 1869; 4991; 4992; 1609; 8351; 3034; 1853; 4994; 4049; 3151; 1748; 4996; 4998; 1848; 8352; 4995; 4997; 5000; 4999; 5001; 5002; 3506; 1987; 1666; 5003; 5008; 5006; 3940; 3939; 8353; 3454; 5005; 2683; 5004; 2901; 5009; 2423; 5015; 5016; 5010; 1710; 5011; 5020; 5019; 5018; 5014];
  [5013; 5017; 8354; 3941; 8357; 5024; 5021; 5023; 4217; 5022; 8355; 5012; 2902; 5025; 8358; 2372; 5026; 5027; 5030; 5029; 5028; 3455; 5007; 5036; 5032; 5031; 5033; 5034; 5037; 8359; 8360; 4299; 5038; 5035; 5039; 1849; 5040; 8361; 5042; 5041; 5043; 5044; 2991; 2634; 2699; 3074; 2264; 2373; 2265; 1959; 5045; 2374; 2203; 5046; 4047; 3606; 5047; 2266; 1797; 3202; 2023; 2495; 3818; 3698; 5048; 1870; 5051; 3290; 5050; 5049; 5052; 3364; 2886; 2496; 2955; 3152; 1881; 3291; 5053; 5054; 2804; 3972; 5057; 5056; 5055; 3852; 5064; 4005; 5058; 5060; 4022; 5059; 5061; 3673; 5062; 3883; 5063; 1804; 3884; 3586];
  [5065; 5066; 2267; 1805; 5067; 2185; 4171; 4144; 1871; 5069; 3292; 2268; 2742; 3728; 2743; 2719; 3365; 3942; 3408; 2269; 3819; 5070; 3440; 2383; 2204; 3366; 1444; 2709; 2270; 4174; 5071; 5072; 3620; 5073; 4316; 4336; 5075; 5074; 1730; 5076; 5079; 5080; 5078; 3791; 2744; 5082; 5081; 5077; 5083; 5084; 5085; 5088; 5086; 5087; 5089; 1571; 3367; 5090; 2157; 1683; 3593; 5091; 3568; 3912; 5092; 4337; 5093; 3885; 5096; 4418; 4434; 2553; 3562; 5097; 1940; 3293; 1499; 5098; 3859; 2271; 3243; 3368; 8362; 4120; 2186; 2205; 5099; 5100; 5106; 2606; 8363; 3294; 1988; 5101; 3770; 3233; 5102; 8283; 5103; 1989];
  [5104; 5105; 5107; 3469; 5108; 5109; 5110; 5095; 5094; 5111; 2100; 3766; 8364; 2393; 3782; 3295; 3802; 5112; 2745; 1541; 5113; 5114; 4123; 3729; 5117; 1596; 2925; 5116; 5115; 2101; 3153; 5121; 5119; 5118; 4236; 2230; 2720; 5120; 3427; 2661; 3509; 5124; 5123; 5122; 5125; 2231; 5126; 3851; 2690; 5127; 3754; 3510; 3296; 8365; 3399; 5128; 1890; 2839; 3771; 1872; 3577; 5129; 2497; 3973; 3974; 1597; 5134; 8366; 3268; 5131; 1684; 5182; 5133; 3587; 5132; 5130; 2345; 5136; 5142; 5148; 5140; 3443; 5145; 3820; 5139; 5144; 4300; 2498; 3154; 5137; 1941; 5147; 2926; 1572; 5141; 1685; 5146; 1990; 5143; 5149];
  [5151; 5161; 5159; 5156; 5155; 4317; 5157; 1991; 2272; 2721; 5164; 5150; 8367; 5154; 5138; 1687; 5158; 5160; 3244; 2357; 1621; 5152; 5163; 5162; 1992; 3110; 1761; 2102; 5153; 5165; 5168; 5170; 8368; 2566; 8369; 5176; 3369; 5166; 5174; 1686; 5172; 5173; 5169; 5171; 2232; 4145; 1806; 1560; 5175; 3597; 1422; 3730; 5135; 5181; 5185; 4110; 5178; 3456; 5183; 2805; 5184; 3532; 4362; 5180; 8371; 5186; 2346; 2956; 8370; 1461; 5179; 5177; 3065; 5167; 2463; 3139; 5198; 8373; 3066; 5193; 5190; 5191; 2607; 5194; 5197; 5192; 2636; 5195; 5189; 4133; 4132; 5199; 5200; 1462; 8374; 5188; 2055; 1415; 1807; 8372];
  [5196; 5204; 5203; 5208; 8376; 5209; 8375; 5207; 5210; 5202; 5206; 5211; 5212; 5201; 2535; 5205; 3155; 2273; 5187; 2840; 5225; 3926; 5215; 5216; 5217; 5224; 5223; 4040; 1808; 5221; 2104; 1711; 5218; 4253; 5220; 1463; 5222; 5213; 5219; 5226; 2103; 5214; 4196; 4146; 5229; 5233; 3101; 4318; 5234; 5231; 5228; 8377; 5227; 5232; 3869; 3497; 2105; 5235; 5230; 5236; 2158; 1614; 5244; 1809; 5242; 5243; 2358; 5241; 5239; 5238; 5245; 5237; 5247; 1688; 5249; 5248; 3297; 5252; 5250; 5240; 2159; 5251; 5255; 5254; 5256; 5253; 5257; 5258; 5259; 3927; 5261; 5260; 2662; 2927; 1667; 1689; 8378; 5262; 1440; 2957];
  [5263; 7084; 5264; 2132; 5265; 2992; 5266; 5267; 1905; 5268; 5269; 5270; 3156; 2206; 4106; 3975; 2705; 5271; 2993; 7266; 3731; 2611; 2394; 5272; 3140; 3860; 3182; 5275; 5273; 5276; 5274; 5277; 3870; 1432; 3821; 3732; 5278; 5281; 2746; 1906; 5279; 5286; 2747; 5280; 3607; 4197; 5282; 5283; 5287; 3457; 5284; 2274; 2975; 5301; 3685; 3183; 8379; 3733; 5370; 3943; 3370; 4032; 5290; 1598; 3269; 5299; 3215; 5293; 5300; 5295; 5302; 5298; 5297; 3650; 5291; 1690; 5289; 1960; 3184; 5285; 5288; 2275; 2972; 2748; 5296; 3621; 1961; 1731; 1762; 2820; 5304; 5309; 5305; 2160; 5310; 2445; 2328; 2637; 5292; 2536];
  [5307; 2499; 5308; 1445; 5303; 3298; 1962; 1993; 5306; 1416; 2384; 2841; 3371; 3717; 5312; 3069; 3111; 2454; 5313; 5315; 5311; 3918; 3318; 3067; 3944; 2583; 5327; 5326; 2907; 2161; 5320; 2750; 3549; 3588; 5318; 3068; 2625; 5323; 2749; 5317; 5322; 3622; 5316; 2068; 1752; 5324; 4240; 2395; 3216; 5321; 2973; 2276; 2887; 1573; 3035; 5319; 1916; 2106; 3336; 5325; 3070; 5328; 5330; 3124; 5336; 5331; 5333; 3792; 3372; 5334; 4147; 4175; 1810; 1423; 5332; 5329; 1873; 1574; 8380; 5335; 4176; 5339; 3128; 5346; 5340; 5337; 5344; 5314; 5341; 5345; 3699; 3458; 5338; 5342; 2107; 2430; 2974; 5350; 3389; 8381];
  [5347; 4011; 5348; 5349; 4087; 2915; 2133; 5356; 2464; 5353; 5352; 3589; 8382; 3498; 3400; 5354; 5355; 3838; 3608; 2446; 2994; 3995; 1732; 5362; 5357; 4177; 5364; 5360; 5361; 3071; 8383; 5359; 5294; 5363; 5358; 5368; 5369; 3390; 5371; 2447; 5366; 1907; 5372; 5365; 5376; 5375; 5374; 5377; 5379; 2806; 5378; 5382; 5380; 5381; 5343; 5384; 5383; 5351; 5385; 5373; 2500; 5386; 5387; 5389; 5388; 5390; 1691; 2277; 3945; 2928; 2207; 5392; 5395; 8384; 3809; 1942; 5394; 5393; 3623; 5396; 1994; 5398; 5397; 1811; 2465; 3533; 2108; 2903; 5399; 2929; 3391; 3822; 5400; 5401; 5402; 3877; 4948; 2951; 3803; 2405];
  [3734; 3700; 3428; 4262; 5404; 2585; 5405; 1431; 2025; 2958; 3823; 5406; 2477; 3234; 2502; 2842; 5407; 3946; 1590; 2503; 5410; 5408; 5411; 4254; 5409; 3004; 5412; 3119; 5413; 1875; 5415; 5414; 5416; 5417; 1876; 3569; 3217; 1955; 2504; 3072; 2691; 1425; 5418; 1599; 5422; 8385; 2278; 5421; 2360; 2751; 8388; 5420; 2752; 4073; 2359; 1464; 2959; 8386; 5427; 8390; 2930; 1542; 8391; 2684; 4017; 2431; 2753; 8389; 2920; 8279; 5426; 5424; 5425; 8387; 3270; 5457; 5431; 2537; 2279; 5429; 5430; 2843; 5428; 2458; 8393; 8394; 5433; 5432; 5437; 5438; 5434; 8392; 1693; 5435; 5436; 3718; 3824; 2109; 5439; 8396];
  [2931; 2754; 3245; 2012; 5440; 5444; 1640; 5441; 5443; 5442; 2706; 3235; 1446; 5445; 8397; 5446; 8398; 3299; 4310; 2478; 3928; 8399; 3976; 5453; 5448; 5451; 5450; 8400; 5447; 5452; 3539; 5449; 5454; 2707; 5455; 4178; 3659; 5456; 5458; 5459; 5460; 2015; 1543; 2280; 5461; 5462; 2712; 3073; 8401; 8282; 4661; 3037; 3036; 3157; 2388; 4499; 2145; 4148; 3947; 3853; 8402; 5463; 2432; 3320; 5464; 4338; 3977; 3300; 5465; 1877; 5466; 5467; 4099; 4045; 4033; 4007; 2448; 5469; 2612; 3996; 5471; 5474; 5473; 1874; 1943; 5470; 5472; 5475; 2908; 4226; 1450; 2413; 3129; 2598; 2808; 5478; 3429; 5476; 3112; 5477];
  [2807; 4102; 5479; 5480; 4207; 8404; 5485; 2281; 3624; 5482; 3459; 5419; 5423; 1926; 3610; 5484; 2755; 3701; 5490; 3755; 5481; 5487; 5486; 2960; 4024; 4280; 4018; 1641; 2505; 4363; 5489; 2904; 5488; 5483; 2208; 5495; 5493; 1642; 5491; 5497; 5503; 8405; 8407; 3141; 3886; 5505; 3761; 5504; 3651; 3978; 1812; 3000; 2663; 3340; 4149; 5500; 5499; 5501; 5498; 5506; 5496; 5494; 5502; 5492; 3271; 4129; 2575; 2433; 2375; 4026; 1724; 8408; 3335; 3519; 1544; 2995; 2933; 2077; 5508; 2282; 1783; 5510; 1775; 5516; 5513; 2996; 1734; 2361; 1733; 2396; 5511; 2136; 2110; 3460; 8409; 5509; 1447; 5512; 5514; 2018];
  [2079; 8406; 1813; 1922; 5517; 2438; 4028; 2466; 5518; 3775; 5530; 1616; 5519; 5536; 5520; 4263; 5527; 3634; 5535; 5522; 1429; 5524; 2283; 5526; 5525; 5521; 5532; 2756; 4870; 2233; 4227; 5523; 3373; 1694; 2362; 5515; 5531; 1756; 5529; 5533; 3461; 1879; 5563; 8280; 4082; 5538; 1878; 5545; 8410; 3979; 5546; 5548; 5552; 5540; 3205; 3462; 5556; 5543; 5553; 5547; 2844; 5557; 2932; 5555; 1814; 4371; 5537; 5551; 1465; 5539; 4067; 5544; 2821; 3328; 5534; 5550; 2909; 5560; 1772; 2162; 5562; 5541; 5561; 5554; 5542; 5558; 5559; 5576; 3523; 5549; 5572; 5574; 3345; 4179; 3845; 5569; 3143; 5575; 3038; 5566];
  [5579; 5578; 3556; 5577; 3551; 8412; 5581; 5568; 2013; 5571; 2692; 3635; 5573; 2016; 5565; 5567; 5564; 4339; 1749; 5570; 5580; 1712; 2420; 1564; 5597; 4340; 5600; 8414; 2845; 5599; 5598; 5595; 5583; 5612; 5582; 5601; 5593; 5588; 5585; 5586; 5594; 7803; 5591; 2284; 3329; 3075; 5589; 5584; 5587; 4180; 4021; 5592; 5602; 8415; 5610; 5603; 5616; 5614; 5609; 5608; 3337; 3076; 5606; 5604; 5611; 5617; 3750; 5623; 5618; 5621; 5615; 3279; 3783; 5605; 5613; 2757; 4088; 5633; 5620; 2163; 1600; 1754; 5596; 8416; 2758; 5625; 5632; 2626; 1773; 3209; 5622; 8418; 5627; 5631; 1995; 1923; 5629; 1880; 3520; 5628];
  [5630; 8417; 5624; 8419; 5626; 8420; 1755; 3236; 5637; 5635; 2234; 5634; 5640; 5507; 5636; 5638; 5639; 5651; 5647; 5528; 5646; 5645; 5642; 5619; 5644; 5643; 5649; 4329; 5652; 2064; 5648; 5650; 8421; 8422; 3672; 5653; 5657; 5654; 4218; 5655; 5607; 5658; 5659; 1524; 5661; 2138; 2538; 2026; 1601; 4198; 5663; 5662; 5665; 1908; 2027; 1815; 5668; 5667; 5669; 1643; 3218; 5670; 1816; 5672; 5671; 5673; 5674; 5675; 2506; 2934; 2350; 3839; 3919; 4359; 2528; 2397; 4311; 5676; 5677; 2507; 5678; 5679; 5681; 5680; 4003; 2693; 2613; 2479; 5682; 5684; 2822; 5683; 5685; 5686; 5687; 5688; 5689; 5691; 5690; 5692];
  [1602; 3237; 5693; 2449; 1735; 5694; 3417; 4837; 1882; 5695; 5696; 3929; 4019; 3516; 5697; 3735; 8423; 3756; 4092; 5698; 5700; 5699; 5702; 5701; 5704; 2508; 4058; 5705; 5706; 1883; 5707; 5709; 5708; 2888; 3784; 1545; 3702; 8424; 3374; 2664; 1944; 3703; 2551; 5711; 1817; 1591; 8425; 3559; 5710; 2285; 3246; 5712; 5720; 5713; 8427; 3134; 1945; 5721; 2139; 1884; 5719; 5717; 5714; 4199; 8426; 3321; 3534; 5715; 5723; 5722; 2070; 1610; 2376; 5716; 5718; 4002; 3185; 4034; 5731; 5732; 1644; 3861; 4134; 5734; 2540; 2759; 5727; 5733; 1575; 1996; 5724; 5729; 2997; 3652; 3736; 5726; 3948; 5728; 5737; 8428];
  [5735; 5730; 3949; 3611; 1946; 3388; 3272; 5738; 5736; 3158; 5725; 1546; 8429; 4181; 5749; 5748; 2999; 5745; 4211; 3499; 5739; 3326; 1547; 2286; 5742; 2638; 5747; 5746; 5741; 5744; 1763; 5743; 3612; 4243; 2809; 2998; 5755; 5753; 3804; 5750; 5752; 1529; 2287; 4341; 1720; 3825; 8431; 4200; 1695; 2846; 5754; 5759; 8430; 2760; 4151; 5756; 5751; 5757; 8432; 4291; 3466; 3511; 8433; 1713; 1556; 5763; 5766; 4264; 4203; 5773; 5767; 5764; 4281; 5770; 8434; 2673; 5772; 5777; 3464; 5775; 5769; 3219; 5776; 5765; 5771; 5778; 1501; 5768; 5779; 2847; 8436; 2694; 3858; 2363; 8435; 5760; 5774; 3409; 8437; 2935];
  [1764; 2398; 2761; 5762; 2665; 2111; 5761; 5783; 2708; 2187; 5798; 5792; 1963; 3430; 5787; 5796; 1424; 1521; 8440; 1622; 5789; 3113; 5780; 5782; 2288; 5799; 8438; 5794; 8441; 5786; 5793; 4052; 5791; 5795; 2209; 2762; 3220; 8439; 5785; 4150; 5788; 5781; 3465; 5784; 5790; 4372; 2567; 4041; 5800; 3679; 5812; 2188; 2695; 5802; 4244; 2289; 5815; 1487; 5813; 5801; 5807; 5809; 4182; 5804; 3397; 5806; 8442; 5814; 5808; 4080; 5803; 2539; 5827; 1765; 5805; 5810; 5811; 3177; 3159; 5819; 5825; 5823; 3392; 5830; 5820; 5821; 5797; 1968; 3785; 2568; 2342; 4342; 5817; 5829; 1576; 3077; 3660; 1818; 4319; 4042];
  [3339; 5824; 5826; 3025; 5828; 5822; 5816; 1820; 2140; 5842; 5837; 3001; 1758; 2696; 5846; 5839; 3301; 5836; 3346; 5871; 5833; 5832; 5841; 5835; 5834; 5840; 2914; 5831; 8443; 5843; 5844; 1819; 5849; 5848; 5850; 5853; 3418; 5847; 8444; 5851; 2134; 3190; 5845; 3598; 5852; 5857; 5855; 5858; 5861; 5854; 2329; 3579; 5758; 4219; 5856; 5860; 3186; 5859; 5838; 8445; 7404; 5864; 5868; 5866; 8446; 8447; 5862; 5863; 5867; 5865; 3805; 5873; 5870; 5869; 5872; 3529; 5874; 3280; 3178; 8448; 2918; 5875; 5877; 5876; 5818; 5878; 3548; 5879; 1645; 3467; 1696; 1947; 2599; 2399; 8449; 4330; 2889; 1577; 5881; 5880];
  [8450; 5884; 3221; 5887; 5882; 5886; 5885; 3415; 1466; 8278; 4314; 5889; 1511; 5891; 5890; 5888; 5883; 3950; 5893; 8452; 5892; 8451; 1578; 5895; 3871; 5894; 4062; 2764; 3026; 2763; 8454; 8455; 4320; 5901; 3002; 5897; 5902; 1579; 8453; 5900; 3636; 5896; 5899; 2765; 3714; 5903; 2586; 3003; 5906; 5898; 2074; 5904; 4183; 5907; 7807; 2678; 5908; 5909; 3585; 5911; 5912; 8457; 3590; 3468; 5914; 5916; 4282; 5913; 5915; 1580; 5910; 4758; 5917; 3078; 2467; 5919; 5918; 2823; 4662; 5920; 5922; 5905; 5921; 8458; 5923; 3661; 5924; 5925; 5926; 5927; 3351; 5929; 5928; 5930; 5931; 2600; 3826; 4117; 5932; 5933];
  [3061; 2541; 5934; 5935; 5936; 3903; 3704; 5937; 3626; 3302; 5938; 1668; 1956; 4079; 4063; 1617; 4343; 3997; 3863; 2936; 5939; 3512; 2164; 5940; 2401; 5942; 5941; 5943; 5944; 5945; 1909; 5946; 5947; 2165; 3705; 8459; 5949; 2810; 5948; 8460; 1997; 5950; 5952; 5951; 5953; 2210; 5954; 2046; 3039; 2348; 5956; 5957; 5955; 2614; 3517; 1998; 5959; 3207; 5958; 4344; 3637; 5962; 5964; 5961; 4093; 5963; 5965; 4265; 8461; 5969; 5968; 3281; 3584; 2166; 5967; 5966; 4152; 4153; 5970; 1581; 2341; 2509; 5971; 5972; 5974; 2666; 5976; 5975; 5977; 1736; 5979; 8463; 5978; 5981; 5980; 2189; 4237; 2017; 1603; 2047];
  [1850; 4301; 5983; 5985; 8464; 5986; 1646; 5982; 8465; 2468; 3322; 5984; 8468; 8466; 5989; 2615; 8467; 5987; 2097; 3706; 5988; 6015; 8470; 5994; 2190; 1948; 5991; 4228; 8469; 4245; 3187; 5993; 8471; 8473; 8472; 8474; 5995; 4283; 2028; 3757; 3613; 5996; 5998; 6001; 5997; 6000; 2235; 1548; 6002; 2899; 5999; 4289; 8475; 6005; 7805; 6003; 6006; 5992; 6004; 2377; 6007; 6008; 4229; 8476; 6009; 6010; 8477; 5990; 6011; 1821; 2542; 6012; 6013; 6014; 1530; 6016; 3786; 6017; 1789; 6018; 6019; 6020; 6022; 6023; 6021; 3810; 6025; 6024; 8478; 6027; 6026; 6028; 6029; 6031; 6030; 2344; 6033; 6032; 1822; 2870];
  [3411; 6034; 2937; 2469; 1592; 6035; 4184; 3920; 6036; 8347; 3419; 4154; 2290; 2848; 3238; 4625; 3303; 1669; 6037; 6038; 6043; 6041; 6040; 5391; 1697; 6039; 1467; 3675; 3707; 4246; 6044; 6042; 3255; 2919; 3676; 3772; 6046; 4241; 2112; 6047; 6045; 3719; 6048; 6049; 8479; 1468; 2811; 6054; 6051; 3554; 6050; 1885; 6057; 6052; 6053; 6056; 6055; 3764; 3041; 3040; 1910; 6058; 6059; 6060; 6062; 6061; 1557; 6070; 3737; 6064; 6066; 6068; 2849; 6069; 6067; 2569; 6063; 6065; 3793; 2766; 6072; 6071; 6073; 2543; 2364; 3470; 6074; 3332; 6076; 4230; 6075; 3080; 6081; 6083; 6084; 3247; 6082; 6079; 6077; 6078];
  [6080; 6087; 6085; 6086; 6088; 6090; 6091; 6092; 6093; 6089; 6095; 6094; 6096; 4266; 6099; 6097; 6098; 1851; 4135; 3895; 6101; 6100; 6102; 6103; 6107; 6104; 6105; 6106; 6108; 6109; 6110; 6111; 6112; 3680; 3431; 6113; 3653; 3779; 6114; 8480; 6115; 3393; 1698; 2291; 6116; 6117; 6118; 2452; 6120; 6119; 6121; 6122; 8483; 8481; 8482; 8484; 3738; 6123; 6124; 7780; 6125; 6126; 6127; 2457; 6128; 3625; 4010; 1549; 1558; 6129; 6131; 6130; 3463; 2938; 5664; 6132; 4074; 6133; 1823; 3720; 6134; 6135; 6136; 4101; 4094; 3319; 3081; 6138; 2697; 2767; 6141; 6140; 6139; 3758; 1824; 2170; 6147; 6144; 2850; 4059];
  [6143; 6145; 6146; 6142; 6148; 6149; 3304; 1852; 3264; 8486; 6150; 6151; 6154; 2890; 3513; 6155; 3998; 6152; 6153; 6158; 6157; 6156; 6160; 6159; 6161; 6163; 6162; 3898; 2685; 4267; 6164; 3500; 6165; 6166; 6170; 6168; 6169; 6167; 6171; 6172; 6173; 6174; 4064; 6175; 4121; 6176; 3241; 3645; 2048; 3222; 6177; 1999; 2961; 6178; 2378; 6179; 6180; 2167; 2402; 6182; 8488; 3437; 2403; 1925; 3951; 3614; 3438; 2315; 6184; 8489; 2768; 8490; 4247; 2292; 2168; 3668; 6186; 8491; 6188; 2236; 6187; 3375; 6190; 1714; 6185; 3739; 1519; 2425; 4373; 6189; 6191; 3896; 2970; 6193; 6194; 6192; 1737; 6200; 6199; 2544];
  [6201; 6196; 6202; 6197; 3721; 6195; 6198; 6205; 6204; 4012; 6203; 1484; 6207; 6206; 2769; 6208; 3042; 6210; 6209; 6211; 6181; 6183; 6213; 6212; 8492; 2545; 4302; 2587; 6214; 2090; 1911; 1886; 2510; 4155; 6220; 6219; 3043; 6216; 6218; 2674; 2851; 6217; 6215; 3581; 2770; 3787; 2404; 3471; 6221; 6222; 6244; 2029; 4352; 3028; 6223; 1647; 3376; 3854; 8496; 8498; 6224; 1969; 6225; 6227; 6228; 3580; 6229; 6230; 6231; 2030; 1648; 3514; 2639; 2511; 6232; 2640; 1639; 3794; 6233; 3740; 3044; 6236; 6237; 3644; 2852; 6234; 3260; 6235; 2771; 1469; 1888; 6238; 3377; 6239; 2952; 4054; 3762; 6240; 6241; 3248];
  [4268; 6243; 6242; 2616; 6245; 1489; 6248; 6246; 1649; 2113; 6247; 2293; 2337; 3923; 6249; 3999; 6251; 2962; 1550; 1623; 1421; 6250; 6252; 6253; 2812; 6254; 1738; 6256; 2141; 1949; 6257; 2058; 6258; 3005; 3522; 2977; 2434; 6259; 3261; 3082; 6261; 6263; 6260; 6262; 2069; 6264; 2073; 1950; 4185; 6266; 6267; 1517; 6270; 1777; 6269; 6268; 6272; 6265; 6273; 4238; 6274; 6275; 8499; 4877; 6277; 6276; 6278; 6279; 4250; 6280; 7504; 2772; 6281; 6282; 2686; 3501; 6283; 8500; 3203; 8502; 6284; 3223; 6285; 1978; 4542; 3256; 2556; 1825; 6286; 6299; 6289; 1951; 6288; 6301; 6287; 2773; 6291; 6292; 3394; 6293];
  [1753; 2877; 3827; 6295; 3173; 6290; 6294; 6296; 2440; 6303; 3773; 3671; 3472; 2031; 6302; 6300; 3686; 6297; 3257; 3474; 3473; 2435; 6321; 6305; 6307; 6310; 6311; 6308; 6309; 6306; 6304; 6298; 3900; 1650; 6318; 6315; 6320; 6319; 3654; 4048; 2470; 6313; 6322; 6317; 6316; 6312; 8503; 6314; 1826; 3224; 3006; 3667; 6327; 3669; 2978; 6324; 3712; 6328; 3904; 3254; 6323; 6325; 6326; 6329; 2573; 3515; 6334; 6333; 6330; 4345; 6339; 6343; 6340; 6336; 6337; 6342; 6331; 4658; 6338; 6332; 6341; 6347; 1827; 6344; 6345; 6346; 6349; 6348; 3751; 6350; 4321; 3930; 6355; 6352; 6351; 2963; 6354; 6356; 6353; 6360];
  [6357; 6358; 6335; 6359; 6361; 6362; 3891; 6363; 4107; 2019; 2076; 6364; 3873; 2891; 4057; 6365; 4248; 3655; 3045; 3591; 2676; 1441; 6370; 6368; 6366; 1786; 2774; 6371; 6369; 6367; 6375; 6374; 6373; 6372; 6376; 6377; 2939; 6378; 6380; 6379; 2211; 3031; 6382; 3475; 6381; 6383; 3874; 3083; 2294; 6384; 4269; 6386; 6387; 6388; 6389; 2512; 6390; 2114; 1953; 1889; 6392; 4124; 2295; 6391; 6395; 4111; 3599; 3778; 2698; 6394; 2588; 2296; 2513; 1952; 3875; 6393; 3046; 3981; 2436; 2514; 3350; 6398; 4292; 2406; 6399; 2853; 6401; 2775; 2365; 6400; 2641; 2191; 3047; 6396; 6402; 8505; 6397; 2115; 6405; 6409];
  [2142; 6404; 6413; 8506; 2297; 4212; 1437; 6410; 1954; 6407; 6408; 3476; 6406; 6403; 1699; 2981; 2169; 6415; 6412; 6414; 6411; 2116; 3120; 6416; 3085; 6429; 8508; 6425; 6419; 6423; 2627; 1470; 6418; 6426; 6430; 2298; 4095; 3343; 6420; 8507; 6428; 6417; 3225; 6422; 1438; 4083; 6421; 2032; 3741; 3084; 4277; 2710; 6469; 8509; 6431; 3007; 6427; 6432; 6434; 3378; 6437; 6433; 3905; 1828; 4084; 1471; 6436; 4322; 6435; 1582; 3553; 6438; 6445; 6439; 6446; 6442; 3662; 2579; 6444; 6441; 6447; 6440; 2667; 3952; 2675; 6443; 6455; 6451; 6454; 6452; 6456; 6450; 6424; 2964; 3708; 6453; 6448; 3008; 2117; 2642];
  [8510; 2824; 3029; 6459; 6461; 6462; 6458; 6460; 6449; 6457; 6465; 6464; 4037; 2078; 6463; 6467; 6466; 6470; 6472; 2471; 6468; 6473; 6474; 8272; 6475; 6481; 3410; 6477; 6476; 6478; 6479; 6480; 6482; 6483; 1829; 6484; 6485; 6486; 8511; 6487; 6488; 6489; 6490; 6491; 6493; 6492; 6494; 6495; 6496; 6499; 6497; 6498; 2414; 2118; 3249; 3684; 2711; 3616; 3742; 6500; 5246; 6501; 6503; 4204; 6502; 6505; 6504; 4186; 6506; 3759; 6507; 6510; 6509; 6508; 8512; 6511; 2085; 3009; 1912; 6515; 6512; 6513; 6516; 6517; 6514; 1512; 1604; 6519; 6520; 6521; 4201; 2643; 6523; 6522; 2892; 6524; 6525; 6526; 1854; 1830];
  [6527; 6528; 4008; 4202; 4187; 4346; 2300; 6531; 2589; 6530; 6532; 2546; 3150; 6533; 2299; 4096; 6534; 6535; 6536; 6537; 6538; 2547; 4118; 6540; 3226; 6539; 6542; 6541; 6543; 2940; 6544; 6545; 3878; 6546; 3086; 6547; 6548; 4323; 6551; 6550; 6549; 3305; 6552; 2825; 6553; 6554; 4347; 6555; 6556; 6558; 6557; 3670; 3566; 4353; 3674; 6560; 2776; 3769; 6561; 6559; 1831; 2213; 2515; 3743; 2171; 3982; 6564; 6562; 2301; 2302; 1482; 2421; 3628; 1472; 6569; 3227; 3627; 3160; 6571; 6567; 6570; 6565; 6568; 3953; 2214; 1502; 6566; 6573; 6574; 3502; 2000; 6585; 3600; 2516; 2001; 2953; 4361; 4055; 6572; 2965];
  [1930; 6575; 6577; 6576; 6578; 3201; 3601; 3306; 6582; 6581; 6579; 2872; 3828; 6584; 6583; 2303; 4374; 6600; 6588; 6589; 2617; 6587; 2343; 6586; 6590; 3307; 3855; 3010; 3161; 6594; 6595; 6591; 6592; 6593; 2304; 6601; 6597; 3829; 4023; 3767; 6596; 6599; 6598; 3983; 6602; 6603; 3030; 6604; 6606; 6610; 6607; 6605; 3602; 6608; 6609; 1615; 6616; 6611; 6612; 6613; 3102; 6615; 6614; 6617; 6618; 6619; 2854; 1670; 6620; 4284; 2548; 2644; 2517; 3250; 6621; 6622; 1520; 6623; 6624; 6625; 6626; 6627; 2002; 5367; 6628; 2982; 6629; 2580; 6630; 4433; 6631; 3915; 1845; 3011; 2687; 3840; 2645; 6632; 2305; 6633];
  [3709; 6647; 6635; 3142; 3656; 2192; 6634; 3012; 6636; 3379; 6638; 6637; 6640; 6639; 6641; 6643; 6642; 1832; 6644; 6645; 6646; 2366; 4270; 6648; 2826; 1583; 6649; 6650; 6651; 1491; 6652; 6653; 3830; 2576; 6655; 1700; 1427; 6654; 6657; 3617; 2855; 1651; 3954; 2128; 2033; 6656; 1671; 1788; 1584; 6661; 4303; 3162; 3795; 6673; 1652; 6671; 6669; 6660; 6658; 6659; 2604; 2049; 3282; 3526; 1552; 6663; 6662; 6668; 6664; 6667; 8514; 4089; 6666; 1653; 1784; 6670; 6672; 2119; 6676; 6685; 6686; 1420; 6693; 1490; 6684; 6683; 6678; 6677; 6675; 6674; 3262; 3192; 6680; 6679; 6682; 3087; 2120; 1536; 6681; 2306];
  [3088; 8515; 6699; 6700; 1654; 1611; 6697; 8516; 6687; 6695; 6702; 6696; 6694; 6665; 6692; 6688; 1833; 6690; 6701; 6691; 6703; 6689; 3663; 4208; 6698; 6720; 6712; 2910; 8517; 1917; 2034; 6707; 1656; 2777; 6710; 2407; 3432; 6715; 3931; 6706; 1655; 2215; 3768; 6716; 6704; 8518; 6713; 6723; 6708; 6709; 3503; 6714; 6711; 3955; 6717; 1473; 6705; 6719; 6718; 3646; 6725; 6736; 1785; 6739; 6721; 6726; 4213; 6735; 8519; 4188; 4239; 3283; 1766; 3841; 6741; 3478; 1426; 6734; 6730; 3089; 6724; 6732; 6737; 3583; 1419; 6729; 6738; 3847; 6733; 6728; 2778; 2646; 2549; 4097; 3798; 6744; 6753; 6731; 1778; 8520];
  [2813; 6742; 6747; 3090; 6743; 6750; 3258; 6751; 4189; 6740; 1715; 6746; 6749; 4053; 6752; 6745; 6748; 8276; 3956; 4324; 6756; 6763; 6755; 2572; 6722; 3899; 4043; 6762; 6761; 6757; 6758; 1525; 6760; 6754; 3342; 6759; 1503; 3103; 3888; 6764; 6768; 3722; 6767; 2779; 2578; 6770; 2003; 8521; 6771; 3848; 6766; 8522; 6727; 6765; 4370; 3479; 3842; 8523; 6778; 6784; 6785; 6772; 3657; 6782; 6774; 6776; 6786; 6775; 6779; 1585; 3546; 6780; 6783; 6773; 3013; 6777; 2450; 2856; 2083; 4125; 4130; 2713; 8525; 6790; 6788; 4369; 6787; 4220; 6789; 6791; 6792; 6795; 6793; 3480; 6794; 3710; 6781; 2714; 6796; 6801];
  [3091; 6800; 6769; 6802; 3048; 6797; 6799; 6798; 5656; 5641; 6804; 6803; 4221; 6137; 6805; 6806; 6807; 2216; 1931; 6809; 4572; 1964; 4255; 2056; 6810; 6811; 3273; 6812; 3567; 1435; 1664; 6817; 6818; 6813; 2472; 6814; 3605; 6815; 6816; 6826; 6820; 6823; 6819; 6821; 6822; 2593; 6824; 3228; 2121; 1725; 6827; 1722; 6832; 6828; 6831; 3691; 6829; 6830; 3799; 3723; 6833; 3194; 6843; 6839; 1672; 6837; 3957; 6838; 6835; 6836; 6841; 6844; 6842; 6840; 6834; 3251; 6851; 4051; 6849; 6850; 6845; 6847; 6848; 6846; 2983; 4348; 6855; 6856; 6862; 2829; 6858; 6861; 6853; 6852; 6863; 1657; 6859; 6864; 6860; 6857];
  [3308; 6854; 3643; 6868; 4162; 6867; 6866; 6875; 6869; 6877; 4205; 6880; 6871; 6872; 6876; 6879; 6878; 6870; 6873; 6890; 6883; 6881; 6882; 6887; 6888; 1701; 1913; 6886; 6865; 8528; 6885; 6889; 6884; 6891; 6893; 6892; 6895; 6894; 6825; 6899; 6896; 6897; 6898; 6900; 2143; 6902; 6901; 2647; 2307; 5740; 6903; 2680; 1716; 6904; 1553; 2780; 6905; 2308; 6906; 1474; 3788; 6907; 2893; 6914; 6911; 3274; 6912; 6909; 2035; 6908; 6915; 2089; 3163; 6921; 6917; 3122; 6916; 6919; 6910; 6920; 6922; 3744; 6918; 6923; 6925; 2212; 6913; 1442; 6924; 2408; 4315; 6926; 6927; 3092; 4231; 6928; 4156; 6929; 6930; 3921];
  [6931; 2381; 4232; 6936; 6937; 2781; 6935; 8529; 4206; 6932; 6934; 2942; 2913; 6933; 6938; 3856; 6940; 6939; 1767; 3958; 6941; 8273; 6953; 6943; 6944; 6945; 6946; 6950; 6951; 6949; 6947; 6942; 6948; 6952; 7448; 1605; 6955; 2036; 6954; 6957; 6956; 6959; 6958; 6960; 2648; 6961; 6962; 6963; 2943; 4190; 6964; 3857; 3609; 6965; 6966; 2172; 1891; 6967; 2518; 3604; 6968; 1739; 6969; 6971; 4222; 6970; 2857; 6972; 6973; 6974; 1834; 6975; 6976; 6977; 6978; 1740; 6979; 6980; 6981; 1679; 2827; 6982; 6983; 6984; 2193; 3380; 6985; 2122; 2873; 6988; 3481; 6987; 8530; 2084; 6986; 3188; 1892; 6989; 6990; 2782];
  [2144; 6991; 3959; 2976; 1965; 4126; 3049; 6992; 8531; 2858; 3275; 2783; 6993; 6996; 6997; 2379; 3135; 6995; 2784; 3789; 6994; 2519; 1554; 7001; 2123; 2521; 2520; 4368; 7000; 6999; 3014; 1924; 4358; 1717; 2785; 8532; 6998; 7003; 7004; 7002; 2217; 4167; 2522; 3578; 7007; 2945; 3229; 4157; 7010; 2237; 2944; 7006; 7011; 2238; 7008; 7009; 8533; 7005; 2979; 3518; 3210; 1658; 3745; 1914; 8534; 3309; 7014; 7012; 3239; 2946; 1835; 7013; 2878; 4271; 4355; 7015; 7026; 3310; 7025; 8535; 7022; 7030; 7023; 7019; 3381; 7018; 7016; 4136; 2523; 7020; 7017; 8537; 7024; 2715; 2194; 3191; 3984; 1561; 1475; 3482];
  [7028; 7027; 3547; 7032; 7021; 7031; 7033; 2173; 7029; 2309; 2590; 7034; 4191; 7037; 7040; 7038; 3780; 7035; 2037; 7039; 7041; 7045; 7042; 7044; 7043; 8538; 7046; 2554; 7048; 7047; 3831; 7050; 2124; 7049; 7051; 7052; 1915; 6518; 2814; 7053; 2239; 7054; 8539; 7055; 2473; 5403; 7056; 7057; 2649; 7058; 7059; 7060; 7061; 7062; 3206; 7063; 7065; 7064; 3483; 7066; 3960; 7067; 7068; 7069; 7070; 3535; 2786; 7071; 2330; 4431; 7072; 7073; 3790; 7074; 7082; 7075; 7077; 7076; 7078; 3985; 7079; 7080; 7081; 7083; 1704; 3360; 3832; 2415; 2310; 3806; 1660; 3711; 7086; 1836; 2966; 7085; 7090; 3284; 4108; 7088];
  [7089; 1893; 7091; 3638; 3164; 3746; 3412; 7087; 3986; 1673; 7093; 4331; 3323; 4360; 2524; 7092; 3118; 7109; 3015; 3565; 3807; 7096; 2474; 2525; 2787; 3640; 2174; 7095; 7094; 3833; 2570; 3433; 8540; 8541; 7098; 7099; 2311; 7097; 7100; 7101; 7103; 3104; 7102; 1855; 7105; 7104; 7106; 8542; 7108; 7110; 7111; 2967; 2584; 7112; 1741; 7113; 3093; 7114; 7115; 3834; 8543; 1894; 7116; 3311; 1562; 7117; 2618; 2905; 3114; 7120; 7119; 7118; 7126; 7124; 7121; 7123; 7122; 7125; 1966; 7129; 2968; 7130; 2218; 7127; 7128; 4332; 3312; 3016; 7131; 7134; 7132; 7133; 4192; 3484; 7137; 7135; 7136; 7138; 7152; 7141];
  [7142; 7140; 7139; 3382; 7144; 7148; 7145; 7143; 7146; 7147; 7154; 7149; 2969; 7151; 7153; 7150; 7156; 2650; 7155; 7157; 7158; 7161; 7160; 7159; 7163; 7162; 4127; 7165; 7164; 7166; 7167; 7169; 7168; 2859; 7170; 2050; 7171; 7173; 7174; 7175; 7172; 7176; 2591; 7177; 1895; 2086; 8545; 2175; 7178; 3557; 3413; 7179; 7182; 2557; 7181; 7180; 2125; 7183; 1742; 7185; 2409; 7184; 7193; 7187; 7189; 3922; 7186; 7188; 7192; 7190; 1896; 7191; 7194; 3629; 4285; 2651; 7195; 4137; 7197; 7196; 7200; 4168; 7199; 1768; 7198; 7203; 7202; 7201; 3401; 7204; 7205; 7206; 2331; 2072; 7207; 7208; 7209; 2860; 7210; 2550];
  [7211; 7212; 4606; 4605; 7213; 6471; 7214; 3199; 2830; 3603; 7215; 3906; 3341; 2349; 3204; 1513; 4035; 2874; 2129; 2038; 3907; 7216; 7218; 7217; 1661; 3563; 7219; 3658; 3402; 7220; 2681; 7222; 4075; 7237; 7224; 7225; 3330; 3165; 3094; 3485; 7223; 1932; 7232; 7229; 7242; 3486; 3259; 7226; 3383; 3434; 7227; 7231; 2883; 3642; 3333; 2947; 7230; 3115; 3105; 7228; 1418; 4325; 7233; 3166; 2652; 2861; 7235; 7234; 1488; 7236; 3774; 7244; 3536; 2894; 3252; 2061; 7243; 4158; 1534; 3908; 1662; 7238; 7239; 7240; 7241; 3504; 3198; 1476; 7245; 7246; 7804; 3130; 7247; 1586; 3051; 2176; 4193; 8548; 7248; 3395];
  [3095; 2592; 7249; 7252; 2700; 7250; 3018; 3017; 1477; 4272; 7254; 3747; 7256; 7255; 7253; 6271; 1837; 7221; 7258; 7257; 7259; 4159; 3542; 3961; 7260; 2594; 7261; 7262; 7263; 3384; 1483; 2312; 4349; 7267; 8549; 2087; 7264; 7265; 3843; 1743; 4160; 2004; 3435; 7268; 7269; 8551; 7270; 8552; 3385; 7272; 7271; 3528; 7273; 2653; 2601; 3630; 3276; 2619; 2895; 7274; 7275; 2880; 7276; 7277; 7278; 4214; 2654; 7280; 7279; 2313; 2338; 2475; 7283; 2701; 7282; 7281; 3174; 2240; 2948; 3681; 2656; 7284; 2788; 7287; 7285; 7286; 7289; 7288; 2815; 7290; 7291; 7292; 3713; 2400; 2602; 7293; 7294; 4233; 2668; 4119];
  [4273; 7295; 2039; 7296; 8554; 3386; 8553; 7299; 1779; 2862; 8555; 7297; 7298; 3353; 8558; 8559; 4000; 2065; 8556; 8557; 7301; 7302; 7300; 7304; 8560; 8562; 3540; 1726; 8561; 7308; 7305; 7307; 7303; 7378; 7306; 4304; 2219; 8569; 8563; 8565; 7316; 8564; 3403; 7311; 7314; 7312; 7317; 8566; 7318; 8568; 7310; 8567; 7323; 1587; 7309; 3678; 7313; 2789; 8570; 2314; 8572; 8573; 3987; 2041; 2669; 3505; 8275; 3020; 7321; 7315; 7320; 4076; 3313; 7322; 7319; 8571; 3019; 7326; 7325; 7324; 8577; 3962; 8581; 8579; 8575; 8576; 8580; 2722; 8574; 7327; 3916; 1555; 3797; 3277; 1967; 8281; 7329; 8584; 2316; 8587];
  [8589; 2455; 7328; 2896; 2897; 7332; 7334; 8588; 8586; 2816; 8583; 7333; 7335; 8582; 2024; 3796; 2603; 4326; 7331; 2437; 4354; 7337; 7336; 7338; 7330; 8274; 3550; 3436; 3344; 7343; 8591; 3230; 7339; 7340; 2080; 7342; 8590; 2177; 7341; 2790; 1780; 7347; 2380; 3096; 3331; 8592; 1718; 7345; 7346; 3324; 7344; 7348; 7354; 8593; 7357; 7356; 3396; 7349; 7350; 7353; 7355; 8594; 2005; 7358; 7352; 7351; 8595; 7362; 7363; 7364; 7361; 7360; 2791; 3487; 7359; 7368; 7366; 8596; 7367; 7365; 3189; 7369; 7370; 7372; 8597; 8598; 1838; 7371; 4131; 7383; 7373; 7376; 7374; 7375; 7377; 7379; 7380; 7381; 7384; 7382];
  [7385; 7387; 7386; 3314; 4112; 7388; 3021; 7389; 3889; 7390; 1702; 1531; 1840; 8599; 1839; 7391; 7392; 7393; 7394; 7395; 1841; 1744; 2317; 3687; 7397; 7396; 7398; 1563; 7401; 7400; 7399; 7402; 7405; 1448; 7403; 7407; 7406; 7409; 7408; 7410; 3491; 7411; 7412; 7414; 7413; 3835; 7415; 7416; 2418; 7417; 7418; 3988; 3050; 1413; 3144; 7419; 3836; 7422; 7420; 2318; 7421; 2195; 3890; 7424; 7426; 7425; 7427; 1504; 2875; 2723; 1842; 7428; 3641; 7430; 1505; 7429; 3325; 4274; 3488; 7423; 4235; 2178; 4194; 2062; 4249; 2075; 3167; 6580; 7431; 1703; 2898; 1745; 7433; 7434; 7432; 2135; 2410; 2792; 8602; 1506];
  [4286; 7436; 7251; 7435; 8603; 7439; 7437; 7438; 7440; 7441; 4305; 7442; 7443; 2954; 3692; 2912; 1856; 4161; 1674; 2655; 2220; 7446; 7445; 2526; 7447; 7444; 2451; 7451; 6874; 4659; 2906; 7449; 4234; 3558; 1514; 2980; 2559; 3876; 1535; 4306; 4210; 7452; 3420; 2628; 7453; 7454; 2863; 7455; 4307; 7450; 7457; 7459; 7458; 7456; 7460; 7461; 3097; 1663; 7462; 4065; 7463; 7464; 4333; 8604; 5468; 7465; 8605; 7466; 7467; 7471; 8606; 7468; 7469; 7470; 7472; 8607; 8608; 8609; 2949; 8610; 4128; 2950; 7473; 3748; 7474; 7758; 4085; 7475; 7476; 7477; 1746; 7479; 2876; 7480; 2071; 7481; 7485; 7483; 7484; 1774];
  [7482; 7486; 7487; 1449; 7488; 7489; 2793; 7490; 1918; 7493; 7492; 7491; 7036; 3913; 7494; 7495; 7496; 7497; 7498; 7499; 1843; 7500; 7501; 3574; 7503; 1624; 7506; 7505; 1507; 2006; 3892; 3315; 2351; 2319; 2702; 2879; 7508; 7507; 4169; 1857; 3715; 3537; 2911; 4275; 2126; 7511; 7510; 3990; 3489; 1551; 7512; 7509; 3808; 4209; 7513; 7514; 7516; 3175; 1750; 1751; 7515; 1858; 2179; 8611; 1859; 3414; 4293; 8612; 2221; 7517; 7518; 7519; 7520; 7522; 7521; 3846; 7523; 7524; 7525; 7526; 7528; 7527; 7529; 3749; 6529; 2828; 1897; 7530; 7531; 4617; 5666; 3716; 1500; 1436; 2527; 3963; 2819; 7532; 4104; 7533];
  [4195; 1537; 2476; 7534; 1675; 7535; 7536; 7538; 7539; 7541; 7537; 7540; 8615; 1844; 7542; 7543; 7544; 7545; 7546; 7548; 7547; 7550; 7553; 7549; 7551; 7552; 7554; 2007; 2620; 7555; 7556; 2320; 8617; 7557; 1721; 3618; 7558; 7559; 3253; 3552; 7560; 3664; 3145; 1559; 2051; 2052; 3278; 7565; 2053; 1676; 7564; 7562; 7563; 7561; 7575; 7566; 7567; 7568; 7569; 7571; 7570; 2688; 7572; 7574; 1898; 7573; 3098; 2180; 7576; 3146; 7577; 3490; 7578; 7583; 7581; 7580; 7582; 7579; 7585; 8618; 7584; 7587; 2008; 7586; 7588; 7589; 7591; 7590; 7592; 7594; 7593; 2347; 7595; 7596; 1719; 7597; 7598; 2900; 7599; 7600];
  [7601; 7602; 2321; 8619; 8620; 7603; 7604; 7605; 7606; 7607; 3682; 7609; 3765; 7610; 7608; 7612; 7611; 7613; 7614; 7615; 7616; 7617; 7618; 7619; 7620; 7621; 7622; 7623; 7624; 7625; 7626; 7627; 5660; 7628; 6385; 1899; 1692; 2367; 7630; 7629; 4046; 7632; 7633; 7631; 7634; 4013; 7635; 1970; 4328; 8622; 7636; 8621; 7638; 1439; 8623; 7639; 3864; 7637; 7640; 7641; 7642; 7643; 7644; 4025; 2456; 2439; 3022; 8624; 7645; 7648; 8625; 7646; 7649; 2242; 7647; 7650; 7651; 7652; 7656; 2453; 3169; 7657; 7654; 7653; 7655; 2130; 7661; 7660; 7659; 1428; 8626; 7671; 7667; 7668; 7664; 7670; 7666; 1757; 4367; 7669];
  [7665; 7663; 7662; 7673; 7676; 7675; 7674; 3800; 7672; 1492; 7677; 7679; 1770; 7658; 1526; 7681; 7680; 7678; 3208; 4027; 4287; 7682; 7683; 7684; 7685; 7686; 3316; 7687; 3688; 7692; 7688; 7689; 3964; 4077; 3525; 7693; 7694; 3507; 7691; 7690; 1607; 7702; 7701; 1588; 7699; 7698; 7696; 1782; 7695; 2555; 1606; 2322; 7705; 7704; 7703; 7700; 7706; 7707; 7712; 7711; 7713; 1516; 7708; 7709; 2339; 4066; 7710; 8628; 3965; 7718; 8627; 7714; 7719; 7716; 7715; 2127; 7720; 7721; 7722; 7717; 7697; 7723; 3354; 7727; 7728; 7726; 7725; 7731; 7724; 7729; 7730; 7733; 7732; 7735; 7736; 7737; 4364; 7734; 3176; 2426];
  [7738; 8630; 7739; 7740; 7741; 7742; 2181; 7743; 7744; 2552; 7745; 7746; 7747; 7748; 7751; 7749; 4351; 7750; 4308; 7752; 4288; 7753; 3665; 7754; 7756; 7757; 7755; 2332; 4086; 4014; 5068; 5703; 4038; 1608; 7759; 1927; 7760; 7761; 7762; 8631; 2340; 7763; 5973; 4100; 3168; 7764; 7766; 7765; 7767; 7768; 7769; 7770; 7771; 7772; 7773; 7774; 7775; 7776; 7777; 7778; 7779; 3387; 2222; 7781; 3052; 7782; 7783; 3760; 7784; 7785; 6226; 7107; 7502; 7786; 7787; 7789; 7790; 7791; 4309; 7788; 7792; 7793; 7795; 7794; 7797; 7798; 7796; 4251; 7799; 7800; 6255; 7801; 8403; 8600; 8323; 8334; 8335; 8356; 8395; 8411];
  [8413; 8456; 8462; 8485; 8493; 8494; 8495; 8497; 8501; 8504; 8513; 8524; 8526; 8527; 8536; 8544; 8546; 8547; 8550; 8578; 8585; 8601; 8613; 8614; 8616; 8629; 9; 8647; 83; 79; 82; 84; 8646; 41; 42; 85; 59; 3; 60; 4; 30; 203; 204; 205; 206; 207; 208; 209; 210; 211; 212; 6; 7; 66; 64; 67; 8; 86; 220; 221; 222; 223; 224; 225; 226; 227; 228; 229; 230; 231; 232; 233; 234; 235; 236; 237; 238; 239; 240; 241; 242; 243; 244; 245; 45; 31; 46; 15; 17; 13; 252; 253; 254; 255; 256; 257; 258; 259; 260; 261];
  [262; 263; 264; 265; 266; 267; 268; 269; 270; 271; 272; 273; 274; 275; 276; 277; 47; 34; 48; 32; 80; 81; 137; 16; 8645; 78]].
