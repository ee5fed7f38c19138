(** The named character reference tables. Copied from lib/whatwg/html/parsing/atom_tbl.cpp. Data only. *)
From Coq Require Import ZArith List.
Import ListNotations.
Open Scope Z_scope.

(** atom_tbl.cpp:1214-4530: the double array, nodes (m_base, m_check) *)
Definition ncr_heap : list (Z * Z) := concat [
  [(2231,0); (2,0); (3,1); (4,2); (32738,3); (6,32803); (7,5); (855,6); (9,952); (10,8); (1,9); (12,100); (13,11); (1,12); (15,118); (16,14); (1,15); (18,117); (19,17); (1,18); (21,102); (22,20); (1,21); (24,32835); (25,23); (819,24); (27,916); (28,26); (4,27); (30,103); (31,29); (2,30); (33,119); (34,32); (4,33); (36,120); (37,35); (3,36); (39,104); (40,38); (2,39); (42,953); (43,41); (1,42); (45,115); (46,44); (6,45); (48,107); (49,47); (3,48); (51,121); (52,50); (7,51); (54,108); (55,53); (3,54); (57,917); (58,56); (2,57); (63,116); (0,22); (-2,40); (-4,55); (64,59); (10,63); (66,111); (68,65); (99,32836); (4,66); (70,122); (71,69); (11,70); (73,112); (74,72); (16,73); (-5,74); (77,918); (78,76); (100,77); (80,200); (81,79); (23,80); (-7,81); (84,169); (86,83); (95,221); (28,84); (-8,86); (89,954); (90,88); (50,89); (92,155); (93,91); (16,92); (96,130); (126,85); (97,94); (2,96); (105,101); (980,67); (11,10); (98,97); (20,19); (29,28); (38,37); (109,98); (156,171); (47,46); (53,52); (51,105); (-9,109); (65,64); (72,71); (114,205); (132,113); (44,43); (59,58); (17,16); (14,13); (32,31); (35,34); (50,49); (69,68); (124,920); (125,123); (70,124); (72,95); (128,924); (129,127); (35,128); (94,93); (-16,126); (19,114); (134,132); (135,133); (136,134); (38,135); (138,136); (139,137); (140,138); (82,139); (-11,140); (144,217); (161,129); (145,142); (30,144); (147,145); (148,146); (149,147); (49,148); (151,149); (152,150); (153,151); (95,152); (-13,153); (91,90); (157,106); (99,156); (-15,157); (-6,78); (188,957); (162,143); (163,161); (59,162); (165,163); (166,164); (167,165); (65,166); (170,167); (83,78); (172,168); (106,90); (173,170); (115,172); (-17,173); (176,921); (177,175); (120,176); (180,125); (-21,177); (181,178); (182,180); (78,181); (184,182); (185,183); (186,184); (84,185); (191,186); (189,160); (76,188); (196,189); (192,187); (193,191); (135,192); (-19,193); (223,963); (203,190); (198,922); (199,197); (87,198)];
  [(79,78); (202,199); (242,201); (204,196); (147,203); (113,78); (-22,204); (208,234); (209,207); (151,208); (-23,209); (212,958); (213,211); (100,212); (215,213); (216,214); (218,215); (142,78); (122,216); (220,218); (222,219); (85,78); (226,220); (224,195); (113,223); (228,224); (109,222); (230,226); (229,225); (297,228); (231,227); (232,230); (132,231); (235,232); (207,177); (236,233); (237,235); (179,236); (-24,237); (240,927); (241,239); (206,240); (246,202); (308,318); (245,307); (263,244); (150,242); (248,246); (249,247); (250,248); (133,249); (252,250); (253,251); (254,252); (154,253); (256,254); (257,255); (258,256); (200,257); (-26,258); (261,928); (262,260); (274,261); (184,245); (372,386); (266,371); (271,265); (287,296); (269,286); (270,268); (157,269); (262,266); (273,270); (274,272); (275,273); (156,274); (-1,102); (278,275); (279,277); (280,278); (172,279); (282,280); (283,281); (284,282); (226,283); (-28,284); (268,263); (288,267); (185,287); (290,288); (291,289); (292,290); (234,291); (-29,292); (-3,104); (323,932); (267,263); (194,229); (299,297); (300,298); (301,299); (205,300); (303,301); (304,302); (305,303); (247,304); (-30,305); (244,241); (309,243); (206,308); (311,309); (312,310); (313,311); (217,312); (315,313); (316,314); (317,315); (260,316); (243,241); (-31,317); (321,964); (322,320); (229,321); (324,295); (245,323); (328,324); (327,322); (330,326); (329,325); (334,328); (331,327); (233,330); (333,331); (336,332); (276,329); (-35,334); (337,333); (224,336); (339,337); (340,338); (341,339); (283,340); (-32,341); (362,370); (345,929); (346,344); (350,345); (351,361); (451,453); (350,450); (355,349); (352,347); (239,351); (357,352); (-10,101); (328,350); (384,425); (358,353); (359,357); (301,358); (-33,359); (347,271); (363,343); (261,362); (365,363); (366,364); (367,365); (309,366); (-34,367); (377,966); (343,271); (265,262); (373,264); (315,372); (-37,373); (376,965); (378,375); (397,369); (279,376); (380,378); (381,379); (382,380); (324,381); (-39,382); (385,356); (278,384); (264,262); (-40,355); (389,385); (390,388); (391,389); (292,390); (393,391); (395,392); (-12,137); (396,393); (341,395); (515,377); (619,627); (402,618)];
  [(-41,396); (404,428); (403,399); (297,402); (405,401); (347,404); (-42,405); (-14,150); (409,403); (410,408); (587,409); (412,930); (413,411); (528,412); (418,443); (632,640); (417,631); (422,416); (419,414); (312,418); (421,419); (427,420); (312,417); (424,422); (599,423); (356,355); (-18,168); (429,421); (401,355); (319,427); (431,429); (432,430); (433,431); (322,432); (435,433); (436,434); (437,435); (337,436); (439,437); (440,438); (441,439); (383,440); (-43,441); (414,355); (445,446); (448,444); (444,355); (-20,187); (390,445); (-44,448); (349,346); (452,348); (471,451); (348,346); (496,585); (456,572); (457,455); (399,456); (-46,457); (460,579); (461,459); (361,460); (463,461); (464,462); (465,463); (407,464); (-47,465); (468,580); (469,467); (355,468); (471,469); (472,470); (473,471); (374,472); (475,473); (476,474); (477,475); (419,476); (-48,477); (480,516); (481,479); (424,480); (489,522); (484,521); (485,483); (427,484); (-49,485); (488,523); (497,487); (490,482); (433,489); (-25,233); (-50,490); (494,524); (495,493); (446,494); (503,454); (439,488); (-51,497); (500,525); (501,499); (443,500); (-53,501); (388,496); (529,503); (-52,495); (507,527); (508,506); (450,507); (-55,508); (511,528); (518,510); (-27,255); (514,526); (515,513); (458,514); (479,477); (-54,515); (460,511); (-56,518); (-38,386); (483,481); (482,481); (487,481); (493,481); (499,481); (513,481); (506,481); (510,481); (531,504); (-45,452); (532,529); (474,531); (-57,532); (535,592); (536,534); (439,535); (538,536); (539,537); (540,538); (482,539); (-58,540); (543,582); (544,542); (486,543); (-59,544); (547,586); (548,546); (446,547); (559,562); (551,558); (552,550); (449,551); (554,552); (555,553); (556,554); (498,555); (-60,556); (550,548); (560,549); (502,559); (-61,560); (549,548); (564,593); (565,563); (469,564); (567,565); (568,566); (569,567); (456,568); (571,569); (573,570); (455,452); (574,571); (461,573); (576,574); (577,575); (578,576); (522,577); (459,452); (467,452); (-62,578); (542,540); (591,967); (-36,325); (454,452); (546,452); (478,410); (589,587); (590,588); (594,589); (611,583); (534,532); (563,452); (536,590); (-63,594); (597,931); (598,596); (680,597); (603,424)];
  [(602,777); (639,749); (607,600); (494,599); (605,603); (606,604); (614,605); (509,602); (609,607); (610,608); (644,609); (500,591); (613,611); (616,612); (556,606); (-64,614); (617,613); (514,616); (399,397); (620,398); (519,619); (626,620); (623,617); (624,622); (625,623); (565,624); (628,621); (398,397); (629,626); (571,628); (-65,629); (416,413); (633,415); (532,632); (635,633); (636,634); (637,635); (579,636); (-66,637); (663,601); (415,413); (642,933); (643,641); (540,642); (543,610); (646,643); (647,645); (652,646); (649,644); (650,648); (651,649); (543,650); (543,647); (654,652); (655,653); (656,654); (660,655); (658,651); (659,657); (660,658); (602,659); (-68,660); (672,792); (605,639); (-69,663); (666,781); (667,665); (609,666); (-70,667); (670,785); (671,669); (573,670); (700,662); (674,671); (675,673); (676,674); (618,675); (-71,676); (679,791); (680,678); (566,679); (682,680); (683,681); (684,682); (626,683); (-72,684); (688,625); (695,969); (689,686); (690,688); (621,689); (692,690); (693,691); (694,692); (579,693); (715,687); (697,694); (698,696); (699,697); (591,698); (590,672); (702,699); (703,701); (705,702); (708,700); (607,703); (707,705); (709,706); (714,704); (710,707); (595,709); (712,710); (713,711); (718,712); (740,708); (611,695); (717,715); (720,716); (614,713); (722,718); (721,717); (616,720); (723,719); (724,722); (614,723); (731,724); (727,721); (728,726); (729,727); (627,728); (759,729); (732,725); (733,731); (624,732); (735,733); (736,734); (737,735); (679,736); (-73,737); (-67,598); (630,714); (742,740); (743,741); (744,742); (625,743); (746,744); (747,745); (748,746); (692,747); (601,598); (752,793); (-74,748); (753,750); (641,752); (755,753); (756,754); (757,755); (699,756); (-75,757); (760,730); (761,759); (703,760); (-76,761); (764,656); (765,763); (767,764); (769,970); (709,765); (-78,767); (770,766); (699,769); (799,814); (773,798); (774,772); (661,773); (776,774); (778,775); (600,598); (779,776); (721,778); (-80,779); (665,598); (783,934); (784,782); (718,783); (669,598); (818,834); (788,817); (789,787); (676,788); (794,789); (678,598); (662,598); (750,748); (795,790); (796,794); (738,795); (-81,796); (772,770); (800,771)];
  [(696,799); (803,800); (810,971); (804,801); (805,803); (703,804); (807,805); (808,806); (809,807); (701,808); (830,802); (812,809); (813,811); (815,812); (771,770); (757,813); (-82,815); (787,784); (819,786); (761,818); (-83,819); (822,839); (823,821); (715,822); (825,823); (826,824); (827,825); (716,826); (829,827); (833,828); (726,810); (832,830); (835,831); (837,829); (786,784); (836,832); (733,835); (779,833); (-84,837); (821,784); (846,880); (842,836); (843,841); (844,842); (745,843); (847,844); (852,840); (848,845); (869,847); (850,935); (851,849); (748,850); (743,846); (854,851); (855,853); (860,854); (857,852); (858,856); (859,857); (806,858); (753,855); (862,860); (863,861); (864,862); (766,863); (-85,859); (867,864); (875,866); (876,972); (769,848); (871,869); (872,870); (873,871); (815,872); (-86,873); (877,867); (884,868); (777,875); (879,877); (881,878); (840,837); (882,879); (824,881); (-88,882); (776,876); (886,884); (887,885); (888,886); (781,887); (890,888); (891,889); (892,890); (834,891); (-90,892); (895,936); (896,894); (788,895); (898,896); (899,897); (900,898); (793,899); (902,900); (903,901); (904,902); (846,903); (-92,904); (907,938); (908,906); (856,907); (956,961); (911,955); (912,910); (802,911); (914,912); (915,913); (919,914); (26,25); (56,25); (76,25); (813,915); (123,25); (175,25); (197,25); (925,919); (127,7); (926,923); (937,925); (239,25); (260,25); (344,25); (411,25); (596,25); (295,7); (641,25); (782,25); (849,25); (894,25); (834,926); (906,25); (940,937); (941,939); (942,940); (833,941); (944,942); (945,943); (946,944); (831,945); (948,946); (949,947); (950,948); (892,949); (-94,950); (8,7); (41,7); (88,7); (910,908); (959,909); (160,7); (211,7); (850,956); (962,959); (909,908); (968,960); (195,7); (320,7); (375,7); (369,7); (583,7); (973,962); (687,7); (766,7); (802,7); (868,7); (858,968); (975,973); (976,974); (977,975); (919,976); (-95,977); (1011,32804); (2413,99); (1189,2511); (983,2510); (984,982); (1033,983); (1133,1147); (987,1132); (988,986); (882,987); (990,988); (991,989); (992,990); (965,991); (1010,1066); (995,1064); (996,994); (886,995); (998,996); (999,997); (1000,998)];
  [(891,999); (1002,1000); (1003,1001); (1004,1002); (902,1003); (1006,1004); (1007,1005); (1008,1006); (950,1007); (-96,1008); (1013,993); (1012,979); (2432,1011); (905,1010); (1016,1077); (-77,730); (1044,1014); (1018,1013); (1019,1017); (1021,1018); (-79,763); (907,1019); (1023,1021); (1024,1022); (1025,1023); (921,1024); (1027,1025); (1028,1026); (1029,1027); (922,1028); (1031,1029); (1032,1030); (1033,1031); (923,1032); (1035,1033); (1036,1034); (1037,1035); (928,1036); (1039,1037); (1040,1038); (1041,1039); (983,1040); (-97,1041); (1045,1080); (932,1016); (1056,1043); (1047,1044); (1048,1046); (1049,1047); (945,1048); (1051,1049); (1052,1050); (1053,1051); (945,1052); (1055,1053); (1057,1054); (960,1045); (1058,1055); (958,1057); (1060,1058); (1061,1059); (1062,1060); (1004,1061); (-98,1062); (994,992); (1067,1056); (993,992); (1068,1065); (1069,1067); (961,1068); (1071,1069); (1072,1070); (1073,1071); (1015,1072); (-99,1073); (1076,1116); (1078,1075); (1014,992); (966,1076); (1081,1078); (1043,992); (1082,1079); (1083,1081); (1025,1082); (-100,1083); (1086,32805); (1117,1085); (1235,2531); (1089,2529); (1090,1088); (1024,1089); (1124,1138); (1093,1123); (1094,1092); (988,1093); (1096,1094); (1097,1095); (1098,1096); (984,1097); (1100,1098); (1101,1099); (1102,1100); (995,1101); (1104,1102); (1105,1103); (1106,1104); (1010,1105); (1108,1106); (1109,1107); (1110,1108); (996,1109); (1112,1110); (1113,1111); (1114,1112); (1011,1113); (1119,1114); (1075,1073); (4279,1086); (2821,4378); (1120,1115); (1121,1119); (1063,1120); (-101,1121); (1092,1090); (1125,1091); (1034,1124); (1154,1153); (-87,870); (1129,1152); (1130,1128); (1072,1129); (-102,1130); (986,984); (1134,985); (1048,1133); (-89,878); (1168,1167); (1139,1166); (1091,1090); (1140,1137); (1040,1139); (1142,1140); (1143,1141); (1144,1142); (1044,1143); (1148,1144); (-91,889); (985,984); (1149,1145); (1150,1148); (1092,1149); (-103,1150); (1128,1125); (1126,1125); (1155,1126); (1055,1154); (1157,1155); (1159,1156); (-93,901); (1160,1157); (1061,1159); (1162,1160); (1163,1161); (1164,1162); (1106,1163); (-104,1164); (1137,1134); (1136,1134); (1169,1136); (1069,1168); (1171,1169); (1172,1170); (1173,1171); (1074,1172); (1175,1173); (1176,1174); (1177,1175); (1119,1176); (-105,1177); (1180,1222); (1181,1179); (1081,1180); (1183,1181); (1184,1182); (1185,1183); (1127,1184); (-106,1185); (1188,2512); (1219,1187); (1190,981); (1077,1189); (1192,1190); (1193,1191); (1194,1192); (1088,1193); (1196,1194); (1197,1195); (1198,1196); (1140,1197); (-107,1198)];
  [(1201,1256); (1202,1200); (1105,1201); (1204,1202); (1205,1203); (1206,1204); (1093,1205); (1208,1206); (1209,1207); (1210,1208); (1104,1209); (1212,1210); (1213,1211); (1214,1212); (1156,1213); (-108,1214); (1217,2513); (1218,1216); (1138,1217); (1132,1188); (1244,1253); (1223,1243); (1179,1177); (1224,1221); (1115,1223); (1226,1224); (1227,1225); (1228,1226); (1126,1227); (1230,1228); (1231,1229); (1232,1230); (1174,1231); (-109,1232); (1236,2533); (1237,1087); (1288,1234); (1117,1235); (1239,1237); (1240,1238); (1241,1239); (1183,1240); (-110,1241); (1221,1219); (1245,1220); (1187,1244); (-111,1245); (1248,2514); (1249,1247); (1310,1248); (1317,1419); (1252,1218); (1254,1251); (1220,1219); (1255,1252); (1140,1254); (1200,1198); (1258,1255); (1259,1257); (1260,1258); (1150,1259); (1262,1260); (1263,1261); (1264,1262); (1206,1263); (-112,1264); (1267,2515); (1268,1266); (1155,1267); (1270,1268); (1456,1269); (1272,1409); (1273,1271); (1177,1272); (1275,1273); (1276,1274); (1277,1275); (1161,1276); (1279,1277); (1280,1278); (1281,1279); (1167,1280); (1283,1281); (1284,1282); (1285,1283); (1227,1284); (-113,1285); (1289,2534); (1302,1236); (1291,1287); (1369,1416); (1328,1289); (1293,1401); (1294,1292); (1198,1293); (1296,1294); (1297,1295); (1298,1296); (1182,1297); (1300,1298); (1301,1299); (1302,1300); (1188,1301); (1304,1302); (1305,1303); (1306,1304); (1206,1305); (1308,1306); (1309,1307); (1310,1308); (1252,1309); (-114,1310); (1313,1328); (1314,1312); (1256,1313); (-115,1314); (1326,1422); (1318,1250); (1207,1317); (1320,1318); (1321,1319); (1322,1320); (1207,1321); (1324,1322); (1325,1323); (1327,1324); (1339,1316); (1208,1325); (1312,1285); (1330,1327); (1331,1329); (1332,1330); (1215,1331); (1334,1332); (1335,1333); (1336,1334); (1278,1335); (-116,1336); (1348,1426); (1225,1326); (1341,1339); (1342,1340); (1343,1341); (1239,1342); (1345,1343); (1346,1344); (1347,1345); (1290,1346); (1351,1338); (-117,1347); (1352,1424); (1316,1348); (1354,1350); (1414,1420); (1245,1352); (1356,1354); (1357,1355); (1358,1356); (1248,1357); (1360,1358); (1361,1359); (1362,1360); (1246,1361); (1364,1362); (1365,1363); (1366,1364); (1308,1365); (-118,1366); (1383,1418); (1370,1290); (1261,1369); (1372,1370); (1373,1371); (1374,1372); (1264,1373); (1376,1374); (1377,1375); (1378,1376); (1262,1377); (1380,1378); (1381,1379); (1382,1380); (1276,1381); (1402,1368); (1385,1382); (1386,1384); (1387,1385); (1280,1386); (1389,1387); (1390,1388); (1391,1389); (1287,1390); (1393,1391); (1394,1392); (1395,1393); (1281,1394); (1397,1395); (1398,1396); (1399,1397); (1341,1398)];
  [(-119,1399); (1292,1288); (1306,1383); (1404,1402); (1405,1403); (1406,1404); (1348,1405); (-120,1406); (1410,1413); (1271,1249); (1411,1408); (1353,1410); (-121,1411); (1408,1351); (1415,1353); (1358,1414); (1290,1288); (-122,1415); (1368,1288); (1250,1249); (1353,1351); (1423,1435); (1316,1249); (1425,1421); (1350,1249); (1326,1423); (1338,1249); (1428,1425); (1429,1427); (1430,1428); (1330,1429); (1432,1430); (1433,1431); (1434,1432); (1326,1433); (1421,1351); (1437,1434); (1438,1436); (1439,1437); (1381,1438); (-123,1439); (1443,2543); (1444,1291); (1445,1441); (1447,1442); (1334,1443); (1968,1445); (1448,1444); (1390,1447); (-124,1448); (1451,2518); (1452,1450); (1350,1451); (1454,1452); (1455,1453); (1465,1454); (1457,1270); (1399,1456); (-125,1457); (1460,2520); (1461,1459); (1365,1460); (1463,1461); (1464,1462); (1467,1463); (1571,1455); (1503,1682); (1596,1464); (1469,1670); (1470,1468); (1383,1469); (1481,1488); (1473,1480); (1474,1472); (1363,1473); (1476,1474); (1477,1475); (1478,1476); (1420,1477); (-126,1478); (1472,1470); (1482,1471); (1369,1481); (1484,1482); (1485,1483); (1486,1484); (1388,1485); (1489,1486); (1471,1470); (1490,1487); (1491,1489); (1433,1490); (-127,1491); (1494,1500); (1495,1493); (1384,1494); (1497,1495); (1498,1496); (1499,1497); (1442,1498); (1493,1470); (-128,1499); (1514,1686); (1504,1466); (1436,1503); (1520,1548); (1507,1536); (1508,1506); (1398,1507); (1510,1508); (1511,1509); (1512,1510); (1397,1511); (1515,1512); (1558,1502); (1516,1513); (1517,1515); (1459,1516); (-129,1517); (1531,1552); (1521,1505); (1414,1520); (1523,1521); (1524,1522); (1525,1523); (1409,1524); (1527,1525); (1528,1526); (1529,1527); (1415,1528); (1532,1529); (1537,1519); (1533,1530); (1534,1532); (1476,1533); (-130,1534); (1506,1504); (1433,1531); (1539,1537); (1540,1538); (1541,1539); (1433,1540); (1543,1541); (1544,1542); (1545,1543); (1445,1544); (1547,1545); (1549,1546); (1505,1504); (1550,1547); (1436,1549); (1553,1550); (1519,1504); (1554,1551); (1555,1553); (1497,1554); (-131,1555); (1569,1687); (1465,1514); (1579,1581); (1561,1578); (1562,1560); (1464,1561); (1564,1562); (1565,1563); (1566,1564); (1450,1565); (1568,1566); (1570,1567); (1573,1557); (1571,1568); (1460,1570); (1574,1571); (1478,1569); (1575,1572); (1576,1574); (1518,1575); (-132,1576); (1560,1558); (1580,1559); (1485,1579); (1559,1558); (1583,1580); (1584,1582); (1585,1583); (1472,1584); (1587,1585); (1588,1586); (1589,1587); (1531,1588); (-133,1589); (1603,1688); (1593,1573); (1594,1592); (1595,1593); (1491,1594); (1597,1595); (1598,1596); (1599,1597); (1503,1598)];
  [(1601,1599); (1602,1600); (1604,1601); (1607,1591); (1495,1602); (1606,1604); (1609,1605); (1496,1603); (1650,1607); (1610,1606); (1508,1609); (1612,1610); (1613,1611); (1614,1612); (1507,1613); (1616,1614); (1617,1615); (1618,1616); (1518,1617); (1620,1618); (1621,1619); (1622,1620); (1523,1621); (1624,1622); (1625,1623); (1626,1624); (1516,1625); (1628,1626); (1629,1627); (1630,1628); (1512,1629); (1632,1630); (1633,1631); (1634,1632); (1525,1633); (1636,1634); (1637,1635); (1638,1636); (1580,1637); (-134,1638); (1641,1622); (1642,1640); (1643,1641); (1532,1642); (1645,1643); (1646,1644); (1647,1645); (1589,1646); (-135,1647); (1661,1689); (1651,1608); (1652,1650); (1545,1651); (1654,1652); (1655,1653); (1656,1654); (1540,1655); (1658,1656); (1659,1657); (1660,1658); (1547,1659); (1665,1649); (1663,1660); (1664,1662); (1668,1663); (1565,1661); (1667,1665); (1671,1666); (1610,1664); (-136,1668); (1468,1465); (1672,1667); (1572,1671); (1674,1672); (1675,1673); (1676,1674); (1618,1675); (-137,1676); (1679,1690); (1680,1678); (1580,1679); (1683,1680); (1466,1465); (1684,1681); (1685,1683); (1591,1684); (1502,1465); (1557,1465); (1591,1465); (1649,1465); (1678,1465); (1692,1685); (1693,1691); (1694,1692); (1592,1693); (1696,1694); (1697,1695); (1698,1696); (1598,1697); (1700,1698); (1701,1699); (1702,1700); (1644,1701); (-138,1702); (1705,2521); (1706,1704); (1822,1705); (1892,1929); (1709,1919); (1712,1708); (1711,1467); (1713,1710); (1784,1709); (1715,1711); (1884,1894); (1605,1713); (1717,1715); (1718,1716); (1719,1717); (1601,1718); (1721,1719); (1722,1720); (1723,1721); (1665,1722); (-139,1723); (1726,2523); (1727,1725); (1859,1726); (1961,1970); (1730,1960); (1733,1729); (1732,1883); (1734,1731); (1872,1730); (1630,1732); (1736,1985); (1932,1735); (1738,1734); (1739,1737); (1740,1738); (1687,1739); (1771,1802); (1743,1795); (1744,1742); (1634,1743); (1746,1744); (1747,1745); (1748,1746); (1627,1747); (1750,1748); (1751,1749); (1752,1750); (1652,1751); (1754,1752); (1755,1753); (1756,1754); (1647,1755); (1758,1756); (1759,1757); (1760,1758); (1658,1759); (1762,1760); (1763,1761); (1764,1762); (1664,1763); (1766,1764); (1767,1765); (1768,1766); (1710,1767); (-140,1768); (1777,1803); (1772,1741); (1660,1771); (1774,1772); (1775,1773); (1776,1774); (1661,1775); (1796,1770); (1779,1776); (1780,1778); (1781,1779); (1685,1780); (1783,1781); (1784,1782); (1785,1783); (1672,1784); (1787,1785); (1788,1786); (1789,1787); (1689,1788); (1791,1789); (1792,1790); (1793,1791); (1735,1792); (-141,1793); (1742,1740); (1683,1777); (1798,1796); (1799,1797); (1800,1798)];
  [(1696,1799); (1804,1800); (1741,1740); (1770,1740); (1805,1801); (1806,1804); (1710,1805); (1808,1806); (1809,1807); (1810,1808); (1701,1809); (1812,1810); (1813,1811); (1814,1812); (1712,1813); (1816,1814); (1817,1815); (1818,1816); (1711,1817); (1820,1818); (1821,1819); (1822,1820); (1722,1821); (1824,1822); (1825,1823); (1826,1824); (1768,1825); (-142,1826); (1829,1868); (1830,1828); (1720,1829); (1832,1830); (1833,1831); (1834,1832); (1716,1833); (1836,1834); (1837,1835); (1838,1836); (1729,1837); (1840,1838); (1841,1839); (1842,1840); (1784,1841); (-143,1842); (1845,1876); (1846,1844); (1746,1845); (1848,1846); (1849,1847); (1850,1848); (1749,1849); (1852,1850); (1853,1851); (1854,1852); (1739,1853); (1856,1854); (1857,1855); (1858,1856); (1800,1857); (-144,1858); (1861,1882); (1862,1860); (1758,1861); (1864,1862); (1865,1863); (1866,1864); (1764,1865); (1869,1866); (1828,1826); (1870,1867); (1871,1869); (1768,1870); (1873,1871); (1874,1872); (1875,1873); (1761,1874); (1844,1826); (1878,1875); (1879,1877); (1880,1878); (1822,1879); (-145,1880); (1860,1826); (1731,1712); (1885,1714); (1779,1884); (1887,1885); (1888,1886); (1889,1887); (1831,1888); (-146,1889); (1901,1933); (1893,1707); (1861,1892); (1714,1712); (1911,1912); (1897,1910); (1898,1896); (1855,1897); (1906,1907); (1902,1905); (1920,1891); (1903,1900); (1845,1902); (-147,1903); (1900,1898); (1908,1899); (1899,1898); (1850,1906); (-148,1908); (1896,1893); (1913,1895); (1895,1893); (1862,1911); (1915,1913); (1916,1914); (1917,1915); (1859,1916); (-149,1917); (1708,1706); (1822,1901); (1922,1920); (1923,1921); (1924,1922); (1818,1923); (1926,1924); (1927,1925); (1928,1926); (1871,1927); (1707,1706); (-150,1928); (-151,1733); (1823,1736); (1891,1706); (1935,2491); (1936,1934); (1826,1935); (1938,1936); (1939,1937); (1942,1938); (1941,1932); (1943,1940); (1828,1939); (1946,1941); (1945,1942); (1947,1944); (1843,1943); (1958,1945); (1949,1946); (1950,1948); (1951,1949); (1834,1950); (1953,1951); (1954,1952); (1955,1953); (1897,1954); (-152,1955); (1976,2524); (1900,1947); (-153,1958); (1729,1727); (1962,1728); (1847,1961); (1964,1962); (1965,1963); (1966,1964); (1908,1965); (-154,1966); (1972,1446); (1971,2546); (1728,1727); (1973,1969); (1975,1968); (1873,1971); (1983,1973); (1880,1972); (1977,1957); (1928,1976); (1996,2044); (1980,2040); (1981,1979); (1882,1980); (1988,1975); (2336,1974); (1986,1981); (1735,1733); (1987,1984); (1989,1986); (1990,1982); (1935,1987); (1991,1988); (1933,1990); (-155,1991); (2012,2525); (-156,1989); (1999,2047); (1997,1978); (1939,1996); (-157,1997); (2018,1995)];
  [(2001,2055); (2002,2000); (1892,2001); (2004,2002); (2005,2003); (2006,2004); (1898,2005); (2008,2006); (2009,2007); (2010,2008); (1952,2009); (-158,2010); (2013,1993); (1900,2012); (2015,2013); (2016,2014); (2017,2015); (1915,2016); (1903,1999); (2021,2018); (2022,2017); (2027,2019); (2023,2020); (2025,2022); (2028,2048); (1917,2023); (2324,2025); (2029,2021); (2031,2024); (1925,2027); (2032,2029); (2193,2028); (2033,2030); (2034,2032); (1934,2033); (2036,2034); (2037,2035); (2038,2036); (1980,2037); (-159,2038); (1979,1977); (2059,2261); (2043,2291); (2045,2042); (1978,1977); (1935,2043); (2049,2045); (1995,1977); (2024,1977); (2050,2046); (2051,2049); (1932,2050); (2053,2051); (2054,2052); (2056,2053); (2000,1997); (1998,2054); (-160,2056); (2088,2265); (2060,2041); (2007,2059); (2082,2089); (2063,2083); (2064,2062); (2006,2063); (-161,2064); (2067,2115); (2068,2066); (2010,2067); (-162,2068); (2071,2293); (2072,2070); (2017,2071); (2094,2099); (2075,2093); (2076,2074); (2018,2075); (-163,2076); (2079,2125); (2080,2078); (2022,2079); (-164,2080); (2084,2061); (2062,2060); (2026,2082); (-165,2084); (2087,2121); (2091,2086); (2090,2058); (2061,2060); (2071,2088); (2033,2087); (-166,2091); (2074,2072); (2095,2073); (2037,2094); (-167,2095); (2098,2131); (2100,2097); (2073,2072); (2042,2098); (-168,2100); (2106,2302); (2112,2156); (2105,2297); (2107,2104); (2132,2102); (2060,2105); (2120,2128); (2110,2139); (2111,2109); (2054,2110); (2133,2103); (-171,2111); (2116,2171); (2066,2060); (2117,2114); (2059,2116); (-172,2117); (-170,2107); (2122,2108); (2086,2060); (2064,2120); (-173,2122); (2126,2160); (2078,2072); (2127,2124); (2070,2126); (2108,2107); (-174,2127); (-169,2090); (2097,2072); (2029,2106); (2076,2112); (2138,2132); (-175,2133); (2137,2188); (2140,2136); (2152,2134); (2109,2090); (2082,2137); (-176,2140); (2143,2145); (2144,2142); (2087,2143); (2142,2107); (-177,2144); (2148,2177); (2149,2147); (2091,2148); (-178,2149); (2155,2278); (2153,2138); (2044,2152); (2157,2153); (2181,2151); (2103,2090); (2158,2154); (2159,2157); (2044,2158); (2124,2107); (2162,2159); (2163,2161); (2164,2162); (2050,2163); (2166,2164); (2167,2165); (2168,2166); (2110,2167); (-179,2168); (2172,2305); (2114,2090); (2173,2170); (2066,2172); (2175,2173); (2176,2174); (2178,2175); (2147,2107); (2062,2176); (2180,2178); (2182,2179); (2158,2155); (2184,2180); (2217,2266); (2070,2182); (2186,2184); (2189,2185); (2192,2234); (2136,2090); (2190,2186); (2132,2189); (-180,2190); (2195,2187); (2194,2309); (2196,2193); (2140,2192); (2092,2194); (2198,2196); (2200,2197); (-182,2195)];
  [(2201,2198); (2093,2200); (2203,2201); (2204,2202); (2205,2203); (2105,2204); (2207,2205); (2208,2206); (2209,2207); (2095,2208); (2211,2209); (2212,2210); (2213,2211); (2155,2212); (-181,2213); (2219,2279); (2235,2240); (2218,2183); (2161,2217); (2232,2215); (-183,2218); (2222,2310); (2223,2221); (2167,2222); (2230,2275); (2226,2243); (2227,2225); (2169,2226); (-184,2227); (2244,2249); (2231,2224); (2174,2230); (2224,2219); (-185,2231); (2187,2181); (2236,2216); (2178,2235); (-186,2236); (2239,2272); (2241,2238); (2216,2181); (2183,2239); (-187,2241); (2225,2223); (2246,2229); (2258,2300); (2189,2244); (2251,2311); (-188,2246); (2229,2223); (2252,2281); (2255,2247); (2253,2250); (2195,2252); (-189,2253); (2261,2251); (2269,2337); (2259,2296); (2284,2245); (2260,2257); (2203,2259); (2041,2031); (-192,2260); (2264,2328); (2267,2263); (2058,2031); (2183,2181); (2209,2264); (-193,2267); (2292,2256); (2271,2333); (2273,2270); (2238,2181); (2215,2271); (-194,2273); (2224,2223); (2277,2365); (2280,2276); (2151,2031); (2215,2031); (2223,2277); (2250,2223); (-195,2280); (-190,2232); (2226,2258); (-196,2284); (2287,2332); (2288,2286); (2230,2287); (-197,2288); (2303,2343); (2042,2031); (2235,2269); (2070,2031); (-198,2292); (2298,2369); (2257,2232); (2104,2031); (2299,2295); (2242,2298); (2245,2232); (-199,2299); (2102,2031); (2307,2290); (2308,2306); (2170,2031); (2304,2232); (2259,2303); (2312,2304); (2193,2031); (2221,2031); (2247,2031); (2254,2308); (-200,2312); (2315,2338); (2316,2314); (2258,2315); (-201,2316); (-202,2307); (2321,2375); (-191,2255); (2322,2319); (2264,2321); (-203,2322); (2326,2026); (2344,2527); (2327,2324); (2228,2326); (2263,2232); (2330,2327); (2331,2329); (2334,2330); (2286,2232); (2270,2255); (2276,2331); (-204,2334); (2339,1983); (2256,2255); (2314,2232); (2222,2336); (2341,2339); (2342,2340); (2350,2341); (2290,2255); (2345,2325); (2271,2344); (2373,2389); (2348,2372); (2349,2347); (2234,2348); (2250,2342); (2353,2350); (2354,2349); (2356,2351); (2355,2352); (2357,2354); (2360,2353); (2257,2355); (2359,2357); (2368,2358); (2302,2356); (-205,2360); (2364,2547); (2382,2528); (2366,2362); (2276,2255); (2268,2364); (2376,2366); (2370,2359); (2295,2255); (2312,2368); (-206,2370); (2347,2345); (2374,2346); (2279,2373); (2319,2255); (2379,2367); (2378,2374); (2380,2377); (2406,2376); (2381,2378); (2291,2380); (2383,2363); (2354,2382); (2416,2455); (2386,2453); (2387,2385); (2276,2386); (2391,2381); (2346,2345); (2392,2387); (2394,2388); (2393,2390); (2395,2392); (2398,2391); (2337,2393); (-210,2395); (2399,2459); (2286,2394); (2430,2397)];
  [(2401,2398); (2402,2400); (2403,2401); (2345,2402); (-207,2403); (2407,2549); (2294,2379); (2409,2405); (2411,2406); (2301,2407); (2419,2409); (2412,2408); (2413,2411); (2355,2412); (-209,2413); (2434,2530); (2417,2384); (2309,2416); (2420,2417); (2422,2410); (2421,2418); (2424,2420); (2423,2419); (2414,2422); (2320,2421); (2426,2424); (2427,2425); (2428,2426); (2370,2427); (-211,2428); (2322,2399); (2432,2430); (2433,2431); (2440,2432); (2435,2415); (2386,2434); (2496,2495); (2438,2494); (2439,2437); (2334,2438); (2382,2433); (-212,2440); (2444,2439); (2446,2483); (2445,2442); (2447,2444); (2450,2443); (2389,2445); (-217,2447); (2451,2490); (2395,2446); (2452,2449); (2371,2451); (2385,2383); (-213,2450); (2384,2383); (2457,2465); (2458,2456); (2352,2457); (2397,2383); (2461,2458); (2462,2460); (2463,2461); (2405,2462); (-214,2463); (2456,2383); (2467,2503); (2468,2466); (2410,2467); (-215,2468); (2471,2509); (2472,2470); (2358,2471); (2474,2472); (2475,2473); (2476,2474); (2360,2475); (2478,2476); (2479,2477); (2480,2478); (2383,2479); (2482,2480); (2484,2481); (2443,2440); (2485,2482); (2427,2484); (-216,2485); (2488,2452); (2489,2487); (2492,2488); (2449,2447); (1934,980); (2434,2489); (-218,2492); (2437,2435); (2436,2435); (2497,2436); (2386,2496); (2499,2497); (2500,2498); (2501,2499); (2447,2500); (2504,2516); (2466,2463); (2505,2502); (2448,2504); (-219,2501); (-220,2505); (2517,2548); (2470,2463); (982,980); (981,980); (1187,980); (1216,980); (1247,980); (1266,980); (2502,2501); (2519,2508); (1450,980); (2463,2517); (1459,980); (1704,980); (-221,2519); (1725,980); (1957,980); (1993,980); (2532,2423); (2325,980); (2363,980); (1088,1012); (2415,980); (1087,1012); (2535,2526); (1234,1012); (1287,1012); (2536,2532); (2436,2535); (2538,2536); (2539,2537); (2540,2538); (2428,2539); (2542,2540); (2544,2541); (1441,1012); (2545,2542); (2491,2544); (1969,1012); (2362,1012); (2508,2501); (2405,1012); (-222,2545); (2552,2576); (2553,2551); (2495,2552); (-223,2553); (2556,32806); (2557,2555); (6998,2556); (2559,4376); (2560,2558); (2678,2559); (2607,2790); (2563,2777); (2564,2562); (2448,2563); (2566,2564); (2567,2565); (2568,2566); (2453,2567); (2570,2568); (2571,2569); (2572,2570); (2472,2571); (2574,2572); (2575,2573); (2577,2574); (2551,2519); (2519,2575); (-224,2577); (2580,32837); (2581,2579); (4605,2580); (2803,4704); (2584,4702); (2585,2583); (2657,2584); (2611,2769); (4886,7097); (2589,7095); (4717,2588); (2591,2756); (2592,2590); (2476,2591); (2594,2592); (2595,2593); (2596,2594); (2481,2595); (2598,2596); (2599,2597); (2600,2598)];
  [(2500,2599); (2602,2600); (2603,2601); (2604,2602); (2546,2603); (-225,2604); (2619,2799); (2608,2561); (2623,2607); (2683,2728); (2623,2771); (2612,2586); (2696,2611); (2651,2796); (2615,2793); (2616,2614); (2507,2615); (2618,2616); (2620,2617); (2778,2606); (2621,2618); (2522,2620); (2624,2621); (2713,2610); (2625,2622); (2626,2624); (2568,2625); (-228,2626); (2629,2794); (2630,2628); (2517,2629); (2632,2630); (2633,2631); (2634,2632); (2536,2633); (2636,2634); (2637,2635); (2638,2636); (2522,2637); (2640,2638); (2641,2639); (2642,2640); (2531,2641); (2644,2642); (2645,2643); (2646,2644); (2588,2645); (-229,2646); (2649,2795); (2650,2648); (2557,2649); (2652,2613); (2542,2651); (2673,2652); (2655,2650); (2656,2654); (2658,2655); (-208,2400); (2547,2656); (2660,2658); (2661,2659); (2662,2660); (2604,2661); (-230,2662); (2665,2674); (2666,2664); (2555,2665); (2668,2666); (2669,2667); (2670,2668); (2612,2669); (-231,2670); (2710,2811); (2675,2653); (2664,2650); (2676,2673); (2561,2675); (2678,2676); (2679,2677); (2680,2678); (2622,2679); (-232,2680); (-226,2608); (2684,2609); (2569,2683); (2686,2684); (2687,2685); (2688,2686); (2592,2687); (2690,2688); (2691,2689); (2692,2690); (2585,2691); (2694,2692); (2695,2693); (2696,2694); (2629,2695); (2698,2696); (2699,2697); (2700,2698); (2596,2699); (2702,2700); (2703,2701); (2704,2702); (2603,2703); (2706,2704); (2707,2705); (2708,2706); (2607,2707); (2714,2708); (2711,2672); (2653,2710); (-234,2711); (2656,2623); (2715,2709); (2716,2714); (2616,2715); (2718,2716); (2719,2717); (2720,2718); (2607,2719); (2722,2720); (2723,2721); (2724,2722); (2624,2723); (2726,2724); (2727,2725); (2729,2726); (2609,2608); (2620,2727); (2731,2729); (2732,2730); (2733,2731); (2618,2732); (2735,2733); (2736,2734); (2737,2735); (2633,2736); (2739,2737); (2740,2738); (2741,2739); (2645,2740); (2743,2741); (2744,2742); (2745,2743); (2638,2744); (2747,2745); (2748,2746); (2749,2747); (2682,2748); (2751,2749); (2752,2750); (2753,2751); (2695,2752); (-233,2753); (-227,2612); (2590,2585); (2758,2713); (2759,2757); (2760,2758); (2645,2759); (2762,2760); (2763,2761); (2764,2762); (2706,2763); (-235,2764); (2768,2767); (2766,2713); (2770,2766); (2586,2585); (2662,2768); (2610,2585); (2773,2770); (2774,2772); (2775,2773); (2717,2774); (-236,2775); (2562,2560); (2671,2619); (2780,2778); (2781,2779); (2782,2780); (2682,2781); (2784,2782); (2785,2783); (2786,2784); (2666,2785); (2788,2786); (2789,2787); (2791,2788); (2561,2560); (2677,2789); (2797,2791); (2614,2612); (2628,2612); (2648,2612); (2613,2612); (2798,2792); (2800,2797); (2606,2560)];
  [(2742,2798); (-237,2800); (2804,4705); (2805,2582); (2970,2802); (2838,2803); (2872,2939); (2808,2935); (2809,2807); (2729,2808); (2842,2843); (2672,2612); (2813,2841); (2814,2812); (2700,2813); (2816,2814); (2817,2815); (2818,2816); (2760,2817); (-238,2818); (2822,4379); (2823,1118); (2957,2820); (2817,2821); (2855,2918); (2826,2914); (2827,2825); (2714,2826); (2829,2827); (2830,2828); (2831,2829); (2721,2830); (2833,2831); (2834,2832); (2835,2833); (2726,2834); (2837,2835); (2838,2836); (2839,2837); (2781,2838); (-239,2839); (2812,2809); (2844,2810); (2810,2809); (2734,2842); (2846,2844); (2847,2845); (2848,2846); (2739,2847); (2850,2848); (2851,2849); (2852,2850); (2794,2851); (-240,2852); (2858,2922); (2856,2824); (2757,2855); (2859,2856); (2889,2854); (2860,2857); (2861,2859); (2757,2860); (2863,2861); (2864,2862); (2865,2863); (2758,2864); (2867,2865); (2868,2866); (2869,2867); (2811,2868); (-241,2869); (2875,2943); (2873,2806); (2774,2872); (2876,2873); (2902,2871); (2877,2874); (2878,2876); (2774,2877); (2880,2878); (2881,2879); (2882,2880); (2775,2881); (2884,2882); (2885,2883); (2886,2884); (2828,2885); (-243,2886); (2892,2928); (2776,2858); (2891,2889); (2893,2890); (2896,2888); (2894,2891); (2796,2893); (2897,2894); (2805,2892); (2898,2895); (2899,2897); (2841,2898); (-245,2899); (2905,2955); (2789,2875); (2904,2902); (2906,2903); (2909,2901); (2907,2904); (2809,2906); (2910,2907); (2824,2905); (2911,2908); (2912,2910); (2854,2911); (-246,2912); (2825,2823); (2916,2896); (2917,2915); (2919,2916); (2824,2823); (2815,2917); (2921,2919); (2923,2920); (2854,2823); (2924,2921); (2815,2923); (2926,2924); (2927,2925); (2929,2926); (2888,2823); (2814,2927); (2931,2929); (2932,2930); (2933,2931); (2875,2932); (-247,2933); (2807,2805); (2937,2909); (2938,2936); (2940,2937); (2806,2805); (2826,2938); (2942,2940); (2944,2941); (2871,2805); (2945,2942); (2887,2944); (-248,2945); (2948,3002); (2949,2947); (2841,2948); (2951,2949); (2952,2950); (2953,2951); (2895,2952); (-249,2953); (2901,2805); (2958,4380); (2849,2822); (2959,2956); (2953,2958); (2961,2957); (2962,2960); (2963,2961); (2848,2962); (2965,2963); (2966,2964); (2967,2965); (2909,2966); (-250,2967); (2971,4706); (2862,2804); (2972,2969); (2946,2971); (2974,2970); (2975,2973); (2976,2974); (2861,2975); (2978,2976); (2979,2977); (2980,2978); (2922,2979); (-251,2980); (2984,4707); (3026,3055); (2985,2982); (2872,2984); (3115,2985); (2988,3046); (2989,2987); (2885,2988); (2991,2989); (2992,2990); (2993,2991); (2886,2992); (2995,2993); (2996,2994); (2997,2995); (2939,2996); (-252,2997); (3054,3063)];
  [(3006,3053); (3003,4381); (2947,2945); (3004,3001); (2891,3003); (3106,3004); (3007,3000); (2903,3006); (3009,3007); (3010,3008); (3011,3009); (2904,3010); (3013,3011); (3014,3012); (3015,3013); (2908,3014); (3017,3015); (3018,3016); (3019,3017); (2923,3018); (3021,3019); (3022,3020); (3023,3021); (2965,3022); (-254,3023); (3034,3056); (3027,2983); (2916,3026); (3029,3027); (3030,3028); (3031,3029); (2916,3030); (3033,3031); (3035,3032); (3047,3025); (3036,3033); (2916,3035); (3038,3036); (3039,3037); (3040,3038); (2923,3039); (3042,3040); (3043,3041); (3044,3042); (2986,3043); (-255,3044); (2987,2972); (2932,3034); (3049,3047); (3050,3048); (3051,3049); (2993,3050); (-256,3051); (3000,2959); (3057,2999); (2983,2972); (3025,2972); (2942,3054); (3059,3057); (3060,3058); (3061,3059); (2961,3060); (3064,3061); (2999,2959); (3065,3062); (3066,3064); (2953,3065); (3068,3066); (3069,3067); (3070,3068); (3003,3069); (3072,3070); (3073,3071); (3074,3072); (2964,3073); (3076,3074); (3077,3075); (3078,3076); (2963,3077); (3080,3078); (3081,3079); (3082,3080); (3024,3081); (-258,3082); (3085,3094); (3086,3084); (2973,3085); (3088,3086); (3089,3087); (3090,3088); (2991,3089); (3092,3090); (3093,3091); (3095,3092); (3084,3051); (2985,3093); (3097,3095); (3098,3096); (3099,3097); (2984,3098); (3101,3099); (3102,3100); (3103,3101); (3045,3102); (-259,3103); (3107,4351); (3111,3005); (3108,3105); (3010,3107); (3110,3108); (3125,3109); (3112,3106); (3054,3111); (-260,3112); (3116,4709); (3120,2986); (3117,3114); (3084,3116); (3147,3185); (3133,3183); (3121,3115); (3063,3120); (-261,3121); (-242,2866); (3149,4383); (3126,3110); (3006,3125); (3128,3126); (3129,3127); (3130,3128); (3072,3129); (-262,3130); (3134,4710); (3138,3119); (3135,3132); (3022,3134); (3137,3135); (3139,3136); (3020,3133); (3187,3137); (-244,2883); (3142,3138); (3143,3141); (3144,3142); (3086,3143); (-263,3144); (3148,3189); (3150,3118); (3184,3146); (3151,3124); (3056,3147); (3047,3149); (3153,3151); (3154,3152); (3181,3153); (3156,3150); (3157,3155); (3158,3156); (3052,3157); (3160,3158); (3161,3159); (3162,3160); (3104,3161); (-264,3162); (3165,3213); (3166,3164); (3070,3165); (3168,3166); (3169,3167); (3170,3168); (3057,3169); (3172,3170); (3173,3171); (3174,3172); (3068,3173); (3176,3174); (3177,3175); (3178,3176); (3120,3177); (-265,3178); (3205,4384); (3123,3154); (-266,3181); (3119,3117); (3127,3148); (3118,3117); (-267,3184); (3380,3139); (3190,4713); (3146,3117); (3191,3188); (3075,3190); (3193,3191); (3195,3192); (3234,3449); (3196,3193); (3590,3195); (3198,3479); (3199,3197); (3141,3198)];
  [(-269,3199); (3202,3242); (3203,3201); (3091,3202); (3206,3203); (3207,3180); (3211,3204); (3094,3205); (3209,3207); (3210,3208); (3212,3209); (3214,3206); (3239,3210); (3164,3162); (3156,3211); (-270,3214); (3217,3249); (3218,3216); (3118,3217); (3220,3218); (3221,3219); (3222,3220); (3188,3221); (3286,3288); (3225,3285); (3226,3224); (3113,3225); (3228,3226); (3229,3227); (3230,3228); (3117,3229); (3232,3230); (3233,3231); (3235,3232); (3440,3194); (3125,3233); (3237,3235); (3238,3236); (3239,3237); (3121,3238); (3241,3239); (3243,3240); (3201,3199); (3244,3241); (3156,3243); (3265,3270); (3247,3264); (3248,3246); (3149,3247); (3216,3199); (3252,3248); (-253,2994); (3253,3250); (3254,3252); (3153,3253); (3256,3254); (3257,3255); (3258,3256); (3143,3257); (3260,3258); (3261,3259); (3262,3260); (3204,3261); (-271,3262); (3246,3244); (3266,3245); (3162,3265); (3268,3266); (3269,3267); (3271,3268); (3245,3244); (3169,3269); (3273,3271); (3274,3272); (3275,3273); (3172,3274); (3277,3275); (3278,3276); (3279,3277); (3164,3278); (3281,3279); (3282,3280); (3283,3281); (3225,3282); (-272,3283); (3224,3222); (3287,3223); (3290,3286); (3223,3222); (3303,3389); (3291,3387); (3292,3290); (3178,3291); (3294,3292); (3295,3293); (3296,3294); (3181,3295); (3298,3296); (3299,3297); (3300,3298); (3242,3299); (-273,3300); (3304,3390); (3306,3289); (3321,3302); (-257,3048); (3202,3303); (3308,3306); (3309,3307); (3310,3308); (3197,3309); (3312,3310); (3313,3311); (3314,3312); (3216,3313); (3316,3314); (3317,3315); (3318,3316); (3260,3317); (-274,3318); (3322,3372); (3227,3304); (3323,3320); (3312,3322); (3325,3321); (3326,3324); (3327,3325); (3213,3326); (3329,3327); (3330,3328); (3331,3329); (3228,3330); (3333,3331); (3334,3332); (3335,3333); (3277,3334); (-275,3335); (3362,4387); (3339,3212); (3340,3338); (3341,3339); (3234,3340); (3343,3341); (3344,3342); (3345,3343); (3245,3344); (3347,3345); (3348,3346); (3349,3347); (3350,3348); (3378,3427); (3352,3418); (3353,3351); (3243,3352); (3355,3353); (3356,3354); (3357,3355); (3242,3356); (3359,3357); (3360,3358); (3361,3359); (3304,3360); (3364,3337); (-276,3361); (3254,3362); (3366,3364); (3367,3365); (3369,3366); (3374,3373); (3494,3367); (3594,3609); (-277,3323); (3320,3287); (3368,3287); (3375,3368); (3317,3374); (-278,3375); (3386,3430); (3379,3350); (3275,3378); (3381,3379); (3382,3380); (3383,3381); (3274,3382); (3385,3383); (3388,3384); (3402,3377); (3290,3287); (3391,3385); (3289,3287); (3302,3287); (3275,3388); (3393,3391); (3394,3392); (3395,3393); (3281,3394); (3397,3395); (3398,3396); (3399,3397); (3341,3398)];
  [(-279,3399); (3410,3434); (3295,3386); (3404,3402); (3405,3403); (3406,3404); (3290,3405); (3408,3406); (3409,3407); (3411,3408); (3413,3401); (3297,3409); (3414,3411); (3314,3410); (3415,3412); (3416,3414); (3358,3415); (-280,3416); (3351,3349); (3420,3413); (3421,3419); (3422,3420); (3314,3421); (3424,3422); (3425,3423); (3426,3424); (3327,3425); (3350,3349); (3429,3426); (3431,3428); (3377,3349); (3432,3429); (3318,3431); (3435,3432); (3401,3349); (3436,3433); (3437,3435); (3379,3436); (-281,3437); (-268,3187); (3382,3234); (-282,3440); (3443,3481); (3444,3442); (3386,3443); (-283,3444); (3447,3482); (3448,3446); (3340,3447); (3194,3187); (3451,3448); (3452,3450); (3453,3451); (3349,3452); (3455,3453); (3456,3454); (3457,3455); (3348,3456); (3459,3457); (3460,3458); (3461,3459); (3346,3460); (3463,3461); (3464,3462); (3465,3463); (3407,3464); (-284,3465); (3468,3489); (3469,3467); (3365,3468); (3471,3469); (3472,3470); (3473,3471); (3374,3472); (3475,3473); (3476,3474); (3477,3475); (3419,3476); (-285,3477); (3197,3187); (3483,3495); (3442,3187); (3446,3187); (3484,3480); (3386,3483); (3486,3484); (3487,3485); (3488,3486); (3385,3487); (3467,3187); (3491,3488); (3492,3490); (3493,3491); (3380,3492); (3496,3493); (3480,3187); (3497,3494); (3498,3496); (3440,3497); (-286,3498); (3525,4390); (3502,3593); (3503,3501); (3397,3502); (3505,3503); (3506,3504); (3507,3505); (3389,3506); (3509,3507); (3510,3508); (3511,3509); (3407,3510); (3513,3511); (3514,3512); (3515,3513); (3401,3514); (3517,3515); (3518,3516); (3519,3517); (3419,3518); (3521,3519); (3522,3520); (3523,3521); (3457,3522); (3526,3523); (3527,3500); (3531,3524); (3925,3525); (3858,4035); (3530,4033); (3532,3529); (3534,3526); (3422,3530); (3536,3532); (3424,3531); (3537,3534); (3717,3533); (3538,3535); (3539,3537); (3430,3538); (3541,3539); (3542,3540); (3543,3541); (3428,3542); (3545,3543); (3546,3544); (3547,3545); (3437,3546); (3549,3547); (3550,3548); (3551,3549); (3435,3550); (3553,3551); (3554,3552); (3555,3553); (3442,3554); (3557,3555); (3558,3556); (3559,3557); (3487,3558); (3561,3559); (3562,3560); (3563,3561); (3454,3562); (3565,3563); (3566,3564); (3567,3565); (3452,3566); (3569,3567); (3570,3568); (3571,3569); (3471,3570); (3573,3571); (3574,3572); (3575,3573); (3473,3574); (3577,3575); (3578,3576); (3579,3577); (3466,3578); (3581,3579); (3582,3580); (3583,3581); (3487,3582); (3585,3583); (3586,3584); (3587,3585); (3480,3586); (3589,3587); (3590,3588); (3591,3589); (3533,3590); (-287,3591); (3501,3369); (3595,3370); (3495,3594); (3597,3595); (3598,3596); (3599,3597); (3533,3598)];
  [(3601,3599); (3602,3600); (3603,3601); (3487,3602); (3605,3603); (3606,3604); (3607,3605); (3494,3606); (3610,3607); (3370,3369); (3611,3608); (3612,3610); (3505,3611); (3614,3612); (3615,3613); (3616,3614); (3496,3615); (3618,3616); (3619,3617); (3620,3618); (3598,3619); (3667,3679); (3623,3666); (3624,3622); (3514,3623); (3626,3624); (3627,3625); (3628,3626); (3512,3627); (3630,3628); (3631,3629); (3632,3630); (3535,3631); (3634,3632); (3635,3633); (3636,3634); (3529,3635); (3638,3636); (3639,3637); (3640,3638); (3540,3639); (3642,3640); (3643,3641); (3644,3642); (3564,3643); (3646,3644); (3647,3645); (3648,3646); (3532,3647); (3650,3648); (3651,3649); (3652,3650); (3542,3651); (3654,3652); (3655,3653); (3656,3654); (3541,3655); (3658,3656); (3659,3657); (3660,3658); (3560,3659); (3662,3660); (3663,3661); (3664,3662); (3606,3663); (-288,3664); (3622,3620); (3668,3621); (3552,3667); (3670,3668); (3671,3669); (3672,3670); (3562,3671); (3674,3672); (3675,3673); (3676,3674); (3561,3675); (3678,3676); (3680,3677); (3621,3620); (3681,3678); (3581,3680); (3683,3681); (3684,3682); (3685,3683); (3627,3684); (-289,3685); (3689,4716); (3693,3196); (3690,3687); (3863,3689); (3766,3972); (3694,3971); (3696,3688); (3695,3692); (3587,3694); (3697,3693); (3584,3696); (3725,3695); (3700,3697); (3701,3699); (3702,3700); (3644,3701); (-290,3702); (3705,3761); (3706,3704); (3602,3705); (3708,3706); (3709,3707); (3710,3708); (3595,3709); (3712,3710); (3713,3711); (3714,3712); (3656,3713); (-291,3714); (3741,4358); (3718,3536); (3609,3717); (3720,3718); (3721,3719); (3722,3720); (3664,3721); (-292,3722); (3726,4719); (3730,3698); (3727,3724); (4089,3726); (4187,4200); (3731,4186); (3733,3725); (3732,3729); (3621,3731); (3624,3730); (3736,3733); (3738,3732); (3737,3734); (3739,3736); (4163,3735); (3681,3737); (-293,3739); (3743,3716); (3747,3765); (3664,3741); (3745,3743); (3746,3744); (3748,3745); (3750,3742); (3660,3746); (4021,3748); (3692,3747); (-294,3750); (4026,4079); (3754,3782); (3756,3753); (4019,4021); (3698,3754); (-295,3756); (3759,3811); (3760,3758); (3703,3759); (3704,3702); (-296,3760); (3764,3973); (3839,3763); (3742,3722); (3767,3691); (3672,3766); (3783,3784); (3770,3781); (3771,3769); (3675,3770); (3773,3771); (3774,3772); (3775,3773); (3717,3774); (-297,3775); (3778,3833); (3779,3777); (3721,3778); (-298,3779); (3769,3767); (3753,3739); (3785,3768); (3768,3767); (3727,3783); (-299,3785); (3788,3829); (3789,3787); (3680,3788); (3791,3789); (3792,3790); (3793,3791); (3735,3792); (-300,3793); (3796,3835); (3797,3795); (3697,3796); (3799,3797); (3800,3798)];
  [(3801,3799); (3711,3800); (3821,3831); (3804,3820); (3805,3803); (3705,3804); (3807,3805); (3808,3806); (3809,3807); (3700,3808); (3812,3809); (3758,3756); (3813,3810); (3814,3812); (3699,3813); (3816,3814); (3817,3815); (3818,3816); (3760,3817); (-301,3818); (3803,3801); (3822,3802); (3722,3821); (3824,3822); (3825,3823); (3826,3824); (3712,3825); (3828,3826); (3830,3827); (3787,3785); (3832,3828); (3802,3801); (3775,3830); (3777,3775); (-302,3832); (3795,3785); (3837,3975); (3838,3836); (3920,3837); (3797,3764); (3901,3902); (3842,3900); (3843,3841); (3785,3842); (-303,3843); (3846,3885); (3847,3845); (3737,3846); (3849,3847); (3850,3848); (3851,3849); (3736,3850); (3853,3851); (3854,3852); (3855,3853); (3797,3854); (-304,3855); (3859,4037); (3860,3528); (3963,3857); (3810,3858); (3888,3915); (3863,3913); (3864,3862); (3751,3863); (3866,3864); (3867,3865); (3868,3866); (3752,3867); (3870,3868); (3871,3869); (3872,3870); (3772,3871); (3874,3872); (3875,3873); (3876,3874); (3767,3875); (3878,3876); (3879,3877); (3880,3878); (3765,3879); (3882,3880); (3883,3881); (3884,3882); (3827,3883); (3845,3843); (-305,3884); (3889,3926); (3890,3861); (3914,3887); (3781,3888); (3892,3890); (3893,3891); (3894,3892); (3779,3893); (3896,3894); (3897,3895); (3898,3896); (3840,3897); (-306,3898); (3841,3839); (3903,3840); (3840,3839); (3794,3901); (3905,3903); (3906,3904); (3907,3905); (3792,3906); (3909,3907); (3910,3908); (3911,3909); (3853,3910); (-307,3911); (3862,3860); (3805,3889); (3861,3860); (3917,3914); (3918,3916); (3919,3917); (3803,3918); (3921,3919); (3922,3920); (3923,3921); (3810,3922); (3925,3923); (3927,3924); (3887,3860); (3928,3925); (3856,3927); (3930,3928); (3931,3929); (3932,3930); (3823,3931); (3934,3932); (3935,3933); (3936,3934); (3821,3935); (3938,3936); (3939,3937); (3940,3938); (3840,3939); (3942,3940); (3943,3941); (3944,3942); (3842,3943); (3946,3944); (3947,3945); (3948,3946); (3835,3947); (3950,3948); (3951,3949); (3952,3950); (3856,3951); (3954,3952); (3955,3953); (3956,3954); (3849,3955); (3958,3956); (3959,3957); (3960,3958); (3902,3959); (-308,3960); (3964,4042); (3891,3859); (3966,3962); (3994,4005); (3926,3964); (3968,3993); (3969,3967); (3911,3968); (-309,3969); (3692,3690); (3691,3690); (3763,3690); (3986,4024); (3836,3690); (3977,4022); (3978,3976); (3920,3977); (-310,3978); (3981,4034); (3982,3980); (3872,3981); (3984,3982); (3985,3983); (3987,3984); (3964,3974); (3888,3985); (3989,3987); (3990,3988); (3991,3989); (3933,3990); (-311,3991); (3967,3963); (3995,3965); (3885,3994); (3997,3995); (3998,3996); (3999,3997); (3900,3998)];
  [(4001,3999); (4002,4000); (4003,4001); (3887,4002); (4006,4003); (3965,3963); (4007,4004); (4008,4006); (3910,4007); (4010,4008); (4011,4009); (4012,4010); (3897,4011); (4014,4012); (4015,4013); (4016,4014); (3958,4015); (-312,4016); (4025,4393); (3961,3755); (-313,4019); (3755,3749); (3976,3838); (-315,3986); (3974,4041); (4043,4018); (4027,3752); (3914,4026); (4029,4027); (4030,4028); (4031,4029); (3973,4030); (-317,4031); (3529,3527); (3980,3838); (3528,3527); (4038,3966); (3857,3527); (4039,4036); (4040,4038); (3928,4039); (4024,3838); (3962,3527); (3934,4025); (4049,4040); (4046,4043); (4047,4045); (4048,4046); (3935,4047); (4052,4044); (4051,4048); (4054,4050); (4053,4049); (3954,4052); (4057,4051); (4056,4053); (4058,4055); (4065,4054); (4059,4056); (3946,4058); (4061,4059); (4062,4060); (4063,4061); (3997,4062); (4065,4063); (4066,4064); (4067,4065); (3960,4066); (4069,4067); (4070,4068); (4071,4069); (3961,4070); (4073,4071); (4074,4072); (4075,4073); (3977,4074); (4077,4075); (4078,4076); (4080,4077); (3752,3986); (3974,4078); (4082,4080); (4083,4081); (4084,4082); (3966,4083); (4086,4084); (4087,4085); (4088,4086); (3984,4087); (4090,4088); (4091,4089); (4092,4090); (3978,4091); (4094,4092); (4095,4093); (4096,4094); (3996,4095); (4098,4096); (4099,4097); (4100,4098); (4034,4099); (4102,4100); (4103,4101); (4104,4102); (3994,4103); (4106,4104); (4107,4105); (4108,4106); (3999,4107); (4110,4108); (4111,4109); (4112,4110); (3997,4111); (4114,4112); (4115,4113); (4116,4114); (4006,4115); (4118,4116); (4119,4117); (4120,4118); (4004,4119); (4122,4120); (4123,4121); (4124,4122); (4011,4123); (4126,4124); (4127,4125); (4128,4126); (4056,4127); (4130,4128); (4131,4129); (4132,4130); (4023,4131); (4134,4132); (4135,4133); (4136,4134); (4021,4135); (4138,4136); (4139,4137); (4140,4138); (4040,4139); (4142,4140); (4143,4141); (4144,4142); (4042,4143); (4146,4144); (4147,4145); (4148,4146); (4035,4147); (4150,4148); (4151,4149); (4152,4150); (4056,4151); (4154,4152); (4155,4153); (4156,4154); (4049,4155); (4158,4156); (4159,4157); (4160,4158); (4102,4159); (-318,4160); (4164,4720); (4168,3738); (4165,4162); (4132,4164); (4232,4249); (4169,4231); (4057,4163); (4170,4167); (4059,4169); (4172,4168); (4174,4171); (4176,4170); (4175,4172); (4118,4174); (4179,4173); (-319,4175); (4185,4396); (4223,4176); (4181,4057); (4182,4180); (4183,4181); (4125,4182); (-320,4183); (4203,4178); (3729,3727); (4188,3728); (4074,4187); (4190,4188); (4191,4189); (4192,4190); (4078,4191); (4194,4192); (4195,4193); (4196,4194); (4138,4195); (-321,4196); (4199,4394); (4201,4198)];
  [(3728,3727); (4103,4199); (4204,4201); (4093,4185); (4209,4202); (4206,4203); (4207,4205); (4208,4206); (4315,4207); (4212,4204); (4375,4382); (4214,4646); (4099,4209); (4215,4212); (4217,4211); (4216,4213); (4218,4215); (4341,4214); (4160,4216); (-322,4218); (4221,4439); (4331,4220); (4224,4721); (4169,4179); (4225,4222); (4126,4224); (4227,4225); (4229,4226); (-323,4223); (4230,4227); (4122,4229); (4167,4165); (4234,4166); (4236,4230); (4149,4232); (4248,4261); (4239,4233); (4238,4247); (4241,4237); (4240,4236); (4140,4239); (4183,4238); (-324,4241); (4244,4284); (4245,4243); (4187,4244); (-325,4245); (4237,4234); (4250,4235); (4166,4165); (4192,4248); (-326,4250); (4253,4293); (4254,4252); (4196,4253); (-327,4254); (4257,4240); (4258,4256); (4259,4257); (4201,4258); (-328,4259); (4235,4234); (4263,4722); (4264,4262); (4534,4263); (4310,4635); (4267,4634); (4268,4266); (4172,4267); (4270,4268); (4271,4269); (4272,4270); (4159,4271); (4274,4272); (4275,4273); (4276,4274); (4164,4275); (-314,3749); (4279,4276); (4281,4278); (-316,4041); (4282,4279); (4189,4281); (4299,4303); (4243,4241); (4286,4297); (4288,4285); (4289,4724); (4237,4286); (4290,4287); (4590,4289); (4690,4695); (4294,4689); (4252,4250); (4295,4292); (4187,4294); (-329,4288); (4285,4282); (4301,4295); (4300,4283); (4243,4299); (4304,4298); (-330,4300); (4283,4282); (4305,4301); (4196,4304); (4307,4305); (4661,4306); (4309,4642); (4332,4308); (4311,4265); (4209,4310); (4322,4324); (4314,4321); (4315,4313); (4202,4314); (4317,4315); (4318,4316); (4319,4317); (4261,4318); (-331,4319); (4313,4311); (4323,4312); (4226,4322); (4312,4311); (4326,4323); (4327,4325); (4328,4326); (4270,4327); (-332,4328); (4369,4440); (4224,4221); (4236,4309); (4334,4332); (4335,4333); (4336,4334); (4223,4335); (4339,4336); (4354,4331); (4340,4337); (4341,4339); (4228,4340); (4343,4341); (4344,4342); (4345,4343); (4287,4344); (-333,4345); (4348,4399); (4349,4347); (4291,4348); (-334,4349); (3105,1117); (4353,4648); (4360,4352); (4355,4338); (4356,4354); (4258,4355); (4359,4356); (3716,1117); (4361,4357); (4458,4353); (4362,4359); (4266,4361); (4365,4362); (4471,4566); (4366,4363); (4367,4365); (4256,4366); (4370,4367); (4401,4330); (4371,4368); (4372,4370); (4314,4371); (-337,4372); (-335,4208); (4377,4210); (2558,1117); (4288,4375); (1118,1117); (2820,1117); (2956,1117); (3001,1117); (4210,4208); (3124,1117); (3180,1117); (4386,4377); (4388,4385); (3337,1117); (4389,4386); (4279,4388); (3500,1117); (4392,4389); (4395,4391); (4018,1117); (4198,1117); (4397,4392); (4178,1117); (4339,4395); (-338,4397); (4347,4345)];
  [(-336,4217); (4305,4369); (4403,4401); (4404,4402); (4405,4403); (4294,4404); (4407,4405); (4408,4406); (4409,4407); (4351,4408); (-339,4409); (4412,4422); (4413,4411); (4302,4412); (4415,4413); (4416,4414); (4417,4415); (4359,4416); (-340,4417); (4420,4441); (4421,4419); (4312,4420); (4411,4401); (4424,4421); (4425,4423); (4426,4424); (4311,4425); (4428,4426); (4429,4427); (4430,4428); (4372,4429); (-341,4430); (4433,4452); (4434,4432); (4321,4433); (4436,4434); (4437,4435); (4438,4436); (4383,4437); (4220,4217); (4330,4217); (4419,4217); (-342,4438); (4444,4456); (4445,4443); (4387,4444); (-343,4445); (4448,4652); (4455,4447); (4450,4555); (4451,4449); (4339,4450); (4432,4217); (4454,4451); (4457,4453); (4358,4448); (4443,4217); (4458,4454); (4346,4457); (4461,4455); (4462,4458); (4636,4459); (4463,4460); (4464,4462); (4406,4463); (-344,4464); (4467,4515); (4468,4466); (4410,4467); (-345,4468); (4481,4572); (4472,4364); (4352,4471); (4474,4472); (4475,4473); (4476,4474); (4420,4475); (4522,4538); (4479,4521); (4480,4478); (4369,4479); (4556,4470); (4483,4480); (4484,4482); (4485,4483); (4391,4484); (4504,4506); (4488,4503); (4489,4487); (4376,4488); (4491,4489); (4492,4490); (4493,4491); (4393,4492); (4495,4493); (4496,4494); (4497,4495); (4399,4496); (4499,4497); (4500,4498); (4501,4499); (4443,4500); (-346,4501); (4487,4485); (4505,4486); (4390,4504); (4486,4485); (4508,4505); (4509,4507); (4510,4508); (4412,4509); (4512,4510); (4513,4511); (4514,4512); (4417,4513); (4466,4464); (4517,4514); (4518,4516); (4519,4517); (4461,4518); (-347,4519); (4478,4476); (4523,4477); (4423,4522); (4525,4523); (4526,4524); (4527,4525); (4427,4526); (4529,4527); (4530,4528); (4531,4529); (4473,4530); (-348,4531); (4534,4539); (4535,4533); (4435,4534); (4537,4535); (4540,4536); (4477,4476); (4533,4476); (4541,4537); (4442,4540); (4543,4541); (4544,4542); (4545,4543); (4443,4544); (4547,4545); (4548,4546); (4549,4547); (4449,4548); (4551,4549); (4552,4550); (4553,4551); (4495,4552); (-349,4553); (4449,4360); (4456,4481); (4558,4556); (4559,4557); (4560,4558); (4451,4559); (4562,4560); (4563,4561); (4564,4562); (4506,4563); (-350,4564); (4364,4360); (4568,4576); (4569,4567); (4469,4568); (4571,4569); (4573,4570); (4470,4360); (4574,4571); (4478,4573); (4577,4574); (4567,4360); (4578,4575); (4579,4577); (4466,4578); (4581,4579); (4582,4580); (4583,4581); (4470,4582); (4585,4583); (4586,4584); (4587,4585); (4477,4586); (4589,4587); (4590,4588); (4591,4589); (4473,4590); (4593,4591); (4594,4592); (4595,4593); (4505,4594); (4614,4619); (4598,4613); (4599,4597); (4499,4598)];
  [(4601,4599); (4602,4600); (4603,4601); (4502,4602); (4605,4603); (4606,4604); (4607,4605); (4492,4606); (4609,4607); (4610,4608); (4611,4609); (4553,4610); (-352,4611); (4597,4595); (4615,4596); (4511,4614); (4617,4615); (4618,4616); (4620,4617); (4596,4595); (4518,4618); (4622,4620); (4623,4621); (4624,4622); (4521,4623); (4626,4624); (4627,4625); (4628,4626); (4513,4627); (4630,4628); (4631,4629); (4632,4630); (4574,4631); (-353,4632); (4266,4264); (4265,4264); (4637,4461); (4537,4636); (4639,4637); (4640,4638); (4641,4639); (4584,4640); (4308,4264); (-354,4641); (4645,4653); (4647,4644); (4211,4264); (4548,4645); (4352,4264); (4650,4647); (4651,4649); (4654,4650); (4447,4264); (4644,4264); (4555,4651); (4656,4654); (4657,4655); (4658,4656); (4600,4657); (-355,4658); (4662,4726); (4666,4307); (4663,4660); (4556,4662); (4665,4663); (4667,4664); (4564,4661); (4668,4665); (4572,4667); (4670,4666); (4672,4669); (4674,4668); (4673,4670); (4565,4672); (4677,4671); (4676,4673); (4681,4675); (4678,4674); (4563,4677); (4680,4678); (4682,4679); (4683,4676); (4703,4680); (4568,4681); (4685,4683); (4686,4684); (4687,4685); (4629,4686); (-356,4687); (4292,4290); (4691,4291); (4582,4690); (4693,4691); (4694,4692); (4696,4693); (4291,4290); (4581,4694); (4698,4696); (4699,4697); (4700,4698); (4642,4699); (-357,4700); (2583,2581); (4587,4682); (2582,2581); (2802,2581); (2969,2581); (2982,2581); (4711,4703); (3114,2581); (3132,2581); (4712,4708); (4714,4711); (3188,2581); (4656,4712); (-358,4714); (3687,2581); (4728,2589); (4791,4842); (3724,2581); (4162,2581); (4222,2581); (4262,2581); (4725,4831); (4287,2581); (4731,4723); (4660,2581); (4728,32807); (4729,4727); (8239,4728); (7172,8338); (4629,4725); (4733,4731); (4734,4732); (4735,4733); (4635,4734); (4737,4735); (4738,4736); (4739,4737); (4626,4738); (4741,4739); (4742,4740); (4743,4741); (4685,4742); (-359,4743); (4746,32838); (4747,4745); (6963,4746); (4799,7028); (4750,7060); (4751,4749); (4708,4750); (4774,4816); (4754,4811); (4755,4753); (4653,4754); (4757,4755); (4758,4756); (4763,4757); (4760,8336); (4761,4759); (4663,4760); (7101,4761); (4663,4758); (4765,4763); (4766,4764); (4767,4765); (4654,4766); (4769,4767); (4770,4768); (4771,4769); (4713,4770); (-360,4771); (4778,4822); (4775,4752); (4675,4774); (4777,4775); (4779,4776); (4812,4773); (4780,4777); (4665,4779); (4782,4780); (4783,4781); (4784,4782); (4681,4783); (4786,4784); (4787,4785); (4788,4786); (4730,4787); (-361,4788); (4801,4843); (4792,4718); (4679,4791); (4794,4792); (4795,4793); (4796,4794); (4738,4795); (-362,4796); (4830,7061); (4800,4748)];
  [(4688,4799); (4832,4790); (4803,4800); (4804,4802); (4805,4803); (4692,4804); (4807,4805); (4808,4806); (4809,4807); (4751,4808); (-363,4809); (4753,4751); (4699,4778); (4814,4812); (4815,4813); (4817,4814); (4752,4751); (4760,4815); (-351,4561); (-364,4817); (4821,4823); (4824,4820); (4773,4751); (4820,4751); (4721,4821); (4826,4824); (4827,4825); (4828,4826); (4770,4827); (-365,4828); (4849,4798); (4723,4717); (4729,4801); (4834,4832); (4835,4833); (4836,4834); (4719,4835); (4838,4836); (4839,4837); (4840,4838); (4782,4839); (-366,4840); (4718,4717); (4790,4717); (4845,4888); (4846,4844); (4788,4845); (-367,4846); (4880,7062); (4764,4830); (4873,4872); (4852,4871); (4853,4851); (4757,4852); (4855,4853); (4856,4854); (4857,4855); (4744,4856); (4859,4857); (4860,4858); (4861,4859); (4751,4860); (4863,4861); (4864,4862); (4865,4863); (4747,4864); (4867,4865); (4868,4866); (4869,4867); (4811,4868); (-368,4869); (4851,4849); (4850,4849); (4874,4850); (4778,4873); (4876,4874); (4877,4875); (4878,4876); (4780,4877); (4882,4878); (4881,4848); (4812,4880); (4883,4879); (4884,4882); (4826,4883); (-369,4884); (4890,2587); (4889,7066); (4844,4828); (4936,4887); (4829,4886); (4927,4950); (4893,4926); (4894,4892); (4781,4893); (4896,4894); (4897,4895); (4898,4896); (4788,4897); (4900,4898); (4901,4899); (4902,4900); (4793,4901); (4904,4902); (4905,4903); (4906,4904); (4848,4905); (-370,4906); (4940,7064); (4910,4881); (4911,4909); (4912,4910); (4799,4911); (4914,4912); (4915,4913); (4916,4914); (4806,4915); (4918,4916); (4919,4917); (4920,4918); (4811,4919); (4922,4920); (4923,4921); (4924,4922); (4866,4923); (-371,4924); (4892,4890); (4928,4891); (4870,4927); (-372,4928); (4931,4933); (4932,4930); (4875,4931); (4930,4881); (-373,4932); (4964,7099); (4878,4889); (-374,4936); (4939,7063); (4944,4938); (4941,4908); (4960,4940); (5043,5068); (5023,5063); (4945,4939); (4983,5056); (4947,5042); (4948,4946); (4866,4947); (4970,4980); (4891,4890); (4952,4969); (4953,4951); (4851,4952); (4955,4953); (4956,4954); (4957,4955); (4857,4956); (4959,4957); (4960,4958); (4961,4959); (4848,4960); (4963,4961); (4965,4962); (4966,4935); (4967,4963); (4919,4964); (4909,4965); (-376,4967); (4951,4948); (4971,4949); (4858,4970); (4973,4971); (4974,4972); (4975,4973); (4917,4974); (-377,4975); (4978,4989); (4979,4977); (4865,4978); (4949,4948); (4982,4979); (4984,4981); (5005,4945); (4985,4982); (4872,4984); (4987,4985); (4988,4986); (4990,4987); (4977,4936); (4894,4988); (4992,4990); (4993,4991); (4994,4992); (4891,4993); (4996,4994); (4997,4995); (4998,4996); (4899,4997); (5000,4998)];
  [(5001,4999); (5002,5000); (4944,5001); (-378,5002); (-375,4944); (4890,4983); (5007,5005); (5008,5006); (5009,5007); (4895,5008); (5011,5009); (5012,5010); (5013,5011); (4913,5012); (5015,5013); (5016,5014); (5017,5015); (4905,5016); (5019,5017); (5020,5018); (5021,5019); (4963,5020); (-379,5021); (5024,4943); (4967,5023); (5057,7065); (-380,5024); (5028,4966); (5029,5027); (5030,5028); (4972,5029); (-382,5030); (5034,5088); (5062,7100); (5035,5032); (4939,5034); (5037,5035); (5038,5036); (5039,5037); (4981,5038); (-383,5039); (5046,5069); (4946,4944); (5044,4942); (4929,5043); (5047,5044); (5055,5041); (5048,5045); (5049,5047); (4953,5048); (5051,5049); (5052,5050); (5053,5051); (4995,5052); (-384,5053); (4953,5046); (4945,4944); (5058,5025); (5001,5057); (5107,5115); (5061,5106); (5086,5060); (5064,5033); (4943,4941); (4952,5062); (5067,5055); (5102,5064); (5070,5065); (4942,4941); (5041,4941); (5071,5067); (4956,5070); (5073,5071); (5074,5072); (5075,5073); (4955,5074); (5077,5075); (5078,5076); (5079,5077); (4962,5078); (5081,5079); (5082,5080); (5083,5081); (5025,5082); (-385,5083); (5110,7035); (4972,5061); (5089,5086); (5032,5030); (5090,5087); (5091,5089); (4988,5090); (5093,5091); (5094,5092); (5095,5093); (4980,5094); (5097,5095); (5098,5096); (5099,5097); (5041,5098); (-386,5099); (5130,7103); (5103,5066); (5104,5102); (5046,5103); (-387,5104); (5060,5058); (5108,5059); (5050,5107); (-388,5108); (5111,5085); (5015,5110); (5113,5111); (5114,5112); (5117,5113); (5059,5058); (5123,7068); (5004,5114); (5119,5117); (5120,5118); (5121,5119); (5063,5120); (-389,5121); (5148,5116); (5125,7067); (5126,5124); (5030,5125); (5128,5126); (5129,5127); (5131,5128); (5132,5101); (5019,5129); (5282,5130); (5136,5131); (5380,5384); (5157,5379); (5137,5133); (5138,5136); (5031,5137); (5140,5138); (5141,5139); (5142,5140); (5084,5141); (-390,5142); (5146,5145); (5144,5138); (5147,5144); (5095,5146); (5349,5123); (5375,5450); (5151,5446); (5152,5150); (5044,5151); (5155,5152); (-391,5147); (5311,5153); (5185,7072); (5158,5135); (5215,5157); (5315,5324); (5161,5314); (5162,5160); (5049,5161); (5164,5162); (5165,5163); (5166,5164); (5062,5165); (5168,5166); (5169,5167); (5170,5168); (5055,5169); (5172,5170); (5173,5171); (5174,5172); (5070,5173); (5176,5174); (5177,5175); (5178,5176); (5080,5177); (5180,5178); (5181,5179); (5182,5180); (5086,5181); (5184,5182); (5186,5183); (5187,5156); (5188,5184); (5090,5185); (5083,5186); (5190,5187); (5193,5189); (5192,5188); (5194,5191); (5519,5190); (5195,5192); (5224,5194); (5219,5292); (5198,5289); (5200,5197); (-381,5063)];
  [(5102,5198); (5202,5200); (5203,5201); (5204,5202); (5088,5203); (5206,5204); (5207,5205); (5208,5206); (5093,5207); (5210,5208); (5211,5209); (5212,5210); (5112,5211); (5214,5212); (5215,5213); (5216,5214); (5158,5215); (-392,5216); (5221,5295); (5220,5196); (5111,5219); (5269,5218); (5223,5220); (5224,5222); (5225,5223); (5115,5224); (5233,5232); (5228,5231); (5229,5227); (5171,5228); (-393,5229); (5227,5225); (5226,5225); (5234,5226); (5137,5233); (5236,5234); (5237,5235); (5238,5236); (5131,5237); (5240,5238); (5241,5239); (5242,5240); (5142,5241); (5244,5242); (5245,5243); (5246,5244); (5182,5245); (5248,5246); (5249,5247); (5250,5248); (5152,5249); (5252,5250); (5253,5251); (5254,5252); (5138,5253); (5256,5254); (5257,5255); (5258,5256); (5143,5257); (5260,5258); (5261,5259); (5262,5260); (5162,5261); (5264,5262); (5265,5263); (5266,5264); (5208,5265); (-394,5266); (5271,5308); (5156,5221); (5272,5269); (5274,5268); (5273,5270); (5275,5272); (5185,5271); (5179,5273); (5277,5275); (5278,5276); (5279,5277); (5162,5278); (5281,5279); (5282,5280); (5283,5281); (5183,5282); (5285,5283); (5286,5284); (5287,5285); (5229,5286); (-395,5287); (5197,5195); (5291,5274); (5293,5290); (5196,5195); (5294,5291); (5188,5293); (5218,5195); (5297,5294); (5298,5296); (5299,5297); (5200,5298); (5301,5299); (5302,5300); (5303,5301); (5203,5302); (5305,5303); (5306,5304); (5307,5305); (5250,5306); (5268,5195); (-396,5307); (5317,7069); (5312,5155); (5254,5311); (-397,5312); (5160,5158); (5316,5159); (5207,5315); (5342,5310); (5319,5316); (5320,5318); (5321,5319); (5212,5320); (5323,5321); (5325,5322); (5159,5158); (5326,5323); (5227,5325); (5328,5326); (5329,5327); (5330,5328); (5272,5329); (-398,5330); (5333,5365); (5334,5332); (5225,5333); (5336,5334); (5337,5335); (5338,5336); (5239,5337); (5340,5338); (5341,5339); (5348,5340); (5244,5317); (5344,5342); (5345,5343); (5346,5344); (5226,5345); (5349,5346); (5292,5341); (5350,5347); (5528,5349); (-399,5348); (5353,5407); (5354,5352); (5238,5353); (5356,5354); (5357,5355); (5358,5356); (5254,5357); (5360,5358); (5361,5359); (5362,5360); (5247,5361); (5364,5362); (5366,5363); (5332,5312); (5367,5364); (5309,5366); (-400,5367); (5370,5312); (5371,5369); (5372,5370); (5314,5371); (-401,5372); (5378,5452); (5376,5149); (5318,5375); (-402,5376); (5426,5374); (5135,5132); (5381,5134); (5280,5380); (5383,5381); (5385,5382); (5134,5132); (5386,5383); (5286,5385); (5388,5386); (5389,5387); (5390,5388); (5277,5389); (5392,5390); (5393,5391); (5394,5392); (5294,5393); (5396,5394); (5397,5395); (5398,5396); (5289,5397); (5400,5398)];
  [(5401,5399); (5402,5400); (5287,5401); (5404,5402); (5405,5403); (5406,5404); (5303,5405); (5352,5348); (5409,5406); (5410,5408); (5411,5409); (5315,5410); (5413,5411); (5414,5412); (5415,5413); (5308,5414); (5417,5415); (5418,5416); (5419,5417); (5352,5418); (5421,5419); (5422,5420); (5423,5421); (5365,5422); (-403,5423); (5429,5464); (5330,5378); (5428,5426); (5430,5427); (5431,5425); (5432,5428); (5342,5429); (5324,5430); (5434,5432); (5435,5433); (5436,5434); (5328,5435); (5438,5436); (5439,5437); (5440,5438); (5344,5439); (5442,5440); (5443,5441); (5444,5442); (5386,5443); (-404,5444); (5150,5148); (5448,5431); (5449,5447); (5451,5448); (5149,5148); (5343,5449); (5374,5148); (5454,5451); (5455,5453); (5456,5454); (5398,5455); (-405,5456); (5459,5467); (5460,5458); (5402,5459); (-406,5460); (5463,5507); (5465,5462); (5425,5148); (5366,5463); (5468,5465); (5458,5148); (5469,5466); (5470,5468); (5370,5469); (5472,5470); (5473,5471); (5474,5472); (5416,5473); (-407,5474); (5477,5527); (5478,5476); (5369,5477); (5480,5478); (5481,5479); (5482,5480); (5367,5481); (5484,5482); (5485,5483); (5486,5484); (5382,5485); (5488,5486); (5489,5487); (5490,5488); (5382,5489); (5492,5490); (5493,5491); (5494,5492); (5394,5493); (5496,5494); (5497,5495); (5498,5496); (5384,5497); (5500,5498); (5501,5499); (5502,5500); (5444,5501); (-409,5502); (5505,5513); (5506,5504); (5398,5505); (5462,5460); (5509,5506); (5510,5508); (5511,5509); (5392,5510); (5514,5511); (5504,5460); (5515,5512); (5516,5514); (5458,5515); (-410,5516); (5524,7109); (5399,5193); (5521,5519); (5522,5520); (5523,5521); (5466,5522); (5547,5518); (-411,5523); (5533,7074); (5476,5474); (5470,5350); (-412,5528); (5531,7071); (5532,5530); (5435,5531); (5558,5526); (5535,5532); (5536,5534); (5537,5535); (5457,5536); (5556,5571); (5540,5568); (5541,5539); (5428,5540); (5543,5541); (5544,5542); (5545,5543); (5436,5544); (5548,5545); (6195,5524); (5550,5546); (5606,6311); (5553,5548); (5552,6307); (5555,5551); (5495,5550); (-413,5553); (5487,5552); (5557,5538); (5453,5556); (6249,5533); (5596,6361); (5561,6357); (5562,5560); (5455,5561); (5565,5562); (5570,5557); (5566,5563); (5567,5565); (5472,5566); (5539,5537); (5580,5567); (5572,5564); (5538,5537); (5573,5570); (5462,5572); (5575,5573); (5576,5574); (5577,5575); (5519,5576); (-414,5577); (5586,7077); (5581,5569); (5582,5580); (5469,5581); (5584,5582); (5585,5583); (5587,5584); (5611,5579); (5529,5585); (-415,5587); (5590,5555); (5591,5589); (5592,5590); (5534,5591); (-416,5592); (5598,6365); (5601,7113); (5597,5559); (5497,5596); (5610,5594); (5600,5597)];
  [(5602,5599); (5624,5595); (5603,5600); (5545,5602); (-417,5603); (5609,6312); (5607,5549); (5607,5606); (5633,5675); (5802,5605); (5628,5598); (6740,5586); (6840,6839); (5614,6838); (5615,5613); (5509,5614); (5618,5615); (5659,5737); (5619,5616); (5620,5618); (5525,5619); (5630,5676); (5625,5620); (5627,6366); (6822,5601); (6822,5622); (6918,6938); (5631,5623); (5629,6921); (5632,5628); (5667,5621); (5655,5627); (5524,5629); (5634,5608); (5524,5633); (5636,5634); (5637,5635); (5639,5636); (6881,5632); (5524,5637); (5641,5639); (5642,5640); (5643,5641); (5585,5642); (-420,5643); (5646,5729); (5647,5645); (5535,5646); (5649,5647); (5650,5648); (5651,5649); (5593,5650); (-421,5651); (5654,5693); (5655,5653); (5545,5654); (5657,5655); (5658,5656); (5660,5657); (5688,5617); (5545,5658); (5662,5660); (5663,5661); (5664,5662); (5606,5663); (-422,5664); (-418,5607); (5555,5630); (5669,5667); (5670,5668); (5671,5669); (5555,5670); (5673,5671); (5674,5672); (5677,5673); (5608,5607); (5621,5607); (5581,5674); (5679,5677); (5680,5678); (5681,5679); (5574,5680); (5683,5681); (5684,5682); (5685,5683); (5627,5684); (-423,5685); (-419,5610); (5584,5659); (5690,5688); (5691,5689); (5692,5690); (5584,5691); (5653,5651); (5695,5692); (5696,5694); (5697,5695); (5581,5696); (5699,5697); (5700,5698); (5701,5699); (5587,5700); (5703,5701); (5704,5702); (5705,5703); (5647,5704); (-424,5705); (5708,5740); (5709,5707); (5602,5708); (5711,5709); (5712,5710); (5713,5711); (5597,5712); (5715,5713); (5716,5714); (5717,5715); (5603,5716); (5719,5717); (5720,5718); (5721,5719); (5663,5720); (-425,5721); (5724,5743); (5725,5723); (5613,5724); (5727,5725); (5730,5726); (-408,5471); (5645,5610); (5731,5727); (5615,5730); (5733,5731); (5734,5732); (5735,5733); (5639,5734); (5738,5735); (5617,5610); (5739,5736); (5741,5738); (5707,5610); (5628,5739); (5744,5741); (5723,5610); (5745,5742); (5746,5744); (5646,5745); (5748,5746); (5749,5747); (5750,5748); (5692,5749); (-426,5750); (5756,6368); (5754,5631); (5755,5753); (5757,5754); (5760,5752); (5650,5755); (5759,5757); (5762,5758); (5651,5756); (6358,5760); (5763,5759); (5663,5762); (5765,5763); (5766,5764); (5767,5765); (5670,5766); (5769,5767); (5770,5768); (5771,5769); (5675,5770); (5773,5771); (5774,5772); (5775,5773); (5662,5774); (5777,5775); (5778,5776); (5779,5777); (5661,5778); (5781,5779); (5782,5780); (5783,5781); (5683,5782); (5785,5783); (5786,5784); (5787,5785); (5688,5786); (5789,5787); (5790,5788); (5791,5789); (5689,5790); (5793,5791); (5794,5792); (5795,5793); (5695,5794); (5797,5795); (5798,5796); (5799,5797); (5741,5798)];
  [(-427,5799); (5805,6314); (5705,5609); (5804,5802); (5807,5803); (5806,5801); (6198,5805); (5808,5804); (5701,5807); (5810,5808); (5811,5809); (5812,5810); (5712,5811); (5814,5812); (5815,5813); (5816,5814); (6195,5815); (5880,6263); (5819,6262); (5820,5818); (5710,5819); (5822,5820); (5823,5821); (5824,5822); (5715,5823); (5826,5824); (5827,5825); (5828,5826); (5713,5827); (5830,5828); (5831,5829); (5832,5830); (5722,5831); (5834,5832); (5835,5833); (5836,5834); (5720,5835); (5838,5836); (5839,5837); (5840,5838); (5727,5839); (5842,5840); (5843,5841); (5844,5842); (5772,5843); (5846,5844); (5847,5845); (5848,5846); (5739,5847); (5850,5848); (5851,5849); (5852,5850); (5737,5851); (5854,5852); (5855,5853); (5856,5854); (5756,5855); (5858,5856); (5859,5857); (5860,5858); (5758,5859); (5862,5860); (5863,5861); (5864,5862); (5751,5863); (5866,5864); (5867,5865); (5868,5866); (5772,5867); (5870,5868); (5871,5869); (5872,5870); (5765,5871); (5874,5872); (5875,5873); (5876,5874); (5818,5875); (-428,5876); (5879,6271); (5922,5878); (5881,5817); (5771,5880); (5883,5881); (5884,5882); (5885,5883); (5775,5884); (5892,5894); (5888,5891); (5889,5887); (5831,5888); (-429,5889); (5887,5885); (5893,5886); (5785,5892); (5886,5885); (5896,5893); (5897,5895); (5898,5896); (5834,5897); (5900,5898); (5901,5899); (5902,5900); (5789,5901); (5904,5902); (5905,5903); (5906,5904); (5793,5905); (5908,5906); (5909,5907); (5910,5908); (5800,5909); (5912,5910); (5913,5911); (5914,5912); (5796,5913); (5916,5914); (5917,5915); (5918,5916); (5860,5917); (-430,5918); (5921,6277); (5929,5920); (5908,5879); (6010,6019); (5925,6009); (5926,5924); (5825,5925); (5928,5926); (5930,5927); (6039,5921); (5931,5928); (5816,5930); (5933,5931); (5934,5932); (5935,5933); (5933,5934); (5958,6015); (5938,5998); (5939,5937); (5826,5938); (5941,5939); (5942,5940); (5943,5941); (5830,5942); (5945,5943); (5946,5944); (5947,5945); (5837,5946); (5949,5947); (5950,5948); (5951,5949); (5833,5950); (5953,5951); (5954,5952); (5955,5953); (5897,5954); (-431,5955); (5974,6017); (5959,5936); (5855,5958); (5961,5959); (5962,5960); (5963,5961); (5861,5962); (5965,5963); (5966,5964); (5967,5965); (5864,5966); (5969,5967); (5970,5968); (5971,5969); (5856,5970); (5973,5971); (5975,5972); (5999,5957); (5976,5973); (5912,5975); (5978,5976); (5979,5977); (5980,5978); (5867,5979); (5982,5980); (5983,5981); (5984,5982); (5871,5983); (5986,5984); (5987,5985); (5988,5986); (5878,5987); (5990,5988); (5991,5989); (5992,5990); (5874,5991); (5994,5992); (5995,5993); (5996,5994); (5938,5995); (-432,5996); (5937,5935); (5899,5974)];
  [(6001,5999); (6002,6000); (6003,6001); (5903,6002); (6005,6003); (6006,6004); (6007,6005); (5949,6006); (-433,6007); (5924,5922); (6011,5923); (5902,6010); (6013,6011); (6014,6012); (6016,6013); (5936,5935); (5915,6014); (5957,5935); (6020,6016); (5923,5922); (6021,6018); (6022,6020); (6025,6021); (6102,6107); (6025,6101); (6026,6024); (5926,6025); (6028,6026); (6029,6027); (6030,6028); (5929,6029); (6032,6030); (6033,6031); (6034,6032); (5919,6033); (6036,6034); (6037,6035); (6038,6036); (5995,6037); (6061,6077); (6041,6060); (6042,6040); (5929,6041); (6044,6042); (6045,6043); (6046,6044); (5933,6045); (6048,6046); (6049,6047); (6050,6048); (5940,6049); (6052,6050); (6053,6051); (6054,6052); (5936,6053); (6056,6054); (6057,6055); (6058,6056); (6000,6057); (-434,6058); (6040,6038); (6062,6039); (5958,6061); (6064,6062); (6065,6063); (6066,6064); (5964,6065); (6068,6066); (6069,6067); (6070,6068); (5967,6069); (6072,6070); (6073,6071); (6074,6072); (5959,6073); (6076,6074); (6078,6075); (6039,6038); (6079,6076); (6015,6078); (6081,6079); (6082,6080); (6083,6081); (5970,6082); (6085,6083); (6086,6084); (6087,6085); (5974,6086); (6089,6087); (6090,6088); (6091,6089); (5981,6090); (6093,6091); (6094,6092); (6095,6093); (5977,6094); (6097,6095); (6098,6096); (6099,6097); (6041,6098); (-435,6099); (6024,6022); (6103,6023); (5999,6102); (6105,6103); (6106,6104); (6108,6105); (6023,6022); (6006,6106); (6110,6108); (6111,6109); (6112,6110); (6009,6111); (6114,6112); (6115,6113); (6116,6114); (6001,6115); (6118,6116); (6119,6117); (6120,6118); (6056,6119); (6122,6120); (6123,6121); (6124,6122); (6011,6123); (6126,6124); (6127,6125); (6128,6126); (6015,6127); (6130,6128); (6131,6129); (6132,6130); (6022,6131); (6134,6132); (6135,6133); (6136,6134); (6018,6135); (6138,6136); (6139,6137); (6140,6138); (6082,6139); (-436,6140); (6143,6280); (6151,6142); (6145,5929); (6146,6144); (6147,6145); (6045,6146); (6149,6147); (6150,6148); (6152,6149); (6045,6143); (6049,6150); (6154,6152); (6155,6153); (6156,6154); (6042,6155); (6197,6151); (6159,6156); (6160,6158); (6161,6159); (6118,6160); (6184,6202); (6164,6183); (6165,6163); (6052,6164); (6167,6165); (6168,6166); (6169,6167); (6056,6168); (6171,6169); (6172,6170); (6173,6171); (6063,6172); (6175,6173); (6176,6174); (6177,6175); (6059,6176); (6179,6177); (6180,6178); (6181,6179); (6123,6180); (-437,6181); (6163,6161); (6185,6162); (6085,6184); (6187,6185); (6188,6186); (6189,6187); (6089,6188); (6191,6189); (6192,6190); (6193,6191); (6135,6192); (-438,6193); (6196,6281); (6204,6195); (6198,6157); (6199,6197); (6160,6198)];
  [(6226,6228); (6203,6225); (6162,6161); (6205,6201); (6109,6196); (6092,6203); (6207,6205); (6208,6206); (6209,6207); (6097,6208); (6213,6204); (6212,6209); (6214,6211); (6264,6210); (6215,6212); (6105,6214); (6217,6215); (6218,6216); (6219,6217); (6101,6218); (6221,6219); (6222,6220); (6223,6221); (6165,6222); (-439,6223); (6201,6199); (6227,6200); (6118,6226); (6200,6199); (6230,6227); (6231,6229); (6232,6230); (6114,6231); (6234,6232); (6235,6233); (6236,6234); (6127,6235); (6238,6236); (6239,6237); (6240,6238); (6176,6239); (6242,6240); (6243,6241); (6244,6242); (6131,6243); (6246,6244); (6247,6245); (6248,6246); (6135,6247); (6250,6248); (6251,6249); (6252,6250); (6142,6251); (6254,6252); (6255,6253); (6256,6254); (6138,6255); (6258,6256); (6259,6257); (6260,6258); (6202,6259); (-440,6260); (5818,5816); (5817,5816); (6265,6213); (6152,6264); (6267,6265); (6268,6266); (6269,6267); (6154,6268); (6272,6269); (5878,5816); (6273,6270); (6274,6272); (6170,6273); (6276,6274); (6278,6275); (5920,5816); (6279,6276); (6183,6278); (6142,5816); (6195,5816); (6283,6279); (6284,6282); (6285,6283); (6189,6284); (6287,6285); (6288,6286); (6289,6287); (6182,6288); (6291,6289); (6292,6290); (6293,6291); (6228,6292); (6295,6293); (6296,6294); (6297,6295); (6201,6296); (6299,6297); (6300,6298); (6301,6299); (6188,6300); (6303,6301); (6304,6302); (6305,6303); (6247,6304); (-441,6305); (5551,5547); (6309,5806); (6310,6308); (6313,6309); (5549,5547); (5605,5547); (6722,6310); (5801,5547); (6347,6788); (6317,6787); (6318,6316); (6205,6317); (6320,6318); (6321,6319); (6322,6320); (6209,6321); (6324,6322); (6325,6323); (6326,6324); (6216,6325); (6328,6326); (6329,6327); (6330,6328); (6212,6329); (6332,6330); (6333,6331); (6334,6332); (6327,6333); (6387,6393); (6337,6819); (6338,6336); (6225,6337); (6340,6338); (6341,6339); (6342,6340); (6229,6341); (6344,6342); (6345,6343); (6346,6344); (6237,6345); (6430,6315); (6349,6346); (6350,6348); (6351,6349); (6233,6350); (6353,6351); (6354,6352); (6355,6353); (6297,6354); (-443,6355); (5560,5558); (6359,5761); (6360,6358); (6393,6359); (5559,5558); (6449,6493); (6364,6490); (6367,6363); (5594,5558); (5623,5558); (6255,6364); (5752,5558); (6370,6367); (6371,6369); (6372,6370); (6259,6371); (6374,6372); (6375,6373); (6376,6374); (6266,6375); (6378,6376); (6379,6377); (6380,6378); (6262,6379); (6382,6380); (6383,6381); (6384,6382); (6326,6383); (-444,6384); (-442,6334); (6388,6335); (6292,6387); (6390,6388); (6391,6389); (6392,6390); (6280,6391); (6335,6334); (6395,6392); (6396,6394); (6397,6395); (6339,6396); (-445,6397); (6400,6412)];
  [(6401,6399); (6290,6400); (6403,6401); (6404,6402); (6405,6403); (6341,6404); (6407,6405); (6408,6406); (6409,6407); (6296,6408); (6411,6409); (6413,6410); (6399,6334); (6414,6411); (6301,6413); (6416,6414); (6417,6415); (6418,6416); (6308,6417); (6420,6418); (6421,6419); (6422,6420); (6304,6421); (6424,6422); (6425,6423); (6426,6424); (6368,6425); (-446,6426); (6429,6798); (6460,6428); (6317,6347); (6432,6430); (6433,6431); (6434,6432); (6334,6433); (6436,6434); (6437,6435); (6438,6436); (6321,6437); (6440,6438); (6441,6439); (6442,6440); (6342,6441); (6444,6442); (6445,6443); (6446,6444); (6388,6445); (-447,6446); (6451,6497); (6450,6362); (6341,6449); (6491,6448); (6453,6450); (6454,6452); (6455,6453); (6337,6454); (6457,6455); (6458,6456); (6459,6457); (6351,6458); (6457,6429); (6462,6459); (6463,6461); (6464,6462); (6368,6463); (6466,6464); (6467,6465); (6468,6466); (6355,6467); (6470,6468); (6471,6469); (6472,6470); (6359,6471); (6474,6472); (6475,6473); (6476,6474); (6366,6475); (6478,6476); (6479,6477); (6480,6478); (6362,6479); (6482,6480); (6483,6481); (6484,6482); (6370,6483); (6486,6484); (6487,6485); (6488,6486); (6430,6487); (-448,6488); (6363,6360); (6395,6451); (6494,6491); (6362,6360); (6495,6492); (6496,6494); (6384,6495); (6448,6360); (6499,6496); (6500,6498); (6501,6499); (6390,6500); (6503,6501); (6504,6502); (6505,6503); (6395,6504); (6507,6505); (6508,6506); (6509,6507); (6399,6508); (6511,6509); (6512,6510); (6513,6511); (6404,6512); (6515,6513); (6516,6514); (6517,6515); (6427,6516); (6536,6541); (6520,6535); (6521,6519); (6421,6520); (6523,6521); (6524,6522); (6525,6523); (6424,6524); (6527,6525); (6528,6526); (6529,6527); (6414,6528); (6531,6529); (6532,6530); (6533,6531); (6475,6532); (-449,6533); (6519,6517); (6537,6518); (6433,6536); (6539,6537); (6540,6538); (6542,6539); (6518,6517); (6440,6540); (6544,6542); (6545,6543); (6546,6544); (6443,6545); (6548,6546); (6549,6547); (6550,6548); (6435,6549); (6552,6550); (6553,6551); (6554,6552); (6496,6553); (-450,6554); (6557,6804); (6567,6556); (6559,6460); (6560,6558); (6561,6559); (6460,6560); (6563,6561); (6564,6562); (6565,6563); (6450,6564); (6568,6565); (6483,6557); (6569,6566); (6570,6568); (6572,6569); (6618,6656); (6573,6654); (6574,6572); (6470,6573); (6576,6574); (6577,6575); (6578,6576); (6476,6577); (6580,6578); (6581,6579); (6582,6580); (6479,6581); (6584,6582); (6585,6583); (6586,6584); (6471,6585); (6589,6586); (6694,6567); (6590,6587); (6591,6589); (6506,6590); (6593,6591); (6594,6592); (6595,6593); (6495,6594); (6597,6595); (6598,6596); (6599,6597); (6501,6598)];
  [(6601,6599); (6602,6600); (6603,6601); (6488,6602); (6605,6603); (6606,6604); (6607,6605); (6497,6606); (6609,6607); (6610,6608); (6611,6609); (6498,6610); (6613,6611); (6614,6612); (6615,6613); (6557,6614); (-451,6615); (6619,6658); (6620,6571); (6655,6617); (6520,6618); (6622,6620); (6623,6621); (6624,6622); (6524,6623); (6626,6624); (6627,6625); (6628,6626); (6543,6627); (6630,6628); (6631,6629); (6632,6630); (6532,6631); (6634,6632); (6635,6633); (6636,6634); (6538,6635); (6638,6636); (6639,6637); (6640,6638); (6525,6639); (6642,6640); (6643,6641); (6644,6642); (6534,6643); (6646,6644); (6647,6645); (6648,6646); (6535,6647); (6650,6648); (6651,6649); (6652,6650); (6594,6651); (-452,6652); (6572,6570); (6556,6619); (6571,6570); (6659,6655); (6617,6570); (6660,6657); (6661,6659); (6563,6660); (6663,6661); (6664,6662); (6665,6663); (6550,6664); (6667,6665); (6668,6666); (6669,6667); (6559,6668); (6671,6669); (6672,6670); (6673,6671); (6560,6672); (6675,6673); (6676,6674); (6677,6675); (6619,6676); (-453,6677); (6680,6685); (6681,6679); (6585,6680); (6683,6681); (6684,6682); (6686,6683); (6679,6677); (6573,6684); (6688,6686); (6689,6687); (6690,6688); (6632,6689); (-454,6690); (6693,6806); (6703,6692); (6695,6588); (6696,6694); (6594,6695); (6698,6696); (6699,6697); (6700,6698); (6597,6699); (6702,6700); (6704,6701); (6608,6693); (6705,6702); (6590,6704); (6707,6705); (6708,6706); (6710,6707); (6724,6703); (6665,6708); (6750,6751); (6713,6749); (6714,6712); (6614,6713); (6716,6714); (6717,6715); (6718,6716); (6618,6717); (6720,6718); (6721,6719); (6722,6720); (6637,6721); (6725,6722); (6789,6709); (6726,6723); (6727,6725); (6627,6726); (6729,6727); (6730,6728); (6731,6729); (6633,6730); (6733,6731); (6734,6732); (6735,6733); (6620,6734); (6737,6735); (6738,6736); (6739,6737); (6629,6738); (6741,6739); (6742,6740); (6743,6741); (6630,6742); (6745,6743); (6746,6744); (6747,6745); (6689,6746); (-455,6747); (6712,6710); (6752,6711); (6711,6710); (6652,6750); (6754,6752); (6755,6753); (6756,6754); (6658,6755); (6758,6756); (6759,6757); (6760,6758); (6645,6759); (6762,6760); (6763,6761); (6764,6762); (6654,6763); (6766,6764); (6767,6765); (6768,6766); (6655,6767); (6770,6768); (6771,6769); (6772,6770); (6714,6771); (-456,6772); (6775,6780); (6776,6774); (6680,6775); (6778,6776); (6779,6777); (6781,6778); (6774,6772); (6668,6779); (6783,6781); (6784,6782); (6785,6783); (6727,6784); (-457,6785); (6316,6313); (6315,6313); (6790,6724); (6690,6789); (6792,6790); (6793,6791); (6794,6792); (6736,6793); (-458,6794); (6797,6801); (6799,6796); (6428,6313); (6686,6797)];
  [(6802,6799); (6796,6794); (6803,6800); (6805,6802); (6556,6313); (6693,6803); (6692,6313); (6808,6805); (6809,6807); (6810,6808); (6700,6809); (6812,6810); (6813,6811); (6814,6812); (6696,6813); (6816,6814); (6817,6815); (6818,6816); (6761,6817); (6336,6313); (-459,6818); (6828,7078); (6823,5625); (6710,6822); (6825,6823); (6826,6824); (6827,6825); (6718,6826); (6853,6821); (6830,6827); (6831,6829); (6832,6830); (6714,6831); (6834,6832); (6835,6833); (6836,6834); (6778,6835); (-460,6836); (5613,5611); (5612,5611); (6841,5612); (6754,6840); (6866,6868); (6844,6865); (6845,6843); (6732,6844); (6847,6845); (6848,6846); (6849,6847); (6740,6848); (6851,6849); (6852,6850); (6859,6851); (6851,6828); (6902,6962); (6856,6950); (6857,6855); (6784,6856); (6899,6905); (6804,6852); (6861,6898); (6862,6860); (6805,6861); (-461,6859); (-464,6862); (6843,6841); (6869,6842); (6870,7081); (6842,6841); (6760,6866); (6885,6867); (6872,6869); (6873,6871); (6874,6872); (6763,6873); (6876,6874); (6877,6875); (6878,6876); (6820,6877); (-462,6878); (6886,7088); (6882,5638); (6883,6881); (6825,6882); (-463,6883); (6788,6870); (6895,6880); (6888,6885); (6889,6887); (6890,6888); (6770,6889); (6892,6890); (6893,6891); (6894,6892); (6838,6893); (6810,6886); (6903,7079); (-465,6894); (6860,6857); (6900,6858); (6842,6899); (-466,6900); (6906,6854); (6928,6896); (6916,6967); (6858,6857); (6799,6902); (6908,6906); (6910,6907); (6911,6895); (6912,6908); (6913,6909); (6856,6910); (6914,6911); (6796,6913); (-467,6912); (6951,6904); (6923,6914); (6919,5626); (6806,6918); (6922,6919); (5628,5624); (6924,6920); (6927,6917); (6925,6922); (6815,6924); (6934,6925); (7037,6923); (6869,6903); (6970,6983); (6931,6969); (6932,6930); (6822,6931); (6935,6932); (6940,6926); (6936,6933); (6937,6935); (6823,6936); (5626,5624); (6942,6937); (6941,6934); (6836,6940); (6945,6939); (6944,6941); (6947,6943); (6946,6942); (6909,6945); (6948,6944); (6890,6947); (-468,6948); (6855,6853); (6838,6916); (6953,6951); (6954,6952); (6955,6953); (6845,6954); (6957,6955); (6958,6956); (6959,6957); (6853,6958); (6961,6959); (6963,6960); (6854,6853); (6964,6961); (6906,6963); (-469,6964); (6973,7082); (6904,6853); (-470,6946); (6930,6928); (6971,6929); (6867,6970); (6974,6971); (6998,6966); (6975,6972); (6976,6974); (6918,6975); (-471,6976); (6979,7020); (6980,6978); (6922,6979); (-472,6980); (6984,7080); (6929,6928); (6985,6982); (6917,6984); (7008,7021); (6988,7014); (6989,6987); (6876,6988); (6991,6989); (6992,6990); (6993,6991); (6880,6992); (6995,6993); (6996,6994); (6997,6995); (6945,6996); (6902,6973); (7000,6998)];
  [(7001,6999); (7002,7000); (6893,7001); (7005,7002); (-473,6997); (7006,7003); (7007,7005); (6906,7006); (7010,6986); (7012,7007); (6914,7008); (7013,7010); (7015,7009); (7019,7011); (6987,6985); (7016,7012); (6909,7015); (7018,7016); (7029,7017); (7022,7013); (6978,6976); (6986,6985); (6909,7019); (7024,7022); (7025,7023); (7026,7024); (6968,7025); (-474,7026); (4748,4747); (7030,7018); (6930,7029); (7032,7030); (7033,7031); (7034,7032); (6977,7033); (5085,4747); (-475,7034); (6979,6927); (-476,7037); (7040,7085); (7041,7039); (6952,7040); (7052,7057); (7044,7051); (7045,7043); (6925,7044); (7047,7045); (7048,7046); (7049,7047); (6991,7048); (-477,7049); (7043,7041); (7053,7042); (6951,7052); (7055,7053); (7056,7054); (7058,7055); (7042,7041); (6945,7056); (7070,7058); (4749,4747); (4798,4747); (4848,4747); (4938,4747); (4908,4747); (5025,4747); (4887,2557); (5124,4747); (5116,4747); (5310,4747); (7073,7059); (5530,4747); (5156,2557); (7075,7070); (5526,4747); (6979,7073); (7083,7075); (5579,4747); (6821,4747); (6896,4747); (6982,4747); (6867,2557); (6966,4747); (7084,7076); (7086,7083); (7039,4747); (6973,7084); (7089,7086); (6880,2557); (7090,7087); (7091,7089); (6978,7090); (7093,7091); (7094,7092); (7096,7093); (2588,2557); (7039,7094); (2587,2557); (-478,7096); (4935,2557); (5033,2557); (7102,4762); (7110,7101); (5101,2557); (7105,32840); (7106,7104); (8982,7105); (8493,9081); (7136,9079); (5518,2557); (6994,7102); (7112,7110); (7114,7111); (5595,2557); (7115,7112); (7000,7114); (7117,7115); (7118,7116); (7119,7117); (7019,7118); (7121,7119); (7122,7120); (7123,7121); (7065,7122); (-479,7123); (7126,32839); (7127,7125); (8199,7126); (7193,8298); (7130,8296); (7131,7129); (7055,7130); (7155,7170); (7134,7154); (7135,7133); (7024,7134); (7137,7108); (7030,7136); (7139,7137); (7140,7138); (8429,7139); (7142,7135); (7143,7141); (7144,7142); (7029,7143); (7146,7144); (7147,7145); (7148,7146); (7048,7147); (7150,7148); (7151,7149); (7152,7150); (7094,7151); (-481,7152); (7133,7131); (7156,7132); (7041,7155); (7158,7156); (7159,7157); (7160,7158); (7060,7159); (7162,7160); (7163,7161); (7164,7162); (7051,7163); (7166,7164); (7167,7165); (7168,7166); (7110,7167); (-483,7168); (7132,7131); (7173,8339); (7174,4730); (7283,7171); (7159,7172); (7223,7264); (7177,7256); (7178,7176); (7065,7177); (7180,7178); (7181,7179); (7182,7180); (7072,7181); (7184,7182); (7185,7183); (7186,7184); (7077,7185); (7188,7186); (7189,7187); (7190,7188); (7132,7189); (-484,7190); (7194,8267); (7195,7128); (7267,7192); (7142,7193); (7214,7247); (7198,7239); (7199,7197); (7086,7198)];
  [(7201,7199); (7202,7200); (7203,7201); (7093,7202); (7205,7203); (7206,7204); (7207,7205); (7098,7206); (7209,7207); (7210,7208); (7211,7209); (7153,7210); (-485,7211); (7221,7253); (7215,7196); (7102,7214); (7217,7215); (7218,7216); (7219,7217); (7161,7218); (-486,7219); (7240,7213); (7230,7280); (7224,7175); (7111,7223); (7226,7224); (7227,7225); (7228,7226); (7130,7227); (7231,7228); (7257,7222); (7232,7229); (7233,7231); (7175,7232); (-487,7233); (7236,7260); (7237,7235); (7179,7236); (-489,7237); (7197,7195); (7133,7221); (7242,7240); (7243,7241); (7244,7242); (7134,7243); (7246,7244); (7248,7245); (7196,7195); (7249,7246); (7140,7248); (7251,7249); (7252,7250); (7254,7251); (7213,7195); (7196,7252); (-491,7254); (7176,7174); (7199,7230); (-492,7257); (7261,7263); (7235,7219); (7262,7259); (7206,7261); (7259,7195); (7175,7174); (-493,7262); (7295,8299); (7200,7194); (7269,7267); (7270,7268); (7271,7269); (7161,7270); (7273,7271); (7274,7272); (7275,7273); (7160,7274); (7277,7275); (7278,7276); (7279,7277); (7222,7278); (7222,7174); (-494,7279); (7284,8341); (7175,7173); (7285,7282); (7228,7284); (7287,7283); (7288,7286); (7289,7287); (7174,7288); (7291,7289); (7292,7290); (7293,7291); (7235,7292); (-495,7293); (7297,7266); (7298,7311); (7195,7295); (7299,7296); (7184,7298); (7301,7299); (7302,7300); (7303,7301); (7245,7302); (-496,7303); (7334,8302); (7307,7297); (7308,7306); (7309,7307); (7194,7308); (7312,7309); (7296,7267); (7313,7310); (7314,7312); (7256,7313); (-497,7314); (7317,8300); (7318,7316); (7260,7317); (-498,7318); (7321,8301); (7322,7320); (7255,7321); (7324,7322); (7325,7323); (7326,7324); (7216,7325); (7328,7326); (7329,7327); (7330,7328); (7215,7329); (7332,7330); (7333,7331); (7335,7332); (7336,7305); (7281,7333); (7340,7334); (7392,7455); (7339,8342); (7341,7338); (-499,7335); (7229,7339); (7345,7285); (7344,7341); (7346,7343); (7347,7342); (7356,7344); (7348,7345); (7290,7347); (-500,7348); (7351,7369); (7352,7350); (7294,7351); (-501,7352); (7383,8307); (7357,8347); (7262,7346); (7358,7355); (7259,7357); (7362,7356); (7361,7358); (7387,7360); (7363,7359); (7364,7362); (7247,7363); (7366,7364); (7367,7365); (7368,7366); (7269,7367); (7350,7322); (7371,7368); (7372,7370); (7373,7371); (7315,7372); (-503,7373); (7376,7454); (7378,7375); (-480,7120); (7282,7376); (7380,7378); (7381,7379); (7382,7380); (7266,7381); (7385,7354); (7390,7382); (7413,7383); (7439,7518); (7388,7361); (7280,7387); (7419,7388); (7391,7384); (7393,7390); (7400,7337); (7293,7391); (7395,7393); (7396,7394); (7397,7395); (7339,7396); (-505,7397); (-502,7336)];
  [(7342,7392); (-507,7400); (7403,7442); (7404,7402); (7294,7403); (7407,7404); (-482,7149); (7408,7405); (7409,7407); (7294,7408); (7411,7409); (7412,7410); (7413,7411); (7355,7412); (-508,7413); (7417,8348); (7445,8308); (7418,7415); (7460,7417); (7422,7389); (7558,7572); (7426,7557); (7423,7419); (7323,7422); (7425,7423); (7427,7424); (7495,7421); (7428,7425); (7319,7427); (7430,7428); (7431,7429); (7432,7430); (7317,7431); (7434,7432); (7435,7433); (7436,7434); (7378,7435); (-510,7436); (7473,7521); (7440,7386); (7331,7439); (7443,7440); (7402,7400); (7444,7441); (7446,7443); (7447,7416); (7336,7444); (7586,7445); (7524,7698); (7450,7683); (7451,7449); (7357,7450); (7453,7446); (7457,7452); (7375,7336); (7337,7336); (7512,7451); (7458,7453); (7358,7457); (7460,7458); (7461,7459); (7462,7460); (7349,7461); (7464,7462); (7465,7463); (7466,7464); (7352,7465); (7468,7466); (7469,7467); (7470,7468); (7412,7469); (-511,7470); (-509,7385); (7474,7438); (7416,7473); (-512,7474); (7477,7528); (7478,7476); (7420,7477); (-513,7478); (7481,7520); (7482,7480); (7372,7481); (7484,7482); (7485,7483); (7486,7484); (7372,7485); (-488,7229); (7489,7486); (7490,7488); (7492,7489); (-490,7260); (7434,7490); (-514,7492); (7496,8317); (7399,7426); (7497,7494); (7428,7496); (7501,7495); (7500,7497); (7505,7499); (7502,7498); (7503,7501); (7390,7502); (7507,7503); (7506,7500); (7648,7505); (7508,7504); (7509,7507); (7451,7508); (-515,7509); (7540,8309); (7513,7456); (7514,7512); (7401,7513); (7516,7514); (7517,7515); (7519,7516); (7386,7385); (7463,7517); (7480,7478); (7438,7385); (-516,7519); (7538,7701); (7525,7448); (7410,7524); (7527,7525); (7529,7526); (7476,7385); (7530,7527); (7410,7529); (7532,7530); (7533,7531); (7534,7532); (7556,7533); (7591,7674); (7537,7671); (7539,7536); (7684,7523); (7440,7537); (7542,7511); (7547,7539); (7605,7540); (7552,7720); (7545,7708); (7546,7544); (7492,7545); (7548,7541); (7549,7547); (7434,7548); (7553,7549); (-526,7546); (7710,7543); (7554,7550); (7555,7553); (7497,7554); (-518,7555); (7421,7418); (7559,7420); (7444,7558); (7561,7559); (7562,7560); (7563,7561); (7443,7562); (7565,7563); (7566,7564); (7567,7565); (7535,7566); (7619,7621); (7570,7618); (7571,7569); (7464,7570); (7420,7418); (7574,7571); (7575,7573); (7576,7574); (7480,7575); (7578,7576); (7579,7577); (7580,7578); (7473,7579); (7582,7580); (7583,7581); (7584,7582); (7477,7583); (7586,7584); (7587,7585); (7588,7586); (7506,7587); (7590,7588); (7592,7589); (7616,7535); (7593,7590); (7481,7592); (7595,7593); (7596,7594); (7597,7595); (7481,7596); (7599,7597); (7600,7598)];
  [(7601,7599); (7505,7600); (7603,7601); (7604,7602); (7605,7603); (7492,7604); (7607,7605); (7608,7606); (7609,7607); (7509,7608); (7611,7609); (7612,7610); (7613,7611); (7555,7612); (-519,7613); (-517,7534); (7558,7591); (-520,7616); (7569,7567); (7620,7568); (7521,7619); (7568,7567); (7623,7620); (7624,7622); (7625,7623); (7512,7624); (7628,7625); (-504,7370); (7629,7626); (7630,7628); (7510,7629); (7632,7630); (7633,7631); (7634,7632); (7552,7633); (7636,7634); (7637,7635); (7638,7636); (7530,7637); (7640,7638); (7641,7639); (7642,7640); (7546,7641); (7644,7642); (7645,7643); (7646,7644); (7539,7645); (7648,7646); (7649,7647); (7650,7648); (7544,7649); (-506,7394); (7653,7650); (7654,7652); (7655,7653); (7573,7654); (7657,7655); (7658,7656); (7659,7657); (7547,7658); (7661,7659); (7662,7660); (7663,7661); (7547,7662); (7665,7663); (7666,7664); (7667,7665); (7571,7666); (7669,7667); (7670,7668); (7672,7669); (7536,7534); (7559,7670); (7675,7672); (7535,7534); (7676,7673); (7677,7675); (7577,7676); (7679,7677); (7680,7678); (7681,7679); (7623,7680); (-521,7681); (7449,7447); (7573,7538); (7686,7684); (7687,7685); (7688,7686); (7641,7687); (7691,7690); (7689,7688); (7692,7689); (7651,7691); (7699,7703); (7695,7702); (7696,7694); (7638,7695); (-523,7696); (7448,7447); (7704,7693); (-522,7688); (7523,7447); (7694,7692); (7693,7692); (7646,7699); (-524,7704); (7725,8351); (-525,7506); (7544,7542); (7738,8311); (7599,7552); (7712,7710); (7713,7711); (7714,7712); (7656,7713); (-527,7714); (7717,8350); (7718,7716); (7664,7717); (7768,7776); (7543,7542); (7722,7767); (7723,7721); (7613,7722); (7726,7723); (7727,7706); (7729,7724); (7613,7725); (7730,7727); (7732,7726); (7731,7728); (7736,7730); (7623,7729); (7734,7732); (7735,7733); (7745,7734); (7632,7731); (7739,7736); (7740,7709); (7823,7737); (7698,7738); (7796,7806); (7743,7795); (7744,7742); (7635,7743); (7687,7735); (-528,7745); (7748,8310); (7753,7747); (7750,7744); (7751,7749); (7752,7750); (7727,7751); (7672,7748); (7777,7784); (7756,7775); (7757,7755); (7647,7756); (7759,7757); (7760,7758); (7761,7759); (7652,7760); (7763,7761); (7764,7762); (7765,7763); (7707,7764); (-529,7765); (7721,7718); (7769,7719); (7668,7768); (7771,7769); (7772,7770); (7773,7771); (7715,7772); (-530,7773); (7755,7753); (7719,7718); (7778,7754); (7677,7777); (7780,7778); (7781,7779); (7782,7780); (7724,7781); (-531,7782); (7754,7753); (7814,8312); (-532,7752); (7788,7842); (7789,7787); (7682,7788); (7791,7789); (7792,7790); (7793,7791); (7735,7792); (-533,7793); (7742,7740); (7797,7741); (7681,7796); (7799,7797); (7800,7798)];
  [(7801,7799); (7687,7800); (7803,7801); (7804,7802); (7805,7803); (7748,7804); (7741,7740); (-534,7805); (7809,7813); (7810,7808); (7706,7809); (7812,7810); (7815,7811); (7808,7740); (7816,7785); (7821,7812); (7989,7814); (7898,8104); (7819,8088); (7820,7818); (7775,7819); (7763,7815); (-535,7821); (7830,7739); (7843,8352); (7882,7886); (7827,7880); (7828,7826); (7715,7827); (7872,7828); (7723,7823); (7832,7830); (7833,7831); (7834,7832); (7724,7833); (7836,7834); (7837,7835); (7838,7836); (7729,7837); (7840,7838); (7841,7839); (7844,7840); (7787,7752); (7845,7824); (7788,7841); (7729,7843); (7848,7845); (-536,7844); (7849,7846); (7854,7848); (7851,7871); (7852,7850); (7742,7851); (7856,7852); (7940,7849); (8038,8045); (7859,7853); (7858,8037); (7970,7857); (7860,7856); (7751,7859); (7862,7860); (7863,7861); (7864,7862); (7806,7863); (-537,7864); (7867,7881); (7868,7866); (7810,7867); (-538,7868); (7899,8313); (7850,7821); (7873,7829); (7874,7872); (7776,7873); (7876,7874); (7877,7875); (7878,7876); (7820,7877); (-539,7878); (7826,7820); (7866,7821); (7883,7825); (7776,7882); (7885,7883); (7887,7884); (7825,7820); (7888,7885); (7778,7887); (7890,7888); (7891,7889); (7892,7890); (7783,7891); (7894,7892); (7895,7893); (7896,7894); (7838,7895); (-540,7896); (7906,7817); (7901,7870); (7916,8106); (8052,7899); (8117,8120); (7904,8149); (7905,7903); (7796,7904); (7818,7898); (7924,7926); (7909,7923); (7917,7908); (7911,7905); (7912,7910); (7913,7911); (7800,7912); (7915,7913); (8114,7914); (7976,7900); (7809,7909); (7919,7917); (7920,7918); (7921,7919); (7863,7920); (-541,7921); (7908,7906); (7925,7907); (7830,7924); (7907,7906); (7928,7925); (7929,7927); (7930,7928); (7821,7929); (7932,7930); (7933,7931); (7934,7932); (7819,7933); (7936,7934); (7937,7935); (7938,7936); (7849,7937); (7953,7957); (7941,7952); (7942,7940); (7827,7941); (7944,7942); (7945,7943); (7946,7944); (7833,7945); (7948,7946); (7949,7947); (7950,7948); (7892,7949); (-542,7950); (7940,7938); (7954,7939); (7854,7953); (7956,7954); (7958,7955); (7939,7938); (7959,7956); (7845,7958); (7961,7959); (7962,7960); (7963,7961); (7849,7962); (7965,7963); (7966,7964); (7967,7965); (7909,7966); (-543,7967); (7988,8354); (7863,7858); (7972,7970); (7973,7971); (7974,7972); (7939,7973); (8001,8023); (7973,7916); (8025,8074); (7980,8070); (7995,8107); (7981,7978); (7874,7980); (7983,7981); (7984,7982); (7985,7983); (7871,7984); (7987,7985); (7989,7986); (7990,7969); (7992,7987); (8059,7988); (8157,8164); (7937,7989); (7994,8158); (7999,7993); (7997,7979); (-545,7992); (7977,7995); (-544,7974); (7886,7994)];
  [(8002,7999); (8005,7975); (8003,8000); (8004,8002); (8070,8003); (7901,8001); (8007,8005); (8008,8006); (8009,8007); (7902,8008); (8011,8009); (8012,8010); (8013,8011); (7914,8012); (8015,8013); (8016,8014); (8017,8015); (7917,8016); (8019,8017); (8020,8018); (8021,8019); (7963,8020); (-546,8021); (7975,7974); (8028,8078); (8026,7977); (7912,8025); (8029,8026); (8071,8024); (8030,8027); (8031,8029); (7916,8030); (8033,8031); (8034,8032); (8035,8033); (7977,8034); (-547,8035); (7857,7854); (8039,7855); (7932,8038); (8041,8039); (8042,8040); (8043,8041); (7939,8042); (8046,8043); (7855,7854); (8047,8044); (8048,8046); (7951,8047); (8050,8048); (8051,8049); (8052,8050); (7939,8051); (8054,8052); (8055,8053); (8056,8054); (7952,8055); (8058,8056); (8059,8057); (8060,8058); (7944,8059); (8062,8060); (8063,8061); (8064,8062); (7956,8063); (8066,8064); (8067,8065); (8068,8066); (8010,8067); (-548,8068); (7978,7976); (7954,8028); (8073,8071); (8075,8072); (7977,7976); (8076,8073); (8018,8075); (-549,8076); (8024,7976); (8080,8086); (8081,8079); (8014,8080); (8083,8081); (8084,8082); (8085,8083); (8028,8084); (8079,8076); (-550,8085); (7818,7816); (8090,7997); (8091,8089); (8092,8090); (7996,8091); (8094,8092); (8095,8093); (8096,8094); (7983,8095); (8098,8096); (8099,8097); (8100,8098); (7986,8099); (8102,8100); (8103,8101); (8105,8102); (7817,7816); (8000,8103); (7900,7816); (7979,7816); (8109,8105); (8110,8108); (8111,8109); (8053,8110); (-551,8111); (8130,8314); (8115,7915); (8057,8114); (-552,8115); (8118,7902); (8008,8117); (8121,8118); (7902,7901); (8122,8119); (8123,8121); (8008,8122); (8125,8123); (8126,8124); (8127,8125); (8069,8126); (-553,8127); (-554,8004); (8131,8113); (8099,8130); (8144,8199); (8134,8198); (8135,8133); (8022,8134); (8137,8135); (8138,8136); (8139,8137); (8081,8138); (-555,8139); (8160,8355); (8143,8204); (8173,8142); (8145,8132); (8035,8144); (8147,8145); (8148,8146); (8151,8147); (7903,7901); (8174,8315); (8036,8148); (8153,8151); (8154,8152); (8155,8153); (8097,8154); (-556,8155); (8159,7991); (7993,7990); (8052,8157); (8162,8141); (8167,8159); (8066,8160); (8165,8162); (7991,7990); (8166,8163); (8171,8165); (8168,8161); (8169,8167); (8111,8168); (-557,8169); (8113,8166); (-559,8171); (8068,8143); (8175,8150); (8099,8174); (8197,8203); (8180,8173); (8179,8196); (8181,8178); (8186,8177); (8123,8179); (-560,8181); (8184,8323); (8185,8183); (8118,8184); (8187,8180); (8129,8186); (-558,8187); (8195,8359); (8191,8185); (8192,8190); (8193,8191); (8135,8192); (-561,8193); (8208,8189); (8178,8175); (8201,8176); (8133,8131); (8132,8131)];
  [(8229,8319); (8143,8197); (-563,8201); (8176,8175); (8142,8131); (8206,8356); (8207,8205); (8100,8206); (8241,8195); (8212,8207); (8340,8353); (8213,8346); (8215,8209); (8214,8211); (8104,8213); (8216,8212); (8109,8215); (8218,8216); (8221,8217); (8220,8214); (8222,8219); (8225,8218); (8223,8220); (8108,8222); (8226,8223); (8171,8221); (8227,8224); (8228,8226); (8161,8227); (8231,8200); (-565,8225); (8169,8229); (8245,8274); (8234,8268); (8235,8233); (8132,8234); (8237,8316); (8238,8236); (8149,8237); (8259,8263); (8241,8235); (8242,8240); (8243,8241); (8185,8242); (-570,8243); (8246,8232); (8132,8245); (8248,8246); (8249,8247); (8269,8248); (8251,8258); (8252,8250); (8145,8251); (8254,8252); (8255,8253); (8256,8254); (8198,8255); (-567,8256); (8250,8238); (8260,8239); (8150,8259); (8262,8260); (8264,8261); (8239,8238); (8265,8262); (8207,8264); (-569,8265); (7192,7127); (8233,8231); (8154,8249); (8271,8269); (8272,8270); (8273,8271); (8216,8272); (8232,8231); (-571,8273); (8277,8228); (8278,8276); (8279,8277); (8221,8278); (-572,8279); (8282,8231); (8283,8281); (8284,8282); (8291,8283); (8393,8402); (8287,8392); (8288,8286); (8190,8287); (8290,8288); (8291,8289); (8292,8290); (8177,8291); (8294,8292); (8295,8293); (8297,8294); (7129,7127); (8206,8295); (7128,7127); (7266,7127); (7316,7127); (7320,7127); (7305,7127); (8304,8297); (8305,8303); (8306,8304); (8202,8305); (7354,7127); (7416,7127); (7511,7127); (7747,7127); (7709,7127); (7785,7127); (7870,7127); (8113,7127); (8150,7127); (8236,7127); (7494,4729); (8320,8306); (8200,7127); (8321,8318); (8322,8320); (8219,8321); (8183,4729); (8325,8322); (8326,8324); (8327,8325); (8217,8326); (8329,8327); (8330,8328); (8331,8329); (8222,8330); (8333,8331); (8334,8332); (8335,8333); (8278,8334); (4759,4729); (-573,8335); (4730,4729); (7171,4729); (8343,8210); (7282,4729); (7338,4729); (8233,8340); (8345,8343); (8349,8344); (8211,8208); (7355,4729); (7415,4729); (8357,8345); (7716,4729); (7706,4729); (7824,4729); (8210,8208); (7969,4729); (8141,4729); (8205,4729); (8248,8349); (8360,8357); (8189,4729); (8361,8358); (8362,8360); (8262,8361); (8364,8362); (8365,8363); (8366,8364); (8257,8365); (8368,8366); (8369,8367); (8370,8368); (8255,8369); (8372,8370); (8373,8371); (8374,8372); (8270,8373); (8376,8374); (8377,8375); (8378,8376); (8282,8377); (8380,8378); (8381,8379); (8382,8380); (8275,8381); (8384,8382); (8385,8383); (8386,8384); (8318,8385); (8388,8386); (8389,8387); (8390,8388); (8332,8389); (-574,8390); (8286,8284); (8394,8285); (8285,8393); (8396,8394); (8397,8395); (8398,8396); (8298,8397); (8400,8398)];
  [(8401,8399); (8403,8400); (8285,8284); (8294,8401); (8405,8403); (8406,8404); (8407,8405); (8292,8406); (8409,8407); (8410,8408); (8411,8409); (8307,8410); (8413,8411); (8414,8412); (8415,8413); (8319,8414); (8417,8415); (8418,8416); (8419,8417); (8312,8418); (8421,8419); (8422,8420); (8423,8421); (8323,8422); (8425,8423); (8426,8424); (8427,8425); (8369,8426); (-575,8427); (8322,7140); (8431,8429); (8438,8430); (-564,8203); (8434,32808); (8435,8433); (8967,8434); (8577,9069); (8465,9066); (8439,8431); (8335,8438); (8441,8439); (8442,8440); (8443,8441); (8334,8442); (8445,8443); (8446,8444); (8448,8445); (-562,8190); (8346,8446); (8450,8448); (8451,8449); (8452,8450); (8353,8451); (8454,8452); (8455,8453); (8456,8454); (8346,8455); (8458,8456); (8459,8457); (8460,8458); (8345,8459); (8462,8460); (8463,8461); (8464,8462); (8356,8463); (8466,8437); (8346,8465); (8468,8466); (8469,8467); (8470,8468); (8432,8469); (8472,8464); (8473,8471); (8475,8472); (-566,8217); (8375,8473); (8477,8475); (8478,8476); (8479,8477); (8367,8478); (8481,8479); (8482,8480); (8483,8481); (8425,8482); (-576,8483); (8486,32841); (8487,8485); (9998,8486); (9189,10096); (8490,10095); (8517,8489); (-577,8470); (8494,9083); (8495,7107); (8502,8492); (8375,8493); (8497,8495); (8498,8496); (8499,8497); (8441,8498); (-578,8499); (8503,9084); (8395,8494); (8505,8501); (8506,8502); (8480,8503); (8507,8504); (8508,8506); (8412,8507); (8511,8508); (-568,8253); (8512,8509); (8513,8511); (8406,8512); (8515,8513); (8516,8514); (8523,8515); (9061,8490); (9133,9170); (8520,9160); (8521,8519); (8405,8520); (9085,8521); (8423,8516); (8525,8523); (8526,8524); (8527,8525); (8469,8526); (-579,8527); (8531,9087); (8551,8588); (8533,8529); (8535,8585); (8426,8531); (8589,8533); (8536,8532); (8429,8535); (8538,8536); (8539,8537); (8540,8538); (8436,8539); (8542,8540); (8543,8541); (8544,8542); (8442,8543); (8546,8544); (8547,8545); (8548,8546); (8490,8547); (-580,8548); (8553,8594); (8552,8530); (8458,8551); (8586,8550); (8564,8566); (8556,8563); (8557,8555); (8455,8556); (8559,8557); (8560,8558); (8561,8559); (8503,8560); (-581,8561); (8555,8552); (8565,8554); (8462,8564); (8554,8552); (8568,8565); (8569,8567); (8570,8568); (8468,8569); (8572,8570); (8573,8571); (8574,8572); (8516,8573); (-582,8574); (8579,9072); (8578,8436); (8466,8577); (8608,8576); (8581,8578); (8582,8580); (8583,8581); (8525,8582); (-583,8583); (8532,8505); (8528,8553); (-584,8586); (8530,8505); (8590,8534); (8592,8589); (8593,9088); (8492,8590); (8595,8591); (8550,8505); (8488,8593); (8599,8595); (8598,8592); (8600,8597); (8734,8596)];
  [(8601,8598); (8499,8600); (8603,8601); (8604,8602); (8605,8603); (8547,8604); (-585,8605); (8610,9078); (8501,8579); (8611,8608); (8613,8607); (8612,8609); (8614,8611); (8759,8610); (8507,8612); (8616,8614); (8617,8615); (8618,8616); (8518,8617); (8620,8618); (8621,8619); (8622,8620); (8523,8621); (8624,8622); (8625,8623); (8626,8624); (8589,8625); (8673,8675); (8629,8672); (8630,8628); (8522,8629); (8632,8630); (8633,8631); (8634,8632); (8538,8633); (8636,8634); (8637,8635); (8638,8636); (8531,8637); (8640,8638); (8641,8639); (8642,8640); (8535,8641); (8644,8642); (8645,8643); (8646,8644); (8564,8645); (8648,8646); (8649,8647); (8650,8648); (8538,8649); (8652,8650); (8653,8651); (8654,8652); (8538,8653); (8656,8654); (8657,8655); (8658,8656); (8562,8657); (8660,8658); (8661,8659); (8662,8660); (8549,8661); (8664,8662); (8665,8663); (8666,8664); (8566,8665); (8668,8666); (8669,8667); (8670,8668); (8612,8669); (-586,8670); (8628,8626); (8674,8627); (8575,8673); (8627,8626); (8677,8674); (8678,8676); (8679,8677); (8566,8678); (8681,8679); (8682,8680); (8683,8681); (8563,8682); (8685,8683); (8686,8684); (8687,8685); (8605,8686); (8689,8687); (8690,8688); (8691,8689); (8583,8690); (8693,8691); (8694,8692); (8695,8693); (8599,8694); (8697,8695); (8698,8696); (8699,8697); (8592,8698); (8701,8699); (8702,8700); (8703,8701); (8596,8702); (8705,8703); (8706,8704); (8707,8705); (8625,8706); (8709,8707); (8710,8708); (8711,8709); (8599,8710); (8713,8711); (8714,8712); (8715,8713); (8599,8714); (8717,8715); (8718,8716); (8719,8717); (8623,8718); (8721,8719); (8722,8720); (8723,8721); (8610,8722); (8725,8723); (8726,8724); (8727,8725); (8627,8726); (8729,8727); (8730,8728); (8731,8729); (8673,8730); (-587,8731); (8735,9090); (8736,8599); (8737,8733); (8634,8734); (8666,8735); (8764,8774); (8740,8736); (8743,8739); (8742,8763); (8751,8741); (8744,8740); (8642,8743); (8746,8744); (8747,8745); (8748,8746); (8690,8747); (-588,8748); (8752,9092); (8637,8742); (8754,8750); (8756,8751); (8644,8752); (8758,8754); (8757,8753); (8760,8756); (8759,8755); (8761,8758); (8703,8757); (8688,8759); (-589,8760); (8741,8737); (8765,8738); (8661,8764); (8767,8765); (8768,8766); (8769,8767); (8667,8768); (8771,8769); (8772,8770); (8773,8771); (8716,8772); (8738,8737); (-590,8773); (8777,8782); (8778,8776); (8669,8777); (8780,8778); (8781,8779); (8783,8780); (8776,8737); (8669,8781); (8785,8783); (8786,8784); (8787,8785); (8729,8786); (-591,8787); (8791,9093); (8792,8761); (8793,8789); (8795,8790); (8733,8791); (8846,8847); (8796,8792); (8740,8795); (8798,8845); (8800,8797); (-592,8796)];
  [(8700,8798); (8804,9082); (8816,8800); (8830,8873); (8807,8801); (8806,8871); (8808,8805); (8714,8804); (8707,8806); (8810,8808); (8811,8809); (8812,8810); (8755,8811); (9068,8807); (-593,8812); (8817,9094); (8818,8802); (8819,8815); (8821,8816); (8723,8817); (8823,8819); (8763,8818); (-594,8821); (8824,8820); (8826,8823); (8827,8876); (8714,8824); (8870,8825); (8829,8826); (8905,8828); (8831,8803); (8767,8830); (8833,8831); (8834,8832); (8835,8833); (8728,8834); (8837,8835); (8838,8836); (8839,8837); (8732,8838); (8841,8839); (8842,8840); (8843,8841); (8785,8842); (-595,8843); (8797,8793); (8848,8794); (8794,8793); (8765,8846); (8863,8872); (8851,8862); (8852,8850); (8745,8851); (8854,8852); (8855,8853); (8856,8854); (8749,8855); (8858,8856); (8859,8857); (8860,8858); (8802,8859); (-596,8860); (8850,8848); (8864,8849); (8806,8863); (-597,8864); (8867,8924); (8868,8866); (8810,8867); (-598,8868); (8760,8827); (8805,8613); (8849,8848); (8803,8613); (8875,8870); (8877,8874); (8825,8613); (8878,8875); (8774,8877); (8880,8878); (8881,8879); (8882,8880); (8782,8881); (8884,8882); (8885,8883); (8886,8884); (8773,8885); (8888,8886); (8889,8887); (8890,8888); (8775,8889); (8892,8890); (8893,8891); (8894,8892); (8781,8893); (8896,8894); (8897,8895); (8898,8896); (8797,8897); (8900,8898); (8901,8899); (8902,8900); (8844,8901); (-599,8902); (8906,9096); (8907,8829); (8908,8904); (8794,8905); (8956,8906); (9054,9067); (8911,8907); (8914,8910); (8913,9053); (8915,8912); (8916,8911); (8946,8913); (8815,8914); (9046,9061); (8919,9045); (8935,8918); (8921,8916); (8922,8920); (8923,8921); (8815,8922); (8866,8864); (8926,8923); (8927,8925); (8928,8926); (8813,8927); (8930,8928); (8931,8929); (8932,8930); (8874,8931); (-600,8932); (8936,9097); (8987,8919); (8938,8934); (8982,9037); (8840,8936); (8942,8938); (8941,9036); (8944,8940); (8943,8939); (8945,8942); (8920,8941); (8833,8943); (8957,8971); (8948,8945); (8949,8947); (8951,8948); (8952,8970); (9021,8949); (8953,8950); (8895,8952); (-601,8953); (8956,8972); (8963,8955); (8958,8946); (8900,8957); (-603,8958); (8961,8973); (8962,8960); (8910,8961); (8905,8956); (-604,8963); (8966,8974); (8967,8965); (8909,8966); (-607,8967); (-606,8962); (8950,8944); (8946,8944); (8955,8944); (8960,8944); (8965,8944); (8977,8976); (8975,8944); (8978,8975); (8920,8977); (-608,8978); (8981,9038); (8997,8980); (8983,8937); (8938,8982); (8990,8991); (8986,8989); (8987,8985); (8929,8986); (-609,8987); (8985,8983); (8992,8984); (8984,8983); (8934,8990); (-610,8992); (8995,9039); (8996,8994); (8964,8995); (8956,8981); (9005,9009); (9000,9008)];
  [(9001,8999); (8943,9000); (-611,9001); (9004,9012); (9010,9003); (9006,8998); (8948,9005); (-613,9006); (8999,8997); (8998,8997); (8952,9004); (-614,9010); (9003,8997); (9014,9040); (9015,9013); (8977,9014); (9032,9033); (9018,8996); (9019,9017); (9020,9018); (8962,9019); (-615,9020); (9023,9042); (9024,9022); (8969,9023); (9026,9024); (9041,9025); (9028,9031); (9029,9027); (8971,9028); (-616,9029); (9027,9015); (9034,9016); (9016,9015); (8976,9032); (-617,9034); (8940,8935); (8937,8935); (8980,8935); (8994,8935); (9013,8935); (9043,9026); (9022,8935); (8985,9041); (-618,9043); (8918,8915); (9047,8917); (8940,9046); (9049,9047); (9050,9048); (9051,9049); (8993,9050); (-619,9051); (8912,8908); (9055,8909); (8937,9054); (9057,9055); (9058,9056); (9059,9057); (8950,9058); (9062,9059); (8917,8915); (9063,9060); (9064,9062); (9006,9063); (-620,9064); (8437,8435); (8909,8908); (9070,8813); (8436,8435); (9071,9068); (8959,9070); (8576,8435); (9074,9071); (9075,9073); (9076,9074); (9018,9075); (-621,9076); (8607,8435); (7108,7106); (-622,8951); (7107,7106); (8801,8435); (8492,7106); (8501,7106); (9086,8522); (9089,9085); (8529,7106); (8591,7106); (8975,9086); (8733,7106); (9095,9089); (8750,7106); (8789,7106); (8815,7106); (9104,9091); (8904,7106); (8934,7106); (9099,32809); (9100,9098); (9775,9099); (9165,9873); (9103,9872); (9118,9102); (9105,9095); (9005,9104); (9107,9105); (9108,9106); (9109,9107); (9051,9108); (-623,9109); (9112,32810); (9113,9111); (10709,9112); (10183,10774); (9116,10806); (9117,9115); (10155,9116); (9010,9103); (9120,9118); (9121,9119); (9122,9120); (9014,9121); (9124,9122); (9125,9123); (9126,9124); (9030,9125); (9128,9126); (9129,9127); (9130,9128); (9072,9129); (-624,9130); (9142,9173); (9134,8518); (9026,9133); (9136,9134); (9137,9135); (9138,9136); (9042,9137); (9140,9138); (9141,9139); (9150,9140); (9161,9132); (10255,10271); (9145,10254); (9146,9144); (9046,9145); (9148,9146); (9149,9147); (10093,9148); (9092,9141); (-625,9150); (9153,9172); (9154,9152); (9096,9153); (-626,9154); (9157,9192); (9158,9156); (9100,9157); (-627,9158); (8519,8517); (9103,9142); (-628,9161); (9164,9874); (9210,9163); (9166,9101); (9053,9165); (9168,9166); (9169,9167); (9171,9168); (8518,8517); (9073,9169); (9152,9130); (9132,8517); (9175,9171); (9176,9174); (9177,9175); (9060,9176); (9179,9177); (9180,9178); (9181,9179); (9081,9180); (9183,9181); (9184,9182); (9185,9183); (9127,9184); (-629,9185); (9188,10097); (9248,9187); (9190,8488); (9077,9189); (9193,9190); (9156,9150); (9194,9191); (9195,9193); (9095,9194); (9197,9195); (9198,9196); (9199,9197); (9082,9198)];
  [(9201,9199); (9202,9200); (9203,9201); (9103,9202); (9205,9203); (9207,9204); (-602,8970); (9208,9205); (9150,9207); (-630,9208); (9162,9164); (-605,8972); (9213,9875); (9214,9212); (9164,9213); (9233,9267); (9217,9263); (9218,9216); (9119,9217); (9220,9218); (9221,9219); (9222,9220); (9118,9221); (9224,9222); (9225,9223); (9226,9224); (9119,9225); (9228,9226); (9229,9227); (9230,9228); (9172,9229); (-631,9230); (9236,9283); (9234,9215); (9121,9233); (9237,9234); (9264,9232); (9238,9235); (9239,9237); (9141,9238); (9241,9239); (9242,9240); (9243,9241); (9185,9242); (-632,9243); (9246,10098); (9247,9245); (9179,9246); (9161,9188); (9268,9282); (9251,9266); (9252,9250); (9139,9251); (9254,9252); (9256,9253); (-612,9008); (9257,9254); (9159,9256); (9259,9257); (9260,9258); (9261,9259); (9203,9260); (-633,9261); (9216,9210); (9206,9236); (-634,9264); (9250,9248); (9215,9210); (9269,9249); (9211,9268); (-635,9269); (9272,9877); (9273,9271); (9160,9272); (9397,9273); (9276,9214); (9277,9275); (9278,9276); (9163,9277); (9280,9278); (9281,9279); (9284,9280); (9249,9248); (9232,9210); (9226,9281); (-636,9284); (9287,10067); (9288,9286); (9230,9287); (-638,9288); (9291,9247); (9292,9290); (9293,9291); (9178,9292); (9295,9293); (9296,9294); (9297,9295); (9239,9296); (-637,9297); (9327,10100); (9301,10099); (9302,9300); (9244,9301); (-639,9302); (9305,9338); (9306,9304); (9248,9305); (-640,9306); (9309,9352); (9310,9308); (9252,9309); (-641,9310); (9313,9357); (9314,9312); (9256,9313); (-642,9314); (9317,9369); (9318,9316); (9260,9317); (-643,9318); (9321,9371); (9322,9320); (9215,9321); (9324,9322); (9325,9323); (9326,9324); (9235,9325); (9328,9299); (9215,9327); (9330,9328); (9331,9329); (9408,9330); (9333,9326); (9334,9332); (9335,9333); (9226,9334); (9337,9335); (9339,9336); (9304,9288); (9340,9337); (9225,9339); (9342,9340); (9343,9341); (9344,9342); (9286,9343); (-644,9344); (9347,9359); (9348,9346); (9290,9347); (-645,9348); (9351,9389); (9353,9350); (9308,9302); (9255,9351); (9355,9353); (9356,9354); (9358,9355); (9312,9302); (9301,9356); (9346,9302); (-646,9358); (9362,9390); (9363,9361); (9253,9362); (9365,9363); (9366,9364); (9367,9365); (9252,9366); (9370,9367); (9316,9314); (9372,9368); (9320,9314); (9373,9370); (9315,9372); (-647,9373); (9376,9426); (9377,9375); (9319,9376); (-648,9377); (9380,9427); (9381,9379); (9323,9380); (-649,9381); (9384,9398); (9385,9383); (9327,9384); (-650,9385); (9388,9428); (9391,9387); (9350,9348); (9361,9348); (9277,9388); (9393,9391); (9394,9392); (9395,9393); (9337,9394); (-651,9395); (9403,9274); (9383,9348); (9400,9878)];
  [(9401,9399); (9343,9400); (-654,9401); (9405,9397); (9414,10101); (9347,9403); (-652,9405); (9435,10104); (9350,9331); (-653,9408); (9411,9849); (9412,9410); (9314,9411); (9415,9412); (9417,9404); (9416,9413); (9451,9415); (9359,9414); (-655,9417); (9420,9462); (9421,9419); (9363,9420); (-656,9421); (9424,10103); (9425,9423); (9320,9424); (9375,9373); (9379,9377); (9387,9385); (9430,9425); (9431,9429); (9432,9430); (9332,9431); (9434,9432); (9442,9433); (9436,9407); (9338,9435); (9438,9436); (9439,9437); (9440,9438); (9320,9439); (9443,9440); (9444,9434); (9458,9441); (9337,9442); (9446,9444); (9447,9445); (9448,9446); (9390,9447); (-657,9448); (9473,9886); (9331,9416); (9453,9451); (9454,9452); (9455,9453); (9397,9454); (-658,9455); (9485,10109); (9459,9443); (9401,9458); (-659,9459); (9463,10106); (9419,9417); (9464,9461); (9411,9463); (9471,9480); (9467,9508); (9468,9466); (9410,9467); (-661,9468); (-660,9464); (9472,9465); (9418,9471); (9474,9450); (9363,9473); (9476,9474); (9478,9475); (-662,9472); (9479,9476); (9454,9478); (9465,9464); (9482,9517); (9483,9481); (9425,9482); (-663,9483); (9486,9457); (9375,9485); (9488,9486); (9489,9487); (9490,9488); (9389,9489); (9493,9490); (9495,10108); (9494,9491); (9496,9493); (9497,9492); (9439,9494); (9457,9495); (-672,9496); (9527,9526); (9501,9554); (9502,9500); (9391,9501); (9504,9502); (9505,9503); (9506,9504); (9448,9505); (-664,9506); (9466,9464); (9510,9560); (9511,9509); (9398,9510); (9513,9511); (9514,9512); (9515,9513); (9405,9514); (9518,9515); (9481,9464); (9519,9516); (9520,9518); (9401,9519); (9522,9520); (9523,9521); (9524,9522); (9466,9523); (-665,9524); (9499,9497); (9528,9499); (9470,9527); (-666,9528); (9531,9558); (9532,9530); (9474,9531); (-667,9532); (9535,9587); (9536,9534); (9478,9535); (-668,9536); (9539,9591); (9540,9538); (9482,9539); (-669,9540); (9543,9572); (9544,9542); (9440,9543); (9546,9544); (9547,9545); (9548,9546); (9440,9547); (9550,9548); (9551,9549); (9552,9550); (9494,9551); (-670,9552); (9500,9497); (9578,9889); (9557,9479); (9559,9556); (9530,9497); (9561,9557); (9509,9506); (9503,9559); (-671,9561); (9564,10112); (9566,9563); (9593,10113); (9470,9564); (9568,9566); (9569,9567); (9570,9568); (9453,9569); (9573,9570); (9542,9497); (9574,9571); (9575,9573); (9475,9574); (9577,9575); (9582,9576); (9579,9555); (9479,9578); (9581,9579); (9583,9580); (9585,9577); (9584,9581); (9492,9583); (9527,9582); (-673,9585); (9534,9532); (9611,9890); (9590,9584); (9592,9589); (9538,9536); (9600,9590); (9594,9565); (9715,9593); (9607,9820); (9597,9814); (9598,9596); (9485,9597); (9601,9598)];
  [(9487,9592); (9602,9599); (9604,9601); (9605,9600); (9547,9602); (9608,9603); (-682,9604); (9610,9595); (9609,9605); (9514,9608); (9706,9607); (9612,9588); (9514,9611); (9614,9612); (9616,9613); (9618,9609); (9617,9614); (9511,9616); (9619,9615); (9620,9618); (9507,9619); (9622,9620); (9623,9621); (9624,9622); (9720,9623); (9628,9617); (9667,9790); (9629,9789); (9811,9625); (9630,9627); (9518,9629); (9632,9630); (9633,9631); (9634,9632); (9518,9633); (9636,9634); (9637,9635); (9638,9636); (9542,9637); (9640,9638); (9641,9639); (9642,9640); (9535,9641); (9644,9642); (9645,9643); (9646,9644); (9588,9645); (-674,9646); (9649,9664); (9650,9648); (9550,9649); (9652,9650); (9653,9651); (9654,9652); (9540,9653); (9656,9654); (9657,9655); (9658,9656); (9544,9657); (9660,9658); (9661,9659); (9662,9660); (9604,9661); (-675,9662); (9648,9646); (9666,9791); (9705,9665); (9668,9626); (9552,9667); (9670,9668); (9671,9669); (9672,9670); (9565,9671); (9674,9672); (9675,9673); (9676,9674); (9569,9675); (9678,9676); (9679,9677); (9680,9678); (9612,9679); (9682,9680); (9683,9681); (9684,9682); (9572,9683); (9686,9684); (9687,9685); (9688,9686); (9572,9687); (9690,9688); (9691,9689); (9692,9690); (9596,9691); (9694,9692); (9695,9693); (9696,9694); (9589,9695); (9698,9696); (9699,9697); (9700,9698); (9642,9699); (-676,9700); (9703,9796); (9704,9702); (9633,9703); (9592,9666); (9707,9705); (9708,9706); (9709,9707); (9609,9708); (9711,9709); (9712,9710); (9713,9711); (9617,9712); (9715,9713); (9716,9714); (9717,9715); (9602,9716); (9719,9717); (9720,9718); (9721,9719); (9621,9720); (9723,9721); (9724,9722); (9725,9723); (9612,9724); (9727,9725); (9728,9726); (9729,9727); (9671,9728); (-677,9729); (9732,9803); (9733,9731); (9630,9732); (9735,9704); (9736,9734); (9737,9735); (9624,9736); (9751,9733); (9740,9737); (9741,9739); (9742,9740); (9628,9741); (9744,9742); (9745,9743); (9746,9744); (9688,9745); (-678,9746); (9749,9804); (9750,9748); (9650,9749); (9752,9738); (9753,9751); (9657,9752); (9756,9753); (9762,9750); (9757,9754); (9758,9756); (9649,9757); (9760,9758); (9761,9759); (9763,9760); (9792,9755); (9648,9761); (9765,9763); (9766,9764); (9767,9765); (9699,9766); (9769,9767); (9770,9768); (9771,9769); (9659,9770); (9773,9771); (9774,9772); (9775,9773); (9659,9774); (9777,9775); (9778,9776); (9779,9777); (9683,9778); (9781,9779); (9782,9780); (9783,9781); (9676,9782); (9785,9783); (9786,9784); (9787,9785); (9729,9786); (-679,9787); (9627,9624); (9626,9624); (9665,9624); (9793,9762); (9686,9792); (9795,9793); (9797,9794); (9702,9624); (9798,9795); (9699,9797); (9800,9798)];
  [(9801,9799); (9802,9800); (9704,9801); (9731,9624); (9748,9624); (9806,9802); (9807,9805); (9808,9806); (9750,9807); (-680,9808); (9830,9859); (9812,9628); (9754,9811); (-681,9812); (9596,9594); (9816,9610); (9817,9815); (9818,9816); (9763,9817); (9821,9864); (9595,9594); (9823,9819); (-683,9818); (9766,9821); (9837,10114); (-684,9823); (9827,9871); (9828,9826); (9770,9827); (-685,9828); (9831,9810); (9773,9830); (-686,9831); (9834,9891); (9835,9833); (9777,9834); (-688,9835); (9838,9824); (9859,9837); (9879,9972); (9841,9958); (9842,9840); (9749,9841); (9850,9854); (9845,9848); (9846,9844); (9788,9845); (-691,9846); (9844,9842); (9410,9100); (9851,9843); (9738,9850); (9853,9851); (9855,9852); (9843,9842); (9856,9853); (9798,9855); (-692,9856); (9860,9959); (9810,9100); (9861,9858); (9751,9860); (9863,9861); (9865,9862); (9819,9818); (9866,9863); (9752,9865); (9895,10116); (9869,9866); (9870,9868); (9876,9869); (9826,9818); (9102,9100); (9101,9100); (9163,9100); (9212,9100); (9822,9870); (9271,9100); (9399,9100); (9880,9839); (9771,9879); (-693,9876); (9883,9967); (9884,9882); (9805,9883); (9887,9884); (9450,9100); (9892,9885); (9919,9880); (9555,9100); (9588,9100); (9833,9100); (9893,9887); (9797,9892); (9902,9893); (9896,9867); (9984,9895); (10086,10094); (9899,10085); (9900,9898); (9787,9899); (9903,9900); (9905,9894); (9904,9901); (9906,9903); (9907,9902); (9792,9904); (9796,9905); (9909,9906); (9912,9908); (9911,9907); (9915,9910); (9913,9909); (9804,9912); (10068,9913); (9916,9911); (9858,9915); (-694,9916); (-689,9838); (9920,9888); (9921,9919); (9821,9920); (9923,9921); (9924,9922); (9925,9923); (9811,9924); (9927,9925); (9928,9926); (9929,9927); (9814,9928); (9931,9929); (9932,9930); (9933,9931); (9875,9932); (-695,9933); (9936,9973); (9937,9935); (9939,9936); (9978,10039); (9940,10036); (9941,9939); (9854,9940); (9965,9968); (9944,9966); (9945,9943); (9834,9944); (9947,9945); (9948,9946); (9949,9947); (9836,9948); (9951,9949); (9952,9950); (9953,9951); (9843,9952); (9955,9953); (9956,9954); (9957,9955); (9840,9956); (9840,9838); (9858,9838); (9961,9957); (9962,9960); (9963,9961); (9905,9962); (-696,9963); (9969,9942); (9943,9941); (9882,9838); (9942,9941); (9856,9965); (9971,9969); (9974,9970); (9839,9838); (9935,9838); (9975,9971); (9917,9974); (-697,9975); (9980,10040); (9979,9938); (9870,9978); (9991,9977); (9982,9979); (9983,9981); (9984,9982); (9869,9983); (9986,9984); (9987,9985); (9988,9986); (9930,9987); (-698,9988); (9993,10047); (9879,9980); (9995,9991); (9994,9990); (9936,9993); (9996,9992); (9997,9995); (9907,9996); (10016,10020); (10000,10015)];
  [(10001,9999); (9901,10000); (10003,10001); (10004,10002); (10005,10003); (9891,10004); (10007,10005); (10008,10006); (10009,10007); (9895,10008); (10011,10009); (10012,10010); (10013,10011); (9955,10012); (-699,10013); (9999,9997); (10017,9998); (9910,10016); (10019,10017); (10021,10018); (9998,9997); (10022,10019); (9922,10021); (10024,10022); (10025,10023); (10026,10024); (9912,10025); (10028,10026); (10029,10027); (10030,10028); (9916,10029); (10032,10030); (10033,10031); (10034,10032); (9976,10033); (-700,10034); (9939,9937); (10038,9994); (10041,10037); (9938,9937); (9977,9937); (10042,10038); (9928,10041); (10044,10042); (10045,10043); (10046,10044); (9933,10045); (9990,9937); (10049,10046); (10050,10048); (10051,10049); (9993,10050); (-701,10051); (10055,10054); (10053,9937); (10056,10053); (9952,10055); (10058,10056); (10059,10057); (10060,10058); (9952,10059); (10062,10060); (10063,10061); (10064,10062); (10006,10063); (-702,10064); (-687,9859); (9286,8487); (10069,9914); (10070,10068); (9970,10069); (10072,10070); (10073,10071); (10074,10072); (9962,10073); (10076,10074); (10077,10075); (10078,10076); (9966,10077); (10081,10078); (-690,10114); (10082,10079); (10083,10081); (10025,10082); (-703,10083); (9898,9896); (10087,9897); (10019,10086); (10089,10087); (10090,10088); (10091,10089); (10033,10090); (-704,10091); (9995,9149); (9897,9896); (8489,8487); (8488,8487); (9187,8487); (9245,8487); (9300,8487); (9299,8487); (9404,8487); (10105,10093); (9423,8487); (9407,8487); (10107,10102); (9461,8487); (10110,10105); (9492,8487); (9457,8487); (10052,10107); (-705,10110); (9563,8487); (9565,8487); (9824,8487); (10125,32842); (9867,8487); (10118,32811); (10119,10117); (11785,10118); (10925,11884); (10122,11882); (10123,10121); (10025,10122); (10149,10123); (10126,10115); (10775,10125); (10221,10840); (10129,10872); (10130,10128); (10097,10129); (10148,10205); (10133,10202); (10134,10132); (10021,10133); (10136,10134); (10137,10135); (10138,10136); (10024,10137); (10140,10138); (10141,10139); (10142,10140); (10031,10141); (10144,10142); (10145,10143); (10146,10144); (10088,10145); (-706,10146); (10158,10131); (10150,10124); (10151,10149); (10035,10150); (10153,10151); (10154,10152); (10155,10153); (10040,10154); (10869,10155); (10160,10206); (10057,10148); (10161,10158); (10166,10157); (10162,10159); (10163,10161); (10105,10162); (-707,10163); (10168,10211); (10062,10160); (10170,10166); (10169,10165); (10132,10168); (10171,10167); (10172,10170); (10065,10171); (10174,10172); (10175,10173); (10176,10174); (10061,10175); (10178,10176); (10179,10177); (10180,10178); (10122,10179); (-708,10180); (10214,10808); (10184,9114); (10103,10183); (10186,10184); (10187,10185); (10188,10186); (10121,10187); (10190,10188); (10191,10189); (10192,10190); (10094,10191); (10194,10192); (10195,10193); (10196,10194); (10076,10195); (10198,10196); (10199,10197); (10200,10198)];
  [(10142,10199); (-709,10200); (10132,10130); (10233,10246); (10207,10232); (10131,10130); (10157,10130); (10208,10204); (10110,10207); (10210,10208); (10212,10209); (10165,10130); (10213,10210); (10094,10212); (10270,10182); (10216,10213); (10217,10215); (10218,10216); (10160,10217); (-710,10218); (10252,10873); (10222,10127); (10109,10221); (10224,10222); (10225,10223); (10226,10224); (10113,10225); (10228,10226); (10229,10227); (10230,10228); (10172,10229); (-711,10230); (10204,10169); (10234,10203); (10176,10233); (-712,10234); (10237,10275); (10238,10236); (10134,10237); (10240,10238); (10241,10239); (10242,10240); (10129,10241); (10244,10242); (10245,10243); (10247,10244); (10203,10169); (10189,10245); (-713,10247); (10250,10295); (10251,10249); (10194,10250); (10259,10220); (-714,10251); (9144,9117); (10256,9143); (10198,10255); (-715,10256); (10290,10876); (10163,10252); (10261,10259); (10262,10260); (10263,10261); (10150,10262); (10265,10263); (10266,10264); (10267,10265); (10209,10266); (-716,10267); (10301,10811); (10167,10214); (9143,9117); (10273,10270); (10274,10272); (10276,10273); (10236,10234); (10163,10274); (10278,10276); (10279,10277); (10280,10278); (10182,10279); (10282,10280); (10283,10281); (10284,10282); (10226,10283); (-717,10284); (10287,10874); (10288,10286); (10184,10287); (10293,10288); (10291,10258); (10261,10290); (10338,10369); (10294,10289); (10296,10293); (10249,10234); (10183,10294); (10298,10296); (10299,10297); (10300,10298); (10203,10299); (10303,10269); (10304,10300); (10262,10301); (10305,10302); (10306,10304); (10248,10305); (-718,10306); (10340,10877); (10310,10358); (10311,10309); (10198,10310); (10313,10311); (10314,10312); (10315,10313); (10200,10314); (10317,10315); (10318,10316); (10319,10317); (10205,10318); (10321,10319); (10322,10320); (10323,10321); (10265,10322); (-719,10323); (10326,10382); (10327,10325); (10223,10326); (10329,10327); (10330,10328); (10331,10329); (10216,10330); (10333,10331); (10334,10332); (10335,10333); (10277,10334); (-720,10335); (10348,10375); (10339,10292); (10235,10338); (10341,10308); (10228,10340); (10344,10341); (10345,10339); (10383,10342); (10346,10343); (10347,10345); (10244,10346); (10359,10337); (10350,10347); (10351,10349); (10352,10350); (10241,10351); (10354,10352); (10355,10353); (10356,10354); (10298,10355); (-721,10356); (10309,10291); (10261,10348); (10361,10359); (10362,10360); (10363,10361); (10253,10362); (10365,10363); (10366,10364); (10367,10365); (10258,10366); (10370,10367); (10292,10291); (10371,10368); (10372,10370); (10314,10371); (-722,10372); (10386,10814); (10337,10291); (10377,10303); (10378,10376); (10379,10377); (10321,10378); (-723,10379); (10413,10882); (10325,10323); (10384,10344); (10326,10383); (-724,10384); (10388,10374); (10419,10820); (10281,10386); (10390,10388); (10391,10389); (10392,10390); (10295,10391); (10394,10392); (10395,10393); (10396,10394); (10296,10395); (10398,10396); (10399,10397); (10400,10398)];
  [(10287,10399); (10402,10400); (10403,10401); (10404,10402); (10289,10403); (10406,10404); (10407,10405); (10408,10406); (10326,10407); (10410,10408); (10411,10409); (10412,10410); (10304,10411); (10414,10381); (10300,10413); (10417,10414); (10420,10412); (10418,10415); (10440,10417); (10421,10387); (10422,10416); (10533,10419); (10423,10420); (10328,10422); (10648,10647); (10426,10423); (10428,10425); (10610,10645); (10429,10426); (10331,10428); (10431,10429); (10432,10430); (10433,10431); (10333,10432); (10435,10433); (10436,10434); (10437,10435); (10379,10436); (-725,10437); (10471,10886); (10361,10418); (10463,10480); (10443,10462); (10444,10442); (10348,10443); (10446,10444); (10447,10445); (10448,10446); (10335,10447); (10450,10448); (10451,10449); (10452,10450); (10342,10451); (10454,10452); (10455,10453); (10456,10454); (10338,10455); (10458,10456); (10459,10457); (10460,10458); (10402,10459); (-726,10460); (10442,10440); (10464,10441); (10368,10463); (10466,10464); (10467,10465); (10468,10466); (10355,10467); (10470,10468); (10474,10469); (10472,10439); (10520,10471); (10500,10629); (10477,10470); (10476,10617); (10481,10475); (10367,10474); (10479,10477); (10482,10478); (10441,10440); (10376,10476); (10483,10479); (10365,10482); (10485,10483); (10486,10484); (10487,10485); (10429,10486); (-727,10487); (10521,10890); (10491,10481); (10492,10490); (10493,10491); (10380,10492); (10495,10493); (10496,10494); (10497,10495); (10439,10496); (-728,10497); (10511,10631); (10501,10473); (10386,10500); (10503,10501); (10504,10502); (10505,10503); (10402,10504); (10507,10505); (10508,10506); (10509,10507); (10394,10508); (10512,10509); (10517,10499); (10513,10510); (10514,10512); (10456,10513); (-729,10514); (10528,10632); (10411,10511); (10519,10517); (10520,10518); (10524,10519); (10522,10489); (10657,10521); (10710,10765); (10460,10520); (10526,10756); (10531,10525); (10569,10574); (10530,10516); (10532,10568); (10516,10528); (10421,10526); (10533,10529); (10433,10532); (10536,10533); (10704,10531); (10537,10534); (10538,10536); (10437,10537); (10540,10538); (10541,10539); (10542,10540); (10427,10541); (10544,10542); (10545,10543); (10546,10544); (10450,10545); (10548,10546); (10549,10547); (10550,10548); (10437,10549); (10552,10550); (10553,10551); (10554,10552); (10441,10553); (10556,10554); (10557,10555); (10558,10556); (10448,10557); (10560,10558); (10561,10559); (10562,10560); (10444,10561); (10564,10562); (10565,10563); (10566,10564); (10508,10565); (-730,10566); (10529,10524); (10570,10527); (10466,10569); (10572,10570); (10573,10571); (10575,10572); (10527,10524); (10473,10573); (10577,10575); (10578,10576); (10579,10577); (10476,10578); (10581,10579); (10582,10580); (10583,10581); (10468,10582); (10585,10583); (10586,10584); (10587,10585); (10491,10586); (10589,10587); (10590,10588); (10591,10589); (10478,10590); (10593,10591); (10594,10592); (10595,10593); (10482,10594); (10597,10595); (10598,10596); (10599,10597); (10489,10598)];
  [(10601,10599); (10602,10600); (10603,10601); (10485,10602); (10605,10603); (10606,10604); (10607,10605); (10549,10606); (-731,10607); (10641,10824); (10611,10427); (10510,10610); (10613,10611); (10614,10612); (10615,10613); (10557,10614); (-732,10615); (10475,10472); (10619,10530); (10620,10618); (10621,10619); (10563,10620); (-733,10621); (10624,10634); (10625,10623); (10528,10624); (10627,10625); (10628,10626); (10630,10627); (10473,10472); (10536,10628); (10499,10472); (10516,10472); (10635,10630); (10623,10472); (10636,10633); (10637,10635); (10524,10636); (10639,10637); (10640,10638); (10642,10639); (10643,10609); (10585,10640); (10633,10641); (-734,10642); (10427,10421); (10726,10749); (10424,10421); (10650,10424); (10655,10732); (10546,10648); (10652,10650); (10653,10651); (10654,10652); (10534,10653); (10698,10649); (10657,10654); (10658,10656); (10659,10657); (10549,10658); (10661,10659); (10662,10660); (10663,10661); (10554,10662); (10665,10663); (10666,10664); (10667,10665); (10552,10666); (10669,10667); (10670,10668); (10671,10669); (10575,10670); (10673,10671); (10674,10672); (10675,10673); (10568,10674); (10677,10675); (10678,10676); (10679,10677); (10604,10678); (10681,10679); (10682,10680); (10683,10681); (10579,10682); (10685,10683); (10686,10684); (10687,10685); (10578,10686); (10689,10687); (10690,10688); (10691,10689); (10591,10690); (10693,10691); (10694,10692); (10695,10693); (10637,10694); (-735,10695); (10729,10826); (10585,10655); (10700,10698); (10701,10699); (10702,10700); (10644,10701); (-736,10702); (10705,10535); (10706,10704); (10648,10705); (-737,10706); (10740,10896); (10718,10773); (10711,10523); (10615,10710); (10713,10711); (10714,10712); (10715,10713); (10601,10714); (10717,10715); (10719,10716); (10757,10709); (10720,10717); (10617,10719); (10722,10720); (10723,10721); (10724,10722); (10666,10723); (-738,10724); (10727,10646); (10614,10726); (10730,10727); (10731,10697); (10733,10728); (10625,10729); (10649,10643); (10735,10730); (10737,10731); (10625,10733); (10738,10735); (10743,10734); (10739,10736); (10746,10738); (10741,10708); (10754,10740); (10853,10866); (10747,10737); (10745,10852); (10750,10744); (10641,10739); (10663,10743); (10751,10746); (10646,10643); (10637,10745); (10752,10748); (10753,10751); (10696,10752); (10758,10750); (-739,10753); (10525,10522); (10645,10718); (10841,10754); (10760,10757); (10761,10759); (10762,10760); (10652,10761); (10764,10762); (10766,10763); (10523,10522); (10767,10764); (10661,10766); (10769,10767); (10770,10768); (10771,10769); (10713,10770); (-740,10771); (10709,10522); (9114,9113); (10776,10747); (10777,10775); (10778,10776); (10748,10777); (10818,10817); (10781,10816); (10782,10780); (10672,10781); (10784,10782); (10785,10783); (10786,10784); (10668,10785); (10788,10786); (10789,10787); (10790,10788); (10681,10789); (10792,10790); (10793,10791); (10794,10792); (10723,10793); (10796,10794); (10797,10795); (10798,10796); (10682,10797); (10800,10798)];
  [(10801,10799); (10802,10800); (10694,10801); (10804,10802); (10805,10803); (10807,10804); (9115,9113); (10697,10805); (10182,9113); (10810,10807); (10812,10809); (10269,9113); (10813,10810); (10756,10812); (10374,9113); (-741,10813); (10780,10778); (10779,10778); (10819,10779); (10708,10818); (10387,9113); (10822,10819); (10823,10821); (10825,10822); (10609,9113); (10710,10823); (10697,9113); (10828,10825); (10829,10827); (10830,10828); (10734,10829); (10832,10830); (10833,10831); (10834,10832); (10727,10833); (10836,10834); (10837,10835); (10838,10836); (10780,10837); (-742,10838); (10127,10126); (10842,10758); (10735,10841); (10844,10842); (10845,10843); (10846,10844); (10739,10845); (10848,10846); (10849,10847); (10850,10848); (10792,10849); (-743,10850); (10744,10741); (10854,10742); (10751,10853); (10856,10854); (10857,10855); (10858,10856); (10758,10857); (10860,10858); (10861,10859); (10862,10860); (10753,10861); (10864,10862); (10865,10863); (10867,10864); (10742,10741); (10809,10865); (-744,10867); (10870,10156); (10871,10869); (10774,10870); (10128,10126); (10220,10126); (10286,10126); (10878,10871); (10258,10126); (10308,10126); (10879,10875); (10880,10878); (10822,10879); (-745,10880); (10381,10126); (10884,32843); (10885,10883); (11806,10884); (10439,10126); (10920,11905); (10889,11903); (10891,10888); (10489,10126); (10793,10889); (10893,10891); (10894,10892); (10895,10893); (10789,10894); (10708,10126); (10898,32812); (10899,10897); (12011,10898); (11987,12113); (10902,12110); (10903,10901); (11873,10902); (11979,11994); (10929,11978); (10907,10895); (10908,10906); (10909,10907); (10794,10908); (10911,10909); (10912,10910); (10913,10911); (10813,10912); (10915,10913); (10916,10914); (10917,10915); (10859,10916); (-747,10917); (10921,11907); (10922,10887); (10997,10919); (10864,10920); (-749,10922); (10926,11885); (10927,10120); (10972,10924); (10857,10925); (10963,10978); (10930,10905); (10817,10929); (10932,10930); (10933,10931); (10934,10932); (10836,10933); (10936,10934); (10937,10935); (11946,10936); (10939,10962); (10940,10938); (10827,10939); (10942,10940); (10943,10941); (10944,10942); (10846,10943); (10946,10944); (10947,10945); (10948,10946); (10890,10947); (-750,10948); (10951,10969); (10952,10950); (10839,10951); (10954,10952); (10955,10953); (10956,10954); (10858,10955); (10958,10956); (10959,10957); (10960,10958); (10902,10959); (-752,10960); (10938,10927); (10964,10928); (10906,10963); (-754,10964); (10967,10985); (10968,10966); (10911,10967); (10950,10922); (-755,10968); (10973,11854); (10864,10926); (10974,10971); (10888,10973); (10976,10972); (10977,10975); (10979,10976); (10928,10927); (10864,10977); (10981,10979); (10982,10980); (10983,10981); (10925,10982); (-756,10983); (10966,10922); (11014,11887); (10988,10974); (10989,10987); (10990,10988); (10870,10989); (10992,10990); (10993,10991); (10994,10992); (10936,10993); (-757,10994); (10998,11908); (10900,10921); (11000,10996); (11001,10997)];
  [(10937,10998); (11002,10999); (11003,11001); (10883,11002); (11005,11003); (11006,11004); (11007,11005); (10949,11006); (-758,11007); (11010,11020); (11011,11009); (10913,11010); (11013,11011); (11015,11012); (11016,10986); (11018,11013); (10903,11014); (11035,11016); (10911,11015); (11021,11018); (11009,10997); (11022,11019); (11023,11021); (10965,11022); (-759,11023); (11027,11909); (11040,11051); (11029,11025); (11031,11039); (10916,11027); (11070,11029); (11032,11028); (10974,11031); (-761,11032); (11062,11859); (11036,11017); (11037,11035); (10979,11036); (-762,11037); (11028,11000); (11041,11026); (10983,11040); (-763,11041); (11044,11888); (11045,11043); (10932,11044); (11047,11045); (11048,11046); (11049,11047); (10953,11048); (11052,11049); (11026,11000); (11053,11050); (11054,11052); (10937,11053); (11056,11054); (11057,11055); (11058,11056); (10958,11057); (11060,11058); (11061,11059); (11063,11060); (11064,11034); (11007,11061); (10957,11062); (11067,11064); (-764,11063); (11068,11065); (11150,11067); (11071,11911); (11072,11030); (11073,11069); (11076,11070); (11080,11071); (11120,11191); (11091,11185); (10980,11072); (11078,11076); (11079,11077); (11080,11078); (10963,11079); (11082,11080); (11083,11081); (11084,11082); (10984,11083); (11086,11084); (11087,11085); (11088,11086); (11030,11087); (-766,11088); (11092,11912); (11093,11075); (11094,11090); (11006,11091); (10987,11092); (11096,11094); (11098,11095); (11112,11116); (11162,11096); (11100,11111); (11101,11099); (10992,11100); (11103,11101); (11104,11102); (11105,11103); (10990,11104); (11107,11105); (11108,11106); (11109,11107); (11051,11108); (-769,11109); (11099,11093); (11113,11097); (10998,11112); (11115,11113); (11117,11114); (11097,11093); (11118,11115); (11060,11117); (-770,11118); (11125,11074); (11122,11190); (11123,11121); (11022,11122); (11126,11123); (11024,11120); (11127,11124); (11128,11126); (11024,11127); (11130,11128); (11131,11129); (11132,11130); (11023,11131); (11135,11132); (-746,10875); (11136,11133); (11137,11135); (11079,11136); (-771,11137); (-768,11073); (11141,11125); (11142,11140); (11143,11141); (11047,11142); (11145,11143); (11146,11144); (11147,11145); (11089,11146); (-772,11147); (11154,11895); (11046,11068); (11152,11150); (11153,11151); (11155,11152); (11177,11149); (11053,11153); (11157,11155); (11158,11156); (11159,11157); (11101,11158); (-773,11159); (11163,11915); (11059,11098); (11165,11161); (11168,11162); (11208,11163); (11306,11319); (11169,11305); (11172,11164); (11170,11167); (11198,11169); (-748,10914); (11173,11168); (11071,11172); (11175,11173); (11176,11174); (11178,11175); (11453,11154); (11122,11176); (11570,11571); (11182,11569); (-774,11178); (11183,11180); (11403,11182); (11186,11894); (11075,11073); (11187,11184); (11270,11186); (11226,11382); (11463,11504); (11121,11073); (11074,11073); (11193,11367); (11194,11192); (11134,11193); (11234,11237); (11197,11233); (11198,11196); (11085,11197); (11200,11198)];
  [(11201,11199); (11203,11200); (-751,10945); (11145,11201); (-776,11203); (11224,11301); (11208,11297); (11209,11916); (11210,11206); (11211,11207); (11103,11208); (11358,11209); (11213,11457); (11215,11212); (-753,10957); (11119,11213); (11219,11215); (11218,11210); (11220,11217); (11352,11216); (11221,11218); (11163,11220); (-777,11221); (11227,11314); (11225,11205); (11179,11224); (11330,11188); (11298,11223); (11263,11287); (11230,11280); (11231,11229); (11173,11230); (-778,11231); (11196,11194); (11235,11195); (11131,11234); (11238,11235); (11195,11194); (11239,11236); (11240,11238); (11131,11239); (11242,11240); (11243,11241); (11244,11242); (11148,11243); (11246,11244); (11247,11245); (11248,11246); (11135,11247); (11250,11248); (11251,11249); (11252,11250); (11132,11251); (11254,11252); (11255,11253); (11256,11254); (11184,11255); (11258,11256); (11259,11257); (11260,11258); (11202,11259); (-779,11260); (11269,11291); (11264,11228); (11160,11263); (11266,11264); (11267,11265); (11268,11266); (11160,11267); (11281,11262); (11271,11268); (11272,11270); (11273,11271); (11173,11272); (11275,11273); (11276,11274); (11278,11275); (-760,11019); (11220,11276); (-780,11278); (11229,11225); (11185,11269); (11283,11281); (11284,11282); (11285,11283); (11172,11284); (11288,11285); (11228,11225); (11289,11286); (11290,11288); (11176,11289); (11262,11225); (11293,11290); (11294,11292); (11295,11293); (11237,11294); (-781,11295); (11206,11170); (11195,11227); (11300,11298); (11302,11299); (11205,11170); (11303,11300); (11245,11302); (-782,11303); (11167,11165); (11307,11166); (11206,11306); (11309,11307); (11310,11308); (11311,11309); (11253,11310); (-783,11311); (11315,11320); (11223,11170); (11317,11313); (-765,11059); (11217,11315); (11321,11317); (11166,11165); (11313,11165); (11322,11318); (11323,11321); (11224,11322); (11325,11323); (11326,11324); (11327,11325); (11269,11326); (-784,11327); (-775,11187); (11223,11226); (11332,11330); (11333,11331); (11334,11332); (11230,11333); (11336,11334); (11337,11335); (11338,11336); (11238,11337); (11340,11338); (11341,11339); (11343,11340); (-767,11085); (11229,11341); (11345,11343); (11346,11344); (11347,11345); (11289,11346); (-785,11347); (11351,11917); (11390,11474); (11353,11349); (11356,11219); (11608,11351); (11687,11711); (11357,11707); (11245,11352); (11358,11355); (11240,11357); (11360,11356); (11363,11359); (11362,11358); (11647,11361); (11364,11360); (11264,11363); (11366,11364); (11368,11365); (11192,11187); (11369,11366); (11311,11368); (-787,11369); (11372,11460); (11373,11371); (11269,11372); (11375,11373); (11376,11374); (11377,11375); (11268,11376); (11379,11377); (11380,11378); (11381,11379); (11324,11380); (11188,11187); (-788,11381); (11385,11440); (11386,11384); (11282,11385); (11388,11386); (11389,11387); (11391,11388); (11393,11350); (11291,11389); (11394,11391); (11476,11390); (11395,11392); (11396,11394); (11338,11395); (-789,11396); (11399,11469); (11400,11398)];
  [(11301,11399); (11403,11400); (11442,11584); (11404,11401); (11405,11403); (11295,11404); (11407,11405); (11408,11406); (11409,11407); (11294,11408); (11411,11409); (11412,11410); (11413,11411); (11355,11412); (-790,11413); (11420,11864); (11418,11575); (-786,11211); (11419,11416); (11324,11418); (11443,11415); (11422,11419); (11423,11421); (11424,11422); (11317,11423); (11426,11424); (11427,11425); (11428,11426); (11370,11427); (-793,11428); (11431,11577); (11432,11430); (11381,11431); (11485,11495); (11435,11484); (11436,11434); (11336,11435); (11438,11436); (11439,11437); (11441,11438); (11384,11381); (11333,11439); (11444,11402); (11346,11420); (11439,11442); (11446,11443); (11448,11445); (11450,11441); (11449,11446); (11334,11448); (11451,11447); (11452,11450); (11338,11451); (11454,11452); (11458,11453); (11456,11449); (11644,11455); (11212,11211); (11459,11454); (11402,11458); (11371,11211); (-794,11459); (-791,11183); (11464,11189); (11398,11463); (11502,11512); (11467,11501); (11468,11466); (11356,11467); (11398,11211); (11471,11468); (11472,11470); (11473,11471); (11378,11472); (11350,11211); (11476,11473); (11477,11475); (11478,11476); (11371,11477); (11480,11478); (11481,11479); (11482,11480); (11424,11481); (-795,11482); (11434,11432); (11486,11433); (11388,11485); (11488,11486); (11489,11487); (11490,11488); (11394,11489); (11492,11490); (11493,11491); (11494,11492); (11388,11493); (11433,11432); (11497,11494); (11498,11496); (11499,11497); (11441,11498); (-796,11499); (11466,11464); (11503,11465); (11390,11502); (11189,11183); (11506,11503); (11507,11505); (11508,11506); (11408,11507); (11510,11508); (11511,11509); (11513,11510); (11465,11464); (11415,11511); (11515,11513); (11516,11514); (11517,11515); (11402,11516); (11519,11517); (11520,11518); (11521,11519); (11417,11520); (11523,11521); (11524,11522); (11525,11523); (11415,11524); (11527,11525); (11528,11526); (11529,11527); (11420,11528); (11531,11529); (11532,11530); (11533,11531); (11475,11532); (-797,11533); (-792,11393); (11537,11444); (11538,11536); (11539,11537); (11426,11538); (11541,11539); (11542,11540); (11543,11541); (11440,11542); (11545,11543); (11546,11544); (11547,11545); (11441,11546); (11549,11547); (11550,11548); (11551,11549); (11493,11550); (-798,11551); (11554,11588); (11555,11553); (11442,11554); (11557,11555); (11558,11556); (11559,11557); (11449,11558); (11561,11559); (11562,11560); (11563,11561); (11464,11562); (11565,11563); (11566,11564); (11567,11565); (11509,11566); (-799,11567); (11180,11177); (11572,11179); (11179,11177); (11468,11570); (11574,11572); (11576,11573); (11416,11393); (11578,11574); (11430,11393); (11464,11576); (11580,11578); (11581,11579); (11582,11580); (11478,11581); (11585,11582); (11402,11393); (11586,11583); (11587,11585); (11491,11586); (11553,11393); (11590,11587); (11591,11589); (11592,11590); (11485,11591); (11594,11592); (11595,11593); (11596,11594); (11496,11595); (11598,11596); (11599,11597); (11600,11598)];
  [(11555,11599); (11623,11639); (11603,11622); (11604,11602); (11494,11603); (11606,11604); (11607,11605); (11608,11606); (11500,11607); (11610,11608); (11611,11609); (11612,11610); (11504,11611); (11614,11612); (11615,11613); (11616,11614); (11520,11615); (11618,11616); (11619,11617); (11620,11618); (11562,11619); (-800,11620); (11602,11600); (11624,11601); (11520,11623); (11626,11624); (11627,11625); (11628,11626); (11520,11627); (11630,11628); (11631,11629); (11632,11630); (11532,11631); (11634,11632); (11635,11633); (11636,11634); (11522,11635); (11638,11636); (11640,11637); (11601,11600); (11641,11638); (11583,11640); (-801,11641); (11648,11900); (11645,11456); (11587,11644); (-802,11645); (11649,11362); (11653,11643); (11592,11647); (11652,11918); (-803,11649); (11654,11650); (11572,11648); (11541,11652); (11656,11654); (11658,11655); (11660,11896); (11659,11656); (11551,11658); (11661,11657); (11613,11660); (11663,11659); (11664,11662); (11736,11663); (11700,11725); (11667,11716); (11668,11666); (11558,11667); (11670,11668); (11672,11669); (11673,11653); (11675,11670); (11674,11671); (11676,11673); (11568,11672); (11563,11674); (11683,11676); (11679,11675); (11680,11678); (11681,11679); (11623,11680); (-804,11681); (11684,11677); (11685,11683); (11715,11684); (11690,11720); (11688,11354); (11578,11687); (11691,11688); (11709,11686); (11692,11689); (11693,11691); (11584,11692); (11695,11693); (11696,11694); (11697,11695); (11639,11696); (-805,11697); (11708,11729); (11701,11665); (11600,11700); (11703,11701); (11704,11702); (11705,11703); (11647,11704); (-806,11705); (11355,11353); (11717,11699); (11608,11690); (11712,11709); (11354,11353); (11713,11710); (11714,11712); (11656,11713); (-807,11714); (11666,11661); (11621,11708); (11719,11717); (11721,11718); (11686,11353); (11722,11719); (11664,11721); (-808,11722); (11726,11353); (11665,11661); (11727,11724); (11728,11726); (11633,11727); (11699,11661); (11731,11728); (11732,11730); (11733,11731); (11675,11732); (-809,11733); (11737,11919); (11638,11664); (11739,11735); (11742,11736); (11623,11737); (11741,11739); (11743,11740); (11745,11738); (11744,11741); (11646,11743); (11746,11742); (11692,11745); (11748,11744); (11749,11747); (11750,11748); (11638,11749); (-810,11746); (11754,11921); (11755,11750); (11756,11752); (11759,11753); (11676,11754); (11776,11781); (11760,11775); (11762,11755); (11761,11758); (11650,11760); (11647,11759); (11769,11762); (11765,11761); (11766,11764); (11767,11765); (11709,11766); (-814,11767); (11770,11763); (11771,11769); (11713,11770); (-811,11771); (11778,11901); (-813,11685); (11758,11756); (11777,11757); (11669,11776); (11783,11773); (11787,11777); (11782,11922); (11757,11756); (11784,11780); (11681,11778); (11760,11782); (11838,11865); (11788,11783); (11790,11779); (11789,11786); (11792,11788); (11791,11787); (11761,11790); (11685,11789); (11794,11792); (11795,11793); (11796,11794); (11698,11795); (11821,11830); (11801,11796); (11800,11861)];
  [(11802,11799); (11803,11798); (11694,11800); (11804,11801); (11705,11803); (11808,11802); (11807,11804); (11813,11806); (11809,11805); (11810,11808); (11695,11809); (11812,11810); (11816,11811); (11814,11807); (11756,11813); (-822,11814); (11817,11812); (11759,11816); (-816,11817); (-821,11784); (-815,11791); (11822,11797); (11764,11821); (-817,11822); (11825,11876); (11826,11824); (11768,11825); (-818,11826); (11829,11886); (11831,11828); (11797,11791); (11773,11829); (-819,11831); (11834,11879); (11835,11833); (11777,11834); (-820,11835); (11839,11923); (11840,11785); (11841,11837); (11736,11838); (11820,11839); (11928,11929); (11845,11927); (11847,11840); (11846,11843); (11750,11845); (11848,11844); (11857,11847); (11850,11846); (11851,11849); (11852,11850); (11732,11851); (11855,11852); (10971,10119); (11856,11853); (11898,11855); (11758,11848); (11860,11857); (11034,10119); (11862,11858); (11799,11791); (11863,11860); (11765,11862); (11415,10119); (11785,11784); (11867,11863); (11868,11866); (11869,11867); (11811,11868); (-823,11869); (11872,11902); (11873,11871); (11797,11872); (11910,11906); (11877,11904); (11824,11791); (11878,11875); (11781,11877); (11833,11791); (11881,11878); (11883,11880); (10121,10119); (11889,11881); (10120,10119); (10924,10119); (11828,11826); (10986,10119); (11043,10119); (11769,11883); (11891,11889); (11892,11890); (11893,11891); (11838,11892); (11184,10119); (11149,10119); (11657,10119); (-824,11893); (11840,11856); (-825,11898); (11643,10119); (11773,10119); (11871,10119); (10888,10885); (11875,11873); (10887,10885); (11874,11873); (10919,10885); (10996,10885); (11025,10885); (11913,11874); (11069,10885); (11090,10885); (11806,11910); (11920,11913); (11161,10885); (11207,10885); (11349,10885); (11650,10885); (11735,10885); (11924,11914); (11752,10885); (11780,10885); (11837,10885); (11925,11920); (11867,11924); (-826,11925); (11843,11841); (11930,11842); (11842,11841); (11823,11928); (11932,11930); (11933,11931); (11934,11932); (11876,11933); (-828,11934); (11937,32813); (11938,11936); (12290,11937); (12181,12389); (11941,12387); (11942,11940); (11831,11941); (11944,11942); (11945,11943); (11968,11944); (11888,10937); (-830,11946); (11949,32844); (11950,11948); (12028,11949); (11997,12130); (11953,12127); (11954,11952); (11877,11953); (11983,11998); (11957,11982); (11958,11956); (11845,11957); (11960,11958); (11961,11959); (11962,11960); (11864,11961); (11964,11962); (11965,11963); (11966,11964); (11908,11965); (-831,11966); (11857,11945); (11970,11968); (11971,11969); (11972,11970); (11876,11971); (11974,11972); (11975,11973); (11976,11974); (11918,11975); (-845,11976); (10905,10903); (11980,10904); (11922,11979); (-832,11980); (11956,11954); (11984,11955); (11926,11983); (-833,11984); (11989,12122); (11988,10900); (11876,11987); (12024,11986); (11991,11988); (11992,11990); (11993,11991); (11936,11992); (10904,10903); (-834,11993); (11999,12139); (12000,11951); (11955,11954); (12006,11996)];
  [(11887,11997); (12002,12000); (12003,12001); (12004,12002); (11946,12003); (-835,12004); (11926,11999); (12008,12137); (12009,12007); (11913,12008); (12011,12009); (12012,12010); (12013,12011); (11898,12012); (12015,12013); (12016,12014); (12017,12015); (11914,12016); (12019,12017); (12020,12018); (12021,12019); (11963,12020); (-836,12021); (12026,12126); (11915,11989); (-812,11763); (12035,12023); (12028,12024); (12029,12027); (12030,12028); (11929,12029); (12032,12030); (12033,12031); (12034,12032); (11977,12033); (11977,12026); (-837,12034); (12040,12143); (12039,12006); (12041,12038); (12047,12037); (12042,12039); (11941,12041); (12044,12042); (12045,12043); (12046,12044); (11989,12045); (11994,12040); (-838,12046); (12094,12095); (12053,12128); (12075,12078); (12054,12076); (12062,12050); (12055,12052); (11942,12054); (12057,12055); (12058,12056); (12059,12057); (12001,12058); (-839,12059); (12064,12145); (11959,12053); (12065,12093); (12071,12061); (12067,12063); (12111,12062); (11954,12065); (12069,12067); (12070,12068); (12072,12069); (11966,12064); (12015,12070); (12077,12071); (-840,12072); (12079,12051); (12052,12035); (12125,12073); (12051,12035); (11966,12075); (12081,12079); (12082,12080); (12083,12081); (11985,12082); (12085,12083); (12086,12084); (12087,12085); (11967,12086); (12089,12087); (12090,12088); (12091,12089); (12033,12090); (-841,12091); (12063,12047); (12096,12049); (12049,12047); (11983,12094); (12098,12096); (12099,12097); (12100,12098); (12002,12099); (12102,12100); (12103,12101); (12104,12102); (11984,12103); (12106,12104); (12107,12105); (12108,12106); (12050,12107); (-842,12108); (10901,10899); (12112,12066); (12114,12111); (10900,10899); (12016,12112); (12116,12114); (12117,12115); (12118,12116); (11998,12117); (12120,12118); (12121,12119); (12123,12120); (11986,10899); (12065,12121); (-843,12123); (12129,12077); (12023,10899); (11952,11950); (12050,10899); (12032,12125); (11951,11950); (12132,12129); (12133,12131); (12134,12132); (12014,12133); (12136,12134); (12138,12135); (12007,11950); (12140,12136); (11996,11950); (12082,12138); (-844,12140); (12144,32845); (12037,11950); (12146,12142); (12061,11950); (12273,12144); (12214,12372); (12149,12370); (12150,12148); (12039,12149); (12152,12150); (12153,12151); (12154,12152); (12043,12153); (12156,12154); (12168,12155); (12158,32846); (12159,12157); (15901,12158); (12423,15998); (12162,15966); (12163,12161); (12610,12162); (12622,12724); (12166,12707); (12167,12165); (12075,12166); (12169,12156); (12073,12168); (12171,12169); (12172,12170); (12173,12171); (12115,12172); (-846,12173); (12177,12233); (-827,11914); (12178,12175); (12120,12177); (-847,12178); (12182,12392); (12183,11939); (12244,12180); (12134,12181); (12236,12255); (12186,12235); (12187,12185); (12100,12186); (-829,11931); (12190,12167); (12191,12189); (12192,12190); (12079,12191); (12194,12192); (12195,12193); (12196,12194); (12138,12195); (-863,12196); (12199,32814); (12381,12198)];
  [(12201,12187); (12202,12200); (12203,12201); (12099,12202); (12205,12203); (12206,12204); (12207,12205); (12100,12206); (12209,12207); (12210,12208); (12211,12209); (12153,12210); (-848,12211); (12215,12375); (12216,12147); (12253,12213); (12138,12214); (12240,12259); (12219,12239); (12220,12218); (12121,12219); (12222,12220); (12223,12221); (12224,12222); (12120,12223); (12226,12224); (12227,12225); (12228,12226); (12121,12227); (12230,12228); (12231,12229); (12232,12230); (12175,12231); (12175,12173); (-849,12232); (12185,12183); (12237,12184); (12179,12236); (-850,12237); (12218,12216); (12241,12217); (12183,12240); (-851,12241); (12245,12362); (12132,12182); (12248,12243); (12247,12244); (12249,12246); (12186,12245); (12250,12247); (12192,12249); (-852,12250); (12254,12376); (12142,12215); (12257,12252); (12184,12183); (12258,12253); (12150,12254); (12260,12256); (12217,12216); (12261,12258); (12203,12260); (-853,12261); (12265,12377); (12266,12257); (12268,12263); (12267,12264); (12270,12266); (12170,12265); (12295,12268); (12170,12267); (12272,12270); (12273,12271); (12274,12272); (12174,12273); (12276,12274); (12277,12275); (12278,12276); (12169,12277); (12280,12278); (12281,12279); (12282,12280); (12224,12281); (-854,12282); (12307,12364); (12286,12248); (12287,12285); (12288,12286); (12168,12287); (12290,12288); (12291,12289); (12292,12290); (12234,12291); (-855,12292); (12296,12379); (12297,12269); (12299,12294); (12298,12295); (12181,12297); (12201,12296); (12301,12299); (12321,12300); (12303,12298); (12304,12302); (12305,12303); (12247,12304); (-856,12305); (12309,12284); (12310,12405); (12212,12307); (12333,12308); (12312,12309); (12313,12311); (12314,12312); (12194,12313); (12316,12314); (12317,12315); (12318,12316); (12260,12317); (-857,12318); (12322,12384); (12323,12301); (12325,12320); (12203,12321); (12328,12323); (12214,12322); (12327,12325); (12329,12326); (12330,12324); (12350,12327); (12331,12328); (12273,12330); (-858,12331); (12236,12310); (12336,12401); (12338,12333); (12337,12334); (12227,12336); (12347,12335); (12340,12337); (12341,12339); (12342,12340); (12241,12341); (12344,12342); (12345,12343); (12346,12344); (12289,12345); (12361,12338); (-859,12346); (12351,12388); (12250,12329); (12354,12349); (12353,12350); (12357,12352); (12256,12351); (12356,12354); (12358,12355); (12359,12353); (12363,12356); (12301,12357); (-860,12359); (12251,12347); (12243,11938); (12257,12358); (12284,11938); (12366,12361); (12367,12365); (12368,12366); (12310,12367); (-861,12368); (12148,12146); (12373,12363); (12147,12146); (12374,12371); (12378,12373); (12213,12146); (12252,12146); (12263,12146); (12321,12374); (12294,12146); (-862,12378); (15741,12199); (12854,15840); (12385,15838); (12320,12146); (12386,12383); (12511,12385); (11940,11938); (12349,12146); (11939,11938); (12498,12620); (12393,12610); (12180,11938); (12394,12391); (12278,12393); (12396,12394); (12397,12395); (12398,12396); (12283,12397); (12400,12398)];
  [(12402,12399); (12334,11938); (12403,12400); (12303,12402); (12418,12403); (12308,11938); (12407,32847); (12408,12406); (16565,12407); (16195,16664); (12411,16662); (12412,12410); (16074,12411); (12442,16182); (12415,16173); (12416,12414); (12303,12415); (16057,12416); (12419,12404); (12420,12418); (12362,12419); (-864,12420); (12454,15967); (12424,12160); (12607,12423); (12456,12708); (12427,12706); (12428,12426); (12312,12427); (12430,12428); (12431,12429); (12432,12430); (12317,12431); (12434,12432); (12435,12433); (12436,12434); (12336,12435); (12450,12436); (12447,16186); (12440,16057); (12382,12439); (-1077,12440); (12443,12413); (15970,12442); (16072,16086); (12446,16071); (12448,12445); (16089,12438); (12390,12446); (-1079,12448); (12451,12437); (12452,12450); (12394,12451); (-865,12452); (12757,12422); (12457,12710); (12458,12425); (12481,12455); (12350,12456); (12460,12458); (12461,12459); (12462,12460); (12351,12461); (12464,12462); (12465,12463); (12466,12464); (12351,12465); (12468,12466); (12469,12467); (12470,12468); (12350,12469); (12472,12470); (12473,12471); (12474,12472); (12357,12473); (12476,12474); (12477,12475); (12478,12476); (12420,12477); (-866,12478); (12482,12716); (12369,12457); (12484,12480); (12485,12481); (12417,12482); (12486,12483); (12487,12485); (12391,12486); (12489,12487); (12490,12488); (12491,12489); (12382,12490); (12493,12491); (12494,12492); (12495,12493); (12437,12494); (-867,12495); (12507,12621); (12499,12390); (12402,12498); (12501,12499); (12502,12500); (12503,12501); (12404,12502); (12505,12503); (12506,12504); (12508,12505); (12532,12497); (12412,12506); (12510,12508); (12511,12509); (12512,12510); (12454,12511); (-868,12512); (12516,12717); (12517,12484); (12518,12514); (12519,12515); (12421,12516); (12520,12517); (12421,12519); (12522,12520); (12523,12521); (12525,12522); (12538,12518); (12429,12523); (12527,12525); (12528,12526); (12529,12527); (12471,12528); (-869,12529); (12541,12623); (12430,12507); (12534,12532); (12535,12533); (12536,12534); (12478,12535); (-870,12536); (12539,12524); (12540,12538); (12485,12539); (12542,12531); (12446,12541); (12545,12719); (-871,12540); (12547,12543); (12548,12585); (12494,12545); (12549,12546); (12491,12548); (-872,12549); (12552,12593); (12555,12551); (-874,12547); (12562,12542); (12455,12552); (12557,12555); (12558,12556); (12559,12557); (12501,12558); (-873,12559); (12563,12720); (12564,12554); (12565,12561); (12567,12562); (12454,12563); (12576,12625); (12471,12564); (12569,12567); (12570,12568); (12573,12569); (12572,12565); (12574,12571); (12476,12570); (12602,12572); (12578,12573); (12577,12566); (12465,12576); (12580,12575); (12613,12577); (12581,12578); (12481,12580); (12583,12581); (12584,12582); (12586,12583); (12546,12540); (12471,12584); (12588,12586); (12589,12587); (12590,12588); (12477,12589); (12592,12590); (12594,12591); (12551,12540); (12595,12592); (12494,12594); (12597,12595); (12598,12596); (12599,12597); (12541,12598)];
  [(-875,12599); (12603,12721); (12493,12574); (12605,12601); (12606,12602); (12497,12603); (12607,12604); (12608,12606); (12550,12607); (-876,12608); (12391,12386); (12612,12605); (12614,12611); (12616,12579); (12615,12612); (12632,12614); (12617,12613); (12559,12616); (-878,12617); (12636,12726); (12390,12386); (12497,12386); (12624,12164); (12531,12386); (12512,12622); (12566,12386); (12627,12624); (12628,12626); (12629,12627); (12571,12628); (-879,12629); (12633,12723); (12671,12747); (12635,12631); (12637,12730); (12669,12633); (12642,12619); (12638,12634); (12580,12637); (-881,12638); (12643,12682); (12729,12766); (12547,12636); (12647,12640); (12645,12642); (12646,12644); (12709,12645); (12533,12643); (12649,12647); (12650,12648); (12651,12649); (12593,12650); (-882,12651); (12654,12734); (12655,12653); (12541,12654); (12657,12655); (12658,12656); (12659,12657); (12601,12658); (-883,12659); (12662,12736); (12663,12661); (12557,12662); (12665,12663); (12666,12664); (12667,12665); (12609,12666); (-884,12667); (12670,12740); (12672,12669); (12675,12632); (12561,12670); (12674,12672); (12676,12673); (12572,12671); (12678,12674); (12681,12675); (12620,12676); (-885,12678); (12683,12744); (12685,12677); (12640,12638); (12684,12680); (12578,12683); (12692,12681); (12687,12684); (12688,12686); (12689,12687); (12631,12688); (-886,12689); (-880,12615); (12584,12685); (12694,12692); (12695,12693); (12696,12694); (12638,12695); (-887,12696); (12699,12748); (12700,12698); (12593,12699); (12702,12700); (12703,12701); (12704,12702); (12646,12703); (-888,12704); (12426,12424); (12165,12163); (12425,12424); (12606,12646); (12455,12424); (12712,12709); (12713,12711); (12714,12712); (12607,12713); (12718,12714); (12480,12424); (12514,12424); (12722,12715); (12543,12424); (12561,12424); (12601,12424); (12725,12718); (12631,12424); (12164,12163); (12668,12722); (12619,12163); (-890,12725); (-889,12635); (12731,12641); (12634,12615); (12627,12729); (12733,12731); (12735,12732); (12653,12615); (12737,12733); (12661,12615); (12630,12735); (12739,12737); (12741,12738); (12669,12615); (12742,12739); (12684,12741); (-891,12742); (12680,12615); (12746,12770); (12749,12745); (12632,12615); (12698,12615); (12691,12746); (-892,12749); (12752,12806); (12753,12751); (12695,12752); (-893,12753); (12756,16000); (12787,12755); (12661,12454); (12759,12757); (12760,12758); (12761,12759); (12648,12760); (12763,12761); (12764,12762); (12765,12763); (12653,12764); (12641,12635); (12768,12765); (12769,12767); (12771,12768); (12745,12635); (12713,12769); (-894,12771); (12774,15999); (12775,12773); (12694,12774); (12793,12792); (12778,12791); (12779,12777); (12666,12778); (12781,12779); (12782,12780); (12783,12781); (12670,12782); (12785,12783); (12786,12784); (12789,12785); (12843,12756); (12915,12944); (12731,12786); (-895,12789); (12777,12775); (12776,12775); (12794,12776); (12681,12793); (12796,12794); (12797,12795); (12798,12796); (12692,12797); (12800,12798)];
  [(12801,12799); (12802,12800); (12744,12801); (-896,12802); (12805,12808); (12807,12804); (12751,12749); (12730,12805); (12804,12775); (12828,12837); (12811,12827); (12812,12810); (12714,12811); (12814,12812); (12815,12813); (12816,12814); (12716,12815); (12818,12816); (12819,12817); (12820,12818); (12762,12819); (-897,12820); (12824,12823); (12822,12816); (12825,12822); (12767,12824); (-898,12825); (12810,12807); (12829,12809); (12729,12828); (12831,12829); (12832,12830); (12833,12831); (12775,12832); (-899,12833); (12836,12844); (12838,12835); (12809,12807); (12731,12836); (12840,12838); (12841,12839); (12842,12840); (12743,12841); (12845,12842); (12835,12829); (12846,12843); (12847,12845); (12789,12846); (-900,12847); (12850,12860); (12851,12849); (12793,12850); (-901,12851); (12855,15842); (12856,12382); (13043,12853); (12851,12854); (12895,12952); (12859,12948); (12861,12858); (12849,12842); (12749,12859); (-877,12604); (12864,12861); (12865,12863); (12866,12864); (12756,12865); (12868,12866); (12869,12867); (12870,12868); (12761,12869); (12872,12870); (12873,12871); (12874,12872); (12816,12873); (-902,12874); (12877,16001); (12908,12876); (12879,12940); (12880,12878); (12767,12879); (12882,12880); (12883,12881); (12884,12882); (12774,12883); (12886,12884); (12887,12885); (12888,12886); (12779,12887); (12890,12888); (12891,12889); (12892,12890); (12834,12891); (-903,12892); (12898,12972); (12896,12857); (12797,12895); (12899,12896); (12949,12894); (12900,12897); (12901,12899); (12797,12900); (12903,12901); (12904,12902); (12905,12903); (12798,12904); (12907,12905); (12911,12906); (12932,12877); (12968,13045); (12958,13031); (12912,12907); (12854,12911); (-904,12912); (12918,12960); (12916,12788); (12831,12915); (12932,12936); (12941,12914); (12920,12931); (12921,12919); (12817,12920); (12923,12921); (12924,12922); (12925,12923); (12818,12924); (12927,12925); (12928,12926); (12929,12927); (12871,12928); (-905,12929); (12919,12916); (12933,12917); (12826,12932); (12935,12933); (12937,12934); (12917,12916); (12938,12935); (12880,12937); (-906,12938); (12878,12787); (12844,12918); (12943,12941); (12945,12942); (12788,12787); (12946,12943); (12888,12945); (-907,12946); (12858,12856); (12891,12898); (-908,12949); (12953,12964); (12857,12856); (12954,12951); (12896,12953); (-909,12954); (12957,15970); (12988,12956); (12959,12910); (12864,12958); (12914,12787); (12962,12959); (12963,12961); (12965,12962); (12951,12787); (12907,12963); (-910,12965); (12981,13046); (12969,12909); (12853,12968); (12971,12969); (12973,12970); (12894,12856); (12974,12971); (12864,12973); (12976,12974); (12977,12975); (12978,12976); (12920,12977); (-911,12978); (12982,13034); (12986,12967); (12983,12980); (12925,12982); (-912,12983); (12999,13047); (12910,12981); (13011,13027); (14023,12957); (14083,14126); (12991,16002); (13040,12990); (12993,13010); (12994,12992); (12891,12993); (12996,12994); (12997,12995); (12998,12996); (12904,12997); (13000,12985)];
  [(12928,12999); (13002,12998); (13003,13001); (13004,13002); (12891,13003); (13006,13004); (13007,13005); (13008,13006); (12950,13007); (-913,13008); (12992,12986); (13012,12987); (12898,13011); (13014,13012); (13015,13013); (13016,13014); (12913,13015); (13018,13016); (13019,13017); (13020,13018); (12924,13019); (13022,13020); (13023,13021); (13024,13022); (12911,13023); (13026,13024); (13028,13025); (12987,12986); (13029,13026); (12971,13028); (-914,13029); (12910,12908); (13033,13000); (13035,13032); (12980,12978); (13036,13033); (12978,13035); (-915,13036); (13039,16003); (13042,13038); (14027,12991); (13150,14129); (14425,13039); (14153,12855); (14256,14268); (12909,12908); (12967,12908); (12985,12908); (13050,15843); (13051,14255); (13052,13048); (13053,13049); (14408,13050); (12938,13051); (13055,13053); (13056,13054); (13057,13055); (13980,13056); (13130,14077); (13060,14045); (13061,13059); (13002,13060); (13113,13116); (13064,13112); (13065,13063); (12963,13064); (13067,13065); (13068,13066); (13069,13067); (12967,13068); (14499,14533); (13072,14530); (13073,13071); (12959,13072); (14485,13073); (13076,13069); (13077,13075); (13078,13076); (12978,13077); (13080,13078); (13081,13079); (13082,13080); (13017,13081); (13084,13082); (13085,13083); (13086,13084); (12973,13085); (13088,13086); (13089,13087); (13090,13088); (12994,13089); (13092,13090); (13093,13091); (13094,13092); (12996,13093); (13096,13094); (13097,13095); (13098,13096); (12992,13097); (13100,13098); (13101,13099); (13102,13100); (13002,13101); (13104,13102); (13105,13103); (13106,13104); (12991,13105); (13108,13106); (13109,13107); (13110,13108); (13052,13109); (-918,13110); (13063,13061); (13114,13062); (13001,13113); (13117,13114); (13062,13061); (13118,13115); (13119,13117); (13009,13118); (13121,13119); (13122,13120); (13123,13121); (13005,13122); (13125,13123); (13126,13124); (13127,13125); (13119,13126); (13179,13185); (13161,14047); (13131,13058); (13018,13130); (13133,13131); (13134,13132); (13135,13133); (13022,13134); (13137,13135); (13138,13136); (13139,13137); (13029,13138); (13141,13139); (13142,13140); (13143,13141); (13025,13142); (13145,13143); (13146,13144); (13147,13145); (13089,13146); (-920,13147); (13192,14130); (13151,13041); (13036,13150); (13153,13151); (13154,13152); (13155,13153); (13720,13154); (13436,13824); (13158,13817); (13159,13157); (13046,13158); (13162,13159); (13251,13129); (13163,13160); (13164,13162); (13051,13163); (13166,13164); (13167,13165); (13168,13166); (13058,13167); (13170,13168); (13171,13169); (13172,13170); (13054,13171); (13174,13172); (13175,13173); (13176,13174); (13118,13175); (-921,13176); (-919,13127); (13180,13128); (13084,13179); (13182,13180); (13183,13181); (13184,13182); (13072,13183); (13128,13127); (13187,13184); (13188,13186); (13189,13187); (13131,13188); (-922,13189); (13193,13201); (14087,13149); (13194,13191); (13090,13193); (13196,13194); (13197,13195); (13198,13196); (13096,13197); (13200,13198)];
  [(13202,13199); (13191,13127); (13203,13200); (13100,13202); (13205,13203); (13206,13204); (13207,13205); (13092,13206); (13209,13207); (13210,13208); (13211,13209); (13147,13210); (13213,13211); (13214,13212); (13215,13213); (13102,13214); (13217,13215); (13218,13216); (13219,13217); (13106,13218); (13221,13219); (13222,13220); (13223,13221); (13113,13222); (13225,13223); (13226,13224); (13227,13225); (13109,13226); (13229,13227); (13230,13228); (13231,13229); (13173,13230); (-923,13231); (13235,13234); (13233,13176); (13236,13233); (13140,13235); (13238,13236); (13239,13237); (13240,13238); (13136,13239); (13242,13240); (13243,13241); (13244,13242); (13137,13243); (13246,13244); (13247,13245); (13248,13246); (13190,13247); (-924,13248); (13252,14048); (13152,13161); (13279,13250); (13254,13251); (13255,13253); (13256,13254); (13152,13255); (13258,13256); (13259,13257); (13260,13258); (13153,13259); (13262,13260); (13263,13261); (13264,13262); (13160,13263); (13266,13264); (13267,13265); (13268,13266); (13159,13267); (13270,13268); (13271,13269); (13272,13270); (13170,13271); (13274,13272); (13275,13273); (13276,13274); (13218,13275); (-925,13276); (13280,14050); (13171,13252); (13281,13278); (13202,13280); (13283,13279); (13284,13282); (13285,13283); (13215,13284); (13333,13334); (13288,13332); (13289,13287); (13192,13288); (13291,13289); (13292,13290); (13293,13291); (13186,13292); (13295,13293); (13296,13294); (13297,13295); (13197,13296); (13299,13297); (13300,13298); (13301,13299); (13236,13300); (13303,13301); (13304,13302); (13305,13303); (13192,13304); (13307,13305); (13308,13306); (13309,13307); (13214,13308); (13416,13281); (13312,13309); (13313,13311); (13314,13312); (13216,13313); (13316,13314); (13317,13315); (13318,13316); (13212,13317); (13320,13318); (13321,13319); (13322,13320); (13222,13321); (13324,13322); (13325,13323); (13326,13324); (13211,13325); (13328,13326); (13329,13327); (13330,13328); (13272,13329); (-926,13330); (13287,13285); (13335,13286); (13286,13285); (13226,13333); (13337,13335); (13338,13336); (13339,13337); (13293,13338); (13378,13379); (13342,13377); (13343,13341); (13243,13342); (13345,13343); (13346,13344); (13347,13345); (13247,13346); (13349,13347); (13350,13348); (13351,13349); (13266,13350); (13353,13351); (13354,13352); (13355,13353); (13255,13354); (13357,13355); (13358,13356); (13359,13357); (13261,13358); (13361,13359); (13362,13360); (13363,13361); (13248,13362); (13365,13363); (13366,13364); (13367,13365); (13257,13366); (13369,13367); (13370,13368); (13371,13369); (13258,13370); (13373,13371); (13374,13372); (13375,13373); (13317,13374); (-927,13375); (13341,13339); (13380,13340); (13340,13339); (13280,13378); (13382,13380); (13383,13381); (13384,13382); (13286,13383); (13386,13384); (13387,13385); (13388,13386); (13273,13387); (13390,13388); (13391,13389); (13392,13390); (13282,13391); (13394,13392); (13395,13393); (13396,13394); (13283,13395); (13398,13396); (13399,13397); (13400,13398)];
  [(13342,13399); (-928,13400); (13403,13408); (13404,13402); (13308,13403); (13406,13404); (13407,13405); (13409,13406); (13402,13400); (13296,13407); (13411,13409); (13412,13410); (13413,13411); (13355,13412); (-929,13413); (13417,14062); (13419,13310); (13418,13415); (13315,13417); (13421,13416); (13447,13418); (13311,13419); (13423,13421); (13424,13422); (13425,13423); (13315,13424); (13427,13425); (13428,13426); (13429,13427); (13316,13428); (13431,13429); (13432,13430); (13433,13431); (13375,13432); (-930,13433); (13442,13828); (13437,13156); (13341,13436); (13439,13437); (13440,13438); (13441,13439); (13329,13440); (13491,13435); (13444,13441); (13445,13443); (13446,13444); (13336,13445); (13532,13420); (13449,13446); (13450,13448); (13451,13449); (13341,13450); (13453,13451); (13454,13452); (13455,13453); (13345,13454); (13457,13455); (13458,13456); (13459,13457); (13350,13458); (13461,13459); (13462,13460); (13463,13461); (13364,13462); (13465,13463); (13466,13464); (13467,13465); (13357,13466); (13469,13467); (13470,13468); (13471,13469); (13353,13470); (13473,13471); (13474,13472); (13475,13473); (13366,13474); (13477,13475); (13478,13476); (13479,13477); (13421,13478); (-931,13479); (13482,13463); (13483,13481); (13484,13482); (13373,13483); (13486,13484); (13487,13485); (13488,13486); (13430,13487); (-932,13488); (13497,13834); (13391,13442); (13493,13491); (13494,13492); (13495,13493); (13394,13494); (13498,13495); (13501,13490); (13499,13496); (13500,13498); (13386,13499); (13509,13497); (13503,13500); (13504,13502); (13505,13503); (13409,13504); (13507,13505); (13508,13506); (13509,13507); (13396,13508); (13511,13509); (13512,13510); (13513,13511); (13400,13512); (13515,13513); (13516,13514); (13517,13515); (13407,13516); (13519,13517); (13520,13518); (13521,13519); (13403,13520); (13523,13521); (13524,13522); (13525,13523); (13411,13524); (13527,13525); (13528,13526); (13529,13527); (13471,13528); (-933,13529); (13533,14064); (13535,13447); (13534,13531); (13757,13533); (13434,13532); (13859,13871); (13538,13535); (13539,13537); (13540,13538); (13437,13539); (13542,13540); (13543,13541); (13544,13542); (13429,13543); (13546,13544); (13547,13545); (13549,13546); (13563,13858); (13668,13547); (13734,13754); (13552,13733); (13553,13551); (13440,13552); (13555,13553); (13556,13554); (13557,13555); (13444,13556); (13559,13557); (13560,13558); (13561,13559); (13451,13560); (13564,13561); (13580,13548); (13565,13562); (13566,13564); (13448,13565); (13568,13566); (13569,13567); (13570,13568); (13512,13569); (-934,13570); (13573,14094); (13574,13572); (13470,13573); (13576,13574); (13577,13575); (13578,13576); (13476,13577); (13581,13578); (13658,13563); (13582,13579); (13583,13581); (13480,13582); (13585,13583); (13586,13584); (13587,13585); (13472,13586); (13589,13587); (13590,13588); (13591,13589); (13495,13590); (13593,13591); (13594,13592); (13595,13593); (13482,13594); (13597,13595); (13598,13596); (13599,13597); (13486,13598)];
  [(13601,13599); (13602,13600); (13603,13601); (13493,13602); (13605,13603); (13606,13604); (13607,13605); (13489,13606); (13609,13607); (13610,13608); (13611,13609); (13553,13610); (-935,13611); (13620,13836); (13615,13501); (13616,13614); (13617,13615); (13515,13616); (13619,13617); (13621,13618); (13624,13613); (13622,13619); (13519,13621); (13625,13622); (13526,13620); (13626,13623); (13627,13625); (13512,13626); (13629,13627); (13631,13628); (13818,13624); (13632,13629); (13595,13631); (13659,13699); (13635,13692); (13636,13634); (13523,13635); (13638,13636); (13639,13637); (13640,13638); (13527,13639); (13642,13640); (13643,13641); (13644,13642); (13534,13643); (13646,13644); (13647,13645); (13648,13646); (13530,13647); (13650,13648); (13651,13649); (13652,13650); (13594,13651); (-936,13652); (13655,13709); (13656,13654); (13598,13655); (-937,13656); (13665,13710); (13660,13633); (13564,13659); (13662,13660); (13663,13661); (13664,13662); (13552,13663); (13691,13658); (13667,13664); (13668,13666); (13669,13667); (13558,13668); (13671,13669); (13672,13670); (13673,13671); (13563,13672); (13675,13673); (13676,13674); (13677,13675); (13567,13676); (13679,13677); (13680,13678); (13681,13679); (13572,13680); (13683,13681); (13684,13682); (13685,13683); (13571,13684); (13687,13685); (13688,13686); (13689,13687); (13631,13688); (-938,13689); (13580,13665); (13634,13632); (13694,13691); (13695,13693); (13696,13694); (13580,13695); (13698,13696); (13700,13697); (13633,13632); (13701,13698); (13597,13700); (13703,13701); (13704,13702); (13705,13703); (13603,13704); (13707,13705); (13708,13706); (13711,13707); (13654,13652); (13658,13632); (13615,13708); (13713,13711); (13714,13712); (13715,13713); (13602,13714); (13717,13715); (13718,13716); (13719,13717); (13606,13718); (13721,13719); (13722,13720); (13723,13721); (13613,13722); (13725,13723); (13726,13724); (13727,13725); (13609,13726); (13729,13727); (13730,13728); (13731,13729); (13673,13730); (-939,13731); (13551,13549); (13735,13550); (13635,13734); (13737,13735); (13738,13736); (13739,13737); (13641,13738); (13741,13739); (13742,13740); (13743,13741); (13628,13742); (13745,13743); (13746,13744); (13747,13745); (13637,13746); (13749,13747); (13750,13748); (13751,13749); (13638,13750); (13753,13751); (13755,13752); (13550,13549); (13756,13753); (13698,13755); (-940,13756); (13760,14065); (13762,13580); (13761,13758); (13651,13760); (13764,13759); (13775,13761); (13765,13762); (13707,13764); (-941,13765); (13768,13772); (13769,13767); (13656,13768); (13771,13769); (13773,13770); (13767,13765); (13774,13771); (13662,13773); (13777,13763); (13778,13774); (13790,13775); (13779,13776); (13780,13778); (13670,13779); (13782,13780); (13783,13781); (13784,13782); (13666,13783); (13786,13784); (13787,13785); (13788,13786); (13730,13787); (-942,13788); (13939,13777); (13792,13793); (13794,13791); (13791,13765); (13694,13792); (13796,13794); (13797,13795); (13798,13796); (13700,13797); (13800,13798)];
  [(13801,13799); (13802,13800); (13687,13801); (13804,13802); (13805,13803); (13806,13804); (13697,13805); (13971,14023); (13809,13806); (13810,13808); (13811,13809); (13698,13810); (13813,13811); (13814,13812); (13815,13813); (13757,13814); (-943,13815); (13157,13155); (13819,13630); (13820,13818); (13707,13819); (13822,13820); (13823,13821); (13825,13822); (13156,13155); (13725,13823); (13827,13825); (13829,13826); (13435,13155); (13830,13827); (13730,13829); (13832,13830); (13833,13831); (13835,13832); (13490,13155); (13721,13833); (13613,13155); (13838,13835); (13839,13837); (13840,13838); (13736,13839); (13842,13840); (13843,13841); (13844,13842); (13736,13843); (13846,13844); (13847,13845); (13848,13846); (13748,13847); (13850,13848); (13851,13849); (13852,13850); (13738,13851); (13854,13852); (13855,13853); (13856,13854); (13798,13855); (-944,13856); (13548,13534); (13860,13536); (13756,13859); (13862,13860); (13863,13861); (13864,13862); (13768,13863); (13866,13864); (13867,13865); (13868,13866); (13759,13867); (13870,13868); (13872,13869); (13536,13534); (13873,13870); (13771,13872); (13875,13873); (13876,13874); (13877,13875); (13770,13876); (13879,13877); (13880,13878); (13881,13879); (13781,13880); (13883,13881); (13884,13882); (13885,13883); (13841,13884); (13893,13910); (13888,13907); (13889,13887); (13793,13888); (13891,13889); (13892,13890); (13894,13891); (13901,13886); (13781,13892); (13896,13894); (13897,13895); (13898,13896); (13840,13897); (-946,13898); (-945,13885); (13789,13893); (13903,13901); (13904,13902); (13905,13903); (13789,13904); (13908,13905); (13887,13885); (13909,13906); (13911,13908); (13886,13885); (13815,13909); (13913,13911); (13914,13912); (13915,13913); (13808,13914); (13917,13915); (13918,13916); (13919,13917); (13861,13918); (-947,13919); (13923,14066); (13925,14007); (13924,13921); (13825,13923); (13927,13922); (13938,13924); (13817,13925); (13929,13927); (13930,13928); (13931,13929); (13813,13930); (13933,13931); (13934,13932); (13935,13933); (13826,13934); (13937,13935); (13939,13936); (13940,13926); (13942,13937); (13941,13938); (13854,13940); (13857,13939); (13944,13942); (13945,13943); (13946,13944); (13846,13945); (13948,13946); (13949,13947); (13950,13948); (13852,13949); (13952,13950); (13954,13951); (13970,13941); (13955,13952); (13840,13954); (13957,13955); (13958,13956); (13959,13957); (13849,13958); (13961,13959); (13962,13960); (13963,13961); (13850,13962); (13965,13963); (13966,13964); (13967,13965); (13909,13966); (-948,13967); (13985,14025); (14046,13953); (13972,13807); (13872,13971); (13974,13972); (13975,13973); (13976,13974); (13876,13975); (13978,13976); (13979,13977); (13980,13978); (13895,13979); (13982,13980); (13983,13981); (13984,13982); (13885,13983); (14008,13969); (13987,13984); (13988,13986); (13989,13987); (13891,13988); (13991,13989); (13992,13990); (13993,13991); (13878,13992); (13995,13993); (13996,13994); (13997,13995); (13887,13996); (13999,13997); (14000,13998)];
  [(14001,13999); (13888,14000); (14003,14001); (14004,14002); (14005,14003); (13947,14004); (-949,14005); (13922,13790); (13908,13985); (14010,14008); (14011,14009); (14012,14010); (13914,14011); (14014,14012); (14015,14013); (14016,14014); (13901,14015); (14018,14016); (14019,14017); (14020,14018); (13910,14019); (14022,14020); (14024,14021); (13807,13790); (14026,14022); (13969,13790); (13913,14024); (14028,14026); (14029,14027); (14030,14028); (13972,14029); (-950,14030); (14033,14038); (14034,14032); (13938,14033); (14036,14034); (14037,14035); (14039,14036); (14032,14030); (13926,14037); (14041,14039); (14042,14040); (14043,14041); (13985,14042); (-951,14043); (13059,13057); (14049,13970); (13129,13057); (13250,13057); (13935,14046); (13278,13057); (14052,14049); (14053,14051); (14054,14052); (13944,14053); (14056,14054); (14057,14055); (14058,14056); (13945,14057); (14060,14058); (14061,14059); (14063,14060); (13415,13057); (14008,14061); (13531,13057); (13758,13057); (13921,13057); (-952,14063); (14069,14074); (14070,14068); (13974,14069); (14072,14070); (14073,14071); (14075,14072); (14068,14063); (13962,14073); (14078,14075); (13058,13057); (14079,14076); (14080,14078); (14022,14079); (-953,14080); (-916,12988); (14084,12989); (14026,14083); (-954,14084); (-917,13040); (14029,13192); (-955,14087); (14090,14140); (14091,14089); (14033,14090); (-956,14091); (14095,14146); (13572,13057); (14096,14093); (14038,14095); (-957,14096); (14099,14148); (14100,14098); (13993,14099); (14102,14100); (14103,14101); (14104,14102); (14008,14103); (14106,14104); (14107,14105); (14108,14106); (13999,14107); (14110,14108); (14111,14109); (14112,14110); (13997,14111); (14114,14112); (14115,14113); (14116,14114); (14058,14115); (-958,14116); (14119,14142); (14120,14118); (14062,14119); (-959,14120); (14123,14161); (14124,14122); (14026,14123); (14127,14124); (12989,12988); (14128,14125); (14131,14127); (13041,13040); (13149,13040); (14073,14128); (-960,14131); (14134,14162); (14135,14133); (14025,14134); (14137,14135); (14138,14136); (14139,14137); (14025,14138); (14089,13040); (14143,14139); (14118,13040); (14144,14141); (14145,14143); (14088,14144); (14093,14091); (-961,14145); (14098,14091); (14150,14199); (14151,14149); (14093,14150); (-962,14151); (14154,14207); (14155,14153); (14097,14154); (-963,14155); (14158,14165); (14159,14157); (14101,14158); (-964,14159); (14122,14120); (14133,14120); (14164,14202); (14166,14163); (14157,14120); (14052,14164); (14168,14166); (14169,14167); (14170,14168); (14112,14169); (-965,14170); (14173,14177); (14174,14172); (14311,14173); (14204,14411); (14178,14408); (14172,14120); (14179,14176); (14068,14178); (14181,14179); (14182,14180); (14183,14181); (14072,14182); (14185,14183); (14186,14184); (14187,14185); (14074,14186); (14189,14187); (14190,14188); (14191,14189); (14081,14190); (14193,14191); (14194,14192); (14195,14193); (14076,14194); (14197,14195); (14198,14196); (14200,14197); (14149,14145)];
  [(14142,14198); (-966,14200); (14163,14159); (14206,14412); (14205,14175); (14097,14204); (14218,14203); (14153,14151); (14209,14205); (14210,14208); (14211,14209); (14096,14210); (14213,14211); (14214,14212); (14215,14213); (14157,14214); (-967,14215); (14220,14414); (14106,14206); (14222,14218); (14221,14217); (14263,14220); (14223,14219); (14224,14222); (14135,14223); (14239,14248); (14227,14238); (14228,14226); (14113,14227); (14230,14228); (14231,14229); (14232,14230); (14119,14231); (14234,14232); (14235,14233); (14236,14234); (14178,14235); (-968,14236); (14226,14224); (14240,14225); (14138,14239); (14242,14240); (14243,14241); (14244,14242); (14129,14243); (14246,14244); (14247,14245); (14249,14246); (14225,14224); (14136,14247); (14251,14249); (14252,14250); (14253,14251); (14195,14252); (-969,14253); (13049,13043); (14257,13044); (14143,14256); (14259,14257); (14260,14258); (14261,14259); (14393,14260); (14314,14463); (14264,14462); (14265,14263); (14153,14264); (14267,14265); (14269,14266); (13044,13043); (14270,14267); (14154,14269); (14272,14270); (14273,14271); (14274,14272); (14178,14273); (14276,14274); (14277,14275); (14278,14276); (14171,14277); (14280,14278); (14281,14279); (14282,14280); (14212,14281); (14284,14282); (14285,14283); (14286,14284); (14173,14285); (14288,14286); (14289,14287); (14290,14288); (14190,14289); (14292,14290); (14293,14291); (14294,14292); (14198,14293); (14296,14294); (14297,14295); (14298,14296); (14183,14297); (14300,14298); (14301,14299); (14302,14300); (14202,14301); (14304,14302); (14305,14303); (14306,14304); (14193,14305); (14308,14306); (14309,14307); (14310,14308); (14252,14309); (-970,14310); (14313,14464); (14352,14312); (14315,14262); (14199,14314); (14317,14315); (14318,14316); (14319,14317); (14212,14318); (14321,14319); (14322,14320); (14323,14321); (14216,14322); (14325,14323); (14326,14324); (14327,14325); (14259,14326); (14329,14327); (14330,14328); (14331,14329); (14219,14330); (14333,14331); (14334,14332); (14335,14333); (14219,14334); (14337,14335); (14338,14336); (14339,14337); (14243,14338); (14341,14339); (14342,14340); (14343,14341); (14236,14342); (14345,14343); (14346,14344); (14347,14345); (14289,14346); (-971,14347); (14350,14469); (14351,14349); (14293,14350); (14239,14313); (14354,14352); (14355,14353); (14356,14354); (14256,14355); (14358,14356); (14359,14357); (14360,14358); (14264,14359); (14362,14360); (14363,14361); (14364,14362); (14249,14363); (14366,14364); (14367,14365); (14368,14366); (14268,14367); (14370,14368); (14371,14369); (14372,14370); (14259,14371); (14374,14372); (14375,14373); (14376,14374); (14318,14375); (-972,14376); (14381,14426); (14380,14221); (14383,14379); (14382,14378); (14279,14381); (14385,14380); (14409,14382); (14272,14383); (14387,14385); (14388,14386); (14389,14387); (14331,14388); (-973,14389); (14392,14476); (14393,14391); (14290,14392); (14395,14351); (14396,14394); (14397,14395); (14284,14396); (14423,14393); (14400,14397)];
  [(14401,14399); (14402,14400); (14288,14401); (14404,14402); (14405,14403); (14406,14404); (14348,14405); (-974,14406); (14176,14174); (14410,14384); (14413,14409); (14175,14174); (14203,14174); (14306,14410); (14217,14174); (14416,14413); (14417,14415); (14418,14416); (14360,14417); (-975,14418); (14421,14477); (14422,14420); (14322,14421); (14424,14398); (14425,14423); (14331,14424); (14378,14174); (14434,14422); (14429,14425); (14430,14428); (14431,14429); (14322,14430); (14433,14431); (14435,14432); (14465,14427); (14436,14433); (14321,14435); (14438,14436); (14439,14437); (14440,14438); (14372,14439); (14442,14440); (14443,14441); (14444,14442); (14332,14443); (14446,14444); (14447,14445); (14448,14446); (14332,14447); (14450,14448); (14451,14449); (14452,14450); (14356,14451); (14454,14452); (14455,14453); (14456,14454); (14349,14455); (14458,14456); (14459,14457); (14460,14458); (14402,14459); (-976,14460); (14263,14261); (14262,14261); (14312,14261); (14466,14434); (14359,14465); (14468,14466); (14470,14467); (14349,14261); (14471,14468); (14372,14470); (14473,14471); (14474,14472); (14475,14473); (14377,14474); (14391,14261); (14420,14261); (14479,14475); (14480,14478); (14481,14479); (14423,14480); (-977,14481); (14484,16004); (14487,14483); (14486,13074); (14488,14485); (14477,14484); (14385,14486); (14490,14488); (14491,14489); (14492,14490); (14377,14491); (14494,14492); (14495,14493); (14496,14494); (14438,14495); (-978,14496); (14501,14539); (14500,13070); (14391,14499); (14531,14498); (14503,14500); (14504,14502); (14505,14503); (14395,14504); (14507,14505); (14508,14506); (14509,14507); (14396,14508); (14511,14509); (14512,14510); (14513,14511); (14455,14512); (-979,14513); (14516,14546); (14517,14515); (14459,14516); (-983,14517); (14520,15973); (14537,14519); (14523,15815); (14524,13052); (14525,14521); (14527,14522); (14427,14523); (14598,14525); (14528,14524); (14470,14527); (-980,14528); (13071,13042); (14473,14501); (-981,14531); (13070,13042); (14535,16007); (14538,14534); (-982,14487); (14443,14520); (14442,14535); (14498,13042); (14542,14537); (14566,14538); (14543,14540); (14544,14542); (14431,14543); (14547,14544); (14515,14487); (14548,14545); (14549,14547); (14491,14548); (-984,14549); (14552,16005); (14553,14551); (14487,14552); (14586,14585); (14556,14584); (14557,14555); (14444,14556); (14559,14557); (14560,14558); (14561,14559); (14462,14560); (14563,14561); (14564,14562); (14565,14563); (14515,14564); (14567,14541); (14568,14566); (14448,14567); (14570,14568); (14571,14569); (14572,14570); (14514,14571); (-990,14572); (-985,14565); (14576,14579); (14577,14575); (14519,14576); (-986,14577); (14575,14561); (14581,14627); (14582,14580); (14524,14581); (-987,14582); (14555,14553); (14554,14553); (14587,14554); (14480,14586); (14589,14587); (14590,14588); (14591,14589); (14485,14590); (14593,14591); (14594,14592); (14595,14593); (14537,14594); (-988,14595); (14620,15850); (14599,14526); (14600,14598)];
  [(14480,14599); (14602,14600); (14603,14601); (14604,14602); (14546,14603); (-989,14604); (14607,16010); (14610,14606); (14609,15849); (14611,14608); (14657,14607); (14613,14609); (14673,14714); (14757,14768); (14615,16009); (14616,14614); (14645,14615); (14655,14749); (14619,14742); (14621,14618); (14622,14597); (14509,14619); (14519,14620); (14626,14621); (14625,14622); (14631,14624); (14628,14623); (14580,14577); (14629,14626); (14516,14628); (14632,14629); (14732,14625); (14633,14630); (14634,14632); (14576,14633); (-993,14634); (14637,14744); (14646,14636); (14639,14762); (14640,14638); (14541,14639); (14642,14640); (14643,14641); (14644,14642); (14534,14643); (14647,14644); (14537,14637); (14649,14645); (14650,14646); (14748,14647); (14651,14648); (14652,14650); (14539,14651); (14654,14652); (14656,14653); (14657,14617); (14658,14654); (14608,14655); (14549,14656); (14660,14658); (14661,14659); (14662,14660); (14562,14661); (14664,14662); (14665,14663); (14666,14664); (14553,14665); (14668,14666); (14669,14667); (14670,14668); (14612,14669); (-994,14670); (-991,14611); (14674,14612); (14573,14673); (14676,14674); (14677,14675); (14678,14676); (14563,14677); (14680,14678); (14681,14679); (14682,14680); (14586,14681); (14684,14682); (14685,14683); (14686,14684); (14573,14685); (14688,14686); (14689,14687); (14690,14688); (14577,14689); (14692,14690); (14693,14691); (14694,14692); (14584,14693); (14696,14694); (14697,14695); (14698,14696); (14580,14697); (14700,14698); (14701,14699); (14702,14700); (14644,14701); (-995,14702); (-992,14616); (14706,14657); (14707,14705); (14708,14706); (14595,14707); (14710,14708); (14711,14709); (14712,14710); (14613,14711); (14715,14712); (14612,14611); (14716,14713); (14717,14715); (14659,14716); (-996,14717); (14720,14761); (14721,14719); (14608,14720); (14723,14721); (14724,14722); (14725,14723); (14621,14724); (14727,14725); (14728,14726); (14729,14727); (14671,14728); (-997,14729); (14754,15852); (14633,14631); (14734,14732); (14735,14733); (14736,14734); (14626,14735); (14738,14736); (14739,14737); (14740,14738); (14625,14739); (14743,14740); (14618,14616); (14745,14741); (14636,14616); (14746,14743); (14688,14745); (-998,14746); (14634,14649); (14617,14616); (14751,14748); (14752,14750); (14753,14751); (14696,14752); (14756,14731); (-999,14753); (15362,14754); (14760,14613); (15392,15474); (14765,15472); (14652,14757); (14719,14616); (14638,14610); (14764,16011); (14767,14763); (14766,14759); (14798,14765); (14759,14764); (14613,14610); (14771,14760); (14829,14828); (14772,14769); (14773,14771); (14659,14772); (14775,14773); (14776,14774); (14777,14775); (14662,14776); (14779,14777); (14780,14778); (14781,14779); (14723,14780); (-1000,14781); (14784,14820); (14785,14783); (14687,14784); (14787,14785); (14788,14786); (14789,14787); (14686,14788); (14791,14789); (14792,14790); (14793,14791); (14693,14792); (14803,14793); (14796,14856); (14797,14795); (14686,14796); (14799,14797); (14800,14798)];
  [(14801,14799); (14745,14800); (14806,14857); (14805,14794); (-1002,14801); (14808,14803); (14807,14802); (14698,14806); (14750,14805); (-1001,14808); (14811,16012); (14814,14810); (14813,14807); (14815,14812); (15465,14811); (14816,14813); (14707,14815); (14887,15563); (14819,14816); (14821,14818); (14783,14781); (14822,14819); (14703,14821); (14824,14822); (14825,14823); (14826,14824); (14768,14825); (-1003,14826); (14770,14767); (14830,14770); (14772,14829); (-1004,14830); (14833,14860); (14834,14832); (14776,14833); (-1005,14834); (14837,14889); (14838,14836); (14780,14837); (-1006,14838); (14841,14893); (14850,14840); (14843,15562); (14844,14842); (14763,14843); (14876,14877); (14847,14873); (14848,14846); (14746,14847); (14851,14848); (14793,14841); (14853,14849); (-1007,14850); (14854,14851); (14796,14853); (-1009,14854); (14795,14767); (14802,14801); (14859,14874); (14861,14858); (14832,14767); (14757,14859); (14863,14861); (14864,14862); (14865,14863); (14757,14864); (14867,14865); (14868,14866); (14869,14867); (14811,14868); (-1008,14869); (14872,16013); (14875,14871); (14846,14844); (14858,14767); (14781,14872); (14879,14845); (14845,14844); (14903,14875); (14766,14876); (14881,14879); (14882,14880); (14883,14881); (14825,14882); (-1010,14883); (14886,15575); (15001,14885); (14888,14817); (14776,14887); (14836,14834); (14891,14888); (14892,14890); (14894,14891); (14840,14838); (14788,14892); (14896,14894); (14897,14895); (14898,14896); (14840,14897); (-1011,14898); (14923,15856); (14902,14766); (14911,14901); (14904,14878); (14905,14903); (14792,14904); (14907,14905); (14908,14906); (14909,14907); (15531,14908); (14912,15639); (14913,14902); (14914,14910); (15157,14911); (14799,14912); (14916,14914); (14917,14915); (15586,14916); (14963,15265); (14920,15233); (14921,14919); (14821,14920); (14924,14921); (14925,14900); (14926,14922); (15681,14923); (14929,14924); (15708,15785); (14934,15780); (14828,14926); (14931,14929); (14932,14930); (14933,14931); (14820,14932); (14935,14928); (14823,14934); (14938,14933); (15692,14935); (14939,14936); (14940,14938); (14979,14939); (15045,15061); (14943,15044); (14944,14942); (14831,14943); (14946,14944); (14947,14945); (14948,14946); (14835,14947); (14950,14948); (14951,14949); (14952,14950); (14842,14951); (14954,14952); (14955,14953); (14956,14954); (14838,14955); (14958,14956); (14959,14957); (14960,14958); (14902,14959); (-1012,14960); (14994,15239); (14964,14918); (14864,14963); (14966,14964); (14967,14965); (14968,14966); (14867,14967); (14970,14968); (14971,14969); (14972,14970); (14857,14971); (14974,14972); (14975,14973); (14976,14974); (14988,14975); (15086,15102); (14979,15085); (14980,14978); (14867,14979); (14982,14980); (14983,14981); (14984,14982); (14871,14983); (14986,14984); (14987,14985); (14988,14986); (14878,14987); (14990,14988); (14991,14989); (14992,14990); (14874,14991); (14995,14992); (15193,14962); (14996,14993); (14997,14995); (14939,14996); (-1013,14997); (15000,15576)];
  [(15012,14999); (14899,14886); (15003,15001); (15004,15002); (15005,15003); (15166,15004); (15169,15275); (15008,15274); (15009,15007); (14909,15008); (15011,15009); (15013,15010); (15205,15000); (15014,15011); (14913,15013); (15016,15014); (15017,15015); (15018,15016); (14903,15017); (15020,15018); (15021,15019); (15022,15020); (15029,15021); (15127,15143); (15025,15126); (15026,15024); (14913,15025); (15028,15026); (15029,15027); (15030,15028); (14917,15029); (15032,15030); (15033,15031); (15034,15032); (14924,15033); (15036,15034); (15037,15035); (15038,15036); (14920,15037); (15040,15038); (15041,15039); (15042,15040); (14984,15041); (-1014,15042); (14942,14940); (15046,14941); (14942,15045); (15048,15046); (15049,15047); (15050,15048); (14948,15049); (15052,15050); (15053,15051); (15054,15052); (14951,15053); (15056,15054); (15057,15055); (15058,15056); (14943,15057); (15060,15058); (15062,15059); (14941,14940); (15063,15060); (14999,15062); (15065,15063); (15066,15064); (15067,15065); (14954,15066); (15069,15067); (15070,15068); (15071,15069); (14958,15070); (15073,15071); (15074,15072); (15075,15073); (14965,15074); (15077,15075); (15078,15076); (15079,15077); (14961,15078); (15081,15079); (15082,15080); (15083,15081); (15025,15082); (-1015,15083); (14978,14976); (15087,14977); (14983,15086); (15089,15087); (15090,15088); (15091,15089); (14989,15090); (15093,15091); (15094,15092); (15095,15093); (14992,15094); (15097,15095); (15098,15096); (15099,15097); (14984,15098); (15101,15099); (15103,15100); (14977,14976); (15104,15101); (15008,15103); (15106,15104); (15107,15105); (15108,15106); (14995,15107); (15110,15108); (15111,15109); (15112,15110); (14999,15111); (15114,15112); (15115,15113); (15116,15114); (15006,15115); (15118,15116); (15119,15117); (15120,15118); (15002,15119); (15122,15120); (15123,15121); (15124,15122); (15066,15123); (-1016,15124); (15024,15022); (15128,15023); (15024,15127); (15130,15128); (15131,15129); (15132,15130); (15030,15131); (15134,15132); (15135,15133); (15136,15134); (15033,15135); (15138,15136); (15139,15137); (15140,15138); (15025,15139); (15142,15140); (15144,15141); (15023,15022); (15145,15142); (15049,15144); (15147,15145); (15148,15146); (15149,15147); (15036,15148); (15151,15149); (15152,15150); (15153,15151); (15040,15152); (15155,15153); (15156,15154); (15157,15155); (15047,15156); (15159,15157); (15160,15158); (15161,15159); (15043,15160); (15163,15161); (15164,15162); (15165,15163); (15107,15164); (-1017,15165); (15168,15280); (15276,15167); (15170,15006); (15074,15169); (15172,15170); (15173,15171); (15174,15172); (15063,15173); (15176,15174); (15177,15175); (15178,15176); (15064,15177); (15180,15178); (15181,15179); (15182,15180); (15067,15181); (15184,15182); (15185,15183); (15186,15184); (15076,15185); (15188,15186); (15189,15187); (15190,15188); (15132,15189); (-1018,15190); (15198,15271); (15089,14994); (15195,15193); (15196,15194); (15197,15195); (15096,15196); (15224,15192); (15200,15197)];
  [(15201,15199); (15202,15200); (15099,15201); (15204,15202); (15205,15203); (15206,15204); (15091,15205); (15208,15206); (15209,15207); (15210,15208); (15146,15209); (15212,15210); (15213,15211); (15214,15212); (15101,15213); (15216,15214); (15217,15215); (15218,15216); (15105,15217); (15220,15218); (15221,15219); (15222,15220); (15112,15221); (15225,15222); (15129,15198); (15226,15223); (15227,15225); (15109,15226); (15229,15227); (15230,15228); (15231,15229); (15173,15230); (-1019,15231); (14919,14913); (15235,15224); (15236,15234); (15237,15235); (15135,15236); (15240,15237); (14962,14913); (15241,15238); (15242,15240); (15139,15241); (15244,15242); (15245,15243); (15246,15244); (15131,15245); (15248,15246); (15249,15247); (15250,15248); (15154,15249); (15252,15250); (15253,15251); (15254,15252); (15141,15253); (15256,15254); (15257,15255); (15258,15256); (15145,15257); (15260,15258); (15261,15259); (15262,15260); (15152,15261); (15264,15262); (15266,15263); (14918,14913); (15267,15264); (15149,15266); (15269,15267); (15270,15268); (15272,15269); (15192,14913); (15214,15270); (-1020,15272); (15007,15005); (15006,15005); (15172,15168); (15278,15276); (15279,15277); (15281,15278); (15167,15005); (15179,15279); (15283,15281); (15284,15282); (15285,15283); (15182,15284); (15287,15285); (15288,15286); (15289,15287); (15174,15288); (15291,15289); (15292,15290); (15293,15291); (15197,15292); (15295,15293); (15296,15294); (15297,15295); (15184,15296); (15299,15297); (15300,15298); (15301,15299); (15188,15300); (15303,15301); (15304,15302); (15305,15303); (15195,15304); (15307,15305); (15308,15306); (15309,15307); (15191,15308); (15311,15309); (15312,15310); (15313,15311); (15255,15312); (-1021,15313); (15316,15577); (15328,15315); (15318,15012); (15319,15317); (15320,15318); (15224,15319); (15322,15320); (15323,15321); (15324,15322); (15211,15323); (15326,15324); (15327,15325); (15330,15326); (15306,15316); (15404,15408); (15217,15327); (15332,15330); (15333,15331); (15334,15332); (15224,15333); (15336,15334); (15337,15335); (15338,15336); (15220,15337); (15340,15338); (15341,15339); (15342,15340); (15252,15341); (15361,15366); (15345,15360); (15346,15344); (15246,15345); (15348,15346); (15349,15347); (15350,15348); (15249,15349); (15352,15350); (15353,15351); (15354,15352); (15239,15353); (15356,15354); (15357,15355); (15358,15356); (15300,15357); (-1022,15358); (15344,15342); (15362,15343); (15258,15361); (15364,15362); (15365,15363); (15367,15364); (15343,15342); (15265,15365); (15369,15367); (15370,15368); (15371,15369); (15268,15370); (15373,15371); (15374,15372); (15375,15373); (15260,15374); (15377,15375); (15378,15376); (15379,15377); (15321,15378); (-1023,15379); (15382,15581); (15394,15381); (15384,15403); (15385,15383); (15272,15384); (15387,15385); (15388,15386); (15389,15387); (15331,15388); (-1024,15389); (15393,15481); (15397,14758); (15473,15391); (15290,15382); (15396,15394); (15423,15395); (15296,15392); (15399,15397); (15400,15398)];
  [(15401,15399); (15343,15400); (-1025,15401); (15383,15328); (15405,15329); (15347,15404); (-1026,15405); (15409,15414); (15329,15328); (15410,15407); (15294,15409); (15412,15410); (15413,15411); (15415,15412); (15407,15328); (15301,15413); (15417,15415); (15418,15416); (15419,15417); (15361,15418); (-1027,15419); (15422,15587); (15434,15421); (15424,15396); (15316,15423); (15426,15424); (15427,15425); (15428,15426); (15328,15427); (15430,15428); (15431,15429); (15432,15430); (15318,15431); (15437,15432); (15505,15422); (15436,15606); (15440,15435); (15438,15433); (15439,15437); (15382,15438); (15333,15436); (-1028,15439); (15444,15584); (15565,15440); (15445,15442); (15362,15444); (15461,15460); (15448,15459); (15449,15447); (15335,15448); (15451,15449); (15452,15450); (15453,15451); (15338,15452); (15455,15453); (15456,15454); (15457,15455); (15399,15456); (-1029,15457); (15447,15445); (15446,15445); (15462,15446); (15366,15461); (15464,15462); (15465,15463); (15466,15464); (15353,15465); (15468,15466); (15469,15467); (15470,15468); (15412,15469); (-1030,15470); (14759,14756); (15374,15393); (14758,14756); (15476,15473); (15477,15475); (15478,15476); (15365,15477); (15480,15478); (15482,15479); (15391,14756); (15483,15480); (15445,15482); (15522,15527); (15486,15521); (15487,15485); (15387,15486); (15489,15487); (15490,15488); (15491,15489); (15390,15490); (15493,15491); (15494,15492); (15495,15493); (15380,15494); (15497,15495); (15498,15496); (15499,15497); (15435,15498); (15501,15499); (15502,15500); (15503,15501); (15390,15502); (15505,15503); (15506,15504); (15507,15505); (15394,15506); (15509,15507); (15510,15508); (15511,15509); (15401,15510); (15513,15511); (15514,15512); (15515,15513); (15397,15514); (15517,15515); (15518,15516); (15519,15517); (15461,15518); (-1031,15519); (15485,15483); (15523,15484); (15419,15522); (15525,15523); (15526,15524); (15528,15525); (15484,15483); (15426,15526); (15530,15528); (15531,15529); (15532,15530); (15429,15531); (15534,15532); (15535,15533); (15536,15534); (15421,15535); (15538,15536); (15539,15537); (15540,15538); (15476,15539); (15542,15540); (15543,15541); (15544,15542); (15431,15543); (15546,15544); (15547,15545); (15548,15546); (15435,15547); (15550,15548); (15551,15549); (15552,15550); (15442,15551); (15554,15552); (15555,15553); (15556,15554); (15438,15555); (15558,15556); (15559,15557); (15560,15558); (15502,15559); (-1032,15560); (14842,14814); (14817,14814); (-1033,15434); (15566,15443); (15567,15565); (15465,15566); (15569,15567); (15570,15568); (15571,15569); (15471,15570); (15573,15571); (15574,15572); (15578,15573); (14885,14814); (14999,14814); (15315,14814); (15520,15574); (-1034,15578); (15582,15607); (15381,14814); (15583,15580); (15526,15582); (15442,14814); (-1035,15583); (15532,14917); (15421,14814); (15589,16016); (15592,15588); (-1036,14909); (-1037,15586); (15703,15589); (15594,16015); (15596,15593); (15698,15802); (15573,15594); (15613,15672); (15599,15670); (15600,15598)];
  [(15487,15599); (15602,15600); (15603,15601); (15604,15602); (15491,15603); (15608,15604); (15435,15434); (15580,15434); (15609,15605); (15610,15608); (15552,15609); (-1038,15610); (15614,15677); (15615,15597); (15654,15612); (15505,15613); (15617,15615); (15618,15616); (15619,15617); (15514,15618); (15621,15800); (15622,15620); (15510,15621); (15624,15622); (15625,15623); (15626,15624); (15510,15625); (15629,15626); (15630,15619); (15631,15627); (15636,15628); (15632,15629); (15522,15631); (15634,15632); (15635,15633); (15637,15634); (15638,15630); (15631,15635); (15530,15636); (14910,14909); (15641,15638); (15642,15640); (15643,15641); (15543,15642); (15645,15643); (15646,15644); (15647,15645); (15534,15646); (15649,15647); (15650,15648); (15651,15649); (15593,15650); (-1039,15651); (15655,15682); (15559,15614); (15660,15653); (15657,15654); (15658,15656); (15659,15657); (15547,15658); (15612,15655); (15662,15659); (15663,15661); (15664,15662); (15606,15663); (-1040,15664); (15667,15706); (15668,15666); (15610,15667); (-1041,15668); (15598,15596); (-1042,15660); (15597,15596); (15674,15689); (15675,15673); (15562,15674); (15678,15675); (15612,15596); (15679,15676); (15680,15678); (15576,15679); (15683,15680); (15653,15596); (15684,15681); (15685,15683); (15627,15684); (-1043,15685); (15688,16017); (15691,15687); (15673,15596); (-1044,15637); (15840,15688); (15693,14937); (15695,15692); (15734,15940); (15637,15693); (-1045,15695); (15699,15807); (15700,15595); (15714,15697); (15587,15698); (15702,15700); (15703,15701); (15704,15702); (15646,15703); (-1046,15704); (15666,15664); (15712,15797); (15709,14927); (15651,15708); (-1047,15709); (15713,15808); (15781,15707); (15717,15711); (15657,15699); (15738,15825); (-1048,15714); (15609,15713); (15727,15717); (15720,15939); (15721,15719); (15623,15720); (15723,15721); (15724,15722); (15725,15723); (15667,15724); (-1062,15725); (15729,15718); (15730,15721); (15735,15727); (15731,15728); (15732,15730); (15619,15731); (15736,15732); (15818,15694); (15685,15729); (15737,15733); (15756,15736); (15740,15715); (15741,15816); (15683,15738); (15746,15739); (-1057,15740); (15749,15857); (-1049,15735); (15748,15786); (15667,15741); (15768,15784); (15751,15745); (15750,15743); (15693,15749); (15694,15748); (-1059,15750); (-1050,15751); (15755,15788); (15757,15754); (15758,15737); (15699,15755); (-1051,15757); (15761,15819); (15762,15765); (15766,15759); (15763,15760); (15705,15762); (-1052,15763); (15760,15746); (15653,15761); (15775,15766); (15769,15747); (15659,15768); (15771,15769); (15772,15770); (15773,15771); (15715,15772); (-1053,15773); (15801,15767); (15777,15829); (15778,15776); (15720,15777); (-1054,15778); (14928,14925); (15668,15712); (15783,15781); (15787,15782); (15747,15746); (14927,14925); (15745,15735); (15789,15783); (15754,15735); (15679,15787); (15791,15789); (15792,15790); (15793,15791); (15687,15792); (15795,15793); (15796,15794); (15798,15795); (15707,14925); (15740,15796); (-1055,15798)];
  [(15620,15592); (15803,15775); (15595,15592); (15693,15801); (15805,15803); (15806,15804); (15809,15805); (15697,15592); (15711,15592); (15703,15806); (15811,15809); (15812,15810); (15813,15811); (15755,15812); (-1056,15813); (14521,12381); (15739,15592); (-1063,15756); (15709,15734); (15759,15592); (15821,15818); (15822,15820); (15823,15821); (15708,15822); (15828,15823); (15715,12381); (15827,16018); (15830,15826); (15831,15824); (15776,15773); (15719,15827); (15832,15828); (15775,15831); (15858,15830); (-1064,15832); (15836,15944); (15837,15835); (15727,15836); (12383,12381); (15879,15948); (12382,12381); (15844,15837); (12853,12381); (13048,12381); (15845,15841); (15846,15844); (15746,15845); (15848,15846); (15851,15847); (14608,12381); (14597,12381); (15853,15848); (14731,12381); (15753,15851); (15855,15853); (15866,15854); (14900,12381); (15743,12381); (15859,15833); (15860,15858); (15889,15859); (15981,16006); (15863,15989); (15864,15862); (15750,15863); (15867,15864); (15868,15855); (15869,15865); (15815,15866); (15870,15867); (15767,15869); (15872,15870); (15873,15871); (15875,15872); (-1065,15868); (15779,15873); (15877,15875); (15968,15876); (15881,15945); (15880,15839); (15787,15879); (15882,15878); (15774,15881); (15886,15882); (15885,15880); (15898,15884); (15887,15883); (15888,15886); (15788,15887); (15890,15888); (15891,15889); (15892,15890); (15778,15891); (15894,15892); (15895,15893); (15896,15894); (15838,15895); (-1066,15896); (15900,15885); (-1060,15691); (15787,15898); (15902,15900); (15903,15901); (15904,15902); (15791,15903); (15906,15904); (15907,15905); (15908,15906); (15850,15907); (-1067,15908); (15911,15953); (15912,15910); (15796,15911); (15914,15912); (15915,15913); (15916,15914); (15816,15915); (15918,15916); (15919,15917); (15920,15918); (15806,15919); (15922,15920); (15923,15921); (15924,15922); (15809,15923); (15926,15924); (15927,15925); (15928,15926); (15870,15927); (-1068,15928); (15931,15954); (15932,15930); (15872,15931); (15955,15952); (15935,15977); (15936,15934); (15878,15935); (-1069,15936); (15941,15979); (15719,15691); (15694,15691); (15942,15938); (15887,15941); (-1061,16017); (15835,15691); (15878,15691); (-1070,15942); (15949,15980); (15839,15691); (15950,15947); (15892,15949); (-1071,15950); (15933,15932); (15910,15691); (15930,15691); (15956,15933); (15860,15955); (15958,15956); (15959,15957); (15960,15958); (15847,15959); (15962,15960); (15963,15961); (15964,15962); (15906,15963); (-1072,15964); (12161,12159); (12422,12159); (15969,15877); (15858,15968); (12956,12159); (-1058,15825); (15974,15969); (14519,12159); (15975,15972); (15976,15974); (15919,15975); (15934,15932); (-1073,15976); (15938,15936); (15947,15936); (15982,15861); (15879,15981); (15984,15982); (15985,15983); (15986,15984); (15890,15985); (15988,15986); (15990,15987); (15862,15860); (15991,15988); (15878,15990); (15993,15991); (15994,15992); (15995,15993); (15937,15994); (-1074,15995); (16008,16019); (12160,12159); (12773,12159)];
  [(12755,12159); (12876,12159); (12990,12159); (13038,12159); (14483,12159); (14551,12159); (15861,15860); (14534,12159); (16014,15997); (14614,12159); (14606,12159); (14763,12159); (14810,12159); (14871,12159); (15948,16008); (15593,12159); (15588,12159); (15687,12159); (15826,12159); (15997,12159); (16050,16058); (16022,16049); (16023,16021); (15910,16022); (16025,16023); (16026,16024); (16027,16025); (15912,16026); (16029,16027); (16030,16028); (16031,16029); (15922,16030); (16033,16031); (16034,16032); (16035,16033); (15935,16034); (16037,16035); (16038,16036); (16039,16037); (15927,16038); (16041,16039); (16042,16040); (16043,16041); (15931,16042); (16045,16043); (16046,16044); (16047,16045); (15989,16046); (-1075,16047); (16021,16014); (16051,16020); (15983,16050); (16053,16051); (16054,16052); (16055,16053); (15997,16054); (-1076,16055); (12439,12417); (16020,16014); (16060,32815); (16061,16059); (16582,16060); (16215,16681); (16064,16679); (16065,16063); (15954,16064); (16067,16065); (16068,16066); (16069,16067); (16011,16068); (-1082,16069); (12445,12443); (16073,12444); (16015,16072); (-1080,16073); (16076,16116); (16077,16075); (15963,16076); (16079,16077); (16080,16078); (16081,16079); (15981,16080); (16083,16081); (16084,16082); (16085,16083); (16028,16084); (12444,12443); (-1081,16085); (16097,16188); (16031,12447); (-1083,16089); (16092,16146); (16093,16091); (15978,16092); (16095,16093); (16096,16094); (16098,16095); (16101,16088); (15988,16096); (16100,16098); (16102,16099); (16067,16097); (16103,16100); (16076,16102); (16136,16184); (16106,16176); (16107,16105); (15997,16106); (16109,16107); (16110,16108); (16111,16109); (15993,16110); (16113,16111); (16114,16112); (16115,16113); (16020,16114); (16075,16073); (16118,32848); (16119,16117); (20547,16118); (16859,20645); (16122,20644); (16123,16121); (16733,16122); (16749,16832); (16126,16831); (16127,16125); (16020,16126); (16129,16127); (16149,16128); (16131,16115); (16132,16130); (16133,16131); (16075,16132); (-1085,16133); (-1084,16103); (16137,16104); (16037,16136); (16139,16137); (16140,16138); (16141,16139); (16040,16140); (16143,16141); (16144,16142); (16145,16143); (16031,16144); (16091,16089); (16148,16145); (16162,16147); (16150,16129); (16054,16149); (16152,16150); (16153,16151); (16154,16152); (16096,16153); (-1126,16154); (16157,32816); (16158,16156); (20271,16157); (16902,20370); (16161,20368); (16714,16160); (16163,16148); (16105,16162); (-1086,16163); (16166,16193); (16167,16165); (16056,16166); (16169,16167); (16170,16168); (16171,16169); (16113,16170); (-1087,16171); (12414,12412); (16175,16101); (16177,16174); (16105,16103); (16178,16175); (16078,16177); (16180,16178); (16181,16179); (16183,16180); (12413,12412); (16071,16181); (16104,16103); (16187,16183); (12438,12412); (16189,16185); (16088,12412); (16190,16187); (16132,16189); (-1088,16190); (16194,16665); (16165,16103); (16228,16192); (16196,12409); (16112,16195); (16224,16233); (16199,16223); (16200,16198)];
  [(16092,16199); (16202,16200); (16203,16201); (16204,16202); (16096,16203); (16206,16204); (16207,16205); (16208,16206); (16112,16207); (16210,16208); (16211,16209); (16212,16210); (16154,16211); (-1089,16212); (16216,16683); (16217,16062); (16311,16214); (16097,16215); (16219,16217); (16220,16218); (16221,16219); (16163,16220); (-1090,16221); (16198,16196); (16225,16197); (16167,16224); (-1091,16225); (16229,16633); (16134,16194); (16230,16227); (16178,16229); (16232,16228); (16234,16231); (16197,16196); (16235,16232); (16121,16234); (16237,16235); (16238,16236); (16239,16237); (16136,16238); (16241,16239); (16242,16240); (16243,16241); (16185,16242); (-1092,16243); (16274,16667); (16247,16230); (16248,16246); (16249,16247); (16139,16248); (16251,16249); (16252,16250); (16253,16251); (16138,16252); (16255,16253); (16256,16254); (16257,16255); (16199,16256); (-1093,16257); (16260,16666); (16261,16259); (16165,16260); (16263,16261); (16264,16262); (16265,16263); (16151,16264); (16267,16265); (16268,16266); (16269,16267); (16153,16268); (16271,16269); (16272,16270); (16273,16271); (16161,16272); (16276,16245); (16279,16273); (16163,16274); (16278,16276); (16392,16277); (16280,16275); (16281,16279); (16181,16280); (16283,16281); (16284,16282); (16285,16283); (16186,16284); (16287,16285); (16288,16286); (16289,16287); (16193,16288); (16291,16289); (16292,16290); (16293,16291); (16184,16292); (16295,16293); (16296,16294); (16297,16295); (16195,16296); (16299,16297); (16300,16298); (16301,16299); (16194,16300); (16303,16301); (16304,16302); (16305,16303); (16205,16304); (16307,16305); (16308,16306); (16309,16307); (16251,16308); (-1094,16309); (16253,16216); (16314,16684); (-1078,12417); (16316,16312); (16354,16361); (16269,16314); (16318,16353); (16319,16317); (16215,16318); (16321,16319); (16322,16320); (16323,16321); (16207,16322); (16325,16323); (16326,16324); (16327,16325); (16219,16326); (16329,16327); (16330,16328); (16331,16329); (16249,16330); (16333,16331); (16334,16332); (16335,16333); (16224,16334); (16337,16335); (16338,16336); (16339,16337); (16243,16338); (16341,16339); (16342,16340); (16343,16341); (16245,16342); (16345,16343); (16346,16344); (16347,16345); (16247,16346); (16349,16347); (16350,16348); (16351,16349); (16293,16350); (-1095,16351); (16317,16311); (16355,16315); (16248,16354); (16357,16355); (16358,16356); (16359,16357); (16255,16358); (16362,16359); (16315,16311); (16363,16360); (16364,16362); (16255,16363); (16366,16364); (16367,16365); (16368,16366); (16253,16367); (16370,16368); (16371,16369); (16372,16370); (16259,16371); (16374,16372); (16375,16373); (16376,16374); (16275,16375); (16378,16376); (16379,16377); (16380,16378); (16322,16379); (-1096,16380); (16384,16687); (16385,16316); (16386,16382); (16388,16383); (16277,16384); (16496,16386); (16389,16385); (16331,16388); (-1097,16389); (16420,16673); (16393,16278); (16335,16392); (-1098,16393); (16396,16669); (16397,16395); (16287,16396); (16399,16397); (16400,16398)];
  [(16401,16399); (16343,16400); (-1099,16401); (16404,16670); (16405,16403); (16371,16404); (16419,16471); (16408,16470); (16409,16407); (16296,16408); (16411,16409); (16412,16410); (16413,16411); (16303,16412); (16415,16413); (16416,16414); (16417,16415); (16359,16416); (-1100,16417); (16421,16406); (16422,16391); (16367,16419); (16436,16420); (16537,16536); (16425,16535); (16427,16424); (-1102,16421); (16316,16425); (16531,16427); (16430,16481); (16472,16429); (16432,16464); (16433,16431); (16319,16432); (16435,16433); (16436,16434); (16437,16435); (16322,16436); (16439,16437); (16440,16438); (16441,16439); (16383,16440); (-1103,16441); (16444,16466); (16445,16443); (16341,16444); (16447,16445); (16448,16446); (16449,16447); (16336,16448); (16451,16449); (16452,16450); (16453,16451); (16395,16452); (-1104,16453); (16456,16467); (16457,16455); (16347,16456); (16459,16457); (16460,16458); (16461,16459); (16346,16460); (16463,16461); (16465,16462); (16431,16421); (16468,16463); (16443,16421); (16455,16421); (16410,16465); (-1105,16468); (16407,16405); (16406,16405); (16356,16430); (16474,16472); (16475,16473); (16476,16474); (16362,16475); (16478,16476); (16479,16477); (16480,16478); (16423,16479); (16429,16405); (-1107,16480); (16484,16521); (16485,16483); (16427,16484); (-1108,16485); (16488,16523); (16489,16487); (16431,16488); (-1109,16489); (16492,16548); (16493,16491); (16435,16492); (-1110,16493); (16497,16693); (16498,16387); (16499,16495); (16501,16496); (16388,16497); (16503,16499); (16385,16498); (16504,16501); (16586,16500); (16505,16502); (16506,16504); (16392,16505); (16508,16506); (16509,16507); (16510,16508); (16431,16509); (16512,16510); (16513,16511); (16514,16512); (16407,16513); (16516,16514); (16517,16515); (16518,16516); (16402,16517); (16520,16518); (16522,16519); (16483,16480); (16524,16520); (16487,16480); (16410,16522); (16526,16524); (16527,16525); (16528,16526); (16470,16527); (-1111,16528); (16559,16676); (16532,16428); (16533,16531); (16475,16532); (-1112,16533); (16424,16422); (16423,16422); (16538,16423); (16425,16537); (16540,16538); (16541,16539); (16542,16540); (16484,16541); (-1113,16542); (16545,16675); (16546,16544); (16435,16545); (16549,16546); (16491,16489); (16550,16547); (16551,16549); (16444,16550); (16553,16551); (16554,16552); (16555,16553); (16439,16554); (16557,16555); (16558,16556); (16560,16557); (16561,16530); (16450,16558); (16497,16559); (16598,16609); (16564,16597); (16566,16563); (16568,16560); (16466,16564); (16570,16566); (16569,16565); (16571,16568); (16572,16567); (16514,16569); (16575,16570); (-1114,16571); (16603,16680); (16468,16572); (16577,16575); (16578,16576); (16579,16577); (16465,16578); (16581,16579); (16582,16580); (16583,16581); (16525,16582); (-1115,16583); (16587,16697); (16588,16503); (16589,16585); (16489,16586); (16491,16587); (16593,16589); (16592,16588); (16594,16591); (16599,16590); (16595,16592); (16537,16594); (-1116,16595); (16563,16561); (16600,16562); (16623,16593)];
  [(16499,16598); (16602,16600); (16604,16601); (16605,16574); (16612,16602); (16535,16603); (16635,16651); (16608,16634); (16610,16607); (16562,16561); (16497,16608); (16614,16610); (16554,16604); (-1117,16612); (16616,16611); (16619,16677); (16617,16614); (16559,16616); (-1120,16617); (16620,16615); (16562,16619); (-1118,16620); (16624,16699); (16511,16599); (16626,16622); (16628,16623); (16568,16624); (-1122,16626); (16629,16625); (16631,16628); (16636,16682); (16573,16629); (-1119,16631); (16227,12408); (16607,16605); (16637,16606); (16640,16630); (16526,16635); (16639,16637); (16641,16638); (16594,16636); (16642,16639); (16532,16641); (16644,16642); (16645,16643); (16646,16644); (16532,16645); (16648,16646); (16649,16647); (16650,16648); (16593,16649); (16606,16605); (-1121,16650); (-1123,16640); (16655,16702); (16656,16654); (16541,16655); (16658,16656); (16659,16657); (16660,16658); (16556,16659); (16663,16660); (12410,12408); (16668,16661); (12409,12408); (16192,12408); (16259,12408); (16245,12408); (16672,16663); (16395,12408); (16403,12408); (-1101,16414); (16565,16668); (16391,12408); (16678,16672); (16544,12408); (16530,12408); (16615,12408); (16685,16674); (16063,16061); (16574,12408); (16062,16061); (16630,12408); (16214,16061); (16312,16061); (16686,16678); (16591,16685); (16382,16061); (16689,16686); (16690,16688); (16691,16689); (16580,16690); (16694,16691); (16495,16061); (16695,16692); (16696,16694); (16639,16695); (16585,16061); (-1124,16696); (16622,16061); (16701,16703); (16704,16700); (16654,16640); (16700,16640); (16608,16701); (16706,16704); (16707,16705); (16708,16706); (16597,16707); (16710,16708); (16711,16709); (16712,16710); (16654,16711); (-1125,16712); (16616,16161); (16716,16714); (16717,16715); (16718,16716); (16617,16717); (-1106,16462); (16721,32817); (16722,16720); (21618,16721); (20748,21717); (16725,21715); (16726,16724); (16628,16725); (16728,16726); (16729,16727); (16730,16728); (16614,16729); (16732,16730); (16733,16731); (16752,16732); (16735,16718); (16736,16734); (16737,16735); (16622,16736); (16739,16737); (16740,16738); (16741,16739); (16641,16740); (16743,16741); (16744,16742); (16745,16743); (16687,16744); (-1127,16745); (16748,16843); (16780,16747); (16750,16124); (16634,16749); (16766,16750); (16637,16733); (16754,16752); (16755,16753); (16756,16754); (16656,16755); (20674,16756); (16762,32849); (16760,20674); (16702,16759); (-1366,16760); (16763,16758); (21589,16762); (20735,21688); (20675,21686); (16767,16751); (16768,16766); (16653,16767); (16770,16768); (16771,16769); (16772,16770); (16672,16771); (16774,16772); (16775,16773); (16776,16774); (16718,16775); (-1128,16776); (16779,16849); (16790,16778); (16678,16748); (16782,16780); (16783,16781); (16784,16782); (16726,16783); (-1129,16784); (16787,16845); (16788,16786); (16730,16787); (-1130,16788); (16675,16779); (16793,16799); (16829,16790); (16794,16791); (16736,16793); (-1131,16794); (16797,16835); (16798,16796); (16700,16797); (16791,16788)];
  [(16801,16798); (16802,16800); (16803,16801); (16745,16802); (-1132,16803); (16806,16841); (16807,16805); (16693,16806); (16809,16807); (16810,16808); (16811,16809); (16753,16810); (-1133,16811); (16814,16842); (16815,16813); (16702,16814); (16817,16815); (16818,16816); (16819,16817); (16709,16818); (16821,16819); (16822,16820); (16823,16821); (16704,16822); (16825,16823); (16826,16824); (16827,16825); (16769,16826); (-1134,16827); (16830,16792); (16833,16829); (16125,16123); (16124,16123); (16720,16830); (16836,16833); (16796,16788); (16837,16834); (16838,16836); (16780,16837); (-1135,16838); (16844,16877); (16805,16788); (16813,16788); (16747,16123); (16846,16840); (16786,16123); (16739,16844); (16848,16846); (16850,16847); (16778,16123); (16851,16848); (16793,16850); (-1136,16851); (16854,16908); (16855,16853); (16797,16854); (-1137,16855); (16858,20646); (16891,16857); (16860,16120); (16755,16859); (16871,16872); (16863,16870); (16864,16862); (16753,16863); (16866,16864); (16867,16865); (16868,16866); (16810,16867); (-1138,16868); (16862,16860); (16873,16861); (16861,16860); (16765,16871); (16875,16873); (16876,16874); (16878,16875); (16840,16838); (16767,16876); (16880,16878); (16881,16879); (16882,16880); (16824,16881); (-1140,16882); (16885,16925); (16886,16884); (16828,16885); (-1141,16886); (16889,20647); (16890,16888); (16920,16889); (16899,16858); (16955,17000); (16894,16996); (16895,16893); (16812,16894); (16923,16926); (16898,16924); (16899,16897); (16841,16898); (-1142,16899); (16903,20372); (16904,16159); (17092,16901); (16906,16902); (16938,17007); (16907,17003); (16909,16906); (16853,16851); (16796,16907); (16911,16909); (16912,16910); (16913,16911); (16803,16912); (16915,16913); (16916,16914); (16917,16915); (16808,16916); (16919,16917); (16920,16918); (16921,16919); (16863,16920); (-1143,16921); (16927,16896); (16897,16895); (16884,16882); (16896,16895); (16817,16923); (16929,16927); (16930,16928); (16931,16929); (16822,16930); (16933,16931); (16934,16932); (16935,16933); (16877,16934); (-1144,16935); (16941,17027); (16939,16905); (16840,16938); (16942,16939); (17004,16937); (16943,16940); (16944,16942); (16840,16943); (16946,16944); (16947,16945); (16948,16946); (16841,16947); (16950,16948); (16951,16949); (16952,16950); (16894,16951); (-1145,16952); (16958,17010); (16956,16892); (16857,16955); (16959,16956); (16972,16954); (16960,16957); (16961,16959); (16857,16960); (16963,16961); (16964,16962); (16965,16963); (16858,16964); (16967,16965); (16968,16966); (16969,16967); (16911,16968); (-1146,16969); (16975,17016); (16863,16958); (16974,16972); (16976,16973); (16985,16971); (16977,16974); (16875,16976); (16979,16977); (16980,16978); (16981,16979); (16923,16980); (-1147,16981); (16984,17023); (16986,16983); (16885,16975); (16876,16984); (16988,16986); (16989,16987); (16990,16988); (16875,16989); (16992,16990); (16993,16991); (16994,16992); (16936,16993); (-1148,16994); (16893,16891); (16998,16985); (16999,16997); (17001,16998)];
  [(16892,16891); (16943,16999); (-1149,17001); (16906,16904); (16946,16941); (-1150,17004); (17008,17020); (16905,16904); (17009,17006); (16952,17008); (16954,16891); (-1151,17009); (17013,20648); (17014,17012); (17399,17013); (17053,17464); (16971,16891); (17018,16890); (17019,17017); (17021,17018); (17006,16891); (16907,17019); (17024,17021); (16983,16981); (17025,17022); (17026,17024); (16924,17025); (16937,16904); (17029,17026); (17030,17028); (17031,17029); (16973,17030); (-1152,17031); (17034,20649); (17035,17033); (16922,17034); (17037,17035); (17489,17036); (17039,17496); (17040,17038); (16927,17039); (17042,17040); (17043,17041); (17044,17042); (16963,17043); (17068,17077); (17047,17067); (17048,17046); (16942,17047); (17050,17048); (17051,17049); (17052,17050); (16995,17051); (17056,17015); (-1154,17052); (17061,17512); (16943,17053); (17058,17056); (17059,17057); (17060,17058); (16948,17059); (17093,17055); (17063,17060); (17064,17062); (17065,17063); (17007,17064); (-1155,17065); (17046,17044); (17069,17045); (17012,17068); (17072,17123); (-1156,17069); (17073,17070); (16955,17072); (17075,17073); (17076,17074); (17078,17075); (17045,17044); (17020,17076); (-1157,17078); (17081,17499); (17082,17080); (16972,17081); (17084,17082); (17085,17083); (17086,17084); (16971,17085); (17088,17086); (17089,17087); (17090,17088); (17032,17089); (-1158,17090); (17334,16903); (16979,17061); (17330,17449); (17097,20373); (17289,17093); (17099,17095); (17100,17437); (17361,17097); (17101,17098); (17005,17100); (17103,17101); (17104,17102); (17105,17103); (16990,17104); (17107,17105); (17108,17106); (17109,17107); (17005,17108); (17111,17109); (17112,17110); (17113,17111); (16996,17112); (17115,17113); (17116,17114); (17117,17115); (17017,17116); (17119,17117); (17120,17118); (17121,17119); (17158,17120); (-1139,16865); (17070,17069); (17170,17242); (17126,17235); (17127,17125); (17027,17126); (17129,17127); (17130,17128); (17131,17129); (17032,17130); (17133,17131); (17134,17132); (17135,17133); (17031,17134); (17137,17135); (17138,17136); (17139,17137); (17023,17138); (17141,17139); (17142,17140); (17143,17141); (17035,17142); (17145,17143); (17146,17144); (17147,17145); (17065,17146); (17149,17147); (17150,17148); (17151,17149); (17040,17150); (17153,17151); (17154,17152); (17155,17153); (17059,17154); (17157,17155); (17158,17156); (17159,17157); (17061,17158); (17161,17159); (17162,17160); (17163,17161); (17063,17162); (17165,17163); (17166,17164); (17167,17165); (17109,17166); (-1159,17167); (17176,17244); (17171,17124); (17068,17170); (17173,17171); (17174,17172); (17175,17173); (17072,17174); (17236,17169); (17178,17175); (17179,17177); (17180,17178); (17111,17179); (17211,17221); (17183,17210); (17184,17182); (17078,17183); (17186,17184); (17187,17185); (17188,17186); (17106,17187); (17190,17188); (17191,17189); (17192,17190); (17081,17191); (17194,17192); (17195,17193); (17196,17194); (17100,17195); (17198,17196); (17199,17197); (17200,17198)];
  [(17102,17199); (17202,17200); (17203,17201); (17204,17202); (17104,17203); (17206,17204); (17207,17205); (17208,17206); (17150,17207); (-1160,17208); (17182,17180); (17212,17181); (17130,17211); (17214,17212); (17215,17213); (17216,17214); (17105,17215); (17218,17216); (17219,17217); (17220,17218); (17125,17219); (17181,17180); (17223,17220); (17224,17222); (17225,17223); (17127,17224); (17227,17225); (17228,17226); (17229,17227); (17129,17228); (17231,17229); (17232,17230); (17233,17231); (17175,17232); (-1161,17233); (17125,17121); (17136,17176); (17238,17236); (17239,17237); (17240,17238); (17127,17239); (17243,17240); (17124,17121); (17245,17241); (17169,17121); (17246,17243); (17126,17245); (17248,17246); (17249,17247); (17250,17248); (17167,17249); (17252,17250); (17253,17251); (17254,17252); (17151,17253); (17256,17254); (17257,17255); (17258,17256); (17154,17257); (17260,17258); (17261,17259); (17262,17260); (17153,17261); (17264,17262); (17265,17263); (17266,17264); (17184,17265); (17268,17266); (17269,17267); (17270,17268); (17159,17269); (17272,17270); (17273,17271); (17274,17272); (17178,17273); (17276,17274); (17277,17275); (17278,17276); (17180,17277); (17280,17278); (17281,17279); (17282,17280); (17182,17281); (17284,17282); (17285,17283); (17286,17284); (17228,17285); (-1162,17286); (17294,17519); (17290,17096); (17291,17289); (17187,17290); (17293,17291); (17295,17292); (17326,17288); (17296,17293); (17179,17295); (17298,17296); (17299,17297); (17300,17298); (17242,17299); (-1163,17300); (17303,17514); (17304,17302); (17217,17303); (17319,17322); (17307,17318); (17308,17306); (17212,17307); (17310,17308); (17311,17309); (17312,17310); (17199,17311); (17314,17312); (17315,17313); (17316,17314); (17258,17315); (-1164,17316); (17306,17304); (17320,17305); (17212,17319); (17323,17320); (17305,17304); (17324,17321); (17325,17323); (17268,17324); (17224,17294); (-1165,17325); (17340,17453); (17342,17326); (17331,17094); (17216,17330); (17333,17331); (17334,17332); (17335,17333); (17235,17334); (17337,17335); (17338,17336); (17339,17337); (17241,17338); (17438,17328); (17343,17339); (17344,17329); (17345,17341); (17459,17342); (17346,17343); (17333,17345); (17405,17409); (17349,17404); (17350,17348); (17237,17349); (17352,17350); (17353,17351); (17354,17352); (17254,17353); (17356,17354); (17357,17355); (17358,17356); (17262,17357); (17360,17358); (17361,17359); (17362,17360); (17247,17361); (17364,17362); (17365,17363); (17366,17364); (17266,17365); (17368,17366); (17369,17367); (17370,17368); (17257,17369); (17372,17370); (17373,17371); (17374,17372); (17304,17373); (17376,17374); (17377,17375); (17378,17376); (17265,17377); (17380,17378); (17381,17379); (17382,17380); (17282,17381); (17384,17382); (17385,17383); (17386,17384); (17290,17385); (17388,17386); (17389,17387); (17390,17388); (17275,17389); (17392,17390); (17393,17391); (17394,17392); (17294,17393); (17396,17394); (17397,17395); (17398,17396); (17285,17397); (17400,17398)];
  [(17401,17399); (17402,17400); (17344,17401); (-1166,17402); (17348,17346); (17406,17347); (17306,17405); (17408,17406); (17410,17407); (17347,17346); (17411,17408); (17297,17410); (17413,17411); (17414,17412); (17415,17413); (17301,17414); (17417,17415); (17418,17416); (17419,17417); (17344,17418); (17421,17419); (17422,17420); (17423,17421); (17323,17422); (17425,17423); (17426,17424); (17427,17425); (17313,17426); (17429,17427); (17430,17428); (17431,17429); (17317,17430); (17433,17431); (17434,17432); (17435,17433); (17377,17434); (-1167,17435); (17098,17092); (17363,17340); (17440,17438); (17441,17439); (17442,17440); (17338,17441); (17444,17442); (17445,17443); (17446,17444); (17337,17445); (17448,17446); (17450,17447); (17094,17092); (17451,17448); (17351,17450); (17454,17451); (17328,17092); (17455,17452); (17456,17454); (17398,17455); (-1168,17456); (-1153,17014); (17345,17344); (17461,17459); (17462,17460); (17463,17461); (17349,17462); (17015,17014); (17466,17463); (17467,17465); (17468,17466); (17410,17467); (-1169,17468); (17471,17525); (17472,17470); (17414,17471); (-1170,17472); (17476,20345); (17477,17099); (17478,17474); (17480,17475); (17380,17476); (17639,17478); (17481,17477); (17423,17480); (-1171,17481); (17484,20650); (17485,17483); (17477,17484); (17518,17592); (17488,17546); (17492,17487); (17490,17037); (17432,17489); (-1172,17490); (17434,17488); (-1173,17492); (17495,17578); (17497,17494); (17038,17014); (17439,17495); (-1174,17497); (17080,17014); (17501,20618); (17502,17500); (17464,17501); (17559,17580); (17505,17567); (17506,17504); (17486,17505); (17508,17552); (17509,17507); (17451,17508); (-1175,17509); (17513,17564); (17055,17014); (17515,17511); (17302,17014); (17457,17513); (-1176,17515); (17520,17566); (17547,17486); (17288,17014); (17521,17517); (17414,17520); (17523,17521); (17524,17522); (17526,17523); (17470,17468); (17430,17524); (17528,17526); (17529,17527); (17530,17528); (17421,17529); (17532,17530); (17533,17531); (17534,17532); (17419,17533); (17536,17534); (17537,17535); (17538,17536); (17480,17537); (-1177,17538); (17541,17554); (17542,17540); (17484,17541); (-1178,17542); (17570,20651); (-1179,17506); (17487,17485); (17443,17518); (17549,17547); (17550,17548); (17551,17549); (17444,17550); (17507,17497); (17555,17551); (17540,17497); (17556,17553); (17557,17555); (17499,17556); (-1180,17557); (17560,17503); (17502,17559); (-1181,17560); (17563,17593); (17565,17562); (17511,17509); (17509,17563); (17517,17509); (17504,17502); (-1182,17565); (17577,17623); (17571,17544); (17545,17570); (17604,17657); (17574,17610); (17575,17573); (17462,17574); (17587,17575); (17579,17569); (17494,17485); (17522,17577); (17503,17502); (-1183,17579); (17583,17620); (17584,17582); (17526,17583); (-1184,17584); (17612,20652); (17588,17576); (17589,17587); (17476,17588); (17591,17589); (17594,17590); (17486,17485); (17562,17485); (17595,17591); (17537,17594); (-1185,17595); (17598,17642); (17599,17597); (17486,17598)];
  [(17601,17599); (17602,17600); (17603,17601); (17491,17602); (17611,17572); (17606,17603); (17607,17605); (17608,17606); (17550,17607); (-1186,17608); (17573,17571); (17524,17604); (17613,17586); (17555,17612); (-1188,17613); (17616,17670); (17617,17615); (17572,17616); (17619,17672); (17633,17618); (17582,17560); (17622,17611); (17624,17621); (17569,17565); (17625,17622); (17512,17624); (17627,17625); (17628,17626); (17629,17627); (17571,17628); (-1187,17629); (-1189,17617); (17658,20655); (17575,17619); (-1190,17633); (17636,17673); (17637,17635); (17579,17636); (-1191,17637); (17640,17479); (17641,17639); (17522,17640); (17597,17571); (17644,17641); (17645,17643); (17646,17644); (17588,17645); (-1192,17646); (17649,20653); (17650,17648); (17553,17649); (17674,20382); (17653,17650); (17654,17652); (17655,17653); (17535,17654); (17668,17655); (17572,17571); (17659,17632); (17850,17658); (17692,17950); (17662,17915); (17663,17661); (17550,17662); (17665,17663); (17666,17664); (17667,17665); (17566,17666); (17669,17656); (17671,17668); (17615,17613); (17616,17669); (17618,17617); (17635,17613); (17676,17651); (-1193,17671); (18009,17674); (17703,20623); (17982,18119); (17764,18075); (17681,17667); (17682,17680); (17683,17681); (17625,17682); (-1194,17683); (17686,17947); (17687,17685); (17574,17686); (17689,17687); (17690,17688); (17691,17689); (17579,17690); (17699,17660); (17694,17691); (17695,17693); (17696,17694); (17638,17695); (-1195,17696); (17717,17919); (17586,17692); (17701,17699); (17702,17700); (17713,17701); (17704,17677); (17810,17703); (17912,17918); (17707,17911); (17708,17706); (17607,17707); (17710,17708); (17711,17709); (17712,17710); (17598,17711); (17656,17702); (17725,17712); (-1196,17713); (17720,17965); (17718,17698); (17660,17717); (-1197,17718); (17748,17716); (17722,17951); (17723,17721); (17844,17722); (17767,17957); (17726,17714); (17728,17725); (17732,20656); (17697,17726); (17795,17811); (17731,17794); (17733,17730); (17753,17727); (17620,17731); (17735,17733); (17736,17734); (17737,17735); (17624,17736); (17739,17737); (17740,17738); (17741,17739); (17631,17740); (17743,17741); (17744,17742); (17745,17743); (17627,17744); (17747,17745); (17749,17746); (17646,17720); (17750,17747); (17704,17749); (17752,17748); (17916,17751); (17649,17732); (17755,17753); (17756,17754); (17757,17755); (17658,17756); (17759,17757); (17760,17758); (17761,17759); (17703,17760); (-1215,17761); (-1199,17750); (17956,17679); (17766,17946); (17768,17765); (17877,17724); (17653,17766); (17770,17768); (17771,17769); (17772,17770); (17738,17771); (17836,17852); (17775,17835); (17776,17774); (17663,17775); (17778,17776); (17779,17777); (17780,17778); (17667,17779); (17782,17780); (17783,17781); (17784,17782); (17674,17783); (17786,17784); (17787,17785); (17788,17786); (17670,17787); (17790,17788); (17791,17789); (17792,17790); (17734,17791); (-1200,17792); (17730,17728); (17796,17729); (17692,17795); (17798,17796); (17799,17797); (17800,17798)];
  [(17698,17799); (17802,17800); (17803,17801); (17804,17802); (17701,17803); (17806,17804); (17807,17805); (17808,17806); (17693,17807); (17810,17808); (17812,17809); (17729,17728); (17813,17810); (17717,17812); (17815,17813); (17816,17814); (17817,17815); (17704,17816); (17819,17817); (17820,17818); (17821,17819); (17708,17820); (17823,17821); (17824,17822); (17825,17823); (17715,17824); (17827,17825); (17828,17826); (17829,17827); (17711,17828); (17831,17829); (17832,17830); (17833,17831); (17775,17832); (-1201,17833); (17774,17772); (17837,17773); (17733,17836); (17839,17837); (17840,17838); (17841,17839); (17739,17840); (17843,17841); (17844,17842); (17845,17843); (17742,17844); (17847,17845); (17848,17846); (17849,17847); (17734,17848); (17851,17849); (17853,17850); (17773,17772); (17854,17851); (17758,17853); (17856,17854); (17857,17855); (17858,17856); (17745,17857); (17860,17858); (17861,17859); (17862,17860); (17749,17861); (17864,17862); (17865,17863); (17866,17864); (17756,17865); (17868,17866); (17869,17867); (17870,17868); (17752,17869); (17872,17870); (17873,17871); (17874,17872); (17816,17873); (-1202,17874); (17904,17959); (17819,17767); (-1203,17877); (17880,17932); (17881,17879); (17823,17880); (-1204,17881); (17884,17934); (17885,17883); (17778,17884); (17887,17885); (17888,17886); (17889,17887); (17793,17888); (17891,17889); (17892,17890); (17893,17891); (17784,17892); (17895,17893); (17896,17894); (17897,17895); (17782,17896); (17899,17897); (17900,17898); (17901,17899); (17843,17900); (-1205,17901); (-1198,17723); (17905,17876); (17847,17904); (-1206,17905); (17908,17962); (17909,17907); (17851,17908); (-1207,17909); (17706,17704); (17913,17705); (17855,17912); (-1208,17913); (17661,17659); (17917,17752); (17811,17916); (17705,17704); (17698,17659); (17921,17917); (17922,17920); (17923,17921); (17865,17922); (-1209,17923); (17927,17926); (17925,17704); (17928,17925); (17870,17927); (-1210,17928); (17931,17966); (17933,17930); (17879,17877); (17876,17931); (17883,17877); (-1211,17933); (17937,17990); (17938,17936); (17834,17937); (17940,17938); (17941,17939); (17942,17940); (17884,17941); (-1212,17942); (17945,17985); (17948,17944); (17765,17723); (17685,17659); (17890,17945); (-1213,17948); (17660,17659); (17721,17659); (17953,17988); (17954,17952); (17896,17953); (-1214,17954); (17844,17764); (17724,17723); (17960,17956); (17876,17723); (17961,17958); (17963,17960); (17907,17905); (17863,17961); (17968,17963); (17716,17659); (17930,17659); (17972,20658); (17969,17964); (17970,17968); (17874,17969); (17973,17970); (17993,17967); (17974,17971); (17975,17973); (17869,17974); (17977,17975); (17978,17976); (17979,17977); (17921,17978); (-1216,17979); (18025,18121); (17984,17678); (18006,20386); (17920,17982); (17944,17942); (17987,17984); (17989,17986); (17952,17928); (17991,17987); (17936,17933); (17878,17989); (18003,17991); (17955,17972); (18068,18071); (17996,18067); (17997,17995); (17896,17996); (17999,17997); (18000,17998)];
  [(18001,17999); (17943,18000); (-1219,18001); (18007,17992); (18005,18125); (18059,18004); (18008,17983); (18009,18003); (17911,18006); (17911,18007); (18011,18008); (18020,18010); (18013,18009); (18014,18012); (18015,18013); (17919,18014); (18017,18015); (18018,18016); (18019,18017); (17914,18018); (19916,18011); (18022,18019); (18023,18021); (18024,18022); (17921,18023); (18060,17981); (18027,18024); (18028,18026); (18029,18027); (17920,18028); (18031,18029); (18032,18030); (18033,18031); (17931,18032); (18035,18033); (18036,18034); (18037,18035); (17955,18036); (18039,18037); (18040,18038); (18041,18039); (17930,18040); (18043,18041); (18044,18042); (18045,18043); (17949,18044); (18047,18045); (18048,18046); (18049,18047); (17951,18048); (18051,18049); (18052,18050); (18053,18051); (17953,18052); (18055,18053); (18056,18054); (18057,18055); (17999,18056); (-1217,18057); (19568,18005); (17959,18025); (18062,18060); (18063,18061); (18064,18062); (18006,18063); (-1218,18064); (18074,19636); (17995,17993); (18069,17994); (18894,18068); (18573,18999); (17994,17993); (18073,19635); (18076,18072); (18150,18066); (17679,17676); (18017,18073); (18129,18134); (18079,18128); (18081,18078); (18085,20659); (17972,18079); (18083,18081); (18084,18082); (18086,18083); (18106,18080); (17984,18084); (18088,18086); (18089,18087); (18090,18088); (17977,18089); (18092,18090); (18093,18091); (18094,18092); (17978,18093); (18096,18094); (18097,18095); (18098,18096); (17998,18097); (18100,18098); (18101,18099); (18102,18100); (17993,18101); (18104,18102); (18105,18103); (18116,18104); (19645,18085); (19720,19756); (18109,19742); (18110,18108); (17997,18109); (18112,18110); (18113,18111); (18114,18112); (19615,18113); (18117,19712); (18006,18105); (18118,18115); (18012,18117); (17678,17676); (19675,18118); (17981,17676); (18123,18116); (18124,18122); (18126,18123); (18004,17676); (18068,18124); (-1223,18126); (18078,18076); (18130,18077); (18019,18129); (18132,18130); (18133,18131); (18135,18132); (18077,18076); (18069,18133); (18137,18135); (18138,18136); (18139,18137); (18043,18138); (18141,18139); (18142,18140); (18143,18141); (18032,18142); (18145,18143); (18146,18144); (18147,18145); (18089,18146); (-1224,18147); (18157,19637); (18040,18074); (18152,18150); (18153,18151); (18154,18152); (18038,18153); (18156,18154); (18159,18155); (18158,18149); (18177,18157); (18160,18156); (18063,18159); (18162,18160); (18163,18161); (18164,18162); (18057,18163); (18166,18164); (18167,18165); (18168,18166); (18068,18167); (18170,18168); (18171,18169); (18172,18170); (18087,18171); (18174,18172); (18175,18173); (18176,18174); (18076,18175); (18178,18176); (18179,18177); (18180,18178); (18067,18179); (18182,18180); (18183,18181); (18184,18182); (18069,18183); (18186,18184); (18187,18185); (18188,18186); (18084,18187); (18190,18188); (18191,18189); (18192,18190); (18094,18191); (18194,18192); (18195,18193); (18196,18194); (18100,18195); (18198,18196); (18199,18197); (18200,18198)];
  [(18093,18199); (18202,18200); (18203,18201); (18204,18202); (18139,18203); (18206,18204); (18207,18205); (18208,18206); (18112,18207); (18210,18208); (18211,18209); (18212,18210); (18099,18211); (18214,18212); (18215,18213); (18216,18214); (18158,18215); (-1225,18216); (18226,19639); (18248,18290); (18221,18285); (18222,18220); (18122,18221); (18224,18222); (18225,18223); (18229,18224); (18227,18218); (18114,18226); (18308,18227); (18121,18225); (18231,18229); (18232,18230); (18233,18231); (18133,18232); (18235,18233); (18236,18234); (18237,18235); (18128,18236); (18239,18237); (18240,18238); (18241,18239); (18126,18240); (18243,18241); (18244,18242); (18245,18243); (18187,18244); (-1226,18245); (18252,18297); (18249,18219); (18134,18248); (-1222,18071); (18253,18249); (18286,18247); (18254,18251); (18255,18253); (18159,18254); (18257,18255); (18258,18256); (18259,18257); (18152,18258); (18261,18259); (18262,18260); (18263,18261); (18205,18262); (-1227,18263); (18266,18289); (18267,18265); (18163,18266); (18269,18267); (18270,18268); (18271,18269); (18164,18270); (18273,18271); (18274,18272); (18275,18273); (18176,18274); (18277,18275); (18278,18276); (18279,18277); (18179,18278); (18281,18279); (18282,18280); (18283,18281); (18225,18282); (-1228,18283); (18220,18158); (18182,18252); (18288,18286); (18291,18287); (18265,18263); (18219,18158); (18292,18288); (18178,18291); (18294,18292); (18295,18293); (18296,18294); (18182,18295); (18247,18158); (18299,18296); (18300,18298); (18301,18299); (18187,18300); (18303,18301); (18304,18302); (18305,18303); (18247,18304); (-1229,18305); (18315,19640); (18309,18228); (18310,18308); (18210,18309); (18312,18310); (18313,18311); (18314,18312); (18221,18313); (18316,18307); (18200,18315); (18319,18316); (18320,18314); (18501,18317); (18321,18318); (18322,18320); (18207,18321); (18324,18322); (18325,18323); (18326,18324); (18226,18325); (18328,18326); (18329,18327); (18330,18328); (18217,18329); (18332,18330); (18333,18331); (18334,18332); (18422,18333); (18345,18492); (18337,18491); (18338,18336); (18226,18337); (18340,18338); (18341,18339); (18342,18340); (18226,18341); (18344,18342); (18346,18343); (18358,18335); (18347,18344); (18251,18346); (18349,18347); (18350,18348); (18351,18349); (18244,18350); (18353,18351); (18354,18352); (18355,18353); (18297,18354); (-1231,18355); (18367,18493); (18242,18345); (18360,18358); (18361,18359); (18362,18360); (18255,18361); (18364,18362); (18365,18363); (18366,18364); (18261,18365); (18368,18357); (18281,18367); (18370,18366); (18371,18369); (18372,18370); (18304,18371); (18374,18372); (18375,18373); (18376,18374); (18264,18375); (18378,18376); (18379,18377); (18380,18378); (18264,18379); (18382,18380); (18383,18381); (18384,18382); (18288,18383); (18386,18384); (18387,18385); (18388,18386); (18281,18387); (18390,18388); (18391,18389); (18392,18390); (18334,18391); (-1232,18392); (18404,18498); (18396,18368); (18397,18395); (18398,18396); (18298,18397); (18400,18398)];
  [(18401,18399); (18402,18400); (18306,18401); (18407,18402); (18405,18394); (18305,18404); (18424,18405); (18408,18403); (18409,18407); (18294,18408); (18411,18409); (18412,18410); (18413,18411); (18313,18412); (18415,18413); (18416,18414); (18417,18415); (18304,18416); (18419,18417); (18420,18418); (18421,18419); (18363,18420); (-1233,18421); (18433,18506); (18425,18406); (18426,18424); (18312,18425); (18428,18426); (18429,18427); (18430,18428); (18316,18429); (18432,18430); (18436,18431); (18434,18423); (18330,18433); (18440,18434); (18437,18432); (18379,18436); (-1234,18437); (18441,18505); (18447,18435); (18442,18439); (18335,18441); (18444,18442); (18445,18443); (18446,18444); (18351,18445); (18482,18440); (18449,18446); (18450,18448); (18451,18449); (18342,18450); (18453,18451); (18454,18452); (18455,18453); (18340,18454); (18457,18455); (18458,18456); (18459,18457); (18391,18458); (18461,18459); (18462,18460); (18463,18461); (18351,18462); (18465,18463); (18466,18464); (18467,18465); (18351,18466); (18469,18467); (18470,18468); (18471,18469); (18375,18470); (18473,18471); (18474,18472); (18475,18473); (18368,18474); (18477,18475); (18478,18476); (18479,18477); (18421,18478); (-1235,18479); (-1230,18334); (18375,18447); (18484,18482); (18485,18483); (18486,18484); (18387,18485); (18488,18486); (18489,18487); (18490,18488); (18393,18489); (18336,18334); (18335,18334); (18357,18334); (18495,18490); (18496,18494); (18497,18495); (18440,18496); (18394,18334); (-1236,18497); (18508,19644); (18502,18319); (18394,18501); (18504,18502); (18507,18503); (18439,18334); (18423,18334); (18511,18504); (18509,18500); (18409,18508); (18512,18509); (18402,18507); (18513,18510); (18616,18512); (18515,18511); (18516,18514); (18517,18515); (18483,18516); (18553,18552); (18520,18551); (18521,18519); (18411,18520); (18523,18521); (18524,18522); (18525,18523); (18407,18524); (18527,18525); (18528,18526); (18529,18527); (18420,18528); (18531,18529); (18532,18530); (18533,18531); (18462,18532); (18535,18533); (18536,18534); (18537,18535); (18421,18536); (18539,18537); (18540,18538); (18541,18539); (18433,18540); (18543,18541); (18544,18542); (18545,18543); (18434,18544); (18547,18545); (18548,18546); (18549,18547); (18491,18548); (-1237,18549); (18519,18517); (18518,18517); (18554,18518); (18442,18553); (18556,18554); (18557,18555); (18558,18556); (18442,18557); (18560,18558); (18561,18559); (18562,18560); (18466,18561); (18564,18562); (18565,18563); (18566,18564); (18459,18565); (18568,18566); (18569,18567); (18570,18568); (18512,18569); (-1238,18570); (18618,19004); (18574,18070); (18465,18573); (18576,18574); (18577,18575); (18578,18576); (18533,18577); (18593,18602); (18581,18633); (18582,18580); (18472,18581); (18584,18582); (18585,18583); (18586,18584); (18471,18585); (18588,18586); (18589,18587); (18590,18588); (18532,18589); (-1240,18590); (-1239,18578); (18594,18579); (18536,18593); (-1241,18594); (18597,18651); (18598,18596); (18513,18597); (18607,18611)];
  [(18601,18610); (18603,18600); (18579,18578); (18545,18601); (-1242,18603); (18606,18612); (18613,18605); (18608,18599); (18550,18607); (-1243,18608); (18600,18598); (18599,18598); (18605,18598); (18555,18606); (-1244,18613); (18623,19646); (18599,18513); (18702,18714); (18954,18572); (18620,18701); (18621,18619); (18506,18620); (18626,18621); (18624,18615); (18524,18623); (18627,18624); (18629,18622); (18628,18625); (18632,18627); (18630,18626); (18547,18629); (18634,18630); (18723,18628); (18580,18578); (18635,18631); (18636,18634); (18523,18635); (18638,18636); (18639,18637); (18640,18638); (18536,18639); (18642,18640); (18643,18641); (18644,18642); (18548,18643); (18646,18644); (18647,18645); (18648,18646); (18539,18647); (18650,18648); (18652,18649); (18596,18578); (18653,18650); (18551,18652); (18655,18653); (18656,18654); (18657,18655); (18550,18656); (18659,18657); (18660,18658); (18661,18659); (18561,18660); (18663,18661); (18664,18662); (18665,18663); (18621,18664); (18673,18690); (18668,18687); (18669,18667); (18573,18668); (18671,18669); (18672,18670); (18674,18671); (18681,18666); (18561,18672); (18676,18674); (18677,18675); (18678,18676); (18620,18677); (-1246,18678); (-1245,18665); (18569,18673); (18683,18681); (18684,18682); (18685,18683); (18569,18684); (18688,18685); (18667,18665); (18689,18686); (18691,18688); (18666,18665); (18595,18689); (18693,18691); (18694,18692); (18695,18693); (18588,18694); (18697,18695); (18698,18696); (18699,18697); (18641,18698); (-1247,18699); (18619,18616); (18703,18617); (18589,18702); (18705,18703); (18706,18704); (18707,18705); (18759,18706); (18718,18830); (18710,18828); (18711,18709); (18599,18710); (18713,18711); (18715,18712); (18617,18616); (18716,18713); (18600,18715); (18719,18716); (18732,18708); (18720,18717); (18721,18719); (18625,18720); (18723,18721); (18724,18722); (18725,18723); (18618,18724); (18727,18725); (18728,18726); (18729,18727); (18671,18728); (-1249,18729); (18741,18835); (18619,18718); (18734,18732); (18735,18733); (18736,18734); (18636,18735); (18738,18736); (18739,18737); (18740,18738); (18645,18739); (18743,18731); (18744,18740); (18660,18741); (18745,18742); (18746,18744); (18631,18745); (18748,18746); (18749,18747); (18750,18748); (18650,18749); (18752,18750); (18753,18751); (18754,18752); (18641,18753); (18756,18754); (18757,18755); (18758,18756); (18700,18757); (-1250,18758); (18770,18843); (18762,18743); (18763,18761); (18764,18762); (18650,18763); (18766,18764); (18767,18765); (18768,18766); (18654,18767); (18771,18768); (18772,18760); (18773,18769); (18672,18770); (18774,18771); (18716,18773); (-1251,18774); (18778,18842); (18784,18772); (18779,18776); (18672,18778); (18781,18779); (18782,18780); (18783,18781); (18688,18782); (18819,18777); (18786,18783); (18787,18785); (18788,18786); (18679,18787); (18790,18788); (18791,18789); (18792,18790); (18677,18791); (18794,18792); (18795,18793); (18796,18794); (18728,18795); (18798,18796); (18799,18797); (18800,18798)];
  [(18688,18799); (18802,18800); (18803,18801); (18804,18802); (18688,18803); (18806,18804); (18807,18805); (18808,18806); (18712,18807); (18810,18808); (18811,18809); (18812,18810); (18705,18811); (18814,18812); (18815,18813); (18816,18814); (18758,18815); (-1252,18816); (-1248,18707); (18820,18784); (18713,18819); (18822,18820); (18823,18821); (18824,18822); (18725,18823); (18826,18824); (18827,18825); (18829,18826); (18709,18707); (18730,18827); (18708,18707); (18832,18829); (18833,18831); (18834,18832); (18777,18833); (18731,18707); (-1253,18834); (18845,19648); (18839,18632); (18840,18838); (18841,18839); (18728,18840); (18776,18707); (18760,18707); (18848,18841); (18846,18837); (18733,18845); (18849,18846); (18851,18844); (18850,18847); (18854,18849); (18852,18848); (18752,18851); (18855,18852); (18755,18850); (18857,18853); (18978,18854); (18858,18855); (18759,18857); (18860,18858); (18861,18859); (18862,18860); (18849,18861); (18921,18925); (18865,18920); (18866,18864); (18753,18865); (18868,18866); (18869,18867); (18870,18868); (18770,18869); (18872,18870); (18873,18871); (18874,18872); (18778,18873); (18876,18874); (18877,18875); (18878,18876); (18763,18877); (18880,18878); (18881,18879); (18882,18880); (18782,18881); (18884,18882); (18885,18883); (18886,18884); (18773,18885); (18888,18886); (18889,18887); (18890,18888); (18820,18889); (18892,18890); (18893,18891); (18894,18892); (18781,18893); (18896,18894); (18897,18895); (18898,18896); (18798,18897); (18900,18898); (18901,18899); (18902,18900); (18806,18901); (18904,18902); (18905,18903); (18906,18904); (18791,18905); (18908,18906); (18909,18907); (18910,18908); (18810,18909); (18912,18910); (18913,18911); (18914,18912); (18801,18913); (18916,18914); (18917,18915); (18918,18916); (18860,18917); (-1254,18918); (18864,18862); (18922,18863); (18822,18921); (18924,18922); (18926,18923); (18863,18862); (18927,18924); (18813,18926); (18929,18927); (18930,18928); (18931,18929); (18817,18930); (18933,18931); (18934,18932); (18935,18933); (18860,18934); (18937,18935); (18938,18936); (18939,18937); (18839,18938); (18941,18939); (18942,18940); (18943,18941); (18829,18942); (18945,18943); (18946,18944); (18947,18945); (18833,18946); (18949,18947); (18950,18948); (18951,18949); (18893,18950); (-1255,18951); (-1221,18069); (18850,18618); (18956,18954); (18957,18955); (18958,18956); (18900,18957); (-1256,18958); (18961,19018); (18962,18960); (18876,18961); (18970,18974); (18965,18973); (18966,18964); (18908,18965); (-1257,18966); (18969,18975); (18976,18968); (18971,18963); (18913,18970); (-1258,18971); (18964,18962); (18963,18962); (18968,18962); (18918,18969); (-1259,18976); (18980,18856); (18987,19650); (18981,18978); (18883,18980); (18983,18981); (18984,18982); (18985,18983); (18885,18984); (18990,18985); (18988,18979); (19032,18987); (19134,19137); (18993,18986); (18992,19133); (18996,18991); (18994,18990); (18895,18993); (18997,18994); (18880,18992); (19001,18995); (19000,18996); (18070,18069)];
  [(19077,18998); (19002,18997); (18902,19001); (19005,19002); (18572,18069); (19006,19003); (19007,19005); (18893,19006); (19009,19007); (19010,19008); (19011,19009); (18953,19010); (-1260,19011); (19014,19022); (19015,19013); (18903,19014); (19017,19015); (19019,19016); (18960,18958); (19020,19017); (18904,19019); (19023,19020); (19013,19011); (19024,19021); (19025,19023); (18929,19024); (19027,19025); (19028,19026); (19029,19027); (18922,19028); (19031,19029); (19032,19030); (19033,19031); (18975,19032); (-1261,19033); (19037,19036); (19035,19011); (19038,19035); (18931,19037); (19040,19038); (19041,19039); (19042,19040); (18946,19041); (19044,19042); (19045,19043); (19046,19044); (18937,19045); (19048,19046); (19049,19047); (19050,19048); (18935,19049); (19052,19050); (19053,19051); (19054,19052); (18986,19053); (19056,19054); (19057,19055); (19058,19056); (18946,19057); (19060,19058); (19061,19059); (19062,19060); (18946,19061); (19064,19062); (19065,19063); (19066,19064); (18970,19065); (19068,19066); (19069,19067); (19070,19068); (18963,19069); (19072,19070); (19073,19071); (19074,19072); (19016,19073); (-1262,19074); (19084,19651); (19078,19000); (18978,19077); (19080,19078); (19081,19079); (19082,19080); (18969,19081); (19087,19082); (19085,19076); (19219,19084); (19333,19336); (19090,19083); (19089,19332); (19093,19088); (19091,19087); (18977,19090); (19094,19091); (18978,19089); (19096,19092); (19097,19093); (19098,19094); (19099,19095); (18999,19096); (19217,19097); (19101,19098); (19102,19100); (19103,19101); (19035,19102); (19105,19103); (19106,19104); (19107,19105); (19000,19106); (19109,19107); (19110,19108); (19111,19109); (19011,19110); (19113,19111); (19114,19112); (19115,19113); (19007,19114); (19117,19115); (19118,19116); (19119,19117); (19019,19118); (19121,19119); (19122,19120); (19123,19121); (19014,19122); (19125,19123); (19126,19124); (19127,19125); (19012,19126); (19129,19127); (19130,19128); (19131,19129); (19073,19130); (-1263,19131); (18991,18988); (19135,18989); (19033,19134); (19138,19135); (18989,18988); (19139,19136); (19140,19138); (19037,19139); (19142,19140); (19143,19141); (19144,19142); (19029,19143); (19146,19144); (19147,19145); (19148,19146); (19065,19147); (19150,19148); (19151,19149); (19152,19150); (19039,19151); (19154,19152); (19155,19153); (19156,19154); (19052,19155); (19158,19156); (19159,19157); (19160,19158); (19064,19159); (19162,19160); (19163,19161); (19164,19162); (19055,19163); (19166,19164); (19167,19165); (19168,19166); (19066,19167); (19170,19168); (19171,19169); (19172,19170); (19065,19171); (19174,19172); (19175,19173); (19176,19174); (19076,19175); (19178,19176); (19179,19177); (19180,19178); (19136,19179); (19188,19205); (19183,19202); (19184,19182); (19088,19183); (19186,19184); (19187,19185); (19189,19186); (19196,19181); (19076,19187); (19191,19189); (19192,19190); (19193,19191); (19135,19192); (-1265,19193); (-1264,19180); (19084,19188); (19198,19196); (19199,19197); (19200,19198)];
  [(19084,19199); (19203,19200); (19182,19180); (19204,19201); (19206,19203); (19181,19180); (19110,19204); (19208,19206); (19209,19207); (19210,19208); (19103,19209); (19212,19210); (19213,19211); (19214,19212); (19156,19213); (-1266,19214); (19224,19652); (19121,19099); (19219,19217); (19220,19218); (19221,19219); (19108,19220); (19223,19221); (19227,19222); (19225,19216); (19121,19224); (19228,19225); (19230,19223); (19229,19226); (19233,19228); (19130,19227); (19232,19230); (19234,19231); (19127,19229); (19236,19232); (19237,19233); (19155,19234); (19239,19235); (19241,19236); (19240,19237); (19429,19239); (19242,19238); (19243,19241); (19127,19242); (19245,19243); (19246,19244); (19247,19245); (19188,19246); (19287,19300); (19250,19286); (19251,19249); (19137,19250); (19253,19251); (19254,19252); (19255,19253); (19155,19254); (19257,19255); (19258,19256); (19259,19257); (19144,19258); (19261,19259); (19262,19260); (19263,19261); (19205,19262); (-1267,19263); (19266,19274); (19267,19265); (19155,19266); (19269,19267); (19270,19268); (19271,19269); (19155,19270); (19273,19271); (19275,19272); (19265,19263); (19276,19273); (19180,19275); (19278,19276); (19279,19277); (19280,19278); (19173,19279); (19282,19280); (19283,19281); (19284,19282); (19226,19283); (-1268,19284); (19249,19247); (19288,19248); (19188,19287); (19290,19288); (19291,19289); (19292,19290); (19179,19291); (19294,19292); (19295,19293); (19296,19294); (19182,19295); (19298,19296); (19299,19297); (19301,19298); (19248,19247); (19201,19299); (19303,19301); (19304,19302); (19305,19303); (19190,19304); (19307,19305); (19308,19306); (19309,19307); (19251,19308); (-1269,19309); (19312,19320); (19313,19311); (19201,19312); (19315,19313); (19316,19314); (19317,19315); (19201,19316); (19319,19317); (19321,19318); (19311,19309); (19322,19319); (19226,19321); (19324,19322); (19325,19323); (19326,19324); (19219,19325); (19328,19326); (19329,19327); (19330,19328); (19272,19329); (-1270,19330); (19088,19085); (19334,19086); (19382,19333); (19376,19481); (19086,19085); (19338,19480); (19339,19337); (19225,19338); (19341,19339); (19342,19340); (19343,19341); (19243,19342); (19345,19343); (19346,19344); (19347,19345); (19232,19346); (19349,19347); (19350,19348); (19351,19349); (19293,19350); (-1271,19351); (19354,19362); (19355,19353); (19243,19354); (19357,19355); (19358,19356); (19359,19357); (19243,19358); (19361,19359); (19363,19360); (19353,19351); (19364,19361); (19268,19363); (19366,19364); (19367,19365); (19368,19366); (19261,19367); (19370,19368); (19371,19369); (19372,19370); (19314,19371); (-1272,19372); (19375,19494); (19482,19374); (19377,19335); (19279,19376); (19379,19377); (19380,19378); (19381,19379); (19281,19380); (19383,19381); (19384,19382); (19385,19383); (19285,19384); (19387,19385); (19388,19386); (19389,19387); (19290,19388); (19391,19389); (19392,19390); (19393,19391); (19279,19392); (19395,19393); (19396,19394); (19397,19395); (19402,19396); (19408,19486); (19400,19471)];
  [(19401,19399); (19289,19400); (19403,19401); (19404,19402); (19405,19403); (19289,19404); (19407,19405); (19409,19406); (19422,19398); (19410,19407); (19314,19409); (19412,19410); (19413,19411); (19414,19412); (19307,19413); (19416,19414); (19417,19415); (19418,19416); (19360,19417); (-1274,19418); (19421,19485); (19423,19420); (19357,19408); (19316,19421); (19425,19423); (19426,19424); (19427,19425); (19331,19426); (19429,19427); (19430,19428); (19431,19429); (19322,19430); (19433,19431); (19434,19432); (19435,19433); (19320,19434); (19437,19435); (19438,19436); (19439,19437); (19371,19438); (19441,19439); (19442,19440); (19443,19441); (19331,19442); (19445,19443); (19446,19444); (19447,19445); (19331,19446); (19449,19447); (19450,19448); (19451,19449); (19355,19450); (19453,19451); (19454,19452); (19455,19453); (19348,19454); (19457,19455); (19458,19456); (19459,19457); (19401,19458); (-1275,19459); (-1273,19397); (19463,19422); (19464,19462); (19465,19463); (19358,19464); (19467,19465); (19468,19466); (19469,19467); (19370,19468); (19472,19469); (19399,19397); (19473,19470); (19474,19472); (19374,19473); (19476,19474); (19477,19475); (19478,19476); (19420,19477); (-1276,19478); (19337,19334); (19335,19334); (19382,19375); (19484,19482); (19487,19483); (19420,19397); (19398,19397); (19488,19484); (19375,19487); (19490,19488); (19491,19489); (19492,19490); (19378,19491); (19495,19492); (19374,19334); (19496,19493); (19497,19495); (19397,19496); (19499,19497); (19500,19498); (19501,19499); (19386,19500); (19503,19501); (19504,19502); (19505,19503); (19447,19504); (-1277,19505); (19508,19516); (19509,19507); (19397,19508); (19511,19509); (19512,19510); (19513,19511); (19397,19512); (19515,19513); (19517,19514); (19507,19505); (19518,19515); (19422,19517); (19520,19518); (19521,19519); (19522,19520); (19415,19521); (19524,19522); (19525,19523); (19526,19524); (19468,19525); (-1278,19526); (19536,19654); (19530,19240); (19531,19529); (19532,19530); (19432,19531); (19534,19532); (19535,19533); (19539,19534); (19537,19528); (19437,19536); (19540,19537); (19548,19535); (19541,19538); (19545,19540); (19543,19617); (19546,19542); (19554,19618); (19433,19541); (19435,19543); (19549,19545); (19550,19546); (19551,19547); (19555,19548); (19552,19549); (19437,19551); (19628,19552); (19571,19544); (19556,19550); (19440,19555); (19558,19556); (19559,19557); (19560,19558); (19464,19559); (19562,19560); (19563,19561); (19564,19562); (19457,19563); (19566,19564); (19567,19565); (19568,19566); (19510,19567); (-1280,19568); (19580,19632); (19455,19554); (19573,19571); (19574,19572); (19575,19573); (19468,19574); (19577,19575); (19578,19576); (19579,19577); (19474,19578); (19581,19570); (19503,19580); (19583,19579); (19584,19582); (19585,19583); (19517,19584); (19587,19585); (19588,19586); (19589,19587); (19477,19588); (19591,19589); (19592,19590); (19593,19591); (19477,19592); (19595,19593); (19596,19594); (19597,19595); (19501,19596); (19599,19597); (19600,19598)];
  [(19601,19599); (19494,19600); (19603,19601); (19604,19602); (19605,19603); (19547,19604); (-1281,19605); (-1279,19539); (19609,19581); (19610,19608); (19611,19609); (19504,19610); (19613,19611); (19614,19612); (19615,19613); (19516,19614); (19619,19615); (19542,19539); (19544,19539); (19620,19616); (19621,19619); (19521,19620); (19623,19621); (19624,19622); (19625,19623); (19567,19624); (-1282,19625); (-1220,18059); (19629,19553); (19630,19628); (19526,19629); (19633,19630); (19570,19539); (19634,19631); (19638,19633); (18072,18059); (18066,18059); (18149,18059); (19542,19634); (18218,18059); (18307,18059); (19642,19638); (19643,19641); (19645,19642); (18500,18059); (19550,19643); (18615,18059); (19649,19645); (18837,18059); (19653,19647); (18979,18059); (19076,18059); (19216,18059); (19655,19649); (19528,18059); (19548,19653); (19657,19655); (19658,19656); (19659,19657); (19594,19658); (19661,19659); (19662,19660); (19663,19661); (19567,19662); (19665,19663); (19666,19664); (19667,19665); (19554,19666); (19669,19667); (19670,19668); (19671,19669); (19613,19670); (-1283,19671); (19678,20661); (-1284,18114); (19676,18120); (19677,19675); (19571,19676); (19699,19673); (19680,19677); (19681,19679); (19682,19680); (19582,19681); (19684,19682); (19685,19683); (19686,19684); (19579,19685); (19688,19686); (19689,19687); (19690,19688); (19632,19689); (-1285,19690); (19693,19730); (19694,19692); (19587,19693); (19696,19694); (19697,19695); (19698,19696); (19650,19697); (19832,19678); (19776,19929); (19702,19897); (19703,19701); (19590,19702); (19705,19703); (19706,19704); (19707,19705); (19594,19706); (19710,19707); (-1286,19698); (19711,19708); (19713,19710); (18115,18114); (19655,19711); (-1294,19713); (19716,19731); (19717,19715); (19659,19716); (-1287,19717); (19733,19759); (19721,18107); (19614,19720); (19723,19721); (19724,19722); (19725,19723); (19621,19724); (19727,19725); (19728,19726); (19729,19727); (19622,19728); (19692,18114); (19715,18114); (19734,19729); (19743,19719); (19735,19732); (19736,19734); (19621,19735); (19738,19736); (19739,19737); (19740,19738); (19682,19739); (-1288,19740); (18108,18106); (19685,19733); (-1289,19743); (19746,19784); (19747,19745); (19631,19746); (19749,19747); (19750,19748); (19751,19749); (19651,19750); (19753,19751); (19754,19752); (19755,19753); (19698,19754); (18107,18106); (-1290,19755); (19760,19786); (19719,18106); (19761,19758); (19703,19760); (-1291,19761); (19764,19802); (19765,19763); (19707,19764); (-1292,19765); (19768,19808); (19769,19767); (19657,19768); (19771,19769); (19772,19770); (19773,19771); (19715,19772); (-1293,19773); (19807,19937); (19777,19700); (19664,19776); (19779,19777); (19780,19778); (19781,19779); (19668,19780); (19785,19781); (19788,20629); (19745,19743); (19787,19782); (19758,19743); (19789,19785); (19799,19783); (19731,19787); (-1295,19789); (19792,19830); (19793,19791); (19735,19792); (-1296,19793); (19796,19850); (19797,19795); (19739,19796); (-1297,19797); (19695,19788)];
  [(19801,19799); (19803,19800); (19763,19761); (19804,19801); (19702,19803); (19806,19804); (19809,19805); (19845,19775); (19767,19765); (19810,19806); (19707,19809); (19812,19810); (19813,19811); (19814,19812); (19699,19813); (19816,19814); (19817,19815); (19818,19816); (19722,19817); (19820,19818); (19821,19819); (19822,19820); (19709,19821); (19824,19822); (19825,19823); (19826,19824); (19714,19825); (19832,20662); (19829,19826); (19831,19828); (19791,19789); (19833,19829); (19838,19827); (19723,19831); (19835,19833); (19836,19834); (19837,19835); (19720,19836); (19998,19832); (19840,19837); (19841,19839); (19842,19840); (19784,19841); (-1298,19842); (19876,19948); (19743,19807); (19847,19845); (19848,19846); (19849,19847); (19747,19848); (19795,19789); (19852,19849); (19863,19851); (19928,20102); (19855,20097); (19856,19854); (19872,19855); (19858,19971); (19859,19857); (19743,19858); (19861,19859); (19862,19860); (19864,19861); (19866,19852); (19764,19862); (19867,19864); (19753,19863); (19868,19865); (19870,19867); (19871,19866); (19852,19868); (19872,19869); (19873,19871); (19777,19872); (19875,19873); (19877,19874); (19884,19844); (19878,19875); (19765,19877); (19880,19878); (19881,19879); (19882,19880); (19769,19881); (19885,19882); (19784,19876); (19886,19883); (19887,19885); (19777,19886); (19889,19887); (19890,19888); (19891,19889); (19773,19890); (19893,19891); (19894,19892); (19895,19893); (19837,19894); (-1299,19895); (19701,19699); (19899,19884); (19900,19898); (19901,19899); (19797,19900); (19903,19901); (19904,19902); (19905,19903); (19848,19904); (19908,19949); (-1300,19905); (19909,19906); (19851,19908); (-1301,19909); (-1303,19870); (19913,19973); (19914,19912); (19856,19913); (-1304,19914); (19803,18020); (19918,19916); (19919,19917); (19920,19918); (19862,19919); (-1305,19920); (19923,19986); (19924,19922); (19867,19923); (19930,20663); (-1306,19924); (19932,20103); (19933,19853); (19700,19699); (19936,19925); (-1302,19856); (20023,19927); (19823,19928); (19935,19933); (19938,19934); (20150,19930); (19775,19699); (19939,19935); (19826,19938); (19941,19939); (19942,19940); (19943,19941); (19828,19942); (19945,19943); (19946,19944); (19950,19945); (19960,20387); (19844,19699); (19906,19905); (19880,19946); (20209,20255); (19953,20253); (19954,19952); (19847,19953); (19956,19954); (19957,19955); (19958,19956); (19900,19957); (-1330,19958); (19962,19947); (19990,19992); (19858,19960); (19965,19962); (19967,19989); (19966,19963); (19968,19965); (19976,19964); (19861,19966); (19970,19968); (19972,19969); (19857,19856); (19974,19970); (19912,19856); (19875,19972); (19984,19974); (19872,19967); (19978,19976); (19979,19977); (19980,19978); (19881,19979); (19982,19980); (19983,19981); (19985,19982); (19988,19975); (19928,19983); (19922,19856); (-1307,19985); (20199,19984); (19964,19950); (19991,19961); (19896,19990); (19961,19950); (19994,19991); (19995,19993); (19996,19994); (19883,19995); (19998,19996); (19999,19997); (20000,19998)];
  [(19904,19999); (20002,20000); (20003,20001); (20004,20002); (19897,20003); (20006,20004); (20007,20005); (20008,20006); (19901,20007); (20010,20008); (20011,20009); (20012,20010); (19912,20011); (20014,20012); (20015,20013); (20016,20014); (19909,20015); (20018,20016); (20019,20017); (20020,20018); (19962,20019); (-1308,20020); (20027,20107); (19915,19932); (20025,20023); (20026,20024); (20029,20025); (20028,20022); (19935,20027); (19971,20026); (-1309,20029); (20032,20072); (20033,20031); (19975,20032); (-1310,20033); (20036,20088); (20037,20035); (19979,20036); (-1311,20037); (20044,20111); (20041,20028); (20042,20040); (20043,20041); (19946,20042); (20045,20039); (19934,20044); (20047,20043); (20048,20046); (20050,20047); (20052,20045); (19992,20048); (-1312,20050); (20066,20049); (20054,20110); (20055,20053); (19959,20054); (20057,20055); (20058,20056); (20059,20057); (19946,20058); (20061,20059); (20062,20060); (20063,20061); (20005,20062); (-1313,20063); (20070,20115); (20067,20052); (19951,20066); (20069,20067); (20073,20068); (20071,20065); (20060,20070); (20031,20029); (20074,20069); (19978,20073); (20142,20159); (20077,20074); (20080,20076); (20079,20158); (20098,20078); (20081,20077); (19981,20080); (20083,20081); (20084,20082); (20085,20083); (20027,20084); (-1314,20085); (20089,20090); (20035,20033); (20091,20087); (20087,20074); (19991,20089); (20093,20091); (20094,20092); (20095,20093); (20037,20094); (-1315,20095); (19854,19838); (20040,20079); (-1316,20098); (20101,20109); (20104,20100); (19853,19838); (19927,19838); (20046,20101); (-1317,20104); (20108,20141); (20022,19838); (20112,20106); (20100,20098); (20053,19838); (20039,19838); (20054,20108); (-1318,20112); (20116,20155); (20065,19838); (20117,20114); (20017,20116); (20119,20117); (20120,20118); (20121,20119); (20006,20120); (20123,20121); (20124,20122); (20125,20123); (20067,20124); (-1319,20125); (20128,20168); (20129,20127); (20017,20128); (20131,20129); (20132,20130); (20133,20131); (20075,20132); (-1320,20133); (20136,20188); (20137,20135); (20079,20136); (-1321,20137); (20140,20172); (20160,20139); (20106,20098); (20143,20075); (20045,20142); (20145,20143); (20146,20144); (20147,20145); (20089,20146); (-1322,20147); (20150,20190); (20151,20149); (20039,20150); (20153,20151); (20154,20152); (20156,20153); (20114,20098); (20098,20154); (-1323,20156); (20078,20071); (20075,20071); (20102,20140); (-1324,20160); (20163,20171); (20164,20162); (20106,20163); (-1325,20164); (20167,20203); (20169,20166); (20127,20125); (20111,20167); (-1326,20169); (20162,20160); (20139,20071); (20174,20217); (20175,20173); (20075,20174); (20177,20175); (20178,20176); (20179,20177); (20064,20178); (20181,20179); (20182,20180); (20183,20181); (20125,20182); (-1327,20183); (20186,20226); (20187,20185); (20076,20186); (20135,20133); (20191,20187); (20149,20147); (20192,20189); (20193,20191); (20135,20192); (-1328,20193); (20196,20248); (20197,20195); (20139,20196); (-1329,20197); (20099,19988)];
  [(20202,20199); (20206,20664); (20204,20200); (20166,20160); (20205,20202); (20148,20204); (20212,20201); (-1331,20205); (20210,20258); (20211,19951); (20243,20208); (20105,20209); (20291,20206); (20214,20211); (20215,20213); (20216,20214); (20118,20215); (20173,20160); (20219,20216); (20220,20218); (20221,20219); (20121,20220); (20223,20221); (20225,20222); (20247,20388); (20237,20223); (20185,20183); (20228,20400); (20229,20227); (20288,20228); (20231,20389); (20232,20230); (20119,20231); (20234,20232); (20235,20233); (20236,20234); (20127,20235); (20181,20225); (20239,20236); (20241,20238); (-1333,20237); (20242,20239); (20185,20241); (20147,20210); (-1343,20242); (20246,20403); (20252,20245); (20249,20224); (20195,20193); (20192,20247); (20254,20243); (-1340,20249); (20149,20246); (19952,19936); (20256,20250); (19951,19936); (20257,20254); (20200,20256); (20208,19936); (-1335,20257); (20262,20264); (20265,20252); (20263,20260); (20162,20262); (20260,19936); (20266,20261); (20346,20265); (20268,20263); (20269,20267); (20270,20268); (20174,20269); (20272,20270); (20273,20271); (20274,20272); (20165,20273); (20276,20274); (20277,20275); (20278,20276); (20176,20277); (20280,20278); (20281,20279); (20282,20280); (20175,20281); (20284,20282); (20285,20283); (20286,20284); (20186,20285); (20288,20286); (20289,20287); (20290,20288); (20208,20289); (20317,20322); (20293,20316); (20294,20292); (20194,20293); (20296,20294); (20297,20295); (20298,20296); (20197,20297); (20300,20298); (20301,20299); (20302,20300); (20187,20301); (20304,20302); (20305,20303); (20306,20304); (20248,20305); (-1336,20306); (20309,20349); (20310,20308); (20198,20309); (20312,20310); (20313,20311); (20314,20312); (20256,20313); (-1337,20314); (20292,20290); (20318,20291); (20214,20317); (20320,20318); (20321,20319); (20323,20320); (20291,20290); (20221,20321); (20325,20323); (20326,20324); (20327,20325); (20224,20326); (20329,20327); (20330,20328); (20331,20329); (20216,20330); (20333,20331); (20334,20332); (20335,20333); (20277,20334); (-1338,20335); (20338,20378); (20339,20337); (20227,20338); (20341,20339); (20342,20340); (20343,20341); (20285,20342); (-1339,20343); (17474,16158); (20289,20266); (-1342,20229); (-1344,20346); (20308,20306); (-1341,20212); (20352,20665); (20353,20351); (20527,20352); (20435,20595); (20356,20624); (20357,20355); (20246,20356); (20359,20357); (20360,20358); (20361,20359); (20303,20360); (-1345,20361); (20365,20633); (20369,20666); (20366,20363); (20350,20365); (20419,20450); (16160,16158); (20375,20364); (16159,16158); (20374,20418); (16901,16158); (17095,16158); (20376,20371); (20571,20369); (20280,20374); (20380,20376); (20337,20335); (20409,20636); (20381,20377); (20383,20380); (17651,16158); (20269,20381); (20385,20383); (20406,20384); (17983,16158); (19947,16158); (20224,16158); (20230,20229); (20391,20668); (20392,20390); (20279,20391); (20394,20392); (20395,20393); (20396,20394); (20507,20395); (20612,20621); (20399,20611); (20401,20398)];
  [(20227,20212); (20295,20399); (20404,20401); (20245,20229); (20405,20402); (20407,20404); (20412,20385); (20349,20405); (-1361,20407); (20410,20379); (20297,20409); (20603,20410); (20309,20406); (20414,20412); (20415,20413); (20416,20414); (20358,20415); (-1346,20416); (20371,20366); (20420,20367); (20324,20419); (20422,20420); (20423,20421); (20424,20422); (20310,20423); (20426,20424); (20427,20425); (20428,20426); (20325,20427); (20430,20428); (20431,20429); (20432,20430); (20374,20431); (-1347,20432); (20463,20630); (20436,20354); (20340,20435); (20438,20436); (20439,20437); (20440,20438); (20326,20439); (20442,20440); (20443,20441); (20444,20442); (20341,20443); (20446,20444); (20447,20445); (20448,20446); (20390,20447); (-1348,20448); (20367,20366); (20452,20627); (20453,20451); (20357,20452); (20455,20453); (20456,20454); (20457,20455); (20344,20456); (-1332,20200); (20460,20457); (20461,20459); (20462,20460); (20360,20461); (20466,20434); (20465,20462); (20467,20464); (20370,20463); (20468,20465); (20410,20467); (-1349,20468); (20482,20599); (20472,20466); (20473,20471); (20474,20472); (20416,20473); (-1350,20474); (20477,20486); (20478,20476); (20421,20477); (-1334,20222); (-1351,20478); (20485,20635); (20483,20470); (20387,20482); (20487,20483); (20510,20481); (20476,20466); (20488,20484); (20489,20487); (20376,20488); (20491,20489); (20492,20490); (20493,20491); (20380,20492); (20495,20493); (20496,20494); (20497,20495); (20439,20496); (-1352,20497); (20500,20632); (20501,20499); (20392,20500); (20503,20501); (20504,20502); (20505,20503); (20404,20504); (20507,20505); (20508,20506); (20509,20507); (20406,20508); (20448,20485); (20512,20509); (20514,20511); (20516,20510); (20515,20512); (20407,20514); (20518,20513); (20519,20515); (20524,20516); (20520,20517); (20521,20519); (20463,20520); (-1353,20521); (20527,20642); (20411,20518); (20526,20524); (20528,20525); (20552,20523); (20529,20526); (20416,20528); (20531,20529); (20532,20530); (20533,20531); (20475,20532); (-1354,20533); (20536,20549); (20537,20535); (20479,20536); (-1355,20537); (20540,20564); (20541,20539); (20483,20540); (-1356,20541); (20544,20597); (20545,20543); (20441,20544); (20547,20545); (20548,20546); (20550,20547); (20535,20510); (20450,20548); (20553,20550); (20450,20527); (20554,20551); (20556,20553); (20558,20552); (20498,20554); (-1357,20556); (20560,20555); (20561,20641); (20563,20558); (20562,20559); (20500,20561); (20460,20560); (20539,20510); (20566,20562); (20567,20565); (20568,20566); (20456,20567); (20596,20563); (20571,20568); (20572,20570); (20573,20571); (20460,20572); (20575,20573); (20576,20574); (20577,20575); (20519,20576); (-1358,20577); (20580,20616); (20581,20579); (20468,20580); (20583,20581); (20584,20582); (20585,20583); (20481,20584); (20587,20585); (20588,20586); (20589,20587); (20489,20588); (20591,20589); (20592,20590); (20593,20591); (20535,20592); (-1359,20593); (20354,20353); (20598,20569); (20543,20541); (20600,20596); (20470,20353)];
  [(20542,20598); (-1360,20600); (20631,20681); (20604,20411); (20605,20603); (20492,20604); (20607,20605); (20608,20606); (20609,20607); (20551,20608); (-1362,20609); (20398,20396); (20613,20397); (20556,20612); (20617,20667); (-1363,20613); (20579,20562); (20619,20614); (17500,16119); (20501,20617); (20622,20619); (20397,20396); (20625,20620); (17677,16119); (20355,20353); (20626,20622); (20569,20625); (20451,20353); (-1364,20626); (19783,16119); (20434,20353); (20634,20602); (20499,20353); (20363,16119); (20536,20631); (20481,20353); (20379,20375); (20638,20634); (20639,20637); (20640,20638); (20546,20639); (20559,20353); (20523,20353); (20654,20640); (16121,16119); (16120,16119); (16857,16119); (16888,16119); (17012,16119); (17033,16119); (17483,16119); (17544,16119); (17586,16119); (17648,16119); (20657,20643); (17632,16119); (17727,16119); (20660,20654); (17967,16119); (18080,16119); (20555,20657); (19673,16119); (19827,16119); (19925,16119); (20201,16119); (20351,16119); (20364,16119); (20614,20613); (20390,20375); (20670,20660); (20671,20669); (20672,20670); (20614,20671); (-1365,20672); (16759,16757); (20676,16765); (20614,20675); (20710,20729); (20679,20713); (20680,20678); (20580,20679); (20602,20375); (20683,32850); (20684,20682); (22826,20683); (21855,22925); (20687,22923); (20688,20686); (20575,20687); (20690,20688); (20691,20689); (20692,20690); (21753,20691); (20696,21845); (20695,21785); (21737,20694); (20714,20693); (20698,20680); (20699,20697); (20700,20698); (20585,20699); (20702,20700); (20703,20701); (20704,20702); (20604,20703); (20706,20704); (20707,20705); (20708,20706); (20650,20707); (-1368,20708); (20711,20677); (20596,20710); (20730,20711); (20678,20676); (20607,20696); (20716,20714); (20717,20715); (20718,20716); (20618,20717); (20720,20718); (20721,20719); (20722,20720); (20615,20721); (20724,20722); (20725,20723); (20726,20724); (20668,20725); (-1459,20726); (21786,21868); (20677,20676); (20731,20712); (20732,20730); (20674,20731); (-1370,20732); (20736,21689); (20737,16764); (20777,20734); (20667,20735); (20773,20788); (20740,20772); (20741,20739); (20628,20740); (20743,20741); (20744,20742); (20745,20743); (20687,20744); (-1371,20745); (20749,21718); (20750,16723); (20797,20747); (20663,20748); (20769,20784); (20753,20768); (20754,20752); (20641,20753); (20756,20754); (20757,20755); (20758,20756); (20660,20757); (20760,20758); (20761,20759); (20762,20760); (20704,20761); (-1372,20762); (20765,20786); (20766,20764); (20708,20765); (-1374,20766); (20752,20750); (20770,20751); (20712,20769); (-1376,20770); (20739,20737); (20774,20738); (20716,20773); (-1377,20774); (20778,21690); (20737,20736); (20779,20776); (20776,20778); (20819,20835); (20782,20834); (20783,20781); (20670,20782); (20751,20750); (20787,20783); (20764,20745); (20789,20785); (20738,20737); (20790,20787); (20687,20789); (20792,20790); (20793,20791); (20794,20792); (20736,20793); (-1378,20794); (20798,21687); (20702,20749); (20799,20796); (20762,20798)];
  [(20801,20797); (20802,20800); (20803,20801); (20696,20802); (20805,20803); (20806,20804); (20807,20805); (20711,20806); (20809,20807); (20810,20808); (20811,20809); (20713,20810); (20813,20811); (20814,20812); (20815,20813); (20757,20814); (-1379,20815); (20818,20842); (20836,20817); (20820,20780); (20713,20819); (20822,20820); (20823,20821); (20824,20822); (20728,20823); (20826,20824); (20827,20825); (20828,20826); (20730,20827); (20830,20828); (20831,20829); (20832,20830); (20774,20831); (-1380,20832); (20781,20777); (20780,20777); (20719,20818); (20838,20836); (20839,20837); (20840,20838); (20782,20839); (-1381,20840); (20817,20777); (20844,20848); (20845,20843); (20730,20844); (20847,20845); (20849,20846); (20843,20777); (20850,20847); (20792,20849); (-1382,20850); (20853,20777); (20854,20852); (20855,20853); (20745,20854); (20857,20855); (20858,20856); (20859,20857); (20752,20858); (20861,20859); (20862,20860); (20863,20861); (20764,20862); (20865,20863); (20866,20864); (20867,20865); (20809,20866); (-1383,20867); (20897,21720); (20871,20799); (20872,20870); (20873,20871); (20769,20872); (20875,20873); (20876,20874); (20877,20875); (20775,20876); (20879,20877); (20880,20878); (20881,20879); (20823,20880); (-1384,20881); (20885,21691); (20888,20779); (20886,20883); (20826,20885); (20926,20940); (20889,20884); (20890,20888); (20786,20889); (20892,20890); (20893,20891); (20894,20892); (20792,20893); (20896,20894); (20898,20895); (20899,20869); (20901,20896); (20786,20897); (20921,20899); (20843,20898); (-1385,20901); (20905,21692); (20909,20925); (20906,20903); (20876,20905); (20971,20990); (20936,20987); (20910,20904); (20806,20909); (20912,20910); (20913,20911); (20914,20912); (20801,20913); (20916,20914); (20917,20915); (20918,20916); (20860,20917); (-1386,20918); (20948,21727); (20922,20900); (20923,20921); (20865,20922); (-1387,20923); (20904,20886); (20927,20887); (20869,20926); (-1388,20927); (20931,21693); (-1367,16757); (20932,20929); (20912,20931); (21009,21021); (20935,21010); (20999,20934); (20937,20908); (20828,20936); (20939,20937); (20941,20938); (20887,20886); (20942,20939); (20884,20941); (-1389,20942); (20945,21721); (20946,20944); (20833,20945); (20949,20946); (20950,20920); (20952,20947); (21057,20948); (21128,21158); (20955,20949); (20954,21154); (21094,20953); (20859,20952); (20957,20955); (20958,20956); (20959,20957); (20842,20958); (20961,20959); (20963,20960); (-1369,20705); (20964,20961); (20864,20963); (20966,20964); (20967,20965); (20968,20966); (20910,20967); (-1390,20968); (20973,20992); (20972,20907); (20877,20971); (20988,20970); (20975,20972); (20976,20974); (20977,20975); (20860,20976); (20979,20977); (20980,20978); (20981,20979); (20881,20980); (20983,20981); (20984,20982); (20985,20983); (20927,20984); (-1392,20985); (20908,20906); (20930,20973); (-1394,20988); (20907,20906); (20993,21694); (20970,20906); (20994,20991); (20885,20993); (20996,20994); (20997,20995); (20998,20996); (20897,20997); (20903,20935)];
  [(21001,20999); (21002,21000); (21003,21001); (20890,21002); (21005,21003); (21006,21004); (21007,21005); (20949,21006); (-1395,21007); (21011,20933); (20934,20932); (20953,21009); (-1396,21011); (21014,20998); (21015,21013); (21017,21014); (-1373,20759); (20959,21015); (-1397,21017); (21023,21697); (-1375,20786); (20933,20932); (21024,21698); (21031,21019); (21025,21022); (21078,21024); (21142,21179); (21028,21175); (21029,21027); (20931,21028); (21033,21029); (20979,21023); (21047,21078); (21106,21030); (21035,21076); (21036,21034); (20923,21035); (21038,21036); (21039,21037); (21040,21038); (20927,21039); (21042,21040); (21043,21041); (21044,21042); (20986,21043); (-1398,21044); (21048,21084); (21049,21032); (21077,21046); (20945,21047); (21051,21049); (21052,21050); (21053,21051); (20940,21052); (21055,21053); (21056,21054); (21057,21055); (20999,21056); (-1399,21057); (21060,21049); (21061,21059); (21062,21060); (20952,21061); (21064,21062); (21065,21063); (21066,21064); (20952,21065); (21068,21066); (21069,21067); (21070,21068); (20956,21069); (21072,21070); (21073,21071); (21074,21072); (21016,21073); (-1400,21074); (21034,21031); (20969,21048); (21032,21031); (21080,21077); (21081,21079); (21082,21080); (20982,21081); (21085,21082); (21046,21031); (21086,21083); (21087,21085); (21029,21086); (-1401,21087); (21090,21095); (21091,21089); (21033,21090); (-1402,21091); (21121,21729); (20997,20954); (21089,21031); (21097,21094); (21098,21096); (21099,21097); (20986,21098); (21101,21099); (21102,21100); (21103,21101); (21045,21102); (-1403,21103); (21107,21700); (21114,21033); (21108,21105); (20997,21107); (21110,21108); (21111,21109); (21112,21110); (21011,21111); (21116,21112); (21001,21106); (21118,21114); (21117,21113); (21220,21116); (21119,21115); (21120,21118); (21063,21119); (21123,21093); (-1404,21120); (21012,21121); (21126,21123); (21129,21162); (21127,21124); (21133,21126); (21130,20951); (21155,21125); (21028,21128); (21132,21130); (21134,21131); (21113,21127); (21135,21132); (21039,21134); (21137,21135); (21138,21136); (21139,21137); (21081,21138); (-1405,21139); (21145,21183); (21143,21026); (21041,21142); (21146,21143); (21176,21141); (21147,21144); (21148,21146); (21052,21147); (21150,21148); (21151,21149); (21152,21150); (21094,21151); (-1406,21152); (20953,20950); (21057,21129); (21157,21155); (21159,21156); (20951,20950); (21160,21157); (21047,21159); (21163,21160); (21125,20950); (21164,21161); (21165,21163); (21055,21164); (21167,21165); (21168,21166); (21169,21167); (21060,21168); (21171,21169); (21172,21170); (21173,21171); (21115,21172); (-1407,21173); (21027,21025); (21097,21145); (21198,21197); (21180,21196); (21026,21025); (21181,21178); (21068,21180); (21184,21181); (21141,21025); (21185,21182); (21186,21184); (21076,21185); (21188,21186); (21189,21187); (21190,21188); (21081,21189); (21192,21190); (21193,21191); (21194,21192); (21136,21193); (-1408,21194); (21178,21176); (21177,21176); (21199,21177); (21141,21198)];
  [(-1409,21199); (21202,21207); (21203,21201); (21087,21202); (21205,21203); (21206,21204); (21208,21205); (21201,21176); (21094,21206); (21210,21208); (21211,21209); (21212,21210); (21154,21211); (-1410,21212); (21242,21732); (21216,21133); (21217,21215); (21218,21216); (21160,21217); (-1411,21218); (21171,21117); (21223,21703); (-1391,20965); (21224,21221); (21392,21223); (21226,21489); (21227,21225); (21114,21226); (21229,21227); (21232,21228); (-1412,21220); (21234,21701); (21233,21229); (21121,21232); (21237,21231); (21236,21233); (21247,21235); (21269,21234); (21354,21370); (-1393,20982); (21241,21366); (21243,21240); (21244,21214); (21132,21241); (21186,21242); (-1418,21244); (21249,21243); (21248,21236); (21195,21247); (21250,21246); (21251,21249); (21193,21250); (-1413,21251); (21255,21730); (-1420,21248); (21258,21253); (21257,21492); (21381,21256); (21158,21255); (21260,21258); (21261,21259); (21262,21260); (21153,21261); (21264,21262); (21265,21263); (21266,21264); (21200,21265); (21268,21266); (21269,21267); (21270,21268); (21154,21269); (21272,21270); (21273,21271); (21274,21272); (21161,21273); (21276,21274); (21277,21275); (21278,21276); (21171,21277); (21280,21278); (21281,21279); (21282,21280); (21162,21281); (21284,21282); (21285,21283); (21286,21284); (21264,21285); (21333,21345); (21289,21332); (21290,21288); (21180,21289); (21292,21290); (21293,21291); (21294,21292); (21178,21293); (21296,21294); (21297,21295); (21298,21296); (21201,21297); (21300,21298); (21301,21299); (21302,21300); (21195,21301); (21304,21302); (21305,21303); (21306,21304); (21206,21305); (21308,21306); (21309,21307); (21310,21308); (21230,21309); (21312,21310); (21313,21311); (21314,21312); (21198,21313); (21316,21314); (21317,21315); (21318,21316); (21208,21317); (21320,21318); (21321,21319); (21322,21320); (21207,21321); (21324,21322); (21325,21323); (21326,21324); (21226,21325); (21328,21326); (21329,21327); (21330,21328); (21272,21329); (-1414,21330); (21288,21286); (21334,21287); (21218,21333); (21336,21334); (21337,21335); (21338,21336); (21228,21337); (21340,21338); (21341,21339); (21342,21340); (21227,21341); (21344,21342); (21346,21343); (21287,21286); (21347,21344); (21247,21346); (21349,21347); (21350,21348); (21351,21349); (21293,21350); (-1415,21351); (21357,21377); (21355,21238); (21242,21354); (21358,21355); (21367,21353); (21359,21356); (21360,21358); (21249,21359); (21362,21360); (21363,21361); (21364,21362); (21306,21363); (-1416,21364); (21240,21237); (21251,21357); (21369,21367); (21371,21368); (21238,21237); (21372,21369); (21258,21371); (21374,21372); (21375,21373); (21376,21374); (21319,21375); (21353,21237); (-1417,21376); (21385,21733); (21382,21672); (21331,21257); (21383,21380); (21325,21382); (-1432,21383); (21386,21379); (21387,21385); (21487,21495); (21391,21486); (21427,21503); (-1421,21381); (21392,21388); (21280,21391); (21396,21432); (21395,21392); (21397,21394); (21398,21393); (21407,21395); (21285,21396); (21400,21398)];
  [(21401,21399); (21402,21400); (21344,21401); (-1422,21402); (21405,21455); (21406,21404); (21306,21405); (21350,21397); (21411,21406); (-1433,21407); (21412,21704); (21414,21408); (21413,21410); (21429,21412); (21415,21411); (21357,21414); (-1423,21415); (21418,21433); (21420,21417); (21511,21537); (21364,21418); (21422,21528); (21424,21421); (-1424,21420); (21367,21422); (21426,21440); (21428,21425); (21430,21389); (21370,21426); (-1426,21428); (21321,21427); (21434,21497); (21393,21381); (21417,21381); (21436,21431); (21452,21430); (21334,21434); (21438,21436); (21439,21437); (21441,21438); (21425,21381); (21331,21439); (21443,21441); (21444,21442); (21445,21443); (21344,21444); (21447,21445); (21448,21446); (21449,21447); (21391,21448); (-1428,21449); (-1419,21224); (21453,21435); (21454,21452); (21397,21453); (21404,21402); (-1429,21454); (21458,21507); (21459,21457); (21352,21458); (21461,21459); (21462,21460); (21463,21461); (21353,21462); (21465,21463); (21466,21464); (21467,21465); (21356,21466); (21469,21467); (21470,21468); (21471,21469); (21371,21470); (21473,21471); (21474,21472); (21475,21473); (21417,21474); (-1430,21475); (21478,21510); (21479,21477); (21421,21478); (-1431,21479); (21482,21424); (21483,21481); (21484,21482); (21426,21483); (-1434,21484); (21388,21386); (21488,21387); (21393,21487); (21225,21224); (21491,21488); (21493,21490); (21256,21224); (21494,21491); (21381,21493); (21387,21386); (21498,21494); (21431,21224); (21500,21496); (21527,21734); (21501,21498); (21398,21500); (21504,21501); (21389,21224); (21505,21502); (21506,21504); (21449,21505); (21457,21224); (-1435,21506); (21518,21540); (21477,21224); (21512,21419); (21416,21511); (21514,21512); (21515,21513); (21516,21514); (21402,21515); (21519,21516); (21531,21509); (21520,21517); (21521,21519); (21418,21520); (21523,21521); (21524,21522); (21525,21523); (21467,21524); (-1437,21525); (21529,21499); (21421,21413); (21425,21527); (21532,21529); (21427,21518); (21533,21530); (21539,21532); (21548,21705); (21536,21531); (21538,21535); (21419,21413); (21543,21536); (21475,21533); (21509,21413); (21579,21584); (21544,21583); (21487,21538); (21545,21542); (21449,21544); (-1439,21543); (21575,21735); (21550,21534); (21557,21545); (21446,21548); (21552,21550); (21553,21551); (21554,21552); (21508,21553); (21618,21617); (21559,21616); (21558,21549); (21561,21557); (21560,21556); (21462,21559); (21463,21558); (21563,21560); (21565,21562); (21567,21561); (21566,21563); (21470,21565); (21568,21564); (21569,21567); (21511,21568); (-1440,21569); (21572,21566); (21573,21571); (21574,21572); (21517,21573); (21577,21547); (-1442,21574); (21469,21575); (21580,21577); (21585,21541); (21581,21578); (21587,21580); (21596,21706); (21542,21539); (21541,21539); (21485,21579); (21588,21585); (21481,21581); (21591,21586); (21590,21587); (21592,21589); (21595,21588); (21593,21590); (21535,21592); (-1447,21593); (21482,21591); (21598,21582); (21605,21595); (21490,21596); (21600,21598)];
  [(21601,21599); (21602,21600); (21495,21601); (21604,21602); (21607,21603); (21606,21597); (21609,21605); (21608,21604); (21551,21607); (21553,21606); (-1449,21608); (21613,21707); (-1444,21609); (21614,21611); (21517,21613); (21638,21614); (21556,21554); (21555,21554); (21619,21555); (21519,21618); (21621,21619); (21622,21620); (21623,21621); (21509,21622); (21625,21623); (21626,21624); (21627,21625); (21569,21626); (-1445,21627); (21630,21666); (21631,21629); (21517,21630); (21633,21631); (21634,21632); (21635,21633); (21577,21634); (-1446,21635); (21650,21736); (21639,21615); (21640,21638); (21544,21639); (21642,21640); (21643,21641); (21644,21642); (21531,21643); (21646,21644); (21647,21645); (21648,21646); (21590,21647); (-1451,21648); (21651,21637); (21551,21650); (21653,21651); (21654,21652); (21655,21653); (21542,21654); (21657,21655); (21658,21656); (21659,21657); (21672,21658); (21739,21752); (21662,21738); (21663,21661); (21581,21662); (21676,21695); (21667,21678); (21629,21627); (21668,21665); (21555,21667); (21670,21668); (21671,21669); (21674,21670); (21380,16763); (-1425,21433); (21616,21671); (-1452,21674); (21677,21664); (21582,21676); (21665,21663); (21680,21677); (21682,21679); (-1427,21440); (21683,21680); (21585,21682); (21685,21683); (21696,21684); (16765,16763); (20796,16722); (16764,16763); (20734,16763); (20776,16763); (20883,16763); (20903,16763); (20929,16763); (20991,16763); (21664,21663); (21699,21685); (21019,16763); (21022,16763); (21612,21696); (21105,16763); (21231,16763); (21712,21719); (21221,16763); (21410,16763); (21534,16763); (21582,16763); (21611,16763); (21709,21713); (21710,21708); (21652,21709); (-1453,21710); (21714,21702); (21708,21699); (21615,21712); (16724,16722); (21722,21714); (16723,16722); (20747,16722); (21702,21699); (20869,16722); (20944,16722); (21723,21716); (21724,21722); (21609,21723); (21726,21724); (21728,21725); (20920,16722); (21731,21726); (21093,16722); (21253,16722); (21678,21728); (21214,16722); (21379,16722); (21499,16722); (21547,16722); (21637,16722); (-1454,21731); (21661,21659); (21740,21660); (21644,21739); (21742,21740); (21743,21741); (21744,21742); (21631,21743); (21746,21744); (21747,21745); (21748,21746); (21648,21747); (21750,21748); (21751,21749); (21753,21750); (21660,21659); (21644,21751); (21755,21753); (21756,21754); (21757,21755); (21642,21756); (21759,21757); (21761,21758); (-1436,21502); (21762,21759); (21659,21761); (21764,21762); (21765,21763); (21766,21764); (21666,21765); (21768,21766); (21769,21767); (21770,21768); (21656,21769); (21772,21770); (21773,21771); (21774,21772); (21670,21773); (21776,21774); (21777,21775); (21778,21776); (21665,21777); (-1438,21522); (21781,21778); (21782,21780); (21783,21781); (21725,21782); (-1455,21783); (20694,21850); (21787,20728); (21709,21786); (21815,21817); (21790,21814); (21791,21789); (21683,21790); (21793,21791); (21794,21792); (21795,21793); (21754,21794); (-1457,20695); (21798,32818); (21799,21797); (22807,21798)];
  [(21843,22906); (21802,22904); (21803,21801); (21690,21802); (21805,21803); (21806,21804); (21807,21805); (21692,21806); (21809,21807); (21810,21808); (21811,21809); (21719,21810); (-1456,20692); (-1460,21795); (21789,21787); (21816,21788); (21759,21815); (21788,21787); (-1461,21816); (21820,21869); (21821,21819); (21763,21820); (-1462,21821); (-1441,21564); (21825,21811); (21826,21824); (21827,21825); (21732,21826); (-1443,21571); (21830,21827); (21831,21829); (21832,21830); (21725,21831); (21834,21832); (21835,21833); (21836,21834); (21769,21835); (21838,21836); (21839,21837); (21840,21838); (21782,21839); (-1463,21840); (21844,22909); (21847,21800); (21969,21842); (20693,20695); (-1448,21589); (21727,21843); (21849,21847); (21851,21848); (21785,20692); (21852,21849); (21794,21851); (-1464,21852); (21856,22927); (21857,20685); (21864,21854); (21737,21855); (21859,21857); (21861,21858); (-1450,21603); (21862,21859); (21804,21861); (-1465,21862); (21751,21856); (21866,21864); (21867,21865); (21887,21866); (20728,20692); (21819,20692); (21871,32819); (21872,21870); (23039,21871); (22939,23150); (21875,23141); (21876,21874); (21763,21875); (21878,21876); (21879,21877); (21880,21878); (21822,21879); (-1544,21880); (21883,32851); (21884,21882); (22933,21883); (21911,23038); (21888,22928); (21851,21867); (21890,21886); (21920,21956); (21863,21888); (21892,21950); (21893,21891); (21784,21892); (21895,21893); (21896,21894); (21897,21895); (21782,21896); (21899,21897); (21900,21898); (21901,21899); (21859,21900); (21903,23035); (21904,21902); (21791,21903); (21906,21904); (21907,21905); (21908,21906); (21850,21907); (-1545,21908); (21913,23044); (21912,21885); (21804,21911); (22972,21910); (21915,21912); (21916,21914); (21917,21915); (22813,21916); (-1466,21901); (21925,21960); (21921,21889); (21811,21920); (21923,21921); (21924,21922); (21926,21923); (21933,21919); (21827,21924); (21928,21926); (21929,21927); (21930,21928); (21872,21929); (-1467,21930); (21938,21967); (21829,21925); (21935,21933); (21936,21934); (21937,21935); (21831,21936); (21942,21932); (21940,21937); (21941,21939); (21943,21940); (21844,21938); (21885,21941); (-1468,21943); (21951,21942); (21947,21963); (21948,21946); (21890,21947); (-1469,21948); (21891,21887); (21952,21945); (21953,21951); (21844,21952); (21955,21953); (21957,21954); (21889,21887); (21958,21955); (21852,21957); (21961,21958); (21919,21887); (21962,21959); (21964,21961); (21946,21887); (21906,21962); (-1470,21964); (21968,22911); (21932,21887); (21971,21966); (21856,21844); (21972,21969); (21881,21968); (21973,21970); (21974,21972); (21916,21973); (-1471,21974); (21978,22930); (21979,21890); (21980,21976); (21982,21977); (21919,21978); (22008,22028); (21983,21979); (21925,21982); (-1472,21983); (21987,22912); (21988,21971); (21990,21985); (21989,21986); (21991,21988); (21933,21987); (21934,21989); (-1478,21990); (-1473,21991); (21996,22931); (21997,22024); (21998,21994); (22000,21995); (22019,21996); (22056,22137)];
  [(21943,21997); (22038,22135); (-1474,22000); (22004,22061); (22005,22003); (21947,22004); (-1475,22005); (22011,22030); (22009,21981); (21901,22008); (22012,22009); (22025,22007); (22013,22010); (22014,22012); (21918,22013); (22016,22014); (22017,22015); (22018,22016); (21903,22017); (22020,22018); (22021,22019); (22022,22020); (21964,22021); (-1476,22022); (21995,21980); (21916,22011); (22027,22025); (22029,22026); (21981,21980); (22031,22027); (22007,21980); (21931,22029); (22033,22031); (22034,22032); (22035,22033); (21977,22034); (-1477,22035); (22039,22915); (22040,22001); (22042,22037); (21944,22038); (-1458,21850); (21927,22039); (22047,22040); (22045,22042); (22163,22044); (22048,22934); (22049,22043); (22050,22046); (22052,22047); (22019,22048); (22115,22136); (21951,22049); (22054,22116); (22082,22053); (22057,22052); (22079,21999); (22058,22055); (22059,22057); (21958,22058); (22062,22059); (22003,22000); (22063,22060); (22064,22062); (21954,22063); (22066,22064); (22067,22065); (22068,22066); (21955,22067); (22070,22068); (22071,22069); (22072,22070); (21966,22071); (22074,22072); (22075,22073); (22076,22074); (22018,22075); (-1480,22076); (-1479,21998); (22021,22056); (-1481,22079); (22083,22935); (21974,22054); (22085,22081); (22087,22082); (22027,22083); (-1497,22085); (22090,22084); (22089,22918); (22092,22088); (22091,22087); (22007,22090); (22227,22089); (22107,22114); (22095,22106); (22096,22094); (21990,22095); (22098,22096); (22099,22097); (22100,22098); (22042,22099); (-1482,22100); (22103,22146); (22104,22102); (22046,22103); (-1483,22104); (22094,22091); (22108,22093); (21991,22107); (22110,22108); (22111,22109); (22112,22110); (22054,22111); (-1484,22112); (22093,22091); (22117,22051); (22053,22050); (22003,22115); (22119,22117); (22120,22118); (22121,22119); (22177,22120); (22160,22278); (22124,22274); (22125,22123); (22027,22124); (22127,22125); (22128,22126); (22129,22127); (22025,22128); (22131,22129); (22132,22130); (22133,22131); (22020,22132); (22138,22133); (22001,21998); (22051,22050); (21999,21998); (22139,22134); (22140,22138); (22082,22139); (-1486,22140); (22143,22275); (22144,22142); (22086,22143); (-1487,22144); (22102,22100); (22148,22276); (22149,22147); (22045,22148); (22151,22149); (22152,22150); (22153,22151); (22040,22152); (22155,22153); (22156,22154); (22157,22155); (22099,22156); (-1488,22157); (22164,22277); (22161,22122); (22103,22160); (-1491,22161); (22178,22045); (22165,22159); (22055,22164); (22167,22165); (22168,22166); (22169,22167); (22111,22168); (-1489,22169); (22173,22172); (22171,22165); (22174,22171); (22116,22173); (-1490,22174); (22214,22293); (22333,22339); (22065,22163); (22182,22332); (22181,22178); (22183,22180); (22184,22179); (22186,22181); (22075,22182); (22188,22184); (22110,22183); (22189,22186); (22242,22185); (22190,22187); (22191,22189); (22087,22190); (22193,22191); (22194,22192); (22195,22193); (22086,22194); (22197,22195); (22198,22196); (22199,22197); (22083,22198)];
  [(22201,22199); (22202,22200); (22203,22201); (22089,22202); (22205,22203); (22206,22204); (22207,22205); (22149,22206); (-1492,22207); (22210,22286); (22211,22209); (22102,22210); (22213,22211); (22219,22212); (22215,22176); (22097,22214); (22217,22215); (22218,22216); (22226,22217); (22220,22213); (22162,22219); (-1493,22220); (22223,22292); (22224,22222); (22120,22223); (22227,22224); (22121,22218); (22228,22225); (22229,22227); (22121,22228); (22231,22229); (22233,22230); (22237,22226); (22234,22231); (22176,22233); (-1495,22234); (-1485,22121); (22238,22232); (22239,22237); (22181,22238); (-1496,22239); (22243,22937); (22244,22188); (22245,22241); (22148,22242); (22236,22243); (22342,22348); (22250,22244); (22249,22341); (22252,22248); (22251,22247); (22255,22250); (22143,22249); (22304,22252); (22256,22921); (22160,22251); (22259,22254); (22258,22255); (22260,22257); (22653,22256); (22263,22258); (22465,22754); (22265,22940); (22150,22260); (22266,22263); (22268,22262); (22267,22264); (22269,22266); (22790,22265); (22169,22267); (22271,22269); (22272,22270); (22273,22271); (22167,22272); (22123,22121); (22142,22121); (22147,22121); (22159,22121); (22122,22121); (22280,22273); (22281,22279); (22282,22280); (22175,22281); (22284,22282); (22285,22283); (22287,22284); (22209,22121); (22191,22285); (22289,22287); (22290,22288); (22291,22289); (22184,22290); (22222,22121); (22176,22121); (22295,22291); (22296,22294); (22297,22295); (22197,22296); (22299,22297); (22300,22298); (22301,22299); (22243,22300); (-1498,22301); (22305,22887); (22306,22253); (22307,22303); (22309,22304); (22196,22305); (22310,22307); (22196,22306); (22311,22308); (22314,22310); (22313,22309); (22316,22312); (22256,22311); (-1506,22314); (22318,22313); (22366,22889); (22214,22316); (22320,22318); (22321,22319); (22322,22320); (22213,22321); (22324,22322); (22325,22323); (22326,22324); (22211,22325); (22328,22326); (22329,22327); (22330,22328); (22272,22329); (-1499,22330); (22179,22092); (22334,22177); (22233,22333); (22336,22334); (22337,22335); (22338,22336); (22281,22337); (22177,22092); (-1500,22338); (22248,22245); (22343,22246); (22242,22342); (22345,22343); (22346,22344); (22347,22345); (22290,22346); (22246,22245); (-1501,22347); (22351,22353); (22352,22350); (22244,22351); (22350,22245); (22355,22352); (22356,22354); (22357,22355); (22258,22356); (22359,22357); (22360,22358); (22361,22359); (22303,22360); (-1502,22361); (22365,22922); (22392,22859); (22368,22363); (22367,22317); (22252,22366); (22779,22365); (22372,22367); (22879,22884); (22374,22878); (22373,22369); (22375,22372); (22377,22371); (22275,22373); (22378,22375); (22266,22374); (22382,22376); (22381,22941); (22872,22377); (22383,22379); (22385,22378); (22783,22381); (22883,22888); (22329,22382); (22387,22882); (22390,22386); (-1507,22385); (22399,22895); (22277,22387); (22393,22390); (22394,22364); (22396,22391); (22336,22392); (-1508,22394); (22876,22393); (22398,22891); (22400,22397); (22427,22389)];
  [(22342,22398); (-1509,22400); (22403,22441); (22404,22402); (22579,22403); (22443,22680); (22407,22676); (22408,22406); (22297,22407); (22410,22408); (22411,22409); (22412,22410); (22301,22411); (22414,22412); (22415,22413); (22416,22414); (22303,22415); (22418,22416); (22419,22417); (22420,22418); (22310,22419); (22422,22420); (22423,22421); (22424,22422); (22305,22423); (22426,22424); (22428,22425); (22320,22399); (22430,22426); (22431,22427); (22373,22428); (22658,22429); (-1511,22430); (22434,22678); (22435,22433); (22319,22434); (22437,22435); (22438,22436); (22439,22437); (22326,22438); (22442,22439); (22402,22400); (22444,22440); (22445,22405); (22446,22442); (22459,22443); (22339,22444); (22448,22446); (22449,22447); (22450,22448); (22330,22449); (22452,22450); (22453,22451); (22454,22452); (22354,22453); (22456,22454); (22457,22455); (22458,22456); (22346,22457); (22460,22458); (22461,22459); (22462,22460); (22404,22461); (-1512,22462); (22506,22758); (22466,22261); (22368,22465); (22468,22466); (22470,22467); (-1494,22212); (22471,22468); (22371,22470); (22473,22471); (22474,22472); (22475,22473); (22376,22474); (22477,22475); (22478,22476); (22479,22477); (22379,22478); (22481,22479); (22482,22480); (22483,22481); (22369,22482); (22485,22483); (22486,22484); (22487,22485); (22493,22486); (22498,22577); (22490,22562); (22491,22489); (22379,22490); (22493,22491); (22494,22492); (22495,22493); (22379,22494); (22497,22495); (22499,22496); (22512,22488); (22500,22497); (22404,22499); (22502,22500); (22503,22501); (22504,22502); (22397,22503); (22507,22504); (22647,22464); (22508,22505); (22509,22507); (22451,22508); (-1514,22509); (22513,22576); (22448,22498); (22514,22511); (22407,22513); (22516,22514); (22517,22515); (22518,22516); (22422,22517); (22520,22518); (22521,22519); (22522,22520); (22413,22521); (22524,22522); (22525,22523); (22526,22524); (22411,22525); (22528,22526); (22529,22527); (22530,22528); (22462,22529); (22532,22530); (22533,22531); (22534,22532); (22422,22533); (22536,22534); (22537,22535); (22538,22536); (22422,22537); (22540,22538); (22541,22539); (22542,22540); (22446,22541); (22544,22542); (22545,22543); (22546,22544); (22439,22545); (22548,22546); (22549,22547); (22550,22548); (22492,22549); (-1515,22550); (-1513,22487); (22554,22512); (22555,22553); (22556,22554); (22449,22555); (22558,22556); (22559,22557); (22560,22558); (22461,22559); (22563,22560); (22489,22487); (22564,22561); (22565,22563); (22465,22564); (22567,22565); (22568,22566); (22569,22567); (22511,22568); (-1516,22569); (22609,22694); (22573,22445); (22574,22572); (22575,22573); (22519,22574); (22511,22487); (22488,22487); (-1517,22575); (22580,22689); (22581,22579); (22511,22580); (22607,22612); (22584,22608); (22585,22583); (22474,22584); (22587,22585); (22588,22586); (22589,22587); (22478,22588); (22591,22589); (22592,22590); (22593,22591); (22480,22592); (22595,22593); (22596,22594); (22597,22595); (22487,22596); (22599,22597); (22600,22598)];
  [(22601,22599); (22482,22600); (22603,22601); (22604,22602); (22605,22603); (22547,22604); (-1518,22605); (22610,22582); (22583,22581); (22611,22571); (22501,22607); (22508,22609); (22582,22581); (22622,22611); (22616,22610); (-1503,22358); (22617,22614); (22618,22616); (22506,22617); (22620,22618); (22621,22619); (22623,22620); (22639,22613); (22565,22621); (-1519,22623); (22627,22626); (22625,22581); (22628,22625); (22524,22627); (22630,22628); (22631,22629); (22632,22630); (22524,22631); (22634,22632); (22635,22633); (22636,22634); (22578,22635); (-1520,22636); (-1510,22404); (22640,22622); (22532,22639); (22642,22640); (22643,22641); (22644,22642); (22586,22643); (-1521,22644); (22688,22764); (22539,22506); (22649,22647); (22650,22648); (22651,22649); (22551,22650); (22653,22651); (22654,22652); (22655,22653); (22597,22654); (-1522,22655); (22667,22901); (22659,22431); (22559,22658); (22661,22659); (22662,22660); (22663,22661); (22605,22662); (-1523,22663); (22666,22720); (22668,22665); (22695,22657); (22610,22666); (-1524,22668); (22671,22900); (22672,22670); (22616,22671); (22686,22685); (22675,22713); (22677,22674); (22406,22404); (22567,22675); (22433,22404); (22681,22677); (22405,22404); (22682,22679); (22683,22681); (22625,22682); (-1525,22683); (22673,22672); (22687,22673); (22631,22686); (22692,22646); (22579,22404); (-1526,22687); (22693,22731); (22702,22688); (22696,22691); (22571,22404); (22698,22667); (22593,22693); (22735,22800); (22700,22696); (22703,22798); (22701,22698); (22702,22700); (22595,22701); (22708,22699); (22705,22702); (22706,22704); (22707,22705); (22650,22706); (22651,22703); (-1527,22707); (-1528,22708); (22721,22905); (-1504,22259); (22674,22672); (22803,22814); (22716,22802); (22717,22715); (22601,22716); (22719,22717); (22722,22718); (22665,22663); (22749,22711); (22723,22719); (22625,22722); (22725,22723); (22726,22724); (22727,22725); (22612,22726); (22729,22727); (22730,22728); (22732,22729); (22691,22672); (22674,22730); (-1529,22732); (22736,22810); (22737,22697); (22797,22734); (22684,22735); (22765,22792); (22740,22781); (22741,22739); (22634,22740); (22743,22741); (22744,22742); (22745,22743); (22649,22744); (22747,22745); (22748,22746); (22750,22747); (22646,22721); (22638,22748); (22753,22749); (22755,22750); (22757,22751); (22261,22259); (22756,22752); (22759,22755); (22762,22753); (22464,22259); (22701,22756); (-1530,22759); (22772,22799); (22654,22757); (22848,22762); (22646,22259); (22766,22738); (22662,22765); (22768,22766); (22769,22767); (22770,22768); (22661,22769); (22773,22770); (22782,22761); (22774,22771); (22775,22773); (22675,22774); (22777,22775); (22778,22776); (22779,22777); (22721,22778); (-1531,22779); (22739,22737); (22666,22772); (22784,22782); (22785,22783); (22786,22784); (22673,22785); (22788,22786); (22789,22787); (22790,22788); (22689,22789); (22793,22790); (22738,22737); (22794,22791); (22795,22793); (22737,22794); (-1532,22795); (22742,22736); (22699,22695); (22761,22737)];
  [(22697,22695); (-1533,22797); (22715,22692); (22804,22714); (22694,22803); (22806,22804); (22807,22805); (22808,22806); (22695,22807); (22811,22808); (22734,22695); (22812,22809); (22813,22811); (22699,22812); (22714,22692); (22816,22813); (22817,22815); (22818,22816); (22714,22817); (22820,22818); (22821,22819); (22822,22820); (22712,22821); (22824,22822); (22825,22823); (22826,22824); (22717,22825); (22828,22826); (22829,22827); (22830,22828); (22772,22829); (-1534,22830); (22833,22869); (22834,22832); (22727,22833); (22836,22834); (22837,22835); (22838,22836); (22780,22837); (-1535,22838); (22841,22858); (22842,22840); (22732,22841); (22844,22842); (22845,22843); (22846,22844); (22788,22845); (-1536,22846); (22850,22763); (-1505,22268); (22851,22848); (22793,22850); (-1537,22851); (22854,22907); (22855,22853); (22742,22854); (22857,22855); (22860,22856); (22840,22797); (22364,22268); (22861,22857); (22761,22860); (22863,22861); (22864,22862); (22865,22863); (22758,22864); (22867,22865); (22868,22866); (22870,22867); (22832,22830); (22812,22868); (-1538,22870); (22873,22380); (22874,22872); (22816,22873); (-1539,22874); (22818,22396); (-1540,22876); (22371,22368); (22880,22370); (22822,22879); (-1541,22880); (22386,22383); (22885,22384); (22370,22368); (22827,22883); (-1542,22885); (22303,22268); (22384,22383); (22317,22268); (22892,22943); (22397,22268); (22893,22890); (22784,22892); (22896,22893); (22389,22268); (22897,22894); (22898,22896); (22800,22897); (22902,22898); (22670,22268); (22657,22268); (22903,22899); (22908,22902); (21801,21799); (22711,22268); (21800,21799); (22853,22268); (22795,22903); (21842,21799); (22913,22908); (21966,21799); (21985,21799); (22914,22910); (22916,22913); (22037,21799); (22805,22914); (22919,22916); (22088,21799); (22920,22917); (22924,22919); (22254,21799); (22363,21799); (20686,20684); (22867,22920); (20685,20684); (-1543,22924); (21854,20684); (21886,20684); (22932,21917); (21976,20684); (21994,20684); (22933,22929); (22936,22932); (22046,20684); (22081,20684); (22879,22933); (22241,20684); (-1546,22936); (22942,21873); (22262,20684); (22379,20684); (22850,22939); (22890,20684); (22945,32852); (22946,22944); (25553,22945); (22979,25619); (22949,25618); (22950,22948); (23328,22949); (23312,23442); (22953,23425); (22954,22952); (22841,22953); (22956,22954); (22957,22955); (22958,22956); (22845,22957); (22960,22958); (22976,22959); (22970,23154); (22963,22942); (22964,22962); (22965,22963); (22864,22964); (22967,22965); (22968,22966); (22969,22967); (22912,22968); (23024,22961); (-1547,22969); (22861,21913); (22974,22972); (22975,22973); (22994,22974); (22977,22960); (22919,22976); (-1560,22977); (23513,22947); (22981,25650); (22982,22980); (23353,22981); (23220,23453); (22985,23452); (22986,22984); (23107,22985); (23188,23224); (22989,23208); (22990,22988); (22932,22989); (-1561,22990); (23143,32820); (22996,23048); (22893,22975); (22997,22994); (23002,22993); (22998,22995); (22999,22997); (22941,22998)];
  [(-1548,22999); (23004,23045); (22904,22996); (23037,23002); (23005,23001); (22892,23004); (23007,23005); (23008,23006); (23009,23007); (22905,23008); (23011,23009); (23012,23010); (23013,23011); (22905,23012); (23015,23013); (23016,23014); (23017,23015); (22917,23016); (23019,23017); (23020,23018); (23021,23019); (22963,23020); (-1549,23021); (23032,23124); (22926,22970); (23026,23024); (23027,23025); (23028,23026); (22915,23027); (23030,23028); (23031,23029); (23033,23030); (23036,23023); (22975,23031); (-1550,23033); (21902,21884); (23046,23032); (23039,23003); (21885,21884); (23040,23037); (22927,23039); (23042,23040); (23043,23041); (23046,23042); (21910,21884); (23001,21884); (22988,23043); (-1551,23046); (22993,21884); (23051,23050); (23049,21884); (23052,23049); (23037,23051); (23104,23138); (23055,23134); (23056,23054); (22941,23055); (23058,23056); (23059,23057); (23060,23058); (22989,23059); (23091,23094); (23063,23090); (23064,23062); (22951,23063); (23066,23064); (23067,23065); (23068,23066); (22959,23067); (23070,23068); (23071,23069); (23072,23070); (22968,23071); (23074,23072); (23075,23073); (23076,23074); (22966,23075); (23078,23076); (23079,23077); (23080,23078); (22971,23079); (23082,23080); (23083,23081); (23084,23082); (22970,23083); (23086,23084); (23087,23085); (23088,23086); (23030,23087); (-1552,23088); (23062,23060); (23092,23061); (22983,23091); (23095,23092); (23061,23060); (23096,23093); (23097,23095); (22982,23096); (23099,23097); (23100,23098); (23101,23099); (23043,23100); (-1553,23101); (23107,23148); (23105,23053); (22991,23104); (23108,23105); (23135,23103); (23109,23106); (23110,23108); (22995,23109); (23112,23110); (23113,23111); (23114,23112); (23056,23113); (-1554,23114); (23117,23157); (23118,23116); (23006,23117); (23120,23118); (23121,23119); (23122,23120); (23064,23121); (-1555,23122); (23023,21872); (23126,23036); (23127,23125); (23128,23126); (23045,23127); (23130,23128); (23131,23129); (23132,23130); (23074,23131); (-1556,23132); (23054,23052); (23020,23107); (23137,23135); (23139,23136); (23053,23052); (23140,23137); (23083,23139); (21874,21872); (-1558,23140); (23144,22992); (25512,23143); (23496,25578); (23147,25609); (23149,23146); (23103,23052); (23207,23147); (21873,21872); (23258,23317); (23153,23306); (23155,23152); (22961,21872); (23039,23153); (23176,23155); (23116,23114); (23159,32821); (23160,23158); (27284,23159); (25699,27383); (23163,27381); (23164,23162); (23066,23163); (23166,23164); (23167,23165); (23168,23166); (23052,23167); (23170,23168); (23171,23169); (23172,23170); (23057,23171); (23174,23172); (23175,23173); (23190,23174); (23177,23156); (23178,23176); (23063,23177); (23180,23178); (23181,23179); (23182,23180); (23082,23181); (23184,23182); (23185,23183); (23186,23184); (23128,23185); (-1562,23186); (23189,22987); (23093,23188); (23090,23175); (23192,23190); (23193,23191); (23194,23192); (23136,23193); (-1709,23194); (23197,32853); (23198,23196); (28125,23197); (25646,28223)];
  [(23201,28222); (23202,23200); (23104,23201); (23204,23202); (23205,23203); (23206,23204); (23090,23205); (25632,23206); (22988,22986); (23210,23189); (23211,23209); (23212,23210); (23112,23211); (23214,23212); (23215,23213); (23216,23214); (23158,23215); (-1563,23216); (23219,23454); (23235,23218); (23221,22983); (23117,23220); (23223,23221); (23225,23222); (22987,22986); (23226,23223); (23128,23225); (23228,23226); (23229,23227); (23230,23228); (23172,23229); (-1564,23230); (23233,23463); (23234,23232); (23166,23233); (23127,23219); (23237,23235); (23238,23236); (23239,23237); (23128,23238); (23241,23239); (23242,23240); (23243,23241); (23128,23242); (23245,23243); (23246,23244); (23247,23245); (23127,23246); (23249,23247); (23250,23248); (23251,23249); (23134,23250); (23253,23251); (23254,23252); (23255,23253); (23197,23254); (-1565,23255); (23268,23321); (23259,23151); (23157,23258); (23261,23259); (23262,23260); (23263,23261); (23205,23262); (-1566,23263); (23266,23466); (23267,23265); (23159,23266); (23303,23257); (23270,23234); (23271,23269); (23272,23270); (23214,23271); (-1567,23272); (23275,23314); (23277,23274); (23294,23267); (23219,23275); (-1568,23277); (23280,23315); (23281,23279); (23223,23280); (-1569,23281); (23284,23322); (23285,23283); (23185,23284); (23287,23285); (23288,23286); (23289,23287); (23231,23288); (-1570,23289); (23292,23467); (23293,23291); (23188,23292); (23295,23276); (23296,23294); (23186,23295); (23298,23296); (23299,23297); (23300,23298); (23242,23299); (-1571,23300); (23305,23293); (23190,23268); (23307,23303); (23327,23302); (23152,23149); (23308,23304); (23309,23307); (23346,23308); (23406,23462); (23328,23444); (23313,22951); (23202,23312); (23274,23272); (23279,23272); (23318,23313); (23151,23149); (23319,23316); (23320,23318); (23264,23319); (23257,23149); (23283,23272); (-1574,23320); (23325,23469); (23326,23324); (23373,23325); (23329,23305); (23426,23311); (23331,23327); (23368,23443); (23332,23428); (23333,23331); (23222,23332); (23336,23333); (23471,23478); (23337,23334); (23340,23336); (23339,23470); (23455,23338); (23282,23337); (-1576,23340); (23343,23429); (23344,23342); (23286,23343); (-1577,23344); (23347,23388); (23348,23346); (23234,23347); (23350,23348); (23351,23349); (23352,23350); (23294,23351); (-1578,23352); (23355,23430); (23356,23354); (23298,23355); (-1579,23356); (23359,23433); (23360,23358); (23246,23359); (23362,23360); (23363,23361); (23364,23362); (23306,23363); (-1580,23364); (23367,23435); (23371,23366); (23369,23330); (23262,23368); (23373,23369); (23265,23367); (23374,23371); (23375,23370); (23376,23372); (23379,23373); (23377,23374); (23319,23376); (-1581,23377); (23332,23375); (23381,23439); (23382,23380); (23271,23381); (23384,23382); (23385,23383); (23387,23384); (-1557,23129); (23330,23385); (23346,23344); (-1582,23387); (-1575,23329); (-1583,23379); (23394,23446); (-1559,23136); (23395,23392); (23291,23394); (23397,23395); (23398,23396); (23399,23397); (23291,23398)];
  [(23401,23399); (23402,23400); (23403,23401); (23345,23402); (-1584,23403); (-1573,23309); (23407,23310); (23300,23406); (23409,23407); (23410,23408); (23411,23409); (23353,23410); (-1585,23411); (23414,23447); (23415,23413); (23308,23414); (23417,23415); (23418,23416); (23419,23417); (23361,23418); (-1586,23419); (23422,23450); (23423,23421); (23365,23422); (-1587,23423); (22952,22950); (23330,23328); (23431,23426); (23331,23329); (23342,23329); (23354,23329); (23432,23427); (23434,23431); (23358,23329); (23331,23432); (23366,23329); (23437,23434); (23438,23436); (23440,23437); (23380,23329); (23333,23438); (23445,23440); (22951,22950); (23330,23329); (23311,22950); (23448,23441); (23392,23329); (23413,23329); (23449,23445); (23392,23448); (23421,23329); (-1588,23449); (22984,22982); (22983,22982); (23218,22982); (23351,23339); (23457,23455); (23458,23456); (23459,23457); (23352,23458); (23461,23459); (23464,23460); (23310,23309); (23232,22982); (23465,23461); (23409,23464); (23265,22982); (23291,22982); (-1589,23465); (23324,22982); (23338,23326); (23472,23335); (23362,23471); (23474,23472); (23475,23473); (23476,23474); (23418,23475); (-1590,23476); (23335,23326); (23480,23528); (23481,23479); (23385,23480); (23483,23481); (23484,23482); (23485,23483); (23378,23484); (23487,23485); (23488,23486); (23489,23487); (23375,23488); (23491,23489); (23492,23490); (23493,23491); (23435,23492); (-1591,23493); (23526,25611); (23497,23145); (23401,23496); (23499,23497); (23500,23498); (23501,23499); (23388,23500); (23503,23501); (23504,23502); (23505,23503); (23392,23504); (23507,23505); (23508,23506); (23509,23507); (23451,23508); (-1592,23509); (23512,25652); (23543,23511); (23417,22979); (23515,23513); (23516,23514); (23517,23515); (23404,23516); (23519,23517); (23520,23518); (23521,23519); (23408,23520); (23523,23521); (23524,23522); (23525,23523); (23468,23524); (23610,23495); (-1593,23525); (23479,23476); (23530,25651); (23531,23529); (23450,23530); (23549,23548); (23534,23547); (23535,23533); (23422,23534); (23537,23535); (23538,23536); (23539,23537); (23426,23538); (23541,23539); (23542,23540); (23545,23541); (23598,23512); (23670,23699); (23487,23542); (-1594,23545); (23533,23531); (23532,23531); (23550,23532); (23437,23549); (23552,23550); (23553,23551); (23555,23552); (-1572,23297); (23449,23553); (23557,23555); (23558,23556); (23559,23557); (23501,23558); (-1595,23559); (23562,23564); (23563,23561); (23486,23562); (23561,23531); (23584,23593); (23567,23583); (23568,23566); (23470,23567); (23570,23568); (23571,23569); (23572,23570); (23472,23571); (23574,23572); (23575,23573); (23576,23574); (23518,23575); (-1596,23576); (23580,23579); (23578,23572); (23581,23578); (23523,23580); (-1597,23581); (23566,23563); (23585,23565); (23485,23584); (23587,23585); (23588,23586); (23589,23587); (23531,23588); (-1598,23589); (23592,23600); (23594,23591); (23565,23563); (23487,23592); (23596,23594); (23597,23595); (23598,23596); (23499,23597); (23601,23598)];
  [(23591,23585); (23602,23599); (23603,23601); (23545,23602); (-1599,23603); (23606,23616); (23607,23605); (23549,23606); (-1600,23607); (23640,25613); (23606,23526); (23650,23707); (23613,23703); (23614,23612); (23501,23613); (23617,23614); (23605,23598); (23618,23615); (23619,23617); (23509,23618); (23621,23619); (23622,23620); (23623,23621); (23514,23622); (23625,23623); (23626,23624); (23627,23625); (23569,23626); (-1601,23627); (23630,25653); (23661,23629); (23632,23695); (23633,23631); (23520,23632); (23635,23633); (23636,23634); (23637,23635); (23527,23636); (23639,23637); (23641,23638); (23642,23609); (23643,23639); (23788,23640); (23534,23641); (23645,23643); (23646,23644); (23647,23645); (23589,23646); (-1602,23647); (23653,23727); (23651,23611); (23552,23650); (23654,23651); (23704,23649); (23655,23652); (23656,23654); (23552,23655); (23658,23656); (23659,23657); (23660,23658); (23556,23659); (23666,23630); (23723,23774); (23713,23765); (23665,23660); (23666,23664); (23667,23665); (23609,23666); (-1603,23667); (23673,23715); (23671,23544); (23586,23670); (23687,23691); (23696,23669); (23675,23686); (23676,23674); (23572,23675); (23678,23676); (23679,23677); (23680,23678); (23573,23679); (23682,23680); (23683,23681); (23684,23682); (23626,23683); (-1604,23684); (23674,23671); (23688,23672); (23581,23687); (23690,23688); (23692,23689); (23672,23671); (23693,23690); (23635,23692); (-1605,23693); (23631,23543); (23599,23673); (23698,23696); (23700,23697); (23544,23543); (23701,23698); (23643,23700); (-1606,23701); (23612,23610); (23646,23653); (-1607,23704); (23708,23719); (23611,23610); (23709,23706); (23651,23708); (-1608,23709); (23712,25654); (23743,23711); (23714,23663); (23619,23713); (23669,23543); (23717,23714); (23718,23716); (23720,23717); (23706,23543); (23662,23718); (-1609,23720); (23731,23779); (23724,23662); (23625,23723); (23726,23724); (23728,23725); (23649,23610); (23729,23726); (23626,23728); (23732,23729); (23749,23722); (23733,23730); (23734,23732); (23638,23733); (23736,23734); (23737,23735); (23738,23736); (23625,23737); (23740,23738); (23741,23739); (23742,23740); (23688,23741); (23746,23712); (23826,23845); (23746,23843); (23773,23745); (-1610,23742); (23757,23781); (23633,23731); (23751,23749); (23752,23750); (23753,23751); (23643,23752); (23755,23753); (23756,23754); (23758,23755); (23762,23748); (23700,23756); (-1611,23758); (23761,23814); (23763,23760); (23662,23757); (23705,23761); (-1612,23763); (23663,23661); (23767,23762); (23768,23766); (23769,23767); (23711,23768); (-1613,23769); (23802,25581); (23848,23906); (23669,23746); (23662,23661); (23776,25655); (23807,23775); (23778,23773); (23780,23777); (23722,23661); (23782,23778); (23748,23661); (23724,23780); (-1615,23782); (23785,23829); (23786,23784); (23677,23785); (23788,23786); (23789,23787); (23790,23788); (23690,23789); (23792,23790); (23793,23791); (23794,23792); (23736,23793); (-1616,23794); (23797,23836); (23798,23796); (23702,23797); (23800,23798)];
  [(23801,23799); (23803,23800); (23804,23771); (23691,23801); (23735,23802); (23812,23803); (23837,23804); (23932,23776); (24010,24040); (23810,24037); (23811,23809); (23881,23810); (23813,23805); (23815,23812); (23760,23758); (23700,23813); (23817,23815); (23818,23816); (23819,23817); (23761,23818); (-1617,23819); (23822,23839); (23823,23821); (23765,23822); (-1618,23823); (23827,23849); (23828,23744); (23844,23825); (23714,23826); (23784,23782); (23831,23828); (23832,23830); (23833,23831); (23775,23832); (-1619,23833); (23838,25614); (23796,23782); (23840,23806); (23866,23835); (23821,23782); (23841,23837); (23783,23840); (-1620,23841); (23745,23743); (23787,23827); (23744,23743); (-1622,23844); (-1614,23642); (23850,23772); (23825,23743); (23750,23848); (23852,23850); (23853,23851); (23854,23852); (23741,23853); (23856,23854); (23857,23855); (23858,23856); (23744,23857); (23860,23858); (23861,23859); (23862,23860); (23762,23861); (23864,23862); (23865,23863); (23867,23864); (23754,23838); (23872,23865); (23870,23866); (23942,23957); (24033,23868); (23872,23941); (23873,23871); (23791,23872); (23900,23904); (23876,23899); (23877,23875); (23777,23876); (23879,23877); (23880,23878); (23881,23879); (23773,23880); (23883,23881); (23884,23882); (23885,23883); (23785,23884); (23887,23885); (23888,23886); (23889,23887); (23780,23888); (23891,23889); (23892,23890); (23893,23891); (23778,23892); (23895,23893); (23896,23894); (23897,23895); (23839,23896); (-1624,23897); (23875,23873); (23901,23874); (23785,23900); (23903,23901); (23905,23902); (23874,23873); (23907,23903); (23772,23642); (23803,23905); (23909,23907); (23910,23908); (23911,23909); (23804,23910); (23913,23911); (23914,23912); (23915,23913); (23811,23914); (23917,23915); (23918,23916); (23919,23917); (23822,23918); (23921,23919); (23922,23920); (23923,23921); (23810,23922); (23925,23923); (23926,23924); (23927,23925); (23823,23926); (23929,23927); (23930,23928); (23931,23929); (23815,23930); (23933,23931); (23934,23932); (23935,23933); (23827,23934); (23937,23935); (23938,23936); (23939,23937); (23881,23938); (-1625,23939); (23871,23867); (23943,23869); (23832,23942); (23945,23943); (23946,23944); (23947,23945); (23879,23946); (23949,23947); (23950,23948); (23951,23949); (23839,23950); (23953,23951); (23954,23952); (23955,23953); (23839,23954); (23958,23955); (23869,23867); (23959,23956); (23960,23958); (23856,23959); (23962,23960); (23963,23961); (23964,23962); (23857,23963); (23966,23964); (23967,23965); (23968,23966); (23864,23967); (23970,23968); (23971,23969); (23972,23970); (23875,23971); (23974,23972); (23975,23973); (23976,23974); (23863,23975); (23978,23976); (23979,23977); (23980,23978); (23876,23979); (23982,23980); (23983,23981); (23984,23982); (23868,23983); (23986,23984); (23987,23985); (23988,23986); (23880,23987); (23990,23988); (23991,23989); (23992,23990); (23934,23991); (-1626,23992); (23995,25625); (24026,23994); (23997,23811); (23998,23996); (23999,23997); (23896,23998)];
  [(24001,23999); (24002,24000); (24003,24001); (23888,24002); (24005,24003); (24006,24004); (24007,24005); (23949,24006); (-1627,24007); (24012,24046); (24011,23808); (23902,24010); (24038,24009); (24014,24011); (24015,24013); (24016,24014); (23906,24015); (24018,24016); (24019,24017); (24020,24018); (23907,24019); (24022,24020); (24023,24021); (24024,24022); (23966,24023); (-1628,24024); (23930,23995); (24028,24026); (24029,24027); (24030,24028); (23917,24029); (24043,24030); (24035,25616); (24034,23870); (23977,24033); (24063,24032); (-1629,24034); (23809,23807); (23980,24012); (-1630,24038); (23808,23807); (24042,25658); (24048,24041); (24044,24031); (24045,24043); (23988,24044); (24009,23807); (-1631,24045); (24936,24042); (24050,25657); (24051,24049); (23992,24050); (24091,24103); (24054,24089); (24055,24053); (23942,24054); (24057,24055); (24058,24056); (24059,24057); (23969,24058); (24070,24086); (24062,24069); (24064,24061); (23954,24035); (24007,24062); (24067,24063); (-1632,24064); (24068,24065); (24085,24067); (24061,24059); (24071,24060); (24013,24070); (-1633,24071); (25040,25046); (24075,25039); (24076,24074); (23973,24075); (24078,24076); (24080,24077); (24082,24121); (24211,24078); (-1623,23849); (24083,24079); (24025,24082); (-1634,24083); (24029,24068); (24060,24059); (24090,25623); (-1635,24085); (24053,24051); (24118,24087); (24092,24052); (24035,24091); (-1621,23806); (-1636,24092); (24096,24153); (24097,24095); (24039,24096); (-1637,24097); (24100,25617); (24101,24099); (23999,24100); (24104,24101); (24052,24051); (24105,24102); (24106,24104); (24003,24105); (24108,24106); (24109,24107); (24110,24108); (23995,24109); (24112,24110); (24113,24111); (24114,24112); (24936,24113); (24190,25033); (24117,25001); (24119,24116); (25171,24090); (24062,24117); (25284,25288); (24079,24071); (24123,25283); (24125,24122); (24173,24176); (24024,24123); (25230,24125); (24128,24172); (24129,24127); (24027,24128); (24131,24129); (24132,24130); (24133,24131); (24026,24132); (24135,24133); (24136,24134); (24137,24135); (24037,24136); (24139,24137); (24140,24138); (24141,24139); (24076,24140); (24143,24141); (24144,24142); (24145,24143); (24032,24144); (24147,24145); (24148,24146); (24149,24147); (24053,24148); (24151,24149); (24152,24150); (24154,24151); (24095,24092); (24056,24152); (24156,24154); (24157,24155); (24158,24156); (24052,24157); (24160,24158); (24161,24159); (24162,24160); (24062,24161); (24164,24162); (24165,24163); (24166,24164); (24051,24165); (24168,24166); (24169,24167); (24170,24168); (24112,24169); (-1638,24170); (24127,24119); (24174,24124); (24061,24173); (24177,24174); (24124,24119); (24178,24175); (24179,24177); (24069,24178); (24181,24179); (24182,24180); (24183,24181); (24065,24182); (24185,24183); (24186,24184); (24187,24185); (24201,24186); (24239,24267); (24221,25003); (24191,24115); (24078,24190); (24193,24191); (24194,24192); (24195,24193); (24082,24194); (24197,24195); (24198,24196); (24199,24197); (24089,24198)];
  [(24201,24199); (24202,24200); (24203,24201); (24085,24202); (24205,24203); (24206,24204); (24207,24205); (24149,24206); (-1640,24207); (24210,25661); (24216,24209); (24096,24080); (24213,24211); (24214,24212); (24215,24213); (24676,24214); (25030,24210); (24500,24780); (24219,24773); (24220,24218); (24108,24219); (24314,24189); (24223,24220); (24224,24222); (24225,24223); (24112,24224); (24227,24225); (24228,24226); (24229,24227); (24119,24228); (24231,24229); (24232,24230); (24233,24231); (24115,24232); (24235,24233); (24236,24234); (24237,24235); (24238,24236); (24298,24354); (24250,24188); (24247,24277); (25098,25134); (24243,25127); (24244,24242); (24131,24243); (24246,24244); (24248,24245); (24261,24240); (24249,24246); (24977,24248); (24154,24239); (24252,24250); (24253,24251); (24254,24252); (24141,24253); (24256,24254); (24257,24255); (24258,24256); (24200,24257); (-1642,24258); (-1639,24187); (24161,24247); (24263,24261); (24264,24262); (24265,24263); (24164,24264); (24268,24265); (24188,24187); (24269,24266); (24270,24268); (24155,24269); (24272,24270); (24273,24271); (24274,24272); (24210,24273); (24276,24274); (24278,24275); (24240,24187); (24279,24276); (24166,24278); (24281,24279); (24282,24280); (24283,24281); (24170,24282); (24285,24283); (24286,24284); (24287,24285); (24177,24286); (24289,24287); (24290,24288); (24291,24289); (24173,24290); (24293,24291); (24294,24292); (24295,24293); (24237,24294); (-1643,24295); (-1641,24237); (24299,24238); (24203,24298); (24301,24299); (24302,24300); (24303,24301); (24199,24302); (24305,24303); (24306,24304); (24307,24305); (24200,24306); (24309,24307); (24310,24308); (24311,24309); (24253,24310); (-1644,24311); (24315,25004); (24215,24221); (24342,24313); (24317,24314); (24318,24316); (24319,24317); (24215,24318); (24321,24319); (24322,24320); (24323,24321); (24216,24322); (24325,24323); (24326,24324); (24327,24325); (24223,24326); (24329,24327); (24330,24328); (24331,24329); (24222,24330); (24333,24331); (24334,24332); (24335,24333); (24233,24334); (24337,24335); (24338,24336); (24339,24337); (24281,24338); (-1645,24339); (24343,25006); (24234,24315); (24344,24341); (24265,24343); (24346,24342); (24347,24345); (24348,24346); (24279,24347); (24397,24398); (24351,24396); (24352,24350); (24255,24351); (24355,24352); (24238,24237); (24356,24353); (24357,24355); (24250,24356); (24359,24357); (24360,24358); (24361,24359); (24261,24360); (24363,24361); (24364,24362); (24365,24363); (24300,24364); (24367,24365); (24368,24366); (24369,24367); (24256,24368); (24371,24369); (24372,24370); (24374,24371); (24480,24344); (24278,24372); (24376,24374); (24377,24375); (24378,24376); (24280,24377); (24380,24378); (24381,24379); (24382,24380); (24276,24381); (24384,24382); (24385,24383); (24386,24384); (24286,24385); (24388,24386); (24389,24387); (24390,24388); (24275,24389); (24392,24390); (24393,24391); (24394,24392); (24336,24393); (-1646,24394); (24350,24348); (24399,24349); (24349,24348); (24290,24397)];
  [(24401,24399); (24402,24400); (24403,24401); (24357,24402); (24442,24443); (24406,24441); (24407,24405); (24307,24406); (24409,24407); (24410,24408); (24411,24409); (24311,24410); (24413,24411); (24414,24412); (24415,24413); (24330,24414); (24417,24415); (24418,24416); (24419,24417); (24319,24418); (24421,24419); (24422,24420); (24423,24421); (24325,24422); (24425,24423); (24426,24424); (24427,24425); (24312,24426); (24429,24427); (24430,24428); (24431,24429); (24321,24430); (24433,24431); (24434,24432); (24435,24433); (24322,24434); (24437,24435); (24438,24436); (24439,24437); (24381,24438); (-1647,24439); (24405,24403); (24444,24404); (24404,24403); (24344,24442); (24446,24444); (24447,24445); (24448,24446); (24350,24447); (24450,24448); (24451,24449); (24452,24450); (24337,24451); (24454,24452); (24455,24453); (24456,24454); (24346,24455); (24458,24456); (24459,24457); (24460,24458); (24347,24459); (24462,24460); (24463,24461); (24464,24462); (24406,24463); (-1648,24464); (24467,24472); (24468,24466); (24372,24467); (24470,24468); (24471,24469); (24473,24470); (24466,24464); (24360,24471); (24475,24473); (24476,24474); (24477,24475); (24419,24476); (-1649,24477); (24481,25020); (24483,24373); (24482,24479); (24713,24481); (24485,24480); (24815,24827); (24375,24483); (24487,24485); (24488,24486); (24489,24487); (24379,24488); (24491,24489); (24492,24490); (24493,24491); (24380,24492); (24495,24493); (24496,24494); (24497,24495); (24439,24496); (-1650,24497); (24506,24784); (24501,24217); (24405,24500); (24503,24501); (24504,24502); (24505,24503); (24393,24504); (24555,24499); (24508,24505); (24509,24507); (24510,24508); (24400,24509); (24715,24814); (24513,24510); (24514,24512); (24515,24513); (24405,24514); (24517,24515); (24518,24516); (24519,24517); (24409,24518); (24521,24519); (24522,24520); (24523,24521); (24414,24522); (24525,24523); (24526,24524); (24527,24525); (24428,24526); (24529,24527); (24530,24528); (24531,24529); (24421,24530); (24533,24531); (24534,24532); (24535,24533); (24417,24534); (24537,24535); (24538,24536); (24539,24537); (24430,24538); (24541,24539); (24542,24540); (24543,24541); (24485,24542); (-1651,24543); (24546,24527); (24547,24545); (24548,24546); (24437,24547); (24550,24548); (24551,24549); (24552,24550); (24494,24551); (-1652,24552); (24561,24790); (24455,24506); (24557,24555); (24558,24556); (24559,24557); (24458,24558); (24562,24559); (24565,24554); (24563,24560); (24564,24562); (24450,24563); (24524,24561); (24567,24564); (24568,24566); (24569,24567); (24498,24568); (24596,24602); (24572,24595); (24573,24571); (24460,24572); (24575,24573); (24576,24574); (24577,24575); (24464,24576); (24579,24577); (24580,24578); (24581,24579); (24471,24580); (24583,24581); (24584,24582); (24585,24583); (24467,24584); (24587,24585); (24588,24586); (24589,24587); (24475,24588); (24591,24589); (24592,24590); (24593,24591); (24535,24592); (-1653,24593); (24571,24569); (24597,24570); (24501,24596); (24599,24597); (24600,24598)];
  [(24601,24599); (24489,24600); (24570,24569); (24604,24601); (24605,24603); (24606,24604); (24495,24605); (24608,24606); (24609,24607); (24610,24608); (24500,24609); (24612,24610); (24613,24611); (24614,24612); (24504,24613); (24616,24614); (24617,24615); (24618,24616); (24509,24617); (24620,24618); (24621,24619); (24622,24620); (24508,24621); (24624,24622); (24625,24623); (24626,24624); (24568,24625); (-1654,24626); (24635,24791); (24630,24565); (24631,24629); (24632,24630); (24530,24631); (24634,24632); (24636,24633); (24639,24628); (24637,24634); (24534,24636); (24640,24637); (24532,24635); (24641,24638); (24642,24640); (24527,24641); (24644,24642); (24646,24643); (24674,24639); (24647,24644); (24551,24646); (24649,24647); (24650,24648); (24651,24649); (24538,24650); (24653,24651); (24654,24652); (24655,24653); (24542,24654); (24657,24655); (24658,24656); (24659,24657); (24549,24658); (24661,24659); (24662,24660); (24663,24661); (24545,24662); (24665,24663); (24666,24664); (24667,24665); (24553,24666); (24669,24667); (24670,24668); (24671,24669); (24613,24670); (-1655,24671); (24680,24792); (24675,24645); (24676,24674); (24560,24675); (24678,24676); (24679,24677); (24681,24678); (24684,24673); (24577,24679); (24683,24681); (24685,24682); (24586,24680); (24686,24683); (24584,24685); (24688,24686); (24689,24687); (24692,24688); (24691,24684); (24774,24690); (24596,24689); (24694,24692); (24695,24693); (24696,24694); (24583,24695); (24698,24696); (24699,24697); (24700,24698); (24587,24699); (24702,24700); (24703,24701); (24704,24702); (24594,24703); (24706,24704); (24707,24705); (24708,24706); (24590,24707); (24710,24708); (24711,24709); (24712,24710); (24654,24711); (-1656,24712); (24716,25021); (24718,24511); (24717,24714); (24607,24716); (24619,24715); (24733,24717); (24721,24718); (24722,24720); (24723,24721); (24665,24722); (-1657,24723); (24726,24730); (24727,24725); (24614,24726); (24729,24727); (24731,24728); (24725,24723); (24732,24729); (24620,24731); (24746,24719); (24735,24732); (24736,24734); (24737,24735); (24627,24736); (24739,24737); (24740,24738); (24741,24739); (24623,24740); (24743,24741); (24744,24742); (24745,24743); (24688,24744); (24878,24733); (-1658,24745); (24749,24751); (24750,24748); (24651,24749); (24748,24723); (24753,24750); (24754,24752); (24755,24753); (24657,24754); (24757,24755); (24758,24756); (24759,24757); (24644,24758); (24761,24759); (24762,24760); (24763,24761); (24653,24762); (24765,24763); (24766,24764); (24767,24765); (24654,24766); (24769,24767); (24770,24768); (24771,24769); (24713,24770); (-1659,24771); (24218,24215); (24775,24691); (24662,24774); (24777,24775); (24778,24776); (24779,24777); (24680,24778); (24217,24215); (24782,24779); (24783,24781); (24785,24782); (24499,24215); (24685,24783); (24787,24785); (24788,24786); (24789,24787); (24677,24788); (24554,24215); (24628,24215); (24673,24215); (24794,24789); (24795,24793); (24796,24794); (24692,24795); (24798,24796); (24799,24797); (24800,24798)];
  [(24692,24799); (24802,24800); (24803,24801); (24804,24802); (24704,24803); (24806,24804); (24807,24805); (24808,24806); (24694,24807); (24810,24808); (24811,24809); (24812,24810); (24754,24811); (-1660,24812); (24511,24482); (24816,24484); (24712,24815); (24818,24816); (24819,24817); (24820,24818); (24724,24819); (24822,24820); (24823,24821); (24824,24822); (24715,24823); (24826,24824); (24828,24825); (24484,24482); (24829,24826); (24727,24828); (24831,24829); (24832,24830); (24833,24831); (24726,24832); (24835,24833); (24836,24834); (24837,24835); (24737,24836); (24839,24837); (24840,24838); (24841,24839); (24797,24840); (24849,24866); (24844,24863); (24845,24843); (24749,24844); (24847,24845); (24848,24846); (24850,24847); (24857,24842); (24737,24848); (24852,24850); (24853,24851); (24854,24852); (24796,24853); (-1662,24854); (-1661,24841); (24745,24849); (24859,24857); (24860,24858); (24861,24859); (24745,24860); (24864,24861); (24843,24841); (24865,24862); (24867,24864); (24842,24841); (24771,24865); (24869,24867); (24870,24868); (24871,24869); (24764,24870); (24873,24871); (24874,24872); (24875,24873); (24817,24874); (-1663,24875); (24879,25022); (24895,24746); (24880,24877); (24781,24879); (24927,24979); (24896,24880); (24884,24963); (24885,24883); (24775,24884); (24887,24885); (24888,24886); (24889,24887); (24771,24888); (24891,24889); (24892,24890); (24893,24891); (24784,24892); (24895,24893); (24898,24894); (24897,24882); (24909,24896); (24899,24895); (24814,24898); (24901,24899); (24902,24900); (24903,24901); (24803,24902); (24905,24903); (24906,24904); (24907,24905); (24809,24906); (24910,24907); (24903,24897); (24911,24908); (24912,24910); (24797,24911); (24914,24912); (24915,24913); (24916,24914); (24806,24915); (24918,24916); (24919,24917); (24920,24918); (24807,24919); (24922,24920); (24923,24921); (24924,24922); (24866,24923); (-1664,24924); (24942,24981); (24928,24881); (24828,24927); (24930,24928); (24931,24929); (24932,24930); (24832,24931); (24934,24932); (24935,24933); (24936,24934); (24851,24935); (24938,24936); (24939,24937); (24940,24938); (24840,24939); (24943,24940); (24964,24926); (24944,24941); (24945,24943); (24847,24944); (24947,24945); (24948,24946); (24949,24947); (24834,24948); (24951,24949); (24952,24950); (24953,24951); (24843,24952); (24955,24953); (24956,24954); (24957,24955); (24844,24956); (24959,24957); (24960,24958); (24961,24959); (24903,24960); (-1665,24961); (24883,24878); (24864,24942); (24966,24964); (24967,24965); (24968,24966); (24870,24967); (24970,24968); (24971,24969); (24972,24970); (24857,24971); (24974,24972); (24975,24973); (24976,24974); (24866,24975); (24978,24976); (24980,24977); (24881,24878); (24982,24978); (24926,24878); (24869,24980); (24984,24982); (24985,24983); (24986,24984); (24928,24985); (-1666,24986); (24989,24994); (24990,24988); (24894,24989); (24992,24990); (24993,24991); (24995,24992); (24988,24986); (24882,24993); (24997,24995); (24998,24996); (24999,24997); (24941,24998)];
  [(-1667,24999); (24116,24114); (25005,24909); (24189,24114); (24313,24114); (25007,25002); (24341,24114); (25008,25005); (24893,25007); (25010,25008); (25011,25009); (25012,25010); (24902,25011); (25014,25012); (25015,25013); (25016,25014); (24903,25015); (25018,25016); (25019,25017); (25023,25018); (24479,24114); (24714,24114); (24877,24114); (24965,25019); (-1668,25023); (25026,25031); (25027,25025); (24931,25026); (25029,25027); (25030,25028); (25032,25029); (25025,25023); (24920,25030); (24115,24114); (25035,25032); (25036,25034); (25037,25035); (24979,25036); (-1669,25037); (24074,24048); (25041,24073); (24939,25040); (25043,25041); (25044,25042); (25045,25043); (24988,25044); (24073,24048); (-1670,25045); (25049,25051); (25050,25048); (24947,25049); (25048,24048); (25053,25050); (25054,25052); (25055,25053); (24946,25054); (25057,25055); (25058,25056); (25059,25057); (24957,25058); (25061,25059); (25062,25060); (25063,25061); (24964,25062); (25065,25063); (25066,25064); (25067,25065); (24957,25066); (25069,25067); (25070,25068); (25071,25069); (24956,25070); (25073,25071); (25074,25072); (25075,25073); (24961,25074); (25077,25075); (25078,25076); (25079,25077); (24979,25078); (25081,25079); (25082,25080); (25083,25081); (24971,25082); (25085,25083); (25086,25084); (25087,25085); (25029,25086); (-1671,25087); (25090,25663); (25096,25089); (25092,24249); (25093,25091); (25094,25092); (25036,25093); (-1672,25094); (25012,25090); (25104,25139); (25099,24241); (25003,25098); (25101,25099); (25102,25100); (25103,25101); (24991,25102); (25110,25097); (25106,25103); (25107,25105); (25108,25106); (25050,25107); (-1673,25108); (25052,25104); (-1674,25110); (25113,25662); (25114,25112); (25004,25113); (25116,25114); (25117,25115); (25118,25116); (25002,25117); (25120,25118); (25130,25119); (25122,25096); (25123,25121); (25124,25122); (25020,25123); (25126,25124); (25128,25125); (24242,24216); (25129,25126); (25032,25128); (25131,25120); (25020,25130); (25133,25129); (25163,25132); (24241,24216); (25136,25131); (25137,25135); (25138,25136); (25024,25137); (25097,24216); (25141,25138); (25142,25140); (25143,25141); (25085,25142); (-1675,25143); (25146,25182); (25147,25145); (25049,25146); (25149,25147); (25150,25148); (25151,25149); (25048,25150); (25153,25151); (25154,25152); (25155,25153); (25055,25154); (25157,25155); (25158,25156); (25159,25157); (25101,25158); (-1676,25159); (25162,25665); (25168,25161); (25164,25133); (25106,25163); (-1677,25164); (25167,25664); (25169,25166); (25235,25162); (25159,25167); (25199,25257); (25172,25256); (25173,25171); (25074,25172); (25185,25188); (25176,25184); (25177,25175); (25075,25176); (25179,25177); (25180,25178); (25181,25179); (25124,25180); (25145,25143); (-1678,25181); (25175,25173); (25186,25174); (25073,25185); (25189,25186); (25174,25173); (25190,25187); (25191,25189); (25133,25190); (-1679,25191); (25333,25347); (25195,25332); (25196,25194); (25083,25195); (25198,25196); (25200,25197); (25208,25170)];
  [(25201,25198); (25269,25200); (25203,25271); (25220,25202); (25205,25372); (25206,25204); (25091,25205); (25326,25206); (25095,25199); (25210,25208); (25211,25209); (25212,25210); (25106,25211); (25214,25212); (25215,25213); (25216,25214); (25158,25215); (-1680,25216); (25219,25275); (25233,25218); (25140,25203); (25238,25242); (25223,25237); (25224,25222); (25111,25223); (25226,25224); (25227,25225); (25228,25226); (25170,25227); (-1681,25228); (25232,24126); (25234,25626); (25235,25230); (25150,25219); (25262,25231); (25177,25232); (-1682,25235); (25222,25220); (25239,25221); (25181,25238); (-1683,25239); (25243,25248); (25221,25220); (25244,25241); (25128,25243); (25246,25244); (25247,25245); (25249,25246); (25241,25220); (25135,25247); (25251,25249); (25252,25250); (25253,25251); (25195,25252); (-1684,25253); (25258,25233); (25171,25169); (25170,25169); (25259,25255); (25260,25258); (25152,25259); (25263,25260); (25159,25234); (25265,25261); (25266,25262); (25268,25263); (25267,25264); (25269,25266); (25171,25265); (25167,25267); (25276,25269); (25202,25169); (25273,25268); (25274,25272); (25277,25273); (25218,25169); (25389,25270); (25163,25274); (25279,25277); (25280,25278); (25281,25279); (25223,25280); (-1685,25281); (24122,24118); (25285,24120); (25176,25284); (25287,25285); (25289,25286); (24120,24118); (25290,25287); (25191,25289); (25292,25290); (25293,25291); (25294,25292); (25222,25293); (25296,25294); (25297,25295); (25298,25296); (25190,25297); (25300,25298); (25301,25299); (25302,25300); (25191,25301); (25304,25302); (25305,25303); (25306,25304); (25199,25305); (25308,25306); (25309,25307); (25310,25308); (25206,25309); (25312,25310); (25313,25311); (25314,25312); (25214,25313); (25316,25314); (25317,25315); (25318,25316); (25204,25317); (25320,25318); (25321,25319); (25322,25320); (25264,25321); (-1686,25322); (25325,25668); (25331,25324); (25327,25207); (25329,25326); (-1687,25201); (25271,25327); (-1688,25329); (25383,25325); (25194,25168); (25334,25193); (25224,25333); (25336,25334); (25337,25335); (25338,25336); (25231,25337); (25340,25338); (25341,25339); (25342,25340); (25238,25341); (25344,25342); (25345,25343); (25346,25344); (25238,25345); (25193,25168); (25349,25346); (25350,25348); (25351,25349); (25236,25350); (25353,25351); (25354,25352); (25355,25353); (25303,25354); (25449,25482); (25358,25480); (25359,25357); (25247,25358); (25361,25359); (25363,25360); (-1689,25355); (25364,25361); (25250,25363); (25366,25667); (25374,25365); (25368,25364); (25369,25367); (25370,25368); (25260,25369); (25373,25370); (25204,25201); (25425,25371); (25278,25366); (25376,25374); (25377,25375); (25378,25376); (25265,25377); (25380,25378); (25381,25379); (25382,25380); (25269,25381); (25384,25382); (25385,25383); (25386,25384); (25328,25385); (-1690,25386); (25391,25629); (25390,25276); (25288,25389); (25419,25388); (25393,25390); (25394,25392); (25395,25393); (25280,25394); (25397,25395); (25398,25396); (25399,25397); (25303,25398)];
  [(25401,25399); (25402,25400); (25403,25401); (25290,25402); (25405,25403); (25406,25404); (25407,25405); (25294,25406); (25409,25407); (25410,25408); (25411,25409); (25301,25410); (25413,25411); (25414,25412); (25415,25413); (25297,25414); (25417,25415); (25418,25416); (25420,25417); (25313,25391); (25363,25418); (25423,25419); (-1691,25420); (25424,25421); (25426,25423); (25430,25373); (25326,25424); (25433,25426); (25429,25669); (25435,25428); (25372,25425); (-1692,25430); (25434,25627); (25436,25427); (25438,25432); (25422,25429); (25437,25433); (25511,25436); (25377,25434); (25457,25481); (25441,25476); (25442,25440); (25329,25441); (25444,25442); (25445,25443); (25446,25444); (25388,25445); (-1693,25446); (25450,25487); (25451,25356); (25466,25448); (25338,25449); (25453,25451); (25454,25452); (25455,25453); (25397,25454); (-1694,25455); (25458,25439); (25400,25457); (-1695,25458); (25510,25527); (25462,25526); (25463,25461); (25350,25462); (25465,25463); (25467,25464); (25410,25450); (25468,25465); (25370,25467); (-1696,25466); (25479,25496); (25472,25468); (25473,25471); (25474,25472); (25374,25473); (25477,25474); (25440,25438); (25478,25475); (25504,25477); (25483,25470); (25357,25331); (25439,25438); (25356,25331); (25386,25479); (25485,25483); (25486,25484); (25488,25485); (25448,25331); (25430,25486); (-1697,25488); (25491,25503); (25492,25490); (25382,25491); (25494,25492); (25495,25493); (25497,25494); (25470,25331); (25439,25495); (-1698,25497); (25500,25553); (25501,25499); (25443,25500); (-1699,25501); (25490,25483); (25448,25478); (25506,25670); (25512,25505); (-1700,25504); (25509,25536); (25528,25508); (25511,25460); (25404,25510); (25429,25506); (25514,25511); (25515,25513); (25516,25514); (25416,25515); (25518,25516); (25519,25517); (25520,25518); (25406,25519); (25522,25520); (25523,25521); (25524,25522); (25466,25523); (-1701,25524); (25461,25435); (25460,25435); (25424,25509); (25530,25528); (25531,25529); (25532,25530); (25474,25531); (-1702,25532); (25535,25575); (25543,25534); (25508,25435); (25538,25512); (25539,25537); (25540,25538); (25424,25539); (25542,25540); (25544,25541); (25487,25535); (25545,25542); (25444,25544); (-1703,25543); (25557,25576); (25549,25545); (25550,25548); (25551,25549); (25455,25550); (25554,25551); (25499,25497); (25555,25552); (25556,25554); (25498,25555); (25558,25547); (25500,25557); (-1704,25558); (25561,25582); (25562,25560); (25447,25561); (25564,25562); (25565,25563); (25566,25564); (25453,25565); (25568,25566); (25569,25567); (25570,25568); (25466,25569); (25572,25570); (25573,25571); (25574,25572); (25518,25573); (25534,25532); (25547,25532); (-1705,25574); (23145,23144); (25580,25437); (25583,25579); (23771,23144); (25560,25532); (25584,25580); (25484,25583); (25586,25584); (25587,25585); (25588,25586); (25481,25587); (25590,25588); (25591,25589); (25592,25590); (25496,25591); (25594,25592); (25595,25593); (25596,25594); (25476,25595); (25598,25596); (25599,25597); (25600,25598)];
  [(25500,25599); (25602,25600); (25603,25601); (25604,25602); (25505,25603); (25606,25604); (25607,25605); (25608,25606); (25551,25607); (23146,23144); (-1706,25608); (23495,23144); (25615,25556); (23609,23144); (23835,23144); (25620,25612); (24032,23144); (24099,23144); (22948,22946); (22947,22946); (25621,25615); (25563,25620); (-1707,25621); (24087,23144); (25628,25673); (23994,22946); (25231,23144); (25432,23144); (25630,25624); (25388,23144); (25572,25628); (-1708,25630); (25633,23207); (25634,25632); (25519,25633); (25636,25634); (25637,25635); (25638,25636); (25538,25637); (25640,25638); (25641,25639); (25642,25640); (25584,25641); (-1710,25642); (25645,28224); (25725,25644); (25647,23199); (25535,25646); (25649,25647); (25656,25648); (22980,22946); (23529,22946); (23511,22946); (23629,22946); (23711,22946); (23775,22946); (25659,25649); (24049,22946); (24041,22946); (25543,25656); (25666,25659); (24209,22946); (25112,22946); (25089,22946); (25166,22946); (25161,22946); (25671,25660); (25365,22946); (25324,22946); (25428,22946); (25505,22946); (25672,25666); (25582,25671); (25624,22946); (25675,32822); (25676,25674); (29214,25675); (28278,29313); (25679,29311); (25680,25678); (28202,25679); (25723,28319); (25683,28300); (25684,25682); (25626,25683); (-1907,25684); (25687,32854); (25688,25686); (29269,25687); (28235,29367); (25691,29366); (25692,25690); (28114,25691); (25694,25672); (25695,25693); (25696,25694); (25638,25695); (-1711,25696); (25700,27386); (25701,23161); (26066,25698); (25848,25699); (25740,25949); (25704,28225); (25705,25703); (25805,25704); (28186,28231); (25708,28228); (25709,25707); (25607,25708); (25711,25709); (25712,25710); (25713,25711); (25613,25712); (25715,25713); (25716,25714); (25717,25715); (25602,25716); (25719,25717); (25720,25718); (25721,25719); (25663,25720); (-1908,25721); (25724,25681); (28125,25723); (25842,25645); (25764,25911); (25728,25939); (25729,25727); (25640,25728); (25753,25754); (25732,25752); (25733,25731); (25675,25732); (-1714,25733); (25736,25945); (25737,25735); (25624,25736); (25739,25737); (25741,25738); (25786,25702); (25742,25739); (25632,25741); (25744,25742); (25745,25743); (25746,25744); (25637,25745); (25748,25746); (25749,25747); (25750,25748); (25692,25749); (-1715,25750); (25731,25729); (25755,25730); (25730,25729); (25645,25753); (25757,25755); (25758,25756); (25759,25757); (25650,25758); (25761,25759); (25762,25760); (25763,25761); (25706,25762); (25766,25726); (-1716,25763); (25721,25764); (25768,25941); (25769,25767); (25653,25768); (25771,25769); (25772,25770); (25773,25771); (25673,25772); (25775,25773); (25776,25774); (25777,25775); (25719,25776); (-1717,25777); (25789,25947); (-1718,25766); (25782,25943); (25783,25781); (25725,25782); (-1719,25783); (25823,25969); (25687,25740); (25788,25786); (25790,25787); (25817,25779); (25791,25788); (25687,25790); (25793,25791); (25794,25792); (25795,25793); (25688,25794); (25797,25795); (25798,25796); (25799,25797); (25741,25798)];
  [(-1720,25799); (25802,25825); (25803,25801); (25699,25802); (25805,25803); (25806,25804); (25807,25805); (25700,25806); (25809,25807); (25810,25808); (25811,25809); (25753,25810); (-1721,25811); (25814,25953); (25815,25813); (25702,25814); (25818,25815); (25705,25789); (25820,25816); (25821,25817); (25822,25818); (25833,25819); (25725,25820); (25827,25785); (25826,25822); (25801,25783); (25828,25824); (25772,25823); (25829,25826); (25771,25828); (-1722,25829); (-1729,25827); (25842,25957); (25834,25821); (25736,25833); (25836,25834); (25837,25835); (25838,25836); (25780,25837); (-1723,25838); (25841,25952); (25843,25840); (25870,25832); (25784,25841); (25854,25853); (25846,25881); (25847,25845); (25736,25846); (25849,25847); (25850,25848); (25851,25849); (25793,25850); (-1724,25851); (25844,25843); (25855,25844); (25797,25854); (-1725,25855); (25858,25899); (25859,25857); (25755,25858); (25861,25859); (25862,25860); (25863,25861); (25755,25862); (25865,25863); (25866,25864); (25867,25865); (25809,25866); (-1726,25867); (25871,25954); (25767,25842); (25873,25869); (25874,25870); (25764,25871); (25878,25872); (25876,25873); (25877,25875); (25879,25876); (25883,25874); (25772,25877); (25882,25879); (25845,25843); (25884,25880); (25776,25878); (25886,25882); (25902,25883); (25782,25884); (25888,25886); (25889,25887); (25890,25888); (25781,25889); (25892,25890); (25893,25891); (25894,25892); (25779,25893); (25896,25894); (25897,25895); (25898,25896); (25841,25897); (25857,25843); (-1727,25898); (-1713,25725); (25903,25885); (25904,25902); (25846,25903); (-1728,25904); (25908,25963); (-1712,25701); (25909,25906); (25851,25908); (-1730,25909); (25726,25725); (25913,28226); (25914,25912); (25964,25913); (25968,26029); (25917,25705); (25918,25916); (25919,25917); (25804,25918); (25921,25919); (25922,25920); (25923,25921); (25866,25922); (25926,25964); (-1731,25923); (25927,25924); (25869,25926); (-1732,25927); (25930,25967); (25931,25929); (25873,25930); (-1733,25931); (25934,28227); (25935,25933); (25822,25934); (25937,25935); (26075,25936); (25940,26061); (25727,25725); (25942,25938); (25767,25725); (25830,25940); (25781,25725); (25946,25942); (25735,25701); (25948,25944); (25779,25725); (25950,25946); (25702,25701); (25876,25948); (25981,25990); (25840,25725); (25813,25701); (25869,25725); (25956,25980); (25958,25955); (25832,25725); (25852,25956); (25960,25958); (25961,25959); (25962,25960); (25906,25961); (25906,25725); (25924,25923); (-1734,25962); (25998,26080); (25929,25923); (25970,25915); (25785,25701); (25857,25968); (25972,25970); (25973,25971); (25974,25972); (25861,25973); (25976,25974); (25977,25975); (25978,25976); (25920,25977); (-1735,25978); (25955,25950); (25982,25951); (25924,25981); (-1736,25982); (25985,26035); (25986,25984); (25868,25985); (25988,25986); (25989,25987); (25991,25988); (25951,25950); (25933,25989); (-1737,25991); (25994,26063); (25995,25993); (25880,25994); (25997,25995); (25999,25996); (26000,25966); (26001,25997)];
  [(25901,25998); (25943,25999); (-1738,26001); (26004,26073); (26005,26003); (25901,26004); (26007,26005); (26008,26006); (26009,26007); (25952,26008); (26016,26000); (-1740,26009); (26013,26079); (26014,26012); (25896,26013); (26017,26014); (26030,26010); (26018,26015); (26019,26017); (25923,26018); (26021,26019); (26022,26020); (26023,26021); (25910,26022); (26025,26023); (26026,26024); (26027,26025); (25969,26026); (-1741,26027); (25915,25914); (26031,26016); (25945,26030); (26051,26055); (26034,26050); (26036,26033); (25984,25982); (25927,26034); (26038,26036); (26039,26037); (26040,26038); (25924,26039); (26042,26040); (26043,26041); (26044,26042); (25930,26043); (26046,26044); (26047,26045); (26048,26046); (25990,26047); (-1742,26048); (26033,26031); (26052,26032); (25994,26051); (-1743,26052); (26056,26084); (26032,26031); (26057,26054); (25942,26056); (26059,26057); (26060,26058); (26062,26059); (25938,25914); (26005,26060); (25993,25914); (-1744,26062); (26067,27356); (25954,25700); (26070,26065); (26069,26066); (26071,26068); (26088,26067); (26072,26069); (26015,26071); (26003,25914); (-1745,26072); (26076,25937); (26018,26075); (-1746,26076); (26081,26129); (26012,25914); (25966,25914); (26082,26078); (25964,26081); (26091,26082); (26054,25914); (26086,28229); (26087,26085); (26291,26086); (26136,26390); (26090,26388); (26105,26089); (26092,26083); (26093,26091); (25984,26092); (26095,26093); (26096,26094); (26097,26095); (26039,26096); (-1747,26097); (26100,28230); (26101,26099); (26332,26100); (26436,26441); (26104,26435); (26106,26103); (25993,26090); (26295,26104); (26108,26105); (26109,26107); (26110,26108); (25999,26109); (26112,26110); (26113,26111); (26114,26112); (26056,26113); (-1748,26114); (26141,27388); (26156,26187); (26119,26155); (26120,26118); (26049,26119); (26122,26120); (26123,26121); (26124,26122); (26026,26123); (26126,26124); (26127,26125); (26128,26126); (26009,26127); (26078,26076); (26131,26128); (26132,26130); (26133,26131); (26075,26132); (-1749,26133); (26137,26402); (26138,26088); (26261,26135); (26059,26136); (26164,26180); (26142,26163); (26143,26116); (26144,26140); (26035,26141); (26046,26142); (26147,26144); (26168,26143); (26148,26145); (26149,26147); (26029,26148); (26151,26149); (26152,26150); (26153,26151); (26095,26152); (-1750,26153); (26118,26070); (26157,26117); (26037,26156); (26159,26157); (26160,26158); (26161,26159); (26103,26160); (-1751,26161); (26140,26138); (26165,26139); (26107,26164); (-1752,26165); (26192,27389); (26169,26146); (26170,26168); (26057,26169); (26172,26170); (26173,26171); (26174,26172); (26059,26173); (26176,26174); (26177,26175); (26178,26176); (26291,26177); (26223,26367); (26139,26138); (26182,26359); (26183,26181); (26073,26182); (26185,26183); (26186,26184); (26188,26185); (26117,26070); (26070,26186); (26190,26188); (26191,26189); (26193,26190); (26194,26167); (26085,26191); (26094,26192); (26196,26193); (26198,26195); (26199,26194); (26200,26196); (26392,26197)];
  [(26136,26198); (26202,26200); (26203,26201); (26204,26202); (26091,26203); (26206,26204); (26207,26205); (26208,26206); (26095,26207); (26210,26208); (26211,26209); (26212,26210); (26102,26211); (26214,26212); (26215,26213); (26216,26214); (26098,26215); (26218,26216); (26219,26217); (26220,26218); (26162,26219); (-1753,26220); (26230,26373); (26224,26179); (26124,26223); (26226,26224); (26227,26225); (26228,26226); (26127,26227); (26231,26228); (26319,26222); (26232,26229); (26233,26231); (26118,26232); (26235,26233); (26236,26234); (26237,26235); (26173,26236); (26239,26237); (26240,26238); (26241,26239); (26128,26240); (26243,26241); (26244,26242); (26245,26243); (26132,26244); (26247,26245); (26248,26246); (26249,26247); (26139,26248); (26251,26249); (26252,26250); (26254,26251); (-1739,25996); (26136,26252); (26256,26254); (26257,26255); (26258,26256); (26200,26257); (-1754,26258); (26262,26412); (26149,26137); (26274,26260); (26264,26261); (26265,26263); (26266,26264); (26151,26265); (26268,26266); (26269,26267); (26270,26268); (26176,26269); (26286,26288); (26273,26285); (26275,26272); (26330,26262); (26171,26273); (26277,26275); (26278,26276); (26279,26277); (26180,26278); (26281,26279); (26282,26280); (26283,26281); (26225,26282); (-1755,26283); (26272,26270); (26287,26271); (26192,26286); (26271,26270); (26290,26287); (26291,26289); (26292,26290); (26179,26291); (26294,26292); (26295,26293); (26296,26294); (26200,26295); (26298,26296); (26299,26297); (26300,26298); (26193,26299); (26302,26300); (26303,26301); (26304,26302); (26197,26303); (26306,26304); (26307,26305); (26308,26306); (26208,26307); (26310,26308); (26311,26309); (26312,26310); (26205,26311); (26314,26312); (26315,26313); (26316,26314); (26258,26315); (-1756,26316); (26326,26376); (26215,26230); (26321,26319); (26322,26320); (26323,26321); (26221,26322); (26325,26323); (26327,26324); (26332,26318); (26328,26325); (26225,26327); (26330,26328); (26331,26329); (26333,26330); (26248,26326); (26218,26331); (26335,26333); (26336,26334); (26337,26335); (26273,26336); (26339,26337); (26340,26338); (26341,26339); (26228,26340); (26343,26341); (26344,26342); (26345,26343); (26232,26344); (26347,26345); (26348,26346); (26349,26347); (26239,26348); (26351,26349); (26352,26350); (26353,26351); (26235,26352); (26355,26353); (26356,26354); (26357,26355); (26299,26356); (-1757,26357); (26181,26178); (26361,26332); (26362,26360); (26363,26361); (26299,26362); (26365,26363); (26366,26364); (26368,26365); (26179,26178); (26255,26366); (26370,26368); (26371,26369); (26372,26370); (26260,26371); (26222,26178); (26375,26372); (26377,26374); (26318,26178); (26378,26375); (26268,26377); (26380,26378); (26381,26379); (26382,26380); (26264,26381); (26384,26382); (26385,26383); (26386,26384); (26328,26385); (-1758,26386); (26089,26087); (-1759,26274); (26088,26087); (26416,27393); (26393,26199); (26285,26392); (26395,26393); (26396,26394); (26397,26395); (26301,26396); (26399,26397); (26400,26398)];
  [(26401,26399); (26344,26400); (26135,26087); (-1761,26401); (26405,26106); (26415,26404); (26407,28233); (26408,26406); (26312,26407); (26410,26408); (26411,26409); (26413,26410); (26260,26087); (26300,26411); (26528,26413); (26417,26405); (26418,26391); (26322,26415); (26324,26416); (26420,26417); (26422,26419); (26423,26418); (26425,26420); (26424,26421); (26545,26423); (26367,26422); (-1762,26425); (26428,26469); (26429,26427); (26371,26428); (-1763,26429); (26432,26485); (26433,26431); (26375,26432); (-1764,26433); (26103,26101); (26437,26102); (26434,26436); (26479,26546); (26440,26534); (26442,26439); (26102,26101); (26332,26440); (26444,26442); (26445,26443); (26446,26444); (26331,26445); (26448,26446); (26449,26447); (26450,26448); (26392,26449); (-1766,26450); (26453,26535); (26454,26452); (26396,26453); (-1767,26454); (26457,26509); (26458,26456); (26400,26457); (-1768,26458); (26461,26537); (26462,26460); (26404,26461); (-1769,26462); (26465,26473); (26466,26464); (26408,26465); (-1770,26466); (26470,26542); (26427,26425); (26471,26468); (26415,26470); (26475,26484); (26464,26462); (-1771,26471); (26476,26472); (26418,26475); (-1772,26476); (26481,26544); (26480,26438); (26374,26479); (26483,26478); (26487,26480); (26385,26481); (26472,26471); (26431,26425); (26488,26483); (26489,26482); (26490,26486); (26494,26487); (26491,26488); (26433,26490); (-1773,26491); (-1765,26437); (26378,26489); (26496,26494); (26497,26495); (26498,26496); (26384,26497); (26500,26498); (26501,26499); (26502,26500); (26444,26501); (-1774,26502); (26505,26548); (26506,26504); (26410,26505); (26508,26506); (26510,26507); (26456,26454); (26511,26508); (26398,26510); (26513,26511); (26514,26512); (26515,26513); (26403,26514); (-1760,26412); (26518,26515); (26519,26517); (26520,26518); (26462,26519); (-1775,26520); (26523,28234); (26524,26522); (26577,26523); (26650,26678); (26527,26674); (26529,26526); (26531,26414); (26528,26527); (26637,26643); (26532,26528); (26422,26531); (26593,26636); (26439,26437); (26452,26437); (26538,26532); (26460,26437); (26539,26536); (26540,26538); (26482,26539); (-1776,26540); (26468,26437); (26568,27363); (26478,26437); (26439,26424); (26438,26437); (26549,26545); (26504,26437); (26550,26547); (26551,26549); (26444,26550); (26553,26551); (26554,26552); (26555,26553); (26489,26554); (26557,26555); (26558,26556); (26559,26557); (26455,26558); (26561,26559); (26562,26560); (26563,26561); (26450,26562); (26565,26563); (26566,26564); (26567,26565); (26470,26566); (26570,26543); (26571,26567); (26503,26568); (26572,26569); (26574,26571); (26575,26570); (26469,26572); (26576,26573); (26580,26575); (26578,26574); (26579,26577); (26581,26578); (26621,26576); (26481,26579); (26583,26581); (26584,26582); (26585,26583); (26527,26584); (-1777,26585); (26588,28236); (26589,26587); (26669,26588); (26731,26777); (26592,26771); (26594,26591); (26596,26533); (26479,26592); (26598,26594); (26489,26593); (26600,26596); (26599,26595); (26720,26598)];
  [(26601,26597); (26602,26600); (26488,26601); (26604,26602); (26605,26603); (26606,26604); (26506,26605); (26608,26606); (26609,26607); (26610,26608); (26495,26609); (26612,26610); (26613,26611); (26614,26612); (26506,26613); (26616,26614); (26617,26615); (26618,26616); (26514,26617); (26620,26618); (26621,26619); (26622,26620); (26513,26621); (26624,26622); (26625,26623); (26626,26624); (26510,26625); (26628,26626); (26629,26627); (26630,26628); (26516,26629); (26632,26630); (26633,26631); (26634,26632); (26576,26633); (-1778,26634); (26533,26529); (26638,26530); (26535,26637); (26640,26638); (26641,26639); (26642,26640); (26532,26641); (26530,26529); (26645,26642); (26646,26644); (26647,26645); (26589,26646); (-1779,26647); (26653,26682); (26651,26525); (26540,26650); (26654,26651); (26675,26649); (26655,26652); (26656,26654); (26560,26655); (26658,26656); (26659,26657); (26660,26658); (26547,26659); (26662,26660); (26663,26661); (26664,26662); (26550,26663); (26666,26664); (26667,26665); (26668,26666); (26561,26667); (26670,26668); (26671,26669); (26672,26670); (26614,26671); (-1780,26672); (26526,26524); (26576,26653); (26677,26675); (26679,26676); (26525,26524); (26680,26677); (26622,26679); (-1781,26680); (26649,26524); (26685,26684); (26683,26675); (26686,26683); (26586,26685); (26688,26686); (26689,26687); (26690,26688); (26632,26689); (-1782,26690); (26694,26693); (26692,26524); (26695,26692); (26637,26694); (-1783,26695); (26698,26738); (26699,26697); (26641,26698); (-1784,26699); (26702,26756); (26703,26701); (26645,26702); (-1785,26703); (26706,26580); (26708,26705); (26714,27395); (26709,26706); (26611,26708); (26711,26709); (26712,26710); (26713,26711); (26594,26712); (26732,26707); (26716,26713); (26717,26715); (26718,26716); (26660,26717); (-1786,26718); (26622,26599); (26722,26720); (26723,26721); (26724,26722); (26604,26723); (26726,26724); (26727,26725); (26728,26726); (26670,26727); (-1787,26728); (26736,26781); (26733,26590); (26622,26714); (26676,26731); (26737,26732); (-1788,26733); (26772,26730); (26739,26734); (26697,26695); (26740,26737); (26642,26739); (26742,26774); (26743,26741); (26686,26742); (26767,26740); (-1789,26743); (26747,28237); (26748,26746); (26652,26747); (26750,26748); (26751,26749); (26753,26750); (26755,26783); (26723,26751); (26824,26837); (26759,26752); (26701,26699); (26758,26823); (26760,26757); (26647,26755); (26681,26758); (26762,26759); (26763,26761); (26764,26762); (26706,26763); (-1790,26764); (26773,27397); (26768,26744); (26769,26767); (26711,26768); (-1791,26769); (26591,26589); (26673,26736); (26791,26766); (26741,26733); (26776,26772); (26778,26775); (26590,26589); (26779,26776); (26721,26778); (-1792,26779); (26730,26589); (26784,26760); (26752,26743); (26785,26782); (26786,26784); (26672,26785); (26788,26786); (26789,26787); (26790,26788); (26733,26789); (26836,26773); (-1793,26790); (26951,26953); (26795,26850); (26797,26794); (26798,26950); (26695,26795); (26799,26796); (26687,26798)];
  [(26801,26797); (26802,26800); (26804,26801); (26805,26799); (26696,26802); (26862,26803); (26807,28238); (26808,26806); (26848,26807); (26867,26963); (26811,26947); (26813,26810); (26815,26804); (26752,26811); (26851,26869); (26816,26812); (26819,26815); (26818,26849); (26820,26817); (26763,26816); (26709,26818); (26833,26820); (-1794,26819); (26757,26753); (26825,26754); (26767,26824); (-1795,26825); (26828,28239); (26829,26827); (26733,26828); (26831,26829); (26832,26830); (26834,26831); (26836,26821); (26721,26832); (26838,26834); (26840,26833); (26754,26753); (26839,26835); (26841,26838); (26785,26836); (26728,26839); (26843,26841); (27161,26842); (-1796,26840); (26846,26900); (26847,26845); (26789,26846); (-1797,26847); (26817,26813); (26794,26790); (26852,26814); (26741,26851); (26854,26852); (26855,26853); (26856,26854); (26798,26855); (-1798,26856); (26859,26913); (26860,26858); (26802,26859); (-1799,26860); (26863,26805); (26806,26862); (26871,27399); (-1800,26863); (26882,26965); (26868,26809); (26753,26867); (26814,26813); (26872,26868); (26889,26864); (26873,26870); (26874,26872); (26817,26873); (26916,26929); (26877,26915); (26878,26876); (26820,26877); (-1801,26878); (26881,26921); (26883,26880); (26948,26866); (26825,26881); (-1802,26883); (26886,26935); (26887,26885); (26787,26886); (26890,26887); (26792,26871); (26892,26888); (26894,26889); (26893,26890); (26779,26892); (26896,26891); (26898,26893); (26897,26894); (26787,26896); (26899,26895); (26902,26898); (26845,26840); (26903,26897); (26845,26899); (26905,26901); (-1803,26902); (27173,26903); (26907,26946); (26908,26906); (26796,26907); (26910,26908); (26911,26909); (26912,26910); (26855,26911); (26858,26856); (-1804,26912); (26876,26874); (26917,26875); (26859,26916); (-1805,26917); (26920,26960); (26922,26919); (26880,26878); (26864,26920); (-1806,26922); (26925,26974); (26926,26924); (26826,26925); (26928,26926); (26930,26927); (26875,26874); (26931,26928); (26816,26930); (26933,26931); (26934,26932); (26936,26933); (26885,26878); (26878,26934); (-1807,26936); (26939,26979); (26940,26938); (26828,26939); (26942,26940); (26943,26941); (26944,26942); (26886,26943); (-1808,26944); (26906,26902); (26810,26808); (27092,26882); (26987,27194); (26796,26791); (26952,26793); (26857,26951); (26793,26791); (26955,26952); (26956,26954); (26957,26955); (26844,26956); (26959,26957); (26961,26958); (26919,26917); (26962,26959); (26863,26961); (26809,26808); (26966,26962); (26866,26808); (26967,26964); (26968,26966); (27067,26967); (26985,27140); (26971,27189); (26972,26970); (26859,26971); (26975,26972); (26924,26917); (26976,26973); (26977,26975); (27044,26976); (27147,27146); (26938,26936); (26981,27145); (26982,26980); (26924,26981); (-1811,26982); (26998,27150); (26986,26969); (26878,26985); (27153,26949); (26989,26986); (26990,26988); (26991,26989); (26876,26990); (26993,26991); (26994,26992); (26995,26993); (26895,26994); (26997,26995); (26999,26996); (27035,26984); (27000,26997)];
  [(26887,26999); (27002,27000); (27003,27001); (27004,27002); (26890,27003); (27006,27004); (27007,27005); (27008,27006); (26908,27007); (27010,27008); (27011,27009); (27012,27010); (26914,27011); (27014,27012); (27015,27013); (27016,27014); (26901,27015); (27018,27016); (27019,27017); (27020,27018); (26916,27019); (27022,27020); (27023,27021); (27024,27022); (26914,27023); (27026,27024); (27027,27025); (27028,27026); (26919,27027); (27030,27028); (27031,27029); (27032,27030); (26974,27031); (-1812,27032); (27048,27152); (26919,26998); (27037,27035); (27038,27036); (27039,27037); (26982,27038); (27081,27094); (27042,27080); (27043,27041); (26929,27042); (27045,27043); (27046,27044); (27047,27045); (26948,27046); (27058,27034); (27050,27047); (27051,27049); (27052,27050); (26937,27051); (27054,27052); (27055,27053); (27056,27054); (26998,27055); (-1813,27056); (27017,27048); (27060,27067); (27061,27059); (26949,27060); (27063,27061); (27064,27062); (27065,27063); (26949,27064); (27068,27065); (27059,27056); (27069,27066); (27070,27068); (26974,27069); (27072,27070); (27073,27071); (27074,27072); (26967,27073); (27076,27074); (27077,27075); (27078,27076); (27020,27077); (-1814,27078); (27041,27039); (27082,27040); (26982,27081); (27084,27082); (27085,27083); (27086,27084); (26973,27085); (27088,27086); (27089,27087); (27090,27088); (26976,27089); (27092,27090); (27093,27091); (27095,27092); (27040,27039); (26995,27093); (27097,27095); (27098,27096); (27099,27097); (26984,27098); (27101,27099); (27102,27100); (27103,27101); (27045,27102); (-1815,27103); (27106,27114); (27107,27105); (26995,27106); (27109,27107); (27110,27108); (27111,27109); (26995,27110); (27113,27111); (27115,27112); (27105,27103); (27116,27113); (27020,27115); (27118,27116); (27119,27117); (27120,27118); (27013,27119); (27122,27120); (27123,27121); (27124,27122); (27066,27123); (-1816,27124); (-1810,26968); (27128,27058); (27129,27127); (27130,27128); (27026,27129); (27132,27130); (27133,27131); (27134,27132); (27024,27133); (27136,27134); (27137,27135); (27138,27136); (27029,27137); (27141,27138); (26969,26968); (27142,27139); (27143,27141); (27085,27142); (-1817,27143); (26980,26977); (26978,26977); (27148,26978); (27090,27147); (-1818,27148); (26984,26968); (-1809,26948); (27034,26968); (27095,26987); (-1819,27153); (27156,28240); (27157,27155); (27135,27156); (27171,27236); (27160,27234); (27162,27159); (27164,26843); (27049,27160); (27166,27162); (27106,27161); (-1820,27164); (27167,27163); (27169,27166); (27175,27400); (27111,27167); (-1822,27169); (27172,27158); (27061,27171); (27115,26905); (-1821,27173); (27193,27168); (27178,27244); (27179,27172); (27192,27176); (27180,27177); (27181,27179); (27073,27180); (27183,27181); (27184,27182); (27185,27183); (27076,27184); (27187,27185); (27188,27186); (27190,27187); (26970,26948); (27132,27188); (-1823,27190); (27091,27178); (27098,27175); (26949,26948); (27198,27193); (27197,27192); (27199,27196); (27200,27195); (27202,27197)];
  [(27201,27198); (27091,27200); (27095,27199); (27204,27202); (27206,27203); (27207,27201); (27221,27204); (27209,27205); (27210,27251); (27211,27207); (27218,27208); (27193,27209); (27213,28241); (27214,27212); (27157,27213); (27255,27271); (27217,27254); (27219,27216); (27138,27210); (27106,27217); (27223,27219); (27121,27206); (27225,27221); (27224,27220); (27226,27223); (27231,27222); (27168,27224); (-1827,27226); (27229,27270); (27230,27228); (27194,27229); (27232,27225); (27174,27231); (-1824,27232); (27159,27157); (27237,27218); (27158,27157); (27238,27235); (27239,27237); (27126,27238); (27241,27239); (27242,27240); (27243,27241); (27143,27242); (27176,27157); (27246,27243); (27247,27245); (27248,27246); (27190,27247); (-1825,27248); (27257,27401); (27208,27157); (-1826,27211); (-1828,27230); (27216,27214); (27256,27215); (27251,27255); (27275,27250); (27349,27361); (27260,27348); (27261,27259); (27157,27260); (27263,27261); (27264,27262); (27265,27263); (27163,27264); (27267,27265); (27268,27266); (27269,27267); (27168,27268); (27228,27226); (27215,27214); (27273,27269); (27274,27272); (27276,27273); (27767,27257); (27162,27274); (27643,27866); (27279,27276); (27281,27278); (27282,27865); (27284,27279); (27283,27280); (27411,27282); (27234,27281); (27336,27346); (27288,27335); (27471,27526); (27290,27286); (27291,28242); (27180,27288); (27293,27289); (27301,27290); (27772,27291); (27578,27871); (27296,27870); (27297,27295); (27382,27296); (27299,27482); (27300,27298); (27191,27299); (27304,27292); (27303,27300); (27306,27302); (27305,27301); (27193,27304); (27307,27303); (27193,27306); (27315,27305); (27310,27307); (27311,27309); (27312,27310); (27254,27311); (-1834,27312); (27358,27451); (27316,27308); (27317,27315); (27213,27316); (27319,27317); (27320,27318); (27321,27319); (27214,27320); (27323,27321); (27324,27322); (27325,27323); (27215,27324); (27327,27325); (27328,27326); (27329,27327); (27220,27328); (27331,27329); (27332,27330); (27333,27331); (27275,27332); (-1829,27333); (27286,27284); (27337,27285); (27234,27336); (27339,27337); (27340,27338); (27341,27339); (27237,27340); (27343,27341); (27344,27342); (27345,27343); (27288,27344); (27285,27284); (-1830,27345); (27259,27256); (27350,27258); (27236,27349); (27352,27350); (27353,27351); (27354,27352); (27296,27353); (-1831,27354); (26065,23160); (27362,27483); (27359,27314); (27301,27358); (-1835,27359); (27258,27256); (27364,27357); (26543,23160); (27308,27362); (27366,27408); (27368,27365); (-1836,27364); (27258,27366); (27371,27368); (27379,27491); (27372,27369); (27373,27371); (27258,27372); (27375,27373); (27376,27374); (27377,27375); (27319,27376); (-1837,27377); (27380,27370); (27267,27379); (23162,23160); (27392,27494); (23161,23160); (27385,27380); (27387,27384); (25698,23160); (27390,27385); (26116,23160); (26167,23160); (27283,27387); (27394,27390); (27423,27382); (26391,23160); (27396,27391); (26707,23160); (27398,27394); (26766,23160); (27295,27396); (26864,23160)];
  [(27168,23160); (27250,23160); (27403,28244); (27404,27402); (28094,27403); (28160,28159); (27407,28191); (27409,27406); (27365,27364); (27296,27407); (27413,27409); (27412,27398); (27415,27411); (27414,27410); (27416,27413); (27425,27412); (28086,27414); (28192,28200); (27419,28190); (27420,27418); (27314,27419); (27422,27420); (28155,27421); (27316,27392); (27432,27423); (27367,27415); (-1838,27425); (27428,27492); (27429,27427); (27361,27428); (27431,27429); (27434,27430); (27433,27424); (27442,27432); (27435,27431); (27377,27434); (-1839,27435); (27438,27462); (27439,27437); (27381,27438); (-1840,27439); (-1833,27297); (27326,27433); (27444,27442); (27445,27443); (27446,27444); (27332,27445); (27448,27446); (27449,27447); (27450,27448); (27393,27449); (27314,27297); (-1841,27450); (27454,27496); (27455,27453); (27359,27454); (27457,27455); (27458,27456); (27459,27457); (27346,27458); (27461,27459); (27463,27460); (27437,27429); (27464,27461); (27351,27463); (27466,27464); (27467,27465); (27468,27466); (27410,27467); (-1842,27468); (-1832,27283); (27472,27287); (27372,27471); (27474,27472); (27475,27473); (27476,27474); (27361,27475); (27478,27476); (27479,27477); (27480,27478); (27454,27479); (27514,27523); (27298,27297); (27357,27297); (27485,27497); (27486,27484); (27452,27485); (27554,27557); (27489,27553); (27490,27488); (27377,27489); (27370,27297); (27427,27297); (27495,27490); (27382,27297); (27498,27493); (27453,27297); (27484,27297); (27499,27495); (27441,27498); (-1844,27499); (27502,27542); (27503,27501); (27391,27502); (27505,27503); (27506,27504); (27507,27505); (27449,27506); (-1845,27507); (27510,27562); (27511,27509); (27453,27510); (-1846,27511); (-1843,27480); (27515,27481); (27403,27514); (27517,27515); (27518,27516); (27519,27517); (27403,27518); (27521,27519); (27522,27520); (27524,27521); (27481,27480); (27428,27522); (27527,27524); (27287,27283); (27528,27525); (27529,27527); (27422,27528); (27531,27529); (27532,27530); (27533,27531); (27475,27532); (-1847,27533); (27536,27551); (27537,27535); (27437,27536); (27539,27537); (27540,27538); (27541,27539); (27430,27540); (27501,27499); (27544,27541); (27545,27543); (27546,27544); (27488,27545); (-1848,27546); (27549,27601); (27550,27548); (27493,27549); (27535,27499); (-1849,27550); (27488,27486); (27555,27487); (27447,27554); (27558,27555); (27487,27486); (27559,27556); (27560,27558); (27502,27559); (-1850,27560); (27509,27507); (27564,27569); (27565,27563); (27468,27564); (27567,27565); (27568,27566); (27570,27567); (27563,27486); (27512,27568); (-1851,27570); (27573,27580); (27574,27572); (27516,27573); (-1852,27574); (27577,27881); (27848,27576); (27579,27294); (27482,27578); (27572,27565); (27582,27579); (27583,27581); (27584,27582); (27754,27583); (27623,27855); (27587,27851); (27588,27586); (27477,27587); (27590,27588); (27591,27589); (27592,27590); (27481,27591); (27594,27592); (27595,27593); (27596,27594); (27483,27595); (27598,27596); (27599,27597); (27600,27598)];
  [(27491,27599); (27548,27546); (27603,27600); (27604,27602); (27605,27603); (27486,27604); (27607,27605); (27608,27606); (27609,27607); (27551,27608); (-1854,27609); (27612,27853); (27613,27611); (27497,27612); (27615,27613); (27616,27614); (27617,27615); (27504,27616); (27619,27617); (27620,27618); (27621,27619); (27514,27620); (27624,27621); (27625,27585); (27626,27622); (27635,27623); (27627,27624); (27507,27626); (27629,27627); (27630,27628); (27631,27629); (27531,27630); (27633,27631); (27634,27632); (27635,27633); (27523,27634); (27637,27635); (27638,27636); (27639,27637); (27581,27638); (-1855,27639); (27642,27876); (27842,27641); (27644,27277); (27722,27643); (27822,27826); (27647,27821); (27648,27646); (27548,27647); (27650,27648); (27651,27649); (27652,27650); (27552,27651); (27654,27652); (27655,27653); (27656,27654); (27557,27655); (27658,27656); (27659,27657); (27660,27658); (27546,27659); (27662,27660); (27663,27661); (27664,27662); (27669,27663); (27675,27753); (27667,27738); (27668,27666); (27556,27667); (27670,27668); (27671,27669); (27672,27670); (27556,27671); (27674,27672); (27676,27673); (27689,27665); (27677,27674); (27581,27676); (27679,27677); (27680,27678); (27681,27679); (27574,27680); (27683,27681); (27684,27682); (27685,27683); (27627,27684); (-1857,27685); (27688,27752); (27690,27687); (27624,27675); (27583,27688); (27692,27690); (27693,27691); (27694,27692); (27598,27693); (27696,27694); (27697,27695); (27698,27696); (27589,27697); (27700,27698); (27701,27699); (27702,27700); (27587,27701); (27704,27702); (27705,27703); (27706,27704); (27638,27705); (27708,27706); (27709,27707); (27710,27708); (27598,27709); (27712,27710); (27713,27711); (27714,27712); (27598,27713); (27716,27714); (27717,27715); (27718,27716); (27622,27717); (27720,27718); (27721,27719); (27722,27720); (27615,27721); (27724,27722); (27725,27723); (27726,27724); (27668,27725); (-1858,27726); (-1856,27664); (27730,27689); (27731,27729); (27732,27730); (27625,27731); (27734,27732); (27735,27733); (27736,27734); (27637,27735); (27739,27736); (27666,27664); (27740,27737); (27741,27739); (27641,27740); (27743,27741); (27744,27742); (27745,27743); (27687,27744); (-1859,27745); (27785,27869); (27749,27625); (27750,27748); (27751,27749); (27695,27750); (27687,27664); (27665,27664); (-1860,27751); (27756,27864); (27757,27755); (27687,27756); (27783,27788); (27760,27784); (27761,27759); (27650,27760); (27763,27761); (27764,27762); (27765,27763); (27654,27764); (27767,27765); (27768,27766); (27769,27767); (27656,27768); (27771,27769); (27772,27770); (27773,27771); (27663,27772); (27775,27773); (27776,27774); (27777,27775); (27658,27776); (27779,27777); (27780,27778); (27781,27779); (27723,27780); (-1861,27781); (27786,27758); (27759,27757); (27787,27747); (27677,27783); (27684,27785); (27758,27757); (27798,27787); (27791,27786); (27792,27790); (27793,27791); (27681,27792); (27795,27793); (27796,27794); (27797,27795); (27740,27796); (27814,27789); (-1862,27797)];
  [(27801,27802); (27803,27800); (27800,27757); (27699,27801); (27805,27803); (27806,27804); (27807,27805); (27699,27806); (27809,27807); (27810,27808); (27811,27809); (27753,27810); (-1863,27811); (-1853,27584); (27815,27798); (27707,27814); (27817,27815); (27818,27816); (27819,27817); (27761,27818); (-1864,27819); (27646,27644); (27823,27645); (27740,27822); (27825,27823); (27827,27824); (27645,27644); (27828,27825); (27725,27827); (27830,27828); (27831,27829); (27832,27830); (27736,27831); (27834,27832); (27835,27833); (27836,27834); (27721,27835); (27838,27836); (27839,27837); (27840,27838); (27782,27839); (-1865,27840); (27786,27642); (27844,27879); (27854,27843); (-1866,27842); (27847,27884); (27857,27846); (27790,27577); (-1867,27848); (27852,27882); (27586,27584); (27856,27850); (27611,27584); (28005,27844); (27585,27584); (27756,27852); (28007,27847); (27872,28056); (27860,27856); (27861,27859); (27862,27860); (27804,27861); (-1868,27862); (27755,27584); (27280,27275); (27277,27275); (27938,28106); (27875,28057); (27747,27584); (27295,27293); (27294,27293); (27873,27858); (27815,27872); (-1871,27873); (27877,27868); (27641,27275); (27819,27875); (-1873,27877); (27843,27275); (27883,28058); (27576,27293); (27850,27293); (27888,27880); (27846,27293); (27886,28076); (27887,27885); (27836,27886); (27830,27883); (-1875,27888); (27891,28107); (27892,27890); (27792,27891); (27904,27907); (27896,27903); (-1879,27887); (27897,27894); (27782,27896); (27899,27897); (27900,27898); (27901,27899); (27843,27900); (-1877,27901); (27894,27892); (27905,27893); (27789,27904); (27908,27905); (27893,27892); (27909,27906); (27910,27908); (27813,27909); (27912,27910); (27913,27911); (27914,27912); (27856,27913); (-1878,27914); (27920,28108); (27918,28111); (27919,27917); (27812,27918); (27921,27916); (27863,27920); (-1880,27921); (27924,27963); (27925,27923); (27815,27924); (27928,27925); (27937,27919); (27929,27926); (27930,27928); (27815,27929); (27932,27930); (27933,27931); (27934,27932); (27876,27933); (-1881,27934); (27978,28120); (27968,27927); (27939,27867); (27826,27938); (27941,27939); (27942,27940); (27943,27941); (27829,27942); (27945,27943); (27946,27944); (27947,27945); (27847,27946); (27949,27947); (27950,27948); (27951,27949); (27836,27950); (27953,27951); (27954,27952); (27955,27953); (27897,27954); (-1882,27955); (27958,27966); (27959,27957); (27847,27958); (27961,27959); (27962,27960); (27964,27961); (27923,27921); (27848,27962); (27967,27964); (27957,27955); (27970,27965); (27969,27937); (27884,27968); (27971,27967); (27875,27970); (27973,27971); (27974,27972); (27975,27973); (27868,27974); (27977,27975); (27979,27976); (28063,27936); (27980,27977); (27922,27979); (-1883,27980); (27983,28119); (27984,27982); (27884,27983); (27996,28001); (27987,27995); (27988,27986); (27881,27987); (27990,27988); (27991,27989); (27993,27990); (28002,27984); (27935,27991); (-1884,27993); (27986,27969); (27997,27985); (27900,27996); (27999,27997); (28000,27998)];
  [(28003,27999); (27985,27969); (28033,27992); (27945,28000); (-1885,28003); (28006,28115); (28007,28005); (27911,28006); (28009,28007); (28010,28008); (28011,28009); (27898,28010); (28013,28011); (28014,28012); (28015,28013); (27902,28014); (28017,28015); (28018,28016); (28019,28017); (27961,28018); (-1886,28019); (28022,28116); (28023,28021); (27907,28022); (28025,28023); (28026,28024); (28027,28025); (27920,28026); (28029,28027); (28030,28028); (28031,28029); (27916,28030); (28035,28031); (28034,28002); (27920,28033); (28036,28032); (28038,28035); (28041,28034); (27980,28036); (-1887,28038); (28044,28117); (28042,28037); (28043,28041); (27940,28042); (28045,28040); (27977,28044); (28047,28045); (28048,28046); (28049,28047); (27991,28048); (-1888,28049); (28052,28078); (28053,28051); (27995,28052); (-1889,28053); (28059,28043); (27858,27857); (27868,27857); (27880,27857); (28060,28055); (28061,28059); (28003,28060); (-1890,28061); (27964,27978); (-1869,27854); (28067,28063); (-1870,27857); (28068,28065); (28069,28067); (27954,28068); (28071,28069); (28072,28070); (28073,28071); (28015,28072); (-1891,28073); (28077,28122); (27885,27857); (28079,28075); (28051,28045); (28028,28077); (28131,28133); (28082,28129); (28083,28081); (27968,28082); (28085,28083); (28086,28084); (28087,28085); (28029,28086); (-1892,28087); (28090,28130); (28091,28089); (27979,28090); (28093,28091); (28094,28092); (28095,28093); (28037,28094); (-1893,28095); (28098,28150); (28099,28097); (28041,28098); (-1894,28099); (28102,28139); (28103,28101); (28003,28102); (28105,28103); (28109,28104); (27867,27854); (27890,27857); (27916,27857); (28110,28105); (27999,28109); (27917,27857); (28113,28110); (28118,28112); (-1872,28056); (28005,27857); (28021,27857); (28040,27857); (28121,28113); (27982,27857); (27936,27854); (28064,28118); (28075,27857); (-1895,28121); (-1874,28057); (28126,28177); (28127,28125); (28069,28126); (-1896,28127); (28081,28079); (28089,28087); (28132,28080); (28025,28131); (28080,28079); (28135,28132); (28137,28134); (-1876,28058); (28138,28135); (28081,28137); (28101,28087); (-1897,28138); (28142,28145); (28143,28141); (28046,28142); (28146,28143); (28141,28079); (28147,28144); (28148,28146); (28090,28147); (-1898,28148); (28097,28095); (28152,28158); (28153,28151); (28095,28152); (-1899,28153); (28156,27422); (28098,28155); (-1900,28156); (28151,28143); (27405,27404); (28161,27405); (28048,28160); (28163,28161); (28170,28162); (28165,28247); (28166,28164); (28059,28165); (28168,28166); (28169,28167); (28171,28168); (28173,28163); (28067,28169); (28175,28171); (28060,28170); (28185,28173); (28176,28172); (28178,28175); (28125,28121); (28076,28176); (28180,28178); (28181,28179); (28182,28180); (28124,28181); (-1905,28182); (-1909,25724); (28187,28174); (28221,25706); (28188,28185); (28130,28187); (-1901,28188); (27418,27416); (27406,27404); (28193,27417); (28135,28192); (-1902,28193); (28196,28246); (28197,28195); (28079,28196); (28199,28197); (28201,28198)];
  [(27417,27416); (28202,28199); (28144,28201); (-1903,28202); (28205,27404); (28206,28204); (28207,28205); (28089,28206); (28209,28207); (28210,28208); (28211,28209); (28115,28210); (28213,28211); (28214,28212); (28215,28213); (28102,28214); (28217,28215); (28218,28216); (28219,28217); (28161,28218); (-1904,28219); (28173,28186); (23200,23198); (23199,23198); (25644,23198); (25703,23198); (25912,23198); (25933,23198); (25707,25692); (26085,23198); (26099,23198); (25706,25692); (-1910,28221); (26406,23198); (26522,23198); (28243,25689); (26587,23198); (26746,23198); (26806,23198); (26827,23198); (27155,23198); (27212,23198); (27289,23198); (28131,28235); (27402,23198); (28270,28243); (28195,28193); (28164,23198); (28249,32823); (28250,28248); (30811,28249); (29580,30909); (28253,30908); (28254,28252); (29435,28253); (29510,29549); (28257,29534); (28258,28256); (28142,28257); (28260,28258); (28261,28259); (28262,28260); (28147,28261); (28264,28262); (28265,28263); (28266,28264); (28166,28265); (29502,28266); (28269,29368); (28324,28268); (28271,28245); (28272,28270); (28166,28271); (28274,28272); (28275,28273); (28276,28274); (28218,28275); (-1911,28276); (28279,25677); (28279,28278); (28284,32855); (28282,29502); (28224,28281); (-1988,28282); (28285,28280); (30847,28284); (29540,30912); (28288,30944); (28289,28287); (29453,28288); (29553,29567); (28292,29552); (28293,28291); (28177,28292); (28295,28293); (28296,28294); (28297,28295); (28182,28296); (28299,28297); (29503,28298); (25682,25680); (28303,29316); (28343,28380); (28421,28301); (28305,28376); (28306,28304); (28193,28305); (28308,28306); (28309,28307); (28310,28308); (28200,28309); (28312,28310); (28313,28311); (28314,28312); (28205,28313); (28316,28314); (28317,28315); (28318,28316); (28261,28317); (25681,25680); (-1912,28318); (28322,29369); (28323,28321); (28278,28322); (28262,28269); (28360,28363); (28327,28359); (28328,28326); (28215,28327); (28330,28328); (28331,28329); (28332,28330); (28222,28331); (28334,28332); (28335,28333); (28336,28334); (28227,28335); (28338,28336); (28339,28337); (28340,28338); (28282,28339); (-1913,28340); (28346,28400); (28344,28302); (28245,28343); (28347,28344); (28377,28342); (28348,28345); (28349,28347); (28245,28348); (28351,28349); (28352,28350); (28353,28351); (28246,28352); (28355,28353); (28356,28354); (28357,28355); (28299,28356); (-1914,28357); (28326,28324); (28361,28325); (28262,28360); (28364,28361); (28325,28324); (28365,28362); (28366,28364); (28262,28365); (28368,28366); (28369,28367); (28370,28368); (28263,28369); (28372,28370); (28373,28371); (28374,28372); (28316,28373); (-1915,28374); (28304,28279); (28319,28346); (-1916,28377); (28381,28383); (28302,28279); (28382,28379); (28325,28381); (28379,28324); (-1917,28382); (28386,29370); (28387,28385); (28280,28386); (28398,28387); (28390,28323); (28391,28389); (28392,28390); (28277,28391); (28394,28392); (28395,28393); (28396,28394); (28338,28395); (-1918,28396); (28399,28388); (28406,28398)];
  [(28342,28279); (28402,29371); (28403,28401); (28290,28402); (28405,28403); (28435,28404); (28293,28399); (28408,28406); (28409,28407); (28410,28408); (28310,28409); (28412,28410); (28413,28411); (28414,28412); (28316,28413); (28416,28414); (28417,28415); (28418,28416); (28360,28417); (-1919,28418); (28422,29318); (28309,28303); (28425,28420); (28424,28421); (28426,28423); (28495,28422); (28427,28424); (28369,28426); (-1920,28427); (28430,29373); (28431,28429); (28605,28430); (28545,28710); (28434,28706); (28445,28433); (28437,28405); (-1906,28179); (28379,28435); (-1921,28437); (28440,29374); (28441,28439); (28757,28440); (28837,28866); (28444,28865); (28446,28443); (28405,28434); (28646,28444); (28520,28521); (28449,28519); (28450,28448); (28350,28449); (28452,28450); (28453,28451); (28454,28452); (28403,28453); (28456,28454); (28457,28455); (28458,28456); (28400,28457); (-1922,28458); (28462,29286); (28595,28600); (28465,28460); (28464,28596); (28466,28463); (28388,28462); (28396,28464); (28694,28465); (28511,28512); (28470,28510); (28471,28469); (28371,28470); (28473,28471); (28474,28472); (28475,28473); (28374,28474); (28477,28475); (28478,28476); (28479,28477); (28369,28478); (28481,28479); (28482,28480); (28483,28481); (28370,28482); (28485,28483); (28486,28484); (28487,28485); (28387,28486); (28489,28487); (28490,28488); (28491,28489); (28433,28490); (-1923,28491); (28494,28505); (28495,28493); (28385,28494); (28497,28495); (28498,28496); (28499,28497); (28386,28498); (28501,28499); (28502,28500); (28503,28501); (28403,28502); (28506,28503); (28493,28454); (28507,28504); (28508,28506); (28450,28507); (-1924,28508); (28469,28466); (28513,28468); (28468,28466); (28417,28511); (28515,28513); (28516,28514); (28517,28515); (28459,28516); (-1925,28517); (28448,28445); (28522,28447); (28447,28445); (28426,28520); (28524,28522); (28525,28523); (28526,28524); (28468,28525); (-1926,28526); (28529,28583); (28530,28528); (28410,28529); (28532,28530); (28533,28531); (28534,28532); (28426,28533); (28536,28534); (28537,28535); (28538,28536); (28480,28537); (-1927,28538); (28541,28586); (28542,28540); (28484,28541); (-1928,28542); (28548,28712); (28546,28432); (28530,28545); (28630,28640); (28668,28544); (28550,28629); (28551,28549); (28445,28550); (28553,28551); (28554,28552); (28555,28553); (28484,28554); (28582,28599); (28558,28581); (28559,28557); (28448,28558); (28561,28559); (28562,28560); (28563,28561); (28452,28562); (28565,28563); (28566,28564); (28567,28565); (28454,28566); (28569,28567); (28570,28568); (28571,28569); (28461,28570); (28573,28571); (28574,28572); (28575,28573); (28456,28574); (28577,28575); (28578,28576); (28579,28577); (28521,28578); (-1929,28579); (28557,28555); (28584,28556); (28528,28526); (28480,28582); (28587,28584); (28540,28526); (28588,28585); (28589,28587); (28481,28588); (28591,28589); (28592,28590); (28593,28591); (28535,28592); (-1930,28593); (28597,28461); (28463,28425); (28543,28595); (28643,28653); (28556,28555)];
  [(28461,28425); (28602,28642); (28603,28601); (28497,28602); (28605,28603); (28606,28604); (28607,28605); (28525,28606); (28609,28607); (28610,28608); (28611,28609); (28500,28610); (28613,28611); (28614,28612); (28615,28613); (28519,28614); (28617,28615); (28618,28616); (28619,28617); (28521,28618); (28621,28619); (28622,28620); (28623,28621); (28523,28622); (28625,28623); (28626,28624); (28627,28625); (28569,28626); (-1931,28627); (28549,28546); (28631,28547); (28517,28630); (28633,28631); (28634,28632); (28635,28633); (28524,28634); (28637,28635); (28638,28636); (28639,28637); (28582,28638); (28547,28546); (-1932,28639); (28601,28597); (28644,28598); (28562,28643); (28646,28644); (28647,28645); (28648,28646); (28537,28647); (28650,28648); (28651,28649); (28652,28650); (28557,28651); (28598,28597); (28655,28652); (28656,28654); (28657,28655); (28559,28656); (28659,28657); (28660,28658); (28661,28659); (28561,28660); (28663,28661); (28664,28662); (28665,28663); (28607,28664); (-1933,28665); (28671,28716); (28572,28548); (28670,28668); (28672,28669); (28673,28667); (28674,28670); (28593,28671); (28563,28672); (28676,28674); (28677,28675); (28678,28676); (28620,28677); (-1934,28678); (28681,28687); (28682,28680); (28578,28681); (28684,28682); (28685,28683); (28686,28684); (28579,28685); (28680,28668); (28689,28686); (28690,28688); (28691,28689); (28633,28690); (-1935,28691); (28718,29325); (28695,28467); (28696,28694); (28615,28695); (28698,28696); (28699,28697); (28700,28698); (28623,28699); (28702,28700); (28703,28701); (28704,28702); (28646,28703); (-1936,28704); (28433,28431); (28708,28673); (28709,28707); (28711,28708); (28432,28431); (28603,28709); (28544,28431); (28714,28711); (28715,28713); (28717,28714); (28667,28431); (28660,28715); (28720,28693); (-1938,28717); (28611,28718); (28722,29319); (28724,28721); (28725,28720); (28619,28722); (28726,28723); (28919,28725); (28728,28724); (28729,28727); (28730,28728); (28631,28729); (28732,28730); (28733,28731); (28734,28732); (28634,28733); (28736,28734); (28737,28735); (28738,28736); (28756,28737); (28758,28825); (28741,29380); (28742,28740); (28845,28741); (28891,28957); (28745,28946); (28747,28744); (28749,28446); (28651,28745); (28880,28747); (28750,28746); (28751,28749); (28651,28750); (28753,28751); (28754,28752); (28755,28753); (28697,28754); (-1941,28755); (28767,28826); (28759,28739); (28647,28758); (28761,28759); (28762,28760); (28763,28761); (28647,28762); (28765,28763); (28766,28764); (28768,28765); (28779,28757); (28672,28766); (28770,28768); (28771,28769); (28772,28770); (28665,28771); (28774,28772); (28775,28773); (28776,28774); (28718,28775); (-1942,28776); (28788,28840); (28663,28767); (28781,28779); (28782,28780); (28783,28781); (28676,28782); (28785,28783); (28786,28784); (28787,28785); (28682,28786); (28789,28778); (28711,28788); (28791,28787); (28792,28790); (28793,28791); (28725,28792); (28795,28793); (28796,28794); (28797,28795); (28685,28796); (28799,28797); (28800,28798)];
  [(28801,28799); (28685,28800); (28803,28801); (28804,28802); (28805,28803); (28709,28804); (28807,28805); (28808,28806); (28809,28807); (28702,28808); (28811,28809); (28812,28810); (28813,28811); (28755,28812); (-1943,28813); (-1940,28738); (28817,28789); (28818,28816); (28819,28817); (28712,28818); (28821,28819); (28822,28820); (28823,28821); (28724,28822); (28827,28823); (28739,28738); (28757,28738); (28828,28824); (28829,28827); (28729,28828); (28831,28829); (28832,28830); (28833,28831); (28775,28832); (-1944,28833); (28836,28867); (28868,28835); (28838,28442); (28738,28837); (28841,28838); (28778,28738); (28842,28839); (28843,28841); (28729,28842); (28845,28843); (28846,28844); (28847,28845); (28789,28846); (-1945,28847); (28850,28887); (28851,28849); (28793,28850); (-1947,28851); (28854,28890); (28855,28853); (28742,28854); (28857,28855); (28858,28856); (28859,28857); (28801,28858); (-1948,28859); (28862,28889); (28863,28861); (28805,28862); (-1949,28863); (28443,28441); (28442,28441); (28835,28441); (28753,28836); (28870,28868); (28871,28869); (28872,28870); (28814,28871); (-1950,28872); (28875,29381); (28876,28874); (28763,28875); (28878,28876); (28879,28877); (28881,28878); (28883,28748); (28777,28879); (28888,28881); (28884,28880); (28826,28883); (-1951,28884); (28897,28960); (28849,28847); (28967,28882); (28861,28847); (28853,28851); (28892,28743); (28834,28891); (-1952,28892); (28895,28932); (28896,28894); (28787,28895); (28948,28886); (28899,28896); (28900,28898); (28901,28899); (28786,28900); (28903,28901); (28904,28902); (28905,28903); (28847,28904); (-1953,28905); (28908,28933); (28909,28907); (28805,28908); (28911,28909); (28912,28910); (28913,28911); (28800,28912); (28915,28913); (28916,28914); (28917,28915); (28859,28916); (-1954,28917); (28819,28726); (28945,29296); (28922,28919); (28923,28921); (28924,28922); (28866,28923); (-1955,28924); (28927,28936); (28928,28926); (28870,28927); (-1956,28928); (28931,28981); (28934,28930); (28894,28892); (28907,28892); (28821,28931); (28937,28934); (28926,28892); (28938,28935); (28939,28937); (28833,28938); (28941,28939); (28942,28940); (28943,28941); (28885,28942); (-1957,28943); (28947,28920); (28744,28742); (28885,28945); (28852,28897); (28951,28948); (28952,28947); (28954,28949); (28953,28950); (28959,28952); (28955,28951); (28897,28954); (-1958,28955); (28743,28742); (-1937,28701); (28917,28953); (28886,28742); (28962,29383); (28963,28961); (29140,28962); (29019,29245); (28966,29237); (28968,28965); (28971,28888); (28869,28966); (28975,28968); (-1939,28713); (28863,28967); (28973,28971); (28974,28972); (28977,28973); (28976,28969); (28995,28975); (28877,28974); (28979,28977); (28980,28978); (28982,28979); (28930,28928); (28924,28980); (-1959,28982); (28994,29328); (28986,28959); (28987,28985); (28988,28986); (28920,28987); (28990,28988); (28991,28989); (28992,28990); (28934,28991); (-1960,28992); (29009,28984); (28895,28976); (28997,28995); (29004,28996); (28999,29384); (29000,28998)];
  [(29249,28999); (29312,29353); (29003,29348); (29005,29002); (29007,28997); (29177,29003); (29292,29298); (28949,29004); (-1961,29007); (28906,28994); (29018,29252); (29014,29009); (29013,29291); (29015,29012); (29016,29011); (29216,29013); (29017,29014); (28911,29016); (29238,29010); (29020,28964); (29114,29019); (29122,29214); (29024,29211); (29162,29017); (29025,29022); (28916,29024); (29027,29025); (29028,29026); (29029,29027); (28927,29028); (29031,29029); (29032,29030); (29033,29031); (28926,29032); (29035,29033); (29036,29034); (29037,29035); (28937,29036); (29039,29037); (29040,29038); (29041,29039); (28983,29040); (-1962,29041); (29044,29083); (29045,29043); (28935,29044); (29047,29045); (29048,29046); (29049,29047); (28931,29048); (29051,29049); (29052,29050); (29053,29051); (28944,29052); (29055,29053); (29056,29054); (29057,29055); (28999,29056); (-1963,29057); (29060,29091); (29061,29059); (28961,29060); (29063,29061); (29064,29062); (29065,29063); (28964,29064); (29067,29065); (29068,29066); (29069,29067); (28954,29068); (29071,29069); (29072,29070); (29073,29071); (29015,29072); (-1964,29073); (29076,29116); (29077,29075); (28965,29076); (29079,29077); (29080,29078); (29081,29079); (29023,29080); (-1965,29081); (29043,29041); (29085,29096); (29086,29084); (29028,29085); (-1966,29086); (29089,29097); (29090,29088); (28987,29089); (29059,29041); (29093,29090); (29094,29092); (29095,29093); (28995,29094); (29084,29041); (29088,29041); (29099,29095); (29100,29098); (29102,29099); (-1946,28844); (28999,29100); (29104,29102); (29105,29103); (29106,29104); (28991,29105); (29108,29106); (29109,29107); (29110,29108); (29052,29109); (-1967,29110); (29113,29153); (29114,29112); (29002,29113); (29117,29114); (29075,29073); (29118,29115); (29119,29117); (29061,29118); (-1968,29119); (29124,29215); (29123,29021); (29014,29122); (29135,29121); (29126,29123); (29127,29125); (29128,29126); (29013,29127); (29130,29128); (29131,29129); (29132,29130); (29074,29131); (-1969,29132); (29137,29226); (29077,29124); (-1970,29135); (29138,29134); (29038,29137); (29140,29223); (29141,29139); (29037,29140); (29143,29141); (29144,29142); (29145,29143); (29037,29144); (29189,29138); (29148,29145); (29149,29147); (29150,29148); (29034,29149); (29152,29150); (29154,29151); (29112,29110); (29155,29152); (29041,29154); (29157,29155); (29158,29156); (29159,29157); (29101,29158); (-1971,29159); (29171,29329); (29163,29023); (29164,29162); (29057,29163); (29166,29164); (29167,29165); (29168,29166); (29068,29167); (29170,29168); (29172,29169); (29186,29161); (29173,29170); (29106,29172); (29175,29173); (29176,29174); (29177,29175); (29067,29176); (29179,29177); (29180,29178); (29181,29179); (29066,29180); (29183,29181); (29184,29182); (29185,29183); (29128,29184); (29233,29171); (-1972,29185); (29333,29349); (29190,29146); (29197,29189); (29193,29332); (29195,29229); (29194,29191); (29086,29193); (29196,29192); (29106,29195); (29081,29190); (29199,29197); (29201,29198)];
  [(29203,29194); (29202,29199); (29090,29201); (29263,29200); (29207,29196); (29206,29202); (29208,29205); (29212,29204); (29209,29206); (29151,29208); (-1973,29209); (29022,29020); (29213,29207); (29157,29212); (29021,29020); (29121,29020); (-1974,29213); (29218,29230); (29219,29217); (29115,29218); (29221,29219); (29222,29220); (29224,29221); (29139,29020); (29116,29222); (29227,29224); (29134,29020); (29228,29225); (29231,29227); (29192,29020); (29217,29020); (29131,29228); (29233,29231); (29234,29232); (29235,29233); (29177,29234); (-1975,29235); (28965,28963); (29138,29018); (29240,29238); (29241,29239); (29242,29240); (29121,29241); (29244,29242); (29246,29243); (28964,28963); (29247,29244); (29143,29246); (29249,29247); (29250,29248); (29251,29249); (29136,29250); (29010,28963); (29254,29251); (29255,29253); (29256,29254); (29148,29255); (29258,29256); (29259,29257); (29260,29258); (29202,29259); (-1976,29260); (29272,29297); (29264,29203); (29206,29263); (-1977,29264); (29267,29388); (29268,29266); (29274,29267); (29378,29385); (29271,29379); (29273,29270); (29276,29262); (29154,29271); (29280,29273); (-1978,29015); (29223,29272); (29299,29295); (29279,29322); (29282,29278); (29281,29274); (29283,29280); (29164,29279); (29168,29281); (29372,29283); (29287,29282); (28460,25676); (29288,29285); (29289,29287); (29231,29288); (-1979,29289); (29012,29005); (29293,29006); (29235,29292); (-1980,29293); (29277,29276); (28920,25676); (29262,25676); (29006,29005); (29300,29277); (29202,29299); (29302,29300); (29303,29301); (29304,29302); (29184,29303); (29306,29304); (29307,29305); (29308,29306); (29250,29307); (-1981,29308); (29315,29365); (25678,25676); (29314,29001); (25677,25676); (29218,29312); (29350,29310); (28301,25676); (29320,29314); (28420,25676); (28721,25676); (29321,29317); (29323,29320); (29278,29276); (29203,29321); (29326,29323); (28693,25676); (29327,29324); (29330,29326); (28984,25676); (29161,25676); (29272,29327); (-1982,29330); (29191,29186); (29334,29188); (29221,29333); (29336,29334); (29337,29335); (29338,29336); (29228,29337); (29340,29338); (29341,29339); (29342,29340); (29236,29341); (29344,29342); (29345,29343); (29346,29344); (29288,29345); (-1983,29346); (29002,29000); (29188,29186); (29237,29315); (29352,29350); (29354,29351); (29001,29000); (29355,29352); (29245,29354); (29357,29355); (29358,29356); (29359,29357); (29253,29358); (29361,29359); (29362,29360); (29363,29361); (29305,29362); (-1984,29363); (29310,29000); (25690,25688); (25689,25688); (28268,25688); (28321,25688); (28385,25688); (28401,25688); (29375,29284); (28429,25688); (28439,25688); (29376,29372); (29318,29375); (-1985,29376); (29382,29269); (29270,29268); (28740,25688); (28874,25688); (29282,29378); (28961,25688); (28998,25688); (29269,29268); (29387,29382); (29389,29386); (29266,25688); (29390,29387); (29290,29389); (29392,29390); (29393,29391); (29394,29392); (29298,29393); (29396,29394); (29397,29395); (29398,29396); (29299,29397); (29400,29398)];
  [(29401,29399); (29402,29400); (29332,29401); (29441,29446); (29405,29440); (29406,29404); (29306,29405); (29408,29406); (29409,29407); (29410,29408); (29309,29409); (29412,29410); (29413,29411); (29414,29412); (29299,29413); (29416,29414); (29417,29415); (29418,29416); (29322,29417); (29420,29418); (29421,29419); (29422,29420); (29309,29421); (29424,29422); (29425,29423); (29426,29424); (29313,29425); (29428,29426); (29429,29427); (29430,29428); (29320,29429); (29432,29430); (29433,29431); (29434,29432); (29316,29433); (29436,29434); (29437,29435); (29438,29436); (29380,29437); (-1986,29438); (29404,29402); (29442,29403); (29338,29441); (29444,29442); (29445,29443); (29447,29444); (29403,29402); (29345,29445); (29449,29447); (29450,29448); (29451,29449); (29348,29450); (29453,29451); (29454,29452); (29455,29453); (29340,29454); (29457,29455); (29458,29456); (29459,29457); (29363,29458); (29461,29459); (29462,29460); (29463,29461); (29350,29462); (29465,29463); (29466,29464); (29467,29465); (29354,29466); (29469,29467); (29470,29468); (29471,29469); (29361,29470); (29473,29471); (29474,29472); (29475,29473); (29357,29474); (29477,29475); (29478,29476); (29479,29477); (29421,29478); (-1987,29479); (29482,32856); (29483,29481); (31833,29482); (31119,31898); (29486,31930); (29487,29485); (29406,29486); (29517,29520); (29490,29516); (29491,29489); (29389,29490); (29493,29491); (29494,29492); (29495,29493); (29382,29494); (29497,29495); (29498,29496); (29499,29497); (29384,29498); (29501,29499); (29513,29500); (28281,28267); (29504,28299); (29404,29503); (29506,29504); (29507,29505); (29508,29506); (29450,29507); (-1990,29508); (29511,28255); (29398,29510); (29535,29511); (29514,29501); (29456,29513); (-2080,29514); (29489,29487); (29518,29488); (31137,29517); (31030,31244); (29488,29487); (29522,31238); (29523,29521); (29412,29522); (29525,29523); (29526,29524); (29527,29525); (29413,29526); (29529,29527); (29530,29528); (29531,29529); (29427,29530); (29533,29531); (30992,29532); (28256,28254); (29536,29512); (29537,29535); (29479,29536); (-1992,29537); (29571,30945); (29541,28286); (29428,29540); (29543,29541); (29544,29542); (29545,29543); (29432,29544); (29547,29545); (29548,29546); (29550,29547); (28255,28254); (29492,29548); (-1993,29550); (28291,28289); (29554,28290); (29441,29553); (29556,29554); (29557,29555); (29558,29556); (29500,29557); (-1994,29558); (29561,29590); (29562,29560); (29464,29561); (29564,29562); (29565,29563); (29566,29564); (29463,29565); (28290,28289); (29569,29566); (29570,29568); (29572,29569); (29597,29539); (29459,29570); (29574,29572); (29575,29573); (29576,29574); (29518,29575); (-1995,29576); (29579,30910); (29642,29578); (29581,28251); (29468,29580); (29583,29581); (29584,29582); (29585,29583); (29512,29584); (29612,29613); (29588,29611); (29589,29587); (29470,29588); (29560,29537); (29592,29589); (29593,29591); (29594,29592); (29536,29593); (-1996,29594); (29628,30946); (29484,29571); (29599,29597); (29600,29598)];
  [(29601,29599); (29525,29600); (29625,29626); (29604,29624); (29605,29603); (29485,29604); (29607,29605); (29608,29606); (29609,29607); (29551,29608); (-1997,29609); (29587,29585); (29614,29586); (29586,29585); (29497,29612); (29616,29614); (29617,29615); (29618,29616); (29518,29617); (29620,29618); (29621,29619); (29622,29620); (29564,29621); (-1998,29622); (29603,29601); (29627,29602); (29602,29601); (29512,29625); (29629,29596); (29570,29628); (29631,29627); (29632,29630); (29633,29631); (29533,29632); (29635,29633); (29636,29634); (29637,29635); (29579,29636); (-1999,29637); (29640,30911); (29641,29639); (29602,29640); (29565,29579); (29671,29686); (29645,29670); (29646,29644); (29533,29645); (29648,29646); (29649,29647); (29650,29648); (29552,29649); (29652,29650); (29653,29651); (29654,29652); (29596,29653); (-2000,29654); (29679,30947); (29674,29691); (29659,29675); (29660,29658); (29547,29659); (29662,29660); (29663,29661); (29664,29662); (29566,29663); (29666,29664); (29667,29665); (29668,29666); (29610,29667); (-2002,29668); (29644,29642); (29672,29643); (29614,29671); (-2004,29672); (29676,29657); (29658,29629); (29618,29674); (-2005,29676); (29710,30949); (29680,29656); (29641,29679); (29723,29739); (29683,29738); (29684,29682); (29571,29683); (29687,29684); (29643,29642); (29688,29685); (29689,29687); (29576,29688); (29692,29689); (29657,29629); (29693,29690); (29694,29692); (29636,29693); (-2006,29694); (29697,30913); (29698,29696); (29585,29697); (29773,29698); (29701,29641); (29702,29700); (29703,29701); (29596,29702); (29705,29703); (29706,29704); (29707,29705); (29611,29706); (29709,29707); (29714,29708); (29711,29678); (29673,29710); (29779,29787); (29752,29778); (29715,29709); (29617,29714); (29717,29715); (29718,29716); (29719,29717); (29661,29718); (-2007,29719); (29722,29745); (29740,29721); (29724,29681); (29617,29723); (29726,29724); (29727,29725); (29728,29726); (29632,29727); (29730,29728); (29731,29729); (29732,29730); (29634,29731); (29734,29732); (29735,29733); (29736,29734); (29678,29735); (-2008,29736); (29682,29680); (29681,29680); (29644,29722); (29742,29740); (29743,29741); (29744,29742); (29632,29743); (29721,29680); (29747,29744); (29748,29746); (29749,29747); (29691,29748); (-2009,29749); (29783,30950); (29753,29713); (29639,29752); (29755,29753); (29756,29754); (29757,29755); (29655,29756); (-1989,28267); (29760,29757); (29761,29759); (29763,29760); (-1991,29505); (29648,29761); (29765,29763); (29766,29764); (29767,29765); (29709,29766); (-2010,29767); (29770,30914); (29771,29769); (29658,29770); (29774,29771); (29775,29699); (29782,29772); (29776,29773); (29718,29775); (-2011,29776); (29713,29711); (29780,29712); (29722,29779); (-2012,29780); (29793,29774); (29784,29751); (29671,29783); (29786,29784); (29788,29785); (29712,29711); (29810,29786); (29790,30920); (29791,29789); (29695,29790); (29794,29791); (29699,29782); (29795,29792); (29935,29794); (29797,29793); (29798,29796); (29799,29797); (29682,29798)];
  [(29801,29799); (29802,29800); (29803,29801); (29703,29802); (29805,29803); (29806,29804); (29807,29805); (29749,29806); (-2013,29807); (29825,30919); (29714,29788); (29812,29810); (29813,29811); (29814,29812); (29697,29813); (29816,29814); (29817,29815); (29818,29816); (29718,29817); (29820,29818); (29821,29819); (29822,29820); (29764,29821); (-2015,29822); (29831,30955); (29826,29809); (29730,29825); (29828,29826); (29829,29827); (29830,29828); (29718,29829); (29856,29824); (29833,29830); (29834,29832); (29835,29833); (29777,29834); (-2017,29835); (29838,30951); (29839,29837); (29768,29838); (29867,29866); (29842,29865); (29843,29841); (29730,29842); (29845,29843); (29846,29844); (29847,29845); (29740,29846); (29849,29847); (29850,29848); (29851,29849); (29793,29850); (-2018,29851); (29855,29854); (29853,29847); (29860,29853); (29821,29831); (29923,29937); (29859,29920); (29861,29858); (29805,29855); (29788,29859); (29900,29902); (29879,29899); (-2019,29860); (29841,29839); (29840,29839); (29868,29840); (29761,29867); (29870,29868); (29871,29869); (29872,29870); (29766,29871); (29874,29872); (29875,29873); (29876,29874); (29818,29875); (-2020,29876); (29885,30956); (29880,29863); (29767,29879); (29882,29880); (29883,29881); (29884,29882); (29776,29883); (29910,29878); (29887,29884); (29888,29886); (29889,29887); (29831,29888); (-2021,29889); (29892,29932); (29893,29891); (29780,29892); (29895,29893); (29896,29894); (29897,29895); (29839,29896); (-2022,29897); (29863,29861); (29901,29862); (29792,29900); (29862,29861); (29904,29901); (29905,29903); (29906,29904); (29795,29905); (29909,29906); (-2001,29651); (29914,29907); (29864,29885); (29962,29972); (29913,29961); (29915,29912); (29918,29909); (29817,29913); (29917,29915); (29921,29916); (29860,29914); (-2023,29918); (29858,29856); (29954,29917); (-2003,29665); (29924,29857); (29811,29923); (29926,29924); (29927,29925); (29928,29926); (29824,29927); (29930,29928); (29931,29929); (29933,29930); (29891,29889); (29875,29931); (-2024,29933); (29837,29795); (29942,29935); (29857,29856); (29939,30921); (29940,29938); (29981,29939); (30082,30086); (29945,29936); (29944,30081); (29950,29943); (29946,29942); (29833,29945); (29948,29946); (29949,29947); (29951,29948); (29868,29944); (29893,29949); (-2025,29951); (29960,30958); (29841,29921); (29956,29954); (29957,29955); (29958,29956); (29900,29957); (-2026,29958); (29985,29953); (29912,29910); (29963,29911); (29905,29962); (-2027,29963); (29966,30922); (29967,29965); (30031,29966); (30135,30143); (29973,29950); (29971,30134); (29977,29970); (29911,29910); (29974,29969); (29975,29973); (29862,29974); (29979,29975); (29867,29971); (30117,29977); (29980,29976); (29981,29979); (29968,29980); (30035,30048); (29984,30034); (29989,29983); (30041,29960); (30145,30153); (29988,30144); (29990,29987); (29896,29984); (29880,29988); (29992,29990); (29996,29991); (29994,29989); (29995,29993); (29998,29994); (29997,29992); (30018,29996); (29885,29995); (30000,29998)];
  [(30001,29999); (30002,30000); (29944,30001); (-2029,30002); (30005,30010); (30006,30004); (29910,30005); (30008,30006); (30009,30007); (30011,30008); (30004,29989); (29913,30009); (30013,30011); (30014,30012); (30015,30013); (29915,30014); (30017,30015); (30018,30016); (30019,30017); (29961,30018); (-2030,30019); (30023,30022); (30021,30015); (30024,30021); (29924,30023); (30026,30024); (30027,30025); (30028,30026); (29913,30027); (30030,30028); (30031,30029); (30032,30030); (29974,30031); (-2031,30032); (29983,29981); (30036,29982); (29940,30035); (30038,30036); (30039,30037); (30040,30038); (29927,30039); (30042,30040); (30043,30041); (30044,30042); (29944,30043); (30046,30044); (30047,30045); (30049,30046); (29982,29981); (29940,30047); (30051,30049); (30052,30050); (30053,30051); (29938,30052); (30055,30053); (30056,30054); (30057,30055); (29954,30056); (30059,30057); (30060,30058); (30062,30059); (-2014,29804); (29962,30060); (30064,30062); (30065,30063); (30066,30064); (29952,30065); (30068,30066); (30069,30067); (30070,30068); (29966,30069); (30072,30070); (30073,30071); (30074,30072); (29960,30073); (30077,30074); (-2016,29819); (30078,30075); (30079,30077); (30021,30078); (-2032,30079); (29943,29940); (30083,29941); (29973,30082); (30085,30083); (30087,30084); (29941,29940); (30088,30085); (29979,30087); (30090,30088); (30091,30089); (30092,30090); (30034,30091); (-2033,30092); (30095,30114); (30096,30094); (29989,30095); (30098,30096); (30099,30097); (30100,30098); (29984,30099); (30102,30100); (30103,30101); (30104,30102); (29990,30103); (30106,30104); (30107,30105); (30108,30106); (30050,30107); (-2034,30108); (30111,30923); (30112,30110); (30590,30111); (30186,30687); (30094,30092); (30116,30655); (30122,30115); (30118,29978); (30119,30117); (30010,30118); (30121,30119); (30125,30120); (30009,30116); (30124,30122); (30152,30123); (30126,30121); (30068,30125); (-2035,30126); (30129,29997); (30130,30128); (30132,30129); (30138,30959); (30074,30130); (-2036,30132); (29970,29967); (30136,29968); (30035,30135); (30139,30136); (30163,30131); (30140,30137); (30141,30139); (30083,30140); (-2037,30141); (29968,29967); (29987,29985); (30146,29986); (30045,30145); (30148,30146); (30149,30147); (30150,30148); (30092,30149); (-2038,30150); (30154,30124); (29986,29985); (30041,30152); (30156,30154); (30157,30155); (30158,30156); (30048,30157); (30160,30158); (30161,30159); (30162,30160); (30052,30161); (30595,30138); (30360,30695); (30166,30692); (30168,30165); (-2028,29972); (30055,30166); (30170,30168); (30174,30169); (30172,30162); (30173,30171); (30176,30172); (30175,30170); (30063,30174); (30191,30173); (30210,30175); (30179,30925); (30180,30178); (30076,30179); (30183,30180); (30225,30257); (30184,30181); (30190,30183); (30217,30658); (30187,30113); (30074,30186); (30189,30187); (30194,30188); (30081,30184); (30192,30190); (30193,30191); (30756,30192); (30195,30189); (30082,30194); (30197,30195); (30198,30196); (30199,30197); (30089,30198)];
  [(30201,30199); (30202,30200); (30203,30201); (30085,30202); (30205,30203); (30206,30204); (30207,30205); (30149,30206); (-2040,30207); (30216,30961); (30211,30177); (30212,30210); (30102,30211); (30214,30212); (30215,30213); (30218,30214); (30241,30209); (30286,30185); (30100,30215); (30220,30218); (30221,30219); (30222,30220); (30164,30221); (-2041,30222); (30231,30259); (30226,30182); (30130,30225); (30228,30226); (30229,30227); (30230,30228); (30118,30229); (30237,30224); (30233,30230); (30234,30232); (30235,30233); (30177,30234); (-2042,30235); (30127,30231); (30239,30237); (30240,30238); (30245,30239); (30700,30216); (30771,30805); (30244,30799); (30246,30243); (30130,30240); (30632,30244); (30744,30746); (30252,30743); (30251,30245); (-2039,30176); (30254,30249); (30253,30248); (30141,30252); (30258,30251); (30256,30253); (30727,30255); (30182,30176); (30150,30254); (30224,30176); (30261,30258); (30262,30260); (30263,30261); (30199,30262); (30265,30263); (30266,30264); (30267,30265); (30154,30266); (30269,30267); (30270,30268); (30271,30269); (30158,30270); (30273,30271); (30274,30272); (30275,30273); (30165,30274); (30277,30275); (30278,30276); (30279,30277); (30161,30278); (30281,30279); (30282,30280); (30283,30281); (30225,30282); (-2043,30283); (30288,30690); (30176,30217); (30289,30286); (30317,30285); (30290,30287); (30291,30289); (30173,30290); (30293,30291); (30294,30292); (30295,30293); (30186,30294); (30297,30295); (30298,30296); (30299,30297); (30235,30298); (30301,30299); (30302,30300); (30303,30301); (30190,30302); (30305,30303); (30306,30304); (30307,30305); (30194,30306); (30309,30307); (30310,30308); (30311,30309); (30201,30310); (30313,30311); (30314,30312); (30315,30313); (30197,30314); (30318,30315); (30212,30288); (30319,30316); (30320,30318); (30262,30319); (-2044,30320); (30325,30659); (30324,30317); (30326,30323); (30354,30322); (30327,30324); (30209,30326); (30329,30327); (30330,30328); (30331,30329); (30222,30330); (30333,30331); (30334,30332); (30335,30333); (30239,30334); (30337,30335); (30338,30336); (30339,30337); (30226,30338); (30341,30339); (30342,30340); (30343,30341); (30230,30342); (30345,30343); (30346,30344); (30347,30345); (30237,30346); (30349,30347); (30350,30348); (30351,30349); (30233,30350); (30353,30351); (30355,30352); (30244,30325); (30356,30353); (30299,30355); (30397,30354); (-2045,30356); (30362,30699); (30361,30164); (30252,30360); (30442,30359); (30364,30361); (30365,30363); (30366,30364); (30248,30365); (30368,30366); (30369,30367); (30370,30368); (30261,30369); (30372,30370); (30373,30371); (30374,30372); (30278,30373); (30376,30374); (30377,30375); (30378,30376); (30265,30377); (30380,30378); (30381,30379); (30382,30380); (30269,30381); (30384,30382); (30385,30383); (30386,30384); (30276,30385); (30388,30386); (30389,30387); (30390,30388); (30272,30389); (30392,30390); (30393,30391); (30394,30392); (30336,30393); (-2046,30394); (30399,30702); (30398,30357); (30401,30397); (30400,30396)];
  [(30327,30399); (30285,30398); (30403,30401); (30404,30402); (30405,30403); (30301,30404); (30407,30405); (30408,30406); (30409,30407); (30302,30408); (30411,30409); (30412,30410); (30413,30411); (30309,30412); (30415,30413); (30416,30414); (30417,30415); (30320,30416); (30419,30417); (30420,30418); (30421,30419); (30308,30420); (30423,30421); (30424,30422); (30425,30423); (30321,30424); (30427,30425); (30429,30426); (30431,30400); (30430,30427); (30315,30429); (30521,30428); (30433,30430); (30434,30432); (30435,30433); (30327,30434); (30437,30435); (30438,30436); (30439,30437); (30381,30438); (-2047,30439); (30444,30703); (30346,30362); (30445,30442); (30448,30441); (30446,30443); (30447,30445); (30335,30446); (30391,30444); (30450,30447); (30451,30449); (30452,30450); (30341,30451); (30454,30452); (30455,30453); (30456,30454); (30346,30455); (30458,30456); (30459,30457); (30460,30458); (30350,30459); (30462,30460); (30463,30461); (30464,30462); (30355,30463); (30466,30464); (30467,30465); (30468,30466); (30378,30467); (30487,30492); (30471,30486); (30472,30470); (30372,30471); (30474,30472); (30475,30473); (30476,30474); (30375,30475); (30478,30476); (30479,30477); (30480,30478); (30365,30479); (30482,30480); (30483,30481); (30484,30482); (30426,30483); (-2048,30484); (30470,30468); (30488,30469); (30384,30487); (30490,30488); (30491,30489); (30493,30490); (30469,30468); (30391,30491); (30495,30493); (30496,30494); (30497,30495); (30394,30496); (30499,30497); (30500,30498); (30501,30499); (30386,30500); (30503,30501); (30504,30502); (30505,30503); (30447,30504); (-2049,30505); (30510,30710); (30509,30448); (30511,30508); (30514,30507); (30512,30509); (30398,30511); (30515,30512); (30413,30510); (30516,30513); (30517,30515); (30460,30516); (30616,30514); (-2050,30517); (30523,30705); (30522,30431); (30411,30521); (30524,30520); (30447,30523); (30526,30522); (30527,30525); (30528,30526); (30493,30527); (30570,30575); (30531,30569); (30532,30530); (30432,30531); (30534,30532); (30535,30533); (30536,30534); (30435,30535); (30538,30536); (30539,30537); (30540,30538); (30425,30539); (30542,30540); (30543,30541); (30544,30542); (30480,30543); (30546,30544); (30547,30545); (30548,30546); (30435,30547); (30550,30548); (30551,30549); (30553,30550); (30555,30524); (30440,30551); (30556,30553); (30567,30552); (30557,30554); (30558,30556); (30448,30557); (30560,30558); (30561,30559); (30562,30560); (30444,30561); (30564,30562); (30565,30563); (30566,30564); (30509,30565); (30611,30555); (-2051,30566); (30530,30528); (30571,30529); (30467,30570); (30573,30571); (30574,30572); (30576,30573); (30529,30528); (30474,30574); (30578,30576); (30579,30577); (30580,30578); (30477,30579); (30582,30580); (30583,30581); (30584,30582); (30469,30583); (30586,30584); (30587,30585); (30588,30586); (30524,30587); (30590,30588); (30591,30589); (30592,30590); (30479,30591); (30594,30592); (30595,30593); (30596,30594); (30483,30595); (30598,30596); (30599,30597); (30600,30598)];
  [(30490,30599); (30602,30600); (30603,30601); (30604,30602); (30486,30603); (30606,30604); (30607,30605); (30608,30606); (30550,30607); (-2052,30608); (30613,30674); (30553,30567); (-2053,30611); (30614,30610); (30541,30613); (30618,30712); (30617,30518); (30619,30616); (30622,30615); (30561,30617); (-2054,30619); (30623,30665); (30514,30618); (30624,30621); (30566,30623); (-2055,30624); (30633,30622); (30628,30661); (30629,30627); (30519,30628); (30631,30629); (30632,30630); (30634,30631); (30691,30626); (30525,30632); (30636,30634); (30637,30635); (30638,30636); (30580,30637); (-2056,30638); (30641,30669); (30643,30640); (30645,30614); (30533,30641); (30646,30643); (30654,30642); (30647,30644); (30648,30646); (30539,30647); (30650,30648); (30651,30649); (30652,30650); (30594,30651); (-2057,30652); (30656,30645); (30115,30112); (30556,30654); (30660,30656); (30185,30112); (30322,30112); (30662,30657); (30627,30611); (30663,30660); (30605,30662); (-2058,30663); (30621,30619); (30667,30670); (30668,30666); (30557,30667); (30640,30619); (30666,30663); (30672,30668); (30673,30671); (30675,30672); (30610,30112); (30562,30673); (30677,30675); (30678,30676); (30679,30677); (30569,30678); (30681,30679); (30682,30680); (30683,30681); (30565,30682); (30685,30683); (30686,30684); (30688,30685); (30113,30112); (30630,30686); (-2059,30688); (30285,30112); (30693,30633); (30165,30163); (30597,30691); (30696,30693); (30164,30163); (30697,30694); (30698,30696); (30586,30697); (30359,30163); (30701,30698); (30704,30700); (30396,30112); (30441,30163); (30706,30701); (30520,30112); (30593,30704); (30708,30706); (30709,30707); (30711,30708); (30507,30163); (30602,30709); (30615,30163); (30714,30711); (30715,30713); (30716,30714); (30598,30715); (30718,30716); (30719,30717); (30720,30718); (30606,30719); (30722,30720); (30723,30721); (30724,30722); (30666,30723); (-2060,30724); (30733,30962); (30728,30256); (30619,30727); (30730,30728); (30731,30729); (30732,30730); (30675,30731); (30758,30726); (-2061,30732); (30736,30776); (30737,30735); (30624,30736); (30739,30737); (30740,30738); (30741,30739); (30683,30740); (-2062,30741); (30248,30246); (30745,30247); (30636,30744); (30247,30246); (30748,30745); (30749,30747); (30750,30748); (30639,30749); (30752,30750); (30753,30751); (30754,30752); (30696,30753); (-2063,30754); (30654,30193); (30762,30756); (30660,30733); (30760,30758); (30761,30759); (30763,30760); (30766,30757); (30650,30761); (30765,30763); (30769,30764); (30767,30762); (30709,30766); (-2064,30767); (30770,30765); (30713,30769); (30774,30242); (-2068,30770); (30775,30963); (30674,30771); (30819,30773); (30735,30732); (30778,30926); (30779,30777); (30681,30778); (30782,30779); (30787,30816); (30783,30780); (30789,30782); (30785,30774); (30786,30784); (30788,30785); (30800,30781); (30690,30786); (30676,30783); (30791,30789); (30792,30790); (30794,30791); (30795,30788); (30752,30792); (30796,30793); (30797,30795); (30739,30796); (-2065,30797); (30243,30241)];
  [(30687,30787); (30802,30800); (30803,30801); (30804,30802); (30701,30803); (30242,30241); (30807,30804); (30808,30806); (30809,30807); (30751,30808); (-2066,30809); (-2067,30794); (30813,30927); (30814,30812); (30710,30813); (30817,30814); (30781,30241); (30818,30815); (30824,30817); (30793,30775); (30849,30898); (30828,30964); (30823,30893); (30831,30822); (30717,30818); (30826,30824); (30827,30825); (30829,30826); (30853,30821); (30730,30827); (30841,30829); (30721,30823); (30833,30831); (30834,30832); (30835,30833); (30720,30834); (30837,30835); (30838,30836); (30839,30837); (30781,30838); (-2069,30839); (30842,30830); (30843,30841); (30743,30842); (30845,30843); (30846,30844); (30847,30845); (30789,30846); (-2070,30847); (30850,30820); (30743,30849); (30861,30850); (30857,30907); (30808,30828); (30892,30917); (30856,30905); (30858,30855); (30894,30852); (30745,30856); (30860,30858); (30864,30859); (30862,30851); (30863,30861); (30766,30862); (30865,30860); (30753,30864); (30869,30863); (30868,30865); (30870,30867); (30877,30866); (30871,30868); (30813,30870); (-2074,30871); (30874,30928); (30875,30873); (30767,30874); (30878,30875); (30880,30869); (30879,30876); (30885,30878); (30780,30877); (30882,30880); (30883,30881); (30884,30882); (30830,30883); (30778,30879); (30887,30885); (30888,30886); (30890,30887); (-2071,30884); (30832,30888); (-2075,30890); (30906,30854); (30822,30819); (30790,30857); (30896,30894); (30897,30895); (30899,30896); (30820,30819); (30841,30897); (-2072,30899); (30902,30943); (30903,30901); (30845,30902); (-2073,30903); (30855,30853); (30807,30892); (30852,30819); (28252,28250); (28251,28250); (29578,28250); (29639,28250); (28286,28285); (29696,28250); (29769,28250); (30916,30906); (30918,30915); (30854,30853); (30924,30916); (29809,28285); (29789,28250); (29938,28250); (29965,28250); (30110,28250); (30870,30918); (30178,28250); (30777,28250); (30812,28250); (30873,28250); (-2077,30924); (30931,30966); (30932,30930); (30836,30931); (30934,30932); (30935,30933); (30936,30934); (30827,30935); (30938,30936); (30939,30937); (30940,30938); (30838,30939); (30942,30940); (30948,30941); (30901,30899); (28287,28285); (29539,28285); (29596,28285); (29656,28285); (30952,30942); (29678,28285); (29751,28285); (29837,28285); (30845,30948); (30954,30952); (30957,30953); (29824,28285); (29878,28285); (30960,30954); (29953,28285); (30131,28285); (30864,30957); (30209,28285); (30726,28285); (30773,28285); (30821,28285); (30967,30960); (30930,28285); (30968,30965); (30969,30967); (30911,30968); (-2079,30969); (30972,32824); (30973,30971); (31813,30972); (31017,31912); (30976,31911); (30977,30975); (30881,30976); (30979,30977); (30980,30978); (30981,30979); (30868,30980); (30983,30981); (30984,30982); (30985,30983); (30927,30984); (-2098,30985); (30988,31932); (31019,30987); (30990,31899); (30991,30989); (30906,30990); (30993,29533); (30886,30992); (30995,30993); (30996,30994); (30997,30995); (30887,30996); (30999,30997); (31000,30998)];
  [(31001,30999); (30892,31000); (31025,31001); (31004,30991); (31005,31003); (31006,31004); (30893,31005); (31008,31006); (31009,31007); (31010,31008); (31290,31009); (31012,31408); (31013,31011); (30955,31012); (-2100,31013); (31016,31881); (31356,31015); (31018,30974); (30899,31017); (30997,30988); (31021,31018); (31022,31020); (31023,31021); (30965,31022); (-2101,31023); (31026,31002); (31027,31025); (30969,31026); (-2081,31027); (31035,31247); (31031,29519); (30935,31030); (31033,31031); (31034,31032); (31036,31033); (31051,31029); (30925,31034); (31038,31036); (31039,31037); (31040,31038); (30929,31039); (31042,31040); (31043,31041); (31044,31042); (30948,31043); (31046,31044); (31047,31045); (31048,31046); (30990,31047); (-2082,31048); (31056,31249); (30941,31035); (31053,31051); (31054,31052); (31055,31053); (30941,31054); (31059,31050); (31058,31055); (31060,31057); (30988,31056); (31061,31058); (30958,31060); (31063,31061); (31064,31062); (31065,31063); (30961,31064); (31067,31065); (31068,31066); (31069,31067); (30960,31068); (31071,31069); (31072,31070); (31073,31071); (30971,31072); (31075,31073); (31076,31074); (31077,31075); (31019,31076); (-2083,31077); (31085,31251); (31094,31093); (31082,31092); (31083,31081); (30979,31082); (31086,31083); (31088,31079); (31087,31084); (31089,31086); (31031,31085); (31032,31087); (-2088,31088); (-2084,31089); (31081,31059); (31080,31059); (31095,31080); (31037,31094); (-2085,31095); (31098,31102); (31099,31097); (30989,31098); (31101,31099); (31103,31100); (31097,31059); (31104,31101); (30993,31103); (31106,31104); (31107,31105); (31108,31106); (30993,31107); (31110,31108); (31111,31109); (31112,31110); (31002,31111); (31114,31112); (31115,31113); (31116,31114); (31058,31115); (-2086,31116); (31150,31019); (31120,29484); (31007,31119); (31122,31120); (31123,31121); (31124,31122); (31011,31123); (31126,31124); (31127,31125); (31128,31126); (31070,31127); (-2087,31128); (31132,31135); (31137,31253); (31133,31130); (31023,31132); (31136,31133); (31130,31088); (31138,31134); (31140,31131); (31139,31136); (31082,31138); (31156,31137); (-2089,31139); (31261,31270); (-2076,30886); (31145,31260); (31239,31144); (31147,31252); (31148,31146); (31062,31147); (31168,31179); (31352,31118); (31152,31167); (31153,31151); (31051,31152); (31155,31153); (31156,31154); (31157,31155); (31049,31156); (31159,31157); (31160,31158); (31161,31159); (31065,31160); (31163,31161); (31164,31162); (31165,31163); (31107,31164); (-2090,31165); (31151,31148); (31169,31149); (31107,31168); (31206,31219); (31173,31205); (-2078,30915); (31174,31171); (31060,31173); (31176,31174); (31177,31175); (31178,31176); (31079,31177); (31149,31148); (31181,31178); (31182,31180); (31183,31181); (31068,31182); (31185,31183); (31186,31184); (31187,31185); (31078,31186); (31189,31187); (31190,31188); (31191,31189); (31091,31190); (31193,31191); (31194,31192); (31195,31193); (31083,31194); (31197,31195); (31198,31196); (31199,31197); (31141,31198)];
  [(-2091,31199); (31202,31254); (31203,31201); (31145,31202); (-2092,31203); (31171,31169); (31207,31170); (31093,31206); (31209,31207); (31210,31208); (31211,31209); (31111,31210); (31213,31211); (31214,31212); (31215,31213); (31100,31214); (31217,31215); (31218,31216); (31220,31217); (31170,31169); (31111,31218); (31222,31220); (31223,31221); (31224,31222); (31124,31223); (31226,31224); (31227,31225); (31228,31226); (31116,31227); (31230,31228); (31231,31229); (31232,31230); (31174,31231); (-2093,31232); (31235,31287); (31236,31234); (31178,31235); (-2094,31236); (29521,29518); (31139,31145); (31241,31239); (31242,31240); (31243,31241); (31129,31242); (29519,29518); (31246,31243); (31248,31245); (31029,29518); (31250,31246); (31050,29518); (31158,31248); (31079,29518); (31146,29518); (31131,29518); (31201,31199); (31256,31250); (31257,31255); (31258,31256); (31200,31257); (-2095,31258); (31144,31140); (31262,31142); (31158,31261); (31264,31262); (31265,31263); (31266,31264); (31170,31265); (31268,31266); (31269,31267); (31271,31268); (31142,31140); (31162,31269); (31273,31271); (31274,31272); (31275,31273); (31173,31274); (31277,31275); (31278,31276); (31279,31277); (31172,31278); (31281,31279); (31282,31280); (31283,31281); (31183,31282); (31285,31283); (31286,31284); (31288,31285); (31234,31232); (31198,31286); (31307,31312); (31291,31306); (31292,31290); (31192,31291); (31294,31292); (31295,31293); (31296,31294); (31195,31295); (31298,31296); (31299,31297); (31300,31298); (31185,31299); (31302,31300); (31303,31301); (31304,31302); (31246,31303); (-2096,31304); (31290,31288); (31308,31289); (31204,31307); (31310,31308); (31311,31309); (31313,31310); (31289,31288); (31211,31311); (31315,31313); (31316,31314); (31317,31315); (31214,31316); (31319,31317); (31320,31318); (31321,31319); (31206,31320); (31323,31321); (31324,31322); (31325,31323); (31267,31324); (-2097,31325); (31328,32825); (31329,31327); (32010,31328); (31939,32111); (31332,32109); (31333,31331); (31229,31332); (31335,31333); (31336,31334); (31337,31335); (31224,31336); (31339,31337); (31340,31338); (31341,31339); (31243,31340); (31343,31341); (31344,31342); (31345,31343); (31287,31344); (-2139,31345); (31348,32857); (31359,31347); (-2099,31010); (31351,31901); (31382,31350); (31353,31150); (31295,31352); (-2102,31353); (31385,31913); (31260,31016); (31358,31356); (31381,31357); (32021,31348); (31378,32122); (31362,32120); (31363,31361); (31259,31362); (31365,31363); (31366,31364); (31367,31365); (31254,31366); (31369,31367); (31370,31368); (31371,31369); (31273,31370); (31373,31371); (31374,31372); (31375,31373); (31317,31374); (-2140,31375); (31379,32123); (31380,31360); (32048,31377); (31921,31378); (31383,31358); (31287,31351); (31272,31381); (31413,31382); (31386,31355); (31300,31385); (31388,31383); (31389,31387); (31390,31388); (31287,31389); (31392,31390); (31393,31391); (31394,31392); (31336,31393); (-2103,31394); (31426,31914); (31398,31386); (31399,31397); (31400,31398)];
  [(31286,31399); (31402,31400); (31403,31401); (31404,31402); (31301,31403); (31406,31404); (31407,31405); (31409,31406); (31011,31010); (31351,31407); (-2104,31409); (31412,31934); (31414,31411); (31415,31384); (31426,31412); (31416,31413); (31302,31415); (31418,31416); (31419,31417); (31420,31418); (31317,31419); (31422,31420); (31423,31421); (31424,31422); (31366,31423); (-2105,31424); (31427,31396); (31409,31426); (31511,31523); (31430,31933); (31431,31429); (31335,31430); (31433,31431); (31434,31432); (31435,31433); (31321,31434); (31437,31435); (31438,31436); (31439,31437); (31336,31438); (31441,31439); (31442,31440); (31444,31441); (31488,31534); (31388,31442); (31446,31527); (31461,31445); (-2106,31444); (31449,31459); (31450,31448); (31392,31449); (-2107,31450); (31482,31915); (31454,31510); (31455,31453); (31397,31454); (-2108,31455); (31458,31935); (31460,31457); (31448,31409); (31375,31458); (31403,31446); (-2109,31461); (31464,31501); (31465,31463); (31369,31464); (31467,31465); (31468,31466); (31469,31467); (31356,31468); (31471,31469); (31472,31470); (31473,31471); (31415,31472); (-2110,31473); (31476,31504); (31477,31475); (31365,31476); (31479,31477); (31480,31478); (31481,31479); (31427,31480); (31483,31452); (31370,31482); (31485,31483); (31700,31484); (-2111,31481); (31494,31540); (31490,31443); (31491,31460); (31387,31488); (31492,31489); (31493,31491); (31646,31492); (31528,31487); (31496,31490); (31497,31495); (31498,31496); (31394,31497); (31500,31498); (31502,31499); (31463,31461); (31503,31500); (31393,31502); (31475,31461); (31506,31503); (31507,31505); (31508,31506); (31450,31507); (-2112,31508); (31453,31427); (31512,31428); (31560,31511); (31545,31676); (31515,31658); (31516,31514); (31420,31515); (31518,31516); (31519,31517); (31520,31518); (31407,31519); (31522,31520); (31524,31521); (31428,31427); (31525,31522); (31467,31524); (-2113,31525); (31445,31414); (31450,31494); (31549,31566); (31531,31548); (31532,31530); (31436,31531); (31535,31532); (31443,31414); (31536,31533); (31537,31535); (31424,31536); (31539,31537); (31541,31538); (31487,31414); (31542,31539); (31484,31541); (-2114,31542); (31562,31681); (31546,31513); (31488,31545); (-2115,31546); (31530,31528); (31550,31529); (31492,31549); (-2116,31550); (31553,31593); (31554,31552); (31456,31553); (31556,31554); (31557,31555); (31558,31556); (31462,31557); (31560,31558); (31561,31559); (31563,31560); (31659,31544); (31456,31561); (31565,31563); (31567,31564); (31529,31528); (31568,31565); (31571,31567); (31583,31647); (31571,31637); (31572,31570); (31476,31571); (31574,31572); (31575,31573); (31576,31574); (31463,31575); (31578,31576); (31579,31577); (31580,31578); (31522,31579); (-2117,31580); (31592,31654); (31584,31569); (31480,31583); (31586,31584); (31587,31585); (31588,31586); (31479,31587); (31590,31588); (31591,31589); (31594,31590); (31601,31582); (31552,31546); (31494,31591); (31596,31594); (31597,31595); (31598,31596); (31540,31597); (-2118,31598)];
  [(31610,31655); (31501,31592); (31603,31601); (31604,31602); (31605,31603); (31494,31604); (31607,31605); (31608,31606); (31609,31607); (31514,31608); (31617,31600); (31612,31609); (31613,31611); (31614,31612); (31501,31613); (31616,31614); (31618,31615); (31533,31610); (31619,31616); (31523,31618); (31621,31619); (31622,31620); (31623,31621); (31508,31622); (31625,31623); (31626,31624); (31627,31625); (31517,31626); (31629,31627); (31630,31628); (31631,31629); (31518,31630); (31633,31631); (31634,31632); (31635,31633); (31577,31634); (-2119,31635); (31570,31568); (31639,31617); (31640,31638); (31641,31639); (31534,31640); (31643,31641); (31644,31642); (31645,31643); (31546,31644); (31648,31645); (31569,31568); (31649,31646); (31650,31648); (31550,31649); (31652,31650); (31653,31651); (31656,31652); (31582,31568); (31600,31568); (31598,31653); (-2120,31656); (31514,31512); (31576,31562); (31661,31659); (31662,31660); (31663,31661); (31560,31662); (31665,31663); (31666,31664); (31667,31665); (31563,31666); (31669,31667); (31670,31668); (31671,31669); (31562,31670); (31673,31671); (31674,31672); (31675,31673); (31594,31674); (31513,31512); (31678,31675); (31679,31677); (31680,31678); (31570,31679); (31544,31512); (31683,31680); (31684,31682); (31685,31683); (31589,31684); (31687,31685); (31688,31686); (31689,31687); (31591,31688); (31691,31689); (31692,31690); (31693,31691); (31593,31692); (31695,31693); (31696,31694); (31697,31695); (31639,31696); (-2121,31697); (31729,31924); (31701,31485); (31643,31700); (-2122,31701); (31704,31944); (31706,31703); (-2123,31493); (31623,31704); (31708,31941); (31709,31707); (31594,31708); (31711,31709); (31712,31710); (31713,31711); (31600,31712); (31715,31713); (31716,31714); (31717,31715); (31613,31716); (31719,31717); (31720,31718); (31721,31719); (31663,31720); (-2124,31721); (31724,31943); (31725,31723); (31611,31724); (31727,31725); (31728,31726); (31734,31727); (31730,31699); (31619,31729); (31732,31730); (31733,31731); (31756,31732); (31619,31728); (31737,31706); (31741,31734); (31738,31735); (31739,31737); (31638,31738); (31746,31739); (31742,31736); (31743,31741); (31646,31742); (31745,31743); (31747,31744); (31748,31740); (31749,31745); (31763,31746); (31691,31747); (-2125,31749); (31752,31758); (31753,31751); (31695,31752); (-2126,31753); (31785,31928); (31655,31733); (31759,31756); (31751,31743); (31760,31757); (31761,31759); (31703,31760); (-2127,31761); (31705,31748); (-2128,31763); (31766,31948); (31768,31765); (31769,31945); (31715,31766); (31770,31767); (31657,31769); (31772,31770); (31773,31771); (31774,31772); (31664,31773); (31776,31774); (31777,31775); (31778,31776); (31667,31777); (31780,31778); (31781,31779); (31782,31780); (31724,31781); (-2129,31782); (31790,31947); (31786,31755); (31688,31785); (31788,31786); (31789,31787); (31798,31788); (31791,31784); (31676,31790); (31793,31791); (31794,31792); (31795,31793); (31682,31794); (31803,31795); (31822,31832); (31703,31789); (31800,31814)];
  [(31801,31799); (31688,31800); (31808,31801); (31804,31796); (31805,31803); (31701,31804); (31807,31805); (31809,31806); (31810,31802); (31813,31807); (31811,31808); (31753,31810); (-2132,31811); (31756,31809); (31799,31768); (-2130,31813); (31846,31931); (31818,31798); (31819,31817); (31820,31818); (31762,31819); (-2131,31820); (31823,31797); (31757,31822); (31845,31869); (31826,31855); (31827,31825); (31718,31826); (31829,31827); (31834,31828); (31831,31955); (31833,31830); (31797,31768); (31757,31831); (31835,31829); (31767,31834); (31837,31835); (31838,31836); (31839,31837); (31781,31838); (-2133,31839); (31842,31868); (31843,31841); (31785,31842); (-2134,31843); (31851,31824); (31847,31816); (31748,31846); (31849,31847); (31850,31848); (31859,31849); (31742,31845); (31853,31851); (31854,31852); (31856,31853); (31825,31823); (31788,31854); (31858,31856); (31860,31857); (31766,31850); (31861,31858); (31811,31860); (31864,31833); (31882,31859); (31865,31862); (31866,31864); (31764,31865); (31873,31866); (31841,31835); (31824,31823); (-2135,31861); (31872,31889); (31874,31871); (31875,31867); (31819,31872); (31876,31873); (31755,31875); (31879,31876); (-2136,31874); (31880,31877); (31895,31879); (31015,30973); (31883,31863); (31884,31882); (31770,31883); (31886,31884); (31887,31885); (31888,31886); (31786,31887); (31871,31856); (31891,31888); (31892,31890); (31893,31891); (31835,31892); (-2137,31893); (31799,31880); (31897,31895); (31900,31896); (29484,29483); (30989,29483); (31902,31897); (31350,29483); (31800,31900); (31904,31902); (31905,31903); (31906,31904); (31848,31905); (-2138,31906); (32022,32026); (31910,32021); (31916,31909); (30975,30973); (30974,30973); (31355,30973); (31396,30973); (31452,30973); (31913,31910); (31985,32016); (31919,32011); (31920,31918); (31824,31919); (31922,31920); (31923,31921); (31925,31922); (31699,30973); (31812,31923); (31927,31925); (31929,31926); (31755,30973); (31936,31927); (29485,29483); (31816,30973); (30987,29483); (31429,29483); (31411,29483); (31457,29483); (31878,31929); (-2141,31936); (31940,32112); (31942,31330); (32039,31938); (31707,29483); (31846,31939); (31723,29483); (31703,29483); (31767,29483); (31949,31942); (31784,29483); (31765,29483); (31950,31946); (31951,31949); (31849,31950); (31953,31951); (31954,31952); (31979,31953); (31830,29483); (31957,32858); (31958,31956); (32387,31957); (32004,32487); (31961,32486); (31962,31960); (31891,31961); (31972,31996); (31965,31988); (31966,31964); (31855,31965); (31968,31966); (31969,31967); (31970,31968); (31912,31969); (-2155,31970); (31973,31963); (31860,31972); (31975,31973); (31976,31974); (31977,31975); (31879,31976); (31989,31977); (31879,31954); (31981,31979); (31982,31980); (31983,31981); (31925,31982); (-2142,31983); (31986,31917); (31886,31985); (32012,31986); (31964,31962); (31990,31978); (31991,31989); (31933,31990); (-2156,31991); (31994,32008); (31995,31993); (31885,31994); (31963,31962); (31998,31995); (31999,31997); (32000,31998)];
  [(31942,31999); (-2157,32000); (32003,32489); (32151,32002); (32005,31959); (31890,32004); (32007,32005); (32009,32006); (31993,31962); (32010,32007); (32020,32009); (31918,31916); (32013,31987); (32014,32012); (31956,32013); (-2143,32014); (31917,31916); (32018,32069); (32019,32017); (31961,32018); (-2144,32019); (31909,31380); (32023,31908); (31923,32022); (32025,32023); (32027,32024); (31908,31380); (32028,32025); (31915,32027); (32030,32028); (32031,32029); (32032,32030); (31921,32031); (32034,32032); (32035,32033); (32036,32034); (31978,32035); (-2145,32036); (32040,32121); (31928,31940); (32041,32038); (31945,32040); (32043,32039); (32044,32042); (32045,32043); (31987,32044); (-2146,32045); (32049,32132); (31937,31379); (32050,32047); (31959,32049); (32052,32048); (32053,32051); (32054,32052); (31996,32053); (-2147,32054); (32058,32125); (32060,32041); (32059,32056); (31969,32058); (32061,32057); (32062,32060); (31961,32061); (32064,32062); (32065,32063); (32066,32064); (32008,32065); (-2148,32066); (32110,32059); (32017,32014); (32072,32135); (32074,32050); (32073,32070); (32023,32072); (32075,32071); (32076,32074); (31975,32075); (32078,32076); (32079,32077); (32080,32078); (32022,32079); (-2149,32080); (-2151,32073); (32089,32124); (32085,32133); (32086,32084); (32028,32085); (-2150,32086); (32090,32136); (32092,32083); (32091,32088); (32001,32090); (31996,32089); (32094,32092); (32095,32093); (32096,32094); (31981,32095); (32098,32096); (32099,32097); (32102,32098); (32101,32091); (32103,32100); (32000,32099); (32126,32101); (32105,32102); (32106,32104); (32107,32105); (32049,32106); (-2152,32107); (31331,31329); (32113,32068); (31330,31329); (31938,31329); (32114,32110); (32001,32113); (32116,32114); (32117,32115); (32118,32116); (32060,32117); (-2153,32118); (31361,31359); (32038,31329); (31360,31359); (31377,31359); (32083,32073); (32056,31329); (32013,32103); (32128,32126); (32129,32127); (32130,32128); (32072,32129); (-2154,32130); (32047,31359); (32084,31359); (32160,32010); (32070,31359); (32088,31359); (32138,32826); (32139,32137); (32306,32138); (32221,32411); (32142,32408); (32143,32141); (32030,32142); (32145,32143); (32146,32144); (32147,32145); (32089,32146); (-2159,32147); (32150,32491); (32152,32149); (32039,32003); (32093,32150); (32154,32151); (32155,32153); (32156,32154); (32098,32155); (-2160,32156); (32159,32152); (32170,32158); (32161,32134); (32162,32160); (32058,32161); (32164,32162); (32165,32163); (32166,32164); (32108,32165); (-2158,32166); (32169,32492); (32171,32168); (32172,32159); (32114,32169); (32060,32170); (-2164,32171); (32175,32172); (32176,32174); (32177,32175); (32064,32176); (32179,32177); (32180,32178); (32181,32179); (32123,32180); (-2161,32181); (32184,32190); (32185,32183); (32072,32184); (32187,32185); (32188,32186); (32189,32187); (32077,32188); (32183,32152); (32192,32189); (32217,32191); (32194,32827); (32195,32193); (32645,32194); (32244,32710); (32198,32742); (32199,32197); (32101,32198)];
  [(32201,32199); (32202,32200); (32203,32201); (32087,32202); (32205,32203); (32206,32204); (32207,32205); (32092,32206); (32209,32207); (32210,32208); (32211,32209); (32111,32210); (32545,32211); (32225,32859); (32215,32545); (32157,32214); (-2183,32215); (32218,32192); (32160,32217); (-2162,32218); (32223,32417); (32222,32140); (32165,32221); (32328,32220); (-2163,32222); (32226,32213); (32652,32225); (32604,32751); (32229,32749); (32230,32228); (32132,32229); (32232,32230); (32233,32231); (32234,32232); (32466,32233); (32584,32587); (32237,32583); (32238,32236); (32123,32237); (32240,32238); (32241,32239); (32242,32240); (32142,32241); (32546,32242); (32248,32196); (32246,32546); (32188,32245); (-2185,32246); (32449,32244); (32250,32496); (32252,32249); (32253,32495); (32157,32250); (32256,32251); (32255,32252); (32258,32254); (32192,32253); (32259,32256); (32283,32255); (32260,32257); (32261,32259); (32148,32260); (32263,32261); (32264,32262); (32265,32263); (32152,32264); (32267,32265); (32268,32266); (32269,32267); (32211,32268); (-2165,32269); (32272,32289); (32273,32271); (32160,32272); (32275,32273); (32276,32274); (32277,32275); (32164,32276); (32279,32277); (32280,32278); (32281,32279); (32223,32280); (-2166,32281); (32172,32258); (32287,32283); (32286,32497); (32288,32285); (32292,32284); (32185,32286); (32271,32256); (32291,32288); (32294,32290); (32293,32287); (32237,32292); (32295,32291); (32184,32294); (-2167,32293); (32298,32498); (32300,32297); (32301,32295); (32262,32298); (32304,32299); (32341,32374); (32306,32362); (32305,32301); (32250,32304); (32307,32303); (32197,32306); (32312,32307); (-2168,32305); (32311,32501); (32313,32310); (32314,32308); (32331,32311); (32317,32312); (32397,32428); (32319,32396); (32202,32314); (32323,32317); (32320,32316); (32207,32319); (32322,32320); (32381,32321); (32324,32318); (32325,32323); (32267,32324); (-2169,32325); (32330,32421); (32217,32223); (32331,32328); (32336,32327); (32332,32329); (32333,32331); (32232,32332); (32335,32333); (32337,32334); (32310,32330); (32338,32335); (32280,32337); (-2170,32338); (32352,32378); (32342,32302); (32241,32341); (32344,32342); (32345,32343); (32346,32344); (32288,32345); (-2171,32346); (32350,32349); (32348,32342); (32351,32348); (32236,32350); (32363,32340); (32354,32351); (32355,32353); (32356,32354); (32242,32355); (32358,32356); (32359,32357); (32360,32358); (32302,32359); (-2172,32360); (32303,32300); (32259,32352); (32365,32363); (32366,32364); (32367,32365); (32259,32366); (32369,32367); (32370,32368); (32371,32369); (32271,32370); (32373,32371); (32375,32372); (32302,32300); (32376,32373); (32318,32375); (-2173,32376); (32340,32300); (32380,32502); (32382,32379); (32383,32322); (32324,32380); (32272,32381); (32426,32437); (32388,32423); (32387,32383); (32392,32386); (32389,32385); (32276,32388); (32391,32389); (32394,32390); (32393,32387); (32336,32392); (32420,32391); (-2174,32393); (32316,32313); (32398,32315); (32285,32397); (32400,32398)];
  [(32401,32399); (32402,32400); (32289,32401); (32404,32402); (32405,32403); (32406,32404); (32348,32405); (-2175,32406); (32141,32139); (32410,32336); (32412,32409); (32140,32139); (32413,32410); (32300,32412); (32415,32413); (32416,32414); (32418,32415); (32220,32139); (32360,32416); (-2176,32418); (32363,32394); (32327,32139); (-2177,32420); (32385,32382); (32425,32504); (32427,32424); (32431,32384); (32361,32425); (32315,32313); (32474,32477); (32433,32473); (32333,32426); (32438,32431); (32434,32430); (32327,32433); (32436,32434); (32439,32435); (32384,32382); (32441,32432); (32440,32436); (32337,32439); (32442,32438); (32326,32441); (32444,32442); (32445,32443); (32446,32444); (32335,32445); (32448,32446); (32449,32447); (32450,32448); (32392,32449); (-2178,32450); (32453,32505); (32455,32452); (32456,32440); (32356,32453); (32459,32454); (32458,32455); (32461,32457); (32460,32456); (32350,32459); (32462,32458); (32362,32461); (32464,32462); (32467,32463); (32466,32460); (32469,32465); (32468,32464); (32411,32467); (32471,32466); (-2181,32468); (32413,32469); (-2179,32471); (32430,32427); (32475,32429); (32362,32474); (32478,32475); (32429,32427); (32479,32476); (32480,32478); (32376,32479); (32482,32480); (32483,32481); (32484,32482); (32426,32483); (-2180,32484); (31960,31958); (31959,31958); (32490,32506); (32002,31958); (32493,32488); (32149,31958); (32168,31958); (32393,32490); (32499,32493); (32251,31958); (32249,31958); (32285,31958); (32297,31958); (32500,32494); (32503,32499); (32310,31958); (32379,31958); (32407,32500); (32424,31958); (32452,31958); (32488,31958); (32508,32503); (32509,32507); (32510,32508); (32408,32509); (32512,32510); (32513,32511); (32514,32512); (32414,32513); (32516,32514); (32517,32515); (32518,32516); (32460,32517); (-2182,32518); (32521,32828); (32522,32520); (33006,32521); (32575,33105); (32525,33103); (32526,32524); (32428,32525); (32528,32526); (32529,32527); (32530,32528); (32414,32529); (32532,32530); (32533,32531); (32534,32532); (32419,32533); (32536,32534); (32537,32535); (32538,32536); (32438,32537); (32540,32538); (32541,32539); (32542,32540); (32484,32541); (-2208,32542); (32552,32860); (32214,32212); (32245,32243); (32579,32744); (32549,32248); (32550,32548); (32551,32549); (32456,32550); (32553,32544); (33023,32552); (32833,33122); (32556,33120); (32557,32555); (32459,32556); (32559,32557); (32560,32558); (32561,32559); (32445,32560); (32563,32561); (32564,32562); (32565,32563); (32450,32564); (32567,32565); (32568,32566); (32569,32567); (32469,32568); (32571,32569); (32572,32570); (32573,32571); (32515,32572); (-2209,32573); (32576,32523); (32782,32575); (32578,32551); (32580,32577); (32589,32547); (32581,32578); (32523,32580); (-2187,32581); (32236,32234); (32585,32235); (32527,32584); (-2188,32585); (32235,32234); (32620,32747); (32516,32579); (32623,32637); (32592,32621); (32593,32591); (32480,32592); (32595,32593); (32596,32594); (32597,32595); (32499,32596); (32599,32597); (32600,32598)];
  [(32601,32599); (32543,32600); (-2189,32601); (32605,32753); (32606,32227); (32631,32603); (32521,32604); (32627,32642); (32609,32626); (32610,32608); (32497,32609); (32612,32610); (32613,32611); (32614,32612); (32516,32613); (32616,32614); (32617,32615); (32618,32616); (32560,32617); (-2190,32618); (32622,32588); (32591,32589); (32527,32620); (32624,32590); (32566,32623); (-2191,32624); (32608,32606); (32628,32607); (32570,32627); (-2192,32628); (32632,32754); (32523,32605); (32634,32630); (32635,32631); (32534,32632); (32636,32633); (32638,32635); (32590,32589); (32580,32636); (-2193,32638); (32657,32718); (32643,32622); (32607,32606); (32644,32641); (32645,32643); (32587,32644); (-2195,32645); (32649,32757); (32650,32634); (32651,32647); (32653,32648); (32553,32649); (32670,32651); (32654,32650); (32596,32653); (-2196,32654); (32664,32760); (32658,32640); (32560,32657); (32660,32658); (32661,32659); (32662,32660); (32542,32661); (32665,32662); (32688,32656); (32666,32663); (32667,32665); (32609,32666); (-2197,32667); (32671,32763); (32672,32652); (32673,32669); (32675,32670); (32562,32671); (32677,32673); (32555,32672); (32678,32675); (32697,32674); (32679,32676); (32680,32678); (32622,32679); (-2198,32680); (32683,32756); (32684,32682); (32573,32683); (32686,32684); (32687,32685); (32689,32686); (32591,32664); (32589,32687); (32693,32688); (32692,32689); (32694,32691); (32702,32690); (32695,32692); (32637,32694); (-2199,32695); (32698,32677); (32598,32697); (32701,32767); (32705,32698); (32703,32699); (32711,32693); (32605,32701); (32707,32703); (32706,32700); (32708,32705); (32713,32704); (32650,32706); (-2200,32708); (32196,32195); (32598,32702); (32714,32711); (32720,32707); (32715,32712); (32716,32714); (32658,32715); (-2201,32716); (32640,32195); (32721,32769); (32608,32713); (32723,32719); (32725,32720); (32677,32721); (32777,32786); (32726,32722); (32728,32725); (32733,32776); (32670,32726); (-2202,32728); (32731,32195); (32732,32730); (32734,32731); (32737,32727); (32636,32732); (32736,32734); (32738,32735); (32627,32733); (32739,32736); (32619,32738); (32741,32739); (32743,32740); (32197,32195); (32745,32741); (32547,32195); (32687,32743); (-2203,32745); (32588,32195); (32750,32737); (32228,32226); (32752,32748); (32227,32226); (32755,32750); (32603,32226); (32630,32226); (32699,32752); (32682,32195); (32647,32226); (-2204,32755); (32761,32762); (32656,32195); (32764,32759); (32759,32195); (32669,32226); (32656,32761); (32766,32764); (32768,32765); (32699,32226); (32770,32766); (32719,32226); (32663,32768); (32772,32770); (32773,32771); (32774,32772); (32716,32773); (-2205,32774); (32727,32723); (32778,32724); (32671,32777); (32780,32778); (32781,32779); (32782,32780); (32724,32781); (-2206,32782); (32880,32903); (32787,33106); (32724,32723); (32888,32785); (32789,32879); (32790,32788); (32677,32789); (32792,32790); (32793,32791); (32794,32792); (32684,32793); (32796,32794); (32797,32795); (32798,32796); (32689,32797); (32800,32798)];
  [(32829,32799); (-2184,32212); (-2186,32243); (5,4); (979,4); (1085,4); (2555,4); (4727,4); (8433,4); (9098,4); (9111,4); (10117,4); (10897,4); (11936,4); (12198,4); (16059,4); (16156,4); (16720,4); (21797,4); (21870,4); (22992,4); (23158,4); (25674,4); (28248,4); (30971,4); (31327,4); (32137,4); (32193,4); (32520,4); (32830,32800); (32772,32829); (-2210,32830); (32834,33123); (32861,32554); (32906,32832); (23,4); (67,4); (2579,4); (4745,4); (7125,4); (7104,4); (8485,4); (10115,4); (10883,4); (11948,4); (12142,4); (12157,4); (12406,4); (16117,4); (16758,4); (20682,4); (21882,4); (22944,4); (23196,4); (25686,4); (28280,4); (29481,4); (31347,4); (31956,4); (32213,4); (32544,4); (32765,32833); (32863,32861); (32864,32862); (32865,32863); (32752,32864); (32867,32865); (32868,32866); (32869,32867); (32759,32868); (32871,32869); (32872,32870); (32873,32871); (32764,32872); (32875,32873); (32876,32874); (32877,32875); (32819,32876); (-2211,32877); (32788,32576); (32881,32784); (32823,32880); (-2212,32881); (32884,32886); (32885,32883); (32828,32884); (32883,32861); (-2213,32885); (32778,32787); (32894,32888); (32892,33107); (-2194,32633); (32893,32890); (32876,32892); (32895,32889); (32896,32894); (32781,32895); (32898,32896); (32899,32897); (32900,32898); (32842,32899); (-2214,32900); (32904,33124); (32784,32576); (32905,32902); (32898,32904); (32796,32834); (32908,32906); (32909,32907); (32910,32908); (32795,32909); (32912,32910); (32913,32911); (32914,32912); (32856,32913); (-2215,32914); (32918,33125); (33000,33014); (32919,32916); (32806,32918); (33018,32919); (32922,32999); (32923,32921); (32808,32922); (32925,32923); (32926,32924); (32927,32925); (32814,32926); (32929,32927); (32930,32928); (32931,32929); (32830,32930); (32933,32931); (32934,32932); (32935,32933); (32877,32934); (-2216,32935); (32939,33108); (32991,32992); (32940,32937); (32827,32939); (33008,32940); (32943,32990); (32944,32942); (32834,32943); (32946,32944); (32947,32945); (32948,32946); (32862,32947); (32950,32948); (32951,32949); (32952,32950); (32848,32951); (32954,32952); (32955,32953); (32956,32954); (32857,32955); (32958,32956); (32959,32957); (32960,32958); (32845,32959); (32962,32960); (32963,32961); (32964,32962); (32861,32963); (32966,32964); (32967,32965); (32968,32966); (32886,32967); (32970,32968); (32971,32969); (32972,32970); (32861,32971); (32974,32972); (32975,32973); (32976,32974); (32880,32975); (32978,32976); (32979,32977); (32980,32978); (32882,32979); (32982,32980); (32983,32981); (32984,32982); (32884,32983); (32986,32984); (32987,32985); (32988,32986); (32930,32987); (-2217,32988); (32942,32893); (32993,32938); (32938,32893); (32897,32991); (32995,32993); (32996,32994); (32997,32995); (32939,32996); (-2218,32997); (32921,32905)];
  [(33001,32917); (32905,33000); (33003,33001); (33004,33002); (33005,33003); (32947,33004); (-2219,33005); (33009,33078); (33013,32941); (33010,33007); (32912,33009); (33012,33010); (33027,33011); (33015,33008); (32917,32905); (32957,33013); (-2220,33015); (33019,33127); (33023,32920); (33020,33017); (32922,33019); (33022,33020); (33034,33021); (33024,33018); (32966,33023); (-2221,33024); (33051,33117); (33028,33012); (32908,33027); (33030,33028); (33031,33029); (33032,33030); (32974,33031); (-2222,33032); (33041,33022); (33037,33128); (-2207,32779); (33038,33035); (32936,33037); (33040,33038); (33042,33039); (32922,33034); (33048,33040); (33044,33041); (33045,33043); (33046,33044); (32988,33045); (-2223,33046); (32935,33042); (33050,33048); (33052,33049); (33053,33026); (33058,33050); (32942,33051); (33055,33053); (33056,33054); (33079,33055); (33059,33134); (32966,33052); (33060,33057); (32949,33059); (33062,33060); (33064,33061); (33066,33058); (33065,33062); (32984,33064); (33067,33063); (33068,33066); (32955,33067); (33070,33068); (33071,33069); (33072,33070); (32959,33071); (33074,33072); (33075,33073); (33076,33074); (33018,33075); (-2224,33076); (33007,32522); (32978,33056); (33081,33079); (33082,33080); (33083,33081); (33025,33082); (-2225,33083); (33087,33138); (33091,33065); (33088,33085); (32990,33087); (33090,33088); (33092,33089); (33094,33086); (33093,33090); (32985,33092); (33095,33091); (33037,33094); (-2226,33095); (33098,33121); (33100,33097); (33115,33093); (33002,33098); (33102,33100); (33104,33101); (32524,32522); (33109,33102); (32523,32522); (32785,32522); (32890,32522); (32937,32522); (32996,33104); (33111,33109); (33112,33110); (33113,33111); (33055,33112); (-2227,33113); (33116,33099); (33118,33115); (33026,32522); (33060,33116); (-2228,33118); (32555,32553); (33097,32522); (32554,32553); (32832,32553); (32902,32553); (32916,32553); (33129,33142); (33017,32553); (33035,32553); (33130,33126); (33031,33129); (33139,33141); (33133,33137); (33135,33132); (33057,32553); (33077,33133); (-2229,33135); (33132,33130); (33085,32553); (33140,33131); (33037,33139); (33131,33130); (33126,32553); (33144,33140); (33145,33143); (33146,33144); (33088,33145); (-2230,33146)]
].

(** atom_tbl.cpp:4532-4758: one or two code points for each leaf value, 0 for none *)
Definition ncr_map : list (Z * Z) := concat [
  [(193,0); (193,0); (225,0); (225,0); (258,0); (259,0); (8766,0); (8767,0); (8766,819); (194,0); (194,0); (226,0); (226,0); (180,0); (180,0); (1040,0); (1072,0); (198,0); (198,0); (230,0); (230,0); (8289,0); (120068,0); (120094,0); (192,0); (192,0); (224,0); (224,0); (8501,0); (8501,0); (913,0); (945,0); (256,0); (257,0); (10815,0); (38,0); (38,0); (38,0); (38,0); (10835,0); (8743,0); (10837,0); (10844,0); (10840,0); (10842,0); (8736,0); (10660,0); (8736,0); (8737,0); (10664,0); (10665,0); (10666,0); (10667,0); (10668,0); (10669,0); (10670,0); (10671,0); (8735,0); (8894,0); (10653,0); (8738,0); (197,0); (9084,0); (260,0); (261,0); (120120,0); (120146,0); (8776,0); (10863,0); (10864,0); (8778,0); (8779,0); (39,0); (8289,0); (8776,0); (8778,0); (197,0); (197,0); (229,0); (229,0); (119964,0); (119990,0); (8788,0); (42,0); (8776,0); (8781,0); (195,0); (195,0); (227,0); (227,0); (196,0); (196,0); (228,0); (228,0); (8755,0); (10769,0); (8780,0); (1014,0); (8245,0); (8765,0); (8909,0); (8726,0); (10983,0); (8893,0); (8966,0); (8965,0); (8965,0); (9141,0); (9142,0); (8780,0); (1041,0); (1073,0); (8222,0); (8757,0); (8757,0); (8757,0); (10672,0); (1014,0); (8492,0); (8492,0); (914,0); (946,0); (8502,0); (8812,0); (120069,0); (120095,0); (8898,0); (9711,0); (8899,0); (10752,0); (10753,0); (10754,0); (10758,0); (9733,0); (9661,0); (9651,0); (10756,0); (8897,0); (8896,0); (10509,0); (10731,0); (9642,0); (9652,0); (9662,0); (9666,0); (9656,0); (9251,0); (9618,0); (9617,0); (9619,0); (9608,0); (61,8421); (8801,8421); (10989,0); (8976,0); (120121,0); (120147,0); (8869,0); (8869,0); (8904,0); (10697,0); (9559,0); (9558,0); (9557,0); (9488,0); (9556,0); (9555,0); (9554,0); (9484,0); (9552,0); (9472,0); (9574,0); (9572,0); (9573,0); (9516,0); (9577,0); (9575,0); (9576,0); (9524,0); (8863,0); (8862,0); (8864,0); (9565,0); (9564,0); (9563,0); (9496,0); (9562,0); (9561,0); (9560,0); (9492,0); (9553,0); (9474,0); (9580,0); (9579,0); (9578,0); (9532,0); (9571,0); (9570,0); (9569,0); (9508,0)];
  [(9568,0); (9567,0); (9566,0); (9500,0); (8245,0); (728,0); (728,0); (166,0); (166,0); (8492,0); (119991,0); (8271,0); (8765,0); (8909,0); (92,0); (10693,0); (10184,0); (8226,0); (8226,0); (8782,0); (10926,0); (8783,0); (8782,0); (8783,0); (262,0); (263,0); (8914,0); (8745,0); (10820,0); (10825,0); (10827,0); (10823,0); (10816,0); (8517,0); (8745,65024); (8257,0); (711,0); (8493,0); (10829,0); (268,0); (269,0); (199,0); (199,0); (231,0); (231,0); (264,0); (265,0); (8752,0); (10828,0); (10832,0); (266,0); (267,0); (184,0); (184,0); (184,0); (10674,0); (162,0); (162,0); (183,0); (183,0); (8493,0); (120096,0); (1063,0); (1095,0); (10003,0); (10003,0); (935,0); (967,0); (9675,0); (710,0); (8791,0); (8634,0); (8635,0); (8859,0); (8858,0); (8861,0); (8857,0); (174,0); (9416,0); (8854,0); (8853,0); (8855,0); (10691,0); (8791,0); (10768,0); (10991,0); (10690,0); (8754,0); (8221,0); (8217,0); (9827,0); (9827,0); (8759,0); (58,0); (10868,0); (8788,0); (8788,0); (44,0); (64,0); (8705,0); (8728,0); (8705,0); (8450,0); (8773,0); (10861,0); (8801,0); (8751,0); (8750,0); (8750,0); (8450,0); (120148,0); (8720,0); (8720,0); (169,0); (169,0); (169,0); (169,0); (8471,0); (8755,0); (8629,0); (10799,0); (10007,0); (119966,0); (119992,0); (10959,0); (10961,0); (10960,0); (10962,0); (8943,0); (10552,0); (10549,0); (8926,0); (8927,0); (8630,0); (10557,0); (8915,0); (8746,0); (10824,0); (8781,0); (10822,0); (10826,0); (8845,0); (10821,0); (8746,65024); (8631,0); (10556,0); (8926,0); (8927,0); (8910,0); (8911,0); (164,0); (164,0); (8630,0); (8631,0); (8910,0); (8911,0); (8754,0); (8753,0); (9005,0); (8225,0); (8224,0); (8504,0); (8609,0); (8659,0); (8595,0); (8208,0); (10980,0); (8867,0); (10511,0); (733,0); (270,0); (271,0); (1044,0); (1076,0); (8517,0); (8518,0); (8225,0); (8650,0); (10513,0); (10871,0); (176,0); (176,0); (8711,0); (916,0); (948,0); (10673,0); (10623,0); (120071,0); (120097,0); (10597,0); (8643,0); (8642,0); (180,0); (729,0); (733,0); (96,0); (732,0); (8900,0); (8900,0); (8900,0)];
  [(9830,0); (9830,0); (168,0); (8518,0); (989,0); (8946,0); (247,0); (247,0); (247,0); (8903,0); (8903,0); (1026,0); (1106,0); (8990,0); (8973,0); (36,0); (120123,0); (120149,0); (168,0); (729,0); (8412,0); (8784,0); (8785,0); (8784,0); (8760,0); (8724,0); (8865,0); (8966,0); (8751,0); (168,0); (8659,0); (8656,0); (8660,0); (10980,0); (10232,0); (10234,0); (10233,0); (8658,0); (8872,0); (8657,0); (8661,0); (8741,0); (8595,0); (8659,0); (8595,0); (10515,0); (8693,0); (785,0); (8650,0); (8643,0); (8642,0); (10576,0); (10590,0); (8637,0); (10582,0); (10591,0); (8641,0); (10583,0); (8868,0); (8615,0); (10512,0); (8991,0); (8972,0); (119967,0); (119993,0); (1029,0); (1109,0); (10742,0); (272,0); (273,0); (8945,0); (9663,0); (9662,0); (8693,0); (10607,0); (10662,0); (1039,0); (1119,0); (10239,0); (201,0); (201,0); (233,0); (233,0); (10862,0); (282,0); (283,0); (8790,0); (202,0); (202,0); (234,0); (234,0); (8789,0); (1069,0); (1101,0); (10871,0); (278,0); (8785,0); (279,0); (8519,0); (8786,0); (120072,0); (120098,0); (10906,0); (200,0); (200,0); (232,0); (232,0); (10902,0); (10904,0); (10905,0); (8712,0); (9191,0); (8467,0); (10901,0); (10903,0); (274,0); (275,0); (8709,0); (8709,0); (9723,0); (8709,0); (9643,0); (8195,0); (8196,0); (8197,0); (330,0); (331,0); (8194,0); (280,0); (281,0); (120124,0); (120150,0); (8917,0); (10723,0); (10865,0); (949,0); (917,0); (949,0); (1013,0); (8790,0); (8789,0); (8770,0); (10902,0); (10901,0); (10869,0); (61,0); (8770,0); (8799,0); (8652,0); (8801,0); (10872,0); (10725,0); (10609,0); (8787,0); (8496,0); (8495,0); (8784,0); (10867,0); (8770,0); (919,0); (951,0); (208,0); (208,0); (240,0); (240,0); (203,0); (203,0); (235,0); (235,0); (8364,0); (33,0); (8707,0); (8707,0); (8496,0); (8519,0); (8519,0); (8786,0); (1060,0); (1092,0); (9792,0); (64259,0); (64256,0); (64260,0); (120073,0); (120099,0); (64257,0); (9724,0); (9642,0); (102,106); (9837,0); (64258,0); (9649,0); (402,0); (120125,0); (120151,0); (8704,0); (8704,0); (8916,0); (10969,0); (8497,0)];
  [(10765,0); (189,0); (189,0); (8531,0); (188,0); (188,0); (8533,0); (8537,0); (8539,0); (8532,0); (8534,0); (190,0); (190,0); (8535,0); (8540,0); (8536,0); (8538,0); (8541,0); (8542,0); (8260,0); (8994,0); (8497,0); (119995,0); (501,0); (915,0); (947,0); (988,0); (989,0); (10886,0); (286,0); (287,0); (290,0); (284,0); (285,0); (1043,0); (1075,0); (288,0); (289,0); (8807,0); (8805,0); (10892,0); (8923,0); (8805,0); (8807,0); (10878,0); (10878,0); (10921,0); (10880,0); (10882,0); (10884,0); (8923,65024); (10900,0); (120074,0); (120100,0); (8921,0); (8811,0); (8921,0); (8503,0); (1027,0); (1107,0); (8823,0); (10917,0); (10898,0); (10916,0); (10890,0); (10890,0); (8809,0); (10888,0); (10888,0); (8809,0); (8935,0); (120126,0); (120152,0); (96,0); (8805,0); (8923,0); (8807,0); (10914,0); (8823,0); (10878,0); (8819,0); (119970,0); (8458,0); (8819,0); (10894,0); (10896,0); (62,0); (62,0); (8811,0); (62,0); (62,0); (10919,0); (10874,0); (8919,0); (10645,0); (10876,0); (10886,0); (10616,0); (8919,0); (8923,0); (10892,0); (8823,0); (8819,0); (8809,65024); (8809,65024); (711,0); (8202,0); (189,0); (8459,0); (1066,0); (1098,0); (8660,0); (8596,0); (10568,0); (8621,0); (94,0); (8463,0); (292,0); (293,0); (9829,0); (9829,0); (8230,0); (8889,0); (8460,0); (120101,0); (8459,0); (10533,0); (10534,0); (8703,0); (8763,0); (8617,0); (8618,0); (8461,0); (120153,0); (8213,0); (9472,0); (8459,0); (119997,0); (8463,0); (294,0); (295,0); (8782,0); (8783,0); (8259,0); (8208,0); (205,0); (205,0); (237,0); (237,0); (8291,0); (206,0); (206,0); (238,0); (238,0); (1048,0); (1080,0); (304,0); (1045,0); (1077,0); (161,0); (161,0); (8660,0); (8465,0); (120102,0); (204,0); (204,0); (236,0); (236,0); (8520,0); (10764,0); (8749,0); (10716,0); (8489,0); (306,0); (307,0); (8465,0); (298,0); (299,0); (8465,0); (8520,0); (8464,0); (8465,0); (305,0); (8887,0); (437,0); (8658,0); (8712,0); (8453,0); (8734,0); (10717,0); (305,0); (8748,0); (8747,0); (8890,0); (8484,0); (8747,0); (8890,0); (8898,0); (10775,0); (10812,0)];
  [(8291,0); (8290,0); (1025,0); (1105,0); (302,0); (303,0); (120128,0); (120154,0); (921,0); (953,0); (10812,0); (191,0); (191,0); (8464,0); (119998,0); (8712,0); (8949,0); (8953,0); (8948,0); (8947,0); (8712,0); (8290,0); (296,0); (297,0); (1030,0); (1110,0); (207,0); (207,0); (239,0); (239,0); (308,0); (309,0); (1049,0); (1081,0); (120077,0); (120103,0); (567,0); (120129,0); (120155,0); (119973,0); (119999,0); (1032,0); (1112,0); (1028,0); (1108,0); (922,0); (954,0); (1008,0); (310,0); (311,0); (1050,0); (1082,0); (120078,0); (120104,0); (312,0); (1061,0); (1093,0); (1036,0); (1116,0); (120130,0); (120156,0); (119974,0); (120000,0); (8666,0); (313,0); (314,0); (10676,0); (8466,0); (923,0); (955,0); (10218,0); (10216,0); (10641,0); (10216,0); (10885,0); (8466,0); (171,0); (171,0); (8606,0); (8656,0); (8592,0); (8676,0); (10527,0); (10525,0); (8617,0); (8619,0); (10553,0); (10611,0); (8610,0); (10923,0); (10523,0); (10521,0); (10925,0); (10925,65024); (10510,0); (10508,0); (10098,0); (123,0); (91,0); (10635,0); (10639,0); (10637,0); (317,0); (318,0); (315,0); (316,0); (8968,0); (123,0); (1051,0); (1083,0); (10550,0); (8220,0); (8222,0); (10599,0); (10571,0); (8626,0); (8806,0); (8804,0); (10216,0); (8592,0); (8656,0); (8592,0); (8676,0); (8646,0); (8610,0); (8968,0); (10214,0); (10593,0); (8643,0); (10585,0); (8970,0); (8637,0); (8636,0); (8647,0); (8596,0); (8660,0); (8596,0); (8646,0); (8651,0); (8621,0); (10574,0); (8867,0); (8612,0); (10586,0); (8907,0); (8882,0); (10703,0); (8884,0); (10577,0); (10592,0); (8639,0); (10584,0); (8636,0); (10578,0); (10891,0); (8922,0); (8804,0); (8806,0); (10877,0); (10877,0); (10920,0); (10879,0); (10881,0); (10883,0); (8922,65024); (10899,0); (10885,0); (8918,0); (8922,0); (10891,0); (8922,0); (8806,0); (8822,0); (8822,0); (10913,0); (8818,0); (10877,0); (8818,0); (10620,0); (8970,0); (120079,0); (120105,0); (8822,0); (10897,0); (10594,0); (8637,0); (8636,0); (10602,0); (9604,0); (1033,0); (1113,0); (8920,0); (8810,0); (8647,0); (8990,0); (8666,0); (10603,0); (9722,0); (319,0); (320,0)];
  [(9136,0); (9136,0); (10889,0); (10889,0); (8808,0); (10887,0); (10887,0); (8808,0); (8934,0); (10220,0); (8701,0); (10214,0); (10229,0); (10232,0); (10229,0); (10231,0); (10234,0); (10231,0); (10236,0); (10230,0); (10233,0); (10230,0); (8619,0); (8620,0); (10629,0); (120131,0); (120157,0); (10797,0); (10804,0); (8727,0); (95,0); (8601,0); (8600,0); (9674,0); (9674,0); (10731,0); (40,0); (10643,0); (8646,0); (8991,0); (8651,0); (10605,0); (8206,0); (8895,0); (8249,0); (8466,0); (120001,0); (8624,0); (8624,0); (8818,0); (10893,0); (10895,0); (91,0); (8216,0); (8218,0); (321,0); (322,0); (60,0); (60,0); (8810,0); (60,0); (60,0); (10918,0); (10873,0); (8918,0); (8907,0); (8905,0); (10614,0); (10875,0); (9667,0); (8884,0); (9666,0); (10646,0); (10570,0); (10598,0); (8808,65024); (8808,65024); (175,0); (175,0); (9794,0); (10016,0); (10016,0); (10501,0); (8614,0); (8614,0); (8615,0); (8612,0); (8613,0); (9646,0); (10793,0); (1052,0); (1084,0); (8212,0); (8762,0); (8737,0); (8287,0); (8499,0); (120080,0); (120106,0); (8487,0); (181,0); (181,0); (8739,0); (42,0); (10992,0); (183,0); (183,0); (8722,0); (8863,0); (8760,0); (10794,0); (8723,0); (10971,0); (8230,0); (8723,0); (8871,0); (120132,0); (120158,0); (8723,0); (8499,0); (120002,0); (8766,0); (924,0); (956,0); (8888,0); (8888,0); (8711,0); (323,0); (324,0); (8736,8402); (8777,0); (10864,824); (8779,824); (329,0); (8777,0); (9838,0); (9838,0); (8469,0); (160,0); (160,0); (8782,824); (8783,824); (10819,0); (327,0); (328,0); (325,0); (326,0); (8775,0); (10861,824); (10818,0); (1053,0); (1085,0); (8211,0); (8800,0); (10532,0); (8663,0); (8599,0); (8599,0); (8784,824); (8203,0); (8203,0); (8203,0); (8203,0); (8802,0); (10536,0); (8770,824); (8811,0); (8810,0); (10,0); (8708,0); (8708,0); (120081,0); (120107,0); (8807,824); (8817,0); (8817,0); (8807,824); (10878,824); (10878,824); (8921,824); (8821,0); (8811,8402); (8815,0); (8815,0); (8811,824); (8654,0); (8622,0); (10994,0); (8715,0); (8956,0); (8954,0); (8715,0); (1034,0); (1114,0); (8653,0); (8602,0); (8229,0); (8806,824); (8816,0); (8653,0)];
  [(8602,0); (8654,0); (8622,0); (8816,0); (8806,824); (10877,824); (10877,824); (8814,0); (8920,824); (8820,0); (8810,8402); (8814,0); (8938,0); (8940,0); (8810,824); (8740,0); (8288,0); (160,0); (8469,0); (120159,0); (10988,0); (172,0); (172,0); (8802,0); (8813,0); (8742,0); (8713,0); (8800,0); (8770,824); (8708,0); (8815,0); (8817,0); (8807,824); (8811,824); (8825,0); (10878,824); (8821,0); (8782,824); (8783,824); (8713,0); (8949,824); (8953,824); (8713,0); (8951,0); (8950,0); (8938,0); (10703,824); (8940,0); (8814,0); (8816,0); (8824,0); (8810,824); (10877,824); (8820,0); (10914,824); (10913,824); (8716,0); (8716,0); (8958,0); (8957,0); (8832,0); (10927,824); (8928,0); (8716,0); (8939,0); (10704,824); (8941,0); (8847,824); (8930,0); (8848,824); (8931,0); (8834,8402); (8840,0); (8833,0); (10928,824); (8929,0); (8831,824); (8835,8402); (8841,0); (8769,0); (8772,0); (8775,0); (8777,0); (8740,0); (8742,0); (8742,0); (11005,8421); (8706,824); (10772,0); (8832,0); (8928,0); (10927,824); (8832,0); (10927,824); (8655,0); (8603,0); (10547,824); (8605,824); (8655,0); (8603,0); (8939,0); (8941,0); (8833,0); (8929,0); (10928,824); (119977,0); (120003,0); (8740,0); (8742,0); (8769,0); (8772,0); (8772,0); (8740,0); (8742,0); (8930,0); (8931,0); (8836,0); (10949,824); (8840,0); (8834,8402); (8840,0); (10949,824); (8833,0); (10928,824); (8837,0); (10950,824); (8841,0); (8835,8402); (8841,0); (10950,824); (8825,0); (209,0); (209,0); (241,0); (241,0); (8824,0); (8938,0); (8940,0); (8939,0); (8941,0); (925,0); (957,0); (35,0); (8470,0); (8199,0); (8781,8402); (8879,0); (8878,0); (8877,0); (8876,0); (8805,8402); (62,8402); (10500,0); (10718,0); (10498,0); (8804,8402); (60,8402); (8884,8402); (10499,0); (8885,8402); (8764,8402); (10531,0); (8662,0); (8598,0); (8598,0); (10535,0); (211,0); (211,0); (243,0); (243,0); (8859,0); (8858,0); (212,0); (212,0); (244,0); (244,0); (1054,0); (1086,0); (8861,0); (336,0); (337,0); (10808,0); (8857,0); (10684,0); (338,0); (339,0); (10687,0); (120082,0); (120108,0); (731,0); (210,0); (210,0); (242,0); (242,0); (10689,0); (10677,0); (937,0); (8750,0); (8634,0); (10686,0)];
  [(10683,0); (8254,0); (10688,0); (332,0); (333,0); (937,0); (969,0); (927,0); (959,0); (10678,0); (8854,0); (120134,0); (120160,0); (10679,0); (8220,0); (8216,0); (10681,0); (8853,0); (10836,0); (8744,0); (8635,0); (10845,0); (8500,0); (8500,0); (170,0); (170,0); (186,0); (186,0); (8886,0); (10838,0); (10839,0); (10843,0); (9416,0); (119978,0); (8500,0); (216,0); (216,0); (248,0); (248,0); (8856,0); (213,0); (213,0); (245,0); (245,0); (10807,0); (8855,0); (10806,0); (214,0); (214,0); (246,0); (246,0); (9021,0); (8254,0); (9182,0); (9140,0); (9180,0); (8741,0); (182,0); (182,0); (8741,0); (10995,0); (11005,0); (8706,0); (8706,0); (1055,0); (1087,0); (37,0); (46,0); (8240,0); (8869,0); (8241,0); (120083,0); (120109,0); (934,0); (966,0); (981,0); (8499,0); (9742,0); (928,0); (960,0); (8916,0); (982,0); (8463,0); (8462,0); (8463,0); (43,0); (10787,0); (8862,0); (10786,0); (8724,0); (10789,0); (10866,0); (177,0); (177,0); (177,0); (10790,0); (10791,0); (177,0); (8460,0); (10773,0); (8473,0); (120161,0); (163,0); (163,0); (10939,0); (8826,0); (10935,0); (8828,0); (10931,0); (10927,0); (8826,0); (10935,0); (8828,0); (8826,0); (10927,0); (8828,0); (8830,0); (10927,0); (10937,0); (10933,0); (8936,0); (8830,0); (8243,0); (8242,0); (8473,0); (10937,0); (10933,0); (8936,0); (8719,0); (8719,0); (9006,0); (8978,0); (8979,0); (8733,0); (8759,0); (8733,0); (8733,0); (8830,0); (8880,0); (119979,0); (120005,0); (936,0); (968,0); (8200,0); (120084,0); (120110,0); (10764,0); (8474,0); (120162,0); (8279,0); (119980,0); (120006,0); (8461,0); (10774,0); (63,0); (8799,0); (34,0); (34,0); (34,0); (34,0); (8667,0); (8765,817); (340,0); (341,0); (8730,0); (10675,0); (10219,0); (10217,0); (10642,0); (10661,0); (10217,0); (187,0); (187,0); (8608,0); (8658,0); (8594,0); (10613,0); (8677,0); (10528,0); (10547,0); (10526,0); (8618,0); (8620,0); (10565,0); (10612,0); (10518,0); (8611,0); (8605,0); (10524,0); (10522,0); (8758,0); (8474,0); (10512,0); (10511,0); (10509,0); (10099,0); (125,0); (93,0); (10636,0); (10638,0)];
  [(10640,0); (344,0); (345,0); (342,0); (343,0); (8969,0); (125,0); (1056,0); (1088,0); (10551,0); (10601,0); (8221,0); (8221,0); (8627,0); (8476,0); (8476,0); (8475,0); (8476,0); (8477,0); (9645,0); (174,0); (174,0); (174,0); (174,0); (8715,0); (8651,0); (10607,0); (10621,0); (8971,0); (8476,0); (120111,0); (10596,0); (8641,0); (8640,0); (10604,0); (929,0); (961,0); (1009,0); (10217,0); (8594,0); (8658,0); (8594,0); (8677,0); (8644,0); (8611,0); (8969,0); (10215,0); (10589,0); (8642,0); (10581,0); (8971,0); (8641,0); (8640,0); (8644,0); (8652,0); (8649,0); (8605,0); (8866,0); (8614,0); (10587,0); (8908,0); (8883,0); (10704,0); (8885,0); (10575,0); (10588,0); (8638,0); (10580,0); (8640,0); (10579,0); (730,0); (8787,0); (8644,0); (8652,0); (8207,0); (9137,0); (9137,0); (10990,0); (10221,0); (8702,0); (10215,0); (10630,0); (8477,0); (120163,0); (10798,0); (10805,0); (10608,0); (41,0); (10644,0); (10770,0); (8649,0); (8667,0); (8250,0); (8475,0); (120007,0); (8625,0); (8625,0); (93,0); (8217,0); (8217,0); (8908,0); (8906,0); (9657,0); (8885,0); (9656,0); (10702,0); (10740,0); (10600,0); (8478,0); (346,0); (347,0); (8218,0); (10940,0); (8827,0); (10936,0); (352,0); (353,0); (8829,0); (10932,0); (10928,0); (350,0); (351,0); (348,0); (349,0); (10938,0); (10934,0); (8937,0); (10771,0); (8831,0); (1057,0); (1089,0); (8901,0); (8865,0); (10854,0); (10533,0); (8664,0); (8600,0); (8600,0); (167,0); (167,0); (59,0); (10537,0); (8726,0); (8726,0); (10038,0); (120086,0); (120112,0); (8994,0); (9839,0); (1065,0); (1097,0); (1064,0); (1096,0); (8595,0); (8592,0); (8739,0); (8741,0); (8594,0); (8593,0); (173,0); (173,0); (931,0); (963,0); (962,0); (962,0); (8764,0); (10858,0); (8771,0); (8771,0); (10910,0); (10912,0); (10909,0); (10911,0); (8774,0); (10788,0); (10610,0); (8592,0); (8728,0); (8726,0); (10803,0); (10724,0); (8739,0); (8995,0); (10922,0); (10924,0); (10924,65024); (1068,0); (1100,0); (47,0); (10692,0); (9023,0); (120138,0); (120164,0); (9824,0); (9824,0); (8741,0); (8851,0); (8851,65024); (8852,0); (8852,65024)];
  [(8730,0); (8847,0); (8849,0); (8847,0); (8849,0); (8848,0); (8850,0); (8848,0); (8850,0); (9633,0); (9633,0); (9633,0); (8851,0); (8847,0); (8849,0); (8848,0); (8850,0); (8852,0); (9642,0); (9642,0); (8594,0); (119982,0); (120008,0); (8726,0); (8995,0); (8902,0); (8902,0); (9734,0); (9733,0); (1013,0); (981,0); (175,0); (8912,0); (8834,0); (10941,0); (10949,0); (8838,0); (10947,0); (10945,0); (10955,0); (8842,0); (10943,0); (10617,0); (8912,0); (8834,0); (8838,0); (10949,0); (8838,0); (8842,0); (10955,0); (10951,0); (10965,0); (10963,0); (8827,0); (10936,0); (8829,0); (8827,0); (10928,0); (8829,0); (8831,0); (10928,0); (10938,0); (10934,0); (8937,0); (8831,0); (8715,0); (8721,0); (8721,0); (9834,0); (8913,0); (8835,0); (185,0); (185,0); (178,0); (178,0); (179,0); (179,0); (10942,0); (10968,0); (10950,0); (8839,0); (10948,0); (8835,0); (8839,0); (10185,0); (10967,0); (10619,0); (10946,0); (10956,0); (8843,0); (10944,0); (8913,0); (8835,0); (8839,0); (10950,0); (8843,0); (10956,0); (10952,0); (10964,0); (10966,0); (10534,0); (8665,0); (8601,0); (8601,0); (10538,0); (223,0); (223,0); (9,0); (8982,0); (932,0); (964,0); (9140,0); (356,0); (357,0); (354,0); (355,0); (1058,0); (1090,0); (8411,0); (8981,0); (120087,0); (120113,0); (8756,0); (8756,0); (8756,0); (920,0); (952,0); (977,0); (977,0); (8776,0); (8764,0); (8287,8202); (8201,0); (8201,0); (8776,0); (8764,0); (222,0); (222,0); (254,0); (254,0); (8764,0); (732,0); (8771,0); (8773,0); (8776,0); (215,0); (215,0); (8864,0); (10801,0); (10800,0); (8749,0); (10536,0); (8868,0); (9014,0); (10993,0); (120139,0); (120165,0); (10970,0); (10537,0); (8244,0); (8482,0); (8482,0); (9653,0); (9663,0); (9667,0); (8884,0); (8796,0); (9657,0); (8885,0); (9708,0); (8796,0); (10810,0); (8411,0); (10809,0); (10701,0); (10811,0); (9186,0); (119983,0); (120009,0); (1062,0); (1094,0); (1035,0); (1115,0); (358,0); (359,0); (8812,0); (8606,0); (8608,0); (218,0); (218,0); (250,0); (250,0); (8607,0); (8657,0); (8593,0); (10569,0); (1038,0); (1118,0); (364,0); (365,0)];
  [(219,0); (219,0); (251,0); (251,0); (1059,0); (1091,0); (8645,0); (368,0); (369,0); (10606,0); (10622,0); (120088,0); (120114,0); (217,0); (217,0); (249,0); (249,0); (10595,0); (8639,0); (8638,0); (9600,0); (8988,0); (8988,0); (8975,0); (9720,0); (362,0); (363,0); (168,0); (168,0); (95,0); (9183,0); (9141,0); (9181,0); (8899,0); (8846,0); (370,0); (371,0); (120140,0); (120166,0); (8593,0); (8657,0); (8593,0); (10514,0); (8645,0); (8597,0); (8661,0); (8597,0); (10606,0); (8639,0); (8638,0); (8846,0); (8598,0); (8599,0); (978,0); (965,0); (978,0); (933,0); (965,0); (8869,0); (8613,0); (8648,0); (8989,0); (8989,0); (8974,0); (366,0); (367,0); (9721,0); (119984,0); (120010,0); (8944,0); (360,0); (361,0); (9653,0); (9652,0); (8648,0); (220,0); (220,0); (252,0); (252,0); (10663,0); (10652,0); (1013,0); (1008,0); (8709,0); (981,0); (982,0); (8733,0); (8661,0); (8597,0); (1009,0); (962,0); (8842,65024); (10955,65024); (8843,65024); (10956,65024); (977,0); (8882,0); (8883,0); (10987,0); (10984,0); (10985,0); (1042,0); (1074,0); (8875,0); (8873,0); (8872,0); (8866,0); (10982,0); (8897,0); (8744,0); (8891,0); (8794,0); (8942,0); (8214,0); (124,0); (8214,0); (124,0); (8739,0); (124,0); (10072,0); (8768,0); (8202,0); (120089,0); (120115,0); (8882,0); (8834,8402); (8835,8402); (120141,0); (120167,0); (8733,0); (8883,0); (119985,0); (120011,0); (10955,65024); (8842,65024); (10956,65024); (8843,65024); (8874,0); (10650,0); (372,0); (373,0); (10847,0); (8896,0); (8743,0); (8793,0); (8472,0); (120090,0); (120116,0); (120142,0); (120168,0); (8472,0); (8768,0); (8768,0); (119986,0); (120012,0); (8898,0); (9711,0); (8899,0); (9661,0); (120091,0); (120117,0); (10234,0); (10231,0); (926,0); (958,0); (10232,0); (10229,0); (10236,0); (8955,0); (10752,0); (120143,0); (120169,0); (10753,0); (10754,0); (10233,0); (10230,0); (119987,0); (120013,0); (10758,0); (10756,0); (9651,0); (8897,0); (8896,0); (221,0); (221,0); (253,0); (253,0); (1071,0); (1103,0); (374,0); (375,0); (1067,0); (1099,0); (165,0); (165,0); (120092,0); (120118,0); (1031,0); (1111,0); (120144,0)];
  [(120170,0); (119988,0); (120014,0); (1070,0); (1102,0); (376,0); (255,0); (255,0); (377,0); (378,0); (381,0); (382,0); (1047,0); (1079,0); (379,0); (380,0); (8488,0); (8203,0); (918,0); (950,0); (8488,0); (120119,0); (1046,0); (1078,0); (8669,0); (8484,0); (120171,0); (119989,0); (120015,0); (8205,0); (8204,0)]
].
