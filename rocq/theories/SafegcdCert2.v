(* Certificate for the number of division steps: one polygon per remaining step count.  Entry r is
   (e, corners, offsets).  The corners are linear forms (a, b); a pair (f, g) is in set r when
   |a * f + b * g| < 2 ^ e for every corner.  The offsets tell the checker in Safegcd.v where to start
   each walk round the polygon.  Nothing here is trusted: Safegcd.v checks every entry. *)
Require Import ZArith List.
Import ListNotations.
Local Open Scope Z_scope.

(* No code modelled: data for /repo/src/modinv64_impl.h:688 (744 division steps suffice) *)
Definition cert_744 : list (Z * list (Z * Z) * list nat) :=
 [
  (10, [(-1,0); (0,-1024)], []%nat);
  (10, [(-1,0); (0,-1024)], []%nat);
  (10, [(0,-512); (512,-1024)], [0; 0; 3]%nat);
  (11, [(-512,512); (512,-2560)], [0; 0; 0]%nat);
  (11, [(-512,-512); (512,-1024)], [1; 0; 0; 0; 0]%nat);
  (11, [(-641,128); (641,-1885)], [0; 0; 0; 0; 3]%nat);
  (12, [(-512,-769); (512,-2135)], [0; 0; 1; 1; 0; 0; 3]%nat);
  (12, [(-943,-340); (943,-2227)], [0; 0; 0; 0; 0; 0; 3]%nat);
  (12, [(-534,-155); (534,-1530)], [0; 0; 0; 0; 1; 0; 0]%nat);
  (13, [(-1115,-773); (1115,-3593)], [0; 0; 0; 0; 0; 3; 3]%nat);
  (13, [(-766,-303); (766,-2117)], [0; 0; 0; 0; 0; 0; 3]%nat);
  (13, [(-899,-217); (899,-2652)], [0; 0; 0; 0; 0; 0; 0]%nat);
  (14, [(-1060,-474); (1060,-3124)], [0; 0; 0; 0; 1; 0; 3]%nat);
  (14, [(-1327,-472); (1327,-3529)], [0; 0; 0; 0; 0; 0; 3]%nat);
  (14, [(-781,-279); (781,-2253)], [0; 0; 0; 0; 0; 0; 0]%nat);
  (15, [(-1766,-890); (1766,-5256)], [0; 0; 0; 0; 0; 0; 3]%nat);
  (15, [(-1128,-436); (1128,-3188)], [0; 0; 0; 0; 0; 0; 3]%nat);
  (15, [(-1315,-452); (1315,-3845)], [0; 0; 0; 0; 0; 0; 0]%nat);
  (16, [(-1596,-663); (1596,-4622)], [0; 0; 0; 0; 0; 0; 3]%nat);
  (16, [(-1924,-708); (1924,-5367)], [0; 0; 0; 0; 0; 0; 3]%nat);
  (16, [(-1157,-441); (1157,-3335)], [0; 0; 0; 0; 0; 0; 0]%nat);
  (17, [(-2686,-1166); (2686,-7790)], [0; 0; 0; 0; 0; 0; 3]%nat);
  (17, [(-1669,-647); (1669,-4765)], [0; 0; 0; 0; 0; 0; 3]%nat);
  (17, [(-1949,-739); (1949,-5653)], [0; 0; 0; 0; 0; 0; 0]%nat);
  (18, [(-2385,-956); (2385,-6867)], [0; 0; 0; 0; 0; 0; 3]%nat);
  (18, [(-2829,-1073); (2829,-8039)], [0; 0; 0; 0; 0; 0; 3]%nat);
  (18, [(-1718,-669); (1718,-4946)], [0; 0; 0; 0; 0; 0; 0]%nat);
  (19, [(-4023,-1640); (4023,-11582)], [0; 0; 0; 0; 0; 0; 3]%nat);
  (19, [(-2473,-963); (2473,-7088)], [0; 0; 0; 0; 0; 0; 0]%nat);
  (20, [(-5797,-2257); (5797,-16726)], [0; 0; 0; 0; 0; 0; 0]%nat);
  (20, [(-3544,-1402); (3544,-10186)], [0; 0; 0; 0; 0; 0; 3]%nat);
  (20, [(-4182,-1616); (4182,-11967)], [0; 0; 0; 0; 0; 0; 0]%nat);
  (21, [(-5093,-1995); (5093,-14646)], [0; 0; 0; 0; 0; 0; 0]%nat);
  (21, [(-5989,-2383); (5989,-17212)], [0; 0; 0; 0; 0; 0; 3]%nat);
  (21, [(-3665,-1433); (3665,-10521)], [0; 0; 0; 0; 0; 0; 0]%nat);
  (22, [(-8614,-3375); (8614,-24795)], [0; 0; 0; 0; 0; 0; 0]%nat);
  (22, [(-5266,-2072); (5266,-15128)], [0; 0; 0; 0; 0; 0; 3]%nat);
  (22, [(-6205,-2418); (6205,-17801)], [0; 0; 0; 0; 0; 0; 0]%nat);
  (23, [(-7564,-2968); (7564,-21741)], [0; 0; 0; 0; 0; 0; 0]%nat);
  (23, [(-8909,-3513); (8909,-25593)], [0; 0; 0; 0; 0; 0; 3]%nat);
  (23, [(-5441,-2131); (5441,-15626)], [0; 0; 0; 0; 0; 0; 0]%nat);
  (24, [(-12809,-5026); (12809,-36828)], [0; 0; 0; 0; 0; 0; 0]%nat);
  (24, [(-7813,-3069); (7813,-22446)], [0; 0; 0; 0; 0; 0; 3]%nat);
  (24, [(-9216,-3606); (9216,-26464)], [0; 0; 0; 0; 0; 0; 0]%nat);
  (25, [(-11223,-4403); (11223,-32249)], [0; 0; 0; 0; 0; 0; 0]%nat);
  (25, [(-13245,-5205); (13245,-38048)], [0; 0; 0; 0; 0; 0; 3]%nat);
  (25, [(-8070,-3164); (8070,-23182)], [0; 0; 0; 0; 0; 0; 0]%nat);
  (26, [(-19043,-7473); (19043,-54725)], [0; 0; 0; 0; 0; 0; 0]%nat);
  (26, [(-11602,-4553); (11602,-33332)], [0; 0; 0; 0; 0; 0; 3]%nat);
  (26, [(-13695,-5367); (13695,-39338)], [0; 0; 0; 0; 0; 0; 0]%nat);
  (27, [(-16666,-6538); (16666,-47882)], [0; 0; 0; 0; 0; 0; 0]%nat);
  (27, [(-19688,-7729); (19688,-56560)], [0; 0; 0; 0; 0; 0; 3]%nat);
  (27, [(-11982,-4700); (11982,-34423)], [0; 0; 0; 0; 0; 0; 0]%nat);
  (28, [(-28280,-11096); (28280,-81256)], [0; 0; 0; 0; 0; 0; 0]%nat);
  (28, [(-17228,-6759); (8618,-38815); (17228,-27698)], [0; 0; 0; 0; 0; 0; 5]%nat);
  (29, [(-40628,-15932); (40628,-116714)], [0; 0; 0; 0; 0; 0; 0]%nat);
  (29, [(-19426,2174); (-17142,-16061); (3383,-44638); (19426,-41027)], [2; 1; 2; 1; 2; 1; 0]%nat);
  (29, [(-29207,-11461); (29207,-83907)], [0; 0; 0; 0; 0; 0; 3]%nat);
  (30, [(-22341,-17018); (8038,-58433); (22341,-60250)], [0; 0; 0; 0; 0; 0; 5]%nat);
  (30, [(-41994,-16477); (41994,-120653)], [0; 0; 0; 0; 0; 0; 0]%nat);
  (30, [(4259,-35139); (14616,-35995); (16089,5963)], [0; 5; 5; 5; 5; 5; 5]%nat);
  (31, [(-60385,-23685); (60385,-173478)], [0; 0; 0; 0; 0; 0; 0]%nat);
  (31, [(-18015,-11245); (2984,-41163); (18015,-44324)], [2; 1; 1; 1; 0; 0; 1]%nat);
  (31, [(-43412,-17032); (43412,-124716)], [0; 0; 0; 0; 0; 0; 3]%nat);
  (32, [(-22184,-13882); (-18015,-20253); (5628,-52949); (20602,-55831); (22184,-30486)], [2; 1; 4; 2; 2; 2; 9]%nat);
  (32, [(-62358,-24466); (62358,-179153)], [0; 0; 0; 0; 0; 0; 3]%nat);
  (32, [(-11092,-12487); (3474,-32627); (5068,-33237); (13250,-34117); (15382,3792)], [1; 0; 1; 0; 4; 2; 9]%nat);
  (33, [(-89664,-35174); (89664,-257596)], [0; 0; 0; 0; 0; 0; 0]%nat);
  (33, [(-17075,-9532); (4943,-40815); (16329,-42034); (17075,-36476)], [1; 1; 1; 0; 1; 0; 0]%nat);
  (33, [(-64462,-25290); (64462,-185192)], [0; 0; 0; 0; 0; 0; 3]%nat);
  (34, [(-17075,-17988); (4771,-48495); (20427,-51387); (22208,9781)], [1; 0; 1; 1; 1; 0; 7]%nat);
  (34, [(-92596,-36328); (92596,-266023)], [0; 0; 0; 0; 0; 0; 3]%nat);
  (34, [(-12859,-7588); (1553,-29127); (4501,-30596); (12136,-31631); (12859,-18131)], [2; 2; 1; 1; 2; 1; 0]%nat);
  (35, [(-133141,-52231); (133141,-382503)], [0; 0; 0; 0; 0; 0; 0]%nat);
  (35, [(-15831,-8465); (-12859,-14017); (3798,-37136); (14578,-40624); (15831,-34324)], [2; 1; 2; 2; 2; 1; 0]%nat);
  (35, [(-95719,-37552); (95719,-274991)], [0; 0; 0; 0; 0; 0; 3]%nat);
  (36, [(-20312,-10104); (5813,-46566); (18531,-48456); (20312,-31780)], [0; 0; 1; 0; 1; 1; 0]%nat);
  (36, [(-137630,-53995); (137630,-395400)], [0; 0; 0; 0; 0; 0; 3]%nat);
  (36, [(-12114,-6661); (2526,-27890); (11642,-29112); (12114,-17811)], [1; 0; 1; 1; 1; 1; 7]%nat);
  (37, [(-197700,-77560); (197700,-567975)], [0; 0; 0; 0; 0; 0; 0]%nat);
  (37, [(-12126,-12486); (3334,-34253); (13959,-36819); (15597,7161)], [1; 0; 1; 0; 1; 0; 7]%nat);
  (38, [(-284265,-111521); (284265,-816667)], [0; 0; 0; 0; 0; 0; 3]%nat);
  (38, [(-14570,-16022); (3584,-41976); (6249,-43023); (17143,-44755); (20844,5443)], [2; 2; 1; 1; 1; 0; 9]%nat);
  (38, [(-204167,-80098); (204167,-586554)], [0; 0; 0; 0; 0; 0; 3]%nat);
  (39, [(-22399,-11920); (-18427,-18732); (2724,-49901); (8019,-53225); (21008,-55850); (22399,-45862)], [3; 2; 3; 2; 2; 2; 1]%nat);
  (39, [(-293277,-115057); (293277,-842560)], [0; 0; 0; 0; 0; 0; 0]%nat);
  (39, [(-11200,-11560); (2983,-31370); (4688,-32508); (12487,-34736); (13319,-31931); (15494,4588)], [1; 0; 2; 1; 2; 1; 11]%nat);
  (40, [(-421280,-165274); (421280,-1210300)], [0; 0; 0; 0; 0; 0; 0]%nat);
  (40, [(-15402,-11949); (2296,-37907); (5786,-39779); (15566,-41531); (16270,-39424); (20021,1849)], [2; 1; 1; 1; 2; 1; 0]%nat);
  (40, [(-302870,-118821); (302870,-870120)], [0; 0; 0; 0; 0; 0; 3]%nat);
  (41, [(-20786,-10377); (-19214,-14049); (4846,-48466); (18972,-52320); (20786,-44235)], [2; 2; 2; 2; 2; 1; 1]%nat);
  (41, [(-435485,-170847); (435485,-1251110)], [0; 0; 0; 0; 0; 0; 0]%nat);
  (41, [(-11070,-9737); (3443,-29765); (12128,-31534); (15024,2233)], [0; 0; 1; 0; 1; 1; 7]%nat);
  (42, [(-625555,-245415); (625555,-1797165)], [0; 0; 0; 0; 0; 0; 3]%nat);
  (42, [(-15782,-8497); (1118,-33430); (4873,-36781); (14890,-37909); (15782,-23068)], [2; 2; 1; 1; 2; 1; 0]%nat);
  (42, [(-449730,-176436); (449730,-1292035)], [0; 0; 0; 0; 0; 0; 0]%nat);
  (43, [(-15782,-16388); (4253,-44353); (16731,-47956); (18408,-45470); (20081,8909)], [1; 0; 1; 1; 1; 0; 9]%nat);
  (43, [(-646648,-253690); (646648,-1857765)], [0; 0; 0; 0; 0; 0; 3]%nat);
  (43, [(-9487,-10161); (2229,-26789); (4101,-28100); (11099,-29040); (14023,2695)], [2; 1; 1; 1; 2; 1; 9]%nat);
  (44, [(-929790,-364769); (929790,-2671203)], [0; 0; 0; 0; 0; 0; 0]%nat);
  (44, [(1349,-32120); (5085,-34249); (13408,-35760); (14064,-33981); (15570,6353)], [1; 1; 1; 0; 0; 0; 9]%nat);
  (44, [(-668453,-262245); (668453,-1920407)], [0; 0; 0; 0; 0; 0; 3]%nat);
  (45, [(-17897,-10062); (3180,-40709); (16076,-45526); (17897,-38204)], [3; 1; 1; 1; 1; 1; 0]%nat);
  (45, [(-961141,-377070); (961141,-2761276)], [0; 0; 0; 0; 0; 0; 0]%nat);
  (45, [(-9560,-8354); (2518,-25468); (10187,-27378); (13741,15)], [1; 0; 2; 1; 1; 1; 7]%nat);
  (46, [(-1380638,-541644); (1380638,-3966451)], [0; 0; 0; 0; 0; 0; 0]%nat);
  (46, [(-13772,-6820); (8,-27531); (4181,-31682); (12746,-33198); (13702,-20713)], [2; 2; 1; 1; 4; 2; 0]%nat);
  (47, [(-1985162,-778810); (1985162,-5703197)], [0; 0; 0; 0; 0; 0; 3]%nat);
  (47, [(-13702,-13543); (3413,-37811); (13779,-41321); (15856,-39199); (18183,6403)], [1; 1; 1; 1; 1; 0; 9]%nat);
  (47, [(-1427192,-559909); (1427192,-4100198)], [0; 0; 0; 0; 0; 0; 0]%nat);
  (48, [(-16615,-17209); (3205,-46015); (6778,-47765); (18924,-49939); (24943,3109)], [2; 2; 1; 1; 2; 1; 9]%nat);
  (48, [(-2050099,-804285); (2050099,-5889756)], [0; 0; 0; 0; 0; 0; 3]%nat);
  (48, [(-12497,-6820); (778,-27301); (4306,-29551); (11515,-31337); (12497,-26263)], [2; 2; 2; 1; 1; 1; 0]%nat);
  (49, [(-2947754,-1156448); (2947754,-8468639)], [0; 0; 0; 0; 0; 0; 0]%nat);
  (49, [(-13132,-11862); (3410,-35224); (13651,-39396); (14776,-35714); (17769,3635)], [1; 0; 1; 1; 1; 1; 9]%nat);
  (49, [(-2119227,-831405); (2119227,-6088355)], [0; 0; 0; 0; 0; 0; 3]%nat);
  (50, [(-17509,-12517); (1819,-41031); (5937,-44100); (13664,-46266); (17629,-46061); (24079,-2081)], [2; 1; 1; 1; 2; 1; 0]%nat);
  (50, [(-3047150,-1195443); (3047150,-8754197)], [0; 0; 0; 0; 0; 0; 0]%nat);
  (50, [(-521,-23582); (3132,-26923); (10268,-28983); (11036,-27165); (13697,2823)], [1; 1; 1; 1; 1; 0; 9]%nat);
  (51, [(-4381373,-1718878); (4381373,-12587301)], [0; 0; 0; 0; 0; 0; 0]%nat);
  (51, [(-13404,-9013); (1413,-31659); (11803,-36451); (13475,-34154); (16647,290)], [3; 1; 1; 1; 1; 1; 0]%nat);
  (51, [(-3149898,-1235753); (3149898,-9049383)], [0; 0; 0; 0; 0; 0; 3]%nat);
  (52, [(-18243,-8104); (-13596,-15296); (4511,-40367); (15845,-44706); (18243,-31101)], [2; 1; 4; 2; 2; 1; 0]%nat);
  (52, [(-4529110,-1776838); (4529110,-13011738)], [0; 0; 0; 0; 0; 0; 0]%nat);
  (52, [(-7949,-10244); (2217,-24612); (7922,-26314); (10102,-25789); (13628,476)], [1; 0; 1; 1; 3; 1; 9]%nat);
  (53, [(-6512222,-2554844); (6512222,-18709046)], [0; 0; 0; 0; 0; 0; 3]%nat);
  (53, [(-12871,-7654); (238,-27997); (5127,-31295); (12318,-32516); (14616,-8602)], [2; 2; 1; 1; 2; 1; 0]%nat);
  (53, [(-4681829,-1836752); (4681829,-13450487)], [0; 0; 0; 0; 0; 0; 0]%nat);
  (54, [(-12907,-13770); (3831,-37259); (14012,-41560); (15663,-36724); (17743,6037)], [1; 0; 1; 1; 1; 0; 9]%nat);
  (54, [(-6731811,-2640991); (6731811,-19339905)], [0; 0; 0; 0; 0; 0; 3]%nat);
  (54, [(-10400,-3626); (-8925,-7116); (1511,-22292); (5673,-24367); (9324,-24137); (10400,-17175)], [2; 2; 2; 2; 3; 2; 1]%nat);
  (55, [(-9679396,-3797374); (9679396,-27808059)], [0; 0; 0; 0; 0; 0; 3]%nat);
  (55, [(-12195,-6400); (-8596,-12224); (3499,-28536); (11157,-30446); (12195,-25229)], [1; 1; 2; 2; 2; 1; 9]%nat);
  (56, [(-13917608,-5460089); (13917608,-39984074)], [0; 0; 0; 0; 0; 0; 3]%nat);
  (56, [(-12440,-12122); (3203,-34023); (6118,-35563); (14246,-36307); (17292,3408)], [1; 1; 0; 0; 2; 1; 9]%nat);
  (56, [(-10005780,-3925419); (10005780,-28745734)], [0; 0; 0; 0; 0; 0; 0]%nat);
  (57, [(-18171,-10386); (1706,-39735); (6067,-43105); (17028,-44672); (18171,-39446)], [2; 1; 1; 1; 1; 1; 0]%nat);
  (57, [(-14372867,-5638693); (14372867,-41291992)], [0; 0; 0; 0; 0; 0; 0]%nat);
  (57, [(-9237,-9506); (2599,-25986); (9943,-28123); (10787,-26287); (12011,4305)], [1; 1; 1; 1; 1; 0; 9]%nat);
  (58, [(-20645996,-8099738); (20645996,-59314145)], [0; 0; 0; 0; 0; 0; 3]%nat);
  (58, [(-13021,-8823); (2155,-30509); (4758,-32765); (13006,-33814); (16147,-52)], [2; 1; 1; 1; 2; 1; 0]%nat);
  (58, [(-14843017,-5823141); (14843017,-42642694)], [0; 0; 0; 0; 0; 0; 0]%nat);
  (59, [(-13156,-15017); (4416,-39315); (15269,-41494); (16398,-39670); (18051,7347)], [1; 0; 1; 1; 1; 0; 9]%nat);
  (59, [(-21342169,-8372856); (21342169,-61314188)], [0; 0; 0; 0; 0; 0; 0]%nat);
  (59, [(-9831,-6821); (1839,-23584); (3758,-24443); (9838,-25095); (11402,1362)], [2; 1; 2; 1; 2; 1; 0]%nat);
  (60, [(-30657094,-12027244); (30657094,-88075157)], [0; 0; 0; 0; 0; 0; 3]%nat);
  (60, [(-12560,-7135); (-9927,-11450); (3414,-29923); (11804,-31729); (12560,-27240)], [2; 1; 2; 2; 2; 1; 0]%nat);
  (60, [(-22040292,-8646741); (22040292,-63319836)], [0; 0; 0; 0; 0; 0; 0]%nat);
  (61, [(-12560,-13415); (3571,-35857); (5731,-37065); (14976,-38094); (17717,4617)], [1; 0; 2; 1; 2; 1; 9]%nat);
  (61, [(-31659918,-12420666); (31659918,-90956183)], [0; 0; 0; 0; 0; 0; 0]%nat);
  (61, [(-9533,-5507); (1155,-21200); (3357,-22643); (8973,-23345); (9533,-21020)], [2; 1; 1; 1; 2; 1; 0]%nat);
  (62, [(-45522504,-17859168); (45522504,-130782181)], [0; 0; 0; 0; 0; 0; 0]%nat);
  (62, [(-11684,-6280); (-10023,-9542); (2756,-27353); (10610,-29519); (11684,-26187)], [2; 2; 2; 2; 2; 1; 0]%nat);
  (62, [(-32727474,-12839485); (32727474,-94023179)], [0; 0; 0; 0; 0; 0; 3]%nat);
  (63, [(-13094,-10274); (3140,-32788); (4771,-34359); (13677,-35518); (16900,1561)], [1; 0; 1; 1; 2; 1; 9]%nat);
  (63, [(-47057499,-18461370); (47057499,-135192089)], [0; 0; 0; 0; 0; 0; 0]%nat);
  (63, [(-3275,-13497); (2571,-20820); (8580,-21515); (9495,3862)], [1; 1; 1; 0; 1; 0; 7]%nat);
  (64, [(-67662056,-26544851); (67662056,-194387184)], [0; 0; 0; 0; 0; 0; 3]%nat);
  (64, [(-10768,-6409); (1225,-24511); (6755,-26822); (10420,-26113); (10768,-15127)], [3; 2; 1; 1; 1; 1; 0]%nat);
  (65, [(-97288508,-38167757); (97288508,-279501395)], [0; 0; 0; 0; 0; 0; 0]%nat);
  (65, [(-13424,-7174); (-10768,-11793); (3208,-31180); (12267,-34350); (13424,-26749)], [2; 1; 4; 2; 2; 2; 0]%nat);
  (65, [(-69943586,-27439930); (69943586,-200941822)], [0; 0; 0; 0; 0; 0; 3]%nat);
  (66, [(-13069,-14326); (3591,-37646); (5902,-39264); (15521,-41107); (20590,1630)], [1; 0; 1; 1; 3; 2; 9]%nat);
  (66, [(-100470911,-39416261); (100470911,-288644161)], [0; 0; 0; 0; 0; 0; 0]%nat);
  (66, [(-10310,-5344); (408,-21834); (3585,-23837); (9421,-24668); (9826,-23569); (10287,-15324)], [2; 2; 1; 1; 1; 1; 0]%nat);
  (67, [(-144463020,-56675034); (144463020,-415029652)], [0; 0; 0; 0; 0; 0; 3]%nat);
  (67, [(-12334,-6951); (-10277,-10383); (2672,-28636); (10917,-31935); (12334,-27196)], [2; 1; 2; 2; 2; 1; 9]%nat);
  (67, [(-103757413,-40705607); (103757413,-298085996)], [0; 0; 0; 0; 0; 0; 3]%nat);
  (68, [(-13418,-11506); (3479,-35129); (5197,-36164); (14258,-38166); (19460,-1764)], [1; 0; 1; 0; 2; 1; 9]%nat);
  (68, [(-149042998,-58471828); (149042998,-428187530)], [0; 0; 0; 0; 0; 0; 0]%nat);
  (68, [(-441,-19038); (2879,-22069); (8791,-22890); (9050,-21947); (10696,2921)], [1; 1; 1; 0; 0; 0; 9]%nat);
  (69, [(-214302841,-84074255); (214302841,-615673364)], [0; 0; 0; 0; 0; 0; 3]%nat);
  (69, [(-10594,-7952); (1462,-25799); (9528,-29468); (11045,-27372); (12277,4420)], [3; 2; 1; 1; 1; 1; 0]%nat);
  (69, [(-153918341,-60384500); (153918341,-442193966)], [0; 0; 0; 0; 0; 0; 3]%nat);
  (70, [(-14748,-6784); (-10984,-12626); (3479,-32999); (12912,-35809); (14748,-25171)], [2; 2; 4; 2; 2; 2; 0]%nat);
  (70, [(-221312898,-86824406); (221312898,-635812647)], [0; 0; 0; 0; 0; 0; 0]%nat);
  (70, [(-6696,-7897); (1698,-19855); (4263,-20940); (8258,-21291); (10434,1405)], [1; 0; 1; 1; 3; 2; 9]%nat);
  (71, [(-318216779,-124841269); (318216779,-914209043)], [0; 0; 0; 0; 0; 0; 3]%nat);
  (71, [(-10656,-5892); (703,-22998); (3952,-25262); (9937,-26412); (10656,-21772)], [2; 2; 1; 1; 2; 1; 0]%nat);
  (71, [(-228775456,-89752081); (228775456,-657251927)], [0; 0; 0; 0; 0; 0; 0]%nat);
  (72, [(-10646,-11193); (2946,-30150); (11499,-33091); (12631,-29989); (14555,4285)], [1; 0; 1; 1; 1; 0; 9]%nat);
  (72, [(-328625964,-128924949); (328625964,-944113721)], [0; 0; 0; 0; 0; 0; 0]%nat);
  (72, [(-6609,-6642); (1072,-17786); (2801,-19059); (7545,-19686); (9946,1039)], [2; 1; 1; 1; 2; 1; 0]%nat);
  (73, [(-472517854,-185375922); (472517854,-1357502570)], [0; 0; 0; 0; 0; 0; 3]%nat);
  (73, [(520,-21471); (3324,-23204); (8902,-24559); (9539,-23009); (10536,4183)], [1; 1; 1; 0; 0; 0; 9]%nat);
  (74, [(-679414128,-266544466); (679414128,-1951897516)], [0; 0; 0; 0; 0; 0; 0]%nat);
  (74, [(-11347,-8028); (2094,-27373); (10746,-31197); (11613,-28185); (13817,1496)], [3; 2; 1; 1; 1; 1; 0]%nat);
  (74, [(-488450916,-191626702); (488450916,-1403276867)], [0; 0; 0; 0; 0; 0; 3]%nat);
  (75, [(-15614,-5899); (-13300,-10877); (4018,-34770); (13628,-37341); (15614,-25328)], [2; 1; 4; 2; 2; 2; 0]%nat);
  (75, [(-702323627,-275532210); (702323627,-2017714506)], [0; 0; 0; 0; 0; 0; 0]%nat);
  (75, [(-6351,-9273); (1476,-20058); (2722,-21479); (8701,-22081); (10717,2015)], [1; 1; 2; 1; 3; 2; 9]%nat);
  (76, [(-1009842465,-396176515); (1009842465,-2901189298)], [0; 0; 0; 0; 0; 0; 3]%nat);
  (76, [(1008,-24480); (4641,-26637); (10039,-27161); (10750,-26801); (11631,5544)], [1; 0; 0; 0; 1; 0; 9]%nat);
  (76, [(-726005623,-284823017); (726005623,-2085750814)], [0; 0; 0; 0; 0; 0; 0]%nat);
  (77, [(-13594,-7819); (-11051,-11893); (2775,-31609); (12252,-34738); (13594,-29723)], [4; 2; 2; 2; 2; 1; 1]%nat);
  (77, [(-1043893840,-409535386); (1043893840,-2999015929)], [0; 0; 0; 0; 0; 0; 3]%nat);
  (77, [(-7114,-6839); (1957,-19477); (2976,-19990); (7910,-20952); (10247,353)], [1; 0; 3; 2; 2; 1; 9]%nat);
  (78, [(-1500972328,-588854207); (1500972328,-4312162545)], [0; 0; 0; 0; 0; 0; 0]%nat);
  (78, [(-10486,-5423); (177,-21044); (3423,-24510); (9748,-25326); (10486,-21675)], [2; 1; 1; 1; 4; 2; 0]%nat);
  (78, [(-1079093410,-423344711); (1079093410,-3100141221)], [0; 0; 0; 0; 0; 0; 3]%nat);
  (79, [(-10848,-10144); (2714,-29135); (10532,-31242); (12267,-29948); (13526,5302)], [1; 1; 1; 1; 1; 0; 9]%nat);
  (79, [(-1551584351,-608710073); (1551584351,-4457566474)], [0; 0; 0; 0; 0; 0; 0]%nat);
  (79, [(-7818,-4280); (1,-16475); (2538,-18474); (7291,-19156); (7818,-12912)], [2; 2; 1; 1; 2; 1; 0]%nat);
  (80, [(-2230959783,-875239357); (2230959783,-6409352815)], [0; 0; 0; 0; 0; 0; 0]%nat);
  (80, [(-7494,-8532); (2142,-22078); (8246,-24735); (9246,-22657); (10309,3794)], [1; 1; 1; 1; 1; 0; 9]%nat);
  (80, [(-1603902987,-629235468); (1603902987,-4607873349)], [0; 0; 0; 0; 0; 0; 3]%nat);
  (81, [(-12380,-4129); (-11265,-7387); (1899,-26335); (4270,-27813); (10936,-29564); (12380,-20631)], [3; 3; 2; 2; 3; 2; 1]%nat);
  (81, [(-2306186613,-904751984); (2306186613,-6625472936)], [0; 0; 0; 0; 0; 0; 0]%nat);
  (81, [(-5276,-7075); (1849,-16822); (6590,-17870); (6960,-16606); (8464,1779)], [0; 0; 1; 1; 1; 0; 9]%nat);
  (82, [(-3315971562,-1300905935); (3315971562,-9526496995)], [0; 0; 0; 0; 0; 0; 3]%nat);
  (82, [(-7398,-7248); (890,-19616); (3541,-21185); (8419,-21556); (10018,2583)], [2; 1; 1; 1; 2; 1; 0]%nat);
  (83, [(-4767900107,-1870519524); (4767900107,-13697761033)], [0; 0; 0; 0; 0; 0; 3]%nat);
  (83, [(-10789,-6126); (1293,-23934); (3628,-25693); (9818,-27671); (10789,-24022)], [2; 1; 2; 2; 1; 1; 0]%nat);
  (83, [(-3427784438,-1344771821); (3427784438,-9847725633)], [0; 0; 0; 0; 0; 0; 0]%nat);
  (84, [(-11782,-10074); (3066,-30797); (11979,-33348); (12859,-31314); (16240,869)], [1; 0; 1; 1; 1; 1; 9]%nat);
  (84, [(-4928671276,-1933592491); (4928671276,-14159642573)], [0; 0; 0; 0; 0; 0; 3]%nat);
  (84, [(-7766,-5226); (217,-16908); (2521,-19356); (7707,-20051); (9563,320)], [2; 1; 2; 1; 2; 1; 0]%nat);
  (85, [(-7086735174,-2780233689); (7086735174,-20359571873)], [0; 0; 0; 0; 0; 0; 3]%nat);
  (85, [(-7836,-8953); (2616,-23394); (8462,-24952); (9687,-24015); (10740,4252)], [1; 0; 1; 1; 1; 0; 9]%nat);
  (85, [(-5094863567,-1998792247); (5094863567,-14637098526)], [0; 0; 0; 0; 0; 0; 0]%nat);
  (86, [(-12488,-6656); (980,-27278); (4481,-29130); (11708,-29888); (12488,-20524)], [2; 1; 2; 1; 2; 1; 0]%nat);
  (86, [(-7325696284,-2873981756); (7325696284,-21046086291)], [0; 0; 0; 0; 0; 0; 3]%nat);
  (86, [(-7479,-4240); (-6010,-6692); (1666,-17497); (6826,-19498); (7479,-16518)], [2; 1; 2; 2; 2; 2; 9]%nat);
  (87, [(-10533319555,-4132381014); (10533319555,-30261308102)], [0; 0; 0; 0; 0; 0; 3]%nat);
  (87, [(-7900,-7395); (2122,-21339); (3349,-22080); (8699,-23358); (11882,-78)], [1; 1; 1; 0; 2; 1; 9]%nat);
  (87, [(-7565327026,-2967992530); (7565327026,-21734524507)], [0; 0; 0; 0; 0; 0; 0]%nat);
  (88, [(-11957,-5402); (-39,-23748); (3701,-26919); (10951,-27825); (11690,-17656)], [2; 2; 1; 1; 1; 1; 0]%nat);
  (88, [(-10877874814,-4267555267); (10877874814,-31251185300)], [0; 0; 0; 0; 0; 0; 3]%nat);
  (88, [(-5845,-5785); (1352,-16024); (5943,-17867); (6736,-16504); (7418,3272)], [1; 0; 1; 1; 1; 1; 9]%nat);
  (89, [(-15625592650,-6130156978); (15625592650,-44890964427)], [0; 0; 0; 0; 0; 0; 0]%nat);
  (89, [(-8942,-4039); (-6963,-7480); (1638,-19763); (2895,-20387); (8020,-21353); (8942,-14929)], [3; 3; 2; 1; 3; 2; 0]%nat);
  (89, [(-11233700815,-4407151203); (11233700815,-32273442355)], [0; 0; 0; 0; 0; 0; 3]%nat);
  (90, [(-8260,-9355); (2021,-23966); (3744,-25171); (9891,-26394); (10203,-24815); (11763,3601)], [1; 1; 2; 1; 1; 0; 11]%nat);
  (90, [(-16152479694,-6336862758); (16152479694,-46404664937)], [0; 0; 0; 0; 0; 0; 3]%nat);
  (90, [(-5945,-4478); (901,-14478); (2341,-15291); (5997,-15969); (6299,-15149); (7304,2044)], [2; 2; 1; 1; 2; 1; 0]%nat);
  (91, [(-23224990996,-9111516204); (23224990996,-66723372865)], [0; 0; 0; 0; 0; 0; 0]%nat);
  (91, [(-7992,-4013); (-7436,-5390); (1023,-17691); (2241,-18625); (7246,-19934); (7992,-16886)], [3; 3; 3; 3; 2; 2; 1]%nat);
  (92, [(-33394266204,-13101077098); (33394266204,-95938813317)], [0; 0; 0; 0; 0; 0; 3]%nat);
  (92, [(-8329,-7790); (2698,-22979); (8854,-24514); (9322,-23478); (11375,1763)], [0; 0; 1; 0; 1; 1; 9]%nat);
  (92, [(-24008125891,-9418751901); (24008125891,-68973251093)], [0; 0; 0; 0; 0; 0; 3]%nat);
  (93, [(-12269,-6193); (882,-25419); (3899,-28371); (11490,-29245); (12269,-19082)], [2; 1; 1; 1; 2; 1; 0]%nat);
  (93, [(-34520303892,-13542838761); (34520303892,-99173821353)], [0; 0; 0; 0; 0; 0; 0]%nat);
  (93, [(-5875,-6393); (1550,-16930); (6361,-18200); (7100,-17396); (7758,3509)], [1; 0; 1; 1; 1; 0; 9]%nat);
  (94, [(-49635335394,-19472694859); (49635335394,-142597988145)], [0; 0; 0; 0; 0; 0; 3]%nat);
  (94, [(-7318,-7842); (1756,-20800); (3200,-21360); (8473,-22317); (10513,2469)], [2; 1; 1; 1; 2; 1; 0]%nat);
  (94, [(-35684310998,-13999496403); (35684310998,-102517912216)], [0; 0; 0; 0; 0; 0; 0]%nat);
  (95, [(-11169,-5793); (-8706,-9861); (1236,-24754); (3925,-26425); (10410,-27715); (11169,-22162)], [3; 2; 3; 2; 2; 2; 0]%nat);
  (95, [(-51258956108,-20109665888); (51258956108,-147262508804)], [0; 0; 0; 0; 0; 0; 0]%nat);
  (95, [(-5585,-5689); (1450,-15529); (2468,-16117); (6195,-17346); (6613,-15909); (7676,2277)], [1; 0; 2; 1; 2; 1; 11]%nat);
  (96, [(-73631254402,-28886657814); (73631254402,-211536169928)], [0; 0; 0; 0; 0; 0; 3]%nat);
  (96, [(-7717,-5807); (1140,-18786); (2847,-19723); (7683,-20764); (8066,-19258); (10219,394)], [2; 2; 1; 1; 2; 1; 0]%nat);
  (96, [(-52935687055,-20767472869); (52935687055,-152079610528)], [0; 0; 0; 0; 0; 0; 0]%nat);
  (97, [(-9068,-7659); (197,-21050); (2906,-24168); (9402,-25924); (9871,-23914); (11573,2607)], [2; 2; 2; 2; 2; 1; 11]%nat);
  (97, [(-76039805264,-29831568846); (76039805264,-218455726421)], [0; 0; 0; 0; 0; 0; 3]%nat);
  (97, [(-5801,-4251); (652,-13541); (1917,-14827); (5268,-15606); (6048,-15235); (7432,1097)], [2; 1; 2; 1; 2; 1; 0]%nat);
  (98, [(-109334531046,-42893594727); (109334531046,-314108568789)], [0; 0; 0; 0; 0; 0; 0]%nat);
  (98, [(-7811,-4220); (549,-16526); (2128,-17996); (6777,-19026); (7421,-18424); (7811,-12886)], [2; 1; 2; 2; 2; 1; 0]%nat);
  (98, [(-78603828860,-30837474189); (78603828860,-225821942513)], [0; 0; 0; 0; 0; 0; 0]%nat);
  (99, [(-7625,-8295); (2112,-21973); (8271,-23714); (9007,-22760); (10726,3127)], [1; 1; 1; 1; 1; 1; 9]%nat);
  (99, [(-113021235877,-44339944946); (113021235877,-324700150122)], [0; 0; 0; 0; 0; 0; 3]%nat);
  (99, [(-4610,-5123); (783,-13084); (2076,-13860); (5499,-14382); (6906,1309)], [2; 1; 1; 1; 2; 1; 9]%nat);
  (100, [(-162508620056,-63754596299); (162508620056,-466873087336)], [0; 0; 0; 0; 0; 0; 3]%nat);
  (100, [(-7198,-3891); (655,-15791); (2564,-16921); (6548,-18078); (6937,-16654); (7198,-10585)], [2; 2; 2; 1; 1; 1; 0]%nat);
  (100, [(-116832254521,-45835065359); (116832254521,-335648874195)], [0; 0; 0; 0; 0; 0; 0]%nat);
  (101, [(-7957,-6344); (1947,-20252); (7903,-22398); (8469,-20273); (10454,1118)], [1; 1; 1; 1; 1; 1; 9]%nat);
  (101, [(-167988328149,-65904368890); (167988328149,-482615810609)], [0; 0; 0; 0; 0; 0; 0]%nat);
  (102, [(-9680,-7772); (560,-22607); (3175,-25455); (10104,-26767); (13415,57)], [2; 2; 2; 1; 2; 2; 9]%nat);
  (102, [(-241543557556,-94761200946); (241543557556,-693933567358)], [0; 0; 0; 0; 0; 0; 3]%nat);
  (102, [(-750,-12658); (1945,-15524); (5657,-16411); (6370,-15932); (7379,2358)], [1; 0; 1; 0; 1; 0; 9]%nat);
  (103, [(-346966783679,-136120331433); (346966783679,-996805298350)], [0; 0; 0; 0; 0; 0; 3]%nat);
  (103, [(-8206,-4401); (-6692,-6758); (1179,-18295); (6329,-20487); (7762,-19396); (8206,-13302)], [5; 2; 2; 2; 2; 2; 1]%nat);
  (103, [(-249444685256,-97860933173); (249444685256,-716632817907)], [0; 0; 0; 0; 0; 0; 0]%nat);
  (104, [(-10254,-4908); (-7974,-8766); (2203,-23036); (3382,-23544); (9156,-25109); (10254,-18090)], [2; 1; 5; 3; 3; 2; 0]%nat);
  (104, [(-358666327322,-140710239841); (358666327322,-1030417066504)], [0; 0; 0; 0; 0; 0; 0]%nat);
  (104, [(-6283,-2882); (-4854,-5343); (1228,-13949); (2194,-14563); (5765,-15089); (6283,-11829)], [2; 2; 2; 2; 5; 3; 0]%nat);
  (105, [(-515711666585,-202321508229); (515711666585,-1481594624770)], [0; 0; 0; 0; 0; 0; 3]%nat);
  (105, [(-5920,-6658); (1442,-16905); (2674,-17740); (6981,-18486); (7289,-17474); (8137,3032)], [1; 1; 1; 0; 1; 1; 11]%nat);
  (105, [(-370760373630,-145454917629); (370760373630,-1065162206403)], [0; 0; 0; 0; 0; 0; 0]%nat);
  (106, [(-8491,-6411); (1517,-20842); (3332,-21848); (8461,-22495); (8879,-21283); (10081,2885)], [2; 2; 1; 1; 1; 1; 0]%nat);
  (106, [(-533101201935,-209143686680); (533101201935,-1531553242674)], [0; 0; 0; 0; 0; 0; 3]%nat);
  (106, [(-4373,-5110); (722,-12257); (1604,-13312); (5216,-14128); (5467,-13067); (6008,2454)], [2; 2; 2; 2; 1; 1; 11]%nat);
  (107, [(-765776621337,-300425782533); (765776621337,-2200009422823)], [0; 0; 0; 0; 0; 0; 3]%nat);
  (107, [(-6414,-4649); (1228,-15712); (2557,-16427); (6134,-16958); (6663,-16776); (7920,1718)], [2; 2; 2; 1; 2; 1; 0]%nat);
  (107, [(-550539467381,-215984982688); (550539467381,-1581651857900)], [0; 0; 0; 0; 0; 0; 0]%nat);
  (108, [(-8487,-4848); (860,-18435); (2327,-19821); (7864,-21133); (8487,-18367)], [2; 1; 2; 2; 2; 1; 0]%nat);
  (108, [(-790825928950,-310253005812); (790825928950,-2271973898162)], [0; 0; 0; 0; 0; 0; 0]%nat);
  (108, [(-4368,-4333); (1213,-12135); (4613,-12979); (4960,-12551); (5959,1309)], [1; 1; 1; 1; 1; 1; 9]%nat);
  (109, [(-1135986949081,-445664908819); (1135986949081,-3263591395382)], [0; 0; 0; 0; 0; 0; 3]%nat);
  (109, [(-5288,-5227); (655,-13895); (2169,-15250); (6073,-15792); (7418,1841)], [2; 1; 1; 1; 2; 1; 0]%nat);
  (109, [(-815897848846,-320089100236); (815897848846,-2344003336621)], [0; 0; 0; 0; 0; 0; 0]%nat);
  (110, [(-7904,-4351); (921,-17615); (6452,-20290); (7632,-18555); (7904,-11553)], [1; 1; 1; 1; 1; 1; 0]%nat);
  (110, [(-1173146201190,-460243046988); (1173146201190,-3370346684727)], [0; 0; 0; 0; 0; 0; 0]%nat);
  (111, [(-10155,-4602); (-7904,-8206); (2178,-22356); (8816,-24605); (10155,-17548)], [2; 1; 2; 2; 2; 2; 0]%nat);
  (111, [(-1686819019456,-661764684099); (1686819019456,-4846083876153)], [0; 0; 0; 0; 0; 0; 3]%nat);
  (111, [(-4391,-5774); (1152,-13620); (2054,-14072); (5581,-14722); (7323,617)], [1; 0; 1; 1; 2; 1; 9]%nat);
  (112, [(-2425408189969,-951524417340); (2425408189969,-6967986124733)], [0; 0; 0; 0; 0; 0; 0]%nat);
  (112, [(-7368,-3903); (309,-15587); (2890,-17460); (6817,-18144); (7043,-17017); (7368,-10932)], [2; 1; 1; 1; 1; 1; 0]%nat);
  (112, [(-1743697699671,-684079052984); (1743697699671,-5009491362023)], [0; 0; 0; 0; 0; 0; 0]%nat);
  (113, [(-7368,-7489); (1953,-20611); (7801,-22785); (8739,-20430); (9924,3247)], [1; 1; 1; 1; 1; 0; 9]%nat);
  (113, [(-2507191721716,-983609337196); (2507191721716,-7202943076224)], [0; 0; 0; 0; 0; 0; 3]%nat);
  (113, [(-5702,-2689); (-4540,-4553); (813,-12371); (1874,-12997); (5153,-13556); (5702,-9297)], [3; 3; 2; 2; 3; 2; 1]%nat);
  (114, [(-3601471538112,-1412911905320); (3601471538112,-10346713518149)], [0; 0; 0; 0; 0; 0; 0]%nat);
  (114, [(-5112,-6191); (1346,-15453); (2279,-15925); (6192,-16947); (6505,-15763); (7400,2553)], [1; 0; 2; 1; 1; 0; 11]%nat);
  (114, [(-2589204432642,-1015784167519); (2589204432642,-7438558439506)], [0; 0; 0; 0; 0; 0; 0]%nat);
  (115, [(-6785,-6924); (1278,-18648); (3099,-19530); (7734,-20508); (7970,-19348); (9718,2170)], [2; 1; 1; 1; 2; 1; 0]%nat);
  (115, [(-3719279219753,-1459129645531); (3719279219753,-10685164709355)], [0; 0; 0; 0; 0; 0; 3]%nat);
  (115, [(-5132,-2735); (543,-11357); (1733,-11990); (4667,-12720); (5132,-10273)], [2; 1; 2; 2; 1; 1; 0]%nat);
  (116, [(-5347799720258,-2098022936474); (5347799720258,-15363762026826)], [0; 0; 0; 0; 0; 0; 3]%nat);
  (116, [(-5132,-5176); (1369,-14381); (5684,-15965); (6001,-14533); (7223,1450)], [1; 0; 1; 1; 1; 1; 9]%nat);
  (116, [(-3844691425170,-1508330755752); (3844691425170,-11045463033914)], [0; 0; 0; 0; 0; 0; 0]%nat);
  (117, [(-7079,-5107); (726,-16637); (2591,-18046); (7157,-19170); (9624,309)], [2; 1; 1; 1; 2; 1; 0]%nat);
  (117, [(-5528124809454,-2168767203826); (5528124809454,-15881820275599)], [0; 0; 0; 0; 0; 0; 3]%nat);
  (117, [(-4823,-2437); (77,-9865); (1278,-10920); (4163,-11763); (4516,-10954); (4797,-7228)], [2; 2; 2; 2; 2; 1; 0]%nat);
  (118, [(-7948664932856,-3118381804821); (7948664932856,-22835820869799)], [0; 0; 0; 0; 0; 0; 3]%nat);
  (118, [(-4797,-4765); (1220,-13314); (4937,-14658); (5465,-13837); (6865,1123)], [1; 0; 1; 1; 1; 1; 9]%nat);
  (118, [(-5714530369029,-2241896931925); (5714530369029,-16417347185282)], [0; 0; 0; 0; 0; 0; 0]%nat);
  (119, [(-7336,-3365); (-5482,-6300); (562,-15430); (2385,-16758); (6664,-17548); (7336,-12125)], [3; 2; 2; 2; 3; 2; 0]%nat);
  (119, [(-8216689875446,-3223532054739); (8216689875446,-23605833145988)], [0; 0; 0; 0; 0; 0; 3]%nat);
  (120, [(-6925,-7478); (1684,-19739); (7536,-22508); (8387,-20387); (9651,3194)], [1; 1; 1; 1; 1; 0; 9]%nat);
  (120, [(-11802916572994,-4630463177898); (11802916572994,-33908749567234)], [0; 0; 0; 0; 0; 0; 3]%nat);
  (120, [(-5632,-2411); (-4391,-4475); (799,-12058); (1871,-12546); (4933,-13171); (5632,-9354)], [3; 3; 2; 2; 3; 2; 1]%nat);
  (121, [(-16970931790242,-6657953927178); (16970931790242,-48756006402232)], [0; 0; 0; 0; 0; 0; 0]%nat);
  (121, [(-6592,-3284); (-4682,-6593); (1207,-14895); (2240,-15510); (6035,-16505); (6592,-13282)], [2; 1; 3; 2; 2; 1; 11]%nat);
  (121, [(-12200904922434,-4786600043385); (12200904922434,-35052135372628)], [0; 0; 0; 0; 0; 0; 3]%nat);
  (122, [(-6647,-6549); (1644,-18128); (3300,-19272); (7455,-19948); (7763,-18803); (9445,1818)], [1; 0; 1; 0; 2; 1; 11]%nat);
  (122, [(-17543182986789,-6882456750506); (17543182986789,-50400034163784)], [0; 0; 0; 0; 0; 0; 3]%nat);
  (122, [(-4616,-3251); (455,-10819); (1639,-11570); (4536,-11964); (4823,-11165); (5414,1594)], [2; 1; 1; 1; 1; 1; 0]%nat);
  (123, [(-25200017081892,-9886348891686); (25200017081892,-72397450497537)], [0; 0; 0; 0; 0; 0; 0]%nat);
  (123, [(-5988,-3456); (-4705,-5418); (1366,-14039); (5415,-15333); (5791,-14091); (5988,-8883)], [2; 2; 2; 2; 2; 1; 0]%nat);
  (123, [(-18117037783197,-7107588690376); (18117037783197,-52048668927826)], [0; 0; 0; 0; 0; 0; 0]%nat);
  (124, [(-7674,-3556); (-5588,-6861); (1730,-17177); (2712,-17554); (7026,-18344); (7674,-12181)], [2; 1; 3; 2; 3; 2; 0]%nat);
  (124, [(-26024334463913,-10209741102481); (26024334463913,-74765642418406)], [0; 0; 0; 0; 0; 0; 3]%nat);
  (124, [(-4590,-2442); (611,-10218); (1717,-10744); (4298,-11164); (4590,-8997)], [1; 1; 1; 1; 2; 1; 9]%nat);
  (125, [(-37419327870540,-14680169835536); (37419327870540,-107502464317977)], [0; 0; 0; 0; 0; 0; 0]%nat);
  (125, [(-5582,-3014); (-4586,-4733); (1221,-12843); (5109,-14105); (5582,-11546)], [2; 1; 2; 1; 2; 1; 9]%nat);
  (125, [(-26901861798322,-10554008384592); (26901861798322,-77286701890177)], [0; 0; 0; 0; 0; 0; 0]%nat);
  (126, [(-5587,-5811); (1508,-15700); (2369,-16287); (6425,-16861); (8329,889)], [1; 1; 1; 0; 1; 0; 9]%nat);
  (126, [(-38681088592496,-15175177702973); (38681088592496,-111127392789678)], [0; 0; 0; 0; 0; 0; 3]%nat);
  (126, [(-4219,-2310); (222,-9005); (1454,-9955); (3929,-10277); (4076,-9856); (4219,-6227)], [2; 2; 1; 1; 1; 1; 0]%nat);
  (127, [(-55563696394839,-21798480790153); (55563696394839,-159629652080516)], [0; 0; 0; 0; 0; 0; 3]%nat);
  (127, [(-4845,-3438); (1156,-11915); (4507,-13076); (4982,-12036); (5485,1904)], [1; 1; 1; 1; 1; 0; 9]%nat);
  (127, [(-39946385103156,-15671572713943); (39946385103156,-114762479273849)], [0; 0; 0; 0; 0; 0; 0]%nat);
  (128, [(-6544,-3118); (-4933,-5694); (1687,-14856); (5963,-15576); (6544,-10610)], [2; 2; 2; 1; 2; 2; 0]%nat);
  (128, [(-57437276003757,-22533514485959); (57437276003757,-165012282836242)], [0; 0; 0; 0; 0; 0; 0]%nat);
  (129, [(-6024,-6962); (1561,-17782); (2850,-18425); (7435,-18928); (8493,3032)], [1; 0; 2; 1; 1; 1; 9]%nat);
  (129, [(-82586713821850,-32400020365359); (82586713821850,-237264423521675)], [0; 0; 0; 0; 0; 0; 3]%nat);
  (129, [(-4732,-2703); (-3894,-4016); (758,-10767); (1740,-11246); (4446,-11776); (4732,-10338)], [3; 3; 2; 2; 3; 2; 1]%nat);
  (130, [(-118748063530135,-46586666288998); (118748063530135,-341152826331964)], [0; 0; 0; 0; 0; 0; 3]%nat);
  (130, [(-5894,-3007); (-4763,-5038); (1353,-13532); (2010,-13825); (5389,-14649); (5894,-12023)], [2; 1; 3; 2; 2; 1; 0]%nat);
  (130, [(-85288206582991,-33459856947144); (85288206582991,-245025576532352)], [0; 0; 0; 0; 0; 0; 0]%nat);
  (131, [(-7332,-3457); (-6017,-5782); (1505,-16314); (2521,-17100); (6773,-17609); (7332,-14272)], [2; 1; 2; 2; 3; 2; 0]%nat);
  (131, [(-122512788266176,-48063624899806); (122512788266176,-351968552044711)], [0; 0; 0; 0; 0; 0; 3]%nat);
  (131, [(-3571,-3768); (865,-9934); (1447,-10364); (4082,-10741); (4279,-10314); (4681,1914)], [1; 1; 1; 1; 2; 1; 11]%nat);
  (132, [(-176156135666909,-69108723655026); (176156135666909,-506081209006256)], [0; 0; 0; 0; 0; 0; 3]%nat);
  (132, [(-5092,-3586); (957,-12233); (1884,-12794); (4967,-13171); (5182,-12652); (5757,1694)], [2; 1; 1; 1; 1; 1; 0]%nat);
  (132, [(-126520302251564,-49635833415345); (126520302251564,-363481790088659)], [0; 0; 0; 0; 0; 0; 0]%nat);
  (133, [(-5162,-5985); (1795,-15578); (6122,-16452); (6403,-15438); (7020,2899)], [1; 0; 1; 1; 1; 0; 9]%nat);
  (133, [(-181918376387146,-71369338081317); (181918376387146,-522635623868063)], [0; 0; 0; 0; 0; 0; 0]%nat);
  (133, [(-3781,-2719); (725,-9203); (1498,-9660); (3898,-9898); (4552,1093)], [2; 1; 2; 1; 2; 1; 0]%nat);
  (134, [(-261573005109748,-102619056993425); (261573005109748,-751476422709743)], [0; 0; 0; 0; 0; 0; 3]%nat);
  (134, [(-4954,-2850); (-241,-9885); (1361,-11652); (4606,-12367); (4954,-11057)], [2; 1; 2; 2; 2; 1; 0]%nat);
  (134, [(-187869105677436,-73703899432312); (187869105677436,-539731549946922)], [0; 0; 0; 0; 0; 0; 0]%nat);
  (135, [(-5331,-4802); (1426,-14197); (4947,-15324); (5832,-14770); (6909,1548)], [1; 1; 1; 1; 1; 1; 9]%nat);
  (135, [(-270129315769334,-105975827432565); (270129315769334,-776057956738306)], [0; 0; 0; 0; 0; 0; 3]%nat);
  (135, [(-3835,-1928); (-368,-7277); (1202,-8941); (3553,-9231); (3835,-6552)], [2; 1; 1; 1; 2; 1; 0]%nat);
  (136, [(-388028978369153,-152229653169515); (388028978369153,-1114773401216321)], [0; 0; 0; 0; 0; 0; 3]%nat);
  (136, [(-3696,-3990); (965,-10572); (3642,-11663); (4475,-11018); (4918,2011)], [1; 0; 1; 1; 1; 1; 9]%nat);
  (136, [(-278965511778987,-109442401139355); (278965511778987,-801443576958979)], [0; 0; 0; 0; 0; 0; 0]%nat);
  (137, [(-5837,-2954); (516,-12605); (1997,-13390); (5291,-13942); (5837,-10220)], [2; 1; 1; 1; 2; 1; 0]%nat);
  (137, [(-401113118351051,-157362759722116); (401113118351051,-1152362993856834)], [0; 0; 0; 0; 0; 0; 3]%nat);
  (138, [(-5514,-6202); (1478,-16121); (6309,-17893); (6702,-16107); (7594,2525)], [1; 1; 1; 1; 1; 0; 9]%nat);
  (138, [(-576744174171511,-226265486589870); (576744174171511,-1656935694274901)], [0; 0; 0; 0; 0; 0; 0]%nat);
  (138, [(-3820,-3074); (632,-9497); (1552,-10175); (4023,-10712); (5393,117)], [2; 1; 1; 1; 2; 1; 0]%nat);
  (139, [(-829276897769421,-325337904038780); (829276897769421,-2382440176921656)], [0; 0; 0; 0; 0; 0; 3]%nat);
  (139, [(-5410,-2659); (59,-10972); (1539,-12263); (4753,-12994); (5092,-12170); (5361,-8030)], [2; 1; 2; 2; 2; 1; 0]%nat);
  (139, [(-595610044230414,-233666853539007); (595610044230414,-1711135692998864)], [0; 0; 0; 0; 0; 0; 3]%nat);
  (140, [(-5361,-5373); (1331,-14823); (5491,-16356); (6137,-15331); (7323,1959)], [1; 0; 1; 1; 1; 1; 9]%nat);
  (140, [(-855567846499432,-335652241961396); (855567846499432,-2457971778865770)], [0; 0; 0; 0; 0; 0; 0]%nat);
  (140, [(-4093,-1895); (-3045,-3574); (490,-8801); (1345,-9400); (3709,-9796); (4093,-6783)], [3; 2; 2; 2; 3; 2; 0]%nat);
  (141, [(-1228985889432885,-482149803565979); (1228985889432885,-3530769237308267)], [0; 0; 0; 0; 0; 0; 3]%nat);
  (141, [(-3836,-4225); (948,-11039); (1789,-11462); (4405,-12233); (4705,-11421); (5339,1826)], [1; 1; 2; 1; 1; 0; 11]%nat);
  (141, [(-883554313535394,-346631757430140); (883554313535394,-2538374456977162)], [0; 0; 0; 0; 0; 0; 3]%nat);
  (142, [(-6122,-3068); (-4903,-4974); (914,-13430); (2115,-14023); (5525,-14677); (6122,-11717)], [3; 2; 2; 2; 3; 2; 1]%nat);
  (142, [(-1269187228488581,-497921398582207); (1269187228488581,-3646264177044274)], [0; 0; 0; 0; 0; 0; 0]%nat);
  (142, [(-3673,-1858); (-2932,-3196); (768,-8431); (1245,-8642); (3361,-9167); (3673,-7576)], [2; 1; 3; 2; 2; 1; 11]%nat);
  (143, [(-1824912490952334,-715940847330469); (1824912490952335,-5242814371780448)], [0; 0; 0; 0; 0; 0; 0]%nat);
  (143, [(-4588,-2141); (-3792,-3561); (930,-10143); (1600,-10668); (4220,-11121); (4588,-8895)], [2; 1; 2; 1; 3; 2; 0]%nat);
  (143, [(-1310703592945112,-514208898007223); (1310703592945112,-3765537070027315)], [0; 0; 0; 0; 0; 0; 3]%nat);
  (144, [(-4452,-4733); (1072,-12400); (1782,-12938); (5076,-13368); (5339,-12815); (6077,2034)], [1; 0; 1; 1; 1; 0; 11]%nat);
  (144, [(-1884607176161132,-739359977684063); (1884607176161132,-5414311994314817)], [0; 0; 0; 0; 0; 0; 0]%nat);
  (144, [(-2783,-2833); (509,-7610); (1184,-8010); (3103,-8236); (3238,-7929); (3580,1526)], [2; 2; 1; 1; 1; 1; 0]%nat);
  (145, [(-2709799704185882,-1063095521527321); (2709799704185884,-7785018133301399)], [0; 0; 0; 0; 0; 0; 0]%nat);
  (145, [(-3207,-3741); (764,-9458); (1418,-9825); (3809,-10407); (4009,-9656); (4381,1850)], [2; 1; 2; 1; 1; 0; 11]%nat);
  (145, [(-1948155172518050,-764290820441453); (1948155172518050,-5596879843595102)], [0; 0; 0; 0; 0; 0; 3]%nat);
  (146, [(-4833,-3193); (584,-11372); (1872,-12037); (4734,-12671); (4917,-11913); (5881,1029)], [2; 2; 2; 1; 2; 1; 0]%nat);
  (146, [(-2801172773283682,-1098942562323743); (2801172773283682,-8047524988964187)], [0; 0; 0; 0; 0; 0; 0]%nat);
  (147, [(-6342,-3136); (-5772,-4256); (515,-13318); (1598,-14470); (5692,-15906); (6342,-12819)], [3; 3; 3; 3; 3; 3; 0]%nat);
  (147, [(-4027691950043112,-1580124637097072); (4027691950043112,-11571207575970272)], [0; 0; 0; 0; 0; 0; 0]%nat);
  (147, [(-3208,-3140); (962,-8949); (3330,-9485); (3621,-9264); (4757,286)], [1; 0; 1; 0; 1; 1; 9]%nat);
  (148, [(-5791253791684340,-2271996694241812); (5791253791684340,-16637766884825232)], [0; 0; 0; 0; 0; 0; 3]%nat);
  (148, [(-3980,-3707); (143,-9953); (1572,-11137); (4479,-11511); (5359,1407)], [2; 1; 1; 1; 2; 1; 0]%nat);
  (148, [(-4159441721206308,-1631812070478032); (4159441721206308,-11949713173996374)], [0; 0; 0; 0; 0; 0; 0]%nat);
  (149, [(-5761,-3206); (401,-12659); (1855,-13534); (4981,-14658); (5574,-13575); (5761,-8317)], [2; 2; 2; 1; 1; 1; 0]%nat);
  (149, [(-5980691407883927,-2346315944140420); (5980691407883927,-17182004628657386)], [0; 0; 0; 0; 0; 0; 0]%nat);
  (149, [(-3668,-1731); (-2881,-3043); (802,-8173); (3168,-9102); (3387,-8304); (3668,-6018)], [2; 2; 2; 2; 2; 2; 0]%nat);
  (150, [(-8591002314328694,-3370380501439161); (8591002314328694,-24681200125961552)], [0; 0; 0; 0; 0; 0; 3]%nat);
  (150, [(-4555,-1963); (-3397,-3881); (866,-9942); (1523,-10337); (4061,-10876); (4555,-7324)], [2; 2; 2; 2; 3; 2; 0]%nat);
  (150, [(-6176325715114890,-2423066249911390); (6176325715114888,-17744044925191588)], [0; 0; 0; 0; 0; 0; 0]%nat);
  (151, [(286,-11659); (1942,-12628); (4976,-13194); (5174,-12472); (6069,1707)], [0; 0; 0; 0; 0; 0; 9]%nat);
  (151, [(-8872022462595795,-3480628967633982); (8872022462595795,-25488546494293864)], [0; 0; 0; 0; 0; 0; 0]%nat);
  (151, [(-2722,-2704); (427,-7356); (2918,-8467); (3160,-7536); (3635,1226)], [3; 1; 1; 1; 1; 1; 0]%nat);
  (152, [(-12756718826489848,-5004654267573998); (12756718826489850,-36648940226926240)], [0; 0; 0; 0; 0; 0; 3]%nat);
  (152, [(-4238,-1604); (-3585,-2936); (614,-9118); (1353,-9509); (3682,-10190); (4238,-6871)], [3; 3; 5; 3; 2; 2; 1]%nat);
  (152, [(-9171182551904150,-3597994007814694); (9171182551904148,-26348007330616192)], [0; 0; 0; 0; 0; 0; 3]%nat);
  (153, [(-3511,-4945); (803,-10893); (1469,-11585); (4563,-12461); (4759,-11569); (5925,882)], [1; 0; 2; 2; 4; 2; 11]%nat);
  (153, [(-13186868903262496,-5173408666467485); (13186868903262496,-37884723868995168)], [0; 0; 0; 0; 0; 0; 0]%nat);
  (153, [(-2838,-1976); (221,-6593); (1237,-7227); (2666,-7425); (2899,-7227); (3598,548)], [2; 2; 1; 1; 2; 1; 0]%nat);
  (154, [(-18960860334824240,-7438633075027435); (18960860334824236,-54472897499244976)], [0; 0; 0; 0; 0; 0; 0]%nat);
  (154, [(-3118,-3008); (274,-8026); (989,-8648); (3300,-9457); (3617,-8375); (4001,1554)], [2; 1; 2; 2; 1; 1; 11]%nat);
  (154, [(-13631523422052268,-5347853377942692); (13631523422052264,-39162177507537336)], [0; 0; 0; 0; 0; 0; 3]%nat);
  (155, [(-4733,-2158); (-3617,-3995); (778,-10343); (1505,-10758); (4017,-11502); (4328,-11005); (4733,-7593)], [3; 3; 3; 2; 4; 3; 0]%nat);
  (155, [(-19581088753768668,-7681958090335860); (19581088753768668,-56254759634963960)], [0; 0; 0; 0; 0; 0; 0]%nat);
  (156, [(-5757,-2781); (661,-12476); (1999,-13239); (5177,-13972); (5384,-13140); (5757,-9228)], [1; 1; 2; 1; 2; 1; 11]%nat);
  (156, [(-28127379817481984,-11034797690055356); (28127379817481984,-80807508238746320)], [0; 0; 0; 0; 0; 0; 3]%nat);
  (156, [(-3121,-2434); (696,-7850); (3122,-8704); (3313,-7938); (3924,832)], [1; 0; 1; 0; 1; 1; 9]%nat);
  (157, [(-40403754119373160,-15851005515590808); (40403754119373160,-116076460554220624)], [0; 0; 0; 0; 0; 0; 3]%nat);
  (157, [(-3797,-3001); (416,-9096); (1217,-9893); (3922,-10409); (5192,214)], [2; 1; 1; 1; 1; 1; 9]%nat);
  (157, [(-29019115138555156,-11384638980818004); (29019115138555160,-83369386016626496)], [0; 0; 0; 0; 0; 0; 0]%nat);
  (158, [(-4336,-4105); (107,-10715); (1502,-12107); (4552,-12825); (4951,-12418); (5740,1753)], [2; 1; 2; 1; 1; 1; 11]%nat);
  (158, [(-41725400716329176,-16369507520036130); (41725400716329176,-119873435920047408)], [0; 0; 0; 0; 0; 0; 3]%nat);
  (158, [(-3209,-1691); (165,-6894); (1027,-7422); (2681,-7937); (3030,-7586); (3209,-5072)], [2; 2; 2; 1; 2; 1; 0]%nat);
  (159, [(-59936717960023704,-23514083472634648); (59936717960023712,-172192961512460480)], [0; 0; 0; 0; 0; 0; 3]%nat);
  (159, [(-3108,-3402); (846,-8963); (3450,-10021); (3715,-9088); (4715,760)], [1; 1; 1; 1; 1; 1; 9]%nat);
  (159, [(-43048240378115120,-16888477581908592); (43048240378115120,-123673838857041600)], [0; 0; 0; 0; 0; 0; 0]%nat);
  (160, [(-5015,-1891); (-4341,-3332); (380,-10580); (1703,-11330); (3450,-11746); (4486,-11764); (5015,-8139)], [3; 2; 2; 2; 3; 2; 1]%nat);
  (160, [(-61836919428520800,-24259561327709440); (61836919428520800,-177652074548130400)], [0; 0; 0; 0; 0; 0; 3]%nat);
  (160, [(-668,-5151); (834,-6847); (2648,-7562); (2835,-6801); (3389,841)], [0; 0; 1; 1; 1; 0; 9]%nat);
  (161, [(-88826037274065200,-34847801582976400); (88826037274065200,-255189455449312672)], [0; 0; 0; 0; 0; 0; 3]%nat);
  (161, [(-3282,-2513); (421,-8047); (2578,-9071); (3427,-8611); (4614,-127)], [3; 1; 1; 1; 1; 1; 0]%nat);
  (161, [(-63859665975474976,-25053115475615676); (63859665975474976,-183463248902746432)], [0; 0; 0; 0; 0; 0; 0]%nat);
  (162, [(-4619,44); (-4303,-2606); (-64,-9173); (1258,-10344); (4027,-11239); (4540,-8459)], [3; 2; 5; 3; 2; 2; 1]%nat);
  (162, [(-91821206115876512,-36022851745181788); (91821206115876480,-263794314217944576)], [0; 0; 0; 0; 0; 0; 3]%nat);
  (162, [(-2117,-2428); (652,-6264); (2295,-6951); (2589,-6506); (3319,339)], [0; 0; 1; 1; 3; 1; 8]%nat);
  (163, [(-132025962926461520,-51795787598486512); (132025962926461552,-379299072865562880)], [0; 0; 0; 0; 0; 0; 3]%nat);
  (163, [(-3479,-1116); (-3245,-1968); (170,-7153); (1215,-7884); (3111,-8260); (3479,-5842)], [3; 3; 1; 1; 3; 2; 1]%nat);
  (163, [(-94824768216390720,-37201194710070832); (94824768216390720,-272423286086559136)], [0; 0; 0; 0; 0; 0; 0]%nat);
  (164, [(-3163,-3709); (985,-9451); (3580,-10400); (3946,-9405); (4573,1363)], [0; 0; 1; 1; 0; 0; 9]%nat);
  (164, [(-136344662225939024,-53490078832265048); (136344662225939056,-391706319167484416)], [0; 0; 0; 0; 0; 0; 3]%nat);
  (165, [(-5205,-2351); (-4134,-4161); (682,-11201); (1856,-11901); (4710,-12379); (5205,-8448)], [3; 3; 2; 2; 3; 2; 1]%nat);
  (165, [(-195853159583742208,-76836164868135904); (195853159583742208,-562669040249926976)], [0; 0; 0; 0; 0; 0; 0]%nat);
  (165, [(-3098,-1617); (188,-6722); (1041,-7262); (2803,-7726); (2978,-7077); (3098,-4579)], [1; 1; 2; 2; 1; 1; 11]%nat);
  (166, [(-281334520124963488,-110371799042520928); (281334520124963488,-808249531252531712)], [0; 0; 0; 0; 0; 0; 0]%nat);
  (166, [(-3098,-3166); (809,-8630); (3364,-9716); (3635,-8820); (4434,922)], [1; 1; 1; 0; 1; 1; 9]%nat);
  (166, [(-202259709358848864,-79349551508424144); (202259709358848832,-581074498813547008)], [0; 0; 0; 0; 0; 0; 3]%nat);
  (167, [(-4863,-1872); (-4407,-2880); (461,-10261); (1585,-10956); (4274,-11625); (4863,-7854)], [3; 2; 2; 2; 2; 2; 1]%nat);
  (167, [(-290820977189397312,-114093480023141856); (290820977189397312,-835503294751480320)], [0; 0; 0; 0; 0; 0; 0]%nat);
  (167, [(-2089,-2731); (673,-6556); (2568,-7242); (2742,-6638); (3304,713)], [0; 0; 1; 1; 1; 0; 9]%nat);
  (168, [(-417751647375740160,-163890307003054464); (417751647375740160,-1200164036114154240)], [0; 0; 0; 0; 0; 0; 3]%nat);
  (168, [(-3625,-1687); (-2909,-2824); (357,-7685); (1367,-8283); (2568,-8526); (3281,-8496); (3625,-5733)], [3; 2; 2; 2; 3; 2; 1]%nat);
  (168, [(-300334017826417984,-117825590142462544); (300334017826417984,-862833430535183360)], [0; 0; 0; 0; 0; 0; 3]%nat);
  (169, [(-3322,-3828); (844,-9790); (1413,-10064); (3846,-10824); (4146,-9700); (4808,1412)], [1; 1; 2; 2; 1; 0; 11]%nat);
  (169, [(-431838020653595200,-169416604877808000); (431838020653595200,-1240632957573978624)], [0; 0; 0; 0; 0; 0; 3]%nat);
  (169, [(-2126,-2221); (353,-5873); (958,-6199); (2450,-6505); (2518,-6141); (3192,458)], [2; 1; 1; 1; 2; 1; 0]%nat);
  (170, [(-620316478786989312,-243359562520201088); (620316478786989312,-1782115123963834880)], [0; 0; 0; 0; 0; 0; 0]%nat);
  (170, [(-3256,-1686); (229,-7078); (1112,-7591); (2939,-8111); (3103,-7390); (3256,-4862)], [2; 1; 2; 1; 1; 1; 0]%nat);
  (170, [(-445963867691145216,-174958388907159520); (445963867691145216,-1281215283701512960)], [0; 0; 0; 0; 0; 0; 0]%nat);
  (171, [(-3417,-3043); (843,-9041); (3539,-10159); (3796,-9162); (4681,628)], [1; 0; 1; 1; 1; 1; 9]%nat);
  (171, [(-640607641850756480,-251320093531533952); (640607641850756480,-1840409865140899584)], [0; 0; 0; 0; 0; 0; 3]%nat);
  (171, [(-2542,-1000); (-2236,-1623); (157,-5157); (761,-5705); (2240,-6093); (2542,-4084)], [3; 3; 2; 2; 3; 2; 1]%nat);
  (172, [(-920204932570449792,-361010351131063168); (920204932570449792,-2643668487876893696)], [0; 0; 0; 0; 0; 0; 0]%nat);
  (172, [(-2232,-2784); (711,-6884); (2581,-7429); (2855,-7042); (3488,711)], [0; 0; 1; 1; 1; 0; 9]%nat);
  (172, [(-661562548846146432,-259541021353766624); (661562548846146432,-1900611484725091584)], [0; 0; 0; 0; 0; 0; 3]%nat);
  (173, [(-3049,-2960); (356,-8050); (1393,-8648); (3445,-8913); (4355,847)], [2; 2; 1; 1; 2; 1; 0]%nat);
  (173, [(-951233775314071680,-373183436731436288); (951233775314071680,-2732811645963932160)], [0; 0; 0; 0; 0; 0; 3]%nat);
  (174, [(-4461,-2522); (424,-9990); (1481,-10548); (4029,-11374); (4328,-10196); (4461,-6486)], [2; 2; 2; 2; 1; 1; 0]%nat);
  (174, [(-1367740203668471808,-536585225427081664); (1367740203668471808,-3929398276469070848)], [0; 0; 0; 0; 0; 0; 3]%nat);
  (174, [(-2230,-2333); (631,-6359); (2500,-7075); (2640,-6436); (3369,374)], [1; 1; 1; 1; 1; 1; 9]%nat);
  (175, [(-1966617789736717568,-771533985185516032); (1966617789736717824,-5649921332090914816)], [0; 0; 0; 0; 0; 0; 0]%nat);
  (175, [(-3221,-2064); (187,-7306); (1168,-7967); (2500,-8325); (3183,-8285); (4301,38)], [2; 1; 1; 1; 2; 1; 0]%nat);
  (175, [(-1412480333022728704,-554137456713989120); (1412480333022728960,-4057932764745496576)], [0; 0; 0; 0; 0; 0; 3]%nat);
  (176, [(-3541,-3234); (19,-8667); (1033,-9547); (3657,-10595); (3987,-9624); (4882,1001)], [2; 1; 2; 2; 2; 1; 11]%nat);
  (176, [(-2030947794855533824,-796771621840358784); (2030947794855533568,-5834735824317681664)], [0; 0; 0; 0; 0; 0; 0]%nat);
  (176, [(-2651,-1171); (-2073,-2149); (250,-5638); (809,-5972); (2169,-6488); (2389,-6133); (2651,-4293)], [3; 3; 3; 2; 3; 2; 0]%nat);
  (177, [(-2917367912158840832,-1144527677552226432); (2917367912158840832,-8381343485492640768)], [0; 0; 0; 0; 0; 0; 0]%nat);
  (177, [(-3247,-1425); (-2404,-2793); (586,-7065); (1076,-7377); (2822,-7965); (2989,-7347); (3247,-5399)], [2; 2; 3; 2; 3; 2; 0]%nat);
  (177, [(-2097382097810048000,-822834806450510464); (2097382097810047744,-6025595780636670976)], [0; 0; 0; 0; 0; 0; 0]%nat);
  (178, [(-3986,-1828); (252,-8393); (1398,-9006); (3500,-9552); (3692,-8922); (3986,-6310)], [1; 1; 1; 1; 2; 1; 11]%nat);
  (178, [(-3015740075758099456,-1183120569271781376); (3015740075758099456,-8663958129021208576)], [0; 0; 0; 0; 0; 0; 3]%nat);
  (178, [(-2175,-1590); (457,-5362); (2100,-6049); (2254,-5362); (2717,387)], [1; 1; 1; 0; 1; 0; 9]%nat);
  (179, [(-4336209512815790592,-1701160756035873536); (4336209512815789568,-12457551617161637888)], [0; 0; 0; 0; 0; 0; 0]%nat);
  (179, [(-3027,-1177); (-2452,-2269); (194,-6020); (796,-6742); (2666,-7254); (3027,-4878)], [3; 2; 2; 2; 2; 2; 0]%nat);
  (179, [(-3114387904290409472,-1221821608525380096); (3114387904290409472,-8947364733852016640)], [0; 0; 0; 0; 0; 0; 0]%nat);
  (180, [(-2554,-3456); (588,-7820); (1134,-8308); (3010,-8642); (3371,-8521); (4175,811)], [1; 1; 2; 1; 1; 1; 11]%nat);
  (180, [(-4473682366926008832,-1755093441654810624); (4473682366926009344,-12852499133183406080)], [0; 0; 0; 0; 0; 0; 3]%nat);
  (180, [(-1815,-1761); (203,-4788); (865,-5151); (1957,-5282); (2079,-5102); (2384,830)], [2; 1; 1; 1; 2; 1; 0]%nat);
  (181, [(-6432525200934077440,-2523577193790843392); (6432525200934078464,-18480083695792930816)], [0; 0; 0; 0; 0; 0; 3]%nat);
  (181, [(-2132,-2308); (415,-6019); (881,-6278); (2396,-6783); (2578,-6002); (2815,1175)], [2; 2; 2; 2; 1; 1; 11]%nat);
  (181, [(-4620020923948232704,-1812504276985845760); (4620020923948232704,-13272917040181981184)], [0; 0; 0; 0; 0; 0; 0]%nat);
  (182, [(-3395,-1525); (-2553,-2885); (588,-7400); (1155,-7734); (3012,-8207); (3142,-7662); (3395,-5388)], [3; 3; 3; 2; 3; 2; 0]%nat);
  (182, [(-6642939436614516736,-2606125889649034752); (6642939436614516736,-19084585437285707776)], [0; 0; 0; 0; 0; 0; 0]%nat);
  (183, [(-3814,-2495); (763,-9086); (1444,-9443); (3704,-9934); (3871,-9300); (4668,827)], [1; 1; 2; 1; 2; 1; 11]%nat);
  (183, [(-9542292718642853888,-3743586154586180096); (9542292718642853888,-27414174462102134784)], [0; 0; 0; 0; 0; 0; 3]%nat);
  (183, [(-2259,-1689); (207,-5293); (624,-5691); (2274,-6057); (2363,-5644); (2771,637)], [2; 2; 1; 1; 2; 2; 11]%nat);
  (184, [(-13707087231051067392,-5377498206234640384); (13707087231051067392,-39379265738216628224)], [0; 0; 0; 0; 0; 0; 3]%nat);
  (184, [(-2398,-2610); (319,-6504); (845,-7058); (2649,-7533); (2848,-7296); (3398,961)], [2; 2; 2; 1; 1; 1; 11]%nat);
  (184, [(-9844816434554157056,-3862270796496910336); (9844816434554157056,-28283298704194703360)], [0; 0; 0; 0; 0; 0; 0]%nat);
  (185, [(-3031,-3037); (481,-8246); (1306,-8720); (3255,-9127); (3532,-8906); (4341,953)], [2; 2; 2; 1; 2; 1; 0]%nat);
  (185, [(-14155459556542758912,-5553401469664293888); (14155459556542758912,-40667400311052877824)], [0; 0; 0; 0; 0; 0; 3]%nat);
  (185, [(-2282,-1244); (238,-5056); (759,-5309); (2062,-5704); (2180,-5234); (2282,-3590)], [2; 2; 2; 1; 2; 1; 0]%nat);
  (186, [(-20333700155526438912,-7977218957559078912); (20333700155526438912,-58416946530535235584)], [0; 0; 0; 0; 0; 0; 3]%nat);
  (186, [(-2229,-2421); (623,-6436); (2530,-7115); (2657,-6452); (3339,500)], [1; 0; 1; 1; 1; 1; 9]%nat);
  (186, [(-14604236632633808896,-5729463522892630016); (14604236632633810944,-41956697697048608768)], [0; 0; 0; 0; 0; 0; 0]%nat);
  (187, [(-3064,-2381); (250,-7435); (1212,-8097); (2530,-8380); (3221,-8416); (4273,246)], [2; 1; 1; 1; 2; 1; 0]%nat);
  (187, [(-20978348848524304384,-8230124416743317504); (20978348848524308480,-60268965983059730432)], [0; 0; 0; 0; 0; 0; 3]%nat);
  (187, [(-2105,-1145); (62,-4462); (596,-4854); (1861,-5331); (2026,-4865); (2209,-2016)], [2; 1; 2; 2; 2; 1; 0]%nat);
  (188, [(-30163911197576282112,-11833759837067110400); (30163911197576282112,-86658285216314376192)], [0; 0; 0; 0; 0; 0; 3]%nat);
  (188, [(-2666,-1230); (-2104,-2169); (572,-5928); (2231,-6569); (2427,-6089); (2666,-4274)], [2; 2; 2; 2; 2; 2; 0]%nat);
  (188, [(-21685728111992733696,-8507640030112432128); (21685728111992733696,-62301204891609481216)], [0; 0; 0; 0; 0; 0; 0]%nat);
  (189, [(-3288,-1408); (-2435,-2839); (616,-7184); (1086,-7469); (2956,-7833); (3288,-5397)], [2; 1; 2; 2; 3; 2; 0]%nat);
  (189, [(-31150602445804740608,-12220853778180726784); (31150602445804748800,-89492963088469557248)], [0; 0; 0; 0; 0; 0; 0]%nat);
  (189, [(-1960,-999); (112,-4200); (710,-4569); (1798,-4777); (1869,-4520); (1960,-2922)], [1; 1; 1; 1; 1; 1; 11]%nat);
  (190, [(-44790179280117817344,-17571866631893637120); (44790179280117817344,-128678277346811166720)], [0; 0; 0; 0; 0; 0; 3]%nat);
  (190, [(-1960,-1979); (500,-5424); (2102,-6082); (2287,-5439); (2638,858)], [1; 1; 1; 0; 1; 0; 9]%nat);
  (190, [(-32169569336702791680,-12620609943415025664); (32169569336702791680,-92420366066121883648)], [0; 0; 0; 0; 0; 0; 3]%nat);
  (191, [(-2608,-2102); (429,-6569); (990,-6895); (2697,-7260); (3729,-309)], [2; 2; 1; 1; 1; 1; 0]%nat);
  (191, [(-46210183033060941824,-18128955640344641536); (46210183033060950016,-132757824240606248960)], [0; 0; 0; 0; 0; 0; 0]%nat);
  (191, [(-77,-3655); (526,-4189); (1644,-4502); (1725,-4185); (2027,548)], [1; 1; 1; 1; 1; 0; 9]%nat);
  (192, [(-66443735276670615552,-26066885053187739648); (66443735276670615552,-190887054557622009856)], [0; 0; 0; 0; 0; 0; 3]%nat);
  (192, [(-2054,-1441); (274,-4881); (1829,-5642); (2097,-5237); (2592,353)], [3; 2; 1; 1; 1; 1; 0]%nat);
  (193, [(-95536733848419221504,-37480509625384263680); (95536733848419205120,-274468701231843737600)], [0; 0; 0; 0; 0; 0; 3]%nat);
  (193, [(-2824,-1253); (-2181,-2281); (177,-5719); (721,-6276); (2443,-6780); (2824,-4810)], [3; 3; 5; 3; 3; 2; 0]%nat);
  (193, [(-68617175307960934400,-26919558540458270720); (68617175307960934400,-197131158145463418880)], [0; 0; 0; 0; 0; 0; 0]%nat);
  (194, [(-2475,-3151); (627,-7535); (1142,-7791); (2862,-8233); (3141,-7980); (3938,518)], [1; 1; 2; 1; 4; 2; 11]%nat);
  (194, [(-98661834521044926464,-38706534015400304640); (98661834521044910080,-283446842814486085632)], [0; 0; 0; 0; 0; 0; 3]%nat);
  (194, [(-1997,-1148); (130,-4331); (789,-4843); (1886,-5029); (1950,-4706); (2289,-436)], [2; 1; 1; 1; 2; 1; 0]%nat);
  (195, [(-141861823185961058304,-55654544751677685760); (141861823185961091072,-407556641260208259072)], [0; 0; 0; 0; 0; 0; 3]%nat);
  (195, [(-1997,-2146); (575,-5722); (2168,-6243); (2424,-5692); (2744,901)], [1; 0; 1; 1; 1; 0; 9]%nat);
  (195, [(-101988661448172240896,-40011698674493898752); (101988661448172240896,-293004526326678519808)], [0; 0; 0; 0; 0; 0; 0]%nat);
  (196, [(-2849,-2004); (175,-6680); (1074,-7220); (2864,-7440); (3641,-262)], [2; 2; 1; 1; 2; 1; 0]%nat);
  (196, [(-146645331779709714432,-57531187721025732608); (146645331779709714432,-421299244112224124928)], [0; 0; 0; 0; 0; 0; 3]%nat);
  (196, [(-1424,-1714); (500,-4356); (1672,-4840); (1807,-4345); (1981,811)], [1; 1; 1; 1; 1; 0; 9]%nat);
  (197, [(-210649622056112062464,-82641041503307366400); (210649622056112062464,-605177986013768974336)], [0; 0; 0; 0; 0; 0; 0]%nat);
  (197, [(-2422,-1052); (-1862,-1936); (406,-5184); (858,-5424); (1672,-5676); (2180,-5539); (2422,-3920)], [3; 2; 3; 2; 3; 2; 1]%nat);
  (197, [(-151294496503442243584,-59355125552669818880); (151294496503442243584,-434655888746531586048)], [0; 0; 0; 0; 0; 0; 3]%nat);
  (198, [(-2841,-1482); (-1962,-2887); (527,-6428); (969,-6634); (2595,-6971); (2841,-5855)], [2; 1; 3; 3; 3; 2; 11]%nat);
  (198, [(-217540178693942804480,-85344311376424960000); (217540178693942804480,-624973954066754174976)], [0; 0; 0; 0; 0; 0; 3]%nat);
  (198, [(-1465,-1379); (371,-3956); (722,-4131); (1609,-4298); (1660,-4010); (1936,492)], [1; 0; 1; 0; 2; 1; 11]%nat);
  (199, [(-312792140096886276096,-122713100452510973952); (312792140096886276096,-898624528907754799104)], [0; 0; 0; 0; 0; 0; 0]%nat);
  (199, [(-2151,-1070); (-1898,-1503); (246,-4615); (690,-5003); (1980,-5197); (2151,-4337)], [3; 3; 2; 2; 2; 2; 1]%nat);
  (199, [(-224875522981066571776,-88222078190133067776); (224875522981066571776,-646047758230602383360)], [0; 0; 0; 0; 0; 0; 0]%nat);
  (200, [(-2171,-2136); (536,-5913); (752,-6056); (2310,-6437); (2504,-6130); (2806,995)], [1; 0; 2; 2; 2; 0; 11]%nat);
  (200, [(-323339332122249723904,-126850923845705809920); (323339332122249723904,-928925691405495697408)], [0; 0; 0; 0; 0; 0; 3]%nat);
  (200, [(-1611,-854); (40,-3394); (535,-3777); (1480,-3903); (1515,-3794); (1611,-2520)], [2; 1; 1; 1; 2; 1; 0]%nat);
  (201, [(-464916422700504449024,-182393763677046276096); (464916422700504449024,-1335664320725296611328)], [0; 0; 0; 0; 0; 0; 0]%nat);
  (201, [(-1534,-1739); (427,-4507); (1699,-5016); (1890,-4600); (2091,815)], [1; 1; 1; 1; 1; 0; 9]%nat);
  (202, [(-667832160362648305664,-262000685038360592384); (667832160362648305664,-1918623531618936291328)], [0; 0; 0; 0; 0; 0; 3]%nat);
  (202, [(-2288,-1523); (408,-5410); (870,-5682); (1699,-5865); (2256,-5912); (3021,-558)], [2; 2; 1; 1; 2; 1; 0]%nat);
  (202, [(-479655882904734072832,-188176277457914265600); (479655882904734072832,-1378009503945942106112)], [0; 0; 0; 0; 0; 0; 3]%nat);
  (203, [(-3058,-1460); (-279,-5769); (762,-6867); (2708,-7306); (2844,-6790); (2943,-5290)], [2; 2; 2; 2; 2; 1; 0]%nat);
  (203, [(-689677608176069640192,-270570985529696780288); (689677608176069509120,-1981383597277984063488)], [0; 0; 0; 0; 0; 0; 0]%nat);
  (203, [(-1479,-1518); (365,-4157); (1444,-4610); (1718,-4393); (2054,549)], [1; 1; 1; 1; 1; 1; 9]%nat);
  (204, [(-991659271098600390656,-389042971832007458816); (991659271098600259584,-2848950568425290203136)], [0; 0; 0; 0; 0; 0; 0]%nat);
  (204, [(-2307,-584); (-2199,-1241); (218,-4901); (760,-5240); (2081,-5511); (2307,-4031)], [3; 2; 2; 2; 3; 2; 1]%nat);
  (204, [(-712237642106322681856,-279421628992277708800); (712237642106322681856,-2046196606506531553280)], [0; 0; 0; 0; 0; 0; 3]%nat);
  (205, [(-2165,-2396); (621,-6266); (2453,-6922); (2623,-6346); (3062,902)], [0; 0; 1; 1; 1; 0; 8]%nat);
  (205, [(-1024097422690036613120,-401768950667347755008); (1024097422690036613120,-2942142547876768120832)], [0; 0; 0; 0; 0; 0; 3]%nat);
  (205, [(-1379,-1393); (226,-3742); (600,-3966); (1562,-4132); (2090,182)], [2; 1; 1; 0; 2; 1; 0]%nat);
  (206, [(-1472507866979339599872,-577687168679425212416); (1472507866979339337728,-4230386632692897153024)], [0; 0; 0; 0; 0; 0; 3]%nat);
  (206, [(-1588,-1832); (91,-4457); (697,-4852); (1873,-5166); (1985,-4754); (2258,754)], [2; 2; 2; 1; 1; 1; 11]%nat);
  (206, [(-1057596658173224288256,-414911208806115049472); (1057596658173224288256,-3038382928774847528960)], [0; 0; 0; 0; 0; 0; 3]%nat);
  (207, [(-2586,-1264); (-2068,-2093); (377,-5653); (917,-5930); (2231,-6510); (2428,-5890); (2586,-4007)], [3; 2; 3; 2; 3; 2; 1]%nat);
  (207, [(-1520675049801864708096,-596583885017578602496); (1520675049801864708096,-4368766746589934387200)], [0; 0; 0; 0; 0; 0; 0]%nat);
  (207, [(-1629,-604); (-1438,-1039); (316,-3537); (524,-3641); (1408,-3897); (1484,-3534); (1629,-2654)], [2; 2; 3; 2; 3; 2; 0]%nat);
  (208, [(-2184383373294967455744,-856966726308762222592); (2184383373294967455744,-6275542854667347165184)], [0; 0; 0; 0; 0; 0; 3]%nat);
  (208, [(-1339,-1918); (302,-4168); (520,-4439); (1770,-4678); (1822,-4418); (2265,374)], [1; 1; 1; 1; 2; 2; 11]%nat);
  (208, [(-1570417828621589676032,-616098731561361211392); (1570417828621589676032,-4511673410323852820480)], [0; 0; 0; 0; 0; 0; 0]%nat);
  (209, [(-2174,-1504); (187,-5096); (960,-5560); (2086,-5654); (2222,-5624); (2579,775)], [2; 1; 1; 1; 1; 1; 0]%nat);
  (209, [(-2255836705161926410240,-884998952081253072896); (2255836705161926410240,-6480822043165968039936)], [0; 0; 0; 0; 0; 0; 3]%nat);
  (209, [(-1415,-805); (-1171,-1186); (194,-3163); (376,-3305); (1275,-3639); (1415,-3127)], [3; 3; 3; 3; 2; 2; 0]%nat);
  (210, [(-3243575485471248613376,-1272503855917373587456); (3243575485471248089088,-9318509383597384794112)], [0; 0; 0; 0; 0; 0; 0]%nat);
  (210, [(-1565,-1268); (-1407,-1520); (403,-4041); (594,-4125); (1583,-4361); (1654,-4210); (2191,-42)], [2; 1; 3; 2; 3; 3; 13]%nat);
  (211, [(-4663804745208651841536,-1829681334103905140736); (4663804745208652890112,-13398704138738034802688)], [0; 0; 0; 0; 0; 0; 3]%nat);
  (211, [(-2197,-1064); (-198,-4184); (635,-5037); (761,-5099); (2022,-5261); (2180,-4302)], [3; 1; 2; 1; 3; 1; 0]%nat);
  (211, [(-3352947202687129616384,-1315412039343015460864); (3352947202687129616384,-9632724785009038196736)], [0; 0; 0; 0; 0; 0; 3]%nat);
  (212, [(-2633,-1415); (-2153,-2211); (533,-5996); (2094,-6679); (2521,-6292); (2633,-5717)], [2; 1; 2; 2; 2; 2; 11]%nat);
  (212, [(-4816362392504519098368,-1889532012869740134400); (4816362392504519098368,-13836988949507449290752)], [0; 0; 0; 0; 0; 0; 3]%nat);
  (212, [(-1671,-777); (-1427,-1212); (354,-3698); (553,-3815); (1500,-3968); (1671,-2918)], [2; 2; 2; 1; 3; 2; 0]%nat);
  (213, [(-6925250817014226747392,-2716880925792672415744); (6925250817014225698816,-19895641402881282670592)], [0; 0; 0; 0; 0; 0; 0]%nat);
  (213, [(-1575,-1736); (389,-4512); (607,-4677); (1851,-4844); (1909,-4621); (2155,722)], [1; 0; 1; 1; 1; 0; 11]%nat);
  (213, [(-4978767685047195533312,-1953246072218020216832); (4978767685047195533312,-14303565185911864950784)], [0; 0; 0; 0; 0; 0; 3]%nat);
  (214, [(-2424,-1338); (106,-5216); (869,-5760); (2258,-5996); (2341,-5807); (2424,-3567)], [2; 1; 1; 1; 1; 1; 0]%nat);
  (214, [(-7151782592955933523968,-2805752777138458591232); (7151782592955933523968,-20546447431367802224640)], [0; 0; 0; 0; 0; 0; 0]%nat);
  (214, [(-1500,-820); (-1156,-1333); (335,-3431); (1305,-3810); (1441,-3454); (1500,-2241)], [2; 1; 2; 2; 2; 1; 0]%nat);
  (215, [(-10283256160718749171712,-4034277350569985179648); (10283256160718751268864,-29542897785735126974464)], [0; 0; 0; 0; 0; 0; 3]%nat);
  (215, [(-1907,-858); (-1453,-1617); (410,-4234); (1100,-4453); (1717,-4481); (1907,-3108)], [2; 2; 2; 1; 3; 2; 0]%nat);
  (215, [(-7385724446433781743616,-2897531714284969525248); (7385724446433781743616,-21218541966122488430592)], [0; 0; 0; 0; 0; 0; 3]%nat);
  (216, [(-2243,-1195); (-1729,-2020); (429,-5106); (809,-5337); (2119,-5536); (2243,-4349)], [2; 2; 2; 2; 2; 2; 11]%nat);
  (216, [(-10619631599255640080384,-4166242536671364513792); (10619631599255642177536,-30509275073533102260224)], [0; 0; 0; 0; 0; 0; 0]%nat);
  (216, [(-1121,-1158); (299,-3142); (505,-3247); (1278,-3404); (1336,-3197); (1496,558)], [1; 1; 1; 0; 1; 0; 11]%nat);
  (217, [(-15254637536766551130112,-5984625661744733224960); (15254637536766551130112,-43825242750311219593216)], [0; 0; 0; 0; 0; 0; 3]%nat);
  (217, [(-1702,-903); (-1384,-1427); (279,-3829); (579,-3979); (1571,-4115); (1702,-3480)], [3; 2; 2; 2; 2; 2; 1]%nat);
  (217, [(-10956310687577804898304,-4298326849188746231808); (10956310687577804898304,-31476524720672210944000)], [0; 0; 0; 0; 0; 0; 0]%nat);
  (218, [(-1719,-1707); (452,-4763); (714,-4913); (1916,-5191); (1991,-4815); (2207,817)], [1; 0; 2; 1; 1; 0; 11]%nat);
  (218, [(-15753631757172371095552,-6180388662294915055616); (15753631757172371095552,-45258809610722015707136)], [0; 0; 0; 0; 0; 0; 0]%nat);
  (218, [(-1153,-882); (204,-2823); (427,-3002); (1192,-3123); (1229,-2974); (1460,329)], [2; 2; 1; 1; 2; 1; 0]%nat);
  (219, [(-22651503833491242483712,-8886528492879225028608); (22651503833491242483712,-65075794280247319330816)], [0; 0; 0; 0; 0; 0; 3]%nat);
  (219, [(-1454,-1042); (165,-3417); (441,-3633); (1413,-3830); (1502,-3653); (1692,567)], [2; 2; 2; 2; 2; 1; 0]%nat);
  (220, [(-32537897140123659665408,-12765110526858825302016); (32537897140123663859712,-93478539710543320580096)], [0; 0; 0; 0; 0; 0; 0]%nat);
  (220, [(-1917,-1036); (-1535,-1651); (284,-4239); (522,-4475); (1710,-4800); (1818,-4572); (1917,-2922)], [3; 2; 3; 2; 3; 3; 0]%nat);
  (220, [(-23392456836744847818752,-9177215593554716393472); (23392456836744847818752,-67204487614054591889408)], [0; 0; 0; 0; 0; 0; 0]%nat);
  (221, [(-2402,-1167); (-1828,-2093); (519,-5393); (826,-5552); (2122,-5796); (2240,-5674); (2402,-3784)], [2; 1; 3; 2; 3; 2; 0]%nat);
  (221, [(-33602243807027295944704,-13182669866462399692800); (33602243807027295944704,-96536314825495283761152)], [0; 0; 0; 0; 0; 0; 3]%nat);
  (221, [(-1450,-775); (-1144,-1248); (292,-3280); (524,-3401); (1350,-3529); (1450,-3053)], [2; 1; 2; 2; 3; 2; 11]%nat);
  (222, [(-48268157412747641880576,-18936330201306950008832); (48268157412747641880576,-138670205085205978415104)], [0; 0; 0; 0; 0; 0; 0]%nat);
  (222, [(-1766,-936); (-1515,-1399); (388,-4066); (625,-4164); (1642,-4340); (1766,-3758)], [2; 1; 2; 1; 2; 1; 0]%nat);
  (222, [(-34667551271301498798080,-13600606141446147276800); (34667551271301498798080,-99596850227467897536512)], [0; 0; 0; 0; 0; 0; 3]%nat);
  (223, [(-2172,-1115); (-1870,-1674); (468,-4941); (700,-5134); (2035,-5328); (2172,-4413)], [2; 2; 2; 1; 2; 1; 0]%nat);
  (223, [(-49798425113733948768256,-19536677428869048827904); (49798425113733948768256,-143066530681736784773120)], [0; 0; 0; 0; 0; 0; 3]%nat);
  (223, [(-1086,-1101); (279,-3011); (419,-3129); (1236,-3241); (1285,-3154); (1435,540)], [1; 1; 1; 0; 1; 0; 11]%nat);
  (224, [(-71603122045302836559872,-28090990731215325102080); (71603122045302836559872,-205709522612538457456640)], [0; 0; 0; 0; 0; 0; 0]%nat);
  (224, [(-1622,-927); (126,-3610); (551,-3827); (1507,-3962); (1566,-3859); (1622,-2392)], [2; 2; 1; 1; 1; 1; 0]%nat);
  (224, [(-51477602704553691578368,-20195444264621513375744); (51477602704553683189760,-147890661400096385531904)], [0; 0; 0; 0; 0; 0; 3]%nat);
  (225, [(-1983,-1119); (-1579,-1783); (464,-4639); (1807,-5168); (1983,-4316)], [2; 1; 2; 2; 2; 1; 0]%nat);
  (225, [(-74017542937059956621312,-29038204664829741891584); (74017542937059948232704,-212645943188094692884480)], [0; 0; 0; 0; 0; 0; 0]%nat);
  (225, [(-1293,-516); (-1080,-905); (-966,-1085); (280,-2825); (446,-2919); (903,-3036); (1161,-3018); (1293,-2071)], [3; 3; 3; 2; 4; 3; 0]%nat);
  (226, [(-106426802620994666102784,-41752848766674187321344); (106426802620994666102784,-305754918709998477377536)], [0; 0; 0; 0; 0; 0; 0]%nat);
  (226, [(-1519,-799); (-1143,-1403); (258,-3363); (453,-3521); (543,-3563); (1414,-3681); (1461,-3490); (1519,-2751)], [2; 2; 3; 2; 3; 2; 15]%nat);
  (226, [(-76513376874450300960768,-30017358170978932228096); (76513376874450300960768,-219816256340863366463488)], [0; 0; 0; 0; 0; 0; 3]%nat);
  (227, [(-1842,-1020); (-1510,-1569); (400,-4241); (702,-4395); (1683,-4533); (1762,-4380); (1842,-3934)], [2; 1; 2; 1; 2; 1; 13]%nat);
  (227, [(-110015460326848113672192,-43160733611260395913216); (110015460326848113672192,-316064819206011234549760)], [0; 0; 0; 0; 0; 0; 0]%nat);
  (227, [(-951,-917); (255,-2610); (393,-2689); (1061,-2783); (1100,-2597); (1220,455)], [1; 1; 1; 0; 1; 0; 11]%nat);
  (228, [(-158186738128008553431040,-62059056471638559162368); (158186738128008586985472,-454456697619401286877184)], [0; 0; 0; 0; 0; 0; 0]%nat);
  (228, [(-1300,-902); (82,-3028); (459,-3281); (1306,-3408); (1346,-3251); (1495,543)], [2; 1; 1; 1; 1; 1; 0]%nat);
  (229, [(-227228348809700643438592,-89145127446316530532352); (227228348809700643438592,-652807221563675348303872)], [0; 0; 0; 0; 0; 0; 3]%nat);
  (229, [(-1584,-1154); (272,-3808); (451,-3957); (1515,-4382); (1642,-4007); (1838,641)], [2; 2; 2; 2; 2; 1; 11]%nat);
  (229, [(-163201805390918837075968,-64026543418781806362624); (163201805390918837075968,-468864548325552633675776)], [0; 0; 0; 0; 0; 0; 0]%nat);
  (230, [(-2193,-981); (-1662,-1831); (321,-4642); (578,-4904); (1874,-5230); (1980,-5038); (2193,-3546)], [3; 2; 3; 2; 3; 3; 0]%nat);
  (230, [(-234432274162776350392320,-91971336619061357314048); (234432274162776350392320,-673503470595665314185216)], [0; 0; 0; 0; 0; 0; 0]%nat);
  (230, [(-1002,-1144); (245,-2932); (458,-3038); (1162,-3164); (1227,-3103); (1494,340)], [1; 1; 2; 1; 2; 1; 11]%nat);
  (231, [(-336751735297832657092608,-132112813027720043692032); (336751735297832657092608,-967458355562100782268416)], [0; 0; 0; 0; 0; 0; 3]%nat);
  (231, [(-1584,-857); (125,-3476); (573,-3724); (1467,-3912); (1584,-3327)], [2; 1; 1; 1; 2; 1; 0]%nat);
  (231, [(-241864588890525195567104,-94887146407307461525504); (241864588890525195567104,-694855862375231141183488)], [0; 0; 0; 0; 0; 0; 0]%nat);
  (232, [(-1623,-1582); (429,-4458); (1740,-4969); (1864,-4444); (2178,583)], [1; 0; 1; 1; 1; 0; 9]%nat);
  (232, [(-347767216276665972817920,-136434353279561229139968); (347767216276665972817920,-999104871367229998891008)], [0; 0; 0; 0; 0; 0; 0]%nat);
  (232, [(-1243,-531); (-979,-979); (146,-2618); (396,-2812); (870,-2919); (1116,-2917); (1243,-1989)], [3; 2; 2; 2; 3; 2; 0]%nat);
  (233, [(-500040279859087269691392,-196173385538535017152512); (500040279859087269691392,-1436572097956457874456576)], [0; 0; 0; 0; 0; 0; 3]%nat);
  (233, [(-1127,-1306); (266,-3286); (490,-3430); (1310,-3639); (1407,-3429); (1670,439)], [1; 0; 2; 1; 1; 1; 11]%nat);
  (233, [(-359493750098967127916544,-141034850345920063602688); (359493750098967195025408,-1032794179955746054078464)], [0; 0; 0; 0; 0; 0; 0]%nat);
  (234, [(-1821,-935); (-1460,-1504); (220,-4002); (654,-4217); (1645,-4401); (1717,-4169); (1821,-2841)], [3; 2; 2; 2; 3; 2; 1]%nat);
  (234, [(-516901384011054588100608,-202788252417541898502144); (516901384011054588100608,-1485012579135853644742656)], [0; 0; 0; 0; 0; 0; 3]%nat);
  (234, [(-858,-979); (234,-2525); (376,-2591); (1001,-2784); (1055,-2511); (1212,398)], [1; 1; 2; 1; 1; 0; 11]%nat);
  (235, [(-742506289567926822371328,-291296478454182353829888); (742506289567926822371328,-2133155789871669577777152)], [0; 0; 0; 0; 0; 0; 3]%nat);
  (235, [(-1170,-1011); (199,-3024); (490,-3188); (1262,-3334); (1297,-3138); (1631,186)], [2; 2; 1; 1; 2; 1; 0]%nat);
  (235, [(-533288947467917394444288,-209217342100009427927040); (533288947467917394444288,-1532092619212333630095360)], [0; 0; 0; 0; 0; 0; 0]%nat);
  (236, [(-1501,-1146); (93,-3544); (506,-3860); (1513,-4142); (1596,-3806); (1837,570)], [2; 1; 2; 2; 1; 1; 0]%nat);
  (236, [(-766794401705391573434368,-300825073205966475886592); (766794401705391707652096,-2202933417023129421611008)], [0; 0; 0; 0; 0; 0; 3]%nat);
  (236, [(-898,-754); (143,-2267); (287,-2363); (887,-2568); (966,-2391); (1193,167)], [2; 1; 2; 2; 2; 2; 11]%nat);
  (237, [(-1102542359594095498756096,-432544089132518741114880); (1102542359594095364538368,-3167508007663492835311616)], [0; 0; 0; 0; 0; 0; 3]%nat);
  (237, [(-1285,-594); (-1024,-1017); (84,-2639); (377,-2930); (1135,-3118); (1183,-2973); (1285,-2080)], [3; 3; 3; 2; 3; 2; 0]%nat);
  (238, [(-1585300638601113480724480,-621937483633159621836800); (1585300638601113480724480,-4554430424942349698203648)], [0; 0; 0; 0; 0; 0; 0]%nat);
  (238, [(-1561,-767); (-1197,-1336); (297,-3464); (509,-3577); (1321,-3794); (1466,-3645); (1561,-2409)], [2; 2; 3; 2; 3; 2; 13]%nat);
  (238, [(-1138607606235587558768640,-446693032365526056173568); (1138607606235587558768640,-3271120314747405364887552)], [0; 0; 0; 0; 0; 0; 0]%nat);
  (239, [(-1824,-1111); (-1488,-1624); (384,-4277); (669,-4402); (1734,-4606); (1790,-4352); (2124,-356)], [2; 1; 2; 1; 3; 2; 13]%nat);
  (239, [(-1637157384089887907512320,-642281671362216095383552); (1637157384089888175947776,-4703410330483150074937344)], [0; 0; 0; 0; 0; 0; 3]%nat);
  (239, [(-1153,-592); (-912,-1011); (278,-2660); (406,-2709); (1070,-2827); (1153,-2323)], [2; 2; 2; 1; 2; 1; 0]%nat);
  (240, [(-2354001752317006272528384,-923510588878570657939456); (2354001752317006272528384,-6762841659220313556123648)], [0; 0; 0; 0; 0; 0; 3]%nat);
  (240, [(-1415,-727); (-1163,-1146); (296,-3197); (506,-3344); (1331,-3437); (1415,-2815)], [2; 2; 2; 2; 2; 1; 11]%nat);
  (240, [(-1690710414805078389030912,-663291337511927883497472); (1690710414805078389030912,-4857263515486822787448832)], [0; 0; 0; 0; 0; 0; 0]%nat);
  (241, [(-1415,-1435); (364,-3924); (574,-4049); (1600,-4208); (1674,-4008); (1821,782)], [1; 0; 1; 0; 2; 1; 11]%nat);
  (241, [(-2428631757743411393724416,-952789071866745384337408); (2428631757743411393724416,-6977247153705928831795200)], [0; 0; 0; 0; 0; 0; 0]%nat);
  (241, [(-1053,-592); (-860,-902); (196,-2410); (359,-2494); (982,-2582); (1013,-2465); (1053,-1558)], [3; 3; 2; 2; 2; 2; 0]%nat);
  (242, [(-3492030435814735003779072,-1369976501073930423894016); (3492030435814735003779072,-10032298779450037940256768)], [0; 0; 0; 0; 0; 0; 3]%nat);
  (242, [(-1002,-1173); (296,-2994); (451,-3073); (1205,-3223); (1247,-3023); (1388,538)], [1; 0; 2; 1; 1; 0; 11]%nat);
  (242, [(-2510523986556710933233664,-984916635230499197943808); (2510523986556710933233664,-7212516382388475341570048)], [0; 0; 0; 0; 0; 0; 3]%nat);
  (243, [(-1453,-1093); (269,-3586); (587,-3767); (1498,-3903); (1538,-3711); (1783,486)], [2; 2; 1; 1; 2; 1; 0]%nat);
  (243, [(-3609779927709075919339520,-1416171412565589676261376); (3609779927709076456210432,-10370582796592875342659584)], [0; 0; 0; 0; 0; 0; 0]%nat);
  (243, [(-890,-682); (122,-2150); (274,-2275); (897,-2423); (943,-2240); (1053,383)], [2; 1; 2; 2; 2; 1; 11]%nat);
  (244, [(-5185291398296437671329792,-2034268457121715241091072); (5185291398296437671329792,-14896889795888942321500160)], [0; 0; 0; 0; 0; 0; 3]%nat);
  (244, [(-977,-1011); (192,-2683); (341,-2806); (1076,-2984); (1139,-2867); (1371,344)], [2; 2; 2; 1; 2; 2; 11]%nat);
  (244, [(-3724222448972235580375040,-1461068949324202090954752); (3724222448972235580375040,-10699366175629409781809152)], [0; 0; 0; 0; 0; 0; 0]%nat);
  (245, [(-1435,-845); (93,-3210); (506,-3474); (1343,-3644); (1404,-3530); (1673,96)], [2; 2; 2; 1; 2; 1; 0]%nat);
  (245, [(-5354907387705149246930944,-2100811382209971245547520); (5354907387705150320672768,-15384181735291300542939136)], [0; 0; 0; 0; 0; 0; 0]%nat);
  (245, [(-912,-477); (-717,-781); (211,-2071); (803,-2317); (869,-2102); (912,-1391)], [2; 2; 2; 2; 2; 2; 0]%nat);
  (246, [(-7699602675133585857445888,-3020670903768326843924480); (7699602675133585857445888,-22120286732830477656260608)], [0; 0; 0; 0; 0; 0; 3]%nat);
  (246, [(-1160,-512); (-883,-964); (239,-2542); (682,-2735); (1037,-2687); (1160,-1871)], [2; 1; 2; 2; 3; 2; 0]%nat);
  (247, [(-11060143366415238828130304,-4339061983851932886761472); (11060143366415238828130304,-31774826948076708678336512)], [0; 0; 0; 0; 0; 0; 3]%nat);
  (247, [(-1368,-691); (-1020,-1264); (256,-3088); (482,-3212); (1271,-3335); (1368,-2738)], [2; 1; 2; 2; 2; 2; 11]%nat);
  (247, [(-7951464263129547612880896,-3119480024541956463919104); (7951464263129547612880896,-22843863101446151617904640)], [0; 0; 0; 0; 0; 0; 0]%nat);
  (248, [(-1370,-1368); (346,-3776); (633,-3940); (1546,-4124); (1608,-3858); (1806,649)], [1; 0; 1; 0; 1; 0; 11]%nat);
  (248, [(-11433085780753079152410624,-4485372949144941283508224); (11433085780753077004926976,-32846257967060282920402944)], [0; 0; 0; 0; 0; 0; 3]%nat);
  (248, [(-920,-730); (162,-2293); (342,-2396); (944,-2486); (985,-2322); (1141,303)], [2; 1; 1; 1; 1; 1; 0]%nat);
  (249, [(-16439167195428120027987968,-6449334611743567708684288); (16439167195428122175471616,-47228293115203085647478784)], [0; 0; 0; 0; 0; 0; 0]%nat);
  (249, [(-1101,-932); (152,-2739); (365,-2938); (1148,-3119); (1199,-2913); (1341,452)], [2; 2; 2; 2; 2; 1; 11]%nat);
  (249, [(-11818603623799600271327232,-4636617445842806959505408); (11818603623799602418810880,-33953817095578996514488320)], [0; 0; 0; 0; 0; 0; 3]%nat);
  (250, [(-1408,-1041); (226,-3363); (466,-3604); (1371,-3808); (1470,-3681); (1753,356)], [2; 2; 2; 1; 2; 1; 0]%nat);
  (250, [(-16993487560043198846861312,-6666802897758739442434048); (16993487560043198846861312,-48820807160990501317902336)], [0; 0; 0; 0; 0; 0; 3]%nat);
  (250, [(-919,-561); (89,-2022); (261,-2191); (842,-2298); (902,-2239); (1054,3)], [2; 1; 2; 2; 2; 1; 0]%nat);
  (251, [(-24434241865241828752621568,-9585923660235279484059648); (24434241865241833047588864,-70197445110257289525198848)], [0; 0; 0; 0; 0; 0; 0]%nat);
  (251, [(-921,-1011); (281,-2682); (1012,-2858); (1097,-2767); (1268,444)], [1; 0; 1; 1; 1; 1; 9]%nat);
  (251, [(-17549361277564322381299712,-6884880587677510666289152); (17549361277564324528783360,-50417783854154525446242304)], [0; 0; 0; 0; 0; 0; 0]%nat);
  (252, [(-1121,-1245); (222,-3205); (506,-3362); (1342,-3464); (1627,413)], [2; 2; 1; 1; 2; 1; 9]%nat);
  (252, [(-25233509985599800064606208,-9899488665774092372148224); (25233509985599800064606208,-72493672687795485500506112)], [0; 0; 0; 0; 0; 0; 3]%nat);
  (252, [(-867,-476); (-692,-752); (103,-1939); (312,-2057); (802,-2184); (841,-2017); (867,-1257)], [3; 2; 3; 2; 3; 2; 1]%nat);
  (253, [(-36246836343897742750253056,-14220183627301857378959360); (36246836343897742750253056,-104133998456107141674565632)], [0; 0; 0; 0; 0; 0; 3]%nat);
  (253, [(-867,-910); (238,-2450); (376,-2514); (970,-2705); (1030,-2464); (1250,277)], [1; 1; 2; 1; 2; 1; 11]%nat);
  (253, [(-26058922953493607448838144,-10223310691521221422481408); (26058922953493607448838144,-74865012131293561301762048)], [0; 0; 0; 0; 0; 0; 0]%nat);
  (254, [(-1195,-905); (139,-2918); (455,-3102); (1221,-3233); (1258,-3022); (1591,116)], [2; 2; 1; 1; 2; 1; 0]%nat);
  (254, [(-37432506065646780650881024,-14685339841340436394278912); (37432506065646780650881024,-107540324122784337168957440)], [0; 0; 0; 0; 0; 0; 3]%nat);
  (254, [(-671,-641); (29,-1678); (226,-1874); (730,-2050); (776,-1872); (882,296)], [2; 2; 2; 2; 2; 1; 11]%nat);
  (255, [(-53770162061392168584478720,-21094850069901392717283328); (53770162061392168584478720,-154476984417656654945845248)], [0; 0; 0; 0; 0; 0; 0]%nat);
  (255, [(-1026,-477); (-809,-818); (148,-2210); (321,-2306); (840,-2461); (938,-2361); (1026,-1617)], [3; 2; 3; 2; 3; 2; 0]%nat);
  (256, [(-77238492208828327472922624,-30301831913956009696034816); (77238492208828327472922624,-221899449433750562395914240)], [0; 0; 0; 0; 0; 0; 0]%nat);
  (256, [(-978,-1026); (239,-2770); (409,-2848); (1106,-3022); (1154,-2820); (1450,261)], [1; 0; 2; 1; 2; 1; 11]%nat);
  (256, [(-55529037028709555058507776,-21784883395166457443647488); (55529037028709555058507776,-159530078745486119760035840)], [0; 0; 0; 0; 0; 0; 3]%nat);
  (257, [(-1323,-1068); (130,-3292); (513,-3495); (1385,-3677); (1424,-3454); (1713,307)], [2; 1; 1; 1; 2; 1; 0]%nat);
  (257, [(-79765039372743059880017920,-31293034684676050236997632); (79765039372743059880017920,-229157999006744521289498624)], [0; 0; 0; 0; 0; 0; 0]%nat);
  (257, [(-920,-466); (-822,-633); (77,-1945); (267,-2126); (824,-2341); (920,-1903)], [3; 3; 3; 3; 2; 2; 1]%nat);
  (258, [(-114690893057574781157638144,-44994976780436238497742848); (114690893057574763977768960,-329496929532657284121886720)], [0; 0; 0; 0; 0; 0; 0]%nat);
  (258, [(-952,-889); (233,-2541); (317,-2596); (951,-2793); (1064,-2658); (1425,2)], [1; 1; 2; 1; 2; 2; 11]%nat);
  (258, [(-82374232383164321030471680,-32316660674410447242264576); (82374232383164321030471680,-236653982886304136655011840)], [0; 0; 0; 0; 0; 0; 3]%nat);
  (259, [(-1323,-833); (1,-2856); (445,-3241); (1272,-3349); (1299,-3263); (1594,-349)], [2; 1; 1; 1; 2; 1; 0]%nat);
  (259, [(-118442545145733282877407232,-46466806793218735755755520); (118442545145733282877407232,-340275098668566437397790720)], [0; 0; 0; 0; 0; 0; 0]%nat);
  (259, [(-665,-732); (208,-1950); (715,-2143); (811,-1988); (896,354)], [1; 1; 1; 1; 1; 0; 9]%nat);
  (260, [(-170303699284804978815795200,-66812724102649344505675776); (170303699284805013175533568,-489267669877038832305569792)], [0; 0; 0; 0; 0; 0; 3]%nat);
  (260, [(-1072,-514); (141,-2303); (366,-2428); (714,-2498); (975,-2509); (1072,-1784)], [2; 1; 1; 1; 2; 1; 0]%nat);
  (260, [(-122316917469259708076392448,-47986781815545305099141120); (122316917469259708076392448,-351405832333944938752376832)], [0; 0; 0; 0; 0; 0; 0]%nat);
  (261, [(-1256,-753); (257,-2918); (1153,-3176); (1215,-2913); (1256,-2228)], [1; 1; 1; 1; 1; 1; 9]%nat);
  (261, [(-175874501046041767221133312,-68998234121909779115802624); (175874501046041732861394944,-505272097311753939682590720)], [0; 0; 0; 0; 0; 0; 0]%nat);
  (261, [(-628,-662); (188,-1823); (730,-1933); (922,154)], [1; 1; 1; 0; 1; 1; 7]%nat);
  (262, [(-252882763547142483485917184,-99209743429796540482322432); (252882763547142517845655552,-726510116881623882634625024)], [0; 0; 0; 0; 0; 0; 0]%nat);
  (262, [(-967,-495); (77,-2077); (331,-2251); (912,-2361); (967,-1441)], [2; 2; 1; 1; 1; 1; 0]%nat);
  (262, [(-181804899854410287390130176,-71324819516508747222482944); (181804899854410253030391808,-522309615689787797453930496)], [0; 0; 0; 0; 0; 0; 0]%nat);
  (263, [(248,-2679); (1040,-2964); (1127,-2717); (1304,506)], [0; 7; 0; 0; 0; 0; 7]%nat);
  (263, [(-261409841836929942789554176,-102555045566918725610766336); (261409841836929942789554176,-751007668862138143282823168)], [0; 0; 0; 0; 0; 0; 3]%nat);
  (263, [(-640,-544); (127,-1685); (670,-1764); (883,-40)], [2; 2; 1; 1; 1; 1; 1]%nat);
  (264, [(-375503834431069071641411584,-147315849242790813937696768); (375503834431069071641411584,-1078789755440002761760964608)], [0; 0; 0; 0; 0; 0; 0]%nat);
  (264, [(-884,-456); (-284,-1431); (272,-2098); (882,-2288)], [2; 2; 3; 2; 1; 1; 0]%nat);
  (265, [(-539921630530274813554982912,-211819444258486519695671296); (539921630530274744835506176,-1551147738981197056323878912)], [0; 0; 0; 0; 0; 0; 3]%nat);
  (265, [(228,-2452); (753,-2735); (1049,-2603); (1349,347)], [0; 0; 0; 0; 3; 1; 7]%nat);
  (265, [(-387786934745299264080969728,-152134695784975480754536448); (387786934745299264080969728,-1114078031002115349980119040)], [0; 0; 0; 0; 0; 0; 3]%nat);
  (266, [(174,-3222); (1227,-3225); (1948,-41)], [1; 1; 0; 0; 0; 0; 0]%nat);
  (266, [(-557582998914632948100628480,-218748266932889997115654144); (557582998914632948100628480,-1601887309481095662309212160)], [0; 0; 0; 0; 0; 0; 0]%nat);
  (266, [(-982,-76); (-42,-1928); (806,-2245)], [2; 2; 2; 1; 1; 1; 1]%nat);
  (267, [(-800943654740547831154606080,-314222343088718065046650880); (800943654740547831154606080,-2301041241637149459028639744)], [0; 0; 0; 0; 0; 0; 3]%nat);
  (267, [(-1124,-490); (38,-2080); (1124,-3133)], [1; 1; 2; 1; 2; 1; 5]%nat)
 ].
