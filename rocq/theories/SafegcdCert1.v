(* Certificate for the number of division steps: one polygon per remaining step count.  Entry r is
   (e, corners, offsets).  The corners are linear forms (a, b); a pair (f, g) is in set r when
   |a * f + b * g| < 2 ^ e for every corner.  The offsets tell the checker in Safegcd.v where to start
   each walk round the polygon.  Nothing here is trusted: Safegcd.v checks every entry. *)
Require Import ZArith List.
Import ListNotations.
Local Open Scope Z_scope.

(* No code modelled: data for /repo/src/modinv64_impl.h:597-598 (590 division steps suffice) *)
Definition cert_590 : list (Z * list (Z * Z) * list nat) :=
 [
  (18, [(-1,0); (0,-262144)], []%nat);
  (18, [(-131072,131072); (0,-131072)], [0]%nat);
  (18, [(-65536,-65536); (0,-131072); (65536,-65536)], [0; 5]%nat);
  (19, [(-131072,0); (65536,-196608); (131072,-196608)], [0; 0; 0; 5]%nat);
  (19, [(-65536,-98304); (39322,-150733); (114688,0)], [0; 0; 5; 5]%nat);
  (20, [(-154598,41170); (0,-229376); (131072,-229376)], [1; 1; 1; 0; 0; 0]%nat);
  (20, [(-114688,-16384); (-98304,-81920); (-56132,-124092); (39322,-150733); (114688,-114688)], [2; 2; 2; 1; 0; 1]%nat);
  (21, [(-158667,-70710); (16384,-245761); (92843,-283990); (147766,-229068)], [1; 2; 2; 2; 1; 0; 0; 7]%nat);
  (21, [(-141995,49152); (-114688,-73728); (-98304,-106496); (35355,-194022); (114688,-172032)], [2; 2; 2; 2; 2; 2; 0; 0]%nat);
  (21, [(-97011,61656); (-86016,-28672); (-49782,-101141); (40960,-159745); (62046,-149202)], [2; 2; 2; 4; 3; 4; 3; 2; 2; 1]%nat);
  (22, [(-159746,77825); (-141996,-21846); (-112473,-108935); (35355,-211700); (114688,-200705)], [2; 3; 3; 2; 2; 2; 2; 2; 0; 0]%nat);
  (22, [(-100353,-14336); (-86016,-71680); (-38913,-120834); (36864,-169985); (53376,-178240); (107373,-93996)], [2; 2; 2; 2; 2; 4; 4; 4; 3; 11]%nat);
  (23, [(-178241,71488); (-149203,-49491); (-114534,-119133); (-20088,-197832); (97724,-256734); (159746,-157698)], [3; 2; 2; 3; 3; 2; 2; 3; 3; 11]%nat);
  (23, [(-128367,30643); (-100353,-64512); (-86016,-93184); (-37995,-141208); (54468,-194175); (105850,-123420)], [3; 2; 2; 3; 3; 3; 3; 4; 4; 0]%nat);
  (24, [(-194176,85239); (-172914,-52021); (-93996,-167749); (-30643,-226092); (71680,-279553); (110355,-275626); (175758,-172349)], [2; 3; 3; 2; 1; 3; 3; 3; 2; 0]%nat);
  (24, [(-142788,59582); (-128367,-33541); (-90331,-109655); (-35744,-160370); (26011,-198925); (55031,-207967); (106794,-161371)], [2; 2; 2; 2; 2; 3; 2; 3; 3; 0]%nat);
  (24, [(-103984,48952); (-95135,-21463); (-44187,-103060); (16770,-145138); (46592,-155904); (70604,-143901); (97088,-91163)], [2; 2; 2; 2; 2; 2; 1; 3; 3; 0]%nat);
  (25, [(-155905,62720); (-135613,-54121); (-85114,-134357); (-42620,-172867); (21463,-211734); (79835,-222522); (113046,-200213); (139777,-137985)], [2; 3; 2; 3; 2; 2; 2; 3; 2; 15]%nat);
  (25, [(-93383,-53241); (-29791,-127893); (27061,-162674); (54828,-172573); (80185,-156022); (99463,-123183); (114754,-47967)], [0; 0; 0; 1; 1; 1; 1; 0; 0; 12]%nat);
  (26, [(-172574,62917); (-144608,-68196); (-88800,-152150); (-48952,-183493); (53149,-240002); (103060,-242965); (145139,-184168); (155905,-140673)], [4; 2; 2; 3; 2; 3; 2; 3; 2; 15]%nat);
  (26, [(-102857,-59256); (-68993,-105282); (-31459,-141117); (27061,-176205); (54828,-186281); (67179,-185883); (86434,-172272); (105868,-137339); (125965,-37113)], [2; 1; 1; 2; 1; 2; 2; 2; 2; 17]%nat);
  (27, [(-188375,65543); (-172574,-23370); (-156023,-82359); (-143902,-105233); (-123183,-137335); (-91163,-171386); (-37113,-214818); (53241,-266629); (103060,-268730); (127893,-251422); (162675,-189890); (172574,-149204)], [7; 7; 7; 5; 5; 5; 5; 5; 5; 23]%nat);
  (27, [(-121483,-42319); (-100107,-88020); (-87111,-105964); (-31459,-156845); (27656,-194408); (74572,-204224); (88136,-192395); (112553,-153026); (139250,-59220)], [2; 3; 2; 2; 2; 2; 2; 3; 3; 0]%nat);
  (27, [(-102113,27540); (-92942,-20708); (-86137,-43366); (-78012,-60683); (-61592,-84066); (-29610,-109641); (28263,-147261); (52641,-147956); (69981,-138359); (88103,-105094); (97205,-69549)], [5; 6; 6; 6; 5; 5; 4; 5; 4; 21]%nat);
  (28, [(-134366,-35878); (-125390,-66120); (-92084,-122118); (-27540,-176687); (20708,-206593); (41180,-217793); (52617,-222828); (68668,-226185); (85693,-219703); (107409,-198227); (133315,-146731); (152579,-69388)], [2; 2; 2; 2; 2; 2; 2; 2; 2; 0]%nat);
  (28, [(-113113,44249); (-101596,-26699); (-86136,-64900); (-68670,-88701); (-29610,-124445); (17939,-152306); (44010,-166123); (52982,-166585); (77781,-150151); (97204,-118150); (111414,-58797)], [5; 5; 5; 6; 5; 6; 5; 4; 3; 0]%nat);
  (29, [(-166586,60621); (-141072,-65274); (-125711,-96466); (-94945,-138939); (-44249,-181978); (26699,-229892); (60683,-247049); (84066,-249284); (109641,-223682); (147262,-164366); (166124,-78103)], [3; 4; 4; 4; 3; 4; 3; 4; 3; 0]%nat);
  (29, [(-124642,40576); (-109852,-30767); (-97284,-62468); (-76380,-93624); (-34694,-135233); (33060,-174981); (61059,-183673); (88243,-160230); (103297,-134237); (110356,-119020); (123525,-62842)], [4; 4; 4; 4; 4; 5; 4; 5; 4; 21]%nat);
  (30, [(-183674,61555); (-158378,-63125); (-138360,-105373); (-113854,-141703); (-58797,-193430); (-40576,-208709); (30767,-250472); (64900,-269623); (88602,-270461); (124445,-245888); (164800,-168678)], [4; 4; 4; 5; 5; 5; 4; 5; 4; 21]%nat);
  (30, [(-135231,46629); (-124642,-21745); (-101716,-79013); (-80740,-108178); (-39052,-146599); (-30778,-152897); (31563,-189941); (49431,-198645); (69470,-199150); (90989,-180733); (114946,-145721); (123525,-124604); (134812,-69912)], [5; 5; 4; 5; 5; 6; 5; 7; 6; 0]%nat);
  (31, [(-199151,60210); (-183674,-30282); (-160231,-96371); (-150152,-118025); (-118150,-164871); (-62842,-215630); (21745,-271030); (84710,-297687); (135234,-272239); (174982,-196352); (198646,-99783)], [5; 5; 5; 5; 4; 5; 5; 5; 5; 21]%nat);
  (31, [(-148844,64134); (-135231,-20987); (-121971,-66299); (-82183,-126717); (-30105,-169047); (15141,-198816); (52687,-217391); (70852,-220132); (96715,-203870); (104355,-197109); (125236,-157088); (134812,-137318)], [3; 3; 3; 3; 3; 5; 5; 5; 5; 0]%nat);
  (31, [(-110067,39214); (-99576,-19683); (-90367,-45806); (-80116,-68215); (-65986,-88278); (-59510,-95479); (-34956,-117335); (10494,-145726); (39507,-160977); (54089,-161875); (72659,-149725); (76449,-145452); (98165,-104935); (108696,-56009)], [6; 6; 6; 6; 6; 6; 5; 6; 6; 0]%nat);
  (32, [(-161876,53697); (-138050,-63288); (-122552,-94501); (-84339,-143716); (-48365,-175030); (19683,-218836); (59013,-238672); (82436,-241804); (107815,-224565); (135516,-181528); (148844,-138556); (160978,-81963)], [4; 4; 4; 4; 4; 4; 4; 5; 5; 23]%nat);
  (32, [(-120902,38466); (-110066,-15819); (-100032,-52755); (-72861,-96731); (-62302,-107950); (-32067,-132811); (33150,-171696); (63359,-177221); (84524,-156891); (99408,-133972); (108696,-110357); (119336,-60323)], [5; 4; 4; 5; 4; 5; 5; 5; 4; 23]%nat);
  (33, [(-177222,50503); (-156215,-55918); (-136120,-101205); (-104188,-144886); (-56009,-189388); (-38466,-203339); (15819,-235952); (68215,-262556); (88278,-264390); (95479,-262240); (117335,-245915); (144657,-200066); (160978,-162452); (171697,-105396)], [4; 4; 4; 5; 4; 5; 4; 5; 4; 27]%nat);
  (33, [(-132196,43917); (-131121,35641); (-120902,-21985); (-112283,-51674); (-98555,-79717); (-85928,-96601); (-68659,-117648); (-40982,-140488); (-25252,-151971); (27959,-184175); (47251,-193428); (63359,-193061); (71858,-192127); (87515,-179638); (109418,-144445); (119336,-119991); (131279,-63063)], [8; 7; 7; 7; 6; 7; 7; 8; 7; 0]%nat);
  (34, [(-193429,98926); (-192911,52957); (-177222,-38108); (-151910,-103466); (-145217,-117012); (-104935,-170097); (-60323,-208511); (-35641,-226602); (21985,-263790); (52755,-279198); (96731,-290820); (107950,-286530); (132812,-263352); (171697,-191245)], [6; 6; 6; 6; 6; 7; 6; 6; 6; 0]%nat);
  (34, [(-145565,47666); (-131121,-29919); (-122958,-55856); (-112283,-79745); (-90764,-112825); (-37373,-159293); (19054,-196277); (50603,-212025); (72443,-212853); (94694,-198051); (101670,-190971); (117976,-161146); (131279,-128702); (139600,-86844)], [4; 5; 5; 5; 5; 5; 4; 5; 4; 27]%nat);
  (34, [(-106427,33984); (-96064,-23826); (-89819,-42606); (-78446,-64913); (-66986,-82662); (-48579,-101743); (-23833,-121732); (14960,-146081); (39859,-158343); (48301,-158379); (58824,-156896); (70244,-146349); (75986,-139231); (95262,-104444); (106013,-55410)], [5; 6; 5; 6; 5; 6; 5; 6; 5; 29]%nat);
  (35, [(-158410,47637); (-143266,-36318); (-131677,-66974); (-122958,-86596); (-92118,-131062); (-48454,-169588); (23826,-215955); (58506,-232977); (85049,-232509); (104256,-216707); (113301,-205593); (131896,-175858); (139600,-156644); (158344,-78625)], [5; 4; 4; 5; 5; 5; 5; 5; 4; 27]%nat);
  (35, [(-116489,57983); (-116255,31206); (-106427,-19230); (-97865,-49255); (-89820,-65061); (-72223,-91363); (-59996,-104338); (-23819,-134593); (18159,-161426); (39873,-172093); (56413,-175384); (79647,-156844); (98139,-128155); (106013,-108417)], [7; 6; 6; 7; 6; 7; 6; 6; 6; 0]%nat);
  (36, [(-175385,62558); (-156897,-39200); (-146350,-67314); (-131677,-99893); (-101505,-142449); (-55410,-184322); (-31206,-201305); (19230,-232085); (64117,-254096); (82662,-257966); (101743,-249773); (121732,-230265); (146082,-189202); (158344,-157797); (172094,-92347)], [4; 5; 5; 5; 4; 6; 5; 5; 5; 0]%nat);
  (36, [(-128983,46321); (-116255,-26922); (-108354,-50079); (-95486,-77799); (-75301,-104917); (-38306,-139633); (19600,-176498); (43298,-187906); (65339,-190563); (84794,-175646); (107978,-138141); (116489,-116227); (127048,-62931)], [5; 5; 5; 5; 5; 5; 5; 5; 5; 24]%nat);
  (37, [(-190564,59885); (-175385,-25134); (-153806,-90006); (-139232,-117165); (-104444,-164414); (-57734,-204200); (26922,-259433); (65061,-277233); (91363,-281492); (104338,-276500); (134594,-249528); (161427,-205822); (172094,-178394); (187907,-101310)], [5; 4; 4; 5; 5; 5; 4; 5; 5; 27]%nat);
  (37, [(-140832,48418); (-125504,-37728); (-115133,-64166); (-103333,-86797); (-87929,-109914); (-78322,-120020); (-41618,-153116); (12567,-187953); (49947,-206598); (71225,-208343); (92161,-193652); (100653,-182185); (116043,-154834); (127048,-126455); (138617,-73556)], [6; 6; 6; 6; 6; 6; 6; 6; 6; 29]%nat);
  (37, [(-104172,32947); (-95282,-17698); (-87823,-40883); (-78422,-60042); (-64078,-82120); (-54209,-92461); (-31466,-111316); (-23161,-117403); (18864,-144369); (38900,-153836); (52459,-153989); (69817,-143031); (88249,-112774); (93953,-97632); (103299,-53352)], [6; 7; 6; 6; 5; 7; 6; 6; 5; 0]%nat);
  (38, [(-153990,49071); (-138251,-35213); (-124764,-72212); (-115133,-92949); (-94601,-122432); (-78899,-138620); (-44004,-168222); (17698,-208263); (45003,-221311); (58583,-227107); (82207,-227755); (102100,-210885); (129717,-167653); (138617,-142864); (153837,-76036)], [6; 6; 6; 6; 6; 6; 6; 6; 6; 29]%nat);
  (38, [(-113878,31671); (-104172,-19139); (-96827,-43748); (-87824,-62839); (-69071,-90711); (-58114,-101961); (-36778,-120229); (-24536,-129455); (17607,-155859); (32083,-163259); (43399,-168432); (54957,-170366); (60010,-168338); (76559,-156456); (93977,-128399); (103300,-105002); (113554,-54971)], [7; 7; 6; 7; 6; 6; 5; 7; 6; 33]%nat);
  (39, [(-170450,59537); (-153990,-27924); (-143032,-68119); (-124764,-103403); (-102911,-135700); (-89197,-149795); (-53352,-179923); (-31671,-196086); (19139,-227484); (60042,-246908); (82120,-251337); (92461,-247110); (111316,-229907); (117403,-222427); (144370,-178826); (153837,-152955); (168433,-81634)], [6; 6; 6; 6; 6; 6; 6; 7; 6; 0]%nat);
  (39, [(-125679,43461); (-113878,-25268); (-105443,-49379); (-94213,-73589); (-77060,-97181); (-63228,-111242); (-35746,-136955); (13962,-167953); (46475,-184846); (61216,-186426); (69311,-182865); (84112,-170172); (104132,-138500); (112894,-114973); (123455,-63412)], [6; 6; 6; 6; 6; 6; 5; 6; 5; 0]%nat);
  (40, [(-186431,63918); (-168371,-35746); (-156457,-74890); (-143032,-103877); (-112774,-148305); (-97632,-163499); (-54971,-199623); (-43461,-207898); (25268,-253025); (62839,-269908); (90711,-274210); (101961,-269171); (120229,-253900); (129455,-243255); (155860,-198575); (163260,-180723); (168433,-165851); (184847,-91896)], [6; 7; 7; 7; 6; 7; 6; 7; 5; 35]%nat);
  (40, [(-137106,46394); (-123798,-30031); (-114954,-53839); (-105443,-75740); (-83827,-108761); (-71432,-120759); (-40817,-148025); (-31959,-154473); (19944,-187565); (51702,-202317); (67850,-204687); (74898,-201544); (89962,-188295); (98043,-178736); (113742,-151475); (123454,-125139); (134955,-72115)], [6; 7; 6; 7; 6; 7; 6; 7; 5; 33]%nat);
  (41, [(-204710,68702); (-183302,-45954); (-170173,-83138); (-156457,-114004); (-128399,-155855); (-105002,-180350); (-63412,-215205); (-46394,-227819); (30031,-277628); (73589,-298811); (97181,-299893); (111242,-293320); (136956,-276926); (167954,-224006); (184847,-184320); (202318,-98913)], [6; 7; 6; 7; 7; 7; 6; 7; 6; 31]%nat);
  (41, [(-149947,52766); (-137106,-22159); (-134586,-34668); (-125989,-59534); (-114954,-82578); (-111214,-89600); (-89413,-122017); (-76478,-134718); (-45948,-161874); (-34351,-170360); (22977,-206280); (51939,-220941); (74153,-224004); (81750,-220257); (99812,-204689); (103949,-199385); (126513,-164501); (134955,-139593); (149406,-75817)], [8; 9; 8; 9; 8; 9; 8; 9; 8; 0]%nat);
  (41, [(-112002,37849); (-101134,-23509); (-94148,-42888); (-85086,-62841); (-69250,-86820); (-57487,-98523); (-34672,-118117); (11080,-148186); (17334,-151921); (37870,-162249); (54381,-165398); (60380,-162002); (74013,-151836); (77237,-147814); (93783,-120730); (101159,-100036); (110471,-58532)], [6; 6; 6; 6; 6; 6; 6; 6; 6; 0]%nat);
  (42, [(-165399,56636); (-147388,-35268); (-138464,-67725); (-121628,-99049); (-99288,-131039); (-88564,-142667); (-45130,-181454); (23509,-225778); (57002,-241961); (77928,-245291); (90175,-240265); (111027,-221781); (138815,-178191); (149406,-150520); (162250,-86509)], [6; 6; 6; 6; 6; 6; 5; 6; 6; 29]%nat);
  (42, [(-122646,44718); (-110950,-24371); (-102345,-48640); (-90793,-73704); (-73846,-97460); (-37909,-130452); (-28318,-137082); (17634,-165023); (41289,-176888); (44800,-178415); (61009,-180926); (67359,-177517); (80937,-167354); (85180,-162122); (103140,-131734); (110471,-113767); (120981,-63979)], [5; 6; 5; 6; 5; 6; 5; 6; 6; 0]%nat);
  (43, [(-180927,58908); (-164137,-32968); (-151837,-72108); (-138464,-102341); (-112003,-139954); (-92160,-161808); (-58532,-191677); (24371,-246272); (62841,-264435); (86820,-268731); (98523,-262760); (118117,-246520); (148187,-200120); (151922,-193214); (162250,-167634); (178416,-88815)], [6; 6; 6; 6; 6; 6; 6; 6; 6; 31]%nat);
  (43, [(-134366,47546); (-120226,-29854); (-110891,-55582); (-102345,-74226); (-99693,-79026); (-82251,-105951); (-53918,-132240); (-29454,-151474); (16484,-180622); (33863,-189258); (49525,-195915); (65520,-197568); (71334,-195565); (90727,-181221); (112889,-145825); (120981,-124469); (132218,-69377)], [6; 7; 6; 7; 6; 7; 6; 7; 6; 33]%nat);
  (44, [(-197569,66528); (-195566,52897); (-179544,-39532); (-166888,-79678); (-151837,-110067); (-147815,-117521); (-120730,-157384); (-100036,-177310); (-61086,-212594); (29854,-270307); (73704,-292143); (97460,-293883); (130452,-271497); (137083,-262260); (165024,-212267); (177982,-180036); (195916,-96865)], [8; 8; 8; 8; 8; 8; 8; 8; 8; 0]%nat);
  (44, [(-146942,49482); (-132624,-29210); (-123260,-56487); (-110891,-83305); (-89096,-116542); (-75260,-130591); (-44408,-156213); (-28329,-167890); (19766,-199311); (51171,-215221); (69977,-216969); (80904,-213517); (95839,-202291); (123136,-160334); (132218,-135486); (146072,-72368)], [6; 6; 6; 6; 6; 6; 6; 6; 6; 31]%nat);
  (44, [(-108615,35841); (-97783,-22443); (-90611,-45422); (-83677,-60018); (-81061,-64915); (-65867,-86674); (-56884,-96250); (-29764,-119006); (14605,-147230); (38778,-158813); (52976,-161715); (66120,-153099); (75737,-143060); (90311,-118983); (94629,-108081); (97958,-97412); (107611,-56440)], [7; 7; 7; 7; 6; 7; 7; 7; 6; 33]%nat);
  (45, [(-161716,55763); (-146942,-23989); (-135749,-62578); (-123260,-87302); (-100060,-123172); (-96607,-127771); (-83817,-141296); (-48433,-171700); (-35841,-181390); (22443,-218010); (55034,-234388); (58761,-235957); (78692,-238769); (88655,-233019); (106297,-220532); (135154,-172877); (146072,-145404); (158814,-81257)], [7; 8; 7; 8; 7; 8; 7; 8; 7; 0]%nat);
  (45, [(-119385,40693); (-106759,-27525); (-101146,-45266); (-90611,-68075); (-72913,-94661); (-62235,-105423); (-36184,-127980); (-27882,-133835); (11995,-158937); (41653,-173370); (58271,-176503); (65296,-173204); (78107,-161568); (83945,-154247); (99656,-129718); (107611,-110245); (117979,-59218)], [7; 7; 6; 7; 6; 7; 6; 7; 6; 0]%nat);
  (46, [(-176504,59961); (-161716,-25095); (-153100,-55691); (-137246,-93991); (-129879,-106411); (-106134,-138491); (-90018,-155478); (-56440,-187003); (-40693,-198078); (27525,-241044); (60018,-257382); (64915,-259495); (86674,-261746); (96250,-258144); (119006,-238038); (147231,-191636); (158814,-160664); (173371,-90064)], [7; 8; 7; 8; 7; 8; 7; 8; 7; 35]%nat);
  (46, [(-130873,44199); (-129072,32822); (-118476,-23862); (-110266,-51164); (-101146,-70553); (-80167,-103095); (-55497,-127296); (-29981,-146524); (12548,-174264); (43651,-188737); (61586,-192440); (63886,-192436); (70648,-189790); (85850,-177209); (90695,-171884); (109005,-141065); (117685,-119542); (129748,-64833)], [7; 7; 6; 7; 6; 7; 6; 7; 6; 35]%nat);
  (47, [(-192441,69268); (-192436,63781); (-174298,-41035); (-161210,-76398); (-143061,-115709); (-118983,-150877); (-109037,-161376); (-59218,-206350); (-44199,-217548); (-32822,-225323); (23862,-260815); (68075,-283336); (94661,-287819); (105423,-282606); (127980,-264339); (133836,-256517); (158938,-214416); (173371,-176750); (188738,-101435)], [7; 8; 7; 8; 7; 8; 7; 8; 7; 0]%nat);
  (47, [(-143910,49249); (-129072,-31714); (-119019,-59497); (-110266,-78731); (-86439,-113545); (-72702,-127897); (-45032,-150856); (-31891,-160546); (20518,-194816); (46996,-207740); (53206,-209688); (69246,-210003); (77739,-206627); (93502,-196693); (99039,-189252); (120522,-153259); (128691,-133019); (129748,-129707); (141669,-73593)], [6; 7; 6; 7; 6; 7; 6; 7; 6; 0]%nat);
  (47, [(-105005,35431); (-94994,-22913); (-87630,-44391); (-80784,-57911); (-77124,-64664); (-64859,-83442); (-55123,-93831); (-32417,-113540); (-24625,-119286); (15857,-144930); (35277,-154061); (51548,-157489); (63648,-150970); (73262,-139875); (87132,-118150); (94369,-97902); (104834,-52715)], [8; 8; 7; 8; 7; 8; 7; 8; 7; 33]%nat);
  (48, [(-157490,54393); (-142313,-31774); (-132170,-61895); (-119019,-89252); (-95818,-123277); (-80332,-138732); (-50718,-163380); (-35145,-174789); (22913,-212902); (57855,-229844); (75439,-232142); (80688,-230070); (103175,-213981); (108774,-207361); (112662,-201815); (130408,-171750); (141669,-144428); (154062,-83507)], [6; 7; 6; 7; 6; 7; 6; 7; 6; 0]%nat);
  (48, [(-116071,40632); (-115035,34347); (-103314,-26082); (-98347,-44329); (-85942,-69210); (-70533,-91372); (-59771,-102743); (-36797,-123271); (-27197,-130294); (15887,-158201); (39366,-169315); (56773,-171598); (63949,-168625); (75428,-158175); (80273,-152301); (97408,-125594); (103870,-108809); (114922,-57067)], [8; 8; 7; 8; 7; 8; 7; 8; 7; 0]%nat);
  (49, [(-171599,58052); (-157490,-24352); (-150971,-51811); (-132170,-94938); (-128259,-101772); (-107208,-132137); (-88375,-151278); (-52277,-183705); (-34347,-195724); (26082,-232711); (55999,-247640); (64664,-251245); (83442,-254882); (93831,-250993); (113540,-235145); (119286,-228180); (144931,-185682); (154062,-160538); (169316,-90583)], [7; 7; 7; 7; 7; 8; 7; 8; 7; 37]%nat);
  (49, [(-127441,43999); (-125497,31666); (-115035,-23171); (-106991,-49680); (-98347,-68916); (-94626,-75383); (-76630,-101365); (-66208,-112383); (-35750,-138293); (15422,-171791); (44626,-185959); (61639,-188276); (69366,-184382); (81690,-173254); (87395,-166237); (106451,-136764); (114922,-114528); (125623,-60959)], [8; 8; 8; 8; 8; 8; 8; 8; 7; 35]%nat);
  (50, [(-188277,64998); (-168868,-42932); (-153277,-84980); (-139876,-111556); (-118150,-144727); (-97902,-164263); (-57067,-201311); (-36830,-216135); (23171,-253242); (69210,-275700); (91372,-278125); (102743,-273658); (123271,-258501); (130294,-249836); (158202,-205528); (169316,-175241); (185960,-96707)], [6; 6; 6; 6; 6; 6; 6; 7; 6; 0]%nat);
  (50, [(-139096,47120); (-125497,-31083); (-117039,-56350); (-104223,-81959); (-100908,-87435); (-85875,-108940); (-72214,-123616); (-45292,-146671); (-32499,-155779); (21466,-190335); (47469,-203374); (50886,-204589); (66069,-206312); (75639,-201834); (91853,-190056); (97862,-181141); (116356,-148452); (123820,-129731); (125623,-123770); (137851,-68640)], [7; 8; 7; 8; 7; 8; 7; 8; 7; 39]%nat);
  (50, [(-103156,37087); (-94138,-14570); (-92191,-23271); (-86627,-38377); (-79088,-55656); (-76151,-61236); (-62797,-81709); (-54405,-90269); (-30480,-110384); (-23560,-115536); (15542,-141039); (36560,-151034); (50683,-152654); (56192,-150496); (69147,-139470); (85896,-113422); (92980,-94844); (102295,-51409)], [8; 9; 8; 9; 8; 9; 8; 9; 7; 0]%nat);
  (51, [(-152655,51288); (-150497,38112); (-136830,-34329); (-129251,-58646); (-117573,-84147); (-114090,-90764); (-92841,-121721); (-80269,-133995); (-47858,-162215); (17988,-205071); (55778,-223544); (72364,-226696); (82132,-221100); (100656,-208051); (108068,-198932); (126621,-166761); (137851,-137566); (151035,-77914)], [8; 8; 8; 8; 8; 8; 8; 8; 8; 35]%nat);
  (51, [(-113348,40984); (-103156,-14491); (-100917,-25181); (-95028,-44339); (-83119,-66616); (-68382,-89356); (-57264,-100606); (-34320,-120691); (-25644,-127011); (-19056,-131442); (17165,-153995); (40980,-165693); (43718,-166485); (54470,-167581); (61808,-164927); (73336,-155296); (77890,-149334); (95168,-121286); (101885,-104570); (111772,-55994)], [7; 8; 7; 8; 7; 8; 7; 8; 7; 0]%nat);
  (52, [(-167702,56394); (-150497,-37136); (-139471,-68559); (-126956,-95988); (-102764,-132512); (-87621,-147411); (-51409,-178886); (-40984,-185713); (14491,-220804); (25181,-227016); (55656,-241661); (61236,-244157); (81709,-248158); (90269,-244214); (110384,-226537); (115536,-220425); (141040,-180475); (151035,-153432); (165694,-83733); (166486,-79049)], [6; 7; 6; 7; 6; 7; 6; 7; 6; 0]%nat);
  (52, [(-124079,42370); (-113348,-15690); (-110550,-26857); (-104026,-48643); (-95028,-68096); (-90571,-75220); (-74226,-97800); (-64866,-107604); (-38957,-131557); (-28197,-139506); (18568,-169066); (44958,-182110); (60861,-184132); (66998,-180766); (81108,-169520); (102536,-135816); (111772,-111880); (122079,-60843)], [8; 9; 8; 9; 8; 9; 8; 9; 8; 35]%nat);
  (53, [(-184133,62410); (-164928,-41153); (-155297,-69024); (-139471,-103427); (-113422,-143437); (-79151,-178141); (-42370,-205789); (16217,-242719); (44339,-256565); (66616,-266163); (89356,-270799); (100606,-265438); (120691,-249677); (127011,-241805); (131443,-235276); (153996,-196663); (165694,-166580); (182111,-92194)], [5; 6; 5; 6; 5; 6; 5; 6; 5; 0]%nat);
  (53, [(-135400,46044); (-122735,-27473); (-113269,-53750); (-104026,-74650); (-99466,-83202); (-83381,-105776); (-70473,-119143); (-40422,-146055); (-31205,-152929); (20577,-185505); (47994,-198948); (66256,-202149); (73706,-198180); (89443,-185574); (92857,-180269); (110402,-151113); (113508,-145082); (120831,-125590); (122079,-121882); (133082,-66466)], [7; 8; 7; 8; 7; 8; 7; 8; 7; 39]%nat);
  (54, [(-202150,69637); (-182603,-38088); (-169521,-77456); (-155297,-107848); (-149335,-118447); (-121286,-160015); (-104570,-177628); (-60843,-213737); (-46044,-224757); (27473,-272944); (68096,-292201); (75220,-293973); (97800,-295153); (107604,-291139); (131558,-275251); (139507,-265654); (169067,-216464); (182111,-183250); (198949,-102960)], [7; 8; 7; 8; 7; 8; 7; 8; 7; 0]%nat);
  (54, [(-147578,49738); (-135400,-21656); (-132720,-34247); (-124551,-59149); (-113269,-82067); (-110213,-87983); (-90238,-118481); (-76716,-131857); (-46097,-159063); (-34819,-167332); (19044,-201648); (51714,-217042); (71719,-221001); (89071,-212758); (102895,-196713); (121360,-165823); (128283,-148085); (133082,-133007); (146101,-78005); (146987,-71767)], [9; 9; 8; 9; 8; 9; 8; 9; 8; 39]%nat);
  (54, [(-110501,38782); (-100179,-20899); (-92787,-43050); (-84760,-59918); (-67908,-85559); (-55940,-97787); (-33233,-116466); (-24869,-122709); (10828,-146229); (17124,-149844); (37325,-160014); (41601,-161868); (52888,-162714); (59572,-159831); (73028,-149964); (76465,-145902); (92753,-118552); (99474,-101217); (108521,-56807)], [6; 7; 6; 7; 6; 7; 6; 7; 6; 0]%nat);
  (55, [(-162715,56938); (-159832,40687); (-145570,-34819); (-137281,-63957); (-124839,-89482); (-120903,-96786); (-117638,-102034); (-98332,-129414); (-83290,-144872); (-48501,-175864); (20899,-221258); (57871,-237968); (80008,-241298); (88814,-237792); (106869,-221147); (112379,-214613); (136473,-177236); (146101,-151055); (161869,-78666)], [9; 9; 9; 9; 9; 9; 9; 9; 9; 0]%nat);
  (55, [(-120697,40063); (-110501,-16469); (-106380,-35882); (-92788,-66247); (-90135,-70324); (-73699,-94215); (-62380,-105549); (-39003,-126601); (-35884,-129046); (-28469,-134247); (-20344,-139490); (17410,-162981); (41034,-174821); (43992,-176202); (59241,-179100); (65929,-175610); (79532,-165396); (83667,-160319); (100825,-132193); (108522,-111068); (118985,-61113)], [8; 9; 8; 9; 8; 9; 8; 9; 7; 41]%nat);
  (56, [(-179101,60618); (-159909,-38978); (-149551,-72410); (-134124,-104419); (-108232,-142010); (-91625,-159205); (-56807,-188639); (-40063,-201332); (16469,-237472); (35882,-248643); (59918,-259398); (85559,-264156); (97787,-258561); (116466,-241166); (122709,-233802); (146230,-197688); (149845,-190519); (161395,-161958); (176203,-88218)], [6; 7; 6; 7; 6; 7; 6; 7; 6; 37]%nat);
  (56, [(-132079,46519); (-119048,-28963); (-106814,-61618); (-98357,-78306); (-82912,-100633); (-75091,-108793); (-39333,-142203); (-30309,-148793); (19489,-179399); (44741,-191951); (48393,-193493); (51017,-194164); (64707,-195393); (72436,-191945); (87932,-180400); (110629,-145045); (118984,-120605); (129699,-69781)], [6; 7; 6; 7; 6; 7; 6; 7; 6; 0]%nat);
  (57, [(-195394,65979); (-179101,-28932); (-175611,-44053); (-165104,-77291); (-149965,-108565); (-145903,-116455); (-118552,-155869); (-101217,-173644); (-61113,-207414); (-46519,-217640); (28963,-267060); (66247,-284948); (70324,-285757); (94215,-288722); (105549,-283085); (126601,-267909); (129046,-265338); (134248,-258309); (139491,-249924); (162982,-209652); (174822,-180164); (176203,-176320); (193494,-96707); (194165,-92130)], [8; 9; 8; 9; 8; 9; 8; 9; 8; 47]%nat);
  (57, [(-144362,50146); (-132079,-19520); (-129281,-33147); (-120583,-56175); (-110574,-79226); (-107307,-85553); (-88618,-114319); (-75528,-127220); (-44109,-154149); (-32990,-162405); (16649,-195001); (52210,-212439); (71005,-214740); (79603,-211030); (94320,-198287); (100666,-191063); (118736,-161636); (124322,-150601); (129699,-134631); (142706,-75169)], [9; 9; 8; 9; 8; 9; 8; 9; 8; 39]%nat);
  (57, [(-107371,36365); (-105516,25912); (-96260,-23536); (-90201,-42832); (-81141,-62186); (-66097,-84302); (-44768,-105177); (-25073,-119290); (13818,-144467); (38778,-157044); (50317,-158388); (54397,-156687); (71102,-145986); (74397,-141905); (89700,-115061); (96470,-97976); (106220,-54010)], [6; 7; 6; 7; 6; 7; 6; 7; 6; 0]%nat);
  (58, [(-158398,57598); (-144362,-22035); (-141543,-34778); (-133415,-61392); (-116901,-93484); (-97395,-123770); (-80979,-141151); (-47443,-170104); (-36365,-178378); (-25912,-185121); (23536,-216057); (54283,-231390); (58228,-233245); (77935,-235455); (86822,-231451); (103707,-216674); (108820,-209750); (133531,-171333); (142475,-147465); (157045,-79488)], [7; 8; 7; 8; 7; 8; 7; 8; 7; 0]%nat);
  (58, [(-117728,39793); (-107370,-17320); (-105515,-26846); (-99144,-44748); (-90200,-65382); (-72523,-92499); (-60303,-103909); (-37585,-123914); (11018,-155380); (17389,-158933); (39613,-169994); (42777,-171472); (57160,-174358); (63610,-170944); (77075,-159721); (81203,-154794); (97501,-129602); (106220,-107120); (116623,-58395)], [7; 7; 7; 7; 7; 7; 7; 7; 7; 37]%nat);
  (59, [(-174359,60038); (-156688,-30451); (-145591,-70645); (-130886,-99363); (-124962,-108251); (-104826,-136776); (-89343,-153080); (-54010,-185436); (-39793,-195664); (24985,-236945); (62186,-255562); (84302,-258648); (105177,-247302); (119290,-229082); (144468,-189065); (157045,-158011); (171473,-85918)], [7; 8; 7; 8; 7; 8; 7; 8; 7; 33]%nat);
  (59, [(-129324,45022); (-117728,-19071); (-115726,-28959); (-106353,-55067); (-95532,-76783); (-80818,-98532); (-75301,-105497); (-45947,-132602); (-30019,-144341); (15226,-171914); (30696,-179460); (46742,-187015); (61885,-190223); (70576,-186843); (85052,-175022); (89189,-170149); (92561,-164753); (108029,-138507); (116514,-117205); (127781,-65595)], [7; 8; 7; 8; 7; 8; 7; 8; 7; 0]%nat);
  (60, [(-190224,66453); (-186844,45691); (-174359,-27141); (-170945,-41748); (-159722,-74290); (-145987,-105708); (-141906,-113318); (-115061,-150635); (-97976,-168447); (-58395,-204049); (-45022,-213627); (25964,-258927); (65382,-278474); (92499,-283796); (103909,-276471); (123914,-261042); (155381,-211035); (158934,-203622); (169995,-175766); (171473,-171655); (187016,-93531)], [9; 10; 9; 10; 9; 10; 9; 10; 9; 0]%nat);
  (60, [(-141899,49399); (-129324,-19640); (-123651,-43352); (-108337,-76623); (-104875,-82602); (-85667,-112115); (-73733,-124042); (-42959,-149994); (-30019,-159350); (13571,-187930); (20874,-191820); (49682,-205409); (54126,-206151); (68388,-207409); (76540,-204154); (92718,-193088); (97832,-186542); (118473,-152724); (127781,-129486); (139238,-73855)], [7; 7; 7; 7; 7; 8; 7; 8; 7; 39]%nat);
  (60, [(-103705,35317); (-102077,25537); (-93471,-23720); (-87015,-42760); (-79861,-57110); (-77397,-61854); (-64801,-81301); (-53560,-92830); (-32798,-111383); (-24700,-117200); (9820,-139145); (21676,-145328); (38392,-153120); (49266,-154718); (52749,-154424); (66301,-145399); (72171,-138275); (85957,-113710); (89730,-103899); (93508,-93520); (102705,-53023); (103076,-48950)], [9; 9; 8; 9; 8; 9; 8; 9; 8; 43]%nat);
  (61, [(-155026,52310); (-141899,-21550); (-133521,-51838); (-123651,-74265); (-114541,-90655); (-94533,-120835); (-79006,-137294); (-46766,-163634); (-33490,-173444); (23720,-210663); (52854,-225269); (56659,-226895); (75318,-228038); (84224,-224312); (102025,-211433); (106814,-205243); (129464,-168232); (139238,-143474); (153121,-76336)], [7; 8; 7; 8; 7; 8; 7; 8; 7; 37]%nat);
  (61, [(-114020,38701); (-112157,27932); (-102078,-25502); (-96545,-44446); (-87512,-63175); (-85075,-67921); (-82377,-71967); (-69254,-90716); (-58603,-101864); (-31867,-125190); (10775,-152675); (39853,-166541); (56058,-169755); (62021,-166766); (74998,-155456); (79676,-149533); (93966,-127377); (95911,-122992); (102705,-104376); (113448,-56789)], [9; 9; 9; 9; 9; 9; 9; 9; 8; 39]%nat);
  (62, [(-169756,57639); (-154425,-28286); (-145029,-61199); (-130521,-91284); (-104205,-130982); (-86771,-149186); (-53023,-178899); (-38701,-189340); (-27932,-196383); (25502,-229659); (57110,-245388); (61854,-247576); (81301,-251554); (92830,-246366); (111383,-232671); (117200,-225201); (139146,-189078); (145329,-174641); (153121,-152897); (166542,-86835)], [6; 7; 6; 7; 6; 7; 6; 7; 6; 0]%nat);
  (62, [(-125802,44259); (-112183,-28058); (-105717,-49167); (-96544,-68582); (-93271,-74515); (-76362,-99383); (-64743,-111596); (-38168,-134038); (-28820,-140937); (14143,-168569); (37133,-179350); (45328,-182533); (60418,-185160); (68647,-181977); (81817,-169492); (86722,-163574); (105332,-134278); (112635,-116098); (113448,-113513); (123788,-61934)], [8; 8; 7; 8; 7; 8; 7; 8; 7; 0]%nat);
  (63, [(-185216,63741); (-169756,-27239); (-166767,-40659); (-155457,-72268); (-145400,-96253); (-138276,-109774); (-113710,-143487); (-103211,-154439); (-56789,-198502); (-44259,-207346); (28058,-252425); (67612,-271981); (71967,-272706); (90716,-274583); (101864,-270003); (125190,-251520); (152676,-207463); (166542,-170106); (182534,-91877)], [8; 9; 8; 9; 8; 9; 8; 9; 8; 0]%nat);
  (63, [(-137292,46576); (-128571,-4598); (-123183,-31239); (-116336,-53215); (-105717,-75596); (-102622,-81159); (-84116,-108435); (-71737,-121304); (-43418,-144834); (-31871,-153346); (16610,-185351); (45642,-198985); (65491,-202442); (74593,-198661); (89450,-187198); (94670,-180707); (98192,-175220); (114830,-146743); (122694,-126931); (123788,-123828); (135991,-68379); (136354,-64386)], [9; 9; 8; 9; 8; 9; 8; 9; 8; 43]%nat);
  (64, [(-202456,71321); (-182066,-46077); (-169493,-78888); (-155457,-111132); (-149534,-121969); (-127377,-156088); (-122992,-161075); (-104376,-179317); (-61934,-216610); (-46576,-228009); (21122,-272633); (72914,-298091); (99383,-301800); (111596,-296881); (134039,-277394); (140938,-269047); (168570,-224568); (180988,-190234); (198986,-107701)], [8; 9; 8; 9; 8; 9; 8; 9; 8; 0]%nat);
  (64, [(-150901,51517); (-148441,36845); (-135002,-34363); (-125760,-62310); (-116336,-82299); (-112601,-89050); (-94539,-115512); (-87321,-123499); (-76449,-134009); (-45939,-159565); (-35414,-166969); (23039,-205105); (54123,-220575); (71744,-221326); (77220,-219041); (99251,-205666); (103673,-199769); (126213,-161261); (135991,-136374); (149046,-76132)], [9; 10; 9; 10; 9; 10; 9; 10; 9; 0]%nat);
  (64, [(-110666,38809); (-101221,-14881); (-99331,-24928); (-93241,-43760); (-84746,-60631); (-81787,-66276); (-67139,-88548); (-57987,-98189); (-34190,-118897); (-25759,-125143); (-18423,-130019); (17182,-152184); (39722,-163369); (54218,-165443); (60652,-162716); (72417,-152044); (76673,-146881); (92676,-122404); (99493,-103597); (110288,-56165)], [9; 9; 8; 9; 8; 9; 8; 9; 8; 39]%nat);
  (65, [(-165444,57007); (-162717,41412); (-148499,-37213); (-138698,-64691); (-125760,-93750); (-103732,-126744); (-85053,-145279); (-51663,-173939); (-35661,-184626); (14881,-217324); (24928,-223591); (59339,-240681); (78044,-244444); (80538,-243799); (89659,-238865); (108305,-224392); (114005,-217584); (136317,-183353); (149046,-150655); (163370,-83925)], [7; 8; 7; 8; 7; 8; 7; 8; 7; 0]%nat);
  (65, [(-122305,43446); (-109521,-22460); (-102770,-48077); (-93600,-66051); (-90354,-72082); (-87611,-76290); (-73372,-96488); (-62944,-107374); (-38066,-130014); (-28504,-136942); (-20706,-142012); (18607,-167107); (41150,-178062); (44525,-179390); (57756,-181174); (61750,-179947); (67005,-176957); (79783,-165614); (83485,-160642); (102553,-130791); (110288,-111309); (120341,-61002)], [9; 9; 8; 9; 8; 9; 8; 9; 8; 0]%nat);
  (66, [(-181175,65662); (-179948,56447); (-163128,-38835); (-152045,-68812); (-138698,-99365); (-134524,-107308); (-112284,-140500); (-95117,-157209); (-56165,-192494); (-43446,-201165); (22460,-241503); (58603,-259523); (66276,-262989); (88548,-267101); (98189,-263259); (118897,-246726); (125143,-239233); (130019,-231875); (152185,-193913); (163370,-165610); (179391,-90340)], [8; 9; 8; 9; 8; 9; 8; 9; 8; 0]%nat);
  (66, [(-133551,45003); (-131630,33441); (-121900,-19588); (-119433,-29943); (-112196,-52207); (-102833,-73543); (-99289,-79744); (-80631,-106056); (-68187,-118945); (-41963,-142389); (-28224,-151725); (19418,-182546); (46875,-196073); (63372,-198791); (72640,-194013); (86970,-182118); (92313,-174131); (111411,-143738); (120341,-121172); (131495,-65219)], [9; 9; 9; 10; 9; 10; 9; 10; 9; 39]%nat);
  (67, [(-198792,72047); (-179948,-33527); (-173569,-59136); (-152045,-106823); (-146882,-116626); (-122404,-154752); (-103597,-173087); (-61002,-210182); (-45003,-222100); (-33441,-229820); (19588,-263389); (33333,-270585); (66051,-286278); (72082,-288832); (76290,-289658); (96488,-291477); (107374,-286950); (130014,-271154); (137718,-261445); (167108,-213447); (178762,-182965); (196074,-102323)], [7; 8; 7; 8; 7; 8; 7; 8; 7; 0]%nat);
  (67, [(-145739,49251); (-133551,-21773); (-131630,-32374); (-122774,-58986); (-112196,-80256); (-108792,-86807); (-91677,-113398); (-75328,-130215); (-44830,-157106); (16804,-196738); (49683,-213223); (53654,-215006); (70250,-217660); (78605,-213025); (96247,-200536); (100583,-194320); (120752,-158668); (129762,-136040); (131495,-130966); (144417,-72334); (144830,-68539)], [8; 8; 8; 8; 8; 8; 8; 8; 8; 0]%nat);
  (67, [(-108831,38580); (-99396,-13674); (-97007,-24137); (-91060,-41441); (-82808,-59082); (-80322,-63405); (-65396,-86205); (-55655,-96375); (-32610,-115191); (-24626,-121114); (15561,-147509); (36772,-157991); (39872,-159098); (53028,-160174); (59473,-157397); (71195,-148756); (75863,-142019); (91274,-117492); (98037,-100181); (107504,-53849)], [9; 9; 8; 9; 8; 9; 8; 9; 8; 39]%nat);
  (68, [(-160175,54118); (-157398,38451); (-143492,-35580); (-135578,-62226); (-123363,-88057); (-119617,-95239); (-115938,-101035); (-96957,-127946); (-82805,-142669); (-51162,-170494); (-37065,-180117); (13674,-212467); (24137,-218152); (57717,-234224); (77376,-238469); (86544,-233413); (105091,-218639); (111050,-211579); (114910,-205807); (131695,-177954); (135293,-169606); (143140,-148658); (144417,-144543); (159088,-79592)], [9; 10; 9; 10; 9; 10; 9; 10; 9; 47]%nat);
  (68, [(-119235,41859); (-108831,-15835); (-106513,-25349); (-100269,-46113); (-91060,-64206); (-87066,-70547); (-71870,-93444); (-60586,-105195); (-36167,-126334); (-27059,-133117); (-19226,-138174); (17790,-161283); (40128,-172389); (43404,-173899); (56699,-176727); (65108,-172991); (78554,-162661); (98370,-130750); (106612,-110235); (107504,-107601); (117113,-59395)], [8; 9; 8; 9; 8; 9; 8; 9; 8; 41]%nat);
  (69, [(-176728,63329); (-165093,-681); (-157398,-40248); (-148757,-68012); (-135578,-96120); (-130723,-105038); (-106724,-140428); (-91483,-155892); (-53849,-188084); (-41859,-196612); (15835,-233498); (25349,-238376); (59082,-254240); (63405,-255752); (86205,-260100); (96375,-255873); (115191,-238007); (121114,-230924); (147510,-190142); (158352,-162524); (173900,-87091)], [8; 9; 8; 9; 8; 9; 8; 9; 8; 0]%nat);
  (69, [(-130050,43845); (-119980,-14686); (-116707,-28191); (-109320,-50431); (-100268,-71180); (-97160,-76293); (-79334,-100919); (-68020,-112757); (-39796,-139191); (-31665,-145064); (341,-165434); (20124,-177523); (47077,-190922); (50518,-191715); (63973,-192917); (71335,-189807); (85247,-179033); (90059,-172153); (106234,-145677); (109076,-139478); (117112,-117951); (127876,-64471)], [9; 9; 8; 9; 8; 9; 8; 9; 8; 43]%nat);
  (70, [(-192918,64971); (-180596,-5688); (-172992,-43721); (-162662,-75778); (-148757,-105201); (-142020,-116222); (-117492,-153176); (-100181,-171029); (-59395,-204529); (-43845,-216256); (14686,-254647); (28191,-261606); (64206,-278430); (70547,-279954); (93444,-283907); (105195,-278966); (126334,-261836); (133118,-253794); (138175,-245714); (161284,-206345); (173663,-175117); (190923,-96768); (191716,-90679)], [8; 9; 8; 9; 8; 9; 8; 9; 8; 45]%nat);
  (70, [(-141954,48510); (-130050,-21180); (-127937,-32407); (-114061,-68573); (-105790,-84603); (-102904,-89184); (-88977,-109451); (-84803,-114093); (-81262,-117721); (-74329,-124558); (-43546,-152128); (-32486,-160433); (15866,-191921); (48060,-207669); (52519,-209502); (70214,-212046); (77946,-208403); (94042,-194913); (98306,-189319); (116749,-159289); (119188,-153434); (127310,-131076); (139216,-75009); (139978,-69430)], [11; 11; 10; 11; 10; 11; 10; 11; 10; 0]%nat);
  (70, [(-106023,35809); (-95009,-23560); (-89517,-40489); (-81331,-58222); (-65375,-82027); (-54516,-93467); (-32236,-111759); (-24255,-117699); (10590,-140641); (16204,-144141); (35590,-153654); (38147,-154380); (50460,-155024); (56379,-152588); (69596,-144190); (72532,-140464); (82717,-123735); (88762,-113019); (95461,-96115); (104751,-52232)], [6; 7; 6; 7; 6; 7; 6; 7; 6; 0]%nat);
  (71, [(-155025,54101); (-141954,-22467); (-139484,-35454); (-130134,-63203); (-119004,-85440); (-115462,-92249); (-95071,-123743); (-81262,-138037); (-48230,-166866); (-35809,-176238); (23560,-213579); (52601,-227659); (58111,-229187); (76588,-232375); (85515,-228454); (102265,-212793); (108128,-206038); (127324,-176300); (130803,-168014); (139216,-144617); (153655,-82474); (154381,-78086)], [8; 9; 8; 9; 8; 9; 8; 9; 8; 0]%nat);
  (71, [(-116188,39600); (-104771,-24204); (-97457,-45314); (-89517,-62868); (-86077,-68540); (-72839,-88025); (-69740,-91642); (-58976,-102369); (-37505,-120465); (-34715,-122621); (-26758,-128180); (11234,-153189); (17727,-157212); (34287,-165492); (42302,-169244); (44592,-169793); (54726,-171067); (57047,-170374); (58861,-169554); (62279,-167749); (76065,-157643); (80217,-152812); (95961,-128076); (104427,-106162); (113830,-61229); (114594,-56483)], [9; 10; 9; 10; 9; 10; 9; 10; 9; 0]%nat);
  (72, [(-171068,61615); (-170302,55723); (-152589,-36464); (-143948,-67982); (-127152,-101012); (-122857,-107461); (-103106,-135586); (-87559,-151774); (-52232,-183387); (-39600,-192777); (24204,-233747); (58222,-249996); (82027,-253791); (93467,-249233); (111759,-232111); (117699,-225059); (140642,-189782); (144142,-183804); (153655,-159302); (169245,-84640); (169794,-80609)], [8; 9; 8; 9; 8; 9; 8; 9; 8; 0]%nat);
  (72, [(-126913,44672); (-116188,-18494); (-114228,-28402); (-106397,-49067); (-97457,-69678); (-94660,-74642); (-79645,-96839); (-76718,-100010); (-65539,-110926); (-39791,-134354); (-27862,-142442); (18232,-170822); (41856,-182688); (46125,-184650); (61872,-187880); (69019,-184791); (83434,-173381); (88120,-167989); (106790,-136625); (113830,-118144); (124999,-66777)], [9; 10; 9; 10; 9; 10; 9; 10; 9; 0]%nat);
  (73, [(-187881,64136); (-174067,-13601); (-167750,-40684); (-157635,-73335); (-144191,-103145); (-140465,-109948); (-123735,-134501); (-113019,-149270); (-96115,-166894); (-57670,-200123); (-42470,-210685); (18494,-250871); (28402,-256859); (62868,-273337); (68540,-274965); (88025,-277717); (91642,-276944); (102369,-271507); (120465,-255708); (122621,-253362); (128180,-245787); (153190,-207316); (157213,-200365); (165493,-179665); (169245,-169263); (184651,-92400)], [9; 10; 9; 10; 9; 10; 9; 10; 9; 51]%nat);
  (73, [(-138956,49561); (-126896,-18579); (-124617,-31159); (-111826,-64885); (-103019,-82374); (-88150,-105287); (-84007,-109802); (-72309,-121139); (-42008,-148366); (-32068,-155814); (9843,-182829); (33991,-194935); (50506,-202912); (53731,-203454); (67793,-204796); (75887,-201390); (91694,-189773); (96389,-184183); (116874,-151107); (124998,-129275); (136669,-73801); (137483,-68943)], [8; 9; 8; 9; 8; 9; 8; 9; 8; 0]%nat);
  (73, [(-102398,34605); (-93940,-14902); (-92396,-22821); (-86024,-42108); (-76459,-61035); (-64038,-79952); (-53081,-91157); (-33389,-108305); (-24781,-114176); (15234,-140026); (34839,-149716); (37321,-150642); (48420,-152275); (50005,-151726); (55463,-148734); (67177,-140557); (71221,-134694); (85411,-109885); (91344,-95160); (92325,-92363); (101456,-50950); (101727,-47996)], [8; 8; 7; 8; 7; 8; 7; 8; 7; 43]%nat);
  (74, [(-152311,54986); (-138473,-22406); (-135754,-34492); (-123905,-67561); (-112530,-89567); (-94891,-116920); (-91902,-121167); (-79651,-133743); (-46200,-161552); (-34605,-170192); (14902,-202783); (22821,-207614); (51573,-221551); (54974,-222927); (67251,-224612); (74635,-224972); (83447,-221286); (100062,-207763); (105343,-200485); (125436,-169660); (128430,-164243); (136669,-142135); (150643,-76000)], [8; 9; 8; 9; 8; 9; 8; 9; 8; 0]%nat);
  (74, [(-112486,37851); (-110643,27196); (-100743,-25387); (-93901,-47427); (-83995,-67122); (-68313,-89712); (-59072,-99062); (-34808,-120028); (-27049,-125110); (13517,-151163); (41187,-164800); (52644,-167116); (54901,-166359); (60570,-163164); (74183,-153283); (77907,-148929); (91415,-127279); (97468,-112211); (101456,-101678); (111464,-56490); (112306,-45055)], [7; 8; 7; 8; 7; 8; 7; 8; 7; 41]%nat);
  (75, [(-167193,61152); (-151727,-24147); (-148735,-36559); (-140558,-64076); (-125040,-94130); (-103658,-127276); (-100183,-132168); (-86921,-146093); (-50950,-177438); (-37851,-187122); (-27196,-194091); (25387,-226874); (42108,-235211); (61035,-244471); (79952,-248005); (91157,-242898); (108305,-229236); (114176,-220827); (140027,-179572); (150118,-153875); (164801,-82426)], [8; 9; 8; 9; 8; 9; 8; 9; 8; 0]%nat);
  (75, [(-124003,44051); (-112486,-18392); (-110643,-28126); (-101456,-55296); (-92092,-73366); (-75554,-97986); (-64638,-108839); (-38000,-131644); (-30576,-136618); (12074,-163801); (18280,-167015); (33781,-174576); (44784,-179706); (58460,-182582); (60584,-182778); (66872,-179959); (80776,-167365); (85096,-162250); (101392,-137186); (103807,-132890); (110776,-114591); (111464,-112222); (122236,-61201)], [7; 8; 7; 8; 7; 8; 7; 8; 7; 0]%nat);
  (76, [(-182779,61610); (-167375,-22512); (-163165,-39558); (-152986,-72694); (-140558,-99215); (-134185,-109599); (-109509,-143874); (-94525,-159564); (-56490,-194684); (-44051,-203956); (27431,-249070); (67122,-268674); (89712,-271195); (99062,-266738); (120028,-249659); (125110,-241764); (151164,-199711); (164801,-164827); (179707,-90138); (182583,-65662)], [8; 9; 8; 9; 8; 9; 8; 9; 8; 38]%nat);
  (76, [(-135598,45886); (-122081,-28531); (-114618,-50996); (-103882,-74092); (-100243,-80283); (-84830,-104229); (-82122,-107900); (-71068,-118903); (-41213,-144195); (-30805,-151975); (11256,-178632); (19779,-182945); (47065,-195638); (63638,-199116); (66084,-199310); (73047,-196491); (88719,-184029); (93561,-178193); (97046,-172765); (113437,-144769); (117606,-134301); (122236,-122319); (134338,-67215)], [8; 9; 8; 9; 8; 9; 8; 9; 8; 45]%nat);
  (77, [(-199320,66930); (-182779,-29779); (-179960,-43765); (-161256,-94415); (-148930,-118582); (-127279,-151011); (-112211,-166884); (-101678,-177493); (-61201,-213872); (-45886,-225311); (28531,-272694); (55296,-285857); (73366,-294234); (97986,-298088); (108839,-292536); (131645,-273467); (136619,-266080); (164598,-220250); (174577,-194303); (179707,-179992); (195639,-101508); (199117,-71840)], [8; 9; 8; 9; 8; 9; 8; 9; 8; 43]%nat);
  (77, [(-149045,51058); (-134029,-30429); (-124830,-57613); (-114618,-79651); (-110414,-86573); (-89786,-117581); (-76938,-130884); (-45069,-157173); (-33465,-165856); (14890,-197669); (21883,-201843); (49608,-214970); (54800,-216385); (71937,-217415); (79782,-214199); (97342,-202504); (101978,-197019); (124535,-159372); (134338,-134384); (147118,-73751)], [7; 8; 7; 8; 7; 8; 7; 8; 7; 0]%nat);
  (77, [(-108709,36736); (-99656,-16257); (-98246,-23924); (-91564,-44073); (-83683,-59856); (-81126,-64815); (-67148,-86486); (-57296,-96453); (-33608,-117535); (-25529,-123517); (15215,-149245); (38403,-160087); (52115,-163003); (53950,-163048); (59452,-160246); (72098,-149360); (75988,-144787); (89317,-122719); (91473,-117431); (97820,-99664); (107486,-57877); (108193,-53393)], [8; 9; 8; 9; 8; 9; 8; 9; 8; 0]%nat);
  (78, [(-163049,55148); (-149045,-23464); (-146269,-35705); (-136734,-63278); (-124830,-88821); (-120882,-94890); (-99856,-126201); (-82414,-144198); (-50754,-170263); (-36736,-180683); (16257,-215570); (23924,-220417); (47208,-232068); (59291,-237867); (75506,-240538); (83442,-237375); (88747,-234799); (106936,-221606); (112656,-214870); (136348,-175990); (142929,-159097); (147118,-147310); (160088,-83281); (163004,-58773)], [8; 9; 8; 9; 8; 9; 8; 9; 8; 47]%nat);
  (78, [(-120269,44763); (-118688,35246); (-107100,-26232); (-100905,-47932); (-92015,-65716); (-89097,-71287); (-86383,-75451); (-72385,-95341); (-67151,-100819); (-61160,-106947); (-36876,-128681); (-27574,-135476); (11732,-160778); (17853,-164122); (39826,-174357); (43287,-175344); (58791,-177972); (65442,-175102); (78587,-162949); (82928,-157858); (98835,-133362); (100922,-129500); (107485,-111620); (118934,-59643)], [10; 11; 10; 11; 10; 11; 10; 11; 10; 0]%nat);
  (79, [(-177973,60390); (-163049,-26376); (-160247,-38781); (-149361,-69516); (-136734,-97462); (-133041,-103359); (-110125,-137067); (-97152,-150290); (-72597,-174032); (-53393,-189690); (-44763,-195776); (-35246,-202131); (26232,-240433); (59856,-257151); (64815,-259475); (86486,-264026); (96453,-259272); (117535,-243519); (123517,-236334); (149246,-193438); (160088,-163325); (174358,-94705); (175345,-88770)], [9; 10; 10; 10; 9; 11; 9; 10; 8; 0]%nat);
  (79, [(-132014,45527); (-118688,-24098); (-117400,-30047); (-109314,-56386); (-98510,-77351); (-79686,-104614); (-67192,-117540); (-41641,-139268); (-30167,-147799); (15760,-177925); (44411,-191446); (47445,-192050); (63101,-194507); (72099,-190563); (85132,-178452); (90342,-172249); (107785,-145421); (110209,-141389); (116034,-126843); (118934,-119110); (129738,-64923)], [7; 8; 7; 8; 7; 8; 7; 8; 7; 41]%nat);
  (80, [(-194508,68305); (-177973,-28596); (-175103,-43333); (-162950,-75700); (-149361,-106856); (-144788,-115780); (-122719,-147955); (-117431,-153589); (-99664,-170725); (-59643,-208047); (-45527,-218502); (27544,-263602); (65716,-282605); (71287,-285126); (75451,-285944); (95341,-287783); (106108,-283359); (128681,-266775); (135477,-258363); (160779,-217704); (164123,-210478); (174358,-181884); (191676,-101561)], [9; 10; 9; 10; 9; 10; 9; 10; 9; 0]%nat);
  (80, [(-143892,48551); (-132582,-17812); (-129636,-31635); (-121282,-58173); (-110803,-79236); (-107435,-85798); (-87995,-114350); (-79549,-123042); (-73655,-128705); (-44452,-153106); (-34153,-160356); (14298,-192272); (21667,-196770); (48731,-209831); (51680,-210561); (68534,-212926); (75145,-209870); (87016,-203122); (94845,-195661); (97888,-191596); (101066,-186845); (120217,-154093); (128576,-133008); (129738,-129792); (142564,-71276); (142973,-67521)], [10; 10; 9; 10; 9; 10; 9; 10; 9; 51]%nat);
  (80, [(-106463,37929); (-97254,-14474); (-95282,-24458); (-89226,-40519); (-81475,-58219); (-78929,-63196); (-66681,-82165); (-64750,-84735); (-55810,-93533); (-32462,-113508); (-24047,-119787); (12191,-143652); (28193,-151604); (38676,-156524); (52307,-158147); (58770,-155348); (69634,-146093); (73900,-141017); (88963,-117684); (95723,-99174); (104916,-56185); (105281,-53601)], [9; 10; 9; 10; 9; 10; 9; 10; 9; 0]%nat);
  (81, [(-158148,53533); (-155349,37808); (-141680,-35268); (-133388,-61987); (-121760,-87095); (-118167,-93976); (-96719,-125067); (-81663,-139673); (-50781,-166286); (-37929,-174998); (14474,-208983); (24458,-215023); (53428,-229504); (57890,-231624); (73978,-233686); (76795,-232624); (85363,-227709); (104024,-215679); (109251,-209404); (131802,-170158); (141303,-146238); (142564,-142558); (156525,-79172)], [8; 9; 8; 9; 8; 9; 8; 9; 8; 0]%nat);
  (81, [(-116863,42581); (-105665,-19744); (-101561,-36236); (-97397,-47059); (-86125,-68811); (-72711,-89608); (-70695,-92536); (-63422,-100179); (-59555,-104046); (-35638,-124745); (-26767,-131382); (-18904,-136446); (17634,-159315); (42688,-171755); (57175,-173758); (61521,-171831); (64353,-170184); (76553,-159282); (80178,-154421); (96136,-129906); (98385,-125911); (104916,-108643); (115812,-57922)], [10; 10; 9; 10; 9; 10; 8; 10; 9; 0]%nat);
  (82, [(-173767,59300); (-158148,-25541); (-155349,-39866); (-146094,-66222); (-133388,-95334); (-129182,-103182); (-108852,-133567); (-105239,-137814); (-90942,-151623); (-56185,-181740); (-53601,-183762); (-42581,-191146); (20378,-231481); (58219,-250279); (63196,-252653); (82165,-256610); (84735,-256603); (93533,-251920); (113508,-235187); (119787,-227775); (143653,-191097); (151605,-171021); (156525,-157435); (171756,-86379)], [10; 11; 10; 11; 10; 11; 10; 11; 10; 0]%nat);
  (82, [(-128306,46140); (-128302,43567); (-116313,-18639); (-113855,-28436); (-107452,-51505); (-96968,-72083); (-93423,-77711); (-77047,-100956); (-65796,-112689); (-39586,-136733); (-29650,-144118); (18709,-174672); (43548,-187083); (46988,-188650); (62534,-190521); (69837,-186419); (83144,-175497); (87500,-169179); (104492,-142264); (107512,-136810); (115725,-116270); (126327,-63131)], [9; 10; 9; 10; 9; 10; 9; 10; 8; 43]%nat);
  (83, [(-190522,65453); (-172472,-34606); (-163903,-68358); (-141018,-112546); (-117684,-148506); (-99174,-166653); (-57922,-202664); (-43567,-213038); (18824,-251380); (47059,-265384); (68811,-275468); (89608,-279835); (92536,-280195); (100179,-277114); (104046,-275180); (124745,-258394); (131383,-250608); (136447,-242478); (159316,-203705); (171756,-172257); (188651,-94674)], [6; 7; 6; 7; 6; 7; 6; 7; 6; 0]%nat);
  (83, [(-140098,47562); (-138558,38378); (-128302,-20584); (-125960,-30553); (-117594,-54711); (-107840,-77064); (-104702,-83076); (-85079,-110533); (-72718,-123443); (-43190,-150162); (-32727,-157796); (17303,-189776); (47667,-204889); (51591,-206569); (66784,-209028); (68907,-208600); (75812,-204660); (90870,-192491); (91881,-191423); (95573,-185941); (115741,-153233); (125140,-129491); (126327,-126294); (137735,-68923); (139918,-50310)], [10; 10; 9; 10; 9; 10; 9; 10; 9; 48]%nat);
  (83, [(-104582,36961); (-95261,-14904); (-93210,-23232); (-87749,-39270); (-79641,-56643); (-77211,-60876); (-64953,-79898); (-62956,-82646); (-54322,-91336); (-31566,-110545); (-23781,-116317); (-19189,-119369); (10292,-138595); (15277,-141237); (36042,-151031); (38856,-151707); (50478,-152765); (56345,-150313); (68367,-142136); (72059,-137739); (87336,-112295); (93542,-96765); (94325,-94500); (103285,-51694)], [9; 10; 9; 10; 9; 10; 9; 10; 9; 0]%nat);
  (84, [(-152766,51809); (-140098,-22487); (-138558,-30901); (-137591,-35251); (-128354,-62650); (-117594,-84110); (-113888,-91315); (-95549,-119766); (-81887,-134004); (-47337,-164983); (-36961,-172204); (15102,-205554); (34179,-215172); (56273,-225428); (74253,-229064); (83327,-224165); (101332,-209921); (106519,-203346); (125690,-169712); (132693,-151980); (137735,-137791); (151032,-78947); (151708,-73995)], [9; 10; 9; 10; 9; 10; 9; 10; 9; 45]%nat);
  (84, [(-114533,40279); (-104301,-16757); (-102331,-24647); (-96092,-43206); (-87749,-61207); (-84590,-66353); (-69320,-89452); (-58135,-101192); (-34462,-120505); (-25905,-126862); (11244,-151343); (16365,-154589); (41240,-166989); (55267,-167980); (61722,-165302); (75082,-155813); (78899,-151075); (94889,-125030); (103062,-104448); (112715,-56441)], [9; 9; 8; 9; 8; 9; 8; 9; 8; 39]%nat);
  (85, [(-167981,57446); (-165303,41858); (-150331,-37473); (-141625,-67427); (-129197,-92446); (-125304,-100057); (-121239,-106138); (-101853,-133853); (-86129,-150224); (-51694,-180724); (-40279,-188788); (16757,-225360); (24647,-229310); (58973,-245335); (79898,-249754); (82646,-249882); (91336,-245649); (110545,-228950); (116317,-222038); (119369,-217432); (138596,-187309); (141238,-181302); (151032,-154463); (166990,-84509)], [9; 10; 9; 10; 9; 10; 9; 10; 9; 0]%nat);
  (85, [(-124941,42295); (-114532,-16987); (-112083,-27286); (-104895,-49052); (-95712,-67953); (-92971,-72331); (-76617,-96587); (-63624,-110123); (-38760,-131922); (-28723,-139259); (-20929,-144375); (18737,-169068); (41585,-180456); (45658,-182375); (59883,-185374); (67002,-182391); (82492,-171075); (86102,-166115); (102777,-139064); (107586,-127200); (112714,-112798); (122668,-63695); (124877,-44979)], [8; 9; 8; 9; 8; 9; 8; 9; 8; 45]%nat);
  (86, [(-185375,65608); (-182392,48387); (-165303,-40793); (-155814,-72258); (-142137,-101200); (-137740,-109684); (-112295,-146599); (-95700,-164011); (-56441,-197210); (-41913,-207868); (16987,-246052); (27286,-251453); (61207,-267310); (66353,-268711); (89452,-272819); (101192,-268059); (120505,-249682); (126862,-242104); (151344,-204527); (154590,-199154); (166990,-168004); (182376,-91059)], [8; 9; 8; 9; 8; 9; 8; 9; 8; 0]%nat);
  (86, [(-136425,46806); (-124941,-20176); (-122825,-29924); (-114475,-53308); (-104961,-75092); (-101673,-81101); (-84856,-104476); (-76160,-113533); (-43220,-145178); (-32804,-152572); (-24194,-158199); (20397,-185700); (49802,-200311); (53069,-200843); (66927,-202244); (75112,-198798); (90362,-187238); (94394,-181871); (112680,-152264); (114655,-147336); (122668,-125029); (133656,-72448); (134356,-68003)], [8; 9; 8; 9; 8; 9; 8; 9; 8; 0]%nat);
  (87, [(-202245,68390); (-188602,-10059); (-182392,-42809); (-171076,-79447); (-155814,-111211); (-151076,-120030); (-125030,-158521); (-104448,-180013); (-63695,-213489); (-46569,-226221); (25241,-273385); (67953,-293355); (72331,-294440); (96587,-298116); (110123,-292434); (131923,-275404); (139260,-266336); (144376,-258421); (169069,-216129); (180457,-187515); (182376,-182247); (200312,-100707); (200844,-94705)], [8; 9; 8; 9; 8; 9; 8; 9; 8; 45]%nat);
  (87, [(-149059,52471); (-136410,-21247); (-134030,-34177); (-124841,-58085); (-114475,-81927); (-111019,-88563); (-108716,-92190); (-93655,-115183); (-90651,-118576); (-77232,-131725); (-45530,-159612); (-34018,-168182); (5030,-193632); (21405,-203797); (54561,-219970); (73300,-222245); (82006,-218709); (98605,-204349); (103934,-197815); (123026,-167553); (125727,-161304); (133656,-139276); (146678,-78725); (147221,-74889)], [10; 11; 10; 11; 10; 11; 10; 11; 10; 0]%nat);
  (87, [(-111123,37823); (-109355,27349); (-99447,-25264); (-93619,-43553); (-85538,-61108); (-83058,-65338); (-69532,-85394); (-63600,-91686); (-56399,-98615); (-34400,-117075); (-26236,-122824); (-23403,-124724); (16120,-150638); (37546,-161281); (40551,-162499); (52238,-163214); (56767,-161310); (72589,-152104); (76286,-147234); (79100,-142844); (92850,-118878); (100156,-100432); (109985,-55424)], [10; 10; 9; 11; 9; 11; 9; 11; 9; 0]%nat);
  (88, [(-163218,58645); (-149059,-22058); (-146218,-37015); (-137181,-64668); (-124841,-89295); (-121052,-96599); (-102264,-125779); (-99577,-129696); (-84002,-145990); (-50354,-175136); (-37823,-184424); (-27349,-191362); (25264,-224159); (59120,-240968); (79261,-243922); (90007,-239459); (106745,-223813); (113111,-216236); (136693,-179798); (146678,-152064); (162500,-81397)], [9; 10; 9; 10; 9; 10; 9; 10; 9; 0]%nat);
  (88, [(-121961,42700); (-119730,29723); (-109414,-27163); (-102175,-47518); (-92708,-69028); (-76132,-93647); (-73668,-96238); (-52657,-116586); (-37445,-128499); (-26566,-135728); (11029,-160089); (18508,-164726); (40964,-175921); (44553,-177566); (57592,-180043); (59288,-179584); (65863,-176026); (79806,-165240); (84091,-160155); (96816,-140195); (101899,-131443); (109985,-110417); (120484,-61364)], [8; 9; 8; 9; 8; 9; 8; 9; 8; 0]%nat);
  (89, [(-180044,64859); (-179585,61008); (-161311,-32879); (-151926,-69829); (-137703,-97498); (-133169,-105968); (-129211,-112074); (-108065,-142053); (-100432,-150097); (-92385,-158441); (-55424,-192259); (-42700,-201223); (-29723,-209738); (27163,-245992); (61108,-262739); (65338,-264124); (85394,-267156); (91686,-264730); (98615,-260721); (117075,-244413); (122824,-236709); (124724,-233893); (150639,-193718); (162038,-164918); (177567,-88460)], [10; 11; 10; 11; 10; 11; 10; 11; 10; 0]%nat);
  (89, [(-133579,48184); (-132366,40679); (-121961,-18281); (-119730,-30142); (-111907,-50792); (-102175,-73062); (-98908,-79207); (-83777,-102082); (-80652,-105564); (-69638,-116247); (-40699,-142151); (-30504,-149082); (16440,-177751); (44256,-191632); (48300,-193502); (62890,-196599); (64848,-196850); (72995,-193495); (87568,-181707); (92212,-176142); (95681,-170871); (112080,-142856); (120484,-121606); (132026,-67166)], [10; 11; 10; 11; 10; 11; 10; 11; 10; 0]%nat);
  (90, [(-196851,67154); (-182705,-15690); (-176027,-43713); (-165241,-76992); (-152105,-107152); (-147235,-115764); (-142845,-122489); (-118878,-155981); (-100432,-175205); (-61364,-210287); (-40679,-224054); (18281,-262204); (30142,-269603); (69028,-288959); (93647,-292736); (96238,-291694); (116586,-280194); (128499,-267640); (135729,-256725); (160090,-218076); (164727,-210074); (175922,-181954); (177567,-177244); (193503,-96902); (196600,-70819)], [9; 9; 9; 10; 9; 10; 9; 10; 9; 48]%nat);
  (90, [(-146380,52578); (-132366,-25504); (-125569,-52397); (-108118,-86082); (-89899,-114219); (-76032,-127670); (-44230,-155453); (-33577,-163275); (7845,-190551); (21857,-197884); (34915,-204299); (48749,-210827); (52984,-212646); (56037,-213267); (71027,-214606); (78772,-211524); (96130,-199619); (100612,-193618); (104869,-187027); (122996,-157332); (131372,-135941); (144480,-75452)], [6; 7; 6; 7; 6; 7; 6; 7; 6; 43]%nat);
  (90, [(-107303,36276); (-105762,26990); (-98425,-15636); (-96748,-24621); (-90402,-43484); (-82620,-59151); (-80078,-64072); (-70098,-79292); (-65722,-85469); (-55209,-96183); (-33583,-115235); (-24902,-121015); (12752,-145119); (36531,-156972); (39604,-158314); (51041,-160339); (52782,-159826); (58124,-156824); (71076,-147313); (74541,-142316); (88876,-116874); (95816,-99468); (96751,-96827); (106323,-53339); (106634,-50597)], [10; 11; 10; 11; 10; 11; 10; 11; 10; 49]%nat);
  (91, [(-160412,57512); (-145875,-23204); (-139265,-49900); (-122207,-86524); (-117942,-93955); (-96859,-126425); (-82459,-141424); (-48451,-169278); (-36276,-178331); (-26990,-184535); (22991,-217310); (53576,-232470); (57882,-234059); (61245,-234713); (77991,-235865); (87603,-231837); (105144,-219080); (112027,-208720); (134342,-173218); (144480,-147692); (158315,-79106)], [7; 8; 7; 8; 7; 8; 7; 8; 7; 41]%nat);
  (91, [(-117933,39942); (-115919,28316); (-105763,-25891); (-99810,-46226); (-90854,-64855); (-88072,-70195); (-85436,-74323); (-71429,-94224); (-60803,-105284); (-37726,-125618); (-28721,-131681); (11602,-157478); (26199,-164868); (43041,-172681); (57110,-175565); (63835,-171786); (77727,-160821); (81638,-156034); (95276,-135069); (98943,-126557); (102150,-118310); (105414,-109372); (106324,-106501); (117030,-59148); (117357,-56112)], [9; 10; 9; 10; 9; 10; 9; 10; 9; 0]%nat);
  (92, [(-175566,61345); (-159827,-25651); (-156825,-37836); (-147314,-68496); (-133821,-95044); (-128363,-103639); (-109038,-132831); (-105037,-138468); (-90977,-153178); (-67424,-175519); (-39942,-195925); (-28316,-203523); (25891,-237418); (59151,-253967); (64072,-256265); (79292,-259135); (85469,-259648); (96183,-254693); (115235,-240019); (121015,-231327); (145120,-192175); (158007,-159798); (172682,-86599)], [9; 10; 9; 10; 9; 10; 9; 10; 9; 45]%nat);
  (92, [(-129824,44355); (-115974,-29464); (-109540,-50374); (-99810,-71178); (-96809,-76410); (-93514,-81491); (-78666,-103330); (-67971,-114380); (-39553,-138539); (-30673,-144894); (12826,-172653); (18918,-175744); (43262,-187101); (46978,-188409); (63213,-191678); (70712,-188528); (84639,-175410); (89166,-170025); (92268,-165392); (108655,-139992); (116550,-119979); (128133,-64061); (129568,-50276)], [9; 9; 8; 9; 8; 9; 8; 9; 8; 0]%nat);
  (93, [(-191679,65252); (-176237,-23715); (-171787,-41777); (-160822,-75044); (-147314,-105324); (-142317,-113503); (-116874,-148534); (-98907,-167353); (-59148,-204487); (-44355,-215294); (29464,-261413); (64855,-278992); (70195,-281438); (74323,-282358); (94224,-284195); (105284,-279533); (125618,-263880); (131682,-254964); (157479,-213014); (164869,-194905); (172682,-172940); (188410,-94453)], [8; 9; 8; 9; 8; 9; 8; 9; 8; 43]%nat);
  (93, [(-142098,47874); (-132082,-9665); (-127347,-32510); (-120010,-55230); (-109540,-77759); (-104360,-85937); (-86609,-112690); (-73846,-126019); (-43300,-151033); (-32626,-159054); (11858,-188095); (20889,-192676); (47522,-205105); (51820,-206093); (66416,-208662); (69234,-208889); (76589,-205861); (87760,-199064); (97963,-186886); (101762,-180959); (118709,-152173); (126984,-131325); (128133,-128127); (140720,-70524); (141180,-66856)], [8; 9; 8; 9; 8; 9; 8; 9; 8; 49]%nat);
  (93, [(-104445,35211); (-95840,-15294); (-94265,-23580); (-87706,-40787); (-80411,-57625); (-78018,-62134); (-66963,-79279); (-59990,-86556); (-54686,-91743); (-32031,-112119); (-23937,-118162); (11387,-141188); (36927,-153858); (40746,-154633); (51665,-156165); (57190,-153757); (69270,-143458); (72448,-139345); (86327,-116665); (87873,-112891); (93730,-96566); (102553,-55031); (103047,-51227); (104332,-37915)], [9; 10; 9; 10; 9; 10; 9; 10; 9; 47]%nat);
  (94, [(-156166,52835); (-153758,39377); (-139891,-35018); (-131941,-59648); (-120010,-85233); (-115664,-92099); (-96088,-121099); (-79899,-138033); (-47227,-164797); (-35211,-173680); (15294,-206975); (23580,-212111); (52662,-226308); (56752,-227445); (74267,-228275); (83677,-224423); (102244,-212514); (107647,-205826); (130707,-166596); (139497,-144390); (140720,-140884); (153859,-80004); (154634,-73141)], [8; 9; 8; 9; 8; 9; 8; 9; 8; 0]%nat);
  (94, [(-114139,39834); (-104445,-17012); (-102931,-25124); (-98931,-40270); (-87705,-62713); (-85013,-67913); (-82696,-71594); (-69996,-91156); (-59990,-101553); (-35262,-123089); (-26418,-129749); (-19689,-134070); (17509,-157401); (38880,-167860); (42969,-168813); (56345,-171127); (63010,-168361); (75517,-156575); (79527,-151917); (94048,-129214); (96338,-123618); (102553,-106307); (113154,-60492); (113723,-56971)], [10; 10; 9; 10; 9; 10; 9; 10; 9; 0]%nat);
  (95, [(-171128,58437); (-168362,42341); (-154162,-36350); (-143459,-66811); (-131941,-92633); (-127482,-99812); (-106507,-130853); (-97453,-140506); (-73375,-163655); (-46701,-183920); (17012,-225903); (25124,-230987); (57625,-247260); (62134,-249238); (79279,-252845); (86556,-249815); (91743,-246987); (112119,-232241); (118162,-225118); (141189,-189009); (153859,-156934); (167861,-90100); (168814,-82875)], [9; 9; 9; 9; 9; 9; 8; 9; 8; 0]%nat);
  (95, [(-126423,47144); (-124908,38352); (-112212,-27571); (-105976,-50134); (-99532,-62877); (-93443,-74603); (-90480,-79142); (-76087,-99688); (-64922,-111342); (-40002,-133859); (-29219,-141910); (-21171,-147192); (18175,-172338); (42617,-183935); (46050,-184739); (60550,-186913); (69017,-183424); (82399,-170825); (86840,-165472); (103488,-139938); (106056,-135504); (113154,-117069); (124619,-62485)], [10; 10; 9; 10; 9; 10; 9; 10; 9; 0]%nat);
  (96, [(-186914,65813); (-171128,-27127); (-168362,-41840); (-156576,-72747); (-143459,-102676); (-139346,-110060); (-116665,-143488); (-112891,-147524); (-96566,-163319); (-58313,-198041); (-47144,-205703); (-38352,-211465); (27571,-251996); (62713,-269481); (67913,-271897); (71594,-272784); (91156,-276727); (101553,-272311); (123089,-255158); (129749,-247460); (134071,-240484); (157402,-201084); (167861,-174031); (183936,-98701); (184740,-92639)], [9; 10; 9; 11; 9; 11; 9; 11; 9; 0]%nat);
  (96, [(-138364,47208); (-128483,-9199); (-123494,-29996); (-116096,-54139); (-106257,-75680); (-102793,-82145); (-83298,-109883); (-71433,-122243); (-45050,-145337); (-41438,-148096); (-30512,-155667); (13564,-184692); (20920,-189283); (46317,-201417); (49906,-202342); (65427,-204648); (70253,-202833); (81828,-196117); (91960,-184642); (112952,-152416); (115494,-148117); (123630,-127820); (124619,-124795); (136133,-67114)], [9; 10; 9; 10; 9; 10; 9; 10; 9; 47]%nat);
  (96, [(-102324,36897); (-101417,31164); (-93457,-13822); (-91712,-23161); (-82036,-48555); (-75959,-60538); (-64607,-77897); (-61809,-80886); (-53154,-89265); (-31243,-108998); (-23604,-114760); (5696,-133795); (25067,-143577); (31439,-146690); (37302,-149396); (39571,-149837); (49844,-150854); (55671,-148429); (66930,-140397); (70955,-135652); (73596,-131566); (86169,-111079); (91968,-95335); (100709,-54392); (101171,-51265)], [9; 10; 9; 10; 9; 10; 9; 10; 9; 0]%nat);
  (97, [(-150855,51166); (-138364,-21974); (-136156,-33475); (-126697,-61956); (-116121,-83089); (-112559,-90023); (-94505,-117563); (-78467,-134243); (-49351,-159261); (-46320,-161581); (-31164,-171671); (21955,-205992); (51338,-220467); (55030,-221892); (71744,-224282); (73762,-223535); (81660,-219056); (99021,-206845); (102852,-201422); (105733,-196952); (125998,-161427); (135780,-136781); (149397,-74792); (149838,-70695)], [9; 9; 9; 10; 9; 10; 9; 10; 9; 47]%nat);
  (97, [(-112159,40177); (-101417,-19545); (-97865,-33567); (-85413,-61046); (-82737,-66157); (-69970,-85996); (-67753,-89119); (-58535,-98521); (-33557,-119355); (-25583,-125273); (10987,-149352); (16738,-152895); (37840,-163018); (41073,-164403); (54942,-165712); (61122,-163116); (72669,-154054); (74049,-152511); (77834,-147263); (92347,-124956); (94642,-121043); (100709,-104747); (110947,-55916)], [8; 9; 8; 9; 8; 9; 8; 9; 8; 45]%nat);
  (98, [(-165713,55828); (-163117,40872); (-148437,-37104); (-138773,-69027); (-123730,-98817); (-120242,-104011); (-100542,-132267); (-87016,-146108); (-52348,-175985); (-40177,-184142); (19545,-222380); (48555,-236905); (60538,-242726); (77897,-246060); (80886,-244948); (89265,-240206); (108998,-225984); (114760,-219349); (133796,-189301); (143578,-165232); (146691,-157158); (149397,-149491); (164404,-82257)], [8; 9; 8; 9; 8; 9; 8; 9; 8; 45]%nat);
  (98, [(-123061,44846); (-111768,-17878); (-109528,-26896); (-103423,-47310); (-92321,-68880); (-76208,-93900); (-74059,-96980); (-63609,-107970); (-37396,-130699); (-27914,-137800); (-20436,-142682); (18552,-166990); (41545,-178438); (45012,-180077); (58782,-182678); (67122,-179150); (79631,-168797); (80791,-167506); (85836,-159918); (102996,-132540); (110598,-113081); (121363,-60825)], [8; 9; 8; 9; 8; 9; 7; 9; 8; 0]%nat);
  (99, [(-182679,65114); (-179151,44906); (-163220,-40371); (-150546,-79007); (-135653,-107997); (-131567,-114301); (-111079,-144569); (-95335,-160103); (-55916,-193937); (-44846,-201277); (17878,-241415); (26896,-245953); (61046,-262396); (66157,-264711); (85996,-268935); (89119,-269186); (98521,-264853); (119355,-246147); (125273,-239076); (149353,-202055); (152896,-195867); (163019,-168848); (164404,-164459); (180078,-90053)], [8; 9; 8; 9; 8; 9; 8; 9; 8; 0]%nat);
  (99, [(-134594,45474); (-122474,-19649); (-120103,-29214); (-112652,-53617); (-103423,-73166); (-100711,-77675); (-98173,-81582); (-80714,-105820); (-68391,-118683); (-41129,-143840); (-32557,-150123); (-22453,-156699); (20186,-183406); (34514,-190544); (49409,-197844); (52006,-198251); (66134,-199743); (73054,-196598); (87993,-184337); (92071,-178284); (111190,-147241); (118453,-129124); (121363,-121507); (132356,-66199); (134468,-48472)], [9; 10; 9; 10; 9; 10; 9; 10; 8; 48]%nat);
  (100, [(-199744,67475); (-182679,-26225); (-179151,-44669); (-168557,-75564); (-152901,-109312); (-147264,-118853); (-124956,-153456); (-121043,-159024); (-104747,-175232); (-60825,-212314); (-45474,-223715); (19649,-264598); (29214,-269421); (68880,-287963); (93900,-293267); (96980,-293589); (107970,-289174); (130699,-270842); (137801,-262529); (142683,-254896); (166991,-213382); (178439,-184568); (180078,-180092); (197845,-99026); (198252,-94239)], [9; 10; 9; 10; 9; 10; 9; 10; 9; 49]%nat);
  (100, [(-146807,49596); (-134594,-21823); (-132427,-32308); (-119157,-68503); (-109675,-87342); (-94651,-110134); (-82616,-122924); (-76874,-128788); (-45027,-157565); (-33738,-166007); (21219,-200946); (39504,-209802); (53999,-216652); (57151,-217294); (72285,-219507); (80052,-215413); (96969,-201370); (100639,-195804); (120708,-163184); (122977,-157569); (131199,-135752); (132356,-132377); (143982,-75102); (146634,-52734)], [9; 9; 8; 9; 8; 9; 8; 9; 8; 47]%nat);
  (100, [(-109754,37469); (-99872,-16198); (-98299,-23905); (-92169,-41909); (-83860,-59685); (-79959,-65847); (-66270,-86429); (-56541,-96463); (-33100,-115807); (-24798,-122009); (10912,-145506); (16154,-148582); (36583,-158298); (38838,-158968); (40791,-159360); (52910,-160080); (59342,-157404); (71920,-149010); (75062,-145150); (78350,-139978); (91703,-117369); (95272,-108394); (98922,-98974); (108326,-54327); (108647,-51496)], [8; 9; 8; 9; 8; 9; 8; 9; 8; 0]%nat);
  (101, [(-160081,54260); (-146795,-23583); (-144588,-35677); (-134551,-65583); (-123074,-88587); (-119538,-95389); (-101028,-124097); (-97934,-128413); (-84424,-141914); (-49513,-173089); (-37469,-182040); (22029,-219626); (56655,-235821); (76728,-240049); (79512,-240312); (87616,-236172); (106157,-220061); (111858,-213261); (132300,-178800); (134711,-172852); (143982,-147093); (158766,-83110); (159361,-77778)], [9; 10; 9; 10; 9; 10; 9; 10; 9; 0]%nat);
  (101, [(-120156,40644); (-109754,-17408); (-107707,-26199); (-100685,-46627); (-92169,-64951); (-89142,-69786); (-73621,-92785); (-64562,-102313); (-60754,-106175); (-37551,-125207); (-27130,-132952); (11792,-158587); (17839,-162427); (43653,-175179); (55067,-177252); (61462,-174810); (64394,-173466); (78783,-163201); (83004,-158244); (100473,-129491); (104901,-117848); (108326,-108490); (117911,-61256); (120025,-43297)], [9; 10; 9; 10; 9; 10; 9; 10; 9; 47]%nat);
  (102, [(-177253,67118); (-174682,51086); (-157405,-39982); (-148641,-70626); (-131490,-104641); (-127448,-110821); (-106691,-140319); (-90970,-156742); (-54327,-189489); (-40644,-199669); (17408,-236917); (26199,-241614); (59685,-257248); (65847,-258689); (86429,-262185); (96463,-257777); (115807,-239911); (122009,-232610); (147609,-193198); (158299,-164282); (175180,-87873)], [8; 9; 8; 9; 8; 9; 8; 9; 8; 0]%nat);
  (102, [(-131093,44664); (-120156,-19434); (-118086,-28573); (-110031,-51142); (-100685,-71798); (-97902,-76164); (-81592,-100310); (-78785,-103281); (-67301,-114808); (-41354,-138170); (-33559,-143695); (-25543,-149140); (19991,-177397); (44294,-189515); (47695,-191080); (62049,-194101); (64207,-194244); (70957,-190860); (86545,-179330); (91020,-174000); (109813,-142691); (117911,-120211); (128624,-68939); (129345,-63498)], [9; 10; 10; 10; 9; 10; 9; 10; 9; 0]%nat);
  (103, [(-194245,65830); (-174811,-35519); (-173467,-42055); (-162907,-76938); (-149011,-106588); (-145151,-113837); (-139979,-121706); (-117369,-154064); (-108394,-163446); (-98974,-173101); (-61256,-205195); (-44664,-217523); (19434,-259747); (28573,-264746); (64951,-281766); (69786,-282964); (92785,-286421); (102313,-282595); (106175,-280772); (125207,-262914); (132953,-253689); (158588,-214297); (162428,-207963); (175180,-175463); (191081,-95690); (194102,-70003)], [10; 11; 10; 11; 10; 11; 10; 11; 10; 50]%nat);
  (103, [(-143223,50278); (-131093,-20883); (-128889,-32019); (-119956,-55829); (-110031,-78650); (-106631,-85201); (-89400,-109950); (-86426,-113105); (-73547,-125596); (-43937,-153212); (-32915,-161331); (20261,-194114); (35313,-201611); (52321,-209972); (55411,-210565); (70160,-211931); (78371,-208527); (94745,-196444); (99835,-190396); (118459,-160280); (120807,-155012); (128624,-133252); (140884,-75932); (141483,-71696)], [9; 9; 9; 10; 9; 10; 9; 10; 9; 0]%nat);
  (103, [(-105967,35795); (-97123,-15646); (-95431,-23242); (-89292,-42911); (-81601,-58383); (-79123,-63224); (-64746,-84287); (-58924,-90171); (-54245,-94765); (-34470,-111390); (-31749,-113471); (-25139,-118085); (10442,-141536); (16010,-144900); (35899,-154535); (38082,-155026); (50155,-156826); (51641,-156247); (57404,-153408); (69086,-144983); (71848,-141331); (74571,-137399); (88699,-113058); (94758,-97843); (95541,-95616); (104987,-52665); (105283,-49872)], [10; 11; 10; 11; 10; 11; 10; 11; 10; 53]%nat);
  (104, [(-156841,56339); (-141714,-29693); (-140387,-35982); (-131458,-59479); (-119956,-85818); (-116305,-92933); (-96599,-123460); (-82141,-137764); (-47845,-167159); (-35795,-176140); (18478,-211751); (53294,-228953); (56919,-230530); (60853,-231259); (77032,-232918); (86130,-229158); (102598,-215153); (108762,-207807); (129874,-175377); (132374,-169987); (140884,-146374); (154536,-82737); (155027,-78862)], [8; 9; 8; 9; 8; 9; 8; 9; 8; 0]%nat);
  (104, [(-116459,39427); (-114579,28449); (-104264,-26239); (-98126,-45943); (-89665,-64129); (-87000,-69270); (-71346,-91977); (-60106,-102885); (-37966,-121901); (-35848,-123559); (-27136,-129360); (16517,-157643); (39325,-169019); (42601,-170532); (54975,-171863); (56553,-171255); (62798,-167745); (76606,-158847); (80666,-153914); (97057,-125325); (100806,-115896); (104986,-105158); (115265,-58346); (115630,-54777)], [9; 10; 9; 10; 9; 10; 9; 10; 9; 0]%nat);
  (105, [(-171880,61617); (-156248,-25159); (-153409,-38104); (-144826,-66196); (-127148,-100773); (-107149,-131801); (-103982,-136433); (-87732,-153248); (-52665,-183642); (-39427,-193492); (-28449,-200710); (26239,-234768); (62934,-253044); (84287,-255923); (90171,-253105); (94765,-250638); (111390,-236026); (115334,-231628); (141537,-191421); (144901,-185331); (154536,-160005); (170533,-85330)], [8; 9; 8; 9; 8; 9; 7; 9; 8; 43]%nat);
  (105, [(-127962,43675); (-116459,-18803); (-114579,-28841); (-107577,-48810); (-98222,-70190); (-95198,-76036); (-80140,-98424); (-77506,-101431); (-66626,-111968); (-41369,-133852); (-39431,-135312); (-30809,-141072); (15497,-170695); (42909,-184320); (46467,-186005); (61730,-189195); (68882,-185465); (83580,-173215); (88070,-167901); (105876,-140336); (114477,-118421); (115265,-115979); (126522,-63588)], [11; 11; 10; 11; 10; 11; 10; 11; 10; 0]%nat);
  (106, [(-189196,65735); (-171256,-27479); (-167746,-41724); (-158303,-75751); (-143573,-104699); (-137400,-114793); (-113058,-149134); (-97222,-165707); (-58346,-201358); (-43675,-212250); (28369,-257766); (68813,-277851); (91977,-280659); (102885,-274541); (121901,-258784); (123559,-257035); (129360,-248313); (157644,-203431); (169020,-174879); (170533,-170597); (186006,-93071)], [8; 9; 8; 9; 8; 9; 8; 9; 7; 41]%nat);
  (106, [(-140330,48353); (-127482,-22969); (-125319,-32106); (-114241,-62855); (-103904,-82786); (-87689,-107952); (-84994,-111126); (-73187,-122588); (-42665,-149201); (-32868,-156329); (13740,-184996); (21625,-188996); (50387,-202729); (65901,-206001); (68217,-206308); (76624,-202669); (91821,-190397); (96746,-184547); (100355,-178982); (117384,-149838); (126522,-126849); (138926,-70113)], [9; 9; 8; 9; 8; 9; 8; 9; 8; 0]%nat);
  (106, [(-103155,34937); (-94598,-14431); (-92733,-22516); (-86608,-40277); (-79424,-56751); (-76958,-61427); (-62663,-81392); (-57948,-86320); (-52579,-91842); (-31794,-110626); (-24177,-116154); (12392,-139548); (35095,-150866); (38018,-152226); (49212,-153959); (50716,-153580); (55984,-150603); (66927,-141759); (67657,-140916); (70537,-136614); (85348,-112525); (92161,-95332); (93003,-93037); (101365,-50978); (103001,-37100)], [10; 10; 9; 10; 9; 10; 9; 10; 9; 49]%nat);
  (107, [(-154032,54669); (-140330,-21812); (-137271,-34250); (-127751,-61988); (-115814,-86381); (-95711,-117610); (-92666,-121735); (-80003,-134536); (-46536,-162739); (-34515,-171688); (14431,-203628); (22516,-207983); (52350,-222098); (57397,-223496); (74567,-224909); (82854,-221503); (100679,-209365); (106125,-202863); (128883,-164956); (138926,-139576); (152227,-76190)], [8; 9; 8; 9; 8; 9; 8; 9; 8; 0]%nat);
  (107, [(-112455,37882); (-103154,-16640); (-101335,-25957); (-94643,-45877); (-86608,-61928); (-83951,-67083); (-70168,-88334); (-59211,-99675); (-35057,-121398); (-27335,-126698); (10906,-151237); (17125,-154397); (31428,-161383); (41393,-165994); (53976,-168654); (55563,-168339); (61294,-165129); (74601,-154566); (78165,-150115); (92498,-125007); (94498,-120122); (101365,-101660); (111049,-58699); (111748,-54351)], [9; 9; 8; 9; 8; 9; 8; 9; 8; 47]%nat);
  (108, [(-168779,59650); (-153581,-24642); (-150604,-36667); (-141670,-63242); (-128518,-91430); (-124157,-98321); (-101716,-132216); (-86138,-148523); (-50978,-177242); (-37882,-187029); (16640,-222949); (25957,-228628); (60850,-246018); (81392,-247415); (86320,-245377); (91842,-242922); (110626,-229528); (116154,-222586); (139549,-184539); (150867,-156110); (152227,-152304); (165995,-83208)], [8; 9; 8; 9; 8; 9; 8; 9; 8; 43]%nat);
  (108, [(-123708,42316); (-122282,33996); (-110752,-27478); (-104334,-49537); (-95199,-68022); (-92274,-73678); (-89491,-77983); (-74843,-98763); (-63425,-110666); (-38095,-133180); (-29825,-138955); (12321,-165903); (18334,-168938); (43191,-180600); (58805,-183919); (60868,-183968); (67268,-180906); (81370,-168591); (85844,-163282); (101814,-138291); (103992,-133472); (111049,-114224); (123009,-62159)], [9; 10; 9; 10; 9; 10; 9; 10; 9; 0]%nat);
  (109, [(-183969,62232); (-168340,-26957); (-165130,-40024); (-154337,-72614); (-141043,-99884); (-136615,-106921); (-112525,-142565); (-93836,-162049); (-55925,-195173); (-42316,-205101); (-33996,-210569); (27478,-248983); (61928,-266109); (67083,-268528); (88334,-272838); (99675,-267936); (121398,-252212); (126698,-244718); (151238,-205044); (154398,-197346); (161384,-179219); (165995,-166206); (180601,-94218); (183920,-66309)], [8; 9; 8; 9; 8; 9; 8; 9; 8; 47]%nat);
  (109, [(-136420,48085); (-133969,34293); (-121623,-30579); (-114764,-53244); (-104683,-74509); (-101432,-80767); (-82478,-108264); (-69788,-121479); (-41604,-145194); (-29825,-153867); (13479,-181819); (20012,-185143); (45715,-197091); (49161,-197899); (66108,-200879); (74262,-197531); (88621,-183910); (93515,-178154); (111475,-150572); (114314,-145515); (123009,-123664); (134265,-67181)], [8; 8; 8; 9; 8; 9; 8; 9; 8; 0]%nat);
  (110, [(-200893,68526); (-183969,-29752); (-180907,-44083); (-168592,-78445); (-154567,-110561); (-150116,-118802); (-125007,-153745); (-117463,-161809); (-101660,-177316); (-62159,-214939); (-43636,-227859); (30579,-273826); (68022,-292432); (73678,-295066); (77983,-295958); (98763,-297832); (110666,-292850); (133181,-275961); (138956,-268084); (165904,-224213); (168939,-216740); (180601,-184519); (197092,-105661); (197900,-99577)], [9; 10; 9; 10; 9; 10; 9; 10; 9; 0]%nat);
  (110, [(-148917,50153); (-139391,-4891); (-133969,-32691); (-126106,-58345); (-114764,-81935); (-111293,-88331); (-92270,-116482); (-76843,-132622); (-47109,-157047); (-34263,-166631); (14876,-198846); (22042,-202949); (49942,-215957); (53461,-216807); (71283,-219450); (81025,-215374); (97587,-202306); (102551,-196142); (105285,-191923); (124492,-159260); (133055,-137654); (134265,-134314); (147534,-73855); (147980,-69996)], [8; 9; 8; 9; 8; 9; 8; 9; 8; 47]%nat);
  (110, [(-109725,38442); (-100440,-15888); (-98766,-24879); (-91955,-42644); (-84296,-60296); (-81641,-65434); (-69146,-84528); (-66736,-87308); (-57112,-96771); (-33591,-117470); (-25077,-123841); (2446,-141837); (16346,-150315); (40136,-161978); (54132,-163677); (60740,-160898); (72597,-150500); (76934,-145226); (90910,-122886); (92572,-118846); (98546,-102104); (107979,-58037); (108404,-54943)], [10; 10; 9; 10; 9; 10; 9; 10; 9; 0]%nat);
  (111, [(-163678,55413); (-160899,39418); (-146472,-37308); (-137981,-64191); (-126106,-89872); (-122359,-96109); (-102522,-125608); (-98673,-129730); (-89610,-138982); (-83103,-145220); (-51478,-171815); (-38376,-181055); (15888,-216769); (24879,-222412); (58677,-239173); (76873,-240317); (80905,-238821); (88658,-234648); (107470,-223364); (113930,-214531); (136914,-174791); (146217,-151303); (147534,-147622); (161979,-81706)], [10; 11; 10; 11; 10; 11; 10; 11; 10; 0]%nat);
  (111, [(-120159,43286); (-119411,38506); (-109725,-16421); (-107687,-27182); (-101153,-47011); (-98071,-53516); (-89283,-70927); (-75286,-92654); (-72758,-96125); (-61832,-107551); (-36928,-129071); (-27707,-135972); (-19709,-141191); (18654,-165127); (43410,-177430); (58241,-179632); (66311,-176310); (78524,-164895); (83316,-159237); (99423,-134259); (101475,-130170); (107979,-112026); (119587,-60910)], [11; 11; 10; 11; 10; 11; 10; 11; 10; 0]%nat);
  (112, [(-179633,63150); (-170142,7550); (-160899,-41031); (-150501,-69944); (-137981,-98686); (-134043,-105446); (-112107,-137878); (-108370,-141847); (-92260,-157537); (-58037,-186940); (-54943,-189337); (-38506,-200317); (16421,-235872); (27182,-242557); (60296,-259037); (65434,-261434); (84528,-265085); (87308,-264435); (96771,-259381); (117470,-243388); (123841,-235916); (141838,-207864); (150316,-192781); (161979,-162696); (177431,-90610)], [10; 11; 10; 11; 10; 11; 10; 11; 10; 0]%nat);
  (112, [(-132641,47091); (-119411,-21200); (-117324,-29996); (-111682,-51629); (-101153,-72299); (-98071,-78034); (-95962,-81295); (-79630,-104585); (-68050,-116659); (-40853,-141553); (-31575,-148059); (-3775,-166368); (20516,-181415); (44936,-193511); (48055,-194441); (62804,-196729); (64865,-195971); (69491,-193847); (72610,-192019); (85908,-180340); (90528,-174168); (108385,-146689); (111206,-141931); (119587,-120703); (130717,-65283)], [9; 10; 9; 10; 9; 10; 9; 10; 9; 49]%nat);
  (113, [(-196762,70736); (-179633,-26666); (-176311,-44467); (-164896,-74601); (-150501,-107569); (-145227,-117562); (-122886,-151099); (-118846,-155433); (-102104,-171567); (-60910,-208720); (-47091,-218192); (23159,-261223); (53516,-276417); (70927,-284958); (92654,-289554); (96125,-289705); (107551,-284992); (129071,-267464); (135973,-259373); (141192,-251205); (165128,-210383); (177431,-179326); (194312,-99872)], [9; 10; 9; 10; 9; 10; 9; 10; 9; 0]%nat);
  (113, [(-144853,48728); (-134694,-10688); (-129691,-31926); (-121694,-56623); (-111682,-79550); (-107266,-87114); (-87396,-115066); (-74813,-128179); (-45305,-154779); (-35368,-161395); (20974,-197920); (49343,-211996); (52723,-213128); (68939,-215516); (70924,-214756); (78769,-210414); (94212,-197628); (100159,-188744); (117936,-160484); (121279,-154736); (129519,-133982); (130717,-130642); (142480,-71552); (144778,-52123)], [8; 9; 8; 9; 8; 9; 8; 9; 8; 47]%nat);
  (113, [(-107772,38647); (-97382,-19238); (-92482,-38406); (-79619,-63412); (-66106,-84217); (-56013,-93976); (-32642,-114397); (-24364,-120489); (5344,-140039); (16150,-145754); (36150,-155378); (39017,-156597); (40648,-156934); (52293,-158069); (58330,-155545); (70777,-147018); (74030,-142620); (83184,-128551); (90708,-115546); (96756,-100198); (106546,-54077)], [6; 7; 6; 7; 6; 7; 6; 7; 6; 41]%nat);
  (114, [(-158070,53483); (-144853,-23699); (-142497,-36303); (-132832,-64867); (-121694,-87047); (-117958,-94352); (-103932,-115855); (-96391,-126219); (-81348,-141643); (-49936,-169345); (-35804,-178800); (19238,-214003); (53785,-231179); (58781,-233399); (75550,-236211); (77717,-235422); (85784,-230780); (104360,-217451); (109096,-210736); (130612,-172759); (138209,-153797); (142480,-142792); (156598,-78563); (156935,-75638)], [9; 10; 9; 10; 9; 10; 9; 10; 9; 0]%nat);
  (114, [(-118129,42306); (-107378,-17235); (-105207,-26166); (-98814,-44805); (-90170,-63366); (-87084,-68757); (-73345,-90049); (-70966,-93465); (-60352,-104500); (-35776,-124592); (-26742,-131329); (11850,-156703); (18152,-160649); (39775,-171345); (43557,-172602); (57533,-173696); (64090,-170948); (77390,-161390); (80698,-156415); (98960,-127466); (106092,-109418); (116700,-57919)], [10; 10; 9; 10; 9; 10; 9; 10; 9; 43]%nat);
  (115, [(-173697,58630); (-170949,42768); (-155574,-38791); (-147019,-68045); (-133733,-95638); (-129687,-103552); (-125603,-109792); (-105192,-138831); (-89663,-155016); (-54077,-186054); (-42306,-193953); (17235,-231992); (26166,-236581); (38406,-242574); (63412,-254357); (84217,-258538); (93976,-252991); (114397,-236880); (120489,-229462); (140040,-199371); (145755,-186332); (155379,-160768); (156598,-156862); (172565,-86416)], [9; 10; 9; 10; 9; 10; 9; 10; 9; 47]%nat);
  (115, [(-129269,45052); (-117711,-18862); (-115390,-28089); (-108726,-49997); (-98814,-69509); (-94372,-76566); (-77956,-101324); (-66044,-113761); (-39282,-136958); (-29315,-144383); (-21384,-149566); (19396,-174970); (41617,-186070); (47176,-188723); (57928,-190824); (63110,-191056); (70822,-187581); (84673,-176945); (89400,-169905); (107002,-141265); (115590,-119600); (116700,-116269); (127179,-63767)], [8; 9; 8; 9; 8; 9; 8; 9; 8; 45]%nat);
  (116, [(-191064,64533); (-171040,-42406); (-161391,-74085); (-147019,-104800); (-142621,-112405); (-128551,-134231); (-115546,-152530); (-100198,-168463); (-57919,-204441); (-45052,-213487); (18862,-254285); (28089,-258870); (66400,-276811); (90049,-281765); (93465,-282131); (104500,-277455); (124592,-258441); (131330,-250478); (160050,-206196); (171504,-177065); (188724,-94371); (190825,-74968)], [8; 9; 8; 9; 8; 9; 8; 9; 8; 0]%nat);
  (116, [(-141069,47546); (-129269,-19583); (-126496,-30728); (-118440,-55177); (-108726,-77179); (-105368,-82754); (-86380,-109018); (-77318,-118555); (-71396,-124631); (-43208,-150962); (-32267,-158798); (21203,-192244); (47819,-205462); (51776,-207352); (54896,-207948); (69416,-209316); (77508,-205926); (93027,-193618); (96977,-187771); (115996,-156760); (118291,-151270); (121287,-143525); (127179,-127356); (138406,-72006); (140883,-50834)], [10; 10; 9; 10; 9; 10; 9; 10; 9; 49]%nat);
  (116, [(-104659,35242); (-98077,-2761); (-93791,-23927); (-88473,-40437); (-80696,-57217); (-78208,-61147); (-63733,-83027); (-54709,-92415); (-31884,-111238); (-23773,-117297); (9792,-139062); (15364,-141861); (34755,-150947); (38283,-151798); (50662,-153950); (56881,-151366); (68480,-142002); (72192,-137603); (74784,-133560); (87486,-111832); (93036,-97936); (94362,-94367); (103677,-51900); (103975,-49078)], [8; 9; 8; 9; 8; 9; 8; 9; 8; 47]%nat);
  (117, [(-153951,52626); (-141066,-22932); (-138728,-35136); (-129221,-59982); (-118440,-84787); (-114731,-91807); (-99686,-115119); (-93166,-122464); (-88533,-127238); (-80384,-135284); (-47186,-165132); (-35242,-174077); (2761,-198916); (23927,-211510); (54171,-226498); (67116,-229225); (76265,-229944); (84232,-226546); (102221,-211251); (106744,-205168); (127143,-171852); (129435,-166064); (138406,-141209); (150948,-81437); (151799,-75232)], [10; 11; 10; 11; 10; 11; 10; 11; 10; 0]%nat);
  (117, [(-114972,38707); (-113273,29041); (-103022,-25850); (-96809,-44623); (-88473,-62555); (-84953,-68162); (-70633,-89344); (-59097,-101374); (-36003,-120405); (-26313,-127638); (11466,-152533); (17568,-156297); (38590,-166611); (41377,-167434); (54509,-168144); (61698,-165266); (75481,-156430); (79399,-151366); (96122,-122980); (102731,-106278); (103676,-103738); (113249,-59078); (114613,-47497)], [8; 9; 8; 9; 8; 9; 8; 9; 8; 45]%nat);
  (118, [(-168155,58770); (-153951,-24349); (-151367,-38079); (-141132,-68552); (-129221,-92287); (-125239,-100021); (-103098,-134276); (-88533,-149371); (-51900,-181405); (-38707,-191238); (-29041,-197506); (25850,-231895); (57217,-247218); (61147,-248137); (83027,-252007); (92415,-248041); (111238,-230626); (117297,-223492); (139063,-189010); (141862,-182064); (150948,-156911); (166612,-89431); (167435,-84680)], [8; 9; 8; 9; 8; 9; 8; 9; 8; 0]%nat);
  (118, [(-126004,42977); (-124021,31606); (-113511,-26919); (-105626,-49408); (-96809,-68825); (-93886,-73506); (-78380,-96401); (-75635,-99383); (-71763,-103347); (-63678,-111260); (-40719,-130589); (-37616,-132992); (-29325,-138813); (12175,-166126); (19040,-170407); (42394,-182031); (45904,-183587); (57560,-186026); (61232,-185015); (63619,-183962); (67642,-181848); (82566,-171036); (87039,-165800); (99458,-146427); (105755,-134706); (113249,-115703); (123609,-66392); (124069,-62922)], [11; 12; 11; 12; 11; 12; 11; 12; 11; 0]%nat);
  (119, [(-186027,70906); (-185016,62551); (-183963,56724); (-165267,-40763); (-156431,-72747); (-151367,-83115); (-137824,-109646); (-133561,-116178); (-111832,-147015); (-97936,-161589); (-94367,-165133); (-59078,-196960); (-42977,-209032); (-31606,-216437); (26919,-253942); (62555,-270780); (68162,-272150); (89344,-275283); (101374,-270256); (120405,-252614); (127638,-244084); (152534,-205868); (156298,-199310); (166612,-172737); (183588,-91779)], [11; 12; 11; 12; 11; 12; 11; 12; 11; 0]%nat);
  (119, [(-137642,48298); (-126004,-20025); (-124021,-30405); (-115313,-53582); (-105626,-75815); (-102584,-81098); (-85926,-105662); (-83032,-108677); (-70605,-120755); (-44716,-144255); (-42340,-146266); (-30186,-154477); (20382,-185649); (46105,-198419); (50011,-200256); (67138,-203806); (74686,-200562); (90703,-187954); (95619,-182136); (98753,-177171); (115948,-148072); (123609,-128197); (135391,-72835); (136076,-67913)], [10; 11; 10; 11; 10; 11; 10; 11; 10; 0]%nat);
  (119, [(-101904,34765); (-94728,-5802); (-90925,-22180); (-85514,-39823); (-78216,-55928); (-75684,-60479); (-61490,-80750); (-52226,-90398); (-32575,-107554); (-23852,-113704); (10013,-136018); (15203,-139225); (34413,-148429); (36753,-149017); (48201,-150682); (49692,-150173); (51674,-149274); (55630,-147124); (65295,-138662); (66497,-137361); (69407,-133436); (83064,-112420); (85204,-108766); (91016,-94130); (91794,-91787); (100129,-50117)], [8; 9; 8; 9; 8; 9; 8; 9; 8; 51]%nat);
  (120, [(-150715,53869); (-137642,-20523); (-135129,-33810); (-126307,-57252); (-115313,-82410); (-111746,-89361); (-94505,-115437); (-91032,-119104); (-78456,-131335); (-45890,-160644); (-34765,-169044); (9857,-197879); (41558,-213704); (54823,-220059); (58089,-220695); (73508,-222094); (80795,-219129); (82567,-218218); (98480,-206799); (104516,-199752); (108219,-193934); (126971,-163538); (135391,-140531); (148430,-79603); (149018,-75511)], [9; 9; 9; 10; 9; 10; 9; 10; 9; 0]%nat);
  (120, [(-111050,37484); (-101903,-16187); (-100281,-24546); (-93447,-45327); (-85518,-61187); (-82900,-66314); (-73214,-81155); (-67353,-88917); (-57852,-98787); (-36418,-117183); (-33957,-119098); (-26935,-123781); (10262,-147904); (16905,-152035); (37908,-162488); (40549,-163408); (52831,-165173); (54339,-164540); (60378,-161172); (72921,-152350); (77239,-146044); (92825,-118855); (99210,-102710); (100128,-100181); (110030,-55207); (110348,-52259)], [11; 11; 10; 11; 10; 11; 10; 11; 10; 51]%nat);
  (121, [(-165180,59429); (-149705,-26912); (-147125,-37698); (-134455,-72974); (-122042,-97128); (-102934,-126801); (-99655,-131385); (-86369,-145020); (-50117,-175200); (-37274,-184773); (16187,-219994); (24546,-225109); (55928,-240325); (60479,-242087); (80750,-244106); (90398,-240050); (107554,-226482); (113704,-218261); (136019,-184002); (139226,-178432); (148430,-153818); (163409,-82310)], [8; 9; 8; 9; 8; 9; 8; 9; 8; 0]%nat);
  (121, [(-122053,41303); (-120025,29627); (-109318,-27328); (-103179,-47507); (-93977,-67209); (-91068,-72852); (-88586,-76607); (-74036,-97439); (-64099,-107585); (-39802,-128530); (-37756,-130141); (-29715,-135466); (14324,-163719); (41205,-177121); (44681,-178767); (57719,-181083); (59552,-180361); (65668,-176958); (80322,-166374); (84522,-161549); (98940,-138553); (106852,-118720); (110030,-110222); (121044,-60565)], [11; 11; 10; 11; 10; 11; 10; 11; 10; 0]%nat);
  (122, [(-181108,65399); (-164665,-25900); (-161173,-40170); (-152351,-69667); (-135491,-102272); (-112420,-138024); (-108766,-143217); (-93535,-159122); (-55207,-192457); (-41303,-202804); (-29627,-210424); (27328,-245965); (61187,-262818); (66314,-265272); (81155,-268162); (88917,-268083); (98787,-263886); (117183,-248611); (119098,-246562); (123781,-239542); (147905,-201333); (152036,-194243); (162731,-167306); (178768,-89405)], [8; 9; 8; 9; 8; 9; 7; 9; 8; 0]%nat);
  (122, [(-134082,52926); (-134042,45125); (-131944,33156); (-120104,-30149); (-111011,-57689); (-99876,-79547); (-96967,-83978); (-81769,-106529); (-70266,-117825); (-41155,-142832); (-32460,-148567); (12950,-177616); (24846,-183689); (48564,-194889); (63401,-198036); (65693,-198195); (72510,-195135); (87600,-181518); (92387,-175854); (109997,-148809); (112555,-144286); (120163,-124316); (121044,-121087); (132637,-66322)], [9; 10; 9; 10; 9; 10; 9; 10; 9; 0]%nat);
  (123, [(-198206,66538); (-180362,-28924); (-176959,-42857); (-165860,-79140); (-152351,-107755); (-145001,-119658); (-118855,-155937); (-102019,-173514); (-60565,-211806); (-45125,-222960); (-33156,-230733); (30149,-270358); (67209,-288769); (72852,-291415); (76607,-292084); (97439,-294232); (107585,-289577); (128530,-272400); (130141,-270725); (135467,-262630); (163720,-216931); (177122,-183272); (178768,-178789); (194890,-97761); (198037,-71234)], [8; 9; 8; 9; 8; 9; 8; 9; 7; 48]%nat);
  (123, [(-147117,49677); (-134042,-21896); (-131944,-32816); (-124030,-55834); (-113241,-79244); (-109131,-86422); (-92001,-113019); (-89216,-116922); (-76909,-129203); (-44703,-156417); (-33269,-164938); (14462,-194825); (21429,-198388); (51136,-212196); (69012,-215939); (71609,-216180); (79561,-212877); (96229,-199551); (101402,-193407); (105212,-187446); (122983,-157146); (132541,-133078); (145708,-72856); (146043,-69435)], [9; 10; 9; 10; 9; 10; 9; 10; 9; 47]%nat);
  (123, [(-108091,36481); (-99098,-16144); (-97568,-23726); (-87686,-50569); (-80775,-64329); (-69277,-81621); (-59469,-91905); (-55111,-96253); (-33161,-116057); (-24839,-122279); (15747,-148037); (39774,-159537); (41989,-159952); (53265,-161667); (58913,-158636); (71417,-148280); (74284,-143886); (88809,-120263); (91845,-112922); (97445,-97603); (106099,-54962); (107970,-38958)], [9; 8; 8; 9; 8; 9; 8; 9; 8; 0]%nat);
  (124, [(-161668,55137); (-147117,-23881); (-144789,-35191); (-135902,-61307); (-123317,-88221); (-119771,-93839); (-100667,-122739); (-97122,-127756); (-83653,-141818); (-48881,-170450); (-36481,-179702); (16144,-214341); (23726,-218863); (53878,-233168); (59829,-234745); (77969,-235809); (86757,-232155); (105903,-219420); (111480,-212346); (115367,-206207); (135180,-172620); (144385,-149368); (145708,-145710); (159676,-79329)], [9; 10; 9; 10; 9; 10; 9; 10; 9; 0]%nat);
  (124, [(-117905,39936); (-108091,-17564); (-106439,-26342); (-99200,-48071); (-90760,-64911); (-87928,-70406); (-74405,-91397); (-72144,-94520); (-62158,-104624); (-36428,-127495); (-27569,-134101); (11941,-159059); (17596,-162386); (41632,-173614); (56510,-176767); (58461,-176909); (64602,-173813); (78209,-162017); (82470,-156974); (97413,-131658); (99195,-127363); (106099,-108012); (116585,-62706); (117373,-57544)], [10; 10; 9; 9; 8; 10; 9; 10; 9; 0]%nat);
  (125, [(-176910,59987); (-161668,-25697); (-158637,-38508); (-148281,-68694); (-135363,-96301); (-131316,-102639); (-108466,-136604); (-90014,-155911); (-54962,-184718); (-39936,-195875); (17564,-233747); (26342,-239221); (64327,-258044); (81621,-260986); (91905,-256796); (96253,-254602); (116057,-240408); (122279,-233097); (148038,-190562); (159538,-159758); (173615,-90350); (176768,-63747)], [8; 9; 8; 9; 8; 9; 8; 9; 8; 43]%nat);
  (125, [(-130493,48872); (-128398,36493); (-116078,-28718); (-109564,-51561); (-99776,-71285); (-96704,-77226); (-93723,-81782); (-78573,-103340); (-66539,-115907); (-39665,-139844); (-29994,-146917); (12849,-174517); (19254,-177892); (44111,-189483); (46920,-190151); (63493,-193100); (70909,-190017); (85225,-176719); (89851,-171258); (107171,-144612); (109432,-140422); (116584,-120998); (129022,-64695)], [10; 10; 9; 10; 9; 10; 8; 10; 9; 0]%nat);
  (126, [(-193101,66114); (-176910,-28468); (-173814,-42298); (-162018,-75410); (-148281,-105764); (-143887,-112597); (-120263,-147553); (-112922,-155460); (-97603,-170490); (-62706,-201818); (-57544,-205975); (-48872,-212115); (-36493,-220304); (28718,-260875); (64851,-278859); (70406,-281466); (91397,-285907); (94520,-286069); (104624,-281253); (127495,-264100); (134102,-256290); (161691,-210324); (173615,-177158); (189484,-101261); (190152,-96311)], [10; 11; 11; 11; 10; 11; 10; 11; 9; 0]%nat);
  (126, [(-143036,48515); (-128399,-27706); (-127302,-32603); (-119937,-56836); (-109711,-78476); (-106174,-84937); (-103104,-89592); (-86311,-113603); (-73509,-126940); (-45175,-151029); (-32951,-160124); (17319,-193173); (48151,-207590); (51320,-208297); (68303,-210921); (77956,-206949); (92360,-193502); (97938,-186844); (116874,-157747); (119611,-153075); (129023,-129207); (140734,-70328); (142955,-51557)], [9; 10; 9; 10; 9; 10; 9; 10; 8; 44]%nat);
  (126, [(-105461,37158); (-96551,-15218); (-95009,-23405); (-88360,-41046); (-81009,-57957); (-78488,-62849); (-65830,-80956); (-63682,-83275); (-54006,-92598); (-32348,-112849); (-24258,-118779); (14971,-142942); (35643,-153241); (38613,-154625); (40891,-155061); (51670,-156079); (57954,-153470); (69923,-144549); (73459,-140183); (87259,-118040); (88947,-114166); (94742,-98002); (103796,-55644); (104149,-52829)], [10; 9; 9; 10; 9; 10; 9; 10; 9; 0]%nat);
  (127, [(-156081,52712); (-143035,-23003); (-140627,-34311); (-131442,-63398); (-120204,-86006); (-116549,-93142); (-95281,-124218); (-79879,-139569); (-49398,-165206); (-34477,-175640); (15218,-208321); (23405,-213424); (52882,-227605); (56299,-228336); (73777,-230929); (77730,-229518); (85245,-225471); (100909,-214070); (102988,-212026); (106058,-207959); (110152,-201722); (130438,-166939); (139430,-144294); (140734,-140694); (154626,-77399); (155062,-73279)], [8; 9; 8; 9; 8; 9; 8; 9; 8; 51]%nat);
  (127, [(-115465,41688); (-114759,37029); (-105461,-15573); (-103475,-26219); (-96751,-43985); (-88360,-63135); (-85629,-68444); (-71032,-91070); (-60499,-101460); (-35164,-123152); (-26356,-129725); (14403,-156439); (39238,-168569); (43080,-170125); (56802,-171514); (63470,-168715); (75515,-158447); (80062,-153045); (96587,-127561); (103795,-107542); (113803,-60921); (114168,-57869)], [9; 10; 9; 10; 9; 10; 9; 10; 9; 0]%nat);
  (128, [(-171515,57910); (-168716,41775); (-153471,-39173); (-144550,-67572); (-132051,-94483); (-128145,-102066); (-105162,-135401); (-88579,-151471); (-54453,-180794); (-37029,-192490); (24822,-232475); (57957,-248954); (62849,-251250); (80956,-253095); (83275,-252277); (92598,-246910); (112849,-233970); (118779,-226685); (142943,-184472); (153242,-158576); (154626,-154712); (170126,-83965)], [8; 8; 8; 9; 8; 9; 8; 9; 8; 43]%nat);
  (128, [(-126567,45240); (-114759,-20351); (-112736,-28877); (-106484,-49182); (-96751,-68173); (-93422,-74583); (-78874,-97156); (-76538,-100477); (-64604,-112873); (-38700,-135277); (-28955,-142561); (-20888,-147829); (19587,-173058); (46357,-186378); (62109,-188445); (69785,-184556); (82603,-173303); (87820,-166208); (104161,-141023); (106712,-136664); (113803,-117822); (125625,-62776)], [9; 10; 9; 10; 9; 10; 8; 10; 9; 43]%nat);
  (129, [(-188446,64227); (-171515,-27847); (-168716,-42583); (-158448,-71807); (-144550,-103709); (-140184,-111873); (-118040,-145009); (-114166,-149353); (-98002,-164984); (-60921,-197146); (-57869,-199402); (-45240,-207895); (21981,-250913); (63135,-271424); (68444,-273925); (91070,-278670); (101460,-273189); (123152,-255057); (129725,-247300); (156440,-205853); (168570,-174378); (170126,-169028); (186379,-93664)], [10; 11; 10; 11; 10; 11; 10; 11; 10; 0]%nat);
  (129, [(-139336,48265); (-126139,-20206); (-123455,-30871); (-116622,-55676); (-105009,-78455); (-100861,-84937); (-83470,-109571); (-71328,-122249); (-41983,-149135); (-32114,-156333); (20630,-189679); (50756,-204662); (67701,-206714); (75736,-202183); (90397,-190049); (96245,-181397); (116238,-149535); (124477,-128759); (125625,-125589); (136963,-68519)], [9; 9; 8; 9; 8; 9; 8; 9; 7; 39]%nat);
  (129, [(-103357,35656); (-94223,-14998); (-92278,-23646); (-84201,-46086); (-76523,-60932); (-63781,-80642); (-53771,-90353); (-31388,-109931); (-24133,-115204); (10416,-136435); (29227,-145640); (37292,-149360); (48578,-151742); (50239,-151896); (56437,-149259); (67639,-140158); (71281,-135876); (73915,-131760); (86529,-110207); (93189,-93427); (102331,-51575)], [8; 8; 7; 8; 7; 8; 7; 8; 7; 0]%nat);
  (130, [(-151897,51418); (-139336,-21403); (-136595,-33163); (-127529,-59388); (-116985,-83603); (-113325,-90478); (-92236,-119884); (-78457,-134289); (-46832,-162964); (-35656,-171059); (18076,-205413); (51855,-222333); (55937,-224090); (72505,-226798); (74677,-226182); (82492,-221741); (98573,-208781); (99701,-207421); (103948,-201162); (125457,-166204); (135713,-140434); (136963,-137000); (149361,-74776); (151743,-54586)], [8; 9; 8; 9; 8; 9; 8; 9; 8; 47]%nat);
  (130, [(-113445,40389); (-103358,-16023); (-101092,-25190); (-95025,-42885); (-86652,-60941); (-83105,-67045); (-70512,-86534); (-68333,-89630); (-58911,-99076); (-34260,-119834); (-25136,-126615); (10702,-150039); (16582,-153178); (39228,-163852); (42469,-164565); (54786,-165650); (61125,-163016); (74568,-153835); (78167,-149365); (94840,-121630); (102332,-102741); (112046,-56108)], [9; 10; 9; 10; 9; 10; 9; 10; 9; 0]%nat);
  (131, [(-165651,56078); (-151897,-24530); (-149260,-38245); (-139243,-67912); (-127529,-91270); (-123650,-98813); (-102927,-130709); (-87189,-146773); (-51575,-178875); (-40389,-186502); (16023,-222740); (25190,-227375); (46086,-237532); (60932,-244445); (80642,-248526); (90353,-243072); (109931,-227673); (115204,-221073); (136436,-183821); (145641,-160007); (149361,-149457); (163853,-85396); (164566,-79627)], [8; 9; 8; 9; 8; 9; 8; 9; 8; 0]%nat);
  (131, [(-124263,43621); (-113091,-18132); (-110871,-27057); (-104391,-46378); (-95025,-66641); (-90699,-73571); (-74768,-97546); (-64380,-108383); (-62795,-109927); (-37388,-130667); (-28039,-137613); (12265,-164163); (19123,-168383); (44737,-181151); (59942,-182150); (67145,-179174); (81482,-169056); (85530,-163951); (102707,-135984); (111167,-114895); (112045,-112131); (122223,-61291)], [9; 10; 9; 10; 9; 10; 9; 10; 9; 43]%nat);
  (132, [(-182151,62266); (-179175,44884); (-163017,-40742); (-153545,-73214); (-140159,-100239); (-135877,-108593); (-131761,-114890); (-110207,-145507); (-93427,-163022); (-56108,-196039); (-43621,-204906); (18132,-244315); (27057,-248800); (63972,-266140); (86534,-270826); (89630,-271112); (99076,-266437); (119834,-248272); (126615,-240195); (150040,-203655); (153179,-196604); (163853,-167323); (181152,-91677)], [9; 10; 9; 10; 9; 10; 9; 10; 9; 0]%nat);
  (132, [(-135557,45926); (-124263,-18511); (-121536,-29585); (-113647,-53590); (-103917,-73442); (-100581,-78803); (-83102,-104682); (-69197,-119227); (-42409,-142759); (-31133,-151019); (-22442,-156734); (20371,-183389); (44503,-195448); (49407,-197761); (65355,-200960); (73387,-197270); (89438,-185732); (93251,-180266); (111370,-151033); (116388,-138713); (122223,-122402); (133071,-69098); (135414,-48879)], [8; 9; 8; 9; 8; 9; 8; 9; 8; 45]%nat);
  (133, [(-200961,70250); (-197271,50496); (-179175,-44703); (-169057,-78436); (-153836,-110678); (-149366,-118993); (-121630,-159273); (-102741,-178979); (-61291,-213801); (-45583,-225443); (18511,-267038); (29585,-272658); (66641,-290013); (73571,-291756); (97546,-295856); (109533,-290856); (130667,-270778); (137614,-262499); (164164,-221715); (168384,-214329); (181152,-182253); (197762,-98947)], [8; 9; 8; 9; 8; 9; 8; 9; 8; 0]%nat);
  (133, [(-147929,50382); (-135557,-21852); (-133219,-32467); (-124136,-57766); (-113837,-81472); (-110537,-87570); (-91911,-113459); (-83662,-122023); (-79785,-125857); (-45839,-158233); (-34402,-166350); (22352,-201527); (50120,-215339); (54297,-217323); (57445,-217929); (72754,-219338); (81511,-215694); (98020,-203138); (102453,-197301); (122158,-165105); (124400,-159544); (133071,-135634); (145007,-78366); (145879,-72307)], [9; 10; 9; 10; 9; 10; 9; 10; 9; 0]%nat);
  (133, [(-109669,36915); (-101870,-8373); (-98635,-24070); (-92866,-43005); (-84528,-60350); (-81976,-65036); (-67992,-85709); (-57085,-97188); (-34549,-115797); (-25191,-122738); (10926,-146484); (16234,-149453); (36721,-158999); (39402,-159684); (52341,-161614); (59614,-158618); (71380,-149479); (75510,-144398); (78367,-139993); (91695,-117171); (97724,-102083); (98881,-98914); (108662,-54365); (108965,-51520)], [8; 9; 8; 9; 8; 9; 8; 9; 8; 47]%nat);
  (134, [(-161615,56932); (-147929,-23582); (-145429,-36819); (-135390,-62973); (-124136,-88800); (-120098,-96591); (-101828,-124584); (-98302,-128604); (-83662,-142938); (-49474,-173026); (-36915,-182424); (8373,-212114); (24070,-221341); (55339,-236845); (59497,-238612); (79637,-241086); (89490,-236976); (106901,-221643); (112722,-214666); (133520,-181768); (136330,-174909); (145007,-150869); (159000,-85557); (159685,-80880)], [9; 10; 9; 10; 9; 10; 9; 10; 9; 0]%nat);
  (134, [(-120543,40906); (-118488,28998); (-107859,-27552); (-101569,-47236); (-92866,-66222); (-90133,-70718); (-75517,-92491); (-69357,-99049); (-54749,-113153); (-36154,-127803); (-27776,-133630); (11791,-159721); (18410,-163839); (40736,-174942); (43785,-176215); (56730,-177006); (61012,-175180); (62929,-174178); (79117,-164514); (83175,-159165); (100764,-128794); (107670,-111385); (108662,-108696); (119306,-59809)], [9; 10; 9; 10; 9; 10; 9; 10; 9; 0]%nat);
  (135, [(-177007,63528); (-161615,-23875); (-158619,-39919); (-148877,-69875); (-135390,-96820); (-131250,-104802); (-110858,-136450); (-107165,-141593); (-91127,-158371); (-54365,-190142); (-40906,-200181); (-28998,-207979); (27552,-243271); (60350,-259582); (65036,-261507); (85709,-264549); (97188,-259953); (115797,-242794); (122738,-234490); (146485,-197875); (149454,-191712); (159000,-165057); (176216,-88645)], [9; 10; 9; 10; 9; 10; 9; 10; 9; 0]%nat);
  (135, [(-132275,46566); (-129977,32789); (-120543,-19366); (-118488,-30246); (-110822,-51490); (-101569,-72628); (-98651,-77791); (-82553,-101520); (-79772,-104457); (-67817,-116117); (-42779,-137611); (-40440,-139466); (-31611,-145345); (18828,-178016); (44400,-190737); (48296,-192542); (62292,-195267); (64302,-194756); (71469,-190866); (86513,-179244); (91212,-173734); (106057,-150713); (110671,-141936); (118423,-122295); (119306,-119462); (130754,-65718)], [11; 12; 11; 12; 11; 12; 11; 12; 11; 0]%nat);
  (136, [(-195268,70683); (-194757,66152); (-175181,-34434); (-174179,-38769); (-164252,-76989); (-149480,-105391); (-144399,-114921); (-139994,-121736); (-117171,-154098); (-102083,-169928); (-98914,-173034); (-59809,-208708); (-46566,-217985); (-32789,-227166); (29023,-266617); (66222,-285066); (70718,-286344); (92491,-289772); (99049,-287289); (113153,-279229); (127803,-264014); (133631,-255998); (159722,-216000); (163840,-208939); (175813,-178748); (192543,-95950)], [11; 12; 11; 12; 11; 12; 11; 12; 11; 0]%nat);
  (136, [(-144887,52395); (-143645,44596); (-132275,-19572); (-129977,-32200); (-121397,-55099); (-110822,-79196); (-107333,-85889); (-90884,-110799); (-87455,-114467); (-75435,-126149); (-44323,-154055); (-33076,-161682); (17986,-192868); (48410,-208006); (52401,-209852); (68225,-213196); (70797,-213361); (79186,-209906); (95071,-196972); (100091,-191042); (103990,-184983); (121636,-154902); (130371,-132875); (143047,-73923)], [10; 11; 10; 11; 10; 11; 10; 11; 10; 0]%nat);
  (136, [(-106681,35884); (-99162,-8151); (-95433,-23753); (-89622,-41702); (-82257,-58553); (-79583,-63280); (-64397,-84665); (-54854,-94622); (-32859,-114325); (-22298,-121347); (15704,-145883); (36314,-156041); (38896,-156995); (50760,-158694); (52229,-158115); (58059,-154905); (68806,-145988); (69733,-145040); (72673,-140620); (89008,-114684); (95369,-98653); (96271,-96111); (104926,-52525); (106598,-38373)], [8; 8; 8; 9; 8; 9; 8; 9; 8; 46]%nat);
  (137, [(-158710,56978); (-143645,-27227); (-138769,-46729); (-121397,-85448); (-117245,-93427); (-98938,-121751); (-95856,-125490); (-82529,-138368); (-47975,-168556); (-35884,-177479); (10292,-207886); (38495,-221995); (52696,-228524); (57461,-230591); (60868,-231297); (77049,-232745); (85788,-229195); (104354,-216341); (108993,-210056); (113583,-203164); (133309,-170940); (142534,-147578); (156996,-79203)], [8; 9; 8; 9; 8; 9; 8; 9; 8; 45]%nat);
  (137, [(-116378,39213); (-106681,-17457); (-104953,-26710); (-97879,-47624); (-89622,-64108); (-86867,-69496); (-73059,-90757); (-61148,-103137); (-36962,-124567); (-26198,-131789); (13742,-157342); (39598,-170220); (42945,-171750); (55400,-173984); (57234,-173306); (63075,-170047); (77028,-159865); (80841,-154338); (96434,-126665); (104003,-107595); (104926,-104988); (115296,-57835); (115649,-54781)], [8; 9; 8; 9; 8; 9; 8; 9; 8; 0]%nat);
  (138, [(-174022,62805); (-158116,-25401); (-154906,-38666); (-145598,-65755); (-132008,-94802); (-127999,-101632); (-108000,-132723); (-104470,-137723); (-89374,-153470); (-52525,-183590); (-39213,-193544); (17457,-230820); (26710,-236617); (58553,-252344); (63280,-254087); (84665,-255792); (94622,-251642); (114325,-237206); (121347,-226617); (145884,-187417); (156436,-160425); (171751,-85860)], [9; 10; 9; 10; 9; 10; 9; 10; 9; 0]%nat);
  (138, [(-127896,43231); (-125821,31199); (-114598,-28489); (-108171,-50269); (-98486,-70450); (-95521,-76211); (-92492,-80867); (-77451,-102274); (-66438,-113762); (-39602,-137196); (-31403,-142620); (12701,-170817); (19333,-174240); (42724,-185484); (46714,-187316); (60876,-190252); (62745,-189974); (69184,-186306); (84278,-174393); (88740,-168994); (103943,-145623); (110998,-128002); (115122,-116247); (127043,-63789)], [10; 10; 9; 10; 9; 10; 9; 10; 9; 0]%nat);
  (139, [(-190427,66991); (-173307,-27815); (-170048,-41127); (-159866,-74124); (-145041,-103206); (-140621,-110191); (-114684,-149346); (-97315,-167472); (-57835,-201675); (-43231,-212562); (-31199,-220444); (28489,-257686); (64108,-275407); (69496,-277979); (90757,-282255); (103137,-277003); (124567,-260775); (131790,-250080); (157343,-208530); (171529,-172843); (187317,-93888)], [8; 9; 8; 9; 8; 9; 8; 9; 8; 41]%nat);
  (139, [(-141129,50371); (-138503,35365); (-125822,-31712); (-118604,-55024); (-107354,-79059); (-101583,-88188); (-85471,-111942); (-73790,-124088); (-42930,-150287); (-32678,-157509); (13908,-187216); (20564,-190613); (48925,-203821); (66362,-207544); (68862,-207764); (76736,-204478); (91796,-190219); (96773,-184372); (115411,-155659); (118309,-150754); (126521,-129819); (138991,-69494)], [8; 9; 8; 9; 8; 9; 8; 9; 8; 0]%nat);
  (139, [(-103882,35020); (-95690,-12432); (-93153,-22608); (-87197,-40680); (-79933,-57045); (-77169,-61549); (-63333,-80601); (-53910,-90477); (-31895,-111096); (-25186,-115944); (-17683,-120821); (15856,-141679); (35225,-151324); (38106,-152680); (40434,-153143); (51137,-154157); (56881,-151760); (68598,-142500); (71310,-138369); (85409,-115412); (87120,-111347); (92742,-96389); (93658,-93773); (101911,-52986); (103772,-37410)], [9; 9; 8; 9; 8; 9; 8; 9; 8; 49]%nat);
  (140, [(-154158,51883); (-147006,10458); (-138502,-33886); (-130388,-59373); (-118603,-84675); (-113309,-93020); (-93709,-122457); (-80213,-136383); (-46944,-163846); (-35020,-172745); (12432,-203813); (22608,-208915); (51603,-222446); (55096,-223265); (74673,-226694); (83736,-222920); (100838,-209092); (106281,-202653); (110222,-196533); (128843,-164776); (137704,-142448); (138990,-138989); (152681,-76468); (153144,-72275)], [8; 9; 8; 9; 8; 9; 8; 9; 8; 47]%nat);
  (140, [(-113347,38674); (-103882,-16921); (-102239,-25617); (-95110,-44241); (-87197,-62479); (-84497,-67616); (-72812,-85740); (-64254,-94758); (-40780,-117097); (-25942,-128217); (-5229,-141778); (16943,-155446); (39530,-166649); (44094,-167725); (55971,-169428); (62044,-166857); (75144,-155646); (78755,-150810); (93608,-126504); (95307,-122396); (101911,-103941); (111223,-59620); (111633,-56537)], [9; 9; 8; 9; 8; 9; 8; 9; 8; 0]%nat);
  (141, [(-169429,57486); (-166858,42769); (-151821,-37698); (-142501,-65946); (-130388,-91970); (-125040,-100530); (-104265,-131277); (-86422,-149924); (-52986,-177330); (-38674,-188021); (16921,-224686); (25617,-230096); (57045,-245434); (61549,-246662); (80601,-247568); (90477,-243536); (111096,-230435); (115944,-224289); (120821,-216598); (141680,-180807); (151325,-156537); (152681,-152809); (166650,-87589); (167726,-79537)], [8; 9; 8; 9; 8; 9; 8; 9; 8; 0]%nat);
  (141, [(-123786,43103); (-113347,-18000); (-111460,-28006); (-103902,-50482); (-95110,-68019); (-92186,-73727); (-77830,-95954); (-75377,-99465); (-64910,-110294); (-38234,-133565); (-28743,-140687); (-21385,-145474); (18849,-170671); (42338,-182110); (46510,-183075); (61229,-185552); (68192,-182501); (81923,-169829); (86373,-164579); (101907,-140428); (104458,-134079); (111223,-115232); (122717,-65672); (123331,-61782)], [9; 10; 9; 10; 9; 10; 9; 10; 9; 0]%nat);
  (142, [(-185553,63094); (-167209,-39664); (-155647,-72465); (-142501,-101571); (-138370,-108028); (-115412,-141966); (-111347,-146404); (-96389,-161387); (-93773,-163873); (-58250,-193790); (-43103,-204470); (18000,-244695); (28006,-250927); (62479,-268114); (67616,-270419); (85740,-274235); (94758,-270646); (117097,-257206); (128217,-244210); (141779,-223126); (155447,-199284); (166650,-170914); (182111,-97434); (183076,-90055)], [9; 10; 9; 10; 9; 10; 9; 10; 9; 0]%nat);
  (142, [(-137118,51378); (-135324,40565); (-121768,-29593); (-115218,-53487); (-112145,-59872); (-101413,-80818); (-98267,-85656); (-82388,-108246); (-70099,-121073); (-43327,-145175); (-31547,-154007); (19832,-187042); (45985,-199366); (50265,-200438); (65639,-202724); (74962,-198866); (88665,-185984); (94011,-179690); (112343,-151594); (115048,-146956); (122717,-127031); (135210,-67594)], [9; 10; 9; 10; 9; 10; 9; 10; 9; 0]%nat);
  (142, [(-101363,35723); (-92777,-14841); (-91251,-22567); (-84915,-39466); (-77824,-55689); (-75406,-59904); (-63252,-77796); (-61198,-80008); (-40151,-100333); (-30433,-108260); (-20283,-115042); (14797,-136566); (33831,-146040); (36864,-147482); (47977,-149797); (49733,-149977); (55147,-147632); (66783,-138409); (70344,-134259); (72738,-130491); (85336,-109155); (91056,-94245); (99684,-53698); (100220,-49954)], [9; 9; 9; 9; 9; 10; 9; 10; 9; 0]%nat);
  (143, [(-149978,50511); (-147633,37338); (-135324,-27097); (-128544,-53024); (-115218,-82292); (-112145,-87908); (-108299,-93747); (-90404,-119080); (-77136,-132942); (-48717,-157753); (-45028,-160563); (-35090,-167442); (14841,-200396); (22567,-205070); (50786,-218680); (54014,-219392); (70983,-221887); (73202,-221151); (80694,-217430); (81937,-216679); (96895,-203593); (102235,-196456); (122348,-165522); (125464,-160190); (134058,-138607); (135210,-135199); (147483,-73754); (149798,-53843)], [10; 11; 10; 11; 10; 11; 10; 11; 10; 54]%nat);
  (143, [(-110971,39618); (-101362,-14958); (-99433,-25246); (-92992,-42169); (-84915,-60695); (-82290,-65801); (-70214,-84354); (-67040,-87698); (-57616,-96819); (-33797,-118312); (-25256,-124723); (7766,-145988); (29936,-157050); (40409,-162027); (42828,-162510); (54123,-163573); (60537,-160904); (72588,-152209); (77004,-147053); (93521,-120450); (99683,-103540); (109340,-58554); (109696,-55682)], [10; 9; 9; 10; 9; 10; 9; 10; 9; 0]%nat);
  (144, [(-163574,55327); (-149978,-24478); (-147633,-36478); (-137576,-66881); (-128603,-84947); (-122105,-97691); (-111563,-113889); (-99642,-130537); (-85457,-145286); (-53698,-172520); (-49954,-175464); (-38489,-183074); (23726,-223361); (55689,-239182); (59904,-240669); (77796,-243199); (80008,-242409); (100333,-230802); (108260,-223257); (115042,-213130); (136567,-175256); (146041,-151399); (147483,-147496); (162028,-81209); (162511,-76854)], [10; 11; 10; 11; 10; 11; 10; 11; 10; 0]%nat);
  (144, [(-121622,43515); (-110576,-17914); (-108494,-27337); (-99095,-53525); (-89845,-71550); (-75797,-93394); (-73478,-96679); (-63516,-106839); (-36877,-129045); (-27664,-135911); (12239,-162218); (18239,-165873); (41146,-176938); (43954,-178077); (46874,-178610); (59540,-179715); (66471,-176843); (78877,-167032); (80282,-165451); (83721,-160672); (100198,-135457); (102535,-131236); (109340,-113224); (120335,-60431)], [9; 9; 8; 9; 8; 9; 8; 9; 8; 0]%nat);
  (145, [(-179716,60635); (-176844,43901); (-160905,-40622); (-151869,-70185); (-138410,-98964); (-134260,-107124); (-130491,-112854); (-109155,-143384); (-94245,-158551); (-58554,-189404); (-55682,-191552); (-43515,-199730); (17914,-239067); (27337,-244326); (60695,-260873); (65801,-263283); (84354,-266960); (87698,-265628); (96819,-260461); (118312,-245063); (124723,-237597); (145989,-203451); (157051,-175704); (162028,-162223); (178078,-90169); (178611,-84862)], [10; 11; 10; 11; 10; 11; 10; 11; 10; 51]%nat);
  (145, [(-133502,48935); (-121205,-19406); (-114183,-47512); (-99966,-74985); (-82762,-101659); (-80096,-105441); (-68746,-117317); (-40605,-141727); (-30318,-149400); (-21951,-154895); (20311,-181217); (42474,-192315); (48846,-195375); (56945,-196981); (65269,-197546); (72644,-194423); (86261,-183089); (87733,-181553); (91538,-175796); (111681,-143796); (119809,-123146); (131643,-65841)], [8; 8; 7; 8; 7; 8; 6; 8; 7; 0]%nat);
  (146, [(-197547,67008); (-194424,49135); (-176845,-44517); (-163478,-85004); (-147054,-117245); (-120450,-156930); (-103540,-173482); (-60431,-210455); (-48935,-218070); (19406,-261817); (47512,-275879); (71550,-287016); (93394,-291686); (96679,-291976); (106839,-287292); (129045,-267323); (135912,-259195); (162219,-218850); (165874,-212332); (176939,-183116); (178078,-179208); (195376,-97683); (196982,-83091)], [7; 8; 7; 8; 7; 8; 7; 8; 7; 0]%nat);
  (146, [(-145989,49309); (-132815,-21291); (-130231,-31704); (-122153,-58293); (-111629,-80353); (-106468,-88556); (-87628,-114660); (-74771,-128102); (-45085,-155536); (-33504,-164044); (-24568,-169857); (22259,-199104); (53378,-214570); (56427,-215132); (71692,-216694); (79276,-213159); (95191,-200210); (99865,-193313); (119534,-161387); (122163,-155908); (130437,-134960); (131642,-131662); (143509,-71958); (145844,-52449)], [8; 9; 8; 9; 8; 9; 8; 9; 7; 46]%nat);
  (146, [(-108347,36655); (-98773,-15883); (-97212,-24038); (-91277,-41267); (-82944,-59233); (-80336,-63637); (-67729,-83266); (-65618,-86131); (-56612,-95187); (-32921,-115183); (-24655,-121335); (10646,-143461); (17364,-146845); (37493,-156205); (50830,-159007); (52721,-159177); (58659,-156734); (70864,-146901); (74700,-142369); (77448,-138123); (90609,-115602); (96158,-101763); (97688,-97686); (107285,-53907); (107566,-51139)], [10; 10; 9; 10; 9; 10; 9; 10; 9; 49]%nat);
  (147, [(-159178,53735); (-145989,-23685); (-143647,-35016); (-128947,-75059); (-118799,-95024); (-101726,-120558); (-88284,-134662); (-81112,-141751); (-48842,-170956); (-36655,-180040); (23088,-218009); (58623,-234989); (78465,-238148); (86741,-233652); (105228,-218273); (109035,-212488); (130909,-176957); (137940,-159398); (143509,-143713); (156206,-81219); (159008,-57347)], [8; 9; 8; 9; 8; 9; 8; 9; 8; 41]%nat);
  (147, [(-119074,40609); (-108347,-17519); (-106580,-25986); (-100105,-45139); (-90777,-65039); (-87898,-69564); (-71898,-93707); (-61573,-104416); (-35979,-125520); (-26868,-132311); (11843,-157832); (17508,-161156); (40177,-171894); (44278,-172886); (57330,-173624); (64051,-170848); (77768,-161738); (82022,-156538); (84929,-151961); (99552,-127069); (107285,-107550); (117495,-58872)], [9; 9; 8; 9; 8; 9; 8; 9; 8; 0]%nat);
  (148, [(-173625,58964); (-159178,-25854); (-156735,-38951); (-146012,-70932); (-133662,-95630); (-129598,-103513); (-109425,-134863); (-106166,-139333); (-91558,-154050); (-53907,-187617); (-40609,-197540); (23461,-237963); (60973,-255554); (83266,-260358); (86131,-260433); (95187,-256005); (115183,-238617); (121335,-231313); (143462,-193900); (146846,-185540); (156206,-159322); (171895,-91540); (172887,-84330)], [9; 10; 9; 10; 9; 10; 9; 10; 9; 0]%nat);
  (148, [(-130217,44086); (-119074,-18928); (-116826,-28328); (-109137,-50660); (-100105,-70165); (-96657,-75701); (-80694,-99361); (-77954,-102675); (-66278,-114818); (-40610,-135902); (-29482,-144144); (12927,-172106); (19476,-176211); (37530,-185242); (47512,-190068); (60279,-192145); (67331,-189281); (70876,-187426); (85478,-177060); (90020,-171686); (109005,-140419); (117495,-117619); (127777,-66804); (130179,-46913)], [9; 10; 9; 10; 9; 10; 9; 10; 9; 47]%nat);
  (149, [(-192146,71587); (-189282,54619); (-170849,-42678); (-161255,-76365); (-146902,-105003); (-142370,-113808); (-138124,-120366); (-115602,-152318); (-99085,-169709); (-58872,-205555); (-44086,-216349); (18928,-257077); (28328,-261981); (65039,-279114); (69564,-280143); (93707,-284358); (104416,-279771); (125520,-260239); (132312,-252203); (157833,-213063); (161157,-206719); (171895,-177488); (190069,-95044)], [9; 10; 9; 10; 9; 10; 9; 10; 9; 0]%nat);
  (149, [(-142180,48472); (-130217,-21023); (-128003,-31186); (-119309,-55529); (-109137,-77944); (-106244,-82474); (-88479,-108790); (-79699,-118016); (-54317,-142385); (-42165,-151805); (-35794,-156353); (-27310,-161973); (21339,-192189); (47815,-205385); (51757,-207234); (67432,-210573); (69667,-210667); (77025,-207096); (93809,-194620); (98770,-188765); (118982,-155012); (127777,-130693); (139558,-74518); (140072,-70508)], [10; 10; 10; 10; 9; 10; 9; 10; 8; 0]%nat);
  (149, [(-94641,-20011); (-93713,-24020); (-88334,-41865); (-80869,-57551); (-78269,-62455); (-75981,-65934); (-63535,-83669); (-53775,-93842); (-33402,-111076); (-24236,-117944); (10512,-140729); (15593,-143597); (35083,-152729); (37851,-153433); (50459,-155333); (57409,-152392); (67951,-142537); (72072,-137591); (86053,-116153); (88106,-112683); (92621,-101402); (95034,-95039); (103617,-51860); (105466,-36354)], [8; 9; 8; 9; 8; 9; 8; 9; 8; 46]%nat);
  (150, [(-155334,54415); (-142180,-22618); (-139886,-34473); (-130120,-60460); (-119309,-85356); (-115657,-92421); (-96950,-119225); (-92770,-123654); (-79661,-136291); (-47522,-166309); (-36354,-174579); (21290,-210081); (51299,-225089); (56904,-227727); (60183,-228399); (76159,-229841); (84855,-226368); (102778,-213039); (108175,-206349); (128539,-173880); (130991,-168158); (139558,-144297); (152730,-82563); (153434,-77731)], [10; 10; 9; 10; 9; 10; 9; 10; 9; 0]%nat);
  (150, [(-114921,38762); (-113184,28329); (-105334,-17000); (-103548,-25251); (-96854,-46611); (-86189,-68054); (-70210,-91453); (-58810,-102793); (-36515,-121555); (-27208,-128127); (11309,-153490); (17237,-157123); (38972,-167596); (41237,-168100); (54395,-170072); (59008,-168212); (71193,-161106); (75903,-156019); (78177,-153059); (80987,-148790); (96095,-122803); (102693,-106224); (103617,-103669); (113864,-56960); (114200,-54017)], [9; 9; 8; 9; 8; 9; 8; 9; 8; 2]%nat);
  (151, [(-170099,60955); (-155334,-23252); (-152393,-38622); (-142538,-64634); (-130120,-92990); (-126102,-100787); (-106532,-131201); (-103360,-135318); (-88744,-149710); (-51860,-181305); (-38762,-191081); (-36354,-192756); (19598,-229597); (57551,-248065); (62455,-250221); (65934,-250864); (83669,-252574); (93842,-248314); (111076,-233419); (117944,-225389); (142437,-187424); (152730,-158928); (167597,-89652); (168101,-85626)], [9; 12; 12; 10; 9; 11; 9; 11; 9; 0]%nat);
  (151, [(-126287,42618); (-124157,30315); (-113184,-28263); (-106520,-49518); (-97310,-69482); (-94383,-75175); (-77506,-99606); (-65347,-111441); (-41282,-132090); (-38866,-134002); (-30478,-139622); (11626,-166961); (19311,-171705); (42678,-183327); (46211,-184973); (59613,-186369); (61827,-185511); (68146,-181880); (83155,-172254); (87290,-167289); (105041,-136271); (112545,-117518); (113864,-113892); (125111,-62656); (125432,-59498)], [10; 10; 9; 10; 9; 10; 9; 10; 9; 0]%nat);
  (152, [(-186392,66738); (-168310,-33526); (-159920,-66495); (-137929,-109222); (-116153,-143068); (-112683,-148042); (-101402,-159892); (-95039,-166309); (-56960,-199249); (-42618,-209957); (-30315,-218000); (28263,-254632); (68054,-274460); (91453,-277601); (102793,-271811); (121555,-255363); (128127,-246607); (153491,-207618); (157124,-201211); (167597,-173451); (184974,-92551)], [8; 9; 8; 10; 10; 9; 7; 9; 8; 41]%nat);
  (152, [(-138801,47348); (-126287,-20526); (-124157,-31764); (-116710,-52721); (-106520,-76148); (-103175,-82382); (-86940,-106804); (-84079,-109972); (-72149,-121521); (-44826,-145185); (-42813,-146695); (-33369,-153024); (16763,-185074); (46495,-199863); (50394,-201693); (65601,-204934); (67659,-204849); (74855,-201027); (90653,-187839); (95921,-181625); (114799,-152600); (124876,-126298); (137231,-69176)], [10; 11; 10; 11; 10; 11; 10; 11; 10; 0]%nat);
  (152, [(-102468,36866); (-102425,34766); (-92756,-15449); (-90941,-22676); (-85794,-41299); (-77139,-58092); (-74396,-62389); (-61402,-80745); (-52550,-90003); (-31328,-109448); (-23674,-115128); (15448,-139824); (37394,-150742); (49803,-152212); (55721,-148929); (66046,-140351); (67002,-139369); (69812,-135196); (83481,-113596); (85853,-109469); (91664,-94818); (92487,-92519); (100847,-50453)], [9; 10; 9; 10; 9; 10; 10; 10; 8; 0]%nat);
  (153, [(-152213,52606); (-138801,-22053); (-135906,-34840); (-124426,-66772); (-112695,-89771); (-93712,-119009); (-79464,-132865); (-46276,-161837); (-34766,-170085); (15611,-201061); (33248,-209792); (54611,-219846); (71534,-223455); (74021,-223715); (79946,-221322); (83155,-219772); (99625,-206398); (104979,-200087); (109000,-193816); (127316,-162712); (137231,-137792); (150743,-75954)], [7; 8; 7; 8; 7; 8; 7; 8; 7; 0]%nat);
  (153, [(-111858,37837); (-110662,30715); (-102425,-16447); (-100514,-24598); (-93920,-43694); (-86128,-61624); (-83545,-66572); (-68136,-88008); (-63149,-93302); (-57787,-98865); (-34588,-119938); (-26303,-125911); (13203,-151223); (40507,-164846); (53402,-167044); (54986,-166559); (60761,-163291); (72593,-153716); (73348,-152835); (76513,-148138); (92538,-122043); (99932,-103403); (100847,-100877); (109924,-55312); (111728,-40194)], [10; 11; 10; 11; 10; 11; 10; 12; 11; 48]%nat);
  (154, [(-167103,59618); (-152213,-23500); (-148930,-36978); (-139979,-62999); (-127682,-89635); (-123304,-97301); (-103809,-127539); (-100606,-131973); (-86726,-145916); (-50453,-176468); (-37837,-185880); (-30715,-190610); (16447,-221298); (25797,-226263); (58092,-241417); (62389,-242376); (80745,-243922); (90003,-240105); (109448,-226829); (115128,-220041); (139825,-178841); (150743,-151326); (164847,-83832)], [9; 10; 9; 10; 9; 10; 9; 10; 9; 0]%nat);
  (154, [(-121961,41216); (-111858,-18092); (-110661,-24616); (-109886,-28212); (-102541,-49976); (-93920,-67173); (-90813,-73218); (-76300,-95724); (-63149,-109089); (-37977,-131755); (-29809,-137295); (11750,-163964); (18489,-167420); (44886,-180024); (59505,-182969); (66433,-179113); (80919,-167654); (85043,-162330); (100531,-135185); (104896,-124096); (109923,-110274); (120709,-62617); (121188,-58799)], [9; 10; 9; 10; 9; 10; 9; 10; 9; 45]%nat);
  (155, [(-182970,63959); (-166560,-26693); (-163292,-39877); (-153643,-68547); (-139370,-99162); (-135197,-105825); (-113596,-138564); (-109469,-144339); (-94818,-159624); (-92519,-161845); (-55312,-192193); (-41216,-202707); (18092,-241809); (26479,-247118); (61624,-264693); (66572,-266949); (88008,-268285); (93302,-266252); (98865,-263873); (119938,-249084); (125911,-241473); (151224,-200429); (164847,-166256); (180025,-90252)], [10; 11; 10; 11; 10; 11; 10; 11; 10; 47]%nat);
  (155, [(-134143,46135); (-133127,39824); (-131937,33072); (-120053,-29977); (-113023,-54086); (-103199,-73826); (-100044,-79968); (-96908,-84773); (-81356,-106977); (-68896,-120007); (-41916,-143890); (-31980,-150991); (13347,-179907); (19939,-183231); (46998,-195933); (63770,-199464); (65987,-199587); (72958,-196164); (88234,-182805); (92940,-177248); (95305,-173673); (110649,-149527); (113132,-143901); (120709,-122971); (133475,-66903)], [11; 11; 10; 11; 10; 11; 10; 11; 10; 0]%nat);
  (156, [(-199588,67613); (-182970,-27526); (-179114,-43310); (-167655,-78011); (-153022,-108189); (-148139,-115992); (-122043,-154566); (-101937,-175544); (-61964,-210685); (-46135,-222152); (-39824,-226431); (-33072,-230803); (29977,-270084); (66652,-288355); (73218,-291454); (95724,-296187); (109089,-289933); (131756,-273588); (137296,-265562); (163965,-222447); (167421,-214153); (180025,-180265); (195934,-101937); (199465,-71924)], [8; 9; 8; 9; 8; 9; 8; 9; 8; 47]%nat);
  (156, [(-148094,52370); (-132004,-32673); (-124542,-57667); (-113415,-81095); (-110021,-87623); (-89421,-117470); (-75663,-131828); (-45126,-157463); (-33684,-165873); (13763,-196734); (21655,-200770); (49581,-213742); (52913,-214567); (69282,-217520); (72170,-217724); (80605,-214206); (96097,-199458); (101354,-193247); (120905,-163265); (123559,-158860); (133300,-134515); (145728,-72509)], [7; 8; 7; 8; 7; 8; 7; 8; 7; 0]%nat);
  (156, [(-108863,36692); (-99794,-16090); (-98083,-23917); (-91403,-42533); (-83828,-59963); (-81166,-64752); (-67593,-83634); (-61505,-89949); (-55137,-96139); (-33452,-116750); (-26185,-121910); (16337,-148342); (36913,-158570); (39984,-160021); (42387,-160489); (53489,-161590); (60004,-158902); (71946,-149835); (75496,-145224); (89954,-121584); (91616,-117485); (97967,-99953); (106872,-57290); (107284,-54371); (108761,-39478)], [9; 10; 9; 10; 9; 10; 9; 10; 9; 49]%nat);
  (157, [(-161591,54612); (-150545,-9975); (-144967,-36606); (-136795,-63359); (-124542,-88803); (-120737,-95727); (-100215,-126171); (-83128,-144066); (-50969,-170450); (-36692,-181035); (16090,-215679); (23917,-220084); (54095,-234165); (57996,-235134); (77283,-237968); (87772,-233596); (105343,-219979); (111076,-212750); (114235,-208170); (135043,-172587); (144178,-149615); (145728,-145373); (160022,-80053); (160490,-75715)], [8; 9; 8; 9; 8; 9; 8; 9; 8; 47]%nat);
  (157, [(-118984,41701); (-108862,-17739); (-107103,-27054); (-99729,-46233); (-91403,-65384); (-88624,-70784); (-86837,-73596); (-74764,-91958); (-71951,-95145); (-61486,-105338); (-36255,-127601); (-27306,-134286); (4988,-155533); (18303,-163271); (43525,-175705); (58735,-177524); (65914,-174535); (78732,-163224); (82937,-158089); (98367,-133788); (100385,-128923); (106871,-110726); (117083,-62988); (117567,-59571)], [10; 11; 10; 11; 10; 11; 10; 11; 10; 0]%nat);
  (158, [(-177525,60054); (-174536,42707); (-158903,-40557); (-149836,-68975); (-136795,-97558); (-132782,-104101); (-111224,-136160); (-107077,-140652); (-90133,-157492); (-55592,-186527); (-40481,-197123); (17739,-235464); (27054,-241261); (63558,-259387); (83634,-260638); (89949,-257934); (96139,-254483); (116750,-242030); (121910,-235236); (148343,-189840); (158571,-164030); (160022,-160064); (175706,-88655)], [9; 10; 9; 10; 9; 10; 9; 10; 9; 0]%nat);
  (158, [(-130319,46685); (-118984,-17791); (-116798,-29373); (-109695,-51258); (-99729,-71165); (-96624,-77198); (-81633,-100497); (-79430,-103702); (-67258,-116486); (-40027,-140009); (-30027,-147499); (-21354,-153183); (20279,-179182); (46908,-192388); (63086,-194844); (72033,-191178); (85225,-178807); (90518,-172469); (109142,-143655); (117083,-121529); (129694,-66136)], [9; 10; 9; 10; 9; 10; 9; 10; 9; 0]%nat);
  (159, [(-194913,67846); (-177525,-28708); (-174536,-44561); (-163225,-75852); (-149836,-106434); (-145225,-114686); (-121584,-149513); (-117485,-153861); (-99953,-170946); (-62988,-202673); (-59571,-205349); (-46685,-213954); (17791,-255760); (29373,-262970); (65384,-280883); (70784,-283425); (73596,-284069); (91958,-287466); (95145,-286621); (105338,-280980); (127601,-263913); (134287,-256042); (155534,-223324); (163272,-208301); (175706,-176508); (192389,-98572)], [10; 11; 10; 11; 10; 11; 10; 11; 10; 0]%nat);
  (159, [(-143734,51775); (-143311,48166); (-128967,-25466); (-127242,-32518); (-120860,-56837); (-109990,-77846); (-106375,-84483); (-104085,-88214); (-86294,-113470); (-73748,-126585); (-44328,-153543); (-33923,-160991); (21347,-196354); (48779,-209964); (52051,-210859); (68080,-213345); (70326,-212567); (78746,-208253); (93264,-195488); (98562,-188324); (117732,-158860); (120631,-153892); (129694,-130983); (141852,-70234)], [10; 11; 10; 11; 10; 11; 10; 11; 10; 0]%nat);
  (159, [(-106697,38305); (-97422,-14375); (-95589,-24239); (-89404,-40523); (-81612,-58329); (-79045,-63176); (-66894,-81644); (-64462,-84270); (-55363,-93031); (-33068,-113160); (-24083,-119228); (13164,-141964); (35583,-153103); (38599,-154523); (50249,-157006); (51851,-157207); (58243,-154623); (70005,-145034); (73750,-140652); (76592,-136242); (89591,-114108); (96194,-97383); (105329,-54579)], [9; 10; 9; 10; 9; 10; 9; 10; 9; 0]%nat);
  (160, [(-157208,53505); (-146394,-10806); (-140491,-35093); (-131957,-61623); (-121015,-86497); (-117618,-92506); (-94920,-124613); (-81130,-139024); (-49286,-167747); (-37102,-175894); (23034,-214825); (53217,-229662); (57343,-231240); (74757,-233720); (76931,-232882); (85473,-228163); (102225,-214256); (106977,-207151); (130992,-169100); (140442,-145279); (141713,-141785); (154524,-77325); (157007,-56508)], [8; 9; 8; 9; 8; 9; 8; 9; 8; 44]%nat);
  (160, [(-116875,41925); (-106284,-17184); (-104127,-26683); (-97745,-44392); (-89404,-62875); (-86235,-68960); (-71828,-91186); (-60765,-101893); (-35117,-124294); (-26753,-130456); (6344,-152423); (28419,-163489); (38923,-168376); (42242,-169739); (44107,-170247); (56735,-171398); (63293,-168688); (76772,-159486); (80496,-154667); (98178,-125919); (104983,-108695); (115621,-58277)], [9; 9; 8; 9; 8; 9; 8; 9; 8; 43]%nat);
  (161, [(-171399,57928); (-157208,-25099); (-154624,-39175); (-144092,-70277); (-131957,-94612); (-128021,-102282); (-111662,-127619); (-104151,-137235); (-88254,-153643); (-54579,-183369); (-38400,-194181); (20356,-231783); (58329,-250718); (63176,-252855); (81644,-256255); (84270,-255330); (93031,-250273); (113160,-235877); (119228,-227009); (141965,-186619); (154368,-155296); (169740,-85255); (170248,-82033)], [9; 10; 9; 10; 9; 10; 9; 10; 9; 45]%nat);
  (161, [(-128162,46145); (-116441,-18711); (-114082,-28432); (-107128,-48661); (-97744,-68828); (-94162,-75022); (-79430,-97875); (-76946,-101395); (-65492,-113322); (-38663,-135193); (-28964,-142436); (18506,-173678); (43249,-185888); (46253,-186998); (62307,-188380); (69512,-185399); (83874,-175097); (87947,-169023); (107413,-138085); (115226,-118017); (126428,-63252)], [9; 10; 9; 10; 9; 10; 9; 10; 9; 0]%nat);
  (162, [(-188381,63766); (-185400,46375); (-168689,-42242); (-159487,-73801); (-145035,-103752); (-140653,-112337); (-136243,-119124); (-114108,-150656); (-97383,-168043); (-58277,-202104); (-46145,-210180); (18711,-251594); (28432,-256597); (62875,-273122); (68960,-275911); (91186,-280436); (101893,-274371); (124294,-256676); (130456,-249191); (152424,-215947); (163490,-188396); (169247,-172282); (186997,-94537)], [9; 10; 9; 10; 9; 10; 9; 10; 9; 0]%nat);
  (162, [(-140219,49032); (-127665,-20438); (-125137,-30463); (-117939,-54191); (-107128,-75443); (-103576,-81083); (-84550,-109855); (-71536,-123434); (-41653,-149270); (-31883,-156499); (-23188,-162213); (21121,-189811); (47306,-202917); (51141,-204733); (63810,-207377); (68618,-207078); (76822,-203487); (91685,-192106); (97091,-184036); (115892,-153482); (126201,-127597); (137956,-68996)], [8; 9; 8; 9; 8; 9; 8; 9; 7; 43]%nat);
  (162, [(-103689,39879); (-103540,34921); (-101744,24922); (-92700,-23162); (-87549,-40100); (-79744,-56837); (-77334,-61163); (-62960,-82439); (-54348,-91397); (-31626,-110616); (-24503,-115713); (10219,-137885); (15232,-140370); (36005,-150112); (48938,-152837); (50698,-152993); (56661,-150485); (67597,-140059); (71219,-135792); (86840,-111753); (93167,-95599); (102367,-51226)], [9; 10; 9; 10; 9; 10; 9; 10; 9; 0]%nat);
  (163, [(-152994,51597); (-140711,-19094); (-137186,-33300); (-128338,-60125); (-117939,-83676); (-113505,-90852); (-93310,-118638); (-86141,-126177); (-77648,-134957); (-47269,-163363); (-33009,-173522); (23162,-208563); (51876,-222850); (56169,-224907); (59562,-225587); (75328,-227101); (84022,-223416); (101052,-209856); (105090,-203781); (125797,-169985); (128299,-164016); (136562,-141967); (137956,-137974); (150113,-78102); (152838,-54961)], [9; 10; 9; 10; 9; 10; 9; 10; 9; 49]%nat);
  (163, [(-113551,38223); (-106897,174); (-101744,-25950); (-96053,-43659); (-87549,-61987); (-84512,-66819); (-69043,-90153); (-59009,-100474); (-34498,-120707); (-25799,-127196); (9547,-150259); (16650,-153837); (37722,-163711); (40542,-164389); (54928,-166942); (61717,-164112); (74635,-153606); (78250,-149258); (81107,-144848); (94906,-121238); (101459,-104882); (102367,-102409); (112454,-56285); (112794,-53232)], [9; 9; 8; 9; 8; 9; 8; 9; 8; 47]%nat);
  (164, [(-166943,57086); (-152994,-24900); (-150486,-38080); (-140060,-65165); (-128338,-92210); (-124596,-99308); (-107974,-125431); (-95020,-139148); (-61817,-171174); (-38223,-188880); (-174,-213621); (25950,-229439); (59794,-246210); (82439,-249579); (91397,-245792); (110616,-229177); (115713,-222576); (137886,-186390); (140371,-180092); (150113,-153159); (163712,-88267); (164390,-83305)], [8; 8; 8; 9; 8; 9; 8; 9; 8; 0]%nat);
  (164, [(-124790,42351); (-122896,31499); (-111816,-27843); (-104928,-48588); (-96053,-67672); (-92018,-74087); (-76741,-96707); (-63799,-110252); (-39051,-130588); (-28543,-138401); (12450,-165445); (19040,-169527); (41838,-180697); (45426,-181645); (59319,-182289); (63089,-180774); (67479,-178866); (81682,-169792); (86761,-163151); (104282,-133261); (112378,-112861); (123105,-63311)], [8; 9; 8; 9; 8; 9; 8; 9; 8; 0]%nat);
  (165, [(-182294,63489); (-166943,-26385); (-164113,-41378); (-152832,-74759); (-140060,-100180); (-135793,-108490); (-111753,-145742); (-95599,-162435); (-56285,-196766); (-42351,-207230); (19061,-247205); (61987,-268080); (66819,-269254); (90153,-273317); (100474,-268730); (120707,-250057); (127196,-242393); (150260,-206295); (153838,-197456); (163712,-170123); (180698,-97021); (181646,-90793)], [8; 9; 8; 9; 7; 9; 8; 9; 8; 0]%nat);
  (165, [(-136659,46506); (-123151,-29232); (-114589,-53322); (-104928,-74820); (-101891,-79618); (-84993,-104549); (-82008,-107797); (-69639,-120161); (-42901,-142684); (-31420,-150779); (13193,-180136); (20689,-184803); (46105,-197496); (49654,-199078); (62716,-202048); (69574,-199382); (85587,-190198); (94440,-179884); (106811,-160390); (114720,-146130); (123105,-124864); (134041,-72053); (134628,-67808)], [8; 9; 8; 9; 8; 9; 8; 9; 8; 0]%nat);
  (165, [(-101025,38308); (-99692,30117); (-89470,-22630); (-84802,-39579); (-76804,-55435); (-74630,-59593); (-72425,-63001); (-60619,-79752); (-51892,-88944); (-31656,-107278); (-23253,-113407); (14616,-137768); (33836,-146808); (37044,-147584); (48354,-149272); (55126,-146489); (65294,-136993); (69201,-132345); (82723,-111635); (84764,-108106); (90349,-93685); (99540,-49885)], [9; 10; 9; 10; 9; 10; 8; 10; 9; 0]%nat);
  (166, [(-149273,52564); (-136659,-21824); (-134366,-33292); (-125029,-58193); (-114589,-81969); (-111288,-87891); (-93195,-114588); (-90046,-117860); (-76580,-130969); (-48511,-156443); (-45297,-159028); (-30117,-169268); (22630,-201571); (49090,-214723); (54245,-217161); (72871,-221060); (81218,-217426); (98383,-203860); (103615,-197774); (123603,-166343); (134041,-139074); (146809,-79136); (147585,-73496)], [10; 10; 10; 10; 10; 11; 10; 11; 10; 0]%nat);
  (166, [(-110530,37659); (-101711,-11678); (-95099,-38038); (-85346,-59658); (-81576,-66367); (-66631,-87625); (-56431,-98271); (-36027,-116028); (-33904,-117676); (-25132,-123794); (10912,-147572); (16646,-151013); (37410,-161044); (39809,-161605); (52275,-163405); (53899,-162856); (60081,-159760); (71342,-149915); (75390,-144505); (90068,-121909); (92402,-117914); (98748,-102017); (99539,-99655); (108581,-54336)], [8; 9; 8; 9; 8; 9; 8; 9; 6; 47]%nat);
  (167, [(-163442,58384); (-149273,-22072); (-146490,-37008); (-136994,-62092); (-125029,-89450); (-121197,-96897); (-103148,-124474); (-98728,-129156); (-85062,-142447); (-49885,-174138); (-37659,-183402); (11678,-215101); (38038,-228237); (55435,-236761); (59593,-238650); (63001,-239352); (79752,-240867); (88944,-237201); (107278,-224230); (113407,-216617); (137769,-177421); (146809,-152541); (161045,-86224); (161606,-81987)], [9; 9; 9; 10; 9; 10; 9; 10; 9; 0]%nat);
  (167, [(-120434,40682); (-118601,29657); (-110531,-17606); (-108714,-26862); (-101323,-49259); (-95100,-61813); (-89943,-71955); (-80196,-86763); (-73066,-96454); (-62432,-107498); (-39568,-127026); (-36748,-129212); (-29192,-134251); (17521,-164511); (40985,-176067); (43946,-177208); (57294,-179137); (58930,-178442); (65485,-174808); (79034,-165273); (84635,-157069); (100786,-128549); (107362,-111953); (108581,-108627); (119326,-59732); (119677,-56675)], [11; 12; 11; 12; 11; 12; 11; 12; 11; 51]%nat);
  (168, [(-179143,64487); (-162857,-26370); (-159761,-40282); (-145644,-79635); (-132346,-105316); (-111635,-137538); (-108106,-142502); (-93685,-157277); (-54336,-189995); (-40682,-200187); (-35125,-203945); (24143,-242974); (59658,-260180); (66367,-262704); (87625,-264701); (98271,-260269); (116028,-246097); (117676,-244323); (123794,-235956); (147573,-199535); (151014,-193228); (161045,-166747); (177209,-89316)], [8; 9; 8; 9; 8; 9; 8; 10; 8; 0]%nat);
  (168, [(-132351,44726); (-130135,31864); (-118601,-29644); (-112115,-51221); (-101930,-72901); (-98887,-78894); (-83172,-102811); (-69537,-116657); (-43112,-139490); (-40994,-141110); (-32244,-146900); (15977,-177834); (44725,-192117); (48449,-193870); (62237,-196504); (64578,-195596); (71224,-191898); (87069,-180489); (91701,-175211); (107551,-149648); (114119,-133140); (118381,-122136); (119325,-119395); (131353,-64985)], [10; 10; 9; 10; 9; 10; 9; 10; 9; 0]%nat);
  (169, [(-196541,71687); (-178610,-27952); (-174809,-43566); (-165274,-75432); (-147175,-110519); (-121909,-149659); (-117914,-155326); (-101332,-172711); (-59732,-208787); (-44726,-219977); (-31864,-228407); (29644,-266847); (61813,-282921); (71955,-287820); (86763,-290538); (96454,-290814); (107498,-286112); (127026,-269676); (129212,-267315); (134252,-259761); (164512,-211725); (176648,-180646); (193871,-96972)], [8; 9; 8; 9; 8; 9; 7; 9; 8; 0]%nat);
  (169, [(-145408,48953); (-143057,35558); (-130155,-33144); (-122927,-54870); (-110281,-83385); (-88711,-115592); (-76271,-127742); (-44658,-154881); (-34812,-161379); (13976,-192587); (21783,-196593); (39818,-205371); (52658,-211334); (68769,-214789); (71251,-214983); (78639,-211644); (94998,-196833); (100512,-190329); (121487,-158088); (130090,-135478); (131353,-130661); (145160,-66116)], [7; 8; 7; 8; 7; 8; 7; 8; 7; 43]%nat);
  (169, [(-107497,36126); (-97799,-15679); (-95950,-23250); (-89914,-43033); (-82637,-58375); (-78492,-65072); (-64275,-84718); (-55130,-94251); (-32493,-115108); (-24477,-120932); (-17779,-125279); (16572,-146728); (39327,-158036); (51406,-160281); (58329,-157031); (69746,-147731); (70556,-146828); (73451,-142420); (88918,-117399); (96059,-99364); (96936,-96954); (105668,-53009); (107395,-38626)], [9; 9; 8; 9; 8; 9; 8; 9; 7; 44]%nat);
  (170, [(-160282,57469); (-143296,-35282); (-134519,-60527); (-122260,-86969); (-117978,-94300); (-99768,-122632); (-96614,-126861); (-83374,-140202); (-48486,-169629); (-36126,-178869); (15679,-211278); (23250,-215151); (55260,-230065); (74830,-234154); (77663,-234409); (86356,-230866); (104394,-216323); (109989,-209710); (114204,-203170); (133424,-170492); (141461,-150378); (143911,-143911); (158037,-79382)], [8; 9; 8; 9; 8; 9; 8; 9; 8; 0]%nat);
  (170, [(-117208,39484); (-107492,-17505); (-105822,-25728); (-95104,-54764); (-87606,-69800); (-74824,-88845); (-66570,-97477); (-60720,-103471); (-32418,-129214); (17641,-160938); (41693,-172820); (57796,-175406); (63871,-172078); (77441,-160819); (80690,-155847); (96294,-130465); (98297,-125662); (102686,-114211); (105667,-105843); (115033,-59773); (117077,-42247)], [8; 8; 8; 8; 8; 8; 8; 8; 7; 0]%nat);
  (171, [(-175407,59814); (-160282,-22672); (-157032,-38143); (-147558,-66140); (-133733,-95680); (-129881,-101782); (-105863,-138047); (-90323,-154068); (-53009,-184832); (-39484,-194933); (17505,-232490); (25728,-237373); (58375,-252837); (65072,-254593); (84718,-255628); (94251,-251637); (115108,-237649); (120932,-230353); (125279,-223477); (146729,-186949); (158037,-158401); (172821,-89434)], [8; 9; 8; 9; 8; 9; 8; 9; 8; 43]%nat);
  (171, [(-127814,43096); (-117205,-19061); (-115433,-28640); (-107495,-52300); (-98417,-70394); (-95165,-76721); (-79044,-101726); (-67739,-113156); (-39691,-138192); (-29907,-145501); (11336,-171619); (19072,-176104); (45192,-188284); (62808,-192063); (70101,-188526); (84815,-175708); (89435,-170278); (105639,-142780); (107576,-138114); (115033,-117289); (126419,-68044); (127297,-62225)], [8; 9; 8; 9; 8; 9; 8; 9; 8; 0]%nat);
  (172, [(-192064,66447); (-175407,-27889); (-172079,-41703); (-160820,-74473); (-146987,-104158); (-142421,-111297); (-117399,-148487); (-97655,-169058); (-59773,-200180); (-43096,-212533); (19061,-253472); (28640,-259507); (69800,-279913); (88845,-282917); (97477,-279357); (103471,-276648); (129214,-258658); (160939,-206126); (172821,-175845); (188285,-97900)], [8; 9; 8; 9; 8; 9; 8; 9; 8; 0]%nat);
  (172, [(-141459,52614); (-139363,40354); (-125840,-31269); (-118581,-56546); (-108162,-77354); (-104855,-83776); (-101585,-88808); (-85246,-112113); (-72860,-125108); (-41004,-153808); (13945,-189352); (20852,-192931); (47840,-205494); (50891,-206218); (69024,-209399); (77034,-205875); (92416,-191634); (97467,-185684); (116245,-156863); (118687,-152302); (126419,-131253); (139957,-70157)], [9; 9; 9; 9; 9; 9; 9; 9; 9; 0]%nat);
  (172, [(-104700,35676); (-96032,-14792); (-94263,-22970); (-87854,-40888); (-80410,-57339); (-77924,-61209); (-65233,-79986); (-62831,-82590); (-57106,-88410); (-41607,-103327); (-31113,-111741); (-26307,-115152); (-20177,-119186); (15635,-141475); (34434,-150853); (38361,-152706); (50863,-155339); (56578,-152607); (69096,-143336); (72751,-139033); (85810,-117379); (88052,-113006); (94142,-96021); (102747,-54907); (103109,-52218)], [10; 11; 11; 11; 10; 11; 10; 11; 9; 49]%nat);
  (173, [(-155340,53613); (-139679,-27638); (-138325,-34309); (-129329,-64550); (-118825,-85402); (-115177,-92138); (-111739,-97345); (-93475,-123361); (-79201,-138237); (-48950,-163811); (-34338,-174724); (14792,-206857); (22970,-211497); (52079,-225106); (55649,-225895); (74244,-228765); (84529,-224449); (100090,-209909); (106267,-202497); (126736,-171044); (129754,-165991); (139957,-140135); (152707,-75984)], [9; 10; 9; 10; 9; 10; 9; 10; 9; 45]%nat);
  (173, [(-114383,40139); (-104700,-16674); (-102938,-25565); (-95817,-44508); (-87854,-62852); (-85139,-68151); (-71390,-87792); (-69057,-90312); (-58645,-100372); (-35079,-122418); (-26807,-128534); (16574,-155192); (38677,-166178); (41888,-167688); (44404,-168192); (56057,-169331); (62554,-166692); (76904,-156361); (94676,-128069); (96466,-123847); (102747,-106281); (112553,-60474); (112948,-57299)], [10; 10; 9; 10; 9; 10; 9; 10; 9; 0]%nat);
  (174, [(-169332,57217); (-156640,-17965); (-152608,-36853); (-143150,-67122); (-129329,-96882); (-103063,-135174); (-87923,-150841); (-53456,-179237); (-40139,-188628); (16674,-226075); (25565,-231442); (57339,-246829); (61209,-247662); (79986,-250446); (82590,-249548); (88410,-246828); (103327,-238205); (111741,-229838); (115152,-225343); (119186,-219134); (141476,-180943); (150854,-157412); (152707,-152338); (167689,-83912); (168193,-79384)], [7; 8; 7; 8; 7; 8; 7; 8; 7; 49]%nat);
  (174, [(-125251,44898); (-114383,-17053); (-112225,-28417); (-104955,-47613); (-95817,-68462); (-92842,-74257); (-78432,-96637); (-76151,-99650); (-65627,-110013); (-37992,-133712); (-28367,-140905); (8983,-165623); (18427,-171035); (42701,-182877); (46069,-184281); (48673,-184748); (61681,-185996); (69119,-182879); (81906,-171809); (87362,-165382); (103429,-140351); (105749,-135653); (112553,-116751); (123415,-66076); (123831,-62622)], [9; 10; 9; 10; 9; 10; 9; 10; 9; 0]%nat);
  (175, [(-185997,62634); (-182880,44641); (-166693,-41762); (-156362,-75628); (-139780,-109657); (-117379,-142276); (-113006,-147853); (-96021,-164279); (-59200,-195966); (-44757,-205700); (17053,-245820); (28417,-252868); (62852,-269987); (68151,-272506); (87792,-274469); (90312,-273583); (100372,-267849); (122418,-253786); (128534,-246416); (155193,-199641); (166179,-171914); (167689,-167757); (184282,-92143); (184749,-87402)], [8; 9; 8; 9; 8; 9; 8; 9; 8; 47]%nat);
  (175, [(-137256,49052); (-124073,-24096); (-117855,-48719); (-101544,-80498); (-85522,-105356); (-82996,-109006); (-70068,-122441); (-41956,-146712); (-31317,-154681); (11535,-182686); (48441,-201991); (67587,-204444); (75421,-201055); (89619,-187884); (94314,-181611); (113038,-152883); (115721,-148017); (123415,-127783); (136254,-68102)], [7; 8; 7; 8; 7; 8; 7; 8; 7; 37]%nat);
  (175, [(-102222,34635); (-100528,25107); (-91488,-23265); (-85905,-38954); (-78181,-57359); (-64035,-78668); (-61924,-80985); (-53141,-89462); (-33038,-106896); (-31311,-108176); (-24526,-112730); (12048,-136122); (34231,-147164); (37129,-148535); (48319,-150910); (49825,-150889); (55007,-148137); (66856,-138277); (70453,-134046); (82812,-115235); (85518,-109850); (91879,-93313); (100996,-52555)], [9; 10; 9; 10; 9; 10; 9; 10; 9; 0]%nat);
  (176, [(-150911,54272); (-150890,51239); (-136792,-21916); (-133925,-33410); (-126416,-60707); (-113664,-85448); (-109567,-91795); (-90472,-118859); (-77464,-132479); (-46072,-161247); (-34635,-169810); (-25107,-175950); (23265,-206242); (54829,-222024); (71138,-224087); (73927,-223897); (82140,-219231); (97983,-206175); (102850,-199033); (122910,-167313); (126434,-161235); (134994,-139639); (136254,-136229); (148536,-74277)], [9; 10; 9; 10; 9; 10; 9; 10; 8; 0]%nat);
  (176, [(-112159,39199); (-102222,-16476); (-100528,-25157); (-90940,-50623); (-82691,-66690); (-70176,-85885); (-67827,-88793); (-58376,-97959); (-34051,-119229); (-25620,-125271); (10958,-147751); (21769,-153168); (40249,-161918); (52678,-164540); (54503,-164751); (61221,-161899); (73356,-151991); (77341,-147328); (91343,-125480); (100996,-103053); (111012,-56183)], [8; 9; 8; 9; 8; 9; 8; 9; 8; 0]%nat);
  (177, [(-164752,55745); (-150890,-24206); (-148138,-35946); (-138278,-64574); (-126893,-90695); (-123208,-97732); (-99821,-130238); (-93313,-137102); (-84960,-145719); (-49668,-178388); (23097,-225178); (57359,-242401); (78668,-246073); (80985,-245326); (89462,-240476); (106896,-226421); (108176,-224887); (112730,-218148); (136123,-180088); (147165,-152285); (148536,-148545); (161919,-81420); (164541,-59184)], [9; 9; 9; 9; 9; 9; 9; 9; 9; 45]%nat);
  (177, [(-123075,43967); (-111949,-17953); (-106911,-38206); (-93942,-66134); (-90806,-71613); (-76442,-93928); (-74009,-97219); (-63892,-107443); (-37139,-129967); (-27873,-136880); (12103,-162994); (18405,-166341); (42724,-177751); (45898,-178414); (59430,-179617); (66240,-176824); (80624,-167008); (84905,-161993); (87975,-157070); (103121,-131417); (111012,-111689); (121201,-63842)], [9; 9; 8; 9; 8; 9; 8; 9; 8; 0]%nat);
  (178, [(-179618,60757); (-164752,-26631); (-161900,-41493); (-150974,-73719); (-138278,-99143); (-134047,-107395); (-115235,-136816); (-109850,-143574); (-93313,-160430); (-56183,-193933); (-43967,-202184); (17953,-241852); (38206,-252029); (66690,-265418); (85885,-269181); (88793,-268845); (97959,-263692); (119229,-246946); (125271,-239147); (147752,-199711); (153169,-186215); (161919,-162380); (177752,-92303); (178415,-86618)], [9; 10; 9; 10; 9; 10; 9; 10; 9; 47]%nat);
  (178, [(-134737,47369); (-122664,-19654); (-120239,-29343); (-113208,-50302); (-103088,-72212); (-99517,-77971); (-83657,-101997); (-80618,-106280); (-69820,-117540); (-68115,-119226); (-40710,-141565); (-30379,-149241); (13316,-178069); (20747,-182648); (48497,-196486); (65119,-197501); (68552,-196141); (72860,-194251); (89195,-183460); (112590,-145788); (121201,-124443); (132710,-66020)], [11; 11; 10; 11; 10; 11; 10; 11; 10; 43]%nat);
  (179, [(-197502,67263); (-195511,55224); (-176825,-44068); (-166251,-80342); (-151992,-108715); (-147329,-117850); (-125480,-151317); (-103053,-176229); (-63842,-210482); (-47369,-222106); (19654,-264983); (29343,-269822); (69180,-288515); (93928,-293777); (97219,-293848); (107443,-288950); (129967,-269230); (136881,-261067); (162995,-220286); (166342,-212702); (177752,-181179); (196487,-99492)], [8; 9; 8; 9; 8; 9; 8; 9; 8; 0]%nat);
  (179, [(-146925,49705); (-134423,-21582); (-131847,-32036); (-123473,-57493); (-112676,-79694); (-109074,-85462); (-90044,-113612); (-74963,-129362); (-46152,-154677); (-33632,-163871); (-27612,-167900); (22034,-198860); (49572,-212636); (53698,-214594); (68408,-217848); (71787,-217531); (80215,-213636); (96967,-201634); (101092,-195606); (120926,-163437); (126015,-150816); (132710,-132374); (144258,-75078); (146889,-52961)], [9; 9; 8; 9; 8; 9; 8; 9; 8; 47]%nat);
  (179, [(-108924,40516); (-108760,36838); (-97242,-23889); (-91528,-44043); (-80997,-64656); (-78535,-68342); (-65709,-86694); (-55845,-97051); (-33010,-116205); (-23933,-122734); (10791,-145215); (16018,-147866); (36106,-157248); (38986,-157996); (50999,-160155); (53140,-160329); (58770,-157976); (59613,-157535); (70783,-146884); (74621,-142310); (89035,-120236); (91324,-116239); (98243,-98868); (107297,-53599)], [8; 9; 8; 9; 8; 9; 8; 9; 8; 0]%nat);
  (180, [(-160330,54049); (-146925,-23757); (-144476,-35206); (-134616,-62660); (-123473,-88361); (-119574,-95378); (-99856,-122789); (-91692,-131383); (-81190,-141622); (-49746,-171615); (-36838,-180683); (23889,-218374); (51099,-231968); (58925,-235717); (75659,-238969); (88115,-235226); (105241,-221704); (111053,-213949); (132492,-179084); (134912,-173024); (144258,-147207); (157249,-85036); (157997,-80024); (160156,-58157)], [9; 10; 9; 10; 9; 10; 9; 10; 9; 47]%nat);
  (180, [(-119485,43826); (-117613,29498); (-108766,-17404); (-106818,-26806); (-100817,-46559); (-91730,-66263); (-72894,-94367); (-62222,-105646); (-37539,-125489); (-27025,-133306); (15087,-160907); (39847,-172447); (42731,-173171); (56806,-175254); (64681,-171985); (77339,-162160); (81936,-156536); (83950,-153538); (99430,-127111); (106318,-109905); (107297,-107248); (117859,-58934)], [9; 9; 8; 9; 8; 9; 8; 9; 8; 43]%nat);
  (181, [(-175255,61642); (-160330,-26116); (-157693,-40049); (-146885,-68124); (-134616,-96314); (-130534,-104248); (-110143,-135460); (-106233,-139889); (-90590,-155105); (-53599,-187795); (-43737,-195212); (-29498,-205729); (23879,-238969); (44043,-249121); (64656,-258979); (68342,-259584); (86694,-261460); (97051,-257267); (116205,-240328); (122734,-231968); (145216,-196241); (147867,-189764); (157249,-163661); (172448,-92753); (173172,-87709)], [9; 10; 9; 10; 9; 10; 9; 10; 9; 0]%nat);
  (181, [(-130730,44036); (-128634,31583); (-117613,-29309); (-110852,-49815); (-100817,-71763); (-97803,-76642); (-81719,-100497); (-75408,-107163); (-66187,-116164); (-40731,-137488); (-30003,-145008); (13058,-173389); (20025,-177718); (46812,-191054); (61395,-191948); (65692,-190230); (70811,-187407); (85808,-178458); (90342,-172351); (109187,-139892); (115984,-122877); (117859,-117863); (129490,-64834); (129792,-61450)], [9; 10; 9; 10; 9; 10; 9; 10; 9; 47]%nat);
  (182, [(-191949,69158); (-190231,58846); (-175255,-25985); (-171986,-43370); (-161427,-75856); (-146885,-104845); (-142311,-113665); (-120236,-148012); (-116239,-153589); (-98868,-171770); (-58934,-206252); (-44036,-217425); (-31583,-225686); (29309,-264536); (66263,-282856); (94367,-287340); (105646,-282914); (125489,-263313); (133307,-254010); (160908,-211187); (172448,-178977); (191055,-97430)], [10; 11; 10; 11; 10; 11; 10; 11; 10; 0]%nat);
  (182, [(-143671,49303); (-141458,35811); (-128634,-32734); (-115109,-70084); (-106975,-84310); (-89542,-110107); (-86512,-113284); (-73604,-125858); (-46377,-149260); (-43855,-151245); (-29423,-160809); (20344,-193004); (48157,-206852); (52124,-208721); (67730,-211739); (69945,-211151); (77553,-206920); (93898,-194446); (97606,-190147); (102865,-183795); (119485,-155348); (124561,-142798); (129490,-129579); (141429,-75165)], [9; 9; 9; 10; 9; 10; 9; 10; 9; 0]%nat);
  (182, [(-105870,38140); (-105576,35631); (-95116,-18135); (-93704,-23959); (-89137,-41552); (-81081,-57069); (-78269,-62369); (-76770,-64758); (-63556,-83542); (-54246,-93324); (-32417,-113282); (-21900,-121054); (16367,-145002); (35882,-154640); (38321,-155286); (50249,-157093); (53582,-155781); (58082,-153311); (68745,-143848); (72505,-138760); (86695,-116985); (88860,-113264); (95528,-96479); (104361,-52237)], [10; 10; 10; 10; 10; 10; 10; 11; 10; 47]%nat);
  (183, [(-157109,56413); (-141641,-34454); (-131657,-59661); (-120164,-86164); (-115984,-93738); (-98121,-120686); (-94882,-124147); (-81831,-136792); (-48715,-166698); (-35631,-175522); (19189,-209012); (52423,-225520); (56833,-227561); (74006,-231246); (76795,-231432); (85885,-227696); (103126,-213624); (108713,-207106); (112843,-200848); (132269,-169094); (141429,-145880); (154641,-82876); (155287,-78644)], [8; 9; 8; 9; 8; 9; 8; 9; 8; 0]%nat);
  (183, [(-115717,38921); (-107502,-9270); (-103461,-25823); (-97224,-45287); (-89230,-63501); (-86176,-68799); (-69947,-91701); (-59880,-102261); (-36768,-123383); (17227,-158869); (35042,-167673); (42155,-170209); (55054,-172124); (56642,-171476); (62929,-167999); (74631,-158323); (75623,-157290); (80405,-150031); (96503,-124410); (103427,-106983); (104361,-104418); (113781,-56948); (115624,-41617)], [8; 8; 8; 8; 8; 8; 8; 8; 8; 44]%nat);
  (184, [(-172136,61869); (-155782,-29274); (-153312,-39509); (-139631,-77179); (-127005,-101556); (-105594,-134510); (-89489,-150076); (-52237,-182604); (-38921,-192514); (10539,-225111); (41552,-240603); (57069,-247766); (62369,-250092); (64758,-250678); (83542,-252426); (93324,-248479); (113282,-234758); (121054,-225382); (145003,-184770); (154641,-160197); (170210,-85899)], [7; 8; 7; 8; 7; 8; 7; 8; 7; 0]%nat);
  (184, [(-126222,42506); (-114160,-28043); (-106076,-51894); (-95632,-72774); (-91898,-79891); (-77674,-100067); (-71399,-106712); (-64790,-113293); (-40078,-135124); (-28575,-142771); (15192,-170775); (43082,-184788); (46869,-186288); (60343,-188636); (62074,-187993); (68396,-184426); (83349,-173739); (87761,-167273); (104506,-137571); (112760,-116717); (113781,-113838); (125046,-62677); (125339,-60581)], [8; 9; 8; 9; 8; 9; 8; 9; 8; 0]%nat);
  (185, [(-188671,67595); (-171539,-27289); (-168000,-41859); (-157962,-71157); (-143849,-101528); (-138761,-110320); (-116985,-144144); (-113264,-149405); (-96479,-166937); (-56948,-199089); (-42506,-209939); (28043,-256364); (63501,-273713); (68799,-275552); (91701,-277447); (102261,-273153); (123383,-258611); (158870,-203850); (167674,-181426); (170210,-171004); (186289,-92550)], [9; 10; 9; 10; 9; 10; 9; 10; 9; 41]%nat);
  (185, [(-138724,47023); (-136577,34316); (-124240,-31204); (-116833,-56457); (-103771,-82483); (-100424,-87737); (-84547,-111133); (-72940,-123194); (-42950,-148736); (-33798,-154874); (13645,-185184); (20930,-188930); (38590,-197516); (50778,-203173); (67255,-206477); (75038,-202047); (91302,-189191); (96257,-183307); (112556,-158295); (120302,-138901); (124879,-125937); (137758,-69399)], [9; 9; 8; 9; 8; 9; 8; 9; 8; 0]%nat);
  (185, [(-103239,35984); (-93997,-15076); (-92213,-22290); (-86870,-39914); (-78645,-55962); (-75016,-61651); (-62205,-80952); (-52685,-90897); (-31011,-109661); (-23512,-115213); (-17158,-119419); (15602,-139843); (36387,-150213); (39946,-151817); (50034,-152725); (53356,-151434); (56647,-149760); (67562,-141422); (71386,-135654); (85388,-112890); (92394,-95509); (93144,-92847); (101587,-50809)], [9; 9; 8; 9; 8; 9; 8; 9; 8; 45]%nat);
  (186, [(-152726,52657); (-151435,44722); (-136577,-33973); (-129306,-58730); (-117379,-83938); (-112691,-92882); (-92385,-121907); (-80099,-134617); (-46275,-163152); (-35984,-170495); (15076,-203071); (22290,-206717); (53018,-221047); (72072,-225094); (74703,-225319); (83469,-221683); (99545,-206266); (104970,-199961); (128182,-164231); (137046,-141294); (151818,-71925)], [8; 9; 8; 9; 8; 9; 8; 9; 8; 0]%nat);
  (186, [(-112660,37957); (-103933,-12850); (-101024,-24526); (-94596,-44004); (-86870,-61632); (-83637,-66852); (-68786,-87310); (-58519,-98050); (-34700,-120409); (-26329,-126398); (-22361,-129074); (16987,-153564); (28229,-159176); (41242,-165634); (43869,-166227); (55567,-167897); (61597,-165336); (74368,-154503); (77437,-149954); (92592,-125243); (94465,-120768); (98758,-109547); (101587,-101602); (110524,-57506); (112547,-40475)], [9; 9; 8; 9; 8; 10; 8; 9; 8; 49]%nat);
  (187, [(-167960,55946); (-151435,-30995); (-149761,-38414); (-141423,-64413); (-129306,-91057); (-101925,-133389); (-90713,-144996); (-50809,-177770); (-37957,-187364); (12850,-220717); (24526,-226575); (55962,-241234); (61651,-242509); (80952,-245839); (90897,-241716); (109661,-226514); (115213,-219844); (119419,-213445); (139844,-178561); (150214,-152546); (151818,-147834); (166001,-81434)], [7; 8; 7; 8; 7; 8; 7; 8; 7; 43]%nat);
  (187, [(-122920,41968); (-112660,-18373); (-110842,-28048); (-103133,-47979); (-94596,-67653); (-91654,-73344); (-79148,-92769); (-69897,-102513); (-41978,-129206); (-27973,-139988); (17019,-167876); (41969,-180333); (46441,-182353); (60954,-183816); (67309,-181062); (81576,-168640); (85248,-163856); (101536,-137228); (103359,-132748); (110524,-112768); (120617,-64655); (121255,-59604)], [8; 9; 8; 9; 8; 9; 8; 9; 8; 0]%nat);
  (188, [(-183819,61861); (-165696,-39499); (-154504,-71485); (-141423,-99769); (-135655,-108859); (-112890,-142554); (-95509,-160911); (-57506,-192296); (-41968,-203873); (18373,-243694); (28048,-249733); (61632,-266189); (66852,-267553); (87310,-268538); (98050,-264114); (120409,-250014); (126398,-242256); (129074,-238334); (153565,-196373); (159177,-182307); (165635,-165968); (182354,-89471)], [7; 8; 7; 8; 7; 8; 7; 8; 7; 0]%nat);
  (188, [(-134270,46958); (-122920,-19492); (-120858,-30468); (-112662,-54801); (-103133,-73762); (-99981,-79975); (-82116,-107654); (-70647,-119385); (-40717,-145643); (-30931,-152889); (19750,-185446); (45529,-197600); (66695,-201968); (72498,-199461); (88885,-184137); (93682,-178481); (110359,-152688); (113288,-145406); (120617,-124964); (133095,-71463); (133777,-66925)], [9; 9; 8; 9; 8; 9; 8; 9; 8; 0]%nat);
  (188, [(-101005,34111); (-90682,-21624); (-84320,-39416); (-77252,-55055); (-74977,-58693); (-62622,-76937); (-60384,-79369); (-54774,-85065); (-42864,-96523); (-26894,-108543); (9746,-132667); (15234,-136093); (36362,-146597); (46385,-148725); (51257,-146782); (64603,-138883); (69994,-132965); (83938,-108888); (90167,-93281); (91177,-90324); (98800,-53271)], [9; 9; 9; 9; 9; 9; 8; 9; 8; 0]%nat);
  (189, [(-148726,55955); (-146783,44268); (-132058,-32022); (-124841,-58518); (-113257,-81347); (-109922,-87733); (-106723,-92739); (-89281,-117524); (-76350,-131118); (-44736,-159987); (-34111,-167900); (21624,-202989); (49885,-216251); (54430,-217300); (71277,-219806); (80456,-216193); (96148,-201729); (101937,-194873); (121847,-164398); (124867,-159252); (133095,-138010); (146598,-73873)], [9; 10; 9; 10; 9; 10; 9; 10; 9; 0]%nat);
  (189, [(-109903,38626); (-100984,-16203); (-99731,-22633); (-92069,-42851); (-84320,-60496); (-81928,-64766); (-68614,-84383); (-66374,-86766); (-42778,-109589); (-33150,-117296); (-22134,-124649); (16011,-148070); (27401,-153763); (39884,-159941); (53827,-162857); (59693,-160186); (72822,-149950); (76445,-145598); (92723,-119335); (98800,-102671); (108126,-58241); (108650,-54220)], [9; 9; 9; 9; 9; 10; 9; 10; 9; 0]%nat);
  (190, [(-162858,55203); (-148340,-23083); (-137785,-64028); (-125007,-89158); (-121128,-96116); (-119167,-99283); (-98187,-129019); (-91154,-136389); (-82984,-144890); (-47103,-176378); (21010,-221345); (55055,-237087); (58693,-237994); (76937,-240650); (79369,-239822); (85065,-237146); (96523,-230513); (108543,-216603); (132668,-179509); (136094,-173672); (146598,-147172); (159942,-80173)], [9; 9; 9; 9; 9; 9; 9; 9; 9; 43]%nat);
  (190, [(-120352,43047); (-108158,-26246); (-100865,-45716); (-92069,-65868); (-89241,-71372); (-76344,-91273); (-72703,-95113); (-62482,-104997); (-36937,-128130); (-27602,-135257); (11542,-159882); (29259,-168730); (40674,-174268); (43867,-175722); (46370,-176278); (58762,-177425); (65559,-174689); (79994,-164727); (83950,-160037); (101495,-130618); (108126,-112304); (118544,-63489); (118997,-60304)], [9; 8; 8; 9; 8; 9; 8; 9; 8; 0]%nat);
  (191, [(-177433,59753); (-162858,-26226); (-160187,-39293); (-149058,-73405); (-132966,-106747); (-108888,-140655); (-92065,-158289); (-58241,-187132); (-54220,-190191); (-43047,-197658); (26246,-242563); (60496,-259385); (64766,-261006); (84383,-263804); (86766,-262898); (109589,-249940); (117296,-242245); (124649,-231242); (148359,-189577); (159942,-160144); (175723,-87988); (176279,-83538)], [8; 9; 8; 9; 8; 9; 8; 9; 8; 43]%nat);
  (191, [(-131920,47295); (-119241,-23140); (-113206,-47006); (-97437,-77578); (-82199,-101298); (-79626,-104961); (-69005,-115844); (-40087,-139899); (-29877,-147557); (17085,-178597); (44579,-191876); (48058,-193216); (49642,-193630); (64608,-194961); (72445,-191652); (88189,-179387); (110673,-144999); (118544,-122761); (130503,-65737)], [8; 8; 7; 8; 7; 8; 7; 8; 7; 0]%nat);
  (192, [(-194962,65745); (-191653,46762); (-174690,-43774); (-164130,-79657); (-146393,-115307); (-119335,-155613); (-88948,-185373); (-60304,-207843); (-47295,-216546); (23140,-261623); (65868,-282941); (71372,-285541); (91273,-289599); (95113,-288077); (104997,-282461); (128130,-266070); (135258,-258090); (159883,-216740); (168731,-194578); (174269,-180055); (175723,-175850); (193217,-97100); (193631,-94346)], [7; 8; 7; 8; 7; 8; 7; 8; 7; 0]%nat);
  (192, [(-144826,53299); (-131450,-21042); (-124970,-47104); (-121123,-56735); (-108302,-81468); (-89755,-110230); (-86836,-114385); (-73586,-128202); (-43994,-153727); (-32873,-162090); (12726,-191792); (53374,-213027); (70328,-214380); (79145,-210783); (93566,-198591); (95096,-196864); (98829,-191291); (110673,-172668); (121282,-155677); (130079,-133050); (142771,-71399)], [9; 9; 8; 9; 8; 9; 7; 9; 8; 0]%nat);
  (192, [(-107190,36862); (-105392,26247); (-95890,-24337); (-89694,-43342); (-82364,-59403); (-80019,-63946); (-65309,-85168); (-56152,-94088); (-32869,-114069); (-26650,-118177); (10521,-141972); (23552,-148523); (38789,-155621); (50649,-158173); (52481,-158347); (57922,-155889); (69950,-145012); (73779,-140545); (89299,-116863); (95938,-99328); (96608,-96854); (106514,-53140)], [9; 9; 8; 9; 8; 9; 8; 9; 8; 0]%nat);
  (193, [(-158357,53192); (-144039,-23094); (-141231,-34382); (-132307,-64034); (-121123,-87016); (-115621,-95744); (-94789,-124662); (-80072,-139925); (-48017,-169434); (-36862,-177519); (-26247,-184538); (24337,-216118); (57654,-232874); (77807,-236046); (92687,-227979); (103922,-216187); (108273,-209705); (130812,-173078); (141471,-146338); (142771,-142784); (155622,-78043); (158174,-56875)], [8; 9; 8; 9; 8; 9; 8; 9; 7; 42]%nat);
  (193, [(-118023,40216); (-105392,-26449); (-99296,-43918); (-89694,-65766); (-72500,-92548); (-61381,-103199); (-35700,-124922); (-26596,-131762); (11547,-155587); (19097,-159380); (40734,-169404); (55115,-172428); (57193,-172625); (64101,-169738); (76864,-159290); (81045,-154441); (95896,-131119); (106514,-106397); (116437,-58783)], [6; 6; 6; 7; 6; 7; 6; 7; 6; 37]%nat);
  (194, [(-172626,58239); (-158348,-25789); (-155890,-37900); (-140441,-79790); (-129045,-102997); (-108370,-132791); (-97289,-144409); (-89998,-151793); (-53140,-186459); (-40216,-195831); (26449,-237234); (63526,-255910); (85168,-258371); (94088,-253437); (114069,-236842); (118177,-230566); (141973,-191917); (148524,-175681); (155622,-155854); (169405,-87936); (172429,-62198)], [8; 9; 8; 9; 8; 9; 8; 9; 8; 0]%nat);
  (194, [(-129186,44018); (-118023,-18796); (-113237,-38846); (-98623,-70185); (-93270,-78696); (-77839,-101823); (-66525,-113448); (-39022,-136112); (-29120,-143507); (16845,-173851); (43508,-186386); (47872,-187430); (62331,-188286); (69963,-185016); (84717,-175093); (88760,-170002); (92269,-164651); (108059,-137752); (116437,-117002); (127955,-64429)], [8; 8; 7; 8; 7; 8; 7; 8; 7; 39]%nat);
  (195, [(-188287,63624); (-172626,-28074); (-169739,-43333); (-159291,-74083); (-154442,-84870); (-145013,-103647); (-140546,-112422); (-116863,-149383); (-99328,-167045); (-53454,-208273); (24641,-258611); (65766,-278038); (92548,-283823); (103199,-277562); (124922,-258784); (131763,-250836); (155588,-210287); (159381,-200877); (169405,-172639); (186387,-99370); (187431,-91686)], [9; 9; 9; 9; 9; 9; 9; 9; 9; 0]%nat);
  (195, [(-141912,49364); (-129186,-20575); (-126719,-30729); (-118421,-54859); (-108094,-76899); (-104853,-82060); (-86539,-109178); (-73169,-123179); (-71392,-124923); (-43968,-147422); (-31812,-156476); (14037,-186664); (21667,-191406); (51499,-206294); (66396,-207964); (72205,-205597); (75897,-203844); (93230,-192985); (97916,-187090); (118617,-151477); (127955,-128407); (139020,-73253)], [9; 10; 9; 10; 9; 10; 9; 10; 9; 0]%nat);
  (195, [(-103982,37586); (-101283,21638); (-92508,-23709); (-87547,-40944); (-83965,-48424); (-77221,-61740); (-65560,-79506); (-53199,-93215); (-29869,-113931); (10288,-139474); (15365,-142084); (35093,-151262); (39348,-152293); (46274,-153480); (50912,-154207); (56724,-151612); (68056,-141107); (71754,-136751); (86926,-113544); (93193,-96282); (103147,-51648)], [8; 8; 8; 8; 8; 8; 8; 8; 8; 0]%nat);
  (196, [(-154208,52383); (-141912,-21592); (-138782,-33809); (-129268,-60576); (-118421,-84464); (-115283,-89357); (-95959,-117984); (-87841,-126564); (-59349,-154087); (-45843,-164510); (-37586,-170379); (-21638,-180929); (23709,-208726); (49454,-221607); (56211,-224863); (74692,-228901); (83523,-224613); (104137,-209660); (129306,-169318); (139020,-142763); (151263,-81076); (152294,-73597); (153481,-60932)], [9; 10; 9; 10; 9; 10; 9; 10; 8; 45]%nat);
  (196, [(-114451,39759); (-102205,-23892); (-96493,-44984); (-93545,-51144); (-87547,-62831); (-85001,-67510); (-82326,-71688); (-68876,-90840); (-59266,-101152); (-31549,-125093); (10796,-152709); (16905,-155687); (38450,-165769); (41030,-166399); (54589,-168423); (62250,-165283); (73711,-154535); (78238,-149170); (93332,-125961); (95703,-121888); (103147,-103222); (112432,-56221)], [9; 9; 9; 9; 9; 9; 9; 9; 8; 43]%nat);
  (197, [(-168424,59245); (-154208,-24721); (-151613,-37642); (-135393,-80744); (-125418,-100409); (-105144,-129303); (-100439,-134272); (-54419,-178449); (-39759,-189144); (23892,-228303); (48424,-240567); (61740,-247053); (79506,-250380); (93215,-246221); (113931,-230635); (139475,-188636); (142085,-182397); (151263,-156708); (165770,-88869); (166400,-84339)], [7; 8; 7; 8; 7; 8; 7; 8; 7; 0]%nat);
  (197, [(-125190,45684); (-123111,29896); (-114451,-17467); (-112307,-27370); (-104830,-51722); (-96493,-69107); (-93545,-74530); (-75739,-99683); (-64204,-111905); (-40538,-130994); (-36799,-133895); (-28927,-139306); (12361,-166569); (18821,-170435); (42232,-181770); (44679,-182301); (58992,-184448); (63282,-182765); (77044,-174915); (82255,-169226); (85190,-165371); (90465,-157335); (104363,-132836); (110804,-116752); (112432,-112437); (123527,-61787)], [10; 11; 10; 11; 10; 11; 10; 11; 10; 0]%nat);
  (198, [(-184449,66464); (-182766,56201); (-168424,-24967); (-165284,-41859); (-154536,-70155); (-141108,-100836); (-136752,-109321); (-113544,-145467); (-96282,-162316); (-56221,-196754); (-45684,-204697); (-29896,-216327); (22506,-249566); (51144,-263807); (62831,-269342); (67510,-271268); (71688,-272185); (90840,-274013); (101152,-270261); (125093,-250738); (152710,-207472); (155688,-199721); (165770,-171754); (181771,-97306); (182302,-92943)], [9; 10; 9; 10; 9; 10; 9; 10; 9; 0]%nat);
  (198, [(-137007,46167); (-135131,33979); (-123111,-31660); (-115318,-56272); (-104830,-77930); (-84659,-108142); (-64455,-127975); (-42170,-145316); (-28101,-154666); (19864,-185681); (40372,-195952); (50205,-200726); (64652,-202122); (67136,-201144); (89225,-188256); (94572,-181618); (114152,-147336); (120284,-132002); (123527,-123550); (135635,-68124); (136093,-64405)], [7; 7; 7; 8; 7; 8; 7; 8; 7; 41]%nat);
  (198, [(-101072,36208); (-91383,-17591); (-86855,-35733); (-74647,-59497); (-62981,-77587); (-60944,-80468); (-51611,-90245); (-30894,-108081); (-23084,-113924); (-16990,-118142); (15830,-138942); (34554,-148324); (37265,-149444); (49842,-150502); (55953,-148134); (65497,-138785); (66948,-137221); (69654,-133408); (83285,-112567); (85218,-109006); (90886,-94096); (100364,-50158)], [8; 8; 7; 8; 7; 8; 7; 8; 7; 43]%nat);
  (199, [(-150503,50818); (-148135,36228); (-135131,-33587); (-125369,-62409); (-115318,-85102); (-94318,-115896); (-91199,-119286); (-78354,-131675); (-48653,-157445); (-46472,-159067); (-36208,-165937); (17591,-200358); (48147,-215661); (54661,-218744); (72734,-222645); (81158,-218020); (98377,-203787); (102349,-199208); (108164,-192142); (124783,-164669); (131904,-146712); (135274,-137537); (149445,-74914)], [9; 10; 9; 10; 9; 10; 9; 10; 9; 0]%nat);
  (199, [(-111323,38589); (-100572,-16850); (-93822,-43365); (-83500,-63247); (-78668,-70798); (-66418,-87759); (-58435,-96152); (-56219,-98378); (-34062,-118604); (-25409,-125094); (-18114,-130021); (16794,-151925); (38965,-163278); (54071,-165766); (63988,-160437); (72658,-151158); (77333,-144101); (92841,-119397); (97976,-106592); (100363,-100340); (109372,-54711)], [8; 9; 8; 9; 8; 9; 8; 9; 8; 41]%nat);
  (200, [(-165767,57624); (-148135,-37839); (-138786,-61602); (-125369,-93751); (-103406,-127281); (-85877,-144301); (-50158,-175650); (-38589,-184058); (16850,-217995); (40893,-229856); (59497,-238540); (77587,-242343); (80468,-242591); (90245,-238590); (108081,-223910); (113924,-217055); (118142,-211194); (138943,-176754); (148325,-153379); (149445,-149637); (163279,-85348)], [6; 7; 6; 7; 6; 7; 6; 7; 6; 0]%nat);
  (200, [(-121303,40666); (-111323,-17073); (-109010,-26653); (-101894,-47430); (-94128,-65693); (-90809,-71870); (-73668,-95735); (-66511,-103266); (-61775,-108084); (-37457,-130717); (-28812,-136956); (18920,-167055); (42551,-179145); (57948,-181241); (59643,-180664); (65838,-177111); (78723,-166737); (79534,-165773); (82969,-160661); (100179,-132678); (107831,-113599); (109372,-109397); (119270,-59773); (121172,-43585)], [9; 10; 9; 10; 9; 10; 9; 10; 9; 47]%nat);
  (201, [(-181273,64916); (-165767,-25259); (-159445,-51950); (-137356,-99366); (-133409,-105956); (-112567,-138429); (-109006,-143185); (-94096,-158249); (-54711,-191389); (-40110,-202359); (17073,-239720); (26653,-244674); (43365,-252692); (63247,-261871); (70798,-263534); (87759,-264476); (96152,-261099); (98378,-260006); (118604,-246031); (125094,-238460); (130021,-231260); (151926,-194300); (163279,-166988); (179146,-94043)], [8; 9; 8; 9; 8; 9; 8; 9; 8; 0]%nat);
  (201, [(-132243,44317); (-121296,-19820); (-119295,-30598); (-111190,-54346); (-99865,-76955); (-96071,-84147); (-82335,-104200); (-73356,-113565); (-68769,-118082); (-41240,-143254); (15547,-180300); (46876,-195683); (63641,-198868); (72151,-194103); (87825,-181896); (92029,-176633); (108998,-146647); (114928,-131500); (119270,-119408); (130936,-67689); (131768,-60969)], [9; 9; 9; 9; 9; 9; 9; 9; 9; 41]%nat);
  (202, [(-198869,71586); (-180665,-28954); (-177112,-43121); (-166228,-75599); (-151159,-107527); (-144102,-118641); (-119397,-155833); (-106592,-169305); (-100340,-175642); (-59773,-208654); (-44317,-220170); (19820,-262413); (30598,-269189); (65693,-286797); (71870,-289424); (95735,-290940); (103266,-287922); (108084,-285677); (130717,-270991); (136957,-263059); (167056,-212743); (179146,-183616); (195684,-101931)], [9; 10; 9; 10; 9; 10; 9; 10; 9; 0]%nat);
  (202, [(-145471,49735); (-143962,40695); (-130550,-30877); (-130003,-33377); (-122454,-59004); (-111955,-80093); (-108528,-86792); (-105597,-91743); (-88377,-116849); (-76690,-129153); (-47022,-155636); (-35793,-163077); (14477,-195143); (21561,-198673); (50799,-212405); (69215,-216390); (71593,-216396); (79125,-212784); (95695,-198254); (101180,-191880); (119860,-162718); (122337,-156853); (126346,-146155); (130936,-133157); (144713,-72842)], [10; 11; 10; 11; 10; 11; 10; 11; 10; 0]%nat);
  (202, [(-108198,36605); (-99434,-13924); (-97052,-23625); (-90761,-42927); (-82988,-58651); (-80331,-62887); (-66339,-83595); (-55529,-94969); (-33845,-114014); (-30485,-116526); (-24868,-120604); (-20348,-123615); (15439,-145989); (17230,-146997); (38478,-157582); (42074,-159182); (52100,-160486); (56783,-158530); (59041,-157331); (71627,-148681); (90150,-119678); (97842,-99887); (106203,-55404); (108195,-38980)], [10; 10; 9; 10; 9; 10; 9; 10; 8; 47]%nat);
  (203, [(-160487,56286); (-158531,44964); (-143139,-35590); (-135216,-63971); (-119230,-95287); (-115630,-101114); (-97150,-127639); (-83494,-142406); (-50966,-170202); (-35793,-180973); (13924,-212793); (23625,-217730); (53764,-231805); (59321,-233084); (77917,-236273); (84653,-233572); (87821,-232072); (104327,-216264); (110085,-209445); (131207,-176990); (134595,-171294); (144314,-147130); (159183,-75034)], [8; 8; 8; 9; 8; 9; 8; 9; 8; 0]%nat);
  (203, [(-118137,40220); (-116786,32133); (-108198,-17494); (-106392,-25929); (-99127,-46132); (-90948,-65088); (-88317,-69950); (-73324,-90667); (-65954,-98294); (-59704,-104344); (-36421,-126503); (-28143,-132345); (-22482,-136050); (17795,-160935); (40047,-172025); (43396,-173623); (45872,-174405); (58425,-176014); (64577,-173555); (77818,-163750); (81539,-158101); (97572,-131881); (99337,-127444); (106203,-108505); (115903,-62139); (116542,-57221)], [10; 11; 10; 11; 10; 11; 10; 11; 10; 0]%nat);
  (204, [(-176015,59164); (-165152,-6050); (-157332,-39417); (-148682,-68914); (-135496,-96843); (-131530,-104075); (-106372,-140464); (-91808,-156195); (-55404,-184705); (-39185,-196829); (22248,-237000); (58651,-253953); (62887,-254993); (83595,-258071); (94969,-253512); (114433,-238386); (120604,-230643); (123615,-226119); (146559,-187138); (157583,-159418); (159183,-154626); (174355,-83397)], [8; 9; 8; 9; 8; 9; 8; 9; 8; 43]%nat);
  (204, [(-129051,45263); (-118137,-18849); (-116787,-26260); (-116037,-29803); (-103430,-62434); (-95941,-77196); (-81360,-99521); (-76757,-104560); (-45843,-134121); (-29582,-146434); (3025,-168178); (19709,-177042); (31986,-183196); (47644,-190697); (50557,-191467); (63820,-192881); (71204,-190300); (85102,-178619); (90487,-171524); (106397,-145672); (108866,-139674); (115903,-120091); (126977,-68326); (127497,-64610)], [8; 9; 8; 9; 8; 9; 8; 9; 8; 0]%nat);
  (205, [(-192882,65241); (-190301,47892); (-173556,-42377); (-163751,-73761); (-148682,-106084); (-119678,-150381); (-99887,-170713); (-59045,-203199); (-45263,-212840); (18849,-255124); (28258,-261105); (69054,-281513); (90667,-282650); (98294,-279350); (104344,-275925); (126503,-262598); (132346,-254804); (136051,-249040); (160936,-205813); (172026,-177944); (173624,-173643); (191352,-92412)], [7; 8; 7; 8; 7; 8; 7; 8; 7; 0]%nat);
  (205, [(-141326,50658); (-129036,-19077); (-126756,-31591); (-118842,-55918); (-108132,-77294); (-104723,-83905); (-88495,-109084); (-85647,-113184); (-73565,-125923); (-41699,-153506); (-27088,-164379); (21189,-194745); (48422,-208129); (52038,-209587); (70232,-211721); (78098,-208955); (92353,-193933); (98415,-186807); (118500,-155503); (126977,-131814); (140757,-71703)], [9; 9; 9; 9; 9; 9; 9; 9; 9; 0]%nat);
  (205, [(-105861,35629); (-104478,26380); (-95151,-23629); (-89310,-40448); (-81876,-57350); (-79051,-61777); (-65941,-81087); (-63722,-83407); (-54253,-92641); (-34163,-109896); (-32305,-111345); (-25329,-115998); (15292,-142301); (31217,-150257); (38598,-153839); (49761,-156002); (52280,-155178); (67061,-146435); (73218,-139409); (84090,-123109); (88522,-113073); (91599,-105412); (95349,-95379); (104794,-52756)], [10; 11; 10; 11; 10; 11; 10; 11; 10; 47]%nat);
  (206, [(-156003,56480); (-155179,50618); (-139676,-28457); (-137963,-35363); (-131193,-61263); (-119193,-84635); (-115322,-91774); (-113060,-95350); (-93569,-123167); (-79619,-137750); (-46206,-168250); (-35629,-176094); (-26380,-182577); (23629,-213932); (53042,-228246); (75191,-232465); (85357,-227923); (101600,-211445); (106420,-204894); (127562,-172495); (130553,-167571); (140757,-142081); (153840,-76643)], [10; 11; 10; 11; 10; 11; 10; 11; 10; 0]%nat);
  (206, [(-116233,41042); (-104478,-25859); (-89310,-62775); (-85762,-69047); (-72836,-88188); (-69837,-91407); (-60046,-100892); (-35852,-122832); (-25309,-129870); (14583,-154121); (38647,-166103); (41953,-167652); (54542,-170309); (56592,-170536); (62962,-168008); (76753,-156829); (82190,-150373); (97373,-124870); (104065,-107675); (104794,-105153); (114123,-61081)], [7; 7; 7; 8; 7; 8; 7; 8; 7; 0]%nat);
  (207, [(-170537,57352); (-168009,42084); (-155179,-26971); (-145796,-63386); (-131300,-93679); (-127402,-100496); (-124520,-104921); (-102907,-135210); (-87714,-151100); (-50473,-185308); (25859,-234816); (57350,-249778); (61777,-250768); (81087,-253513); (83407,-252555); (92641,-247468); (109896,-233171); (111345,-231628); (115998,-224656); (142302,-182868); (150258,-162952); (153840,-153563); (167653,-83746); (170310,-61225)], [9; 9; 9; 9; 9; 9; 9; 9; 9; 46]%nat);
  (207, [(-126757,45670); (-116233,-17075); (-113962,-28376); (-101731,-58816); (-93404,-75064); (-77752,-99063); (-65907,-110501); (-38322,-134680); (-26018,-143840); (13486,-168665); (30632,-177141); (42318,-182670); (45887,-184153); (47675,-184573); (61584,-185945); (68875,-182932); (84125,-172394); (88047,-167700); (91289,-163313); (106966,-136821); (114123,-118143); (124889,-67539); (125384,-63607)], [7; 7; 7; 7; 7; 8; 7; 8; 7; 0]%nat);
  (208, [(-185946,62777); (-168308,-41030); (-156288,-76698); (-146436,-97514); (-139410,-111584); (-123109,-137403); (-113073,-148776); (-105412,-156846); (-95379,-166854); (-56029,-202250); (25088,-254725); (66945,-274781); (88188,-277955); (91407,-276786); (100892,-271431); (122832,-255953); (129870,-245424); (154122,-202016); (166104,-171861); (167653,-167573); (184154,-92379); (184574,-89223)], [9; 9; 9; 9; 9; 9; 9; 9; 9; 0]%nat);
  (208, [(-139009,50407); (-126350,-19969); (-123734,-30774); (-116358,-52268); (-105723,-75170); (-102447,-80809); (-86248,-106001); (-83786,-109607); (-71041,-122997); (-41873,-146717); (-31389,-154558); (20515,-188824); (46840,-201560); (50248,-202775); (52461,-203212); (67605,-204315); (75550,-201040); (92654,-189455); (117408,-150254); (124889,-129984); (137391,-70446)], [10; 10; 9; 10; 9; 10; 9; 10; 9; 0]%nat);
  (208, [(-102158,34553); (-100520,24970); (-91466,-23142); (-85953,-41857); (-78415,-57150); (-75187,-63394); (-62435,-81765); (-53838,-90606); (-33770,-108005); (-31804,-109483); (-23974,-114611); (9985,-136335); (16904,-139904); (37532,-149703); (49532,-152050); (55251,-148783); (67340,-139333); (71920,-133899); (84333,-113013); (88571,-102224); (91335,-94685); (92077,-92228); (101361,-51387); (101606,-49145)], [9; 10; 9; 10; 9; 10; 9; 10; 9; 0]%nat);
  (209, [(-152051,52986); (-138394,-22211); (-135716,-33034); (-127977,-58844); (-115814,-82392); (-112328,-87916); (-91434,-119444); (-81476,-129889); (-76782,-134645); (-45909,-161302); (-34553,-169764); (10485,-199405); (48757,-219572); (55792,-223099); (68702,-226162); (74388,-224656); (78423,-223047); (83427,-220520); (101125,-207717); (127363,-165956); (137391,-139141); (149704,-74639)], [9; 10; 9; 10; 9; 10; 9; 10; 9; 43]%nat);
  (209, [(-113081,44379); (-112328,37940); (-111524,33101); (-100520,-25290); (-94728,-45290); (-86197,-62576); (-83850,-67085); (-81657,-70875); (-68411,-89864); (-59072,-99356); (-35223,-119780); (-25369,-126303); (11106,-149500); (16517,-152234); (38961,-162745); (53001,-165749); (54804,-165992); (61499,-163289); (73359,-151911); (77279,-147308); (94412,-121103); (100916,-103973); (111550,-55758)], [10; 11; 10; 11; 10; 11; 10; 11; 10; 0]%nat);
  (210, [(-165993,56384); (-153886,-15695); (-148784,-36111); (-139334,-65014); (-127977,-90838); (-122712,-99192); (-101008,-128870); (-85210,-145375); (-51387,-177029); (-37940,-186717); (-33101,-189948); (25290,-226331); (57150,-242556); (63394,-245466); (81765,-247518); (90606,-243586); (108005,-229548); (109483,-227833); (114611,-219865); (136336,-184533); (139905,-176049); (149704,-149491); (162746,-84823); (165750,-59747)], [8; 9; 8; 9; 8; 10; 8; 9; 8; 47]%nat);
  (210, [(-123782,41614); (-111524,-22661); (-110260,-28297); (-103859,-49196); (-94728,-68972); (-75127,-98627); (-64992,-108641); (-37320,-131045); (-28192,-137802); (7848,-161734); (18056,-166840); (41196,-177609); (43958,-178266); (59722,-181018); (64945,-178893); (67323,-177766); (80651,-166886); (84882,-161877); (99703,-139069); (109786,-115922); (111550,-111533); (122733,-59339)], [7; 8; 7; 8; 7; 8; 7; 8; 7; 43]%nat);
  (211, [(-181026,61500); (-165993,-26612); (-163290,-41354); (-151912,-70763); (-139334,-99847); (-133900,-110366); (-113013,-140413); (-103628,-150206); (-94685,-158999); (-55758,-195222); (-42604,-205338); (24851,-247065); (62576,-266259); (69631,-269497); (89864,-271619); (99356,-267179); (119780,-250117); (126303,-240193); (149501,-202039); (152235,-195318); (162746,-166196); (177610,-95217); (178267,-90350)], [10; 9; 9; 10; 9; 10; 9; 10; 9; 0]%nat);
  (211, [(-135810,45946); (-122162,-28611); (-114774,-50618); (-103859,-75161); (-82978,-106619); (-64761,-124799); (-30750,-150277); (13306,-179300); (20677,-183968); (45419,-196106); (49596,-197107); (64435,-197661); (72688,-194242); (88515,-184159); (93359,-177978); (94974,-175563); (113166,-144459); (121278,-124767); (122733,-120706); (134749,-65118)], [5; 6; 5; 6; 5; 6; 5; 6; 5; 0]%nat);
  (211, [(-98831,34396); (-90510,-14468); (-89447,-20222); (-88884,-22882); (-82941,-40413); (-75956,-54371); (-73655,-58866); (-60552,-79275); (-51987,-87920); (-29670,-107899); (-22973,-112838); (14306,-136469); (34486,-146458); (49314,-149098); (54321,-146474); (65523,-135605); (68902,-131545); (80868,-113453); (83421,-107075); (88805,-92011); (98054,-52634); (98554,-48958)], [9; 10; 9; 9; 8; 10; 9; 10; 9; 0]%nat);
  (212, [(-149099,50470); (-134176,-30865); (-125059,-57251); (-114159,-80632); (-109933,-87128); (-92267,-113270); (-88025,-117899); (-74746,-131018); (-46424,-154801); (-34396,-163267); (14468,-195489); (21770,-200093); (49924,-214220); (55183,-216675); (70207,-218324); (75103,-216283); (79500,-213935); (97611,-202175); (102669,-196608); (123533,-160448); (133130,-137119); (134749,-132492); (146459,-77486)], [8; 9; 8; 9; 8; 9; 8; 9; 8; 0]%nat);
  (212, [(-109163,38955); (-108142,33039); (-97122,-24128); (-92080,-42476); (-87661,-51611); (-80939,-64648); (-69535,-82320); (-57961,-95296); (-55767,-97609); (-32559,-118470); (-25235,-123865); (15433,-149610); (37581,-160231); (53310,-162943); (62400,-158361); (75139,-143459); (91711,-118006); (98054,-101661); (108338,-53155)], [9; 10; 9; 10; 9; 10; 8; 10; 9; 0]%nat);
  (213, [(-162944,56323); (-149099,-24079); (-145540,-39438); (-125059,-88516); (-120097,-96279); (-101020,-124247); (-97659,-127821); (-83098,-141972); (-52634,-169792); (-48958,-172630); (-38955,-179372); (-33039,-183246); (24128,-218373); (54334,-233452); (58866,-235610); (79275,-240017); (87920,-235855); (107899,-221189); (112838,-215204); (136470,-176092); (146459,-150716); (160232,-85069)], [9; 10; 9; 11; 9; 11; 9; 11; 9; 0]%nat);
  (213, [(-120009,40734); (-108142,-21032); (-106968,-26016); (-100428,-49431); (-92080,-65495); (-88989,-71112); (-87782,-73029); (-72230,-95109); (-66246,-101626); (-61481,-106630); (-35639,-129881); (15159,-163184); (40316,-174634); (43564,-175280); (56635,-177220); (58950,-176450); (65509,-173010); (77401,-162525); (81634,-156847); (97745,-132149); (100047,-128300); (107110,-110741); (108338,-107324); (117805,-58939)], [10; 10; 10; 10; 10; 10; 10; 10; 9; 47]%nat);
  (214, [(-177254,63530); (-162944,-25149); (-158362,-45620); (-135606,-97145); (-131546,-104918); (-113453,-133373); (-107075,-140074); (-92011,-154608); (-53155,-190099); (-40734,-199285); (22290,-238091); (51611,-252739); (64648,-258851); (82320,-262551); (95296,-258867); (97609,-257948); (118470,-242824); (123865,-236268); (149611,-193550); (160232,-165185); (174635,-94002); (175281,-88152)], [8; 9; 8; 9; 8; 9; 8; 9; 8; 0]%nat);
  (214, [(-131276,48956); (-129360,33542); (-120009,-19271); (-117928,-28956); (-110338,-53431); (-98304,-78093); (-80224,-103477); (-75358,-108780); (-68560,-115991); (-46767,-136690); (12575,-175519); (22810,-181173); (44258,-191447); (48140,-192307); (62124,-194206); (63911,-193525); (70986,-189578); (84896,-179979); (86315,-178431); (91038,-171501); (109187,-139652); (116726,-120755); (117805,-117842); (129426,-64778)], [9; 9; 9; 9; 9; 9; 9; 9; 9; 0]%nat);
  (215, [(-194230,69638); (-176451,-29675); (-173011,-44513); (-158362,-85210); (-143460,-114414); (-118006,-153921); (-101661,-170693); (-58939,-206141); (-33542,-225179); (24014,-262353); (49431,-275004); (65495,-282404); (71112,-284647); (73029,-285109); (95109,-287125); (101626,-284932); (106630,-282908); (129881,-266101); (163185,-214459); (174635,-181320); (191988,-100410)], [7; 7; 7; 7; 7; 7; 7; 7; 7; 0]%nat);
  (215, [(-143563,48454); (-142129,38495); (-128974,-33122); (-121151,-58615); (-108357,-84837); (-88046,-114459); (-75358,-127620); (-47001,-151135); (-44076,-153244); (-34819,-159412); (16677,-192470); (48573,-208466); (52459,-210235); (66687,-213484); (70037,-212131); (77304,-207968); (95050,-195730); (99643,-190198); (119046,-156279); (126370,-137944); (129426,-129491); (142516,-70345)], [8; 9; 8; 9; 8; 9; 8; 9; 8; 43]%nat);
  (215, [(-106764,39894); (-96763,-15530); (-94790,-23592); (-89779,-40619); (-79867,-59785); (-66075,-81227); (-64150,-84010); (-54418,-94273); (-32389,-113232); (-24227,-119337); (-19248,-122882); (16561,-145536); (39047,-156875); (52028,-157855); (57996,-155554); (68346,-149286); (87760,-119065); (90587,-113071); (95724,-99328); (105118,-52659)], [8; 8; 8; 9; 8; 9; 8; 9; 8; 0]%nat);
  (216, [(-157856,53799); (-155555,39562); (-141455,-35903); (-133051,-63356); (-121412,-88117); (-118134,-94332); (-96775,-125418); (-82593,-139584); (-50205,-166886); (-39894,-173635); (15530,-209057); (23592,-213173); (57207,-229271); (76961,-233448); (85347,-229682); (103071,-213546); (112590,-202427); (131177,-172751); (137503,-156823); (141835,-144512); (156876,-78781)], [8; 9; 8; 9; 8; 9; 8; 9; 8; 0]%nat);
  (216, [(-116746,39584); (-106066,-17004); (-103985,-25312); (-97594,-47041); (-89216,-64012); (-85751,-69601); (-69827,-91731); (-59573,-102476); (-35173,-124931); (-26900,-130957); (-19781,-135775); (17952,-159408); (42419,-171986); (57230,-173892); (63810,-171074); (75568,-160353); (76623,-159010); (79707,-154379); (96236,-127676); (104234,-107777); (105118,-105218); (114636,-57429)], [9; 9; 8; 9; 8; 9; 8; 9; 8; 43]%nat);
  (217, [(-173893,59432); (-171075,43454); (-155555,-38215); (-149287,-62049); (-133051,-96619); (-107230,-136378); (-74372,-167298); (-39584,-193909); (17004,-229137); (27605,-234427); (59785,-249412); (81227,-253991); (84010,-254316); (94273,-250246); (113232,-234627); (119337,-227460); (122882,-222820); (145537,-185183); (156876,-157219); (171987,-87148)], [6; 6; 6; 7; 6; 7; 6; 7; 6; 0]%nat);
  (217, [(-127158,43148); (-125123,30850); (-116724,-18599); (-114841,-27927); (-106773,-49685); (-97865,-70584); (-95099,-75869); (-78140,-99512); (-69452,-108661); (-64746,-113240); (-39391,-137181); (-29716,-144178); (-21727,-149349); (19108,-174663); (46612,-188814); (62709,-190839); (69792,-187282); (83443,-175370); (86818,-170121); (104529,-141263); (106587,-136288); (114636,-114747); (124706,-64921); (126996,-45769)], [10; 11; 10; 11; 10; 11; 10; 11; 10; 0]%nat);
  (218, [(-190840,65421); (-173893,-27514); (-171075,-42083); (-150493,-97520); (-119065,-145754); (-113071,-152907); (-99328,-166617); (-57429,-200558); (-40966,-212790); (24882,-256189); (64012,-274451); (69601,-275905); (91731,-277252); (102476,-272861); (124931,-257743); (130957,-250236); (135776,-243225); (159409,-203209); (171987,-173142); (188815,-95590)], [7; 8; 7; 7; 7; 8; 7; 8; 7; 0]%nat);
  (218, [(-138629,46842); (-127159,-20431); (-125124,-31712); (-116615,-56624); (-111411,-67178); (-106774,-76378); (-101214,-87287); (-86376,-109584); (-78412,-117901); (-43256,-151431); (19921,-191567); (48310,-205517); (68190,-209515); (83650,-199847); (96955,-185017); (114569,-154850); (117214,-148216); (124707,-127275); (137227,-73214); (137954,-68352)], [9; 9; 9; 9; 9; 9; 9; 9; 8; 39]%nat);
  (218, [(-104758,36568); (-93010,-28309); (-79879,-56156); (-77190,-60410); (-63838,-80277); (-53226,-91461); (-32461,-108476); (-23421,-115208); (10216,-137375); (15856,-140981); (37622,-151981); (49756,-152775); (54331,-150948); (56620,-149677); (68591,-142277); (72089,-137850); (74675,-133739); (87332,-111890); (94407,-94999); (102759,-54449)], [6; 7; 6; 7; 6; 7; 6; 7; 6; 0]%nat);
  (219, [(-152776,53263); (-150949,42286); (-136431,-34261); (-128872,-60495); (-125118,-68398); (-114299,-89894); (-111410,-95030); (-92592,-122390); (-78610,-137224); (-44462,-167913); (28309,-214330); (48760,-223634); (74554,-228711); (83309,-224292); (100279,-207848); (106395,-200559); (128095,-167260); (137226,-141827); (151982,-76737)], [9; 9; 9; 9; 9; 9; 9; 9; 9; 0]%nat);
  (219, [(-114356,39802); (-104758,-15811); (-99664,-34649); (-87685,-61522); (-85061,-65553); (-70632,-86871); (-68144,-89551); (-57374,-100293); (-36607,-118924); (-34176,-120866); (-26632,-126145); (-21143,-129806); (17131,-153562); (36245,-163124); (43644,-166680); (54792,-168565); (58951,-166838); (75716,-156830); (95784,-123755); (102759,-105828); (111817,-63057)], [10; 10; 9; 10; 9; 10; 9; 10; 8; 41]%nat);
  (220, [(-168566,58981); (-166839,48936); (-150949,-33188); (-149678,-38402); (-142278,-66044); (-137851,-75253); (-128872,-92713); (-125118,-99678); (-121613,-105373); (-101605,-134008); (-87812,-149265); (-48521,-183452); (15811,-225328); (56156,-243993); (60410,-244996); (80277,-248092); (91461,-243644); (108476,-227637); (115208,-219655); (137376,-185631); (140982,-179760); (151982,-152728); (166681,-79392)], [11; 11; 11; 11; 11; 11; 11; 11; 11; 0]%nat);
  (220, [(-124046,43769); (-114356,-17376); (-112146,-27236); (-99924,-58669); (-92509,-73828); (-77425,-95213); (-74108,-98687); (-63638,-108798); (-38369,-132798); (-29491,-139076); (-24468,-142372); (16828,-167687); (34199,-176417); (44947,-181720); (47515,-182683); (61195,-184385); (68612,-181529); (83957,-170397); (107165,-132439); (111817,-118966); (121997,-65841); (122498,-62088)], [9; 9; 8; 9; 8; 9; 8; 10; 8; 0]%nat);
  (221, [(-184386,61995); (-181530,44305); (-166899,-34252); (-156831,-73017); (-142278,-101613); (-136881,-111491); (-111890,-146692); (-94999,-165065); (-55122,-198824); (17376,-246089); (27236,-251529); (61522,-267654); (65553,-268453); (86871,-271572); (89551,-270616); (100293,-265189); (118924,-251601); (120866,-249652); (126145,-242482); (129806,-236996); (153563,-196082); (163125,-172197); (166681,-162733); (182684,-87653)], [8; 8; 8; 8; 8; 8; 8; 8; 8; 47]%nat);
  (221, [(-135811,48611); (-124047,-18254); (-121823,-30550); (-113819,-51567); (-103925,-74299); (-100280,-81326); (-83631,-107188); (-70914,-119499); (-39696,-146834); (-27519,-156011); (17126,-184026); (37627,-194292); (46357,-198408); (49839,-199878); (52687,-200644); (67005,-202113); (74633,-199762); (91727,-186111); (112665,-153186); (121997,-126840); (133828,-72306); (134228,-68674)], [8; 8; 8; 8; 8; 9; 8; 9; 8; 0]%nat);
  (221, [(-101057,34052); (-99882,25248); (-90765,-23230); (-85199,-41358); (-78416,-56113); (-62169,-80016); (-52914,-89531); (-31535,-106647); (-23049,-112351); (14906,-136915); (36914,-147881); (47607,-148836); (49344,-148124); (54399,-145238); (66400,-137969); (69539,-133799); (71187,-131248); (83844,-108938); (88209,-98114); (90861,-91344); (91342,-89498); (99940,-50100); (100323,-47635)], [7; 8; 7; 8; 7; 8; 7; 8; 7; 0]%nat);
  (222, [(-148845,53445); (-135309,-21897); (-132595,-33996); (-125339,-57522); (-109991,-87499); (-92816,-114173); (-89880,-118512); (-76364,-132892); (-43827,-160771); (-26176,-173938); (26274,-206660); (50807,-218489); (55746,-220500); (73346,-221910); (82533,-218799); (99412,-204241); (123045,-167191); (125765,-161411); (133828,-139219); (147882,-74053)], [8; 8; 8; 8; 8; 8; 8; 8; 8; 0]%nat);
  (222, [(-110955,37609); (-109400,26867); (-99881,-24693); (-93056,-45199); (-85199,-62658); (-66220,-90610); (-59483,-96947); (-36153,-115752); (-34337,-117060); (-26723,-122123); (13184,-147690); (37150,-159650); (40663,-161275); (53594,-164023); (59750,-160539); (73417,-149822); (78006,-144528); (92013,-120894); (97146,-108092); (99204,-102449); (99939,-100070); (110250,-54504)], [9; 9; 8; 9; 8; 9; 8; 9; 8; 0]%nat);
  (223, [(-164024,56835); (-148125,-24626); (-145239,-36179); (-137841,-64306); (-123467,-92309); (-118498,-100182); (-98041,-129053); (-86099,-141601); (-81367,-146340); (-49128,-175717); (-37609,-184302); (-26867,-191934); (24693,-224456); (56113,-241002); (80016,-244363); (89531,-240125); (106647,-223041); (112351,-214625); (123045,-197953); (136916,-175561); (147882,-147994); (161276,-79949)], [9; 10; 9; 10; 9; 10; 9; 10; 9; 43]%nat);
  (223, [(-122184,42141); (-109400,-27833); (-102121,-48352); (-93056,-68463); (-76593,-93517); (-63420,-106142); (-37027,-129369); (-28418,-135607); (12313,-160439); (21052,-164811); (43750,-175616); (57087,-178446); (59256,-178765); (66446,-176034); (80386,-164406); (86969,-156630); (103330,-128721); (109245,-113060); (110250,-109629); (120501,-64388)], [7; 7; 6; 7; 6; 7; 6; 7; 6; 0]%nat);
  (224, [(-178766,60253); (-176035,43142); (-164024,-25177); (-160540,-39231); (-149734,-72192); (-137970,-98308); (-133800,-105629); (-131249,-109562); (-108938,-140454); (-99082,-150890); (-91344,-158887); (-54504,-193249); (-42141,-202228); (27833,-246634); (62658,-264386); (90610,-268356); (96947,-264388); (115752,-245935); (117060,-244265); (122123,-236631); (147691,-195168); (159651,-165176); (161276,-160587); (175617,-88116); (178447,-64272)], [11; 12; 11; 12; 11; 12; 11; 12; 11; 49]%nat);
  (224, [(-134179,43568); (-120053,-30014); (-102121,-73882); (-83596,-102147); (-80706,-105589); (-69610,-116426); (-39975,-141289); (-27299,-150751); (12589,-176613); (19616,-180156); (46155,-192699); (50091,-193635); (64527,-194831); (70801,-192300); (73170,-191123); (87859,-180916); (92151,-175836); (95967,-170818); (112228,-143650); (120501,-124639); (132194,-69535)], [6; 6; 6; 6; 6; 6; 6; 7; 6; 41]%nat);
  (225, [(-194837,65657); (-176155,-44526); (-164407,-78569); (-156631,-95623); (-144862,-119402); (-120894,-153803); (-108594,-166779); (-102449,-172796); (-64388,-208809); (-43568,-224791); (30014,-270121); (68463,-288808); (93517,-293463); (106142,-286054); (129369,-268109); (135608,-260247); (160440,-216033); (164812,-205113); (175617,-175925); (192700,-100389); (193636,-93453)], [8; 9; 8; 9; 8; 9; 8; 9; 8; 41]%nat);
  (225, [(-146732,53215); (-134179,-23521); (-129831,-39579); (-111521,-78767); (-107313,-85523); (-98977,-98301); (-87781,-114971); (-73997,-129383); (-44058,-153589); (-32829,-162009); (22263,-198419); (51141,-212683); (54781,-213421); (70227,-214279); (75445,-212250); (79444,-210510); (96625,-199442); (101114,-193813); (123317,-157143); (132194,-135632); (144405,-75941)], [9; 9; 8; 9; 8; 9; 8; 9; 8; 0]%nat);
  (225, [(-107140,36913); (-105841,28932); (-96151,-22726); (-95562,-25389); (-90170,-43606); (-82204,-59836); (-78316,-67391); (-64204,-87464); (-56530,-95113); (-34768,-114811); (11761,-145941); (36941,-157534); (51935,-160370); (58213,-156931); (70645,-145943); (75376,-140363); (88307,-119872); (90079,-115502); (96350,-98370); (106342,-55201); (106711,-51930)], [9; 9; 9; 9; 9; 9; 9; 9; 9; 0]%nat);
  (226, [(-160371,56500); (-146732,-20151); (-143028,-34629); (-133812,-63092); (-122517,-85921); (-118316,-92544); (-97584,-123295); (-81496,-140148); (-50195,-167603); (-46727,-170273); (-36913,-177368); (-28932,-182751); (23544,-215540); (47812,-228349); (59701,-234414); (76902,-236247); (83390,-233679); (86398,-232047); (104405,-220996); (112396,-212162); (135061,-172577); (144405,-148144); (157535,-83652)], [9; 10; 9; 10; 9; 10; 9; 10; 8; 45]%nat);
  (226, [(-118124,41222); (-116840,33450); (-105318,-26593); (-99722,-46765); (-96907,-52661); (-88083,-69881); (-85410,-74615); (-71826,-94272); (-62320,-104922); (-34223,-128576); (10076,-156809); (17315,-160344); (39384,-170598); (42762,-171457); (49151,-172704); (57486,-174011); (64692,-171036); (76795,-159251); (81005,-154337); (99210,-126552); (106342,-108372); (117208,-57506)], [9; 9; 9; 9; 9; 9; 9; 9; 9; 0]%nat);
  (227, [(-174012,59039); (-160371,-23685); (-156932,-37961); (-145944,-68319); (-134055,-95856); (-130124,-103078); (-108017,-133436); (-97691,-144286); (-54959,-185317); (-41222,-195027); (-33450,-200231); (26593,-237230); (59836,-254163); (67391,-257719); (87464,-259605); (95113,-255730); (114811,-241753); (145942,-195390); (157535,-162420); (171131,-88954); (172705,-74402)], [8; 9; 8; 9; 8; 9; 8; 9; 8; 41]%nat);
  (227, [(-129803,42339); (-116840,-24970); (-116024,-28386); (-110498,-49156); (-106081,-59356); (-99721,-71695); (-96907,-76888); (-78572,-103675); (-67816,-115240); (-41826,-136623); (-28250,-146247); (14041,-173638); (42961,-186958); (46272,-187725); (61648,-190056); (70074,-186608); (84265,-175537); (88684,-169940); (91376,-165996); (107770,-138112); (114175,-123450); (117207,-116110); (128860,-61469)], [9; 9; 9; 10; 9; 10; 9; 10; 9; 45]%nat);
  (228, [(-190057,66760); (-174012,-27967); (-171037,-43866); (-159252,-73965); (-145944,-104805); (-140364,-115662); (-119872,-146647); (-111858,-155150); (-66219,-198998); (-42339,-217268); (25380,-258903); (52661,-272807); (69881,-280989); (74615,-282744); (94272,-285061); (104922,-282024); (128576,-261311); (156810,-215062); (160345,-205887); (170599,-177130); (186959,-101036); (187726,-95181)], [8; 9; 8; 9; 8; 9; 8; 9; 8; 0]%nat);
  (228, [(-142531,48259); (-141013,36090); (-129803,-22563); (-127865,-31181); (-120054,-57105); (-106081,-85876); (-86289,-113489); (-74072,-125887); (-44477,-148893); (-35898,-155038); (13984,-187996); (21933,-192971); (50843,-207403); (66718,-208095); (72143,-205906); (92659,-193947); (97514,-187493); (100116,-183624); (118615,-151330); (127082,-130787); (128860,-125899); (141373,-66757)], [9; 9; 9; 9; 8; 9; 8; 9; 8; 0]%nat);
  (228, [(-104048,37330); (-102953,30810); (-95028,-14134); (-93304,-23422); (-87561,-41017); (-79626,-56889); (-77169,-61713); (-63276,-83391); (-54186,-92796); (-30735,-113493); (-18045,-122968); (12964,-142124); (29678,-150599); (35848,-153493); (38444,-154574); (51838,-156329); (57620,-154247); (68312,-144294); (73124,-137936); (86819,-116188); (93479,-97258); (103702,-52859)], [9; 9; 9; 9; 9; 9; 9; 9; 9; 0]%nat);
  (229, [(-156330,52653); (-154248,39007); (-141013,-34416); (-125815,-76727); (-97695,-121519); (-81210,-137233); (-48377,-163407); (-31524,-174635); (14134,-204191); (23422,-210031); (52403,-224549); (57831,-227111); (73324,-229858); (77575,-228221); (99499,-215468); (108634,-205291); (129452,-168798); (136404,-151945); (140800,-140035); (154575,-77686)], [6; 6; 6; 7; 6; 7; 6; 6; 6; 39]%nat);
  (229, [(-114929,41605); (-114111,36536); (-102953,-20667); (-96892,-44495); (-87769,-62323); (-84970,-67442); (-82998,-70627); (-69056,-90506); (-62141,-98297); (-58055,-102694); (-33379,-124684); (-26327,-130004); (-19504,-134745); (17208,-158222); (42938,-170489); (56745,-171406); (62944,-168488); (74447,-156147); (77519,-152177); (93998,-127013); (96486,-122796); (103702,-104710); (113556,-55725)], [11; 11; 10; 11; 10; 11; 10; 11; 10; 0]%nat);
  (230, [(-171407,57916); (-153209,-43931); (-130656,-95912); (-107531,-129928); (-102944,-134610); (-88565,-148458); (-52859,-180975); (-36536,-191687); (20667,-226574); (56889,-244586); (61713,-246908); (83391,-251639); (92796,-247567); (113493,-231710); (122968,-220543); (142125,-187259); (150600,-166543); (153494,-158544); (154575,-154974); (170490,-84613)], [6; 6; 6; 7; 6; 7; 6; 7; 6; 0]%nat);
  (230, [(-125820,42429); (-123784,30988); (-114111,-20520); (-106867,-49047); (-96974,-68416); (-93747,-74078); (-91812,-77163); (-75665,-99699); (-64730,-111496); (-38843,-135154); (-28958,-142450); (21966,-175175); (38364,-183361); (60760,-188835); (68617,-184135); (81704,-170933); (87318,-162501); (102096,-139010); (105016,-134102); (112275,-116009); (113556,-112503); (123454,-61741)], [9; 10; 9; 10; 9; 10; 9; 10; 9; 43]%nat);
  (231, [(-169178,-39949); (-145175,-98998); (-137937,-111764); (-116188,-144592); (-97258,-162644); (-55725,-199250); (-40625,-210563); (20520,-248743); (49047,-262782); (62323,-269024); (67442,-271104); (70627,-271938); (90506,-273872); (98297,-271729); (102694,-270152); (124684,-253785); (130004,-247661); (134746,-241126); (158223,-202918); (170490,-169858); (190035,-73857)], [5; 5; 5; 6; 5; 6; 5; 6; 5; 41]%nat);
  (231, [(-136937,46430); (-135598,35363); (-124247,-29464); (-114805,-58832); (-102646,-82973); (-84399,-108353); (-76606,-116786); (-70018,-123296); (-42307,-149337); (-36929,-153107); (19975,-189153); (47956,-202591); (64964,-204978); (67305,-203902); (74229,-199909); (90488,-188591); (95844,-180302); (113287,-149264); (122293,-126551); (123454,-123468); (135553,-68110); (135970,-65342)], [9; 9; 9; 9; 9; 9; 8; 9; 8; 0]%nat);
  (231, [(-102489,37525); (-94418,-13551); (-90472,-28716); (-78074,-54929); (-76089,-58497); (-63507,-78122); (-61398,-81137); (-52355,-90614); (-30871,-108019); (-17682,-117917); (14732,-138980); (34208,-148287); (37039,-149306); (38582,-149685); (49850,-150440); (55748,-148353); (67577,-140209); (71225,-135796); (87588,-109416); (91681,-99157); (101296,-53340)], [8; 8; 8; 8; 8; 8; 8; 8; 8; 1]%nat);
  (232, [(-150441,50740); (-148354,36857); (-135077,-35156); (-126414,-62764); (-115855,-84530); (-110272,-95400); (-93630,-118718); (-83444,-129615); (-79272,-133677); (-36929,-171571); (14608,-203033); (49499,-219424); (55882,-221761); (72296,-224633); (81322,-219242); (99625,-205163); (105282,-198548); (124372,-166038); (131392,-148040); (135130,-137745); (149248,-75647); (149686,-72521)], [8; 10; 10; 9; 8; 9; 8; 9; 8; 43]%nat);
  (232, [(-112317,40021); (-102173,-15452); (-99955,-24252); (-94296,-43340); (-85467,-60338); (-81251,-67006); (-67419,-87867); (-56896,-98941); (-33360,-119122); (-25370,-125071); (-18429,-129926); (17578,-152656); (29416,-158930); (41487,-164876); (54177,-165664); (58393,-164196); (61648,-162491); (74669,-154310); (76554,-151760); (94577,-121890); (101296,-103988); (110881,-54999)], [8; 9; 8; 9; 8; 9; 8; 9; 8; 43]%nat);
  (233, [(-165665,57310); (-164197,47410); (-148354,-37320); (-139927,-66013); (-124501,-97907); (-120563,-104606); (-101459,-132859); (-84929,-149258); (-52064,-177000); (15452,-219799); (24252,-224163); (57340,-239672); (78122,-244198); (81137,-244502); (90614,-240632); (108019,-223771); (117917,-212240); (138981,-179007); (148475,-153511); (164877,-81902)], [8; 8; 8; 10; 9; 8; 8; 8; 8; 0]%nat);
  (233, [(-122265,40866); (-112317,-16138); (-109622,-26512); (-102582,-48335); (-94296,-66915); (-90152,-73307); (-74633,-94630); (-68873,-100695); (-62193,-107593); (-37368,-130763); (-28655,-137011); (-23705,-140493); (18660,-167015); (47143,-181783); (59359,-182670); (64808,-180657); (66839,-179531); (85786,-165609); (101517,-137668); (110339,-113344); (119837,-62496); (122100,-43977)], [9; 10; 9; 10; 9; 10; 9; 10; 9; 43]%nat);
  (234, [(-182671,63952); (-180658,51041); (-163487,-38386); (-154311,-72183); (-136487,-107472); (-109416,-147823); (-99157,-158573); (-54999,-194263); (-40021,-204624); (16138,-240773); (30946,-247887); (60338,-261442); (67006,-263012); (87867,-266640); (98941,-262205); (119122,-245404); (125071,-238347); (129926,-231748); (152657,-193829); (164127,-167750); (181784,-87497)], [7; 7; 7; 8; 7; 9; 9; 8; 7; 0]%nat);
  (234, [(-133321,45453); (-131103,32162); (-120605,-29716); (-111886,-52076); (-102582,-73980); (-99274,-80464); (-83019,-103618); (-74711,-112214); (-68873,-117912); (-40951,-144402); (-26509,-154529); (19193,-182681); (48954,-197932); (52303,-199018); (66430,-201104); (74629,-196873); (88500,-184815); (109900,-149398); (112082,-143871); (119836,-122414); (130721,-70383); (131507,-64500)], [9; 9; 9; 9; 9; 9; 9; 10; 9; 0]%nat);
  (235, [(-201105,68244); (-180658,-39288); (-171315,-77663); (-152896,-113515); (-121890,-158682); (-100974,-179612); (-44616,-221817); (29716,-270927); (66915,-288966); (73307,-290266); (94630,-291212); (100695,-288790); (107593,-285777); (130763,-270882); (137012,-262828); (140494,-258150); (167016,-213203); (181784,-178389); (198974,-94970)], [5; 6; 5; 6; 5; 6; 5; 7; 6; 37]%nat);
  (235, [(-145610,50818); (-133321,-21207); (-131103,-33390); (-121970,-59898); (-111886,-80048); (-106120,-91387); (-89504,-116606); (-76756,-129287); (-43749,-159910); (-34122,-166984); (19644,-200303); (38832,-210147); (53736,-217092); (73912,-220284); (79287,-218088); (97132,-200697); (102312,-193490); (120387,-164442); (123944,-154970); (130721,-135744); (144484,-77568); (145134,-71826)], [8; 9; 8; 9; 8; 9; 8; 9; 8; 0]%nat);
  (235, [(-110174,35864); (-99274,-23067); (-92408,-42297); (-82805,-65085); (-68835,-84309); (-56672,-96172); (-33015,-114844); (-25409,-120202); (10604,-143926); (16695,-147799); (40024,-159603); (51809,-160734); (56107,-158873); (58956,-157308); (72202,-149254); (77265,-142407); (91341,-117819); (98967,-99496); (108547,-54810)], [6; 7; 6; 7; 6; 7; 6; 7; 5; 37]%nat);
  (236, [(-160735,57116); (-158874,46659); (-142996,-35762); (-135442,-63043); (-130681,-72811); (-119527,-94670); (-115874,-100958); (-96915,-128429); (-84126,-142938); (-47485,-175232); (-35864,-184485); (26231,-223609); (56758,-238033); (79341,-240902); (89806,-235684); (110909,-210980); (135464,-173480); (144484,-149810); (159604,-79555)], [9; 10; 9; 10; 9; 10; 9; 10; 9; 0]%nat);
  (236, [(-120451,41110); (-108604,-27788); (-92408,-65398); (-74699,-91226); (-71936,-94098); (-61207,-104535); (-38784,-125092); (-35913,-127178); (-28558,-132178); (-23330,-135545); (17881,-160878); (40024,-171923); (45694,-174661); (58303,-176959); (64644,-173722); (79955,-163682); (83492,-159361); (100152,-130584); (105074,-118779); (108546,-109083); (119017,-62259)], [7; 8; 7; 8; 7; 9; 7; 8; 7; 0]%nat);
  (237, [(-176960,60353); (-158936,-32520); (-157309,-39258); (-149143,-70200); (-135442,-96903); (-131415,-104159); (-129075,-108226); (-106522,-140480); (-89195,-159486); (-49797,-194093); (27788,-244997); (65085,-263239); (84309,-264135); (96172,-257603); (114844,-238297); (120202,-231122); (143927,-194682); (147800,-188309); (159604,-159357); (174662,-83273)], [9; 9; 9; 9; 9; 9; 8; 9; 8; 39]%nat);
  (237, [(-132068,47759); (-120451,-19116); (-117441,-32695); (-100349,-72045); (-96745,-78126); (-82221,-99832); (-77485,-104573); (-67872,-113753); (-39778,-139716); (-30177,-146784); (16829,-175545); (36406,-185290); (47335,-190530); (50479,-191593); (64215,-193237); (71469,-191330); (87616,-178910); (92243,-174228); (111805,-141476); (119017,-121767); (131620,-66535)], [9; 9; 8; 9; 8; 9; 8; 9; 8; 0]%nat);
  (238, [(-193238,64807); (-191331,48392); (-176960,-28127); (-173723,-42427); (-163196,-79797); (-149255,-107091); (-142408,-118929); (-117819,-153228); (-99496,-173061); (-62220,-206941); (25603,-264252); (65398,-282914); (91226,-286238); (94098,-285020); (104535,-279218); (125092,-265207); (127178,-262594); (132179,-255384); (135546,-249978); (160879,-205556); (171924,-177837); (174662,-170604); (191574,-90947)], [9; 9; 9; 9; 9; 9; 9; 9; 9; 45]%nat);
  (238, [(-143120,51893); (-132068,-18275); (-128802,-31771); (-117842,-60346); (-105490,-84537); (-86740,-113779); (-74905,-125758); (-41637,-153844); (-24196,-167136); (16993,-192853); (35100,-201794); (48452,-208120); (52080,-209535); (54113,-210245); (70240,-211883); (79743,-208810); (97047,-195367); (122499,-155960); (131620,-132345); (141458,-76059)], [7; 7; 7; 7; 7; 7; 7; 7; 7; 0]%nat);
  (238, [(-105942,35702); (-104405,24662); (-95665,-23637); (-88504,-45837); (-80256,-62745); (-66537,-82481); (-58612,-91070); (-33268,-114987); (10841,-142259); (37477,-155084); (49916,-157096); (52287,-155915); (56877,-153187); (69858,-144566); (73392,-140266); (87773,-114830); (92645,-102562); (95295,-95484); (105118,-51108)], [7; 7; 7; 7; 7; 7; 7; 7; 7; 0]%nat);
  (239, [(-157097,57264); (-142635,-22332); (-139610,-34731); (-132464,-59270); (-117363,-88515); (-97341,-119592); (-94155,-124262); (-79679,-139685); (-45474,-168838); (-35702,-176183); (-24662,-184149); (23637,-214968); (51925,-229018); (59465,-231606); (76614,-232741); (86531,-229293); (103471,-217427); (132127,-172587); (141458,-146788); (155085,-80130)], [8; 9; 8; 9; 8; 9; 8; 9; 8; 0]%nat);
  (239, [(-116371,39757); (-114647,28116); (-104405,-27541); (-97684,-48205); (-87114,-70465); (-70738,-94121); (-60884,-103797); (-37811,-122622); (11166,-153802); (17366,-156976); (42269,-168893); (56890,-172075); (62879,-169224); (76922,-157021); (83568,-149549); (96427,-127647); (100897,-116246); (104060,-107638); (104835,-104828); (114509,-62584); (115803,-56338)], [7; 7; 7; 7; 7; 7; 7; 7; 7; 0]%nat);
  (240, [(-172076,58295); (-156566,-24102); (-153188,-37161); (-144146,-68910); (-131840,-93465); (-127692,-100256); (-124989,-104299); (-102778,-135185); (-90106,-148500); (-85302,-153337); (-51108,-184683); (-39757,-192986); (-28116,-201179); (27541,-236352); (62745,-254630); (82481,-256796); (91070,-253830); (114987,-239017); (142260,-191707); (155085,-157673); (168894,-84355)], [10; 11; 10; 11; 10; 11; 10; 11; 10; 41]%nat);
  (240, [(-128398,45917); (-126915,35845); (-114647,-29208); (-108714,-49114); (-97684,-72626); (-77980,-103004); (-66173,-115077); (-40065,-135053); (-29148,-142929); (12051,-168618); (18581,-171769); (44258,-183750); (59796,-187036); (62131,-187352); (69843,-184443); (84419,-172103); (88092,-167840); (92075,-162774); (107484,-137590); (114509,-119839); (127315,-64570)], [8; 8; 7; 8; 7; 8; 7; 8; 7; 0]%nat);
  (241, [(-187353,63090); (-184444,44757); (-172076,-27743); (-169225,-41146); (-151894,-89698); (-140267,-111718); (-114830,-146839); (-102562,-159650); (-95484,-166720); (-57107,-202888); (-36795,-217394); (29208,-258503); (70465,-279927); (94121,-282659); (108126,-275141); (122622,-259556); (153803,-208372); (156977,-200733); (168894,-168802); (183751,-95234); (187037,-67444)], [9; 9; 9; 9; 9; 9; 9; 9; 9; 41]%nat);
  (241, [(-141330,47209); (-126915,-27613); (-119509,-55233); (-108714,-76293); (-86294,-110554); (-73394,-123110); (-42178,-147806); (-29217,-157561); (17674,-188453); (46733,-201940); (50128,-202885); (52150,-203214); (67593,-204168); (74250,-201482); (76669,-200306); (92342,-189621); (96493,-184497); (100590,-179001); (118176,-149724); (127315,-128228); (139964,-69499)], [6; 7; 6; 6; 6; 6; 6; 7; 6; 41]%nat);
  (241, [(-102086,34443); (-92276,-23580); (-86052,-41394); (-82958,-48272); (-74775,-64875); (-63824,-80472); (-59122,-85383); (-53819,-90606); (-32285,-111173); (-23605,-117726); (13807,-140723); (36313,-152155); (51502,-155234); (57539,-152482); (67527,-141356); (71465,-136346); (84310,-114413); (85885,-110247); (91876,-93555); (100971,-54237); (101443,-51315); (101608,-49457)], [9; 9; 8; 9; 8; 9; 8; 9; 8; 0]%nat);
  (242, [(-141330,-23456); (-137571,-39341); (-119509,-85110); (-95854,-118297); (-78837,-135376); (-47617,-159943); (-34443,-169730); (23580,-208133); (44849,-219168); (55859,-224056); (73420,-224960); (79825,-222300); (83360,-220525); (101444,-209274); (108697,-199841); (129252,-164670); (139964,-139481); (156408,-58618)], [5; 6; 5; 6; 5; 6; 5; 6; 5; 35]%nat);
  (242, [(-112480,39060); (-105178,-3409); (-100153,-26593); (-94635,-45542); (-84451,-66146); (-81387,-71729); (-68795,-90286); (-61184,-98371); (-30983,-126041); (14485,-154802); (38147,-165934); (55277,-169210); (61555,-165727); (73903,-153033); (78781,-147388); (94227,-123666); (100970,-104722); (112028,-56169)], [8; 8; 8; 8; 7; 8; 7; 8; 7; 0]%nat);
  (243, [(-169211,58656); (-153326,-36863); (-137571,-73734); (-129778,-90178); (-104186,-127757); (-100367,-131886); (-84401,-147794); (-52447,-176428); (-39060,-185901); (10502,-218420); (48272,-238325); (64875,-246863); (80472,-248357); (87232,-245553); (111173,-231330); (117726,-223800); (140724,-183471); (152156,-155607); (165935,-89640)], [7; 8; 7; 8; 7; 8; 7; 8; 7; 0]%nat);
  (243, [(-124179,43707); (-122777,35545); (-111150,-24250); (-110263,-28229); (-104637,-49126); (-99921,-58737); (-94811,-68640); (-92249,-73431); (-89501,-78215); (-74862,-99461); (-64114,-111287); (-29309,-141754); (18432,-171758); (42555,-183342); (59149,-184577); (67688,-180370); (79972,-167575); (84865,-161741); (104067,-132520); (109584,-119527); (112028,-112183); (123432,-58557)], [10; 11; 11; 11; 10; 11; 10; 11; 10; 0]%nat);
  (244, [(-184578,66279); (-169211,-25949); (-165728,-40247); (-152483,-76958); (-141357,-99715); (-136347,-108844); (-114413,-140017); (-109378,-145084); (-93555,-160364); (-56169,-195972); (-43707,-204652); (-35545,-210010); (25971,-247603); (66146,-268122); (71729,-270369); (90286,-273020); (98371,-269926); (126041,-251028); (154803,-203234); (165935,-172608); (183343,-98232)], [9; 10; 9; 10; 9; 10; 9; 10; 9; 0]%nat);
  (244, [(-136605,45000); (-122777,-25844); (-114951,-56102); (-104637,-75285); (-99921,-83717); (-82335,-108669); (-69741,-122529); (-40061,-147535); (14844,-183407); (45089,-197412); (63844,-200017); (65943,-199282); (73897,-195247); (88214,-184769); (92951,-178486); (109210,-153314); (119163,-130472); (123432,-120273); (135185,-63456)], [7; 7; 7; 8; 7; 7; 7; 7; 6; 37]%nat);
  (244, [(-100016,36075); (-92289,-13005); (-90186,-22596); (-80179,-47530); (-73695,-60358); (-61833,-78769); (-52361,-87880); (-29279,-108794); (-22500,-114106); (12922,-135700); (29369,-143975); (34320,-146292); (36716,-147323); (39108,-148163); (49731,-149459); (55644,-147580); (70878,-135626); (85880,-110387); (91672,-94952); (98707,-53617)], [7; 8; 7; 8; 7; 8; 7; 8; 7; 0]%nat);
  (245, [(-149460,49997); (-147581,36292); (-134964,-30890); (-125514,-63284); (-111900,-89751); (-91736,-117791); (-77804,-132706); (-49116,-158786); (13005,-197584); (22596,-202969); (53477,-217893); (70009,-219427); (72542,-218192); (80182,-213829); (97986,-203149); (102326,-197197); (105005,-193053); (123802,-159732); (134062,-134946); (135185,-131048); (148164,-69947)], [7; 7; 7; 7; 7; 8; 8; 7; 7; 0]%nat);
  (245, [(-109714,39705); (-99641,-16123); (-97624,-25085); (-92385,-42022); (-86998,-52837); (-80871,-64648); (-66260,-87502); (-59098,-95375); (-31728,-119321); (-20017,-128267); (15445,-150410); (28051,-157028); (37643,-161101); (41859,-162709); (54335,-163837); (61265,-161638); (73570,-151021); (91643,-122884); (98706,-102970); (108947,-55470)], [8; 8; 8; 8; 8; 8; 8; 8; 8; 0]%nat);
  (246, [(-163838,55167); (-161639,39108); (-147581,-37498); (-135627,-73943); (-125514,-94663); (-101617,-129399); (-86304,-144360); (-53617,-170606); (-39705,-179724); (19150,-217341); (47530,-231654); (60358,-237928); (78769,-241820); (87880,-236543); (108794,-221750); (114106,-216160); (135701,-177707); (143976,-157225); (146293,-150799); (147499,-147002); (162710,-78991)], [7; 8; 7; 8; 7; 8; 7; 8; 8; 0]%nat);
  (246, [(-120910,42141); (-109382,-16852); (-106915,-26725); (-101555,-47275); (-90705,-68387); (-76657,-90046); (-65236,-102854); (-60137,-108398); (-33648,-131851); (-19554,-142086); (22281,-168566); (44876,-179214); (58896,-180080); (66353,-177334); (79393,-168206); (98792,-135184); (101485,-129631); (108947,-109943); (118964,-58606)], [8; 8; 8; 8; 8; 8; 7; 8; 7; 37]%nat);
  (247, [(-180081,62288); (-164008,-41076); (-135627,-107850); (-110387,-144164); (-94952,-159607); (-46967,-196740); (16852,-235617); (43142,-248768); (64648,-258715); (87502,-263774); (95375,-261259); (119321,-242438); (128267,-232435); (150411,-194726); (157029,-179441); (161102,-166366); (162710,-160346); (179215,-89462)], [5; 5; 4; 5; 4; 5; 4; 5; 4; 0]%nat);
  (247, [(-131888,44385); (-130630,35255); (-120910,-18314); (-118272,-28744); (-109928,-56508); (-101575,-72593); (-98599,-77677); (-96527,-80874); (-79866,-103836); (-68090,-116626); (-39496,-142963); (-31144,-148938); (20538,-184547); (47332,-196512); (64700,-198667); (74711,-193190); (85303,-181572); (89862,-174499); (108671,-143856); (115827,-126211); (118964,-118088); (129358,-64710)], [10; 11; 10; 11; 10; 11; 10; 11; 10; 43]%nat);
  (248, [(-198668,69267); (-173625,-63742); (-151022,-109385); (-122884,-152566); (-102970,-171670); (-58606,-208626); (-37738,-224424); (18314,-260135); (28744,-265289); (68387,-283992); (90046,-288384); (102854,-284754); (108398,-282872); (131852,-265074); (142087,-252238); (168567,-208288); (179215,-179070); (196513,-101848)], [5; 5; 5; 5; 5; 5; 5; 5; 5; 0]%nat);
  (248, [(-144193,54146); (-141931,35925); (-130630,-30060); (-120138,-62003); (-108080,-87086); (-88854,-113488); (-78639,-124338); (-44731,-156850); (-34634,-164035); (48608,-215931); (72082,-218511); (79804,-214658); (98370,-194523); (117809,-159861); (124384,-143435); (129358,-129389); (141997,-73609)], [8; 8; 7; 8; 7; 8; 7; 8; 7; 0]%nat);
  (248, [(-109256,37174); (-97716,-23548); (-84104,-58368); (-67593,-81895); (-64816,-85282); (-54972,-95205); (-32355,-113181); (-17963,-123969); (15030,-145661); (28254,-152310); (36297,-156021); (38839,-156858); (40437,-157184); (51918,-157744); (58313,-155561); (71482,-146719); (74470,-142849); (92274,-117873); (98257,-100053); (107966,-59358)], [6; 6; 6; 6; 6; 6; 6; 6; 6; 39]%nat);
  (249, [(-157745,53908); (-155562,38935); (-141437,-37680); (-132209,-66614); (-116218,-99213); (-97779,-125606); (-89721,-134599); (-45408,-176234); (23548,-218981); (54693,-233062); (76206,-237354); (85835,-231723); (104313,-215076); (112212,-206057); (130068,-176788); (132645,-170223); (141997,-144608); (156724,-80361); (157185,-76310)], [7; 7; 7; 7; 7; 7; 7; 7; 7; 37]%nat);
  (249, [(-118677,42471); (-109256,-17454); (-105904,-32568); (-90786,-62607); (-87250,-68050); (-71928,-90689); (-63106,-100051); (-59044,-104203); (-36805,-123595); (-26954,-130791); (-19468,-136095); (18840,-160278); (43543,-173395); (56744,-173971); (62169,-171893); (78425,-162369); (84961,-153803); (107966,-113341); (116531,-61838)], [8; 8; 8; 9; 8; 9; 8; 9; 8; 0]%nat);
  (250, [(-173972,60483); (-171894,47555); (-155562,-38846); (-146720,-69605); (-131998,-99825); (-113652,-133319); (-59358,-186254); (17454,-235967); (32568,-244377); (58368,-255761); (83904,-258223); (95205,-252752); (113181,-234482); (123969,-221880); (145662,-188432); (152311,-171958); (156022,-161438); (173396,-86309)], [6; 6; 6; 6; 6; 6; 6; 6; 6; 0]%nat);
  (250, [(-129112,45208); (-118678,-16868); (-115862,-27904); (-107330,-52972); (-97262,-74055); (-79931,-97827); (-71668,-106515); (-40041,-136769); (-30242,-143732); (-23778,-148118); (19423,-174986); (49607,-190629); (62803,-191985); (67300,-190672); (88118,-177585); (113445,-133864); (127881,-69513)], [8; 8; 7; 8; 7; 8; 7; 8; 7; 33]%nat);
  (251, [(-190673,56072); (-171894,-38392); (-162370,-75666); (-153804,-93021); (-144388,-110651); (-117864,-155097); (-100053,-171501); (-52202,-209871); (18822,-255480); (62607,-275484); (68050,-276576); (90689,-279891); (100051,-276290); (104203,-274394); (123595,-259003); (130791,-250095); (136096,-243079); (160279,-202738); (173396,-173007); (193465,-77992)], [7; 7; 7; 7; 7; 7; 6; 7; 6; 39]%nat);
  (251, [(-139946,49257); (-129112,-19348); (-126376,-32017); (-109849,-72804); (-103029,-86455); (-88394,-107970); (-85112,-111368); (-72304,-123921); (-43155,-151819); (-28036,-162638); (19196,-191091); (49913,-206868); (66660,-213642); (93127,-199049); (117984,-159522); (122189,-150715); (127881,-133453); (137743,-75135); (138289,-70238)], [8; 8; 8; 8; 8; 8; 7; 9; 8; 0]%nat);
  (251, [(-106821,40161); (-95336,-19632); (-88793,-43722); (-77985,-64188); (-57933,-92837); (-34757,-110503); (9674,-138787); (16009,-142385); (37028,-152804); (48914,-153302); (53258,-151555); (68385,-142618); (71866,-138042); (74059,-134867); (87493,-111817); (95315,-93365)], [5; 5; 5; 5; 5; 5; 5; 5; 5; 0]%nat);
  (252, [(-153303,55474); (-151556,45039); (-138146,-30979); (-137198,-35605); (-129045,-60224); (-119339,-79755); (-110940,-96234); (-94216,-122108); (-85979,-130817); (-80719,-135843); (-40161,-173482); (19632,-210305); (46511,-223571); (55326,-227377); (77549,-234188); (89692,-226033); (104936,-209606); (127098,-174636); (137743,-144007); (152805,-78748)], [9; 10; 10; 10; 9; 10; 9; 10; 9; 0]%nat);
  (252, [(-106821,-13250); (-99525,-43365); (-88793,-65920); (-66932,-96712); (-35982,-120161); (-22520,-129037); (16854,-154519); (43092,-167852); (53985,-169372); (55684,-168639); (61961,-165245); (75910,-157020); (81319,-150015); (95546,-124123); (103434,-105238); (106821,-93572); (117227,-40225)], [4; 4; 4; 4; 4; 4; 4; 5; 4; 32]%nat);
  (253, [(-169392,61146); (-151556,-30739); (-142411,-66267); (-126805,-96433); (-121540,-105712); (-101369,-134937); (-86504,-151771); (-40225,-194230); (29737,-236963); (64188,-252253); (92837,-255122); (110503,-235269); (138788,-188833); (142386,-181560); (152805,-155151); (167853,-81668)], [7; 6; 6; 7; 7; 7; 6; 7; 6; 31]%nat);
  (253, [(-115680,-26264); (-99525,-68246); (-79761,-98044); (-73045,-106137); (-39374,-133119); (-30573,-138820); (15370,-166926); (39878,-179156); (48117,-183116); (61054,-185798); (65409,-184092); (67922,-182602); (86741,-170273); (105153,-138097); (111786,-121168); (113689,-115207); (129799,-46211)], [4; 5; 4; 5; 4; 5; 4; 5; 4; 33]%nat);
  (254, [(-185799,63690); (-184093,53274); (-168687,-26848); (-165246,-41300); (-157021,-73310); (-150016,-87631); (-139275,-107211); (-134868,-114402); (-111817,-147032); (-93365,-167289); (-46211,-213388); (26264,-257625); (65920,-276467); (96712,-278933); (120161,-252206); (137420,-225742); (154520,-198071); (167853,-165595); (183117,-86882)], [11; 10; 10; 10; 9; 10; 10; 10; 9; 37]%nat);
  (254, [(-127115,-31747); (-104803,-78736); (-87318,-105269); (-72004,-119743); (-38642,-149384); (-26637,-157457); (15018,-183092); (33134,-192112); (48217,-199131); (52856,-200825); (67469,-202573); (75886,-200333); (97115,-185898); (118482,-147986); (126127,-125002); (141797,-56808)], [4; 4; 4; 4; 3; 4; 3; 4; 3; 31]%nat);
  (254, [(-101287,33818); (-100167,24281); (-92047,-19386); (-86103,-42409); (-75160,-62407); (-62062,-80031); (-52903,-90010); (-23745,-117842); (15874,-142990); (34123,-150711); (51916,-153797); (66560,-139214); (69411,-134689); (83464,-109825); (89579,-94490); (91559,-89221); (100413,-47557)], [7; 7; 7; 7; 7; 7; 6; 7; 6; 33]%nat);
  (255, [(-153798,49965); (-139467,-26979); (-127561,-60947); (-117635,-81095); (-94417,-115184); (-90780,-119691); (-77576,-133412); (-43441,-161397); (-24281,-176054); (19386,-203481); (43816,-215740); (53606,-219684); (57201,-220670); (73516,-222092); (83645,-218833); (106694,-206253); (128813,-166955); (138234,-141431); (150712,-82465)], [7; 7; 7; 7; 7; 7; 6; 7; 6; 1]%nat);
  (255, [(-111046,37530); (-109417,25772); (-100167,-25803); (-92949,-50641); (-85137,-65457); (-70951,-85861); (-62501,-94877); (-28404,-127595); (13490,-152957); (39368,-163856); (52635,-166270); (59872,-161812); (74692,-150681); (78729,-144730); (91546,-122301); (96056,-110950); (99566,-101132); (100413,-97763); (109842,-56236); (110335,-53134)], [7; 8; 8; 8; 8; 7; 7; 7; 6; 0]%nat);
  (256, [(-166271,61000); (-153798,-26934); (-139215,-63513); (-126103,-88636); (-112871,-109203); (-99036,-129762); (-82798,-147154); (-47557,-177048); (-37530,-184563); (-25772,-193063); (25803,-226138); (42409,-235820); (62407,-243931); (80031,-244171); (101504,-236964); (117842,-224254); (147575,-175170); (163857,-85120)], [7; 8; 7; 8; 7; 8; 6; 8; 6; 0]%nat);
  (256, [(-122086,42055); (-118482,16978); (-104884,-51894); (-92316,-75045); (-73993,-99984); (-40248,-131001); (13467,-167266); (40548,-178457); (58837,-180977); (66706,-177636); (80699,-164489); (88027,-156322); (101741,-133225); (107870,-117989); (109842,-111157); (121966,-59559)], [5; 5; 5; 6; 6; 6; 6; 5; 5; 0]%nat);
  (257, [(-180978,63303); (-166271,-22135); (-161813,-38838); (-152070,-71105); (-139215,-98317); (-134690,-105150); (-109825,-139472); (-94490,-155536); (-89221,-160813); (-54833,-192875); (-42055,-202118); (-16978,-219987); (50641,-261860); (65457,-268461); (85861,-270695); (94877,-267319); (127595,-248201); (152958,-202456); (163857,-167049); (178458,-97361)], [9; 10; 9; 10; 9; 10; 9; 10; 9; 39]%nat);
  (257, [(-135348,49487); (-133660,38783); (-116614,-52241); (-103127,-80913); (-87374,-104094); (-62702,-128475); (23,-172393); (44318,-192581); (54602,-194774); (64881,-196358); (73577,-193164); (88524,-180344); (92282,-175953); (96532,-170570); (113069,-143801); (117910,-134457); (121966,-120542); (134231,-68774)], [5; 5; 5; 5; 5; 6; 6; 6; 6; 0]%nat);
  (258, [(-196437,65662); (-180978,-27186); (-177637,-44594); (-164490,-79154); (-150682,-111714); (-144731,-121276); (-122301,-152517); (-110950,-164375); (-59559,-214153); (-42268,-226268); (51894,-287610); (75045,-297201); (99984,-297963); (129900,-278609); (167267,-223966); (178458,-186590); (192582,-103945); (194775,-85570)], [8; 8; 8; 9; 8; 9; 8; 9; 8; 35]%nat);
  (258, [(-148982,48998); (-127622,-58410); (-112127,-89811); (-87585,-125679); (-48681,-154118); (13593,-194572); (22297,-199935); (49159,-212954); (52575,-213553); (69736,-214430); (79425,-210465); (96438,-199490); (101059,-193644); (109994,-181969); (130930,-145755); (134231,-135889); (148601,-73556)], [4; 4; 4; 4; 4; 4; 4; 6; 5; 33]%nat);
  (258, [(-107216,37479); (-96583,-25286); (-89548,-45207); (-78162,-68487); (-66871,-84815); (-59721,-92416); (-34387,-117038); (-24499,-124484); (38676,-163562); (52047,-165446); (64238,-159059); (86093,-129574); (96291,-100119); (106478,-57318); (106777,-54202)], [6; 6; 6; 7; 6; 7; 6; 7; 6; 0]%nat);
  (259, [(-144950,-46763); (-124101,-96570); (-97833,-132265); (-43114,-173228); (25286,-218453); (55857,-234468); (60638,-235689); (76259,-236690); (82188,-234232); (107077,-220175); (113134,-211970); (145296,-161474); (167266,-70950)], [3; 3; 3; 3; 2; 3; 2; 3; 3; 25]%nat);
  (259, [(-118345,42086); (-117116,34928); (-105233,-26809); (-99652,-46903); (-89574,-67367); (-78060,-88426); (-67229,-101103); (-35475,-131792); (40391,-178892); (62840,-181845); (77059,-164270); (89395,-146114); (99968,-127655); (106477,-110557); (117234,-61377); (117845,-57207)], [7; 7; 7; 7; 7; 7; 7; 7; 7; 0]%nat);
  (260, [(-155347,-69124); (-111098,-140704); (-56885,-184649); (-42086,-194605); (-34928,-199305); (26809,-237276); (68391,-259044); (84815,-260965); (92416,-258067); (117038,-244332); (124484,-235725); (163563,-167992); (184913,-70667)], [2; 3; 2; 4; 2; 3; 2; 3; 2; 25]%nat);
  (260, [(-130483,45668); (-129034,36618); (-117116,-23630); (-109806,-53174); (-82186,-103548); (-35475,-149529); (45731,-196349); (65525,-197744); (86614,-173036); (109227,-138554); (117234,-119994); (129522,-61131)], [5; 5; 5; 5; 5; 5; 4; 5; 4; 23]%nat);
  (261, [(-181846,-34758); (-159060,-88712); (-129574,-139793); (-61141,-204288); (-39306,-219827); (23630,-257863); (67367,-280200); (88426,-288760); (101103,-286114); (131793,-268639); (178893,-187557); (200586,-84825)], [3; 3; 3; 3; 3; 4; 3; 4; 3; 0]%nat);
  (261, [(-144381,55954); (-143058,41954); (-129034,-27899); (-122166,-55955); (-117863,-65553); (-107424,-84353); (-83205,-122822); (-35334,-167247); (27392,-205301); (70352,-216627); (92325,-195372); (97303,-188040); (99653,-184407); (118638,-151149); (129522,-125892)], [7; 8; 8; 8; 7; 7; 6; 7; 6; 0]%nat);
  (261, [(-110971,20466); (-90923,-40110); (-82136,-56526); (-73058,-71131); (-63828,-84012); (-47268,-100760); (-20977,-122082); (13950,-142985); (26587,-149688); (51774,-159848); (74765,-147623); (98870,-100164)], [5; 5; 5; 5; 5; 5; 5; 6; 5; 0]%nat);
  (262, [(-159849,56300); (-143058,-29575); (-134320,-64633); (-117863,-95019); (-91332,-135762); (-20466,-201477); (44356,-225595); (69979,-234448); (102144,-214358); (109914,-204177); (128932,-169768); (140101,-142784); (144381,-128144)], [4; 5; 5; 6; 5; 5; 5; 4; 4; 25]%nat);
  (262, [(-117225,47245); (-108314,-16195); (-98298,-42305); (-86519,-64985); (-69278,-91908); (-59997,-102236); (-28150,-131700); (14788,-157847); (32777,-167029); (42177,-170690); (61411,-175323); (83624,-160770); (102651,-126585)], [5; 5; 5; 6; 5; 6; 5; 6; 5; 0]%nat);
  (263, [(-175324,52501); (-159849,-23624); (-146473,-80620); (-95916,-153809); (-20466,-211710); (16195,-232824); (56526,-249062); (71131,-252813); (91933,-254205); (122082,-225078); (142986,-186578); (149689,-171359); (167467,-109880)], [3; 3; 3; 5; 5; 5; 5; 5; 5; 25]%nat);
  (263, [(-127409,26336); (-107179,-48555); (-97686,-67904); (-92743,-75852); (-75520,-99821); (-62946,-113786); (-26251,-149074); (11812,-171662); (38690,-186256); (47510,-189128); (67881,-193154); (100739,-171574); (112798,-124841); (121924,-85704); (126407,-55276)], [6; 5; 5; 5; 5; 5; 5; 5; 5; 29]%nat);
  (264, [(-193155,57392); (-168148,-72408); (-141422,-124777); (-100164,-172700); (-26336,-228483); (64985,-270517); (91908,-276419); (102236,-273349); (131701,-253851); (157848,-207195); (167935,-182802); (188503,-99812)], [3; 3; 3; 4; 4; 4; 4; 4; 4; 23]%nat);
  (264, [(-138332,45312); (-127103,-28382); (-112540,-65813); (-102125,-84344); (-85666,-106869); (-54940,-139998); (-28696,-164460); (40310,-206940); (76905,-211274); (100739,-196760); (116413,-158424); (124532,-130271); (135260,-70274)], [5; 6; 5; 5; 5; 5; 5; 5; 5; 0]%nat);
  (264, [(-105637,28732); (-90558,-51699); (-63293,-86828); (-27638,-112588); (14191,-141295); (33952,-148615); (37926,-149633); (49911,-150386); (58807,-147711); (74537,-138057); (91851,-105678); (103470,-63160)], [3; 3; 3; 3; 2; 3; 3; 3; 3; 23]%nat);
  (265, [(-150387,50564); (-147712,30097); (-136675,-33899); (-126926,-68239); (-112026,-94866); (-91401,-122235); (-85680,-128270); (-49906,-163551); (-28732,-182543); (57085,-236182); (86350,-229690); (114242,-197699); (143772,-113682); (149634,-73781)], [7; 7; 7; 8; 7; 7; 7; 7; 6; 0]%nat);
  (265, [(-119579,55524); (-102366,-42769); (-85554,-79807); (-25282,-125105); (-15049,-132664); (25105,-158967); (42172,-165384); (53435,-165818); (69999,-159939); (82230,-152042); (103470,-114895)], [2; 3; 2; 4; 3; 2; 2; 4; 4; 0]%nat);
  (266, [(-165819,58948); (-153773,-20977); (-138058,-80046); (-126926,-99970); (-105678,-130863); (-55524,-183635); (51699,-258665); (86828,-256829); (114242,-226259); (142619,-181472); (165385,-81040)], [4; 5; 5; 5; 5; 5; 5; 5; 5; 0]%nat);
  (266, [(-132820,64477); (-114845,-28928); (-98380,-76144); (-81670,-94552); (-56841,-115352); (-36891,-131189); (10489,-164262); (34120,-178106); (47433,-183176); (61118,-183078); (64135,-181883); (82230,-172599); (91272,-165640); (118091,-120052)], [5; 5; 5; 5; 5; 5; 5; 5; 4; 0]%nat);
  (267, [(-183079,60842); (-181884,53613); (-155814,-81396); (-138058,-114560); (-114895,-149493); (-55524,-211397); (79807,-290820); (125105,-238222); (141296,-218885); (160032,-186395); (183177,-88398)], [4; 4; 4; 5; 5; 5; 5; 5; 5; 21]%nat);
  (267, [(-145411,65603); (-125924,-35551); (-98850,-89530); (-36882,-148593); (40023,-198093); (49985,-201904); (65432,-203826); (91818,-193251); (129333,-142300)], [3; 3; 3; 3; 3; 3; 3; 3; 3; 17]%nat);
  (267, [(-101914,36481); (-96626,4808); (-84574,-46416); (-67065,-80829); (-32239,-116702); (38709,-155840); (49423,-151769); (65595,-135284); (82132,-112708); (89502,-98603); (100939,-51182)], [3; 4; 3; 4; 3; 4; 4; 4; 4; 0]%nat);
  (268, [(-155841,78422); (-145411,-7102); (-128415,-54725); (-113130,-85960); (-90736,-119935); (-39022,-165655); (-4808,-188445); (50094,-222730); (74747,-227016); (105699,-214073); (143079,-151695)], [5; 5; 5; 5; 4; 5; 4; 5; 4; 0]%nat);
  (268, [(-113508,38761); (-107037,1338); (-96626,-43505); (-61173,-113439); (3551,-148963); (42772,-167191); (74297,-148327); (99157,-108370); (111365,-61271)], [3; 3; 3; 3; 3; 3; 3; 3; 3; 17]%nat);
  (269, [(-167192,81647); (-153206,-18333); (-145255,-43956); (-110210,-112820); (-94837,-135182); (-38761,-188256); (-1338,-212737); (46416,-238773); (80829,-255374); (145105,-226989)], [4; 5; 4; 5; 4; 5; 4; 5; 4; 19]%nat);
  (269, [(-127687,46858); (-110988,-45470); (-66103,-121707); (9167,-162373); (56205,-183556); (82828,-163264); (94223,-146142); (111365,-116954)], [2; 2; 2; 2; 2; 2; 2; 2; 2; 0]%nat);
  (270, [(-184622,65023); (-148328,-74431); (-109174,-143289); (-46858,-208517); (45470,-267447); (113439,-292506); (162831,-190317)], [2; 3; 2; 3; 2; 3; 2; 3; 2; 13]%nat);
  (270, [(-146254,32814); (-105774,-116919); (63958,-198452); (94128,-179954); (106369,-160891); (119387,-132664); (130083,-104363)], [1; 1; 1; 1; 1; 1; 1; 1; 1; 13]%nat);
  (271, [(-183557,-20632); (-163265,-84024); (-147098,-113776); (-116954,-164254); (-32814,-259695); (116919,-328468); (207121,-123589)], [3; 3; 3; 3; 3; 3; 3; 3; 3; 13]%nat);
  (271, [(-164235,47315); (-133143,-104204); (3271,-191182); (37216,-204152); (71645,-216642); (104259,-203247); (133006,-157654)], [2; 1; 1; 1; 1; 1; 1; 1; 1; 0]%nat);
  (271, [(-110176,26847); (-89977,-49140); (-77826,-70822); (-58477,-96746); (-23658,-140578); (58460,-193464); (99226,-84881)], [4; 4; 4; 3; 3; 3; 3; 3; 3; 0]%nat);
  (272, [(-235729,-23803); (-46323,-189782); (56888,-232431); (119719,-251636)], [1; 1; 1; 1; 0; 0; 0; 0; 0; 7]%nat);
  (272, [(-99736,-58095); (11902,-247632); (84584,-185887); (128111,-11740)], [0; 0; 0; 0; 0; 0; 0; 0; 0; 6]%nat);
  (273, [(-235730,-23803); (3693,-261399); (96746,-262074); (249023,-252754)], [1; 0; 0; 1; 1; 0; 0; 0; 0; 0]%nat);
  (273, [(-131037,34291); (-126377,-122646); (11902,-253582); (130554,-167222)], [2; 2; 1; 1; 1; 1; 1; 1; 1; 0]%nat);
  (274, [(-255829,185279); (-235457,-26655); (239843,-501961)], [1; 1; 1; 1; 1; 1; 1; 1; 1; 0]%nat)
 ].
