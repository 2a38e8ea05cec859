(** Generated by tools/gen_table.py: the points 2^i * (G/2) and, for each entry of
    the comb table, slopes and quotients certifying the additions that produce it. *)
Require Import ZArith List.
Import ListNotations.
Local Open Scope Z_scope.

(** The point G/2. *)
Definition half_G_cert : Z * Z := (0x3B78CE563F89A0ED9414F5AA28AD0D96D6795F9C63, 0xC0C686408D517DFD67C2367651380D00D126E4229631FD03F8FF35EEF1A61E3C).
(** Doublings: slope, result, quotients. *)
Inductive dstep := DS (l x3 y3 k1 k2 k3 : Z).
Definition dbl_cert : list dstep := [
  DS 0xC461E02C0BADFE70F163D1196DBF577F11EB85AFDA93B7636CC726D2532DA66D 0x79BE667EF9DCBBAC55A06295CE870B07029BFCDB2DCE28D959F2815B16F81798 0x483ADA7726A3C4655DA4FBFC0E1108A8FD17B448A68554199C47D08FFB10D4B8 0x127C365A25616193BBC76785F3C18C1EBE6ABB0F99461487A31CA28864CDC6F53 0x96A604AF1790637C44D54D34A3D7AF7E6E4FF501144C60B9AAC0D765354D9CE5 (-0x5D645239996051DA7C5829DEBF30DBA09A945E2503123AB0A5A126EEFD2F778B);
  DS 0xCB35B28428101A303EB9D1235992AC63F58857C2F631EE6936D3AEBBEDDCD1B1 0xC6047F9441ED7D6D3045406E95C07CD85C778E4B8CEF3CA7ABAC09B95C709EE5 0x1AE168FEA63DC339A3C58419466CEAEEF7F632653266D0E1236431A950CFE52A (-0x3B04FBED296CC1277F1659AB9A6F3FEBA665D74E98725EE2D39E827BC28878B0) 0xA14E3460FEBE2C2316BFCCCC1B764790C3B7D9FF92663EA740240F16B583E774 (-0x3C8B95972F12B04B3CA25330B2BD449E8E938229D1FD14F76CAE42249CE0DC11);
  DS 0x6AD2CB95963C033328D4857D4F8711DEFF557DD9FAAA673B400442833F0EFB64 0xE493DBF1C10D80F3581E4904930B1404CC6C13900EE0758474FA94ABE8C4CD13 0x51ED993EA0D455B75642E2098EA51448D967AE33BFBDFE40CFE97BDC47739922 (-0x1B511F0C4ACACDDB11995426B44BECF23D1A165EAC933B36C0DAE7F6C721D3035) 0x2C933E2A83BAC0C704D83956CE68E1A07920F532E04E27FF098C8C712D51733D (-0xCC0862604F39A0C08E4CE0B1D06B205A54268B6C11E626473E3A3A21A84DCFC);
  DS 0x9693023FB325CC6C7BC993EB684358EA623D5FEEA8FF351DF662BEABD0EFDC6D 0x2F01E5E15CCA351DAFF3843FB70F3C2F0A1BDD05E5AF888A67784EF3E10A2A01 0x5C4DA8A741539949293D082A132D13B4C2E213D6BA5B7617B5DA2CB76CBDE904 (-0x203E697A2FF0B71F15BBE8E0B1128A2612545720E641A25D3F0DA1B92BA257869) 0x58909B0E3B1D179E26D093A041C3E56B0E5FCD45C4D389144042C9DCFCEC275E 0x6ACBCA9638108E08374E790D2F8FB746C0F38F81A62038C77ABFDADB56826EBC;
  DS 0xBC380350880AB969E653D334691CA8C2DA83B2ACDE59E7439ED92D96A9654A07 0xE60FCE93B59E9EC53011AABC21C23E97B2A31369B87A5AE9C44EE89E2A6DEC0A 0xF7E3507399E595929DB99F34F57937101296891E44D23F0BE1F32CCE69616821 0x6DD55CCE46F1224CD99F821EA3A2F0A9EBE970A9B8CE11AC81430DC918B68ADB 0x8A62511FBB16418A37F7A5EAD3F099487B15785E66A133E078848957EEC143EB (-0x8696444C9F994992FB103911D7EFC9D6AF6D7BA29B92732DF8EC73823BB24FDC);
  DS 0xB68C9CB56C4F0FD3279F2DEC6ACAE3FFBACFB8384548D24892D676CD6BEACBF5 0xD30199D74FB5A22D47B6E054E2F378CEDACFFCB89904A61D75D0DBD407143E65 0x95038D9D0AE3D5C3B3D6DEC9E98380651F760CC364ED819605B3FF1F24106AB9 (-0x10AB9B201128EBE909E6B37287520FD58164CF175E3DECAF3A10F957CE0BFA99E) 0x822C3C0DBC5C7D8C3C32320B58378C5C160825393D62371CE9FA174521D13E00 0xD9690ECF0B9571B77CC0887EE3BF9FC63A5C7330CFFAD04355FAEAC0E641F21;
  DS 0x57AAAE4151A198790E40EB37FE0DAD5ED4D4581B1A82C40124B58AC767ED1EC4 0xBF23C1542D16EAB70B1051EAF832823CFC4C6F1DCDBAFD81E37918E6F874EF8B 0x5CB3866FC33003737AD928A0BA5392E4C522FC54811E2F784DC37EFE66831D9F (-0x1A3B3CCFCC7443B593002CAEA6E5CC086509C6BCE8BC4354465C8E5F864C2E02D) 0x1E05743C4AD91BE301D2B36FAFDB42772DE829193A4A9E64F4882F9890335C35 0x6CDA36C32ABC46E74112F34DB81C84C8EEDE3927BB247626DF1E0BDEA815270;
  DS 0x875978642D00B859133774FEC1878F9E7623F6DF9C734F7ED297E920A77B4406 0x34FF3BE4033F7A06696C3D09F7D1671CBCF55CD700535655647077456769A24E 0x5D9D11623A236C553F6619D89832098C55DF16C3E8F8B6818491067A73CC2F1A (-0x14A1CFA9FEA71DE68E71E2BA70B5D638C74F6DD5926C1A65B4B1EA2D5127C49B9) 0x478F7C3E95BC1E51FD80A25EDFC36FF0EB8D5523F1EE56A882E1AA48E6DDCD40 0x49098A07B728AAAFAFF50D946BF2D2A513AA2FA43789F3E06840D7EA9BC98E5B;
  DS 0xF0D3817330010DB820C7710C8EE17A157984F4BFD3BAFBD4A49079EFD7754990 0x8282263212C609D9EA2A6E3E172DE238D8C39CABD5AC1CA10646E23FD5F51508 0x11F8A8098557DFE45E8256E830B60ACE62D613AC2F7B17BED31B6EAFF6E26CAF 0x8F3723C85FF3164DB3A07559B4963E07950769FD94B7A173E978889B3444BC4C 0xE28D41769F5865AB14C24658822FC9961AEADB95B0BFE9FE782F4A0EFECE7B64 (-0x48EAC5C2254E673B8F140471C905697727CF02E9FFF1852FAD4E9E3E0CD660E7);
  DS 0xED7816FE6CA3E42058B150C9EEAC31EF8A6BDA7EE9E51A0EC33E09F96AFC74BC 0x465370B287A79FF3905A857A9CF918D50ADBC968D9E159D0926E2C00EF34A24D 0x35E531B38368C082A4AF8BDAFDEEC2C1588E09B215D37A10A2F8FB20B33887F4 (-0xA6420F67637BB25071E77CE944474FE9DF3CFBCFC86659791D17EBCD2533BDC8) 0xDC4792E8A5BE0591B11466A7B249CBA8F2A33A30C8468E1F561A5045057941BD 0x37D37953FB0FA4BD1DA2E0C78A3D18E7906EA3D2BBF400F5C11966075D72B11F;
  DS 0x62F219D148D24EFF34FE56735390098E29B6A2190DAA3DC0FBD1D33B92531A49 0x241FEBB8E23CBD77D664A18F66AD6240AAEC6ECDC813B088D5B901B2E285131F 0x513378D9FF94F8D3D6C420BD13981DF8CD50FD0FBD0CB5AFABB3E66F2750026D (-0x104BCC3D6C16AAA6E41DE7CD3A7F9DF365FE8717877572D43F3D2EBBC048B91D) 0x263E40B90E093D69CE9CB94F331276DFCA50FDD5D52899F82B416E3F11684268 0xD38110E4317D0EC08C09FFD9CAEBCA5FDBC0A7CE9F3C36D91BE61730894D5D3;
  DS 0xDA8EABC70379E66AE8E505F49DEB2E1B4906022DEF4C45EC320E33AED7091903 0x5D1BDB4EA172FA79FCE4CC2983D8F8D9FC318B85F423DE0DEDCB63069B920471 0x2843826779379E2E794BB99438A2265679EB1E9996C56E7B70330666F7B83103 0x7B5B31118E706A6F8D21E90C3E5EA4663C618A515ED94CB62815179AF21E1BA5 0xBA974C11F5F6F104F4A38F0164419677E70A8DC4D1E0C492B7E51BCD3A94D1C6 (-0x30A64C00FF8A9A57AE5268B8915895FFDC90BCC50A5F4835A3176AA1164C157A);
  DS 0x6C49014B33417076ABAADC7958F95908E93DD2886468BD7D27D61CEF7C1FDFDD 0x175E159F728B865A72F99CC6C6FC846DE0B93833FD2222ED73FCE5B551E5B739 0xD3506E0D9E3C79EBA4EF97A51FF71F5EACB5955ADD24345C6EFA6FFEE9FED695 (-0x4387D42D834CE77C2BDFBB0B5C3CAC71A4050B08B24C228CA392B55EBCD59C9B) 0x2DCDADE930241EB3DA0207E1A22E90F4E54B1654EF831673A369C13514D214B2 0x1D7FF2DD811340B382FDC822936038D852438A2146B088D8AB34010335A40240;
  DS 0xCA43B3AB114E7C697FEE873576D7B89F909E0592F9E805E00246C31200FB967B 0x423A013F03FF32D7A5FFBCC8E139C62130FDFEB5C6DA121BCE78049E46BC47D6 0xB91AE00FE1E1D970A1179F7BBAF6B3C7720D8EC3524F009ED1236E6D8B548A34 0x1478493006042606EBAF3A073842EC13860FE45DC5DB3CDF4018312111FEE64D5 0x9FCEE97180F397EF7F1EA6A9AF040C9DA7112C47F135895F18340817B5F96AFF (-0x21DCDD8EFD150C268BEDE9C019716BBFA25AA10B288F800C3643785B508BA348);
  DS 0x1B5D9CDFBD96D7EAF397653B120ED6CB0F4BD05BF004F79C2A9FD0BCDF4929BC 0x111D6A45AC1FB90508907A7ABCD6877649DF662F3B3E2741302DF6F78416824A 0x696911C478EAFFBB90D48DBFF065952F070008996DACA4CA9A111D42108E9D0 (-0xBD2D5B4B69B8EAE1DF0BFC0AC9EC40498DEBEFFEDA634D668B3379E7187A574) 0x2ECE1528CAF03C02071834190FC18B0CEDEEA0605E73D1A35C9A08E6510E906 0x53FF9677D1FFE6AD3A775007DDEABC1B0FF47B13574906BDB2D6D177386B2F4;
  DS 0x6FEDF4339B46436D0DB4E1864076FE618C51A754E1C0ED5708B889C5733613E 0x4A4A6DC97AC7C8B8AD795DBEBCB9DCFF7290B68A5EF74E56AB5EDDE01BCED775 0x529911B016631E72943EF9F739C0F4571DE90CDB424742ACB2BF8F68A78DD66D (-0x31295687438B3691E3D17D8DAFEBB1045D575330197EC85036975CE382D6854) 0x30F036F2D126D8F6968324FF42731EF15EEB7688F83513E3844FC2EACE0AF5 (-0x18FFA9BCD5A0771EAF92F0FA74C4B5F3DC5C9F27E00CBAF762A52D5D2F19209);
  DS 0xA377FFFF0B36D0535197BEAD9992FEE7698334FA5BFC270F64D511CC9AB7C03A 0x363D90D447B00C9C99CEAC05B6262EE053441C7E55552FFE526BAD8F83FF4640 0x4E273ADFC732221953B445397F3363145B9A89008199ECB62003C7F3BEE9DE9 0x28CF04B1CBFE92D8768178540EE817B905160AC1EEE61D1A85C9BF4546C1AD57 0x6862083EC76250AE5213DC10E6D2A32A6ADA8D51E30E61FF447FC6A4B31CA726 0xCCD96B79F4C0B76F998C898D50FDA9757E88F96DD1D6B7ECF22CB0BB98CE214;
  DS 0xBE610814DE113647213FFF8FC6378B31333E2BAC4AC437FF9A702A6734563C9 0x4C1B9866ED9A7E9B553973C6C93B02BF0B62FB012EDFB59DD2712A5CAF92C541 0xC1F792D320BE8A0F7FBCB753CE56E69CC652EAD7E43EB1AD72C4F3FDC68FE020 (-0x2205DA3DA20D2694587A87007F1B0ADFFC57375F6010372238068EEB7D646242) 0x8D942CC619B325313DF8FA55E5C71316B73C92E0C7EBBB2DF4D2261A408AF0 (-0x104313706E420E07202194031D638C56D395896464C74366718EAFF086645CE);
  DS 0x92EBB512788E5C3C7A3BAF1FEAF8281104D50976AEF98BBAC62A97BE2D8B7A7B 0xA4083877BA83B12B529A2F3C0780B54E3233EDBC1A28F135E0C8F28CBEAAF3D1 0x40E9F612FEEFBC79B8BF83D69361B3E22001E7576ED1EF90B12B534DF0B254B9 0x9AC262009B89C175CBD678A06FD84F5402C686A24698D987284ACA6056EFF453 0x5451B38F017ED660CDACC050A98F48958C36DAAE31D09E1AEAFAD0BE1C77641A (-0x3275E7B129800AED4A29E992243F38AC08A7AE21B931F0BB29F8348A56722D47);
  DS 0x9B0F855EB9BE64F095AA255167F0F0BAF01B2CD3CC72EF8F1444747071666278 0xA804C641D28CC0B53A4E3E1A2F56C86F6E0D880A454203B98CD3DB5A7940D33A 0x95BE83252B2FA6D03DEC2842C16047E81AF18CA89CF736A943CE95FA6D46967A (-0xECAC6ACDF617A12C0FC3CAB2CF7B069A048C3961FE6344FB5E0E0A7396F6DAFD) 0x5DEBCC719B81E297ECE66ACF5C5CD90C3479AA2D47D460E8E685A54E458B6BDC (-0x26A27B95AAF6D1C9E9DD930D18C059DA3DAE6BC39E15846556D58318A76CE85);
  DS 0xC95C70EFFEE378EE51D4695A7E30804DB90A8FDFCCA618C180CEC3EC5C83B500 0x8B4B5F165DF3C2BE8C6244B5B745638843E4A781A15BCD1B69F79A55DFFDF80C 0x4AAD0A6F68D308B4B3FBD7813AB0DA04F9E336546162EE56B3EFF0C65FD4FD36 (-0x5F417DE978A22EDFA469E24DEA0573F9085DFC70F76D02F457FD2960ED6EC854) 0x9E624ABA3C93476A1C1EE0CB1425AC0E200806A56469FA72C409926DB514D680 0x1697F14E3CFDD54BFC46C4B390E76F70DBF980D8C8D01B56F162416B83C20EB0;
  DS 0xEC7E64A924B93BBE0B71CB15729FF63848D6104AE7D55A16ED4A41D45B8FE684 0xED0C5CE4E13291718CE17C7EC83C611071AF64EE417C997ABB3F26714755E4BE 0x221A9FC7BC2345BDBF3DAD7F5A7EA68049D93925763DDAB163F9FA6EA07BF42F (-0x5968060BE05E4550A107807A5D46FF6EF624D4321CAD7992E1BA5DBAD1798600) 0xDA7947FF19CA40EF6CAF0B245130593D7386691FE132793106E05A3DCA8183E6 (-0x5A4E2D67463497086E8F4A0565B68EED5403CB63EE254077874028156D100D63);
  DS 0x4A97F998B50E69D9B7F9C654687B8490E7F4A168B22EE05F0491F67C5BCAE6B4 0xFAECB013C44CE694B3B15C3F83F1FAE8E53254566E0552CED4B6E6C807CEC8AB 0xCC09B5E90E9ECB57FC2E02C6EC2FB13D9C32B286B85E2E2E8981DFD9AB155070 (-0x27E9FCB816F540970A38EFB8F3BB1794B7B6EC1B1546063D8AFD671A732062D4C) 0x15BC3684AE2C578048480C3CBE2205AFDEEEFC3A383C1028DDB1105441B292E7 (-0x40B14E41637F2B157C565D83E2950266C9F2B651777595E52FEFA5006B9AF2D);
  DS 0xC0B764BF04AE63359BEB2B4FC6F722F47DA0482483379A58CA50AFF8C2EA4869 0x9BB8A132DCAD2F2C8731A0B37CBCAFDB3B2DD824F23CD3E07F64EAE9AD1B1F7 0x945BB2B2AFEEE3B9B6F9DD284F863E850F54A840F4752D5364130627C3811C80 (-0x1AEA680DB6DA70879FDF3FE19077A44C6C265CC2A38BA6A90464722C97C4D0825) 0x91139A7FB7C410527A5580E2A973ED19DE91A4C86CEEFC4DF3C5D842DC61FF7C 0xB591A58DC639CC68EE6B80D560BC0B59536BEB3A30AB739AB716F9C10557BE5C;
  DS 0xB9F84ADDCAB19FB53A62E79564F6075B848477821DF6D6C58668D8E9B2501575 0x723CBAA6E5DB996D6BF771C00BD548C7B700DBFFA6C0E77BCB6115925232FCDA 0x96E867B5595CC498A921137488824D6E2660A0653779494801DC069D9EB39F5F 0xD670256D7DEB08454CE883BE32981339DDC4537D27C02BED4C770DAEF2E73483 0x8718CD05B2926A4FA5036246D666DAAD8CA3B5A3C98E7D865DE6E8545BD1131F (-0x4BEAB7D1B16E8543048C13B33D73F80D14132747BCCA21662F6DBC1ACC88D7C2);
  DS 0xC985B179CAA5BEE0EF6ACEFC42C0DEC227B196C5DBD0953CC43C5868392E7CD3 0x57EFA786437B744D343D7DC45773A3C62D240A43079849071FD383D60CA030D5 0xD712DB0BD1B48518893627C928DE03EC689B6D2AE5E9974AB07AB44274B02F9E 0x54A823A57DA8AF30A8BE0434766AE1AFC6D78EB92734CC2507B3E0F6EFC1A7B2 0x9EA3368323CE7A1FF0B9F641CE3C90557704DF763321E14B45E35824EAAE12A0 0x14B4404B5CEB4C2C32FF2F4C679F8AC58AEE29F289033D697669B1C2566E3A7E;
  DS 0xA6D04E5B19577537DB75701165CC1AA476CBDC92CB167D90AF93B785D698742E 0x264BBD436A28BC42A2DF7E9CD5226CB91080577E327B012A7FAFC7770C584DD5 0xD87C6FA94EE093B4D4F75CE24C33BE226A118243717B8D8DE61227937704AB11 0xBDAC29B962115EA33A0A115AE783FC7DEE05691E6AB124BF8C407A598878B073 0x6CB2CF1D90E23DFF3D7E7E640C92991E4765D6B76B6F46CEC27537B1A8C3894B 0x2058AE474ACAD1D6BA1A83B0A8025EFA6CDF880696DE36BF4A6899E681506C7F;
  DS 0x4479D94C2F98166B4C1D24655334F9BAB459CB5A6C074F1E9BB5B9EA97B6A18B 0xA94C6524BD40D2BBDAC85C056236A79DA78BC61FD5BDEC9D2BF26BD84B2438E8 0xB5201FD992F96280FD79219505019E3A7E5D3C60A0E39B2BC2E2C8DBF18661F4 0x62A078ADF0CF64E9F1A14EC0AE8D3742C3DE95D9C8838D3019F9614BAE96E625 0x1250F56F9BC0090A5305D836DC51E3FE9F40680EC79AFBED8FA63C9E881374C9 (-0x230A8719BE6D755DEB0A1A8AA993F98DA9304D2C9426822F51AE76BF78C5EE8A);
  DS 0xBE5AAFDEB2F0B1599D1B413E816D0AE93363953C3D97E4FD3AFED1C367F9596D 0xEEBFA4D493BEBF98BA5FEEC812C2D3B50947961237A919839A533ECA0E7DD7FA 0x5D9A8CA3970EF0F269EE7EDAF178089D9AE4CDC3A711F712DDFD4FDAE1DE8999 (-0x4285DA49BF5468A41D4B91F6E39DC72ABB96589A72FEC0CC2E28FDEF6D45D488) 0x8D8ABD2EB30552DDA136A12807E6FEACF10E413EA6B6B639125CA53D523CA891 (-0x33A4237F1808BA9E406CEDB0A59C1AC31D3B27A8E9E005C420D5745315312A79);
  DS 0xA6A6F72A0273AA6F7B6276E647117F1C0E9F5561A551C6238EC167BA7AC03635 0x381C4AD7A7A97BFDA61C6031C118495FC4EA4BC08F6766D676BEE90847D297FD 0x936AF53B238EEEE48F3E5FA709915ECCF0451032DB939C0093ACE3187D493FC5 (-0x2221C2A4666307762F95D1F4688E7AB60F2529DB6FE40017C62077045982A178E) 0x6C7CF56FF44B46A99D74C57DA41CE0F9BD2448B3A952547FD63066ED6EF96778 0x76E50A9BEF7676950E7D97600E37B41148CB63027B6939B7B770F18E36E8CC6D;
  DS 0x8DEE3EFCCEC9FBD528BCBDFC380D106F09AB41277D36C65ED6C4DC4784EA857A 0xE1EFB9CD05ADC63BCCE10831D9538C479CF1D05FEFDD08B2448D70422EDE454C 0xECB4530D8AF9BE7B0154C1FFE477123464E3244A7A2D4C6AD9FD233A8913797 0x7E9109F1AB6D237B52C6233D46453E5890E4548AF0E459F783E8CBE2A48509A7 0x4EB04F1BA95A6CCAA9E464453058399CBA2C109870EB3BDAA97B0C93F41DD782 (-0x5E27807737148C8A1D60E704012CF7D449C4F154ACDA8F41F0893AF414939B9E);
  DS 0xDB3E8EC5D990EC59421E6569D96DCDAECB7F725432C5A4DDB78439AFBFE5554F 0x5318F9B1A2697010C5AC235E9AF475A8C7E5419F33D47B18D33FEEB329EB99A4 0xF44CCFEB4BEDA4195772D93AEBB405E8A41F2B40D1E3EC652C726EEEFE91F92D (-0x23CDECBED11CCA3538EA823A592DE789C524BF2AB7AF7D8E95A246C2D91901BE2) 0xBBC4178FF9B36CD88A81D1AFC5474C5DC2E536B9E0F0ACC77F9B2426666E05EB 0x7A549E0377C36BEA062B4B76D3A56084838CB9C1278F396E189F824C9006482C;
  DS 0xF18FAD968CB987ADC7D7C35FC6AD8974A3FCF82A55E9400E7BF3015E6B558A5 0x100F44DA696E71672791D0A09B7BDE459F1215A29B3C03BFEFD7835B39A48DB0 0xCDD9E13192A00B772EC8F3300C090666B7FF4A18FF5195AC0FBD5CD62BC65A09 (-0x341AEF8155267225B84F83C1129EB67F111F4DE69D22CF122D1C900099807232) 0xE3EFD578D8DB5B76BE90D381DBA2ABB6F39F69EF7B3C3E43D78758F5AD0F6F 0x3F41C31F9C9C69FFF2B320DBD3594391FD551F32BAD14B8B9969D4A7703A652;
  DS 0x82CD82212AE9DBF4101C8671A40DE941C0BC39B23359C41063B171FE4CBF7C6A 0x8C0989F2CEB5C771A8415DFF2B4C4199D8D9C8F9237D08084B05284F1E4DF706 0xFB4DBD044F432034FFD2172CB9DC966C60DE6BF5156511AA736AC5A35D72FA98 0xCF560C624E549B7B75C9DFE917C089BB70899EEB05CE5C35FF039911533569CC 0x42D55D235AD9F1CFC01EED52110F1F6251A63FE8D72FCE0A0C99268CA0D158E2 (-0x3F589D84DF18F008B2EAAFCEAB870480909EF201D86300EAC81C1653B4F4D953);
  DS 0xC5AB93DAE7B4D1D3C5EDFE8BC49FA6BA5566B166494B830B6CF082231FE99F39 0xFB8F153C5E266704C4A481743262C0259C528539BC95BC1BB1E63C33DC47BFFD 0x6CA27A9DC5E0621816FA11D9B4BCCD531DDE1389AC542613090A45DDD949B095 0x9E47335685A3F69DE417A2BE480CA26797FC0CF14AE2C708DAF4104A53F423FC 0x98A1848DC472F7C95A311A1583FDBE2A681EAF83C027ACCE20C6A2FD8B6AABD8 (-0x561C82CCB1289B0635CF65B3E76959CD0F84037300F8739A0E392C864CE97894);
  DS 0xDE12036F73E80356F7DB91954E2CA46C56DCAB93EC4EFDA7FA9E72B8B3A2B20A 0xE747333FD75D51755A0CC9F0A728708465A02C587737A7B8B8FA1B8B4BB2629A 0xF2AFFE0145070C114CC43603804C2581C88376AA6E1A969A9F8D961A6946F6D6 (-0x2291C946A0BF46F28FD1DEB7521DCF764A2A4477DA8A6E9C92DB5A80B433CC639) 0xC0A33F39C8BE7FA875DCDFDFB2C1D4E07C369CA29F61911A3E83C7EC9D02D330 0x1197C34C8CA378D5A7CB32A416AF77900517029730AF857795A7BC9553B386FD;
  DS 0xEAAF7C28DAE8DFA52783D0B7EF5EBC91AA999F58DB631588E00A05856DBEF4CD 0xE1031BE262C7ED1B1DC9227A4A04C017A77F8D4464F3B3852C8ACDE6E534FD2D 0x9D7061928940405E6BB6A4176597535AF292DD419E1CED79A44F18F29456A00D (-0xB5DE42807EF7FAEAC174CACD6B51F3C6388E61583093B9E142B6E7AC72C56BD0) 0xD7254745AC449DD26CA852670E7B2165DC0442973B7DEB7F559E4B0A505818B8 0x5BE88F160C3DA00C5E65CC0EFA23D8963F62F994E28B4ABF41C99126F8C597A;
  DS 0x27923DD35874B9D0C3E1B1930352C0C3B0D91412F38FA8C1341F5A73BEB4F8B9 0xF4B93F224C8089EAB9F95DCD0F29B2C9028A6AC5DE94D85784E27E36A95C8356 0xA67A92EC062962DFB0E5F6A7A40EEE90C37EF1344915609ABD5861B9BE001FD3 (-0x220A74733606E362E6D838E91131CB2614A5F6F517FB18D013D79EFC2A7D9A2DF) 0x61DE260F8F2DC641D5671FE3E19DD05802B6D4D77E5D2DDDEEB5C649563D2CF (-0x30C020183634C80539172DE50A073A35681439960889802EE4BE6E4A2F2B74F);
  DS 0xD8880A7AE61955A53B91EF1D5DE7F4B9646AFD475EDBBC8974911329E12FBDCD 0x9D1ACA1FCE55236B19622EA025B08B0D51E8512F97E696C20D62FE17B160E8A 0x1153188F5101F0C63E56692CE0D8C27E6FE9E0EE9212B5E534E050C57CA04C44 (-0x1A4352B65422C6D32A060E95804F8CE58A213F8EB6200B203B728DD1BAC4469A2) 0xB725D9FA874D106BEDBDA11A8968671EB7E0704BE7BA270241A962B6CB63427D 0xC6B0383FE88D628A967A4B3374DDF9C6A4CE776F9360CD6DE8B8F97F19C9A2CB;
  DS 0x8676B3EAE525414B100A173E847E521F75A5C46AE628B3858B1C1FBCBC59DAF7 0xC66C59CC454C2B9E18A2AD793821CDE7518B3A93BFC39562E97D7D0475BA7FC2 0xD9592FE2BFB30FCFBEA4F3CEAAC10CB2F00A60DDB15955977EC3C69CF75F5956 0x1111D10E821E5A493E5805935A47A2AF94DA445396B2FBE4B738F49F9018EDB4 0x46A07B6442E092AC94835B868A5632A799C50B21501075739B6B332DF56E0475 (-0x63106A7D28ABDDD6DA9A1EFA65C57DD78D6BE6B1DEFEA936BBE46A3EE2B464FE);
  DS 0xF53ADE417A0D913B3B9E411781E6E8DE0FF1A6B169CA912FE5495F51C90530D8 0xFEEA6CAE46D55B530AC2839F143BD7EC5CF8B266A41D6AF52D5E688D9094696D 0xE57C6B6C97DCE1BAB06E4E12BF3ECD5C981C8957CC41442D3155DEBF18090088 (-0x2CFAAED409E0AA6B343AB3719D3271B797DEBDE12EFA2A4D581DE574A278BBD4) 0xEAE9BAF2CA3EE68FEBEB56EBC3C7B4F1D50B6434542093974B6EF659254CD8E1 (-0x361DA5AE59FE7FE77B0926417CDB13048A8813258C1E0F999CB3919E9F7828BA);
  DS 0x32F78AA8DA44CBC85C1D785FB24F0E7F0DA8EC5386523D436BB3A50D1E52FB8C 0x4D000B621ADB87E1C53261AF9DB2E179141ECAE0B331A1870AA4040AEE752B08 0x6A0D5B8F18E0D255CB6D825582D972CCCB7DF5F119C7293A3E72851F48302CEA (-0x29E21AA577E947FF1D8D971661E2BD7A327DE2391F4B7C74D8CCD45B7389E2D75) 0xA25A186D2328B0CE0B5FBBA78509FA09884C4AE0FDDBAC11B1AA91B1691E2B2 0x236BD082730989C579C4A37FB62F2F63AF147F2E4461EC910DC75E9264298F56;
  DS 0x2C5EDB78F874848D89CEB49FA59A1FF38BA3A6605F567CA67BB74A6E78C097D7 0x71F570CA203DA05DD6AA262114717128D657A0403E1F1B77F89962FD475C58EF 0xEB42415B95DC880DD25557345BC95B8DF2445D00C3363E7DF8649A72D35D420E (-0x20B7E56B8B52477C8ED413DCE38272D418486B06ACE054219D3B6E662580768C) 0x7B0BE977E66B5633878A63700E4B8D365B2A30E773CF37429F64AA0E34CB30E (-0x667DF3881C4E829712DBCE3F84444604B9CAFB317016B42F06919A510CFC757);
  DS 0xDEBCD686B581F6645F94A93467D0ECDF9E4AD7EDEEDCFEED57D9D6364C78D427 0xA2B7B3629F7BD253B7D282B5C21DA01446B4821DC65E76516048B06043FF8359 0x693038941695122D57A937A3F71E29C910D10835046F3835A2397FECFE86FEC2 0x10132324AA38DE45CBE6B9C79593A1E65702CA96F433C7554D533A3090F641DEF 0xC1CC0F5D6C6D7C8FC5E1011431013040E05AC70F323F7C05374F90BAB2337266 (-0x2A6C6D453241D117AD08179952492E90264F7D9473E67C781F7BE0CDF2B1C4EA);
  DS 0x81751B61F3B4AD7169D8AC62378ADC14043339E3A60078FA2BF394C804C26E20 0xDA67A91D91049CDCB367BE4BE6FFCA3CFEED657D808583DE33FA978BC1EC6CB1 0x9BACAA35481642BC41F463F7EC9780E5DEC7ADC508F740A17E9EA8E27A68BE1D (-0xCBE432F6B2C45B68FA24ADAFB3022C0C99F595D65DB68931D41B776847576B1D) 0x41773B2AC212A8D589D8FAD82440BC210DC692DE71F45C5818E6B1E5DC2750F3 (-0x1C2924335FC07896590A25980BC056369203E56969626F062D6635CC3910A351);
  DS 0xEA6EC05C50822815AF2653E43C1ADABB3BE24E602591C72373D731CC1A44A051 0x4DBACD365FA1EF587C0C0CFAAF00D8718BBD9F35CCEA5A835EE3CC821FE741C9 0x16C3540E8A51892E7FDCFD59E838299D0CC384A09FC0535F60BE10F8338EB623 (-0x111DFC880AE94AF33E82C7217A6FA69125215107A19A2AED7006F49A271B0D487) 0xD6AEA792A30DBB2F49D387D7012C0513C57B94CE194C58854DB63D45FEDA9D6A 0x80D2DCFC2FC561A802A26C9C240641B035BF2336438BB709D86F03CFF162C158;
  DS 0xE60635D4ED2D254E05003B55D58BD309CCE50B703F8DBF6D4700A65D85559A25 0x13D1FFC481509BEEE68F17D8FF41C2590F4C85F15268605087EDA8BAB4E218DA 0x6008391FA991961DCECB9337B1B758BDA4AD01206D5BD127E0DB419DDB191C19 (-0x1DE5A17FD7679964F07F1944ED01D28B68944E555C146D2592809E0FDE5599BB) 0xCEAF28E12B7A187450995CF3FCD0E783FC8EB49EB8ACCD328B04975B09A395A3 0x340890367B61B8BA95FCBA53DEFFC80B83227FC04A4B632558DF4810F42317E1;
  DS 0x7471BC58C865F770A22BCB1E2465507731B3AD17D19C55C851A736531FEFAFAE 0x219B4F9CEF6C60007659C79C45B0533B3CC9D916CE29DBFF133B40CAA2E96DB8 0x24D9C605D959EFEAF5A44180C0372A6E394F8AC53E90576527DF01A78D3B6BC7 0x52C23FA572C43B1C14356C9B4ABED3B19310BE38C0E4535B4A62AD4DE4EC89F0 0x34F74538468FD762AACDE1999D76CAF70FC377458FBA5B941D568C22034084A8 (-0x645582EEF0E567CA1B23F150258A06773EEDD9BA6437D82B180BD819976CE7C);
  DS 0xC84B8BB00E0F4407E49FE1BE00895DCA6D817C8CE64CFEBB5D67625411BDE644 0x53904FAA0B334CDDA6E000935EF22151EC08D0F7BB11069F57545CCC1A37B7C0 0x5BC087D0BC80106D88C9ECCAC20D3C1C13999981E14434699DCB096B022771C8 0x2C6DCAFA73FE6C863E18F27415E11F0AB9BA17F5EAD495848D7366326283C088 0x9CB6208E3B58BF961B7D8FE1092825FFA19CD2B916C610AA6A7313977FBF2720 (-0x27162613A3C0140EA4B269DAAA2B56DD1F7FF207A7BB1BEA44A274970F419C81);
  DS 0xDFADA4B2106CAC4951EC538F3D828576D57426EBE0D870D5E091E5B044AA5639 0x1A575AF9D4146753CF991196316995D2A6EE7AAAD0F85AD57CD0F1F38A47CA9 0x3038F1CB8AB20DC3CC55FC52E1BB8698BDB93C5D9F4D7EA667C5DF2E77EBCDB7 0x4E8135DD97FD642AFB502064D179B174938CB3A12874597604BDA1DC3A95C1F0 0xC36FFAB63B3C27EEACBDBD94308385DBFAD275BBF2F1EFD2EEDB3FFFCC4111F8 0x47932449E2339287A45B7F4534A5C3A4BECD9324390B6D64352AB68CE281BF60;
  DS 0x51EE9A34EEAD0AD899A54439D004A42A2F3FA11BE3C4773C1DC6457062E3572B 0xF5F0E0437621D439CA71F5C1B76155D6D3A61A83D3C20C6EE309D755E315565B 0x6B9F4E62BE5A052BF62189160DF7101AA5BF61BF3ED7E40A678430AFDD2ECC82 0x1ED5CB67FB111B420892C7D794C43BA44634D2984517AA30B6A4507E332580E9 0x1A38DBF8965904B741D77A73193F95C44915F3D0CA8DCA55C236D04790D2C834 (-0x4E2F8DFDBE4482843E5875FB8E0B3DBD85FDB7D0CC825F5DA186D116B6813611);
  DS 0x602C9992D00CC6030985312C38033BCA60CE74F3A25777862A7288488389CDC1 0x8F506F0B6C0B6E9A57A7F36D970CA4E347CBC92146227642CBE781D9F5362D33 0x469F955D2AFA61719530C5424F1C336848CF925D43BB8EAF30487D0C87FA243F (-0x273F7D5064C2720AC1A414D7548049CAAB349431925507DAA8FAEC262D62DDEA9) 0x24217AF342A1E9C7948569EA3AD2A67FD008EB2226F76E30D454B42EFB1C69E8 0x268E0B9937FCACD68C0C1C4220F48E9CF647BA267CBB99F84BCACEF3E4F9DB49;
  DS 0x2CAED624594A3483AD98859BEF75A97ED7CC509BD906BB2B23FBF9FBE4E5004F 0x8E7BCD0BD35983A7719CCA7764CA906779B53A043A9B8BCAEFF959F43AD86047 0x10B7770B2A3DA4B3940310420CA9514579E88E2E47FD68B3EA10047E8460372A (-0xD8098D8F20BF73BCFC1DE03569FC924641A242782FA4F6BE9FF64262DE27FCB7) 0x7CC91044B3BAD5DF27C028D022A69BED3D1281C2DE52A6B318E9E6A1142CC8C 0x251D0FE794F8D9F24D5C2A5C5FB106E6CAF8F1728F8BB3D028AE73606FB385;
  DS 0xFF486A88AC95151D852A5270924D4CCF1FFF7B676398E499D324893A4BBB576C 0x33B35BAA195E729DC350F319996950DF3BC15B8D3D0389E777D2808BF13F0351 0xA58A0185640ABF87F9464036248D52BCAA6560EFBC889B702BC503CCCB8D7418 (-0xCC91C5C267B4B96691E7CF29FD9F24BD6E72B42858154531A50D2BB846FEAECD) 0xFE9158B861078BCFF820C4E06D10D88EEA026D7AA3EFEB8B7EE641E481C7381F 0x5A875717B25FA1D6C1D69018948F0778A17A8CD36ECBEBE11028151D97C1E25A;
  DS 0x8309B9CD7CAF364F8A4726B848E574837A1498176583CD38A99BBF35C27C0E01 0x374DEEAE22C93F955CB83AD2071F7E2256F6E109CAD7BCA6D71DC7B24414BB36 0x171165B64FCD4F9916032C06F806F7293828D66300E543217875BEA98DAF734A 0x8A24F50091D51CFACD01D4B39C8EE1D3D28D93A1D9C94C30A017FDB44CA5C743 0x4312F486E4E8B90D62F2B067F9B3F3B73F94AAB58FCCB4D380346AA3FF7E4127 (-0x1D83C47D4BCF751CED405A6580F5150665620F03DD61BDC852DC2DDFA812A69);
  DS 0xC3A088DA9A740FBEF9A36DC94890489302DBF3A200C6AAD18428714F41D62EF0 0x2380C09C7F3AEAE57C46E07395AEB0DC944DBAF2B62A9F0C5E8A64AD6AE7D616 0x6F8E86193464956AF1598AEFD509B09A93AF92148F8467560099BE48161BBC1A (-0x964D7C0FB3A0610B8BF527CE126416D45F897AFA14E91A383F9F70C46B7454) 0x957DF52861B6DFD75A9C9798B98626BDE391B0C5B90EF9472194D803F02A3DE2 0xF21B4EA23C0A54711C056BE16EC206DE776D55A92758318971889262A449824;
  DS 0x9A1BB41D1A00D1B60CC94B47FE3B071DD38189836C875B949A5BB1B3744D5622 0x385EED34C1CDFF21E6D0818689B81BDE71A7F4F18397E6690A841E1599C43862 0x283BEBC3E8EA23F56701DE19E9EBF4576B304EEC2086DC8CC0458FE5542E5453 0x778A3E1C7D442D6600AEE87BAF15AEEDF8B4FBCC6A059E55E65B853398224784 0x5CC557B28025685B518490DC1CEA9677798E17372E8EDD638B53191021329BEA (-0xC8FE8F0E2C03D5E1F83927CE1A10E94D4B7945F42830EEB350A8E9B4FBD978B);
  DS 0x738FD7BBBE9AFD0E286FA67C1B3D9D1D4306CF1D91327714EB87D7E6678BCDB6 0xF6F622083DAF54800456BE134D5F67D147C82642BEFC1CE2DC83A27078F2827C 0x1BCD4E817DE73A0FAF2C5715B367CEE7E657CA7448321BF6D15B20B520AAA102 (-0xE9F45B5861C8EB322816215DBB69B91E08621F30BF8FE981838E55950241F8) 0x342A8CA566CB1459C78B64608F14D738C23E82811DB5A1C8489D717DAA1A9B1C (-0x560903CE46813C4E69DF99656D7A6D1B5BB48C0264D487FD1602A44DC2FA2DFF);
  DS 0x245DF8C5A6AD254B4C4C56C0D969CACD2EA321B08B1ED4D55515F34D582F7420 0xFB26E5188F953DE2BD70CB3C3D1FC255CD91C3CE7D8C6F369D893209715ADCB6 0xF3E128811012A34D58E846A719D0176916D2CB31B8B7AB5449DBCA3B58BA68F3 (-0x2C2D3BADF9CF50512A306A0DA6CA9829624D1CB705114C135E6E45237AA7E6B50) 0x52A9076483B57D3B16D330DAEFDDBD5DB18784245246DF99E34CE690067744E (-0x986537A1AA744A19C5CDBB7707F824B84564A6A6154D1BF65FD4189B09B3DB);
  DS 0xB51B78655A4E5A25C8C18DD20190B5571B736E586729FE907B550841E1B6724F 0x8991225911B9132D28F5C6BC763CEAB7D18C37060E8BD1D7ED44DB7560788C1E 0xDA8B4D987CC9AC9B27B8763559B136FA36969C84FDEF9E11635C42228E8F0EF1 (-0x18A1F274BAFF4637BFE39B9B6E94360DB2F1E8C4F81CCC2D4A6C123CE56D27A6E) 0x801FDB31EFB304CA480BC8C25E1EC286258E204764701F3EC770B0BE640185D9 0x505B12E8199FF30ED1CAB364979A6FBCA2A0E1BC86331565093F6DEBB7F2C43C;
  DS 0x2E95BD430CB40948C3E3069BB698EFDADA1D87AC3D902F2D55129E9CBDB660D4 0x6F9D9B803ECF191637C73A4413DFA180FDDF84A5947FBC9C606ED86C3FAC3A7 0x7C80C68E603059BA69B8E2A30E45C4D47EA4DD2F5C281002D86890603A842160 (-0x8E3C41F27BE5DFBE684C1952181225ACC1F1F91D7E5D7CDE19B4612886B02DDC) 0x87A2799F4898F3A71AD4975487FD7ADE180A320D2011A7099B2311FC750AAE3 0x17C391A61AE98DB2EC4CF0D503DAC84B4DF753D5AFFAAB28C1C82A190B6FEBB5;
  DS 0x61FF0B09E723C8829EB256B349701C992867DA5BABB9246B4E80F4A06A7739AA 0xAE86EEEA252B411C1CDC36C284482939DA1745E5A7E4DA175C9D22744B7FD72D 0x19E993C9707302F962AB0ACE589FF0E98D9211551472F7282334CB7A4EEE38BC 0x5EBFAB968388FFA23571A2645339B5336BF455B29BD2BF3E2DE7CB9AB06CDFE3 0x258344747F5D717B94EC38AB3DFA5BC7509B96F83781ECE63CF8650A6F7648E7 (-0x402361C9A6AE590B7BF32FCE7B86297ED20307D6544C327B28EC6FE54F348C68);
  DS 0x3172C36F49857E7E10D1B5927BF54091D80521D6B2EB92A8998B92CBB2234DE1 0x2248C9F90BBFFF55E61D2F8C56DC2C488718BE75CF36F2EE7A1474267C169290 0xFA0594692D21EED7A506BB55B435BA18E163750235DA2BE2369D8A12883EA257 (-0x15AF07584B8D0470396317CA0AF1921DB2A9E2791A48F12AF26C43CA570BFBD2D) 0x98D22433E754FB3204C68FA6D78511BA8CF057378E3FD2C9657F5F1A47FD5D9 0x1B16C3CEE6975E5E8AD7DA433CC95724FD295F9F0CB01E6D0F59DAAF06A3A636;
  DS 0xC3C8B71E8454AFD4FE4AE23209D6947BBFDB44F29F3474CBF6E1DE6BFD9974AD 0xE11A6E16E05C44074AC11B48D94085D0A99F0877DD1C6F76FD0DAC4BB50964E3 0x87D6065B87A2D430E1AD5E2596F0AF2417ADC6E138318C6F767FBF8B0682BFC8 0x170A64F768D64A28EEEE5661C4BDD2402D7053FA868E4D86AF6A90B185707A74A 0x95BB645720446D0593D6946BD4E5D290331303F95F60BA7CA5889FE27ED623FA (-0x91EF4C498BC6E95CB76CCE220A85977AA1B79B8076CE978FFFF8BDCCAA5EA7AA);
  DS 0xC781A37BD88A0BAA945A25DCBEC891A96EAB33936F3AE33B924C4EBB9CCC91E1 0x3322D401243C4E2582A2147C104D6ECBF774D163DB0F5E5313B7E0E742D0E6BD 0x56E70797E9664EF5BFB019BC4DDAF9B72805F63EA2873AF624F3A2E96C28B2A0 (-0x17E1617A998721B0182E8FAA597FD0DF72B0AA18451FB93E3499B06939E9694A5) 0x9B7ACDD0B5DDCAEC8B3956AD22B3C12965ED319B036ECD085C022FBD8C16D722 0x879391A45A6A3CE01B8DE5E3671728C369C513AD0938529A31AED63F43F6E762;
  DS 0x5E1C71FB55E898F6E64912DECE2B8A3D031F1EAEE2AF6F37EBD48CA94C1A3624 0x8D26200250CEBDAE120EF31B04C80CD50D4CDDC8EADBCF29FC696D32C0ADE462 0xEBED3BB4715BF437D31F6F2DC3EE36BA1D4AFB4E72678B3AD8E0A8B90F26470C 0x214049DF73C3E469B36EA795D8CDC91D96A79C41BFCFFF8C51BCCBC9C6D19DAB 0x2298E6DDB4D173CFB11A3E3565ECD08617CD4E3FDE4156FE4EC749CB7D361F0C (-0x21173658927B8FCDB889B30BE48ED09AD3915586D139D93FB6988AB3DB2CA320);
  DS 0x5ADEBA52EE6AC0E141FFB884EFA7A7D9A940B9950373647C8AAEF60DD14E763C 0x1238C0766EAEBEA9CE4068A1F594D03B8ED4930D072D9C8B9164643E1516E633 0x8A9DB02DBB271359D6C979E2D1C3DC170946252DCC74022805CDB728C77B7805 (-0x41FBB9F43245552045B46931E5FCE4A9AE98247C9A71531F67F237CE163CD4D4) 0x20415CC9FF152E15A3CBD49E8199B645F4D2AF5E36FA89310B868F6F6BC94F37 0x2BA266E852BD863C2132869ADC2E3957FB154665A692D453097F9073D408957D;
  DS 0xA478DD7BFCB0FE45115C6952FEBA38F9DE0842736B164666C083B48C9AC6CB1 0x271D5B0770CB9C15E7B2EA758A6A11B9CDDCD7282B0EC21619B01552788E7A66 0x5D3AA45834E7F491E457D09949AC877FE2A065E3508A824E7A8D7258E03C9727 0x73DB7E66067CA1DA1FCCB9B2842E63896D50BAB74547B53395F15F8A3860BC1 0x69AB14D73F9EFA0D418332E3E686D8A5D1A8A621CF092BA2C45E7560056F7B (-0xD6C5040D13867F170281DC10A1F3D77088B9FF7FF920103A26AF32BCCB05C1);
  DS 0x104F2AA37E05BE6ADD58D281A2334816593555F014CE643F702814EC1391F5A4 0x85672C7D2DE0B7DA2BD1770D89665868741B3F9AF7643397721D74D28134AB83 0x7C481B9B5B43B2EB6374049BFA62C2E5E77F17FCC5298F44C8E3094F790313A6 (-0x60CE18345D1DE1BAA9B2177F33623A3B7323E5CD991EE5699BB7E0AE5E54C4C) 0x109FDCFC7C28D1C7D74EB6B542A00D2640AE6BEA152B38BE697E6D17388360F (-0x601C59352EECCE7E0BB7240508863F7B4E242A4BBACC5DB463C9BC2730D966F);
  DS 0xAD98AE499F8B968DACFAF69097DB01061DEECDD4B8B7FE434720AAF6131A6FC1 0x534CCF6B740F9EC036C1861215C8A61F3B89EA46DF2E6D96998B90BC1F17FC25 0xD5715CB09C8B2DDB462AE3DD32D543550AE3D277BFDD28DDD71C7F6ECFE86E76 (-0x27FF65426EFF22DF724D7E2FEBFC45A9C0225B6E4EB7E52C5BD330E830D1E361) 0x75B7B69EEFB8494C65BBC056DA836C4543F165A10E791E0537EA9954448B458A 0x21F9B2A89118EA0D45A65194C51595DB9B838D9B7182B971CE361908F6544BDE;
  DS 0xE3B8C91DDD9155986DEA06E85CAADE56B09B179572444C1C2007FD77D04D6F0 0xA91D1F5CEE87B7F3081E142018F8AAED79020D47ECFBC8D2C7170923E8BEE8B6 0x748A324EE2DF8EE15A7189C8DDDAD3B2F800569F628CB225003D16AA410644C1 (-0x3994FDD73316B2C082ED4B0F770CE3E3DE6B03D9E0AAD7DAE386FC41664B4025) 0xCA913A0CAFDE282189260A17A94BD4DFCA930A780B357608432D78A95CC000 (-0x4C55A80726CBB8DF592223354FB49C6B09A932E937C4847958DAC8A81ED0489);
  DS 0x6D5074103E91FDCFA4597E9B5C32B822C19B5AF92207EB477C72EC4F9DCCCB6B 0xC15C8C23D90C8E35C1A214DDE2D4383C0735AE45BEF61F10AA1A1C255984CF74 0x2BA954D828522235C8DC6F45E25FD7BA47BF772D50B015A2C4A48CD839CCB000 (-0xEB9F7547CF28CE81A3475B55B813BAE3EE055B181075E93AF8C52657899E350A) 0x2EAD9C1E940E271DA349DED728010972EEF16FFF1C729A7484BB1F847A213C77 (-0xA5AA020F731F7BF5A0C75450ECAD692C5B4A3953B570BF7585DF7449C7200C5);
  DS 0xB0486ABB58D31B2DC9704B8502170A38DC4139987DB4802A1661A40D857824D 0x948BF809B1988A46B06C9F1919413B10F9226C60F668832FFD959AF60C82A0A 0x53A562856DCB6646DC6B74C5D1C3418C6D4DFF08C97CD2BED4CB7F88D8C8E589 (-0x1B263EDC42A10EDA7B5FD85CC0FEF21C361CB0D58CA086E8E1A35FB11F6B4F950) 0x7963A73DD003EAC7F479277BF12348C61F9105686EF60ABEF6BA1E3008B079 0x7EC1AF00B1912D4727FE724B5073603D918D3BB13B482F3A86F407E2677B2F7;
  DS 0xE6D9FA3E6518D4E9723DEA425CF89CF627C6B2258BB185785B0F3D91B04E6115 0x26952C7F372E59360D5CE4C66291F0B6EF16C1331E825E51396EB0457E8B000A 0xF513EA4C5800A68862BC893D2D688422DEBE398F653D67318C3D401F05EF705A 0x95D908869A9615836CCA1796F817C40B7D16EF1EADE6AEF68AEC08F8AFF8FA12 0xD02C6742500DEF560CD69C8378152DCB014068BE11B433080BFAB42EA667E455 (-0x1A6B9C58EA9209A6715CB6AE75BA645C574626024C4F2D2C03CA0526715E628D);
  DS 0xD884B65BD5B8DFCBDDA21A681B317B0BCBF4D101DEBC21A38CA7300520334D4C 0xC62E58E6FC23C5BDBEF2BE8B131FF243F521196572D6B0E9F102588976134F96 0x4397827D45B1A1678C3D676753141FC5BCFB853563731C3E82277ED4D14CF97E 0x18D1DD4AAD1222C3D6287B31E6508AC1105FEFBF69ACBFBFC937BEF81E4B486FC 0xB72038878943152352503FB8AF8D7EC95859AC28CFA7D980527A486222FF17FA (-0x86FBFA2299F2E497B9FAB6C6EC4CC5072FCAC64CDBE58CE9D90178CBFC27B118);
  DS 0x9D1540C9467D3BF99EE5B77F3C9121F1A88E1886CE5C64AA196B85CF6815554E 0x107460520EEC5C741683329A716622B0B81C03200807DE973686F8800B188CBB 0xABE5D4C09A21598C35326B9B9CF54A11242E0D748DCE3DA601D7B6361F272124 (-0x179501E9D0550D9D2468053524A232B98CB0C123751E10DDAF1D1F6FC696FF25C) 0x6063133A91E06D9A65E78C40AE5B86DACEB88F83FCB37EDA21FD8FA92D320DB3 0x6F8223B218E599B412B93E52C8402BCC951223626CB3AAB2D2CD3BB4E97FF868;
  DS 0xC48405B3038C03BD744A8ED8A5527CB83E8F1929B392D0A6967CBD721BAE0B 0x6260CE7F461801C34F067CE0F02873A8F1B0E44DFC69752ACCECD819F38FD8E8 0xBC2DA82B6FA5B571A7F09049776A1EF7ECD292238051C198C1A84E95B2B4AE17 (-0x224599A9FB5094922086D40CF6B79758DB3D2F6118EFE667268435C312AE6BD) 0x96DA6CCFFE2A896F63714DC51E67F34B231DA646E18E744F52EC9E0501D5 (-0x3EE3441655285C8C804B56DFBC5F69B449C198F42ADF1E15E7BAF796AC8AF6);
  DS 0xF9BD4B25FB8787AC97EDB42B9BAC8DEB9FF7EF01B41F5D6575086F1012BF96CE 0x85D8DA4748AD1A73DEC8409BE84F1A1316E65C5196AAD27E0766746F3D477C2D 0x58948B53665C6690586B536531EFC7BC94B0A02033C4D5A62079816FC7D1DD70 0xFDBC52EA7FC7F6B0790C73ABD565619FDD7C6E5BCDED0EA380D3F4CEDD6FD4FC 0xF3A1C827EF7253102A34222EE15D034AC50087352D9054CCA4B43430D68BF7E9 (-0x2299FD7FABD3B4688CE292B0BAB4E31AA4A70D73D88A0077A7E41E438F92E183);
  DS 0x95B144BD0405B76F012F298CE4BF1355BCCB8671D21CDB26D904BBBEB3860CDA 0x8E2A7166E7EC4B968C0892E9CC3EE3EE4D1E7E100FDC47F04850312D6C0B80D9 0xEADB0BA9AE2CBE592CEDD29B716A9D485297B688D706349A49C61F2AD6B29F50 (-0x6A598853F5263BE2696B8497CFE9C7D985998BDD2709CCE77721C81DAEF85CF5) 0x5787D4C426832D20D8D489FA6AA0594149B1DB21A8C61E3D4FA0B1E8A85FD55F (-0x4DD3F9AB50F50D9E311CA7778762A712CE99C5BC759C3E5F5F1D39A301F8648);
  DS 0xCD97A7266946A362A966C2469BB3E45413110726A2C395C2BEA221545461DBEF 0x769BC75842BFF58EDC8366ECD78F8950EE4AB2E81359D90F9921FA3D2C4561BE 0x4BF817362FE783BAC8DCE4CEF73F5D4741A177767B7873ADD5920BFFB0D9685F 0x8C5FBB3F12A885E4D42CC9F7D7B32451CD675B14E19DDEAE726D35F5FED4B503 0xA51C3B8A210E761E5720AA3151D54F5017877324EE06BC83129A84A054D5E41F 0x12EB32B5A2B4BDC2C3055D959B8857ADA0EFE78A7D6BE733AB0858F57947FD5A;
  DS 0xE53CE2C798D39BEF6FF55175192D6B703F4DF8F610DB8E47BDA11627318A4605 0xE5037DE0AFC1D8D43D8348414BBF4103043EC8F575BFDC432953CC8D2037FA2D 0x4571534BAA94D3B5F9F98D09FB990BDDBD5F5B03EC481F10E0E5DC841D755BDA (-0x1CCDF346C66DC6FE0CD85E4A1E3C4E765FEAFF4F9B271347AB832D786DDAFE8A) 0xCD45FC342DDF3DA00A1486BDA1C824A726C4618BFD4C95CDDFE037159ADB1C90 (-0x62DD0864752868233CEE4A7F3D8B2480526012960780A91D721F4E4ACEEAA0DC);
  DS 0x18B9CD189F45726E2C6DFDC2CCE38866BC945EC92113621BFAA817CE723ADF9E 0xA5E00DA467FD5494F40B6CF7D2D61B3EC3AB217C792A2DDB8C63C8C79E3D34EF 0x98FE5F5E5608555421726FE99BF43D25B60DCFE790900ACB855C5CE2F7ADB4C (-0x25933B1131466A51862CB3CA36165E6855044280169CF9FA73883D9F2BB7A6BCD) 0x2635D4EAFC3A94784F2155984BB3E982CB923F6990750E9CE624DB8849A01B5 0x61925B735C538043DEF17DEBD9932A9EA1EC99618A49BEEDFDB2D0C6B84ED42;
  DS 0xBCBA2313F29E1D97551BF61072F2A6F583D17EF9378AC65A6A5A28639887BEB1 0xA99415F5EF3A2B403519F4BB1C9BFBC46D4AFD2E4477572AE6737160D7B91252 0x82D0E64CAE81F84BB9E2F10F24F6F6B6899A16AD590F4DDD73A377AC4BEDC264 (-0x134567F8F42E1A19966DA002BE0E46676934408E773D13CD6E2E7664DD85B74A5) 0x8B21EADC4A233F1E6A67D560A74C022B4EB3667CFE35E759451CF6F6D3C6379F (-0x2BAE76BD18F2CCBE097960F18839BF91CEBF33D78E2E7A97B674A52AFA3E14D);
  DS 0xCCB0C2D5A765FAE0FA90950F0ED92A38AD56207A00BD4F3EA9DA4B31DFC25815 0xB56F4E9F9E4FD1FC7D8EDDE098F935F84C750D705F0C132BD8C465B66A540F17 0x32E8E53429CCA856D3DC11ADF0582D1D21D42963CBCCA85446A2FCAE0200102D (-0x7FCCFA927CFDB9671C64E37C084307DC660F581E21E5AED2C3FC84A75BBC96DC) 0xA3AA3090FCD938161215A0727D2BEB1D5433C7CAE994CBBF13259B0089CC8C62 (-0x97AE0E4324516B04D78A80BDD178E5CE6BC6B8D5B0D91BD2704EF792F39F466);
  DS 0xDFEDEC6F42F70B127C80C91FA38EE129550274BDE0C96A7286B93A0F6C39DFC0 0xE06372B0F4A207ADF5EA905E8F1771B4E7E8DBD1C6A6C5B725866A0AE4FCE725 0x7A908974BCE18CFE12A27BB2AD5A488CD7484A7787104870B27034F94EEE31DD (-0x128B360260AB035EC54A737E18E29E05FC6780D161EF7AE366007BCC6B249FCBD) 0xC3E05F097709B687554CE48AD461C21369027274ADB1A14CD8BE0EED304C23E3 (-0x2592971C3A968AB060DFD0A8477740D3A517F147279DEA214746E8C7EC813596);
  DS 0x24076FDB1FA11F74017E5C3696347308E32B3F0E740977D9C044061B43CC1CA4 0xEAC134CA2046B8F9C8DBD304FAD3F3C045EBFDB4EC6ED3CFE09AEE43ED2FF3E 0x49630DBE79359B4245BF103BF2B11799AC19F696B7F21376E17206207D210988 (-0x22B8AC85B3AC70E22B550E8D9B10E94619B761281B21F65667820E6830A398F8D) 0x51217ACEFC0CCA5339E73A53387DB126DC3C312AFCF96726A52CE815B9632F8 0x1D83E10FBB80B98CEDE1DB9A501919FFA989A921176B1C3C2D9B4973FA5E8819;
  DS 0x38894D85C2951105037A5D11369AF6D039F62D660AEF1E5B13689D8A8DA7B17A 0xD6788590731FEA198392119D7ADBB41FF5948A7804C85B17476706E4DFBFA4DC 0x28EAA8C89D5063C4940EF5C6D21C13AA6206F1C4DDC9A07CCA7BCD6BBD3B5406 0x1DE43D275B31A9F195FA24270DF5F2FF26F22354CB9CEAD0EEC95A7E4E1F93AC 0xC7C5B8E95C537EFD7EA3994C7AE78A109B3E7A267B1F15705122A65E32972F4 (-0x2C1FE1E8DF7BF4642DE8F86D67419B714D464671579D68921B9183B3F907AC46);
  DS 0x43E3186271177BC3437DFFD0F295E9A9B2A7A173698F8C15F747E07C7E8FF275 0x6930FCCBD9A040974ABF210F12B71D4BC7B1A6205599B01A7275FB40E48FF9B3 0x7F02AE94B94701EADA30FCDB875F6D78090F9B13E4ACC51ACFDDAB5F8EE96A4E (-0x20555BBD52B2984B051DF74468C8A68708E677080475003800730F8759B12B88C) 0x1200A837C819757CE0C2C0EC32784BE67252EDC78E56056E9539D8527A49D152 0x1CFAA9A274FBE8D7E888FAE6C26131D467D8CCEED9928574AE1518206E3881E7;
  DS 0xB52C04D03EE5D1A4B1D4065D2E74ED960CB2DE26A95AA21ABBC0DF208EF24801 0x213C7A715CD5D45358D0BBF9DC0CE02204B10BDDE2A3F58540AD6908D0559754 0x4B6DAD0B5AE462507013AD06245BA190BB4850F5F36A7EEDDFF2C27534B458F2 0x3219CE540D8CB0682860ACF0B518BE32DB1F3D6C62A2146CA9126FCFD6B079AF 0x80374660209DC4D06788E2EE0EEDBDC009C0FDC4D5727B6350BC6DB369254A69 0x32EC3F8ABC29B506A219D8F89B29C6A5DD57666A3150B01213363FD5DF65E811;
  DS 0xA25099814B5320E1032C789B522196CA8E997D9C4C7CAF884C79019AD46985E4 0x1C5E548132B49A7F66AE9FED8323480E0D1AB974622E7CF08993895E0EC87FAC 0x4FFCF60F837F468F2BB959FA1D4C2AD3A3DEACEB26FE324C555D7B3D5FC2D4EF 0x52B45C7342FC682CFE049443D210C83E1F5EAF193B000F86E1FC704170ED45A0 0x66EA1BA7F03016E7B1E42D427DFE309E705F51BE0F1A222F082FF1AFC82D2C04 0x3161C590FC281F0FD0544E76BC7E89FB339C5A190C997F8380A8912A12A1571;
  DS 0x722376042AE0F9D2AB08571A325ABC3A4436037B5B82183EF03F4C040825C566 0x46276D0602C5668DDEF6E94210BBC7CE1F901C19FED5C970E20FCBA1D4531DBC 0xE0F7F24D44C75B84A292287570DED99498BADFBFFE1BC99AF8730099686B8E2 0x3DE524559D4B8A2BB5903D65293F85BEB9DDEC8EFC8F12C13EA8D33F6C79E57C 0x32E39A0531BBEF9CB472CDCB7326FCF0E0CC40B0F00B255E91ED2E61F42FBD70 (-0x12A156ACDE413DE78FEF4995EA4D64B5267712B3F100F615F29C7B345E69799F);
  DS 0xA108D01AF8D3416AA2F0E358342876E2BA7343CD700F6C28A824E467637A1221 0xEFEA68ECA7A6C24F4E65EB211C3191636850E0ACDC78D8996114EF13522F001D 0xAAB847869D583C14DA150307A3719A17E413959FB3848771C128419F73BC4415 (-0x27FC4B54A4E867CE205CDC11269ADBF6871AF4D37EDD9D0D3A1E5086694573D4) 0x654C160F97D51CAAFEADBC8733AE4F7849326A7F838CD3DFFCF3CA43BA589714 (-0x6AC978843C60D841A623FCCAD98312695DA75926A3CF1801F10228D84B6EA408);
  DS 0xAA93AE9DAA82037FBB9B9AC8D39248DD36602F49C2588D2617DEBF0C252844B5 0x4E7C272A7AF4B34E8DBB9352A5419A87E2838C70ADC62CDDF0CC3A3B08FBD53C 0x17749C766C9D0B18E16FD09F6DEF681B530B9614BFF7DD33E0B3941817DCAAE6 (-0x1BF04DC23DDC839053F93A94BC7AE25BE1C52A44CB3231F4BB9AFAAA5EF029F27) 0x71A8791B66A132D8FBA6FAA751D78E7117346AC90EAFAAC04FE8A02E748D95ED 0x6B90581711036A88B9D3F62B75D8AB018E174EEF16460508FBC6B42387335306;
  DS 0x1636E902F0379B679AAFDE9343D791A7AB89D449CE8432E3B716D55E3470094F 0x899017B02696888F268A269F4E385D9C9B11F25A1BEF8790E2821E6E7C6E1B4D 0x43AE2CDAB5B334F0BB45798336358BFAE4E51BC0F932B212009AEBDAD814AB2B (-0x441D917262EEEED21F42D0669FB6DBD298AA3D62B05A37B6757A2FF87AC03C84) 0x1ED7BD3A29D3F793974D11C2A960FEA4BB8627FA737BFD8BEEE428490B8B624 (-0x52062A60C732D5B241652E4640AD9FF6AD54EDF34281F01C4FE786564B332B0);
  DS 0x61D87A0CFE2E33FD3D7B20932D6EC316534B451B05017D55EBF66DF97C650703 0x67F644F76E905FD4A8F4728E63227F0E2831F5BF91B583A8AF2635A17E5F712F 0xB833D68F66445D04F05ADEB7B586CF785E0E1488F7D36198D68ACB5E707160E5 (-0xAA062AED44BDD1A5E5AD58378757B59C1730B939F2AA3264550518060397D9D7) 0x2565C38C08BC544A7E31044EDEF33DBF5B48398D71812BAC968C5B07A9CCD1C0 0xCD7B2A6CC9432869C7B8341D2BA32F7D673CF5AA001EEA7549AA82456031BD6;
  DS 0x24454CFD40D319C9FE377EBAE48788EA6718AE1DC023E42F98C46838DFDB2715 0x327F876C93652555FA80A054968B4712930DC93012EE6B8DC10263ED3B89A762 0xB2D404EAB3524026B09969255E1997B975535070FEBD7DFE9C9FD959B9203301 (-0x4A75FA21F209D865287AC4C4C52A4BBDE5E9E37EF15B89B7D9B8181AF5DEC37F) 0x5239069D1E7AA133F5DC8B8D2A2A68A493A7A4D744A35B45BF57354A007F657 0x7932BBCC16777CFBBD5F57CBC7B771DFDCAB64C8FBABD6460AD3BFC63053805;
  DS 0x717534901DBB59AB006854C068A50DFDD20232FE591A31FBD7DDA12262862069 0xFEA74E3DBE778B1B10F238AD61686AA5C76E3DB2BE43057632427E2840FB27B6 0x6E0568DB9B0B13297CF674DECCB6AF93126B596B973F7B77701D3DB7F23CB96F 0x80A0BA48FE10D7809E6002682FB28E671B0427FDC527B8DF9831CA1E7D8F029A 0x3248AE1050C56F9E7F50CE270961745323E43485C95B9BADEE7B4F513613EC19 (-0x5A7B06DB34140AD298AFF2FD9DA4D9A8552722DBEEE31FB6775778B44596F25C);
  DS 0x41C5C1A77B62BAA51B180E1DCBFF6780ECE0A093F5A78051C6DE090FAB67D58B 0xED9441C8304280FF180E03D850E8CD0EBB570EE5DE3730488FD97C961F9756E4 0x3DBE9E9EFE8BFA19AFA176128B13911E09F23774FE4DE98BFF0E09F93F3ABFAE (-0x2BF688BC61357F87C7AC12C53159EEEAC37D98B44A67B9AC998C4029840F67BFE) 0x10E6051AAAE9FE582D9265E290A533F25B3B43B831051C975AFCFA307DE0F827 0x46306BCF79E6401BD6822354322DD2536F536B57EABAC4524FF47AC78329467;
  DS 0xCC008C577437B3B458C9B836494BB2BC62D6E64DA3F0842EF710401E85163577 0x29D9698EE67A7C3FC9FED3F624B487515B10BDD84FAB4D3015BAD033D51CF119 0x7FD02C517DC82B45277A125404F1C96FB89C940E93A7C2963C88740575056339 (-0x2330B767A4A6232F533B631FDBA30CF527ECF10705B960AB7ACBCD1C24C99AE54) 0xA290DFABAE288B648CAD6A41A581E2C2464A6422885A03902FA3619684E63C90 0x9BF94F9AB265741DD9F65DB9C434FF823DFE69943C7914A48ECA57C7BCCC566A;
  DS 0x9294B9F9F80B87F9D51EA42CDC54616C6C8CACF9B6A14AD9E9BEE370D90DF338 0x126B57D05013936D6F3FB7BD33580A31FD453E4A86060CFF467C44537F422491 0xC1A7DC13061662C2E3C4A3EBA2BF3FB0E148BAC30BF39347AFA31F199DA3EF84 0x7DD7DF98FB8F17CF7BAF259F7DE7B689ED0D8D23A4A8927C4435B25E600BCFF3 0x53EDFA88AF0F3103514150B0E2B057B6810F4E48E7ADDE498F6DB394B794C213 0xD6A62C65F8B50B487863B1BC79903CF90EA51746EAC421E2ED06C6F23184D6D;
  DS 0x27B376E30F76EC47E5E68B16C3A2CF484262BAA820F9D61937A65D963BA0A28F 0x76E64113F677CF0E10A2570D599968D31544E179B760432952C02A4417BDDE39 0xC90DDF8DEE4E95CF577066D70681F0D35E2A33D2B56D2032B4B1752D1901AC01 0x3816D9965FDDEDA9D51149BD47436AC6F2CCDF7A0ECF4E2CB3F052439E5DFBFB 0x6282C08A773F7F264403528C9D2707635CBF47433AFC46943A019D5E204445A (-0xF952A242F3A83E9EB8FD8955FA5295170BF5F1A8B82A65E137608EB955F0D33);
  DS 0xF1BF5EAE2A0C4C9EF23BB69797A3827927656B3D5C2E1DC0E927CC43F0DB11BA 0x708A530E9E52C73BEE87C9D88161C810005D57622C29AE691CF999A83A1187A5 0x9B884811E1F9A897FA9656DCBB6D38283ECDA73C6D353E8A58A4F19B473DB9C0 0xD60D7D0E5AAC29A5E83AB10161B05393996CBF17BB7CCBD4263A9FBF41EFCF6F 0xE449DF52561243FBD126CE94724ABB193A5849501C201AFFBECDECCB7E620583 0x6014C03B2E4C140700DFF4D4C42084C5C173D46798F76384562D1D4EA8761E9;
  DS 0x546ACCA7E813B1998650B06326EF6544D2D72AA88A3413C45C35C5C3BA5CEF5E 0x19CF034FC48B3BE219BD648395E462CF9F374B6D86B2B59E2E1B16C6CDE4F5BE 0x28E32B06A15AB466C3B4BE68AB181947EF91D1C93F0F1C0C0A91532B6F321AF2 (-0x2DD8C56AAFF45FB1A9BCC2337484DB46B624D92D032CB409A3CFC1FB1707CEE5) 0x1BD642DC4EF524DBD26A465B157F579AA935D187CDCBD4E78E5345CB15AE6B44 0x1C99A50FCAD92DBBA75A01FDFB6A7FB6285682D323A3D2FD65FB6177004AA2E0;
  DS 0x631098678FDB228E7BE3F87F83E86EFE5E8CB7D78B2BE931475BE0B75E618BE4 0xAF6C44A078CB5F0D7C719C2F8397F576EE93BD034BEA2219E3ABC209D17CF3E8 0x784096FE85D4B30AF9E73153CB246DFEC362AEA7CA0D435B8ADD0601751BAEA 0x17D6BE378B2E949CFB54590858DB0F0BDC5E54A60E7567A729268BC42B8E0B3C 0x2655D6F380F09CD7D1D75CA76B5A7606A02BCCBA346B85F6C46817D5FB763014 (-0x39E583282FE02D4FB19A89201046B3EAC832A6612FCBA2F53AC812C696ABADFC);
  DS 0x792C04E8F7AFD1B9A401FB8523F74D5C81C76302B10A6726B0A0B54D60E62EAC 0xC738C56B03B2ABE1E8281BAA743F8F9A8F7CC643DF26CBEE3AB150242BCBB891 0x893FB578951AD2537F718F2EACBFBBBB82314EEF7880CFE917E735D9699A84C3 (-0x16182343F468D0CA66637786F8A1488F49C84E5A81D1C5D65AF71F57A5B331CB0) 0x395AA435EA517470F1B8ED804752E10F71300CAE9BA8C39566383D9721410901 (-0xB43C07AB8D5BD59C7E4768350E8DAB008B5B77F63425FC688C2285049439917);
  DS 0xA12D5E05DFF013873B8147DAE62E9E6CAF91901E3E357C1CEC3858F69F0D4B2 0x5578845ECD7C037435B32A6992E7AA94647197EA49B8C9E4DDAAB0784662AB1B 0xE61D07978B6DE2C3CEA6D0A51D2A4053F653A7746A5D64DE316D18F3056F3511 (-0x1C64EC2127B90CE08A4959A3234FFC3C4910002E73E81399618ED530130F51379) 0x657A184D9445038DC7FFBDFA1505471AB982C07CF19F9D57DD3A42BCAFF429 0x479E117B5162CE41B3C0E22BEB4BB18D617DDB78FE809A45A9B484533122348;
  DS 0x2A2F3623EAFC2706805279368E2B1C5C2AFA8D5E85E53D5BA7E9D48345CF88F4 0x47F3383888A364CC4ABFA3BC1D0CECCD22F12354FCE3996094F869B8948B6C29 0x48CA9A8D0F032937190E48675B416C7118BB499588F994A81EDEE1120E537EF9 (-0x9C55B6EA0590C810380345C9488B0DC63CC8C38D191CDB9BE6FF7FF6ECC944D) 0x6F38678B5BE3190EF9987AD07B4E5417C203818EFFDC9C4C6FAF85108144B9F 0x23A5CD34604D26F5F8F98235D7C6EE0AC07D833CB17D3DDAC95CA3D5FAA71C2;
  DS 0x292696C573B74A6CD56A72BBB1BCC0D621FB2FF611AEC55BD728A03258FA9AC4 0xC0C01F34AE41B8CFE466B4C9C6A5D5F614F570D6FCBEF768A81A6C8F05FF4ADB 0xB84F5BEE4357F5C7C937A0B4075B8CECDBC43D170D15B85FC4EFF73AC351065 (-0x25439964A2F78B6F4511234230E364C76F962AA1D38C70703632CD16DA200A85) 0x69D621C5A7B0C270C49BA0CA7E99DE18D0796BC6F8D282ED89468A38C21338D (-0x136B068DE713F863BD4563AB698839852BA0EF480E41F640F0BD45E6ACAFCF3A);
  DS 0xAA59B2DD302EA6D3EBF0BD86B52A675096448EAEE3E2C37F59FE73A32EA2452C 0xD895626548B65B81E264C7637C972877D1D72E5F3A925014372E9F6588F6C14B 0xFEBFAA38F2BC7EAE728EC60818C340EB03428D632BB067E179363ED75D7D991F (-0x1A40D940C552BC44B7B02FCA4C481DE03513D149CCF41C2BAD9311EABCA6DA01D) 0x715B40FB9EC1CC1E8E520E2AAED76E383EEDFA9C79BF6D9DC9F3DC09BB2061A1 (-0xFDBF86982C64764665CEEE09B37E2B6877990EDAD98E0F3CFA04C76665E527C);
  DS 0x9824E79EE39825411D7BF6454D5ED23A6453D1B81B9B3A889361AE2BB1A01DB9 0xFD136EEF8971044E8A3A43622003A26703ECAF7A0EC40C3FBA5B594B77078424 0x218DA834F3C652CC67A1D191B5C5EFA57CF2B1F78A2ADFA8CD61EEEFC671DDF1 (-0xF6E83A9E304081E099CC77108CC65597AB03761EBE744687604B753A6BDAFA73) 0x5A6BD85EA484D0621AB42B6367DC2886430B148EE5B9BE8FDCD1166AA31FC5B9 (-0x15B01A303D6DE17B2B744573A66CFC7ECFD1BDC16AF2AFF56EAD5C0D7FA285EF);
  DS 0x1410252B4CD150F805430DA05BE0FA84AF1A95F3BDA9041D49B5DAC99BDE7DBC 0xD99E8E9DD9638D140E9CCA5367519F861B7003A0D43F024A5F1D84EC8DB1CB3C 0x36DC19AD1CC0A3A7A945BB321BCEBA6E6286FEF8FFC8765CD88A29E36B8637A7 (-0x2E94BE281BED14A399BB11581095CBE701170AF64D95780BF7CE02F51FBB03248) 0x19286D36ECFDA584698FA927A91ECD982DE784031B782C33EE76A7EAE61FB34 0x2C75DFA4A8D3A8CCCD0A4632606C0DA8F98885C20D868816EAE4448535E35B8;
  DS 0xD835DFD81665457B77DE5400F8E630B0F3FEE3384B8A278F65FF35EFBAC3549D 0x3FDF1619A198317A1BD8A54E5B09191D203351E0440E636FD46F68D3C385172 0x408D02C06E5C12C3FE470C7D3C8573755B9B929E90E7232B79AC67F0FCCB9794 (-0x1CE500D8D0A90ABA270B773875208042C1A03FC6152AC935425682CB0553235C6) 0xB69AF51318FE58995B4EBB0128D58AC886E342F5B06CC428541099C3535FC2D1 0xB46C79B69E0C08947B138695305925D9FA600F94998AD4CC25C5F2D0D5D37409;
  DS 0x31ACB4E1B1CF7975D68309D78E4079A67FF7CA16B70A141BCA36AA1E38F7816 0xB8DA94032A957518EB0F6433571E8761CEFFC73693E84EDD49150A564F676E03 0x2804DFA44805A1E4D7C99CC9762808B092CC584D95FF3B511488E4E74EFDF6E7 0x161028E3F437F29C986B2D84FF0FE81999B303EC52B665E062509C2072D0C1C 0x9A391C1F52684501F782EBFAF1CF8B391421A7B0D4F6CC6AA5E17033EDE93 (-0x23183F28C71876D8B9C9C3DC7707FC0FF1C181C4C4344BF328C4926D34F12DF);
  DS 0x9E134159FA7F342A7059C56115BFCBE4AEE40BB38561A32F7D1CD882EB497297 0x6D36D105ED8CC5CE53F2CB698AB620F9469A3E5CB25BF6E6D413F414C5AF726A 0xE4BA5C34E377669E72D8C66C95C50029DCC59936B4108A35C570491A13F9FC7D (-0x15F04C4F851FD3D06CF3F9D036222F779859DAEAD5158CFDE34F0EC5DD8546AB7) 0x619BC61DD53F041ADB08009E881497F40C7A698486C1DBBDF97C3531FBF7E62F 0x2EB4C2CEEEEB7C714F3B1AB78CBEA46338029F5F2381CCB7E75D60EA777DFA15;
  DS 0xF7F95BA71F70FFAE38B8AFE471517EB23276F67BB7E8587CBCC1C8F03FDD8EDC 0x3AB6BDE10CD3AC0CD06883FA66F0B0E3EB1309C0534B812286E2A30CA540DB99 0xBACA62079BE871D7FC3117A96A13E99C38D137B0E369C043E6873FE31BDA78A3 0x12F560708DE5589C2AE043C9244C045714DAF5EADBD8C98AA0614E470E551A494 0xF03321BFEA9774A7F16EBC1F349C7F646DCC21E6502484D0BF44EDFFB2AFD5CD 0x30EAC31FB23F919DF0B2E05DF070D5350B6FC5B92E74304FBED32BC8C5A86844;
  DS 0x775399578055E555C62520E02BF03E8454A29230887CA4369E4C87B9BB0BA8CD 0x796634E3F1AD56F0FDBA069D9D07BCE2BA2FD4F373DDD3BA7777BF279F1048DA 0x4D8EE2B6CFB20B8956DE74735A7927F2532576D8CFD74862E8F9BE24A106CF01 0x85BC34AEB5F7FA0CC635F0F1973BF074123AF52EF756C48780E39DE8CC7E6535 0x379ED3DC23E6C8379AAD69F0A74B6B8E34267433E27BEE7F6E92E5DF15598573 (-0x1D3808C2398051B042C6C1A220FC12180612F51AA1D51F2D86C0772909AC8D1F);
  DS 0x500A08279B3C953B7EA4C442AF79EE4FC12BB93017E4727816B4374FCAC245DB 0xE80FEA14441FB33A7D8ADAB9475D7FAB2019EFFB5156A792F1A11778E3C0DF5D 0xEED1DE7F638E00771E89768CA3CA94472D155E80AF322EA9FCB4291B6AC9EC78 (-0x7C35F29C1B3BC8A4D69F2FFC9B445F98B3129D0E4E288598B10D0A2773B220AA) 0x1906457D64607DD54BB87AA03B9713E5B7D09D82E9234ACA09EF7175D7463238 (-0x22995EC69A46033BECADCF2C3D4D9BD05CAF77B3C53110AD3D8E0A5142564796);
  DS 0x759F42169706492F4D893748465B0B891CF451657415EB8BAD19754D88799BB8 0x440CA1F08EA41265981AC4ED1EFE7A37122DCC3877D2F9162DB0E78B0F83CD58 0xA6C8B0D2CD5EE122AF8954DC9D4E2F02A21E4D4269C0A260B07BC069B88A3F4B (-0x19BA19264CFD6C9389AD6A3C6CE837935ECA0A488F5E93BB162B1121DE5C26515) 0x360AF57BCF2B0091B18B1F9420C8E6F25E2A05BA8A4EC12E9675212E37C02932 0x4B5B885971C296A9A7E8EFF7BB943B4F8365FCB7A158AF3D5C39622D9147503B;
  DS 0x9B2F8851451A0C4A32B655DF99F323889B9F437A5AC499423C383F787A29E43E 0xF694CBAF2B966C1CC5F7F829D3A907819BC70EBCC1B229D9E81BDA2712998B10 0x40A63EBA61BEF03D633C5FFACC46D82AEB6C64C3183C2A47F6788B1700F05E51 0x93F0D17930B35150FF01563B015D9D26552B6E46481B2445AD262F56FA383AAC 0x5E1297E5C01B5DAAD6D9150C9E2680F6A8244FA4D9BB091049791EC19136D5FC (-0x6C3997571678E3278816110D73F8335F349DAEDD0E66988BB53D4D6EA3876B94);
  DS 0xFD694F82CE17714F7E6A833CFA028CF5206AB4C04BAB17679F65E28F90487E1D 0x8B6E862A3556684850B6D4F439A2595047ABF695C08B6414F95A13358DD553FD 0xEA5E08910ED11CB40D10BC2DF4EB9FA124AC3C5A183383D0D803DAD33E9BE5ED (-0x24889214DDF5E96ECC980302FA72C01919EA3C594438286A961298487C4B3FA3A) 0xFAD9527ADD59633A80BC1C09CD3E7592A414D4EC7D5877D9688DF09CBA02C694 0x6A10E6AE7A0C355BBF382C23F27A5AE640470CBB1C50858A2F82191D5AC7E467;
  DS 0x6D66F1633C0EA4E3BE369E04BDCFC73EFAC3F92D72320932C55FD0197C48E44A 0xA301697BDFCD704313BA48E51D567543F2A182031EFD6915DDC07BBCC4E16070 0x7370F91CFB67E4F5081809FA25D40F9B1735DBF7C0A11A130C0D1A041E177EA1 (-0x1B831007207D2382AA16071EB5866C5B6FBCE624E385D54C8697D8440827A599) 0x2EC0D2F3BFD451A06955487F1D7454A6C9B8FB266DAD94E1F5D4C40956FCF226 (-0xA13058AC3742A60924C7A8CB34F0D4A7064FD8E1951A097AAA12BBC837B83F4);
  DS 0x60FB0DD8CFB159A6CC7A0B308761F2BB17857246959617835EF54989090A211D 0x27E1E59CFF79F049F3E8D2419E0BFF74B43965004C34B5D811420316F24BA5AE 0x310B26A6C804E209EE1B5E3CFC79DF05DF48A1A69AFA63F784A5BFEE883A45B3 (-0xDFE93E25F9A5C0730E7D580C5270394CED55B3578F9FA27A0697ECE46483C85A) 0x24BD4096C3AC05BA0D5303CCA082457955E16A902C7577A0C386B3947621EF35 0x2EA49002BFD29ED6FB40CBE1AC119161856AFB9CDF37F953225DE64A09882D3A;
  DS 0x50018607E3D60E50BC5E7DD6EA0060DAB9E5478B964170294F64677EF6F5ADFD 0xC712E7A5F6864AEE16588EC3892D7E4F5A39ADDE84FBFB4F9969175C9CAED7AE 0x49644107516363B365ED4B82311DD9E5380D8E544B0CE63784D148AA46156294 0xC03BBB77767A7CA496AC970F50D70B9FDAA4B173F25262AA3EF056EFDE41A9E 0x1900F3C740A1D360E9D3255FA4AD5E78C907FF186BFFF642A6AD7C93D216BC31 (-0x31C0432C5E52239B674DCA9CDB769B72646CEAFF5A1D2AB9889A2FB4046ECD69);
  DS 0xCAE60BA240A4434E4187587E5C8846B5FB61CB5EED6DF31EF65E69275E8298DD 0xBFC0504A4B3235D065C0D426B8675FCB2C85D6F58275D791B43E1FE44A6DB03 0x1955467A6C34F3453FB8EC7F94A6C99237427197345D4F0558AC8D1A464B8542 (-0x15C15132C3388CFDE23892F2D20BD8615D31E2E4815AC35BC1E588CF0A6FE93FC) 0xA0CFD914F616B9C46E07CA946CB5E03879FFF07BBA46EEDFF8AA96423CAE95B6 0x94482DE376F63E098F3E148BB102E857047429389C9F3F4363C8AF3E87EAAD87;
  DS 0x27FEC578A9EDADB2AA5328699C0A3CCCB201D9E4C4C46C036041F20898797576 0x90AD85B389D6B936463F9D0512678DE208CC330B11307FFFAB7AC63E3FB04ED4 0xE507A3620A38261AFFDCBD9427222B839AEFABE1582894D991D4D48CB6EF150 0x63B862D71C47D1F0015581476FB72EC8E8184F46C7B5B09A64751ECA379D4D3 0x63F9DB7378A8CF8AB62D0F900D1503B04BFC19AF98BDE118883A2EE393AD696 (-0x14BB191375BF0DC2B820BEF535D1ECE49581FC8A8E6A5DF28E1D03FEB2B7FE98);
  DS 0xD4F0DB18FED8A66A083B386445C250011B57923062480F793CCB65D82D6F2D6B 0x7E2CD40EF8C94077F44B1D1548425E3D7E125BE646707BAD2818B0EDA7DC0151 0x905B75082ADCFAB382A61A8B321EF95D889BEE40AEEE082C9A3BC53920721EC7 (-0xDD7ACA48986E41B1A16DCBCD39515EFEEF51292AEB11963AE122DC90C5091330) 0xB11FCD7CF078704F177CC3FA5493D96D22C100B379D5BE92FAD13D94A94CE040 0xF63FB98B8DAED0135B1C3C559F98CFCAF5E00E31794151F6A04306500651176;
  DS 0x58FF873B75FE48D0DE02BA7960E477F2B009A1FAD79A0C13DB1F838A68704F33 0xA146F52195BEDACE21C975BBD1EF52A79C636BF9DB853CF90E103AE41345E597 0xA5A99B0AB053FEB09AE95DD2DBB31B40EA67A5B221F094B07675676AF45A770A (-0x56316A9CACB70890C6E5AE730FEB8344048E0AF8387C2F873CCDE94D1586A8B7) 0x1EF0AC079103A6E673206F33A47744E9779BB4463A3A92B9459B514293677710 (-0xC3404F0462304C85BA5E21ED042DAAFDF9E71BF81507AFCF822A02BAA7522AD);
  DS 0x4A448861C49B177BF3D75A72FFBE403636A0189476FFA033360C12BE26583B58 0xD24C75A1CF1993B9BCFBF9DAB25A8114DBDE421EFECCC4E20CBB53FC4CE45444 0x58FE1D2DE84DC1D1CFCB7D1810E5A78ABF7593F499F1E524CB93246987DD4A57 (-0xD0B03BBE5CFE3D5B497A1099FA460A5BB8DC409C302BD24A63E90EAE4163D71D) 0x158BB13142422233804B63A161E1202DF118F86C7763EBB82B7AE3F62F8D0492 (-0xE38B6B8D7A32DD15B7CF7844ECF370FDBF193924AC29E8D3876729E79F72E77);
  DS 0x857AD2CD6B2921BD076754555A30FBAA46C691E4D20C90D6EA86468CD38DA973 0x8F68B9D2F63B5F339239C1AD981F162EE88C5678723EA3351B7B444C9EC4C0DA 0x662A9F2DBA063986DE1D90C2B6BE215DBBEA2CFE95510BFDF23CBF79501FFF82 (-0x1A9772865553569FAE00A81DDB53874D1963C339E5902ED64C58D16F4C4FDB2DA) 0x4598D9F70AB888E6D9F1FDD04A18FBEE8A6F61585609DD9D1452F8FD79769F69 0x22E0682E73ABCC81F5398D4340DEDFCD0A23831262DF4B1B5D2EDAF81A85A94B;
  DS 0xCFC72646669A22E13C4FA2F56147CA7FD7BABF662697196E4FAB511935ABDD53 0x4D49AEFD784E8158FCAFEBE77FD9AF59D89858ADE7627EAEE6847DF84CF27076 0xCD32FC59A10DD135E723F210359CA6F06E0F2D1A7DF4D8466B90B66203AA781E (-0x4B2A9D174FC00A12DB59C2156EA5EA747CFC488BBB2970DC01043A682405D760) 0xA8A3AAD26119C1DC8179AF064489EE05E73B65E4C2A6CC237FF98BA4865ABA71 0x35AA89C6D7603F95AC6EA76CCAD7E30CEE4FCB231D727EF9BC2A38A9046970F4;
  DS 0x8ADBEB828D3955FD13580B649EC0D51CD200054E8894FA357BB6DD39DD142198 0x7564539E85D56F8537D6619E1F5C5AA78D2A3DE0889D1D4EE8DBCB5729B62026 0xC1D685413749B3C65231DF524A722925684AACD954B79F334172C8FADACE0CF3 0x989B4D6C0CD53D2C9358D62E376A1ABDF929ADF7D8185D7396733A3A4AE0A9CC 0x4B51D6D58A4862A8F7DC310772897420938F4F7A537558D5B8F2A46517DC3832 (-0x15C0D06E8FD868192D36282880604791327E4F30579BD7FBAB368E75C59C6A3F);
  DS 0x8FD62364FC6918A7B6AD07B7300FBB01B94E5F0FC41D37BCC1F45A015CDC44A6 0x210A917AD9DF27796746FF301AD9CCC878F61A5F1FF4082B5364DACD57B4A278 0x670E1B5450B5E57B7A39BE81F8D6737D3789E61AAFF20BFC7F2713FD0C7B2231 0x38535DDE3A98B8E7116A21A93972F0A501EBECF45DBFDC6CD4B8F93B2FD5AB48 0x50D0EEAA03B82E1B7E32EA9100D86CBBB1C53A4118A8905E8EFD09678D4F3D20 0x2F64B223C2A6049C1647F984A02F0C11ED52476522E7280C84681EA95E469750;
  DS 0xD9A2254EB1165724D49B7F402B59327424E10D29788A1A1B00E957605BCA3D62 0xE4F3FB0176AF85D65FF99FF9198C36091F48E86503681E3E6686FD5053231E11 0x1E63633AD0EF4F1C1661A6D0EA02B7286CC7E74EC951D1C9822C38576FEB73BC 0xA26D4864E14A303963A646211C7EEF660D82FBF632C39FBE0DECD3BC0C20687C 0xB90449F2A53FD763945A58E25E3BCA8DBC38A26634E05270CD32FA9DC30E31ED (-0xA68CF0B4D6FFF23C112668113D4E5184BA7CE8993C477CCF45EEB5DD86F331B1);
  DS 0xE838298A11C6053304D86BDAF61C5C8D69F0D9A71CDAC755D0EEF49F886C88A5 0x4B30CBB7686773E01EC64110ABDB362F88531A825BA172953BFEE2233BCDAF2F 0x74C6350265BB629B6F9E2C5777C3C4A91FDF3C81E434857568033D463D26B5B7 (-0x22F2905B0A14E528212C5461E833B093FCF0185F668A161A52F75E90824B35FE5) 0xD2A5D79C735C3437577E3A976B6AC4848809719D9F289424D2FA83A30430B778 0x8B7A9E80A59BB07A49A0AD9C6D2702502C90D31D6EAFD49EEFF2AC63679B9479;
  DS 0xC32552EE2210231698D000B389E2F9BB93532E3F3C0DC62634AD9F14B80B3A81 0xCBB434AA7AE1700DCD15B20B17464817EC11715050E0FA192FFE9C29A673059F 0x4A1A200AB4DABD17562D492338B5DFAD41D45E4F0AD5F845B7DA9642227C070C 0x6FC71FB5B90FE1E0C0DC745AAA07F8037F4DCD9C42D96859EF23B5B7D2FF5065 0x94C1E1C7DB97D97442590F718363803102E838C2116DA8694A152DE73A10AA3C (-0x61F6D590F5179262A58FD5CF6598C868937162BB855078F0637BDBBA8636AC3D);
  DS 0x5B992FD2D78850B42B957A04C4217803E73A2F75EDC048F1FE7F5D849CD9661F 0xF478056D9C102C1CD06D7B1E7557244C6D9CDAC5874610E94D4786E106DE12C0 0x7F09E610F33E3946E68095E01068694C26C17EF609AB92D769A76CE6CA5361FE (-0x1B13E9D6FDB951C61211C038D3C4687571C01E3AA3A4D2704F170531DB9C6A295) 0x20C643AA182FA31AED152D281B40A6FAB06AD14CF514C653927EC4CAAC3832AD (-0xE95FFDAA7B1AE25326A8FACBA46CD74E2B8896959C446EF101C790937F1DB47);
  DS 0x33FA37F998B0740BD3D01EBF4EB5DCA5FD795CA30BB2B700F6C2C5246C91C493 0x8C00FA9B18EBF331EB961537A45A4266C7034F2F0D4E1D0716FB6EAE20EAE29E 0xEFA47267FEA521A1A9DC343A3736C974C2FADAFA81E36C54E7D2A4C66702414B (-0x288C8BF4C056E3700552FD53DDA00BA8428A306B08CA18C351A5F9635B198DF74) 0xA8DA6DED291B9D591AF762F8F7950444D4CE97E8C2571AF77CF6F31F08246A5 0x1535D23FEF1FB943EA7BC7A4527CE904439469AF82ADBB4D2A7B433EF2FDCB53;
  DS 0x6C647A1F5541B1BE021E4F77CD01120521D0D33C945D4D43DA55868291DF55D1 0x24CFC0176DA2B46FA8BB5BF9636BE1EFFD7E297F29122FB3E84C9AB0C18ADA5F 0xEBFF8FBB079C61A69868714D5DEDA927ED959CA1A4F814F268FA6139978A586B (-0x1AC458AB4328CA5FDA95119F22090A55A0E07E855224E39C514C0F33908F6BCA) 0x2DE4EE7A12ABEA638DF211A87CF3FE920BD8CB804DF071FC20D8915D832DFBDA 0x2BB145247EE8783C520471D18718D9301A1E40D74D2CEE42E92B502906A64397;
  DS 0xA881CCA3218459C4678BB25FBC018EBB7201965D2D05436F7CDDC2A67995862E 0x4A7D58D4B9BC82EA2DED72A1292EC616DDD67FC7F057EDF103189594679DA2 0xB98AC5B76702CB75E6B1D8147EC71B3B71C3B494963FA28A4877F484779FFE26 0x126CD79A400354CC5D119BFF03D7499A47B05DE534EEE490F242D3721BC5AFD1F 0x6EEA9E65FBF9E292E1D66D9B4022312E3F052CD64083D0B5D81B3EC53F2F535C 0x1809F8252D35606CA23D2236D2672AA987A7D73D435754202A5ACBD29D6E52AB;
  DS 0x9176AA61DA3A43F2C3AA722D4938D534E45EA3C34DD7D52D38FE3A4E4B052794 0xEE7D69C4CBD001C7FC76C5E2C066CE4996F8808A1E07B2A9CCF34EADC87C4B65 0xECC8626EC1A413821A192ABF030F2EE2C33E8999BAE942E523E8F44ED136A95A 0xD2DAF5DC0FA9CB2377ADAD42070E595490BBF42939EEA6CB393C10B9653C18DC 0x52A7A4045CD149EC21E0A94B86C879CE087C3462AC0562B0B59FDA9D1B28FAC9 (-0x875941EAFE105C942D93E1628A609660AF23A5C2BACFA588401DAAF260688784);
  DS 0x15F335679CF24D02B0B55FDD7638C68285DE4D357DAA4BE71B389AD9535365DE 0xE7A26CE69DD4829F3E10CEC0A9E98ED3143D084F308B92C0997FDDFC60CB3E41 0x2A758E300FA7984B471B006A1AAFBB18D0A6B2C0420E83E20E8A9421CF2CFD51 (-0x271ED82F3742C6D7C14DE9EC3DC89DFD424DFD75D419E364B83013392E7B8E5FD) 0x1E1CDD16D97C58CA32E82949716599668E5B752B6DBC858467737D32C3974D7 0x967A0A5D54F33BFB5BA0E9DCE519EB05F9E0D946DA16158F3CB3A641396203;
  DS 0xD752C21ABB9FA74C23CF9A0A508BCEB1E8EBF1A05FA786E83DFCABE7215CC4F8 0xF5CAFABA036BF8D00D38BFB6772089F5203C35E4D6E32FA9D97E5B917B4AE861 0x19E83B8A022A6D817BFF9904640839159B3B2A9C552F05F3CC9C239C0D82239C (-0x22D56AE3BBE6606EB4C7C8BCE1776EC7B78AF5BC405E7E0D914E1D6FAEE15A4DD) 0xB51C1CC9D372E471B06DA97467C38F360E9CCD7D46E89705F00ADA40D1EB5233 (-0xBE8A2D62E01CD461E9BA93E7F9F63392BDF5DF971D1AF8CC532C0E0162182A3);
  DS 0x8B3D8DA9821538C4475232B06093D3FA288C68C003427D39F1CED9E3BBFC8C3B 0xE9389024CEB63F1F12DF5156D7E805428F9E509C494C982084FD4CD7BD2A9651 0x8648688723726595F9287ABAF671AAF18D7110CEC6770BFEFEFDE2B75E786824 (-0x2A7CBC889AA55CDA48DB0FC0A8E3D9F04AEA8DCB6912704AC067F9067F27D8395) 0x4BBBE6A2E46F334A95A3F9581C856A8FBADEB40063BE1A871AD3BFCEFF3F5A5A 0x6D685B760EC2A946844C3E0BD19DC06135FCC8B8307044C169E2E372A4E9510;
  DS 0x4836F38B45F2A424931ADD7980A31BF02D932C6FC999D1FC31AB23C7225027CF 0x264559D87829256BED116900D82D0C379F0E4D1253C68E6FCF2D41AE7CDDAB8B 0x79E5BD1926D3512CEF7BC637034072D77A8631AF39CAF1E6C9F64B45001DE473 (-0x231A5A7CF753BE2897DAA5FA35DA9D1B2CEE0737660A3C737E0C82886553D2A45) 0x145EF4C9FDCBB1417E658D5CFCF0AC90940946053F159843068EB4C21DE4210C 0x36FE4009D84F37244CEE64F7277E1FC578021484128548BCE18872E42AB584ED;
  DS 0xE8336ACB6DC9E42FAB137B0020CF959C58BEB9C8DBD24817F0DB4D4DE21A0CE0 0xB6459E0EE3662EC8D23540C223BCBDC571CBCB967D79424F3CF29EB3DE6B80EF 0x67C876D06F3E06DE1DADF16E5661DB3C4B3AE6D48E35B2FF30BF0B61A71BA45 0xCBF76199743574D1E5C111BC598FBD56CB425BAC3A8E4F9B9A5ACE5CA9A2A63B 0xD29D3BE47098C499CF4E61816634AC3126F883D84F8A36728C96A158D212DDF5 (-0x829D29F1723CFACF23DC556443B0B37224050B751BA70F35542A183E413A3748);
  DS 0x2ECDE3A1819B7740BE340E73ABD290B7BE207DC8B994187F22DE6EAE9BC0BF87 0xE5D8E8F0D9823C88E4D36F7301F41593B6890576BE79C211253EF375033EB51F 0x4DC1E9B7861E3E04ABB16A57D8FEEEF0E509DC46D9F0F54979D5BD965A62A2D9 (-0x182F5FF5E285AE9789170F1A898780FBA5FB1E433C75BE9CE1D684A1CB482CEF3) 0x88EA36465A543963EB231E925C036417A1E69FA04E5FFBB40581AFF4761D00C (-0x8B2BAB53049B159E1CC315A4A471DF49530F87B640A3E416E50A2AE322312F2);
  DS 0xD3EAF468A8BC9DA649BFDA360E58123D08A8994961D8DCC798E8F327D77A7B58 0xA9CA27F77DBC8C3DC56B0F7321BAE0DDAB66BE4FA8A3011737A676480F155E64 0xF4BB335678FB14D4D197D2246C02D004875D41821BCAF0AE1F3F333C561B3297 (-0x1EA5CF75D6A6A8D164C709D37784CDD677CDE431FAC0B91CF4A56F31C38459B5D) 0xAF6D26883ED31121668E4203D86D40FDFC19DA374F130CCB15EB059CE9DA56C2 0x31B747E08813D23C2E755C0EBAB44B709E58F98F238B17355381EEA67C12BBA8;
  DS 0xCF169A730FF6BD430FEEADFCE090A00B8759D8D0BF889FC3F149E8B8873558E6 0x68FB71800686D7F25EBA105611CFE7591F478E847F51CEE06D4BC629D6EE247C 0xCD12D23462DD963673735427501B0C079A8D580B04C73C9DAE1F822D1A01865D 0x3A1C5B484C848EDF5D69075D6890F2137350D585A9FA10DFEA04D691EAE1331C 0xA7858FC4FCC667672FAC4BCE7911B93FB2810EDA2FFF84C8BEFC64A8E6F690A0 0x346CDE67C25314053FBA7B80E4AC2A437B64F3A29E8F000C6432368B3605BF44;
  DS 0xB2059641AB0BEDB3D33165CFDD3F28EA07CE982B23A5C2C28B0B13E0D6398458 0xD68A80C8280BB840793234AA118F06231D6F1FC67E73C5A5DEDA0F5B496943E8 0xDB8BA9FFF4B586D00C4B1F9177B0E28B5B0E7B8F7845295A294C84266B133120 0x9C0F5638F97080489C084B8158A1520BEF15A7A81D69D87B026DFDDD919E9840 0x7BCBC512889E4A4FA39D526EB27E5BCE5745BD754BE36CBF7973635B26F28CA0 (-0x4C2FDCB96131DA984B257B8044AF23A1BF3143F522ABFBB4FCD8FC0FDB696CF3);
  DS 0xADD2FBF87697AAE5AB2E2DCAAF5124953800E7EE86C6DAC559DCF3AF6CF0DBCB 0xF16A409C677A40BE402F8EFB3752373CACED053C6F702B828BDA222CA412B6FD 0x2A41311714532799D7A6A75A74E30E4E16540659249EBCA4268DAE77ECA052DA (-0xF13EE9A4508D9B43E215225F874FCEE253EFDA06EF83AA979C70D2632AD74200) 0x7606D6702BECB7823012E7B60F93D12464140E4C94B5CEB9C8388986DDF56794 (-0x123F5AA14143B90E767E340E94AF17165F614D57800DC113B97B9DC69495902F);
  DS 0x9287BE7F0AFA6983CD699E3214E93BE3F148051BC4FB4EF320C804F4B794300B 0x4154B506AB766F42FBE37F699976F84DB89F4F2F6BED98325C1A0B6E326DD4E4 0x23AD075043C5988894C6E44D61025FF6414EA9D9D1E22DD46C859295075DED1C (-0x27A9C819D5746555E29CD2B932B2A9587F55AA18DF5D398CA994F98FA095C6FD1) 0x53DF1D43604407CD38DBF8B51B4038098410C5A83B38662D7E079F7E8FE57E55 0x64C9A7FF6106C96088754DE7A7BD7631BCFB924FB2D315225ADCB18CCBBE8273;
  DS 0x9C9FD4930C70494186B5D5D9D890E2BCCE7206CF188411B34D3B67EA6F8C28A2 0xB73C652769CC95C1080A8D4D0B5956EA93E86E49FC727DDF4C51A7A63F7F0246 0x9A67DB107174CA9D4B535893C5B6C1EA1A0D72E4C6E554E5597E5164EA2A407B (-0x65CF2C595C76E491212DD26640A2EDAAA447375666F8E3B133EF18195A90240) 0x5FD32EDCF6562DD41E7652FD567D59EF5E2B4BE5A8368818E261B940F95E416A (-0x4822CC21EFF28ABF316138BDF59D4AE9925F4B9F49A8E3BFCDDCB287583FA655);
  DS 0x34D435F849F01D44561214651DDF3211D592D451D2A86F8735FB65F4CD4BCFDB 0x324AED7DF65C804252DC0270907A30B09612AEB973449CEA4095980FC28D3D5D 0x648A365774B61F2FF130C0C35AEC1F4F19213B0C7E332843967224AF96AB7C84 (-0x149BC067DBEAB25194725700BF6DCB957F1229B7032591BC99F7D4600C6410A26) 0xAE6E5D64CA4C100FED7B82CF7A5C7904F44F8F0CA9185ED837D4B6BF3708790 0x1B6F404C71DDEAEFEAEF39124ADCEBDF5A2E8EB5B7C0C908846BFD8B9B9AFEEC;
  DS 0x7B7846B99D2CB887DC01DE992223A08BD13234DB3FADF04F7CD70E0A52208267 0x32C9331EA26F490228D32681880D7203F72B3E4A8DE0DB1FA8F38381B2919749 0xD7CD272B34209CB5695A2F02B6F3DBB8268A4ABDAE39AB09631E97B0F290B5E3 0x4357393E44F05AE96814658E2900DA6EC57296F93BBBFD12FFB5C243FFAA0EB3 0x3B8CCC78BE965BC88CD4F07B6E5F35B480F06AB2A4A664FFE9F072617751E1F2 (-0x3CE6C7B895762E486561D2CD2B3193C041635883906933A9434A47FDDD5F95);
  DS 0xF7A26B6A8CE590440204968EAF4DA18C5DC4F489C2DF35CE2FFC02FC468A6FA9 0xEB292F3B3B9837854A02F6A70FEC6B1C69C161B6E1846B8E1E1C22527B9795E4 0x8C43C25A96EEBE801696634AF145835B57131D7509111C6F5B7E9D2FAE53A0FE 0x1834614083C279526B4EF48DBBBD82731A6029368FE1ECF941BE84B98F2915D2D 0xEF8AD253BBCF8D0EB4379DFD31B2D5E90AC4F8CFEA54271CAA0C902B759E7AD5 (-0xB2599659FD7795861CBE32F498FCC689A1C64359CE49E7183F45D97C1C26920C);
  DS 0x1100FDEC7E6383675829D155E86EC171267C223E1AF2130F62DD917A4AB681EA 0xA65A3A01DF3B5EF2E620D4310049FBE14D71457F19D1ED35AEA39D5789303FDD 0x798EA0940CFF5C6FB8F43D8D90ED2C7686861D024FAED3CADAD44A8D02E68703 (-0x2756BD3F39DAB34757495F13FA38FFBA5D32F3B5EEAF052D33BD874FA289992A8) 0x12121BA64A683BDB15034A33DE6C1DBD32ABD13BB1F714499C30A7598900AF1 0x4920288E83E87975F5A2880ECD87E0579DD1B9758ACF7C9E6793F1FEEEED2AB;
  DS 0xA210709FD33D3229ED42EB3F8ADBF0B5AA1160AF5247148199A372DE4E262559 0x4DF9C14919CDE61F6D51DFDBE5FEE5DCEEC4143BA8D1CA888E8BD373FD054C96 0x35EC51092D8728050974C23A1D85D4B5D506CDC288490192EBAC06CAD10D5D (-0xAA634911C4A75BA3E24C2D00EA540CA179F6EA3595C8FA92ADD15E2FB26AD9CB) 0x6698CF988CE017C0F5BD491B299353CDCC2F1848CDAE10B33F76814F2BF2402F 0x37F2B94DDA24123E43352F6B7764A9A27E1326E48973220B23C1A4261003F3E1;
  DS 0x372B7DAC49413E4C9DAD265782BB7A697F6B7066A48CF5559B1227CBFB02729A 0xED32CAD8D2CC998CD25317D4E4B87088E9DE4554E57A8D70C0C6B0FC1DA49E04 0x129FEF5F1D030204A541CA375859D20B52DA9FACB49FAB7DB63120D17C1DB9E0 (-0x472957F17C75E4C663D2241F9644458FE9165C308EAB42B1AE322A5DE1E352B8) 0xBE3B7637D0C582C14F62DBBD7AD79F07526C906F28BA0ABE7FF080C14FE28CC (-0x22504DCC7D703D2E2D601D9C3609F5F5432CAE75FA436A128073003C67699FE7);
  DS 0xA9587D010C296DF8256BB52ABCC9F14A8096637C08C53B90C2508E512193E884 0xE821AB724D6360F18049E4111C70366E28C36DCB63C34016CB7418D4E883F855 0xADEFCBF863F53CE367D0D4115416CF598B3B19C614EC23EFED4E0C6A59852DDF (-0x27AB136CB7EBA80237113B9B388B032551A25465410C15C17E71B0D6D5E8DB5D0) 0x7005F3A18FD1158ECA4D08BE20A2E7FF3806B975585839C6BE922B2B44B7AFBD 0x35A0E16DAF42078EDF84FE823770BA0789D3B11D37857B6A51D5F8F69A34913;
  DS 0xF2EB75EEC8D833DE051F90E5CE580682965818417AD8DEEDDF4E6B867FDD2966 0x3F0D8994E51AD212F455452FBC9693A72F14A547AF3806E9FBFF59EEB441742E 0xFBD76C23F28C3DC445E5CB0E847A6E0B1E205E2C3AD13D958C65363BCFECADBE (-0x12D5DCD62B569FAD62DB35EC23BF0208518EC415BDC329689B646E2B655ADC5B9) 0xE68203892E71A14EAA48FF095A56EA160668E8E1C4B7F0A14772B247FC055DF4 0xA0708B624BAB83DCD537A505A337142698869585A31EFD84B896B69B41D5D7A3;
  DS 0xF285B9D782F0C0358D78C0660D654C01B9A4854DDC7B5CEBF22E5CBFC0C44685 0x9C3919A84A474870FAED8A9C1CC66021523489054D7F0308CBFC99C8AC1F98CD 0xDDB84F0F4A4DDD57584F044BF260E641905326F76C64C8E6BE7E5E03D4FC599D 0x1AE9364A41035B78DE732670826CFD3B49A02213B48CE0C4EA2559DECE9C45B60 0xE5C1193614666A3A2046F1445AAC5EF48C81148E6F8561D1BA16F13C7DE8D310 (-0x5843D9771A135A5A901678F422DE41E30519FB440316724677E000B8E5F10BEA);
  DS 0x7200F1A08C4D4FA4B78F1A5CCF3DCD2A05DAC0177C506D88589C5EC2A987E9A 0x2E3C05326255D80F0A42FC69D5C92AA40CD326A53E8535F0435EFB7B694A09EC 0x1FF891656C6FB5BDDAE240B82FC1ABE048A53C707B66512534868188C7327E (-0x111A94F7552579C0B30099170B6F0D7480D6E7BEB8D26BBFA3F50ABD1A55CF119) 0x32C4D733E10487C7F0F7C970B5B8C1203A7DA0B64E026A3975CA8BC8E15B42 0x30FB1AECBC00EB9E5F7C149C1E3B834631960C6E3405D4FCB29B51ECCB8D3F1;
  DS 0xDAB54B18D28903CF90B96A82C856B347B5809EF67D80F359ED223C17009CB9C5 0xE8E2A24CCFA41587AE15FB7E3E24DDA433710316A1908934205F19A2AB9C7CE6 0x46C983CE0C6F5D1B4CAF2B2B3BEE20596E09E603B5C27A73B2C01EB68836267C (-0x18D63F31C1015E9E33A26ECF4E6B56634EFFC0779925497D8F1815D19D77647C) 0xBAD944498DB29E01550FD8E4BEF72CBA48A671A5C737DEF51A62C2BE46A1BF15 (-0x9F7610567DE9F3FB68098A14CD0CBD99EA56D6B3BD605607DC5DADD9A029F564);
  DS 0x40F885D90DD61EA2F5659E2F2BF302F4E2BF09826F62D88A8053C5B509A23510 0xA7549AAC5D8573C2B2F0A38B170032A212ACAF92383D5B5F5B0D39668AC7B3C2 0xBD17D1B90D1C2415335A1D70C1947D2B5D6B5115537116DFFA0C91719287EAEF (-0x257A47A0EBAEBC3EF2A5FF584650E06DDD508D159766AE8EE6527D5F13BED1B54) 0x107D343021711E95C802F96D770B0927C12361596DF2986F6E23E22B9712CD2E 0x10A325C5DEDC135E8126A02E9D001B22CDDD03F6D99EFAAE17A68F54F27E0A3B;
  DS 0x1CC8488CC365CEA31F2FA2BFDAF2CC934A7EE50CABFD150BECF69E6F4461D10B 0x6057170B1DD12FDF8DE05F281D8E06BB91E1493A8B91D4CC5A21382120A959E5 0x9A1AF0B26A6A4807ADD9A2DAF71DF262465152BC3EE24C65E899BE932385A2A8 (-0x11D996302BD0F265928A4AE6F7624B3F998DD39D82AA047CB6431169039F42F1E) 0x33C6C903B3F0F961E6D2B46605540C8026601968821FAC39DF373DC1BD987F0 0x7FB4492CECA28F16950AA35D7779BA646D7B6B7CA4104977146B1611C330098;
  DS 0x540888725EFD001E10D388737CF1CFA7349E1F8870AA9655492E125F3F6807AB 0x6773FD677C52E0640394110A46DC85DF7C133F8DD4A28E661899CA5D82FD545C 0x444EB6D8CD97652F0F0F25C9DD2B246BEAD780F5A1C6CF98E8C7F034947EB1AE (-0x79858D092E5BFBFE4175379BB88212BCFFC4D6FB64CDD4A28E818DE8EEA4BD5) 0x1B9599D3DE35AFE9499EB18B5E5F58D75FAF4CC38B53EED96F908A80FEC9895D (-0x255B84809C8CD76602150510256AB703A15D296B4362204F796CFD427A2E69D);
  DS 0xCBD459AFDCC89E756164C6F50B08E8231A953BA7807175A99EEABDAD06DBBAB3 0xE0F86D94D17CE565237C79AACE0C87C20374E43810468050373C616B0B86F021 0xC571C73730ABCF47A91E832F1C89A2C9A80BCC0115FC45B3B6B79CCB5BF325A (-0x10A5772D81D8975ECF115B0846910AF9320F7D51A4F28C6CBD94D2FE71BBE8E4) 0xA24A766192D797E7B1BED237185B4910087CE5346C4995F1DA9B898A22C660B0 (-0x60C0D1335D685572EA4B706106B3836388E0B52A3EE600A18CA411FF315CB6E9);
  DS 0x5E4C5A26FD030CAAB23E28AB4CFD0F3BB05B85F1A3AF85084A01F8E337E2C301 0x42CA15AB9F245041CE991E193D696F4F4C277DF908CAD6038AD0772C02DA6E03 0x68D2EF26C81C57C9647CE4D1FCB800EED66E85A68106BEA7836889FA8C347793 (-0x24803BD3C1A3F433128DBC6C7BCA15BC8CC7A3F2A33A533D30773CCB40C0B7621) 0x22BC28FA48B3E6F31C1E49D9423B8ECC3F72FAD7F107CBE20C5EF46D26B96904 0x3A4431BE1BD630A000C25154F0220A8D035A7B4B84100FD9034C3C0CF563BF9F;
  DS 0xD7B2AC50E5F422A44B5FA8E1E17009BEEA07A30D87D1A22F1B645E1A2B9436CB 0xA576DF8E23A08411421439A4518DA31880CEF0FBA7D4DF12B1A6973EECB94266 0x40A6BF20E76640B2C92B97AFE58CD82C432E10A7F514D9F3EE8BE11AE1B28EC8 0x7C5E280D4F5E58C3BF026E6702CC347847D52354FB555141777B3C4F876090A9 0xB5BD9A23F6BCA840B8C49975E639A43BCB3AA94BDEBC4600596DCF3320D86E03 (-0x5323FC1CE30A604E6CD28BF1D13115F5A065B680EEF22A70F8D2EE7247FA97E4);
  DS 0x6F6F2E174458F1D58240BA2CFAC0D9070D865A2D820CA850F93C92AC5EABD882 0x9E5DCC62EF3B5A3B546520867BE71BAE6F3BA063C9ACFB8DCEC5725BDA704896 0x6FEDD12DDB925F3EA5FD3A2154C7612279605D186030F51248F2769DCA82C835 (-0x1088E9880482D15736AD2F787C2DA2CA3058E19A0C87BDAFF4C8D1CB8E7DC3EF4) 0x30819A412DBEC5862F3EA421B36DEE5A7324E922FEEA0A72CD632C8B9CC3C2FE 0x316F476320B31B75FB63610E0A4DE2D9A169396622BC2F42628CA549FB95DCD;
  DS 0x287A0F5419F0C50B86E3D4E36A2093C4853F9FCFCD9C9918115A50D610BD0574 0xA7DE08375B8745ADF8D6E9F976F03B20E33625A05CEF5833953ED58744BF7EA0 0xA63D96B057ADA5E52104A0B334888E9A645A47C0FEBC5AA2E04C05539BBCABAA (-0x10282B287A9800FDF6646C577A370A57A17873A56EBDD609F5B31DDD9173D579C) 0x6665EFCE52EEDBAA8DD55FB8001D9CAD113D79E2CF7524D74CF2ADD0A115A7C (-0x180910756B302640B50AD8379618D6889A0A4DADEF253A526FAFC4E8EA31749);
  DS 0x9889077FF7088509A52A94303F520CD847B1998C048B4457312E0C5C1A9507EA 0xC266658E689080C9C13C35AC01CFF4CBE68065FDE949E4A3A9F8FA104AD916FB 0xE7E8593854E7DAAB0F798170B24627AB6B8FECDFEB61138856AEF52BA0887814 (-0x841F33452C07199BDB57ABA80FE0B1C378109643323AC209C5CA58B875DC6048) 0x5AE30240FC88C49358914F274DA463018778F6247A157045DDDC0B239CF9E5A7 (-0xFCF2B2CA12198AF99C09875DE5B1414BA93128F17CD61095F2756C83CAD83D4);
  DS 0xC519B871BB990B190BE26744246550363E9CCF0909487DE80822BC5C0C725B3F 0x7778A78C28DEC3E30A05FE9629DE8C38BB30D1F5CF9A3A208F763889BE58AD71 0x34626D9AB5A5B22FF7098E12F2FF580087B38411FF24AC563B513FC1FD9F43AC (-0x55C3DDC495D0286D4AA781619861C9F1DC3BD8F97DA6F2D5E4D88AF1FD04DEFD) 0x97C0987495D3DF2BDDB7840DD96C48ACAFF922FC52304655A64EE6E31ABBFB06 0x39B07A6B73A6F0A09A79DAA5BFFFAA2FF45794A3ADB19EB92A1870454D476CAA;
  DS 0xC7816876AD9ABBF99ACB73461760051CDE30B403C126A5D18DEF648DCD8A3255 0xE7B9796B5CA006D1632F482D7F0FE3932CF16A5AE104EEA7A7EA1C251073E879 0x12B8988C19169E2FDF42102A737CC1CA9CB5BF25EDA98AF338E71089BAA89D98 (-0x559E318BE5FEF9551B36F331287BE7F9F8B6064F0484C62C1DABEAE84F119185) 0x9B7A71D2F4222A41B950E5B733BDE06ABCE7C366EDB7A86D4DDCBE5CFC199382 (-0x577B219CA1F760914228D1AFFB4A4EDC294551C9016B9CBD60F9418340950CD4);
  DS 0x35DDC1C3218AD84FC1545F6CA20F19705F4CEE46B36E21E1FFD9F4F28793F197 0x71BF01850876203C2C915A24BE09A7365423DAAF2AEE919865D722BF2628F0F 0x527AA15D504DCF4AE33600BC1C084CE2098F9C6A231C80BBB57C5CBD45A1C334 (-0x26D5FE0492357CABDAEDD1193296D675E2FCEE28718EA60335924FE059D9E322D) 0xB559252E9733499F7D39D43F7B0191C42D7BD6C5005D59FB8B71A19DF5F15F0 0x2F432F6FB827E330442D208DFEE0A749302A023D0E63CA6A3C3DE35580D61466;
  DS 0x634DA6C426D7E9540C4EC18599A4AAC7B6F27F4541AA9C5EC26DF1F1922FDE6C 0x218343ACB9BE56833A32E594C03C39E5B1911C8501213786F6376DFA39620E1 0xBEA81D48970A50BEAF3F24FD602FBFC0443299A42F43C9EC5E0199F6506998B5 0x3F65437F1C3028BEDBA9BF731C97BD836696B451FA5F015A9EE01A786E64A853 0x2685268974AD5504E12F69156E4388B62DD4C0667FA4D7B711B9E99F0B3F013F 0x1F1F70A6F784E66CE778D6EB6C7B1B3A19B70BEF22711C0534E921E9B8A09B1;
  DS 0xE8150724B4CC461557C8359AD74EC82E5EAA15D665DB3306A7517390D4F9A142 0x928955EE637A84463729FD30E7AFD2ED5F96274E5AD7E5CB09EDA9C06D903AC 0xC25621003D3F42A827B78A13093A95EEAC3D26EFA8A8D83FC5180E935BCD091F 0x159A2DDFBFB44B51DC84F2AB6BFFEB953020C78E26302BEAE4196800FAE8801BF 0xD2661EACB3EAEFB0B3940E5CDD88C953F01BBEEDCDBF9370952031E7B6DE364A (-0x6676C9326062476646DFEC8BEC9FFDA4275C159F9B753A3411EE82015BD90F6);
  DS 0xFE85FC2DB040E0BF7F52D908972234CE554AF464E48DC688262D664D91D26EF2 0x4F89BDEE3771D350DAD163B04CB18AD67CE5E9C55B58F0E7231047A60F59DD9E 0xCA7952D5227A1F695C4BAF4C043BB2471E4882506638DF5C1016AE320156B049 0x18172B30A9FA3C929267F5BC4064391D6E903C926F63E9491AD387883B1EBB7D4 0xFD0E268AA9A3DC8CB243FE38E15F62CD567EF07979394831A1DD8A7630ACEB92 (-0x45F93C0C7882C10B9A2BD1502E8D05C8D340FD3C95D44683D569E86F835FDF94);
  DS 0x9B3653FCCBFB063809D9BD9C7697E235A29EB0E52279887B1D3729FB5B679B31 0xCB9E8304CAE3C5A80C396BACA2C3C4C994B668F079A245BF529C314CFFF01197 0x62C7D2801EB80E6A127258CDFF08891741B2D18C015E0A24C334E0763B989C1D 0xAB61F25602999746D261AF9CC4165D72685D143E637777DAC9A76AFE5FDBC57A 0x5E1AD53BA935ED557A567A301CE8055AD2ADA754CDB4BAF47B383DAC00888CD2 (-0x4B3AE86B813F8F74C90910598792CD40AA6B7F22E1729A00DA9091B78FF18021);
  DS 0x9AF09D487E0B537A82B89893D84E5748912CFA7C4D1E82A889FB3A08966EC885 0xE2F349B0F89C69BD3C8CF2A410730DC58E0BEED47048C58C15F9FFC2508D2CC2 0x1FEB2F280F82723781860AEC760215BA42344BE8E09CBDB37E347BD8E0D4C04F (-0x16E4C3880E52CB415B7B4619C2B5104AFE8968F0A293ADEB198302DCC06D6F8BF) 0x5DC65F628033F4CCF3CD919CC8DC9BD3ED1D6C7BC7F2122A4F7A46B1E88DC627 (-0xE1EED536E182A4E9A1FEA645D6CD656DA4DF675C1290B2175C5A67147603AAD);
  DS 0x6EAAE5507193866000ABD5A64ADAC8A3737A5DC078C8273A372CBA8385E9F1D7 0x85D0FEF3EC6DB109399064F3A0E3B2855645B4A907AD354527AAE75163D82751 0x1F03648413A38C0BE29D496E582CF5663E8751E96877331582C237A24EB1F962 (-0x23FFEA5E4763161DC68649F4441036271F0E902FA78C2AF74A11ED31503D426C6) 0x2FD74F267DDAA3E21513DEAADA319581B39E3CA607E1BD8F457548A97435BF04 0x2842E84FCDAA6FEED7CD5CC73F95DEB28A6C9EBDF5DC12B836BAFC7EC025DEAA;
  DS 0xDDDFC2224C76486C7CF9A8AAD85ABC295A5272E88B500A0A3FA5D2868CA0CFB4 0x6B790F4B19A4C4F4F607A6CFCD11DF0468B482E009711FF756356D141D5FCADE 0xD03A981B2FF9EB3EF296661F9CAE09CBA83FA5B47BE26B0AB6FFF86FC338D3FF (-0x9C16681B9E11356807578763A92C173BC48FCAABDCFF5456ED76C810E2BE345D) 0xC04C18C302FD6F9928CEE40DABD9FAD13FC4EA014CF1926555C818BF947FBFF0 0x16D4F078AD311C1DE14C444E971CE45EB675AF9818271C88D79343D2D17F4175;
  DS 0x2F57949E5699197663093203346D7D5F2BEC999AC95A01AB37134AA771C45FE6 0x41149B2C2D7EBED3C162C367ACC4F8FE3D2479DE85978BE0BB0CCDABE3A3E0CB 0xC90D5B92DB7C30542B415C9B9902CF28B3EC7805EF490F2470E92E98339033A8 (-0x3A5746A604DB99619859B06B0196E5792340D84CB26894AA2C8AC8EA7FAAEE28) 0x8C146887DB28978CE8C39ED09302BB6A68A9ACB9409BD2E62FC64DD69E1AD73 0x7D6F2116F55E0EB1CD0F788CA288300BD629926FDD5B5B26E80AF4178351285;
  DS 0x49129C375BA6E6BB5695FC239FA9414FC1F82BFE3ACC41F1A4D2696DF87F6430 0xD1FAD4FA4E7C849DFAEC3DFE2872A7BA664A9B8205C29CEBF8DDDD28E3F3D3FC 0x8FE19714A348FDFE5473F70E858B7818BAD37131EFF37326ED22343C50F3704D 0x4124701AB8F1AE32634149F38DDB03D88D5F9DA82611194F1D6DFB9CE0EA66FB 0x14DB9E71E96196BB357541C30046D162FD56F4CF2E93F39C46D7AC6F253CA1F2 (-0x295C2F1778770510F02E3A56968CA988095E09E87F941622B23E827589D8BEEB);
  DS 0xFA027415863D41FA371C2DC21E44B0C9B8EBA0048B2C4DD2698ED166BC4E81F0 0xFF2B0DCE97EECE97C1C9B6041798B85DFDFB6D8882DA20308F5404824526087E 0x493D13FEF524BA188AF4C4DC54D07936C7B7ED6FB90E2CEB2C951E01F0C29907 (-0xEBAB3378CC98C6FEB465764172AF44D4235F478D5AEACEDD79E4C7A74445E330) 0xF428CAC00F2941488BC7AA88E22ED784FC244FFA20DF8E16640052730C584396 (-0x2C21865D67C917B66254230414054B4321A5FFBE3B5DA51DF30EA79FE92A7D0C);
  DS 0x282BA9FE238CF4D58886CA874C29771DEC3F1FE49D8D1478D77543A97562C63A 0x2982DBBC5F366C9F78E29EBBECB1BB223DEB5C4EE638B4583BD3A9AF3149F8EF 0xA61B5BE9AF66220AB9FA5339C7B5BC9D095DB99412E3ED8456E726B016C7A248 (-0x2E40854353246C7653B8EF6B4B13981AC5D66CA973414482D28BA98651012A720) 0x64DAC91F75D8517A64D9B1E4B2AFF5D2D6C08E0F396A509C096DB44D7BD5D17 0x2186B8F36587AEF7A60B920C0E75A10F9CAFE058B7B759F2E775E2F5D2AC6399;
  DS 0x2A296A5B39C00F29AEFB930028FB5F9A29B29D6260977E5390ECACD1B4F963A9 0x1A28E5042AF0C0F6B436EB590497DB5860011F4580E1765885289F612380441B 0x55779A7996C59DAB7C78329A8976F0ED04B3E75B46EE67AEB05F606A8452AF25 0x2285311E6DA6142D6EDE4B837D5CC234C5A82C8B01BE5D4ED6C36E8A217CF8E3 0x6F19D992C5B30D3B0E4FC332F6EAA0E14D91086B27E0A21EE36850EE216ABE8 0x2873E4374AD52C26F49D31B8213C2E1A221F0E57747A15A0700CC2BEF1D0929;
  DS 0x7F8AB1C12CC5ECD1865A8307F2FA33D5A7E43C5E2A992126E8E458E74DE52D59 0xC8B83E9535F30601D250CC0BD3F20142EDD5EB7985D83242EEF0E39621E30A7 0xDCC7077065FDAC7B850E3F17EFDC854AACAD237B987134DBEBF7BEB9FF688DE 0x4D2447BFE9D29CA72E32182D067E47AB3335E0C050A33B7342FB0933B983D301 0x3F8AE781CA1D580970F019BB410BA4B42582835141126C69ECA24E33D0D3282C 0x6C87376BF94C2DF60B08BAD4307393B25F25CCCE156EA5CC87B42D5C0F36C7F;
  DS 0xD1D1154A63FFD0950B5550B0CE04673742208EF0B192AE37DE10730284CE6D31 0x827FBBE4B1E880EA9ED2B2E6301B212B57F1EE148CD6DD28780E5E2CF856E241 0xC60F9C923C727B0B71BEF2C67D1D12687FF7A63186903166D605B68BAEC293EC 0x14C6388A60AEE8ADA340FC3F21D1E363DBF3422D262D4252E552F7BF2B5E5127 0xABF70F873C84444BDF0AB4097746554CEA2F61E92FDA9A1D2EF4507C332C0ECE (-0x60ACB7E53BA9664B7F0B2CCC7F7D19C90F826EF0C6C9EEA08A2B90348D9EC1FC);
  DS 0x9E87ACD4A4F9954E433D87D2C82B246380F5D49B0ADE098A24ADDC6E6EE1DE4F 0xB77F12A7DCE56B973E2D7C8D576E6B3660470A9218B87461EF6E44B70CB1815D 0x4B6F85B14F86ACC43F0CEFB373CC2E654C42F0F91A44816D6BA3D2BC8E57DBC5 0x2DBB4578F5DD668F508435E0DDF31AE01DE277FD063516EAD8776D536E0F91EB 0x622BC13E389881D91BDC0D278B4A666BA83F7FB05A83CEFDDCF49AAA3F09071E (-0x20D1ADFAC959FD910F16D1D8A82184F5498FA19E2BEAB47A37A7EC9B4C4155BB);
  DS 0x4EE74FADE23A01A878FB3C374DF45C17C225066FCD6BDE84297FCB6D0D076B80 0x48973B943018BF1247B308B2CB79F956D858D8DF4977C5970FE5DAD2C45565EC 0x761F75684F3CDC1B6437BB3A01445AF1511B3596580477B83B879075FAED07E9 (-0x15C147B8DE426CF21C754DCE3BD50E03BB0985B9C8EFEB26AF9C16FF2FD2DF795) 0x1851C58EDA76656CFF1A1E8927FE43F2C260CC35E1A67AFFBD6EF96F73C425C6 0x222ED93FF17480FD1C08E92F8B56F63861993BC8AF414DCC4659EFA555847ECE;
  DS 0xF6D86BF1DC1C078CBB867791047C8B5B38EED75BFB229A5C0DED069A7E8ECE5D 0xE931258E8EB5559C6D6972728A704C170B775A265B4527D4A4D4D742BBFD71FA 0xFB1E33364C3FDEE0E85EB4169C954B40B3946CE1BB5E35F33D9BD0D3174D3307 0xA60BEDC80199F8227973DB15CE88444EC7F3D83462BD01F8D69D8B563A5C5A86 0xEE04A66B28AD604ECE38EC7B7DC8695370C135374973D3BEBA74F0BA6E164EB9 (-0x9ADBAC6C11F111AB890A12D65166DD71553FB0DD3336EEFBED6BBC781868E0DA);
  DS 0xDF71EC84C663FEC05C571E2C6FC5085C6011AF545FBE42F3FF693DB7D801C00B 0xEAA649F21F51BDBAE7BE4AE34CE6E5217A58FDCE7F47F9AA7F3B58FA2120E2B3 0xBE3279ED5BBBB03AC69A80F89879AA5A01A6B965F13F7E59D47A5305BA5AD93D (-0xC6E16180B8034C0DCB5578AB860BEC0ABE52067E4C23ABAD68E8B238994058CE) 0xC307ACC1F95E6CBF9541813A7C8D723E72A5F690EB13E813EA2985744F1FF4CE (-0x145B0C089FECC48A97C41B5AA4D261FF85503EC373380C5DA103127F24D2E79);
  DS 0x361F57EF460F29732CAFC83D9EBA25FE0DD319931C8036710B2A38F274F1DB61 0x3ADB9DB3BEB997EEC2623EA5002279EA9E337B5C705F3DB453DBC1CC1FC9B0A8 0x374E2D6DAEE74E713C774DE07C095FF6AAD9C8F9870266CC61AE7975F05BBDDA (-0x234D163445271919F08D811CA96DF1F37454C40E81D7FB093AED71143DFCE718F) 0xB713CEF5BB5DE6AD266F40A46DA3449ECA6F601BB60A5E1E1BF655756636ABD 0x252A464232C99FE538DFC668B2823B90740419227B4BE22FC7B15DD5B39C902C;
  DS 0xA4AFEB28EA7F78A6C09688FB88E28A8A67D5786FA2F90DCA571F6DE9515EF2E 0x129E53AC428E9CBB7E10955E56C5FC69FEFDFF56963E7CAF054E9E0C90AE86F9 0x415ECB958AEE9A29B2DA2115B712183FB2A232FD16B3E01B822EFDCD1E89C85D (-0x24263CCAD1BBD0C41C71C6834664C99A9754D10F46C3B291334950E540B0A018) 0x69F1DE2FC66811ECC0E14F0BE4330C18A3C0709E8F79A6F5046F1F13F445F5 0x19E2EA49180DE97EED0C5AF2D9E683BE0A72A3820AB76316FA4F6AF1BB2E5B5;
  DS 0xFF5737B636D1C1FFBE6C3ACB14F153E190294A4B1510629BD4C822AB9DAD3E37 0x60144494C8F694485B85ECB6AEE10956C756267D12894711922243D5E855B8DA 0x8BB5D669F681E6469E8BE1FD9132E65B543955C27E3F2A4BAD500590F34E4BBD 0x7E5773673CA885ED88CDDE45E49A22894C6A5419F9369AA6A15806464E0F750D 0xFEAEDEB3EB2EF04D7887EFDC07D60F05A0069B599FEF6B9C1001C8922CEB5D0B (-0x4D42DEE7F618CFE85C789CFECB2C1CF544968AD05AAF3BF638920DA5D6938C5F);
  DS 0x3C8AAE7B252F8AD62C5CBD47B0395603168652829700F7C1F76902D8F7ED0E95 0xE4A42D43C5CF169D9391DF6DECF42EE541B6D8F0C9A137401E23632DDA34D24F 0x4D9F92E716D1C73526FC99CCFB8AD34CE886EEDFA8D8E4F13A7F7131DEBA9414 (-0x2A190420B271F3BA3CB23D8499D360EE4FFEC781FFC6C62CFFB3DD3A140DCB36) 0xE514CEA4D1E021F7584A1C88D12E859DDF921808F19979DBE05B35A8E0E312A (-0x1F598A76062432225D0EDD413853730B537E320B7B1EF11E5D30067BE2532B36);
  DS 0xA5AF926D811D13ACFB2C4A8C53C007027C0786AAA9E7CA78D2EF4CE4F1014719 0xFD6451FB84CFB18D3EF0ACF856C4EF4D0553C562F7AE4D2A303F2EA33E8F62BB 0xE745CEB2B1871578B6FE7A5C1BC344CCFA2AB492D200E83FD0AD9086132C0911 (-0x20024616B1672E4C07526510AC50A437374F8579BEC28283CBAD20C68C8EDF4B5) 0x6B3BCB2AADE7173A4098DF95046641EE800376E2552CAB4BEEFA0E90B0257A68 (-0x1004D12BB2F3049CCB13D4120675E27493247BB156648D7880250A696E067E1F);
  DS 0xCBE492E4985BDD16DADEF632759DED318B5927D7201171512A30FF038B505AB5 0x1EEE207CB24086BC716E81A06F9EDBBB0042E2D5DCF3C7A1FA1D1FB9D5FE696B 0x652CBD19AEF6269CD2B196D12461C95F7A02062E0AFD694EBB45670E7429337B (-0x18008A081A68CE3141F51ED2B32861B528834FF5AD614ADE331FFDF4B756B3F0F) 0xA2644D0C851A9E2C96509178CF7AE652F92BB45E42465A38AFC8339973477E68 0xB12E5A29B3CF7905AD09750ACDE15ED9DCF6291868701D4FD7EF7C794DE5523C;
  DS 0xC194D171091781FAA47F5CE501AF8B4334FF7FE52203F734AC51CB5AEC54E4C7 0xCC0EA33EA8A9EB14D465AB2C346E2111E1C0FC017C57257908D40F19EF94C0D5 0xF9907A3B711C8A2FB23DD203B5FBE663F6074F266113F543DEABE597AF452FE6 0x8DCD0F0ED3AE22AE806AC38DA4E6CC7692644BAAE095AD98E0E1BAF63E04E921 0x9261BA4F45C1B7EB9F24E67E200BA479535382D402B58D66541A2A202E9471DA (-0x82EA2703CF2805C9E9203D526865E0DE7698AF56BC35B349F330F151B10B48E9);
  DS 0xF2DA5BF72E636A9F21F40BAFDC050A179DE1EA73D05FE6DE8BAE1AC6CA80F88D 0x1EC80FEF360CBDD954160FADAB352B6B92B53576A88FEA4947173B9D4300BF19 0xAEEFE93756B5340D2F3A4958A7ABBF5E0146E77F6295A07B671CDC1CC107CEFD (-0xE771A8F2A0BD58E5DAC7764DFFE10B3D62B97BACE02DAA8F98ACD4EA13765E1) 0xE661902015B8A08BAD43FBE03C69F56D86093DAEEDF1A670B21F3FDC7FA3B9FA 0xA4608399F0DB86EE65D28CAE49F70A1359B0BA93A7300E764BCC5B7A7A0CDDA7;
  DS 0xF492EAA6961C99AE817C48F8E3A99D4A2945F856225756A063F20F3021E24AB0 0x5BE7EA3519F04BC6CBEEAA0344FC90BB8E8462F6EBD890560DAE805D414FF9E4 0x32F32EC3F638E605477F890F655AB7FE0E99C6302119A3094030B07847E0BDBB 0x143279EAADCC423383E9910DE17E1A3CA3735F5B2644D0D8DC2EB2C1FAE972603 0xE9A8639E0B3EB4673FF0772F4AA0AAB491AFC69A08F71A942B2496D16260A136 (-0x3A65703BFD13C4BF942300C131E4632C6C5D0E218B515627759724E377864438);
  DS 0xA72E4243DC96DF2A157145E0C716CC80520155F5128CD64D74123B48359D5782 0x58F099116EAE4E650813FC8698DF7F5CD50028649F853991E3FB545F4DDB7BB8 0x7E07002AAFFE111A0D62FF7614638066507EE4062D174302BDEC73582E5B2D6E (-0x20706705E6C0079F9300B17397A10E5F871AF7835CEBE65D5011CAD2192841FC) 0x6D2D62D06B572D1C1B37A9709E8FEE6F7CC93A79228D44B27876B26969FFC4BC 0x1EFDF23655489DD428167A13526FC67A2CD24E98C4453B232688D11DD161101;
  DS 0xEB7198ABF8CA01EB3FAC129C5A73DC3B83D031A663556A8467837511C77CE4B5 0xB0F9E4B9B29790B633BCC04FD860CB0F823D8D1A4CC1A1C1413C1606CC9A8E2C 0x49E82BF1843ADE6D41CBB0B906FDE3F03350CC02C171CEE76C2066C4DF3D0DB4 0x8B1DD0BC1E65945A561BE41D11BDABE0F222320A873B8F18797B0612C9B56CF4 0xD889C0B3DDA12CD1CA820F15B4B4A731B8BE3F1C70118C8D802D02C6E315EB33 (-0x50F7990E844D04D84960CFA767B03412B8403EC992F81F3AE068B2E1EEFB33BA);
  DS 0x97B46EE4200685076DDEDDE034BE36B2906CD6BC27E4A45103DD3DF11241112F 0x146A778C04670C2F91B00AF4680DFA8BCE3490717D58BA889DDB5928366642BE 0xB318E0EC3354028ADD669827F9D4B2870AAA971D2F7E5ED1D0B297483D83EFD0 (-0x1177198EE460C5439178B6EFD818938CF722AA0A17215831BA24277799404B4E8) 0x59E659FD3E9D90E88000643A1A1C0B0032E30B2CF3D8DB53F7B20A63AAB3E765 0x5CC6F20FDA19E02DE8158C73342ABBAEF2E0AF7B9E5D403658BF2A0E3FB7FFB2;
  DS 0x2236BA67F0AED1EE74398F778818BC9190F4F60D994E1952D10793288A21C756 0x574EF0CE8A597E24E5670B5C0BCD14CFEEFC983C7ECB261911B2365579DE5CAC 0x9B99930281F19C73BD6ADA0569B78451A260A7BEF10008CAE59AEA6C75A4805 0x2AFCC22FED81CA4FCF577C4A0D45E31E73D3C24B7375CC2D4A7BB9D8A8AAA98C 0x4929536C7832D757F7C022A9798439B1F8D051A43A79CD8597A3C033F326204 (-0x8F0A50192BD733048C7015068342121BFC2FB525149F9648598AAFF46D47D87);
  DS 0x8EDDD290E5189E9A09C76ED6D712441B6D27664842DD8E2A2DA6FC2264734DAE 0xD3D97E799D8BF9F85D909397B98C835D10A770C1AEFF8645808C2D74260966D3 0x8DDBB46376BAC95E6AAA89275D403AD3B5E48711BE8DC4EEBDDEB850833C2E52 (-0x4E797FA89C0C1BBCB5916F2F603F5ABA0EC976F4943071C0C9151FFB914F1F5C) 0x4FBAD5CDF984E653A5BA54BF9C5FE61706ECF7D1F4AA97A92ADBF78951D36C37 (-0x4580C4A156EF841E2BEF8DCF0B1A1184C679A3EBFA1B1DABE263CCE803648277);
  DS 0x5E5D9F74A69405AB738E867514ECBD088355B4C30437E68D0AEA625C1D4349EC 0xB1AA653288B318987B974E782CBBEE0AB2BE78CF8F494C120040FB93968C6D4B 0x7ED6071C60810D712684AA8E2D63A83B100A1D909D623CC383D9E62AE891AC51 (-0x1A55BA2FA19D7E13271F3E921E604B8AD0B6D626EC026AAE9AEE1D687170FF465) 0x22C8E356E867D7C949030A2858D8F16F165306237A20BDD8657EEB73843AA091 0xC99CBAF1CC31E13C00E7194C7A06553FAAE6ADA517ABFA9D5A78DA0D9F3A4D3;
  DS 0x86D7E10B7570E8B0637420FC36FF4E519A6EAB0B3FFC8AC280B69A1D86FF9887 0xFA50C0F61D22E5F07E3ACEBB1AA07B128D0012209A28B9776D76A8793180EEF9 0x6B84C6922397EBA9B72CD2872281A68A5E683293A57A213B38CD8D7D3F4F2811 (-0xEC493A1E167D29E0857A5FD100A696AD013FF4B87F29C789AB7165FB2CF17913) 0x4706B5A3C6069C3346FF140FC7ED2EBB45686F1358F98A5F3B026DC7F92419FE (-0x2644579CE815190084BDA28696046438056F1339C0D9610A35484DFF3735AE1C);
  DS 0xF66C18362C94A842AE9F96FD5FE8A693363E8759FF6C57CDC3F98B7730339F73 0x63964EEE619074E0780140FE02E90836E72328D2448386D459C5BE23187F5048 0x3B6CFB3A6B89CF41A39FF9B1C34BFBC93D580B934DDE6C84383A284D89309DF8 (-0x20F477D0EC61DB522B7F1EFF6200AC49EEF8C0869744FC0DB2540D136FDEAE343) 0xED33EC2C8DAD84A0D5E4F9DFD9779C4D335A6CB12034548D77C3B283DAE840C1 0x9116CE7CE9C6341942A80DD54C1D7F6E9E7907971E7D32D34B87FDE5F317D4A6;
  DS 0xDBFD8BF7C3B1490A8B50E596292609B6253877026373C6A492ECDD76197B8138 0x5A3CE25B4D15B7E22D1469DDF0FC9F75AFD7F12AD3CBDA31F814BA1EBADB2A65 0x8B34125B92E05F63873A6DBFBF3F99AF3EE28BC3D825FE8ED8B170CF1D327F1D (-0xE169FAD0003AB7BE6D5A37B161F6FBB107AE599D31E57E0C36C24D4E30B83C0) 0xBD0BC897DD111DB02437BC638A4969C3190E1699A4980C2B53B74D2B505389A5 0x808C25EBA417234B5486BD25D07F9557FA44237DF0F27880F87556A9ECF15DD;
  DS 0xD8922062D40C8A8AD208D58D36AD5621D550E8FB087D1C34F90909DD1A2B4F79 0x5CE605AF98F93EDA6910BE34F0DE41FF85DBCB6E69A8FA0016A733754A9F44D0 0x4CDDCF9BEC226BFE7BA56BD031C76C58AB3CB1BFA32ECCC6C0D05F3489D30105 0x8C1A30AEB7F0C9436870D100020FCB11FE9CE589180A6D07AA2EE2FB37736F51 0xB736EA0FBAA7E34274A807501959F51714AF717091BD5F90C78CD34040D1E319 (-0x2403A9B71798405FF5B1CDDEA61E7FB4BC96DDA16F74F9FA03605942386335B);
  DS 0xDC1020D83E933047E2C67D95C88B21A1172997339674CF169EC12B7E79270D55 0xDA1D61D0CA721A11B1A5BF6B7D88E8421A288AB5D5BBA5220E53D32B5F067EC2 0x8157F55A7C99306C79C0766161C91E2966A73899D279B48A655FBA0F1AD836F1 0x1F0483F9F852C7F9CC1F4FDB0BFA2753EEDDAF656F439FDC1E1DE4E1C45D824E 0xBD2BB977CACB93B00A8092ACBF433019105FFEB4146CEA525072F7DB9472AED9 (-0x6BA376B2F96C3CD98ACBDF9F52C24DE9A63A93D24A0E580CFF6FA5022EEFD1B0);
  DS 0xB30CEB66C726C55AA8BDEEF02647BED83BB630D8025E1BEAA2A4659163A8F3F0 0x9C7BE00B4EF4C444DF85D5F61DC1283A23605483E1F8E934B3C210D22CD3C369 0x9220C0DE74B20D2052A26D455CE401483E31153A16769CBD29EE3FEBA2329515 (-0x178941AA9D3E4C7EF0D891DC04EB0B3A0CF27DF0EB6A296CA692711A545A57494) 0x7D3B11D8A498BE83C4A070AF897942EE32A5CD9EC577632EEB868A3E4BC84D5D 0x2B1B09FB2B064B4660CC6EE93770A007B3FC34492F40454C9DF763D79B6C47B6;
  DS 0x90A197B7B8E33BFEB50CC4756BCED529643B3AFB182001E52B13F8336CF36BC3 0xFCD83F42825263BB55664B238CCC49174DD06A70541178E76BCD92D7BB8C9E3 0x6C0BC1CFEAC5FBCED1D8232DE5FDB683ADBEAECDF1627BF4E86D55FBDF4AA9AD (-0x79D84B9B490028FCD5DD7B638F734B95C5C971E1295233D7C01B0345B715F5DB) 0x51B630AEDF007145ED3BC6C0B50482F1AB23D4A3AFA073C123E3353E2F0BBE6C 0x4F7AE0D4BEF3DFAD34433BD45909DB54954A7DD722148473969745D7F4B7CCB0;
  DS 0x538642245D31A63B4FFC418923F6E47A203F3C84C89FB4291B3726D7D2C6BE2D 0x7175407F1B58F010D4CDA4C62511E59DB7EDCF28F5476D995CF39944B26B64F1 0x43B4554344E3D550F36D3401134CC86EB01FE8B774471D2A426E7EFAB24234D5 0x4393C476D88D03F00135ADDB5EC20378A901BC7B4F735AD71300A8C6FB9E39B9 0x1B40554CE39686FC6D8FC0E84063C363A2E4DDCDD3592BE8A06391764145B16E (-0x1FDC9928DB544DCC41735E893C8AF7BB4D7AC12915E9C366D1607333D0026588);
  DS 0x29E06CD166EF787CCDEE448A9B153C1F4E2693BB0DE4270E420D5E1413C652AE 0xA8E282FF0C9706907215FF98E8FD416615311DE0446F1E062A73B0610D064E13 0x7F97355B8DB81C09ABFB7F3C5B2515888B679A3E50DD6BD6CEF7C73111F4CC0C (-0x80B3B179031A0EA4E3A75DA1704FEFBB9ACA36ABC8A8C29A31E322088800ED99) 0x6D9A799AFAE31CE1E6E707B46F4AF00545600A5738AFB79A5F32A0FB46F9FE1 (-0x91116D01C20ADBE9147A40C45E127AB75E8926EB36D1967F0099B739A626593);
  DS 0x22045E501C08E7FD4BFD5E3730FBEFB93CC5EF12BAC847BEB4253468845106B3 0xCAC6F2E7E27FAECBCB876F805EA66E63EFBE9EAA753D67C1C15EB9EA7F7653A1 0xF7D416E5E2AA6F194CDB65D9A42A345081E83AE5688103A068C10AD0FEC5E556 (-0x12C55B826077D8F9BF983FE8E12F2D7398CB0CF388151F198C722AC4DD9C0F3FD) 0x48529205CB22B8E9B1AA21DE4F72438D2FCC5BC796872F88DCCD04092EF823E (-0x480EAEB283CDF6069C21FD72D9591C8142F04CBCD302D6F9741AA19B6740C14);
  DS 0xCF3730F3C43C216356E4851FCA06AF5A3FEAEC8E75AAF2A402DBC499336D49CD 0xE6DFDE46EE37D206EFBC5932E58E43254AB767294238CB11CC9F4AB08624003D 0x8727B3B7BE9139498F2F48F7B88F92203B1CE5EA527FD7DD7548650E2216B93B (-0x50A7DCE6A75B656D31CFA4104C6CA69CA420F6C35006284AB632B82EEB76A1A9) 0xA7BA4D104973E189AC4DA9E70C19AE79A7688C8C985880A47F37DF927669A776 (-0x16BE350BD938542D17238C88A6E09071A45AA3A12D2D3F84DD73777AA1422413);
  DS 0x5A72B1347F2F36DC741C32F6D55ECC4FEB41DC1D79BC84DC3C3CAA4D33B31C33 0x3C4E089CD9A6823D66A40CFC7AC96082E250E3149CF211D3B0E1103548DCE109 0x43FBBE669FE191B480757BCA15764D379579E142D97FE697E2BF65923A19AEEA (-0x2112410AFC74715C22C5C810AD1AE82028A0DB3F37211D8722979BEF342E63837) 0x1FF4D7FB36D81B431236403507B3132936990C495461B20E70FF3E12E678323A 0x3C43B020C0100BDA47D05ED30E134D906297D232926DA9DBB27A6A8142DE4379;
  DS 0x2CF6E38B89EB995FF629523E4D1A1870528D114DDFAC39B1848799EB9E8E3A19 0x174A53B9C9A285872D39E56E6913CAB15D59B1FA512508C022F382DE8319497C 0xCCC9DC37ABFC9C1657B4155F2C47F9E6646B3A1D8CB9854383DA13AC079AFA73 (-0x12BC59588D326EA499D2D96FCFD5370D235BA67167DF0B1FE8C362219E45B3F1) 0x7E5CC5211D6D02AA3320B6DBA80F50B468150A28823BB7F15F7C1852309AB8D 0x680558D4F4BAE230B4E6AB2EA88B48DB0380516537DC14E55CA1B354C645F18;
  DS 0x4D2F7028964AB24DF12EDE0EBB0D70474D9D35E3FA88A6F72D0992CA075E7423 0x20E6E2E796946BB630C7071EF1B92EA3D53D280E0E4501115F5DA36F840DD273 0xD3AD7AFE4F1559E44A0BA1AD97874655811EC9793DA8693CC07CFD15BB46B593 0x7522022A3B0F63FBC00BD80019A686348DC248089EE0223CB2773463D5A0225E 0x17459242CA73A8A1074C4AEDAEC3E3321F3FC756B73265706431A7C96D8FD102 (-0x2E5DF0514CC554F4339AC46ABB1F115DCC11DB701F5C8D5B1AF07A9E6638D25);
  DS 0xE7F7B5BF52677F47C909FF753E0CB6422A756242DA7E9774F36F7853E8BA4548 0x8E0CA824D7A351DBA80280A07E71DB7035AE68136CC24CA3E7B54F301A077674 0x4EC560759192D41DC569D24DA62CF57CFF60419D2F910290B84CBEC12B7ED98 0x172ED1E66C9D462A1A6A46DDCC015245919FC76367548909CB64B917C2541735B 0xD230F9AF7EEFE4ED9447E3185236236F65FA19BDC05A74FA1985F04D1C87EDFA (-0x62E6B1E8DA92E8634218DD5CD03FD0EAE2D4197B61AF4812B9A558B7B3EC92FD);
  DS 0x67CF0C07B10B0E211B54630FD69E79DFEA8523099792A76EE4FDF4E9F6AEA0A0 0xF7BB50DA51C982D1C5FA63553E3D66C1AFDB5821A321B4AFE96AFC5EA8192441 0x93CC3BE30334A526311BC63BDDE6485DB1CFDC1FBBC4C74BBC640EA1D45165AE (-0xE877FD97B5F859A51D4F8482C62490AFC5CF1874DC7446940423369AE7CD2F50) 0x2A184322A577EE13AFE6449259A22ED99291D226F5C5A495FB12ECBE2F96A1D9 (-0x2ADABF12CBA89440AFAE6D5A2920B30A1EC444BA4C7D4441B5E1D52985EE2B7A);
  DS 0x73055117F8FC71DA09E4402E46A97B6258827C6A82B8F56DD4ED293544D609BD 0x959396981943785C3D3E57EDF5018CDBE039E730E4918B3D884FDFF09475B7BA 0x2E7E552888C331DD8BA0386A4B9CD6849C653F64C8709385E9B8ABF87524F2FD (-0x24A615BD24F1783954FED035CFAAA6775A24B4C6C3646DBC756771BCFEFDD1619) 0x33ADC6F7CE52B5F4C6F9F98B17FBC4A97DB0968017F4056EF2AE1BADFE7B3B43 0x2C19E28A25A7485920DA8493C0197F57B5DBAA74DF6D0184CD161F56CC3D5A00;
  DS 0x20F70B4B1D6CE28D3CB19B2F27A9714FE1185759FFD6109EC1AE18BA7E0B482B 0xCBEE1405FF0DA7DEAFE32CA7DD73D95ED702226B391747C707275A940BC8F53B 0xF6211F4F4E75F902B51F3E689B8294CF0D9FF4F68126F7282922E6B278C87F45 (-0xFA3615FD6F942DE21CD20D748EB758668602F0C4909065E6B9EF1242AE1F3CF2) 0x43EB13992CD8B52185E412201B9006F8C3D7F87AC61D1D7FE1E3638D20A2196 (-0x6FFC36297E7D29264519BC04FFFD52123E97E917D739E88A42745EF41E513A3);
  DS 0x92ED0BEC3174253E88F618BAF673554E1329094B7BFBCD13D35DD9ABF016B216 0xADD5BAD28FAAF5ACDD580BFA0BA252E03DE3BEAEFBD71B9CF377C88B14B311DD 0xE9C43CF4DA3DC3A5974E434F8359814F52D4E1E7669B9B8902F982F349D6C38D (-0xCCD4BB88CA741BCCAAC18C48BE3838BB5DE22454F75307AA476407E84B079941) 0x54533D187C4A31B37CE801E46DAB00190DCC320241D1231E995E2D90EFF8D23F 0x1145C0D0BA3C29AF715BF17E4866C7BAF65FDD3CA649E402C8A2F40210AD165E;
  DS 0x2CD908C6C9E08E431BD3BCF301875953ABAE29E512407A57A9131C017312BA60 0x53F2432BA81717143FA9DF3DFF41CED24A29B314BC5A8C96F5F6400A0D7C0979 0xBD52EFFBC1F079B7CCD4E3E0911B07DE4BD5A4F5C9E8B845F9F7E90C537B36A2 (-0x11037DF283087462737E521502E6A0E4BDC9812A36F070877AB1D80282B41CF55) 0x7DB530436B476932EC89BD4CA084BDFC0F260D528F8A08D8197BA7CABF2D1C3 0xFBF4D7604D5EADC20547E09767737E7C6F315F8611539675A1D3B9CA6C1C87F;
  DS 0xABB29926777623D00344EC00C5DD34EA088FC53E9F5EF3E6D3C7CDD083AD1676 0xD2A63A50AE401E56D645A1153B109A8FCCA0A43D561FBA2DBB51340C9D82B151 0xE82D86FB6443FCB7565AEE58B2948220A70F750AF484CA52D4142174DCF89405 0xAB600001F9E307F7386E985AB5492F6471C9A670FB524355934FE743D2D57E4B 0x73281532B8B4F4B49742F09AFFC749E7D50BE3B6F6B32519AE2035793BE58AAF (-0x54FA9B042B67A11DA5E3A26447472C908C3A996EE40E2BE8A43173C5B82D5A79);
  DS 0x695A461880F215DF8C78DF54A946D96D3D913B60D87441A36D3E41538F4789B7 0xBAF183A76100525E23BC7202033725F922B9CD6B36C413497C6C4BACCA72DA5F 0xDEAC9FBE9CCB4D335688BD58DD69B1D18E2336C5CA739361377CE628A8F2A0CF (-0x148E652F1AA21CC21173CFF95AF228137270C9526106024C475B32C79CCE1B1D3) 0x2B5B2D557632A90594B741B9D42C34BBBB2538F5BDE8CDA2D9829425C0901530 0x9C17AF1570884453F7E1B0FD6C24F45E9F7F43EC92F33541CF5E17C896691F6;
  DS 0x779BD28859B018134C8E880D8A3618C424181023236CB8286C33E300FF139275 0xF7AEF8A7E38440238F9332906E48F6FD5ADBD02D56B76A5FFA5ACA58C56C3943 0x4E3B0B44D5FFDA797C442BBDC3AB3FCFEEC30184A8DCD003431F627FACF442F1 (-0xC977F5AC094DCCFC40CB80CABEB49C8E0A31595AF209D63D32BBBAAA02E34003) 0x37E23C9361A24D636A905F0F0D926C0F9B75836C62616AC9D230266B02EF4608 (-0x1C610A0CD7E292613FB6C59E4FF1ECD38248E5F5272230210766FDB2C6C5544C);
  DS 0xA35657DB7E33DD28B733057677392155CC1B5230A1FE05B24FFC8E5B5198FEFA 0xDFB547CB10019036C5A2E29F0DDDBB1F7AF2FA25A3C7A78C1FAC945711924459 0x9ACCD2A9BA0F47088B8389CE9DC864CC22AF0930E5C031DCFA205E0DCC65FD9E (-0x26B155C8949C51C43692B0C22D38A585ACC0FD61E45EBE0D790F982769F9735C9) 0x68371100A855C272DBEB37A0980B430B1D013EF71DD9CA2496EB2D52FD0564CB 0xF4C11B86E625D3682A8D13A7CFC4F97A8CC3CB7F7C3C8F01D6D6AE9CB5DB11B;
  DS 0xD3C93A931625A689DD3592BAB79729508468624ABD1B29F3FC8A043138C2FBDD 0x64587E2335471EB890EE7896D7CFDC866BACBDBD3839317B3436F9B45617E073 0xD99FCDD5BF6902E2AE96DD6447C299A185B90A39133AEAB358299E5E9FAF6589 (-0x14A56FA99D4C9EF17299BD2B46DF8816DBCC2245A239233C5AF9CAE8A3D476DA9) 0xAF3554BB7EE1D23247C1E6B9C810D2ED6F53B5B1B14DD9CFBF54A9DCC016A99C 0x660E724994B658DD246028D1E839F74AA093E322087195F8B0C9BE5536E8FD49;
  DS 0xAE953AD3269B7BCB3FC29E1DC17815047A20636D0ECE8BA0DC6DDDCBF615BDA 0xB866D6B142DF940F2CF28B54C92F0C1294E0B6A22A91F2EF44BCD88C4384480D 0x1914B0B3426AEB7089A278D7EA9AD7AC24E522804B1D86D60E659B470C4CAFA8 (-0x63729429EEBB0247657F0746A73C3F1969D8903948A1EEC499A20FE3C7A5F609) 0x770F32F48FCAA8ED837D789B4702805162A3841BA7D188887A445702554D1F (-0x3952BFDAAC7BE4213D94AD5325E22920C9057243368D88925C325D5B7CD0ABB);
  DS 0x4FFF3D2ACD719A0C307986EA355754397AE1FCA620951F11CAE247EACC5841A6 0xEC2BB89085DE819EC4D9D1646102BA87E2D52AE4ED4FE455D229CDA81DB20D6C 0xCCECC17661E013A1332F66F0650940C633A2364BE87EFA98A0E99C4D629CF4A0 (-0x17ECF3188E4F17465CB8CDAB3AA83EF7455F982E15FD71D4D24EFF794F600CFD5) 0x18FF863B54AED2749BC3119A06C6247D623A7DF6FF31ADE94DBFFEA597F1CA42 (-0x102D5F2F74BB4AC41171F7F702F8BE9C13EAF1E7231907F401E605BAEC10ACBE);
  DS 0x7A52AFB302EA144DBC27AB1F0C7C9AF22E769094A0A9B1EFF91B1EAFBDF41C0B 0x71C4A7E389E296CED39D75EF5E545905E50050640F50BECF38A60ECB23B09D0F 0x1313FADB737AF3BA0AF3E0A292F810AA786F2B084A62FFC7637B1F01720DDB62 (-0x1C9CBE1EAE7ECBD5098B7DA218034BEF318FA56EC0C01258A06E9851A502BD810) 0x3A72EA2BA60B3478344582D0E9E15832275F6A4892A335C1E9B232AE3450FA0E 0x3A7CA6F7D35A67D98695D9CEFD8C1D1F4BEE8DBA658F189CE0BEC9FCDA936F93;
  DS 0xD81C11D09EA2EBE388858B897A2514E6C806372D05DAFA3A8307E1103E57626D 0x8481BDE0E4E4D885B3A546D3E549DE042F0AA6CEA250E7FD358D6C86DD45E458 0x38EE7B8CBA5404DD84A25BF39CECB2CA900A79C42B262E556D64B1B59779057E (-0x7777B3803471027CAB2E624B856090E4B5A1DEB9133C7A9BD24576FE9F50D101) 0xB66F6123F29300C75E88456A5B9575244DA53EC448F6EFCAC6815D37AE106F7D (-0xFD1988A00342D151890EAE32F7431CFED57AC1E660BDCF491EFB0D78E40AC1B);
  DS 0xA1F316299C051ADCFD77E3908B8B8E1D16A72FCD0B069F7AE3F53FB842D3AD56 0x9629A450BD383A8B9FD43C6CD1D492BF392ED605299561DDE54433526CE9F114 0xBF439B280C5FB6D7576BEFD220CEF64DB925593E5C56AF8DCA3972C4A24AA391 (-0x85BA12B1720D77D50721CD958358D2C7129FFFFE3F07858ECE048E432FA8C568) 0x6673A8B36B27CB0F2FB0CD0703CFD64119CE061AE4DBDBDB0EFB94C78694EAE0 (-0xB2B5BD35FAAF6DA881E8F348F61DB40BCAC8F3F9A7633912293DA8C70975679);
  DS 0xAEE719A737AC4E364919E03E5445A0AA54749101BA80F9870CF20E6DC301FFDC 0xB73B1C47EF1E4688EB1730DA7CC893DF1477D747E187E18383D38D9626CA6CC3 0x584315CB294922A90A57D64BBCC805097322A25209757F5AFAC35D76A54FDBA3 (-0x2E540BC766AEF3A20A075B1A497CD3EF68DB194437A0FBA64F9B9ED4208A408) 0x777EF77E9E06C96047873C365CD9F305D6D344F52C29E2C9FA653E3A79CD79EB (-0x1697B99D9245CB790A6FDF805DAF784637F9740E7891FD3BF630146023CA70E8);
  DS 0xE732D14399FBEED039026F11B190354FBA6434BFD8F73A24EF6362B4A0EA91EF 0xEDFE16B2DB40180311F9892007A2FEF7D05B2A3BB676899F9C6E2192D38F93E0 0xEE6902F1FCA5DB3694D74FAA4B05D0D25B3D5100C46E227E3D01793DE29405AD (-0xEA0494695DB0CCCEA8369A105A55433E780CEA7CE11199CDD1E48E768A6BF98F) 0xD0CCBFBE695C42AC62A6C2DC31392AA14829C55055374711080B80DF88962635 (-0x3174CECF085DE34EC932EB5EBC55458C6A166464DACC99AA35453BFA9D1E3C0D);
  DS 0x2C649E1B444BFAA921F03578039BE8F40E5E8EC300F40FB2CF8755A250992C04 0x13464A57A78102AA62B6979AE817F4637FFCFED3C4B1CE30BCD6303F6CAF666B 0x69BE159004614580EF7E433453CCB0CA48F300A81D0942E13F495A907F6ECC27 (-0x24511D51EBFC3E90F7C37F7FFDE6F6853996200A29E423B683746668A9B83E4E8) 0x7B2BDE5466D24BB3B752F53603C1AD52C5DDFF4FB703C11BE520CFDE7E06A2B 0x25ED8E003C61A2270F74C2E987CADB2B1994FDDF26C27839105E16F201B50000;
  DS 0x7F6CA70EA09AD6DC86113265E004C641FE4ADE7C26F023E090D6FED00D0AF860 0xEB3CF8F532245362EC05C88C85FE12D19182BE7DCEABE577C75849C6065084AE 0xC833C78222D9D70043FE63DCEFDCA4A1F52B45C5E7DBD2A66F67C1FFF96B9480 0x64E9D4C7EA4B5840100224CEE77EFEC4F282AC5B458C0766CF52981DCE0437FB 0x3F6CFBDDE4B53A34111B4FC7911867F2EBCB1204D0C0C195912C254FFFAE0A44 (-0x6B7F09A01520A0C97909DDA06B9F05376FDFAF33A0AB971FD2B59DB2B0ABD5E9);
  DS 0x956BB6638DCFAE6ED2D37AB4883E724FE35B9EEF641780CAAC5EFC9AF49AD601 0xBDF1A67D092D99974F7A60F2184519B2A576FCF984A201D9F8E5BCBCC2E9A5D0 0x4095902BAB65A1AAA80BE54A86BF7BAAA6280B61E5626461CDB4F7018562FF7B (-0x19EC63FFBD46C9D6FD5F429185ED5D468C4511D7CBD7F25A5D5BE5F57A2D463F4) 0x57368FA1DC3E01031B4355BC1DDCEC5B5C7A55F02C1D63A7FB8A9E7C0180823B 0x1A6FE5C091EA460B15298059E3246EC3EEE3E97CD253A6F0E5003D8C3E40578D;
  DS 0x4BA55D8B5483FB0B4EEF34A9A5F85538AF7BBC4E921BA073BB4BF2B4CD7A6391 0x68856A6EDDC4EC29CD5BE267B64483B48C3B4196477DA62ABDE5FC173B27E771 0x77A33DF14F79A1FB13B6FD49C19F7B4A331D22F293B0733A6118D62A07BBDAB6 (-0x180A1095623357ECF8E094B36F47BDB7DFD067D4591F3C2E9BC82EBF186120E76) 0x165A4FA15B4ECE7704739FA11D84D785E8311A9DA471F7C47C92D960190477F0 0x193DE391ABA2F499BBE89403FC304C348D6A1D6BA56A561E89D070A0C65655C2;
  DS 0x13B8EE10D8C63CCC1406374F50B83C6235B74B6E09E566DCD2899776E23A0E7F 0xBC4A9DF5B713FE2E9AEF430BCC1DC97A0CD9CCEDE2F28588CADA3A0D2D83F366 0xD3A81CA6E785C06383937ADF4B798CAA6E8A9FBFA547B16D758D666581F33C1 (-0x6D96EFA76407CDCAC813A6E1A1AC4D65BEDAC449785D51936B2BB48E3EFE1B21) 0x184F8ED95C85E2A19B7E3FDD38788D444C2A4C37796BB0A951F083178C02F97 (-0x6742676E436E78507D42F04417E4E9C18CDD6FEEC2A760FC868421C9DD5A29E);
  DS 0xAA3E6192682F538D4B72A6099461C5E2CFE08640786F4558796AFA7BDD1B4F14 0xDA433D5E11CECCC0ABC5C7626CE7BAB42E89B221F785C409282DE545F3FCEB19 0xE498DBD321A810301DEBBDC4AF95E5218E77FC2D9227B277684E7120A6F5CC64 (-0x18DE0E274989E4D28D93528BC3B1BD9663EFCF2D866D51407D157BBE88A7FE57C) 0x7136E8C9DA799892FE57AD06ACC22775B7B3E5619E61C8C8C0CF500CF478A145 (-0x13EE677E3FEA057F5CD6207B294A4C384449264D0298CD52ABC732AD554B3DAF);
  DS 0x6D40F867EB9969BD1934729F2455F97D4DFC8AFE1A79A60BEB99BD71D438F605 0x31E8E1EE9E8C7EC1C1C116981C16EFDBCC4838A72207E0654DE275C5ACF692A 0xAD7E7F5B465B353DD9D0970290D6743B70649827C5BF73B09CC2A84EB16F667A (-0x16B258F46B6EFF3FF98EA203F19BCBE228B8E65A4F5E34FAB7BCF950FF994C785) 0x2EA06405A39FF3689127BEE576C70963B283F14C3BBEB8FBB3BCE7554BD61ED3 0x5BD1388C934E3548460CFA6557B8CBC6411303EE9BFF1EFA8E966828D73267C3;
  DS 0x41C6DDF7F1D7920AC2D440AA504B65FBD35A0FC0B352CF7D2843B7F37FA68E6D 0xA9878607A88D61155D3E00D862657F73E9C9BF363FC7A91592BBD7FF81F488B6 0xD181A1ABD58895D61C063E7C82157C2239D0F01964AD5C6D495A7BBB031DAB1D 0x590A9846CDD31888C902F87D0233C3E8C8CAF987E190C020E1D6415015672248 0x10E6973404CF9952242F24CFD5AC7EA7F250C9B69363318312226DABB48CB3D1 (-0x2AC1EC6BA0EB4ECF248D6324E51188C0CCCEAC04368FDD1AC8E6879EC513BF3D);
  DS 0xF717C949C00A247330D2C209336C342191C46C4A3CD7E6C574CF6D0475AA1D3C 0x8C28A97BF8298BC0D23D8C749452A32E694B65E30A9472A3954AB30FE5324CAA 0x40A30463A3305193378FEDF31F7CC0EB7AE784F0451CB9459E71DC73CBEF9482 0x43A2709CACAFA95DF55C3C3373958A311E9E2E3FAC9324D444BDBDA1C69CDC54 0xEE7EE8A21A18F8F7D7FE5BBD1333B31E85FA9FF5B76B144505155B2DECEE7726 0x1C59416888FC0C6C5BA79677D0BD17BB05FB65ECE6177DB40FAB4F14B53ED29F;
  DS 0x1BDDB5E9B6DCB12288DEE8372DD502B817CEBCF99239560C5BB02EAE1F5B8D6D 0xAB1AC1872A38A2F196BED5A6047F0DA2C8130FE8DE49FC4D5DFB201F7611D8E2 0x13F4A37A324D17A1E9AA5F39DB6A42B6F7EF93D33E1E545F01A581F3C429D15B (-0xD823273FD961A5EE24A866A9C00ACE930162CE5CCFAAB2D179E991AD292AB188) 0x3088462E35C98599153265EF599C2D49FF73669F4EF7F5B6910195F1320F93D (-0x35E55855B64659C937D19FD3539B885C6499BA50B37B1F162ADA39D8F54435B);
  DS 0x5155E968839912F9DF9C4D6591D7F05B63E0A833BFBF06859834B241F4CE2C97 0x2564FE9B5BEEF82D3703A607253F31EF8EA1B365772DF434226AEE642651B3FA 0x8AD9F7A60678389095FA14AE1203925F14F37DAB6B79816EDB82E6A301E5122D (-0x14A680FB7DCA446F5383340630A5B9D4B540D7EE848496049E434A5B85012776E) 0x19D77A88F77DABE08DFFAFC94A8E9CE237CBFE28D3050486C0582B826FBCD61D 0x2A7B61EF598C925423A03E619FB09FBF9213B3B808D857B46F90E02685576FB0;
  DS 0xA6E9EB9D3DA9C42F9AAE6F283394CEF1BE5989DE42D18F364787A82ADCF070B8 0xFF3D6136FFAC5B0CBFC6C5C0C30DC01A7EA3D56C20BD3103B178E3D3AE180068 0x133239BE84E4000E40D0372CDD96ADC1547676F24001F5E670A6BB6E188C6077 0xA4AD61346E019CE5C60C794D0A59748D49340B74F9990A1DFCA29404B5E80EFC 0x6CD4334EA90C793F3A862A21C1055041DEBFFF33F891C0F418CFEAF3813A755C (-0x8E095E621C87348891A7ED4D816D565C8671B9ECCD6F5D6A3B44C7186B00E88C);
  DS 0xBBF8483324D2A924F05C202908140E3F3FD6DA9AC5F253124E8953D67D1905A2 0x8EA9666139527A8C1DD94CE4F071FD23C8B350C5A4BB33748C4BA111FACCAE0 0x620EFABBC8EE2782E24E7C0CFB95C5D735B783BE9CF0F8E955AF34A30E62B945 (-0x2DF4166A8FC2356C87C071A01ACE5227745CC49292F3F2BC81CB652DBDA12631C) 0x8A04AA46AF3FEA31DF1862522C0EE36EED73CF53EE7C13A81D894CD396B6656C 0xB4DD5FD395D12A3955CE4F530192934A9CB2884E586D1B88E81353E154737DEC;
  DS 0xF606CC653FB2EDB4402FF71980FBD71223060BD7EBC89B350E2A4B367515686A 0xC25F637176220CD9F3A66DF315559D8263CF2A23A4AB5AB9A293131DA190B632 0x53154FEDE94D2873989049903809D7980A9F04FF9E027A1D6EEBF3D6FC9590CF 0xBB8B7E11129DFD70121B1071BCF5831EC81E05DBD54F75A38DEB9D0B0535A41C 0xEC711100CE5C62CA0DAF95B9D3B7C8EB65A9EA77E81B45E2A779BCA10BF8E8AE (-0xB23B29D82B970970E2D6A6C5FAD0F421E434B581B240984FD1A2B056E1076C78);
  DS 0xE0A350DE580DB0EF003512968AC580A51A40C6DF2112239E26AD8A411BF7301C 0x2A9E8DFE3CCE6BAB3E82D82A5688544C0C7B55DC31978B4DE2CCB3B7D466D561 0x1DFEDA5C16E651FBAC7B5AD608B96CF5E01EAEC17A02182F96CCF5252E76373 (-0x128EED546FE55B9C458FC76549E898C2580461697E292F8AA993B82788144933C) 0xC51E35B52EC7CF36F554CD2268ECAE0C9E7CB8ADB2D1A09675B9E6E4D12DF9A5 0x85298A7CCAA6302B0A9574687813D27C760B20225F4EAA8AE0D89D4CBC26CE86;
  DS 0xF0313F849E88F449DDECEE7E8F30603B8B1FDBB3CF774D1188570C68388EDC6D 0xB23790A42BE63E1B251AD6C94FDEF07271EC0AADA31DB6C3E8BD32043F8BE384 0xFC6B694919D55EDBE8D50F88AA81F94517F004F4149ECB58D10A473DEB19880E (-0x11C4A423154063F086D42446670E4100A59876E784426E2693B13B371BFA42BB) 0xE15C609209C805334C08D217B82EE86F8C439865219ACE13F40F4FB63895424D (-0x7F398869F86E468F1D17E5A6CC56F39C4D1D69DCA23ED0F2BB495AE6CF35A018);
  DS 0x68CA87E5D24C22C2E1AC71FBD4D2CAAF3BA53FE97F87E31DE6444ABAFC9A1F02 0xDD3625FAEF5BA06074669716BBD3788D89BDDE815959968092F76CC4EB9A9787 0x7A188FA3520E30D461DA2501045731CA941461982883395937F68D00C644A573 (-0xA58D488F43AA7D044764240911DFA284960617F56EAB2EE1D6E8411A5FCE1988) 0x2AE52EA579B1EE836888FB187FBFEA08C5283F8BFFA158C703C0DDD9DD31239B (-0x1199705FEFABE2277E7C8754131B2BDABDB60CFDD3AB6E0CCB1452D4C613A129);
  DS 0xA91559A56E85ED01443BBF3004BC3E2CA853A576D8A10D3D6E0F36C6E69B4B29 0x276B9EFF8F2AA88365A441507EEF123BE1520D4EBA9DAC5117F014D8F76A9A68 0x39F8AAB0F2F7DB81BC0EBC0D08E5DAB73E845314A0D6029E81D66AC5B8E7EB15 (-0x19C2ACFE5D23340BACC9AFCE9ADE4DD1ABF291D5DEB41B35F2914BBBF4E65A0D3) 0x6FAD3224407566A55571D70B7974BEE44E122479F578F0B9D0572A070AC090D5 0x7811DC61E811BCA0D2BF987387E9A495E51B2F0442B1D8141DE07F247C8541C1;
  DS 0xD4FE79F83DF50B4BB6E422138C614F87EA724BB54502DB89CC09D274847621D3 0x580945B2798EE80C3BDF4209E24EA870A2C5D0525734FEED0B3079775CE776C1 0x2E4965553D78E0217F1362101A62357D5F84CA2C9DA16F3EBE57358CA897C27 0x4E413454CABEBDCFF4BA01109139571C26C653AAF25158B281A49C2971ED0082 0xB13676F9695568418F9AECAAB6189E69B94EFE96DFB6D38FADC6C5D23F8ACF28 (-0x2872E1A137E7BBEF207BC7EB5E52839761B082CA28A9EFB9B0E8D7AA7CCCB319);
  DS 0xCA5535550D6BAA666ED39699CB75DDEB5A8EF94F11C27C1CF76BE1E1A5FFC3FA 0x711E24F1DF8ACFFA707CF699836250AEBE60E55EB70D4C520E1AB8297CFEA6FF 0x5DE91A212BC52FA460F1F87B8FAC0DA8ED2105E24E5A4B6F8601982132BFEDB9 (-0x56407682F7F6CFC64F661C48442EB78A817007BFABE4374BE09090A2F603FA59) 0x9FEA9486AEC526394DAD30AC36632535BB316C518845ED5DF9A09B2B69D7D6CD (-0x13D2D14FCDFC7D91685E66C1E6723E7E52B597EC438BCBB1A350144A2F29CF54);
  DS 0xD13A5F861BC7FDE98B6E615D1528CCFBDBD3C49991437E0BE31E1A074AC7EE6C 0xF710D79D9EB962297E4F6232B40E8F7FEB2BC63814614D692C12DE752408221E 0xEA98E67232D3B3295D3B535532115CCAC8612C721851617526AE47A9C77BFC82 0x38E8FE0C63419F1487847C0A180431D50E9F09F959C37F899B423378D9248FB 0xAB005D4865C5F215EA525AC3FEE2B922D666AD0B01BF5C2E6BCAB886B518E8CC (-0x6D79AED5EDDED519F1AA4F6514F2FC026167E59F544F7C999E1D8F9B76B778E1);
  DS 0x6333784F1D63D7C137601CD5804C5C5CE133B80D8E864BF394E88A60906E89A3 0xA6EABC20E1AB884B00A128FD6C4F96B2F30A4BC1C1B3A51496EDB163625CBFF8 0x825061050151F57FDB104CB0F88EA8E55643E62CC644BEEFC81B4112C1E72E4D (-0x21583EBE0F7B033CB1CA47C32CABD6CDA17DEDCE054839AA8355D02307A298F00) 0x2670D96658CB32A8291479954278D9A0106EDF4ADDBE91550438F55E117B817B 0x1F0ED9E358CE8C868922617B30E991EB56E71ABB71AF74D4F076718C16C9150D;
  DS 0x40F3319A8A3976A9804D63BBBFA23CE2AC0108027A2D34402116DC1A72A02A32 0x28B6228E8D78233B1D8E42F017D732F51510D63893451D953BFB825AB54D5E7F 0xD8DCB517451E61150BE2702121248391FD9431EC26FAC256844067C7C1468D27 (-0x10460020A865AABF87718E903F196F46F65496A561F9328BCA200C890C8667D14) 0x107A7FD47A1BAAA09D21ECAA00580E2E69759216C03E7506262BEC1FD33D33BB 0x20050AC69C20D93045D7D694840706182DD6317DF5E6742928D81B58E55FC932;
  DS 0xA8F6AA44002C37EC48D0EE14E695138BE164D63FEBB9ADF6B9F63F58C952E9FA 0xD8D8FE91799651E0666F2411E3F2CEA1A05985809C255B984EF8DD7A6AD94C86 0x1EBB02C97E345080E2C588635D6CAFAF522EF635875A69B6C42B0D876869E89C 0x10AD7512DCECC20377EEADACC321EFB7B508C1113FFEF9BCE41D90508F1186627 0x6F84AD24EC28C0AC6B71B7E46F7176B3993B15F4BCC87F51054E8EAEAF2C2360 (-0x74409707453D81A7EDA758C1C09BA9ADF8185DA2BAEA5E571F5742B041199EB7)].
(** Per block: the sum of its six points, then for each tooth the slopes of the additions. *)
Inductive lstep := LS (l k1 k2 k3 : Z).
Definition block_cert : list (list dstep * list (list lstep)) := [
  ([DS 0xD12D3C6F055806FCBCDC7EAEB42B634B50FACFA2BB9CFCD4C4A51215CCA1F275 0x41F7FA0A9A59513AE221E3B84B91995FC9D40EB5D120A6D8E663452AD92099C8 0xF7EC24416D13B49DDA2E33A1A7DF14482423D69B2A22E54C21543145A186BEFD 0x2668DB1B3A0D16CC133505F8055D1701333B2A8693E4F7097536015D5E0AFAF2 0xAAEAE4AB9405D70206F3829B9B85363F1563288F06FAF2B0472CE65CA97F4743 (-0x35E71B4C56607AB74F058CEDBA0208A2FD126E8A3A2B571C1F734A20B99D5D3E);
    DS 0xD9C556628C09D8FE0378949E8EBEA8028F942D6460EFD0DCE8AACF7F0A3E0D00 0x63923CA1EE39C2274D21CFCEA06E49409AD222DABEB9EC4F0079F14356B5079E 0x43E6F7D2F0DBD9DDDB0187B82FC38A7927E4B17CB689FD032A2D86FA76A1B616 (-0xB08D8F997F97791254A9272AD4B8D3BF599919D23AD40AA6660F5A2795DF773) 0xB9402491223A950CBAC3561003C8FE7E8B99A266821DD687C70F11B9D3CB3974 (-0x1C95A97E465AC6DD675F00AB608D9CD34D8287D9D5038E88E48A9802846E2A5D);
    DS 0xD2A83EA2ADC13A5E59CFE246600B39FB33E83F90811244533046569BB5924304 0xC3EDB42B13ADBC95F75B23182EFA4ACC27A2E57D4ED40A114605B272370ADDC3 0x15D8B83E63AA8394D6DB95F2D3F8D530E827FDB26501DD03552A44361FC517CE (-0x5515B1AFA84160BCE2D4430372BDC621D89B82E44883D75E5E66F29ED139E2F) 0xAD58755529E844E95DF13DBB639A3831CBC878D1E62DD8F7C92C145DA7F55022 (-0x4F4A5BA854F51E1BF37BA266CA0BE7E8ACFFFC26B5C297ECE6EF25F806DA4C08);
    DS 0x73C8559342A19B72A4C9D2B8D634F4C33FD18932C693C6EA9653E2015B4B6237 0x4D8058DCE2EB2963366DB107EB3AAB87BA78AD95B892B666F0DCAE687D02A4C5 0xEF00322845631421CF2E0AB3673BBE04229829DEA51FF29DF8DD6F025D2AAC0A (-0x370388D602B773B2D4810492071721BE8C4541983C4513571401823722DDF36F) 0x345D99A820906D20CB592FEE98886290F5B42B3345B30EEB19B78FD8A87CB66C 0x358FCD09E3ECD8733AE1047137025945827093898C9662C604A1DBC3B2478466;
    DS 0x83758CDFED6E37904C8E2C1E7D797E083BAED28CD06A9BA5E4A1322C2477CF79 0x629BEE58A391595FEB20C5344933937ACDB2EBA186D49F8B845C1B5F4CA87182 0x7251BE9D8C393F97D1D5121B8910579489ED3F8108DF8F2F23BB790DB816ABAA 0x2E7B54503EE345152942B6B1A5015BFEA6FEF259F20272012A0AC9796B4D7FB3 0x438184273F33832C873F5E91620B987EC8704A09C1389563CD84B1B0D1040150 (-0xAD6CEB7317E9A7C91707044D029578B592F45AD998CD1DFDDBCB05060AD3147)],
   [[LS 0xCDED4346B47187A2B5E3BC008E6A45D4961BFFBB99110A8BD7C3D36CFE3AA1EA 0x129C0B3457C5A3866492F599CD65C3040C4D7233D486202D5C1D6D5D78114567 0xA5A5D9A4DF96036A54D8B4097F5AD622ED33C39B5D04E5420E68D0B0805099B5 (-0xAA3A9A0476C1859AFED88D37B163B9919EDAF6CBA16330D65845DD09A196493)];
    [LS 0xD34C63168A647686770BB3599CB774AD5DE79174789E51D9FA062BF88B6137D5 0x6C7FBB18A4267631A4CED2339669F2CCD64B370A127E00D7DD650B151EA24634 0xAE67022223DE380DCFD4CEFD808B74C03F6C185F11A322CC3080E0B6A3E81022 0x1A709C1BD75FB3BAE8208DB1A962C2D4245E94B774E78ED3FABC8765B54F20D; LS 0xECF7FFEC97E084451A9F356FA197B1E4F40896A3A10E575AE403CEC8602003FD 0x6D6FEEE1354DDA1A132540B5A1367F2487BBE5822165582D75AB756642BDF23C 0xDB5A301C126C38584DFF152274062A384D833E9E790F19408BC3F761E087F227 (-0x40E04BFA49C679C09FD23FE5C2ECA991046E43897D7308ABC22165744F56E279)];
    [LS 0x1C8BC133E026AC0B4FE4A4EA9A3D5B7B8635C5F7C017DB2BECFF6C56E4D4269C 0x38E982F221F748BACA14C6E9FB7ECEDF6C55A70EFC9681AB980320C7491F4E2 0x32EDE8EB92D221EB0D81442510F69050DA3B501BA0C15F0630B227BDBEB1A5F 0x9CBCBB43C969A0F6B1570A52B35730AD7405941D75F00B69319300377AD580F; LS 0x73D8EB69C183C94411FBE76E803811C06F77A75412ECAFB1EA9B32CA29AA47B7 0x87335804786155289B9B7652E15A80107C31969E67F5BF7E5D74A558C341A7A 0x346C9B4F1ECE4A2F0EECB72F4A37A7B790651F8FD1D9CA65853C6527F4192D89 (-0x24F4D38C07F46E05C863F1DD6F58B3D87C3AEC825E7A628A3FB30485FE43EE1D); LS 0x48AF8DA0437210FB651176AA4E9DC9B78E5A3B8CD836B8DDA35793281678BE79 0x9A025B3F007F24D2FC6ADEE1886AB58F29363928C45D9632505ABE57B82A8C7 0x14A3380D15664E20A79D0FEA5389B7D97A4719D8F4D8E032BE4F285E21D9AB22 0x8875CF14B028ACC032841BDB12AA78E2FE1D407744512D09E22E36EEA75FE69; LS 0xD4BAAD67F313892847CE6BF399D43D257E9A2A73367CEF2142D4C9C5A2DC175A (-0x2AB928160B4B94292E8258FBC35B31A8B5DBADAA5EF0A631E6BDD728849A55B4) 0xB0C5B7549B1B3C4BED5D2217388DD66387FB8E4B45AB8488E3F2D70B9445580D (-0x199192F08B354C3F32CE928BAEAB0C6E63A9ED206C67C1053C59894702A7FAEE)];
    [LS 0x7B7B6A6621977D3C54CB40BCFA08F30F6BED85B156092A5528C66246BEA6F49E (-0x244AFD1DBBC8E17F98D8CE5442A9C89FD00DDC443F28DA9E907A1A27A4092142) 0x3B8FD3BD8EA4967A8E4AF5C039BD5B4E7AEC9837FCCFDF90E8D301A880C70D11 (-0x426A0EABD058993BD7D7958DCB5E6792596DFB544E4FB2BDC8ADCCE1E75643B4); LS 0x2ECC6ACE282401E8C31936978056CCDFE09619E0A5A1B1E3BCA3C0528AC0CADE (-0x102C2AF559B23BABA9D32AB7D36B6A23453B3270C3E91032A4589764624065DD) 0x88E199C7B8C495522E719A197CF73607E65C47F1B607D09E287BC41CD655FF9 0x4CAEE1ED7DB67E8CD3DAAFE3281DD133197FD5F9E73C74A828C75B8D3908179; LS 0xAC1C1D0748CF4F68EE3461552DC2FC98DC6E0F93057B3A593F091B1BD2201605 (-0x313D3CA6FAEBB0571D4697DF3AABF804C620C811E073CAAD79D8B9C2F3D3D704) 0x73B5CA1826B926C26713E0812F5B4297654D55DE074BB78BD91CEA1161EF68D1 0x38CE1443E4304A1C00DFF35EDB95DDFBD3274018554D9A641EE8EA6A0E50EDE9; LS 0xA8EC9CF47400EC9D33577A01A1FF0659F78250AA42EDAA99769582C2D82CDB53 (-0x689FAF6C96C5C022A4D59338699552BB5FBA8BE77730E5FE307186A0B7A1498A) 0x6F7768B29B31EF110BECF216E44D74D82FF6E23C111BA651411A128E8355B81C 0x659DD4D80B225BA844DC30A9891DE4F64A36F53B928E5E39A16A6E636BABEBB0; LS 0x48D8AEF93A617FBEAA0D5194346F5F3AEFF6BBA0723539B1A40C26B1397D725 0x3969268121E78C9BBAD432E428D0F357C2AB0A562F2C3468D27D5F5660444B 0x14BA99D3ED011A61FA08777263AEECE04E49215C81E99BFACA38A62EA995F7 (-0x34DBB937EF463384BA138CC4370B8364C6F5FF4BD0655DC5D60ADA2D9F85754); LS 0xB00E859B9B185F041ECAC847806DA17FBF05781B94BBE5F974949D956A03597A (-0x750148778791083D66C2614FCF98B5613231A978784DE45E48A790D5ABB76068) 0x7913F888D801870C8EFE0DED2764FF8C5CCD0829D92132720A9E29AB3A2AF2BB 0x60F3709F4B3016EDD9DD87B6BCB8F8E8AFC9C9C44CBB8147099E8A375765BCEB; LS 0x2770FEC01967BB983D9B56F7F1977C79F7BF75C1EEBCECBDDA60A1FF7406286F (-0x6A7E964025A1F5830E110E7648F4007FA43ACDEF14EFE048ED7CEC5A0EBFE1B) 0x6139F7E6D55987C7E5C27B48827B253A37EC148747EF527459E8329790FD283 (-0x19FC4707A3F8144BA17874F9D9E662645A61BB298135379C42F9BA0FEDFF1B42); LS 0xFAB84000BDF8D84E84435827803A9C043C6CF4F2F5F3D02896E8233C64EBB2CE (-0xB96B3CEE282F5E91ECE14D60372A958AA18E36B7A4AABCBF662BBBE8EA1147D8) 0xF58C619D841B7B2D44524C65497ED7017C1EAA42B3CC272D14B184B9943DD866 0xAF3776663216D9D8C55483180098FB5094D4840A766E3C389C67A5E21F3605F1];
    [LS 0x22301CEE31B8D6C056832B285B4993450192381FDE0071D979AE6A891E8D2C16 (-0x5ECDF20B798AA7C29F0421A754EB56B2619608F515B9D6A2BF194294B81DFF0) 0x490D0BA21CCB6DC8B6CF0DF7E778DF00E6A57E4C95CA54F7E426D2A4B6ED36B 0x463597BAAAE65D483711BDC4C52BC9C6A8561BDD28262BE9D5E3F6D62D82FC; LS 0x5473E71FC8F41464784A3B030550FFB0A64FA4006AF67B0FD3441723EF2C3CC5 (-0x13000DCDF620B2653173543378573DAFE3A03079AE3F3714BD286E4D98627B42) 0x1BDC44265319194706DD5369F5C6D0D41EB55A0EDBFE8E6D385290D96FADC46D (-0x2CBE4B6F0C604C9A1B645D834A63440113E8AC8BA40CEE2BFADB91487A1CD59E); LS 0x8AD9E0DC303E286C74A9E75A4F5F8AD6456ECC1FA0741EC5EDE812487356C891 (-0x16FAA35F02B728B4436FE580DCC5F8D2E4DFE4765047FAB4ED1EA15EACBCED2F) 0x4B4F9FDC5ECEDEC5304F9A49B43B8B3DAB9EE176EE542AF6506AACDEC0AA54BF (-0x4FA3B59059D7DE97524D6CC1EBDC57B91707209F3BC773C9438E78846DEF0FB5); LS 0x205CCADAD941C990CACF5D2832CEA9D7A3D3DB2AB1E5FF28D10F1BE58EF2D7FC (-0x1024160F77DFA397435FC607F5EBF53169B1550A6F9D40A89CB6D11E747C9F3C) 0x4175459245AB39FA149FF9D1BD5813E86BE45BC4962990741194A1C601C8068 0x7535C3EF1566FE3268D46FD401D14BECC38B8FDCC8B0E1BB889549B1814E9ED; LS 0x65563A1092874E063714BDEE6076252A7404EEB5623B51230F14564E8AACEE3E 0x11366586DB0811C7BEDD72727845F001AA4F6E9224F2F873878C8E41FC0C8809 0x281D26DC23ECB9F147C68E0C761754718BAE4DCB09101E0E6E100C6FE617E39B (-0xAD39F7EB193E6EC390C9EBCCC6B1185478C1B70E01309E9EF1FC6A0C7DFF3E0); LS 0x5E5DF9068398229381D4B72DDDB1B457BB9DF8D5F8D6C53325F2747F5C55A07B (-0x3355AEAAEBB3AE25F739656FE6C66F6E69C9CA09993A75E2DBF550A4E7388B67) 0x22C9255FA99D0215D48E2A58B326C684DED3331DE852310F11AD5AD9067D40ED 0x2398D4A68780863D7F1178B7DB7A754CEB803024FD195093C519AC757E2001CF; LS 0x70BDBB9367B545932766A00C3130C6D07C32E0B0FB6A98D5D85094B9CBAB7F55 (-0x56DE35B3D5D00C616310BD771FD9DF95C3E90E33CE2412C0810A17C50B8AA58) 0x31A690BF7BD66CEC95983A7A096BE19576026DFCECB5B0550762046E18AF743F (-0x205646916114E8733A2875496C6609BB90AA450C0DE99B46DD6F3728E2D60ACF); LS 0x7C0B1221B507EE6FD3650FAC0E7D9D6D2D928AFD3D0F6F051861897FF489D716 (-0x4CC6C4957F059220E9740BD616014B128F118CD270885EE39C9FB6EF8F4005B6) 0x3C1ABA0B378DFF901BFD7BD5C633C14BC34B7F27BEE8FEAE78B052F385236B71 0x1B269AC2C3E3533DB80C7CC645C9DA24815A1687EBC4529835F86D07C7212E3F; LS 0x1E245982E55F36879F53D297E700EB3BA1D7F23186D0BEDB4C6CBF4E2547AAF (-0x156F8FEE1C76CEB414F6A164A73271164B5ADB39FCF902E04FD330AEA94E2F8) 0x38C8A23F9DF19F9159D9E6D15BE66543DA104D477F37825BD5A560DD9CD79 0x1522625E329D28BD0EEC53DFEA0945ECB2182FD0AF1CB10D77208E7E078DB9B; LS 0x3287DD71C0360DFD08C9BEEDF60FE6627560D69DBBE1DB04ADD5EE241B87AFFF (-0x6318978759E0E93FC69C9155E47885E7FD01B34B5A45814F376724AF71AF2CB) 0x9F95A9BBC9B6EE22C7E6E4FDD8B242E79717217E3ABCE84ADD2435BD5FD2C46 (-0x14A584AF69C27B76D0A2CABA08DF8D2D76E95332468BA43622E7BC60E4835222); LS 0xF501355A35162A9A611D51C1DE624F857C128AA718387E47C37B2144FED8B60D 0x285130F144AF7037DFC5FAD0156B7C415AF17F9990D369C403641AA494799570 0xEA7B50201F6F517C5F52F1096979853A1EEBC81F1F5C9DA7994A19C21BD80BD8 (-0x977A93AA957C8C844C4B5DC7485F1758FF77C68830B00BB4D136A12EAAEE5DD5); LS 0xFDABA9A16DD539DC1BFEFA9B5722649B42A71EEF8C7C9405F9C5111827A8F05F 0x1A137D1C1173E77D38B7372D874537D2D6BE1A5284C0E9C8E573B98B590A5D87 0xFB5CC0652126B807371A0AAA788A2CA946DADF3907C052B16507F557B500EE39 (-0xB2FA33747D63EA1529818D4ADB1959CAA324F73DB92B899778B9DD6E3F1D9450); LS 0x2A3454D45F71535DAE1F4E8DF7EA8B2E2D9F2EF977727DE0FF5E1AEEB11657FA (-0x17749995D23FFBB2AB808072C900DAB0DC9740A7B481E126CD70F7168D5809D8) 0x6F5368841B40435312DDDF5A981C7E936FA3B616DCCC9B75CE6690CBD6E7637 0x137792E0B3BBC531546208D9111D8A16FAEC021752B4F3713BBF9214BBF6F8F9; LS 0x656AF77017D6E7EF8E12B6A9E04FD0AB57E1960786D444F81776C8EF277A9C94 0xADB59A19CD1DF2BC8B6E50830EA1D315C01135BACA8802CF5EF3DD1970719B 0x282D93F04ACCD010AA4FF37B5EB376EA917FC5A7927553FEB1C90D56444C8A9F (-0x2078DDE082500B79A24CC14B48A572C45D30B9D10D26E2D3D88FA80856CF8FAD); LS 0xCF06BDA9546AEB75B9A6D1D0B0718D3A4BD29870CCBD7F4F13EEF0A75C2E1E19 (-0x925DCC669A10F04220DEC2A49CBA6CC5B7FF7BB6BD9BBCB0E0D0540E7D3D38D4) 0xA76BE6E546F85471DC6D87DDDB13A299B8BEC2AFFE44588A342E423A079F9BA8 0x7070AEF6C2B1BBA87BC2B298623176D3B9DEC031426877D41B71A9C2F330F824; LS 0x5772450684306003212D7D7CC8D1E04B92939A4C62734CCFC301DB4BD5C8C304 0x6FCCA6EC5442DD2DDA9312257F4D4D2CC51AD6C0804A82886378C3D0BDA8015 0x1DDEDDEBFA431FC42D9E93FE06CE5ADD550D26DF76D562459DFE8A311D3041E2 0x8B36291C93756F7C8D89130708D4495F451199AE0C00FC4EA5AF6A51645110E]]);
  ([DS 0xAB7C8A410BB53DAF662BD44087BBB4EF4118A75E043D2295F0FED3228A5162D6 0x54AA2E023038FD83F17A633FD9AB441FE039DD0C057F93683DA013F1751C6813 0xB2E9C535650C1F73FF64BB34CA71450CE5533A11F4246E8F2E4B209BDF2CEFB 0x6AE362AB78809715B9F8A3D352A0BB7E40D91496E01C5AB58B4E36AD2ADCEB9E 0x72DF9D491F51A9226D7D08DA529AE9BF9FE5C9AF3A4BCF6DDA0FBE6DA98430AE (-0x3231DB8FBCC8889DF6D42D9D7C0AA70B4F6EFBEE0A4FA6D349FBEC917F87578D);
    DS 0x41DB3F60FA20013C7B10857A1E10E0C4551743881FFB3C323E9D9B95AD37F469 0x4EAEF33AE502BE1DF41C08E2F3D32ED97A550DD27E4A458ABA5633EB1387AAEE 0xA4DB4D25B677B30933455431F9CCC38A41CA2866BAA46B72D8587DC4DC508A60 (-0x6735E388C673D2A5D6162B61C86E9DF22D665E1BA63D56CBF71B1631CABE97) 0x10F111F4BEA1133B20F82A653FC6C97B0B9B7D401E85A43FEF37A2BE58C9C954 0x189E952FA1B4A950CDF9B044A267554A4D5A0B7EB132518189A331862D43FCE;
    DS 0xEABAC617C00F99F17CDF5A055F92288F7E6B49B7CAF914D8E8AA0FAB6553BA41 0x891C176B867A25945F790DE9035AB7FE0A0B001B846E45C57377F9D3A0A2C478 0x97A19DF3D4FEA3C2F1D3ECF36E7EBA95C4611977998708B76DC2C84BBA83406B 0x8BEA7F36F2CBF1132ADB33B083DF3E555D465CF848507FBD4238906522CEF9AA 0xD739FA67DEE85B656038638C3416C39A75A8946799295ABA82069E252769204F (-0x35926396948DBD4035BFE7E0B3C8B106E5BCE28A8AFADE60967A60951E2D543B);
    DS 0xAF45B8E20FBDB2C23C2ADB61E0EEE9AA361303FA77A7DDBF874B138D9B0D6C02 0x7910F472B20FDD32DA49408C329F7BF800E84DE866014D5294CD9852AC6B3CB2 0xFD28F44666AD753E21E2AE5A37AD5F9847420580B86627DD617BBC9ACB92DF4A 0x29FA9049DADA4640AFF082A34C6D3380FD9D49CA8047F3950966DDB7AFE25DA7 0x780065C240E794E867D5A3FE1DFE7C7180773F421C2A67CF0B3F073578520468 0xAFBFB7EB23A2AF166DC6DD47A05A44A8D4B5D4F238FF9E19CB0564959B88CD9;
    DS 0xBA82269405F86CB4729078A6FF8040F18E8A30BD26F50399A3FBC3F436E41166 0x840E41BF13203A96F41EA0411EC034FDDB0DAC3D53B6BBC94F8A3A78D0371235 0x8E4AEAAF58650CE6A9364C21034E982F3C1CE71457AD112387B6F239025531AA 0x1E5853AE1E0DADD300F3295769E75055AA3F74ED2B30D3D9F23E9E3F3029848E 0x87E1623A4CD355A14565320667FF4E0DF5CDFB39A9FF788C591239E73305F6DC (-0x801A072B37AD14AAE71EC02A30596CE271CEEF9274DDDBD3FCFE81F088B24BA)],
   [[LS 0x2236211279BD957D89619089A5E796AFE4823234ACBC68CFA36D279CD4FB7C0A (-0x261987100BB825D65306CA7CDDEF226DFE02A8BED3967B2440250BB51460618) 0x4926C3AE0677C68A28C0656C1A5C607E3A65DBD6C24B02CD9F5BF2E0F45FFEA 0x61782E80A35EDBF65D884B80791A2568171F0F6F6CC01BFA4A16FB021F521A5];
    [LS 0x5933874C995DD237EF9526A8CE2D30A1222D2481BB695D22038E1CCEAFAA38E6 0x252D252CAED49B4D9066C8745573BAEE9DE6A48FC5BAA52F774703F7C1C20A36 0x1F14DE7272AA3839062C41DD9B96BB5CE0E907EC89BD6917A58E8847774B65BC 0x63F6A4D4C7F5DC2848D648AB1002FF90CF22596E89CFC50770003ED92D35E81; LS 0xD6F416819C0BC714509A1C0E946E4A2802837C5BDD5B8661A1F0D536C4575838 0x7FDC8EF14F4B049362342C02ABDF14CD75A8E11DFEF4456E0D20BE908566BB15 0xB47CFE5B99EFAFBA1EAFC82D0CE174C943992284737F0F2097CE2606DEB6629D (-0x1615F1DF14142031E05A66D5D679FC57D43290774491279A57DA8003B8B75C43)];
    [LS 0x8831C81DF6D004D84825C7E3ADBBBDE9AE9963FD3414D584516999B7E5E87FA1 (-0x3DB604D4AB3580C635C69863C95943800C4F89308C63E266340EA442D66F3927) 0x4874EE4E0E2455EE881B3EEB58D8573B1872CE6EC0E83E7D00E1F0DE0CC8DC3C 0x2E5F0E454ECC9EE3A608A9330888B8346199527384274FBD904085AC040FB1FD; LS 0x36460F3DC81AC117065DFB41F0C98F822A09ABB019ED116FA28A8988DFB6F0D7 (-0xEED7E452D2899CADAB3F3BB30A0BD497B68C7783BC01A371650E5675833DA6A) 0xB81A19A671D04736B11A99D0A240BC3AF4FAD0AAC7F1D4AB652738CD0D2F49F (-0xAE75F294B4C75120DF9F573EB02BFF13555726AF03BC2CAFF9651F256107F99); LS 0x243860541569945FD7ED42A10F2C02A06589FE3D13510DC84BC0F13C6C020124 (-0xDDFF58410D18087D295D0CB430D1C91AF5F671794BB32B8F5A9389A2F20DC07) 0x51FE781EF0E3B991D04F144DE728C2C9B72FAB61E5CB25061431D75179020DA (-0x11D399812049F7520E6CE614D1470340ECA8513C51674E8B5751D32E5A4CD2F1); LS 0x9E9046F994B8BA929455AFB86403114616F35FB317A0C167A258D0088DFD9041 (-0x3BE76C50D7F55A1D71D9B382A20933CFB42C625F4069DDFDCA4B33834CC029FC) 0x623668EC0008C6C67FC9DC96EBDE99FE06530AB63D02A4407B141C584868D127 (-0x4F4594C07940483A77437C8D18CEE6B27CA1B05ED06264F95068DCD8A651AB6B)];
    [LS 0xF83BFA5DFB81A8101A26FCA0BB21F977E82D8520039A96B122AEFC4B63B9FE4E 0x5A22FAA9B89AB17CF3EC1765F754B7C54582F04927CF148DEC8E6CDA9D192478 0xF0B443237378D51C99A2A771643D814BDD1A5BE423A78842AC64A27424A75121 (-0x37CDA56F025A51611C08CA3288C775C664EF306DB51FD349A87024C47D7B0271); LS 0x70B16007D00E82E9BE94B8036428108F9F10DA863858E98973A338FF2E98618B 0x3CFC93D3B01C0DF2590E716A3469B1AEABC3DFF2A66123ACA9F1B3AD25105AF7 0x319BAEECC4E042E57A0DB7EFCCACE7773F00E2657A8547C1143C6FB00C7AE2CC (-0x42C9EB74DF952712F8F60B4A2947A349CF824AF03F201C258EB69D493397FAC4); LS 0xEDE67F8191C7F4ED7F8463CB23C5CF2C8D3E08686EE4487D4A294DA231EF036B 0x670C06C29106019A7087395C8E8C3D787A13B30B16DCA84CB2D099C01C0E9F05 0xDD14979F443FFF047C68DE2D0DB6798A0FB3FA16DA2A4FCC3C54A94C78BF91E8 0x5DC3DD59904D6A70B9845D80C3A955A59A488BBB918BE4BE216CFCF7FBEFCC56; LS 0xBD112FE8A8FA4E41FDDDD4263A4CAF60A79C783FDFA0A92B2C986B9F387F891A 0x52E47CAA0207D21AA05B9CE10C374C422C80565FAB65637237321D35549AFD3A 0x8BA261E4EF5F4A4A7390D0FDC322CB4070926982CC1096F9E894BAE472E7F6E1 0x104EAFFB0E3FFF6B062600B5387F9A4FA4410CD7AB0D126C3466D3D68CFC4206; LS 0x120091E3E7195F5F6DC3FADE8BC3D8D7A70E153C3DCFD7FE705A83669572F8AE 0xCAA8AFE18FDEE42212C3A1A168EDB2E2DDD14592AA671933D97C2D74CEA06A2 0x14414845FA38817D117997DF3A9A18CC6DD68D2F78347CD5AE5AF1CDC9BFDA1 (-0x955D0AFA08BD7A46274710B65ECCFF1F72533A6325EF333931C8AA0ABDC987E); LS 0x93F9B489ECC6A24CBDB5C6681CF9607DF19C2999A8F2BC3B99ACF68338DA1319 0x325A11A9C966E6CD16F6292676620657873785D79AEFF102A9CE34403A8AE004 0x5588B8E7198CF81276FC43BF26C15836292BD24DC6D6CB85457FE16ADBF7A217 0x1DFF84F29330CD413D10A0C33327CD0A1E670707C4E227B732ECD4EFB045AEF1; LS 0x4C46D1950C77C856A0C80C2193DED0668A8EB7392989C19A164A93FCAC480AF (-0x48077B878C1DD9B6D56F2E8FB741B9B7A760FF92B7994FCB9E2F3FD711F24A) 0x16BA2007C87EA59817FECECC5B39CFC6376A2E383EC04AD094FF42A90FE131 0x221F47026ED735924B6F26D17F985A33016CB24C9C54E6A73F7FF8DE8E554C8; LS 0x2F7F52472438E4502EFC80163A8E23507CAA30F66AF11CE5EB7D91EE027D142C (-0x2EBE50DB131F39F9ED9BB800BD15E31CAFCDE1C03E0341A622DE8BFBEA2F44B) 0x8CFFF88DC547B4187C164FE4D96132395E24ABD84701AA360B714C3267050AF 0xCDA1C9A493C3A17C1C4F14F764C2260F0FCF7D1FB567A4FA2F4448CB327CE48];
    [LS 0xDD5D4B101229EC28296A414A2A1D75D086E4AB23157D7DF78E2CB7357BADF78D 0x6A3CD7124F9782C67F9659EF3F2F21E5B7C8E8DE226FD7C2832B89FF82D0D33B 0xBF6A35995F0BFFD9C396854A10AD5CA46115B6923133F1D65DC4A2D8D246EB94 (-0x28AE9AE6E8932DD35C9A746193D463774F6DF7E77BE8B5CCEC4537DAAFF5091A); LS 0x538E3D39B51F0B3D13F9C0EA8134E51EAD09E166276D9ACA6269D33C761B5563 0x36FA7CB3F20ED2C17BF7666303DDB49F950C6C63237E6E7B505A039EFC7B21F2 0x1B458ABB661B9D0D0609228A169F9CD321A43932B4775E632A6F370D611637C8 0xC55367313B38E509C1A232C3C5E89488DCE9D907F34BD7A38A4C7D190DFC5ED; LS 0x7D1664086316A6B4CFCE1B93A8F8A302E29248C4BAC6F0BCAB125FA16C5DC066 0x44CB1E5DC168B385D5A14131F81CED9E1FC0ECEEC02E6E8D7173F4D373411B7C 0x3D1EDFA5894BB461440532F1DF2D0D1EC500D38692DC3166A8DD86E7AA0903E8 (-0xD6420A4A8C0EA3ACB00A7E65CC1D89A61E2E85FD3120D981588B1B1568B283B); LS 0xF1ADAEFB5FE6F595DA515BCA703843B40FED17C0B42B886506D626F5AA1FA6AC 0x8630846AC1638625EA819E7F683281E266DDB5F6CFEF818A3237F8948669CD23 0xE428794B41EB25BF3A40C40D581BA2F1D757DBE4117C70F5E4D1CE67E4368A39 (-0x3570D402F048654DF6163EF6F41B6D1C24A778983F0E54B46D85E8B10D74C89B); LS 0x3B756FE4F088900A61536CCAF8E17B75DEB5FA486B60A0E61062A73974C497C8 0x30C7AD6A70C113B4B7AC1B58C68C3129AED0D02BCD21EC668BF6899947320A2B 0xDCF5772FF0B248C3483543787C0BCEBCD51F75580A989AF5ABB1B7A5B8BA43F (-0x20B7D641CAE5B25739CF7C516F0E4839C508000958B933DC391D0C91CFDDC3AA); LS 0xC20A6FAA6C150C360E3CB0AA57CA2588C536B0D158DD8C59645FD4E5AFA933AD 0x58B1504312ADCF3B93574F61EB59E13F61CC6B13E06EFD8CE20B4FA5C391C31F 0x9313D1AB35D59354DBF9F4AC21A23ED08796E991EC043065C9EA18459222A540 (-0x32DEC15A024BFCADED8CD9DA8EBF67869AE91A31C8143616A4736BFB6EE870E0); LS 0x4C0042C24C828C7D6C125A1290BD2EB0F058421AC8FE4220FBE06353DE2184F6 0x464662087245A5764F27E5DCA6955D16BD69D0C7E4A13BE239A5C5267AB2F25 0x169027A36ED64655D5564549BCD87E43445D7CF6E1D7A12B26FC08B93DD8B520 0x13A23487FB0663472B3C970E4B80DF90F1051D5F0DFF4E1CDF4C7B479D897D43; LS 0xFF2EBEE7DA18989906A8C40E4DD08ED0151FB9CD83FB114B01155AF7C1810C31 0xE1CC25F45A4BDDAB2DFEC81E30AEDBB4CDA0C006B6411A1B81C1ABCAB5A9693 0xFE5E28DB0E2C5A8F86F70B8912BF41B65D28DEB7D649980F6F008C0DBF6FF856 0x6D2E3F5208B21796C1DAAB10956CF4030D1A30E3F0F163346894D6A908C70FC5; LS 0x8197DB7AC11B1F3B39C38B3511C2360801FB626A15B6214B5D94EDE4986505D7 0x210FDBEE7A4A8E9DC94BA5E75BBBD3976281F5FA33E8166889B2D8F35A324ADC 0x419A65465D9864B98F0838383A74955D6FD92550B2BEFC793000D2F008E3A465 0x456D676AD6DFB2910C10669FDD42E91374E2570D9DE68D440917BF4E9FC88F9B; LS 0xB17C9C3B13F0AEF6906C3A98FDAA7C1E46D1C88E20A08E06FE2A4855FA899E5 0xB98225EB3ED81972309C7D8B83120E659AC1B3BAC0E518BB7C815F4EA96552 0x7B0D8CB16A263109FA4C53CBEB9BE9E464C243713B746AA2A3BD9F239FE6C0 0x17CEF8D4C4B408BDB475962529F14BD6213AAD4B0BF38EBE880CAE6D9590856; LS 0xB6A9AB013A5BB94B7C6A1AA3D6D6D06ABBD16E908E23036F1C5EF73E822244A9 0xAC73A01D6E4CFEDF0105D69CD38578913A4AA2C1877165900378287CA66D3F22 0x8255AF98F8D41C8A06211D98505EE5D6430D6CEC74F5F1682C1CEF9A76F70860 (-0x61BEC561D73D8D53E9F6D062C7406F991B0F5D77B4BE04A54CA1F27775AD4CBA); LS 0x9134605C72064935D3C4012329A1839D8694C436284281CC701BA8784596EDBC 0x5D25C50135EEEAE2A4CA346F3221E3F892DA6A0176A0633541EF5EF11D50813F 0x525C5FE002FEE86395F8A7C8F53D4D7F7EF4F3E6E359C450041E68A20BB205D8 (-0x5BAD89CB742EF35E83CD548E390A093E48ED2364E8871AF5BF7D1437D1EB077D); LS 0x6D4DFF1B91BA8E2C0F42D06EC1886E94E04C719A44531751DCF6BFC6E3A53E8A 0x20FE225DAC3E9C77F48A563174A6BA8DF4ABB3E6945D22E1F369D730CEAD3A09 0x2EAB8300EEE67694C30AB462D707FCDFA2ED2321A4EACBFE7B9137CD2BF86DEB (-0x118737BA7B40D0703CE4606943B3F6F9D19BEC0632EFC7E76BAFC0D29957ED53); LS 0x39951C28BA46F6B2BAB52AFC23EE357811FF54E4FC4CA2F235810E7667AD9875 0x25FE466FC0858433364FF2E2AB97941E9B0D51B04D6F1A94FDCACCCED72930A6 0xCF3BD63ED755FB106E166E1DA4FD6E74CBD8ACFF71315BF10F1471012B1A8F5 (-0x136C45A7348721AAA7E57871E37791B0696BB5222B8CEFF61E197A8DCD4A3BD7); LS 0xEC60CC6E465AE762C80BD3E0EE82F12FD3515B8CB35A67A60D33307D79EE7C37 0x77675CED98C2661EA811826F2FDEA70BD4943A69332FFAE7A417D929E4C47C81 0xDA429D8547AC4E6D1525F60DEC4B6BA5D4BFEDED5A1BCFD39B857CB20D098789 (-0x343FC5783C261A04772FA0DEFE6FA44D8505B8D712E7D81C8749B8ED880B2E5B); LS 0x9E92A8F702DB0C730F5B66F87F1857005E5542A3D7EF37DABACD0A3866F8454B 0x33AD3F80A29F545CCF0D468E712B80165FC57B79521E6534818D99E7CA2F270F 0x62395C9610CAC74E3D43892BE38E8EA251DCB0E9028653777872864CBD5D481A 0x3498D49D5C1C5CF3103C633ED11C0032C54BE5E5FCAA8E331CB15AC627E8C4B4]]);
  ([DS 0xD6E79C8E44DC076F0C5B86F2E3555A546A39ACBACE4F4829CC6C6F204257D48B 0x3984FCE2AB73C70FA5538206C2A61E602F160B1D2EB61980FE174CBEFE464DAC 0x4819A3E5B94AF38D9DE1C037B0B3830C979FA980540FF8BCA02E4EBF8BFFC9C5 0x5C18A9CD10009424C30F3A632D9CDA9159D7CCC4234338F9485EDAA57F12007F 0xB4680B49C39DD47FB2BE8A1CA60FD16C124C4F1A12271FE515067B85F0BD90BE (-0x1412F95354BE15A0AFF6A820A8A6FC4A57093AAEDD04C1073BB4FD7BEF96A778);
    DS 0x9DE77D572B90A8BDD139398EC8FC5F27EFB824057108C18BFF12A8BCB0748E63 0x454FFC4BD36EF712C87F4827A207B45AEBE289051FC5AC17CBB6E6351EAF1CD8 0xA617B00262425D418F887A505DEFD323CE152338569248DF920A617996B5E59B (-0xD948190FD0EACCA1B9E8CC0FE6BDA539EA6A5B22F6FA0FB6F2F8B01273D9759) 0x6165C1105C1E4C4341B5BFA3225D1C8E33BFED06BC7D7709EF15FB7FD5D43A81 (-0x7462896181D0838C7320CD8A7AFB7AF6EB77DCC140DE243215F715AAADC13DC);
    DS 0x119386A52D58A31C04B16FDCF7E5C128D3BB3A2AA0D56EE7C2A5D8E7E0AE02BA 0x49D8EEFD6541148E6F1FAFE19DB27A0F68F39B364F46457538A5AC438571E001 0x68C4DBA8107A96B05574887FCB80F274C4D4863C6715612DA06C8983D278116B 0x4AFA8D5DEBD3B22302289EDBDEA8404023F9E9E1424FBD7E5E5317DF28FDD5A 0x134ECE5D8892F8151D8D3B2035D083AE7CED964237BA25741A4F7191B76A063 (-0x4FB523C2C0B3037130020CBE195A6EF15BF60FDC7E0B33856D0CE173C8F430);
    DS 0x36F8A3B1C6E439F14A53C2B2F8476407263A1602BAB050B92833E53CD9EF8A95 0xB27B85F7803357C306225CDD416A79AC25695E43E897D74AC101A7F033D48D78 0x8FBCA2E9EEE15FFFC5E5969F68B4D7623332711487A6500DEC58C27368B6019A 0x207AB8FA3E609938F63701C61BA1C9D53E5465D4EAA915CDE383E4B7B8C7B963 0xBCDD68C9105815D52C291D4AF25991108E97BC868E378B5DD87D5AD4C310533 (-0x1677EC4333CFE035CFBE3BB937C9BE3B65EF1F4A4F71BEFD9477FDC8410D0B38);
    DS 0x894B55CACC837DA11AD0E516D94B70EDE1EB49EFDE59A72B645DEBE77E916D3C 0x7C028BD17536793974871A6BCC957D953813331C87AE606C17AECBDFA704EBB4 0xB015FBF45F10FCE66E00647487D63F3C6C76ABC62AF93A3CE5E5C0251CD17DD6 (-0x4ABE6845B8793D292F142E4E505FDC7F626E038DC7A2BA71769E829BD9850A4B) 0x49A1B7FE7078DDF8BF6A5D684D05DDE76836938E3BE9147397408BCBCFE03FE2 0x1D36C590F70EF0D11ECCC768B2E0674CD4104EDC75CD3EC08332A4535F1EE980],
   [[LS 0x56DD6604AD5F74C7E4C18E510C9783CC80478284AC6A6F7C79C0BE4C0D6CD177 (-0xDB95AF16CC881FD5B875E52C7D26C4F173EA7474F979263F13E32F85055C215) 0x1D79800471373383E04819C59CA9B81E1C82C99ED90FFABACD66FBCE3541A5CC 0x1D8DC5D8CAECC55CA6CA7FC989596631FA02EE60220E3A9B8C1702DB8083DCB3];
    [LS 0x8EAF943BCB530598F2028AA5E027F9D772DD041501DFFFC5E7825D5A05305D5F 0xA4BEDC46171B50DEDFB02E0D66BB4575528CFF41C1A93414D35A89220D00004 0x4F8740DE552546C6ABCFE369420CCDD37D912EDCE3F9AC19274BF8CF2F877D4F (-0x15931E6737439CFDA1CB58A6F5E57800A20D483D0D940283FAC872F7B2AD87D3); LS 0x9416CF26C7BC9C4620CE75BD16D5C20EF678A78FCBD1C3230DBCF4B930B7E2F8 0x3D120B1C4F9086D5B83A14D3118106F0D05D7921FB3CDA2314CE2F22568BFC03 0x55AA618D193C25FEDE8AEF696C0089A99AACA6599DEC615778C64DDD4D1FC78B (-0x6E30E031449CA8D475732D7CB43BDB616026A5D3EC877E63E9FA0E8373FF384B)];
    [LS 0x2568D70FD4D9F76B5DAE53B31AFB04AD56EBCB553BA40A31E63F771D41A2752F (-0x9E25937AE9FF85CB6497AE2CC574D7D7884879FE0F41BDEB68C0EC318F5DA78) 0x577791A050F8B1ED06B9324C8A509951515AF4812C9D8F897E60C0756E739A6 (-0xA7F6B94EA81DD9CF6837D8AA215CE20A03DDCF18E2685E44CDA842E51FC6A11); LS 0x2DF9DCB051DE8B44B9FC4B319C330137C9722B4F9DE4CB721BCF0E00155362E9 0x37EA6B5B2451EB06BF8C21BF718312CA551589F955862ACCB7E9D746CA7C61B 0x841CB750A07060840A0B2FA68385FE7894330CB11FA2E94CE3BD020A270E59A (-0xD2E577972B2C4CAEEC7A1654F9444EE143B77F33882C0CBC15FCA3726F0F399); LS 0x1A3E5417E8B6AB8F734D5C3074E0C920A52B277BA59A5F9F92C367E5B3F1FB6 (-0xAE6ECA54E4852E7573480009F90AACB50EE67475AD6A5EA2A20A49DDA6AE60) 0x2B0B841B2798647C1DC20F05F89C0A6D80043D26228503E24C4BEF80177BA 0x19EA14305343B139A44339025553E429E926D224E75CF1C90B5D3F08C528B5; LS 0xBBFE445E46FCD94BFE7F3D0E1174E4F4232984C064072911F37601ADDCBF63AE (-0x7D97DF41FAFCF341FE202EE1916D824A00B6567670ED3ACE3059CCA3CF39586D) 0x8A0D746D790C7BA2C16A1B44488845F4A19CEBE098999D09CA5367E09D49E161 0x22F75A039CE3DE6D2D8758D1AEA87D1902F4BE8E4F9650CA5C520B219C9D2535];
    [LS 0x719E6EB3388EAE831F5FBCDAB8FEAD2AD96CDC6E7A7AD160B313FBE0CE925E2F (-0x33F14496D22BF84AEDB176A4047C63CE2D2DCC1CE7D3A581322C0F3B2292A6B6) 0x326D3FC70D064841ED8CB519C9A272BB9DEF0EE84D54145C9294AA5C4C2B3EDA (-0x2A0469413DDA6462D91F10BFC22CB6E46D731222142B7F5BF2E206D0F9A8CD04); LS 0xEA2413C1D81C7F345FA1F7D0C013012AAEC49EF5C6F1DCD7A6C778F516423CF0 (-0x1B612EF7E4E1FE748CF0CEC24B184C9BDFC8783D9D9F33C169F34E4AB52AE3B7) 0xD625F933EF1F396B51D8AB9602E4A7F6F586301A77094F8054BB3105F8056FA1 (-0x4EB8C44C107FFA6FE0C65CF5EE56A6502E69F53F99EB7BD190612BA01270E2A6); LS 0xA3F9D32234808061752949C9F987EDE1A71220FF8369AD2F05D566380C06FAA0 (-0x63C1F737BDEAEA7B5573B23CD8E3684188C2CC55EADC327A60B6B3CC8574F4E5) 0x690816A9F5872C93A94FB3F626B497DD9600A9E5C01384DB316D83020A83FFF4 0xDE1631C1ADA7DC7D4B468E35DC2D278491366AD02E7199E64264CAF3A2C23A6; LS 0x4A787C04B644F86DFB9A0E887DBEB9CEFD9DB79243A46BC7635A8EC38354BDC9 (-0x401EEFD751C414A092733D346C6E48750C3C5AF6397523699A1FBE3A5551542A) 0x15A9E06739DF50F1812963D2F0CED18B0E918CBC259AA95AE6DDBB0F9619A3E2 0x376E72173193E4019D0E9AFA8C7A2D93FD9D22C4355D43AB5FC2CB508A27D0E0; LS 0xAAF7ECB17E438A3CC6EF4EC9A58911BF81FD7854253AD479FBC1DCEC985363C5 (-0x7E231F609172E441773BE6BB9DC6776F847A4BD7AE241C5657430DA23274A0F1) 0x722E3676550B15C9D8097B27A36F7DD7D0AA1334589676DA41D9E1850499F76D 0x4FED27DA45971EBE63C105552864449CDA631CF16B513D5366F95CFFD9A6782D; LS 0x62A657E7983E8BDE58657BF34D17654385909580EE38901FFC821A4621A780D9 (-0x27D1687F8D9AB1540D11D6FE1A28D3798C468C88370DAF08175A5B3F3FA3D530) 0x2603C7636F188F323E84373B9D097CCEA568CB5490FDA5683157C981818A29B1 0x1E1D099A21F0EEF4F539AACBAD0C0823153475783BCAE7C420BEEC3B43F5988F; LS 0x6194DB12E0ECA732E4EFBB443279FE6B2C056CEEA103607B7478FB52AE5F74EE (-0x3557D444F14C501E0A7692FD469027C2D3BD0C707C0F64B8BAF2DC53C746C9A4) 0x2532249257C0B68F314DF75254E4E656D480BBEE738872DF478548442057DB33 (-0x17B56AE95F3125F1AD52E215FA5C160E2B0979CD542D65CCABA287028BC6609E); LS 0xED3D5ECD23CAA191FDC76A7A30DD94889DBF9762F0CB90F2498B3288C51E18E2 (-0xA02484C6403578765CF255DB91E853908672D80CF0D05E6AD9CCC7E0D1ED37EF) 0xDBDAB03E2523886475A52EEF2C09CC7A76BDEA3ABC6D92798942F338F66637C0 0x3CC9227FFCAE4B185E9C0BD69620FA5BCE6226B7862EAFD99ACC992B76CC7659];
    [LS 0x5A9FE1AADDA89F520B6F7E395511A4BC81BE4923400BAA805F8557DA6DB16934 (-0x19CC29CFAB1187E12F1C9C64C77F2F06EE1EFF432220B3846B487F04F93BA5FD) 0x2014CE863D07B32923E2FC756D910631A740139C2ABB27C36255DD370EC03440 (-0x119F4EECC136B46F3A7D442C6579F3265A8A1ACC1BEF439E53262E4DBFD8D71B); LS 0x542090852DF2DC880FB419B4EA7077A7098AA8B8C06131FAE8B4438786AEB101 0x4ACA7093B0D03A2B3A259AF5A75E5046927A202E35B826C1E1737FC1A165495 0x1BA562FBD908F66A6B039CDD99DFCD36187543440719BEA91D23B9D6605DD837 (-0x3168D0330C5F81364EE082FE7DFB776E341FF80F457200A538037041002AA53B); LS 0x266B082E0B19B6958CB8079B06104373C16CC0A47C49DA1FBA259777EF497065 (-0x10BEC5ED34FC294A10C494DC5B2AFCCC49CEC8D9D7E5CE2F64C64A4C9BEFA2BD) 0x5C3F32D820BD2AC9FEC72E8798699C1876F1C73F94BEA4D64C1A8C570451AF8 0x14DFE38CE1669D6352BCF837949B496357FA5C5A6E4D5E76ED6238C5B0D1C7C4; LS 0xDD12C0588E36542352C7EFA09810B5DF25C56E22829D6669B57499A472EA32B0 (-0x9836B48E1D3A6D997013E2CECEA3A4342823B7868338CFBBAF63D01B9D969A8E) 0xBEE961788282C0DC6473FD2C946BCC40AA083E2B50A91D0CCBA355B8D4EDF889 0x46EC528079F303FD1AC36EE777FA3B671925D2A925B1D55DCEBF392275257CB2; LS 0xC89F993FD53A852BED79F493D297C58C856E811AAEBADC0FB7C78282BF7E6384 (-0x716891370CA85511D0C8928CC433A95D7A45B811BABF38C6A780B3CC86D4C753) 0x9D39C2F37633AB90A736081B2767083930B06294702962C197D32BDF344DBD55 (-0xEDA8B1D408BF773D9472169A0715FB9695468B51C7497A1624937DED779FDBB); LS 0x1C4BAEC10A4E030C75C3129EFC04B1B69E39B671A23A9391DC1E1BA2C76BC962 (-0x68A3ACED55E0E4385F3C86EF54CAB9B603EA0079FC06C605197D3C1B151EECB) 0x320A49A16A815F3193F6541428F2FA00BBCD763C744447D39DDA2D557003AFC 0x7F5EF26DC3AF0D19FAA8D79DD822D33F78CA77E5EEF6262C8AB33B2D88BC03E; LS 0x187CB3B321BEE3653839F34E0B93A4EEE18DC4ADF182846BC3E696D1E8FE1674 (-0x92971BC5DDBE53E464AD7D1307A85A5FD8E5C5F2940FD0AADD943E335DDA03C) 0x2579E702A007A186BFDA6E66DCB59C4B138D70E99E2DF923C9F3405E5EE25F8 0x9A7D81C87B858EC9575DE875465FA2CD2C50B7DAE2F0808036B9C8363E03677; LS 0x74B798DBEFF8D7F6D89CC4744B44C943D2F5B085834E38F5B49BF70976EE8E03 (-0x3AA7396EF04B6B8C0F79671F413C55943970786F714254D53DF3B11D239EE6A0) 0x3536E633373083686C60F8DD14E51F81C9413E4F1CEF7BAE724819002F2667E8 0x4C205063849D797B4EFDDF0273A3D762D47408C7D24C791596C8BBD8FCC1BF1C; LS 0x8C9D1477C687C0611041145342DC54AF4BA2C5ADBE668CF58B23FD418C9B0CE4 (-0x5C0716A05EE90FA339762719AECB1B0EF616A50D5D02999A3DEEB52C080F58F3) 0x4D3C2EC51DB0EBFB830F6867E30473FD5BE2C27F9FB3EAFCFC66B6C8D893C113 0x4D2C2DA51A1E1778A719F9A2366C212324339F1CBCCB75C7A69E49A8B7BBCBEC; LS 0x95C1D78425F1CF8D182B2D5E2E929D4C1DE1DD5FBAD5AAE821D50F5F65C489BE (-0x2A0792595F99178A1FE738EC12D238748E7FE463383AC6215F576244792BA90B) 0x579B37A67EDBEE28827D866AB5DD56C82CF6854FECD6D2DB087B12F26325413F 0xC441515B6E42038543D43B076471D3AFD5CAF3FA8B47F7C0A3C67F283667EDC; LS 0xAD1F80E761E56EC30914A7E3C34ECCC1D7D7F2FB00504C04A7C76C3976DB2BD8 (-0x3CCDD56586EAAE161A1FA81FD29C4809A6104A68A46328A4E67934E7AC61F659) 0x751398193342004BADC2B688B008A4C067329AD0B9B770ED45455F106CD498C8 (-0x43565D073BAB3630BF05BFA4B559E44459C0C3B58DBDEBA242F2984C16FEA02C); LS 0x5089D3D3094FD16D9E3CC3CB864D7ADD2FC74BAD52EE177219DE86054A3F2014 0x47ED7783F0DC2BCA3C84282A66A1859766794BB7377F5815514757DA92BCF44 0x19566E984CF769A4975DFA9068CE872F5B294B26760398FB82AC4CBFAF6EA962 (-0x3EA3D4A36B650F68C36E5127FE712AC4743E1248E5B50B275EE9B90A5A330E45); LS 0x3816724F447B9A283D45D905A56CA09C2314F508A91CE11DD236126DD9A1F5D6 (-0x57C164F03B1FE12A45F8ADE582F5593EFDD5B44B252803CDD96EAEF026B44A3) 0xC49D3FA86A08A39859FF7EEABC95A358B2D07654A5B0C65193D3545399597AC 0x5BCA38C4157C94DF1C1B363FC9CC03BBEAD4BD48A9829CFD11C078DA09CC494; LS 0x6A5BE06DC0FE9EA1D9EB921B2D013DB6C07D597970CEEE7C0169EEA3AB8242F6 0x7E24D0FFC45897ACA0760C3A5ECEF61FB7AE5FF46A45994CE173085B8987F19 0x2C3036D4369A512E4F7540DA253AF9D503FAB8EDD3C738FC0D9E54FE0BEFE416 (-0x41A0459BC31A9CABDEBF00C7555CFDCB24DEAD09C70A4EE6EA28CAC303BA3F50); LS 0x1D00809C313CDE6D39AA7382DA2069E184CCC69AC76B4DB59A65B90FDC858772 (-0x11E5C42E5F046D20E235B7127950FC63D651AAFA7D1F1DC7EEBEDCCB2AB0A10A) 0x3491D23A3C45AEDA92548933532E0535ECA450B8230091A83C06A91A5CB5D34 (-0x4680C8E23AAB0E6D4FC8D321BA86C1FCC6290196BE6D5449D78FF9714641A9D); LS 0x457C479251455ADF475F7C00FA153CC05F66A4F5F3D049BA4C317479C13C2DE (-0x111D523B180D88C6E629687029CF8C41B9487D4CB5F6AB1A9772DC845EDF6BE) 0x12DC3AEA49909AE1AA1713E86F3C5A059BEED4890F92E0FBC08F0ED6C93FB0 0x15CACD8643B2D4BA8A955CEE375C7DA5D4A71D53C819C5913D08225A6731F19]]);
  ([DS 0x11191047717BAFAA5174B4782B85E53676948502F000ACF07E5F99C0359D0AF4 0x1C3E88B3BA46410D8E08F9FD5DB8B53F8DFF33C64F5314F5E005442D10CEF1F8 0x45C9AFDFA07A5560F8E5BD3FC6DCBA48B5E85A546006EEF6B27EDAD227370500 (-0xBD0BCD51776188CDAC09C251C88FC70746C575978E313BB27533C8A5B293E08) 0x124569DAC0F999C88F490419CA902D63ADBE73C015A7155313471407887A4E7 0xB0728A8BCBA28BFA5722206DE86F0D745403111F3FCD0F50BDDD00F743359D0;
    DS 0xB6A7043F264443B377F50389FA4E6680730BC2A1C7EBB6B960DB61451E1837FB 0xE026ABCA811A3BC6467F164B0FAF07D5541E4286ED836884B9F00ACA9F3275DA 0xB6A64FFA8B1CD6E2F9B2B83033C94F0F7D33F1515D0AE532A7E2915AC35E9346 0x40793EDC95CA7A4EFBD0AED930E6343001DC870F86103AD94A05CA5DDE534EAD 0x8251E70054DF061980262714D17BFF96154468BEABBE8AAF86CC26FF238062C7 (-0x8BC6D8A1092C18EBEB96122DF06922AF5D9E37394BD3AE08BDF516FBD9CF15E4);
    DS 0x2B4D5AFFC925C8E6047C2EB8A87E546AF7358EDD7262BDFBB1F8FBF2A237FF3A 0x4EA78D4F25BC523800409A80342AF6F0F575D81A28BAB4E733F4EED10BDD02FF 0x9F90839B8685C1C7BCFF31A272E0BEBA85AB5953B1A1371DC2DAD4BE91DD9C26 (-0x739B4FC5EF55E468CCC9A76A17A4EC2263496692AE0129B77A3CAA4A22240FB) 0x75313F1CBCA8B390874BAD7471F39A4C89BC4FC117CBDE03CC600963B7BF10C 0x189C5112F41C44F579628CC3A5FD0D7EF9E436F26FF56EB274211A2B0D40916E;
    DS 0x61F7BCD84FAD69E41A185CAB31E08450EBC0706D89A06B8A4619CFD4BE85CD92 0x9465A6F3814743212A9EA5670445D7C30641938AFF70AB1113E26047F4BC43D0 0x82BC501C5F62065AB6ADFF3F8379EFDAC584B3D03F48517A380E7CE819E62B78 0xA27C16C2B92F6D21B28C06C2EE5EE0526A43AAB8B63CAF780AB580E1054DF80 0x257DACD9E11996AE72E7054F71916C6FF641557882A5AC5BCE6C78D571F6AADE (-0x1AB085948D333678396CF18D1C97F61F0BFD4A85DE4D40D74CAD53017E059D30);
    DS 0x5BA351D3287B9615CB4FF0C045BAD2A3F8B71F6DA741AE2568E2C89F4B28F11B 0x638B6618C149894675A1A94308755A6830D7DD3C9D8A9F20D65A71619C8B477F 0x1B199FCA16B838C5F3CB5B744BC5C89DF2EFC71976C211DC309A75ECE6F2D1D9 0x20C293BB908C0341EDFB258B21125D9C87BDFBAECA3C0532EEF52691C13EBD1E 0x20CD845D6BD4B7DE9565CA1B63040CE61427FC9D48C038B88504040B97AB9D23 0x117CBFA267A9CA4CFC53425838562C8F852EBD89C6BA17224E639F7F465612E6],
   [[LS 0xB7BBA0E71C49DFA4174CEF795248886E4E7D8B1DAD99C912DC4A15C3C7960134 (-0x40C7CC8198ACF6C0D140D14B09202EA26D2FB65DC78F69B0BEFB920B037172B9) 0x83DDC98EE136A5A9BB08FE44BB1F24DB31E627A4D78C7D8682D96F3BC2B7C276 0x114F78B0CB10506DB60BD66822BEA082D85737E24731AF9324C0F3FEED932C51];
    [LS 0x76A1F55E0513C9349301595FB56866A313EBB8EF2D57D0DD42535BF766B81550 (-0x8A5EC8470EC7E83E4CF4004EF86E1544D0E5403289239A62E26D3DCF1587DF) 0x36F9B4A9381DB89F25665176B95CB8C7A93608C5E6948BC9EEB54375287DB95A (-0x3AE5CE8D01EC3A9E2022A0E38626957EC88026E7FA9D1173BAE38578CD2EC955); LS 0x1EDE213B2D789819E5B9CBBA19591C87FD2B35A8CC53C836134CA44F23B82385 0x2C47F599A4A2D02612E852345112115396025F7E56010FAD7203AD25B9D579D 0x3B8D087859B7034F3A2616ECC482EC7BD5D3AD0D0A0989CCD847809AB39CDD1 0x84D15E1CF69AFAA8C373C410BFDFDB77508D8A6F4BE69B72DDB47AF8A0F780E];
    [LS 0x1510C0451ED9DB3CE9B60A284AE2819605E1558076342824881181E9DA6AEB5B 0xAA752B1E9DD623F3D74FE98B113748FD6951DB963875C22EF40E9879B84D58A 0x1BBC0A3F01B5A23D3F86A9A9C7C96F97221353436C8483CD7734A4A20DC7820 0x1209860B6336AA3B512DC54594ABBE053E60BAF2BE3B2A9C22795F560F2BF96; LS 0x48BB82FF896A2A77A32C765DF4851932284C7F1D8AB5F10EA67E7F75CEA99FAE 0x2BA2D9650D0284881FBE36D51B75F0ADAD4937391D577AF730F2CD6601B57717 0x14AA030861A6FFA034F64F15405D85199C64835665C3A81FCA24C76E9A089954 0x2101563F251B29D04696DE6563B72B4E66D39159E0BDCFED00127CDCBAE935C; LS 0xA70F9CEA2545D3B621134E019470AF9308337229318AA785E05177DA280986E2 0x18C5A96B221A257242CEF37E9370E7F7BC85150CB9509ACA82AE8149EEAB011 0x6D055FAD403FABFBB199538BA70A17207BFC57C3DC32F844E5BEF1478F8AF1A6 0x46826C4AAAF4CC882C9AE6500DDDD14146532A65CD41FFAC919A0B7ACA304271; LS 0x8C96E03D897E32E730152D95C79787FA8CF304322C647B1114188F41E9B58008 0x7A27BCCBF16BEAF9B7E6D1C9EFFC1B27A783233C1FA29A0142A2832F15376227 0x4D355E2EDAEAE6F82C94A9B0CEDA982AF4139F42561F6A8A8220ED0BDA60025E (-0x2100C803CE5E4824C36939D89690F708436A9D3BF8BB1D34F1242D46B3D8F482)];
    [LS 0xE1CE185DBBC2C7FAA52708C50A0E444D287F5EDC99C67836D2DA20A25337280E 0x6E1E64CDDED5BEDC883260A9C94968B05DA7D02D056ECE8D24B94E110E828103 0xC72BECBFFD384686E86AD7ABAA2B8C345A480C877B1FD1CF99333CA70E2F2C45 0x137EFF4DDED0C6E6C070801AD626750E40FADCF9FFD17E21B395617FFDF91035; LS 0xB2C96BAEC45887D3E2B04C909BC43D93F26F5ECFAD3707216EF35755876B801B 0x68089FCEE9115D43BF65EBEFAE8B423F2346A65D5D49CC1FCC2EAD098E415772 0x7CDCB8394EC6FF5972729572F8356D7BB3BD04F9A7C89D7B74BD4377E44C3AC8 (-0x25893DE2D09060AEF9793BE5FBDB502271D262E98A7D83B9CBF1AE7FA99DD30); LS 0x991878312CD1FBE45FA01655B1D391CF6BD73089657CCD7E488BF29E0F3DE4ED (-0x158DF560CA010D52F96286FB79B8E3475284EA2614C3349B325602F9ED59432) 0x5B8E4201893989ED4180AA9D1275E9CA0334D47AE48843B004EDAA87F33DAFC8 0x6BD15E6CD03F1E9CF5D058F0D5589E55069BFCFF865C23D985BEFF95DFCA4428; LS 0x14E583137B65A7CA3D4B33CE35BE7F8E3A95612AC8CC3C6930C18C5E04F67434 0x11C76E88EA2CD887D80899226C13C2ADD78606F2BAD60B544B11A0DA21879DBA 0x1B4AA3ECF3F97DB5FB022FD21F4C3374DBBD4B6720814BD6F1FDB10D8DFCC09 (-0x46A1E83DE78C7D0C5859AAA36AD132467D5302115B3505C48C135CB29740DBC); LS 0xC7C0155EBDE41252D01238EF975EF369E42184D7E60AC8AB09F78F5B8BA8E5BA 0x6C1A2FA314AF199A0E55857A062A1757C4D2CB555F27F80CAB7B0039B1737BD7 0x9BDC31595B1E18CFA70E090C9B7F143832400D239AC2C393BA2EEE1B815A1D83 (-0x7B776CC90E82FC04EB0DD5A6E8C968D0C55F614A4A98E7B09DAFCD4437293D2F); LS 0xFA9370856197C7BBEC4DC432B30D174BF4BD74A5E16DF263CBD0012908DBA407 0x98E9E41F54D2832C62AB58E623D397A105136C4C1D6389C1203D92EEF1940591 0xF5444CAEED3F814DC7079BE39102D1A2757BD760171FE9B1AA9E52195E9E582A (-0xB960F38844D1B0B1FA21FE0A9873A2B69F60B9B777B278624FCBB9105873B5); LS 0xAD3C6F1D031E7AE8CF3ED08754214355461545FD3CB172918074FA6840AC70B9 0x479761254CAE9747B8750295E5CEABA7EA2467714EB2BD42B016A921702C1AAC 0x753ABC717C0AD46668C3824292A3C312ECB0E425E3CEB7440A34D692FDC3E9F6 0x2C61BF1FCF465E3A823663E8C4EADF7FD2770699C2AF3AB85BEFC827C784BF6C; LS 0xFE361B2E8124E10E57A9CAE07B26C1DF4E3D80B75B4456BD48BC7F67F8E58CCE 0x9C9C521A908DBC5833B7C65512A453A5E6E465A59549E0890049B2ECC663C3FC 0xFC6F695FC2C681D7D9E201FCE3211CD4CEBF27F27B44BD35BC9DCFF37C7CA805 (-0x31261FB2A7A2F0DEA8BAB89D923770FDB89A545CF6E304E5BE88AC70A274596)];
    [LS 0xB25063FAD1B9E1781A41137EDEFCD1D7EDB114666F04C5C8DEA0AFACDA5666F (-0x2E2FB26984AE491CDBDE82F48BD2054947B8A05575B692943629B2D34663B8F) 0x7C33E4476F7585ABFED333C7FA99B078D70556126552BA7088CE6FCBCCD1F6 0x2E9C32A294C74D33251DECF0CDD4770077D3524A4C393DDCE7FE3B667A67AB8; LS 0xD53D3D10112AA45D785E028E20572D56E610197F375DEC9000627B160DB9C005 (-0x232463C815C8294DE2F42DE223B22F6114E5B70F98C6640F24EB25C3C69E6854) 0xB19EF642E4C9CD0657A7950854B467B4A3DBECD9022469371C36084B62C7247B (-0x91780AB0ABAD1F92A8A9C94B3A6FC48D860A27E23455C447C63490355730EFD8); LS 0x54A53604601641AE9B71303B2D73BA5FF539E54A6EBCC638949A7155A8B5D3A3 (-0x3FF2D349B1D3C531F329663BB30A81FD64319BB03195535B148C8833944A6796) 0x1BFCD6118C185067C98F11C9ED70C02B49DEE53455E75BEFD9EF753F20CD16FC 0x4CF6B81C578CFAC00212B8D1E004006EE916CCB68D8A3B94FF2570619E33A6E; LS 0xA224AA0B4ED14F48EB916F25ADAF70B1B66A9BCA94D0C31087C72F7BED04FCEA 0x10E20DC345718B42F5B3B5A1C0C827963552FF9D12A1E2BC5B9AA19BDA76F989 0x66B26C7693E218647234322755B3D53E1A228CE806C6F201CD95824CFD011BB8 (-0x1D26A48C7A4B326668EE0D9BB44A9756B9DDB76EC144A34CB305F969F447E451); LS 0xB070230CF04CC830DC609F13AB286CC48085CEDCB044DF1CE5C6FB71DB65DF2C (-0x24421CC0CE25BACE8F481C2F65A5B91635CDBBA05B487E043449FCCE04059128) 0x799A61507A8860CEC145DE8067E008E0254A63B6F51EFB2295734F33CB5C358C 0x716D9691F062137202358B21F0B61456ED22413944CFE57C0C28F6AF8F9DADE; LS 0x6728704D03BB61C9B991324FF9CE510D2C21EDA9A2CF5A90F49688BFA94A1FEA (-0xE1328BD669FCA6B97F0D9D4C2137B76D27905512372E3E1A68EEEA96DC71815) 0x299190C142556DAE16B417077DC953450FFFF3A9F99A2CE018968E5B8B9C715D (-0x4696A9F66D388B63BB7DF6FA53A94CC5CD6B105A5FB0D0BAC9E4AF15FED906C9); LS 0x79169CF50C3F2025BC089CB23894ED95AE48373962AA0EB6B44FC931864CE41F (-0x285FDAFA5994CAB06700C625580DC992CD4508F7AD7252D9CFB59010E3DC64D2) 0x3946625EFFED58BA92D3F5942FD073C603E3B531D345F81345F554768E5E08BC (-0x229631251C0F6F148EB3BAF7229600582E8CC9D6A36F4206B6ED70B28DB101E9); LS 0x8430143500B9C6C31028AC091A7879A1C2FAC81B501D521C765B720981438544 (-0x1144513E0368ADE2E31544E5C1973BC40219268EC290C6A92983E8852E8ABE81) 0x44419DDE3E382DBA05CB4EC5D2AE7EED64E0E8C0F5364CBF1256EA3FF7C021AA (-0x11FF148B289322C99ABBB7EB063D192855FF35C021772831165E7C4951869D66); LS 0x20CD2A9F39F453A86633216C847E9641FF4F3C90FFF7D55251476E7AB46A71DE (-0x5A9FE148DFC1C0946DBB6CB6B14BCEB89A784E018CEFC5DE153433B0D44F4FB) 0x433EF15189888454B525966F5432FF8C184F73500C784E129894B8DD631818D (-0x157B8A2678EB66AE5E25E5BA2C459971E26A1FDBC8FF57014E8F9EB576A03CA9); LS 0x4DB0185644C7E43447722AB31DA9CE6EA513CC8597A0ECD82E3D9A21AF39215B (-0xDD28E629960AD795410BA3DCCE7FAF65C5E294597631ABB23383969CFB5C6CC) 0x179367C55E4F1C18FE6ED880398019B02CD79569DA0FBD2876EF7B1717555550 0xDEA0967F30A0A877468E1E7424C002B2346B4A1DB9AC6FBA4CE68F691E960F4; LS 0x1D48BE32092B0619D088A28544AA16C72A0BA33A09472733DBBE35971A6804FC (-0x1801A636FA3F01CBAE004B4DAA166055BB4F74625ADB71DE4799C488154EE27) 0x3598FC2DF8736F8B9F502F6C09D5885FF9426BF5816439E3EEDD4E0C113E376 0x3BF43582D0B889D2A2571CC74EB1864CA6E28DEB6570790578D6B695D43EA29; LS 0xC79ADEFE9BB215B336B0741FB9F6AFA228A4FC0BA87B25D67FF39218A82D49D (-0x156257D19873C4D107AA6ECD567186A1CE9D94A84B7C0C1FE46E9EC5911D598) 0x9BA22460E2A0C340EC5B2578CC1F55C4A93901D88FC198297968F99C778173 0x33A2C5ED2049031AC5AA1DAF7FB01CC1CB7A99BAE41FE322F654624F8DE464; LS 0x4CC978B20DD51AB0C0FABB79110773479C08BFD89EEA8ECA235F95FC44440AEE (-0x3F3E004765420DF6385BC936C32A31EA6C872DDAB77B6BE45437952BCC5C671B) 0x17083E3878B7A94BE24211DD132A57FB51082E536480CF234295E4676D48098B 0xD0E6E6DE027DA5C306D3B24962C9F01546CB775FA431B42048EEF0EFC18BC7F; LS 0x82407D3E4EB66319D4FC384374BCEF8E6590F4697C587537DD4649ACDDE4B6A1 (-0x1225DF9A7EE86B8CF355408987D6A83CDFF9844CBC9FC9DED1F0B58FF01F9124) 0x42458F72245E7FE01E8D8816EA48E8B0ECD616A2F4FD6ACC2896E2CC260DFCBF 0xE9B721656AC5E1799BDAE4A018A3BAA721A4799AF3279101D2BD2224BEF219D; LS 0x899FE30224F55D60650AF493E3F8E2DB4A7D16F671D77273B97828A4CB70E591 (-0xAA13363FD291366FD0F53FE8447675B664C6F1C333E408AB4B2ED322ED13F0A) 0x49FC84D41185544AE6A79384149B540B1551BDAFB7EF18CCB607319E2752CDD7 0x1954523A19357AA23CFAD093E4062185FCF367F1648FABA0E27B1AB37D97E5B0; LS 0xBC0B8FEFFC07612AE7B85DE2180F55E4376ED7E2E783BC41CCF9E4CDD5ED163C (-0x1AD5DF403C1C1F2A38756DD151976E4404A6B8919A84AAF2F8FAB3E63CFEECED) 0x8A20FBEE29B87BE22A7A983BB553AA3774BCCB39CA48AC55F3068A5045C6CD13 (-0x56AE52352001EB86756311B072D0DE98AC80BDF09E224BB17228D05A9EB3E5B7)]]);
  ([DS 0x76D8A0A9D8E2D082EADE119FACE98BD2F75F5B6612DF921E0DF66B2D57063FA1 0x9E7BD727FBAB45A9DB36D17D5E5437EBF028A10B392EA470D5CFF0D32E9BB0FC 0x4AD14CD1BCECC24D7EDAD7F1C33AA59897883A74BFAE08F63FCE07ADB0ECE90 (-0xEE4731C1922F26E678DBFED79D8EE86F3DAD9A44C4C4E200F11E2270EEFDD4C) 0x372C6B6C1763D6C4254B8A3E5D6862697A8F2B3EA0642C69EC743DC2E34AB04E (-0x3221AD68FF12A1EE5841A06448CB53B76D9CB16E3E230C7D98AAA299EE10A385);
    DS 0x17D67FFEC88E684B812AB08ADC973B8EF794DA860AA1AE4954CE916C87CDF487 0xC8BBF40FF53496FEF2BD0E2AF274186D3B0881EB45AD5A22B0819AAD441FF4DC 0x747BF0E8AE46BDEBAA456D4430DA67D631F82D81DDA44CD4255CA05E7285EBCF 0x193CB4978172085C54228415B612D6B1DB5A0FF4D1A150C16FE88F8D077AB06 0x2383EBA05FFAD63D2A251429FBF82637F0E0BF25A49C7F41721355AD62A905F (-0x3EF2950DC6349691D4E64075E30937AADE7EB9F272DD09C115A092672FAA7B1);
    DS 0x82C4F8EFFF89158E14CE30686D3044D4CB297FB19DACF2BE93405B92534CC27F 0x7C2963A1D527DEEC60F5D4108349D7F1EF1D5637A0B64AF1C568871251D38F7D 0xAEB64A751EF886315B1EB893A716D20843B9F42FEED8486FA28210FFF389EDB1 (-0x41406A9C431EBAFF11AE3D7C0DD0783646E576BCBFF14BF3F346653F881F5FB) 0x42CCA461E11863E6097D2ED7A6EA95BFAD54C65E929DA2B07BA2BFD67B776CC3 0x271D580445C583D21CAAB62C5FAD7524D9D436EBDD7F85E8C07D41723CA27E2F;
    DS 0x57C1DE33257278BED224183BD0B1EA603A82EB8ECE57962EA22D423856C14800 0xFBD3ACD317E2E7F3732E35E6171B3506BC6672C4047AA65CA4D008C496FB8C88 0xC2DC8889023581BBC5CF1E4E719EED3214C2BAE4B2B16FB0CF0445818E37DA4C (-0x2931C4E2A5CDE094D973EFED5D66B658BEDBB75DE34FA6BD50ED8E689618E48D) 0x1E1557D78D6F03D63D0EBD7A721809BFD6A412D2B63A1EF7F10F8F11600896C7 (-0x2BC38D1018E2DE6164AEAD789A00F3A5E42A02A51D3D56DCDCA9D093C25DBF93);
    DS 0xBC1B36016F76B9C5FB2846FEA6CF6DCDF898C94180E3349EC538FF88C823F654 0x2B00C7DB16887372753AB219170925638C603992F501B07C9D8442B3721ADDF9 0x7183A099B3DB6C1388338B1026DDEDCA0D942C4290AFACB8C60F01E53BE45C82 (-0x5FD6412318CC3C3E7FFB99D7170512A57DA2153A8EB4DF03DF870DE0A84D9AC3) 0x8A37FA368B687EEE1E7B486F6C1C0A337EEF93530CFF987401867783F374A4DB 0x99711271EF321161138F2CF12CCC63BFDC547D1871A7EA1AFFA7782D99136A42],
   [[LS 0x59AD06F8FF246CECC1C9D5517C1E3879F8CB7813D95432EABC17984CDB597A88 0x4A23F204E07718A40ED499356C693CA748EBEFBCFF2AADB8B2360344CDB59E3A 0x1F69C3CB8E20C91CE0B3FB18607B1A038809FF386BF7642F6C84C28699193B4D (-0xF50D19F66D2D67FFF826AE60576B2AEF252648444CD5E04B765DC8EE4A10CFD)];
    [LS 0xC5DDC1529268ACA657CB38184ACA5850AB9616C736A5E1352F82471F67AF287 0x3AA954B2E5B91FB72FBF1B071FA7B3E59E7364D13ADB3655455DCDC4A7D0A54 0x98EF0BA06FE37DD60D6F53DF5D8C30C5FC3C2D2F588EF21B4939703F82BF40 (-0xA41AFBC6EA61EE531A2F6F4B05F264E9392B83B9F3BB387F1ECA86256EDE5C8); LS 0x9CE0FA0EB4E22A4D46823516F7659CC43EF6F5B2FBABE6532F319522B3895109 0x13B7763B5F9342698FE89B0DB90B3A00D6245E6A94ED312516EE05B37AEEC540 0x6022F6787A70E97A385476064E387D9B4916402ECA12E25A340FBF495E8B73E4 (-0x1C566141A2EC4F78994964301FDE66ADB5C73335BED3F17F5EC211BAE05C9E04)];
    [LS 0x11F16C2D89E70DD340AC5DE44BB056520D54EF4A6D2753175E061FD9F0A204FC 0xAF30A8FAC3552809C0FF9DC943333D887DC4F3555584A04F17A4141ED772B96 0x141F40AE7C4C952CF84E12D54EBE60DCA1BE36F813CCC0B41FE6AA522212F27 (-0xC5762820F28FAA393AC97EE7CA5C77064A79B7315E33CE1F5DAA22B70E52AEE); LS 0xD8B0C5EAFEAED9B16D0CDAE522D2E7D5B4D6B72C5A58B4D078228C043CC2CF0B 0x5F38F2A36C2CD82A15E51227E1904EDE71716A70D8AE49432BFBE60866806B64 0xB76AC80D49E8C3766C0C1CA984ECA163AF4AAB071239BE476DC7717213353B3B 0x26EA99AB4D578B5945765A9E6F5B160A02C5377463027EBCCEDD27D3AD5E879D; LS 0x566A8DECDDBD9017FAB45D90428D81B3D2C2E5A1C99C09E3DABE90C80331DB88 (-0x12F0129B9A73C2722DB5BDC2292AC4036CAC64CB2F319475D347355D468E8A8E) 0x1D2BC3B4FBD1C537D699B9C2CF2A2FC5F5672CE4C188CFE1C7D7AA9DE0EED8A7 0x1D946F59657AC11E7339B69823604C8B0BA1772DD8AD7F0AF05074D949C75B6D; LS 0xE234AE4BC481A5D4B591B74F764DD2ADD26DDD05B97E9225AB361F7E0F35B9BB 0x3A8B30902E8415BA8F89163AA7BF88DE64669B695195E28D9235466D62E36E54 0xC7E10E950C67D303E73A23E57F8CE55115CD0212D31A31283B7C435977252B97 0x64B8A3DAF1C2BFD435CFD9461FE4CD3002AC1CF96857A09B3BCAE3186AEC3B5A];
    [LS 0xEB45F6CB32CDF636CFB0E0CDE46205AEF6513D12DA48B9D73F172427AC77A86A 0x9F86DA411719AF5451E78807331E9FD99EDE0152B2E0A540ED1570D24318E71E 0xD839863806BAABFCCCC59E0A2C9068B78D0B518B55B0AA3667110168686817AD (-0x2D321892BFAEC581931942F1D975C4F7EB85866CDD06723BC04A8630DC9CAB10); LS 0xED0769BB50A6C353B09B998243EE41E525CEEEB03A212A7AA0EC89D74CB17E90 0x783C31FAC71913C66F4ECF9A58EE3C4987B340AE127308835854135ADA418E61 0xDB76B9FBC73E5FFF5CD86C977218E1381CA8C6D46444DFF1B0E480A5C1564D61 (-0x8758698D7D7BBD09610F7420478CF0E2271AD86DF40D149D5F30458AD7C40644); LS 0xAC2725228FE5C45A78370F182677AFAE4514B3E77B5F98B4F038E1EBAD04F724 (-0x1A0D2481D9B36508091DB837C8E178D5227A3AC49311E8C12338DF0ADC6C4F12) 0x73C49FE2C7479A1E59C76B6CD8CCC77D8EF5B295A5446ABAEFEB2C28EECB7EE3 0x91A844914EB63ABBBE72CDD908E68B32DFBAB3D4CC590FF77730A89B16054CFF; LS 0xFB49866DF9C80FD64138607F6A4A6B51F663A1A93043F49808F61FB0FEE1C600 0x5213BDEC099978CA6BC5E6418D0CE9974CA206C9B26AE14EFA39881639BB0F91 0xF6A942B9991E13E344BE5342FCC07F6EB3A7DF82B3AD7F3E3768F62DEC7CAA1D 0x2C6E89E1E0CEE79F87769043A95C53E4C1FFE7D062890F69F3DE8B0050376658; LS 0x4BC53749EE991C0C68589B76CB90B56A64E6FB8356D1E1B9815707237BD9BEA (-0xBD44AE96B63DF52957200590D8A311821047BC273E44CBA840485FD1F0662) 0x166D26537587C7F42BFCE31A115DFEA3DEB2E1D8085571CF5328C6517E3567 0x7670A064841B420057D9DC42C51F9D5FA160C91652ECDCC7E408964808E9EC; LS 0x1A504736D02ED22FFD8888635A626BBF57445BA6F06D54571CED0C3510175871 0x1212D6699B64ED9E9149889497830E5484135CF214AC4DA1ECFA3396821DCCF7 0x2B467A3B85B132B93219A084F84E118782AAA17CF35F2512BAF8D9E4EC97831 0x1E0F54DF8847B1888D6D45C045BA649737A2DAEE8B1B9CEBDE68CBEA34F385A; LS 0xCCB7197E675E520048F05121BD41B1C17B32050D4BDCA1FE6255F4AB7AC94C7A 0x271814D4EAA1010C76514BAC244C2A4E5D7CBF7258F5F1A0086FA47CFABD42AB 0xA3B45396EA000A24074118250D70DBE4642C23D6F8AA829D48B1F53A21F4FD2D 0x57AF2325B8B6344A480A519F8CBE70C80DDCC993AF4D9327F03B8A67B2D42164; LS 0x48FDE9EA66ACC58000C634B4CCA63E77CE4E699B43FA113560B3A3CE947AE14C 0x38577ADDB47D1CD1F04CF824E37AC5F2A9C2389E40ADD3A110820F92970F586C 0x14CFCF6C08CCA61CBBFB36D013C0B85053D535597503CC5EBA37038BB155E02F (-0xF2B46F35A4542CA6264277F98932023E011433E5CE1C9F990EA7C307AFBEE91)];
    [LS 0x7534D5BF2F5BE6C687040498234BE7CD862A81497AFB043AAAFEE8E64D4EA5B8 0x40F1D0FBEFE897C1CE5B61626D1C214BB0239A202F31A656F45BF735137411EA 0x35A95648496CF1DDD9FC1E79DC7689947DEDF0227A35BB31AF5E970489B9BA59 (-0x6237F50753C50F6DF9CE904C2D1F9F35F6780172A6FBEBE0E7F9C49A956EA30); LS 0x2D78B6CE66AF1C773E63B72A1EC0BDB14E148409664DDDD73E81664FF20BE700 0x116E0FB72CC9F1A6F13422F6C2194A5970B3300F77628D060CA790F0305377F9 0x813A9307423F4970334EAF5AB20526093A76424E35FC69E5BEFB21FDFFFCF8F (-0xBBA8176A0092BE3B184E5B84B6C4016CA6D38F17556C77A2141B6305072478F); LS 0x4FC623514B559F77844E1A3A9772E39DB65F0F936AF0BD0F81DD9C4EABD6EA01 (-0x15F59EEB98B2B15F67BA6803A7B42F3A079787C1288978B62AE685408095159E) 0x18DBE326D31EB5489C7DBCE320ED1A11B8ADA177F82B37EF888649B556F9F574 0x47141400F030E6E3B2A3DA538266692D75418294C115EFC1284FBC321D23E0B9; LS 0xAB386EF82FDAFA16DD555AA605BC2D0A64734936130700A1423BACEEFC8A2664 0x22B411994F23762C3C548212DB206E3C184BCEDBC3FB58DE7EC3D353FA947065 0x728470B04C9DB3A4E5D33216EC192C1541FB586EFA814EA92B340A421EF2198F 0x1E44FAFF76EB7DD1974BF1A338CD54F7777F5280B650E98755ED67F25D7919BF; LS 0xEC54AAD398D5F7ED88C03AA40BB0D7390574E2E853D1AF311DDBCB15B0DABE6E (-0x1F990A84C0565775A5A6B98C00B3E2339D85D3C6E466D008DEFF09D591FD7262) 0xDA2C36F6AEA4836A21411EB43FBE529E53D4FF1C8F14CD55DA0070C9A1F5EB61 0xC8B6B1F947F09AEFBAE16194EC1CEB51F22AB1F7CCB9235A5F41CB9EC00C491; LS 0x1D7131C368492F09AA75ACE927988DE0630B9211ED054E6AF8AA0846A02E8559 0x1092C22532CDA01E0E4E15E6C1954E8318465DDEAFE943E6EFC38F10E9087A57 0x362D7533DCF0857C5220C2DEAEB91BB7FA8E60386D50759753E516DCE3AF63E (-0xA140EAB431ED1BDD2681AE1D896580A8BEA3C15CD9AB8E43DAACC5A1CB06D41); LS 0x8FB894EAF21FC51622256E8336B167AF311F5AD3FF0272B8FC603A08CAD834F1 0x9A1FB16E44EA3206D4754DA3B4923A696827DD9014980A634FACF2A09120D9F 0x50AFBB74E2DC0B6E4CECDFC65394AC70372D502A3783103415AEB4EF8E07B4D7 0x713C02A7A41227B95CD885AB535EC63BEAC7668F1201BC6CC0912FF0B3BDAF2; LS 0xAA5136CF9FBB2059443DD885254F475872C36F1314737D271D250265CB9E9F1 0x6E5B3F5AB49E74C163DBB1BA06DC348696A4695319C1F78F76C21A05BF00D6A 0x714FF68F7B43DB27AD0D46D176702F7C18E29CF72B49005C2149BF9B3611DF (-0x944075CC04D96BDAFF2F4C550C8902BEE23C8A4D8AF70D9E00673E090FE89C0); LS 0xCA2741C548CBD33D3251CDBC6D5C8164C3A3925C793EBBDA2FBA75ED2BC91E66 0x492E42B93C147B639A0BFF0DE09D8D68B4EF423E02F585C557267347734D4368 0x9FA1F9D071E39E778FB9E672260962F5DFE43F50A21EDEA53BD381ABF33F5583 (-0x50A87B4A9BC47F73403384AA4C18304054088C46D0BE509B1391ECBB4CDA8EB6); LS 0xEBD1B8E4AD4DE3FFD3BA397F0FE4C1846D94998D34C64F8601DB4DF6276F5F09 (-0x2C42F36C8AEA67429223ADE5DC2658F62D0E15251C535B893C0DCE176239501A) 0xD93AB54341197F2B163FD988B621C0DA510DF0AE914FE7D42799D29A008044CF 0x83AB9D5C882863A4F0746AE52D31F5CE183DF2792024455F4C4E0E35D88A1C8E; LS 0xBCEEA1F8932054201DC727655F813DFBB0733CCFD1058E3CC7875CACAFD6D699 0x6BD8B865AA54E0ED074D0C1DDC905890809C44D2889D121B6129F981CDC615B7 0x8B6F5C56A8C3A617A475688A5C0C7E7CF1A56A8B9906F460943B44F2E6383492 (-0xFD5C72B763AC19335CC6BA0B2116C82877DA4CB6C802B5CA29E167E341F11C3); LS 0xC315DD411F12EB3E57BF6AC2EDC2AC039486F0383C8001505160508F5B7C411F 0x4A08E711653A942C7455FB59BBFBB00FDA55FD30608B50C2B2A95B4EA5A4D89C 0x94AA50EF413F6BB30772B1948DEA908ACC814E04163E9450EDFB940915799F05 (-0x19CC6E4B022D774FE74454B4D99418C03732BFE299D72F259B0104779365F12); LS 0x1066FC4C2264DC1B7AC1F7002273DF615DEFCD70C11873ED4E8D1DB3D88EE0AB (-0x972F79C9C04D2DC45F0C8E9C78497082EA7A6FD37583A50372EF13A73752A4) 0x10D08F7899DFE3DD715CDA3992F8740437AA102FB9619187EC5D1B7463541EF 0x8AAEE7399ED9407902D9DF05CD12FE5521CBCB9362008FBC0E8B07B7EC1CA0A; LS 0x8FC220512FCF7FBAA4AFC3DFBCBA1FC60F392CB3AB9B5778782CEB29907D4050 0x5B2FDF6EA7F328A1AE274C346F1C6CB6EBA4B05B0442646718BB925AEA0FD38C 0x50BA734FB28AACE345094D97542D72006BBC686978D43FC6CC1CA171A928F677 (-0x8C99AAFD1B625F909D6496DFF8EC4AA82FCC85DF7C73AC088731E4D7B6DF2BD); LS 0x7A3B2F326176E591F88BA13F3F200515D84DA7F1C82DAC28591BBE968F6794E0 0x3C8BF9020F8C1C324C2093EF8C5B5B657FFBF1FF37AF4A1A762844DC6B2669FF 0x3A5C76AACED1C950D2063D8605DB3E4D76B6D459F2387B530A23A691539E361B (-0x1C6B9DEE8C284CD8E99330311140A3ED114F79546AEE817C1A694692BB23942C); LS 0x320B6D3692AC1CAEA05A390DE18A5B257AE2C136DD8AA43EE6051E9FB1FE8052 0x1606AAA675BCE56490ED4BD1EAAE00B409338BE091F6073FE55CB7D624C793AB 0x9C8772BE2935A8772B698B08AB65DEC0CAFE29E946603324DD965FA8DFFEBDB 0x134DDCCC268ED587FEBB00998CBF91C1B245A354644B28272FB2AB81506825E]]);
  ([DS 0xC14FCE35E0526FEA9018D32BBB8B429EB5DD603A7DD53F7E84C0002EEB6BB9B6 0x16E9E054916B894E730D712627B1BC81E7689EFC23CFEACB0A423362DF49D87F 0xCFC2FBD748FE0E1A01751B9F1AB5214D2B4A556C56382813846FC323DF1BBB3C (-0x603D0E5C22F0EBE7A3EA48457537570BEB45CDB96FC7CFD07087CF54FF8E1CBF) 0x91F96DCE27977FFC12DA932843448DAB48E2CE7CAE0977D6D8E9AC8B96DEF62B 0x57FC53D080837D3F72DE7B2308697E92C18ADF327F40DEBD575B4357D6960C85;
    DS 0xD3A9142D9560B0AEEAC0D53E4CC837F4AA355ADF2328C3C2FED9A369B5FBCEAF 0x745B88ECC0CF8484573EAB8B45AF2B0790C3D0B4EA5D9F7EC35C57978B14CB5 0x96386E6597A0F5F1A2244FD11383DD4E82F878CB8639CB3AFEF8FDDDBC52B4CE 0x9AEE03E84B2999128084E482D169C4268231302665C629629571088BA7A42270 0xAF0026EECA03C45E94AEF67B8255A3A50775DD80E1B69A70F18548F229B97927 0xCEEA161DF5321A57AEA804819EBBF527592F316896AB7A9B445921D11C6C6B4;
    DS 0x4A918DDA92A91DA76621A6996976CCEEBE96D778B323779D80014275EBAFC261 0x6262BD7FD33959BE39B3E4A13E3573AAE4119E51E9326B995B660FFAE276E1A5 0xFBA66E299357FD81B409466757E728B11027C4F85DE1AE2231EC95EC932DFF19 0x7818D7A85909BF771907BBD4551E9321C8F89D98885F0031AA4E729D9644080 0x15B878C45CFE68E4C563639588897791A3F4D3D6A899B2781A8CFACCDA57B041 (-0x1A8A315A3F39980A70EEE96167DAD6F7381806C2070C52063AF01C2E8FC9F1D9);
    DS 0xC6B938584E02F377F508A8BE64D78D411E6211F9C34F31F5079D4352B03B8AA6 0xB23A69277F23FF7F30706B183989998928F6F7FAFFB422CBCAC0631FFA9794D2 0xA5A63703E8B613CABB07523CD37B4110B1CD6CF549F971A0316EC3DF86433C37 0x71662729EFBD32A2E0D6F1BD2B3BEE4DC47073F786C912CC1CE07C157B2DFEF3 0x9A43092B14B4117876BB359C75B08B6956780CC862A0ED6749BFDCD0508EA023 (-0x3DFA9331732709EF038132A7BB9F62CA37BE7CB51DFC48CF42B324531878E5E2);
    DS 0x3F5A32B0A679303F3C5F8000A7D0930FBB9F29C95293446D314D1DA245BF34A0 0xEF2C5FA8B23285E350D7F05DBD8C96BC6E6628245B10E1CB4B659BC5DED5836F 0xE4C89861EE8849AC768A86F5B2A2D541C9D929C9E279C1F1E24A77E071F3A787 0xEE9B8A3988A6793C362AF7B6C1BD088AB1C46DAE2C2311D70E261D732EA50D3 0xFAD84BAA02E2DE1B5E9E29F4B899C07CD23E62B6A85AC9B125DD95B37C34CC6 (-0xF1504CBC51CFAAB89B8B3C6165A15D448299BB70AE1C5492264A4FA73AC4682)],
   [[LS 0xB9052CD065A59D0F9CDCB910EAEDE0D4F8BECE012D0A46D74FC69CE0E9381AD5 (-0x370C961296611AB9E233FCA39FCCE86CC19F3A6B3656F89C976A186EAE53B71C) 0x85B87ADFFAE5A20EF6CBD4769CC20E6685D4C6D1F1A7B4485A56C78A7DE109FD 0x37E53A1B1EDDA01523431779CBD7513D15B7815C645DAC26295A69F2FD57786B];
    [LS 0x2EEB65DB8C7F8CF9974B65609F2824E4FBC530E39D25FBE8256F49282523709C (-0x1151AF3537AB2CDB6C26682967235880E74A700BBC56A802C3BDF568D08CA3A4) 0x899710F1018C1FCD92EC3035C54D65E6795A60F07D91CBCD78DCEF14D4FFFCB 0x47B315DC1FA66C0100D6A629024E86131A1E17A351DBFCCD645BADE19EC2D; LS 0xCC1257C91F37B16D49464088D626A6D8076D140F55A240A533DC6BE6FD024904 (-0xDAD36F9112B1170D65B4CB34024286FF21FC0BDAD704E063EEB7BC44A7CD20F) 0xA2AD3D39002377D50401B33C2866DD91CF026958470AD498A292F7998D67DCD2 (-0xA38618DC1FEF91BA68150E104828C57A2DE06E7C6C9FCA2CA24DC96849E8740)];
    [LS 0x2CF6BD93D7FBDBB768233B75A842BD6FC906BFA97BFAD4280BA858EB9B44DAF7 (-0x10D1ED6CD743A6F0DC393C6F4F54E5BE50331594E4D48E01562ED113282836F3) 0x7E5BEFBB6C54DDCF42C6762FD5D077CD61C4A6256302B6C574646677DAB10EB 0x10E2E2FF6B00C59802F23E8BFCF9BEEF1EE015CF4261DEE7BC658BDDF4027725; LS 0x5D11BAF8753183987EAFB3B5869859D76C1DE20AA5B0B8E390D597CA912F4162 (-0x6B2D9A47B165452F38724D625E84CCBA2D301E398AD7339E3234AC2CBE8B92F) 0x21D5E312E2B3859F7F1B57518F490ED1D6AC91EF972509647FA8FCCB65C346B9 (-0x16E78E6968D7D18F73B7517B64EC350FF969DADBB4807D0DA747D8C5DFF06BB0); LS 0x532C6CFFBB49E1D7889E0252B061ED24BE30240E0BCAC88362D6DCACEC39D28D (-0x1F151B8E6D4E1B6BDB64D77733CC48A0485012454E51A4883CEC1971393994B1) 0x1B05D66379C30F54617037BD5D49DC1BFE5F34D510721A20A34B0CC6F696CA60 0x419FB567BB43BBDBF773E6A90CD3D41AEE4B5E5DEA733CFF924B3785C727A4A5; LS 0xD7BF8401D77C26FA7BAC1E4BFA208A70C2A23DD5E45F589BACF39490AA37DE8E (-0x1A555B37013FA6A70184FA171C56A737CD0385F89162678C6D999CB250B903DD) 0xB5D33F0156C3FAF6520C08E5CE6AB70F56D9DB19D0A63145D36AAAFD702F9170 0x36AC63F59F1186142F49E4CFB8B5EC6E65557B1B75B4FF4ABCB3DEFA8B7D88D9];
    [LS 0xB57FBD6311891FA066B96ACE15EBAA7FF05F40B248CBDED3D710C3DA1F459381 (-0x73EF8B3C2DBC0C21B66D3EB3580C1DA9D6D012A587AD7B50CF1036DFBF5B32E) 0x80ADE18B8B32BB013C5CEA62C9D0B6B42B366D1293A69FF7410772602003A4E5 0x22F65ACFF996FA2625DBF3088FCF50783E749F605A517269FFF8B25878B6F109; LS 0x5E2E7FEA14A826120B42645A05CD2AA86DB5F4B7172A1060FD90C39683C2AE0D 0x18B15308494319C0ED295859F025BC82CFF496DA1294442EDA3F8F6F7ADE828F 0x22A62E621F34FEEB8997021B70A80AD2432D6E092A39BFCB465ECC07AC9119C2 (-0x7BFCD37DD2BE10E58C51AE04341709820BA72A3917B406E68AD070474D8363F); LS 0x1C11D03579AFF4C370F361680157FC79451CCDE251738D58F4EED3BC393AA496 (-0x11C32C22F8ACD880360ED5C1EBBE233361DC88B42A3600F5960D17872C383F3) 0x313E6C9030F97D2CD1AFC6B412A67824BAE9BF6EE80260E8936C47BE8801C01 0x16009716E65FDE24A4BBC7F9DA854240FFD3AFFEA3AE149DE0159DA803A5F8B0; LS 0x474308D94FF9F91A8D3F0ADEB9D49AA3A549CF3A84AF97440A417C9E64BCB3D3 0xF1D57EF0C616E4983DC1C8119ECF7A05BD5E7835968F2AE3772D351B7199409 0x13D640762C6AD27D6C951AB38C6FE32249488C9A9B767CDB0C9D6BBD548EB84F 0x109D6C13C59583C2FC25CC4BEE35D5B7FF11CF3307B2BBA009A33115062F41AF; LS 0x356EF1E44274E2F4F10F8C3EAC1D635E8464855FB7D63D8CCE7FC199A82B0204 0x11EF0E86E3CE21D20652949A4F899534A472E6A5F0012390067E49279D99A9F3 0xB27203D483D1312FB1585FFE65BC27BB747C377D82CB627ADA336E417DE16DB (-0x15F86F35D3D09DE44D0E89940F5CCE79189187582C32E37D359C220B755D52D4); LS 0xFD2C129839DE82481B5437834BF83171BC5AE3F5F24F08C5F3061D8BAEA67A1D 0x4122600F6C4E70253711764C8F4CEDABE8B1312C921C00B72EE5594B5AF6A20 0xFA602457480F74A75E6F8B8F38A3487E954AD64652A92A5C34C4F7D463AFC4DF 0x8179C37619933D4D7D0FE9DCD414A478DB87A5867565B9CD09E2A96D38DCADC8; LS 0xA9F2423B4820B8140A4B0AAF0B785C63A19E781D15807989CD2C0491A613E25E 0x7F5DBCF86DBF377E78BEB12EB581BF560B8B432FE140018F4FF05B969FE0C457 0x70D1C0B38E722FD1ADCC24408F5961462E94902E95B21B4353640E1BE4265DB3 (-0x865D1B31B945AC6B3778B9B37C19FE23E35B4D40A73085699AF1EA597EB051E); LS 0x694C30DAA7F11DBABDB7065F9254462B9A2103624584A6471656EB500A6E9ABA 0x3104744ACB65F67C4B0FB18543CB582DDF1D4D895D9822018D395BC5A7FA3254 0x2B4F96C068EA3B49B679E8F88D74895CA30496F377461415CCAB02E4D08B89D7 (-0x1DBBEFFF192FB6A1D13A57B3CE1475EB88F3E29021FA737BB903FA6A98FB7DA2)];
    [LS 0x16684DB41EDC7D10F6C82E567B1E20B44F3F1BD9F38C28DD924235178B5FF813 (-0x8AE226A0C8EF98608D07D43838F1B61A5CA6A2510F49A4217821A2ED39D06BA) 0x1F617DA2F3CD1F095376A2324E70AD1FFD3F15F6AC2E237FCDC96C7723CC811 0xB99A7462B555DB96A114D3BDAE34B76A2DBD7DC85E2B7D00DDB33AA8D965599; LS 0x10D892F23CC576C4FF64F7790095A04D9E00C866E981E9F54F887D29BBDB4F8B (-0x16FC2E456399F344A0ADDA148693AB2AB346C0DE6C8E3D62A7293A4B6754A5D) 0x11BC99694B86E993B96010F1B702E66BA80296BEC425F9C9C5C1483530B89E7 (-0x59DD54F3D31323C66A6BF20FCFAFE1C8F4472501E6FE63180902D5F7FDB5A72); LS 0xECDD1DB401DDFB0CEB6BFEF05B55E1E5464B3EDAFE8C6821A3F04F5D7A2B6B3C (-0x5BAB09C15D265B2A68739BD793CC37893600A06D676C98B8750BDF847B66D5D6) 0xDB286DC02FAEC722316B0A745F5CA83961A8C1715D66F7398861B1B2F836DAD2 0xC23BDA46D8EE5A788804E2455A6741F682C27EA47A36EBAFC9E809C0D36D1607; LS 0x7E11048B30EF250E9E9C7B76301193EEB6009BDE5F2F173DE4D5DD94C508F997 (-0x11106A60FA8FCDA22DF36A12C4879F10914BE6E5D4B2948CD05D2A8E3BDA09FB) 0x3E14C19A9EBC8D72F6485A7190F184F7305A6B97EC5584AD8C57BA254080DF24 0x421BD055199274474D9D4212DE76C100FF19B79669693373C86D2EC48785BCFE; LS 0xA495339C54C26DB2C2A434BE71A63F93948BA99E134FA0FF05D29B6BC37D3CA6 (-0x1F25EF245C3154AF9703D32857AE1BA9E94EF216ECACB6F566DF17F90470518) 0x69CF81156AFB701D9C340DCBCE1DF06DD88A4D85C028973D4DB6F78D62D74FBF 0x2BB59AD0B6187C8E3123E70982EB4ABBB1F2B6A83EB14F9C07B46201763CFD9D; LS 0xD802E9A119E6461730DE86ADD2A80C725FA25E651294F5997AC75ACF110550AC (-0x4794DD06BB13C596D7447E8FD131882F22BDDEDACC7E1455E2BF088555378918) 0xB644EA48576FA466FCAD6FB283A8A6B587A62689638385757DCACB4BCD473BDE 0x31E4C6E86BB4729BF7BB03CD3273FFAABC45523762C3EDAB8512EC0278253A96; LS 0x17E76EBBCCEF7EE84B69A36CF57A19041B06F04BF67DE4D522CC53EE4A11D0BC 0x99BF5AA0DA590D35016365230CBFD211DA28759845E3E92D8D9C7A4C7299CBE 0x23B671EC5A4CEE79FC6AE7FE45BFFB4FF5F9340703B8CE394BDB1B15BC527AC (-0x106B86A8A70E4ADFEEFFD422B2FA93AFA07DCEF7E04647138FFF2D052E4F6A73); LS 0x843CCB17BC36843B5AF8C921D4C210829675FC15CA0E61AF97E63F18E369965B 0xF9C7DA5DBC735B41F032F3C8A7A648D90D42076F60AD8A082C49BA0141C2BE6 0x444EBFE04E57189D038536CD4DE8B370929C87ABD94D4166745B7FA6273A412E (-0x2BBDA5A89F7E85F997D09F67C333ECB61A3A5900D9F2B9C673721151B51A9185); LS 0x15B50816157A7361F044F329D430D8463CE3102BBA1DC946044950D35354211B (-0x43A3B48FCE0188CD962C7874BE17862DA747BAD6119FFB864D5FD2DF7019D67) 0x1D733580F01D95493F856BE8FC7EDF36820607D8DB69C6BA7CE858EB65BE7D6 (-0x1C87AFFED0BAB07385A36CB255796C3FC402018423F7BE1C97FDECC7718C653); LS 0x2EC45C1C2507B1E4DC84EA99969DB0273E469866EB2ADF7C31F3ED1A28B7C7D (-0x7D60AB4CDA119B3D22B3FC8DAB1FDB2B7F657A88278089F46EA1357FCA14AE) 0x88B27B7498BB56C4C98120D90E1C33CB0A245D6C7F4284E7EDE5E501F4AE5 0x1E91E91C1D142277AF99E9931423260E326B4EA9FA76D663BB7473814D05EE8; LS 0x8A4EBFCC9F554C7FE8B1036B2102A7C5427B0AC9DDDE8A6C49DA13E9A8F99539 0x36E2D827B9924DBFF98B427D7FBD24C6E1A4F15F23FB00179FD78129F461EB1A 0x4AB8FF020C2C07C420147E1358EEE25A9FC46ED87040434DEAA8265553C2A67B (-0x1E1CE805983A6B7F1D34C9D8E0CA8F97F435425AF0B2FB50FDBFEB467D759D9D); LS 0x2C3AB83C68D988E8D6B91520A94DC1636F2E8C3EF4476BFD54871DA40C3C1A7A 0x4534E67A607E4A3C597BE48940AABFB198C288A840BFF1A7EC9DDF9693B3DD0 0x7A43CCCC4012E9C19094506148AEB3FD6A91EE67D3D050257DFB3F1D33568DE (-0x502BE67B27C3D5CD8380BB03CD341F0FC0E837A93DF926DD5C87F01A3D1B5AF); LS 0x17F92210D366F17DEBB950D1D28EF00C978C2BBE8E3B296F14B8FF477C785963 (-0xA2406A427C037A9D835836B5BFC2D34034BD61B1A3723428C66D3258B1628A5) 0x23EB6924F4036E8DAE658DA835CC602C3D87DD97023EA73D2CDA0499184DC27 0x6B1082C554B41005662A3F4AA4FD57E33B0FBF3C5BFA592FA73C2604D54F0F; LS 0xC331023B7FFAFBA9AE5708D387ADFBFB181B4D68587A3C155986DF8A0BD2902B 0x23242C46BD883F342F6D2AE8029B6A3EFC72ACA01692903183755AA0189532C0 0x94D3B2C87FC4554D0026F77633B7672FADB16540473746C8B72A344024F03867 0x34C0ECE6B8C1E9F40F8597DE98C3E73E08096EECC9B37620D8B99120C4CC4443; LS 0x4FD785DB4DE74CE99AC7B592483526F35DED509332F8DAADCDEE329359A0CDBC 0x1C2683C01146B1A95CA703DB009B3A99FD9CF928A912826168CC7195A34CF61E 0x18E6BA0F766F36CC15468546046DBF55C4844B14F520127D2B9B76C4B284967B 0x17EC2672A6C7E54CB56694BF71A35B4A67253C66C00B4A876422DF043B3FE9C; LS 0xF35C50DB3BD55C3F3A5E6EE435ACC50982CCF43D1F2CC35A73BBD108F1D9852 (-0x27FD9CC432D6C6CA1B57574943CF42FCA6F425F9138D3A5C6332B6DB014835D) 0xE75862CA6AB3CF9F1CF09D659C291810DDE2A74F5D260726DE7E3AAB4BC7C0 0x547D22414C9F6261CAFAD4BF69922BBD1FE1AA47AF1F01BC781BB1A772801E3]]);
  ([DS 0xC99B4C9176F16D1278CE4DC16EB5B11D30E59421DDCD7107D1F1015E9800536C 0x8D2306D2DD8C753F2B093E62086FC282BA3E1DBD7B4BA10183D1070ED2D06E67 0x6822EB3D2D3E2EB8B795C20329F745D7F29C03FCDAE5EF9367EE4F766871C1D1 0x348970C6D862C0D1F36D9A295E6CAE130152FDEF9C1C84B7636CECE9DBC10ADE 0x9EC53C723BD3D6E863963ACED292AF51379B58B782750618B8D93918E6CAA87E (-0x510273CC97EADCFA2ABDD76813828FA17D9DC430AD35BE71A7329A33A5DCD92C);
    DS 0x7241E04CB96AAA5267EDF207A363646D6C2D3F55E71F1A2D3255E521911AC476 0x1AC6819424FE21E102995D7D49D0198F442C5D2EDFAADC3125C7B45F53B536C8 0xDD38662662E44660D54F1CECB5098D628803F99B65EE6B9002668C5991865E09 0x12CA21556A7C0642631716E8D874915E5BCC8FF5BEE45C0F4BEE40655B4BD3E0 0x32FEBCB8009F83552A195FCE6A0015CBA337D6F03FA09755759481EB0D297941 0x330AA106FDFF300E2C00591984EB9B4D6AF2867374D25A0412E0A598D582AB90;
    DS 0x750811250C0EED8BBB6EC0E0C376940E96A5BD3F038B42900A5CE9F720139636 0xAEF817688EEE6A48A8364446BD26488DE5D6061889EB5A257CCF2352B1FEB143 0x779FF32EC5CC9DA3791153D9DA0828A859B087E66E187BC5271772B8B53382F4 0x3FCEE940EBB7D04A3D531ABD743E9C930AD2F6ABE3ABF3D37065BD292FA106CC 0x35805FECF07C57070A7D93A6559F1D2F2616C01B0CE1859D7AA4040885380144 (-0x43BF54F38026DA94D82E9FB5448145162EE62A15AC9F006DBFBF6BDC02F70F41);
    DS 0xA58F2EDFD54A655020914FF1D2AEC9774A736D9BB8A78D63EA56CED08534CE4D 0x30DD490E8A8983E85CCCF142E5110F4969CE8963114B2C1DA16ADE66FE995EE4 0xC3DCD0BC481C97D6DEC2FFCEF76DDF520D37612715DEDFF10C3BCB5128B649F (-0x4860C5ECA5BD804A44948DAE8F33866C5B9A89C7525B712FC771BF817BEEF3D5) 0x6B11E281EF9764127F39E2E8103FD3CE5E97EAFB1121DE5D0EEC41A00FB3D56C 0x518DCF105C9C5D654D3124D6E25108153087503C1F13CD09EC7C5AE1C40C7F00;
    DS 0x420E0CA3A2837D12BA34E91F45D542322BB0B3061CA487D8B16EFB071218A05B 0xE0AD91C66CA953260D440F44DF91C1CDCD3EC344E906D0EF51FD4A4831CE293D 0xFCAA60C31CB6084C30993E84D3C01819745C7FB1BC73F7E94971301CFCF25AA2 0x1E91436A780735941E7D3D34F45FB47CD3E6ED40B0AD4CCDF1665B957460DC86 0x110B3F49C25152B404655B20A69A3A3C94B883F13CFB5F6A20B1283F9D14176A (-0x2D5D58D186FD9858D80F9DCF089E42FB13583E450080B52FE2FB351586D1145C)],
   [[LS 0x21EB6929FA6E30DA6D8540B16DDFF3BC2F1871A7A094E03D1929CD67F9C779E4 (-0x59E6542F944BCC78D2205403ED282D0460FDD89065E47DB2EFEDD6EDADFEAD0) 0x47E899710D5A536919BA7F98AC4BF45B8727F6E830313E00C957AF49E87FCF2 0x10DDF6095F6382C77CA014AB9801A32E1E24A086A4A60A91DEA9FE3D9488F87];
    [LS 0x397F3A0BF41631F2555D85B7BB202F7C8F0D745E56EC2BFD18A1585CDC771DE6 (-0x246D87A7670C555BBC24B4B92E9C77EF5363B0CA004A4C5FAC99F22A112D2DF) 0xCE9E713F7B77B6C69B8C2FAC6605AB5C65458B600ED9D0601D83D9EA649FD41 0x13E3970DDCAB51D72AD0F005C1D0226F90569297713B5A0F5948BDF89F28CBFB; LS 0xDD085D0B5C0BA28C3E49E632AF67880683AC6AB07273DF7A808ECEEA66ED60B9 (-0x1E2032C31E40A23F53C90C1AFCAC5FF2E84070BEEB642A263E6ADEFC0F88CA8) 0xBED770EB8F7318C1CA81B6BD1DA69697F93BA224CC6E24D5798619897CFBB7CB 0xB82A7489282F3F1ABFF42C178812C6DFB661343AB8F2FE21B0F9682AE8C75AE7];
    [LS 0x3E2C0A8C722227FDFF9A0AA3BF63682CCB625C82C04BE5BB6A8411FF235721D4 (-0x2A59E3ED4F36CE073B77F8CA11613F19B87D98930F302059F3B5641D77C83639) 0xF195CAFA7FF0D147A7C800F6FAAD4F769A5888C6EE4F3409E7628D6D7D984C8 0x19D44A7901BA2CB7FCF29564B9AD8730A8B43437168DA05F42386D03DB971646; LS 0x176EDAA6099F41B8AC90BCC2B2934768A8523F02E3ED804FE4F447D44BBBA0D6 (-0xF3BEFB5ECEBDEB9FAE974B46D2CB448C5593A245CD2CD102606FE48178180BC) 0x2251B4A772A16BF608AA565310027F2C7737C691D69339D56C5F7676A276E5C 0x6A18CC73D5B9ACF123A5E1591143974E3FB6424EE35557CE6C199219809C17D; LS 0x29F84E27B82B43E3A196874EB4A5ABC851CC12C8A9A1424826265ED8F802707D (-0xE12556C95CACD42FB1C73D8F5FB1796D1F5B962C13AADEAD2D972C07EE2F091) 0x6E179E03DCEE9F671D6E9B76D6DDE22575EEFB88A50D4BEB5C565F597258629 0x11A58B22B9EF491B93695465E9E0B2CEAE439023502DBCD921EB8FDA05B8EB11; LS 0x16821E6C6689EA5BB876E3E923336C957AADF6C7EC8F517791C6008FD4A1D2B5 0x41F00BC3BCC4E09598F53B3F31D96DE4276720B87A999A492F37B29772DB8D0 0x1FA9F5D8B556E48C9393598D04582CD73692879AF92055270FE31F56699AB49 (-0x102494EC7ADB2FFB898609DD92AFE86866AEFF221735A8D6162EBA19DF06280D)];
    [LS 0x66BD943067123C99543EC53135DC884EBB8861825D055867E6661F69C9760E95 (-0x3AE048BE8CD9F1179D8CE9FA4C88C40B06AA9BC171D578ADFF758D0AED93556D) 0x293B9E7AB762B98B8FF01ACA82D2B3CFC172CB008F0E7311DDE4A7BCB0734964 0x49EC028FC50418550ADEC8919E10D1ADE6A33E8501ACC755741944673750A11E; LS 0x75AA884FC73D1E75D459EA38986A6D60735305D8E70668911B3F4112BF891210 (-0x3FC5B97199D2229AB3E4407B1A76F85C137E7501ED0D330121223AF292A7DC39) 0x361552323EA75791ABBE49CE1EC137310C9189662EF521932DCF6298BC21B217 0x2A05727D8855FABB401D93511A6F542BD176A724F876038626A96DB0E1E87A54; LS 0xB12344B142E7334442B409B3555E8C20310EE9A3A5005CBBB5E6556006BF9B0F (-0x283C4519BC79995B486BCB49AC42C695794F762AC61959AA6A1D487D914DBD79) 0x7A91C9D8F96AA664D15461B5470C3FA6525FA7848DAE07261B264E459F1E5F54 (-0x529A4E2C5A1167236673C870C4A5BE54D52D8D468C2B42CDF12C54CA0B2EACEA); LS 0x24653FA9C8BC9DD1E23C3E0E67B826E1112F26D81E3614291650A890EB86546F 0xA99749F55D07261D1C7748F5C0D2C45A03894204AB233F2BA78CE2671A3F6CC 0x52CA1F30C42729F0B5A63037DAC2D5248546B73E91DE716EA1ECA87F35B1291 (-0x82C26153FD4BEC2EFE5E33EA0E3A9C27C263FDB50D611782B09EA77797C9476); LS 0x40313190303ED6ACF13053D0247739DEA8425DF6107D4216E8A0BD4287255467 (-0xA1E00DBEF588C39DB2CDEBE83C2F4C1699E2341E61070D7651BC734D4B972D0) 0x1018A23C1AEA671304C3D539889A159A9470F252FD22088F9BB35F2FA70FC0BF 0x133CB919E3891B3F271DCFE0B74019F1C290093F7E3B856D8D773C50BAE88213; LS 0xB4CC30972F3E09C115E11AD71C98729C75CE7B3FB7E1D5848AAC5C4361AA6408 (-0x2ED384AD7FFB99CA550BF2D2845E6D4039F830207CDB8DAEFC6C64D9F6442498) 0x7FAFC732149B93971A0F2D1B2098AEAF65B61FC6B8884D1CAE023D5D33E7E97C (-0x1F159CD5106FEFF366512CD0F0D4ECB6EBEBB8E7FA5E9CD94637B1FFDE483FEA); LS 0xE5D70CE47DE0523165156D816CDF96959AD6976CDB49D6CB532FE50EC6823561 0x2C6E9B937179A51210882BC14277D71B9616153C16586AA151AC1EF691BBE2D8 0xCE5A71B771A4F993EAFBFE31BA27946F15C5E02ED4AA244A2E67F301CBFF171B (-0x7E12BA844BEF064CA971ABFC27C2FD14A2F0BA679620F8AB4529A352D5C23CA8); LS 0xF90E17769F7CD146DB68283D94971A76BA474A5D6FE96967F170F1F91C6D9F93 (-0x6A16F89CD5A0500A523217CB93FB64A4C433445860D3DAAFE3362941AF809AAD) 0xF24C6A6B5560C86292988F3C994F103A425A5C299DD98CA53ACFA8E547999CBC (-0x28E0C94214EF3718D530C89AFFB04B97F93F8910D85B44C36544B8F808690581)];
    [LS 0x9EF4D075B667E584CE9F8B76F913DD8B6F0F31D8563819378E55308DDE877236 (-0x2A8158E3318B3F64C8BBB3A2A650E43584D8AAE8B3F29F850E05CC3BC69A8F50) 0x62B31B6F574B73E6861E4FF42B262014F1C20D993549647FC88D1B8000BCD321 0xD434EA59D61FDAC5064729CA0CC0C3B1CC57D6A7CACD25EA2DCC5DBCCB661A4; LS 0x416EB22517A3E2375165455E85C3F620C45BB91D1172F03DCC3CEE7D7AA3F49C (-0xF769379ABD3340B66C954E636B2E04D1CD3BE12B32BFEEFBB554804FD2267BD) 0x10B9665469D923F63D028CFFC3DD87D3891187E2919715AB15222D5D04C4693C (-0x18E9B9EA8736EE4C1B0BA4F43F984388A5C4D25D5D15F6CF9FF751473AB4003); LS 0x67A9058A5FD62ACB7D241A948F55116034DF8CD1B0B66212FDD40D038E27672E 0x82379E2F4A0A37530EBA201E42FF9FC8A0B9DE0F25B0DCCB9081158A87EEFEB 0x29F9720DA9EF91BE13D1044391AF92F675DE2310A4C96D1AD718252342848911 (-0x2B9B46CE8AD7206E9A83AE06E221FC8105E74C53B5E296FD34BAF8AEF9D3242D); LS 0xA3CBFFD793879C49EA9DCAEAA40EAA412C03979B0AB3E026CC06272E0D69CDCC 0x61C4831227F0A566F50B24B8419754FAA8F53EF7248ED78BF67BA39A468A1E90 0x68CD6A5C4571D7894A27D1882525F9C3396A98E24747CC5E17AFED04869C2E8B (-0x85F388F10CA4251F499C08DECF803153AFC10548EC09910CAF5697095D2539EF); LS 0x6089FAD758C1DAF28130EB1D8E2532F653F8BDEBB7090EA3DD02C98BB780DC8D 0xE4ACE870AD1F02D87A13AD8C972A574E83C9104B974FF485A4D2350F525BA05 0x2467C67FF2D7B2330C7837ACF15906755B0C3BD404DBA823AFDB42BF0B611673 (-0x264F57207FE685FF5B7803F0053B969BA109F9836D99CC34DD794ADFD29FE8F8); LS 0x1F3E2869F376016FD8450FF7A1A16417EC4B43E97177E542372627801EAD2F6 0x175296142014F1F3587CFCE62046CA316E0D4542B6289D1403BA9143D7BEB0 0x3D01CE142A9C9704756D9C65A6C6897EE560EC16422CBD772B2615C35666E 0x10BF7610258A028265CE0495D8D98002E4AB3DDEA4A2E1B4A5C5A9499B6C15A; LS 0xB090F08030C008FD00286344FD739BE48391F89D555B104B3D3DC3ADEC7B495C 0x5819F9CD15BBE4401F3B16548A5C7589E71E61038203C3C6889C8DBD07CE9689 0x79C79CBFB52F7FFED703A6A6C880E47A6A7529B82EE6FF0EBEDCFEBF756693EE (-0x621C66ADD692F80DA1DAD3E4B563B8D16284B0626FD1BF59063E348B3140AF11); LS 0x30C1B7C1240B31A59BDE442302CCD35B0891A69926BB4B0EDFE0A51191E123A4 (-0x5DDBCB2FC96FC759C719D2D4490BE02737F0E8A27B474FCBFCFF3317B383518) 0x949377F02A23EBE551725B08A168BF4F6C85C5636AB4C4E8042DD8F962E7F89 0x15E9DAEA037D95116EACA30B036A19A4532A33781BE9B2D278A448C3190CEDF5; LS 0x298623908B75263FD46F95E99EAE99174591237AC9A8CF66F1F9EB6018E44155 0x12C5DF5244716E9750C8A312977E847E68AEF19372D5A9754B24E2486BB40BDE 0x6BC3DAD8CEE5CA3B5170BE092ACF1CE1480B35FD784B29D00E2DEDB6D643DA4 0x15FF9F0286A3163B6CB30661ED8CB2FD77FA759A96CE9DBAB03A32B2ACB3218; LS 0xC67D3181AF983917B2115038CFF18EC572DFB10725CC376090AB00EA58DB75C6 0x17FA39F0E91A37C577CD2C279DC3707EF25ABF33CE0DE91D0DB47CA042DC42E3 0x99E5E5CDFDD7D9E31E4CC19E8DA003550512A8D68504DE421E146255B9E1EEF1 (-0xCF04DF0AF2D91D627E513C665849EF5F2710AE4A84D3B0791AF1FE431C61217); LS 0xC113C1AA98BB43BDDACBB279A5B37FD594A4B8F6DE381B935B2CAB6C2DEBB756 (-0x4AE070DE4B72F66B1336E92EEF0BE22A20EF2E08357520989789A4888B8E40B0) 0x919ECB898C1FB3E9E20EC2D320A82BA85AA83F92336EAEEF429E51590A95DCF7 0x3C02A0BB676A2116C25483DE1F1EE8D262736B0937E73C99A795B092EE47C6B9; LS 0xBE2D18E433087D4D8DC9937C998A6CD12B1CBE855EBCFB494ECA52C67CAA1CE8 0x46CF4A839204E283CDE7FB2CE6F49704641972DAB456C77C665445F6EB64DB24 0x8D46F8E47E661FF7B4852EBA2119883E8149B1AB01FDFE9FC301321B68CEF0E1 0x5A6C85813926B74064BE7E9516B0555BDB4A922BA647CFE17FA3AF992D18F1F; LS 0xAB9971BA30F594536C1C8D180022A731632144CF63063B44DD52CFCD4008DA64 0x4CD46B4365B43E1910BB5077614C5C7FF4649336C50236BBF477C1891F7BAE4D 0x730659E7E07C8056B94F907D8B12DF85F8B815F2D5E43694E7B3E9AA8C56B2C4 (-0x765C78F00C8AE5D019E64AC6D4F8902099B7B4CB206141F9D54F21C81E8DA777); LS 0xF4461265EB41B964B2C6F17D7DE35FDEA42760E44B315E24D27B54463A065091 (-0x1E99DBC9B7561EA3D949F3FC3C138D3B8792359E34FAC54E4C8A87ABF5321620) 0xE915A64059846F020FFD2EFADF293434DDB876E29C8091D3A379796A2EABE060 0x494E1F1E1141741521705A1C5F03BB173E568C1793B182A17D40D394C605FB4E; LS 0xD8C4903FEA30AF26DAF86C1C332AE97A7B324B46ED51ACBA39E35572348044BC (-0xABDE49525E14F058D2E5410F7A4D2107FF9E96A9D4A42A31A288290C28F6F6B) 0xB78C4A590E58B989A44177C190221B3722328B5D2B0F00C511654D9A216EBC2A 0x16A6A1775AF913B7851EBA37B14183D17AEB334F80FFF8BA7A4BCA726973644C; LS 0xFB8FB8E5526DA4A609A88FA24AF0EDB6ACA066629659F664C8E76899BEE396D6 (-0x478E58EA07AC60B4F8EC4620A61FFD556029409A020FB11B546282AF24CCCF90) 0xF7332541C55F8B45B7D0FF5849C7CD00F88CEDF6B32761FBE17FA3A732F262B0 0xA21C9B98F7BA54AD813B77ED12A329D043CB5DFA7DE95E32E33BCFDDB86BB479]]);
  ([DS 0xF0565BB8DDEACD521AA01115C59F5971ECC86DC3EB57884C5E8A80B7261888FD 0x4074523EB75634F76442C3BFED9A52D45F6636F077A10E845E6ED950B673A9EA 0x277765FD136A4AEE558B24E5EF36EAB8BA4764A867EFEE5F62B31A831B1E0BFD 0x77CD97202A631CA2E2A5FCE6F41D67D4F2E23CC8FF02C47509452E110861A419 0xE1A2091C612A4E0094F4C66420273BA952D99653C5F94AE70D1406FD274979AF 0x23130DBEC097378E1658910C91F44240BCA1B98E5036254A51B205AD45C8EEB;
    DS 0xC2F1CAD4D2BD4A4A6DD8A440907BD02C64A9B898C424D10192EC6BFEF76E82C1 0xC0230E7FE1BAA8FC352D2C0ED7BF2BAC17CB08EB13EC6AB8790D381F870FFCFF 0x48A60DB714FE9EC0CF83ED2B7E57C0B52E2E45EF298631919E6B0A840413A929 (-0x2F7CB4DFC1A1BAA9C40A3FFF89B2547FB6B8B619B0D7BC4D3AD7EDF546E1244F) 0x94735BCA14D03A7F1EDAC54FD23E5C15517490218D550F94AD798D1DB264BCF9 (-0x613B0352A1D41963502F987D9809D7CE977B161E1BEDB4C7B2DD49A2B77CA7F5);
    DS 0x4A57875F6373B8549514D35C39D62F7B686C1CEADF5EC830D54BF5A655B8E12B 0x48F777E0B251AE4A8133ADC6237E08A93125A80D5838A459F2290E42BAD77417 0xD68D6D33DF86E2B22C4241A1D2D1624B7CFDD001F735AF25F24A5726C7AEDA08 0xA1C1849164F26389632D4713C2F6541658F8F0B24D650E9A04F5E375CBC4A55 0x1596B8306FEA3DA7329C173C228504E9C7330679FC354FF564685FCDAA34096F 0x229B585E97B405DA7160D205E9D12758951C091EA03DF9AC7492AAA369B1B3E9;
    DS 0xE4D392EC0F82286F187E525A6714795CB04C9714E5689298D66C9254734E24B3 0x387C339BFB82CC4938E010E7EDB8F14DC4FE490D6D5A01E28F1FEF4AAD792D88 0xC6E9F414584899016419A5A114E01DEAA17CBFC327C880560275D3A8207DAEC3 0x7A783B52CDB128AB2833FF370CFB93065BA6E7380EA523499A37BBF5516A2A46 0xCC898C90011383F199CD2A9C238FEDFE868536C0B5E8698975965E537B2D4FD2 0xEBB67DBF704A79B0A62241657494FE8DAD1FB272DA0CA93EA2DE13560D6036E;
    DS 0x7CCB1586156EC065177E6E07EA99602F37D1385B7F4FFD2D72D9ED118F16ED04 0x9089BCB71C1559BFE17F6C0B091FC098C63785FA18A42D69798B063FA0930175 0x21DD6E8AA1B140E8EFB80865C827E4606FFB5830208B8A768C9A1E8A51C982C6 (-0x156B70A79E2FF3EB7E081C6A989749849F55DFAA21C0BDDC5A21E0EEBCD5FC91) 0x3CD55DF509388DC5AC631843FF8DDB10178F12F046FDB8F0EA4D237FE28E0754 (-0x2AEC688C16FE02D7C8A9D6FC59FD2CDCC5DFA724A8F58089FA5E843717A58953)],
   [[LS 0x499D09B65F836E7A917F957490B7470A963A1B42BE211375AA1AAB521BC6C4E0 0x6047528EDA561DBF394DB5C912BF6F9BD1FEAB38AD074E1F51853A33F93C14F 0x152AEFDEEC8870DA9999BDB4DE87E473F1B1B116DDBF4EAF7D3E8D1EAA74D1EC 0x1363756F8FBEF387A3BF37F3771BC5E185A6D7EE5AEB47E19FD319ED81CE5C20];
    [LS 0x271CB0DA2E61DA71D8819CC3F068475C75765F92392E9F6D804FB84E306A53BB (-0x3D46968F7641F401B3C7FA78DDCB86B52E3A9E0EA550EAB594CFC319E42D701) 0x5F9C119A408AFB00C4ABD9D20E382BF6B232B3F6D7434A52B4B2A7C10BB2FEF (-0x4E092A1D1D47CF5F1542E3B79EC9E75D6E3E8CCEC4B15179C17EFA614E8A4BD); LS 0x5F0B5DC285321C2545776EBD8C07B6D7BFFD9471DA1BE5172E3C1B4FD6844265 0xFBA02CFC8271CB756C54D412C18AD782B2317597CDAD73778B1D76C71FEBE45 0x234970178FE98BC6A2757477FD86B9BB2AB65E4A91737787F719A7447B5F6AD0 0x5B75850C9117E38D01006A384525C76BA12E1546B9266ECCD9E7EC24E669536];
    [LS 0xD51D5B1D068D4BEE4EA4F20C449E5F9F5203FF55AE3DDBD1DBCB98934A376DB8 (-0x70B35BECBC445E82FC5B0B719FF54466693420AD5094B787DAF624CF80227432) 0xB169DCFC11E84250B305D99A3D22838719D959EF88087B4421519D2C87336C96 0x47A96BB6CCB2348F527F79FC86D6D97A393765BA0036807FFDF43D76253870FB; LS 0xF5A347D73B97F5627DEA124843A0B27CDF853AC6F056D41E52A9C2C403B1A903 (-0x4133F3BBB15951C976186972377B48A8893223CBE3E0C6FC9D253CFAA1186C59) 0xEBB1EFA6884FD73471A891A7BA3698A096554E627436E5BC263CD73CB50D044C (-0x67982C81316E59A73FD78E38400685AAC733294DAE734343B641E8D07EDEFF34); LS 0x90B670E325D135979375E9FC6ED884BFCEA71116197A28B209DDEF4EC59745CD (-0x5E92C89831A3A53EF04404B2E49A80A7270CBAEC9E4F34F13B38BFC95560FF6E) 0x51CDC1043F4CAC65DEEA2331BCD200D7B47DCC600E887D95A4ABEC56852C4FD1 (-0x710CB5693AA620A8B2058C93F9E98256B6B0010D85ED644419C526CF276161A); LS 0xA37EE0E15F339F3CE17BD363F139856D87F27AD39EFC3562CDFF17AEE701AEBC (-0x2190DA04EFD4F461B216857289A2EEC810FE1C8FD47A54A62E90A0457B5836DE) 0x686AD14122A0A09B19E1734A6DD19D2833A3C3772DD176EE2ADB541D2C85436A (-0x8B521D388C865F32C2BD9D468B2DCBBA9BAD9C6789E37FE434FB1C900B51F62)];
    [LS 0x8197C00EFE7B52A1F1119CCC26B1750A0577E1D211C928892B5BEBA99E127D74 (-0x56D72A27839D2D3B3317BF2DFE228DBF9D0DCE81059DD02C34C1646A7F9A907) 0x419A49833E3EFD5C7E67097F5D9C9C9CC2DE9915D040FF1FA7DF34D6940CE064 (-0x12BA661D43D51DACCFBF4E868D8BBF40D610224109AC6F6CC7BCEE29AF25DE4D); LS 0x629DD6C7BBF8A662FBE0042B1D050D2C0E311AA47B42029EBD6BD4E5EF798C6A 0x15D7FCE0F1CF0212B0C836D2B52A9CD5172ED6A9B896FC7B585528EFF6990D3B 0x25FD39C2111978795B05D38BA43DD2DED770E4B94276A7CB8FF664C005AA42A5 (-0x3D09932D1AF2274C97398F80DEFD332BD32AA46DE72992B65B1D8024A926472A); LS 0x4611F175122FF8456611F52F02DCE47E63C706948F1160E677B9E3426ED52E88 (-0xBAC1C56A51405E5B0F5F179F1D85E231059CCF79A7284319BCFBD4F134219A1) 0x132DD14DFB3C47ECDF9FC1FC3E78584D988E9A312FDA537305E8479323226563 0xB1FF11159B60D53DC8F6008815BD5F21260F880D2156CFEEBD5E505200DEA15; LS 0xE636ED09F09E2C160D235EBD52B71FB432839EFC686A2ED34B9A535C4C6A3697 0x40D6A6701C00AADC3E94D6344A637F84A2CA01A59CEB3DB28E42948F33C9E2BB 0xCF06BDB6B80921D9E3D1FB6C5DD9466664792060507AB4F78093F07D7207170A (-0x8361DE6C82DA0147B9E73FE93AAD4D27ECABE073F25B976D4BE99F51EE6485C5); LS 0xAF0BC50A2F08EABB223100474FF11AE209EF2B66DA61BA6AF73C8C3C55C384EF 0x3387986D3B20B14B24575A28094C0D4263BCDA519047C5F47F23851AF423D89C 0x77B117EE72D6E87B736E8E55D5290C8B6BB12F8F8295BBFBBAFF1FFCB851D12D (-0x108EF10B7B491A68BED6DA7A881770EB052D95AB6F68A36BC6A0FFAE6A8A05F2); LS 0x3325A01E3233C6C8FF54A0E5202F44A4DD2F56A87146B262D0484C0DAD5C9FEE (-0xA3DCDBE1B8CB0537BD0DDE83BED2BE9A2E39F1175365B0B0EA0A35A2BE163DC) 0xA380353B4E0E67C124BA0F6C030944AA04FC948C6F92C1E2DBB400181DA946C 0x23F226846C40B565AF16514EE3ADB3BA2C89CC712EB4A7B757474C18F716AD69; LS 0x5D783435FAAE2F5B46426B5B27E5E1181E8BF28BA11550DB547D3D52FAF6AC76 (-0x1422444B2D7775DC62A3A86D359668CCC1CD51B3489F976442FFA40DFA331995) 0x22208E6035638AED3B737B9DA19FC951D932B95996CB03C0DA9D6AEA5FC2361A 0x1E8563054544D2923CEC0E21001410BE7A915438B5DDECC272E1D52F6EF1BA74; LS 0x26A295A8A1F34643646A96A65D4A6ADB5F1081E78027A1099766FD9E5CF105CA 0x8D2DCB2A14B569163FCBFBC3D112F2F0A453B9948D61095C792B2E51CE1BE61 0x5D4ABAFD0FEEC5B14A54C87290B2D5AB2AAD1E684A7DB15C896E3D991ADC897 (-0xB883BA1781CC9E68926DE9CB1B67DE397EDF8E181BB95A742A0C383D896C131)];
    [LS 0x29ED38DBD012583EA417B1263F5820CE2967514D0F95BA036E2F2E8ADD33CDAF 0x121E59E71D3BFD93917F67D83FB4A9B2AA6C0A9134C11A48EDD31D5BC3F4E4C7 0x6DDD808BC460A0123A79E49B1060A2CF4E0A92078252D9E3297DF629B17DB0F 0xEF9B5799709B56A34BBA77B992C14384B1E1F11CD79FCCB9954A5ED8FF85D20; LS 0xF81BC7B6711E4A108CC5A66617F28E900B48E25338DC2A182C55A89EB401907F 0xAC913E8E9401EE81BC2015A1184CAFA5BBBB72056A0300C325C985E9B4B3896D 0xF075D5F53773B1C5D06F6F72673F61739A28962553288D278797D2AE64EDBBE7 (-0x5F8C4A05F9575E7FCCEB674365ABE4C0D80FC786403A4B9BCB4CAF527C1FB209); LS 0xCFA741D2B7A6D5EBEBDD3DC160B6EB551D8779F6C2ECDDF954290F69AB99C19A 0x3FD7CFECA8E25A8D4380806CF699DDB8C7246A0EBFE187A1B5F5A2805A414DF4 0xA86FE9B9B6D818532B563BEC08F824B9D7BAFADAF9C0FF5A3EC7C9ACF2BF9397 0xA83E54EC05C36CDA9F238A05800243A0564615700A5CD4065D0234B2AEF4C72; LS 0x57AA1F76EC73695483E2A57320A0018F77A14CF1F396BFC22D76BCFDDF76B273 0x423EEE739BB1937FED0E41552AF7C648EFB0532AAB3AEB996D4E541695043031 0x1E051270A2867F621E2FC58E16854C5E0FB9C8B0F1941199F357B0D0DCACD5D4 (-0x2A83D345A6C9694DFF902CD32F79E7354D3520B89E63D3140985B2700861807); LS 0x311F76A4ED647EC486178A8ADC29D9C9E897CEBBEA950D5412D1A42C47D54733 0x25BF174E65376A8C3EEA3CD93A9EA6671C063D59374F79E3249CCB4D158354FA 0x96D0F4915CE6BF798B04E5160614028D3209985D5AE65F026FB57CAF31A5210 (-0x4F6338AA8314A06B8C1EA7CD85D247C5EE040A3A510F9AB64DCCFC0FC960EAB); LS 0x11A98DE9F045B38DDE57E07FA4BC4F7C2835B5BF594D3E0BEE3DE1DA9B84F31E 0x4D5FAF86BD8421374E3D9A23007E8B518A78C4E418C3542B98904139538EFA3 0x137F525BF740653F1051EA72EFA1ADCA927E467ECBB8B6B12560F227DC5F666 0x8BE48A31F8120610FA18DD227DFFA5E8CA3724B5A2C7275DDC449AC49001C2; LS 0x29EE26C58A8CAC46A17E34A8F829660BA8D80C9C37EB0B41C1E73DE257909752 0xAD81E7E2C59087D3DE070151DE87863B998120DBE095A451409260FF0A6C82A 0x6DE25F7638DEA4F3DB0C73714D594B1C5C98F736C7D8E4749EBB32F05064BE3 0x1844A8B8B28160A603C0B202E58374AF829752906A3C2550522070BBCCB6B197; LS 0x4202277DECB0E51C8B73DB1B21F86935FF18C990CC2B676E6199FD20F2D8A7FB 0x2E5D869CF206062A6B9033BA4A48F2312AD11FA483B5DDD65B945A4286A4217D 0x11051C61921A84F531BEFBCF5B404AEDB8442B669B1A51F7C5F822F5C80CE1D2 0x113342012946EA174A0EA47D4BE6AE2070FFE53C7B3C26D092B4290D4EB5F910; LS 0x184F53224536105F6F730A84E5B94D95DAF2C769D91E8BAA624E86030779343C 0x6FE09ED54E7D1E3CA85930E1340E7ABE5930DA924198EB6F6450C45A1A04791 0x24EF82AD72017E7837CC6D5F7DC98E386309F2D615AA12780E24819157A6252 (-0x293D88FA9BD00438F1596C2C07CD6E642C852EFCCB72F9E188582F6A0CCC36); LS 0x6E07C2968535BBEA7C61B5FE84D931AFBF7CD747E198385596B537FFAFFAA190 0x86D838170EEA1352BFEDB07FC686313C41C9C43DF0FE90DDBF61837745AA214 0x2F4AAB75929DF0D39ACF419586B2623ECE5E628C80B9F2F0E9BFBB7F1C96F21A 0x181314B064A5B9E61D815DCA1F148578DB78ACE53F19D3CB53301F2078D0AEA8; LS 0xB819A8C6D0B7E0723A2ECE6CA748FC3031CF7CF514D8E94559DD72CF5810412A 0x55D49DC1ADF5C4218A904638B082F9C10258E5CD54206BE9CD10E882A3EC9211 0x8464E5303222A2E6E72313BC37AAD98E903E59D7BC4667CC12D0C94EA389F164 0x118C01F9EA55ACFEB79C6E4F11C5E6F106E4F4A5B90A41F6A96519B70C3EACFF; LS 0x5EC05B8E81ADB7EDAE5350F9F3DCECC6BD42A04EB50DBBC25F8041E0FA5B4B12 0x1186EB4C262A1760B50601EEF1687D5DFA83FF860B0C0F8198C8E9187DA8FC7B 0x2311D3C61DBCB72C0FB63B4D4B16D20D6ADBAE8EAB049246BE0314D7B12B3A98 0x225E18DB3B88F0863D2D37DE45877929AC86B3168AD445B1B3981A784682F43A; LS 0x5413352812F9C632066471ACA46193CAB37CF806B945D2F58F8C627BC409A56B 0x38A6A3498B93AA12029076626CB7860214AD469035B9443369B848C0E7A172A6 0x1B9C9C533B7059459B25975BF19D6C8803C2960951AE7F22895B5900DE7D19A2 0x21FAE0274B2665BC651DEC10EDA02CEFF3AC77631DB6BDF26FCB79B89E34B5B; LS 0x497B20F191964647F24F0E7FB434FA4B16556C29380FCA780A49FAB1FC460581 0x47C2C9F032D749EDCC8AD2CC6544C4EF71B1F22E7CA6A5764C693E632FD39AB9 0x151774027166E2D592A1D21AB00F8AF31222D78F8B5B44159945CD21C26A59D6 (-0x43D15939BCADF4CE2D57127947280BB1DCDC21339F664DF84D8AB38EA28BBA13); LS 0xD7C2B4B629362D9D9BA9306786212B2EF0FD5DD9184E3F3B5CCD2975594B93DC 0x7E411D6CDBA020D8AF0830C743AE571168CEA8F2DCB7B3F6D2B064AE0613BEAE 0xB5D89FA05CE0224EAE2700CE43500F4303A587AB95358929701F7B67297E21C1 0x2BB63A81C6ACDE6B89BF6808A85CB54785AA4F44143A2B945AFCD79481570427; LS 0xA2505FCE020868C05C3A12FE70448E31EC3EAE4EE31C71BDC8C4276C5361A617 0x419018BC0B4C29FC4BF3EF9D00BF9DCD783AEBBE9F09BD12AAF26B77333C7D70 0x66E9D27CBF2E751E703EA04724FFDF066F7DFBACC58F88AA40B930198343E8E8 0x37550825F5130A4C3B88E0EBDD8328A54E11692389AAE32586893BDD4C46D76E]]);
  ([DS 0x91DD79DD20AC24F68DBF223E36E1118D257FB9F03636A00C001FDFAE26CE6343 0x299EF8EE131F52372949D7EFC2F0F7F9965E69B56725B554D513435AC8B0B3E 0x7456C05FD5B2684CAB2B83EF2A286E3AF08DB497B0AFE125E6CE1A9BD3904D29 (-0x4E1FFAA0C664D696E09A3D25A9E7E21D01843DD043DD310110D5E692321741CA) 0x531CA3A820D032FB4697A17A580A2C7DC222968EECD9BE6925F1C89952F02939 0x836323E4157DA06E4792D82B4E38097EDD337FC6C0136CAFB1E52F46AC6DC43C;
    DS 0x4E917A04599FD5A559209AC4EA1C3180E945204473F35E3DB6A099D4C1237BC5 0xB2DEF54425EA457227D87C0D927A6531010EFAA5A14E5D5A18C2D752B6C420AE 0xDC9628041359A0C6ABD478D0D344C4AED58EFC4C8940DA14A728B1FE266D6A53 0x3DD409DE5F5275C410FCDE1575E7702FCF5C8186F74B0204F0DD2783634AC46A 0x181CF90619B312C00B9FA1B53BECDA9E423C12F33DBDB3069A541A0FC343A6A8 (-0x361932D95A1E9B68390AD173683885A41EF4C71BC7F0E9CF7888F8447AB91D14);
    DS 0xF11B813E0ABB8E7D093CDDA1FC163EE7DF5739F9BCEC6E52F4B5D8DD24DAD9DF 0xB8FC3CEA455DBE238B714C54EF6F8F30C799DE2A7C51205D8EBDF6C0DF728AD8 0xB2AC7C90214D99B912C4A16CB3134B87CA70D8DFB00828E182A83337E4426D1B (-0x1C8D8AFF80F218915762F25BEB33718AEC5A96BC8642E14A302D4DE25FFC291) 0xE314CC4B548AFBB1B2AAC48CCC58DD345B94FE456E4F59B7944748FCE08693A1 (-0x5C238A02E94B578951714A38D204F9FE5901CA2F27B8A640CD01B89AB32FF3C);
    DS 0x657F08C1F2BB9ADE903E60E06EFEC5060867BFB91D10E58EB79F372B1000B692 0x554126E12FA5ED1B7E8FBA75A428A89DF1B1B1F1F87A97A4A4C21C01023E0FFF 0x9A3C38E8B5DF4B3DB85D49A3A80CEEFEB6138D0B6199EA6D9D171682C8B87A38 (-0x2E6EBF59BF806846B7E908A260C650BE72A829C424996E35C6B41CC827D1A60) 0x283D7BF2BA439072E558FD3701EC72E8EAD3C38546DFB284766E8C8E02CE7C7E 0x278A4CEAEB5F2202ED0AF72FF8EB0245F5E93305609B6773C736F5718009E1C1;
    DS 0xB68ED7DFA9917066E1A35B07DA24013EA3A95DCF973298D4298ACFF1D786FEFC 0xF61F644BE2414C0766C6CAF75D32683DEFAFB133CB4D341D7EB565E89F6E4158 0xD7B7AB70EA591828D4D1103EE4891CE7EA144B4DE1C446C71F3D162AA52B045E 0x5737A4C7A2D476B7632DE7A954DE6FD09E9900EA454694E6913E6891574C341 0x822F6AA637445B66217691EE003071D1F8A0611F269047438750A16F5DBAF567 (-0x72B7C2971DE3BEAA8A8EA0CE5C9690D0A0D5AE4250BEBD54EE67E14E78E93C6E)],
   [[LS 0x6AC8178102AC31BB0F37B579E022863EC1933F3663CA4F3B6D93BE65F99CEDA1 (-0x4C91C936A5A7D9E90E135459A72B0F9A5FC0813E860563B63A635D76088299F) 0x2C8A4FDB91F335BB3F62C92F9E0E0E6C24500C2F27D76CA2660B082C3AA0AAE8 0x6446797D0DC33DBC1A1DEDDFA12BF43F50954EE7E437C437320118F3D92D0E70];
    [LS 0xF330D0C5A00A4C4D8BAD105E1F7F3B5EC589B28F460C6AE4ADA01FEDC4250C2F (-0x109B4A989FFB64E33EA417888F8465A77CF4DC50FFB243081AA39F3FFFA51736) 0xE705B5A622314D58442340160170DEDE6B9B7DB9AB5FA7280B20B709818248B1 0x1BE1C84F122905B71657A6D6698535764605B345470A8C38D910D7D0AEDD9B97; LS 0xEE1AC735E93E9C0DDDB796485D1FABD0A82015B46B5AB9E86603B226F404DB65 0xCF565BC5732BDF63AC400A32F1704E4EEBD985C30760388DF58AC511E5E6AEC6 0xDD75CD354FA8A6DB3A1F988B80F30419339E0CB99D7A465E05A212D7666F3525 (-0x26004C347A9E403A01BE3FFF9F83451793BF8C0DD10B19FFFC4943414B7D0C26)];
    [LS 0x30061AD8E988FFA73B6D68868DE44D21225B1CBBFEB860397B7EBA21D5BA0E81 (-0x28658272AF2834CC6E5309E5051EF85A885096AAB0FA7F465CA39BBFF6D36205) 0x9024A369C8F19857247DD48E88ADDA865630C12BBD86A77BB95D79B32DC3D88 0x2366179425668CC2354EE7AE82410A62684B163F220E2C630641F1D3A38C4ADC; LS 0xFCA48FD0C59D79817DD5AD71A54128D5B1375C0970EDF8E24E5DF9723909E353 0x18BB5BFF3968FB74B9B6C5A2AF94504084CDDF03D553522BFFCFE5A0AD0D0313 0xF95464EB9956200243D5C21EB81DB2A80F14B69C825674F2273A0566FF62960C (-0x6668EBDB8ECACD5876F5E896F70BFF45217F1CE7B2BE3337BFA74428E7ABC2F); LS 0x699AE69F32C5CDF09B7E90FF0649517251284129B951CBF465C7B895BD001C9E (-0x4CB98CB04CA69FB3B36DD996FF0D037FE56EFC6CE6D08603F2F1AE2B0FFA9990) 0x2B906EE8DEF1CB26AEDCECC8D0760DB6B87860C4DBA54632E2B7FB2AC656B509 0x32FC394D3F4C9701687BDD066A0FB39D6B5B443D7592A4ABDA35F99C43FEC321; LS 0xBFB81F65C90F7CEF8C437566D066D0B99E738B78EB3C76F1AB6E5F8FD1AF99B3 (-0xBD48953A3A332F2A0EAF19FAAA96FA7FB8EA6B49B0D6478648C35F73295958D) 0x8F944347082FF1DB100A36453DBBD7261ECA60E9B821F352DCFC233F8AD0B1AD (-0x83F5907C888423574BD0AC3AEAA10812FD6C218E048F47BBA142B4B15A7D32E7)];
    [LS 0xD42E6F3A57108B68DE836E347E89A64A57E079D580167D438F6BA0FFD71A83BB (-0xBB12C4A2509A816DCCFE582F9ECBE8B729B54144912E8E491867389B281E4713) 0xAFDCF0A4C97E55A3B43A021059D51C555347534280506CDD08F1C74ED953CBC7 0xA250990082B21A50D6BF6F3EF8F1A58DA4B1183D9E2D253BF0D98A6C569A1911; LS 0xE3A02E17F9F16806F293E4D284CE170A0EEB66C69E5CD78A038C4458F6D1DF26 0xD10F06641A76745ED81C6E810B2E6382B9D025294FE501499C54A74BAEDE5C7 0xCA6575F82B872C4FF9AC311AA6B856E559C48C5D34138A8E93539218FDBF9C23 (-0xB75626DA56A4969142305A6360D1BB8CBE89341E23E4A395A25FBFCCE46308C5); LS 0xDEE5D92AA9F86C095877D992D2325577F1C0D9CD2C83511FE377377760DE6A18 (-0xAAF75E7F81F623A1EA7E720DAAA04B22872A04A745571D51EC31CC553A6831B1) 0xC21373043D584D14DBAD5E87F1EB2F4519DBE1B5EBF32E27F46B3CE7832D7459 0xABF465BD59A5B1D96083800D4B157749458D3E7B536A5634BC1EFA46CFA3B623; LS 0xF6BE9A67333D58168ACE15F13ABD65673624EB3D0D6EADE0FFF1BA19D074731E (-0x193769C6008E528EDE412C862E982FA9F312DE9D3B1DEDBB478F2BCE6F8F30C8) 0xEDD2DEA7E4CA479A27D39D03E78ED72C6BCD0129A7A27D1ECDD92D888AE4EE07 (-0x386DB675A9066133C53613EEB871E29595E1D486A08037E6661E18400E1130DA); LS 0x87ADFEC305CE5098E6EA012F0122A92942D2B2C667E7FB98EC59AA69CBC1A4A4 (-0x139D1585C0703301BC92790F9DD239BA0BD7A46ABC8F44BB39AC1A3867E935A3) 0x47E8F8F4013D05F17292CE191809DB69AD5365BA475D5E258D7FD4BAA8134541 (-0x4DAD1A1F9E650F45C919EBBA8725C0C4E06747246C4191DEFD07570CF4752345); LS 0x299320CBE4A6BE8B5C02468D734756A08BB8027730135C154FB5196692A41440 0x1554C004440B52672E4313F2860F0909871EBBDF2D9666387F3749BE0A18468 0x6C0750FFD999C1593D2DD3EB91107E372F9B5EED65F341DFA382D61B6C493E5 (-0xB8F34131BCD910A01BDC942BE268930DEBA593FA04481240A7D84D16C4A66CC); LS 0x83845FD50361161F7A02FE9A23796A2044A6D8BEC6CCAFEE00ED38C9FD62EA94 (-0x25616228181C188F823C3A479E7C8148B7D0A469303B9F7200E4D31625381818) 0x4390BE86F900A283B55A7BEE13D4DFB9749ED7295BD87587CFFE1BF49ADC4783 0x2E8108B48E09ACF3714F708FEFC7FCEB8C288835BADD3D575D578EFD0F64A67E; LS 0x9B11AE10CC372CA89E0A84513EBEDFA68C77BFC13F87155FEE5A46F5A63A1F8A (-0x7A94A6E90FB5A190E1F78879DC5A23A2A87B0CDA788D2B3B70B37923224FCBCA) 0x5DEE6A00EBE0C61D4848809AF613846A75DDC44C374113C125E3D474FB057028 0x53A47264A65B3BEAFC558A6842C2CAC0E3D8807D4C78BBD5D57DD7702E970B8A];
    [LS 0x93ABA529C762141EFAC0DDBB4E5487DF4B30A9EAB09F716BA35896BEB35C6E77 0x26B27E3256A698BA79099CD7FF6749B267871F2B9CFFDF2E845D06E4F215D19 0x552E92C40B59E1F85C007E51D6EEE140D787951143E38214D6C021226004B3A7 0x2B756180DC89AF88A9FF0040954E5A50D78CC341686C3DFC7DE6E92751B9D0EC; LS 0xDDB87F1377BDDBC7033D36C0B24CB7CF86BA8A032EF98A2091EDF6EBB118678C 0xD3D7A75C71ECD5D6E7309DEB4261CA130E103794C7AFE51036759BBE570F8074 0xC008105E87CE40AAE7EC7C69E5CDE0B1E1E0D5A56D77D64F7A3D71157E2AD14F (-0xA1380B87DC8C94CB8A344105E964A37A1C2892623223158F81E28D9DD6B6FB66); LS 0xF9C81CA97DAE0503484AAC4C05805F0FFF1F9715C203378C0167A13CD172B504 0x20BA85910DE10E25D0F00CD17B4B433ED3BE2C1E99A65B387AF42395CAD6EB10 0xF3B6E42E8286695D7650F52EE6ECC1B7252F083AF6C9C8BB92687D19F6F78785 0x7A5C124267E250EBACF7E969DF35B42554E1FF97E8919D861327680CC346BD35; LS 0x8711A64F3CF48A656138C76908C0D40539D272E5C73AA63464C12D952F30EB2F 0x6B7E9256D0B98640F36E932223D8D3BB1C71CA58F94B415025997F7FE1486107 0x47439E9F14DADE051EED3AFA887B3A1394B10255134172804A82C25E4394F9A5 (-0x2638D33C5F4B6C8154854AC6D91BA4BA7D79F3E8E0ED8C85BBE2E36E1626187E); LS 0x1A9738B405F775BD42538E0B2DEB9027306ED37D24EF874B0992E05908BA1A26 0x14092709FA7E59C37D53A9C373542661868DF2E18F46E7326E8835BFEDDD3720 0x2C310D882248F0BFE613063781C744F9028772F825A7CF5612A960A7D44A19C (-0x13AB42CAF5842329817396818B66B39D6247CDD9C90F2B50A26F06915FDC41FD); LS 0x96ECA227906882765FC176B38FF1124854F5453031D732E6935267824B10D208 0x8C606A5C11695A2C27B49E8B9B3D99CDD5739FB3E17048BE844002F58F013781 0x58FA28C1BCE2D274D8E2927EBD513580CA104B53935569F98E64712F914A8097 (-0x64E6BD04633187BC2588EA642D5406740833815F91E787411F79FC8E65CCF325); LS 0xDF3DDD471FC35CBD6A69F14827CED1430D7547E080EAC8C7F49FA8D22190FC6C 0x8907C16F4317E35508EC767B206C13460A5B88581B74497D4D2B883326B73B7D 0xC2ACD6751C7F5F462216A930ED062A5B35135A1B5F80E9CBF71CE191357AA9FA (-0x3FE0608A666AD7DAF8262E8250B50C0CAA155111CBC502151CAEFB91D7F653F2); LS 0xC9CEB57B541BBBA0031916DF88C97DB8FB4959BB7D43D008D1C5BE6552BB13DD 0x15B48C1F6FC6E2BE8B8968B673FA351C0AC4985DA5CF39A89982B4420C706472 0x9F163FE43D36899C5FFB2892684CE4C5396FD34E003098CF4539D4963183AAE7 0xAF5AA1493FCB046189D88183BA41715B85FF47150D44632FF23212F26D222ED2; LS 0xC8D64E8A3A3E7452D1C2493452801C5F525D1F6D42D6EC1CF9827E1221A7C54F 0x9CED1154E69B2B902F9235C758AFCBB311CBEF10504183106B0C9C402197F7C6 0x9D8F8E1F62337C4CC9AE8042C279B55DACDF03ED28DFC812450344896272C4DD (-0x5D707D0452973D4A75175AD1FDE035FD6D90CE5549C36EEE4D11A91F56781FA6); LS 0x68AC5836BCE1FC05C3EE512D477ACD86EAF58463E75AAE39CF08DBD797339B0C 0xFB3EA63BCF99C4144FAB7CAFCDA11897925A106316EE9276782E7608F565515 0x2ACC7BB3216B19FEEEE7E4F9D148FE4400F7EDAF0154092AA19441269CB5AF49 0x56024A9F13B6940E95489A9AED181FABFB98321A01F9A60A38D7827BDC9A35EE; LS 0x56148B2D8A8DAFA3B39E84BBE32E8E1530C238BCD7EDC481BF4B702E054E2406 0x4DAF86FF677A7FE0C66CC81CFD9110221509786394F1B660C2BA1DBAB6AB0079 0x1CF1CF28A3DF54B54BCB2655B459757897FE7CF8F85F59286DFE02BEB8EA63DE (-0x3FD197307613A227AD14DAA9895A48908DF042A51C4804D2E537E383ACEB0D07); LS 0x34435289055A28882A90BCFC573FF3D04549D2E0578276F4F552A0558C41E3CC 0x1DA42AAC598706A7E6520CA7933CFDDCA9A75D94B1F2E306F0C9C34C64FB2E9B 0xAAB6B3BF8817E6D052456E18F55FF61CE8FF3532E66B4B532019F8E5729EDC7 (-0x463D3CC9335F697CAE072B518BFC2143D74E578A77347C742BBF343DEF2DFCF); LS 0x6B6A9AD970E956683D300E033CC387E5F53853E15B224B5C2867B3D57B0428E3 0x1370F9C008627735EC696B5698588EABF742C11C4C35329FA8CA2D3D82055B63 0x2D1249D65E1EE4000ACFBE2178410D696E8E69A3797E616495F3A01C9852408B (-0x114BD6E5E49E960EACC197F5E5A0D1665F103A384D04CF5C0192347DCF145AE3); LS 0x4C6A0D49A84E30FC9892A49686EC68B3B56AA1CE9BF32F26583A7A4B51DEF639 0x31D3E5DC125A1D8EEB3A01B2D6D898DD02BEFDEDBAE4789AF440FD564DCFD675 0x16CF23D2BD9E5E1FE7FDBAE500AA6553F42AF72BD0FCAB9A7F87A9EC18640FD6 (-0x1C1063651D4C49B7E0CB7F5666D8026135B17DB642E5B27577D5277680EB8223); LS 0xC730F87F00934B2EC4DE276091BD33A6914F53139832B39D22984151820AD84E 0xC0B37C8D20724DDA788B36D16240626AD3A19BF092493FDE5AA524A4EB8CAACD 0x9AFD2BB393BB863DDB6ABF1C154B80763D60D22C39E460C0EAB5525D0E17FA56 (-0x18F1DD430F11DC5A26A51C318B096D6EA4EEF64DCAC3070CEBF723EE9B73584F); LS 0x832C825965693971062F3F588E841CA6FCC34C36C25A3C7C04DF5BB852862259 0x54DCA5DBB3366FF168C4B97FEDBB4D3E71970EDF81896D46C188C648C707C32A 0x433695248EE3772BF4DB68840BF810735C370A44B99E1955FFD942ED2A7B4A11 (-0x243FD1349AB0E3AE0F5054FA2A1F1119BC8FDA631B5F7EC499D4F3FD461DA2E0)]]);
  ([DS 0xCE3C1CB0FFD8E9BF2AF6C22EC72EA2351A378D22EBAC26043FE7AAB0726BE6B9 0x66257876115E7EEFFC0E61329F177D3A437C81C41150F86B45904F8630BAE971 0x207CF1E1FCC512128DE5F5959D5C5BFDE2D48548BC7484C3F27CB297C57A8142 (-0x2AD20A1E34173F387845600513A581C2CBBCE76182B8818656EB85462BF13ED3) 0xA624CC4A51F0383577D655E57BDF4904C3542BB74C27E09A6055BD086661529A 0x91CDAEEB42E6EEF0AB76C6144C0BDA43C3650119A7911C6DA7B1DA155D4F5E7;
    DS 0x56AE6B40E248C4CC22F74E4FF8A1E2985BD64C3B3AB39D1BA5DA7C6A6340E014 0x37722BE477402FDFB68377D98EB76CF979AE234216B1F475BFD82E2C32DC509D 0x903D79DC45BE00780FD82B3E40FFAF57F615B774C25CB305CB6E5FF9E9DF6A10 0x314B8789495F671F80B5328F20C0EE3DFA0968126B1E9510700C8103E2F3B06C 0x1D59A6E5912BCCBF6DE74C401EBA4BD5B7FD0E808BFA2E0F614124F229DD4B8F 0xFD00D27BBD87EE6FDEF05BD05EB900D9C8E34D647BC672FECB8721FE607A922;
    DS 0xFB85CD71425979FDEED3997604D4733843D1417970F2502CA0D315C6ADEA0C60 0x29B3AF9355074167B95113E6F7BC44C81A15C8570BFA111CD8F55FC4198DC799 0xA03BBB36754746B85D2E0D8C84112995CFFC8BC28A68CBB81D851A09BE1DDAC 0x1C007C3E137058FC894AB66751221A61FD0923A8B910B58B0616399BEF0BC772 0xF71FA6CB34A8FC8FA5BDBBA398854E8414328D5073B6104D8EC0A729790CC97F 0xD80F2E1C0E65B6E098B8857895CC8C51AAA211246BADB8EECEAA9B074724D7C;
    DS 0xB2E1E46C9BE1350C53751F591379239C4AE917AE55D2A7ABBD18BAFB00A74D69 0x4AFE1EA50B8FD2721EF799F78018F7056AED51EB7629EEEE259DC08D9E892B19 0x35439F671921502F0BB0537DC6BC9FAE02C4761C783FDFE915993A7203780AE6 0x7F2DB5A42C0E4F1CA971B55C1D3651B871EF544D09BAB8E6D0BE35C0897E8892 0x7CFEE8FA5B80D3616F26C6E33C0A714B8BE02A5BBC155B09410DF646E5B802DA (-0x1743215A5A145F7CB307EE11393F70A56C8FE0DA7AD76F8B9DB6980D6C4C8A8E);
    DS 0xC80C3ED4EAE51359A4442C81703CEFB412A497C788260C13293EFF2C811766DA 0x5BA26C2D53B04B63D260C6CF392786D9041A1A7CB88331C1149CD3B99C207F5C 0x63809CFC428D7AF1F2B259E7CBD8180CFF111F87F90983067A2B7C0F863D1178 0x1E4CF60B96D98B9C7E08A12C656BEA5E656C72C4AE48ACBC06B80597F0D5F100 0x9C5322C2A267C692B960F853021D16193F36EEED3E10584A048581764BBB4FE0 (-0xD01285BBCD909700A113B1BD6EF571D176699E5EA7598748B91AA93488D3054)],
   [[LS 0x809CF8AB239C37A80AA25922815F4ECF6D126EE8DEED1C246D5D2B288658EC33 0x26CF69807EE95A5E74BDEF3E15F6DDE3DDF1C247517D30C883417A032F4528E0 0x409D58EB25BBA57322EB54A3B8D1E6D4C1252C509EA4E36EB4349F35B6542A2E (-0x4E77C380ADC6AA6B90BDC6949471B4D378D05EFF3CCD8AE06B5E352CA4D144F1)];
    [LS 0x211A3BA7B80D22EABC4B9DE6D04F20460E3DDD21A6C912CA706DBDD448280198 (-0x8D65C0674C533766C6B32C761B9986E471E8353C03BC7E03468A50B9A5EC404) 0x447C611696B82634FC861FC194E21778D93438369E0E9DB6B57EFB70AF62391 (-0x7D9C33B57E16F25E419683CFC8B223BE3EF0B37A09F8D2783F742DD89BE5D25); LS 0x57DF0A1E2F87CAAE324B3932A3D1C45BA651437146E140642A97AB658D11B88A (-0x4D11DEBCABD1810C94E1FF32C3682DD985A1737F077402BBEDA7A081822401C9) 0x1E295B33254B799B4A27012316535FD3352F1D0AA50B9264328FA059EEE5520D 0x22A5B6EDA61A5A2E332DB70E6B9623A713127D82FD306EE66CD5FC0346B5D1DE];
    [LS 0x8EDE2FF12D81F1BC871C6A79C250094EF55E2FA2A5BC47D0E9A64A85C5D29B57 0x20560F83DF4E4F0EA8A9387082DC22B80713EB781D950AB8D15E044E8E208A14 0x4FBB3E06BDC18778D6612AEC5D1BA50951CD2708BB8E71154387A9F816897C78 0x16312139645C232B98898237C9B949EB310430E03313021F12A0B6CBAE056978; LS 0x2A90CE9068C01F86BCB266A9D89A06BB0B06CFF6D61314EC6125D998F54A5B5E (-0x1055E12CBFC36FDDB120F84C7F6F47D8E6E76D30D76B52584D8D0E4D82A62CF3) 0x713D5B06B819C86E33BCB736760F6C9CBA067F4D62FF396DAED56D2DB2DD6E4 (-0x5BD970DCF29DF0E0AB9B49DE7A84D25CE693FEE39FD1CF6416F5494B2827B9); LS 0xF226884A11DDF05D625BCB83114AD65760E5AF787F8D659289962BE926C762DC (-0x29F1349A33E7467EF7DFDEB8FD2C61D951AFEC23F16CA379649CB1FF92A158B) 0xE50CDF78C853B0BE0EA028D7E6E2C79BDACD9777325AC213E02B51EB1F0AE059 0x4E7D13178E8F5D45B65C418BE1F924EE950781562D771BE42ACB80A07B9B3201; LS 0x94C8DFB54B1DF380BDFFE1C0A4C6E7B92C3EC2A130CA786A51725656E2888027 0x190E63370CA6D1F2DF2AA52ABDEB722FA557E1225E9DA53A373B03445D46B2A 0x5678E047ED9D599AD177EC1674C6EFE60F21276FBEF69AFB05B8A459C571D4EF 0x4FFCF77AC456958B4B1347BC38496BCFD29B37F4BBD9A10B6F58D2EB99F46CD2];
    [LS 0xD1849DC81CF50CD16FC51EA863AF2546A8AB4A4976E1D122797FDB024C0039CF 0x6167C29B85052EAFD1B053D4ED16783841A7CEC45F8CA7F8E783AF298DEE9FC3 0xAB79CE53D6E50B95045E8F0C55FC94B0154E07486B8680431902CC66421AE9B7 0x38FCBDFEAD0625E58F04854987093C5E317DB373B3316D67091F9D84D06D9C5B; LS 0x808B332D2577121F6293E0A45DF5EE0BA11A20211274477F9B80BF41DA5DA63A (-0x12AA4DE5B95D12B2CE4D0B0D451093F5B97C455CF429525C186397313B3B8939) 0x408B7EDDC2B8C650B3397028D0E74075545EE8A89E99A8735F3BC3E83E290807 0x168553F54D5A759B0891D71C99FD63A8BF5EACE6547259D74A987B5FE944F5A0; LS 0x7BA392591625E4F02D8036289A7B1A139F8E314211877CFAE33C383AE875A306 0x1C2855F8B9A6265EFE0A499C9F14F82955FC168A1D0378F228ACA54D65947D29 0x3BB697254C645A83F6F8D12B1F0EDF023EE458A9A8C373048F7B03A099480821 0x29DF8F47C774316E8495EF51BEEEAC91281D63996B1E811DA9983EE731FC2CAB; LS 0x496F74A909891D13DB017E48FF47E2967BB60E60DDF07CDF0D714F28A151DF8A 0x124AC699786653EAF99192077AD3FE321428469E461A8E2B30F803CA0D556685 0x1510C10EC73017BE63DC157D2F4346ED6393C67E71623F5EDE3A26F700D617B0 0x2037F53BDF5A0C1831B51117AF0F47E3C04193CB6345B1109A7EE547385A111; LS 0xFDA2230E71C748A792B06D631C050BF19BAC4CE00B21643F74BE44B5658085A8 0x9D4FD8682E2FED5E226B8DB066F7039DF4E6EC5C125E94AAC0F6617C442C5DD5 0xFB49DFFAEFF8D9C04E41AD3698AAFF8E9FE326D32AC13546F739EB35284B850D (-0xC9D86E9E9756D34391F9AE0ECB0F7A621550BD589ECB84DE70EFEEBA8689D06); LS 0x7B110CE5BA8230256F1FC3098A28A30B68110EE9E11D53DF6AF829FB5ED3B675 (-0x12E842DCD5070096AE72F9D69A29934D228C5ECDCD22B4181D319623D1518E41) 0x3B29638778623731C7105D322FB04CE8C482DC98EFB4CF6718C99D5D4B3F1FDE 0x1FBDA2218AF7A60F0E9974F6E6F28AD95E747E5AA010C2CB38770480A98C022F; LS 0x3B2FECE31F3862B5DD40F9D48DF6731623A9F92C88F3279AD58C299E7EC5CB5D 0x20A9EAAD07A858EC9E37CA498154ADD9BE4BA0FB0C3BC28F34D4E5F685A3C3DD 0xDAF202986FCFF446A9043CD448CF5C3C1936B12A8747EEA16BC5E0B25C51A9F (-0x47785C3CAC8707FC6FDCBDFDB8D33F5D64669A71D2392467BF162AAB5DB7A18); LS 0x3931646B7D7AADA53330B4DEC0CC0BE7318360DDBD1F624F8AF5B2974F0DD380 0x2CFE66B214DB313A73CDC71D13D3A880F7F0BC944DF2F426DDAD32A3C2D5A38F 0xCC7083F766AD17403C089A49260F116DE7DB6885C917DDE65EFC6F68F887C4A (-0x2A78DCBF30DA545295722EA6DF21EC86E60F4361BF83EB4FABDD6D6BADC2BA48)];
    [LS 0x1856965712631789ED8695A1854DAE014531A664EF456C9273F0A2C7E5B96BB7 0xD403F6BAC645B2437F74C7AE2C2DB2C194D925BAB3E4FE71426FCF5EDFBD91 0x2505979AE3D16274D768A3E9695D2F17F8739B161E8EC2E246E022E292B25F7 (-0xD2B24BD9EE0389E7EA44C54ADDF8F3D39DA4834E8D2D0D0C418B934DC378A2E); LS 0xDE283892B0FD34168BAA3A8D16D46568F6A5830637B5ADC7577B1A3C3FEAF077 (-0x7FFAE58AB89480499610A991DF6772F4770A58C3D450995BAA88DC4035637378) 0xC0C9C870254EF6F4833D4B9FC6AB4EDFE2B694277A8D0B7F4B0B0481AB57EE10 0x6B1F1FF96A1BA3E2E6CF1AA1561198B8D9271595CD0D80552BE7713074E0A7D5; LS 0x13C7690C88C314C406A2893F4BDEA846CE6568F7356CA4E6EF26A29FE4D95A9A (-0x4048C4254DB5C8845FDBDBA92B0BDD52EE208CA5C5239F34F2BEC44E633BD67) 0x18734EC58E4DD2C84210B9BA4DBCFE3C92C0597EF85FF9E46836AEC6322FF9C 0x88AF664CE3F7B1A8E830D6DCD67566A55B8140A45A34E2BBC0595F4D161AE5F; LS 0xCA884C041BB0A41990297FC971CDEA819F0F07D7460750A215B94F52B0137FB4 (-0x24D11E711881C127A4BF5093721534E2D0568FD5D8043B2274E1CAE3E809C767) 0xA03B608756A29F28749DB4A6438D3802626AB3149B2B5DF7A96F9C8770FCFD4E 0x683F8F55C2084DEB9A7B0E20C137FEC57199F8FBA3B59D7948DF0574076838EB; LS 0x8AFF30516AD38EDC020797DFA509CF4B1DDB43BB87DAAD447874F6F97D01C2C 0x1A5206F15CEA8E3AC0B3FBFE8F216F4A7C8CE23205653548D6C7DA05C932CC9 0x4B781E79127D896FE88303FCCF4DC80F8AAAA87BD880C7AD83DF5B822C7F7A (-0x34B5439A870C62226152B4913820092CABA7C68F1C42BEBD9DFDB6E2B724957); LS 0x71946B15CC3ED6BE94DEBB5144671A6CD98BE20B4C709A279F432CC57956DB29 (-0x426366E2F45A2F95FABD6BCDFF3CA4C83F9417F3D9FF19682A113C7F1CA19D4B) 0x32645C953C4EDCD4388F844967310C4001A8046D88378470D90E7FDD5ACD0384 0x681DDEEF1B498E7E7AF7C55DEF3F715787A4DF0718EA593CDD7E23B6A04CD6AD; LS 0x79C13AF31E51094EAA42198ED1AA0BB6AC795589FF16595C58327D3DAB2AFC73 0xEBB6978780B1C992461C5D86D1B1BB3EBCC0B6EA877FA0CA99CF2CFA4305809 0x39E83B93C2CF619BAF359C260CA1F991EB6FC5E4A76F63DFAA80897F2254B56A 0x2058D188C39E80C8F92D8B31EE26DF98A8AFC9E2913A15DC567B60D8E48B459A; LS 0xB8A3CDD7DE8D90CCAE436A8360690AB6CE7768893E4084357111DD9E5A32500E 0x41B3302CDD708A1C00384BACB5087F7ACE7F3CFDC0B4A7FD84927F141E9550A7 0x852BE0B6165458E2EC51AF46FD52E0EFD302FEBCA550FDB48ECC7F216473F13C (-0x38500937CE33DA51926664FF598A66356E52413DD92D620F4E192A5BA9EA2A86); LS 0x9907317D69AE14E40B8E697F635779512CBCAD92BDF66AB35FE2E62730889B38 0x2ED468663A695BD8EB33C1D68A95625638D6650E47C32CD9D2F35998666C3C46 0x5B79995BA6BF1C62BDE8D287505ABD4EE91DB15716F073D69D2D602625628CCA (-0x169492CB6B122D2EF7B402C032E0D4B170D45B87EFE23D7651138AF25A0DFB02); LS 0x9FC2984FC6B54D0AB98EF07C64C6AED5EA45F61248D34E6322156766919213DF (-0x400B6864A3439A432982982242766CD970D6A6816A033D46AB456D51F5509C3E) 0x63B34D1E4C5D354FA06007E9E4E6A2F45597450E50B4B71DE5F5B6618A9378F7 0x64B8E3C52CCEDE90DBC2CDD1646E0D3AAD9A6701F9DB6C804400DF616B93C980; LS 0xD3B4B1CA586A1562B2E9BD48D8DD270EF02A93026A32AB9699A2330DD547CF77 0x1CB1D7D451EB4642A383B9DD4BA4252B3BD1C19519071F023104D39BDBAD034E 0xAF135C9E0DC4A2A11D3E3C8B67112B54406497DEF047A9C298F48B7BDE164989 (-0x64122AD45E5D41D2E2C429AAE8467E70E6E037F383ECF4A6EAEA00A45E0B292F); LS 0x914B332E7A6F6CD968888F581F3E2019282B41F2D514E2A09CD66B97FCD5CD37 (-0x166D8419F885A606A84C148B944D56CE772838820AFDDFAEA07A6E785A0DDD71) 0x52764611AE2983D0AFC6146C95AA46C330B302A2CF45E95E4FFBB7E0C7BE2C46 (-0x43D0B3CB1E281FEF80C25FD8AD3BD4BF2108325C9DAA8C117D4A69E2DF36B2C); LS 0x8A60B85818371E78CBE87872125A463C9D2B8B968CCE637258F70FF4D6438D95 0x13520C234F4B10D9979676358AC3DC38B4933ECB325EAC3FCA3E53A019D646DD 0x4ACC6B49C0EC5750FA6C89F470119D7FD6FB38150073D38387D74FD1A4A749AD (-0x2A4E778115675C4B87FD1D6ED52E7EE729020D686732538DF9FD0D30CD64121E); LS 0xF4A97FF4E62F2299F3E8585827837310D95FE8877113D3ED2D6BE922DC2383A7 (-0x4FE7A6F762B35EBAD7C868ACBE974D84A63F4AA2839E6AD4517DDD127A18A0AA) 0xE9D38C250816AADB855E618085C0ED93CC4E872AFFAACBAF51EA20F5525D38FD 0x1C69A1E4539C70076D38725DD003CB09ED51D2D9C8B9305C78BA68C7258367C1; LS 0x99E3C9C4D8C2ECC14A70DBCBEEBCC784B462DD64A0C9EC7DB662A8160F96A631 0x701973E0C60D9A72C343783453ABF37382C9AC9CFF639245DC40CA8E773CB07 0x5C8211DCBD381C6DA3907DB0A2860F97245B3BB9B2E7DCED5E6AB9DBDA7C2880 0xDB915CF5F98888E2A72E2F474DAEFDE4A9F4BCFEEC234DF95BA7049A4D40EED; LS 0xE384186C02A72B81C299F5FBBF567D05E8391FF80090E6A7E3C1C3314B8BFE88 (-0x57FFDD27E0715FFF518FE3778BDAE5A5DE3D8FD5B4A61A4D9F15585CBC9E2E31) 0xCA338778BE6BA19E9229CCD302B2990F59828E5408B88180C35FEDB6AB4666C1 (-0xC05D099F60F45888F3101C47608FFC31265E429C5AD82B2C3497C3CF9E68A14)]]);
  ([DS 0x7C9F9E9F4846C145D8A6852156D9FC842E605BAF6406FA8B2F4061F2ADF5CC06 0xF71B9BFABCC353A411A055EBA7D6F48F47C4E43796382BCCD5B882CDA9059638 0x403E3C07015820742E32F7734E0FD1B8C88299A964C4275D74BA845919BAC7C7 (-0x40F9AC1772F5E1A08BFA96692AF75782C03384220DC7D88E98A95AEF4C273ECD) 0x3CAB0530BA295371F1829C47E4B61FB3D4895D1B7B4C89948EB2FB6CC072AD55 (-0x46FFB8A7D0B98A87B5E80F57657F88A0B9CD49AFCDAF9937FDBD968AD0187BC);
    DS 0xA826A6D947B37823CCD8246E0F568E4A1DF375E7728DF828018D5F5BE6709DEC 0x529CE375058A3BB609E57B79C650A233E329530453C88FA5600CBFCA5B5129F6 0xE6CEBACF4DCC3F8F4AD54DEB6B98A52206EA7CD4B5EDDABF2ACF258A77E228D (-0x32F4E4F2A5D51660CBC0FD89926764B93A3EFEBD50442B8DBC6D84743CC43032) 0x6E72C0D3235B585E09A1A4C9F08C96720E2B9283A164AD77F6DDB4A39DB6BB14 0x6C0BFF1CED3A3F4F9A131EF7389FEF6ECDBFAA0B49F95E44F9D764C85883F6BC;
    DS 0xB6A674FA9A5BA6A6CC208E5358C21F3E50689A0AC250DE482B207678239B03FA 0x431DDA54E204942EC3222AD337572589A834EE55ADB1EFCD07D40227EF2A2C6F 0x111441296CF7CD7AD1186DD8E973FF1D11615A58EC93360DBED65C332C19C65F 0x7B2A585B29698241A2BD9D317A46A9757358D98E22003DF160CDD01AC437E6B6 0x82511A903DEE910631AA10ABDB85AB2F7235BB07AEE216C33E35096A687EC359 0xB0E63F17FA17EFC1AE6A11634D476057172E4EF1FE26D6C754D76CD241AF036;
    DS 0x9A12C7EDE5735F2AA6AB0D9C005D19BED4EC46031C539E833CB9888E1BC69DF3 0xF5612562822EA09795973C2EFC9AEDC60F3FFB6D9ACAB7648403B2AA2FDFCDEB 0xC362706631687C7FE19C15B1620DF0D0C6E23EDD96CB18FF8F8885F517E0BF22 0x42DD9E3EBF1E6DDAD678D605FBCF2BAF22ED21F6463236EB52C8F258A7184BC0 0x5CBA99EAF1A6CA84B5BF5CC514203E5004F5FAEE6A7B95501AE5610CC2CA9C25 (-0x6B498F1970B92A2C77E3DF1180DFC1E14E33387C9E9F436D154C5300E21D42DB);
    DS 0xB7F69E663ECAC4190940DA99C3C254240FDA24674A01399C3FE3A07E78265303 0x90EDFD061871350B7F1F029C4114190B050065B2030A4009A8A7A6F4B92AAE8 0x78D2B0F8A09F51D22313D0ED675DD25DAC2AB21B0217AA9F96F22175E9D720D9 (-0x5F0B4F891DE81116907AB08240D64B16D5032422E783921A27343F1EA2D2A095) 0x8432840AFC48F0650E628421911C6ACAB5E6BC9C6DC69A6C595889111A926079 0xA9D2790379722A2A398BF4B8C2245CD6E70AFE741F7BA31A03A64B9ADEE93552],
   [[LS 0x2807BCFE8B0C338A944B918F5E315F5AA09FF7E46EB8057686A0FAC12AE089A6 0x198F7B3E76594558B3D24150D485CA6DC9A1E2CF2806F46C6C9A903680633AF 0x6426B4B6CE64418435BCAF9636E7898A04710DB9872ABC27F49A6C9D7698125 (-0x4D233DA11AC326A6F9AFA53489FE592FE62DE4A1A72134882FF2033FFFD27B4)];
    [LS 0x7E0679F7537A5718F4F59B22072F3F51E61594AF7B686620408BFA738A1FFAFC 0x583BF0613AF17E755C265C014594A697CD30D1287EE7C8856CD181DD669681F3 0x3E0A603967E013547DEF78E2F385149DD25671A02FE439CB1E37FE28171A7F07 (-0x1C0F891BE046D5689B4479D96944F3C7D0B71BAFEA70C57F9086B59FCF4235B4); LS 0x5B07629723D38F1D08EAAD718098F0432C2E7876082ECCB48767F934514DAC55 0x34C4D3C53D5E059A3C655E66926271B408CC0C810B5A99347BC8C6E4ED4A4FEF 0x205E404DFDB46DF9BA15EB2F8993970FD6F7BA69403E7674B5E455A001F65EF2 (-0x3988543A51DFD359EB5C9E550E9FDD4149946B621751515AB22773BFAC25E6)];
    [LS 0x43A8BBCC90E1FD2B9C76B6812C69403A0C2A9ED0014F9FC50DED9B587292D5D 0x22A628E0DA16A8AAAE33A68A1DA70459435519B104176F8DBA2E68083F6E712 0x11E1C1841A18F2427F2BB7BE03AAC731EF65714650FB2C5227024FBE6A3482 (-0x313492B132E30CC81424115F08593F421EEC47176DCC5A50460BF0F121D9035); LS 0x48FF97ED0A4997015ADC49E5035C2EC151E8BF36A7CCDE3E2FEC5EF4E0A2AAE 0x1C9779BB154806A0498ADA4ACEF0AEB30613A148D5FF89305A4F5EC05368D48 0x14D0C4A55A2D612A749DF311B61F288A990E374C8FA05E36818295E9B27577 0x156465B490ACE681DA475B0FA862D4531670023E67750AB13B37802E766CF5; LS 0x70936D9C4AC0BC6682AEA04BC21CEE41D59033C0A2D2E106806B7476CC865F11 0x2095DF5EABBEAB07038F863DF2EAA07F619B79E05CCA5407E112887F92022197 0x318154CFD1D4F545613BC70CC225D0ED8FC89984ED3AEF3B54D42426D5D2E5EC (-0x2B3FDA09F256D4F2AED2AEB50126C73CC55FE9537316189157378B5873D6CCC); LS 0x44C20EAE7AB5C01A4CB1FA2E61FC9D8FE2AA880B542363F6BDBCF732B96AE7DA 0x1AC2D732CDE54275FC71EB16440AA01737C69F1730805B9900F7A1FFE3241BE9 0x1277AAE6F27A15DC0B808AEDD2196C36B081F13134898009E84DEB67F9498D92 (-0x7289A3124AA76FCA867FB058C29520AD6B938F28ADC66AE952E19978294B369)];
    [LS 0x742921993EECFD888338DE37E547CEAF9F316B1CF63DCC74CAFEC611C0327931 (-0x107718B0879A7AFB263BFD2433FFC4F64C8E7452FF3118D43004F0A88A6F39) 0x34B54D0EA885CBA24CC176CDE74D24E2D0AB770272DB5A3EF748943A7E66C324 (-0x3949BA88EBE87AFDEE4FF7B7CDB6F998AF3EDE417D9F3711B75E163C7820038F); LS 0x71754BC5C8E4A5073ADC61C6931036EA044D01D43CB79785CEAF27B5CA0BF24C (-0xDBA32C164F32565C5E55FDA1463E0F5653AF583838B55E5312C14114B053CA5) 0x3248C2A2F490F73400D0A372110B167F6BF4C3D55DB598668EF20E62A715FC27 (-0x26FF90B1E0EA25CE8D12651FA9149D4E3E7FA532159B71C6EE8663238FFB6A04); LS 0xC840BD430EEF6207F5BC494D5170A7214A7346817C18C19B3BDF78D166E64B36 (-0x2CB2F2BB8A4CFF277E91B86B0B0BB3A7258C87FCD4CB20E589306645DFE26B3F) 0x9CA53817F4C9967BBCDD304129FACC29644B8126E5F180D48A0513C1661913FE (-0x6CB37A212916F3B9038D875C675913E44AD98130D905056A07B211E20A321560); LS 0x767C99EF4C602A7FFFE64F49D142237504FD6B53EA386916395AF22D6427D99A (-0xEA0D61739978A5662541E35391C9DCAB39AD2254625A3E0E6371A27906560C0) 0x36D71A8E16CA8D51D10DD071DE38E47EC5C6449E96BFCFA024DEB236092BB3D2 (-0x39B4F5B1D6908E3C4936A7FAEB570BFE496C5D119C43B905039DA611A5DDA3C7); LS 0x745A4A01821E7597C0A1CDF3541969D53B7E491DA3A8DCF9DDA760F7EB4C5313 (-0x54AEB0D2D188F696D5E3D2DDC31294943ADB3B3B3F6735BA841C0E572C6E4398) 0x34E1F2E97C5FF73817A1AE0444DBFD6D1DC061AD3D6D4850016C4ACFF0BC3300 0x2DF9BFC4488A9B450331936F16D7B6EC85AC0975E602A9FC9A7A3287334D86FD; LS 0x5C9397CA7D949A66E0D93C3912A773572521A01B3DF7CD38E90953DA058AADBA (-0x98158F5899ECC1CB08D279762D226681DA8B7DF1A9A3B91D198404AC96C1E3A) 0x217A6A3136CF87F2FE05D96AA67A3522C05A44ED8A9012BA5429520D9EC5E7A5 (-0x29FA79409E2C86AAD076825E8AC5A9B34C6EA31CFD493637656750BE42B16644); LS 0xF709AE9C098860F63A5A8B5DCC7D21564B727E03255CBF1E2C431B9FA260E8B9 (-0x3D12DE3360BDD1CA8EBF423BA9F190749D3A7A8889E7FD325F5A51C650ECBADA) 0xEE63AF4ED87652C2F84A962F7B712A04F75B970DA61DEE66E435D58AEB134053 (-0x45B3991D50107C3D0CA87CC05C8B77682CD5E7A62F95FBA3B8012B16289B5B11); LS 0x560F7416692FDC6565495AA8A567D1FBC5F489468133E8A79A468F80EB85C697 (-0x1395BE656CBAEF16E76FEC73240E5BF69C61FF7CD1E4B51C97F32C7D8FCD04A0) 0x1CEE62EDDDF0CCF9931D3877A9B959AF120803D995F87B34CA665D1EF709843D (-0x3096F4642CA2653E6041282D0D734EF7B5B41334E635F453B0937264FB5D6A9)];
    [LS 0x7AD4E93CEA2E8C51659B23856E33A8CE52E01F117C627ADAD83151438925B57A 0x65CB29409CF865C87356586C921BF35F4629BB0CEC4A5740E47E89A4AD56BEA7 0x3AEF9F6130982B9D531F38E591528D4DC2F9D29059903ACD605000CDC68D2BA7 (-0x60CC634F3464AF7026451F068069FA54A1D5E43BEED7E1980139F262C86CE5A); LS 0x6C848E605235BEB1A82E85348B25C4CECF67BF34BC11FC92151F3B70E7F2FB97 0x4CDCA047A4EF69B4397D71ADB0661D2B1C547DD5258628C00511FFA471865F7A 0x2E001CC467E11FC3EF5F45A1C59B304F945F8DB9E2AFB864B7C547C1363CA1C3 (-0xCDFDD4113EFEE9C8386DCC23D206B70BB66443791AE022771E9205465DA34D5); LS 0x1C49E15D5E8D4968DC449C9884ACF83C542B74661238B439C2FB33377DE6FC57 0x11250D156087DD87DF662362C89C51CF3DAE278FAD9EA8235357A0B1877FDA07 0x3203E9EBA5416E4FE9A5AA6457160228EDD4DFE279B876EE085AB8B961C96B6 0x644B089A4318038ADD56727B10E540D5F06FFEECB7A1BCC40AFFD8A2B56809D; LS 0x1441FCAA1BAC643B404FB34AD9947E4CA917B87F8754E12A53F4B239F8F0BDCB 0xE4C5E0A111CE62EE8857B98F4BA157776C6A33D8065A0C8BF510219C8B9E9D0 0x19A607CDC1454B8516AB3066744BFC91EA900B6A6FEB7478AE13399CF24C895 0x311628ABB8FC1782B5864AFCC5341D7CC3739B6A0322E3227E95B27C9886686; LS 0x3B5D2456D91EA057E16455E2A9C0CFA0395BE81C9311EEA054AFD5274082AF2D 0x6060ED734155844363C7CF107D15F559568A8BFD574AA64BE1B9051F468B6F5 0xDC410A3745668B0378F646B7DA28ED9C5B27D46873F9C3DE631D7B2FF711366 0x12E092A2B7FA3F9C985B501E87867CECE46C9294650E9FDF0E0104D8F6D540FB; LS 0xC70A6EB860C07B7EF13CEFA4B4C9E55297D37EF28053FC8F9DCE7A06FDE6F236 0x909FA8D4F2CB9B756CD4AFD9C5D1E188791F0AFB5FCEB982971A8EC32B1E224E 0x9AC1388F7CB5C6F9A45B20789E64D4539E09DD7E285EC7B0C1A13C8474CC2815 (-0x8D5ECE936DD4C5E4D042F6B91C249A96320C74B39ACDF04405925D66BE2C77D8); LS 0x7F2EBAD119CCEA6BFF5C6881F72DB361878009B1AE5015FE47A3CF1259A1E66E 0x4A06EF3E76D77E4551BB903E1309F4EBFC14EA94EBB76130BE4C80BB1D725B04 0x3F2F65E323131A844E02D21F495C4FDF933565B8627DE43C15ABC6C700D3A554 0x1B11DACFC3A2A9522E9C8F3183E6330A017FAE4BDD1E5B7B20B0DD76D5E5BCBD; LS 0xD51B23CB5714C9C6C2403221D1B1066E65E20D53AC457E5FAEF64F2DE175C8BB 0x803A2611723B397D2F8C1488F66353F2607429866BBE65CA30BC6F603A4D14D5 0xB1662C70F0CE317A36EF4A21B7B74478B691248231713E890A64626929F3474E 0x3803580FA10F1318685DEF4EFA0F8A31A8F4338F37646D1BC614217AFC5C0D0; LS 0x13BB45903F9A0B5F837A9B4F78ABB34FE3C6AF8466425818D2509C80BB7A7A52 0x69EEE2C38A9962EC3AC57C087B346A80E59829BB225D0748D343A73E230F109 0x18555521D14DC4D7249BECB65CD38CD7D398CD68747EC55F1064FED868A7F34 (-0x28C89BC0F4C41E1B5F77546FD80EA224A79363EA66D0B0973DDBEBD2C64AC41); LS 0x675EA71DA37A99A47476943A9D9171D796D4DBA88FF8D92D80D349BF3E1E3B64 0x25AF5294D668C5A4E1493A3F09231D9A7007E46556C6C19BE26D4D99950A4F15 0x29BD4D7900686463911DABEF575CCDE9A1CA2D01B918EF835E0CC45A3C42A060 (-0x89D0C44BAF78110B4C04FBEB9F7C9E9480DC9B9F49A71E2C5EE4D675E91E5BA); LS 0x9293D1D2BB067A3B8E4FBE106D4F489CA1D14CCC156BC19B495E883352BF945A 0x9453BFC79677D00AF472764BC1ED7454AC50C4F93B1B7A45A0CBFBA9395A211 0x53ECF0AF014FEFB44190A32FA9C69A36A8943A67799AA99E8005DF6884586D6B 0x343D96FA6A39356ACAC194AA5518FB6B74AFBBC38E6BF5987C6648A6C6A8A004; LS 0xA5952362E9E2ADB83C4DF5C96A7B5A35C0C95B2AA9ED7E58ABB74D6195C94EA0 0x243A2B3239A9CF894E11749BCFCA513D4BCBCD9244AD115A1FFBA74DCAE53A75 0x6B19967FB786A7F998EE7C11C991205A461E7830E1F1AE8845A17FB2EFADE9AA 0x4C06641055AFB2F7B996969DFC707217565CF7F5F11F3335989FBF43A1A70DCA; LS 0x577C45D3639401010C38C16EE9DB41ADA4F2F84E5E6DBABC5C5650CBE0FF66E9 0x2B723708F3FE3D61156902859282B12F1A5B98B8869AE8BCB66E5F370B94DFC4 0x1DE5B3C96582B24AC492711D7CE5434652D2890813A96DB00EC82452823E19F0 (-0x13616B57B053C36E87BEBF763240F9C9C82AED8853E1B8DE53BA5F07603FB0A9); LS 0xA87E712C2EC4905E7A14642C2C3E8CE614DA48909B0AFB76169A8306385C438B 0x2E068297275E33130A8D0F2950B6BD4371241F6187612D2BE89A74C5519B158F 0x6EE632FD96E80FE3C0CB329BE2F3C42D312B81584D756670E5D01EC9F5F12C55 0x3F9E0A4C11E0707D7339231733C3A086C94F2468CB809FA9887261C38EC62AAF; LS 0xE2FEEBA385474FB85358F3AE05A8DE8E4B1D4C51321A17595D2F3F26354BB41 0x4413BA91D921338B8EA8349390414A59EABFE6BE34E139C30706FB2EA34BDF0 0xC94715E528B401678F7D8D3519A522BEEA70897B2F5AD24A22FE324229CEA9 0x3F390AFE95D76C6AA1D502B6055EBC8F491E4F528B5E5DE79191C8B81CDACC9; LS 0x7054B647452BE934D82ABE7A574522559B1CEB45A2E9E426F19DDAEA12BDFB9C 0x3FA054A9CA59D1300F7DE8BB5832FBD8F3C4E1A05154BF0559ACA4E26C5FA430 0x314A3B867D153B11287674A363EA44CC6BD6AFBCF8E9AFB29ACB510DE886BD88 0x1AE88B1CDCF3C7616DFD5C6CA6784F5FF4BA4C28C47B8744530C47908162D9F9]])].
