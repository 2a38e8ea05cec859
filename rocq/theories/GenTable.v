(** Generated by tools/gen_table.py: the comb table of src/precomputed_ecmult_gen.c
    (lines 46-397, COMB_BLOCKS 11, COMB_TEETH 6, COMB_SPACING 4), each entry as the
    two 256-bit numbers whose 32-bit words the C macro S(...) lists. *)
Require Import ZArith List.
Import ListNotations.
Local Open Scope Z_scope.

(** src/precomputed_ecmult_gen.c:10-1778 secp256k1_ecmult_gen_prec_table. *)
Definition gen_table_literal : list (list (Z * Z)) := [
  [(0x629BEE58A391595FEB20C5344933937ACDB2EBA186D49F8B845C1B5F4CA87182, 0x8DAE416273C6C0682E2AEDE476EFA86B7612C07EF72070D0DC4486F147E95085);
   (0x6FD5E13CA94B874B28CD574B726EFDBF143AB1081089B8467B5B2EBE6C6A3C8F, 0x4A4DB30652C9772A868B285957C5A005D83F6AFA6E65D87C700DA998CE651396);
   (0x609B6576191514F483F5B428500CFBAF96871B8B3348FE5C1A131768BB266B6F, 0x90ABB9C11BF184D28DBC424ABBF74EB8DE4E05822EA5DD937D1E8B30E5F695E7);
   (0xB5EC026327CFD92223A46ABFA755E6FC547806EA333666CFA43865A30F4AE647, 0x143353CCC733D02617F77647DC29C6567A2E245AED27120E5FC11B395FFB9C9);
   (0xAC1FFF6CD869ED5CA9205441CEB990CCE30499810E275876536DCD801D4CD15, 0x67A7A0123E5EA29285DEDF0A9F138B8058A1D23C2A233C5D783BEC39B6482126);
   (0xC1807552644130A3F9B8AEA029FDCCDD59E03E27FF2CB1F99D13CF0D42DA7B13, 0x85E99587F77A25B0BC64B882BD279FA35BE0262EC2F5253C70A43261BD1FE361);
   (0x429191872B3C6877C3B9126679266E499FA37A8D74D094A88C4A363889C2717C, 0x1E4BD2DFA9757D42285CCA1D856B49B00AD481AD828D826E8921F7447E04D6AD);
   (0xD4B10124283AFE034B278E5A91DAF61BBE608417FC845E1F9B9F52A5043659F2, 0xFD07085975E2BAD6B34E039647B81A8700CAB9FBFDBA802F6AE3CC8B67CC98CB);
   (0xEC4C2C4C722A54AEEDC37ACDCB6AC4903077BDF63F2C145C7EB25E7487C046AA, 0x327BFE37D745283BA385DFD08E30B61E2B4E54994432BE41FD3F0D31C00E9ED7);
   (0x559E40A7E151EEEB46442B86AAF4922C12030ADF07279BB22BCA24C667566A05, 0x5483756F60D26B9782033592CEC21681C5B5496A0C47F6002013E5E5F2EA82DF);
   (0xC1D2E9219C0138A9F0A34FD0ACC92F4EAFE13CF1C004B6A3175133D6CC7BF12, 0x8FA653F2A20C1262BE59C7DB20F12579B2ADB1FF54D84EBCE5AD41163D2EBC23);
   (0x1BECC6C0E4861825576624E4FA622C01139D9CB050C120629B87AE6B09622245, 0xD8516472656EA10F5B23839D0043F64E85FC727BFAAFCB6CFC9C6E89BF9C038D);
   (0xC483C2B38CEEFD35A9FA9E7A00DA242CD618CD6C8B3BCB620E39D68EC1EFFAB2, 0x71964ACA9101863AD7C865F241E814EF3C20FACEF46246B64A742026471B2495);
   (0x3487162E40C7EFA692BC827F9AF9121EAF5AC549B4AB65856353D699A94A3783, 0xF5B2904228833BD6E3CE0DEBDC0396CA42701752F930F437D042CAB28F135C1A);
   (0xEB3B21FAF733F15AB94EE0E43378E9B647571AFFD69292ADA1B107C8AD511D5F, 0xCD95B4ADB8768858CB750CBB4FA645236B6FDE59CEB71DD473A7FE489E5A2304);
   (0x21C8DD7C34D3F333758D1D1B72748FE08695AF463D0BD9ADE4A6498D1D01E9DF, 0x634D86717B885F36A54B669135C3C026667F3CB6F2577701BEB0D3BB84F07940);
   (0x608E33B8149981775D78E286D5C6436F996234174E887DA0A95274A0D120B57D, 0x5D094CA1181F8DCA87D1E043F798BFAAF1004EDFA470FCE07FF8B124328397A5);
   (0xF77710B4DBC5F7FBAC6B015E956ED26A6BBFB5406A931A30D4215AED0DE610C7, 0x7508A762A7333CA80AC244D647E476470C62C82D387D8DF6175FB5631DE83D54);
   (0xF37040AA0B0347FE976D5980CBD83DB54D8CB90E7F2D211885159911AF769D61, 0xDF228DD767FA0D5CD44C3F6DB09E662B99FAA5C6688B088D949DDAB106F11E42);
   (0x7BF929F325374A1BA0CBAA50DB47FEA2A5D1E3F93C34BDDCEA5C2250D8252071, 0x8FE2D2BFB23A675550F16760A6511AE84E4D316C45D7CD624411AD3F0C72805C);
   (0x261BC0F3A69D636A00B822486132BF912AB7CA950E9A4925B3F68BB4745EE63A, 0x68F52F7DF1EC34977856C747B280907CB3D456F988FF7A7225C4ACE8457A804);
   (0x60EF138DE7086D09711DEFFF68DAD21188D7F878D616EFB6DBD3D4985B730243, 0xCA7C32973C56B1780B0CFB8ADA98748AC3D06CC07FE050D73A6A969552500F8E);
   (0x8BFEF3D64BE90CAC8B83BF20906B427775A6D98223D5141FB74E385150BC5EEC, 0xEA8B6B4CC7C8D9BA809CA8113621C72CB82006D781FF5F2532010FC957858324);
   (0x9CA85F3D4BA47AB0E9FC0A2874CD10A4A8BA9AEBFF3194056140FEA96E395FF3, 0x41182CE896554F4593768FC3A656981E69719F055469F9E4BA79DE22BCFE8A8E);
   (0x38CD0C79437B12999567999AF54D4F8E82A6354C8A93A5EF56CA2FF58A1CE180, 0xC96F5ED00D78DE59F56071682B60B13F06DE5F94920625880544BFC73DFA76A);
   (0xBE37E05B9369B1596B3902903EB8FA0FF221F5991270C5F047EDF62EA1D0E6E2, 0x4FC860A71FA69A27FBEFD8C0906FC68F4713FA2AB37AAA2A7EDD3C8CD100963C);
   (0xAA640E99B091512F85FAED73A3AC8EDEEE120513B661F8129A046A74D624AAAF, 0xDFB48AD1A01FD508E5652406B681CC9E13D0D60068411DAE72D680616F6B94FF);
   (0xD08BB931F008A1A738A162009FBF1AB3D3D455DD47F45CD600617E818B8E0245, 0x18D9221821C9A2EDBCAA5D262B7ABA18001F7F1E7F2007A9EC6F7D18F038D723);
   (0x4E6ED1F6C39C894FEAA53E1C0E115FDA75FECF8A55794628D9A2202A9DD5C719, 0x1BB97D732E0E137CE9C94D4C763F9A6DE14965480904460DDF1C3A2F73B66C1E);
   (0x867E83AE610A24BF0401119D8E1AF6DD414A716152B2FFDC50F71F772FA8409C, 0xD5D21AD5EF365994B3AD053392DF82A56F677CB38500781BA769DD5001F6D235);
   (0x6031361C6DFFC505DC7E1887BC75C1D95A9DB0238B7240E4C254F855B35686FA, 0xB9A9A979C6B8C57611EEB7838B4AC2AE66506BB0A203FDF63EFA9B5998C7643D);
   (0x8502D0F3468450368784822F4510C5C562AD30FBE29A792F0667E83B6F95773, 0xCD0E6511763674B557FAC9F1BB62F9E23163A0A4CF08CD52A6D10064D8B02ADE)];
  [(0x840E41BF13203A96F41EA0411EC034FDDB0DAC3D53B6BBC94F8A3A78D0371235, 0x71B51550A79AF31956C9B3DEFCB167D0C3E318EBA852EEDC78490DC5FDAACA85);
   (0x5678A034A24A1607D78036B223EAA3C3845C9F9E7293F656073903542F714D5F, 0x57F624BEFF5D1774C6962DD4D14CC565ACAE170C7AAF8C6DB0552DAFE3BDF48C);
   (0x722012A557ED9C9F9D737A8739954469CA12AB299DEDBACA507C12597A27C6F1, 0x6C28881EA0E6245380D73A7F499F05A4D9A9C04FC2BA11E609FDD0B67C5D5EE4);
   (0x70C638D93EEAB8928BCCF1E482368EACA03CA8F1B30F7B2D342585398C95C014, 0xF86350823DC2A20067DFB293891929CF18A810F25C85C169159A4B44B190A029);
   (0x2CE4A530B5F6C77DC0C4D8916E89B24BC25C04C2723842D429300F825E260458, 0x6F3061544D1195EA098B972E91A962E295A2A4EB9BE03949A789B01CF61DD705);
   (0x89E71182851BB441C0AF4E31CAD89DC73947369BFEF12EB6B1DFA71A72498C51, 0x20B7FFD5878718C202B5BFDCAC42279463AAC0DA4BCDEC2A8F3B538E3A9F574D);
   (0xF01F06B8DA0BA34CE1045E83ADB95FBEB76F134B352355396B07F8DE9DD25869, 0xAFA0FB5B45AD1F2473460F175FF4BFD80F16226265C423FDEBD92BC172F3AA7B);
   (0xF0C217C81DDA22011F46648AE096906D71FBA0061B4DFDB985DFE59C9D8F1894, 0xD5DDD6B7BDF2A6F6CBA166AE04C01C60B012C9EEAD954A466F631F9F0928B3FC);
   (0xBD9ACFF287CC2A2B396AEF61B0937A49C43A2366A2C3C461C12839870A7B6F53, 0x828DE0ADB9067B2D8F8FEFE6CE3A5C94E7D63EA17C891D2C5F266E8CA5FAC116);
   (0xEE314D972B9C10A40FEC9F8DCCAB0015D4923E52D915EAE8B319911C7A8FE379, 0x82057AEFFF05C496BA8B4753C4E57832ABA9A724ADF70A9F1B3765EF0952AB52);
   (0xD39FA7B9B87EE2AAA32454A13470406C8024C39CF3871433364DE62CB94C103, 0x5CF1309530F9E09C9B38AD93A778EC5533F60F604A42E311CD97C2FC984B9CC);
   (0x5AB1A07E5F6AFF6816780E5A23C9FAFFB29CD7D75BFB89844834FB6BC6B34A14, 0xDEAC47FD6567023EB5EC7A94A0133BBF158C0425C0A6D28823558986314D54BD);
   (0xB1A4ECC694BB521298E80464CFFACD32331EBC7C4D545141A129B522A4818830, 0x9772044F3722EC57D76A049B2AFCE2B6319F0BBCB17C7F06175A288F3CE3534D);
   (0x56015E4281AED744A0859E29EB913A7CB44EBD392ED8C0B71EB42F9C9C93C8BA, 0x8F97365045F7D8A924A276AC20056895FB2B0AAA4B35468A0A51F41F722B9D33);
   (0x7D99A5C5215432290C8F9C7B50DBAA64B200BF8647C71B35A0105DDE2B3A8E0C, 0xEAE09EF3FFDEC8B9A30291C244C0A726466C26DFE2C8D30174F57FDEC6ABA60);
   (0xAB7D21F91E7DAC68AFD6E4E4794551D5055A9F42598251095B25652E946EBDAE, 0x8805A806710ED7B0FB99FF30130C074C6A0BE3D2ABE6E155F9C07496F8B92454);
   (0xB31A5F85D65E52008F5261CDFD6D36F64B2A1F3A6F08D7B8DEFC7E8421D0F7DB, 0x2E6D46C33733B3B5597A133F7459EE2B570BA3334D1E764801980DDA1AA8D2D3);
   (0x30AF789E850C8EF89EEB226B27786679442A9A0C35CB73379834540029220FC5, 0xF6651170C83E24E10EB6E8DAFFA0B0BBA6C5367672558D44C5B771763D9B5D7F);
   (0x8D87F80898FB8007FFD5093ABC6BAD2D23E09E90E6967031048D54184C60E0AE, 0x3D14332C21DF527FA2E98243D3ED4BD06634D79909F62EFDE8D6C9198ED716A3);
   (0xA961C219EB9EA127205AF30D909EF73208CC599AB2080966F615796E1126DD98, 0x3E235AE037B1007432E5CEE5567788561D552E3EBF40BB825B527CAC8E1E5B9C);
   (0xB9C2DE2140CEA7282AEC5293BB77DC7B550A72C884389C05310651BC7570F2EA, 0x74171CD94A5683B75BC7C5D9B4C8FC101FECC3B10B7349CE840B6CA4877FED21);
   (0xCD041FF2E819194608FD7EF0C33021D29533CD7564772252C686F7187E33166B, 0x3F54A9AF0E8597BBFACCBBD209280E6093D31BC5B366AFF22C95E21BFBCA6041);
   (0xADFCE0B58A9CEF85E690B84A00C7CCC68F5AA4DEADA5E2653720412B0E1F19AE, 0x8AE2DCDBC6CE83BE825593D687F9AFBEA88AF079564C60D5C9B88898897515EA);
   (0x833A50C2CB5507C660BD450ECDE341C964F2809A0E400215C52DFAA09825DF96, 0xDE85E216493CDB4C4541F720201F4C6701472B6AD61CF8EA3CF54CCDA4584B77);
   (0x3475027A628EA4232D689D70D45E975D39D623030282B16B1F94A4273D7EA746, 0x97C3052D9270DF786EFBD2E7BEAA58CD0F864E28905E3AB5507CB9AAE3C69160);
   (0xCBDA2707E61D9E40124668EF7ED83973DD293DFD221396A8D27E7AA1392EDCB3, 0xFD5023A8AF8EFF08F0E3C8B9B6A22A99B3EC3AEB7E0104DC1F8409CCD83D8A02);
   (0x963722ECACED21052BF447FE619A8532DC78816E2E17A1113FFC601D9BEC0381, 0xF31FEBA259F7D0E3C326C6953AAE60C1E0479DA5CA839EA77C6F1A49419172C);
   (0xFC531E1D49D2A98483C861B2B299B8FDB26831E03BCED6DA5C4449B018363BE7, 0x9F9CC9B08D72CED1998C6329A17695D9C94CFC76BA9F69431C5DAB83060F2942);
   (0xDAB255F5B47D96D80EC5272B5CDE4CA43307092084AA4866D53B674A0330AEA2, 0xFEEDA13BA544F090B790514A42064CEA509BB3F39DBD45676BD7541437579D7C);
   (0xAC5B161CFCC4299871B49D1F8CF35BD4DD6BF98E5F84F2F6420BC363B9CAC257, 0x4511D4D31FA26D7FE56F671D7467BBD041358B36B60775F865F7D4913D17B685);
   (0xB62FBFCC2ACA0706B0FE67F40ED5D96B4A65B048F73E8F4C9782E1EE36189E31, 0x6549E8C2F77BC8244E1A90B4E42CA64A5ADE1768A0996D6908D7B0477BFBF862);
   (0x569384435E5090005CF3DD18EA629078E15097E9DA7BB5C5737CFA0AA40E8818, 0xF86A18154F379054110169949B2EBA6B477C32B8B68091A44B14990A5E8EAF92)];
  [(0x7C028BD17536793974871A6BCC957D953813331C87AE606C17AECBDFA704EBB4, 0x4FEA040BA0EF031991FF9B8B7829C0C393895439D506C5C31A1A3FD9E32E7E59);
   (0x24E966D0BF1227CA11EB8FD78DC5369D2BB9B681927990B6DD02B948FC18A169, 0x72B7FA7CF929A6B1C556A3724149A2798D57F5044B50A1A7922CFDDC17308CA7);
   (0xA2B7DB3A265B30AA948235776D5EA839C4FE564B97A5E3DA313F7FC45DE617C5, 0x5E895546A27781624A91EA4EC104C91185F3E954F8378FC20BEA41A3F1CC9E15);
   (0xE365C695449C9976CB67EDE3325D9229EE526349E6B255F7F4E721846722580B, 0xEFF99CDFA09205050AC37E46B812D47B31A291130E491208A19E3EDB0557AC2E);
   (0xC3D90905297C3A652C6C3D5D915CD9C2D741F4724A47C8CF035E5CF3CAC9DD11, 0x8E9EBBD34A7DD0224FA6E33193CDD724906DC81A5AA41EE4A34D3D04B2EE5B3);
   (0x6E4E23CDEE4388D6E8B61F8AAF7678D1A62B3E1A3385D2780895A02ADE4C9F00, 0xF69B843BAE39CF4111FE9B99A02870575695421EE1EA690E2E76D937E7E32C01);
   (0x92EB38A63743088A39B58CAD4EB4A27EA8B08C270444D7046D2AA5F489713217, 0x22AF8D6CD3567A6DCF7403EFE0AFEA0248EA42661577005A9AFB5F2A19611864);
   (0xB3C84323E2D022FDD2A80D07203F4A26F5D32DAE628420729663A9943A829D08, 0x9A899DE82329D9483B88E1E1BCE53ED8714CAD4C68CD4911B71BC0AE3839821);
   (0xDAAE5199057A60028958B22E6DBBEE20C4BBD8E107ED589EB8528F357A4DBB40, 0xAFEC8A03321586ECAC38E9417FA8E342F054219359DECF5E56479A39C32F92AF);
   (0x7AFB9A5689FD1344CDBC5C72062DFF7B718C2E470A6E19EC665AF79586ED0161, 0xD1C2C9CB60A191A9A3DB7E202EBC2EFF444BBAA8D81BA0866F8825F38C765F53);
   (0x8D0C4A2AE72B54C6236D997D61A2A24FDDBD39C7EE16F1E7D7C45B22B4BFDAC8, 0x15A58F4FFDAD9E3FB4D33C7E170747CC6A5ABFDDBFBE5814EF0C36116A0A9E91);
   (0x24D8C0CA53400126347E67F372F19298595B6D3376BA2F192FBA6DD17B57BDA1, 0x7C01404FBD316814F10734A1559049CAD6F20E90D6B13ED5F9542630DB77F9EC);
   (0x4C2B7A5887A49DF4F98CFC7222FDD832362B8CC4C5F4FFF4D0A20674C9749BDE, 0xC2A1CFCDE863628831A5C450FB5CF552C76E581F9274E5D9888A3A68C37CA349);
   (0x2028E381F42CC2F7A8829308BB72881E94E5B54E3331D848898CCABC0BF971CB, 0x16DEBEA0203F0709D9B55B0D2B8651B5CB085D8C8F56708DC1FE4D33A616DFAB);
   (0xD11E0753F72B7C4E641ED50F84DFA24DA0BAEA7798FCF0628B2696BAA7EC2529, 0x55AF37FE88324646777387E5A9B180590ACE20E9BECD74885E43FEE5FA6809E2);
   (0x72309865B8A1A6F39D6D561F43DDF5B7F2D022ED95DF130B2563EAFF09008A95, 0xF3FCA0BE3CE7D9EBE164896458EBA87E934D000BA535F223868DAE110DD5230E);
   (0xADCA4785CBF38A0F28DE7B36DACCC76189B8B918F3FAFA7BABBBD9B14ED5485F, 0x880D76A6FBCCE864657EDB9B349F124D1B22C7AF2B0FF83340D7A0C484B49DE0);
   (0xBB43E0C093D58C6F3946E58E4727D7E2D223C84D0513C4E2222406BCAAFB03C2, 0xC00F7DC8FCBD55B36A95F2F4A3A07B7F9599736FAF099A69E2FC2630A2AEF1D5);
   (0x179EB588D1C7AA5A24E51F5E6D86E4ED2E6F0F98BF956B71EC1CACA1B7F775CF, 0x42F461C8A784F643D5A8682A6EC9B470455F0AB90F269140B1AD237695F64AFD);
   (0x9144FC75B00F86080714F02716B30575BE19DC01D3689E8D2665D9676A077D11, 0xB168C3247DC6C31E8302B6DFA2E7C053DD849538F9D45B8714D889ECCC789704);
   (0xD6CD2A7AB7253B8634231EB32793F062BDF103B24FADE9126206E745A3B429A7, 0x9903E507DC5E3A61D73FC83C5C4BA4766AE926559B208369BEE559484BFE444A);
   (0x264845ED623BD3F3808CA51E517DEF451FBC237BE47E3DED70C3769B391A9F83, 0xCB5022FE3D535F4D192E73D85D9EDE2378E0824C0E560A97D53AABDDF8717377);
   (0x2DF9621CCF3E67DA54C47DDF81E3BA7E7B50E713CC7D08ACD64F47E985C4F334, 0x8058F6E8139D8E87CCE4A389C470E3D845DA3537CCEAD4F3ABBCCF42A5FCC49F);
   (0xCCFD6C4C596614432D2EFC41CCFA0EB3E0B44EDA4558128C3E4D68D949A5CAC, 0xBC77B87B5F50D3A96B28D5CFFB371B4A36CC136015C548B3F98D661ABEDA8ACF);
   (0x4E2E6052CD35D5856531FCF173BF124D3C569BF66CC54ED69A520D42CB836296, 0x6381D100E5D9AE50F1821122B8E91A5EF365EDEE556FEE1C2FDB6D173FD29C65);
   (0x6603D715ED0F87257D9C3F29CF86AD4CAA0500CAFA16A7083168E265B87D0255, 0x9D2EDA4A6195E2C4A4576E4D05D02383A3A01B2CF94AB8FDFEF2F33815807D31);
   (0xF09EF30DFADE81DF2FCAFE310387ED345A8029CBE93FEC3BEAAEB8AC8ADC9803, 0xF9F3039E5B73C7CCCF841EB81C15203F00BA192E9EB39AEB36F56C2944B286BB);
   (0xEBF4611FCB3A44A9F9D5B00AC559DBB5394840C841A06496BBD2011A2508CC34, 0x1E1833249A6105845D62EF4B685152E5C75C75250C703F8151BDD87C6FDA0D43);
   (0x31FC3226C19AEA7B4845FF2ADDECA6A936505A4992102CB3499D66F8A6E1A3B5, 0x49BABD410B1E8A6CA728F971D8D8CB7647CDB94B89767A67FD975AC693F144D1);
   (0xBE1E37D9DADC4B4B7A5BA74DFB7EB55C2B0A4FDD81564F8D51038AFEF716E3D2, 0xDE6F0C3DB6EFC974975A7D6D3C6E9D44A712879E4E95C612164273BC05DE1F4B);
   (0xF8034E142425CDCE31E82B49CDE33BA83630D1AE283B8B4773960539C67F1652, 0xA302E3B1860252A5E7114568748746AD1E02C2E4280BC913DD4B4D2F92A561AF);
   (0x21E709BF369CDB2DB7F51B10F0FF56C12C1938D618419D0034E57D947B83D5E2, 0xD7E09AB12E7D04F5AAB3A75F8CF75876DDC3CF0DCB4B9526EA7F755ADFE1E495)];
  [(0x638B6618C149894675A1A94308755A6830D7DD3C9D8A9F20D65A71619C8B477F, 0xE4E66035E947C73A0C34A48BB43A37620D1038E6893DEE23CF658A12190D2A56);
   (0x4B6CE93AACD4954ECF0FEBD1FC9A965EAE7FBC1EE24A12D3A4B8657362EB255D, 0x8CEA48381BDF4E5D79E25ED01AAB94B35F00267B3EC7EEB663833507583407B3);
   (0xE2A421103E8E2A80A6451F71B348434D7D508023BEEED16AD87417B85C7B7913, 0x5FC15B62124014E7FA8F95CF78CE8415D46A1F97D88BE55A764317868DE3D605);
   (0x694995691582C2C2E14576F5EC0DD3765133237A4E43369633EDF69933D1F75, 0x5CA8C2A6329882F52DAF48E2E291C48DFEBBBD2909CCC9FF03AD54ED33CCEF43);
   (0x55D836AF2DD4B8A57F20EB576886790EA3CCFCF92A2940B3646F263D685F62CD, 0x7CC1FFE637781C72D3CC26DD9D4147C2183C8E0A95B8774252AC47AC019DB266);
   (0x442A309046BBF3EF0503A138B60DDFA0EA4A5901AE801003F3F18AD99703A44E, 0x129D9913EFF78C4916E67C4CCB658784FA47DA3592EA1C984054B371A275639B);
   (0x76981EFA29944C2D9463FC9467A92E1F9403C287DD5952924860AEE4B78626CA, 0xC87CB5C9CE93FF3C23189404CABF8E09996C4CDEE67935D5874C705D6A7F95AE);
   (0x42AD08FC2A1EAFC3D793F04E0304831E0C1BAE89C7D00B247785D870904BEF5C, 0xC3913FD36B8C08C2553B9C485B90221EECDC8D026D558BC25FDD6BA3DF78ED63);
   (0x4D70FFBEEFC6254DCEE74A8970244BD3384B3AF58510CA61258FCBF8F0C82575, 0xBA3E19DB022A75BC75CBAEA84FF912B0867124DA20E0D28A007FB749A9D1C7B);
   (0x4EC8DCA87079487C0ADFD516DA2DF1395477B524DF4AA6D64DB5E206CFB14B9F, 0xE88E5BADC8654D60FE1F8F6A7332820963BB10CD31AAE381EA1B4D9CEAF9CB27);
   (0x2E5A47C9A47CBBB5EF70178434798A6C48244DF9DAB1E5D883C7F732B89C7D79, 0x7C8202DDCF7FB6EC471856D5830D59E699C04377C553D835F64CB333CC405C35);
   (0x3CA98150BC5F116AE7034A07628D698F67CBB8D374869AB1534464F55E8ED24F, 0xFAD702ECC6B738DE5B653F78F51C98D21E4BAD574DB9773058324D1E012B89F9);
   (0xF414495D9093AD2211E001F8B07B38BDF5430A1172899BCC2C553B55A9D4A225, 0xBC130E93998DB2296AEF128A05B8E5B99CF67EB7713AA7D99FC4C902AF660F4B);
   (0x44E794C95A28EE80F9B641939C626A784A851A4F84F288879EAEC5081B60E508, 0xB219E0001B07A275F63DFB3BE977A40AF505BE1ED3EB8194B919B9EA70D7198A);
   (0x35024622BC17BEC19C352280297DDF7F41654C0861C3744B13C74ED506673B98, 0x64AECE4C3EC0B19CCDBC06B74EB1570450FF689E6C5BAFB76AE9939612F4CCA0);
   (0x45C4F36CAC4C4738AB216363E12B247550B8EF097A986CE160B0462FF8725A58, 0xFB944806DEE598347D25688503761E3A09AE666B9B0EE095FEA33EC7BBCE9A5F);
   (0x20A0B4F7CFB58BD8D09D008D70E7F807B4FA61FF065F2E15F00BDDEB55DF1124, 0x7961D1DEE98CA40F4D09E5FC52AE49160CAFDD6E2BDB9F9D2776239CA3480157);
   (0xFA10AF8CEB2DE4C93C0C2CB095F95911755B19D990F17E33069930D66002FCD3, 0x68A3BFB4533BB5F054FBF91CB771B08EE388A61A9727BB7FA3A1F67E60B2EBA7);
   (0xD417D7DD30EBE9F17D52EDD6C82D91F925D5987FA6F53B0ED769A34FE557C11E, 0xEA89C810619E32F2369258AE8AD8A456CC36D87EB45A42D38395603962E437C8);
   (0x349B002D0ECEE0E41788A3C0CABB9FF7C17848E278EF890563924C5552D59853, 0x47583A2E07FF61B96FA168B51191B363EFA3E0A1CE825A3C5BB04E5BE403B4B0);
   (0x4B8EFC8D7EEB3554B5128E8D0CE20C29697F79CB29F61B4EA2F7AC28057910BB, 0xE3CEF6577B5C0D2FDEE52C96B6353073B099FC9C6568896924CD744B981C5FF0);
   (0xF356E8CF5785B05E0E99A2B40D202B642B1E98C257741E607241FB9FD3F5EA2F, 0x9079FD6559D5A93F91370D1620BA487AA8C6AD3DE67F2C8300A1C335FB5398A2);
   (0xBFB74AA215E5CE3697CB6156C2666EF71B579A5056FF60BAD3D5E10A7EB2D31F, 0x3DEF8A80DDC3F407E30D11FB232F0E310191BBA1D51A7EAFB86D7F9745D78DCE);
   (0x658748BC0BBC75BA30C969FA371FC1D776C32A5C7E632201264DEB36B296AD2A, 0xC173FE4B14EAD07C02C6574C8887500B53F6C02EDBD4048BE69AAB419267EF9F);
   (0xF51A5CA6FD6DDE25447FA46FC0984D2666004C028D4026248886D0D4604F6AD8, 0xFD4290E17B2928AAF2E03B9897252B82D481C4C5AD4EDDA616DC1CD8E7EE83B2);
   (0x20EF1AB3491B8D0D0A1565E28DD92DFF0EFCB88FE88C6C2F6B100B30B58249B6, 0x6814D327B5B94C412FB770E2FC4077FFA9A336C9E7DB2A4BC7DFFA40286EEE0);
   (0xD98785A82DFE5DE0343BEA0D91CD8C493344B867FFFE1E6EFD7758A90CDD899, 0x37AD7F7C5783D2625204BAC34405C207972B7FB4CCCC3585EE152F0A48EE16C4);
   (0x3885E91018A66E642D3F0C76BCA6DC820A6916CB1E46A8587AFF5EA2D9390689, 0x2076559083BA89C214BE917846E40553EA195C490DE203C9D175296EA4430819);
   (0xC88CF6503B50F5EB7BAC15FE2097FF769C57B9831B5D05C9FBD8DC58D4A9A746, 0xB6443B7664984192E7056478E9F372CB21A0C7C0CFCB0E84850443A025FF42B6);
   (0x2831FDDB2BA2D30102DEDD58A3F474343450985E80E4E4C1646745CB1ABC69D4, 0x1B04E1B7DB84B6C4882F264C7BBA91D52256DC97FDD22E58483DEC325020A257);
   (0x5E492BFC9D19DCBC3BCB9A8B7BEC84C23C359DEA78AA0A1E0522232DF037ABC, 0x614FE5B7CFFEDD7635D371B52D89BAF055AF687DE6C12D80B221D0B39D03D0AC);
   (0xBBC64D06681957E9685C9864C5F9BFDA34B4DD026B749399A12BD8DE87F311E7, 0x3C525096DD6B7D1126C6CA505064DA63F7F6A20387594F4FE4AE0403FB4D66B6)];
  [(0x2B00C7DB16887372753AB219170925638C603992F501B07C9D8442B3721ADDF9, 0x8E7C5F664C2493EC77CC74EFD9221235F26BD3BD6F50534739F0FE19C41B9FAD);
   (0x56B9A3EBD936022456267F5221ADE9F9674863EE4BACB7C9EF0155CAB36B336E, 0x2E2B1A4DF6C150C86DCFE9D2E2836579F82AC4D42F8FA4D5D814B952E92DA69E);
   (0xFF52BBC283BD15AD523E6D08873A88969449A1C1C5EC8570ED5320005A92AA3F, 0xDD9C534BE59D3845A19434351A20513D1A829424E65ED8AD60342B3806578B21);
   (0x84F7935686B0D45A13A1CE227E7C925ED80BE5D99FD7E671270C4C357254E9CE, 0x3DFE20581E91DC2512C16951C667FBE683192BF33FC0BDECC760DFF6730F82BE);
   (0xDB14DA0A86BCD27571CB9348036268BB85C306C89EE1B78B83C247A171C7355D, 0x66BA535E81E877B471B0B75A6545970D6E33CBE0FF011E3FD653D026F4FFF395);
   (0x28BFBD9E4455437174A4C24ACC65EF455FD4D39E0B466E94358CEF4B0B0EEAA5, 0x5F5CE6DE2925ACC9E503D731D46601AA7E668001669819CFFA54B3E3DBB98F32);
   (0xA7B21A3FA07B40497F9F5087C763B431D5F04CD0E7B7E0DCF9C6C664DF7C6AC7, 0xDAF23F350B903ECCAF4F50CF459DEAC985D0D0083B5AFA737131A61D8591BF9C);
   (0x12FAC42A040935AAE881894D245B9691CD1F6AD0E0481E1F444E0CCB6EE88781, 0xC519E0B9E3C19FC8F67C07E4F357F43D589EC23C7714F7A04347BE964CA572FB);
   (0x5C2E28BC94F8639E50133DBA9B6C8A35348EEFDD2FDBC18F02ABB792EB8807DD, 0xC546B3C25F2809E27977A8E23A1C3DDF36229F31434C90E91386EE84B64E8FDB);
   (0xE8E73382FBE8B94E58BEF90BAEB28305D27EA48D9C5F6E08EF47E4DD5FAD6B78, 0xD3529A2E86240F06A63BA03BCE419C0524D22622FAB9107DAAF3016C6FF7FE3E);
   (0x26B93629EBE68D1E878E94B75BABD6636FE1F6F8659B155AE10801EBC2CC51D9, 0xF4630056B3E532F732238911555C0FFDF4951C9AB2F45119CB12E7740AAA2666);
   (0x57B3B642431F793F24862328DBD271AE19D343EBC3B0CA7CAFFE4FCB319D8D94, 0x1D7ED35A5ABC7E391858A9FDB90F907E6A065648C00F94A775F06D2B1CACEF1A);
   (0xC2123794D98F0311C13275221767236A6F45CB148FCD65D7E0BE8D132A650953, 0xD5A382FFCC2FFBA3917763DEBE0549D066F358BD727C281288551F84ECD193B);
   (0x167896629208B5107528EFD136036980994D6C3E5B34C69FEF3B86A43DB9E8F2, 0x217105F839B0AE0E932B5207E8E7C1903EA463C540C043AAE4F8B10697CCC84B);
   (0x3A0B8FFC83A1702E214ADFC379BEC5A9753274EF9E3271CA8EC5B067A5F3B6CF, 0x2C3DE01BF27DD5744496C2A475A07E6071EE60EF7EAF1C94C257418B744D1338);
   (0x482E5AC26477FEB76C848D5840173D871687C5B73B2970ECB8DD69E93393F923, 0xDFB3995ACA5B54A30B48E1DC107023D4DBD7A9186ADF2AF061F9216076E7F78C);
   (0x3869373D638A30CB63177204BFB194F02C6FF5033CB4EF1FB146741AF3B495ED, 0xF2AC9F3A0CA159C7C2CE9F48E895C543D3F1906674F335B9EFDC4B474CCC23C3);
   (0x98C16EC854B34EA2F08AA4FD3CE1877D4A36F2A64E67319117F74E5D86E57F4E, 0x3448646FC9AAAB0F4D9EC2988F7C07EF448888E76318E0AC0552D7CCB59820A3);
   (0x1B3A4EBC8AD1C2002847E182DE7C9EBAF0F7A408E2AA172D484BB9D3AB897B73, 0xB93DECEF69CF2DA45C3A2373AC2ABD77311FC1F9021E7DF85F5B3504A5ECBDB4);
   (0x57B5B2D287BEC103E4AA7B961612971864780441FB5EF8470019F16DA1C909FE, 0x2C2D983CD8C37A7D653716E6157561219E5AD5AB2566496767A0FBD8E8180C71);
   (0xCD7E277BAE1498A18E7BC00C2C299A4969F6862BBF96E6D9F5143DB87B582115, 0xF9548DDFC27108BB38F800256FFDC25E28621C17C370A40E5009B968D40660BC);
   (0x80615F1282ED7A8FBDD7089077C24F18C03FA3953CBEA7BD32A26C7C260102E7, 0x8D54A3A283383D6CA633D17DE2F4F7563BCC382610CC10123F2F192BE654C2CB);
   (0x9B16F5DD0C8C8C8D53786B49E2D025A6838F6322700FE1057DE6D78E92281A9E, 0xA36AA3C2F203428576F5C57063BB1BD70E6E04102E1CD2DDF100A54E431CA08F);
   (0xF1D0407535FFD40F2A0B59F914ECF368067700C5B33E15C5153FA9B1C724D36C, 0x22A8B48E4DB1D3D128CC735F99DB74D9BA7457CC67B8FB397B38FCBB153F7C0A);
   (0xC252AE6BCB711704659C37A6F425B2151AC8A4C663420EBA899127E81D8DF3B7, 0x8E9A75ABC5A2CD8CD44331EAB07E5D97A30C66198E382261642C0E108F6D46B3);
   (0x59F6FADB4A8A3389999B93D4CDF1F8F04735B3979FA5397E64DF420B85876ED5, 0xC6E8BAAEFDEB701923A68B719C88596F60742A38DB04D7E576BD1B8D1AE25A6B);
   (0x3C2E03C93F610FFD0DB519C780C201CEB58FFED8EE10E21FD1610E9933FD08C7, 0xD339D97938E1C5DE7492E7D2D64FE34DED889D48546703451C51432F0EC6C829);
   (0x59D16070F9147CE55BAC599EAAACE0EF24C02EA685249CC6CCFBEECBA4BBA83F, 0x8105BF4147F22F7B18C739413A85EF0640BF680551C68A10E16BE9200193977F);
   (0x3ACA118203F31B2BA12E628B604B101062C45FCE22E15DD08B9B5EF90A53DC02, 0xBDCA8AB2D2DCAB6E3A98E7F87E192C19CAE60952FC6F54BBD46ACB4960D51C0A);
   (0x261E9B933648C7D8D5255219FD0634EB112E1DD3FCCE0A04135B2784E67B5E32, 0xE0EB5EC430B1F9EF2BD10916B21F4FE104CFC80C2BC179E0FCEB8678FF933068);
   (0x75918E0CA0F03B3440CD6239C108BB72F293A8810A1F2E9A73C604B88C451C39, 0x7F02A92580E50AA25B786D10422F1D802C42CB3727F09FF11F5E0DD9BF6A6C1C);
   (0x42025E763C05C64C311A275DD6F1FB3F2DA2108A39ED24BE3DE83123B1C1D1E9, 0xDBA2EEC7405B67CA1915B13457020627BFEEBB86B90DBD487849E5A756921C6)];
  [(0xEF2C5FA8B23285E350D7F05DBD8C96BC6E6628245B10E1CB4B659BC5DED5836F, 0x1B37679E1177B6538975790A4D5D2ABE3626D6361D863E0E1DB5881E8E0C54A8);
   (0xA1D5A92C93DF3C75A06F9C2BA604789DFD48751362D957BE68C033E83E202FE7, 0x64C1C00A03964FD50B35FB52B423B28577C8D269BB1FFD16325C5E0F7BE08BDB);
   (0xEF13EC66D46813CE68038FCD0541E5E8BDBC970D337D7B5B9099D0E403FA4288, 0x7AD7F4F0C834522996341248B1455EBB89AAEB6E1AE9DB251B86930C9F779FD9);
   (0xAEA7CF4CAFC1079EE61396B62DF9BAC3BF33474554AF46788621E3374C7486C7, 0xC05386055911C893459B98B04BE449F12E9F98CFEF4CC2929975D42A0F460D65);
   (0x8F082B3B6476B4E9FFB317E61FEC0CBE8E3890411FDC87D68D4D26F544C2E6E3, 0xEAFC2BD0D6570A7ACF8BB5D16CDC1020456473C9E7FEC1B7FC6217CD89D0A2A1);
   (0xE0D6310DE5E664B3164FADDF39C936764DDD3F0DF5E007EF5293EE35980AE0CC, 0xDE093CFACA1033BF47E887234978758A74B93CC52CEF48A3DAF4DDA9ADC79CCB);
   (0x2518110D5D0644225EAD0E2A5AC8B8B6B1FB7FE155E351C51D39673DDAB0F6A7, 0x84F0D6E4B497043A95B6AF9DE72CD502A7B6A68DECAA01B09E0D8FF99D8A16C9);
   (0x6DC820B85DB42353C97453EBD7D768CCAF9732D7C261BC6F8399CAAB34CF5B93, 0x30B168C02509E2F702035F608BE8B89D577B6E720540F521934FE9807412459C);
   (0xBDDC1C755BCA99113C9AE05D0C14441E2C707FE58A329F8DFEAA36FF12771376, 0x8C0087CAB7688DCF5A3CF1A33C27C7B9CEE360073AEB9B9FD7088623AF20F62A);
   (0xB6E5EF5AA84C6D2CA209D50E8FA8E1D793C61ED9BFBC22D52ECF293C9489AC13, 0xF76E3ADCA89CB983B6B670F95A7E774A0C015DE51BA5641740AC1F68E3DF377A);
   (0x26699DFE93788EB8D91CB601CAE628E575E8468E73F6CEFE588755B8C396071C, 0xE5F9E00FBCF6F1CCCD39AB1341CD06B0EF2E789A17D761F66A7A83B1C036791F);
   (0x72F7E16F77F0A4F792DB2CD0354382AF34282DC07B8CB290A89A5D60894E8090, 0x54D32ECC2CD022C6C03F1379657450B0DB9F08E96E2BE5AB5233DD84062733CF);
   (0xF84AE7F800A03B60AF9CC35936F0AE7896935B2C0534F8528AD159BB6C0B44E7, 0x68F4DFC620A354D9D6904BAE67792622337E3180AB34082880BF04FDF47CC23B);
   (0x5DEA33B1B52078806DEBBCBF83CA17DB4617488CAC5C6997AD4092A98A7BFF7B, 0x99976FE5AE88D36F597E16BC6DBBD4B4547F4DCD7E85786CD10AF30E1D81BBAA);
   (0x31BE76BD4F946E417DE73037CEAA0DD7C6ECCEDD74399E142AE6FB2FD2B59DEF, 0x54AD8748EF129085DC3172AA904CC376E203FA69387830072AF3388952CC6549);
   (0xB6124D0BF603A00A226628978DD0DA87FCACA5C4FB04EBAA81A7D13B39F2E307, 0x34CE08C74463B06CAFB03C02583288EB7BFA6F2D3EEDFED491E31781DCFF10DA);
   (0x6AA4BD6090BEE70A295C451CC8AF72BD3665680F545F46C0BF5AF990AAB5F43D, 0x9C2364D825406B76094EC9DBA0EA2F9DBB36FB2C5BDA62A2BEC941C6874E68F7);
   (0xF72FAEF0E268A7B0A9B00A573674D846C1F0DCABC9A586DABE318B1CD2874D8B, 0x16B3CFDA65DB0F3D1B5274CD20B1329E61EA04041F702E71CD98708E028C9307);
   (0x1D26DF1598A6B9A87C0A6171767539E186D51D1DCEF130DA1001226F87872C5C, 0xF227CD82BECF5493E2FC76356A37BB483E681A19AB4D9DC792EDB1143A7B072E);
   (0x28690CB1DB69784013E9EEC4D93887234C28451CCF9DD51A746D1274B13B4610, 0xD9BC39EF19228981A1EAD1F894DEB254162FED5DCBB58A766D361E043D8F62EA);
   (0x4B0B525822DBC31B1966B0044D39C5DE0F2E16D51E032045F9973B1EFE83CA12, 0x2DB33FF43631FDC3B3608B407DD494F6AE7302129619AE35F6EA08EB51ADED12);
   (0xA5B4E205462AE4198FFFC1E7393D366FC5A9EEA4E98C67EE1684D63FCC09AA64, 0xD3C11017DE4AD17517CD076FCF6C0CE04D3108ED60EABDF0935499F94226078B);
   (0xD4F1AF692A3E9FEE1F92D892B14EEF6AA0EC1F4ED4D455F3C70BCB1952FA9837, 0x115C7EE73B90ADFF142191BECA0BE017D5A651F093E2E905A36646E21790294);
   (0xC275C7159D6E9757D2ADEF472EE53856DCF067DBBD4F380E892C9832708D46B6, 0x70DA1CDD853A0DC80A6A90433C319371025590C95807284CAE168F6562E4465E);
   (0xD2E38B2783156E2AA8E4EAC0149BF2BDBC2918AF1CFA2A23D1C7136E015DCA7B, 0x738A0FE751ECFA3459E005F72B7461FA4B5E1ED736420D222C5428E2EC1348C);
   (0xF8F5B3DB3659174E0149FC6FA747C229607C4348F9EAB60900BFE92B23F9A4D, 0xD89EFF3394A093FB549FECE14E11028A614CDCE221D5AC261BC25F32DCA3919C);
   (0x5E266403E49FB860E6ED092845BC08110A214A0EDCD6174B290ECCA93539D862, 0xAB300ACF5D8B8A142FC9E93FEA995D2CD7A2BDB86A146F652B8BD49C4E8DAC1E);
   (0x8FF869A760230BA6AA5ADF911BA61702017CBFDC5FFA4018B8A09B9E4088D634, 0xDB5A5AAEBDB946DB80E4C20722CE38C94921BF4147EEA51070E5AAC5C592F32A);
   (0xF3D39B6595BD5AB9AEEDC43FF49BDB2073A211F45EC2C1B772226A97A31C059B, 0xEA41ABF9322D733BB5971AC194DA6A0A6D41C6CA0D0ACAFA53E17BDDABCDC68);
   (0x18BA0C34101699147F7589F9179B94F9DAED92C9287F3468D283BDCCD71CC637, 0xB3512D25C199D2A4C115BD11EB53D6A16EF16C3D97BE62915FF76B76890BA675);
   (0x2CF3354D7F96C58F3C6336A06FA30C838DA767AF48F89FC55CED5B40E0B86CEE, 0x403AC306F6C3AD55BE1EE5BC29CDD46E2E3D83AC710509095F117D217EF015CF);
   (0x5D31D1400F754D6C5943DEB76AA4D867CAC81ABD9911618B82327795DA8D085F, 0xC25F99D05BC5D583A3A72B414E5EAC5FC14CED0198247DED79BA482C882BEC49)];
  [(0xE0AD91C66CA953260D440F44DF91C1CDCD3EC344E906D0EF51FD4A4831CE293D, 0x3559F3CE349F7B3CF66C17B2C3FE7E68BA3804E438C0816B68ECFE2030DA18D);
   (0xD8B8C50CAE9F285FD6D9282C373607D85FDA59DC71BA0066148B378B37440076, 0xEF83DD08DDC115CC24948009F9EB4AFEDCD65C64B6EF2194BB4DDD0FECE180E6);
   (0x881FBBF10A9627BD369ABBC2EDDA80260A61B10F4161E442530A5E36447A0290, 0x6A63CB8F7E5094D3C8BEBA5A2A1D7B54BC33005CEFDD5A1B20D51F74D00C2FCC);
   (0x36BC0DFFD1441BE1A4EFD6A43AB9D83243D44BCA6E108DCFA9A79FE23106F0E, 0xEEEC58B7DC37EEDB4432DCFF4DE7F88B2A0E0721DA2C0A72EADAC4DD71037ED9);
   (0x7652C155C2CA8A237680F015A62C7C3131682752A99C432977CCFB9DCB58B03E, 0x5339A51B36AD4548197D30184BDE4428B38ED983D624BD18A5F8C4E7021871C5);
   (0x904774BBFB8B0C12E2B3F91AE5A2A0C1A92971F986E29FDA9EDC609EE85B222D, 0xEE843F18039E2519C7B23B3725CA0990114B4F02697011135DED92B94445E2D);
   (0x1C7C82CBFC14B9B2CDB3C12C32DF33B6A08E7AF9DF62F31079FA0710F28F5F95, 0x93471B5A17C84EEAA45948DF080C0F56D8684F351AA2CE730AB84B3C1B8250A4);
   (0xBB060F5D971CE062427A56308F11453240EC54FE6479D5E79CE8144427F07927, 0xFCBEAA698278EFF3D4DAD904836C023340A866B2D8F6677470D1159E201501DD);
   (0x287C5B8B8DC168EA197200EA97C4F63DDB0B620C7F30D6237934F856A558438A, 0x260630E6CE310EB0366ACD78BB58F4EF27FE4836EDC8FF0F5D5FF987B659BD20);
   (0x7D4C5C6AD6BB0F0A47B45A351264F4E6A81EE0B165A7E6654B226C95FEB59DBB, 0xE89691F3CEB4C57F5AABC1B74ACD9AEF41531851B41EC1C6608F16A22243AB5E);
   (0xFF806F2B9EAEA4F647D85077D8AA50529D4B96D21E0B31E07C86B14B73B7AB4F, 0x9ACC2F77A994997C7A2B1AA079C0B5D4C84F6715E4A50E33628B871F08885EF9);
   (0x3CE795BA1D91A9BCB02606543450CED8C94184DC08A41AC5E1B84856E88927DE, 0x3492E696CD1AB2DD587D4707AE34FD673AB7902CD0C0972FEF41979501AD88A1);
   (0x299AD528AFA3F36BC80A757F0F081A8DC4A6DDC2D2B57FBE1E3D361BEE5A5D8C, 0x9FE823DA074EDA2F266A8E9B331D511B623DCD32EF9AB7A7F1D1CB4A7E6FA65C);
   (0xBC4B054916177AA9B52B29B7CB91673C09FFCE4C07D0066BE42493834467E3B9, 0x55BC64367DB68687E699CF6CF2DB9DD8C2B9A4388202FEF511ACDCE0AB06F969);
   (0xA8E8B02CFF5DE02A9E6652CC6FBE41CF6E87AE0AABB14AC5A178B3D9E697D0A1, 0x285D4AF9405B03DAC57C993E4B40DF8E082C6979F8DE57CE4543B7EF3381E0A8);
   (0xE50AA8B6D7DCC0554F406959B056DAC521A7842CFFAF09A1AC24A3D98AEF5228, 0x46656395EE84D061A9F5788ACB05975D5FFA5FAEEDCED5641F81B5CD2491C23F);
   (0xCB51689998A214C30C31E4F20692CD7DFAD6F1AAEB8AFD1FB29C23CE429C224B, 0x2292B8A45A89EB80167238EF2027F97598A2AEA90A4460C53646D08882403C63);
   (0xDED04C0674C6EB16557B5BED4B6703D2CC37C6AA0BAE466EEE7B56656693C3C9, 0x4F3EA70F8E75B02B76934CC30645D2AFEEE8E9D08D10011740E8A16CDBF01113);
   (0xF3D0A253EDB74436897E6CC6621C74E130457B41E0690B6F7B2A203E8CCF8AC8, 0x89CB07E097495BDF403490FAD58EEFE3E79FFA331DEB5CFD2C548EC08771BE67);
   (0xD4C66267AA73ED55BD68FEE32A166A4A4EC660FC4CB13E18FB6AB0FB19A5F330, 0x7C2EFA2E4509B2219758948340B6C74A8EE2B5B605FBB7947F838C47EE03E2F0);
   (0xDBE9A638F262F9A4B3A8955F22293FEB50EF4B3220DF0184F363A373D7110981, 0x4C563E835E9577565E6A899697510C679561972E5601C1CB2F2F789AC1E0B5DC);
   (0x70C7C071B1E6FD0A97B55CC5EE34297166F4D02417A796BEADCFD4396E1B338, 0xB5C49A6E2AB03E55F4755F37E5211D4BE23339D9D464FD286781BB2956DB23BB);
   (0xAABC501C6D52961AA613FE6696F0BACFFAD74FCF8386CBF8B18704BCA1392FFC, 0xCB72BA8670BC3F7C85A00D3D76B115966CFA0FC744B31E0109129DA9A5B04B77);
   (0x47F72EC6E7820788F0F7814FAEFD6E2EAF5D90F3F877677DAE72569FC6A2E8F5, 0x6709731BEF2DD880004696A6A0661D13FE5797045E0A9BC0E5FDC0AF789C5830);
   (0x20026251D9413E4247A5884C209B144C98E36F7D8EF3F56A68EFD4758A2BA8C6, 0x9C5531B694BA0D24A943D0C0094BB62375C798CAC9716181A9D659AF2ACB978C);
   (0x8DFC62939B300C9BFB617D236885F652424B4F12D04F8BF1151D1CCF935E445D, 0x9A51943318E941075472AA9D06EC339059BD3BCBBBBF6937C9290E489DA25F8F);
   (0xAFEF35203B5584956FDE0EFF5CFAB48D8FB088063C1D7CBED7E352C29D49176F, 0xA764E6E7BD0C8FA08A6F7F30AA38D7DE0FE71773FB7EA48468B3FD9A8ADFD650);
   (0x354C0A981628DFFF08BE8EDEED809DB4BC39C68639A26828FF28DD4790801C46, 0x8FF40299D607036BACD7C0AB66A102AB38F8D3A8A271E2A520B43CBB687CCE6E);
   (0xDA2E7EB11A1E66D905001EC4F7B66C1ED9F7D0BAEA3BB326672B90695CF4BEBB, 0xCBC1C7DAB9BF7E0CDEA9297C5F45AD0B9C4FB093318B55F61E4A8951726C4021);
   (0x6F780994D06626678FA741564232BAFBB3A7F54BA5B665079DF32545C192C3FB, 0x5F11F0F3AF1A763E4C9FDCB11E5E57A56DFE0D0FF27535B44343A31290E375E3);
   (0x8E28948C729C14385BD0931631ED3EB87ACFC5F42A9EB4F8AFA5036233591CEC, 0x2C09FA1CBF0044EBA78AE81FBDBD42712A89FFDCF7D476AF881D29FA2627F250);
   (0x4011CF05A85EF14F1875CF3F04F78A51A52A89BDA8930A4B8E13802DB85F319F, 0x35045B1045C4F71CC762FA785B8D4DAFAA2A1C07BA37D82DEE0592AEAD807810)];
  [(0x9089BCB71C1559BFE17F6C0B091FC098C63785FA18A42D69798B063FA0930175, 0xDE2291755E4EBF171047F79A37D81B9F9004A7CFDF7475897365E174AE367969);
   (0x4D1CAEB341F254593B06F7159E9418DFE29EE07676C26E6A51D8ADD25C70A5D1, 0xBF773E4E04151D17650AA7ED1D6A55052D62226475C50F313261AEA2CF68DC37);
   (0xB0760330517C0D662571CFAE830DA7FCA7E0D86C1CA7F75F5150F6250DB50AD2, 0xD8D10EF39C84BC1332C2CC014D4DF0FB45E5C5461849FB1B81B7FDD07484D35B);
   (0x3DB731E4273E5B202DE984C974B4112AD0FEEBE37BB0D2C70DB38C7A21BD8C67, 0xB425C1D346B6A61F2893A3AAA243D60F5563CBA240018CCA3F80925F71F4F1B1);
   (0x3A74A50DCFBF2FF25C99C4D01A13A9179F510C2D0ECA1D5A7AC8FB6907EB9795, 0xD2B468B6714681F457BC586F40585C01E1DC14A1A42CE8879CE044D9DDB92D82);
   (0xB9139AD54F44FED84917AD55C49C23C78D62AADCE83C9EBD9EFDE865CB1EB298, 0x18068856C80ABC3E2A02A441BB7A7609AAE8D2D78ABF4E2E378FA3D0A27AA900);
   (0xBCF5CF945887F183E58A01284ED9A4F9FCF918DD4E68D70C5A54EEFF166CB44C, 0x8235F63BBB06A1A6D9AD2AE847AEB2B34838C9629608943A93294C6DE21A3AB9);
   (0x4B598CE3A77680C4C5F66E901B76627A27F353019641520F53EA3894DCBBD187, 0x357AF043F77CB9FEC04CE1F4DD9B610F9151D15B3B7383E4ECC5384A8FF7C5CD);
   (0xB588AEC92DC045E9A95ABD7EDA92983728B5A7DC0D637001CE7F09171283B16E, 0xE682F53B5E94FD84914B7BED05AFC28A30AE6F53E12D948B3C0D88FDADC5D0E6);
   (0xEB8F5080218AC5C3CD792042B59E80EDE3857A75A81D67E07C2221DED3B7A677, 0xC5F272CC3734E0F406A5CF40626973AE1AA768391953F211EB52693D254A7FC3);
   (0x87D119EE65A60DD9AAC3E78422049CFB4123D262AC9E74734C9CC418FB7CE4F0, 0x5185AC7BCAEE8FF1334EEBCDF2C39E83B8B6651EF9D8F548A029C6464242DA);
   (0xCFD0438B0186D0F5C64B5F38A190BAF735B67512A439F486FB79D50190294683, 0x985EDEEA243E9C6BD9C57CB5C73722027492156FE10BD2E5067EDD148603DAF6);
   (0x52ABFB675FA8B12F01B0CF0D8E85F4024769666264C7252F69562590839CE4F8, 0x8483AB432D4851D74F432C0A8E3863B9783CFF583D4C390A9865D7F7D1AED67F);
   (0x52926DFCF12EEBD3008459D03C91DC173532F1DCE3C5D0A0874EA4C67331787, 0x18B48FE61BD74AC64B34F2D0E7DE89202C875625BCAD84BDCB3C81DCCC86DD87);
   (0x695E09DB8C4479CF4C305005B5737CA063F89D02ACED20105600D65F58E26401, 0x32123A918BB23FD879715CC7488184B753E0EB006DBBC95AEF9D815F3833C08D);
   (0x97C35716E5AAC70C45DCDD45A5CA01555962F09ACC22C16BC79EC272CE1C12D3, 0x938694646470F8E3C0DB18B62E4378E65CAA7203C4D6A079A10C8182B8EAEC3A);
   (0x35197CBB8DA9188AFC60FAF971CF08FE73372E15F857B93B6AFD77E6BF4DB7ED, 0x4E0EFEB52DB601DCA539C77714F4AEDEC5FF121D77DBDEEE7F16FB0C4CFC19AF);
   (0xAFB2F842E081823746C294B59AE8AFD2279E834F100F7D1A58A9551A98408D49, 0x5BF5AC43A3609B4FF058D6DC6AE09FEC19A198646D12096B6BD3E06D95D15AE8);
   (0xA37F611300882459B1DC633526253A8D287C9285B7862721F9BEE74AD2C4C09B, 0x9ED3252A00303C6DE01C9985C5B3EDCE1074D478DB56B961D91FDAF51B1D07CD);
   (0x4579A503CB12A345182B28F69A3FB98C4A80579B2FF592D1AB18B32D212098D8, 0x8C61C503DF79DCF26083F15BC3EE1F999E1E09608BF6AF9FB3175699CB0E32D5);
   (0x545031F7883A2C8EBD56A405527190964AA1D40DB22A1730242F3064530CE326, 0xECB024E8E762B4560F62072E5F471180BBC817E754E830EE7757ED7BDF5C9300);
   (0xB127FB32BB3E193C099D232ED50DCAD03B45C072E0D521DDDE72DAA9E20E97B4, 0xB19842812A344B92E8A8D26F7964C6682CB365266AB3E282BA561970A159F1A);
   (0x28CB3582D312CFCC75AB637D66C646F75157DC747A464E9B933C08202326B6CD, 0xA87042B8510EF9B30ECF918D916128E50F946F436F18FD5FAD62C46C5882A23C);
   (0x8A46CB327EFBEB6850E3861C4845AB121414F129FB273874560826DC9116886, 0xAB09EDA19156F1F7194B7B17FCE15268BA041C96024765CEFD964EDED1F05B3E);
   (0xB73AF91410AD56F7D490DC371A2584BB633DE0F53F00CD0F6B8A601953C7EF16, 0x3DBF4E52753E5D333FD23CC1C839F27838EACB3D5980CBA5BF1BE426B27641A4);
   (0xB38C1896427A01083F24A9172A64314CD9DC1759609711351B2DB6F7D66AB745, 0xD3A71A74F80D6919B65629F980C7757ACC49C2AA78DC67D3D6F76D0691A90D85);
   (0x6F6AC108AA819A276DAE862E276B3EBD8ED5A3AD9B0296E04F8B65A7F6A5AC1A, 0xE30485837AA2140EDE381363788D6D9525A7EE339E3A3ED12518619B030D9F71);
   (0x72F5809C7C282AB34DD8185133070D8553999A6F14FD753F2ED8DEECED7ADC5B, 0x112BF5FC8CFD71E184CA1967D05DA765801F12B4C852768F60AFA7F1E9576534);
   (0x4C34883310F7DD6FB385CE25E2D6EEF98556A59B5E79A084EC83425B37150085, 0x9C4C97E1BE47B0735209ECF15F05CD8A58ECE74C1B35A92D96A7028711D95ADD);
   (0xF16E45132291B577AB360B42C1BABCDDAC61E6230DA85819E9C4C73D463204B2, 0x5556D7D3A2D4595528781D1516B59AAD941EA3561B5C88EC94D09314555EA64B);
   (0x3580D3F7896FB70ED48D40F81B31A72B514055742C2B43690E3E7DCBACA4CA22, 0xE38DA3AFF409E4598209830587AA0EB3B233995975AF2E33501115CE648360EE);
   (0x407E63D2C0CD6D3784C27734F7E517FB4BDF78470296DC7CA8714FAB16199828, 0x2DBE5DA704B29BCCFE9ADABB69157830987AC51F389C60012577F298710025F1)];
  [(0xF61F644BE2414C0766C6CAF75D32683DEFAFB133CB4D341D7EB565E89F6E4158, 0x2848548F15A6E7D72B2EEFC11B76E31815EBB4B21E3BB938E0C2E9D45AD4F7D1);
   (0x5B891F8EC902550429A5EA833FC29C0BFDDDF6BA6F62C1987A14050A9689A9E, 0x779015391EF929856D3E3B354E4BA2DB3BAD967CDEDF331AC0BFF08EF25F2E99);
   (0xD8C5A61762655FFAC943BA353B595B4688012282AF068E52D918BBEC46BEC87B, 0x9263DB7F006F74AADF0DBDAA7E7CCD76CB3A498B44DE2BD5F9B230292EBC6009);
   (0x2E940645CD189EDD2D6CC2F4F9B49E4D305CFE8A46F2A596FBB5520089FA5B21, 0x4C197028E89EF8A5B5B6CBB103733E90408877FE07425D581F4BD063CE286FB2);
   (0x396C3BD09C6AF07D123A8441C9F79AB3A783B8F3FDD69DBABA61C7ECF65E3098, 0x534C8657AEB8CDC6EA34B372068F1C707088179746B8E335477C8525CD17AA8B);
   (0xC34E6BEB079F3E8D13557544246D2B7A82D551B740B4B59B9220BBB768796FE, 0x57806A7653FF7F9003D7CB6B3ACF68EAED049C575988FA5F03B1AB51103AEE8);
   (0x5D2D6AA5252FC9B255D89773E920891E7021F2335F7D0FF8C6BDE5EBB65C5149, 0x1FDBD2C56B8BD0952D16C3048D9C588B2A26379A017F748DF13456951C5959C4);
   (0xDEC812F5745FCBEDFC36C63576874BC596DDE8EF68A8724C201B6AF3BE7C6E2C, 0x1715328AF75F9661D58C667E5C5514D4C99DC8818CFBE702E0C3C8CF662E6906);
   (0x3249906183487250F65684B99434489D3A83EC9361531DFE48086B2EB2BD18FA, 0x53217AF12A25FC6F45555D9398FE46DF4247D38D7B162E34945F8928BFE148BA);
   (0xD3E9381D83F31116EE161490C9B5D1E57E086C6C015521602C913315AF033DDB, 0x97AE863D34271B26A4D6577A32028C120F092A548A18AE1BA83DE38403B8FB84);
   (0x1347DCA6D097FAA57C6583C1C292C6B3ED87B31E9F7AFE8FD0D151EE50EBDEB0, 0x570A9BEE4806EE3E30696C971B5D90565D09EE68B4FA8E28ACC54C07FABB492);
   (0x691F9995AF2BCCBBF556F624B28A1DA067854C154F014E92A56A8CDD9A43C25C, 0x81BABE0AE44984CBFDFA9584DC5C677881D1B0F63993075A3FC462DE986866A);
   (0xCBFB62C0B91CEDB205A9D4B3ADA43CAC7839DD183317471124688CA505F162CB, 0x77C12161E8199410B040DD574D90C39C2F1B499E6B7C17C7FB21438DAFF4E674);
   (0x5362751608DE62D62C792F64F87996AF3ED8EC88653532A8AD60942ECAE4A339, 0xD8449A0CC6AE32FF45A1165297B3D3A057E67C6442D3BDB1EA2CBCBCCF0655CC);
   (0x2A816797505601C763E6F6DF7ED5C0C14EE7FBFD75B87557BD57F3B0E2D3C7C, 0x99F26AF210540397B8423DA2C480994263734D99F0D642D896B5F216767B759E);
   (0x54B2C03B7A7EA964220A255BBB68876799FF1B83F0934E4FFD03C2BB51490E22, 0xB3CC56A9ADA9240AA373082826733090ACE3D7E391200D082CBFACFCBCDB9C08);
   (0xAAC88C8B7C96E6296F023E5E8F26032409F4E645BD7017058F38E9F3A034EB57, 0xDA03CA87B98AB6FBE48697567C2DB04B7F9948D9EA65D93FD222D52F6D48C552);
   (0xBFDD8394FB49F93D630F6B8D469DA38B105529D670B9A1ABE3196816D2A13978, 0x39A979194249F78EC336B00E475722E87CA734D43D1E97D4D2AED074ABFACBE9);
   (0x5B5DC3D866BA3647D2AAB2AC3338ABBE4D1CA08C6CC6FB264335F40D4DFB2331, 0x3432BA3146A0F15ABECA45E41DED8729E6A0A49E70315745BFCB33884E1B9E64);
   (0x77057B28A1D139A1091E05ADA8D72F3AC7BBD1987647070AB6A213557BC0C73C, 0x46F323214519AFD2F830CF7D567AACC947AE6B8F8C841ADF988E39ADE7B9757B);
   (0xF6C8D1DAE28A3D232A3889981B638B23F381618F18DC81ED67BFA6964CF1626F, 0x2AD8C92D433789418D298DC82CBF288E86D21467AC73C0E3383EF3E0A03142FE);
   (0xB75B5CC377A55310A3B97067034F1929FC0DB7323265E6DA71405F37729D5A90, 0xBE0779404DC94EA33CFF505CE1AEF457BC120359521EAE051DE1963DB1948053);
   (0xA66D54D44B4D06EAF141307E27E1C22541274EEF5C0B1743E6398B22FBAA4068, 0x51B6B8A848E1C27F107F82CDD0554643B9E16611FA93B789A2199B3E3BDCE296);
   (0x56B2F9AB707DDE3479D0EABAEB62A76CB9BF0366278EED559E027EA1EA6B3B, 0x27C47E9D646684DD2A54DB0FC245FCDD721416F722ED568B736E3E1BF195B379);
   (0xA9642A4983B19C3FF5F63EA29E76AFBFA25DD0C0221B32B706E6737336E7F5DB, 0x8ADA37669207C6B6A6B6006B5240A4D6CDB8B807C0C16A5691289B7D62B3A051);
   (0x18EEF8DF9E64C1C0548DB40AD77D92B11F3AC4360C637925F7D598D7D8D5155, 0x806DB24EEFC3A64C84DA338937811E120C6D0E69CDE79EE9957A4FEC53D0E12);
   (0xD11359FE61861A368B3809CCC727320E42905036774D0E8398453AC068D404B9, 0xD4182CE72500637C8E14B97734FCAD09F061838D57C555FA420FBD509ABF6B81);
   (0x7EA072E8F60FF2739CAD1D8FC560F208B54149A25748900B50830E3F738B2DB2, 0xAF09E54BD44FEB44B39956AFFDCA689491C7C6FDF029E71BE780F8F677A48A0F);
   (0xF53406AB09FB1317B038DC28F0165ABC115B37FA77D23BC9E51993A78A15BA00, 0xA293F4290F7FB2819CB60B530B2E6F07AFB6537A039A18BEA5AD4CFA55AEA13A);
   (0xB1674E5F9F194A1694FD12D104B64AC8BBA69432241AEFD909A1C49D23287635, 0x83CB00601F5C33BE9436D94622C3B3CE68D20733EE1E23928C3D6C14A7CDE085);
   (0x22B72E0866B96344EE53B898EA725F7AB5832C127C0881CE862EA9455EAFEE85, 0xB886E8E9CBA29B15BE5C22D6ADA99B021098BE69D1C500FE6FD2EF8BF1ECAE25);
   (0x9B7151AF0698A85D2246C88E8FFB14A0C762C2E264AB70B7E30E24349B8370B7, 0xFD9C3D8946EE9D90E7FB6D26796062EB4CB6C16076DF4834EECD2748C8A7BB4B)];
  [(0x5BA26C2D53B04B63D260C6CF392786D9041A1A7CB88331C1149CD3B99C207F5C, 0x9C7F6303BD72850E0D4DA6183427E7F300EEE07806F67CF985D483EF79C2EAB7);
   (0xF7D269446D29F81E39A44A8849F12184B9F42EEF16C5D88F60C96A28CF0C3E48, 0xE7EC965ED0A966A745087E09A058421B852C8A7C3790A3EF7ABC6CCCE17C6084);
   (0x98590B7D36BD2EF937CE788B22CAB951D921724B87C3AD838263416FB5A67DC9, 0xB711C21E5AF72A365CC1B2207ED09EBEBE91855555E9239AE9B03D75C0261D5C);
   (0x92E1CC4E5F57514E9ED135355F3E2CDA0B0B22F88F56A972A657DBA47263463D, 0x14D296BD452F2FAA7D6F42E1550FE35B3C47EB2EFE7636C62EEF90B2E7822DA8);
   (0x33DE9B1BE153BDD6EFAF9D1A30AA9B3DFAF26A324486B6AAECB1F958F11C4673, 0x7EF292234D3A565BC0F0E295DEFFA3C9A86A6BF1933A084F9334B79051EB0270);
   (0xF9FAD0B7E1DFD4B247CD2CBE0BD863E195B3BE256CF7A7075D422B9BF5631CA6, 0xFD5262F9E6CA0CEEE1C7E53183D9F3C007AC518BC024681B56C06A1D1826F5EF);
   (0x455EC5EAF34C02C6961469ED27BC7883C07C9A18663E22CA83830A66569B2B36, 0x4DBF1B57A7DE2FDD7C0380C2B38FA5D3697A59958CA0C0F76405244D00BFF4C9);
   (0x940FA05D96FB400BAC8FA39E696C53671A490D7C98B3851EF76ED35C62BAC19, 0xB6DE17B41A0459785755497F1C2A953F017554B420F2CCAA9FCFEDF35AFB9B46);
   (0x160124024DED647872374AF46DAF9C2DA90008419A7D467298B627C20420981B, 0x7C2607E0A4B86F7AD5DF737160987D2135D2CE2DBC422AB9B643D08026F84323);
   (0xCAF887E3339046FF42C629FF0C9548732C629ECF319C44BE6701A9F7C81BF842, 0xD253A6883B3D51C5A914FFB746E7AB6870C2B1AB5B7E46C17A5119E84AB6C878);
   (0x41A5B720595BFC6618406547D59EC09B4EFBA0EC5BBD31919E9256CEF40A7AFB, 0x87EE1BE52233BA8C82DC06A306FD0A1B4EE8D7D3CE89CB561DC96C19DAD79613);
   (0x8BDCBE800FE8533A174045A83CF9D89ACA438EF08F6393CF6E24D923EDB02586, 0x8D21379FC053E8DCC628F0CB83A7782CB4E946E3CA88D46736232762FC6F8FDF);
   (0x409A44826B6F0FF636178D65AEDD64CD2D28B39F3E9CD93DA0AFE712B75FCD19, 0x25A3BEC474216DAED686825B0BEE6AAC487A6D07606E5AED7C3032DFF4911EBA);
   (0xB7F414A84C0AF92764ED5B52E96DAD386995771C2CD90AF11986BDC3CBEB61C0, 0x702B0A684E93F0A626B807D88049DB6A3E65001AD75A476C0E4BE23089574E8E);
   (0x58B0CDD7BED4F327BCECD493D835C0F0E45F6FA43687D1D2F19DE2855BCB5C11, 0x21B0A4782C1D14DB9C67817D7B23DB21A96E456E62A85C3F2A02C76D78DCAD10);
   (0xC75CBF00893447BA5B3F84629D6897FF64BE841A9A6BB71454ADB8498DF03900, 0x15F68903AE20AE4B9B3FC7C4F81359360C09DE1518317DDEBCF661902DB79F72);
   (0xE6258FD4B63BE23F38361A16CF3F81CFF2D7343E515B2D0CEA0BFE386D4400A9, 0xAEDCA2129B73E49B9757CD7DA39A1E92F885B267A188521B32089AE76D351EB0);
   (0x7C61B66DD76F759F0BE927088B0751472BA10DB2EEE4F0A42EAC1AD0D2DAC3A6, 0xC2B79DE70372E1A6C9449AF2612E34A8E101CC281EF378B97CD77AABFF004AF);
   (0x29C71194BBE41F4EB2F58BF5799616C37B247283C993BCE4630929D755F7C8C4, 0xC0FB083FD68F63D30599C2DA9D0C1F03B6903545A47581FF3CAECBF4359E0235);
   (0xF1CD9835BD3EB61F820749548DA075BFF4191FFD5B1521AA1F4413F2173A68E, 0xBEAC810213B643A94658CDBC7171389439B72ABCF86446972FE6310B4FF0233F);
   (0x94F2137AAE1708553AF3DD458F8FC9D3C1BF07E435A6279825D5B93A37380144, 0xE952D6AFB27F9B2B80CCBE8959FB8B155FE1B2DBF3FFBF14CF9C1FE9B8E8209D);
   (0xF4F0CD2E28CB8A19B469B18900339124A40A39E67AE1642A3A677B9FA1A9A3C, 0x75412F045C41770D73D7CD77BCE0DA9601E6FC690CFC6CB98F691D43DCE1E548);
   (0x15BA2FDB652EA98F2B326EEE5E1629BEC8F8E7A036078D7CB8A80C8C943E98A, 0xDB416844CF757376CFCD5A9A9A318B51184F8C89FCDA3D97E735C12043D47C35);
   (0x5754903CFFA8CB6A3FFE3488E484C49869163B777C07183E8D2DA03778B8DA34, 0x508312E6C2FD0080FAC12BDAFDF8E501940A81BD05EFD385277A85CCCF125DA);
   (0x3BC76F6B8ABC155ADBBA76A19C0FEF85373BB1BC9775F4311B3CCB129C7FB29C, 0x48036702AEA467ECDAA8B80997C41C079E38C414F798BDC3A531B08BFB4AE303);
   (0x2992C410306D3D40313EF69C0A2E338388F592D4A9C2BD36EBD9F51E0883AA33, 0xCDECC5DF41CD193AECB26700BAA42486A0506372D56DE3E22FA091567B525519);
   (0xBAA7D83D6D70A528E6392ADBB2AF797C72772B92ACE96A2590D65C370B0FF1BC, 0x9943B5554E44B48028815D8BE50189D36617E9B6C8F073938309E04C9978FAD7);
   (0x935488EA4C88C2E3CDA6C0AB5B42D519E7FABE09FDD3E36A7C78C9BD730612FE, 0x705C8F8B228BE0C5539EAE131F4F4BDC2FECF6CE6CC567C4DC692AF97C1D506D);
   (0x8EDEB68DE63C35E205E36BC861445A638B0637ABD14557BCF0B0648BDB43F86A, 0xD20BD0EC14EF4F35689541306577EF85BAEEEED1C100413080687A5A94A9E9A3);
   (0x9A39617A27C2FF2D9869ACFFB22FAD1EA7D04271BE15454743234F547F21924B, 0x917BF9F3FE0563A98DAACF90DFDCD8EBE657F0233FB1571179BC5CE6E6F5DD56);
   (0x41DCB02D21137EA3A179B469199F9ED79B83192368719A4E5C727CE00D42E95D, 0x4669D53821472668327CD6B31C21B80D3394BF7FA29A43C02ED7441D866F5E1);
   (0xD4E3E3CC387E03646688A62D9390D585A69FF43E010608110431DEA8D868355E, 0x3309AF2C0B3D7CA655334F2EC53DE6AADEBF5D571618ECC29DC9830FEC46144A)];
  [(0x90EDFD061871350B7F1F029C4114190B050065B2030A4009A8A7A6F4B92AAE8, 0x872D4F075F60AE2DDCEC2F1298A22DA253D54DE4FDE85560690DDE891628DB56);
   (0x27E3CE53B4258F97A499F408ECAB24F060AABAE1DAFE992E5A34952D05E6E486, 0xD393FAD29BE684F47ECEC306332AD96975B79D29B5863D985F959C4CB8FFB442);
   (0x420F107827C75C95D5BC657BA46CBE2B415A7D42AD62CDF16C84EE8922215379, 0x8B257A28E0B15FCCAE0B555A0CDADF4ABE93BBB3A208EE4577710A9ED58DA7FA);
   (0x28859ABCB60A95E6B26C0996566BF79860C1A1942D3342F79655F28632F9D5DF, 0x2A7704265EECA5D887840CAB3923D868AA7B7B18F9D19941738CA00654CCBA6B);
   (0xC33C317B490E22662649A021E87F65963897633C90BE208A193F1D5228614059, 0xAF850BE0D18708BFD0E1F523C1A4FDA89A6C156A55F825182BD99BB9B999A358);
   (0x2333793DB961D3D6740FC7256CF9D83381B5DC9285B6D83C5C343AA85BAEA83B, 0xACCC199ACED3012FB6DB99C47A36C30AF88E7EEEB62C2ED41352B488BA0167BD);
   (0x4834AA890CAA9C25A99EE4DAE4A64C1525A5D74F9CE573ABFF44B63FC3A578AA, 0xFB189539448A265BEB87A268B71A18DBF12FE8AC0E502720C83CA156C1CC7A39);
   (0x432CC05FC78B0D56E605391FE4708BDAA1FF3EDC96A729CA0AAD3CB0300C4D4D, 0x6675D8EEECE8C078E1BAD373247CE383D4C655194A6AED20A7CA5ECA34A89C30);
   (0x874FDA6CB284CA2DA216BBDA2824938888DA396807F615AB52C8E61F0B72A1FD, 0x2D7199E2B0B88F4518E6EEB1240B2FFDA9BFCEE46F754A4A03DB7959DFE857E6);
   (0x7FE21A0F3EF67D601DE05F672B163285A5577948EE78274B19FC35CF2D2F6801, 0x62FB2ADE5E2FFFE12854203891A6EA73AABFA35B1F7FB00095190ADCDE6663F6);
   (0xCD0540E9EFE497B62BEB22270A2DA819A1AC3BED8EAE24C26E2991C0A707DD69, 0x446C32187D0C92290D65DAD21392E4A1664453864A5C1620BF768FAD20A45C06);
   (0xA533C29574E780245221857366C300016159D772F5BEDCFF28D7F7CC03051457, 0xB61A106EE0166D545E1B945AF3E4E28531A34CB856A34DD0CD21184A9555EEEE);
   (0x5E144F44ED88845AC089331CEB58811E4C164E025D1758EE51A7A522C66DEB30, 0xFF95CAB7597CF62FE1AA8DF8A2CD3844D71AB4DD4EB02A9E6175077D261E2540);
   (0x97487A4009562EE27620FC2BC5BD55AC6509D4878AB4125753884B977C5A84BE, 0xE52A2821430C5405F1143D062B69FAA16592F02CB9B8602D52C9FC370769091);
   (0x906F9AC1D3DB4690D74771B7F1940679B0DE7731A68D7D3589CAAE34C3760EEA, 0x6F2BE702275DD51E77A066B8D3C303F565CB97B8FB0DD314445D18876665A6);
   (0x4C355A31D17617F35D4066C7A125B2BF1D6F77E627B585BA2D271A29A88C81B1, 0x6A686E69237B75A1A1ECB86FB715E85835AA0686E2EF10BB38B762CA5646E9DB);
   (0x15AAC1A89B6B762957375D4EAAD87C9DE1FC261789E57D29731FE96C1380140C, 0x2968C0B22C3DD83F3286D37A639BCC143D89E75FCAC1DA567E07799A62AF1008);
   (0x4642F29B37B8711865767998D00B41B9FCA6718DBFC557851C459EFC2EA15037, 0xA1DED31C0BE33CC1425DF851998DDD111518ED13F84756C1C7CC46CF3F5E9A72);
   (0x9554ABE9E092BD2C4FF46A0ABD0B7C7FB73D85F1C01FD9683146559306EA727, 0x89E2C07DDB1FE6B09872CE9166CE9CA81124986CC7E48E09F80AA3CD70987711);
   (0x1C0977A0A773C562E36DD1558B95FFFD35B4DEAAC464011AD7B79CD26227238, 0xE04CE4C5B0B165E987DFEF97D32094EA3E86E6DC33A4C96FC947033634B0DB68);
   (0x71D4417160361C396295E5CFB1540EF21CA046B598645A230E8C9772AC21BE4F, 0x7122D5B32A654A01476A47FD3317A250ED5153604A21253F4068DC814660C55);
   (0xD906F59B4D56BC12F26D60E66FC31733E545070789025EA38A6193C8520DDBC7, 0xCD7F414BC6CC79AA4C65B943FF914234A9D85CF19853BE592A71FE1DDBB20163);
   (0x11B7DFB317DD5C236B8084D4F3CC157FC25C0E708248B472240963DD9A3FBCA7, 0xDD2C8CAA2A2D14D7FBEC267C9FE87AB28B1DDD92DD100449F75EF1DA097D4E5E);
   (0x3EF8274AFCA8FBB31894D7A2D1AD59A904951B21328B1E84ECAA6DF9CC1EF473, 0x2E4F0C04F5DA671D04A2B641046AE74927BC35B598A541903883469B3E7874DE);
   (0xA861FC27F5E6300DEC0FBF6C3315D05398F90B8402422992BDFBA11B1C1C7E34, 0x75A74585D98BCA4E35178970AFEF8488E524168A586D8DA188341714B51846B);
   (0x9537019F057D78692A35875847E885BD1594A4264412C59562EEA9BA4AB34DE8, 0x21BFD84EA66650DD79CC8C137217A35157B9C046938F20B7246362C86637D5F4);
   (0x71C80C38B1889D4F507132A187AF0C9179994B841B816C8A006D130ADF1B500F, 0x8DE1F76C100E75B501572DA6D08C76B210CDC447CF903E0E2B00E0025DEE0CE2);
   (0x2FA9CE2F59865D1017880D74D31CD4465C28FF5650F29E6B0D74A810977EF9EC, 0x6C5A207355C0DD3AB994778A6BD02B8780BA8E1A899330EECD8781B76E15CDDC);
   (0x96CA6BB4BF74C74875703386AE02DC2913329D9EA5395892DF1C6F574A84FA4A, 0xFCB510B6DCFE8DA5690F8FC94DEA8AC0E42AF20935C33347B088CC7952E98B1D);
   (0x36A066AE694F264525CBA884956EBD46AE568ACF1166496563CEE00DA32F2199, 0x5D1E975A856EBD1ACB1FE254101E89ABEA089E8AB38BBD0F1100E914709FD965);
   (0x4922879F800234C963F4B5720D2368434C4DA5C8FF741982C3D1E341841D1309, 0x9B25947024B5F4CB97C68D18F7F8DFCA1E57F7DE632087652CE1577098F35494);
   (0xEE27E2BACF95F6DDBB5EBAEBBF181BB43322A3D6DB87E7814E57A3D41B581E0, 0x3D6A18ADAF69AE488ECC9D87D6B1BF2C8D655443F4B45B4C5A0AC517B1DC3CA)]].
