(** Generated by tools/gen_lambda.py: an addition-subtraction chain for lambda * G. *)
Require Import ZArith List.
From Verif Require Import OrderCert.
Import ListNotations.
Local Open Scope Z_scope.

Definition lambda_chain : list chain_step := [
  CS OpD 0xCB35B28428101A303EB9D1235992AC63F58857C2F631EE6936D3AEBBEDDCD1B1 0xC6047F9441ED7D6D3045406E95C07CD85C778E4B8CEF3CA7ABAC09B95C709EE5 0x1AE168FEA63DC339A3C58419466CEAEEF7F632653266D0E1236431A950CFE52A (-0x3B04FBED296CC1277F1659AB9A6F3FEBA665D74E98725EE2D39E827BC28878B0) 0xA14E3460FEBE2C2316BFCCCC1B764790C3B7D9FF92663EA740240F16B583E774 (-0x3C8B95972F12B04B3CA25330B2BD449E8E938229D1FD14F76CAE42249CE0DC11);
  CS OpD 0x6AD2CB95963C033328D4857D4F8711DEFF557DD9FAAA673B400442833F0EFB64 0xE493DBF1C10D80F3581E4904930B1404CC6C13900EE0758474FA94ABE8C4CD13 0x51ED993EA0D455B75642E2098EA51448D967AE33BFBDFE40CFE97BDC47739922 (-0x1B511F0C4ACACDDB11995426B44BECF23D1A165EAC933B36C0DAE7F6C721D3035) 0x2C933E2A83BAC0C704D83956CE68E1A07920F532E04E27FF098C8C712D51733D (-0xCC0862604F39A0C08E4CE0B1D06B205A54268B6C11E626473E3A3A21A84DCFC);
  CS OpP 0x82B5A391701DB61F5678809054594A583CC8B36B2A608AD9D28E6DC6EB6B1B61 0x2F8BDE4D1A07209355B4A7250A5C5128E88B84BDDC619AB7CBA8D569B240EFE4 0xD8AC222636E5E3D6D4DBA9DDA6C9C426F788271BAB0D6840DCA87D3AA6AC62D6 (-0x368C32D2EEC6FE11C5495E598725494BC32C3F6B1793912F03D0FD6A49BF599F) 0x42BCFB006A093E6164D0E363FA4EFF42D00726A82D78428A4D45660AF9A2B66E 0x5C6E811EE18A56B82B3F723D88D4035A21EC909E5F66858960AD1E3AAAC83CD9;
  CS OpD 0x8007D5D6D043A3DC81805C43DF96E3A6B763CA01FF69A82935F10751A06D7006 0xA0434D9E47F3C86235477C7B1AE6AE5D3442D49B1943C2B752A68E2A47E247C7 0x893ABA425419BC27A3B6C7E693A24C696F794C2ED877A1593CBEE53B037368D7 0xBE3B6D67BD2BB46E8D2A3138F47D0B18C1DB1AD60652297182DB5722ED3946A8 0x4007D61434A23260E0C05196882F3B68F415B503057CEBE56CF20069D52E727B (-0x385F2AD3D6D7010C4BFD895B741412503FCB5D28FD8E4EDE412D272B79D3FA31);
  CS OpD 0xCD279959FAA1F37AC77AFA80A47FE3FE552081693944D70F6B93ACF808D8954E 0x4CE119C96E2FA357200B559B2F7DD5A5F02D5290AFF74B03F3E471B273211C97 0x12BA26DCB10EC1625DA61FA10A844C676162948271D96967450288EE9233DC3A (-0x510A158B11E5012C94DEF0D6112E450F1BF7092CB9C7186EB7C7A5547704A521) 0xA46871BA30AE6A80A1E8807A03344FB89696A15ACF7148F8E06F5DBF38086F91 0x42D2896A579020601E858B329C2107D44CF440ADF8CB5DEB17AAE240D069E6A1;
  CS OpP 0xC1B5C3B01E26BD4BC753B5F58345F0C3A41EA91955FCEF533330857B7DD09434 0x352BBF4A4CDD12564F93FA332CE333301D9AD40271F8107181340AEF25BE59D5 0x321EB4075348F534D59C18259DDA3E1F4A1B3B2E71B1039C67BD3D8BCF81998C 0x21F2B1978984FFF2A4E51BAF4A86C7FED36662C290D6A9731D27032C7C92482A 0x9293921DDA16D34C6CE6E8D1989913BE0FA5268066E6E2CEB832E618AB090D34 0x11F08E924769B3892D2267BEBDCD4313B7A9ED1DB5D35CB4603575D0B600E5FE;
  CS OpD 0xC6B702AD340E5308C5C32B9DE81188A3C3CB33E44BC614B46E1EA91FDF1FBA1E 0xFE8D1EB1BCB3432B1DB5833FF5F2226D9CB5E65CEE430558C18ED3A3C86CE1AF 0x7B158F244CD0DE2134AC7C1D371CFFBFAE4DB40801A2572E531C573CDA9B5B4 0x2CADB96142D38177188D4D006D00CC396B85C5284D5189A084577BAC0DA434EB 0x9A3F9AF8C02DBEEBE7B2D3FBB56FEF1509A312E2FD5E17D5330D1F72D7F6EAC5 (-0x9C51468035EFEFAD72988D6A188F887120752CB1B7519EFA7D6C5BE85E1C5EF4);
  CS OpD 0xA85233129B7D7C1DF47CDD6E7C99166DBF0F7891652969E7D04E8D53B1870CD8 0x87C01E27D84DA2DBD3330A7F05A58614A1ECDBABDCFCCD39E5626BAAF6812379 0x90E9991A7304206A64EF68644823BE8A420E76859E59E54E0E5EC95EE2A1ECEE (-0x2ED374EADD488A3B94C0C98A7184BEDD603DC8B1F0569AD6DEA8C31E588ACC94D) 0x6EABFD6D2E30BA990F9F180DB796E71F3A9C1B1E4F293D37782CE95394A54FE7 0x4E1CADB823BBB6F9A3EFCCF5D893391ACE1B8DBA9123896DD806E87D0DDACA72;
  CS OpD 0x4025CB90212808924E56F28F6248BC472B66D69291DBFBDF2C5504C58E0B2E58 0x328BA6C70C404497A663505914704A7B695331569D729745BAA1F1CDCBF2D359 0xC8ECC2845917B7FFA518BDC4C4E812E4287D8F897B2B1B474A6EFE1A786FCE55 (-0x8F54F968B00E0D9C715278678AB651157ECE5CA6DCDEFAB4ADB4AE32E1B8D17D) 0x1012EB5C8A1B7F96706323B83B4B6C8F9526D8364F8108D078F3508CA0E7E51B 0x1559B22E0736D431837B21FE8ACCBD3CBDF1B5E5E3C77DF1B71854DC4F625BD3;
  CS OpM 0x6BBC3686B247BA3B459BE3FC21F2F2EE4FB92EBB30513AF3EF5F70E646705E8F 0xA6CBC3046BC6A450BAC24789FA17115A4C9739ED75F8F21CE441F72E0B90E6EF 0x21AE7F4680E889BB130619E2C0F95A360CEB573C70603139862AFD617FA9B9F 0x1DF68E90D5F9473EE407754B032806C3811F29A9EFBF4BDE35722BE4448D7A21 0x2D56DFF4BA7AE91C750E5809833B9290D2A04E215199F603C5C319A21316E8CF (-0x30EC43A5147830F3004DE490873B23244C2EA32E0E50C9E67762EE812F7F77A2);
  CS OpD 0x9A0F3B70496CC2707EDCBB0FDAE75E213285BADCB0383188BE7B3527B57A0689 0x65210379A8F4D1A8D9B9103361874B36C39AA35A87E2CC1876745F9A3372A42 0x8903C32501079BD8E7FC8E69E3A735753C9F7D58D37497D474113E60A8A9C7BE (-0x1437E0A165088651F8E8FE5DBC8D99149DDBF0009E4325548AC3446F1332017DB) 0x5CB6546B1D4C67C697A9A0EE898A9FC5D440DDD57A6138A4B2BC849A3846A49F 0x6092C1F31F55DBBE90FA526573C8A6F90FF60032F8850E7B60E6C5D262EF2A48;
  CS OpD 0x6E6B6338E2ED7FE290DB3E8C8F0DB842B92ABA956F4A5730B905A57FA6E4DB55 0x4089F3ED3EA1E08D303F30A8509B3860529FBC8C544C9F66A69A66A41D969457 0x31826E5340CA993D9572FF62D3A6FB06A642B1EF0298D83CF3F0D56E4C18788 0x75BA55DBBBA0133EF1ACE4BA03D804D6AC7972333A1A93AED48BC847F7E15CE0 0x2FA07650FB06D8975DDAE25217E158942B621B73D3CA87D7561D6F7E9D25A702 (-0x191C6FC4C64FF72760229932C31BC33EF7EC4C403ED68E672E70ABBB507799F1);
  CS OpM 0xDD4828C1EC960AD31908F300C334D14D34A1200151A174DEB1BD365717AE0AB5 0xC980693E73A1CB46F5EB71B773B00389F8BCB36FFB489E7AAAE64C236AC1745D 0xBF3B808EFE6B7EFB771853E56FBBA6E8B3B21FEF00706BD4274CC058B6FAE474 0x317266C38EED7D9B8FEDB0CDEB90C0A8D3B6E804749FFFD76DA9C3F10EA8B9DA 0xBF45AAB5C60D4FEC083ACE9C72E4A5C9065508D3C2661E14119184CEFED4FAE3 (-0x76635E665C4E7277810FFD0FBA434B811F1C39C0C0E9BAFEB1420ED55002A6E6);
  CS OpD 0xB33DB04C1AA09A9A2BDC7478D03B663E17A6EEA41E3DECA6C49F1CBD3E2A412F 0xDE59219CA068A8D20FEF81561DBF7A04B36DDD1302C984FA0C024347EA9783A4 0x9406C1884B040A2137F6B6FD5AE141BE705976585B29770E27323565B2DC294B (-0xD0075181B2136A46386B5D43B38356DE077113A50B431FAC07F608581350A9AD) 0x7D7F5367EAEA03F9ED83FDF28ECF082F08B6708A333D1DF2543C695CDF1FBA2D (-0xE988EE8F90249CCC8F18A25A2AE939E6693AAAD61E07A2AF211681DE86F2FB8);
  CS OpD 0xCC98201CCE78911452D4ACD1339B9D545C85E633F7AA3E6FDE5C2DC98748C2C0 0x9B378254A97F9EE53BAEE4585B6C939A1DF0042DBC311174C060C4B21E97924A 0x696CF56334BE4B5414CE42D86F97692AF79A543907CA4D42931049602DFBD670 (-0x156C16E62128A312B6B383116C89E4A41C104283FF3F17FE80AB38C0D418E2850) 0xA382CD940F4C8D40A1506366F6FB5B2823FE871C38041BCBCBFC3DDD14860EF2 0x35A6AF4FAD3764FCB27835C7A288BF60135792020A3904A7671C7D34910D8A4B;
  CS OpD 0x8B76D344E570B69E27757DA2B2C449F7B8F44A4D9D2CE293971E9E67FDEA87D1 0xB1F3028CBD05D7DB5EB46D97504F4481B1B4371CF10D18464F42E2713A7C76F2 0xB697BD6BFCB49196743AF641F81C9FB353C700B142E8C8D0F3D2223BB3A0C0B5 (-0xA7769AA509D9768B99EE7C1A21E28D67A9AFEDE5FFA7932E61488E886C921074) 0x4BFA409443068EFA9732882662E2E1C8895C75AF1074F923AE18B522328476D5 (-0xC625BCE354EE3BA5173C1DE06A96B6D21926694D3462F13351C4CD572A9E443);
  CS OpP 0x9AEE77B14C99E9A2F2AA4B8B60359CAF24B69966D6789003F7BF706E3096A7E6 0x7C1DF3460616CB72B42F417236FC98F9E8CD05041DA47D9F566C8DF2E80CD54D 0xAD3E7E0DD602B9BE45BA8D456BC1255873153C2EC16773B9390AD6304FC41DD7 (-0x22040110BDEDDF798D7B174F1BF428C53A38E6F18D80ADAF368E3EF11CBF7651) 0x5DC3C62415C9EB4891E667B7E2B4A03A006C01280BE11690BEDE1E34972249C3 0x20945070104EECA268436B9BB4583DD87D2CE2FE462545DE24483E76123465EE;
  CS OpD 0x78400272A101ABD5A3A39C82BF3DE300B5B50D6A1E730E78DD581EA93C710F16 0x97990F039AF2736F86B5C795D3BD1797012612CB37D512D9D377AD0B2B155DC 0x23813E1D9BAF69AC3380C46B706E159416E0AE91A35A49F6C7ABE5A7EF03555C (-0x11C5DCCA71BB8220872790A18D3203D665375C97A98F6D21CB8C753DD6171B29) 0x387C124CB0480FC605AAAF82A3A9403B6CE2FB839D967E097BA5E1C9AFC99FF2 0x35D9B8496B564622B602695A8261E90021C8D6D94D0709AEA2993A65AA76D8ED;
  CS OpD 0x7ED019EDC69043A7E55B2ABC63B98ED528F1B9F43F48F9048E7519A4E525A73 0x4BB7805B411BC03FCD94B074B30577257ADD264A21149C1811576DEAD0EC611D 0x92D50649BC9C7EDF8C7E710F6AD2F797CD165E64DDA2AF540BBED302B94E4783 0x1257D6408E21656278DCCF3AFDA787964B8E3F70F035389DD26C7C5AD980008 0x3ED182B03478FAA8A4F1FBD542FEFF4313286723BC91D23FF1D19AE613916C (-0x20D054DEC7B6D0E345EE6E5C3FE162CF63724300EB74871161685645981CD8E);
  CS OpD 0xFCDB8F7002FE969A57479B71A58518A943DD6DE1D3B7B0109AB80FCDAF36AE7F 0xFB372E8B92EF9A9E3210A58E5C9B9B055C44936507BDDD3B108885C56E7B07D5 0xB2A7B2799972DE8E901DE852CF0E4FCE6C4BFFE262C436DF98F30C04651353D9 0xDEE02729B76DE0795629D3DD70A4F5354D9E78A2E8FA04BD273639A274737F11 0xF9C0FEB33FE8AC7092F37AA3ACDBC07C3B6535FCE39B8ECC8B714294E7761FAE (-0xAD583406B0194553B09DAAD3D85F25A04724A27D0226B695C418E7237BA08C9C);
  CS OpD 0xC6774B2DE7CCF9BFE6924EADF83EB4C980BF9719B09A9459C2D37992E2794234 0x77D1F4408C8116B6B05A35CC81A377E1CC90F18A4F47D83BC65994F7BFFD5DE 0x5AB1A6722054DCD7C605BBB8260631B8E1C3D7E472215CB56E6C42D7EC495211 (-0x1CE8DDA95D4393F7E4C82F863B4C20A8EC892EC462EF5946C6204389D280386ED) 0x99DCBFE1FD5280F2735C7B225AE1C41FA0C78BD65E647CBF6266AED3A69E7178 0xBCF37AE1A5FA7B5F51903CDB9127B1D1869B33C8A5FE994919C84842C4AF7B5E;
  CS OpM 0x18098CA50D67A212DA086E9B43B978904CB89F3830DCB1BA7D8510F2334A0AA7 0x46829DDBF4915269A54B3D9F2C7931726AF399E477547E97489F4668831C93F9 0xEAD81DF91D2F0092E43C1DEDF3E42D756205A59848B548C6572F1E833B11D2D6 0xABA61BE64AF1FBC21A2B23B7EA39C7387DBE3CB2B0742ECC4C000C16EE73410 0x241CABA236350C08FC42484E7621B38862B027406A98023E0FBEE765260B61E (-0x5EADDAF54849F91EAED60002C6B5DC2014EC2771EFDBAAC043ABB2ADE223CBC);
  CS OpD 0x3999BA627FEDC274D73ED89269E1E288BFE5CE23990075B1D48EE8447725F51E 0xCB85B50D490727D8D2759721FD5EDFE9048F4F6790C1EEEEDB49A5BB1D843537 0xEDF334B9CA9944D2DF91B0C3DE32597DA7144FF8485CEBB403F5F71910DBF6A 0x2F6B36B88B0D3D5D1B4455A6E0B2AD3D938A2CA398BE954416862AA972714D7B 0xCF5D1502E681296280BB38DBE97E9A4455CD56817CE9FAE6F49ED90C637A595 (-0x1DED8FDA44CA80994110B1B2B9A2FC4DE57EA33E52929EAD985D7EACCBCE55BC);
  CS OpD 0xE8007EBCF5BF84E4EEAF8C64419CC89DC4F8C0672888588D7889338B06A1C132 0x2C016B8815AE1A06A59D18C5F49DD0BCB9A37FC5C54C41E5CF2AEDDCA62777C 0x8F5C9BB8E7BA8E149897FEBBD605E51285C7CA0C5C4FE115D9978D4E6A0FD88D (-0x1CA735D375E2E7302B3A44BA1FF10069FC9533D205FAB56D5E6C04B56998A9AE5) 0xD240E5B6BC29AE4154A2DD4EDA6A1EFF1BF929F4B0DE63EC8996A8CAAD3A1946 0xB5F37AE24ABD745E409B79518117AA5558C3ADE6AE4C39A2274979CD6EFEA8A1;
  CS OpM 0x48C8865D6BAB949D0A79632A86B5C5A95D5AD44004FBAFAE0BFE58F9112E7598 0xCA3DF02253A773CEFA1600971C8AF595FE571F1FF4D58A39C6A37AE3BA5BE8B4 0xDC7C3036E4CEB68CE973D26C737B6067973A237EB5A1F62A4EAF2E45EA7D1174 0x21D4BB92AF23953EB5AEE6138CE87BF7267876B0E2A879A19749B1F3E5D4322A 0x14B168A6C50EAE7F92CBE7BEB50EB8A2838A4D63D3F6F8C940CB10126E8FDF08 (-0x38B7A82C4A3E83335DC132608A2F9D23AE5C35113AA9E9FA7581C74FE11CB38F);
  CS OpD 0x7252F527515B243825EF4477C2C091E0792C759B5A63230370C88183D750AB22 0xFE91CCB94BA62BBFDF84C6395870A84AB8DEBC17F25134A589520BE842947F4A 0xF372403CDB84042583EBFD7F3E0C1E573DA31C042F793775446A71902D90EE18 (-0x11A63E90E43AB7F2BE5242BCF46906DEE39B893E4FBC2E950BF939D99C360D520) 0x330DFD38FC6992678CB4B5585B2C94F5AD8E515C6071C4926EE4A0C55CCF6ECE (-0x175E4D342E4F1DD9326CA593B4A37561BD31511B30C70C4CC101DFF1C0D8B008);
  CS OpD 0x4B8892C65AF8130D980312EBED95AC714B6EC3F85354203926F62F1075C8A47F 0xF1C30BE3B3F08D2EDA47FD88448E8D32B7E3067870F0AE4370139CCF0BBB4BCD 0x4C19FC23A161015B54DC11683F82F796922D24011E3057F745B72FF51C5D2347 (-0x267C83DAC42EA513C1AD6A03A9AB58A49B17514AFAFD86E02B1D6D2E5A66ADA64) 0x16494EDC8034DC32034FA88F78DC368FA2572CC879F1E9AAA84457F3E223D560 0x3C767ACDB5ADCB3912650E66981D20CC2EE154F77511C20C67AD61CE247EF9C;
  CS OpM 0x3911AACCFED170C794BB19E830FEEBD9EA8658A52D6DD9717E7EAA0CCAB2094F 0x9FEE8FB639E30A1E1DF8E5C06E05C6C8CE196988585D6410E1015CC5C5EE20D9 0xE0054A3A101754543F5F404D757E08A00BC274AB870401C0FE545B0EF08005D4 (-0x1AC151359A1E4190FBAE5EA580900A6268D09605D889303A5144662A461CB165) 0xCB8DF476AA8029F1FF62925C1F510A85B3674E99E65FD918E9196AB8E18384D 0x123DF55B006F0A19EC1CCC0A05560ACE01F2206C790FC07891D1F71D5F16E59F;
  CS OpD 0xA5B24F0B27282484DB0C8546F98E40C0920328BC308BEAF1F4E9085D95B97684 0x1B5ECDE56AAA52EA03201EC0D2581F6D8801A1CC1587B6233A987741541392E4 0x4FBA815A073755F13D4ED20005DC167A4F8EBAF8E9EDBDA8908AA6E71F8C01BE (-0x9BFBB1ACFF1B50E23AF5B3B1A65053C9FFA8915701F20342FF3841844EC023D) 0x6B3F56166464158D3519253F4B31927CF23EB1C63448A7B975BDDDDB8EFDB7A6 0x55CCFCCE7C0317557A821EA5B450CF636284EB1D6F71F30D523F9766A68018DE;
  CS OpD 0x938B746ED8152A60A60787688BD3CD4DD84BF38A20F11D1879937459733E2602 0x1F4ECEC4AE7C9C9F6D48BA5897193DDBD5BC2674D816CF1EC761315F1A54E87F 0x8CBCDF82FF92AE2D5EA5FDE0B18B72E6B8F6EA1543FA74DD06259091432CACE 0x531FA5FD306B94FC251A32BFAE15C5D24EAB0337D053CBA36B1B604521FA24B8 0x550973AEF17B99789A9CAC77B057FF0C81E112677E7A149A30A9BD9252F081D3 (-0x244F59B2203F23EEF7486F3A9EF9A37A1AA5710B6B7C90BD2C50722F22987DE);
  CS OpP 0x5DA5109D1E63979DF66FE6458B6B0F2053003D510EB1B27206D067878E25DA8C 0x907121DC5D8EA11E684E82B419FA474D8ADF11EB200B6D632957C24F5462F7B1 0x9D5AE8DCD394E99B58C399C072EDBC63233EA9A0360CDD9F72CFA065480B0AED 0x2114D9E9F31C74B1117B8F1BB83420B4471322ACDA254A43C5D78094C9007FDE 0x2241588093B18CC4F3642E6342B5326DF9C66A77801E0569AF554869C1FAEDB8 (-0x29626AA6BD89DBBA7C02C3DAA9D6F562851CD493171A805CB281C55DF434A45D);
  CS OpD 0x48DBA34E7A41B157ABB4F9941541B5DC8F9151E34214B6D4365A969A7D48E0FB 0xE7E906BF2BEE8EC19999BC8966E8CFB201396ED6D6072852A194302EB5116D27 0x776C592052D597691E46723B205175F947E3A2C94C7A315D311A9EB8B2D138DD (-0x9AED42FB97C088A49C8F508FF9438FF2020E3B2E7D41EF165120821292FED7AB) 0x14BC484CF53727E51ED5F7FE8074074624822C081DC51B925AFA079F4AEB8B70 (-0x18E4C3BCBF1B4285339C46909936B0FCE9D37FE195E59A0D0CEBF1B5BDF2EE44);
  CS OpD 0xDE6124D7D133EF68D76357F8007FFB82D1F80403DB0E280F03C5AD399FCDD31A 0xD0562473DBF809D16143E011BCE9962764773B09DFCA31D5E386AC70E22563FB 0x5370E67CEEC7EAF264A279CE67050DCBCA2362A845C8F54C893FA06F7F59EA6B (-0x1A6C88DCF6DF4A5FA5E653BEAF3C7FB86A17EFD922D1AF3EF712DBB7B8C87FF41) 0xC12CA0C33FB0055CEE8AFBFAF7C4D03B84D4401D14037C0C21F7867346487795 0x147A524995536B3DDCAA2C3C7281E26F0D99A3AE6D18E294A9C0E437FF9F27D0;
  CS OpP 0x4412936A2A0D2AB33FC6B0AF148FBEA8E1ACD5EB2AEA85839503E250593289BA 0xBF9C9C308B1AAB21725EF4A2A6104F0AAE551D7D5DF1C8107AF3C275B6C6A5B 0x8780E64E46B91C971FFD075DC81F123FCAE66792F9EF0CD98D9E38171661705C (-0x170696FD7268C538FC3E6240CAD07A14388775EC2CA979CBDF2FC648E94968B5) 0x1219DFA9762800DB33F0102D093F9EB179E292E50C57481D8FB823CBEF3522AA 0x3436C7A7CF1FE31225A95854812EF4E52DEC8AF32521A74B64BDB1C0A80BA8D7;
  CS OpD 0xE2839ABC289108117815D93A3E9AD4CEE795E76D8FB041E957D30B4F93B39BDA 0x877DB362A1DF9C431617CAC9E4180B38DB5271AD0E994D5C734A1C6CE5992911 0x356B8DB9EFBB73A174CC70C4AC3DD3BD598D60101440BD542F25089C5562A67C 0xEE1CA72990D764F0C887FCEA82A8E5C828BF23E5AF3F64A2A4DC58EFB616986B 0xC86CA0DBF1B881C7330DFCB96B2888662871779C79A196F0E2BE94CA26800DB3 (-0x6D49F36794E21B3B8FA76AADC78C5F37E432395FE51171DD49E9F37B6CBB746C);
  CS OpD 0x1AC57F0DAE9E7ABE32A74B3DA67E9DE8D20F9EBDD96BA1AC12566610C8812A93 0x563179B960C69D70D63BC3A99A8E85F4ED80CA89B92056CC516CEF3E56C8F2E2 0x7A07B1ECFD3E7F2E3228E7DE9D39E35E7B1515997B0BD61444BB78252D568259 (-0xCBF52D67C6F4BB447F6E0BBA35DB2B9C41AD1BA144D221676AB14486803B42F5) 0x2CCB62B919584D3FC00EF4BBED48CC639055E38466BABA74B3E7AE12CADA8AB 0x527C5FB02F5DAE0BB7A7524706CB464D8C7171E5C634A2B1E407AA2BBF52658;
  CS OpP 0x957C496E7B1BE5DEB1D8C2AE35A0FE7705C82A4AB17D21EEC140A7F9CE84DB60 0xB34C513CE3ECB784CDA28ADC92623222175C3A5F47A709CE2AAC4446B18A0065 0x83185283A4E1A88F70613F232DC9E8751F07BACA4427B68FF2CA04E7529BA978 0x14C2484438FAB16A42309EED962658FA9CB9FFE5997B56210994F14FC4438CEF 0x5749E9D1D365EE7FDB08FB5822C7FF2C2B95F60A226E032878E1611556A41BAF (-0x365DD324C4CBD98564199E3863F292602D5F8931357365E7303604DC3A272FDF);
  CS OpD 0xFA12677D753FC9DBF71A91CF8BC7D0131E69402A7C84DF79C8A0D267D97778EF 0xF83A346007E44A1AE9C083C610D3481623EE190B99F62A912F80D16FAF16EC30 0xCE87BA6E1C449ED37C628B766E8C54EC424E64E5B3A2892262CC774CEDC1888F (-0x789D167FAD3BDB6573E221FA9F5F2972F662FFF1BB3B8A066D6BD29B60233875) 0xF447F373C07B450F0BFC249498C6610BCD838887A659D07C63DDD2510F428389 (-0x43554467C7B53DE40856CB96BD44BD89C5A2A5AA686C8AFAFA4AA9F55DE22D34);
  CS OpD 0x2A0A989CD53F4480BE854594926687FC04CBAE4DA876C8D9FFA2BD16C3F56552 0x16FFC46686C4F567B4429FCA5A1E8C11F9F528DB2D23265C3B7089AA42B7CF4F 0x8D37D47B019283C040E3EDF372BCF6964961F048F6616A9BD928EF8DCE9C649 (-0x28E3CD61C93CC7BF296FAD3D261FC2A38F9A5144DDB8DAD08A37CA2ECF3F53FDC) 0x6E77A83BD3408BB50A95405AB6E80E4DA797DB5E5F5B247DF96B06218CAC47B 0x24FCE8EBFCA3D8A4F0937E3432E2E33AF4E070733D19418169A5E8C0554C1CE6;
  CS OpM 0x45C175212AA4556CA1EE9CE351F6F5A94E01DC58F0254FE58080258C18C86C35 0x93E5A3A5B61F7CEC1696D9FD5D758D94CE2699E033C41D3E3F4DBEB18638C68A 0x80DCCFC63565575CF845F58EF0D503891FA0C6FD58970D1560EFD1734FA887E 0x1AE80096B68EE8C8BA29E9C2FEB85ED32D653C90FC7C3DC2EE1616CEC64BC641 0x1301DB55B296371B98A471E628B00927A1A4178979637109EF23B841EB7AB8F8 (-0x2208579E93DDA52109442373A3545CC436C05BBC049AB3F33B08D76FB8B1A862);
  CS OpD 0x1FABFAD4DA18AAA24264B27BAB3357C7FB85DB639D8F80EAC0EB1A4C045CDFE1 0x9DCE970BE8D62A4F0EC8096D38813279FE26D7EAE01269844550B34D68C9FDD3 0xAF6ACBFBF68A5A7A4F7B2A562455FF460CA05488017D14337BBEA99754999511 (-0xFE566DEE28882C7452B7AD4EA4D5337B2EB387D2C03F267937D8BE624B6CA950) 0x3EB1A489AF1C13960C6A127D14A26EF750A2D18DA3370C0477235121D47FC46 (-0x139DDC9B074B0E4042623B6EB74578D60F79BB77572E77AE1097093A33269C8);
  CS OpD 0x8F369EA6C08FCA2AD840CC87BC4F3930A5A0B4CD09BD07CA3805889300D8E34F 0xD12DFD646B7FCDC60A4004C8653D7A01EDB06EECC5AAF5800017E02382D83F8D 0xA052B9F3B0C31E45DC86E8E0B6D02A9B81E105554E6677478C2B51C98EDF64FC (-0x5F90F9963DB5FE803838C4CCEF435CE45247CEB921375EA6D55CE426D402D653) 0x501E10E59BCC22D4F08AB25A1E0B2F6C83B792E0250EF2ABC56F2B1431C62A32 (-0x1CBD40215F53B7BFCBB2D74C6E104917E109B29A49894F86070AE47480E8EAFD);
  CS OpP 0x694FC0607197AFC820FAB872FEE90ECAD988A903D549FEDD303C784B6B782FCB 0x87BEFE608483B74DA4D5DF7355457AF8644E6D97D6919B523BEE38346FA7CBCC 0x8B5D231DDB33BAD07BC79273BA45BFD5D8BA42AB92EC7B36CFD3E3A47BEE9D59 (-0x23F802084E3AAF7AF6D59AD70F1599D3D1F171A2A9434F13602F5DA2113A666D) 0x2B5284A769455889946950AC80B2CEBBBD7F4146944A354FDA87AE313CA8CE78 0x1E3567083569BD2B6CE5C404853666853B8E8184929845CD59D2030F12DDD92A;
  CS OpD 0xBF622D01DB601DA0BA2774A3B063BDA4387BBA9230B69EA752CB16E349749DF0 0xD6AF6AC7E1233F8712A595A3F3BABDA8F8FFB7FB2DCB880C9B5D9733417AAAB3 0xDAD71162007BDC421BEFD7FE2734091E16026A639CE434AA63E0FDF8139B15F1 (-0x7911DA2EB8214B77BC87F846C1B0592C39473296FC6CC037E40CFEC6C3EDA30) 0x8F13A4CF42AF08EFC1FDB9BC1C5144E0632245AFD1F46563514C70FC2ED5C65B (-0x3B03A6CB7350636C456D27C829ECD8D071EC029A94C87E3B55524995C5F83E46);
  CS OpD 0xB9D3FFC1119C1412ABDD7A44FD0010B7CF5B5D0E56C007E7748C0B7F25F145F9 0xE008432C375AFD249EB40429AA56DA4E334399BE1AD2FADB24188CB7ABA891CE 0xC3369C253EABE2CC2691D9E601B1653A7A21788B463DFC3F65AE2F76DB80C28C (-0xDE67F1432B5FF0B9248A830A3082212E820AC9420D6ED6CEEAFC3A8DEAEE70A7) 0x86E41734A338CEFC91B6FA2C9412BEB23B6935D5A9D8148D8A0B61B2EE056A93 (-0x6C8F1F1692D06BCCF427A1ACD5A8D36355155BD6CD2914CB80E94A0DB4DB340);
  CS OpM 0x28D5C2C2930136D78511385D965A8B702BED42B28C00C02A83469BCA752C643F 0x5E556ACA62E1B707E99A114F5340A29AA5CB71EC6FDC39902D44B7DB274ADD98 0xD25234A79C5316395D2901547E88737C33FB8EAD659F0A2E379DBBFAE638E8AB (-0x1050F3C165B14E14948781BD9B99F7FA8086562122820905CBAAD55CA14F6CDB) 0x6837F5A79E47BD99598F995CE80366A2A3ACD7164DA64671CA27E3435A407ED 0x14B03E496E9528BEACDE18189914C34FBEB0EACFECB17390D11F345892B7275D;
  CS OpD 0x3D05771540EDF5365BF27CC0170F3BC81D21366216762D12EB18530F57F9B621 0x1426ECFCF702D6A981B7A31B087D95A947D4994A4D4F35DF3A56A6924A08DE5C 0xA648D5FB6B3350735B6223C21AB2ED122F6870D436634C3464093BE6317B422B (-0x4045CCCDE82AE725A5AB7595C8B4A3EE5C93DC77817DA5CCE62E6994B9ECF76) 0xE8B9ADDFF2AB4486D6BC31E0FC1CAEDBB13B8C6D0D72DB692E9156AD38CEE5B 0x11AEA9642CD2995B652AC786E2C4628E52F1BD386C4630A41202C7915CC242FA;
  CS OpD 0x16D3EA6D794F9750CB4ADFA9D8D86F9A0AB6AE54C92B67334D06CFB6DC883F68 0x7532FBCFA5585AAB2426859BFBC22EE4F4C667AB8E54A9B55B8D7CDFB0397E2 0x90E6CDAC6CBCB4E2AEAF28C7970C01A3C5882EE705E01A2A9471C4CCE55E8332 0x18E5808B1A6E28F81E4C37207A5D9E3D0B371BFA916A43816FDF8439A0369240 0x2091BB717FBF7CB5A02E018FF6047FB64001F85D23D444D73AD8F8921E68D3A 0x124D08782AC4A643FD5E5148C2AF7A558505D57ABAD2DABD73B731A81CF253D;
  CS OpD 0xEAB8BEF4CBE2C89A5BC41A80551BC1F6D8FDCCF2D29E6F30BACA181124D243C5 0x84BE99578F5D3285DC81A8E9CF5B6777C68C90E64DB2F012C8C25C7A99D11DE3 0x555BC8FF075C7A65866DFA27F5926593F9AC96A68EAC6136CC0E9770F7B63941 0x109161D059D524043A57CB9161F26003AD860B428DD3F8DA8223A22803CE93818 0xD736426A930FF5747A1B63DA547EAE30CC29C33A725299BF8AA3A30ECCE100AE (-0x72FEB148D9F8CB4EA877CCBFEB208512FEAAF541FB83C45F9EF09820A44F9F48);
  CS OpD 0x60C04F935DE0A986471E6D55DD4511BC24FA5CD6EDE935003478CC1FCBDE09FD 0xF8E0BDD743F8768BD6EBA47B343A287701759413B01C6B34EBDB374ABC8C985B 0xE97686026E4D20B97DB2C303E19F4D66385EDB6A5CF56556D5C90DC7222158B3 (-0x8DFA3EA120DEF19C8CF61B3AC96E43D8CB69456E3C44342F1B57A41B8D543F6F) 0x2490CC25FC3198E899D2101386176518E136DA1F730D09DABAAEE883009F0C98 (-0x2BE40B64A6F65E0FAA1E93E69C0D33BD82AB3E2477CC4A9DCA21DC953517B734);
  CS OpD 0x997EC3B278AF3C5FFB9A1600B2E7893B8C9135E3F960EF3B9CC757A7D7DE65CE 0x79902C61358A707D8E27AED8323CC4056A3E0F911CD3D1F4AA2B392B10C51049 0xC19421EF0F22BF06844C7B11ABA1618D632547E21C4390569443D5F0187251D8 (-0x1BDE5BD8EA43A275A944C21CBB79FED7A3BB6A272B29C963B4E053F347943BBB9) 0x5C08C4B08D89A2F12BC8C94EB3AC1AB1745155CADB7311E12DBFB0710FAB214B 0x4C5631EA4791D722C037BBE2AF8A718327F91A52C479B5DEB6B79AD637548FDF;
  CS OpD 0xF126F851745436F58B0B28E6D22027C325F641FFC3C7EFFCD6A1D019C61F2B6B 0x9E711CC4245E9E2401CFD216C932AE8E70A260BFD1B2235AB373181D065C250D 0xAC931C5A13C5C499927EC33E7421DD7C04C5DE709956E1614678807B1DFE2E75 0xBF8705F6D1E22F774AA2600ACA6C1920CA07CFDDD5F48FBFAB29F691AA865D73 0xE32A6578061303C89D533C9CFB67E428AAD602E8339A5111D7CFE92CF4C21006 (-0x22BD5F76765327CA1DA3534ACD50B052891597AB0BA2D51726BCE81993B12E17);
  CS OpD 0x2602E44FD7111273512C66786CEE98F4A2D9FA1E42CBDB0011A582748957DE47 0x141030AF6245D3E36871145160228408FAF8EA9DE6699A8FFF760656337A9FC2 0xC61477D706FCD567BC34F70DF08167226C32AC302ACD66E7ED88920B3E2B6377 (-0xF2EFE1ECB150189B0515FEC9A3C4FD09CA2B909390278C83F664832B0D3BBBFB) 0x5A4DBD010B6BDBB5FFAED01B12410DF68E2C763E99C09E29F73660EEA5D013B 0x148BF33667652A2B677518A9F833C01B0037078F6ABBB0109E8BF3A755A600EF;
  CS OpP 0xD196D26F504C94FC139E2255ED5B2531E557546D19FFD88EA40E71D6996FBD9 0xBBBA6E770AA7CBE966665BE859CDFBC1A4E3615D620F09EFF88811AF5889148B 0x1164689A94CD153521F237E7E8D3EAB9DDB0C3BB0DFF1C3757B7EBE9C418A1EC 0x533F219720F780B90D53CDAC52E506AAEAE147062CE36BD0B9D5B01F7106AEB 0xAB979C750889F5268F75E82F565AA3B7FCE72B7A57DD8CA0CADF4178EEAFB4 (-0x8944C402C18A9202D7D18EB5413F58FC92BFA2E05CE59838F7C2152EFE5107C);
  CS OpD 0x7E30518EC5BBAFDA39E0E1ED64F76E8A9626E161B5759068707E7E3A786327D6 0xBA2DE1B33C852E86F1067AFC235549466D800385CB7D890ABB3982EBA2C2822A 0xB114D3E0551CE21C92FDF7028990F9E32759BBA1301CFFEF9F91FAF07B5E9FE (-0x18BD847BF85BFD7B86E4DFD7ED3115E20202986BD3A75455A257FA3B9AB690415) 0x3E3399673A2A903D7D08A7B32B8D0A43F9687D52C6E89C4F65BF13B486A5A19C 0xC3782119DE03D72A263D2C8A6EDAFA81E943955712DFAD040F09A74336C394;
  CS OpD 0x8A0073EFE4FC1CD39A1D991CC3D0DD91633C96EA778EE128EEF0D9FAB92E97B2 0xF5F32292AC583C9A8D4AEC95EA0AA71E3B0AFF9C45C0A41C8DE13B42BCB16CAA 0xC8C20C75BCFD2926476B6E74418A650403E4BE65BE9534D195DECA4EACD745EA (-0x18A456B47949751F43EE40AF6946CCBCE6DA57AEB51FD05A7F7567A78209B52CC) 0x4A647CFED761379BFF9DE4450C4C062296898516D511E09F88CA4CCE6064B61A (-0x2038700A110A40199DCC5F8C78AAB74847CEE0C4DAFBBAB6D266976D4ECACF98);
  CS OpM 0x7ADAAF81DA56A92E1EDF29FB5C9C2DEA685F1B30DDDF7C7DAFD0D6269D24CCEB 0x9FB251D30A6637D54B145F277C009FFA54D1FA8523C264CAC93159F90E2AB659 0xC0EFE30DBC3398A1F0B261036D1D51483F78410B364EC16F7767A2685401DC55 (-0x3B9B3BB098E80981D3F9DF13830B59468BB8CDC9F0C18DE3CF95C665E6CD8C5D) 0x3AF52A1725953F3858D48C3FF40B4C348AD766F2BE3B9F733D2BA4F36798AF42 0x296491CF2549D32CC1E2EE4B8A07B9EC36EB0D557DD9C35BF4986727FB0E48A4;
  CS OpD 0x9821DA200B5EAE2CCD8FFB004FA433616538A6673E8EC38FE873DBF6A96867FC 0x6D5B4E6072ACA3FE1ED5E7320D5F8C496C0EA7A8116C3502A53D418589AF8268 0x6378EF0698710980A3C0A29EFA8ABE9DC52FFE04263F2842B4B1D8029CB89616 (-0x458D154C6ACEB77222BC2F4B43185B5035F78EF182959B3A132557DC499B0E75) 0x5A683780039DF49E34791877E93511A5DAB34D4ADAFBEC467138CE714AC012EA 0x1DEA5227E1E81D93F46AA9E3B9205736216CD8ADC06FD02F9E3A02CE141CFDFF;
  CS OpD 0xB108E84C3D97B5A9260C1299EA0AA7DF4FFA194CA7D176B4B17E99169819BE13 0xAA287E7644FF1216A421F9DC5919B2CECC54EB37B4F3F5FB479DE4317A3A2A25 0xB69213E9E283C76539A2E4DADC2ACDBB0C6AEA9EF631C18C6611876305DEAD22 (-0x2907D5056891FA3BEA1176FB2E9694E4CB56CFCF1A627793063CEFD18EBFD44) 0x7A6D5188C4B9E906DB572A58E2B8A30F30263AFE59782A3D53A30741BC37BFCC (-0x2A0BFBD4A6388A6958A6DD8039812A42FBF51D59977C40A176CC4856FDE7ACF1);
  CS OpD 0x70749DB6F053D37AD8D93C9FFFF3DCFA953A83391C48B43DF9EC28C4FC30F89C 0xF2280837A847F90302B8C12FA66B63CE376234936DD644EAB8D9C2606F583B18 0x3C7C3B2CC6F2D7DD217E3A8E9C9435527690DD001E168219397CA9D87CD2AD37 (-0xB2E74453B81FA6E301FC581FAA3C308A7A29B041CEFFBA06AE8EDFD84DA25155) 0x31663F1F613D0A848F45428AE12774BF61CA0CB7C32CE09D9080B8E88415F9B2 (-0x1FA0986A31CF8FE97A063E972E1424667DC6178BD242965CA42D1CE595C72423);
  CS OpM 0xB7CA41636BB5B9628C1AC760D544965335EF68B18327F4E9DEB93C6C1F4EF1A0 0x996C4980A7F0F967E2CBC8932DF2779155FD5BAF0D0BD8E1C281DCC2374019A3 0x797C1A55BF66FE1F81C3B27AF997FD237D6ECFCB6BE413C23AB95B484F40D3C1 (-0x5672A4B635FB58A642DB9B79B0F4A297085FB0581F81482E62CD51E8D1BAA9C0) 0x83F2C94765976D2237D63AA518661551205CBB23DAB9015D2AC0355384CF86E3 0x3FB450236F0122EEF68DA2EB0CBD4F772F0061F6EE07F97A5E356EEB1F9DB358;
  CS OpD 0x22775A4E7FD0DFB1A931C12314BFEECD9BF164306EEF3D7A700E2E0E4B60676F 0xC47BC599E49C6449E45928BB064FD7D733304945CBDA2BB8E6F1F0CA9FDAD768 0xC9039C7558AD6E5F9FE4617A66C2A94F0737487EE6150F808A930EDB344CE6F2 (-0xF3219AE8A1301570DDDFE88B997C2763ACED087184C3F30819FCB4233580F593) 0x4A3EBA1EEC9998C287EA7278047F060F6244221B8DC66CB82905613B91053FD (-0x5CC21DEAFA277AB2BF03ADE6235B68EA03DE4F6BC92F834B827391277385E42);
  CS OpD 0xCAF5A026431B756423B3A721EF7277A12F58BFE19AF1076CFA99B8340862829A 0xB8B76F702026AACD8EEE92D3BB0A59B0407E7FFAED82F2642FCDD6DC6F1F106F 0xF23222FAD872613CB31C8D0A9C0BE6198B255AD62693182D0EFA3C16863206E8 (-0x85ADD7EE1ED087C98C6CA55C5A6939CBF93331A862C7D1CBAC14C1EB9FC16FE8) 0xA0E88C684F53A16B0A7F425F02B94074A95A4FA4082497C47A3C339995D40EAB 0x954363FE31273AAB75477F082133E1858AF729F99070C3D5808FAFACDB7FD10;
  CS OpD 0x33B618EF278261BB1D0CD376B6FA01F3600B02C7445F3FAC9168207618F2247A 0x580B749AB56298618744596B2EC39EF7ED8EC305495D7C6359F12FA19D221421 0xDB65419849FAFC57B618EB4A5A2F7797816E9AD8669F5B38DCF3683F1100E7E7 (-0x12E00127D794044920F1B98C23C71609FE937A15D8358AFBE7FA061C179CAA92D) 0xA720F76C037D726C17EF77F097FA07662190A5B0E149A9DA58BEECF8C9C0AEB 0x138706A746FD95C5636331155D03D7E769F74B7E04E685E99FAF6E9BDB9C4733;
  CS OpD 0xD86708F1038F5179A53F9A80B7A02405898BBDEB7CACD16E1A12CB748B22CB86 0x9A9CB6881BAC15F0BFAF8E4A9737F0915C68EB5710CFC4F46ACAAF01801BF21A 0xB51A4E04E50A112973E0CC74547904E21BCE44FDE7F43A98AEAA65B6E717BBCF 0x11813D7766EE84A20CAB2EDC4063E375C308398C361C2D7A9C5822FA27837CCBF 0xB6EE088EE842A9F17FB9FB699E8F408793001E8E8BC0AD63B094A52ACE9CF2B8 (-0x38455A650A8D9D4B26A144D8BD1C26CE55FDCC882958BA2C67CACCD530D7EAB4);
  CS OpP 0xA1316E8521D4D3BC9D345AEB0224A183D9F0F44EC3AE808EB41CC856C6E45519 0x4F26FEE5DB2CE50E25BEE98ACF1FBAE85FD954C3B3D602B58FD3841FF7D1D360 0xDB01B75CC1F02206ADE9B8A82FB006150872BAE38C35B28F558EEE304D9855DE (-0x14B22913AE3E5D55DFA43A582C8FAB9A67E21755887374587FC62FF502408255) 0x657F368EF33B541B5D82B100BD3DA778208ED310779B7BBA4439091C3086B3D1 0x2F839A9903A75DAAA31797D1E15220D6439C4A2A453AF48D7903EBF9435B5713;
  CS OpD 0xA1C9CADA55B5F3D55F73608CB02FEAAA02F8B20547C6AEE1337EE24A16B6712E 0x56C8EA0378E7A9FAB7870E6B12B66F974384839EADD9C77FB77F24D13E31315B 0x2FB0DBC70F5A266EF217E1524B8108376F581403E328CC98BD53FFD5653C438C 0xCB6626A14C9A9B494C26F039EF8ABF67D81160BD2552FFF7A804574F2668B6B8 0x663F7036CB66BDE4828159E59CC1C260FD76FC86E8426B561C52BC31BECB6F27 (-0x4D2D90B806912FC35E97D7BE2EABBEB48B111E61F8DB53EEA92766E8C3AFBBC);
  CS OpD 0x9D775309F99A4581C46804A62A5DAE398E4580AA200FA2E05F064F567596F26B 0x82301B793C0016A116D6A14C9BA93770DF366739B896A85F55FA4E373A2EC190 0x51FA35BE8619684D34C6C47B0A8B7E6964C65085526A6177417103C64914B6DE (-0x1D976DCB8FE1D4A6246247DAE02F7B298A63E20F47A2B46F1EF44D1C8C18646D) 0x60DB93788A5CBEEB52D4AF1187D839CABBEE000C5A1CD1C134E208FECA4406FD (-0x1AB284615C5F1D596D1B4AB1DBB4D8AAAD220823A6A1C7F3C4BE1765AC4DA53F);
  CS OpM 0x469D31D8D1CC944AA3706F91AEE9E3C21FA6FD03C044171DD51AE6B605141976 0x3204A7265BD1E9604D9DDD6156EBD1CE284F276E4F299848EEBD95ED2EEB2896 0xB1D39A3CD38D0968AEFAF8196DE79FB073ABD923731B11E645A31CBD5D9D7EB2 (-0x25446DD5610689F017B969356CC8F4CB3A3B29D3372C9A44B01705E9FFC9667) 0x137A57C8C061EDF9BADC730FE882F256CF6CC97692DD3F74DC0636CB0C8D423A 0x161D1C1137C1AA904F6F44E1B4B797F3D45DDF9C449D7C303671EC63196C3C14;
  CS OpD 0x74241D77BD56E27BDF10549B656AFA2A997F639398D425720D273E40C3C753CE 0x736842B588D1B04798F3376A25762DE63373ACA4A8D05BA98045995740EBEE98 0x691017376EE2A72F74E58D41F02B87093DD72347F4B8DA38C488FBE4AAB313EC 0x84087C18E4EDD56EC8E0ABCFA608CB04BDF51B98B84C92F02173BF52FCF612F4 0x34B0BFCCD0A85697371D90DF8EEE43EEBAD2128C10D97E1CF567BBC9521E2600 (-0x1DAA5C059ECF7CE83492F57B28E912ACF4D28D22671CDA8DE912F020D860C4E6);
  CS OpD 0x5FC2E81D9801375862E1276F76D302F32A5DCA781B5A9040FFC54CEDE95F186E 0x16E6037FF9E52B05945DA0AFF943DB421A476FFF1CD1CE92C7F70B00E1CDDA0E 0xB95DCCDD1235C9B1E24B76A440998C0D3EF761AD76FCB0C650F38E5C3FE7E48 (-0x4D7A970C509ADFCF46FCF5CFDD9EFD91D482101DF147DB51AFB439B5F754C310) 0x23D23CAA9620EFD97A31277D6DB0E837DF0CE55C6E180992C42347161B4128DA 0x229AC40981978D51FD715C033CC4CD250C280FDC512F1DECEBC675091A56A268;
  CS OpD 0x223BD37A4A4E8273F96E081C779F66E87AE79908685301B6A3E855B9BF812AB0 0xE62BE9A45D659018D84B8144B47144F68A7F6657B1F1AF17340F454BF7287945 0x69871A3791E6A07B5401CB9D1AD5D6C956EF114608996780D4E56D0A5651F7E8 (-0x30BCCEE4CE6BC70D5E0EC7BAD510420A7948CE384DB798041EB19D062C99E74) 0x493F227A4CDEBBF43273213387DBCBD29FFF65A8477E3D05AAC55671B00DB91 (-0x1BB7B8E67FC36CD02207AA7BBA38EE7DB08A8E3E560DDCE0B98BB36124B4AE00);
  CS OpD 0xD0EAA9B1F903FDB16EEFEA56E591BA5969A7E6733B5820C97A4B28C2D304FF98 0x2FD7303372526CDA9C306A6D7C083A2AADBEC5F05E2026821719E62DCAD7F75E 0xFC0414DCCB2C7D3A7C373CEB40C963D4C2BB8AF3FD8B8878961D28C157EC2AF8 (-0x1C09BCC95A96A368F18841C26E404A1933A9C2661F7C20A95C6F5CB24667FB8A5) 0xAA7E2ADBDE7E2E0DAB5682CCDE70C43B285774A2310EE03788389550EAD27728 0x94CBF8F9F0916E700E0CDC9B8E857C352D67403416760D6581547A529331A338;
  CS OpP 0x6EEE16729281749700D8EBA7E9E6DF7452A30D385A9F262A6316E0CF5FC4AE07 0xA3FA409767448FADF691C6CDDDAFBDF2893F009D9D1597D8E4A9832E06D06491 0x826BA110580985C33E079FBC4E90ACBF60B543170BFF56AE4767305E1F99AF81 0x200614C3E06157DD6E9BAEC8B5C72F6A0A420414480867E187986FB200EC560A 0x301178B834E78D5B9CADB2EF752B884F0ED0BDC230C96F2A423B54A609A29D76 (-0x325313D32DAA618BBCB46C6962E15730AE3E126C4B3A9643660605B6469E5F82);
  CS OpD 0xD79FE9BC46A0BBAE0D354F453FF7CEACD3242D4357D9453BEB24DB0E85A90C38 0x1CBBDA5BBDCD6B2391F7CCC3AFE07EDB2ECECE3579D348D31B7072DAE6592144 0x436ADD03FE48404E72E0674941E4BD42D25652048C9048076CCD63C61AAA7CA8 (-0x5F663045C920DD8AAC94C413EB3077320D8F17A0B50C99E0C111054DFDDF257D) 0xB59DFE7E6BE9F9EFE196BA9B8C7196BEDC040EAC1AC1C030123261C3138E2346 0x71E9E318DC90ABD88DE47C9BCC3DAC7AD96BF0E9B27335784BD53324B0A1FB81;
  CS OpD 0xB41DB7B7D1E5CDE67C9FC4D08840ACA7798FEE1DAC3B25BC4269D3C7028F7569 0x3BFF4F0213A085D5032BFD52CA2A0EC7B9E7E51596AD1FA7B009EB7AEDDB1CC3 0xD3B1B2BAB2C2401AA77A2F5ACEB37C40416D0786EDCB9170AD040F6D483E3DB0 0x553108F0E068A18A45224E7DFBD0DB64CAF92BE01D2B4F310DC46AB164332E60 0x7EB9CDCDA2A909B1147DD726CA1A1EB08CB6619C164FE324ECA34A04E101271A (-0x15FF0F18D66D94A85AC7C00E618A13D6F4B7372D366762BD8245898224DAC3C1);
  CS OpD 0x335CC4BDF2ABD2805D5C2FCA3F91B026D47F3E9C5B98F53CAF3E43B949A10630 0x45248D6F20C8FDA09DC883ABE9A4AF52D924BB4F557D10ECAB5B2A1DAB994E2F 0xC503AF777C946D0F793B7F99F1998F2290EBFA742A64D4AD59729501CCF8249B 0x2AC33334BE1DAD2B1A47112A4DEA22F6F5EAE4F6D343D90802B29CAB630217AB 0xA4E1801AE6A49E5C38883198713DBE9FC711140916C646D1F84F22C58A979A5 (-0x1D5BBD975C5B7673C039C126678666A3FBBFD5F399F6B91697B3BB9E5895065);
  CS OpM 0x12872C47DC34BD3C4134642928A89F0D6CD7C4CF8B26FB0FC6C598909E972024 0x84008676EB24C7C536E7304866CA06328EC4B54A1D29BEA00913DAFF6E96CC0 0x38AF2BD9F603C45C32AEE7FC1052E2BB53E4CF5D8E2F24B1CCBD4EA3EB3C973D 0x3CE977DC9D7D62650B94F9CE20B7012729B68D14C1492423EF81803030E8C98 0x1574999D66A721A1270814A970CDCE99355AEE4C6C687F51932B2BD718CF6C7 0x46838651033A7EAEFFEEDA7587887103EA63EE93D156C34D94B9DBB0B3A1F7C;
  CS OpD 0xFE41B154F229BC60A9F45197BC415EACA26A207E26CB67E7B66F91FB77F3DBF6 0x4C69AFCEB0819E3CB010F918DC28BDE39BDA555CA7F451F97B34E11611BD1AE3 0x46F7A974A79109EEF3C559B76065546BA41532A4F6642036EE3AF116979505E4 0x6FCC80E0A0F8E35148E2A636681B808B04573CA429E454938276C7180B38E184 0xFC866CC018845E0F014B59628CAF279A58345B620FDEE0094AEA05415E52AECF (-0x43B2D1E35F6738364CDC46F026F0DBF1D66141D959319B4C511A014AC40308AD);
  CS OpD 0x5109B6E0BDDB710D730BA7147DD827480C19DD2CA37E019B6472B04107152301 0xAB58ECEC323C7C16EC8B99A47FA913FAE77A5CCDDD9313FBCD8077105F26C01C 0xAFF65AB3B1E130725EF7EB67C0620FFC4CE2FB6A6D118F566CD1D6D255FFA808 (-0x177EA802BF669FE91E56AE0D96EE15FA08C9353688B558E011E5329C29DE815D) 0x19A7261896968A3947522EB317D813C3381B68B723FB00FC22E64409F52D3F11 (-0x1E0D4C90E9462484DED90F2A739C7D4613B32AEF4ECAEE48B1D1DE9514C191EB);
  CS OpD 0x669C40746C88C47287AF14147B1D424F2142524D7D1998DB8EE3614FC1F67490 0xE7B0D0113739FE8DD3459D7EB8CDA941C214EB14FD2F75600544F3750E3C5F33 0x92FAA91102A39F2E693E4608C8E035BA5E7A24F49C252E7C3C0AD1C45860018F (-0xCB00A514E3BAE089B49BBDA9CB1572068B2A8148ADC90DEA9A5F2EA81A4846D0) 0x2920E2BB649BAE719BE3DBD53EB14295E6D7E777168A19E7957563EDB67CE97B (-0x182FD94094BD8B4F16AC44109FD9BD156B0EFFEC35301A0E00676000E8A20129);
  CS OpD 0x43370317AAA8322E8693E4F266DD0C9291E8CCF913DBBF385508FC3D10071E13 0xE8FC60AC36D634CC8DB82AF07F8850C3B3DCD25AF0067BCF4FED47179C6887D3 0xBD1C9DD09191A2EA2C65A83A47C211A7E38E23B9879A6BFDA588E67E04713830 (-0x227E35518DDB02232EC053692DD0F08F3070D49DDA11AAC300C1F4557CD93218F) 0x11A5D770B788EEB9F7992A0E9993FCBCA176F6511962E8F5D66CD17EDE6107D0 (-0x570E18A38BA38CAFE7AF00A5968676E8A1A068BB1C499AAB4E19D9E5388991);
  CS OpD 0xC8A96FE22CC18E5C95E42F07A2E943FC0B4E9A5B3993FC64147C5224C8D0E821 0x12552F96D8358FD2C38E0C3A265E005147F94117CB4D33876FB48AFB3BA61178 0x37FF3127FDE3D6186664DDCF89A25B32B89859B746F73CE8D4F90F35E2D46D42 (-0x153A82C6896806620C5B5C3091990960ADD76D9A7E61793430F2F84BF7FADDC95) 0x9D492EF64F7370A18779317E589884F642B7DD3A2DEEF6B77CE382857A54774D 0xA840B0883C7199AF4C8F6684252307A6C3160B7334085007389FDDD8B69E0107;
  CS OpD 0x355CC930CDEA3002C7C1C31F072F72F38AC4D28F050BB675FDF2B67C4890AF0D 0xC80D9E12BC89EA5A1BDF6F2A9F89C84D6A77F975698ABEB31BBDC89B62E7BCAE 0xA29AD530E518BEAB0C246A40F94C673E3F6D8D6F52295ECDBBA73083E946341A 0x1367FCAC6C93AE251A2FADD4347E71F08E91B0D0535030D0C4D791617A79624C 0xB1F8CEF6E74A4DB458D13E886594047751B67EBCB54F15F3A375C640DA97FE5 (-0x25E10BF7CE4A6FB259DC1643A50123F928A1153A7A60417438C6F1F112D1EC06);
  CS OpP 0xCFDB3AB937471C1FE40317535459400B31C89F57149477FA246E0CBCE669C868 0xFF17ADD5E32D608856E0174A4542D633491C0A527069AF15A4510222C8C58370 0x25415EFB4537AB6531FCB34865A653204BAEE55F1E401C072B71FFDFCA316CDF (-0x3F951DABA090FC4BF1E944694C2F1F91E6FA681101CCAB90E2030C1102B86DD2) 0xA8C444B50DC20632DAC1D841EEC4EA847713C6EA93FBE107D88AA84E11EAA196 (-0x2CB044FA61EA4866B18C9909475F1CAB4CB520A28650720049A4B05D69077D87);
  CS OpD 0x60AC5C63E44F2812862050BA5685D4DAAEB0278707C6D31B809E4936F6C00597 0x76521E813CBBF3DFE6B87A4134876DBD9910C758FB9D8D548807F45A666FD944 0x697045CD435DDAD84905C9CF4FA682D124EE8CA3E486E9453AFABF90346A0019 (-0x2DE6D598A4253B1FE9171C478CEC96BE2A0244909365FFFB80E29BB3B5124CF72) 0x2481B95732CE1B7F031FDE8DF2EB24C81E89E0A05A05C7FF638B8ED678A1C3A3 0x33A62BD8692D7488AF721F880132FE2336672FDE706F000FDC91E75D69B435C4;
  CS OpD 0x24E3DE5D625FBEAD613E01A4DB6EFC7439B5020484F0F1B3CD15D96883833463 0x4D2E72C02B09965E82B9B36DD614C9FE10BF9CFA10A3794164A866F7CD5BF115 0x25651ED34ECF95C977EFEC1A439268BE8FA1DD03B0F4193C21046EF4B794300B (-0x85AC237AEC9CC04FC62002AC4B040CBE9C7074AC8A9A3A03A7A6AE6E0DB68246) 0x550E15E5E6D7C1B98E694D94B22F33C606110901DC112B66FE0722AC9ECA914 0x5EDA2846365A36C324E5C2B3F2942E4AF724D88036365E9518F51FF74D0DB47;
  CS OpP 0xBFD4A4E076B734B996AAB50F1708B88C28542F1AA865EFCC19952FFA7A1962B3 0x875F244B9A40C674CA6EF17DD4D1BDAECF6F31154D763930D9F6A8ED3253805C 0x4AF86989956D0D2F0A399993331406C3288168F2F8E533CC5138D41496D3E54D 0x21646AC481189192EDF265E227346AFF6A59C1C49AD55B5CF34040A79A8CE8D4 0x8FBEFEA86F1A5D06F56BBA724B2C0C7781CA3A70C555B11CD178604C4BBD59E0 (-0x2B9AAA4446C70A76607BDB51DDA8185C725188CC67F26D78968E6C8039C6CD93);
  CS OpD 0x4EB3D85FF4A6201DC5782F89A9D8D7EF767A90E8AD95BEB9398FB81F3A5F6758 0x80A6B3E2CBAE8FEAFDE209BD418E84093D45B24823D7438A3803DBF000E201FC 0x365A745F9E38A442C7F04C7034E5F53A76865D9BF288F69742033254E9F06D6A (-0xA8A7BC7C429FB45497E7E424A340A35574C499E29638A1096AD44FD7C2B06BC0) 0x18321632C6276CB2E1428F64287FE6EE5423BD72E1791453E8A48A2E16B4EE34 0x210EAE4ABEF499EC3EDB18DB7F079BCF3D2A4153B45E1A422DD29E332E27707;
  CS OpD 0x6CA0240B29B49E5A49B9688CB369C4D9CC5459B9ACA4DF2B8EEAF74ED9820BFD 0x4FCFC63AAE41173D7ECC9C368C80C4DD2EFE61F9DD307236E6FDF7EBE3F51418 0xFE199CA2F65EFAC2EACAA041FA755202091A0B6536B878CAA02812370A0B1E9F (-0x93D50EC16964D65A8D8E992C26706801302274473BDB3BBF1FEFD5652766D314) 0x2E1782967E37AB9987EAF29FDF20B3EBDF15636BE9B4B5DBBF1EF99C241BD457 0x14B93977D0194F162DF23E8625671BD3A60A234CE40F6852F8ECD4A6F3FA30A5;
  CS OpD 0xBBD93379F6E75DD9C52E6D572E03F23986A6C4E380CA724AC0F9C7F953F3FD86 0xBC816B777FD280542C353114B28AE002819193C43962CDBE5D5B415CD97DE403 0xCDD179C63DF1FB7A01F265520AEE41BCE932FB38EDD1BB8365B54DC2BF2135A1 0x12A42E982C7258F52781ED70898472B1B2374152F5279783081C051D102FA1C8C 0x89D7097C7DD469D4C57F1258A8D8E5C03E47A2FA1E12CA5EA2929543CAEDE7DF (-0x4FC1FC23AA5A04723525FB097D2CBC20BCDA60F7D2EEA033C5949831CA87615E);
  CS OpP 0x6EA7533B4FF086D0821ED3237227279002D9E455C9B5B03A59C3CB8926DA0268 0xB17AC78C34481F8EF7F18FF9CDB56243CC1C6355315DF9B73E0435734150A848 0xC69813CCBC633A810EFF19813F4ABD71EF19F8484C3BC3456EDE590EDDCADEA1 (-0x1CDB6F0FBA169F0EC56949A257DDEC66A1E7E82A591ADBEF95CF18DFFA6DC9A1) 0x2FD438E4AB24833EFD1BEF57A3B8D5991E3851D1F2F907BF2938B5BE4E676733 0x4C40F59BE12362FE111F628B4A5B0E4F619C82E7BDCDAB9E5739A071A6A9A2A;
  CS OpD 0x1F751AC89A1C474A798E45A67ABBAC49548A381B246D10943284C37A0DE1428 0xB2F6A4A0F9E8D79A2DF18EC8F39558A7A06FD48964EF9A9334D8B640AC55563F 0x1F2CCB62214FFE6B19E918950726516F2B8B0D833EA6C56E22842955BA5C502D (-0x16E1420224B7249CDA86A1F6BC438E21A6D8D5F9174DA47FA75F876BBF9AD5890) 0x3DD920E137D139C1AF41EDE16BC7056146BE53FB678B0079AA3D70EBB165F (-0x2EAD894C8A49FEA6E5EFCF19E5691603B576351B13D6861A08EA76354757A);
  CS OpD 0xD97A828B8F9578BDAE1DB1DC1CDC87D8B7651E25B01D600D7A2B8DCD3B29AA42 0x6238A927EF0DA7D215BABAB10103A5573991173080ECF509215B9E9950930773 0x7F45C64750CFE1ADD744FF79FCD59F37BD9E886D04EEB9702FD06AF999CD5FBB (-0x1425BF8684E25DF7B40729CE0A368536F6AA4D51C693C6CF552364C0C0798B6E1) 0xB8C0EBF149024B11B17262CF99E04DE18A672CDB15BB51BE38271A8D6FB1185D 0x4497ADDFF0073E5270BA371C3E098E86E180D5A1D0AF925105C02385F7E0D650;
  CS OpP 0x1518267AF7546D6D66EBB3D8E060C7B6DC82DA134A24E1EC88C6D86DD84C0926 0xA9C01D5C269009635AFE007D4B6155D164183EE88165CA9AB6EDA27669FEDABB 0xFABCDFECE644615D9FC8C0B34D889A6EC478DA73D067CAC47BE2D3445CAA8D53 0x1F0309B0A9CF2BFC257A74BD79EE8DC42596623D65116E6A5E77FA4DB69854F 0x1BCF897696AF646334EC5887AB2785C168BF70CFE909AE7749725A07FACD882 (-0x5E4DBFBA45B4F7D9F849F3968824D20288229CE9008F478DA74DB7D1C8F84A2);
  CS OpD 0x9C1B3D6D74E8D9B3AD442F930828445D974B96D0394A1206DD9E9FE0AFE1DA05 0x886014715E2FB3983F9A9647013DC0A67EDC810D5121A8B94AB9C23B198CAFAD 0xCBBBAD44D833E1D195F11DC313242661C402305A4870C368BC0ED3978F34A6D (-0x1FE217BAC85948CADD8FB76AD1584D71110E5796EF6B61D48DAAECD122F94803) 0x5F3135C36A4FCAF4A27E830769835175742B2864E0EB167FFFBB864F2CD724EA 0x145A12922A1F739B626FAD2503B87C416CB358AB9474BA2E14B6DEDF1A5E2D5A;
  CS OpD 0x1CB5372CC27E7746571DF32C0327698C0F89D2A22E75C35591EC2D0E8DC48720 0x1A3440FB1CFA35B7165C50798ADCCC6C9C0695A31214D5CDF7BF2D8D15064D6B 0x81DD6700208737BA0EA1430C7AC3CA8895B10AD156C252EBAB6E37E4A46651AF (-0xD7179585A0DED34425C831BF0DFA96BFE693F5BF40674E34E1B74C1B33CA4275) 0x3382458DBBAF451D302E2688A8F33A9968EB2575795C1244CD96E60F8E256B5 0xC5AC7DC1F685812AA563012424DA6EF148D4ED7B638B656F6B19390B4902B1C;
  CS OpD 0xE73D8F549C9F7711A39141ECC416950B41434CFF4E083EC6DE61DCF7C2F7C2CA 0xF389E2E23B24792D4CF751D558E9325CC1A147DBE63409AA51DD92EFB30221ED 0x9F56FD8F9797B4855878BBD3B2A35402B4B589061D002A0D24242EA93C324429 0xE2900D3818D98AB0B7DD8C3C8E2EBD1818C922AA477452D78CB56278A4EE86CF 0xD0E02778513A0FD1E316ACF4F253983FE0A737249AA8257C07C941F8EFD1A22F (-0xC450882DCACB1C8F6CBA90BCDBEB7AF443C29256EFC6C83DFAA8C0FFC5D94754);
  CS OpP 0xE1967A34A7D39043CDC524DE1F0C6DEACD526F8625C227AFDE26AB1D1EE25A55 0x9D44845B9B28ACC590C90877F1725F893440C8B9F8A93B2DF84199B58DDF70EE 0x1BAFE5B4CFF9FC209F44AD7FB7F8F1DF13C87D678BE535F7BB9C39E4F6B34F3B (-0x6B536FB224FD445BD35A0477F4EE01A693292C487CE39F60EFC8EB41E4B491B8) 0xC6C9DB43FF0CCA4E80A29E90BDA3AE23B89DE1AFC15B51AFB2C19D81CA3BB71A 0x4C05ADE8832FF43C09BA78F52BC9DBA4B3D596C09C67F8DBCF3C7518C4EC1869;
  CS OpD 0x33E570815FB613125536565F074B6F867497463F995FBEE862D5BF7865DD4176 0xAA9A73B39BA3939337AB18978A913F24B400E3D2D24F6D083B650CF9BEE75459 0x5F4D2D3A0BDB4126C1EB87BBA109A4391CAFEEC04547C6FDF988678A38126A93 (-0x1169D9F7FEEE96A51E7EF235BFCBAC2431CA0000938855B39C40BDD872556BD18) 0xA85387605093C7856B8005089FC84DFF3F8A58521C3D729DBE825D6D4F01001 (-0x2B41269F7D16561971A446ACC0AAA8797DFCECFC0B630BA7C92777677A921E0);
  CS OpD 0xADB94AE76B34C4511B7B5A01808D725B4B1C84EBC1457F54C9CEA19F4AB5D433 0xE2C904B4D8758CA9FDA3DE9185CD3D38B72CAF48F945C5038343BFF5CF68C988 0xAF30ED6574ED7E375E05497D7109A7DB70DEC3443F68806F53066F4A96B1438 (-0xD3BC381D1C1BA20D038AB5D0C3E7290224241B0942184438C768A2AB3D5EB88F) 0x75E3F55A1F48DEC683FCC52D2B08D9278BBF3C536EF861AABCE48410E54A7841 (-0x26202214DF7517EA652B747B2C092318602BE58231191E7D309023E5B6AE5D58);
  CS OpP 0x95093327B6970EF7EBA254340BBAF816807F2F27B114F532F06CF8C7AC17EB21 0x8E3E89397E2C107F96028BB9F2BDA2FD03DDE04CB91CAC63E5611FB4208DC5E 0x35D86E528E33BBF4BA8099306BEA48F00EEDCD2CDE839754449EE370DBB8A29A (-0x3D26F47253822272433B31C44BFF8E82396B4A227E6939C8CB7F16B49FE4BA90) 0x56C3B5E0DD8F86F4F9F2014626B5B38F5864EE7152BEF47F8A6C14C838C95FAD 0x7EDA2DF7C9AC137D51C8C03174BB9135EEC3EEE87E799B29981E8576627251E8;
  CS OpD 0x5C07495567FE68EE92979A170CDB56C7099EBB53DC55DCEC874E6F3D53F5D5D 0xC1CA6EE7656A7D77FE2ED89AB03D31296F227AA76874153661FFC0C2D25BB366 0x2C2E41D1F4A10909C8FBA08FC1158D5CEAD87CD4B63ADA4723A6752EEA787279 0x17E4DB12415A6030C704E6CBF9B7B9F26669E4013BE9A36EA33FCC83BF7C728 0x21153CEA7A6C5D2287716E572B716B45D40E46E758D8F7BC0A7EE7EAA4B609 (-0x42781B8B361C666C51335A321D48AD78933E22DBA9F34345AF154A5C1EEDEF5);
  CS OpD 0x208B19EA58D60B611E7C3AF2DA7A2AFBC5346E3B26C4770189679CE5A70903E6 0x5FBCBD62C63E582EF8845D7F0A7581C6D46A781874A51597B31FFA824A8A1E75 0xFECCDB3CFE4C1DF2C349EFDB231B4481D404325EBF3F468752EE80E0421CC72B (-0x1ACDCFE427129EF6512F49DC0F165A6847E56D5804601AAD0984B16DADE70E980) 0x423120FBD519728F76FC9EE84CCDBBD318129FE582177CB903473529001510D 0xC76FD8D0FC8D939F26BFB1440A463E3C68F662450F41224AE2D298BD3C7F1BE;
  CS OpM 0xE1BEF69778975F06B277FF5222346A8F4BD686723EE47F198084CD8930CF970D 0xEF1AB94CE81A1EA958240B9F559A88714F7133C33DB76C84288EFDFBCBBB26C4 0x2EDB3A7F2B50F88BF4DBA24DEA85BE0050312C85BC373A9B7BDD63583DA16EF4 0x16EEDBEA48088622EFA958DB4851A5C3166F5238F5B26FE1BC477B35C0B87675 0xC7113BE938588B1D39A9146A0AC8F74D432447D647DA87C400493293997675A8 (-0x7E6C8C42E392B1EEFDD54F2DC1E6AADE92571389B0493DDA53E37D50D139A47E);
  CS OpD 0x37751D883E050A06203019B5AE1781CAC212DAC289BB45C4B34888E201234967 0x422AC75F11E1A5BA55D4B6C8D262A7C90C5F0B6976B06139A3CEA9795E50D35F 0x96C589BC61F6986615495D3D88824E1E0A9EFD008309AF56D2F747978883A040 (-0x289ABA801A1A3190D7BA293C7C39A50BDDB84BAFD8AB99AECCE01A9939FAE0DA8) 0xC0388448C970178E41491C50606BEBA58D6FC005FFFA89FFF6FDEB146BF6D96 0x2576AA96E27F0575A8C6BAA6CD833EDF6CBE912CB71EC84FBB7AAA61565F94C1;
  CS OpD 0xF8E7A9D660795337791F30E0FB5672A8BD7DD7277CAD2BA61F19AFA62C0376F4 0xB3D5BBFB5D91C243167472EDA3EB1B6DEF302DF418B616A3EAFD9719A30614B8 0x96885C3AE7084F47E97130514FF2C3DD81BD81D3A58F1982A1DD48DAEB6B08AB 0xF1E1598FC07928DA780DA544D6369636A910024370DEF6ECF96C6D62E668B153 0xF201AAB34C79EB1547DA9B912C00C0DAA32A17A24BD24AB83EA967F9E1BC0C06 (-0x6E8479A32D948AA80B2161F57BA60015093D198144229BAD3D49AA4838310971);
  CS OpD 0x832BECD0F94BFD10605F917E2D59976DF85D6AC0A0FD2410E4C9E3FD1716E568 0x751BCC9D10765A57A40E8759B5AB3858B7B699668B394E7B47EA0AE8937180BB 0xAEBA8378CB617CE45BEEE94540492915C7BF1AE260851A6F6300C3A47322CB3D (-0xE0BA8F472C78FAA58B3B53A5B6C8635F268F31803805A7D948EC606C10036530) 0x4335FBE748697ABFEEF88426EF95BE4A15DE208A2E8A5C7BBC0EBECBAC2212FB 0x2023E8BF131EDDC97894670BF4871394FEA2D0F9AD3AC4C271C069A209DFCA20;
  CS OpD 0xD5A8730B99B109BAD04B5FABD2251DC2F1967924F80BB66895AA9E6DC9E9F3D2 0xA2199500C62F26CF946C4C6401084A3D5631D563E30623448B511C6D5FA54400 0x3A01E823DDDA9FFE834906E77E9BC4C2BF95A13E6C5A66EFE90C1CB9C02734BD 0x82F10C79DFC48ACC581342266BE053A697319FD6DFC5C397510AE1EE0AD07107 0xB251BE4880ADBF2944089562DD50F75D2E53CFE70757FB7CD0FB1164EC9DC092 (-0x258CC27E82913441B2150F6600B7F10D69DB53141FCDB14173759D91005422AC);
  CS OpP 0x2F9C3878127E7C5A338855FA9FEE046BB6B6E41FD7BBB60BB9C2D757B9E05DFB 0x3B973B365EBDB9B1A1C4A52BE3E4E60ED50C4D9B1CEB32E37D9B19DD826F23A5 0xEE427EF55160E07C2A2676B421A72AF6317AE838D5ECAB287B187197A2EC5FFD (-0x7815E010B702F2EF708DF66AFA4D2C1F5598F775F20501528714A2B55D6617D) 0x8DABC10F595BC395B2CF0D21A0BF8A33C2ADC84E189D4EDA85E7045E0B6B5E4 0x13107C87787B09EBF9AF674F6686B5B3B8E08CA3980E668FFD0FA657EBC2D9B1;
  CS OpD 0x9996C1ADC38FBCE5F96AD6C41793228BB6A59D9631434F23B23597C418D046EC 0xD1AAEC40E315ED3F50B62F8A2F443F635B83A8E88C3EA7F742AEC8F033EDBD4B 0x35D3EE0FBE6F712DC0B3C91FEE7654865FF5BA8CC93C0286C53AFA12B59F7E2C 0xF446EE4BD18F898F5C9D72FD5A95EE5CCCBE61BF5E2FFBEBF37D560FE5EA2D23 0x5C258C493DEA730CE21E594B327B6DC2F591178083132CBAD9F977C31A1C34F5 (-0x5A0A25E3BBAF17F80093824195F992270218C8D3D68F4BD50AAF88FF1AFD9A9F);
  CS OpD 0xEA8EBC45E0C983237CB30AA89F58AEC58F4F223FF3A0D21E74A09904252BC7F8 0x26815CCB1E0B6A53676BB772B197EE14640B9B7EE21514591238D2EEC090EDD5 0xE38305DED693A119C16C71ADDBE794383A12B9D686D7D69EE5F085ECCB9F53C9 (-0x1A08622242EF53BA2F5BF3D794D3279D6E1F4AC590E2E44D864C8FD9FE9853A45) 0xD6E93FC526EC788545F3BA8191AAC92B99E8DF3A280C8692701AF8D786DC573B 0x9CD36C10774827C8C46CA166E82981B2E056F4582C90AE846B73AEAF0310D595;
  CS OpD 0x5704393934C761244D16BFA13E4A504244005172AF24AE71E61AEC28D4A43A86 0x654546D378269D5834E490D823B718F9AD5EE290819DDB027DF8B14B74BFEEE0 0x72B4854DAFC850B74608C1E12D232B591BD544C103AEE8707FDC150493726DD1 0x894A950AD1CDA42CF341EFFFC800C0B5765157DF0E5C47EEDBAA11C1CAD9560F 0x1D93DEF6B873B08B0A74E632F5753732D1F16726F209CC17BBECB1BDD5063D86 (-0x15559DA0246C4C554D3DDB9F7838A3D828567A0A4B2475EFE2AF3220EABF0764);
  CS OpM 0xE386B54A68763CD794EFEC297C16B1DE7C9068A466496BA9CEA2A7B4023CBBE4 0x3F18CD78EEAA66EB49C54C56E4B676651787BE9BFD10C31BD6A79C93DA71F870 0x6AEC901E5FAD3E052AF305E4D6788E0383D8121E6B21B8BDF72909F2E1F1DCA 0x12322CFB3E8C7611A1F4B4BCB31627C21C942FC5D95A895BE5F2A3EE81F4A0E6 0xCA382C643F895905C4D5B5457A5B5911FDDF30B9E791ED45F600A730B6F40C58 0x21ED85EB5788E586EB78FF5A454C0805E85CFA0AD28A748D25345E2C6C698FEB;
  CS OpD 0x15AAFA12D06492027D0AC87D209D903CC6AC2EA1AA11CDDC963FCD2CF0C4F036 0xF6301B5B0887279B8A5DDB09AC784512B9D7BDA4EA48A9C9E9570C199C8F3563 0xC35BDF352C4E3C894CC2AEEF0CD7760FB121BB1088D71DE603A589B3A65A4F14 (-0x2D860C6E70E0B9C3D6384F9741EC703B1DC785C39932B38A73A4DB4610CD00B8) 0x1D57F382B7605ECB8C6D08FE30BCD1851DE01CAD5D9DB769AE5FB9FDD820FAF (-0xF7F31B77B016C5D0366311FAA26748D97CDE0219325824C9448B905D8C8C1E0);
  CS OpD 0x435F9A8741AC51EDB5ADB4B742EA07C41CB4213EEFDDEF83776EF5504EF3C6EE 0xDB166E05169CD61760FA45285738C4D1E33CAFEEF139668A855FB8FCB75E2390 0x5C58794544459DE6D21C662ABECFFC10450FDBBF49F199EFD826A8A01F55D0A5 (-0x25F6D77F93604F3F088E8BE11BA12104348DCD53716A9B3E680149572AFA27545) 0x11BB2E96DA09F340E2AF20678F91E06E45E827F5847719D7FFE9D07268B7F672 0x721D74094F8F812F07F270D1C121B26BC485C387937CA40285906EDA080215F;
  CS OpD 0xA7966F236C1FA806358287B02089917961A366EACC3B0C2D4174F19C406D037E 0xC5D0094734C3362979AF25381B40701A277A22D09277D552B2511AB3307ABC72 0x64CFEFC796B668BEBBACBA2A35AD80AF966F6E620A3BA35A6C472A6B9ABE5B7 (-0x1B9963086A2EE3DA6C342A89EDDFCDDE6C56123C661962FE459D1CC6299490DAC) 0x6DB59D66A4D3BEFB331F0FC7FD24B1DE60E76F6216F904164B7DAFC8A68E822E 0xDED6C335CE1BBB828DC1A08B1D99C2C6AE182583EC7A75051E9139472154018;
  CS OpD 0x121F4D4EF5CF12568663CDD00B4688A89F619A6B0DACABF09D8F2CF50070DB96 0xEBAF7286EF74D18A4C5D6B6615F55B3260C034F85D2E3B3840550C4258FC29BE 0xC678BC48C8638660DA3976B4DCB248F6EBFE82AD65F1CFF9FBBE08665F12E015 (-0x1C9A927B48B1F7579D5D822B587B3922B463EEA57AB75087D78E8BD065CC073A8) 0x1486AB2EB093EF3E317CF474F11DD57C304735C2AC39B52A2EDF431E5C2405E (-0x2AE56E41AEFC71787ECB5B196C02F669664BB57E5D72F73E0332151C9A9F7EC);
  CS OpD 0x679DAA8261FA93E29AAF6A78C6E81B0DB34DDC7DCF4D7D5C2BBE0F2A3FA46270 0xDB7781F4DAD907BC91323823676C6A9B7E0B0DDF574184E9A71EB429DCA2EAF7 0xBACAFEBF837DEC1DC5F59F825BFFB8599426035FF95B542F38711BB5FB3F2E74 (-0x1EA491D8882E7205893523F014C2363C0546827951B23E080F2698923C4696F14) 0x29F0404F80553CE230D1E3C2C1005CD2E6D6D8CA3947CBE023F71CEEF227A203 0x6907EE6B83F8FC1376371FBD206EAA1D697B9251BF7FF696AB71DB6FD893D29;
  CS OpD 0x4B63A1D6003FE0E4D90ECAE61C3333B98C3CD5714ADC2BCFD3BA240D2EA6B1D2 0xFF5B4F25229D1725C1172512566A899CEE000E0565A78D953B0FE906BBC2FA68 0xB1EDBB563E60111F4129942E3C4F55C3155B3255EB1A880FD0DC173E30EB95D7 (-0x1C66CB9F826CAE7DA7C0989792026E7E23C5121BAA505253D77E2B149481F51CD) 0x16338799F5F87E62CBDA73E3B8A495CD611009FCAA7FF606C46E40D1A7EE7D72 (-0xA91B4E5C334096AFA0872DF0DC7683006930EF84934FE874910FD85D23A0F93);
  CS OpD 0x8763403A034C416C429176D457D6912F1271B61760DFF7A15611E0457A2CD8BD 0xF8707391F370BE87BDADBC5CD4A2BD50CFD6AB57A643BD8C7402C92C16E8A3F6 0xFE1204F3DF6DB38E1D7FF4615BB07B23908320B7C85E1685B662EC5EF2551741 (-0x23FF265FCAB035C85F9C0DEAA3AD31FF1128F341B5D17039D7F1C4F2F545D00D6) 0x4799D437EC7608C6673F8E6C34C357F4A8341F0C66F7F153AD9D8065FD2B39AD 0x3A88859CFFCFC15D6FC7EC0F673D91538260824EECAAA85D417D28FE08FFD8E;
  CS OpD 0xEFFD674008A5BDFD4F18D3A4A77B7773A61AD22127064BF9B6AD98F2C9D32C02 0x4A45D5B23B692086A1D34CAFD6C1F719CE0BE26BACA78D0FF76AD24178B6D8CC 0xBC1690CD0F84F437C04C520252FAF6A710DF79FB22D0E7F4AA03ABDBE4FE87A6 (-0xF6F1922193446EB6C46E4C715B308CB1D42BCBD21D4073047552C63ECB499458) 0xE0FB219ECE5B2752326A4DBB955D68D85752934069FBBCB43048D4AF5029D674 0xA3462FC098F68EABCE017D22136BF4BAF19FDAF86F7C9C0BA76CBDD7561B5B23;
  CS OpD 0x5F1353CAD99C9B15C6DD6C20A4849ED2DC7E704578C2350897619B517B994F1D 0xBB6B3ECD9208EC9215C61DF3E59BE2E3585DAAFC48FEF92ECBF973B4F68A8E63 0x869BC03D9785FEB37D8B6FE2C61F62CF2965ADD346268E09133F0EAA1011D8C7 0x4B0FCE2A98CE3642D7F68C788FFE9BF5793540891E9FA8915C368D04E6121FD4 0x234F59A6190BB230DF839727FC1FC7972DA9D0132BAB85CA7A9F3AA37EA87212 (-0x2A056CD0BAF374AC0DCFA4B70040F13BA5988DCAA56CD2591366F062454622F8);
  CS OpP 0x7EC48C8FF78E0F895F2361C0F7FD541F7A10C0ACE0975D86858AF576BF56B56F 0x336941338296E4BEEBE0D8621B6254C5760150F7A131DAF1104D8B1767C205E3 0x3D5A533A7896ADBCD4741A6A0FCA8E88B487B4D096E71B07A07BDFE57CB44E5 (-0x20857EDBC06C4795DEE6452C49B7A332F8546EEE27E2AE12E4FC65B003BA1EEA) 0x3EC611454150B08CE5178EBEF2F89449DAAE4A662CDE581951B34AD28D14BA2D 0x4359670590E041B45318A41CF36F4509EF490D22B1B467F1BCF9211AECF7326C;
  CS OpD 0xD58B36DD9BB65FE782E62F1161E5C98B8205D7E9F7BCF967A3D7F00E3A48733D 0x142B9143CF82B6814F79D697307AA0D87E43F44A6A82803BD6FA1EA233CA3AF1 0x26D30EA75AA9589871E6B94E62BFE0FB0DB88A4E7A1D52D47A36886569BB8E13 (-0x1893A135188F8730E7709F24C4BBE9838AFB473E0ABFEBCA3C5C8E3DAC78CD97) 0xB220F5016586D12A8D48CB4A00AFCB094A2BA4F3C0E8E1786ED77DE56F73D8CE 0x1A0F509305841337938632330C6F13091A40682DDA0B79647AB12C41D7B025EE;
  CS OpD 0x1EA08C56A13B7256A95912F9F2ED20677CB33DCE382E3ED0DD1FE8E6587EBE85 0x472022017CE05059691D936B347E05AEE7FF274E09CCDBA5BCA1228737C3D05C 0xDCB6736DC9EDA19AF18DA92AF75BA19D116BEA53A74EBB3BFBAF7A7024528126 0x485A77C8247581087A4E32EE5D38973F71E5FB6BC84EBD99D4DC3F2AE4604D5 0x3AA0594070256C4FA8FFEDC69FEC2BA04E32ADB23A31B5812D5E990E6583515 (-0x6189DBFAE455135B5B62AAEC9EEA8558FDFF619C5D3695BC142053FDBCAFF30);
  CS OpP 0x75DAF56E0D796BFA5DA232AC318400FD64F605827AC3FA4B554BF3D398AF39AA 0x79D85D1C9E944A1F3B15AF3DE00B3059223941DF2825618C36ADFAC7F87AB375 0xDA02F05495F283786E24E6D41A06C5FA1EDBEAF824F5370249095274D9FCC7F4 0x174DA09AE7335E2BF83D75A71608B1631D6CBE9691981B60661F04B14C6BFE9A 0x3641DF9D830BC498BDB94B7F4CA25C148263113952C92D0E90186A22FF163875 (-0x17599485D9E7BACCC07F085F3DE7C1FC22F3447C650A070AC0A20CB51BD5718C);
  CS OpD 0xA64346B2543F4B4672CEF3A2A44AC43F68BEAF4028A90D1785D1D205CCD2CF80 0x2D60808834D1BD7D1477409EB44C107A5119353112D05B2E1552342AFA895F83 0x3B454F10C0CFEE3CB0ADCD88EF18F7E4467B455C1DF1D92F27A939251F7424D9 0x6D33A8F9E58A6E4565C9C5AA1AAE2BBBBCEEE08E0DFB2B1B55A60A1CACEDC97B 0x6BFB515D5A20310CA4AD4A17A7616211359D23A29917A62C514CA626ED9D4BDD 0x31A9D185023E0594D31FD08B033B9752726244509E32474CEC09F74784E3CD3D;
  CS OpD 0x557255E238706EB857826081AAC75234C20247F362A3D35E742C04AEFDD73AD3 0x878419CDC50AC22FE3D2C66C0C5E8966BAC53710F7D49913E410EB04EBD06E44 0xA73461C31F6272A500243AA692BDA9F14A7C5176970796D240F7CB187B765841 0xF6FC34EB63363E2731A3B82E0CB01B78421F33563A1ABD13A1910BB1A4E5155 0x1C852018D3C4EF0B62C5CD9CDCA582B544C72751DA6FFF9C9C0586F466F79A91 (-0x1E1613FBD30DF056319CDFFA05625CEA947363536926CBA50CB6544C6AB94663);
  CS OpD 0x9DC2E818279EC089AC1ACADE5E389B97BC9429C85706AB74BF0D269B5A392486 0x977616619955325876A1E10FC9C49C10107C7203433BAF553339CC7C41D64821 0xA748A890800C38661F68AA9EBD267FB8BA6B5F5E92CFE81416B256F3C5D9DC1A (-0x920EBA8EEDB80171904D40512CA8F741487A9DE56290057311DC0E821C6CB1C) 0x6138A51237A08EDBDEA1184D3A80B83037C7FE15A72BF9068CFC76AFEA687075 (-0x9D38BBCDF45EE43B6A33567AAD2427B839A93389108531FDF1C22C5EFEF6F47);
  CS OpD 0x4F72F424AF9FBB7A90EB2ED6ECBDBDD5A2AFD5C399486A3AB6EA75980BBE50A9 0x5E9277F0E2200827FF7222CE52CD3E8B140116AB89DE7E099ABF2C6A091EE6CD 0x601C9788C66F32408011F8209D21AD7EC84DE074811241157DB312BD099A2C3F (-0xA5007ACD916FCC5510EA29A339B617C7ADA98EEB20EAEC99A185E3FB8F9AADC1) 0x18A8264CFDE6F402F9645D136EA4AC77432F99719939C4AC9C195DBA9B2BE51E 0x11A7C98270C7CC8224B635452D866B73DFF28C75E47923F9998FD88ECA576BD5;
  CS OpP 0xFFF1C03C92B9CCFFA9218A182673B8AB0F3690A61024F884443021A4968E4EE4 0x39CC39930BAC038E31393034092D9481AC81A36A90F2CC584582F7377748F507 0xAEB58815A3408E78AEB97895F3E8C14F8EA55228046E1DAECB9731398D62F9AF 0x1B2A6B627E32911F7B52B6B9A64B6F224B0DFC36ADED07E3B790CFDD5501FB1D 0xFFE381442EB552A51AFD4C793F850DA30D08F7E9FC4E7107A367120BF921D59C 0x24C4325D914532EA196F075F8C454B58552BCB469635ADB5AE41544CEE4917B6;
  CS OpD 0xAAB7740F347D04876041EDCA57DE29A5B5550DA5080F4B032C68927BB929F1D6 0x497B25020FCC1DBAEAA39582CFD989633A5528A100DD36127E0FA3B284955A5C 0xBDC1EAAF99EA3218A75A18D86FB4BED8A4164B99177BFD7DB73497F677922679 0xC1DDC100B07F0A91C337865121FD2BFBE6029DF02D565DB8B3101FA481BBCECF 0x71D8299B5410DD38C2E76C10269937DC65F9F4D2FF9D3FDA19E0D82CEC086CA6 (-0xA75657E363E8E36BBB40DD617522DD2C0A4EBC4CB54A51A6912B6CC80780DAA);
  CS OpD 0xD0FB2D9157650489B5483D040EC35A207F5CDD0AAE20F6B7B3EFE129874040F7 0x9AB8612E2D1ECA5B53DE104207A242757666C258F9325ECB8313A203C3E1E269 0xC3904F01455DCEDA5C3363ED60F3FFC6410C62649C90E1AD5DF1A29FD6F1A14C 0xF6891825EB2BF9E47770247D31C9668E15F22E0C2C633DB46CDDFCFA783DA112 0xAA99207E9121F2B44E7C3D7B2D2FAD87A28143C0F49FBF944412A5A8709ADFD0 (-0x42517663BA12A0821E8E6FE7319DB11400E4B962916691708FEBABD9E356D4B0);
  CS OpD 0x20F1D394F0DDDF8CDE26D198BAF76B01B47F4E7FD621503E96FCDBE47E5E5BF1 0xA67D81657FB00C6E3A5F0E8B8609D96323641F100E520175ECC7DC7AF192917D 0x7086698FE42C084C80E4D307D20A5A99FBF8D4E043B7F43B36472D750403A192 (-0xE631806DADD4B9BCB6E10DA2DE50A6E9A02163168C85BD32460376ABBE60AFD5) 0x43D59554983D55740716E0587A90DF38B759AD59874B254F13CE67A1348680E (-0x183C25490FE1DB2E449E57D50502A93A872A55378EFE48F924879A08AA9D3EE);
  CS OpD 0x467E2B3B044935902880C05513DE7F0B1B5A03E0C5C7B0FBC53DBA45B3B8D73C 0x6D1AF79551612C90CE333F69C069C7D83CE59C7EC48FC99FC45E5FD9968E24CA 0x8BE2CAD95858FCB56AA8997671C908989B7DC0AFB8003AFBCA100D9805171BED (-0x106DC97FA1CBF21027ED165431FAB2704F3A785AD8052846F0059C8F1A70DAC45) 0x13693DD2DBBD226721DDC495DF4299C64928D0B25A1A40F5E3F5D4FCBD910774 0xFCD39DF88F20A0CEA7751FE8DF34DA8F3DFE16C1609E5CFACA9D2B930656F9B;
  CS OpD 0xC7CC895FD29FF5C58907DC2B718BD4EAFCD2A42B091A81AE6D3571675CEC996B 0xF5C836A9F23EC3EEFE5F6F625A71C3678CF2FF0F667E6CFB1537CB88D5717EE 0x32C1A77243326FA1CA7CF17E9FB49F892DE5F3842BD27B8D99182601DA3FDC33 0x4EDA31ED8424F43B0380B5164D6B24D16F9DD001CBC71CF425B9677AF3EED4AE 0x9BEFA0FE33E4125602ED4543D96511569A5BD50C557B4E2EA3CD583AAB85B179 0x4929F25FC58C699E98D6E87DF1B9D88BD37BB7A69955A3743A765E3034FB806C;
  CS OpD 0xFBB7D1D433EBEF19FADBB5467E210F38B0971F0A1B692432DFFE45F4DF7447F8 0x4D6BB758F414E03E966E834C8A0D1463237BAA555BE5DB52C00488F88578ABBA 0x75FD9D1B7F9664C801247E070760340CF9AA8A2FE00742D225D14E70DDCB292C 0x610CB7EC29A0EEB2FF4338C81BABBDC95C5D676A04535FD23301A53ED187723C 0xF781F973C72F0EDA0EC3C4ECD2F61C71E5D233CDA7CFA578FFCF5E7994A34976 (-0x3D0577A6A739C574C7415CE995503F50FB6C2CCF0DA106B2CEE9AD8915FD1E31);
  CS OpD 0x4E4B798A2F6E2E094E93B679DCCC97F3B12F9C4FBCE9114ADB6FF5624F7C3F20 0x578022595FFD69090AC95368733EA2355F66902CBF04078D69BDFEF7DF4520B7 0xF28D5721C25B4A479AED6A51DD7C00C9893818899016A03F7929246A5FC59DB7 0x1EE31851003CB367D0E163A0B1AEAACF8D952EE75BF48137609912D18CCA6AC 0x17F21450A592DA09F86E20628AD5171A40DCDD56A8FA60494C5AB452413B633B (-0x315315E91736E43EDCD1F178730F093826446779570D6380334264322736EED);
  CS OpP 0x46AF46CD03B9AB9D199446C54FD5A1EE07A15E2775D8632BA681AD14F37F72FA 0x751590EA125DA6547FCF0B1AEE4D660D3B677C8C70B10451F259EDC0A9D44AD3 0xC5F101ED07C249F14849C48C5AA53B0E8CD9C4215B4D97AFE6CF9B648E1E5B62 0x97478AB50C5AB31B79F6DB42C5D64DA6C2799AE20532B10ED6C2CDB9EA61D97 0x138452B9FDE963EB0C0AB3B3E24CECD7A25348702831C7AEFDFE23861245CC9E (-0x82B1D90B303904F41847F1538DAA9DB6D6020C9606BE90650152A792600F55F);
  CS OpD 0xD3BA18DC6AB8CDF5525B7D1AFD5B2211EA82B36C311889B83D5CA9BFD16EEE5E 0xA762204FF78BD2E086423BFED6386A88D22749BAA47236D1F2D7B85006722158 0xF6058F2D4D64C3A7BBD2B2E13B4F2998AB48C9764D89A538AF6B08D04C2B6FE1 0xA6C4E9006B30535AFB7C3C0BFC1FFE55C3EF72194129E0E0BA3E88110C2ADD53 0xAF1C4C437AA1C9D7EEFC0A3ADC1D70970A373BF0D205950FAA12E3FB004D655A (-0x2999AAB3A8225E2FD35336544FB1D3D240DD403DD57DFC3AC82DAC5729917837);
  CS OpD 0x2A74DC30274E6EDD5142EA06F8768DCE4FED789249AA25802619BEC85839480E 0x20114D27B7149DC490D29811C38BE75F78D4C52001AEC96E28DB84564965DE3C 0x2361ADE9CF76A02CF0C943F6AF6101D5AF3D344BA2AE0538B57375A889102C43 (-0xF6B9141488A6ED8468A4AAE023C0E9913373C44F1BF7C4D64F2D2DCB128A471C) 0x70A8D9815EC2812A93A8DE708CEA8E0C9C7201B746C4F97370320A5E2028FA8 0x167107A73235B9125D78D7DB2FF1EDF2CA24A38CEA2D73F6B9298AFBD63379DC;
  CS OpD 0x267FCB1BAC17754DD508F436750A9B4B63F331228D109194751155236C81A34B 0x29596EAFFD398429BD483A95D0D79BA24DE3D038243002B56B49B617A231FF7 0x6C697F4D03A4148DC58726A89CCF6BEA380535172C867A1AD5720817E227F8D4 (-0x168AAAF4554DC28FAC449944441EDDE2912BD1ABDF8FB2A570E084AF32CF472) 0x5CA30175DB09C047323BD707BF9B3E50FF38F51E2B3F0E130730F7693778896 0x46F14D0B4B2BFDB94AC903AFAFB38F82BD6E0FFC7770C81797E775C31D751E0;
  CS OpP 0xBF1176498DE9EB1363D2459EC5478D06B8F38FDCF6149A737C44AFA4FFFB1183 0xA87247F7DD86D10CD1357647697523F2651997E28B3E004A9D5A0A7DA706C0A0 0x876B674A493B1EEE77B8DBCDBF734BAE60CBAB08D7922A65285A1C078823DEAB 0x58EF93A43CC02E5EAA02C822FB0B368F383E0AE4FBD9A7A0113D0D214875D0B1 0x8E9B0FB2AE2FC9CE0A5079960CAEFA8ADFF8B144B19563BF52EBEDC7666D0446 (-0x7BCAF863BCBFF6D0D8EF4D3289231E0B406663EA54B5BD789A8E9BB71E09A826);
  CS OpD 0x5CCB89AAC28952BDB405ED85D0725CD7124D6A879C062A3DD3FB9F6A0C5E787B 0xBF54C33864CFEF0D6E46B40B2BD96A053DFA556F7797F9804A792A5702DE129B 0xB6FFD8B7FD011111918BD2F44BE1C99DCEE6F74E6053A4E16679FD2493352018 (-0xEA560C33ADC39DDF67D6B5336CA489291B93D3E5D1699FE979CFD352374765B2) 0x21A2ECC65AAB6F5F7F051DD17EC5352B362960F7490E4BC57E962398CE7FD722 (-0x84B96316488D70357603E7D17537E1BE6913B0556574A5408FA2D9D8237F864);
  CS OpD 0x5CB351CA8286C1684E9B518369DF865DF30B11559BA894736964C2DB6A950D56 0x9C11CD45E8F5D70216B023BB5B1F55036EE81F6525591EBC57DF637365DD8993 0x1A087F98146B6CA6234579644E12D5B7C24C42A4B69680F0ECF99AE421F9C892 (-0x12876839FCC46AAD6C86492ED3AC69642993AD132C0A266DEAC5B6E2884B3D785) 0x2191606509252A40F5F7ED81C3B6FDF4EA3094C95B0BB90D116B989D0A6559D5 0xCC4C37931B1553E586003C281A5D6C72A39871687034E0ED04991959402B8DA;
  CS OpP 0x52832F708AC9CB4E3A062A3EF3E1DADA01D56BD04BF50FC5DCF1A263B0D01214 0x42CF1F4A0D5F3DC0885BD3EB08BEE9FD3E7829224B18B18EC62713ABDC3E203 0xAAF7F1E2C7584DCE6416184A918429709666E0D333D58244891B5B7304AE1B47 (-0xB104DF5B759E5AE3A7F977445ECCBF7E7344091DA100F9348CBB3D0E0BC67DE) 0x1A984D9DAEE1D53403B22161D26D49235DF8FDF7CBA21F72FEE1C899E6EFB53E 0x30F524820E6F186BBD6ECC55EF82335A64A76C061DD487D82A661C9CF977B649;
  CS OpD 0x911B6BC73F0ECE8ECC5A86280F71AE28C4F5AFF9916BB6986B111F0AD4FF6929 0xF252FF59D18B268E55673BD2FEB669DF2A45CE5B66E55B72371DF7C2032EB59 0x971EE72A680640DC051153C23DE942538F14AB0D4A3B38D04529A02A139E87A3 0xC19D31EA302A18CA39A521162C7DA2B46432423AA670DD26A1C611922A87EBCD 0x524013079ED63CE6CED6726C95B120ED617C0C79135630C28F86BCD3CCE9F36E (-0x637C7EB6492BEDB61EF9BAEBDAD37ED8AB3D6991AB5ACB4481B567B07E1B750);
  CS OpD 0x288104DB8DD4FC7F98D4DB5C6958BFC718233040BB587B7C36E31B5B6089C78C 0x1B5FF540B7E5C7A77CE1DAD69CBCC01ABEA3ABCD179AE45738443C4F23D2EB4A 0x59D97DECFF0FB752AE0FE8428D86340C3FB5ADE2A1BDA76A77D3AE3523581185 0x2D21D80D5B9DE42C5BEF35540863AAE0BA3F1ED3C419AC3ECB0A3E8525238B9B 0x668928A81AF1848F93AD97FD1D32971AD6EF2BF3D932330CEC0AF5EA90FADAC (-0x1EF58AC8F2B0BBA509E51BCA7AD08088E6C27887563FE81DEF06006C597164C);
  CS OpM 0x259AD7BFA5FEAC9C1C83FEA7243504E285D7C63E9AC5F149C1BCB5631AEC4D7 0xB87CF395F123839D8E336C3871C248755F4D03BDD269EE52D16EAB04C3814AE0 0x43922C9C7F57AF6639F5B07FC091B46D6314D88C103F63F8C1215F0851C414B8 0xDDCBAB615BEE6FF98DD7F0773B4167FE6F3BFA39B810937364F72D3CD5ED70 0x5862005AE62CC97AFA6871F2B2E81215B1F775D00893D3E3B9A9CBD94BF61 (-0x1714389C48A5AC96C0F21BF2492954742B1DA41513238EEB21CFE0E7CCA5D79);
  CS OpD 0x718B6BF7F86AFA3F8A48E0E1DE6777B508A5D66409D7740DD8BEDC283CDB6B29 0x395AAA0F3A725B69D0CE5CBF2EB1EA1114913CCAEC2DB6DFD4D5E7BA32D763E0 0xAA5E44D236B2CE97EE14867B330FE39DC61F5A52BB81A1A7AF145FEC7486B0E0 (-0x152EAEC4F9021AB890BC2DAE14F331A924129D1FDAA83A3D95B5FF9ABCDCCA3F0) 0x325C613F561F6EF295C3F770AD6981BB05B3424AAA55E6272728647A92783ADF 0x38635FB0DCF7FBF9F81A739B1B777DDD46B8D477ACE09F26A7B7C1AD74127B18;
  CS OpD 0xC5432422367010EE7FE0503758A9921E84D6FB82B7EA1798DA1F1CE15B858DDA 0x86D4F93FDC60D399BAF7F5BAFF4CCBB169F0C2A5077F254DA1EEDDD204DE7FF0 0xDB4B4E42508C49AA979FFEDD361AE841B084108D35982B75F88E8BC359D3C827 0xE001F3D737F569E56207827E61741A136F1E6EA3AA92265AAA6126FE36DC4680 0x9800673896CA9C99F3C13663A95377944B61513CC19699F891C5A4321D03C84C (-0x3BB370E2B431F678191A5E814BC9081D7EB79B8D6E9C43CDE6740101B98E7F09);
  CS OpD 0xD0D29178D31C6700BDCD1B3E0063537DD5331D18B9499882300638994BA075AA 0xB4CDA609A81A946B02F542CC03CF2C02173E3EE57D6A13510424B6A27F581919 0xEF49D95CCA9FA50977651615492AB32A881DC6FC9557A668C68DA77D90A46695 0x90B82D9C99286DA8E8A0D9405717035EBD7B2269373C973FF8CDDCA392BC06F4 0xAA56D99753F29A26F70BED6BA5FB09B4196FDCD97F766FCDBFB32884B9AE6105 (-0x257FDC813F686622540AC8144A557D8BC611D9EA893EEDE8A7627D24F4D942EA);
  CS OpP 0x74EDA9708E2FED0EBB79A18DAC669E337DBE0415C308BCCCA649681830516C8D 0x3401C6E123BE02BBD34E2C2793EC9D20FB127E9556386B1471F53F47CA798C0B 0x3078C76BB3B902CEB20843A40FA6A232B1F3269A1F029C52C2A5365E85781E7B (-0x1AF9BCFFB2C332E7393AFC62F3A0D63DE58BC715E04A0625DEB703F3291EB8D0) 0x35683E312B6880CA47136DFD6530ACD0A8F57C4D5AFD59F5A9BF6B37F784B9A3 0x3AD3F31B2B890F4BDE5FB1420CB775B544DC3CFB779C374C9ED03CD27535DF3A;
  CS OpD 0x17BCE8F09B6FB4A338168D121AD1D1F06B4A8286E0DB838C884EF8BC8EBB9B6 0x56A962FB552F79333B622FDCA6BE17B7110F297806071D016D923F698BC9B84 0xEF800C769A693F825214292A5A1D60E3A698C2A175B2EAE09737DC3B50AFEA20 (-0x1F225694D7E5775D6037B153AD4C99C1C3A50DF6529DAC8DF7C3D344C2CAB729) 0x2337D4231475A64EB096BA6484E4BC693E2AECB0A34F6F20C732763217E56 0x451F6CC816105EEEC22C34A749B8540913E5D5864A75C89D61469B3DC09CD1;
  CS OpD 0xC3CB60A8D391017D873C4032BAF1D36EC5A76006ACD957DF676FD34DF4A710F3 0x326116CBD88486F299C380BB8AF7F484F19FC5C1D04F24D763EDE667A1E826E3 0x925969B658AFDFD67431447F466C009869CCCFA103DE2FFC94D3D641B5D3565 0x16E019A30A280E8421DBBF60DE20C513965DDCE898257CE148027333E8FD83070 0x95BF76D3A28D7E40B762B821659DEF1AF92D22BBA3C5847418D4A67E15171DA2 (-0x22637C6901C6400E95BBBB5E16405D45EA7CD14201F2BBA6AAA9BE2BF52CC9EE);
  CS OpD 0xB41B37EB6ECE7454720A927849F998B530E69E81E01E8499B3424F414266200 0x45478A0078675BEB4BF30C6840CBB7416DFEB07254809AC8D2ED8D60546CD569 0x92A16A52E203E0932D8B924C86AED859E06A55DC630760A05A7A25308CF41F07 (-0x1CF0485246ED1AAC379F4ABCE7EC8295E149CDF2B7D77EFB4C6E1BF97A57BC15) 0x7EB64987EBB2B5449F2ADAB5F684741DCA7CF10210F9D0A5ED6289558376FF (-0xD4C0B700B72ADDBCDC854ACADC7314FBD217002B92F57E2CF10B60DF4AEF54);
  CS OpP 0xACE6F09416AAD740503A0B1E10FB6BA51A13C3BCDCC5657EB7CB028721FDAC31 0x3BDFDED4D3FC1ABB71F82A77EDC1FA8B22107C773B28546BCF8F52C825E70B57 0x89A9A938752735D17876C28774EE1876324A33CD63E6DA4B75455DE7AB13737B 0x236F303CE0B67848E807F2F100F058FA8D3524831822BE3FF19CF495C9CD9212 0x74C7239C2AA44C63BE816F079CFF34EFF7EF9A6AAEE1FDD6411036C9B5188847 0x65A22FBBCEAD6FE2B4C536F3E0849859942C6C9E78F2BF1F37EE7C75F389010;
  CS OpD 0x83974665B9FA5C808157A5C3E8C4BB48F7CFBC11D82CF5F91DFA9AFE53D3A6BB 0xF5EA6103D739A3BEF894CF7F92422BAC627A05FD0AB219B339BB26F388F4B3C4 0xA1EF7786C5F9907AE8F62BD2F82271A5A628E51C93F48B0697E152B3A7D868D3 0x63837797618F32FC011D9A5E69592B878F8AA1D0C179FED0CDE7F06D71583231 0x43A42B703BB36A25D5375BB8927FC9E0608D9DD83829C62764E099BFC0684389 (-0x5FA14FF9A5492767FEFE30755B05531AAED6A579E3F169D0440C9DDB01EA00A3);
  CS OpD 0x2A39FB2EF44CD25A5523D7274B3172544773CCBD3FA66C4800BF4BB486D9EDF9 0x8A3E0F4A282645769350EE060D44CD23279C0398433864B426ECB2E9C110B029 0xDB0DB58259A55D0C515C73C8F1D744E40AF557AD5C4916D31748ED417A34C5C3 (-0x28F436F321EBC2081B222D50B971F511FA66174A7B70438E491AC20F8B7D2B966) 0x6F7138D39871AE6A964F00359BB4813FA1BA3553057E1C3E32787F1FC07C380 0x11C2A86C5CE97453E914621965562E05048FB9F7D74D652E72414A30B2D07463;
  CS OpM 0xE42F44B30F9EE25F1B6B233F0DDC20675BCE9F0FFB93197CDA9BD4511C14A9AC 0xB58023AF18D20FED4116C84D213DD81C26EEB4722458B05ED8FC102BE5E52AC0 0xA155367DD8B231006EBD70B4708D8BE84282F16F0211004C80385BDCECA19FD4 (-0xEB4BE3265A1B4DA3A5BE18D15870479B93D2D74142EEA59BFDA30111D637DE0) 0xCB643B1940025D1BC92A00D3DF2C7035C0AC2591DED9BA13C99E7F947C819921 (-0x268ED6E77423FA98B10390692E0ACE0D29D354908B74EF925CCFD80D7B04E4E5);
  CS OpD 0x94685879FD6BD3A11383B7882BCE20F217B6F36175553D9A358CDC19ED2B7F49 0x2F5BB61F7CA7769B2D75249138720D4BC7C7ED01FC24711F6D6D8BB2E89DD6C9 0xB95A73987301EC3B5C98F10B467C6F48F452A743EE537781FE35F87A20E2ACEA (-0xC6FD4C09C7452855F41A65EA7565842ED44B2FAAA0FB0DE5317B7A522D33A268) 0x5608D0D50EB6ACA9DDBB40A08A269ECD0FBE912521644FC84BBD6C15AEA647F8 0x4DC3BC7FFA4BB8E65754782BA22D772450F4C40080B072C07D3377B6F4A59C1F;
  CS OpD 0x3CE698A1D1085826038A1C04E3630B955BEA20D8154E1DB00DDB0904C4A011A5 0xA16894FE3FAE74C1B102837BE0AFB16B4C00BDD1DEE3B0B9DD8F2DA7F5FFEDFA 0xD1D2C7D7DCB759B090C3D2CD3786CDCB9E3D918B366F05FB68C7BB248B71531C 0x3DE7E88D446911641B0B33492EE62A75E2AB22CF402A6C45071DDCEA21A7959F 0xE7CE74277C012D2B5D1BD84CADDF2082FB2FB287A33820E1B8394AEC7AE2FC3 (-0x1B21BFCC2D65835E5C042B7005C6B67BFD1FEBECB2DFE21B086B724221D90855);
  CS OpM 0x7CAE54CE8FD477EF63D7F63D05D3431D1B06C8DB87A9E00833E08A34D1828B91 0xDAA4FA2FE28F0FF07AE1CAEA8E57B5CDFF80C5329C33A0CEE11E6A41564C2747 0xBB849F2C829CA3557C68FF71AA145E300DBF1FEF730D44516EADD5DD80EB37F (-0x1351715518CF3301F0A26633AA84631409996EC95849BF165526E0868A5E4DB3) 0x3CB958DF80398E122B9A1D3C8FF9FBB1CE79574157B189E609F8158F821E5F38 (-0x1BE03B06D297749207131EE5D8659C70A673883CB1B6A9973C8C2DF085093348);
  CS OpD 0x3810953933A7FCB2DE717F83F0A427E2FB8EFAFC27ED8C57631E1D0111965E4B 0x1858C41A4D96FB152FFB22BF94D5A7F568B1377AEB2A3FDF9F3DFDB8AF393FA2 0x7622B6B6E95D5B203971D97FF547519E88733F02FB80B655DE97F8F2860BEA58 (-0x22B160833F65AD1DA56E4B6B7AB915EAAB117D75EE1F4BF2D90D6C96F4CE532A7) 0xC47425C04BB96776F10917BC63058A504257A5F1B5B0C2B3DC0475365579187 0x2A8D41D9DF96DCDC3148199573AEFD76552DB61A9528911CC0503A8EE3E8A280;
  CS OpD 0x77733169EC5FC5DDD12E5A89A43694D969B487D3803716094E6D4B071E56E5C4 0x22375C326B0B47277191591AC1893A842EFAC40C2E28887446BA6479B21C911C 0x56D98F60793C1BD629AAB6F03FA39B5DE8F513BF445D5B9C88E75A16FEEB1A2A 0x674C4C043D50F01119653C78537EE5F956D3B4A0CD6FFA4EF5384FF5025B830C 0x37BC4BC5E87520506852FA80124118AA9A9586D6BE80E929DE2761A60108D150 (-0x49AE999390C2F9384517F37033AA6382B034ECF48805184C5783CD9C8418A36);
  CS OpP 0x92A1F3C252683341ED10C663F2E5C067C030B9F46372E3B10414ACBD8301AD98 0x8289D75832FD4A179AF354DAB0CDEF9ECEFBB3B38A5F54900E9B8163B18C6112 0x698BE94CC2B8EC3BBC52E3A0291D5CF667A43A0A43CDB731427BF6C83149D3B 0x32226324C2E2A17244362D2844DCACCA8FEA0318E79D4E817B95072D412F478E 0x53FD207E2884FD7A7D17149C9C86B536CF1D1166966EDD1F1D6ACBE9962AE6A6 (-0x372BF9D26732948A6CE54FF8553E396C3277F0EEA8566CA69F8E015800AC719B);
  CS OpD 0x1628EF80373720BD553FE926EA2E342093CCC918708F938AE8CA7EF7C1E3D815 0xEFF43D14FC3240F8D6DF6780B0882321992600B56F002E2592C46BB6590F5185 0xBF565D285202B647947542A2B68A8D460BBC7ACEA2DE365B23A733550565F758 (-0xC68C7DF45EF715C3ED55E189F63D152DB06FFC5C5FF816ACAC100EB9BBFF7042) 0x1EB0FB5C19F622AF7FC9E7E91D4E88E358250255F04FFD8B90392AC86FBAEF0 (-0x978A3BB409187709ECD539C53554D51661593041527EB7249D212E594651F9E);
  CS OpD 0xC54B4400D3FC00256D3FA0D1A69BEBB368BF4AA6C8AC9F95A64DA805967BBE2A 0x739FE7789A81C55007A626535E738666D32D2BA05DB88C7548D057EA84A64C7B 0x263E4D2B4A77BE2FCF0ABDF62545EC8FA2822A8F05313D47078E692F8F875DF2 (-0x17BD26B9346360F8C325C5CB7115AD77BB38D17C940C83563D39470F9116F8085) 0x980CECCA30CE7E803FAF3322AE78F67807F5DD7F1347104CDE03D3D0A19803D1 0x5FD1739D39AEDD765A786A88579538C8BBD64DAB8C67F57607BF7A734DF482C6;
  CS OpD 0x87D59408A917E629CC7158B119DBA02DBE58D796EDCD6EA43F29A672BC2FA8AE 0xE33EA5AA864DFB385D3FDF5338355BD5738C3308DDBD6464280CEFF6AA902AEF 0x99F9148F343A214276206C73A44A94DAC16D62C7260DC18B5F138AA3577D329E (-0x7415A43C6989AFDFC2BD8D1888C0D5D4E432B724C1EF52999FF43310FF0B8D1D) 0x4812F450CE5A9A53BA7D07468FFC8106E8B773D854C877B26DD34AA5F707D0D1 (-0x3B39D5EC1F86E664B096844A5E555FA708A0754075F550A30C96AFC48446F118);
  CS OpD 0x842C66AB86E15239356A137B76BE84F70AE2AA1899D1CE4133382C2CFC1F41B7 0x410ACEEE731C12ECDAB446CC8BB636F7B5357FD4DCA4D76C9BAC66A73FA616D6 0x42466A565BF595B52AF272F53862FB74D867B25EBBFC4828671FBB7DF5E1B701 (-0x1BE2A350FAB7C8C8DF00DB60F923847431C5FE3EC4FA20D9E25DB8CAA4CF705B1) 0x443DD194573BDCA84859D7F16F05580934D307338C00C1BFA10A108348AA3573 0x53BEDCAF37DE4DB098B2A8D65A417BF3F30CE04A6B2C5624AA7323BB9EE476C0;
  CS OpD 0x163560D48D712A3076881011A792DF0C9857C1B7D996BB43B5F361EB8AF4597B 0xB1674FCA02E8E8F99F39764E668788A2AA95E2B03127185DB772E9427D852BE4 0xDF18238985E486CB82A2E48465272B33EC0C4A017D366380CC1AABEEC5CEE09 (-0x2613BB0BFBE046EAB04F29A157EA90FFD04B7B2211C5C1B03DEFB2CA746ABC2A) 0x1ED37C5C4F21EAB3DA88AC3B5D2F1F5294C4AD91D9B53B4B6C61FB80352D1C7 (-0x9BF60B986D209DF910F0395F4DE8E4D44E0176DDFCA61BE8A17DF14CADDA67C);
  CS OpP 0xA12EA8B8DF4BE94D2B00493FBDFB2B5159B888240415909940B09815F6AD7606 0x8A10BC8A5390A2999320D9F6A73ABAAA9A47648239900562564047F95CEAD575 0xBD1D38F23EA816E6B935D6CD91AB7427883F8B24060B4658ABA2F367A9DE587F (-0x230B5FC12739D8FA7701EEB4054BFAB0F289B3100846A92B08EDAEB346AF5E39) 0x657BB8B99A80E55049EBCE91A92A690C090F7BAB7EBB8F18EDBA54F478F9283D 0x18C49E16BBE3BB7247905E9EAB95EFFD15E0A3AD2405FD547C2277D49B47788E;
  CS OpD 0xE5F65C998978297C3D0EFDB665BF08060CE13C4342F72CC7BF51B6024131E089 0x94FFFBC7AB878244C5533DD8D5B670D455BFF3F3049A1C796D99BEAD00CEF143 0x5626D18972D5424FACE6457BEBD0029DA65EE2804845A32D21F382B9BBEC21BE 0x74601FC2F3E69DAA7D879EF1B18B7EA4D8258B97F9A92AB4A58AE485AB4D56ED 0xCE92AEC0C883E40BF946E1E99365FE1A4107DBEED896571C68C2A37FC5F1A81C (-0x9D2896D2E385F5875C9F75655B355E286FEAE43993A3FED3B5DAA14947BC675);
  CS OpD 0x7B6CC9A23E03F41F271F485A47E7850F2127C45EBE982C606AD654545C658367 0xF609D76C566C34B095E0126511C1D475875FDCCBEF1F5ECECD852D1349C2F9EF 0x7BB54FA5A2DA7EB14B15DFEF3CB40F0867A1BA38E442F8913A6C38B33D7C9270 (-0xB1186B7240FE555F773B523B8B6A2C2E4DFB11B029896CE7321B327CDE9BDEF9) 0x3B81B7FCA74C4C20AB40DF1728F3F486ED0258247222520E4E6476F01CE7CDC4 (-0x2EC8F91F04C7256F702F804D2501E39881C0644DA63CC1D986901F823B1A7E3E);
  CS OpD 0xADB1B11CB7A6B9FA8E84FEE03236DC2F7EE685C6967943ABA371F87CDF716887 0xB606429EDCDDF8E06B26461C4E85B8D07BF36F63B07B06D18F55DC4E0B369A63 0x1C74D024E1AA5D2B2059FE986CF49568113638A920CD64BD6DC74144645B5DFB (-0x21D85F5A4B8863C18B60CE062D7631D49DF4F32591C76C2974389ABD0CD3D2F2D) 0x75D9A4B7347605170E7DC6C07B3C6C0579B017B14A78FDE32128AB3479933A10 0x2B6EDA526568C17A47831C6DF329AFA64C85A52AE6C23396348CE39004D87CE7;
  CS OpP 0xAA26077313D4C68E147DBA5CB3E9F13595861D4B2C7A524684F2EBA1BEF2CF25 0xC0C91E1109E32DEF1C4B329727264290FFF24999839FAE46A6EE92A6A56EA25F 0xFD78468423277A12872459023EB4030BE580BCA6CE511123E674FE22BBD1B210 (-0x2810AC98E972B5F55F7215F2DB828C5349DB11A1ECB12B856417DA0E2C59C52C) 0x7116878B0CB7F9B01AF47FEE47FB4F62DB82E453256337ED6DE5AD23D8955E31 (-0x726FEF68F363F86E22C427CD6ADE010095A2DFBFB81955D89C16129013B3B39);
  CS OpD 0xD207FB4BEADA0D538D1F4030CB70D64512260EA1285FEBE303EC0EEFE4F9954F 0x5BACB8AEA6AA3E816074CF3DBA89548E46BF71A30672C4D71ECCF36FA216A818 0x8A2FFF2A75600E149262C1ABE81B7ACD02BC21C0DF5B70A25380943470A804B (-0x13A1BF6886A41658A88EF21F9739901E025E35BCE483FC15DB08219B41F3EE8D) 0xAC51188842228AD4D771FCCCF99A9D68056F34DB65CC9C6B95E6332F9251CD65 0x52F472324E90AA302A171F95651AAB2F37E42B31F0B2E8F90E137DFE667AE2D2;
  CS OpD 0xDE72EA6EB40D9675C4EDF65B4DFF424C31CE238EA33A969D6282E2FAAA0024E7 0x80FD948A2012115FAA5D1072A47A508CE8BEAFC3AFA0EEDFD567BE032D15156F 0x5C7FDDB364DC52DD6C03A708BADBD3BCA5B256B5C68FACFA90DBE504DCBDEFD0 (-0x537A4A984CC1A89C4F68A344EFB54D66329AB3B7FD27D6B9C661E329B0C8977A) 0xC14B822DA18E7E1653CFD0BC44C9AAF0BF76743CE4A605F252D5816AE13E9BCE (-0x206CDED646F803FFC36DF41EE29CAF888148FB50AE0C06C82ECEAFBBF57D5124);
  CS OpD 0x40CD5846C567D5FEA5260BEC8E92F20D993A1798E96B8A1D706108EADBDD4626 0x2B00D81A2CB111C2007DDC1C8C223A28749F001F40369E974790FC4350C5BBF6 0xC7BE7CD82C6E0332073B1A94A6FE5E14B792F0907481A8C1A73DFE2B60B37398 (-0x94275BBD5D1243971D6F98ADAE162E4EE022D5C3D7649EA80378D48EDD97E1CD) 0x106750D9E27CCE93FC889729A91E26D692D46E179D533AE7C2A210F83B56C230 0x15C4282588AE846CC876469B68970CACB135C53291C9811EE51AFCF4FEF9A4D2;
  CS OpP 0x6035710FF98E18D37DDE387D1E0DD6D8AAE3C47AEE6AA246B734A10057924C06 0x407F446FEF8C5E3BA74E153BEAD71E84253B9EAEBCC22F4F46C820A82EACCDB0 0x59305FC055CCE160453DD0D353F633B2B4EC0B02CC054D8FAB4D74252F5BC409 0x1D97856ADD86C48232C5F5F990A21101AD4A9F8613893900CDBEDCBF4B622714 0x24281FF3FDB702C389D02173202428CBA73BA52AD4924EF4749E4E41401EA7FA (-0x813E54ABC01ADB2C95EE78B2A8AD2DC86A0B3A3D5AD59868393D3674153E593);
  CS OpD 0x4AB9E24FB84FE7E4F9C6A2C191228CB16FD9800D7DABF2F0712546BDB1468894 0x7497C6A35FD093C1F4EA05E97E84749C2AAE674583A85DDA4B1ECFE8697A62E9 0xFFF40DA76C38180ADDC56C4DF811F694FE38E322E37151E56C5D629A072121CD 0x351D87FB789CDEA02430141C2960EC8BD828FB93D782275AF96B45340F86518 0x15CFFDCEF5D76FCDE4CC35CE1C10AF1F8C3202676B75AE9827FBB7D04EA55869 (-0xF34E966D1A35015397F8C92EF61051C632EA8114389096CE4B58DE5D1313556);
  CS OpD 0x61A67A3A0A6BC354B8187F83F5F90731E9CE90C031EF2CCE19B2C0FD9FC583C6 0x107D4CB50765DF209ACB076A8CE3054CECC0BDD0EF8C070EA5128A8F6D833D1B 0x4E43A05C59694B367B9A27E4A0064DD941B5E0965D4CEB7D59FEF7B0D897834C 0x23F62543487FA055FB982BA64D45F9DDFD066373D75A449B9BA04786E04F8867 0x253F94E2B9868CDEF4CF2AE1A06B3F9585DD9AC0C2E16CDADE48037B895C7879 0x262F2129B03C25FAB7A84B39E1DA652C6B60BDFDDB1659BF9FF48CDB34455BB5;
  CS OpM 0x1D98AC89E0BCCEEE6C51B88D2E0373C80701EF1C39B3566EE98B3CCA76AD6ED1 0x1EA691279EB79AD7FF48CD6B2F3BB5EB40475EB746D5293B158D2A1BEC41A178 0xAEDAFCDE5ABD05D690DC1477F3C6E97372B81892EE158A52642F9DCF4C535383 0xC2B25839DF080FD73309DCAD91E1C24C6C8DD498099AF336D664063779369BE 0x36BF22494EF3757C51BF6FAB68B58A3ED12820713FB28A7F68F6CB385952B6A (-0x1A31ECCF9AF476E0E21017C2952CC2DB7A4DCEC8F983B7B2105B7025CB9F404);
  CS OpD 0xCADAA67B385111248DDBD3FF1AE4479E051BE15A2BCC091C1EADCA038A1490BA 0xC106CCF1F6307170BF0EFC82D70E6BB17A547E1D1DCE87F6E4B578079A8D70E5 0xD1DAA39FEA04181326A236EA06EF395409D9B509B0F9B23D4440ACF19E6C2C8E 0x10A19E440548A6C1DB17EBF9E98BA7440A1BE9A2AA5A12376ED7122F3FE2A2524 0xA0BDC97A6AFFE1772EA5F738E56E6DBE6738BCFEEB54A0AF45D3D9276390F2E1 (-0x80AA9EB9220E3D92693F3BD4C751C6B2D5C2AE3ED2DBB5A7B7880A79C8AB9F2D);
  CS OpD 0x8C4568A4B361ADC07F95D9F3E48520DEFD0A240B8B9C2F25EC909A184B4FD15E 0x51E96AA255864D9D81ABCC4AE6D31DF7E3C4CC1B3C4368241F2930A5D7D65CF8 0xF484DB115223A25110FF4620E4F855E3B2CD9FE84BF764B229A6699DCB8D5EBA (-0xCEA8D536768936301E43FFAC5980F0DD7AC01838DA8761DF7103E9C19F6EC22D) 0x4CDBFD45B7C1C467E55571B7CCBA316AF794B9B5625DC1EA3A9B3F41275381DE 0x3CE2321A77F29F058F6B8FA773D3B7CBB66775D67C98A18ABF5490A46CB4E3A2;
  CS OpD 0x8A6A383613A946839094986F2DF434FFE1923B4D18ECB073A0128F55A433988A 0x3FEB79060C3810B3DC44ADDD77EE77E3BCA4AC77B0D575F3D0AE43AF6602CB70 0x916591A2759AC2F5F4D0D5105FCC90E8F6BA717877EBE45B96896541FB0BD76C 0xB9C986AB7E3D025243C0517E6C2BFAFC468E9613EFD6D700DBF0D4E1695532B8 0x4AD6B0ACE6527C3A9899CE8DCF9573E24E04009F979C5BA1718D6717A6F2963C 0x9BA5B57A4076CC38885E42FAE172DAF497DE6322C12AAB9048FAAAEC1D0D8F6;
  CS OpM 0xA14B43569E1D7161C67B2456303598EDB4BBDB0D80A7DEAD285BF2EF4E8268F4 0xA8C967B4256F7F983FF3502A8EB564F6293151ADBC87A522DA252C53D6AA78C4 0x9159A6E2A4D7F95FC3F3C7C6E9D6D66EF8826CD86AA9BB6B07799E0C3E3F01E1 0x246EA75A649B70A803208EDEDB87109A1A3E9871C412981E43E6B75B1141FCFB 0x659FC0D3795821EF71BAE6C91643A03862FCC82445BCF025D745D81857BF3A7C (-0x421267B5FBA807F69B4881FC9D6B9A80F82BE1162B1E31587E0313177B541033);
  CS OpD 0x250961F241D214CDEC0F89C31FF47E4755DE1837182CDEA5B64C6C65AAE92C3F 0xF9A7C82D41F9094D5E375196611882FC116E0E838C9E9FC3AF40C592593A714 0x817C4C5FF9BB1690BEAC3FFB481DDC2C5B4DDD3F8C36D8DEFE0EBCD15ABE2D42 (-0x123CC51ED13CB603275ED5C1EE167C7596FAF00383B96C8B6E99E41F882EB232E) 0x55BB6A80F88D5EAB296D416E0233ECAA437663E40F834BCE658AC2FF200AD2B 0x1629654022570C7062DFFEBCDA755ECDF58EF1F58269D3A88548A66E4933EB63;
  CS OpD 0x1DAFD6612F2E9F9409528FAE2296F5B66F84DBD231774DF1B9F4AF497EF97951 0x3E8477F6578054CF47BBC8EA607B27C24FE64C1EEFD74A464ABCE32A03029807 0xA6E063229E180EC7AF165A5E9A32594A3AD8CB85860681D481F32800B7F1CE7F 0x1B2DA2A82CF339783EBF1C35215372FAAC51327AB2FA1E343DC85C7C55B20D2C 0x3714F58D115B1AC7354084914CA6576C772FDA833AF05C45CD2C9BD6EAA9B2E (-0x570BAB861591C6C4694619933EE2BDDC317C6998745F83D8018670FBAAF499C);
  CS OpD 0x117516D8F05723EE52D11EDA5F34C7F6FD31B1C44C0A4E735503D41C26EEAAC6 0x99D7C1B75C92BCCBEBB8C2642CB1DFD0F5F483D1222569D2A02261A901C645C2 0x3C5CE439C4C48BF4A7CE817DA804760A4E1DC8FB4AC751C578DD7DC8A7EFAC5B (-0x170AD7E7263EC0AD0E8450BE1E7474F229CCD6F89EFA0B359049EC5004A13711) 0x130C296B4414391EDB492AF32C10E2B01D350D020A46299C23F91198F6660EC (-0x63A4D1D12E786E1973B69F455C73C9EDF4590ECC34D520C7A85038B7FB3E544);
  CS OpD 0x145E623ACC3DF1AF8CFFB6A6C4F6A5F41763E574EDEF72DAFD805389E5DA29B7 0x6D3744BC5DB7712A1A22A8BC1449B2E0A3EA160DCF2881D20D4A16D33D77B94E 0xB6049AE5DF05CEC8CE5F05F7054BC2B882D5782FE58E833C7F3BE5B4B89A57DF (-0x10BBFCBF8E960862BA439B031C4EBB1F6BEBE1F32FBCBC391BB05A9EDB54013AE) 0x19EE22578C8BD2187023400B7825E40784839CF6F402D95CBA38F2C6C6C1931 0x38CFDD12FE1CCD3954550170EC8FEE7946833ACDCC98D3D9DB4EFE425C1EDEE;
  CS OpP 0x11EC1D8C0C16E1B7F861B9A3D4B4202E6CBE427E9B009BABC0D71DB05206B4B1 0x5DFC7B23741E7B087F7B1F5B2FBB54756675289BEB291DF73705400DB19FE634 0xD394E16C32ADC3597ADBE89F35B405E754C2C3CF71AF961D6A3CDA51CD2B51FD 0xE08743351762AEBF4FBA3F75DEF014A4630990FF587ED0229F2086CA782F7F 0x14135B3173A5B8502EBA588A92F02C70D77CE1DB253CCF7EFE58D9EA9718469 0x110F356FE2F315F50DB9F62897FD6F3030E29633B078369F1977D0CA82BA142;
  CS OpD 0x9C7C1A08F3D2AD3AA32501027FCF9C584C0C85CC3D4BDAA13C05284B56F5ECAC 0xC7905237EB5CBB78406FB8155A225B2FC3B7597E957B0410F16B78CB57844150 0xAAAD26DD79756AEA19CE2BE4E4BA91337FC4D5FCE84FD55E13C483E90854C960 0x9B26569006844A5838BBF0EC62B34A50C3FEE136938177A3CBA3E414E7C51638 0x5FA77BE4247AC90E3837841FB7D9A057F9CC7218F2A0BEA1AD18CABCF987A9A8 (-0x408945695B98B60B4F4DBCD00A3C2CD4D54AF610D3419E96536123E5305E2463);
  CS OpD 0xBC002F2AD90C6E834F0EEDA8849C3E54FB73A039108D5DF2CDEADCA6A9FD3CD0 0x19E66F338801C30F11095325A69D06557A16F79DC7C4C5CD04109994B75FAD72 0x915C1FBF7CC19176980DD5AB3E9A7813A925EE1B39DBDD89ABEF060BCE33404E (-0xD80683949ACBD08AEAFE45EA179CFE2D730F9B83A492F2B6B2A9DBC1D6C74100) 0x8A104546F77B052F5CCC7B2216FB2B2282050FD78BB7F859506CB0CE86081472 0x7F88E2B67AC14BC0AEE0A36BB514F38243F5757496B53199F8AF8A8EA53281EE;
  CS OpD 0x26C192FA9AF50363D64ADC4D1761E0EE5970A233EDF9B4A97CB307C42409581D 0x76991624079A0857E8AC969BC84406E7CFC63D69D508E9B562705AD260C328DE 0x109558D2CB33B60384E31D13DA47FA43F4CE9CDB54779D3722C027B15433CC2 0x2426B9D22F7DB2FC5C5F3D500DD40E89496001D473C5AD8D6D94BDAA2BC940A0 0x5DE0A01584130833C5B884697A23FE4D7CD6FDFCFFD003CEDEBABD06365B429 (-0xE089CB030092C572DB38C1615F13321D57A946AAB75B67C2DDBD0EEC6AB1D74);
  CS OpP 0x6ACAF7CAF220CD43E8687EB58904B38283ED81E49CE0F57C4B4F1E1D3C3193EC 0xC3549F23F3890A942E731A07BBBE8000267E1AD5BF1CD285AD22135545D52754 0xB903BF5CAEAC79B24646AF31988ACACF002C54DC7D34E5FA1CE4EEB96C435AE6 0x14FF1C28F059B89B4BC2BC45FC5F77F762024615014BF8054628115C9D3041E 0x2C8CB6200CA285DE78804FC30E53E2E06617CC45EEBC112A39324D983CD4B31A (-0x20027CF9D75D449212ABAB28B025F5D1F21366DD7656961842E63C8111752C90);
  CS OpD 0x1D4F6CE4FB69DC9F043F5C8024CA7FBD1FD9E64A912962278BA588F38D0D1DD4 0x4FCFC51F866E09AD3A470C99123DECB0CEE380EB264393D4AB784E76C7B2AFCD 0x4A1BB0530025F734EA0F44DC3623762603FC5DC5D7B60CAEBA044EA9015A60DA (-0x194C06C2B8848812312C9F36486746E5A88A4E154ABB08418945000650AB87A40) 0x35B1750449B28444EBAE34BB13CE6A86B7297FFABB0075560901692D03EFAD5 0xD39E3D52778CB35B0F0AF21CE19D4292979EE5EBCA90148FBC2836A7DADE6B4;
  CS OpD 0x37A129A91A0D8AD14208EF6DBDD959C23AFD5F9F38F7C0F679FF70057F1C2772 0x3CA37DB7736B898AE711BD85E23518927BF10BB7F9BE318A69FA5479DA7B86B5 0xE53CA7077C1A6A02022689E6E17969E21A05764E833617E3C3FD08591753F966 (-0x2A70782748A12F7F724A6A98AF0B950170E27F66631F6EF5D669DD49ED33B11D) 0xC16A55C16AC30BA4493F678420A4171C4D717110BF6D04D8BF0EB717CA2289B 0x42A954F0627CFBFA5709294CD70E83F42F5972977FF6E137D3DEB334D354090;
  CS OpM 0x900495C37313C5FA1EADCF3C59B346AFE94E2A336EA5C4826C5B6D6B5A454ACD 0x3222543AFFD9C3CB73B554600007164BA263DE03670F01B276148504CEDE8F8 0x3628FC4A65E64CD4A6D6E06E8A529CAB2CD45B48CCC45A187B610C671AFE8444 0x22603B1B2F310605320BF10BC3B3E9417D5EF6B23C8396ED393DB5D96617CA2A 0x51052890E72EF0851AA406B9229E110FDF02E81D234DABBBB423C6ACB193005C 0x2059C96AAF982FEED1A32AEA749C0B69A4160C83FCDF943BBA64C4AA2B386F81;
  CS OpD 0x6433E62E3E60F70D99AED94BCBD60FF81D887D1F6BDA62A2D6FA25064C921C44 0x8379C6252B3D0B7966FB2E7C99B39F152F4B3455CC93261DDA0FD8964A121A67 0x717EC954DCFAB9167AFE6299EF0B806F32B1E7347D30F7D048280BE8A1320064 0x2A48868B571FC5B5CF1DE27506F2F6AB604316D53F4D74622E83C273CCA7AAA0 0x27389659A61FBC15C5742ADC03CBF0F2287754D8E8BC3A69630D9D2653219A97 (-0x323C3FB30A9FA8044F34CC9DCE90049AE6AE2848FF36D8A421E4C8E90AB8DB1C);
  CS OpD 0x10CAD661934CC4759A49986612FBA2E160689300CCB494AC8EBE0B89E5E5C24C 0xDE714BA33837E025DF73DD49A176E8BA9CAF0B79C63DE623E8A5F3C1BEB99DAA 0x40EE2B3092CE6FCCDD326152913EEAACC98A6649256E7DABE4F41B3634EAE221 (-0xBBADDCCE056C65EE311E9DFE22E1E3A3A734D418FD69E8B517C7FDC7C4554E7D) 0x119FB8337ED552A0A436EE785CDF98F1AC1F0BB459AA3ADAFB349C1BBA7CF68 (-0x5F78BD4CBFE47C57F78D0618D57B57AB0E495D1605140AFA49BEC57236F8EE7);
  CS OpD 0xA1238EB6C97D32B2BBDEBC911B3106F3C2388685C05A51217CC153225DECF91 0x6C1EC32047275C092FC27ADE256FF6EE5A2EC79C85CD0005DE4ECB9AA9F3EA31 0xB5E924A1299CCBF9E6DD28D11B8D9C09A8BA5E8143812F7FC386ED58F0260174 (-0x23EBE3A3B58497592D2E4CCF47653B80F6F68C619B0C76DF1394F11662D42F8D6) 0x656DBE723EF9DC0AAE05BD7B855FBC705E0C1F33FE5766F991797AFFA10C24 0x47F5C8DE6BE2BD460C98566AAA6BA1B3B8958C201285A5FC11A9B75BB73D34C;
  CS OpM 0x41EB8648EF7BE4CA2E18D28F796E2FF503E4C1BDED4E555A9DC1CF596E0AACB2 0x5C1DF026E43E9C498B4303A4606D9CC91F1219D7451395B50D56BDA86AC697DB 0xB8916E4C431EFB1ACD1F90A2789F424AD7142802E22081A95E15CC4C2FB01DB1 0x382112B74763F5A41B5D915E0E61DE7D9FD12D87CD1F8655D4929B130DA5C55 0x10F972E0D9F50721FFD627A2824AEF455922007D0274531F56531FB623F6E7E0 0x41EEEB7FAAD47EAE41CB526B7A9087AF7FBEC588A61D5BF4C96529BD24BE509;
  CS OpD 0x5762A9EDB32BC50923742159AA69C694D14FCB32339301B9233CCBC4C9774DAC 0x418CAA4016E3A38B90A9DFD8C0A9F37177877D54BB8FB8EBC9DD721027723F65 0xB440B5A4948005FBC9A879DF076A7D1E0513EB6FD26C16E218875B35709A5824 0x1A90850250D2E047B3C841D959ECD1F15A49EC912DD7C8B77C3DC0AC8E5978C3 0x1DD435861A90A0B417AF345603D5E185371522B8F57C6BD697C6FDD2E311F49B 0x9119C00C45FBA52D140C14B1A415142481C61C165B98EE41B1678A4479953FD;
  CS OpD 0x27269F19C7FFFD05CEF85A1E99F20D46CDDE8BDC75554A4AF903BF84968E7FF5 0x854CF6DF99A4FF11F4CD823B686879F91534BF9C329EC4EA9C55FD12E5BC93B6 0x62A8A141B8EF56A49A7DB88C9DCA7E93FAE80C2798F7942799CDB14FA0EA028B 0x4C7E75D2930A8A3BCD5ABFD9242876FC553E417755FE4552AE99AF3EDB94A33 0x5FCCA4D7978681F8B55BAC413DDFB33FCF91C8A4BFBED7B5CF76BBA8BA1E657 (-0xA5C8452EEE5A681D2B7DB3B9D6E6AA055A7CB120955B41251C4CBC2F315E70C);
  CS OpP 0x7F1721C93026DFD1338BAA42D48B11B03A50735422BBBBE0DACD948870BD54A7 0x4DF25E7F0C3DAF6441E88977BB3435BCA2BB130BBD3FDACC27A8168F9D871643 0x4B95E6185325772E138740530F3ADE9F37CBCF8329F0CB89B3791EEC6FC9F4DE (-0x5BCC4F55DAB0139EACEB75A1361DE5ACC68741354DB8704426A8FB670067F71) 0x3F17F59CB462B5947489D5A983389459C71024042437BB7D5F4B125E8C483AA0 0x1B7AF209C5026F428B6DBB0FD086BBBFB63E2204EC2F1A5B6F29569398E31C24;
  CS OpD 0x5753A1FBEE05F8AF91EF2E388B52ABF85CCEA505F51CE55B4D8AC9D212DB2202 0xAB27462A8A0DC40C2D096D0D80C13F154D916EAFD9C0394C409DE1B71D2094A5 0x5DA613C62252C73877D73F270E8D5FF850E3927ADB2B698E8A73DAC7B5074DCE (-0x13A1D1AE9D21F865FC5E06F60199A0FE9F5C9F8CBF8CE39B7FA0FDBE7B4CD54D) 0x1DC9F36BABA34036B6DACAE3864D5B0EB58EF9F9877C02A1F7F86CA04A610377 (-0x1FCB6DDC6396DCB51D66B956847DE83739B727C3B72A6C6EB1F361666C99E790);
  CS OpD 0xEB110D679690F00F6E5414A26755D10D530D29AD29C863D33FCA66A7161730DA 0xCB5B07B3AC2FEF855DC930FC4B03E1AA7C87E12D80A098A30EB12514F3A29261 0x3C33B2BC9A46EC64406ACB9C4F76196039BB0FFD840B792773B172D4FA229BB2 (-0xAB4D171ECEBC00B0136B9E7B8935340D8156371BBA8FDA341A22492D156ED33D) 0xD7D84FBEF6E3C731702BEE0D40CDF6F3646CE1148BEC418C4B1FE62828101657 (-0x1D91A7C8650805CB483DDB4BF6A8312E3DEA2D207484E3F9F9CA028D4AC31FE8);
  CS OpP 0x64CF6DFA0FF5FDEDB1D45C040018C26A270EE7129AD4229A0E1CF3D961CE4C2D 0x2FED0677B22253E5D5FDA50C4F4704EDB6507E4AACE5CA44932C5C97FE7C8667 0x62DB64E7D54E7C7D73FF7FAB2CC22BC887C46054C7CF6B872DD8794653988994 (-0x20234FAE57F4283735E66E3A6C06DD54E2F68DD055844B3ADCF19A91CC05BD95) 0x27B2B5FE661CE40D01029B1FF7579143B05DA062F0A2D79C305DB8CE369129C7 0x3D34E93416D10C5ADDABBA77DA8CE0653E9CB9830497A737E4B4D4731627A614;
  CS OpD 0x51BEA25177DF95C748589697955956B04CF131E07B9CE6E0CCA4F2F6E8E29187 0x8546312310F02B35050F87FD791D91B01D44BE1866B37B5DE3C987887399E9CA 0xAC8CED9956F451B69C1465AC079F9CDC5BC0CE149486B8D7EE14BAAFACE4DB70 0x243765624CA56D9FCFB0F1AE2E11F9CA6445A2B01B7F8776A05D53EE3338984B 0x1A1A30ACE5B4A24E7CC612FCEA3F5A19C90A9BA64E7DA6B2BC5566DBE8CE57B7 (-0x1B40C4CB7A5D6D8E46A89E9076A3DF41E6685D5044E01518D6F716BB42DA1717);
  CS OpD 0xA2ABA6A7555900A75A380EBF223F8C0256A6524A11598AEDC19D9FC17A021E4D 0x842BCC5DC87F3431117222FA149A30499A62575D32E572F53DCBE2C1D89197A5 0xC6A976B85948F316C9C5F3857B6393319F3CB2B3E679E478C59B9EACBF1B2335 0xB23BABBCB5608B853515C8BC7AA7BD94C79E12B95AB7432F67F521BF9D69B0C 0x675DB203D80E19CA912D96469939AE0D1BD8ACF0DB406AA0B25B9BC53E541B10 0xB3711DFD8CAF1443E9FADAB6F9C7CEF38D65827282A8B24F61E911D700F044;
  CS OpD 0x6DF816F6119ABA6F6C9BAEA208EF310C70F785074B6EBF8FD9B8F3B5A8D29B70 0x20CF7A68978084B842319C230A4F9241BFD2F36D054F92B9AED257E870032E7D 0x911481FDED577225D718FF2A2CECE4BF77B72EBDF999C4646D18CFBDB31956CF (-0x220A3BAAF99ECA5D6DAAE869C88A6FF8D6FD40BBE3A64D12BBE542942D828445) 0x2F3D33FA09CF161888FE5F6F7505EAF71F6931FD3E7C14D4AABA18394CF82517 0x2AAE993E3BFAEA9A4D93B0D9755FF64FE041F5D9D71248E0C1F554DA2AF6AD44;
  CS OpD 0xFA5AD94ED577E8DAAA63CB4E524D5ACD05821D74164885C513A824D1AE259843 0xFA705F3E50E51F2A242DBC5C4D44E18D6B35DCC846C150DAF4063205AB6AF12C 0x852A89C5AB21CC317F1287179EDC00B187D25AEEB1A951DC14DAC309F50D0DD5 0x10F25725978466E638CE29D0C132409954137606415F96AAD83A780088AA833F1 0xF4D590AB7CD30946DE6013031DED27B06D9F0DC83DCDA6D4BB6B04A6E1A18B0D (-0xD4D45AC590A71D9A2C235FA7FF7701266C090581B0DE8F490F0CB7F4ECE6455F);
  CS OpP 0x56FFCE6B26BA43FBF2F9BD886161929E816E2C3813FF41C613A2D70C8F1C0759 0xAB183E7BAB591BECA5E67A1A22EFFFAFC1BAEFAC3ABA8AC22E1E6366D5457D24 0xE8071BBD392CE583EC4E977A79698D22F70257D68DF7F31C58CC7A50D679064 (-0x2BBC629C21D98131DCF44886727A470ED6E512BE016DACDC17F39E3843CD2559) 0x1D90DE4CDDECEBEDE227FC3BE9388BF002E62BAF82FC630497E62EB375025A47 0x1AF6E3C425B312169816665DFCC8553805276507046C1FE08BA85481E27D59A1;
  CS OpD 0xCF0E3E592778BEDE7CD4E7C17BCF4C55A6D4DCF3B571ABBBF1AB5E57D3CBC5AB 0xA6B44B0F3230010F452E7C00732950C40B08BCC24B600BC078DC459437F76A6 0x7C85276ABCFCEF15DF4448035D5AA7427030282EA261E2E33E79525CA8CE8D2F (-0x13F96DC44767A7EBABA10AEE9045EB38FB6A3D89F3658D9493AAE9686B41901E8) 0xA778099F0EC4E40BA2B47459749A8D7E5B88617F994AC5881634C600530D6BA5 0x81F4CE926D71E6824EFE019D585B8890159F652DAE33B0E0909EE6ED84D5D219;
  CS OpD 0xB49391C9C109939E993A3578644901E48AA12AF6B0D0BCE242910D1883EFBC52 0x6E2C989DC0718E65DC3DABFBC237AB3E4FE25253F05CB360D72D134E1F1FE69B 0x9F516AB52E62A45E663B3577E2AB3A39F70F30E4A810C5CFBE3FBBC07CD322F9 0xAE65233B85D83C93FB3E7F34DBE41FCB7E6BF626F14E521859EF0E3204C817D0 0x7F5FDA14782F54441B70BD9C1C94401B60D9BE590EB0DBEED937D718F135D733 (-0x465D6FD4CFE1A0FD697186B60EBE6A24460D64CE22255B591C1CC0B0E70D5EFE);
  CS OpD 0xD0A04B8AECC05E1494E8E7241D6BEDFC64F8332AB512534EB02BB57AA59E08A8 0x238B0890B0E23346491655ECD6839C3CA9A88CF6B593F1D627CF32BEF95C9D9A 0xBD1FC8BE4FCD070BFD7E0FD46495B1B65641BC1CC926A4C4E4A1553B7D99E01C 0x756CC06D450EAD735C832849A73D0CDF3571DF18406C9F5B5B90D82DBDD1A8CB 0xAA04DF2044AB3B73DD2D562FD37C6C58868BE3BF59C23BA1BEE9F5FC94D2A790 0x3CD2000A7A1EB3A165567AF9795C80DCFCD3E178BA164DFDD3EB497CF8C417DD;
  CS OpD 0xA262B06FDBDCE15862AF8B5E2B8A3142B1148F914081A4B31BC923688EA2754A 0x990C10E359CF26D04779172D7908C1A5ACDAA12FD0E57FEBFC4ACA265BBBD3D4 0x48A03171762EECBE4AF057D2DB0FBC48701FA6E6D90D94B98A682F75BEEC0DCE 0xE1201B89EFCF3037430858D915FED5BD208811E7D667E2A33CD84022859058FC 0x67010D592181E18080CA5542262F05D51ECF82EB253D0D089ED7CEA7AC8F5864 (-0x4A88F3A58C20D13D8B7DB3095C0805741012AB7A5C668EF8EF351360EADC7CB2);
  CS OpD 0x8B6D9C53A9994CBCC18EC71476D305B43723FF44D0C8C1B264B49411661AB266 0x4F83A7F155C0EF2FDE923037A6142C9E1D31832FE0B6C7504D7EA651B3BFA7D2 0xBDA69DB6DC88BB6112720A84B158DF9AEDC28F0C69E4C29325C842521A6C6C60 (-0xC3621F76020349E3778DFE738B5C11DBA40C701EFE61A140A1568D2CB64E1FF8) 0x4BF036B158E0F7EA9237712F4DDADD9768BB2C1AA000D6F1FBEF03A5A4EC64F6 0x280C8CF73F24090AF70366C5748EB00C8A366A67FE083F10FF8CB6B8C8CB59C2;
  CS OpD 0xE6314DA67823F620FD1787C3FD74B85F8AD3DB9928C8A38D535E191294AD3AEE 0x8D98FD2BC1A22E6645DD8AB1F8970BC21050CD872131D97DC11C62370BA4CE01 0x2A327F7AE46DC1AE2DD103AA6210D7179840C177512EFE904D05EEB41643829C 0x10AF8E0250EF559882FA16C98423634EDB20F343B0FE3EEB2F4BD3CC3A481E08C 0xCEFCA105F1282C8D287BF1CAAD9368FF828B447F7EC1E51CD463E11B1BEC0F91 (-0x37D31F7C96B593CB37C9BD861CE6E0252ADD35EC0533F6A5A62049E3F0DB04B2);
  CS OpP 0xF190F14CDC7184BA3360663DB68281A4AAC088C50DBEF5367242EFAC3AB5B516 0x70DE81C280ABF145C5B19E8F486B819A952E070D658C62310C471B47485596F6 0xC639EDCA1FA87BE91495A797CBC0F7828D1E36060704E507BD723981A7BF38A3 (-0x12BC058427174AB1E7D042BB295D7EECA7916B2BC3E8004885855AF468DD737E) 0xE3F2386310F789BD4355FEB3B24B886E6852CE57776B33A9810494E393C085BB 0x1B1BD227AFA412B90DC4617F6F1E512DEAB0BC2FE0EE8421FB4BAFE8EAEAE8BD;
  CS OpD 0x11922FD9F6F02FC5DD7C0B3F77120D5F5AC3F34DDB8E118FAC8A275D9EEB0813 0x15F090BC4A0D9C33CB97A14592595E1D2597BB3FC0773CBFB2A4DA8C5A5EEA8C 0x38A7A465D58B94759F025EC3B70D1A1A8F36AB62C651FD2126B317E7F8C0A1FF (-0x7A14430B9A6883D25C41911E58DD7DE192BA0445159E2D4944374A079BF04A26) 0x134BDD5905B528F88093CEA2C348423A4D5354660FBC49FED743EA7E03354DF 0x63DB9B3F9D311E3F906361C1FAC39A5833E09653CE41CE3C92A888B75461784;
  CS OpD 0x199A49DC125AA690103E2EE0BF3A47A89B4C7C1153F3463904B00141A1EFB324 0xF1288ECA7B32437A431451D8792CFC06ADE856149F436D20BC954764E6971F52 0xE4171D733A4BA7270EB80016369721CEBD1133772FBAC3B7F590B40D62A61882 0x5B0FB12ED2E2BA0B2CAC281627AFC10AFF21D058C3E77AAC70ED2BD7E8F2278 0x28F7F69EDAB093FC89D005D794F83E88AEBCB78D5B251982A4B4F97C5659A3A (-0x15EC96BDA29E14C62DD89CF5E99570558AEE1414D26106124ADA48BFB5CD69F7);
  CS OpD 0xEBE41AFEC6EE70453E19AC263314E7A82D6AA30B3B425A4D7A31713E13F16C00 0x2BEB38D217F8229A3B289657C5F8F7B119D1A05D7F97865ADB4E8099577794DA 0x61D97CE382595BAA0BFECE836DDB282016FE44E65845D52A185B159A45C22A75 (-0x1052F4079CC03F1FFF9ED53435C6EC114960D0B41234ECED9C84D61AA4E850AF4) 0xD95C94CFD9E4D8CEE5E44D8D45C893D1311084B31E6C15D27D968646E52C911E 0xB5BF0D581B2A687D8278816E2506C3CF01897F8E3B52DED751351320BE845447;
  CS OpD 0x93A360A5DE317E7BFCDBE330D90C619BD10F6B09850E77E02F5D214DEDAC89B2 0xA7E1611E8A392BED426CE7EEC39CAE364DE392CBEE3CADFDA7885D19611CF7F6 0xB9977F0A0542E6F31AA29B9FA871761C63E04D3F1594E1AA544742E60826204A 0x5A42129C64256A60A21DA99F114792DE7B75B225D829BC038C0035B1A7BE3AB8 0x55250942B4E29C66C1CC7156FBD290C96B8538FD53D084D1E0FB294D06551B06 (-0x477D75AC2EA42A30D7B60B594C4C7333742134783B1E778480F343736F176279);
  CS OpD 0x2E918417453DC2EADC88017E766CCED509284E6425A1B4BE5C56F892B1897EE9 0xBD27729CE75F81303AB29CF6C9651CE47B41FDEF2A295E05BAF56A07D115E72B 0x83B8A3CC42AC9D9C19AC509D94A5D2C58C8C87FE52F263ED5C8F0FE0310BF00 (-0x106C20A99A2BAC749511B80E40DDA06AA525D8ACEAD645762A8BF7E4E93E66F08) 0x8789E2F4366A3886A244634190327C544734067C3D4443D68619A278F253626 (-0x3DEAECEAD6165064DCC22A2754B31E278C76A42D78DA3FC9184E796EC930729);
  CS OpD 0x6FB0F75F740A4524650F7FECB4EA2591785C825B1EB32D4D84101B40078ADB41 0x520A6DF6C57DAEEE9CB7E0331578DC002D86486248DD3AF72796904C266CDF1A 0x33B3A70DFC1ACAE0A2782D90F74443667793A3D1754120F7F0CD9C8ED856810F (-0x19C1ACC479831965E76F265C76C0B2882F5882D4B1DDB6D7B4C88DDEF5796A345) 0x30BAF0D9D8E9CB97C753415889D21A1D5A5574C8FD15112219981FB36FEA2EBF 0x2EBBA0782AB6ABEDF7BCADA7022A3393C30FD490ADED81A60B429DE9FA00A25E;
  CS OpP 0xAFC3AFB24241459A60BC063929896DC867BE2B169E04623E1464D825F8F6549D 0x604D17C1C8F4637768A2A6A4C291E5726409807CE2EFC4EF924FFB9BB880A293 0x58B71968DD0394034FBEF88E8B600B80458F0EA504F7E8528ACFB615412F9E3B 0x1B42603B17DB4E2E750E035B42F543FE3C95C864EF5BA38623F45AA5240D07F3 0x78AD1FCAD8BB5F4E8A84026B3D0CA1AB68EA8377FAE73934A9178F4E862B8C3C (-0x9CA78A29D1E71EF9A3DACB7E5B66310BE47DA9770BF25EDBE30FDD5937628B1);
  CS OpD 0xC5388939DC3B71AA6F6990C91BEDF7E6DB710D301E6CB22B9B37F873BEF135DC 0xA69DD581785A52B03A989B186FD2295B4DB740A2E5E3DE6097E53AD594F4152A 0xEA5B6D3FCB301CF2AA9528905899E26716E2514282470ADB312DC12226D7EE3D 0x1C034138AAEBF03A0BF926C05B1ED24CFB724888A5115FDEAC043EADE0B80463 0x97F00FAF5FD2D1BD79A07953FD76E46EA53FEA0B43E49E771EA00295DBD7C140 (-0x362BA95F1DEB5AD3929A83DFE47F3482CCFE5D78985DEFED05B2266F735E8F84);
  CS OpD 0x7327E53FA57651E2476A7857525D7471691AFFA6A3C3B5CF24153442A4127618 0xEDC41DA83945273D0982367FEF5CEC3B57B0951877465BD1F7A671694ECFFCE2 0x3C6B67497B27AAAF2AA2A1A8BFF3FADE907B605AE15F6574EA9EE9E5F1492D2E (-0x727C06DBBD76DAB6555AE66C25F499999AE47B80B1693185417BE2BBBED2FF84) 0x33CCDE2ED557A576C8C847F0072891E8280ADB5C0FDEC6276CB3B10EAB13E116 (-0x200148F55583DC4569002BF03BAAA805F432AC63511DE09BF3001FF686251445);
  CS OpM 0x4EE9B991DC82BB0B95F194D524245DB89A37A1A5BCB88F04E59828FF178D3861 0x3A2E12CC80666A8AAA7E024E9CE48C18F871890EB0A6622C010C5702D7FC8792 0x30F73527D78C16F8999E7C3C23021C8432F8418DCFF0CCE5F30A4F3E419E0F05 (-0x23C3AB1C82663D133FD1C60D9C0A02F37D4C82F022591894D54AA5D636A8A61D) 0x18534278346733C406D5BE883CEE09BD41461824B9D829EDF94D6C7E55DAEC5B 0x375BAD0C94D4B601D4D59A2783AD8F0631B0093D270FC231DB49F7A174A1F273;
  CS OpD 0x8DC9F082471960078AA31BD510CF5E375EBE29293DDF03195300C9C99EB56BE1 0xC55E08CA7904ED8260243AB3EE8774F78DCE44EAE90AA605DE5E4FF43F5E389A 0x957D3915492314E4070BEE1DCF057E610B5379D94A2588F3E0A5E9FDCE273A15 0xE92D6526EC678E709A00A7D2635718D425D0B2F20019526878BDBF036137362 0x4E88123B10DA213CF822222D1F55CCD3A863A4C891123A16DBDB83376B080C6D (-0x4D1735E8D1F89FC2AA81A6E95387B65C84AE5E39802EBE5F097B4EF8BC6F067E);
  CS OpD 0x2EDAD373F2BD0D04F66E2376F44DCC852B1DAD40BFA61C525B8EB051C7D34EAA 0x67244BC532D0FD0874F9F7A8AF8B513C1743B6988BACCD08FD4B9E2CC84353EC 0xF61086610C06774CD52C04C3C7668ADAB999CEE55438B730EA3BB20532A5C7A5 (-0x191C50379851E219DAA9077797759A4CBFBAA9FF6F47C3743485DB2115843F078) 0x8935F0A7B5DB14F947D213BB7B39864FF203B24676B631787A6E22549AF737C 0x113EEAF62D2E89C65413897313946FC206BCB148293460649215E747A87A10CE;
  CS OpM 0xB468FE59FB758D083F15B72DDCD68CE1066AF3E60353E85F72334122748F4427 0x6094EB51E9420F9911FCDE8850E70C719503859BD710C9FCEE7B91329622F4AC 0x31D39345333AEAB312DD902E7721FB133E08BEC18669A4D88AA60A706AB0C1AB 0xD1BFBE0EBCA5FC65DF34BE8480DD2ACB28F824DD53343C50F7904052B62B43E 0x7F23D0BE2F704C744201F0B0AB59D95B80405994A2136D2207266E742CC8190F 0x49F8094CE8AE2C8752757DB333040ECCE69D30FFBD04EAD5872E20A68981190;
  CS OpD 0x8F0ED8778D9056DD44F6086A45A2DBD9AE3659E324E000CBFECAEACD2187DBF3 0x14C761365EA0E980785E3474F16BE9D35ED222703308D2D090351E32BD196736 0x465C6264B4C2CB942C2B2B540662DE8D492EBC0B4E847AC40BC5EFCC960D5E70 (-0x359FEF6C1CC3D81DB5808D58BD9C9B9156FC7FBA443AFBFBF95D17590968B952) 0x4FF196B1F444B38D304CDF7684B8BB60C620CD50AD76061901682571A9268BD5 0x2A5C357BC2EEFB44A84F28651D580C817E13E326E2CAE76DC36DAA3E24AF68C9;
  CS OpD 0xC7D08239906BC3DA3E1D867FDE5095982E3E47A0A8B01DB00B1DC34CC518AE10 0x779918A4F7614E2F7C31F28AAB9A24E1EE24DFC408D768233826A29811658A69 0xE01FC68723574BBF2F68598E0EBBCF4991986EAC6314D7FFFF2F1C33850D973F 0x68C6F7439A7253527AD1678EF76C7433B61B3FD89DEA9FE29D440E848287946C 0x9BF5D4495E50BD3AA3971F0DD551A6EDA441D3F75981D6CE79B27BEFDF3328C5 (-0x4D218240BA313C376E93B36590471494C37E688A792CC5EE0C17E56A90337851);
  CS OpP 0xCD5CBFB09ED9F954B4399F8FD3ACC9C3D2C2A5F109E128A6D196D528748AF242 0xCF5D8AD9BB0A6311DCE59DF1F85F09B37FB1B4B20B2705325A42A13DA5AD51B1 0x16F9552D6AD611B3BA36B7F2B41995E10A747191D02ED139496C15FFC0FFB091 0x1B8A65ADE65C286A85495FFCAC2D911E7F5E932C42D1C607993DC73D619016B 0xA4BDAC9B34E44CE0EDDAD5BA069D70386F2894EB1185B0DBCB7A070BDEB3214E (-0x46681BC56A5E923AF06EC530C7EE3D54FEAA509827EC81FC003AE2BAD810D5A0);
  CS OpD 0x2ED75AC4B70B646C77AD4FE1F4C29769AB5A1AD7AF6D106F24494698EE7E65EE 0x1CB1D5A53AA3D4C96F2F76CFE8896D7DDE2F83B2870055BCE625D489FEEFDA68 0x75E658B979A3EA661ACDEADCF3F116E76B30FE0CC82CACC0956E20D154E25B69 (-0x1EF80F87ADABD37F721C43D64D74DFB9D608492275816E7409B77FD1D4F64C629) 0x89219C8486275167822A2235ADD3BEA6B7019F218956C21A24300D713326BA6 0x20B1281E47162708F6DFD47AB0E13D0C3A7FD2ED566788AAE1D8639DC81EDA5C;
  CS OpD 0x27C2DB2DF099A96ADC459B8F5D4BCE103995B4E9C6CEF2062FEBF744E783341A 0xDDF977288F760BF0833557F5CBFB2D383A94578A0DD5FE5E17E8AB0233AC91B8 0xB028C80A0F58A5AD2A93195077031156DF1CB6E0823BBC9FDED78D67133E9383 0x1AF9833997C062F73B6AC64757A8CB37580055AE58B73789404505D5593705AC 0x62CF318EC971C68B515ED3A4B328C039034916D856D0DA6B7CCB60E3E99A2A4 (-0x1E05075E5DDC367E1C65A706711D4CA4410634655A30535182068A456AE244B4);
  CS OpM 0xC1821B9AEF54FEFD5F2605EFC2202EAE98CA38B3EFCAD51DBED513DD18D1570D 0x16514A3BE3F545E7EB4C2CE2A021FE89C5781E75F3E956F70E2B5D3F88AA0A0E 0x8BD29BB43A0D384FEB83F7206A8BEDC51934B3D2F00A131DE92D2A03CDA6FD88 (-0x4BC3785D33E4E1EEEB25ACFF7B8E50DD99B5FAE84716F53B73BE63D63E3F48AC) 0x92456FBFA933470DC29802CF75209A193E61509F4B12E59DCB5539D2695EB7A5 0x96EB42CCD00B7524F4FFBE88560E0EF597AFBFFD873DBBA75E57E0D14CF10819;
  CS OpD 0xCF48E52FD18D4269AC59B1D5CCD6233F06A88232C7BCA8B0D2787678BF606286 0xCB125FFCFFE3BDA8ABF2F80693237AC469E454A5B6E17FA6FBC907AE060C5537 0xC971CF27D37F4438B2A075CB416CE2F66BC70D974F65042269C98451E561D46F 0xDC9800E9023E903D6B1529541D9BB97F04117561F40EC4A2BBC738C8F1B5982C 0xA7D6F7650CF6E6B1966165944FAA4A1625300339E1F582523415643B489B5EFF (-0x925B98B7BFC3CA57038D4CB6CC4BB342C75B3D0B7A77D02870764E9472D66F23);
  CS OpD 0xC3B2BDC59C6A071D559693FB6972F61ECCAA0D5C58FAB67DC539D1866580B3A6 0xD741593A3B1526EE9C95CA3A1CFD7DACF437FF53DA47CEB1F77AFFFB77C42125 0x516FD0C431CB2EA343ABE7812AA9CFE983B9D0D8080CD0FBC289A73BBBF462A0 (-0xAF45C222D9658DE2CBD94462E41BE7E00284E68CB5AB74A61E7B1C6D3C5691B1) 0x9599C9E77FC46BC73E7012F28151C48CEA81FF29960F659EA6628352E4D9F3BF (-0x950498B06437808B24E474A5F1EC6095D929D88CC812CC1C265A0EA7186210D);
  CS OpP 0x2D46CCAD276366AA56F65372E094DB9882A12D5D84ECC8E165648800179BF5A9 0x9974376D16CBFF71A64A646842BAE352F46BCF4948461F649280A09D846D498B 0xF2A7A81442C2CA68844C547A26F98EDD05604A852DF5D662AB5945850FC264C (-0x1089E13CE2F942EACDFB6C01ABB0172A84DE843344805AD48E755814032DC563) 0x801F789722EE858B5C1D4BE9B1D8461EEF7D111FD56F24B74FFE71F62141E07 0xAEE2671918A57C0C1E899D670D699BAAE6B5F7F45D9EF5E784730585390E8A2;
  CS OpD 0xB61B368B2CC89A357CE12058396DD044005A0FCC853BA5FD2EFB059E1319F1E8 0x6B99D026774F502C78C8DC3768FE0A9FE65FE986FEC0ACB4A8B2BEB9A4D6A5D1 0x2A186506BE78D8698000A5A0648DEDD8F6AF54EECFA59F3BBFFA3B26DF11FAFF (-0xFE60BD6BF7048AC616EFFDF5066AF6DF0C08AA1058AA9D5EED3B91BF08AEE645) 0x818AB47270A7B022DF940A728DC7819FFA98DD908A436B2F4CFD513EA51A68F7 0x209E253A1939E7BE599DA7840CB862B7A4A1C402E14A5BDEA5F3DF930258A0CB;
  CS OpD 0x26A11FC49277AFC7631B169166F26F94F94BC238F1BF1C9C94B411E51173AAFF 0xDD885E44D42E5B21477E00DA0DF0CCCA53D42B1615B87E51507BDEE656AA8F99 0x1BFA93FA3298161EA21CDBACD42CA297F551784A7E4B3350EB2ABBF8A886BBF3 (-0x7AF996203BDB5C05985A70F7AADB3E5C219AD7140137D971D99B629B604306EF) 0x5D43AD754ACF523E1DAE28A2F80795C0595133AAD09DEBFD01E0D4079C26E1A (-0x11311E4341EB51908883D600B1B7E06D2C0E81A3F8CBD00C067600C96A33F0F6);
  CS OpD 0x82220D5F25473ED2C9B7288BB7AE859FDF449075D1AB33823925A1A21FF09119 0xF90B43D091C328052A01ED10CDD4E91287F40ABC3FBCA80B436A845470439D76 0xE8361C9D8018EB37F5294846727A4ECED6717B87AC406701DBDE70ECFCA2ECDE (-0x222AC426FBD9125915E701D61798289E57CCBFFAB64E3E8D043118F1487D034B3) 0x42269A1C2FD50FE0B18B4EBFD25DEF0111FE029950ADB3C03F95A19720255587 (-0xDFC2163521198860EB85E2085B710661419A204A2E0A128B69D87924DED9E7A);
  CS OpD 0xCCA1713D5182336F9FC1235688C0AE920767FE1655D8E8BA19957D4E1F4EEDF9 0x9E62A864478CA57A44D0A3A084D8AB86FBE9149FE9E1E20791BC34E9CF5EFC8D 0x25F1F6CE66B50F74CE4367F7C125A4A623B12BEC307791DE7789BBCEFD83A2A4 (-0x16399A025DF250BCB97E48E3A2BA0AB8E3ED3E2CBBD358C11921EFBAA0111CDB0) 0xA391B2495B1F38637C6B763FEAD477631D1A972F63A7B42F3DBC2D39AB3C40C8 0x487787FE2DE366E1D5B7D8AA6FAEDA582207B323795024A8F2EA7F29E3976711;
  CS OpM 0x8921907F6F3EB4B23D04842F42234A43B2568A5AC2C56D0AAC87BAFCCB6A153F 0xFADBDA762FF31E9B51A4682BD7DA4C1945AA72EE1B3CEEB563877F717F45A901 0x8467D1753764A7B6E0C57E3448F32348F23882C8E325B55CF02DACA842FBD18B (-0x13A0B51ED79C067839D467F6AB768E3B299FC05E9FF82F48312FF678EF3FAE42) 0x4974F10EF77B68277719CE30DEF3BE9931D8837C4F947506A379A4AE1A2BEF95 (-0x3188FB9D3E26E8F9B9B74BDC4C984D5821734F24454F04D65354FD242C953D35);
  CS OpD 0x8828D7446BE6266CC05EC1A34230E8FD4A4B3A8CBD181DBEF181E8D27EE0CBFA 0x572BABA0E49AEF768E4A0A097B21F4FA4EA20CF6B531C87B2BD444B91D0B134E 0x7EA3BBD23D161129ABAC93C09D6B928F833CDC9867E3F739A08E83F98BC0EB4B (-0x2549DDCCFDACBDF8D3072D1ABCC997C4CB032617C4445339B50BF121824B7B329) 0x486B6B3CAD0A4045A2AA13474EED1630AC1A50A61485ECBD27046B45EBAC096C 0x570FB60D5879FE30E2F29FB0BA35088F011E164A8E70810C13466E2EBCBF5488;
  CS OpD 0xAC523F46BC9F2911CA3AD11D3C68EDC8B4AB2352DBD87B3B89ECAF6AFDD2DFCC 0x35E62566995D0626702CFF9BBDBE1C6E46F1065FBF76D1A234EF9F4A114AC39B 0xDE658A430299703F30057AB5636B068F4D879E5C4BFFC2214FEE01A5F61225ED 0x5171419203E39A21B5FC651AEED051F36460E914C588E1D56D58CD9D4FE4C284 0x73FE9F73A66A99883F5FF536F6B4BEACBB5BB2205BA53390ACBC435ADDB661F7 0x166566AD76C87D22FF199F2F142596B14F3CE8E2C2872FEDC2E613BD2A469154;
  CS OpD 0x2CDD2D3B5833C7003D1BFDAD0C2FFF5A9FA816D59618A097E5E3B42CC3D969FB 0x62097F21D1642307A29AF92C54C7B318F061C100B30416A1B92C8AC8A4B1C176 0xC1BC66E7C01894E39F04EFE9397034CAEAF9F8480B0542E5985C959E33B4B80D 0x2BE7E2436F478F20D182DF58ABD55D8662922AA799A4D3AD8901738C5FA36E3D 0x7DCC6A386C60091A5A2946889DA4542258C3D8C286C3CB5FE43FAD21ADF3723 (-0x7BC35BD1661424C8DA31157CA6913307D5157DCFCCB8BFFFEF2D139ADBE18BD);
  CS OpP 0xB6303B0A6C2976CAE417805CAD6AC98E397BF4D1CEF413831BDB7D7301260198 0x7D0538B6FBCBCC8BCE19420F6F70266F2435E3D1E234B139C9E679379FF4C7AF 0xEFB7549ED6AE65DD0C07A30F94AC068D69C2769F367A560CFB6115202D16FD3D 0x10DF13DF44A4FDAD9D8C7CB83B6C82CCEE98BCC45047DE2530D68D0646AD848B 0x81A89D09035152BCC618C34304E62CB64EF8A363D5C6DDF249B43753A4792EED (-0x13340B5BF51ED7AE5CCF677A3B6AA4E514799A0E1AD741833B6C0EA13A2D4F7E);
  CS OpD 0xB3414F30379625A4CC486A9EF197B3AE572FB269794ABE69597A76B9753137BE 0xFFD90062044ED7A96BAF997CCD1E7580B8C56F40BCDAA8AE73338622E8714CB8 0xC494FD6092CDEEC81513976D12C0BE160EE1611F938B697B1962CCDD0A6A5B69 0x988A6342AB225CC604B01836121A6B2048047F515DD8A021B760315A0B5F93A7 0x7D846566BCB6FE4722F8B1FEA9F678D5D2EE4DC8901B143B2FA6A955F8B07872 (-0x5B9B74DA481C3CF721ADE69E3EF09D1754F9C7296B5272A655E67E5491DBC7EC);
  CS OpD 0xD8F5AF687AB25A6F6FABB8E123B5A762E3D3F3F98E02BCFD034B67DE101D0F65 0x6485E917449B4DB7EAACA10D58296160C168E1979AFB6FE1E2740C81B6FFE00D 0xAFD45704DC2481D2F5F7BD13557C08A4BC0E2564EAC478AB8F63CCE1FA8A6EC9 (-0x1B1E155FAA5C53A9F7B2A3C91435D7C615447B9F967B76B1BA72E626F1E8AE8FA) 0xB7DF83C98537D460E919D65766D46BF316ECBD3E76390779D8C7E29DBD079E64 0x83A32C998D68525F09848DEAC79E570065FB32F3C175607091B7F3E20189AFCB;
  CS OpD 0x164198884262855FB08D6D52443A4C912B47F5C7C5B636569138C916DFFE8016 0x67013F00D8EB0450BE4B26B7E5FACF21F742DDB04C6900F8AB7E38CA0282F37B 0x7E219809F35919FAC868D7C010BE9259CE0EAF0217260431128DF513555698E7 (-0x57D812224194D32CF87BCF468735F0CD87D505FCFF30834B1521EA0FE1CA68C1) 0x1EF57063B7CBC4FC536409EE95F2D0F2281C4EFFF28797C5EE3AC146F04A7E1 (-0x373C2D703A96BCBA85D2F41BF11C21CE46383E409DE01C2D4FF75333C4421C);
  CS OpM 0x79BC87DB348747091374CE3151DD93FB599C8C6CE367579752079B5EA6A0422A 0x967580917184316BAF53FE0875F239B87E1BC586EC259755E0F6E760A5F6E530 0x27B4ADD99DF17D61EEC072BB6B346950C901B2A3C2A5B45176221D850754B0A 0x8E9348569AF106B2A7F0210D454407872873B6EE33927D35E9608EE982C446E 0x39E3C34509B5F4F080DF56DDA25482216266A5D34AEF3849B35CCE6B00A82E2F (-0x1690E58C6F147EC50CA941874C6995DF7EF7574EB8EE0D115FB360E31DA9FCCD);
  CS OpD 0xFF80137A435DC7DF2EB8C5774A00129E6891CCA2050C5E9FC3BF531D9A5E3BFF 0x23A9DC028C13ACB83213770204EF3006CE968527F74EA2A79433741CC629F1A6 0x4F043C6B89E5446495B3366E65DAD712EF037B6586A10AAF8B5DE8980B28C060 (-0x104559EFAA18C676978A7EE35F92EDCDBF4E57DEF429FE84833D06E39E092072C) 0xFF0066E10DF3925AB10AACCAB8CB76AA58667EF784B4FFEB937B36FA0B0BFDF5 0x729247788E762D3E64332284132159BF745672A7D08A54B2A25E696AAF7E78B4;
  CS OpD 0xC9DAFC4FF2355D0F013AD4BAF6644D3E0D9A033DFD183CBCD6D36559BE648A58 0xDCA57BCAEF5D7A20DBC3148833736588564A9D32F2AF43E0979A66CC4916AF4A 0xFAC320DCC587746FD518BA444A79497D360981F51EC1F56F49547AE33E97240B 0x6DB42D42B68AB93170CFFD67BA9433FFD873C31ED0816B0D129A87C48A4DED2C 0x9F299B883B2DCCD47ECA62FE82D228EBFBBACA261126B8EE832070F4DF773276 (-0x91DBCD0BDC8D7C15255AC62D480867D2A93459E88EC6AC45A327849676401625);
  CS OpD 0xBD5961E7761335D5414C7FDFF426693168F7F4A489CC4E86C5C60C7906AE2647 0xA56B467C584B2C15BDA508D9BADF8B0A15E4F6CA74796762B6D4ABA695AC37C5 0x21EE88640ED3716B0BE50D285B6C775436E8C18FAC494D872404A743ABE46B43 (-0xC7934D38A91016ECDE12E0ABA60CC122C145A5D19D6474553A0759CA8332608E) 0x8C0D19C4FCB9AF992C9ED56B0A5B2D24A99B8097A527C9C7601998C60421F628 0x28D941B68B0CE3A4D535D7E9CDD1BBBA957FE28BD0DD1C0BD51EF994B6E4F67B;
  CS OpD 0xF5FE86E92B49387307D747A9A91F3763B9344A7121D64B17B079F852B71FACC3 0x9D8CF10F1C3B3F1D76C0B8347343916AD3FC5B47B411F19CC1EE4D532E6B3F27 0x7FA3A3E943431728300242F96B54F5A1816BCFCF3B9BA08F31BACFE79758D1E (-0xFF7457472A1C23E65F26725C6A414BA923555293C5437A7B98841F8C8653C797) 0xEC612B4A4AA4F908AAF879DE79F6BBD16BC5DB738E092B7E8E396E56C410C1A8 0x78F9A7FD8445BEE9BC23F9B9347DDE69DAB35990B63BEA6460B47C541F9E457;
  CS OpD 0xB4FD9FDE2296F3442ECE6DC9B68EEF6085F7865C512CF33A92BCB66F3ABC3DED 0x4A78696ED54FD535978D13FD275A18486A1557AA2BED020CF4AAAD8D99CFD180 0x7E6270180EDAA02D5B12802D467ED38636CC087DCA2875D27AC38182AB7D7A8B (-0x1179AD7596FD60B9650B13FF9A4266C9CB233AE35150E95EEDE86AA13C9CDCD69) 0x7FF5A415C18A542C3B3FDC6E5B5303DA15F3F2BF133915A8A481EC51B7D3DE55 0x3ABCBE8892877D25C8BB6A9F1731E28917FD11511979BFFA2F168851C77251AE;
  CS OpM 0xBBC08B167285B62C8710FA4C8B79C54CD11002E84F1F28A40551E454F813D7F5 0x15A1D83366ADC9DBF954B02BFCF84D05179713F410DB667DF343210D5C10CACF 0xCED1511167CF15040BAC1ED074D659CBE101BBEB8F216D73A2D14C8E76402213 0x22ABAE07BC5FB4F2DFB0AFF02649333C271FDE136731EACF5924A32F14C6F1B4 0x89B2DC03B88C830B66286D8D61820FDF7A957A7C8DC4F7773285A87F20A5AE0E 0x26C079B879523DC01F06FF95A52F813C98B7AB8836B2877558BB008F8BD405E9;
  CS OpD 0x2B5B97E85AF6DAF1DF2BBCC6A857D9B40DAEFC738BE8465E8F9E3679D50FC6FF 0x81EBB4E10172DF725B7E18B277E2D75AD4F5DF4973D5C5A68A868C7F707C56E1 0x6991B11DEA2911C4474399DFA1E9346D694A042ADD05DBC44E8472DEB64E9CA9 0x4092741F94FB8B6E182972C515EB13E5D964A6454D00419C5E006384CB909EF9 0x757E5CD67E387411EF606289EC631A6F139CEB629313D924A04C069ADF5881E (-0x125726947549E579BE608D27D6F1E28876446289FFADBE00D819905475AE7D76);
  CS OpD 0x8BF602C6E063AD397403CBF5E8CE525452C39140D279D8C5665EFB03D8D2449B 0xC82E003108016076459DBF89782A0E8AD03377C6D90FF650B20C2D87A590F68 0xEEE8CD98176F884538E483FB4D09F227C742E05EF60756052924C5BD3527826E (-0x525F134FDA189C03EDA9DF8C094A10671A3F0F37A899E661E1D78615FDF988F3) 0x4C85136D4DEB33AEBBFA876C8727E5853BE9DC07AC61C4E06877B3646A6D2B81 0x4030BF9716C12D739864060EE368DD1EDC594199A92DB27F22338F9F8C218094;
  CS OpD 0x26566A9A8B896D85C038D514E4CA82811CF9148E95EF3B5310EE0D02889A1058 0x3278B4372D700D6B02D98B4A07B84DFAC663B6524D614F80FAC264620385A001 0x47BF9B4957DBF09F7A1801975DAC3216ADA1F0CAA90A19280CDBF853BDCF1487 0x45B8D0B2D5E51771F1D3CADFF6451D873F9C06D3C69C4E014837C90DD6ECD920 0x5BDC4D1ADA6E5B347071441598C21336CB8A20897E7409660C424EC4FDDC0C1 (-0x5AF4DE3BA3D6DAF05F4482307962770E45CD3800AD594356595EF4C0D95C903);
  CS OpD 0xCB6AA009211E1FFD397EB75E02F369D9B0C763C553E81B2CD1BB3791707389F9 0x278DE3F7F4606142FDA80E3A21AE47ACCCDA5FCF613C51E077B61EF9EBC4FB4A 0xC4B082F53BF336E21A75DA972E05F43EC7E9594AA61499F43D4F6620CFBCEE77 0x542B86BA89306D5D68CA564885CF2A78FC38ED547BAD85672866CCC636A5DF55 0xA1A2463766209D67174623362ED2571FF8A47EE1D5C4E31AE34F82A68D72B32B 0x8ACBF2F823F719D9B55507E90A0F4AA2F260782100FDC82D1D2660235CB48CF;
  CS OpD 0xDA9D2D79D3F7FAE1B7D16822783F6B40E30BEB9D1157327703AD0AF839B2F26D 0x32C212D6E884501F99A8A3CAAC5BBC9A9A50A8589EE6EFA5E683423924434F08 0xD111E875E0AE5391990F0AD41A90DA3059EED7F02E14511B8AEDEA406F1F6C82 0x13D98871C29B518A343AB8882D342D33B0022C63848BFEF171764AB0CB3C81CF6 0xBAB011F44C8463F1640D57F9FC1599196E24FFDCF749CD9D303F666FAC002BC3 (-0x99150E81BD088B2E32269FFF65C461BCCFDECCC79D4ACD9174F960517C76C51);
  CS OpD 0x75B5F287D98580732660264FE727362A3ED9670FFE1FE58523DBCDAB2000212C 0xC8F1B2F43D5672143B00A10424CA78129B2E9E9A9C26FE57811927903B4731CE 0xE886CF82E482D1C85C02D5E64E143D74C6E0D469A2DC56A10B8F48AA8D9DEEC2 0xA212667CAFEE73AD5383EFA5FD46D6F7D4A3773A4F78066740D81383BF5E5310 0x361FD10106B2BD886E62EE5D674669480E4C4200EF2B0AB1EFC98FE86B4CA4EE (-0x450E82225496DC8F98B6B41C1458570A6CF8B30C0029C01BD637F01B89404A74);
  CS OpD 0x2E497F5726A1893F914DBA1D3EE5B33BD0894C24189694B544828106544C9FAF 0x164BB4DF2DD40EA31A7FBA468EAAC5D1955E4CA58BBA8D04D852678BF3C0F088 0xC7FD972F77D3A2E337FB06AB70A7EE26311C9CD0DE55A3C2C4FFB2E7657E8862 (-0x18519ACA6AFE99FCA63EEA8C65715766DB44EF0E74AF7894A3149B520CD6F50F0) 0x85E7EDD30EDAB72AC4583435372E0052E66CB80FC798E24D1D335F4A56F9213 0x204D1DDA673603C9C08383C12602A8D22A00F33929FF030B2344FA64EADC5E2A;
  CS OpP 0xCD174D2B31BFFA040A24B13353C03F3FB7EE1E164177AB6F1DBE399E446BA595 0xD474F42FABE0633C2A304BFDBF62380B184CC51CEBBA55151410D3D94AC3A0C 0x5CB613A1763A8DFA3A5BFBC506BCBFA88D45389F74A3E05675EEB381F3B78D19 0x4FABE58532C2B53F8126C14B53531642E2AE8BFE579CBF7E4424717884D67F26 0xA44E53B622B36A20A1880F86185C6BED3EF33A63479B8C1A112836E006FA6E03 0x739577B0DFEE2DF459276887963DAE0F4E697FECA8407511D36E865989DED1F;
  CS OpD 0x946FA82713CF441F053FD3347E50ECC4483818142FA4E5B9917637D76EF006E3 0xE5BD8184D2320252D024CD9A23CDE85D123D42386492F626FE276E1E2A36DEAD 0x2217D3BBD464725AFC09542B5101764A27421C509B85E31717D94327E4E1F6EC 0x697270A566D4E9138E0258171752425BA6B1A38CCDA8A9BE6B2568821EA2AE3A 0x56114B206F3E247805103DD10F4CD0D6808A211325D5738F1BE3B580072998BC (-0x7D82BE7C76D85D5F5BBA595709896F42143587CDC8B658C9C0618E3BC0886DB8);
  CS OpD 0x376D459E63BAD7A759D75A4C4D0E65B7DD361D0983DC3D4C7C40974AEBD57D1C 0x7AB39E17D06598CC864FF861FBFA58514CAEDFAFDB7CE6F40097130D1236F5A2 0xEA68AE1C5E12311267AB8B2BC66C5BE2DB447046F7EC62586844C4B74C66D515 (-0x25BC26A3053C60F65F03288FD786E3B7DCB7208DFB1CB3A662CF0694532720CD5) 0xC00228E6AA9F98786D97E5A2EEC08C4CADED347A0B5EB164684CE8A23C8B02C 0x172CD02E24E65FC5A88E3B4882AB1EF3B7FDA69D1236051C5CF68CE08F7D573D;
  CS OpP 0x138E539BE297535F75D701DF510632DAF1121DCFA66C851EBD39A80C148D3EBB 0xCBAF882ED4F457CFC698AC4C858216522B9CF55EB517D489009107968E4D7198 0x1E14E695C2AD2EE490057687680D9356A7C72210C1C06BDAAA8DF1378977375B (-0x12BB75450B6B74E509C95CD27E401A1A4516215A7DC966139446827C1110DF) 0x17E6F89FFE04A1AF5430977592B8E57A4B0A3A48D02D6AC76730940EF9499E9 (-0x62FB88E8B3595648130F27BF4A01D11019207114187BFF7323D2E8F7547527E);
  CS OpD 0xE21EB96E9E6BDA8B2E6607223BDBA93CF5C0D895AF1BFFEAF2C7419D72AFCD4A 0x45DF82D30D3F0D6A4B4C6612A38D1F686ACF8430C8DA1A0C492773B466F3F450 0x465BC453932797850F0407CFE05DD926F6B2624F96618819BDCAC3FA3B20F024 (-0x1B10B6F668F54338F299735C97875D6559A1D724D917C4F4BCA50DC475D31A51C) 0xC7BA43174BF49FE95F214C61ABE38B039F6DB20EC9178F27A1B9B311DE46AF5C 0x7631B408CD1FD72AE8C939CE2E9A4B11AC26E02ED99B9F0F8DA135273964247F;
  CS OpD 0xE04057A379B7BF9568BB9A27BC910EC788AA726AFD1AB32A1968FCE148587A43 0xE78482A657E858F12C787D5E8FA763676280B4838ED6153664E18BFF629684DF 0x4EEAE2DABEE66F45F4B7A1974E3ABCE0684274AD197A943550C4484B8B4E2404 0x420D369FCB7323E90614FC395260EE5D6E348C4B7D81F6C4E6E3DB28594797A8 0xC470A98A04BEF044601168043386D09446057A28E4B6562D18153AC7310E6C16 (-0x8D99006F22018127299238012D1031C91B7EA7708C275119A464BC9149E32B7B);
  CS OpP 0xDFB3DB270F7615C6614E6B3F514D3FE230D71B2D5B41EB50679FF702D49B271D 0x7C2598AC0FDFC14DC095823766F2A5ED6259FBCC25076F496AF5B51F01811602 0x4BD059F01BEE3F8210C210B76AFEB0DDC204963BB4203892E2E90EE36C9C267F (-0x5FECB205345815DECB820B76DEA7417582FA00058780F590780CEA3580A10E71) 0xC37AD62A412B337BD11DCC756FB654462A0653EB49CC9498FB7778E222578230 0x5DD31D1932DAB17136471E9092CF34F3EFBFEF9724A15DCEDF76A93601B8695A;
  CS OpD 0xAE5B02565003866EBF1766C77EFF1FA7D43063842A076CCCBBF592E8D3DD17F3 0xDBAC1B73D5FD6F59A1AF4ACBEF27A7479E8366062ECF0E62B6D05D0741B6FEB2 0x295EAE2C4A48F6839ECA88897EBB034B97FCDF5CAF21EDFB1AB58E9EB335D1F3 (-0x4D58327FCD0A2B2064F25290ECEE2BB804F74107F54B8C1B96B02FE84FC697AE) 0x76BFD787FE27239A07F9EBD0A86A7F2C54100D6AE6B61C121086AD26C2402D7D (-0x410F629387BC711D6C5C8D8953C34A8DCEDB2DF4A97DC8956989385607A3061E);
  CS OpD 0x54BD5F92024F4F577F909AE337F7E1E9B9503FF13F6B5C2202F27658F8149970 0xCD98A12D7F1879BF47C15875000D7E9FAD4F8F7758DCB2BEFFFFD9FE188AF273 0xD4F81D7558AE149186CD347DCC66FA22F184DA84A2853AA3EDD37BD8BD051D47 (-0x21A1C690990022DE50715E22C0E522225058B9B6B8A5475B265B26729D1EE5314) 0x1C0CD2CE12C9262A1248077412B6BB491DB02971D6C09503AF555DBDF5112A27 0x4A8CDC19C0DA15098EF4C0418C94D40369BA8BF2276CCF1C4EDFE963BC57E8A;
  CS OpM 0x55C4D1218C0AC74478D9776EBE1CFA17A5E27351EA5123BA1FCF37F721398AEA 0x1C9EE901319CA744BD878C69E1D557C5AEED1DC55CBA48FE24B6ABFF039E0FD3 0x6E14AC68E8DD49F58FF7C226FCACA4CA097809029684D334BD628961154A5120 (-0x1C17ED1106C3C301909FF1CE5AC9E885C4C1BDFD195182AC04F8C67149689402) 0x1CBC4A312D3563E399DA6DAFB988C93BF50A3D3076E60A3503DA8EAF9C17FCDA 0x3B4AF9EAC8025CE2C9A8B02881AD27688147819EF2F717299E5E73738CF2A277;
  CS OpD 0x3C6338CAC04061DA6EF36A834E6B8054F251581DCA97F1BC1E72BF99915CFFC 0xB8D3AD0153177C2096121294698934E27948FC3868D574581B0160DDE7ABA1ED 0xEED04EF4470E8839413D1C836DE3152C12E6D1EE469D2DC24254FACD61BF7964 (-0x65A807BBE3907AC6BA3C077B89513B29C50F7549E05959F81520BA7A6B46535) 0xE3EA9140388345A33BE8A6C3E1A70C3B1BCB294F234624B6F3E4AB441A913 (-0x24D8E8FF15B747B7814BE84D3E0AFA34B035141AF1C594DB420395122BB2CA4);
  CS OpD 0x2D1256039BB1EA1EE9CF1AA3794F19BBCB748ED4CF99D1EE19AF8A076583C75B 0x7F97BFF9B37759DD4E72EA33BF6E7F4B44539852B0D535C5ED6E92200AED8EC2 0xB6910C833A73CB9030DD57FBAA73D666C51D02F494BF0F3D1DEEA002A80B76E3 (-0x13C3B75A1F9E34C80AD02FE63548B8643F5008A84CC2A8F825729121944218F4D) 0x7EF738D7A24DDFC58B4DF74DC5FF550AACFA45DAD3535CAA6C210189C03A3D3 0xA13A21BF1BBC5491694ED8BDFE485EE0EE17CF9308FFDD45B7505828498D89E;
  CS OpM 0x812103686E8ADB1F3BE59988873BA66071FD0037F842F5E3396E528F6197EFCB 0x47336CBB3AE6D4ECAF9A7BEACAFF77ECA4676DB63882F3800D1ADE272C822CB3 0xD46080189BCFFEC51CA8288CA9FD1354DEB8DE9C96F2BBC39C8C9AE3294DD0FE (-0x2F3472F4F38314BE681A6CE07D3CCEF7399737D0AB58193C854F51C6E00E6BE) 0x412249B120600DD33A1B3A550A5744EC9DD346E70BEA8391DCBEB043E5B8CFD4 0x1C71D3A163E39C877B5DAC913A7D7170A4A71AEF1E05749827C3F7605F4AA03C;
  CS OpD 0x7988A18C74BFBA261FBF4A388EB661BAB226D1066F02A40A1ADBBFDC150A737B 0x10B1094B2A88557D7210891361D77BA76C751FAD44D1497CC495A71CD9BE6D0A 0x4AFF65100D723193341182FE1FA46649787EE4C0BED579ECEB9F911012825F25 0x8E3D39BCB774BD8A036A0535D192C0FF8BD8C43063556E9C22A8371E32E7BDB7 0x39B271A2D18B4196E19A6D538098820B3B7C0AE9CBD05902D8649B14B262CCA7 0x19E0B8AAB3F91FFD7B6547814D0C29720012361D049FC3769FB6E1F40480ABF0;
  CS OpD 0x36AE84995AC3BE9FD1E4777149351274FF043323B7FD1135BA15282A9020F810 0xE43710834A6CB69F507FB937A4E50266203C8D977A7501D507573F9E72B98D4B 0x5B17C876C12C20B6191D1661F791071797B10942E2DEE478FB67006F2D2E8F7F 0x1CC62CBBA363643705C910D29F1ECEE28FA3F024608D1D25DA80CA4514588ECC 0xBAE16E9377077FA088A9826FC258635D4575C41C9DA74CBF46E1DD0DC27432F (-0x2D2E782E90B1F5D6BD821241000715F5F1782F3D9CEBCF5F4934AD1FD346CF8C);
  CS OpP 0x184A50C7FF3E8341044AA24E35E27EC510F5FAA768BC2E3C5124BB0F7BCB9DBE 0x3FF58613E2AFEF4F293F8C19D8768036631B6CDFE31EC3B44A54FF14DBBFC989 0xE339C6A2A20EB5CA13D5B0964AE05E5E9EA2E060254F62A6D30AD37EA6A930EA (-0xA1A386A6FE27CD732D0B1280F8B38E1ED49EC375AE0E9B1F7DF2E5ECCEF565D) 0x24E04B84CF8E485F61AC4172E2134618FC862223F4DC61CBEFD56BBF72960E8 0xF95D3C143E88141836D9439DE2B663FE20EEEE6D147A8D5F63D7FACE7EF61DD;
  CS OpD 0x664F2F253D20FB012C740D01B98040E3A07B6DC332DE6B207845023D5E6A0267 0x660AACB0CC8CF0B7B6E0A2C7BA5DB8315FBC419A2C2AFFA74FDFA78163542FF 0xCA195F050EFCB504DED588201704FD32E0A85A6E49E6D0BBA9CBF90F449E73DD 0x85AE513C6E1906F820B5F28297FEE1F03A87A049E145037C823F3902CBE45FF7 0x28E3320FCE60B43CB071A28522CACDDD2C3CD235089D38C52C368F8FA8874EA0 0x17031EE9653A0D4B401FF8C4B0FCE31A657072E6ECBCA89E78E301E10ABCC071;
  CS OpD 0x268ECEBF009CACF77E3B53B45E8ADBD23C004502C0550AA3BB786815BE418431 0xD708BABD60BBC505962DA4439D011216A8A28DFE7AECA1F3AB4951C8F3E2DE19 0xF0DF4F6648D7C0C4665771B322A51A06042E8968685B0FBDA2F937BF06DF0D29 0x3C66FD43254F08BE989F463F462A4106D690F985C9F03D62D32AA3593C9F0C19 0x5CEB50AB70B24A76C326F0381E6A3CD650C938984C08E8FEC9E03430ABE02D6 (-0x1F6D5819BB993A0610547C599E62E31F3157154F9D60C2E64B60471432DAB700);
  CS OpD 0xC98D54C815DADAE36FD84F77AAF0350E5EB2D9901A6E550EBD68394C85E1D5EF 0x62F04EB37FA552A1375313D1BB1A9EB129CED04BA7A48CF468060CE60FA65AD4 0x7669EC7C10D9DF0FFB0E6093588F39B14E09ECAD64AFE27E7A268BBEA37C1C50 (-0xA2965DABBE64D2BD17900785DE1FB3D761C95E3BDD8EBE2A7F9449D46AD2234B) 0x9EAF3D28B2CDA9880BA3C8D9013E5110A85A121A39ADE979E1EE42B172BC45D5 0x5B6744BA039C7FADC71591C163F441A9F0A2CBF80A864B2CE8EE89347670ABAE;
  CS OpD 0xC4A2DEA768C6EF18068D7D4DF3B4101A5BF2ED2309D1EBFCA93206DD75ED4C4B 0xEED59CFB868632378022E90D50BAB792178388ECF8006A1690FCA4738A115D1B 0xE663E980CAA9C0074FA8D1C3AE20FBED5EB6C25B9DBDC095AD75335C59CDC5AF 0x433244A898A766ECAF61B2744B9214ECE4CA58F73E953B2C076D46DE1C1AAED0 0x9709CC8EE5F80116498CCC82238BCE17944457C8398BFDB1E5EBE9E022C92CAA (-0x6B7490B70492EA400F19547E3897E0E011AA114A1DA6AD6D7348D33131FFFCF4);
  CS OpD 0x72D68F510892AD02BCC2A3ACE2AE898AFFD949BAC27F7F485AF12EF5B4B2F295 0xF49DB5F52D6681ED9D93BB91191C6E0CDE3A34A05002EB6233015A116D1E3328 0x375B772D7CEAC5EE965DD923A8215F2CDB3FC47BC39B279C4F6AF1DE5EBBD483 (-0x1CDC279704980C296575B3ECBBD2483F9C26EC777D27CF5E66FEAF700F962563B) 0x3383CB7817589889FB14F8A67CCD52583F2BBDDFAC1CFC6279ECFDAAD5BE8A95 (-0x297F3A0A7764F0529253AF09D49C47B88A439F3D0155D972A131ADAB66052AD);
  CS OpM 0xBD349C3AC92E995A84D91FC00B48A9425189D3DD7B02D9841F3F7D267BB7D390 0x5F76DE05D19DB8D7FBB7B17093E79603A8E7D35D96D4C26AF233EBDC188007FD 0x225206E82B3D5F0BBC48429FAD4625D7A48299518AE0B1C35730955B2726175D (-0x5AD01E02B3A2EAA917DF58090CE68BBD1F5C63E973CBD676F19B320F62273A4C) 0x8BD6B97EA4483C0E870C954EE4C454E68AD6D190AAB443768A1E0E6FE69B162D 0x6E3C54557EFB4F45A71AB57042C9ECEEE1C470CE32C99174FB71C8123D1023B0;
  CS OpD 0x80971CDA2D822CD7CC4C2254DCBFFCEFC5D306AE4A5D21C5CAE84F1E74430B09 0x348469F9DC6D617D1743C45D34E27793B67D9DB1B4753706E7E6126B3238B60D 0xA029E3B9346281332D0FD1B921B6F6831E93E61185F0C281D8CFBF19DE09EC0A (-0x4851C4847BF080BEB5947A8F96D57103A2DE63767597A7602DE65101A7C3A23F) 0x4097760D3A24504EB679BE5366E295C5C98196F4E024720A7755DDC253F79FD6 0x159293DF8C70613BF5928B9ABA7287C5F879584B30A8472E9486585EF52B5347;
  CS OpD 0xBE1C11DA458EF5BA99FF49311018271BCE09197684263CCA2DFE35ECF9889A59 0xE87B9B0C299B5C157EA92EAB41929CF24612E9C089CE77873D46ABE0256F07AB 0x3CF1B8A2216C0307C2D387F7E111D7B200832420106AF955BD0B9BBF4B3B074D 0xCD8F1EE683A19323CD266A565007634B477A910A276B88F3E2A9E88D3C8F9357 0x8D2DAD93E83E235E446C4B0B2305B278DD0B288B22BC4008969A0C55218D4C94 (-0x85A53201CEF0B1D032FAAADA4AFDD7B67D507869D742842931AEF94F860B7ACB);
  CS OpD 0x6D04EC23BA31A3C12B44A0ED541EDC57141570E619FDDA32B8D0A08375BD6586 0xE1C7F3F141335E60B52CA6C90D4D35A13328516D3733A4C0272D7F2E7F5A2976 0x6EFA85AFCDB1EB46273F692ABE3DD60CF4CB2221B81699004133F5B1D5A69A8C (-0x245789EE6B05294C175189B6FD809D9F800D10C571733D21006DC5E9A674E4421) 0x2E6D312EA77DFB4793CCE55C4A1855911353BB13227CA54E13D9A818D16C3E28 0x2DA9F239EDC63A98FB2A5C4872A6164CE091F7746A67DE1339F1835A196B52B;
  CS OpD 0xBFA4B74F664C54D56A7DA7B127139B6FF30F2F48DD576E4DD4152450855B72FB 0xA569AD7751E7213A6A7A36AF01C63529C996CFBE4E8E89D48159744ADEA3D3C0 0xBBFCFA44BFD1A0131F7561CCEAF537A010DB1A842E5007B71616FF97F9E34C1A (-0x1AF3AA18B19C9F83FD8132796B1AD34D3261BC2724342687A71BB57DD2897249C) 0x8F773383DBA39544939E558D1E46344DEE387F18529CF5F8C846239C8FE1EF23 0x2D312E343D3FA839DAB8F5E48F1BB476FF6E2C0DFF75366B6133EC939E01CEF4;
  CS OpD 0x6DBDE114DD6222DF400359859C27E813AC6B9FC4EDB6D833B42EBFFDE335D58E 0xBED0E582249376547520CB3CC8DBD5057AE765E1E1EA7C2D00F56A7815ECE6C 0x583D4F5C137DDFDC82FC71B8C13CC28540DEF0D0718962B0E7B6B97658A6423D (-0x9F77E479498C3B76174AE8F7C025C8EC6EB4900D8F13C1D9DA4DC7A6FB0A6158) 0x2F0B3E81E33A2373723BD66A065842BEAD96AB6E0F4EFE53C64A36A26BC53AA8 0x41CBE7B4CB9EA76A224B1ECC0EABF23A63AC67651C0DCFB409DACA6FB03B548F;
  CS OpP 0x98D70A8AAAF3B5860D3609EA3CBDF2F716BFFB5F3CDD4C64C1BBC01C8CDB8DA1 0x1AE34882C0FB76737EBDD11C0418A07E9ECD8EEFEFB9D6B5EF3F9C53E6C1B5E2 0x36C80509441480D695D0C7DE6FC62A5C5400D5C701FAE8F02165FD5C7C71CC6F 0x41908BADC23F3CE93D749D2662E7567BD460098A644B1FE7B2B18C2F365C839F 0x5B401127605BAD61E1F11F316D5C437E04732BF66DF49E6DEB3A1D4543486495 (-0x8EEC3F1E103E3455904530115294A2EF76CF08220CE0F920475C7E58E1EFDBE);
  CS OpD 0xDBB34EF90CB4604CA723D7D6457CE83EFE4180918AF75D1BF56D42F5E03177B5 0xE11DFE9108B1D7E468A048CFD2A85FF53448D19A1146D38ECF516B9DB0549C93 0x49E2EC4A78BACD34C7813E002ABFC098914FEE0E61760D5FB892423F6A48A415 0x558E1894AC2E49886617C2A2B3D9065E12E62C19F0A340DAC67D6501464A05B6 0xBC8C46B5A4611709735C827E2B794E2601BBE06F0F0EC28564B412B693B429FE (-0xAA1F11F23FBF040118A3E1B1EDBC753619D029009DC5E50E88A15B5C5D59B0A7);
  CS OpD 0x3D480B8C39EC2AE6D8E804FBA484B481B19D74C7E2556C96C2C21A18B76203DA 0x88C1D5F29C010B8DAA66C8113452FE5758F6855B305B322380971A8057EC6491 0x6C03CB89CDDF18D240FF6B933802072BB7A0DA84114DD0F649C968002997424 (-0x22E817C10F87CF88F4B3823DC1D5668A8A5E0A5977B982AE046C363E46ACE3339) 0xEAB69C753007B13D8525CFDD58EA96289CFD33E2646632529587EEF478F3AA3 0x1526D3958897C088B1C4919F411046A57E9538BD6E34A32F1B74E0B83E1D0275;
  CS OpD 0xC84A846EDF6A8237DCCC1F5DB8A3EB36D6C3A634BEF9D8C7951D559B49F86216 0xEB68ED38E781A98DAB54796B6782830EA33A37A91BF14E73FD8D2B04543045A6 0xF70EEE169D89C2C45CB6FF4D5CFB8C4B8CE36232F6BF4F633F46E6FEE0B75F20 (-0xD09B454289A9481B04E8BA32E2350310A3D02CE1B0B71F03801CB75808EF9F3D) 0x9CB4849E11B21B752A16D5E63D9DB95C91FF2B680FE3553FF7AB59A15B8553A4 (-0x4D2F418487332664AF241C50F5E4F2AABCF8D1E2B39BD9154BB249BFE7371D8E);
  CS OpM 0xD430D9AE87D8FF2964082F0D2072FD74F36CAD28516CB6EA526337613B8A4EC1 0x327284F12A905F685C4F1F5E04391BB34FF79B3F5E7BAE1E67F842226E80A554 0xFEA9670BD5A2ED91F5B86C88414A26BEACEC04244EDF3610A7886C1D2E710851 (-0x5E36E832461596F47F16686CEEA08B517929247CF2B258A16F7EB7ECDBB7E72B) 0xAFE0F1DB6B8BB14710D8ADE6793BC12C8AD9BE709DF196C8A03CB8FC0FF44D41 0x994F59D5EDF1A7D0EB1041BB10810007F2D6B6E4DDC6F0EF93BF69EC44AB066F;
  CS OpD 0x15DFEBF0D49901132C617C7BEB4601DBA4EA9AC98C7AF4130D3F49AE914B049B 0x2029C680AD78D2E48312AD0CAAC98AF56B53C645BEDA1FD3385FD17FB2046F1B 0x963A850544D9B97EA8EDD138851898ADBFA2DE30D43E8108D86CF23B6C1CEDE 0xDB27DF8FE1929BA679859A0F1DE476DBC15FD4DEC02FBD8620D8D7BB3548F7A 0x1DE809269E7859D3C184CEB703FF50D5B52D1A251A77E594A0FFAFFC1F8B1CA 0x18FF5D71872DD96BBDF428485ECF367B042DFD760C21C4272E4A4E6960D7AEC;
  CS OpD 0xB5CF2982FF3E33B27DCEFC7C4C5EE67EE1F68E272C083BE5AABFD39B4CB3C420 0x5F3D87C5F17F1A1AEAF341EDD1056931EB6BD968F8D859E768765CC4B47EE7D 0xDB12600BFA5702F4D3CC988B264AD8D857B3C63056B15B4C7DDDB802587CCF24 0x136B4E34174A228C01165808B77CB2CECB6C2FB1FBA33A72719D167A517B81B 0x811E98576581F47C26C6CD72D3A1D7F1B98D4958E2A007881DFCD22AFFB17943 0x129D57248D8984C8AA6385CE1193E113FD61A8C24C06262D7355BBE9EEB8A8A2;
  CS OpM 0xE1CFC41F32F1B4A0C87E188C9B4E2BE39ECD251AE70FA92EAE4A39F0D4C49E50 0x2AC66A58E9619A455A867C7C9202FB9F2364D2BD35A5D68874485250797CC867 0x6FD229978850E435A1F0B814BC0EE23613E7383A33A8F6789962185949161B6C 0x6623004E4F6E2EA17BAB96DFE1651F35761A10503EDD95AF43206F34C679EF73 0xC72EDF5D98410C3439B523C8E5010F5C19F338395DA12580B45F75E06E32A8BC (-0x207AF4AC7B5EF70FED0A578A824A2C6E6373BF4706A6B42A456745F4002E2F50);
  CS OpD 0x4A21613EDDE7EF93090CA6132697B094484CF85D057D7974BFE731E714B50BA8 0xDE693C3C1424D3DA77F4C47730FBE1B8131BBFBA2C466581F16E3CA4D6CE368B 0x750DD41C8D3D880FE6206A3ADB3F2E1493E825A5F2315DD29E598B110B959A31 0x2B518B24F42C00A03782E6C37CD09AF4EB4D50DF8EA46E614FC153EFFB40B123 0x157750928F6FFFE6C563631FF468A4A0AF72F706BD3EE8EA95ABFE6A3C8ACAC9 (-0x34047CE58751294089857111FB7A3B250F3C536FF8F2D00C9B71336B7D501A53);
  CS OpD 0xEBAEFC4D37D502AB6730D04EC770D56CD78D13C110627FBD348F81A37993CF4F 0x734D911DFC130AA4B69F2C6741BB2B886CE21ED9AB6C982D1CB6B7B70932C829 0xACD103B722C9F637B4F939651A29379226BED40C40170FF127CCE73AA0C3AEBC (-0x16C28A63D66165445C2E4AE691E81057CE0F95295DB63F9E9C086F44EC7E22063) 0xD8FABAD1B62115AC50062B7312507E5E569AE4A503A0EB39E6BF264CAAEB5A7E 0x629B9C7279ACD8709FA15AC133D67D44F1ADC520CB61EE635E94CB863F1B367F;
  CS OpD 0xAA03DF9AF07F73497666E9F36B416E6A0D630D49C6F3856D3A07E763EF4AC9E5 0xA67A8CF57F2C6231AE81C46704C6960CC9702C7B8A4B9D237F2D0692034BD172 0xE2D1121DFA3DB4AF7527559F370CF35814F28942FB889B49D20075869151D375 0x49BE7C15F8D35E7063B7ED56666FC5EBE584693C606D8781FBC41A9ACA0C276B 0x70E92508C85A34DE8B195D67DA5E7E20359DBB10FDC6A89D9CBAF289D8BCADFB (-0x21FCA57739193EBE73389218C4C4CB2FFF7EF53E6CE79166D8BF2383882580E2);
  CS OpP 0x76676F01B2003926DEE1E460D598776A93F538E80F6953194BF1F4894F1A469C 0xEB24D16330110FAAD9B03E473D420F30E2D3E8C98BB5E246769E8D273BBE99D6 0x5000B1C6F9C72043DC11AEF1949DA081411775C08E497FDE8172238F67B79B50 (-0x14B0CCD3FBA6C0CC9D443B842E15BDC0A9D63E6B27EEC6542668EB6C5A89E5D5) 0x36C384201397E93CE4140F5EC758A78068BFFC463CCFA16AB60F50424C6A9AD0 (-0x1FC239D25FBFDB01190DD69B03C31362F90B91DD8235E563F9AD9513B2F8F15B);
  CS OpD 0x1E30B209453F486EDDDC9CCE08A531FFEFD2A6783CAFD7DE9348FBF6434B2883 0x64255685665050F0E43CC6C3F0B5DFBE7D7FB5D44489EC198325C49465BD9221 0x8541EFD3BD8F170B83B418D779399CD987616CC4EF18CFFEC070772DE127CC26 (-0x275173FF2EC82606984CF7A0AABACB84D948D89FE9A7CDB744EFBF2540E3D94F4) 0x38F72FD6B85B157177B587DF9842C18D177548AF20D3C4254276AA742B1AB84 0xFEB9E2F8E282DC0FF4F380D0DE8F2D37028E1E0AD2BDAA62C2ABD284A264927;
  CS OpD 0xEB715EB2A9B7DB0A766F9208F7B1A5625D34ECC8A5E70A4BFAE85C2325817F2 0x6393B77A818B8658404C0D4C945581CB23B27AA957C70C9B8761EBF620DFB1A1 0xDCB6947642D1C7AC8988C1E2F0CD67952274B0EA408511631ABA09F602EB6CA2 (-0x6635C1CD58FD71CB2EE811C17B5998FFABF0A4C4F7E156CF568A63E12CB5C005) 0xD8895610C05911C80DB9F160B9D004387BAC24C1BD2A6889625EAEB3FDD5EF 0x85ED7C11D6C0FE59E89B29BE489A7151E31DD9BD6B56F36288496A64DDD48;
  CS OpD 0x4CCFB89D1B60456F3124F6AAB340A192098A6A2B38467633E61B4965580649E6 0x124B2529A56434C3ECB5F320C80E5166396825891E5C2CDDC9667C1B823D01C0 0xA08BF90CC8C3395F734FE6C80480FE4D0473CA0CFCDFA002C61D6D6FBC790528 0x103FD650BC540AF811D8A9D928370BBA3D377646E63C851896633186A6CEA5BB 0x170BFE295B75A6AF49D1E01D46FFFA0B5BA8E2B1F2B00C62090AB7DD4E5ED1FE 0x18637FBC5C1AC287898C5B76979DFBA6A3A682DDC0A63F74B6AB657EE7341764;
  CS OpP 0xDFCE10546725C6FCA0C549A9864D77C4ACB818E168427C1BC6C4D6BCA272666B 0xA6475E83722073211DD6DBD0800439687425BAD13F314F029ECE4AD128E5A9C8 0xBA36A1137ABFBA4F8856BF3FB9E51994682217BD1B42E3422994FBEDA689F124 0x5A70AB4136D45F2343A933E00FEEBA0C771A5C9D67A74D4EB8B0A24ECDFC33C8 0xC3A8A65154947A30F1E4096C788D9FAB03A380AC95EDDF9533C2798C9EC718B7 (-0x815FD45BED93799ED76169634D51DADCC62FEECFC833D70699A3E66EF03E5B9C);
  CS OpD 0xE2692AE46BD18F562FDA31DDAFC411083FE8AC10A58C34571A2D02CD60FC9904 0x98E6089A0B441A0715022445302AA195F1585AFD319B0CF95FC986B811ED8612 0xD5D31C2DEF45B8A9AC8BA248D2E03A3875BFFCF2DAC64BD1F72B93D3C25358CA 0x55F8C34AA4881BE9A305ADD979E32C64C1E04CD13052E96E4BC157A90F641A0 0xC83DDAEF84EE322CBEE8F39E8E31DBE4A498304CEE52C58563F0F6092BB396F2 0xBD56D0231F528A6DC12A02F863C6FD4A4C87B5FA52A059F93E8C5A946D67736;
  CS OpD 0x72A6266A158869A04D9B34F9E273D44CC4AAED4E578A7F9812BB77E719348669 0x6C4544D2DFBB2C1E5E555A2A6192BF5CD525EBAD3C86E24DEEA6BB1B2DBBE5DB 0xCDA896206E79C8F67CEE53522960CB4D922EAABE07B9C22238A8CB9116B71925 (-0x527057B1CF8F6CB11634A6CCA078EA0B1BA8243B49F5D556ED0469E490C32568) 0x3358660C5285155617259A464CA5B519514F6EF6E61E5FD62F8E9174B97F2D8E 0x13FC8E1FFFEACD8B7AF24692CA002AD550890B720FCE17B3E332BA1FEECD1360;
  CS OpD 0x815DD7E1DA04C7F92818CE1D79B862B58C9A4CED03D2765FD844FC990270C363 0x54296C09DA4D43F8BC339E07E76C5D4F8E8935A38D67999F8655BB7975617440 0x484246C80085E35AF733CDA5351739D1A52CA79004F9E3178559C06EC650EE1C 0x467B203584DA77CB898915A5F3D126A04029BEC880EF66D099E45E735A5380DD 0x415FB5F82DDE5C7763684BBCD02EE45C96BA8033534D9191188B5E21EFAE891D 0xC2EDEAFB4D5E1050E140657DB7FDD1B693038FB31742B1F0F25FDD39EB9F650;
  CS OpD 0xCCD6322C52928111942388C59E0631E72FA00900D9F937FFDB325A29A1EAD88D 0x12C898CB8F0A03678354347322125D3E16F7217335F9658B96A8FA912DE6D3DD 0x6AB3E401BF24777994C6BE5D52FFF0BECA8644C50EC08EC3E4A353013FA73E57 0x20A0EB2140390B2B52C417FCFAF6DA9C72C4A79A948F4958AA5556ED5950E4A8 0xA3E6132E8F88E29184E5B7D327E8BC340CF6C998BA7E723439F865B72D5E8474 0x344FDC16750968EC7A3AF85A3FCE85C619215E6C7B3E7A447ACB24FA0728C62C;
  CS OpM 0x9E1E2AE72820D0DBB2EA42D898338FEDBEB4EFDF7A3671CC764FBCDE841926A3 0xABEC7B14ECC9B6C3906D33A1A7BEC37C2D79013FE4E3F000053E5A6177FAD499 0x637DA79A9BD32706033EAF37BC59A93FD9CDD3AB1FC6D80EDEE8A0C68A0294F9 0x3F97D70422A439B5DAB76101B42BF1A2497A3C58B1F48BB9D51B6BECC64B74DF 0x61A940836AE693645A6262165092B54F7796E73B8EAF39A51A86BAF04C880A35 (-0x5E963187F6F7C38734ADDBAEF78FB63744253EF72E998D2D73EFD8D19F54683C);
  CS OpD 0x1AEC81D0E4266A3530160EF230FAB73111AC7906B8041FD5ED3F682BD5F6142B 0x2983EA7BD8CA5A7A5343D4246059B61F7F36753AA80EAD5CBEC9E69F6E6CF24D 0x7674C85D2628139EDE2F8A22DC694035566C7285CEF540F9E4DDCBDB74E3D0BB (-0x14573FA03ED1F760A052B4B2DEE4F155AF84B0EA1846F223414D6B82783C897E3) 0x2D4E4DE0950A4C8E09FC78B90E7426F0BC8EB3822705473534BB1DED659A766 0xDB71935F331B0A4A14308F25182228C6416C6E70C14854A820C656889FCAFF0;
  CS OpD 0xDBCF4B9A16E68F0F01ECD8DD48FB3DD8EC7D3094F2205E975068181F4472C385 0x9F7B4345BB332041D391448989E89FBFE80D0F16E6DECBD6ECD8C8EC25F66F2C 0x816EDFFA33E273AD7E8EDE9716506524A64C5DC360953DC520F977DDF80E1BB8 0xB7391661F61F5E8C161D9DC1AF58ED8AB834A317B7C84E4FF93870CF3E90069D 0xBCBC5334FCB327C9AED3B17C5BFE6501B826CF7F397768536399755226F2621D (-0x654A1ECBF849C277AFDBEA193AD186B425C770F052D723D3700DC11D62B17212);
  CS OpD 0x9A5634B98AA6F97727B2934480DB9F72DBFE2FE55922965C917577436FF08B2F 0x5339E2BF09CD724E75098588A55DE91333C510D584D04B43E2D737E32F6506DE 0x90B14A56508CE4CC201FA61422FBF30110D5719573664EFA47D6B4B8291FA866 (-0x8DFE7976D3B1DAFE15B8A7A214A7F4EE48EE081F4ED0494B1A22DAFAD98B98E0) 0x5D0BD476B255F3207D96ED5E396881CCF078B44EFBE8C62B50B3E67ADCBF2785 0x2DF901BC001DDAE7F8816E7784C268252D81D4ED520F0A00FF9C81A05FFB360C;
  CS OpD 0x70F124385B50375EA2BC46971EA33C79F8AA378A2256136C05BE57BD744D2F2D 0x15305C2F357E608F7667C0E33839CBEF86E3A68303EE5205CDA9CFB3A2F7B338 0xC4E0262D047425D17FC0300F4A2EB12436C16B5DE57F4B8162FA3BF2FAD46D24 0x2E7FF56F27E621B4CCF6A9DD5D7D23E568096AC7A677E552922405105F5F92B0 0x31D3E2D687220391B1D01BED386143C245EEB15A454AF3B29C506843D6D00C1B 0x1B5E9A9D996BF2BEFC41A49B6461C63F9200BE809FB62F6DC1CB654DF930549C;
  CS OpD 0x6520E8CD4EE782CC56E9CCF248F7EC84C6BD71C65545E10E77B4118ABF67AB8 0x2B3D4849225A806E410E20C443EA35D50AB7FE11612BA09E4637DA5F3561CA3D 0xA3B4A320E66498855501B050EA1FCC8AE26CB9E869B57D879049B82D2EE9E6C7 0x475CEFC5CDEBB965E5585311485BDA83DF6AEC3805F65DE5026FE4756221100 0x27F2FBED074B2AC103D5F407349EBD19B7C20307F0B27FBD26FA2326EF31DD (-0x8B5EED122CCE45E2631FBB0C30C3CF9B13D6DD220C10EB34E1DA57CBBF56ED);
  CS OpM 0x70F9E70586CA4BD99F9B6184FB15B8C6BD445D59188AF211FCEA04A8EB9FF348 0x98B3ACB7790F919FCA0D92136D4527DBAA01AE9516D1063D7369B2E93B652C98 0xF7B6E663B3525D6DD997CF64C4EFBCFFB50918241E61297A672001CD94FFD862 0x22A51FA624C5630F16EA9D3893AC996F43F1D83C8A6EE0CE353A69715AF5BA98 0x31DB9E180F2C314598C28D66537306147B507DBACADECA7ED7EE33DD6577839D (-0x304EA6E026D38C7436A4AA2E1DC27872F8D5D9CBAE6772BA2A595B7AB6D16D0F);
  CS OpD 0x3C1782F0A81D21591F6073B8BAF6639551046B63CAD046CFE4F62100C7746D70 0x22AFFFE6C91233C1FF1C9D07DA126B58730D0D5BE8C1E227D1D7C4232AA608EA 0xCE5D214310C9078A99440866FEC25898553596190EC447BC5E4B8525A49D2EEE (-0x9CF6555AF6580497037355CCFC13BF4CD687AC34F5E5D1D47B2B0F1A08590B00) 0xE1B0789990529D6FF9C23A1B8ED7C0F0DE954EC43A60E8E447C3C70E7AB67FA 0x1BB3B3323EB305FA27D76F424364F425BBF95C303DE221657D0C0D98AA573E30;
  CS OpD 0xE3C6AEAF3FE689C475E2851C5ACBDA4991D0AC10E82F73447FBF0511B9F0387B 0xB0A72C1DBAADC0724D0CBDB6FDA9740EDD420DDB6C73AEC769CF4EDE44431672 0xDB7807300611F84C9DFF2665B65415B864D169C9CE8FB87BB61479FF0F879558 0x1611FCFC206DAAEE5761C3C5A6939EFF2E06504CD775BA6AC665D8B65656E2F78 0xCAA9F3FD799C63C55560C4B9D2B3AE21B116912E0B225FDE5137914F2BB9E69D (-0x7E505A401A300A2F8086662B5CA0B9ADCAC0E68171302B987CFE75A3202467C2);
  CS OpM 0xF4A11969A0FD6B497D24EC60A4D1E9430A183A88DB0138963BD655EDB56033B5 0xA9E39EAF081346C4122F3193C87516CC0942130D26AB597F09A2FDE0D1D1E2F2 0x239D5AC5E3ADC3E44D68D5C18B83B01B45CA2E8A893CACFAAC641C5D4A406164 (-0x34786A32FBEBE183C3BEA6B46B512F8C7C7764F04A16E51E6F377B35BE114E8F) 0xE9C37DD25445604BFD11E8BC82DA4250E4322A8F8F2787605A6E7673963FA293 0x676A475581F4B76912238D8E223E6FFDFC898A64B94A7D41C71B79D5A27F47C;
  CS OpD 0xB409CA9206D3EE5FB4559167FF982CD6ED4A31E74BA950638543091C43FC7F16 0xA6B6E4FDE554C0BAADD0B5D7FAA067B210DAFC3522F091AD38666D9B9C17E4C 0x9EB061EBA403C7BB188B5B84501CD64D06EC9FDB2FBEBE5E287D5E9C10B5C4C7 (-0x12022F49E11925717C4312BA598C8061F662C43C85262799CC356CD12EE836DA4) 0x7E9DC53D3829482F966C8EDE7FFD50B217758B7B48DB997259EA218DAC84D88C 0x70269B6C69A98EDCA3A1FA872C03D7E00C423D538814AA447291DB996FCA1437;
  CS OpD 0xF48D70CA7DFFC5DAAF85F505B5A0E138DF7AC855434E01FC40F13A6CBDBDBE14 0x96BC4D28DB704901A703A30524DE2CBD032A6B76E99653475B4C16C5B64CB170 0x59887339F6CA7D4A3DB8ECFAC3FB0E99BCC41F0366CD448B68CEF497403F395E 0x12DE9DFAF83762CE64F5D5DE7F0906F4C6C6773AD8D10EFBFCE4EB1E104632518 0xE99DED2770F02B53B4441218524D379531F4E13ACE386F13C66889304CE22AF8 (-0x860A9AC3ED1F94BB5411A1D12E8ABDB5AC4F531A1ECBEA5BEE3FD6208530A41B);
  CS OpD 0x1F942684775804B9639A94CB1B0CBD3B527E723818624DB42EC709FEFD3709E0 0xC83157AFFDC675B431591474C808E883EAE90A797BD33D164E3D4D9EA4672012 0x17110A87D8D7A4A6127217EA538B22FB00C8EC4662431D0BDC6BC67C87911D7A (-0xF42CF22976119D3F8D2EB3EF214D91206853F6DB9CEBDFA04ACE0D36BA0ED580) 0x3E53710A3DCE6E3C849762D711E9C03E77D870972A3EF1BDCB458688BF0E652 (-0x619CB616A402F0C0970938B1F892FCCE86ACFBB00EC192CCB43B3DE7B6F74E8);
  CS OpM 0x4688196E2EEDA3E7EE293FDE35CF9C62EBC2B854949BAF82A653EA50F69116 0x3488969CC861A1246ACFB9052D1A74FF69C87F1CB3513B801695F986C1911346 0x8E291ED2E8DDACA1BBAEB59E4CB7CAA77BF1A22C89D0B89ABFB23F85B49BE8B2 (-0x159D22CE866EE374D733E65479874A51DA24BC963E19366C3076D418285DD7) 0x136EB643494286B7C38206165969F6515D1BE64E09590D48C2698D1F4B4C 0x28AEA51CDB3D2A9E72B516604B51AA4794F205385FBFC2A8F2591E60487364;
  CS OpD 0xA16F605F47CEFBB38CB2A3594AB74CCB0C6E51AF5FBB414BF9A61ACFC3EC65A 0xC8A502A06615CBCB3494D807F58F3301031C1842E3937F91EA194E2D41CEC9CB 0xEFCADFB5F7949C87791128F827FF0095F6370EF2E4D6C4AAC5026922E10B8253 (-0x15229B78C6F6FBE5AE72CBBF9CD98C2DEA7C2DED612B1E50CAF5E688A9D56EFC) 0x65CD47AC8F3A3767B936A42002FCA7C9B1F624BAC25AACD776A7535BF24943 (-0x5D665002E458C2E023E4AAD453A9933A37D71398A7F325215BB5150A294A3E9);
  CS OpD 0x8E7CF7BDB2D9C4B6EE9D108AE2127334083A475397B4270FE0FC163F1F9E74DA 0x3B5621E7787A8234B934858F75593FDE16E2427F8BA7A2A2A66FD3C45425B25A 0xFA4B83B533A6DFB4286541028CD71893E1121E4B13D837FFCE5AA2171CD66230 (-0xCCD78E9193A7643F05DF7C85669DF6D7771A50929243E5770910BAC4B4DEF2A1) 0x4F4EDFD761EE74E34E066BDEFC49785E91FAA88B55072B0A122CCD57C07C068C 0x4EA6BB9B3E269C83CCC77826F7EADDCF08DA37EDD1ED95C460BBF18CC2E7C4F9;
  CS OpD 0x36142EE62A35E7DDC17BCCA9CEE654DBF73D13AA024FBC746082703F04C4C6CF 0x2005A14A3D7CF9EA70C99DF0A09E05034689080E4378438DD8B9DC726863C71E 0x7921CA90DF720D2A003C1E095EEC9B7E933D48419FB200285ECB4B2765809DA8 0x407CE13FC309B673976158162D9798D8AA72C51D2BD2659A002FC292663E078C 0xB6C8560765CDC59076C851E5D22F6F41E94E431902583A980BA3AB22DBDCAA1 0x5C5226C3CAAD9EC98C69E4092C900D0EF59B43CBA0F4D8FA6061AA609EB3614;
  CS OpP 0x9C39A824FCB64FF7AC6DEA21FA990BEAF7051CC423727F4ED43575F9BD093153 0x1B7B24BFEC17F17CFAD4ED5D26F3BA3F2ECDE9516100D16DBFA3986C27223893 0xC0C686408D517DFD67C2367651380D00D126E4229631FD03F8FF35EEF1A61E3C 0x36C0CD3E438069F08FB9B623AD3866FCB1DB13E91346572C8CEEBA55C81BB7E2 0x5F5651E962E74BACCC23BD89D75EEE6ADACC42C07AA55A941FE46C07A8A34860 0x2C569B58E1587F7278E8D5FF2FE165BA16114B686025CC10DFC534F827D7063;
  CS OpD 0xA5120FD8DE5D617AF8C2980C032CB8CDF26B963651CA151E6790AFA3E62C25A8 0xBCACE2E99DA01887AB0102B696902325872844067F15E98DA7BBA04400B88FCB 0x483ADA7726A3C4655DA4FBFC0E1108A8FD17B448A68554199C47D08FFB10D4B8 0xEFC17DE184609A8FA61B0E07044CCAD7D47037619458F75CF187DC8BD6EA948B 0x6A7049B3CA1EC6912A1CD328B3E2BDD4E13C441549A483C2527A5AD58E6728E1 (-0x67F06F0AB67C10ACEBF6124F9DD3A47DDB5E3539A08EF65191C37686286B028C)].
