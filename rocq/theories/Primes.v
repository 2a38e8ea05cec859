(** Primality of the field prime and of the group order, by Pocklington
    certificates (generated by tools/gen_primes.py).  Small exponentiations are
    evaluated directly; the large ones use chains with supplied quotients, or
    folding modulo p and n. *)
Require Import ZArith Znumtheory List Lia.
From Verif Require Import NumTheory Spec.
Import ListNotations.
Local Open Scope Z_scope.

Ltac vmtrue := vm_cast_no_check (eq_refl true).

Lemma pock_cond_intro N q e v u :
  ((1 <? N) && (0 <? q) && (N - 1 =? e * q) && (((v - 1) * u) mod N =? 1))%bool = true ->
  2 ^ e mod N = v mod N -> pock_cond N 2 q.
Proof.
  rewrite !Bool.andb_true_iff, !Z.eqb_eq, !Z.ltb_lt. intros (((HN & Hq) & He) & Hu) Hv.
  split; [exists e; exact He|]. exists u.
  replace ((N - 1) / q) with e by (rewrite He, Z.div_mul by lia; reflexivity).
  etransitivity; [|exact Hu]. rewrite Z.mul_mod, (Zminus_mod (2 ^ e)), Hv, <- Zminus_mod, <- Z.mul_mod by lia. reflexivity.
Qed.

Lemma pow_by_chain N e steps v : 0 < N ->
  ((chain N 2 2 steps =? v) && (chain_exp 1 steps =? e))%bool = true -> 2 ^ e mod N = v mod N.
Proof.
  intros HN. rewrite Bool.andb_true_iff, !Z.eqb_eq. intros [H1 H2]. subst v e.
  symmetry. apply chain_correct; [assumption|lia|reflexivity].
Qed.

Lemma pow_by_powmod N e v : 0 < N -> 0 <= e -> (powmod 2 e N =? v) = true -> 2 ^ e mod N = v mod N.
Proof.
  intros HN He H. apply Z.eqb_eq in H. subst v. rewrite powmod_correct by assumption.
  now rewrite Zmod_mod.
Qed.

Lemma pow_by_red k c e v : 0 < 2 ^ 256 - c ->
  (powred_pos (red256 k c) 2 e =? v) = true -> 2 ^ (Zpos e) mod (2 ^ 256 - c) = v mod (2 ^ 256 - c).
Proof.
  intros Hc H. apply Z.eqb_eq in H. subst v. symmetry. apply powred_pos_correct; [assumption|].
  intros. now apply red256_correct.
Qed.

Lemma pock_one N v : (v mod N =? 1) = true -> 2 ^ (N - 1) mod N = v mod N -> 2 ^ (N - 1) mod N = 1.
Proof. intros H ->. now apply Z.eqb_eq. Qed.

Ltac small_prime := apply (small_prime_check_correct _ 101); [vmtrue|reflexivity].
Ltac small_pow := apply pow_by_powmod; [reflexivity|discriminate|vmtrue].

Lemma prime_107590001 : prime 107590001.
Proof.
  apply (pocklington _ 2 [53; 29; 7]).
  - reflexivity.
  - apply (pock_one _ 1); [vmtrue|]. small_pow.
  - cbn [distinct_primes].
    repeat match goal with
    | |- _ /\ _ => split
    | |- True => exact I
    | |- ~ _ => cbn [In]; intuition discriminate
    end.
    + small_prime.
    + small_prime.
    + small_prime.
  - repeat apply Forall_cons; [..|apply Forall_nil].
    + apply (pock_cond_intro _ _ 2030000 26896163 75712971); [vmtrue|small_pow].
    + apply (pock_cond_intro _ _ 3710000 68236646 100085220); [vmtrue|small_pow].
    + apply (pock_cond_intro _ _ 15370000 95730224 4923006); [vmtrue|small_pow].
  - reflexivity.
Qed.

Lemma prime_20113 : prime 20113.
Proof.
  apply (pocklington _ 2 [419]).
  - reflexivity.
  - apply (pock_one _ 1); [vmtrue|]. small_pow.
  - cbn [distinct_primes].
    repeat match goal with
    | |- _ /\ _ => split
    | |- True => exact I
    | |- ~ _ => cbn [In]; intuition discriminate
    end.
    + small_prime.
  - repeat apply Forall_cons; [..|apply Forall_nil].
    + apply (pock_cond_intro _ _ 48 15069 17111); [vmtrue|small_pow].
  - reflexivity.
Qed.

Lemma prime_1206781 : prime 1206781.
Proof.
  apply (pocklington _ 2 [20113]).
  - reflexivity.
  - apply (pock_one _ 1); [vmtrue|]. small_pow.
  - cbn [distinct_primes].
    repeat match goal with
    | |- _ /\ _ => split
    | |- True => exact I
    | |- ~ _ => cbn [In]; intuition discriminate
    end.
    + exact prime_20113.
  - repeat apply Forall_cons; [..|apply Forall_nil].
    + apply (pock_cond_intro _ _ 60 78448 709359); [vmtrue|small_pow].
  - reflexivity.
Qed.

Lemma prime_7240687 : prime 7240687.
Proof.
  apply (pocklington _ 2 [1206781]).
  - reflexivity.
  - apply (pock_one _ 1); [vmtrue|]. small_pow.
  - cbn [distinct_primes].
    repeat match goal with
    | |- _ /\ _ => split
    | |- True => exact I
    | |- ~ _ => cbn [In]; intuition discriminate
    end.
    + exact prime_1206781.
  - repeat apply Forall_cons; [..|apply Forall_nil].
    + apply (pock_cond_intro _ _ 6 64 5746577); [vmtrue|small_pow].
  - reflexivity.
Qed.

Lemma prime_96557 : prime 96557.
Proof.
  apply (pocklington _ 2 [239; 101]).
  - reflexivity.
  - apply (pock_one _ 1); [vmtrue|]. small_pow.
  - cbn [distinct_primes].
    repeat match goal with
    | |- _ /\ _ => split
    | |- True => exact I
    | |- ~ _ => cbn [In]; intuition discriminate
    end.
    + small_prime.
    + small_prime.
  - repeat apply Forall_cons; [..|apply Forall_nil].
    + apply (pock_cond_intro _ _ 404 29586 8329); [vmtrue|small_pow].
    + apply (pock_cond_intro _ _ 956 63065 50445); [vmtrue|small_pow].
  - reflexivity.
Qed.

Lemma pow_255515944373312847190720520512484175977_0 : 2 ^ 255515944373312847190720520512484175976 mod 255515944373312847190720520512484175977 = 1 mod 255515944373312847190720520512484175977.
Proof.
  apply (pow_by_chain _ _ [
    (true, 0);
    (false, 0);
    (false, 0);
    (false, 0);
    (false, 0);
    (false, 0);
    (false, 24566379803742249345);
    (false, 14610306825015486936207942625559247229);
    (false, 36949249960270170451221735682029689424);
    (true, 24585793494887671998);
    (true, 184901752158420527241247474598422559);
    (true, 267243119913084690147030845429364068);
    (false, 2693280521724855079127552412004393494);
    (true, 139180221899703503727266792028787637501);
    (false, 276388673334991045497792269189594189494);
    (true, 242096224950005592273524830302518180605);
    (false, 281543587090123598923795242929556713154);
    (false, 71093233522435237645872549396223918451);
    (true, 181339519698558097884704452426427453013);
    (false, 182658270305190462036011640926073297641);
    (true, 56303035490423472196803717485919693547);
    (false, 812905237768355172346982228779472587139);
    (false, 193826173722551988141431441894089304947);
    (true, 2884005876658903067657935626208665845);
    (false, 443345150889860541675185937733788168543);
    (true, 29276475280251769630290783167703250585);
    (true, 100817527949667206440548315686527162897);
    (false, 274288523281225109547170364893867025423);
    (false, 17326617149185966709812261176907147600);
    (true, 142595520948289773248378479358665162752);
    (false, 939816821146716868519457764865292304186);
    (true, 19293740171650450120260136747665810);
    (true, 15220111442548131838112167081733905642);
    (false, 726290206143841768529111672151371762004);
    (true, 6734824616119988417223543788946126452);
    (false, 12482511459773290283009316364721360673);
    (false, 36943523457650433689158398155817970119);
    (true, 195188380432028949875150250231664381517);
    (true, 115586947826758880483213766099545984674);
    (true, 34939089989674737190677073376038324161);
    (true, 5563716458100572728523151839783985222);
    (true, 20837215373208797248072184197641165555);
    (false, 180443828704674929602587859124335524158);
    (false, 54896565852545077672966582959702395438);
    (true, 91820977515636777166954787585928045236);
    (true, 512939584419944837748858035398090997540);
    (false, 54415461963441692113198525082625049769);
    (false, 141607619020017962837147654757608536425);
    (true, 390105715953564753099492765302862317);
    (false, 13126748001705909956530436615073356031);
    (false, 147260834454076757005048838346915139);
    (false, 828324179198374651238376291445812109);
    (true, 16419843879941070547033849763389507387);
    (false, 925453370348779271121215004493701507190);
    (false, 13108820705891649125572483590541046829);
    (false, 16179210254874490583000704288299619170);
    (false, 1201109796873465525848258603747804698);
    (false, 156673645095843433774121489116348867817);
    (true, 3827129781381252301536283145869370149);
    (true, 3396137486083718530622092526521973229);
    (false, 376449639752616031171928224220933784);
    (false, 193382343350735385194077924046831050193);
    (true, 155376193114626919142230292958783100171);
    (true, 331571288374178977284387274063119489888);
    (false, 810494911081531779385652928342930766782);
    (true, 122249958600690633611629025911397569054);
    (false, 97267586506047739752244781775265269044);
    (false, 91609559198368713579541640481488335349);
    (false, 5979202410340614293126886356779184233);
    (false, 34429868919289443940530168916459218738);
    (false, 32223071392100459148536850777397403494);
    (false, 74612242513437841465925080255621984748);
    (true, 1070872977406649139669114016432955871);
    (false, 940412028597074522460617374374521958640);
    (true, 5081246302139006512662932176564833634);
    (true, 233156593424723088441921905256369432404);
    (true, 13794824744953609638182889066064395278);
    (false, 237802953527380702955239696132617431345);
    (false, 17120951023211313858543903730852177181);
    (true, 12411520260213165005664628549570618981);
    (true, 277065825173531629100601772994914544509);
    (false, 150242952391364413637711401702773389035);
    (true, 21636629783945700498519154084204510853);
    (true, 107528339015295627636341063513962339961);
    (false, 474436755978726397782826442907643253773);
    (false, 25690265886087465213074731156730180298);
    (false, 188318994630056294920325949651992897536);
    (true, 164300911490235210434643910471678226922);
    (true, 761501426224506186205043806936672065687);
    (false, 347689143126029358866357279364468905489);
    (false, 38037258182654992438174965723189499120);
    (true, 25511373723772432996713706899952955820);
    (true, 306176636725313769677289556944203938856);
    (false, 48679638927452581128035024802768146888);
    (false, 132956794685344399134158711212270308920);
    (true, 13759108232029192158334486484498510);
    (false, 168847389403745882256642855617090921860);
    (true, 245131167487970023970949808994666934281);
    (true, 674388133890772053991450466195361314861);
    (true, 266653605290739236739971510343222769834);
    (true, 838894681366747117772376550729614499134);
    (true, 451877844441013600793940653881182154545);
    (true, 828480893506856718573861395381117824537);
    (true, 655028213136926954187907076302752199069);
    (false, 728946066328145939813572826210271311981);
    (false, 108269111452805675994124971452926951231);
    (true, 10217276371726269470758033942316555858);
    (true, 186063542778610148935037187240593037481);
    (false, 962864693348123604718005577862504656);
    (false, 71146477091755847188136502538936452962);
    (false, 34239851023091510423681352000681708236);
    (false, 24847860716651885851582936251411568941);
    (true, 49058738460868504357320960754656971961);
    (true, 722359750601578907148005384893466228374);
    (true, 1324820244628199556439413144425076261);
    (false, 43028994497377127828332868946333652408);
    (false, 14837304689172726868984441174555406110);
    (false, 202603244497155552462308440796403832959);
    (false, 158727558002247209068094756800629715913);
    (false, 8047612181460457418689672835071569067);
    (true, 65692955454512887232356118961180141532);
    (true, 534597667887405700561008197683611278259);
    (false, 73383088134649900444115742467793992336);
    (true, 108475539214167800120579640058119031183);
    (false, 735726570940097764338665261112122783100);
    (false, 255515944373312847190720520512484175975);
    (false, 0)]); [reflexivity|vmtrue].
Qed.

Lemma pow_255515944373312847190720520512484175977_1 : 2 ^ 2374904191824599455024826335976 mod 255515944373312847190720520512484175977 = 82381214149343919061612748413412685903 mod 255515944373312847190720520512484175977.
Proof.
  apply (pow_by_chain _ _ [
    (true, 0);
    (true, 0);
    (false, 0);
    (true, 0);
    (true, 0);
    (true, 0);
    (true, 1728705295780869887611362426295192);
    (true, 67108064247377672327476753469858820297);
    (true, 254148461943707289822278152215500123177);
    (false, 146345925063028580650480709592123234699);
    (false, 43300538450320718474859067922392793938);
    (true, 172484589394259038440102160162591183947);
    (true, 798384372005714322778291315399085295482);
    (false, 107051707546674325652964344852226551195);
    (true, 176829507359185287621715099315968414081);
    (true, 294802835056021582659104970094923007488);
    (true, 614999945671146876030946638509173700225);
    (false, 938969410957394358940127680143876855489);
    (true, 156569638394210147166468054781568384400);
    (false, 994891745042657811461542588666264239273);
    (true, 92010994810131043311127268066673824299);
    (false, 81929298152514434571515035231742342392);
    (true, 9662310859301629323210367199355766836);
    (true, 1946155755999164253978640202403550679);
    (false, 904381388389580847415958398192344722410);
    (true, 70595415337214859520108311148297227698);
    (false, 352448761663242815687515100028669571292);
    (false, 20885997987957383229902133412206854297);
    (false, 5778979548343018529665370084587144332);
    (true, 109465278727875305907120535033803331873);
    (false, 852708727739632524995284041399665141276);
    (false, 32838709500830364879020472634183316713);
    (false, 94838818258366960769294301671544674908);
    (false, 71555480166795662573488823956374120551);
    (true, 7173320848835392517208880467839813966);
    (true, 278849625758724008312809788005394861212);
    (false, 460774196034907859298154427436070809854);
    (false, 87203101550382067646707978518880644342);
    (false, 156906394817301094179883521102050290980);
    (false, 22912272104086743920112147486307924314);
    (true, 117229958424630877115924805435562868404);
    (true, 33615963778029663869321818535585255295);
    (true, 435388790199225741090179176478417170664);
    (false, 788250984731395845730795547533163852676);
    (true, 16462644324814319951495733633341519517);
    (true, 472613372836257396996317992481423770795);
    (false, 172008367120311649072115795418889483114);
    (true, 226626963943104202362734551211442150540);
    (true, 556357229588746696057517824365874140599);
    (true, 849370243129138912490711315415746605402);
    (true, 46155786320793677905521663754260530240);
    (true, 80515525512609587228504785299349619433);
    (false, 674374857136118144564689627140929104153);
    (true, 195653508556252323318436048172064454112);
    (false, 966564533459308500423060730412645740);
    (false, 84906493813802114072671900144630069710);
    (false, 12264861607235552297702249412733817572);
    (true, 54925432288157501791923877901265523049);
    (false, 4451681379856021732307624982398625879);
    (true, 5726609502630080090414342668714898808);
    (true, 470037776206838365904479071851815427798);
    (true, 60893622763297473618564212509455903912);
    (true, 958971653043495850222579876962934789689);
    (true, 51182030490298803950350104214496244568);
    (true, 335684848797472893085743531284711475802);
    (true, 243838225262346092199376138633743500074);
    (true, 737832887689766722393412859608258920294);
    (true, 5042943674506312175998394943404326711);
    (false, 80708381405238195587493003354432584713);
    (false, 2593322097003191108544365964928517129);
    (true, 14448599934976575539144632909764933010);
    (false, 269316648542610354051836970384131048380);
    (false, 52814302102655036075642694611192002854);
    (false, 96595677053044329535340661729165264513);
    (false, 17815639915313153224225463948862828157);
    (false, 67116930988245186977805196799698434607);
    (true, 14723069861452551818804351714379804685);
    (true, 72377399665935170185172296514250695462);
    (false, 100483679579594355676248457458403237642);
    (true, 239263743345327588093004723868305457);
    (true, 812078537468784947112605127956329125795);
    (false, 2971465033337081113535150597507718772);
    (false, 39215802319153663214824484283152762265);
    (false, 509186024943377597355254406219182551);
    (true, 34392835604388233042160482358197875130);
    (true, 35452722052392443581249502603873478454);
    (false, 63103802877313830957233371279421173079);
    (false, 172615077376056433431863688730941598500);
    (false, 245980098876732603564719672942090863292);
    (false, 98202624662931066776603717129432020921);
    (true, 3750150585633626026764585792169756160);
    (false, 147737575047230162002010821334827114571);
    (true, 855955329885269269458494192027349471);
    (true, 218805959463953311710835592882383723589);
    (true, 509172986314049126472956608989229965260);
    (false, 419131592003809089939104817042737555989);
    (true, 173939761116348556674710384323431333927);
    (false, 865536012097916286753277605141899331847);
    (false, 133528776566131692435872518920831666);
    (false, 1846846558831222692174286551892198178)]); [reflexivity|vmtrue].
Qed.

Lemma pow_255515944373312847190720520512484175977_2 : 2 ^ 35288908963101546467996824129048 mod 255515944373312847190720520512484175977 = 111233916942653821000329437866037388564 mod 255515944373312847190720520512484175977.
Proof.
  apply (pow_by_chain _ _ [
    (true, 0);
    (false, 0);
    (true, 0);
    (true, 0);
    (true, 0);
    (true, 0);
    (false, 26377949459546964837819861241);
    (true, 1496985419807370232877506514040570634);
    (false, 265143035346345564452795131884082528489);
    (true, 98349296608889390456828025596925670220);
    (true, 38219469488543091177162901691064076430);
    (false, 134308865447403958509167781150357755949);
    (true, 139834044545743747073250650826940802391);
    (false, 627495473804875495144442269176487518442);
    (false, 112021948254015322600551746081822841430);
    (false, 123027862010831328125096933960757918877);
    (true, 8234058955680503887641331995911866937);
    (false, 2791934455280999720567926027909563646);
    (false, 246502492713968845027820667513688638724);
    (true, 4836692524949725586015720300574485);
    (true, 925584616629923896010135788480111128);
    (true, 74963597238684183386195798283709346939);
    (false, 575073440549802363924736408666511180668);
    (true, 1009515103308906763364155752628106916);
    (false, 819150020155906814496877018503511978463);
    (true, 88117179412524440260379019531148942859);
    (false, 3548062913180738233727732704980145080);
    (true, 2506343978238627211764944607718056158);
    (false, 215740855812640275933884381123768286911);
    (true, 149101529881675112979998678593811807953);
    (false, 6916597429682745464595505389632300992);
    (true, 186561506025979446924422190389345690759);
    (false, 1372416980306610173217036508142338871);
    (false, 128925878449152371296806922496337103963);
    (false, 1158481910384006090861046903227177723);
    (true, 23947795901734785182014383979261482068);
    (true, 791873188197520419314746725352679371454);
    (false, 130253266723001894652175379604153932767);
    (false, 69325324708240955132701645573427374600);
    (true, 234722931743271230631564438140868103124);
    (true, 14337644535397598469100258853469743625);
    (true, 347510240991966878676528352551936193361);
    (true, 143437670808738824451051107500951857285);
    (false, 26379147541803809108492257277794779492);
    (false, 22404821947427985059349619945817549423);
    (true, 25545797051866275820318389744390357083);
    (false, 427372709424726422823556133167946846200);
    (false, 45605845825829581792689990769920838121);
    (true, 5157189720772262702919076871472124215);
    (true, 32273707737463897608837481929287071329);
    (true, 15534737858375793273538848146643396149);
    (true, 3842523233947148878619890649424737002);
    (false, 407531510699611593696734039877269138165);
    (false, 26178063794700565152999344050094691768);
    (false, 2518586994153733646133557125087269664);
    (true, 50011808786999257384322783441355565315);
    (true, 531169728560692722602364656133320561027);
    (true, 890009939956845520250560526888942358876);
    (false, 137246688518582416157875799535386802631);
    (true, 63237174601126124781800804728530075716);
    (true, 695926393425154998464273677328430940411);
    (true, 668464989322830102303475204224575241393);
    (false, 568248225547230561942471430554174669297);
    (false, 117629877616559735758358567777075117816);
    (false, 217407418469566374538108836697640596676);
    (true, 131593113017557297198827236472732349707);
    (false, 23420020587670763911148943926296263706);
    (true, 76148603855669268024604964513237909);
    (false, 6583121287661600908898706992132666395);
    (true, 209060682072755643754577292851234807671);
    (true, 608182633090213223643531891255944);
    (true, 649921865683416522003414422221041444419);
    (true, 533019874123857893532856661989712569051);
    (false, 671704147876124113084736814070619649359);
    (true, 101827059297403654010925787609949006582);
    (true, 1287040275133573338820227710585373023);
    (true, 534214314906736316587856499519208418808);
    (false, 86782212751714340530234834437679854541);
    (true, 28597419650897177083578567608093351057);
    (false, 148023930762742299135126468332689297628);
    (false, 147629105728661609917016358313417254578);
    (false, 104028977926901659417810937610694593588);
    (true, 226995500000858063125773535633848482005);
    (false, 220376489610296459931981272194259017776);
    (false, 119262144961437407281230077293736317329);
    (true, 42211642442682062722644786591757180554);
    (true, 180169763407119165458709106187437934090);
    (false, 479865963719770065358114914038506675348);
    (false, 13875601463092388944047318062480722773);
    (true, 197684117398996257318528532288475997931);
    (false, 747234438363073585107492410126644348058);
    (false, 16815190908622555235780372471461993671);
    (true, 53982372226042125571508072952617246174);
    (true, 387018534029614952700363455047783249533);
    (true, 560856979070568170611033479339472057);
    (false, 999639188902570997466025094412133399142);
    (false, 46862070213082735456700667475539066939);
    (false, 41635619715894099174621976943554700034);
    (false, 16683466714349391405320276113531860726);
    (true, 131918730912138242136706275916453284089);
    (true, 803059928420065642688906943840911198);
    (false, 39662714718619212649784115972841809295);
    (false, 83615112516797612093998251114030380894);
    (false, 31887033962467208190229398548298203565)]); [reflexivity|vmtrue].
Qed.

Lemma pow_255515944373312847190720520512484175977_3 : 2 ^ 2646270538369179315748423423599368 mod 255515944373312847190720520512484175977 = 47418180093458530687350227428022525796 mod 255515944373312847190720520512484175977.
Proof.
  apply (pow_by_chain _ _ [
    (false, 0);
    (false, 0);
    (false, 0);
    (false, 0);
    (false, 0);
    (true, 0);
    (false, 5);
    (false, 27319469410168334320916585601006002305);
    (true, 0);
    (true, 349293);
    (true, 24076832941500518737300004613295568639);
    (true, 45658114382581714812650337477608278402);
    (false, 300135911616412246069993101915384508139);
    (false, 12025652785404342481496275331279503942);
    (false, 12592887627859861699541340799020582546);
    (true, 225945116621868356577222778035229905201);
    (false, 292204096971926872459693240829067519129);
    (true, 97007577872886208176823077458497135971);
    (false, 9445785126033261025835149142665501456);
    (false, 9058122114478036969722591540855763667);
    (false, 134060180815232995944987869849412960698);
    (false, 13166726113308300863596795599483974041);
    (true, 36172507824540787217978564558812314822);
    (false, 11956808038707413796954363769745126908);
    (true, 4908483357222014219185822497738211440);
    (false, 898348041570731605889292985675970358818);
    (false, 120933080558356802790052202110365818739);
    (false, 252219795710622679607924002363062084963);
    (true, 154985998195265935200588713897167098382);
    (false, 669940822040245909159537383705192374528);
    (false, 4561626390465659835585182996097676887);
    (true, 68986137464626564375320289222704934066);
    (true, 385884179950789089296793547517024214624);
    (true, 44932543388974741691479661350663261011);
    (false, 756423625063771713128423990573632646566);
    (true, 245900469124395201268852943235362384248);
    (false, 345062909114288445909890427547550723378);
    (false, 34463904622958697487783775075439632994);
    (false, 652442833540574466887282486794046874);
    (true, 152235563148555785300715275461279909177);
    (true, 650420004869557774080318561994320564726);
    (false, 626565339694690949798007227333120773512);
    (false, 24470541035300165033448121221350613325);
    (false, 237314842957820125622949674591392692014);
    (true, 38074109570371551806127478702364611875);
    (false, 712349710970728547874867357706197506342);
    (false, 16075778174482103277341256389720103134);
    (false, 141491848719602514052173457037763552413);
    (true, 43731179429344787556112255938773482889);
    (true, 551579038668302353501276483977572369451);
    (true, 561185080665776960157056647543786082253);
    (true, 280235154408468486574176719329517430128);
    (false, 341621594611627064431843422698925932542);
    (true, 43036243169662449416323153319882002575);
    (true, 147074075106886479177524705054712147735);
    (false, 120892038945770987015377639254285598889);
    (true, 32283934799807257114867055074484306682);
    (false, 110033698673882626194222669184434506);
    (false, 2509694582392570392655190715594319);
    (true, 139743288808377243520185893785741161983);
    (false, 228893940531288421474630954989181011400);
    (false, 84467572424874244376352750335325528966);
    (true, 41365083973844936766461721372914832031);
    (true, 551430703092578801391818622813468384786);
    (true, 153917567375609321557926484369600877248);
    (true, 956297483702526169436884057369772904717);
    (true, 73186544238356735156196142420134905193);
    (true, 624497672833985798898258049226537912692);
    (true, 666827098709102498505816040672902470491);
    (false, 2340142646675007828274647135674191236);
    (false, 94449391718474105614283745089616902254);
    (false, 1006652914194948901113514258170959102);
    (false, 69687385562305159958875766022415566902);
    (true, 31267718387517696339489353556539362846);
    (false, 12435768963696180930747075518878731025);
    (true, 58979837939835565342125170234630507901);
    (false, 231338847509827558512289949161443503031);
    (true, 90233168148373947536745270223310808047);
    (true, 490650654488062682442990302784854069435);
    (false, 183253581595296619872625777544107715709);
    (false, 227731495060737575142220768690418431535);
    (true, 117384280732334460737889740476006689279);
    (false, 116452689801887769080325321711972201447);
    (false, 13059614517735069531341623233211998655);
    (false, 74767277644908041608239120245326912068);
    (true, 163102637158756774806186998942950755293);
    (false, 74202874981289945552824305286862541909);
    (false, 165572706060574415328894107434853739965);
    (false, 105631503322860764716964744122426611144);
    (false, 28558474019974299313739560271028524390);
    (true, 46169990710063004377381787274531821587);
    (true, 667875190469420661862120890148638019393);
    (false, 268710416184249159907400903334260612653);
    (false, 138464971819245559477989784029642277090);
    (true, 156039449457189885271961248857364);
    (true, 597185871224324722041433071344438888132);
    (false, 112504029788196262918104943357011643387);
    (true, 119313513280570093358094327843069622922);
    (false, 700323740650613791939405725159915212085);
    (false, 90387142173172622647181594689290144559);
    (false, 52471740730765244501434368747713101761);
    (true, 195943870924329768265551177286569247297);
    (true, 13357019192642166846451904803425129639);
    (false, 113058031546168797194928008600447839952);
    (false, 2763676988881205275078663490606704604);
    (false, 34884567204812597856830346847979683650);
    (false, 22810009665739189838834210196992549197);
    (true, 142077169160392573271062553394998435292);
    (false, 5225856433502904380901396607022694668);
    (false, 63874196346288347099671787301728038811);
    (false, 86863305148040860860403045264993419965)]); [reflexivity|vmtrue].
Qed.

Lemma prime_255515944373312847190720520512484175977 : prime 255515944373312847190720520512484175977.
Proof.
  apply (pocklington _ 2 [107590001; 7240687; 96557]).
  - reflexivity.
  - apply (pock_one _ 1); [vmtrue|]. exact pow_255515944373312847190720520512484175977_0.
  - cbn [distinct_primes].
    repeat match goal with
    | |- _ /\ _ => split
    | |- True => exact I
    | |- ~ _ => cbn [In]; intuition discriminate
    end.
    + exact prime_107590001.
    + exact prime_7240687.
    + exact prime_96557.
  - repeat apply Forall_cons; [..|apply Forall_nil].
    + apply (pock_cond_intro _ _ 2374904191824599455024826335976 82381214149343919061612748413412685903 235081362755335172132203715226758066727); [vmtrue|exact pow_255515944373312847190720520512484175977_1].
    + apply (pock_cond_intro _ _ 35288908963101546467996824129048 111233916942653821000329437866037388564 175544394104025381149509263364095140941); [vmtrue|exact pow_255515944373312847190720520512484175977_2].
    + apply (pock_cond_intro _ _ 2646270538369179315748423423599368 47418180093458530687350227428022525796 52333299885033245219942804006191421971); [vmtrue|exact pow_255515944373312847190720520512484175977_3].
  - reflexivity.
Qed.

Lemma pow_205115282021455665897114700593932402728804164701536103180137503955397371_0 : 2 ^ 205115282021455665897114700593932402728804164701536103180137503955397370 mod 205115282021455665897114700593932402728804164701536103180137503955397371 = 1 mod 205115282021455665897114700593932402728804164701536103180137503955397371.
Proof.
  apply (pow_by_chain _ _ [
    (true, 0);
    (true, 0);
    (false, 0);
    (true, 0);
    (true, 0);
    (false, 0);
    (true, 0);
    (true, 237804422069268960596328323296163999174109188182835141534024566642319988);
    (true, 355509336313308887174458400152706702610369912130440289926111609442079504);
    (false, 35550820893513083319357632618014007560697337924119516414732938670256246);
    (false, 153801928288424932429004302207239922278790372939557213525951353341313833);
    (false, 106599407043613271137344244061538220835727348486686992572452894935157354);
    (false, 77764191842869196654283316579069886182340882023994734620420779054274563);
    (false, 122239961626743919853631709556371149272453072453767564328975925336865143);
    (true, 672305482384437662499200084487859702831721838981176641055764242416008);
    (false, 466389486421426619086908391179164989422554780730887653766740386257093187);
    (false, 635671374168522578499281874985757892023391936900839117321431547574031);
    (true, 106146003609082459655675773243407358966125160674839163465905715476130451);
    (true, 330592010435525266508661055363591297749732260249895596305481860407051600);
    (false, 253923899527772055119582823945931515591279710395957849082191822431429200);
    (false, 104541560287381565774061573952646123043638552169750360828552586163415561);
    (false, 61214778210210278438653890139409598619278089694932808314446483397925259);
    (false, 156313425558901106431435660056037145521669800918338107116131747892261988);
    (false, 263291567540687092922040248910968432113551858450247460252450407438429);
    (true, 151725105941897142772253226367233850365738060938271058793778374756530164);
    (true, 61796739949906605333827793006483885089452963746006290279627816511100870);
    (true, 19100152960380755826037239520106233435569353707819243530146459284779852);
    (false, 23640225574259813969248066083017097663331362858401388612326532668760099);
    (false, 78339991171244541547541835943906038472901177256613339720661431946835292);
    (true, 165895459562198000189886071185971442459324983815431085266476087533236178);
    (false, 508161913846683999974121634941002536748243766442965657778634557520167132);
    (true, 33638729211265111095679997008598699328683928021169295610907347069380470);
    (true, 85335439469046217419058309722839298875881820727175788049574933430677390);
    (true, 104708056658120196533418147956606083667792643385623959522221007634344539);
    (true, 89157489766725830928457348921252706874282683694865741108846263293419790);
    (false, 766593311408721978165053241792059809570830166612529524234047804660566498);
    (false, 144625969870549160734219381152577993838185111292401470287269948085107020);
    (false, 161849043470783878430892672097333375135312602587025496623704540401651424);
    (true, 3015085046535383978747582383530987738616527840632629163513048570297407);
    (true, 91099563517840944596365498930364422802773235651337440104551063863640);
    (true, 643319413413894207850733410212125389365943835616032742456913240618950624);
    (false, 109880602717592283632219802003622727540751328029461136485032169941998067);
    (true, 27095141172874918555790343523169323940961504124156821320811816513783528);
    (true, 43274798098108712415798742758468055703391968627003702155462967201066398);
    (false, 74616474104034494287752749134261045479221394411870972003249443037412712);
    (true, 13892642821659977411774549652416550793065654245011248968187167768515794);
    (false, 676901016362716040279701228459374536881379142247528420536767822901352552);
    (false, 381735649311854888743245992683447945111616910780434885130024516346846);
    (false, 97460021016660843816860793998029516432820477475198227553590391709660);
    (true, 174731408505798420169847309307252656433972197895837515089237733828006982);
    (true, 45036075315294372702138506636358043550163425864963789800204256858533710);
    (false, 301835424642821809925636700532511629673433104418065173432571804514170771);
    (false, 142688537164908128876057664686329437151643800689331433009773933068821497);
    (false, 135134196767900701760058354535200356450404603041058185253391234893457674);
    (false, 190719075908720165586440593545887785116559221858117486032842910527056670);
    (false, 179687891075863828669675827693517432190833560052603699231919617191832340);
    (true, 202577612530040993879798592979483917944645892718995921398081161191430000);
    (false, 10244447655252534720060087446177735457363033663713972573920721996251526);
    (true, 58892448251657063094178399972912523465650356070261048547927084426497561);
    (false, 679450720073490772090540067497570638384622287843875323942166386124291935);
    (false, 129592952865862953177564100675061779516617803166992355821589955462922831);
    (true, 188532998000991484293431599227150373026002922439568527108852922713512588);
    (false, 367751112570778691095099683256913735871903151637521479731972972900720936);
    (false, 31078009042599797973736656377758491310648228716305917091396014463545468);
    (false, 47747065076932784939133169206244523582104474972849804195237803828952646);
    (true, 3999380115077678896234001100609422910083941157504487509952396297914027);
    (true, 443767733314502616009896188539737282686161530003972359491861635600188869);
    (false, 84213575092617589343314966192407256606033176403279527454161294019912261);
    (true, 31826661130134770374856960298591864529306461199245053660583789021778267);
    (false, 794456698996138995125744211442054911552640466291475984314085886600469674);
    (true, 78873445336951408717573230166411763792124168138404327305412004590641876);
    (false, 1933381957061895301469703113900055972756426325697295988391750890861594);
    (false, 5996776908720142948887928177128168878231705945279660372151302325715925);
    (false, 128347363441269616125514373716912323344610095932393169308866104861758712);
    (false, 73628579112335341175516070902954561335179778723508397582128502902198097);
    (false, 107131610223394808352223116238223033578597577172885283513733036968316824);
    (false, 61389509217632836918153453105214965191080605975062243876399373787735050);
    (false, 200547933386240573116404516548702184534686556226900587374918126995675784);
    (false, 193754018888963391981302977221273533168102292976152242558708518584793512);
    (false, 197977806650169810746818923829700536949925627612385780306319806736752414);
    (true, 28510758851855471563945402676946543681907435601910005995369793771250904);
    (false, 411494803199424279806355470387450125823533844222463589884609149300003482);
    (false, 102324205500075188504934297054020073907674006931897705720148444115520439);
    (false, 163323360205000350853678885539327411711932110808574591873900860236487217);
    (true, 2327568198556168113302849677640162117575248661583257216704033335512998);
    (false, 688854531967244101400479617374032952828782212176419016580856043087100974);
    (false, 14141310389613458622057396652268778103212702090898713338723205204886168);
    (false, 25957208215712234879831733246990029597637480959615635688568746570497699);
    (true, 57571261723301558650846549406820331350328745200855891357680180905715633);
    (true, 514376304340214168382109983635395574519198364792996564185687550984754169);
    (true, 286010714510306073911811994310565667856320844648195007190196547190109808);
    (true, 90002199488046088548087062740023717243259585909169437076581541646120038);
    (true, 458626267297057645000634788135828143905094935637380330210220815946848928);
    (true, 18416625006440357512649753509445307207726405907353121336492511236823194);
    (false, 160076075762308174178825747850904653466850374651430807613559412832172739);
    (false, 178878581014865757397503023213372666569626230301067563996141394750975438);
    (true, 149851314490099174367852647339817680233399159975253906224401614026316880);
    (true, 154016530275544574836914804603767119627704647164833778030652939124624);
    (false, 478779644311474779290886747103497125058931088709249157932239636043769635);
    (false, 22716466532017075359952547289375741207085804606363529886668155065232496);
    (true, 12844028614732536027163222036721938071114363006835830944537359326992734);
    (true, 169735216417695246283867576036844718642219154174041166008413686153200336);
    (true, 69174663616376458535289260122849772780438393762385441606744494855019814);
    (true, 156980882477221859604303942750325723784850281994562941434060327843240011);
    (false, 103990467914848236947950523611253160188693705401152794812263932900222217);
    (true, 25182116093681979885452637969811685007699898218069022582929355680162507);
    (true, 461309784854189189240455311927969317770251010121016508121456991814862769);
    (false, 166449293616412508086244042531846415494998429921087583647455163392722574);
    (true, 14363560747496475354002937764372954277389032956048371703909266907858134);
    (false, 654557426531288405792552724745157592973639275468141865472484813217954755);
    (true, 162665205638422581698294212886013684868396510264190907732559406881801760);
    (false, 145563232581563199463406721993810469936945328341052046440854222217673526);
    (false, 89592898090969735659264247852055971544280600848298581487053359702171225);
    (false, 42631339458992362934248208191429479325127436415789634650715346056940563);
    (true, 194527302346305156545692891966492670117202506992721072129298674182733515);
    (true, 5079842470737628115740358224659123582098975121065333861197160107117115);
    (true, 24151834714281346357347195632826789328485258342998716471547879985985232);
    (false, 698456819269276909521562075781791266224767682632382958463790801890109462);
    (true, 722833191335679533090757476251304800929084877919863815625969406588329);
    (false, 549405814557345703270004731898466787117338756428936909087289174406694065);
    (false, 77024722283745591147853861386310634990134077294396143315590209344565452);
    (true, 15334266334566941310503938486357088452071943692729473560426240026656517);
    (false, 275981691615144013921889454940138782028702304540468391252880493387821094);
    (true, 81009661183878019558673114819194031961137928227967145474240655847935268);
    (true, 680120596762399603338382507925865569493644275258088697123664834816784221);
    (false, 591490797324422174978708329952439140087271446885759522381405770501855208);
    (false, 35306269091134799578153378209516610263047846810901123854497019376995394);
    (true, 33875244293335814159024951241221374678081076152011750931073275330050758);
    (false, 1050343559817366616903490688924220447013751737678545408880868941672347);
    (false, 116039261467373823068193837220251954155846233208748379459543570290515554);
    (true, 82022270161817106212558847515354134822452058535784638118513496111491951);
    (true, 511911129027528655670535961732617429533463907743474350301750014821828305);
    (false, 93709823108563167516336333190752067248870037491393720714887969807680733);
    (true, 132915267289804749638357943804230890839912535672444219295954865686525698);
    (true, 264624979487363520568534960362787310895239901075894009239143848043338241);
    (false, 3404604545867750995967684289984611146993472884055592027433540724375952);
    (true, 454597807390504844133687927093754588712632654751965412155734473173405);
    (true, 775590404919046984784952628976086628257847114984441822887923509851694281);
    (false, 523067670459443327278965593492754823855283050885263983473639145791062549);
    (true, 6973728978885764836984213518150695791297555081206464139518432006304648);
    (false, 124086375172661656619327392739573164178839597759215790450191921108305936);
    (true, 192569355104995588371008485688388055729414315917067279151583830076503083);
    (true, 536534883969313964352301481446391983075975972858702470963066342372674089);
    (true, 366313625318570627400872627319649871784420560989338751422819684994097925);
    (false, 10020994397794878802247448954657597258610904054216827701178119779420538);
    (true, 42847472643666927958449102651350333215117327436136980200358708580016584);
    (false, 49578748099326760101068478544671552905855808253426201963952036524166416);
    (true, 127101563229722218815416356484722174859143038102372458696247635695670988);
    (true, 449320985077887866539248657677254953771294413175096480728413175557367199);
    (true, 287733485483657546334397683390034276750442406574263775607714720599288942);
    (false, 61523713044668717123677437883649982437695790665380538621604214295901414);
    (true, 97361775162768480995288909461224204906568879549960581904936537497906655);
    (true, 774386311044729369794502280323701246818945797666019039815484705285304755);
    (false, 138376430848216146864282207701602104399882633874323510056677757049772243);
    (false, 68942879937521186221881475207110324111380483575699615784498245953494039);
    (false, 14146138295966622635535483144737276479501243729814605638840309236150418);
    (true, 171214577322952197152986525180684015190025547168393475424564099487125690);
    (false, 19565757537307321445517025044907629742874396598315648483964641051673617);
    (false, 61589039671684457983429353382783380500191946898857895189488993973357616);
    (true, 62433442703256459586576416263726111636758096048133874458194810065565527);
    (true, 21873241291323993453482939952061527301891174698123244362322473193492441);
    (false, 114051557309006231173218333042215687802931640486106552171993255830525526);
    (true, 11238158355236387854309323803376791285620498005108226857109601608948823);
    (false, 948820294552777781652680399131489530868880475451955043434159090557205);
    (false, 13295708768837823563345379687931493301280860975705600548982601643583769);
    (true, 63067126361663132010518450773941755967638935911885977907474405817834480);
    (true, 33189557049284833176988562315599516665892545759825743617485932863130943);
    (true, 13669356858714200482020007312866535136709439541530957748586164596929650);
    (false, 230298226720610523273994666111442587542364692212829339643711458902486034);
    (true, 349739880677654142392042632680751458483768334155819857110800440172664);
    (true, 421258849591840595679068981068315250289641672855425391765907654735081432);
    (true, 4453916926375349257766090380254047768322451748213652219178918184512582);
    (false, 490644047054119326572916601610506550688653402434921564796309068547572901);
    (true, 55533003658081556317738921077468855304030593927061092743102789572361532);
    (true, 21491260231387148454315237296919066993197834598939353494121844041090363);
    (false, 553087863893184509858575514805209037051187539501631690511022265880409517);
    (true, 93832614848672189887985090413299975162022286484680032728849896310513112);
    (true, 10590744971114295039138374546719940781391725736605779208445714459833297);
    (false, 111624221585991274008422312170441876052871150031088211509488434310381886);
    (true, 103950306659936213303237632236485066946877438982317183004629580079229023);
    (false, 144327313183749924489506229381996713111350311342121565188084954531856688);
    (true, 52189862395706783420888546665551310048864870238691505339868572904972762);
    (false, 78754317639111227342053486066399446936900428021575323320823924167040884);
    (false, 75799885535124424045420093347279597893326309505310389541286106307475521);
    (true, 24629409055048035488731329445099588614800416844252965763226629751511823);
    (true, 118255615643899670049289535120022970374275631191541472093219292214845651);
    (false, 568673371341979586858946502269476010249959493392687513249091699122791119);
    (false, 23054339929798964008936544335427288921090030652313062076049562323145670);
    (false, 4330085182882864129107812721215946471080565545450612648136381973913329);
    (false, 9617394204260010669585748843555907329060781227776518491127240587780409);
    (false, 88695803092797083722107431850757947250694434801760212012407905283611567);
    (false, 172173429561069643986027124340142140543603547855286480439825403626049053);
    (true, 9043557396670538035273857029848467484025995778153646958657194108461878);
    (true, 21781992596179608637676601907382396726858045273408676455643872956974409);
    (false, 298538564397116373662043378326524217992455349989244082619005314184875095);
    (true, 109274118927806386451434040348565772070097856785919857120828827251020692);
    (true, 274326794726068563295215172305755729458611674647619365541488240537505081);
    (false, 680591099453555306489233101079896890081973435751756143759920821524469780);
    (true, 193140902540666238126188717913130019207824188108348913005754778360093462);
    (false, 100109607136684464775925118939987704469519002445083793228479529694008482);
    (false, 91358235100190686063014293446976694142859349784574640025827718159036337);
    (true, 129024686386698091997307747567996066073916323008479071709148607017774591);
    (false, 85380571603301881430390360922406126017161634657344391123377445974357186);
    (false, 85226066127294509920287332592927244678937083795890210891967204724460630);
    (true, 110002806720081823525513138575728493932814837826569592052297465594067457);
    (true, 538409584210529062777501244585316114390939766278527548863834361973298779);
    (true, 552317701197050014699595375787258236800127771894098417810028228285480168);
    (true, 449471085682503308298245194187183608681150233263162967985258208306140412);
    (false, 34484869423804554978670977670715237069049026301745788200260240375786302);
    (false, 64343851850084779939080803908021460068298029431426984499987786299581010);
    (true, 32792981247573000183392035254566213880466272696445350885088171902965232);
    (true, 221271082645521271074996983759039397876209994815806369390534722341059812);
    (false, 1060378688289966231787376606039776928966111103892123600187243243275674);
    (false, 53326297904300836032025559148331037938366297854997379515676997954246621);
    (true, 7934072601498268704971652102694363370730263416108039871574206714765567);
    (true, 132594184739964105362040166515444021991375926324633387116253540123616658);
    (true, 457461517529483498813770396369544648577017742048523923263858882223711082);
    (false, 809996926703091392163818136397923378915654075531633136364856292194275311);
    (false, 3823370274982090527470969883027695366607179618545663336883543318172848);
    (false, 16859363956779654328793710226235505631066536716999918476769161078650561);
    (true, 97216557016955136453722396685416892413828695212893669121237997103869984);
    (false, 219427934259059545681213242592617797702339117702418898215213649393495672);
    (true, 69575069770250850863332959320956086133798912611268769141973902113348561);
    (false, 436184504555154480998966708402091393567691905287108132388685311586153526);
    (true, 2566931769826426448394862309138661016242400090873651715421679046773822);
    (false, 455597409676505170561855806856767020734632424046432586334291660167514565);
    (true, 45033004407112964616616605639683729970995330853572212648374111483186469);
    (false, 324784365061849647346112429043590716795793179873837598107831921187263511);
    (true, 28201520054069377022816911231759744192430994216473711446940855175581803);
    (true, 86572085362499219209120273452310346786616061800497223285784567298816111);
    (true, 613272054595773729826731592510429807501144001233001468210186100572844750);
    (true, 799395801288595488326816093524001267380309807077042080694073832579144291);
    (true, 229820976054339427173379080761779157592985005835437016161075432264428411);
    (false, 732606652822198811112516183276156934426082214153733023844758767784716349);
    (true, 20054167074371483204528573480214220718870532143762854034463786369988084);
    (false, 205115282021455665897114700593932402728804164701536103180137503955397369)]); [reflexivity|vmtrue].
Qed.

Lemma pow_205115282021455665897114700593932402728804164701536103180137503955397371_1 : 2 ^ 802749442992798076634733441528810 mod 205115282021455665897114700593932402728804164701536103180137503955397371 = 53072002638256206696760401718638995221936714922431175139555783581918754 mod 205115282021455665897114700593932402728804164701536103180137503955397371.
Proof.
  apply (pow_by_chain _ _ [
    (false, 0);
    (false, 0);
    (true, 0);
    (true, 0);
    (true, 0);
    (true, 0);
    (false, 0);
    (false, 650849553623666468585472);
    (true, 0);
    (false, 11724673907914626136410960774024984892889);
    (true, 2197909649651599752445202632177680224848372364258596038906360290523824);
    (false, 632862847651236020150223553976681867443613661990992093791904068254946038);
    (false, 95622630508968592824108359790230654919223468107801429351277242615631981);
    (false, 2913674069087366804466864258947782257974030311788440168679713759622250);
    (false, 90201153309508291792943080569038534480376680380301804129349669207961444);
    (false, 101637370910190473677705100837340023288221101566725510470953431204590597);
    (true, 99111157317871027487782841993769321843010881682121276554267642502600601);
    (true, 276784704784279207769258977076990275995201033598633750943953028770112988);
    (true, 146681755107569856271630381230854548636643929828530152055174196831721870);
    (true, 238381935877885637970111715569087809509158832694758671031499625667083779);
    (true, 1841312584832539754518688809248740566905711414089628869948439862642558);
    (false, 422224486308453306790702731317142600988518421139866745689608098550580655);
    (true, 195601975416448489579100235488274507581458703561801202449414685081726324);
    (false, 172394811465660924915881892556471541412744231174607337278478973174599781);
    (true, 2758042554214574500987205085305955085585212602143648717257501060836135);
    (false, 459086127682220582080150725987921579308748571223207879327242850405340242);
    (true, 10785833337974784746814540026415591049940603621431567901104168120950707);
    (true, 99608688677693791510416217217755099498602143565773623535043846235324510);
    (true, 665488712373149654039209272172015816711454549657686653043715735353463403);
    (true, 474442440764763208746592082952737684094684772232398537188750117723475);
    (true, 793461788437131709675443348099145623369345953653345909356666294532530189);
    (true, 587328886687037306447569296734162741688986593081645310897306020871878489);
    (true, 453918595390513725167202684775582370497783313882619562531098761249484176);
    (true, 25975293780599243091983218042768169342158485321990817484904446915942349);
    (false, 186377614661044959590429251918280356737506112515689179260562375002120159);
    (true, 140667918194992211304733827547655095331192223938200569618577031421713908);
    (true, 464011879639025974965722990308597038037465023674555630217912051766938943);
    (false, 519883444892434887325854543962154496850095705337739182060895828788482609);
    (false, 1167947894303311038033506192367460776766769073910142756734174353106788);
    (true, 79635363253760136875632523114774022051268235643105959299091559476464583);
    (true, 400650205603389314598652226318731653709033716582876230887578991231192781);
    (true, 204646111570499702913181166860014341476987645199492707067377914879810);
    (true, 223882561386405038021346410312441186818501704566347186680684420448577500);
    (false, 255788271237719009515471511409454301516705059761172863098691022002241128);
    (false, 14168386097403404166973298546255055632106056876304816542355728298479629);
    (false, 124478370750750867740972434270815795417859472776557217121828297885321138);
    (false, 109772329335195408689875633345114883187182379914224375099831438603755058);
    (false, 142956910916016385057254469032568287251274672368448733000993490793170805);
    (false, 148700469526878310673382872136954839445936568843008737501854591485488176);
    (false, 822750825908982021299491315251292090635409418716660458006543287898860);
    (false, 1001616318041528254637574716468661262001029268592602508199043278368942);
    (true, 353146585327259012633419422118827136055423922600008293568835941044378);
    (true, 104347517541971412868937744414695041349131463931980636282720442100312152);
    (false, 6597367298402096684253786905067611347820349711444335853513304350292170);
    (true, 2106357478964352618840914267327478340238811108362684083406921673589097);
    (true, 295123492757188948757401871892008472316999084118153033232792101565902758);
    (true, 117442473192689757982599729466115488199866435011925668004889159248881079);
    (false, 34557932914729281553845980167690399242128718454687766987340050642545369);
    (false, 109474416153361149699700529062385012733143596403177956259448791293513097);
    (false, 91300834110528094306967936454361379074326425761670375711922199230068091);
    (true, 33497756880660018952139766114759923400329962508100672935915603475536611);
    (true, 229324610717463773809771802274963010736621450880308098575410978744492590);
    (false, 100214351539269664995834108957453169901146387594363396436413107169434207);
    (false, 50797577783932842021681891204699923834003320973178290479864492567583248);
    (false, 105263501196256275503475429090422592679638423570838494067807091168278438);
    (false, 94318424427419507072699922948230059420390719378223354793132453588597477);
    (false, 149643603994094668061156220705810356165004362863011031171873467856844093);
    (false, 18230154528432462828374370873579076164805992689983678126085180123467852);
    (true, 49740080926108025706083245621505038883412245759336115882009271987086399);
    (true, 745833684207642186397801935392742070459706057154555027473960363752713580);
    (true, 706490434591126715301769112712524201666634776475700392323424912214877491);
    (true, 18314451779700137017841898550089282809948063408388191527416517299101137);
    (true, 127612480950555488713386693644929995518785114923054225202583061289020440);
    (true, 171554296345219981891439323715432713579306576654063287408510968714761534);
    (true, 522430407715601041949319897863822444465650685606062879879904524776686163);
    (false, 74600771141634851727426710518673540448038778168913475352548675233648843);
    (false, 185162978220505819545027703772695346303396433907209018682175696002576422);
    (false, 35126203436293125686109964978775765193088199686441859840962041493731719);
    (false, 110867619543809302837997576739112689610344365405667677697867771331504968);
    (false, 2031981239816741367606719232694158118306669437930110343344838915788845);
    (false, 13849474187521107123875271839873757088229311049150819289622625800713525);
    (false, 62413864524013509031891969267762665873792098392571845302022669399248365);
    (true, 121108190904519423077883884289747116069143957005062835230645360041642507);
    (true, 603013606984717031669894096413714747190910193813104727061176312344303420);
    (true, 163246167568884708919728629068689136243951128850884325751071575053673411);
    (true, 113905507639160683688030610846716844363112171518724491505937534420860655);
    (true, 317304487976209535238389310671339852158083821667363654614865626064300118);
    (true, 608919117574602123997883006301280161132026403116002726596323805304936283);
    (true, 379625218093424336416206912904669298515181628089344568498663265149744124);
    (false, 105334770091505385723359442491527028145075929090883283929618815318848323);
    (true, 70672497148408159944171730967932957698565720486595041749048345580797861);
    (false, 136178929471297247513641937295432640755592857448751859772350404745068101);
    (true, 2449046796405511919873241815849090156165324147600842659772284536125270);
    (false, 22530988580686664776938064188486157980143306668274606837718656335479614);
    (false, 189512496376555959604704004135906322947510808525274985217452263808184596);
    (true, 10732275714840466396692276090775698158190324226717519620171780602323867);
    (true, 371930966925613687602699458953550672329879856661433942973302803514599825);
    (false, 564373298642241082509760479723008376085677928719207682209965043185310219);
    (false, 1214681154002728390837959366536734856723864069936793590504068776490050);
    (true, 16610310635056731743764488695010819452629054097417443319857832405827041);
    (true, 72546591271607080283523081036870191151718421357756008556976252420707703);
    (true, 402947770693498488870181163130904184832389722663661300777168607965638569);
    (true, 204224789000694974031384424648897577208023475868227878976478749546563571);
    (true, 220090510527833176742236024111124547267453074205406270505959373216139910);
    (false, 90833774417036698285292508667431789064418589113208443052031416617243045);
    (true, 28969095574364809621454965549667937367309175315023184793078157479975187);
    (false, 271286152915780818781752244225074265459149198900626493011815230118293275);
    (true, 97478534851575520013351777242727686792389526228025186708862003777844442);
    (false, 814544159801741577977635506357369826788629349392021343872595402207975910)]); [reflexivity|vmtrue].
Qed.

Lemma prime_205115282021455665897114700593932402728804164701536103180137503955397371 : prime 205115282021455665897114700593932402728804164701536103180137503955397371.
Proof.
  apply (pocklington _ 2 [255515944373312847190720520512484175977]).
  - reflexivity.
  - apply (pock_one _ 1); [vmtrue|]. exact pow_205115282021455665897114700593932402728804164701536103180137503955397371_0.
  - cbn [distinct_primes].
    repeat match goal with
    | |- _ /\ _ => split
    | |- True => exact I
    | |- ~ _ => cbn [In]; intuition discriminate
    end.
    + exact prime_255515944373312847190720520512484175977.
  - repeat apply Forall_cons; [..|apply Forall_nil].
    + apply (pock_cond_intro _ _ 802749442992798076634733441528810 53072002638256206696760401718638995221936714922431175139555783581918754 81475874003799270243122483189086420723726815346591292526890606927317739); [vmtrue|exact pow_205115282021455665897114700593932402728804164701536103180137503955397371_1].
  - reflexivity.
Qed.

Lemma pow_115792089237316195423570985008687907853269984665640564039457584007908834671663_0 : 2 ^ 115792089237316195423570985008687907853269984665640564039457584007908834671662 mod 115792089237316195423570985008687907853269984665640564039457584007908834671663 = 115792089237316195423570985008687907853269984665640564039457584007908834671664 mod 115792089237316195423570985008687907853269984665640564039457584007908834671663.
Proof. exact (pow_by_red 2 4294968273 115792089237316195423570985008687907853269984665640564039457584007908834671662 115792089237316195423570985008687907853269984665640564039457584007908834671664 eq_refl ltac:(vmtrue)). Qed.

Lemma pow_115792089237316195423570985008687907853269984665640564039457584007908834671663_1 : 2 ^ 564522 mod 115792089237316195423570985008687907853269984665640564039457584007908834671663 = 30133174243114333125352536507925183895021889065932097717961225114769139489296 mod 115792089237316195423570985008687907853269984665640564039457584007908834671663.
Proof. exact (pow_by_red 2 4294968273 564522 30133174243114333125352536507925183895021889065932097717961225114769139489296 eq_refl ltac:(vmtrue)). Qed.

Lemma prime_115792089237316195423570985008687907853269984665640564039457584007908834671663 : prime 115792089237316195423570985008687907853269984665640564039457584007908834671663.
Proof.
  apply (pocklington _ 2 [205115282021455665897114700593932402728804164701536103180137503955397371]).
  - reflexivity.
  - apply (pock_one _ 115792089237316195423570985008687907853269984665640564039457584007908834671664); [vmtrue|]. exact pow_115792089237316195423570985008687907853269984665640564039457584007908834671663_0.
  - cbn [distinct_primes].
    repeat match goal with
    | |- _ /\ _ => split
    | |- True => exact I
    | |- ~ _ => cbn [In]; intuition discriminate
    end.
    + exact prime_205115282021455665897114700593932402728804164701536103180137503955397371.
  - repeat apply Forall_cons; [..|apply Forall_nil].
    + apply (pock_cond_intro _ _ 564522 30133174243114333125352536507925183895021889065932097717961225114769139489296 38738227534097492269493948901333532538630784921480042032654553727346127695815); [vmtrue|exact pow_115792089237316195423570985008687907853269984665640564039457584007908834671663_1].
  - reflexivity.
Qed.

Lemma prime_1627771 : prime 1627771.
Proof.
  apply (pocklington _ 2 [1871]).
  - reflexivity.
  - apply (pock_one _ 1); [vmtrue|]. small_pow.
  - cbn [distinct_primes].
    repeat match goal with
    | |- _ /\ _ => split
    | |- True => exact I
    | |- ~ _ => cbn [In]; intuition discriminate
    end.
    + small_prime.
  - repeat apply Forall_cons; [..|apply Forall_nil].
    + apply (pock_cond_intro _ _ 870 910796 589711); [vmtrue|small_pow].
  - reflexivity.
Qed.

Lemma prime_297159362677 : prime 297159362677.
Proof.
  apply (pocklington _ 2 [1627771]).
  - reflexivity.
  - apply (pock_one _ 1); [vmtrue|]. small_pow.
  - cbn [distinct_primes].
    repeat match goal with
    | |- _ /\ _ => split
    | |- True => exact I
    | |- ~ _ => cbn [In]; intuition discriminate
    end.
    + exact prime_1627771.
  - repeat apply Forall_cons; [..|apply Forall_nil].
    + apply (pock_cond_intro _ _ 182556 114170894341 44169280672); [vmtrue|small_pow].
  - reflexivity.
Qed.

Lemma prime_28181 : prime 28181.
Proof.
  apply (pocklington _ 2 [1409]).
  - reflexivity.
  - apply (pock_one _ 1); [vmtrue|]. small_pow.
  - cbn [distinct_primes].
    repeat match goal with
    | |- _ /\ _ => split
    | |- True => exact I
    | |- ~ _ => cbn [In]; intuition discriminate
    end.
    + small_prime.
  - repeat apply Forall_cons; [..|apply Forall_nil].
    + apply (pock_cond_intro _ _ 20 5879 16200); [vmtrue|small_pow].
  - reflexivity.
Qed.

Lemma prime_545358713 : prime 545358713.
Proof.
  apply (pocklington _ 2 [28181]).
  - reflexivity.
  - apply (pock_one _ 1); [vmtrue|]. small_pow.
  - cbn [distinct_primes].
    repeat match goal with
    | |- _ /\ _ => split
    | |- True => exact I
    | |- ~ _ => cbn [In]; intuition discriminate
    end.
    + exact prime_28181.
  - repeat apply Forall_cons; [..|apply Forall_nil].
    + apply (pock_cond_intro _ _ 19352 420071726 160797069); [vmtrue|small_pow].
  - reflexivity.
Qed.

Lemma prime_29047611873442575647497758179 : prime 29047611873442575647497758179.
Proof.
  apply (pocklington _ 2 [297159362677; 545358713]).
  - reflexivity.
  - apply (pock_one _ 1); [vmtrue|]. small_pow.
  - cbn [distinct_primes].
    repeat match goal with
    | |- _ /\ _ => split
    | |- True => exact I
    | |- ~ _ => cbn [In]; intuition discriminate
    end.
    + exact prime_297159362677.
    + exact prime_545358713.
  - repeat apply Forall_cons; [..|apply Forall_nil].
    + apply (pock_cond_intro _ _ 97750956294169114 16062460713643416818883781819 7881196461825673388358983901); [vmtrue|small_pow].
    + apply (pock_cond_intro _ _ 53263313083699784306 1548700731856248688196814844 9643653164146849936640551407); [vmtrue|small_pow].
  - reflexivity.
Qed.

Lemma pow_341948486974166000522343609283189_0 : 2 ^ 341948486974166000522343609283188 mod 341948486974166000522343609283189 = 1 mod 341948486974166000522343609283189.
Proof.
  apply (pow_by_chain _ _ [
    (false, 0);
    (false, 0);
    (false, 0);
    (false, 0);
    (true, 0);
    (true, 0);
    (false, 63688164);
    (true, 79595556200125232798587247546220);
    (true, 955263996728296785459934238240386);
    (false, 1146803866824534889020257470192191);
    (true, 86511354937490033092099542907753);
    (true, 1060730181620610069508855060631894);
    (true, 153203480270361403329922861299349);
    (true, 17595138164123576633786288121788);
    (true, 5715819117189416178870997799660);
    (true, 891733084829057979197215516806156);
    (true, 1121476817737502021251469240472575);
    (true, 175259563509244812095737308229237);
    (true, 60031018425188943680517302754604);
    (true, 1037386113777382812982078592378108);
    (false, 601882601717338196829786999518737);
    (false, 25740449810483757200082081097198);
    (true, 88272731417666783040703103849080);
    (false, 2198625375287413322420292490052);
    (false, 62696735126766750800087381535479);
    (true, 1903636923599576915125094230405);
    (true, 880751020243429868112028742509438);
    (false, 406274692372082273367677214727554);
    (true, 185851796863097347927374410354056);
    (true, 583835827206072682832449392046630);
    (true, 1031571210421619576072556153006745);
    (false, 36034477712086920560627569841482);
    (true, 156463116341735866378373382003954);
    (false, 864230672347368607352177795515450);
    (true, 116448474678011836099206160473780);
    (false, 416961035429144906644489417561623);
    (true, 6490821528446906315922494680248);
    (false, 2165411397825675722658566308498);
    (true, 83204198920636799032645780495894);
    (true, 63884051088706635576548524031463);
    (true, 392743294485936047940548275113275);
    (false, 2606492488448049732344166000370);
    (false, 138767297040800245265039519958269);
    (false, 317669422641186518168312468563856);
    (false, 202048407634884556849225883881546);
    (false, 28908334929165142535283166766507);
    (false, 15973645320631285750527009782738);
    (true, 111168183299074856283912582730590);
    (true, 829152938817219851268583683842186);
    (false, 312615095778402271147693190396090);
    (false, 241999302507429993451362743672566);
    (true, 120267961842023414036491164450686);
    (true, 476324019308973847101811185984684);
    (false, 571387750534205923819141712190252);
    (false, 97077865730302942298615051399616);
    (false, 304249868122712673909549200971038);
    (false, 55303446196375413087548349894050);
    (false, 53716648791562957406989835302000);
    (false, 4501271672769470078549018798658);
    (false, 97732266108987301691393268048055);
    (false, 10976018257041157568651032119494);
    (true, 62715418352211350900260156997413);
    (false, 130182297306952458028699330028136);
    (true, 2956092069770599197470176719939);
    (false, 924550556836422310491281914308439);
    (false, 73663135903024519268711418087878);
    (false, 1061025000547595480544802700644);
    (false, 318993994467223074566661901323652);
    (false, 34924633500856003506768723716960);
    (false, 5470381363221845455375797894438);
    (false, 230120569431758841427036666100613);
    (true, 190881351868722931884838043291796);
    (false, 1239225839385670880715872218073824);
    (true, 317199969855533471750082862970339);
    (true, 1759495113054598406316906498624);
    (true, 750770927378138416226639122031971);
    (false, 617322730403338486468110954782198);
    (false, 4453638758914533398395309770990);
    (true, 58227517342789999686505640706651);
    (false, 771458682832326953546960068353929);
    (true, 41752391155164530984350654698697);
    (true, 217665876571598920376535617538084);
    (true, 16817629000623820555255507348514);
    (false, 701713232756163445424117901936614);
    (true, 134193083171553619707818457428468);
    (true, 1318177867157686275355483212639513);
    (true, 1116938196116123939476263248926);
    (false, 1279082202973337204073005199476810);
    (false, 138891886456815315846274732827903);
    (false, 61482941212726500177381117741528);
    (false, 240194167283832548070422891348639);
    (false, 146298959543646308468275463895044);
    (false, 118265285708971581631502771792737);
    (false, 225938923807224214068885381034798);
    (true, 314060757844463907667794217780962);
    (true, 359035805786357153541916308303274);
    (false, 1085061890115069175457801815715663);
    (false, 14970678996648631056581239918687);
    (true, 219001637408092032122938989306755);
    (false, 63555165035320388926583037371509);
    (false, 220595385428004589086784581100063);
    (true, 125079953907810419100661522812993);
    (true, 21934047065001760849133554498);
    (true, 3227122187379370893845937861511);
    (false, 5107985152565004273039405754909);
    (true, 163491484998216799431942057381373);
    (false, 50139266131860548699068346417884);
    (false, 341948486974166000522343609283187)]); [reflexivity|vmtrue].
Qed.

Lemma pow_341948486974166000522343609283189_1 : 2 ^ 11772 mod 341948486974166000522343609283189 = 291782875431971620014836968593543 mod 341948486974166000522343609283189.
Proof.
  apply (pow_by_chain _ _ [
    (false, 0);
    (true, 0);
    (true, 0);
    (false, 0);
    (true, 0);
    (true, 0);
    (true, 17926624614445718674459);
    (true, 568268699635290902649961236426999);
    (true, 287992329045560459934159213050492);
    (true, 448316032091515268763192181671263);
    (true, 1271571025067975374018229848916802);
    (false, 22320537711812408097590378815919);
    (false, 22591068681600116214586567535914)]); [reflexivity|vmtrue].
Qed.

Lemma prime_341948486974166000522343609283189 : prime 341948486974166000522343609283189.
Proof.
  apply (pocklington _ 2 [29047611873442575647497758179]).
  - reflexivity.
  - apply (pock_one _ 1); [vmtrue|]. exact pow_341948486974166000522343609283189_0.
  - cbn [distinct_primes].
    repeat match goal with
    | |- _ /\ _ => split
    | |- True => exact I
    | |- ~ _ => cbn [In]; intuition discriminate
    end.
    + exact prime_29047611873442575647497758179.
  - repeat apply Forall_cons; [..|apply Forall_nil].
    + apply (pock_cond_intro _ _ 11772 291782875431971620014836968593543 230912421032721991545077801069578); [vmtrue|exact pow_341948486974166000522343609283189_1].
  - reflexivity.
Qed.

Lemma prime_44706919 : prime 44706919.
Proof.
  apply (pocklington _ 2 [9349]).
  - reflexivity.
  - apply (pock_one _ 1); [vmtrue|]. small_pow.
  - cbn [distinct_primes].
    repeat match goal with
    | |- _ /\ _ => split
    | |- True => exact I
    | |- ~ _ => cbn [In]; intuition discriminate
    end.
    + small_prime.
  - repeat apply Forall_cons; [..|apply Forall_nil].
    + apply (pock_cond_intro _ _ 4782 24793509 35850462); [vmtrue|small_pow].
  - reflexivity.
Qed.

Lemma prime_120233 : prime 120233.
Proof.
  apply (pocklington _ 2 [113; 19]).
  - reflexivity.
  - apply (pock_one _ 1); [vmtrue|]. small_pow.
  - cbn [distinct_primes].
    repeat match goal with
    | |- _ /\ _ => split
    | |- True => exact I
    | |- ~ _ => cbn [In]; intuition discriminate
    end.
    + small_prime.
    + small_prime.
  - repeat apply Forall_cons; [..|apply Forall_nil].
    + apply (pock_cond_intro _ _ 1064 32912 118505); [vmtrue|small_pow].
    + apply (pock_cond_intro _ _ 6328 76217 83923); [vmtrue|small_pow].
  - reflexivity.
Qed.

Lemma prime_174723607534414371449 : prime 174723607534414371449.
Proof.
  apply (pocklington _ 2 [44706919; 120233]).
  - reflexivity.
  - apply (pock_one _ 1); [vmtrue|]. small_pow.
  - cbn [distinct_primes].
    repeat match goal with
    | |- _ /\ _ => split
    | |- True => exact I
    | |- ~ _ => cbn [In]; intuition discriminate
    end.
    + exact prime_44706919.
    + exact prime_120233.
  - repeat apply Forall_cons; [..|apply Forall_nil].
    + apply (pock_cond_intro _ _ 3908200597192 69188669156729060297 97513711501333925610); [vmtrue|small_pow].
    + apply (pock_cond_intro _ _ 1453208416444856 97784642313376440036 14283963398578376782); [vmtrue|small_pow].
  - reflexivity.
Qed.

Lemma pow_115792089237316195423570985008687907852837564279074904382605163141518161494337_0 : 2 ^ 115792089237316195423570985008687907852837564279074904382605163141518161494336 mod 115792089237316195423570985008687907852837564279074904382605163141518161494337 = 115792089237316195423570985008687907852837564279074904382605163141518161494338 mod 115792089237316195423570985008687907852837564279074904382605163141518161494337.
Proof. exact (pow_by_red 3 432420386565659656852420866394968145599 115792089237316195423570985008687907852837564279074904382605163141518161494336 115792089237316195423570985008687907852837564279074904382605163141518161494338 eq_refl ltac:(vmtrue)). Qed.

Lemma pow_115792089237316195423570985008687907852837564279074904382605163141518161494337_1 : 2 ^ 338624364920977752681389262317185522840540224 mod 115792089237316195423570985008687907852837564279074904382605163141518161494337 = 86644313145397489891193855759928671818841495415153161568930588450251036589538 mod 115792089237316195423570985008687907852837564279074904382605163141518161494337.
Proof. exact (pow_by_red 3 432420386565659656852420866394968145599 338624364920977752681389262317185522840540224 86644313145397489891193855759928671818841495415153161568930588450251036589538 eq_refl ltac:(vmtrue)). Qed.

Lemma pow_115792089237316195423570985008687907852837564279074904382605163141518161494337_2 : 2 ^ 662715765037699607481235088557493206623080876315205958464 mod 115792089237316195423570985008687907852837564279074904382605163141518161494337 = 58138579787377535003503259606714116115479494849592057519620557805018937774448 mod 115792089237316195423570985008687907852837564279074904382605163141518161494337.
Proof. exact (pow_by_red 3 432420386565659656852420866394968145599 662715765037699607481235088557493206623080876315205958464 58138579787377535003503259606714116115479494849592057519620557805018937774448 eq_refl ltac:(vmtrue)). Qed.

Lemma prime_115792089237316195423570985008687907852837564279074904382605163141518161494337 : prime 115792089237316195423570985008687907852837564279074904382605163141518161494337.
Proof.
  apply (pocklington _ 2 [341948486974166000522343609283189; 174723607534414371449]).
  - reflexivity.
  - apply (pock_one _ 115792089237316195423570985008687907852837564279074904382605163141518161494338); [vmtrue|]. exact pow_115792089237316195423570985008687907852837564279074904382605163141518161494337_0.
  - cbn [distinct_primes].
    repeat match goal with
    | |- _ /\ _ => split
    | |- True => exact I
    | |- ~ _ => cbn [In]; intuition discriminate
    end.
    + exact prime_341948486974166000522343609283189.
    + exact prime_174723607534414371449.
  - repeat apply Forall_cons; [..|apply Forall_nil].
    + apply (pock_cond_intro _ _ 338624364920977752681389262317185522840540224 86644313145397489891193855759928671818841495415153161568930588450251036589538 57112704531168816596589732607440886458891436705097388389849158079043094771009); [vmtrue|exact pow_115792089237316195423570985008687907852837564279074904382605163141518161494337_1].
    + apply (pock_cond_intro _ _ 662715765037699607481235088557493206623080876315205958464 58138579787377535003503259606714116115479494849592057519620557805018937774448 82825258999207434266669200773575514537865192807825383256844795767869923999078); [vmtrue|exact pow_115792089237316195423570985008687907852837564279074904382605163141518161494337_2].
  - reflexivity.
Qed.

Theorem prime_p : prime p.
Proof. exact prime_115792089237316195423570985008687907853269984665640564039457584007908834671663. Qed.

Theorem prime_n : prime n.
Proof. exact prime_115792089237316195423570985008687907852837564279074904382605163141518161494337. Qed.
