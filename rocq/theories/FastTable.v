(** The 128-bit powers of five: powers_template<>::power_of_five_128, fast_table.h.
    Entry 2*(q+342) is the high word for 5^q, entry 2*(q+342)+1 the low word.
    Transcribed mechanically. *)
From Coq Require Import ZArith List.
Import ListNotations.
Open Scope Z_scope.

(** powers_template<>::power_of_five_128, fast_table.h:41-693 *)
Definition power_of_five_128 : list Z := [
  17218479456385750618; 1242899115359157055;
  10761549660241094136; 5388497965526861063;
  13451937075301367670; 6735622456908576329;
  16814921344126709587; 17642900107990496220;
  10509325840079193492; 8720969558280366185;
  13136657300098991865; 10901211947850457732;
  16420821625123739831; 18238200953240460069;
  10263013515702337394; 18316404623416369399;
  12828766894627921743; 13672133742415685941;
  16035958618284902179; 12478481159592219522;
  10022474136428063862; 5493207715531443249;
  12528092670535079827; 16089881681269079869;
  15660115838168849784; 15500666083158961933;
  9787572398855531115; 9687916301974351208;
  12234465498569413894; 7498209359040551106;
  15293081873211767368; 149389661945913074;
  9558176170757354605; 93368538716195671;
  11947720213446693256; 4728396691822632493;
  14934650266808366570; 5910495864778290617;
  9334156416755229106; 8305745933913819539;
  11667695520944036383; 1158810380537498616;
  14584619401180045478; 15283571030954036982;
  18230774251475056848; 9881091751837770420;
  11394233907171910530; 6175682344898606512;
  14242792383964888162; 16942974967978033949;
  17803490479956110203; 11955346673117766628;
  11127181549972568877; 5166248661484910190;
  13908976937465711096; 11069496845283525642;
  17386221171832138870; 13836871056604407053;
  10866388232395086794; 4036358391950366504;
  13582985290493858492; 14268820026792733938;
  16978731613117323115; 17836025033490917422;
  10611707258198326947; 8841672636718129437;
  13264634072747908684; 6440404777470273892;
  16580792590934885855; 8050505971837842365;
  10362995369334303659; 11949095260039733334;
  12953744211667879574; 10324683056622278764;
  16192180264584849468; 3682481783923072647;
  10120112665365530917; 11524923151806696212;
  12650140831706913647; 571095884476206553;
  15812676039633642058; 14548927910877421904;
  9882922524771026286; 13704765962725776594;
  12353653155963782858; 7907585416552444934;
  15442066444954728573; 661109733835780360;
  9651291528096705358; 2719036592861056677;
  12064114410120881697; 12622167777931096654;
  15080143012651102122; 1942651667131707105;
  9425089382906938826; 5825843310384704845;
  11781361728633673532; 16505676174835656864;
  14726702160792091916; 2185351144835019464;
  18408377700990114895; 2731688931043774330;
  11505236063118821809; 8624834609543440812;
  14381545078898527261; 15392729280356688919;
  17976931348623159077; 5405853545163697437;
  11235582092889474423; 5684501474941004850;
  14044477616111843029; 2493940825248868159;
  17555597020139803786; 7729112049988473103;
  10972248137587377366; 9442381049670183593;
  13715310171984221708; 2579604275232953683;
  17144137714980277135; 3224505344041192104;
  10715086071862673209; 8932844867666826921;
  13393857589828341511; 15777742103010921555;
  16742321987285426889; 15110491610336264040;
  10463951242053391806; 2526528228819083169;
  13079939052566739757; 12381532322878629770;
  16349923815708424697; 1641857348316123500;
  10218702384817765435; 12555375888766046947;
  12773377981022206794; 11082533842530170780;
  15966722476277758493; 4629795266307937667;
  9979201547673599058; 5199465050656154994;
  12474001934591998822; 15722703350174969551;
  15592502418239998528; 10430007150863936130;
  9745314011399999080; 6518754469289960081;
  12181642514249998850; 8148443086612450102;
  15227053142812498563; 962181821410786819;
  9516908214257811601; 16742264702877599426;
  11896135267822264502; 7092772823314835570;
  14870169084777830627; 18089338065998320271;
  9293855677986144142; 8999993282035256217;
  11617319597482680178; 2026619565689294464;
  14521649496853350222; 11756646493966393888;
  18152061871066687778; 5472436080603216552;
  11345038669416679861; 8031958568804398249;
  14181298336770849826; 14651634229432885715;
  17726622920963562283; 9091170749936331336;
  11079139325602226427; 3376138709496513133;
  13848924157002783033; 18055231442152805128;
  17311155196253478792; 8733981247408842698;
  10819471997658424245; 5458738279630526686;
  13524339997073030306; 11435108867965546262;
  16905424996341287883; 5070514048102157020;
  10565890622713304927; 863228270850154185;
  13207363278391631158; 14914093393844856443;
  16509204097989538948; 9419244705451294746;
  10318252561243461842; 15110399977761835024;
  12897815701554327303; 9664627935347517973;
  16122269626942909129; 7469098900757009562;
  10076418516839318205; 16197401859041600736;
  12595523146049147757; 6411694268519837208;
  15744403932561434696; 12626303854077184414;
  9840252457850896685; 7891439908798240259;
  12300315572313620856; 14475985904425188227;
  15375394465392026070; 18094982380531485284;
  9609621540870016294; 6697677969404790399;
  12012026926087520367; 17595469498610763806;
  15015033657609400459; 17382650854836066854;
  9384396036005875287; 8558313775058847832;
  11730495045007344109; 6086206200396171886;
  14663118806259180136; 12219443768922602761;
  18328898507823975170; 15274304711153253452;
  11455561567389984481; 14158126462898171311;
  14319451959237480602; 3862600023340550427;
  17899314949046850752; 14051622066030463842;
  11187071843154281720; 8782263791269039901;
  13983839803942852150; 10977829739086299876;
  17479799754928565188; 4498915137003099037;
  10924874846830353242; 12035193997481712706;
  13656093558537941553; 5820620459997365075;
  17070116948172426941; 11887461593424094248;
  10668823092607766838; 9735506505103752857;
  13336028865759708548; 2946011094524915263;
  16670036082199635685; 3682513868156144079;
  10418772551374772303; 4607414176811284001;
  13023465689218465379; 1147581702586717097;
  16279332111523081723; 15269535183515560084;
  10174582569701926077; 7237616480483531100;
  12718228212127407596; 13658706619031801779;
  15897785265159259495; 17073383273789752224;
  9936115790724537184; 17588393573759676996;
  12420144738405671481; 3538747893490044629;
  15525180923007089351; 9035120885289943691;
  9703238076879430844; 12564479580947296663;
  12129047596099288555; 15705599476184120828;
  15161309495124110694; 15020313326802763131;
  9475818434452569184; 4776009810824339053;
  11844773043065711480; 5970012263530423816;
  14805966303832139350; 7462515329413029771;
  9253728939895087094; 52386062455755702;
  11567161174868858867; 9288854614924470436;
  14458951468586073584; 6999382250228200141;
  18073689335732591980; 8749227812785250177;
  11296055834832869987; 14691639419845557168;
  14120069793541087484; 13752863256379558556;
  17650087241926359355; 17191079070474448196;
  11031304526203974597; 8438581409832836170;
  13789130657754968246; 15159912780718433117;
  17236413322193710308; 9726518939043265588;
  10772758326371068942; 15302446373756816800;
  13465947907963836178; 9904685930341245193;
  16832434884954795223; 3157485376071780683;
  10520271803096747014; 8890957387685944783;
  13150339753870933768; 1890324697752655170;
  16437924692338667210; 2362905872190818963;
  10273702932711667006; 6088502188546649756;
  12842128665889583757; 16833999772538088003;
  16052660832361979697; 7207441660390446292;
  10032913020226237310; 16033866083812498692;
  12541141275282796638; 10818960567910847557;
  15676426594103495798; 4300328673033783639;
  9797766621314684873; 16522763475928278486;
  12247208276643356092; 6818396289628184396;
  15309010345804195115; 8522995362035230495;
  9568131466127621947; 3021029092058325107;
  11960164332659527433; 17611344420355070096;
  14950205415824409292; 8179122470161673908;
  9343878384890255807; 14335323580705822000;
  11679847981112819759; 13307468457454889596;
  14599809976391024699; 12022649553391224092;
  18249762470488780874; 10416625923311642211;
  11406101544055488046; 11122077220497164286;
  14257626930069360058; 4679224488766679549;
  17822033662586700072; 15072402647813125244;
  11138771039116687545; 9420251654883203278;
  13923463798895859431; 16387000587031392001;
  17404329748619824289; 15872064715361852097;
  10877706092887390181; 3002511419460075705;
  13597132616109237726; 8364825292752482535;
  16996415770136547158; 1232659579085827361;
  10622759856335341973; 14605470292210805812;
  13278449820419177467; 4421779809981343554;
  16598062275523971834; 915538744049291538;
  10373788922202482396; 5183897733458195115;
  12967236152753102995; 6479872166822743894;
  16209045190941378744; 3488154190101041964;
  10130653244338361715; 2180096368813151227;
  12663316555422952143; 16560178516298602746;
  15829145694278690179; 16088537126945865529;
  9893216058924181362; 7749492695127472003;
  12366520073655226703; 463493832054564196;
  15458150092069033378; 14414425345350368957;
  9661343807543145861; 13620701859271368502;
  12076679759428932327; 3190819268807046916;
  15095849699286165408; 17823582141290972357;
  9434906062053853380; 11139738838306857723;
  11793632577567316725; 13924673547883572154;
  14742040721959145907; 3570783879572301480;
  18427550902448932383; 18298537904747540562;
  11517219314030582739; 18354115218108294707;
  14396524142538228424; 18330958004207980480;
  17995655178172785531; 4466953431550423984;
  11247284486357990957; 486002885505321038;
  14059105607947488696; 5219189625309039202;
  17573882009934360870; 6523987031636299002;
  10983676256208975543; 17912549950054850588;
  13729595320261219429; 17779001419141175331;
  17161994150326524287; 8388693718644305452;
  10726246343954077679; 12160462601793772764;
  13407807929942597099; 10588892233814828051;
  16759759912428246374; 8624429273841147159;
  10474849945267653984; 778582277723329070;
  13093562431584567480; 973227847154161338;
  16366953039480709350; 1216534808942701673;
  10229345649675443343; 14595392310871352257;
  12786682062094304179; 13632554370161802418;
  15983352577617880224; 12429006944274865118;
  9989595361011175140; 7768129340171790699;
  12486994201263968925; 9710161675214738374;
  15608742751579961156; 16749388112445810871;
  9755464219737475723; 1244995533423855986;
  12194330274671844653; 15391302472061983695;
  15242912843339805817; 5404070034795315907;
  9526820527087378635; 14906758817815542202;
  11908525658859223294; 14021762503842039848;
  14885657073574029118; 8303831092947774002;
  9303535670983768199; 578208414664970847;
  11629419588729710248; 14557818573613377271;
  14536774485912137810; 18197273217016721589;
  18170968107390172263; 13523219484416126178;
  11356855067118857664; 15369541205401160717;
  14196068833898572081; 765182433041899281;
  17745086042373215101; 5568164059729762005;
  11090678776483259438; 5785945546544795205;
  13863348470604074297; 16455803970035769814;
  17329185588255092872; 6734696907262548556;
  10830740992659433045; 4209185567039092847;
  13538426240824291306; 9873167977226253963;
  16923032801030364133; 3118087934678041646;
  10576895500643977583; 4254647968387469981;
  13221119375804971979; 706623942056949572;
  16526399219756214973; 14718337982853350677;
  10328999512347634358; 11504804248497038125;
  12911249390434542948; 5157633273766521849;
  16139061738043178685; 6447041592208152311;
  10086913586276986678; 6335244004343789146;
  12608641982846233347; 17142427042284512241;
  15760802478557791684; 16816347784428252397;
  9850501549098619803; 1286845328412881940;
  12313126936373274753; 15443614715798266137;
  15391408670466593442; 5469460339465668959;
  9619630419041620901; 8030098730593431003;
  12024538023802026126; 14649309431669176658;
  15030672529752532658; 9088264752731695015;
  9394170331095332911; 10291851488884697288;
  11742712913869166139; 8253128342678483706;
  14678391142336457674; 5704724409920716729;
  18347988927920572092; 16354277549255671720;
  11467493079950357558; 998051431430019017;
  14334366349937946947; 10470936326142299579;
  17917957937422433684; 8476984389250486570;
  11198723710889021052; 14521487280136329914;
  13998404638611276315; 18151859100170412392;
  17498005798264095394; 18078137856785627587;
  10936253623915059621; 15910522178918405146;
  13670317029893824527; 6053094668365842720;
  17087896287367280659; 2954682317029915496;
  10679935179604550411; 17987577512639554849;
  13349918974505688014; 17872785872372055657;
  16687398718132110018; 13117610303610293764;
  10429624198832568761; 12810192458183821506;
  13037030248540710952; 2177682517447613171;
  16296287810675888690; 2722103146809516464;
  10185179881672430431; 6313000485183335694;
  12731474852090538039; 3279564588051781713;
  15914343565113172548; 17934513790346890853;
  9946464728195732843; 1985699082112030975;
  12433080910244666053; 16317181907922202431;
  15541351137805832567; 6561419329620589327;
  9713344461128645354; 11018416108653950185;
  12141680576410806693; 4549648098962661924;
  15177100720513508366; 10298746142130715309;
  9485687950320942729; 1825030320404309164;
  11857109937901178411; 6892973918932774359;
  14821387422376473014; 4004531380238580045;
  9263367138985295633; 16337890167931276240;
  11579208923731619542; 6587304654631931588;
  14474011154664524427; 17457502855144690293;
  18092513943330655534; 17210192550503474962;
  11307821214581659709; 6144684325637283947;
  14134776518227074636; 12292541425473992838;
  17668470647783843295; 15365676781842491048;
  11042794154864902059; 16521077016292638761;
  13803492693581127574; 16039660251938410547;
  17254365866976409468; 10826203278068237376;
  10783978666860255917; 15989749085647424168;
  13479973333575319897; 6152128301777116498;
  16849966666969149871; 12301846395648783526;
  10531229166855718669; 14606183024921571560;
  13164036458569648337; 4422670725869800738;
  16455045573212060421; 10140024425764638826;
  10284403483257537763; 8643358275316593218;
  12855504354071922204; 6192511825718353619;
  16069380442589902755; 7740639782147942024;
  10043362776618689222; 2532056854628769813;
  12554203470773361527; 12388443105140738074;
  15692754338466701909; 10873867862998534689;
  9807971461541688693; 9102010423587778132;
  12259964326927110866; 15989199047912110569;
  15324955408658888583; 10763126773035362404;
  9578097130411805364; 13644483260788183358;
  11972621413014756705; 17055604075985229198;
  14965776766268445882; 7484447039699372786;
  9353610478917778676; 9289465418239495895;
  11692013098647223345; 11611831772799369869;
  14615016373309029182; 679731660717048624;
  18268770466636286477; 10073036612751086588;
  11417981541647679048; 8601490892183123070;
  14272476927059598810; 10751863615228903838;
  17840596158824498513; 4216457482181353989;
  11150372599265311570; 14164500972431816003;
  13937965749081639463; 8482254178684994196;
  17422457186352049329; 5991131704928854841;
  10889035741470030830; 15273672361649004036;
  13611294676837538538; 9868718415206479237;
  17014118346046923173; 3112525982153323238;
  10633823966279326983; 4251171748059520976;
  13292279957849158729; 702278666647013315;
  16615349947311448411; 5489534351736154548;
  10384593717069655257; 1125115960621402641;
  12980742146337069071; 6018080969204141205;
  16225927682921336339; 2910915193077788602;
  10141204801825835211; 17960223060169475540;
  12676506002282294014; 17838592806784456521;
  15845632502852867518; 13074868971625794844;
  9903520314283042199; 3560107088838733873;
  12379400392853802748; 18285191916330581054;
  15474250491067253436; 4409745821703674701;
  9671406556917033397; 11979463175419572496;
  12089258196146291747; 1139270913992301908;
  15111572745182864683; 15259146697772541097;
  9444732965739290427; 7231123676894144234;
  11805916207174113034; 4427218577690292388;
  14757395258967641292; 14757395258967641293;
  9223372036854775808; 0;
  11529215046068469760; 0;
  14411518807585587200; 0;
  18014398509481984000; 0;
  11258999068426240000; 0;
  14073748835532800000; 0;
  17592186044416000000; 0;
  10995116277760000000; 0;
  13743895347200000000; 0;
  17179869184000000000; 0;
  10737418240000000000; 0;
  13421772800000000000; 0;
  16777216000000000000; 0;
  10485760000000000000; 0;
  13107200000000000000; 0;
  16384000000000000000; 0;
  10240000000000000000; 0;
  12800000000000000000; 0;
  16000000000000000000; 0;
  10000000000000000000; 0;
  12500000000000000000; 0;
  15625000000000000000; 0;
  9765625000000000000; 0;
  12207031250000000000; 0;
  15258789062500000000; 0;
  9536743164062500000; 0;
  11920928955078125000; 0;
  14901161193847656250; 0;
  9313225746154785156; 4611686018427387904;
  11641532182693481445; 5764607523034234880;
  14551915228366851806; 11817445422220181504;
  18189894035458564758; 5548434740920451072;
  11368683772161602973; 17302829768357445632;
  14210854715202003717; 7793479155164643328;
  17763568394002504646; 14353534962383192064;
  11102230246251565404; 4359273333062107136;
  13877787807814456755; 5449091666327633920;
  17347234759768070944; 2199678564482154496;
  10842021724855044340; 1374799102801346560;
  13552527156068805425; 1718498878501683200;
  16940658945086006781; 6759809616554491904;
  10587911840678754238; 6530724019560251392;
  13234889800848442797; 17386777061305090048;
  16543612251060553497; 7898413271349198848;
  10339757656912845935; 16465723340661719040;
  12924697071141057419; 15970468157399760896;
  16155871338926321774; 15351399178322313216;
  10097419586828951109; 4982938468024057856;
  12621774483536188886; 10840359103457460224;
  15777218104420236108; 4327076842467049472;
  9860761315262647567; 11927795063396681728;
  12325951644078309459; 10298057810818464256;
  15407439555097886824; 8260886245095692416;
  9629649721936179265; 5163053903184807760;
  12037062152420224081; 11065503397408397604;
  15046327690525280101; 18443565265187884909;
  9403954806578300063; 13833071299956122020;
  11754943508222875079; 12679653106517764621;
  14693679385278593849; 11237880364719817872;
  18367099231598242312; 212292400617608628;
  11479437019748901445; 132682750386005392;
  14349296274686126806; 4777539456409894645;
  17936620343357658507; 15195296357367144114;
  11210387714598536567; 7191217214140771119;
  14012984643248170709; 4377335499248575995;
  17516230804060213386; 10083355392488107898;
  10947644252537633366; 10913783138732455340;
  13684555315672041708; 4418856886560793367;
  17105694144590052135; 5523571108200991709;
  10691058840368782584; 10369760970266701674;
  13363823550460978230; 12962201212833377092;
  16704779438076222788; 6979379479186945558;
  10440487148797639242; 13585484211346616781;
  13050608935997049053; 7758483227328495169;
  16313261169996311316; 14309790052588006865;
  10195788231247694572; 18166990819722280098;
  12744735289059618216; 4261994450943298507;
  15930919111324522770; 5327493063679123134;
  9956824444577826731; 7941369183226839863;
  12446030555722283414; 5315025460606161924;
  15557538194652854267; 15867153862612478214;
  9723461371658033917; 7611128154919104931;
  12154326714572542396; 14125596212076269068;
  15192908393215677995; 17656995265095336336;
  9495567745759798747; 8729779031470891258;
  11869459682199748434; 6300537770911226168;
  14836824602749685542; 17099044250493808518;
  9273015376718553464; 6075216638131242420;
  11591269220898191830; 7594020797664053025;
  14489086526122739788; 269153960225290473;
  18111358157653424735; 336442450281613091;
  11319598848533390459; 7127805559067090038;
  14149498560666738074; 4298070930406474644;
  17686873200833422592; 14595960699862869113;
  11054295750520889120; 9122475437414293195;
  13817869688151111400; 11403094296767866494;
  17272337110188889250; 14253867870959833118;
  10795210693868055781; 13520353437777283602;
  13494013367335069727; 3065383741939440791;
  16867516709168837158; 17666787732706464701;
  10542197943230523224; 6430056314514152534;
  13177747429038154030; 8037570393142690668;
  16472184286297692538; 823590954573587527;
  10295115178936057836; 5126430365035880108;
  12868893973670072295; 6408037956294850135;
  16086117467087590369; 3398361426941174765;
  10053823416929743980; 13653190937906703988;
  12567279271162179975; 17066488672383379985;
  15709099088952724969; 16721424822051837077;
  9818186930595453106; 3533361486141316317;
  12272733663244316382; 13640073894531421205;
  15340917079055395478; 7826720331309500698;
  9588073174409622174; 280014188641050032;
  11985091468012027717; 9573389772656088348;
  14981364335015034646; 16578423234247498339;
  9363352709384396654; 5749828502977298558;
  11704190886730495817; 16410657665576399005;
  14630238608413119772; 6678264026688335045;
  18287798260516399715; 8347830033360418806;
  11429873912822749822; 2911550761636567802;
  14287342391028437277; 12862810488900485560;
  17859177988785546597; 2243455055843443238;
  11161986242990966623; 3708002419115845976;
  13952482803738708279; 23317005467419566;
  17440603504673385348; 13864204312116438170;
  10900377190420865842; 17888499731927549664;
  13625471488026082303; 13137252628054661272;
  17031839360032602879; 11809879766640938686;
  10644899600020376799; 14298703881791668535;
  13306124500025470999; 13261693833812197764;
  16632655625031838749; 11965431273837859301;
  10395409765644899218; 9784237555362356015;
  12994262207056124023; 3006924907348169211;
  16242827758820155028; 17593714189467375226;
  10151767349262596893; 1772699331562333708;
  12689709186578246116; 6827560182880305039;
  15862136483222807645; 8534450228600381299;
  9913835302014254778; 7639874402088932264;
  12392294127517818473; 326470965756389522;
  15490367659397273091; 5019774725622874806;
  9681479787123295682; 831516194300602802;
  12101849733904119602; 10262767279730529310;
  15127312167380149503; 3605087062808385830;
  9454570104612593439; 9170708441896323000;
  11818212630765741799; 6851699533943015846;
  14772765788457177249; 3952938399001381903;
  9232978617785735780; 13999801545444333449;
  11541223272232169725; 17499751931805416812;
  14426529090290212157; 8039631859474607303;
  18033161362862765196; 14661225842770647033;
  11270725851789228247; 18386638188586430203;
  14088407314736535309; 18371611717305649850;
  17610509143420669137; 9129456591349898601;
  11006568214637918210; 17235125415662156385;
  13758210268297397763; 12320534732722919674;
  17197762835371747204; 10788982397476261688;
  10748601772107342002; 15966486035277439363;
  13435752215134177503; 10734735507242023396;
  16794690268917721879; 8806733365625141341;
  10496681418073576174; 12421737381156795194;
  13120851772591970218; 6303799689591218185;
  16401064715739962772; 17103121648843798539;
  10250665447337476733; 1466078993672598279;
  12813331809171845916; 6444284760518135752;
  16016664761464807395; 8055355950647669691;
  10010415475915504622; 2728754459941099604;
  12513019344894380777; 12634315111781150314;
  15641274181117975972; 1957835834444274180;
  9775796363198734982; 10447019433382447170;
  12219745453998418728; 3835402254873283155;
  15274681817498023410; 4794252818591603944;
  9546676135936264631; 7608094030047140369;
  11933345169920330789; 4898431519131537557;
  14916681462400413486; 10734725417341809851;
  9322925914000258429; 2097517367411243253;
  11653657392500323036; 7233582727691441970;
  14567071740625403795; 9041978409614302462;
  18208839675781754744; 6690786993590490174;
  11380524797363596715; 4181741870994056359;
  14225655996704495894; 615491320315182544;
  17782069995880619867; 9992736187248753989;
  11113793747425387417; 3939617107816777291;
  13892242184281734271; 9536207403198359517;
  17365302730352167839; 7308573235570561493;
  10853314206470104899; 11485387299872682789;
  13566642758087631124; 9745048106413465582;
  16958303447609538905; 12181310133016831978;
  10598939654755961816; 695789805494438130;
  13248674568444952270; 869737256868047663;
  16560843210556190337; 10310543607939835386;
  10350527006597618960; 17973304801030866876;
  12938158758247023701; 4019886927579031980;
  16172698447808779626; 9636544677901177879;
  10107936529880487266; 10634526442115624078;
  12634920662350609083; 4069786015789754290;
  15793650827938261354; 475546501309804958;
  9871031767461413346; 4908902581746016003;
  12338789709326766682; 15359500264037295811;
  15423487136658458353; 9976003293191843956;
  9639679460411536470; 17764217104313372233;
  12049599325514420588; 12981899343536939483;
  15061999156893025735; 16227374179421174354;
  9413749473058141084; 17059637889779315827;
  11767186841322676356; 2877803288514593168;
  14708983551653345445; 3597254110643241460;
  18386229439566681806; 9108253656731439729;
  11491393399729176129; 1080972517029761926;
  14364241749661470161; 5962901664714590312;
  17955302187076837701; 12065313099320625794;
  11222063866923023563; 9846663696289085073;
  14027579833653779454; 7696643601933968437;
  17534474792067224318; 397432465562684739;
  10959046745042015198; 14083453346258841674;
  13698808431302518998; 8380944645968776284;
  17123510539128148748; 1252808770606194547;
  10702194086955092967; 10006377518483647400;
  13377742608693866209; 7896285879677171346;
  16722178260867332761; 14482043368023852087;
  10451361413042082976; 2133748077373825698;
  13064201766302603720; 2667185096717282123;
  16330252207878254650; 3333981370896602653;
  10206407629923909156; 6695424375237764562;
  12758009537404886445; 8369280469047205703;
  15947511921756108056; 15073286604736395033;
  9967194951097567535; 9420804127960246895;
  12458993688871959419; 7164319141522920715;
  15573742111089949274; 4343712908476262990;
  9733588819431218296; 7326506586225052273;
  12166986024289022870; 9158133232781315341;
  15208732530361278588; 2224294504121868368;
  9505457831475799117; 10613556101930943538;
  11881822289344748896; 17878631145841067327;
  14852277861680936121; 3901544858591782542;
  9282673663550585075; 13967680582688333849;
  11603342079438231344; 12847914709933029407;
  14504177599297789180; 16059893387416286759;
  18130221999122236476; 1628122660560806833;
  11331388749451397797; 10240948699705280078;
  14164235936814247246; 17412871893058988002;
  17705294921017809058; 12542717829468959195;
  11065809325636130661; 12450884661845487401;
  13832261657045163327; 1728547772024695539;
  17290327071306454158; 15995742770313033136;
  10806454419566533849; 5385653213018257806;
  13508068024458167311; 11343752534700210161;
  16885085030572709139; 9568004649947874797;
  10553178144107943212; 3674159897003727796;
  13191472680134929015; 4592699871254659745;
  16489340850168661269; 1129188820640936778;
  10305838031355413293; 3011586022114279438;
  12882297539194266616; 8376168546070237202;
  16102871923992833270; 10470210682587796502;
  10064294952495520794; 1932195658189984910;
  12580368690619400992; 11638616609592256945;
  15725460863274251240; 14548270761990321182;
  9828413039546407025; 9092669226243950738;
  12285516299433008781; 15977522551232326327;
  15356895374291260977; 6136845133758244197;
  9598059608932038110; 15364743254667372383;
  11997574511165047638; 9982557031479439671;
  14996968138956309548; 3254824252494523781;
  9373105086847693467; 11257637194663853171;
  11716381358559616834; 9460360474902428559;
  14645476698199521043; 2602078556773259891;
  18306845872749401303; 17087656251248738576;
  11441778670468375814; 17597314184671543466;
  14302223338085469768; 12773270693984653525;
  17877779172606837210; 15966588367480816906;
  11173611982879273256; 14590803748102898470;
  13967014978599091570; 18238504685128623088;
  17458768723248864463; 13574758819556003052;
  10911730452030540289; 15401753289863583763;
  13639663065038175362; 5417133557047315992;
  17049578831297719202; 15994788983163920798;
  10655986769561074501; 14608429132904838403;
  13319983461951343127; 4425478360848884291;
  16649979327439178909; 920161932633717460;
  10406237079649486818; 2880944217109767365;
  13007796349561858522; 12824552308241985014;
  16259745436952323153; 6807318348447705459;
  10162340898095201970; 15783789013848285672;
  12702926122619002463; 10506364230455581282;
  15878657653273753079; 8521269269642088699;
  9924161033296095674; 12243322321167387293;
  12405201291620119593; 6080780864604458308;
  15506501614525149491; 12212662099182960789;
  9691563509078218432; 5327070802775656541;
  12114454386347773040; 6658838503469570676;
  15143067982934716300; 8323548129336963345;
  9464417489334197687; 14425589617690377899;
  11830521861667747109; 13420301003685584469;
  14788152327084683887; 2940318199324816875;
  9242595204427927429; 8755227902219092403;
  11553244005534909286; 15555720896201253407;
  14441555006918636608; 10221279083396790951;
  18051943758648295760; 12776598854245988689;
  11282464849155184850; 7985374283903742931;
  14103081061443981063; 758345818024902856;
  17628851326804976328; 14782990327813292282;
  11018032079253110205; 9239368954883307676;
  13772540099066387756; 16160897212031522499;
  17215675123832984696; 1754377441329851508;
  10759796952395615435; 1096485900831157192;
  13449746190494519293; 15205665431321110202;
  16812182738118149117; 5172023733869224041;
  10507614211323843198; 5538357842881958977;
  13134517764154803997; 16146319340457224530;
  16418147205193504997; 6347841120289366950;
  10261342003245940623; 6273243709394548296].

