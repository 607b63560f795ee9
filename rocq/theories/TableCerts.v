(** Certificates for the entries of the 128-bit table of powers of five
    (generated; checked by the kernel in EiselTable.v, nothing here is trusted).
    One tuple per exponent, -342 to 308.  For entries that are truncations:
    (q1, k1, q2, k2), see [cert_sound].  For -24..-1 with an odd high word: its
    inverse modulo 2^73 in the first component. *)
From Coq Require Import ZArith List.
Import ListNotations.
Open Scope Z_scope.

Definition table_certs : list (Z * Z * Z * Z) := [
  (12770164887588248800, 23280999321973471, 8401500023913039231, 15316585030972091);
  (20432263820141198080, 23280999321973471, 5847467046395389471, 6662740729110873);
  (16345811056112958464, 23280999321973471, 9933919810423629087, 14148675741881959);
  (34100433538119636812, 60710674385828901, 9229514097476769145, 16431756636904837);
  (10103696884680037035, 11242566956172703, 14767222555962830632, 16431756636904837);
  (8082957507744029628, 11242566956172703, 16787961932898838039, 23350337535174222);
  (6590775389677379459, 11458867861879907, 53348250034829814455, 92752447423575276);
  (15693451551743554945, 17053113726752858, 5645848462188370837, 6134998129140961);
  (6277380620697421978, 8526556863376429, 39539909717515140575, 53707001208046333);
  (30001326451206506323, 50938446985255286, 1630601322805606137, 2768554222791047);
  (42654097560811351307, 45263279667796137, 7956986877608028629, 8443721540250196);
  (30940483297605869594, 41041418897671039, 7956986877608028629, 10554651925312745);
  (9193398567999136386, 15243383486179147, 38897470175213898223, 64495088528729730);
  (11456853462242434199, 11872731937636003, 235787854936552632285, 244346844885276346);
  (21583549786144078737, 27958778310950936, 2660314276681579322, 3446103066278143);
  (28028511164718157942, 45384270532704547, 6444961378574079205, 10435797644015877);
  (24161534337573710419, 24451744966434388, 10311938205718526728, 10435797644015877);
  (6247370037969404869, 7903011080809914, 17914164299604305550, 22661670127233071);
  (13413035757811127089, 21209598914628928, 14331331439683444440, 22661670127233071);
  (13413035757811127089, 13255999321643080, 9517094545682384015, 9405670805589991);
  (13413035757811127089, 16569999152053850, 7613675636545907212, 9405670805589991);
  (27551797721734529112, 42545669109697691, 362863103056137467, 560335614781533);
  (10875573847471356658, 20992666747458079, 27914660824790666579, 53882505905599030);
  (19866323407893351958, 23966959850128797, 6163513129847953263, 7435732756676795);
  (5481124111218159478, 8265613546726001, 31510960648959464699, 47518979305232991);
  (36992084760177624177, 69730741064948740, 3013517663060997253, 5680534666263747);
  (4987602821586727033, 5876075299986719, 68996566698768521321, 81287351031199206);
  (8146139075227894681, 11996576392127153, 11804272211119013451, 17383800107806442);
  (10341018956762565943, 19036138276918408, 23608544422238026902, 43459500269516105);
  (10341018956762565943, 11897586423074005, 43978282449638382609, 50598052123360508);
  (7749973840892428987, 11145659815307883, 18114154304372976811, 26050952669446376);
  (13445640794463133914, 24171136150031071, 31559795098836110725, 56734826986839041);
  (45005435893299244639, 50566226960543820, 5490236264838532521, 6168600026295221);
  (4608898166789022911, 6472956713840734, 40396537726510221728, 56734826986839041);
  (9217796333578045822, 16182391784601835, 15236835457246284109, 26749174314959337);
  (85401973619809466367, 93705164599624075, 7298542007632161301, 8008141395034522);
  (6426329818921573603, 8813910673398058, 14597084015264322602, 20020353487586305);
  (16818731067348716964, 28834264160984363, 1983035714752784879, 3399743738744609);
  (11868556282076745668, 12717260211119877, 12867488641063129009, 13787624831770669);
  (9095272082066843198, 12182077900794481, 10094204441053226539, 13520033676607971);
  (15751154162090609126, 26371089465309197, 12312831801061148515, 20614539458865329);
  (13288587801878379423, 13905113483460082, 6411943079819458201, 6709425975405247);
  (31799670396060218011, 41593775067217849, 5222494792303459165, 6830991358567644);
  (132421176376544331209, 216507614534298800, 1044498958460691833, 1707747839641911);
  (24813036941771759309, 25355703977145439, 8355991667685534664, 8538739198209555);
  (3291409054817244929, 4204241194733971, 86086511547818057520, 109961555106791311);
  (13165636219268979716, 21021205973669855, 13925893254746366575, 22235087283280364);
  (255980586396372870859, 255448186394107959, 5570357301898546630, 5558771820820091);
  (254866514935993161533, 317920540037429926, 4456285841518837304, 5558771820820091);
  (13540501918440398953, 21113030890746526, 17825143366075349216, 27793859104100455);
  (9838157730118219477, 19175187274736859, 1497833444331443221029, 2919371450357346830);
  (19189621589541666849, 23376111018753041, 1946775482779088420, 2371492298672131);
  (19578976686097484533, 29813011848109334, 1557420386223270736, 2371492298672131);
  (39157953372194969066, 74532529620273335, 4538763491708805201, 8638999111363399);
  (6923837976097232773, 8236691313613742, 223253733288295726479, 265585661024388029);
  (13847675952194465546, 20591728284034355, 4830670006932050761, 7183287979584449);
  (3606802378104965914, 6704220152224953, 22285148337231482221, 41422990481748458);
  (8785192521172255541, 10206038924387272, 32641928623366061475, 37921171709586139);
  (8785192521172255541, 12757548655484090, 26113542898692849180, 37921171709586139);
  (19230609680649395213, 34907521674148182, 1660224638304884131, 3013650035437957);
  (117514344845664075107, 133320478648522563, 4510211791451832695, 5116852718128012);
  (472763506457527400045, 670440032781208824, 902042358290366539, 1279213179532003);
  (94552701291505480009, 167610008195302206, 3608169433161466156, 6396065897660015);
  (17615331690897981530, 19516271407015499, 5625011887196873859, 6232029040642288);
  (14092265352718385224, 19516271407015499, 5625011887196873859, 7790036300802860);
  (12398814659614082951, 21463780482216214, 42821455866039122712, 74128886822652217);
  (19608345278338465675, 21215194265940081, 9229777196559065221, 9986131592279708);
  (15686676222670772540, 21215194265940081, 9229777196559065221, 12482664490349635);
  (12549340978136618032, 21215194265940081, 12367112441093219729, 20907129179422064);
  (10185255612144013068, 10761629676229049, 22552368053237232797, 23828585413367839);
  (6547524733076249173, 8647553772399222, 116399571145253927880, 153733142156436083);
  (13095049466152498346, 21618884430998055, 40012303725025321979, 66057128862719014);
  (9894315311667737124, 10209204430636603, 13822204792720325287, 14262100000451815);
  (67977412084707610016, 87676013293717069, 10272185937965742597, 13248876107998012);
  (9184311540716820586, 14807194699728003, 10272185937965742597, 16561095134997515);
  (15130048224046481742, 15245669808545381, 16217922621295403753, 16341857580588826);
  (28757110959432157951, 36221085670303136, 3678734283158649555, 4633558281168929);
  (28757110959432157951, 45276357087878920, 2942987426526919644, 4633558281168929);
  (6794064501329791750, 6685530990800801, 21963046458102366201, 21612192189123524);
  (5435251601063833400, 6685530990800801, 21963046458102366201, 27015240236404405);
  (4348201280851066720, 6685530990800801, 25224197418740666241, 38783198538606107);
  (3478561024680853376, 6685530990800801, 22615276650230026209, 43464849930157033);
  (1738354514379530835, 2088116123381272, 19136715625549172833, 22987074337097645);
  (347670902875906167, 522029030845318, 83152609656838908505, 124853923271549267);
  (695341805751812334, 1305072577113295, 32913372959859657235, 61774425347217986);
  (7973358203475556115, 9353143889793867, 26330698367887725788, 30887212673608993);
  (6378686562780444892, 9353143889793867, 27925370008582837011, 40947301814459708);
  (16273097253657490718, 29826794797023721, 11652272754925346293, 21357332471050914);
  (7393319197971431080, 8469462325972807, 13500602554418204063, 15465698375900023);
  (29958532788024980558, 42898977102736461, 12021938714823917847, 17214757388381827);
  (2915733533241836556005, 5218963281899279781, 8396094300569779681, 15028433622779572);
  (6868705335640273167, 7684070005926488, 16792188601139559362, 18785542028474465);
  (14807491948039702123, 20706559529956087, 7938786612399428956, 11101472022547977);
  (19142731404775697181, 33461111171786158, 1801773577831716949, 3149464134421961);
  (10764929411732731529, 11760550655814319, 33511207972171862608, 36610575306208119);
  (13161199241474011439, 17973056818412769, 9585079318965119640, 13089473994579481);
  (11244183377680987511, 19193952524371091, 7668063455172095712, 13089473994579481);
  (33120490870572046596, 35335665783846377, 2352001397567059925, 2509308682420919);
  (33590891150085458581, 44796909400413201, 1881601118053647940, 2509308682420919);
  (33967211373696188169, 56623463921121731, 1505280894442918352, 2509308682420919);
  (134193358261151437439, 139813007762808564, 7696610811404988645, 8018923746048061);
  (134193358261151437439, 174766259703510705, 6157288649123990916, 8018923746048061);
  (15755552083807103839, 25648986497269539, 8873602512688859825, 14445632232970766);
  (36835265675227523573, 37478345208950961, 7098882010151087860, 7222816116485383);
  (32575936469136870857, 41430819423824664, 5679105608120870288, 7222816116485383);
  (1971902807330677941, 3134888739470783, 30604033661806192916, 48653635540310047);
  (204747286098183822363, 203439274250815879, 5726426170895102995, 5689843350104908);
  (840749563842136680833, 1044223127167077708, 1145285234179020599, 1422460837526227);
  (165401228206397686729, 256788399279190746, 4581140936716082396, 7112304187631135);
  (1928487271610177053, 3742514224933039, 18324563746864329584, 35561520938155675);
  (206196996800744991319, 250097318836896873, 11380435702440633161, 13803384629925008);
  (162681510300107866423, 246646472679415621, 11380435702440633161, 17254230787406260);
  (125593033959110039874, 238019357285712491, 11380435702440633161, 21567788484257825);
  (408241232263075103, 483552474297760, 18127048877452398037, 21471077989398273);
  (29248222943281681921, 43304820334519866, 14419990855509303409, 21350189870823833);
  (11780937423765287789, 21803520315477983, 11372696191502212686, 21047969574387733);
  (79538836756435651821, 92003854442327459, 9261453446107000190, 10712872472466429);
  (81391127445657051859, 117683036171025931, 7409162756885600152, 10712872472466429);
  (5905397629491570159, 10673232215940232, 41447446286525540926, 74910826794212609);
  (5905397629491570159, 6670770134962645, 69859152636135807577, 78913288875190196);
  (32667979158047579158, 46127414572557743, 4523194320040649261, 6386781948872259);
  (7639358479170252550, 13483534362970483, 12866067879666424797, 22708722053665889);
  (12222973566672404080, 13483534362970483, 14393939575500475307, 15878393078912491);
  (9778378853337923264, 13483534362970483, 11949344862165994491, 16477107757897993);
  (4345544743100783551, 7490160530217119, 590990472336261921839, 1018655605066629840);
  (6953594134050181901, 7490938910579412, 27810763810756086507, 29959863740506183);
  (6953594134050181901, 9363673638224265, 25030048702224941966, 33705333195795889);
  (85659031154359959812, 144185006421407821, 3615290913634952013, 6085414889392906);
  (10402692431753300639, 10943915186606218, 14461163654539808052, 15213537223482265);
  (35621092765367653650, 46842947226873857, 3703926975465263093, 4870789815089578);
  (10544510130681798367, 17332986344574956, 17952364081612324553, 29509960882298901);
  (8836031022210096765, 9077875782641114, 12252989239153499969, 12588357148077581);
  (3534412408884038706, 4538937891320557, 26273184682749019291, 33740361815854231);
  (29807597091633057997, 47849124633968485, 9095508909545992234, 14600711962266837);
  (2016856290396065036, 2023494373583987, 18695231891691000727, 18756763546229543);
  (4949160152575839167, 6206811666745376, 26576695906446614025, 33330209799297697);
  (4949160152575839167, 7758514583431720, 21261356725157291220, 33330209799297697);
  (4949160152575839167, 4849071614644825, 38967330912827505119, 38179281413942522);
  (66307057582584679524, 81207634442529869, 5813802121535165357, 7120284546163218);
  (27685583457340904881, 42383888357805739, 11627604243070330714, 17800711365408045);
  (118604971369445866643, 226965591719832141, 7862637540082247119, 15046149930803446);
  (17563965895465807605, 21006791844299851, 13886584264863180871, 16608582982708764);
  (14051172716372646084, 21006791844299851, 13886584264863180871, 20760728728385955);
  (56040102413981119123, 104726380326606885, 11175102792494330782, 20883760286342903);
  (22514794036498126777, 26296937167236360, 4371288046092053185, 5105597986001087);
  (26011824473371769325, 37976769445046537, 3497030436873642548, 5105597986001087);
  (20809459578697415460, 37976769445046537, 8699395331547996413, 15876189843762993);
  (12110064247149419047, 13812862250802215, 9075006831617026642, 10351044943442107);
  (607011483106478481, 865454326840027, 43584165123745848340, 62140676639290859);
  (26757510557353987485, 47687325388018178, 8109821541642691187, 14453351251272681);
  (10537867474068605111, 11737889303420510, 10868140971814584877, 12105773390588579);
  (111443353317690979844, 155167749554643113, 6454829883539554973, 8987359021149417);
  (5506112966335353039, 9583020569925173, 31325432500493572931, 54519815675672258);
  (12872422059701138233, 14002242386902912, 7440784508121728620, 8093866697985783);
  (12872422059701138233, 17502802983628640, 5952627606497382896, 8093866697985783);
  (12872422059701138233, 21878503729535800, 9911070909078361610, 16845268189800103);
  (12872422059701138233, 13674064830959875, 41602557573927655042, 44193397851719853);
  (10894995926725758655, 14466865670669932, 547735087731112173093, 727307287732046885);
  (2178999185345151731, 3616716417667483, 2241057332187387182185, 3719720916266586534);
  (17431993482761213848, 18083582088337415, 8053630997756786775, 8354666802803588);
  (69727973931044855392, 90417910441687075, 1610726199551357355, 2088666700700897);
  (70050119170955126863, 113544554727284068, 1288580959641085884, 2088666700700897);
  (10917429531052419251, 11060069289859163, 10308647677128687072, 10443333503504485);
  (13222671808047649537, 16744287881377414, 17224374508114377930, 21811770686540987);
  (6332922004801898365, 10024474508451274, 13779499606491502344, 21811770686540987);
  (5066337603841518692, 5012237254225637, 23759246010101865669, 23505535417507006);
  (39342549538752434367, 48653042861975716, 2725314160483765657, 3370265227263933);
  (9196265830339936170, 14215725749196059, 10048761236137499399, 15533525942757862);
  (13727267568273473867, 26524770303045357, 6370254904001524931, 12309044553849298);
  (7554364216326033737, 9123163742665882, 13529916016219389066, 16339646289985003);
  (42416383375209909627, 64031134821946922, 3901093563222548879, 5889032209326031);
  (84832766750419819254, 160077837054867305, 10043714100331001477, 18952299810149746);
  (15854421319572125043, 18698121977298362, 8466013762179755822, 9984505570777641);
  (6126247286871372697, 9031338697584951, 25582595352272877389, 37713966245660954);
  (48499170548839728379, 89372093401529622, 2666020155706026399, 4912822212622763);
  (13001219845841427994, 14973790031448261, 17164690545744819593, 19768950547281038);
  (1767549829187607279, 2544657378903871, 39632030579052461023, 57056348504914208);
  (10754485842510663851, 19353401884036294, 14438772368270898586, 25983516873553233);
  (9280771232206569957, 10438347430143449, 15175629673422945533, 17068462419660388);
  (4389491051080666859, 6171231825228352, 15175629673422945533, 21335578024575485);
  (143352492642786898559, 251925979153432050, 13896300159170623170, 24421193937189661);
  (4389491051080666859, 4821274863459650, 22234080254672997072, 24421193937189661);
  (64889119343732791917, 89090134927758551, 8015733891653065457, 11005278252729918);
  (14733620289178825127, 25285830521601919, 30765088072484956041, 52799026153426714);
  (12046465730168521259, 12921335899578819, 147153283750276866682, 157840237182724423);
  (1890154148382781937, 2534282377950056, 44405554623908521162, 59538114741993983);
  (1890154148382781937, 3167852972437570, 35902474528803373317, 60171685336481497);
  (15495082300551018489, 16230866198784463, 7934465707019890741, 8311233767690538);
  (1437353496008472951, 1882007773624328, 20180991902065200335, 26424107740099329);
  (711808268448703524743, 1165013250281400886, 16144793521652160268, 26424107740099329);
  (122987901463758112627, 125808575480100614, 6170446709459169517, 6311963220396031);
  (17193044241400619105, 21984199039431107, 7488742596436058963, 9575617062549048);
  (13754435393120495284, 21984199039431107, 7488742596436058963, 11969521328186310);
  (4004025637960986321, 3999859593834488, 86011329317198044346, 85921837634148607);
  (4004025637960986321, 4999824492293110, 69609868581350632741, 86921802532607229);
  (8008051275921972642, 12499561230732775, 22238311539394872247, 34711208404790672);
  (10854103328616552563, 21177363331930443, 33092414868011424810, 64566373837918783);
  (4235620355014267601, 5165055352716679, 52947863788818279696, 64566373837918783);
  (172821660408229909108, 263430550704391811, 9742448686760802419, 14850329621300526);
  (12622461780079309613, 24050385597767092, 6862435593442295225, 13075438455484223);
  (7132513305325473433, 8493771770862321, 18112410254833145793, 21569210226346544);
  (9328492695227007905, 13886074327448957, 18112410254833145793, 26961512782933180);
  (7462794156181606324, 13886074327448957, 18112410254833145793, 33701890978666475);
  (6825429767687619695, 7937578664184528, 18749774643327132422, 21804899652137617);
  (1365085953537523939, 1984394666046132, 83189614294533673322, 120930866256964877);
  (1365085953537523939, 2480493332557665, 66005657054211929082, 119938668923941811);
  (10920687628300191512, 12402466662788325, 12382079838719871453, 14062148615783602);
  (21703186825527896639, 30809993409015466, 3060972851911846267, 4345378130443539);
  (3116248224340840821, 5529809287032097, 34057628978033270815, 60435555661442374);
  (13044022244288335805, 14466706066470418, 27246103182426616652, 30217777830721187);
  (5217608897715334322, 7233353033235209, 62318619711426234787, 86394474126655781);
  (9450233428119157195, 16376484892820902, 11420202162742180093, 19790280273355143);
  (7560186742495325756, 8188242446410451, 20950357639860528747, 22690789730091316);
  (18618363977912577853, 25206334743978938, 2331993661947950894, 3157152418635207);
  (2790875330803335213, 4723007476677131, 28864101963415150067, 48846814429915952);
  (21783861707334426381, 23040562887895613, 7080240256080723686, 7488696130801857);
  (2940724290250740539, 3887966689273439, 63609652507331781212, 84099080925290553);
  (77507872724898433670, 128092604732572549, 10957495927315911919, 18108795214367559);
  (18176314470655099260, 18774314330367377, 8282756001640499393, 8555258270183916);
  (14541051576524079408, 18774314330367377, 8282756001640499393, 10694072837729895);
  (2503318229953432006, 4040120746318741, 22823807578164578801, 36835483960121590);
  (29391223677760240166, 29646673343250563, 1560779639688797353, 1574344935276143);
  (34645156557436769258, 43682837547237773, 6814712519365326445, 8592427037269748);
  (163113591299462252234, 257080109403902731, 1362942503873065289, 2148106759317437);
  (24172474735879445655, 23811099983132773, 10903540030984522312, 10740533796587185);
  (19337979788703556524, 23811099983132773, 6069045083808633181, 7472892249950788);
  (14256574814201118583, 21942876920645076, 6069045083808633181, 9341115312438485);
  (24814440806928472561, 47741149923567368, 10557865992727353978, 20312553772761023);
  (2958967057179011684, 3558021189022661, 21855473749749460877, 26280197513206944);
  (11109363145642993698, 16698119945626133, 10746110604106467179, 16152126945882547);
  (4516395766564502783, 8485558222748963, 26371869516313963660, 49548366837134813);
  (8274813396430715617, 9716875813012454, 11306725943223875413, 13277163674707453);
  (30888265282878466443, 45339003953034200, 15223033811154793619, 22344964465314293);
  (176879064227551682, 324537511202807, 30711386218650914761, 56349217430089943);
  (6389907933648755307, 7327622501063699, 36924415088072118386, 42343047450368159);
  (16330754124722681107, 23409101239453513, 7101876514850340986, 10180089973588531);
  (8378077171863540467, 15011803436193002, 23432630639573022093, 41986489016302555);
  (59589544403720669210, 66732684383502083, 4346205952711084557, 4867195965503263);
  (7571702928033049285, 10599176138996442, 40099932594943486083, 56133508244505641);
  (3028681171213219714, 5299588069498221, 87771568117920021451, 153582740785009655);
  (36320099715653296466, 39720582213626969, 6045325172973769377, 6611320933067932);
  (26637949703333129422, 36414921747093003, 6045325172973769377, 8264151166334915);
  (4118524906071872009, 7037692645189522, 77722124470829413625, 132810760219138361);
  (16474099624287488036, 17594231612973805, 10496225257972405405, 11209900538567334);
  (47642914609736343639, 63602904974927347, 4198490103188962162, 5604950269283667);
  (7301393554965443402, 12184126544970839, 12047676983860646025, 20104438945694587);
  (4891858158193314197, 5102024222394951, 19276283174177033640, 20104438945694587);
  (62720707680724415117, 81769176324348390, 15421026539341626912, 20104438945694587);
  (37839744913106230564, 61664737378653803, 5961090311065069271, 9714364337454783);
  (14358320512372641359, 14624207721722241, 6324027154591757150, 6441135414609811);
  (15623125943290992789, 19890543505805254, 5059221723673405720, 6441135414609811);
  (13599437253821630501, 21642611674951662, 17646814632760355077, 28083747089561473);
  (9778613303868468131, 9726263231759326, 150953130365951308747, 150144998679566691);
  (19557226607736936262, 24315658079398315, 3665294983943408339, 4557090909528232);
  (14179663292612185674, 22037112624634199, 17844958276555594013, 27733476261544489);
  (32024621569167779687, 62213236107723360, 7871042307410919273, 15290829039999817);
  (216180935809641038, 262479986931023, 31808440633358138649, 38620792580396077);
  (32024621569167779687, 48604090709158875, 6231979565185843107, 9458338154900752);
  (26866093168371392371, 50968675247884063, 6231979565185843107, 11822922693625940);
  (12768103143436933547, 15139280267019334, 12463959130371686214, 14778653367032425);
  (78310636252726295459, 116067227919445657, 7539204280836061195, 11174146750271046);
  (161144795073954227635, 298548679861317427, 3015681712334424478, 5587073375135523);
  (17150550453118723137, 19858980685366169, 6974903245556672687, 8076386190311446);
  (8140517766049640360, 11782594495054723, 11045162128581492867, 15986779985416669);
  (6512414212839712288, 11782594495054723, 12673265681791420939, 22929123605534517);
  (2745590782691086370, 3104664969907413, 16440089111940046857, 18590158842960862);
  (2196472626152869096, 3104664969907413, 17538325425016481405, 24790031038654784);
  (2306306521181770540439, 4074890907429257945, 3507665085003296281, 6197507759663696);
  (3832501636341966693711, 4232152666830724231, 3507665085003296281, 3873442349789810);
  (1485997942397742507319, 2051196174056382798, 7015330170006592562, 9683605874474525);
  (13780249611282161959, 23776946853132187, 28061320680026370248, 48418029372372625);
  (13279428153820115629, 14320506991889960, 14080742485759389757, 15184642657998211);
  (25185073607979046737, 33949412063968912, 5952822727079465554, 8024389162053231);
  (10348785983123855599, 17437669885923453, 14836287624855191138, 24999095194037687);
  (50370147215958093474, 53045956349951425, 6832015378288343563, 7194951962023701);
  (11949640432437225114, 15730550231940161, 7689210540358074569, 10122104789089172);
  (11097554454021395005, 18261076429212454, 7689210540358074569, 12652630986361465);
  (8878043563217116004, 9130538214606227, 115256411166908704183, 118534343647271885);
  (56756216742624020878, 72962979145545283, 10622021244877778431, 13655144036257074);
  (20578082448074052665, 33067703563708373, 665960041681504197, 1070156526934312);
  (32924931916918484264, 33067703563708373, 665960041681504197, 668847829333945);
  (46228096692022178809, 58035693193823139, 6984562408392599371, 8768561762927552);
  (35585564871939223173, 55843552753091251, 6984562408392599371, 10960702203659440);
  (58333816276781276951, 57213640528548681, 6984562408392599371, 6850438877287150);
  (13555139138962871661, 16618552229021828, 27524263955748070403, 33744649422239703);
  (13555139138962871661, 20773190286277285, 16597355509013307658, 25435373307728789);
  (9627224763150122930, 18442098775551533, 12669441133200558927, 24269827552365913);
  (69123540523892868393, 82758998141975303, 10743996180570534341, 12863379873284754);
  (4012624612301971807, 6005204419454578, 21487992361141068682, 32158449683211885);
  (11002771711837610557, 20583128156196876, 68994152758259330285, 129068886044741687);
  (22005543423675221114, 25728910195246095, 181463647419411443, 212167534255606);
  (8765924639986206157, 12811413214059146, 44192550494769853671, 64587484905934745);
  (65303355089704513025, 119301200483505623, 15923835269910700237, 29090889149452586);
  (20395013531942209946, 23286988804937079, 1255150241908085555, 1433128229410114);
  (41543117209029271225, 59292318184400283, 502060096763234222, 716564114705057);
  (33234493767223416980, 59292318184400283, 8810683538569088467, 15718784689481392);
  (61985873566126555635, 69116558615326153, 8810683538569088467, 9824240430925870);
  (15983665887881533787, 22277978769005739, 33605032965019710721, 46838579846320414);
  (13114472948156555659, 22848634346082973, 185240322463448422373, 322734158730547792);
  (58031221209740173529, 63190404187401447, 11146658834227901786, 12137636644388029);
  (10755668698262853108, 14639857609849331, 13835576008793615063, 18832010207947369);
  (27055170555481077735, 46031987370343913, 1231962924212304782, 2096076299049019);
  (43288272888769724376, 46031987370343913, 6642997035308520329, 7064046108198626);
  (13329510934322777553, 17717959104022987, 13285994070617040658, 17660115270496565);
  (17406745482294758, 28921916763211, 26632911750422112969, 44251514884912651);
  (5350951793759635255, 5556746037781891, 26615505004939818211, 27639120605093400);
  (4280761435007708204, 5556746037781891, 26615505004939818211, 34548900756366750);
  (10460014722997213487, 16972344245764524, 14256998428960807645, 23133302548384117);
  (21865613466165859603, 22174366427794886, 945584020171432629, 958936120589231);
  (3994889085164598869, 5064123546654106, 39736337847167120337, 50371792522833109);
  (7989778170329197738, 12660308866635265, 15095557321833928361, 23919865374753028);
  (15449156929363715207, 15300103948850018, 14741957714304141515, 14599727769591267);
  (9552373843642058601, 11825266051266889, 11793566171443313212, 14599727769591267);
  (21345940015085371813, 33031242276072695, 5165664934137576207, 7993479314376728);
  (16043619025240782209, 31032872447478513, 5165664934137576207, 9991849142970910);
  (0, 0, 0, 0);
  (0, 0, 0, 0);
  (0, 0, 0, 0);
  (0, 0, 0, 0);
  (1758567283048045102487, 0, 0, 0);
  (5756158080670932900945, 0, 0, 0);
  (0, 0, 0, 0);
  (0, 0, 0, 0);
  (5638957567265121410605, 0, 0, 0);
  (5903545879274149478583, 0, 0, 0);
  (5857556903971960749561, 0, 0, 0);
  (7677374899369545787091, 0, 0, 0);
  (2023941374682551096169, 0, 0, 0);
  (6978018582115329709807, 0, 0, 0);
  (6173423653807564516379, 0, 0, 0);
  (5438103894683668290787, 0, 0, 0);
  (0, 0, 0, 0);
  (0, 0, 0, 0);
  (5373165339151210392103, 0, 0, 0);
  (0, 0, 0, 0);
  (0, 0, 0, 0);
  (5131448983948034702493, 0, 0, 0);
  (6948974513652742179723, 0, 0, 0);
  (6777554990888349610371, 0, 0, 0);
  (8167766518840865956339, 0, 0, 0);
  (0, 0, 0, 0);
  (0, 0, 0, 0);
  (0, 0, 0, 0);
  (0, 0, 0, 0);
  (0, 0, 0, 0);
  (0, 0, 0, 0);
  (0, 0, 0, 0);
  (0, 0, 0, 0);
  (0, 0, 0, 0);
  (0, 0, 0, 0);
  (0, 0, 0, 0);
  (0, 0, 0, 0);
  (0, 0, 0, 0);
  (0, 0, 0, 0);
  (0, 0, 0, 0);
  (0, 0, 0, 0);
  (0, 0, 0, 0);
  (0, 0, 0, 0);
  (0, 0, 0, 0);
  (0, 0, 0, 0);
  (0, 0, 0, 0);
  (0, 0, 0, 0);
  (0, 0, 0, 0);
  (0, 0, 0, 0);
  (0, 0, 0, 0);
  (0, 0, 0, 0);
  (0, 0, 0, 0);
  (0, 0, 0, 0);
  (0, 0, 0, 0);
  (0, 0, 0, 0);
  (0, 0, 0, 0);
  (0, 0, 0, 0);
  (0, 0, 0, 0);
  (0, 0, 0, 0);
  (0, 0, 0, 0);
  (0, 0, 0, 0);
  (0, 0, 0, 0);
  (0, 0, 0, 0);
  (0, 0, 0, 0);
  (0, 0, 0, 0);
  (0, 0, 0, 0);
  (0, 0, 0, 0);
  (0, 0, 0, 0);
  (0, 0, 0, 0);
  (0, 0, 0, 0);
  (0, 0, 0, 0);
  (0, 0, 0, 0);
  (0, 0, 0, 0);
  (0, 0, 0, 0);
  (0, 0, 0, 0);
  (0, 0, 0, 0);
  (0, 0, 0, 0);
  (0, 0, 0, 0);
  (0, 0, 0, 0);
  (0, 0, 0, 0);
  (0, 0, 0, 0);
  (0, 0, 0, 0);
  (0, 0, 0, 0);
  (6288322939696136407, 6261172756136599, 66102447903809911604, 65817046913508685);
  (33986966689159328330, 42300282590959241, 4416837465187391351, 5497209405138123);
  (27189573351327462664, 42300282590959241, 11214230803019257017, 17446582404162464);
  (26237351002269672938, 51023573793040473, 11214230803019257017, 21808228005203080);
  (37494069282423773894, 45571516791739703, 11214230803019257017, 13630142503251925);
  (20253595408850412933, 30771101967991796, 8201109267742205045, 12459870182755943);
  (20253595408850412933, 38463877459989745, 6560887414193764036, 12459870182755943);
  (228373266507648330, 271066727930479, 26814482823044176969, 31827342276716055);
  (182698613206118664, 271066727930479, 26768808169742647303, 39716411163912449);
  (10926761603744401318, 20264805673851943, 16024745179204364649, 29719541690951717);
  (3351107926405767861, 3884359416325514, 50551905639491764073, 58596074789679061);
  (6702215852811535722, 9710898540813785, 19550540670515552057, 28326947540758152);
  (9271880816352338989, 16792635426003323, 19550540670515552057, 35408684425947690);
  (7618860460644046007, 8624244409744292, 85821023142706254235, 97145955474613517);
  (7618860460644046007, 10780305512180365, 68656818514165003388, 97145955474613517);
  (30510271589923619758, 53963130493396941, 17414873673717865, 30801466247558);
  (61024026154581983089, 67457763300027121, 13931898938974292, 15400733123779);
  (12185300572401832609, 16837489542040167, 24426328740559562386, 33751982749699229);
  (7322325862592278999, 12647368072934849, 705458361557397406461, 1218491463802088612);
  (4348813440950649665, 4694635736338759, 18076597819929194109, 19514068209445162);
  (3479050752760519732, 4694635736338759, 16337072443548934243, 22045267393637073);
  (3963224639261890795, 6684975782493958, 548861695764146413962, 925793382432448241);
  (3170579711409512636, 3342487891246979, 1108027775590373743991, 1168104813687112983);
  (12682318845638050544, 16712439456234895, 208289120330154795727, 274478141992731606);
  (3998523778266022813, 6586442054874126, 42732227826020156550, 70389313171426223);
  (42182829817348170866, 43427709154305769, 13094367352142039807, 13480802008560227);
  (579945552184410289, 746325782156272, 55277197169490210673, 71135638953582495);
  (579945552184410289, 932907227695340, 43873790404281522365, 70575894616965291);
  (1159891104368820578, 1166134034619175, 34519086771240807603, 34704880291173058);
  (15663460475486435966, 19684708214824879, 5511948029005576827, 6927019020864502);
  (5162994584393459021, 8110599352196314, 26512879811191530717, 41649345608750197);
  (23275501682710608182, 22852322642424177, 1311761672568386049, 1287912130966696);
  (18095696677141132126, 22208366576940829, 1311761672568386049, 1609890163708370);
  (6451221667315421221, 9896765665689137, 15525966679767614540, 23818256740649199);
  (9556415003268944129, 18325521267273721, 12420773343814091632, 23818256740649199);
  (6499388666397096302, 7789576765292991, 15477799680685939459, 18550284489658834);
  (29468185952636830805, 44147363004842446, 495804469578349371, 742782739768213);
  (11787274381054732322, 22073681502421223, 6885246129684064903, 12893797600631144);
  (16105540557813945754, 18850232102263437, 6885246129684064903, 8058623500394465);
  (11040373560625180433, 16152329951796194, 112223814738747103912, 164186118717421919);
  (5896192483376988427, 10782837864117156, 16184554637873372439, 29597987015373329);
  (21202313187026481749, 24233976638789176, 9409928220272504895, 10755429308642731);
  (28730255763244485665, 41047900107129201, 7527942576218003916, 10755429308642731);
  (9710210881728687483, 17341638444543487, 13273993728866901049, 23706261662585714);
  (6538883098464855203, 7298692318959086, 170795870687834997850, 190642115897727833);
  (13077766196929710406, 18246730797397715, 9468400388950302313, 13210769360574199);
  (20202552753491655031, 35234471235589551, 8296593472756123469, 14469759719780078);
  (6206130035485975862, 6764915827959717, 19696251963255234869, 21469657563704956);
  (16782655206341921611, 22867159000738434, 2913596756913313258, 3969912953892761);
  (2191092338503059019, 3731833273238228, 31374218074180784203, 53436064228607857);
  (4382184677006118038, 4664791591547785, 23784719056242791951, 25318594636839593);
  (7386254617452229213, 9828242352870737, 34175043614141132339, 45473738512356234);
  (9789510569809118153, 16282555804524427, 9613023809427555760, 15989011453744023);
  (7866905807923607001, 8177970946109764, 54715367134702124221, 56878866184292843);
  (7866905807923607001, 10222463682637205, 45345674869346420777, 58923358920820284);
  (9811438965147372647, 15936551317706544, 11844745301399682710, 19239215777772937);
  (9811438965147372647, 9960344573566590, 9140153517092119689, 9278871204206347);
  (42096274729760034914, 53418948415895759, 5618349199866322405, 7129521745494821);
  (43219944569733299395, 68556065956243404, 4494679359893057924, 7129521745494821);
  (17287977827893319758, 17139016489060851, 9334728525625571817, 9254296119206627);
  (7953249302267747941, 9855900462317780, 10649082541407556630, 13196656304133739);
  (33511047401645883853, 51909844490298442, 8519266033126045304, 13196656304133739);
  (3294503067078758649, 6379132970507741, 57138585602055491759, 110637212314222882);
  (5703698828398446623, 6902530614872298, 14948626879833175946, 18090603622794109);
  (4724973520316576216632, 7147614942443396143, 7120190517612959703, 10770934465115129);
  (6553593841927154471, 12392282483131533, 28480762070451838812, 53854672325575645);
  (19256617438493320890, 22757879943742561, 2670550790031363451, 3156113707785009);
  (15405293950794656712, 22757879943742561, 14224521253127355985, 21013552092538182);
  (45035109154716669409, 83161639975029130, 5689808501250942394, 10506776046269091);
  (2179251629442203009, 2515122962176823, 58593977786660757206, 67624618004406393);
  (12154645883220592043, 17534935241645804, 234375911146643028824, 338123090022031965);
  (12154645883220592043, 21918669052057255, 182638870564026186242, 329355622401209063);
  (9340697927715706918, 10527644560765949, 14649411523008171571, 16510950116586721);
  (8534301061231058465, 12023470949721142, 13843014656523523118, 19502602894497107);
  (3413720424492423386, 6011735474860571, 39634050798770528087, 69797581398254766);
  (112606949265382158507, 123941606853169994, 6561321989957136263, 7221763806066703);
  (4149688281196450165, 5709228392059038, 30394976241024995217, 41818047422392553);
  (1659875312478580066, 2854614196029519, 63279765450767860533, 108827039850025661);
  (141539309429159305265, 152134967215311113, 11660027902666424067, 12532899657742138);
  (21635640063664449905, 29069109891122539, 1684415741668398229, 2263139253232806);
  (17308512050931559924, 29069109891122539, 10338671767134178191, 17363479012102277);
  (569764163969277993986, 598063291262054651, 5529436763613147623, 5804073612903102);
  (7834082395907922199, 10278983389098001, 11058873527226295246, 14510184032257755);
  (3778591184626843489, 6197291855338939, 48014085293532024473, 78748212016627714);
  (7022984153651706457, 7199026100103618, 16182761169711334998, 16588407076487459);
  (18564596258690433164, 23787433176591077, 2259313975693510125, 2894933963166016);
  (82843778142397071131, 132688102207993961, 451862795138702025, 723733490791504);
  (663834695847509453908, 664526111276157061, 90372559027740405, 90466686348938);
  (1327759764254046648221, 1661428361548328825, 36149023611096162, 45233343174469);
  (265457965389420479623, 415210082021765182, 144596094444384648, 226166715872345);
  (52918077764550834347, 51731635215816389, 1156768755555077184, 1130833579361725);
  (7576016788466966191, 9257699671028491, 12203091810687274927, 14911867567837116);
  (13382668517185937909, 20441600346906328, 12203091810687274927, 18639834459796395);
  (13382668517185937909, 25552000433632910, 17792074558861382687, 33971034719976141);
  (48966817634908703283, 58433793670990745, 8880592240214730986, 10597517251579843);
  (4465008182852902065, 6660310479062804, 57847409875123434269, 86289138653213235);
  (893001636570580413, 1665077619765701, 234961646046776058728, 438106003745128979);
  (7144013092564643304, 8325388098828505, 41455719062617613185, 48311074691549031);
  (15435156905088165941, 22484503796422889, 33164575250094090548, 48311074691549031);
  (2628179093034081455, 4785609174429909, 45971553062148175034, 83708863935534991);
  (4205086548854530328, 4785609174429909, 46497188880754991325, 52916241106513108);
  (667780990525987999862, 949962265236128935, 9299437776150998265, 13229060276628277);
  (669640878081218199515, 1190760096614318238, 7439550220920798612, 13229060276628277);
  (32543279338529774, 36167929443327, 29741929244013929561, 33054566726849029);
  (5954894504670491867, 8272683664073089, 303569446620840966121, 421726027220510904);
  (23819578018681967468, 41363418320365445, 3546902079331471301, 6159302836250658);
  (8818450791606492727, 9570941725560029, 102372116233390812474, 111107674346226935);
  (51530987443284116262, 69910249761453511, 8128592138429072677, 11027770566826683);
  (8680479060971008717, 14720619798656707, 145360596346339404029, 246506910216670606);
  (18243977198009115098, 19336681338444237, 7355950446870362221, 7796527488975412);
  (19008752026529509411, 25184076955175796, 7355950446870362221, 9745659361219265);
  (9322241263727317752, 15438417593956531, 9686510762802191659, 16041678600013214);
  (1791594352930488769, 1854394573487481, 47704014815861210481, 49376169367470440);
  (39596487335033359400, 51230563940957921, 8107527480827851081, 10489647768380129);
  (31677189868026687520, 51230563940957921, 188230013821179201, 304418725235681);
  (12294415919568316606, 12427117578694879, 6900128015068875107, 6974605602436642);
  (3537740764813551621, 4469907388738279, 27951219089391956698, 35316143561044721);
  (34956559213195768686, 55209169035936221, 3467599358990260367, 5476605348707471);
  (4910752227244997517, 4847419123726726, 86669821598862053140, 85552056228258067);
  (9821504454489995034, 12118547809316815, 29757176412299823739, 36716754209470626);
  (5834370062928029293, 8998633161607566, 15948537566247862964, 24598206400153811);
  (27306363167596676567, 52644917633043957, 5212541013913539327, 10049444909675014);
  (3624987847559715569, 4367965112295352, 28100139750773588446, 33859542498778239);
  (3624987847559715569, 5459956390369190, 21755114231106927643, 32767551220704401);
  (327769446601579712952, 617107891046035907, 9427043261954714171, 17748764707944498);
  (2029163251313659242, 2387754310975363, 17839504898252598721, 20992078729442941);
  (19868668149566257963, 29224791300522880, 2350403028862324199, 3457203949129213);
  (6067144836736643826, 11155191701132227, 13801523312829614137, 25375797424521373);
  (5733698108865378529, 6588818060425527, 14134970040700879434, 16243050143107973);
  (19868668149566257963, 28539835254416875, 3360508772734200362, 4827116041341223);
  (109424867066033890901, 196475655495135055, 9291670768920183330, 16683475647879049);
  (14649825223048020935, 16440127429230472, 14866673230272293328, 16683475647879049);
  (2929965044609604187, 4110031857307618, 68256588054917985873, 95747473811318099);
  (5859930089219208374, 10275079643269045, 25544656195201431837, 44791213012678336);
  (4266956903710447031, 4676178016684253, 25544656195201431837, 27994508132923960);
  (18740359240089216727, 25672059116377223, 6804296955112215110, 9321076049777727);
  (22822937413156545793, 39080880932804824, 5443437564089772088, 9321076049777727);
  (4984262345350292135, 5334254300024082, 17838675067806253658, 19091296282978933);
  (1993704938140116854, 2667127150012041, 42655317419102916305, 57063185732489476);
  (204189279880433882419, 341448953711874692, 8531063483820583261, 14265796433122369);
  (34013005189030309875, 35548220997423152, 222497492504046338, 232540170765541);
  (6802601037806061975, 8887055249355788, 1456646612060513448002, 1902992524215966337);
  (1360520207561212395, 2221763812338947, 5915020261733532597683, 9659377268881863240);
  (2176832332097939832, 2221763812338947, 6141410824271718340211, 6268174229534415013);
  (8707329328391759328, 11108819061694735, 1209561406798301385487, 1543159596400960073);
  (151473969630632221, 241563293652023, 34677843343936405091, 55302532014821652);
  (7056747844491786795, 7033598148678718, 83469182376856383772, 83195361315884501);
  (2822699137796714718, 3516799074339359, 176817811736001269057, 220297200049899009);
  (11290796551186858872, 17583995371696795, 24637305623572737883, 38369504409362797);
  (7185620434951919351, 13988374945264898, 3296150316047895062727, 6416674372689693595);
  (2256909525004751623, 2745978664881759, 26485572214802925781, 32224958698280486);
  (35393741897771113534, 53829395377184247, 4394350632958684507, 6683250342129242);
  (15036366885700182315, 28585510274124434, 8788701265917369014, 16708125855323105);
  (12029093508560145852, 14292755137062217, 688199365634062869277, 817706256210372479);
  (48116374034240583408, 71463775685311085, 14943119339499086165, 22193936055049853);
  (9264263751542959379, 17199427427726834, 11954495471599268932, 22193936055049853);
  (72204400266145225880, 83781235592876393, 2928945438331115697, 3398555585296609);
  (11511934614897929479, 16697114416598337, 46251585598018251225, 67084121176278056);
  (619567399875018033106, 1123289450315301553, 9250317119603650245, 16771030294069514);
  (1229884482630432415967, 1393629918960333495, 7400253695682920196, 8385515147034757);
  (28409437873008629431, 40239798086556054, 1191576909723051353, 1687777648617731);
  (5205256810712505345, 9216060697330148, 35997848503167237482, 63735252427069543);
  (2082102724285002138, 2304015174332537, 161689267169091468101, 178922260049500422);
  (8328410897140008552, 11520075871662685, 31505012344104292765, 43578557425208837);
  (2027408428319149999, 3505455483276147, 25204009875283434212, 43578557425208837);
  (27231418303602584211, 29427508067803115, 7648713836130393686, 8265547743845099);
  (3916540893494438105, 5290490080989504, 73676805172960393899, 99523129610110039);
  (783308178698887621, 1322622520247376, 304890227014927114669, 514809740813766083);
  (783308178698887621, 826639075154610, 488294348131102716043, 515305724258858849);
  (1566616357397775242, 2066597687886525, 195161077616701308893, 257446202360640772);
  (6266465429591100968, 10332988439432625, 37778922437422041585, 62294952902273668);
  (727753819054414377353, 750011298587512953, 15111568974968816634, 15573738225568417);
  (7004030892351998222, 9022800992898677, 26721122503761634157, 34422945067471704);
  (10947449214633925409, 17628537259766603, 26721122503761634157, 43028681334339630);
  (19446408373211793990, 19571438963468209, 4826224074493783339, 4857254259254015);
  (15557126698569435192, 19571438963468209, 8715505749136142137, 10964427564934571);
  (2736648379773317222, 4303505699266819, 27009280827478894551, 42473338859770294);
  (12993031034810211598, 12770087564575983, 8542953033122048509, 8396367098696927);
  (12174456028523434514, 14956947797515511, 7724378026835271425, 9489797215166691);
  (16809082844624597369, 25813532658269407, 6179502421468217140, 9489797215166691);
  (15573182360330953941, 29894466519045086, 4943601937174573712, 9489797215166691);
  (56606750955342009247, 67914371242167900, 10184154493872040546, 12218515237344617);
  (14495376787039171262, 21738670383739333, 13120620594224495461, 19676952901491876);
  (3723929073096639733, 6980955707620426, 16844549667321135194, 31577146834485271);
  (61385164616975414645, 71921199841044413, 11986068104618252262, 14043334490337529);
  (290964818776830667, 426131847339192, 48817166874803501049, 71495067993705221);
  (290964818776830667, 532664809173990, 39170119427353533106, 71708133917374817);
  (16191784444739708443, 18526281389664443, 15027925169632385775, 17194619366729468);
  (106845328253929513942, 152812574731875353, 3005585033926477155, 4298654841682367);
  (107446445260714809373, 192090382125264783, 2404468027141181724, 4298654841682367);
  (13314097759862944013, 14876656227083068, 5921646457266509779, 6616617981328767);
  (13314097759862944013, 18595820283853835, 12725775821730974231, 17774110151641068);
  (5560967879197965518, 9708765208033301, 18286743700928939749, 31926402897584636);
  (30050215484658888063, 32789985139403207, 6523271917198991435, 7118018482577588);
  (130638097006153938548, 178185962662171211, 1304654383439798287, 1779504620644397);
  (21169932744159554219, 36093843717481917, 5218617533759193148, 8897523103221985);
  (13745683153247571161, 14647381781958467, 9334419038941991341, 9946744578050486);
  (14627935976108687125, 19484386528425079, 11098924684664223269, 14783749324517098);
  (11702348780886949700, 19484386528425079, 28652447855994647819, 47706266448283991);
  (1773658974311421401, 1845711578513259, 16950099075107698119, 17638674949911820);
  (14979006439535295616, 19484386528425079, 31929105514642993735, 41532730215814854);
  (10800549570284794991, 17561418659201557, 12771642205857197494, 20766365107907427);
  (4714438355228398497, 4790972970888623, 102173137646857579952, 103831825539537135);
  (18857753420913593988, 23954864854443115, 633986437412242303, 805348287719013);
  (7289506793400540674, 11574758283362051, 19491739858325836291, 30950266427702660);
  (1933257463055265281, 1918595838218193, 38983479716651672582, 38687833034628325);
  (8956650421163493685, 11110905137320726, 54963523095923394671, 68183356770154117);
  (3582660168465397474, 5555452568660363, 111718376276079488079, 173236118209715474);
  (14330640673861589896, 27777262843301815, 18044483053057420647, 34975850699438324);
  (8493438635732607316, 10289337493582653, 13797763735191116989, 16715237940357626);
  (17832961896738979444, 27004575433940279, 4881282786821627267, 7391759708476893);
  (9723520580679062213, 18405491648335986, 32437765264239668924, 61400910576357451);
  (8416639171798069299, 9957323372372618, 22060803979120110254, 26099082376094729);
  (13874305094726885681, 20517533717326828, 10915331845857632764, 16141759003722111);
  (13874305094726885681, 25646917146658535, 5957404457740729075, 11012375574390404);
  (66220548402840855059, 76506215387835542, 2382961783096291630, 2753093893597601);
  (65267363689602338407, 94256222287995627, 1906369426477033304, 2753093893597601);
  (11909651082034247699, 21499235151800706, 7625477705908133216, 13765469467988005);
  (8191199133714590666, 9241691629856527, 19723702597211200065, 22253198124822619);
  (4246458614272350653, 5988815006115004, 15778962077768960052, 22253198124822619);
  (39568092432354444386, 69754001877525359, 11773877939360697911, 20755994373293868);
  (10461493655034299269, 11526507268807078, 23547755878721395822, 25944992966617335);
  (42903398171513693963, 59088877170338389, 7326803620481698475, 10090869666106898);
  (93133599963509086401, 160335780008479595, 2930721448192679390, 5045434833053449);
  (89030589936039335255, 95795107026377979, 4689154317108287024, 5045434833053449);
  (3738655035883005979, 5028396132644061, 22495272304316154075, 30255570297911306);
  (173942325123705552113, 292435015587289733, 8998108921726461630, 15127785148955653);
  (6577499179593365795, 6911382385446617, 14396974274762338608, 15127785148955653);
  (31424948221362023534, 41275154065112441, 13081474438843665449, 17181885839832912);
  (27756253464858351917, 45570625525070669, 13081474438843665449, 21477357299791140);
  (3890938557505549905, 3992625125218087, 30053887435192880803, 30839321749957012);
  (3112750846004439924, 3992625125218087, 30053887435192880803, 38549152187446265);
  (15756855989282480230, 25263513781550263, 17409782291914840497, 27913707859280177);
  (33166638281197320727, 33235763525519025, 7955668698345352359, 7972249743968762);
  (11675521572809857819, 14624819326767322, 50937902115120278175, 63805082340223871);
  (32050682418857969089, 50183565328571088, 8699639273238253451, 13621517011652783);
  (32050682418857969089, 31364728330356930, 1099149869638017886, 1075625679510011);
  (18790749503459574299, 22985733408012692, 7729116327337215281, 9454620601854249);
  (18790749503459574299, 28732166760015865, 2425143161177857365, 3708187249851076);
  (80498312968429583399, 153858348737169784, 485028632235571473, 927046812462769);
  (15323616782109002323, 18305246779683454, 3880229057884571784, 4635234062313845);
  (1512631733267971751, 2258694663763941, 29134601830950032895, 43504422285444694);
  (8852183832725950081, 16522842230771026, 11653840732380013158, 21752211142722347);
  (43724263403113237385, 51007830349971659, 5782199052813630494, 6745395013668417);
  (5925307255618033966, 8640427640814787, 14527051733436277971, 21183701354578436);
  (7645656151181682767, 13936352979459396, 14527051733436277971, 26479626693223045);
  (16209035077458032037, 18465945713908796, 227844213859507115021, 259568744484307695);
  (16209035077458032037, 23082432142385995, 13701406282042158832, 19511450203493347);
  (501525759083174641, 892745484723162, 63833088791665778866, 113626669742483651);
  (2006103036332698564, 2231863711807905, 24831099453949867049, 27625515136488146);
  (15701100886902999655, 21835068208270062, 112466602455511732718, 156404060674300613);
  (6280440354761199862, 10917534104135031, 240634305797926465091, 418303986946089110);
  (24726246955644625381, 26864123886717836, 791028926800348134, 859422747239483)].
