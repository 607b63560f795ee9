(** Validation of the model, continued: the long list of string_test.cpp
    (see Conformance.v), on x86-64. *)
From Coq Require Import ZArith List String Bool.
From Verif Require Import Machine Config Chars Format FromChars Props_Pow10 Conformance.
Import ListNotations.
Open Scope Z_scope.

(** string_test.cpp, partow_test() *)
Definition partow : list fcase := [
  fc F32 (txt "9007199254740993") f_general 46 (Bits 1509949440) Success 0;
  fc F32 (txt "9007199254740994") f_general 46 (Bits 1509949440) Success 0;
  fc F32 (txt "9007199254740995") f_general 46 (Bits 1509949440) Success 0;
  fc F32 (txt "0") f_general 46 (Bits 0) Success 0;
  fc F32 (txt "1") f_general 46 (Bits 1065353216) Success 0;
  fc F32 (txt "2") f_general 46 (Bits 1073741824) Success 0;
  fc F32 (txt "3") f_general 46 (Bits 1077936128) Success 0;
  fc F32 (txt "4") f_general 46 (Bits 1082130432) Success 0;
  fc F32 (txt "5") f_general 46 (Bits 1084227584) Success 0;
  fc F32 (txt "6") f_general 46 (Bits 1086324736) Success 0;
  fc F32 (txt "7") f_general 46 (Bits 1088421888) Success 0;
  fc F32 (txt "8") f_general 46 (Bits 1090519040) Success 0;
  fc F32 (txt "9") f_general 46 (Bits 1091567616) Success 0;
  fc F32 (txt "917049") f_general 46 (Bits 1231020944) Success 0;
  fc F32 (txt "4931205") f_general 46 (Bits 1251376394) Success 0;
  fc F32 (txt "6768064") f_general 46 (Bits 1255050112) Success 0;
  fc F32 (txt "6884243") f_general 46 (Bits 1255282470) Success 0;
  fc F32 (txt "5647132") f_general 46 (Bits 1252808248) Success 0;
  fc F32 (txt "7371203") f_general 46 (Bits 1256256390) Success 0;
  fc F32 (txt "-8629878") f_general 46 (Bits 3406016118) Success 0;
  fc F32 (txt "4941840") f_general 46 (Bits 1251397664) Success 0;
  fc F32 (txt "4543268") f_general 46 (Bits 1250600520) Success 0;
  fc F32 (txt "1075600") f_general 46 (Bits 1233341568) Success 0;
  fc F32 (txt "290") f_general 46 (Bits 1133576192) Success 0;
  fc F32 (txt "823") f_general 46 (Bits 1145946112) Success 0;
  fc F32 (txt "111") f_general 46 (Bits 1121845248) Success 0;
  fc F32 (txt "715") f_general 46 (Bits 1144176640) Success 0;
  fc F32 (txt "-866") f_general 46 (Bits 3294134272) Success 0;
  fc F32 (txt "367") f_general 46 (Bits 1136099328) Success 0;
  fc F32 (txt "666") f_general 46 (Bits 1143373824) Success 0;
  fc F32 (txt "-706") f_general 46 (Bits 3291512832) Success 0;
  fc F32 (txt "850") f_general 46 (Bits 1146388480) Success 0;
  fc F32 (txt "-161") f_general 46 (Bits 3273719808) Success 0;
  fc F32 (txt "9922547") f_general 46 (Bits 1259825139) Success 0;
  fc F32 (txt "6960207") f_general 46 (Bits 1255434398) Success 0;
  fc F32 (txt "1883152") f_general 46 (Bits 1239801984) Success 0;
  fc F32 (txt "2300759") f_general 46 (Bits 1242328412) Success 0;
  fc F32 (txt "-279294") f_general 46 (Bits 3364380608) Success 0;
  fc F32 (txt "4187292") f_general 46 (Bits 1249874544) Success 0;
  fc F32 (txt "3699841") f_general 46 (Bits 1247924740) Success 0;
  fc F32 (txt "8386395") f_general 46 (Bits 1258286774) Success 0;
  fc F32 (txt "-1441129") f_general 46 (Bits 3383749448) Success 0;
  fc F32 (txt "-887892") f_general 46 (Bits 3378038080) Success 0;
  fc F32 (txt "-635422") f_general 46 (Bits 3373998560) Success 0;
  fc F32 (txt "9742573") f_general 46 (Bits 1259645165) Success 0;
  fc F32 (txt "2326186") f_general 46 (Bits 1242430120) Success 0;
  fc F32 (txt "-5903851") f_general 46 (Bits 3400805334) Success 0;
  fc F32 (txt "5648486") f_general 46 (Bits 1252810956) Success 0;
  fc F32 (txt "3057647") f_general 46 (Bits 1245355964) Success 0;
  fc F32 (txt "2980079") f_general 46 (Bits 1245045692) Success 0;
  fc F32 (txt "2957468") f_general 46 (Bits 1244955248) Success 0;
  fc F32 (txt "7929158") f_general 46 (Bits 1257372300) Success 0;
  fc F32 (txt "1925615") f_general 46 (Bits 1240141688) Success 0;
  fc F32 (txt "879") f_general 46 (Bits 1146863616) Success 0;
  fc F32 (txt "130") f_general 46 (Bits 1124204544) Success 0;
  fc F32 (txt "292") f_general 46 (Bits 1133641728) Success 0;
  fc F32 (txt "705") f_general 46 (Bits 1144012800) Success 0;
  fc F32 (txt "817") f_general 46 (Bits 1145847808) Success 0;
  fc F32 (txt "446") f_general 46 (Bits 1138688000) Success 0;
  fc F32 (txt "576") f_general 46 (Bits 1141899264) Success 0;
  fc F32 (txt "750") f_general 46 (Bits 1144750080) Success 0;
  fc F32 (txt "523") f_general 46 (Bits 1141030912) Success 0;
  fc F32 (txt "-527") f_general 46 (Bits 3288580096) Success 0;
  fc F32 (txt "4365041") f_general 46 (Bits 1250244066) Success 0;
  fc F32 (txt "5624958") f_general 46 (Bits 1252763900) Success 0;
  fc F32 (txt "8990205") f_general 46 (Bits 1258892797) Success 0;
  fc F32 (txt "2652177") f_general 46 (Bits 1243734084) Success 0;
  fc F32 (txt "3993588") f_general 46 (Bits 1249099728) Success 0;
  fc F32 (txt "-298316") f_general 46 (Bits 3364989312) Success 0;
  fc F32 (txt "2901599") f_general 46 (Bits 1244731772) Success 0;
  fc F32 (txt "3887387") f_general 46 (Bits 1248674924) Success 0;
  fc F32 (txt "-5202979") f_general 46 (Bits 3399403590) Success 0;
  fc F32 (txt "1196268") f_general 46 (Bits 1234306912) Success 0;
  fc F32 (txt "5968501") f_general 46 (Bits 1253450986) Success 0;
  fc F32 (txt "7619928") f_general 46 (Bits 1256753840) Success 0;
  fc F32 (txt "3565643") f_general 46 (Bits 1247387948) Success 0;
  fc F32 (txt "1885272") f_general 46 (Bits 1239818944) Success 0;
  fc F32 (txt "-749485") f_general 46 (Bits 3375823568) Success 0;
  fc F32 (txt "2961381") f_general 46 (Bits 1244970900) Success 0;
  fc F32 (txt "2982579") f_general 46 (Bits 1245055692) Success 0;
  fc F32 (txt "2387454") f_general 46 (Bits 1242675192) Success 0;
  fc F32 (txt "4250081") f_general 46 (Bits 1250014146) Success 0;
  fc F32 (txt "5958205") f_general 46 (Bits 1253430394) Success 0;
  fc F32 (txt "00000") f_general 46 (Bits 0) Success 0;
  fc F32 (txt "00001") f_general 46 (Bits 1065353216) Success 0;
  fc F32 (txt "00002") f_general 46 (Bits 1073741824) Success 0;
  fc F32 (txt "00003") f_general 46 (Bits 1077936128) Success 0;
  fc F32 (txt "00004") f_general 46 (Bits 1082130432) Success 0;
  fc F32 (txt "00005") f_general 46 (Bits 1084227584) Success 0;
  fc F32 (txt "00006") f_general 46 (Bits 1086324736) Success 0;
  fc F32 (txt "00007") f_general 46 (Bits 1088421888) Success 0;
  fc F32 (txt "00008") f_general 46 (Bits 1090519040) Success 0;
  fc F32 (txt "00009") f_general 46 (Bits 1091567616) Success 0;
  fc F32 (txt "4907034") f_general 46 (Bits 1251328052) Success 0;
  fc F32 (txt "2592882") f_general 46 (Bits 1243496904) Success 0;
  fc F32 (txt "3269234") f_general 46 (Bits 1246202312) Success 0;
  fc F32 (txt "549815") f_general 46 (Bits 1225145200) Success 0;
  fc F32 (txt "6256292") f_general 46 (Bits 1254026568) Success 0;
  fc F32 (txt "9721039") f_general 46 (Bits 1259623631) Success 0;
  fc F32 (txt "-595225") f_general 46 (Bits 3373355408) Success 0;
  fc F32 (txt "5587491") f_general 46 (Bits 1252688966) Success 0;
  fc F32 (txt "4596297") f_general 46 (Bits 1250706578) Success 0;
  fc F32 (txt "-3885009") f_general 46 (Bits 3396149060) Success 0;
  fc F32 (txt "673") f_general 46 (Bits 1143488512) Success 0;
  fc F32 (txt "-899") f_general 46 (Bits 3294674944) Success 0;
  fc F32 (txt "174") f_general 46 (Bits 1127088128) Success 0;
  fc F32 (txt "354") f_general 46 (Bits 1135673344) Success 0;
  fc F32 (txt "870") f_general 46 (Bits 1146716160) Success 0;
  fc F32 (txt "147") f_general 46 (Bits 1125318656) Success 0;
  fc F32 (txt "898") f_general 46 (Bits 1147174912) Success 0;
  fc F32 (txt "-510") f_general 46 (Bits 3288268800) Success 0;
  fc F32 (txt "369") f_general 46 (Bits 1136164864) Success 0;
  fc F32 (txt "859") f_general 46 (Bits 1146535936) Success 0;
  fc F32 (txt "6518423") f_general 46 (Bits 1254550830) Success 0;
  fc F32 (txt "5149762") f_general 46 (Bits 1251813508) Success 0;
  fc F32 (txt "8834164") f_general 46 (Bits 1258736756) Success 0;
  fc F32 (txt "-8085586") f_general 46 (Bits 3405168804) Success 0;
  fc F32 (txt "3233120") f_general 46 (Bits 1246057856) Success 0;
  fc F32 (txt "8166948") f_general 46 (Bits 1257847880) Success 0;
  fc F32 (txt "4172345") f_general 46 (Bits 1249814756) Success 0;
  fc F32 (txt "6735549") f_general 46 (Bits 1254985082) Success 0;
  fc F32 (txt "-934295") f_general 46 (Bits 3378780528) Success 0;
  fc F32 (txt "9481935") f_general 46 (Bits 1259384527) Success 0;
  fc F32 (txt "-430406") f_general 46 (Bits 3369216192) Success 0;
  fc F32 (txt "6932717") f_general 46 (Bits 1255379418) Success 0;
  fc F32 (txt "4087292") f_general 46 (Bits 1249474544) Success 0;
  fc F32 (txt "4047263") f_general 46 (Bits 1249314428) Success 0;
  fc F32 (txt "3236400") f_general 46 (Bits 1246070976) Success 0;
  fc F32 (txt "-3863050") f_general 46 (Bits 3396061224) Success 0;
  fc F32 (txt "4312079") f_general 46 (Bits 1250138142) Success 0;
  fc F32 (txt "6956261") f_general 46 (Bits 1255426506) Success 0;
  fc F32 (txt "5689446") f_general 46 (Bits 1252892876) Success 0;
  fc F32 (txt "3871332") f_general 46 (Bits 1248610704) Success 0;
  fc F32 (txt "535") f_general 46 (Bits 1141227520) Success 0;
  fc F32 (txt "691") f_general 46 (Bits 1143783424) Success 0;
  fc F32 (txt "326") f_general 46 (Bits 1134755840) Success 0;
  fc F32 (txt "-409") f_general 46 (Bits 3284959232) Success 0;
  fc F32 (txt "704") f_general 46 (Bits 1143996416) Success 0;
  fc F32 (txt "-568") f_general 46 (Bits 3289251840) Success 0;
  fc F32 (txt "301") f_general 46 (Bits 1133936640) Success 0;
  fc F32 (txt "951") f_general 46 (Bits 1148043264) Success 0;
  fc F32 (txt "121") f_general 46 (Bits 1123155968) Success 0;
  fc F32 (txt "384") f_general 46 (Bits 1136656384) Success 0;
  fc F32 (txt "4969414") f_general 46 (Bits 1251452812) Success 0;
  fc F32 (txt "9378599") f_general 46 (Bits 1259281191) Success 0;
  fc F32 (txt "7971781") f_general 46 (Bits 1257457546) Success 0;
  fc F32 (txt "5380630") f_general 46 (Bits 1252275244) Success 0;
  fc F32 (txt "5001363") f_general 46 (Bits 1251516710) Success 0;
  fc F32 (txt "1715827") f_general 46 (Bits 1238463384) Success 0;
  fc F32 (txt "6044615") f_general 46 (Bits 1253603214) Success 0;
  fc F32 (txt "9118925") f_general 46 (Bits 1259021517) Success 0;
  fc F32 (txt "9956168") f_general 46 (Bits 1259858760) Success 0;
  fc F32 (txt "-8865496") f_general 46 (Bits 3406251736) Success 0;
  fc F32 (txt "5962464") f_general 46 (Bits 1253438912) Success 0;
  fc F32 (txt "7408980") f_general 46 (Bits 1256331944) Success 0;
  fc F32 (txt "6646513") f_general 46 (Bits 1254807010) Success 0;
  fc F32 (txt "-634564") f_general 46 (Bits 3373984832) Success 0;
  fc F32 (txt "4188330") f_general 46 (Bits 1249878696) Success 0;
  fc F32 (txt "9805948") f_general 46 (Bits 1259708540) Success 0;
  fc F32 (txt "5625691") f_general 46 (Bits 1252765366) Success 0;
  fc F32 (txt "7641113") f_general 46 (Bits 1256796210) Success 0;
  fc F32 (txt "-4212929") f_general 46 (Bits 3397423490) Success 0;
  fc F32 (txt "7802447") f_general 46 (Bits 1257118878) Success 0;
  fc F32 (txt "0") f_general 46 (Bits 0) Success 0;
  fc F32 (txt "1") f_general 46 (Bits 1065353216) Success 0;
  fc F32 (txt "2") f_general 46 (Bits 1073741824) Success 0;
  fc F32 (txt "3") f_general 46 (Bits 1077936128) Success 0;
  fc F32 (txt "4") f_general 46 (Bits 1082130432) Success 0;
  fc F32 (txt "5") f_general 46 (Bits 1084227584) Success 0;
  fc F32 (txt "6") f_general 46 (Bits 1086324736) Success 0;
  fc F32 (txt "7") f_general 46 (Bits 1088421888) Success 0;
  fc F32 (txt "8") f_general 46 (Bits 1090519040) Success 0;
  fc F32 (txt "9") f_general 46 (Bits 1091567616) Success 0;
  fc F32 (txt "2174248") f_general 46 (Bits 1241822368) Success 0;
  fc F32 (txt "7449361") f_general 46 (Bits 1256412706) Success 0;
  fc F32 (txt "9896659") f_general 46 (Bits 1259799251) Success 0;
  fc F32 (txt "-25961") f_general 46 (Bits 3335180800) Success 0;
  fc F32 (txt "1706598") f_general 46 (Bits 1238389552) Success 0;
  fc F32 (txt "2412368") f_general 46 (Bits 1242774848) Success 0;
  fc F32 (txt "-4617035") f_general 46 (Bits 3398231702) Success 0;
  fc F32 (txt "6314554") f_general 46 (Bits 1254143092) Success 0;
  fc F32 (txt "2225957") f_general 46 (Bits 1242029204) Success 0;
  fc F32 (txt "7521434") f_general 46 (Bits 1256556852) Success 0;
  fc F32 (txt "-9530566") f_general 46 (Bits 3406916806) Success 0;
  fc F32 (txt "3914164") f_general 46 (Bits 1248782032) Success 0;
  fc F32 (txt "2394759") f_general 46 (Bits 1242704412) Success 0;
  fc F32 (txt "7157744") f_general 46 (Bits 1255829472) Success 0;
  fc F32 (txt "9919392") f_general 46 (Bits 1259821984) Success 0;
  fc F32 (txt "6406949") f_general 46 (Bits 1254327882) Success 0;
  fc F32 (txt "-744004") f_general 46 (Bits 3375735872) Success 0;
  fc F32 (txt "9899789") f_general 46 (Bits 1259802381) Success 0;
  fc F32 (txt "8380325") f_general 46 (Bits 1258274634) Success 0;
  fc F32 (txt "-1416284") f_general 46 (Bits 3383550688) Success 0;
  fc F32 (txt "3402833") f_general 46 (Bits 1246736708) Success 0;
  fc F32 (txt "2150043") f_general 46 (Bits 1241725548) Success 0;
  fc F32 (txt "5191009") f_general 46 (Bits 1251896002) Success 0;
  fc F32 (txt "8979538") f_general 46 (Bits 1258882130) Success 0;
  fc F32 (txt "9565778") f_general 46 (Bits 1259468370) Success 0;
  fc F32 (txt "3750211") f_general 46 (Bits 1248126220) Success 0;
  fc F32 (txt "7304823") f_general 46 (Bits 1256123630) Success 0;
  fc F32 (txt "2829359") f_general 46 (Bits 1244442812) Success 0;
  fc F32 (txt "6544236") f_general 46 (Bits 1254602456) Success 0;
  fc F32 (txt "-615740") f_general 46 (Bits 3373683648) Success 0;
  fc F32 (txt "363") f_general 46 (Bits 1135968256) Success 0;
  fc F32 (txt "-627") f_general 46 (Bits 3290218496) Success 0;
  fc F32 (txt "129") f_general 46 (Bits 1124139008) Success 0;
  fc F32 (txt "656") f_general 46 (Bits 1143209984) Success 0;
  fc F32 (txt "135") f_general 46 (Bits 1124532224) Success 0;
  fc F32 (txt "113") f_general 46 (Bits 1122107392) Success 0;
  fc F32 (txt "381") f_general 46 (Bits 1136558080) Success 0;
  fc F32 (txt "646") f_general 46 (Bits 1143046144) Success 0;
  fc F32 (txt "198") f_general 46 (Bits 1128660992) Success 0;
  fc F32 (txt "38") f_general 46 (Bits 1108869120) Success 0;
  fc F32 (txt "8060564") f_general 46 (Bits 1257635112) Success 0;
  fc F32 (txt "-176752") f_general 46 (Bits 3358366720) Success 0;
  fc F32 (txt "1184717") f_general 46 (Bits 1234214504) Success 0;
  fc F32 (txt "-666343") f_general 46 (Bits 3374493296) Success 0;
  fc F32 (txt "-1273292") f_general 46 (Bits 3382406752) Success 0;
  fc F32 (txt "-485827") f_general 46 (Bits 3370989664) Success 0;
  fc F32 (txt "6241066") f_general 46 (Bits 1253996116) Success 0;
  fc F32 (txt "6579411") f_general 46 (Bits 1254672806) Success 0;
  fc F32 (txt "8093119") f_general 46 (Bits 1257700222) Success 0;
  fc F32 (txt "7481306") f_general 46 (Bits 1256476596) Success 0;
  fc F32 (txt "-4924485") f_general 46 (Bits 3398846602) Success 0;
  fc F32 (txt "7467889") f_general 46 (Bits 1256449762) Success 0;
  fc F32 (txt "9813178") f_general 46 (Bits 1259715770) Success 0;
  fc F32 (txt "7927100") f_general 46 (Bits 1257368184) Success 0;
  fc F32 (txt "3614859") f_general 46 (Bits 1247584812) Success 0;
  fc F32 (txt "7293354") f_general 46 (Bits 1256100692) Success 0;
  fc F32 (txt "9232973") f_general 46 (Bits 1259135565) Success 0;
  fc F32 (txt "4323115") f_general 46 (Bits 1250160214) Success 0;
  fc F32 (txt "1133911") f_general 46 (Bits 1233808056) Success 0;
  fc F32 (txt "9511638") f_general 46 (Bits 1259414230) Success 0;
  fc F32 (txt "4443188") f_general 46 (Bits 1250400360) Success 0;
  fc F32 (txt "2289448") f_general 46 (Bits 1242283168) Success 0;
  fc F32 (txt "5639726") f_general 46 (Bits 1252793436) Success 0;
  fc F32 (txt "9073898") f_general 46 (Bits 1258976490) Success 0;
  fc F32 (txt "8540394") f_general 46 (Bits 1258442986) Success 0;
  fc F32 (txt "5389992") f_general 46 (Bits 1252293968) Success 0;
  fc F32 (txt "1397726") f_general 46 (Bits 1235918576) Success 0;
  fc F32 (txt "-589230") f_general 46 (Bits 3373259488) Success 0;
  fc F32 (txt "1017086") f_general 46 (Bits 1232621536) Success 0;
  fc F32 (txt "1852330") f_general 46 (Bits 1239555408) Success 0;
  fc F32 (txt "-840") f_general 46 (Bits 3293708288) Success 0;
  fc F32 (txt "267") f_general 46 (Bits 1132822528) Success 0;
  fc F32 (txt "201") f_general 46 (Bits 1128857600) Success 0;
  fc F32 (txt "533") f_general 46 (Bits 1141194752) Success 0;
  fc F32 (txt "-675") f_general 46 (Bits 3291004928) Success 0;
  fc F32 (txt "494") f_general 46 (Bits 1140260864) Success 0;
  fc F32 (txt "315") f_general 46 (Bits 1134395392) Success 0;
  fc F32 (txt "706") f_general 46 (Bits 1144029184) Success 0;
  fc F32 (txt "-920") f_general 46 (Bits 3295019008) Success 0;
  fc F32 (txt "784") f_general 46 (Bits 1145307136) Success 0;
  fc F32 (txt "9097353") f_general 46 (Bits 1258999945) Success 0;
  fc F32 (txt "6002251") f_general 46 (Bits 1253518486) Success 0;
  fc F32 (txt "-308780") f_general 46 (Bits 3365324160) Success 0;
  fc F32 (txt "-3830169") f_general 46 (Bits 3395929700) Success 0;
  fc F32 (txt "4340467") f_general 46 (Bits 1250194918) Success 0;
  fc F32 (txt "2235284") f_general 46 (Bits 1242066512) Success 0;
  fc F32 (txt "3314444") f_general 46 (Bits 1246383152) Success 0;
  fc F32 (txt "1085967") f_general 46 (Bits 1233424504) Success 0;
  fc F32 (txt "4152107") f_general 46 (Bits 1249733804) Success 0;
  fc F32 (txt "5431117") f_general 46 (Bits 1252376218) Success 0;
  fc F32 (txt "-0000") f_general 46 (Bits 2147483648) Success 0;
  fc F32 (txt "-0001") f_general 46 (Bits 3212836864) Success 0;
  fc F32 (txt "-0002") f_general 46 (Bits 3221225472) Success 0;
  fc F32 (txt "-0003") f_general 46 (Bits 3225419776) Success 0;
  fc F32 (txt "-0004") f_general 46 (Bits 3229614080) Success 0;
  fc F32 (txt "-0005") f_general 46 (Bits 3231711232) Success 0;
  fc F32 (txt "-0006") f_general 46 (Bits 3233808384) Success 0;
  fc F32 (txt "-0007") f_general 46 (Bits 3235905536) Success 0;
  fc F32 (txt "-0008") f_general 46 (Bits 3238002688) Success 0;
  fc F32 (txt "-0009") f_general 46 (Bits 3239051264) Success 0;
  fc F32 (txt "-444999") f_general 46 (Bits 3369683168) Success 0;
  fc F32 (txt "2136400") f_general 46 (Bits 1241670976) Success 0;
  fc F32 (txt "6925907") f_general 46 (Bits 1255365798) Success 0;
  fc F32 (txt "6990614") f_general 46 (Bits 1255495212) Success 0;
  fc F32 (txt "3588271") f_general 46 (Bits 1247478460) Success 0;
  fc F32 (txt "8422028") f_general 46 (Bits 1258324620) Success 0;
  fc F32 (txt "-4034772") f_general 46 (Bits 3396748112) Success 0;
  fc F32 (txt "5804039") f_general 46 (Bits 1253122062) Success 0;
  fc F32 (txt "-6740545") f_general 46 (Bits 3402478722) Success 0;
  fc F32 (txt "9381873") f_general 46 (Bits 1259284465) Success 0;
  fc F32 (txt "-924923") f_general 46 (Bits 3378630576) Success 0;
  fc F32 (txt "1652367") f_general 46 (Bits 1237955704) Success 0;
  fc F32 (txt "2302616") f_general 46 (Bits 1242335840) Success 0;
  fc F32 (txt "6776663") f_general 46 (Bits 1255067310) Success 0;
  fc F32 (txt "2567821") f_general 46 (Bits 1243396660) Success 0;
  fc F32 (txt "-248935") f_general 46 (Bits 3362986432) Success 0;
  fc F32 (txt "2587688") f_general 46 (Bits 1243476128) Success 0;
  fc F32 (txt "7076742") f_general 46 (Bits 1255667468) Success 0;
  fc F32 (txt "-6461467") f_general 46 (Bits 3401920566) Success 0;
  fc F32 (txt "1562896") f_general 46 (Bits 1237239936) Success 0;
  fc F32 (txt "-768116") f_general 46 (Bits 3376121664) Success 0;
  fc F32 (txt "2338768") f_general 46 (Bits 1242480448) Success 0;
  fc F32 (txt "9887307") f_general 46 (Bits 1259789899) Success 0;
  fc F32 (txt "9992184") f_general 46 (Bits 1259894776) Success 0;
  fc F32 (txt "2045182") f_general 46 (Bits 1241098224) Success 0;
  fc F32 (txt "2797589") f_general 46 (Bits 1244315732) Success 0;
  fc F32 (txt "9784597") f_general 46 (Bits 1259687189) Success 0;
  fc F32 (txt "9696554") f_general 46 (Bits 1259599146) Success 0;
  fc F32 (txt "5113329") f_general 46 (Bits 1251740642) Success 0;
  fc F32 (txt "1067216") f_general 46 (Bits 1233274496) Success 0;
  fc F32 (txt "-76247763") f_general 46 (Bits 3432083034) Success 0;
  fc F32 (txt "58169007") f_general 46 (Bits 1281222060) Success 0;
  fc F32 (txt "29408062") f_general 46 (Bits 1272995231) Success 0;
  fc F32 (txt "85342511") f_general 46 (Bits 1285736230) Success 0;
  fc F32 (txt "42092201") f_general 46 (Bits 1277202858) Success 0;
  fc F32 (txt "-95817703") f_general 46 (Bits 3434529277) Success 0;
  fc F32 (txt "-1912517") f_general 46 (Bits 3387520552) Success 0;
  fc F32 (txt "-26275135") f_general 46 (Bits 3418912416) Success 0;
  fc F32 (txt "54656606") f_general 46 (Bits 1280343960) Success 0;
  fc F32 (txt "-58188878") f_general 46 (Bits 3428710676) Success 0;
  fc F32 (txt "473") f_general 46 (Bits 1139572736) Success 0;
  fc F32 (txt "74") f_general 46 (Bits 1116995584) Success 0;
  fc F32 (txt "374") f_general 46 (Bits 1136328704) Success 0;
  fc F32 (txt "-64") f_general 46 (Bits 3263168512) Success 0;
  fc F32 (txt "266") f_general 46 (Bits 1132789760) Success 0;
  fc F32 (txt "715") f_general 46 (Bits 1144176640) Success 0;
  fc F32 (txt "937") f_general 46 (Bits 1147813888) Success 0;
  fc F32 (txt "-249") f_general 46 (Bits 3279486976) Success 0;
  fc F32 (txt "249") f_general 46 (Bits 1132003328) Success 0;
  fc F32 (txt "780") f_general 46 (Bits 1145241600) Success 0;
  fc F32 (txt "3907360") f_general 46 (Bits 1248754816) Success 0;
  fc F32 (txt "-23063423") f_general 46 (Bits 3417306560) Success 0;
  fc F32 (txt "59062754") f_general 46 (Bits 1281445496) Success 0;
  fc F32 (txt "83711047") f_general 46 (Bits 1285532297) Success 0;
  fc F32 (txt "-95221044") f_general 46 (Bits 3434454694) Success 0;
  fc F32 (txt "34894840") f_general 46 (Bits 1275403518) Success 0;
  fc F32 (txt "-38562139") f_general 46 (Bits 3423803991) Success 0;
  fc F32 (txt "-82018330") f_general 46 (Bits 3432804355) Success 0;
  fc F32 (txt "14226223") f_general 46 (Bits 1264128815) Success 0;
  fc F32 (txt "-10799717") f_general 46 (Bits 3408185957) Success 0;
  fc F32 (txt "8529722") f_general 46 (Bits 1258432314) Success 0;
  fc F32 (txt "88961903") f_general 46 (Bits 1286188654) Success 0;
  fc F32 (txt "25608618") f_general 46 (Bits 1271095509) Success 0;
  fc F32 (txt "-39988247") f_general 46 (Bits 3424160518) Success 0;
  fc F32 (txt "33228241") f_general 46 (Bits 1274905320) Success 0;
  fc F32 (txt "38598533") f_general 46 (Bits 1276329441) Success 0;
  fc F32 (txt "21161480") f_general 46 (Bits 1268871940) Success 0;
  fc F32 (txt "-33723784") f_general 46 (Bits 3422594402) Success 0;
  fc F32 (txt "8873948") f_general 46 (Bits 1258776540) Success 0;
  fc F32 (txt "96505557") f_general 46 (Bits 1287131611) Success 0;
  fc F32 (txt "-47385048") f_general 46 (Bits 3426009718) Success 0;
  fc F32 (txt "-79413272") f_general 46 (Bits 3432478723) Success 0;
  fc F32 (txt "-85904404") f_general 46 (Bits 3433290114) Success 0;
  fc F32 (txt "87791158") f_general 46 (Bits 1286042311) Success 0;
  fc F32 (txt "49194195") f_general 46 (Bits 1278978357) Success 0;
  fc F32 (txt "13051222") f_general 46 (Bits 1262953814) Success 0;
  fc F32 (txt "57773302") f_general 46 (Bits 1281123134) Success 0;
  fc F32 (txt "31904423") f_general 46 (Bits 1274243412) Success 0;
  fc F32 (txt "3142966") f_general 46 (Bits 1245697240) Success 0;
  fc F32 (txt "27846156") f_general 46 (Bits 1272214278) Success 0;
  fc F32 (txt "7420011") f_general 46 (Bits 1256354006) Success 0;
  fc F32 (txt "-72376922") f_general 46 (Bits 3431599179) Success 0;
  fc F32 (txt "-68873971") f_general 46 (Bits 3431161310) Success 0;
  fc F32 (txt "23765361") f_general 46 (Bits 1270173880) Success 0;
  fc F32 (txt "4040725") f_general 46 (Bits 1249288276) Success 0;
  fc F32 (txt "-22359806") f_general 46 (Bits 3416954751) Success 0;
  fc F32 (txt "85777219") f_general 46 (Bits 1285790568) Success 0;
  fc F32 (txt "10099223") f_general 46 (Bits 1260001815) Success 0;
  fc F32 (txt "-90364256") f_general 46 (Bits 3433847596) Success 0;
  fc F32 (txt "-40158172") f_general 46 (Bits 3424202999) Success 0;
  fc F32 (txt "-7948696") f_general 46 (Bits 3404895024) Success 0;
  fc F32 (txt "-64344821") f_general 46 (Bits 3430249661) Success 0;
  fc F32 (txt "34404238") f_general 46 (Bits 1275280868) Success 0;
  fc F32 (txt "84037448") f_general 46 (Bits 1285573097) Success 0;
  fc F32 (txt "-85084788") f_general 46 (Bits 3433187662) Success 0;
  fc F32 (txt "-42078409") f_general 46 (Bits 3424683058) Success 0;
  fc F32 (txt "-56550310") f_general 46 (Bits 3428301034) Success 0;
  fc F32 (txt "96898389") f_general 46 (Bits 1287180715) Success 0;
  fc F32 (txt "-595829") f_general 46 (Bits 3373365072) Success 0;
  fc F32 (txt "-73166703") f_general 46 (Bits 3431697902) Success 0;
  fc F32 (txt "-0") f_general 46 (Bits 2147483648) Success 0;
  fc F32 (txt "-1") f_general 46 (Bits 3212836864) Success 0;
  fc F32 (txt "-2") f_general 46 (Bits 3221225472) Success 0;
  fc F32 (txt "-3") f_general 46 (Bits 3225419776) Success 0;
  fc F32 (txt "-4") f_general 46 (Bits 3229614080) Success 0;
  fc F32 (txt "-5") f_general 46 (Bits 3231711232) Success 0;
  fc F32 (txt "-6") f_general 46 (Bits 3233808384) Success 0;
  fc F32 (txt "-7") f_general 46 (Bits 3235905536) Success 0;
  fc F32 (txt "-8") f_general 46 (Bits 3238002688) Success 0;
  fc F32 (txt "-9") f_general 46 (Bits 3239051264) Success 0;
  fc F32 (txt "2147483647") f_general 46 (Bits 1325400064) Success 0;
  fc F32 (txt "31") f_general 46 (Bits 1106771968) Success 0;
  fc F32 (txt "2147483610") f_general 46 (Bits 1325400064) Success 0;
  fc F32 (txt "33") f_general 46 (Bits 1107558400) Success 0;
  fc F32 (txt "2147483573") f_general 46 (Bits 1325400063) Success 0;
  fc F32 (txt "37") f_general 46 (Bits 1108606976) Success 0;
  fc F32 (txt "2147483536") f_general 46 (Bits 1325400063) Success 0;
  fc F32 (txt "-82838342") f_general 46 (Bits 3432906857) Success 0;
  fc F32 (txt "64441808") f_general 46 (Bits 1282790260) Success 0;
  fc F32 (txt "43641062") f_general 46 (Bits 1277590074) Success 0;
  fc F32 (txt "-64419642") f_general 46 (Bits 3430268366) Success 0;
  fc F32 (txt "-44421934") f_general 46 (Bits 3425268940) Success 0;
  fc F32 (txt "75232413") f_general 46 (Bits 1284472468) Success 0;
  fc F32 (txt "-75773725") f_general 46 (Bits 3432023780) Success 0;
  fc F32 (txt "-89139509") f_general 46 (Bits 3433694503) Success 0;
  fc F32 (txt "12812089") f_general 46 (Bits 1262714681) Success 0;
  fc F32 (txt "-97633526") f_general 46 (Bits 3434756255) Success 0;
  fc F32 (txt "36090916") f_general 46 (Bits 1275702537) Success 0;
  fc F32 (txt "-57706234") f_general 46 (Bits 3428590014) Success 0;
  fc F32 (txt "17804655") f_general 46 (Bits 1267193528) Success 0;
  fc F32 (txt "4189936") f_general 46 (Bits 1249885120) Success 0;
  fc F32 (txt "-4100124") f_general 46 (Bits 3397009520) Success 0;
  fc F32 (txt "38803710") f_general 46 (Bits 1276380736) Success 0;
  fc F32 (txt "-39735126") f_general 46 (Bits 3424097238) Success 0;
  fc F32 (txt "-62397437") f_general 46 (Bits 3429762815) Success 0;
  fc F32 (txt "75801648") f_general 46 (Bits 1284543622) Success 0;
  fc F32 (txt "51302332") f_general 46 (Bits 1279505391) Success 0;
  fc F32 (txt "73433906") f_general 46 (Bits 1284247654) Success 0;
  fc F32 (txt "13015224") f_general 46 (Bits 1262917816) Success 0;
  fc F32 (txt "-12624818") f_general 46 (Bits 3410011058) Success 0;
  fc F32 (txt "91360377") f_general 46 (Bits 1286488463) Success 0;
  fc F32 (txt "11576319") f_general 46 (Bits 1261478911) Success 0;
  fc F32 (txt "-54467535") f_general 46 (Bits 3427780340) Success 0;
  fc F32 (txt "8892431") f_general 46 (Bits 1258795023) Success 0;
  fc F32 (txt "36319780") f_general 46 (Bits 1275759753) Success 0;
  fc F32 (txt "38832042") f_general 46 (Bits 1276387818) Success 0;
  fc F32 (txt "50172572") f_general 46 (Bits 1279222951) Success 0;
  fc F32 (txt "-317") f_general 46 (Bits 3281944576) Success 0;
  fc F32 (txt "109") f_general 46 (Bits 1121583104) Success 0;
  fc F32 (txt "-888") f_general 46 (Bits 3294494720) Success 0;
  fc F32 (txt "302") f_general 46 (Bits 1133969408) Success 0;
  fc F32 (txt "-463") f_general 46 (Bits 3286728704) Success 0;
  fc F32 (txt "716") f_general 46 (Bits 1144193024) Success 0;
  fc F32 (txt "916") f_general 46 (Bits 1147469824) Success 0;
  fc F32 (txt "665") f_general 46 (Bits 1143357440) Success 0;
  fc F32 (txt "826") f_general 46 (Bits 1145995264) Success 0;
  fc F32 (txt "513") f_general 46 (Bits 1140867072) Success 0;
  fc F32 (txt "42423473") f_general 46 (Bits 1277285676) Success 0;
  fc F32 (txt "41078812") f_general 46 (Bits 1276949511) Success 0;
  fc F32 (txt "40445652") f_general 46 (Bits 1276791221) Success 0;
  fc F32 (txt "-76722281") f_general 46 (Bits 3432142349) Success 0;
  fc F32 (txt "95092224") f_general 46 (Bits 1286954944) Success 0;
  fc F32 (txt "12075234") f_general 46 (Bits 1261977826) Success 0;
  fc F32 (txt "-4045888") f_general 46 (Bits 3396792576) Success 0;
  fc F32 (txt "-74396490") f_general 46 (Bits 3431851625) Success 0;
  fc F32 (txt "-57304222") f_general 46 (Bits 3428489512) Success 0;
  fc F32 (txt "-21726885") f_general 46 (Bits 3416638290) Success 0;
  fc F32 (txt "92038121") f_general 46 (Bits 1286573181) Success 0;
  fc F32 (txt "-31899682") f_general 46 (Bits 3421724689) Success 0;
  fc F32 (txt "21589254") f_general 46 (Bits 1269085827) Success 0;
  fc F32 (txt "-30260046") f_general 46 (Bits 3420904871) Success 0;
  fc F32 (txt "56000244") f_general 46 (Bits 1280679869) Success 0;
  fc F32 (txt "69686659") f_general 46 (Bits 1283779248) Success 0;
  fc F32 (txt "93327838") f_general 46 (Bits 1286734396) Success 0;
  fc F32 (txt "96882881") f_general 46 (Bits 1287178776) Success 0;
  fc F32 (txt "-91419389") f_general 46 (Bits 3433979488) Success 0;
  fc F32 (txt "77529147") f_general 46 (Bits 1284759559) Success 0;
  fc F32 (txt "43288506") f_general 46 (Bits 1277501934) Success 0;
  fc F32 (txt "1192435") f_general 46 (Bits 1234276248) Success 0;
  fc F32 (txt "-74095920") f_general 46 (Bits 3431814054) Success 0;
  fc F32 (txt "76756590") f_general 46 (Bits 1284662990) Success 0;
  fc F32 (txt "-31184683") f_general 46 (Bits 3421367190) Success 0;
  fc F32 (txt "-35716724") f_general 46 (Bits 3423092637) Success 0;
  fc F32 (txt "9451980") f_general 46 (Bits 1259354572) Success 0;
  fc F32 (txt "-63168350") f_general 46 (Bits 3429955544) Success 0;
  fc F32 (txt "62864002") f_general 46 (Bits 1282395808) Success 0;
  fc F32 (txt "26283194") f_general 46 (Bits 1271432797) Success 0;
  fc F32 (txt "37188395") f_general 46 (Bits 1275976907) Success 0;
  fc F32 (txt "29151634") f_general 46 (Bits 1272867017) Success 0;
  fc F32 (txt "99343471") f_general 46 (Bits 1287486350) Success 0;
  fc F32 (txt "-69450330") f_general 46 (Bits 3431233355) Success 0;
  fc F32 (txt "-55680090") f_general 46 (Bits 3428083478) Success 0;
  fc F32 (txt "-64957599") f_general 46 (Bits 3430402856) Success 0;
  fc F32 (txt "47577948") f_general 46 (Bits 1278574295) Success 0;
  fc F32 (txt "47107924") f_general 46 (Bits 1278456789) Success 0;
  fc F32 (txt "2490477") f_general 46 (Bits 1243087284) Success 0;
  fc F32 (txt "48633003") f_general 46 (Bits 1278838059) Success 0;
  fc F32 (txt "-82740809") f_general 46 (Bits 3432894665) Success 0;
  fc F32 (txt "-24122215") f_general 46 (Bits 3417835956) Success 0;
  fc F32 (txt "67301713") f_general 46 (Bits 1283481130) Success 0;
  fc F32 (txt "-63649610") f_general 46 (Bits 3430075858) Success 0;
  fc F32 (txt "75499016") f_general 46 (Bits 1284505793) Success 0;
  fc F32 (txt "82746620") f_general 46 (Bits 1285411744) Success 0;
  fc F32 (txt "17052193") f_general 46 (Bits 1266817296) Success 0;
  fc F32 (txt "4602244") f_general 46 (Bits 1250718472) Success 0;
  fc F32 (txt "-32721165") f_general 46 (Bits 3422135430) Success 0;
  fc F32 (txt "20837836") f_general 46 (Bits 1268710118) Success 0;
  fc F32 (txt "674") f_general 46 (Bits 1143504896) Success 0;
  fc F32 (txt "467") f_general 46 (Bits 1139376128) Success 0;
  fc F32 (txt "706") f_general 46 (Bits 1144029184) Success 0;
  fc F32 (txt "889") f_general 46 (Bits 1147027456) Success 0;
  fc F32 (txt "172") f_general 46 (Bits 1126957056) Success 0;
  fc F32 (txt "282") f_general 46 (Bits 1133314048) Success 0;
  fc F32 (txt "-795") f_general 46 (Bits 3292971008) Success 0;
  fc F32 (txt "188") f_general 46 (Bits 1128005632) Success 0;
  fc F32 (txt "87") f_general 46 (Bits 1118699520) Success 0;
  fc F32 (txt "153") f_general 46 (Bits 1125711872) Success 0;
  fc F32 (txt "64501793") f_general 46 (Bits 1282805256) Success 0;
  fc F32 (txt "53146328") f_general 46 (Bits 1279966390) Success 0;
  fc F32 (txt "5152287") f_general 46 (Bits 1251818558) Success 0;
  fc F32 (txt "-9674493") f_general 46 (Bits 3407060733) Success 0;
  fc F32 (txt "68105580") f_general 46 (Bits 1283581614) Success 0;
  fc F32 (txt "57245637") f_general 46 (Bits 1280991217) Success 0;
  fc F32 (txt "39740229") f_general 46 (Bits 1276614865) Success 0;
  fc F32 (txt "-74071854") f_general 46 (Bits 3431811046) Success 0;
  fc F32 (txt "86777268") f_general 46 (Bits 1285915574) Success 0;
  fc F32 (txt "86484437") f_general 46 (Bits 1285878971) Success 0;
  fc F32 (txt "-86962508") f_general 46 (Bits 3433422378) Success 0;
  fc F32 (txt "12644427") f_general 46 (Bits 1262547019) Success 0;
  fc F32 (txt "-62944073") f_general 46 (Bits 3429899474) Success 0;
  fc F32 (txt "59539680") f_general 46 (Bits 1281564728) Success 0;
  fc F32 (txt "43340539") f_general 46 (Bits 1277514943) Success 0;
  fc F32 (txt "30661534") f_general 46 (Bits 1273621967) Success 0;
  fc F32 (txt "20143968") f_general 46 (Bits 1268363184) Success 0;
  fc F32 (txt "-68183731") f_general 46 (Bits 3431075030) Success 0;
  fc F32 (txt "-48250926") f_general 46 (Bits 3426226188) Success 0;
  fc F32 (txt "42669063") f_general 46 (Bits 1277347074) Success 0;
  fc F32 (txt "000") f_general 46 (Bits 0) Success 0;
  fc F32 (txt "001") f_general 46 (Bits 1065353216) Success 0;
  fc F32 (txt "002") f_general 46 (Bits 1073741824) Success 0;
  fc F32 (txt "003") f_general 46 (Bits 1077936128) Success 0;
  fc F32 (txt "004") f_general 46 (Bits 1082130432) Success 0;
  fc F32 (txt "005") f_general 46 (Bits 1084227584) Success 0;
  fc F32 (txt "006") f_general 46 (Bits 1086324736) Success 0;
  fc F32 (txt "007") f_general 46 (Bits 1088421888) Success 0;
  fc F32 (txt "008") f_general 46 (Bits 1090519040) Success 0;
  fc F32 (txt "009") f_general 46 (Bits 1091567616) Success 0;
  fc F32 (txt "2147483499") f_general 46 (Bits 1325400063) Success 0;
  fc F32 (txt "71") f_general 46 (Bits 1116602368) Success 0;
  fc F32 (txt "2147483462") f_general 46 (Bits 1325400063) Success 0;
  fc F32 (txt "73") f_general 46 (Bits 1116864512) Success 0;
  fc F32 (txt "2147483425") f_general 46 (Bits 1325400062) Success 0;
  fc F32 (txt "77") f_general 46 (Bits 1117388800) Success 0;
  fc F32 (txt "2147483388") f_general 46 (Bits 1325400062) Success 0;
  fc F32 (txt "87736852") f_general 46 (Bits 1286035522) Success 0;
  fc F32 (txt "-4444906") f_general 46 (Bits 3397887444) Success 0;
  fc F32 (txt "-48094147") f_general 46 (Bits 3426186993) Success 0;
  fc F32 (txt "54774735") f_general 46 (Bits 1280373492) Success 0;
  fc F32 (txt "54571890") f_general 46 (Bits 1280322780) Success 0;
  fc F32 (txt "-22473078") f_general 46 (Bits 3417011387) Success 0;
  fc F32 (txt "95053418") f_general 46 (Bits 1286950093) Success 0;
  fc F32 (txt "393654") f_general 46 (Bits 1220556480) Success 0;
  fc F32 (txt "-33229960") f_general 46 (Bits 3422389828) Success 0;
  fc F32 (txt "32276798") f_general 46 (Bits 1274429599) Success 0;
  fc F32 (txt "-48361110") f_general 46 (Bits 3426253734) Success 0;
  fc F32 (txt "44295939") f_general 46 (Bits 1277753793) Success 0;
  fc F32 (txt "-79813406") f_general 46 (Bits 3432528740) Success 0;
  fc F32 (txt "11630865") f_general 46 (Bits 1261533457) Success 0;
  fc F32 (txt "38544571") f_general 46 (Bits 1276315951) Success 0;
  fc F32 (txt "70972830") f_general 46 (Bits 1283940020) Success 0;
  fc F32 (txt "-9821748") f_general 46 (Bits 3407207988) Success 0;
  fc F32 (txt "-60965384") f_general 46 (Bits 3429404802) Success 0;
  fc F32 (txt "-13096675") f_general 46 (Bits 3410482915) Success 0;
  fc F32 (txt "-24569041") f_general 46 (Bits 3418059368) Success 0;
  fc F32 (txt "708") f_general 46 (Bits 1144061952) Success 0;
  fc F32 (txt "-467") f_general 46 (Bits 3286859776) Success 0;
  fc F32 (txt "-794") f_general 46 (Bits 3292954624) Success 0;
  fc F32 (txt "610") f_general 46 (Bits 1142456320) Success 0;
  fc F32 (txt "929") f_general 46 (Bits 1147682816) Success 0;
  fc F32 (txt "766") f_general 46 (Bits 1145012224) Success 0;
  fc F32 (txt "152") f_general 46 (Bits 1125646336) Success 0;
  fc F32 (txt "482") f_general 46 (Bits 1139867648) Success 0;
  fc F32 (txt "397") f_general 46 (Bits 1137082368) Success 0;
  fc F32 (txt "-191") f_general 46 (Bits 3275685888) Success 0;
  fc F32 (txt "97233152") f_general 46 (Bits 1287222560) Success 0;
  fc F32 (txt "51028396") f_general 46 (Bits 1279436907) Success 0;
  fc F32 (txt "-13796948") f_general 46 (Bits 3411183188) Success 0;
  fc F32 (txt "95437272") f_general 46 (Bits 1286998075) Success 0;
  fc F32 (txt "71352512") f_general 46 (Bits 1283987480) Success 0;
  fc F32 (txt "-83233730") f_general 46 (Bits 3432956280) Success 0;
  fc F32 (txt "-68517318") f_general 46 (Bits 3431116729) Success 0;
  fc F32 (txt "61832742") f_general 46 (Bits 1282137994) Success 0;
  fc F32 (txt "-42667174") f_general 46 (Bits 3424830250) Success 0;
  fc F32 (txt "-18002395") f_general 46 (Bits 3414776046) Success 0;
  fc F32 (txt "-92239407") f_general 46 (Bits 3434081990) Success 0;
  fc F32 (txt "12701336") f_general 46 (Bits 1262603928) Success 0;
  fc F32 (txt "-63830875") f_general 46 (Bits 3430121175) Success 0;
  fc F32 (txt "41514172") f_general 46 (Bits 1277058351) Success 0;
  fc F32 (txt "-5726049") f_general 46 (Bits 3400449730) Success 0;
  fc F32 (txt "18668677") f_general 46 (Bits 1267625538) Success 0;
  fc F32 (txt "69555144") f_general 46 (Bits 1283762809) Success 0;
  fc F32 (txt "-13737009") f_general 46 (Bits 3411123249) Success 0;
  fc F32 (txt "-22626233") f_general 46 (Bits 3417087964) Success 0;
  fc F32 (txt "-55078143") f_general 46 (Bits 3427932992) Success 0;
  fc F32 (txt "00") f_general 46 (Bits 0) Success 0;
  fc F32 (txt "11") f_general 46 (Bits 1093664768) Success 0;
  fc F32 (txt "22") f_general 46 (Bits 1102053376) Success 0;
  fc F32 (txt "33") f_general 46 (Bits 1107558400) Success 0;
  fc F32 (txt "44") f_general 46 (Bits 1110441984) Success 0;
  fc F32 (txt "-00") f_general 46 (Bits 2147483648) Success 0;
  fc F32 (txt "-11") f_general 46 (Bits 3241148416) Success 0;
  fc F32 (txt "-22") f_general 46 (Bits 3249537024) Success 0;
  fc F32 (txt "-33") f_general 46 (Bits 3255042048) Success 0;
  fc F32 (txt "-44") f_general 46 (Bits 3257925632) Success 0;
  fc F32 (txt "000") f_general 46 (Bits 0) Success 0;
  fc F32 (txt "111") f_general 46 (Bits 1121845248) Success 0;
  fc F32 (txt "222") f_general 46 (Bits 1130233856) Success 0;
  fc F32 (txt "333") f_general 46 (Bits 1134985216) Success 0;
  fc F32 (txt "444") f_general 46 (Bits 1138622464) Success 0;
  fc F32 (txt "-000") f_general 46 (Bits 2147483648) Success 0;
  fc F32 (txt "-111") f_general 46 (Bits 3269328896) Success 0;
  fc F32 (txt "-222") f_general 46 (Bits 3277717504) Success 0;
  fc F32 (txt "-333") f_general 46 (Bits 3282468864) Success 0;
  fc F32 (txt "-444") f_general 46 (Bits 3286106112) Success 0;
  fc F32 (txt "0000") f_general 46 (Bits 0) Success 0;
  fc F32 (txt "1111") f_general 46 (Bits 1149952000) Success 0;
  fc F32 (txt "2222") f_general 46 (Bits 1158340608) Success 0;
  fc F32 (txt "3333") f_general 46 (Bits 1162891264) Success 0;
  fc F32 (txt "4444") f_general 46 (Bits 1166729216) Success 0;
  fc F32 (txt "-0000") f_general 46 (Bits 2147483648) Success 0;
  fc F32 (txt "-1111") f_general 46 (Bits 3297435648) Success 0;
  fc F32 (txt "-2222") f_general 46 (Bits 3305824256) Success 0;
  fc F32 (txt "-3333") f_general 46 (Bits 3310374912) Success 0;
  fc F32 (txt "-4444") f_general 46 (Bits 3314212864) Success 0;
  fc F32 (txt "00000") f_general 46 (Bits 0) Success 0;
  fc F32 (txt "11111") f_general 46 (Bits 1177394176) Success 0;
  fc F32 (txt "22222") f_general 46 (Bits 1185782784) Success 0;
  fc F32 (txt "33333") f_general 46 (Bits 1191326976) Success 0;
  fc F32 (txt "44444") f_general 46 (Bits 1194171392) Success 0;
  fc F32 (txt "-00000") f_general 46 (Bits 2147483648) Success 0;
  fc F32 (txt "-11111") f_general 46 (Bits 3324877824) Success 0;
  fc F32 (txt "-22222") f_general 46 (Bits 3333266432) Success 0;
  fc F32 (txt "-33333") f_general 46 (Bits 3338810624) Success 0;
  fc F32 (txt "-44444") f_general 46 (Bits 3341655040) Success 0;
  fc F32 (txt "000000") f_general 46 (Bits 0) Success 0;
  fc F32 (txt "111111") f_general 46 (Bits 1205404544) Success 0;
  fc F32 (txt "222222") f_general 46 (Bits 1213793152) Success 0;
  fc F32 (txt "333333") f_general 46 (Bits 1218626208) Success 0;
  fc F32 (txt "444444") f_general 46 (Bits 1222181760) Success 0;
  fc F32 (txt "-000000") f_general 46 (Bits 2147483648) Success 0;
  fc F32 (txt "-111111") f_general 46 (Bits 3352888192) Success 0;
  fc F32 (txt "-222222") f_general 46 (Bits 3361276800) Success 0;
  fc F32 (txt "-333333") f_general 46 (Bits 3366109856) Success 0;
  fc F32 (txt "-444444") f_general 46 (Bits 3369665408) Success 0;
  fc F32 (txt "0000000") f_general 46 (Bits 0) Success 0;
  fc F32 (txt "1111111") f_general 46 (Bits 1233625656) Success 0;
  fc F32 (txt "2222222") f_general 46 (Bits 1242014264) Success 0;
  fc F32 (txt "3333333") f_general 46 (Bits 1246458708) Success 0;
  fc F32 (txt "4444444") f_general 46 (Bits 1250402872) Success 0;
  fc F32 (txt "-0000000") f_general 46 (Bits 2147483648) Success 0;
  fc F32 (txt "-1111111") f_general 46 (Bits 3381109304) Success 0;
  fc F32 (txt "-2222222") f_general 46 (Bits 3389497912) Success 0;
  fc F32 (txt "-3333333") f_general 46 (Bits 3393942356) Success 0;
  fc F32 (txt "-4444444") f_general 46 (Bits 3397886520) Success 0;
  fc F32 (txt "00000000") f_general 46 (Bits 0) Success 0;
  fc F32 (txt "11111111") f_general 46 (Bits 1261013703) Success 0;
  fc F32 (txt "22222222") f_general 46 (Bits 1269402311) Success 0;
  fc F32 (txt "33333333") f_general 46 (Bits 1274957866) Success 0;
  fc F32 (txt "44444444") f_general 46 (Bits 1277790919) Success 0;
  fc F32 (txt "-00000000") f_general 46 (Bits 2147483648) Success 0;
  fc F32 (txt "-11111111") f_general 46 (Bits 3408497351) Success 0;
  fc F32 (txt "-22222222") f_general 46 (Bits 3416885959) Success 0;
  fc F32 (txt "-33333333") f_general 46 (Bits 3422441514) Success 0;
  fc F32 (txt "-44444444") f_general 46 (Bits 3425274567) Success 0;
  fc F32 (txt "000000000") f_general 46 (Bits 0) Success 0;
  fc F32 (txt "111111111") f_general 46 (Bits 1288957305) Success 0;
  fc F32 (txt "222222222") f_general 46 (Bits 1297345913) Success 0;
  fc F32 (txt "333333333") f_general 46 (Bits 1302262299) Success 0;
  fc F32 (txt "444444444") f_general 46 (Bits 1305734521) Success 0;
  fc F32 (txt "-000000000") f_general 46 (Bits 2147483648) Success 0;
  fc F32 (txt "-111111111") f_general 46 (Bits 3436440953) Success 0;
  fc F32 (txt "-222222222") f_general 46 (Bits 3444829561) Success 0;
  fc F32 (txt "-333333333") f_general 46 (Bits 3449745947) Success 0;
  fc F32 (txt "-444444444") f_general 46 (Bits 3453218169) Success 0;
  fc F32 (txt "2147483351") f_general 46 (Bits 1325400062) Success 0;
  fc F32 (txt "51") f_general 46 (Bits 1112276992) Success 0;
  fc F32 (txt "2147483314") f_general 46 (Bits 1325400061) Success 0;
  fc F32 (txt "53") f_general 46 (Bits 1112801280) Success 0;
  fc F32 (txt "-2147483648") f_general 46 (Bits 3472883712) Success 0;
  fc F32 (txt "57") f_general 46 (Bits 1113849856) Success 0;
  fc F32 (txt "-2147483611") f_general 46 (Bits 3472883712) Success 0;
  fc F32 (txt "55") f_general 46 (Bits 1113325568) Success 0;
  fc F32 (txt "66") f_general 46 (Bits 1115947008) Success 0;
  fc F32 (txt "77") f_general 46 (Bits 1117388800) Success 0;
  fc F32 (txt "88") f_general 46 (Bits 1118830592) Success 0;
  fc F32 (txt "99") f_general 46 (Bits 1120272384) Success 0;
  fc F32 (txt "-55") f_general 46 (Bits 3260809216) Success 0;
  fc F32 (txt "-66") f_general 46 (Bits 3263430656) Success 0;
  fc F32 (txt "-77") f_general 46 (Bits 3264872448) Success 0;
  fc F32 (txt "-88") f_general 46 (Bits 3266314240) Success 0;
  fc F32 (txt "-99") f_general 46 (Bits 3267756032) Success 0;
  fc F32 (txt "555") f_general 46 (Bits 1141555200) Success 0;
  fc F32 (txt "666") f_general 46 (Bits 1143373824) Success 0;
  fc F32 (txt "777") f_general 46 (Bits 1145192448) Success 0;
  fc F32 (txt "888") f_general 46 (Bits 1147011072) Success 0;
  fc F32 (txt "999") f_general 46 (Bits 1148829696) Success 0;
  fc F32 (txt "-555") f_general 46 (Bits 3289038848) Success 0;
  fc F32 (txt "-666") f_general 46 (Bits 3290857472) Success 0;
  fc F32 (txt "-777") f_general 46 (Bits 3292676096) Success 0;
  fc F32 (txt "-888") f_general 46 (Bits 3294494720) Success 0;
  fc F32 (txt "-999") f_general 46 (Bits 3296313344) Success 0;
  fc F32 (txt "5555") f_general 46 (Bits 1169004544) Success 0;
  fc F32 (txt "6666") f_general 46 (Bits 1171279872) Success 0;
  fc F32 (txt "7777") f_general 46 (Bits 1173555200) Success 0;
  fc F32 (txt "8888") f_general 46 (Bits 1175117824) Success 0;
  fc F32 (txt "9999") f_general 46 (Bits 1176255488) Success 0;
  fc F32 (txt "-5555") f_general 46 (Bits 3316488192) Success 0;
  fc F32 (txt "-6666") f_general 46 (Bits 3318763520) Success 0;
  fc F32 (txt "-7777") f_general 46 (Bits 3321038848) Success 0;
  fc F32 (txt "-8888") f_general 46 (Bits 3322601472) Success 0;
  fc F32 (txt "-9999") f_general 46 (Bits 3323739136) Success 0;
  fc F32 (txt "55555") f_general 46 (Bits 1197015808) Success 0;
  fc F32 (txt "66666") f_general 46 (Bits 1199715584) Success 0;
  fc F32 (txt "77777") f_general 46 (Bits 1201137792) Success 0;
  fc F32 (txt "88888") f_general 46 (Bits 1202560000) Success 0;
  fc F32 (txt "99999") f_general 46 (Bits 1203982208) Success 0;
  fc F32 (txt "-55555") f_general 46 (Bits 3344499456) Success 0;
  fc F32 (txt "-66666") f_general 46 (Bits 3347199232) Success 0;
  fc F32 (txt "-77777") f_general 46 (Bits 3348621440) Success 0;
  fc F32 (txt "-88888") f_general 46 (Bits 3350043648) Success 0;
  fc F32 (txt "-99999") f_general 46 (Bits 3351465856) Success 0;
  fc F32 (txt "555555") f_general 46 (Bits 1225237040) Success 0;
  fc F32 (txt "666666") f_general 46 (Bits 1227014816) Success 0;
  fc F32 (txt "777777") f_general 46 (Bits 1228792592) Success 0;
  fc F32 (txt "888888") f_general 46 (Bits 1230570368) Success 0;
  fc F32 (txt "999999") f_general 46 (Bits 1232348144) Success 0;
  fc F32 (txt "-555555") f_general 46 (Bits 3372720688) Success 0;
  fc F32 (txt "-666666") f_general 46 (Bits 3374498464) Success 0;
  fc F32 (txt "-777777") f_general 46 (Bits 3376276240) Success 0;
  fc F32 (txt "-888888") f_general 46 (Bits 3378054016) Success 0;
  fc F32 (txt "-999999") f_general 46 (Bits 3379831792) Success 0;
  fc F32 (txt "5555555") f_general 46 (Bits 1252625094) Success 0;
  fc F32 (txt "6666666") f_general 46 (Bits 1254847316) Success 0;
  fc F32 (txt "7777777") f_general 46 (Bits 1257069538) Success 0;
  fc F32 (txt "8888888") f_general 46 (Bits 1258791480) Success 0;
  fc F32 (txt "9999999") f_general 46 (Bits 1259902591) Success 0;
  fc F32 (txt "-5555555") f_general 46 (Bits 3400108742) Success 0;
  fc F32 (txt "-6666666") f_general 46 (Bits 3402330964) Success 0;
  fc F32 (txt "-7777777") f_general 46 (Bits 3404553186) Success 0;
  fc F32 (txt "-8888888") f_general 46 (Bits 3406275128) Success 0;
  fc F32 (txt "-9999999") f_general 46 (Bits 3407386239) Success 0;
  fc F32 (txt "55555555") f_general 46 (Bits 1280568697) Success 0;
  fc F32 (txt "66666666") f_general 46 (Bits 1283346474) Success 0;
  fc F32 (txt "77777777") f_general 46 (Bits 1284790638) Success 0;
  fc F32 (txt "88888888") f_general 46 (Bits 1286179527) Success 0;
  fc F32 (txt "99999999") f_general 46 (Bits 1287568416) Success 0;
  fc F32 (txt "-55555555") f_general 46 (Bits 3428052345) Success 0;
  fc F32 (txt "-66666666") f_general 46 (Bits 3430830122) Success 0;
  fc F32 (txt "-77777777") f_general 46 (Bits 3432274286) Success 0;
  fc F32 (txt "-88888888") f_general 46 (Bits 3433663175) Success 0;
  fc F32 (txt "-99999999") f_general 46 (Bits 3435052064) Success 0;
  fc F32 (txt "555555555") f_general 46 (Bits 1308914796) Success 0;
  fc F32 (txt "666666666") f_general 46 (Bits 1310650907) Success 0;
  fc F32 (txt "777777777") f_general 46 (Bits 1312387018) Success 0;
  fc F32 (txt "888888888") f_general 46 (Bits 1314123129) Success 0;
  fc F32 (txt "999999999") f_general 46 (Bits 1315859240) Success 0;
  fc F32 (txt "-555555555") f_general 46 (Bits 3456398444) Success 0;
  fc F32 (txt "-666666666") f_general 46 (Bits 3458134555) Success 0;
  fc F32 (txt "-777777777") f_general 46 (Bits 3459870666) Success 0;
  fc F32 (txt "-888888888") f_general 46 (Bits 3461606777) Success 0;
  fc F32 (txt "-999999999") f_general 46 (Bits 3463342888) Success 0;
  fc F32 (txt "-2147483574") f_general 46 (Bits 3472883711) Success 0;
  fc F32 (txt "91") f_general 46 (Bits 1119223808) Success 0;
  fc F32 (txt "-2147483537") f_general 46 (Bits 3472883711) Success 0;
  fc F32 (txt "93") f_general 46 (Bits 1119485952) Success 0;
  fc F32 (txt "-2147483500") f_general 46 (Bits 3472883711) Success 0;
  fc F32 (txt "97") f_general 46 (Bits 1120010240) Success 0;
  fc F32 (txt "-2147483463") f_general 46 (Bits 3472883711) Success 0;
  fc F32 (txt "0000000011") f_general 46 (Bits 1093664768) Success 0;
  fc F32 (txt "0000000022") f_general 46 (Bits 1102053376) Success 0;
  fc F32 (txt "0000000033") f_general 46 (Bits 1107558400) Success 0;
  fc F32 (txt "0000000044") f_general 46 (Bits 1110441984) Success 0;
  fc F32 (txt "-000000011") f_general 46 (Bits 3241148416) Success 0;
  fc F32 (txt "-000000022") f_general 46 (Bits 3249537024) Success 0;
  fc F32 (txt "-000000033") f_general 46 (Bits 3255042048) Success 0;
  fc F32 (txt "-000000044") f_general 46 (Bits 3257925632) Success 0;
  fc F32 (txt "-000000088") f_general 46 (Bits 3266314240) Success 0;
  fc F32 (txt "0000000111") f_general 46 (Bits 1121845248) Success 0;
  fc F32 (txt "0000000222") f_general 46 (Bits 1130233856) Success 0;
  fc F32 (txt "0000000333") f_general 46 (Bits 1134985216) Success 0;
  fc F32 (txt "0000000444") f_general 46 (Bits 1138622464) Success 0;
  fc F32 (txt "-000000111") f_general 46 (Bits 3269328896) Success 0;
  fc F32 (txt "-000000222") f_general 46 (Bits 3277717504) Success 0;
  fc F32 (txt "-000000333") f_general 46 (Bits 3282468864) Success 0;
  fc F32 (txt "-000000444") f_general 46 (Bits 3286106112) Success 0;
  fc F32 (txt "-000000888") f_general 46 (Bits 3294494720) Success 0;
  fc F32 (txt "0000001111") f_general 46 (Bits 1149952000) Success 0;
  fc F32 (txt "0000002222") f_general 46 (Bits 1158340608) Success 0;
  fc F32 (txt "0000003333") f_general 46 (Bits 1162891264) Success 0;
  fc F32 (txt "0000004444") f_general 46 (Bits 1166729216) Success 0;
  fc F32 (txt "-000001111") f_general 46 (Bits 3297435648) Success 0;
  fc F32 (txt "-000002222") f_general 46 (Bits 3305824256) Success 0;
  fc F32 (txt "-000003333") f_general 46 (Bits 3310374912) Success 0;
  fc F32 (txt "-000004444") f_general 46 (Bits 3314212864) Success 0;
  fc F32 (txt "-000008888") f_general 46 (Bits 3322601472) Success 0;
  fc F32 (txt "0000011111") f_general 46 (Bits 1177394176) Success 0;
  fc F32 (txt "0000022222") f_general 46 (Bits 1185782784) Success 0;
  fc F32 (txt "0000033333") f_general 46 (Bits 1191326976) Success 0;
  fc F32 (txt "0000044444") f_general 46 (Bits 1194171392) Success 0;
  fc F32 (txt "-000011111") f_general 46 (Bits 3324877824) Success 0;
  fc F32 (txt "-000022222") f_general 46 (Bits 3333266432) Success 0;
  fc F32 (txt "-000033333") f_general 46 (Bits 3338810624) Success 0;
  fc F32 (txt "-000044444") f_general 46 (Bits 3341655040) Success 0;
  fc F32 (txt "-000088888") f_general 46 (Bits 3350043648) Success 0;
  fc F32 (txt "0000111111") f_general 46 (Bits 1205404544) Success 0;
  fc F32 (txt "0000222222") f_general 46 (Bits 1213793152) Success 0;
  fc F32 (txt "0000333333") f_general 46 (Bits 1218626208) Success 0;
  fc F32 (txt "0000444444") f_general 46 (Bits 1222181760) Success 0;
  fc F32 (txt "-000111111") f_general 46 (Bits 3352888192) Success 0;
  fc F32 (txt "-000222222") f_general 46 (Bits 3361276800) Success 0;
  fc F32 (txt "-000333333") f_general 46 (Bits 3366109856) Success 0;
  fc F32 (txt "-000444444") f_general 46 (Bits 3369665408) Success 0;
  fc F32 (txt "-000888888") f_general 46 (Bits 3378054016) Success 0;
  fc F32 (txt "0001111111") f_general 46 (Bits 1233625656) Success 0;
  fc F32 (txt "0002222222") f_general 46 (Bits 1242014264) Success 0;
  fc F32 (txt "0003333333") f_general 46 (Bits 1246458708) Success 0;
  fc F32 (txt "0004444444") f_general 46 (Bits 1250402872) Success 0;
  fc F32 (txt "-001111111") f_general 46 (Bits 3381109304) Success 0;
  fc F32 (txt "-002222222") f_general 46 (Bits 3389497912) Success 0;
  fc F32 (txt "-003333333") f_general 46 (Bits 3393942356) Success 0;
  fc F32 (txt "-004444444") f_general 46 (Bits 3397886520) Success 0;
  fc F32 (txt "-008888888") f_general 46 (Bits 3406275128) Success 0;
  fc F32 (txt "0011111111") f_general 46 (Bits 1261013703) Success 0;
  fc F32 (txt "0022222222") f_general 46 (Bits 1269402311) Success 0;
  fc F32 (txt "0033333333") f_general 46 (Bits 1274957866) Success 0;
  fc F32 (txt "0044444444") f_general 46 (Bits 1277790919) Success 0;
  fc F32 (txt "-011111111") f_general 46 (Bits 3408497351) Success 0;
  fc F32 (txt "-022222222") f_general 46 (Bits 3416885959) Success 0;
  fc F32 (txt "-033333333") f_general 46 (Bits 3422441514) Success 0;
  fc F32 (txt "-044444444") f_general 46 (Bits 3425274567) Success 0;
  fc F32 (txt "-088888888") f_general 46 (Bits 3433663175) Success 0;
  fc F32 (txt "0111111111") f_general 46 (Bits 1288957305) Success 0;
  fc F32 (txt "0222222222") f_general 46 (Bits 1297345913) Success 0;
  fc F32 (txt "0333333333") f_general 46 (Bits 1302262299) Success 0;
  fc F32 (txt "0444444444") f_general 46 (Bits 1305734521) Success 0;
  fc F32 (txt "-111111111") f_general 46 (Bits 3436440953) Success 0;
  fc F32 (txt "-222222222") f_general 46 (Bits 3444829561) Success 0;
  fc F32 (txt "-333333333") f_general 46 (Bits 3449745947) Success 0;
  fc F32 (txt "-444444444") f_general 46 (Bits 3453218169) Success 0;
  fc F32 (txt "-888888888") f_general 46 (Bits 3461606777) Success 0;
  fc F32 (txt "0000000055") f_general 46 (Bits 1113325568) Success 0;
  fc F32 (txt "0000000066") f_general 46 (Bits 1115947008) Success 0;
  fc F32 (txt "0000000077") f_general 46 (Bits 1117388800) Success 0;
  fc F32 (txt "0000000088") f_general 46 (Bits 1118830592) Success 0;
  fc F32 (txt "0000000099") f_general 46 (Bits 1120272384) Success 0;
  fc F32 (txt "-000000055") f_general 46 (Bits 3260809216) Success 0;
  fc F32 (txt "-000000066") f_general 46 (Bits 3263430656) Success 0;
  fc F32 (txt "-000000077") f_general 46 (Bits 3264872448) Success 0;
  fc F32 (txt "-000000099") f_general 46 (Bits 3267756032) Success 0;
  fc F32 (txt "0000000555") f_general 46 (Bits 1141555200) Success 0;
  fc F32 (txt "0000000666") f_general 46 (Bits 1143373824) Success 0;
  fc F32 (txt "0000000777") f_general 46 (Bits 1145192448) Success 0;
  fc F32 (txt "0000000888") f_general 46 (Bits 1147011072) Success 0;
  fc F32 (txt "0000000999") f_general 46 (Bits 1148829696) Success 0;
  fc F32 (txt "-000000555") f_general 46 (Bits 3289038848) Success 0;
  fc F32 (txt "-000000666") f_general 46 (Bits 3290857472) Success 0;
  fc F32 (txt "-000000777") f_general 46 (Bits 3292676096) Success 0;
  fc F32 (txt "-000000999") f_general 46 (Bits 3296313344) Success 0;
  fc F32 (txt "0000005555") f_general 46 (Bits 1169004544) Success 0;
  fc F32 (txt "0000006666") f_general 46 (Bits 1171279872) Success 0;
  fc F32 (txt "0000007777") f_general 46 (Bits 1173555200) Success 0;
  fc F32 (txt "0000008888") f_general 46 (Bits 1175117824) Success 0;
  fc F32 (txt "0000009999") f_general 46 (Bits 1176255488) Success 0;
  fc F32 (txt "-000005555") f_general 46 (Bits 3316488192) Success 0;
  fc F32 (txt "-000006666") f_general 46 (Bits 3318763520) Success 0;
  fc F32 (txt "-000007777") f_general 46 (Bits 3321038848) Success 0;
  fc F32 (txt "-000009999") f_general 46 (Bits 3323739136) Success 0;
  fc F32 (txt "0000055555") f_general 46 (Bits 1197015808) Success 0;
  fc F32 (txt "0000066666") f_general 46 (Bits 1199715584) Success 0;
  fc F32 (txt "0000077777") f_general 46 (Bits 1201137792) Success 0;
  fc F32 (txt "0000088888") f_general 46 (Bits 1202560000) Success 0;
  fc F32 (txt "0000099999") f_general 46 (Bits 1203982208) Success 0;
  fc F32 (txt "-000055555") f_general 46 (Bits 3344499456) Success 0;
  fc F32 (txt "-000066666") f_general 46 (Bits 3347199232) Success 0;
  fc F32 (txt "-000077777") f_general 46 (Bits 3348621440) Success 0;
  fc F32 (txt "-000099999") f_general 46 (Bits 3351465856) Success 0;
  fc F32 (txt "0000555555") f_general 46 (Bits 1225237040) Success 0;
  fc F32 (txt "0000666666") f_general 46 (Bits 1227014816) Success 0;
  fc F32 (txt "0000777777") f_general 46 (Bits 1228792592) Success 0;
  fc F32 (txt "0000888888") f_general 46 (Bits 1230570368) Success 0;
  fc F32 (txt "0000999999") f_general 46 (Bits 1232348144) Success 0;
  fc F32 (txt "-000555555") f_general 46 (Bits 3372720688) Success 0;
  fc F32 (txt "-000666666") f_general 46 (Bits 3374498464) Success 0;
  fc F32 (txt "-000777777") f_general 46 (Bits 3376276240) Success 0;
  fc F32 (txt "-000999999") f_general 46 (Bits 3379831792) Success 0;
  fc F32 (txt "0005555555") f_general 46 (Bits 1252625094) Success 0;
  fc F32 (txt "0006666666") f_general 46 (Bits 1254847316) Success 0;
  fc F32 (txt "0007777777") f_general 46 (Bits 1257069538) Success 0;
  fc F32 (txt "0008888888") f_general 46 (Bits 1258791480) Success 0;
  fc F32 (txt "0009999999") f_general 46 (Bits 1259902591) Success 0;
  fc F32 (txt "-005555555") f_general 46 (Bits 3400108742) Success 0;
  fc F32 (txt "-006666666") f_general 46 (Bits 3402330964) Success 0;
  fc F32 (txt "-007777777") f_general 46 (Bits 3404553186) Success 0;
  fc F32 (txt "-009999999") f_general 46 (Bits 3407386239) Success 0;
  fc F32 (txt "0055555555") f_general 46 (Bits 1280568697) Success 0;
  fc F32 (txt "0066666666") f_general 46 (Bits 1283346474) Success 0;
  fc F32 (txt "0077777777") f_general 46 (Bits 1284790638) Success 0;
  fc F32 (txt "0088888888") f_general 46 (Bits 1286179527) Success 0;
  fc F32 (txt "0099999999") f_general 46 (Bits 1287568416) Success 0;
  fc F32 (txt "-055555555") f_general 46 (Bits 3428052345) Success 0;
  fc F32 (txt "-066666666") f_general 46 (Bits 3430830122) Success 0;
  fc F32 (txt "-077777777") f_general 46 (Bits 3432274286) Success 0;
  fc F32 (txt "-099999999") f_general 46 (Bits 3435052064) Success 0;
  fc F32 (txt "0555555555") f_general 46 (Bits 1308914796) Success 0;
  fc F32 (txt "0666666666") f_general 46 (Bits 1310650907) Success 0;
  fc F32 (txt "0777777777") f_general 46 (Bits 1312387018) Success 0;
  fc F32 (txt "0888888888") f_general 46 (Bits 1314123129) Success 0;
  fc F32 (txt "0999999999") f_general 46 (Bits 1315859240) Success 0;
  fc F32 (txt "-555555555") f_general 46 (Bits 3456398444) Success 0;
  fc F32 (txt "-666666666") f_general 46 (Bits 3458134555) Success 0;
  fc F32 (txt "-777777777") f_general 46 (Bits 3459870666) Success 0;
  fc F32 (txt "-999999999") f_general 46 (Bits 3463342888) Success 0;
  fc F32 (txt "-2147483426") f_general 46 (Bits 3472883710) Success 0;
  fc F32 (txt "101") f_general 46 (Bits 1120534528) Success 0;
  fc F32 (txt "-2147483389") f_general 46 (Bits 3472883710) Success 0;
  fc F32 (txt "103") f_general 46 (Bits 1120796672) Success 0;
  fc F32 (txt "-2147483352") f_general 46 (Bits 3472883710) Success 0;
  fc F32 (txt "105") f_general 46 (Bits 1121058816) Success 0;
  fc F32 (txt "-2147483315") f_general 46 (Bits 3472883709) Success 0;
  fc F32 (txt "0000001234567890") f_general 46 (Bits 1318267910) Success 0;
  fc F32 (txt "0000001234567890") f_general 46 (Bits 1318267910) Success 0;
  fc F32 (txt "-0000001234567890") f_general 46 (Bits 3465751558) Success 0;
  fc F32 (txt "000001234567890") f_general 46 (Bits 1318267910) Success 0;
  fc F32 (txt "000001234567890") f_general 46 (Bits 1318267910) Success 0;
  fc F32 (txt "-000001234567890") f_general 46 (Bits 3465751558) Success 0;
  fc F32 (txt "00001234567890") f_general 46 (Bits 1318267910) Success 0;
  fc F32 (txt "00001234567890") f_general 46 (Bits 1318267910) Success 0;
  fc F32 (txt "-00001234567890") f_general 46 (Bits 3465751558) Success 0;
  fc F32 (txt "0001234567890") f_general 46 (Bits 1318267910) Success 0;
  fc F32 (txt "0001234567890") f_general 46 (Bits 1318267910) Success 0;
  fc F32 (txt "-0001234567890") f_general 46 (Bits 3465751558) Success 0;
  fc F32 (txt "001234567890") f_general 46 (Bits 1318267910) Success 0;
  fc F32 (txt "001234567890") f_general 46 (Bits 1318267910) Success 0;
  fc F32 (txt "-001234567890") f_general 46 (Bits 3465751558) Success 0;
  fc F32 (txt "01234567890") f_general 46 (Bits 1318267910) Success 0;
  fc F32 (txt "01234567890") f_general 46 (Bits 1318267910) Success 0;
  fc F32 (txt "-01234567890") f_general 46 (Bits 3465751558) Success 0;
  fc F32 (txt "1234567890") f_general 46 (Bits 1318267910) Success 0;
  fc F32 (txt "1234567890") f_general 46 (Bits 1318267910) Success 0;
  fc F32 (txt "-1234567890") f_general 46 (Bits 3465751558) Success 0;
  fc F64 (txt "9007199254740993") f_general 46 (Bits 4845873199050653696) Success 0;
  fc F64 (txt "9007199254740994") f_general 46 (Bits 4845873199050653697) Success 0;
  fc F64 (txt "9007199254740995") f_general 46 (Bits 4845873199050653698) Success 0;
  fc F64 (txt "0") f_general 46 (Bits 0) Success 0;
  fc F64 (txt "1") f_general 46 (Bits 4607182418800017408) Success 0;
  fc F64 (txt "2") f_general 46 (Bits 4611686018427387904) Success 0;
  fc F64 (txt "3") f_general 46 (Bits 4613937818241073152) Success 0;
  fc F64 (txt "4") f_general 46 (Bits 4616189618054758400) Success 0;
  fc F64 (txt "5") f_general 46 (Bits 4617315517961601024) Success 0;
  fc F64 (txt "6") f_general 46 (Bits 4618441417868443648) Success 0;
  fc F64 (txt "7") f_general 46 (Bits 4619567317775286272) Success 0;
  fc F64 (txt "8") f_general 46 (Bits 4620693217682128896) Success 0;
  fc F64 (txt "9") f_general 46 (Bits 4621256167635550208) Success 0;
  fc F64 (txt "917049") f_general 46 (Bits 4696124603020345344) Success 0;
  fc F64 (txt "4931205") f_general 46 (Bits 4707052852026015744) Success 0;
  fc F64 (txt "6768064") f_general 46 (Bits 4709025164359106560) Success 0;
  fc F64 (txt "6884243") f_general 46 (Bits 4709149910610477056) Success 0;
  fc F64 (txt "5647132") f_general 46 (Bits 4707821572788846592) Success 0;
  fc F64 (txt "7371203") f_general 46 (Bits 4709672779929092096) Success 0;
  fc F64 (txt "-8629878") f_general 46 (Bits 13934266777929252864) Success 0;
  fc F64 (txt "4941840") f_general 46 (Bits 4707064271270313984) Success 0;
  fc F64 (txt "4543268") f_general 46 (Bits 4706636307844038656) Success 0;
  fc F64 (txt "1075600") f_general 46 (Bits 4697370478543634432) Success 0;
  fc F64 (txt "290") f_general 46 (Bits 4643809350144491520) Success 0;
  fc F64 (txt "823") f_general 46 (Bits 4650450400376258560) Success 0;
  fc F64 (txt "111") f_general 46 (Bits 4637511347540590592) Success 0;
  fc F64 (txt "715") f_general 46 (Bits 4649500422329860096) Success 0;
  fc F64 (txt "-866") f_general 46 (Bits 13874200669230989312) Success 0;
  fc F64 (txt "367") f_general 46 (Bits 4645163948469911552) Success 0;
  fc F64 (txt "666") f_general 46 (Bits 4649069413771771904) Success 0;
  fc F64 (txt "-706") f_general 46 (Bits 13872793294347436032) Success 0;
  fc F64 (txt "850") f_general 46 (Bits 4650687894887858176) Success 0;
  fc F64 (txt "-161") f_general 46 (Bits 13863240737325318144) Success 0;
  fc F64 (txt "9922547") f_general 46 (Bits 4711588737459421184) Success 0;
  fc F64 (txt "6960207") f_general 46 (Bits 4709231476334395392) Success 0;
  fc F64 (txt "1883152") f_general 46 (Bits 4700838887973453824) Success 0;
  fc F64 (txt "2300759") f_general 46 (Bits 4702195253677916160) Success 0;
  fc F64 (txt "-279294") f_general 46 (Bits 13911913883703967744) Success 0;
  fc F64 (txt "4187292") f_general 46 (Bits 4706246552446828544) Success 0;
  fc F64 (txt "3699841") f_general 46 (Bits 4705199759395127296) Success 0;
  fc F64 (txt "8386395") f_general 46 (Bits 4710762834038882304) Success 0;
  fc F64 (txt "-1441129") f_general 46 (Bits 13922312450499149824) Success 0;
  fc F64 (txt "-887892") f_general 46 (Bits 13919246183152222208) Success 0;
  fc F64 (txt "-635422") f_general 46 (Bits 13917077482365779968) Success 0;
  fc F64 (txt "9742573") f_general 46 (Bits 4711492114653904896) Success 0;
  fc F64 (txt "2326186") f_general 46 (Bits 4702249857744633856) Success 0;
  fc F64 (txt "-5903851") f_general 46 (Bits 13931469259570937856) Success 0;
  fc F64 (txt "5648486") f_general 46 (Bits 4707823026635276288) Success 0;
  fc F64 (txt "3057647") f_general 46 (Bits 4703820658281283584) Success 0;
  fc F64 (txt "2980079") f_general 46 (Bits 4703654082269675520) Success 0;
  fc F64 (txt "2957468") f_general 46 (Bits 4703605525516910592) Success 0;
  fc F64 (txt "7929158") f_general 46 (Bits 4710271879548502016) Success 0;
  fc F64 (txt "1925615") f_general 46 (Bits 4701021265169743872) Success 0;
  fc F64 (txt "879") f_general 46 (Bits 4650942981585502208) Success 0;
  fc F64 (txt "130") f_general 46 (Bits 4638777984935788544) Success 0;
  fc F64 (txt "292") f_general 46 (Bits 4643844534516580352) Success 0;
  fc F64 (txt "705") f_general 46 (Bits 4649412461399638016) Success 0;
  fc F64 (txt "817") f_general 46 (Bits 4650397623818125312) Success 0;
  fc F64 (txt "446") f_general 46 (Bits 4646553731167420416) Success 0;
  fc F64 (txt "576") f_general 46 (Bits 4648277765399773184) Success 0;
  fc F64 (txt "750") f_general 46 (Bits 4649808285585637376) Success 0;
  fc F64 (txt "523") f_general 46 (Bits 4647811572469596160) Success 0;
  fc F64 (txt "-527") f_general 46 (Bits 13871218793696460800) Success 0;
  fc F64 (txt "4365041") f_general 46 (Bits 4706444938059972608) Success 0;
  fc F64 (txt "5624958") f_general 46 (Bits 4707797763637641216) Success 0;
  fc F64 (txt "8990205") f_general 46 (Bits 4711088190159585280) Success 0;
  fc F64 (txt "2652177") f_general 46 (Bits 4702949918086529024) Success 0;
  fc F64 (txt "3993588") f_general 46 (Bits 4705830576274276352) Success 0;
  fc F64 (txt "-298316") f_general 46 (Bits 13912240679175585792) Success 0;
  fc F64 (txt "2901599") f_general 46 (Bits 4703485547752980480) Success 0;
  fc F64 (txt "3887387") f_general 46 (Bits 4705602511363375104) Success 0;
  fc F64 (txt "-5202979") f_general 46 (Bits 13930716703991267328) Success 0;
  fc F64 (txt "1196268") f_general 46 (Bits 4697888743657308160) Success 0;
  fc F64 (txt "5968501") f_general 46 (Bits 4708166640125083648) Success 0;
  fc F64 (txt "7619928") f_general 46 (Bits 4709939846364266496) Success 0;
  fc F64 (txt "3565643") f_general 46 (Bits 4704911571384532992) Success 0;
  fc F64 (txt "1885272") f_general 46 (Bits 4700847993304121344) Success 0;
  fc F64 (txt "-749485") f_general 46 (Bits 13918057276075147264) Success 0;
  fc F64 (txt "2961381") f_general 46 (Bits 4703613928620425216) Success 0;
  fc F64 (txt "2982579") f_general 46 (Bits 4703659450978795520) Success 0;
  fc F64 (txt "2387454") f_general 46 (Bits 4702381429772779520) Success 0;
  fc F64 (txt "4250081") f_general 46 (Bits 4706321500699885568) Success 0;
  fc F64 (txt "5958205") f_general 46 (Bits 4708155584879263744) Success 0;
  fc F64 (txt "00000") f_general 46 (Bits 0) Success 0;
  fc F64 (txt "00001") f_general 46 (Bits 4607182418800017408) Success 0;
  fc F64 (txt "00002") f_general 46 (Bits 4611686018427387904) Success 0;
  fc F64 (txt "00003") f_general 46 (Bits 4613937818241073152) Success 0;
  fc F64 (txt "00004") f_general 46 (Bits 4616189618054758400) Success 0;
  fc F64 (txt "00005") f_general 46 (Bits 4617315517961601024) Success 0;
  fc F64 (txt "00006") f_general 46 (Bits 4618441417868443648) Success 0;
  fc F64 (txt "00007") f_general 46 (Bits 4619567317775286272) Success 0;
  fc F64 (txt "00008") f_general 46 (Bits 4620693217682128896) Success 0;
  fc F64 (txt "00009") f_general 46 (Bits 4621256167635550208) Success 0;
  fc F64 (txt "4907034") f_general 46 (Bits 4707026898612387840) Success 0;
  fc F64 (txt "2592882") f_general 46 (Bits 4702822583043620864) Success 0;
  fc F64 (txt "3269234") f_general 46 (Bits 4704275037903912960) Success 0;
  fc F64 (txt "549815") f_general 46 (Bits 4692970086980386816) Success 0;
  fc F64 (txt "6256292") f_general 46 (Bits 4708475653358354432) Success 0;
  fc F64 (txt "9721039") f_general 46 (Bits 4711480553675685888) Success 0;
  fc F64 (txt "-595225") f_general 46 (Bits 13916732192764985344) Success 0;
  fc F64 (txt "5587491") f_general 46 (Bits 4707757533752721408) Success 0;
  fc F64 (txt "4596297") f_general 46 (Bits 4706693247299223552) Success 0;
  fc F64 (txt "-3885009") f_general 46 (Bits 13928969441502035968) Success 0;
  fc F64 (txt "673") f_general 46 (Bits 4649130986422927360) Success 0;
  fc F64 (txt "-899") f_general 46 (Bits 13874490940300722176) Success 0;
  fc F64 (txt "174") f_general 46 (Bits 4640326097307697152) Success 0;
  fc F64 (txt "354") f_general 46 (Bits 4644935250051334144) Success 0;
  fc F64 (txt "870") f_general 46 (Bits 4650863816748302336) Success 0;
  fc F64 (txt "147") f_general 46 (Bits 4639376119261298688) Success 0;
  fc F64 (txt "898") f_general 46 (Bits 4651110107352924160) Success 0;
  fc F64 (txt "-510") f_general 46 (Bits 13871051667929038848) Success 0;
  fc F64 (txt "369") f_general 46 (Bits 4645199132842000384) Success 0;
  fc F64 (txt "859") f_general 46 (Bits 4650767059725058048) Success 0;
  fc F64 (txt "6518423") f_general 46 (Bits 4708757114376421376) Success 0;
  fc F64 (txt "5149762") f_general 46 (Bits 4707287525817843712) Success 0;
  fc F64 (txt "8834164") f_general 46 (Bits 4711004416285605888) Success 0;
  fc F64 (txt "-8085586") f_general 46 (Bits 13933811879689322496) Success 0;
  fc F64 (txt "3233120") f_general 46 (Bits 4704197483679449088) Success 0;
  fc F64 (txt "8166948") f_general 46 (Bits 4710527204616830976) Success 0;
  fc F64 (txt "4172345") f_general 46 (Bits 4706214454008741888) Success 0;
  fc F64 (txt "6735549") f_general 46 (Bits 4708990251643699200) Success 0;
  fc F64 (txt "-934295") f_general 46 (Bits 13919644781887094784) Success 0;
  fc F64 (txt "9481935") f_general 46 (Bits 4711352185693143040) Success 0;
  fc F64 (txt "-430406") f_general 46 (Bits 13914509968096100352) Success 0;
  fc F64 (txt "6932717") f_general 46 (Bits 4709201959171653632) Success 0;
  fc F64 (txt "4087292") f_general 46 (Bits 4706031804082028544) Success 0;
  fc F64 (txt "4047263") f_general 46 (Bits 4705945842459082752) Success 0;
  fc F64 (txt "3236400") f_general 46 (Bits 4704204527425814528) Success 0;
  fc F64 (txt "-3863050") f_general 46 (Bits 13928922284908609536) Success 0;
  fc F64 (txt "4312079") f_general 46 (Bits 4706388070545489920) Success 0;
  fc F64 (txt "6956261") f_general 46 (Bits 4709227239349157888) Success 0;
  fc F64 (txt "5689446") f_general 46 (Bits 4707867007100387328) Success 0;
  fc F64 (txt "3871332") f_general 46 (Bits 4705568033513406464) Success 0;
  fc F64 (txt "535") f_general 46 (Bits 4647917125585862656) Success 0;
  fc F64 (txt "691") f_general 46 (Bits 4649289316097327104) Success 0;
  fc F64 (txt "326") f_general 46 (Bits 4644442668842090496) Success 0;
  fc F64 (txt "-409") f_general 46 (Bits 13869274857138552832) Success 0;
  fc F64 (txt "704") f_general 46 (Bits 4649403665306615808) Success 0;
  fc F64 (txt "-568") f_general 46 (Bits 13871579433510371328) Success 0;
  fc F64 (txt "301") f_general 46 (Bits 4644002864190980096) Success 0;
  fc F64 (txt "951") f_general 46 (Bits 4651576300283101184) Success 0;
  fc F64 (txt "121") f_general 46 (Bits 4638215034982367232) Success 0;
  fc F64 (txt "384") f_general 46 (Bits 4645463015632666624) Success 0;
  fc F64 (txt "4969414") f_general 46 (Bits 4707093878627368960) Success 0;
  fc F64 (txt "9378599") f_general 46 (Bits 4711296707600580608) Success 0;
  fc F64 (txt "7971781") f_general 46 (Bits 4710317645646266368) Success 0;
  fc F64 (txt "5380630") f_general 46 (Bits 4707535418445266944) Success 0;
  fc F64 (txt "5001363") f_general 46 (Bits 4707128183604903936) Success 0;
  fc F64 (txt "1715827") f_general 46 (Bits 4700120232570650624) Success 0;
  fc F64 (txt "6044615") f_general 46 (Bits 4708248366910275584) Success 0;
  fc F64 (txt "9118925") f_general 46 (Bits 4711157296183377920) Success 0;
  fc F64 (txt "9956168") f_general 46 (Bits 4711606787596353536) Success 0;
  fc F64 (txt "-8865496") f_general 46 (Bits 13934393274379796480) Success 0;
  fc F64 (txt "5962464") f_general 46 (Bits 4708160157945692160) Success 0;
  fc F64 (txt "7408980") f_general 46 (Bits 4709713342673977344) Success 0;
  fc F64 (txt "6646513") f_general 46 (Bits 4708894649966657536) Success 0;
  fc F64 (txt "-634564") f_general 46 (Bits 13917070112201900032) Success 0;
  fc F64 (txt "4188330") f_general 46 (Bits 4706248781534855168) Success 0;
  fc F64 (txt "9805948") f_general 46 (Bits 4711526138847952896) Success 0;
  fc F64 (txt "5625691") f_general 46 (Bits 4707798550690398208) Success 0;
  fc F64 (txt "7641113") f_general 46 (Bits 4709962593584807936) Success 0;
  fc F64 (txt "-4212929") f_general 46 (Bits 13929653645898416128) Success 0;
  fc F64 (txt "7802447") f_general 46 (Bits 4710135824648241152) Success 0;
  fc F64 (txt "0") f_general 46 (Bits 0) Success 0;
  fc F64 (txt "1") f_general 46 (Bits 4607182418800017408) Success 0;
  fc F64 (txt "2") f_general 46 (Bits 4611686018427387904) Success 0;
  fc F64 (txt "3") f_general 46 (Bits 4613937818241073152) Success 0;
  fc F64 (txt "4") f_general 46 (Bits 4616189618054758400) Success 0;
  fc F64 (txt "5") f_general 46 (Bits 4617315517961601024) Success 0;
  fc F64 (txt "6") f_general 46 (Bits 4618441417868443648) Success 0;
  fc F64 (txt "7") f_general 46 (Bits 4619567317775286272) Success 0;
  fc F64 (txt "8") f_general 46 (Bits 4620693217682128896) Success 0;
  fc F64 (txt "9") f_general 46 (Bits 4621256167635550208) Success 0;
  fc F64 (txt "2174248") f_general 46 (Bits 4701923573374124032) Success 0;
  fc F64 (txt "7449361") f_general 46 (Bits 4709756701442572288) Success 0;
  fc F64 (txt "9896659") f_general 46 (Bits 4711574838945251328) Success 0;
  fc F64 (txt "-25961") f_general 46 (Bits 13896237356152782848) Success 0;
  fc F64 (txt "1706598") f_general 46 (Bits 4700080594317475840) Success 0;
  fc F64 (txt "2412368") f_general 46 (Bits 4702434932180385792) Success 0;
  fc F64 (txt "-4617035") f_general 46 (Bits 13930087551411945472) Success 0;
  fc F64 (txt "6314554") f_general 46 (Bits 4708538211704504320) Success 0;
  fc F64 (txt "2225957") f_general 46 (Bits 4702034617606078464) Success 0;
  fc F64 (txt "7521434") f_general 46 (Bits 4709834089237053440) Success 0;
  fc F64 (txt "-9530566") f_general 46 (Bits 13934750331117240320) Success 0;
  fc F64 (txt "3914164") f_general 46 (Bits 4705660014533017600) Success 0;
  fc F64 (txt "2394759") f_general 46 (Bits 4702397117140828160) Success 0;
  fc F64 (txt "7157744") f_general 46 (Bits 4709443580073082880) Success 0;
  fc F64 (txt "9919392") f_general 46 (Bits 4711587043631693824) Success 0;
  fc F64 (txt "6406949") f_general 46 (Bits 4708637420080332800) Success 0;
  fc F64 (txt "-744004") f_general 46 (Bits 13918010194643648512) Success 0;
  fc F64 (txt "9899789") f_general 46 (Bits 4711576519351205888) Success 0;
  fc F64 (txt "8380325") f_general 46 (Bits 4710756316426010624) Success 0;
  fc F64 (txt "-1416284") f_general 46 (Bits 13922205742036680704) Success 0;
  fc F64 (txt "3402833") f_general 46 (Bits 4704561939571802112) Success 0;
  fc F64 (txt "2150043") f_general 46 (Bits 4701871593532424192) Success 0;
  fc F64 (txt "5191009") f_general 46 (Bits 4707331814446858240) Success 0;
  fc F64 (txt "8979538") f_general 46 (Bits 4711082463357566976) Success 0;
  fc F64 (txt "9565778") f_general 46 (Bits 4711397198561017856) Success 0;
  fc F64 (txt "3750211") f_general 46 (Bits 4705307928146477056) Success 0;
  fc F64 (txt "7304823") f_general 46 (Bits 4709601504946814976) Success 0;
  fc F64 (txt "2829359") f_general 46 (Bits 4703330413534248960) Success 0;
  fc F64 (txt "6544236") f_general 46 (Bits 4708784830874124288) Success 0;
  fc F64 (txt "-615740") f_general 46 (Bits 13916908415273140224) Success 0;
  fc F64 (txt "363") f_general 46 (Bits 4645093579725733888) Success 0;
  fc F64 (txt "-627") f_general 46 (Bits 13872098402998681600) Success 0;
  fc F64 (txt "129") f_general 46 (Bits 4638742800563699712) Success 0;
  fc F64 (txt "656") f_general 46 (Bits 4648981452841549824) Success 0;
  fc F64 (txt "135") f_general 46 (Bits 4638953906796232704) Success 0;
  fc F64 (txt "113") f_general 46 (Bits 4637652085028945920) Success 0;
  fc F64 (txt "381") f_general 46 (Bits 4645410239074533376) Success 0;
  fc F64 (txt "646") f_general 46 (Bits 4648893491911327744) Success 0;
  fc F64 (txt "198") f_general 46 (Bits 4641170522237829120) Success 0;
  fc F64 (txt "38") f_general 46 (Bits 4630544841867001856) Success 0;
  fc F64 (txt "8060564") f_general 46 (Bits 4710412975666626560) Success 0;
  fc F64 (txt "-176752") f_general 46 (Bits 13908685202168741888) Success 0;
  fc F64 (txt "1184717") f_general 46 (Bits 4697839132490072064) Success 0;
  fc F64 (txt "-666343") f_general 46 (Bits 13917343091733299200) Success 0;
  fc F64 (txt "-1273292") f_general 46 (Bits 13921591596073091072) Success 0;
  fc F64 (txt "-485827") f_general 46 (Bits 13915462093626146816) Success 0;
  fc F64 (txt "6241066") f_general 46 (Bits 4708459304565342208) Success 0;
  fc F64 (txt "6579411") f_general 46 (Bits 4708822599742783488) Success 0;
  fc F64 (txt "8093119") f_general 46 (Bits 4710447931331706880) Success 0;
  fc F64 (txt "7481306") f_general 46 (Bits 4709791002125139968) Success 0;
  fc F64 (txt "-4924485") f_general 46 (Bits 13930417673335734272) Success 0;
  fc F64 (txt "7467889") f_general 46 (Bits 4709776595731087360) Success 0;
  fc F64 (txt "9813178") f_general 46 (Bits 4711530020424646656) Success 0;
  fc F64 (txt "7927100") f_general 46 (Bits 4710269669787828224) Success 0;
  fc F64 (txt "3614859") f_general 46 (Bits 4705017261939752960) Success 0;
  fc F64 (txt "7293354") f_general 46 (Bits 4709589190201835520) Success 0;
  fc F64 (txt "9232973") f_general 46 (Bits 4711218525237149696) Success 0;
  fc F64 (txt "4323115") f_general 46 (Bits 4706399920360259584) Success 0;
  fc F64 (txt "1133911") f_general 46 (Bits 4697620922381631488) Success 0;
  fc F64 (txt "9511638") f_general 46 (Bits 4711368132369842176) Success 0;
  fc F64 (txt "4443188") f_general 46 (Bits 4706528847762292736) Success 0;
  fc F64 (txt "2289448") f_general 46 (Bits 4702170963490373632) Success 0;
  fc F64 (txt "5639726") f_general 46 (Bits 4707813620656898048) Success 0;
  fc F64 (txt "9073898") f_general 46 (Bits 4711133122496823296) Success 0;
  fc F64 (txt "8540394") f_general 46 (Bits 4710846699717787648) Success 0;
  fc F64 (txt "5389992") f_general 46 (Bits 4707545470816223232) Success 0;
  fc F64 (txt "1397726") f_general 46 (Bits 4698753999178825728) Success 0;
  fc F64 (txt "-589230") f_general 46 (Bits 13916680696107106304) Success 0;
  fc F64 (txt "1017086") f_general 46 (Bits 4696983914307125248) Success 0;
  fc F64 (txt "1852330") f_general 46 (Bits 4700706508491456512) Success 0;
  fc F64 (txt "-840") f_general 46 (Bits 13873971970812411904) Success 0;
  fc F64 (txt "267") f_general 46 (Bits 4643404729865469952) Success 0;
  fc F64 (txt "201") f_general 46 (Bits 4641276075354095616) Success 0;
  fc F64 (txt "533") f_general 46 (Bits 4647899533399818240) Success 0;
  fc F64 (txt "-675") f_general 46 (Bits 13872520615463747584) Success 0;
  fc F64 (txt "494") f_general 46 (Bits 4647398156097552384) Success 0;
  fc F64 (txt "315") f_general 46 (Bits 4644249154795601920) Success 0;
  fc F64 (txt "706") f_general 46 (Bits 4649421257492660224) Success 0;
  fc F64 (txt "-920") f_general 46 (Bits 13874675658254188544) Success 0;
  fc F64 (txt "784") f_general 46 (Bits 4650107352748392448) Success 0;
  fc F64 (txt "9097353") f_general 46 (Bits 4711145714804064256) Success 0;
  fc F64 (txt "6002251") f_general 46 (Bits 4708202878911643648) Success 0;
  fc F64 (txt "-308780") f_general 46 (Bits 13912420449326727168) Success 0;
  fc F64 (txt "-3830169") f_general 46 (Bits 13928851673498779648) Success 0;
  fc F64 (txt "4340467") f_general 46 (Bits 4706418551928389632) Success 0;
  fc F64 (txt "2235284") f_general 46 (Bits 4702054647186063360) Success 0;
  fc F64 (txt "3314444") f_general 46 (Bits 4704372125639639040) Success 0;
  fc F64 (txt "1085967") f_general 46 (Bits 4697415004469592064) Success 0;
  fc F64 (txt "4152107") f_general 46 (Bits 4706170993234673664) Success 0;
  fc F64 (txt "5431117") f_general 46 (Bits 4707589628448735232) Success 0;
  fc F64 (txt "-0000") f_general 46 (Bits 9223372036854775808) Success 0;
  fc F64 (txt "-0001") f_general 46 (Bits 13830554455654793216) Success 0;
  fc F64 (txt "-0002") f_general 46 (Bits 13835058055282163712) Success 0;
  fc F64 (txt "-0003") f_general 46 (Bits 13837309855095848960) Success 0;
  fc F64 (txt "-0004") f_general 46 (Bits 13839561654909534208) Success 0;
  fc F64 (txt "-0005") f_general 46 (Bits 13840687554816376832) Success 0;
  fc F64 (txt "-0006") f_general 46 (Bits 13841813454723219456) Success 0;
  fc F64 (txt "-0007") f_general 46 (Bits 13842939354630062080) Success 0;
  fc F64 (txt "-0008") f_general 46 (Bits 13844065254536904704) Success 0;
  fc F64 (txt "-0009") f_general 46 (Bits 13844628204490326016) Success 0;
  fc F64 (txt "-444999") f_general 46 (Bits 13914760673927102464) Success 0;
  fc F64 (txt "2136400") f_general 46 (Bits 4701842295413014528) Success 0;
  fc F64 (txt "6925907") f_general 46 (Bits 4709194646989832192) Success 0;
  fc F64 (txt "6990614") f_general 46 (Bits 4709264125602037760) Success 0;
  fc F64 (txt "3588271") f_general 46 (Bits 4704960164644519936) Success 0;
  fc F64 (txt "8422028") f_general 46 (Bits 4710783152455417856) Success 0;
  fc F64 (txt "-4034772") f_general 46 (Bits 13929291055095611392) Success 0;
  fc F64 (txt "5804039") f_general 46 (Bits 4707990050397224960) Success 0;
  fc F64 (txt "-6740545") f_general 46 (Bits 13932367652912627712) Success 0;
  fc F64 (txt "9381873") f_general 46 (Bits 4711298465315946496) Success 0;
  fc F64 (txt "-924923") f_general 46 (Bits 13919564277020098560) Success 0;
  fc F64 (txt "1652367") f_general 46 (Bits 4699847673946046464) Success 0;
  fc F64 (txt "2302616") f_general 46 (Bits 4702199241555050496) Success 0;
  fc F64 (txt "6776663") f_general 46 (Bits 4709034397465051136) Success 0;
  fc F64 (txt "2567821") f_general 46 (Bits 4702768764955918336) Success 0;
  fc F64 (txt "-248935") f_general 46 (Bits 13911165391163359232) Success 0;
  fc F64 (txt "2587688") f_general 46 (Bits 4702811429013553152) Success 0;
  fc F64 (txt "7076742") f_general 46 (Bits 4709356604837855232) Success 0;
  fc F64 (txt "-6461467") f_general 46 (Bits 13932067995191869440) Success 0;
  fc F64 (txt "1562896") f_general 46 (Bits 4699463398927106048) Success 0;
  fc F64 (txt "-768116") f_general 46 (Bits 13918217315146530816) Success 0;
  fc F64 (txt "2338768") f_general 46 (Bits 4702276877383892992) Success 0;
  fc F64 (txt "9887307") f_general 46 (Bits 4711569818128482304) Success 0;
  fc F64 (txt "9992184") f_general 46 (Bits 4711626123539120128) Success 0;
  fc F64 (txt "2045182") f_general 46 (Bits 4701534801524424704) Success 0;
  fc F64 (txt "2797589") f_general 46 (Bits 4703262187978752000) Success 0;
  fc F64 (txt "9784597") f_general 46 (Bits 4711514676117110784) Success 0;
  fc F64 (txt "9696554") f_general 46 (Bits 4711467408391405568) Success 0;
  fc F64 (txt "5113329") f_general 46 (Bits 4707248406181969920) Success 0;
  fc F64 (txt "1067216") f_general 46 (Bits 4697334469537824768) Success 0;
  fc F64 (txt "-76247763") f_general 46 (Bits 13948261347096526848) Success 0;
  fc F64 (txt "58169007") f_general 46 (Bits 4723076121816465408) Success 0;
  fc F64 (txt "29408062") f_general 46 (Bits 4718659376762585088) Success 0;
  fc F64 (txt "85342511") f_general 46 (Bits 4725499648448397312) Success 0;
  fc F64 (txt "42092201") f_general 46 (Bits 4720918329441648640) Success 0;
  fc F64 (txt "-95817703") f_general 46 (Bits 13949574663538475008) Success 0;
  fc F64 (txt "-1912517") f_general 46 (Bits 13924337046542876672) Success 0;
  fc F64 (txt "-26275135") f_general 46 (Bits 13941190424929501184) Success 0;
  fc F64 (txt "54656606") f_general 46 (Bits 4722604695334420480) Success 0;
  fc F64 (txt "-58188878") f_general 46 (Bits 13946450825711714304) Success 0;
  fc F64 (txt "473") f_general 46 (Bits 4647028720190619648) Success 0;
  fc F64 (txt "74") f_general 46 (Bits 4634907704006017024) Success 0;
  fc F64 (txt "374") f_general 46 (Bits 4645287093772222464) Success 0;
  fc F64 (txt "-64") f_general 46 (Bits 13857576053419016192) Success 0;
  fc F64 (txt "266") f_general 46 (Bits 4643387137679425536) Success 0;
  fc F64 (txt "715") f_general 46 (Bits 4649500422329860096) Success 0;
  fc F64 (txt "937") f_general 46 (Bits 4651453154980790272) Success 0;
  fc F64 (txt "-249") f_general 46 (Bits 13866336962069135360) Success 0;
  fc F64 (txt "249") f_general 46 (Bits 4642964925214359552) Success 0;
  fc F64 (txt "780") f_general 46 (Bits 4650072168376303616) Success 0;
  fc F64 (txt "3907360") f_general 46 (Bits 4705645403054276608) Success 0;
  fc F64 (txt "-23063423") f_general 46 (Bits 13940328287554240512) Success 0;
  fc F64 (txt "59062754") f_general 46 (Bits 4723196078508212224) Success 0;
  fc F64 (txt "83711047") f_general 46 (Bits 4725390162752700416) Success 0;
  fc F64 (txt "-95221044") f_general 46 (Bits 13949534622430789632) Success 0;
  fc F64 (txt "34894840") f_general 46 (Bits 4719952316000632832) Success 0;
  fc F64 (txt "-38562139") f_general 46 (Bits 13943816569395085312) Success 0;
  fc F64 (txt "-82018330") f_general 46 (Bits 13948648603292532736) Success 0;
  fc F64 (txt "14226223") f_general 46 (Bits 4713899255918493696) Success 0;
  fc F64 (txt "-10799717") f_general 46 (Bits 13935431701372076032) Success 0;
  fc F64 (txt "8529722") f_general 46 (Bits 4710840970231414784) Success 0;
  fc F64 (txt "88961903") f_general 46 (Bits 4725742541733888000) Success 0;
  fc F64 (txt "25608618") f_general 46 (Bits 4717639471279898624) Success 0;
  fc F64 (txt "-39988247") f_general 46 (Bits 13944007978370727936) Success 0;
  fc F64 (txt "33228241") f_general 46 (Bits 4719684848254451712) Success 0;
  fc F64 (txt "38598533") f_general 46 (Bits 4720449417260302336) Success 0;
  fc F64 (txt "21161480") f_general 46 (Bits 4716445701762973696) Success 0;
  fc F64 (txt "-33723784") f_general 46 (Bits 13943167176379727872) Success 0;
  fc F64 (txt "8873948") f_general 46 (Bits 4711025775157968896) Success 0;
  fc F64 (txt "96505557") f_general 46 (Bits 4726248787784237056) Success 0;
  fc F64 (txt "-47385048") f_general 46 (Bits 13945000760195416064) Success 0;
  fc F64 (txt "-79413272") f_general 46 (Bits 13948473780809498624) Success 0;
  fc F64 (txt "-85904404") f_general 46 (Bits 13948909393304092672) Success 0;
  fc F64 (txt "87791158") f_general 46 (Bits 4725663974366904320) Success 0;
  fc F64 (txt "49194195") f_general 46 (Bits 4721871542940598272) Success 0;
  fc F64 (txt "13051222") f_general 46 (Bits 4713268432060022784) Success 0;
  fc F64 (txt "57773302") f_general 46 (Bits 4723023011190407168) Success 0;
  fc F64 (txt "31904423") f_general 46 (Bits 4719329488565960704) Success 0;
  fc F64 (txt "3142966") f_general 46 (Bits 4704003879438647296) Success 0;
  fc F64 (txt "27846156") f_general 46 (Bits 4718240105813245952) Success 0;
  fc F64 (txt "7420011") f_general 46 (Bits 4709725187120037888) Success 0;
  fc F64 (txt "-72376922") f_general 46 (Bits 13948001579354292224) Success 0;
  fc F64 (txt "-68873971") f_general 46 (Bits 13947766500292034560) Success 0;
  fc F64 (txt "23765361") f_general 46 (Bits 4717144675746578432) Success 0;
  fc F64 (txt "4040725") f_general 46 (Bits 4705931802210992128) Success 0;
  fc F64 (txt "-22359806") f_general 46 (Bits 13940139411803996160) Success 0;
  fc F64 (txt "85777219") f_general 46 (Bits 4725528821208449024) Success 0;
  fc F64 (txt "10099223") f_general 46 (Bits 4711683589664669696) Success 0;
  fc F64 (txt "-90364256") f_general 46 (Bits 13949208688905420800) Success 0;
  fc F64 (txt "-40158172") f_general 46 (Bits 13944030785318158336) Success 0;
  fc F64 (txt "-7948696") f_general 46 (Bits 13933664895171035136) Success 0;
  fc F64 (txt "-64344821") f_general 46 (Bits 13947277062394871808) Success 0;
  fc F64 (txt "34404238") f_general 46 (Bits 4719886468514840576) Success 0;
  fc F64 (txt "84037448") f_general 46 (Bits 4725412067153018880) Success 0;
  fc F64 (txt "-85084788") f_general 46 (Bits 13948854389805416448) Success 0;
  fc F64 (txt "-42078409") f_general 46 (Bits 13944288515165519872) Success 0;
  fc F64 (txt "-56550310") f_general 46 (Bits 13946230900837580800) Success 0;
  fc F64 (txt "96898389") f_general 46 (Bits 4726275150293499904) Success 0;
  fc F64 (txt "-595829") f_general 46 (Bits 13916737381085478912) Success 0;
  fc F64 (txt "-73166703") f_general 46 (Bits 13948054580660011008) Success 0;
  fc F64 (txt "-0") f_general 46 (Bits 9223372036854775808) Success 0;
  fc F64 (txt "-1") f_general 46 (Bits 13830554455654793216) Success 0;
  fc F64 (txt "-2") f_general 46 (Bits 13835058055282163712) Success 0;
  fc F64 (txt "-3") f_general 46 (Bits 13837309855095848960) Success 0;
  fc F64 (txt "-4") f_general 46 (Bits 13839561654909534208) Success 0;
  fc F64 (txt "-5") f_general 46 (Bits 13840687554816376832) Success 0;
  fc F64 (txt "-6") f_general 46 (Bits 13841813454723219456) Success 0;
  fc F64 (txt "-7") f_general 46 (Bits 13842939354630062080) Success 0;
  fc F64 (txt "-8") f_general 46 (Bits 13844065254536904704) Success 0;
  fc F64 (txt "-9") f_general 46 (Bits 13844628204490326016) Success 0;
  fc F64 (txt "2147483647") f_general 46 (Bits 4746794007244308480) Success 0;
  fc F64 (txt "31") f_general 46 (Bits 4629418941960159232) Success 0;
  fc F64 (txt "2147483610") f_general 46 (Bits 4746794007089119232) Success 0;
  fc F64 (txt "33") f_general 46 (Bits 4629841154425225216) Success 0;
  fc F64 (txt "2147483573") f_general 46 (Bits 4746794006933929984) Success 0;
  fc F64 (txt "37") f_general 46 (Bits 4630404104378646528) Success 0;
  fc F64 (txt "2147483536") f_general 46 (Bits 4746794006778740736) Success 0;
  fc F64 (txt "-82838342") f_general 46 (Bits 13948703633366319104) Success 0;
  fc F64 (txt "64441808") f_general 46 (Bits 4723918042914881536) Success 0;
  fc F64 (txt "43641062") f_general 46 (Bits 4721126214046056448) Success 0;
  fc F64 (txt "-64419642") f_general 46 (Bits 13947287104699498496) Success 0;
  fc F64 (txt "-44421934") f_general 46 (Bits 13944603057766531072) Success 0;
  fc F64 (txt "75232413") f_general 46 (Bits 4724821171256688640) Success 0;
  fc F64 (txt "-75773725") f_general 46 (Bits 13948229534944854016) Success 0;
  fc F64 (txt "-89139509") f_general 46 (Bits 13949126497525563392) Success 0;
  fc F64 (txt "12812089") f_general 46 (Bits 4713140048508223488) Success 0;
  fc F64 (txt "-97633526") f_general 46 (Bits 13949696521357230080) Success 0;
  fc F64 (txt "36090916") f_general 46 (Bits 4720112850603868160) Success 0;
  fc F64 (txt "-57706234") f_general 46 (Bits 13946386046330601472) Success 0;
  fc F64 (txt "17804655") f_general 46 (Bits 4715544610913386496) Success 0;
  fc F64 (txt "4189936") f_general 46 (Bits 4706252230393593856) Success 0;
  fc F64 (txt "-4100124") f_general 46 (Bits 13929431397446975488) Success 0;
  fc F64 (txt "38803710") f_general 46 (Bits 4720476955651080192) Success 0;
  fc F64 (txt "-39735126") f_general 46 (Bits 13943974005045198848) Success 0;
  fc F64 (txt "-62397437") f_general 46 (Bits 13947015688938848256) Success 0;
  fc F64 (txt "75801648") f_general 46 (Bits 4724859371970887680) Success 0;
  fc F64 (txt "51302332") f_general 46 (Bits 4722154492299051008) Success 0;
  fc F64 (txt "73433906") f_general 46 (Bits 4724700475495022592) Success 0;
  fc F64 (txt "13015224") f_general 46 (Bits 4713249105780932608) Success 0;
  fc F64 (txt "-12624818") f_general 46 (Bits 13936411545010438144) Success 0;
  fc F64 (txt "91360377") f_general 46 (Bits 4725903500599361536) Success 0;
  fc F64 (txt "11576319") f_general 46 (Bits 4712476599541301248) Success 0;
  fc F64 (txt "-54467535") f_general 46 (Bits 13945951355509145600) Success 0;
  fc F64 (txt "8892431") f_general 46 (Bits 4711035698143035392) Success 0;
  fc F64 (txt "36319780") f_general 46 (Bits 4720143568209969152) Success 0;
  fc F64 (txt "38832042") f_general 46 (Bits 4720480758307749888) Success 0;
  fc F64 (txt "50172572") f_general 46 (Bits 4722002858478665728) Success 0;
  fc F64 (txt "-317") f_general 46 (Bits 13867656376022466560) Success 0;
  fc F64 (txt "109") f_general 46 (Bits 4637370610052235264) Success 0;
  fc F64 (txt "-888") f_general 46 (Bits 13874394183277477888) Success 0;
  fc F64 (txt "302") f_general 46 (Bits 4644020456377024512) Success 0;
  fc F64 (txt "-463") f_general 46 (Bits 13870224835184951296) Success 0;
  fc F64 (txt "716") f_general 46 (Bits 4649509218422882304) Success 0;
  fc F64 (txt "916") f_general 46 (Bits 4651268437027323904) Success 0;
  fc F64 (txt "665") f_general 46 (Bits 4649060617678749696) Success 0;
  fc F64 (txt "826") f_general 46 (Bits 4650476788655325184) Success 0;
  fc F64 (txt "513") f_general 46 (Bits 4647723611539374080) Success 0;
  fc F64 (txt "42423473") f_general 46 (Bits 4720962792016838656) Success 0;
  fc F64 (txt "41078812") f_general 46 (Bits 4720782314672488448) Success 0;
  fc F64 (txt "40445652") f_general 46 (Bits 4720697333375827968) Success 0;
  fc F64 (txt "-76722281") f_general 46 (Bits 13948293191460454400) Success 0;
  fc F64 (txt "95092224") f_general 46 (Bits 4726153940612153344) Success 0;
  fc F64 (txt "12075234") f_general 46 (Bits 4712744452492361728) Success 0;
  fc F64 (txt "-4045888") f_general 46 (Bits 13929314926523842560) Success 0;
  fc F64 (txt "-74396490") f_general 46 (Bits 13948137110268542976) Success 0;
  fc F64 (txt "-57304222") f_general 46 (Bits 13946332089193332736) Success 0;
  fc F64 (txt "-21726885") f_general 46 (Bits 13939969513366749184) Success 0;
  fc F64 (txt "92038121") f_general 46 (Bits 4725948983229284352) Success 0;
  fc F64 (txt "-31899682") f_general 46 (Bits 13942700252768239616) Success 0;
  fc F64 (txt "21589254") f_general 46 (Bits 4716560531471728640) Success 0;
  fc F64 (txt "-30260046") f_general 46 (Bits 13942260116330905600) Success 0;
  fc F64 (txt "56000244") f_general 46 (Bits 4722785035374034944) Success 0;
  fc F64 (txt "69686659") f_general 46 (Bits 4724449002005725184) Success 0;
  fc F64 (txt "93327838") f_general 46 (Bits 4726035534672035840) Success 0;
  fc F64 (txt "96882881") f_general 46 (Bits 4726274109569236992) Success 0;
  fc F64 (txt "-91419389") f_general 46 (Bits 13949279497682419712) Success 0;
  fc F64 (txt "77529147") f_general 46 (Bits 4724975302466338816) Success 0;
  fc F64 (txt "43288506") f_general 46 (Bits 4721078894780743680) Success 0;
  fc F64 (txt "1192435") f_general 46 (Bits 4697872281047662592) Success 0;
  fc F64 (txt "-74095920") f_general 46 (Bits 13948116939357290496) Success 0;
  fc F64 (txt "76756590") f_general 46 (Bits 4724923457043693568) Success 0;
  fc F64 (txt "-31184683") f_general 46 (Bits 13942508321685635072) Success 0;
  fc F64 (txt "-35716724") f_general 46 (Bits 13943434664258568192) Success 0;
  fc F64 (txt "9451980") f_general 46 (Bits 4711336103724974080) Success 0;
  fc F64 (txt "-63168350") f_general 46 (Bits 13947119159130193920) Success 0;
  fc F64 (txt "62864002") f_general 46 (Bits 4723706273378336768) Success 0;
  fc F64 (txt "26283194") f_general 46 (Bits 4717820551396065280) Success 0;
  fc F64 (txt "37188395") f_general 46 (Bits 4720260151741775872) Success 0;
  fc F64 (txt "29151634") f_general 46 (Bits 4718590542395473920) Success 0;
  fc F64 (txt "99343471") f_general 46 (Bits 4726439236968906752) Success 0;
  fc F64 (txt "-69450330") f_general 46 (Bits 13947805179089780736) Success 0;
  fc F64 (txt "-55680090") f_general 46 (Bits 13946114101886320640) Success 0;
  fc F64 (txt "-64957599") f_general 46 (Bits 13947359308065800192) Success 0;
  fc F64 (txt "47577948") f_general 46 (Bits 4721654613940371456) Success 0;
  fc F64 (txt "47107924") f_general 46 (Bits 4721591528386985984) Success 0;
  fc F64 (txt "2490477") f_general 46 (Bits 4702602669980647424) Success 0;
  fc F64 (txt "48633003") f_general 46 (Bits 4721796221025386496) Success 0;
  fc F64 (txt "-82740809") f_general 46 (Bits 13948697088037486592) Success 0;
  fc F64 (txt "-24122215") f_general 46 (Bits 13940612504867569664) Success 0;
  fc F64 (txt "67301713") f_general 46 (Bits 4724288950988963840) Success 0;
  fc F64 (txt "-63649610") f_general 46 (Bits 13947183752753971200) Success 0;
  fc F64 (txt "75499016") f_general 46 (Bits 4724839062681157632) Success 0;
  fc F64 (txt "82746620") f_general 46 (Bits 4725325441152319488) Success 0;
  fc F64 (txt "17052193") f_general 46 (Bits 4715342623433293824) Success 0;
  fc F64 (txt "4602244") f_general 46 (Bits 4706699632841850880) Success 0;
  fc F64 (txt "-32721165") f_general 46 (Bits 13942920767931940864) Success 0;
  fc F64 (txt "20837836") f_general 46 (Bits 4716358824238252032) Success 0;
  fc F64 (txt "674") f_general 46 (Bits 4649139782515949568) Success 0;
  fc F64 (txt "467") f_general 46 (Bits 4646923167074353152) Success 0;
  fc F64 (txt "706") f_general 46 (Bits 4649421257492660224) Success 0;
  fc F64 (txt "889") f_general 46 (Bits 4651030942515724288) Success 0;
  fc F64 (txt "172") f_general 46 (Bits 4640255728563519488) Success 0;
  fc F64 (txt "282") f_general 46 (Bits 4643668612656136192) Success 0;
  fc F64 (txt "-795") f_general 46 (Bits 13873576146626412544) Success 0;
  fc F64 (txt "188") f_general 46 (Bits 4640818678516940800) Success 0;
  fc F64 (txt "87") f_general 46 (Bits 4635822497680326656) Success 0;
  fc F64 (txt "153") f_general 46 (Bits 4639587225493831680) Success 0;
  fc F64 (txt "64501793") f_general 46 (Bits 4723926093965295616) Success 0;
  fc F64 (txt "53146328") f_general 46 (Bits 4722401989252612096) Success 0;
  fc F64 (txt "5152287") f_general 46 (Bits 4707290237015949312) Success 0;
  fc F64 (txt "-9674493") f_general 46 (Bits 13934827601336991744) Success 0;
  fc F64 (txt "68105580") f_general 46 (Bits 4724342897590140928) Success 0;
  fc F64 (txt "57245637") f_general 46 (Bits 4722952189192962048) Success 0;
  fc F64 (txt "39740229") f_general 46 (Bits 4720602653103489024) Success 0;
  fc F64 (txt "-74071854") f_general 46 (Bits 13948115324315369472) Success 0;
  fc F64 (txt "86777268") f_general 46 (Bits 4725595933360783360) Success 0;
  fc F64 (txt "86484437") f_general 46 (Bits 4725576281805029376) Success 0;
  fc F64 (txt "-86962508") f_general 46 (Bits 13948980401461526528) Success 0;
  fc F64 (txt "12644427") f_general 46 (Bits 4713050035657375744) Success 0;
  fc F64 (txt "-62944073") f_general 46 (Bits 13947089057180811264) Success 0;
  fc F64 (txt "59539680") f_general 46 (Bits 4723260090432356352) Success 0;
  fc F64 (txt "43340539") f_general 46 (Bits 4721085878531784704) Success 0;
  fc F64 (txt "30661534") f_general 46 (Bits 4718995853090488320) Success 0;
  fc F64 (txt "20143968") f_general 46 (Bits 4716172565465268224) Success 0;
  fc F64 (txt "-68183731") f_general 46 (Bits 13947720179069747200) Success 0;
  fc F64 (txt "-48250926") f_general 46 (Bits 13945116976373301248) Success 0;
  fc F64 (txt "42669063") f_general 46 (Bits 4720995754548658176) Success 0;
  fc F64 (txt "000") f_general 46 (Bits 0) Success 0;
  fc F64 (txt "001") f_general 46 (Bits 4607182418800017408) Success 0;
  fc F64 (txt "002") f_general 46 (Bits 4611686018427387904) Success 0;
  fc F64 (txt "003") f_general 46 (Bits 4613937818241073152) Success 0;
  fc F64 (txt "004") f_general 46 (Bits 4616189618054758400) Success 0;
  fc F64 (txt "005") f_general 46 (Bits 4617315517961601024) Success 0;
  fc F64 (txt "006") f_general 46 (Bits 4618441417868443648) Success 0;
  fc F64 (txt "007") f_general 46 (Bits 4619567317775286272) Success 0;
  fc F64 (txt "008") f_general 46 (Bits 4620693217682128896) Success 0;
  fc F64 (txt "009") f_general 46 (Bits 4621256167635550208) Success 0;
  fc F64 (txt "2147483499") f_general 46 (Bits 4746794006623551488) Success 0;
  fc F64 (txt "71") f_general 46 (Bits 4634696597773484032) Success 0;
  fc F64 (txt "2147483462") f_general 46 (Bits 4746794006468362240) Success 0;
  fc F64 (txt "73") f_general 46 (Bits 4634837335261839360) Success 0;
  fc F64 (txt "2147483425") f_general 46 (Bits 4746794006313172992) Success 0;
  fc F64 (txt "77") f_general 46 (Bits 4635118810238550016) Success 0;
  fc F64 (txt "2147483388") f_general 46 (Bits 4746794006157983744) Success 0;
  fc F64 (txt "87736852") f_general 46 (Bits 4725660329952935936) Success 0;
  fc F64 (txt "-4444906") f_general 46 (Bits 13929902729305522176) Success 0;
  fc F64 (txt "-48094147") f_general 46 (Bits 13945095933852123136) Success 0;
  fc F64 (txt "54774735") f_general 46 (Bits 4722620550340411392) Success 0;
  fc F64 (txt "54571890") f_general 46 (Bits 4722593324945375232) Success 0;
  fc F64 (txt "-22473078") f_general 46 (Bits 13940169818024968192) Success 0;
  fc F64 (txt "95053418") f_general 46 (Bits 4726151336385576960) Success 0;
  fc F64 (txt "393654") f_general 46 (Bits 4690506536689074176) Success 0;
  fc F64 (txt "-33229960") f_general 46 (Bits 13943057346549776384) Success 0;
  fc F64 (txt "32276798") f_general 46 (Bits 4719429447218888704) Success 0;
  fc F64 (txt "-48361110") f_general 46 (Bits 13945131765019443200) Success 0;
  fc F64 (txt "44295939") f_general 46 (Bits 4721214110149115904) Success 0;
  fc F64 (txt "-79813406") f_general 46 (Bits 13948500633347686400) Success 0;
  fc F64 (txt "11630865") f_general 46 (Bits 4712505883702067200) Success 0;
  fc F64 (txt "38544571") f_general 46 (Bits 4720442174603264000) Success 0;
  fc F64 (txt "70972830") f_general 46 (Bits 4724535315480444928) Success 0;
  fc F64 (txt "-9821748") f_general 46 (Bits 13934906658263138304) Success 0;
  fc F64 (txt "-60965384") f_general 46 (Bits 13946823482038812672) Success 0;
  fc F64 (txt "-13096675") f_general 46 (Bits 13936664871308361728) Success 0;
  fc F64 (txt "-24569041") f_general 46 (Bits 13940732448808632320) Success 0;
  fc F64 (txt "708") f_general 46 (Bits 4649438849678704640) Success 0;
  fc F64 (txt "-467") f_general 46 (Bits 13870295203929128960) Success 0;
  fc F64 (txt "-794") f_general 46 (Bits 13873567350533390336) Success 0;
  fc F64 (txt "610") f_general 46 (Bits 4648576832562528256) Success 0;
  fc F64 (txt "929") f_general 46 (Bits 4651382786236612608) Success 0;
  fc F64 (txt "766") f_general 46 (Bits 4649949023073992704) Success 0;
  fc F64 (txt "152") f_general 46 (Bits 4639552041121742848) Success 0;
  fc F64 (txt "482") f_general 46 (Bits 4647187049865019392) Success 0;
  fc F64 (txt "397") f_general 46 (Bits 4645691714051244032) Success 0;
  fc F64 (txt "-191") f_general 46 (Bits 13864296268487983104) Success 0;
  fc F64 (txt "97233152") f_general 46 (Bits 4726297615858139136) Success 0;
  fc F64 (txt "51028396") f_general 46 (Bits 4722117725231513600) Success 0;
  fc F64 (txt "-13796948") f_general 46 (Bits 13937040827512520704) Success 0;
  fc F64 (txt "95437272") f_general 46 (Bits 4726177096391458816) Success 0;
  fc F64 (txt "71352512") f_general 46 (Bits 4724560795508146176) Success 0;
  fc F64 (txt "-83233730") f_general 46 (Bits 13948730167405838336) Success 0;
  fc F64 (txt "-68517318") f_general 46 (Bits 13947742565714362368) Success 0;
  fc F64 (txt "61832742") f_general 46 (Bits 4723567860004159488) Success 0;
  fc F64 (txt "-42667174") f_general 46 (Bits 13944367537866145792) Success 0;
  fc F64 (txt "-18002395") f_general 46 (Bits 13938969728195231744) Success 0;
  fc F64 (txt "-92239407") f_general 46 (Bits 13949334528158859264) Success 0;
  fc F64 (txt "12701336") f_general 46 (Bits 4713080588444106752) Success 0;
  fc F64 (txt "-63830875") f_general 46 (Bits 13947208081730437120) Success 0;
  fc F64 (txt "41514172") f_general 46 (Bits 4720840747702550528) Success 0;
  fc F64 (txt "-5726049") f_general 46 (Bits 13931278346127147008) Success 0;
  fc F64 (txt "18668677") f_general 46 (Bits 4715776545052950528) Success 0;
  fc F64 (txt "69555144") f_general 46 (Bits 4724440176183476224) Success 0;
  fc F64 (txt "-13737009") f_general 46 (Bits 13937008648006926336) Success 0;
  fc F64 (txt "-22626233") f_general 46 (Bits 13940210930257231872) Success 0;
  fc F64 (txt "-55078143") f_general 46 (Bits 13946033309927604224) Success 0;
  fc F64 (txt "00") f_general 46 (Bits 0) Success 0;
  fc F64 (txt "11") f_general 46 (Bits 4622382067542392832) Success 0;
  fc F64 (txt "22") f_general 46 (Bits 4626885667169763328) Success 0;
  fc F64 (txt "33") f_general 46 (Bits 4629841154425225216) Success 0;
  fc F64 (txt "44") f_general 46 (Bits 4631389266797133824) Success 0;
  fc F64 (txt "-00") f_general 46 (Bits 9223372036854775808) Success 0;
  fc F64 (txt "-11") f_general 46 (Bits 13845754104397168640) Success 0;
  fc F64 (txt "-22") f_general 46 (Bits 13850257704024539136) Success 0;
  fc F64 (txt "-33") f_general 46 (Bits 13853213191280001024) Success 0;
  fc F64 (txt "-44") f_general 46 (Bits 13854761303651909632) Success 0;
  fc F64 (txt "000") f_general 46 (Bits 0) Success 0;
  fc F64 (txt "111") f_general 46 (Bits 4637511347540590592) Success 0;
  fc F64 (txt "222") f_general 46 (Bits 4642014947167961088) Success 0;
  fc F64 (txt "333") f_general 46 (Bits 4644565814144401408) Success 0;
  fc F64 (txt "444") f_general 46 (Bits 4646518546795331584) Success 0;
  fc F64 (txt "-000") f_general 46 (Bits 9223372036854775808) Success 0;
  fc F64 (txt "-111") f_general 46 (Bits 13860883384395366400) Success 0;
  fc F64 (txt "-222") f_general 46 (Bits 13865386984022736896) Success 0;
  fc F64 (txt "-333") f_general 46 (Bits 13867937850999177216) Success 0;
  fc F64 (txt "-444") f_general 46 (Bits 13869890583650107392) Success 0;
  fc F64 (txt "0000") f_general 46 (Bits 0) Success 0;
  fc F64 (txt "1111") f_general 46 (Bits 4652601045120188416) Success 0;
  fc F64 (txt "2222") f_general 46 (Bits 4657104644747558912) Success 0;
  fc F64 (txt "3333") f_general 46 (Bits 4659547759584477184) Success 0;
  fc F64 (txt "4444") f_general 46 (Bits 4661608244374929408) Success 0;
  fc F64 (txt "-0000") f_general 46 (Bits 9223372036854775808) Success 0;
  fc F64 (txt "-1111") f_general 46 (Bits 13875973081974964224) Success 0;
  fc F64 (txt "-2222") f_general 46 (Bits 13880476681602334720) Success 0;
  fc F64 (txt "-3333") f_general 46 (Bits 13882919796439252992) Success 0;
  fc F64 (txt "-4444") f_general 46 (Bits 13884980281229705216) Success 0;
  fc F64 (txt "00000") f_general 46 (Bits 0) Success 0;
  fc F64 (txt "11111") f_general 46 (Bits 4667333951176572928) Success 0;
  fc F64 (txt "22222") f_general 46 (Bits 4671837550803943424) Success 0;
  fc F64 (txt "33333") f_general 46 (Bits 4674814066219286528) Success 0;
  fc F64 (txt "44444") f_general 46 (Bits 4676341150431313920) Success 0;
  fc F64 (txt "-00000") f_general 46 (Bits 9223372036854775808) Success 0;
  fc F64 (txt "-11111") f_general 46 (Bits 13890705988031348736) Success 0;
  fc F64 (txt "-22222") f_general 46 (Bits 13895209587658719232) Success 0;
  fc F64 (txt "-33333") f_general 46 (Bits 13898186103074062336) Success 0;
  fc F64 (txt "-44444") f_general 46 (Bits 13899713187286089728) Success 0;
  fc F64 (txt "000000") f_general 46 (Bits 0) Success 0;
  fc F64 (txt "111111") f_general 46 (Bits 4682371902990188544) Success 0;
  fc F64 (txt "222222") f_general 46 (Bits 4686875502617559040) Success 0;
  fc F64 (txt "333333") f_general 46 (Bits 4689470229800026112) Success 0;
  fc F64 (txt "444444") f_general 46 (Bits 4691379102244929536) Success 0;
  fc F64 (txt "-000000") f_general 46 (Bits 9223372036854775808) Success 0;
  fc F64 (txt "-111111") f_general 46 (Bits 13905743939844964352) Success 0;
  fc F64 (txt "-222222") f_general 46 (Bits 13910247539472334848) Success 0;
  fc F64 (txt "-333333") f_general 46 (Bits 13912842266654801920) Success 0;
  fc F64 (txt "-444444") f_general 46 (Bits 13914751139099705344) Success 0;
  fc F64 (txt "0000000") f_general 46 (Bits 0) Success 0;
  fc F64 (txt "1111111") f_general 46 (Bits 4697522997127282688) Success 0;
  fc F64 (txt "2222222") f_general 46 (Bits 4702026596754653184) Success 0;
  fc F64 (txt "3333333") f_general 46 (Bits 4704412689458266112) Success 0;
  fc F64 (txt "4444444") f_general 46 (Bits 4706530196382023680) Success 0;
  fc F64 (txt "-0000000") f_general 46 (Bits 9223372036854775808) Success 0;
  fc F64 (txt "-1111111") f_general 46 (Bits 13920895033982058496) Success 0;
  fc F64 (txt "-2222222") f_general 46 (Bits 13925398633609428992) Success 0;
  fc F64 (txt "-3333333") f_general 46 (Bits 13927784726313041920) Success 0;
  fc F64 (txt "-4444444") f_general 46 (Bits 13929902233236799488) Success 0;
  fc F64 (txt "00000000") f_general 46 (Bits 0) Success 0;
  fc F64 (txt "11111111") f_general 46 (Bits 4712226842898071552) Success 0;
  fc F64 (txt "22222222") f_general 46 (Bits 4716730442525442048) Success 0;
  fc F64 (txt "33333333") f_general 46 (Bits 4719713058673393664) Success 0;
  fc F64 (txt "44444444") f_general 46 (Bits 4721234042152812544) Success 0;
  fc F64 (txt "-00000000") f_general 46 (Bits 9223372036854775808) Success 0;
  fc F64 (txt "-11111111") f_general 46 (Bits 13935598879752847360) Success 0;
  fc F64 (txt "-22222222") f_general 46 (Bits 13940102479380217856) Success 0;
  fc F64 (txt "-33333333") f_general 46 (Bits 13943085095528169472) Success 0;
  fc F64 (txt "-44444444") f_general 46 (Bits 13944606079007588352) Success 0;
  fc F64 (txt "000000000") f_general 46 (Bits 0) Success 0;
  fc F64 (txt "111111111") f_general 46 (Bits 4727228949921267712) Success 0;
  fc F64 (txt "222222222") f_general 46 (Bits 4731732549548638208) Success 0;
  fc F64 (txt "333333333") f_general 46 (Bits 4734372014066761728) Success 0;
  fc F64 (txt "444444444") f_general 46 (Bits 4736236149176008704) Success 0;
  fc F64 (txt "-000000000") f_general 46 (Bits 9223372036854775808) Success 0;
  fc F64 (txt "-111111111") f_general 46 (Bits 13950600986776043520) Success 0;
  fc F64 (txt "-222222222") f_general 46 (Bits 13955104586403414016) Success 0;
  fc F64 (txt "-333333333") f_general 46 (Bits 13957744050921537536) Success 0;
  fc F64 (txt "-444444444") f_general 46 (Bits 13959608186030784512) Success 0;
  fc F64 (txt "2147483351") f_general 46 (Bits 4746794006002794496) Success 0;
  fc F64 (txt "51") f_general 46 (Bits 4632374429215621120) Success 0;
  fc F64 (txt "2147483314") f_general 46 (Bits 4746794005847605248) Success 0;
  fc F64 (txt "53") f_general 46 (Bits 4632655904192331776) Success 0;
  fc F64 (txt "-2147483648") f_general 46 (Bits 13970166044103278592) Success 0;
  fc F64 (txt "57") f_general 46 (Bits 4633218854145753088) Success 0;
  fc F64 (txt "-2147483611") f_general 46 (Bits 13970166043948089344) Success 0;
  fc F64 (txt "55") f_general 46 (Bits 4632937379169042432) Success 0;
  fc F64 (txt "66") f_general 46 (Bits 4634344754052595712) Success 0;
  fc F64 (txt "77") f_general 46 (Bits 4635118810238550016) Success 0;
  fc F64 (txt "88") f_general 46 (Bits 4635892866424504320) Success 0;
  fc F64 (txt "99") f_general 46 (Bits 4636666922610458624) Success 0;
  fc F64 (txt "-55") f_general 46 (Bits 13856309416023818240) Success 0;
  fc F64 (txt "-66") f_general 46 (Bits 13857716790907371520) Success 0;
  fc F64 (txt "-77") f_general 46 (Bits 13858490847093325824) Success 0;
  fc F64 (txt "-88") f_general 46 (Bits 13859264903279280128) Success 0;
  fc F64 (txt "-99") f_general 46 (Bits 13860038959465234432) Success 0;
  fc F64 (txt "555") f_general 46 (Bits 4648093047446306816) Success 0;
  fc F64 (txt "666") f_general 46 (Bits 4649069413771771904) Success 0;
  fc F64 (txt "777") f_general 46 (Bits 4650045780097236992) Success 0;
  fc F64 (txt "888") f_general 46 (Bits 4651022146422702080) Success 0;
  fc F64 (txt "999") f_general 46 (Bits 4651998512748167168) Success 0;
  fc F64 (txt "-555") f_general 46 (Bits 13871465084301082624) Success 0;
  fc F64 (txt "-666") f_general 46 (Bits 13872441450626547712) Success 0;
  fc F64 (txt "-777") f_general 46 (Bits 13873417816952012800) Success 0;
  fc F64 (txt "-888") f_general 46 (Bits 13874394183277477888) Success 0;
  fc F64 (txt "-999") f_general 46 (Bits 13875370549602942976) Success 0;
  fc F64 (txt "5555") f_general 46 (Bits 4662829801793388544) Success 0;
  fc F64 (txt "6666") f_general 46 (Bits 4664051359211847680) Success 0;
  fc F64 (txt "7777") f_general 46 (Bits 4665272916630306816) Success 0;
  fc F64 (txt "8888") f_general 46 (Bits 4666111844002299904) Success 0;
  fc F64 (txt "9999") f_general 46 (Bits 4666722622711529472) Success 0;
  fc F64 (txt "-5555") f_general 46 (Bits 13886201838648164352) Success 0;
  fc F64 (txt "-6666") f_general 46 (Bits 13887423396066623488) Success 0;
  fc F64 (txt "-7777") f_general 46 (Bits 13888644953485082624) Success 0;
  fc F64 (txt "-8888") f_general 46 (Bits 13889483880857075712) Success 0;
  fc F64 (txt "-9999") f_general 46 (Bits 13890094659566305280) Success 0;
  fc F64 (txt "55555") f_general 46 (Bits 4677868234643341312) Success 0;
  fc F64 (txt "66666") f_general 46 (Bits 4679317665846657024) Success 0;
  fc F64 (txt "77777") f_general 46 (Bits 4680081207952670720) Success 0;
  fc F64 (txt "88888") f_general 46 (Bits 4680844750058684416) Success 0;
  fc F64 (txt "99999") f_general 46 (Bits 4681608292164698112) Success 0;
  fc F64 (txt "-55555") f_general 46 (Bits 13901240271498117120) Success 0;
  fc F64 (txt "-66666") f_general 46 (Bits 13902689702701432832) Success 0;
  fc F64 (txt "-77777") f_general 46 (Bits 13903453244807446528) Success 0;
  fc F64 (txt "-88888") f_general 46 (Bits 13904216786913460224) Success 0;
  fc F64 (txt "-99999") f_general 46 (Bits 13904980329019473920) Success 0;
  fc F64 (txt "555555") f_general 46 (Bits 4693019393204944896) Success 0;
  fc F64 (txt "666666") f_general 46 (Bits 4693973829427396608) Success 0;
  fc F64 (txt "777777") f_general 46 (Bits 4694928265649848320) Success 0;
  fc F64 (txt "888888") f_general 46 (Bits 4695882701872300032) Success 0;
  fc F64 (txt "999999") f_general 46 (Bits 4696837138094751744) Success 0;
  fc F64 (txt "-555555") f_general 46 (Bits 13916391430059720704) Success 0;
  fc F64 (txt "-666666") f_general 46 (Bits 13917345866282172416) Success 0;
  fc F64 (txt "-777777") f_general 46 (Bits 13918300302504624128) Success 0;
  fc F64 (txt "-888888") f_general 46 (Bits 13919254738727075840) Success 0;
  fc F64 (txt "-999999") f_general 46 (Bits 13920209174949527552) Success 0;
  fc F64 (txt "5555555") f_general 46 (Bits 4707723242733830144) Success 0;
  fc F64 (txt "6666666") f_general 46 (Bits 4708916289085636608) Success 0;
  fc F64 (txt "7777777") f_general 46 (Bits 4710109335437443072) Success 0;
  fc F64 (txt "8888888") f_general 46 (Bits 4711033796009394176) Success 0;
  fc F64 (txt "9999999") f_general 46 (Bits 4711630319185297408) Success 0;
  fc F64 (txt "-5555555") f_general 46 (Bits 13931095279588605952) Success 0;
  fc F64 (txt "-6666666") f_general 46 (Bits 13932288325940412416) Success 0;
  fc F64 (txt "-7777777") f_general 46 (Bits 13933481372292218880) Success 0;
  fc F64 (txt "-8888888") f_general 46 (Bits 13934405832864169984) Success 0;
  fc F64 (txt "-9999999") f_general 46 (Bits 13935002356040073216) Success 0;
  fc F64 (txt "55555555") f_general 46 (Bits 4722725350226788352) Success 0;
  fc F64 (txt "66666666") f_general 46 (Bits 4724216658300764160) Success 0;
  fc F64 (txt "77777777") f_general 46 (Bits 4724991987743195136) Success 0;
  fc F64 (txt "88888888") f_general 46 (Bits 4725737641780183040) Success 0;
  fc F64 (txt "99999999") f_general 46 (Bits 4726483295817170944) Success 0;
  fc F64 (txt "-55555555") f_general 46 (Bits 13946097387081564160) Success 0;
  fc F64 (txt "-66666666") f_general 46 (Bits 13947588695155539968) Success 0;
  fc F64 (txt "-77777777") f_general 46 (Bits 13948364024597970944) Success 0;
  fc F64 (txt "-88888888") f_general 46 (Bits 13949109678634958848) Success 0;
  fc F64 (txt "-99999999") f_general 46 (Bits 13949855332671946752) Success 0;
  fc F64 (txt "555555555") f_general 46 (Bits 4737943546139508736) Success 0;
  fc F64 (txt "666666666") f_general 46 (Bits 4738875613694132224) Success 0;
  fc F64 (txt "777777777") f_general 46 (Bits 4739807681248755712) Success 0;
  fc F64 (txt "888888888") f_general 46 (Bits 4740739748803379200) Success 0;
  fc F64 (txt "999999999") f_general 46 (Bits 4741671816358002688) Success 0;
  fc F64 (txt "-555555555") f_general 46 (Bits 13961315582994284544) Success 0;
  fc F64 (txt "-666666666") f_general 46 (Bits 13962247650548908032) Success 0;
  fc F64 (txt "-777777777") f_general 46 (Bits 13963179718103531520) Success 0;
  fc F64 (txt "-888888888") f_general 46 (Bits 13964111785658155008) Success 0;
  fc F64 (txt "-999999999") f_general 46 (Bits 13965043853212778496) Success 0;
  fc F64 (txt "-2147483574") f_general 46 (Bits 13970166043792900096) Success 0;
  fc F64 (txt "91") f_general 46 (Bits 4636103972657037312) Success 0;
  fc F64 (txt "-2147483537") f_general 46 (Bits 13970166043637710848) Success 0;
  fc F64 (txt "93") f_general 46 (Bits 4636244710145392640) Success 0;
  fc F64 (txt "-2147483500") f_general 46 (Bits 13970166043482521600) Success 0;
  fc F64 (txt "97") f_general 46 (Bits 4636526185122103296) Success 0;
  fc F64 (txt "-2147483463") f_general 46 (Bits 13970166043327332352) Success 0;
  fc F64 (txt "0000000011") f_general 46 (Bits 4622382067542392832) Success 0;
  fc F64 (txt "0000000022") f_general 46 (Bits 4626885667169763328) Success 0;
  fc F64 (txt "0000000033") f_general 46 (Bits 4629841154425225216) Success 0;
  fc F64 (txt "0000000044") f_general 46 (Bits 4631389266797133824) Success 0;
  fc F64 (txt "-000000011") f_general 46 (Bits 13845754104397168640) Success 0;
  fc F64 (txt "-000000022") f_general 46 (Bits 13850257704024539136) Success 0;
  fc F64 (txt "-000000033") f_general 46 (Bits 13853213191280001024) Success 0;
  fc F64 (txt "-000000044") f_general 46 (Bits 13854761303651909632) Success 0;
  fc F64 (txt "-000000088") f_general 46 (Bits 13859264903279280128) Success 0;
  fc F64 (txt "0000000111") f_general 46 (Bits 4637511347540590592) Success 0;
  fc F64 (txt "0000000222") f_general 46 (Bits 4642014947167961088) Success 0;
  fc F64 (txt "0000000333") f_general 46 (Bits 4644565814144401408) Success 0;
  fc F64 (txt "0000000444") f_general 46 (Bits 4646518546795331584) Success 0;
  fc F64 (txt "-000000111") f_general 46 (Bits 13860883384395366400) Success 0;
  fc F64 (txt "-000000222") f_general 46 (Bits 13865386984022736896) Success 0;
  fc F64 (txt "-000000333") f_general 46 (Bits 13867937850999177216) Success 0;
  fc F64 (txt "-000000444") f_general 46 (Bits 13869890583650107392) Success 0;
  fc F64 (txt "-000000888") f_general 46 (Bits 13874394183277477888) Success 0;
  fc F64 (txt "0000001111") f_general 46 (Bits 4652601045120188416) Success 0;
  fc F64 (txt "0000002222") f_general 46 (Bits 4657104644747558912) Success 0;
  fc F64 (txt "0000003333") f_general 46 (Bits 4659547759584477184) Success 0;
  fc F64 (txt "0000004444") f_general 46 (Bits 4661608244374929408) Success 0;
  fc F64 (txt "-000001111") f_general 46 (Bits 13875973081974964224) Success 0;
  fc F64 (txt "-000002222") f_general 46 (Bits 13880476681602334720) Success 0;
  fc F64 (txt "-000003333") f_general 46 (Bits 13882919796439252992) Success 0;
  fc F64 (txt "-000004444") f_general 46 (Bits 13884980281229705216) Success 0;
  fc F64 (txt "-000008888") f_general 46 (Bits 13889483880857075712) Success 0;
  fc F64 (txt "0000011111") f_general 46 (Bits 4667333951176572928) Success 0;
  fc F64 (txt "0000022222") f_general 46 (Bits 4671837550803943424) Success 0;
  fc F64 (txt "0000033333") f_general 46 (Bits 4674814066219286528) Success 0;
  fc F64 (txt "0000044444") f_general 46 (Bits 4676341150431313920) Success 0;
  fc F64 (txt "-000011111") f_general 46 (Bits 13890705988031348736) Success 0;
  fc F64 (txt "-000022222") f_general 46 (Bits 13895209587658719232) Success 0;
  fc F64 (txt "-000033333") f_general 46 (Bits 13898186103074062336) Success 0;
  fc F64 (txt "-000044444") f_general 46 (Bits 13899713187286089728) Success 0;
  fc F64 (txt "-000088888") f_general 46 (Bits 13904216786913460224) Success 0;
  fc F64 (txt "0000111111") f_general 46 (Bits 4682371902990188544) Success 0;
  fc F64 (txt "0000222222") f_general 46 (Bits 4686875502617559040) Success 0;
  fc F64 (txt "0000333333") f_general 46 (Bits 4689470229800026112) Success 0;
  fc F64 (txt "0000444444") f_general 46 (Bits 4691379102244929536) Success 0;
  fc F64 (txt "-000111111") f_general 46 (Bits 13905743939844964352) Success 0;
  fc F64 (txt "-000222222") f_general 46 (Bits 13910247539472334848) Success 0;
  fc F64 (txt "-000333333") f_general 46 (Bits 13912842266654801920) Success 0;
  fc F64 (txt "-000444444") f_general 46 (Bits 13914751139099705344) Success 0;
  fc F64 (txt "-000888888") f_general 46 (Bits 13919254738727075840) Success 0;
  fc F64 (txt "0001111111") f_general 46 (Bits 4697522997127282688) Success 0;
  fc F64 (txt "0002222222") f_general 46 (Bits 4702026596754653184) Success 0;
  fc F64 (txt "0003333333") f_general 46 (Bits 4704412689458266112) Success 0;
  fc F64 (txt "0004444444") f_general 46 (Bits 4706530196382023680) Success 0;
  fc F64 (txt "-001111111") f_general 46 (Bits 13920895033982058496) Success 0;
  fc F64 (txt "-002222222") f_general 46 (Bits 13925398633609428992) Success 0;
  fc F64 (txt "-003333333") f_general 46 (Bits 13927784726313041920) Success 0;
  fc F64 (txt "-004444444") f_general 46 (Bits 13929902233236799488) Success 0;
  fc F64 (txt "-008888888") f_general 46 (Bits 13934405832864169984) Success 0;
  fc F64 (txt "0011111111") f_general 46 (Bits 4712226842898071552) Success 0;
  fc F64 (txt "0022222222") f_general 46 (Bits 4716730442525442048) Success 0;
  fc F64 (txt "0033333333") f_general 46 (Bits 4719713058673393664) Success 0;
  fc F64 (txt "0044444444") f_general 46 (Bits 4721234042152812544) Success 0;
  fc F64 (txt "-011111111") f_general 46 (Bits 13935598879752847360) Success 0;
  fc F64 (txt "-022222222") f_general 46 (Bits 13940102479380217856) Success 0;
  fc F64 (txt "-033333333") f_general 46 (Bits 13943085095528169472) Success 0;
  fc F64 (txt "-044444444") f_general 46 (Bits 13944606079007588352) Success 0;
  fc F64 (txt "-088888888") f_general 46 (Bits 13949109678634958848) Success 0;
  fc F64 (txt "0111111111") f_general 46 (Bits 4727228949921267712) Success 0;
  fc F64 (txt "0222222222") f_general 46 (Bits 4731732549548638208) Success 0;
  fc F64 (txt "0333333333") f_general 46 (Bits 4734372014066761728) Success 0;
  fc F64 (txt "0444444444") f_general 46 (Bits 4736236149176008704) Success 0;
  fc F64 (txt "-111111111") f_general 46 (Bits 13950600986776043520) Success 0;
  fc F64 (txt "-222222222") f_general 46 (Bits 13955104586403414016) Success 0;
  fc F64 (txt "-333333333") f_general 46 (Bits 13957744050921537536) Success 0;
  fc F64 (txt "-444444444") f_general 46 (Bits 13959608186030784512) Success 0;
  fc F64 (txt "-888888888") f_general 46 (Bits 13964111785658155008) Success 0;
  fc F64 (txt "0000000055") f_general 46 (Bits 4632937379169042432) Success 0;
  fc F64 (txt "0000000066") f_general 46 (Bits 4634344754052595712) Success 0;
  fc F64 (txt "0000000077") f_general 46 (Bits 4635118810238550016) Success 0;
  fc F64 (txt "0000000088") f_general 46 (Bits 4635892866424504320) Success 0;
  fc F64 (txt "0000000099") f_general 46 (Bits 4636666922610458624) Success 0;
  fc F64 (txt "-000000055") f_general 46 (Bits 13856309416023818240) Success 0;
  fc F64 (txt "-000000066") f_general 46 (Bits 13857716790907371520) Success 0;
  fc F64 (txt "-000000077") f_general 46 (Bits 13858490847093325824) Success 0;
  fc F64 (txt "-000000099") f_general 46 (Bits 13860038959465234432) Success 0;
  fc F64 (txt "0000000555") f_general 46 (Bits 4648093047446306816) Success 0;
  fc F64 (txt "0000000666") f_general 46 (Bits 4649069413771771904) Success 0;
  fc F64 (txt "0000000777") f_general 46 (Bits 4650045780097236992) Success 0;
  fc F64 (txt "0000000888") f_general 46 (Bits 4651022146422702080) Success 0;
  fc F64 (txt "0000000999") f_general 46 (Bits 4651998512748167168) Success 0;
  fc F64 (txt "-000000555") f_general 46 (Bits 13871465084301082624) Success 0;
  fc F64 (txt "-000000666") f_general 46 (Bits 13872441450626547712) Success 0;
  fc F64 (txt "-000000777") f_general 46 (Bits 13873417816952012800) Success 0;
  fc F64 (txt "-000000999") f_general 46 (Bits 13875370549602942976) Success 0;
  fc F64 (txt "0000005555") f_general 46 (Bits 4662829801793388544) Success 0;
  fc F64 (txt "0000006666") f_general 46 (Bits 4664051359211847680) Success 0;
  fc F64 (txt "0000007777") f_general 46 (Bits 4665272916630306816) Success 0;
  fc F64 (txt "0000008888") f_general 46 (Bits 4666111844002299904) Success 0;
  fc F64 (txt "0000009999") f_general 46 (Bits 4666722622711529472) Success 0;
  fc F64 (txt "-000005555") f_general 46 (Bits 13886201838648164352) Success 0;
  fc F64 (txt "-000006666") f_general 46 (Bits 13887423396066623488) Success 0;
  fc F64 (txt "-000007777") f_general 46 (Bits 13888644953485082624) Success 0;
  fc F64 (txt "-000009999") f_general 46 (Bits 13890094659566305280) Success 0;
  fc F64 (txt "0000055555") f_general 46 (Bits 4677868234643341312) Success 0;
  fc F64 (txt "0000066666") f_general 46 (Bits 4679317665846657024) Success 0;
  fc F64 (txt "0000077777") f_general 46 (Bits 4680081207952670720) Success 0;
  fc F64 (txt "0000088888") f_general 46 (Bits 4680844750058684416) Success 0;
  fc F64 (txt "0000099999") f_general 46 (Bits 4681608292164698112) Success 0;
  fc F64 (txt "-000055555") f_general 46 (Bits 13901240271498117120) Success 0;
  fc F64 (txt "-000066666") f_general 46 (Bits 13902689702701432832) Success 0;
  fc F64 (txt "-000077777") f_general 46 (Bits 13903453244807446528) Success 0;
  fc F64 (txt "-000099999") f_general 46 (Bits 13904980329019473920) Success 0;
  fc F64 (txt "0000555555") f_general 46 (Bits 4693019393204944896) Success 0;
  fc F64 (txt "0000666666") f_general 46 (Bits 4693973829427396608) Success 0;
  fc F64 (txt "0000777777") f_general 46 (Bits 4694928265649848320) Success 0;
  fc F64 (txt "0000888888") f_general 46 (Bits 4695882701872300032) Success 0;
  fc F64 (txt "0000999999") f_general 46 (Bits 4696837138094751744) Success 0;
  fc F64 (txt "-000555555") f_general 46 (Bits 13916391430059720704) Success 0;
  fc F64 (txt "-000666666") f_general 46 (Bits 13917345866282172416) Success 0;
  fc F64 (txt "-000777777") f_general 46 (Bits 13918300302504624128) Success 0;
  fc F64 (txt "-000999999") f_general 46 (Bits 13920209174949527552) Success 0;
  fc F64 (txt "0005555555") f_general 46 (Bits 4707723242733830144) Success 0;
  fc F64 (txt "0006666666") f_general 46 (Bits 4708916289085636608) Success 0;
  fc F64 (txt "0007777777") f_general 46 (Bits 4710109335437443072) Success 0;
  fc F64 (txt "0008888888") f_general 46 (Bits 4711033796009394176) Success 0;
  fc F64 (txt "0009999999") f_general 46 (Bits 4711630319185297408) Success 0;
  fc F64 (txt "-005555555") f_general 46 (Bits 13931095279588605952) Success 0;
  fc F64 (txt "-006666666") f_general 46 (Bits 13932288325940412416) Success 0;
  fc F64 (txt "-007777777") f_general 46 (Bits 13933481372292218880) Success 0;
  fc F64 (txt "-009999999") f_general 46 (Bits 13935002356040073216) Success 0;
  fc F64 (txt "0055555555") f_general 46 (Bits 4722725350226788352) Success 0;
  fc F64 (txt "0066666666") f_general 46 (Bits 4724216658300764160) Success 0;
  fc F64 (txt "0077777777") f_general 46 (Bits 4724991987743195136) Success 0;
  fc F64 (txt "0088888888") f_general 46 (Bits 4725737641780183040) Success 0;
  fc F64 (txt "0099999999") f_general 46 (Bits 4726483295817170944) Success 0;
  fc F64 (txt "-055555555") f_general 46 (Bits 13946097387081564160) Success 0;
  fc F64 (txt "-066666666") f_general 46 (Bits 13947588695155539968) Success 0;
  fc F64 (txt "-077777777") f_general 46 (Bits 13948364024597970944) Success 0;
  fc F64 (txt "-099999999") f_general 46 (Bits 13949855332671946752) Success 0;
  fc F64 (txt "0555555555") f_general 46 (Bits 4737943546139508736) Success 0;
  fc F64 (txt "0666666666") f_general 46 (Bits 4738875613694132224) Success 0;
  fc F64 (txt "0777777777") f_general 46 (Bits 4739807681248755712) Success 0;
  fc F64 (txt "0888888888") f_general 46 (Bits 4740739748803379200) Success 0;
  fc F64 (txt "0999999999") f_general 46 (Bits 4741671816358002688) Success 0;
  fc F64 (txt "-555555555") f_general 46 (Bits 13961315582994284544) Success 0;
  fc F64 (txt "-666666666") f_general 46 (Bits 13962247650548908032) Success 0;
  fc F64 (txt "-777777777") f_general 46 (Bits 13963179718103531520) Success 0;
  fc F64 (txt "-999999999") f_general 46 (Bits 13965043853212778496) Success 0;
  fc F64 (txt "-2147483426") f_general 46 (Bits 13970166043172143104) Success 0;
  fc F64 (txt "101") f_general 46 (Bits 4636807660098813952) Success 0;
  fc F64 (txt "-2147483389") f_general 46 (Bits 13970166043016953856) Success 0;
  fc F64 (txt "103") f_general 46 (Bits 4636948397587169280) Success 0;
  fc F64 (txt "-2147483352") f_general 46 (Bits 13970166042861764608) Success 0;
  fc F64 (txt "105") f_general 46 (Bits 4637089135075524608) Success 0;
  fc F64 (txt "-2147483315") f_general 46 (Bits 13970166042706575360) Success 0;
  fc F64 (txt "0000001234567890") f_general 46 (Bits 4742964961033060352) Success 0;
  fc F64 (txt "0000001234567890") f_general 46 (Bits 4742964961033060352) Success 0;
  fc F64 (txt "-0000001234567890") f_general 46 (Bits 13966336997887836160) Success 0;
  fc F64 (txt "000001234567890") f_general 46 (Bits 4742964961033060352) Success 0;
  fc F64 (txt "000001234567890") f_general 46 (Bits 4742964961033060352) Success 0;
  fc F64 (txt "-000001234567890") f_general 46 (Bits 13966336997887836160) Success 0;
  fc F64 (txt "00001234567890") f_general 46 (Bits 4742964961033060352) Success 0;
  fc F64 (txt "00001234567890") f_general 46 (Bits 4742964961033060352) Success 0;
  fc F64 (txt "-00001234567890") f_general 46 (Bits 13966336997887836160) Success 0;
  fc F64 (txt "0001234567890") f_general 46 (Bits 4742964961033060352) Success 0;
  fc F64 (txt "0001234567890") f_general 46 (Bits 4742964961033060352) Success 0;
  fc F64 (txt "-0001234567890") f_general 46 (Bits 13966336997887836160) Success 0;
  fc F64 (txt "001234567890") f_general 46 (Bits 4742964961033060352) Success 0;
  fc F64 (txt "001234567890") f_general 46 (Bits 4742964961033060352) Success 0;
  fc F64 (txt "-001234567890") f_general 46 (Bits 13966336997887836160) Success 0;
  fc F64 (txt "01234567890") f_general 46 (Bits 4742964961033060352) Success 0;
  fc F64 (txt "01234567890") f_general 46 (Bits 4742964961033060352) Success 0;
  fc F64 (txt "-01234567890") f_general 46 (Bits 13966336997887836160) Success 0;
  fc F64 (txt "1234567890") f_general 46 (Bits 4742964961033060352) Success 0;
  fc F64 (txt "1234567890") f_general 46 (Bits 4742964961033060352) Success 0;
  fc F64 (txt "-1234567890") f_general 46 (Bits 13966336997887836160) Success 0].

Definition partow_conform : bool := floats_ok cfg_x86_64 [Char_s] partow.
Check ltac:(holds partow_conform).
