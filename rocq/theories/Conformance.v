(** Validation of the model (not a claim): the texts, flags and expected
    results of the repository's own tests (/repo/tests), with the model
    evaluated on each of them in several builds.  The expected bit patterns were
    computed from the C++ literals by exact rational arithmetic
    (tools/gen_conformance.py, which writes this file).

    These are tests, evaluated by coqc while it compiles this file, and not
    proofs of any property; they show that the
    functions the theorems are about compute what the library's authors say the
    library computes. *)
From Coq Require Import ZArith List String Ascii Bool.
From Verif Require Import Machine Config Chars Format ParseNumber DecToBin FromChars Ints
  Props_Pow10 Props_Ints.
Import ListNotations.
Open Scope Z_scope.

(** Evaluates a check while the file is compiled; an error unless it is true. *)
Ltac holds b := let r := eval vm_compute in b in match r with true => exact I end.

Definition txt (s : string) : list Z := map (fun a => Z.of_nat (nat_of_ascii a)) (list_ascii_of_string s).
Definition zeros (n : nat) : list Z := repeat 48 n.
Definition int16_type : ity := {| i_signed := true; i_bits := 16; i_is_u8 := false; i_is_u16 := false; i_is_u64 := false |}.

(** What a test expects of the stored value. *)
Inductive expected := Nothing | AnyNan | Bits (b : Z).
Record fcase := { f_type : ftype; f_text : list Z; f_fmt : Z; f_point : Z;
                  f_value : expected; f_ec : ec; f_left : Z }.
Definition fc t s f d v e l := {| f_type := t; f_text := s; f_fmt := f; f_point := d;
                                  f_value := v; f_ec := e; f_left := l |}.
Record icase := { i_type : ity; i_text : list Z; i_base : Z; i_value : option Z; i_ec : ec; i_left : option Z }.
Definition ic t s b v e l := {| i_type := t; i_text := s; i_base := b; i_value := v; i_ec := e; i_left := l |}.

Definition ec_eqb (a b : ec) : bool :=
  match a, b with Success, Success | InvalidArgument, InvalidArgument | OutOfRange, OutOfRange => true | _, _ => false end.

(** A value x with x != x: all exponent bits set and a nonzero fraction. *)
Definition is_nan (t : ftype) (b : Z) : bool :=
  let '(fb, eb) := match t with F64 => (52, 11) | F32 => (23, 8) | F16 => (10, 5) | BF16 => (7, 8) end in
  ((b / 2 ^ fb) mod 2 ^ eb =? 2 ^ eb - 1) && negb (b mod 2 ^ fb =? 0).

Definition float_ok (c : cfg) (u : uc) (k : fcase) : bool :=
  match from_chars_float_advanced c u (f_type k) (f_text k)
          {| o_format := f_fmt k; o_decimal_point := f_point k; o_base := 10 |} with
  | UB => false
  | Ok r => ec_eqb (r_ec r) (f_ec k) && (Z.of_nat (List.length (r_ptr r)) =? f_left k) &&
            match f_value k, r_value r with
            | Nothing, None => true
            | AnyNan, Some b => is_nan (f_type k) b
            | Bits b, Some b' => b =? b'
            | _, _ => false
            end
  end.

Definition int_ok (c : cfg) (u : uc) (k : icase) : bool :=
  match from_chars_int c u (i_type k) (i_text k) (i_base k) with
  | UB => false
  | Ok r => ec_eqb (r_ec r) (i_ec k) &&
            match i_left k with Some n => Z.of_nat (List.length (r_ptr r)) =? n | None => true end &&
            match i_value k, r_value r with
            | None, None => true | Some a, Some b => a =? b | _, _ => false
            end
  end.

(** The tests that only want a failure. *)
Definition int_fails (c : cfg) (u : uc) (T : ity) (s : list Z) : bool :=
  match from_chars_int c u T s 10 with UB => false | Ok r => negb (ec_eqb (r_ec r) Success) end.
Definition float_fails (c : cfg) (u : uc) (s : list Z) (fmt : Z) : bool :=
  match from_chars_float c u F64 s fmt with UB => false | Ok r => negb (ec_eqb (r_ec r) Success) end.

(** Builds: x86-64 with GCC or Clang; the same in a constant expression; a
    32-bit big-endian machine without builtins and AArch64 with NEON, these
    two with the asserts on and with other rounding modes (as the tests do with
    fesetround).  A build with x87 arithmetic takes part in two of the lists. *)
Definition cfg_constexpr : cfg :=
  {| in_constexpr := true; big_endian := false; is_clang := true; is_32bit := false;
     sparc := false; int128 := true; clz_builtin := true; add_overflow_builtin := true;
     simd := Sse2; eval := Eval0; half_in_float := false; rmode := ToNearest; flush := false;
     macro_leading_plus := false; macro_skip_ws := false; asserts := false |}.
Definition cfg_be32 : cfg :=
  {| in_constexpr := false; big_endian := true; is_clang := false; is_32bit := true;
     sparc := false; int128 := false; clz_builtin := false; add_overflow_builtin := false;
     simd := NoSimd; eval := Eval1; half_in_float := false; rmode := Upward; flush := false;
     macro_leading_plus := false; macro_skip_ws := false; asserts := true |}.
Definition cfg_neon : cfg :=
  {| in_constexpr := false; big_endian := false; is_clang := true; is_32bit := false;
     sparc := false; int128 := true; clz_builtin := true; add_overflow_builtin := true;
     simd := Neon; eval := Eval0; half_in_float := false; rmode := Downward; flush := false;
     macro_leading_plus := false; macro_skip_ws := false; asserts := true |}.
Definition cfg_x87 : cfg :=
  {| in_constexpr := false; big_endian := false; is_clang := false; is_32bit := true;
     sparc := false; int128 := false; clz_builtin := true; add_overflow_builtin := true;
     simd := NoSimd; eval := Eval2; half_in_float := false; rmode := TowardZero; flush := false;
     macro_leading_plus := false; macro_skip_ws := false; asserts := false |}.
Definition builds : list cfg := [cfg_x86_64; cfg_constexpr; cfg_be32; cfg_neon].

Definition floats_ok (c : cfg) (us : list uc) (l : list fcase) : bool :=
  forallb (fun u => forallb (float_ok c u) l) us.

Definition perr_eqb (a b : parse_error) : bool :=
  match a, b with
  | No_error, No_error | Missing_integer_after_sign, Missing_integer_after_sign
  | Missing_integer_or_dot_after_sign, Missing_integer_or_dot_after_sign
  | Leading_zeros_in_integer_part, Leading_zeros_in_integer_part
  | No_digits_in_integer_part, No_digits_in_integer_part
  | No_digits_in_fractional_part, No_digits_in_fractional_part
  | No_digits_in_mantissa, No_digits_in_mantissa
  | Missing_exponential_part, Missing_exponential_part => true
  | _, _ => false
  end.

(** basictest.cpp, TEST_CASE("double.inf") *)
Definition double_inf : list fcase := [
  fc F64 (txt "INF") f_general 46 (Bits 9218868437227405312) Success 0;
  fc F64 (txt "-INF") f_general 46 (Bits 18442240474082181120) Success 0;
  fc F64 (txt "INFINITY") f_general 46 (Bits 9218868437227405312) Success 0;
  fc F64 (txt "-INFINITY") f_general 46 (Bits 18442240474082181120) Success 0;
  fc F64 (txt "infinity") f_general 46 (Bits 9218868437227405312) Success 0;
  fc F64 (txt "-infinity") f_general 46 (Bits 18442240474082181120) Success 0;
  fc F64 (txt "inf") f_general 46 (Bits 9218868437227405312) Success 0;
  fc F64 (txt "-inf") f_general 46 (Bits 18442240474082181120) Success 0;
  fc F64 (txt "1234456789012345678901234567890e9999999999999999999999999999") f_general 46 (Bits 9218868437227405312) OutOfRange 0;
  fc F64 (txt "-2139879401095466344511101915470454744.9813888656856943E+272") f_general 46 (Bits 18442240474082181120) OutOfRange 0;
  fc F64 (txt "1.8e308") f_general 46 (Bits 9218868437227405312) OutOfRange 0;
  fc F64 (txt "1.832312213213213232132132143451234453123412321321312e308") f_general 46 (Bits 9218868437227405312) OutOfRange 0;
  fc F64 (txt "2e30000000000000000") f_general 46 (Bits 9218868437227405312) OutOfRange 0;
  fc F64 (txt "2e3000") f_general 46 (Bits 9218868437227405312) OutOfRange 0;
  fc F64 (txt "1.9e308") f_general 46 (Bits 9218868437227405312) OutOfRange 0;
  fc F64 (txt "1.79769313486231581e308") f_general 46 (Bits 9218868437227405312) OutOfRange 0;
  fc F64 (txt "1.7976931348623159e308") f_general 46 (Bits 9218868437227405312) OutOfRange 0;
  fc F64 (txt "179769313486231580793728971405303415079934132710037826936173778980444968292764750946649017977587207096330286416692887910946555547851940402630657488671505820681908902000708383676273854845817711531764475730270069855571366959622842914819860834936475292719074168444365510704342711559699508093042880177904174497792") f_general 46 (Bits 9218868437227405312) OutOfRange 0].

(** basictest.cpp, TEST_CASE("double.general") *)
Definition double_general : list fcase := [
  fc F64 (txt "0.95000000000000000000") f_general 46 (Bits 4606732058837280358) Success 0;
  fc F64 (txt "22250738585072012e-324") f_general 46 (Bits 4503599627370496) Success 0;
  fc F64 (txt "-22250738585072012e-324") f_general 46 (Bits 9227875636482146304) Success 0;
  fc F64 (txt "-1e-999") f_general 46 (Bits 9223372036854775808) OutOfRange 0;
  fc F64 (txt "2.4703282292062327e-324") f_general 46 (Bits 0) OutOfRange 0;
  fc F64 (txt "2.4703282292062328e-324") f_general 46 (Bits 1) Success 0;
  fc F64 (txt "0.2470328229206232720e-323") f_general 46 (Bits 0) OutOfRange 0;
  fc F64 (txt "0.2470328229206232721e-323") f_general 46 (Bits 1) Success 0;
  fc F64 (txt "-2.2222222222223e-322") f_general 46 (Bits 9223372036854775853) Success 0;
  fc F64 (txt "9007199254740993.0") f_general 46 (Bits 4845873199050653696) Success 0;
  fc F64 (txt "860228122.6654514319E+90") f_general 46 (Bits 6086944415032570207) Success 0;
  fc F64 (txt "9007199254740993.0" ++ zeros 1000) f_general 46 (Bits 4845873199050653696) Success 0;
  fc F64 (txt "10000000000000000000") f_general 46 (Bits 4891288408196988160) Success 0;
  fc F64 (txt "10000000000000000000000000000001000000000000") f_general 46 (Bits 5250267901928720505) Success 0;
  fc F64 (txt "10000000000000000000000000000000000000000001") f_general 46 (Bits 5250267901928720505) Success 0;
  fc F64 (txt "1.1920928955078125e-07") f_general 46 (Bits 4503599627370496000) Success 0;
  fc F64 (txt "9355950000000000000.00000000000000000000000000000000001844674407370955161600000184467440737095516161844674407370955161407370955161618446744073709551616000184467440737095516166000001844674407370955161618446744073709551614073709551616184467440737095516160001844674407370955161601844674407370955674451616184467440737095516140737095516161844674407370955161600018446744073709551616018446744073709551611616000184467440737095001844674407370955161600184467440737095516160018446744073709551168164467440737095516160001844073709551616018446744073709551616184467440737095516160001844674407536910751601611616000184467440737095001844674407370955161600184467440737095516160018446744073709551616184467440737095516160001844955161618446744073709551616000184467440753691075160018446744073709") f_general 46 (Bits 4890973930657925660) Success 0;
  fc F64 (txt "-0") f_general 46 (Bits 9223372036854775808) Success 0;
  fc F64 (txt "2.22507385850720212418870147920222032907240528279439037814303133837435107319244194686754406432563881851382188218502438069999947733013005649884107791928741341929297200970481951993067993290969042784064731682041565926728632933630474670123316852983422152744517260835859654566319282835244787787799894310779783833699159288594555213714181128458251145584319223079897504395086859412457230891738946169368372321191373658977977723286698840356390251044443035457396733706583981055420456693824658413747607155981176573877626747665912387199931904006317334709003012790188175203447190250028061277777916798391090578584006464715943810511489154282775041174682194133952466682503431306181587829379004205392375072083366693241580002758391118854188641513168478436313080237596295773983001708984375e-308") f_general 46 (Bits 4503599627370498) Success 0;
  fc F64 (txt "1.0000000000000006661338147750939242541790008544921875") f_general 46 (Bits 4607182418800017411) Success 0;
  fc F64 (txt "1090544144181609348835077142190") f_general 46 (Bits 5056283964479065595) Success 0;
  fc F64 (txt "2.2250738585072013e-308") f_general 46 (Bits 4503599627370496) Success 0;
  fc F64 (txt "-92666518056446206563E3") f_general 46 (Bits 14173847782598907213) Success 0;
  fc F64 (txt "-92666518056446206563E3") f_general 46 (Bits 14173847782598907213) Success 0;
  fc F64 (txt "-42823146028335318693e-128") f_general 46 (Bits 12209284349579549359) Success 0;
  fc F64 (txt "90054602635948575728E72") f_general 46 (Bits 5982498519340857027) Success 0;
  fc F64 (txt "1.00000000000000188558920870223463870174566020691753515394643550663070558368373221972569761144603605635692374830246134201063722058e-309") f_general 46 (Bits 202402253307311) Success 0;
  fc F64 (txt "0e9999999999999999999999999999") f_general 46 (Bits 0) Success 0;
  fc F64 (txt "-2402844368454405395.2") f_general 46 (Bits 14105463488704160487) Success 0;
  fc F64 (txt "2402844368454405395.2") f_general 46 (Bits 4882091451849384679) Success 0;
  fc F64 (txt "7.0420557077594588669468784357561207962098443483187940792729600000e+59") f_general 46 (Bits 5502285962871183634) Success 0;
  fc F64 (txt "7.0420557077594588669468784357561207962098443483187940792729600000e+59") f_general 46 (Bits 5502285962871183634) Success 0;
  fc F64 (txt "-1.7339253062092163730578609458683877051596800000000000000000000000e+42") f_general 46 (Bits 14462157418690977065) Success 0;
  fc F64 (txt "-2.0972622234386619214559824785284023792871122537545728000000000000e+52") f_general 46 (Bits 14613062615229222967) Success 0;
  fc F64 (txt "-1.0001803374372191849407179462120053338028379051879898808320000000e+57") f_general 46 (Bits 14682971939196447345) Success 0;
  fc F64 (txt "-1.8607245283054342363818436991534856973992070520151142825984000000e+58") f_general 46 (Bits 14701920605995486015) Success 0;
  fc F64 (txt "-1.9189205311132686907264385602245237137907390376574976000000000000e+52") f_general 46 (Bits 14612391768343320291) Success 0;
  fc F64 (txt "-2.8184483231688951563253238886553506793085187889855201280000000000e+54") f_general 46 (Bits 14644981464159035963) Success 0;
  fc F64 (txt "-1.7664960224650106892054063261344555646357024359107788800000000000e+53") f_general 46 (Bits 14626990414825260659) Success 0;
  fc F64 (txt "-2.1470977154320536489471030463761883783915110400000000000000000000e+45") f_general 46 (Bits 14508365845922571905) Success 0;
  fc F64 (txt "-4.4900312744003159009338275160799498340862630046359789166919680000e+61") f_general 46 (Bits 14752650022422988359) Success 0;
  fc F64 (txt "1") f_general 46 (Bits 4607182418800017408) Success 0;
  fc F64 (txt "1.797693134862315700000000000000001e308") f_general 46 (Bits 9218868437227405311) Success 0;
  fc F64 (txt "3e-324") f_general 46 (Bits 1) Success 0;
  fc F64 (txt "1.00000006e+09") f_general 46 (Bits 4741671816869707776) Success 0;
  fc F64 (txt "4.9406564584124653e-324") f_general 46 (Bits 1) Success 0;
  fc F64 (txt "4.9406564584124654e-324") f_general 46 (Bits 1) Success 0;
  fc F64 (txt "2.2250738585072009e-308") f_general 46 (Bits 4503599627370495) Success 0;
  fc F64 (txt "2.2250738585072014e-308") f_general 46 (Bits 4503599627370496) Success 0;
  fc F64 (txt "0.2225073858507201136e-307") f_general 46 (Bits 4503599627370495) Success 0;
  fc F64 (txt "0.2225073858507201137e-307") f_general 46 (Bits 4503599627370496) Success 0;
  fc F64 (txt "1.7976931348623157e308") f_general 46 (Bits 9218868437227405311) Success 0;
  fc F64 (txt "1.7976931348623158e308") f_general 46 (Bits 9218868437227405311) Success 0;
  fc F64 (txt "1.7976931348623158079e308") f_general 46 (Bits 9218868437227405311) Success 0;
  fc F64 (txt "1.7976931348623158080e308") f_general 46 (Bits 9218868437227405312) OutOfRange 0;
  fc F64 (txt "4503599627370496.5") f_general 46 (Bits 4841369599423283200) Success 0;
  fc F64 (txt "4503599627475352.5") f_general 46 (Bits 4841369599423388056) Success 0;
  fc F64 (txt "4503599627475353.5") f_general 46 (Bits 4841369599423388058) Success 0;
  fc F64 (txt "2251799813685248.25") f_general 46 (Bits 4836865999795912704) Success 0;
  fc F64 (txt "1125899906842624.125") f_general 46 (Bits 4832362400168542208) Success 0;
  fc F64 (txt "1125899906842901.875") f_general 46 (Bits 4832362400168543320) Success 0;
  fc F64 (txt "2251799813685803.75") f_general 46 (Bits 4836865999795913816) Success 0;
  fc F64 (txt "4503599627370497.5") f_general 46 (Bits 4841369599423283202) Success 0;
  fc F64 (txt "45035996.273704995") f_general 46 (Bits 4721313438954982463) Success 0;
  fc F64 (txt "45035996.273704985") f_general 46 (Bits 4721313438954982461) Success 0;
  fc F64 (txt "0.000000000000000000000000000000000000000000000000000000000000000000000000000000000000000000000000000000000000000000000000000000000000000000000000000000000000000000000000000000000000000000000000000000000000000000000000000000000000000000000000000000000000000000000000000000000000000000000000000000000000000000044501477170144022721148195934182639518696390927032912960468522194496444440421538910330590478162701758282983178260792422137401728773891892910553144148156412434867599762821265346585071045737627442980259622449029037796981144446145705102663115100318287949527959668236039986479250965780342141637013812613333119898765515451440315261253813266652951306000184917766328660755595837392240989947807556594098101021612198814605258742579179000071675999344145086087205681577915435923018910334964869420614052182892431445797605163650903606514140377217442262561590244668525767372446430075513332450079650686719491377688478005309963967709758965844137894433796621993967316936280457084866613206797017728916080020698679408551343728867675409720757232455434770912461317493580281734466552734375") f_general 46 (Bits 9007199254740991) Success 0;
  fc F64 (txt "0.000000000000000000000000000000000000000000000000000000000000000000000000000000000000000000000000000000000000000000000000000000000000000000000000000000000000000000000000000000000000000000000000000000000000000000000000000000000000000000000000000000000000000000000000000000000000000000000000000000000000000000022250738585072008890245868760858598876504231122409594654935248025624400092282356951787758888037591552642309780950434312085877387158357291821993020294379224223559819827501242041788969571311791082261043971979604000454897391938079198936081525613113376149842043271751033627391549782731594143828136275113838604094249464942286316695429105080201815926642134996606517803095075913058719846423906068637102005108723282784678843631944515866135041223479014792369585208321597621066375401613736583044193603714778355306682834535634005074073040135602968046375918583163124224521599262546494300836851861719422417646455137135420132217031370496583210154654068035397417906022589503023501937519773030945763173210852507299305089761582519159720757232455434770912461317493580281734466552734375") f_general 46 (Bits 4503599627370495) Success 0;
  fc F64 (txt "1438456663141390273526118207642235581183227845246331231162636653790368152091394196930365828634687637948157940776599182791387527135353034738357134110310609455693900824193549772792016543182680519740580354365467985440183598701312257624545562331397018329928613196125590274187720073914818062530830316533158098624984118889298281371812288789537310599037529113415438738954894752124724983067241108764488346454376699018673078404751121414804937224240805993123816932326223683090770561597570457793932985826162604255884529134126396282202126526253389383421806727954588525596114379801269094096329805054803089299736996870951258573010877404407451953846698609198213926882692078557033228265259305481198526059813164469187586693257335779522020407645498684263339921905227556616698129967412891282231685504660671277927198290009824680186319750978665734576683784255802269708917361719466043175201158849097881370477111850171579869056016061666173029059588433776015644439705050377554277696143928278093453792803846252715966016733222646442382892123940052441346822429721593884378212558701004356924243030059517489346646577724622498919752597382095222500311124181823512251071356181769376577651390028297796156208815375089159128394945710515861334486267101797497111125909272505194792870889617179758703442608016143343262159998149700606597792535574457560429226974273443630323818747730771316763398572110874959981923732463076884528677392654150010269822239401993427482376513231389212353583573566376915572650916866553612366187378959554983566712767093372906030188976220169058025354973622211666504549316958271880975697143546564469806791358707318873075708383345004090151974068325838177531266954177406661392229801349994695941509935655355652985723782153570084089560139142231.738475042362596875449154552392299548947138162081694168675340677843807613129780449323363759027012972466987370921816813162658754726545121090545507240267000456594786540949605260722461937870630634874991729398208026467698131898691830012167897399682179601734569071423681e-733") f_general 46 (Bits 9218868437227405312) OutOfRange 0;
  fc F64 (txt "-2240084132271013504.131248280843119943687942846658579428") f_general 46 (Bits 14105017162311336127) Success 0;
  fc F64 (txt "179769313486231580793728971405303415079934132710037826936173778980444968292764750946649017977587207096330286416692887910946555547851940402630657488671505820681908902000708383676273854845817711531764475730270069855571366959622842914819860834936475292719074168444365510704342711559699508093042880177904174497791") f_general 46 (Bits 9218868437227405311) Success 0].

(** basictest.cpp, TEST_CASE("double.decimal_point") *)
Definition double_decimal_point : list fcase := [
  fc F64 (txt "1,8e308") f_general 44 (Bits 9218868437227405312) OutOfRange 0;
  fc F64 (txt "1,832312213213213232132132143451234453123412321321312e308") f_general 44 (Bits 9218868437227405312) OutOfRange 0;
  fc F64 (txt "2e30000000000000000") f_general 44 (Bits 9218868437227405312) OutOfRange 0;
  fc F64 (txt "2e3000") f_general 44 (Bits 9218868437227405312) OutOfRange 0;
  fc F64 (txt "1,9e308") f_general 44 (Bits 9218868437227405312) OutOfRange 0;
  fc F64 (txt "-2,2222222222223e-322") f_general 44 (Bits 9223372036854775853) Success 0;
  fc F64 (txt "9007199254740993,0") f_general 44 (Bits 4845873199050653696) Success 0;
  fc F64 (txt "860228122,6654514319E+90") f_general 44 (Bits 6086944415032570207) Success 0;
  fc F64 (txt "9007199254740993,0" ++ zeros 1000) f_general 44 (Bits 4845873199050653696) Success 0;
  fc F64 (txt "1,1920928955078125e-07") f_general 44 (Bits 4503599627370496000) Success 0;
  fc F64 (txt "9355950000000000000,00000000000000000000000000000000001844674407370955161600000184467440737095516161844674407370955161407370955161618446744073709551616000184467440737095516166000001844674407370955161618446744073709551614073709551616184467440737095516160001844674407370955161601844674407370955674451616184467440737095516140737095516161844674407370955161600018446744073709551616018446744073709551611616000184467440737095001844674407370955161600184467440737095516160018446744073709551168164467440737095516160001844073709551616018446744073709551616184467440737095516160001844674407536910751601611616000184467440737095001844674407370955161600184467440737095516160018446744073709551616184467440737095516160001844955161618446744073709551616000184467440753691075160018446744073709") f_general 44 (Bits 4890973930657925660) Success 0;
  fc F64 (txt "2,22507385850720212418870147920222032907240528279439037814303133837435107319244194686754406432563881851382188218502438069999947733013005649884107791928741341929297200970481951993067993290969042784064731682041565926728632933630474670123316852983422152744517260835859654566319282835244787787799894310779783833699159288594555213714181128458251145584319223079897504395086859412457230891738946169368372321191373658977977723286698840356390251044443035457396733706583981055420456693824658413747607155981176573877626747665912387199931904006317334709003012790188175203447190250028061277777916798391090578584006464715943810511489154282775041174682194133952466682503431306181587829379004205392375072083366693241580002758391118854188641513168478436313080237596295773983001708984375e-308") f_general 44 (Bits 4503599627370498) Success 0;
  fc F64 (txt "1,0000000000000006661338147750939242541790008544921875") f_general 44 (Bits 4607182418800017411) Success 0;
  fc F64 (txt "2,2250738585072013e-308") f_general 44 (Bits 4503599627370496) Success 0;
  fc F64 (txt "1,00000000000000188558920870223463870174566020691753515394643550663070558368373221972569761144603605635692374830246134201063722058e-309") f_general 44 (Bits 202402253307311) Success 0;
  fc F64 (txt "-2402844368454405395,2") f_general 44 (Bits 14105463488704160487) Success 0;
  fc F64 (txt "2402844368454405395,2") f_general 44 (Bits 4882091451849384679) Success 0;
  fc F64 (txt "7,0420557077594588669468784357561207962098443483187940792729600000e+59") f_general 44 (Bits 5502285962871183634) Success 0;
  fc F64 (txt "7,0420557077594588669468784357561207962098443483187940792729600000e+59") f_general 44 (Bits 5502285962871183634) Success 0;
  fc F64 (txt "-1,7339253062092163730578609458683877051596800000000000000000000000e+42") f_general 44 (Bits 14462157418690977065) Success 0;
  fc F64 (txt "-2,0972622234386619214559824785284023792871122537545728000000000000e+52") f_general 44 (Bits 14613062615229222967) Success 0;
  fc F64 (txt "-1,0001803374372191849407179462120053338028379051879898808320000000e+57") f_general 44 (Bits 14682971939196447345) Success 0;
  fc F64 (txt "-1,8607245283054342363818436991534856973992070520151142825984000000e+58") f_general 44 (Bits 14701920605995486015) Success 0;
  fc F64 (txt "-1,9189205311132686907264385602245237137907390376574976000000000000e+52") f_general 44 (Bits 14612391768343320291) Success 0;
  fc F64 (txt "-2,8184483231688951563253238886553506793085187889855201280000000000e+54") f_general 44 (Bits 14644981464159035963) Success 0;
  fc F64 (txt "-1,7664960224650106892054063261344555646357024359107788800000000000e+53") f_general 44 (Bits 14626990414825260659) Success 0;
  fc F64 (txt "-2,1470977154320536489471030463761883783915110400000000000000000000e+45") f_general 44 (Bits 14508365845922571905) Success 0;
  fc F64 (txt "-4,4900312744003159009338275160799498340862630046359789166919680000e+61") f_general 44 (Bits 14752650022422988359) Success 0;
  fc F64 (txt "1") f_general 44 (Bits 4607182418800017408) Success 0;
  fc F64 (txt "1,797693134862315700000000000000001e308") f_general 44 (Bits 9218868437227405311) Success 0;
  fc F64 (txt "3e-324") f_general 44 (Bits 1) Success 0;
  fc F64 (txt "1,00000006e+09") f_general 44 (Bits 4741671816869707776) Success 0;
  fc F64 (txt "4,9406564584124653e-324") f_general 44 (Bits 1) Success 0;
  fc F64 (txt "4,9406564584124654e-324") f_general 44 (Bits 1) Success 0;
  fc F64 (txt "2,2250738585072009e-308") f_general 44 (Bits 4503599627370495) Success 0;
  fc F64 (txt "2,2250738585072014e-308") f_general 44 (Bits 4503599627370496) Success 0;
  fc F64 (txt "1,7976931348623157e308") f_general 44 (Bits 9218868437227405311) Success 0;
  fc F64 (txt "1,7976931348623158e308") f_general 44 (Bits 9218868437227405311) Success 0;
  fc F64 (txt "4503599627370496,5") f_general 44 (Bits 4841369599423283200) Success 0;
  fc F64 (txt "4503599627475352,5") f_general 44 (Bits 4841369599423388056) Success 0;
  fc F64 (txt "4503599627475353,5") f_general 44 (Bits 4841369599423388058) Success 0;
  fc F64 (txt "2251799813685248,25") f_general 44 (Bits 4836865999795912704) Success 0;
  fc F64 (txt "1125899906842624,125") f_general 44 (Bits 4832362400168542208) Success 0;
  fc F64 (txt "1125899906842901,875") f_general 44 (Bits 4832362400168543320) Success 0;
  fc F64 (txt "2251799813685803,75") f_general 44 (Bits 4836865999795913816) Success 0;
  fc F64 (txt "4503599627370497,5") f_general 44 (Bits 4841369599423283202) Success 0;
  fc F64 (txt "45035996,273704995") f_general 44 (Bits 4721313438954982463) Success 0;
  fc F64 (txt "45035996,273704985") f_general 44 (Bits 4721313438954982461) Success 0;
  fc F64 (txt "0,000000000000000000000000000000000000000000000000000000000000000000000000000000000000000000000000000000000000000000000000000000000000000000000000000000000000000000000000000000000000000000000000000000000000000000000000000000000000000000000000000000000000000000000000000000000000000000000000000000000000000000044501477170144022721148195934182639518696390927032912960468522194496444440421538910330590478162701758282983178260792422137401728773891892910553144148156412434867599762821265346585071045737627442980259622449029037796981144446145705102663115100318287949527959668236039986479250965780342141637013812613333119898765515451440315261253813266652951306000184917766328660755595837392240989947807556594098101021612198814605258742579179000071675999344145086087205681577915435923018910334964869420614052182892431445797605163650903606514140377217442262561590244668525767372446430075513332450079650686719491377688478005309963967709758965844137894433796621993967316936280457084866613206797017728916080020698679408551343728867675409720757232455434770912461317493580281734466552734375") f_general 44 (Bits 9007199254740991) Success 0;
  fc F64 (txt "0,000000000000000000000000000000000000000000000000000000000000000000000000000000000000000000000000000000000000000000000000000000000000000000000000000000000000000000000000000000000000000000000000000000000000000000000000000000000000000000000000000000000000000000000000000000000000000000000000000000000000000000022250738585072008890245868760858598876504231122409594654935248025624400092282356951787758888037591552642309780950434312085877387158357291821993020294379224223559819827501242041788969571311791082261043971979604000454897391938079198936081525613113376149842043271751033627391549782731594143828136275113838604094249464942286316695429105080201815926642134996606517803095075913058719846423906068637102005108723282784678843631944515866135041223479014792369585208321597621066375401613736583044193603714778355306682834535634005074073040135602968046375918583163124224521599262546494300836851861719422417646455137135420132217031370496583210154654068035397417906022589503023501937519773030945763173210852507299305089761582519159720757232455434770912461317493580281734466552734375") f_general 44 (Bits 4503599627370495) Success 0].

(** basictest.cpp, TEST_CASE("float.inf") *)
Definition float_inf : list fcase := [
  fc F32 (txt "INF") f_general 46 (Bits 2139095040) Success 0;
  fc F32 (txt "-INF") f_general 46 (Bits 4286578688) Success 0;
  fc F32 (txt "INFINITY") f_general 46 (Bits 2139095040) Success 0;
  fc F32 (txt "-INFINITY") f_general 46 (Bits 4286578688) Success 0;
  fc F32 (txt "infinity") f_general 46 (Bits 2139095040) Success 0;
  fc F32 (txt "-infinity") f_general 46 (Bits 4286578688) Success 0;
  fc F32 (txt "inf") f_general 46 (Bits 2139095040) Success 0;
  fc F32 (txt "-inf") f_general 46 (Bits 4286578688) Success 0;
  fc F32 (txt "1234456789012345678901234567890e9999999999999999999999999999") f_general 46 (Bits 2139095040) OutOfRange 0;
  fc F32 (txt "2e3000") f_general 46 (Bits 2139095040) OutOfRange 0;
  fc F32 (txt "3.5028234666e38") f_general 46 (Bits 2139095040) OutOfRange 0;
  fc F32 (txt "3.40282357e38") f_general 46 (Bits 2139095040) OutOfRange 0;
  fc F32 (txt "3.4028236e38") f_general 46 (Bits 2139095040) OutOfRange 0;
  fc F32 (txt "340282356779733661637539395458142568448") f_general 46 (Bits 2139095040) OutOfRange 0].

(** basictest.cpp, TEST_CASE("float.general") *)
Definition float_general : list fcase := [
  fc F32 (txt "0.7006492e-45") f_general 46 (Bits 0) OutOfRange 0;
  fc F32 (txt "0.7006493e-45") f_general 46 (Bits 1) Success 0;
  fc F32 (txt "0.7006492321624085354e-45") f_general 46 (Bits 0) OutOfRange 0;
  fc F32 (txt "0.7006492321624085355e-45") f_general 46 (Bits 1) Success 0;
  fc F32 (txt "340282346638528859811704183484516925440") f_general 46 (Bits 2139095039) Success 0;
  fc F32 (txt "-340282346638528859811704183484516925440") f_general 46 (Bits 4286578687) Success 0;
  fc F32 (txt "340282356779733661637539395458142568447") f_general 46 (Bits 2139095039) Success 0;
  fc F32 (txt "0.3402823567797336616e39") f_general 46 (Bits 2139095039) Success 0;
  fc F32 (txt "0.3402823567797336617e39") f_general 46 (Bits 2139095040) OutOfRange 0;
  fc F32 (txt "-1e-999") f_general 46 (Bits 2147483648) OutOfRange 0;
  fc F32 (txt "1.1754941406275178592461758986628081843312458647327962400313859427181746759860647699724722770042717456817626953125") f_general 46 (Bits 1066825368) Success 0;
  fc F32 (txt "1.1754941406275178592461758986628081843312458647327962400313859427181746759860647699724722770042717456817626953125e-38") f_general 46 (Bits 8388606) Success 0;
  fc F32 (txt "1.1754942807573642917e-38") f_general 46 (Bits 8388607) Success 0;
  fc F32 (txt "1.1754942807573642918e-38") f_general 46 (Bits 8388608) Success 0;
  fc F32 (txt "1.1754941406275178592461758986628081843312458647327962400313859427181746759860647699724722770042717456817626953125" ++ zeros 655) f_general 46 (Bits 1066825368) Success 0;
  fc F32 (txt "1.1754941406275178592461758986628081843312458647327962400313859427181746759860647699724722770042717456817626953125" ++ zeros 656) f_general 46 (Bits 1066825368) Success 0;
  fc F32 (txt "1.1754941406275178592461758986628081843312458647327962400313859427181746759860647699724722770042717456817626953125" ++ zeros 1000) f_general 46 (Bits 1066825368) Success 0;
  fc F32 (txt "1.1754941406275178592461758986628081843312458647327962400313859427181746759860647699724722770042717456817626953125" ++ zeros 655 ++ txt "e-38") f_general 46 (Bits 8388606) Success 0;
  fc F32 (txt "1.1754941406275178592461758986628081843312458647327962400313859427181746759860647699724722770042717456817626953125" ++ zeros 656 ++ txt "e-38") f_general 46 (Bits 8388606) Success 0;
  fc F32 (txt "1.1754941406275178592461758986628081843312458647327962400313859427181746759860647699724722770042717456817626953125" ++ zeros 1000 ++ txt "e-38") f_general 46 (Bits 8388606) Success 0;
  fc F32 (txt "-0") f_general 46 (Bits 2147483648) Success 0;
  fc F32 (txt "1090544144181609348835077142190") f_general 46 (Bits 1901870032) Success 0;
  fc F32 (txt "1.1754943508e-38") f_general 46 (Bits 8388608) Success 0;
  fc F32 (txt "30219.0830078125") f_general 46 (Bits 1189877290) Success 0;
  fc F32 (txt "16252921.5") f_general 46 (Bits 1266155514) Success 0;
  fc F32 (txt "5322519.25") f_general 46 (Bits 1252159022) Success 0;
  fc F32 (txt "3900245.875") f_general 46 (Bits 1248726360) Success 0;
  fc F32 (txt "1510988.3125") f_general 46 (Bits 1236824674) Success 0;
  fc F32 (txt "782262.28125") f_general 46 (Bits 1228864356) Success 0;
  fc F32 (txt "328381.484375") f_general 46 (Bits 1218467760) Success 0;
  fc F32 (txt "156782.0703125") f_general 46 (Bits 1209604996) Success 0;
  fc F32 (txt "85003.24609375") f_general 46 (Bits 1202062752) Success 0;
  fc F32 (txt "17419.6494140625") f_general 46 (Bits 1183323980) Success 0;
  fc F32 (txt "15498.36376953125") f_general 46 (Bits 1181886836) Success 0;
  fc F32 (txt "6318.580322265625") f_general 46 (Bits 1170568356) Success 0;
  fc F32 (txt "2525.2840576171875") f_general 46 (Bits 1159582860) Success 0;
  fc F32 (txt "1370.9265747070312") f_general 46 (Bits 1152081318) Success 0;
  fc F32 (txt "936.3702087402344") f_general 46 (Bits 1147803570) Success 0;
  fc F32 (txt "411.88682556152344") f_general 46 (Bits 1137570180) Success 0;
  fc F32 (txt "206.50310516357422") f_general 46 (Bits 1129218252) Success 0;
  fc F32 (txt "124.16878890991211") f_general 46 (Bits 1123571308) Success 0;
  fc F32 (txt "50.811574935913086") f_general 46 (Bits 1112227598) Success 0;
  fc F32 (txt "17.486443519592285") f_general 46 (Bits 1099686972) Success 0;
  fc F32 (txt "13.91745138168335") f_general 46 (Bits 1096723938) Success 0;
  fc F32 (txt "7.5464513301849365") f_general 46 (Bits 1089567879) Success 0;
  fc F32 (txt "2.687217116355896") f_general 46 (Bits 1076624222) Success 0;
  fc F32 (txt "1.1877630352973938") f_general 46 (Bits 1066928287) Success 0;
  fc F32 (txt "0.7622503340244293") f_general 46 (Bits 1061364438) Success 0;
  fc F32 (txt "0.30531780421733856") f_general 46 (Bits 1050432157) Success 0;
  fc F32 (txt "0.21791061013936996") f_general 46 (Bits 1046422517) Success 0;
  fc F32 (txt "0.09289376810193062") f_general 46 (Bits 1035878167) Success 0;
  fc F32 (txt "0.03706067614257336") f_general 46 (Bits 1024969968) Success 0;
  fc F32 (txt "0.028068351559340954") f_general 46 (Bits 1021702042) Success 0;
  fc F32 (txt "0.012114629615098238") f_general 46 (Bits 1011252337) Success 0;
  fc F32 (txt "0.004221370676532388") f_general 46 (Bits 998921069) Success 0;
  fc F32 (txt "0.002153817447833717") f_general 46 (Bits 990717712) Success 0;
  fc F32 (txt "0.0015924838953651488") f_general 46 (Bits 986757861) Success 0;
  fc F32 (txt "0.0008602388261351734") f_general 46 (Bits 979468710) Success 0;
  fc F32 (txt "0.00036393293703440577") f_general 46 (Bits 968805953) Success 0;
  fc F32 (txt "0.00013746770127909258") f_general 46 (Bits 957359412) Success 0;
  fc F32 (txt "16407.9462890625") f_general 46 (Bits 1182805988) Success 0;
  fc F32 (txt "1.1754947011469036e-38") f_general 46 (Bits 8388611) Success 0;
  fc F32 (txt "7.0064923216240854e-46") f_general 46 (Bits 1) Success 0;
  fc F32 (txt "8388614.5") f_general 46 (Bits 1258291206) Success 0;
  fc F32 (txt "0e9999999999999999999999999999") f_general 46 (Bits 0) Success 0;
  fc F32 (txt "4.7019774032891500318749461488889827112746622270883500860350068251e-38") f_general 46 (Bits 25165824) Success 0;
  fc F32 (txt "3.1415926535897932384626433832795028841971693993751058209749445923078164062862089986280348253421170679") f_general 46 (Bits 1078530011) Success 0;
  fc F32 (txt "2.3509887016445750159374730744444913556373311135441750430175034126e-38") f_general 46 (Bits 16777216) Success 0;
  fc F32 (txt "1") f_general 46 (Bits 1065353216) Success 0;
  fc F32 (txt "7.0060e-46") f_general 46 (Bits 0) OutOfRange 0;
  fc F32 (txt "3.4028234664e38") f_general 46 (Bits 2139095039) Success 0;
  fc F32 (txt "3.4028234665e38") f_general 46 (Bits 2139095039) Success 0;
  fc F32 (txt "3.4028234666e38") f_general 46 (Bits 2139095039) Success 0;
  fc F64 (txt "0.000000000000000000000000000000000000011754943508222875079687365372222456778186655567720875215087517062784172594547271728515625") f_general 46 (Bits 4039728865751334912) Success 0;
  fc F32 (txt "0.00000000000000000000000000000000000000000000140129846432481707092372958328991613128026194187651577175706828388979108268586060148663818836212158203125") f_general 46 (Bits 1) Success 0;
  fc F32 (txt "0.00000000000000000000000000000000000002350988561514728583455765982071533026645717985517980855365926236850006129930346077117064851336181163787841796875") f_general 46 (Bits 16777215) Success 0;
  fc F32 (txt "0.00000000000000000000000000000000000001175494210692441075487029444849287348827052428745893333857174530571588870475618904265502351336181163787841796875") f_general 46 (Bits 8388607) Success 0].

(** basictest.cpp, TEST_CASE("float.decimal_point") *)
Definition float_decimal_point : list fcase := [
  fc F32 (txt "3,5028234666e38") f_general 44 (Bits 2139095040) OutOfRange 0;
  fc F32 (txt "1,1754941406275178592461758986628081843312458647327962400313859427181746759860647699724722770042717456817626953125") f_general 44 (Bits 1066825368) Success 0;
  fc F32 (txt "1,1754941406275178592461758986628081843312458647327962400313859427181746759860647699724722770042717456817626953125e-38") f_general 44 (Bits 8388606) Success 0;
  fc F32 (txt "1,1754941406275178592461758986628081843312458647327962400313859427181746759860647699724722770042717456817626953125" ++ zeros 655) f_general 44 (Bits 1066825368) Success 0;
  fc F32 (txt "1,1754941406275178592461758986628081843312458647327962400313859427181746759860647699724722770042717456817626953125" ++ zeros 656) f_general 44 (Bits 1066825368) Success 0;
  fc F32 (txt "1,1754941406275178592461758986628081843312458647327962400313859427181746759860647699724722770042717456817626953125" ++ zeros 1000) f_general 44 (Bits 1066825368) Success 0;
  fc F32 (txt "1,1754941406275178592461758986628081843312458647327962400313859427181746759860647699724722770042717456817626953125" ++ zeros 655 ++ txt "e-38") f_general 44 (Bits 8388606) Success 0;
  fc F32 (txt "1,1754941406275178592461758986628081843312458647327962400313859427181746759860647699724722770042717456817626953125" ++ zeros 656 ++ txt "e-38") f_general 44 (Bits 8388606) Success 0;
  fc F32 (txt "1,1754941406275178592461758986628081843312458647327962400313859427181746759860647699724722770042717456817626953125" ++ zeros 1000 ++ txt "e-38") f_general 44 (Bits 8388606) Success 0;
  fc F32 (txt "1,1754943508e-38") f_general 44 (Bits 8388608) Success 0;
  fc F32 (txt "30219,0830078125") f_general 44 (Bits 1189877290) Success 0;
  fc F32 (txt "1,1754947011469036e-38") f_general 44 (Bits 8388611) Success 0;
  fc F32 (txt "7,0064923216240854e-46") f_general 44 (Bits 1) Success 0;
  fc F32 (txt "8388614,5") f_general 44 (Bits 1258291206) Success 0;
  fc F32 (txt "0e9999999999999999999999999999") f_general 44 (Bits 0) Success 0;
  fc F32 (txt "4,7019774032891500318749461488889827112746622270883500860350068251e-38") f_general 44 (Bits 25165824) Success 0;
  fc F32 (txt "3,1415926535897932384626433832795028841971693993751058209749445923078164062862089986280348253421170679") f_general 44 (Bits 1078530011) Success 0;
  fc F32 (txt "2,3509887016445750159374730744444913556373311135441750430175034126e-38") f_general 44 (Bits 16777216) Success 0;
  fc F32 (txt "1") f_general 44 (Bits 1065353216) Success 0;
  fc F32 (txt "7,0060e-46") f_general 44 (Bits 0) OutOfRange 0;
  fc F32 (txt "3,4028234664e38") f_general 44 (Bits 2139095039) Success 0;
  fc F32 (txt "3,4028234665e38") f_general 44 (Bits 2139095039) Success 0;
  fc F32 (txt "3,4028234666e38") f_general 44 (Bits 2139095039) Success 0;
  fc F32 (txt "0,000000000000000000000000000000000000011754943508222875079687365372222456778186655567720875215087517062784172594547271728515625") f_general 44 (Bits 8388608) Success 0;
  fc F32 (txt "0,00000000000000000000000000000000000000000000140129846432481707092372958328991613128026194187651577175706828388979108268586060148663818836212158203125") f_general 44 (Bits 1) Success 0;
  fc F32 (txt "0,00000000000000000000000000000000000002350988561514728583455765982071533026645717985517980855365926236850006129930346077117064851336181163787841796875") f_general 44 (Bits 16777215) Success 0;
  fc F32 (txt "0,00000000000000000000000000000000000001175494210692441075487029444849287348827052428745893333857174530571588870475618904265502351336181163787841796875") f_general 44 (Bits 8388607) Success 0].

(** basictest.cpp, TEST_CASE("float16.inf") *)
Definition float16_inf : list fcase := [
  fc F16 (txt "INF") f_general 46 (Bits 31744) Success 0;
  fc F16 (txt "-INF") f_general 46 (Bits 64512) Success 0;
  fc F16 (txt "INFINITY") f_general 46 (Bits 31744) Success 0;
  fc F16 (txt "-INFINITY") f_general 46 (Bits 64512) Success 0;
  fc F16 (txt "infinity") f_general 46 (Bits 31744) Success 0;
  fc F16 (txt "-infinity") f_general 46 (Bits 64512) Success 0;
  fc F16 (txt "inf") f_general 46 (Bits 31744) Success 0;
  fc F16 (txt "-inf") f_general 46 (Bits 64512) Success 0;
  fc F16 (txt "1234456789012345678901234567890e9999999999999999999999999999") f_general 46 (Bits 31744) OutOfRange 0;
  fc F16 (txt "2e3000") f_general 46 (Bits 31744) OutOfRange 0;
  fc F16 (txt "3.5028234666e38") f_general 46 (Bits 31744) OutOfRange 0].

(** basictest.cpp, TEST_CASE("float16.general") *)
Definition float16_general : list fcase := [
  fc F16 (txt "65504") f_general 46 (Bits 31743) Success 0;
  fc F16 (txt "-65504") f_general 46 (Bits 64511) Success 0;
  fc F16 (txt "0.000060975551605224609375") f_general 46 (Bits 1023) Success 0;
  fc F16 (txt "6.0975551605224609375e-5") f_general 46 (Bits 1023) Success 0;
  fc F16 (txt "0.000000059604644775390625") f_general 46 (Bits 1) Success 0;
  fc F16 (txt "5.9604644775390625e-8") f_general 46 (Bits 1) Success 0;
  fc F16 (txt "-0.000060975551605224609375") f_general 46 (Bits 33791) Success 0;
  fc F16 (txt "-6.0975551605224609375e-5") f_general 46 (Bits 33791) Success 0;
  fc F16 (txt "-0.000000059604644775390625") f_general 46 (Bits 32769) Success 0;
  fc F16 (txt "-5.9604644775390625e-8") f_general 46 (Bits 32769) Success 0;
  fc F16 (txt "-1e-999") f_general 46 (Bits 32768) OutOfRange 0;
  fc F16 (txt "6.0975551605224609375") f_general 46 (Bits 17945) Success 0;
  fc F16 (txt "6.0975551605224609375" ++ zeros 655) f_general 46 (Bits 17945) Success 0;
  fc F16 (txt "6.0975551605224609375" ++ zeros 656) f_general 46 (Bits 17945) Success 0;
  fc F16 (txt "6.0975551605224609375" ++ zeros 1000) f_general 46 (Bits 17945) Success 0;
  fc F16 (txt "6.0975551605224609375" ++ zeros 655 ++ txt "e-5") f_general 46 (Bits 1023) Success 0;
  fc F16 (txt "6.0975551605224609375" ++ zeros 656 ++ txt "e-5") f_general 46 (Bits 1023) Success 0;
  fc F16 (txt "6.0975551605224609375" ++ zeros 1000 ++ txt "e-5") f_general 46 (Bits 1023) Success 0;
  fc F16 (txt "-0") f_general 46 (Bits 32768) Success 0;
  fc F16 (txt "30219.0830078125") f_general 46 (Bits 30561) Success 0;
  fc F16 (txt "17419.6494140625") f_general 46 (Bits 29761) Success 0;
  fc F16 (txt "15498.36376953125") f_general 46 (Bits 29585) Success 0;
  fc F16 (txt "6318.580322265625") f_general 46 (Bits 28204) Success 0;
  fc F16 (txt "2525.2840576171875") f_general 46 (Bits 26863) Success 0;
  fc F16 (txt "1370.9265747070312") f_general 46 (Bits 25947) Success 0;
  fc F16 (txt "936.3702087402344") f_general 46 (Bits 25425) Success 0;
  fc F16 (txt "411.88682556152344") f_general 46 (Bits 24176) Success 0;
  fc F16 (txt "206.50310516357422") f_general 46 (Bits 23156) Success 0;
  fc F16 (txt "124.16878890991211") f_general 46 (Bits 22467) Success 0;
  fc F16 (txt "50.811574935913086") f_general 46 (Bits 21082) Success 0;
  fc F16 (txt "17.486443519592285") f_general 46 (Bits 19551) Success 0;
  fc F16 (txt "13.91745138168335") f_general 46 (Bits 19189) Success 0;
  fc F16 (txt "7.5464513301849365") f_general 46 (Bits 18316) Success 0;
  fc F16 (txt "2.687217116355896") f_general 46 (Bits 16736) Success 0;
  fc F16 (txt "1.1877630352973938") f_general 46 (Bits 15552) Success 0;
  fc F16 (txt "0.7622503340244293") f_general 46 (Bits 14873) Success 0;
  fc F16 (txt "0.30531780421733856") f_general 46 (Bits 13539) Success 0;
  fc F16 (txt "0.21791061013936996") f_general 46 (Bits 13049) Success 0;
  fc F16 (txt "0.09289376810193062") f_general 46 (Bits 11762) Success 0;
  fc F16 (txt "0.03706067614257336") f_general 46 (Bits 10430) Success 0;
  fc F16 (txt "0.028068351559340954") f_general 46 (Bits 10031) Success 0;
  fc F16 (txt "0.012114629615098238") f_general 46 (Bits 8756) Success 0;
  fc F16 (txt "0.004221370676532388") f_general 46 (Bits 7251) Success 0;
  fc F16 (txt "0.002153817447833717") f_general 46 (Bits 6249) Success 0;
  fc F16 (txt "0.0015924838953651488") f_general 46 (Bits 5766) Success 0;
  fc F16 (txt "0.0008602388261351734") f_general 46 (Bits 4876) Success 0;
  fc F16 (txt "0.00036393293703440577") f_general 46 (Bits 3574) Success 0;
  fc F16 (txt "0.00013746770127909258") f_general 46 (Bits 2177) Success 0;
  fc F16 (txt "16407.9462890625") f_general 46 (Bits 29697) Success 0;
  fc F16 (txt "0e9999999999999999999999999999") f_general 46 (Bits 0) Success 0;
  fc F16 (txt "3.1415926535897932384626433832795028841971693993751058209749445923078164062862089986280348253421170679") f_general 46 (Bits 16968) Success 0;
  fc F16 (txt "1") f_general 46 (Bits 15360) Success 0].

(** basictest.cpp, TEST_CASE("bfloat16.inf") *)
Definition bfloat16_inf : list fcase := [
  fc BF16 (txt "INF") f_general 46 (Bits 32640) Success 0;
  fc BF16 (txt "-INF") f_general 46 (Bits 65408) Success 0;
  fc BF16 (txt "INFINITY") f_general 46 (Bits 32640) Success 0;
  fc BF16 (txt "-INFINITY") f_general 46 (Bits 65408) Success 0;
  fc BF16 (txt "infinity") f_general 46 (Bits 32640) Success 0;
  fc BF16 (txt "-infinity") f_general 46 (Bits 65408) Success 0;
  fc BF16 (txt "inf") f_general 46 (Bits 32640) Success 0;
  fc BF16 (txt "-inf") f_general 46 (Bits 65408) Success 0;
  fc BF16 (txt "1234456789012345678901234567890e9999999999999999999999999999") f_general 46 (Bits 32640) OutOfRange 0;
  fc BF16 (txt "2e3000") f_general 46 (Bits 32640) OutOfRange 0;
  fc BF16 (txt "3.5028234666e38") f_general 46 (Bits 32640) OutOfRange 0].

(** basictest.cpp, TEST_CASE("bfloat16.general") *)
Definition bfloat16_general : list fcase := [
  fc BF16 (txt "338953138925153547590470800371487866880") f_general 46 (Bits 32639) Success 0;
  fc BF16 (txt "-338953138925153547590470800371487866880") f_general 46 (Bits 65407) Success 0;
  fc BF16 (txt "0.000000000000000000000000000000000000011754943508222875079687365372222456778186655567720875215087517062784172594547271728515625") f_general 46 (Bits 128) Success 0;
  fc BF16 (txt "1.1754943508222875079687365372222456778186655567720875215087517062784172594547271728515625e-38") f_general 46 (Bits 128) Success 0;
  fc BF16 (txt "0.0000000000000000000000000000000000000000918354961579912115600575419704879435795832466228193376178712270530013483949005603790283203125") f_general 46 (Bits 1) Success 0;
  fc BF16 (txt "9.18354961579912115600575419704879435795832466228193376178712270530013483949005603790283203125e-41") f_general 46 (Bits 1) Success 0;
  fc BF16 (txt "-0.000000000000000000000000000000000000011754943508222875079687365372222456778186655567720875215087517062784172594547271728515625") f_general 46 (Bits 32896) Success 0;
  fc BF16 (txt "-1.1754943508222875079687365372222456778186655567720875215087517062784172594547271728515625e-38") f_general 46 (Bits 32896) Success 0;
  fc BF16 (txt "-0.0000000000000000000000000000000000000000918354961579912115600575419704879435795832466228193376178712270530013483949005603790283203125") f_general 46 (Bits 32769) Success 0;
  fc BF16 (txt "-9.18354961579912115600575419704879435795832466228193376178712270530013483949005603790283203125e-41") f_general 46 (Bits 32769) Success 0;
  fc BF16 (txt "-1e-999") f_general 46 (Bits 32768) OutOfRange 0;
  fc BF16 (txt "1.1754943508222875079687365372222456778186655567720875215087517062784172594547271728515625") f_general 46 (Bits 16278) Success 0;
  fc BF16 (txt "1.1754943508222875079687365372222456778186655567720875215087517062784172594547271728515625" ++ zeros 655) f_general 46 (Bits 16278) Success 0;
  fc BF16 (txt "1.1754943508222875079687365372222456778186655567720875215087517062784172594547271728515625" ++ zeros 656) f_general 46 (Bits 16278) Success 0;
  fc BF16 (txt "1.1754943508222875079687365372222456778186655567720875215087517062784172594547271728515625" ++ zeros 1000) f_general 46 (Bits 16278) Success 0;
  fc BF16 (txt "1.1754943508222875079687365372222456778186655567720875215087517062784172594547271728515625" ++ zeros 655 ++ txt "e-38") f_general 46 (Bits 128) Success 0;
  fc BF16 (txt "1.1754943508222875079687365372222456778186655567720875215087517062784172594547271728515625" ++ zeros 656 ++ txt "e-38") f_general 46 (Bits 128) Success 0;
  fc BF16 (txt "1.1754943508222875079687365372222456778186655567720875215087517062784172594547271728515625" ++ zeros 1000 ++ txt "e-38") f_general 46 (Bits 128) Success 0;
  fc BF16 (txt "-0") f_general 46 (Bits 32768) Success 0;
  fc BF16 (txt "30219.0830078125") f_general 46 (Bits 18156) Success 0;
  fc BF16 (txt "16252921.5") f_general 46 (Bits 19320) Success 0;
  fc BF16 (txt "5322519.25") f_general 46 (Bits 19106) Success 0;
  fc BF16 (txt "3900245.875") f_general 46 (Bits 19054) Success 0;
  fc BF16 (txt "1510988.3125") f_general 46 (Bits 18872) Success 0;
  fc BF16 (txt "782262.28125") f_general 46 (Bits 18751) Success 0;
  fc BF16 (txt "328381.484375") f_general 46 (Bits 18592) Success 0;
  fc BF16 (txt "156782.0703125") f_general 46 (Bits 18457) Success 0;
  fc BF16 (txt "85003.24609375") f_general 46 (Bits 18342) Success 0;
  fc BF16 (txt "17419.6494140625") f_general 46 (Bits 18056) Success 0;
  fc BF16 (txt "15498.36376953125") f_general 46 (Bits 18034) Success 0;
  fc BF16 (txt "6318.580322265625") f_general 46 (Bits 17861) Success 0;
  fc BF16 (txt "2525.2840576171875") f_general 46 (Bits 17694) Success 0;
  fc BF16 (txt "1370.9265747070312") f_general 46 (Bits 17579) Success 0;
  fc BF16 (txt "936.3702087402344") f_general 46 (Bits 17514) Success 0;
  fc BF16 (txt "411.88682556152344") f_general 46 (Bits 17358) Success 0;
  fc BF16 (txt "206.50310516357422") f_general 46 (Bits 17231) Success 0;
  fc BF16 (txt "124.16878890991211") f_general 46 (Bits 17144) Success 0;
  fc BF16 (txt "50.811574935913086") f_general 46 (Bits 16971) Success 0;
  fc BF16 (txt "17.486443519592285") f_general 46 (Bits 16780) Success 0;
  fc BF16 (txt "13.91745138168335") f_general 46 (Bits 16735) Success 0;
  fc BF16 (txt "7.5464513301849365") f_general 46 (Bits 16625) Success 0;
  fc BF16 (txt "2.687217116355896") f_general 46 (Bits 16428) Success 0;
  fc BF16 (txt "1.1877630352973938") f_general 46 (Bits 16280) Success 0;
  fc BF16 (txt "0.7622503340244293") f_general 46 (Bits 16195) Success 0;
  fc BF16 (txt "0.30531780421733856") f_general 46 (Bits 16028) Success 0;
  fc BF16 (txt "0.21791061013936996") f_general 46 (Bits 15967) Success 0;
  fc BF16 (txt "0.09289376810193062") f_general 46 (Bits 15806) Success 0;
  fc BF16 (txt "0.03706067614257336") f_general 46 (Bits 15640) Success 0;
  fc BF16 (txt "0.028068351559340954") f_general 46 (Bits 15590) Success 0;
  fc BF16 (txt "0.012114629615098238") f_general 46 (Bits 15430) Success 0;
  fc BF16 (txt "0.004221370676532388") f_general 46 (Bits 15242) Success 0;
  fc BF16 (txt "0.002153817447833717") f_general 46 (Bits 15117) Success 0;
  fc BF16 (txt "0.0015924838953651488") f_general 46 (Bits 15057) Success 0;
  fc BF16 (txt "0.0008602388261351734") f_general 46 (Bits 14946) Success 0;
  fc BF16 (txt "0.00036393293703440577") f_general 46 (Bits 14783) Success 0;
  fc BF16 (txt "0.00013746770127909258") f_general 46 (Bits 14608) Success 0;
  fc BF16 (txt "16407.9462890625") f_general 46 (Bits 18048) Success 0;
  fc BF16 (txt "0e9999999999999999999999999999") f_general 46 (Bits 0) Success 0;
  fc BF16 (txt "3.1415926535897932384626433832795028841971693993751058209749445923078164062862089986280348253421170679") f_general 46 (Bits 16457) Success 0;
  fc BF16 (txt "1") f_general 46 (Bits 16256) Success 0;
  fc BF16 (txt "7.0060e-46") f_general 46 (Bits 0) OutOfRange 0;
  fc BF16 (txt "3.388e+38") f_general 46 (Bits 32639) Success 0;
  fc BF16 (txt "3.389e+38") f_general 46 (Bits 32639) Success 0;
  fc BF16 (txt "3.390e+38") f_general 46 (Bits 32639) Success 0].

(** basictest.cpp, verify32: the %.90e and %.8e prints of each value *)
Definition float_verify32 : list fcase := [
  fc F32 (txt "1.000000064000000000000000000000000000000000000000000000000000000000000000000000000000000000e+09") f_general 46 (Bits 1315859241) Success 0;
  fc F32 (txt "1.00000006e+09") f_general 46 (Bits 1315859241) Success 0;
  fc F32 (txt "1.401298464324817070923729583289916131280261941876515771757068283889791082685860601486638188e-45") f_general 46 (Bits 1) Success 0;
  fc F32 (txt "1.40129846e-45") f_general 46 (Bits 1) Success 0;
  fc F32 (txt "1.175494210692441075487029444849287348827052428745893333857174530571588870475618904265502351e-38") f_general 46 (Bits 8388607) Success 0;
  fc F32 (txt "1.17549421e-38") f_general 46 (Bits 8388607) Success 0;
  fc F32 (txt "1.401298464324817070923729583289916131280261941876515771757068283889791082685860601486638188e-45") f_general 46 (Bits 1) Success 0;
  fc F32 (txt "1.40129846e-45") f_general 46 (Bits 1) Success 0].

(** basictest.cpp, TEST_CASEs issue8, check_behavior, decimal_point_parsing, issue19 (both), scientific_only, test_fixed_only *)
Definition basic_misc : list fcase := [
  fc F64 (txt "3.141592653589793238462643383279502884197169399375105820974944592307816406286208998628034825342117067982148086513282306647093844609550582231725359408128481117450284102701938521105559644622948954930381964428810975665933446128475648233786783165271201909145648566923460348610454326648213393607260249141273724587006606315588174881520920962829254091715364367892590360011330530548820466521384146951941511609433057270365759591953092186117381932611793105118548074462379962749567351885752724891227938183011949129833673362440656643086021394946395224737190702179860943702770539217176293176752384674818467669405132000568127145263560827785771342757789609173637178721468440901224953430146549585371050792279689258923542019956112129021960864034418159813629774771309960518707211349999998372978") f_general 46 (Bits 4614256656552045848) Success 0;
  fc F64 (txt "3.14159265358979323846264338327950288419716939937510582097494459230781640628620899862803482534211706798214808651328230664709384460955058223172535940812848111745028410270193852110555964462294895493038196442881097566593344612847564823378678316527120190914564856692346034861045432664821339360726024914127372458700660631558817488152092096282925409171536436789259036001133053054882046652138414695194151160943305727036575959195309218611738193261179310511854807446237996274956735188575272489122793818301194912983367336244065664308602139494639522473719070217986094370277053921717629317675238467481846766940513200056812714526356082778577134275778960917363717872146844090122495343014654958537105079227968925892354201995611212902196086403441815981362977477130996051870721134999999837297") f_general 46 (Bits 4614256656552045848) Success 0;
  fc F64 (txt "3.1415926535897932384626433832795028841971693993751058209749445923078164062862089986280348253421170679821480865132823066470938446095505822317253594081284811174502841027019385211055596446229489549303819644288109756659334461284756482337867831652712019091456485669234603486104543266482133936072602491412737245870066063155881748815209209628292540917153643678925903600113305305488204665213841469519415116094330572703657595919530921861173819326117931051185480744623799627495673518857527248912279381830119491298336733624406566430860213949463952247371907021798609437027705392171762931767523846748184676694051320005681271452635608277857713427577896091736371787214684409012249534301465495853710507922796892589235420199561121290219608640344181598136297747713099605187072113499999983729") f_general 46 (Bits 4614256656552045848) Success 0;
  fc F64 (txt "3.141592653589793238462643383279502884197169399375105820974944592307816406286208998628034825342117067982148086513282306647093844609550582231725359408128481117450284102701938521105559644622948954930381964428810975665933446128475648233786783165271201909145648566923460348610454326648213393607260249141273724587006606315588174881520920962829254091715364367892590360011330530548820466521384146951941511609433057270365759591953092186117381932611793105118548074462379962749567351885752724891227938183011949129833673362440656643086021394946395224737190702179860943702770539217176293176752384674818467669405132000568127145263560827785771342757789609173637178721468440901224953430146549585371050792279689258923542019956112129021960864034418159813629774771309960518707211349999998372") f_general 46 (Bits 4614256656552045848) Success 0;
  fc F64 (txt "3.14159265358979323846264338327950288419716939937510582097494459230781640628620899862803482534211706798214808651328230664709384460955058223172535940812848111745028410270193852110555964462294895493038196442881097566593344612847564823378678316527120190914564856692346034861045432664821339360726024914127372458700660631558817488152092096282925409171536436789259036001133053054882046652138414695194151160943305727036575959195309218611738193261179310511854807446237996274956735188575272489122793818301194912983367336244065664308602139494639522473719070217986094370277053921717629317675238467481846766940513200056812714526356082778577134275778960917363717872146844090122495343014654958537105079227968925892354201995611212902196086403441815981362977477130996051870721134999999837") f_general 46 (Bits 4614256656552045848) Success 0;
  fc F64 (txt "3.1415926535897932384626433832795028841971693993751058209749445923078164062862089986280348253421170679821480865132823066470938446095505822317253594081284811174502841027019385211055596446229489549303819644288109756659334461284756482337867831652712019091456485669234603486104543266482133936072602491412737245870066063155881748815209209628292540917153643678925903600113305305488204665213841469519415116094330572703657595919530921861173819326117931051185480744623799627495673518857527248912279381830119491298336733624406566430860213949463952247371907021798609437027705392171762931767523846748184676694051320005681271452635608277857713427577896091736371787214684409012249534301465495853710507922796892589235420199561121290219608640344181598136297747713099605187072113499999983") f_general 46 (Bits 4614256656552045848) Success 0;
  fc F64 (txt "3.141592653589793238462643383279502884197169399375105820974944592307816406286208998628034825342117067982148086513282306647093844609550582231725359408128481117450284102701938521105559644622948954930381964428810975665933446128475648233786783165271201909145648566923460348610454326648213393607260249141273724587006606315588174881520920962829254091715364367892590360011330530548820466521384146951941511609433057270365759591953092186117381932611793105118548074462379962749567351885752724891227938183011949129833673362440656643086021394946395224737190702179860943702770539217176293176752384674818467669405132000568127145263560827785771342757789609173637178721468440901224953430146549585371050792279689258923542019956112129021960864034418159813629774771309960518707211349999998") f_general 46 (Bits 4614256656552045848) Success 0;
  fc F64 (txt "3.14159265358979323846264338327950288419716939937510582097494459230781640628620899862803482534211706798214808651328230664709384460955058223172535940812848111745028410270193852110555964462294895493038196442881097566593344612847564823378678316527120190914564856692346034861045432664821339360726024914127372458700660631558817488152092096282925409171536436789259036001133053054882046652138414695194151160943305727036575959195309218611738193261179310511854807446237996274956735188575272489122793818301194912983367336244065664308602139494639522473719070217986094370277053921717629317675238467481846766940513200056812714526356082778577134275778960917363717872146844090122495343014654958537105079227968925892354201995611212902196086403441815981362977477130996051870721134999999") f_general 46 (Bits 4614256656552045848) Success 0;
  fc F64 (txt "3.1415926535897932384626433832795028841971693993751058209749445923078164062862089986280348253421170679821480865132823066470938446095505822317253594081284811174502841027019385211055596446229489549303819644288109756659334461284756482337867831652712019091456485669234603486104543266482133936072602491412737245870066063155881748815209209628292540917153643678925903600113305305488204665213841469519415116094330572703657595919530921861173819326117931051185480744623799627495673518857527248912279381830119491298336733624406566430860213949463952247371907021798609437027705392171762931767523846748184676694051320005681271452635608277857713427577896091736371787214684409012249534301465495853710507922796892589235420199561121290219608640344181598136297747713099605187072113499999") f_general 46 (Bits 4614256656552045848) Success 0;
  fc F64 (txt "3.141592653589793238462643383279502884197169399375105820974944592307816406286208998628034825342117067982148086513282306647093844609550582231725359408128481117450284102701938521105559644622948954930381964428810975665933446128475648233786783165271201909145648566923460348610454326648213393607260249141273724587006606315588174881520920962829254091715364367892590360011330530548820466521384146951941511609433057270365759591953092186117381932611793105118548074462379962749567351885752724891227938183011949129833673362440656643086021394946395224737190702179860943702770539217176293176752384674818467669405132000568127145263560827785771342757789609173637178721468440901224953430146549585371050792279689258923542019956112129021960864034418159813629774771309960518707211349999") f_general 46 (Bits 4614256656552045848) Success 0;
  fc F64 (txt "3.14159265358979323846264338327950288419716939937510582097494459230781640628620899862803482534211706798214808651328230664709384460955058223172535940812848111745028410270193852110555964462294895493038196442881097566593344612847564823378678316527120190914564856692346034861045432664821339360726024914127372458700660631558817488152092096282925409171536436789259036001133053054882046652138414695194151160943305727036575959195309218611738193261179310511854807446237996274956735188575272489122793818301194912983367336244065664308602139494639522473719070217986094370277053921717629317675238467481846766940513200056812714526356082778577134275778960917363717872146844090122495343014654958537105079227968925892354201995611212902196086403441815981362977477130996051870721134999") f_general 46 (Bits 4614256656552045848) Success 0;
  fc F64 (txt "3.1415926535897932384626433832795028841971693993751058209749445923078164062862089986280348253421170679821480865132823066470938446095505822317253594081284811174502841027019385211055596446229489549303819644288109756659334461284756482337867831652712019091456485669234603486104543266482133936072602491412737245870066063155881748815209209628292540917153643678925903600113305305488204665213841469519415116094330572703657595919530921861173819326117931051185480744623799627495673518857527248912279381830119491298336733624406566430860213949463952247371907021798609437027705392171762931767523846748184676694051320005681271452635608277857713427577896091736371787214684409012249534301465495853710507922796892589235420199561121290219608640344181598136297747713099605187072113499") f_general 46 (Bits 4614256656552045848) Success 0;
  fc F64 (txt "3.141592653589793238462643383279502884197169399375105820974944592307816406286208998628034825342117067982148086513282306647093844609550582231725359408128481117450284102701938521105559644622948954930381964428810975665933446128475648233786783165271201909145648566923460348610454326648213393607260249141273724587006606315588174881520920962829254091715364367892590360011330530548820466521384146951941511609433057270365759591953092186117381932611793105118548074462379962749567351885752724891227938183011949129833673362440656643086021394946395224737190702179860943702770539217176293176752384674818467669405132000568127145263560827785771342757789609173637178721468440901224953430146549585371050792279689258923542019956112129021960864034418159813629774771309960518707211349") f_general 46 (Bits 4614256656552045848) Success 0;
  fc F64 (txt "3.14159265358979323846264338327950288419716939937510582097494459230781640628620899862803482534211706798214808651328230664709384460955058223172535940812848111745028410270193852110555964462294895493038196442881097566593344612847564823378678316527120190914564856692346034861045432664821339360726024914127372458700660631558817488152092096282925409171536436789259036001133053054882046652138414695194151160943305727036575959195309218611738193261179310511854807446237996274956735188575272489122793818301194912983367336244065664308602139494639522473719070217986094370277053921717629317675238467481846766940513200056812714526356082778577134275778960917363717872146844090122495343014654958537105079227968925892354201995611212902196086403441815981362977477130996051870721134") f_general 46 (Bits 4614256656552045848) Success 0;
  fc F64 (txt "3.1415926535897932384626433832795028841971693993751058209749445923078164062862089986280348253421170679821480865132823066470938446095505822317253594081284811174502841027019385211055596446229489549303819644288109756659334461284756482337867831652712019091456485669234603486104543266482133936072602491412737245870066063155881748815209209628292540917153643678925903600113305305488204665213841469519415116094330572703657595919530921861173819326117931051185480744623799627495673518857527248912279381830119491298336733624406566430860213949463952247371907021798609437027705392171762931767523846748184676694051320005681271452635608277857713427577896091736371787214684409012249534301465495853710507922796892589235420199561121290219608640344181598136297747713099605187072113") f_general 46 (Bits 4614256656552045848) Success 0;
  fc F64 (txt "3.141592653589793238462643383279502884197169399375105820974944592307816406286208998628034825342117067982148086513282306647093844609550582231725359408128481117450284102701938521105559644622948954930381964428810975665933446128475648233786783165271201909145648566923460348610454326648213393607260249141273724587006606315588174881520920962829254091715364367892590360011330530548820466521384146951941511609433057270365759591953092186117381932611793105118548074462379962749567351885752724891227938183011949129833673362440656643086021394946395224737190702179860943702770539217176293176752384674818467669405132000568127145263560827785771342757789609173637178721468440901224953430146549585371050792279689258923542019956112129021960864034418159813629774771309960518707211") f_general 46 (Bits 4614256656552045848) Success 0;
  fc F64 (txt "abc") f_general 46 (Nothing) InvalidArgument 3;
  fc F64 (txt "1,25") f_general 46 (Bits 4607182418800017408) Success 3;
  fc F64 (txt "1,25") f_general 44 (Bits 4608308318706860032) Success 0;
  fc F64 (txt "1.25") f_general 44 (Bits 4607182418800017408) Success 3;
  fc F64 (txt "1.25") f_general 46 (Bits 4608308318706860032) Success 0;
  fc F64 (txt "234532.3426362,7869234.9823,324562.645") f_general 46 (Bits 4687298482769759307) Success 24;
  fc F64 (txt "7869234.9823,324562.645") f_general 46 (Bits 4710207537698177234) Success 11;
  fc F64 (txt "324562.645") f_general 46 (Bits 4689319556248428872) Success 0;
  fc F64 (txt "3.14e") f_general 46 (Bits 4614253070214989087) Success 1;
  fc F64 (txt "3.14") f_scientific 46 (Nothing) InvalidArgument 4;
  fc F64 (txt "3.14e10") f_scientific 46 (Bits 4764032528103243776) Success 0;
  fc F64 (txt "3.14e10") f_fixed 46 (Bits 4614253070214989087) Success 3].

(** basictest.cpp, TEST_CASE("powers_of_ten"): 1e-1000 to 1e308 *)
Definition powers_of_ten : list fcase := [
  fc F64 (txt "1e-1000") f_general 46 (Bits 0) OutOfRange 0;
  fc F64 (txt "1e-999") f_general 46 (Bits 0) OutOfRange 0;
  fc F64 (txt "1e-998") f_general 46 (Bits 0) OutOfRange 0;
  fc F64 (txt "1e-997") f_general 46 (Bits 0) OutOfRange 0;
  fc F64 (txt "1e-996") f_general 46 (Bits 0) OutOfRange 0;
  fc F64 (txt "1e-995") f_general 46 (Bits 0) OutOfRange 0;
  fc F64 (txt "1e-994") f_general 46 (Bits 0) OutOfRange 0;
  fc F64 (txt "1e-993") f_general 46 (Bits 0) OutOfRange 0;
  fc F64 (txt "1e-992") f_general 46 (Bits 0) OutOfRange 0;
  fc F64 (txt "1e-991") f_general 46 (Bits 0) OutOfRange 0;
  fc F64 (txt "1e-990") f_general 46 (Bits 0) OutOfRange 0;
  fc F64 (txt "1e-989") f_general 46 (Bits 0) OutOfRange 0;
  fc F64 (txt "1e-988") f_general 46 (Bits 0) OutOfRange 0;
  fc F64 (txt "1e-987") f_general 46 (Bits 0) OutOfRange 0;
  fc F64 (txt "1e-986") f_general 46 (Bits 0) OutOfRange 0;
  fc F64 (txt "1e-985") f_general 46 (Bits 0) OutOfRange 0;
  fc F64 (txt "1e-984") f_general 46 (Bits 0) OutOfRange 0;
  fc F64 (txt "1e-983") f_general 46 (Bits 0) OutOfRange 0;
  fc F64 (txt "1e-982") f_general 46 (Bits 0) OutOfRange 0;
  fc F64 (txt "1e-981") f_general 46 (Bits 0) OutOfRange 0;
  fc F64 (txt "1e-980") f_general 46 (Bits 0) OutOfRange 0;
  fc F64 (txt "1e-979") f_general 46 (Bits 0) OutOfRange 0;
  fc F64 (txt "1e-978") f_general 46 (Bits 0) OutOfRange 0;
  fc F64 (txt "1e-977") f_general 46 (Bits 0) OutOfRange 0;
  fc F64 (txt "1e-976") f_general 46 (Bits 0) OutOfRange 0;
  fc F64 (txt "1e-975") f_general 46 (Bits 0) OutOfRange 0;
  fc F64 (txt "1e-974") f_general 46 (Bits 0) OutOfRange 0;
  fc F64 (txt "1e-973") f_general 46 (Bits 0) OutOfRange 0;
  fc F64 (txt "1e-972") f_general 46 (Bits 0) OutOfRange 0;
  fc F64 (txt "1e-971") f_general 46 (Bits 0) OutOfRange 0;
  fc F64 (txt "1e-970") f_general 46 (Bits 0) OutOfRange 0;
  fc F64 (txt "1e-969") f_general 46 (Bits 0) OutOfRange 0;
  fc F64 (txt "1e-968") f_general 46 (Bits 0) OutOfRange 0;
  fc F64 (txt "1e-967") f_general 46 (Bits 0) OutOfRange 0;
  fc F64 (txt "1e-966") f_general 46 (Bits 0) OutOfRange 0;
  fc F64 (txt "1e-965") f_general 46 (Bits 0) OutOfRange 0;
  fc F64 (txt "1e-964") f_general 46 (Bits 0) OutOfRange 0;
  fc F64 (txt "1e-963") f_general 46 (Bits 0) OutOfRange 0;
  fc F64 (txt "1e-962") f_general 46 (Bits 0) OutOfRange 0;
  fc F64 (txt "1e-961") f_general 46 (Bits 0) OutOfRange 0;
  fc F64 (txt "1e-960") f_general 46 (Bits 0) OutOfRange 0;
  fc F64 (txt "1e-959") f_general 46 (Bits 0) OutOfRange 0;
  fc F64 (txt "1e-958") f_general 46 (Bits 0) OutOfRange 0;
  fc F64 (txt "1e-957") f_general 46 (Bits 0) OutOfRange 0;
  fc F64 (txt "1e-956") f_general 46 (Bits 0) OutOfRange 0;
  fc F64 (txt "1e-955") f_general 46 (Bits 0) OutOfRange 0;
  fc F64 (txt "1e-954") f_general 46 (Bits 0) OutOfRange 0;
  fc F64 (txt "1e-953") f_general 46 (Bits 0) OutOfRange 0;
  fc F64 (txt "1e-952") f_general 46 (Bits 0) OutOfRange 0;
  fc F64 (txt "1e-951") f_general 46 (Bits 0) OutOfRange 0;
  fc F64 (txt "1e-950") f_general 46 (Bits 0) OutOfRange 0;
  fc F64 (txt "1e-949") f_general 46 (Bits 0) OutOfRange 0;
  fc F64 (txt "1e-948") f_general 46 (Bits 0) OutOfRange 0;
  fc F64 (txt "1e-947") f_general 46 (Bits 0) OutOfRange 0;
  fc F64 (txt "1e-946") f_general 46 (Bits 0) OutOfRange 0;
  fc F64 (txt "1e-945") f_general 46 (Bits 0) OutOfRange 0;
  fc F64 (txt "1e-944") f_general 46 (Bits 0) OutOfRange 0;
  fc F64 (txt "1e-943") f_general 46 (Bits 0) OutOfRange 0;
  fc F64 (txt "1e-942") f_general 46 (Bits 0) OutOfRange 0;
  fc F64 (txt "1e-941") f_general 46 (Bits 0) OutOfRange 0;
  fc F64 (txt "1e-940") f_general 46 (Bits 0) OutOfRange 0;
  fc F64 (txt "1e-939") f_general 46 (Bits 0) OutOfRange 0;
  fc F64 (txt "1e-938") f_general 46 (Bits 0) OutOfRange 0;
  fc F64 (txt "1e-937") f_general 46 (Bits 0) OutOfRange 0;
  fc F64 (txt "1e-936") f_general 46 (Bits 0) OutOfRange 0;
  fc F64 (txt "1e-935") f_general 46 (Bits 0) OutOfRange 0;
  fc F64 (txt "1e-934") f_general 46 (Bits 0) OutOfRange 0;
  fc F64 (txt "1e-933") f_general 46 (Bits 0) OutOfRange 0;
  fc F64 (txt "1e-932") f_general 46 (Bits 0) OutOfRange 0;
  fc F64 (txt "1e-931") f_general 46 (Bits 0) OutOfRange 0;
  fc F64 (txt "1e-930") f_general 46 (Bits 0) OutOfRange 0;
  fc F64 (txt "1e-929") f_general 46 (Bits 0) OutOfRange 0;
  fc F64 (txt "1e-928") f_general 46 (Bits 0) OutOfRange 0;
  fc F64 (txt "1e-927") f_general 46 (Bits 0) OutOfRange 0;
  fc F64 (txt "1e-926") f_general 46 (Bits 0) OutOfRange 0;
  fc F64 (txt "1e-925") f_general 46 (Bits 0) OutOfRange 0;
  fc F64 (txt "1e-924") f_general 46 (Bits 0) OutOfRange 0;
  fc F64 (txt "1e-923") f_general 46 (Bits 0) OutOfRange 0;
  fc F64 (txt "1e-922") f_general 46 (Bits 0) OutOfRange 0;
  fc F64 (txt "1e-921") f_general 46 (Bits 0) OutOfRange 0;
  fc F64 (txt "1e-920") f_general 46 (Bits 0) OutOfRange 0;
  fc F64 (txt "1e-919") f_general 46 (Bits 0) OutOfRange 0;
  fc F64 (txt "1e-918") f_general 46 (Bits 0) OutOfRange 0;
  fc F64 (txt "1e-917") f_general 46 (Bits 0) OutOfRange 0;
  fc F64 (txt "1e-916") f_general 46 (Bits 0) OutOfRange 0;
  fc F64 (txt "1e-915") f_general 46 (Bits 0) OutOfRange 0;
  fc F64 (txt "1e-914") f_general 46 (Bits 0) OutOfRange 0;
  fc F64 (txt "1e-913") f_general 46 (Bits 0) OutOfRange 0;
  fc F64 (txt "1e-912") f_general 46 (Bits 0) OutOfRange 0;
  fc F64 (txt "1e-911") f_general 46 (Bits 0) OutOfRange 0;
  fc F64 (txt "1e-910") f_general 46 (Bits 0) OutOfRange 0;
  fc F64 (txt "1e-909") f_general 46 (Bits 0) OutOfRange 0;
  fc F64 (txt "1e-908") f_general 46 (Bits 0) OutOfRange 0;
  fc F64 (txt "1e-907") f_general 46 (Bits 0) OutOfRange 0;
  fc F64 (txt "1e-906") f_general 46 (Bits 0) OutOfRange 0;
  fc F64 (txt "1e-905") f_general 46 (Bits 0) OutOfRange 0;
  fc F64 (txt "1e-904") f_general 46 (Bits 0) OutOfRange 0;
  fc F64 (txt "1e-903") f_general 46 (Bits 0) OutOfRange 0;
  fc F64 (txt "1e-902") f_general 46 (Bits 0) OutOfRange 0;
  fc F64 (txt "1e-901") f_general 46 (Bits 0) OutOfRange 0;
  fc F64 (txt "1e-900") f_general 46 (Bits 0) OutOfRange 0;
  fc F64 (txt "1e-899") f_general 46 (Bits 0) OutOfRange 0;
  fc F64 (txt "1e-898") f_general 46 (Bits 0) OutOfRange 0;
  fc F64 (txt "1e-897") f_general 46 (Bits 0) OutOfRange 0;
  fc F64 (txt "1e-896") f_general 46 (Bits 0) OutOfRange 0;
  fc F64 (txt "1e-895") f_general 46 (Bits 0) OutOfRange 0;
  fc F64 (txt "1e-894") f_general 46 (Bits 0) OutOfRange 0;
  fc F64 (txt "1e-893") f_general 46 (Bits 0) OutOfRange 0;
  fc F64 (txt "1e-892") f_general 46 (Bits 0) OutOfRange 0;
  fc F64 (txt "1e-891") f_general 46 (Bits 0) OutOfRange 0;
  fc F64 (txt "1e-890") f_general 46 (Bits 0) OutOfRange 0;
  fc F64 (txt "1e-889") f_general 46 (Bits 0) OutOfRange 0;
  fc F64 (txt "1e-888") f_general 46 (Bits 0) OutOfRange 0;
  fc F64 (txt "1e-887") f_general 46 (Bits 0) OutOfRange 0;
  fc F64 (txt "1e-886") f_general 46 (Bits 0) OutOfRange 0;
  fc F64 (txt "1e-885") f_general 46 (Bits 0) OutOfRange 0;
  fc F64 (txt "1e-884") f_general 46 (Bits 0) OutOfRange 0;
  fc F64 (txt "1e-883") f_general 46 (Bits 0) OutOfRange 0;
  fc F64 (txt "1e-882") f_general 46 (Bits 0) OutOfRange 0;
  fc F64 (txt "1e-881") f_general 46 (Bits 0) OutOfRange 0;
  fc F64 (txt "1e-880") f_general 46 (Bits 0) OutOfRange 0;
  fc F64 (txt "1e-879") f_general 46 (Bits 0) OutOfRange 0;
  fc F64 (txt "1e-878") f_general 46 (Bits 0) OutOfRange 0;
  fc F64 (txt "1e-877") f_general 46 (Bits 0) OutOfRange 0;
  fc F64 (txt "1e-876") f_general 46 (Bits 0) OutOfRange 0;
  fc F64 (txt "1e-875") f_general 46 (Bits 0) OutOfRange 0;
  fc F64 (txt "1e-874") f_general 46 (Bits 0) OutOfRange 0;
  fc F64 (txt "1e-873") f_general 46 (Bits 0) OutOfRange 0;
  fc F64 (txt "1e-872") f_general 46 (Bits 0) OutOfRange 0;
  fc F64 (txt "1e-871") f_general 46 (Bits 0) OutOfRange 0;
  fc F64 (txt "1e-870") f_general 46 (Bits 0) OutOfRange 0;
  fc F64 (txt "1e-869") f_general 46 (Bits 0) OutOfRange 0;
  fc F64 (txt "1e-868") f_general 46 (Bits 0) OutOfRange 0;
  fc F64 (txt "1e-867") f_general 46 (Bits 0) OutOfRange 0;
  fc F64 (txt "1e-866") f_general 46 (Bits 0) OutOfRange 0;
  fc F64 (txt "1e-865") f_general 46 (Bits 0) OutOfRange 0;
  fc F64 (txt "1e-864") f_general 46 (Bits 0) OutOfRange 0;
  fc F64 (txt "1e-863") f_general 46 (Bits 0) OutOfRange 0;
  fc F64 (txt "1e-862") f_general 46 (Bits 0) OutOfRange 0;
  fc F64 (txt "1e-861") f_general 46 (Bits 0) OutOfRange 0;
  fc F64 (txt "1e-860") f_general 46 (Bits 0) OutOfRange 0;
  fc F64 (txt "1e-859") f_general 46 (Bits 0) OutOfRange 0;
  fc F64 (txt "1e-858") f_general 46 (Bits 0) OutOfRange 0;
  fc F64 (txt "1e-857") f_general 46 (Bits 0) OutOfRange 0;
  fc F64 (txt "1e-856") f_general 46 (Bits 0) OutOfRange 0;
  fc F64 (txt "1e-855") f_general 46 (Bits 0) OutOfRange 0;
  fc F64 (txt "1e-854") f_general 46 (Bits 0) OutOfRange 0;
  fc F64 (txt "1e-853") f_general 46 (Bits 0) OutOfRange 0;
  fc F64 (txt "1e-852") f_general 46 (Bits 0) OutOfRange 0;
  fc F64 (txt "1e-851") f_general 46 (Bits 0) OutOfRange 0;
  fc F64 (txt "1e-850") f_general 46 (Bits 0) OutOfRange 0;
  fc F64 (txt "1e-849") f_general 46 (Bits 0) OutOfRange 0;
  fc F64 (txt "1e-848") f_general 46 (Bits 0) OutOfRange 0;
  fc F64 (txt "1e-847") f_general 46 (Bits 0) OutOfRange 0;
  fc F64 (txt "1e-846") f_general 46 (Bits 0) OutOfRange 0;
  fc F64 (txt "1e-845") f_general 46 (Bits 0) OutOfRange 0;
  fc F64 (txt "1e-844") f_general 46 (Bits 0) OutOfRange 0;
  fc F64 (txt "1e-843") f_general 46 (Bits 0) OutOfRange 0;
  fc F64 (txt "1e-842") f_general 46 (Bits 0) OutOfRange 0;
  fc F64 (txt "1e-841") f_general 46 (Bits 0) OutOfRange 0;
  fc F64 (txt "1e-840") f_general 46 (Bits 0) OutOfRange 0;
  fc F64 (txt "1e-839") f_general 46 (Bits 0) OutOfRange 0;
  fc F64 (txt "1e-838") f_general 46 (Bits 0) OutOfRange 0;
  fc F64 (txt "1e-837") f_general 46 (Bits 0) OutOfRange 0;
  fc F64 (txt "1e-836") f_general 46 (Bits 0) OutOfRange 0;
  fc F64 (txt "1e-835") f_general 46 (Bits 0) OutOfRange 0;
  fc F64 (txt "1e-834") f_general 46 (Bits 0) OutOfRange 0;
  fc F64 (txt "1e-833") f_general 46 (Bits 0) OutOfRange 0;
  fc F64 (txt "1e-832") f_general 46 (Bits 0) OutOfRange 0;
  fc F64 (txt "1e-831") f_general 46 (Bits 0) OutOfRange 0;
  fc F64 (txt "1e-830") f_general 46 (Bits 0) OutOfRange 0;
  fc F64 (txt "1e-829") f_general 46 (Bits 0) OutOfRange 0;
  fc F64 (txt "1e-828") f_general 46 (Bits 0) OutOfRange 0;
  fc F64 (txt "1e-827") f_general 46 (Bits 0) OutOfRange 0;
  fc F64 (txt "1e-826") f_general 46 (Bits 0) OutOfRange 0;
  fc F64 (txt "1e-825") f_general 46 (Bits 0) OutOfRange 0;
  fc F64 (txt "1e-824") f_general 46 (Bits 0) OutOfRange 0;
  fc F64 (txt "1e-823") f_general 46 (Bits 0) OutOfRange 0;
  fc F64 (txt "1e-822") f_general 46 (Bits 0) OutOfRange 0;
  fc F64 (txt "1e-821") f_general 46 (Bits 0) OutOfRange 0;
  fc F64 (txt "1e-820") f_general 46 (Bits 0) OutOfRange 0;
  fc F64 (txt "1e-819") f_general 46 (Bits 0) OutOfRange 0;
  fc F64 (txt "1e-818") f_general 46 (Bits 0) OutOfRange 0;
  fc F64 (txt "1e-817") f_general 46 (Bits 0) OutOfRange 0;
  fc F64 (txt "1e-816") f_general 46 (Bits 0) OutOfRange 0;
  fc F64 (txt "1e-815") f_general 46 (Bits 0) OutOfRange 0;
  fc F64 (txt "1e-814") f_general 46 (Bits 0) OutOfRange 0;
  fc F64 (txt "1e-813") f_general 46 (Bits 0) OutOfRange 0;
  fc F64 (txt "1e-812") f_general 46 (Bits 0) OutOfRange 0;
  fc F64 (txt "1e-811") f_general 46 (Bits 0) OutOfRange 0;
  fc F64 (txt "1e-810") f_general 46 (Bits 0) OutOfRange 0;
  fc F64 (txt "1e-809") f_general 46 (Bits 0) OutOfRange 0;
  fc F64 (txt "1e-808") f_general 46 (Bits 0) OutOfRange 0;
  fc F64 (txt "1e-807") f_general 46 (Bits 0) OutOfRange 0;
  fc F64 (txt "1e-806") f_general 46 (Bits 0) OutOfRange 0;
  fc F64 (txt "1e-805") f_general 46 (Bits 0) OutOfRange 0;
  fc F64 (txt "1e-804") f_general 46 (Bits 0) OutOfRange 0;
  fc F64 (txt "1e-803") f_general 46 (Bits 0) OutOfRange 0;
  fc F64 (txt "1e-802") f_general 46 (Bits 0) OutOfRange 0;
  fc F64 (txt "1e-801") f_general 46 (Bits 0) OutOfRange 0;
  fc F64 (txt "1e-800") f_general 46 (Bits 0) OutOfRange 0;
  fc F64 (txt "1e-799") f_general 46 (Bits 0) OutOfRange 0;
  fc F64 (txt "1e-798") f_general 46 (Bits 0) OutOfRange 0;
  fc F64 (txt "1e-797") f_general 46 (Bits 0) OutOfRange 0;
  fc F64 (txt "1e-796") f_general 46 (Bits 0) OutOfRange 0;
  fc F64 (txt "1e-795") f_general 46 (Bits 0) OutOfRange 0;
  fc F64 (txt "1e-794") f_general 46 (Bits 0) OutOfRange 0;
  fc F64 (txt "1e-793") f_general 46 (Bits 0) OutOfRange 0;
  fc F64 (txt "1e-792") f_general 46 (Bits 0) OutOfRange 0;
  fc F64 (txt "1e-791") f_general 46 (Bits 0) OutOfRange 0;
  fc F64 (txt "1e-790") f_general 46 (Bits 0) OutOfRange 0;
  fc F64 (txt "1e-789") f_general 46 (Bits 0) OutOfRange 0;
  fc F64 (txt "1e-788") f_general 46 (Bits 0) OutOfRange 0;
  fc F64 (txt "1e-787") f_general 46 (Bits 0) OutOfRange 0;
  fc F64 (txt "1e-786") f_general 46 (Bits 0) OutOfRange 0;
  fc F64 (txt "1e-785") f_general 46 (Bits 0) OutOfRange 0;
  fc F64 (txt "1e-784") f_general 46 (Bits 0) OutOfRange 0;
  fc F64 (txt "1e-783") f_general 46 (Bits 0) OutOfRange 0;
  fc F64 (txt "1e-782") f_general 46 (Bits 0) OutOfRange 0;
  fc F64 (txt "1e-781") f_general 46 (Bits 0) OutOfRange 0;
  fc F64 (txt "1e-780") f_general 46 (Bits 0) OutOfRange 0;
  fc F64 (txt "1e-779") f_general 46 (Bits 0) OutOfRange 0;
  fc F64 (txt "1e-778") f_general 46 (Bits 0) OutOfRange 0;
  fc F64 (txt "1e-777") f_general 46 (Bits 0) OutOfRange 0;
  fc F64 (txt "1e-776") f_general 46 (Bits 0) OutOfRange 0;
  fc F64 (txt "1e-775") f_general 46 (Bits 0) OutOfRange 0;
  fc F64 (txt "1e-774") f_general 46 (Bits 0) OutOfRange 0;
  fc F64 (txt "1e-773") f_general 46 (Bits 0) OutOfRange 0;
  fc F64 (txt "1e-772") f_general 46 (Bits 0) OutOfRange 0;
  fc F64 (txt "1e-771") f_general 46 (Bits 0) OutOfRange 0;
  fc F64 (txt "1e-770") f_general 46 (Bits 0) OutOfRange 0;
  fc F64 (txt "1e-769") f_general 46 (Bits 0) OutOfRange 0;
  fc F64 (txt "1e-768") f_general 46 (Bits 0) OutOfRange 0;
  fc F64 (txt "1e-767") f_general 46 (Bits 0) OutOfRange 0;
  fc F64 (txt "1e-766") f_general 46 (Bits 0) OutOfRange 0;
  fc F64 (txt "1e-765") f_general 46 (Bits 0) OutOfRange 0;
  fc F64 (txt "1e-764") f_general 46 (Bits 0) OutOfRange 0;
  fc F64 (txt "1e-763") f_general 46 (Bits 0) OutOfRange 0;
  fc F64 (txt "1e-762") f_general 46 (Bits 0) OutOfRange 0;
  fc F64 (txt "1e-761") f_general 46 (Bits 0) OutOfRange 0;
  fc F64 (txt "1e-760") f_general 46 (Bits 0) OutOfRange 0;
  fc F64 (txt "1e-759") f_general 46 (Bits 0) OutOfRange 0;
  fc F64 (txt "1e-758") f_general 46 (Bits 0) OutOfRange 0;
  fc F64 (txt "1e-757") f_general 46 (Bits 0) OutOfRange 0;
  fc F64 (txt "1e-756") f_general 46 (Bits 0) OutOfRange 0;
  fc F64 (txt "1e-755") f_general 46 (Bits 0) OutOfRange 0;
  fc F64 (txt "1e-754") f_general 46 (Bits 0) OutOfRange 0;
  fc F64 (txt "1e-753") f_general 46 (Bits 0) OutOfRange 0;
  fc F64 (txt "1e-752") f_general 46 (Bits 0) OutOfRange 0;
  fc F64 (txt "1e-751") f_general 46 (Bits 0) OutOfRange 0;
  fc F64 (txt "1e-750") f_general 46 (Bits 0) OutOfRange 0;
  fc F64 (txt "1e-749") f_general 46 (Bits 0) OutOfRange 0;
  fc F64 (txt "1e-748") f_general 46 (Bits 0) OutOfRange 0;
  fc F64 (txt "1e-747") f_general 46 (Bits 0) OutOfRange 0;
  fc F64 (txt "1e-746") f_general 46 (Bits 0) OutOfRange 0;
  fc F64 (txt "1e-745") f_general 46 (Bits 0) OutOfRange 0;
  fc F64 (txt "1e-744") f_general 46 (Bits 0) OutOfRange 0;
  fc F64 (txt "1e-743") f_general 46 (Bits 0) OutOfRange 0;
  fc F64 (txt "1e-742") f_general 46 (Bits 0) OutOfRange 0;
  fc F64 (txt "1e-741") f_general 46 (Bits 0) OutOfRange 0;
  fc F64 (txt "1e-740") f_general 46 (Bits 0) OutOfRange 0;
  fc F64 (txt "1e-739") f_general 46 (Bits 0) OutOfRange 0;
  fc F64 (txt "1e-738") f_general 46 (Bits 0) OutOfRange 0;
  fc F64 (txt "1e-737") f_general 46 (Bits 0) OutOfRange 0;
  fc F64 (txt "1e-736") f_general 46 (Bits 0) OutOfRange 0;
  fc F64 (txt "1e-735") f_general 46 (Bits 0) OutOfRange 0;
  fc F64 (txt "1e-734") f_general 46 (Bits 0) OutOfRange 0;
  fc F64 (txt "1e-733") f_general 46 (Bits 0) OutOfRange 0;
  fc F64 (txt "1e-732") f_general 46 (Bits 0) OutOfRange 0;
  fc F64 (txt "1e-731") f_general 46 (Bits 0) OutOfRange 0;
  fc F64 (txt "1e-730") f_general 46 (Bits 0) OutOfRange 0;
  fc F64 (txt "1e-729") f_general 46 (Bits 0) OutOfRange 0;
  fc F64 (txt "1e-728") f_general 46 (Bits 0) OutOfRange 0;
  fc F64 (txt "1e-727") f_general 46 (Bits 0) OutOfRange 0;
  fc F64 (txt "1e-726") f_general 46 (Bits 0) OutOfRange 0;
  fc F64 (txt "1e-725") f_general 46 (Bits 0) OutOfRange 0;
  fc F64 (txt "1e-724") f_general 46 (Bits 0) OutOfRange 0;
  fc F64 (txt "1e-723") f_general 46 (Bits 0) OutOfRange 0;
  fc F64 (txt "1e-722") f_general 46 (Bits 0) OutOfRange 0;
  fc F64 (txt "1e-721") f_general 46 (Bits 0) OutOfRange 0;
  fc F64 (txt "1e-720") f_general 46 (Bits 0) OutOfRange 0;
  fc F64 (txt "1e-719") f_general 46 (Bits 0) OutOfRange 0;
  fc F64 (txt "1e-718") f_general 46 (Bits 0) OutOfRange 0;
  fc F64 (txt "1e-717") f_general 46 (Bits 0) OutOfRange 0;
  fc F64 (txt "1e-716") f_general 46 (Bits 0) OutOfRange 0;
  fc F64 (txt "1e-715") f_general 46 (Bits 0) OutOfRange 0;
  fc F64 (txt "1e-714") f_general 46 (Bits 0) OutOfRange 0;
  fc F64 (txt "1e-713") f_general 46 (Bits 0) OutOfRange 0;
  fc F64 (txt "1e-712") f_general 46 (Bits 0) OutOfRange 0;
  fc F64 (txt "1e-711") f_general 46 (Bits 0) OutOfRange 0;
  fc F64 (txt "1e-710") f_general 46 (Bits 0) OutOfRange 0;
  fc F64 (txt "1e-709") f_general 46 (Bits 0) OutOfRange 0;
  fc F64 (txt "1e-708") f_general 46 (Bits 0) OutOfRange 0;
  fc F64 (txt "1e-707") f_general 46 (Bits 0) OutOfRange 0;
  fc F64 (txt "1e-706") f_general 46 (Bits 0) OutOfRange 0;
  fc F64 (txt "1e-705") f_general 46 (Bits 0) OutOfRange 0;
  fc F64 (txt "1e-704") f_general 46 (Bits 0) OutOfRange 0;
  fc F64 (txt "1e-703") f_general 46 (Bits 0) OutOfRange 0;
  fc F64 (txt "1e-702") f_general 46 (Bits 0) OutOfRange 0;
  fc F64 (txt "1e-701") f_general 46 (Bits 0) OutOfRange 0;
  fc F64 (txt "1e-700") f_general 46 (Bits 0) OutOfRange 0;
  fc F64 (txt "1e-699") f_general 46 (Bits 0) OutOfRange 0;
  fc F64 (txt "1e-698") f_general 46 (Bits 0) OutOfRange 0;
  fc F64 (txt "1e-697") f_general 46 (Bits 0) OutOfRange 0;
  fc F64 (txt "1e-696") f_general 46 (Bits 0) OutOfRange 0;
  fc F64 (txt "1e-695") f_general 46 (Bits 0) OutOfRange 0;
  fc F64 (txt "1e-694") f_general 46 (Bits 0) OutOfRange 0;
  fc F64 (txt "1e-693") f_general 46 (Bits 0) OutOfRange 0;
  fc F64 (txt "1e-692") f_general 46 (Bits 0) OutOfRange 0;
  fc F64 (txt "1e-691") f_general 46 (Bits 0) OutOfRange 0;
  fc F64 (txt "1e-690") f_general 46 (Bits 0) OutOfRange 0;
  fc F64 (txt "1e-689") f_general 46 (Bits 0) OutOfRange 0;
  fc F64 (txt "1e-688") f_general 46 (Bits 0) OutOfRange 0;
  fc F64 (txt "1e-687") f_general 46 (Bits 0) OutOfRange 0;
  fc F64 (txt "1e-686") f_general 46 (Bits 0) OutOfRange 0;
  fc F64 (txt "1e-685") f_general 46 (Bits 0) OutOfRange 0;
  fc F64 (txt "1e-684") f_general 46 (Bits 0) OutOfRange 0;
  fc F64 (txt "1e-683") f_general 46 (Bits 0) OutOfRange 0;
  fc F64 (txt "1e-682") f_general 46 (Bits 0) OutOfRange 0;
  fc F64 (txt "1e-681") f_general 46 (Bits 0) OutOfRange 0;
  fc F64 (txt "1e-680") f_general 46 (Bits 0) OutOfRange 0;
  fc F64 (txt "1e-679") f_general 46 (Bits 0) OutOfRange 0;
  fc F64 (txt "1e-678") f_general 46 (Bits 0) OutOfRange 0;
  fc F64 (txt "1e-677") f_general 46 (Bits 0) OutOfRange 0;
  fc F64 (txt "1e-676") f_general 46 (Bits 0) OutOfRange 0;
  fc F64 (txt "1e-675") f_general 46 (Bits 0) OutOfRange 0;
  fc F64 (txt "1e-674") f_general 46 (Bits 0) OutOfRange 0;
  fc F64 (txt "1e-673") f_general 46 (Bits 0) OutOfRange 0;
  fc F64 (txt "1e-672") f_general 46 (Bits 0) OutOfRange 0;
  fc F64 (txt "1e-671") f_general 46 (Bits 0) OutOfRange 0;
  fc F64 (txt "1e-670") f_general 46 (Bits 0) OutOfRange 0;
  fc F64 (txt "1e-669") f_general 46 (Bits 0) OutOfRange 0;
  fc F64 (txt "1e-668") f_general 46 (Bits 0) OutOfRange 0;
  fc F64 (txt "1e-667") f_general 46 (Bits 0) OutOfRange 0;
  fc F64 (txt "1e-666") f_general 46 (Bits 0) OutOfRange 0;
  fc F64 (txt "1e-665") f_general 46 (Bits 0) OutOfRange 0;
  fc F64 (txt "1e-664") f_general 46 (Bits 0) OutOfRange 0;
  fc F64 (txt "1e-663") f_general 46 (Bits 0) OutOfRange 0;
  fc F64 (txt "1e-662") f_general 46 (Bits 0) OutOfRange 0;
  fc F64 (txt "1e-661") f_general 46 (Bits 0) OutOfRange 0;
  fc F64 (txt "1e-660") f_general 46 (Bits 0) OutOfRange 0;
  fc F64 (txt "1e-659") f_general 46 (Bits 0) OutOfRange 0;
  fc F64 (txt "1e-658") f_general 46 (Bits 0) OutOfRange 0;
  fc F64 (txt "1e-657") f_general 46 (Bits 0) OutOfRange 0;
  fc F64 (txt "1e-656") f_general 46 (Bits 0) OutOfRange 0;
  fc F64 (txt "1e-655") f_general 46 (Bits 0) OutOfRange 0;
  fc F64 (txt "1e-654") f_general 46 (Bits 0) OutOfRange 0;
  fc F64 (txt "1e-653") f_general 46 (Bits 0) OutOfRange 0;
  fc F64 (txt "1e-652") f_general 46 (Bits 0) OutOfRange 0;
  fc F64 (txt "1e-651") f_general 46 (Bits 0) OutOfRange 0;
  fc F64 (txt "1e-650") f_general 46 (Bits 0) OutOfRange 0;
  fc F64 (txt "1e-649") f_general 46 (Bits 0) OutOfRange 0;
  fc F64 (txt "1e-648") f_general 46 (Bits 0) OutOfRange 0;
  fc F64 (txt "1e-647") f_general 46 (Bits 0) OutOfRange 0;
  fc F64 (txt "1e-646") f_general 46 (Bits 0) OutOfRange 0;
  fc F64 (txt "1e-645") f_general 46 (Bits 0) OutOfRange 0;
  fc F64 (txt "1e-644") f_general 46 (Bits 0) OutOfRange 0;
  fc F64 (txt "1e-643") f_general 46 (Bits 0) OutOfRange 0;
  fc F64 (txt "1e-642") f_general 46 (Bits 0) OutOfRange 0;
  fc F64 (txt "1e-641") f_general 46 (Bits 0) OutOfRange 0;
  fc F64 (txt "1e-640") f_general 46 (Bits 0) OutOfRange 0;
  fc F64 (txt "1e-639") f_general 46 (Bits 0) OutOfRange 0;
  fc F64 (txt "1e-638") f_general 46 (Bits 0) OutOfRange 0;
  fc F64 (txt "1e-637") f_general 46 (Bits 0) OutOfRange 0;
  fc F64 (txt "1e-636") f_general 46 (Bits 0) OutOfRange 0;
  fc F64 (txt "1e-635") f_general 46 (Bits 0) OutOfRange 0;
  fc F64 (txt "1e-634") f_general 46 (Bits 0) OutOfRange 0;
  fc F64 (txt "1e-633") f_general 46 (Bits 0) OutOfRange 0;
  fc F64 (txt "1e-632") f_general 46 (Bits 0) OutOfRange 0;
  fc F64 (txt "1e-631") f_general 46 (Bits 0) OutOfRange 0;
  fc F64 (txt "1e-630") f_general 46 (Bits 0) OutOfRange 0;
  fc F64 (txt "1e-629") f_general 46 (Bits 0) OutOfRange 0;
  fc F64 (txt "1e-628") f_general 46 (Bits 0) OutOfRange 0;
  fc F64 (txt "1e-627") f_general 46 (Bits 0) OutOfRange 0;
  fc F64 (txt "1e-626") f_general 46 (Bits 0) OutOfRange 0;
  fc F64 (txt "1e-625") f_general 46 (Bits 0) OutOfRange 0;
  fc F64 (txt "1e-624") f_general 46 (Bits 0) OutOfRange 0;
  fc F64 (txt "1e-623") f_general 46 (Bits 0) OutOfRange 0;
  fc F64 (txt "1e-622") f_general 46 (Bits 0) OutOfRange 0;
  fc F64 (txt "1e-621") f_general 46 (Bits 0) OutOfRange 0;
  fc F64 (txt "1e-620") f_general 46 (Bits 0) OutOfRange 0;
  fc F64 (txt "1e-619") f_general 46 (Bits 0) OutOfRange 0;
  fc F64 (txt "1e-618") f_general 46 (Bits 0) OutOfRange 0;
  fc F64 (txt "1e-617") f_general 46 (Bits 0) OutOfRange 0;
  fc F64 (txt "1e-616") f_general 46 (Bits 0) OutOfRange 0;
  fc F64 (txt "1e-615") f_general 46 (Bits 0) OutOfRange 0;
  fc F64 (txt "1e-614") f_general 46 (Bits 0) OutOfRange 0;
  fc F64 (txt "1e-613") f_general 46 (Bits 0) OutOfRange 0;
  fc F64 (txt "1e-612") f_general 46 (Bits 0) OutOfRange 0;
  fc F64 (txt "1e-611") f_general 46 (Bits 0) OutOfRange 0;
  fc F64 (txt "1e-610") f_general 46 (Bits 0) OutOfRange 0;
  fc F64 (txt "1e-609") f_general 46 (Bits 0) OutOfRange 0;
  fc F64 (txt "1e-608") f_general 46 (Bits 0) OutOfRange 0;
  fc F64 (txt "1e-607") f_general 46 (Bits 0) OutOfRange 0;
  fc F64 (txt "1e-606") f_general 46 (Bits 0) OutOfRange 0;
  fc F64 (txt "1e-605") f_general 46 (Bits 0) OutOfRange 0;
  fc F64 (txt "1e-604") f_general 46 (Bits 0) OutOfRange 0;
  fc F64 (txt "1e-603") f_general 46 (Bits 0) OutOfRange 0;
  fc F64 (txt "1e-602") f_general 46 (Bits 0) OutOfRange 0;
  fc F64 (txt "1e-601") f_general 46 (Bits 0) OutOfRange 0;
  fc F64 (txt "1e-600") f_general 46 (Bits 0) OutOfRange 0;
  fc F64 (txt "1e-599") f_general 46 (Bits 0) OutOfRange 0;
  fc F64 (txt "1e-598") f_general 46 (Bits 0) OutOfRange 0;
  fc F64 (txt "1e-597") f_general 46 (Bits 0) OutOfRange 0;
  fc F64 (txt "1e-596") f_general 46 (Bits 0) OutOfRange 0;
  fc F64 (txt "1e-595") f_general 46 (Bits 0) OutOfRange 0;
  fc F64 (txt "1e-594") f_general 46 (Bits 0) OutOfRange 0;
  fc F64 (txt "1e-593") f_general 46 (Bits 0) OutOfRange 0;
  fc F64 (txt "1e-592") f_general 46 (Bits 0) OutOfRange 0;
  fc F64 (txt "1e-591") f_general 46 (Bits 0) OutOfRange 0;
  fc F64 (txt "1e-590") f_general 46 (Bits 0) OutOfRange 0;
  fc F64 (txt "1e-589") f_general 46 (Bits 0) OutOfRange 0;
  fc F64 (txt "1e-588") f_general 46 (Bits 0) OutOfRange 0;
  fc F64 (txt "1e-587") f_general 46 (Bits 0) OutOfRange 0;
  fc F64 (txt "1e-586") f_general 46 (Bits 0) OutOfRange 0;
  fc F64 (txt "1e-585") f_general 46 (Bits 0) OutOfRange 0;
  fc F64 (txt "1e-584") f_general 46 (Bits 0) OutOfRange 0;
  fc F64 (txt "1e-583") f_general 46 (Bits 0) OutOfRange 0;
  fc F64 (txt "1e-582") f_general 46 (Bits 0) OutOfRange 0;
  fc F64 (txt "1e-581") f_general 46 (Bits 0) OutOfRange 0;
  fc F64 (txt "1e-580") f_general 46 (Bits 0) OutOfRange 0;
  fc F64 (txt "1e-579") f_general 46 (Bits 0) OutOfRange 0;
  fc F64 (txt "1e-578") f_general 46 (Bits 0) OutOfRange 0;
  fc F64 (txt "1e-577") f_general 46 (Bits 0) OutOfRange 0;
  fc F64 (txt "1e-576") f_general 46 (Bits 0) OutOfRange 0;
  fc F64 (txt "1e-575") f_general 46 (Bits 0) OutOfRange 0;
  fc F64 (txt "1e-574") f_general 46 (Bits 0) OutOfRange 0;
  fc F64 (txt "1e-573") f_general 46 (Bits 0) OutOfRange 0;
  fc F64 (txt "1e-572") f_general 46 (Bits 0) OutOfRange 0;
  fc F64 (txt "1e-571") f_general 46 (Bits 0) OutOfRange 0;
  fc F64 (txt "1e-570") f_general 46 (Bits 0) OutOfRange 0;
  fc F64 (txt "1e-569") f_general 46 (Bits 0) OutOfRange 0;
  fc F64 (txt "1e-568") f_general 46 (Bits 0) OutOfRange 0;
  fc F64 (txt "1e-567") f_general 46 (Bits 0) OutOfRange 0;
  fc F64 (txt "1e-566") f_general 46 (Bits 0) OutOfRange 0;
  fc F64 (txt "1e-565") f_general 46 (Bits 0) OutOfRange 0;
  fc F64 (txt "1e-564") f_general 46 (Bits 0) OutOfRange 0;
  fc F64 (txt "1e-563") f_general 46 (Bits 0) OutOfRange 0;
  fc F64 (txt "1e-562") f_general 46 (Bits 0) OutOfRange 0;
  fc F64 (txt "1e-561") f_general 46 (Bits 0) OutOfRange 0;
  fc F64 (txt "1e-560") f_general 46 (Bits 0) OutOfRange 0;
  fc F64 (txt "1e-559") f_general 46 (Bits 0) OutOfRange 0;
  fc F64 (txt "1e-558") f_general 46 (Bits 0) OutOfRange 0;
  fc F64 (txt "1e-557") f_general 46 (Bits 0) OutOfRange 0;
  fc F64 (txt "1e-556") f_general 46 (Bits 0) OutOfRange 0;
  fc F64 (txt "1e-555") f_general 46 (Bits 0) OutOfRange 0;
  fc F64 (txt "1e-554") f_general 46 (Bits 0) OutOfRange 0;
  fc F64 (txt "1e-553") f_general 46 (Bits 0) OutOfRange 0;
  fc F64 (txt "1e-552") f_general 46 (Bits 0) OutOfRange 0;
  fc F64 (txt "1e-551") f_general 46 (Bits 0) OutOfRange 0;
  fc F64 (txt "1e-550") f_general 46 (Bits 0) OutOfRange 0;
  fc F64 (txt "1e-549") f_general 46 (Bits 0) OutOfRange 0;
  fc F64 (txt "1e-548") f_general 46 (Bits 0) OutOfRange 0;
  fc F64 (txt "1e-547") f_general 46 (Bits 0) OutOfRange 0;
  fc F64 (txt "1e-546") f_general 46 (Bits 0) OutOfRange 0;
  fc F64 (txt "1e-545") f_general 46 (Bits 0) OutOfRange 0;
  fc F64 (txt "1e-544") f_general 46 (Bits 0) OutOfRange 0;
  fc F64 (txt "1e-543") f_general 46 (Bits 0) OutOfRange 0;
  fc F64 (txt "1e-542") f_general 46 (Bits 0) OutOfRange 0;
  fc F64 (txt "1e-541") f_general 46 (Bits 0) OutOfRange 0;
  fc F64 (txt "1e-540") f_general 46 (Bits 0) OutOfRange 0;
  fc F64 (txt "1e-539") f_general 46 (Bits 0) OutOfRange 0;
  fc F64 (txt "1e-538") f_general 46 (Bits 0) OutOfRange 0;
  fc F64 (txt "1e-537") f_general 46 (Bits 0) OutOfRange 0;
  fc F64 (txt "1e-536") f_general 46 (Bits 0) OutOfRange 0;
  fc F64 (txt "1e-535") f_general 46 (Bits 0) OutOfRange 0;
  fc F64 (txt "1e-534") f_general 46 (Bits 0) OutOfRange 0;
  fc F64 (txt "1e-533") f_general 46 (Bits 0) OutOfRange 0;
  fc F64 (txt "1e-532") f_general 46 (Bits 0) OutOfRange 0;
  fc F64 (txt "1e-531") f_general 46 (Bits 0) OutOfRange 0;
  fc F64 (txt "1e-530") f_general 46 (Bits 0) OutOfRange 0;
  fc F64 (txt "1e-529") f_general 46 (Bits 0) OutOfRange 0;
  fc F64 (txt "1e-528") f_general 46 (Bits 0) OutOfRange 0;
  fc F64 (txt "1e-527") f_general 46 (Bits 0) OutOfRange 0;
  fc F64 (txt "1e-526") f_general 46 (Bits 0) OutOfRange 0;
  fc F64 (txt "1e-525") f_general 46 (Bits 0) OutOfRange 0;
  fc F64 (txt "1e-524") f_general 46 (Bits 0) OutOfRange 0;
  fc F64 (txt "1e-523") f_general 46 (Bits 0) OutOfRange 0;
  fc F64 (txt "1e-522") f_general 46 (Bits 0) OutOfRange 0;
  fc F64 (txt "1e-521") f_general 46 (Bits 0) OutOfRange 0;
  fc F64 (txt "1e-520") f_general 46 (Bits 0) OutOfRange 0;
  fc F64 (txt "1e-519") f_general 46 (Bits 0) OutOfRange 0;
  fc F64 (txt "1e-518") f_general 46 (Bits 0) OutOfRange 0;
  fc F64 (txt "1e-517") f_general 46 (Bits 0) OutOfRange 0;
  fc F64 (txt "1e-516") f_general 46 (Bits 0) OutOfRange 0;
  fc F64 (txt "1e-515") f_general 46 (Bits 0) OutOfRange 0;
  fc F64 (txt "1e-514") f_general 46 (Bits 0) OutOfRange 0;
  fc F64 (txt "1e-513") f_general 46 (Bits 0) OutOfRange 0;
  fc F64 (txt "1e-512") f_general 46 (Bits 0) OutOfRange 0;
  fc F64 (txt "1e-511") f_general 46 (Bits 0) OutOfRange 0;
  fc F64 (txt "1e-510") f_general 46 (Bits 0) OutOfRange 0;
  fc F64 (txt "1e-509") f_general 46 (Bits 0) OutOfRange 0;
  fc F64 (txt "1e-508") f_general 46 (Bits 0) OutOfRange 0;
  fc F64 (txt "1e-507") f_general 46 (Bits 0) OutOfRange 0;
  fc F64 (txt "1e-506") f_general 46 (Bits 0) OutOfRange 0;
  fc F64 (txt "1e-505") f_general 46 (Bits 0) OutOfRange 0;
  fc F64 (txt "1e-504") f_general 46 (Bits 0) OutOfRange 0;
  fc F64 (txt "1e-503") f_general 46 (Bits 0) OutOfRange 0;
  fc F64 (txt "1e-502") f_general 46 (Bits 0) OutOfRange 0;
  fc F64 (txt "1e-501") f_general 46 (Bits 0) OutOfRange 0;
  fc F64 (txt "1e-500") f_general 46 (Bits 0) OutOfRange 0;
  fc F64 (txt "1e-499") f_general 46 (Bits 0) OutOfRange 0;
  fc F64 (txt "1e-498") f_general 46 (Bits 0) OutOfRange 0;
  fc F64 (txt "1e-497") f_general 46 (Bits 0) OutOfRange 0;
  fc F64 (txt "1e-496") f_general 46 (Bits 0) OutOfRange 0;
  fc F64 (txt "1e-495") f_general 46 (Bits 0) OutOfRange 0;
  fc F64 (txt "1e-494") f_general 46 (Bits 0) OutOfRange 0;
  fc F64 (txt "1e-493") f_general 46 (Bits 0) OutOfRange 0;
  fc F64 (txt "1e-492") f_general 46 (Bits 0) OutOfRange 0;
  fc F64 (txt "1e-491") f_general 46 (Bits 0) OutOfRange 0;
  fc F64 (txt "1e-490") f_general 46 (Bits 0) OutOfRange 0;
  fc F64 (txt "1e-489") f_general 46 (Bits 0) OutOfRange 0;
  fc F64 (txt "1e-488") f_general 46 (Bits 0) OutOfRange 0;
  fc F64 (txt "1e-487") f_general 46 (Bits 0) OutOfRange 0;
  fc F64 (txt "1e-486") f_general 46 (Bits 0) OutOfRange 0;
  fc F64 (txt "1e-485") f_general 46 (Bits 0) OutOfRange 0;
  fc F64 (txt "1e-484") f_general 46 (Bits 0) OutOfRange 0;
  fc F64 (txt "1e-483") f_general 46 (Bits 0) OutOfRange 0;
  fc F64 (txt "1e-482") f_general 46 (Bits 0) OutOfRange 0;
  fc F64 (txt "1e-481") f_general 46 (Bits 0) OutOfRange 0;
  fc F64 (txt "1e-480") f_general 46 (Bits 0) OutOfRange 0;
  fc F64 (txt "1e-479") f_general 46 (Bits 0) OutOfRange 0;
  fc F64 (txt "1e-478") f_general 46 (Bits 0) OutOfRange 0;
  fc F64 (txt "1e-477") f_general 46 (Bits 0) OutOfRange 0;
  fc F64 (txt "1e-476") f_general 46 (Bits 0) OutOfRange 0;
  fc F64 (txt "1e-475") f_general 46 (Bits 0) OutOfRange 0;
  fc F64 (txt "1e-474") f_general 46 (Bits 0) OutOfRange 0;
  fc F64 (txt "1e-473") f_general 46 (Bits 0) OutOfRange 0;
  fc F64 (txt "1e-472") f_general 46 (Bits 0) OutOfRange 0;
  fc F64 (txt "1e-471") f_general 46 (Bits 0) OutOfRange 0;
  fc F64 (txt "1e-470") f_general 46 (Bits 0) OutOfRange 0;
  fc F64 (txt "1e-469") f_general 46 (Bits 0) OutOfRange 0;
  fc F64 (txt "1e-468") f_general 46 (Bits 0) OutOfRange 0;
  fc F64 (txt "1e-467") f_general 46 (Bits 0) OutOfRange 0;
  fc F64 (txt "1e-466") f_general 46 (Bits 0) OutOfRange 0;
  fc F64 (txt "1e-465") f_general 46 (Bits 0) OutOfRange 0;
  fc F64 (txt "1e-464") f_general 46 (Bits 0) OutOfRange 0;
  fc F64 (txt "1e-463") f_general 46 (Bits 0) OutOfRange 0;
  fc F64 (txt "1e-462") f_general 46 (Bits 0) OutOfRange 0;
  fc F64 (txt "1e-461") f_general 46 (Bits 0) OutOfRange 0;
  fc F64 (txt "1e-460") f_general 46 (Bits 0) OutOfRange 0;
  fc F64 (txt "1e-459") f_general 46 (Bits 0) OutOfRange 0;
  fc F64 (txt "1e-458") f_general 46 (Bits 0) OutOfRange 0;
  fc F64 (txt "1e-457") f_general 46 (Bits 0) OutOfRange 0;
  fc F64 (txt "1e-456") f_general 46 (Bits 0) OutOfRange 0;
  fc F64 (txt "1e-455") f_general 46 (Bits 0) OutOfRange 0;
  fc F64 (txt "1e-454") f_general 46 (Bits 0) OutOfRange 0;
  fc F64 (txt "1e-453") f_general 46 (Bits 0) OutOfRange 0;
  fc F64 (txt "1e-452") f_general 46 (Bits 0) OutOfRange 0;
  fc F64 (txt "1e-451") f_general 46 (Bits 0) OutOfRange 0;
  fc F64 (txt "1e-450") f_general 46 (Bits 0) OutOfRange 0;
  fc F64 (txt "1e-449") f_general 46 (Bits 0) OutOfRange 0;
  fc F64 (txt "1e-448") f_general 46 (Bits 0) OutOfRange 0;
  fc F64 (txt "1e-447") f_general 46 (Bits 0) OutOfRange 0;
  fc F64 (txt "1e-446") f_general 46 (Bits 0) OutOfRange 0;
  fc F64 (txt "1e-445") f_general 46 (Bits 0) OutOfRange 0;
  fc F64 (txt "1e-444") f_general 46 (Bits 0) OutOfRange 0;
  fc F64 (txt "1e-443") f_general 46 (Bits 0) OutOfRange 0;
  fc F64 (txt "1e-442") f_general 46 (Bits 0) OutOfRange 0;
  fc F64 (txt "1e-441") f_general 46 (Bits 0) OutOfRange 0;
  fc F64 (txt "1e-440") f_general 46 (Bits 0) OutOfRange 0;
  fc F64 (txt "1e-439") f_general 46 (Bits 0) OutOfRange 0;
  fc F64 (txt "1e-438") f_general 46 (Bits 0) OutOfRange 0;
  fc F64 (txt "1e-437") f_general 46 (Bits 0) OutOfRange 0;
  fc F64 (txt "1e-436") f_general 46 (Bits 0) OutOfRange 0;
  fc F64 (txt "1e-435") f_general 46 (Bits 0) OutOfRange 0;
  fc F64 (txt "1e-434") f_general 46 (Bits 0) OutOfRange 0;
  fc F64 (txt "1e-433") f_general 46 (Bits 0) OutOfRange 0;
  fc F64 (txt "1e-432") f_general 46 (Bits 0) OutOfRange 0;
  fc F64 (txt "1e-431") f_general 46 (Bits 0) OutOfRange 0;
  fc F64 (txt "1e-430") f_general 46 (Bits 0) OutOfRange 0;
  fc F64 (txt "1e-429") f_general 46 (Bits 0) OutOfRange 0;
  fc F64 (txt "1e-428") f_general 46 (Bits 0) OutOfRange 0;
  fc F64 (txt "1e-427") f_general 46 (Bits 0) OutOfRange 0;
  fc F64 (txt "1e-426") f_general 46 (Bits 0) OutOfRange 0;
  fc F64 (txt "1e-425") f_general 46 (Bits 0) OutOfRange 0;
  fc F64 (txt "1e-424") f_general 46 (Bits 0) OutOfRange 0;
  fc F64 (txt "1e-423") f_general 46 (Bits 0) OutOfRange 0;
  fc F64 (txt "1e-422") f_general 46 (Bits 0) OutOfRange 0;
  fc F64 (txt "1e-421") f_general 46 (Bits 0) OutOfRange 0;
  fc F64 (txt "1e-420") f_general 46 (Bits 0) OutOfRange 0;
  fc F64 (txt "1e-419") f_general 46 (Bits 0) OutOfRange 0;
  fc F64 (txt "1e-418") f_general 46 (Bits 0) OutOfRange 0;
  fc F64 (txt "1e-417") f_general 46 (Bits 0) OutOfRange 0;
  fc F64 (txt "1e-416") f_general 46 (Bits 0) OutOfRange 0;
  fc F64 (txt "1e-415") f_general 46 (Bits 0) OutOfRange 0;
  fc F64 (txt "1e-414") f_general 46 (Bits 0) OutOfRange 0;
  fc F64 (txt "1e-413") f_general 46 (Bits 0) OutOfRange 0;
  fc F64 (txt "1e-412") f_general 46 (Bits 0) OutOfRange 0;
  fc F64 (txt "1e-411") f_general 46 (Bits 0) OutOfRange 0;
  fc F64 (txt "1e-410") f_general 46 (Bits 0) OutOfRange 0;
  fc F64 (txt "1e-409") f_general 46 (Bits 0) OutOfRange 0;
  fc F64 (txt "1e-408") f_general 46 (Bits 0) OutOfRange 0;
  fc F64 (txt "1e-407") f_general 46 (Bits 0) OutOfRange 0;
  fc F64 (txt "1e-406") f_general 46 (Bits 0) OutOfRange 0;
  fc F64 (txt "1e-405") f_general 46 (Bits 0) OutOfRange 0;
  fc F64 (txt "1e-404") f_general 46 (Bits 0) OutOfRange 0;
  fc F64 (txt "1e-403") f_general 46 (Bits 0) OutOfRange 0;
  fc F64 (txt "1e-402") f_general 46 (Bits 0) OutOfRange 0;
  fc F64 (txt "1e-401") f_general 46 (Bits 0) OutOfRange 0;
  fc F64 (txt "1e-400") f_general 46 (Bits 0) OutOfRange 0;
  fc F64 (txt "1e-399") f_general 46 (Bits 0) OutOfRange 0;
  fc F64 (txt "1e-398") f_general 46 (Bits 0) OutOfRange 0;
  fc F64 (txt "1e-397") f_general 46 (Bits 0) OutOfRange 0;
  fc F64 (txt "1e-396") f_general 46 (Bits 0) OutOfRange 0;
  fc F64 (txt "1e-395") f_general 46 (Bits 0) OutOfRange 0;
  fc F64 (txt "1e-394") f_general 46 (Bits 0) OutOfRange 0;
  fc F64 (txt "1e-393") f_general 46 (Bits 0) OutOfRange 0;
  fc F64 (txt "1e-392") f_general 46 (Bits 0) OutOfRange 0;
  fc F64 (txt "1e-391") f_general 46 (Bits 0) OutOfRange 0;
  fc F64 (txt "1e-390") f_general 46 (Bits 0) OutOfRange 0;
  fc F64 (txt "1e-389") f_general 46 (Bits 0) OutOfRange 0;
  fc F64 (txt "1e-388") f_general 46 (Bits 0) OutOfRange 0;
  fc F64 (txt "1e-387") f_general 46 (Bits 0) OutOfRange 0;
  fc F64 (txt "1e-386") f_general 46 (Bits 0) OutOfRange 0;
  fc F64 (txt "1e-385") f_general 46 (Bits 0) OutOfRange 0;
  fc F64 (txt "1e-384") f_general 46 (Bits 0) OutOfRange 0;
  fc F64 (txt "1e-383") f_general 46 (Bits 0) OutOfRange 0;
  fc F64 (txt "1e-382") f_general 46 (Bits 0) OutOfRange 0;
  fc F64 (txt "1e-381") f_general 46 (Bits 0) OutOfRange 0;
  fc F64 (txt "1e-380") f_general 46 (Bits 0) OutOfRange 0;
  fc F64 (txt "1e-379") f_general 46 (Bits 0) OutOfRange 0;
  fc F64 (txt "1e-378") f_general 46 (Bits 0) OutOfRange 0;
  fc F64 (txt "1e-377") f_general 46 (Bits 0) OutOfRange 0;
  fc F64 (txt "1e-376") f_general 46 (Bits 0) OutOfRange 0;
  fc F64 (txt "1e-375") f_general 46 (Bits 0) OutOfRange 0;
  fc F64 (txt "1e-374") f_general 46 (Bits 0) OutOfRange 0;
  fc F64 (txt "1e-373") f_general 46 (Bits 0) OutOfRange 0;
  fc F64 (txt "1e-372") f_general 46 (Bits 0) OutOfRange 0;
  fc F64 (txt "1e-371") f_general 46 (Bits 0) OutOfRange 0;
  fc F64 (txt "1e-370") f_general 46 (Bits 0) OutOfRange 0;
  fc F64 (txt "1e-369") f_general 46 (Bits 0) OutOfRange 0;
  fc F64 (txt "1e-368") f_general 46 (Bits 0) OutOfRange 0;
  fc F64 (txt "1e-367") f_general 46 (Bits 0) OutOfRange 0;
  fc F64 (txt "1e-366") f_general 46 (Bits 0) OutOfRange 0;
  fc F64 (txt "1e-365") f_general 46 (Bits 0) OutOfRange 0;
  fc F64 (txt "1e-364") f_general 46 (Bits 0) OutOfRange 0;
  fc F64 (txt "1e-363") f_general 46 (Bits 0) OutOfRange 0;
  fc F64 (txt "1e-362") f_general 46 (Bits 0) OutOfRange 0;
  fc F64 (txt "1e-361") f_general 46 (Bits 0) OutOfRange 0;
  fc F64 (txt "1e-360") f_general 46 (Bits 0) OutOfRange 0;
  fc F64 (txt "1e-359") f_general 46 (Bits 0) OutOfRange 0;
  fc F64 (txt "1e-358") f_general 46 (Bits 0) OutOfRange 0;
  fc F64 (txt "1e-357") f_general 46 (Bits 0) OutOfRange 0;
  fc F64 (txt "1e-356") f_general 46 (Bits 0) OutOfRange 0;
  fc F64 (txt "1e-355") f_general 46 (Bits 0) OutOfRange 0;
  fc F64 (txt "1e-354") f_general 46 (Bits 0) OutOfRange 0;
  fc F64 (txt "1e-353") f_general 46 (Bits 0) OutOfRange 0;
  fc F64 (txt "1e-352") f_general 46 (Bits 0) OutOfRange 0;
  fc F64 (txt "1e-351") f_general 46 (Bits 0) OutOfRange 0;
  fc F64 (txt "1e-350") f_general 46 (Bits 0) OutOfRange 0;
  fc F64 (txt "1e-349") f_general 46 (Bits 0) OutOfRange 0;
  fc F64 (txt "1e-348") f_general 46 (Bits 0) OutOfRange 0;
  fc F64 (txt "1e-347") f_general 46 (Bits 0) OutOfRange 0;
  fc F64 (txt "1e-346") f_general 46 (Bits 0) OutOfRange 0;
  fc F64 (txt "1e-345") f_general 46 (Bits 0) OutOfRange 0;
  fc F64 (txt "1e-344") f_general 46 (Bits 0) OutOfRange 0;
  fc F64 (txt "1e-343") f_general 46 (Bits 0) OutOfRange 0;
  fc F64 (txt "1e-342") f_general 46 (Bits 0) OutOfRange 0;
  fc F64 (txt "1e-341") f_general 46 (Bits 0) OutOfRange 0;
  fc F64 (txt "1e-340") f_general 46 (Bits 0) OutOfRange 0;
  fc F64 (txt "1e-339") f_general 46 (Bits 0) OutOfRange 0;
  fc F64 (txt "1e-338") f_general 46 (Bits 0) OutOfRange 0;
  fc F64 (txt "1e-337") f_general 46 (Bits 0) OutOfRange 0;
  fc F64 (txt "1e-336") f_general 46 (Bits 0) OutOfRange 0;
  fc F64 (txt "1e-335") f_general 46 (Bits 0) OutOfRange 0;
  fc F64 (txt "1e-334") f_general 46 (Bits 0) OutOfRange 0;
  fc F64 (txt "1e-333") f_general 46 (Bits 0) OutOfRange 0;
  fc F64 (txt "1e-332") f_general 46 (Bits 0) OutOfRange 0;
  fc F64 (txt "1e-331") f_general 46 (Bits 0) OutOfRange 0;
  fc F64 (txt "1e-330") f_general 46 (Bits 0) OutOfRange 0;
  fc F64 (txt "1e-329") f_general 46 (Bits 0) OutOfRange 0;
  fc F64 (txt "1e-328") f_general 46 (Bits 0) OutOfRange 0;
  fc F64 (txt "1e-327") f_general 46 (Bits 0) OutOfRange 0;
  fc F64 (txt "1e-326") f_general 46 (Bits 0) OutOfRange 0;
  fc F64 (txt "1e-325") f_general 46 (Bits 0) OutOfRange 0;
  fc F64 (txt "1e-324") f_general 46 (Bits 0) OutOfRange 0;
  fc F64 (txt "1e-323") f_general 46 (Bits 2) Success 0;
  fc F64 (txt "1e-322") f_general 46 (Bits 20) Success 0;
  fc F64 (txt "1e-321") f_general 46 (Bits 202) Success 0;
  fc F64 (txt "1e-320") f_general 46 (Bits 2024) Success 0;
  fc F64 (txt "1e-319") f_general 46 (Bits 20240) Success 0;
  fc F64 (txt "1e-318") f_general 46 (Bits 202402) Success 0;
  fc F64 (txt "1e-317") f_general 46 (Bits 2024023) Success 0;
  fc F64 (txt "1e-316") f_general 46 (Bits 20240225) Success 0;
  fc F64 (txt "1e-315") f_general 46 (Bits 202402253) Success 0;
  fc F64 (txt "1e-314") f_general 46 (Bits 2024022533) Success 0;
  fc F64 (txt "1e-313") f_general 46 (Bits 20240225331) Success 0;
  fc F64 (txt "1e-312") f_general 46 (Bits 202402253307) Success 0;
  fc F64 (txt "1e-311") f_general 46 (Bits 2024022533073) Success 0;
  fc F64 (txt "1e-310") f_general 46 (Bits 20240225330731) Success 0;
  fc F64 (txt "1e-309") f_general 46 (Bits 202402253307311) Success 0;
  fc F64 (txt "1e-308") f_general 46 (Bits 2024022533073106) Success 0;
  fc F64 (txt "1e-307") f_general 46 (Bits 14067255587423757) Success 0;
  fc F64 (txt "1e-306") f_general 46 (Bits 28843068552705937) Success 0;
  fc F64 (txt "1e-305") f_general 46 (Bits 43935135038780789) Success 0;
  fc F64 (txt "1e-304") f_general 46 (Bits 58984656790831465) Success 0;
  fc F64 (txt "1e-303") f_general 46 (Bits 73730820988539331) Success 0;
  fc F64 (txt "1e-302") f_general 46 (Bits 88785826515146292) Success 0;
  fc F64 (txt "1e-301") f_general 46 (Bits 103904837566199265) Success 0;
  fc F64 (txt "1e-300") f_general 46 (Bits 118622047889322841) Success 0;
  fc F64 (txt "1e-299") f_general 46 (Bits 133640861072699439) Success 0;
  fc F64 (txt "1e-298") f_general 46 (Bits 148827732767309341) Success 0;
  fc F64 (txt "1e-297") f_general 46 (Bits 163516667822284197) Success 0;
  fc F64 (txt "1e-296") f_general 46 (Bits 178500136920474894) Success 0;
  fc F64 (txt "1e-295") f_general 46 (Bits 193753278774808361) Success 0;
  fc F64 (txt "1e-294") f_general 46 (Bits 208414601263231731) Success 0;
  fc F64 (txt "1e-293") f_general 46 (Bits 223363554653233072) Success 0;
  fc F64 (txt "1e-292") f_general 46 (Bits 238672046670206876) Success 0;
  fc F64 (txt "1e-291") f_general 46 (Bits 253315770551822017) Success 0;
  fc F64 (txt "1e-290") f_general 46 (Bits 268231017195544690) Success 0;
  fc F64 (txt "1e-289") f_general 46 (Bits 283497375779670158) Success 0;
  fc F64 (txt "1e-288") f_general 46 (Bits 298220099847875929) Success 0;
  fc F64 (txt "1e-287") f_general 46 (Bits 313102429747185839) Success 0;
  fc F64 (txt "1e-286") f_general 46 (Bits 328327642400795355) Success 0;
  fc F64 (txt "1e-285") f_general 46 (Bits 343127515088718537) Success 0;
  fc F64 (txt "1e-284") f_general 46 (Bits 357977699729812859) Success 0;
  fc F64 (txt "1e-283") f_general 46 (Bits 373162730810652889) Success 0;
  fc F64 (txt "1e-282") f_general 46 (Bits 388037943947518856) Success 0;
  fc F64 (txt "1e-281") f_general 46 (Bits 402856736734887018) Success 0;
  fc F64 (txt "1e-280") f_general 46 (Bits 418002527998569348) Success 0;
  fc F64 (txt "1e-279") f_general 46 (Bits 432951315792606003) Success 0;
  fc F64 (txt "1e-278") f_general 46 (Bits 447739452472819711) Success 0;
  fc F64 (txt "1e-277") f_general 46 (Bits 462846923602558975) Success 0;
  fc F64 (txt "1e-276") f_general 46 (Bits 477867561647738880) Success 0;
  fc F64 (txt "1e-275") f_general 46 (Bits 492625760723309567) Success 0;
  fc F64 (txt "1e-274") f_general 46 (Bits 507695809847245055) Success 0;
  fc F64 (txt "1e-273") f_general 46 (Bits 522786614153307040) Success 0;
  fc F64 (txt "1e-272") f_general 46 (Bits 537515577286843527) Success 0;
  fc F64 (txt "1e-271") f_general 46 (Bits 552549081483236265) Success 0;
  fc F64 (txt "1e-270") f_general 46 (Bits 567708407528440906) Success 0;
  fc F64 (txt "1e-269") f_general 46 (Bits 582408819937334620) Success 0;
  fc F64 (txt "1e-268") f_general 46 (Bits 597406635727923891) Success 0;
  fc F64 (txt "1e-267") f_general 46 (Bits 612632877534010032) Success 0;
  fc F64 (txt "1e-266") f_general 46 (Bits 627305408375869788) Success 0;
  fc F64 (txt "1e-265") f_general 46 (Bits 642268372207666611) Success 0;
  fc F64 (txt "1e-264") f_general 46 (Bits 657559961436488592) Success 0;
  fc F64 (txt "1e-263") f_general 46 (Bits 672205264185541748) Success 0;
  fc F64 (txt "1e-262") f_general 46 (Bits 687134192901330321) Success 0;
  fc F64 (txt "1e-261") f_general 46 (Bits 702417654075538165) Success 0;
  fc F64 (txt "1e-260") f_general 46 (Bits 717108310787339481) Success 0;
  fc F64 (txt "1e-259") f_general 46 (Bits 732004002085151248) Success 0;
  fc F64 (txt "1e-258") f_general 46 (Bits 747245916486888083) Success 0;
  fc F64 (txt "1e-257") f_general 46 (Bits 762014473397072540) Success 0;
  fc F64 (txt "1e-256") f_general 46 (Bits 776877706278891331) Success 0;
  fc F64 (txt "1e-255") f_general 46 (Bits 792079047660636948) Success 0;
  fc F64 (txt "1e-254") f_general 46 (Bits 806923678983304940) Success 0;
  fc F64 (txt "1e-253") f_general 46 (Bits 821755214193255592) Success 0;
  fc F64 (txt "1e-252") f_general 46 (Bits 836916933485166033) Success 0;
  fc F64 (txt "1e-251") f_general 46 (Bits 851835856226274979) Success 0;
  fc F64 (txt "1e-250") f_general 46 (Bits 866636436678541900) Success 0;
  fc F64 (txt "1e-249") f_general 46 (Bits 881759462523347679) Success 0;
  fc F64 (txt "1e-248") f_general 46 (Bits 896750935477777867) Success 0;
  fc F64 (txt "1e-247") f_general 46 (Bits 911521286674494270) Success 0;
  fc F64 (txt "1e-246") f_general 46 (Bits 926606525949861901) Success 0;
  fc F64 (txt "1e-245") f_general 46 (Bits 941668848721988616) Success 0;
  fc F64 (txt "1e-244") f_general 46 (Bits 956409679161331466) Success 0;
  fc F64 (txt "1e-243") f_general 46 (Bits 971458017489982157) Success 0;
  fc F64 (txt "1e-242") f_general 46 (Bits 986589529537203136) Success 0;
  fc F64 (txt "1e-241") f_general 46 (Bits 1001301531111923376) Success 0;
  fc F64 (txt "1e-240") f_general 46 (Bits 1016313833359795804) Success 0;
  fc F64 (txt "1e-239") f_general 46 (Bits 1031512913058476026) Success 0;
  fc F64 (txt "1e-238") f_general 46 (Bits 1046196761445088248) Success 0;
  fc F64 (txt "1e-237") f_general 46 (Bits 1061173872207825654) Success 0;
  fc F64 (txt "1e-236") f_general 46 (Bits 1076438935941134042) Success 0;
  fc F64 (txt "1e-235") f_general 46 (Bits 1091095290979984528) Success 0;
  fc F64 (txt "1e-234") f_general 46 (Bits 1106038035058019764) Success 0;
  fc F64 (txt "1e-233") f_general 46 (Bits 1121338765435035937) Success 0;
  fc F64 (txt "1e-232") f_general 46 (Bits 1135997042391571637) Success 0;
  fc F64 (txt "1e-231") f_general 46 (Bits 1150906225254077410) Success 0;
  fc F64 (txt "1e-230") f_general 46 (Bits 1166165004111681755) Success 0;
  fc F64 (txt "1e-229") f_general 46 (Bits 1180901940167114633) Success 0;
  fc F64 (txt "1e-228") f_general 46 (Bits 1195778348405079915) Success 0;
  fc F64 (txt "1e-227") f_general 46 (Bits 1210996158982008645) Success 0;
  fc F64 (txt "1e-226") f_general 46 (Bits 1225809910563708299) Success 0;
  fc F64 (txt "1e-225") f_general 46 (Bits 1240654312332395758) Success 0;
  fc F64 (txt "1e-224") f_general 46 (Bits 1255832114822727210) Success 0;
  fc F64 (txt "1e-223") f_general 46 (Bits 1270720881566796762) Success 0;
  fc F64 (txt "1e-222") f_general 46 (Bits 1285534027017830097) Success 0;
  fc F64 (txt "1e-221") f_general 46 (Bits 1300672759111093893) Success 0;
  fc F64 (txt "1e-220") f_general 46 (Bits 1315634782849665299) Success 0;
  fc F64 (txt "1e-219") f_general 46 (Bits 1330417404552989528) Success 0;
  fc F64 (txt "1e-218") f_general 46 (Bits 1345517981961616942) Success 0;
  fc F64 (txt "1e-217") f_general 46 (Bits 1360551545733881565) Success 0;
  fc F64 (txt "1e-216") f_general 46 (Bits 1375304359089833620) Success 0;
  fc F64 (txt "1e-215") f_general 46 (Bits 1390367676064245817) Success 0;
  fc F64 (txt "1e-214") f_general 46 (Bits 1405471103150663971) Success 0;
  fc F64 (txt "1e-213") f_general 46 (Bits 1420194806792385388) Success 0;
  fc F64 (txt "1e-212") f_general 46 (Bits 1435221736624009287) Success 0;
  fc F64 (txt "1e-211") f_general 46 (Bits 1450393389603155501) Success 0;
  fc F64 (txt "1e-210") f_general 46 (Bits 1465088665789573560) Success 0;
  fc F64 (txt "1e-209") f_general 46 (Bits 1480080061302068262) Success 0;
  fc F64 (txt "1e-208") f_general 46 (Bits 1495318341129581720) Success 0;
  fc F64 (txt "1e-207") f_general 46 (Bits 1509985856129180093) Success 0;
  fc F64 (txt "1e-206") f_general 46 (Bits 1524942550158150189) Success 0;
  fc F64 (txt "1e-205") f_general 46 (Bits 1540245895267272284) Success 0;
  fc F64 (txt "1e-204") f_general 46 (Bits 1554886299732867059) Success 0;
  fc F64 (txt "1e-203") f_general 46 (Bits 1569809105594332656) Success 0;
  fc F64 (txt "1e-202") f_general 46 (Bits 1585084913200636780) Success 0;
  fc F64 (txt "1e-201") f_general 46 (Bits 1599789920352257571) Success 0;
  fc F64 (txt "1e-200") f_general 46 (Bits 1614679632300144556) Success 0;
  fc F64 (txt "1e-199") f_general 46 (Bits 1629914072514475415) Success 0;
  fc F64 (txt "1e-198") f_general 46 (Bits 1644696643526046078) Success 0;
  fc F64 (txt "1e-197") f_general 46 (Bits 1659554037198953950) Success 0;
  fc F64 (txt "1e-196") f_general 46 (Bits 1674748079569560918) Success 0;
  fc F64 (txt "1e-195") f_general 46 (Bits 1689606396538113878) Success 0;
  fc F64 (txt "1e-194") f_general 46 (Bits 1704432229395612459) Success 0;
  fc F64 (txt "1e-193") f_general 46 (Bits 1719586820746957814) Success 0;
  fc F64 (txt "1e-192") f_general 46 (Bits 1734519108376626298) Success 0;
  fc F64 (txt "1e-191") f_general 46 (Bits 1749314120125326744) Success 0;
  fc F64 (txt "1e-190") f_general 46 (Bits 1764430185090674430) Success 0;
  fc F64 (txt "1e-189") f_general 46 (Bits 1779434709694088543) Success 0;
  fc F64 (txt "1e-188") f_general 46 (Bits 1794199622703728310) Success 0;
  fc F64 (txt "1e-187") f_general 46 (Bits 1809278064245250148) Success 0;
  fc F64 (txt "1e-186") f_general 46 (Bits 1824353132768337726) Success 0;
  fc F64 (txt "1e-185") f_general 46 (Bits 1839088652478113550) Success 0;
  fc F64 (txt "1e-184") f_general 46 (Bits 1854130352394805458) Success 0;
  fc F64 (txt "1e-183") f_general 46 (Bits 1869274311464449155) Success 0;
  fc F64 (txt "1e-182") f_general 46 (Bits 1883981126779826596) Success 0;
  fc F64 (txt "1e-181") f_general 46 (Bits 1898986946203520525) Success 0;
  fc F64 (txt "1e-180") f_general 46 (Bits 1914198181197535432) Success 0;
  fc F64 (txt "1e-179") f_general 46 (Bits 1928876964877758202) Success 0;
  fc F64 (txt "1e-178") f_general 46 (Bits 1943847744757508792) Success 0;
  fc F64 (txt "1e-177") f_general 46 (Bits 1959124678896417459) Success 0;
  fc F64 (txt "1e-176") f_general 46 (Bits 1973776087932934496) Success 0;
  fc F64 (txt "1e-175") f_general 46 (Bits 1988712649508052920) Success 0;
  fc F64 (txt "1e-174") f_general 46 (Bits 2004005651756423078) Success 0;
  fc F64 (txt "1e-173") f_general 46 (Bits 2018678418954170056) Success 0;
  fc F64 (txt "1e-172") f_general 46 (Bits 2033581564216171130) Success 0;
  fc F64 (txt "1e-171") f_general 46 (Bits 2048832796073144600) Success 0;
  fc F64 (txt "1e-170") f_general 46 (Bits 2063583882754760367) Success 0;
  fc F64 (txt "1e-169") f_general 46 (Bits 2078454394898482779) Success 0;
  fc F64 (txt "1e-168") f_general 46 (Bits 2093664835357607922) Success 0;
  fc F64 (txt "1e-167") f_general 46 (Bits 2108492405910189303) Success 0;
  fc F64 (txt "1e-166") f_general 46 (Bits 2123331049774342709) Success 0;
  fc F64 (txt "1e-165") f_general 46 (Bits 2138501654884006594) Success 0;
  fc F64 (txt "1e-164") f_general 46 (Bits 2153403916716827833) Success 0;
  fc F64 (txt "1e-163") f_general 46 (Bits 2168211439214214631) Success 0;
  fc F64 (txt "1e-162") f_general 46 (Bits 2183343142615420257) Success 0;
  fc F64 (txt "1e-161") f_general 46 (Bits 2198318345151600733) Success 0;
  fc F64 (txt "1e-160") f_general 46 (Bits 2213095475689254516) Success 0;
  fc F64 (txt "1e-159") f_general 46 (Bits 2228189189140793873) Success 0;
  fc F64 (txt "1e-158") f_general 46 (Bits 2243235622832598603) Success 0;
  fc F64 (txt "1e-157") f_general 46 (Bits 2257983073722075613) Success 0;
  fc F64 (txt "1e-156") f_general 46 (Bits 2273039687613394005) Success 0;
  fc F64 (txt "1e-155") f_general 46 (Bits 2288155682980613045) Success 0;
  fc F64 (txt "1e-154") f_general 46 (Bits 2302874149838667426) Success 0;
  fc F64 (txt "1e-153") f_general 46 (Bits 2317894533690707531) Success 0;
  fc F64 (txt "1e-152") f_general 46 (Bits 2333078460381573359) Success 0;
  fc F64 (txt "1e-151") f_general 46 (Bits 2347768622521441578) Success 0;
  fc F64 (txt "1e-150") f_general 46 (Bits 2362753625475748981) Success 0;
  fc F64 (txt "1e-149") f_general 46 (Bits 2378003891349863625) Success 0;
  fc F64 (txt "1e-148") f_general 46 (Bits 2392666412163378171) Success 0;
  fc F64 (txt "1e-147") f_general 46 (Bits 2407616863459743482) Success 0;
  fc F64 (txt "1e-146") f_general 46 (Bits 2422927227859672249) Success 0;
  fc F64 (txt "1e-145") f_general 46 (Bits 2437567441023246835) Success 0;
  fc F64 (txt "1e-144") f_general 46 (Bits 2452484150466153072) Success 0;
  fc F64 (txt "1e-143") f_general 46 (Bits 2467752337549257996) Success 0;
  fc F64 (txt "1e-142") f_general 46 (Bits 2482471633181877288) Success 0;
  fc F64 (txt "1e-141") f_general 46 (Bits 2497355391596014898) Success 0;
  fc F64 (txt "1e-140") f_general 46 (Bits 2512582389893159038) Success 0;
  fc F64 (txt "1e-139") f_general 46 (Bits 2527378914499454799) Success 0;
  fc F64 (txt "1e-138") f_general 46 (Bits 2542230494174560547) Success 0;
  fc F64 (txt "1e-137") f_general 46 (Bits 2557417269047914859) Success 0;
  fc F64 (txt "1e-136") f_general 46 (Bits 2572289212573816547) Success 0;
  fc F64 (txt "1e-135") f_general 46 (Bits 2587109367699086492) Success 0;
  fc F64 (txt "1e-134") f_general 46 (Bits 2602256861885146051) Success 0;
  fc F64 (txt "1e-133") f_general 46 (Bits 2617202456699725402) Success 0;
  fc F64 (txt "1e-132") f_general 46 (Bits 2631991923788046320) Success 0;
  fc F64 (txt "1e-131") f_general 46 (Bits 2647101057927919596) Success 0;
  fc F64 (txt "1e-130") f_general 46 (Bits 2662118577829098228) Success 0;
  fc F64 (txt "1e-129") f_general 46 (Bits 2676878076131336112) Success 0;
  fc F64 (txt "1e-128") f_general 46 (Bits 2691949749288605597) Success 0;
  fc F64 (txt "1e-127") f_general 46 (Bits 2707037508532166338) Success 0;
  fc F64 (txt "1e-126") f_general 46 (Bits 2721767740441745010) Success 0;
  fc F64 (txt "1e-125") f_general 46 (Bits 2736802830608190479) Success 0;
  fc F64 (txt "1e-124") f_general 46 (Bits 2751959182959546249) Success 0;
  fc F64 (txt "1e-123") f_general 46 (Bits 2766660834407543660) Success 0;
  fc F64 (txt "1e-122") f_general 46 (Bits 2781660198997012551) Success 0;
  fc F64 (txt "1e-121") f_general 46 (Bits 2796883536805199404) Success 0;
  fc F64 (txt "1e-120") f_general 46 (Bits 2811557277646183863) Success 0;
  fc F64 (txt "1e-119") f_general 46 (Bits 2826521753976886565) Success 0;
  fc F64 (txt "1e-118") f_general 46 (Bits 2841810507270260023) Success 0;
  fc F64 (txt "1e-117") f_general 46 (Bits 2856456991659083397) Success 0;
  fc F64 (txt "1e-116") f_general 46 (Bits 2871387397424584742) Success 0;
  fc F64 (txt "1e-115") f_general 46 (Bits 2886672704910933552) Success 0;
  fc F64 (txt "1e-114") f_general 46 (Bits 2901359899787470558) Success 0;
  fc F64 (txt "1e-113") f_general 46 (Bits 2916257033516642453) Success 0;
  fc F64 (txt "1e-112") f_general 46 (Bits 2931500750957579450) Success 0;
  fc F64 (txt "1e-111") f_general 46 (Bits 2946265927169263605) Success 0;
  fc F64 (txt "1e-110") f_general 46 (Bits 2961130568675457522) Success 0;
  fc F64 (txt "1e-109") f_general 46 (Bits 2976333670837672046) Success 0;
  fc F64 (txt "1e-108") f_general 46 (Bits 2991175000696960837) Success 0;
  fc F64 (txt "1e-107") f_general 46 (Bits 3006007911516652822) Success 0;
  fc F64 (txt "1e-106") f_general 46 (Bits 3021171350320739931) Success 0;
  fc F64 (txt "1e-105") f_general 46 (Bits 3036087048976517625) Success 0;
  fc F64 (txt "1e-104") f_general 46 (Bits 3050888972797672567) Success 0;
  fc F64 (txt "1e-103") f_general 46 (Bits 3066013677853588373) Success 0;
  fc F64 (txt "1e-102") f_general 46 (Bits 3081002002287187261) Success 0;
  fc F64 (txt "1e-101") f_general 46 (Bits 3095773665367583373) Success 0;
  fc F64 (txt "1e-100") f_general 46 (Bits 3110860544497550640) Success 0;
  fc F64 (txt "1e-99") f_general 46 (Bits 3125919792542303038) Success 0;
  fc F64 (txt "1e-98") f_general 46 (Bits 3140661904118051853) Success 0;
  fc F64 (txt "1e-97") f_general 46 (Bits 3155711843867210001) Success 0;
  fc F64 (txt "1e-96") f_general 46 (Bits 3170840353250979498) Success 0;
  fc F64 (txt "1e-95") f_general 46 (Bits 3185553605935471189) Success 0;
  fc F64 (txt "1e-94") f_general 46 (Bits 3200567472070557930) Success 0;
  fc F64 (txt "1e-93") f_general 46 (Bits 3215763619480711314) Success 0;
  fc F64 (txt "1e-92") f_general 46 (Bits 3230448689654209719) Success 0;
  fc F64 (txt "1e-91") f_general 46 (Bits 3245427327650554853) Success 0;
  fc F64 (txt "1e-90") f_general 46 (Bits 3260689527820848751) Success 0;
  fc F64 (txt "1e-89") f_general 46 (Bits 3275347076010955275) Success 0;
  fc F64 (txt "1e-88") f_general 46 (Bits 3290291311528060557) Success 0;
  fc F64 (txt "1e-87") f_general 46 (Bits 3305593906203914289) Success 0;
  fc F64 (txt "1e-86") f_general 46 (Bits 3320248687600129567) Success 0;
  fc F64 (txt "1e-85") f_general 46 (Bits 3335159326946102182) Success 0;
  fc F64 (txt "1e-84") f_general 46 (Bits 3350419926408040080) Success 0;
  fc F64 (txt "1e-83") f_general 46 (Bits 3365153448830347546) Success 0;
  fc F64 (txt "1e-82") f_general 46 (Bits 3380031279415448416) Success 0;
  fc F64 (txt "1e-81") f_general 46 (Bits 3395250867926296632) Success 0;
  fc F64 (txt "1e-80") f_general 46 (Bits 3410061285881897251) Success 0;
  fc F64 (txt "1e-79") f_general 46 (Bits 3424907076661459308) Success 0;
  fc F64 (txt "1e-78") f_general 46 (Bits 3440086615415384007) Success 0;
  fc F64 (txt "1e-77") f_general 46 (Bits 3454972126665216220) Success 0;
  fc F64 (txt "1e-76") f_general 46 (Bits 3469786628572181779) Success 0;
  fc F64 (txt "1e-75") f_general 46 (Bits 3484927056235360856) Success 0;
  fc F64 (txt "1e-74") f_general 46 (Bits 3499885900780341111) Success 0;
  fc F64 (txt "1e-73") f_general 46 (Bits 3514669847147661653) Success 0;
  fc F64 (txt "1e-72") f_general 46 (Bits 3529772080386284458) Success 0;
  fc F64 (txt "1e-71") f_general 46 (Bits 3544802539477307722) Success 0;
  fc F64 (txt "1e-70") f_general 46 (Bits 3559556646450443677) Success 0;
  fc F64 (txt "1e-69") f_general 46 (Bits 3574621580446335748) Success 0;
  fc F64 (txt "1e-68") f_general 46 (Bits 3589721975617479139) Success 0;
  fc F64 (txt "1e-67") f_general 46 (Bits 3604446942557231707) Success 0;
  fc F64 (txt "1e-66") f_general 46 (Bits 3619475451511394546) Success 0;
  fc F64 (txt "1e-65") f_general 46 (Bits 3634644143635780247) Success 0;
  fc F64 (txt "1e-64") f_general 46 (Bits 3649340653511681853) Success 0;
  fc F64 (txt "1e-63") f_general 46 (Bits 3664333591136030989) Success 0;
  fc F64 (txt "1e-62") f_general 46 (Bits 3679568979503817384) Success 0;
  fc F64 (txt "1e-61") f_general 46 (Bits 3694237699278302034) Success 0;
  fc F64 (txt "1e-60") f_general 46 (Bits 3709195899275879974) Success 0;
  fc F64 (txt "1e-59") f_general 46 (Bits 3724496420693862360) Success 0;
  fc F64 (txt "1e-58") f_general 46 (Bits 3739138001697432014) Success 0;
  fc F64 (txt "1e-57") f_general 46 (Bits 3754062278231366209) Success 0;
  fc F64 (txt "1e-56") f_general 46 (Bits 3769339924178256082) Success 0;
  fc F64 (txt "1e-55") f_general 46 (Bits 3784041484441278595) Success 0;
  fc F64 (txt "1e-54") f_general 46 (Bits 3798932632592748196) Success 0;
  fc F64 (txt "1e-53") f_general 46 (Bits 3814168868061557325) Success 0;
  fc F64 (txt "1e-52") f_general 46 (Bits 3828948072970981232) Success 0;
  fc F64 (txt "1e-51") f_general 46 (Bits 3843806869186450252) Success 0;
  fc F64 (txt "1e-50") f_general 46 (Bits 3859002664735258655) Success 0;
  fc F64 (txt "1e-49") f_general 46 (Bits 3873857694494683923) Success 0;
  fc F64 (txt "1e-48") f_general 46 (Bits 3888684897022652376) Success 0;
  fc F64 (txt "1e-47") f_general 46 (Bits 3903841200462085070) Success 0;
  fc F64 (txt "1e-46") f_general 46 (Bits 3918770277926589793) Success 0;
  fc F64 (txt "1e-45") f_general 46 (Bits 3933566627244108473) Success 0;
  fc F64 (txt "1e-44") f_general 46 (Bits 3948684364170478951) Success 0;
  fc F64 (txt "1e-43") f_general 46 (Bits 3963685753846975329) Success 0;
  fc F64 (txt "1e-42") f_general 46 (Bits 3978451973076164153) Success 0;
  fc F64 (txt "1e-41") f_general 46 (Bits 3993532047392122311) Success 0;
  fc F64 (txt "1e-40") f_general 46 (Bits 4008604054463141788) Success 0;
  fc F64 (txt "1e-39") f_general 46 (Bits 4023340849777945987) Success 0;
  fc F64 (txt "1e-38") f_general 46 (Bits 4038384144200923364) Success 0;
  fc F64 (txt "1e-37") f_general 46 (Bits 4053525113571281807) Success 0;
  fc F64 (txt "1e-36") f_general 46 (Bits 4068233174594694770) Success 0;
  fc F64 (txt "1e-35") f_general 46 (Bits 4083240551153433103) Success 0;
  fc F64 (txt "1e-34") f_general 46 (Bits 4098448866519239753) Success 0;
  fc F64 (txt "1e-33") f_general 46 (Bits 4113128866711215964) Success 0;
  fc F64 (txt "1e-32") f_general 46 (Bits 4128101167230658355) Success 0;
  fc F64 (txt "1e-31") f_general 46 (Bits 4143375250170144896) Success 0;
  fc F64 (txt "1e-30") f_general 46 (Bits 4158027847206421152) Success 0;
  fc F64 (txt "1e-29") f_general 46 (Bits 4172965893781238599) Success 0;
  fc F64 (txt "1e-28") f_general 46 (Bits 4188260752279232537) Success 0;
  fc F64 (txt "1e-27") f_general 46 (Bits 4202930039008934928) Success 0;
  fc F64 (txt "1e-26") f_general 46 (Bits 4217834634465954580) Success 0;
  fc F64 (txt "1e-25") f_general 46 (Bits 4233087679066701273) Success 0;
  fc F64 (txt "1e-24") f_general 46 (Bits 4247835366853742247) Success 0;
  fc F64 (txt "1e-23") f_general 46 (Bits 4262707295203537489) Success 0;
  fc F64 (txt "1e-22") f_general 46 (Bits 4277919505920253670) Success 0;
  fc F64 (txt "1e-21") f_general 46 (Bits 4292743757239851855) Success 0;
  fc F64 (txt "1e-20") f_general 46 (Bits 4307583784117748259) Success 0;
  fc F64 (txt "1e-19") f_general 46 (Bits 4322756117994590892) Success 0;
  fc F64 (txt "1e-18") f_general 46 (Bits 4337655138388951980) Success 0;
  fc F64 (txt "1e-17") f_general 46 (Bits 4352464011485697175) Success 0;
  fc F64 (txt "1e-16") f_general 46 (Bits 4367597403136100796) Success 0;
  fc F64 (txt "1e-15") f_general 46 (Bits 4382569440205035030) Success 0;
  fc F64 (txt "1e-14") f_general 46 (Bits 4397347889687374747) Success 0;
  fc F64 (txt "1e-13") f_general 46 (Bits 4412443251819771522) Success 0;
  fc F64 (txt "1e-12") f_general 46 (Bits 4427486594234968593) Success 0;
  fc F64 (txt "1e-11") f_general 46 (Bits 4442235333156365461) Success 0;
  fc F64 (txt "1e-10") f_general 46 (Bits 4457293557087583675) Success 0;
  fc F64 (txt "1e-9") f_general 46 (Bits 4472406533629990549) Success 0;
  fc F64 (txt "1e-8") f_general 46 (Bits 4487126258331716666) Success 0;
  fc F64 (txt "1e-7") f_general 46 (Bits 4502148214488346440) Success 0;
  fc F64 (txt "1e-6") f_general 46 (Bits 4517329193108106637) Success 0;
  fc F64 (txt "1e-5") f_general 46 (Bits 4532020583610935537) Success 0;
  fc F64 (txt "1e-4") f_general 46 (Bits 4547007122018943789) Success 0;
  fc F64 (txt "1e-3") f_general 46 (Bits 4562254508917369340) Success 0;
  fc F64 (txt "1e-2") f_general 46 (Bits 4576918229304087675) Success 0;
  fc F64 (txt "1e-1") f_general 46 (Bits 4591870180066957722) Success 0;
  fc F64 (txt "1e0") f_general 46 (Bits 4607182418800017408) Success 0;
  fc F64 (txt "1e1") f_general 46 (Bits 4621819117588971520) Success 0;
  fc F64 (txt "1e2") f_general 46 (Bits 4636737291354636288) Success 0;
  fc F64 (txt "1e3") f_general 46 (Bits 4652007308841189376) Success 0;
  fc F64 (txt "1e4") f_general 46 (Bits 4666723172467343360) Success 0;
  fc F64 (txt "1e5") f_general 46 (Bits 4681608360884174848) Success 0;
  fc F64 (txt "1e6") f_general 46 (Bits 4696837146684686336) Success 0;
  fc F64 (txt "1e7") f_general 46 (Bits 4711630319722168320) Success 0;
  fc F64 (txt "1e8") f_general 46 (Bits 4726483295884279808) Success 0;
  fc F64 (txt "1e9") f_general 46 (Bits 4741671816366391296) Success 0;
  fc F64 (txt "1e10") f_general 46 (Bits 4756540486875873280) Success 0;
  fc F64 (txt "1e11") f_general 46 (Bits 4771362005757984768) Success 0;
  fc F64 (txt "1e12") f_general 46 (Bits 4786511204640096256) Success 0;
  fc F64 (txt "1e13") f_general 46 (Bits 4801453603149578240) Success 0;
  fc F64 (txt "1e14") f_general 46 (Bits 4816244402031689728) Success 0;
  fc F64 (txt "1e15") f_general 46 (Bits 4831355200913801216) Success 0;
  fc F64 (txt "1e16") f_general 46 (Bits 4846369599423283200) Success 0;
  fc F64 (txt "1e17") f_general 46 (Bits 4861130398305394688) Success 0;
  fc F64 (txt "1e18") f_general 46 (Bits 4876203697187506176) Success 0;
  fc F64 (txt "1e19") f_general 46 (Bits 4891288408196988160) Success 0;
  fc F64 (txt "1e20") f_general 46 (Bits 4906019910204099648) Success 0;
  fc F64 (txt "1e21") f_general 46 (Bits 4921056587992461136) Success 0;
  fc F64 (txt "1e22") f_general 46 (Bits 4936209963552724370) Success 0;
  fc F64 (txt "1e23") f_general 46 (Bits 4950912855330343670) Success 0;
  fc F64 (txt "1e24") f_general 46 (Bits 4965913770331839924) Success 0;
  fc F64 (txt "1e25") f_general 46 (Bits 4981134201117475473) Success 0;
  fc F64 (txt "1e26") f_general 46 (Bits 4995809153217856309) Success 0;
  fc F64 (txt "1e27") f_general 46 (Bits 5010775143622804482) Success 0;
  fc F64 (txt "1e28") f_general 46 (Bits 5026061058026967681) Success 0;
  fc F64 (txt "1e29") f_general 46 (Bits 5040708725286295329) Success 0;
  fc F64 (txt "1e30") f_general 46 (Bits 5055640609639927018) Success 0;
  fc F64 (txt "1e31") f_general 46 (Bits 5070927765361438756) Success 0;
  fc F64 (txt "1e32") f_general 46 (Bits 5085611494797045271) Success 0;
  fc F64 (txt "1e33") f_general 46 (Bits 5100510072459938204) Success 0;
  fc F64 (txt "1e34") f_general 46 (Bits 5115755594818026499) Success 0;
  fc F64 (txt "1e35") f_general 46 (Bits 5130517386810051970) Success 0;
  fc F64 (txt "1e36") f_general 46 (Bits 5145383438407770339) Success 0;
  fc F64 (txt "1e37") f_general 46 (Bits 5160588303184390427) Success 0;
  fc F64 (txt "1e38") f_general 46 (Bits 5175426328141668785) Success 0;
  fc F64 (txt "1e39") f_general 46 (Bits 5190260616003865117) Success 0;
  fc F64 (txt "1e40") f_general 46 (Bits 5205425776111082661) Success 0;
  fc F64 (txt "1e41") f_general 46 (Bits 5220338247323490791) Success 0;
  fc F64 (txt "1e42") f_general 46 (Bits 5235141515912716385) Success 0;
  fc F64 (txt "1e43") f_general 46 (Bits 5250267901928720505) Success 0;
  fc F64 (txt "1e44") f_general 46 (Bits 5265253074562153804) Success 0;
  fc F64 (txt "1e45") f_general 46 (Bits 5280026050892618910) Success 0;
  fc F64 (txt "1e46") f_general 46 (Bits 5295114571585172422) Success 0;
  fc F64 (txt "1e47") f_general 46 (Bits 5310170741700075612) Success 0;
  fc F64 (txt "1e48") f_general 46 (Bits 5324914135746594931) Success 0;
  fc F64 (txt "1e49") f_general 46 (Bits 5339965678584216207) Success 0;
  fc F64 (txt "1e50") f_general 46 (Bits 5355091182177117338) Success 0;
  fc F64 (txt "1e51") f_general 46 (Bits 5369805687274470848) Success 0;
  fc F64 (txt "1e52") f_general 46 (Bits 5384821118925634864) Success 0;
  fc F64 (txt "1e53") f_general 46 (Bits 5400014330993143358) Success 0;
  fc F64 (txt "1e54") f_general 46 (Bits 5414700624226077134) Success 0;
  fc F64 (txt "1e55") f_general 46 (Bits 5429680791046716481) Success 0;
  fc F64 (txt "1e56") f_general 46 (Bits 5444940124671458729) Success 0;
  fc F64 (txt "1e57") f_general 46 (Bits 5459598867255545107) Success 0;
  fc F64 (txt "1e58") f_general 46 (Bits 5474544595765125207) Success 0;
  fc F64 (txt "1e59") f_general 46 (Bits 5489849056681572461) Success 0;
  fc F64 (txt "1e60") f_general 46 (Bits 5504500338876674884) Success 0;
  fc F64 (txt "1e61") f_general 46 (Bits 5519412436223111189) Success 0;
  fc F64 (txt "1e62") f_general 46 (Bits 5534674858185628699) Success 0;
  fc F64 (txt "1e63") f_general 46 (Bits 5549404963419349393) Success 0;
  fc F64 (txt "1e64") f_general 46 (Bits 5564284217833028085) Success 0;
  fc F64 (txt "1e65") f_general 46 (Bits 5579505586129598578) Success 0;
  fc F64 (txt "1e66") f_general 46 (Bits 5594312666986969927) Success 0;
  fc F64 (txt "1e67") f_general 46 (Bits 5609159848224127513) Success 0;
  fc F64 (txt "1e68") f_general 46 (Bits 5624341125050046623) Success 0;
  fc F64 (txt "1e69") f_general 46 (Bits 5639223377414889316) Success 0;
  fc F64 (txt "1e70") f_general 46 (Bits 5654039237190600509) Success 0;
  fc F64 (txt "1e71") f_general 46 (Bits 5669181362189711628) Success 0;
  fc F64 (txt "1e72") f_general 46 (Bits 5684137024229819303) Success 0;
  fc F64 (txt "1e73") f_general 46 (Bits 5698922296640836753) Success 0;
  fc F64 (txt "1e74") f_general 46 (Bits 5714026187434080693) Success 0;
  fc F64 (txt "1e75") f_general 46 (Bits 5729053538610189329) Success 0;
  fc F64 (txt "1e76") f_general 46 (Bits 5743808940547873046) Success 0;
  fc F64 (txt "1e77") f_general 46 (Bits 5758875493249449819) Success 0;
  fc F64 (txt "1e78") f_general 46 (Bits 5773972853347434393) Success 0;
  fc F64 (txt "1e79") f_general 46 (Bits 5788699084901003135) Success 0;
  fc F64 (txt "1e80") f_general 46 (Bits 5803729174622436191) Success 0;
  fc F64 (txt "1e81") f_general 46 (Bits 5818894902808190235) Success 0;
  fc F64 (txt "1e82") f_general 46 (Bits 5833592647658521698) Success 0;
  fc F64 (txt "1e83") f_general 46 (Bits 5848587129000908155) Success 0;
  fc F64 (txt "1e84") f_general 46 (Bits 5863819622897374573) Success 0;
  fc F64 (txt "1e85") f_general 46 (Bits 5878489548701575880) Success 0;
  fc F64 (txt "1e86") f_general 46 (Bits 5893449256236299642) Success 0;
  fc F64 (txt "1e87") f_general 46 (Bits 5908746951022133612) Success 0;
  fc F64 (txt "1e88") f_general 46 (Bits 5923389709789098439) Success 0;
  fc F64 (txt "1e89") f_general 46 (Bits 5938315458527276601) Success 0;
  fc F64 (txt "1e90") f_general 46 (Bits 5953594944729471431) Success 0;
  fc F64 (txt "1e91") f_general 46 (Bits 5968293054513797149) Success 0;
  fc F64 (txt "1e92") f_general 46 (Bits 5983185640364723748) Success 0;
  fc F64 (txt "1e93") f_general 46 (Bits 5998423672957854125) Success 0;
  fc F64 (txt "1e94") f_general 46 (Bits 6013199508259175692) Success 0;
  fc F64 (txt "1e95") f_general 46 (Bits 6028059708478020687) Success 0;
  fc F64 (txt "1e96") f_general 46 (Bits 6043257259031049059) Success 0;
  fc F64 (txt "1e97") f_general 46 (Bits 6058108998157561886) Success 0;
  fc F64 (txt "1e98") f_general 46 (Bits 6072937571782577189) Success 0;
  fc F64 (txt "1e99") f_general 46 (Bits 6088095589093318446) Success 0;
  fc F64 (txt "1e100") f_general 46 (Bits 6103021453049119613) Success 0;
  fc F64 (txt "1e101") f_general 46 (Bits 6117819141328598108) Success 0;
  fc F64 (txt "1e102") f_general 46 (Bits 6132938551957418355) Success 0;
  fc F64 (txt "1e103") f_general 46 (Bits 6147936803441821416) Success 0;
  fc F64 (txt "1e104") f_general 46 (Bits 6162704330251049122) Success 0;
  fc F64 (txt "1e105") f_general 46 (Bits 6177786039042055882) Success 0;
  fc F64 (txt "1e106") f_general 46 (Bits 6192854981472359231) Success 0;
  fc F64 (txt "1e107") f_general 46 (Bits 6207593053720795150) Success 0;
  fc F64 (txt "1e108") f_general 46 (Bits 6222637944310812178) Success 0;
  fc F64 (txt "1e109") f_general 46 (Bits 6237775920867971275) Success 0;
  fc F64 (txt "1e110") f_general 46 (Bits 6252485228896883966) Success 0;
  fc F64 (txt "1e111") f_general 46 (Bits 6267494164212496957) Success 0;
  fc F64 (txt "1e112") f_general 46 (Bits 6282699556909163622) Success 0;
  fc F64 (txt "1e113") f_general 46 (Bits 6297380774879948160) Success 0;
  fc F64 (txt "1e114") f_general 46 (Bits 6312354597622900960) Success 0;
  fc F64 (txt "1e115") f_general 46 (Bits 6327625826393305484) Success 0;
  fc F64 (txt "1e116") f_general 46 (Bits 6342279612666699247) Success 0;
  fc F64 (txt "1e117") f_general 46 (Bits 6357219145787913579) Success 0;
  fc F64 (txt "1e118") f_general 46 (Bits 6372515862468903621) Success 0;
  fc F64 (txt "1e119") f_general 46 (Bits 6387181665105488315) Success 0;
  fc F64 (txt "1e120") f_general 46 (Bits 6402087712267973674) Success 0;
  fc F64 (txt "1e121") f_general 46 (Bits 6417342571500552501) Success 0;
  fc F64 (txt "1e122") f_general 46 (Bits 6432086856852908225) Success 0;
  fc F64 (txt "1e123") f_general 46 (Bits 6446960202883822321) Success 0;
  fc F64 (txt "1e124") f_general 46 (Bits 6462174185701937069) Success 0;
  fc F64 (txt "1e125") f_general 46 (Bits 6476995114331412940) Success 0;
  fc F64 (txt "1e126") f_general 46 (Bits 6491836525663526975) Success 0;
  fc F64 (txt "1e127") f_general 46 (Bits 6507010590108141647) Success 0;
  fc F64 (txt "1e128") f_general 46 (Bits 6521906365687930162) Success 0;
  fc F64 (txt "1e129") f_general 46 (Bits 6536716590790747262) Success 0;
  fc F64 (txt "1e130") f_general 46 (Bits 6551851672448740766) Success 0;
  fc F64 (txt "1e131") f_general 46 (Bits 6566820540753443970) Success 0;
  fc F64 (txt "1e132") f_general 46 (Bits 6581600310554213283) Success 0;
  fc F64 (txt "1e133") f_general 46 (Bits 6596697323084647052) Success 0;
  fc F64 (txt "1e134") f_general 46 (Bits 6611737571003524759) Success 0;
  fc F64 (txt "1e135") f_general 46 (Bits 6626487599298388029) Success 0;
  fc F64 (txt "1e136") f_general 46 (Bits 6641547434946439245) Success 0;
  fc F64 (txt "1e137") f_general 46 (Bits 6656657389519784240) Success 0;
  fc F64 (txt "1e138") f_general 46 (Bits 6671378373375286140) Success 0;
  fc F64 (txt "1e139") f_general 46 (Bits 6686401903474135643) Success 0;
  fc F64 (txt "1e140") f_general 46 (Bits 6701579930952233849) Success 0;
  fc F64 (txt "1e141") f_general 46 (Bits 6716272551097421911) Success 0;
  fc F64 (txt "1e142") f_general 46 (Bits 6731260626558379117) Success 0;
  fc F64 (txt "1e143") f_general 46 (Bits 6746505131482525380) Success 0;
  fc F64 (txt "1e144") f_general 46 (Bits 6761170052691860085) Success 0;
  fc F64 (txt "1e145") f_general 46 (Bits 6776123504483000594) Success 0;
  fc F64 (txt "1e146") f_general 46 (Bits 6791432928788053163) Success 0;
  fc F64 (txt "1e147") f_general 46 (Bits 6806070800255343574) Success 0;
  fc F64 (txt "1e148") f_general 46 (Bits 6820990439868928716) Success 0;
  fc F64 (txt "1e149") f_general 46 (Bits 6836262289665382271) Success 0;
  fc F64 (txt "1e150") f_general 46 (Bits 6850974717710472879) Success 0;
  fc F64 (txt "1e151") f_general 46 (Bits 6865861337619414107) Success 0;
  fc F64 (txt "1e152") f_general 46 (Bits 6881091912785062770) Success 0;
  fc F64 (txt "1e153") f_general 46 (Bits 6895881730762912551) Success 0;
  fc F64 (txt "1e154") f_general 46 (Bits 6910736104866537457) Success 0;
  fc F64 (txt "1e155") f_general 46 (Bits 6925926372775540717) Success 0;
  fc F64 (txt "1e156") f_general 46 (Bits 6940791766859600628) Success 0;
  fc F64 (txt "1e157") f_general 46 (Bits 6955614650918971313) Success 0;
  fc F64 (txt "1e158") f_general 46 (Bits 6970765556272656797) Success 0;
  fc F64 (txt "1e159") f_general 46 (Bits 6985704755147937538) Success 0;
  fc F64 (txt "1e160") f_general 46 (Bits 7000496887210966211) Success 0;
  fc F64 (txt "1e161") f_general 46 (Bits 7015609352569224180) Success 0;
  fc F64 (txt "1e162") f_general 46 (Bits 7030620626435931512) Success 0;
  fc F64 (txt "1e163") f_general 46 (Bits 7045382727252532438) Success 0;
  fc F64 (txt "1e164") f_general 46 (Bits 7060457653552755724) Success 0;
  fc F64 (txt "1e165") f_general 46 (Bits 7075539313153278087) Success 0;
  fc F64 (txt "1e166") f_general 46 (Bits 7090272086580789417) Success 0;
  fc F64 (txt "1e167") f_general 46 (Bits 7105310353644650708) Success 0;
  fc F64 (txt "1e168") f_general 46 (Bits 7120460749313351812) Success 0;
  fc F64 (txt "1e169") f_general 46 (Bits 7135164882712455333) Success 0;
  fc F64 (txt "1e170") f_general 46 (Bits 7150167349740806863) Success 0;
  fc F64 (txt "1e171") f_general 46 (Bits 7165384870476088769) Success 0;
  fc F64 (txt "1e172") f_general 46 (Bits 7180061035097450290) Success 0;
  fc F64 (txt "1e173") f_general 46 (Bits 7195028541153624318) Success 0;
  fc F64 (txt "1e174") f_general 46 (Bits 7210311613711739039) Success 0;
  fc F64 (txt "1e175") f_general 46 (Bits 7224960465073586886) Success 0;
  fc F64 (txt "1e176") f_general 46 (Bits 7239893829555368824) Success 0;
  fc F64 (txt "1e177") f_general 46 (Bits 7255182835437068374) Success 0;
  fc F64 (txt "1e178") f_general 46 (Bits 7269863095822322742) Success 0;
  fc F64 (txt "1e179") f_general 46 (Bits 7284763118922862403) Success 0;
  fc F64 (txt "1e180") f_general 46 (Bits 7300010448078009108) Success 0;
  fc F64 (txt "1e181") f_general 46 (Bits 7314768852325550060) Success 0;
  fc F64 (txt "1e182") f_general 46 (Bits 7329636315483470312) Success 0;
  fc F64 (txt "1e183") f_general 46 (Bits 7344842944710342753) Success 0;
  fc F64 (txt "1e184") f_general 46 (Bits 7359677661323397949) Success 0;
  fc F64 (txt "1e185") f_general 46 (Bits 7374513327662353932) Success 0;
  fc F64 (txt "1e186") f_general 46 (Bits 7389680210865521039) Success 0;
  fc F64 (txt "1e187") f_general 46 (Bits 7404589451273023737) Success 0;
  fc F64 (txt "1e188") f_general 46 (Bits 7419394066030959928) Success 0;
  fc F64 (txt "1e189") f_general 46 (Bits 7434522134757852294) Success 0;
  fc F64 (txt "1e190") f_general 46 (Bits 7449504152308370132) Success 0;
  fc F64 (txt "1e191") f_general 46 (Bits 7464278443256716681) Success 0;
  fc F64 (txt "1e192") f_general 46 (Bits 7479368607221621995) Success 0;
  fc F64 (txt "1e193") f_general 46 (Bits 7494421696200865555) Success 0;
  fc F64 (txt "1e194") f_general 46 (Bits 7509166374053909719) Success 0;
  fc F64 (txt "1e195") f_general 46 (Bits 7524219521649687053) Success 0;
  fc F64 (txt "1e196") f_general 46 (Bits 7539342016321045576) Success 0;
  fc F64 (txt "1e197") f_general 46 (Bits 7554057775135708506) Success 0;
  fc F64 (txt "1e198") f_general 46 (Bits 7569074773933509297) Success 0;
  fc F64 (txt "1e199") f_general 46 (Bits 7584265047601073839) Success 0;
  fc F64 (txt "1e200") f_general 46 (Bits 7598952565167317594) Success 0;
  fc F64 (txt "1e201") f_general 46 (Bits 7613934262404594417) Success 0;
  fc F64 (txt "1e202") f_general 46 (Bits 7629190726498141398) Success 0;
  fc F64 (txt "1e203") f_general 46 (Bits 7643850664720225804) Success 0;
  fc F64 (txt "1e204") f_general 46 (Bits 7658797887777303439) Success 0;
  fc F64 (txt "1e205") f_general 46 (Bits 7674104216878122611) Success 0;
  fc F64 (txt "1e206") f_general 46 (Bits 7688751996227527688) Success 0;
  fc F64 (txt "1e207") f_general 46 (Bits 7703665553093004554) Success 0;
  fc F64 (txt "1e208") f_general 46 (Bits 7718929799454322764) Success 0;
  fc F64 (txt "1e209") f_general 46 (Bits 7733656483940292144) Success 0;
  fc F64 (txt "1e210") f_general 46 (Bits 7748537163665533883) Success 0;
  fc F64 (txt "1e211") f_general 46 (Bits 7763760313601558186) Success 0;
  fc F64 (txt "1e212") f_general 46 (Bits 7778564053884953642) Success 0;
  fc F64 (txt "1e213") f_general 46 (Bits 7793412627027934517) Success 0;
  fc F64 (txt "1e214") f_general 46 (Bits 7808595643736132738) Success 0;
  fc F64 (txt "1e215") f_general 46 (Bits 7823474633821702097) Success 0;
  fc F64 (txt "1e216") f_general 46 (Bits 7838291852880443846) Success 0;
  fc F64 (txt "1e217") f_general 46 (Bits 7853435676983343159) Success 0;
  fc F64 (txt "1e218") f_general 46 (Bits 7868388153203847971) Success 0;
  fc F64 (txt "1e219") f_general 46 (Bits 7883174753039699947) Success 0;
  fc F64 (txt "1e220") f_general 46 (Bits 7898280303113987046) Success 0;
  fc F64 (txt "1e221") f_general 46 (Bits 7913304543138139760) Success 0;
  fc F64 (txt "1e222") f_general 46 (Bits 7928061241389138444) Success 0;
  fc F64 (txt "1e223") f_general 46 (Bits 7943129414482358927) Success 0;
  fc F64 (txt "1e224") f_general 46 (Bits 7958223736346011545) Success 0;
  fc F64 (txt "1e225") f_general 46 (Bits 7972951233830551935) Success 0;
  fc F64 (txt "1e226") f_general 46 (Bits 7987982905965699551) Success 0;
  fc F64 (txt "1e227") f_general 46 (Bits 8003145667125738796) Success 0;
  fc F64 (txt "1e228") f_general 46 (Bits 8017844648236784758) Success 0;
  fc F64 (txt "1e229") f_general 46 (Bits 8032840674905064340) Success 0;
  fc F64 (txt "1e230") f_general 46 (Bits 8048070271315481149) Success 0;
  fc F64 (txt "1e231") f_general 46 (Bits 8062741404405536460) Success 0;
  fc F64 (txt "1e232") f_general 46 (Bits 8077702621047577727) Success 0;
  fc F64 (txt "1e233") f_general 46 (Bits 8092997486257191375) Success 0;
  fc F64 (txt "1e234") f_general 46 (Bits 8107641424014248003) Success 0;
  fc F64 (txt "1e235") f_general 46 (Bits 8122568646490040916) Success 0;
  fc F64 (txt "1e236") f_general 46 (Bits 8137849974864254185) Success 0;
  fc F64 (txt "1e237") f_general 46 (Bits 8152544630576045329) Success 0;
  fc F64 (txt "1e238") f_general 46 (Bits 8167438655623861334) Success 0;
  fc F64 (txt "1e239") f_general 46 (Bits 8182678487213103467) Success 0;
  fc F64 (txt "1e240") f_general 46 (Bits 8197450949396715491) Success 0;
  fc F64 (txt "1e241") f_general 46 (Bits 8212312555081272796) Success 0;
  fc F64 (txt "1e242") f_general 46 (Bits 8227511862466441555) Success 0;
  fc F64 (txt "1e243") f_general 46 (Bits 8242360307532691156) Success 0;
  fc F64 (txt "1e244") f_general 46 (Bits 8257190253682816137) Success 0;
  fc F64 (txt "1e245") f_general 46 (Bits 8272349986649944491) Success 0;
  fc F64 (txt "1e246") f_general 46 (Bits 8287272633750019851) Success 0;
  fc F64 (txt "1e247") f_general 46 (Bits 8302071662386050765) Success 0;
  fc F64 (txt "1e248") f_general 46 (Bits 8317192748460561537) Success 0;
  fc F64 (txt "1e249") f_general 46 (Bits 8332187858484294864) Success 0;
  fc F64 (txt "1e250") f_general 46 (Bits 8346956694235468292) Success 0;
  fc F64 (txt "1e251") f_general 46 (Bits 8362040039203907206) Success 0;
  fc F64 (txt "1e252") f_general 46 (Bits 8377105913801525268) Success 0;
  fc F64 (txt "1e253") f_general 46 (Bits 8391845264313580056) Success 0;
  fc F64 (txt "1e254") f_general 46 (Bits 8406891752733120670) Success 0;
  fc F64 (txt "1e255") f_general 46 (Bits 8422026733359923043) Success 0;
  fc F64 (txt "1e256") f_general 46 (Bits 8436737289693151036) Success 0;
  fc F64 (txt "1e257") f_general 46 (Bits 8451747785389158155) Success 0;
  fc F64 (txt "1e258") f_general 46 (Bits 8466950252372585831) Success 0;
  fc F64 (txt "1e259") f_general 46 (Bits 8481632689390553280) Success 0;
  fc F64 (txt "1e260") f_general 46 (Bits 8496608035942484721) Success 0;
  fc F64 (txt "1e261") f_general 46 (Bits 8511876407571054294) Success 0;
  fc F64 (txt "1e262") f_general 46 (Bits 8526531384320212620) Success 0;
  fc F64 (txt "1e263") f_general 46 (Bits 8541472405536132655) Success 0;
  fc F64 (txt "1e264") f_general 46 (Bits 8556770982335504827) Success 0;
  fc F64 (txt "1e265") f_general 46 (Bits 8571433297250123029) Success 0;
  fc F64 (txt "1e266") f_general 46 (Bits 8586340797630094426) Success 0;
  fc F64 (txt "1e267") f_general 46 (Bits 8601597473384530800) Success 0;
  fc F64 (txt "1e268") f_general 46 (Bits 8616338352758403622) Success 0;
  fc F64 (txt "1e269") f_general 46 (Bits 8631213117947018928) Success 0;
  fc F64 (txt "1e270") f_general 46 (Bits 8646428874712260188) Success 0;
  fc F64 (txt "1e271") f_general 46 (Bits 8661246477190873849) Success 0;
  fc F64 (txt "1e272") f_general 46 (Bits 8676089274419180472) Success 0;
  fc F64 (txt "1e273") f_general 46 (Bits 8691265071234035877) Success 0;
  fc F64 (txt "1e274") f_general 46 (Bits 8706157598619623015) Success 0;
  fc F64 (txt "1e275") f_general 46 (Bits 8720969177136690689) Success 0;
  fc F64 (txt "1e276") f_general 46 (Bits 8736105950562497410) Success 0;
  fc F64 (txt "1e277") f_general 46 (Bits 8751071646802550833) Success 0;
  fc F64 (txt "1e278") f_general 46 (Bits 8765852738296924221) Success 0;
  fc F64 (txt "1e279") f_general 46 (Bits 8780951402944363085) Success 0;
  fc F64 (txt "1e280") f_general 46 (Bits 8795988553143856240) Success 0;
  fc F64 (txt "1e281") f_general 46 (Bits 8810739872155129740) Success 0;
  fc F64 (txt "1e282") f_general 46 (Bits 8825801321198693743) Success 0;
  fc F64 (txt "1e283") f_general 46 (Bits 8840908250655452261) Success 0;
  fc F64 (txt "1e284") f_general 46 (Bits 8855630494976198527) Success 0;
  fc F64 (txt "1e285") f_general 46 (Bits 8870655600656603486) Success 0;
  fc F64 (txt "1e286") f_general 46 (Bits 8885830673919285211) Success 0;
  fc F64 (txt "1e287") f_general 46 (Bits 8900524524987563474) Success 0;
  fc F64 (txt "1e288") f_general 46 (Bits 8915514139102383430) Success 0;
  fc F64 (txt "1e289") f_general 46 (Bits 8930755759050537036) Success 0;
  fc F64 (txt "1e290") f_general 46 (Bits 8945421882333202015) Success 0;
  fc F64 (txt "1e291") f_general 46 (Bits 8960376836716005366) Success 0;
  fc F64 (txt "1e292") f_general 46 (Bits 8975683443661690106) Success 0;
  fc F64 (txt "1e293") f_general 46 (Bits 8990322489028717112) Success 0;
  fc F64 (txt "1e294") f_general 46 (Bits 9005243596016972999) Success 0;
  fc F64 (txt "1e295") f_general 46 (Bits 9020517280031764984) Success 0;
  fc F64 (txt "1e296") f_general 46 (Bits 9035226268917471035) Success 0;
  fc F64 (txt "1e297") f_general 46 (Bits 9050114321809489162) Success 0;
  fc F64 (txt "1e298") f_general 46 (Bits 9065346688203983948) Success 0;
  fc F64 (txt "1e299") f_general 46 (Bits 9080133147627747248) Success 0;
  fc F64 (txt "1e300") f_general 46 (Bits 9094988921128908188) Success 0;
  fc F64 (txt "1e301") f_general 46 (Bits 9110180938284831491) Success 0;
  fc F64 (txt "1e302") f_general 46 (Bits 9125043052530916322) Success 0;
  fc F64 (txt "1e303") f_general 46 (Bits 9139867303189443290) Success 0;
  fc F64 (txt "1e304") f_general 46 (Bits 9155019916792074128) Success 0;
  fc F64 (txt "1e305") f_general 46 (Bits 9169955912700582330) Success 0;
  fc F64 (txt "1e306") f_general 46 (Bits 9184749379333099561) Success 0;
  fc F64 (txt "1e307") f_general 46 (Bits 9199863512903218227) Success 0;
  fc F64 (txt "1e308") f_general 46 (Bits 9214871658872686752) Success 0].

(** string_test.cpp, test() *)
Definition string_test : list fcase := [
  fc F32 (txt "0.1 1e1000 100000 3.14159265359  -1e-500 001    1e01  1e0000001  -inf") f_general 46 (Bits 1036831949) Success 66;
  fc F32 (txt "1e1000 100000 3.14159265359  -1e-500 001    1e01  1e0000001  -inf") f_general 46 (Bits 2139095040) OutOfRange 59;
  fc F32 (txt "100000 3.14159265359  -1e-500 001    1e01  1e0000001  -inf") f_general 46 (Bits 1203982336) Success 52;
  fc F32 (txt "3.14159265359  -1e-500 001    1e01  1e0000001  -inf") f_general 46 (Bits 1078530011) Success 38;
  fc F32 (txt "-1e-500 001    1e01  1e0000001  -inf") f_general 46 (Bits 2147483648) OutOfRange 29;
  fc F32 (txt "001    1e01  1e0000001  -inf") f_general 46 (Bits 1065353216) Success 25;
  fc F32 (txt "1e01  1e0000001  -inf") f_general 46 (Bits 1092616192) Success 17;
  fc F32 (txt "1e0000001  -inf") f_general 46 (Bits 1092616192) Success 6;
  fc F32 (txt "-inf") f_general 46 (Bits 4286578688) Success 0;
  fc F64 (txt "0.1 1e1000 100000 3.14159265359  -1e-500 001    1e01  1e0000001  -inf") f_general 46 (Bits 4591870180066957722) Success 66;
  fc F64 (txt "1e1000 100000 3.14159265359  -1e-500 001    1e01  1e0000001  -inf") f_general 46 (Bits 9218868437227405312) OutOfRange 59;
  fc F64 (txt "100000 3.14159265359  -1e-500 001    1e01  1e0000001  -inf") f_general 46 (Bits 4681608360884174848) Success 52;
  fc F64 (txt "3.14159265359  -1e-500 001    1e01  1e0000001  -inf") f_general 46 (Bits 4614256656552046314) Success 38;
  fc F64 (txt "-1e-500 001    1e01  1e0000001  -inf") f_general 46 (Bits 9223372036854775808) OutOfRange 29;
  fc F64 (txt "001    1e01  1e0000001  -inf") f_general 46 (Bits 4607182418800017408) Success 25;
  fc F64 (txt "1e01  1e0000001  -inf") f_general 46 (Bits 4621819117588971520) Success 17;
  fc F64 (txt "1e0000001  -inf") f_general 46 (Bits 4621819117588971520) Success 6;
  fc F64 (txt "-inf") f_general 46 (Bits 18442240474082181120) Success 0].

(** long_test.cpp *)
Definition long_test : list fcase := [
  fc F32 (txt "0.156250000000000000000000000000000000000000  3.14159265358979323846264338327950288419716939937510 2.71828182845904523536028747135266249775724709369995") f_general 46 (Bits 1042284544) Success 107;
  fc F32 (txt "3.14159265358979323846264338327950288419716939937510 2.71828182845904523536028747135266249775724709369995") f_general 46 (Bits 1078530011) Success 53;
  fc F32 (txt "2.71828182845904523536028747135266249775724709369995") f_general 46 (Bits 1076754516) Success 0;
  fc F64 (txt "0.156250000000000000000000000000000000000000  3.14159265358979323846264338327950288419716939937510 2.71828182845904523536028747135266249775724709369995") f_general 46 (Bits 4594797519824748544) Success 107;
  fc F64 (txt "3.14159265358979323846264338327950288419716939937510 2.71828182845904523536028747135266249775724709369995") f_general 46 (Bits 4614256656552045848) Success 53;
  fc F64 (txt "2.71828182845904523536028747135266249775724709369995") f_general 46 (Bits 4613303445314885481) Success 0].

(** powersoffive_hardround.cpp: the ends and the middle of each range *)
Definition powers_of_five : list fcase := [
  fc F64 (txt "9010314941406250e-18") f_general 46 (Bits 4576347714710667264) Success 0;
  fc F64 (txt "9014129638671875e-18") f_general 46 (Bits 4576349913733922816) Success 0;
  fc F64 (txt "9227874755859375000e-18") f_general 46 (Bits 4621384449718747136) Success 0;
  fc F64 (txt "18446739196777343750e-18") f_general 46 (Bits 4625885513167929344) Success 0;
  fc F64 (txt "18446743011474609375e-18") f_general 46 (Bits 4625885514241671168) Success 0;
  fc F64 (txt "9021759033203125e-19") f_general 46 (Bits 4561460327270580224) Success 0;
  fc F64 (txt "9040832519531250e-19") f_general 46 (Bits 4561477919456624640) Success 0;
  fc F64 (txt "9227867126464843750e-19") f_general 46 (Bits 4606486943335710720) Success 0;
  fc F64 (txt "18446712493896484375e-19") f_general 46 (Bits 4610986479924019200) Success 0;
  fc F64 (txt "18446731567382812500e-19") f_general 46 (Bits 4610986488513953792) Success 0;
  fc F64 (txt "9059906005859375e-20") f_general 46 (Bits 4546313455086338048) Success 0;
  fc F64 (txt "9155273437500000e-20") f_general 46 (Bits 4546383823830515712) Success 0;
  fc F64 (txt "9227848052978515625e-20") f_general 46 (Bits 4591313785951617024) Success 0;
  fc F64 (txt "18446636199951171875e-20") f_general 46 (Bits 4595814121403842560) Success 0;
  fc F64 (txt "18446731567382812500e-20") f_general 46 (Bits 4595814155763580928) Success 0;
  fc F64 (txt "9059906005859375e-21") f_general 46 (Bits 4531465650064850944) Success 0;
  fc F64 (txt "9536743164062500e-21") f_general 46 (Bits 4531747125041561600) Success 0;
  fc F64 (txt "9227752685546875000e-21") f_general 46 (Bits 4576473059036233728) Success 0;
  fc F64 (txt "18445968627929687500e-21") f_general 46 (Bits 4580973909884534784) Success 0;
  fc F64 (txt "18446445465087890625e-21") f_general 46 (Bits 4580974047323488256) Success 0;
  fc F64 (txt "9536743164062500e-22") f_general 46 (Bits 4517110426252607488) Success 0;
  fc F64 (txt "11920928955078125e-22") f_general 46 (Bits 4518236326159450112) Success 0;
  fc F64 (txt "9226799011230468750e-22") f_general 46 (Bits 4561649443270557696) Success 0;
  fc F64 (txt "18444061279296875000e-22") f_general 46 (Bits 4566148644851417088) Success 0;
  fc F64 (txt "18446445465087890625e-22") f_general 46 (Bits 4566149744363044864) Success 0;
  fc F64 (txt "11920928955078125e-23") f_general 46 (Bits 4503599627370496000) Success 0;
  fc F64 (txt "23841857910156250e-23") f_general 46 (Bits 4508103226997866496) Success 0;
  fc F64 (txt "9226799011230468750e-23") f_general 46 (Bits 4546436600388648960) Success 0;
  fc F64 (txt "18429756164550781250e-23") f_general 46 (Bits 4550931403922997248) Success 0;
  fc F64 (txt "18441677093505859375e-23") f_general 46 (Bits 4550935801969508352) Success 0;
  fc F64 (txt "59604644775390625e-24") f_general 46 (Bits 4499096027743125504) Success 0;
  fc F64 (txt "119209289550781250e-24") f_general 46 (Bits 4503599627370496000) Success 0;
  fc F64 (txt "9238719940185546875e-24") f_general 46 (Bits 4531571203181117440) Success 0;
  fc F64 (txt "18358230590820312500e-24") f_general 46 (Bits 4536039618436399104) Success 0;
  fc F64 (txt "18417835235595703125e-24") f_general 46 (Bits 4536057210622443520) Success 0;
  fc F64 (txt "298023223876953125e-25") f_general 46 (Bits 4494592428115755008) Success 0;
  fc F64 (txt "596046447753906250e-25") f_general 46 (Bits 4499096027743125504) Success 0;
  fc F64 (txt "9238719940185546875e-25") f_general 46 (Bits 4516828951275896832) Success 0;
  fc F64 (txt "17881393432617187500e-25") f_general 46 (Bits 4521051075926556672) Success 0;
  fc F64 (txt "18179416656494140625e-25") f_general 46 (Bits 4521191813414912000) Success 0;
  fc F64 (txt "1490116119384765625e-26") f_general 46 (Bits 4490088828488384512) Success 0;
  fc F64 (txt "2980232238769531250e-26") f_general 46 (Bits 4494592428115755008) Success 0;
  fc F64 (txt "8940696716308593750e-26") f_general 46 (Bits 4501347827556810752) Success 0;
  fc F64 (txt "16391277313232421875e-26") f_general 46 (Bits 4505288477230759936) Success 0;
  fc F64 (txt "17881393432617187500e-26") f_general 46 (Bits 4505851427184181248) Success 0;
  fc F64 (txt "7450580596923828125e-27") f_general 46 (Bits 4485585228861014016) Success 0;
  fc F64 (txt "14901161193847656250e-27") f_general 46 (Bits 4490088828488384512) Success 0].

(** exhaustive32_midpoint.cpp: a few of its values, printed with 64 digits *)
Definition midpoints32 : list fcase := [
  fc F32 (txt "7.0064923216240853546186479164495806564013097093825788587853414194e-46") f_general 46 (Bits 0) OutOfRange 0;
  fc F32 (txt "2.1019476964872256063855943749348741969203929128147736576356024258e-45") f_general 46 (Bits 1) Success 0;
  fc F32 (txt "3.5032461608120426773093239582247903282006548546912894293926707097e-45") f_general 46 (Bits 2) Success 0;
  fc F32 (txt "1.1754942807573642917278829910357665133228589927589904276829631184e-38") f_general 46 (Bits 8388607) Success 0;
  fc F32 (txt "1.1754944208872107242095900834087248423144721207851846153345402941e-38") f_general 46 (Bits 8388608) Success 0;
  fc F32 (txt "1.1754945610170571566912971757816831713060852488113788029861174698e-38") f_general 46 (Bits 8388609) Success 0;
  fc F32 (txt "1.0000000596046447753906250000000000000000000000000000000000000000e+00") f_general 46 (Bits 1065353216) Success 0;
  fc F32 (txt "1.0000001788139343261718750000000000000000000000000000000000000000e+00") f_general 46 (Bits 1065353218) Success 0;
  fc F32 (txt "1.6777215500000000000000000000000000000000000000000000000000000000e+07") f_general 46 (Bits 1266679808) Success 0;
  fc F32 (txt "3.4028233649732405798586897151089128243200000000000000000000000000e+38") f_general 46 (Bits 2139095038) Success 0;
  fc F32 (txt "2.9988166888434917343194033413121276776669182507143686051375407441e-38") f_general 46 (Bits 19088744) Success 0;
  fc F32 (txt "3.3550203901947656115467566451115999370813369750976562500000000000e-13") f_general 46 (Bits 717020912) Success 0;
  fc F32 (txt "3.6893494744488869888000000000000000000000000000000000000000000000e+19") f_general 46 (Bits 1610612738) Success 0].

(** example_test.cpp, example_comma_test.cpp, p2497.cpp, supported_chars_test.cpp, fixedwidthtest.cpp, wide_char_test.cpp (unaltered texts) *)
Definition examples : list fcase := [
  fc F64 (txt "3.1416 xyz ") f_general 46 (Bits 4614256673094690983) Success 5;
  fc F64 (txt "3,1416 xyz ") f_general 44 (Bits 4614256673094690983) Success 5;
  fc F64 (txt "3e-1000") f_general 46 (Bits 0) OutOfRange 0;
  fc F64 (txt "3e1000") f_general 46 (Bits 9218868437227405312) OutOfRange 0;
  fc F64 (txt "3.1415 input") f_general 46 (Bits 4614256447914709615) Success 6;
  fc F16 (txt "10000e-1452") f_general 46 (Bits 0) OutOfRange 0;
  fc F64 (txt "4.2") f_general 46 (Bits 4616414798036126925) Success 0;
  fc F32 (txt "123.456") f_general 46 (Bits 1123477881) Success 0;
  fc F32 (txt "-78.9") f_general 46 (Bits 3265121485) Success 0;
  fc F32 (txt "0.0001") f_general 46 (Bits 953267991) Success 0;
  fc F32 (txt "3.40282e+038") f_general 46 (Bits 2139095022) Success 0;
  fc F64 (txt "1.23e4") f_general 46 (Bits 4667987610839285760) Success 0;
  fc F64 (txt "-5.67e-8") f_general 46 (Bits 13722029127089679004) Success 0;
  fc F64 (txt "1.7976931348623157e+308") f_general 46 (Bits 9218868437227405311) Success 0;
  fc F64 (txt "-1.7976931348623157e+308") f_general 46 (Bits 18442240474082181119) Success 0;
  fc F64 (txt "-42") f_general 46 (Bits 13854479828675198976) Success 0;
  fc F64 (txt "+42") (Z.lor f_general f_allow_leading_plus) 46 (Bits 4631107791820423168) Success 0;
  fc F64 (txt " 42") (Z.lor f_general f_skip_white_space) 46 (Bits 4631107791820423168) Success 0;
  fc F64 (txt "nan") f_general 46 (AnyNan) Success 0].

(** wide_char_test.cpp: the same texts with 256 added to the first unit are refused. *)
Definition wide_altered : list (list Z * Z) := [
  ([301; 52; 50], f_general);
  ([299; 52; 50], (Z.lor f_general f_allow_leading_plus));
  ([288; 52; 50], (Z.lor f_general f_skip_white_space));
  ([366; 97; 110], f_general)].

(** rcppfastfloat_test.cpp, expected_success *)
Definition rcpp_accepted : list fcase := [
  fc F64 (txt "infinity") (Z.lor f_general (Z.lor f_allow_leading_plus f_skip_white_space)) 46 (Bits 9218868437227405312) Success 0;
  fc F64 ([32; 13; 10; 9; 12; 11; 51; 46; 49; 54; 50; 50; 55; 55; 54; 54; 48; 49; 54; 56; 51; 56; 32; 13; 10; 9; 12; 11]) (Z.lor f_general (Z.lor f_allow_leading_plus f_skip_white_space)) 46 (Bits 4614303235046005588) Success 6;
  fc F64 ([32; 13; 10; 9; 12; 11; 51; 32; 13; 10; 9; 12; 11]) (Z.lor f_general (Z.lor f_allow_leading_plus f_skip_white_space)) 46 (Bits 4613937818241073152) Success 6;
  fc F64 (txt "-NaN") (Z.lor f_general (Z.lor f_allow_leading_plus f_skip_white_space)) 46 (AnyNan) Success 0;
  fc F64 (txt "-inf") (Z.lor f_general (Z.lor f_allow_leading_plus f_skip_white_space)) 46 (Bits 18442240474082181120) Success 0;
  fc F64 ([32; 13; 10; 9; 12; 11; 50; 46; 56; 50; 56; 52; 50; 55; 49; 50; 52; 55; 52; 54; 49; 57; 32; 13; 10; 9; 12; 11]) (Z.lor f_general (Z.lor f_allow_leading_plus f_skip_white_space)) 46 (Bits 4613551470472543180) Success 6;
  fc F64 (txt "nan") (Z.lor f_general (Z.lor f_allow_leading_plus f_skip_white_space)) 46 (AnyNan) Success 0;
  fc F64 ([32; 13; 10; 9; 12; 11; 50; 46; 52; 52; 57; 52; 56; 57; 55; 52; 50; 55; 56; 51; 49; 56; 32; 13; 10; 9; 12; 11]) (Z.lor f_general (Z.lor f_allow_leading_plus f_skip_white_space)) 46 (Bits 4612698179346440499) Success 6;
  fc F64 (txt "Inf") (Z.lor f_general (Z.lor f_allow_leading_plus f_skip_white_space)) 46 (Bits 9218868437227405312) Success 0;
  fc F64 ([32; 13; 10; 9; 12; 11; 50; 32; 13; 10; 9; 12; 11]) (Z.lor f_general (Z.lor f_allow_leading_plus f_skip_white_space)) 46 (Bits 4611686018427387904) Success 6;
  fc F64 (txt "-infinity") (Z.lor f_general (Z.lor f_allow_leading_plus f_skip_white_space)) 46 (Bits 18442240474082181120) Success 0;
  fc F64 ([32; 13; 10; 9; 12; 11; 48; 32; 13; 10; 9; 12; 11]) (Z.lor f_general (Z.lor f_allow_leading_plus f_skip_white_space)) 46 (Bits 0) Success 6;
  fc F64 ([32; 13; 10; 9; 12; 11; 49; 46; 55; 51; 50; 48; 53; 48; 56; 48; 55; 53; 54; 56; 56; 56; 32; 13; 10; 9; 12; 11]) (Z.lor f_general (Z.lor f_allow_leading_plus f_skip_white_space)) 46 (Bits 4610479282544200887) Success 6;
  fc F64 ([32; 13; 10; 9; 12; 11; 49; 32; 13; 10; 9; 12; 11]) (Z.lor f_general (Z.lor f_allow_leading_plus f_skip_white_space)) 46 (Bits 4607182418800017408) Success 6;
  fc F64 ([32; 13; 10; 9; 12; 11; 49; 46; 52; 49; 52; 50; 49; 51; 53; 54; 50; 51; 55; 51; 49; 32; 13; 10; 9; 12; 11]) (Z.lor f_general (Z.lor f_allow_leading_plus f_skip_white_space)) 46 (Bits 4609047870845172707) Success 6;
  fc F64 ([32; 13; 10; 9; 12; 11; 50; 46; 50; 51; 54; 48; 54; 55; 57; 55; 55; 52; 57; 57; 55; 57; 32; 13; 10; 9; 12; 11]) (Z.lor f_general (Z.lor f_allow_leading_plus f_skip_white_space)) 46 (Bits 4612217596255138984) Success 6;
  fc F64 ([32; 13; 10; 9; 12; 11; 50; 46; 54; 52; 53; 55; 53; 49; 51; 49; 49; 48; 54; 52; 53; 57; 32; 13; 10; 9; 12; 11]) (Z.lor f_general (Z.lor f_allow_leading_plus f_skip_white_space)) 46 (Bits 4613140121109330152) Success 6;
  fc F64 (txt "inf") (Z.lor f_general (Z.lor f_allow_leading_plus f_skip_white_space)) 46 (Bits 9218868437227405312) Success 0;
  fc F64 (txt "-nan") (Z.lor f_general (Z.lor f_allow_leading_plus f_skip_white_space)) 46 (AnyNan) Success 0;
  fc F64 (txt "NaN") (Z.lor f_general (Z.lor f_allow_leading_plus f_skip_white_space)) 46 (AnyNan) Success 0;
  fc F64 (txt "-Inf") (Z.lor f_general (Z.lor f_allow_leading_plus f_skip_white_space)) 46 (Bits 18442240474082181120) Success 0;
  fc F64 (txt "+2.2") (Z.lor f_general (Z.lor f_allow_leading_plus f_skip_white_space)) 46 (Bits 4612136378390124954) Success 0;
  fc F64 (txt "0.") (Z.lor f_general (Z.lor f_allow_leading_plus f_skip_white_space)) 46 (Bits 0) Success 0;
  fc F64 (txt "-.1") (Z.lor f_general (Z.lor f_allow_leading_plus f_skip_white_space)) 46 (Bits 13815242216921733530) Success 0;
  fc F64 (txt "+.1") (Z.lor f_general (Z.lor f_allow_leading_plus f_skip_white_space)) 46 (Bits 4591870180066957722) Success 0;
  fc F64 (txt "1e+1") (Z.lor f_general (Z.lor f_allow_leading_plus f_skip_white_space)) 46 (Bits 4621819117588971520) Success 0;
  fc F64 (txt "+1e1") (Z.lor f_general (Z.lor f_allow_leading_plus f_skip_white_space)) 46 (Bits 4621819117588971520) Success 0].

(** rcppfastfloat_test.cpp, not expected_success: an error, or something other than space is left. *)
Definition rcpp_refused : list (list Z) := [
  txt "  1970-01-01";
  txt "1970-01-02  ";
  txt "";
  txt "1d+4";
  txt "1d-1";
  txt "-+0";
  txt "-+inf";
  txt "-+nan"].

(** json_fmt.cpp, accept *)
Definition json_accepted : list fcase := [
  fc F64 (txt "-0.2") f_json_or_infnan 46 (Bits 13819745816549104026) Success 0;
  fc F64 (txt "0.02") f_json_or_infnan 46 (Bits 4581421828931458171) Success 0;
  fc F64 (txt "0.002") f_json_or_infnan 46 (Bits 4566758108544739836) Success 0;
  fc F64 (txt "1e+0000") f_json_or_infnan 46 (Bits 4607182418800017408) Success 0;
  fc F64 (txt "0e-2") f_json_or_infnan 46 (Bits 0) Success 0;
  fc F64 (txt "1e") f_json_or_infnan 46 (Bits 4607182418800017408) Success 1;
  fc F64 (txt "1e+") f_json_or_infnan 46 (Bits 4607182418800017408) Success 2;
  fc F64 (txt "inf") f_json_or_infnan 46 (Bits 9218868437227405312) Success 0].

(** json_fmt.cpp, reject: the reason and its position. *)
Definition json_rejected : list (list Z * parse_error * Z) := [
  (txt "-.2", Missing_integer_after_sign, 1);
  (txt "00.02", Leading_zeros_in_integer_part, 0);
  (txt "0.e+1", No_digits_in_fractional_part, 2);
  (txt "00.e+1", Leading_zeros_in_integer_part, 0);
  (txt ".25", No_digits_in_integer_part, 0);
  (txt "+0.25", No_digits_in_integer_part, 0);
  (txt "inf", No_digits_in_integer_part, 0);
  (txt "nan(snan)", No_digits_in_integer_part, 0)].

(** fortran.cpp *)
Definition fortran : list fcase := [
  fc F64 (txt "1+4") (Z.lor f_fortran f_allow_leading_plus) 46 (Bits 4666723172467343360) Success 0;
  fc F64 (txt "1d+4") (Z.lor f_fortran f_allow_leading_plus) 46 (Bits 4666723172467343360) Success 0;
  fc F64 (txt "+1+4") (Z.lor f_fortran f_allow_leading_plus) 46 (Bits 4666723172467343360) Success 0;
  fc F64 (txt "1+3") (Z.lor f_fortran f_allow_leading_plus) 46 (Bits 4652007308841189376) Success 0;
  fc F64 (txt "1d+3") (Z.lor f_fortran f_allow_leading_plus) 46 (Bits 4652007308841189376) Success 0;
  fc F64 (txt "+1+3") (Z.lor f_fortran f_allow_leading_plus) 46 (Bits 4652007308841189376) Success 0;
  fc F64 (txt "1+2") (Z.lor f_fortran f_allow_leading_plus) 46 (Bits 4636737291354636288) Success 0;
  fc F64 (txt "1d+2") (Z.lor f_fortran f_allow_leading_plus) 46 (Bits 4636737291354636288) Success 0;
  fc F64 (txt "+1+2") (Z.lor f_fortran f_allow_leading_plus) 46 (Bits 4636737291354636288) Success 0;
  fc F64 (txt "1+1") (Z.lor f_fortran f_allow_leading_plus) 46 (Bits 4621819117588971520) Success 0;
  fc F64 (txt "1d+1") (Z.lor f_fortran f_allow_leading_plus) 46 (Bits 4621819117588971520) Success 0;
  fc F64 (txt "+1+1") (Z.lor f_fortran f_allow_leading_plus) 46 (Bits 4621819117588971520) Success 0;
  fc F64 (txt "1+0") (Z.lor f_fortran f_allow_leading_plus) 46 (Bits 4607182418800017408) Success 0;
  fc F64 (txt "1d+0") (Z.lor f_fortran f_allow_leading_plus) 46 (Bits 4607182418800017408) Success 0;
  fc F64 (txt "+1+0") (Z.lor f_fortran f_allow_leading_plus) 46 (Bits 4607182418800017408) Success 0;
  fc F64 (txt "1-1") (Z.lor f_fortran f_allow_leading_plus) 46 (Bits 4591870180066957722) Success 0;
  fc F64 (txt "1d-1") (Z.lor f_fortran f_allow_leading_plus) 46 (Bits 4591870180066957722) Success 0;
  fc F64 (txt "+1-1") (Z.lor f_fortran f_allow_leading_plus) 46 (Bits 4591870180066957722) Success 0;
  fc F64 (txt "1-2") (Z.lor f_fortran f_allow_leading_plus) 46 (Bits 4576918229304087675) Success 0;
  fc F64 (txt "1d-2") (Z.lor f_fortran f_allow_leading_plus) 46 (Bits 4576918229304087675) Success 0;
  fc F64 (txt "+1-2") (Z.lor f_fortran f_allow_leading_plus) 46 (Bits 4576918229304087675) Success 0;
  fc F64 (txt "1-3") (Z.lor f_fortran f_allow_leading_plus) 46 (Bits 4562254508917369340) Success 0;
  fc F64 (txt "1d-3") (Z.lor f_fortran f_allow_leading_plus) 46 (Bits 4562254508917369340) Success 0;
  fc F64 (txt "+1-3") (Z.lor f_fortran f_allow_leading_plus) 46 (Bits 4562254508917369340) Success 0;
  fc F64 (txt "1-4") (Z.lor f_fortran f_allow_leading_plus) 46 (Bits 4547007122018943789) Success 0;
  fc F64 (txt "1d-4") (Z.lor f_fortran f_allow_leading_plus) 46 (Bits 4547007122018943789) Success 0;
  fc F64 (txt "+1-4") (Z.lor f_fortran f_allow_leading_plus) 46 (Bits 4547007122018943789) Success 0].

(** basictest.cpp, TEST_CASE("integer_times_pow10"); a mantissa of a narrower type is converted to 64 bits. *)
Definition pow10_cases : list (ftype * Z * Z * Z) := [
  (F64, 31, -1, 4614162998222441677);
  (F64, -31, -1, 13837535035077217485);
  (F64, 31415, -4, 4614256447914709615);
  (F64, -31415, -4, 13837628484769485423);
  (F64, 314159265, -8, 4614256656543962353);
  (F64, -314159265, -8, 13837628693398738161);
  (F64, 3141592653, -9, 4614256656550717752);
  (F64, 3141592653589793238, -18, 4614256656552045848);
  (F64, -3141592653589793238, -18, 13837628693406821656);
  (F32, 31, -1, 1078355558);
  (F32, -31, -1, 3225839206);
  (F32, 31415, -4, 1078529622);
  (F32, -31415, -4, 3226013270);
  (F32, 314159265, -8, 1078530011);
  (F32, -314159265, -8, 3226013659);
  (F32, 3141592653, -9, 1078530011);
  (F32, 3141592653589793238, -18, 1078530011);
  (F32, -3141592653589793238, -18, 3226013659);
  (F64, 0, 0, 0);
  (F32, 0, 0, 0);
  (F16, 0, 0, 0);
  (BF16, 0, 0, 0);
  (F64, 1, 0, 4607182418800017408);
  (F32, 1, 0, 1065353216);
  (F16, 1, 0, 15360);
  (BF16, 1, 0, 16256);
  (F64, 0, 1, 0);
  (F32, 0, 1, 0);
  (F16, 0, 1, 0);
  (BF16, 0, 1, 0);
  (F64, 1, 1, 4621819117588971520);
  (F32, 1, 1, 1092616192);
  (F16, 1, 1, 18688);
  (BF16, 1, 1, 16672);
  (F64, -1, 0, 13830554455654793216);
  (F32, -1, 0, 3212836864);
  (F16, -1, 0, 48128);
  (BF16, -1, 0, 49024);
  (F64, 0, -1, 0);
  (F32, 0, -1, 0);
  (F16, 0, -1, 0);
  (BF16, 0, -1, 0);
  (F64, -1, -1, 13815242216921733530);
  (F32, -1, -1, 3184315597);
  (F16, -1, -1, 44646);
  (BF16, -1, -1, 48589);
  (F64, -1, 1, 13845191154443747328);
  (F32, -1, 1, 3240099840);
  (F16, -1, 1, 51456);
  (BF16, -1, 1, 49440);
  (F64, 1, -1, 4591870180066957722);
  (F32, 1, -1, 1036831949);
  (F16, 1, -1, 11878);
  (BF16, 1, -1, 15821);
  (F64, 49406564584124654, -340, 1);
  (F32, 14012984, -52, 1);
  (F64, 22250738585072014, -324, 4503599627370496);
  (F32, 11754944, -45, 8388608);
  (F64, 17976931348623158, 292, 9218868437227405311);
  (F32, 34028235, 31, 2139095039);
  (F64, 24703282292062327, -340, 0);
  (F32, 7006492, -52, 0);
  (F64, 24703282292062328, -340, 1);
  (F32, 7006493, -52, 1);
  (F64, 17976931348623159, 292, 9218868437227405312);
  (F64, 179769313486231581, 291, 9218868437227405312);
  (F32, 34028236, 31, 2139095040);
  (F32, 340282357, 30, 2139095040);
  (F64, 1, 42, 5235141515912716385);
  (F32, 1, 42, 2139095040);
  (F16, 1, 42, 31744);
  (BF16, 1, 42, 32640);
  (F64, 1, -42, 3978451973076164153);
  (F32, 1, -42, 714);
  (F16, 1, -42, 0);
  (BF16, 1, -42, 0);
  (F64, 12, 42, 5251540327288305737);
  (F32, 12, 42, 2139095040);
  (F16, 12, 42, 31744);
  (BF16, 12, 42, 32640);
  (F64, 12, -42, 3994897096151799467);
  (F32, 12, -42, 8563);
  (F16, 12, -42, 0);
  (BF16, 12, -42, 0);
  (F64, 123, 42, 5266414277814639133);
  (F32, 123, 42, 2139095040);
  (F16, 123, 42, 31744);
  (BF16, 123, 42, 32640);
  (F64, 123, -42, 4009731971181219083);
  (F32, 123, -42, 87776);
  (F16, 123, -42, 0);
  (BF16, 123, -42, 1);
  (F64, 1234, 42, 5281502798507192645);
  (F32, 1234, 42, 2139095040);
  (F16, 1234, 42, 31744);
  (BF16, 1234, 42, 32640);
  (F64, 1234, -42, 4024775265604196459);
  (F32, 1234, -42, 880612);
  (F16, 1234, -42, 0);
  (BF16, 1234, -42, 13);
  (F64, 12345, 42, 5296598806097809495);
  (F32, 12345, 42, 2139095040);
  (F16, 12345, 42, 31744);
  (BF16, 12345, 42, 32640);
  (F64, 12345, -42, 4039954930486961765);
  (F32, 12345, -42, 8809686);
  (F16, 12345, -42, 0);
  (BF16, 12345, -42, 134);
  (F64, 123456, 42, 5311327211787129615);
  (F32, 123456, 42, 2139095040);
  (F16, 123456, 42, 31744);
  (BF16, 123456, 42, 32640);
  (F64, 123456, -42, 4054648432802736503);
  (F32, 123456, -42, 36178467);
  (F16, 123456, -42, 0);
  (BF16, 123456, -42, 552);
  (F64, 1234567, 42, 5326359766496243189);
  (F32, 1234567, 42, 2139095040);
  (F16, 1234567, 42, 31744);
  (BF16, 1234567, 42, 32640);
  (F64, 1234567, -42, 4069637365538188087);
  (F32, 1234567, -42, 64097530);
  (F16, 1234567, -42, 0);
  (BF16, 1234567, -42, 978);
  (F64, 12345678, 42, 5341520940622830304);
  (F32, 12345678, 42, 2139095040);
  (F16, 12345678, 42, 31744);
  (BF16, 12345678, 42, 32640);
  (F64, 12345678, -42, 4084880328922075163);
  (F32, 12345678, -42, 92489762);
  (F16, 12345678, -42, 0);
  (BF16, 12345678, -42, 1411);
  (F64, 123456789, 42, 5356220585485474166);
  (F32, 123456789, 42, 2139095040);
  (F16, 123456789, 42, 31744);
  (BF16, 123456789, 42, 32640);
  (F64, 1234567890, 42, 5371217441409916883);
  (F32, 1234567890, 42, 2139095040);
  (F16, 1234567890, 42, 31744);
  (BF16, 1234567890, 42, 32640);
  (F64, 1234567890, -42, 4114500152132416984);
  (F32, 1234567890, -42, 147660982);
  (F16, 1234567890, -42, 0);
  (BF16, 1234567890, -42, 2253);
  (F64, 12345678901, 42, 5386445482965403970);
  (F32, 12345678901, 42, 2139095040);
  (F16, 12345678901, 42, 31744);
  (BF16, 12345678901, 42, 32640);
  (F64, 12345678901, -42, 4129808066153317607);
  (F32, 12345678901, -42, 176174194);
  (F16, 12345678901, -42, 0);
  (BF16, 12345678901, -42, 2688);
  (F64, 123456789012, 42, 5401117263912024810);
  (F32, 123456789012, 42, 2139095040);
  (F16, 123456789012, 42, 31744);
  (BF16, 123456789012, 42, 32640);
  (F64, 123456789012, -42, 4144446566906006256);
  (F32, 123456789012, -42, 203440526);
  (F16, 123456789012, -42, 0);
  (BF16, 123456789012, -42, 3104);
  (F64, 1234567890123, 42, 5416079290374696581);
  (F32, 1234567890123, 42, 2139095040);
  (F16, 1234567890123, 42, 31744);
  (BF16, 1234567890123, 42, 32640);
  (F64, 1234567890123, -42, 4159366993126264979);
  (F32, 1234567890123, -42, 231231986);
  (F16, 1234567890123, -42, 0);
  (BF16, 1234567890123, -42, 3528);
  (F64, 12345678901234, 42, 5431372637170655953);
  (F32, 12345678901234, 42, 2139095040);
  (F16, 12345678901234, 42, 31744);
  (BF16, 12345678901234, 42, 32640);
  (F64, 12345678901234, -42, 4174639826181046238);
  (F32, 12345678901234, -42, 259679854);
  (F16, 12345678901234, -42, 0);
  (BF16, 12345678901234, -42, 3962);
  (F64, 123456789012345, 42, 5446017207600069738);
  (F32, 123456789012345, 42, 2139095040);
  (F16, 123456789012345, 42, 31744);
  (BF16, 123456789012345, 42, 32640);
  (F64, 123456789012345, -42, 4189350410616776906);
  (F32, 123456789012345, -42, 287080453);
  (F16, 123456789012345, -42, 0);
  (BF16, 123456789012345, -42, 4381);
  (F64, 1234567890123456, 42, 5460945220916308903);
  (F32, 1234567890123456, 42, 2139095040);
  (F16, 1234567890123456, 42, 31744);
  (BF16, 1234567890123456, 42, 32640);
  (F64, 1234567890123456, -42, 4204237798696284958);
  (F32, 1234567890123456, -42, 314810374);
  (F16, 1234567890123456, -42, 0);
  (BF16, 1234567890123456, -42, 4804);
  (F64, 12345678901234567, 42, 5476227537841079958);
  (F32, 12345678901234567, 42, 2139095040);
  (F16, 12345678901234567, 42, 31744);
  (BF16, 12345678901234567, 42, 32640);
  (F64, 12345678901234567, -42, 4219469334075142122);
  (F32, 12345678901234567, -42, 343181319);
  (F16, 12345678901234567, -42, 0);
  (BF16, 12345678901234567, -42, 5237);
  (F64, 123456789012345678, 42, 5490920340020575262);
  (F32, 123456789012345678, 42, 2139095040);
  (F16, 123456789012345678, 42, 31744);
  (BF16, 123456789012345678, 42, 32640);
  (F64, 123456789012345678, -42, 4234257351653225971);
  (F32, 123456789012345678, -42, 370726149);
  (F16, 123456789012345678, -42, 0);
  (BF16, 123456789012345678, -42, 5657);
  (F64, 1234567890123456789, 42, 5505815137373514534);
  (F32, 1234567890123456789, 42, 2139095040);
  (F16, 1234567890123456789, 42, 31744);
  (BF16, 1234567890123456789, 42, 32640);
  (F64, 1234567890123456789, -42, 4249112475923420015);
  (F32, 1234567890123456789, -42, 398395974);
  (F16, 1234567890123456789, -42, 0);
  (BF16, 1234567890123456789, -42, 6079);
  (F64, 12345678901234567890, 42, 5521055934344160751);
  (F32, 12345678901234567890, 42, 2139095040);
  (F16, 12345678901234567890, 42, 31744);
  (BF16, 12345678901234567890, 42, 32640);
  (F64, 12345678901234567890, -42, 4264303681540634699);
  (F32, 12345678901234567890, -42, 426691799);
  (F16, 12345678901234567890, -42, 0);
  (BF16, 12345678901234567890, -42, 6511);
  (F64, 9223372036854775807, 42, 5518868292437057633);
  (F32, 9223372036854775807, 42, 2139095040);
  (F16, 9223372036854775807, 42, 31744);
  (BF16, 9223372036854775807, 42, 32640);
  (F64, 9223372036854775807, -42, 4262178749600505401);
  (F32, 9223372036854775807, -42, 422733805);
  (F16, 9223372036854775807, -42, 0);
  (BF16, 9223372036854775807, -42, 6450);
  (F64, 18446744073709551615, 42, 5523371892064428129);
  (F32, 18446744073709551615, 42, 2139095040);
  (F16, 18446744073709551615, 42, 31744);
  (BF16, 18446744073709551615, 42, 32640);
  (F64, 18446744073709551615, -42, 4266682349227875897);
  (F32, 18446744073709551615, -42, 431122413);
  (F16, 18446744073709551615, -42, 0);
  (BF16, 18446744073709551615, -42, 6578)].

(** fast_int.cpp: the basic, error, pointer and base tests. *)
Definition int_cases : list icase := [
  ic int32_type (txt "0") (10) (Some (0)) Success (Some 0);
  ic int32_type (txt "10 ") (10) (Some (10)) Success (Some 1);
  ic int32_type (txt "-40") (10) (Some (-40)) Success (Some 0);
  ic int32_type (txt "1001 with text") (10) (Some (1001)) Success (Some 10);
  ic int32_type (txt "9.999") (10) (Some (9)) Success (Some 4);
  ic uint32_type (txt "0") (10) (Some (0)) Success (Some 0);
  ic uint32_type (txt "10 ") (10) (Some (10)) Success (Some 1);
  ic uint32_type (txt "1001 with text") (10) (Some (1001)) Success (Some 10);
  ic uint32_type (txt "9.999") (10) (Some (9)) Success (Some 4);
  ic int8_type (txt "0") (10) (Some (0)) Success (Some 0);
  ic int8_type (txt "10 ") (10) (Some (10)) Success (Some 1);
  ic int8_type (txt "40") (10) (Some (40)) Success (Some 0);
  ic int8_type (txt "100 with text") (10) (Some (100)) Success (Some 10);
  ic int8_type (txt "9.999") (10) (Some (9)) Success (Some 4);
  ic int16_type (txt "0") (10) (Some (0)) Success (Some 0);
  ic int16_type (txt "10 ") (10) (Some (10)) Success (Some 1);
  ic int16_type (txt "-40") (10) (Some (-40)) Success (Some 0);
  ic int16_type (txt "1001 with text") (10) (Some (1001)) Success (Some 10);
  ic int16_type (txt "9.999") (10) (Some (9)) Success (Some 4);
  ic int64_type (txt "0") (10) (Some (0)) Success (Some 0);
  ic int64_type (txt "10 ") (10) (Some (10)) Success (Some 1);
  ic int64_type (txt "-40") (10) (Some (-40)) Success (Some 0);
  ic int64_type (txt "1001 with text") (10) (Some (1001)) Success (Some 10);
  ic int64_type (txt "9.999") (10) (Some (9)) Success (Some 4);
  ic int64_type (txt "0") (10) (Some (0)) Success (Some 0);
  ic int64_type (txt "10 ") (10) (Some (10)) Success (Some 1);
  ic int64_type (txt "-40") (10) (Some (-40)) Success (Some 0);
  ic int64_type (txt "1001 with text") (10) (Some (1001)) Success (Some 10);
  ic int64_type (txt "9.999") (10) (Some (9)) Success (Some 4);
  ic uint8_type (txt "0") (10) (Some (0)) Success (Some 0);
  ic uint8_type (txt "10 ") (10) (Some (10)) Success (Some 1);
  ic uint8_type (txt "100 with text") (10) (Some (100)) Success (Some 10);
  ic uint8_type (txt "9.999") (10) (Some (9)) Success (Some 4);
  ic uint16_type (txt "0") (10) (Some (0)) Success (Some 0);
  ic uint16_type (txt "10 ") (10) (Some (10)) Success (Some 1);
  ic uint16_type (txt "1001 with text") (10) (Some (1001)) Success (Some 10);
  ic uint16_type (txt "9.999") (10) (Some (9)) Success (Some 4);
  ic uint64_type (txt "0") (10) (Some (0)) Success (Some 0);
  ic uint64_type (txt "10 ") (10) (Some (10)) Success (Some 1);
  ic uint64_type (txt "1001 with text") (10) (Some (1001)) Success (Some 10);
  ic uint64_type (txt "9.999") (10) (Some (9)) Success (Some 4);
  ic uint64_type (txt "0") (10) (Some (0)) Success (Some 0);
  ic uint64_type (txt "10 ") (10) (Some (10)) Success (Some 1);
  ic uint64_type (txt "1001 with text") (10) (Some (1001)) Success (Some 10);
  ic uint64_type (txt "9.999") (10) (Some (9)) Success (Some 4);
  ic bool_type (txt "0") (10) (Some (0)) Success (Some 0);
  ic bool_type (txt "1") (10) (Some (1)) Success (Some 0);
  ic int32_type (txt "text") (10) (None) InvalidArgument (None);
  ic int32_type (txt "text with 1002") (10) (None) InvalidArgument (None);
  ic int32_type (txt "+50") (10) (None) InvalidArgument (None);
  ic int32_type (txt " 50") (10) (None) InvalidArgument (None);
  ic uint32_type (txt "text") (10) (None) InvalidArgument (None);
  ic uint32_type (txt "text with 1002") (10) (None) InvalidArgument (None);
  ic uint32_type (txt "+50") (10) (None) InvalidArgument (None);
  ic uint32_type (txt " 50") (10) (None) InvalidArgument (None);
  ic uint32_type (txt "-50") (10) (None) InvalidArgument (None);
  ic int8_type (txt "2000000000000000000000") (10) (None) OutOfRange (None);
  ic int8_type (txt "128") (10) (None) OutOfRange (None);
  ic int8_type (txt "-129") (10) (None) OutOfRange (None);
  ic int16_type (txt "2000000000000000000000") (10) (None) OutOfRange (None);
  ic int16_type (txt "32768") (10) (None) OutOfRange (None);
  ic int16_type (txt "-32769") (10) (None) OutOfRange (None);
  ic int32_type (txt "2000000000000000000000") (10) (None) OutOfRange (None);
  ic int32_type (txt "2147483648") (10) (None) OutOfRange (None);
  ic int32_type (txt "-2147483649") (10) (None) OutOfRange (None);
  ic int64_type (txt "2000000000000000000000") (10) (None) OutOfRange (None);
  ic int64_type (txt "9223372036854775808") (10) (None) OutOfRange (None);
  ic int64_type (txt "-9223372036854775809") (10) (None) OutOfRange (None);
  ic uint8_type (txt "2000000000000000000000") (10) (None) OutOfRange (None);
  ic uint8_type (txt "256") (10) (None) OutOfRange (None);
  ic uint16_type (txt "2000000000000000000000") (10) (None) OutOfRange (None);
  ic uint16_type (txt "65536") (10) (None) OutOfRange (None);
  ic uint32_type (txt "2000000000000000000000") (10) (None) OutOfRange (None);
  ic uint32_type (txt "4294967296") (10) (None) OutOfRange (None);
  ic uint64_type (txt "2000000000000000000000") (10) (None) OutOfRange (None);
  ic uint64_type (txt "18446744073709551616") (10) (None) OutOfRange (None);
  ic int32_type (txt "0") (10) (Some (0)) Success (Some 0);
  ic int32_type (txt "010") (10) (Some (10)) Success (Some 0);
  ic int32_type (txt "-40") (10) (Some (-40)) Success (Some 0);
  ic int32_type (txt "0") (2) (Some (0)) Success (Some 0);
  ic int32_type (txt "1") (2) (Some (1)) Success (Some 0);
  ic int32_type (txt "100") (2) (Some (4)) Success (Some 0);
  ic int32_type (txt "010") (2) (Some (2)) Success (Some 0);
  ic int32_type (txt "-1") (2) (Some (-1)) Success (Some 0);
  ic uint32_type (txt "0") (2) (Some (0)) Success (Some 0);
  ic uint32_type (txt "1") (2) (Some (1)) Success (Some 0);
  ic uint32_type (txt "100") (2) (Some (4)) Success (Some 0);
  ic uint32_type (txt "010") (2) (Some (2)) Success (Some 0);
  ic int32_type (txt "2") (2) (None) InvalidArgument (None);
  ic int32_type (txt "A") (2) (None) InvalidArgument (None);
  ic int32_type (txt "-2") (2) (None) InvalidArgument (None);
  ic uint32_type (txt "2") (2) (None) InvalidArgument (None);
  ic uint32_type (txt "A") (2) (None) InvalidArgument (None);
  ic uint32_type (txt "-1") (2) (None) InvalidArgument (None);
  ic uint32_type (txt "-2") (2) (None) InvalidArgument (None);
  ic int32_type (txt "0") (8) (Some (0)) Success (Some 0);
  ic int32_type (txt "1") (8) (Some (1)) Success (Some 0);
  ic int32_type (txt "07") (8) (Some (7)) Success (Some 0);
  ic int32_type (txt "010") (8) (Some (8)) Success (Some 0);
  ic int32_type (txt "0011") (8) (Some (9)) Success (Some 0);
  ic int32_type (txt "0") (16) (Some (0)) Success (Some 0);
  ic int32_type (txt "1") (16) (Some (1)) Success (Some 0);
  ic int32_type (txt "F") (16) (Some (15)) Success (Some 0);
  ic int32_type (txt "01f") (16) (Some (31)) Success (Some 0);
  ic int32_type (txt "0x11") (16) (Some (0)) Success (Some 3);
  ic int32_type (txt "10X11") (16) (Some (16)) Success (Some 3);
  ic int32_type (txt "0") (-1) (None) InvalidArgument (None);
  ic int32_type (txt "1") (-1) (None) InvalidArgument (None);
  ic int32_type (txt "-1") (-1) (None) InvalidArgument (None);
  ic int32_type (txt "F") (-1) (None) InvalidArgument (None);
  ic int32_type (txt "10Z") (-1) (None) InvalidArgument (None);
  ic int32_type (txt "0") (37) (None) InvalidArgument (None);
  ic int32_type (txt "1") (37) (None) InvalidArgument (None);
  ic int32_type (txt "F") (37) (None) InvalidArgument (None);
  ic int32_type (txt "Z") (37) (None) InvalidArgument (None);
  ic int32_type (txt "10Z") (37) (None) InvalidArgument (None);
  ic int64_type (txt "1000000000000000000000000000000000000000000000000000000000000000") (2) (None) OutOfRange (None);
  ic int64_type (txt "-1000000000000000000000000000000000000000000000000000000000000001") (2) (None) OutOfRange (None);
  ic int64_type (txt "2021110011022210012102010021220101220222") (3) (None) OutOfRange (None);
  ic int64_type (txt "-2021110011022210012102010021220101221000") (3) (None) OutOfRange (None);
  ic int64_type (txt "20000000000000000000000000000000") (4) (None) OutOfRange (None);
  ic int64_type (txt "-20000000000000000000000000000001") (4) (None) OutOfRange (None);
  ic int64_type (txt "1104332401304422434310311213") (5) (None) OutOfRange (None);
  ic int64_type (txt "-1104332401304422434310311214") (5) (None) OutOfRange (None);
  ic int64_type (txt "1540241003031030222122212") (6) (None) OutOfRange (None);
  ic int64_type (txt "-1540241003031030222122213") (6) (None) OutOfRange (None);
  ic int64_type (txt "22341010611245052052301") (7) (None) OutOfRange (None);
  ic int64_type (txt "-22341010611245052052302") (7) (None) OutOfRange (None);
  ic int64_type (txt "1000000000000000000000") (8) (None) OutOfRange (None);
  ic int64_type (txt "-1000000000000000000001") (8) (None) OutOfRange (None);
  ic int64_type (txt "67404283172107811828") (9) (None) OutOfRange (None);
  ic int64_type (txt "-67404283172107811830") (9) (None) OutOfRange (None);
  ic int64_type (txt "9223372036854775808") (10) (None) OutOfRange (None);
  ic int64_type (txt "-9223372036854775809") (10) (None) OutOfRange (None);
  ic int64_type (txt "1728002635214590698") (11) (None) OutOfRange (None);
  ic int64_type (txt "-1728002635214590699") (11) (None) OutOfRange (None);
  ic int64_type (txt "41A792678515120368") (12) (None) OutOfRange (None);
  ic int64_type (txt "-41A792678515120369") (12) (None) OutOfRange (None);
  ic int64_type (txt "10B269549075433C38") (13) (None) OutOfRange (None);
  ic int64_type (txt "-10B269549075433C39") (13) (None) OutOfRange (None);
  ic int64_type (txt "4340724C6C71DC7A8") (14) (None) OutOfRange (None);
  ic int64_type (txt "-4340724C6C71DC7A9") (14) (None) OutOfRange (None);
  ic int64_type (txt "160E2AD3246366808") (15) (None) OutOfRange (None);
  ic int64_type (txt "-160E2AD3246366809") (15) (None) OutOfRange (None);
  ic int64_type (txt "8000000000000000") (16) (None) OutOfRange (None);
  ic int64_type (txt "-8000000000000001") (16) (None) OutOfRange (None);
  ic int64_type (txt "33D3D8307B214009") (17) (None) OutOfRange (None);
  ic int64_type (txt "-33D3D8307B21400A") (17) (None) OutOfRange (None);
  ic int64_type (txt "16AGH595DF825FA8") (18) (None) OutOfRange (None);
  ic int64_type (txt "-16AGH595DF825FA9") (18) (None) OutOfRange (None);
  ic int64_type (txt "BA643DCI0FFEEHI") (19) (None) OutOfRange (None);
  ic int64_type (txt "-BA643DCI0FFEEI0") (19) (None) OutOfRange (None);
  ic int64_type (txt "5CBFJIA3FH26JA8") (20) (None) OutOfRange (None);
  ic int64_type (txt "-5CBFJIA3FH26JA9") (20) (None) OutOfRange (None);
  ic int64_type (txt "2HEICIIIE82DH98") (21) (None) OutOfRange (None);
  ic int64_type (txt "-2HEICIIIE82DH99") (21) (None) OutOfRange (None);
  ic int64_type (txt "1ADAIBB21DCKFA8") (22) (None) OutOfRange (None);
  ic int64_type (txt "-1ADAIBB21DCKFA9") (22) (None) OutOfRange (None);
  ic int64_type (txt "I6K448CF4192C3") (23) (None) OutOfRange (None);
  ic int64_type (txt "-I6K448CF4192C4") (23) (None) OutOfRange (None);
  ic int64_type (txt "ACD772JNC9L0L8") (24) (None) OutOfRange (None);
  ic int64_type (txt "-ACD772JNC9L0L9") (24) (None) OutOfRange (None);
  ic int64_type (txt "64IE1FOCNN5G78") (25) (None) OutOfRange (None);
  ic int64_type (txt "-64IE1FOCNN5G79") (25) (None) OutOfRange (None);
  ic int64_type (txt "3IGOECJBMCA688") (26) (None) OutOfRange (None);
  ic int64_type (txt "-3IGOECJBMCA689") (26) (None) OutOfRange (None);
  ic int64_type (txt "27C48L5B37OAOQ") (27) (None) OutOfRange (None);
  ic int64_type (txt "-27C48L5B37OAP0") (27) (None) OutOfRange (None);
  ic int64_type (txt "1BK39F3AH3DMQ8") (28) (None) OutOfRange (None);
  ic int64_type (txt "-1BK39F3AH3DMQ9") (28) (None) OutOfRange (None);
  ic int64_type (txt "Q1SE8F0M04ISC") (29) (None) OutOfRange (None);
  ic int64_type (txt "-Q1SE8F0M04ISD") (29) (None) OutOfRange (None);
  ic int64_type (txt "HAJPPBC1FC208") (30) (None) OutOfRange (None);
  ic int64_type (txt "-HAJPPBC1FC209") (30) (None) OutOfRange (None);
  ic int64_type (txt "BM03I95HIA438") (31) (None) OutOfRange (None);
  ic int64_type (txt "-BM03I95HIA439") (31) (None) OutOfRange (None);
  ic int64_type (txt "8000000000000") (32) (None) OutOfRange (None);
  ic int64_type (txt "-8000000000001") (32) (None) OutOfRange (None);
  ic int64_type (txt "5HG4CK9JD4U38") (33) (None) OutOfRange (None);
  ic int64_type (txt "-5HG4CK9JD4U39") (33) (None) OutOfRange (None);
  ic int64_type (txt "3TDTK1V8J6TPQ") (34) (None) OutOfRange (None);
  ic int64_type (txt "-3TDTK1V8J6TPR") (34) (None) OutOfRange (None);
  ic int64_type (txt "2PIJMIKEXRXP8") (35) (None) OutOfRange (None);
  ic int64_type (txt "-2PIJMIKEXRXP9") (35) (None) OutOfRange (None);
  ic int64_type (txt "1Y2P0IJ32E8E8") (36) (None) OutOfRange (None);
  ic int64_type (txt "-1Y2P0IJ32E8E9") (36) (None) OutOfRange (None);
  ic uint64_type (txt "10000000000000000000000000000000000000000000000000000000000000000") (2) (None) OutOfRange (None);
  ic uint64_type (txt "11112220022122120101211020120210210211221") (3) (None) OutOfRange (None);
  ic uint64_type (txt "100000000000000000000000000000000") (4) (None) OutOfRange (None);
  ic uint64_type (txt "2214220303114400424121122431") (5) (None) OutOfRange (None);
  ic uint64_type (txt "3520522010102100444244424") (6) (None) OutOfRange (None);
  ic uint64_type (txt "45012021522523134134602") (7) (None) OutOfRange (None);
  ic uint64_type (txt "2000000000000000000000") (8) (None) OutOfRange (None);
  ic uint64_type (txt "145808576354216723757") (9) (None) OutOfRange (None);
  ic uint64_type (txt "18446744073709551616") (10) (None) OutOfRange (None);
  ic uint64_type (txt "335500516A429071285") (11) (None) OutOfRange (None);
  ic uint64_type (txt "839365134A2A240714") (12) (None) OutOfRange (None);
  ic uint64_type (txt "219505A9511A867B73") (13) (None) OutOfRange (None);
  ic uint64_type (txt "8681049ADB03DB172") (14) (None) OutOfRange (None);
  ic uint64_type (txt "2C1D56B648C6CD111") (15) (None) OutOfRange (None);
  ic uint64_type (txt "10000000000000000") (16) (None) OutOfRange (None);
  ic uint64_type (txt "67979G60F5428011") (17) (None) OutOfRange (None);
  ic uint64_type (txt "2D3FGB0B9CG4BD2G") (18) (None) OutOfRange (None);
  ic uint64_type (txt "141C8786H1CCAAGH") (19) (None) OutOfRange (None);
  ic uint64_type (txt "B53BJH07BE4DJ0G") (20) (None) OutOfRange (None);
  ic uint64_type (txt "5E8G4GGG7G56DIG") (21) (None) OutOfRange (None);
  ic uint64_type (txt "2L4LF104353J8KG") (22) (None) OutOfRange (None);
  ic uint64_type (txt "1DDH88H2782I516") (23) (None) OutOfRange (None);
  ic uint64_type (txt "L12EE5FN0JI1IG") (24) (None) OutOfRange (None);
  ic uint64_type (txt "C9C336O0MLB7EG") (25) (None) OutOfRange (None);
  ic uint64_type (txt "7B7N2PCNIOKCGG") (26) (None) OutOfRange (None);
  ic uint64_type (txt "4EO8HFAM6FLLMP") (27) (None) OutOfRange (None);
  ic uint64_type (txt "2NC6J26L66RHOG") (28) (None) OutOfRange (None);
  ic uint64_type (txt "1N3RSH11F098RO") (29) (None) OutOfRange (None);
  ic uint64_type (txt "14L9LKMO30O40G") (30) (None) OutOfRange (None);
  ic uint64_type (txt "ND075IB45K86G") (31) (None) OutOfRange (None);
  ic uint64_type (txt "G000000000000") (32) (None) OutOfRange (None);
  ic uint64_type (txt "B1W8P7J5Q9R6G") (33) (None) OutOfRange (None);
  ic uint64_type (txt "7ORP63SH4DPHI") (34) (None) OutOfRange (None);
  ic uint64_type (txt "5G24A25TWKWFG") (35) (None) OutOfRange (None);
  ic uint64_type (txt "3W5E11264SGSG") (36) (None) OutOfRange (None);
  ic int64_type (txt "111111111111111111111111111111111111111111111111111111111111111") (2) (Some (9223372036854775807)) Success (Some 0);
  ic int64_type (txt "-1000000000000000000000000000000000000000000000000000000000000000") (2) (Some (-9223372036854775808)) Success (Some 0);
  ic int64_type (txt "2021110011022210012102010021220101220221") (3) (Some (9223372036854775807)) Success (Some 0);
  ic int64_type (txt "-2021110011022210012102010021220101220222") (3) (Some (-9223372036854775808)) Success (Some 0);
  ic int64_type (txt "13333333333333333333333333333333") (4) (Some (9223372036854775807)) Success (Some 0);
  ic int64_type (txt "-20000000000000000000000000000000") (4) (Some (-9223372036854775808)) Success (Some 0);
  ic int64_type (txt "1104332401304422434310311212") (5) (Some (9223372036854775807)) Success (Some 0);
  ic int64_type (txt "-1104332401304422434310311213") (5) (Some (-9223372036854775808)) Success (Some 0);
  ic int64_type (txt "1540241003031030222122211") (6) (Some (9223372036854775807)) Success (Some 0);
  ic int64_type (txt "-1540241003031030222122212") (6) (Some (-9223372036854775808)) Success (Some 0);
  ic int64_type (txt "22341010611245052052300") (7) (Some (9223372036854775807)) Success (Some 0);
  ic int64_type (txt "-22341010611245052052301") (7) (Some (-9223372036854775808)) Success (Some 0);
  ic int64_type (txt "777777777777777777777") (8) (Some (9223372036854775807)) Success (Some 0);
  ic int64_type (txt "-1000000000000000000000") (8) (Some (-9223372036854775808)) Success (Some 0);
  ic int64_type (txt "67404283172107811827") (9) (Some (9223372036854775807)) Success (Some 0);
  ic int64_type (txt "-67404283172107811828") (9) (Some (-9223372036854775808)) Success (Some 0);
  ic int64_type (txt "9223372036854775807") (10) (Some (9223372036854775807)) Success (Some 0);
  ic int64_type (txt "-9223372036854775808") (10) (Some (-9223372036854775808)) Success (Some 0);
  ic int64_type (txt "1728002635214590697") (11) (Some (9223372036854775807)) Success (Some 0);
  ic int64_type (txt "-1728002635214590698") (11) (Some (-9223372036854775808)) Success (Some 0);
  ic int64_type (txt "41A792678515120367") (12) (Some (9223372036854775807)) Success (Some 0);
  ic int64_type (txt "-41A792678515120368") (12) (Some (-9223372036854775808)) Success (Some 0);
  ic int64_type (txt "10B269549075433C37") (13) (Some (9223372036854775807)) Success (Some 0);
  ic int64_type (txt "-10B269549075433C38") (13) (Some (-9223372036854775808)) Success (Some 0);
  ic int64_type (txt "4340724C6C71DC7A7") (14) (Some (9223372036854775807)) Success (Some 0);
  ic int64_type (txt "-4340724C6C71DC7A8") (14) (Some (-9223372036854775808)) Success (Some 0);
  ic int64_type (txt "160E2AD3246366807") (15) (Some (9223372036854775807)) Success (Some 0);
  ic int64_type (txt "-160E2AD3246366808") (15) (Some (-9223372036854775808)) Success (Some 0);
  ic int64_type (txt "7FFFFFFFFFFFFFFF") (16) (Some (9223372036854775807)) Success (Some 0);
  ic int64_type (txt "-8000000000000000") (16) (Some (-9223372036854775808)) Success (Some 0);
  ic int64_type (txt "33D3D8307B214008") (17) (Some (9223372036854775807)) Success (Some 0);
  ic int64_type (txt "-33D3D8307B214009") (17) (Some (-9223372036854775808)) Success (Some 0);
  ic int64_type (txt "16AGH595DF825FA7") (18) (Some (9223372036854775807)) Success (Some 0);
  ic int64_type (txt "-16AGH595DF825FA8") (18) (Some (-9223372036854775808)) Success (Some 0);
  ic int64_type (txt "BA643DCI0FFEEHH") (19) (Some (9223372036854775807)) Success (Some 0);
  ic int64_type (txt "-BA643DCI0FFEEHI") (19) (Some (-9223372036854775808)) Success (Some 0);
  ic int64_type (txt "5CBFJIA3FH26JA7") (20) (Some (9223372036854775807)) Success (Some 0);
  ic int64_type (txt "-5CBFJIA3FH26JA8") (20) (Some (-9223372036854775808)) Success (Some 0);
  ic int64_type (txt "2HEICIIIE82DH97") (21) (Some (9223372036854775807)) Success (Some 0);
  ic int64_type (txt "-2HEICIIIE82DH98") (21) (Some (-9223372036854775808)) Success (Some 0);
  ic int64_type (txt "1ADAIBB21DCKFA7") (22) (Some (9223372036854775807)) Success (Some 0);
  ic int64_type (txt "-1ADAIBB21DCKFA8") (22) (Some (-9223372036854775808)) Success (Some 0);
  ic int64_type (txt "I6K448CF4192C2") (23) (Some (9223372036854775807)) Success (Some 0);
  ic int64_type (txt "-I6K448CF4192C3") (23) (Some (-9223372036854775808)) Success (Some 0);
  ic int64_type (txt "ACD772JNC9L0L7") (24) (Some (9223372036854775807)) Success (Some 0);
  ic int64_type (txt "-ACD772JNC9L0L8") (24) (Some (-9223372036854775808)) Success (Some 0);
  ic int64_type (txt "64IE1FOCNN5G77") (25) (Some (9223372036854775807)) Success (Some 0);
  ic int64_type (txt "-64IE1FOCNN5G78") (25) (Some (-9223372036854775808)) Success (Some 0);
  ic int64_type (txt "3IGOECJBMCA687") (26) (Some (9223372036854775807)) Success (Some 0);
  ic int64_type (txt "-3IGOECJBMCA688") (26) (Some (-9223372036854775808)) Success (Some 0);
  ic int64_type (txt "27C48L5B37OAOP") (27) (Some (9223372036854775807)) Success (Some 0);
  ic int64_type (txt "-27C48L5B37OAOQ") (27) (Some (-9223372036854775808)) Success (Some 0);
  ic int64_type (txt "1BK39F3AH3DMQ7") (28) (Some (9223372036854775807)) Success (Some 0);
  ic int64_type (txt "-1BK39F3AH3DMQ8") (28) (Some (-9223372036854775808)) Success (Some 0);
  ic int64_type (txt "Q1SE8F0M04ISB") (29) (Some (9223372036854775807)) Success (Some 0);
  ic int64_type (txt "-Q1SE8F0M04ISC") (29) (Some (-9223372036854775808)) Success (Some 0);
  ic int64_type (txt "HAJPPBC1FC207") (30) (Some (9223372036854775807)) Success (Some 0);
  ic int64_type (txt "-HAJPPBC1FC208") (30) (Some (-9223372036854775808)) Success (Some 0);
  ic int64_type (txt "BM03I95HIA437") (31) (Some (9223372036854775807)) Success (Some 0);
  ic int64_type (txt "-BM03I95HIA438") (31) (Some (-9223372036854775808)) Success (Some 0);
  ic int64_type (txt "7VVVVVVVVVVVV") (32) (Some (9223372036854775807)) Success (Some 0);
  ic int64_type (txt "-8000000000000") (32) (Some (-9223372036854775808)) Success (Some 0);
  ic int64_type (txt "5HG4CK9JD4U37") (33) (Some (9223372036854775807)) Success (Some 0);
  ic int64_type (txt "-5HG4CK9JD4U38") (33) (Some (-9223372036854775808)) Success (Some 0);
  ic int64_type (txt "3TDTK1V8J6TPP") (34) (Some (9223372036854775807)) Success (Some 0);
  ic int64_type (txt "-3TDTK1V8J6TPQ") (34) (Some (-9223372036854775808)) Success (Some 0);
  ic int64_type (txt "2PIJMIKEXRXP7") (35) (Some (9223372036854775807)) Success (Some 0);
  ic int64_type (txt "-2PIJMIKEXRXP8") (35) (Some (-9223372036854775808)) Success (Some 0);
  ic int64_type (txt "1Y2P0IJ32E8E7") (36) (Some (9223372036854775807)) Success (Some 0);
  ic int64_type (txt "-1Y2P0IJ32E8E8") (36) (Some (-9223372036854775808)) Success (Some 0);
  ic uint64_type (txt "1111111111111111111111111111111111111111111111111111111111111111") (2) (Some (18446744073709551615)) Success (Some 0);
  ic uint64_type (txt "11112220022122120101211020120210210211220") (3) (Some (18446744073709551615)) Success (Some 0);
  ic uint64_type (txt "33333333333333333333333333333333") (4) (Some (18446744073709551615)) Success (Some 0);
  ic uint64_type (txt "2214220303114400424121122430") (5) (Some (18446744073709551615)) Success (Some 0);
  ic uint64_type (txt "3520522010102100444244423") (6) (Some (18446744073709551615)) Success (Some 0);
  ic uint64_type (txt "45012021522523134134601") (7) (Some (18446744073709551615)) Success (Some 0);
  ic uint64_type (txt "1777777777777777777777") (8) (Some (18446744073709551615)) Success (Some 0);
  ic uint64_type (txt "145808576354216723756") (9) (Some (18446744073709551615)) Success (Some 0);
  ic uint64_type (txt "18446744073709551615") (10) (Some (18446744073709551615)) Success (Some 0);
  ic uint64_type (txt "335500516A429071284") (11) (Some (18446744073709551615)) Success (Some 0);
  ic uint64_type (txt "839365134A2A240713") (12) (Some (18446744073709551615)) Success (Some 0);
  ic uint64_type (txt "219505A9511A867B72") (13) (Some (18446744073709551615)) Success (Some 0);
  ic uint64_type (txt "8681049ADB03DB171") (14) (Some (18446744073709551615)) Success (Some 0);
  ic uint64_type (txt "2C1D56B648C6CD110") (15) (Some (18446744073709551615)) Success (Some 0);
  ic uint64_type (txt "FFFFFFFFFFFFFFFF") (16) (Some (18446744073709551615)) Success (Some 0);
  ic uint64_type (txt "67979G60F5428010") (17) (Some (18446744073709551615)) Success (Some 0);
  ic uint64_type (txt "2D3FGB0B9CG4BD2F") (18) (Some (18446744073709551615)) Success (Some 0);
  ic uint64_type (txt "141C8786H1CCAAGG") (19) (Some (18446744073709551615)) Success (Some 0);
  ic uint64_type (txt "B53BJH07BE4DJ0F") (20) (Some (18446744073709551615)) Success (Some 0);
  ic uint64_type (txt "5E8G4GGG7G56DIF") (21) (Some (18446744073709551615)) Success (Some 0);
  ic uint64_type (txt "2L4LF104353J8KF") (22) (Some (18446744073709551615)) Success (Some 0);
  ic uint64_type (txt "1DDH88H2782I515") (23) (Some (18446744073709551615)) Success (Some 0);
  ic uint64_type (txt "L12EE5FN0JI1IF") (24) (Some (18446744073709551615)) Success (Some 0);
  ic uint64_type (txt "C9C336O0MLB7EF") (25) (Some (18446744073709551615)) Success (Some 0);
  ic uint64_type (txt "7B7N2PCNIOKCGF") (26) (Some (18446744073709551615)) Success (Some 0);
  ic uint64_type (txt "4EO8HFAM6FLLMO") (27) (Some (18446744073709551615)) Success (Some 0);
  ic uint64_type (txt "2NC6J26L66RHOF") (28) (Some (18446744073709551615)) Success (Some 0);
  ic uint64_type (txt "1N3RSH11F098RN") (29) (Some (18446744073709551615)) Success (Some 0);
  ic uint64_type (txt "14L9LKMO30O40F") (30) (Some (18446744073709551615)) Success (Some 0);
  ic uint64_type (txt "ND075IB45K86F") (31) (Some (18446744073709551615)) Success (Some 0);
  ic uint64_type (txt "FVVVVVVVVVVVV") (32) (Some (18446744073709551615)) Success (Some 0);
  ic uint64_type (txt "B1W8P7J5Q9R6F") (33) (Some (18446744073709551615)) Success (Some 0);
  ic uint64_type (txt "7ORP63SH4DPHH") (34) (Some (18446744073709551615)) Success (Some 0);
  ic uint64_type (txt "5G24A25TWKWFF") (35) (Some (18446744073709551615)) Success (Some 0);
  ic uint64_type (txt "3W5E11264SGSF") (36) (Some (18446744073709551615)) Success (Some 0);
  ic int32_type (txt "00000000000000000000000000000000000000000000000000000000000000000000001111110111") (2) (Some (1015)) Success (Some 0);
  ic int32_type (txt "000000000000000000000000000000000000000000000000001101121") (3) (Some (1015)) Success (Some 0);
  ic int32_type (txt "000000000000000000000000000000000000000033313") (4) (Some (1015)) Success (Some 0);
  ic int32_type (txt "00000000000000000000000000000013030") (5) (Some (1015)) Success (Some 0);
  ic int32_type (txt "0000000000000000000000000000004411") (6) (Some (1015)) Success (Some 0);
  ic int32_type (txt "0000000000000000000000000000002650") (7) (Some (1015)) Success (Some 0);
  ic int32_type (txt "0000000000000000000000000000001767") (8) (Some (1015)) Success (Some 0);
  ic int32_type (txt "0000000000000000000000000000001347") (9) (Some (1015)) Success (Some 0);
  ic int32_type (txt "0000000000000000000000000000001015") (10) (Some (1015)) Success (Some 0);
  ic int32_type (txt "00000000000000000000843") (11) (Some (1015)) Success (Some 0);
  ic int32_type (txt "00000000000000000000707") (12) (Some (1015)) Success (Some 0);
  ic int32_type (txt "00000000000000000000601") (13) (Some (1015)) Success (Some 0);
  ic int32_type (txt "00000000000000000000527") (14) (Some (1015)) Success (Some 0);
  ic int32_type (txt "0000000000000000000047A") (15) (Some (1015)) Success (Some 0);
  ic int32_type (txt "000000000000000000003F7") (16) (Some (1015)) Success (Some 0);
  ic int32_type (txt "0000000000000000000038C") (17) (Some (1015)) Success (Some 0);
  ic int32_type (txt "00000000000000000000327") (18) (Some (1015)) Success (Some 0);
  ic int32_type (txt "000000000000000000002F8") (19) (Some (1015)) Success (Some 0);
  ic int32_type (txt "000000000000000000002AF") (20) (Some (1015)) Success (Some 0);
  ic int32_type (txt "00000000000000000000267") (21) (Some (1015)) Success (Some 0);
  ic int32_type (txt "00000000000000000000223") (22) (Some (1015)) Success (Some 0);
  ic int32_type (txt "000000000000000000001L3") (23) (Some (1015)) Success (Some 0);
  ic int32_type (txt "000000000000000000001I7") (24) (Some (1015)) Success (Some 0);
  ic int32_type (txt "000000000000000000001FF") (25) (Some (1015)) Success (Some 0);
  ic int32_type (txt "000000000000000000001D1") (26) (Some (1015)) Success (Some 0);
  ic int32_type (txt "000000000000000000001AG") (27) (Some (1015)) Success (Some 0);
  ic int32_type (txt "00000000000000000000187") (28) (Some (1015)) Success (Some 0);
  ic int32_type (txt "00000000000000000000160") (29) (Some (1015)) Success (Some 0);
  ic int32_type (txt "0000000000000000000013P") (30) (Some (1015)) Success (Some 0);
  ic int32_type (txt "0000000000000000000011N") (31) (Some (1015)) Success (Some 0);
  ic int32_type (txt "00000000000000000000VN") (32) (Some (1015)) Success (Some 0);
  ic int32_type (txt "00000000000000000000UP") (33) (Some (1015)) Success (Some 0);
  ic int32_type (txt "00000000000000000000TT") (34) (Some (1015)) Success (Some 0);
  ic int32_type (txt "00000000000000000000T0") (35) (Some (1015)) Success (Some 0);
  ic int32_type (txt "00000000000000000000S7") (36) (Some (1015)) Success (Some 0);
  ic int32_type (txt "1001 with text") 10 (Some 1001) Success (Some 10);
  ic int32_type ([49; 48; 48; 49; 32; 119; 105; 116; 104; 32; 116; 101; 120; 116; 10]) 10 (Some 1001) Success (Some 11);
  ic int32_type (txt "9.999") 10 (Some 9) Success (Some 4);
  ic int32_type (txt "+50") 10 (None) InvalidArgument (Some 3);
  ic uint32_type (txt "1001 with text") 10 (Some 1001) Success (Some 10);
  ic uint32_type (txt "-50") 10 (None) InvalidArgument (Some 3)].

(** fast_int.cpp: UTF-16 units of emojis *)
Definition emojis16 : list (list Z) := [
  [8505];
  [8505; 65039];
  [9784];
  [9784; 65039];
  [9785];
  [9785; 65039];
  [10035];
  [10035; 65039];
  [10036];
  [10036; 65039];
  [10548];
  [10548; 65039];
  [10549];
  [10549; 65039];
  [12336];
  [12336; 65039]].

(** fast_int.cpp: UTF-32 units of emojis *)
Definition emojis32 : list (list Z) := [
  [8505];
  [8505; 65039];
  [9784];
  [9784; 65039];
  [9785];
  [9785; 65039];
  [10035];
  [10035; 65039];
  [10036];
  [10036; 65039];
  [10548];
  [10548; 65039];
  [10549];
  [10549; 65039];
  [12336];
  [12336; 65039];
  [127538];
  [127539];
  [127540];
  [127541];
  [127542];
  [127543];
  [127543; 65039];
  [127544];
  [127545];
  [127792];
  [127793];
  [127794];
  [127795];
  [127796];
  [127797];
  [127798];
  [127798; 65039];
  [127799];
  [127800];
  [127801];
  [128048];
  [128049];
  [128050];
  [128051];
  [128052];
  [128053];
  [128054];
  [128055];
  [128056];
  [128057];
  [128304];
  [128305];
  [128306];
  [128307];
  [128308];
  [128309];
  [128310];
  [128311];
  [128312];
  [128313];
  [128560];
  [128561];
  [128562];
  [128563];
  [128564];
  [128565];
  [128565; 8205; 128171];
  [128566];
  [128566; 8205; 127787];
  [128566; 8205; 127787; 65039];
  [128567];
  [128568];
  [128569];
  [129328];
  [129328; 127995];
  [129328; 127996];
  [129328; 127997];
  [129328; 127998];
  [129328; 127999];
  [129329];
  [129329; 127995];
  [129329; 127996];
  [129329; 127997];
  [129329; 127998];
  [129329; 127999];
  [129330];
  [129330; 127995];
  [129330; 127996];
  [129330; 127997];
  [129330; 127998];
  [129330; 127999];
  [129331];
  [129331; 127995];
  [129331; 127996];
  [129331; 127997];
  [129331; 127998];
  [129331; 127999];
  [129332];
  [129332; 127995];
  [129332; 127996];
  [129332; 127997];
  [129332; 127998];
  [129332; 127999];
  [129333];
  [129333; 8205; 9792];
  [129333; 8205; 9792; 65039];
  [129333; 8205; 9794];
  [129333; 8205; 9794; 65039];
  [129333; 127995];
  [129333; 127995; 8205; 9792];
  [129333; 127995; 8205; 9792; 65039];
  [129333; 127995; 8205; 9794];
  [129333; 127995; 8205; 9794; 65039];
  [129333; 127996];
  [129333; 127996; 8205; 9792];
  [129333; 127996; 8205; 9792; 65039];
  [129333; 127996; 8205; 9794];
  [129333; 127996; 8205; 9794; 65039];
  [129333; 127997];
  [129333; 127997; 8205; 9792];
  [129333; 127997; 8205; 9792; 65039];
  [129333; 127997; 8205; 9794];
  [129333; 127997; 8205; 9794; 65039];
  [129333; 127998];
  [129333; 127998; 8205; 9792];
  [129333; 127998; 8205; 9792; 65039];
  [129333; 127998; 8205; 9794];
  [129333; 127998; 8205; 9794; 65039];
  [129333; 127999];
  [129333; 127999; 8205; 9792];
  [129333; 127999; 8205; 9792; 65039];
  [129333; 127999; 8205; 9794];
  [129333; 127999; 8205; 9794; 65039];
  [129334];
  [129334; 127995];
  [129334; 127996];
  [129334; 127997];
  [129334; 127998];
  [129334; 127999];
  [129335];
  [129335; 8205; 9792];
  [129335; 8205; 9792; 65039];
  [129335; 8205; 9794];
  [129335; 8205; 9794; 65039];
  [129335; 127995];
  [129335; 127995; 8205; 9792];
  [129335; 127995; 8205; 9792; 65039];
  [129335; 127995; 8205; 9794];
  [129335; 127995; 8205; 9794; 65039];
  [129335; 127996];
  [129335; 127996; 8205; 9792];
  [129335; 127996; 8205; 9792; 65039];
  [129335; 127996; 8205; 9794];
  [129335; 127996; 8205; 9794; 65039];
  [129335; 127997];
  [129335; 127997; 8205; 9792];
  [129335; 127997; 8205; 9792; 65039];
  [129335; 127997; 8205; 9794];
  [129335; 127997; 8205; 9794; 65039];
  [129335; 127998];
  [129335; 127998; 8205; 9792];
  [129335; 127998; 8205; 9792; 65039];
  [129335; 127998; 8205; 9794];
  [129335; 127998; 8205; 9794; 65039];
  [129335; 127999];
  [129335; 127999; 8205; 9792];
  [129335; 127999; 8205; 9792; 65039];
  [129335; 127999; 8205; 9794];
  [129335; 127999; 8205; 9794; 65039];
  [129336];
  [129336; 8205; 9792];
  [129336; 8205; 9792; 65039];
  [129336; 8205; 9794];
  [129336; 8205; 9794; 65039];
  [129336; 127995];
  [129336; 127995; 8205; 9792];
  [129336; 127995; 8205; 9792; 65039];
  [129336; 127995; 8205; 9794];
  [129336; 127995; 8205; 9794; 65039];
  [129336; 127996];
  [129336; 127996; 8205; 9792];
  [129336; 127996; 8205; 9792; 65039];
  [129336; 127996; 8205; 9794];
  [129336; 127996; 8205; 9794; 65039];
  [129336; 127997];
  [129336; 127997; 8205; 9792];
  [129336; 127997; 8205; 9792; 65039];
  [129336; 127997; 8205; 9794];
  [129336; 127997; 8205; 9794; 65039];
  [129336; 127998];
  [129336; 127998; 8205; 9792];
  [129336; 127998; 8205; 9792; 65039];
  [129336; 127998; 8205; 9794];
  [129336; 127998; 8205; 9794; 65039];
  [129336; 127999];
  [129336; 127999; 8205; 9792];
  [129336; 127999; 8205; 9792; 65039];
  [129336; 127999; 8205; 9794];
  [129336; 127999; 8205; 9794; 65039];
  [129337];
  [129337; 8205; 9792];
  [129337; 8205; 9792; 65039];
  [129337; 8205; 9794];
  [129337; 8205; 9794; 65039];
  [129337; 127995];
  [129337; 127995; 8205; 9792];
  [129337; 127995; 8205; 9792; 65039];
  [129337; 127995; 8205; 9794];
  [129337; 127995; 8205; 9794; 65039];
  [129337; 127996];
  [129337; 127996; 8205; 9792];
  [129337; 127996; 8205; 9792; 65039];
  [129337; 127996; 8205; 9794];
  [129337; 127996; 8205; 9794; 65039];
  [129337; 127997];
  [129337; 127997; 8205; 9792];
  [129337; 127997; 8205; 9792; 65039];
  [129337; 127997; 8205; 9794];
  [129337; 127997; 8205; 9794; 65039];
  [129337; 127998];
  [129337; 127998; 8205; 9792];
  [129337; 127998; 8205; 9792; 65039];
  [129337; 127998; 8205; 9794];
  [129337; 127998; 8205; 9794; 65039];
  [129337; 127999];
  [129337; 127999; 8205; 9792];
  [129337; 127999; 8205; 9792; 65039];
  [129337; 127999; 8205; 9794];
  [129337; 127999; 8205; 9794; 65039]].

(** fast_int.cpp: bad16 *)
Definition wide16 : list (list Z) := [
  [8505];
  [8497; 8498];
  [8497; 8498; 8499];
  [8497; 8498; 8499; 8500];
  [8497; 8498; 8499; 8500; 8501]].

(** fast_int.cpp: bad32 *)
Definition wide32 : list (list Z) := [
  [8505];
  [8497; 8498; 8499];
  [8497; 8498; 8499; 8500];
  [8497; 8498; 8499; 8500; 8501]].

(** ** The floating-point tests, in every build with char, and on x86-64
    with char16_t and char32_t too (as basic_test does). *)
Definition double_inf_conform : bool := forallb (fun c => floats_ok c [Char_s] double_inf) builds && floats_ok cfg_x86_64 [Char16; Char32] double_inf.
Check ltac:(holds double_inf_conform).
Definition double_general_conform : bool := forallb (fun c => floats_ok c [Char_s] double_general) builds && floats_ok cfg_x86_64 [Char16; Char32] double_general.
Check ltac:(holds double_general_conform).
Definition double_decimal_point_conform : bool := forallb (fun c => floats_ok c [Char_s] double_decimal_point) builds && floats_ok cfg_x86_64 [Char16; Char32] double_decimal_point.
Check ltac:(holds double_decimal_point_conform).
Definition float_inf_conform : bool := forallb (fun c => floats_ok c [Char_s] float_inf) builds && floats_ok cfg_x86_64 [Char16; Char32] float_inf.
Check ltac:(holds float_inf_conform).
Definition float_general_conform : bool := forallb (fun c => floats_ok c [Char_s] float_general) builds && floats_ok cfg_x86_64 [Char16; Char32] float_general.
Check ltac:(holds float_general_conform).
Definition float_decimal_point_conform : bool := forallb (fun c => floats_ok c [Char_s] float_decimal_point) builds && floats_ok cfg_x86_64 [Char16; Char32] float_decimal_point.
Check ltac:(holds float_decimal_point_conform).
Definition float16_inf_conform : bool := forallb (fun c => floats_ok c [Char_s] float16_inf) builds && floats_ok cfg_x86_64 [Char16; Char32] float16_inf.
Check ltac:(holds float16_inf_conform).
Definition float16_general_conform : bool := forallb (fun c => floats_ok c [Char_s] float16_general) builds && floats_ok cfg_x86_64 [Char16; Char32] float16_general.
Check ltac:(holds float16_general_conform).
Definition bfloat16_inf_conform : bool := forallb (fun c => floats_ok c [Char_s] bfloat16_inf) builds && floats_ok cfg_x86_64 [Char16; Char32] bfloat16_inf.
Check ltac:(holds bfloat16_inf_conform).
Definition bfloat16_general_conform : bool := forallb (fun c => floats_ok c [Char_s] bfloat16_general) builds && floats_ok cfg_x86_64 [Char16; Char32] bfloat16_general.
Check ltac:(holds bfloat16_general_conform).
Definition float_verify32_conform : bool := forallb (fun c => floats_ok c [Char_s] float_verify32) builds && floats_ok cfg_x86_64 [Char16; Char32] float_verify32.
Check ltac:(holds float_verify32_conform).
Definition basic_misc_conform : bool := forallb (fun c => floats_ok c [Char_s] basic_misc) builds && floats_ok cfg_x86_64 [Char16; Char32] basic_misc.
Check ltac:(holds basic_misc_conform).
Definition powers_of_ten_conform : bool := forallb (fun c => floats_ok c [Char_s] powers_of_ten) builds && floats_ok cfg_x86_64 [Char16; Char32] powers_of_ten.
Check ltac:(holds powers_of_ten_conform).
Definition string_test_conform : bool := forallb (fun c => floats_ok c [Char_s] string_test) builds && floats_ok cfg_x86_64 [Char16; Char32] string_test.
Check ltac:(holds string_test_conform).
Definition long_test_conform : bool := forallb (fun c => floats_ok c [Char_s] long_test) builds && floats_ok cfg_x86_64 [Char16; Char32] long_test.
Check ltac:(holds long_test_conform).
Definition powers_of_five_conform : bool := forallb (fun c => floats_ok c [Char_s] powers_of_five) builds && floats_ok cfg_x86_64 [Char16; Char32] powers_of_five.
Check ltac:(holds powers_of_five_conform).
Definition midpoints32_conform : bool := forallb (fun c => floats_ok c [Char_s] midpoints32) builds && floats_ok cfg_x86_64 [Char16; Char32] midpoints32.
Check ltac:(holds midpoints32_conform).
Definition examples_conform : bool := forallb (fun c => floats_ok c [Char_s] examples) builds && floats_ok cfg_x86_64 [Char16; Char32] examples.
Check ltac:(holds examples_conform).
Definition rcpp_accepted_conform : bool := forallb (fun c => floats_ok c [Char_s] rcpp_accepted) builds && floats_ok cfg_x86_64 [Char16; Char32] rcpp_accepted.
Check ltac:(holds rcpp_accepted_conform).
Definition json_accepted_conform : bool := forallb (fun c => floats_ok c [Char_s] json_accepted) builds && floats_ok cfg_x86_64 [Char16; Char32] json_accepted.
Check ltac:(holds json_accepted_conform).
Definition fortran_conform : bool := forallb (fun c => floats_ok c [Char_s] fortran) builds && floats_ok cfg_x86_64 [Char16; Char32] fortran.
Check ltac:(holds fortran_conform).

Definition x87_conform : bool := floats_ok cfg_x87 [Char_s] (json_accepted ++ string_test).
Check ltac:(holds x87_conform).

Definition wide_altered_conform : bool := forallb (fun c => forallb (fun k => float_fails c Wchar_s32 (fst k) (snd k)) wide_altered) builds.
Check ltac:(holds wide_altered_conform).

Definition rcpp_fails (c : cfg) (s : list Z) : bool :=
  match from_chars_float c Char_s F64 s (Z.lor f_general (Z.lor f_allow_leading_plus f_skip_white_space)) with
  | UB => false
  | Ok r => negb (ec_eqb (r_ec r) Success) || existsb (fun x => match is_space x with Ok b => negb b | UB => true end) (r_ptr r)
  end.
Definition rcpp_refused_conform : bool := forallb (fun c => forallb (rcpp_fails c) rcpp_refused) builds.
Check ltac:(holds rcpp_refused_conform).

(** json_fmt.cpp calls parse_number_string<true> with json | allow_leading_plus. *)
Definition json_reason (c : cfg) (k : list Z * parse_error * Z) : bool :=
  let '(s, e, off) := k in
  match parse_number_string c Char_s true s
          {| o_format := Z.lor f_json f_allow_leading_plus; o_decimal_point := 46; o_base := 10 |} true with
  | UB => false
  | Ok a => negb (pn_valid a) && perr_eqb (pn_error a) e &&
            (Z.of_nat (List.length s) - Z.of_nat (List.length (pn_lastmatch a)) =? off)
  end.
Definition json_rejected_conform : bool := forallb (fun c => forallb (fun k => float_fails c Char_s (fst (fst k)) f_json && json_reason c k) json_rejected) builds.
Check ltac:(holds json_rejected_conform).

(** A signed mantissa below 2^63 goes to the int64_t overload, and a
    nonnegative one to the uint64_t overload too. *)
Definition pow10_ok (c : cfg) (k : ftype * Z * Z * Z) : bool :=
  let '(t, m, e, b) := k in
  (if m <? 2 ^ 63 then match integer_times_pow10_s c t m e with Ok v => v =? b | UB => false end else true) &&
  (if 0 <=? m then match integer_times_pow10_u c t m e with Ok v => v =? b | UB => false end else true).
Definition pow10_cases_conform : bool := forallb (fun c => forallb (pow10_ok c) pow10_cases) builds.
Check ltac:(holds pow10_cases_conform).

(** ** The integer tests *)
Definition int_cases_conform : bool := forallb (fun c => forallb (fun u => forallb (int_ok c u) int_cases) [Char_s; Char16; Char32; Wchar_s32]) builds.
Check ltac:(holds int_cases_conform).
Definition emojis_conform : bool := forallb (fun c => forallb (int_fails c Char16 int32_type) emojis16 && forallb (int_fails c Char32 int32_type) emojis32 &&
                    forallb (fun T => forallb (int_fails c Char16 T) wide16 && forallb (int_fails c Char32 T) wide32)
                            [uint8_type; uint16_type]) builds.
Check ltac:(holds emojis_conform).

(** ** The helpers tested directly (basictest.cpp) *)
Definition leading_zeroes_conform : bool := forallb (fun c => forallb (fun k => match leading_zeroes c (Z.shiftl 1 (fst k)) with Ok n => n =? snd k | UB => false end)
                            [(0, 63); (1, 62); (2, 61); (61, 2); (62, 1); (63, 0)]) builds.
Check ltac:(holds leading_zeroes_conform).
Definition mul_ok (c : cfg) (k : Z * Z * Z * Z) : bool :=
  let '(a, b, lo, hi) := k in
  let ok x y := let '(l, h) := full_multiplication c x y in (l =? lo) && (h =? hi) in ok a b && ok b a.
Definition full_multiplication_conform : bool := forallb (fun c => forallb (mul_ok c)
    [(1, 1, 1, 0); (1, 2 ^ 63, 2 ^ 63, 0); (2, 2 ^ 63, 0, 1); (2 ^ 63, 1, 2 ^ 63, 0); (2 ^ 63, 2, 0, 1);
     (2 ^ 63, 4, 0, 2); (2 ^ 63, 2 ^ 63, 0, 2 ^ 62)]) builds.
Check ltac:(holds full_multiplication_conform).
Definition rounds_to_nearest_conform : bool := negb (rounds_to_nearest cfg_be32) && negb (rounds_to_nearest cfg_neon) && rounds_to_nearest cfg_x86_64.
Check ltac:(holds rounds_to_nearest_conform).
