(** Lookup tables, transcribed mechanically from the headers. *)
From Coq Require Import ZArith List.
Import ListNotations.
Open Scope Z_scope.

(** space_lut<>::value, float_common.h:1204-1217 (1 = true) *)
Definition space_lut : list Z := [
  0; 0; 0; 0; 0; 0; 0; 0; 0; 1; 1; 1; 1; 1; 0; 0; 0; 0; 0; 0; 0; 0; 0; 0;
  0; 0; 0; 0; 0; 0; 0; 0; 1; 0; 0; 0; 0; 0; 0; 0; 0; 0; 0; 0; 0; 0; 0; 0;
  0; 0; 0; 0; 0; 0; 0; 0; 0; 0; 0; 0; 0; 0; 0; 0; 0; 0; 0; 0; 0; 0; 0; 0;
  0; 0; 0; 0; 0; 0; 0; 0; 0; 0; 0; 0; 0; 0; 0; 0; 0; 0; 0; 0; 0; 0; 0; 0;
  0; 0; 0; 0; 0; 0; 0; 0; 0; 0; 0; 0; 0; 0; 0; 0; 0; 0; 0; 0; 0; 0; 0; 0;
  0; 0; 0; 0; 0; 0; 0; 0; 0; 0; 0; 0; 0; 0; 0; 0; 0; 0; 0; 0; 0; 0; 0; 0;
  0; 0; 0; 0; 0; 0; 0; 0; 0; 0; 0; 0; 0; 0; 0; 0; 0; 0; 0; 0; 0; 0; 0; 0;
  0; 0; 0; 0; 0; 0; 0; 0; 0; 0; 0; 0; 0; 0; 0; 0; 0; 0; 0; 0; 0; 0; 0; 0;
  0; 0; 0; 0; 0; 0; 0; 0; 0; 0; 0; 0; 0; 0; 0; 0; 0; 0; 0; 0; 0; 0; 0; 0;
  0; 0; 0; 0; 0; 0; 0; 0; 0; 0; 0; 0; 0; 0; 0; 0; 0; 0; 0; 0; 0; 0; 0; 0;
  0; 0; 0; 0; 0; 0; 0; 0; 0; 0; 0; 0; 0; 0; 0; 0].

(** int_luts<>::chdigit, float_common.h:1286-1304 *)
Definition chdigit : list Z := [
  255; 255; 255; 255; 255; 255; 255; 255; 255; 255; 255; 255; 255; 255; 255; 255;
  255; 255; 255; 255; 255; 255; 255; 255; 255; 255; 255; 255; 255; 255; 255; 255;
  255; 255; 255; 255; 255; 255; 255; 255; 255; 255; 255; 255; 255; 255; 255; 255;
  0; 1; 2; 3; 4; 5; 6; 7; 8; 9; 255; 255; 255; 255; 255; 255;
  255; 10; 11; 12; 13; 14; 15; 16; 17; 18; 19; 20; 21; 22; 23; 24;
  25; 26; 27; 28; 29; 30; 31; 32; 33; 34; 35; 255; 255; 255; 255; 255;
  255; 10; 11; 12; 13; 14; 15; 16; 17; 18; 19; 20; 21; 22; 23; 24;
  25; 26; 27; 28; 29; 30; 31; 32; 33; 34; 35; 255; 255; 255; 255; 255;
  255; 255; 255; 255; 255; 255; 255; 255; 255; 255; 255; 255; 255; 255; 255; 255;
  255; 255; 255; 255; 255; 255; 255; 255; 255; 255; 255; 255; 255; 255; 255; 255;
  255; 255; 255; 255; 255; 255; 255; 255; 255; 255; 255; 255; 255; 255; 255; 255;
  255; 255; 255; 255; 255; 255; 255; 255; 255; 255; 255; 255; 255; 255; 255; 255;
  255; 255; 255; 255; 255; 255; 255; 255; 255; 255; 255; 255; 255; 255; 255; 255;
  255; 255; 255; 255; 255; 255; 255; 255; 255; 255; 255; 255; 255; 255; 255; 255;
  255; 255; 255; 255; 255; 255; 255; 255; 255; 255; 255; 255; 255; 255; 255; 255;
  255; 255; 255; 255; 255; 255; 255; 255; 255; 255; 255; 255; 255; 255; 255; 255].

(** int_luts<>::maxdigits_u64, float_common.h:1306-1308 *)
Definition maxdigits_u64 : list Z := [
  64; 41; 32; 28; 25; 23; 22; 21; 20; 19; 18; 18;
  17; 17; 16; 16; 16; 16; 15; 15; 15; 15; 14; 14;
  14; 14; 14; 14; 14; 13; 13; 13; 13; 13; 13].

(** int_luts<>::min_safe_u64, float_common.h:1310-1322 *)
Definition min_safe_u64_table : list Z := [
  9223372036854775808; 12157665459056928801; 4611686018427387904;
  7450580596923828125; 4738381338321616896; 3909821048582988049;
  9223372036854775808; 12157665459056928801; 10000000000000000000;
  5559917313492231481; 2218611106740436992; 8650415919381337933;
  2177953337809371136; 6568408355712890625; 1152921504606846976;
  2862423051509815793; 6746640616477458432; 15181127029874798299;
  1638400000000000000; 3243919932521508681; 6221821273427820544;
  11592836324538749809; 876488338465357824; 1490116119384765625;
  2481152873203736576; 4052555153018976267; 6502111422497947648;
  10260628712958602189; 15943230000000000000; 787662783788549761;
  1152921504606846976; 1667889514952984961; 2386420683693101056;
  3379220508056640625; 4738381338321616896].

(** powers_of_ten_uint64, digit_comparison.h:15-34 *)
Definition powers_of_ten_uint64 : list Z := [
  1; 10;
  100; 1000;
  10000; 100000;
  1000000; 10000000;
  100000000; 1000000000;
  10000000000; 100000000000;
  1000000000000; 10000000000000;
  100000000000000; 1000000000000000;
  10000000000000000; 100000000000000000;
  1000000000000000000; 10000000000000000000].

(** pow5_tables<>::small_power_of_5, bigint.h:379-408 *)
Definition small_power_of_5 : list Z := [
  1; 5; 25;
  125; 625; 3125;
  15625; 78125; 390625;
  1953125; 9765625; 48828125;
  244140625; 1220703125; 6103515625;
  30517578125; 152587890625; 762939453125;
  3814697265625; 19073486328125; 95367431640625;
  476837158203125; 2384185791015625; 11920928955078125;
  59604644775390625; 298023223876953125; 1490116119384765625;
  7450580596923828125].

(** pow5_tables<>::large_power_of_5 for 64-bit limbs, bigint.h:410-412 *)
Definition large_power_of_5_64 : list Z := [
  1414648277510068013; 9180637584431281687;
  4539964771860779200; 10482974169319127550;
  198276706040285095].

(** pow5_tables<>::large_power_of_5 for 32-bit limbs, bigint.h:414-416 *)
Definition large_power_of_5_32 : list Z := [
  4279965485; 329373468; 4020270615; 2137533757;
  4287402176; 1057042919; 1071430142; 2440757623;
  381945767; 46164893].

