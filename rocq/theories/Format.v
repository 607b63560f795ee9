(** binary_format<T> constants (float_common.h), packing into the destination
    type, and the IEEE-754 arithmetic the library relies on. *)
From Verif Require Import Machine Config.

(** mantissa_explicit_bits, float_common.h:772,777,904,1027 *)
Definition mant_bits (t : ftype) : Z :=
  match t with F64 => 52 | F32 => 23 | F16 => 10 | BF16 => 7 end.

(** minimum_exponent, float_common.h:801,805,942,1065 *)
Definition min_exp (t : ftype) : Z :=
  match t with F64 => -1023 | F32 => -127 | F16 => -15 | BF16 => -127 end.

(** infinite_power, float_common.h:809,813,947,1070 *)
Definition inf_power (t : ftype) : Z :=
  match t with F64 => 0x7FF | F32 => 0xFF | F16 => 0x1F | BF16 => 0xFF end.

(** sign_index, float_common.h:817,821,951,1074 *)
Definition sign_index (t : ftype) : Z :=
  match t with F64 => 63 | F32 => 31 | F16 => 15 | BF16 => 15 end.

(** Width of equiv_uint_t<T>, float_common.h:275-281 *)
Definition equiv_bits (t : ftype) : Z :=
  match t with F64 => 64 | F32 => 32 | F16 => 16 | BF16 => 16 end.

(** min_exponent_fast_path, float_common.h:754-769,925,1048 *)
Definition min_exponent_fast_path (c : cfg) (t : ftype) : Z :=
  match t with
  | F64 => match eval c with Eval2 | Eval_other => 0 | _ => -22 end
  | F32 => match eval c with Eval2 | Eval_other => 0 | _ => -10 end
  | F16 | BF16 => 0
  end.

(** max_exponent_fast_path, float_common.h:826,831,899,1004 *)
Definition max_exponent_fast_path (t : ftype) : Z :=
  match t with F64 => 22 | F32 => 10 | F16 => 4 | BF16 => 3 end.

(** max_exponent_round_to_even, float_common.h:782,787,931,1054 *)
Definition max_exponent_round_to_even (t : ftype) : Z :=
  match t with F64 => 23 | F32 => 10 | F16 => 5 | BF16 => 3 end.

(** min_exponent_round_to_even, float_common.h:792,797,937,1060 *)
Definition min_exponent_round_to_even (t : ftype) : Z :=
  match t with F64 => -4 | F32 => -17 | F16 => -22 | BF16 => -24 end.

(** largest_power_of_ten, float_common.h:956,1079,1127,1131 *)
Definition largest_power_of_ten (t : ftype) : Z :=
  match t with F64 => 308 | F32 => 38 | F16 => 4 | BF16 => 38 end.

(** smallest_power_of_ten, float_common.h:961,1084,1136,1140 *)
Definition smallest_power_of_ten (t : ftype) : Z :=
  match t with F64 => -342 | F32 => -64 | F16 => -27 | BF16 => -60 end.

(** max_digits, float_common.h:966,1089,1144,1148 *)
Definition max_digits (t : ftype) : Z :=
  match t with F64 => 769 | F32 => 114 | F16 => 22 | BF16 => 98 end.

(** max_mantissa_fast_path(), float_common.h:836,841,910,1033 *)
Definition max_mantissa_fast_path (t : ftype) : Z := u64 (Z.shiftl 2 (mant_bits t)).

(** max_mantissa[], float_common.h:677-709,728-740,853-858,979-981 *)
Definition max_mantissa_table (t : ftype) : list Z :=
  match t with
  | F64 => map (fun k => 0x20000000000000 / 5 ^ Z.of_nat k) (seq 0 24)
  | F32 => map (fun k => 0x1000000 / 5 ^ Z.of_nat k) (seq 0 12)
  | F16 => map (fun k => 0x800 / 5 ^ Z.of_nat k) (seq 0 6)
  | BF16 => map (fun k => 0x100 / 5 ^ Z.of_nat k) (seq 0 5)
  end.

(** max_mantissa_fast_path(int64_t power), float_common.h:916,1039,1096,1106 *)
Definition max_mantissa_fast_path_pow (t : ftype) (power : Z) : res Z :=
  nth_res (max_mantissa_table t) power.

(** exponent_mask, mantissa_mask, hidden_bit_mask,
    float_common.h:882-895,1010-1023,1152-1186 *)
Definition exponent_mask (t : ftype) : Z :=
  match t with F64 => 0x7FF0000000000000 | F32 => 0x7F800000 | F16 => 0x7C00 | BF16 => 0x7F80 end.
(** float_common.h:888,1016,1164-1173 *)
Definition mantissa_mask (t : ftype) : Z :=
  match t with F64 => 0x000FFFFFFFFFFFFF | F32 => 0x007FFFFF | F16 => 0x03FF | BF16 => 0x007F end.
(** float_common.h:894,1022,1176-1185 *)
Definition hidden_bit_mask (t : ftype) : Z :=
  match t with F64 => 0x0010000000000000 | F32 => 0x00800000 | F16 => 0x0400 | BF16 => 0x0080 end.

(** adjusted_mantissa, float_common.h:624-636 *)
Record adjusted_mantissa := { am_mantissa : Z; am_power2 : Z }.

(** operator!=, float_common.h:633-635 *)
Definition am_neq (a b : adjusted_mantissa) : bool :=
  negb (am_mantissa a =? am_mantissa b) || negb (am_power2 a =? am_power2 b).

(** invalid_am_bias, float_common.h:639 *)
Definition invalid_am_bias : Z := -0x8000.

(** [equiv_uint(x) << k]: equiv_uint values narrower than int are promoted to
    int, where a shift whose result does not fit is undefined.
    float_common.h:1193-1196 *)
Definition equiv_shl (t : ftype) (x k : Z) : res Z :=
  match t with
  | F16 | BF16 => let* y := shl 64 (u16 x) k in chk 32 y
  | F32 => shl 32 (u32 x) k
  | F64 => shl 64 (u64 x) k
  end.

(** to_float, float_common.h:1188-1202; the result is the bit pattern. *)
Definition to_float (t : ftype) (negative : bool) (am : adjusted_mantissa) : res Z :=
  let w := am_mantissa am mod 2 ^ equiv_bits t in
  let* e := equiv_shl t (am_power2 am) (mant_bits t) in
  let w := (Z.lor w e) mod 2 ^ equiv_bits t in
  let* s := equiv_shl t (if negative then 1 else 0) (sign_index t) in
  Ok ((Z.lor w s) mod 2 ^ equiv_bits t).

(** Bit pattern of infinity and of the quiet NaN (std::numeric_limits<T>),
    parse_number.h:64-65. *)
Definition infinity_bits (t : ftype) : Z := Z.shiftl (inf_power t) (mant_bits t).
(** parse_number.h:40-41 *)
Definition quiet_nan_bits (t : ftype) : Z :=
  Z.lor (infinity_bits t) (Z.shiftl 1 (mant_bits t - 1)).

(** Unary minus on a floating-point value: IEEE-754 negate flips the sign bit;
    parse_number.h:40,64,220,239. *)
Definition fp_neg (t : ftype) (bits : Z) : Z := Z.lxor bits (Z.shiftl 1 (sign_index t)).

(** ** IEEE-754 arithmetic on non-negative operands

    [mb]/[me] describe a binary format: explicit mantissa bits and the exponent
    of the binade below the smallest normal one (as in binary_format).
    Magnitudes are encoded as the integer whose binary representation is
    exponent field followed by mantissa field; consecutive codes are
    consecutive floating-point numbers.

    The operations are those of the fast path, parse_number.h:208-240, and of
    the probe, parse_number.h:78-129; the definitions up to [fp_div] give
    them their IEEE-754 meaning. *)

(** Value of code [b] in units of the smallest subnormal 2^(me+1-mb)
    (operands of parse_number.h:213-217,237). *)
Definition fp_units (mb : Z) (b : Z) : Z :=
  let e := b / 2 ^ mb in
  let m := b mod 2 ^ mb in
  if e =? 0 then m else (m + 2 ^ mb) * 2 ^ (e - 1).

(** Largest code whose value is at most [q] units (q >= 0, no overflow bound);
    an auxiliary of the rounding at parse_number.h:213-217,237. *)
Definition fp_floor_code (mb q : Z) : Z :=
  let k := Z.max 0 (Z.log2 q - mb) in
  k * 2 ^ mb + Z.shiftr q k.

(** Rounding of the non-negative rational num/den to a code of the format
    (mb, me) whose infinity has code [inf], in direction [md]
    (IEEE 754-2019, 4.3 and 7.4); parse_number.h:213-217,237. *)
Definition ieee_round (md : rounding) (mb me inf : Z) (num den : Z) : Z :=
  let u := me + 1 - mb in
  let num := if u <? 0 then num * 2 ^ (- u) else num in
  let den := if u <? 0 then den else den * 2 ^ u in
  let b := fp_floor_code mb (num / den) in
  if inf <=? b then
    match md with ToNearest | Upward => inf | Downward | TowardZero => inf - 1 end
  else
    let lo := fp_units mb b in
    let hi := fp_units mb (b + 1) in
    if num =? lo * den then b
    else match md with
    | Upward => b + 1
    | Downward | TowardZero => b
    | ToNearest =>
      match Z.compare (2 * num) ((lo + hi) * den) with
      | Lt => b
      | Gt => b + 1
      | Eq => if Z.even b then b else b + 1
      end
    end.

(** Whether operations on [t] are carried out in another type and converted
    back: under FLT_EVAL_METHOD 1 and 2, and for the 16-bit types on machines
    without 16-bit arithmetic; parse_number.h:80,213-217,237. *)
Definition converts_back (c : cfg) (t : ftype) : bool :=
  match eval c with
  | Eval1 | Eval2 => true
  | Eval0 | Eval_other =>
    half_in_float c && match t with F16 | BF16 => true | F64 | F32 => false end
  end.

(** The format in which an operation on type [t] is evaluated
    (FLT_EVAL_METHOD, parse_number.h:80, float_common.h:754-769);
    (mb, me, infinity code). *)
Definition eval_format (c : cfg) (t : ftype) : Z * Z * Z :=
  match eval c with
  | Eval0 | Eval_other =>
    if converts_back c t then (mant_bits F32, min_exp F32, infinity_bits F32)
    else (mant_bits t, min_exp t, infinity_bits t)
  | Eval1 => (mant_bits F64, min_exp F64, infinity_bits F64)
  | Eval2 => (63, -16383, Z.shiftl 0x7FFF 63)
  end.

(** Exact value of a finite code as a fraction; the operands at
    parse_number.h:213-217,237. *)
Definition fp_num (mb me b : Z) : Z :=
  let u := me + 1 - mb in if u <? 0 then fp_units mb b else fp_units mb b * 2 ^ u.
(** parse_number.h:213-217,237 *)
Definition fp_den (mb me : Z) : Z :=
  let u := me + 1 - mb in if u <? 0 then 2 ^ (- u) else 1.

(** Conversion of the exact non-negative rational num/den, result of one
    operation evaluated under FLT_EVAL_METHOD and then assigned to type [t];
    [value = value / ...] and [value = value * ...] at parse_number.h:213-217,237. *)
Definition fp_result (c : cfg) (t : ftype) (num den : Z) : Z :=
  let '(wmb, wme, winf) := eval_format c t in
  let r := ieee_round (rmode c) wmb wme winf num den in
  if converts_back c t then
    if winf <=? r then infinity_bits t
    else ieee_round (rmode c) (mant_bits t) (min_exp t) (infinity_bits t)
           (fp_num wmb wme r) (fp_den wmb wme)
  else r.

(** T(uint64_t) conversion (rounds in the current direction),
    parse_number.h:213,237. *)
Definition fp_of_u64 (c : cfg) (t : ftype) (m : Z) : Z :=
  ieee_round (rmode c) (mant_bits t) (min_exp t) (infinity_bits t) m 1.

(** Multiplication and division of non-negative finite values (divisor nonzero)
    as in IEEE-754; parse_number.h:215-217,237. *)
Definition ieee_mul (c : cfg) (t : ftype) (a b : Z) : Z :=
  let n x := fp_num (mant_bits t) (min_exp t) x in
  let d := fp_den (mant_bits t) (min_exp t) in
  fp_result c t (n a * n b) (d * d).
(** parse_number.h:215 *)
Definition ieee_div (c : cfg) (t : ftype) (a b : Z) : Z :=
  let n x := fp_num (mant_bits t) (min_exp t) x in
  fp_result c t (n a) (n b).

(** The same on a processor that may be set to treat subnormal operands as zero
    and to replace subnormal results by zero; parse_number.h:213-217,237. *)
Definition flushed (c : cfg) (t : ftype) (b : Z) : Z :=
  if flush c && (b <? 2 ^ mant_bits t) then 0 else b.
(** parse_number.h:217,237 *)
Definition fp_mul (c : cfg) (t : ftype) (a b : Z) : Z :=
  flushed c t (ieee_mul c t (flushed c t a) (flushed c t b)).
(** parse_number.h:215 *)
Definition fp_div (c : cfg) (t : ftype) (a b : Z) : Z :=
  flushed c t (ieee_div c t (flushed c t a) (flushed c t b)).

(** Literal 1e[k] of type T, rounded to nearest by the compiler;
    powers_of_ten[], float_common.h:671-673,723-724,848-849,974-975. *)
Definition powers_of_ten_count (t : ftype) : Z :=
  match t with F64 => 23 | F32 => 11 | F16 => 5 | BF16 => 4 end.

(** exact_power_of_ten, float_common.h:875,998,1116,1122 *)
Definition exact_power_of_ten (t : ftype) (power : Z) : res Z :=
  if (0 <=? power) && (power <? powers_of_ten_count t) then
    Ok (ieee_round ToNearest (mant_bits t) (min_exp t) (infinity_bits t) (10 ^ power) 1)
  else UB.

(** detail::rounds_to_nearest, parse_number.h:78-136: with FLT_EVAL_METHOD 0 or
    1, it compares fmin + 1.0f with 1.0f - fmin (fmin = 2^-126, the smallest
    normal float) evaluated in the current rounding direction.  Neither the
    operands nor the results are subnormal, so [flush] has no effect here. *)
Definition rounds_to_nearest (c : cfg) : bool :=
  match eval c with
  | Eval2 | Eval_other => false
  | _ =>
    let '(wmb, wme, winf) := eval_format c F32 in
    ieee_round (rmode c) wmb wme winf (1 + 2 ^ 126) (2 ^ 126)
    =? ieee_round (rmode c) wmb wme winf (2 ^ 126 - 1) (2 ^ 126)
  end.
