(** Characters: digits, white space, digit lookup, case-insensitive comparison,
    multi-character loads, SWAR/SIMD digit parsing, bit counting and wide
    multiplication.  Files float_common.h and ascii_number.h. *)
From Verif Require Import Machine Config Tables.

(** [c - UC('0')] after the usual arithmetic conversions: types narrower than
    int and signed types are computed in int (undefined on overflow), 32-bit
    unsigned types wrap.  ascii_number.h:35,384-402,436,717, digit_comparison.h:234. *)
Definition minus_zero (u : uc) (ch : Z) : res Z :=
  match u with
  | Wchar_u32 | Char32 => Ok ((ch - 48) mod 2 ^ 32)
  | _ => chk 32 (ch - 48)
  end.

(** is_integer, ascii_number.h:33-36 *)
Definition is_integer (u : uc) (ch : Z) : res bool :=
  let* d := minus_zero u ch in
  Ok (u32 d <=? 9).

(** byteswap, ascii_number.h:38-43 *)
Definition byteswap (v : Z) : Z :=
  let t m s := Z.shiftr (Z.land v m) s in
  let l m s := u64 (Z.shiftl (Z.land v m) s) in
  Z.lor (Z.lor (Z.lor (Z.lor (Z.lor (Z.lor (Z.lor
    (t 0xFF00000000000000 56) (t 0x00FF000000000000 40))
    (t 0x0000FF0000000000 24)) (t 0x000000FF00000000 8))
    (l 0x00000000FF000000 8)) (l 0x0000000000FF0000 24))
    (l 0x000000000000FF00 40)) (l 0x00000000000000FF 56).

(** byteswap_32, ascii_number.h:45-48 *)
Definition byteswap_32 (v : Z) : Z :=
  Z.lor (Z.lor (Z.lor (Z.shiftr v 24) (Z.land (Z.shiftr v 8) 0x0000FF00))
    (Z.land (u32 (Z.shiftl v 8)) 0x00FF0000)) (u32 (Z.shiftl v 24)).

(** Value of consecutive w-bit units, the first one least significant:
    what memcpy at ascii_number.h:63,84,637 puts into a little-endian word. *)
Fixpoint le_word (w : Z) (l : list Z) : Z :=
  match l with [] => 0 | x :: l' => x + 2 ^ w * le_word w l' end.

(** ::memcpy of the code units [l] (at most [bytes] bytes) into a zeroed
    unsigned word of [bytes] bytes: each unit contributes its object
    representation; the first unit is the least significant one on
    little-endian machines and the most significant one on big-endian ones.
    ascii_number.h:63,84,637, digit_comparison.h:176,199, float_common.h:323-429. *)
Definition mem_word (c : cfg) (u : uc) (bytes : Z) (l : list Z) : Z :=
  let n := Z.to_nat (bytes / uc_size u) in
  let l' := map (fun x => x mod 2 ^ uc_bits u) l ++ repeat 0 (n - length l)%nat in
  le_word (uc_bits u) (if big_endian c then rev l' else l').

(** read8_to_u64, ascii_number.h:51-69 *)
Definition read8_to_u64 (c : cfg) (u : uc) (p : list Z) : res Z :=
  let* l := take 8 p in
  if in_constexpr c || negb (uc_is_char u) then
    Ok (le_word 8 (map u8 l))
  else
    let v := mem_word c u 8 l in
    Ok (if big_endian c then byteswap v else v).

(** read4_to_u32, ascii_number.h:72-89 *)
Definition read4_to_u32 (c : cfg) (u : uc) (p : list Z) : res Z :=
  let* l := take 4 p in
  if in_constexpr c || negb (uc_is_char u) then
    Ok (le_word 8 (map u8 l))
  else
    let v := mem_word c u 4 l in
    Ok (if big_endian c then byteswap_32 v else v).

(** has_simd_opt, ascii_number.h:23-29 *)
Definition has_simd_opt (c : cfg) (u : uc) : bool := has_simd c && uc_is_char16 u.

(** _mm_packus_epi16 on one lane: signed 16-bit saturated to [0,255];
    ascii_number.h:94. *)
Definition packus (x : Z) : Z :=
  let s := to_signed 16 x in Z.max 0 (Z.min 255 s).

(** simd_read8_to_u64, ascii_number.h:92-127: eight 16-bit lanes narrowed to
    bytes (saturating on SSE2, truncating on NEON). *)
Definition simd_read8_to_u64 (c : cfg) (l : list Z) : Z :=
  match simd c with
  | Neon => le_word 8 (map u8 l)
  | _ => le_word 8 (map packus l)
  end.

(** parse_eight_digits_unrolled(uint64_t), ascii_number.h:143-152 *)
Definition parse_eight_digits_unrolled_val (v : Z) : Z :=
  let mask := 0x000000FF000000FF in
  let mul1 := 0x000F424000000064 in
  let mul2 := 0x0000271000000001 in
  let v := u64 (v - 0x3030303030303030) in
  let v := u64 (u64 (v * 10) + Z.shiftr v 8) in
  let v := Z.shiftr (u64 (u64 (Z.land v mask * mul1)
                        + u64 (Z.land (Z.shiftr v 16) mask * mul2))) 32 in
  u32 v.

(** parse_eight_digits_unrolled(UC const* ), ascii_number.h:155-162 *)
Definition parse_eight_digits_unrolled (c : cfg) (u : uc) (p : list Z) : res Z :=
  if in_constexpr c || negb (has_simd_opt c u) then
    let* v := read8_to_u64 c u p in Ok (parse_eight_digits_unrolled_val v)
  else
    let* l := take 8 p in
    Ok (parse_eight_digits_unrolled_val (simd_read8_to_u64 c l)).

(** is_made_of_eight_digits_fast, ascii_number.h:165-169 *)
Definition is_made_of_eight_digits_fast (v : Z) : bool :=
  Z.land (Z.lor (u64 (v + 0x4646464646464646)) (u64 (v - 0x3030303030303030)))
         0x8080808080808080 =? 0.

(** is_made_of_four_digits_fast, ascii_number.h:171-174 *)
Definition is_made_of_four_digits_fast (v : Z) : bool :=
  Z.land (Z.lor (u32 (v + 0x46464646)) (u32 (v - 0x30303030))) 0x80808080 =? 0.

(** parse_four_digits_unrolled, ascii_number.h:176-181 *)
Definition parse_four_digits_unrolled (v : Z) : Z :=
  let v := u32 (v - 0x30303030) in
  let v := u32 (u32 (v * 10) + Z.shiftr v 8) in
  Z.land (Z.shiftr (u32 (Z.land v 0x00FF00FF * 0x00640001)) 16) 0xFFFF.

(** One SSE2 lane of ascii_number.h:201-202 (true when the lane is set in the
    mask, i.e. the unit is not a digit): _mm_add_epi16, _mm_cmpgt_epi16. *)
Definition sse2_lane_bad (x : Z) : bool := -32759 <? to_signed 16 (x + 32720).

(** One NEON lane of ascii_number.h:216-217: vsubq_u16, vcltq_u16. *)
Definition neon_lane_ok (x : Z) : bool := u16 (x - 48) <? 10.

(** simd_parse_if_eight_digits_unrolled, ascii_number.h:188-230; [None] is
    [false], [Some i] is [true] with the updated accumulator. *)
Definition simd_parse_if_eight_digits_unrolled (c : cfg) (p : list Z) (i : Z)
  : res (option Z) :=
  if in_constexpr c then Ok None
  else
    let* l := take 8 p in
    let good := match simd c with
                | Neon => forallb neon_lane_ok l
                | _ => negb (existsb sse2_lane_bad l)
                end in
    Ok (if good then
          Some (u64 (u64 (i * 100000000)
                     + parse_eight_digits_unrolled_val (simd_read8_to_u64 c l)))
        else None).

(** The while loop of loop_parse_if_eight_digits for UC != char,
    ascii_number.h:251-255.  Fuel: one unit per iteration. *)
Fixpoint simd_loop (fuel : nat) (c : cfg) (p : list Z) (i : Z) : res (list Z * Z) :=
  match fuel with
  | O => UB
  | S fuel =>
    if 8 <=? remaining p then
      let* r := simd_parse_if_eight_digits_unrolled c p i in
      match r with
      | None => Ok (p, i)
      | Some i' => let* p' := advance 8 p in simd_loop fuel c p' i'
      end
    else Ok (p, i)
  end.

(** The while loop of loop_parse_if_eight_digits for char,
    ascii_number.h:262-268. *)
Fixpoint swar_loop (fuel : nat) (c : cfg) (u : uc) (p : list Z) (i : Z) : res (list Z * Z) :=
  match fuel with
  | O => UB
  | S fuel =>
    if 8 <=? remaining p then
      let* v := read8_to_u64 c u p in
      if is_made_of_eight_digits_fast v then
        let* v' := read8_to_u64 c u p in
        let i' := u64 (u64 (i * 100000000) + parse_eight_digits_unrolled_val v') in
        let* p' := advance 8 p in swar_loop fuel c u p' i'
      else Ok (p, i)
    else Ok (p, i)
  end.

(** loop_parse_if_eight_digits, both overloads, ascii_number.h:245-284 *)
Definition loop_parse_if_eight_digits (c : cfg) (u : uc) (p : list Z) (i : Z)
  : res (list Z * Z) :=
  if uc_is_char u then
    let* '(p, i) := swar_loop (S (length p)) c u p i in
    if is_clang c then
      if 4 <=? remaining p then
        let* v4 := read4_to_u32 c u p in
        if is_made_of_four_digits_fast v4 then
          let* p' := advance 4 p in
          Ok (p', u64 (u64 (i * 10000) + parse_four_digits_unrolled v4))
        else Ok (p, i)
      else Ok (p, i)
    else Ok (p, i)
  else if has_simd_opt c u then simd_loop (S (length p)) c p i
  else Ok (p, i).

(** is_space, float_common.h:1225-1227 *)
Definition is_space (ch : Z) : res bool :=
  if ch <? 256 then
    let* b := nth_res space_lut (u8 ch) in Ok (b =? 1)
  else Ok false.

(** ch_to_digit, float_common.h:1335-1343 *)
Definition ch_to_digit (u : uc) (ch : Z) : res Z :=
  let x := ch mod 2 ^ uc_bits u in
  let m := if Z.land x (2 ^ 64 - 256) =? 0 then 2 ^ uc_bits u - 1 else 0 in
  nth_res chdigit (u8 (Z.land x m)).

(** max_digits_u64, float_common.h:1345-1347 *)
Definition max_digits_u64 (base : Z) : res Z := nth_res maxdigits_u64 (base - 2).

(** min_safe_u64, float_common.h:1351-1353 *)
Definition min_safe_u64 (base : Z) : res Z := nth_res min_safe_u64_table (base - 2).

(** The case mask of fastfloat_strncasecmp3/5, float_common.h:301-311,348-391 *)
Definition case_mask (u : uc) : Z :=
  match uc_bits u with
  | 8 => 0x2020202020202020
  | 16 => 0x0020002000200020
  | _ => 0x0000002000000020
  end.

(** Elementwise comparison used in constant evaluation,
    float_common.h:315-320,351-356: [(actual[i] | 32) != expected[i]]. *)
Fixpoint casecmp_const (p expected : list Z) : res bool :=
  match expected with
  | [] => Ok true
  | e :: es =>
    let* ch := deref p in
    if Z.lor ch 32 =? e then casecmp_const (tl p) es else Ok false
  end.

(** Comparison of the next [length expected] units by masked 64-bit words:
    memcpy both sides, or the mask in (on both sides when [both]), compare.
    float_common.h:322-345,358-398,424-437. *)
Definition casecmp_word (c : cfg) (u : uc) (both : bool) (p expected : list Z) : res bool :=
  let* l := take (length expected) p in
  let v1 := Z.lor (mem_word c u 8 l) (case_mask u) in
  let v2 := mem_word c u 8 expected in
  let v2 := if both then Z.lor v2 (case_mask u) else v2 in
  Ok (v1 =? v2).

(** fastfloat_strncasecmp3, float_common.h:297-342 *)
Definition strncasecmp3 (c : cfg) (u : uc) (p e : list Z) : res bool :=
  if in_constexpr c then casecmp_const p (firstn 3 e)
  else match uc_bits u with
  | 8 | 16 => casecmp_word c u true p (firstn 3 e)
  | _ =>
    let* b := casecmp_word c u false p (firstn 2 e) in
    if b then
      let* p2 := advance 2 p in
      let* ch := deref p2 in
      let* x := nth_res e 2 in
      Ok (Z.lor ch 32 =? x)
    else Ok false
  end.

(** fastfloat_strncasecmp5, float_common.h:344-396 *)
Definition strncasecmp5 (c : cfg) (u : uc) (p e : list Z) : res bool :=
  if in_constexpr c then casecmp_const p (firstn 5 e)
  else match uc_bits u with
  | 8 => casecmp_word c u true p (firstn 5 e)
  | 16 =>
    let* b := casecmp_word c u false p (firstn 4 e) in
    if b then
      let* p4 := advance 4 p in
      let* ch := deref p4 in
      let* x := nth_res e 4 in
      Ok (Z.lor ch 32 =? x)
    else Ok false
  | _ =>
    let* b := casecmp_word c u false p (firstn 2 e) in
    if b then
      let* p2 := advance 2 p in
      let* b := casecmp_word c u false p2 (firstn 2 (skipn 2 e)) in
      if b then
        let* p4 := advance 4 p in
        let* ch := deref p4 in
        let* x := nth_res e 4 in
        Ok (Z.lor ch 32 =? x)
      else Ok false
    else Ok false
  end.

(** str_const_nan and str_const_inf, float_common.h:1243-1283 *)
Definition str_const_nan : list Z := [110; 97; 110].
(** float_common.h:1264-1283 *)
Definition str_const_inf : list Z := [105; 110; 102; 105; 110; 105; 116; 121].

(** leading_zeroes_generic, float_common.h:471-497 *)
Definition leading_zeroes_generic (x : Z) : Z :=
  let last := 0 in
  let '(x, last) := if Z.land x 0xffffffff00000000 =? 0 then (x, last)
                    else (Z.shiftr x 32, Z.lor last 32) in
  let '(x, last) := if Z.land x 0xffff0000 =? 0 then (x, last)
                    else (Z.shiftr x 16, Z.lor last 16) in
  let '(x, last) := if Z.land x 0xff00 =? 0 then (x, last)
                    else (Z.shiftr x 8, Z.lor last 8) in
  let '(x, last) := if Z.land x 0xf0 =? 0 then (x, last)
                    else (Z.shiftr x 4, Z.lor last 4) in
  let '(x, last) := if Z.land x 0xc =? 0 then (x, last)
                    else (Z.shiftr x 2, Z.lor last 2) in
  let last := if Z.land x 0x2 =? 0 then last else Z.lor last 1 in
  63 - last.

(** leading_zeroes, float_common.h:500-519: the intrinsics are undefined on 0
    and otherwise count the zero bits above the most significant one. *)
Definition leading_zeroes (c : cfg) (x : Z) : res Z :=
  if x =? 0 then UB
  else if in_constexpr c || negb (clz_builtin c) then Ok (leading_zeroes_generic x)
  else Ok (63 - Z.log2 x).

(** countr_zero_generic_32, float_common.h:522-548 *)
Definition countr_zero_generic_32 (x : Z) : Z :=
  if x =? 0 then 32 else
  let last := 0 in
  let '(x, last) := if Z.land x 0x0000FFFF =? 0 then (Z.shiftr x 16, Z.lor last 16)
                    else (x, last) in
  let '(x, last) := if Z.land x 0x00FF =? 0 then (Z.shiftr x 8, Z.lor last 8)
                    else (x, last) in
  let '(x, last) := if Z.land x 0x0F =? 0 then (Z.shiftr x 4, Z.lor last 4)
                    else (x, last) in
  let '(x, last) := if Z.land x 0x3 =? 0 then (Z.shiftr x 2, Z.lor last 2)
                    else (x, last) in
  if Z.land x 0x1 =? 0 then Z.lor last 1 else last.

(** __builtin_ctz / _BitScanForward on a nonzero word: index of the lowest set
    bit (positive numbers only); float_common.h:556-564. *)
Fixpoint ctz_pos (p : positive) : Z :=
  match p with xO p => 1 + ctz_pos p | _ => 0 end.

(** countr_zero_32, float_common.h:551-565 *)
Definition countr_zero_32 (c : cfg) (x : Z) : Z :=
  if in_constexpr c || negb (clz_builtin c) then countr_zero_generic_32 x
  else match x with Zpos p => ctz_pos p | _ => 32 end.

(** umul128_generic (with emulu), float_common.h:568-582; returns (low, high). *)
Definition umul128_generic (ab cd : Z) : Z * Z :=
  let ad := u32 (Z.shiftr ab 32) * u32 cd in
  let bd := u32 ab * u32 cd in
  let adbc := u64 (ad + u32 ab * u32 (Z.shiftr cd 32)) in
  let adbc_carry := if adbc <? ad then 1 else 0 in
  let lo := u64 (bd + u64 (Z.shiftl adbc 32)) in
  let hi := u64 (u64 (u64 (u32 (Z.shiftr ab 32) * u32 (Z.shiftr cd 32)
                 + Z.shiftr adbc 32) + Z.shiftl adbc_carry 32)
                 + (if lo <? bd then 1 else 0)) in
  (lo, hi).

(** full_multiplication, float_common.h:598-622; returns (low, high). *)
Definition full_multiplication (c : cfg) (a b : Z) : Z * Z :=
  if in_constexpr c || is_32bit c || negb (int128 c) then umul128_generic a b
  else (u64 (a * b), u64 (Z.shiftr (a * b) 64)).
