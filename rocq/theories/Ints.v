(** Integer parsing: parse_int_string (ascii_number.h) and its entry points
    (parse_number.h). *)
From Verif Require Import Machine Config Chars ParseNumber FromChars.

(** An integer destination type: signedness, number of bits of its range
    (1 for bool), and which of the std::is_same tests it satisfies
    (float_common.h:283, ascii_number.h:604,697,790). *)
Record ity := {
  i_signed : bool;
  i_bits : Z;
  i_is_u8 : bool;
  i_is_u16 : bool;
  i_is_u64 : bool
}.

(** std::numeric_limits<T>::max(), ascii_number.h:791,808-809 *)
Definition i_max (T : ity) : Z :=
  if i_signed T then 2 ^ (i_bits T - 1) - 1 else 2 ^ i_bits T - 1.

(** [while (p != pend && *p == UC('0')) ++p], ascii_number.h:595-597 *)
Fixpoint int_skip_zeros (p : list Z) : list Z :=
  match p with
  | [] => []
  | ch :: p' => if ch =? 48 then int_skip_zeros p' else p
  end.

(** Result of a run without digits, ascii_number.h:606-617,654-664,762-772 *)
Definition no_digits (has_leading_zeros : bool) (first p : list Z) : result :=
  if has_leading_zeros then {| r_ptr := p; r_ec := Success; r_value := Some 0 |}
  else {| r_ptr := first; r_ec := InvalidArgument; r_value := None |}.

(** A range error, ascii_number.h:673-676,684-687,778-793 *)
Definition out_of_range (p : list Z) : result :=
  {| r_ptr := p; r_ec := OutOfRange; r_value := None |}.
(** A successful result, ascii_number.h:689-692,732-741,814-818 *)
Definition success (p : list Z) (v : Z) : result :=
  {| r_ptr := p; r_ec := Success; r_value := Some v |}.

(** The tail loop of the uint8_t path, ascii_number.h:668-673. *)
Fixpoint skip_plain_digits (p : list Z) : list Z :=
  match p with
  | [] => []
  | ch :: p' => if (ch <? 48) || (57 <? ch) then p else skip_plain_digits p'
  end.

(** The tail loop of the uint16_t path, ascii_number.h:721-723. *)
Fixpoint skip_integer_digits (u : uc) (p : list Z) : res (list Z) :=
  match p with
  | [] => Ok p
  | ch :: p' => let* b := is_integer u ch in if b then skip_integer_digits u p' else Ok p
  end.

(** The word of up to four characters of the uint8_t path, ascii_number.h:619-647 *)
Definition u8_digits (c : cfg) (u : uc) (p : list Z) : res Z :=
  let len := remaining p in
  if in_constexpr c then
    (* bit_cast of a zero-filled array of four bytes *)
    let l := firstn 4 p in
    let v := mem_word c u 4 l in
    Ok (if big_endian c then byteswap_32 v else v)
  else if 4 <=? len then
    let* l := take 4 p in
    let v := mem_word c u 4 l in
    Ok (if big_endian c then byteswap_32 v else v)
  else
    let* p0 := nth_res p 0 in
    let* b1 := (if 1 <? len then let* x := nth_res p 1 in Ok (u8 x) else Ok 0xFF) in
    let* b2 := (if 2 <? len then let* x := nth_res p 2 in Ok (u8 x) else Ok 0xFF) in
    Ok (Z.lor (Z.lor (Z.lor (u8 p0) (u32 (Z.shiftl b1 8))) (u32 (Z.shiftl b2 16)))
              (u32 (Z.shiftl 0xFF 24))).

(** The uint8_t fast path, ascii_number.h:603-694 *)
Definition parse_u8 (c : cfg) (u : uc) (has_leading_zeros : bool) (first p : list Z)
  : res result :=
  let len := remaining p in
  if len =? 0 then Ok (no_digits has_leading_zeros first p)
  else
    let* digits := u8_digits c u p in
    let magic := Z.land (Z.lor (u32 (digits + 0x46464646)) (u32 (digits - 0x30303030)))
                        0x80808080 in
    let tz := countr_zero_32 c magic in
    let nd := if tz =? 32 then 4 else Z.shiftr tz 3 in
    let nd := if nd <? len then nd else len in
    if nd =? 0 then Ok (no_digits has_leading_zeros first p)
    else if 3 <? nd then
      let* q := advance (Z.to_nat nd) p in
      Ok (out_of_range (skip_plain_digits q))
    else
      let digits := Z.lxor digits 0x30303030 in
      let* digits := shl 32 digits ((4 - nd) * 8) in
      let check := Z.lor (Z.lor (Z.land (Z.shiftr digits 24) 0xff)
                                (Z.land (Z.shiftr digits 8) 0xff00))
                         (Z.land (u32 (Z.shiftl digits 8)) 0xff0000) in
      let* q := advance (Z.to_nat nd) p in
      if 0x00020505 <? check then Ok (out_of_range q)
      else Ok (success q (u8 (Z.shiftr (u32 (0x640a01 * digits)) 24))).

(** The uint16_t fast path, ascii_number.h:696-745; [None] falls through to
    the general code. *)
Definition parse_u16 (c : cfg) (u : uc) (has_leading_zeros : bool) (first p : list Z)
  : res (option result) :=
  let len := remaining p in
  if len =? 0 then Ok (Some (no_digits has_leading_zeros first p))
  else if 4 <=? len then
    let* digits := read4_to_u32 c u p in
    if is_made_of_four_digits_fast digits then
      let v := parse_four_digits_unrolled digits in
      let* d5 := (if 5 <=? len then
                    let* x := nth_res p 4 in
                    let* b := is_integer u x in Ok b
                  else Ok false) in
      if d5 then
        let* x := nth_res p 4 in
        let* d := minus_zero u x in
        let v := u32 (u32 (v * 10) + u32 d) in
        let* d6 := (if 6 <=? len then let* y := nth_res p 5 in is_integer u y else Ok false) in
        let* q := advance 5 p in
        if d6 then
          let* q' := skip_integer_digits u q in
          Ok (Some (out_of_range q'))
        else if 65535 <? v then Ok (Some (out_of_range q))
        else Ok (Some (success q (u16 v)))
      else
        let* q := advance 4 p in
        Ok (Some (success q (u16 v)))
    else Ok None
  else Ok None.

(** The general digit loop, ascii_number.h:751-758. *)
Fixpoint int_loop (u : uc) (base : Z) (p : list Z) (i : Z) : res (list Z * Z) :=
  match p with
  | [] => Ok (p, i)
  | ch :: p' =>
    let* d := ch_to_digit u ch in
    if base <=? d then Ok (p, i)
    else int_loop u base p' (u64 (u64 (base * i) + d))
  end.

(** The general path, ascii_number.h:747-818. *)
Definition parse_int_general (c : cfg) (u : uc) (T : ity) (base : Z) (negative : bool)
  (has_leading_zeros : bool) (first start_digits : list Z) : res result :=
  let p := start_digits in
  let* '(p, i) := (if base =? 10 then loop_parse_if_eight_digits c u p 0 else Ok (p, 0)) in
  let* '(p, i) := int_loop u base p i in
  let digit_count := remaining start_digits - remaining p in
  if digit_count =? 0 then Ok (no_digits has_leading_zeros first p)
  else
    let* maxd := max_digits_u64 base in
    if maxd <? digit_count then Ok (out_of_range p)
    else
      let* safe := min_safe_u64 base in
      if (digit_count =? maxd) && (i <? safe) then Ok (out_of_range p)
      else if negb (i_is_u64 T) && (u64 (i_max T + (if negative then 1 else 0)) <? i) then
        Ok (out_of_range p)
      else if negative then
        (* T(-max - T(i - uint64_t(max))) in the promoted type *)
        let d := to_signed (i_bits T) (u64 (i - i_max T)) in
        let* v := chk (Z.max 32 (i_bits T)) (- i_max T - d) in
        Ok (success p (to_signed (i_bits T) v))
      else Ok (success p (if i_signed T then to_signed (i_bits T) i
                          else if i_bits T =? 1 then (if i =? 0 then 0 else 1)
                          else i mod 2 ^ i_bits T)).

(** parse_int_string, ascii_number.h:564-819 *)
Definition parse_int_string (c : cfg) (u : uc) (T : ity) (p : list Z) (o : options)
  : res result :=
  let fmt := adjust_for_feature_macros c (o_format o) in
  let base := o_base o in
  let first := p in
  let* ch := deref p in
  let negative := ch =? 45 in
  if negb (i_signed T) && negative then
    Ok {| r_ptr := first; r_ec := InvalidArgument; r_value := None |}
  else
    let p := if (ch =? 45) || (flag fmt f_allow_leading_plus && (ch =? 43)) then tl p else p in
    let start_num := p in
    let p := int_skip_zeros p in
    let has_leading_zeros := remaining p <? remaining start_num in
    if i_is_u8 T && (uc_size u =? 1) && (base =? 10) then
      parse_u8 c u has_leading_zeros first p
    else
      let* r := (if i_is_u16 T && (uc_size u =? 1) && (base =? 10)
                 then parse_u16 c u has_leading_zeros first p else Ok None) in
      match r with
      | Some r => Ok r
      | None => parse_int_general c u T base negative has_leading_zeros first p
      end.

(** from_chars_int_advanced, parse_number.h:488-514; this is
    from_chars_advanced(first, last, value, options) for integer types. *)
Definition from_chars_int_advanced (c : cfg) (u : uc) (T : ity) (p : list Z) (o : options)
  : res result :=
  let fmt := adjust_for_feature_macros c (o_format o) in
  let base := o_base o in
  let* p := (if flag fmt f_skip_white_space then skip_ws p else Ok p) in
  match p with
  | [] => Ok {| r_ptr := p; r_ec := InvalidArgument; r_value := None |}
  | _ =>
    if (base <? 2) || (36 <? base) then
      Ok {| r_ptr := p; r_ec := InvalidArgument; r_value := None |}
    else parse_int_string c u T p o
  end.

(** from_chars for integer types, parse_number.h:396-408 *)
Definition from_chars_int (c : cfg) (u : uc) (T : ity) (p : list Z) (base : Z) : res result :=
  from_chars_int_advanced c u T p {| o_format := f_general; o_decimal_point := 46; o_base := base |}.
