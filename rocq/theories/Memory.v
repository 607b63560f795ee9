(** The memory a call of the library touches: the text and the destination may
    overlap.  parse_number.h.

    The other files model a call as a function of the text.  Here the text lies in
    memory, the destination is a place in the same memory, and the stores to it
    happen when the code makes them, so that a read after a store sees it.  Only
    texts of char may lie in the bytes of another object; for the other character
    types an overlap is undefined behaviour of the language. *)
From Verif Require Import Machine Config Chars Format ParseNumber DecToBin DigitComp FromChars Ints.

(** Byte addresses to bytes; what [first], [last] and [value] refer to,
    parse_number.h:309-311. *)
Definition memory := Z -> Z.

(** The characters between first and first + n, parse_number.h:310: plain char is
    signed or unsigned *)
Definition text (u : uc) (m : memory) (first : Z) (n : nat) : list Z :=
  map (fun i => let b := m (first + Z.of_nat i) in if uc_signed u then to_signed 8 b else b) (seq 0 n).

(** sizeof(T), float_common.h:256-273 *)
Definition size_of (t : ftype) : Z := match t with F64 => 8 | F32 => 4 | F16 | BF16 => 2 end.

(** A store of an object of [size] bytes with the bit pattern [v] at address [d],
    parse_number.h:40,64,213-219,233-239 and float_common.h:1198-1201 *)
Definition store (c : cfg) (size : Z) (d v : Z) (m : memory) : memory := fun a =>
  if (d <=? a) && (a <? d + size) then
    let i := a - d in
    (v / 2 ^ (8 * (if big_endian c then size - 1 - i else i))) mod 256
  else m a.

(** What a call does: the returned pointer (an address), the error code, and the values
    stored in the destination, in the order of the stores; parse_number.h:309-394 *)
Record effect := { e_ptr : Z; e_ec : ec; e_stores : list Z }.

(** The memory after some of the stores, parse_number.h:213-219 *)
Definition after (c : cfg) (size d : Z) (stores : list Z) (m : memory) : memory :=
  fold_left (fun m v => store c size d v m) stores m.

(** clinger_fast_path_impl, parse_number.h:191-246, with each assignment to [value];
    [None] is [false].  An operand [value] is what was assigned to it just before. *)
Definition clinger_stores (c : cfg) (t : ftype) (mantissa exponent : Z) (is_negative : bool) : res (option (list Z)) :=
  let signed v := if is_negative then [fp_neg t v] else [] in
  if (min_exponent_fast_path c t <=? exponent) && (exponent <=? max_exponent_fast_path t) then
    if negb (in_constexpr c) && rounds_to_nearest c then
      if mantissa <=? max_mantissa_fast_path t then
        let v := fp_of_u64 c t mantissa in
        let* w := (if exponent <? 0 then
                     let* pw := exact_power_of_ten t (- exponent) in Ok (fp_div c t v pw)
                   else
                     let* pw := exact_power_of_ten t exponent in Ok (fp_mul c t v pw)) in
        Ok (Some ([v; w] ++ signed w))
      else Ok None
    else if 0 <=? exponent then
      let* mm := max_mantissa_fast_path_pow t exponent in
      if mantissa <=? mm then
        if (is_clang c || is_32bit c) && (mantissa =? 0) then
          Ok (Some [if is_negative then fp_neg t 0 else 0])
        else
          let* pw := exact_power_of_ten t exponent in
          let v := fp_mul c t (fp_of_u64 c t mantissa) pw in
          Ok (Some ([v] ++ signed v))
      else Ok None
    else Ok None
  else Ok None.

(** from_chars_advanced(parsed_number_string_t&, T&), parse_number.h:253-290: digit_comp
    reads the spans before to_float stores.  [last] is the address of the end. *)
Definition from_chars_advanced_effect (c : cfg) (u : uc) (t : ftype) (last : Z) (pns : parsed) : res effect :=
  let ptr := last - remaining (pn_lastmatch pns) in
  let* cl := (if negb (pn_too_many_digits pns) then
                clinger_stores c t (pn_mantissa pns) (pn_exponent pns) (pn_negative pns)
              else Ok None) in
  match cl with
  | Some l => Ok {| e_ptr := ptr; e_ec := Success; e_stores := l |}
  | None =>
    let* am := compute_float c t (pn_exponent pns) (pn_mantissa pns) in
    let* am := (if pn_too_many_digits pns && (0 <=? am_power2 am) then
                  let* am2 := compute_float c t (pn_exponent pns) (u64 (pn_mantissa pns + 1)) in
                  if am_neq am am2 then compute_error c t (pn_exponent pns) (pn_mantissa pns)
                  else Ok am
                else Ok am) in
    let* am := (if am_power2 am <? 0 then digit_comp c u t pns am else Ok am) in
    let* v := to_float t (pn_negative pns) am in
    Ok {| e_ptr := ptr; e_ec := range_ec t (pn_mantissa pns) am; e_stores := [v] |}
  end.

(** detail::parse_infnan, parse_number.h:22-71, on the [n] characters before [last].
    The NaN is stored (line 40) before the characters after the word are read (44-53),
    infinity (64) after all reads. *)
Definition parse_infnan_effect (c : cfg) (u : uc) (t : ftype) (m : memory) (last : Z) (n : nat) (d : Z) (fmt : Z) : res effect :=
  let p := text u m (last - Z.of_nat n) n in
  let* first := deref p in
  let minus := first =? 45 in
  let q := if (first =? 45) || (flag fmt f_allow_leading_plus && (first =? 43))
           then tl p else p in
  if 3 <=? remaining q then
    let* is_nan := strncasecmp3 c u q str_const_nan in
    if is_nan then
      let* q3 := advance 3 q in
      let v := if minus then fp_neg t (quiet_nan_bits t) else quiet_nan_bits t in
      let m' := store c (size_of t) d v m in
      let q3 := text u m' (last - remaining q3) (length q3) in
      let rest := match q3 with
                  | ch :: q4 => if ch =? 40 then
                                  match nan_payload q4 with Some r => r | None => q3 end
                                else q3
                  | [] => q3
                  end in
      Ok {| e_ptr := last - remaining rest; e_ec := Success; e_stores := [v] |}
    else
      let* is_inf := strncasecmp3 c u q str_const_inf in
      if is_inf then
        let* q3 := advance 3 q in
        let* long := (if 8 <=? remaining q then strncasecmp5 c u q3 (skipn 3 str_const_inf)
                      else Ok false) in
        let* rest := (if long then advance 8 q else Ok q3) in
        let v := if minus then fp_neg t (infinity_bits t) else infinity_bits t in
        Ok {| e_ptr := last - remaining rest; e_ec := Success; e_stores := [v] |}
      else Ok {| e_ptr := last - remaining p; e_ec := InvalidArgument; e_stores := [] |}
  else Ok {| e_ptr := last - remaining p; e_ec := InvalidArgument; e_stores := [] |}.

(** from_chars_float_advanced, parse_number.h:309-394, on the [n] characters at [first],
    with the destination at [d].  The second parse (299-307) happens before any store:
    a fast path that fails stores nothing. *)
Definition from_chars_float_effect (c : cfg) (u : uc) (t : ftype) (m : memory) (first : Z) (n : nat) (d : Z) (o : options) : res effect :=
  let last := first + Z.of_nat n in
  let fmt := adjust_for_feature_macros c (o_format o) in
  let* p := (if flag fmt f_skip_white_space then skip_ws (text u m first n) else Ok (text u m first n)) in
  match p with
  | [] => Ok {| e_ptr := last; e_ec := InvalidArgument; e_stores := [] |}
  | _ =>
    let bjf := flag fmt f_basic_json in
    let slow := let* pns := parse_number_string c u bjf p o true in from_chars_advanced_effect c u t last pns in
    let* pns := parse_number_string c u bjf p o false in
    if negb (pn_valid pns) then
      if flag fmt f_no_infnan then
        Ok {| e_ptr := last - remaining p; e_ec := InvalidArgument; e_stores := [] |}
      else parse_infnan_effect c u t m last (length p) d fmt
    else if pn_too_many_digits pns then slow
    else
      let* cl := clinger_stores c t (pn_mantissa pns) (pn_exponent pns) (pn_negative pns) in
      match cl with
      | Some l => Ok {| e_ptr := last - remaining (pn_lastmatch pns); e_ec := Success; e_stores := l |}
      | None =>
        let* am := compute_float c t (pn_exponent pns) (pn_mantissa pns) in
        if am_power2 am <? 0 then slow
        else
          let* v := to_float t (pn_negative pns) am in
          Ok {| e_ptr := last - remaining (pn_lastmatch pns); e_ec := range_ec t (pn_mantissa pns) am; e_stores := [v] |}
      end
  end.

(** from_chars for std::float32_t and std::float64_t, parse_number.h:149-181: the number
    is read into a local variable, which overlaps with nothing; one store at the end. *)
Definition from_chars_fixed_width_effect (c : cfg) (u : uc) (t : ftype) (m : memory) (first : Z) (n : nat) (d : Z) (fmt : Z) : res effect :=
  let* r := from_chars_fixed_width c u t (text u m first n) fmt in
  Ok {| e_ptr := first + Z.of_nat n - remaining (r_ptr r); e_ec := r_ec r;
        e_stores := match r_value r with Some v => [v] | None => [] end |}.

(** from_chars_int_advanced and parse_int_string, ascii_number.h:564-819: each path has
    at most one store to [value] and returns after it without reading the text
    (608-616, 655-663, 689-692, 732-741, 763-771, 804-818). *)
Definition from_chars_int_effect (c : cfg) (u : uc) (T : ity) (m : memory) (first : Z) (n : nat) (d : Z) (o : options) : res effect :=
  let* r := from_chars_int_advanced c u T (text u m first n) o in
  Ok {| e_ptr := first + Z.of_nat n - remaining (r_ptr r); e_ec := r_ec r;
        e_stores := match r_value r with Some v => [v] | None => [] end |}.
