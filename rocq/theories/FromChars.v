(** Floating-point entry points, parse_number.h. *)
From Verif Require Import Machine Config Chars Format ParseNumber DecToBin DigitComp.

(** clinger_fast_path_impl, parse_number.h:191-246; [Some bits] is [true]. *)
Definition clinger_fast_path_impl (c : cfg) (t : ftype) (mantissa exponent : Z)
  (is_negative : bool) : res (option Z) :=
  let apply_sign v := if is_negative then fp_neg t v else v in
  if (min_exponent_fast_path c t <=? exponent) && (exponent <=? max_exponent_fast_path t) then
    if negb (in_constexpr c) && rounds_to_nearest c then
      if mantissa <=? max_mantissa_fast_path t then
        let v := fp_of_u64 c t mantissa in
        if exponent <? 0 then
          let* pw := exact_power_of_ten t (- exponent) in
          Ok (Some (apply_sign (fp_div c t v pw)))
        else
          let* pw := exact_power_of_ten t exponent in
          Ok (Some (apply_sign (fp_mul c t v pw)))
      else Ok None
    else if 0 <=? exponent then
      let* mm := max_mantissa_fast_path_pow t exponent in
      if mantissa <=? mm then
        if (is_clang c || is_32bit c) && (mantissa =? 0) then
          Ok (Some (apply_sign 0))
        else
          let* pw := exact_power_of_ten t exponent in
          Ok (Some (apply_sign (fp_mul c t (fp_of_u64 c t mantissa) pw)))
      else Ok None
    else Ok None
  else Ok None.

(** The over/underflow test, parse_number.h:285-288 and 389-392. *)
Definition range_ec (t : ftype) (mantissa : Z) (am : adjusted_mantissa) : ec :=
  if (negb (mantissa =? 0) && (am_mantissa am =? 0) && (am_power2 am =? 0))
     || (am_power2 am =? inf_power t)
  then OutOfRange else Success.

(** from_chars_advanced(parsed_number_string_t&, T&), parse_number.h:253-290 *)
Definition from_chars_advanced_pns (c : cfg) (u : uc) (t : ftype) (pns : parsed) : res result :=
  let* cl := (if negb (pn_too_many_digits pns) then
                clinger_fast_path_impl c t (pn_mantissa pns) (pn_exponent pns) (pn_negative pns)
              else Ok None) in
  match cl with
  | Some v => Ok {| r_ptr := pn_lastmatch pns; r_ec := Success; r_value := Some v |}
  | None =>
    let* am := compute_float c t (pn_exponent pns) (pn_mantissa pns) in
    let* am := (if pn_too_many_digits pns && (0 <=? am_power2 am) then
                  let* am2 := compute_float c t (pn_exponent pns) (u64 (pn_mantissa pns + 1)) in
                  if am_neq am am2 then compute_error c t (pn_exponent pns) (pn_mantissa pns)
                  else Ok am
                else Ok am) in
    let* am := (if am_power2 am <? 0 then digit_comp c u t pns am else Ok am) in
    let* v := to_float t (pn_negative pns) am in
    Ok {| r_ptr := pn_lastmatch pns; r_ec := range_ec t (pn_mantissa pns) am; r_value := Some v |}
  end.

(** parse_number_slow_path, parse_number.h:299-307 *)
Definition parse_number_slow_path (c : cfg) (u : uc) (t : ftype) (p : list Z) (o : options)
  (bjf : bool) : res result :=
  let* pns := parse_number_string c u bjf p o true in
  from_chars_advanced_pns c u t pns.

(** The white-space loop, parse_number.h:322-326 and 502-506. *)
Fixpoint skip_ws (p : list Z) : res (list Z) :=
  match p with
  | [] => Ok p
  | ch :: p' => let* b := is_space ch in if b then skip_ws p' else Ok p
  end.

(** from_chars_float_advanced, parse_number.h:309-394; this is
    from_chars_advanced(first, last, value, options) for floating-point types
    (538-546). *)
Definition from_chars_float_advanced (c : cfg) (u : uc) (t : ftype) (p : list Z) (o : options)
  : res result :=
  let fmt := adjust_for_feature_macros c (o_format o) in
  let* p := (if flag fmt f_skip_white_space then skip_ws p else Ok p) in
  match p with
  | [] => Ok {| r_ptr := p; r_ec := InvalidArgument; r_value := None |}
  | _ =>
    let bjf := flag fmt f_basic_json in
    let* pns := parse_number_string c u bjf p o false in
    if negb (pn_valid pns) then
      if flag fmt f_no_infnan then
        Ok {| r_ptr := p; r_ec := InvalidArgument; r_value := None |}
      else parse_infnan c u t p fmt
    else if pn_too_many_digits pns then parse_number_slow_path c u t p o bjf
    else
      let* cl := clinger_fast_path_impl c t (pn_mantissa pns) (pn_exponent pns)
                   (pn_negative pns) in
      match cl with
      | Some v => Ok {| r_ptr := pn_lastmatch pns; r_ec := Success; r_value := Some v |}
      | None =>
        let* am := compute_float c t (pn_exponent pns) (pn_mantissa pns) in
        if am_power2 am <? 0 then parse_number_slow_path c u t p o bjf
        else
          let* v := to_float t (pn_negative pns) am in
          Ok {| r_ptr := pn_lastmatch pns; r_ec := range_ec t (pn_mantissa pns) am;
                r_value := Some v |}
      end
  end.

(** from_chars for float and double (and float16_t, bfloat16_t),
    parse_number.h:140-147,183-189: general options, '.' as decimal point. *)
Definition from_chars_float (c : cfg) (u : uc) (t : ftype) (p : list Z) (fmt : Z) : res result :=
  from_chars_float_advanced c u t p {| o_format := fmt; o_decimal_point := 46; o_base := 10 |}.

(** from_chars for std::float32_t / std::float64_t, parse_number.h:149-181: the
    temporary starts at +0 and is copied to the destination unconditionally. *)
Definition from_chars_fixed_width (c : cfg) (u : uc) (t : ftype) (p : list Z) (fmt : Z)
  : res result :=
  let* r := from_chars_float c u t p fmt in
  Ok {| r_ptr := r_ptr r; r_ec := r_ec r;
        r_value := match r_value r with Some v => Some v | None => Some 0 end |}.

(** integer_times_pow10<T>(uint64_t, int), parse_number.h:410-422 *)
Definition integer_times_pow10_u (c : cfg) (t : ftype) (m e : Z) : res Z :=
  let* cl := clinger_fast_path_impl c t m e false in
  match cl with
  | Some v => Ok v
  | None => let* am := compute_float c t e m in to_float t false am
  end.

(** integer_times_pow10<T>(int64_t, int), parse_number.h:424-438;
    [-mantissa] is signed 64-bit arithmetic. *)
Definition integer_times_pow10_s (c : cfg) (t : ftype) (m e : Z) : res Z :=
  let is_negative := m <? 0 in
  let* a := (if is_negative then chk 64 (- m) else Ok m) in
  let a := u64 a in
  let* cl := clinger_fast_path_impl c t a e is_negative in
  match cl with
  | Some v => Ok v
  | None => let* am := compute_float c t e a in to_float t is_negative am
  end.

(** The overloads for other integer types, parse_number.h:452-486: the
    argument is converted to uint64_t or int64_t. *)
Definition integer_times_pow10_any (c : cfg) (t : ftype) (is_signed : bool) (m e : Z) : res Z :=
  if is_signed then integer_times_pow10_s c t (to_signed 64 m) e
  else integer_times_pow10_u c t (u64 m) e.
