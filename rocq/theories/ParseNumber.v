(** parse_number_string (ascii_number.h) and parse_infnan (parse_number.h). *)
From Verif Require Import Machine Config Chars Format.

(** enum class parse_error, ascii_number.h:286-303 *)
Inductive parse_error :=
| No_error | Missing_integer_after_sign | Missing_integer_or_dot_after_sign
| Leading_zeros_in_integer_part | No_digits_in_integer_part
| No_digits_in_fractional_part | No_digits_in_mantissa | Missing_exponential_part.

(** parsed_number_string_t, ascii_number.h:305-316.  A span is the list of its
    elements, [None] for a null span. *)
Record parsed := {
  pn_exponent : Z;
  pn_mantissa : Z;
  pn_lastmatch : list Z;
  pn_negative : bool;
  pn_valid : bool;
  pn_too_many_digits : bool;
  pn_integer : option (list Z);
  pn_fraction : option (list Z);
  pn_error : parse_error
}.

(** report_parse_error, ascii_number.h:321-329 *)
Definition report_parse_error (p : list Z) (e : parse_error) : parsed :=
  {| pn_exponent := 0; pn_mantissa := 0; pn_lastmatch := p; pn_negative := false;
     pn_valid := false; pn_too_many_digits := false; pn_integer := None;
     pn_fraction := None; pn_error := e |}.

(** [(p != pend) && is_integer( *p)], ascii_number.h:383-398,435,476,486. *)
Definition at_digit (u : uc) (p : list Z) : res bool :=
  match p with [] => Ok false | ch :: _ => is_integer u ch end.

(** [(p != pend) && ( *p == ch)], ascii_number.h:427,468-473. *)
Definition at_char (ch : Z) (p : list Z) : bool :=
  match p with [] => false | x :: _ => x =? ch end.

(** Body of one peeled iteration, ascii_number.h:386-388:
    if the next character is a digit, [k] continues with i = 10*i + digit. *)
Definition peel (u : uc) (p : list Z) (i : Z) (k : list Z -> Z -> res (list Z * Z))
  : res (list Z * Z) :=
  match p with
  | [] => Ok (p, i)
  | ch :: p' =>
    let* b := is_integer u ch in
    if b then
      let* d := minus_zero u ch in
      k p' (u64 (u64 (10 * i) + u64 d))
    else Ok (p, i)
  end.

(** The loop of ascii_number.h:398-404. *)
Fixpoint int_digit_loop (u : uc) (p : list Z) (i : Z) : res (list Z * Z) :=
  match p with
  | [] => Ok (p, i)
  | ch :: p' =>
    let* b := is_integer u ch in
    if b then
      let* d := minus_zero u ch in
      int_digit_loop u p' (u64 (u64 (10 * i) + u64 d))
    else Ok (p, i)
  end.

(** The peeled integer scan, ascii_number.h:377-409.  The first peeled step
    assigns [i = digit] instead of [10 * i + digit]; i is 0 there. *)
Definition scan_integer (u : uc) (p : list Z) : res (list Z * Z) :=
  match p with
  | [] => Ok (p, 0)
  | ch :: p' =>
    let* b := is_integer u ch in
    if b then
      let* d := minus_zero u ch in
      peel u p' (u64 d) (fun p i =>
      peel u p i (fun p i =>
      peel u p i (fun p i =>
      peel u p i (fun p i =>
      int_digit_loop u p i))))
    else Ok (p, 0)
  end.

(** The loop of ascii_number.h:435-439. *)
Fixpoint frac_digit_loop (u : uc) (p : list Z) (i : Z) : res (list Z * Z) :=
  match p with
  | [] => Ok (p, i)
  | ch :: p' =>
    let* b := is_integer u ch in
    if b then
      let* d := minus_zero u ch in
      frac_digit_loop u p' (u64 (u64 (i * 10) + u8 d))
    else Ok (p, i)
  end.

(** The loop of ascii_number.h:486-492 (exp_number is an int64_t). *)
Fixpoint exp_digit_loop (u : uc) (p : list Z) (e : Z) : res (list Z * Z) :=
  match p with
  | [] => Ok (p, e)
  | ch :: p' =>
    let* b := is_integer u ch in
    if b then
      let* d := minus_zero u ch in
      let* e := (if e <? 0x10000000 then
                   let* t := chk 64 (10 * e) in chk 64 (t + u8 d)
                 else Ok e) in
      exp_digit_loop u p' e
    else Ok (p, e)
  end.

(** The loop of ascii_number.h:519-524: skip '0' and the decimal point,
    decrementing digit_count for each '0'. *)
Fixpoint skip_leading (dp : Z) (p : list Z) (digit_count : Z) : res Z :=
  match p with
  | [] => Ok digit_count
  | ch :: p' =>
    if (ch =? 48) || (ch =? dp) then
      let* dc := (if ch =? 48 then chk 64 (digit_count - 1) else Ok digit_count) in
      skip_leading dp p' dc
    else Ok digit_count
  end.

(** The loops of ascii_number.h:540-543 and 549-552: accumulate digits of a
    span until 19 significant digits are reached; returns what is left. *)
Fixpoint nineteen_loop (u : uc) (p : list Z) (i : Z) : res (list Z * Z) :=
  match p with
  | [] => Ok (p, i)
  | ch :: p' =>
    if i <? 1000000000000000000 then
      let* d := minus_zero u ch in
      nineteen_loop u p' (u64 (u64 (i * 10) + u64 d))
    else Ok (p, i)
  end.

(** A span as a list, null spans being empty; float_common.h:445-459. *)
Definition span_list (s : option (list Z)) : list Z :=
  match s with Some l => l | None => [] end.

(** The exponent part, ascii_number.h:456-504.
    Returns [inl error] for a rejected number, otherwise
    [inr (p, exp_number, exponent)]. *)
Definition parse_exponent (u : uc) (fmt : Z) (p : list Z) (exponent : Z)
  : res (sum parsed (list Z * Z * Z)) :=
  if (flag fmt f_scientific && (at_char 101 p || at_char 69 p))
     || (flag fmt f_basic_fortran
         && (at_char 43 p || at_char 45 p || at_char 100 p || at_char 68 p)) then
    let location_of_e := p in
    let p := if at_char 101 p || at_char 69 p || at_char 100 p || at_char 68 p
             then tl p else p in
    let neg_exp := at_char 45 p in
    let p := if at_char 45 p then tl p
             else if at_char 43 p then tl p else p in
    let* dig := at_digit u p in
    if negb dig then
      if negb (flag fmt f_fixed) then
        Ok (inl (report_parse_error p Missing_exponential_part))
      else Ok (inr (location_of_e, 0, exponent))
    else
      let* '(p, exp_number) := exp_digit_loop u p 0 in
      let* exp_number := (if neg_exp then chk 64 (- exp_number) else Ok exp_number) in
      let* exponent := chk 64 (exponent + exp_number) in
      Ok (inr (p, exp_number, exponent))
  else if flag fmt f_scientific && negb (flag fmt f_fixed) then
    Ok (inl (report_parse_error p Missing_exponential_part))
  else Ok (inr (p, 0, exponent)).

(** The recomputation for more than 19 digits, ascii_number.h:532-556:
    returns the corrected (i, exponent).  [end_of_integer_part - p] is the
    number of integer digits left, [fraction.ptr - p] minus the number of
    fraction digits consumed. *)
Definition recompute (u : uc) (ip fp : option (list Z)) (exp_number : Z) : res (Z * Z) :=
  let* '(p, i) := nineteen_loop u (span_list ip) 0 in
  if 1000000000000000000 <=? i then
    let* e := chk 64 (remaining p + exp_number) in
    Ok (i, e)
  else
    let* '(p, i) := nineteen_loop u (span_list fp) i in
    let* e := chk 64 (remaining p - remaining (span_list fp) + exp_number) in
    Ok (i, e).

(** parse_number_string, ascii_number.h:340-562.  [bjf] is the template
    parameter basic_json_fmt.  Precondition of the code: p != pend. *)
Definition parse_number_string (c : cfg) (u : uc) (bjf : bool) (p : list Z)
  (o : options) (store_spans : bool) : res parsed :=
  let fmt := adjust_for_feature_macros c (o_format o) in
  let dp := o_decimal_point o in
  let* first := deref p in
  let negative := first =? 45 in
  (* 353-374: sign *)
  let* sgn :=
    (if (first =? 45) || (flag fmt f_allow_leading_plus && negb bjf && (first =? 43)) then
       let p := tl p in
       match p with
       | [] => Ok (inl (report_parse_error p Missing_integer_or_dot_after_sign))
       | ch :: _ =>
         let* dig := is_integer u ch in
         if bjf then
           if negb dig then Ok (inl (report_parse_error p Missing_integer_after_sign))
           else Ok (inr p)
         else
           if negb dig && negb (ch =? dp)
           then Ok (inl (report_parse_error p Missing_integer_or_dot_after_sign))
           else Ok (inr p)
       end
     else Ok (inr p)) in
  match sgn with
  | inl e => Ok e
  | inr p =>
    let start_digits := p in
    (* 377-414: integer part *)
    let* '(p, i) := scan_integer u p in
    let digit_count := remaining start_digits - remaining p in
    let ispan := firstn (length start_digits - length p) start_digits in
    let integer := if store_spans then Some ispan else None in
    (* 415-424 *)
    if bjf && (digit_count =? 0) then
      Ok (report_parse_error p No_digits_in_integer_part)
    else if bjf && at_char 48 start_digits && (1 <? digit_count) then
      Ok (report_parse_error start_digits Leading_zeros_in_integer_part)
    else
    (* 426-445: fraction *)
    let has_decimal_point := at_char dp p in
    let* '(p, i, exponent, digit_count, fraction) :=
      (if has_decimal_point then
         let before := tl p in
         let* '(p, i) := loop_parse_if_eight_digits c u before i in
         let* '(p, i) := frac_digit_loop u p i in
         let exponent := remaining p - remaining before in
         let fspan := firstn (length before - length p) before in
         let* dc := chk 64 (digit_count - exponent) in
         Ok (p, i, exponent, dc, if store_spans then Some fspan else None)
       else Ok (p, i, 0, digit_count, None)) in
    (* 446-455 *)
    if bjf && has_decimal_point && (exponent =? 0) then
      Ok (report_parse_error p No_digits_in_fractional_part)
    else if negb bjf && (digit_count =? 0) then
      Ok (report_parse_error p No_digits_in_mantissa)
    else
    (* 456-504: exponent *)
    let* er := parse_exponent u fmt p exponent in
    match er with
    | inl e => Ok e
    | inr (p, exp_number, exponent) =>
      let lastmatch := p in
      (* 513-558 *)
      let* '(i, exponent, too_many) :=
        (if 19 <? digit_count then
           let* dc := skip_leading dp start_digits digit_count in
           if 19 <? dc then
             if store_spans then
               let* '(i, exponent) := recompute u integer fraction exp_number in
               Ok (i, exponent, true)
             else Ok (i, exponent, true)
           else Ok (i, exponent, false)
         else Ok (i, exponent, false)) in
      Ok {| pn_exponent := exponent; pn_mantissa := i; pn_lastmatch := lastmatch;
            pn_negative := negative; pn_valid := true; pn_too_many_digits := too_many;
            pn_integer := integer; pn_fraction := fraction; pn_error := No_error |}
    end
  end.

(** The loop of parse_infnan over nan(n-char-seq), parse_number.h:45-53:
    [Some rest] when a closing parenthesis ends a valid sequence. *)
Fixpoint nan_payload (p : list Z) : option (list Z) :=
  match p with
  | [] => None
  | ch :: p' =>
    if ch =? 41 then Some p'
    else if ((97 <=? ch) && (ch <=? 122)) || ((65 <=? ch) && (ch <=? 90))
            || ((48 <=? ch) && (ch <=? 57)) || (ch =? 95)
    then nan_payload p'
    else None
  end.

(** detail::parse_infnan, parse_number.h:22-71 *)
Definition parse_infnan (c : cfg) (u : uc) (t : ftype) (p : list Z) (fmt : Z) : res result :=
  let* first := deref p in
  let minus := first =? 45 in
  let q := if (first =? 45) || (flag fmt f_allow_leading_plus && (first =? 43))
           then tl p else p in
  if 3 <=? remaining q then
    let* is_nan := strncasecmp3 c u q str_const_nan in
    if is_nan then
      let* q3 := advance 3 q in
      let v := if minus then fp_neg t (quiet_nan_bits t) else quiet_nan_bits t in
      let rest := match q3 with
                  | ch :: q4 => if ch =? 40 then
                                  match nan_payload q4 with Some r => r | None => q3 end
                                else q3
                  | [] => q3
                  end in
      Ok {| r_ptr := rest; r_ec := Success; r_value := Some v |}
    else
      let* is_inf := strncasecmp3 c u q str_const_inf in
      if is_inf then
        let* q3 := advance 3 q in
        let* long := (if 8 <=? remaining q then strncasecmp5 c u q3 (skipn 3 str_const_inf)
                      else Ok false) in
        let* rest := (if long then advance 8 q else Ok q3) in
        let v := if minus then fp_neg t (infinity_bits t) else infinity_bits t in
        Ok {| r_ptr := rest; r_ec := Success; r_value := Some v |}
      else Ok {| r_ptr := p; r_ec := InvalidArgument; r_value := None |}
  else Ok {| r_ptr := p; r_ec := InvalidArgument; r_value := None |}.
