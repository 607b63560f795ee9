(** The running time of the parser: a copy of every function of the model that
    contains a loop, directly or through a call, which also counts the rounds
    of the loops it runs.

    Nothing else is changed: CostErase.v proves of every function [f_n] below
    that forgetting the count gives the function [f] of the model on the same
    arguments.  A [tick] stands on every round of a loop of the code, and
    [charge n] on the loops that the model writes as list operations (copying,
    filling, moving and scanning limbs; scanning characters), which run at most
    n rounds.  Straight-line code is not counted, and neither are loops whose
    number of rounds is a small constant of the source (the four or eight
    characters that make up one machine word, the 3 or 5 letters of a special
    value). *)
From Verif Require Import Machine Config Tables Chars Format ParseNumber Bigint DecToBin DigitComp
  FromChars Ints.
Open Scope Z_scope.

(** A computation that returns a value and the number of rounds it took (not in
    the code: this is the measure of C60). *)
Record run (A : Type) : Type := Run { outcome : res (A * Z) }.
Arguments Run {A} _.
Arguments outcome {A} _.

(** A computation without loops takes no rounds (part of the measure). *)
Definition lift {A} (m : res A) : run A :=
  Run (match m with Ok x => Ok (x, 0) | UB => UB end).
Coercion lift : res >-> run.
(** A value that takes no rounds (part of the measure). *)
Definition pure {A} (x : A) : run A := lift (Ok x).
(** One round more than [m] (part of the measure). *)
Definition tick {A} (m : run A) : run A :=
  Run (match outcome m with Ok (x, n) => Ok (x, n + 1) | UB => UB end).
(** The value [x], found in [n] rounds (part of the measure). *)
Definition charge {A} (n : Z) (x : A) : run A := Run (Ok (x, n)).
(** First [m], then [k] (part of the measure). *)
Definition seq {A B} (m : run A) (k : A -> run B) : run B :=
  Run (match outcome m with
       | Ok (x, n) => match outcome (k x) with Ok (y, j) => Ok (y, n + j) | UB => UB end
       | UB => UB
       end).
Notation "'let+' x ':=' m 'in' k" := (seq m (fun x => k))
  (at level 200, x name, m at level 100, k at level 200, right associativity).
Notation "'let+' ' p ':=' m 'in' k" := (seq m (fun p => k))
  (at level 200, p strict pattern, m at level 100, k at level 200, right associativity).

(** What is left of a computation when the count is forgotten (part of the measure). *)
Definition erase {A} (m : run A) : res A :=
  match outcome m with Ok (x, _) => Ok x | UB => UB end.

(** try_extend with the copying of the limbs, bigint.h:101-115 *)
Definition try_extend_n (c : cfg) (v s : list Z) : run (bool * list Z) :=
  charge (vlen s) (try_extend c v s).
(** try_resize with the filling of new limbs, bigint.h:120-141 *)
Definition try_resize_n (c : cfg) (v : list Z) (n x : Z) : run (bool * list Z) :=
  charge (Z.max 0 (Z.min (bigint_limbs c) n - vlen v)) (try_resize c v n x).
(** nonzero, looking at the limbs from the top, bigint.h:146-154 *)
Definition nonzero_n (v : list Z) (i : Z) : run bool := charge (vlen v) (nonzero v i).
(** normalize, dropping zero limbs, bigint.h:157-161 *)
Definition normalize_n (v : list Z) : run (list Z) := charge (vlen v) (normalize v).

(** ** Chars.v *)

(** The while loop of loop_parse_if_eight_digits for UC != char,
    ascii_number.h:251-255.  Fuel: one unit per iteration. *)
Fixpoint simd_loop_n (fuel : nat) (c : cfg) (p : list Z) (i : Z) : run (list Z * Z) :=
  match fuel with
  | O => UB
  | S fuel =>
    if 8 <=? remaining p then
      let+ r := simd_parse_if_eight_digits_unrolled c p i in
      match r with
      | None => Ok (p, i)
      | Some i' => let+ p' := advance 8 p in tick (simd_loop_n fuel c p' i')
      end
    else Ok (p, i)
  end.

(** The while loop of loop_parse_if_eight_digits for char,
    ascii_number.h:262-268. *)
Fixpoint swar_loop_n (fuel : nat) (c : cfg) (u : uc) (p : list Z) (i : Z) : run (list Z * Z) :=
  match fuel with
  | O => UB
  | S fuel =>
    if 8 <=? remaining p then
      let+ v := read8_to_u64 c u p in
      if is_made_of_eight_digits_fast v then
        let+ v' := read8_to_u64 c u p in
        let i' := u64 (u64 (i * 100000000) + parse_eight_digits_unrolled_val v') in
        let+ p' := advance 8 p in tick (swar_loop_n fuel c u p' i')
      else Ok (p, i)
    else Ok (p, i)
  end.

(** loop_parse_if_eight_digits, both overloads, ascii_number.h:245-284 *)
Definition loop_parse_if_eight_digits_n (c : cfg) (u : uc) (p : list Z) (i : Z)
  : run (list Z * Z) :=
  if uc_is_char u then
    let+ '(p, i) := swar_loop_n (S (length p)) c u p i in
    if is_clang c then
      if 4 <=? remaining p then
        let+ v4 := read4_to_u32 c u p in
        if is_made_of_four_digits_fast v4 then
          let+ p' := advance 4 p in
          Ok (p', u64 (u64 (i * 10000) + parse_four_digits_unrolled v4))
        else Ok (p, i)
      else Ok (p, i)
    else Ok (p, i)
  else if has_simd_opt c u then simd_loop_n (S (length p)) c p i
  else Ok (p, i).


(** ** ParseNumber.v *)

(** Body of one peeled iteration, ascii_number.h:386-388:
    if the next character is a digit, [k] continues with i = 10*i + digit. *)
Definition peel_n (u : uc) (p : list Z) (i : Z) (k : list Z -> Z -> run (list Z * Z))
  : run (list Z * Z) :=
  match p with
  | [] => Ok (p, i)
  | ch :: p' =>
    let+ b := is_integer u ch in
    if b then
      let+ d := minus_zero u ch in
      k p' (u64 (u64 (10 * i) + u64 d))
    else Ok (p, i)
  end.

(** The loop of ascii_number.h:398-404. *)
Fixpoint int_digit_loop_n (u : uc) (p : list Z) (i : Z) : run (list Z * Z) :=
  match p with
  | [] => Ok (p, i)
  | ch :: p' =>
    let+ b := is_integer u ch in
    if b then
      let+ d := minus_zero u ch in
      tick (int_digit_loop_n u p' (u64 (u64 (10 * i) + u64 d)))
    else Ok (p, i)
  end.

(** The peeled integer scan, ascii_number.h:377-409.  The first peeled step
    assigns [i = digit] instead of [10 * i + digit]; i is 0 there. *)
Definition scan_integer_n (u : uc) (p : list Z) : run (list Z * Z) :=
  match p with
  | [] => Ok (p, 0)
  | ch :: p' =>
    let+ b := is_integer u ch in
    if b then
      let+ d := minus_zero u ch in
      peel_n u p' (u64 d) (fun p i =>
      peel_n u p i (fun p i =>
      peel_n u p i (fun p i =>
      peel_n u p i (fun p i =>
      int_digit_loop_n u p i))))
    else Ok (p, 0)
  end.

(** The loop of ascii_number.h:435-439. *)
Fixpoint frac_digit_loop_n (u : uc) (p : list Z) (i : Z) : run (list Z * Z) :=
  match p with
  | [] => Ok (p, i)
  | ch :: p' =>
    let+ b := is_integer u ch in
    if b then
      let+ d := minus_zero u ch in
      tick (frac_digit_loop_n u p' (u64 (u64 (i * 10) + u8 d)))
    else Ok (p, i)
  end.

(** The loop of ascii_number.h:486-492 (exp_number is an int64_t). *)
Fixpoint exp_digit_loop_n (u : uc) (p : list Z) (e : Z) : run (list Z * Z) :=
  match p with
  | [] => Ok (p, e)
  | ch :: p' =>
    let+ b := is_integer u ch in
    if b then
      let+ d := minus_zero u ch in
      let+ e := (if e <? 0x10000000 then
                   let+ t := chk 64 (10 * e) in chk 64 (t + u8 d)
                 else Ok e) in
      tick (exp_digit_loop_n u p' e)
    else Ok (p, e)
  end.

(** The loop of ascii_number.h:519-524: skip '0' and the decimal point,
    decrementing digit_count for each '0'. *)
Fixpoint skip_leading_n (dp : Z) (p : list Z) (digit_count : Z) : run Z :=
  match p with
  | [] => Ok digit_count
  | ch :: p' =>
    if (ch =? 48) || (ch =? dp) then
      let+ dc := (if ch =? 48 then chk 64 (digit_count - 1) else Ok digit_count) in
      tick (skip_leading_n dp p' dc)
    else Ok digit_count
  end.

(** The loops of ascii_number.h:540-543 and 549-552: accumulate digits of a
    span until 19 significant digits are reached; returns what is left. *)
Fixpoint nineteen_loop_n (u : uc) (p : list Z) (i : Z) : run (list Z * Z) :=
  match p with
  | [] => Ok (p, i)
  | ch :: p' =>
    if i <? 1000000000000000000 then
      let+ d := minus_zero u ch in
      tick (nineteen_loop_n u p' (u64 (u64 (i * 10) + u64 d)))
    else Ok (p, i)
  end.

(** The exponent part, ascii_number.h:456-504.
    Returns [inl error] for a rejected number, otherwise
    [inr (p, exp_number, exponent)]. *)
Definition parse_exponent_n (u : uc) (fmt : Z) (p : list Z) (exponent : Z)
  : run (sum parsed (list Z * Z * Z)) :=
  if (flag fmt f_scientific && (at_char 101 p || at_char 69 p))
     || (flag fmt f_basic_fortran
         && (at_char 43 p || at_char 45 p || at_char 100 p || at_char 68 p)) then
    let location_of_e := p in
    let p := if at_char 101 p || at_char 69 p || at_char 100 p || at_char 68 p
             then tl p else p in
    let neg_exp := at_char 45 p in
    let p := if at_char 45 p then tl p
             else if at_char 43 p then tl p else p in
    let+ dig := at_digit u p in
    if negb dig then
      if negb (flag fmt f_fixed) then
        Ok (inl (report_parse_error p Missing_exponential_part))
      else Ok (inr (location_of_e, 0, exponent))
    else
      let+ '(p, exp_number) := exp_digit_loop_n u p 0 in
      let+ exp_number := (if neg_exp then chk 64 (- exp_number) else Ok exp_number) in
      let+ exponent := chk 64 (exponent + exp_number) in
      Ok (inr (p, exp_number, exponent))
  else if flag fmt f_scientific && negb (flag fmt f_fixed) then
    Ok (inl (report_parse_error p Missing_exponential_part))
  else Ok (inr (p, 0, exponent)).

(** The recomputation for more than 19 digits, ascii_number.h:532-556:
    returns the corrected (i, exponent).  [end_of_integer_part - p] is the
    number of integer digits left, [fraction.ptr - p] minus the number of
    fraction digits consumed. *)
Definition recompute_n (u : uc) (ip fp : option (list Z)) (exp_number : Z) : run (Z * Z) :=
  let+ '(p, i) := nineteen_loop_n u (span_list ip) 0 in
  if 1000000000000000000 <=? i then
    let+ e := chk 64 (remaining p + exp_number) in
    Ok (i, e)
  else
    let+ '(p, i) := nineteen_loop_n u (span_list fp) i in
    let+ e := chk 64 (remaining p - remaining (span_list fp) + exp_number) in
    Ok (i, e).

(** parse_number_string, ascii_number.h:340-562.  [bjf] is the template
    parameter basic_json_fmt.  Precondition of the code: p != pend. *)
Definition parse_number_string_n (c : cfg) (u : uc) (bjf : bool) (p : list Z)
  (o : options) (store_spans : bool) : run parsed :=
  let fmt := adjust_for_feature_macros c (o_format o) in
  let dp := o_decimal_point o in
  let+ first := deref p in
  let negative := first =? 45 in
  (* 353-374: sign *)
  let+ sgn :=
    (if (first =? 45) || (flag fmt f_allow_leading_plus && negb bjf && (first =? 43)) then
       let p := tl p in
       match p with
       | [] => Ok (inl (report_parse_error p Missing_integer_or_dot_after_sign))
       | ch :: _ =>
         let+ dig := is_integer u ch in
         if bjf then
           if negb dig then Ok (inl (report_parse_error p Missing_integer_after_sign))
           else Ok (inr p)
         else
           if negb dig && negb (ch =? dp)
           then Ok (inl (report_parse_error p Missing_integer_or_dot_after_sign))
           else Ok (inr p)
       end
     else Ok (inr p)) in
  match sgn with
  | inl e => Ok e
  | inr p =>
    let start_digits := p in
    (* 377-414: integer part *)
    let+ '(p, i) := scan_integer_n u p in
    let digit_count := remaining start_digits - remaining p in
    let ispan := firstn (length start_digits - length p) start_digits in
    let integer := if store_spans then Some ispan else None in
    (* 415-424 *)
    if bjf && (digit_count =? 0) then
      Ok (report_parse_error p No_digits_in_integer_part)
    else if bjf && at_char 48 start_digits && (1 <? digit_count) then
      Ok (report_parse_error start_digits Leading_zeros_in_integer_part)
    else
    (* 426-445: fraction *)
    let has_decimal_point := at_char dp p in
    let+ '(p, i, exponent, digit_count, fraction) :=
      (if has_decimal_point then
         let before := tl p in
         let+ '(p, i) := loop_parse_if_eight_digits_n c u before i in
         let+ '(p, i) := frac_digit_loop_n u p i in
         let exponent := remaining p - remaining before in
         let fspan := firstn (length before - length p) before in
         let+ dc := chk 64 (digit_count - exponent) in
         Ok (p, i, exponent, dc, if store_spans then Some fspan else None)
       else Ok (p, i, 0, digit_count, None)) in
    (* 446-455 *)
    if bjf && has_decimal_point && (exponent =? 0) then
      Ok (report_parse_error p No_digits_in_fractional_part)
    else if negb bjf && (digit_count =? 0) then
      Ok (report_parse_error p No_digits_in_mantissa)
    else
    (* 456-504: exponent *)
    let+ er := parse_exponent_n u fmt p exponent in
    match er with
    | inl e => Ok e
    | inr (p, exp_number, exponent) =>
      let lastmatch := p in
      (* 513-558 *)
      let+ '(i, exponent, too_many) :=
        (if 19 <? digit_count then
           let+ dc := skip_leading_n dp start_digits digit_count in
           if 19 <? dc then
             if store_spans then
               let+ '(i, exponent) := recompute_n u integer fraction exp_number in
               Ok (i, exponent, true)
             else Ok (i, exponent, true)
           else Ok (i, exponent, false)
         else Ok (i, exponent, false)) in
      Ok {| pn_exponent := exponent; pn_mantissa := i; pn_lastmatch := lastmatch;
            pn_negative := negative; pn_valid := true; pn_too_many_digits := too_many;
            pn_integer := integer; pn_fraction := fraction; pn_error := No_error |}
    end
  end.

(** The loop of parse_infnan over nan(n-char-seq), parse_number.h:45-53:
    [Some rest] when a closing parenthesis ends a valid sequence. *)
Fixpoint nan_payload_n (p : list Z) : run (option (list Z)) :=
  match p with
  | [] => pure None
  | ch :: p' =>
    if ch =? 41 then pure (Some p')
    else if ((97 <=? ch) && (ch <=? 122)) || ((65 <=? ch) && (ch <=? 90))
            || ((48 <=? ch) && (ch <=? 57)) || (ch =? 95)
    then tick (nan_payload_n p')
    else pure None
  end.

(** detail::parse_infnan, parse_number.h:22-71 *)
Definition parse_infnan_n (c : cfg) (u : uc) (t : ftype) (p : list Z) (fmt : Z) : run result :=
  let+ first := deref p in
  let minus := first =? 45 in
  let q := if (first =? 45) || (flag fmt f_allow_leading_plus && (first =? 43))
           then tl p else p in
  if 3 <=? remaining q then
    let+ is_nan := strncasecmp3 c u q str_const_nan in
    if is_nan then
      let+ q3 := advance 3 q in
      let v := if minus then fp_neg t (quiet_nan_bits t) else quiet_nan_bits t in
      let+ rest := match q3 with
                   | ch :: q4 => if ch =? 40 then
                                   let+ o := nan_payload_n q4 in
                                   pure (match o with Some r => r | None => q3 end)
                                 else pure q3
                   | [] => pure q3
                   end in
      Ok {| r_ptr := rest; r_ec := Success; r_value := Some v |}
    else
      let+ is_inf := strncasecmp3 c u q str_const_inf in
      if is_inf then
        let+ q3 := advance 3 q in
        let+ long := (if 8 <=? remaining q then strncasecmp5 c u q3 (skipn 3 str_const_inf)
                      else Ok false) in
        let+ rest := (if long then advance 8 q else Ok q3) in
        let v := if minus then fp_neg t (infinity_bits t) else infinity_bits t in
        Ok {| r_ptr := rest; r_ec := Success; r_value := Some v |}
      else Ok {| r_ptr := p; r_ec := InvalidArgument; r_value := None |}
  else Ok {| r_ptr := p; r_ec := InvalidArgument; r_value := None |}.


(** ** Bigint.v *)

(** The loop of small_add_from, bigint.h:267-271. *)
Fixpoint add_carry_loop_n (c : cfg) (l : list Z) (carry : Z) : run (list Z * Z) :=
  match l with
  | [] => pure ([], carry)
  | x :: l' =>
    if carry =? 0 then pure (l, 0)
    else
      let '(s, ov) := scalar_add c x carry in
      let+ '(r, cr) := tick (add_carry_loop_n c l' (if ov then 1 else 0)) in
      pure (s :: r, cr)
  end.

(** small_add_from, bigint.h:261-276 *)
Definition small_add_from_n (c : cfg) (v : list Z) (y start : Z) : run (bool * list Z) :=
  let n := Z.to_nat start in
  let+ '(r, carry) := add_carry_loop_n c (skipn n v) y in
  let v' := firstn n v ++ r in
  pure (if negb (carry =? 0) then try_push c v' carry else (true, v')).

(** small_add, bigint.h:279-283 *)
Definition small_add_n (c : cfg) (v : list Z) (y : Z) : run (bool * list Z) := small_add_from_n c v y 0.

(** The loop of small_mul, bigint.h:289-292. *)
Fixpoint mul_loop_n (c : cfg) (l : list Z) (y carry : Z) : run (list Z * Z) :=
  match l with
  | [] => pure ([], carry)
  | x :: l' =>
    let '(lo, carry) := scalar_mul c x y carry in
    let+ '(r, cr) := tick (mul_loop_n c l' y carry) in
    pure (lo :: r, cr)
  end.

(** small_mul, bigint.h:286-297 *)
Definition small_mul_n (c : cfg) (v : list Z) (y : Z) : run (bool * list Z) :=
  let+ '(r, carry) := mul_loop_n c v y 0 in
  pure (if negb (carry =? 0) then try_push c r carry else (true, r)).

(** The loop of large_add_from, bigint.h:310-322, on the part of x from
    [start]; an index beyond x is undefined. *)
Fixpoint add_loop_n (c : cfg) (xs ys : list Z) (carry : bool) : run (list Z * bool) :=
  match ys with
  | [] => Ok (xs, carry)
  | y :: ys' =>
    match xs with
    | [] => UB
    | x :: xs' =>
      let '(s, c1) := scalar_add c x y in
      let '(s, c2) := if carry then scalar_add c s 1 else (s, false) in
      let+ '(r, cr) := tick (add_loop_n c xs' ys' (c1 || c2)) in
      Ok (s :: r, cr)
    end
  end.

(** large_add_from, bigint.h:301-329 *)
Definition large_add_from_n (c : cfg) (x y : list Z) (start : Z) : run (bool * list Z) :=
  let+ '(ok, x) :=
    (if (vlen x <? start) || (vlen x - start <? vlen y)
     then try_resize_n c x (vlen y + start) 0 else pure (true, x)) in
  if negb ok then Ok (false, x)
  else
    let n := Z.to_nat start in
    let+ '(r, carry) := add_loop_n c (skipn n x) y false in
    let x := firstn n x ++ r in
    if carry then small_add_from_n c x 1 (vlen y + start) else Ok (true, x).

(** The loop of long_mul, bigint.h:348-359; [z] is the copy of the original x. *)
Fixpoint long_mul_loop_n (c : cfg) (x z ys : list Z) (index : Z) : run (bool * list Z) :=
  match ys with
  | [] => Ok (true, x)
  | yi :: ys' =>
    tick (if negb (yi =? 0) then
      let+ '(ok1, zi) := try_extend_n c [] z in
      if negb ok1 then Ok (false, x) else
      let+ '(ok2, zi) := small_mul_n c zi yi in
      if negb ok2 then Ok (false, x) else
      let+ '(ok3, x) := large_add_from_n c x zi index in
      if negb ok3 then Ok (false, x) else
      long_mul_loop_n c x z ys' (index + 1)
    else long_mul_loop_n c x z ys' (index + 1))
  end.

(** long_mul, bigint.h:339-364 (with the constructor, 51-54) *)
Definition long_mul_n (c : cfg) (x y : list Z) : run (bool * list Z) :=
  let+ '(fits, z) := try_extend_n c [] x in
  let+ _ := assert_that c fits in
  match y with
  | [] => let+ x := normalize_n x in Ok (true, x)
  | y0 :: ys =>
    let+ '(ok, x) := small_mul_n c x y0 in
    if negb ok then Ok (false, x) else
    let+ '(ok, x) := long_mul_loop_n c x z ys 1 in
    if negb ok then Ok (false, x) else
    let+ x := normalize_n x in Ok (true, x)
  end.

(** large_mul, bigint.h:367-375 *)
Definition large_mul_n (c : cfg) (x y : list Z) : run (bool * list Z) :=
  match y with
  | [y0] => small_mul_n c x y0
  | _ => long_mul_n c x y
  end.

(** hi64, bigint.h:457-482 (empty_hi64, 164-168) *)
Definition hi64_n (c : cfg) (v : list Z) : run (Z * bool) :=
  if limb64 c then
    if vlen v =? 0 then Ok (0, false)
    else if vlen v =? 1 then let+ r0 := rindex v 0 in uint64_hi64_1 c r0
    else
      let+ r0 := rindex v 0 in
      let+ r1 := rindex v 1 in
      let+ '(r, tr) := uint64_hi64_2 c r0 r1 in
      let+ nz := nonzero_n v 2 in
      Ok (r, tr || nz)
  else
    if vlen v =? 0 then Ok (0, false)
    else if vlen v =? 1 then let+ r0 := rindex v 0 in uint32_hi64_1 c r0
    else if vlen v =? 2 then
      let+ r0 := rindex v 0 in
      let+ r1 := rindex v 1 in uint32_hi64_2 c r0 r1
    else
      let+ r0 := rindex v 0 in
      let+ r1 := rindex v 1 in
      let+ r2 := rindex v 2 in
      let+ '(r, tr) := uint32_hi64_3 c r0 r1 r2 in
      let+ nz := nonzero_n v 3 in
      Ok (r, tr || nz).

(** The loop of compare, bigint.h:496-504, from the most significant limb. *)
Fixpoint compare_loop_n (x y : list Z) : run Z :=
  match x, y with
  | xi :: x', yi :: y' =>
    tick (if yi <? xi then pure 1 else if xi <? yi then pure (-1) else compare_loop_n x' y')
  | _, _ => pure 0
  end.

(** compare, bigint.h:490-507 *)
Definition big_compare_n (x y : list Z) : run Z :=
  if vlen y <? vlen x then pure 1
  else if vlen x <? vlen y then pure (-1)
  else compare_loop_n (rev x) (rev y).

(** The loop of shl_bits, bigint.h:523-527; returns the limbs and [prev]. *)
Fixpoint shl_loop_n (c : cfg) (n : Z) (l : list Z) (prev : Z) : run (list Z * Z) :=
  match l with
  | [] => pure ([], prev)
  | x :: l' =>
    let y := Z.lor (wlimb c (Z.shiftl x n)) (Z.shiftr prev (limb_bits c - n)) in
    let+ '(r, last) := tick (shl_loop_n c n l' x) in
    pure (y :: r, last)
  end.

(** shl_bits, bigint.h:511-534 *)
Definition shl_bits_n (c : cfg) (v : list Z) (n : Z) : run (bool * list Z) :=
  if (n <=? 0) || (limb_bits c <=? n) then UB
  else
    let+ '(r, prev) := shl_loop_n c n v 0 in
    let carry := Z.shiftr prev (limb_bits c - n) in
    if negb (carry =? 0) then Ok (try_push c r carry) else Ok (true, r).

(** shl_limbs, bigint.h:537-555 *)
Definition shl_limbs_n (c : cfg) (v : list Z) (n : Z) : run (bool * list Z) :=
  if bigint_limbs c <? n + vlen v then pure (false, v)
  else match v with
  | [] => pure (true, [])
  | _ => charge (n + vlen v) (true, repeat 0 (Z.to_nat n) ++ v)
  end.

(** shl / pow2, bigint.h:558-568,596 *)
Definition big_pow2_n (c : cfg) (v : list Z) (n : Z) : run (bool * list Z) :=
  let rem := n mod limb_bits c in
  let div := n / limb_bits c in
  let+ '(ok, v) := (if negb (rem =? 0) then shl_bits_n c v rem else Ok (true, v)) in
  if negb ok then Ok (false, v)
  else if negb (div =? 0) then shl_limbs_n c v div else Ok (true, v).

(** The first loop of pow5, bigint.h:603-606. *)
Fixpoint pow5_large_loop_n (fuel : nat) (c : cfg) (v : list Z) (exp : Z)
  : run (bool * list Z * Z) :=
  match fuel with
  | O => UB
  | S fuel =>
    if 135 <=? exp then tick (
      let+ '(ok, v) := large_mul_n c v (large_power_of_5 c) in
      if negb ok then Ok (false, v, exp) else pow5_large_loop_n fuel c v (exp - 135))
    else Ok (true, v, exp)
  end.

(** bigint.h:614-617 *)
Fixpoint pow5_small_loop_n (fuel : nat) (c : cfg) (v : list Z) (exp : Z)
  : run (bool * list Z * Z) :=
  match fuel with
  | O => UB
  | S fuel =>
    if small_step c <=? exp then tick (
      let+ '(ok, v) := small_mul_n c v (max_native c) in
      if negb ok then Ok (false, v, exp) else pow5_small_loop_n fuel c v (exp - small_step c))
    else Ok (true, v, exp)
  end.

(** pow5, bigint.h:599-627.  The fuel bounds the iterations of the two loops
    (exp / 135 and fewer than 11 respectively). *)
Definition big_pow5_n (c : cfg) (v : list Z) (exp : Z) : run (bool * list Z) :=
  let+ '(ok, v, exp) := pow5_large_loop_n (S (Z.to_nat (exp / 135))) c v exp in
  if negb ok then Ok (false, v) else
  let+ '(ok, v, exp) := pow5_small_loop_n 12 c v exp in
  if negb ok then Ok (false, v) else
  if negb (exp =? 0) then
    let+ y := nth_res small_power_of_5 exp in
    small_mul_n c v (wlimb c y)
  else Ok (true, v).

(** pow10, bigint.h:630-633 *)
Definition big_pow10_n (c : cfg) (v : list Z) (exp : Z) : run (bool * list Z) :=
  let+ '(ok, v) := big_pow5_n c v exp in
  if negb ok then Ok (false, v) else big_pow2_n c v exp.

(** bigint(uint64_t), bigint.h:445-453 *)
Definition bigint_of_u64_n (c : cfg) (x : Z) : run (list Z) :=
  let+ v := (if limb64 c then push_unchecked c [] x
             else let+ v := push_unchecked c [] (u32 x) in
                  push_unchecked c v (u32 (Z.shiftr x 32))) in
  normalize_n v.


(** ** DigitComp.v *)

(** scientific_exponent, digit_comparison.h:40-55 (int32_t exponent);
    fuel bounds the iterations (at most 5, 2 and 1 for a uint64_t). *)
Fixpoint sci_loop_n (fuel : nat) (by_ step m e : Z) : run (Z * Z) :=
  match fuel with
  | O => UB
  | S fuel =>
    if by_ <=? m then
      let+ e := chk 32 (e + step) in tick (sci_loop_n fuel by_ step (m / by_) e)
    else Ok (m, e)
  end.

(** scientific_exponent, digit_comparison.h:40-57 *)
Definition scientific_exponent_n (m e : Z) : run Z :=
  let+ '(m, e) := sci_loop_n 10 10000 4 m e in
  let+ '(m, e) := sci_loop_n 10 100 2 m e in
  let+ '(m, e) := sci_loop_n 10 10 1 m e in
  Ok e.

(** The word loop of skip_zeros, digit_comparison.h:174-181. *)
Fixpoint skip_zeros_words_n (fuel : nat) (c : cfg) (u : uc) (p : list Z) : run (list Z) :=
  match fuel with
  | O => UB
  | S fuel =>
    if int_cmp_len u <=? remaining p then
      let+ l := take (Z.to_nat (int_cmp_len u)) p in
      if mem_word c u 8 l =? int_cmp_zeros u then
        let+ p' := advance (Z.to_nat (int_cmp_len u)) p in tick (skip_zeros_words_n fuel c u p')
      else Ok p
    else Ok p
  end.

(** The character loop of skip_zeros, digit_comparison.h:182-187. *)
Fixpoint skip_zeros_chars_n (p : list Z) : run (list Z) :=
  match p with
  | [] => pure []
  | ch :: p' => if ch =? 48 then tick (skip_zeros_chars_n p') else pure p
  end.

(** skip_zeros, digit_comparison.h:170-188 *)
Definition skip_zeros_n (c : cfg) (u : uc) (p : list Z) : run (list Z) :=
  if in_constexpr c then skip_zeros_chars_n p
  else let+ p := skip_zeros_words_n (S (length p)) c u p in skip_zeros_chars_n p.

(** is_truncated, digit_comparison.h:192-218: the word loop, then characters. *)
Fixpoint is_truncated_words_n (fuel : nat) (c : cfg) (u : uc) (p : list Z)
  : run (bool * list Z) :=
  match fuel with
  | O => UB
  | S fuel =>
    if int_cmp_len u <=? remaining p then
      let+ l := take (Z.to_nat (int_cmp_len u)) p in
      if mem_word c u 8 l =? int_cmp_zeros u then
        let+ p' := advance (Z.to_nat (int_cmp_len u)) p in tick (is_truncated_words_n fuel c u p')
      else Ok (true, p)
    else Ok (false, p)
  end.

(** is_truncated, digit_comparison.h:192-218 *)
Definition is_truncated_n (c : cfg) (u : uc) (p : list Z) : run bool :=
  let chars p := charge (vlen p) (existsb (fun ch => negb (ch =? 48)) p) in
  if in_constexpr c then chars p
  else
    let+ '(tr, p) := is_truncated_words_n (S (length p)) c u p in
    if tr then pure true else chars p.

(** The inner loop over eight digits, digit_comparison.h:277-280 with
    parse_eight_digits, 220-228.  State: (p, value, counter, digits). *)
Fixpoint eight_loop_n (fuel : nat) (c : cfg) (u : uc) (step max_digits : Z)
  (p : list Z) (value counter digits : Z) : run (list Z * Z * Z * Z) :=
  match fuel with
  | O => UB
  | S fuel =>
    if (8 <=? remaining p) && (8 <=? step - counter) && (8 <=? max_digits - digits) then
      let+ v := parse_eight_digits_unrolled c u p in
      let+ p' := advance 8 p in
      tick (eight_loop_n fuel c u step max_digits p'
        (wlimb c (wlimb c (value * 100000000) + v)) (counter + 8) (digits + 8))
    else Ok (p, value, counter, digits)
  end.

(** The inner loop over single digits, digit_comparison.h:281-283 with
    parse_one_digit, 230-238. *)
Fixpoint one_loop_n (c : cfg) (u : uc) (step max_digits : Z)
  (p : list Z) (value counter digits : Z) : run (list Z * Z * Z * Z) :=
  match p with
  | [] => Ok (p, value, counter, digits)
  | ch :: p' =>
    if (counter <? step) && (digits <? max_digits) then
      let+ d := minus_zero u ch in
      tick (one_loop_n c u step max_digits p'
        (wlimb c (wlimb c (value * 10) + wlimb c d)) (counter + 1) (digits + 1))
    else Ok (p, value, counter, digits)
  end.

(** add_native, digit_comparison.h:240-244: the flags are ignored. *)
Definition add_native_n (c : cfg) (big : list Z) (power value : Z) : run (list Z) :=
  let+ '(_, big) := small_mul_n c big power in
  let+ '(_, big) := small_add_n c big value in pure big.

(** round_up_bigint, digit_comparison.h:246-252 *)
Definition round_up_bigint_n (c : cfg) (big : list Z) (count : Z) : run (list Z * Z) :=
  let+ big := add_native_n c big 10 1 in pure (big, count + 1).

(** The outer loops, digit_comparison.h:276-300 and 310-331.  [more] is the
    fraction span examined for truncated digits in the first loop.  Result:
    (true, big, digits) when the function returns from inside the loop,
    (false, big, digits) when it falls through (counter and value are then 0). *)
Fixpoint mantissa_loop_n (fuel : nat) (c : cfg) (u : uc) (step max_digits : Z)
  (more : option (list Z)) (p : list Z) (big : list Z) (digits : Z)
  : run (bool * list Z * Z) :=
  match p with
  | [] => Ok (false, big, digits)
  | _ =>
    match fuel with
    | O => UB
    | S fuel => tick (
      let+ '(p, value, counter, digits) :=
        eight_loop_n (S (length p)) c u step max_digits p 0 0 digits in
      let+ '(p, value, counter, digits) :=
        one_loop_n c u step max_digits p value counter digits in
      let+ pw := nth_res powers_of_ten_uint64 counter in
      let+ big := add_native_n c big (wlimb c pw) value in
      if digits =? max_digits then
        let+ tr1 := is_truncated_n c u p in
        let+ tr2 := (match more with
                     | Some f => is_truncated_n c u f
                     | None => Ok false
                     end) in
        if tr1 || tr2 then
          let+ '(big, digits) := round_up_bigint_n c big digits in Ok (true, big, digits)
        else Ok (true, big, digits)
      else mantissa_loop_n fuel c u step max_digits more p big digits)
    end
  end.

(** parse_mantissa, digit_comparison.h:255-337; returns (bigint, digits).
    [counter] is always 0 when line 334 is reached, so that test never fires. *)
Definition parse_mantissa_n (c : cfg) (u : uc) (num : parsed) (max_digits : Z)
  : run (list Z * Z) :=
  let step := if limb64 c then 19 else 9 in
  let+ p := skip_zeros_n c u (span_list (pn_integer num)) in
  let+ '(done_, big, digits) :=
    mantissa_loop_n (S (length p)) c u step max_digits (pn_fraction num) p [] 0 in
  if done_ then Ok (big, digits)
  else
    match pn_fraction num with
    | None => Ok (big, digits)
    | Some f =>
      let+ p := (if digits =? 0 then skip_zeros_n c u f else Ok f) in
      let+ '(_, big, digits) :=
        mantissa_loop_n (S (length p)) c u step max_digits None p big digits in
      Ok (big, digits)
    end.

(** positive_digit_comp, digit_comparison.h:339-360 *)
Definition positive_digit_comp_n (c : cfg) (t : ftype) (big : list Z) (exponent : Z)
  : run adjusted_mantissa :=
  let+ '(ok, big) := big_pow10_n c big (u32 exponent) in
  let+ _ := assert_that c ok in
  let+ '(m, truncated) := hi64_n c big in
  let bias := mant_bits t - min_exp t in
  let+ bl := bit_length c big in
  let+ p2 := chk 32 (bl - 64 + bias) in
  round t {| am_mantissa := m; am_power2 := p2 |}
    (round_nearest_tie_even (fun is_odd is_halfway is_above =>
       is_above || (is_halfway && truncated) || (is_odd && is_halfway))).

(** negative_digit_comp, digit_comparison.h:367-416 *)
Definition negative_digit_comp_n (c : cfg) (t : ftype) (big : list Z)
  (am : adjusted_mantissa) (exponent : Z) : run adjusted_mantissa :=
  let+ am_b := round t am round_down in
  let+ b := to_float t false am_b in
  let theor := to_extended_halfway t b in
  let+ theor_digits := bigint_of_u64_n c (am_mantissa theor) in
  let+ pow2_exp := chk 32 (am_power2 theor - exponent) in
  let+ nexp := chk 32 (- exponent) in
  let pow5_exp := u32 nexp in
  let+ '(ok, theor_digits) := (if negb (pow5_exp =? 0) then big_pow5_n c theor_digits pow5_exp
                               else Ok (true, theor_digits)) in
  let+ _ := assert_that c ok in
  let+ '(real_digits, theor_digits) :=
    (if 0 <? pow2_exp then
       let+ '(ok, th) := big_pow2_n c theor_digits (u32 pow2_exp) in
       let+ _ := assert_that c ok in Ok (big, th)
     else if pow2_exp <? 0 then
       let+ npow2 := chk 32 (- pow2_exp) in
       let+ '(ok, re) := big_pow2_n c big (u32 npow2) in
       let+ _ := assert_that c ok in Ok (re, theor_digits)
     else Ok (big, theor_digits)) in
  let+ ord := big_compare_n real_digits theor_digits in
  round t am
    (round_nearest_tie_even (fun is_odd _ _ =>
       if 0 <? ord then true else if ord <? 0 then false else is_odd)).

(** digit_comp, digit_comparison.h:431-450 *)
Definition digit_comp_n (c : cfg) (u : uc) (t : ftype) (num : parsed) (am : adjusted_mantissa)
  : run adjusted_mantissa :=
  let+ p2 := chk 32 (am_power2 am - invalid_am_bias) in
  let am := {| am_mantissa := am_mantissa am; am_power2 := p2 |} in
  let+ sci_exp := scientific_exponent_n (pn_mantissa num) (to_signed 32 (pn_exponent num)) in
  let+ '(big, digits) := parse_mantissa_n c u num (max_digits t) in
  let+ e1 := chk 32 (sci_exp + 1) in
  let+ exponent := chk 32 (e1 - digits) in
  if 0 <=? exponent then positive_digit_comp_n c t big exponent
  else negative_digit_comp_n c t big am exponent.


(** ** FromChars.v *)

(** from_chars_advanced(parsed_number_string_t&, T&), parse_number.h:253-290 *)
Definition from_chars_advanced_pns_n (c : cfg) (u : uc) (t : ftype) (pns : parsed) : run result :=
  let+ cl := (if negb (pn_too_many_digits pns) then
                clinger_fast_path_impl c t (pn_mantissa pns) (pn_exponent pns) (pn_negative pns)
              else Ok None) in
  match cl with
  | Some v => Ok {| r_ptr := pn_lastmatch pns; r_ec := Success; r_value := Some v |}
  | None =>
    let+ am := compute_float c t (pn_exponent pns) (pn_mantissa pns) in
    let+ am := (if pn_too_many_digits pns && (0 <=? am_power2 am) then
                  let+ am2 := compute_float c t (pn_exponent pns) (u64 (pn_mantissa pns + 1)) in
                  if am_neq am am2 then compute_error c t (pn_exponent pns) (pn_mantissa pns)
                  else Ok am
                else Ok am) in
    let+ am := (if am_power2 am <? 0 then digit_comp_n c u t pns am else Ok am) in
    let+ v := to_float t (pn_negative pns) am in
    Ok {| r_ptr := pn_lastmatch pns; r_ec := range_ec t (pn_mantissa pns) am; r_value := Some v |}
  end.

(** parse_number_slow_path, parse_number.h:299-307 *)
Definition parse_number_slow_path_n (c : cfg) (u : uc) (t : ftype) (p : list Z) (o : options)
  (bjf : bool) : run result :=
  let+ pns := parse_number_string_n c u bjf p o true in
  from_chars_advanced_pns_n c u t pns.

(** The white-space loop, parse_number.h:322-326 and 502-506. *)
Fixpoint skip_ws_n (p : list Z) : run (list Z) :=
  match p with
  | [] => Ok p
  | ch :: p' => let+ b := is_space ch in if b then tick (skip_ws_n p') else Ok p
  end.

(** from_chars_float_advanced, parse_number.h:309-394; this is
    from_chars_advanced(first, last, value, options) for floating-point types
    (538-546). *)
Definition from_chars_float_advanced_n (c : cfg) (u : uc) (t : ftype) (p : list Z) (o : options)
  : run result :=
  let fmt := adjust_for_feature_macros c (o_format o) in
  let+ p := (if flag fmt f_skip_white_space then skip_ws_n p else Ok p) in
  match p with
  | [] => Ok {| r_ptr := p; r_ec := InvalidArgument; r_value := None |}
  | _ =>
    let bjf := flag fmt f_basic_json in
    let+ pns := parse_number_string_n c u bjf p o false in
    if negb (pn_valid pns) then
      if flag fmt f_no_infnan then
        Ok {| r_ptr := p; r_ec := InvalidArgument; r_value := None |}
      else parse_infnan_n c u t p fmt
    else if pn_too_many_digits pns then parse_number_slow_path_n c u t p o bjf
    else
      let+ cl := clinger_fast_path_impl c t (pn_mantissa pns) (pn_exponent pns)
                   (pn_negative pns) in
      match cl with
      | Some v => Ok {| r_ptr := pn_lastmatch pns; r_ec := Success; r_value := Some v |}
      | None =>
        let+ am := compute_float c t (pn_exponent pns) (pn_mantissa pns) in
        if am_power2 am <? 0 then parse_number_slow_path_n c u t p o bjf
        else
          let+ v := to_float t (pn_negative pns) am in
          Ok {| r_ptr := pn_lastmatch pns; r_ec := range_ec t (pn_mantissa pns) am;
                r_value := Some v |}
      end
  end.


(** ** Ints.v *)

(** [while (p != pend && *p == UC('0')) ++p], ascii_number.h:595-597 *)
Fixpoint int_skip_zeros_n (p : list Z) : run (list Z) :=
  match p with
  | [] => pure []
  | ch :: p' => if ch =? 48 then tick (int_skip_zeros_n p') else pure p
  end.

(** The tail loop of the uint8_t path, ascii_number.h:668-673. *)
Fixpoint skip_plain_digits_n (p : list Z) : run (list Z) :=
  match p with
  | [] => pure []
  | ch :: p' => if (ch <? 48) || (57 <? ch) then pure p else tick (skip_plain_digits_n p')
  end.

(** The tail loop of the uint16_t path, ascii_number.h:721-723. *)
Fixpoint skip_integer_digits_n (u : uc) (p : list Z) : run (list Z) :=
  match p with
  | [] => Ok p
  | ch :: p' => let+ b := is_integer u ch in if b then tick (skip_integer_digits_n u p') else Ok p
  end.

(** The uint8_t fast path, ascii_number.h:603-694 *)
Definition parse_u8_n (c : cfg) (u : uc) (has_leading_zeros : bool) (first p : list Z)
  : run result :=
  let len := remaining p in
  if len =? 0 then Ok (no_digits has_leading_zeros first p)
  else
    let+ digits := u8_digits c u p in
    let magic := Z.land (Z.lor (u32 (digits + 0x46464646)) (u32 (digits - 0x30303030)))
                        0x80808080 in
    let tz := countr_zero_32 c magic in
    let nd := if tz =? 32 then 4 else Z.shiftr tz 3 in
    let nd := if nd <? len then nd else len in
    if nd =? 0 then Ok (no_digits has_leading_zeros first p)
    else if 3 <? nd then
      let+ q := advance (Z.to_nat nd) p in
      let+ q := skip_plain_digits_n q in
      Ok (out_of_range q)
    else
      let digits := Z.lxor digits 0x30303030 in
      let+ digits := shl 32 digits ((4 - nd) * 8) in
      let check := Z.lor (Z.lor (Z.land (Z.shiftr digits 24) 0xff)
                                (Z.land (Z.shiftr digits 8) 0xff00))
                         (Z.land (u32 (Z.shiftl digits 8)) 0xff0000) in
      let+ q := advance (Z.to_nat nd) p in
      if 0x00020505 <? check then Ok (out_of_range q)
      else Ok (success q (u8 (Z.shiftr (u32 (0x640a01 * digits)) 24))).

(** The uint16_t fast path, ascii_number.h:696-745; [None] falls through to
    the general code. *)
Definition parse_u16_n (c : cfg) (u : uc) (has_leading_zeros : bool) (first p : list Z)
  : run (option result) :=
  let len := remaining p in
  if len =? 0 then Ok (Some (no_digits has_leading_zeros first p))
  else if 4 <=? len then
    let+ digits := read4_to_u32 c u p in
    if is_made_of_four_digits_fast digits then
      let v := parse_four_digits_unrolled digits in
      let+ d5 := (if 5 <=? len then
                    let+ x := nth_res p 4 in
                    let+ b := is_integer u x in Ok b
                  else Ok false) in
      if d5 then
        let+ x := nth_res p 4 in
        let+ d := minus_zero u x in
        let v := u32 (u32 (v * 10) + u32 d) in
        let+ d6 := (if 6 <=? len then let+ y := nth_res p 5 in is_integer u y else Ok false) in
        let+ q := advance 5 p in
        if d6 then
          let+ q' := skip_integer_digits_n u q in
          Ok (Some (out_of_range q'))
        else if 65535 <? v then Ok (Some (out_of_range q))
        else Ok (Some (success q (u16 v)))
      else
        let+ q := advance 4 p in
        Ok (Some (success q (u16 v)))
    else Ok None
  else Ok None.

(** The general digit loop, ascii_number.h:751-758. *)
Fixpoint int_loop_n (u : uc) (base : Z) (p : list Z) (i : Z) : run (list Z * Z) :=
  match p with
  | [] => Ok (p, i)
  | ch :: p' =>
    let+ d := ch_to_digit u ch in
    if base <=? d then Ok (p, i)
    else tick (int_loop_n u base p' (u64 (u64 (base * i) + d)))
  end.

(** The general path, ascii_number.h:747-818. *)
Definition parse_int_general_n (c : cfg) (u : uc) (T : ity) (base : Z) (negative : bool)
  (has_leading_zeros : bool) (first start_digits : list Z) : run result :=
  let p := start_digits in
  let+ '(p, i) := (if base =? 10 then loop_parse_if_eight_digits_n c u p 0 else Ok (p, 0)) in
  let+ '(p, i) := int_loop_n u base p i in
  let digit_count := remaining start_digits - remaining p in
  if digit_count =? 0 then Ok (no_digits has_leading_zeros first p)
  else
    let+ maxd := max_digits_u64 base in
    if maxd <? digit_count then Ok (out_of_range p)
    else
      let+ safe := min_safe_u64 base in
      if (digit_count =? maxd) && (i <? safe) then Ok (out_of_range p)
      else if negb (i_is_u64 T) && (u64 (i_max T + (if negative then 1 else 0)) <? i) then
        Ok (out_of_range p)
      else if negative then
        (* T(-max - T(i - uint64_t(max))) in the promoted type *)
        let d := to_signed (i_bits T) (u64 (i - i_max T)) in
        let+ v := chk (Z.max 32 (i_bits T)) (- i_max T - d) in
        Ok (success p (to_signed (i_bits T) v))
      else Ok (success p (if i_signed T then to_signed (i_bits T) i
                          else if i_bits T =? 1 then (if i =? 0 then 0 else 1)
                          else i mod 2 ^ i_bits T)).

(** parse_int_string, ascii_number.h:564-819 *)
Definition parse_int_string_n (c : cfg) (u : uc) (T : ity) (p : list Z) (o : options)
  : run result :=
  let fmt := adjust_for_feature_macros c (o_format o) in
  let base := o_base o in
  let first := p in
  let+ ch := deref p in
  let negative := ch =? 45 in
  if negb (i_signed T) && negative then
    Ok {| r_ptr := first; r_ec := InvalidArgument; r_value := None |}
  else
    let p := if (ch =? 45) || (flag fmt f_allow_leading_plus && (ch =? 43)) then tl p else p in
    let start_num := p in
    let+ p := int_skip_zeros_n p in
    let has_leading_zeros := remaining p <? remaining start_num in
    if i_is_u8 T && (uc_size u =? 1) && (base =? 10) then
      parse_u8_n c u has_leading_zeros first p
    else
      let+ r := (if i_is_u16 T && (uc_size u =? 1) && (base =? 10)
                 then parse_u16_n c u has_leading_zeros first p else Ok None) in
      match r with
      | Some r => Ok r
      | None => parse_int_general_n c u T base negative has_leading_zeros first p
      end.

(** from_chars_int_advanced, parse_number.h:488-514; this is
    from_chars_advanced(first, last, value, options) for integer types. *)
Definition from_chars_int_advanced_n (c : cfg) (u : uc) (T : ity) (p : list Z) (o : options)
  : run result :=
  let fmt := adjust_for_feature_macros c (o_format o) in
  let base := o_base o in
  let+ p := (if flag fmt f_skip_white_space then skip_ws_n p else Ok p) in
  match p with
  | [] => Ok {| r_ptr := p; r_ec := InvalidArgument; r_value := None |}
  | _ =>
    if (base <? 2) || (36 <? base) then
      Ok {| r_ptr := p; r_ec := InvalidArgument; r_value := None |}
    else parse_int_string_n c u T p o
  end.

