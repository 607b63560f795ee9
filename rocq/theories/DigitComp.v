(** The exact big-integer comparison, digit_comparison.h. *)
From Verif Require Import Machine Config Tables Chars Format ParseNumber Bigint.

(** scientific_exponent, digit_comparison.h:40-55 (int32_t exponent);
    fuel bounds the iterations (at most 5, 2 and 1 for a uint64_t). *)
Fixpoint sci_loop (fuel : nat) (by_ step m e : Z) : res (Z * Z) :=
  match fuel with
  | O => UB
  | S fuel =>
    if by_ <=? m then
      let* e := chk 32 (e + step) in sci_loop fuel by_ step (m / by_) e
    else Ok (m, e)
  end.
(** scientific_exponent, digit_comparison.h:40-57 *)
Definition scientific_exponent (m e : Z) : res Z :=
  let* '(m, e) := sci_loop 10 10000 4 m e in
  let* '(m, e) := sci_loop 10 100 2 m e in
  let* '(m, e) := sci_loop 10 10 1 m e in
  Ok e.

(** to_extended, digit_comparison.h:58-88 *)
Definition to_extended (t : ftype) (bits : Z) : adjusted_mantissa :=
  let bias := mant_bits t - min_exp t in
  if Z.land bits (exponent_mask t) =? 0 then
    {| am_mantissa := Z.land bits (mantissa_mask t); am_power2 := 1 - bias |}
  else
    {| am_mantissa := Z.lor (Z.land bits (mantissa_mask t)) (hidden_bit_mask t);
       am_power2 := Z.shiftr (Z.land bits (exponent_mask t)) (mant_bits t) - bias |}.

(** to_extended_halfway, digit_comparison.h:93-101 *)
Definition to_extended_halfway (t : ftype) (bits : Z) : adjusted_mantissa :=
  let am := to_extended t bits in
  {| am_mantissa := u64 (u64 (Z.shiftl (am_mantissa am) 1) + 1);
     am_power2 := am_power2 am - 1 |}.

(** round<T>, digit_comparison.h:104-136; [cb] is the rounding callback. *)
Definition round (t : ftype) (am : adjusted_mantissa)
  (cb : adjusted_mantissa -> Z -> res adjusted_mantissa) : res adjusted_mantissa :=
  let mantissa_shift := 64 - mant_bits t - 1 in
  let* one := shl 64 1 (mant_bits t) in
  let* two := shl 64 2 (mant_bits t) in
  let* np2 := chk 32 (- am_power2 am) in
  if mantissa_shift <=? np2 then
    let* shift := chk 32 (np2 + 1) in
    let* a := cb am (if shift <? 64 then shift else 64) in
    Ok {| am_mantissa := am_mantissa a;
          am_power2 := if am_mantissa a <? one then 0 else 1 |}
  else
    let* a := cb am mantissa_shift in
    let* '(m, p2) := (if two <=? am_mantissa a
                      then let* p2 := chk 32 (am_power2 a + 1) in Ok (one, p2)
                      else Ok (am_mantissa a, am_power2 a)) in
    let m := Z.land m (2 ^ 64 - 1 - one) in
    if inf_power t <=? p2 then Ok {| am_mantissa := 0; am_power2 := inf_power t |}
    else Ok {| am_mantissa := m; am_power2 := p2 |}.

(** round_nearest_tie_even, digit_comparison.h:138-158 *)
Definition round_nearest_tie_even (cb : bool -> bool -> bool -> bool)
  (am : adjusted_mantissa) (shift : Z) : res adjusted_mantissa :=
  let* mask := (if shift =? 64 then Ok (2 ^ 64 - 1)
                else let* x := shl 64 1 shift in Ok (u64 (x - 1))) in
  let* halfway := (if shift =? 0 then Ok 0 else shl 64 1 (shift - 1)) in
  let truncated_bits := Z.land (am_mantissa am) mask in
  let is_above := halfway <? truncated_bits in
  let is_halfway := truncated_bits =? halfway in
  let* m := (if shift =? 64 then Ok 0 else shr 64 (am_mantissa am) shift) in
  let* p2 := chk 32 (am_power2 am + shift) in
  let is_odd := Z.land m 1 =? 1 in
  Ok {| am_mantissa := u64 (m + (if cb is_odd is_halfway is_above then 1 else 0));
        am_power2 := p2 |}.

(** round_down, digit_comparison.h:160-168 *)
Definition round_down (am : adjusted_mantissa) (shift : Z) : res adjusted_mantissa :=
  let* m := (if shift =? 64 then Ok 0 else shr 64 (am_mantissa am) shift) in
  let* p2 := chk 32 (am_power2 am + shift) in
  Ok {| am_mantissa := m; am_power2 := p2 |}.

(** int_cmp_zeros and int_cmp_len, float_common.h:1229-1241 *)
Definition int_cmp_zeros (u : uc) : Z :=
  match uc_bits u with
  | 8 => 0x3030303030303030
  | 16 => Z.lor (Z.lor (Z.lor (Z.shiftl 48 48) (Z.shiftl 48 32)) (Z.shiftl 48 16)) 48
  | _ => Z.lor (Z.shiftl 48 32) 48
  end.
(** int_cmp_len, float_common.h:1239-1241 *)
Definition int_cmp_len (u : uc) : Z := 8 / uc_size u.

(** The word loop of skip_zeros, digit_comparison.h:174-181. *)
Fixpoint skip_zeros_words (fuel : nat) (c : cfg) (u : uc) (p : list Z) : res (list Z) :=
  match fuel with
  | O => UB
  | S fuel =>
    if int_cmp_len u <=? remaining p then
      let* l := take (Z.to_nat (int_cmp_len u)) p in
      if mem_word c u 8 l =? int_cmp_zeros u then
        let* p' := advance (Z.to_nat (int_cmp_len u)) p in skip_zeros_words fuel c u p'
      else Ok p
    else Ok p
  end.

(** The character loop of skip_zeros, digit_comparison.h:182-187. *)
Fixpoint skip_zeros_chars (p : list Z) : list Z :=
  match p with
  | [] => []
  | ch :: p' => if ch =? 48 then skip_zeros_chars p' else p
  end.

(** skip_zeros, digit_comparison.h:170-188 *)
Definition skip_zeros (c : cfg) (u : uc) (p : list Z) : res (list Z) :=
  if in_constexpr c then Ok (skip_zeros_chars p)
  else let* p := skip_zeros_words (S (length p)) c u p in Ok (skip_zeros_chars p).

(** is_truncated, digit_comparison.h:192-218: the word loop, then characters. *)
Fixpoint is_truncated_words (fuel : nat) (c : cfg) (u : uc) (p : list Z)
  : res (bool * list Z) :=
  match fuel with
  | O => UB
  | S fuel =>
    if int_cmp_len u <=? remaining p then
      let* l := take (Z.to_nat (int_cmp_len u)) p in
      if mem_word c u 8 l =? int_cmp_zeros u then
        let* p' := advance (Z.to_nat (int_cmp_len u)) p in is_truncated_words fuel c u p'
      else Ok (true, p)
    else Ok (false, p)
  end.
(** is_truncated, digit_comparison.h:192-218 *)
Definition is_truncated (c : cfg) (u : uc) (p : list Z) : res bool :=
  let chars p := existsb (fun ch => negb (ch =? 48)) p in
  if in_constexpr c then Ok (chars p)
  else
    let* '(tr, p) := is_truncated_words (S (length p)) c u p in
    Ok (if tr then true else chars p).

(** The inner loop over eight digits, digit_comparison.h:277-280 with
    parse_eight_digits, 220-228.  State: (p, value, counter, digits). *)
Fixpoint eight_loop (fuel : nat) (c : cfg) (u : uc) (step max_digits : Z)
  (p : list Z) (value counter digits : Z) : res (list Z * Z * Z * Z) :=
  match fuel with
  | O => UB
  | S fuel =>
    if (8 <=? remaining p) && (8 <=? step - counter) && (8 <=? max_digits - digits) then
      let* v := parse_eight_digits_unrolled c u p in
      let* p' := advance 8 p in
      eight_loop fuel c u step max_digits p'
        (wlimb c (wlimb c (value * 100000000) + v)) (counter + 8) (digits + 8)
    else Ok (p, value, counter, digits)
  end.

(** The inner loop over single digits, digit_comparison.h:281-283 with
    parse_one_digit, 230-238. *)
Fixpoint one_loop (c : cfg) (u : uc) (step max_digits : Z)
  (p : list Z) (value counter digits : Z) : res (list Z * Z * Z * Z) :=
  match p with
  | [] => Ok (p, value, counter, digits)
  | ch :: p' =>
    if (counter <? step) && (digits <? max_digits) then
      let* d := minus_zero u ch in
      one_loop c u step max_digits p'
        (wlimb c (wlimb c (value * 10) + wlimb c d)) (counter + 1) (digits + 1)
    else Ok (p, value, counter, digits)
  end.

(** add_native, digit_comparison.h:240-244: the flags are ignored. *)
Definition add_native (c : cfg) (big : list Z) (power value : Z) : list Z :=
  let '(_, big) := small_mul c big power in
  let '(_, big) := small_add c big value in big.

(** round_up_bigint, digit_comparison.h:246-252 *)
Definition round_up_bigint (c : cfg) (big : list Z) (count : Z) : list Z * Z :=
  (add_native c big 10 1, count + 1).

(** The outer loops, digit_comparison.h:276-300 and 310-331.  [more] is the
    fraction span examined for truncated digits in the first loop.  Result:
    (true, big, digits) when the function returns from inside the loop,
    (false, big, digits) when it falls through (counter and value are then 0). *)
Fixpoint mantissa_loop (fuel : nat) (c : cfg) (u : uc) (step max_digits : Z)
  (more : option (list Z)) (p : list Z) (big : list Z) (digits : Z)
  : res (bool * list Z * Z) :=
  match p with
  | [] => Ok (false, big, digits)
  | _ =>
    match fuel with
    | O => UB
    | S fuel =>
      let* '(p, value, counter, digits) :=
        eight_loop (S (length p)) c u step max_digits p 0 0 digits in
      let* '(p, value, counter, digits) :=
        one_loop c u step max_digits p value counter digits in
      let* pw := nth_res powers_of_ten_uint64 counter in
      let big := add_native c big (wlimb c pw) value in
      if digits =? max_digits then
        let* tr1 := is_truncated c u p in
        let* tr2 := (match more with
                     | Some f => is_truncated c u f
                     | None => Ok false
                     end) in
        if tr1 || tr2 then
          let '(big, digits) := round_up_bigint c big digits in Ok (true, big, digits)
        else Ok (true, big, digits)
      else mantissa_loop fuel c u step max_digits more p big digits
    end
  end.

(** parse_mantissa, digit_comparison.h:255-337; returns (bigint, digits).
    [counter] is always 0 when line 334 is reached, so that test never fires. *)
Definition parse_mantissa (c : cfg) (u : uc) (num : parsed) (max_digits : Z)
  : res (list Z * Z) :=
  let step := if limb64 c then 19 else 9 in
  let* p := skip_zeros c u (span_list (pn_integer num)) in
  let* '(done_, big, digits) :=
    mantissa_loop (S (length p)) c u step max_digits (pn_fraction num) p [] 0 in
  if done_ then Ok (big, digits)
  else
    match pn_fraction num with
    | None => Ok (big, digits)
    | Some f =>
      let* p := (if digits =? 0 then skip_zeros c u f else Ok f) in
      let* '(_, big, digits) :=
        mantissa_loop (S (length p)) c u step max_digits None p big digits in
      Ok (big, digits)
    end.

(** positive_digit_comp, digit_comparison.h:339-360 *)
Definition positive_digit_comp (c : cfg) (t : ftype) (big : list Z) (exponent : Z)
  : res adjusted_mantissa :=
  let* '(ok, big) := big_pow10 c big (u32 exponent) in
  let* _ := assert_that c ok in
  let* '(m, truncated) := hi64 c big in
  let bias := mant_bits t - min_exp t in
  let* bl := bit_length c big in
  let* p2 := chk 32 (bl - 64 + bias) in
  round t {| am_mantissa := m; am_power2 := p2 |}
    (round_nearest_tie_even (fun is_odd is_halfway is_above =>
       is_above || (is_halfway && truncated) || (is_odd && is_halfway))).

(** negative_digit_comp, digit_comparison.h:367-416 *)
Definition negative_digit_comp (c : cfg) (t : ftype) (big : list Z)
  (am : adjusted_mantissa) (exponent : Z) : res adjusted_mantissa :=
  let* am_b := round t am round_down in
  let* b := to_float t false am_b in
  let theor := to_extended_halfway t b in
  let* theor_digits := bigint_of_u64 c (am_mantissa theor) in
  let* pow2_exp := chk 32 (am_power2 theor - exponent) in
  let* nexp := chk 32 (- exponent) in
  let pow5_exp := u32 nexp in
  let* '(ok, theor_digits) := (if negb (pow5_exp =? 0) then big_pow5 c theor_digits pow5_exp
                               else Ok (true, theor_digits)) in
  let* _ := assert_that c ok in
  let* '(real_digits, theor_digits) :=
    (if 0 <? pow2_exp then
       let* '(ok, th) := big_pow2 c theor_digits (u32 pow2_exp) in
       let* _ := assert_that c ok in Ok (big, th)
     else if pow2_exp <? 0 then
       let* npow2 := chk 32 (- pow2_exp) in
       let* '(ok, re) := big_pow2 c big (u32 npow2) in
       let* _ := assert_that c ok in Ok (re, theor_digits)
     else Ok (big, theor_digits)) in
  let ord := big_compare real_digits theor_digits in
  round t am
    (round_nearest_tie_even (fun is_odd _ _ =>
       if 0 <? ord then true else if ord <? 0 then false else is_odd)).

(** digit_comp, digit_comparison.h:431-450 *)
Definition digit_comp (c : cfg) (u : uc) (t : ftype) (num : parsed) (am : adjusted_mantissa)
  : res adjusted_mantissa :=
  let* p2 := chk 32 (am_power2 am - invalid_am_bias) in
  let am := {| am_mantissa := am_mantissa am; am_power2 := p2 |} in
  let* sci_exp := scientific_exponent (pn_mantissa num) (to_signed 32 (pn_exponent num)) in
  let* '(big, digits) := parse_mantissa c u num (max_digits t) in
  let* e1 := chk 32 (sci_exp + 1) in
  let* exponent := chk 32 (e1 - digits) in
  if 0 <=? exponent then positive_digit_comp c t big exponent
  else negative_digit_comp c t big am exponent.
