(** The Eisel-Lemire algorithm, decimal_to_binary.h. *)
From Verif Require Import Machine Config Chars Format FastTable.

(** powers::smallest_power_of_five, fast_table.h:34-35 *)
Definition smallest_power_of_five : Z := smallest_power_of_ten F64.

(** compute_product_approximation<bit_precision>, decimal_to_binary.h:20-47;
    returns (low, high). *)
Definition compute_product_approximation (c : cfg) (bit_precision q w : Z) : res (Z * Z) :=
  let* index := chk 32 (2 * to_signed 32 (q - smallest_power_of_five)) in
  let* t0 := nth_res power_of_five_128 index in
  let '(lo, hi) := full_multiplication c w t0 in
  let precision_mask := if bit_precision <? 64
                        then Z.shiftr 0xFFFFFFFFFFFFFFFF bit_precision
                        else 0xFFFFFFFFFFFFFFFF in
  if Z.land hi precision_mask =? precision_mask then
    let* t1 := nth_res power_of_five_128 (index + 1) in
    let '(_, shi) := full_multiplication c w t1 in
    let lo := u64 (lo + shi) in
    if lo <? shi then Ok (lo, u64 (hi + 1)) else Ok (lo, hi)
  else Ok (lo, hi).

(** detail::power, decimal_to_binary.h:65-67 (int32_t arithmetic; >> of a
    negative value is an arithmetic shift). *)
Definition power (q : Z) : res Z :=
  let* m := chk 32 ((152170 + 65536) * q) in
  chk 32 (Z.shiftr m 16 + 63).

(** compute_error_scaled, decimal_to_binary.h:72-82 *)
Definition compute_error_scaled (t : ftype) (q w lz : Z) : res adjusted_mantissa :=
  let hilz := Z.lxor (Z.shiftr w 63) 1 in
  let* m := shl 64 w hilz in
  let bias := mant_bits t - min_exp t in
  let* p := power (to_signed 32 q) in
  let* e := chk 32 (p + bias - hilz - lz - 62 + invalid_am_bias) in
  Ok {| am_mantissa := m; am_power2 := e |}.

(** compute_error, decimal_to_binary.h:86-94 *)
Definition compute_error (c : cfg) (t : ftype) (q w : Z) : res adjusted_mantissa :=
  let* lz := leading_zeroes c w in
  let* w := shl 64 w lz in
  let* '(_, hi) := compute_product_approximation c (mant_bits t + 3) q w in
  compute_error_scaled t q hi lz.

(** compute_float, decimal_to_binary.h:101-208.  [power] checks its product, so
    its result is below 2^16 in absolute value and the sums, the negation and
    the increment below stay far inside int32_t; one check covers them. *)
Definition compute_float (c : cfg) (t : ftype) (q w : Z) : res adjusted_mantissa :=
  if (w =? 0) || (q <? smallest_power_of_ten t) then
    Ok {| am_mantissa := 0; am_power2 := 0 |}
  else if largest_power_of_ten t <? q then
    Ok {| am_mantissa := 0; am_power2 := inf_power t |}
  else
  let* lz := leading_zeroes c w in
  let* w := shl 64 w lz in
  let* '(lo, hi) := compute_product_approximation c (mant_bits t + 3) q w in
  let upperbit := Z.shiftr hi 63 in
  let shift := upperbit + 64 - mant_bits t - 3 in
  let* m := shr 64 hi shift in
  let* pw := power (to_signed 32 q) in
  let* p2 := chk 32 (pw + upperbit - lz - min_exp t) in
  if p2 <=? 0 then
    (* 148-177: subnormal *)
    if 64 <=? - p2 + 1 then Ok {| am_mantissa := 0; am_power2 := 0 |}
    else
      let* m := shr 64 m (- p2 + 1) in
      let m := u64 (m + Z.land m 1) in
      let m := Z.shiftr m 1 in
      let* hidden := shl 64 1 (mant_bits t) in
      Ok {| am_mantissa := m; am_power2 := if m <? hidden then 0 else 1 |}
  else
    (* 182-193: exact halfway *)
    let* back := shl 64 m shift in
    let m := if (lo <=? 1) && (min_exponent_round_to_even t <=? q)
                && (q <=? max_exponent_round_to_even t)
                && (Z.land m 3 =? 1) && (back =? hi)
             then Z.land m (2 ^ 64 - 1 - 1) else m in
    let m := u64 (m + Z.land m 1) in
    let m := Z.shiftr m 1 in
    let* two := shl 64 2 (mant_bits t) in
    let* one := shl 64 1 (mant_bits t) in
    let '(m, p2) := if two <=? m then (one, p2 + 1) else (m, p2) in
    let m := Z.land m (2 ^ 64 - 1 - one) in
    if inf_power t <=? p2 then Ok {| am_mantissa := 0; am_power2 := inf_power t |}
    else Ok {| am_mantissa := m; am_power2 := p2 |}.
