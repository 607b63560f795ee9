(** Fixed-capacity big integers, bigint.h.

    A stackvec is the list of its first [length] limbs, least significant
    first; the buffer beyond [length] is never read (an index >= length is
    [UB]).  Operations that can run out of capacity return [(ok, vec)]: the
    flag the C++ function returns and the vector it leaves behind.  Callers
    that ignore the flag continue with that vector, as in the code; where the
    flag is the argument of FASTFLOAT_ASSERT see [assert_that]. *)
From Verif Require Import Machine Config Tables Chars.

(** limb_bits, bigint.h:19-27 *)
Definition limb_bits (c : cfg) : Z := if limb64 c then 64 else 32.

(** bigint_limbs, bigint.h:35-36 *)
Definition bigint_limbs (c : cfg) : Z := 4000 / limb_bits c.

(** Conversion to limb, bigint.h:19-27,240,254 *)
Definition wlimb (c : cfg) (x : Z) : Z := x mod 2 ^ limb_bits c.

(** stackvec::len, bigint.h:78-79 *)
Definition vlen (v : list Z) : Z := Z.of_nat (length v).

(** try_push, bigint.h:91-98 *)
Definition try_push (c : cfg) (v : list Z) (x : Z) : bool * list Z :=
  if vlen v <? bigint_limbs c then (true, v ++ [x]) else (false, v).

(** push_unchecked, bigint.h:85-88: writing past the buffer is undefined *)
Definition push_unchecked (c : cfg) (v : list Z) (x : Z) : res (list Z) :=
  if vlen v <? bigint_limbs c then Ok (v ++ [x]) else UB.

(** try_extend with extend_unchecked, bigint.h:101-115 *)
Definition try_extend (c : cfg) (v s : list Z) : bool * list Z :=
  if vlen v + vlen s <=? bigint_limbs c then (true, v ++ s) else (false, v).

(** try_resize with resize_unchecked (fill value 0 or any), bigint.h:120-141 *)
Definition try_resize (c : cfg) (v : list Z) (n : Z) (x : Z) : bool * list Z :=
  if bigint_limbs c <? n then (false, v)
  else (true, firstn (Z.to_nat n) v ++ repeat x (Z.to_nat n - length v)%nat).

(** rindex, bigint.h:67-71 *)
Definition rindex (v : list Z) (i : Z) : res Z := nth_res (rev v) i.

(** nonzero, bigint.h:146-154 *)
Definition nonzero (v : list Z) (i : Z) : bool :=
  existsb (fun x => negb (x =? 0)) (skipn (Z.to_nat i) (rev v)).

(** normalize, bigint.h:157-161: drop most significant zero limbs *)
Fixpoint drop_zeros (l : list Z) : list Z :=
  match l with
  | [] => []
  | x :: l' => if x =? 0 then drop_zeros l' else l
  end.
(** bigint.h:157-161 *)
Definition normalize (v : list Z) : list Z := rev (drop_zeros (rev v)).

(** uint64_hi64 (one word), bigint.h:170-175; returns (value, truncated). *)
Definition uint64_hi64_1 (c : cfg) (r0 : Z) : res (Z * bool) :=
  let* s := leading_zeroes c r0 in
  let* v := shl 64 r0 s in
  Ok (v, false).

(** uint64_hi64 (two words), bigint.h:177-188 *)
Definition uint64_hi64_2 (c : cfg) (r0 r1 : Z) : res (Z * bool) :=
  let* s := leading_zeroes c r0 in
  if s =? 0 then Ok (r0, negb (r1 =? 0))
  else
    let* lo := shl 64 r1 s in
    let* hi := shl 64 r0 s in
    let* r := shr 64 r1 (64 - s) in
    Ok (Z.lor hi r, negb (lo =? 0)).

(** uint32_hi64, bigint.h:190-208 *)
Definition uint32_hi64_1 (c : cfg) (r0 : Z) : res (Z * bool) := uint64_hi64_1 c r0.
(** bigint.h:195-200 *)
Definition uint32_hi64_2 (c : cfg) (r0 r1 : Z) : res (Z * bool) :=
  uint64_hi64_1 c (Z.lor (u64 (Z.shiftl r0 32)) r1).
(** bigint.h:202-208 *)
Definition uint32_hi64_3 (c : cfg) (r0 r1 r2 : Z) : res (Z * bool) :=
  uint64_hi64_2 c r0 (Z.lor (u64 (Z.shiftl r1 32)) r2).

(** scalar_add, bigint.h:214-231; returns (sum, overflow). *)
Definition scalar_add (c : cfg) (x y : Z) : Z * bool :=
  if add_overflow_builtin c && negb (in_constexpr c) then
    (wlimb c (x + y), 2 ^ limb_bits c <=? x + y)
  else
    let z := wlimb c (x + y) in (z, z <? x).

(** scalar_mul, bigint.h:234-257; returns (low, carry). *)
Definition scalar_mul (c : cfg) (x y carry : Z) : Z * Z :=
  if limb64 c then
    if int128 c then
      let z := (x * y + carry) mod 2 ^ 128 in
      (u64 z, u64 (Z.shiftr z 64))
    else
      let '(lo, hi) := full_multiplication c x y in
      let '(lo, ov) := scalar_add c lo carry in
      (lo, u64 (hi + (if ov then 1 else 0)))
  else
    let z := u64 (x * y + carry) in
    (u32 z, u32 (Z.shiftr z 32)).

(** The loop of small_add_from, bigint.h:267-271. *)
Fixpoint add_carry_loop (c : cfg) (l : list Z) (carry : Z) : list Z * Z :=
  match l with
  | [] => ([], carry)
  | x :: l' =>
    if carry =? 0 then (l, 0)
    else
      let '(s, ov) := scalar_add c x carry in
      let '(r, cr) := add_carry_loop c l' (if ov then 1 else 0) in
      (s :: r, cr)
  end.

(** small_add_from, bigint.h:261-276 *)
Definition small_add_from (c : cfg) (v : list Z) (y start : Z) : bool * list Z :=
  let n := Z.to_nat start in
  let '(r, carry) := add_carry_loop c (skipn n v) y in
  let v' := firstn n v ++ r in
  if negb (carry =? 0) then try_push c v' carry else (true, v').

(** small_add, bigint.h:279-283 *)
Definition small_add (c : cfg) (v : list Z) (y : Z) : bool * list Z := small_add_from c v y 0.

(** The loop of small_mul, bigint.h:289-292. *)
Fixpoint mul_loop (c : cfg) (l : list Z) (y carry : Z) : list Z * Z :=
  match l with
  | [] => ([], carry)
  | x :: l' =>
    let '(lo, carry) := scalar_mul c x y carry in
    let '(r, cr) := mul_loop c l' y carry in
    (lo :: r, cr)
  end.

(** small_mul, bigint.h:286-297 *)
Definition small_mul (c : cfg) (v : list Z) (y : Z) : bool * list Z :=
  let '(r, carry) := mul_loop c v y 0 in
  if negb (carry =? 0) then try_push c r carry else (true, r).

(** The loop of large_add_from, bigint.h:310-322, on the part of x from
    [start]; an index beyond x is undefined. *)
Fixpoint add_loop (c : cfg) (xs ys : list Z) (carry : bool) : res (list Z * bool) :=
  match ys with
  | [] => Ok (xs, carry)
  | y :: ys' =>
    match xs with
    | [] => UB
    | x :: xs' =>
      let '(s, c1) := scalar_add c x y in
      let '(s, c2) := if carry then scalar_add c s 1 else (s, false) in
      let* '(r, cr) := add_loop c xs' ys' (c1 || c2) in
      Ok (s :: r, cr)
    end
  end.

(** large_add_from, bigint.h:301-329 *)
Definition large_add_from (c : cfg) (x y : list Z) (start : Z) : res (bool * list Z) :=
  let '(ok, x) :=
    (if (vlen x <? start) || (vlen x - start <? vlen y)
     then try_resize c x (vlen y + start) 0 else (true, x)) in
  if negb ok then Ok (false, x)
  else
    let n := Z.to_nat start in
    let* '(r, carry) := add_loop c (skipn n x) y false in
    let x := firstn n x ++ r in
    if carry then Ok (small_add_from c x 1 (vlen y + start)) else Ok (true, x).

(** The loop of long_mul, bigint.h:348-359; [z] is the copy of the original x. *)
Fixpoint long_mul_loop (c : cfg) (x z ys : list Z) (index : Z) : res (bool * list Z) :=
  match ys with
  | [] => Ok (true, x)
  | yi :: ys' =>
    if negb (yi =? 0) then
      let '(ok1, zi) := try_extend c [] z in
      if negb ok1 then Ok (false, x) else
      let '(ok2, zi) := small_mul c zi yi in
      if negb ok2 then Ok (false, x) else
      let* '(ok3, x) := large_add_from c x zi index in
      if negb ok3 then Ok (false, x) else
      long_mul_loop c x z ys' (index + 1)
    else long_mul_loop c x z ys' (index + 1)
  end.

(** long_mul, bigint.h:339-364 (with the constructor, 51-54) *)
Definition long_mul (c : cfg) (x y : list Z) : res (bool * list Z) :=
  let '(fits, z) := try_extend c [] x in
  let* _ := assert_that c fits in
  match y with
  | [] => Ok (true, normalize x)
  | y0 :: ys =>
    let '(ok, x) := small_mul c x y0 in
    if negb ok then Ok (false, x) else
    let* '(ok, x) := long_mul_loop c x z ys 1 in
    if negb ok then Ok (false, x) else Ok (true, normalize x)
  end.

(** large_mul, bigint.h:367-375 *)
Definition large_mul (c : cfg) (x y : list Z) : res (bool * list Z) :=
  match y with
  | [y0] => Ok (small_mul c x y0)
  | _ => long_mul c x y
  end.

(** pow5_tables<>::large_power_of_5, bigint.h:409-417 *)
Definition large_power_of_5 (c : cfg) : list Z :=
  if limb64 c then large_power_of_5_64 else large_power_of_5_32.

(** bigint(uint64_t), bigint.h:445-453 *)
Definition bigint_of_u64 (c : cfg) (x : Z) : res (list Z) :=
  let* v := (if limb64 c then push_unchecked c [] x
             else let* v := push_unchecked c [] (u32 x) in
                  push_unchecked c v (u32 (Z.shiftr x 32))) in
  Ok (normalize v).

(** hi64, bigint.h:457-482 (empty_hi64, 164-168) *)
Definition hi64 (c : cfg) (v : list Z) : res (Z * bool) :=
  if limb64 c then
    if vlen v =? 0 then Ok (0, false)
    else if vlen v =? 1 then let* r0 := rindex v 0 in uint64_hi64_1 c r0
    else
      let* r0 := rindex v 0 in
      let* r1 := rindex v 1 in
      let* '(r, tr) := uint64_hi64_2 c r0 r1 in
      Ok (r, tr || nonzero v 2)
  else
    if vlen v =? 0 then Ok (0, false)
    else if vlen v =? 1 then let* r0 := rindex v 0 in uint32_hi64_1 c r0
    else if vlen v =? 2 then
      let* r0 := rindex v 0 in
      let* r1 := rindex v 1 in uint32_hi64_2 c r0 r1
    else
      let* r0 := rindex v 0 in
      let* r1 := rindex v 1 in
      let* r2 := rindex v 2 in
      let* '(r, tr) := uint32_hi64_3 c r0 r1 r2 in
      Ok (r, tr || nonzero v 3).

(** The loop of compare, bigint.h:496-504, from the most significant limb. *)
Fixpoint compare_loop (x y : list Z) : Z :=
  match x, y with
  | xi :: x', yi :: y' =>
    if yi <? xi then 1 else if xi <? yi then -1 else compare_loop x' y'
  | _, _ => 0
  end.

(** compare, bigint.h:490-507 *)
Definition big_compare (x y : list Z) : Z :=
  if vlen y <? vlen x then 1
  else if vlen x <? vlen y then -1
  else compare_loop (rev x) (rev y).

(** The loop of shl_bits, bigint.h:523-527; returns the limbs and [prev]. *)
Fixpoint shl_loop (c : cfg) (n : Z) (l : list Z) (prev : Z) : list Z * Z :=
  match l with
  | [] => ([], prev)
  | x :: l' =>
    let y := Z.lor (wlimb c (Z.shiftl x n)) (Z.shiftr prev (limb_bits c - n)) in
    let '(r, last) := shl_loop c n l' x in
    (y :: r, last)
  end.

(** shl_bits, bigint.h:511-534 *)
Definition shl_bits (c : cfg) (v : list Z) (n : Z) : res (bool * list Z) :=
  if (n <=? 0) || (limb_bits c <=? n) then UB
  else
    let '(r, prev) := shl_loop c n v 0 in
    let carry := Z.shiftr prev (limb_bits c - n) in
    if negb (carry =? 0) then Ok (try_push c r carry) else Ok (true, r).

(** shl_limbs, bigint.h:537-555 *)
Definition shl_limbs (c : cfg) (v : list Z) (n : Z) : bool * list Z :=
  if bigint_limbs c <? n + vlen v then (false, v)
  else match v with
  | [] => (true, [])
  | _ => (true, repeat 0 (Z.to_nat n) ++ v)
  end.

(** shl / pow2, bigint.h:558-568,596 *)
Definition big_pow2 (c : cfg) (v : list Z) (n : Z) : res (bool * list Z) :=
  let rem := n mod limb_bits c in
  let div := n / limb_bits c in
  let* '(ok, v) := (if negb (rem =? 0) then shl_bits c v rem else Ok (true, v)) in
  if negb ok then Ok (false, v)
  else if negb (div =? 0) then Ok (shl_limbs c v div) else Ok (true, v).

(** ctlz, bigint.h:571-583 *)
Definition ctlz (c : cfg) (v : list Z) : res Z :=
  match v with
  | [] => Ok 0
  | _ =>
    let* r0 := rindex v 0 in
    if limb64 c then leading_zeroes c r0
    else let* x := shl 64 r0 32 in leading_zeroes c x
  end.

(** bit_length, bigint.h:586-589 *)
Definition bit_length (c : cfg) (v : list Z) : res Z :=
  let* lz := ctlz c v in
  chk 32 (limb_bits c * vlen v - lz).

(** The first loop of pow5, bigint.h:603-606. *)
Fixpoint pow5_large_loop (fuel : nat) (c : cfg) (v : list Z) (exp : Z)
  : res (bool * list Z * Z) :=
  match fuel with
  | O => UB
  | S fuel =>
    if 135 <=? exp then
      let* '(ok, v) := large_mul c v (large_power_of_5 c) in
      if negb ok then Ok (false, v, exp) else pow5_large_loop fuel c v (exp - 135)
    else Ok (true, v, exp)
  end.

(** The second loop of pow5, bigint.h:607-617. *)
Definition small_step (c : cfg) : Z := if limb64 c then 27 else 13.
(** bigint.h:609,612 *)
Definition max_native (c : cfg) : Z :=
  if limb64 c then 7450580596923828125 else 1220703125.
(** bigint.h:614-617 *)
Fixpoint pow5_small_loop (fuel : nat) (c : cfg) (v : list Z) (exp : Z)
  : res (bool * list Z * Z) :=
  match fuel with
  | O => UB
  | S fuel =>
    if small_step c <=? exp then
      let '(ok, v) := small_mul c v (max_native c) in
      if negb ok then Ok (false, v, exp) else pow5_small_loop fuel c v (exp - small_step c)
    else Ok (true, v, exp)
  end.

(** pow5, bigint.h:599-627.  The fuel bounds the iterations of the two loops
    (exp / 135 and fewer than 11 respectively). *)
Definition big_pow5 (c : cfg) (v : list Z) (exp : Z) : res (bool * list Z) :=
  let* '(ok, v, exp) := pow5_large_loop (S (Z.to_nat (exp / 135))) c v exp in
  if negb ok then Ok (false, v) else
  let* '(ok, v, exp) := pow5_small_loop 12 c v exp in
  if negb ok then Ok (false, v) else
  if negb (exp =? 0) then
    let* y := nth_res small_power_of_5 exp in
    Ok (small_mul c v (wlimb c y))
  else Ok (true, v).

(** pow10, bigint.h:630-633 *)
Definition big_pow10 (c : cfg) (v : list Z) (exp : Z) : res (bool * list Z) :=
  let* '(ok, v) := big_pow5 c v exp in
  if negb ok then Ok (false, v) else big_pow2 c v exp.
