(** Build configuration, character types, destination types and option flags. *)
From Verif Require Import Machine.

(** The four IEEE-754 rounding directions (fegetround);
    parse_number.h:78-129 describes and probes them. *)
Inductive rounding := ToNearest | Upward | Downward | TowardZero.

(** FLT_EVAL_METHOD: 0 (operations in their own type), 1 (float and narrower in
    double), 2 (x87: everything in a 64-bit significand), or another value, such
    as 16, with operations in their own type.  For -1 (indeterminable) the
    compiler evaluates the one rounded operation of the fast path as under 2 or
    as under the last.  parse_number.h:80, float_common.h:755,764 *)
Inductive eval_method := Eval0 | Eval1 | Eval2 | Eval_other.

(** float_common.h:165-177 *)
Inductive simd_kind := NoSimd | Sse2 | Neon.

(** Everything the library selects with the preprocessor or at run time:
    float_common.h:92-254, constexpr_feature_detect.h:1-53; each field cites its lines. *)
Record cfg := {
  in_constexpr : bool;     (* cpp20_and_in_constexpr(), float_common.h:248-254 *)
  big_endian : bool;       (* FASTFLOAT_IS_BIG_ENDIAN, float_common.h:129-163 *)
  is_clang : bool;         (* __clang__, ascii_number.h:274, parse_number.h:230 *)
  is_32bit : bool;         (* FASTFLOAT_32BIT, float_common.h:92-118 *)
  sparc : bool;            (* __sparc, bigint.h:19 *)
  int128 : bool;           (* __SIZEOF_INT128__, float_common.h:614, bigint.h:237 *)
  clz_builtin : bool;      (* intrinsic clz/ctz available, float_common.h:506-518,556-564 *)
  add_overflow_builtin : bool; (* __builtin_add_overflow, bigint.h:218-225 *)
  simd : simd_kind;
  eval : eval_method;
  half_in_float : bool;    (* operations on the 16-bit types are carried out in float and
                              converted back (machines without 16-bit arithmetic) where
                              FLT_EVAL_METHOD says operations are in their own type;
                              parse_number.h:213-217,237 *)
  rmode : rounding;        (* the thread's current rounding direction *)
  flush : bool;            (* the thread's denormals-are-zero and flush-to-zero modes *)
  macro_leading_plus : bool; (* FASTFLOAT_ALLOWS_LEADING_PLUS, float_common.h:1447 *)
  macro_skip_ws : bool;    (* FASTFLOAT_SKIP_WHITE_SPACE, float_common.h:1450 *)
  asserts : bool           (* FASTFLOAT_ASSERT and FASTFLOAT_DEBUG_ASSERT defined by the
                              user to stop the program when their argument is false;
                              float_common.h:226-234 *)
}.

(** FASTFLOAT_ASSERT(x), float_common.h:226-229: by default [x] is evaluated and
    its value dropped; with [asserts] a false [x] stops the program ([UB]). *)
Definition assert_that (c : cfg) (x : bool) : res unit :=
  if asserts c && negb x then UB else Ok tt.
Lemma assert_true (c : cfg) {A} (k : unit -> res A) : bind (assert_that c true) k = k tt.
Proof. unfold assert_that. rewrite Bool.andb_false_r. reflexivity. Qed.

(** bigint.h:19-27: 64-bit limbs on 64-bit platforms other than sparc. *)
Definition limb64 (c : cfg) : bool := negb (is_32bit c) && negb (sparc c).

(** FASTFLOAT_HAS_SIMD, float_common.h:165-177.  SSE2 exists on little-endian
    machines only; NEON may be either (its lanes are numbered in memory order
    and lane 0 is the least significant one in both cases). *)
Definition has_simd (c : cfg) : bool :=
  match simd c with NoSimd => false | Sse2 => negb (big_endian c) | Neon => true end.

(** Character types accepted by the library (float_common.h:285-295); plain
    char is signed or unsigned and wchar_t has three layouts in practice. *)
Inductive uc :=
| Char_s | Char_u | Char8 | Wchar_s32 | Wchar_u32 | Wchar_u16 | Char16 | Char32.

(** Their widths, float_common.h:285-295 (sizeof(UC) times 8). *)
Definition uc_bits (u : uc) : Z :=
  match u with
  | Char_s | Char_u | Char8 => 8
  | Wchar_u16 | Char16 => 16
  | Wchar_s32 | Wchar_u32 | Char32 => 32
  end.

(** Their signedness, float_common.h:285-295 (a property of the platform). *)
Definition uc_signed (u : uc) : bool :=
  match u with Char_s | Wchar_s32 => true | _ => false end.

(** sizeof(UC), as in float_common.h:302-306,424,1230-1240, ascii_number.h:604,697. *)
Definition uc_size (u : uc) : Z := uc_bits u / 8.

(** std::is_same<UC, char>, ascii_number.h:54,75,245. *)
Definition uc_is_char (u : uc) : bool :=
  match u with Char_s | Char_u => true | _ => false end.

(** std::is_same<UC, char16_t>, ascii_number.h:25. *)
Definition uc_is_char16 (u : uc) : bool :=
  match u with Char16 => true | _ => false end.

(** Values a code unit of the type can take; the types are those of
    float_common.h:285-295. *)
Definition uc_min (u : uc) : Z := if uc_signed u then - 2 ^ (uc_bits u - 1) else 0.
(** float_common.h:285-295 *)
Definition uc_max (u : uc) : Z :=
  if uc_signed u then 2 ^ (uc_bits u - 1) - 1 else 2 ^ uc_bits u - 1.

(** Floating-point destination types (float_common.h:256-273; float32_t and
    float64_t share the constants of float and double, 1365-1385). *)
Inductive ftype := F64 | F32 | F16 | BF16.

(** Option flags, float_common.h:39-57; each definition cites its line there. *)
Definition f_scientific : Z := 1.          (* 1 << 0, float_common.h:45 *)
Definition f_fixed : Z := 4.               (* 1 << 2, float_common.h:46 *)
Definition f_hex : Z := 8.                 (* 1 << 3, float_common.h:47 *)
Definition f_no_infnan : Z := 16.          (* 1 << 4, float_common.h:48 *)
Definition f_basic_json : Z := 32.         (* 1 << 5, float_common.h:40 *)
Definition f_basic_fortran : Z := 64.      (* 1 << 6, float_common.h:41 *)
Definition f_allow_leading_plus : Z := 128. (* 1 << 7, float_common.h:55 *)
Definition f_skip_white_space : Z := 256.  (* 1 << 8, float_common.h:56 *)
(** general, json, json_or_infnan and fortran, float_common.h:49-54 *)
Definition f_general : Z := Z.lor f_fixed f_scientific.
(** float_common.h:50 *)
Definition f_json : Z := Z.lor (Z.lor (Z.lor f_basic_json f_fixed) f_scientific) f_no_infnan.
(** float_common.h:52 *)
Definition f_json_or_infnan : Z := Z.lor (Z.lor f_basic_json f_fixed) f_scientific.
(** float_common.h:53 *)
Definition f_fortran : Z := Z.lor (Z.lor f_basic_fortran f_fixed) f_scientific.

(** parse_options_t, float_common.h:71-82 *)
Record options := { o_format : Z; o_decimal_point : Z; o_base : Z }.

(** uint64_t(fmt & flag) != 0, e.g. ascii_number.h:353-354,457-459,477, parse_number.h:33. *)
Definition flag (fmt f : Z) : bool := negb (Z.land fmt f =? 0).

(** detail::adjust_for_feature_macros, float_common.h:1443-1455 *)
Definition adjust_for_feature_macros (c : cfg) (fmt : Z) : Z :=
  let fmt := if macro_leading_plus c then Z.lor fmt f_allow_leading_plus else fmt in
  if macro_skip_ws c then Z.lor fmt f_skip_white_space else fmt.

(** std::errc values returned by the library, float_common.h:59-67:
    std::errc(), invalid_argument (parse_number.h:69,328,343,508) and
    result_out_of_range (parse_number.h:287,391, ascii_number.h:674-792). *)
Inductive ec := Success | InvalidArgument | OutOfRange.

(** from_chars_result_t, float_common.h:59-67, together with the effect on the destination:
    [r_ptr] is the returned pointer as the list of characters from it to last;
    [r_value = None] means that the destination was not written. *)
Record result := { r_ptr : list Z; r_ec : ec; r_value : option Z }.
