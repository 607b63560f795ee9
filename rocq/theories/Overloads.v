(** Which function a call in a C++ program runs: the type traits of float_common.h, the
    overloads declared in fast_float.h and parse_number.h, and the rules of the language
    that choose between them. *)
From Verif Require Import Machine Config Chars Format ParseNumber FromChars Ints.

(** The types a caller may use for the destination, the characters and the arguments:
    the arithmetic types of C++23 (std::float16_t ... are types of their own) and the
    128-bit extension; float_common.h:256-294. *)
Inductive ctype :=
| Bool | PlainChar | SignedChar | UnsignedChar | WideChar | U8Char | U16Char | U32Char
| Short | UnsignedShort | Int | UnsignedInt | Long | UnsignedLong | LongLong | UnsignedLongLong
| Int128 | UnsignedInt128
| Float | Double | LongDouble | StdFloat16 | StdFloat32 | StdFloat64 | StdFloat128 | StdBfloat16.

Lemma ctype_dec (x y : ctype) : {x = y} + {x <> y}.
Proof. decide equality. Defined.

(** std::is_same, float_common.h:259-292 *)
Definition is_same (x y : ctype) : bool := if ctype_dec x y then true else false.

(** What the compiler and its platform decide: the signedness of char and wchar_t, their
    width, long of 32 or 64 bits, which type int64_t is, whether __int128 counts as
    integral (-std=gnu++), whether char8_t is a type of its own and which of the types
    of <stdfloat> exist; float_common.h:260-292, constexpr_feature_detect.h. *)
Record platform := {
  char_signed : bool;
  wchar_signed : bool; wchar_bits : Z;
  long_bits : Z;
  int64_long : bool;
  int128_integral : bool;
  cpp_char8_t : bool;
  stdcpp_float16_t : bool; stdcpp_float32_t : bool; stdcpp_float64_t : bool; stdcpp_bfloat16_t : bool
}.

(** int64_t and uint64_t, float_common.h:6 *)
Definition int64_t (pl : platform) : ctype := if int64_long pl then Long else LongLong.
Definition uint64_t (pl : platform) : ctype := if int64_long pl then UnsignedLong else UnsignedLongLong.

(** std::is_integral, float_common.h:283, parse_number.h:455,466,476,483 *)
Definition is_integral (pl : platform) (T : ctype) : bool :=
  match T with
  | Int128 | UnsignedInt128 => int128_integral pl
  | Float | Double | LongDouble | StdFloat16 | StdFloat32 | StdFloat64 | StdFloat128 | StdBfloat16 => false
  | _ => true
  end.

(** std::is_signed, parse_number.h:456,467,476,483 *)
Definition is_signed (pl : platform) (T : ctype) : bool :=
  match T with
  | PlainChar => char_signed pl
  | WideChar => wchar_signed pl
  | Bool | UnsignedChar | U8Char | U16Char | U32Char | UnsignedShort | UnsignedInt | UnsignedLong | UnsignedLongLong | UnsignedInt128 => false
  | _ => true
  end.

(** The bits of an integer type that hold its value and sign (std::numeric_limits),
    ascii_number.h:791,808 *)
Definition bits (pl : platform) (T : ctype) : Z :=
  match T with
  | Bool => 1
  | PlainChar | SignedChar | UnsignedChar | U8Char => 8
  | U16Char | Short | UnsignedShort => 16
  | U32Char | Int | UnsignedInt => 32
  | WideChar => wchar_bits pl
  | Long | UnsignedLong => long_bits pl
  | LongLong | UnsignedLongLong => 64
  | Int128 | UnsignedInt128 => 128
  | _ => 0
  end.

(** is_supported_float_type, float_common.h:256-273 *)
Definition is_supported_float_type (pl : platform) (T : ctype) : bool :=
  is_same T Double || is_same T Float
  || (stdcpp_float64_t pl && is_same T StdFloat64)
  || (stdcpp_float32_t pl && is_same T StdFloat32)
  || (stdcpp_float16_t pl && is_same T StdFloat16)
  || (stdcpp_bfloat16_t pl && is_same T StdBfloat16).

(** is_supported_integer_type, float_common.h:283 *)
Definition is_supported_integer_type (pl : platform) (T : ctype) : bool := is_integral pl T.

(** is_supported_char_type, float_common.h:285-294 *)
Definition is_supported_char_type (pl : platform) (UC : ctype) : bool :=
  is_same UC PlainChar || is_same UC WideChar || is_same UC U16Char || is_same UC U32Char
  || (cpp_char8_t pl && is_same UC U8Char).

(** *** The choice between overloads *)

(** The integral promotion of a type ([conv.prom]), as parse_number.h:450-451 is about:
    the first of int, unsigned int that holds all values; int has 32 bits. *)
Definition promoted (pl : platform) (T : ctype) : ctype :=
  match T with
  | Bool | PlainChar | SignedChar | UnsignedChar | U8Char | U16Char | Short | UnsignedShort => Int
  | U32Char => UnsignedInt
  | WideChar => if negb (wchar_signed pl) && (32 <=? wchar_bits pl) then UnsignedInt else Int
  | Float => Double
  | T => T
  end.

(** The rank of the conversion of an arithmetic argument to a parameter
    ([over.ics.scs]): 0 exact, 1 promotion, 2 conversion; parse_number.h:450-451 *)
Definition rank (pl : platform) (from to : ctype) : Z :=
  if is_same from to then 0 else if is_same (promoted pl from) to then 1 else 2.

(** A candidate, fast_float.h:33-87, parse_number.h:452-486: whether it is viable, the
    rank of the conversion of the argument that tells the candidates apart, whether it is
    a template and whether that parameter is of a fixed type (more specialised) *)
Record candidate (A : Type) := { viable : bool; c_rank : Z; template : bool; fixed_parameter : bool; target : A }.
Arguments viable {A}. Arguments c_rank {A}. Arguments template {A}. Arguments fixed_parameter {A}. Arguments target {A}.

(** [over.match.best], for the candidates of fast_float.h:33-87: a better conversion,
    then a function before a template, then the more specialised template *)
Definition better {A} (f g : candidate A) : bool :=
  (c_rank f <? c_rank g)
  || ((c_rank f =? c_rank g)
      && ((negb (template f) && template g)
          || (template f && template g && fixed_parameter f && negb (fixed_parameter g)))).

(** What the compiler says, as parse_number.h:450-451 is about *)
Inductive selection (A : Type) := Selected (a : A) | NoViable | Ambiguous.
Arguments Selected {A}. Arguments NoViable {A}. Arguments Ambiguous {A}.

Fixpoint select_from {A} (seen later : list (candidate A)) : selection A :=
  match later with
  | [] => match seen with [] => NoViable | _ => Ambiguous end
  | f :: later => if forallb (better f) (seen ++ later) then Selected (target f) else select_from (seen ++ [f]) later
  end.

(** Overload resolution, fast_float.h:33-87 *)
Definition select {A} (l : list (candidate A)) : selection A := select_from [] (filter viable l).

(** *** from_chars *)

(** The last argument of from_chars, fast_float.h:37,87: omitted, a chars_format (a
    scoped enumeration) or of an arithmetic type; an integral [value] *)
Inductive last_argument := Omitted | FormatArgument (fmt : Z) | NumberArgument (X : ctype) (value : Z).

(** The types and constants of the instantiations: which of the modelled formats,
    float_common.h:432-565 *)
Definition format_type (T : ctype) : ftype :=
  match T with
  | Double | StdFloat64 => F64
  | StdFloat16 => F16
  | StdBfloat16 => BF16
  | _ => F32
  end.

(** parse_int_string<T>: std::numeric_limits<T> and the tests std::is_same<T, ...>,
    ascii_number.h:564,604,697,790-791,808-809 *)
Definition integer_type (pl : platform) (T : ctype) : ity :=
  {| i_signed := is_signed pl T; i_bits := bits pl T;
     i_is_u8 := is_same T UnsignedChar; i_is_u16 := is_same T UnsignedShort; i_is_u64 := is_same T (uint64_t pl) |}.

(** The character types, ascii_number.h:21-27 *)
Definition char_type (pl : platform) (UC : ctype) : uc :=
  match UC with
  | WideChar => if wchar_bits pl =? 16 then Wchar_u16 else if wchar_signed pl then Wchar_s32 else Wchar_u32
  | U8Char => Char8
  | U16Char => Char16
  | U32Char => Char32
  | _ => if char_signed pl then Char_s else Char_u
  end.

(** What from_chars ends up running: the floating-point parser, the one through a local
    variable (parse_number.h:149-181) or the integer parser, with its format or base *)
Inductive entry := RunFloat (t : ftype) (fmt : Z) | RunFixed (t : ftype) (fmt : Z) | RunInt (T : ity) (base : Z).

(** from_chars_caller<T>, parse_number.h:140-181,183-189: the specialisations exist with
    the types *)
Definition float_entry (pl : platform) (T : ctype) (fmt : Z) : entry :=
  if (stdcpp_float32_t pl && is_same T StdFloat32) || (stdcpp_float64_t pl && is_same T StdFloat64)
  then RunFixed (format_type T) fmt else RunFloat (format_type T) fmt.

(** The two overloads of from_chars with their default arguments, fast_float.h:33-37,83-87.
    The first three arguments convert exactly in both; the last is converted to
    chars_format (only from itself) or to int (from every arithmetic type). *)
Definition from_chars_candidates (pl : platform) (T : ctype) (arg : last_argument) : list (candidate entry) :=
  [ {| viable := is_supported_float_type pl T && (match arg with NumberArgument _ _ => false | _ => true end);
       c_rank := 0; template := true; fixed_parameter := false;
       target := float_entry pl T (match arg with FormatArgument fmt => fmt | _ => f_general end) |};
    {| viable := is_supported_integer_type pl T && (match arg with FormatArgument _ => false | _ => true end);
       c_rank := match arg with NumberArgument X _ => rank pl X Int | _ => 0 end; template := true; fixed_parameter := false;
       target := RunInt (integer_type pl T) (match arg with NumberArgument _ z => to_signed 32 z | _ => 10 end) |} ].

(** A call of from_chars with pointers to [UC] and a destination of type [T]; the
    assertion about the character type (parse_number.h:258,316,402,495) stops the
    compilation.  [None]: it does not compile. *)
Definition call_from_chars (pl : platform) (c : cfg) (UC T : ctype) (arg : last_argument) (s : list Z) : option (res result) :=
  if is_supported_char_type pl UC then
    match select (from_chars_candidates pl T arg) with
    | Selected (RunFloat t fmt) => Some (from_chars_float c (char_type pl UC) t s fmt)
    | Selected (RunFixed t fmt) => Some (from_chars_fixed_width c (char_type pl UC) t s fmt)
    | Selected (RunInt IT base) => Some (from_chars_int c (char_type pl UC) IT s base)
    | _ => None
    end
  else None.

(** from_chars_advanced, parse_number.h:516-546: the sum of the two traits selects the
    specialisation; the assertion in the primary template rejects 0, and 3 has no
    member [call] *)
Definition call_from_chars_advanced (pl : platform) (c : cfg) (UC T : ctype) (o : options) (s : list Z) : option (res result) :=
  if is_supported_char_type pl UC then
    match Z.b2z (is_supported_float_type pl T) + 2 * Z.b2z (is_supported_integer_type pl T) with
    | 1 => Some (from_chars_float_advanced c (char_type pl UC) (format_type T) s o)
    | 2 => Some (from_chars_int_advanced c (char_type pl UC) (integer_type pl T) s o)
    | _ => None
    end
  else None.

(** *** integer_times_pow10 *)

(** The overloads, parse_number.h:410-486 *)
Inductive pow10_overload := Plain_u64 | Plain_s64 | Fixed_u64 | Fixed_s64 | Deduced_unsigned | Deduced_signed | Only_unsigned | Only_signed.

(** The candidates of integer_times_pow10(x, e), [x] of type [X]: the two functions and
    the two templates whose only parameter is deduced, parse_number.h:440-448,474-486 *)
Definition pow10_candidates (pl : platform) (X : ctype) : list (candidate pow10_overload) :=
  [ {| viable := true; c_rank := rank pl X (uint64_t pl); template := false; fixed_parameter := true; target := Plain_u64 |};
    {| viable := true; c_rank := rank pl X (int64_t pl); template := false; fixed_parameter := true; target := Plain_s64 |};
    {| viable := is_integral pl X && negb (is_signed pl X); c_rank := 0; template := true; fixed_parameter := false; target := Only_unsigned |};
    {| viable := is_integral pl X && is_signed pl X; c_rank := 0; template := true; fixed_parameter := false; target := Only_signed |} ].

(** The candidates of integer_times_pow10<T>(x, e): templates only; with one template
    argument the overloads for [Int] alone convert [x] to [T], parse_number.h:410-438,452-486 *)
Definition pow10_explicit_candidates (pl : platform) (T X : ctype) : list (candidate pow10_overload) :=
  [ {| viable := is_supported_float_type pl T; c_rank := rank pl X (uint64_t pl); template := true; fixed_parameter := true; target := Fixed_u64 |};
    {| viable := is_supported_float_type pl T; c_rank := rank pl X (int64_t pl); template := true; fixed_parameter := true; target := Fixed_s64 |};
    {| viable := is_supported_float_type pl T && is_integral pl X && negb (is_signed pl X); c_rank := 0; template := true; fixed_parameter := false; target := Deduced_unsigned |};
    {| viable := is_supported_float_type pl T && is_integral pl X && is_signed pl X; c_rank := 0; template := true; fixed_parameter := false; target := Deduced_signed |};
    {| viable := is_integral pl T && negb (is_signed pl T); c_rank := rank pl X T; template := true; fixed_parameter := true; target := Only_unsigned |};
    {| viable := is_integral pl T && is_signed pl T; c_rank := rank pl X T; template := true; fixed_parameter := true; target := Only_signed |} ].

(** The bodies, parse_number.h:410-486, for an integral [x]: the conversion of the
    argument, then the static_cast to 64 bits; [t] is the type returned *)
Definition run_pow10 (pl : platform) (c : cfg) (t : ftype) (k : pow10_overload) (x e : Z) : res Z :=
  match k with
  | Plain_u64 | Fixed_u64 | Deduced_unsigned | Only_unsigned => integer_times_pow10_u c t (u64 x) e
  | Plain_s64 | Fixed_s64 | Deduced_signed | Only_signed => integer_times_pow10_s c t (to_signed 64 x) e
  end.

(** A value of one integer type converted to another (modulo the width; to bool: not
    zero), where integer_times_pow10<Int> converts its argument, parse_number.h:474-486 *)
Definition converted (pl : platform) (T : ctype) (x : Z) : Z :=
  match T with
  | Bool => if x =? 0 then 0 else 1
  | _ => if is_signed pl T then to_signed (bits pl T) x else x mod 2 ^ bits pl T
  end.

(** integer_times_pow10(x, e), parse_number.h:440-448,474-486 *)
Definition call_pow10 (pl : platform) (c : cfg) (X : ctype) (x e : Z) : option (res Z) :=
  match select (pow10_candidates pl X) with
  | Selected k => Some (run_pow10 pl c F64 k x e)
  | _ => None
  end.

(** integer_times_pow10<T>(x, e), parse_number.h:410-438,452-486 *)
Definition call_pow10_explicit (pl : platform) (c : cfg) (T X : ctype) (x e : Z) : option (res Z) :=
  match select (pow10_explicit_candidates pl T X) with
  | Selected (Only_unsigned as k) | Selected (Only_signed as k) => Some (run_pow10 pl c F64 k (converted pl T x) e)
  | Selected k => Some (run_pow10 pl c (format_type T) k x e)
  | _ => None
  end.
