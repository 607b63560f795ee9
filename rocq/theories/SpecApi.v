(** Specification: how the arguments of the entry points select the rules.
    Uses only the argument types of the model (cfg, options). *)
From Coq Require Import ZArith List Bool.
From Verif Require Import Config SpecGrammar.
Import ListNotations.
Open Scope Z_scope.

(** The bits of chars_format (float_common.h:39-57): scientific 0, fixed 2,
    no_infnan 4, basic_json 5, basic_fortran 6, allow_leading_plus 7,
    skip_white_space 8.  The deprecated build macros force the last two. *)
Definition rules_of (c : cfg) (o : options) : rules :=
  {| leading_plus := Z.testbit (o_format o) 7 || macro_leading_plus c;
     json := Z.testbit (o_format o) 5;
     scientific := Z.testbit (o_format o) 0;
     fixed := Z.testbit (o_format o) 2;
     fortran := Z.testbit (o_format o) 6;
     point := o_decimal_point o |}.

Definition skips_space (c : cfg) (o : options) : bool :=
  Z.testbit (o_format o) 8 || macro_skip_ws c.

Definition allows_special (o : options) : bool := negb (Z.testbit (o_format o) 4).

(** The values of a character type. *)
Definition code_unit (u : uc) (ch : Z) : Prop := uc_min u <= ch <= uc_max u.

(** The texts the theorems are about: sequences of code units.  For a signed
    32-bit wchar_t two kinds of code units are excluded, none of which is a
    character: those within 48 of the type's minimum, and - if white space is
    skipped - negative ones whose low byte is a white-space character.
    2^59 characters is more than any object can have; the decimal point has to
    be something else than a digit. *)
Definition good_text (c : cfg) (u : uc) (o : options) (s : list Z) : Prop :=
  Forall (code_unit u) s /\
  (u = Wchar_s32 -> Forall (fun ch => - 2 ^ 31 + 48 <= ch /\
      (skips_space c o = true -> ch < 0 -> space (ch mod 256) = false)) s) /\
  Z.of_nat (length s) <= 2 ^ 59 /\
  digit (o_decimal_point o) = false.

(** Where parsing starts: after the white space, if it is skipped. *)
Definition starts_at (c : cfg) (o : options) (s s0 : list Z) : Prop :=
  if skips_space c o then without_spaces s s0 else s0 = s.

(** A bound on the text or on the written exponent: the library stops reading
    an exponent once it exceeds 2^28. *)
Definition exponent_bounded (s : list Z) (e : Z) : Prop :=
  Z.of_nat (length s) < 268000000 \/ Z.abs e < 2 ^ 28.

(** The exponent the library computes with, if the text gives [e]: it stops
    reading the digits once it has reached 2^28 in magnitude, so the remaining
    digits are lost. *)
Definition exponent_read (e e' : Z) : Prop :=
  (Z.abs e < 2 ^ 28 /\ e' = e) \/
  (exists k, 0 <= k /\ e' = Z.sgn e * (Z.abs e / 10 ^ k) /\ 2 ^ 28 <= Z.abs e / 10 ^ k < 10 * 2 ^ 28).

(** The options of chars_format::general and json with '.' as decimal point. *)
Definition general : options := {| o_format := 5; o_decimal_point := 46; o_base := 10 |}.
Definition json_options : options := {| o_format := 53; o_decimal_point := 46; o_base := 10 |}.

(** At run time, with rounding to nearest and FLT_EVAL_METHOD 0 or 1, a short
    number may be converted by one floating-point operation. *)
Definition direct_arithmetic (c : cfg) : Prop :=
  in_constexpr c = false /\ rmode c = ToNearest /\ (eval c = Eval0 \/ eval c = Eval1).

(** Where binary16 overflow is not reported. *)
Definition silent_float16_overflow (c : cfg) (ip fp : list Z) (e : Z) : Prop :=
  in_constexpr c = false /\ rmode c = ToNearest /\ (eval c = Eval0 \/ eval c = Eval1) /\
  digits_value (ip ++ fp) <= 2048 /\ 0 <= e - Z.of_nat (length fp) <= 4.

(** [o'] permits everything [o] permits: the same decimal point, the same
    exponent letters; a leading plus, white space, numbers without exponent,
    infinities and NaNs, and numbers outside the JSON grammar are allowed by
    [o'] if they are by [o]. *)
Definition permits_more (o o' : options) : Prop :=
  o_decimal_point o' = o_decimal_point o /\
  Z.testbit (o_format o') 0 = Z.testbit (o_format o) 0 /\
  Z.testbit (o_format o') 6 = Z.testbit (o_format o) 6 /\
  (Z.testbit (o_format o) 2 = true -> Z.testbit (o_format o') 2 = true) /\
  (Z.testbit (o_format o) 7 = true -> Z.testbit (o_format o') 7 = true) /\
  (Z.testbit (o_format o) 8 = true -> Z.testbit (o_format o') 8 = true) /\
  (Z.testbit (o_format o') 4 = true -> Z.testbit (o_format o) 4 = true) /\
  (Z.testbit (o_format o') 5 = true -> Z.testbit (o_format o) 5 = true).
