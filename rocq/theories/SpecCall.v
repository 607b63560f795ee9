(** Specification: what a call of from_chars for a floating-point type does, for every text and
    every option set - in one definition, [outcome] (C84).  Uses the grammar of SpecGrammar, the
    rounding rules of SpecFloat and the argument and result types of the model. *)
From Coq Require Import ZArith QArith List Bool.
From Verif Require Import Machine Config SpecFloat FloatBridge SpecGrammar SpecApi.
Import ListNotations.
Open Scope Z_scope.

(** ** White space *)

(** What the library takes for white space: the six characters and, among the negative
    code units, those whose low byte is one of the six. *)
Definition taken_for_space (ch : Z) : bool := space ch || ((ch <? 0) && space (ch mod 256)).

(** The text is [ws ++ s0], and parsing starts at [s0]. *)
Definition begins (c : cfg) (o : options) (ws s0 : list Z) : Prop :=
  if skips_space c o then
    Forall (fun ch => taken_for_space ch = true) ws /\ not_at (fun ch => taken_for_space ch = true) s0
  else ws = [].

(** ** Texts that are undefined *)

(** One of the 48 smallest values of a signed 32-bit type. *)
Definition too_small (ch : Z) : bool := ch <? - 2 ^ 31 + 48.

(** [digits_end R s q]: reading [s], the library finds out at [q] that the digits of the integer
    part, the fraction or the exponent end (or that there are none). *)
Inductive digits_end (R : rules) (s : list Z) : list Z -> Prop :=
| end_integer neg s1 ip s2 :
    signed R s neg s1 -> run s1 ip s2 -> digits_end R s s2
| end_fraction neg s1 ip s2 fp s3 :
    signed R s neg s1 -> run s1 ip (point R :: s2) ->
    (json R = true -> ip <> [] /\ forall l, ip = 48 :: l -> l = []) ->
    run s2 fp s3 -> digits_end R s s3
| end_exponent neg s1 ip s2 has_point fp s3 s4 eneg s5 ds s6 :
    signed R s neg s1 -> run s1 ip s2 -> fraction R s2 has_point fp s3 -> mantissa_ok R ip has_point fp ->
    exp_mark R s3 s4 -> exp_sign s4 eneg s5 -> run s5 ds s6 -> digits_end R s s6.

(** There the next character is one of the 48. *)
Definition ends_at_small (R : rules) (s : list Z) : Prop :=
  exists ch r, digits_end R s (ch :: r) /\ too_small ch = true.

(** ** A digit as separator *)

(** The zeros among the leading '0' and [d] of the digits. *)
Fixpoint leading_zeros_and (d : Z) (ds : list Z) : Z :=
  match ds with
  | ch :: r => if ch =? 48 then 1 + leading_zeros_and d r else if ch =? d then leading_zeros_and d r else 0
  | [] => 0
  end.

(** More than nineteen digits, but not more than nineteen without these zeros. *)
Definition miscounted (d : Z) (ds : list Z) : Prop :=
  19 < Z.of_nat (length ds) /\ Z.of_nat (length ds) - leading_zeros_and d ds <= 19.

(** ** Rounding and the error code *)

(** To nearest, ties to even; but for std::float16_t ties between subnormal numbers go up if [up]. *)
Definition rounded (t : ftype) (up : Prop) (v : Q) (b : Z) : Prop :=
  nearest (format_of t) v b /\
  (t = F16 -> up -> forall b', subnormal_tie binary16 v b' -> b = b') /\
  (t <> F16 \/ ~ up \/ (forall b', ~ subnormal_tie binary16 v b') -> nearest_even (format_of t) v b).

(** result_out_of_range if a non-zero number became zero or any became infinity - which is not
    reported for short numbers that std::float16_t arithmetic converts ([W]*10^[q]). *)
Definition reported (c : cfg) (t : ftype) (W q b : Z) (x : ec) : Prop :=
  (x = Success \/ x = OutOfRange) /\
  (x = OutOfRange <->
     ((0 < W /\ b = 0) \/ b = infinity (format_of t)) /\
     ~ (t = F16 /\ direct_arithmetic c /\ W <= 2048 /\ 0 <= q <= 4)).

(** Infinity, and the quiet NaN without payload. *)
Definition special_bits (f : format) (k : special_kind) : Z :=
  match k with Inf => infinity f | Nan => infinity f + 2 ^ (frac_bits f - 1) end.

(** ** The call *)
Definition undefined (u : uc) (R : rules) (s0 : list Z) : Prop := u = Wchar_s32 /\ ends_at_small R s0.

Inductive outcome (c : cfg) (u : uc) (t : ftype) (o : options) (s0 : list Z) : res result -> Prop :=
| call_undefined :
    undefined u (rules_of c o) s0 -> outcome c u t o s0 UB
| call_number neg ip fp e rest e' b x :
    ~ undefined u (rules_of c o) s0 ->
    number (rules_of c o) s0 neg ip fp e rest -> exponent_read e e' ->
    ~ (digit (o_decimal_point o) = true /\ miscounted (o_decimal_point o) ip) ->
    let v := number_value ip fp e' in
    rounded t (nineteen_digits v) v b ->
    reported c t (digits_value (ip ++ fp)) (e' - Z.of_nat (length fp)) b x ->
    outcome c u t o s0 (Ok {| r_ptr := rest; r_ec := x; r_value := Some (with_sign (format_of t) neg b) |})
| call_miscounted neg ip fp e rest e' b x :
    ~ undefined u (rules_of c o) s0 ->
    number (rules_of c o) s0 neg ip fp e rest -> exponent_read e e' ->
    digit (o_decimal_point o) = true -> miscounted (o_decimal_point o) ip ->
    let W := digits_value ip mod 2 ^ 64 in
    rounded t True (decimal W e') b -> reported c t W e' b x ->
    outcome c u t o s0 (Ok {| r_ptr := rest; r_ec := x; r_value := Some (with_sign (format_of t) neg b) |})
| call_special neg k rest :
    ~ undefined u (rules_of c o) s0 ->
    allows_special o = true -> special (leading_plus (rules_of c o)) s0 neg k rest ->
    outcome c u t o s0
      (Ok {| r_ptr := rest; r_ec := Success; r_value := Some (with_sign (format_of t) neg (special_bits (format_of t) k)) |})
| call_invalid :
    ~ undefined u (rules_of c o) s0 ->
    (forall neg ip fp e rest, ~ number (rules_of c o) s0 neg ip fp e rest) ->
    (allows_special o = true -> forall neg k rest, ~ special (leading_plus (rules_of c o)) s0 neg k rest) ->
    outcome c u t o s0 (Ok {| r_ptr := s0; r_ec := InvalidArgument; r_value := None |}).
