(** Specification: why a text is not a number.  The codes are those of the
    public enum parse_error; the second text is what starts at the place the
    library reports.  Everything else is in terms of the grammar. *)
From Coq Require Import ZArith List Bool.
From Verif Require Import Config ParseNumber SpecGrammar SpecApi.
Import ListNotations.
Open Scope Z_scope.

(** A sign, the integer digits, the fraction - a complete mantissa, followed
    by [s3]. *)
Definition mantissa_then (R : rules) (s s3 : list Z) : Prop :=
  exists neg s1 ip s2 has_point fp,
    signed R s neg s1 /\ run s1 ip s2 /\ fraction R s2 has_point fp s3 /\ mantissa_ok R ip has_point fp.

Inductive diagnosis (R : rules) : list Z -> parse_error -> list Z -> Prop :=
(* a sign and nothing else *)
| sign_only s neg : signed R s neg [] -> s <> [] ->
    diagnosis R s Missing_integer_or_dot_after_sign []
(* JSON: a sign not followed by a digit *)
| json_sign s neg ch t : json R = true -> signed R s neg (ch :: t) -> s <> ch :: t -> digit ch = false ->
    diagnosis R s Missing_integer_after_sign (ch :: t)
(* a sign followed by neither a digit nor the decimal point *)
| bare_sign s neg ch t : json R = false -> signed R s neg (ch :: t) -> s <> ch :: t -> digit ch = false ->
    ch <> point R -> diagnosis R s Missing_integer_or_dot_after_sign (ch :: t)
(* JSON: no sign and no digit *)
| json_no_digit s : json R = true -> signed R s false s -> not_at_digit s ->
    diagnosis R s No_digits_in_integer_part s
(* JSON: a zero followed by further digits; reported where the digits start *)
| json_zeros s neg s1 d l rest : json R = true -> signed R s neg s1 -> run s1 (48 :: d :: l) rest ->
    diagnosis R s Leading_zeros_in_integer_part s1
(* JSON: a decimal point without digits after it *)
| json_point s neg s1 ip t : json R = true -> signed R s neg s1 -> run s1 ip (point R :: t) ->
    ip <> [] -> (forall l, ip = 48 :: l -> l = []) -> not_at_digit t ->
    diagnosis R s No_digits_in_fractional_part t
(* nothing but a decimal point *)
| lone_point s neg t : json R = false -> signed R s neg (point R :: t) -> not_at_digit t ->
    diagnosis R s No_digits_in_mantissa t
(* neither a sign, nor a digit, nor a decimal point *)
| nothing s : json R = false -> signed R s false s -> not_at_digit s ->
    not_at (fun ch => ch = point R) s -> diagnosis R s No_digits_in_mantissa s
(* a mantissa, no exponent, but one is required *)
| no_exponent s s3 : mantissa_then R s s3 -> (forall t, ~ exp_mark R s3 t) ->
    scientific R = true -> fixed R = false -> diagnosis R s Missing_exponential_part s3
(* a mantissa and the beginning of an exponent, without digits; reported where
   they should start *)
| exponent_digits s s3 s4 neg s5 : mantissa_then R s s3 -> exp_mark R s3 s4 -> exp_sign s4 neg s5 ->
    not_at_digit s5 -> fixed R = false -> diagnosis R s Missing_exponential_part s5.

(** parse_number_string<basic_json_fmt> takes the JSON rules from its template
    parameter and the others from the options. *)
Definition parser_rules (c : cfg) (bjf : bool) (o : options) : rules :=
  {| leading_plus := leading_plus (rules_of c o); json := bjf;
     scientific := scientific (rules_of c o); fixed := fixed (rules_of c o);
     fortran := fortran (rules_of c o); point := point (rules_of c o) |}.

(** The texts it is called on: not empty, made of code units (for a signed
    32-bit wchar_t not within 48 of its minimum); as in SpecApi the decimal
    point is something else than a digit. *)
Definition parser_text (u : uc) (o : options) (s : list Z) : Prop :=
  s <> [] /\ Forall (code_unit u) s /\ (u = Wchar_s32 -> Forall (fun ch => - 2 ^ 31 + 48 <= ch) s) /\
  Z.of_nat (length s) <= 2 ^ 59 /\ digit (o_decimal_point o) = false.
