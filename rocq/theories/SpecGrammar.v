(** Specification: the texts the library accepts and the numbers they denote.
    Self-contained: nothing here refers to the model of the library.
    A text is the list of its code units; ASCII characters are their codes. *)
From Coq Require Import ZArith QArith List Bool.
From Verif Require Import SpecFloat.
Import ListNotations.
Open Scope Z_scope.

(** Decimal digits and the number a digit string denotes. *)
Definition digit (ch : Z) : bool := (48 <=? ch) && (ch <=? 57).
Definition all_digits (l : list Z) : Prop := Forall (fun ch => digit ch = true) l.
Definition digits_value (l : list Z) : Z := fold_left (fun a ch => 10 * a + (ch - 48)) l 0.

(** [s] does not start with a character satisfying [P]. *)
Definition not_at (P : Z -> Prop) (s : list Z) : Prop :=
  match s with [] => True | ch :: _ => ~ P ch end.
Definition not_at_digit (s : list Z) : Prop := not_at (fun ch => digit ch = true) s.

(** [ds] is the maximal run of digits at the start of [s]; [rest] follows it. *)
Definition run (s ds rest : list Z) : Prop :=
  s = ds ++ rest /\ all_digits ds /\ not_at_digit rest.

(** The rules in force: what the option flags select. *)
Record rules := {
  leading_plus : bool;   (* chars_format::allow_leading_plus *)
  json : bool;           (* chars_format::basic_json_fmt *)
  scientific : bool;     (* chars_format::scientific *)
  fixed : bool;          (* chars_format::fixed *)
  fortran : bool;        (* chars_format::basic_fortran_fmt *)
  point : Z              (* parse_options::decimal_point *)
}.

(** Sign: [signed R s neg s'] - after the sign of [s] comes [s']. *)
Inductive signed (R : rules) : list Z -> bool -> list Z -> Prop :=
| signed_minus s : signed R (45 :: s) true s
| signed_plus s : leading_plus R = true -> json R = false -> signed R (43 :: s) false s
| signed_none s :
    not_at (fun ch => ch = 45 \/ (ch = 43 /\ leading_plus R = true /\ json R = false)) s ->
    signed R s false s.

(** Fraction: an optional point and the maximal digit run after it. *)
Inductive fraction (R : rules) : list Z -> bool -> list Z -> list Z -> Prop :=
| fraction_some s ds rest : run s ds rest -> fraction R (point R :: s) true ds rest
| fraction_none s : not_at (fun ch => ch = point R) s -> fraction R s false [] s.

(** Which combinations of integer digits, point and fraction digits are
    numbers: JSON wants no superfluous leading zero and digits on both sides
    of a point; otherwise at least one digit somewhere is enough. *)
Definition mantissa_ok (R : rules) (ip : list Z) (has_point : bool) (fp : list Z) : Prop :=
  if json R then
    ip <> [] /\ (forall l, ip = 48 :: l -> l = []) /\ (has_point = true -> fp <> [])
  else ip ++ fp <> [].

(** Exponent introduction: e or E (scientific), d, D or a bare sign (Fortran).
    The second text is what follows the letter. *)
Inductive exp_mark (R : rules) : list Z -> list Z -> Prop :=
| mark_e ch s : scientific R = true -> ch = 101 \/ ch = 69 -> exp_mark R (ch :: s) s
| mark_d ch s : fortran R = true -> ch = 100 \/ ch = 68 -> exp_mark R (ch :: s) s
| mark_sign ch s : fortran R = true -> ch = 43 \/ ch = 45 -> exp_mark R (ch :: s) (ch :: s).

(** Sign of an exponent. *)
Inductive exp_sign : list Z -> bool -> list Z -> Prop :=
| exp_minus s : exp_sign (45 :: s) true s
| exp_plus s : exp_sign (43 :: s) false s
| exp_nosign s : not_at (fun ch => ch = 45 \/ ch = 43) s -> exp_sign s false s.

(** Exponent part: complete; absent (allowed unless only scientific notation
    is); or introduced but without digits, and then not part of the number
    (allowed only with fixed). *)
Inductive exponent (R : rules) : list Z -> Z -> list Z -> Prop :=
| exponent_some s s1 neg s2 ds rest :
    exp_mark R s s1 -> exp_sign s1 neg s2 -> run s2 ds rest -> ds <> [] ->
    exponent R s (if neg then - digits_value ds else digits_value ds) rest
| exponent_none s :
    (forall s1, ~ exp_mark R s s1) -> scientific R = false \/ fixed R = true ->
    exponent R s 0 s
| exponent_dangling s s1 neg s2 :
    exp_mark R s s1 -> exp_sign s1 neg s2 -> not_at_digit s2 -> fixed R = true ->
    exponent R s 0 s.

(** [s] starts with a number: sign, integer digits, fraction digits, exponent,
    and the text after it. *)
Definition number (R : rules) (s : list Z) (neg : bool) (ip fp : list Z) (e : Z) (rest : list Z)
  : Prop :=
  exists s1 s2 has_point s3,
    signed R s neg s1 /\ run s1 ip s2 /\ fraction R s2 has_point fp s3 /\
    mantissa_ok R ip has_point fp /\ exponent R s3 e rest.

(** Its absolute value. *)
Definition number_value (ip fp : list Z) (e : Z) : Q :=
  decimal (digits_value (ip ++ fp)) (e - Z.of_nat (length fp)).

(** The six white-space characters: \t \n \v \f \r and space. *)
Definition space (ch : Z) : bool := ((9 <=? ch) && (ch <=? 13)) || (ch =? 32).

(** Infinity and NaN.  [same_letters w s rest]: [s] starts with the lower-case
    word [w] in any mixture of cases. *)
Inductive same_letters : list Z -> list Z -> list Z -> Prop :=
| same_nil s : same_letters [] s s
| same_cons x w ch s rest : ch = x \/ ch = x - 32 -> same_letters w s rest ->
    same_letters (x :: w) (ch :: s) rest.

Definition word_nan : list Z := [110; 97; 110].
Definition word_inf : list Z := [105; 110; 102].
Definition word_inity : list Z := [105; 110; 105; 116; 121].

(** Characters of an n-char-sequence: letters, digits and underscore. *)
Definition nchar (ch : Z) : bool :=
  ((97 <=? ch) && (ch <=? 122)) || ((65 <=? ch) && (ch <=? 90)) || digit ch || (ch =? 95).

(** What may follow nan: a complete parenthesised n-char-sequence, or nothing. *)
Inductive payload : list Z -> list Z -> Prop :=
| payload_some l rest : Forall (fun ch => nchar ch = true) l -> payload (40 :: l ++ 41 :: rest) rest
| payload_none s :
    (forall l rest, Forall (fun ch => nchar ch = true) l -> s <> 40 :: l ++ 41 :: rest) ->
    payload s s.

Inductive special_kind := Inf | Nan.

(** The sign in front of a special value; here JSON makes no difference. *)
Inductive special_sign (plus : bool) : list Z -> bool -> list Z -> Prop :=
| ssign_minus s : special_sign plus (45 :: s) true s
| ssign_plus s : plus = true -> special_sign plus (43 :: s) false s
| ssign_none s : not_at (fun ch => ch = 45 \/ (ch = 43 /\ plus = true)) s ->
    special_sign plus s false s.

(** [s] starts with a spelling of infinity or NaN (the longest one). *)
Inductive special (plus : bool) : list Z -> bool -> special_kind -> list Z -> Prop :=
| special_nan s neg s1 s2 rest :
    special_sign plus s neg s1 -> same_letters word_nan s1 s2 -> payload s2 rest ->
    special plus s neg Nan rest
| special_infinity s neg s1 s2 rest :
    special_sign plus s neg s1 -> same_letters word_inf s1 s2 -> same_letters word_inity s2 rest ->
    special plus s neg Inf rest
| special_inf s neg s1 rest :
    special_sign plus s neg s1 -> same_letters word_inf s1 rest ->
    (forall r, ~ same_letters word_inity rest r) ->
    special plus s neg Inf rest.

(** [s'] is [s] without its leading white space. *)
Definition without_spaces (s s' : list Z) : Prop :=
  exists ws, s = ws ++ s' /\ Forall (fun ch => space ch = true) ws /\ not_at (fun ch => space ch = true) s'.
