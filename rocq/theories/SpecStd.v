(** Specification: the C++17 function std::from_chars, [charconv.from.chars]
    (C++17 23.20.3), whose floating-point patterns are those of C's strtod
    (C11 7.22.1.3) without the hexadecimal ones.  Written as languages of
    complete texts; a call reads the longest initial part that belongs to the
    language.  Independent of the other grammars here but for the notions of
    digits and their values. *)
From Coq Require Import ZArith QArith List Bool.
From Verif Require Import Config SpecFloat SpecGrammar SpecInt.
Import ListNotations.
Open Scope Z_scope.

(** ** Floating-point numbers *)

(** What a matched text stands for. *)
Inductive meaning :=
| Real (neg : bool) (r : Q)      (* the number r, or -r *)
| Infinite (neg : bool)
| NotANumber (neg : bool).

(** "an optional ... minus sign"; strtod also allows a plus sign, std::from_chars
    in the exponent only. *)
Definition sign_form (plus neg : bool) (sg : list Z) : Prop :=
  (sg = [] /\ neg = false) \/ (sg = [45] /\ neg = true) \/ (plus = true /\ sg = [43] /\ neg = false).

(** e or E, an optional sign, at least one digit *)
Definition exponent_form (e : Z) (ex : list Z) : Prop :=
  exists letter sg neg ds, ex = letter :: sg ++ ds /\ (letter = 101 \/ letter = 69) /\ sign_form true neg sg /\
    all_digits ds /\ ds <> [] /\ e = (if neg then - digits_value ds else digits_value ds).

(** "a nonempty sequence of decimal digits optionally containing a radix
    character, then an optional exponent part"; with scientific only the exponent
    part "shall appear", with fixed only it "shall not appear". *)
Definition decimal_form (scientific fixed : bool) (body : list Z) (r : Q) : Prop :=
  exists ip fp pt ex e, body = ip ++ pt ++ ex /\ all_digits ip /\ all_digits fp /\ ip ++ fp <> [] /\
    ((pt = [] /\ fp = []) \/ pt = 46 :: fp) /\
    ((fixed = true /\ ex = [] /\ e = 0) \/ (scientific = true /\ exponent_form e ex)) /\
    r = decimal (digits_value (ip ++ fp)) (e - Z.of_nat (length fp)).

(** a word "ignoring case"; the word is given in lower case *)
Definition ignoring_case (word body : list Z) : Prop := Forall2 (fun x ch => ch = x \/ ch = x - 32) word body.

(** inf, infinity, nan, nan(n-char-sequence) *)
Inductive subject (plus scientific fixed : bool) : list Z -> meaning -> Prop :=
| subject_number sg neg body r :
    sign_form plus neg sg -> decimal_form scientific fixed body r ->
    subject plus scientific fixed (sg ++ body) (Real neg r)
| subject_inf sg neg body :
    sign_form plus neg sg -> ignoring_case [105; 110; 102] body ->
    subject plus scientific fixed (sg ++ body) (Infinite neg)
| subject_infinity sg neg body :
    sign_form plus neg sg -> ignoring_case [105; 110; 102; 105; 110; 105; 116; 121] body ->
    subject plus scientific fixed (sg ++ body) (Infinite neg)
| subject_nan sg neg body :
    sign_form plus neg sg -> ignoring_case [110; 97; 110] body ->
    subject plus scientific fixed (sg ++ body) (NotANumber neg)
| subject_nan_sequence sg neg body l :
    sign_form plus neg sg -> ignoring_case [110; 97; 110] body -> Forall (fun ch => nchar ch = true) l ->
    subject plus scientific fixed (sg ++ body ++ 40 :: l ++ [41]) (NotANumber neg).

(** [p] is "the longest initial subsequence of [s] ... that is of the expected form";
    it means [m], and [rest] follows it. *)
Definition matches (plus scientific fixed : bool) (s p : list Z) (m : meaning) (rest : list Z) : Prop :=
  s = p ++ rest /\ subject plus scientific fixed p m /\
  forall p' m' rest', s = p' ++ rest' -> subject plus scientific fixed p' m' -> (length p' <= length p)%nat.

Definition no_match (plus scientific fixed : bool) (s : list Z) : Prop :=
  forall p m rest, s = p ++ rest -> ~ subject plus scientific fixed p m.

(** The code and the stored bits for a match: the nearest number, ties to even;
    result_out_of_range on overflow and if a number becomes zero, and then
    infinity or zero is stored (the standard leaves the destination alone; this
    is strtod's and the library's documented rule). *)
Definition read_as (f : format) (m : meaning) (x : ec) (v : Z) : Prop :=
  match m with
  | Real neg r => exists b, v = with_sign f neg b /\ nearest_even f r b /\
      (x = Success \/ x = OutOfRange) /\ (x = OutOfRange <-> ((0 < r)%Q /\ b = 0) \/ b = infinity f)
  | Infinite neg => x = Success /\ v = with_sign f neg (infinity f)
  | NotANumber neg => x = Success /\ exists b, v = with_sign f neg b /\ is_quiet_nan f b
  end.

(** ** Integers: the subject sequence of strtol for the base, with a minus sign
    for signed types only, and without plus sign and prefix 0x. *)
Inductive int_subject (signed_type : bool) (base : Z) : list Z -> Z -> Prop :=
| int_positive ds : Forall (base_digit base) ds -> ds <> [] -> int_subject signed_type base ds (base_value base ds)
| int_negative ds : signed_type = true -> Forall (base_digit base) ds -> ds <> [] ->
    int_subject signed_type base (45 :: ds) (- base_value base ds).

Definition int_matches (signed_type : bool) (base : Z) (s p : list Z) (v : Z) (rest : list Z) : Prop :=
  s = p ++ rest /\ int_subject signed_type base p v /\
  forall p' v' rest', s = p' ++ rest' -> int_subject signed_type base p' v' -> (length p' <= length p)%nat.

Definition int_no_match (signed_type : bool) (base : Z) (s : list Z) : Prop :=
  forall p v rest, s = p ++ rest -> ~ int_subject signed_type base p v.
