(** Specification: the same numbers as in SpecGrammar, as a plain (not greedy)
    grammar of complete texts.  Independent of how texts are scanned. *)
From Coq Require Import ZArith List Bool.
From Verif Require Import SpecGrammar.
Import ListNotations.
Open Scope Z_scope.

(** [-]  (and [+] where allowed) *)
Definition sign_text (R : rules) (neg : bool) (sg : list Z) : Prop :=
  (neg = true /\ sg = [45]) \/ (neg = false /\ sg = []) \/
  (neg = false /\ sg = [43] /\ leading_plus R = true /\ json R = false).

(** Optional point and fraction digits. *)
Definition fraction_text (R : rules) (has_point : bool) (fp pt : list Z) : Prop :=
  (has_point = false /\ fp = [] /\ pt = []) \/
  (has_point = true /\ all_digits fp /\ pt = point R :: fp).

(** e or E (scientific), d or D (Fortran), then an optional sign and digits;
    with Fortran the letter may be left out if there is a sign.  The exponent
    may be missing unless scientific notation is the only one allowed. *)
Definition exponent_text (R : rules) (e : Z) (ex : list Z) : Prop :=
  (ex = [] /\ e = 0 /\ (scientific R = false \/ fixed R = true)) \/
  (exists m sg ds, ex = m ++ sg ++ ds /\ all_digits ds /\ ds <> [] /\
     ((sg = [45] /\ e = - digits_value ds) \/ ((sg = [] \/ sg = [43]) /\ e = digits_value ds)) /\
     ((scientific R = true /\ (m = [101] \/ m = [69])) \/
      (fortran R = true /\ (m = [100] \/ m = [68])) \/
      (fortran R = true /\ m = [] /\ sg <> []))).

(** [p] is a number: sign, digits, fraction, exponent. *)
Definition number_text (R : rules) (p : list Z) (neg : bool) (ip fp : list Z) (e : Z) : Prop :=
  exists sg has_point pt ex,
    p = sg ++ ip ++ pt ++ ex /\ sign_text R neg sg /\ all_digits ip /\
    fraction_text R has_point fp pt /\ mantissa_ok R ip has_point fp /\ exponent_text R e ex.

(** [a] is a number without its exponent. *)
Definition mantissa_text (R : rules) (a : list Z) (neg : bool) (ip fp : list Z) : Prop :=
  exists sg has_point pt,
    a = sg ++ ip ++ pt /\ sign_text R neg sg /\ all_digits ip /\
    fraction_text R has_point fp pt /\ mantissa_ok R ip has_point fp.

(** [m] introduces an exponent: e or E, or in Fortran mode d or D. *)
Definition exponent_letter (R : rules) (m : Z) : Prop :=
  (scientific R = true /\ (m = 101 \/ m = 69)) \/ (fortran R = true /\ (m = 100 \/ m = 68)).

(** [s] is [p] followed by [rest], and no longer initial part of [s] is a number. *)
Definition longest_number (R : rules) (s p rest : list Z) : Prop :=
  s = p ++ rest /\
  forall p' rest' neg ip fp e, s = p' ++ rest' -> number_text R p' neg ip fp e ->
    (length p' <= length p)%nat.

(** Decimal points that are not also a digit, a sign or an exponent letter. *)
Definition plain_point (R : rules) : Prop :=
  digit (point R) = false /\ ~ In (point R) [101; 69; 100; 68; 43; 45].

(** Flag combinations for which an incomplete exponent is left unread: all
    but Fortran without fixed and without scientific. *)
Definition usual_flags (R : rules) : Prop :=
  fixed R = true \/ scientific R = true \/ fortran R = false.

(** RFC 8259, section 6: number = [ minus ] int [ frac ] [ exp ]. *)
Definition json_int (ip : list Z) : Prop :=
  ip = [48] \/ exists d ds, ip = d :: ds /\ 49 <= d <= 57 /\ all_digits ds.
Definition json_frac (fp fr : list Z) : Prop :=
  (fp = [] /\ fr = []) \/ (fp <> [] /\ all_digits fp /\ fr = 46 :: fp).
Definition json_exp (e : Z) (ex : list Z) : Prop :=
  (ex = [] /\ e = 0) \/
  exists m sg ds, ex = m :: sg ++ ds /\ (m = 101 \/ m = 69) /\ ds <> [] /\ all_digits ds /\
    ((sg = [45] /\ e = - digits_value ds) \/ ((sg = [] \/ sg = [43]) /\ e = digits_value ds)).
Definition json_number (p : list Z) (neg : bool) (ip fp : list Z) (e : Z) : Prop :=
  exists fr ex, p = (if neg then [45] else []) ++ ip ++ fr ++ ex /\
    json_int ip /\ json_frac fp fr /\ json_exp e ex.
