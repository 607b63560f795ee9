(** Specification: integer texts and their values in a base from 2 to 36.
    Self-contained apart from the notion [not_at] of SpecGrammar. *)
From Coq Require Import ZArith List Bool.
From Verif Require Import SpecGrammar.
Import ListNotations.
Open Scope Z_scope.

(** The digits 0-9, a-z, A-Z stand for 0..9, 10..35, 10..35. *)
Definition digit_of (ch : Z) : option Z :=
  if (48 <=? ch) && (ch <=? 57) then Some (ch - 48)
  else if (97 <=? ch) && (ch <=? 122) then Some (ch - 97 + 10)
  else if (65 <=? ch) && (ch <=? 90) then Some (ch - 65 + 10)
  else None.

Definition base_digit (base ch : Z) : Prop := exists d, digit_of ch = Some d /\ d < base.

(** The number a digit string denotes. *)
Definition base_value (base : Z) (ds : list Z) : Z :=
  fold_left (fun a ch => a * base + match digit_of ch with Some d => d | None => 0 end) ds 0.

(** [ds] is the maximal run of digits at the start of [s]; [rest] follows it. *)
Definition base_run (base : Z) (s ds rest : list Z) : Prop :=
  s = ds ++ rest /\ Forall (base_digit base) ds /\ not_at (base_digit base) rest.

(** Minus is a sign for signed types only, plus only where it is allowed. *)
Inductive int_sign (signed_type plus : bool) : list Z -> bool -> list Z -> Prop :=
| int_minus s : signed_type = true -> int_sign signed_type plus (45 :: s) true s
| int_plus s : plus = true -> int_sign signed_type plus (43 :: s) false s
| int_unsigned s :
    not_at (fun ch => (ch = 45 /\ signed_type = true) \/ (ch = 43 /\ plus = true)) s ->
    int_sign signed_type plus s false s.

(** A sign, if any, and then the digits [ds] (possibly none). *)
Definition int_text (signed_type plus : bool) (base : Z) (s : list Z) (neg : bool) (ds rest : list Z) : Prop :=
  exists s1, int_sign signed_type plus s neg s1 /\ base_run base s1 ds rest.

Definition int_value (base : Z) (neg : bool) (ds : list Z) : Z :=
  if neg then - base_value base ds else base_value base ds.

(** Values of an integer type with [bits] value bits (bool: 1). *)
Definition in_int_range (signed_type : bool) (bits v : Z) : Prop :=
  if signed_type then - 2 ^ (bits - 1) <= v < 2 ^ (bits - 1) else 0 <= v < 2 ^ bits.

(** The only overflows that go unnoticed: values of 2^64 or more with as many
    digits as 2^64 - 1 has, and which, reduced modulo 2^64, still have that many
    digits and are at most [limit] - the largest absolute value of the type. *)
Definition unnoticed (base limit v : Z) : Prop :=
  exists k, 0 < k /\ base ^ (k - 1) < 2 ^ 64 <= v /\ v < base ^ k /\
    base ^ (k - 1) <= v mod 2 ^ 64 <= limit.
