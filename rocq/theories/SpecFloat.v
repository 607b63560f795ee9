(** Specification: binary floating-point formats and correct rounding.
    Self-contained: nothing here refers to the model of the library. *)
From Coq Require Import ZArith QArith Qabs Qpower.
Open Scope Z_scope.

(** An IEEE-754 binary interchange format: one sign bit, [exp_bits] bits of
    biased exponent, [frac_bits] bits of fraction. *)
Record format := { frac_bits : Z; exp_bits : Z }.

Definition binary64 : format := {| frac_bits := 52; exp_bits := 11 |}.
Definition binary32 : format := {| frac_bits := 23; exp_bits := 8 |}.
Definition binary16 : format := {| frac_bits := 10; exp_bits := 5 |}.
Definition bfloat16 : format := {| frac_bits := 7; exp_bits := 8 |}.

Definition bias (f : format) : Z := 2 ^ (exp_bits f - 1) - 1.

(** The bits below the sign bit form the code of the magnitude; the code of
    infinity has all exponent bits set and a zero fraction. *)
Definition infinity (f : format) : Z := (2 ^ exp_bits f - 1) * 2 ^ frac_bits f.

(** Magnitude denoted by a code.  At [infinity f] the formula gives 2^(emax+1),
    which is the value IEEE-754 compares with when it decides overflow in
    round-to-nearest. *)
Definition magnitude (f : format) (b : Z) : Q :=
  let e := b / 2 ^ frac_bits f in
  let m := b mod 2 ^ frac_bits f in
  if e =? 0 then (inject_Z m * Qpower 2 (1 - bias f - frac_bits f))%Q
  else (inject_Z (2 ^ frac_bits f + m) * Qpower 2 (e - bias f - frac_bits f))%Q.

(** Round to nearest, ties to even: [b] is at least as close to the
    non-negative [x] as every other code up to infinity, and a tie with a
    different code is only allowed to be won by the even code. *)
Definition nearest_even (f : format) (x : Q) (b : Z) : Prop :=
  0 <= b <= infinity f /\
  forall b', 0 <= b' <= infinity f ->
    (Qabs (x - magnitude f b) < Qabs (x - magnitude f b'))%Q \/
    ((Qabs (x - magnitude f b) == Qabs (x - magnitude f b'))%Q /\ (b = b' \/ Z.even b = true)).

(** Round to nearest with no promise about ties. *)
Definition nearest (f : format) (x : Q) (b : Z) : Prop :=
  0 <= b <= infinity f /\
  forall b', 0 <= b' <= infinity f ->
    (Qabs (x - magnitude f b) <= Qabs (x - magnitude f b'))%Q.

(** Round to nearest, ties to even, except that a value exactly half-way
    between two neighbouring subnormal numbers may go to the larger one. *)
Definition nearest_but_subnormal_ties (f : format) (x : Q) (b : Z) : Prop :=
  nearest f x b /\
  (nearest_even f x b \/
   (1 <= b <= 2 ^ frac_bits f /\ (2 * x == magnitude f (b - 1) + magnitude f b)%Q)).

(** The exact value of the decimal significand [w] with exponent [e]. *)
Definition decimal (w e : Z) : Q := (inject_Z w * Qpower 10 e)%Q.

(** [x] is half-way between the subnormal numbers (or zero, or the smallest
    normal number) with codes [b - 1] and [b]. *)
Definition subnormal_tie (f : format) (x : Q) (b : Z) : Prop :=
  1 <= b <= 2 ^ frac_bits f /\ (2 * x == magnitude f (b - 1) + magnitude f b)%Q.

(** [x] can be written with at most 19 significant digits. *)
Definition nineteen_digits (x : Q) : Prop := exists w e, 0 <= w < 10 ^ 19 /\ (x == decimal w e)%Q.

(** The rounding rule the library implements for std::float16_t: to nearest;
    ties to even, except that subnormal ties with at most 19 significant digits
    go up. *)
Definition nearest_float16 (x : Q) (b : Z) : Prop :=
  nearest binary16 x b /\
  (nineteen_digits x -> forall b', subnormal_tie binary16 x b' -> b = b') /\
  (~ nineteen_digits x \/ (forall b', ~ subnormal_tie binary16 x b') -> nearest_even binary16 x b).

(** A full bit pattern: sign and magnitude code. *)
Definition with_sign (f : format) (negative : bool) (b : Z) : Z :=
  b + (if negative then 2 ^ (frac_bits f + exp_bits f) else 0).

(** The magnitude code of a NaN has all exponent bits set and a non-zero
    fraction; the NaN is quiet when the top fraction bit is set. *)
Definition is_quiet_nan (f : format) (b : Z) : Prop :=
  exists m, b = infinity f + m /\ 2 ^ (frac_bits f - 1) <= m < 2 ^ frac_bits f.

(** The real number a finite bit pattern with this sign and magnitude stands for. *)
Definition float_value (f : format) (negative : bool) (b : Z) : Q :=
  (if negative then - magnitude f b else magnitude f b)%Q.
