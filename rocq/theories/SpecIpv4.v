(** Specification: IPv4 addresses in dotted-decimal notation.  Uses only the
    notions of decimal digits and their value from SpecInt. *)
From Coq Require Import ZArith List.
From Verif Require Import SpecGrammar SpecInt.
Import ListNotations.
Open Scope Z_scope.

(** [ds] is a decimal number from 0 to 255, with any number of leading zeros. *)
Definition octet (ds : list Z) (v : Z) : Prop :=
  ds <> [] /\ Forall (base_digit 10) ds /\ base_value 10 ds = v /\ v <= 255.

(** [s] starts with four such numbers separated by dots; [rest] follows, and does
    not continue the last of them. *)
Definition dotted_quad (s : list Z) (a b c d : Z) (rest : list Z) : Prop :=
  exists da db dc dd, s = da ++ 46 :: db ++ 46 :: dc ++ 46 :: dd ++ rest /\
    octet da a /\ octet db b /\ octet dc c /\ octet dd d /\ not_at (base_digit 10) rest.

(** The address as a 32-bit number, first octet most significant. *)
Definition address (a b c d : Z) : Z := a * 2 ^ 24 + b * 2 ^ 16 + c * 2 ^ 8 + d.
