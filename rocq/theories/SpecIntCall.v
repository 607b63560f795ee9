(** Specification: what a call of from_chars for an integer type does, for every text, base and
    option set - in one definition, [int_outcome] (C85).  Uses the integer texts of SpecInt. *)
From Coq Require Import ZArith List Bool.
From Verif Require Import Machine Config SpecGrammar SpecApi SpecInt.
Open Scope Z_scope.

(** The largest absolute value the library produces for a type of [bits] bits and this sign: the
    type's own, but for 128-bit types that of uint64_t, and zero after a minus sign. *)
Definition reach (signed_type : bool) (bits : Z) (neg : bool) : Z :=
  if 64 <? bits then (if neg then 0 else 2 ^ 64 - 1)
  else if signed_type then 2 ^ (bits - 1) - (if neg then 0 else 1)
  else 2 ^ bits - 1.

Definition negated (neg : bool) (v : Z) : Z := if neg then - v else v.

(** The type is given by its signedness and its size in bits (bool: 1); [s0] is the text behind
    the skipped white space. *)
Inductive int_outcome (c : cfg) (o : options) (signed_type : bool) (bits : Z) (s0 : list Z) : res result -> Prop :=
| int_bad_base :
    ~ 2 <= o_base o <= 36 ->
    int_outcome c o signed_type bits s0 (Ok {| r_ptr := s0; r_ec := InvalidArgument; r_value := None |})
| int_no_digits neg rest :
    2 <= o_base o <= 36 -> int_text signed_type (leading_plus (rules_of c o)) (o_base o) s0 neg nil rest ->
    int_outcome c o signed_type bits s0 (Ok {| r_ptr := s0; r_ec := InvalidArgument; r_value := None |})
| int_stored neg ds rest :
    2 <= o_base o <= 36 -> int_text signed_type (leading_plus (rules_of c o)) (o_base o) s0 neg ds rest -> ds <> nil ->
    let v := base_value (o_base o) ds in
    v <= reach signed_type bits neg ->
    int_outcome c o signed_type bits s0 (Ok {| r_ptr := rest; r_ec := Success; r_value := Some (negated neg v) |})
| int_refused neg ds rest :
    2 <= o_base o <= 36 -> int_text signed_type (leading_plus (rules_of c o)) (o_base o) s0 neg ds rest -> ds <> nil ->
    let v := base_value (o_base o) ds in
    reach signed_type bits neg < v -> ~ unnoticed (o_base o) (reach signed_type bits neg) v ->
    int_outcome c o signed_type bits s0 (Ok {| r_ptr := rest; r_ec := OutOfRange; r_value := None |})
| int_overlooked neg ds rest :
    2 <= o_base o <= 36 -> int_text signed_type (leading_plus (rules_of c o)) (o_base o) s0 neg ds rest -> ds <> nil ->
    let v := base_value (o_base o) ds in
    reach signed_type bits neg < v -> unnoticed (o_base o) (reach signed_type bits neg) v ->
    int_outcome c o signed_type bits s0
      (Ok {| r_ptr := rest; r_ec := Success; r_value := Some (negated neg (v mod 2 ^ 64)) |}).
