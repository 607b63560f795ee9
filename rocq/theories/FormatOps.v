(** The operators of chars_format, float_common.h:1405-1441.  The enumeration's
    underlying type is uint64_t. *)
From Verif Require Import Machine Config.
Open Scope Z_scope.

(** operator~, float_common.h:1405-1408 *)
Definition format_not (x : Z) : Z := u64 (Z.lnot x).
(** operator&, float_common.h:1410-1414 *)
Definition format_and (x y : Z) : Z := Z.land x y.
(** operator|, float_common.h:1416-1420 *)
Definition format_or (x y : Z) : Z := Z.lor x y.
(** operator^, float_common.h:1422-1426 *)
Definition format_xor (x y : Z) : Z := Z.lxor x y.

(** operator&=, operator|= and operator^=, float_common.h:1428-1441: the new
    value of the left operand, which is also what they return. *)
Definition format_and_assign (x y : Z) : Z := format_and x y.
(** float_common.h:1433-1436 *)
Definition format_or_assign (x y : Z) : Z := format_or x y.
(** float_common.h:1438-1441 *)
Definition format_xor_assign (x y : Z) : Z := format_xor x y.
