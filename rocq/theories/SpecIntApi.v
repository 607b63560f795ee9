(** Specification: how the arguments of the integer entry points select the
    rules.  Uses only the argument types of the model (cfg, options, ity). *)
From Coq Require Import ZArith List Bool.
From Verif Require Import Config Ints SpecGrammar SpecApi.
Import ListNotations.
Open Scope Z_scope.

(** The integer types: 8, 16, 32 or 64 bits, or bool. *)
Definition int_type (T : ity) : Prop :=
  (if i_signed T then In (i_bits T) [8; 16; 32; 64] else In (i_bits T) [1; 8; 16; 32; 64]) /\
  (i_is_u8 T = true -> i_signed T = false /\ i_bits T = 8) /\
  (i_is_u16 T = true -> i_signed T = false /\ i_bits T = 16) /\
  (i_is_u64 T = true -> i_signed T = false /\ i_bits T = 64).

(** Largest absolute value of the type for this sign. *)
Definition int_limit (signed_type : bool) (bits : Z) (neg : bool) : Z :=
  if signed_type then 2 ^ (bits - 1) - (if neg then 0 else 1) else 2 ^ bits - 1.

(** Texts for integer parsing: any code units; where white space is skipped, no
    negative wchar_t whose low byte is a white-space character. *)
Definition good_int_text (c : cfg) (u : uc) (o : options) (s : list Z) : Prop :=
  Forall (code_unit u) s /\
  (u = Wchar_s32 -> skips_space c o = true -> Forall (fun ch => ch < 0 -> space (ch mod 256) = false) s).
