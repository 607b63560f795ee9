(** Specification: what printf writes for "%.<n>e" (C17, 7.21.6.1), for every bit
    pattern of a binary floating-point type.  Independent of the model. *)
From Coq Require Import ZArith List Bool QArith.
From Verif Require Import SpecFloat SpecGrammar SpecPrint.
Import ListNotations.
Open Scope Z_scope.

Definition minus_if (neg : bool) (s : list Z) : list Z := if neg then 45 :: s else s.

(** [text] is written for the bit pattern with sign [neg] and magnitude code [b]:
    a zero as 0.000e+00, another finite number rounded to n+1 significant digits
    (in a tie, either way), an infinity as inf or infinity, a NaN - with a minus
    sign or not - as nan or nan(...), with at most 40 digits, letters and
    underscores between the parentheses. *)
Inductive printf_e (f : format) (n : nat) : bool -> Z -> list Z -> Prop :=
| printf_zero neg : printf_e f n neg 0 (minus_if neg (48 :: 46 :: repeat 48 n ++ [101; 43; 48; 48]))
| printf_finite neg b m k : 0 < b < infinity f -> rounded_digits n (magnitude f b) m k ->
    printf_e f n neg b (minus_if neg (print_scientific 46 n m k))
| printf_inf neg : printf_e f n neg (infinity f) (minus_if neg [105; 110; 102])
| printf_infinity neg : printf_e f n neg (infinity f) (minus_if neg [105; 110; 102; 105; 110; 105; 116; 121])
| printf_nan neg b sign : infinity f < b -> printf_e f n neg b (minus_if sign [110; 97; 110])
| printf_nan_chars neg b sign l : infinity f < b -> Forall (fun ch => nchar ch = true) l -> (length l <= 40)%nat ->
    printf_e f n neg b (minus_if sign ([110; 97; 110; 40] ++ l ++ [41])).

(** A printf for all bit patterns of the format. *)
Definition correct_printf (f : format) (n : nat) (print : Z -> list Z) : Prop :=
  forall neg b, 0 <= b < 2 ^ (frac_bits f + exp_bits f) -> printf_e f n neg b (print (with_sign f neg b)).
