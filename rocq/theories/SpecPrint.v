(** Specification: how numbers are printed.  Independent of the model: integers in
    a base (std::to_chars) and floating-point numbers with n significant digits in
    scientific notation (printf "%.<n-1>e"). *)
From Coq Require Import ZArith List Bool QArith Qabs.
Import ListNotations.
Open Scope Z_scope.

(** Digits 0-9 a-z, or 0-9 A-Z. *)
Definition digit_char (upper : bool) (d : Z) : Z :=
  if d <? 10 then 48 + d else if upper then 55 + d else 87 + d.

(** The digits of [n], most significant first, no leading zeros; at most [fuel]. *)
Fixpoint base_digits (upper : bool) (base : Z) (fuel : nat) (n : Z) (acc : list Z) : list Z :=
  match fuel with
  | O => acc
  | S f =>
      let acc' := digit_char upper (n mod base) :: acc in
      if n <? base then acc' else base_digits upper base f (n / base) acc'
  end.

Definition print_natural (upper : bool) (base n : Z) : list Z :=
  base_digits upper base (S (Z.to_nat (Z.log2 n))) n [].

Definition print_integer (upper : bool) (base v : Z) : list Z :=
  if v <? 0 then 45 :: print_natural upper base (- v) else print_natural upper base v.

(** The last [n] decimal digits of [w], with leading zeros. *)
Fixpoint last_digits (n : nat) (w : Z) : list Z :=
  match n with
  | O => []
  | S m => last_digits m (w / 10) ++ [48 + w mod 10]
  end.

(** The number w * 10^(k-n), [w] of n+1 digits, as d.ddd...e+kk: one digit,
    the decimal point, n digits, e, a sign and at least two exponent digits. *)
Definition print_scientific (point : Z) (n : nat) (w k : Z) : list Z :=
  (48 + w / 10 ^ Z.of_nat n) :: point :: last_digits n w ++
  101 :: (if k <? 0 then 45 else 43) ::
  (if Z.abs k <? 10 then [48] else []) ++ print_natural false 10 (Z.abs k).

(** [w * 10^(k-n)] is [v > 0] rounded to n+1 significant digits (either way in a
    tie); the second case is 9.99...96, which becomes 10.0.  *)
Definition rounded_digits (n : nat) (v : Q) (w k : Z) : Prop :=
  let x := (inject_Z w * Qpower 10 (k - Z.of_nat n))%Q in
  10 ^ Z.of_nat n <= w < 10 ^ (Z.of_nat n + 1) /\
  ((Qpower 10 k <= v < Qpower 10 (k + 1) /\ Qabs (x - v) <= (1 # 2) * Qpower 10 (k - Z.of_nat n))%Q \/
   (w = 10 ^ Z.of_nat n /\
    (Qpower 10 (k - 1) <= v < Qpower 10 k /\ Qabs (x - v) <= (1 # 2) * Qpower 10 (k - 1 - Z.of_nat n))%Q)).
