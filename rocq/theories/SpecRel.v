(** Specification: notions for properties that relate several texts.
    Self-contained apart from SpecFloat and SpecGrammar. *)
From Coq Require Import ZArith QArith Qabs List.
From Verif Require Import SpecFloat SpecGrammar.
Import ListNotations.
Open Scope Z_scope.

(** A text whose first character (if any) cannot continue a number: no digit,
    no decimal point, none of e E d D + -. *)
Definition number_ends (pt : Z) (s : list Z) : Prop :=
  not_at (fun ch => digit ch = true \/ ch = pt \/ In ch [101; 69; 100; 68; 43; 45]) s.

(** A text whose first character cannot continue inf or nan: none of ( i I. *)
Definition special_ends (s : list Z) : Prop := not_at (fun ch => In ch [40; 105; 73]) s.

(** A text that does not start with a sign. *)
Definition unsigned (s : list Z) : Prop := not_at (fun ch => ch = 45 \/ ch = 43) s.

(** [x] approximates [v > 0] as well as a decimal with [n] significant digits
    printed for it does: 10^k <= v and the error is at most half a unit of the
    [n]-th digit. *)
Definition printed (n : Z) (v x : Q) : Prop :=
  exists k, (Qpower 10 k <= v)%Q /\ (Qabs (x - v) <= (1 # 2) * Qpower 10 (k + 1 - n))%Q.

(** Significant digits that identify a value of the type: 17, 9, 5, 4. *)
Definition max_digits10 (f : format) : Z :=
  match frac_bits f with 52 => 17 | 23 => 9 | 10 => 5 | _ => 4 end.

(** The signed value of a number. *)
Definition signed_value (neg : bool) (x : Q) : Q := (if neg then - x else x)%Q.

(** The text [ds]e[-][qs]. *)
Definition scientific_text (ds : list Z) (neg : bool) (qs : list Z) : list Z :=
  ds ++ 101 :: (if neg then [45] else []) ++ qs.

(** The text with the characters [a] and [b] exchanged. *)
Definition exchange (a b : Z) (s : list Z) : list Z :=
  map (fun ch => if ch =? a then b else if ch =? b then a else ch) s.

(** Characters that play no role in numbers, infinities and NaNs except
    possibly as decimal separator. *)
Definition neutral (ch : Z) : Prop :=
  nchar ch = false /\ space ch = false /\ ~ In ch [43; 45; 40; 41].


(** Texts that differ at most in the case of ASCII letters. *)
Definition to_lower (ch : Z) : Z := if (65 <=? ch) && (ch <=? 90) then ch + 32 else ch.
Definition same_but_case (s s' : list Z) : Prop := Forall2 (fun a b => to_lower a = to_lower b) s s'.
