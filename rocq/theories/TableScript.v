(** The program that writes the table of powers of five,
    script/table_generation.py.  Python's integers are unbounded; [//] is
    [Z.div].  A while loop gets fuel, one unit per round; [None] stands for a
    loop that has not ended when the fuel is used up. *)
From Coq Require Import ZArith List.
Import ListNotations.
Open Scope Z_scope.

(** [while (1 << z) < power5: z += 1], table_generation.py:10-11 *)
Fixpoint raise_z (fuel : nat) (power5 z : Z) : option Z :=
  match fuel with
  | O => None
  | S fuel => if Z.shiftl 1 z <? power5 then raise_z fuel power5 (z + 1) else Some z
  end.

(** [while c >= (1 << 128): c //= 2], table_generation.py:20-21 and 30-31 *)
Fixpoint truncate (fuel : nat) (c : Z) : option Z :=
  match fuel with
  | O => None
  | S fuel => if Z.shiftl 1 128 <=? c then truncate fuel (c / 2) else Some c
  end.

(** [while power5 < (1 << 127): power5 *= 2], table_generation.py:27-28 *)
Fixpoint normalise (fuel : nat) (power5 : Z) : option Z :=
  match fuel with
  | O => None
  | S fuel => if power5 <? Z.shiftl 1 127 then normalise fuel (power5 * 2) else Some power5
  end.

(** The number formatted in the round for q, table_generation.py:7-22 for
    negative q and 24-32 otherwise *)
Definition script_entry (fuel : nat) (q : Z) : option Z :=
  if q <? 0 then
    let power5 := 5 ^ (- q) in
    match raise_z fuel power5 0 with
    | None => None
    | Some z =>
      if -27 <=? q then
        let b := z + 127 in
        let c := 2 ^ b / power5 + 1 in Some c
      else
        let b := 2 * z + 2 * 64 in
        let c := 2 ^ b / power5 + 1 in truncate fuel c
    end
  else
    match normalise fuel (5 ^ q) with
    | None => None
    | Some power5 => truncate fuel power5
    end.

(** The two words that [format] prints, table_generation.py:1-4 *)
Definition format_words (number : Z) : list Z :=
  [number / Z.shiftl 1 64; number mod Z.shiftl 1 64].

(** The two for loops, table_generation.py:7-32: the words printed for the [n]
    exponents from [q] on *)
Fixpoint script_words (fuel n : nat) (q : Z) : option (list Z) :=
  match n with
  | O => Some []
  | S n =>
    match script_entry fuel q, script_words fuel n (q + 1) with
    | Some number, Some l => Some (format_words number ++ l)
    | _, _ => None
    end
  end.

(** ** The search for ambiguous products, script/mushtak_lemire.py *)

(** [continued_fraction], mushtak_lemire.py:38-45 *)
Fixpoint continued_fraction (fuel : nat) (numer denom : Z) : option (list Z) :=
  match fuel with
  | O => None
  | S fuel =>
    if denom =? 0 then Some []
    else
      match continued_fraction fuel denom (numer mod denom) with
      | None => None
      | Some cf => Some (numer / denom :: cf)
      end
  end.

(** The loop of [convergents], mushtak_lemire.py:52-68, from the values of
    p_n_minus_2, q_n_minus_2, p_n_minus_1, q_n_minus_1 on *)
Fixpoint convergents_from (p2 q2 p1 q1 : Z) (cf : list Z) : list (Z * Z) :=
  match cf with
  | [] => []
  | a :: cf =>
    let p := a * p1 + p2 in
    let q := a * q1 + q2 in
    (p, q) :: convergents_from p1 q1 p q cf
  end.

Definition convergents (cf : list Z) : list (Z * Z) := convergents_from 0 1 1 0 cf.

(** The inner loop, mushtak_lemire.py:74-79: the w for which SOLUTION is printed *)
Fixpoint solutions (tq : Z) (l : list (Z * Z)) : list Z :=
  match l with
  | [] => []
  | (_, w) :: l =>
    if 2 ^ 64 <=? w then []
    else if 2 ^ 137 - 2 ^ 64 <? (tq * w) mod 2 ^ 137 then w :: solutions tq l
    else solutions tq l
  end.

(** The whole script, mushtak_lemire.py:6-81: the pairs printed as solutions,
    for the [n] exponents from [q] on.  Its lines 6-35 compute T[q] the way
    table_generation.py does.  [Some []] stands for the line "No solutions!". *)
Fixpoint search (fuel n : nat) (q : Z) : option (list (Z * Z)) :=
  match n with
  | O => Some []
  | S n =>
    match script_entry fuel q with
    | None => None
    | Some tq =>
      match continued_fraction fuel tq (2 ^ 137), search fuel n (q + 1) with
      | Some cf, Some l =>
        Some (map (fun w => (q, w)) (solutions tq (convergents cf)) ++ l)
      | _, _ => None
      end
    end
  end.

(** ** script/analysis.py *)

(** The check of the first loop for one q, analysis.py:13-24; [raise_z] from 0 is
    its function log2.  [Some true] when both assertions hold and the test passes. *)
Definition analysis_small (fuel : nat) (q : Z) : option bool :=
  let d := 5 ^ q in
  match raise_z fuel d 0 with
  | None => None
  | Some log2 =>
      let b := 127 + log2 in
      let t := 2 ^ b in
      let c := t / d + 1 in
      let K := 2 ^ 127 in
      Some ((c <? 2 ^ 128) && (2 ^ 127 <=? c) && (c * K * d <=? (K + 1) * t))
  end%bool.

(** The check of the second loop, analysis.py:26-36 *)
Definition analysis_large (fuel : nat) (q : Z) : option bool :=
  let d := 5 ^ q in
  match raise_z fuel d 0 with
  | None => None
  | Some log2 =>
      let b := 64 + 2 * log2 in
      let t := 2 ^ b in
      let c := t / d + 1 in
      let K := 2 ^ 64 in
      Some ((2 ^ (64 + log2) <? c) && (c * K * d <=? (K + 1) * t))
  end%bool.
