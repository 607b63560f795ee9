(** Specification: programs that call from_chars again and again.  The loops are
    the ones README.md shows ("You can parse delimited numbers") and the usual
    one for numbers separated by white space.  [call s] is the result of
    from_chars on [s, end of text). *)
From Coq Require Import ZArith List Bool.
From Verif Require Import Machine Config FromChars SpecGrammar.
Import ListNotations.
Open Scope Z_scope.

(** What a call reports and stores (None: nothing is stored). *)
Definition item : Type := (ec * option Z)%type.

(** Read a number; if the delimiter [d] follows, step over it and read on.
    The list holds what every accepted call reported and stored, then comes the
    end pointer of the last call and whether it was accepted. *)
Inductive reads (call : list Z -> res result) (d : Z) : list Z -> list item -> list Z -> bool -> Prop :=
| reads_error s r :
    call s = Ok r -> r_ec r = InvalidArgument -> reads call d s [] (r_ptr r) false
| reads_last s r :
    call s = Ok r -> r_ec r <> InvalidArgument -> not_at (fun ch => ch = d) (r_ptr r) ->
    reads call d s [(r_ec r, r_value r)] (r_ptr r) true
| reads_next s r s' l rest ok :
    call s = Ok r -> r_ec r <> InvalidArgument -> r_ptr r = d :: s' -> reads call d s' l rest ok ->
    reads call d s ((r_ec r, r_value r) :: l) rest ok.

(** Texts joined by a delimiter. *)
Fixpoint join (d : Z) (l : list (list Z)) : list Z :=
  match l with
  | [] => []
  | [p] => p
  | p :: l' => p ++ d :: join d l'
  end.

(** Read numbers, each where the last one ended, until a call is rejected. *)
Inductive reads_all (call : list Z -> res result) : list Z -> list item -> list Z -> Prop :=
| reads_all_end s r :
    call s = Ok r -> r_ec r = InvalidArgument -> reads_all call s [] (r_ptr r)
| reads_all_next s r l rest :
    call s = Ok r -> r_ec r <> InvalidArgument -> reads_all call (r_ptr r) l rest ->
    reads_all call s ((r_ec r, r_value r) :: l) rest.
