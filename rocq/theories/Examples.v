(** The reading loops of the example and test programs: many_loop in
    tests/example_test.cpp, test() in tests/string_test.cpp and tests/long_test.cpp.
    The texts and the expected numbers are arguments.  Messages are not modelled but for
    what is printed about a number. *)
From Verif Require Import Machine Config Chars Format FromChars RandomText.
Open Scope Z_scope.

(** many_loop, example_test.cpp:43-62: the numbers it prints, and whether it complains at
    the end.  [result] is the variable of line 45, at first uninitialised.  Fuel: the
    rounds of the while loop. *)
Fixpoint many_loop (fuel : nat) (read : list Z -> res result) (result : option Z) (pointer : list Z)
  : outcome (list Z * bool) :=
  match pointer with
  | [] => Done ([], false)                                                 (* line 49 *)
  | _ =>
      match fuel with
      | O => Running
      | S fuel =>
          do* answer := lift (read pointer) in                             (* line 50 *)
          let result := match r_value answer with Some v => Some v | None => result end in
          match r_ec answer with
          | Success =>
              match result with
              | None => Undefined
              | Some v =>
                  let pointer := match r_ptr answer with                   (* lines 56-60 *)
                                 | ch :: p => if ch =? 44 then p else r_ptr answer
                                 | [] => []
                                 end in
                  do* '(printed, complains) := many_loop fuel read result pointer in
                  Done (v :: printed, complains)
              end
          | _ => Done ([], true)                                           (* lines 51-54 *)
          end
      end
  end.

(** parse, example_test.cpp:65-74; [minus_one] is -1.0.  The functions get1 to get10 of
    tests/bloat_analysis/a1.cpp:3-11 to a10.cpp and get of main_ref.cpp:3-11 are this function
    for double, with 1.0 to 10.0 in the place of -1.0. *)
Definition parse (read : list Z -> res result) (minus_one : Z) (input : list Z) : outcome Z :=
  do* answer := lift (read input) in
  match r_ec answer with
  | Success => match r_value answer with Some v => Done v | None => Undefined end
  | _ => Done minus_one
  end.

(** std::isspace( *begin) in the C locale, string_test.cpp:102, long_test.cpp:26: undefined
    for negative characters (but for EOF, -1) *)
Definition isspace (ch : Z) : outcome bool :=
  if ch =? -1 then Done false
  else if ch <? 0 then Undefined
  else Done (((9 <=? ch) && (ch <=? 13)) || (ch =? 32)).

(** The while loop of string_test.cpp:102-104, long_test.cpp:26-28 *)
Fixpoint skip_spaces (begin : list Z) : outcome (list Z) :=
  match begin with
  | [] => Done []
  | ch :: p => do* b := isspace ch in if b then skip_spaces p else Done begin
  end.

(** test(), string_test.cpp:77-123 and long_test.cpp:16-51.  An expected answer is a
    number and what its error code has to be: the entry of expected_ec (string_test.cpp:106),
    or anything that is not an error of the text (long_test.cpp:30-31). *)
Fixpoint test_numbers (t : ftype) (read : list Z -> res result) (begin : list Z) (answers : list ((ec -> bool) * Z))
  : outcome bool :=
  match answers with
  | [] => Done match begin with [] => true | _ => false end
  | (expected, answer) :: answers =>
      do* begin := skip_spaces begin in
      do* result := lift (read begin) in
      if negb (expected (r_ec result)) then Done false
      else
        let result_value := match r_value result with Some v => v | None => 0 end in
        if negb (fp_equal t result_value answer) then Done false
        else test_numbers t read (r_ptr result) answers
  end.

(** string_test.cpp:106: the code has to be the expected one *)
Definition exactly (expected x : ec) : bool :=
  match expected, x with
  | Success, Success | InvalidArgument, InvalidArgument | OutOfRange, OutOfRange => true
  | _, _ => false
  end.
(** long_test.cpp:30-31 *)
Definition parsed (x : ec) : bool := match x with InvalidArgument => false | _ => true end.
