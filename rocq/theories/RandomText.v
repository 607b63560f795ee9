(** The programs that test from_chars with random texts,
    tests/random_string.cpp and tests/short_random_string.cpp.

    A run has three outcomes: it ends, its behaviour is undefined (a write past
    the buffer, an int overflow, a call that is), or it is still in a loop when
    the fuel - one unit per repetition of a while loop - is used up.  The lines
    below are those of random_string.cpp; short_random_string.cpp differs in
    one, see [draw_digit_count]. *)
From Verif Require Import Machine Config Chars Format ParseNumber FromChars.
Open Scope Z_scope.

Inductive outcome (A : Type) : Type :=
| Done (a : A)
| Undefined
| Running.
Arguments Done {A} a.
Arguments Undefined {A}.
Arguments Running {A}.

Definition andthen {A B} (m : outcome A) (k : A -> outcome B) : outcome B :=
  match m with Done a => k a | Undefined => Undefined | Running => Running end.
Definition lift {A} (m : res A) : outcome A :=
  match m with Ok a => Done a | UB => Undefined end.
Notation "'do*' x ':=' m 'in' k" := (andthen m (fun x => k))
  (at level 200, x name, m at level 100, k at level 200, right associativity).
Notation "'do*' ' p ':=' m 'in' k" := (andthen m (fun x => match x with p => k end))
  (at level 200, p pattern, m at level 100, k at level 200, right associativity).

(** ** RandomEngine *)

(** RandomEngine::next, random_string.cpp:59-70: the new state and the number *)
Definition next (c : cfg) (x : Z) : Z * Z :=
  let x := u64 (x + 0x60bee2bee120fc15) in
  let '(low, high) := full_multiplication c x 0xa3b195354a39b70d in
  let m1 := Z.lxor high low in
  let '(low, high) := full_multiplication c m1 0x1b03738712fad5c9 in
  let m2 := Z.lxor high low in
  (x, m2).

(** next_bool, random_string.cpp:72 *)
Definition next_bool (c : cfg) (x : Z) : Z * bool :=
  let '(x, v) := next c x in (x, Z.land v 1 =? 1).

(** The while loop of next_ranged_int, random_string.cpp:92-96 *)
Fixpoint redraw (fuel : nat) (c : cfg) (s t x high l : Z) : outcome (Z * Z) :=
  if l <? t then
    match fuel with
    | O => Running
    | S fuel =>
        let '(x, v) := next c x in
        let '(l, high) := full_multiplication c v s in
        redraw fuel c s t x high l
    end
  else Done (x, high).

(** next_ranged_int, random_string.cpp:80-99 *)
Definition next_ranged_int (fuel : nat) (c : cfg) (x min max : Z) : outcome (Z * Z) :=
  do* d := lift (chk 32 (max - min)) in
  do* d := lift (chk 32 (d + 1)) in
  let s := u64 d in
  let '(x, v) := next c x in
  let '(l, high) := full_multiplication c v s in
  do* '(x, high) :=
    (if l <? s then
       if s =? 0 then Undefined
       else let t := u64 (- s) mod s in redraw fuel c s t x high l
     else Done (x, high)) in
  do* r := lift (chk 32 (to_signed 32 high + min)) in
  Done (x, r).

(** next_digit, random_string.cpp:101 *)
Definition next_digit (fuel : nat) (c : cfg) (x : Z) : outcome (Z * Z) :=
  next_ranged_int fuel c x 0 9.

(** ** build_random_string *)

(** [char buffer[4096]], random_string.cpp:198: the characters written so far *)
Definition buffer_size : Z := 4096.

(** [buffer[pos++] = ch], random_string.cpp:110 etc. *)
Definition put (buffer : list Z) (ch : Z) : outcome (list Z) :=
  if Z.of_nat (length buffer) <? buffer_size then Done (buffer ++ [ch]) else Undefined.

(** number_of_digits, random_string.cpp:112-117 and short_random_string.cpp:112 *)
Definition draw_digit_count (short : bool) (fuel : nat) (c : cfg) (x : Z) : outcome (Z * Z) :=
  if short then next_ranged_int fuel c x 1 19
  else
    do* '(x, n) := next_ranged_int fuel c x 1 100 in
    if n =? 100 then next_ranged_int fuel c x 1 2000 else Done (x, n).

(** The while loop over the first digit, random_string.cpp:125-128; [ch] is
    buffer[pos] *)
Fixpoint avoid_zero (rounds fuel : nat) (c : cfg) (x ch : Z) : outcome (Z * Z) :=
  if ch =? 48 then
    match rounds with
    | O => Running
    | S rounds =>
        do* '(x, d) := next_digit fuel c x in
        avoid_zero rounds fuel c x (d + 48)
    end
  else Done (x, ch).

(** The for loop, random_string.cpp:119-130, for the [n] digits from the i-th on *)
Fixpoint digits_loop (fuel : nat) (c : cfg) (location : Z) (n : nat) (i x : Z) (buffer : list Z)
  : outcome (Z * list Z) :=
  match n with
  | O => Done (x, buffer)
  | S n =>
      do* buffer := (if i =? location then put buffer 46 else Done buffer) in
      do* '(x, d) := next_digit fuel c x in
      do* '(x, ch) := (if (i =? 0) && negb (1 =? location) then avoid_zero fuel fuel c x (d + 48)
                       else Done (x, d + 48)) in
      do* buffer := put buffer ch in
      digits_loop fuel c location n (i + 1) x buffer
  end.

(** The for loop over the digits of the exponent, random_string.cpp:145-147 *)
Fixpoint exponent_loop (fuel : nat) (c : cfg) (n : nat) (x : Z) (buffer : list Z) : outcome (Z * list Z) :=
  match n with
  | O => Done (x, buffer)
  | S n =>
      do* '(x, d) := next_digit fuel c x in
      do* buffer := put buffer (d + 48) in
      exponent_loop fuel c n x buffer
  end.

(** The exponent, random_string.cpp:131-148 *)
Definition exponent_part (fuel : nat) (c : cfg) (x : Z) (buffer : list Z) : outcome (Z * list Z) :=
  let '(x, b) := next_bool c x in
  if b then
    let '(x, lower) := next_bool c x in
    do* buffer := put buffer (if lower : bool then 101 else 69) in
    let '(x, minus) := next_bool c x in
    do* '(x, buffer) :=
      (if minus : bool then do* buffer := put buffer 45 in Done (x, buffer)
       else
         let '(x, plus) := next_bool c x in
         if plus : bool then do* buffer := put buffer 43 in Done (x, buffer) else Done (x, buffer)) in
    do* '(x, n) := next_ranged_int fuel c x 1 3 in
    exponent_loop fuel c (Z.to_nat n) x buffer
  else Done (x, buffer).

(** build_random_string, random_string.cpp:107-151: the new state of the engine
    and the text, without the terminating null character *)
Definition build_random_string (short : bool) (fuel : nat) (c : cfg) (x : Z) : outcome (Z * list Z) :=
  let '(x, minus) := next_bool c x in
  do* buffer := (if minus : bool then put [] 45 else Done []) in
  do* '(x, n) := draw_digit_count short fuel c x in
  do* '(x, location) := next_ranged_int fuel c x 1 n in
  do* '(x, buffer) := digits_loop fuel c location (Z.to_nat n) 0 x buffer in
  do* '(x, buffer) := exponent_part fuel c x buffer in
  do* _ := put buffer 0 in
  Done (x, buffer).

(** ** tester *)

(** [x == y] on the bit patterns of a floating-point type (IEEE-754: no NaN
    equals anything, the two zeros are equal), random_string.cpp:222,246 *)
Definition fp_equal (t : ftype) (x y : Z) : bool :=
  let sign := 2 ^ sign_index t in
  let nan v := infinity_bits t <? v mod sign in
  let key v := if sign <=? v then - (v - sign) else v in
  negb (nan x) && negb (nan y) && (key x =? key y).

(** The checks of one text, random_string.cpp:206-229 for double and 230-253 for
    float; [expected] is what strtod_l or strtof_l says, [None] if it cannot parse; the
    parser is an argument, so that the program can also be run with a wrong one *)
Definition check_read (t : ftype) (read : list Z -> res result) (expected : option Z) (text : list Z) : outcome bool :=
  match expected with
  | None => Done true
  | Some expected =>
      do* r := lift (read text) in
      match r_ec r with
      | InvalidArgument => Done false
      | _ =>
          match r_ptr r with
          | _ :: _ => Done false
          | [] =>
              match r_value r with
              | None => Undefined   (* result_value is uninitialised *)
              | Some v => Done (fp_equal t v expected)
              end
          end
      end
  end.

(** The parser of the programs, random_string.cpp:210,234: fast_float::from_chars *)
Definition library_parser (c : cfg) (u : uc) (t : ftype) (text : list Z) : res result :=
  from_chars_float c u t text f_general.
(** random_string.cpp:206-229,230-253 *)
Definition check (c : cfg) (u : uc) (t : ftype) : option Z -> list Z -> outcome bool :=
  check_read t (library_parser c u t).

(** tester, random_string.cpp:197-256; strtod_l, strtof_l and the parsers are arguments *)
Fixpoint tester_read (short : bool) (fuel : nat) (c : cfg) (read64 read32 : list Z -> res result)
  (strtod strtof : list Z -> option Z) (volume : nat) (x : Z) : outcome bool :=
  match volume with
  | O => Done true
  | S volume =>
      do* '(x, text) := build_random_string short fuel c x in
      do* ok := check_read F64 read64 (strtod text) text in
      if negb ok then Done false else
      do* ok := check_read F32 read32 (strtof text) text in
      if negb ok then Done false else
      tester_read short fuel c read64 read32 strtod strtof volume x
  end.

(** The program with the library, random_string.cpp:197-256 *)
Definition tester (short : bool) (fuel : nat) (c : cfg) (u : uc) : (list Z -> option Z) -> (list Z -> option Z) -> nat -> Z -> outcome bool :=
  tester_read short fuel c (library_parser c u F64) (library_parser c u F32).
