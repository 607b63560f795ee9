(** The test programs that print numbers and read them back: exhaustive32.cpp,
    long_exhaustive32.cpp, exhaustive32_64.cpp, long_exhaustive32_64.cpp,
    exhaustive32_midpoint.cpp, random64.cpp and long_random64.cpp in tests/.

    std::snprintf, strtof_l and from_chars are arguments of the functions, so that
    the programs can also be run with wrong ones.  Messages are not modelled. *)
From Verif Require Import Machine Config Chars Format ParseNumber FromChars RandomText.
Open Scope Z_scope.

(** ** Bit patterns *)

(** std::isnan, exhaustive32.cpp:37 *)
Definition fp_nan (t : ftype) (v : Z) : bool := infinity_bits t <? v mod 2 ^ sign_index t.
(** std::isfinite, exhaustive32_midpoint.cpp:86 *)
Definition fp_finite (t : ftype) (v : Z) : bool := v mod 2 ^ sign_index t <? infinity_bits t.
(** copysign(1, v) == -1, exhaustive32.cpp:42 *)
Definition fp_negative (t : ftype) (v : Z) : bool := 2 ^ sign_index t <=? v.

(** ** One number *)

(** std::snprintf(buffer, size, ...) and [buffer + written],
    exhaustive32.cpp:14-18: the characters up to string_end.  If the text does not
    fit with its null character, string_end is beyond what was written. *)
Definition to_string (size : Z) (text : list Z) : outcome (list Z) :=
  if Z.of_nat (length text) <? size then Done text else Undefined.

(** What a program finds out about one number: the branches of exhaustive32.cpp:27-52 *)
Inductive finding := Match | Unparsed | NotNan | WrongSign | Mismatch.

(** The checks of exhaustive32.cpp:27-52, long_exhaustive32.cpp:29-57,
    long_exhaustive32_64.cpp:28-54, random64.cpp:60-98, long_random64.cpp:57-95,
    and basic_test_64bit, exhaustive32_64.cpp:22-49 *)
Definition compare_word (t : ftype) (read : list Z -> res result) (v : Z) (text : list Z) : outcome finding :=
  do* r := lift (read text) in
  match r_ec r with
  | InvalidArgument => Done Unparsed
  | _ =>
      match r_value r with
      | None => Undefined   (* result_value is uninitialised *)
      | Some x =>
          if fp_nan t v then Done (if fp_nan t x then Match else NotNan)
          else if negb (Bool.eqb (fp_negative t x) (fp_negative t v)) then Done WrongSign
          else if negb (fp_equal t x v) then Done Mismatch
          else Done Match
      end
  end.

(** ** One word *)

(** What a check does to its program: it goes on, it notices a mismatch (returns false,
    exhaustive32_midpoint.cpp), or the program is terminated (abort(), exhaustive32.cpp:51) *)
Inductive answer := Good | Bad | Crash.

(** check_word, exhaustive32.cpp:21-53, and the body of the loop in
    long_exhaustive32.cpp:22-58: a mismatch is an abort() *)
Definition check_word (size : Z) (print : Z -> list Z) (read : list Z -> res result) (word : Z) : outcome answer :=
  do* text := to_string size (print word) in
  do* f := compare_word F32 read word text in
  Done (match f with Match => Good | _ => Crash end).

(** The conversion of a float to double, exhaustive32_64.cpp:70: exact; a
    signalling NaN becomes a quiet one *)
Definition widen (w : Z) : Z :=
  let sign := if fp_negative F32 w then 2 ^ 63 else 0 in
  let a := w mod 2 ^ 31 in
  let e := a / 2 ^ 23 in
  let m := a mod 2 ^ 23 in
  sign +
  (if e =? 255 then 0x7FF * 2 ^ 52 + (if m =? 0 then 0 else Z.lor (2 ^ 51) (m * 2 ^ 29))
   else if e =? 0 then
     if m =? 0 then 0
     else let k := Z.log2 m in (k - 149 + 1023) * 2 ^ 52 + (m - 2 ^ k) * 2 ^ (52 - k)
   else (e - 127 + 1023) * 2 ^ 52 + m * 2 ^ 29).

(** The body of the loop in all_32bit_values, exhaustive32_64.cpp:67-77 *)
Definition check_widened (print : Z -> list Z) (read : list Z -> res result) (word : Z) : outcome answer :=
  let v := widen word in
  do* text := to_string 64 (print v) in
  do* f := compare_word F64 read v text in
  Done (match f with Match => Good | _ => Bad end).

(** The body of the loop in all_32bit_values, long_exhaustive32_64.cpp:22-55 *)
Definition check_widened_long (print : Z -> list Z) (read : list Z -> res result) (word : Z) : outcome answer :=
  let v := widen word in
  do* text := to_string 128 (print v) in
  do* f := compare_word F64 read v text in
  Done (match f with Match => Good | _ => Crash end).

(** std::nextafterf(v, INFINITY) for a finite v, exhaustive32_midpoint.cpp:89: the
    next bit pattern; towards zero for a negative number; after either zero the
    smallest positive number *)
Definition next_after (v : Z) : Z :=
  if v mod 2 ^ 31 =? 0 then 1 else if fp_negative F32 v then v - 1 else v + 1.

(** A finite double in units of 2^-1074, operands of exhaustive32_midpoint.cpp:100 *)
Definition double_units (v : Z) : Z :=
  let m := fp_units (mant_bits F64) (v mod 2 ^ 63) in if fp_negative F64 v then - m else m.

(** The double nearest - in the current rounding direction - to num/den units of
    2^-1074, num <> 0: the result of an operation in
    exhaustive32_midpoint.cpp:100, as in IEEE-754 *)
Definition double_result (c : cfg) (num den : Z) : Z :=
  let md := if num <? 0 then match rmode c with Upward => Downward | Downward => Upward | md => md end else rmode c in
  (if num <? 0 then 2 ^ 63 else 0) +
  ieee_round md (mant_bits F64) (min_exp F64) (infinity_bits F64) (Z.abs num)
    (den * 2 ^ (- (min_exp F64 + 1 - mant_bits F64))).

(** [double midv{v1 + (v2 - v1) / 2}], exhaustive32_midpoint.cpp:96-100 *)
Definition midpoint (c : cfg) (v nextf : Z) : Z :=
  let v1 := widen v in
  let v2 := widen nextf in
  let d := double_result c (double_units v2 - double_units v1) 1 in
  let h := double_result c (double_units d) 2 in
  double_result c (double_units v1 + double_units h) 1.

(** check_word, exhaustive32_midpoint.cpp:82-151; [None] from strtof is the
    exception at line 77, which terminates the program.  [v] is finite at line 117,
    so that the branch for NaNs is never taken. *)
Definition check_midpoint (c : cfg) (print : Z -> list Z) (strtof : list Z -> option Z)
  (read : list Z -> res result) (word : Z) : outcome answer :=
  if negb (fp_finite F32 word) then Done Good else
  let nextf := next_after word in
  if negb (Bool.eqb (fp_negative F32 word) (fp_negative F32 nextf)) then Done Good else
  if negb (fp_finite F32 nextf) then Done Good else
  do* text := to_string 64 (print (midpoint c word nextf)) in
  match strtof text with
  | None => Done Crash
  | Some str_answer =>
      do* r := lift (read text) in
      match r_ec r with
      | InvalidArgument => Done Bad
      | _ =>
          match r_value r with
          | None => Undefined
          | Some x =>
              if negb (Bool.eqb (fp_negative F32 x) (fp_negative F32 word)) then Done Bad
              else if negb (fp_equal F32 x str_answer) then Done Bad
              else Done Good
          end
      end
  end.

(** ** All words, on several threads *)

(** A worker, exhaustive32_midpoint.cpp:164-173: at the condition of its loop, in
    the body, about to store [false], or finished *)
Inductive thread :=
| AtCondition (w : Z)
| InBody (w : Z)
| AboutToStore
| Finished.

(** How the programs differ: whether the workers look at [ok], and whether the
    exit status depends on it, exhaustive32.cpp:57-82, exhaustive32_64.cpp,
    exhaustive32_midpoint.cpp *)
Record program := { polls : bool; reports : bool }.

(** exhaustive32.cpp:57-82: there is no flag.  The loops of long_exhaustive32.cpp:16-68
    and long_exhaustive32_64.cpp:14-65 are those of this program on one thread. *)
Definition exhaustive32 : program := {| polls := false; reports := false |}.
(** exhaustive32_midpoint.cpp:155-206 *)
Definition exhaustive32_midpoint : program := {| polls := true; reports := true |}.
(** exhaustive32_64.cpp:53-92: [ok] is not used after the threads are joined *)
Definition exhaustive32_64 : program := {| polls := true; reports := false |}.

Record state := { crashed : bool; ok : bool; threads : list thread }.

(** What one worker does next, exhaustive32_midpoint.cpp:165-172.  [seen] is what
    ok.load(std::memory_order_relaxed) returns: [false] only if it has been stored,
    but [true] even then, since a relaxed load may see the older value.  The result
    is the worker, the flag and whether the program is terminated. *)
Inductive worker (P : program) (check : Z -> answer) (nthreads : Z) (ok : bool) : thread -> thread -> bool -> bool -> Prop :=
| loop_end w : 0xFFFFFFFF < w -> worker P check nthreads ok (AtCondition w) Finished ok false
| loop_stop w : w <= 0xFFFFFFFF -> polls P = true -> ok = false -> worker P check nthreads ok (AtCondition w) Finished ok false
| loop_enter w : w <= 0xFFFFFFFF -> worker P check nthreads ok (AtCondition w) (InBody w) ok false
| body_good w : check (u32 w) = Good -> worker P check nthreads ok (InBody w) (AtCondition (u64 (w + nthreads))) ok false
| body_bad w : check (u32 w) = Bad -> worker P check nthreads ok (InBody w) AboutToStore ok false
| body_crash w : check (u32 w) = Crash -> worker P check nthreads ok (InBody w) Finished ok true
| store : worker P check nthreads ok AboutToStore Finished false false.

(** One step of the program: any worker moves, exhaustive32_midpoint.cpp:163-177 *)
Inductive step (P : program) (check : Z -> answer) (nthreads : Z) : state -> state -> Prop :=
| step_worker o before th th' after o' crash :
    worker P check nthreads o th th' o' crash ->
    step P check nthreads {| crashed := false; ok := o; threads := before ++ th :: after |}
      {| crashed := crash; ok := o'; threads := before ++ th' :: after |}.

(** A number of steps of the threads of exhaustive32_midpoint.cpp and its siblings *)
Inductive steps (P : program) (check : Z -> answer) (nthreads : Z) : nat -> state -> state -> Prop :=
| steps_none s : steps P check nthreads 0 s s
| steps_more n s s' s'' : step P check nthreads s s' -> steps P check nthreads n s' s'' -> steps P check nthreads (S n) s s''.

(** nthreads, exhaustive32_midpoint.cpp:156-159 *)
Definition thread_count (hardware_concurrency : Z) : Z :=
  if hardware_concurrency =? 0 then 1 else hardware_concurrency.

(** exhaustive32_midpoint.cpp:160-164; a worker that has not started is one that has
    not moved *)
Definition start (nthreads : Z) : state :=
  {| crashed := false; ok := true; threads := map (fun t => AtCondition (Z.of_nat t)) (seq 0 (Z.to_nat nthreads)) |}.

(** The exit status, [true] for EXIT_SUCCESS, once the program has ended: it was
    terminated, or all workers are joined, exhaustive32_midpoint.cpp:175-178,202 *)
Definition finished (th : thread) : bool := match th with Finished => true | _ => false end.
Definition exit_status (P : program) (s : state) : option bool :=
  if crashed s then Some false
  else if forallb finished (threads s) then Some (if reports P then ok s else true)
  else None.

(** A check in a thread; undefined behaviour is taken as a crash, the theorems say
    that it does not occur; exhaustive32_midpoint.cpp:168 *)
Definition outcome_answer (o : outcome answer) : answer :=
  match o with Done a => a | _ => Crash end.

(** ** random64.cpp and long_random64.cpp *)

(** lehmer64_seed, random64.cpp:31-34: (low, high) *)
Definition lehmer64_seed (seed : Z) : Z * Z := (seed, 0).

(** lehmer64, random64.cpp:36-42: the new state and the number *)
Definition lehmer64 (c : cfg) (state : Z * Z) : (Z * Z) * Z :=
  let '(slow, shigh) := state in
  let '(low, high) := full_multiplication c slow 0xda942042e4dd58b5 in
  let high := u64 (high + u64 (shigh * 0xda942042e4dd58b5)) in
  ((low, high), high).

(** The loop of random_values, random64.cpp:49-100 and long_random64.cpp:47-97,
    for [n] more numbers; [None] is abort(), otherwise the number of errors *)
Fixpoint random_loop (size : Z) (c : cfg) (print : Z -> list Z) (read : list Z -> res result) (n : nat)
  (state : Z * Z) (errors : Z) : outcome (option Z) :=
  match n with
  | O => Done (Some errors)
  | S n =>
      let '(state, word) := lehmer64 c state in
      do* text := to_string size (print word) in
      do* f := compare_word F64 read word text in
      match f with
      | Match => random_loop size c print read n state errors
      | WrongSign => Done None
      | _ =>
          let errors := u64 (errors + 1) in
          if 10 <? errors then Done None else random_loop size c print read n state errors
      end
  end.

(** random_values and main, random64.cpp:46-48 and 103-116: whether the exit status
    is EXIT_SUCCESS *)
Definition random_values (size : Z) (c : cfg) (print : Z -> list Z) (read : list Z -> res result) (N : Z) : outcome bool :=
  do* errors := random_loop size c print read (Z.to_nat N) (lehmer64_seed N) 0 in
  Done (match errors with Some e => e =? 0 | None => false end).
