(** Models of clients in the repository: tests/rcppfastfloat_test.cpp,
    tests/powersoffive_hardround.cpp and fuzz/from_chars.cc.  Messages are not
    modelled. *)
From Verif Require Import Machine Config Chars Format ParseNumber FromChars Ints RandomText SpecPrint.
Open Scope Z_scope.

(** ** rcppfastfloat_test.cpp *)

(** general | allow_leading_plus | skip_white_space, rcppfastfloat_test.cpp:64-66 *)
Definition field_format : Z := Z.lor (Z.lor f_general f_allow_leading_plus) f_skip_white_space.

(** The loop over the characters after the number, rcppfastfloat_test.cpp:74-84:
    non_space_trailing_content *)
Fixpoint trailing_content (leftover : list Z) : res bool :=
  match leftover with
  | [] => Ok false
  | ch :: rest => let* s := is_space ch in if negb s then Ok true else trailing_content rest
  end.

(** What the program makes of one input, rcppfastfloat_test.cpp:62-84: the result, or
    [None] if there is an error or trailing content *)
Definition read_field (c : cfg) (u : uc) (t : ftype) (input : list Z) : res (option Z) :=
  let* r := from_chars_float c u t input field_format in
  match r_ec r with
  | Success =>
      let* content := trailing_content (r_ptr r) in
      if content then Ok None
      else match r_value r with Some v => Ok (Some v) | None => UB end
  | _ => Ok None
  end.

(** struct test_data, rcppfastfloat_test.cpp:10-14 *)
Record test_data := { input : list Z; expected_success : bool; expected_result : Z }.

(** std::isnan, rcppfastfloat_test.cpp:98 *)
Definition double_nan (v : Z) : bool := infinity_bits F64 <? v mod 2 ^ sign_index F64.

(** The loop of eddelbuettel, rcppfastfloat_test.cpp:55-104 *)
Fixpoint eddelbuettel (c : cfg) (u : uc) (datas : list test_data) : res bool :=
  match datas with
  | [] => Ok true
  | d :: rest =>
      let* r := read_field c u F64 (input d) in
      match r with
      | None => if expected_success d then Ok false else eddelbuettel c u rest
      | Some result =>
          if negb (expected_success d) then Ok false
          else if negb (fp_equal F64 result (expected_result d)) && negb (double_nan result && double_nan (expected_result d))
          then Ok false
          else eddelbuettel c u rest
      end
  end.

(** ** powersoffive_hardround.cpp *)

(** The loop that computes power5, powersoffive_hardround.cpp:100-103 *)
Fixpoint power5 (q : nat) : Z :=
  match q with O => 1 | S q => u64 (power5 q * 5) end.

(** low_threshold and threshold, powersoffive_hardround.cpp:104-105 *)
Definition low_threshold (q : nat) : Z := u64 (0x20000000000000 / power5 q + 1).
Definition threshold (q : nat) : Z := 0xFFFFFFFFFFFFFFFF / power5 q.

(** mantissa and to_be_parsed, powersoffive_hardround.cpp:108-113 *)
Definition hard_mantissa (q : nat) (draw : Z) : Z := u64 (draw * power5 q).
Definition hard_text (q : nat) (draw : Z) : list Z :=
  print_natural false 10 (hard_mantissa q draw) ++ [101] ++ print_integer false 10 (- Z.of_nat q).

(** The body of the loop, powersoffive_hardround.cpp:114-134: [None] from strtod is
    the pair (0, false); the parser is an argument *)
Definition hard_check (read : list Z -> res result) (strtod : list Z -> option Z) (q : nat) (draw : Z) : outcome bool :=
  let text := hard_text q draw in
  let expected := match strtod text with Some v => v | None => 0 end in
  do* r := lift (read text) in
  match r_ec r with
  | InvalidArgument => Done false
  | _ =>
      match r_value r with
      | None => Undefined
      | Some v => Done (fp_equal F64 v expected)
      end
  end.

(** The loop over i, powersoffive_hardround.cpp:107-135; the numbers drawn are a list *)
Fixpoint hard_draws (read : list Z -> res result) (strtod : list Z -> option Z) (q : nat) (draws : list Z) : outcome bool :=
  match draws with
  | [] => Done true
  | draw :: draws =>
      do* ok := hard_check read strtod q draw in
      if negb ok then Done false else hard_draws read strtod q draws
  end.

(** The loop over q, powersoffive_hardround.cpp:98-136: [draws q] are the numbers drawn.
    The distribution at line 106 needs low_threshold <= threshold, the divisions at
    104-105 a power that is not 0. *)
Fixpoint hard_loop (read : list Z -> res result) (strtod : list Z -> option Z) (draws : nat -> list Z) (qs : list nat) : outcome bool :=
  match qs with
  | [] => Done true
  | q :: qs =>
      if power5 q =? 0 then Undefined
      else if threshold q <? low_threshold q then Undefined
      else
        do* ok := hard_draws read strtod q (draws q) in
        if negb ok then Done false else hard_loop read strtod draws qs
  end.

(** tester, powersoffive_hardround.cpp:95-138 *)
Definition hard_tester_read (read : list Z -> res result) (strtod : list Z -> option Z) (draws : nat -> list Z) : outcome bool :=
  hard_loop read strtod draws (seq 18 10).
(** The program with the library, powersoffive_hardround.cpp:95-138 *)
Definition hard_tester (c : cfg) (u : uc) : (list Z -> option Z) -> (nat -> list Z) -> outcome bool :=
  hard_tester_read (library_parser c u F64).

(** ** fuzz/from_chars.cc *)

(** arbitrary_format, from_chars.cc:6-20; [k] is what the data provider returns *)
Definition arbitrary_format (k : Z) : Z :=
  if k =? 0 then f_scientific else if k =? 1 then f_fixed else if k =? 2 then f_fixed else f_general.

(** LLVMFuzzerTestOneInput, from_chars.cc:22-37: the three destinations at the end.
    The data provider is replaced by what it returns. *)
Definition fuzz_one (c : cfg) (u : uc) (int_type : ity) (k : Z) (input_d input_f input_i : list Z) : res (Z * Z * Z) :=
  let format := arbitrary_format k in
  let* d := from_chars_float c u F64 input_d format in
  let* f := from_chars_float c u F32 input_f format in
  let* i := from_chars_int c u int_type input_i 10 in
  let or_zero r := match r_value r with Some v => v | None => 0 end in
  Ok (or_zero d, or_zero f, or_zero i).
