(** Model of the benchmark programs benchmarks/bench_ip.cpp and
    benchmarks/bench_uint16.cpp: how they write the text and how they read it
    back; and of the search for the largest number in benchmarks/benchmark.cpp.  The random numbers are arguments; timing and
    printing are not modelled; std::to_string is [print_natural]. *)
From Verif Require Import Machine Config Format FromChars Ints SpecPrint Ipv4.
Open Scope Z_scope.

(** std::to_string of a uint8_t or uint16_t, bench_ip.cpp:90-96 and bench_uint16.cpp:80 *)
Definition to_string (v : Z) : list Z := print_natural false 10 v.

(** ** bench_ip.cpp *)

(** The for loop of seek_ip_end, bench_ip.cpp:36-44; [count] dots seen *)
Fixpoint seek_dots (count : Z) (current : list Z) : list Z :=
  match current with
  | [] => []
  | ch :: next =>
      if ch =? 46 then (if count + 1 =? 3 then next else seek_dots (count + 1) next)
      else seek_dots count next
  end.

(** The while loop of seek_ip_end, bench_ip.cpp:45-51 *)
Fixpoint seek_digits (current : list Z) : list Z :=
  match current with
  | [] => []
  | ch :: next => if (ch <=? 57) && (48 <=? ch) then seek_digits next else current
  end.

(** seek_ip_end, bench_ip.cpp:32-53 *)
Definition seek_ip_end (p : list Z) : list Z := seek_digits (seek_dots 0 p).

(** make_ip_line, bench_ip.cpp:87-99 *)
Definition make_ip_line (a b c d : Z) : list Z :=
  to_string a ++ [46] ++ to_string b ++ [46] ++ to_string c ++ [46] ++ to_string d ++ [10].

(** ip_line.resize(ip_size, ' '), bench_ip.cpp:116 *)
Definition padded (line : list Z) : list Z := firstn 16 (line ++ repeat 32 16).

(** The buffer, bench_ip.cpp:110-118 (without the sentinel, which lies beyond pend) *)
Definition ip_buffer (l : list (Z * Z * Z * Z)) : list Z :=
  concat (map (fun '(a, b, c, d) => padded (make_ip_line a b c d)) l).

(** The loop at bench_ip.cpp:139-143: [sum] of the lengths found by seek_ip_end *)
Fixpoint seek_all (n : nat) (p : list Z) (sum : Z) : res Z :=
  match n with
  | O => Ok sum
  | S n =>
      let q := seek_ip_end p in
      let sum := u32 (sum + u32 (remaining p - remaining q)) in
      let* p := advance 16 p in
      seek_all n p sum
  end.

(** The loop at bench_ip.cpp:169-177 with simple_parse_ip_line, 57-85, which is
    [ipv4_string_to_uint32]; [None] is std::abort *)
Fixpoint parse_all (c : cfg) (u : uc) (n : nat) (p : list Z) (sum : Z) : res (option Z) :=
  match n with
  | O => Ok (Some sum)
  | S n =>
      let* r := ipv4_string_to_uint32 c u p in
      match r with
      | None => Ok None
      | Some ip =>
          let sum := u32 (sum + ip) in
          let* p := advance 16 p in
          parse_all c u n p sum
      end
  end.

(** ** bench_uint16.cpp *)

(** uint16_t as an argument of from_chars, bench_uint16.cpp:42 and 122 *)
Definition word_type : ity := {| i_signed := false; i_bits := 16; i_is_u8 := false; i_is_u16 := true; i_is_u64 := false |}.

(** The buffer, bench_uint16.cpp:77-85 *)
Fixpoint uint16_buffer (l : list Z) : list Z :=
  match l with
  | [] => []
  | val :: l => to_string val ++ (match l with [] => [] | _ => [44] end) ++ uint16_buffer l
  end.

(** validate, bench_uint16.cpp:35-63; [false] is std::abort.  The empty list
    runs no round of the loop.  The messages before std::abort are not modelled
    (the one at lines 44-45 may read [val] although nothing was stored). *)
Fixpoint validate (c : cfg) (u : uc) (p : list Z) (expected : list Z) : res bool :=
  match expected with
  | [] => Ok (match p with [] => true | _ => false end)
  | e :: more =>
      let* r := from_chars_int c u word_type p 10 in
      match r_ec r with
      | Success =>
          (* reading [val] is undefined if from_chars did not store it *)
          let* val := match r_value r with Some v => Ok v | None => UB end in
          if negb (val =? e) then Ok false else
          let p := r_ptr r in
          match more with
          | [] => validate c u p more
          | _ =>
              match p with
              | [] => Ok false
              | ch :: p => if ch =? 44 then validate c u p more else Ok false
              end
          end
      | _ => Ok false
      end
  end.

(** The loop at bench_uint16.cpp:120-134; [n] rounds remain, [None] is std::abort.
    The value is 0 before each call. *)
Fixpoint sum_all (c : cfg) (u : uc) (n : nat) (p : list Z) (sum : Z) : res (option Z) :=
  match n with
  | O => Ok (match p with [] => Some sum | _ => None end)
  | S n =>
      let* r := from_chars_int c u word_type p 10 in
      match r_ec r with
      | Success =>
          let sum := u64 (sum + match r_value r with Some v => v | None => 0 end) in
          let p := r_ptr r in
          match n with
          | O => sum_all c u n p sum
          | _ =>
              match p with
              | [] => Ok None
              | ch :: p => if ch =? 44 then sum_all c u n p sum else Ok None
              end
          end
      | _ => Ok None
      end
  end.

(** ** benchmark.cpp *)

(** [x > y] on the bit patterns of a floating-point type (IEEE-754; false if one
    of them is a NaN), benchmark.cpp:34,48.  A pattern is its magnitude code and the
    sign bit above it. *)
Definition fp_greater (t : ftype) (x y : Z) : bool :=
  let sign := 2 ^ sign_index t in
  let nan v := infinity_bits t <? v mod sign in
  let key v := if sign <=? v then - (v - sign) else v in
  negb (nan x) && negb (nan y) && (key y <? key x).

(** findmax_fastfloat64 and findmax_fastfloat32, benchmark.cpp:25-51; [None] is the
    exception.  [x] keeps its value when from_chars does not store one. *)
Fixpoint findmax (c : cfg) (u : uc) (t : ftype) (s : list (list Z)) (answer x : Z) : res (option Z) :=
  match s with
  | [] => Ok (Some answer)
  | st :: s =>
      let* r := from_chars_float c u t st f_general in
      if remaining (r_ptr r) =? remaining st then Ok None
      else
        let x := match r_value r with Some v => v | None => x end in
        findmax c u t s (if fp_greater t answer x then answer else x) x
  end.

(** [answer] and [x] start at 0, benchmark.cpp:27-28,41-42 *)
Definition findmax_fastfloat (c : cfg) (u : uc) (t : ftype) (s : list (list Z)) : res (option Z) :=
  findmax c u t s 0 0.
