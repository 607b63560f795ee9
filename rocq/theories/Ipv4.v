(** Model of a client in the repository: reading and writing IPv4 addresses with
    from_chars, tests/ipv4_test.cpp; the reader is also simple_parse_ip_line of
    benchmarks/bench_ip.cpp. *)
From Verif Require Import Machine Config Ints.
Open Scope Z_scope.

(** uint8_t as an argument of from_chars (the template parameter of the calls at
    ipv4_test.cpp:47 and bench_ip.cpp:71). *)
Definition octet_type : ity := {| i_signed := false; i_bits := 8; i_is_u8 := true; i_is_u16 := false; i_is_u64 := false |}.

(** The loop of uint8_to_chars_manual, ipv4_test.cpp:14-17: the characters
    written, in the order of writing.  [fuel] bounds the iterations; the value
    shrinks in each, so [Z.to_nat value] of them are enough. *)
Fixpoint octet_loop (fuel : nat) (value : Z) (written : list Z) : list Z :=
  match fuel with
  | O => written
  | S n => if 0 <? value then octet_loop n (value / 10) (written ++ [48 + value mod 10]) else written
  end.

(** uint8_to_chars_manual, ipv4_test.cpp:8-21.  Simplification: the buffer is the
    list of the characters written so far; ipv4_test.cpp:19 reverses the last
    ones in place. *)
Definition uint8_to_chars_manual (buffer : list Z) (value : Z) : list Z :=
  if value =? 0 then buffer ++ [48]
  else buffer ++ rev (octet_loop (Z.to_nat value) value []).

(** uint32_to_ipv4_string, ipv4_test.cpp:23-38; the loop at 30-36 is unrolled. *)
Definition uint32_to_ipv4_string (ip : Z) : list Z :=
  let b := uint8_to_chars_manual [] (u8 (Z.shiftr ip 24)) ++ [46] in
  let b := uint8_to_chars_manual b (u8 (Z.shiftr ip 16)) ++ [46] in
  let b := uint8_to_chars_manual b (u8 (Z.shiftr ip 8)) ++ [46] in
  uint8_to_chars_manual b (u8 ip) ++ [0].

(** The text before the terminating zero: buffer and buffer + strlen(buffer),
    ipv4_test.cpp:73-74. *)
Fixpoint c_string (buffer : list Z) : list Z :=
  match buffer with
  | [] => []
  | ch :: rest => if ch =? 0 then [] else ch :: c_string rest
  end.

(** The loop of ipv4_string_to_uint32, ipv4_test.cpp:45-59 (bench_ip.cpp:62-83):
    [left] iterations remain after this one.  [None] is the exception thrown at
    lines 49 and 56 (bench_ip.cpp returns {false, 0}). *)
Fixpoint ipv4_loop (c : cfg) (u : uc) (left : nat) (current : list Z) (ip : Z) : res (option Z) :=
  let* r := from_chars_int c u octet_type current 10 in
  match r_ec r with
  | Success =>
      let current := r_ptr r in
      (* reading [value] is undefined if from_chars did not store it *)
      let* value := match r_value r with Some v => Ok v | None => UB end in
      let ip := Z.lor (u32 (Z.shiftl ip 8)) value in
      match left with
      | O => Ok (Some ip)
      | S n =>
          match current with
          | [] => Ok None
          | ch :: current => if ch =? 46 then ipv4_loop c u n current ip else Ok None
          end
      end
  | _ => Ok None
  end.

(** ipv4_string_to_uint32, ipv4_test.cpp:40-61 *)
Definition ipv4_string_to_uint32 (c : cfg) (u : uc) (s : list Z) : res (option Z) := ipv4_loop c u 3 s 0.
