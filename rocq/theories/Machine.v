(** Machine-level vocabulary shared by the whole model: outcomes with undefined
    behaviour, fixed-width words, checked signed arithmetic, array access.

    These definitions model the C++ abstract machine, not a particular function
    of the library; the lines cited are the places where the library relies on
    them. *)
From Coq Require Export ZArith List Bool Lia.
Export ListNotations.
Open Scope Z_scope.

(** Outcome of evaluating a C++ expression: a value, or undefined behaviour
    (out-of-bounds access, over-long shift, signed overflow, clz(0), ...).
    A loop that exhausts its fuel is reported as [UB] as well, so [Ok] also
    means termination.  Among the sources of undefined behaviour: the reads
    through p of ascii_number.h:330-800, the shifts of decimal_to_binary.h:75-202
    and bigint.h:170-208,511-534, int arithmetic as in digit_comparison.h:41-56. *)
Inductive res (A : Type) : Type :=
| Ok (a : A)
| UB.
Arguments Ok {A} a.
Arguments UB {A}.

(** Sequencing of two expressions: every full expression of the library, e.g.
    ascii_number.h:383-404. *)
Definition bind {A B} (m : res A) (k : A -> res B) : res B :=
  match m with Ok a => k a | UB => UB end.

Notation "'let*' x ':=' m 'in' k" := (bind m (fun x => k))
  (at level 200, x name, m at level 100, k at level 200, right associativity).
Notation "'let*' ' p ':=' m 'in' k" := (bind m (fun p => k))
  (at level 200, p strict pattern, m at level 100, k at level 200, right associativity).

(** uint64_t / uint32_t / uint16_t / uint8_t conversion: reduction modulo 2^n.
    E.g. ascii_number.h:264-266,401-402 (u64). *)
Definition u64 (x : Z) : Z := x mod 2 ^ 64.
(** ascii_number.h:45-48,681-683 *)
Definition u32 (x : Z) : Z := x mod 2 ^ 32.
(** ascii_number.h:732,738, float_common.h:1188-1196 (a 16-bit equiv_uint) *)
Definition u16 (x : Z) : Z := x mod 2 ^ 16.
(** uint8_t( *chars), ascii_number.h:57,78 *)
Definition u8 (x : Z) : Z := x mod 2 ^ 8.

(** Conversion to an n-bit two's complement signed integer:
    int64_t and int32_t casts, e.g. ascii_number.h:411, digit_comparison.h:438. *)
Definition to_signed (n : Z) (x : Z) : Z :=
  let y := x mod 2 ^ n in
  if y <? 2 ^ (n - 1) then y else y - 2 ^ n.

(** Result of signed arithmetic in an n-bit type: undefined on overflow.
    E.g. ascii_number.h:35,440-444,489-496, digit_comparison.h:41-56. *)
Definition chk (n : Z) (x : Z) : res Z :=
  if (- 2 ^ (n - 1) <=? x) && (x <? 2 ^ (n - 1)) then Ok x else UB.

(** Shifts of an unsigned n-bit word; undefined when the amount is not in [0,n).
    E.g. decimal_to_binary.h:77,90,144-164, bigint.h:174-186,525-529. *)
Definition shl (n : Z) (x k : Z) : res Z :=
  if (0 <=? k) && (k <? n) then Ok ((Z.shiftl x k) mod 2 ^ n) else UB.
(** decimal_to_binary.h:144,159-164,190, digit_comparison.h:152,165 *)
Definition shr (n : Z) (x k : Z) : res Z :=
  if (0 <=? k) && (k <? n) then Ok (Z.shiftr x k) else UB.

(** Array access: undefined when the index is out of bounds: the tables at
    decimal_to_binary.h:28,40, float_common.h:1204-1227, bigint.h:56-71,623. *)
Definition nth_res {A} (l : list A) (i : Z) : res A :=
  if i <? 0 then UB
  else match nth_error l (Z.to_nat i) with Some a => Ok a | None => UB end.

(** Dereference of a pointer into [first,last), represented as the list of the
    characters from the pointer to [last]; [ *p] in ascii_number.h:330-800 and
    parse_number.h:25-70. *)
Definition deref (p : list Z) : res Z :=
  match p with [] => UB | c :: _ => Ok c end.

(** Pointer increment by [n] (undefined past [last]): [p += n], e.g.
    ascii_number.h:254,267, digit_comparison.h:180,203, parse_number.h:36-57. *)
Definition advance (n : nat) (p : list Z) : res (list Z) :=
  if Nat.leb n (length p) then Ok (skipn n p) else UB.

(** [n] consecutive elements starting at a pointer (undefined past [last]): what the
    memcpy calls read, ascii_number.h:63,84,637, digit_comparison.h:176,199. *)
Definition take (n : nat) (p : list Z) : res (list Z) :=
  if Nat.leb n (length p) then Ok (firstn n p) else UB.

(** std::distance(p, pend), ascii_number.h:251,262, digit_comparison.h:175,198. *)
Definition remaining (p : list Z) : Z := Z.of_nat (length p).
