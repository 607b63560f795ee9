(** Property C71: every type a program may use reaches the function that is right for it. *)
From Verif Require Import Machine Config Chars Format ParseNumber DecToBin FromChars Ints Overloads WordLemmas
  SpecFloat FloatBridge SpecGrammar SpecInt SpecApi SpecIntApi SpecRel SpecPrint IntSpec IntApi FloatApi
  Props_Pow10 Props_Float Props_Relations Props_Ints Props_IntMore Props_Print Props_Clients.
Open Scope Z_scope.

(** *** The types, as the language and the platforms define them *)

(** Platforms: wchar_t has 32 bits, or 16 and is unsigned; long has 32 or 64 bits;
    int64_t is long only if that has 64 bits. *)
Definition usual (pl : platform) : Prop :=
  (wchar_bits pl = 32 \/ (wchar_bits pl = 16 /\ wchar_signed pl = false)) /\
  (long_bits pl = 32 \/ long_bits pl = 64) /\ (int64_long pl = true -> long_bits pl = 64).

(** std::numeric_limits of the integer types. *)
Definition limits (pl : platform) (T : ctype) : option (Z * Z) :=
  match T with
  | Bool => Some (0, 1)
  | PlainChar => if char_signed pl then Some (-128, 127) else Some (0, 255)
  | SignedChar => Some (-128, 127)
  | UnsignedChar | U8Char => Some (0, 255)
  | WideChar => if wchar_bits pl =? 16 then Some (0, 65535)
                else if wchar_signed pl then Some (-2147483648, 2147483647) else Some (0, 4294967295)
  | U16Char | UnsignedShort => Some (0, 65535)
  | U32Char | UnsignedInt => Some (0, 4294967295)
  | Short => Some (-32768, 32767)
  | Int => Some (-2147483648, 2147483647)
  | Long => if long_bits pl =? 32 then Some (-2147483648, 2147483647) else Some (-9223372036854775808, 9223372036854775807)
  | UnsignedLong => if long_bits pl =? 32 then Some (0, 4294967295) else Some (0, 18446744073709551615)
  | LongLong => Some (-9223372036854775808, 9223372036854775807)
  | UnsignedLongLong => Some (0, 18446744073709551615)
  | Int128 => if int128_integral pl then Some (- 2 ^ 127, 2 ^ 127 - 1) else None
  | UnsignedInt128 => if int128_integral pl then Some (0, 2 ^ 128 - 1) else None
  | _ => None
  end.

Definition wide (T : ctype) : Prop := T = Int128 \/ T = UnsignedInt128.

(** The floating-point types the library supports, with their formats. *)
Definition float_destination (pl : platform) (T : ctype) : option format :=
  match T with
  | Float => Some binary32
  | Double => Some binary64
  | StdFloat16 => if stdcpp_float16_t pl then Some binary16 else None
  | StdFloat32 => if stdcpp_float32_t pl then Some binary32 else None
  | StdFloat64 => if stdcpp_float64_t pl then Some binary64 else None
  | StdBfloat16 => if stdcpp_bfloat16_t pl then Some bfloat16 else None
  | _ => None
  end.

(** The character types of texts. *)
Definition character (pl : platform) (UC : ctype) : Prop :=
  UC = PlainChar \/ UC = WideChar \/ UC = U16Char \/ UC = U32Char \/ (UC = U8Char /\ cpp_char8_t pl = true).

Definition number_argument (arg : last_argument) : Prop := exists X z, arg = NumberArgument X z.
Definition format_argument (arg : last_argument) : Prop := exists fmt, arg = FormatArgument fmt.

(** *** Traits *)
Lemma character_spec pl UC : is_supported_char_type pl UC = true <-> character pl UC.
Proof.
  unfold is_supported_char_type, character. destruct (cpp_char8_t pl); destruct UC; cbn; intuition (try discriminate; auto).
Qed.

Lemma float_spec pl T : is_supported_float_type pl T = match float_destination pl T with Some _ => true | None => false end.
Proof.
  destruct pl as [cs ws wb lb il i128 c8 f16 f32 f64 bf]. destruct T; cbn; try reflexivity; destruct f16, f32, f64, bf; reflexivity.
Qed.

Lemma integral_spec pl T : is_integral pl T = match limits pl T with Some _ => true | None => false end.
Proof.
  destruct T; cbn; try reflexivity.
  - destruct (char_signed pl); reflexivity.
  - destruct (wchar_bits pl =? 16), (wchar_signed pl); reflexivity.
  - destruct (long_bits pl =? 32); reflexivity.
  - destruct (long_bits pl =? 32); reflexivity.
  - destruct (int128_integral pl); reflexivity.
  - destruct (int128_integral pl); reflexivity.
Qed.

Lemma not_both pl T f : float_destination pl T = Some f -> limits pl T = None.
Proof. destruct T; cbn; congruence. Qed.

Lemma format_type_spec pl T f : float_destination pl T = Some f -> format_of (format_type T) = f.
Proof.
  destruct T; cbn; try discriminate; intros E; try (injection E as <-; reflexivity);
  match type of E with (if ?b then _ else _) = _ => destruct b end; try discriminate E; injection E as <-; reflexivity.
Qed.

Lemma limits_type pl T lo hi : usual pl -> limits pl T = Some (lo, hi) -> ~ wide T ->
  int_type (integer_type pl T) /\ (forall v, lo <= v <= hi <-> in_int_range (i_signed (integer_type pl T)) (i_bits (integer_type pl T)) v).
Proof.
  intros (W & LB & I6) L NW. destruct pl as [cs ws wb lb il i128 c8 f16 f32 f64 bf]. cbn in W, LB, I6.
  assert (BOTH : forall sg b, int_type {| i_signed := sg; i_bits := b; i_is_u8 := false; i_is_u16 := false; i_is_u64 := false |} <->
    (if sg then In b [8; 16; 32; 64] else In b [1; 8; 16; 32; 64])).
  { intros sg b. unfold int_type. cbn [i_signed i_bits i_is_u8 i_is_u16 i_is_u64]. intuition discriminate. }
  destruct T; cbn in L; try discriminate L; try (destruct NW; red; auto; fail).
  all: unfold integer_type, int_type, is_same; cbn [bits is_signed i_signed i_bits i_is_u8 i_is_u16 i_is_u64 char_signed wchar_signed wchar_bits long_bits uint64_t int64_long].
  all: try (destruct cs); try (destruct W as [-> |(-> & ->)]; [destruct ws|]); try (destruct LB as [-> | ->]); destruct il; try (specialize (I6 eq_refl); try discriminate I6).
  all: cbn in L; injection L as <- <-.
  all: split; [vm_compute; intuition discriminate|].
  all: intros v; unfold in_int_range; cbn [Z.sub Z.pow Z.pow_pos Pos.iter Z.mul Pos.mul Z.opp Z.add Z.pos_sub Pos.pred_double]; lia.
Qed.

(** *** from_chars *)

Lemma from_chars_select pl T arg :
  select (from_chars_candidates pl T arg) =
    match float_destination pl T, limits pl T, arg with
    | Some _, _, NumberArgument _ _ => NoViable
    | Some _, _, FormatArgument fmt => Selected (float_entry pl T fmt)
    | Some _, _, Omitted => Selected (float_entry pl T 5)
    | None, Some _, FormatArgument _ => NoViable
    | None, Some _, NumberArgument _ z => Selected (RunInt (integer_type pl T) (to_signed 32 z))
    | None, Some _, Omitted => Selected (RunInt (integer_type pl T) 10)
    | None, None, _ => NoViable
    end.
Proof.
  unfold select, from_chars_candidates, is_supported_integer_type. rewrite float_spec, integral_spec.
  destruct (float_destination pl T) as [f|] eqn:F.
  - rewrite (not_both pl T f F). destruct arg; reflexivity.
  - destruct (limits pl T) as [[lo hi]|]; destruct arg; reflexivity.
Qed.

(** C71: a call of from_chars compiles exactly if the text is of one of the character
    types and either the destination is a supported floating-point type and the last
    argument (if any) a format, or it is an integer type and the last argument a number.
    No call is ambiguous. *)
Theorem from_chars_compiles :
  forall (pl : platform) (c : cfg) (UC T : ctype) (arg : last_argument) (s : list Z),
  (exists r, call_from_chars pl c UC T arg s = Some r) <->
  character pl UC /\
  ((exists f, float_destination pl T = Some f) /\ ~ number_argument arg \/
   (exists l, limits pl T = Some l) /\ ~ format_argument arg).
Proof.
  intros pl c UC T arg s. rewrite <- character_spec. unfold call_from_chars, number_argument, format_argument.
  destruct (is_supported_char_type pl UC); [|split; [intros (r & E); discriminate E|intros (E & _); discriminate E]].
  rewrite from_chars_select. destruct (float_destination pl T) as [f|] eqn:F.
  - rewrite (not_both pl T f F). destruct arg as [|fmt|X z]; unfold float_entry.
    + destruct (_ || _); (split; [intros _; split; [reflexivity|left; split; [eauto|intros (X & z & E); discriminate E]]|intros _; eauto]).
    + destruct (_ || _); (split; [intros _; split; [reflexivity|left; split; [eauto|intros (X & z & E); discriminate E]]|intros _; eauto]).
    + split; [intros (r & E); discriminate E|]. intros (_ & [(_ & N)|((l & E) & _)]); [destruct N; eauto|discriminate E].
  - destruct (limits pl T) as [l|] eqn:L.
    + destruct arg as [|fmt|X z].
      * split; [intros _; split; [reflexivity|right; split; [eauto|intros (x & E); discriminate E]]|eauto].
      * split; [intros (r & E); discriminate E|]. intros (_ & [((f & E) & _)|(_ & N)]); [discriminate E|destruct N; eauto].
      * split; [intros _; split; [reflexivity|right; split; [eauto|intros (x & E); discriminate E]]|eauto].
    + split; [destruct arg; intros (r & E); discriminate E|]. intros (_ & [((f & E) & _)|((l & E) & _)]); discriminate E.
Qed.
Print Assumptions from_chars_compiles.

(** C71: every value of every integer type of at most 64 bits, printed in a base, is read
    back by the call with that base, or without one for base 10. *)
Theorem from_chars_any_integer_type :
  forall (pl : platform) (c : cfg) (UC T X : ctype) (upper : bool) (base v lo hi : Z),
  usual pl -> character pl UC -> limits pl T = Some (lo, hi) -> ~ wide T -> lo <= v <= hi -> 2 <= base <= 36 ->
  let read arg := call_from_chars pl c UC T arg (print_integer upper base v) in
  let back := Some (Ok {| r_ptr := []; r_ec := Success; r_value := Some v |}) in
  read (NumberArgument X base) = back /\ (base = 10 -> read Omitted = back).
Proof.
  intros pl c UC T X upper base v lo hi UP CH LI NW V B read back.
  destruct (limits_type pl T lo hi UP LI NW) as (IT & RG).
  assert (FD : float_destination pl T = None) by (destruct (float_destination pl T) eqn:F; [rewrite (not_both _ _ _ F) in LI; discriminate LI|reflexivity]).
  assert (RUN : forall b, b = base -> from_chars_int c (char_type pl UC) (integer_type pl T) (print_integer upper base v) b = Ok {| r_ptr := []; r_ec := Success; r_value := Some v |}).
  { intros b ->. unfold from_chars_int.
    pose proof (from_chars_printed_integer c (char_type pl UC) (integer_type pl T) {| o_format := f_general; o_decimal_point := 46; o_base := base |} upper v []) as P.
    cbn [o_base] in P. rewrite app_nil_r in P. apply P; [exact IT|exact B|apply RG; exact V| |exact I].
    assert (A : Forall (fun ch => 33 <= ch < 128) (print_integer upper base v)).
    { assert (D : forall n, 0 <= n -> Forall (fun ch => 33 <= ch < 128) (print_natural upper base n)).
      { intros n N. destruct (print_natural_spec upper base n B N) as (_ & D & _). eapply Forall_impl; [|exact D].
        intros ch (k & K & KB). unfold digit_of in K.
        repeat (match type of K with (if ?b then _ else _) = _ => destruct b eqn:?; [lia|] end). discriminate K. }
      unfold print_integer. destruct (Z.ltb_spec v 0); [constructor; [lia|]|]; apply D; lia. }
    split.
    - eapply Forall_impl; [|exact A]. intros ch H. cbv beta in H. apply ascii_code_unit. lia.
    - intros _ _. eapply Forall_impl; [|exact A]. intros ch H ?. cbv beta in H. lia. }
  unfold read, back, call_from_chars. rewrite (proj2 (character_spec pl UC) CH), !from_chars_select, FD, LI. split.
  - rewrite RUN; [reflexivity|]. apply to_signed_small; lia.
  - intros E. rewrite RUN; [reflexivity|lia].
Qed.
Print Assumptions from_chars_any_integer_type.

(** C71: a number read into any of the floating-point types, but std::float16_t
    (finding 2), is the nearest number of that type's format. *)
Theorem from_chars_any_float_type :
  forall (pl : platform) (c : cfg) (UC T : ctype) (arg : last_argument) (f : format) (s s0 : list Z)
         (neg : bool) (ip fp : list Z) (e : Z) (rest : list Z),
  character pl UC -> float_destination pl T = Some f -> f <> binary16 ->
  let fmt := match arg with FormatArgument fmt => fmt | _ => 5 end in
  let o := {| o_format := fmt; o_decimal_point := 46; o_base := 10 |} in
  ~ number_argument arg ->
  good_text c (char_type pl UC) o s -> starts_at c o s s0 ->
  number (rules_of c o) s0 neg ip fp e rest -> exponent_bounded s e ->
  exists b x,
    call_from_chars pl c UC T arg s = Some (Ok {| r_ptr := rest; r_ec := x; r_value := Some (with_sign f neg b) |}) /\
    nearest_even f (number_value ip fp e) b.
Proof.
  intros pl c UC T arg f s s0 neg ip fp e rest CH FD N16 fmt o NA G SA N EB.
  pose proof (format_type_spec pl T f FD) as FF.
  assert (NT : format_type T <> F16) by (intros E; rewrite E in FF; apply N16; rewrite <- FF; reflexivity).
  destruct (from_chars_correctly_rounded c (char_type pl UC) (format_type T) o s s0 neg ip fp e rest NT G SA N EB) as (b & x & E & R).
  rewrite FF in E, R. exists b, x. split; [|exact R].
  unfold call_from_chars. rewrite (proj2 (character_spec pl UC) CH), from_chars_select, FD.
  assert (RUN : match float_entry pl T fmt with
    | RunFloat t fmt => Some (from_chars_float c (char_type pl UC) t s fmt)
    | RunFixed t fmt => Some (from_chars_fixed_width c (char_type pl UC) t s fmt)
    | RunInt IT base => Some (from_chars_int c (char_type pl UC) IT s base)
    end = Some (Ok {| r_ptr := rest; r_ec := x; r_value := Some (with_sign f neg b) |})).
  { unfold float_entry. destruct (_ || _); [|unfold from_chars_float; fold o; rewrite E; reflexivity].
    unfold from_chars_fixed_width, from_chars_float. fold o. rewrite E. reflexivity. }
  destruct arg as [|g|X z]; [exact RUN|exact RUN|destruct NA; red; eauto].
Qed.
Print Assumptions from_chars_any_float_type.

(** from_chars_advanced compiles for the same types, and is what from_chars runs with the
    options that a format or a base stands for (through a local variable for
    std::float32_t and std::float64_t). *)
Theorem from_chars_advanced_any_type :
  forall (pl : platform) (c : cfg) (UC T : ctype) (s : list Z) (fmt base : Z),
  - 2 ^ 31 <= base < 2 ^ 31 ->
  let o f b := {| o_format := f; o_decimal_point := 46; o_base := b |} in
  ((exists r, call_from_chars_advanced pl c UC T (o fmt base) s = Some r) <->
   character pl UC /\ ((exists f, float_destination pl T = Some f) \/ (exists l, limits pl T = Some l))) /\
  (limits pl T <> None -> call_from_chars pl c UC T (NumberArgument Int base) s = call_from_chars_advanced pl c UC T (o 5 base) s) /\
  (limits pl T = None -> T <> StdFloat32 -> T <> StdFloat64 ->
     call_from_chars pl c UC T (FormatArgument fmt) s = call_from_chars_advanced pl c UC T (o fmt 10) s).
Proof.
  intros pl c UC T s fmt base B o. unfold call_from_chars_advanced, call_from_chars, is_supported_integer_type.
  rewrite !from_chars_select, float_spec, integral_spec. pose proof (character_spec pl UC) as CS.
  destruct (is_supported_char_type pl UC).
  2:{ split; [|split; [reflexivity|reflexivity]]. split; [intros (r & E); discriminate E|]. intros (C & _). apply CS in C. discriminate C. }
  destruct (float_destination pl T) as [f|] eqn:F.
  - pose proof (not_both pl T f F) as NB. rewrite NB. change (Z.b2z true + 2 * Z.b2z false) with 1. cbv iota.
    split; [split; [intros _; split; [apply CS; reflexivity|left; eauto]|eauto]|]. split; [intros X; destruct X; reflexivity|].
    intros _ N32 N64. unfold float_entry. assert (H : (stdcpp_float32_t pl && is_same T StdFloat32 || stdcpp_float64_t pl && is_same T StdFloat64) = false).
    { unfold is_same. destruct (ctype_dec T StdFloat32); [contradiction|]. destruct (ctype_dec T StdFloat64); [contradiction|].
      rewrite !andb_false_r. reflexivity. }
    rewrite H. reflexivity.
  - destruct (limits pl T) as [l|].
    + change (Z.b2z false + 2 * Z.b2z true) with 2. cbv iota.
      split; [split; [intros _; split; [apply CS; reflexivity|right; eauto]|eauto]|]. split; [|discriminate].
      intros _. unfold from_chars_int. rewrite to_signed_small by lia. reflexivity.
    + change (Z.b2z false + 2 * Z.b2z false) with 0. cbv iota. split; [|split; [intros X; destruct X; reflexivity|reflexivity]].
      split; [intros (r & E); discriminate E|]. intros (_ & [(f & E)|(l & E)]); discriminate E.
Qed.
Print Assumptions from_chars_advanced_any_type.

(** *** integer_times_pow10 *)

Lemma pow10_select pl X : select (pow10_candidates pl X) =
  if is_integral pl X then
    Selected (if is_same X (uint64_t pl) then Plain_u64 else if is_same X (int64_t pl) then Plain_s64
              else if is_signed pl X then Only_signed else Only_unsigned)
  else Ambiguous.
Proof.
  destruct pl as [cs ws wb lb il i128 c8 f16 f32 f64 bf]. unfold select, pow10_candidates, uint64_t, int64_t, rank, promoted.
  cbn [int64_long wchar_signed wchar_bits].
  destruct X; cbn [is_integral is_signed char_signed wchar_signed int128_integral]; destruct il; try reflexivity;
    try (destruct cs; reflexivity); try (destruct i128; reflexivity); destruct ws; cbn [negb andb]; try reflexivity; destruct (32 <=? wb); reflexivity.
Qed.

Lemma pow10_explicit_select pl T X : select (pow10_explicit_candidates pl T X) =
  if is_supported_float_type pl T then
    if is_integral pl X then
      Selected (if is_same X (uint64_t pl) then Fixed_u64 else if is_same X (int64_t pl) then Fixed_s64
                else if is_signed pl X then Deduced_signed else Deduced_unsigned)
    else Ambiguous
  else if is_integral pl T then Selected (if is_signed pl T then Only_signed else Only_unsigned) else NoViable.
Proof.
  unfold select, pow10_explicit_candidates. destruct (is_supported_float_type pl T) eqn:F.
  - assert (NI : is_integral pl T = false).
    { rewrite float_spec in F. rewrite integral_spec. destruct (float_destination pl T) eqn:D; [|discriminate F]. rewrite (not_both _ _ _ D). reflexivity. }
    rewrite NI. destruct pl as [cs ws wb lb il i128 c8 f16 f32 f64 bf]. unfold uint64_t, int64_t, rank, promoted.
    cbn [int64_long wchar_signed wchar_bits].
    destruct X; cbn [is_integral is_signed char_signed wchar_signed int128_integral]; destruct il; try reflexivity;
      try (destruct cs; reflexivity); try (destruct i128; reflexivity); destruct ws; cbn [negb andb]; try reflexivity; destruct (32 <=? wb); reflexivity.
  - destruct (is_integral pl T); [|reflexivity]. destruct (is_signed pl T); reflexivity.
Qed.

Lemma limits_64 pl X lo hi : usual pl -> limits pl X = Some (lo, hi) -> ~ wide X ->
  (if is_signed pl X then - 2 ^ 63 <= lo /\ hi < 2 ^ 63 else 0 <= lo /\ hi < 2 ^ 64).
Proof.
  intros (W & LB & I6) L NW. destruct X; cbn in L |- *; try discriminate L; try (destruct NW; red; auto; fail); try (injection L as <- <-; lia).
  - destruct (char_signed pl); injection L as <- <-; lia.
  - destruct W as [W|(W & S)]; rewrite W in L; [|rewrite S; cbn in L; injection L as <- <-; lia]. cbn in L. destruct (wchar_signed pl); injection L as <- <-; lia.
  - destruct (long_bits pl =? 32); injection L as <- <-; lia.
  - destruct (long_bits pl =? 32); injection L as <- <-; lia.
Qed.

Lemma run_pow10_correct pl c t k X x e : t <> F16 ->
  k = (if is_same X (uint64_t pl) then Plain_u64 else if is_same X (int64_t pl) then Plain_s64
       else if is_signed pl X then Only_signed else Only_unsigned) \/
  k = (if is_same X (uint64_t pl) then Fixed_u64 else if is_same X (int64_t pl) then Fixed_s64
       else if is_signed pl X then Deduced_signed else Deduced_unsigned) ->
  (if is_signed pl X then - 2 ^ 63 < x < 2 ^ 63 else 0 <= x < 2 ^ 64) ->
  exists b, run_pow10 pl c t k x e = Ok (with_sign (format_of t) (x <? 0) b) /\ nearest_even (format_of t) (decimal (Z.abs x) e) b.
Proof.
  intros N K R. pose proof (integer_times_pow10_other_types c t (is_signed pl X) x e N R) as H.
  assert (E : run_pow10 pl c t k x e = integer_times_pow10_any c t (is_signed pl X) x e).
  { unfold integer_times_pow10_any. unfold is_same in K. destruct (ctype_dec X (uint64_t pl)) as [EX|].
    - assert (SG : is_signed pl X = false) by (rewrite EX; unfold uint64_t; destruct (int64_long pl); reflexivity).
      rewrite SG. destruct K as [-> | ->]; reflexivity.
    - destruct (ctype_dec X (int64_t pl)) as [EX|].
      + assert (SG : is_signed pl X = true) by (rewrite EX; unfold int64_t; destruct (int64_long pl); reflexivity).
        rewrite SG. destruct K as [-> | ->]; reflexivity.
      + destruct (is_signed pl X); destruct K as [-> | ->]; reflexivity. }
  rewrite E. exact H.
Qed.

(** C71: integer_times_pow10 takes a value of every integer type of at most 64 bits
    without ambiguity and multiplies that value (INT64_MIN excepted, finding 4), as
    double or as the type named. *)
Theorem integer_times_pow10_any_type_partial :
  forall (pl : platform) (c : cfg) (X : ctype) (x e lo hi : Z),
  usual pl -> limits pl X = Some (lo, hi) -> ~ wide X -> lo <= x <= hi -> x <> - 2 ^ 63 ->
  (exists b, call_pow10 pl c X x e = Some (Ok (with_sign binary64 (x <? 0) b)) /\ nearest_even binary64 (decimal (Z.abs x) e) b) /\
  (forall T f, float_destination pl T = Some f -> f <> binary16 ->
   exists b, call_pow10_explicit pl c T X x e = Some (Ok (with_sign f (x <? 0) b)) /\ nearest_even f (decimal (Z.abs x) e) b).
Proof.
  intros pl c X x e lo hi UP L NW R NM. pose proof (limits_64 pl X lo hi UP L NW) as L64.
  assert (RX : if is_signed pl X then - 2 ^ 63 < x < 2 ^ 63 else 0 <= x < 2 ^ 64) by (destruct (is_signed pl X); lia).
  assert (II : is_integral pl X = true) by (rewrite integral_spec, L; reflexivity).
  split.
  - unfold call_pow10. rewrite pow10_select, II.
    destruct (run_pow10_correct pl c F64 _ X x e ltac:(discriminate) (or_introl eq_refl) RX) as (b & E & N).
    change (format_of F64) with binary64 in E, N. exists b. split; [rewrite <- E; reflexivity|exact N].
  - intros T f FD N16. pose proof (format_type_spec pl T f FD) as FF.
    assert (NT : format_type T <> F16) by (intros E; rewrite E in FF; apply N16; rewrite <- FF; reflexivity).
    unfold call_pow10_explicit. rewrite pow10_explicit_select, float_spec, FD, II.
    destruct (run_pow10_correct pl c (format_type T) _ X x e NT (or_intror eq_refl) RX) as (b & E & N).
    rewrite FF in E, N. exists b. split; [|exact N]. rewrite <- E.
    destruct (is_same X (uint64_t pl)); [reflexivity|]. destruct (is_same X (int64_t pl)); [reflexivity|]. destruct (is_signed pl X); reflexivity.
Qed.
Print Assumptions integer_times_pow10_any_type_partial.

(** Named with an integer type, the argument is converted to that type first; with an
    argument that is no integer, the call does not compile. *)
Theorem integer_times_pow10_other_calls :
  forall (pl : platform) (c : cfg) (T X : ctype) (x e : Z),
  (limits pl T <> None -> limits pl X <> None -> call_pow10_explicit pl c T X x e = call_pow10 pl c T (converted pl T x) e) /\
  (limits pl X = None -> call_pow10 pl c X x e = None /\ (forall f, float_destination pl T = Some f -> call_pow10_explicit pl c T X x e = None)) /\
  (limits pl T = None -> float_destination pl T = None -> call_pow10_explicit pl c T X x e = None).
Proof.
  intros pl c T X x e. unfold call_pow10, call_pow10_explicit. rewrite !pow10_select, pow10_explicit_select, !integral_spec, float_spec. split; [|split].
  - intros LT LX. destruct (float_destination pl T) as [f|] eqn:F; [rewrite (not_both _ _ _ F) in LT; destruct LT; reflexivity|].
    destruct (limits pl T); [|destruct LT; reflexivity]. unfold is_same.
    destruct (ctype_dec T (uint64_t pl)) as [EX|].
    { assert (SG : is_signed pl T = false) by (rewrite EX; unfold uint64_t; destruct (int64_long pl); reflexivity). rewrite SG. reflexivity. }
    destruct (ctype_dec T (int64_t pl)) as [EX|].
    { assert (SG : is_signed pl T = true) by (rewrite EX; unfold int64_t; destruct (int64_long pl); reflexivity). rewrite SG. reflexivity. }
    destruct (is_signed pl T); reflexivity.
  - intros LX. rewrite LX. split; [reflexivity|]. intros f ->. reflexivity.
  - intros -> ->. reflexivity.
Qed.
Print Assumptions integer_times_pow10_other_calls.

(** The code units of a text are the values of its character type. *)
Theorem code_units_of_any_character_type :
  forall (pl : platform) (UC : ctype) (lo hi : Z), usual pl -> character pl UC -> limits pl UC = Some (lo, hi) ->
  forall ch : Z, code_unit (char_type pl UC) ch <-> lo <= ch <= hi.
Proof.
  intros [cs ws wb lb il ii c8 f16 f32 f64 b16] UC lo hi (W & L & I) CH LIM ch. unfold code_unit. cbn in *.
  destruct CH as [-> | [-> | [-> | [-> | [-> _]]]]]; cbn in LIM |- *.
  - destruct cs; injection LIM as <- <-; cbn; lia.
  - destruct W as [-> | [-> ->]]; cbn in LIM |- *; [destruct ws|]; injection LIM as <- <-; cbn; lia.
  - injection LIM as <- <-; cbn; lia.
  - injection LIM as <- <-; cbn; lia.
  - injection LIM as <- <-; cbn; lia.
Qed.
Print Assumptions code_units_of_any_character_type.

(** The argument of integer_times_pow10<T>, converted to [T]: to bool, whether it is not
    zero; to another type, the value of that type that is congruent to it. *)
Theorem conversion_of_arguments :
  forall (pl : platform) (T : ctype) (lo hi x : Z), usual pl -> limits pl T = Some (lo, hi) ->
  lo <= converted pl T x <= hi /\
  (lo <= x <= hi -> converted pl T x = x) /\
  (T = Bool -> (converted pl T x = 0 <-> x = 0)) /\
  (T <> Bool -> exists k : Z, converted pl T x = x + k * (hi - lo + 1)).
Proof.
  assert (MOD : forall n y, 0 < n -> 0 <= y mod n <= n - 1 /\ (0 <= y <= n - 1 -> y mod n = y) /\ exists k, y mod n = y + k * n).
  { intros n y N. pose proof (Z.mod_pos_bound y n N). split; [lia|]. split; [intros R; apply Z.mod_small; lia|].
    exists (- (y / n)). pose proof (Z.div_mod y n ltac:(lia)). lia. }
  assert (SGN : forall n y, 0 < n -> - 2 ^ (n - 1) <= to_signed n y <= 2 ^ (n - 1) - 1 /\
            (- 2 ^ (n - 1) <= y <= 2 ^ (n - 1) - 1 -> to_signed n y = y) /\ exists k, to_signed n y = y + k * 2 ^ n).
  { intros n y N. assert (P : 2 ^ n = 2 * 2 ^ (n - 1)) by (rewrite <- Z.pow_succ_r by lia; f_equal; lia).
    assert (P0 : 0 < 2 ^ (n - 1)) by (apply Z.pow_pos_nonneg; lia).
    destruct (MOD (2 ^ n) y ltac:(lia)) as (B & _ & k & K). unfold to_signed.
    pose proof (Z.div_mod y (2 ^ n) ltac:(lia)).
    assert (SMALL : - 2 ^ (n - 1) <= y <= 2 ^ (n - 1) - 1 -> y mod 2 ^ n = y \/ y mod 2 ^ n = y + 2 ^ n /\ y < 0).
    { intros R. destruct (Z_lt_dec y 0).
      - right. split; [|lia]. symmetry. apply Z.mod_unique_pos with (q := -1); lia.
      - left. apply Z.mod_small. lia. }
    cbv zeta.
    destruct (y mod 2 ^ n <? 2 ^ (n - 1)) eqn:C; [apply Z.ltb_lt in C | apply Z.ltb_ge in C].
    - split; [lia|]. split; [intros R; destruct (SMALL R) as [|[]]; lia | exists k; exact K].
    - split; [lia|]. split; [intros R; destruct (SMALL R) as [|[]]; lia | exists (k - 1); lia]. }
  intros [cs ws wb lb il ii c8 f16 f32 f64 b16] T lo hi x (W & L & I) LIM. cbn in *.
  assert (BOOL : T = Bool \/ T <> Bool) by (destruct T; (left; reflexivity) || (right; discriminate)).
  destruct BOOL as [-> | NB].
  { injection LIM as <- <-. cbn. destruct (x =? 0) eqn:Z0; [apply Z.eqb_eq in Z0 | apply Z.eqb_neq in Z0]; repeat split; try lia; intros; try congruence; lia. }
  enough (G : exists n, 0 < n /\ ((lo = 0 /\ hi = 2 ^ n - 1 /\ converted {| char_signed := cs; wchar_signed := ws; wchar_bits := wb; long_bits := lb;
      int64_long := il; int128_integral := ii; cpp_char8_t := c8; stdcpp_float16_t := f16; stdcpp_float32_t := f32; stdcpp_float64_t := f64; stdcpp_bfloat16_t := b16 |} T x = x mod 2 ^ n)
      \/ (lo = - 2 ^ (n - 1) /\ hi = 2 ^ (n - 1) - 1 /\ converted {| char_signed := cs; wchar_signed := ws; wchar_bits := wb; long_bits := lb;
      int64_long := il; int128_integral := ii; cpp_char8_t := c8; stdcpp_float16_t := f16; stdcpp_float32_t := f32; stdcpp_float64_t := f64; stdcpp_bfloat16_t := b16 |} T x = to_signed n x))).
  { destruct G as (n & N & [(-> & -> & ->) | (-> & -> & ->)]).
    - assert (P : 0 < 2 ^ n) by (apply Z.pow_pos_nonneg; lia). destruct (MOD (2 ^ n) x P) as (B & S & k & K).
      split; [exact B|]. split; [exact S|]. split; [congruence|]. intros _. exists k. rewrite K. f_equal. f_equal. lia.
    - destruct (SGN n x N) as (B & S & k & K). split; [exact B|]. split; [exact S|]. split; [congruence|]. intros _. exists k. rewrite K. f_equal. f_equal.
      replace n with (Z.succ (n - 1)) at 1 by lia. rewrite Z.pow_succ_r by lia. lia. }
  destruct T; cbn in LIM |- *; try discriminate; try congruence;
    repeat match type of LIM with
    | context [cs] => destruct cs
    | context [ii] => destruct ii
    end; try discriminate LIM;
    try (exists 8; cbn in LIM; injection LIM as <- <-; split; [lia|]; (left; now repeat split) || (right; now repeat split));
    try (exists 16; cbn in LIM; injection LIM as <- <-; split; [lia|]; (left; now repeat split) || (right; now repeat split));
    try (exists 32; cbn in LIM; injection LIM as <- <-; split; [lia|]; (left; now repeat split) || (right; now repeat split));
    try (exists 64; cbn in LIM; injection LIM as <- <-; split; [lia|]; (left; now repeat split) || (right; now repeat split));
    try (exists 128; cbn in LIM; injection LIM as <- <-; split; [lia|]; (left; now repeat split) || (right; now repeat split)).
  - destruct W as [-> | [-> ->]]; cbn in LIM; [destruct ws; injection LIM as <- <-; exists 32; (split; [lia|]) |].
    + right; now repeat split.
    + left; now repeat split.
    + injection LIM as <- <-. exists 16. split; [lia|]. left; now repeat split.
  - destruct L as [-> | ->]; cbn in LIM; injection LIM as <- <-; [exists 32|exists 64]; (split; [lia|]); right; now repeat split.
  - destruct L as [-> | ->]; cbn in LIM; injection LIM as <- <-; [exists 32|exists 64]; (split; [lia|]); left; now repeat split.
Qed.
Print Assumptions conversion_of_arguments.

(** The ranks of the conversions: the type itself is an exact match; another type is a
    promotion if it is int, where int holds all values of a type of less rank, or
    unsigned int, where int does not and unsigned int does; double from float; every
    other conversion is the least preferred. *)
Definition smaller (T : ctype) : Prop :=
  T = Bool \/ T = PlainChar \/ T = SignedChar \/ T = UnsignedChar \/ T = WideChar \/ T = U8Char \/ T = U16Char \/ T = U32Char \/
  T = Short \/ T = UnsignedShort.
Definition fits (pl : platform) (T T' : ctype) : Prop :=
  exists lo hi lo' hi' : Z, limits pl T = Some (lo, hi) /\ limits pl T' = Some (lo', hi') /\ lo' <= lo /\ hi <= hi'.
Definition promotes (pl : platform) (from to : ctype) : Prop :=
  (smaller from /\ fits pl from Int /\ to = Int) \/
  (smaller from /\ ~ fits pl from Int /\ fits pl from UnsignedInt /\ to = UnsignedInt) \/
  (from = Float /\ to = Double).

Theorem ranks_of_conversions :
  forall (pl : platform) (from to : ctype), usual pl ->
  (rank pl from to = 0 <-> from = to) /\
  (rank pl from to = 1 <-> promotes pl from to) /\
  (rank pl from to = 2 <-> from <> to /\ ~ promotes pl from to).
Proof.
  intros pl from to U.
  assert (PR : promotes pl from to <-> promoted pl from = to /\ from <> to).
  { unfold promotes. destruct pl as [cs ws wb lb il ii c8 f16 f32 f64 b16]. destruct U as (W & _ & _). cbn in W.
    assert (FI : forall T lo hi, limits {| char_signed := cs; wchar_signed := ws; wchar_bits := wb; long_bits := lb;
      int64_long := il; int128_integral := ii; cpp_char8_t := c8; stdcpp_float16_t := f16; stdcpp_float32_t := f32; stdcpp_float64_t := f64; stdcpp_bfloat16_t := b16 |} T = Some (lo, hi) ->
      (fits {| char_signed := cs; wchar_signed := ws; wchar_bits := wb; long_bits := lb;
      int64_long := il; int128_integral := ii; cpp_char8_t := c8; stdcpp_float16_t := f16; stdcpp_float32_t := f32; stdcpp_float64_t := f64; stdcpp_bfloat16_t := b16 |} T Int <-> -2147483648 <= lo /\ hi <= 2147483647) /\
      (fits {| char_signed := cs; wchar_signed := ws; wchar_bits := wb; long_bits := lb;
      int64_long := il; int128_integral := ii; cpp_char8_t := c8; stdcpp_float16_t := f16; stdcpp_float32_t := f32; stdcpp_float64_t := f64; stdcpp_bfloat16_t := b16 |} T UnsignedInt <-> 0 <= lo /\ hi <= 4294967295)).
    { intros T lo hi E. unfold fits. rewrite E. cbn. split; (split; [intros (a & b & a' & b' & E1 & E2 & ?); injection E1 as -> ->; injection E2 as <- <-; lia
        | intros; eexists _, _, _, _; split; [reflexivity|]; split; [reflexivity|]; lia]). }
    assert (CASES : smaller from \/ from = Float \/ (~ smaller from /\ from <> Float /\ forall pl0, promoted pl0 from = from)).
    { unfold smaller. destruct from; auto 12; right; right; (split; [intros H; repeat destruct H as [H | H]; discriminate | split; [discriminate | reflexivity]]). }
    assert (NS : smaller from -> from <> Int /\ from <> UnsignedInt /\ from <> Float).
    { intros H. unfold smaller in H. repeat destruct H as [-> | H]; try subst; repeat split; discriminate. }
    destruct CASES as [S | [-> | (S & F & E)]].
    - destruct (NS S) as (N1 & N2 & N3).
      assert (G : exists lo hi, limits {| char_signed := cs; wchar_signed := ws; wchar_bits := wb; long_bits := lb;
        int64_long := il; int128_integral := ii; cpp_char8_t := c8; stdcpp_float16_t := f16; stdcpp_float32_t := f32; stdcpp_float64_t := f64; stdcpp_bfloat16_t := b16 |} from = Some (lo, hi) /\
        ((-2147483648 <= lo /\ hi <= 2147483647) /\ promoted {| char_signed := cs; wchar_signed := ws; wchar_bits := wb; long_bits := lb;
        int64_long := il; int128_integral := ii; cpp_char8_t := c8; stdcpp_float16_t := f16; stdcpp_float32_t := f32; stdcpp_float64_t := f64; stdcpp_bfloat16_t := b16 |} from = Int \/
        (2147483647 < hi /\ 0 <= lo /\ hi <= 4294967295) /\ promoted {| char_signed := cs; wchar_signed := ws; wchar_bits := wb; long_bits := lb;
        int64_long := il; int128_integral := ii; cpp_char8_t := c8; stdcpp_float16_t := f16; stdcpp_float32_t := f32; stdcpp_float64_t := f64; stdcpp_bfloat16_t := b16 |} from = UnsignedInt)).
      { destruct S as [-> | [-> | [-> | [-> | [-> | [-> | [-> | [-> | [-> | ->]]]]]]]]]; cbn;
          try (eexists _, _; split; [reflexivity|]; ((left; split; [lia|reflexivity]) || (right; split; [lia|reflexivity]))).
        - destruct cs; eexists _, _; (split; [reflexivity|]); left; (split; [lia|reflexivity]).
        - destruct W as [-> | [-> ->]]; cbn; [destruct ws; cbn|]; eexists _, _; (split; [reflexivity|]); ((left; split; [lia|reflexivity]) || (right; split; [lia|reflexivity])). }
      destruct G as (lo & hi & E & G). destruct (FI from lo hi E) as [F1 F2]. clear FI E.
      destruct G as [[B ->] | [B ->]].
      + split; [intros [(_ & _ & ->) | [(_ & NF & _) | (-> & _)]]; [split; congruence | destruct NF; apply F1, B | congruence] | intros [<- _]; left; split; [exact S | split; [apply F1, B | reflexivity]]].
      + split; [intros [(_ & NF & ->) | [(_ & NF & _ & ->) | (-> & _)]]; [apply F1 in NF; lia | split; congruence | congruence] |].
        intros [<- _]. right. left. split; [exact S|]. split; [intros Q; apply F1 in Q; lia|]. split; [apply F2; lia | reflexivity].
    - split; [intros [(S & _) | [(S & _) | (_ & ->)]]; [destruct (NS S) as (_ & _ & []); reflexivity | destruct (NS S) as (_ & _ & []); reflexivity | split; [reflexivity | discriminate]] |].
      intros [<- _]. right. right. split; reflexivity.
    - split; [intros [(Q & _) | [(Q & _) | (Q & _)]]; [destruct (S Q) | destruct (S Q) | destruct (F Q)] |]. intros [Q N]. rewrite E in Q. destruct (N Q). }
  unfold rank, is_same. destruct (ctype_dec from to) as [-> | N]; [|destruct (ctype_dec (promoted pl from) to) as [P | P]].
  - rewrite PR. repeat split; try congruence; try lia; try (intros [_ []]; reflexivity); intros []; congruence.
  - assert (promotes pl from to) by (apply PR; split; assumption). repeat split; try congruence; try lia; tauto.
  - assert (~ promotes pl from to) by (intros Q; apply PR in Q; destruct Q; contradiction). repeat split; try congruence; try lia; try tauto.
Qed.
Print Assumptions ranks_of_conversions.

(** Linux on x86-64 with -std=gnu++23. *)
Definition linux_x86_64 : platform :=
  {| char_signed := true; wchar_signed := true; wchar_bits := 32; long_bits := 64; int64_long := true; int128_integral := true;
     cpp_char8_t := true; stdcpp_float16_t := true; stdcpp_float32_t := true; stdcpp_float64_t := true; stdcpp_bfloat16_t := true |}.

(** A value of a 128-bit type (integral with -std=gnu++) is reduced modulo 2^64 without
    notice: 2^64 becomes 0. *)
Theorem integer_times_pow10_any_type_refuted :
  limits linux_x86_64 UnsignedInt128 = Some (0, 2 ^ 128 - 1) /\
  call_pow10 linux_x86_64 cfg_x86_64 UnsignedInt128 (2 ^ 64) 0 = Some (Ok 0) /\
  nearest_even binary64 (decimal (2 ^ 64) 0) 4895412794951729152.
Proof.
  split; [reflexivity|]. split; [vm_compute; reflexivity|].
  eapply Pow10.nearest_even_comp; [|exact (magnitude_nearest F64 4895412794951729152 ltac:(vm_compute; split; discriminate))]. reflexivity.
Qed.
Print Assumptions integer_times_pow10_any_type_refuted.

(** The hypotheses are met: a bool, a short in base 16, unsigned long long on Windows,
    and -7 of type signed char times 10^-3. *)
Example overload_examples :
  usual linux_x86_64 /\
  call_from_chars linux_x86_64 cfg_x86_64 U8Char Bool Omitted [49] = Some (Ok {| r_ptr := []; r_ec := Success; r_value := Some 1 |}) /\
  call_from_chars linux_x86_64 cfg_x86_64 WideChar Short (NumberArgument UnsignedLong 16) [45; 56; 48; 48; 48] = Some (Ok {| r_ptr := []; r_ec := Success; r_value := Some (-32768) |}) /\
  call_from_chars linux_x86_64 cfg_x86_64 PlainChar Double (NumberArgument Int 10) [49] = None /\
  call_from_chars linux_x86_64 cfg_x86_64 PlainChar LongDouble Omitted [49] = None /\
  call_from_chars linux_x86_64 cfg_x86_64 SignedChar Double Omitted [49] = None /\
  call_pow10_explicit linux_x86_64 cfg_x86_64 StdFloat32 SignedChar (-7) (-3) = Some (Ok (with_sign binary32 true 1004888130)) /\
  call_pow10 linux_x86_64 cfg_x86_64 Double 1 0 = None.
Proof. split; [repeat split; auto|]. vm_compute. repeat split. Qed.
