(** Properties C13, C14, C23, C24, C28: the result as a function of the text
    and the options alone, for all lengths and exponents.
    Statements use the entry point, SpecFloat, SpecGrammar and SpecApi only. *)
From Verif Require Import Machine Config Chars Format ParseNumber DecToBin FromChars WordLemmas
  Rounding ComputeFloat SpecFloat FloatBridge SpecGrammar SpecApi Scan ParseSpec Special
  SlowPath ManyDigits Saturate FloatMaster FloatApi Props_Pow10 Props_Float.
From Coq Require Import QArith Lqa.
Open Scope Z_scope.

(** ** C13: the build does not matter.  The two builds may differ in everything
    but the two macros that change the accepted language. *)
Theorem from_chars_config_independent :
  forall (c1 c2 : cfg) (u : uc) (t : ftype) (o : options) (s : list Z),
  t <> F16 ->
  macro_leading_plus c1 = macro_leading_plus c2 -> macro_skip_ws c1 = macro_skip_ws c2 ->
  good_text c1 u o s ->
  exists r, from_chars_float_advanced c1 u t s o = Ok r /\ from_chars_float_advanced c2 u t s o = Ok r.
Proof.
  intros c1 c2 u t o s NT M1 M2 G.
  assert (SK : skips_space c1 o = skips_space c2 o) by (unfold skips_space; rewrite M2; reflexivity).
  assert (G2 : good_text c2 u o s) by (unfold good_text in *; rewrite <- SK; exact G).
  destruct (starts_exists c1 o s) as (s0 & S1).
  assert (S2 : starts_at c2 o s s0) by (unfold starts_at in *; rewrite <- SK; exact S1).
  destruct (float_det c1 u c2 u t o s s s0 G G2) as (r1 & r2 & E1 & E2 & _ & _ & EQ & _); auto.
  - unfold rules_of. rewrite M1. reflexivity.
  - exists r1. split; [exact E1|]. rewrite (EQ NT). exact E2.
Qed.
Print Assumptions from_chars_config_independent.

(** float16: end and value agree; the error code is only the same where
    C06 has no exception. *)
Theorem from_chars_float16_config_partial :
  forall (c1 c2 : cfg) (u : uc) (o : options) (s : list Z),
  macro_leading_plus c1 = macro_leading_plus c2 -> macro_skip_ws c1 = macro_skip_ws c2 ->
  good_text c1 u o s ->
  exists r1 r2, from_chars_float_advanced c1 u F16 s o = Ok r1 /\
    from_chars_float_advanced c2 u F16 s o = Ok r2 /\ r_ptr r1 = r_ptr r2 /\ r_value r1 = r_value r2.
Proof.
  intros c1 c2 u o s M1 M2 G.
  assert (SK : skips_space c1 o = skips_space c2 o) by (unfold skips_space; rewrite M2; reflexivity).
  assert (G2 : good_text c2 u o s) by (unfold good_text in *; rewrite <- SK; exact G).
  destruct (starts_exists c1 o s) as (s0 & S1).
  assert (S2 : starts_at c2 o s s0) by (unfold starts_at in *; rewrite <- SK; exact S1).
  destruct (float_det c1 u c2 u F16 o s s s0 G G2) as (r1 & r2 & E1 & E2 & P & V & _); auto.
  - unfold rules_of. rewrite M1. reflexivity.
  - exists r1, r2. auto.
Qed.
Print Assumptions from_chars_float16_config_partial.

(** Exactly: for float16 too nothing but the use of floating-point arithmetic
    can matter. *)
Theorem from_chars_config_exact :
  forall (c1 c2 : cfg) (u : uc) (t : ftype) (o : options) (s : list Z),
  macro_leading_plus c1 = macro_leading_plus c2 -> macro_skip_ws c1 = macro_skip_ws c2 ->
  (direct_arithmetic c1 <-> direct_arithmetic c2) ->
  good_text c1 u o s ->
  exists r, from_chars_float_advanced c1 u t s o = Ok r /\ from_chars_float_advanced c2 u t s o = Ok r.
Proof.
  intros c1 c2 u t o s M1 M2 DA G.
  assert (SK : skips_space c1 o = skips_space c2 o) by (unfold skips_space; rewrite M2; reflexivity).
  assert (G2 : good_text c2 u o s) by (unfold good_text in *; rewrite <- SK; exact G).
  destruct (starts_exists c1 o s) as (s0 & S1).
  assert (S2 : starts_at c2 o s s0) by (unfold starts_at in *; rewrite <- SK; exact S1).
  destruct (float_det c1 u c2 u t o s s s0 G G2) as (r1 & r2 & E1 & E2 & _ & _ & _ & EQ); auto.
  - unfold rules_of. rewrite M1. reflexivity.
  - exists r1. split; [exact E1|]. rewrite (EQ DA). exact E2.
Qed.
Print Assumptions from_chars_config_exact.

(** Two very different machines and a text of 22 characters. *)
Definition cfg_other : cfg :=
  {| in_constexpr := false; big_endian := true; is_clang := true; is_32bit := true;
     sparc := true; int128 := false; clz_builtin := false;
     add_overflow_builtin := false; simd := NoSimd; eval := Eval2; half_in_float := false; rmode := Downward; flush := true;
     macro_leading_plus := false; macro_skip_ws := false; asserts := true |}.
Example config_example :
  macro_leading_plus cfg_other = macro_leading_plus cfg_x86_64 /\ macro_skip_ws cfg_other = macro_skip_ws cfg_x86_64 /\
  good_text cfg_other Char_s general text_2_98 /\ ~ direct_arithmetic cfg_other /\ direct_arithmetic cfg_x86_64 /\
  from_chars_float_advanced cfg_other Char_s F64 text_2_98 general =
    Ok {| r_ptr := []; r_ec := Success; r_value := Some (998 * 2 ^ 52) |}.
Proof.
  split; [reflexivity|]. split; [reflexivity|]. split; [exact good_2_98|]. split; [intros (_ & H & _); discriminate H|].
  split; [split; [reflexivity|split; [reflexivity|left; reflexivity]]|]. vm_compute. reflexivity.
Qed.

(** The same build, at compile time. *)
Definition at_compile_time (c : cfg) : cfg :=
  {| in_constexpr := true; big_endian := big_endian c; is_clang := is_clang c; is_32bit := is_32bit c;
     sparc := sparc c; int128 := int128 c; clz_builtin := clz_builtin c;
     add_overflow_builtin := add_overflow_builtin c; simd := simd c; eval := eval c; half_in_float := half_in_float c; rmode := rmode c; flush := flush c;
     macro_leading_plus := macro_leading_plus c; macro_skip_ws := macro_skip_ws c; asserts := asserts c |}.

(** The same build, in a thread with another rounding direction. *)
Definition in_mode (m : rounding) (c : cfg) : cfg :=
  {| in_constexpr := in_constexpr c; big_endian := big_endian c; is_clang := is_clang c; is_32bit := is_32bit c;
     sparc := sparc c; int128 := int128 c; clz_builtin := clz_builtin c;
     add_overflow_builtin := add_overflow_builtin c; simd := simd c; eval := eval c; half_in_float := half_in_float c; rmode := m; flush := flush c;
     macro_leading_plus := macro_leading_plus c; macro_skip_ws := macro_skip_ws c; asserts := asserts c |}.

(** The same build, with FASTFLOAT_ASSERT and FASTFLOAT_DEBUG_ASSERT defined to
    stop the program. *)
Definition with_assertions (c : cfg) : cfg :=
  {| in_constexpr := in_constexpr c; big_endian := big_endian c; is_clang := is_clang c; is_32bit := is_32bit c;
     sparc := sparc c; int128 := int128 c; clz_builtin := clz_builtin c;
     add_overflow_builtin := add_overflow_builtin c; simd := simd c; eval := eval c; half_in_float := half_in_float c; rmode := rmode c; flush := flush c;
     macro_leading_plus := macro_leading_plus c; macro_skip_ws := macro_skip_ws c; asserts := true |}.

(** ** C49: no assertion of the library ever fails: a stopped program would be
    [UB] in the model, and the results are those of a build without. *)
Theorem assertions_never_fail :
  forall (c : cfg) (u : uc) (t : ftype) (o : options) (s : list Z),
  good_text c u o s ->
  exists r, from_chars_float_advanced (with_assertions c) u t s o = Ok r /\
    from_chars_float_advanced c u t s o = Ok r.
Proof.
  intros c u t o s G.
  refine (from_chars_config_exact (with_assertions c) c u t o s eq_refl eq_refl (iff_refl _) _). exact G.
Qed.
Print Assumptions assertions_never_fail.

(** The assertions are reached: 2^53 + 1 followed by 800 zeros and a 1 needs the
    big integers. *)
Definition many_zeros_text : list Z :=
  [57;48;48;55;49;57;57;50;53;52;55;52;48;57;57;51;46] ++ repeat 48 800 ++ [49].
Example assertions_reached :
  from_chars_float_advanced (with_assertions cfg_x86_64) Char_s F64 many_zeros_text general =
    Ok {| r_ptr := []; r_ec := Success; r_value := Some 4845873199050653697 |}.
Proof. vm_compute. reflexivity. Qed.

(** The remaining float16 case is false: "7e4" is a success at run time and
    out of range at compile time. *)
Theorem from_chars_float16_config_refuted :
  good_text cfg_x86_64 Char_s general text_7e4 /\
  from_chars_float_advanced cfg_x86_64 Char_s F16 text_7e4 general =
    Ok {| r_ptr := []; r_ec := Success; r_value := Some (infinity binary16) |} /\
  from_chars_float_advanced (at_compile_time cfg_x86_64) Char_s F16 text_7e4 general =
    Ok {| r_ptr := []; r_ec := OutOfRange; r_value := Some (infinity binary16) |}.
Proof. split; [exact good_7e4|]. split; vm_compute; reflexivity. Qed.
Print Assumptions from_chars_float16_config_refuted.

(** ** C14: the rounding direction does not matter *)
Theorem from_chars_mode_independent :
  forall (m : rounding) (c : cfg) (u : uc) (t : ftype) (o : options) (s : list Z),
  t <> F16 -> good_text c u o s ->
  from_chars_float_advanced (in_mode m c) u t s o = from_chars_float_advanced c u t s o.
Proof.
  intros m c u t o s NT G.
  destruct (from_chars_config_independent c (in_mode m c) u t o s NT eq_refl eq_refl G) as (r & -> & ->).
  reflexivity.
Qed.
Print Assumptions from_chars_mode_independent.

Example mode_example :
  good_text cfg_x86_64 Char_s general text_2_98 /\
  from_chars_float_advanced (in_mode Upward cfg_x86_64) Char_s F32 text_2_98 general =
    Ok {| r_ptr := []; r_ec := Success; r_value := Some (102 * 2 ^ 23) |}.
Proof. split; [exact good_2_98|]. vm_compute. reflexivity. Qed.

(** The same build, in a thread whose denormals-are-zero and flush-to-zero modes
    are on or off. *)
Definition in_flush_mode (b : bool) (c : cfg) : cfg :=
  {| in_constexpr := in_constexpr c; big_endian := big_endian c; is_clang := is_clang c; is_32bit := is_32bit c;
     sparc := sparc c; int128 := int128 c; clz_builtin := clz_builtin c;
     add_overflow_builtin := add_overflow_builtin c; simd := simd c; eval := eval c; half_in_float := half_in_float c; rmode := rmode c; flush := b;
     macro_leading_plus := macro_leading_plus c; macro_skip_ws := macro_skip_ws c; asserts := asserts c |}.

(** Neither do these modes, for any type: subnormal results are delivered. *)
Theorem from_chars_flush_independent :
  forall (b : bool) (c : cfg) (u : uc) (t : ftype) (o : options) (s : list Z),
  good_text c u o s ->
  exists r, from_chars_float_advanced (in_flush_mode b c) u t s o = Ok r /\
    from_chars_float_advanced c u t s o = Ok r.
Proof.
  intros b c u t o s G.
  refine (from_chars_config_exact (in_flush_mode b c) c u t o s eq_refl eq_refl (iff_refl _) _). exact G.
Qed.
Print Assumptions from_chars_flush_independent.

Example flush_subnormal :
  from_chars_float_advanced (in_flush_mode true cfg_x86_64) Char_s F64 [53;101;45;51;50;52] general =
    Ok {| r_ptr := []; r_ec := Success; r_value := Some 1 |}.
Proof. vm_compute. reflexivity. Qed.

(** The same build, on a machine with or without arithmetic of its own on the
    16-bit types: without, their operations are carried out in float and
    rounded a second time. *)
Definition in_half_mode (b : bool) (c : cfg) : cfg :=
  {| in_constexpr := in_constexpr c; big_endian := big_endian c; is_clang := is_clang c; is_32bit := is_32bit c;
     sparc := sparc c; int128 := int128 c; clz_builtin := clz_builtin c;
     add_overflow_builtin := add_overflow_builtin c; simd := simd c; eval := eval c; half_in_float := b; rmode := rmode c; flush := flush c;
     macro_leading_plus := macro_leading_plus c; macro_skip_ws := macro_skip_ws c; asserts := asserts c |}.

(** The second rounding never shows, for any type, float16 and its error code included. *)
Theorem from_chars_half_arithmetic_independent :
  forall (b : bool) (c : cfg) (u : uc) (t : ftype) (o : options) (s : list Z),
  good_text c u o s ->
  exists r, from_chars_float_advanced (in_half_mode b c) u t s o = Ok r /\
    from_chars_float_advanced c u t s o = Ok r.
Proof.
  intros b c u t o s G.
  refine (from_chars_config_exact (in_half_mode b c) c u t o s eq_refl eq_refl (iff_refl _) _). exact G.
Qed.
Print Assumptions from_chars_half_arithmetic_independent.

Lemma ascii_code_unit u ch : 0 <= ch < 128 -> code_unit u ch.
Proof. intros H. destruct u; cbv [code_unit uc_min uc_max uc_signed uc_bits]; cbn; lia. Qed.

Lemma ascii_good c u o s : Forall (fun ch => 0 <= ch < 128) s -> Z.of_nat (length s) <= 2 ^ 59 ->
  digit (o_decimal_point o) = false -> good_text c u o s.
Proof.
  intros A L D. split; [eapply Forall_impl; [|exact A]; intros a; apply ascii_code_unit|].
  split; [|split; assumption]. intros _. eapply Forall_impl; [|exact A]. cbn. intros a HA. lia.
Qed.

(** "2047e1" as float16: the product is exact in float and is then rounded to 20464. *)
Example half_arithmetic_example :
  good_text cfg_x86_64 Char_s general [50;48;52;55;101;49] /\
  from_chars_float_advanced (in_half_mode true cfg_x86_64) Char_s F16 [50;48;52;55;101;49] general =
    Ok {| r_ptr := []; r_ec := Success; r_value := Some (29 * 2 ^ 10 + 255) |}.
Proof.
  split; [apply ascii_good; [repeat constructor; lia|cbn; lia|reflexivity]|]. vm_compute. reflexivity.
Qed.

(** float16: value and end; the error code of "7e4" again shows the mode. *)
Theorem from_chars_float16_mode_partial :
  forall (m : rounding) (c : cfg) (u : uc) (o : options) (s : list Z),
  good_text c u o s ->
  exists r1 r2, from_chars_float_advanced c u F16 s o = Ok r1 /\
    from_chars_float_advanced (in_mode m c) u F16 s o = Ok r2 /\ r_ptr r1 = r_ptr r2 /\ r_value r1 = r_value r2.
Proof. intros. apply from_chars_float16_config_partial; auto. Qed.
Print Assumptions from_chars_float16_mode_partial.

Theorem from_chars_float16_mode_refuted :
  from_chars_float_advanced cfg_x86_64 Char_s F16 text_7e4 general =
    Ok {| r_ptr := []; r_ec := Success; r_value := Some (infinity binary16) |} /\
  from_chars_float_advanced (in_mode Upward cfg_x86_64) Char_s F16 text_7e4 general =
    Ok {| r_ptr := []; r_ec := OutOfRange; r_value := Some (infinity binary16) |}.
Proof. split; vm_compute; reflexivity. Qed.
Print Assumptions from_chars_float16_mode_refuted.

(** ** C24: the character type does not matter for ASCII texts *)
Theorem from_chars_wide :
  forall (c : cfg) (u1 u2 : uc) (t : ftype) (o : options) (s : list Z),
  Forall (fun ch => 0 <= ch < 128) s -> Z.of_nat (length s) <= 2 ^ 59 ->
  digit (o_decimal_point o) = false ->
  exists r, from_chars_float_advanced c u1 t s o = Ok r /\ from_chars_float_advanced c u2 t s o = Ok r.
Proof.
  intros c u1 u2 t o s A L D.
  pose proof (ascii_good c u1 o s A L D) as G1. pose proof (ascii_good c u2 o s A L D) as G2.
  destruct (starts_exists c o s) as (s0 & S1).
  destruct (float_det c u1 c u2 t o s s s0 G1 G2 eq_refl S1 S1) as (r1 & r2 & E1 & E2 & _ & _ & _ & EQ).
  exists r1. split; [exact E1|]. rewrite (EQ (iff_refl _)). exact E2.
Qed.
Print Assumptions from_chars_wide.

(** char16_t and signed 32-bit wchar_t. *)
Example wide_example :
  Forall (fun ch => 0 <= ch < 128) text_2_98 /\ Z.of_nat (length text_2_98) <= 2 ^ 59 /\
  from_chars_float_advanced cfg_x86_64 Char16 F32 text_2_98 general =
    Ok {| r_ptr := []; r_ec := Success; r_value := Some (102 * 2 ^ 23) |} /\
  from_chars_float_advanced cfg_x86_64 Wchar_s32 F32 text_2_98 general =
    Ok {| r_ptr := []; r_ec := Success; r_value := Some (102 * 2 ^ 23) |}.
Proof.
  split; [repeat constructor; cbn; lia|]. split; [vm_compute; discriminate|]. split; vm_compute; reflexivity.
Qed.

(** ** C23: every digit counts, however many there are.  [~ nineteen_digits]
    concerns only float16. *)
Theorem from_chars_all_digits_count :
  forall (c : cfg) (u : uc) (t : ftype) (o : options) (s s0 : list Z)
         (neg : bool) (ip fp : list Z) (e : Z) (rest : list Z),
  good_text c u o s -> starts_at c o s s0 ->
  number (rules_of c o) s0 neg ip fp e rest -> exponent_bounded s e ->
  t <> F16 \/ ~ nineteen_digits (number_value ip fp e) ->
  exists b x,
    from_chars_float_advanced c u t s o =
      Ok {| r_ptr := rest; r_ec := x; r_value := Some (with_sign (format_of t) neg b) |} /\
    nearest_even (format_of t) (number_value ip fp e) b.
Proof.
  intros c u t o s s0 neg ip fp e rest GT SA NUM EB H.
  destruct (ftype_F16_dec t) as [->|NT].
  - destruct H as [H|H]; [congruence|].
    destruct (number_main_F16 c u o s s0 neg ip fp e rest GT SA NUM EB) as (b & x & E & (_ & _ & N) & _).
    exists b, x. split; [exact E|]. apply N. left. exact H.
  - destruct (number_main c u t o s s0 neg ip fp e rest NT GT SA NUM EB) as (b & x & E & N & _). eauto.
Qed.
Print Assumptions from_chars_all_digits_count.

(** The last of 818 digits decides: 2^53 + 1, 800 zeros and a 1 is not a tie. *)
Lemma many_zeros_number :
  number (rules_of cfg_x86_64 general) many_zeros_text false
    [57;48;48;55;49;57;57;50;53;52;55;52;48;57;57;51] (repeat 48 800 ++ [49]) 0 [].
Proof.
  exists many_zeros_text, (46 :: repeat 48 800 ++ [49]), true, []. split; [apply signed_none; cbn; lia|].
  split; [split; [reflexivity|]; split; [repeat constructor|]; cbn; discriminate|].
  split; [apply (fraction_some (rules_of cfg_x86_64 general)); split; [rewrite app_nil_r; reflexivity|split; [|exact I]]; apply Forall_app; split; [apply Forall_forall; intros x HX; rewrite (repeat_spec _ _ _ HX); reflexivity|repeat constructor]|].
  split; [discriminate|]. apply exponent_none; [intros s1 H; inversion H|right; reflexivity].
Qed.
Example all_digits_example :
  good_text cfg_x86_64 Char_s general many_zeros_text /\ starts_at cfg_x86_64 general many_zeros_text many_zeros_text /\
  exponent_bounded many_zeros_text 0 /\
  from_chars_float_advanced cfg_x86_64 Char_s F64 many_zeros_text general =
    Ok {| r_ptr := []; r_ec := Success; r_value := Some 4845873199050653697 |} /\
  (* without the last digit *)
  from_chars_float_advanced cfg_x86_64 Char_s F64 (removelast many_zeros_text) general =
    Ok {| r_ptr := []; r_ec := Success; r_value := Some 4845873199050653696 |}.
Proof.
  split; [apply ascii_good; [|vm_compute; discriminate|reflexivity];
    apply Forall_app; split; [repeat constructor; lia|]; apply Forall_app; split; [|repeat constructor; lia];
    apply Forall_forall; intros x HX; rewrite (repeat_spec _ _ _ HX); lia|].
  split; [reflexivity|]. split; [right; reflexivity|]. split; vm_compute; reflexivity.
Qed.
