(** Property C46: options that do not concern a conversion are ignored, and the
    feature macros mean the same as the corresponding flags. *)
From Verif Require Import Machine Config Chars Format ParseNumber DecToBin DigitComp FromChars Ints SpecGrammar SpecApi
  ParseSpec Special FloatMaster Saturate FloatApi Diagnosis CaseCmp Props_Pow10.
Open Scope Z_scope.

(** The bits of chars_format that concern floating-point numbers: scientific,
    fixed, no_infnan, basic_json, basic_fortran, allow_leading_plus and
    skip_white_space (float_common.h:39-57).  [hex] (bit 3) and the undefined
    bits are not among them. *)
Definition same_float_options (o o' : options) : Prop :=
  o_decimal_point o = o_decimal_point o' /\
  forall k, In k [0; 2; 4; 5; 6; 7; 8] -> Z.testbit (o_format o) k = Z.testbit (o_format o') k.

(** Those that concern integers: allow_leading_plus and skip_white_space. *)
Definition same_int_options (o o' : options) : Prop :=
  o_base o = o_base o' /\ forall k, In k [7; 8] -> Z.testbit (o_format o) k = Z.testbit (o_format o') k.

(** C46 for floating-point types: the base, the hex flag and unknown flags are
    ignored; for every text whatever, defined or not. *)
Theorem from_chars_float_ignores :
  forall c u t s o o', same_float_options o o' ->
    from_chars_float_advanced c u t s o = from_chars_float_advanced c u t s o'.
Proof.
  intros c u t s o o' (DP & FM). cbn [In] in FM.
  assert (PN : forall bjf s store, parse_number_string c u bjf s o store = parse_number_string c u bjf s o' store).
  { intros. apply parse_options; [exact DP|]. intros k K. apply FM. intuition. }
  destruct (flag_adjust c o) as (P1 & J1 & S1 & F1 & O1 & W1 & N1).
  destruct (flag_adjust c o') as (P2 & J2 & S2 & F2 & O2 & W2 & N2).
  unfold skips_space, allows_special in *.
  cbv zeta in *. cbn [rules_of leading_plus scientific fixed fortran json] in *.
  rewrite !FM in * by tauto.
  unfold from_chars_float_advanced, parse_number_slow_path. cbv zeta. rewrite W1, W2, J1, J2, N1, N2.
  apply bind_ext. intros [|ch p]; [reflexivity|]. rewrite PN. apply bind_ext. intros pns. rewrite PN.
  unfold parse_infnan. rewrite P1, P2. reflexivity.
Qed.
Print Assumptions from_chars_float_ignores.

(** C46 for integer types: the decimal separator and all other flags are ignored. *)
Theorem from_chars_int_ignores :
  forall c u T s o o', same_int_options o o' ->
    from_chars_int_advanced c u T s o = from_chars_int_advanced c u T s o'.
Proof.
  intros c u T s o o' (BE & FM). cbn [In] in FM.
  destruct (flag_adjust c o) as (P1 & _ & _ & _ & _ & W1 & _).
  destruct (flag_adjust c o') as (P2 & _ & _ & _ & _ & W2 & _).
  unfold skips_space in *.
  cbv zeta in *. cbn [rules_of leading_plus] in *. rewrite !FM in * by tauto.
  unfold from_chars_int_advanced, parse_int_string. cbv zeta. rewrite W1, W2, P1, P2, BE. reflexivity.
Qed.
Print Assumptions from_chars_int_ignores.

(** ** The feature macros *)

Definition without_macros (c : cfg) : cfg :=
  {| in_constexpr := in_constexpr c; big_endian := big_endian c; is_clang := is_clang c; is_32bit := is_32bit c;
     sparc := sparc c; int128 := int128 c; clz_builtin := clz_builtin c; add_overflow_builtin := add_overflow_builtin c;
     simd := simd c; eval := eval c; half_in_float := half_in_float c; rmode := rmode c; flush := flush c; macro_leading_plus := false; macro_skip_ws := false; asserts := asserts c |}.

(** The caller's options with the flags the macros stand for. *)
Definition macro_flags (c : cfg) (o : options) : options :=
  {| o_format := Z.lor (o_format o) ((if macro_leading_plus c then 128 else 0) + (if macro_skip_ws c then 256 else 0));
     o_decimal_point := o_decimal_point o; o_base := o_base o |}.

Lemma macro_format c o : adjust_for_feature_macros (without_macros c) (o_format (macro_flags c o)) =
  adjust_for_feature_macros c (o_format o).
Proof.
  unfold adjust_for_feature_macros, macro_flags. cbn [without_macros macro_leading_plus macro_skip_ws o_format].
  destruct (macro_leading_plus c), (macro_skip_ws c); cbn [Z.add]; rewrite ?Z.lor_0_r; try reflexivity.
  rewrite <- Z.lor_assoc. reflexivity.
Qed.

Lemma macro_rules c o : rules_of (without_macros c) (macro_flags c o) = rules_of c o /\
  skips_space (without_macros c) (macro_flags c o) = skips_space c o /\
  allows_special (macro_flags c o) = allows_special o.
Proof.
  pose proof (flag_adjust c o) as F1. pose proof (flag_adjust (without_macros c) (macro_flags c o)) as F2. cbv zeta in *.
  rewrite macro_format in F2.
  destruct F1 as (P1 & J1 & S1 & X1 & O1 & W1 & N1). destruct F2 as (P2 & J2 & S2 & X2 & O2 & W2 & N2).
  split; [|split; [congruence|rewrite N1 in N2; destruct (allows_special o), (allows_special (macro_flags c o)); (reflexivity || discriminate N2)]].
  rewrite P1 in P2. rewrite J1 in J2. rewrite S1 in S2. rewrite X1 in X2. rewrite O1 in O2.
  assert (EP : point (rules_of c o) = point (rules_of (without_macros c) (macro_flags c o))) by reflexivity.
  destruct (rules_of c o), (rules_of (without_macros c) (macro_flags c o)). cbn in *. congruence.
Qed.

Lemma swar_macros fuel : forall c u p i, swar_loop fuel (without_macros c) u p i = swar_loop fuel c u p i.
Proof.
  induction fuel as [|fuel IH]; [reflexivity|]. intros c u p i. cbn [swar_loop].
  destruct (8 <=? remaining p); [|reflexivity]. cbn [andb].
  apply bind_ext. intros v. destruct (is_made_of_eight_digits_fast _); [|reflexivity].
  apply bind_ext. intros q. apply bind_ext. intros p'. apply IH.
Qed.
Lemma simd_macros fuel : forall c p i, simd_loop fuel (without_macros c) p i = simd_loop fuel c p i.
Proof.
  induction fuel as [|fuel IH]; [reflexivity|]. intros c p i. cbn [simd_loop].
  destruct (8 <=? remaining p); [|reflexivity].
  apply bind_ext. intros [i'|]; [|reflexivity]. apply bind_ext. intros p'. apply IH.
Qed.
Lemma loop_macros c u p i : loop_parse_if_eight_digits (without_macros c) u p i = loop_parse_if_eight_digits c u p i.
Proof. unfold loop_parse_if_eight_digits. rewrite swar_macros, simd_macros. reflexivity. Qed.

(** A build with FASTFLOAT_ALLOWS_LEADING_PLUS or FASTFLOAT_SKIP_WHITE_SPACE
    behaves like a build without, called with those flags added. *)
Theorem macros_are_flags :
  forall c u s o,
    (forall t, good_text c u o s ->
       from_chars_float_advanced c u t s o = from_chars_float_advanced (without_macros c) u t s (macro_flags c o)) /\
    (forall T, from_chars_int_advanced c u T s o = from_chars_int_advanced (without_macros c) u T s (macro_flags c o)).
Proof.
  intros c u s o. split; intros t.
  - intros G. destruct (macro_rules c o) as (ER & EW & EA).
    assert (G' : good_text (without_macros c) u (macro_flags c o) s).
    { destruct G as (G1 & G2 & G3 & G4). split; [exact G1|]. rewrite EW. split; [exact G2|]. split; [exact G3|exact G4]. }
    destruct (starts_exists c o s) as (s0 & SA).
    assert (SA' : starts_at (without_macros c) (macro_flags c o) s s0) by (unfold starts_at in *; rewrite EW; exact SA).
    destruct (number_or_not c u o s s0 G SA) as [(neg & ip & fp & e & rest & N1)|NN].
    + pose proof N1 as N2. rewrite <- ER in N2.
      destruct (float_number_clamped c u t o s s0 neg ip fp e rest (good_text_ok _ _ _ _ G) SA N1) as (e1 & b1 & x1 & CL1 & E1 & R1 & O1).
      destruct (float_number_clamped _ u t _ s s0 neg ip fp e rest (good_text_ok _ _ _ _ G') SA' N2) as (e2 & b2 & x2 & CL2 & E2 & R2 & O2).
      pose proof (clamp_unique _ _ _ CL1 CL2). subst e2.
      pose proof (near_unique _ _ _ _ R1 R2). subst b2. rewrite E1, E2. do 2 f_equal. destruct O1 as [P1 O1], O2 as [P2 O2].
      destruct (quiet_dec c t (digits_value (ip ++ fp)) (e1 - Z.of_nat (length fp))) as [Q|Q];
        [rewrite P1, P2 by exact Q|rewrite O1, O2 by exact Q]; reflexivity.
    + pose proof NN as NN2. rewrite <- ER in NN2.
      destruct (other_main c u t o s s0 G SA NN) as [(A1 & E1)|[(A1 & NS1 & E1)|(n1 & k1 & r1 & A1 & SP1 & E1)]];
      destruct (other_main _ u t _ s s0 G' SA' NN2) as [(A2 & E2)|[(A2 & NS2 & E2)|(n2 & k2 & r2 & A2 & SP2 & E2)]];
        try congruence.
      * exfalso. rewrite ER in SP2. exact (NS1 _ _ _ SP2).
      * exfalso. rewrite ER in NS2. exact (NS2 _ _ _ SP1).
      * rewrite ER in SP2. destruct (special_unique _ _ _ _ _ _ _ _ SP1 SP2) as (<- & <- & <-). congruence.
  - unfold from_chars_int_advanced, parse_int_string. rewrite macro_format. cbv zeta.
    apply bind_ext. intros [|ch p]; [reflexivity|]. cbn [macro_flags o_base].
    destruct (_ || _); [reflexivity|]. apply bind_ext. intros ch0. destruct (_ && _); [reflexivity|].
    destruct (_ && _); [reflexivity|]. apply bind_ext. intros [r|]; [reflexivity|].
    unfold parse_int_general. cbv zeta. rewrite loop_macros. reflexivity.
Qed.
Print Assumptions macros_are_flags.

(** Hex, unknown bits and the base are ignored; "+1" under the macro. *)
Example ignored_example :
  same_float_options {| o_format := 5 + 8 + 512; o_decimal_point := 44; o_base := 16 |} {| o_format := 5; o_decimal_point := 44; o_base := 10 |} /\
  same_int_options {| o_format := 5; o_decimal_point := 44; o_base := 16 |} {| o_format := 53; o_decimal_point := 46; o_base := 16 |} /\
  from_chars_float_advanced cfg_x86_64 Char_s F64 [49; 44; 53] {| o_format := 5 + 8 + 512; o_decimal_point := 44; o_base := 16 |} =
    Ok {| r_ptr := []; r_ec := Success; r_value := Some 0x3FF8000000000000 |}.
Proof.
  split; [split; [reflexivity|intros k K; cbn in K; intuition; subst; reflexivity]|].
  split; [split; [reflexivity|intros k K; cbn in K; intuition; subst; reflexivity]|].
  vm_compute. reflexivity.
Qed.

(** A build with both macros reads " +7" under the general options; the same
    build without the macros needs the flags. *)
Definition cfg_macros : cfg :=
  {| in_constexpr := false; big_endian := false; is_clang := false; is_32bit := false; sparc := false; int128 := true;
     clz_builtin := true; add_overflow_builtin := true; simd := Sse2; eval := Eval0; half_in_float := false; rmode := ToNearest; flush := false;
     macro_leading_plus := true; macro_skip_ws := true; asserts := false |}.
Example macros_example :
  good_text cfg_macros Char_s general [32; 43; 55] /\
  from_chars_float_advanced cfg_macros Char_s F64 [32; 43; 55] general =
    Ok {| r_ptr := []; r_ec := Success; r_value := Some 0x401C000000000000 |} /\
  from_chars_float_advanced (without_macros cfg_macros) Char_s F64 [32; 43; 55] general =
    Ok {| r_ptr := [32; 43; 55]; r_ec := InvalidArgument; r_value := None |} /\
  o_format (macro_flags cfg_macros general) = 389.
Proof.
  split; [|vm_compute; repeat split; reflexivity].
  split; [repeat constructor; vm_compute; intuition congruence|]. split; [discriminate|]. split; [vm_compute; discriminate|reflexivity].
Qed.
