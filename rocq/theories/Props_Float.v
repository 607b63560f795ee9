(** Properties C01, C02, C04, C05, C06, C12, C23, C28: what the
    floating-point entry point stores and reports.
    Statements use the entry point, SpecFloat, SpecGrammar and SpecApi only. *)
From Verif Require Import Machine Config Chars Format ParseNumber DecToBin FromChars WordLemmas
  Rounding ComputeFloat SpecFloat FloatBridge SpecGrammar SpecApi Scan ParseSpec Special
  SlowPath ManyDigits Saturate FloatMaster FloatApi Defined Props_Pow10.
From Coq Require Import QArith Lqa.
Open Scope Z_scope.

(** ** C01 *)
Theorem from_chars_correctly_rounded :
  forall (c : cfg) (u : uc) (t : ftype) (o : options) (s s0 : list Z)
         (neg : bool) (ip fp : list Z) (e : Z) (rest : list Z),
  t <> F16 ->
  good_text c u o s -> starts_at c o s s0 ->
  number (rules_of c o) s0 neg ip fp e rest -> exponent_bounded s e ->
  exists b x,
    from_chars_float_advanced c u t s o =
      Ok {| r_ptr := rest; r_ec := x; r_value := Some (with_sign (format_of t) neg b) |} /\
    nearest_even (format_of t) (number_value ip fp e) b.
Proof.
  intros c u t o s s0 neg ip fp e rest NT GT SA NUM EB.
  destruct (number_main c u t o s s0 neg ip fp e rest NT GT SA NUM EB) as (b & x & E & N & _). eauto.
Qed.
Print Assumptions from_chars_correctly_rounded.

(** ** C02: std::float16_t obeys a slightly different rule, stated exactly. *)
Theorem from_chars_float16_partial :
  forall (c : cfg) (u : uc) (o : options) (s s0 : list Z)
         (neg : bool) (ip fp : list Z) (e : Z) (rest : list Z),
  good_text c u o s -> starts_at c o s s0 ->
  number (rules_of c o) s0 neg ip fp e rest -> exponent_bounded s e ->
  exists b x,
    from_chars_float_advanced c u F16 s o =
      Ok {| r_ptr := rest; r_ec := x; r_value := Some (with_sign binary16 neg b) |} /\
    nearest_float16 (number_value ip fp e) b.
Proof.
  intros c u o s s0 neg ip fp e rest GT SA NUM EB.
  destruct (number_main_F16 c u o s s0 neg ip fp e rest GT SA NUM EB) as (b & x & E & N & _). eauto.
Qed.
Print Assumptions from_chars_float16_partial.

(** The text "2.98023223876953125e-8" is 2^-25 exactly, half of the smallest
    subnormal: even is 0, stored is 1. *)
Definition text_2_98 : list Z :=
  [50; 46; 57; 56; 48; 50; 51; 50; 50; 51; 56; 55; 54; 57; 53; 51; 49; 50; 53; 101; 45; 56].

Lemma number_2_98 :
  number (rules_of cfg_x86_64 general) text_2_98 false [50]
    [57; 56; 48; 50; 51; 50; 50; 51; 56; 55; 54; 57; 53; 51; 49; 50; 53] (-8) [].
Proof.
  exists text_2_98, (tl text_2_98), true, [101; 45; 56]. split; [apply signed_none; cbn; lia|].
  split; [split; [reflexivity|]; split; [repeat constructor|]; cbn; discriminate|].
  split; [apply (fraction_some (rules_of cfg_x86_64 general)); split; [reflexivity|]; split; [repeat constructor|]; cbn; discriminate|].
  split; [cbn; discriminate|].
  apply (exponent_some _ _ [45; 56] true [56] [56]).
  - apply mark_e; [reflexivity|left; reflexivity].
  - apply exp_minus.
  - split; [reflexivity|]. split; [repeat constructor|exact I].
  - discriminate.
Qed.

Lemma good_2_98 : good_text cfg_x86_64 Char_s general text_2_98.
Proof.
  split; [repeat constructor; cbn; lia|]. split; [discriminate|]. split; [|reflexivity].
  vm_compute. discriminate.
Qed.

(** The hypotheses of the two theorems above are met by this text: the value is
    stored exactly as double (2^-25 has the exponent field 1023 - 25). *)
Example correctly_rounded_example :
  F64 <> F16 /\ good_text cfg_x86_64 Char_s general text_2_98 /\ starts_at cfg_x86_64 general text_2_98 text_2_98 /\
  number (rules_of cfg_x86_64 general) text_2_98 false [50]
    [57; 56; 48; 50; 51; 50; 50; 51; 56; 55; 54; 57; 53; 51; 49; 50; 53] (-8) [] /\
  exponent_bounded text_2_98 (-8) /\
  from_chars_float_advanced cfg_x86_64 Char_s F64 text_2_98 general =
    Ok {| r_ptr := []; r_ec := Success; r_value := Some (998 * 2 ^ 52) |}.
Proof.
  split; [discriminate|]. split; [exact good_2_98|]. split; [reflexivity|]. split; [exact number_2_98|].
  split; [right; reflexivity|]. vm_compute. reflexivity.
Qed.

Theorem from_chars_float16_refuted :
  ~ (forall (c : cfg) (u : uc) (o : options) (s s0 : list Z)
            (neg : bool) (ip fp : list Z) (e : Z) (rest : list Z),
     good_text c u o s -> starts_at c o s s0 ->
     number (rules_of c o) s0 neg ip fp e rest -> exponent_bounded s e ->
     exists b x,
       from_chars_float_advanced c u F16 s o =
         Ok {| r_ptr := rest; r_ec := x; r_value := Some (with_sign binary16 neg b) |} /\
       nearest_even binary16 (number_value ip fp e) b).
Proof.
  intros H.
  destruct (H cfg_x86_64 Char_s general text_2_98 text_2_98 _ _ _ _ _ good_2_98 eq_refl number_2_98)
    as (b & x & E & R & N).
  { right. reflexivity. }
  assert (C : from_chars_float_advanced cfg_x86_64 Char_s F16 text_2_98 general =
              Ok {| r_ptr := []; r_ec := Success; r_value := Some 1 |}) by (vm_compute; reflexivity).
  rewrite C in E. injection E as _ E. unfold with_sign in E. assert (EB : b = 1) by lia. clear C E. subst b.
  specialize (N 0 ltac:(split; vm_compute; discriminate)).
  destruct N as [N|[_ [N|N]]]; vm_compute in N; discriminate N.
Qed.
Print Assumptions from_chars_float16_refuted.

(** ** C04: nothing recognised *)
Theorem from_chars_invalid :
  forall (c : cfg) (u : uc) (t : ftype) (o : options) (s s0 : list Z),
  good_text c u o s -> starts_at c o s s0 ->
  (forall neg ip fp e rest, ~ number (rules_of c o) s0 neg ip fp e rest) ->
  (allows_special o = true -> forall neg k rest, ~ special (leading_plus (rules_of c o)) s0 neg k rest) ->
  from_chars_float_advanced c u t s o = Ok {| r_ptr := s0; r_ec := InvalidArgument; r_value := None |}.
Proof.
  intros c u t o s s0 GT SA NN NS.
  destruct (other_main c u t o s s0 GT SA NN) as [(_ & E)|[(_ & _ & E)|(neg & k & rest & A & S & _)]]; try exact E.
  destruct (NS A _ _ _ S).
Qed.
Print Assumptions from_chars_invalid.

(** Conversely invalid_argument is reported in no other case. *)
Theorem from_chars_invalid_only :
  forall (c : cfg) (u : uc) (t : ftype) (o : options) (s s0 : list Z) (r : result),
  good_text c u o s -> starts_at c o s s0 ->
  from_chars_float_advanced c u t s o = Ok r -> r_ec r = InvalidArgument ->
  (forall neg ip fp e rest, ~ number (rules_of c o) s0 neg ip fp e rest) /\
  (allows_special o = true -> forall neg k rest, ~ special (leading_plus (rules_of c o)) s0 neg k rest) /\
  r_ptr r = s0 /\ r_value r = None.
Proof.
  intros c u t o s s0 r GT SA E EI.
  assert (NN : forall neg ip fp e rest, ~ number (rules_of c o) s0 neg ip fp e rest).
  { intros neg ip fp e rest NUM.
    destruct (float_number_clamped c u t o s s0 neg ip fp e rest (good_text_ok _ _ _ _ GT) SA NUM)
      as (e' & b & x & _ & E' & _ & (O1 & O2)).
    rewrite E' in E. injection E as <-. cbn [r_ec] in EI. subst x.
    destruct (quiet_dec c t (digits_value (ip ++ fp)) (e' - Z.of_nat (length fp))) as [Q|Q].
    - discriminate (O1 Q).
    - specialize (O2 Q). unfold range_code in O2.
      destruct ((0 <? digits_value (ip ++ fp)) && (b =? 0) || (b =? inf_code t)); discriminate O2. }
  split; [exact NN|].
  destruct (other_main c u t o s s0 GT SA NN) as [(A & E')|[(A & NS & E')|(neg & k & rest & A & S & E')]];
    rewrite E' in E; injection E as <-; cbn [r_ec r_ptr r_value] in *.
  - split; [congruence|auto].
  - auto.
  - discriminate EI.
Qed.
Print Assumptions from_chars_invalid_only.

(** Both theorems apply to "x1" (no number) and "-in" (no special value). *)
Example invalid_example :
  forall s, s = [120; 49] \/ s = [45; 105; 110] ->
  good_text cfg_x86_64 Char_s general s /\ starts_at cfg_x86_64 general s s /\
  from_chars_float_advanced cfg_x86_64 Char_s F64 s general =
    Ok {| r_ptr := s; r_ec := InvalidArgument; r_value := None |} /\
  (forall neg ip fp e rest, ~ number (rules_of cfg_x86_64 general) s neg ip fp e rest) /\
  (allows_special general = true -> forall neg k rest, ~ special (leading_plus (rules_of cfg_x86_64 general)) s neg k rest).
Proof.
  intros s H.
  assert (G : good_text cfg_x86_64 Char_s general s).
  { destruct H as [-> | ->]; (split; [repeat constructor; cbn; lia|]; split; [discriminate|]; split; [|reflexivity];
      vm_compute; discriminate). }
  assert (E : from_chars_float_advanced cfg_x86_64 Char_s F64 s general =
    Ok {| r_ptr := s; r_ec := InvalidArgument; r_value := None |}) by (destruct H as [-> | ->]; vm_compute; reflexivity).
  destruct (from_chars_invalid_only cfg_x86_64 Char_s F64 general s s _ G eq_refl E eq_refl) as (A & B & _).
  split; [exact G|]. split; [reflexivity|]. split; [exact E|]. split; [exact A|exact B].
Qed.

(** ** C05: result_out_of_range *)
Theorem from_chars_range_error :
  forall (c : cfg) (u : uc) (t : ftype) (o : options) (s s0 : list Z)
         (neg : bool) (ip fp : list Z) (e : Z) (rest : list Z),
  t <> F16 ->
  good_text c u o s -> starts_at c o s s0 ->
  number (rules_of c o) s0 neg ip fp e rest -> exponent_bounded s e ->
  exists b x,
    from_chars_float_advanced c u t s o =
      Ok {| r_ptr := rest; r_ec := x; r_value := Some (with_sign (format_of t) neg b) |} /\
    nearest_even (format_of t) (number_value ip fp e) b /\
    (x = OutOfRange <-> ((0 < number_value ip fp e)%Q /\ b = 0) \/ b = infinity (format_of t)) /\
    (x <> OutOfRange -> x = Success).
Proof.
  intros c u t o s s0 neg ip fp e rest NT GT SA NUM EB.
  destruct (number_main c u t o s s0 neg ip fp e rest NT GT SA NUM EB) as (b & x & E & N & (R1 & R2)).
  exists b, x. repeat (split; try assumption); try apply R2. destruct R1 as [R1|R1]; [auto|contradiction].
Qed.
Print Assumptions from_chars_range_error.

(** "1e999" and "1e-999": both ends of the range. *)
Definition text_1e999 (n : bool) : list Z := 49 :: 101 :: (if n then [45] else []) ++ [57; 57; 57].
Lemma number_1e999 n : number (rules_of cfg_x86_64 general) (text_1e999 n) false [49] [] (if n then -999 else 999) [].
Proof.
  exists (text_1e999 n), (tl (text_1e999 n)), false, (tl (text_1e999 n)). split; [apply signed_none; cbn; lia|].
  split; [split; [reflexivity|]; split; [repeat constructor|]; cbn; discriminate|].
  split; [apply fraction_none; cbn; lia|].
  split; [cbn; discriminate|].
  apply (exponent_some _ _ ((if n then [45] else []) ++ [57; 57; 57]) n [57; 57; 57] [57; 57; 57]).
  - apply mark_e; [reflexivity|left; reflexivity].
  - destruct n; [apply exp_minus|apply exp_nosign; cbn; lia].
  - split; [reflexivity|]. split; [repeat constructor|exact I].
  - discriminate.
Qed.
Lemma good_1e999 n : good_text cfg_x86_64 Char_s general (text_1e999 n).
Proof.
  split; [destruct n; repeat constructor; cbn; lia|]. split; [discriminate|]. split; [|reflexivity].
  destruct n; vm_compute; discriminate.
Qed.
Example range_error_example : forall n,
  good_text cfg_x86_64 Char_s general (text_1e999 n) /\ starts_at cfg_x86_64 general (text_1e999 n) (text_1e999 n) /\
  number (rules_of cfg_x86_64 general) (text_1e999 n) false [49] [] (if n then -999 else 999) [] /\
  exponent_bounded (text_1e999 n) (if n then -999 else 999) /\
  from_chars_float_advanced cfg_x86_64 Char_s F64 (text_1e999 n) general =
    Ok {| r_ptr := []; r_ec := OutOfRange; r_value := Some (if n then 0 else infinity binary64) |}.
Proof.
  intros n. split; [apply good_1e999|]. split; [reflexivity|]. split; [apply number_1e999|].
  split; [right; destruct n; reflexivity|]. destruct n; vm_compute; reflexivity.
Qed.

(** ** C06: float16 - the same rule, except for overflows on the fast path *)
Theorem from_chars_float16_range_error_partial :
  forall (c : cfg) (u : uc) (o : options) (s s0 : list Z)
         (neg : bool) (ip fp : list Z) (e : Z) (rest : list Z),
  good_text c u o s -> starts_at c o s s0 ->
  number (rules_of c o) s0 neg ip fp e rest -> exponent_bounded s e ->
  exists b x,
    from_chars_float_advanced c u F16 s o =
      Ok {| r_ptr := rest; r_ec := x; r_value := Some (with_sign binary16 neg b) |} /\
    nearest_float16 (number_value ip fp e) b /\
    (~ silent_float16_overflow c ip fp e ->
       (x = OutOfRange <-> ((0 < number_value ip fp e)%Q /\ b = 0) \/ b = infinity binary16)) /\
    (silent_float16_overflow c ip fp e -> x = Success).
Proof.
  intros c u o s s0 neg ip fp e rest GT SA NUM EB.
  destruct (number_main_F16 c u o s s0 neg ip fp e rest GT SA NUM EB) as (b & x & E & N & R1 & R2).
  exists b, x. split; [exact E|]. split; [exact N|]. split; [|exact R2]. intros NS. apply R1, NS.
Qed.
Print Assumptions from_chars_float16_range_error_partial.

(** "7e4" is 70000, more than the largest float16 (65504): infinity is stored,
    success is reported. *)
Definition text_7e4 : list Z := [55; 101; 52].
Lemma number_7e4 : number (rules_of cfg_x86_64 general) text_7e4 false [55] [] 4 [].
Proof.
  exists text_7e4, [101; 52], false, [101; 52]. split; [apply signed_none; cbn; lia|].
  split; [split; [reflexivity|]; split; [repeat constructor|]; cbn; discriminate|].
  split; [apply fraction_none; cbn; lia|].
  split; [cbn; discriminate|].
  apply (exponent_some _ _ [52] false [52] [52]).
  - apply mark_e; [reflexivity|left; reflexivity].
  - apply exp_nosign. cbn. lia.
  - split; [reflexivity|]. split; [repeat constructor|exact I].
  - discriminate.
Qed.
Lemma good_7e4 : good_text cfg_x86_64 Char_s general text_7e4.
Proof.
  split; [repeat constructor; cbn; lia|]. split; [discriminate|]. split; [|reflexivity].
  vm_compute. discriminate.
Qed.

Theorem from_chars_float16_range_error_refuted :
  exists (c : cfg) (s : list Z) (ip fp : list Z) (e : Z),
  good_text c Char_s general s /\ number (rules_of c general) s false ip fp e [] /\ exponent_bounded s e /\
  from_chars_float_advanced c Char_s F16 s general =
    Ok {| r_ptr := []; r_ec := Success; r_value := Some (infinity binary16) |}.
Proof.
  exists cfg_x86_64, text_7e4, [55], [], 4.
  split; [exact good_7e4|]. split; [exact number_7e4|]. split; [right; reflexivity|].
  vm_compute. reflexivity.
Qed.
Print Assumptions from_chars_float16_range_error_refuted.

(** ** C12: every call ends normally, with a pointer into the text.
    Nothing is assumed of the options; the only code units excluded are the 48
    smallest values of a signed 32-bit wchar_t. *)
Theorem from_chars_defined :
  forall (c : cfg) (u : uc) (t : ftype) (o : options) (s : list Z),
  Forall (code_unit u) s ->
  (u = Wchar_s32 -> Forall (fun ch => - 2 ^ 31 + 48 <= ch) s) ->
  Z.of_nat (length s) <= 2 ^ 59 ->
  exists r, from_chars_float_advanced c u t s o = Ok r /\ exists consumed, s = consumed ++ r_ptr r.
Proof.
  intros c u t o s CU WC LEN. apply float_total; [|exact LEN].
  apply Forall_forall. intros x Hx. split; [apply (proj1 (Forall_forall _ _) CU x Hx)|].
  intros E. apply (proj1 (Forall_forall _ _) (WC E) x Hx).
Qed.
Print Assumptions from_chars_defined.

(** A digit as decimal point and a wide character that looks like white space. *)
Lemma defined_example :
  from_chars_float_advanced cfg_x86_64 Wchar_s32 F64 [-224; 49; 50; 51]
    {| o_format := 261; o_decimal_point := 50; o_base := 10 |} =
  Ok {| r_ptr := []; r_ec := Success; r_value := Some (0x405ec00000000000) |}.
Proof. vm_compute. reflexivity. Qed.

(** Those 48 values do overflow [int] in [c - L'0']. *)
Theorem from_chars_wchar_min_undefined :
  forall ch, - 2 ^ 31 <= ch < - 2 ^ 31 + 48 ->
  code_unit Wchar_s32 ch /\
  from_chars_float_advanced cfg_x86_64 Wchar_s32 F64 [ch] general = UB.
Proof.
  intros ch H. change (2 ^ 31) with 2147483648 in H. split; [unfold code_unit, uc_min, uc_max; cbn; lia|].
  unfold from_chars_float_advanced. change (flag _ f_skip_white_space) with false. cbn [bind].
  change (flag _ f_basic_json) with false.
  unfold parse_number_string. cbn [deref bind].
  destruct (Z.eqb_spec ch 45); [lia|]. change (flag _ f_allow_leading_plus) with false. cbn [andb orb bind].
  cbn [scan_integer]. unfold is_integer, minus_zero. unfold chk. cbn.
  destruct (Z.leb_spec (-2147483648) (ch - 48)); [lia|]. reflexivity.
Qed.
Print Assumptions from_chars_wchar_min_undefined.
