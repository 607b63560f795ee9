(** Properties C07 (infinity and NaN) and C30 (white space). *)
From Verif Require Import Machine Config Chars Format ParseNumber DecToBin FromChars WordLemmas
  Rounding ComputeFloat SpecFloat FloatBridge Pow10 SpecGrammar SpecApi SpecRel SpecText Scan ParseSpec Special
  SlowPath ManyDigits Saturate FloatMaster FloatApi FloatRel TextSpec Props_Pow10 Props_Float Props_Relations Props_Texts Props_Grammar.
From Coq Require Import QArith Qabs.
Open Scope Z_scope.

(** ** C07 *)

(** [b] is the code (without sign) of the special value. *)
Definition is_special (f : format) (k : special_kind) (b : Z) : Prop :=
  match k with Inf => b = infinity f | Nan => is_quiet_nan f b end.

(** A spelling of infinity or NaN is accepted unless no_infnan is set; the
    result is the infinity or a quiet NaN with the sign of the text. *)
Theorem from_chars_special :
  forall (c : cfg) (u : uc) (t : ftype) (o : options) (s s0 rest : list Z) (neg : bool) (k : special_kind),
  good_text c u o s -> starts_at c o s s0 -> allows_special o = true ->
  special (leading_plus (rules_of c o)) s0 neg k rest ->
  exists b,
    from_chars_float_advanced c u t s o =
      Ok {| r_ptr := rest; r_ec := Success; r_value := Some (with_sign (format_of t) neg b) |} /\
    is_special (format_of t) k b.
Proof.
  intros c u t o s s0 rest neg k G SA AS SP.
  destruct (other_main c u t o s s0 G SA (special_not_number _ _ _ _ _ _ SP)) as [(A & _)|[(_ & NS & _)|(n' & k' & r' & _ & SP2 & E2)]].
  - congruence.
  - destruct (NS _ _ _ SP).
  - destruct (special_unique _ _ _ _ _ _ _ _ SP SP2) as (<- & <- & <-). exists (special_code t k). split; [exact E2|].
    destruct k; [reflexivity|]. exists (2 ^ (frac_bits (format_of t) - 1)).
    split; [reflexivity|]. destruct t; vm_compute; split; congruence.
Qed.
Print Assumptions from_chars_special.

(** All NaNs of one sign are the same: neither the payload nor the options, the
    character type or the build matter. *)
Theorem from_chars_nan_one_value :
  forall t : ftype, exists b, is_quiet_nan (format_of t) b /\
  forall (c : cfg) (u : uc) (o : options) (s s0 rest : list Z) (neg : bool),
  good_text c u o s -> starts_at c o s s0 -> allows_special o = true ->
  special (leading_plus (rules_of c o)) s0 neg Nan rest ->
  from_chars_float_advanced c u t s o =
    Ok {| r_ptr := rest; r_ec := Success; r_value := Some (with_sign (format_of t) neg b) |}.
Proof.
  intros t. exists (special_code t Nan). split.
  - exists (2 ^ (frac_bits (format_of t) - 1)). split; [reflexivity|]. destruct t; vm_compute; split; congruence.
  - intros c u o s s0 rest neg G SA AS SP.
    destruct (other_main c u t o s s0 G SA (special_not_number _ _ _ _ _ _ SP)) as [(A & _)|[(_ & NS & _)|(n' & k' & r' & _ & SP2 & E2)]].
    + congruence.
    + destruct (NS _ _ _ SP).
    + destruct (special_unique _ _ _ _ _ _ _ _ SP SP2) as (<- & <- & <-). exact E2.
Qed.
Print Assumptions from_chars_nan_one_value.

(** Nothing else is: what is accepted but no number is such a spelling. *)
Theorem from_chars_special_only :
  forall (c : cfg) (u : uc) (t : ftype) (o : options) (s s0 rest : list Z) (x : ec) (v : option Z),
  good_text c u o s -> starts_at c o s s0 ->
  (forall neg ip fp e r, ~ number (rules_of c o) s0 neg ip fp e r) ->
  from_chars_float_advanced c u t s o = Ok {| r_ptr := rest; r_ec := x; r_value := v |} ->
  x <> InvalidArgument ->
  allows_special o = true /\ exists neg k, special (leading_plus (rules_of c o)) s0 neg k rest.
Proof.
  intros c u t o s s0 rest x v G SA NN E NI.
  destruct (other_main c u t o s s0 G SA NN) as [(_ & E')|[(_ & _ & E')|(neg & k & r & AS & SP & E')]];
      rewrite E' in E; injection E as -> <- <-; try congruence. eauto.
Qed.
Print Assumptions from_chars_special_only.

(** With no_infnan only numbers are accepted; the json preset contains it. *)
Theorem from_chars_no_infnan :
  forall (c : cfg) (u : uc) (t : ftype) (o : options) (s s0 : list Z),
  good_text c u o s -> starts_at c o s s0 -> allows_special o = false ->
  (forall neg ip fp e r, ~ number (rules_of c o) s0 neg ip fp e r) ->
  from_chars_float_advanced c u t s o = Ok {| r_ptr := s0; r_ec := InvalidArgument; r_value := None |}.
Proof. intros c u t o s s0 G SA AS NN. apply from_chars_invalid; [exact G|exact SA|exact NN|congruence]. Qed.
Print Assumptions from_chars_no_infnan.

(** An infinite value comes from a spelling of infinity or from overflow. *)
Theorem from_chars_infinity_only :
  forall (c : cfg) (u : uc) (t : ftype) (o : options) (s s0 rest : list Z) (neg : bool),
  good_text c u o s -> starts_at c o s s0 -> t <> F16 ->
  from_chars_float_advanced c u t s o =
    Ok {| r_ptr := rest; r_ec := Success; r_value := Some (with_sign (format_of t) neg (infinity (format_of t))) |} ->
  exists neg', special (leading_plus (rules_of c o)) s0 neg' Inf rest.
Proof.
  intros c u t o s s0 rest neg G SA NF E.
  destruct (number_or_not c u o _ s0 G SA) as [(n & ip & fp & e & r & N)|NN].
  - exfalso.
    destruct (float_number_clamped c u t o s s0 n ip fp e r (good_text_ok _ _ _ _ G) SA N) as (e1 & b & x & CL & E1 & R1 & O1).
    rewrite E1 in E. injection E as -> -> BV.
    destruct O1 as (_ & O1). specialize (O1 (fun H => NF (proj1 H))).
    pose proof (near_range _ _ _ R1) as RB. rewrite <- inf_inf in RB.
    assert (b = infinity (format_of t)).
    { revert BV RB. clear. unfold with_sign. destruct t, n, neg; cbn; lia. }
    subst b. unfold range_code in O1. rewrite inf_inf, Z.eqb_refl, orb_true_r in O1. discriminate O1.
  - destruct (other_main c u t o s s0 G SA NN) as [(_ & E')|[(_ & _ & E')|(n & k & r & AS & SP & E')]];
      rewrite E' in E; try discriminate E. injection E as -> BV. exists n.
    destruct k; [exact SP|]. exfalso. destruct t, n, neg; vm_compute in BV; discriminate BV.
Qed.
Print Assumptions from_chars_infinity_only.

(** "-NaN(a_1)x" and "iNfInItY" meet the hypotheses of [from_chars_special]. *)
Example special_example :
  special false [45; 78; 97; 78; 40; 97; 95; 49; 41; 120] true Nan [120] /\
  special false [105; 78; 102; 73; 110; 73; 116; 89] false Inf [] /\
  good_text cfg_x86_64 Char_s general [45; 78; 97; 78; 40; 97; 95; 49; 41; 120] /\
  allows_special general = true /\
  from_chars_float cfg_x86_64 Char_s F64 [45; 78; 97; 78; 40; 97; 95; 49; 41; 120] 5 =
    Ok {| r_ptr := [120]; r_ec := Success; r_value := Some 18444492273895866368 |}.
Proof.
  split; [|split; [|split; [|split; [reflexivity|vm_compute; reflexivity]]]].
  - eapply special_nan; [constructor| |].
    + repeat (constructor; [lia|]). constructor.
    + apply (payload_some [97; 95; 49] [120]). repeat constructor.
  - apply (special_infinity false _ false [105; 78; 102; 73; 110; 73; 116; 89] [73; 110; 73; 116; 89] []);
      [apply ssign_none; cbn; lia| |].
    + do 3 (constructor; [lia|]). constructor.
    + do 5 (constructor; [lia|]). constructor.
  - split; [repeat constructor; cbn; lia|]. split; [discriminate|]. split; [cbn; lia|reflexivity].
Qed.

(** ** C30 *)

(** For every code unit of every character type but a signed 32-bit wchar_t. *)
Theorem is_space_correct :
  forall (u : uc) (ch : Z), code_unit u ch -> u <> Wchar_s32 -> is_space ch = Ok (space ch).
Proof. intros u ch C N. apply is_space_spec, (ws_ok_type u); [split; [exact C|congruence]|exact N]. Qed.
Print Assumptions is_space_correct.

(** For a signed 32-bit wchar_t: all non-negative code units, and exactly the
    negative ones whose low byte is no white-space character. *)
Theorem is_space_wchar_partial :
  forall ch : Z, code_unit Wchar_s32 ch ->
  is_space ch = Ok (space ch || ((ch <? 0) && space (ch mod 256))) /\
  (0 <= ch -> is_space ch = Ok (space ch)) /\
  (ch < 0 -> (is_space ch = Ok (space ch) <-> space (ch mod 256) = false)).
Proof.
  intros ch C.
  assert (NEG : ch < 0 -> space ch = false).
  { intros L. destruct (space ch) eqn:E; [|reflexivity]. apply space_cases in E. lia. }
  assert (G : is_space ch = Ok (space ch || ((ch <? 0) && space (ch mod 256)))).
  { destruct (Z.ltb_spec ch 0) as [L|L].
    - cbn [andb]. rewrite (NEG L). unfold is_space. replace (ch <? 256) with true by (symmetry; apply Z.ltb_lt; lia).
      change (u8 ch) with (ch mod 256). rewrite space_lut_spec by (apply Z.mod_pos_bound; lia). cbn [bind orb].
      destruct (space (ch mod 256)); reflexivity.
    - cbn [andb]. rewrite orb_false_r. apply is_space_spec. intros L'. lia. }
  split; [exact G|]. rewrite G. split.
  - intros L. replace (ch <? 0) with false by (symmetry; apply Z.ltb_ge; lia). rewrite orb_false_r. reflexivity.
  - intros L. rewrite (NEG L). replace (ch <? 0) with true by (symmetry; apply Z.ltb_lt; lia). cbn [orb andb].
    split; [intros H; injection H as ->; reflexivity|intros ->; reflexivity].
Qed.
Print Assumptions is_space_wchar_partial.

(** -224 is taken for a space (its low byte is 32), so it is skipped. *)
Theorem is_space_wchar_refuted :
  code_unit Wchar_s32 (-224) /\ space (-224) = false /\ is_space (-224) = Ok true /\
  from_chars_float cfg_x86_64 Wchar_s32 F64 [-224; 49] (5 + 256) =
    Ok {| r_ptr := []; r_ec := Success; r_value := Some 4607182418800017408 |}.
Proof. repeat split; vm_compute; congruence. Qed.
Print Assumptions is_space_wchar_refuted.

(** Seen through the parser: one character in front of a digit. *)
Theorem from_chars_one_space :
  forall (c : cfg) (u : uc) (t : ftype) (o : options) (ch d : Z) (s : list Z),
  good_text c u o (ch :: d :: s) -> skips_space c o = true -> digit d = true ->
  space ch = true ->
  exists r, from_chars_float_advanced c u t (ch :: d :: s) o = Ok r /\ from_chars_float_advanced c u t (d :: s) o = Ok r.
Proof.
  intros c u t o ch d s G SK D SP.
  destruct (from_chars_space_skipped c u t o [ch] (d :: s) G SK) as (r & E1 & E2 & _).
  - constructor; [exact SP|constructor].
  - cbn. intros SD. apply space_cases in SD. apply digit_true in D. lia.
  - exists r. split; [exact E1|exact E2].
Qed.
Print Assumptions from_chars_one_space.
