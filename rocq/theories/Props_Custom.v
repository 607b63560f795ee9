(** C44: converting a parsed number that the caller filled in, with
    from_chars_advanced(pns, value), parse_number.h:241-297.
    Statements use the entry point, SpecFloat, SpecGrammar and SpecApi only. *)
From Verif Require Import Machine Config Chars Format ParseNumber DecToBin DigitComp FromChars WordLemmas
  Rounding ComputeFloat SpecFloat FloatBridge Clinger SpecGrammar SpecApi Scan ParseSpec
  SlowPath ManyDigits Saturate FloatMaster FloatApi FloatRel Pow10 Props_Pow10 Props_Pow10Rel Props_Relations.
From Coq Require Import QArith Lqa.
Open Scope Z_scope.

(** The record describes the decimal number W * 10^q: either the mantissa is
    all of W, or [too_many_digits] is set, the two digit spans spell W, and the
    mantissa holds its first 19 significant digits.  No other field matters: the
    [valid] and [error] fields, the spans in the first case, the sign and
    [lastmatch] are arbitrary. *)
Inductive describes (pns : parsed) (W q : Z) : Prop :=
| describes_short :
    pn_too_many_digits pns = false -> pn_mantissa pns = W -> pn_exponent pns = q -> 0 <= W < 2 ^ 64 ->
    describes pns W q
| describes_long ip k :
    pn_too_many_digits pns = true ->
    pn_integer pns = Some ip -> all_digits ip -> all_digits (span_list (pn_fraction pns)) ->
    digits_value (ip ++ span_list (pn_fraction pns)) = W ->
    1 <= k -> pn_mantissa pns = W / 10 ^ k -> 10 ^ 18 <= pn_mantissa pns < 10 ^ 19 -> pn_exponent pns = q + k ->
    describes pns W q.

Lemma custom_core c u t pns W q : describes pns W q ->
  exists b x,
    from_chars_advanced_pns c u t pns =
      Ok {| r_ptr := pn_lastmatch pns; r_ec := x; r_value := Some (with_sign (format_of t) (pn_negative pns) b) |} /\
    (if pn_too_many_digits pns then near t (dec W q) b else cf_rounds t (dec W q) b) /\ ok_ec c t W q b x /\ 0 <= W.
Proof.
  intros [TM EM EQ Hm|ip k TM HI AI AF EW Hk EM Hw EQ].
  - unfold from_chars_advanced_pns. rewrite TM, EM, EQ. cbn [negb andb].
    destruct (clinger_spec c t W q (pn_negative pns) ltac:(lia)) as [N|(b & EC & HR)].
    + rewrite N. cbn [bind]. destruct (compute_float_exact c t q W ltac:(lia)) as (am & -> & OK & NR & _).
      cbn [bind]. pose proof (am_ok_power t am OK) as P. destruct (Z.ltb_spec (am_power2 am) 0); [lia|].
      cbn [bind]. rewrite (to_float_spec t _ am OK). cbn [bind].
      exists (am_code t am), (range_ec t W am). split; [reflexivity|].
      split; [exact NR|]. split; [|lia]. split.
      * intros QT. destruct (quiet_clinger c t W q (pn_negative pns) ltac:(lia) QT) as (b & E & _). rewrite E in N. discriminate N.
      * intros _. apply range_ec_spec; [exact OK|lia].
    + rewrite EC. cbn [bind]. exists b, Success. split; [reflexivity|].
      split; [right; split; [exact (clinger_no_tie c t W q _ _ ltac:(lia) EC)|exact HR]|]. split; [|lia]. split; [reflexivity|].
      intros NQ. destruct (clinger_range_code c t W q _ b ltac:(lia) EC HR) as [E|E]; [symmetry; exact E|contradiction].
  - pose proof (Z.pow_pos_nonneg 10 k ltac:(lia) ltac:(lia)) as PK.
    pose proof (Z.div_mod W (10 ^ k) ltac:(lia)) as DM. pose proof (Z.mod_pos_bound W (10 ^ k) PK) as MB.
    assert (W0 : 0 <= W). { rewrite <- EW. apply digits_value_range. apply Forall_app; split; assumption. }
    assert (EW2 : digits_value (ip ++ span_list (pn_fraction pns)) = pn_mantissa pns * 10 ^ k + W mod 10 ^ k).
    { rewrite EW, EM. rewrite (Z.mul_comm (W / 10 ^ k)). exact DM. }
    destruct (many_digits_exact c u t pns ip _ (pn_mantissa pns) k (W mod 10 ^ k) (pn_exponent pns)
                HI eq_refl AI AF eq_refl eq_refl EW2 Hk MB Hw) as (a & EA & OA & NR).
    rewrite (many_digits_eq c u t pns TM), EA. cbn [bind]. rewrite (to_float_spec t _ a OA). cbn [bind].
    exists (am_code t a), (range_ec t (pn_mantissa pns) a). split; [reflexivity|].
    rewrite EW, EQ in NR. replace (q + k - k) with q in NR by (clear; lia).
    split; [rewrite TM; exact NR|]. split; [|exact W0]. 
    assert (WB : 10 ^ 18 <= W).
    { clear - DM MB EM Hw PK. rewrite EM in Hw. nia. }
    clear - WB OA Hw. change (10 ^ 18) with 1000000000000000000 in *. split.
    + intros (_ & _ & _ & _ & QW & _). exfalso. lia.
    + intros _. rewrite range_ec_spec by (assumption || lia). unfold range_code.
      destruct (Z.ltb_spec 0 (pn_mantissa pns)); [|lia]. destruct (Z.ltb_spec 0 W); [|lia]. reflexivity.
Qed.

Lemma decimal_pos W q : (0 < decimal W q)%Q <-> 0 < W.
Proof. exact (dec_pos_iff W q). Qed.

(** C44, every type but float16: correctly rounded, the end pointer is
    [lastmatch], the sign is [negative], and a range error is reported exactly
    when a non-zero number became zero or the result is infinite. *)
Theorem from_chars_parsed_correct :
  forall c u t pns W q, t <> F16 -> describes pns W q ->
  exists b x,
    from_chars_advanced_pns c u t pns =
      Ok {| r_ptr := pn_lastmatch pns; r_ec := x; r_value := Some (with_sign (format_of t) (pn_negative pns) b) |} /\
    nearest_even (format_of t) (decimal W q) b /\
    (x = Success \/ x = OutOfRange) /\
    (x = OutOfRange <-> (0 < W /\ b = 0) \/ b = infinity (format_of t)).
Proof.
  intros c u t pns W q NT D. destruct (custom_core c u t pns W q D) as (b & x & E & R & (_ & OE) & W0).
  exists b, x. split; [exact E|]. split.
  - apply rounds_nearest_even. destruct (pn_too_many_digits pns); [apply near_not_F16; assumption|].
    destruct R as [(T & _)|(_ & R)]; [contradiction|exact R].
  - assert (RR : range_rule (format_of t) (decimal W q) b x).
    { apply range_code_rule with W; [apply decimal_pos|]. apply OE. intros (Q & _). contradiction. }
    destruct RR as (R1 & R2). split; [exact R1|]. rewrite R2, decimal_pos. reflexivity.
Qed.
Print Assumptions from_chars_parsed_correct.

(** C44, float16, exactly: to nearest; a tie between subnormal numbers goes up
    if the mantissa is all of W or W*10^q can be written with 19 digits; everything
    else goes to even; and the range error is as above except in the set of
    finding 3, where success is reported whatever the result. *)
Definition silent_parsed (c : cfg) (W q : Z) : Prop :=
  in_constexpr c = false /\ rmode c = ToNearest /\ (eval c = Eval0 \/ eval c = Eval1) /\ W <= 2048 /\ 0 <= q <= 4.

Theorem from_chars_parsed_float16_partial :
  forall c u pns W q, describes pns W q ->
  exists b x,
    from_chars_advanced_pns c u F16 pns =
      Ok {| r_ptr := pn_lastmatch pns; r_ec := x; r_value := Some (with_sign binary16 (pn_negative pns) b) |} /\
    nearest binary16 (decimal W q) b /\
    (pn_too_many_digits pns = false \/ nineteen_digits (decimal W q) ->
       forall b', subnormal_tie binary16 (decimal W q) b' -> b = b') /\
    ((pn_too_many_digits pns = true /\ ~ nineteen_digits (decimal W q)) \/
       (forall b', ~ subnormal_tie binary16 (decimal W q) b') -> nearest_even binary16 (decimal W q) b) /\
    (silent_parsed c W q -> x = Success) /\
    (~ silent_parsed c W q -> x = OutOfRange <-> (0 < W /\ b = 0) \/ b = infinity binary16).
Proof.
  intros c u pns W q D. destruct (custom_core c u F16 pns W q D) as (b & x & E & R & (OQ & OE) & W0).
  exists b, x. split; [exact E|].
  assert (S19 : pn_too_many_digits pns = false \/ nineteen_digits (decimal W q) ->
    forall b', subnormal_tie binary16 (decimal W q) b' -> b = b').
  { intros A b' T. apply subnormal_tie_sub_tie in T. change (decimal W q) with (dec W q) in *.
    destruct (pn_too_many_digits pns).
    - destruct A as [A|A]; [discriminate A|]. apply nineteen_short in A.
      destruct R as [[_ T']|[NT _]]; [eapply sub_tie_unique; eassumption|].
      exfalso. apply NT. split; [exact A|exists b'; exact T].
    - destruct R as [T'|[NT _]]; [eapply sub_tie_unique; eassumption|]. exfalso. exact (NT b' T). }
  split; [|split; [exact S19|]].
  { destruct (pn_too_many_digits pns).
    - exact (proj1 (near_F16_spec _ _ R)).
    - apply (rounds_or_tie_spec F16). destruct R as [R|[_ R]]; [right|left]; exact R. }
  split; [|split].
  - intros A. apply (rounds_nearest_even F16). change (decimal W q) with (dec W q) in *. destruct (pn_too_many_digits pns).
    + destruct R as [[S T]|[_ R]]; [exfalso|exact R]. destruct A as [[_ A]|A].
      * apply A, nineteen_short, S.
      * apply (A b), sub_tie_subnormal_tie, T.
    + destruct R as [T|[_ R]]; [exfalso|exact R]. destruct A as [[A _]|A]; [discriminate A|].
      apply (A b), sub_tie_subnormal_tie, T.
  - intros S. apply OQ. split; [reflexivity|exact S].
  - intros NQ. assert (RR : range_rule (format_of F16) (decimal W q) b x).
    { apply range_code_rule with W; [apply decimal_pos|]. apply OE. intros (_ & Q). exact (NQ Q). }
    destruct RR as (R1 & R2). change binary16 with (format_of F16). rewrite R2, decimal_pos. reflexivity.
Qed.
Print Assumptions from_chars_parsed_float16_partial.

(** 18446744073709551615e-19, which from_chars itself never hands over with
    too_many_digits unset (20 digits); and a record with [valid] unset. *)
Definition custom_short : parsed :=
  {| pn_exponent := -19; pn_mantissa := 2 ^ 64 - 1; pn_lastmatch := [120]; pn_negative := true; pn_valid := false;
     pn_too_many_digits := false; pn_integer := None; pn_fraction := None; pn_error := No_error |}.
Definition custom_long : parsed :=
  {| pn_exponent := 10; pn_mantissa := 1234567890123456789; pn_lastmatch := []; pn_negative := false; pn_valid := true;
     pn_too_many_digits := true; pn_integer := Some [49; 50; 51; 52; 53; 54; 55; 56; 57; 48; 49; 50; 51; 52; 53; 54; 55; 56; 57; 48; 49];
     pn_fraction := None; pn_error := No_error |}.
Lemma from_chars_parsed_example :
  describes custom_short (2 ^ 64 - 1) (-19) /\ describes custom_long 123456789012345678901 8 /\
  from_chars_advanced_pns cfg_x86_64 Char_s F64 custom_short =
    Ok {| r_ptr := [120]; r_ec := Success; r_value := Some 13834358531001078444 |} /\
  exists v, from_chars_advanced_pns cfg_x86_64 Char_s F64 custom_long =
    Ok {| r_ptr := []; r_ec := Success; r_value := Some v |}.
Proof.
  split; [apply describes_short; [reflexivity|reflexivity|reflexivity|lia]|].
  split.
  { eapply (describes_long custom_long _ _ _ 2).
    - reflexivity.
    - reflexivity.
    - repeat constructor.
    - constructor.
    - vm_compute. reflexivity.
    - lia.
    - vm_compute. reflexivity.
    - vm_compute. split; [discriminate|reflexivity].
    - reflexivity. }
  split; [vm_compute; reflexivity|]. eexists. vm_compute. reflexivity.
Qed.

(** C44: only the number described, the sign and lastmatch matter, not how the
    number is split into mantissa, exponent and digits, nor the build or the
    character type. *)
Theorem from_chars_parsed_same_number :
  forall c c' u u' t pns pns' W q W' q', t <> F16 ->
  describes pns W q -> describes pns' W' q' -> (decimal W q == decimal W' q')%Q ->
  pn_negative pns = pn_negative pns' -> pn_lastmatch pns = pn_lastmatch pns' ->
  exists r, from_chars_advanced_pns c u t pns = Ok r /\ from_chars_advanced_pns c' u' t pns' = Ok r.
Proof.
  intros c c' u u' t pns pns' W q W' q' NT D D' EQ EN EL.
  destruct (from_chars_parsed_correct c u t pns W q NT D) as (b & x & E & N & R1 & R2).
  destruct (from_chars_parsed_correct c' u' t pns' W' q' NT D') as (b' & x' & E' & N' & R1' & R2').
  assert (b = b').
  { apply (nearest_even_unique t (decimal W' q')); [eapply Pow10.nearest_even_comp; [exact EQ|exact N]|exact N']. }
  subst b'. assert (PW : 0 < W <-> 0 < W') by (rewrite <- (decimal_pos W q), <- (decimal_pos W' q'), EQ; reflexivity).
  assert (x = x').
  { assert (X : x = OutOfRange <-> x' = OutOfRange) by (rewrite R2, R2', PW; reflexivity).
    destruct R1 as [-> | ->], R1' as [-> | ->]; try reflexivity; exfalso; [destruct X as [_ X]|destruct X as [X _]];
      discriminate (X eq_refl). }
  subst x'. rewrite E, E', EN, EL. eexists. split; reflexivity.
Qed.
Print Assumptions from_chars_parsed_same_number.

(** ... for float16 too, between builds that convert short numbers in the same way
    and with the same too_many_digits. *)
Theorem from_chars_parsed_build :
  forall c c' u u' t pns W q, describes pns W q -> (direct_arithmetic c <-> direct_arithmetic c') ->
  exists r, from_chars_advanced_pns c u t pns = Ok r /\ from_chars_advanced_pns c' u' t pns = Ok r.
Proof.
  intros c c' u u' t pns W q D DA.
  destruct (custom_core c u t pns W q D) as (b & x & E & R & (P1 & O1) & _).
  destruct (custom_core c' u' t pns W q D) as (b' & x' & E' & R' & (P2 & O2) & _).
  assert (b = b').
  { destruct (pn_too_many_digits pns); [exact (near_unique _ _ _ _ R R')|exact (cf_unique _ _ _ _ R R')]. }
  subst b'. assert (x = x').
  { assert (QQ : quiet c t W q <-> quiet c' t W q) by (clear - DA; unfold quiet, direct_arithmetic in *; tauto).
    destruct (quiet_dec c t W q) as [Q|Q].
    - rewrite P1 by exact Q. rewrite P2 by (apply QQ, Q). reflexivity.
    - rewrite O1 by exact Q. rewrite O2; [reflexivity|]. rewrite <- QQ. exact Q. }
  subst x'. rewrite E, E'. eexists. split; reflexivity.
Qed.
Print Assumptions from_chars_parsed_build.

(** C49 for records filled in by the caller. *)
Corollary assertions_never_fail_parsed :
  forall (c : cfg) (u : uc) (t : ftype) (pns : parsed) (W q : Z), describes pns W q ->
  exists r, from_chars_advanced_pns (with_assertions c) u t pns = Ok r /\ from_chars_advanced_pns c u t pns = Ok r.
Proof. intros c u t pns W q D. exact (from_chars_parsed_build (with_assertions c) c u u t pns W q D (iff_refl _)). Qed.
Print Assumptions assertions_never_fail_parsed.

(** Two records for 10^20 that meet the hypotheses: 1e20, and its 21 digits. *)
Definition custom_1e20 : parsed :=
  {| pn_exponent := 20; pn_mantissa := 1; pn_lastmatch := []; pn_negative := false; pn_valid := true;
     pn_too_many_digits := false; pn_integer := None; pn_fraction := None; pn_error := No_error |}.
Definition custom_21_digits : parsed :=
  {| pn_exponent := 2; pn_mantissa := 10 ^ 18; pn_lastmatch := []; pn_negative := false; pn_valid := true;
     pn_too_many_digits := true; pn_integer := Some (49 :: repeat 48 20); pn_fraction := None; pn_error := No_error |}.
Example parsed_same_example :
  describes custom_1e20 1 20 /\ describes custom_21_digits (10 ^ 20) 0 /\ (decimal 1 20 == decimal (10 ^ 20) 0)%Q /\
  exists r, from_chars_advanced_pns cfg_x86_64 Char_s F64 custom_1e20 = Ok r /\
    from_chars_advanced_pns (with_assertions cfg_x86_64) Char_s F64 custom_21_digits = Ok r.
Proof.
  assert (D1 : describes custom_1e20 1 20) by (apply describes_short; [reflexivity|reflexivity|reflexivity|lia]).
  assert (D2 : describes custom_21_digits (10 ^ 20) 0).
  { eapply (describes_long custom_21_digits _ _ _ 2).
    - reflexivity.
    - reflexivity.
    - repeat constructor.
    - constructor.
    - vm_compute. reflexivity.
    - lia.
    - vm_compute. reflexivity.
    - vm_compute. split; [discriminate|reflexivity].
    - reflexivity. }
  assert (EQ : (decimal 1 20 == decimal (10 ^ 20) 0)%Q) by (vm_compute; reflexivity).
  split; [exact D1|]. split; [exact D2|]. split; [exact EQ|].
  exact (from_chars_parsed_same_number _ _ _ _ F64 _ _ _ _ _ _ ltac:(discriminate) D1 D2 EQ eq_refl eq_refl).
Qed.
