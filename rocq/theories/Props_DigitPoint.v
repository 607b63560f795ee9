(** Property C82: a digit as decimal separator (parse_options::decimal_point), which C11 excludes:
    what the library does with it, exactly and for every text. *)
From Verif Require Import Machine Config Chars Format ParseNumber DecToBin DigitComp FromChars WordLemmas
  EiselTable Rounding ComputeFloat SpecFloat FloatBridge FpArith Clinger SpecGrammar SpecApi SpecRel SpecCall Scan ParseSpec Special
  SlowPath ManyDigits Saturate FloatMaster FloatApi Defined Props_Custom Props_Separator Props_Exact Props_Pow10.
From Coq Require Import QArith Lqa.
Open Scope Z_scope.

Lemma zeros_and_range d ds : 0 <= leading_zeros_and d ds <= Z.of_nat (length ds).
Proof.
  induction ds as [|ch ds IH]; cbn [leading_zeros_and length]; [lia|].
  destruct (ch =? 48); [lia|]. destruct (ch =? d); lia.
Qed.

Lemma skip_digit dp s1 ip s2 : digit dp = true -> run s1 ip s2 -> forall dc,
  - 2 ^ 60 + Z.of_nat (length ip) <= dc <= 2 ^ 60 -> skip_leading dp s1 dc = Ok (dc - leading_zeros_and dp ip).
Proof.
  intros D (-> & AI & N). induction ip as [|ch ip IH]; intros dc H.
  - cbn [app leading_zeros_and]. rewrite Z.sub_0_r. destruct s2 as [|ch s2]; [reflexivity|]. cbn [skip_leading].
    cbn in N. destruct (Z.eqb_spec ch 48) as [->|_]; [destruct (N eq_refl)|].
    destruct (Z.eqb_spec ch dp) as [->|_]; [contradiction|]. reflexivity.
  - cbn [app skip_leading leading_zeros_and]. inversion AI; subst. cbn [length] in H.
    destruct (ch =? 48); cbn [orb].
    + rewrite chk64_Ok by lia. cbn [bind]. rewrite IH by (assumption || lia). f_equal. lia.
    + destruct (ch =? dp); [|f_equal; lia]. cbn [bind]. apply IH; [assumption|lia].
Qed.

Lemma skip_absent dp d s1 ip s2 : digit dp = true -> run s1 ip s2 -> ~ In d s1 -> forall dc,
  - 2 ^ 60 + Z.of_nat (length ip) <= dc <= 2 ^ 60 ->
  exists a, skip_leading d s1 dc = Ok a /\ dc - leading_zeros_and dp ip <= a.
Proof.
  intros D (-> & AI & N). induction ip as [|ch ip IH]; intros NI dc H.
  - cbn [app leading_zeros_and]. exists dc. split; [|lia]. destruct s2 as [|ch s2]; [reflexivity|]. cbn [skip_leading].
    cbn in N. destruct (Z.eqb_spec ch 48) as [->|_]; [destruct (N eq_refl)|].
    destruct (Z.eqb_spec ch d) as [->|_]; [destruct NI; left; reflexivity|]. reflexivity.
  - cbn [app skip_leading leading_zeros_and]. inversion AI; subst. cbn [length] in H. pose proof (zeros_and_range dp ip).
    destruct (ch =? 48); cbn [orb].
    + rewrite chk64_Ok by lia. cbn [bind]. destruct (IH ltac:(assumption)) with (dc := dc - 1) as (a & -> & L).
      * intros I. apply NI. right. exact I.
      * lia.
      * exists a. split; [reflexivity|lia].
    + destruct (Z.eqb_spec ch d) as [->|_]; [destruct NI; left; reflexivity|]. exists dc. split; [reflexivity|].
      destruct (ch =? dp); lia.
Qed.

Lemma not_in_at_char d s : ~ In d s -> at_char d s = false.
Proof. intros N. destruct s as [|ch s]; [reflexivity|]. cbn. apply Z.eqb_neq. intros ->. apply N. left. reflexivity. Qed.

Lemma signed_in R s n s1 d : signed R s n s1 -> ~ In d s -> ~ In d s1.
Proof. intros H N I. destruct H; apply N; try (right; exact I); exact I. Qed.

Lemma run_in s ip s2 d : run s ip s2 -> ~ In d s -> ~ In d s2.
Proof. intros (-> & _) N I. apply N, in_app_iff. right. exact I. Qed.

(** Parsing with a digit and parsing with a separator that does not occur. *)
Lemma digit_point_cases c u o d s store :
  Forall (okc u) s -> s <> [] -> Z.of_nat (length s) <= 2 ^ 59 -> digit (o_decimal_point o) = true -> digit d = false -> ~ In d s ->
  let R := rules_of c (with_point o d) in
  (exists neg ip e e' rest pns,
      number R s neg ip [] e rest /\ clamp e e' /\ miscounted (o_decimal_point o) ip /\
      parse_number_string c u (json R) s o store = Ok pns /\
      pn_valid pns = true /\ pn_too_many_digits pns = false /\ pn_mantissa pns = digits_value ip mod 2 ^ 64 /\
      pn_exponent pns = e' /\ pn_lastmatch pns = rest /\ pn_negative pns = neg) \/
  (parse_number_string c u (json R) s o store = parse_number_string c u (json R) s (with_point o d) store /\
   forall neg ip fp e rest, number R s neg ip fp e rest -> ~ miscounted (o_decimal_point o) ip).
Proof.
  intros OK NE LEN DP DD NI R.
  destruct (parse_number_string_spec c u (with_point o d) s store OK NE LEN DD) as (pns0 & EP & CASE0).
  fold R in EP, CASE0.
  assert (INV : pn_valid pns0 = false -> forall neg ip fp e rest, number R s neg ip fp e rest -> ~ miscounted (o_decimal_point o) ip).
  { intros V. destruct CASE0 as [(? & ? & ? & ? & ? & _ & (V' & _))|(_ & NN)]; [congruence|].
    intros neg ip fp e rest N. destruct (NN _ _ _ _ _ N). }
  clear CASE0.
  destruct (sign_part c u (with_point o d) s OK NE) as (first & sgn & ED & HS & SG). cbv zeta in HS. fold R in HS, SG.
  assert (RI0 : forall n s1, signed R s n s1 -> ~ In d s1) by (intros n s1 H; eapply signed_in; eassumption).
  revert EP. unfold parse_number_string. rewrite ED. cbn [bind]. cbv zeta.
  change (o_format (with_point o d)) with (o_format o) in *. change (o_decimal_point (with_point o d)) with d in *.
  set (dp := o_decimal_point o) in *. set (fmt := adjust_for_feature_macros c (o_format o)) in *.
  rewrite HS.
  match goal with |- context [bind (if (first =? 45) || ?b then ?X else Ok (inr s)) _] =>
    assert (HS' : (if (first =? 45) || b then X else Ok (inr s)) = Ok sgn) end.
  { rewrite <- HS. destruct s as [|f s]; [congruence|]. cbn [tl]. destruct s as [|ch s]; [reflexivity|].
    destruct ((first =? 45) || _); [|reflexivity].
    inversion OK as [|? ? _ OS]; subst. inversion OS as [|? ? OC _]; subst. rewrite is_integer_spec by exact OC. cbn [bind].
    destruct (json R); [reflexivity|]. destruct (digit ch) eqn:DC; [reflexivity|]. cbn [negb andb].
    replace (ch =? dp) with false by (symmetry; apply Z.eqb_neq; intros ->; congruence).
    replace (ch =? d) with false; [reflexivity|]. symmetry. apply Z.eqb_neq. intros ->. apply NI. right. left. reflexivity. }
  rewrite HS'. cbn [bind]. clear HS HS' ED.
  destruct sgn as [err|s1].
  { intros [= <-]. right. split; [reflexivity|]. apply INV. apply SG. }
  destruct SG as (SG & OK1 & LEN1). specialize (RI0 _ _ SG). set (neg := first =? 45) in *. clearbody neg. clear first.
  destruct (run_exists s1) as (ip & s2 & RI).
  rewrite (scan_integer_spec u s1 ip s2 OK1 RI). cbn [bind].
  rewrite (run_remaining _ _ _ RI), (run_firstn _ _ _ RI).
  pose proof (proj2 (run_ok u _ _ _ RI OK1)) as OK2.
  pose proof (run_length _ _ _ RI) as LI.
  pose proof (run_in _ _ _ _ RI RI0) as NI2.
  rewrite (not_in_at_char d s2 NI2), (digit_point_at dp s2 DP (proj2 (proj2 RI))). cbn [bind].
  assert (PNS : forall X : res parsed, forall p e, X = Ok pns0 -> X = Ok (report_parse_error p e) -> pn_valid pns0 = false).
  { intros X p e A B. rewrite A in B. injection B as ->. reflexivity. }
  destruct (json R && (Z.of_nat (length ip) =? 0)) eqn:J1.
  { intros E. right. split; [reflexivity|]. apply INV. injection E as <-. reflexivity. }
  destruct (json R && at_char 48 s1 && (1 <? Z.of_nat (length ip))) eqn:J2.
  { intros E. right. split; [reflexivity|]. apply INV. injection E as <-. reflexivity. }
  destruct (json R && false && (0 =? 0)) eqn:J3.
  { intros E. right. split; [reflexivity|]. apply INV. injection E as <-. reflexivity. }
  destruct (negb (json R) && (Z.of_nat (length ip) =? 0)) eqn:J4.
  { intros E. right. split; [reflexivity|]. apply INV. injection E as <-. reflexivity. }
  clear PNS.
  destruct (parse_exponent_spec c u (with_point o d) s2 0 OK2) as [(e & e' & rest & EQ & EX & CL)|(err & EQ & EV & EX)]; [lia| |].
  2:{ change (o_format (with_point o d)) with (o_format o) in EQ. fold fmt in EQ. rewrite EQ. cbn [bind].
      intros [= <-]. right. split; [reflexivity|]. apply INV, EV. }
  change (o_format (with_point o d)) with (o_format o) in EQ. fold fmt in EQ. rewrite EQ. cbn [bind]. clear EQ. fold R in EX.
  assert (NUM : number R s neg ip [] e rest).
  { exists s1, s2, false, s2. split; [exact SG|]. split; [exact RI|]. split.
    { apply fraction_none. destruct s2 as [|ch s2]; [exact I|]. cbn. intros ->. apply NI2. left. reflexivity. }
    split; [|exact EX]. unfold mantissa_ok. destruct (json R); cbn [andb negb] in *.
    - split; [|split].
      + intros ->. discriminate J1.
      + intros l ->. destruct RI as (E & _). rewrite E in J2. cbn [app at_char] in J2. cbn [Z.eqb Pos.eqb andb] in J2.
        apply Z.ltb_ge in J2. cbn [length] in J2. destruct l; [reflexivity|cbn [length] in J2; lia].
      + discriminate.
    - rewrite app_nil_r. intros ->. discriminate J4. }
  assert (MC : forall P : Prop, (~ miscounted dp ip -> P) -> ~ miscounted dp ip ->
     P /\ forall neg0 ip0 fp0 e0 rest0, number R s neg0 ip0 fp0 e0 rest0 -> ~ miscounted dp ip0).
  { intros P H NM. split; [apply H, NM|]. intros neg0 ip0 fp0 e0 rest0 N0.
    destruct (number_unique _ _ _ _ _ _ _ _ _ _ _ _ NUM N0) as (_ & <- & _). exact NM. }
  pose proof (zeros_and_range dp ip) as ZR.
  destruct (Z.ltb_spec 19 (Z.of_nat (length ip))) as [L|L].
  2:{ cbn [bind]. intros E. right. apply MC; [reflexivity|]. unfold miscounted. lia. }
  rewrite (skip_digit dp s1 ip s2 DP RI) by lia. cbn [bind].
  destruct (Z.ltb_spec 19 (Z.of_nat (length ip) - leading_zeros_and dp ip)) as [L2|L2].
  - intros E. right. apply MC; [|unfold miscounted; lia]. intros _.
    destruct (skip_absent dp d s1 ip s2 DP RI RI0 (Z.of_nat (length ip)) ltac:(lia)) as (a & -> & LB).
    cbn [bind]. destruct (Z.ltb_spec 19 a); [reflexivity|]. lia.
  - intros _. left. exists neg, ip, e, e', rest. eexists. split; [exact NUM|]. split; [exact CL|].
    split; [unfold miscounted; lia|]. split; [reflexivity|].
    cbn [pn_valid pn_too_many_digits pn_mantissa pn_exponent pn_lastmatch pn_negative].
    split; [reflexivity|]. split; [reflexivity|]. split; [unfold acc; rewrite Z.mul_0_l, Z.add_0_l; reflexivity|].
    split; [lia|]. split; reflexivity.
Qed.

(** A written exponent beyond 2^28 may be read as another one beyond it: nothing changes. *)
Lemma saturate_word t W e e' b : 0 <= W < 2 ^ 64 -> clamp e e' -> cf_rounds t (dec W e') b -> cf_rounds t (dec W e) b.
Proof.
  intros HW ([->|C] & _) H; [exact H|].
  pose proof (power_bounds t) as PB. change (2 ^ 28) with 268435456 in C. change (2 ^ 64) with 18446744073709551616 in HW.
  assert (N0 : near0 t (dec W e') b) by (destruct H as [H|[_ H]]; [right|left]; exact H).
  destruct (Z.eq_dec W 0) as [->|NZ].
  { assert (E0 : (dec 0 e' == dec 0 e)%Q) by (unfold dec; change [0]q with 0%Q; ring).
    destruct H as [(T & HB & HT)|[NT R]].
    - left. split; [exact T|]. split; [exact HB|]. rewrite <- HT. unfold units. rewrite E0. reflexivity.
    - right. split.
      + intros b' (T & HB & HT). apply (NT b'). split; [exact T|]. split; [exact HB|]. rewrite <- HT. unfold units. rewrite E0. reflexivity.
      + eapply rounds_comp; [exact E0|exact R]. }
  right. destruct C as [C|C].
  - assert (B1 : b = inf_code t) by (eapply huge_near; [|exact N0]; apply dec_ge_pow; lia).
    subst b. split; [|apply huge_near_intro, dec_ge_pow; lia].
    intros b' T. assert (B2 : b' = inf_code t) by (eapply huge_near; [|right; exact T]; apply dec_ge_pow; lia).
    destruct T as (_ & T & _). pose proof (sub_lt_inf t). lia.
  - assert (B1 : b = 0).
    { apply (tiny_near t (dec W e')); [apply dec_nonneg; lia| |exact N0]. apply (dec_le_pow W e' 20); lia. }
    subst b. split.
    { intros b' T. assert (B2 : b' = 0).
      { apply (tiny_near t (dec W e)); [apply dec_nonneg; lia| |right; exact T]. apply (dec_le_pow W e 20); lia. }
      destruct T as (_ & T & _). lia. }
    apply tiny_near_intro; [apply dec_nonneg; lia|]. apply (dec_le_pow W e 20); lia.
Qed.

Lemma quiet_clamp c t W e e' : clamp e e' -> quiet c t W e <-> quiet c t W e'.
Proof.
  intros ([->|C] & _); [reflexivity|]. change (2 ^ 28) with 268435456 in C. unfold quiet.
  split; intros (A1 & A2 & A3 & A4 & A5 & A6); exfalso; lia.
Qed.

(** From the fast entry to the conversion of a parsed number. *)
Lemma word_entry c u t pns (slow : res result) : pn_too_many_digits pns = false -> 0 <= pn_mantissa pns < 2 ^ 64 ->
  (let* cl := clinger_fast_path_impl c t (pn_mantissa pns) (pn_exponent pns) (pn_negative pns) in
   match cl with
   | Some v => Ok {| r_ptr := pn_lastmatch pns; r_ec := Success; r_value := Some v |}
   | None =>
     let* am := compute_float c t (pn_exponent pns) (pn_mantissa pns) in
     if am_power2 am <? 0 then slow
     else
       let* v := to_float t (pn_negative pns) am in
       Ok {| r_ptr := pn_lastmatch pns; r_ec := range_ec t (pn_mantissa pns) am; r_value := Some v |}
   end) = from_chars_advanced_pns c u t pns.
Proof.
  intros TM Hm. unfold from_chars_advanced_pns. rewrite TM. cbn [negb andb].
  destruct (clinger_fast_path_impl c t (pn_mantissa pns) (pn_exponent pns) (pn_negative pns)) as [[v|]|]; cbn [bind]; try reflexivity.
  destruct (compute_float_exact c t (pn_exponent pns) (pn_mantissa pns) Hm) as (am & -> & OK & _). cbn [bind].
  pose proof (am_ok_power t am OK) as P. destruct (Z.ltb_spec (am_power2 am) 0); [lia|]. reflexivity.
Qed.

(** Both cases, from the start of the number on. *)
Lemma digit_separator_at c u t o d s s0 :
  digit (o_decimal_point o) = true -> ~ In d s0 -> started c u (with_point o d) s s0 ->
  let R := rules_of c (with_point o d) in
  (forall neg ip fp e rest,
     number R s0 neg ip fp e rest -> miscounted (o_decimal_point o) ip ->
     let W := digits_value ip mod 2 ^ 64 in
     fp = [] /\
     exists e' b x, clamp e e' /\
       from_chars_float_advanced c u t s o =
         Ok {| r_ptr := rest; r_ec := x; r_value := Some (with_sign (format_of t) neg b) |} /\
       cf_rounds t (dec W e') b /\ ok_ec c t W e' b x) /\
  ((forall neg ip fp e rest, number R s0 neg ip fp e rest -> ~ miscounted (o_decimal_point o) ip) ->
     from_chars_float_advanced c u t s o = from_chars_float_advanced c u t s (with_point o d)).
Proof.
  intros DP NI0 (ST & OK0 & LEN0 & DD) R.
  change (o_format (with_point o d)) with (o_format o) in ST. change (o_decimal_point (with_point o d)) with d in DD.
  assert (FJ : flag (adjust_for_feature_macros c (o_format o)) f_basic_json = json R) by apply flag_adjust.
  split.
  - intros neg ip fp e rest N MC W.
    assert (NE : s0 <> []) by (intros ->; exact (number_nonempty _ _ _ _ _ _ _ N eq_refl)).
    destruct (digit_point_cases c u o d s0 false OK0 NE LEN0 DP DD NI0)
      as [(neg0 & ip0 & e0 & e' & rest0 & pns & N0 & CL & _ & EP & V & TM & EM & EE & EL & EN)|(_ & NM)];
      [|destruct (NM _ _ _ _ _ N MC)]. fold R in N0, EP.
    destruct (number_unique _ _ _ _ _ _ _ _ _ _ _ _ N0 N) as (-> & -> & <- & -> & ->).
    split; [reflexivity|].
    assert (RW : 0 <= W < 2 ^ 64) by (apply Z.mod_pos_bound; lia).
    fold W in EM.
    assert (DS : describes pns W e') by (apply describes_short; assumption).
    destruct (custom_core c u t pns W e' DS) as (b & x & E & RR & OE & _).
    rewrite TM in RR. exists e', b, x. split; [exact CL|]. split; [|split; [exact RR|exact OE]].
    unfold from_chars_float_advanced. rewrite ST. cbn [bind].
    destruct s0 as [|ch s1]; [congruence|]. set (s0 := ch :: s1) in *. clearbody s0. rewrite FJ, EP. cbn [bind].
    rewrite V, TM. cbn [negb]. rewrite (word_entry c u t pns _ TM) by (rewrite EM; exact RW). rewrite E, EL, EN. reflexivity.
  - intros NM. unfold from_chars_float_advanced. change (o_format (with_point o d)) with (o_format o). rewrite ST. cbn [bind].
    destruct s0 as [|ch s1]; [reflexivity|]. assert (NE : ch :: s1 <> []) by discriminate. set (s0 := ch :: s1) in *. clearbody s0.
    rewrite FJ.
    assert (EQ : forall b, parse_number_string c u (json R) s0 o b = parse_number_string c u (json R) s0 (with_point o d) b).
    { intros b. destruct (digit_point_cases c u o d s0 b OK0 NE LEN0 DP DD NI0)
        as [(neg0 & ip0 & e0 & e' & rest0 & pns & N0 & _ & MC & _)|(EQ & _)]; [|exact EQ]. destruct (NM _ _ _ _ _ N0 MC). }
    unfold parse_number_slow_path. rewrite !EQ. reflexivity.
Qed.

(** C82.  Let [d] be any character that is not a digit and does not occur in the text.  A digit as
    separator is like [d] - there is no fraction, and the digit is a digit - except for numbers
    whose digits are [miscounted]: those are read with the significand modulo 2^64. *)
Theorem from_chars_digit_separator_exact :
  forall (c : cfg) (u : uc) (t : ftype) (o : options) (d : Z) (s s0 : list Z),
  digit (o_decimal_point o) = true -> ~ In d s ->
  good_text c u (with_point o d) s -> starts_at c o s s0 ->
  let R := rules_of c (with_point o d) in
  (forall neg ip fp e rest,
     number R s0 neg ip fp e rest -> miscounted (o_decimal_point o) ip ->
     let W := digits_value ip mod 2 ^ 64 in
     fp = [] /\
     exists b x,
       from_chars_float_advanced c u t s o =
         Ok {| r_ptr := rest; r_ec := x; r_value := Some (with_sign (format_of t) neg b) |} /\
       product_rounded t (decimal W e) b /\
       (x = Success \/ x = OutOfRange) /\
       (x = OutOfRange <-> ((0 < W /\ b = 0) \/ b = infinity (format_of t)) /\ ~ (t = F16 /\ silent_parsed c W e))) /\
  ((forall neg ip fp e rest, number R s0 neg ip fp e rest -> ~ miscounted (o_decimal_point o) ip) ->
     from_chars_float_advanced c u t s o = from_chars_float_advanced c u t s (with_point o d)).
Proof.
  intros c u t o d s s0 DP NI G SA R.
  pose proof (text_started c u (with_point o d) s s0 (good_text_ok _ _ _ _ G) SA) as ST.
  assert (NI0 : ~ In d s0).
  { intros I. apply NI. unfold starts_at in SA. destruct (skips_space c o); [|subst; exact I].
    destruct SA as (w & -> & _). apply in_app_iff. right. exact I. }
  destruct (digit_separator_at c u t o d s s0 DP NI0 ST) as (MIS & B). fold R in MIS, B.
  split; [|exact B]. intros neg ip fp e rest N MC W.
  destruct (MIS neg ip fp e rest N MC) as (FP & e' & b & x & CL & E & RR & OE). fold W in RR, OE.
  split; [exact FP|]. assert (RW : 0 <= W < 2 ^ 64) by (apply Z.mod_pos_bound; lia).
  apply (saturate_word t W e e' b RW CL) in RR.
  exists b, x. split; [exact E|]. split.
    { unfold product_rounded. change (decimal W e) with (dec W e). split; [|split].
      - apply (rounds_or_tie_spec t). destruct RR as [T|[_ RR]]; [right|left]; assumption.
      - intros b' -> T. apply subnormal_tie_sub_tie in T. destruct RR as [T'|[NT _]]; [eapply sub_tie_unique; eassumption|].
        destruct (NT b' T).
      - intros A. apply (rounds_nearest_even t). destruct RR as [T|[_ RR]]; [exfalso|exact RR].
        destruct A as [A|A]; [apply A, (proj1 T)|]. destruct t; try (destruct T as (F & _); discriminate F).
        apply (A b), sub_tie_subnormal_tie, T. }
    destruct OE as (Q1 & Q2).
    assert (QD : quiet c t W e <-> t = F16 /\ silent_parsed c W e) by (unfold quiet, silent_parsed; tauto).
    rewrite <- QD. rewrite <- (quiet_clamp c t W e e' CL) in Q1, Q2.
    destruct (quiet_dec c t W e) as [Q|NQ].
    + rewrite (Q1 Q). split; [left; reflexivity|]. split; [discriminate|]. intros (_ & NQ). contradiction.
    + rewrite (Q2 NQ). assert (RC : range_rule (format_of t) (decimal W e) b (range_code t W b)).
      { apply range_code_rule with W; [apply decimal_pos|reflexivity]. }
      destruct RC as (R1 & R2). split; [exact R1|]. rewrite R2, decimal_pos. tauto.
Qed.
Print Assumptions from_chars_digit_separator_exact.

(** 50000000000000000000 with '5' as separator: the hypotheses hold, the digits are miscounted
    and the significand is 5 * 10^19 - 2 * 2^64; 15000000000000000000000 is not miscounted. *)
Example digit_separator_example :
  let o := {| o_format := 5; o_decimal_point := 53; o_base := 10 |} in
  let s := 53 :: repeat 48 19 in
  ~ In 46 s /\ good_text cfg_x86_64 Char_s (with_point o 46) s /\ starts_at cfg_x86_64 o s s /\
  number (rules_of cfg_x86_64 (with_point o 46)) s false s [] 0 [] /\
  miscounted 53 s /\ digits_value s mod 2 ^ 64 = 13106511852580896768 /\
  from_chars_float_advanced cfg_x86_64 Char_s F64 s o =
    Ok {| r_ptr := []; r_ec := Success; r_value := Some 4892805259687506176 |} /\
  ~ miscounted 53 (49 :: 53 :: repeat 48 21) /\
  from_chars_float_advanced cfg_x86_64 Char_s F64 (49 :: 53 :: repeat 48 21) o =
    from_chars_float_advanced cfg_x86_64 Char_s F64 (49 :: 53 :: repeat 48 21) (with_point o 46).
Proof.
  cbv zeta. split; [|split; [|split; [|split; [|split; [|split; [|split; [|split]]]]]]].
  - cbn. intuition discriminate.
  - split; [|split; [discriminate|split; [cbn; lia|reflexivity]]].
    apply Forall_forall. intros x H. cbn in H. assert (X : x = 53 \/ x = 48) by intuition. destruct X as [-> | ->]; split; discriminate.
  - reflexivity.
  - exists (53 :: repeat 48 19), [], false, []. split; [apply signed_none; cbn; intuition discriminate|].
    split; [split; [reflexivity|split; [repeat constructor|exact I]]|]. split; [apply fraction_none; exact I|].
    split; [cbn; discriminate|]. apply exponent_none; [intros s1 H; inversion H|right; reflexivity].
  - unfold miscounted. vm_compute. split; [reflexivity|discriminate].
  - vm_compute. reflexivity.
  - vm_compute. reflexivity.
  - unfold miscounted. intros (_ & H). vm_compute in H. apply H. reflexivity.
  - vm_compute. reflexivity.
Qed.
