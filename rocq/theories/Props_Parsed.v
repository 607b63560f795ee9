(** The parsing step on its own: parse_number_string, and from_chars_advanced
    on what it returns. *)
From Verif Require Import Machine Config Chars Format ParseNumber DecToBin DigitComp FromChars WordLemmas
  SpecFloat SpecGrammar SpecApi SpecDiagnosis Scan ParseSpec Diagnosis FloatMaster FloatApi Props_Pow10.
Open Scope Z_scope.

(** The options with the JSON bit set to [bjf]. *)
Definition with_json (bjf : bool) (o : options) : options :=
  {| o_format := if bjf then Z.lor (o_format o) 32 else Z.ldiff (o_format o) 32;
     o_decimal_point := o_decimal_point o; o_base := o_base o |}.

Lemma with_json_bit bjf o k : 0 <= k -> Z.testbit (o_format (with_json bjf o)) k = if k =? 5 then bjf else Z.testbit (o_format o) k.
Proof.
  intros K. cbn [with_json o_format]. change 32 with (2 ^ 5).
  destruct bjf; [rewrite Z.lor_spec|rewrite Z.ldiff_spec]; rewrite Z.pow2_bits_eqb by lia; rewrite (Z.eqb_sym 5);
    destruct (k =? 5); cbn [negb]; rewrite ?orb_true_r, ?orb_false_r, ?andb_true_r, ?andb_false_r; reflexivity.
Qed.

Lemma with_json_rules c bjf o : rules_of c (with_json bjf o) = parser_rules c bjf o.
Proof.
  unfold rules_of, parser_rules. rewrite !with_json_bit by lia. cbn [Z.eqb Pos.eqb]. reflexivity.
Qed.

Lemma with_json_parse c u bjf s o store :
  parse_number_string c u bjf s o store =
  parse_number_string c u (json (rules_of c (with_json bjf o))) s (with_json bjf o) store.
Proof.
  rewrite with_json_rules. cbn [parser_rules json]. apply parse_options; [reflexivity|].
  intros k K. rewrite with_json_bit by lia. destruct (Z.eqb_spec k 5); [lia|reflexivity].
Qed.

Lemma parser_text_ok u o s : parser_text u o s -> Forall (okc u) s.
Proof.
  intros (_ & H1 & H2 & _). apply Forall_forall. intros x Hx. split; [apply (proj1 (Forall_forall _ _) H1 x Hx)|].
  intros E. apply (proj1 (Forall_forall _ _) (H2 E) x Hx).
Qed.

(** C35: what the fields of the result mean. *)
Theorem parse_number_fields :
  forall c u bjf o s store neg ip fp e rest,
  parser_text u o s -> number (parser_rules c bjf o) s neg ip fp e rest -> Z.abs e < 2 ^ 28 ->
  let w := digits_value (ip ++ fp) in
  let q := e - Z.of_nat (length fp) in
  exists pns, parse_number_string c u bjf s o store = Ok pns /\
    pn_valid pns = true /\ pn_error pns = No_error /\ pn_negative pns = neg /\ pn_lastmatch pns = rest /\
    (store = true -> pn_integer pns = Some ip /\ span_list (pn_fraction pns) = fp) /\
    (store = false -> pn_integer pns = None /\ pn_fraction pns = None) /\
    (w < 10 ^ 19 -> pn_too_many_digits pns = false /\ pn_mantissa pns = w /\ pn_exponent pns = q) /\
    (10 ^ 19 <= w -> pn_too_many_digits pns = true /\
       (store = true -> exists k, 1 <= k /\ pn_mantissa pns = w / 10 ^ k /\
          10 ^ 18 <= pn_mantissa pns < 10 ^ 19 /\ pn_exponent pns = q + k)).
Proof.
  intros c u bjf o s store neg ip fp e rest T NUM EB w q.
  pose proof (parser_text_ok _ _ _ T) as OK. destruct T as (NE & _ & _ & LEN & DP).
  pose proof (valid_no_error c u bjf s o store) as CLN.
  rewrite with_json_parse in *. rewrite <- with_json_rules in NUM.
  destruct (parse_number_string_spec c u (with_json bjf o) s store OK NE LEN DP) as (pns & EP & CASE).
  rewrite EP in *. exists pns. split; [reflexivity|].
  destruct CASE as [(neg' & ip' & fp' & e1 & rest' & NUM' & PO)|(_ & NN)]; [|destruct (NN _ _ _ _ _ NUM)].
  destruct (number_unique _ _ _ _ _ _ _ _ _ _ _ _ NUM NUM') as (<- & <- & <- & <- & <-). clear NUM'.
  destruct PO as (V & NG & LMT & ST & e' & CL & CS). cbn in CLN. destruct (CLN V) as [NERR SPF].
  assert (EE : e' = e). { destruct CL as (C & _). lia. } subst e'. clear CL.
  do 4 (split; [assumption|]). split; [exact ST|]. split; [exact SPF|].
  destruct CS as [(TM & WB & EM & EQ)|(TM & WB & MD)]; fold w in WB.
  - split; [intros _|lia]. fold w in EM. auto.
  - split; [lia|]. intros _. split; [exact TM|]. intros S. destruct (MD S) as (v & k & r & EM & EQ & VR & KR & RR & EW).
    exists k. fold w in EW. split; [lia|]. split; [|split; [lia|unfold q; lia]].
    rewrite EM. apply Z.div_unique with r; [lia|]. rewrite EW. ring.
Qed.

(** A number with 20 digits: the first 19 are kept. *)
Definition text_20 : list Z := [45; 49; 50; 51; 52; 53; 54; 55; 56; 57; 48; 46; 49; 50; 51; 52; 53; 54; 55; 56; 57; 48; 101; 53; 33].
Lemma parse_number_fields_example :
  parser_text Char_s general text_20 /\
  number (parser_rules cfg_x86_64 false general) text_20 true
    [49; 50; 51; 52; 53; 54; 55; 56; 57; 48] [49; 50; 51; 52; 53; 54; 55; 56; 57; 48] 5 [33] /\
  exists pns, parse_number_string cfg_x86_64 Char_s false text_20 general true = Ok pns /\
    pn_mantissa pns = 1234567890123456789 /\ pn_exponent pns = -4.
Proof.
  split; [|split].
  - split; [discriminate|]. split; [repeat constructor; unfold code_unit; cbn; lia|]. split; [discriminate|]. split; [cbn; lia|reflexivity].
  - exists (tl text_20), (skipn 11 text_20), true, (skipn 22 text_20).
    split; [apply signed_minus|]. split; [repeat split; [repeat constructor|cbn; discriminate]|].
    split; [apply (fraction_some (parser_rules cfg_x86_64 false general)); repeat split; [repeat constructor|cbn; discriminate]|].
    split; [cbn; discriminate|].
    apply (exponent_some (parser_rules cfg_x86_64 false general) _ [53; 33] false [53; 33] [53] [33]); [|constructor; cbn; lia| |discriminate].
    + apply mark_e; [reflexivity|tauto].
    + repeat split; [repeat constructor|cbn; discriminate].
  - eexists. split; [vm_compute; reflexivity|]. split; reflexivity.
Qed.

(** C35: parsing first and converting then is the same as from_chars. *)
Theorem parse_then_convert :
  forall c u t o s neg ip fp e rest,
  parser_text u o s -> skips_space c o = false -> number (rules_of c o) s neg ip fp e rest ->
  exists pns, parse_number_string c u (json (rules_of c o)) s o true = Ok pns /\
    from_chars_advanced_pns c u t pns = from_chars_float_advanced c u t s o.
Proof.
  intros c u t o s neg ip fp e rest T SK NUM.
  pose proof (parser_text_ok _ _ _ T) as OK. destruct T as (NE & _ & _ & LEN & DP).
  destruct (flag_adjust c o) as (_ & FJ & _ & _ & _ & FW & _). cbv zeta in FJ, FW.
  unfold from_chars_float_advanced. rewrite FW, SK, FJ. cbn [bind].
  destruct s as [|ch s']; [congruence|]. set (s := ch :: s') in *. clearbody s.
  set (R := rules_of c o) in *.
  destruct (parse_number_string_spec c u o s true OK NE LEN DP) as (pns & EP & CASE). fold R in EP, CASE.
  destruct CASE as [(neg1 & ip1 & fp1 & e1 & rest1 & NUM1 & PO)|(_ & NN)]; [|destruct (NN _ _ _ _ _ NUM)].
  destruct (number_unique _ _ _ _ _ _ _ _ _ _ _ _ NUM NUM1) as (<- & <- & <- & <- & <-). clear NUM1.
  destruct (parse_number_string_spec c u o s false OK NE LEN DP) as (pnf & EF & CASE). fold R in EF, CASE.
  destruct CASE as [(neg1 & ip1 & fp1 & e1 & rest1 & NUM1 & PF)|(_ & NN)]; [|destruct (NN _ _ _ _ _ NUM)].
  destruct (number_unique _ _ _ _ _ _ _ _ _ _ _ _ NUM NUM1) as (<- & <- & <- & <- & <-). clear NUM1.
  exists pns. split; [exact EP|]. rewrite EF. cbn [bind].
  destruct PO as (V & NG & LMT & _ & e' & CL & CS). destruct PF as (V2 & NG2 & LMT2 & _ & e2 & CL2 & CS2).
  rewrite (clamp_unique _ _ _ CL2 CL) in CS2. clear CL2 e2. rewrite V2. cbn [negb].
  destruct CS2 as [(TM2 & WB2 & EM2 & EE2)|(TM2 & WB2 & _)].
  - destruct CS as [(TM & WB & EM & EE)|(_ & WB & _)]; [|exfalso; clear - WB WB2; lia]. rewrite TM2.
    unfold from_chars_advanced_pns. rewrite TM, EM, EE, NG, LMT, EM2, EE2, NG2, LMT2. cbn [negb andb].
    set (W := digits_value (ip ++ fp)) in *.
    assert (W0 : 0 <= W). { destruct (number_digits _ _ _ _ _ _ _ NUM) as (AI & AF & _). apply digits_value_range. apply Forall_app; auto. }
    destruct (few_digits_spec c t W (e' - Z.of_nat (length fp)) neg rest (conj W0 WB)) as (b & x & EQ & _). clear CL.
    destruct (clinger_fast_path_impl c t W (e' - Z.of_nat (length fp)) neg) as [[v|]|]; [reflexivity| |reflexivity]; cbn [bind] in *.
    destruct (compute_float c t (e' - Z.of_nat (length fp)) W) as [am|]; [|reflexivity]. cbn [bind] in *.
    destruct (am_power2 am <? 0); [discriminate EQ|]. reflexivity.
  - rewrite TM2. unfold parse_number_slow_path. rewrite EP. reflexivity.
Qed.

(** C36: a text is a number or there is exactly one diagnosis. *)
Theorem number_or_diagnosis_holds :
  forall R s, s <> [] ->
  (exists neg ip fp e rest, number R s neg ip fp e rest) \/ (exists err loc, diagnosis R s err loc).
Proof. exact number_or_diagnosis. Qed.

Theorem diagnosis_unique :
  forall c u bjf o s e1 l1 e2 l2, parser_text u o s ->
  diagnosis (parser_rules c bjf o) s e1 l1 -> diagnosis (parser_rules c bjf o) s e2 l2 -> e1 = e2 /\ l1 = l2.
Proof.
  intros c u bjf o s e1 l1 e2 l2 T D1 D2.
  pose proof (parser_text_ok _ _ _ T) as OK. destruct T as (NE & _ & _ & LEN & DP).
  rewrite <- with_json_rules in D1, D2.
  pose proof (diagnosis_reported c u (with_json bjf o) s true e1 l1 OK NE LEN DP D1) as H1.
  pose proof (diagnosis_reported c u (with_json bjf o) s true e2 l2 OK NE LEN DP D2) as H2.
  rewrite H1 in H2. unfold report_parse_error in H2. inversion H2. auto.
Qed.

(** C36: rejected texts are reported with their diagnosis. *)
Theorem parse_number_diagnosis :
  forall c u bjf o s store err loc, parser_text u o s -> diagnosis (parser_rules c bjf o) s err loc ->
  exists pns, parse_number_string c u bjf s o store = Ok pns /\
    pn_valid pns = false /\ pn_error pns = err /\ pn_lastmatch pns = loc /\
    (* the other fields keep their initial values *)
    pn_mantissa pns = 0 /\ pn_exponent pns = 0 /\ pn_negative pns = false /\
    pn_too_many_digits pns = false /\ pn_integer pns = None /\ pn_fraction pns = None.
Proof.
  intros c u bjf o s store err loc T D.
  pose proof (parser_text_ok _ _ _ T) as OK. destruct T as (NE & _ & _ & LEN & DP).
  rewrite <- with_json_rules in D.
  rewrite with_json_parse, (diagnosis_reported c u (with_json bjf o) s store err loc OK NE LEN DP D).
  eexists. split; [reflexivity|]. repeat split.
Qed.

(** And only they are rejected. *)
Theorem parse_number_valid_iff :
  forall c u bjf o s store, parser_text u o s ->
  exists pns, parse_number_string c u bjf s o store = Ok pns /\
    (pn_valid pns = true <-> exists neg ip fp e rest, number (parser_rules c bjf o) s neg ip fp e rest) /\
    (pn_valid pns = false <-> exists err loc, diagnosis (parser_rules c bjf o) s err loc).
Proof.
  intros c u bjf o s store T. pose proof T as T'.
  pose proof (parser_text_ok _ _ _ T) as OK. destruct T as (NE & _ & _ & LEN & DP).
  destruct (parse_number_string_spec c u (with_json bjf o) s store OK NE LEN DP) as (pns & EP & CASE).
  rewrite <- with_json_parse, with_json_rules in *. exists pns. split; [exact EP|].
  assert (NOTD : pn_valid pns = true -> ~ exists err loc, diagnosis (parser_rules c bjf o) s err loc).
  { intros V (err & loc & D). destruct (parse_number_diagnosis c u bjf o s store err loc T' D) as (p2 & E2 & V2 & _).
    rewrite EP in E2. inversion E2; subst. congruence. }
  destruct CASE as [(neg & ip & fp & e & rest & NUM & PO)|(V & NN)].
  - destruct PO as (V & _). split; split; intros H.
    + exists neg, ip, fp, e, rest. exact NUM.
    + exact V.
    + congruence.
    + exfalso. exact (NOTD V H).
  - rewrite V. split; split; intros H; try reflexivity; try discriminate.
    + destruct H as (neg & ip & fp & e & rest & NUM). destruct (NN _ _ _ _ _ NUM).
    + destruct (number_or_diagnosis (parser_rules c bjf o) s NE) as [(neg & ip & fp & e & rest & NUM)|D]; [destruct (NN _ _ _ _ _ NUM)|exact D].
Qed.

(** "-01.5" under JSON: the leading zero is reported where the digits start,
    and "1e+" with scientific notation only: where the digits are missing. *)
Lemma parse_number_diagnosis_example :
  parser_text Char_s json_options [45; 48; 49; 46; 53] /\
  diagnosis (parser_rules cfg_x86_64 true json_options) [45; 48; 49; 46; 53] Leading_zeros_in_integer_part [48; 49; 46; 53] /\
  let o := {| o_format := 1; o_decimal_point := 46; o_base := 10 |} in
  parser_text Char_s o [49; 101; 43] /\
  diagnosis (parser_rules cfg_x86_64 false o) [49; 101; 43] Missing_exponential_part [].
Proof.
  split; [|split; [|split]].
  - split; [discriminate|]. split; [repeat constructor; unfold code_unit; cbn; lia|]. split; [discriminate|]. split; [cbn; lia|reflexivity].
  - refine (json_zeros _ _ true [48; 49; 46; 53] 49 [] [46; 53] _ _ _); [reflexivity|apply signed_minus|]. repeat split; [repeat constructor|cbn; discriminate].
  - split; [discriminate|]. split; [repeat constructor; unfold code_unit; cbn; lia|]. split; [discriminate|]. split; [cbn; lia|reflexivity].
  - eapply exponent_digits; [|apply mark_e; [reflexivity|left; reflexivity]|apply exp_plus|exact I|reflexivity].
    exists false, [49; 101; 43], [49], [101; 43], false, [].
    split; [apply signed_none; cbn; lia|]. split; [repeat split; [repeat constructor|cbn; discriminate]|].
    split; [apply fraction_none; cbn; lia|]. cbn. discriminate.
Qed.
