(** Totality of the floating-point entry point for every text and every option
    set, including a digit as decimal point and wide characters mistaken for
    white space. *)
From Verif Require Import Machine Config Chars Format ParseNumber DecToBin DigitComp FromChars WordLemmas
  EiselTable Rounding ComputeFloat SpecFloat FloatBridge FpArith Clinger SpecGrammar SpecApi Scan ParseSpec Special
  SlowPath ManyDigits Saturate FloatMaster FloatApi.
Open Scope Z_scope.

Lemma is_space_total ch : exists b, is_space ch = Ok b.
Proof.
  unfold is_space. destruct (ch <? 256); [|eauto].
  change (u8 ch) with (ch mod 256). rewrite space_lut_spec by (apply Z.mod_pos_bound; lia). cbn [bind]. eauto.
Qed.

Lemma skip_ws_total s : exists ws s0, skip_ws s = Ok s0 /\ s = ws ++ s0.
Proof.
  induction s as [|ch s (ws & s0 & E & IH)]; [exists [], []; split; reflexivity|]. cbn [skip_ws].
  destruct (is_space_total ch) as (b & ->). cbn [bind]. destruct b.
  - exists (ch :: ws), s0. split; [exact E|]. cbn [app]. f_equal. exact IH.
  - exists [], (ch :: s). split; reflexivity.
Qed.

(** A decimal point no text contains. *)
Definition nowhere : Z := - 2 ^ 40.
Definition no_point (o : options) : options :=
  {| o_format := o_format o; o_decimal_point := nowhere; o_base := o_base o |}.

Lemma nowhere_okc u ch : okc u ch -> (ch =? nowhere) = false.
Proof. intros H. apply okc_bounds in H. apply Z.eqb_neq. unfold nowhere. change (2 ^ 40) with 1099511627776. destruct u; lia. Qed.

Lemma no_point_at u s : Forall (okc u) s -> at_char nowhere s = false.
Proof. intros H. destruct H as [|ch s H]; [reflexivity|]. cbn [at_char]. apply (nowhere_okc u), H. Qed.

Lemma digit_point_at dp s : digit dp = true -> not_at_digit s -> at_char dp s = false.
Proof.
  intros D N. destruct s as [|ch s]; [reflexivity|]. cbn in N |- *. apply Z.eqb_neq. intros ->. contradiction.
Qed.

(** With more characters skipped, the count gets smaller. *)
Lemma skip_leading_mono dp u : forall s dc, Forall (okc u) s -> - 2 ^ 60 + Z.of_nat (length s) <= dc <= 2 ^ 60 ->
  exists a b, skip_leading dp s dc = Ok a /\ skip_leading nowhere s dc = Ok b /\ a <= b.
Proof.
  intros s dc OK H. destruct (skip_gen nowhere s dc H) as (b & EB & LB). destruct (skip_gen dp s dc H) as (a & EA & LA).
  exists a, b. split; [exact EA|]. split; [exact EB|]. clear LA LB.
  revert dc H a b EA EB. induction OK as [|ch s Hc Hs IH]; intros dc H a b EA EB; cbn [skip_leading] in EA, EB.
  - injection EA as <-. injection EB as <-. lia.
  - cbn [length] in H. rewrite (nowhere_okc u ch Hc), orb_false_r in EB.
    destruct (Z.eqb_spec ch 48) as [->|N]; cbn [orb] in EA.
    + rewrite chk64_Ok in EA, EB by lia. cbn [bind] in EA, EB. apply (IH (dc - 1)); (lia || assumption).
    + injection EB as <-. destruct (ch =? dp); [|injection EA as <-; lia]. cbn [bind] in EA.
      destruct (skip_gen dp s dc ltac:(lia)) as (a' & EA' & L). rewrite EA in EA'. injection EA' as <-. exact L.
Qed.

(** A digit as decimal point behaves like a decimal point that never occurs,
    except that a number of many digits may be taken for one of few. *)
Lemma digit_point_parse c u o s store :
  Forall (okc u) s -> s <> [] -> Z.of_nat (length s) <= 2 ^ 59 -> digit (o_decimal_point o) = true ->
  let J := json (rules_of c o) in
  exists pns pns', parse_number_string c u J s o store = Ok pns /\ parse_number_string c u J s (no_point o) store = Ok pns' /\
    (pns = pns' \/
     (pn_valid pns = true /\ pn_valid pns' = true /\ pn_too_many_digits pns = false /\ 0 <= pn_mantissa pns < 2 ^ 64 /\
      pn_lastmatch pns = pn_lastmatch pns')).
Proof.
  intros OK NE LEN DP J.
  assert (DN : digit (o_decimal_point (no_point o)) = false) by reflexivity.
  destruct (parse_number_string_spec c u (no_point o) s store OK NE LEN DN) as (pns' & EP & _).
  change (json (rules_of c (no_point o))) with J in EP.
  enough (G : exists pns, parse_number_string c u J s o store = Ok pns /\
    (pns = pns' \/
     (pn_valid pns = true /\ pn_valid pns' = true /\ pn_too_many_digits pns = false /\ 0 <= pn_mantissa pns < 2 ^ 64 /\
      pn_lastmatch pns = pn_lastmatch pns'))).
  { destruct G as (pns & E & G). exists pns, pns'. auto. }
  clearbody J. revert EP. unfold parse_number_string.
  change (o_decimal_point (no_point o)) with nowhere. change (o_format (no_point o)) with (o_format o).
  set (dp := o_decimal_point o) in *. set (fmt := adjust_for_feature_macros c (o_format o)). cbv zeta.
  destruct s as [|first s]; [congruence|]. cbn [deref bind]. inversion OK as [|? ? OF OS]; subst. cbn [tl].
  set (sg := (first =? 45) || (flag fmt f_allow_leading_plus && negb J && (first =? 43))).
  match goal with |- context [bind (if sg then ?X else _) _] =>
    match X with context [nowhere] => set (SB := if sg then X else Ok (inr (first :: s))) end end.
  match goal with |- context [bind (if sg then ?X else _) _] => set (SA := if sg then X else Ok (inr (first :: s))) end.
  assert (SS : SA = SB /\ forall e, SB = Ok (inr e) -> Forall (okc u) e /\ (length e <= length (first :: s))%nat).
  { subst SA SB. destruct sg.
    - destruct s as [|ch s]; [split; [reflexivity|discriminate]|]. inversion OS as [|? ? OC OS']; subst.
      rewrite is_integer_spec by exact OC. cbn [bind]. rewrite (nowhere_okc u ch OC).
      assert (X : negb (digit ch) && negb (ch =? dp) = negb (digit ch) && negb false).
      { destruct (digit ch) eqn:D; [reflexivity|]. cbn [negb andb]. replace (ch =? dp) with false; [reflexivity|].
        symmetry. apply Z.eqb_neq. intros ->. congruence. }
      rewrite X. split; [reflexivity|]. intros e.
      destruct J, (digit ch); cbn [negb andb]; try discriminate; intros [= <-]; (split; [exact OS|cbn [length]; lia]).
    - split; [reflexivity|]. intros e [= <-]. split; [exact OK|lia]. }
  destruct SS as (-> & SS). clearbody SB.
  destruct SB as [[err|s1]|]; cbn [bind]; [intros [= <-]; eauto| |discriminate].
  destruct (SS s1 eq_refl) as (OK1 & LEN1). clear SS.
  destruct (run_exists s1) as (ip & s2 & RI).
  rewrite (scan_integer_spec u s1 ip s2 OK1 RI). cbn [bind].
  rewrite (run_remaining _ _ _ RI), (run_firstn _ _ _ RI).
  pose proof (proj2 (run_ok u _ _ _ RI OK1)) as OK2.
  pose proof (run_length _ _ _ RI) as LI.
  rewrite (no_point_at u s2 OK2), (digit_point_at dp s2 DP (proj2 (proj2 RI))). cbn [bind].
  destruct (J && (Z.of_nat (length ip) =? 0)); [intros [= <-]; eauto|].
  destruct (J && at_char 48 s1 && (1 <? Z.of_nat (length ip))); [intros [= <-]; eauto|].
  destruct (J && false && (0 =? 0)); [intros [= <-]; eauto|].
  destruct (negb J && (Z.of_nat (length ip) =? 0)); [intros [= <-]; eauto|].
  destruct (parse_exponent u fmt s2 0) as [[err|[[p ex] e]]|]; cbn [bind]; [intros [= <-]; eauto| |discriminate].
  destruct (19 <? Z.of_nat (length ip)); cbn [bind]; [|intros [= <-]; eauto].
  destruct (skip_leading_mono dp u s1 (Z.of_nat (length ip)) OK1 ltac:(lia)) as (a & b & -> & -> & AB). cbn [bind].
  destruct (Z.ltb_spec 19 b) as [LB|LB].
  - destruct (Z.ltb_spec 19 a) as [LA|LA]; [intros E; eauto|].
    intros E. cbn [bind]. eexists. split; [reflexivity|]. right.
    destruct store; [destruct (recompute u (Some ip) None ex) as [[m x]|]; [|discriminate E]|];
      cbn [bind] in E; injection E as <-; cbn [pn_valid pn_too_many_digits pn_mantissa pn_lastmatch];
      (split; [reflexivity|]); (split; [reflexivity|]); (split; [reflexivity|]); (split; [apply acc_range|reflexivity]).
  - destruct (Z.ltb_spec 19 a) as [LA|LA]; [lia|]. intros E; eauto.
Qed.

(** Few digits: the conversion ends normally whatever the mantissa. *)
Lemma word_total c t m q neg rest : 0 <= m < 2 ^ 64 ->
  exists r, (let* cl := clinger_fast_path_impl c t m q neg in
      match cl with
      | Some v => Ok (Some {| r_ptr := rest; r_ec := Success; r_value := Some v |})
      | None =>
        let* am := compute_float c t q m in
        if am_power2 am <? 0 then Ok None
        else
          let* v := to_float t neg am in
          Ok (Some {| r_ptr := rest; r_ec := range_ec t m am; r_value := Some v |})
      end) = Ok (Some r) /\ r_ptr r = rest /\ r_value r <> None.
Proof.
  intros Hm.
  destruct (clinger_spec c t m q neg ltac:(lia)) as [N|(b & EC & HR)].
  - rewrite N. cbn [bind]. destruct (compute_float_exact c t q m ltac:(lia)) as (am & -> & OK & _).
    cbn [bind]. pose proof (am_ok_power t am OK) as P. destruct (Z.ltb_spec (am_power2 am) 0); [lia|].
    rewrite (to_float_spec t neg am OK). cbn [bind]. eexists. split; [reflexivity|]. split; [reflexivity|discriminate].
  - rewrite EC. cbn [bind]. eexists. split; [reflexivity|]. split; [reflexivity|discriminate].
Qed.

Lemma word_pns c u t pns : pn_too_many_digits pns = false -> 0 <= pn_mantissa pns < 2 ^ 64 ->
  exists r, from_chars_advanced_pns c u t pns = Ok r /\ r_ptr r = pn_lastmatch pns.
Proof.
  intros TM Hm. unfold from_chars_advanced_pns. rewrite TM. cbn [negb bind andb].
  destruct (word_total c t (pn_mantissa pns) (pn_exponent pns) (pn_negative pns) (pn_lastmatch pns) Hm) as (r & E & P & _).
  destruct (clinger_fast_path_impl c t (pn_mantissa pns) (pn_exponent pns) (pn_negative pns)) as [[v|]|]; cbn [bind] in *;
    [|destruct (compute_float c t (pn_exponent pns) (pn_mantissa pns)) as [am|]; cbn [bind] in *|discriminate E].
  - eexists. split; [reflexivity|reflexivity].
  - destruct (am_power2 am <? 0); [discriminate E|]. cbn [bind].
    destruct (to_float t (pn_negative pns) am); [|discriminate E]. cbn [bind]. eexists. split; reflexivity.
  - discriminate E.
Qed.

Lemma started_total c u t o s s0 : started c u o s s0 ->
  exists r, from_chars_float_advanced c u t s o = Ok r /\ exists p, s0 = p ++ r_ptr r.
Proof.
  intros ST.
  assert (D : (exists neg ip fp e rest, number (rules_of c o) s0 neg ip fp e rest) \/ no_number (rules_of c o) s0).
  { destruct (list_eq_dec Z.eq_dec s0 []) as [->|NE].
    - right. intros neg ip fp e rest N. exact (number_nonempty _ _ _ _ _ _ _ N eq_refl).
    - destruct ST as (_ & OK0 & LEN & DP).
      destruct (parse_number_string_spec c u o s0 true OK0 NE LEN DP)
        as (pns & _ & [(neg & ip & fp & e & rest & N & _)|(_ & N)]); [left|right; exact N].
      exists neg, ip, fp, e, rest. exact N. }
  destruct D as [(neg & ip & fp & e & rest & NUM)|NN].
  - destruct (float_number_at c u t o _ s0 neg ip fp e rest ST NUM)
      as (e' & b & x & _ & E & _). eexists. split; [exact E|]. cbn [r_ptr].
    exact (number_suffix _ _ _ _ _ _ _ NUM).
  - destruct (float_no_number_at c u t o _ s0 ST NN) as [(_ & E)|[(_ & _ & E)|(neg & k & rest & _ & S & E)]];
      (eexists; split; [exact E|]); cbn [r_ptr].
    + exists []. reflexivity.
    + exists []. reflexivity.
    + exact (special_suffix _ _ _ _ _ S).
Qed.

Lemma some_inj {A} (x y : A) : Some x = Some y -> x = y.
Proof. congruence. Qed.

Theorem float_total c u t o s :
  Forall (okc u) s -> Z.of_nat (length s) <= 2 ^ 59 ->
  exists r, from_chars_float_advanced c u t s o = Ok r /\ exists p, s = p ++ r_ptr r.
Proof.
  intros OK LEN.
  assert (ST : exists w s0, s = w ++ s0 /\
    (if flag (adjust_for_feature_macros c (o_format o)) f_skip_white_space then skip_ws s else Ok s) = Ok s0).
  { destruct (flag _ _).
    - destruct (skip_ws_total s) as (w & s0 & E & ->). eauto.
    - exists [], s. split; reflexivity. }
  destruct ST as (w & s0 & ES & ST).
  assert (OK0 : Forall (okc u) s0 /\ Z.of_nat (length s0) <= 2 ^ 59).
  { rewrite ES in OK, LEN. apply Forall_app in OK. rewrite app_length in LEN. split; [apply OK|lia]. }
  destruct OK0 as (OK0 & LEN0).
  enough (G : exists r, from_chars_float_advanced c u t s o = Ok r /\ exists p, s0 = p ++ r_ptr r).
  { destruct G as (r & E & p & EP). exists r. split; [exact E|]. exists (w ++ p). rewrite ES, EP. apply app_assoc. }
  clear ES w.
  destruct (digit (o_decimal_point o)) eqn:DP.
  2:{ apply (started_total c u t o s s0). unfold started. auto. }
  assert (ST' : started c u (no_point o) s s0) by (split; [exact ST|]; split; [exact OK0|]; split; [exact LEN0|reflexivity]).
  destruct (started_total c u t (no_point o) s s0 ST') as (r & ER & p & EP).
  unfold from_chars_float_advanced in ER |- *. change (o_format (no_point o)) with (o_format o) in ER.
  rewrite ST in ER |- *. cbn [bind] in ER |- *.
  destruct s0 as [|ch s1]; [eexists; split; [reflexivity|]; exists []; reflexivity|].
  assert (NE : ch :: s1 <> []) by discriminate. set (s0 := ch :: s1) in *. clearbody s0.
  assert (FJ : flag (adjust_for_feature_macros c (o_format o)) f_basic_json = json (rules_of c o)) by apply flag_adjust.
  rewrite FJ in ER |- *.
  (* the number found with [no_point] ends in the text *)
  assert (SUF : forall b pns, parse_number_string c u (json (rules_of c o)) s0 (no_point o) b = Ok pns -> pn_valid pns = true ->
     (exists p, s0 = p ++ pn_lastmatch pns) /\ (pn_too_many_digits pns = false -> 0 <= pn_mantissa pns < 2 ^ 64)).
  { intros b pns E V. destruct (parse_number_string_spec c u (no_point o) s0 b OK0 NE LEN0 eq_refl) as (pns' & E' & CASE).
    change (json (rules_of c (no_point o))) with (json (rules_of c o)) in E'. rewrite E in E'. injection E' as <-.
    destruct CASE as [(neg & ip & fp & e & rest & NUM & (_ & _ & -> & _ & e' & _ & MT))|(V' & _)]; [|congruence].
    split; [exact (number_suffix _ _ _ _ _ _ _ NUM)|].
    intros TM. destruct MT as [(_ & WB & -> & _)|(TM' & _)]; [|congruence].
    destruct (number_digits _ _ _ _ _ _ _ NUM) as (AI & AF & _).
    pose proof (digits_value_range (ip ++ fp) ltac:(apply Forall_app; auto)). lia. }
  destruct (digit_point_parse c u o s0 false OK0 NE LEN0 DP) as (pns & pns' & EA & EB & CASE).
  rewrite EA. rewrite EB in ER. cbn [bind] in ER |- *.
  assert (WORD : pn_valid pns = true -> pn_too_many_digits pns = false -> 0 <= pn_mantissa pns < 2 ^ 64 ->
     (exists p, s0 = p ++ pn_lastmatch pns) ->
     exists r0,
  (if negb (pn_valid pns)
   then
    if flag (adjust_for_feature_macros c (o_format o)) f_no_infnan
    then Ok {| r_ptr := s0; r_ec := InvalidArgument; r_value := None |}
    else parse_infnan c u t s0 (adjust_for_feature_macros c (o_format o))
   else
    if pn_too_many_digits pns
    then parse_number_slow_path c u t s0 o (json (rules_of c o))
    else
     let* cl := clinger_fast_path_impl c t (pn_mantissa pns) (pn_exponent pns) (pn_negative pns)
     in match cl with
        | Some v => Ok {| r_ptr := pn_lastmatch pns; r_ec := Success; r_value := Some v |}
        | None =>
            let* am := compute_float c t (pn_exponent pns) (pn_mantissa pns)
            in if am_power2 am <? 0
               then parse_number_slow_path c u t s0 o (json (rules_of c o))
               else
                let* v := to_float t (pn_negative pns) am
                in Ok {| r_ptr := pn_lastmatch pns; r_ec := range_ec t (pn_mantissa pns) am; r_value := Some v |}
        end) = Ok r0 /\ (exists p0 : list Z, s0 = p0 ++ r_ptr r0)).
  { intros V TM MR LM. rewrite V, TM. cbn [negb].
    destruct (word_total c t (pn_mantissa pns) (pn_exponent pns) (pn_negative pns) (pn_lastmatch pns) MR) as (r0 & E & P & _).
    destruct (clinger_fast_path_impl c t (pn_mantissa pns) (pn_exponent pns) (pn_negative pns)) as [[v|]|]; cbn [bind] in *;
      [|destruct (compute_float c t (pn_exponent pns) (pn_mantissa pns)) as [am|]; cbn [bind] in *|discriminate E].
    - eexists. split; [reflexivity|exact LM].
    - destruct (am_power2 am <? 0); [discriminate E|].
      destruct (to_float t (pn_negative pns) am); [|discriminate E]. cbn [bind]. eexists. split; [reflexivity|exact LM].
    - discriminate E. }
  destruct CASE as [->|(V & V' & TM & MR & LM)].
  2:{ apply WORD; try assumption. rewrite LM. exact (proj1 (SUF _ _ EB V')). }
  destruct (pn_valid pns') eqn:V; cbn [negb] in ER |- *.
  2:{ exists r. split; [exact ER|]. exists p. exact EP. }
  destruct (pn_too_many_digits pns') eqn:TM.
  2:{ apply WORD; try reflexivity; [exact (proj2 (SUF _ _ EB V) TM)|exact (proj1 (SUF _ _ EB V))]. }
  unfold parse_number_slow_path in ER |- *.
  destruct (digit_point_parse c u o s0 true OK0 NE LEN0 DP) as (q & q' & QA & QB & [->|(QV & QV' & QT & QM & QL)]).
  - rewrite QA. rewrite QB in ER. exists r. split; [exact ER|]. exists p. exact EP.
  - rewrite QA. cbn [bind]. destruct (word_pns c u t q QT QM) as (r0 & E0 & P0). exists r0. split; [exact E0|].
    rewrite P0, QL. exact (proj1 (SUF _ _ QB QV')).
Qed.
