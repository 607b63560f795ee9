(** Rejected texts: the code reports the diagnosis of the specification. *)
From Verif Require Import Machine Config Chars Format ParseNumber WordLemmas SpecGrammar SpecApi Swar Scan SpecDiagnosis ParseSpec.
Open Scope Z_scope.

(** ** A text is a number or has a diagnosis, not both *)

Lemma signed_proper R s neg s1 : signed R s neg s1 -> s <> s1 -> exists ch, s = ch :: s1.
Proof. intros H N. inversion H; subst; [eexists; reflexivity|eexists; reflexivity|congruence]. Qed.

Lemma cons_neq {A} (x : A) l : x :: l <> l.
Proof. intros E. assert (L : length (x :: l) = length l) by (rewrite E; reflexivity). cbn in L. lia. Qed.

Lemma signed_same R s neg : signed R s neg s -> neg = false.
Proof.
  intros H. remember s as s1 in H at 2. revert Heqs1. destruct H; intros E; [|reflexivity|reflexivity].
  exfalso. symmetry in E. exact (cons_neq _ _ E).
Qed.

Lemma run_nil s : not_at_digit s -> run s [] s.
Proof. intros H. split; [reflexivity|]. split; [constructor|exact H]. Qed.

Lemma run_not s ds rest : run s ds rest -> not_at_digit s -> ds = [] /\ rest = s.
Proof. intros H N. destruct (run_unique _ _ _ _ _ H (run_nil _ N)). auto. Qed.

Lemma digit_head_run ch t ds rest : run (ch :: t) ds rest -> digit ch = true -> ds <> [].
Proof.
  intros (E & _ & N) D ->. cbn in E. subst rest. cbn in N. rewrite D in N. congruence.
Qed.

Lemma not_digit_head ch t : digit ch = false -> not_at_digit (ch :: t).
Proof. intros H. cbn. congruence. Qed.

Lemma exponent_or R s3 : (exists e rest, exponent R s3 e rest) \/
  ((forall t, ~ exp_mark R s3 t) /\ scientific R = true /\ fixed R = false) \/
  (exists s4 neg s5, exp_mark R s3 s4 /\ exp_sign s4 neg s5 /\ not_at_digit s5 /\ fixed R = false).
Proof.
  destruct (exp_mark_code R s3) as [E1 E2].
  destruct ((scientific R && (at_char 101 s3 || at_char 69 s3))
     || (fortran R && (at_char 43 s3 || at_char 45 s3 || at_char 100 s3 || at_char 68 s3))).
  - specialize (E1 eq_refl). clear E2.
    set (s4 := if at_char 101 s3 || at_char 69 s3 || at_char 100 s3 || at_char 68 s3 then tl s3 else s3) in *. clearbody s4.
    destruct (exp_sign_exists s4) as (neg & s5 & ES). destruct (run_exists s5) as (ds & rest & RN).
    destruct ds as [|d ds].
    + assert (N5 : not_at_digit s5). { destruct RN as (E & _ & N). cbn in E. subst s5. exact N. }
      destruct (fixed R) eqn:F.
      * left. exists 0, s3. eapply exponent_dangling; eassumption.
      * right. right. exists s4, neg, s5. auto.
    + left. eexists _, _. eapply exponent_some; [exact E1|exact ES|exact RN|discriminate].
  - specialize (E2 eq_refl). clear E1. destruct (scientific R) eqn:S; [destruct (fixed R) eqn:F|].
    + left. exists 0, s3. apply exponent_none; auto.
    + right. left. auto.
    + left. exists 0, s3. apply exponent_none; auto.
Qed.

Lemma number_or_diagnosis R s : s <> [] ->
  (exists neg ip fp e rest, number R s neg ip fp e rest) \/ (exists err loc, diagnosis R s err loc).
Proof.
  intros NE. destruct (signed_exists R s) as (neg & s1 & SG).
  assert (EQ : s = s1 \/ s <> s1) by (destruct (list_eq_dec Z.eq_dec s s1); auto).
  destruct (run_exists s1) as (ip & s2 & RI).
  destruct (fraction_exists R s2) as (hp & fp & s3 & F).
  assert (DONE : mantissa_ok R ip hp fp ->
    (exists neg ip fp e rest, number R s neg ip fp e rest) \/ (exists err loc, diagnosis R s err loc)).
  { intros MO. assert (MT : mantissa_then R s s3) by (exists neg, s1, ip, s2, hp, fp; auto).
    destruct (exponent_or R s3) as [(e & rest & E)|[(E & S & X)|(s4 & n & s5 & E1 & E2 & E3 & X)]].
    - left. exists neg, ip, fp, e, rest, s1, s2, hp, s3. auto.
    - right. exists Missing_exponential_part, s3. apply no_exponent; auto.
    - right. exists Missing_exponential_part, s5. eapply exponent_digits; eassumption. }
  destruct ip as [|x ip].
  - assert (E2 : s2 = s1). { destruct RI as (E & _). symmetry. exact E. } subst s2.
    assert (ND : not_at_digit s1) by apply RI.
    destruct s1 as [|ch t].
    { right. exists Missing_integer_or_dot_after_sign, []. eapply sign_only; eassumption. }
    destruct (json R) eqn:J.
    + right. destruct EQ as [E|E].
      * subst s. exists No_digits_in_integer_part, (ch :: t). apply json_no_digit; auto.
        rewrite <- (signed_same _ _ _ SG). exact SG.
      * exists Missing_integer_after_sign, (ch :: t). eapply json_sign; eauto. cbn in ND. destruct (digit ch); congruence.
    + assert (DC : digit ch = false) by (cbn in ND; destruct (digit ch); congruence).
      destruct (Z.eq_dec ch (point R)) as [->|NP].
      * inversion F; subst; [|cbn in *; contradiction].
        destruct fp as [|y fp]; [|apply DONE; unfold mantissa_ok; rewrite J; discriminate].
        right. exists No_digits_in_mantissa, s3.
        match goal with A : run ?s [] s3 |- _ => destruct A as (E & _ & N); cbn in E; subst s end.
        eapply lone_point; eauto.
      * right. destruct EQ as [E|E].
        -- subst s. exists No_digits_in_mantissa, (ch :: t). apply nothing; auto.
           rewrite <- (signed_same _ _ _ SG). exact SG.
        -- exists Missing_integer_or_dot_after_sign, (ch :: t). eapply bare_sign; eauto.
  - destruct (json R) eqn:J; [|apply DONE; unfold mantissa_ok; rewrite J; discriminate].
    assert (Z48 : (forall l, x :: ip = 48 :: l -> l = []) \/ exists d l, x :: ip = 48 :: d :: l).
    { destruct (Z.eq_dec x 48) as [->|N]; [|left; intros l E; congruence].
      destruct ip as [|d l]; [left; intros l E; congruence|right; eauto]. }
    destruct Z48 as [Z48|(d & l & E)].
    + destruct hp; [|apply DONE; unfold mantissa_ok; rewrite J; repeat split; try discriminate; assumption].
      destruct fp as [|y fp]; [|apply DONE; unfold mantissa_ok; rewrite J; repeat split; try discriminate; assumption].
      right. inversion F; subst.
      match goal with A : run ?s [] s3 |- _ => destruct A as (E & _ & N); cbn in E; subst s end.
      exists No_digits_in_fractional_part, s3. eapply json_point; eauto. discriminate.
    + rewrite E in RI. right. exists Leading_zeros_in_integer_part, s1. eapply json_zeros; eauto.
Qed.

(** ** The code, part by part *)

(** The code after the sign. *)
Definition after_sign (c : cfg) (u : uc) (bjf : bool) (o : options) (store_spans negative : bool) (p : list Z) : res parsed :=
  let fmt := adjust_for_feature_macros c (o_format o) in
  let dp := o_decimal_point o in
    let start_digits := p in
    let* '(p, i) := scan_integer u p in
    let digit_count := remaining start_digits - remaining p in
    let ispan := firstn (length start_digits - length p) start_digits in
    let integer := if store_spans then Some ispan else None in
    if bjf && (digit_count =? 0) then
      Ok (report_parse_error p No_digits_in_integer_part)
    else if bjf && at_char 48 start_digits && (1 <? digit_count) then
      Ok (report_parse_error start_digits Leading_zeros_in_integer_part)
    else
    let has_decimal_point := at_char dp p in
    let* '(p, i, exponent, digit_count, fraction) :=
      (if has_decimal_point then
         let before := tl p in
         let* '(p, i) := loop_parse_if_eight_digits c u before i in
         let* '(p, i) := frac_digit_loop u p i in
         let exponent := remaining p - remaining before in
         let fspan := firstn (length before - length p) before in
         let* dc := chk 64 (digit_count - exponent) in
         Ok (p, i, exponent, dc, if store_spans then Some fspan else None)
       else Ok (p, i, 0, digit_count, None)) in
    if bjf && has_decimal_point && (exponent =? 0) then
      Ok (report_parse_error p No_digits_in_fractional_part)
    else if negb bjf && (digit_count =? 0) then
      Ok (report_parse_error p No_digits_in_mantissa)
    else
    let* er := parse_exponent u fmt p exponent in
    match er with
    | inl e => Ok e
    | inr (p, exp_number, exponent) =>
      let lastmatch := p in
      let* '(i, exponent, too_many) :=
        (if 19 <? digit_count then
           let* dc := skip_leading dp start_digits digit_count in
           if 19 <? dc then
             if store_spans then
               let* '(i, exponent) := recompute u integer fraction exp_number in
               Ok (i, exponent, true)
             else Ok (i, exponent, true)
           else Ok (i, exponent, false)
         else Ok (i, exponent, false)) in
      Ok {| pn_exponent := exponent; pn_mantissa := i; pn_lastmatch := lastmatch;
            pn_negative := negative; pn_valid := true; pn_too_many_digits := too_many;
            pn_integer := integer; pn_fraction := fraction; pn_error := No_error |}
    end.

(** What the sign part does. *)
Lemma sign_stage c u o store s neg s1 :
  let R := rules_of c o in
  Forall (okc u) s -> s <> [] -> signed R s neg s1 ->
  parse_number_string c u (json R) s o store =
    if list_eq_dec Z.eq_dec s s1 then after_sign c u (json R) o store neg s1
    else match s1 with
         | [] => Ok (report_parse_error s1 Missing_integer_or_dot_after_sign)
         | ch :: _ =>
           if digit ch || (negb (json R) && (ch =? point R)) then after_sign c u (json R) o store neg s1
           else Ok (report_parse_error s1 (if json R then Missing_integer_after_sign
                                           else Missing_integer_or_dot_after_sign))
         end.
Proof.
  cbv zeta. intros OK NE SG. destruct (flag_adjust c o) as (FP & _). cbv zeta in FP.
  assert (GEN : forall x, s = x :: s1 -> (x =? 45) = neg ->
     (x =? 45) || (leading_plus (rules_of c o) && negb (json (rules_of c o)) && (x =? 43)) = true ->
     parse_number_string c u (json (rules_of c o)) s o store = 
     match s1 with
         | [] => Ok (report_parse_error s1 Missing_integer_or_dot_after_sign)
         | ch :: _ =>
           if digit ch || (negb (json (rules_of c o)) && (ch =? point (rules_of c o))) then after_sign c u (json (rules_of c o)) o store neg s1
           else Ok (report_parse_error s1 (if json (rules_of c o) then Missing_integer_after_sign
                                           else Missing_integer_or_dot_after_sign))
         end).
  { intros x -> XN B. unfold parse_number_string. cbv zeta. cbn [deref bind tl]. rewrite FP, B, XN.
    destruct s1 as [|ch t]; [reflexivity|].
    inversion OK as [|? ? OC OS]; subst. inversion OS; subst. rewrite is_integer_spec by assumption. cbn [bind].
    change (o_decimal_point o) with (point (rules_of c o)).
    destruct (json (rules_of c o)); cbn [negb andb orb];
    destruct (digit ch); cbn [negb andb orb bind]; try reflexivity;
    destruct (ch =? point (rules_of c o)); reflexivity. }
  inversion SG; subst.
  - destruct (list_eq_dec Z.eq_dec (45 :: s1) s1) as [E|_]; [exfalso; eapply cons_neq; exact E|]. eapply GEN; reflexivity.
  - destruct (list_eq_dec Z.eq_dec (43 :: s1) s1) as [E|_]; [exfalso; eapply cons_neq; exact E|]. eapply GEN; try reflexivity.
    match goal with A : leading_plus _ = true, B : json _ = false |- _ => rewrite A, B; reflexivity end.
  - destruct (list_eq_dec Z.eq_dec s1 s1) as [_|N]; [|congruence].
    destruct s1 as [|x t]; [congruence|]. unfold parse_number_string. cbv zeta. rewrite FP. cbn [deref bind].
    match goal with A : not_at _ _ |- _ => cbn in A end.
    destruct (Z.eqb_spec x 45) as [->|N45]; [exfalso; tauto|]. cbn [orb].
    destruct (leading_plus (rules_of c o) && negb (json (rules_of c o)) && (x =? 43)) eqn:B; [|reflexivity].
    exfalso. apply andb_true_iff in B. destruct B as [B B43]. apply andb_true_iff in B. destruct B as [B1 B2].
    apply Z.eqb_eq in B43. apply negb_true_iff in B2. tauto.
Qed.

Lemma list_same {B} (s : list Z) (a b : B) : (if list_eq_dec Z.eq_dec s s then a else b) = a.
Proof. destruct (list_eq_dec Z.eq_dec s s); [reflexivity|congruence]. Qed.

(** The integer part. *)
Lemma integer_stage c u o store neg s1 ip s2 :
  let R := rules_of c o in
  Forall (okc u) s1 -> run s1 ip s2 -> json R = true ->
  (ip = [] -> after_sign c u (json R) o store neg s1 = Ok (report_parse_error s2 No_digits_in_integer_part)) /\
  (forall d l, ip = 48 :: d :: l ->
     after_sign c u (json R) o store neg s1 = Ok (report_parse_error s1 Leading_zeros_in_integer_part)).
Proof.
  cbv zeta. intros OK RI J. unfold after_sign. cbv zeta.
  rewrite (scan_integer_spec u s1 ip s2 OK RI). cbn [bind].
  rewrite (run_remaining _ _ _ RI), J. cbn [andb]. split.
  - intros ->. reflexivity.
  - intros d l ->. destruct (Z.eqb_spec (Z.of_nat (length (48 :: d :: l))) 0) as [E|_]; [cbn [length] in E; lia|].
    assert (A : at_char 48 s1 = true). { destruct RI as (E & _). rewrite E. reflexivity. }
    rewrite A. cbn [andb]. destruct (Z.ltb_spec 1 (Z.of_nat (length (48 :: d :: l)))) as [_|L]; [reflexivity|cbn [length] in L; lia].
Qed.

(** The integer part and the fraction. *)
Lemma fraction_stage c u o store neg s1 ip s2 hp fp s3 :
  let R := rules_of c o in
  Forall (okc u) s1 -> Z.of_nat (length s1) <= 2 ^ 59 -> run s1 ip s2 -> fraction R s2 hp fp s3 ->
  (json R = true -> ip <> [] /\ forall l, ip = 48 :: l -> l = []) ->
  (json R = true -> hp = true -> fp = [] ->
     after_sign c u (json R) o store neg s1 = Ok (report_parse_error s3 No_digits_in_fractional_part)) /\
  (json R = false -> ip ++ fp = [] ->
     after_sign c u (json R) o store neg s1 = Ok (report_parse_error s3 No_digits_in_mantissa)) /\
  (mantissa_ok R ip hp fp -> forall err,
     (forall x, - 2 ^ 60 <= x <= 2 ^ 60 ->
       parse_exponent u (adjust_for_feature_macros c (o_format o)) s3 x = Ok (inl err)) ->
     after_sign c u (json R) o store neg s1 = Ok err).
Proof.
  cbv zeta. intros OK1 LEN RI F JI. unfold after_sign. cbv zeta. set (R := rules_of c o) in *.
  rewrite (scan_integer_spec u s1 ip s2 OK1 RI). cbn [bind].
  rewrite (run_remaining _ _ _ RI).
  pose proof (proj2 (run_ok u _ _ _ RI OK1)) as OK2.
  pose proof (run_length _ _ _ RI) as LI.
  assert (J1 : json R && (Z.of_nat (length ip) =? 0) = false).
  { destruct (json R); [|reflexivity]. destruct (JI eq_refl) as [A _]. destruct ip; [congruence|]. cbn [length andb].
    apply Z.eqb_neq. lia. }
  assert (J2 : json R && at_char 48 s1 && (1 <? Z.of_nat (length ip)) = false).
  { destruct (json R); [|reflexivity]. destruct (JI eq_refl) as [A B]. cbn [andb].
    destruct ip as [|x ip]; [congruence|]. destruct RI as (E & _). rewrite E. cbn [app at_char].
    destruct (Z.eqb_spec x 48) as [->|N]; [|reflexivity]. rewrite (B ip eq_refl). reflexivity. }
  rewrite J1, J2. clear J1 J2.
  set (dp := o_decimal_point o) in *.
  assert (FR : exists x fo,
    (if at_char dp s2
     then
      let* '(p, i) := loop_parse_if_eight_digits c u (tl s2) (acc 0 ip) in
      let* '(p0, i0) := frac_digit_loop u p i in
      let* dc := chk 64 (Z.of_nat (length ip) - (remaining p0 - remaining (tl s2))) in
      Ok (p0, i0, remaining p0 - remaining (tl s2), dc, if store then Some (firstn (length (tl s2) - length p0) (tl s2)) else None)
     else Ok (s2, acc 0 ip, 0, Z.of_nat (length ip), None)) =
    Ok (s3, x, - Z.of_nat (length fp), Z.of_nat (length (ip ++ fp)), fo) /\ at_char dp s2 = hp /\
    (length fp <= length s2)%nat).
  { change dp with (point R). inversion F; subst.
    - cbn [at_char tl]. rewrite Z.eqb_refl. match goal with A : run ?s fp s3 |- _ => rename A into RF; rename s into t end.
      inversion OK2; subst.
      pose proof (fraction_scan c u t fp s3 (acc 0 ip) ltac:(assumption) RF (acc_range _ _)) as FS.
      destruct (loop_parse_if_eight_digits c u t (acc 0 ip)) as [[p i]|]; [|discriminate FS].
      cbn [bind] in FS |- *. rewrite FS. cbn [bind].
      replace (remaining s3 - remaining t) with (- Z.of_nat (length fp)) by (pose proof (run_remaining _ _ _ RF); lia).
      rewrite (run_firstn _ _ _ RF). pose proof (run_length _ _ _ RF) as LF.
      cbn [length] in LI. rewrite chk64_Ok by lia. cbn [bind]. rewrite app_length.
      eexists _, _. split; [do 3 f_equal; lia|]. split; [reflexivity|cbn [length]; lia].
    - rewrite app_nil_r. assert (A : at_char (point R) s3 = false).
      { match goal with A : not_at _ _ |- _ => destruct s3; [reflexivity|]; cbn in A |- *; apply Z.eqb_neq; exact A end. }
      rewrite A. eexists _, _. split; [reflexivity|]. split; [reflexivity|cbn [length]; lia]. }
  destruct FR as (x & fo & -> & HP & LF). cbn [bind]. rewrite HP.
  split; [|split].
  - intros -> -> ->. reflexivity.
  - intros -> E. rewrite E. reflexivity.
  - intros MO err PE. unfold mantissa_ok in MO. destruct (json R); cbn [negb andb].
    + destruct MO as (_ & _ & M).
      assert (J3 : hp && (- Z.of_nat (length fp) =? 0) = false).
      { destruct hp; [|reflexivity]. specialize (M eq_refl). destruct fp; [congruence|]. cbn [length andb]. apply Z.eqb_neq. lia. }
      rewrite J3, PE by lia. reflexivity.
    + destruct (Z.eqb_spec (Z.of_nat (length (ip ++ fp))) 0) as [E|_]; [destruct (ip ++ fp); [congruence|cbn [length] in E; lia]|].
      rewrite PE by lia. reflexivity.
Qed.

Lemma exponent_stage c u o s3 x :
  let R := rules_of c o in
  let fmt := adjust_for_feature_macros c (o_format o) in
  Forall (okc u) s3 -> fixed R = false ->
  ((forall t, ~ exp_mark R s3 t) -> scientific R = true ->
     parse_exponent u fmt s3 x = Ok (inl (report_parse_error s3 Missing_exponential_part))) /\
  (forall s4 n s5, exp_mark R s3 s4 -> exp_sign s4 n s5 -> not_at_digit s5 ->
     parse_exponent u fmt s3 x = Ok (inl (report_parse_error s5 Missing_exponential_part))).
Proof.
  cbv zeta. intros OK FX. unfold parse_exponent. cbv zeta.
  destruct (flag_adjust c o) as (_ & _ & FS & FF & FO & _). cbv zeta in FS, FF, FO.
  rewrite FS, FF, FO. set (R := rules_of c o) in *. rewrite FX.
  destruct (exp_mark_code R s3) as [EM1 EM2].
  destruct ((scientific R && (at_char 101 s3 || at_char 69 s3))
     || (fortran R && (at_char 43 s3 || at_char 45 s3 || at_char 100 s3 || at_char 68 s3))).
  - specialize (EM1 eq_refl). clear EM2. split; [intros N _; exfalso; exact (N _ EM1)|].
    intros s4 n s5 M SG ND.
    set (t := if at_char 101 s3 || at_char 69 s3 || at_char 100 s3 || at_char 68 s3 then tl s3 else s3) in *.
    assert (OK4 : Forall (okc u) t).
    { unfold t. destruct (at_char 101 s3 || at_char 69 s3 || at_char 100 s3 || at_char 68 s3); [apply Forall_tl|]; assumption. }
    clearbody t. assert (t = s4) by (eapply exp_mark_unique; eassumption). subst t.
    pose proof (exp_sign_code s4) as ES.
    set (s5' := if at_char 45 s4 then tl s4 else if at_char 43 s4 then tl s4 else s4) in *.
    assert (OK5 : Forall (okc u) s5').
    { unfold s5'. destruct (at_char 45 s4); [|destruct (at_char 43 s4)]; try apply Forall_tl; assumption. }
    clearbody s5'. destruct (exp_sign_unique _ _ _ _ _ ES SG) as [_ E]. subst s5'.
    rewrite at_digit_spec by exact OK5. cbn [bind]. rewrite (at_digit_run _ _ _ (run_nil _ ND)). reflexivity.
  - specialize (EM2 eq_refl). clear EM1. split.
    + intros _ ->. reflexivity.
    + intros s4 n s5 M _ _. exfalso. exact (EM2 _ M).
Qed.

(** ** Rejected texts *)

Theorem diagnosis_reported c u o s store err loc :
  let R := rules_of c o in
  Forall (okc u) s -> s <> [] -> Z.of_nat (length s) <= 2 ^ 59 -> digit (o_decimal_point o) = false -> diagnosis R s err loc ->
  parse_number_string c u (json R) s o store = Ok (report_parse_error loc err).
Proof.
  cbv zeta. intros OK NE LEN DP D.
  assert (SUF : forall neg s1, signed (rules_of c o) s neg s1 -> Forall (okc u) s1 /\ (length s1 <= length s)%nat).
  { intros neg s1 SG. inversion SG; subst; (split; [|cbn [length]; lia]); try assumption; inversion OK; assumption. }
  assert (ST : forall neg s1, signed (rules_of c o) s neg s1 ->
     match s1 with [] => False | ch :: _ => digit ch = true \/ (json (rules_of c o) = false /\ ch = point (rules_of c o)) end ->
     parse_number_string c u (json (rules_of c o)) s o store = after_sign c u (json (rules_of c o)) o store neg s1).
  { intros neg s1 SG H. rewrite (sign_stage c u o store s neg s1 OK NE SG).
    destruct (list_eq_dec Z.eq_dec s s1); [reflexivity|]. destruct s1 as [|ch t]; [contradiction|].
    destruct H as [-> |[-> ->]]; [reflexivity|]. rewrite Z.eqb_refl. cbn [negb andb]. rewrite orb_true_r. reflexivity. }
  assert (HD : forall s1 x ip s2, run s1 (x :: ip) s2 -> match s1 with [] => False | ch :: _ => digit ch = true \/ (json (rules_of c o) = false /\ ch = point (rules_of c o)) end).
  { intros s1 x ip s2 (E & A & _). subst s1. cbn. inversion A; auto. }
  assert (SM : forall neg s1 ip s2 hp fp s3, signed (rules_of c o) s neg s1 -> run s1 ip s2 -> fraction (rules_of c o) s2 hp fp s3 -> mantissa_ok (rules_of c o) ip hp fp ->
     parse_number_string c u (json (rules_of c o)) s o store = after_sign c u (json (rules_of c o)) o store neg s1 /\ Forall (okc u) s3).
  { intros neg s1 ip s2 hp fp s3 SG RI F MO. split.
    - apply (ST _ _ SG). destruct ip as [|x ip]; [|eapply HD; exact RI].
      destruct RI as (E & _). cbn in E. subst s2. unfold mantissa_ok in MO. destruct (json (rules_of c o)); [destruct MO; congruence|].
      inversion F; subst; [right; auto|]. cbn in MO. congruence.
    - destruct (SUF _ _ SG) as [OK1 _]. pose proof (proj2 (run_ok u _ _ _ RI OK1)) as OK2.
      inversion F; subst; [|exact OK2]. inversion OK2; subst.
      match goal with A : run ?t fp s3 |- _ => apply (run_ok u _ _ _ A); assumption end. }
  destruct D as [s neg SG N|s neg ch t J SG N D|s neg ch t J SG N D P|s J SG ND|s neg s1 d l rest J SG RI
    |s neg s1 ip t J SG RI NI ZI ND|s neg t J SG ND|s J SG ND NP|s s3 MT NM S FX|s s3 s4 n s5 MT M ES ND FX].
  - rewrite (sign_stage c u o store s neg [] OK NE SG). destruct (list_eq_dec Z.eq_dec s []); [congruence|reflexivity].
  - rewrite (sign_stage c u o store s neg _ OK NE SG). destruct (list_eq_dec Z.eq_dec s (ch :: t)); [congruence|].
    rewrite D, J. reflexivity.
  - rewrite (sign_stage c u o store s neg _ OK NE SG). destruct (list_eq_dec Z.eq_dec s (ch :: t)); [congruence|].
    rewrite D, J. apply Z.eqb_neq in P. rewrite P. reflexivity.
  - rewrite (sign_stage c u o store s false s OK NE SG), list_same.
    apply (integer_stage c u o store false s [] s OK (run_nil _ ND) J). reflexivity.
  - rewrite (ST _ _ SG) by (eapply HD; exact RI).
    apply (integer_stage c u o store neg s1 (48 :: d :: l) rest (proj1 (SUF _ _ SG)) RI J) with d l. reflexivity.
  - destruct ip as [|x ip]; [congruence|]. destruct (SUF _ _ SG). rewrite (ST _ _ SG) by (eapply HD; exact RI).
    refine (proj1 (fraction_stage c u o store neg s1 (x :: ip) (point (rules_of c o) :: t) true [] t _ _ _ _ _) _ _ _); auto; try lia.
    all: try (constructor; apply run_nil; exact ND).
  - destruct (SUF _ _ SG). rewrite (ST _ _ SG) by (right; auto).
    refine (proj1 (proj2 (fraction_stage c u o store neg (point (rules_of c o) :: t) [] (point (rules_of c o) :: t) true [] t _ _ _ _ _)) _ _); auto; try lia.
    + apply run_nil. apply not_digit_head. exact DP.
    + constructor. apply run_nil; exact ND.
  - rewrite (sign_stage c u o store s false s OK NE SG), list_same.
    refine (proj1 (proj2 (fraction_stage c u o store false s [] s false [] s _ _ _ _ _)) _ _); auto; try lia; try congruence.
    + apply run_nil; exact ND.
    + constructor; exact NP.
  - destruct MT as (neg & s1 & ip & s2 & hp & fp & SG & RI & F & MO). destruct (SUF _ _ SG).
    destruct (SM _ _ _ _ _ _ _ SG RI F MO) as [-> OK3].
    refine (proj2 (proj2 (fraction_stage c u o store neg s1 ip s2 hp fp s3 _ _ _ _ _)) _ _ _); auto; try lia.
    + intros J. unfold mantissa_ok in MO. rewrite J in MO. tauto.
    + intros x _. apply (proj1 (exponent_stage c u o s3 x OK3 FX)); auto.
  - destruct MT as (neg & s1 & ip & s2 & hp & fp & SG & RI & F & MO). destruct (SUF _ _ SG).
    destruct (SM _ _ _ _ _ _ _ SG RI F MO) as [-> OK3].
    refine (proj2 (proj2 (fraction_stage c u o store neg s1 ip s2 hp fp s3 _ _ _ _ _)) _ _ _); auto; try lia.
    + intros J. unfold mantissa_ok in MO. rewrite J in MO. tauto.
    + intros x _. eapply (proj2 (exponent_stage c u o s3 x OK3 FX)); eauto.
Qed.

(** A valid result carries no error, and no spans unless they are asked for. *)
Definition clean (store : bool) (r : res parsed) : Prop :=
  match r with
  | Ok pns => pn_valid pns = true -> pn_error pns = No_error /\
      (store = false -> pn_integer pns = None /\ pn_fraction pns = None)
  | UB => True
  end.

Lemma clean_bind {A} store (m : res A) k : (forall x, m = Ok x -> clean store (k x)) -> clean store (bind m k).
Proof. intros H. destruct m; [apply H; reflexivity|exact I]. Qed.
Lemma clean_error store p e : clean store (Ok (report_parse_error p e)).
Proof. cbn. discriminate. Qed.

Lemma parse_exponent_error u fmt p x e : parse_exponent u fmt p x = Ok (inl e) -> exists q err, e = report_parse_error q err.
Proof.
  unfold parse_exponent. cbv zeta. intros H.
  destruct ((flag fmt f_scientific && _) || _) in H.
  - destruct (at_digit u _) as [dig|] in H; [|discriminate H]. cbn [bind] in H. destruct (negb dig).
    + destruct (negb (flag fmt f_fixed)); [|discriminate H]. inversion H; subst. eauto.
    + destruct (exp_digit_loop u _ 0) as [[q n]|] in H; [|discriminate H]. cbn [bind] in H.
      destruct (if at_char 45 _ then chk 64 (- n) else Ok n) as [m|] in H; [|discriminate H]. cbn [bind] in H.
      destruct (chk 64 (x + m)) as [y|] in H; discriminate H.
  - destruct (flag fmt f_scientific && negb (flag fmt f_fixed)); inversion H; subst. eauto.
Qed.

Lemma valid_no_error c u bjf s o store : clean store (parse_number_string c u bjf s o store).
Proof.
  unfold parse_number_string. cbv zeta. apply clean_bind. intros first _.
  apply clean_bind. intros sgn HS.
  assert (SG : (exists q err, sgn = inl (report_parse_error q err)) \/ exists p, sgn = inr p).
  { destruct sgn as [e|p]; [left|right; eauto]. revert HS.
    destruct ((first =? 45) || _); [|discriminate].
    destruct (tl s) as [|ch t]; [intros H; inversion H; eauto|].
    destruct (is_integer u ch) as [dig|]; [|discriminate]. cbn [bind].
    destruct bjf; [destruct (negb dig)|destruct (negb dig && negb (ch =? o_decimal_point o))]; intros H; inversion H; eauto. }
  destruct SG as [(q & err & ->)|(p & ->)]; [apply clean_error|]. clear HS.
  apply clean_bind. intros [p2 i] _.
  destruct (bjf && (remaining p - remaining p2 =? 0)); [apply clean_error|].
  destruct (bjf && at_char 48 p && (1 <? remaining p - remaining p2)); [apply clean_error|].
  apply clean_bind. intros [[[[p3 i3] ex] dc] fr] HF.
  assert (FR : store = false -> fr = None).
  { intros ->. destruct (at_char (o_decimal_point o) p2) in HF; [|inversion HF; reflexivity].
    destruct (loop_parse_if_eight_digits c u (tl p2) i) as [[a b]|] in HF; [|discriminate HF]. cbn [bind] in HF.
    destruct (frac_digit_loop u a b) as [[a2 b2]|] in HF; [|discriminate HF]. cbn [bind] in HF.
    destruct (chk 64 _) in HF; [|discriminate HF]. cbn [bind] in HF. inversion HF; reflexivity. }
  clear HF.
  destruct (bjf && at_char (o_decimal_point o) p2 && (ex =? 0)); [apply clean_error|].
  destruct (negb bjf && (dc =? 0)); [apply clean_error|].
  apply clean_bind. intros er HE. destruct er as [e|[[p4 en] ex4]].
  { destruct (parse_exponent_error _ _ _ _ _ HE) as (q & err & ->). apply clean_error. }
  apply clean_bind. intros [[i5 ex5] tm] _. cbn. intros _. split; [reflexivity|].
  intros ->. split; [reflexivity|apply FR; reflexivity].
Qed.

(** ** Only some of the options matter *)

Lemma bind_ext {A B} (m : res A) (k1 k2 : A -> res B) : (forall x, k1 x = k2 x) -> bind m k1 = bind m k2.
Proof. intros H. destruct m; [apply H|reflexivity]. Qed.

Lemma parse_options c u bjf s o o2 store :
  o_decimal_point o = o_decimal_point o2 ->
  (forall k, k = 0 \/ k = 2 \/ k = 6 \/ k = 7 -> Z.testbit (o_format o) k = Z.testbit (o_format o2) k) ->
  parse_number_string c u bjf s o store = parse_number_string c u bjf s o2 store.
Proof.
  intros DP FM.
  destruct (flag_adjust c o) as (P1 & _ & S1 & F1 & O1 & _). destruct (flag_adjust c o2) as (P2 & _ & S2 & F2 & O2 & _).
  cbv zeta in *. cbn [rules_of leading_plus scientific fixed fortran] in *.
  unfold parse_number_string. cbv zeta. rewrite <- DP. rewrite P1, P2, (FM 7) by tauto.
  assert (PE : forall p x, parse_exponent u (adjust_for_feature_macros c (o_format o)) p x =
    parse_exponent u (adjust_for_feature_macros c (o_format o2)) p x).
  { intros p x. unfold parse_exponent. rewrite S1, S2, F1, F2, O1, O2, (FM 0), (FM 2), (FM 6) by tauto. reflexivity. }
  apply bind_ext. intros first. apply bind_ext. intros [e|p]; [reflexivity|].
  apply bind_ext. intros [p2 i]. repeat (match goal with |- (if ?b then _ else _) = _ => destruct b; [reflexivity|] end).
  apply bind_ext. intros [[[[p3 i3] ex] dc] fr]. repeat (match goal with |- (if ?b then _ else _) = _ => destruct b; [reflexivity|] end).
  rewrite PE. reflexivity.
Qed.
