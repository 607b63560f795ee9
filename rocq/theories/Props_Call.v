(** Property C84: what a call of from_chars for a floating-point type does, in one statement
    for every text and every option set: the specification is [outcome] in SpecCall. *)
From Verif Require Import Machine Config Chars Format ParseNumber DecToBin DigitComp FromChars WordLemmas
  EiselTable Rounding ComputeFloat SpecFloat FloatBridge FpArith Clinger Pow10 SpecGrammar SpecApi SpecRel SpecCall Scan ParseSpec Special
  SlowPath ManyDigits Saturate FloatMaster FloatApi FloatRel Defined Props_Custom Props_Separator Props_Std Props_Exponent Props_Exact Props_DigitPoint
  Props_Wchar Props_Pow10.
From Coq Require Import QArith Lqa.
Open Scope Z_scope.

Notation U := Wchar_s32.

(** ** The grammar does not see the difference between a text and the harmless text *)
Section Transfer.
Variable z : Z.
Hypothesis ZC : code_unit U z.
Hypothesis ZB : too_small z = false.
Hypothesis ZN : neutral z.
Notation h := (harmless_char z).
Notation H := (harmless z).

Lemma h_is ch x : In x [43; 45; 40; 41; 100; 68; 101; 69] -> (h ch = x <-> ch = x).
Proof.
  intros I. assert (A : too_small x = false /\ x <> z).
  { cbn in I. split.
    - unfold too_small. apply Z.ltb_ge. lia.
    - apply z_not; [assumption..|]. destruct I as [<-|[<-|[<-|[<-|[<-|[<-|[<-|[<-|[]]]]]]]]]; cbn; tauto. }
  rewrite <- !Z.eqb_eq, (h_eqb z); tauto.
Qed.

Lemma h_lit x : In x [43; 45; 40; 41; 100; 68; 101; 69] -> h x = x.
Proof. intros I. apply h_is; [exact I|reflexivity]. Qed.

Lemma signed_h R s n s1 : signed R s n s1 -> signed R (H s) n (H s1).
Proof.
  intros [s'|s' P J|s' N]; cbn [harmless map]; fold (H s').
  - rewrite h_lit by (cbn; tauto). constructor.
  - rewrite h_lit by (cbn; tauto). constructor; assumption.
  - apply signed_none. destruct s' as [|ch s']; [exact I|]. cbn in *. rewrite !h_is by (cbn; tauto). exact N.
Qed.

Lemma not_digit_h s : not_at_digit s -> not_at_digit (H s).
Proof. destruct s as [|ch s]; [trivial|]. cbn. rewrite h_digit by assumption. trivial. Qed.

Lemma fraction_h R s hp fp r : point R <> z -> (hp = true -> too_small (point R) = false) ->
  fraction R s hp fp r -> fraction R (H s) hp fp (H r).
Proof.
  intros PZ PS F. destruct F as [s' ds rest RN|s' N].
  - cbn [harmless map]. fold (H s'). rewrite h_fix by (apply PS; reflexivity). constructor. apply harmless_run; assumption.
  - constructor. destruct s' as [|ch s']; [exact I|]. cbn in *. unfold harmless_char. destruct (too_small ch); congruence.
Qed.

Lemma exp_mark_h R s s1 : exp_mark R s s1 -> exp_mark R (H s) (H s1).
Proof.
  intros [ch s' A B|ch s' A B|ch s' A B]; cbn [harmless map]; fold (H s'); rewrite h_lit by (cbn; lia); constructor; assumption.
Qed.

Lemma exp_mark_back R s q : exp_mark R (H s) q -> exists s1, exp_mark R s s1 /\ q = H s1.
Proof.
  intros M. destruct s as [|ch s]; [inversion M|]. cbn [harmless map] in M. fold (H s) in M.
  inversion M as [x y A B E1 E2|x y A B E1 E2|x y A B E1 E2]; subst; rewrite !h_is in B by (cbn; tauto).
  - exists s. split; [constructor; assumption|reflexivity].
  - exists s. split; [apply mark_d; assumption|reflexivity].
  - exists (ch :: s). split; [apply mark_sign; assumption|reflexivity].
Qed.

Lemma exp_sign_h s n s1 : exp_sign s n s1 -> exp_sign (H s) n (H s1).
Proof.
  intros [s'|s'|s' N]; cbn [harmless map]; fold (H s'); rewrite ?h_lit by (cbn; tauto); try constructor.
  destruct s' as [|ch s']; [exact I|]. cbn in *. rewrite !h_is by (cbn; tauto). exact N.
Qed.

Lemma exponent_h R s e r : exponent R s e r -> exponent R (H s) e (H r).
Proof.
  intros [s' s1 n s2 ds rest M S4 RN NE|s' NM SF|s' s1 n s2 M S4 ND F].
  - eapply exponent_some; [apply exp_mark_h; exact M|apply exp_sign_h; exact S4|apply harmless_run; eassumption|exact NE].
  - apply exponent_none; [|exact SF]. intros q M. destruct (exp_mark_back _ _ _ M) as (s1 & M1 & _). exact (NM _ M1).
  - eapply exponent_dangling; [apply exp_mark_h; exact M|apply exp_sign_h; exact S4|apply not_digit_h; exact ND|exact F].
Qed.

Lemma exponent_back R s e q : exponent R (H s) e q -> exists r, exponent R s e r /\ q = H r.
Proof.
  intros E. inversion E as [s' q1 n q2 ds rest M S4 RN NE|s' NM SF|s' q1 n q2 M S4 ND F]; subst.
  - destruct (exp_mark_back _ _ _ M) as (s1 & M1 & ->). destruct (exp_sign_exists s1) as (n1 & s2 & S1).
    destruct (exp_sign_unique _ _ _ _ _ S4 (exp_sign_h _ _ _ S1)) as (-> & ->).
    destruct (run_exists s2) as (ds1 & r & R1). pose proof (harmless_run z ZN _ _ _ R1) as R2.
    destruct (run_unique _ _ _ _ _ RN R2) as (-> & ->). exists r. split; [|reflexivity]. eapply exponent_some; eassumption.
  - exists s. split; [|reflexivity]. apply exponent_none; [|exact SF]. intros s1 M. exact (NM _ (exp_mark_h _ _ _ M)).
  - destruct (exp_mark_back _ _ _ M) as (s1 & M1 & ->). destruct (exp_sign_exists s1) as (n1 & s2 & S1).
    destruct (exp_sign_unique _ _ _ _ _ S4 (exp_sign_h _ _ _ S1)) as (-> & ->).
    exists s. split; [|reflexivity]. eapply exponent_dangling; [exact M1|exact S1| |exact F].
    destruct s2 as [|ch s2]; [exact I|]. cbn in *. rewrite h_digit in ND by assumption. exact ND.
Qed.

Lemma point_read R s n s1 ip s2 hp fp s3 : ~ ends_at_small R s -> signed R s n s1 -> run s1 ip s2 -> fraction R s2 hp fp s3 ->
  hp = true -> too_small (point R) = false.
Proof.
  intros NE S1 RI F ->. inversion F as [s' ds rest RN|]; subst. destruct (too_small (point R)) eqn:T; [|reflexivity].
  exfalso. apply NE. exists (point R), s'. split; [eapply end_integer; eassumption|exact T].
Qed.

Lemma number_h R s n ip fp e r : ~ ends_at_small R s -> point R <> z -> number R s n ip fp e r -> number R (H s) n ip fp e (H r).
Proof.
  intros NE PZ (s1 & s2 & hp & s3 & S1 & RI & F & M & E). exists (H s1), (H s2), hp, (H s3).
  split; [apply signed_h; exact S1|]. split; [apply harmless_run; assumption|].
  split; [apply fraction_h; [exact PZ|eapply point_read; eassumption|exact F]|]. split; [exact M|apply exponent_h; exact E].
Qed.

Lemma number_back R s n ip fp e q : ~ ends_at_small R s -> point R <> z -> number R (H s) n ip fp e q ->
  exists r, number R s n ip fp e r /\ q = H r.
Proof.
  intros NE PZ (q1 & q2 & hp & q3 & S1 & RI & F & M & E).
  destruct (signed_exists R s) as (n0 & s1 & S0). destruct (signed_unique _ _ _ _ _ _ S1 (signed_h _ _ _ _ S0)) as (-> & ->).
  destruct (run_exists s1) as (ip0 & s2 & R0). destruct (run_unique _ _ _ _ _ RI (harmless_run z ZN _ _ _ R0)) as (-> & ->).
  destruct (fraction_exists R s2) as (hp0 & fp0 & s3 & F0).
  destruct (fraction_unique _ _ _ _ _ _ _ _ F (fraction_h _ _ _ _ _ PZ (point_read _ _ _ _ _ _ _ _ _ NE S0 R0 F0) F0)) as (-> & -> & ->).
  destruct (exponent_back _ _ _ _ E) as (r & E0 & ->). exists r. split; [|reflexivity]. exists s1, s2, hp0, s3. tauto.
Qed.

(** Infinity and NaN. *)
Lemma special_sign_h p s n s1 : special_sign p s n s1 -> special_sign p (H s) n (H s1).
Proof.
  intros [s'|s' P|s' N]; cbn [harmless map]; fold (H s'); rewrite ?h_lit by (cbn; tauto).
  - constructor.
  - constructor. exact P.
  - apply ssign_none. destruct s' as [|ch s']; [exact I|]. cbn in *. rewrite !h_is by (cbn; tauto). exact N.
Qed.

Lemma special_sign_total p s : exists n s1, special_sign p s n s1.
Proof.
  destruct s as [|ch s]; [exists false, []; apply ssign_none; exact I|]. eexists _, _. apply special_sign_code.
Qed.

Lemma same_letters_h w : letters w -> forall s r, same_letters w s r -> same_letters w (H s) (H r).
Proof.
  induction 1 as [|e w He Hw IH]; intros s r L; inversion L as [|x w' ch s' r' C L']; subst; [constructor|].
  cbn [harmless map]. fold (H s'). constructor; [|apply IH; exact L']. apply (h_letter z ZB ZN); assumption.
Qed.

Lemma same_letters_back w : letters w -> forall s q, same_letters w (H s) q -> exists r, same_letters w s r /\ q = H r.
Proof.
  induction 1 as [|e w He Hw IH]; intros s q L.
  - inversion L; subst. exists s. split; [constructor|reflexivity].
  - destruct s as [|ch s]; [inversion L|]. cbn [harmless map] in L. fold (H s) in L.
    inversion L as [|x w' c' s' r' C L']; subst. apply (proj1 (h_letter z ZB ZN ch e He)) in C.
    destruct (IH _ _ L') as (r & L1 & ->). exists r. split; [constructor; assumption|reflexivity].
Qed.

Lemma nchar_h ch : nchar (h ch) = nchar ch.
Proof.
  unfold harmless_char. destruct (too_small ch) eqn:T; [|reflexivity]. destruct ZN as (N & _). rewrite N. symmetry.
  apply Z.ltb_lt in T. unfold nchar, digit.
  replace (97 <=? ch) with false by (symmetry; apply Z.leb_gt; lia). replace (65 <=? ch) with false by (symmetry; apply Z.leb_gt; lia).
  replace (48 <=? ch) with false by (symmetry; apply Z.leb_gt; lia). replace (ch =? 95) with false by (symmetry; apply Z.eqb_neq; lia).
  reflexivity.
Qed.

Lemma payload_h s r : payload s r -> payload (H s) (H r).
Proof.
  intros [l rest A|s' N].
  - cbn [harmless map]. rewrite h_lit by (cbn; tauto). rewrite map_app. cbn [map]. rewrite h_lit by (cbn; tauto).
    apply payload_some. apply Forall_map. eapply Forall_impl; [|exact A]. cbv beta. intros a. rewrite nchar_h. trivial.
  - apply payload_none. intros l rest A E. destruct s' as [|ch s']; [discriminate E|]. cbn [harmless map] in E.
    injection E as E1 E2. rewrite h_is in E1 by (cbn; tauto). subst ch. apply map_eq_app in E2. destruct E2 as (l1 & l2 & -> & <- & E2).
    destruct l2 as [|ch l2]; [discriminate E2|]. cbn [map] in E2. injection E2 as E2 _. rewrite h_is in E2 by (cbn; tauto). subst ch.
    apply (N l1 l2); [|reflexivity]. apply Forall_map in A. eapply Forall_impl; [|exact A]. cbv beta. intros a. rewrite nchar_h. trivial.
Qed.

Lemma words : letters word_nan /\ letters word_inf /\ letters word_inity.
Proof. unfold letters, word_nan, word_inf, word_inity. split; [|split]; repeat (apply Forall_cons; [lia|]); apply Forall_nil. Qed.

Lemma special_h p s n k r : special p s n k r -> special p (H s) n k (H r).
Proof.
  destruct words as (W1 & W2 & W3).
  intros [s' n' s1 s2 rest A B C|s' n' s1 s2 rest A B C|s' n' s1 rest A B C].
  - eapply special_nan; [apply special_sign_h; exact A|apply same_letters_h; [exact W1|exact B]|apply payload_h; exact C].
  - eapply special_infinity; [apply special_sign_h; exact A|apply same_letters_h; [exact W2|exact B]|apply same_letters_h; [exact W3|exact C]].
  - eapply special_inf; [apply special_sign_h; exact A|apply same_letters_h; [exact W2|exact B]|].
    intros q L. destruct (same_letters_back _ W3 _ _ L) as (r' & L' & _). exact (C _ L').
Qed.

Lemma special_back p s n k q : special p (H s) n k q -> exists r, special p s n k r /\ q = H r.
Proof.
  destruct words as (W1 & W2 & W3). intros SP. destruct (special_sign_total p s) as (n0 & s1 & A0).
  pose proof (special_sign_h _ _ _ _ A0) as A1.
  inversion SP as [s' n' q1 q2 rest A B C|s' n' q1 q2 rest A B C|s' n' q1 rest A B C]; subst;
    destruct (special_sign_unique _ _ _ _ _ _ A A1) as (-> & ->).
  - destruct (same_letters_back _ W1 _ _ B) as (s2 & B0 & ->). destruct (payload_exists s2) as (r & C0).
    exists r. split; [eapply special_nan; eassumption|]. exact (payload_unique _ _ _ C (payload_h _ _ C0)).
  - destruct (same_letters_back _ W2 _ _ B) as (s2 & B0 & ->). destruct (same_letters_back _ W3 _ _ C) as (r & C0 & ->).
    exists r. split; [eapply special_infinity; eassumption|reflexivity].
  - destruct (same_letters_back _ W2 _ _ B) as (r & B0 & ->). exists r. split; [|reflexivity]. eapply special_inf; [exact A0|exact B0|].
    intros r' L. exact (C _ (same_letters_h _ W3 _ _ L)).
Qed.
End Transfer.

(** ** A digit as separator: the same grammar as a separator that does not occur *)
Lemma fresh l : exists d, digit d = false /\ ~ In d l.
Proof.
  assert (B : exists m, 57 < m /\ Forall (fun x => x < m) l).
  { induction l as [|x l (m & M & F)]; [exists 58; split; [lia|constructor]|].
    exists (Z.max m (x + 1)). split; [lia|]. constructor; [lia|]. eapply Forall_impl; [|exact F]. cbv beta. intros. lia. }
  destruct B as (m & M & F). exists m. split.
  - unfold digit. apply andb_false_iff. right. apply Z.leb_gt. lia.
  - intros I. rewrite Forall_forall in F. specialize (F _ I). lia.
Qed.

Lemma signed_point c o d s n s1 : signed (rules_of c o) s n s1 -> signed (rules_of c (with_point o d)) s n s1.
Proof. intros [s'|s' A B|s' N]; [constructor|apply signed_plus; assumption|apply signed_none; exact N]. Qed.

Lemma exp_mark_point c o d s s1 : exp_mark (rules_of c o) s s1 -> exp_mark (rules_of c (with_point o d)) s s1.
Proof. intros [ch s' A B|ch s' A B|ch s' A B]; [apply mark_e|apply mark_d|apply mark_sign]; assumption. Qed.

Lemma exp_mark_unpoint c o d s s1 : exp_mark (rules_of c (with_point o d)) s s1 -> exp_mark (rules_of c o) s s1.
Proof. intros [ch s' A B|ch s' A B|ch s' A B]; [apply mark_e|apply mark_d|apply mark_sign]; assumption. Qed.

Lemma exponent_point c o d s e r : exponent (rules_of c o) s e r -> exponent (rules_of c (with_point o d)) s e r.
Proof.
  intros [s' s1 n s2 ds rest M S4 RN NE|s' NM SF|s' s1 n s2 M S4 ND F].
  - eapply exponent_some; [apply exp_mark_point; exact M|eassumption..].
  - apply exponent_none; [|exact SF]. intros q M. exact (NM _ (exp_mark_unpoint _ _ _ _ _ M)).
  - eapply exponent_dangling; [apply exp_mark_point; exact M|eassumption..].
Qed.

Lemma digit_point_number c o d s n ip fp e r : digit (o_decimal_point o) = true -> ~ In d s ->
  number (rules_of c o) s n ip fp e r -> number (rules_of c (with_point o d)) s n ip fp e r.
Proof.
  intros DP NI (s1 & s2 & hp & s3 & S1 & RI & F & M & E). exists s1, s2, hp, s3.
  split; [apply signed_point; exact S1|]. split; [exact RI|]. split; [|split; [exact M|apply exponent_point; exact E]].
  inversion F as [s' ds rest RN E1|s' N]; subst.
  - destruct RI as (_ & _ & ND). cbn in ND. change (point (rules_of c o)) with (o_decimal_point o) in ND. congruence.
  - apply fraction_none. pose proof (run_in _ _ _ d RI (signed_in _ _ _ _ d S1 NI)) as N2.
    destruct s3 as [|ch s3]; [exact I|]. cbn. intros ->. apply N2. left. reflexivity.
Qed.

Lemma digit_point_number_back c o d s n ip fp e r : digit (o_decimal_point o) = true -> ~ In d s ->
  number (rules_of c (with_point o d)) s n ip fp e r -> number (rules_of c o) s n ip fp e r.
Proof.
  assert (EO : with_point (with_point o d) (o_decimal_point o) = o) by (destruct o; reflexivity).
  intros DP NI (s1 & s2 & hp & s3 & S1 & RI & F & M & E). exists s1, s2, hp, s3.
  split; [rewrite <- EO; apply signed_point; exact S1|]. split; [exact RI|].
  split; [|split; [exact M|rewrite <- EO; apply exponent_point; exact E]].
  pose proof (run_in _ _ _ d RI (signed_in _ _ _ _ d S1 NI)) as N2.
  inversion F as [s' ds rest RN E1|s' N]; subst.
  - destruct N2. left. reflexivity.
  - apply fraction_none. destruct RI as (_ & _ & ND). destruct s3 as [|ch s3]; [exact I|]. cbn in *. congruence.
Qed.

(** ** Rounding and the error code *)
Lemma rounded_near t v b : near t v b -> rounded t (nineteen_digits v) v b.
Proof.
  intros H. destruct (ftype_F16_dec t) as [->|NT].
  - pose proof (near_F16_spec v b H) as (A & B & C). split; [exact A|]. split; [intros _; exact B|].
    intros [D|D]; [contradiction|]. exact (C D).
  - pose proof (rounds_nearest_even t v b (near_not_F16 t v b NT H)) as NE.
    split; [apply nearest_even_nearest; exact NE|]. split; [intros; contradiction|intros _; exact NE].
Qed.

Lemma rounded_cf t v b : cf_rounds t v b -> rounded t True v b.
Proof.
  intros RR. split; [|split].
  - apply (rounds_or_tie_spec t). destruct RR as [T|[_ RR]]; [right|left]; assumption.
  - intros -> _ b' T. apply subnormal_tie_sub_tie in T. destruct RR as [T'|[NT _]]; [eapply sub_tie_unique; eassumption|].
    destruct (NT b' T).
  - intros A. apply (rounds_nearest_even t). destruct RR as [T|[_ RR]]; [exfalso|exact RR].
    destruct A as [A|[A|A]]; [apply A, (proj1 T)|tauto|]. destruct t; try (destruct T as (F & _); discriminate F).
    apply (A b), sub_tie_subnormal_tie, T.
Qed.

Lemma rounded_unique t up v b b' : rounded t up v b -> rounded t up v b' -> b = b'.
Proof.
  intros (_ & T & E) (_ & T' & E'). destruct (Z.eq_dec b b') as [EQ|NE]; [exact EQ|]. exfalso.
  assert (NN : t <> F16 \/ ~ up \/ (forall k, ~ subnormal_tie binary16 v k) -> False).
  { intros H. apply NE. apply (nearest_even_unique t v); [apply E|apply E']; exact H. }
  destruct (ftype_F16_dec t) as [F|F]; [|apply NN; left; exact F].
  apply NN. right. left. intros U0. apply NN. right. right. intros k TK. apply NE. rewrite (T F U0 k TK), (T' F U0 k TK). reflexivity.
Qed.

Lemma reported_ok c t W q b x : ok_ec c t W q b x -> reported c t W q b x.
Proof.
  intros (Q1 & Q2). assert (QD : quiet c t W q <-> t = F16 /\ direct_arithmetic c /\ W <= 2048 /\ 0 <= q <= 4)
    by (unfold quiet, direct_arithmetic; tauto).
  unfold reported. rewrite <- QD. destruct (quiet_dec c t W q) as [Q|NQ].
  - rewrite (Q1 Q). split; [left; reflexivity|]. split; [discriminate|]. intros (_ & NQ). contradiction.
  - rewrite (Q2 NQ). assert (RC : range_rule (format_of t) (decimal W q) b (range_code t W b)).
    { apply range_code_rule with W; [apply decimal_pos|reflexivity]. }
    destruct RC as (R1 & R2). split; [exact R1|]. rewrite R2, decimal_pos. tauto.
Qed.

Lemma reported_unique c t W q b x y : reported c t W q b x -> reported c t W q b y -> x = y.
Proof.
  intros (A & B) (A' & B'). destruct A as [-> | ->], A' as [-> | ->]; try reflexivity.
  - apply B. apply B'. reflexivity.
  - symmetry. apply B'. apply B. reflexivity.
Qed.

(** ** Code units that the library can handle *)
Lemma special_code_bits t k : special_code t k = special_bits (format_of t) k.
Proof. destruct t, k; reflexivity. Qed.

Lemma okc_at_small u R s : Forall (okc u) s -> ~ undefined u R s.
Proof.
  intros OK (-> & ch & r & DE & T). assert (I : In ch s).
  { assert (SI : forall s n s1, signed R s n s1 -> incl s1 s)
      by (intros ? ? ? A; inversion A; subst; [apply incl_tl, incl_refl|apply incl_tl, incl_refl|apply incl_refl]).
    assert (RI : forall s ds q, run s ds q -> incl q s) by (intros ? ? ? (-> & _); apply incl_appr, incl_refl).
    assert (FI : forall s hp fp q, fraction R s hp fp q -> incl q s).
    { intros ? ? ? ? A. inversion A; subst; [apply incl_tl; eapply RI; eassumption|apply incl_refl]. }
    assert (MI : forall s q, exp_mark R s q -> incl q s)
      by (intros ? ? A; inversion A; subst; [apply incl_tl, incl_refl|apply incl_tl, incl_refl|apply incl_refl]).
    assert (EI : forall s n q, exp_sign s n q -> incl q s)
      by (intros ? ? ? A; inversion A; subst; [apply incl_tl, incl_refl|apply incl_tl, incl_refl|apply incl_refl]).
    inversion DE as [? ? ? ? A B|? ? ? s2 ? ? A B _ C|? ? ? ? ? ? ? ? ? ? ? ? A B C _ D F G]; subst.
    - apply (SI _ _ _ A), (RI _ _ _ B). left. reflexivity.
    - apply (SI _ _ _ A), (RI _ _ _ B). right. apply (RI _ _ _ C). left. reflexivity.
    - apply (SI _ _ _ A), (RI _ _ _ B), (FI _ _ _ _ C), (MI _ _ D), (EI _ _ _ F), (RI _ _ _ G). left. reflexivity. }
  rewrite Forall_forall in OK. destruct (OK _ I) as (_ & L). specialize (L eq_refl). unfold too_small in T. apply Z.ltb_lt in T. lia.
Qed.

Definition start_ok (c : cfg) (u : uc) (o : options) (s s0 : list Z) : Prop :=
  (if flag (adjust_for_feature_macros c (o_format o)) f_skip_white_space then skip_ws s else Ok s) = Ok s0 /\
  Forall (okc u) s0 /\ Z.of_nat (length s0) <= 2 ^ 59.

Lemma number_at_or_not c u o s s0 : started c u o s s0 ->
  (exists neg ip fp e rest, number (rules_of c o) s0 neg ip fp e rest) \/ no_number (rules_of c o) s0.
Proof.
  intros (_ & OK0 & LEN & DP). destruct (list_eq_dec Z.eq_dec s0 []) as [->|NE].
  - right. intros neg ip fp e rest N. exact (number_nonempty _ _ _ _ _ _ _ N eq_refl).
  - destruct (parse_number_string_spec c u o s0 true OK0 NE ltac:(lia) DP)
      as (pns & _ & [(neg & ip & fp & e & rest & N & _)|(_ & N)]); [left|right; exact N].
    exists neg, ip, fp, e, rest. exact N.
Qed.

Lemma number_outcome c u t o s0 neg ip fp e rest e' b x : ~ undefined u (rules_of c o) s0 ->
  number (rules_of c o) s0 neg ip fp e rest ->
  ~ (digit (o_decimal_point o) = true /\ miscounted (o_decimal_point o) ip) -> clamp e e' ->
  near t (dec (digits_value (ip ++ fp)) (e' - Z.of_nat (length fp))) b ->
  ok_ec c t (digits_value (ip ++ fp)) (e' - Z.of_nat (length fp)) b x ->
  outcome c u t o s0 (Ok {| r_ptr := rest; r_ec := x; r_value := Some (with_sign (format_of t) neg b) |}).
Proof.
  intros ND N NM CL NR OE. eapply call_number; [exact ND|exact N|apply clamp_read; exact CL|exact NM| |apply reported_ok; exact OE].
  apply rounded_near. eapply near_comp; [symmetry; apply number_value_dec|exact NR].
Qed.

Lemma other_outcome c u t o o' s s0 : ~ undefined u (rules_of c o) s0 -> no_number (rules_of c o) s0 ->
  started c u o' s s0 -> no_number (rules_of c o') s0 -> allows_special o' = allows_special o ->
  leading_plus (rules_of c o') = leading_plus (rules_of c o) ->
  outcome c u t o s0 (from_chars_float_advanced c u t s o').
Proof.
  intros ND NN ST NN' AE LE. pose proof (float_no_number_at c u t o' s s0 ST NN') as H. cbv zeta in H. rewrite AE, LE in H.
  destruct H as [(A & ->)|[(A & NS & ->)|(neg & k & rest & A & SP & ->)]].
  - apply call_invalid; [exact ND|exact NN|congruence].
  - apply call_invalid; [exact ND|exact NN|intros _; exact NS].
  - rewrite special_code_bits. apply call_special; assumption.
Qed.

Lemma outcome_at c u t o s s0 : start_ok c u o s s0 -> outcome c u t o s0 (from_chars_float_advanced c u t s o).
Proof.
  intros (ST & OK & LEN). pose proof (okc_at_small u (rules_of c o) s0 OK) as ND.
  destruct (digit (o_decimal_point o)) eqn:DP.
  - destruct (fresh s0) as (d & DD & NI). set (o' := with_point o d).
    assert (S1 : started c u o' s s0) by (split; [exact ST|split; [exact OK|split; [exact LEN|exact DD]]]).
    destruct (digit_separator_at c u t o d s s0 DP NI S1) as (MIS & SAME). fold o' in MIS, SAME.
    destruct (number_at_or_not c u o' s s0 S1) as [(neg & ip & fp & e & rest & N)|NN].
    + pose proof (digit_point_number_back c o d s0 neg ip fp e rest DP NI N) as N0.
      destruct (Z_lt_le_dec 19 (Z.of_nat (length ip))) as [L1|L1].
      destruct (Z_le_gt_dec (Z.of_nat (length ip) - leading_zeros_and (o_decimal_point o) ip) 19) as [L2|L2].
      { destruct (MIS neg ip fp e rest N) as (-> & e' & b & x & CL & -> & CF & OE); [split; assumption|].
        eapply call_miscounted; [exact ND|exact N0|apply clamp_read; exact CL|exact DP|split; assumption| |apply reported_ok; exact OE].
        apply rounded_cf. exact CF. }
      all: assert (NM : ~ miscounted (o_decimal_point o) ip) by (unfold miscounted; lia).
      all: rewrite SAME;
        [|intros neg0 ip0 fp0 e0 rest0 N1; destruct (number_unique _ _ _ _ _ _ _ _ _ _ _ _ N N1) as (_ & <- & _); exact NM].
      all: destruct (float_number_at c u t o' s s0 neg ip fp e rest S1 N) as (e' & b & x & CL & -> & NR & OE).
      all: eapply number_outcome; [exact ND|exact N0|tauto|eassumption..].
    + rewrite SAME by (intros neg ip fp e rest N; destruct (NN _ _ _ _ _ N)).
      apply other_outcome; [exact ND| |exact S1|exact NN|reflexivity|reflexivity].
      intros neg ip fp e rest N. exact (NN _ _ _ _ _ (digit_point_number c o d s0 neg ip fp e rest DP NI N)).
  - assert (S1 : started c u o s s0) by (split; [exact ST|split; [exact OK|split; [exact LEN|exact DP]]]).
    destruct (number_at_or_not c u o s s0 S1) as [(neg & ip & fp & e & rest & N)|NN].
    + destruct (float_number_at c u t o s s0 neg ip fp e rest S1 N) as (e' & b & x & CL & -> & NR & OE).
      eapply number_outcome; [exact ND|exact N|intros (F & _); congruence|eassumption..].
    + apply other_outcome; [exact ND|exact NN|exact S1|exact NN|reflexivity|reflexivity].
Qed.

(** ** At most one outcome *)
Lemma outcome_unique c u t o s0 a1 a2 : outcome c u t o s0 a1 -> outcome c u t o s0 a2 -> a1 = a2.
Proof.
  assert (SN : forall n k r, special (leading_plus (rules_of c o)) s0 n k r ->
     forall n' ip fp e q, ~ number (rules_of c o) s0 n' ip fp e q).
  { intros n k r SP n' ip fp e q N. exact (special_not_number (rules_of c o) _ _ _ _ _ SP _ _ _ _ _ N). }
  intros H1 H2.
  destruct H1 as [UD|neg ip fp e rest e' b x ND N RD NM v RO RP|neg ip fp e rest e' b x ND N RD DP MC W RO RP|neg k rest ND AL SP|ND NN NS];
  destruct H2 as [UD2|neg2 ip2 fp2 e2 rest2 e2' b2 x2 ND2 N2 RD2 NM2 v2 RO2 RP2|neg2 ip2 fp2 e2 rest2 e2' b2 x2 ND2 N2 RD2 DP2 MC2 W2 RO2 RP2|neg2 k2 rest2 ND2 AL2 SP2|ND2 NN2 NS2];
  try contradiction; try reflexivity;
  try (exfalso; eapply SN; eassumption); try (exfalso; eapply NN; eassumption); try (exfalso; eapply NN2; eassumption);
  try (exfalso; eapply NS; eassumption); try (exfalso; eapply NS2; eassumption).
  1-4: destruct (number_unique _ _ _ _ _ _ _ _ _ _ _ _ N N2) as (<- & <- & <- & <- & <-);
       pose proof (read_unique _ _ _ RD RD2); subst e2'.
  - subst v v2. pose proof (rounded_unique _ _ _ _ _ RO RO2). subst b2.
    pose proof (reported_unique _ _ _ _ _ _ _ RP RP2). subst x2. reflexivity.
  - tauto.
  - tauto.
  - subst W W2. pose proof (rounded_unique _ _ _ _ _ RO RO2). subst b2.
    pose proof (reported_unique _ _ _ _ _ _ _ RP RP2). subst x2. reflexivity.
  - destruct (special_unique _ _ _ _ _ _ _ _ SP SP2) as (<- & <- & <-). reflexivity.
Qed.

(** ** All code units *)
Lemma begins_start c u o ws s0 : begins c o ws s0 -> Forall (okc u) s0 -> Z.of_nat (length s0) <= 2 ^ 59 -> start_ok c u o (ws ++ s0) s0.
Proof.
  intros B OK LEN. split; [|split; assumption]. destruct (flag_adjust c o) as (_ & _ & _ & _ & _ & FW & _). rewrite FW.
  unfold begins in B. destruct (skips_space c o); [|subst ws; reflexivity]. apply skip_ws_taken; apply B.
Qed.

Lemma same_suffix (s a b p q : list Z) : s = p ++ a -> s = q ++ b -> length a = length b -> a = b.
Proof.
  intros -> E L. assert (LP : length p = length q) by (apply (f_equal (@length Z)) in E; rewrite !app_length in E; lia).
  revert q E LP. induction p as [|x p IH]; intros [|y q] E LP; try discriminate LP; cbn in E; [exact E|].
  injection E as _ E. injection LP as LP. exact (IH q E LP).
Qed.

Lemma neutral_exists dp : exists z, code_unit U z /\ too_small z = false /\ neutral z /\ taken_for_space z = false /\ z <> dp.
Proof.
  assert (N35 : neutral 35) by (split; [reflexivity|cbn; intuition discriminate]).
  assert (N36 : neutral 36) by (split; [reflexivity|cbn; intuition discriminate]).
  destruct (Z.eq_dec dp 36) as [->|NE].
  - exists 35. repeat split; try (vm_compute; congruence); apply N35.
  - exists 36. repeat split; try (vm_compute; congruence); try apply N36; congruence.
Qed.

Lemma harmless_length z a b : harmless z a = harmless z b -> length a = length b.
Proof. intros E. apply (f_equal (@length Z)) in E. unfold harmless in E. rewrite !map_length in E. exact E. Qed.

Lemma harmless_okc z s : code_unit U z -> too_small z = false -> Forall (code_unit U) s -> Forall (okc U) (harmless z s).
Proof.
  intros ZC ZB F. unfold harmless. apply Forall_map. eapply Forall_impl; [|exact F]. cbv beta. intros ch C. unfold harmless_char.
  unfold too_small in *. destruct (Z.ltb_spec ch (- 2 ^ 31 + 48)) as [L|L].
  - apply Z.ltb_ge in ZB. split; [exact ZC|intros _; exact ZB].
  - split; [exact C|intros _; exact L].
Qed.

Lemma harmless_begins c o z ws s0 : taken_for_space z = false -> begins c o ws s0 -> begins c o [] (harmless z s0).
Proof.
  intros ZT. unfold begins. destruct (skips_space c o); [|reflexivity]. intros (_ & N). split; [constructor|].
  destruct s0 as [|ch s0]; [exact I|]. cbn in *. unfold harmless_char. destruct (too_small ch); congruence.
Qed.

Lemma outcome_wchar c t o ws s0 : Forall (code_unit U) s0 -> Z.of_nat (length s0) <= 2 ^ 59 -> begins c o ws s0 ->
  outcome c U t o s0 (from_chars_float_advanced c U t (ws ++ s0) o).
Proof.
  intros F LEN B. destruct (neutral_exists (o_decimal_point o)) as (z & ZC & ZB & ZN & ZT & ZD).
  destruct (from_chars_wchar_exact c t o ws s0 z F LEN B ZC ZB ZN ZT ZD) as (UBI & GOOD).
  destruct (from_chars_float_advanced c U t (ws ++ s0) o) as [r|] eqn:E.
  2:{ apply call_undefined. split; [reflexivity|]. apply UBI. reflexivity. }
  assert (NE : ~ ends_at_small (rules_of c o) s0) by (intros X; apply UBI in X; discriminate X).
  assert (ND : ~ undefined U (rules_of c o) s0) by (intros (_ & X); exact (NE X)).
  destruct (GOOD NE) as (cons & rest & x & v & ES & [= ->] & EH). clear GOOD UBI E.
  pose proof (outcome_at c U t o ([] ++ harmless z s0) (harmless z s0)
     (begins_start c U o [] _ (harmless_begins c o z ws s0 ZT B) (harmless_okc z s0 ZC ZB F)
        ltac:(unfold harmless; rewrite map_length; exact LEN))) as OC.
  cbn [app] in OC. rewrite EH in OC. clear EH.
  assert (PZ : point (rules_of c o) <> z) by (intros X; apply ZD; symmetry; exact X).
  remember (Ok {| r_ptr := harmless z rest; r_ec := x; r_value := v |}) as a eqn:EA.
  destruct OC as [UD1|neg ip fp e q e' b y ND1 N RD NM v0 RO RP|neg ip fp e q e' b y ND1 N RD DP MC W0 RO RP|neg k q ND1 AL SP|ND1 NN NS];
    [discriminate EA|injection EA as -> <- <-..|injection EA as E1 <- <-].
  - destruct (number_back z ZB ZN _ _ _ _ _ _ _ NE PZ N) as (r & N0 & EH). destruct (number_suffix _ _ _ _ _ _ _ N0) as (p & EP).
    assert (rest = r) by (eapply same_suffix; [exact ES|exact EP|eapply harmless_length; exact EH]). subst r.
    eapply call_number; eassumption.
  - destruct (number_back z ZB ZN _ _ _ _ _ _ _ NE PZ N) as (r & N0 & EH). destruct (number_suffix _ _ _ _ _ _ _ N0) as (p & EP).
    assert (rest = r) by (eapply same_suffix; [exact ES|exact EP|eapply harmless_length; exact EH]). subst r.
    eapply call_miscounted; eassumption.
  - destruct (special_back z ZB ZN _ _ _ _ _ SP) as (r & N0 & EH). destruct (special_suffix _ _ _ _ _ N0) as (p & EP).
    assert (rest = r) by (eapply same_suffix; [exact ES|exact EP|eapply harmless_length; exact EH]). subst r.
    apply call_special; assumption.
  - assert (rest = s0) by (eapply same_suffix; [exact ES|exact (eq_refl : s0 = [] ++ s0)|eapply harmless_length; symmetry; exact E1]). subst rest.
    apply call_invalid; [exact ND| |].
    + intros neg ip fp e q N. exact (NN _ _ _ _ _ (number_h z ZB ZN _ _ _ _ _ _ _ NE PZ N)).
    + intros AL neg k q SP. exact (NS AL _ _ _ (special_h z ZB ZN _ _ _ _ _ SP)).
Qed.

(** C84.  Every text, of whatever code units, every option set, every type and configuration: the
    call does what [outcome] says - no more and no less. *)
Theorem from_chars_every_call :
  forall (c : cfg) (u : uc) (t : ftype) (o : options) (ws s0 : list Z) (a : res result),
  Forall (code_unit u) s0 -> Z.of_nat (length s0) <= 2 ^ 59 -> begins c o ws s0 ->
  (from_chars_float_advanced c u t (ws ++ s0) o = a <-> outcome c u t o s0 a).
Proof.
  intros c u t o ws s0 a F LEN B.
  assert (OC : outcome c u t o s0 (from_chars_float_advanced c u t (ws ++ s0) o)).
  { assert (D : u = U \/ u <> U) by (destruct u; (left; reflexivity) || (right; discriminate)). destruct D as [->|NU].
    - apply outcome_wchar; assumption.
    - apply outcome_at, begins_start; [exact B| |exact LEN]. eapply Forall_impl; [|exact F]. cbv beta.
      intros ch C. split; [exact C|intros X; contradiction]. }
  split; [intros <-; exact OC|]. intros O2. eapply outcome_unique; eassumption.
Qed.
Print Assumptions from_chars_every_call.

(** Every text begins somewhere, and only there. *)
Theorem begins_somewhere :
  forall (c : cfg) (o : options) (s : list Z),
  exists ws s0, s = ws ++ s0 /\ begins c o ws s0 /\
    forall ws' s0', s = ws' ++ s0' -> begins c o ws' s0' -> ws' = ws /\ s0' = s0.
Proof.
  intros c o s. unfold begins. destruct (skips_space c o).
  - destruct (taken_for_space_run s) as (ws & s0 & -> & W & N). exists ws, s0. split; [reflexivity|]. split; [split; assumption|].
    intros ws' s0' E (W' & N'). revert ws' W' E. induction W as [|ch ws H W IH]; intros ws' W' E.
    + destruct ws' as [|y ws']; [split; [reflexivity|symmetry; exact E]|]. cbn in E. subst s0. inversion W'; subst. cbn in N. contradiction.
    + destruct ws' as [|y ws']; cbn in E.
      * subst s0'. cbn in N'. contradiction.
      * injection E as -> E. inversion W'; subst. destruct (IH ws' ltac:(assumption) E) as (-> & ->). split; reflexivity.
  - exists [], s. split; [reflexivity|]. split; [reflexivity|]. intros ws' s0' E ->. split; [reflexivity|symmetry; exact E].
Qed.
Print Assumptions begins_somewhere.

(** ** The hypotheses are met: wchar_t 0x20, 0xffffff20, then "1.5x", "-1e99999", "-iNf(", "1." and the
    smallest wchar_t, "." and the smallest wchar_t, and "50000000000000000000" with '5' as separator. *)
Example every_call_example :
  let o := {| o_format := 5 + 256; o_decimal_point := 46; o_base := 10 |} in
  let five := {| o_format := 5; o_decimal_point := 53; o_base := 10 |} in
  let call o s a := Forall (code_unit U) s /\ Z.of_nat (length s) <= 2 ^ 59 /\ begins cfg_x86_64 o [] s /\ outcome cfg_x86_64 U F64 o s a in
  begins cfg_x86_64 o [32; -224] [49; 46; 53; 120] /\
  call o [49; 46; 53; 120] (Ok {| r_ptr := [120]; r_ec := Success; r_value := Some 0x3ff8000000000000 |}) /\
  call o [45; 49; 101; 57; 57; 57; 57; 57] (Ok {| r_ptr := []; r_ec := OutOfRange; r_value := Some 0xfff0000000000000 |}) /\
  call o [45; 105; 78; 102; 40] (Ok {| r_ptr := [40]; r_ec := Success; r_value := Some 0xfff0000000000000 |}) /\
  call o [49; 46; - 2 ^ 31] UB /\
  call o [46; - 2 ^ 31] UB /\
  call o [45; 46; 120; - 2 ^ 31] (Ok {| r_ptr := [45; 46; 120; - 2 ^ 31]; r_ec := InvalidArgument; r_value := None |}) /\
  call five (53 :: repeat 48 19) (Ok {| r_ptr := []; r_ec := Success; r_value := Some 4892805259687506176 |}).
Proof.
  cbv zeta.
  assert (X : forall o s a, Forall (code_unit U) s -> (length s <= 20)%nat -> begins cfg_x86_64 o [] s ->
    from_chars_float_advanced cfg_x86_64 U F64 s o = a ->
    Forall (code_unit U) s /\ Z.of_nat (length s) <= 2 ^ 59 /\ begins cfg_x86_64 o [] s /\ outcome cfg_x86_64 U F64 o s a).
  { intros o s a F L B E. assert (L' : Z.of_nat (length s) <= 2 ^ 59) by lia.
    split; [exact F|]. split; [exact L'|]. split; [exact B|].
    apply (from_chars_every_call cfg_x86_64 U F64 o [] s a F L' B). exact E. }
  split; [split; [repeat constructor|cbn; discriminate]|].
  split; [|split; [|split; [|split; [|split; [|split]]]]];
    (apply X; [cbn [repeat]; repeat (apply Forall_cons; [split; discriminate|]); apply Forall_nil
              |apply Nat.leb_le; reflexivity
              |first [reflexivity|split; [apply Forall_nil|intros H; vm_compute in H; discriminate H]]
              |vm_compute; reflexivity]).
Qed.
