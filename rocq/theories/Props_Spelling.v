(** Properties C38, C40, C42: what matters about the spelling of a number.
    C38: only its value.  C40: not the case of its letters.  C42: only the
    characters that were consumed. *)
From Verif Require Import Machine Config Chars Format ParseNumber DecToBin FromChars WordLemmas
  Rounding ComputeFloat SpecFloat FloatBridge Pow10 SpecGrammar SpecApi SpecRel SpecText Scan ParseSpec Special
  SlowPath ManyDigits Saturate FloatMaster FloatApi FloatRel TextSpec Props_Pow10 Props_Float Props_Relations Props_Texts.
From Coq Require Import QArith Qabs.
Open Scope Z_scope.

(** ** C38: two spellings of the same value.  The two calls may differ in the
    text, the options, the character type and the build. *)
Theorem from_chars_value_only :
  forall (c1 c2 : cfg) (u1 u2 : uc) (t : ftype) (o1 o2 : options) (s1 s2 s01 s02 : list Z)
         (neg : bool) (ip1 fp1 ip2 fp2 : list Z) (e1 e2 : Z) (rest1 rest2 : list Z),
  good_text c1 u1 o1 s1 -> starts_at c1 o1 s1 s01 ->
  number (rules_of c1 o1) s01 neg ip1 fp1 e1 rest1 -> exponent_bounded s1 e1 ->
  good_text c2 u2 o2 s2 -> starts_at c2 o2 s2 s02 ->
  number (rules_of c2 o2) s02 neg ip2 fp2 e2 rest2 -> exponent_bounded s2 e2 ->
  (number_value ip1 fp1 e1 == number_value ip2 fp2 e2)%Q ->
  exists v x1 x2,
    from_chars_float_advanced c1 u1 t s1 o1 = Ok {| r_ptr := rest1; r_ec := x1; r_value := Some v |} /\
    from_chars_float_advanced c2 u2 t s2 o2 = Ok {| r_ptr := rest2; r_ec := x2; r_value := Some v |} /\
    (t <> F16 -> x1 = x2).
Proof.
  intros c1 c2 u1 u2 t o1 o2 s1 s2 s01 s02 neg ip1 fp1 ip2 fp2 e1 e2 rest1 rest2 G1 S1 N1 B1 G2 S2 N2 B2 EQ.
  destruct (float_number c1 u1 t o1 s1 s01 neg ip1 fp1 e1 rest1 (good_text_ok _ _ _ _ G1) S1 N1) as (b1 & x1 & E1 & R1 & (_ & O1)).
  { destruct B1; [right|left]; assumption. }
  destruct (float_number c2 u2 t o2 s2 s02 neg ip2 fp2 e2 rest2 (good_text_ok _ _ _ _ G2) S2 N2) as (b2 & x2 & E2 & R2 & (_ & O2)).
  { destruct B2; [right|left]; assumption. }
  pose proof EQ as EQ'. rewrite !number_value_dec in EQ'.
  assert (b2 = b1). { apply (near_unique t _ _ _ R2). eapply near_comp; [exact EQ'|exact R1]. }
  subst b2. exists (with_sign (format_of t) neg b1), x1, x2. split; [exact E1|]. split; [exact E2|].
  intros NT. rewrite O1, O2 by (intros (Q & _); contradiction). unfold range_code.
  assert (P : (0 <? digits_value (ip1 ++ fp1)) = (0 <? digits_value (ip2 ++ fp2))).
  { apply eq_true_iff_eq. rewrite !Z.ltb_lt, <- !dec_pos_iff, EQ'. reflexivity. }
  rewrite P. reflexivity.
Qed.
Print Assumptions from_chars_value_only.

(** "70000" and "7e4" spell the same number; only for float16 does the error
    code depend on the spelling. *)
Definition text_70000 : list Z := [55; 48; 48; 48; 48].
Definition text_7 : list Z := [55].
Theorem from_chars_value_only_float16_refuted :
  number (rules_of cfg_x86_64 general) text_70000 false text_70000 [] 0 [] /\
  number (rules_of cfg_x86_64 general) text_7e4 false text_7 [] 4 [] /\
  (number_value text_70000 [] 0 == number_value text_7 [] 4)%Q /\
  good_text cfg_x86_64 Char_s general text_70000 /\ good_text cfg_x86_64 Char_s general text_7e4 /\
  starts_at cfg_x86_64 general text_70000 text_70000 /\ starts_at cfg_x86_64 general text_7e4 text_7e4 /\
  exponent_bounded text_70000 0 /\ exponent_bounded text_7e4 4 /\
  from_chars_float_advanced cfg_x86_64 Char_s F16 text_70000 general =
    Ok {| r_ptr := []; r_ec := OutOfRange; r_value := Some (infinity binary16) |} /\
  from_chars_float_advanced cfg_x86_64 Char_s F16 text_7e4 general =
    Ok {| r_ptr := []; r_ec := Success; r_value := Some (infinity binary16) |} /\
  from_chars_float_advanced cfg_x86_64 Char_s F64 text_70000 general =
    from_chars_float_advanced cfg_x86_64 Char_s F64 text_7e4 general.
Proof.
  split.
  { exists text_70000, [], false, []. split; [constructor; cbn; lia|]. split; [repeat split; repeat constructor|].
    split; [constructor; exact I|]. split; [cbn; discriminate|]. apply exponent_none; [intros ? M; inversion M|right; reflexivity]. }
  split.
  { exists text_7e4, [101; 52], false, [101; 52]. split; [constructor; cbn; lia|]. split; [repeat split; [repeat constructor|cbn; discriminate]|].
    split; [constructor; cbn; discriminate|]. split; [cbn; discriminate|].
    refine (exponent_some _ _ [52] false [52] [52] [] _ _ _ _); [apply mark_e; [reflexivity|left; reflexivity]|constructor; cbn; lia|repeat split; repeat constructor|discriminate]. }
  split; [vm_compute; reflexivity|].
  split; [apply ascii_good; [repeat constructor; lia|cbn; lia|reflexivity]|].
  split; [apply ascii_good; [repeat constructor; lia|cbn; lia|reflexivity]|].
  split; [reflexivity|]. split; [reflexivity|]. split; [right; reflexivity|]. split; [right; reflexivity|].
  repeat split; vm_compute; reflexivity.
Qed.
Print Assumptions from_chars_value_only_float16_refuted.

(** ** C42: the consumed characters alone give the same result. *)
Lemma number_alone R p neg ip fp e rest : plain_point R -> number R (p ++ rest) neg ip fp e rest -> number R p neg ip fp e [].
Proof.
  intros PP N. destruct (number_number_text _ _ _ _ _ _ _ N) as (q & E & NT).
  apply app_inv_tail in E. subst q. apply number_text_number; assumption.
Qed.

Lemma same_letters_split w s rest : same_letters w s rest -> exists p, s = p ++ rest /\ forall r, same_letters w (p ++ r) r.
Proof.
  induction 1 as [s|x w ch s rest C _ (p & -> & H)]; [exists []; split; [reflexivity|constructor]|].
  exists (ch :: p). split; [reflexivity|]. intros r. cbn. constructor; [exact C|apply H].
Qed.

Lemma special_alone plus p neg k rest : special plus (p ++ rest) neg k rest -> special plus p neg k [].
Proof.
  assert (SG : forall s n s1, special_sign plus s n s1 -> s1 <> [] -> exists p, s = p ++ s1 /\
    forall q r, s1 = q ++ r -> q <> [] -> special_sign plus (p ++ q) n q).
  { intros ? ? s1 H NE. inversion H as [|? P|? N]; subst.
    - exists [45]. split; [reflexivity|]. intros; constructor.
    - exists [43]. split; [reflexivity|]. intros; constructor. reflexivity.
    - exists []. split; [reflexivity|]. intros q r -> NQ. constructor. destruct q; [congruence|exact N]. }
  intros H. inversion H as [? ? s1 s2 ? A B C|? ? s1 s2 ? A B C|? ? s1 ? A B NI]; subst.
  - destruct (same_letters_split _ _ _ B) as (q & -> & Q).
    assert (NQ : q <> []) by (intros ->; specialize (Q []); inversion Q).
    destruct (SG _ _ _ A) as (g & E & G); [intros E; apply app_eq_nil in E; tauto|].
    inversion C as [l r AL|? NP]; subst.
    + assert (EP : p = g ++ q ++ 40 :: l ++ [41]).
      { apply (app_inv_tail rest). rewrite E. rewrite <- !app_assoc. cbn. rewrite <- app_assoc. reflexivity. }
      subst p. eapply special_nan; [|apply Q|apply (payload_some l []); exact AL].
      apply (G (q ++ 40 :: l ++ [41]) rest); [rewrite <- app_assoc; cbn; rewrite <- app_assoc; reflexivity|destruct q; [congruence|discriminate]].
    + rewrite app_assoc in E. apply app_inv_tail in E. subst p.
      eapply special_nan; [apply (G q rest); [reflexivity|exact NQ]|rewrite <- (app_nil_r q) at 1; apply Q|].
      constructor. intros l r _ E. discriminate E.
  - destruct (same_letters_split _ _ _ B) as (q & -> & Q). destruct (same_letters_split _ _ _ C) as (q2 & -> & Q2).
    assert (NQ : q <> []) by (intros ->; specialize (Q []); inversion Q).
    destruct (SG _ _ _ A) as (g & E & G); [intros E; apply app_eq_nil in E; tauto|].
    rewrite !app_assoc in E. apply app_inv_tail in E. subst p. rewrite <- app_assoc.
    eapply special_infinity; [apply (G (q ++ q2) rest); [rewrite app_assoc; reflexivity|destruct q; [congruence|discriminate]]|apply Q|].
    rewrite <- (app_nil_r q2) at 1. apply Q2.
  - destruct (same_letters_split _ _ _ B) as (q & -> & Q).
    assert (NQ : q <> []) by (intros ->; specialize (Q []); inversion Q).
    destruct (SG _ _ _ A) as (g & E & G); [intros E; apply app_eq_nil in E; tauto|].
    rewrite app_assoc in E. apply app_inv_tail in E. subst p.
    eapply special_inf; [apply (G q rest); [reflexivity|exact NQ]|rewrite <- (app_nil_r q) at 1; apply Q|].
    intros r SL. inversion SL.
Qed.

Lemma starts_alone c o p rest s0 q : starts_at c o (p ++ rest) s0 -> s0 = q ++ rest -> q <> [] -> starts_at c o p q.
Proof.
  unfold starts_at. destruct (skips_space c o).
  - intros (ws & E & W & N) -> NQ. rewrite app_assoc in E. apply app_inv_tail in E. subst p.
    exists ws. split; [reflexivity|]. split; [exact W|]. destruct q; [congruence|exact N].
  - intros -> E NQ. apply app_inv_tail in E. congruence.
Qed.

Lemma good_text_prefix c u o p rest : good_text c u o (p ++ rest) -> good_text c u o p.
Proof.
  intros (A & B & L & D). apply Forall_app in A. rewrite app_length in L.
  split; [apply A|]. split; [intros E; specialize (B E); apply Forall_app in B; apply B|]. split; [lia|exact D].
Qed.

Theorem from_chars_consumed_only :
  forall (c : cfg) (u : uc) (t : ftype) (o : options) (consumed rest : list Z) (x : ec) (v : option Z),
  plain_point (rules_of c o) -> good_text c u o (consumed ++ rest) ->
  from_chars_float_advanced c u t (consumed ++ rest) o = Ok {| r_ptr := rest; r_ec := x; r_value := v |} ->
  x <> InvalidArgument ->
  from_chars_float_advanced c u t consumed o = Ok {| r_ptr := []; r_ec := x; r_value := v |}.
Proof.
  intros c u t o p rest x v PP G E NI. pose proof (good_text_prefix _ _ _ _ _ G) as GP.
  destruct (starts_exists c o (p ++ rest)) as (s0 & SA).
  destruct (number_or_not c u o _ s0 G SA) as [(neg & ip & fp & e & r & N)|NN].
  - pose proof (number_nonempty _ _ _ _ _ _ _ N) as NE0.
    destruct (float_same c t ip fp e o u _ _ _ _ o u _ _ _ _ G SA N G SA N) as (b0 & x0 & _ & E0 & _).
    rewrite E0 in E. injection E as -> <- <-.
    destruct (number_suffix _ _ _ _ _ _ _ N) as (q & ->).
    pose proof (number_alone _ _ _ _ _ _ _ PP N) as N'.
    assert (NQ : q <> []) by (intros ->; exact (number_nonempty _ _ _ _ _ _ _ N' eq_refl)).
    pose proof (starts_alone c o p rest _ q SA eq_refl NQ) as SA'.
    destruct (float_same c t ip fp e o u _ _ _ _ o u _ _ _ _ G SA N GP SA' N') as (b1 & x1 & _ & E1 & E2).
    rewrite E1 in E0. injection E0 as -> E0. rewrite E2, E0. reflexivity.
  - destruct (other_main c u t o _ s0 G SA NN) as [(_ & E')|[(_ & _ & E')|(neg & k & r & AS & SP & E')]];
      rewrite E' in E; injection E as -> <- <-; try congruence.
    destruct (special_suffix _ _ _ _ _ SP) as (q & ->).
    pose proof (special_alone _ _ _ _ _ SP) as SP'.
    assert (NQ : q <> []).
    { intros ->. inversion SP' as [? ? ? ? ? A B|? ? ? ? ? A B|? ? ? ? A B]; inversion A; subst; inversion B. }
    pose proof (starts_alone c o p rest _ q SA eq_refl NQ) as SA'.
    destruct (other_main c u t o _ _ GP SA' (special_not_number _ _ _ _ _ _ SP')) as [(A & _)|[(_ & NS & _)|(n' & k' & r' & _ & SP2 & E2)]].
    + congruence.
    + destruct (NS _ _ _ SP').
    + destruct (special_unique _ _ _ _ _ _ _ _ SP' SP2) as (<- & <- & <-). exact E2.
Qed.
Print Assumptions from_chars_consumed_only.

(** "1e+x" is consumed up to the e; "-1.5" followed by ".3" up to the second point. *)
Lemma consumed_only_example :
  good_text cfg_x86_64 Char_s general ([49] ++ [101; 43; 120]) /\ plain_point (rules_of cfg_x86_64 general) /\
  from_chars_float_advanced cfg_x86_64 Char_s F64 ([49] ++ [101; 43; 120]) general =
    Ok {| r_ptr := [101; 43; 120]; r_ec := Success; r_value := Some 4607182418800017408 |} /\
  from_chars_float_advanced cfg_x86_64 Char_s F64 ([45; 49; 46; 53] ++ [46; 51]) general =
    Ok {| r_ptr := [46; 51]; r_ec := Success; r_value := Some 13832806255468478464 |}.
Proof.
  split; [split; [repeat constructor; cbn; lia|split; [discriminate|split; [cbn; lia|reflexivity]]]|].
  split; [split; [reflexivity|cbn; lia]|]. split; vm_compute; reflexivity.
Qed.

(** ** C40: the case of letters does not matter. *)
Definition rel (a b : Z) : Prop := to_lower a = to_lower b.
Lemma rel_cases a b : rel a b -> a = b \/ (65 <= a <= 90 /\ b = a + 32) \/ (97 <= a <= 122 /\ b = a - 32).
Proof.
  unfold rel, to_lower. intros H.
  destruct (Z.leb_spec 65 a), (Z.leb_spec a 90), (Z.leb_spec 65 b), (Z.leb_spec b 90); cbn [andb] in H; lia.
Qed.
Lemma rel_sym a b : rel a b -> rel b a. Proof. unfold rel. congruence. Qed.
Lemma case_sym s s' : same_but_case s s' -> same_but_case s' s.
Proof. induction 1; constructor; [symmetry|]; assumption. Qed.
Lemma rel_fixed k a b : rel a b -> ~ 65 <= k <= 90 -> ~ 97 <= k <= 122 -> a = k -> b = k.
Proof. intros R N1 N2 ->. destruct (rel_cases _ _ R) as [E|[E|E]]; lia. Qed.
Lemma rel_digit a b : rel a b -> digit a = true -> a = b.
Proof. intros R D. unfold digit in D. destruct (rel_cases _ _ R) as [E|[E|E]]; lia. Qed.
Lemma rel_test (P : Z -> bool) : (forall k, 65 <= k <= 90 -> P k = false /\ P (k + 32) = false) ->
  forall a b, rel a b -> P a = P b.
Proof.
  intros H a b R. destruct (rel_cases _ _ R) as [->|[(A & ->)|(A & ->)]]; [reflexivity| |].
  - destruct (H _ A) as (-> & ->). reflexivity.
  - destruct (H (a - 32) ltac:(lia)) as (-> & E). replace (a - 32 + 32) with a in E by lia. exact E.
Qed.
Lemma rel_digit_eq a b : rel a b -> digit a = digit b.
Proof. apply rel_test. intros k K. unfold digit. split; apply andb_false_iff; right; apply Z.leb_gt; lia. Qed.
Lemma rel_space_eq a b : rel a b -> space a = space b.
Proof. apply rel_test. intros k K. unfold space. lia. Qed.
Lemma rel_nchar a b : rel a b -> nchar a = nchar b.
Proof.
  intros R. destruct (rel_cases _ _ R) as [->|[(A & ->)|(A & ->)]]; [reflexivity| |].
  - transitivity true; [|symmetry]; unfold nchar; lia.
  - transitivity true; [|symmetry]; unfold nchar; lia.
Qed.
Lemma rel_letter x a b : 97 <= x <= 122 -> rel a b -> a = x \/ a = x - 32 -> b = x \/ b = x - 32.
Proof. intros X R A. destruct (rel_cases _ _ R) as [E|[E|E]]; lia. Qed.

Lemma case_app_inv p q s' : same_but_case (p ++ q) s' -> exists p' q', s' = p' ++ q' /\ same_but_case p p' /\ same_but_case q q'.
Proof.
  intros H. apply Forall2_app_inv_l in H. destruct H as (p' & q' & A & B & ->). exists p', q'. auto.
Qed.
Lemma case_digits ds ds' : same_but_case ds ds' -> all_digits ds -> ds = ds'.
Proof.
  induction 1 as [|a b l l' R _ IH]; intros D; [reflexivity|]. inversion D; subst.
  rewrite (rel_digit _ _ R) by assumption. rewrite IH by assumption. reflexivity.
Qed.
Lemma case_not_at (P : Z -> Prop) s s' : (forall a b, rel a b -> P b -> P a) -> same_but_case s s' -> not_at P s -> not_at P s'.
Proof. intros HP H. destruct H as [|a b l l' R _]; cbn; [auto|]. intros N Q. apply N, (HP _ _ R Q). Qed.
Lemma case_not_digit s s' : same_but_case s s' -> not_at_digit s -> not_at_digit s'.
Proof. apply case_not_at. intros a b R. rewrite (rel_digit_eq _ _ R). auto. Qed.

Lemma case_run s s' ds rest : same_but_case s s' -> run s ds rest -> exists rest', run s' ds rest' /\ same_but_case rest rest'.
Proof.
  intros C (-> & A & N). destruct (case_app_inv _ _ _ C) as (p & q & -> & CP & CQ).
  rewrite <- (case_digits _ _ CP A). exists q. split; [|exact CQ]. repeat split; [exact A|apply (case_not_digit _ _ CQ N)].
Qed.

Section Case.
Variable R : rules.
Hypothesis PN : ~ 65 <= point R <= 90 /\ ~ 97 <= point R <= 122.

Lemma case_signed s s' neg s1 : same_but_case s s' -> signed R s neg s1 -> exists s1', signed R s' neg s1' /\ same_but_case s1 s1'.
Proof using.
  intros C H. inversion H as [l|l P J|l N]; subst.
  - inversion C as [|? b ? l' RB C']; subst. rewrite (rel_fixed 45 _ _ RB) by lia. exists l'. split; [constructor|exact C'].
  - inversion C as [|? b ? l' RB C']; subst. rewrite (rel_fixed 43 _ _ RB) by lia. exists l'. split; [constructor; assumption|exact C'].
  - exists s'. split; [|exact C]. constructor. revert C N. apply case_not_at. intros a b RB D. apply rel_sym in RB.
    destruct D as [D|(D & E)]; [left|right; split; [|exact E]]; apply (rel_fixed _ _ _ RB); lia.
Qed.
Lemma case_fraction s s' hp fp rest : same_but_case s s' -> fraction R s hp fp rest ->
  exists rest', fraction R s' hp fp rest' /\ same_but_case rest rest'.
Proof using PN.
  intros C H. inversion H as [l ds r RN|l N]; subst.
  - inversion C as [|? b ? l' RB C']; subst. rewrite (rel_fixed (point R) _ _ RB) by tauto.
    destruct (case_run _ _ _ _ C' RN) as (r' & RN' & CR). exists r'. split; [constructor; exact RN'|exact CR].
  - exists s'. split; [|exact C]. constructor. revert C N. apply case_not_at. intros a b RB D. apply rel_sym in RB.
    apply (rel_fixed _ _ _ RB); tauto.
Qed.
Lemma case_mark s s' s1 : same_but_case s s' -> exp_mark R s s1 -> exists s1', exp_mark R s' s1' /\ same_but_case s1 s1'.
Proof using.
  intros C H. inversion H as [ch l F D|ch l F D|ch l F D]; subst; inversion C as [|? b ? l' RB C']; subst.
  - exists l'. split; [|exact C']. apply mark_e; [exact F|]. apply (rel_letter 101 _ _ ltac:(lia) RB). exact D.
  - exists l'. split; [|exact C']. apply mark_d; [exact F|]. apply (rel_letter 100 _ _ ltac:(lia) RB). exact D.
  - exists (b :: l'). split; [|exact C]. apply mark_sign; [exact F|].
    destruct D as [D|D]; [left|right]; apply (rel_fixed _ _ _ RB); lia.
Qed.
Lemma case_exp_sign s s' neg s1 : same_but_case s s' -> exp_sign s neg s1 -> exists s1', exp_sign s' neg s1' /\ same_but_case s1 s1'.
Proof using.
  intros C H. inversion H as [l|l|l N]; subst.
  - inversion C as [|? b ? l' RB C']; subst. rewrite (rel_fixed 45 _ _ RB) by lia. exists l'. split; [constructor|exact C'].
  - inversion C as [|? b ? l' RB C']; subst. rewrite (rel_fixed 43 _ _ RB) by lia. exists l'. split; [constructor; assumption|exact C'].
  - exists s'. split; [|exact C]. constructor. revert C N. apply case_not_at. intros a b RB D. apply rel_sym in RB.
    destruct D as [D|D]; [left|right]; apply (rel_fixed _ _ _ RB); lia.
Qed.
Lemma case_exponent s s' e rest : same_but_case s s' -> exponent R s e rest ->
  exists rest', exponent R s' e rest' /\ same_but_case rest rest'.
Proof using.
  intros C H. inversion H as [? s1 neg s2 ds ? EM ES RN NE|? NM F|? s1 neg s2 EM ES N F]; subst.
  - destruct (case_mark _ _ _ C EM) as (s1' & EM' & C1). destruct (case_exp_sign _ _ _ _ C1 ES) as (s2' & ES' & C2).
    destruct (case_run _ _ _ _ C2 RN) as (r' & RN' & CR). exists r'. split; [|exact CR]. eapply exponent_some; eassumption.
  - exists s'. split; [|exact C]. apply exponent_none; [|exact F]. intros s1 M.
    destruct (case_mark _ _ _ (case_sym _ _ C) M) as (s2 & M' & _). exact (NM _ M').
  - destruct (case_mark _ _ _ C EM) as (s1' & EM' & C1). destruct (case_exp_sign _ _ _ _ C1 ES) as (s2' & ES' & C2).
    exists s'. split; [|exact C]. eapply exponent_dangling; [exact EM'|exact ES'|exact (case_not_digit _ _ C2 N)|exact F].
Qed.
Lemma case_number s s' neg ip fp e rest : same_but_case s s' -> number R s neg ip fp e rest ->
  exists rest', number R s' neg ip fp e rest' /\ same_but_case rest rest'.
Proof using PN.
  intros C (s1 & s2 & hp & s3 & SG & RN & F & MO & EX).
  destruct (case_signed _ _ _ _ C SG) as (s1' & SG' & C1). destruct (case_run _ _ _ _ C1 RN) as (s2' & RN' & C2).
  destruct (case_fraction _ _ _ _ _ C2 F) as (s3' & F' & C3). destruct (case_exponent _ _ _ _ C3 EX) as (r' & EX' & CR).
  exists r'. split; [|exact CR]. exists s1', s2', hp, s3'. auto.
Qed.
End Case.

Lemma case_letters w s s' rest : Forall (fun x => 97 <= x <= 122) w -> same_but_case s s' -> same_letters w s rest ->
  exists rest', same_letters w s' rest' /\ same_but_case rest rest'.
Proof.
  intros W C H. revert s' W C. induction H as [s|x w ch s rest D _ IH]; intros s' W C; [exists s'; split; [constructor|exact C]|].
  inversion C as [|? b ? l' RB C']; subst. inversion W; subst.
  destruct (IH l') as (r' & SL & CR); [assumption..|]. exists r'. split; [|exact CR]. constructor; [|exact SL].
  eapply rel_letter; eassumption.
Qed.
Lemma case_nchars l l' : same_but_case l l' -> Forall (fun ch => nchar ch = true) l -> Forall (fun ch => nchar ch = true) l'.
Proof.
  induction 1 as [|a b l l' RB _ IH]; intros D; [constructor|]. inversion D; subst.
  constructor; [rewrite <- (rel_nchar _ _ RB); assumption|apply IH; assumption].
Qed.
Lemma case_parens s s' l rest : same_but_case s s' -> Forall (fun ch => nchar ch = true) l -> s = 40 :: l ++ 41 :: rest ->
  exists l' rest', s' = 40 :: l' ++ 41 :: rest' /\ Forall (fun ch => nchar ch = true) l' /\ same_but_case rest rest'.
Proof.
  intros C A ->. inversion C as [|? b ? m RB C']; subst. rewrite (rel_fixed 40 _ _ RB) by lia.
  destruct (case_app_inv _ _ _ C') as (l' & q & -> & CL & CQ). inversion CQ as [|? b' ? q' RB' CQ']; subst.
  rewrite (rel_fixed 41 _ _ RB') by lia. exists l', q'. split; [reflexivity|]. split; [exact (case_nchars _ _ CL A)|exact CQ'].
Qed.
Lemma case_payload s s' rest : same_but_case s s' -> payload s rest -> exists rest', payload s' rest' /\ same_but_case rest rest'.
Proof.
  intros C H. inversion H as [l r A|? N]; subst.
  - destruct (case_parens _ _ _ _ C A eq_refl) as (l' & r' & -> & A' & CR). exists r'. split; [constructor; exact A'|exact CR].
  - exists s'. split; [|exact C]. constructor. intros l r A E.
    destruct (case_parens _ _ _ _ (case_sym _ _ C) A E) as (l' & r' & E' & A' & _). exact (N l' r' A' E').
Qed.
Lemma case_special_sign plus s s' neg s1 : same_but_case s s' -> special_sign plus s neg s1 ->
  exists s1', special_sign plus s' neg s1' /\ same_but_case s1 s1'.
Proof.
  intros C H. inversion H as [l|l P|l N]; subst.
  - inversion C as [|? b ? l' RB C']; subst. rewrite (rel_fixed 45 _ _ RB) by lia. exists l'. split; [constructor|exact C'].
  - inversion C as [|? b ? l' RB C']; subst. rewrite (rel_fixed 43 _ _ RB) by lia. exists l'. split; [constructor; reflexivity|exact C'].
  - exists s'. split; [|exact C]. constructor. revert C N. apply case_not_at. intros a b RB D. apply rel_sym in RB.
    destruct D as [D|(D & E)]; [left|right; split; [|exact E]]; apply (rel_fixed _ _ _ RB); lia.
Qed.
Lemma case_special plus s s' neg k rest : same_but_case s s' -> special plus s neg k rest ->
  exists rest', special plus s' neg k rest' /\ same_but_case rest rest'.
Proof.
  assert (W1 : Forall (fun x => 97 <= x <= 122) word_nan) by (repeat constructor; lia).
  assert (W2 : Forall (fun x => 97 <= x <= 122) word_inf) by (repeat constructor; lia).
  assert (W3 : Forall (fun x => 97 <= x <= 122) word_inity) by (repeat constructor; lia).
  intros C H. inversion H as [? ? s1 s2 ? SS SL PL|? ? s1 s2 ? SS SL SL2|? ? s1 ? SS SL NI]; subst;
    destruct (case_special_sign _ _ _ _ _ C SS) as (s1' & SS' & C1).
  - destruct (case_letters _ _ _ _ W1 C1 SL) as (s2' & SL' & C2). destruct (case_payload _ _ _ C2 PL) as (r' & PL' & CR).
    exists r'. split; [|exact CR]. eapply special_nan; eassumption.
  - destruct (case_letters _ _ _ _ W2 C1 SL) as (s2' & SL' & C2). destruct (case_letters _ _ _ _ W3 C2 SL2) as (r' & SL2' & CR).
    exists r'. split; [|exact CR]. eapply special_infinity; eassumption.
  - destruct (case_letters _ _ _ _ W2 C1 SL) as (r' & SL' & CR).
    exists r'. split; [|exact CR]. eapply special_inf; [eassumption..|]. intros q SL2.
    destruct (case_letters _ _ _ _ W3 (case_sym _ _ CR) SL2) as (q' & SL2' & _). exact (NI _ SL2').
Qed.

Lemma case_length s s' : same_but_case s s' -> length s = length s'.
Proof. induction 1; cbn; congruence. Qed.
Lemma case_good c u o s s' : same_but_case s s' -> good_text c u o s -> good_text c u o s'.
Proof.
  intros C (A & B & L & D).
  assert (CU : forall a b, rel a b -> code_unit u a -> code_unit u b).
  { intros a b RB H. destruct (rel_cases _ _ RB) as [<-|[(K & ->)|(K & ->)]]; [exact H| |]; apply ascii_code_unit; lia. }
  split; [|split; [|split; [|exact D]]].
  - clear B L. induction C as [|a b l l' RB _ IH]; [constructor|]. inversion A; subst. constructor; [eapply CU; eassumption|apply IH; assumption].
  - intros E. specialize (B E). clear A L CU. induction C as [|a b l l' RB _ IH]; [constructor|]. inversion B; subst.
    constructor; [|apply IH; assumption]. destruct (rel_cases _ _ RB) as [<-|[(K & ->)|(K & ->)]]; [assumption|lia..].
  - rewrite <- (case_length _ _ C). exact L.
Qed.
Lemma case_starts c o s s' s0 : same_but_case s s' -> starts_at c o s s0 -> exists s0', starts_at c o s' s0' /\ same_but_case s0 s0'.
Proof.
  intros C. unfold starts_at. destruct (skips_space c o); [|intros ->; exists s'; split; [reflexivity|exact C]].
  intros (ws & -> & W & N). destruct (case_app_inv _ _ _ C) as (ws' & s0' & -> & CW & CS).
  exists s0'. split; [|exact CS]. exists ws'. split; [reflexivity|]. split.
  - clear - CW W. induction CW as [|a b l l' RB _ IH]; [constructor|]. inversion W; subst.
    constructor; [rewrite <- (rel_space_eq _ _ RB); assumption|apply IH; assumption].
  - revert CS N. apply case_not_at. intros a b RB. rewrite (rel_space_eq _ _ RB). auto.
Qed.

(** The decimal point must not be a letter itself. *)
Theorem from_chars_letter_case :
  forall (c : cfg) (u : uc) (t : ftype) (o : options) (s s' : list Z),
  same_but_case s s' -> good_text c u o s ->
  ~ 65 <= o_decimal_point o <= 90 -> ~ 97 <= o_decimal_point o <= 122 ->
  exists rest rest' x v,
    from_chars_float_advanced c u t s o = Ok {| r_ptr := rest; r_ec := x; r_value := v |} /\
    from_chars_float_advanced c u t s' o = Ok {| r_ptr := rest'; r_ec := x; r_value := v |} /\
    same_but_case rest rest'.
Proof.
  intros c u t o s s' C G P1 P2. pose proof (case_good _ _ _ _ _ C G) as G'.
  destruct (starts_exists c o s) as (s0 & SA). destruct (case_starts _ _ _ _ _ C SA) as (s0' & SA' & C0).
  assert (PN : ~ 65 <= point (rules_of c o) <= 90 /\ ~ 97 <= point (rules_of c o) <= 122) by (split; assumption).
  destruct (number_or_not c u o _ s0 G SA) as [(neg & ip & fp & e & r & N)|NN].
  - destruct (case_number _ PN _ _ _ _ _ _ _ C0 N) as (r' & N' & CR).
    destruct (float_same c t ip fp e o u _ _ _ _ o u _ _ _ _ G SA N G' SA' N') as (b & x & _ & E1 & E2).
    exists r, r', x, (Some (with_sign (format_of t) neg b)). auto.
  - assert (NN' : forall neg ip fp e rest, ~ number (rules_of c o) s0' neg ip fp e rest).
    { intros neg ip fp e r N. destruct (case_number _ PN _ _ _ _ _ _ _ (case_sym _ _ C0) N) as (r' & N' & _). exact (NN _ _ _ _ _ N'). }
    destruct (other_main c u t o s s0 G SA NN) as [(A1 & E1)|[(A1 & NS1 & E1)|(neg1 & k1 & r1 & A1 & SP1 & E1)]];
    destruct (other_main c u t o _ _ G' SA' NN') as [(A2 & E2)|[(A2 & NS2 & E2)|(neg2 & k2 & r2 & A2 & SP2 & E2)]]; try congruence.
    + exists s0, s0', InvalidArgument, None. auto.
    + exists s0, s0', InvalidArgument, None. auto.
    + exfalso. destruct (case_special _ _ _ _ _ _ (case_sym _ _ C0) SP2) as (q & SP & _). exact (NS1 _ _ _ SP).
    + exfalso. destruct (case_special _ _ _ _ _ _ C0 SP1) as (q & SP & _). exact (NS2 _ _ _ SP).
    + destruct (case_special _ _ _ _ _ _ C0 SP1) as (q & SP & CR).
      destruct (special_unique _ _ _ _ _ _ _ _ SP SP2) as (<- & <- & <-).
      exists r1, q, Success, (Some (with_sign (format_of t) neg1 (special_code t k1))). auto.
Qed.
Print Assumptions from_chars_letter_case.

(** "1E5X" / "1e5x" and "-InFiNiTY" / "-infinity". *)
Lemma letter_case_example :
  same_but_case [49; 69; 53; 88] [49; 101; 53; 120] /\
  good_text cfg_x86_64 Char_s general [49; 69; 53; 88] /\
  from_chars_float_advanced cfg_x86_64 Char_s F64 [49; 69; 53; 88] general =
    Ok {| r_ptr := [88]; r_ec := Success; r_value := Some 4681608360884174848 |} /\
  from_chars_float_advanced cfg_x86_64 Char_s F64 [45; 73; 110; 70; 105; 78; 105; 84; 89] general =
    Ok {| r_ptr := []; r_ec := Success; r_value := Some 18442240474082181120 |}.
Proof.
  split; [repeat constructor|]. split; [split; [repeat constructor; cbn; lia|split; [discriminate|split; [cbn; lia|reflexivity]]]|].
  split; vm_compute; reflexivity.
Qed.
