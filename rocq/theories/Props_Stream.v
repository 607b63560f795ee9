(** Property C52: which results are final when more text may arrive. *)
From Verif Require Import Machine Config Chars Format ParseNumber DecToBin FromChars Ints WordLemmas
  Rounding ComputeFloat SpecFloat FloatBridge Pow10 SpecGrammar SpecInt SpecApi SpecIntApi SpecText SpecRel SpecLists
  Scan ParseSpec Special
  SlowPath ManyDigits Saturate FloatMaster FloatApi FloatRel IntApi Props_Pow10 Props_Float Props_Relations Props_Texts
  Props_Grammar Props_Spelling Props_Ints Props_IntMore Props_Lists.
Open Scope Z_scope.

(** ** Numbers of a longer text *)
Lemma not_at_extend P s more : s <> [] -> not_at P s -> not_at P (s ++ more).
Proof. destruct s; [congruence|]. intros _ H. exact H. Qed.

Lemma exponent_extend R s e rest more : exponent R s e rest -> (3 <= length rest)%nat ->
  exponent R (s ++ more) e (rest ++ more).
Proof.
  intros EX L. assert (NR : rest <> []) by (destruct rest; [cbn in L; lia|discriminate]).
  inversion EX as [? s1 neg s2 ds ? EM ES (ER & AD & ND) NE|? NM FX|? s1 neg s2 EM ES ND FX]; subst.
  - apply (exponent_some R (s ++ more) (s1 ++ more) neg ((ds ++ rest) ++ more) ds (rest ++ more)).
    + inversion EM; subst; cbn [app]; [apply mark_e|apply mark_d|apply mark_sign]; assumption.
    + inversion ES as [l|l|l N]; subst; cbn [app]; [apply exp_minus|apply exp_plus|].
      apply exp_nosign. apply not_at_extend; [|exact N]. destruct ds; [congruence|discriminate].
    + split; [rewrite <- app_assoc; reflexivity|]. split; [exact AD|]. apply not_at_extend; assumption.
    + exact NE.
  - apply exponent_none; [|exact FX]. intros s1 EM. destruct rest as [|ch l]; [congruence|].
    inversion EM as [ch' s' A B E1|ch' s' A B E1|ch' s' A B E1]; subst; (eapply NM; first [apply mark_e; assumption|apply mark_d; assumption|apply mark_sign; assumption]).
  - assert (L1 : (2 <= length s1)%nat) by (inversion EM; subst; cbn [length] in *; lia).
    assert (L2 : s2 <> []) by (inversion ES; subst; cbn [length] in *; intros ->; cbn in *; lia).
    apply (exponent_dangling R _ (s1 ++ more) neg (s2 ++ more)).
    + inversion EM; subst; cbn [app]; [apply mark_e|apply mark_d|apply mark_sign]; assumption.
    + inversion ES as [l|l|l N]; subst; cbn [app]; [apply exp_minus|apply exp_plus|].
      apply exp_nosign. apply not_at_extend; assumption.
    + apply not_at_extend; assumption.
    + exact FX.
Qed.

Lemma number_extend R s neg ip fp e rest more : number R s neg ip fp e rest -> (3 <= length rest)%nat ->
  number R (s ++ more) neg ip fp e (rest ++ more).
Proof.
  intros (s1 & s2 & hp & s3 & SG & (RI & AI & NI) & F & MO & EX) L.
  assert (NR : rest <> []) by (destruct rest; [cbn in L; lia|discriminate]).
  destruct (exponent_suffix _ _ _ _ EX) as (pe & E3).
  assert (N3 : s3 <> []) by (rewrite E3; intros Q; apply app_eq_nil in Q; tauto).
  assert (N2 : s2 <> []) by (inversion F as [? ? ? (E & _)|]; subst; [discriminate|assumption]).
  assert (N1 : s1 <> []) by (rewrite RI; intros Q; apply app_eq_nil in Q; tauto).
  exists (s1 ++ more), (s2 ++ more), hp, (s3 ++ more). split; [|split; [|split; [|split]]].
  - inversion SG as [l|l A B|l A]; subst; cbn [app]; [apply signed_minus|apply signed_plus; assumption|apply signed_none].
    apply not_at_extend; assumption.
  - split; [rewrite RI, <- app_assoc; reflexivity|]. split; [exact AI|]. apply not_at_extend; assumption.
  - inversion F as [? ? ? (E & A & N)|]; subst; cbn [app].
    + apply fraction_some. split; [rewrite <- app_assoc; reflexivity|]. split; [exact A|]. apply not_at_extend; assumption.
    + apply fraction_none. apply not_at_extend; assumption.
  - exact MO.
  - apply exponent_extend; assumption.
Qed.

Lemma same_letters_extend w s r more : same_letters w s r -> same_letters w (s ++ more) (r ++ more).
Proof. intros H. induction H; cbn [app]; constructor; assumption. Qed.

Lemma same_letters_cut w : forall s r more, same_letters w (s ++ more) r -> (length w <= length s)%nat -> exists r', same_letters w s r'.
Proof.
  induction w as [|x w IH]; intros s r more H L; [exists s; constructor|].
  destruct s as [|ch s]; [cbn in L; lia|]. cbn [app length] in *. inversion H; subst.
  destruct (IH s r more) as (r' & R); [assumption|lia|]. exists r'. constructor; assumption.
Qed.

Lemma special_extend plus s neg k rest more : special plus s neg k rest ->
  (5 <= length rest)%nat -> not_at (fun ch => ch = 40) rest -> special plus (s ++ more) neg k (rest ++ more).
Proof.
  intros SP L NP.
  assert (SS : forall s1, s1 <> [] -> special_sign plus s neg s1 -> special_sign plus (s ++ more) neg (s1 ++ more)).
  { intros s1 N1 H. inversion H; subst; cbn [app]; [apply ssign_minus|apply ssign_plus; reflexivity|apply ssign_none].
    apply not_at_extend; assumption. }
  assert (NE : forall x w s1 r, same_letters (x :: w) s1 r -> s1 <> []) by (intros ? ? ? ? H; inversion H; discriminate).
  inversion SP as [? ? s1 s2 ? A B P|? ? s1 s2 ? A B C|? ? s1 ? A B N]; subst.
  - eapply special_nan; [apply SS; [eapply NE, B|exact A]|apply same_letters_extend; exact B|].
    inversion P as [l ? F|? NN]; subst.
    + cbn [app]. rewrite <- app_assoc. cbn [app]. apply payload_some. exact F.
    + apply payload_none. intros l r F E. destruct rest as [|ch rest]; [cbn in L; lia|]. cbn in E. injection E as -> _. apply NP. reflexivity.
  - eapply special_infinity; [apply SS; [eapply NE, B|exact A]| |]; apply same_letters_extend; eassumption.
  - eapply special_inf; [apply SS; [eapply NE, B|exact A]|apply same_letters_extend; exact B|].
    intros r H. destruct (same_letters_cut _ _ _ _ H) as (r' & R); [exact L|]. exact (N _ R).
Qed.

Lemma starts_extend c o s s0 more : starts_at c o s s0 -> s0 <> [] -> starts_at c o (s ++ more) (s0 ++ more).
Proof.
  intros SA NE. unfold starts_at in *. destruct (skips_space c o); [|subst; reflexivity].
  destruct SA as (w & -> & W & N). exists w. split; [rewrite <- app_assoc; reflexivity|]. split; [exact W|].
  apply not_at_extend; assumption.
Qed.

(** ** C52: a number after which three characters are still unread is final: no
    text that arrives later changes value, report or end. *)
Theorem from_chars_final :
  forall (c : cfg) (u : uc) (t : ftype) (o : options) (s s0 more : list Z)
         (neg : bool) (ip fp : list Z) (e : Z) (rest : list Z),
  good_text c u o (s ++ more) -> starts_at c o s s0 ->
  number (rules_of c o) s0 neg ip fp e rest -> (3 <= length rest)%nat ->
  exists x v,
    from_chars_float_advanced c u t s o = Ok {| r_ptr := rest; r_ec := x; r_value := v |} /\
    from_chars_float_advanced c u t (s ++ more) o = Ok {| r_ptr := rest ++ more; r_ec := x; r_value := v |}.
Proof.
  intros c u t o s s0 more neg ip fp e rest G SA N L. pose proof (good_text_prefix _ _ _ _ _ G) as G0.
  pose proof (number_nonempty _ _ _ _ _ _ _ N) as NE.
  pose proof (number_extend _ _ _ _ _ _ _ more N L) as N'. pose proof (starts_extend c o s s0 more SA NE) as SA'.
  destruct (float_same c t ip fp e o u _ _ _ _ o u _ _ _ _ G0 SA N G SA' N') as (b & x & _ & E1 & E2).
  exists x, (Some (with_sign (format_of t) neg b)). split; [exact E1|exact E2].
Qed.
Print Assumptions from_chars_final.

(** Any accepted text, also inf and nan: five unread characters, and no
    parenthesis that may still be completed. *)
Theorem from_chars_final_any :
  forall (c : cfg) (u : uc) (t : ftype) (o : options) (s more rest : list Z) (x : ec) (v : option Z),
  good_text c u o (s ++ more) ->
  from_chars_float_advanced c u t s o = Ok {| r_ptr := rest; r_ec := x; r_value := v |} -> x <> InvalidArgument ->
  (5 <= length rest)%nat -> not_at (fun ch => ch = 40) rest ->
  from_chars_float_advanced c u t (s ++ more) o = Ok {| r_ptr := rest ++ more; r_ec := x; r_value := v |}.
Proof.
  intros c u t o s more rest x v G E NX L NP. pose proof (good_text_prefix _ _ _ _ _ G) as G0.
  destruct (starts_exists c o s) as (s0 & SA).
  destruct (number_or_not c u o _ s0 G0 SA) as [(neg & ip & fp & e & r & N)|NN].
  - destruct (float_same c t ip fp e o u _ _ _ _ o u _ _ _ _ G0 SA N G0 SA N) as (b0 & x0 & _ & E0 & _).
    rewrite E0 in E. injection E as -> <- <-.
    destruct (from_chars_final c u t o s s0 more neg ip fp e rest G SA N ltac:(lia)) as (x1 & v1 & E1 & E2).
    rewrite E0 in E1. injection E1 as <- <-. exact E2.
  - destruct (other_main c u t o _ s0 G0 SA NN) as [(_ & E')|[(_ & _ & E')|(neg & k & r & AS & SP & E')]];
      rewrite E' in E; injection E as -> <- <-; try congruence.
    pose proof (special_extend _ _ _ _ _ more SP L NP) as SP'.
    assert (NE : s0 <> []) by (destruct (special_consumes _ _ _ _ _ SP) as (p & -> & NP'); intros Q; apply app_eq_nil in Q; tauto).
    pose proof (starts_extend c o s s0 more SA NE) as SA'.
    destruct (other_main c u t o _ _ G SA' (special_not_number _ _ _ _ _ _ SP')) as [(A & _)|[(_ & NS & _)|(n' & k' & r' & _ & SP2 & E2)]].
    + congruence.
    + destruct (NS _ _ _ SP').
    + destruct (special_unique _ _ _ _ _ _ _ _ SP' SP2) as (<- & <- & <-). exact E2.
Qed.
Print Assumptions from_chars_final_any.

(** Fewer unread characters are not enough: "1e+" and "1e+5", "infinit" and
    "infinity", "nan(1234567" and "nan(1234567)". *)
Example final_sharp :
  from_chars_float cfg_x86_64 Char_s F64 [49;101;43] 5 =
    Ok {| r_ptr := [101;43]; r_ec := Success; r_value := Some 4607182418800017408 |} /\
  from_chars_float cfg_x86_64 Char_s F64 [49;101;43;53] 5 =
    Ok {| r_ptr := []; r_ec := Success; r_value := Some 4681608360884174848 |} /\
  from_chars_float cfg_x86_64 Char_s F64 [105;110;102;105;110;105;116] 5 =
    Ok {| r_ptr := [105;110;105;116]; r_ec := Success; r_value := Some (infinity binary64) |} /\
  from_chars_float cfg_x86_64 Char_s F64 [105;110;102;105;110;105;116;121] 5 =
    Ok {| r_ptr := []; r_ec := Success; r_value := Some (infinity binary64) |} /\
  (exists v, from_chars_float cfg_x86_64 Char_s F64 [110;97;110;40;49;50;51;52;53;54;55] 5 =
    Ok {| r_ptr := [40;49;50;51;52;53;54;55]; r_ec := Success; r_value := Some v |} /\
   from_chars_float cfg_x86_64 Char_s F64 [110;97;110;40;49;50;51;52;53;54;55;41] 5 =
    Ok {| r_ptr := []; r_ec := Success; r_value := Some v |}).
Proof.
  split; [vm_compute; reflexivity|]. split; [vm_compute; reflexivity|]. split; [vm_compute; reflexivity|].
  split; [vm_compute; reflexivity|]. eexists. split; vm_compute; reflexivity.
Qed.

(** Integers: one unread character. *)
Theorem from_chars_int_final :
  forall (c : cfg) (u : uc) (T : ity) (o : options) (s more rest : list Z) (x : ec) (v : option Z),
  int_type T -> good_int_text c u o (s ++ more) ->
  from_chars_int_advanced c u T s o = Ok {| r_ptr := rest; r_ec := x; r_value := v |} -> x <> InvalidArgument ->
  rest <> [] ->
  from_chars_int_advanced c u T (s ++ more) o = Ok {| r_ptr := rest ++ more; r_ec := x; r_value := v |}.
Proof.
  intros c u T o s more rest x v IT G E NX NR. pose proof (int_prefix_good _ _ _ _ _ G) as G0.
  destruct (int_well_behaved c u T o IT) as (_ & WD). destruct (WD s G0) as (r & p & E' & ES & _).
  cbv beta in E'. rewrite E in E'. assert (r = {| r_ptr := rest; r_ec := x; r_value := v |}) as -> by congruence.
  cbn [r_ptr] in ES.
  assert (ND : not_at (base_digit (o_base o)) rest).
  { destruct (int_starts c o s) as (s0 & SA).
    destruct (Z_le_gt_dec 2 (o_base o)) as [B2|B2]; [destruct (Z_le_gt_dec (o_base o) 36) as [B36|B36]|].
    2,3: rewrite (from_chars_int_base c u T o s s0 G0 SA) in E by lia; injection E as _ <- _; congruence.
    assert (B : 2 <= o_base o <= 36) by lia.
    destruct (int_text_exists (i_signed T) (leading_plus (rules_of c o)) (o_base o) s0 B) as (neg & ds & r & TX).
    destruct (int_main c u T o s s0 neg ds r IT G0 SA B TX) as (_ & [(ED & E1)|(_ & H1)]).
    - rewrite E1 in E. injection E as _ <- _. congruence.
    - assert (r = rest) as <- by (destruct H1 as [(_ & H1)|[(_ & _ & H1)|(_ & _ & H1)]]; rewrite H1 in E; injection E; auto).
      destruct TX as (s1 & _ & _ & _ & H). exact H. }
  subst s. rewrite <- app_assoc in G |- *.
  apply (int_cut_off c u T o IT); [exact G|apply (int_alone c u T o IT p rest); assumption|exact NX|].
  apply not_at_extend; assumption.
Qed.
Print Assumptions from_chars_int_final.

(** A rejected integer text of two characters is final, too: appending text does
    not make it acceptable. *)
Theorem from_chars_int_final_rejection :
  forall (c : cfg) (u : uc) (T : ity) (o : options) (s s0 more : list Z),
  int_type T -> good_int_text c u o (s ++ more) -> starts_at c o s s0 -> (2 <= length s0)%nat ->
  from_chars_int_advanced c u T s o = Ok {| r_ptr := s0; r_ec := InvalidArgument; r_value := None |} ->
  from_chars_int_advanced c u T (s ++ more) o = Ok {| r_ptr := s0 ++ more; r_ec := InvalidArgument; r_value := None |}.
Proof.
  intros c u T o s s0 more IT G SA L E. pose proof (int_prefix_good _ _ _ _ _ G) as G0.
  assert (NE : s0 <> []) by (destruct s0; [cbn in L; lia|discriminate]).
  pose proof (starts_extend c o s s0 more SA NE) as SA'.
  destruct (Z_le_gt_dec 2 (o_base o)) as [B2|B2]; [destruct (Z_le_gt_dec (o_base o) 36) as [B36|B36]|].
  2,3: apply (from_chars_int_base c u T o _ _ G SA'); lia.
  assert (B : 2 <= o_base o <= 36) by lia.
  destruct (int_text_exists (i_signed T) (leading_plus (rules_of c o)) (o_base o) s0 B) as (neg & ds & r & TX).
  assert (ED : ds = []).
  { destruct (int_main c u T o s s0 neg ds r IT G0 SA B TX) as (_ & [(ED & _)|(_ & H1)]); [exact ED|exfalso].
    destruct H1 as [(_ & H1)|[(_ & _ & H1)|(_ & _ & H1)]]; rewrite H1 in E; discriminate E. }
  subst ds. destruct TX as (s1 & SG & ER & _ & ND). cbn [app] in ER. subst r.
  assert (N1 : s1 <> []) by (inversion SG; subst; cbn [length] in L; intros ->; cbn in L; lia).
  assert (TX' : int_text (i_signed T) (leading_plus (rules_of c o)) (o_base o) (s0 ++ more) neg [] (s1 ++ more)).
  { exists (s1 ++ more). split; [|split; [reflexivity|split; [constructor|apply not_at_extend; assumption]]].
    inversion SG as [l A|l A|l A]; subst; cbn [app]; [apply int_minus|apply int_plus|apply int_unsigned]; try assumption.
    apply not_at_extend; assumption. }
  destruct (int_main c u T o (s ++ more) _ neg [] _ IT G SA' B TX') as (_ & [(_ & E1)|(ND1 & _)]); [exact E1|congruence].
Qed.
Print Assumptions from_chars_int_final_rejection.

(** "12;" as int, "-" (not final) and "- " (final). *)
Example int_final_example :
  from_chars_int cfg_x86_64 Char_s int32_type [49;50;59] 10 = Ok {| r_ptr := [59]; r_ec := Success; r_value := Some 12 |} /\
  from_chars_int cfg_x86_64 Char_s int32_type [45] 10 = Ok {| r_ptr := [45]; r_ec := InvalidArgument; r_value := None |} /\
  from_chars_int cfg_x86_64 Char_s int32_type [45;49] 10 = Ok {| r_ptr := []; r_ec := Success; r_value := Some (-1) |} /\
  from_chars_int cfg_x86_64 Char_s int32_type [45;32] 10 = Ok {| r_ptr := [45;32]; r_ec := InvalidArgument; r_value := None |}.
Proof. vm_compute. repeat split; reflexivity. Qed.
