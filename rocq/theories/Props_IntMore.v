(** Properties C39, C40, C42 and C43: integer parsing compared with itself and
    with floating-point parsing. *)
From Verif Require Import Machine Config Tables Chars Format ParseNumber DecToBin FromChars Ints WordLemmas
  Rounding ComputeFloat FpArith Clinger SpecFloat FloatBridge Pow10 SpecGrammar SpecApi SpecInt SpecRel SpecText Scan ParseSpec Special
  SlowPath ManyDigits Saturate FloatMaster FloatApi FloatRel TextSpec IntSpec IntFast IntApi
  Props_Pow10 Props_Float Props_Relations Props_Texts Props_Ints Props_Spelling.
From Coq Require Import QArith Qabs Lqa.
Open Scope Z_scope.

(** The text behind the sign. *)
Lemma int_sign_prefix sg pl s neg s1 : int_sign sg pl s neg s1 -> exists p, s = p ++ s1.
Proof. intros H. inversion H; subst; [exists [45]|exists [43]|exists []]; reflexivity. Qed.
Lemma int_text_prefix sg pl base s neg ds rest : int_text sg pl base s neg ds rest -> exists p, s = p ++ ds ++ rest.
Proof.
  intros (s1 & SG & E & _). destruct (int_sign_prefix _ _ _ _ _ SG) as (p & ->). exists p. rewrite E. reflexivity.
Qed.

(** ** C43: an accepted text is accepted by every type that has its value. *)
Theorem from_chars_int_other_type :
  forall (c : cfg) (u : uc) (T T' : ity) (o : options) (s p : list Z) (v : Z),
  int_type T -> int_type T' -> i_bits T <= 32 -> good_int_text c u o s -> 2 <= o_base o <= 36 ->
  from_chars_int_advanced c u T s o = Ok {| r_ptr := p; r_ec := Success; r_value := Some v |} ->
  (i_signed T = true -> i_signed T' = true) -> in_int_range (i_signed T') (i_bits T') v ->
  from_chars_int_advanced c u T' s o = Ok {| r_ptr := p; r_ec := Success; r_value := Some v |}.
Proof.
  intros c u T T' o s p v IT IT' B32 G B E SG IR. destruct (int_starts c o s) as (s0 & SA).
  destruct (int_text_exists (i_signed T) (leading_plus (rules_of c o)) (o_base o) s0 B) as (neg & ds & rest & TX).
  destruct (list_eq_dec Z.eq_dec ds []) as [->|NE].
  { rewrite (from_chars_int_invalid c u T o s s0 neg rest IT G SA B TX) in E. discriminate E. }
  destruct (from_chars_int_exact c u T o s s0 neg ds rest IT B32 G SA B TX NE) as (EX1 & EX2).
  assert (EV : rest = p /\ int_value (o_base o) neg ds = v).
  { destruct (int_main c u T o s s0 neg ds rest IT G SA B TX) as (NS & _).
    pose proof (range_limit T (o_base o) neg ds IT NS ltac:(lia) (int_text_digits _ _ _ _ _ _ _ TX)) as RL.
    destruct (Z_le_gt_dec (base_value (o_base o) ds) (int_limit (i_signed T) (i_bits T) neg)) as [L|L].
    - rewrite (EX1 (proj2 RL L)) in E. injection E. auto.
    - rewrite EX2 in E; [discriminate E|]. rewrite RL. lia. }
  destruct EV as (-> & EV). subst v.
  apply (from_chars_int64_in_range c u T' o s s0 neg ds p IT' G SA B); [|exact NE|exact IR].
  destruct TX as (s1 & SGN & R). exists s1. split; [|exact R].
  inversion SGN as [? HM|? HP|? H]; subst; [apply int_minus; auto|apply int_plus; exact HP|].
  apply int_unsigned. destruct s1 as [|ch s1]; [exact I|]. cbn in *. intros [(-> & H')|H']; [|tauto].
  (* a minus sign in front of no digits *)
  destruct R as (ER & AR & _). destruct ds as [|d ds]; [contradiction|]. injection ER as <- _.
  inversion AR as [|? ? (k & K & _)]. discriminate K.
Qed.
Print Assumptions from_chars_int_other_type.

Lemma other_type_example :
  int_type uint8_type /\ int_type int32_type /\ i_bits uint8_type <= 32 /\
  good_int_text cfg_x86_64 Char_s general [50; 53; 53; 120] /\ 2 <= o_base general <= 36 /\
  from_chars_int_advanced cfg_x86_64 Char_s uint8_type [50; 53; 53; 120] general =
    Ok {| r_ptr := [120]; r_ec := Success; r_value := Some 255 |} /\
  in_int_range (i_signed int32_type) (i_bits int32_type) 255 /\
  from_chars_int_advanced cfg_x86_64 Char_s int32_type [50; 53; 53; 120] general =
    Ok {| r_ptr := [120]; r_ec := Success; r_value := Some 255 |}.
Proof.
  split; [repeat split; cbn; intuition discriminate|]. split; [repeat split; cbn; intuition discriminate|]. split; [cbn; lia|].
  split; [split; [repeat constructor; cbn; lia|discriminate]|]. split; [cbn; lia|].
  split; [vm_compute; reflexivity|]. split; [cbn; lia|vm_compute; reflexivity].
Qed.

(** ** C40 for integers: the case of letter digits does not matter. *)
Lemma rel_digit_of a b : rel a b -> digit_of a = digit_of b.
Proof.
  intros R. destruct (rel_cases _ _ R) as [->|[(A & ->)|(A & ->)]]; [reflexivity| |]; unfold digit_of;
    repeat match goal with |- context [?x <=? ?y] => destruct (Z.leb_spec x y); try lia end; cbn [andb]; f_equal; lia.
Qed.
Lemma rel_base_digit base a b : rel a b -> base_digit base a -> base_digit base b.
Proof. intros R. unfold base_digit. rewrite (rel_digit_of _ _ R). auto. Qed.
Lemma case_base_value base ds ds' : same_but_case ds ds' -> base_value base ds = base_value base ds'.
Proof.
  intros H. unfold base_value. set (z := 0) at 2 4. clearbody z. revert z. induction H as [|x y l l' R _ IH]; intros a; [reflexivity|].
  cbn [fold_left]. rewrite (rel_digit_of _ _ R). apply IH.
Qed.
Lemma case_int_text sg pl base s s' neg ds rest : same_but_case s s' -> int_text sg pl base s neg ds rest ->
  exists ds' rest', int_text sg pl base s' neg ds' rest' /\ same_but_case ds ds' /\ same_but_case rest rest'.
Proof.
  intros C (s1 & SG & R).
  assert (S1 : exists s1', int_sign sg pl s' neg s1' /\ same_but_case s1 s1').
  { inversion SG as [l H|l H|l N]; subst.
    - inversion C as [|? b ? l' RB C']; subst. rewrite (rel_fixed 45 _ _ RB) by lia. exists l'. split; [constructor; reflexivity|exact C'].
    - inversion C as [|? b ? l' RB C']; subst. rewrite (rel_fixed 43 _ _ RB) by lia. exists l'. split; [constructor; reflexivity|exact C'].
    - exists s'. split; [|exact C]. apply int_unsigned. revert C N. apply case_not_at. intros a b RB D. apply rel_sym in RB.
      destruct D as [(D & E)|(D & E)]; [left|right]; (split; [|exact E]); apply (rel_fixed _ _ _ RB); lia. }
  destruct S1 as (s1' & SG' & C1). destruct R as (-> & A & N).
  destruct (case_app_inv _ _ _ C1) as (ds' & rest' & -> & CD & CR). exists ds', rest'.
  split; [|split; assumption]. exists (ds' ++ rest'). split; [exact SG'|]. split; [reflexivity|]. split.
  - clear - CD A. induction CD as [|a b l l' RB _ IH]; [constructor|]. inversion A; subst.
    constructor; [eapply rel_base_digit; eassumption|apply IH; assumption].
  - revert CR N. apply case_not_at. intros a b RB. apply rel_base_digit, rel_sym, RB.
Qed.
Lemma case_good_int c u o s s' : same_but_case s s' -> good_int_text c u o s -> good_int_text c u o s'.
Proof.
  intros C (A & B).
  assert (CU : forall a b, rel a b -> code_unit u a -> code_unit u b).
  { intros a b RB H. destruct (rel_cases _ _ RB) as [<-|[(K & ->)|(K & ->)]]; [exact H| |]; apply ascii_code_unit; lia. }
  split.
  - clear B. induction C as [|a b l l' RB _ IH]; [constructor|]. inversion A; subst. constructor; [eapply CU; eassumption|apply IH; assumption].
  - intros E S. specialize (B E S). clear A CU. induction C as [|a b l l' RB _ IH]; [constructor|]. inversion B; subst.
    constructor; [|apply IH; assumption]. destruct (rel_cases _ _ RB) as [<-|[(K & ->)|(K & ->)]]; [assumption|lia..].
Qed.

Theorem from_chars_int_letter_case :
  forall (c : cfg) (u : uc) (T : ity) (o : options) (s s' : list Z),
  int_type T -> same_but_case s s' -> good_int_text c u o s ->
  exists rest rest' x v,
    from_chars_int_advanced c u T s o = Ok {| r_ptr := rest; r_ec := x; r_value := v |} /\
    from_chars_int_advanced c u T s' o = Ok {| r_ptr := rest'; r_ec := x; r_value := v |} /\
    same_but_case rest rest'.
Proof.
  intros c u T o s s' IT C G. pose proof (case_good_int _ _ _ _ _ C G) as G'.
  destruct (int_starts c o s) as (s0 & SA). destruct (case_starts _ _ _ _ _ C SA) as (s0' & SA' & C0).
  destruct (Z_le_gt_dec 2 (o_base o)) as [B2|B2]; [destruct (Z_le_gt_dec (o_base o) 36) as [B36|B36]|].
  2,3: rewrite (from_chars_int_base c u T o s s0 G SA) by lia; rewrite (from_chars_int_base c u T o s' s0' G' SA') by lia;
    exists s0, s0', InvalidArgument, None; auto.
  assert (B : 2 <= o_base o <= 36) by lia.
  destruct (int_text_exists (i_signed T) (leading_plus (rules_of c o)) (o_base o) s0 B) as (neg & ds & rest & TX).
  destruct (case_int_text _ _ _ _ _ _ _ _ C0 TX) as (ds' & rest' & TX' & CD & CR).
  destruct (int_main c u T o s s0 neg ds rest IT G SA B TX) as (_ & H1).
  destruct (int_main c u T o s' s0' neg ds' rest' IT G' SA' B TX') as (_ & H2).
  rewrite <- (case_base_value _ _ _ CD) in H2.
  destruct H1 as [(D1 & ->)|(D1 & H1)], H2 as [(D2 & ->)|(D2 & H2)].
  - exists s0, s0', InvalidArgument, None. auto.
  - exfalso. subst ds. inversion CD. congruence.
  - exfalso. subst ds'. inversion CD. congruence.
  - destruct H1 as [(A1 & ->)|[(A1 & U1 & ->)|(A1 & U1 & ->)]], H2 as [(A2 & ->)|[(A2 & U2 & ->)|(A2 & U2 & ->)]];
      try lia; try contradiction; do 4 eexists; (split; [reflexivity|]); (split; [reflexivity|]); exact CR.
Qed.
Print Assumptions from_chars_int_letter_case.

Lemma int_letter_case_example :
  let hex := {| o_format := 5; o_decimal_point := 46; o_base := 16 |} in
  int_type uint8_type /\ same_but_case [102; 70; 71] [70; 102; 103] /\ good_int_text cfg_x86_64 Char_s hex [102; 70; 71] /\
  from_chars_int_advanced cfg_x86_64 Char_s uint8_type [102; 70; 71] hex = Ok {| r_ptr := [71]; r_ec := Success; r_value := Some 255 |} /\
  from_chars_int_advanced cfg_x86_64 Char_s uint8_type [70; 102; 103] hex = Ok {| r_ptr := [103]; r_ec := Success; r_value := Some 255 |}.
Proof.
  cbv zeta. split; [repeat split; cbn; intuition discriminate|]. split; [repeat constructor|].
  split; [split; [repeat constructor; cbn; lia|discriminate]|]. split; vm_compute; reflexivity.
Qed.

(** ** C42 for integers: the consumed characters alone give the same result. *)
Theorem from_chars_int_consumed_only :
  forall (c : cfg) (u : uc) (T : ity) (o : options) (consumed rest : list Z) (x : ec) (v : option Z),
  int_type T -> good_int_text c u o (consumed ++ rest) ->
  from_chars_int_advanced c u T (consumed ++ rest) o = Ok {| r_ptr := rest; r_ec := x; r_value := v |} ->
  x <> InvalidArgument ->
  from_chars_int_advanced c u T consumed o = Ok {| r_ptr := []; r_ec := x; r_value := v |}.
Proof.
  intros c u T o p rest x v IT G E NI.
  assert (GP : good_int_text c u o p).
  { destruct G as (G1 & G2). split; [apply Forall_app in G1; apply G1|]. intros W K. specialize (G2 W K). apply Forall_app in G2. apply G2. }
  destruct (int_starts c o (p ++ rest)) as (s0 & SA).
  destruct (Z_le_gt_dec 2 (o_base o)) as [B2|B2]; [destruct (Z_le_gt_dec (o_base o) 36) as [B36|B36]|].
  2,3: rewrite (from_chars_int_base c u T o _ s0 G SA) in E by lia; injection E as _ <- _; congruence.
  assert (B : 2 <= o_base o <= 36) by lia.
  destruct (int_text_exists (i_signed T) (leading_plus (rules_of c o)) (o_base o) s0 B) as (neg & ds & r & TX).
  destruct (int_main c u T o _ s0 neg ds r IT G SA B TX) as (_ & [(ED & E1)|(ND & H1)]).
  { rewrite E1 in E. injection E as _ <- _. congruence. }
  assert (r = rest).
  { destruct H1 as [(_ & H1)|[(_ & _ & H1)|(_ & _ & H1)]]; rewrite H1 in E; injection E; auto. }
  subst r. destruct (int_text_prefix _ _ _ _ _ _ _ TX) as (g & ES). rewrite app_assoc in ES.
  assert (NQ : g ++ ds <> []) by (intros Q; apply app_eq_nil in Q; tauto).
  pose proof (starts_alone c o p rest s0 (g ++ ds) SA ES NQ) as SA'. subst s0.
  assert (TX' : int_text (i_signed T) (leading_plus (rules_of c o)) (o_base o) (g ++ ds) neg ds []).
  { destruct TX as (s1 & SG & -> & A & N). exists ds. split; [|split; [rewrite app_nil_r; reflexivity|split; [exact A|exact I]]].
    inversion SG as [l H F1|l H F1|l N1 F1]; subst.
    - change (45 :: ds ++ rest) with ((45 :: ds) ++ rest) in F1. apply app_inv_tail in F1. rewrite <- F1. apply int_minus. exact H.
    - change (43 :: ds ++ rest) with ((43 :: ds) ++ rest) in F1. apply app_inv_tail in F1. rewrite <- F1. apply int_plus. exact H.
    - match goal with F : _ ++ rest = _ ++ rest |- _ => apply app_inv_tail in F; rewrite F in * end. apply int_unsigned. destruct ds; [contradiction|exact N1]. }
  destruct (int_main c u T o p (g ++ ds) neg ds [] IT GP SA' B TX') as (_ & [(ED & _)|(_ & H2)]); [contradiction|].
  destruct H1 as [(A1 & E1)|[(A1 & U1 & E1)|(A1 & U1 & E1)]], H2 as [(A2 & ->)|[(A2 & U2 & ->)|(A2 & U2 & ->)]];
    try lia; try contradiction; rewrite E1 in E; injection E as <- <-; reflexivity.
Qed.
Print Assumptions from_chars_int_consumed_only.

(** "255" in front of "e1" as uint8_t, and "256", out of range, in front of a blank. *)
Lemma int_consumed_only_example :
  int_type uint8_type /\ good_int_text cfg_x86_64 Char_s general ([50; 53; 53] ++ [101; 49]) /\
  from_chars_int_advanced cfg_x86_64 Char_s uint8_type ([50; 53; 53] ++ [101; 49]) general =
    Ok {| r_ptr := [101; 49]; r_ec := Success; r_value := Some 255 |} /\
  good_int_text cfg_x86_64 Char_s general ([50; 53; 54] ++ [32]) /\
  from_chars_int_advanced cfg_x86_64 Char_s uint8_type ([50; 53; 54] ++ [32]) general =
    Ok {| r_ptr := [32]; r_ec := OutOfRange; r_value := None |}.
Proof.
  split; [repeat split; cbn; intuition discriminate|]. split; [split; [repeat constructor; cbn; lia|discriminate]|].
  split; [vm_compute; reflexivity|]. split; [split; [repeat constructor; cbn; lia|discriminate]|vm_compute; reflexivity].
Qed.

(** ** C39: a text that is an integer is the same number for the floating-point
    parser, unless something follows that makes it a longer number. *)
Lemma exact_code_magnitude t x b : exact_code t x b -> (x == magnitude (format_of t) b)%Q.
Proof.
  intros (R & E). rewrite magnitude_units by lia. rewrite <- E. apply units_ulp0.
Qed.

Lemma digits_base_value ds : all_digits ds -> digits_value ds = base_value 10 ds.
Proof.
  intros H. unfold digits_value, base_value. set (z := 0) at 1 3. clearbody z. revert z. induction H as [|ch l D _ IH]; intros a; [reflexivity|].
  cbn [fold_left]. rewrite IH. f_equal. unfold digit in D. unfold digit_of. rewrite D. lia.
Qed.

Theorem from_chars_int_then_float :
  forall (c : cfg) (u : uc) (T : ity) (t : ftype) (o : options) (s rest : list Z) (v : Z),
  int_type T -> o_base o = 10 -> good_text c u o s ->
  json (rules_of c o) = false -> scientific (rules_of c o) = false \/ fixed (rules_of c o) = true ->
  from_chars_int_advanced c u T s o = Ok {| r_ptr := rest; r_ec := Success; r_value := Some v |} ->
  number_ends (o_decimal_point o) rest ->
  i_bits T <= 32 \/ (length s <= length rest + 19)%nat ->
  exists neg b x,
    from_chars_float_advanced c u t s o = Ok {| r_ptr := rest; r_ec := x; r_value := Some (with_sign (format_of t) neg b) |} /\
    (v < 0 -> neg = true) /\ (0 < v -> neg = false) /\
    nearest (format_of t) (inject_Z (Z.abs v)) b /\
    (t <> F16 -> nearest_even (format_of t) (inject_Z (Z.abs v)) b) /\
    (Z.abs v <= 2 ^ (frac_bits (format_of t) + 1) -> (magnitude (format_of t) b == inject_Z (Z.abs v))%Q).
Proof.
  intros c u T t o s rest v IT B10 G JS SF E NE SMALL.
  assert (GI : good_int_text c u o s).
  { destruct G as (A & W & _). split; [exact A|]. intros EU S. specialize (W EU). eapply Forall_impl; [|exact W].
    cbn beta. intros ch (_ & H). auto. }
  assert (B : 2 <= o_base o <= 36) by lia.
  destruct (int_starts c o s) as (s0 & SA).
  destruct (int_text_exists (i_signed T) (leading_plus (rules_of c o)) (o_base o) s0 B) as (neg & ds & r & TX).
  destruct (int_main c u T o _ s0 neg ds r IT GI SA B TX) as (NS & [(ED & E1)|(ND & H1)]).
  { rewrite E1 in E. discriminate E. }
  destruct (int_text_prefix _ _ _ _ _ _ _ TX) as (g & ES).
  assert (LS : (length s0 <= length s)%nat).
  { clear - SA. unfold starts_at in SA. destruct (skips_space c o); [|subst; lia].
    destruct SA as (w & -> & _). rewrite app_length. lia. }
  destruct TX as (s1 & SG & RN). pose proof RN as RT. rewrite B10 in RT. apply run_ten in RT.
  destruct RT as (R1 & R2 & R3).
  assert (V0 : 0 <= base_value (o_base o) ds < 10 ^ Z.of_nat (length ds)).
  { rewrite B10, <- digits_base_value by exact R2. apply digits_value_range. exact R2. }
  assert (EV : r = rest /\ v = (if neg then - base_value (o_base o) ds else base_value (o_base o) ds)).
  { destruct H1 as [(_ & H1)|[(_ & _ & H1)|(LV & U & H1)]]; rewrite H1 in E.
    - injection E as -> <-. auto.
    - discriminate E.
    - exfalso. assert (ER : r = rest) by (injection E; auto). subst r. destruct SMALL as [S32|S19].
      + apply unnoticed_large in U; [|exact B]. revert U. unfold int_limit.
        assert (2 ^ (i_bits T - 1) <= 2 ^ 32 /\ 2 ^ i_bits T <= 2 ^ 32) by (split; apply Z.pow_le_mono_r; lia).
        destruct (i_signed T), neg; lia.
      + assert (10 ^ Z.of_nat (length ds) <= 10 ^ 19).
        { apply Z.pow_le_mono_r; [lia|]. apply (f_equal (@length Z)) in ES. rewrite !app_length in ES. lia. }
        destruct U as (k & _ & (_ & U) & _). lia. }
  destruct EV as (-> & EV). set (V := base_value (o_base o) ds) in *.
  assert (NUM : number (rules_of c o) s0 neg ds [] 0 rest).
  { exists s1, rest, false, rest.
    assert (HN : not_at (fun ch => digit ch = true \/ ch = o_decimal_point o \/ In ch [101; 69; 100; 68; 43; 45]) rest) by exact NE.
    split.
    - inversion SG as [? HM|? HP|? H]; subst; [constructor|constructor; assumption|].
      constructor. destruct ds as [|d ds]; [contradiction|]. cbn in R2 |- *. inversion R2; subst. intros [-> |(-> & _)]; discriminate.
    - split; [repeat split; assumption|]. split.
      + constructor. change (point (rules_of c o)) with (o_decimal_point o). destruct rest; [exact I|]. cbn in HN |- *. tauto.
      + split; [unfold mantissa_ok; rewrite JS, app_nil_r; exact ND|]. apply exponent_none; [|exact SF].
        intros q M. destruct rest as [|ch l]; [inversion M|]. cbn in HN. apply HN. right. right.
        inversion M; subst; cbn; intuition congruence. }
  assert (EB : exponent_bounded s 0) by (right; reflexivity).
  assert (AV : Z.abs v = V) by (destruct neg; lia).
  assert (NV : (number_value ds [] 0 == inject_Z (Z.abs v))%Q).
  { rewrite AV. unfold number_value. rewrite app_nil_r, digits_base_value by exact R2. rewrite <- B10. fold V. unfold decimal. cbn. ring. }
  destruct (number_near c u t o s s0 neg ds [] 0 rest G SA NUM EB) as (b & x & EF & NB).
  exists neg, b, x. split; [exact EF|].
  split; [intros L; destruct neg; [reflexivity|lia]|]. split; [intros L; destruct neg; [lia|reflexivity]|].
  assert (NB' : near t (inject_Z (Z.abs v)) b) by (eapply near_comp; [exact NV|exact NB]).
  split; [apply nearest_of; exact NB'|]. split.
  - intros NT. apply rounds_nearest_even. apply near_not_F16; assumption.
  - intros SM. rewrite frac_mb in SM. destruct (small_exact_code t (Z.abs v) ltac:(lia)) as (b' & XC).
    pose proof (exact_code_magnitude t _ _ XC) as EM. 
    destruct (nearest_of t _ _ NB') as (RB & HB). specialize (HB b'). destruct XC as (RX & _). rewrite inf_inf in HB.
    specialize (HB ltac:(lia)). rewrite EM in HB.
    setoid_replace (magnitude (format_of t) b' - magnitude (format_of t) b')%Q with 0%Q in HB by ring.
    change (Qabs 0) with 0%Q in HB. rewrite EM.
    assert (Z0 : (Qabs (magnitude (format_of t) b' - magnitude (format_of t) b) == 0)%Q).
    { apply Qle_antisym; [exact HB|apply Qabs_nonneg]. }
    revert Z0. apply Qabs_case; intros _ Z0; lra.
Qed.
Print Assumptions from_chars_int_then_float.

(** -12 as int32_t and as double: -12 and the bits of -12.0. *)
Lemma int_then_float_example :
  good_text cfg_x86_64 Char_s general [45; 49; 50; 59] /\ number_ends (o_decimal_point general) [59] /\
  from_chars_int_advanced cfg_x86_64 Char_s int32_type [45; 49; 50; 59] general =
    Ok {| r_ptr := [59]; r_ec := Success; r_value := Some (-12) |} /\
  from_chars_float_advanced cfg_x86_64 Char_s F64 [45; 49; 50; 59] general =
    Ok {| r_ptr := [59]; r_ec := Success; r_value := Some (with_sign binary64 true 4622945017495814144) |} /\
  (magnitude binary64 4622945017495814144 == 12)%Q.
Proof.
  split; [split; [repeat constructor; cbn; lia|split; [discriminate|split; [cbn; lia|reflexivity]]]|].
  split; [cbn; lia|]. repeat split; vm_compute; reflexivity.
Qed.
