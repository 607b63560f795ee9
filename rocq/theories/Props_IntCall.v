(** Property C85: what a call of from_chars for an integer type does, in one statement for every
    text, base, type and option set: the specification is [int_outcome] in SpecIntCall. *)
From Verif Require Import Machine Config Tables Chars ParseNumber FromChars Ints WordLemmas SpecGrammar Swar Scan
  SpecApi SpecRel SpecCall ParseSpec Special SpecInt SpecIntApi SpecIntCall IntSpec IntFast IntApi Props_Pow10 Props_Ints Props_Int128 Props_Exact.
Open Scope Z_scope.

(** The integer types, and __int128. *)
Definition some_int_type (T : ity) : Prop := int_type T \/ T = int128_type \/ T = uint128_type.

Lemma not_minus_128_at c u T o s s0 : T = int128_type \/ T = uint128_type ->
  (if flag (adjust_for_feature_macros c (o_format o)) f_skip_white_space then skip_ws s else Ok s) = Ok s0 ->
  Forall (code_unit u) s0 -> T = uint128_type \/ not_at (fun ch => ch = 45) s0 ->
  from_chars_int_advanced c u T s o = from_chars_int_advanced c u uint64_type s o.
Proof.
  intros TT E C0 NM.
  unfold from_chars_int_advanced. cbv zeta. rewrite E. cbn [bind].
  destruct s0 as [|ch s0]; [reflexivity|].
  destruct ((o_base o <? 2) || (36 <? o_base o)) eqn:B; [reflexivity|].
  apply orb_false_iff in B. rewrite !Z.ltb_ge in B.
  unfold parse_int_string. cbn [deref bind tl]. cbv zeta.
  destruct (Z.eqb_spec ch 45) as [->|N45].
  { destruct NM as [->|NM]; [cbn [i_signed uint128_type uint64_type negb andb]; reflexivity|cbn in NM; congruence]. }
  rewrite !andb_false_r. cbn [orb].
  set (p := if flag _ _ && (ch =? 43) then s0 else ch :: s0).
  assert (CP : Forall (code_unit u) (int_skip_zeros p)).
  { destruct (skip_zeros_spec p) as (z & _ & EP & _). assert (CP : Forall (code_unit u) p).
    { unfold p. destruct (_ && _); [inversion C0; assumption|exact C0]. }
    rewrite EP in CP. apply Forall_app in CP. apply CP. }
  clearbody p. rewrite <- (general_128 c u T (o_base o) _ (ch :: s0) (int_skip_zeros p) TT ltac:(lia) CP).
  destruct TT as [-> | ->]; reflexivity.
Qed.

Lemma int_sign_128 T p s0 s1 : int_sign (i_signed T) p s0 false s1 -> int_sign false p s0 false s1.
Proof.
  intros SG. inversion SG; subst; [apply int_plus; congruence|]. apply int_unsigned. destruct s1; [exact I|].
  cbn in *. intros [(_ & X)|X]; [discriminate X|tauto].
Qed.

Lemma outcome_128 c u T o s s0 neg ds rest : T = int128_type \/ T = uint128_type ->
  (if flag (adjust_for_feature_macros c (o_format o)) f_skip_white_space then skip_ws s else Ok s) = Ok s0 ->
  Forall (code_unit u) s0 -> 2 <= o_base o <= 36 ->
  int_text (i_signed T) (leading_plus (rules_of c o)) (o_base o) s0 neg ds rest ->
  int_outcome c o (i_signed T) (i_bits T) s0 (from_chars_int_advanced c u T s o).
Proof.
  intros TT E C0 B TX.
  assert (RE : reach (i_signed T) (i_bits T) neg = if neg then 0 else 2 ^ 64 - 1) by (destruct TT as [->| ->]; reflexivity).
  destruct neg.
  - destruct (TX) as (s1 & SG & R). inversion SG as [s' HS| |]; subst.
    assert (T = int128_type) by (destruct TT as [->| ->]; [reflexivity|discriminate HS]). subst T.
    unfold from_chars_int_advanced. cbv zeta. rewrite E. cbn [bind].
    assert (BT : (o_base o <? 2) || (36 <? o_base o) = false) by (apply orb_false_iff; split; apply Z.ltb_ge; lia).
    rewrite BT. unfold parse_int_string. cbn [deref bind tl]. cbv zeta. change (45 =? 45) with true.
    change (i_signed int128_type) with true in *. change (i_is_u8 int128_type) with false. change (i_is_u16 int128_type) with false.
    cbn [negb andb orb bind].
    inversion C0 as [|? ? _ C1]; subst.
    destruct (skip_zeros_spec s1) as (z & Z0 & ES & NZ). set (p := int_skip_zeros s1) in *. clearbody p.
    pose proof (zeros_digits (o_base o) z ltac:(lia) Z0) as ZD.
    assert (HZ : (remaining p <? remaining s1) = match z with [] => false | _ => true end).
    { rewrite ES. unfold remaining. rewrite app_length. destruct z; [apply Z.ltb_irrefl|]. apply Z.ltb_lt. cbn [length]. lia. }
    rewrite HZ. clear HZ.
    rewrite ES in R, C1. destruct (base_run_split _ z p ds rest ZD R) as (ds' & -> & R').
    assert (CP : Forall (code_unit u) p) by (apply Forall_app in C1; apply C1).
    assert (NZ' : no_leading_zero ds').
    { destruct ds' as [|x ds']; [exact I|]. destruct R' as (E' & _). rewrite E' in NZ. exact NZ. }
    rewrite (general_128_neg c u (o_base o) _ _ p ds' rest B CP R' NZ').
    destruct ds' as [|x ds'].
    + destruct z as [|y z].
      * cbn [no_digits]. eapply int_no_digits; [exact B|exact TX].
      * cbn [no_digits]. assert (V0 : base_value (o_base o) ((y :: z) ++ []) = 0) by (rewrite zeros_value by exact Z0; reflexivity).
        pose proof (int_stored c o true 128 (45 :: s1) true _ rest B TX ltac:(discriminate)) as X. cbv zeta in X. rewrite V0 in X.
        apply X. discriminate.
    + unfold out_of_range. destruct R' as (_ & D' & _). inversion D' as [|? ? D1 D2]; subst.
      pose proof (base_value_lower (o_base o) x ds' ltac:(lia) D1 NZ' D2) as VL.
      pose proof (Z.pow_pos_nonneg (o_base o) (Z.of_nat (length ds')) ltac:(lia) ltac:(lia)) as VP.
      eapply int_refused; [exact B|exact TX|destruct z; discriminate| |].
      * change (reach true (i_bits int128_type) true) with 0. rewrite (zeros_value _ z _ Z0). lia.
      * change (reach true (i_bits int128_type) true) with 0. intros (k & K0 & _ & _ & K1 & K2).
        pose proof (Z.pow_pos_nonneg (o_base o) (k - 1) ltac:(lia) ltac:(lia)). lia.
  - assert (NM : T = uint128_type \/ not_at (fun ch => ch = 45) s0).
    { destruct TT as [->|TT]; [right|left; exact TT]. destruct TX as (s1 & SG & _). inversion SG; subst; [cbn; lia|].
      destruct s1; [exact I|]. cbn in *. intros ->. tauto. }
    rewrite (not_minus_128_at c u T o s s0 TT E C0 NM).
    assert (TX' : int_text (i_signed uint64_type) (leading_plus (rules_of c o)) (o_base o) s0 false ds rest).
    { destruct TX as (s1 & SG & R). exists s1. split; [|exact R]. exact (int_sign_128 T _ _ _ SG). }
    destruct (int_main_at c u uint64_type o s s0 false ds rest uint64_ok E C0 B TX') as (_ & [(ED & ->)|(NE & [(L & ->)|[(L & N & ->)|(L & N & ->)]])]).
    + subst ds. eapply int_no_digits; eassumption.
    + apply (int_stored c o _ _ s0 false ds rest B TX NE). rewrite RE. exact L.
    + apply (int_refused c o _ _ s0 false ds rest B TX NE); rewrite RE; [exact L|exact N].
    + apply (int_overlooked c o _ _ s0 false ds rest B TX NE); rewrite RE; [exact L|exact N].
Qed.

Lemma outcome_int c u T o s s0 : some_int_type T ->
  (if flag (adjust_for_feature_macros c (o_format o)) f_skip_white_space then skip_ws s else Ok s) = Ok s0 ->
  Forall (code_unit u) s0 -> int_outcome c o (i_signed T) (i_bits T) s0 (from_chars_int_advanced c u T s o).
Proof.
  intros TT E C0.
  assert (D : 2 <= o_base o <= 36 \/ ~ 2 <= o_base o <= 36) by lia. destruct D as [B|NB].
  2:{ assert (X : from_chars_int_advanced c u T s o = Ok {| r_ptr := s0; r_ec := InvalidArgument; r_value := None |}).
      { unfold from_chars_int_advanced. cbv zeta. rewrite E. cbn [bind]. destruct s0; [reflexivity|].
        destruct (Z.ltb_spec (o_base o) 2); [reflexivity|]. destruct (Z.ltb_spec 36 (o_base o)); [reflexivity|]. lia. }
      rewrite X. apply int_bad_base. exact NB. }
  destruct (int_text_exists (i_signed T) (leading_plus (rules_of c o)) (o_base o) s0 B) as (neg & ds & rest & TX).
  destruct TT as [IT|TT]; [|eapply outcome_128; eassumption].
  assert (RE : forall n, reach (i_signed T) (i_bits T) n = int_limit (i_signed T) (i_bits T) n).
  { intros n. unfold reach. replace (64 <? i_bits T) with false; [reflexivity|]. symmetry. apply Z.ltb_ge.
    destruct IT as (IB & _). destruct (i_signed T); cbn [In] in IB; lia. }
  destruct (int_main_at c u T o s s0 neg ds rest IT E C0 B TX) as (_ & [(ED & ->)|(NE & [(L & ->)|[(L & N & ->)|(L & N & ->)]])]).
  - subst ds. eapply int_no_digits; eassumption.
  - apply (int_stored c o _ _ s0 neg ds rest B TX NE). rewrite RE. exact L.
  - apply (int_refused c o _ _ s0 neg ds rest B TX NE); rewrite RE; [exact L|exact N].
  - apply (int_overlooked c o _ _ s0 neg ds rest B TX NE); rewrite RE; [exact L|exact N].
Qed.

Lemma base_run_unique base s ds r ds' r' : base_run base s ds r -> base_run base s ds' r' -> ds = ds' /\ r = r'.
Proof.
  intros (-> & D & N). revert ds'. induction D as [|x ds X D IH]; intros ds' (E & D' & N').
  - destruct ds' as [|y ds']; [split; [reflexivity|exact E]|]. cbn in E. subst r. inversion D'; subst. cbn in N. contradiction.
  - destruct ds' as [|y ds']; cbn in E.
    + subst r'. cbn in N'. contradiction.
    + injection E as -> E. inversion D'; subst. destruct (IH ds') as (-> & ->); [repeat split; assumption|]. split; reflexivity.
Qed.

Lemma int_sign_unique sg p s n s1 n' s1' : int_sign sg p s n s1 -> int_sign sg p s n' s1' -> n = n' /\ s1 = s1'.
Proof. intros H1 H2. inversion H1; subst; inversion H2; subst; cbn in *; try (split; congruence); exfalso; tauto. Qed.

Lemma int_text_unique sg p base s n ds r n' ds' r' : int_text sg p base s n ds r -> int_text sg p base s n' ds' r' ->
  n = n' /\ ds = ds' /\ r = r'.
Proof.
  intros (s1 & S1 & R1) (s2 & S2 & R2). destruct (int_sign_unique _ _ _ _ _ _ _ S1 S2) as (-> & <-).
  destruct (base_run_unique _ _ _ _ _ _ R1 R2) as (-> & ->). auto.
Qed.

Lemma int_outcome_unique c o sg bits s0 a1 a2 : int_outcome c o sg bits s0 a1 -> int_outcome c o sg bits s0 a2 -> a1 = a2.
Proof.
  intros H1 H2.
  destruct H1 as [NB|neg rest B TX|neg ds rest B TX NE v L|neg ds rest B TX NE v L N|neg ds rest B TX NE v L N];
  destruct H2 as [NB2|neg2 rest2 B2 TX2|neg2 ds2 rest2 B2 TX2 NE2 v2 L2|neg2 ds2 rest2 B2 TX2 NE2 v2 L2 N2|neg2 ds2 rest2 B2 TX2 NE2 v2 L2 N2];
  try contradiction; try reflexivity;
  destruct (int_text_unique _ _ _ _ _ _ _ _ _ _ TX TX2) as (<- & ED & <-); subst; try contradiction; try reflexivity; subst v v2; lia.
Qed.

(** C85.  Every text, of whatever code units, every base and option set, every integer type: the
    call does what [int_outcome] says - no more and no less; so it is always defined. *)
Theorem from_chars_int_every_call :
  forall (c : cfg) (u : uc) (T : ity) (o : options) (ws s0 : list Z) (a : res result),
  some_int_type T -> Forall (code_unit u) s0 -> begins c o ws s0 ->
  (from_chars_int_advanced c u T (ws ++ s0) o = a <-> int_outcome c o (i_signed T) (i_bits T) s0 a).
Proof.
  intros c u T o ws s0 a TT F B.
  assert (E : (if flag (adjust_for_feature_macros c (o_format o)) f_skip_white_space then skip_ws (ws ++ s0) else Ok (ws ++ s0)) = Ok s0).
  { destruct (flag_adjust c o) as (_ & _ & _ & _ & _ & FW & _). rewrite FW.
    unfold begins in B. destruct (skips_space c o); [|subst ws; reflexivity]. apply skip_ws_taken; apply B. }
  pose proof (outcome_int c u T o (ws ++ s0) s0 TT E F) as OC.
  split; [intros <-; exact OC|]. intros O2. eapply int_outcome_unique; eassumption.
Qed.
Print Assumptions from_chars_int_every_call.

(** The hypotheses are met: wchar_t 0x20, 0xffffff20, then "12x" as int8_t; "128" and "-128" as
    int8_t, "-1" and "x" as uint8_t, "30000000000000000000" as uint64_t (overlooked) and uint32_t,
    "-0" and "-1" as __int128, "12" in base 37. *)
Example int_every_call_example :
  let o b := {| o_format := 5 + 256; o_decimal_point := 46; o_base := b |} in
  let big := 51 :: repeat 48 19 in
  let call T b s a := some_int_type T /\ Forall (code_unit Wchar_s32) s /\ begins cfg_x86_64 (o b) [] s /\
    int_outcome cfg_x86_64 (o b) (i_signed T) (i_bits T) s a in
  begins cfg_x86_64 (o 10) [32; -224] [49; 50; 120] /\
  call int8_type 10 [49; 50; 120] (Ok {| r_ptr := [120]; r_ec := Success; r_value := Some 12 |}) /\
  call int8_type 10 [49; 50; 56] (Ok {| r_ptr := []; r_ec := OutOfRange; r_value := None |}) /\
  call int8_type 10 [45; 49; 50; 56] (Ok {| r_ptr := []; r_ec := Success; r_value := Some (-128) |}) /\
  call uint8_type 10 [45; 49] (Ok {| r_ptr := [45; 49]; r_ec := InvalidArgument; r_value := None |}) /\
  call uint8_type 10 [120] (Ok {| r_ptr := [120]; r_ec := InvalidArgument; r_value := None |}) /\
  call uint64_type 10 big (Ok {| r_ptr := []; r_ec := Success; r_value := Some 11553255926290448384 |}) /\
  call uint32_type 10 big (Ok {| r_ptr := []; r_ec := OutOfRange; r_value := None |}) /\
  call int128_type 10 [45; 48] (Ok {| r_ptr := []; r_ec := Success; r_value := Some 0 |}) /\
  call int128_type 10 [45; 49] (Ok {| r_ptr := []; r_ec := OutOfRange; r_value := None |}) /\
  call int128_type 37 [49; 50] (Ok {| r_ptr := [49; 50]; r_ec := InvalidArgument; r_value := None |}).
Proof.
  cbv zeta.
  assert (X : forall T b s a, let o := {| o_format := 5 + 256; o_decimal_point := 46; o_base := b |} in
    some_int_type T -> Forall (code_unit Wchar_s32) s -> begins cfg_x86_64 o [] s ->
    from_chars_int_advanced cfg_x86_64 Wchar_s32 T s o = a ->
    some_int_type T /\ Forall (code_unit Wchar_s32) s /\ begins cfg_x86_64 o [] s /\
    int_outcome cfg_x86_64 o (i_signed T) (i_bits T) s a).
  { intros T b s a o TT F B E. split; [exact TT|]. split; [exact F|]. split; [exact B|].
    apply (from_chars_int_every_call cfg_x86_64 Wchar_s32 T o [] s a TT F B). exact E. }
  pose proof types_ok as H. rewrite Forall_forall in H.
  split; [split; [repeat constructor|intros K; vm_compute in K; discriminate K]|].
  repeat match goal with |- (_ /\ _ /\ _ /\ int_outcome _ _ _ _ _ _) /\ _ => split end;
    (apply X; [first [left; apply H; cbn; tauto|right; left; reflexivity]
              |cbn [repeat]; repeat (apply Forall_cons; [split; discriminate|]); apply Forall_nil
              |split; [apply Forall_nil|intros K; vm_compute in K; discriminate K]
              |vm_compute; reflexivity]).
Qed.
