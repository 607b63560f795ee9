(** Property C37: 128-bit integers (__int128 is std::is_integral with GNU
    extensions, float_common.h:283). *)
From Verif Require Import Machine Config Tables Chars ParseNumber FromChars Ints WordLemmas SpecGrammar Swar Scan
  SpecApi SpecRel ParseSpec Special SpecInt IntSpec IntFast IntApi Props_Pow10 Props_Ints.
Open Scope Z_scope.

Definition int128_type : ity := {| i_signed := true; i_bits := 128; i_is_u8 := false; i_is_u16 := false; i_is_u64 := false |}.
Definition uint128_type : ity := {| i_signed := false; i_bits := 128; i_is_u8 := false; i_is_u16 := false; i_is_u64 := false |}.

Lemma uint64_ok : int_type uint64_type.
Proof. pose proof types_ok as H. rewrite Forall_forall in H. apply H. cbn. tauto. Qed.

Lemma to_signed_128 x : 0 <= x < 2 ^ 64 -> to_signed 128 x = x.
Proof.
  intros H. unfold to_signed. rewrite Z.mod_small by lia.
  destruct (Z.ltb_spec x (2 ^ (128 - 1))); [reflexivity|]. change (2 ^ (128 - 1)) with (2 ^ 127) in *. lia.
Qed.

(** Without a minus sign the code does what it does for uint64_t. *)
Lemma general_128 c u T base hz first s : T = int128_type \/ T = uint128_type -> 2 <= base <= 36 -> Forall (code_unit u) s ->
  parse_int_general c u T base false hz first s = parse_int_general c u uint64_type base false hz first s.
Proof.
  intros TT B C. destruct (int_text_exists false false base s B) as (neg & ds & rest & s1 & SG & R).
  assert (s1 = s) by (inversion SG; subst; try congruence; reflexivity). subst s1. clear SG neg.
  unfold parse_int_general. pose proof (scan_digits c u base s ds rest B C R) as SD.
  destruct (if base =? 10 then loop_parse_if_eight_digits c u s 0 else Ok (s, 0)) as [(p & i)|]; cbn [bind] in *; [|discriminate SD].
  rewrite SD. cbn [bind]. cbv zeta. clear SD p i.
  assert (I : 0 <= bacc base 0 ds < 2 ^ 64) by (unfold bacc; apply u64_range). set (i := bacc base 0 ds) in *. clearbody i.
  assert (LT : (2 ^ 64 - 1 <? i) = false) by (apply Z.ltb_ge; lia).
  assert (EV : (if i_signed T then to_signed (i_bits T) i else if i_bits T =? 1 then (if i =? 0 then 0 else 1) else i mod 2 ^ i_bits T) = i mod 2 ^ 64).
  { rewrite (Z.mod_small i (2 ^ 64)) by lia. destruct TT as [-> | ->]; cbn [i_signed i_bits int128_type uint128_type].
    - apply to_signed_128. exact I.
    - change (128 =? 1) with false. apply Z.mod_small. split; [lia|]. eapply Z.lt_trans; [apply I|]. reflexivity. }
  assert (EL : negb (i_is_u64 T) && (u64 (i_max T + 0) <? i) = false).
  { destruct TT as [-> | ->]; cbn [i_is_u64 int128_type uint128_type negb andb].
    - change (u64 (i_max int128_type + 0)) with (2 ^ 64 - 1). exact LT.
    - change (u64 (i_max uint128_type + 0)) with (2 ^ 64 - 1). exact LT. }
  rewrite EV, EL. cbn [i_is_u64 uint64_type negb andb i_signed i_bits]. change (64 =? 1) with false. reflexivity.
Qed.

(** After a minus sign every other value than zero is out of range. *)
Lemma general_128_neg c u base hz first s ds rest : 2 <= base <= 36 -> Forall (code_unit u) s -> base_run base s ds rest -> no_leading_zero ds ->
  parse_int_general c u int128_type base true hz first s =
  match ds with [] => Ok (no_digits hz first rest) | _ => Ok (out_of_range rest) end.
Proof.
  intros B C R NZ.
  unfold parse_int_general. pose proof (scan_digits c u base s ds rest B C R) as SD.
  destruct (if base =? 10 then loop_parse_if_eight_digits c u s 0 else Ok (s, 0)) as [(p & i)|]; cbn [bind] in *; [|discriminate SD].
  rewrite SD. cbn [bind]. cbv zeta. clear SD p i. pose proof R as (ER & DR & NR).
  assert (DC : remaining s - remaining rest = Z.of_nat (length ds)) by (rewrite ER; unfold remaining; rewrite app_length; lia).
  rewrite DC. destruct ds as [|x ds]; [reflexivity|].
  assert (DCZ : (Z.of_nat (length (x :: ds)) =? 0) = false) by (apply Z.eqb_neq; cbn [length]; lia). rewrite DCZ.
  destruct (digit_limits base B) as (k & -> & -> & K0 & KS & KL). cbn [bind].
  inversion DR as [|? ? D1 D2]; subst x0 l.
  pose proof (base_value_lower base x ds ltac:(lia) D1 NZ D2) as VL.
  assert (EI : bacc base 0 (x :: ds) = base_value base (x :: ds) mod 2 ^ 64) by reflexivity. rewrite EI. clear EI.
  pose proof (base_value_range base (x :: ds) ltac:(lia) DR) as VU.
  set (V := base_value base (x :: ds)) in *. set (n := Z.of_nat (length (x :: ds))) in *.
  destruct (Z.ltb_spec k n) as [KN|KN]; [reflexivity|].
  destruct ((n =? k) && (V mod 2 ^ 64 <? base ^ (k - 1))) eqn:SAFE; [reflexivity|].
  change (i_is_u64 int128_type) with false. cbn [negb andb]. change (u64 (i_max int128_type + 1)) with 0.
  destruct (Z.ltb_spec 0 (V mod 2 ^ 64)) as [_|L]; [reflexivity|exfalso].
  assert (P : forall j, 0 <= j -> 1 <= base ^ j) by (intros j J; pose proof (Z.pow_pos_nonneg base j ltac:(lia) J); lia).
  assert (EN : Z.of_nat (length ds) = n - 1) by (unfold n; cbn [length]; lia). rewrite EN in VL.
  assert (N1 : 1 <= n) by (unfold n; cbn [length]; lia). clearbody n V.
  destruct (Z.eq_dec n k) as [->|NK].
  - apply andb_false_iff in SAFE. rewrite Z.eqb_refl in SAFE. destruct SAFE as [S|S]; [discriminate S|].
    apply Z.ltb_ge in S. specialize (P (k - 1) ltac:(lia)). lia.
  - assert (base ^ n <= base ^ (k - 1)) by (apply Z.pow_le_mono_r; lia).
    rewrite Z.mod_small in L by lia. specialize (P (n - 1) ltac:(lia)). lia.
Qed.

Lemma not_minus_128 c u T o s s0 : T = int128_type \/ T = uint128_type ->
  good_int_text c u o s -> starts_at c o s s0 -> not_at (fun ch => ch = 45) s0 ->
  from_chars_int_advanced c u T s o = from_chars_int_advanced c u uint64_type s o.
Proof.
  intros TT G SA NM. destruct (skip_space_int c u o s s0 G SA) as (E & C0).
  unfold from_chars_int_advanced. cbv zeta. rewrite E. cbn [bind].
  destruct s0 as [|ch s0]; [reflexivity|].
  destruct ((o_base o <? 2) || (36 <? o_base o)) eqn:B; [reflexivity|].
  apply orb_false_iff in B. rewrite !Z.ltb_ge in B.
  unfold parse_int_string. cbn [deref bind tl]. cbv zeta. cbn in NM. apply Z.eqb_neq in NM. rewrite NM, !andb_false_r. cbn [orb].
  set (p := if flag _ _ && (ch =? 43) then s0 else ch :: s0).
  assert (CP : Forall (code_unit u) (int_skip_zeros p)).
  { destruct (skip_zeros_spec p) as (z & _ & EP & _). assert (CP : Forall (code_unit u) p).
    { unfold p. destruct (_ && _); [inversion C0; assumption|exact C0]. }
    rewrite EP in CP. apply Forall_app in CP. apply CP. }
  clearbody p. rewrite <- (general_128 c u T (o_base o) _ (ch :: s0) (int_skip_zeros p) TT ltac:(lia) CP).
  destruct TT as [-> | ->]; reflexivity.
Qed.

(** Non-negative values below 2^64 without a minus sign are read exactly. *)
Theorem from_chars_int128_partial :
  forall (c : cfg) (u : uc) (T : ity) (o : options) (s s0 : list Z) (ds rest : list Z),
  T = int128_type \/ T = uint128_type -> good_int_text c u o s -> starts_at c o s s0 -> 2 <= o_base o <= 36 ->
  int_text (i_signed T) (leading_plus (rules_of c o)) (o_base o) s0 false ds rest -> ds <> [] ->
  base_value (o_base o) ds < 2 ^ 64 ->
  from_chars_int_advanced c u T s o =
    Ok {| r_ptr := rest; r_ec := Success; r_value := Some (base_value (o_base o) ds) |}.
Proof.
  intros c u T o s s0 ds rest TT G SA B TX NE VB.
  assert (NM : not_at (fun ch => ch = 45) s0).
  { destruct TX as (s1 & SG & (E1 & D1 & _)). destruct s0 as [|ch s0]; [exact I|]. intros ->.
    inversion SG; subst. destruct ds as [|x ds]; [congruence|]. inversion D1 as [|? ? (d & Hd & _) _]; subst.
    cbn [app] in *. match goal with A : 45 :: _ = _ |- _ => inversion A; subst end. discriminate Hd. }
  rewrite (not_minus_128 c u T o s s0 TT G SA NM).
  assert (TX' : int_text (i_signed uint64_type) (leading_plus (rules_of c o)) (o_base o) s0 false ds rest).
  { destruct TX as (s1 & SG & R). exists s1. split; [|exact R]. inversion SG; subst.
    - apply int_plus. assumption.
    - apply int_unsigned. destruct s1; [exact I|]. cbn in *. intros [(?&?)|?]; [discriminate|tauto]. }
  destruct (int_main c u uint64_type o s s0 false ds rest uint64_ok G SA B TX') as (_ & [(E & _)|(_ & [(_ & E)|[(L & _ & E)|(L & _ & E)]])]);
    [contradiction|exact E| |]; exfalso; change (int_limit _ _ _) with (2 ^ 64 - 1) in L; lia.
Qed.
Print Assumptions from_chars_int128_partial.

(** Every other value of the types is lost: negative ones are reported as out
    of range; those from 2^64 on come out reduced modulo 2^64 if the overflow
    is [unnoticed] (SpecInt, as for uint64_t) and are reported as out of range otherwise. *)
Theorem from_chars_int128_refuted :
  forall (c : cfg) (u : uc) (T : ity) (o : options) (s s0 : list Z) (neg : bool) (ds rest : list Z),
  T = int128_type \/ T = uint128_type -> good_int_text c u o s -> starts_at c o s s0 -> 2 <= o_base o <= 36 ->
  int_text (i_signed T) (leading_plus (rules_of c o)) (o_base o) s0 neg ds rest -> ds <> [] ->
  let v := int_value (o_base o) neg ds in
  v < 0 \/ 2 ^ 64 <= v ->
  (~ unnoticed (o_base o) (2 ^ 64 - 1) v /\
   from_chars_int_advanced c u T s o = Ok {| r_ptr := rest; r_ec := OutOfRange; r_value := None |}) \/
  (unnoticed (o_base o) (2 ^ 64 - 1) v /\ 2 ^ 64 <= v /\ from_chars_int_advanced c u T s o = Ok {| r_ptr := rest; r_ec := Success; r_value := Some (v mod 2 ^ 64) |}).
Proof.
  intros c u T o s s0 neg ds rest TT G SA B TX NE v HV.
  pose proof (base_value_range (o_base o) ds ltac:(lia) (int_text_digits _ _ _ _ _ _ _ TX)) as (V0 & _).
  destruct neg; unfold v, int_value in *; clear v.
  - left. split; [intros (k & _ & U & _); clear - U V0; lia|]. destruct TX as (s1 & SG & R). inversion SG as [s' HS| |]; subst.
    assert (T = int128_type) by (destruct TT as [->| ->]; [reflexivity|discriminate HS]). subst T.
    destruct (skip_space_int c u o s _ G SA) as (E & C0).
    unfold from_chars_int_advanced. cbv zeta. rewrite E. cbn [bind].
    assert (BT : (o_base o <? 2) || (36 <? o_base o) = false) by (apply orb_false_iff; split; apply Z.ltb_ge; lia).
    rewrite BT. unfold parse_int_string. cbn [deref bind tl]. cbv zeta. change (45 =? 45) with true.
    cbn [int128_type i_signed i_is_u8 i_is_u16 negb andb orb bind]. fold int128_type.
    inversion C0 as [|? ? _ C1]; subst.
    destruct (skip_zeros_spec s1) as (z & Z0 & ES & NZ). set (hz := _ <? _). clearbody hz. set (p := int_skip_zeros s1) in *. clearbody p.
    pose proof (zeros_digits (o_base o) z ltac:(lia) Z0) as ZD.
    rewrite ES in R, C1. destruct (base_run_split _ z p ds rest ZD R) as (ds' & -> & R').
    rewrite (zeros_value _ z ds' Z0) in *.
    assert (CP : Forall (code_unit u) p) by (apply Forall_app in C1; apply C1).
    assert (NZ' : no_leading_zero ds').
    { destruct ds' as [|x ds']; [exact I|]. destruct R' as (E' & _). rewrite E' in NZ. exact NZ. }
    rewrite (general_128_neg c u (o_base o) hz _ p ds' rest B CP R' NZ').
    destruct ds'; [cbn in HV; lia|reflexivity].
  - assert (NM : not_at (fun ch => ch = 45) s0).
    { destruct TX as (s1 & SG & (E1 & D1 & _)). destruct s0 as [|ch s0]; [exact I|]. intros ->.
      inversion SG; subst. destruct ds as [|x ds]; [congruence|]. inversion D1 as [|? ? (d & Hd & _) _]; subst.
      cbn [app] in *. match goal with A : 45 :: _ = _ |- _ => inversion A; subst end. discriminate Hd. }
    rewrite (not_minus_128 c u T o s s0 TT G SA NM).
    assert (TX' : int_text (i_signed uint64_type) (leading_plus (rules_of c o)) (o_base o) s0 false ds rest).
    { destruct TX as (s1 & SG & R). exists s1. split; [|exact R]. inversion SG; subst.
      - apply int_plus. assumption.
      - apply int_unsigned. destruct s1; [exact I|]. cbn in *. intros [(?&?)|?]; [discriminate|tauto]. }
    destruct (int_main c u uint64_type o s s0 false ds rest uint64_ok G SA B TX') as (_ & [(E & _)|(_ & [(L & _)|[(_ & NU & E)|(_ & NU & E)]])]);
      [contradiction| |left; split; [exact NU|exact E]|right; split; [exact NU|split; [lia|exact E]]].
    exfalso. change (int_limit _ _ _) with (2 ^ 64 - 1) in L. lia.
Qed.
Print Assumptions from_chars_int128_refuted.

(** "-1", and 2^64 = "18446744073709551616". *)
Example int128_examples :
  from_chars_int cfg_x86_64 Char_s int128_type [45;49] 10 = Ok {| r_ptr := []; r_ec := OutOfRange; r_value := None |} /\
  from_chars_int cfg_x86_64 Char_s int128_type [45;48] 10 = Ok {| r_ptr := []; r_ec := Success; r_value := Some 0 |} /\
  from_chars_int cfg_x86_64 Char_s int128_type [49;50;51] 10 = Ok {| r_ptr := []; r_ec := Success; r_value := Some 123 |} /\
  from_chars_int cfg_x86_64 Char_s uint128_type [51;48;48;48;48;48;48;48;48;48;48;48;48;48;48;48;48;48;48;48] 10 =
    Ok {| r_ptr := []; r_ec := Success; r_value := Some 11553255926290448384 |}.
Proof. vm_compute. repeat split; reflexivity. Qed.
