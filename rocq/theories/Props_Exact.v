(** Properties C76 to C81: where the library does not do what one would like (C02, C06, C13, C14,
    C21, C30, C31, C37), what it does instead, exactly and for every argument. *)
From Verif Require Import Machine Config Tables Chars Format ParseNumber DecToBin FromChars Ints WordLemmas
  Rounding ComputeFloat SpecFloat FloatBridge Pow10 SpecGrammar SpecApi SpecRel SpecText Swar Scan ParseSpec Special
  SlowPath ManyDigits Saturate FloatMaster FloatApi FloatRel TextSpec Diagnosis SpecInt SpecCall IntSpec IntFast IntApi
  Props_Pow10 Props_Float Props_Relations Props_Texts Props_Grammar Props_Special Props_Pow10Rel Props_Range Props_Ints Props_Int128.
From Coq Require Import QArith Qabs Qpower.
Open Scope Z_scope.

(** ** C76: std::float16_t *)

(** The rounding rule of SpecFloat leaves no choice. *)
Theorem nearest_float16_unique :
  forall (x : Q) (b b' : Z), nearest_float16 x b -> nearest_float16 x b' -> b = b'.
Proof.
  intros x b b' (_ & T & E) (_ & T' & E'). destruct (Z.eq_dec b b') as [EQ|NE]; [exact EQ|]. exfalso.
  assert (NN : ~ nineteen_digits x \/ (forall k, ~ subnormal_tie binary16 x k) -> False).
  { intros H. apply NE. apply (nearest_even_unique F16 x); [apply E|apply E']; exact H. }
  apply NN. left. intros ND. apply NN. right. intros k TK. apply NE. rewrite (T ND k TK), (T' ND k TK). reflexivity.
Qed.
Print Assumptions nearest_float16_unique.

(** Every number: the value is the one of the rule, the pointer stands behind the number, and
    the code is result_out_of_range exactly if the number is out of range and the conversion
    was not done by one floating-point operation. *)
Theorem from_chars_float16_exact :
  forall (c : cfg) (u : uc) (o : options) (s s0 : list Z)
         (neg : bool) (ip fp : list Z) (e : Z) (rest : list Z),
  good_text c u o s -> starts_at c o s s0 ->
  number (rules_of c o) s0 neg ip fp e rest -> exponent_bounded s e ->
  let v := number_value ip fp e in
  exists b x,
    from_chars_float_advanced c u F16 s o =
      Ok {| r_ptr := rest; r_ec := x; r_value := Some (with_sign binary16 neg b) |} /\
    nearest_float16 v b /\ (forall b', nearest_float16 v b' -> b' = b) /\
    let lost := ((0 < v)%Q /\ b = 0) \/ b = infinity binary16 in
    (x = OutOfRange <-> lost /\ ~ silent_float16_overflow c ip fp e) /\
    (x = Success <-> ~ (lost /\ ~ silent_float16_overflow c ip fp e)).
Proof.
  intros c u o s s0 neg ip fp e rest G SA N EB v.
  destruct (from_chars_float16_range_error_partial c u o s s0 neg ip fp e rest G SA N EB) as (b & x & E & NB & OR & SI).
  exists b, x. split; [exact E|]. split; [exact NB|]. split; [intros b' NB'; eapply nearest_float16_unique; eassumption|].
  cbv zeta. fold v in OR, SI |- *.
  assert (NI : x <> InvalidArgument).
  { intros ->. destruct (from_chars_invalid_only c u F16 o s s0 _ G SA E eq_refl) as (NN & _). exact (NN _ _ _ _ _ N). }
  assert (A : x = OutOfRange <-> (((0 < v)%Q /\ b = 0) \/ b = infinity binary16) /\ ~ silent_float16_overflow c ip fp e).
  { split.
    - intros X. assert (NS : ~ silent_float16_overflow c ip fp e) by (intros S1; apply SI in S1; congruence).
      split; [apply (OR NS); exact X|exact NS].
    - intros (L & NS). apply (OR NS). exact L. }
  split; [exact A|]. rewrite <- A. destruct x; [|congruence|]; split; intros; try congruence; reflexivity.
Qed.
Print Assumptions from_chars_float16_exact.

(** ** C77: std::float32_t and std::float64_t *)

(** The destination is written whatever happens: with the number, with the infinity or NaN,
    or with +0. *)
Theorem from_chars_fixed_width_exact :
  forall (c : cfg) (u : uc) (t : ftype) (fmt : Z) (s s0 : list Z),
  let o := {| o_format := fmt; o_decimal_point := 46; o_base := 10 |} in
  t = F32 \/ t = F64 -> good_text c u o s -> starts_at c o s s0 ->
  (forall neg ip fp e rest, number (rules_of c o) s0 neg ip fp e rest -> exponent_bounded s e ->
     exists b x,
       from_chars_fixed_width c u t s fmt =
         Ok {| r_ptr := rest; r_ec := x; r_value := Some (with_sign (format_of t) neg b) |} /\
       nearest_even (format_of t) (number_value ip fp e) b /\
       (x = OutOfRange <-> ((0 < number_value ip fp e)%Q /\ b = 0) \/ b = infinity (format_of t)) /\
       (x <> OutOfRange -> x = Success)) /\
  (forall neg k rest, allows_special o = true -> special (leading_plus (rules_of c o)) s0 neg k rest ->
     exists b,
       from_chars_fixed_width c u t s fmt =
         Ok {| r_ptr := rest; r_ec := Success; r_value := Some (with_sign (format_of t) neg b) |} /\
       is_special (format_of t) k b) /\
  ((forall neg ip fp e rest, ~ number (rules_of c o) s0 neg ip fp e rest) ->
   (allows_special o = true -> forall neg k rest, ~ special (leading_plus (rules_of c o)) s0 neg k rest) ->
   from_chars_fixed_width c u t s fmt = Ok {| r_ptr := s0; r_ec := InvalidArgument; r_value := Some 0 |}).
Proof.
  intros c u t fmt s s0 o TT G SA. unfold from_chars_fixed_width, from_chars_float. fold o. split; [|split].
  - intros neg ip fp e rest N EB.
    destruct (from_chars_range_error c u t o s s0 neg ip fp e rest ltac:(destruct TT; subst; discriminate) G SA N EB) as (b & x & E & R).
    exists b, x. rewrite E. split; [reflexivity|exact R].
  - intros neg k rest AS SP. destruct (from_chars_special c u t o s s0 rest neg k G SA AS SP) as (b & E & R).
    exists b. rewrite E. split; [reflexivity|exact R].
  - intros NN NS. rewrite (from_chars_invalid c u t o s s0 G SA NN NS). reflexivity.
Qed.
Print Assumptions from_chars_fixed_width_exact.

(** ** C78: integer_times_pow10 *)

(** The magnitude the library computes for [x]: ties to even but for the subnormal ties of
    std::float16_t, which go up. *)
Definition product_rounded (t : ftype) (x : Q) (b : Z) : Prop :=
  nearest (format_of t) x b /\
  (forall b', t = F16 -> subnormal_tie binary16 x b' -> b = b') /\
  (t <> F16 \/ (forall b', ~ subnormal_tie binary16 x b') -> nearest_even (format_of t) x b).

(** Every 64-bit argument, signed or unsigned, every exponent, every type: defined except for
    the smallest signed number. *)
Theorem integer_times_pow10_exact :
  forall (c : cfg) (t : ftype) (is_signed : bool) (m e : Z),
  (if is_signed then - 2 ^ 63 <= m < 2 ^ 63 else 0 <= m < 2 ^ 64) ->
  (integer_times_pow10_any c t is_signed m e = UB <-> is_signed = true /\ m = - 2 ^ 63) /\
  (~ (is_signed = true /\ m = - 2 ^ 63) ->
   exists b, integer_times_pow10_any c t is_signed m e = Ok (with_sign (format_of t) (m <? 0) b) /\
     product_rounded t (decimal (Z.abs m) e) b).
Proof.
  intros c t sg m e R.
  assert (D : ~ (sg = true /\ m = - 2 ^ 63) ->
     exists b, integer_times_pow10_any c t sg m e = Ok (with_sign (format_of t) (m <? 0) b) /\
       product_rounded t (decimal (Z.abs m) e) b).
  { intros NM. assert (R' : if sg then - 2 ^ 63 < m < 2 ^ 63 else 0 <= m < 2 ^ 64).
    { destruct sg; [|exact R]. destruct (Z.eq_dec m (- 2 ^ 63)) as [->|NE]; [destruct NM; auto|lia]. }
    assert (TT : t <> F16 \/ t = F16) by (destruct t; [left|left|right|left]; congruence). destruct TT as [NF| ->].
    - destruct (integer_times_pow10_other_types c t sg m e NF R') as (b & E & NE). exists b. split; [exact E|].
      unfold product_rounded. split; [apply nearest_even_nearest; exact NE|]. split; [intros; congruence|intros _; exact NE].
    - assert (E : exists b, integer_times_pow10_u c F16 (Z.abs m) e = Ok b /\
         integer_times_pow10_any c F16 sg m e = Ok (with_sign binary16 (m <? 0) b)).
      { destruct sg.
        - destruct (integer_times_pow10_odd c F16 m e R') as (b & E1 & _ & E2). exists b. split; [exact E1|].
          unfold integer_times_pow10_any. rewrite to_signed_small by lia. exact E2.
        - destruct (integer_times_pow10_float16_exact c m e R') as (b & E1 & _). exists b.
          rewrite Z.abs_eq by lia. split; [exact E1|]. replace (m <? 0) with false by (symmetry; apply Z.ltb_ge; lia).
          unfold integer_times_pow10_any, with_sign. rewrite u64_small by exact R'. rewrite E1, Z.add_0_r. reflexivity. }
      destruct E as (b & E1 & E2). exists b. split; [exact E2|].
      destruct (integer_times_pow10_float16_exact c (Z.abs m) e) as (b' & E1' & NB & T & NT); [destruct sg; lia|].
      assert (b' = b) by congruence. subst b'. unfold product_rounded. split; [exact NB|]. split; [intros k _; apply T|].
      intros [F|NO]; [congruence|]. exact (NT NO). }
  split; [|exact D]. split.
  - intros U. destruct sg.
    + destruct (Z.eq_dec m (- 2 ^ 63)) as [->|NE]; [auto|]. destruct D as (b & E & _); [tauto|]. congruence.
    + destruct D as (b & E & _); [intros (A & _); discriminate|]. congruence.
  - intros (-> & ->). reflexivity.
Qed.
Print Assumptions integer_times_pow10_exact.

(** ** C79: white space *)

(** Only a signed 32-bit wchar_t has such negative code units. *)
Theorem taken_for_space_types :
  forall (u : uc) (ch : Z), code_unit u ch -> u <> Wchar_s32 -> taken_for_space ch = space ch.
Proof.
  intros u ch C N. unfold taken_for_space. destruct (Z.ltb_spec ch 0) as [L|L]; [|apply orb_false_r].
  assert (W : ws_ok ch) by (apply (ws_ok_type u); [split; [exact C|congruence]|exact N]).
  rewrite (W L). apply orb_false_r.
Qed.
Print Assumptions taken_for_space_types.

Lemma is_space_taken ch : is_space ch = Ok (taken_for_space ch).
Proof.
  unfold taken_for_space. destruct (Z.ltb_spec ch 0) as [L|L].
  - assert (NEG : space ch = false) by (destruct (space ch) eqn:E; [apply space_cases in E; lia|reflexivity]).
    cbn [andb]. rewrite NEG. unfold is_space. replace (ch <? 256) with true by (symmetry; apply Z.ltb_lt; lia).
    change (u8 ch) with (ch mod 256). rewrite space_lut_spec by (apply Z.mod_pos_bound; lia). cbn [bind orb].
    destruct (space (ch mod 256)); reflexivity.
  - cbn [andb]. rewrite orb_false_r. apply is_space_spec. intros L'. lia.
Qed.

Lemma skip_ws_taken ws s0 : Forall (fun ch => taken_for_space ch = true) ws ->
  not_at (fun ch => taken_for_space ch = true) s0 -> skip_ws (ws ++ s0) = Ok s0.
Proof.
  induction 1 as [|ch ws H F IH]; intros N; cbn [app skip_ws].
  - destruct s0 as [|ch s0]; [reflexivity|]. cbn [skip_ws]. rewrite is_space_taken. cbn [bind]. cbn in N.
    destruct (taken_for_space ch); [destruct N; reflexivity|reflexivity].
  - rewrite is_space_taken, H. cbn [bind]. apply IH. exact N.
Qed.

(** The options without skip_white_space. *)
Definition without_skipping (o : options) : options :=
  {| o_format := Z.clearbit (o_format o) 8; o_decimal_point := o_decimal_point o; o_base := o_base o |}.

Lemma without_skipping_bits o k : 0 <= k -> Z.testbit (o_format (without_skipping o)) k = Z.testbit (o_format o) k && negb (k =? 8).
Proof.
  intros K. unfold without_skipping. cbn [o_format]. rewrite Z.clearbit_spec'. rewrite Z.ldiff_spec. f_equal.
  rewrite Z.pow2_bits_eqb by lia. rewrite Z.eqb_sym. reflexivity.
Qed.

(** With skip_white_space, the parse is that of the text behind the longest run of such code
    units without the flag: for every text, of whatever code units, and every type. *)
Theorem from_chars_skips_exactly :
  forall (c : cfg) (u : uc) (o : options) (ws s0 : list Z),
  macro_skip_ws c = false -> Z.testbit (o_format o) 8 = true ->
  Forall (fun ch => taken_for_space ch = true) ws -> not_at (fun ch => taken_for_space ch = true) s0 ->
  (forall t, from_chars_float_advanced c u t (ws ++ s0) o = from_chars_float_advanced c u t s0 (without_skipping o)) /\
  (forall T, from_chars_int_advanced c u T (ws ++ s0) o = from_chars_int_advanced c u T s0 (without_skipping o)).
Proof.
  intros c u o ws s0 MS B8 W NA. set (o' := without_skipping o).
  assert (FM : forall k, k = 0 \/ k = 2 \/ k = 4 \/ k = 5 \/ k = 6 \/ k = 7 -> Z.testbit (o_format o') k = Z.testbit (o_format o) k).
  { intros k K. unfold o'. rewrite without_skipping_bits by lia. replace (k =? 8) with false by (symmetry; apply Z.eqb_neq; lia). apply andb_true_r. }
  assert (F8 : Z.testbit (o_format o') 8 = false) by (unfold o'; rewrite without_skipping_bits by lia; apply andb_false_r).
  assert (PN : forall bjf s store, parse_number_string c u bjf s o' store = parse_number_string c u bjf s o store).
  { intros. apply parse_options; [reflexivity|]. intros k K. apply FM. tauto. }
  destruct (flag_adjust c o) as (P1 & J1 & S1 & F1 & O1 & W1 & N1).
  destruct (flag_adjust c o') as (P2 & J2 & S2 & F2 & O2 & W2 & N2).
  unfold skips_space, allows_special in *.
  cbv zeta in *. cbn [rules_of leading_plus scientific fixed fortran json] in *.
  rewrite F8, MS in W2. rewrite B8 in W1. cbn [orb] in W1, W2. rewrite !FM in * by tauto.
  split; intros t.
  - unfold from_chars_float_advanced, parse_number_slow_path. cbv zeta. rewrite W1, W2, J1, J2, N1, N2.
    rewrite (skip_ws_taken ws s0 W NA). cbn [bind]. destruct s0 as [|ch p]; [reflexivity|]. rewrite PN. apply bind_ext. intros pns.
    rewrite PN. unfold parse_infnan. rewrite P1, P2. reflexivity.
  - unfold from_chars_int_advanced, parse_int_string. cbv zeta. rewrite W1, W2, P1, P2.
    rewrite (skip_ws_taken ws s0 W NA). cbn [bind]. reflexivity.
Qed.
Print Assumptions from_chars_skips_exactly.

(** Every text has such a run. *)
Theorem taken_for_space_run :
  forall s : list Z, exists ws s0, s = ws ++ s0 /\ Forall (fun ch => taken_for_space ch = true) ws /\
    not_at (fun ch => taken_for_space ch = true) s0.
Proof.
  induction s as [|ch s (ws & s0 & -> & W & N)]; [exists [], []; repeat split; constructor|].
  destruct (taken_for_space ch) eqn:E.
  - exists (ch :: ws), s0. repeat split; [constructor; assumption|exact N].
  - exists [], (ch :: ws ++ s0). repeat split; [constructor|]. cbn. congruence.
Qed.
Print Assumptions taken_for_space_run.

(** ** C80: 128-bit integers *)

(** Every digit string: values from 0 to 2^64 - 1 are right; the others are reported as out of
    range, or come out reduced modulo 2^64 if the overflow is [unnoticed] (SpecInt). *)
Theorem from_chars_int128_exact :
  forall (c : cfg) (u : uc) (T : ity) (o : options) (s s0 : list Z) (neg : bool) (ds rest : list Z),
  T = int128_type \/ T = uint128_type -> good_int_text c u o s -> starts_at c o s s0 -> 2 <= o_base o <= 36 ->
  int_text (i_signed T) (leading_plus (rules_of c o)) (o_base o) s0 neg ds rest -> ds <> [] ->
  let v := int_value (o_base o) neg ds in
  (0 <= v < 2 ^ 64 ->
     from_chars_int_advanced c u T s o = Ok {| r_ptr := rest; r_ec := Success; r_value := Some v |}) /\
  (v < 0 -> from_chars_int_advanced c u T s o = Ok {| r_ptr := rest; r_ec := OutOfRange; r_value := None |}) /\
  (2 ^ 64 <= v -> unnoticed (o_base o) (2 ^ 64 - 1) v ->
     from_chars_int_advanced c u T s o = Ok {| r_ptr := rest; r_ec := Success; r_value := Some (v mod 2 ^ 64) |}) /\
  (2 ^ 64 <= v -> ~ unnoticed (o_base o) (2 ^ 64 - 1) v ->
     from_chars_int_advanced c u T s o = Ok {| r_ptr := rest; r_ec := OutOfRange; r_value := None |}).
Proof.
  intros c u T o s s0 neg ds rest TT G SA B TX NE v.
  pose proof (fun H => from_chars_int128_refuted c u T o s s0 neg ds rest TT G SA B TX NE H) as RF. cbv zeta in RF. fold v in RF.
  split; [|split; [|split]].
  - intros HV. destruct neg; [|apply (from_chars_int128_partial c u T o s s0 ds rest TT G SA B TX NE); apply HV].
    pose proof (base_value_range (o_base o) ds ltac:(lia) (int_text_digits _ _ _ _ _ _ _ TX)) as (V0 & _).
    unfold v, int_value in *; clear v RF. assert (BV : base_value (o_base o) ds = 0) by lia. rewrite BV. change (- 0) with 0. clear HV V0.
    destruct TX as (s1 & SG & R). inversion SG as [s' HS| |]; subst.
    assert (T = int128_type) by (destruct TT as [->| ->]; [reflexivity|discriminate HS]). subst T.
    destruct (skip_space_int c u o s _ G SA) as (E & C0).
    unfold from_chars_int_advanced. cbv zeta. rewrite E. cbn [bind].
    assert (BT : (o_base o <? 2) || (36 <? o_base o) = false) by (apply orb_false_iff; split; apply Z.ltb_ge; lia).
    rewrite BT. unfold parse_int_string. cbn [deref bind tl]. cbv zeta. change (45 =? 45) with true.
    cbn [int128_type i_signed i_is_u8 i_is_u16 negb andb orb bind]. fold int128_type.
    inversion C0 as [|? ? _ C1]; subst.
    destruct (skip_zeros_spec s1) as (z & Z0 & ES & NZ). set (p := int_skip_zeros s1) in *. clearbody p.
    pose proof (zeros_digits (o_base o) z ltac:(lia) Z0) as ZD.
    assert (HZ : ds = [] \/ z = [] \/ (remaining p <? remaining s1) = true).
    { right. destruct z as [|x z]; [left; reflexivity|right]. apply Z.ltb_lt. rewrite ES. unfold remaining. cbn [app length]. rewrite app_length. lia. }
    set (hz := remaining p <? remaining s1) in *. clearbody hz.
    rewrite ES in R, C1. destruct (base_run_split _ z p ds rest ZD R) as (ds' & -> & R').
    rewrite (zeros_value _ z ds' Z0) in *.
    assert (CP : Forall (code_unit u) p) by (apply Forall_app in C1; apply C1).
    assert (NZ' : no_leading_zero ds').
    { destruct ds' as [|x ds']; [exact I|]. destruct R' as (E' & _). rewrite E' in NZ. exact NZ. }
    rewrite (general_128_neg c u (o_base o) hz _ p ds' rest B CP R' NZ').
    destruct ds' as [|x ds'].
    + destruct HZ as [H|[H| ->]]; [congruence|subst z; cbn in NE; congruence|reflexivity].
    + exfalso. destruct R' as (_ & D' & _). inversion D' as [|? ? D1 D2]; subst.
      pose proof (base_value_lower (o_base o) x ds' ltac:(lia) D1 NZ' D2) as VL.
      pose proof (Z.pow_pos_nonneg (o_base o) (Z.of_nat (length ds')) ltac:(lia) ltac:(lia)) as VP. lia.
  - intros HV. destruct (RF (or_introl HV)) as [(_ & E)|(_ & L & _)]; [exact E|lia].
  - intros HV U. destruct (RF (or_intror HV)) as [(NU & _)|(_ & _ & E)]; [contradiction|exact E].
  - intros HV U. destruct (RF (or_intror HV)) as [(_ & E)|(NU & _)]; [exact E|contradiction].
Qed.
Print Assumptions from_chars_int128_exact.


(** ** C81: what depends on the build and on the state of the thread *)

(** Numbers a 16-bit operation may convert: significand at most 2048, exponent 0 to 4. *)
Definition one_operation (ip fp : list Z) (e : Z) : Prop :=
  digits_value (ip ++ fp) <= 2048 /\ 0 <= e - Z.of_nat (length fp) <= 4.

Lemma direct_decided c : direct_arithmetic c \/ ~ direct_arithmetic c.
Proof.
  unfold direct_arithmetic. destruct (in_constexpr c); [right; intros (A & _); discriminate A|].
  destruct (rmode c); [|right; intros (_ & A & _); discriminate A ..].
  destruct (eval c); [left; auto|left; auto| |]; right; intros (_ & _ & [A|A]); discriminate A.
Qed.

Lemma silent_one_operation c ip fp e :
  silent_float16_overflow c ip fp e <-> direct_arithmetic c /\ one_operation ip fp e.
Proof. unfold silent_float16_overflow, direct_arithmetic, one_operation. tauto. Qed.

Lemma whole_does_not_vanish W q : 0 <= q -> (0 < decimal W q)%Q -> (decimal W q < half_smallest F16)%Q -> False.
Proof.
  intros Q P V. unfold decimal in *. change (10)%Q with (inject_Z 10) in *. rewrite <- Zpower_Qpower in P, V by lia.
  rewrite <- inject_Z_mult in P, V. change 0%Q with (inject_Z 0) in P. rewrite <- Zlt_Qlt in P.
  assert (L : (1 <= inject_Z (W * 10 ^ q))%Q) by (change 1%Q with (inject_Z 1); rewrite <- Zle_Qle; lia).
  apply (Qlt_irrefl 1). eapply Qle_lt_trans; [exact L|]. eapply Qlt_trans; [exact V|]. reflexivity.
Qed.

Lemma code_choice (x : ec) (L S0 : Prop) : L \/ ~ L -> S0 \/ ~ S0 -> (x = OutOfRange <-> L /\ ~ S0) -> (x = Success <-> ~ (L /\ ~ S0)) ->
  (x = OutOfRange /\ L /\ ~ S0) \/ (x = Success /\ (~ L \/ S0)).
Proof. intros DL DS O K. tauto. Qed.

Lemma codes_differ (x1 x2 : ec) (I0 V A B Op : Prop) :
  (I0 \/ ~ I0) -> (V \/ ~ V) -> (A \/ ~ A) -> (B \/ ~ B) -> (Op \/ ~ Op) -> (Op -> V -> False) ->
  (x1 = OutOfRange /\ (V \/ I0) /\ ~ (A /\ Op)) \/ (x1 = Success /\ (~ (V \/ I0) \/ (A /\ Op))) ->
  (x2 = OutOfRange /\ (V \/ I0) /\ ~ (B /\ Op)) \/ (x2 = Success /\ (~ (V \/ I0) \/ (B /\ Op))) ->
  (x1 <> x2 <-> (A /\ ~ B \/ ~ A /\ B) /\ Op /\ I0) /\ (x1 <> x2 -> A -> x1 = Success /\ x2 = OutOfRange).
Proof.
  intros DI DV DA DB DO NV H1 H2.
  destruct H1 as [(-> & L1 & N1)|(-> & H1)], H2 as [(-> & L2 & N2)|(-> & H2)].
  - split; [split; [congruence|tauto]|congruence].
  - split; [split; [intros _; tauto|intros _; discriminate]|intros _ HA; exfalso; tauto].
  - split; [split; [intros _; tauto|intros _; discriminate]|intros _ HA; auto].
  - split; [split; [congruence|tauto]|congruence].
Qed.

(** Two builds, or the same build in threads with other rounding directions, at compile time
    or at run time, agree in everything but one thing: the code for numbers from 65520 on
    that one of them converts to std::float16_t with a single operation, and the other not.
    The one with the single operation reports success. *)
Theorem from_chars_build_difference :
  forall (c1 c2 : cfg) (u : uc) (t : ftype) (o : options) (s s0 : list Z),
  macro_leading_plus c1 = macro_leading_plus c2 -> macro_skip_ws c1 = macro_skip_ws c2 ->
  good_text c1 u o s -> starts_at c1 o s s0 -> Z.of_nat (length s) < 268000000 ->
  exists r1 r2,
    from_chars_float_advanced c1 u t s o = Ok r1 /\ from_chars_float_advanced c2 u t s o = Ok r2 /\
    r_ptr r1 = r_ptr r2 /\ r_value r1 = r_value r2 /\
    (r_ec r1 <> r_ec r2 <->
       t = F16 /\
       (direct_arithmetic c1 /\ ~ direct_arithmetic c2 \/ ~ direct_arithmetic c1 /\ direct_arithmetic c2) /\
       exists neg ip fp e rest, number (rules_of c1 o) s0 neg ip fp e rest /\ one_operation ip fp e /\
         (65520 <= number_value ip fp e)%Q) /\
    (r_ec r1 <> r_ec r2 -> direct_arithmetic c1 -> r_ec r1 = Success /\ r_ec r2 = OutOfRange).
Proof.
  intros c1 c2 u t o s s0 M1 M2 G1 S1 LEN.
  assert (SK : skips_space c1 o = skips_space c2 o) by (unfold skips_space; rewrite M2; reflexivity).
  assert (G2 : good_text c2 u o s) by (unfold good_text in *; rewrite <- SK; exact G1).
  assert (S2 : starts_at c2 o s s0) by (unfold starts_at in *; rewrite <- SK; exact S1).
  assert (ER : rules_of c1 o = rules_of c2 o) by (unfold rules_of; rewrite M1; reflexivity).
  assert (DF : t <> F16 \/ t = F16) by (destruct t; [left|left|right|left]; congruence). destruct DF as [NT| ->].
  { destruct (from_chars_config_independent c1 c2 u t o s NT M1 M2 G1) as (r & E1 & E2). exists r, r.
    split; [exact E1|]. split; [exact E2|]. split; [reflexivity|]. split; [reflexivity|]. split; [|intros D; destruct (D eq_refl)].
    split; [intros D; destruct (D eq_refl)|intros (F & _); contradiction]. }
  destruct (number_or_not c1 u o s s0 G1 S1) as [(neg & ip & fp & e & rest & N1)|NN].
  - assert (EB : exponent_bounded s e) by (left; exact LEN).
    pose proof N1 as N2. rewrite ER in N2.
    destruct (from_chars_float16_exact c1 u o s s0 neg ip fp e rest G1 S1 N1 EB) as (b & x1 & E1 & NB & U & O1 & K1).
    destruct (from_chars_float16_exact c2 u o s s0 neg ip fp e rest G2 S2 N2 EB) as (b2 & x2 & E2 & NB2 & _ & O2 & K2).
    pose proof (U b2 NB2) as ->. cbv zeta in O1, K1, O2, K2. clear U NB2.
    destruct (from_chars_thresholds c1 u F16 o s s0 neg ip fp e rest G1 S1 N1 EB) as (b' & x' & E' & _ & TI & TV & _).
    rewrite E1 in E'. injection E' as _ WB. assert (b' = b) by (unfold with_sign in WB; lia). subst b'. clear WB.
    eexists. eexists. split; [exact E1|]. split; [exact E2|]. cbn [r_ptr r_ec r_value].
    split; [reflexivity|]. split; [reflexivity|].
    rewrite !silent_one_operation in O1, K1, O2, K2. change (format_of F16) with binary16 in TI, TV.
    (* a vanishing number is not converted by one operation *)
    assert (NV : one_operation ip fp e -> (0 < number_value ip fp e)%Q -> b = 0 -> False).
    { intros (W & Q) P B0. apply TV in B0. exact (whole_does_not_vanish _ _ (proj1 Q) P B0). }
    set (v := number_value ip fp e) in *. change (65520)%Q with (infinite_from F16).
    assert (ID : infinity binary16 <> 0) by discriminate.
    assert (LD : (b = infinity binary16 \/ b <> infinity binary16) /\ (((0 < v)%Q /\ b = 0) \/ ~ ((0 < v)%Q /\ b = 0))).
    { split; [destruct (Z.eq_dec b (infinity binary16)); auto|]. destruct (Qlt_le_dec 0 v) as [P|P]; [|right; intros (P' & _); exact (Qlt_not_le _ _ P' P)].
      destruct (Z.eq_dec b 0); [left; auto|right; intros (_ & Q); auto]. }
    assert (OD : one_operation ip fp e \/ ~ one_operation ip fp e) by (clear; unfold one_operation; lia).
    assert (F : (exists neg' ip' fp' e' rest', number (rules_of c1 o) s0 neg' ip' fp' e' rest' /\ one_operation ip' fp' e' /\
        (infinite_from F16 <= number_value ip' fp' e')%Q) <-> one_operation ip fp e /\ b = infinity binary16).
    { split; [|intros (A & B); exists neg, ip, fp, e, rest; split; [exact N1|split; [exact A|apply TI; exact B]]].
      intros (n' & i' & f' & e' & q' & N' & A & B).
      destruct (number_unique _ _ _ _ _ _ _ _ _ _ _ _ N1 N') as (<- & <- & <- & <- & <-). split; [exact A|apply TI; exact B]. }
    rewrite F. clear F TI TV NB E1 E2 N1 N2 G1 G2 S1 S2.
    pose proof (direct_decided c1) as D1. pose proof (direct_decided c2) as D2.
    assert (SD : forall c, direct_arithmetic c \/ ~ direct_arithmetic c ->
      (direct_arithmetic c /\ one_operation ip fp e) \/ ~ (direct_arithmetic c /\ one_operation ip fp e)) by (clear - OD; tauto).
    destruct LD as (LI & LV).
    assert (LL : ((0 < v)%Q /\ b = 0 \/ b = infinity binary16) \/ ~ ((0 < v)%Q /\ b = 0 \/ b = infinity binary16)) by (clear - LI LV; tauto).
    pose proof (code_choice x1 _ _ LL (SD c1 D1) O1 K1) as H1. pose proof (code_choice x2 _ _ LL (SD c2 D2) O2 K2) as H2.
    assert (NV' : one_operation ip fp e -> (0 < v)%Q /\ b = 0 -> False) by (intros A (P & B); exact (NV A P B)).
    destruct (codes_differ x1 x2 _ _ _ _ _ LI LV D1 D2 OD NV' H1 H2) as (C1 & C2).
    split; [|exact C2]. rewrite C1. clear. tauto.
  - pose proof NN as NN2. rewrite ER in NN2.
    assert (EQ : exists r, from_chars_float_advanced c1 u F16 s o = Ok r /\ from_chars_float_advanced c2 u F16 s o = Ok r).
    { destruct (other_main c1 u F16 o s s0 G1 S1 NN) as [(A1 & E1)|[(A1 & NS1 & E1)|(n1 & k1 & q1 & A1 & SP1 & E1)]];
      destruct (other_main c2 u F16 o s s0 G2 S2 NN2) as [(A2 & E2)|[(A2 & NS2 & E2)|(n2 & k2 & q2 & A2 & SP2 & E2)]];
        try congruence; try (eexists; split; [exact E1|exact E2]).
      - exfalso. rewrite ER in NS1. exact (NS1 _ _ _ SP2).
      - exfalso. rewrite ER in SP1. exact (NS2 _ _ _ SP1).
      - rewrite ER in SP1. destruct (special_unique _ _ _ _ _ _ _ _ SP1 SP2) as (<- & <- & <-). eexists; split; [exact E1|exact E2]. }
    destruct EQ as (r & E1 & E2). exists r, r. split; [exact E1|]. split; [exact E2|]. split; [reflexivity|]. split; [reflexivity|].
    split; [|intros D; destruct (D eq_refl)].
    split; [intros D; destruct (D eq_refl)|intros (_ & _ & neg & ip & fp & e & rest & N & _); destruct (NN _ _ _ _ _ N)].
Qed.
Print Assumptions from_chars_build_difference.

(** ** The hypotheses are met *)

(** C76: "7e4" at run time (silent) and at compile time (reported). *)
Example float16_exact_example :
  good_text cfg_x86_64 Char_s general text_7e4 /\ starts_at cfg_x86_64 general text_7e4 text_7e4 /\
  number (rules_of cfg_x86_64 general) text_7e4 false [55] [] 4 [] /\ exponent_bounded text_7e4 4 /\
  silent_float16_overflow cfg_x86_64 [55] [] 4 /\ ~ silent_float16_overflow (at_compile_time cfg_x86_64) [55] [] 4.
Proof.
  split; [exact good_7e4|]. split; [reflexivity|]. split; [exact number_7e4|]. split; [right; reflexivity|]. split.
  - unfold silent_float16_overflow. split; [reflexivity|]. split; [reflexivity|]. split; [left; reflexivity|].
    split; [vm_compute; discriminate|]. cbn. lia.
  - intros (A & _). discriminate A.
Qed.

(** C79: wchar_t 0xffffff20, then "1"; and the same in front of an inner one. *)
Example skips_exactly_example :
  let o := {| o_format := 5 + 256; o_decimal_point := 46; o_base := 10 |} in
  Z.testbit (o_format o) 8 = true /\ Forall (fun ch => taken_for_space ch = true) [32; -224; 9] /\
  not_at (fun ch => taken_for_space ch = true) [49; -224] /\
  from_chars_float_advanced cfg_x86_64 Wchar_s32 F64 ([32; -224; 9] ++ [49; -224]) o =
    Ok {| r_ptr := [-224]; r_ec := Success; r_value := Some 4607182418800017408 |}.
Proof. cbv zeta. split; [reflexivity|]. split; [repeat constructor|]. split; [cbn; discriminate|]. vm_compute. reflexivity. Qed.

(** C77 and C78: a refused text, the smallest signed number and its neighbour. *)
Example fixed_width_and_product_examples :
  from_chars_fixed_width cfg_x86_64 Char_s F64 [120] 5 = Ok {| r_ptr := [120]; r_ec := InvalidArgument; r_value := Some 0 |} /\
  from_chars_fixed_width cfg_x86_64 Char_s F32 [49; 46; 53] 5 = Ok {| r_ptr := []; r_ec := Success; r_value := Some 0x3fc00000 |} /\
  integer_times_pow10_any cfg_x86_64 F64 true (- 2 ^ 63) 0 = UB /\
  integer_times_pow10_any cfg_x86_64 F64 true (- 2 ^ 63 + 1) 0 = Ok 0xc3e0000000000000 /\
  integer_times_pow10_any cfg_x86_64 F64 false (2 ^ 63) 0 = Ok 0x43e0000000000000.
Proof. vm_compute. repeat split; reflexivity. Qed.
