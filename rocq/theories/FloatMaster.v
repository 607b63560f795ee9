(** The floating-point entry point, end to end. *)
From Verif Require Import Machine Config Chars Format ParseNumber DecToBin DigitComp FromChars WordLemmas
  EiselTable Rounding ComputeFloat SpecFloat FloatBridge FpArith Clinger SpecGrammar SpecApi Scan ParseSpec Special
  SlowPath ManyDigits Saturate.
From Coq Require Import QArith Lqa.
Open Scope Z_scope.

Definition range_code (t : ftype) (W b : Z) : ec :=
  if ((0 <? W) && (b =? 0)) || (b =? inf_code t) then OutOfRange else Success.

Lemma range_ec_spec t m am : am_ok t am -> 0 <= m -> range_ec t m am = range_code t m (am_code t am).
Proof.
  intros H Hm. unfold range_ec, range_code.
  pose proof (mb_range t) as Hmb. pose proof (pow2_pos (mant_bits t) ltac:(lia)) as P.
  assert (E0 : (am_mantissa am =? 0) && (am_power2 am =? 0) = (am_code t am =? 0)).
  { destruct am as [m' p']; cbn [am_mantissa am_power2]. destruct H as [(H1 & H2 & H3)|(H1 & H2)]; cbn [am_mantissa am_power2] in *.
    - rewrite am_code_norm by lia. destruct (Z.eqb_spec m' 0), (Z.eqb_spec p' 0), (Z.eqb_spec (p' * 2 ^ mant_bits t + m') 0);
        try reflexivity; exfalso; nia.
    - subst. rewrite am_code_top. destruct (Z.eqb_spec (2 ^ mant_bits t) 0); [lia|reflexivity]. }
  assert (EI : (am_power2 am =? inf_power t) = (am_code t am =? inf_code t)).
  { destruct (Z.eqb_spec (am_code t am) (inf_code t)) as [E|N].
    - rewrite (am_code_inf t am H E). cbn [am_power2]. apply Z.eqb_refl.
    - apply Z.eqb_neq. intros E. apply N. destruct H as [(H1 & H2 & H3)|(H1 & H2)].
      + destruct am as [m' p']; cbn [am_mantissa am_power2] in *. rewrite am_code_norm by lia. rewrite (H3 E), E. unfold inf_code. lia.
      + exfalso. rewrite E in H2. destruct t; discriminate H2. }
  rewrite EI, <- andb_assoc, E0. replace (negb (m =? 0)) with (0 <? m); [reflexivity|].
  destruct (Z.ltb_spec 0 m), (Z.eqb_spec m 0); try reflexivity; lia.
Qed.

(** Where binary16 overflow goes unreported: the floating-point fast path. *)
Definition quiet (c : cfg) (t : ftype) (W q : Z) : Prop :=
  t = F16 /\ in_constexpr c = false /\ rmode c = ToNearest /\ (eval c = Eval0 \/ eval c = Eval1) /\ W <= 2048 /\ 0 <= q <= 4.

Lemma quiet_dec c t W q : quiet c t W q \/ ~ quiet c t W q.
Proof.
  unfold quiet. destruct t; try (right; intros (H & _); discriminate H).
  destruct (in_constexpr c); [right; intros (_ & H & _); discriminate H|].
  destruct (rmode c); try (right; intros (_ & _ & H & _); discriminate H).
  destruct (eval c); try (right; intros (_ & _ & _ & [H|H] & _); discriminate H);
    (destruct (Z_le_gt_dec W 2048); [|right; lia]; destruct (Z_le_gt_dec 0 q); [|right; lia];
     destruct (Z_le_gt_dec q 4); [|right; lia]; left; repeat split; try assumption; auto).
Qed.

Lemma ftype_F16_dec t : t = F16 \/ t <> F16.
Proof. destruct t; (left; reflexivity) || (right; discriminate). Qed.

(** What the fast path says about range. *)
Lemma clinger_range_code c t m e neg b : 0 <= m ->
  clinger_fast_path_impl c t m e neg = Ok (Some (with_sign (format_of t) neg b)) -> rounds t (dec m e) b ->
  range_code t m b = Success \/ quiet c t m e.
Proof.
  intros Hm EC HR. destruct (clinger_range c t m e neg _ Hm EC) as (LM & LE).
  assert (NZ : (0 <? m) && (b =? 0) = false).
  { destruct (Z.ltb_spec 0 m); [|reflexivity]. pose proof (clinger_nonzero c t m e b ltac:(lia) (proj1 LE) HR).
    cbn [andb]. apply Z.eqb_neq. lia. }
  assert (FT : b < inf_code t \/ quiet c t m e).
  { destruct (ftype_F16_dec t) as [->|NT].
    - destruct (negb (in_constexpr c) && rounds_to_nearest c) eqn:RN.
      + right. apply andb_true_iff in RN. destruct RN as [R1 R2]. apply rounds_to_nearest_spec in R2.
        apply negb_true_iff in R1. unfold quiet. unfold min_exponent_fast_path in LE. cbn in LE, LM.
        repeat split; try assumption; try apply R2; lia.
      + left. unfold clinger_fast_path_impl in EC. rewrite RN in EC.
        destruct (Z.leb_spec (min_exponent_fast_path c F16) e); [|lia].
        destruct (Z.leb_spec e (max_exponent_fast_path F16)); [|lia]. cbn [andb] in EC.
        destruct (Z.leb_spec 0 e); [|discriminate EC].
        destruct (max_mantissa_pow_spec F16 e ltac:(lia)) as (mm & EM & HMM & HMT). rewrite EM in EC. cbn [bind] in EC.
        destruct (Z.leb_spec m mm); [|discriminate EC]. clear EC EM.
        assert (M1 : m * 10 ^ e < 2 ^ 15).
        { eapply Z.le_lt_trans; [|exact HMT]. apply Z.mul_le_mono_nonneg_r; [|lia].
          apply Z.pow_nonneg; lia. }
        assert (V : (dec m e <= dec 32768 0)%Q).
        { rewrite !dec_pos by lia. apply -> q_le. change (2 ^ 15) with 32768 in M1. rewrite Z.mul_1_r. lia. }
        assert (RI : rounds F16 (dec 32768 0) 30720).
        { apply exact_rounds. split; [cbn; lia|]. Transparent qpow. vm_compute. reflexivity. Opaque qpow. }
        pose proof (rne_mono _ _ _ _ _ _ (proj1 (mb_range F16)) (units_le F16 _ _ V) HR RI).
        change (inf_code F16) with 31744. lia.
    - left. apply (clinger_finite t m e b NT ltac:(lia) (proj2 LE) HR). }
  destruct FT as [FT|FT]; [left|right; exact FT].
  unfold range_code. rewrite NZ. cbn [orb]. destruct (Z.eqb_spec b (inf_code t)); [lia|reflexivity].
Qed.

Lemma quiet_clinger c t m e neg : 0 <= m -> quiet c t m e ->
  exists b, clinger_fast_path_impl c t m e neg = Ok (Some (with_sign (format_of t) neg b)) /\ rounds t (dec m e) b.
Proof.
  intros Hm (-> & C & R & E & LM & LE).
  destruct (clinger_spec c F16 m e neg Hm) as [N|H]; [exfalso|exact H].
  assert (RN : rounds_to_nearest c = true) by (apply rounds_to_nearest_spec; split; assumption).
  unfold clinger_fast_path_impl in N. rewrite C, RN in N. cbn [negb andb] in N.
  change (max_exponent_fast_path F16) with 4 in N. change (max_mantissa_fast_path F16) with 2048 in N.
  assert (M0 : min_exponent_fast_path c F16 = 0) by (unfold min_exponent_fast_path; destruct (eval c); reflexivity).
  rewrite M0 in N.
  destruct (Z.leb_spec 0 e); [|lia]. destruct (Z.leb_spec e 4); [|lia]. destruct (Z.leb_spec m 2048); [|lia].
  destruct (Z.ltb_spec e 0); [lia|]. cbn [andb] in N.
  destruct (exact_power_of_ten_spec F16 e) as (pw & EP & _); [cbn; lia|].
  rewrite EP in N. discriminate N.
Qed.

(** The conversion of a parsed number; [ok_ec] fixes the error code. *)
Definition ok_ec (c : cfg) (t : ftype) (W q b : Z) (x : ec) : Prop :=
  (quiet c t W q -> x = Success) /\ (~ quiet c t W q -> x = range_code t W b).

(** Up to 19 digits. *)
Lemma few_digits_spec c t m q neg rest : 0 <= m < 10 ^ 19 ->
  exists b x, 
   (let* cl := clinger_fast_path_impl c t m q neg in
      match cl with
      | Some v => Ok (Some {| r_ptr := rest; r_ec := Success; r_value := Some v |})
      | None =>
        let* am := compute_float c t q m in
        if am_power2 am <? 0 then Ok None
        else
          let* v := to_float t neg am in
          Ok (Some {| r_ptr := rest; r_ec := range_ec t m am; r_value := Some v |})
      end) = Ok (Some {| r_ptr := rest; r_ec := x; r_value := Some (with_sign (format_of t) neg b) |}) /\
   near t (dec m q) b /\ ok_ec c t m q b x.
Proof.
  intros Hm.
  destruct (clinger_spec c t m q neg ltac:(lia)) as [N|(b & EC & HR)].
  - rewrite N. cbn [bind]. destruct (compute_float_exact c t q m ltac:(lia)) as (am & -> & OK & NR & _).
    cbn [bind]. pose proof (am_ok_power t am OK) as P. destruct (Z.ltb_spec (am_power2 am) 0); [lia|].
    rewrite (to_float_spec t neg am OK). cbn [bind].
    exists (am_code t am), (range_ec t m am). split; [reflexivity|].
    split; [apply cf_short; [exists m, q; split; [lia|reflexivity]|exact NR]|]. split.
    + intros QT. destruct (quiet_clinger c t m q neg ltac:(lia) QT) as (b & E & _). rewrite E in N. discriminate N.
    + intros _. apply range_ec_spec; [exact OK|lia].
  - rewrite EC. cbn [bind]. exists b, Success. split; [reflexivity|]. split; [apply near_intro; [eapply clinger_no_tie; [|exact EC]; lia|exact HR]|]. split; [reflexivity|].
    intros NQ. destruct (clinger_range_code c t m q neg b ltac:(lia) EC HR) as [E|E]; [symmetry; exact E|contradiction].
Qed.

Lemma many_digits_eq c u t pns : pn_too_many_digits pns = true ->
  from_chars_advanced_pns c u t pns =
  let* am := many_digits c u t pns in
  let* v := to_float t (pn_negative pns) am in
  Ok {| r_ptr := pn_lastmatch pns; r_ec := range_ec t (pn_mantissa pns) am; r_value := Some v |}.
Proof.
  intros H. unfold from_chars_advanced_pns, many_digits. rewrite H. cbn [negb bind andb].
  destruct (compute_float c t (pn_exponent pns) (pn_mantissa pns)) as [am|]; [cbn [bind]|reflexivity].
  destruct (if 0 <=? am_power2 am then _ else _) as [am'|]; [cbn [bind]|reflexivity].
  destruct (if am_power2 am' <? 0 then _ else _); reflexivity.
Qed.

(** The text after optional white space. *)
Definition after_space (c : cfg) (o : options) (s s0 : list Z) : Prop :=
  if skips_space c o then without_spaces s s0 else s0 = s.

(** What the theorems assume of a text: code units of the character type, for
    which white space can be recognised (if it is skipped). *)
Definition text_ok (c : cfg) (u : uc) (o : options) (s : list Z) : Prop :=
  Forall (okc u) s /\ (skips_space c o = true -> Forall ws_ok s) /\ Z.of_nat (length s) <= 2 ^ 59 /\
  digit (o_decimal_point o) = false.

Lemma after_space_run c u o s s0 : text_ok c u o s -> after_space c o s s0 ->
  (if flag (adjust_for_feature_macros c (o_format o)) f_skip_white_space then skip_ws s else Ok s) = Ok s0 /\
  Forall (okc u) s0 /\ Z.of_nat (length s0) <= Z.of_nat (length s).
Proof.
  intros (OK & WS & LEN & _) A. destruct (flag_adjust c o) as (_ & _ & _ & _ & _ & FW & _). rewrite FW.
  unfold after_space in A. destruct (skips_space c o).
  - destruct (skip_ws_spec s (WS eq_refl)) as (s' & E & W).
    rewrite (without_spaces_unique s s0 s' A W). split; [exact E|].
    destruct W as (ws & -> & _). apply Forall_app in OK. split; [apply OK|]. rewrite app_length. lia.
  - subst s0. split; [reflexivity|]. split; [exact OK|lia].
Qed.

Lemma number_nonempty R s neg ip fp e rest : number R s neg ip fp e rest -> s <> [].
Proof.
  intros (s1 & s2 & hp & s3 & A & B & C & D & _) ->. inversion A; subst.
  destruct B as (B & _ & _). symmetry in B. apply app_eq_nil in B. destruct B; subst.
  inversion C; subst. unfold mantissa_ok in D. destruct (json R); [destruct D as (D & _)|]; apply D; reflexivity.
Qed.

Lemma number_digits R s neg ip fp e rest : number R s neg ip fp e rest ->
  all_digits ip /\ all_digits fp /\ Z.of_nat (length ip) + Z.of_nat (length fp) <= Z.of_nat (length s).
Proof.
  intros (s1 & s2 & hp & s3 & A & (B1 & B2 & B3) & C & D & E). split; [exact B2|].
  assert (L1 : (length s1 <= length s)%nat) by (inversion A; subst; cbn [length]; lia).
  subst s1. rewrite app_length in L1. inversion C as [? ? ? (C1 & C2 & C3)|]; subst.
  - split; [exact C2|]. cbn [length] in L1. rewrite app_length in L1. lia.
  - split; [constructor|]. cbn [length]. lia.
Qed.

(** Where parsing starts, as the code finds it. *)
Definition started (c : cfg) (u : uc) (o : options) (s s0 : list Z) : Prop :=
  (if flag (adjust_for_feature_macros c (o_format o)) f_skip_white_space then skip_ws s else Ok s) = Ok s0 /\
  Forall (okc u) s0 /\ Z.of_nat (length s0) <= 2 ^ 59 /\ digit (o_decimal_point o) = false.

Lemma text_started c u o s s0 : text_ok c u o s -> after_space c o s s0 -> started c u o s s0.
Proof.
  intros TOK AS. destruct (after_space_run c u o s s0 TOK AS) as (ES & OK0 & LEN0).
  destruct TOK as (_ & _ & LEN & DP). split; [exact ES|]. split; [exact OK0|]. split; [lia|exact DP].
Qed.

Theorem float_number_at c u t o s s0 neg ip fp e rest :
  started c u o s s0 -> number (rules_of c o) s0 neg ip fp e rest ->
  let W := digits_value (ip ++ fp) in
  exists e' b x, clamp e e' /\
    from_chars_float_advanced c u t s o =
      Ok {| r_ptr := rest; r_ec := x; r_value := Some (with_sign (format_of t) neg b) |} /\
    near t (dec W (e' - Z.of_nat (length fp))) b /\ ok_ec c t W (e' - Z.of_nat (length fp)) b x.
Proof.
  intros (ES & OK0 & LEN0 & DP) NUM W.
  unfold from_chars_float_advanced. rewrite ES. cbn [bind].
  pose proof (number_nonempty _ _ _ _ _ _ _ NUM) as NE.
  destruct (number_digits _ _ _ _ _ _ _ NUM) as (AI & AF & LIF).
  destruct s0 as [|ch s0']; [congruence|]. set (s0 := ch :: s0') in *. clearbody s0.
  assert (FJ : flag (adjust_for_feature_macros c (o_format o)) f_basic_json = json (rules_of c o)) by apply flag_adjust.
  rewrite FJ. set (R := rules_of c o) in *.
  assert (W0 : 0 <= W).
  { unfold W. apply (digits_value_range (ip ++ fp)). apply Forall_app; split; assumption. }
  destruct (parse_number_string_spec c u o s0 false OK0 NE ltac:(lia) DP) as (pns & EP & CASE). fold R in EP, CASE.
  rewrite EP. cbn [bind].
  destruct CASE as [(neg' & ip' & fp' & e1 & rest' & NUM' & PO)|(_ & NN)]; [|destruct (NN _ _ _ _ _ NUM)].
  destruct (number_unique _ _ _ _ _ _ _ _ _ _ _ _ NUM NUM') as (<- & <- & <- & <- & <-). clear NUM'.
  destruct PO as (V & NG & LMT & _ & e' & CL & [(TM & WB & EM & EE)|(TM & WB & _)]).
  - rewrite V, TM, NG, LMT, EM, EE. fold W. cbn [negb].
    destruct (few_digits_spec c t W (e' - Z.of_nat (length fp)) neg rest ltac:(fold W in WB; lia)) as (b & x & EQ & NR & OE).
    exists e', b, x. split; [exact CL|]. split; [|split; assumption].
    destruct (clinger_fast_path_impl c t W (e' - Z.of_nat (length fp)) neg) as [[v|]|]; [| |discriminate EQ]; cbn [bind] in *.
    + injection EQ as <- <-. reflexivity.
    + destruct (compute_float c t (e' - Z.of_nat (length fp)) W) as [am|]; [|discriminate EQ]. cbn [bind] in *.
      destruct (am_power2 am <? 0); [discriminate EQ|].
      destruct (to_float t neg am); [|discriminate EQ]. cbn [bind] in *. injection EQ as <- <-. reflexivity.
  - rewrite V, TM. cbn [negb]. unfold parse_number_slow_path. clear CL pns EP V NG LMT TM e'.
    destruct (parse_number_string_spec c u o s0 true OK0 NE ltac:(lia) DP) as (pns & EP & CASE). fold R in EP, CASE.
    rewrite EP. cbn [bind].
    destruct CASE as [(neg' & ip' & fp' & e1 & rest' & NUM' & PO)|(_ & NN)]; [|destruct (NN _ _ _ _ _ NUM)].
    destruct (number_unique _ _ _ _ _ _ _ _ _ _ _ _ NUM NUM') as (<- & <- & <- & <- & <-). clear NUM'.
    destruct PO as (V & NG & LMT & ST & e' & CL & [(TM & WB2 & _)|(TM & _ & MD)]); [lia|].
    destruct (ST eq_refl) as (SI & SF). destruct (MD eq_refl) as (w & k & r & Ew & Eq & Hw & Hk & Hr & EW).
    rewrite (many_digits_eq c u t pns TM).
    destruct (many_digits_exact c u t pns ip fp w k r _ SI SF AI AF Ew Eq EW ltac:(lia) Hr Hw) as (a & EA & OA & NR).
    rewrite EA, NG, LMT, Ew. cbn [bind]. rewrite (to_float_spec t neg a OA). cbn [bind].
    exists e', (am_code t a), (range_ec t w a). split; [exact CL|]. split; [reflexivity|].
    replace (e' - Z.of_nat (length fp) + k - k) with (e' - Z.of_nat (length fp)) in NR by (clear; lia). fold W in NR, WB.
    split; [exact NR|]. clear - WB OA Hw. split.
    + intros (_ & _ & _ & _ & QW & _). exfalso. change (10 ^ 19) with 10000000000000000000 in WB. lia.
    + intros _. rewrite range_ec_spec by (assumption || lia). unfold range_code.
      change (10 ^ 19) with 10000000000000000000 in WB. change (10 ^ 18) with 1000000000000000000 in Hw.
      destruct (Z.ltb_spec 0 w); [|lia]. destruct (Z.ltb_spec 0 W); [|lia]. reflexivity.
Qed.

Theorem float_number_clamped c u t o s s0 neg ip fp e rest :
  text_ok c u o s -> after_space c o s s0 -> number (rules_of c o) s0 neg ip fp e rest ->
  let W := digits_value (ip ++ fp) in
  exists e' b x, clamp e e' /\
    from_chars_float_advanced c u t s o =
      Ok {| r_ptr := rest; r_ec := x; r_value := Some (with_sign (format_of t) neg b) |} /\
    near t (dec W (e' - Z.of_nat (length fp))) b /\ ok_ec c t W (e' - Z.of_nat (length fp)) b x.
Proof. intros TOK AS. apply float_number_at, text_started; assumption. Qed.

Theorem float_number c u t o s s0 neg ip fp e rest :
  text_ok c u o s -> after_space c o s s0 -> number (rules_of c o) s0 neg ip fp e rest ->
  Z.abs e < 2 ^ 28 \/ Z.of_nat (length s) < 268000000 ->
  let W := digits_value (ip ++ fp) in let q := e - Z.of_nat (length fp) in
  exists b x,
    from_chars_float_advanced c u t s o =
      Ok {| r_ptr := rest; r_ec := x; r_value := Some (with_sign (format_of t) neg b) |} /\
    near t (dec W q) b /\ ok_ec c t W q b x.
Proof.
  intros TOK AS NUM EB W q.
  destruct (after_space_run c u o s s0 TOK AS) as (_ & _ & LEN0).
  destruct (float_number_clamped c u t o s s0 neg ip fp e rest TOK AS NUM) as (e' & b & x & CL & E & NR & (O1 & O2)).
  fold W in NR, O1, O2. exists b, x. split; [exact E|].
  destruct (number_digits _ _ _ _ _ _ _ NUM) as (AI & AF & LIF).
  assert (W0 : 0 <= W < 10 ^ (Z.of_nat (length ip) + Z.of_nat (length fp))).
  { unfold W. pose proof (digits_value_range (ip ++ fp)) as RG. rewrite app_length, Nat2Z.inj_add in RG. apply RG.
    apply Forall_app; split; assumption. }
  split.
  - unfold q. refine (saturate t W (Z.of_nat (length ip) + Z.of_nat (length fp)) _ e e' b W0 _ CL _ NR); lia.
  - assert (QT : quiet c t W (e' - Z.of_nat (length fp)) <-> quiet c t W q).
    { destruct CL as (C & _). clear - C EB LIF LEN0. unfold q, quiet.
      split; intros (Q1 & Q2 & Q3 & Q4 & Q5 & Q6); repeat split; try assumption; lia. }
    split; intros H; [apply O1|apply O2]; tauto.
Qed.

Theorem float_no_number_at c u t o s s0 :
  started c u o s s0 -> no_number (rules_of c o) s0 ->
  let invalid := Ok {| r_ptr := s0; r_ec := InvalidArgument; r_value := None |} in
  (allows_special o = false /\ from_chars_float_advanced c u t s o = invalid) \/
  (allows_special o = true /\ no_special (leading_plus (rules_of c o)) s0 /\
     from_chars_float_advanced c u t s o = invalid) \/
  (exists neg k rest, allows_special o = true /\ special (leading_plus (rules_of c o)) s0 neg k rest /\
     from_chars_float_advanced c u t s o =
       Ok {| r_ptr := rest; r_ec := Success; r_value := Some (with_sign (format_of t) neg (special_code t k)) |}).
Proof.
  intros (ES & OK0 & LEN0 & DP) NN inv.
  unfold from_chars_float_advanced. rewrite ES. cbn [bind].
  destruct s0 as [|ch s0'].
  { destruct (allows_special o); [right; left|left]; repeat split.
    intros neg k rest H. inversion H as [? ? ? ? ? S L|? ? ? ? ? S L|? ? ? ? S L]; subst;
      inversion S; subst; inversion L. }
  assert (NE : ch :: s0' <> []) by discriminate. set (s0 := ch :: s0') in *. clearbody s0.
  destruct (flag_adjust c o) as (FP & FJ & _ & _ & _ & _ & FN). rewrite FJ, FN.
  destruct (parse_number_string_spec c u o s0 false OK0 NE ltac:(lia) DP) as (pns & EP & CASE).
  rewrite EP. cbn [bind].
  destruct CASE as [(neg & ip & fp & e & rest & NUM & _)|(V & _)]; [destruct (NN _ _ _ _ _ NUM)|].
  rewrite V. cbn [negb]. destruct (allows_special o) eqn:AL; cbn [negb]; [|left; split; reflexivity].
  right. rewrite <- FP.
  destruct (parse_infnan_spec c u t s0 (adjust_for_feature_macros c (o_format o)) OK0 NE) as [(neg & k & rest & S & E)|(S & E)].
  - right. exists neg, k, rest. repeat split; assumption.
  - left. repeat split; assumption.
Qed.

Theorem float_no_number c u t o s s0 :
  text_ok c u o s -> after_space c o s s0 -> no_number (rules_of c o) s0 ->
  let invalid := Ok {| r_ptr := s0; r_ec := InvalidArgument; r_value := None |} in
  (allows_special o = false /\ from_chars_float_advanced c u t s o = invalid) \/
  (allows_special o = true /\ no_special (leading_plus (rules_of c o)) s0 /\
     from_chars_float_advanced c u t s o = invalid) \/
  (exists neg k rest, allows_special o = true /\ special (leading_plus (rules_of c o)) s0 neg k rest /\
     from_chars_float_advanced c u t s o =
       Ok {| r_ptr := rest; r_ec := Success; r_value := Some (with_sign (format_of t) neg (special_code t k)) |}).
Proof. intros TOK AS. apply float_no_number_at, text_started; assumption. Qed.
