(** From the end-to-end theorem to the vocabulary of the specification. *)
From Verif Require Import Machine Config Chars Format ParseNumber DecToBin FromChars WordLemmas
  EiselTable Rounding ComputeFloat SpecFloat FloatBridge FpArith Clinger Pow10 SpecGrammar SpecApi Scan ParseSpec Special
  SlowPath ManyDigits Saturate FloatMaster.
From Coq Require Import QArith Lqa.
Open Scope Z_scope.

Lemma good_text_ok c u o s : good_text c u o s -> text_ok c u o s.
Proof.
  intros (H1 & H2 & H3 & H4).
  assert (OK : Forall (okc u) s).
  { apply Forall_forall. intros x Hx. split; [apply (proj1 (Forall_forall _ _) H1 x Hx)|].
    intros E. apply (proj1 (Forall_forall _ _) (H2 E) x Hx). }
  split; [exact OK|]. split; [|split; assumption].
  intros SK. apply Forall_forall. intros x Hx. pose proof (proj1 (Forall_forall _ _) OK x Hx) as Ox.
  assert (D : {u = Wchar_s32} + {u <> Wchar_s32}) by decide equality.
  destruct D as [E|N].
  - intros L. apply (proj1 (Forall_forall _ _) (H2 E) x Hx); assumption.
  - eapply ws_ok_type; eassumption.
Qed.

Lemma number_value_dec ip fp e : (number_value ip fp e == dec (digits_value (ip ++ fp)) (e - Z.of_nat (length fp)))%Q.
Proof. apply decimal_dec. Qed.

Lemma dec_pos_iff w q : (0 < dec w q)%Q <-> 0 < w.
Proof.
  unfold dec. pose proof (qpow_pos 10 q ltac:(lia)) as P. split; intros H.
  - apply (proj2 (q_pos _)). apply Qnot_le_lt. intros L. apply (Qlt_not_le _ _ H).
    setoid_replace 0%Q with (0 * qpow 10 q)%Q by ring. apply Qmult_le_compat_r; [exact L|]. apply Qlt_le_weak, P.
  - apply Qmult_lt_0_compat; [apply (proj1 (q_pos _)), H|exact P].
Qed.

Lemma number_value_pos ip fp e : (0 < number_value ip fp e)%Q <-> 0 < digits_value (ip ++ fp).
Proof. rewrite number_value_dec. apply dec_pos_iff. Qed.

Lemma number_value_nonneg R s neg ip fp e rest : number R s neg ip fp e rest -> (0 <= number_value ip fp e)%Q.
Proof.
  intros N. rewrite number_value_dec. apply dec_nonneg.
  destruct (number_digits _ _ _ _ _ _ _ N) as (A & B & _).
  apply (digits_value_range (ip ++ fp)). apply Forall_app; split; assumption.
Qed.

(** The range error the specification asks for. *)
Definition range_rule (f : format) (x : Q) (b : Z) (r : ec) : Prop :=
  (r = Success \/ r = OutOfRange) /\
  (r = OutOfRange <-> ((0 < x)%Q /\ b = 0) \/ b = infinity f).

Lemma range_code_rule t W b x r : ((0 < x)%Q <-> 0 < W) -> r = range_code t W b -> range_rule (format_of t) x b r.
Proof.
  intros HX ->. unfold range_rule, range_code. rewrite inf_inf.
  destruct (Z.eqb_spec b (inf_code t)) as [E|N].
  - rewrite orb_true_r. split; [right; reflexivity|]. split; [intros _; right; exact E|reflexivity].
  - rewrite orb_false_r. destruct (Z.ltb_spec 0 W) as [W0|W0]; destruct (Z.eqb_spec b 0) as [B0|B0]; cbn [andb].
    + split; [right; reflexivity|]. split; [intros _; left; split; [apply HX; exact W0|exact B0]|reflexivity].
    + split; [left; reflexivity|]. split; [discriminate|]. intros [[_ ?]|?]; contradiction.
    + split; [left; reflexivity|]. split; [discriminate|]. intros [[X _]|?]; [apply HX in X; lia|contradiction].
    + split; [left; reflexivity|]. split; [discriminate|]. intros [[_ ?]|?]; contradiction.
Qed.

(** binary16 *)
Lemma subnormal_tie_sub_tie x b : subnormal_tie binary16 x b -> sub_tie F16 x b.
Proof.
  intros (HB & HT). change (2 ^ frac_bits binary16) with 1024 in HB.
  split; [reflexivity|]. split; [exact HB|].
  change binary16 with (format_of F16) in HT.
  rewrite !(magnitude_units F16), (units_ulp0 F16 x) in HT by lia.
  rewrite !fp_units_sub in HT by (cbn; lia).
  pose proof (ulp0_pos F16) as P.
  apply (Qmult_inj_r _ _ (ulp0 F16)); [intros Z; rewrite Z in P; discriminate P|].
  replace (2 * b - 1) with (b - 1 + b) by lia. rewrite inject_Z_plus, Qmult_plus_distr_l, <- HT. ring.
Qed.

Lemma sub_tie_subnormal_tie x b : sub_tie F16 x b -> subnormal_tie binary16 x b.
Proof.
  intros (_ & HB & HT). change (2 ^ mant_bits F16) with 1024 in HB. split; [exact HB|].
  change binary16 with (format_of F16). rewrite !(magnitude_units F16), (units_ulp0 F16 x) by lia.
  rewrite !fp_units_sub by (cbn; lia). rewrite Qmult_assoc, HT.
  replace (2 * b - 1) with (b - 1 + b) by lia. rewrite inject_Z_plus. ring.
Qed.

Lemma nineteen_short x : nineteen_digits x <-> short x.
Proof.
  split; intros (w & e & H & E); exists w, e; (split; [exact H|]); rewrite E; [|symmetry]; apply decimal_dec.
Qed.

Lemma near_F16_spec x b : near F16 x b -> nearest_float16 x b.
Proof.
  intros H. pose proof (near_spec F16 x b H) as [N _]. split; [exact N|]. split.
  - intros S b' T. apply subnormal_tie_sub_tie in T. apply nineteen_short in S.
    destruct H as [[_ T']|[NT _]]; [eapply sub_tie_unique; eassumption|].
    exfalso. apply NT. split; [exact S|exists b'; exact T].
  - intros OR. apply (rounds_nearest_even F16). destruct H as [[S T]|[_ R]]; [exfalso|exact R].
    destruct OR as [OR|OR].
    + apply OR, nineteen_short, S.
    + apply (OR b), sub_tie_subnormal_tie, T.
Qed.

(** double, float, bfloat16 *)
Theorem number_main c u t o s s0 neg ip fp e rest : t <> F16 ->
  good_text c u o s -> starts_at c o s s0 -> number (rules_of c o) s0 neg ip fp e rest -> exponent_bounded s e ->
  exists b x,
    from_chars_float_advanced c u t s o =
      Ok {| r_ptr := rest; r_ec := x; r_value := Some (with_sign (format_of t) neg b) |} /\
    nearest_even (format_of t) (number_value ip fp e) b /\ range_rule (format_of t) (number_value ip fp e) b x.
Proof.
  intros NT GT SA NUM EB.
  destruct (float_number c u t o s s0 neg ip fp e rest (good_text_ok _ _ _ _ GT) SA NUM) as (b & x & E & NR & (_ & OE)).
  { destruct EB; [right|left]; assumption. }
  exists b, x. split; [exact E|]. split.
  - eapply nearest_even_comp; [symmetry; apply number_value_dec|].
    apply rounds_nearest_even. apply near_not_F16; assumption.
  - apply range_code_rule with (digits_value (ip ++ fp)); [apply number_value_pos|].
    apply OE. intros (Q & _). contradiction.
Qed.

Theorem number_main_F16 c u o s s0 neg ip fp e rest :
  good_text c u o s -> starts_at c o s s0 -> number (rules_of c o) s0 neg ip fp e rest -> exponent_bounded s e ->
  exists b x,
    from_chars_float_advanced c u F16 s o =
      Ok {| r_ptr := rest; r_ec := x; r_value := Some (with_sign binary16 neg b) |} /\
    nearest_float16 (number_value ip fp e) b /\
    (~ silent_float16_overflow c ip fp e -> range_rule binary16 (number_value ip fp e) b x) /\
    (silent_float16_overflow c ip fp e -> x = Success).
Proof.
  intros GT SA NUM EB.
  destruct (float_number c u F16 o s s0 neg ip fp e rest (good_text_ok _ _ _ _ GT) SA NUM) as (b & x & E & NR & (OQ & OE)).
  { destruct EB; [right|left]; assumption. }
  exists b, x. split; [exact E|]. split.
  - apply near_F16_spec. eapply near_comp; [symmetry; apply number_value_dec|exact NR].
  - split.
    + intros NS. apply (range_code_rule F16 (digits_value (ip ++ fp))); [apply number_value_pos|].
      apply OE. intros (_ & Q). apply NS. exact Q.
    + intros SQ. apply OQ. split; [reflexivity|exact SQ].
Qed.

(** Texts that are no numbers. *)
Theorem other_main c u t o s s0 :
  good_text c u o s -> starts_at c o s s0 -> (forall neg ip fp e rest, ~ number (rules_of c o) s0 neg ip fp e rest) ->
  let invalid := Ok {| r_ptr := s0; r_ec := InvalidArgument; r_value := None |} in
  (allows_special o = false /\ from_chars_float_advanced c u t s o = invalid) \/
  (allows_special o = true /\ (forall neg k rest, ~ special (leading_plus (rules_of c o)) s0 neg k rest) /\
     from_chars_float_advanced c u t s o = invalid) \/
  (exists neg k rest, allows_special o = true /\ special (leading_plus (rules_of c o)) s0 neg k rest /\
     from_chars_float_advanced c u t s o =
       Ok {| r_ptr := rest; r_ec := Success; r_value := Some (with_sign (format_of t) neg (special_code t k)) |}).
Proof. intros GT SA NN. apply float_no_number; [apply good_text_ok; exact GT|exact SA|exact NN]. Qed.

(** Every text falls into one of the cases. *)
Lemma starts_exists c o s : exists s0, starts_at c o s s0.
Proof.
  unfold starts_at. destruct (skips_space c o); [|exists s; reflexivity].
  induction s as [|ch s IH]; [exists []; exists []; repeat split; constructor|].
  destruct (space ch) eqn:E.
  - destruct IH as (s0 & ws & -> & A & B). exists s0, (ch :: ws). split; [reflexivity|]. split; [constructor; assumption|exact B].
  - exists (ch :: s), []. split; [reflexivity|]. split; [constructor|]. cbn. congruence.
Qed.

Lemma starts_unique c o s s1 s2 : starts_at c o s s1 -> starts_at c o s s2 -> s1 = s2.
Proof.
  unfold starts_at. destruct (skips_space c o); [apply without_spaces_unique|congruence].
Qed.

(** What is left over is a suffix of the text. *)
Lemma number_suffix R s neg ip fp e rest : number R s neg ip fp e rest -> exists p, s = p ++ rest.
Proof.
  intros (s1 & s2 & hp & s3 & A & (-> & _) & C & _ & E).
  assert (S1 : exists p, s = p ++ ip ++ s2).
  { inversion A; subst; [exists [45]|exists [43]|exists []]; reflexivity. }
  assert (S2 : exists p, s2 = p ++ s3).
  { inversion C as [? ? ? (-> & _)|]; subst; [exists (point R :: fp)|exists []]; reflexivity. }
  assert (S3 : exists p, s3 = p ++ rest).
  { inversion E as [? x1 ? x2 ds ? M SG (-> & _)| |]; subst; [|exists []; reflexivity..].
    inversion M; subst; inversion SG; subst; 
      [exists (ch :: 45 :: ds)|exists (ch :: 43 :: ds)|exists (ch :: ds)
      |exists (ch :: 45 :: ds)|exists (ch :: 43 :: ds)|exists (ch :: ds)
      |exists (45 :: ds)|exists (43 :: ds)|]; try reflexivity.
    exfalso. match goal with H : not_at _ (_ :: _) |- _ => cbn in H; tauto end. }
  destruct S1 as (p1 & ->), S2 as (p2 & ->), S3 as (p3 & ->).
  exists (p1 ++ ip ++ p2 ++ p3). rewrite <- !app_assoc. reflexivity.
Qed.

Lemma same_letters_suffix w s rest : same_letters w s rest -> exists p, s = p ++ rest.
Proof.
  induction 1 as [s|x w ch s rest _ _ (p & ->)]; [exists []|exists (ch :: p)]; reflexivity.
Qed.

Lemma special_suffix plus s neg k rest : special plus s neg k rest -> exists p, s = p ++ rest.
Proof.
  assert (SG : forall s n s1, special_sign plus s n s1 -> exists p, s = p ++ s1).
  { intros ? ? ? H. inversion H; subst; [exists [45]|exists [43]|exists []]; reflexivity. }
  assert (PL : forall s r, payload s r -> exists p, s = p ++ r).
  { intros ? ? H. inversion H; subst; [|exists []; reflexivity].
    exists (40 :: l ++ [41]). cbn [app]. rewrite <- app_assoc. reflexivity. }
  intros H. inversion H as [? ? s1 s2 ? A B C|? ? s1 s2 ? A B C|? ? s1 ? A B _]; subst.
  - destruct (SG _ _ _ A) as (p1 & ->), (same_letters_suffix _ _ _ B) as (p2 & ->), (PL _ _ C) as (p3 & ->).
    exists (p1 ++ p2 ++ p3). rewrite <- !app_assoc. reflexivity.
  - destruct (SG _ _ _ A) as (p1 & ->), (same_letters_suffix _ _ _ B) as (p2 & ->), (same_letters_suffix _ _ _ C) as (p3 & ->).
    exists (p1 ++ p2 ++ p3). rewrite <- !app_assoc. reflexivity.
  - destruct (SG _ _ _ A) as (p1 & ->), (same_letters_suffix _ _ _ B) as (p2 & ->).
    exists (p1 ++ p2). rewrite <- !app_assoc. reflexivity.
Qed.

Lemma number_or_not c u o s s0 : good_text c u o s -> starts_at c o s s0 ->
  (exists neg ip fp e rest, number (rules_of c o) s0 neg ip fp e rest) \/ no_number (rules_of c o) s0.
Proof.
  intros GT SA. destruct (list_eq_dec Z.eq_dec s0 []) as [->|NE].
  - right. intros neg ip fp e rest N. exact (number_nonempty _ _ _ _ _ _ _ N eq_refl).
  - destruct (after_space_run c u o s s0 (good_text_ok _ _ _ _ GT) SA) as (_ & OK0 & L0).
    destruct GT as (_ & _ & LEN & DP).
    destruct (parse_number_string_spec c u o s0 true OK0 NE ltac:(lia) DP)
      as (pns & _ & [(neg & ip & fp & e & rest & N & _)|(_ & N)]); [left|right; exact N].
    exists neg, ip, fp, e, rest. exact N.
Qed.

(** The result is determined by the rules in force. *)
Lemma float_det c1 u1 c2 u2 t o s1 s2 s0 :
  good_text c1 u1 o s1 -> good_text c2 u2 o s2 -> rules_of c1 o = rules_of c2 o ->
  starts_at c1 o s1 s0 -> starts_at c2 o s2 s0 ->
  exists r1 r2, from_chars_float_advanced c1 u1 t s1 o = Ok r1 /\ from_chars_float_advanced c2 u2 t s2 o = Ok r2 /\
    r_ptr r1 = r_ptr r2 /\ r_value r1 = r_value r2 /\ (t <> F16 -> r1 = r2) /\
    ((direct_arithmetic c1 <-> direct_arithmetic c2) -> r1 = r2).
Proof.
  intros G1 G2 ER S1 S2.
  destruct (number_or_not c1 u1 o s1 s0 G1 S1) as [(neg & ip & fp & e & rest & N1)|NN].
  - pose proof N1 as N2. rewrite ER in N2.
    destruct (float_number_clamped c1 u1 t o s1 s0 neg ip fp e rest (good_text_ok _ _ _ _ G1) S1 N1) as (e1 & b1 & x1 & CL1 & E1 & R1 & O1).
    destruct (float_number_clamped c2 u2 t o s2 s0 neg ip fp e rest (good_text_ok _ _ _ _ G2) S2 N2) as (e2 & b2 & x2 & CL2 & E2 & R2 & O2).
    pose proof (clamp_unique _ _ _ CL1 CL2). subst e2.
    pose proof (near_unique _ _ _ _ R1 R2). subst b2.
    eexists. eexists. split; [exact E1|]. split; [exact E2|]. split; [reflexivity|]. split; [reflexivity|].
    split.
    + intros NT. f_equal. destruct O1 as [_ O1], O2 as [_ O2].
      rewrite O1, O2 by (intros (Q & _); contradiction). reflexivity.
    + intros DA. f_equal. destruct O1 as [P1 O1], O2 as [P2 O2].
      assert (QQ : forall W q, quiet c1 t W q <-> quiet c2 t W q).
      { intros W q. unfold quiet. unfold direct_arithmetic in DA. tauto. }
      destruct (quiet_dec c1 t (digits_value (ip ++ fp)) (e1 - Z.of_nat (length fp))) as [Q|Q].
      * rewrite P1 by exact Q. rewrite P2 by (apply QQ; exact Q). reflexivity.
      * rewrite O1 by exact Q. rewrite O2 by (intros Q2; apply Q, QQ; exact Q2). reflexivity.
  - pose proof NN as NN2. rewrite ER in NN2.
    destruct (other_main c1 u1 t o s1 s0 G1 S1 NN) as [(A1 & E1)|[(A1 & NS1 & E1)|(n1 & k1 & r1 & A1 & SP1 & E1)]];
    destruct (other_main c2 u2 t o s2 s0 G2 S2 NN2) as [(A2 & E2)|[(A2 & NS2 & E2)|(n2 & k2 & r2 & A2 & SP2 & E2)]];
      try congruence; try (eexists; eexists; split; [exact E1|]; split; [exact E2|]; repeat split; reflexivity).
    + exfalso. rewrite ER in NS1. exact (NS1 _ _ _ SP2).
    + exfalso. rewrite ER in SP1. exact (NS2 _ _ _ SP1).
    + rewrite ER in SP1. destruct (special_unique _ _ _ _ _ _ _ _ SP1 SP2) as (<- & <- & <-).
      eexists; eexists; split; [exact E1|]; split; [exact E2|]; repeat split; reflexivity.
Qed.
