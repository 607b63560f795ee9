(** Property C55: the stored value in terms of an independently developed
    formalisation of IEEE-754 arithmetic, the Flocq library: its rounding
    operator on real numbers and its decoding of bit patterns.  The other theorems
    use only the small specification SpecFloat; this file shows that
    specification and Flocq agree.  These theorems depend on the axioms of the
    standard library's real numbers (listed in DESIGN.md). *)
From Coq Require Import ZArith QArith Qabs Reals Qreals Lra Lia.
From Flocq Require Import Core IEEE754.Binary IEEE754.Bits.
From Verif Require Import Machine Config Chars Format ParseNumber DecToBin FromChars WordLemmas
  Rounding ComputeFloat SpecFloat FloatBridge Pow10 SpecGrammar SpecApi Saturate FloatApi FloatRel
  Props_Pow10 Props_Pow10Rel Props_Float Props_Relations Props_Texts Props_Range Props_Special FlocqBridge.
Open Scope Z_scope.

(** The real number [sign] * [x]. *)
Definition signed_real (neg : bool) (x : Q) : R := if neg then (- Q2R x)%R else Q2R x.

(** [f] is [x], with sign [neg], rounded to nearest-even as IEEE-754 prescribes, in
    the same form as the correctness theorems of Flocq's own operations
    (Bplus_correct, Bmult_correct, ...). *)
Definition ieee_rounded (prec emax : Z) (neg : bool) (x : R) (f : binary_float prec emax) : Prop :=
  let r := round radix2 (FLT_exp (3 - emax - prec) prec) ZnearestE x in
  if Rlt_bool (Rabs r) (bpow radix2 emax)
  then B2R prec emax f = r /\ is_finite prec emax f = true /\ Bsign prec emax f = neg
  else f = B754_infinity prec emax neg.

(** The rounded number does not fit, or it is zero although [x] is not. *)
Definition ieee_out_of_range (prec emax : Z) (x : R) : Prop :=
  let r := round radix2 (FLT_exp (3 - emax - prec) prec) ZnearestE x in
  (bpow radix2 emax <= Rabs r)%R \/ (x <> 0%R /\ r = 0%R).

(** Flocq has b64_of_bits and b32_of_bits; the same for the 16-bit types. *)
Definition bf16_of_bits : Z -> binary_float 8 128 := binary_float_of_bits 7 8 eq_refl eq_refl eq_refl.
Definition b16_of_bits : Z -> binary_float 11 16 := binary_float_of_bits 10 5 eq_refl eq_refl eq_refl.

(** ** Decoding bit patterns. *)
Lemma split_with_sign_any t neg b : 0 <= b < 2 ^ mant_bits t * 2 ^ exp_bits (format_of t) ->
  split_bits (mant_bits t) (exp_bits (format_of t)) (with_sign (format_of t) neg b) =
  (neg, b mod 2 ^ mant_bits t, b / 2 ^ mant_bits t).
Proof.
  intros (H & LT). unfold split_bits, with_sign. rewrite (frac_mb t).
  assert (P1 : 0 < 2 ^ mant_bits t) by (destruct t; reflexivity).
  assert (PE : 2 ^ (mant_bits t + exp_bits (format_of t)) = 2 ^ mant_bits t * 2 ^ exp_bits (format_of t))
    by (destruct t; reflexivity).
  assert (P2 : 0 < 2 ^ exp_bits (format_of t)) by (destruct t; reflexivity).
  rewrite PE. clear PE. revert P1 P2 LT. generalize (2 ^ mant_bits t) (2 ^ exp_bits (format_of t)). intros A B PA PB LT.
  assert (D0 : 0 <= b / A < B) by (split; [apply Z.div_pos; lia|apply Z.div_lt_upper_bound; lia]).
  destruct neg.
  - rewrite (Zle_bool_true (A * B)) by lia. rewrite (Z.mul_comm A B), Z.mod_add, Z.div_add by lia.
    f_equal. replace (b / A + B) with (b / A + 1 * B) by lia. rewrite Z.mod_add, Z.mod_small by lia. reflexivity.
  - rewrite Z.add_0_r, (Zle_bool_false (A * B)) by lia. f_equal. apply Z.mod_small, D0.
Qed.

Lemma split_with_sign t neg b : 0 <= b <= inf_code t ->
  split_bits (mant_bits t) (exp_bits (format_of t)) (with_sign (format_of t) neg b) =
  (neg, b mod 2 ^ mant_bits t, b / 2 ^ mant_bits t).
Proof.
  intros H. apply split_with_sign_any. split; [lia|]. rewrite <- inf_inf in H. unfold infinity in H. rewrite frac_mb in H.
  assert (P1 : 0 < 2 ^ mant_bits t) by (destruct t; reflexivity). nia.
Qed.

Definition sgn (neg : bool) (r : R) : R := if neg then (- r)%R else r.

Lemma sgn_F2R neg (p : positive) (e : Z) :
  F2R (Float radix2 (cond_Zopp neg (Zpos p)) e) = sgn neg (F2R (Float radix2 (Zpos p) e)).
Proof. destruct neg; [apply (F2R_Zopp radix2 (Zpos p) e)|reflexivity]. Qed.

Lemma decode_FF t neg b : 0 <= b < inf_code t ->
  let x := binary_float_of_bits_aux (mant_bits t) (exp_bits (format_of t)) (with_sign (format_of t) neg b) in
  FF2R radix2 x = sgn neg (M t b) /\ is_finite_FF x = true /\ sign_FF x = neg.
Proof.
  intros H x. unfold x, binary_float_of_bits_aux. rewrite split_with_sign by lia.
  pose proof (mb_range t) as Hmb. pose proof (pow2_pos (mant_bits t) ltac:(lia)) as PP.
  pose proof (Z.div_mod b (2 ^ mant_bits t) ltac:(lia)) as DM.
  pose proof (Z.mod_pos_bound b (2 ^ mant_bits t) PP) as MB.
  pose proof (Z.div_pos b (2 ^ mant_bits t) ltac:(lia) PP) as D0.
  assert (EU : b / 2 ^ mant_bits t < 2 ^ exp_bits (format_of t) - 1).
  { rewrite <- inf_inf in H. unfold infinity in H. rewrite frac_mb in H. apply Z.div_lt_upper_bound; lia. }
  assert (EM : Coq.Floats.SpecFloat.emin (mant_bits t + 1) (2 ^ (exp_bits (format_of t) - 1)) = femin t)
    by (destruct t; reflexivity).
  revert DM MB D0 EU. generalize (b / 2 ^ mant_bits t) (b mod 2 ^ mant_bits t). intros e m DM MB D0 EU.
  assert (PS : 2 ^ (mant_bits t + 1) = 2 * 2 ^ mant_bits t) by (rewrite Z.pow_add_r by lia; lia).
  case Zeq_bool_spec; intros HE.
  - subst e. assert (E0 : b = 0 * 2 ^ mant_bits t + m) by lia.
    assert (C : canon (mant_bits t) 0 m) by (split; [lia|]; split; [lia|left; reflexivity]).
    rewrite E0, (M_enc t 0 m C). destruct m as [|p|p].
    + cbn [FF2R is_finite_FF sign_FF]. rewrite F2R_0. split; [destruct neg; cbn [sgn]; lra|split; reflexivity].
    + cbn [FF2R is_finite_FF sign_FF]. split; [|split; reflexivity].
      rewrite EM, sgn_F2R, Z.add_0_r. reflexivity.
    + lia.
  - case Zeq_bool_spec; intros HE2; [lia|].
    assert (E0 : b = (e - 1) * 2 ^ mant_bits t + (m + 2 ^ mant_bits t)) by lia.
    assert (C : canon (mant_bits t) (e - 1) (m + 2 ^ mant_bits t)) by (split; [lia|]; split; [lia|right; lia]).
    rewrite E0, (M_enc t _ _ C). clear E0 C. assert (PM : 0 < m + 2 ^ mant_bits t) by lia.
    change (Z.pow_pos 2) with (fun p => 2 ^ Zpos p) in *.
    revert PM. generalize (m + 2 ^ mant_bits t). intros n PM. destruct n as [|p|p]; [lia| |lia].
    cbn [FF2R is_finite_FF sign_FF]. split; [|split; reflexivity].
    rewrite EM, sgn_F2R. replace (femin t + (e - 1)) with (e + femin t - 1) by lia. reflexivity.
Qed.

Lemma decode_inf t neg :
  binary_float_of_bits_aux (mant_bits t) (exp_bits (format_of t)) (with_sign (format_of t) neg (inf_code t)) = F754_infinity neg.
Proof. destruct t, neg; vm_compute; reflexivity. Qed.

(** ** Rounding: the code that is nearest-even decodes to Flocq's rounding. *)
Lemma sgn_round t neg x :
  round radix2 (fexp_of t) ZnearestE (signed_real neg x) = sgn neg (round radix2 (fexp_of t) ZnearestE (Q2R x)).
Proof. destruct neg; [apply round_NE_opp|reflexivity]. Qed.

Lemma threshold_rounds t : round radix2 (fexp_of t) ZnearestE (Q2R (infinite_from t)) = bpow radix2 (femax t).
Proof.
  rewrite <- M_inf. assert (P : (0 <= infinite_from t)%Q) by (destruct t; vm_compute; discriminate).
  assert (MI : (infinite_from t <= magnitude (format_of t) (inf_code t))%Q).
  { destruct t; vm_compute; discriminate. }
  apply nearest_even_round; [exact P| |].
  - rewrite <- M_inf. apply Qle_Rle, MI.
  - pose proof (infinite_from_mid t) as MID. pose proof (inf_code_pos t) as PI. rewrite <- inf_inf.
    split; [rewrite inf_inf; lia|]. rewrite inf_inf. intros b' RB.
    pose proof (magnitude_lt t (inf_code t - 1) (inf_code t) ltac:(lia)) as ML.
    destruct (Z.eq_dec b' (inf_code t)) as [->|NB]; [right; split; [reflexivity|left; reflexivity]|].
    destruct (Z.eq_dec b' (inf_code t - 1)) as [->|NB'].
    + right. split; [|right; clear; destruct t; reflexivity].
      rewrite Qabs_neg by Lqa.lra. rewrite Qabs_pos by Lqa.lra. Lqa.lra.
    + pose proof (magnitude_lt t b' (inf_code t - 1) ltac:(lia)). left.
      rewrite Qabs_neg by Lqa.lra. rewrite Qabs_pos by Lqa.lra. Lqa.lra.
Qed.

Lemma nearest_even_infinite t x b : (0 <= x)%Q -> nearest_even (format_of t) x b ->
  (b = inf_code t <-> (infinite_from t <= x)%Q).
Proof. intros P N. apply close_infinite; [exact P|]. split; [apply nearest_even_nearest, N|left; exact N]. Qed.

(** A code below infinity rounds as Flocq says; the code of infinity is used
    exactly when Flocq's rounding overflows. *)
Lemma round_code t x b : (0 <= x)%Q -> nearest_even (format_of t) x b ->
  (b < inf_code t -> round radix2 (fexp_of t) ZnearestE (Q2R x) = M t b /\ (0 <= M t b < bpow radix2 (femax t))%R) /\
  (b = inf_code t -> (bpow radix2 (femax t) <= round radix2 (fexp_of t) ZnearestE (Q2R x))%R).
Proof.
  intros P N. pose proof (nearest_even_infinite t x b P N) as INF.
  assert (R0 : 0 <= b <= inf_code t) by (rewrite <- inf_inf; exact (proj1 N)). split.
  - intros L. assert (U : (x < infinite_from t)%Q).
    { apply Qnot_le_lt. intros H. apply INF in H. lia. }
    assert (MI : (infinite_from t <= magnitude (format_of t) (inf_code t))%Q) by (destruct t; vm_compute; discriminate).
    assert (E : round radix2 (fexp_of t) ZnearestE (Q2R x) = M t b).
    { apply nearest_even_round; [exact P| |exact N]. rewrite <- M_inf. apply Qle_Rle.
      apply Qle_trans with (infinite_from t); [apply Qlt_le_weak, U|exact MI]. }
    split; [exact E|]. split.
    + replace 0%R with (M t 0); [apply M_le; lia|]. unfold M. rewrite (Qeq_eqR _ _ (magnitude_0 t)). apply RMicromega.Q2R_0.
    + rewrite <- M_inf. apply M_lt. lia.
  - intros E. apply INF in E. rewrite <- threshold_rounds. apply round_le; [typeclasses eauto|typeclasses eauto|].
    apply Qle_Rle, E.
Qed.

Lemma decode_rounded t neg x b H1 H2 H3 :
  (0 <= x)%Q -> nearest_even (format_of t) x b ->
  let f := binary_float_of_bits (mant_bits t) (exp_bits (format_of t)) H1 H2 H3 (with_sign (format_of t) neg b) in
  ieee_rounded _ _ neg (signed_real neg x) f.
Proof.
  intros P N f. destruct (round_code t x b P N) as (FIN & INF).
  assert (R0 : 0 <= b <= inf_code t) by (rewrite <- inf_inf; exact (proj1 N)).
  unfold ieee_rounded.
  assert (EF : FLT_exp (3 - 2 ^ (exp_bits (format_of t) - 1) - (mant_bits t + 1)) (mant_bits t + 1) = fexp_of t)
    by (destruct t; reflexivity).
  assert (EE : 2 ^ (exp_bits (format_of t) - 1) = femax t) by (destruct t; reflexivity).
  rewrite EF, sgn_round.
  assert (AB : Rabs (sgn neg (round radix2 (fexp_of t) ZnearestE (Q2R x))) = Rabs (round radix2 (fexp_of t) ZnearestE (Q2R x))).
  { destruct neg; [apply Rabs_Ropp|reflexivity]. }
  rewrite AB. clear AB EF.
  rewrite <- EE in INF, FIN.
  destruct (Z.eq_dec b (inf_code t)) as [EB|NB].
  - specialize (INF EB). rewrite Rlt_bool_false; [|rewrite Rabs_pos_eq; [exact INF|pose proof (bpow_ge_0 radix2 (2 ^ (exp_bits (format_of t) - 1))); lra]].
    apply B2FF_inj. unfold f, binary_float_of_bits. rewrite B2FF_FF2B, EB, decode_inf. reflexivity.
  - destruct (FIN ltac:(lia)) as (E & B0 & BU). rewrite E, Rlt_bool_true; [|rewrite Rabs_pos_eq; [exact BU|exact B0]].
    destruct (decode_FF t neg b ltac:(lia)) as (D1 & D2 & D3).
    unfold f, binary_float_of_bits. rewrite B2R_FF2B, is_finite_FF2B, Bsign_FF2B, D1, D2, D3. repeat split.
Qed.

Lemma out_of_range_code t neg x b : (0 <= x)%Q -> nearest_even (format_of t) x b ->
  (ieee_out_of_range (mant_bits t + 1) (2 ^ (exp_bits (format_of t) - 1)) (signed_real neg x) <->
   ((0 < x)%Q /\ b = 0) \/ b = inf_code t).
Proof.
  intros P N. destruct (round_code t x b P N) as (FIN & INF).
  assert (R0 : 0 <= b <= inf_code t) by (rewrite <- inf_inf; exact (proj1 N)).
  unfold ieee_out_of_range.
  assert (EF : FLT_exp (3 - 2 ^ (exp_bits (format_of t) - 1) - (mant_bits t + 1)) (mant_bits t + 1) = fexp_of t)
    by (destruct t; reflexivity).
  assert (EE : 2 ^ (exp_bits (format_of t) - 1) = femax t) by (destruct t; reflexivity).
  rewrite EF, EE, sgn_round. clear EF EE.
  assert (AB : Rabs (sgn neg (round radix2 (fexp_of t) ZnearestE (Q2R x))) = Rabs (round radix2 (fexp_of t) ZnearestE (Q2R x))).
  { destruct neg; [apply Rabs_Ropp|reflexivity]. }
  rewrite AB. clear AB.
  assert (X0 : signed_real neg x <> 0%R <-> (0 < x)%Q).
  { split.
    - intros H. destruct (Qle_lt_or_eq _ _ P) as [L|EQ]; [exact L|exfalso]. apply H. apply Qeq_eqR in EQ.
      rewrite RMicromega.Q2R_0 in EQ. unfold signed_real. rewrite <- EQ. destruct neg; lra.
    - intros L. apply Qlt_Rlt in L. rewrite RMicromega.Q2R_0 in L. unfold signed_real. destruct neg; lra. }
  rewrite X0.
  assert (S0 : forall r, sgn neg r = 0%R <-> r = 0%R) by (intros r; destruct neg; cbn [sgn]; lra).
  rewrite S0. pose proof (bpow_gt_0 radix2 (femax t)) as BP. pose proof (inf_code_pos t) as PI.
  destruct (Z.eq_dec b (inf_code t)) as [EB|NB].
  - specialize (INF EB). rewrite Rabs_pos_eq by lra. split; intros _; [right; exact EB|left; exact INF].
  - destruct (FIN ltac:(lia)) as (E & B0 & BU). rewrite E, Rabs_pos_eq by exact B0.
    assert (Z0 : M t b = 0%R <-> b = 0).
    { assert (M0 : M t 0 = 0%R) by (unfold M; rewrite (Qeq_eqR _ _ (magnitude_0 t)); apply RMicromega.Q2R_0).
      split; [|intros ->; exact M0]. intros H. destruct (Z.eq_dec b 0) as [B|B]; [exact B|exfalso].
      pose proof (M_lt t 0 b ltac:(lia)). lra. }
    rewrite Z0. split; [intros [H|H]; [lra|left; exact H]|intros [H|H]; [right; exact H|lia]].
Qed.

Lemma error_code (x : ec) (A B : Prop) : x = Success \/ x = OutOfRange -> (x = OutOfRange <-> A) -> (B <-> A) ->
  (x = OutOfRange <-> B) /\ (x = Success <-> ~ B).
Proof.
  intros R1 R2 R3. rewrite R3. split; [exact R2|]. split.
  - intros -> H. apply R2 in H. discriminate H.
  - intros H. destruct R1 as [R1|R1]; [exact R1|]. exfalso. apply H, R2, R1.
Qed.

(** ** from_chars for double, float and bfloat16_t is IEEE-754's conversion: the
    bits it stores, decoded by Flocq, are the exact value of the text rounded by
    Flocq, and the error code reports overflow and underflow to zero. *)
Theorem from_chars_double_ieee :
  forall (c : cfg) (u : uc) (o : options) (s s0 : list Z)
         (neg : bool) (ip fp : list Z) (e : Z) (rest : list Z),
  good_text c u o s -> starts_at c o s s0 ->
  number (rules_of c o) s0 neg ip fp e rest -> exponent_bounded s e ->
  exists v x,
    from_chars_float_advanced c u F64 s o = Ok {| r_ptr := rest; r_ec := x; r_value := Some v |} /\
    ieee_rounded 53 1024 neg (signed_real neg (number_value ip fp e)) (b64_of_bits v) /\
    (x = OutOfRange <-> ieee_out_of_range 53 1024 (signed_real neg (number_value ip fp e))) /\
    (x = Success <-> ~ ieee_out_of_range 53 1024 (signed_real neg (number_value ip fp e))).
Proof.
  intros c u o s s0 neg ip fp e rest G SA N EB.
  destruct (number_main c u F64 o s s0 neg ip fp e rest ltac:(discriminate) G SA N EB) as (b & x & E & NE & R1 & R2).
  pose proof (number_value_nonneg _ _ _ _ _ _ _ N) as P.
  exists (with_sign (format_of F64) neg b), x. split; [exact E|].
  split; [exact (decode_rounded F64 neg _ b eq_refl eq_refl eq_refl P NE)|].
  apply (error_code x _ _ R1 R2), (out_of_range_code F64 neg _ b P NE).
Qed.
Print Assumptions from_chars_double_ieee.

Theorem from_chars_float_ieee :
  forall (c : cfg) (u : uc) (o : options) (s s0 : list Z)
         (neg : bool) (ip fp : list Z) (e : Z) (rest : list Z),
  good_text c u o s -> starts_at c o s s0 ->
  number (rules_of c o) s0 neg ip fp e rest -> exponent_bounded s e ->
  exists v x,
    from_chars_float_advanced c u F32 s o = Ok {| r_ptr := rest; r_ec := x; r_value := Some v |} /\
    ieee_rounded 24 128 neg (signed_real neg (number_value ip fp e)) (b32_of_bits v) /\
    (x = OutOfRange <-> ieee_out_of_range 24 128 (signed_real neg (number_value ip fp e))) /\
    (x = Success <-> ~ ieee_out_of_range 24 128 (signed_real neg (number_value ip fp e))).
Proof.
  intros c u o s s0 neg ip fp e rest G SA N EB.
  destruct (number_main c u F32 o s s0 neg ip fp e rest ltac:(discriminate) G SA N EB) as (b & x & E & NE & R1 & R2).
  pose proof (number_value_nonneg _ _ _ _ _ _ _ N) as P.
  exists (with_sign (format_of F32) neg b), x. split; [exact E|].
  split; [exact (decode_rounded F32 neg _ b eq_refl eq_refl eq_refl P NE)|].
  apply (error_code x _ _ R1 R2), (out_of_range_code F32 neg _ b P NE).
Qed.
Print Assumptions from_chars_float_ieee.

Theorem from_chars_bfloat16_ieee :
  forall (c : cfg) (u : uc) (o : options) (s s0 : list Z)
         (neg : bool) (ip fp : list Z) (e : Z) (rest : list Z),
  good_text c u o s -> starts_at c o s s0 ->
  number (rules_of c o) s0 neg ip fp e rest -> exponent_bounded s e ->
  exists v x,
    from_chars_float_advanced c u BF16 s o = Ok {| r_ptr := rest; r_ec := x; r_value := Some v |} /\
    ieee_rounded 8 128 neg (signed_real neg (number_value ip fp e)) (bf16_of_bits v) /\
    (x = OutOfRange <-> ieee_out_of_range 8 128 (signed_real neg (number_value ip fp e))) /\
    (x = Success <-> ~ ieee_out_of_range 8 128 (signed_real neg (number_value ip fp e))).
Proof.
  intros c u o s s0 neg ip fp e rest G SA N EB.
  destruct (number_main c u BF16 o s s0 neg ip fp e rest ltac:(discriminate) G SA N EB) as (b & x & E & NE & R1 & R2).
  pose proof (number_value_nonneg _ _ _ _ _ _ _ N) as P.
  exists (with_sign (format_of BF16) neg b), x. split; [exact E|].
  split; [exact (decode_rounded BF16 neg _ b eq_refl eq_refl eq_refl P NE)|].
  apply (error_code x _ _ R1 R2), (out_of_range_code BF16 neg _ b P NE).
Qed.
Print Assumptions from_chars_bfloat16_ieee.

(** ** std::float16_t. *)

(** [x] rounded to nearest with ties away from zero (IEEE-754's
    roundTiesToAway) gives the finite number [f] of sign [neg]. *)
Definition ieee_rounded_away (prec emax : Z) (neg : bool) (x : R) (f : binary_float prec emax) : Prop :=
  B2R prec emax f = round radix2 (FLT_exp (3 - emax - prec) prec) ZnearestA x /\
  is_finite prec emax f = true /\ Bsign prec emax f = neg.

(** [x] is half-way between two neighbouring multiples of 2^-24 that are at most
    2^-14: the spacing of the subnormal numbers of binary16. *)
Definition float16_subnormal_tie (x : R) : Prop :=
  exists n : Z, 0 <= n < 1024 /\ Rabs x = ((IZR n + / 2) * bpow radix2 (-24))%R.

Lemma M_subnormal16 k : 0 <= k <= 1024 -> M F16 k = (IZR k * bpow radix2 (-24))%R.
Proof.
  intros H. pose proof (M_enc F16 0 k) as E. replace (0 * 2 ^ mant_bits F16 + k) with k in E by reflexivity.
  rewrite E; [reflexivity|]. cbn [mant_bits]. split; [lia|]. split; [lia|left; reflexivity].
Qed.

Lemma tie16_real x b : subnormal_tie binary16 x b <-> 1 <= b <= 1024 /\ Q2R x = ((IZR (b - 1) + / 2) * bpow radix2 (-24))%R.
Proof.
  unfold subnormal_tie. change (2 ^ frac_bits binary16) with 1024.
  assert (K : 1 <= b <= 1024 ->
    ((2 * x == magnitude binary16 (b - 1) + magnitude binary16 b)%Q <->
     Q2R x = ((IZR (b - 1) + / 2) * bpow radix2 (-24))%R)).
  { intros H. pose proof (M_subnormal16 (b - 1) ltac:(lia)) as E1. pose proof (M_subnormal16 b ltac:(lia)) as E2.
    unfold M in E1, E2. change (format_of F16) with binary16 in E1, E2. rewrite minus_IZR in *.
    assert (T2 : Q2R 2 = 2%R) by (unfold Q2R; cbn [Qnum Qden]; lra).
    split.
    - intros Q. apply Qeq_eqR in Q. rewrite Q2R_mult, Q2R_plus, E1, E2, T2 in Q. lra.
    - intros R. apply eqR_Qeq. rewrite Q2R_mult, Q2R_plus, E1, E2, T2, R. lra. }
  split; intros (H & Q); (split; [exact H|]); apply (K H), Q.
Qed.

Lemma tie16_iff neg x : (0 <= x)%Q ->
  (float16_subnormal_tie (signed_real neg x) <-> exists b, subnormal_tie binary16 x b).
Proof.
  intros P. apply Qle_Rle in P. rewrite RMicromega.Q2R_0 in P. unfold float16_subnormal_tie.
  assert (A : Rabs (signed_real neg x) = Q2R x).
  { unfold signed_real. destruct neg; [rewrite Rabs_Ropp|]; apply Rabs_pos_eq, P. }
  rewrite A. split.
  - intros (n & H & E). exists (n + 1). apply tie16_real. replace (n + 1 - 1) with n by lia. split; [lia|exact E].
  - intros (b & T). apply tie16_real in T. destruct T as (H & E). exists (b - 1). split; [lia|exact E].
Qed.

Lemma round_tie16 x b : subnormal_tie binary16 x b -> round radix2 (fexp_of F16) ZnearestA (Q2R x) = M F16 b.
Proof.
  intros T. apply tie16_real in T. destruct T as (H & E). rewrite E, M_subnormal16 by lia.
  assert (B1 : (1 <= IZR b <= 1024)%R) by (split; apply IZR_le; lia).
  rewrite minus_IZR. pose proof (bpow_gt_0 radix2 (-24)) as BP.
  set (x' := ((IZR b - 1 + / 2) * bpow radix2 (-24))%R).
  assert (C : cexp radix2 (fexp_of F16) x' = -24).
  { unfold cexp, fexp_of, FLT_exp. change (femin F16) with (-24). change (fprec F16) with 11.
    assert (ML : (mag radix2 x' <= -13)%Z).
    { apply mag_le_bpow; [unfold x'; nra|]. unfold x'. rewrite Rabs_pos_eq by nra.
      change (-13) with (11 + -24). rewrite bpow_plus. change (bpow radix2 11) with 2048%R. nra. }
    lia. }
  unfold round, scaled_mantissa. rewrite C. change (- -24) with 24.
  assert (SM : (x' * bpow radix2 24)%R = (IZR b - / 2)%R).
  { unfold x'. rewrite Rmult_assoc, <- bpow_plus. change (bpow radix2 (-24 + 24)) with 1%R. lra. }
  rewrite SM. unfold F2R. cbn [Fnum Fexp]. f_equal. f_equal.
  assert (FL : Zfloor (IZR b - / 2) = b - 1) by (apply Zfloor_imp; rewrite minus_IZR; replace (b - 1 + 1) with b by lia; lra).
  unfold Znearest. rewrite FL, minus_IZR. replace (IZR b - / 2 - (IZR b - 1))%R with (/ 2)%R by lra.
  rewrite Rcompare_Eq by reflexivity. replace (0 <=? b - 1) with true by (symmetry; apply Z.leb_le; lia).
  rewrite (Zceil_floor_neq (IZR b - / 2)); rewrite FL; [lia|]. rewrite minus_IZR. lra.
Qed.

Lemma decode_tie16 neg x b : subnormal_tie binary16 x b ->
  ieee_rounded_away 11 16 neg (signed_real neg x) (b16_of_bits (with_sign binary16 neg b)).
Proof.
  intros T. pose proof (round_tie16 x b T) as R. pose proof (proj1 T) as H. change (2 ^ frac_bits binary16) with 1024 in H.
  destruct (decode_FF F16 neg b) as (D1 & D2 & D3); [change (inf_code F16) with 31744; lia|].
  assert (S : round radix2 (FLT_exp (3 - 16 - 11) 11) ZnearestA (signed_real neg x) = sgn neg (M F16 b)).
  { change (FLT_exp (3 - 16 - 11) 11) with (fexp_of F16). rewrite <- R.
    destruct neg; [apply round_NA_opp|reflexivity]. }
  unfold ieee_rounded_away. rewrite S. unfold b16_of_bits, binary_float_of_bits.
  rewrite B2R_FF2B, is_finite_FF2B, Bsign_FF2B. split; [exact D1|]. split; [exact D2|exact D3].
Qed.

Lemma classic_silent c ip fp e : silent_float16_overflow c ip fp e \/ ~ silent_float16_overflow c ip fp e.
Proof.
  unfold silent_float16_overflow.
  destruct (in_constexpr c); [right; intros (H & _); discriminate H|].
  destruct (rmode c); try (right; intros (_ & H & _); discriminate H).
  destruct (eval c); try (right; intros (_ & _ & [H|H] & _); discriminate H);
  (destruct (Z_le_gt_dec (digits_value (ip ++ fp)) 2048); [|right; lia];
   destruct (Z_le_gt_dec 0 (e - Z.of_nat (length fp))); [|right; lia];
   destruct (Z_le_gt_dec (e - Z.of_nat (length fp)) 4); [|right; lia];
   left; split; [reflexivity|]; split; [reflexivity|]; split; [first [left; reflexivity|right; reflexivity]|lia]).
Qed.

(** from_chars for std::float16_t: IEEE-754's conversion, except that a number
    half-way between two neighbouring subnormal numbers is rounded away from zero
    if it has at most 19 significant digits; the error code is right except in
    the numbers [silent_float16_overflow] (at most 2048 times a power of ten up
    to 10^4), where it is always success. *)

Theorem from_chars_float16_ieee_partial :
  forall (c : cfg) (u : uc) (o : options) (s s0 : list Z)
         (neg : bool) (ip fp : list Z) (e : Z) (rest : list Z),
  good_text c u o s -> starts_at c o s s0 ->
  number (rules_of c o) s0 neg ip fp e rest -> exponent_bounded s e ->
  let r := signed_real neg (number_value ip fp e) in
  exists v x,
    from_chars_float_advanced c u F16 s o = Ok {| r_ptr := rest; r_ec := x; r_value := Some v |} /\
    (float16_subnormal_tie r /\ nineteen_digits (number_value ip fp e) ->
       ieee_rounded_away 11 16 neg r (b16_of_bits v) /\ x = Success) /\
    (~ float16_subnormal_tie r \/ ~ nineteen_digits (number_value ip fp e) ->
       ieee_rounded 11 16 neg r (b16_of_bits v) /\
       (~ silent_float16_overflow c ip fp e ->
          (x = OutOfRange <-> ieee_out_of_range 11 16 r) /\ (x = Success <-> ~ ieee_out_of_range 11 16 r))) /\
    (silent_float16_overflow c ip fp e -> x = Success).
Proof.
  intros c u o s s0 neg ip fp e rest G SA N EB r.
  destruct (number_main_F16 c u o s s0 neg ip fp e rest G SA N EB) as (b & x & E & (NN & NT & NE) & R1 & R2).
  pose proof (number_value_nonneg _ _ _ _ _ _ _ N) as P.
  pose proof (tie16_iff neg _ P) as TI. fold r in TI.
  exists (with_sign binary16 neg b), x. split; [exact E|]. split; [|split; [|exact R2]].
  - intros (T & D). apply TI in T. destruct T as (b' & T). pose proof (NT D b' T) as EB'. subst b'.
    split; [exact (decode_tie16 neg _ b T)|].
    pose proof (proj1 T) as H. change (2 ^ frac_bits binary16) with 1024 in H.
    destruct (classic_silent c ip fp e) as [SI|SI]; [exact (R2 SI)|]. destruct (R1 SI) as (R3 & R4).
    destruct R3 as [R3|R3]; [exact R3|exfalso]. apply R4 in R3.
    change (infinity binary16) with 31744 in R3. destruct R3 as [[_ R3]|R3]; lia.
  - intros D. assert (NE' : nearest_even binary16 (number_value ip fp e) b).
    { apply NE. destruct D as [D|D]; [right|left; exact D]. intros b' T. apply D, TI. exists b'. exact T. }
    split; [exact (decode_rounded F16 neg _ b eq_refl eq_refl eq_refl P NE')|].
    intros SI. destruct (R1 SI) as (R3 & R4).
    apply (error_code x _ _ R3 R4), (out_of_range_code F16 neg _ b P NE').
Qed.
Print Assumptions from_chars_float16_ieee_partial.

(** ** The words for infinity and NaN. *)
Lemma decode_special t neg k b H1 H2 H3 : is_special (format_of t) k b ->
  let f := binary_float_of_bits (mant_bits t) (exp_bits (format_of t)) H1 H2 H3 (with_sign (format_of t) neg b) in
  match k with
  | Inf => f = B754_infinity _ _ neg
  | Nan => is_nan _ _ f = true /\ Bsign _ _ f = neg
  end.
Proof.
  intros S f. destruct k; cbn [is_special] in S.
  - subst b. apply B2FF_inj. unfold f, binary_float_of_bits. rewrite B2FF_FF2B, inf_inf, decode_inf. reflexivity.
  - destruct S as (m & -> & Hm).
    assert (D : binary_float_of_bits_aux (mant_bits t) (exp_bits (format_of t)) (with_sign (format_of t) neg (infinity (format_of t) + m)) =
      F754_nan neg (Z.to_pos m)).
    { unfold infinity in *. rewrite frac_mb in *.
      assert (P1 : 0 < 2 ^ mant_bits t) by (destruct t; reflexivity).
      assert (P2 : 1 < 2 ^ exp_bits (format_of t)) by (destruct t; reflexivity).
      assert (P3 : 0 < 2 ^ (mant_bits t - 1)) by (destruct t; reflexivity).
      unfold binary_float_of_bits_aux. rewrite split_with_sign_any by nia.
      rewrite (Z.add_comm _ m), Z.mod_add, Z.div_add, Z.mod_small, Z.div_small, Z.add_0_l by lia.
      case Zeq_bool_spec; intros HE; [lia|]. rewrite (Zeq_bool_true _ _ eq_refl).
      destruct m as [|p|p]; [lia|reflexivity|lia]. }
    unfold f, binary_float_of_bits. rewrite is_nan_FF2B, Bsign_FF2B, D. split; reflexivity.
Qed.

Theorem from_chars_special_ieee :
  forall (c : cfg) (u : uc) (o : options) (s s0 rest : list Z) (neg : bool) (k : special_kind),
  good_text c u o s -> starts_at c o s s0 -> allows_special o = true ->
  special (leading_plus (rules_of c o)) s0 neg k rest ->
  exists v64 v32 v16 vb16,
    from_chars_float_advanced c u F64 s o = Ok {| r_ptr := rest; r_ec := Success; r_value := Some v64 |} /\
    from_chars_float_advanced c u F32 s o = Ok {| r_ptr := rest; r_ec := Success; r_value := Some v32 |} /\
    from_chars_float_advanced c u F16 s o = Ok {| r_ptr := rest; r_ec := Success; r_value := Some v16 |} /\
    from_chars_float_advanced c u BF16 s o = Ok {| r_ptr := rest; r_ec := Success; r_value := Some vb16 |} /\
    match k with
    | Inf =>
        b64_of_bits v64 = B754_infinity _ _ neg /\ b32_of_bits v32 = B754_infinity _ _ neg /\
        b16_of_bits v16 = B754_infinity _ _ neg /\ bf16_of_bits vb16 = B754_infinity _ _ neg
    | Nan =>
        (is_nan _ _ (b64_of_bits v64) = true /\ Bsign _ _ (b64_of_bits v64) = neg) /\
        (is_nan _ _ (b32_of_bits v32) = true /\ Bsign _ _ (b32_of_bits v32) = neg) /\
        (is_nan _ _ (b16_of_bits v16) = true /\ Bsign _ _ (b16_of_bits v16) = neg) /\
        (is_nan _ _ (bf16_of_bits vb16) = true /\ Bsign _ _ (bf16_of_bits vb16) = neg)
    end.
Proof.
  intros c u o s s0 rest neg k G SA AS SP.
  destruct (from_chars_special c u F64 o s s0 rest neg k G SA AS SP) as (b1 & E1 & S1).
  destruct (from_chars_special c u F32 o s s0 rest neg k G SA AS SP) as (b2 & E2 & S2).
  destruct (from_chars_special c u F16 o s s0 rest neg k G SA AS SP) as (b3 & E3 & S3).
  destruct (from_chars_special c u BF16 o s s0 rest neg k G SA AS SP) as (b4 & E4 & S4).
  eexists _, _, _, _. split; [exact E1|]. split; [exact E2|]. split; [exact E3|]. split; [exact E4|].
  pose proof (decode_special F64 neg k b1 eq_refl eq_refl eq_refl S1) as D1.
  pose proof (decode_special F32 neg k b2 eq_refl eq_refl eq_refl S2) as D2.
  pose proof (decode_special F16 neg k b3 eq_refl eq_refl eq_refl S3) as D3.
  pose proof (decode_special BF16 neg k b4 eq_refl eq_refl eq_refl S4) as D4.
  destruct k; (split; [exact D1|]; split; [exact D2|]; split; [exact D3|exact D4]).
Qed.

(** ** integer_times_pow10, for every integer type: the argument is [m]. *)
Lemma decimal_real m e : signed_real (m <? 0) (decimal (Z.abs m) e) = (IZR m * powerRZ 10 e)%R.
Proof.
  assert (EV : Q2R (decimal (Z.abs m) e) = (IZR (Z.abs m) * powerRZ 10 e)%R).
  { unfold decimal. rewrite Q2R_mult, Q2R_IZR. f_equal. rewrite RMicromega.Q2RpowerRZ by (left; discriminate).
    f_equal. unfold Q2R. cbn [Qnum Qden]. lra. }
  unfold signed_real. rewrite EV. destruct (Z.ltb_spec m 0) as [L|L].
  - rewrite Z.abs_neq, opp_IZR by lia. ring.
  - rewrite Z.abs_eq by lia. reflexivity.
Qed.

Theorem integer_times_pow10_ieee :
  forall (c : cfg) (is_signed : bool) (m e : Z),
  (if is_signed then - 2 ^ 63 < m < 2 ^ 63 else 0 <= m < 2 ^ 64) ->
  exists v64 v32 vb16,
    integer_times_pow10_any c F64 is_signed m e = Ok v64 /\
    integer_times_pow10_any c F32 is_signed m e = Ok v32 /\
    integer_times_pow10_any c BF16 is_signed m e = Ok vb16 /\
    ieee_rounded 53 1024 (m <? 0) (IZR m * powerRZ 10 e) (b64_of_bits v64) /\
    ieee_rounded 24 128 (m <? 0) (IZR m * powerRZ 10 e) (b32_of_bits v32) /\
    ieee_rounded 8 128 (m <? 0) (IZR m * powerRZ 10 e) (bf16_of_bits vb16).
Proof.
  intros c sg m e Hm.
  assert (P : (0 <= decimal (Z.abs m) e)%Q) by (rewrite decimal_dec; apply dec_nonneg; lia).
  destruct (integer_times_pow10_other_types c F64 sg m e ltac:(discriminate) Hm) as (b1 & E1 & N1).
  destruct (integer_times_pow10_other_types c F32 sg m e ltac:(discriminate) Hm) as (b2 & E2 & N2).
  destruct (integer_times_pow10_other_types c BF16 sg m e ltac:(discriminate) Hm) as (b3 & E3 & N3).
  rewrite <- decimal_real.
  exists (with_sign (format_of F64) (m <? 0) b1), (with_sign (format_of F32) (m <? 0) b2), (with_sign (format_of BF16) (m <? 0) b3).
  split; [exact E1|]. split; [exact E2|]. split; [exact E3|].
  split; [exact (decode_rounded F64 _ _ b1 eq_refl eq_refl eq_refl P N1)|].
  split; [exact (decode_rounded F32 _ _ b2 eq_refl eq_refl eq_refl P N2)|].
  exact (decode_rounded BF16 _ _ b3 eq_refl eq_refl eq_refl P N3).
Qed.
Print Assumptions integer_times_pow10_ieee.

(** For std::float16_t every subnormal tie is rounded away from zero. *)
Theorem integer_times_pow10_float16_ieee :
  forall (c : cfg) (is_signed : bool) (m e : Z),
  (if is_signed then - 2 ^ 63 < m < 2 ^ 63 else 0 <= m < 2 ^ 64) ->
  let r := (IZR m * powerRZ 10 e)%R in
  exists v, integer_times_pow10_any c F16 is_signed m e = Ok v /\
    (float16_subnormal_tie r -> ieee_rounded_away 11 16 (m <? 0) r (b16_of_bits v)) /\
    (~ float16_subnormal_tie r -> ieee_rounded 11 16 (m <? 0) r (b16_of_bits v)).
Proof.
  intros c sg m e Hm r.
  assert (P : (0 <= decimal (Z.abs m) e)%Q) by (rewrite decimal_dec; apply dec_nonneg; lia).
  assert (E : exists b, integer_times_pow10_u c F16 (Z.abs m) e = Ok b /\ 
     integer_times_pow10_any c F16 sg m e = Ok (with_sign binary16 (m <? 0) b)).
  { destruct sg.
    - destruct (integer_times_pow10_odd c F16 m e Hm) as (b & E1 & _ & E2). exists b. split; [exact E1|].
      unfold integer_times_pow10_any. rewrite to_signed_small by lia. exact E2.
    - destruct (integer_times_pow10_float16_exact c m e Hm) as (b & E1 & _). exists b.
      rewrite Z.abs_eq by lia. split; [exact E1|]. replace (m <? 0) with false by (symmetry; apply Z.ltb_ge; lia).
      unfold integer_times_pow10_any, with_sign. rewrite u64_small by exact Hm. rewrite E1, Z.add_0_r. reflexivity. }
  destruct E as (b & E1 & E2). exists (with_sign binary16 (m <? 0) b). split; [exact E2|].
  destruct (integer_times_pow10_float16_exact c (Z.abs m) e) as (b' & E1' & _ & T & NT); [destruct sg; lia|].
  assert (b' = b) by congruence. subst b'. pose proof (tie16_iff (m <? 0) _ P) as TI.
  rewrite decimal_real in TI. fold r in TI. pose proof (decimal_real m e) as DR. fold r in DR. split.
  - intros TR. apply TI in TR. destruct TR as (b' & TR). pose proof (T b' TR) as EB. subst b'.
    rewrite <- DR. exact (decode_tie16 _ _ b TR).
  - intros TR. rewrite <- DR. apply (decode_rounded F16 _ _ b eq_refl eq_refl eq_refl P).
    apply NT. intros b' TB. apply TR, TI. exists b'. exact TB.
Qed.
Print Assumptions integer_times_pow10_float16_ieee.

(** The hypotheses are met: "1e999" and "1e-999" (threshold_hypotheses in
    Props_Range); the definitions compute as expected: "-1.5" is minus three
    halves, "1e999" infinity. *)
Example double_ieee_example :
  from_chars_float cfg_x86_64 Char_s F64 [45; 49; 46; 53] 5 =
    Ok {| r_ptr := []; r_ec := Success; r_value := Some 13832806255468478464 |} /\
  B2R 53 1024 (b64_of_bits 13832806255468478464) = (- (3 / 2))%R /\
  is_finite 53 1024 (b64_of_bits 13832806255468478464) = true /\
  from_chars_float cfg_x86_64 Char_s F64 (text_1e999 false) 5 =
    Ok {| r_ptr := []; r_ec := OutOfRange; r_value := Some 9218868437227405312 |} /\
  b64_of_bits 9218868437227405312 = B754_infinity 53 1024 false.
Proof.
  split; [vm_compute; reflexivity|]. split.
  - unfold b64_of_bits, binary_float_of_bits. rewrite B2R_FF2B.
    replace (binary_float_of_bits_aux 52 11 13832806255468478464) with (F754_finite true 6755399441055744 (-52))
      by (vm_compute; reflexivity).
    unfold FF2R, F2R. cbn [Fnum Fexp cond_Zopp bpow radix_val radix2 Z.pow_pos Pos.iter Z.opp].
    match goal with |- context [(/ IZR ?z)%R] => let v := eval vm_compute in z in change z with v end. lra.
  - split; [unfold b64_of_bits, binary_float_of_bits; rewrite is_finite_FF2B; vm_compute; reflexivity|].
    split; [vm_compute; reflexivity|]. apply B2FF_inj. unfold b64_of_bits, binary_float_of_bits. rewrite B2FF_FF2B.
    vm_compute. reflexivity.
Qed.

(** A subnormal tie of binary16 with 18 digits: 298023223876953125e-25 is 2^-25,
    half-way between 0 and the smallest number 2^-24, to which it is rounded. *)
Example float16_tie_met :
  float16_subnormal_tie (signed_real true (number_value [50;57;56;48;50;51;50;50;51;56;55;54;57;53;51;49;50;53] [] (-25))) /\
  nineteen_digits (number_value [50;57;56;48;50;51;50;50;51;56;55;54;57;53;51;49;50;53] [] (-25)) /\
  from_chars_float cfg_x86_64 Char_s F16 ([45;50;57;56;48;50;51;50;50;51;56;55;54;57;53;51;49;50;53] ++ [101;45;50;53]) 5 =
    Ok {| r_ptr := []; r_ec := Success; r_value := Some 32769 |}.
Proof.
  split; [|split; [|vm_compute; reflexivity]].
  - apply tie16_iff; [vm_compute; discriminate|]. exists 1. split; [vm_compute; split; discriminate|]. vm_compute. reflexivity.
  - exists 298023223876953125, (-25). split; [lia|]. vm_compute. reflexivity.
Qed.
