(** Property C50: how far the result is from the decimal, and which decimals
    survive.  Statements use the entry point, SpecFloat, SpecGrammar, SpecRel and
    SpecApi only. *)
From Verif Require Import Machine Config Chars Format ParseNumber DecToBin FromChars WordLemmas
  Rounding ComputeFloat SpecFloat FloatBridge SpecGrammar SpecApi Scan ParseSpec Special
  SlowPath ManyDigits Saturate FloatMaster FloatApi FloatRel SpecRel Props_Pow10 Props_Float Props_Relations Props_Texts.
From Coq Require Import QArith Qabs Qround Qpower Lqa.
Open Scope Z_scope.

(** Decimal digits that survive the conversion to the type and back: 15, 6, 3, 2
    (std::numeric_limits<T>::digits10). *)
Definition digits10 (f : format) : Z :=
  match frac_bits f with 52 => 15 | 23 => 6 | 10 => 3 | _ => 2 end.

(** The smallest positive normal number, the largest finite number and the
    smallest positive number of a format. *)
Definition smallest_normal (f : format) : Q := magnitude f (2 ^ frac_bits f).
Definition largest_finite (f : format) : Q := magnitude f (infinity f - 1).
Definition smallest_positive (f : format) : Q := magnitude f 1.

(** ** Error bounds of [near] *)

(** Neighbours of a non-negative number and their distance. *)
Lemma bracket t x : (0 <= x)%Q -> exists a k m,
  a = k * 2 ^ mant_bits t + m /\ canon (mant_bits t) k m /\ m < 2 ^ (mant_bits t + 1) /\
  ([m * 2 ^ k]q * ulp0 t <= x)%Q /\ (x < [(m + 1) * 2 ^ k]q * ulp0 t)%Q.
Proof.
  intros Hx. pose proof (mb_range t) as Hmb. pose proof (ulp0_pos t) as P.
  assert (Hy : (0 <= units t x)%Q) by (apply units_nonneg; exact Hx).
  destruct (Qfloor_bounds (units t x)) as [F1 F2]. set (q := Qfloor (units t x)) in *.
  assert (Hq : 0 <= q).
  { assert ([0]q < [q + 1]q)%Q by (change [0]q with 0%Q; lra). apply q_lt in H. lia. }
  destruct (floor_code_spec (mant_bits t) q ltac:(lia) Hq) as (A0 & A1 & A2).
  set (a := fp_floor_code (mant_bits t) q) in *. clearbody a.
  destruct (U_dec (mant_bits t) a ltac:(lia) A0) as (k & m & E & C & L).
  exists a, k, m. split; [exact E|]. split; [exact C|]. split; [exact L|].
  rewrite E in A1, A2. rewrite U_enc in A1 by (lia || assumption). rewrite U_succ in A2 by (lia || assumption).
  rewrite (units_ulp0 t x). split.
  - apply Qmult_le_compat_r; [|apply Qlt_le_weak, P]. apply q_le in A1. eapply Qle_trans; [exact A1|exact F1].
  - apply Qmult_lt_r; [exact P|]. assert (A3 : q + 1 <= (m + 1) * 2 ^ k) by lia. apply q_le in A3.
    eapply Qlt_le_trans; [exact F2|exact A3].
Qed.

Lemma near_error t x b : (0 <= x)%Q -> (x <= largest_finite (format_of t))%Q -> near t x b ->
  0 <= b < inf_code t /\
  ((Qabs (x - magnitude (format_of t) b) * [2 ^ (mant_bits t + 1)]q <= x)%Q \/
   (Qabs (x - magnitude (format_of t) b) * 2 <= ulp0 t)%Q /\ (x < smallest_normal (format_of t))%Q).
Proof.
  intros Hx HM N. pose proof (mb_range t) as Hmb. pose proof (inf_code_pos t) as PI. pose proof (ulp0_pos t) as P.
  pose proof (near_range t x b N) as RB. pose proof (nearest_of t x b N) as (_ & ND). rewrite inf_inf in ND.
  assert (LB : b < inf_code t).
  { destruct (Z.eq_dec b (inf_code t)) as [->|NE]; [exfalso|lia].
    pose proof (ND (inf_code t - 1) ltac:(lia)) as D. unfold largest_finite in HM. rewrite inf_inf in HM.
    pose proof (magnitude_lt t (inf_code t - 1) (inf_code t) ltac:(lia)) as ML.
    rewrite !Qabs_neg in D by lra. lra. }
  split; [lia|].
  destruct (bracket t x Hx) as (a & k & m & E & C & L & B1 & B2).
  assert (A0 : 0 <= a) by (destruct C; pose proof (pow2_pos (mant_bits t)); nia).
  assert (AI : a < inf_code t).
  { destruct (Z_lt_le_dec a (inf_code t)) as [G|G]; [exact G|exfalso].
    unfold largest_finite in HM. rewrite inf_inf in HM.
    pose proof (magnitude_lt t (inf_code t - 1) a ltac:(lia)) as ML.
    assert (EA : (magnitude (format_of t) a == [m * 2 ^ k]q * ulp0 t)%Q).
    { rewrite magnitude_units by lia. rewrite E, U_enc by (lia || assumption). reflexivity. }
    rewrite EA in ML. lra. }
  pose proof (ND a ltac:(lia)) as D1. pose proof (ND (a + 1) ltac:(lia)) as D2. clear ND.
  rewrite !(magnitude_units t a), E, U_enc in D1 by (lia || assumption).
  rewrite !(magnitude_units t (a + 1)), E, U_succ in D2 by (lia || assumption || (clear - E A0; lia)).
  set (D := Qabs (x - magnitude (format_of t) b)) in *. clearbody D.
  rewrite (Qabs_pos (x - [m * 2 ^ k]q * ulp0 t)) in D1 by lra.
  rewrite (Qabs_neg (x - [(m + 1) * 2 ^ k]q * ulp0 t)) in D2 by lra.
  assert (G : (D * 2 <= [2 ^ k]q * ulp0 t)%Q).
  { rewrite Z.mul_add_distr_r, Z.mul_1_l, inject_Z_plus in D2. lra. }
  destruct C as (Hk & Hm & Hc).
  destruct (Z_lt_le_dec m (2 ^ mant_bits t)) as [S|S].
  - right. assert (k = 0) by lia. subst k. change (2 ^ 0) with 1 in *. rewrite Z.mul_1_r in *.
    change [1]q with 1%Q in G. split; [lra|].
    unfold smallest_normal. rewrite frac_mb, magnitude_units by (pose proof (pow2_pos (mant_bits t)); lia).
    rewrite fp_units_sub by (pose proof (pow2_pos (mant_bits t)); lia).
    eapply Qlt_le_trans; [exact B2|]. apply Qmult_le_compat_r; [|apply Qlt_le_weak, P]. apply -> q_le. lia.
  - left. rewrite pow2_S by lia. rewrite inject_Z_mult. change [2]q with 2%Q.
    assert (S2 : 2 ^ k * 2 ^ mant_bits t <= m * 2 ^ k).
    { rewrite Z.mul_comm. apply Z.mul_le_mono_nonneg_r; [apply Z.pow_nonneg; lia|exact S]. }
    apply q_le in S2. rewrite inject_Z_mult in S2.
    assert (S3 : ([2 ^ k]q * [2 ^ mant_bits t]q * ulp0 t <= [m * 2 ^ k]q * ulp0 t)%Q)
      by (apply Qmult_le_compat_r; [exact S2|apply Qlt_le_weak, P]).
    assert (PT : (0 <= [2 ^ mant_bits t]q)%Q) by (apply (proj1 (q_nonneg _)); apply Z.pow_nonneg; lia).
    assert (S4 : (D * 2 * [2 ^ mant_bits t]q <= [2 ^ k]q * ulp0 t * [2 ^ mant_bits t]q)%Q)
      by (apply Qmult_le_compat_r; assumption).
    lra.
Qed.

(** ** C50: the error is at most half a unit in the last place: relative to the
    value it is at most 2^-(frac_bits+1) for normal numbers, and half the smallest
    positive number below. *)
Theorem from_chars_error_bound :
  forall (c : cfg) (u : uc) (t : ftype) (o : options) (s s0 : list Z)
         (neg : bool) (ip fp : list Z) (e : Z) (rest : list Z),
  good_text c u o s -> starts_at c o s s0 ->
  number (rules_of c o) s0 neg ip fp e rest -> exponent_bounded s e ->
  (number_value ip fp e <= largest_finite (format_of t))%Q ->
  exists b x, from_chars_float_advanced c u t s o =
      Ok {| r_ptr := rest; r_ec := x; r_value := Some (with_sign (format_of t) neg b) |} /\
    0 <= b < infinity (format_of t) /\
    (x = OutOfRange <-> (0 < number_value ip fp e)%Q /\ b = 0) /\ (x <> OutOfRange -> x = Success) /\
    let error := Qabs (number_value ip fp e - magnitude (format_of t) b) in
    ((smallest_normal (format_of t) <= number_value ip fp e)%Q ->
       (error * inject_Z (2 ^ (frac_bits (format_of t) + 1)) <= number_value ip fp e)%Q) /\
    ((number_value ip fp e <= smallest_normal (format_of t))%Q ->
       (error * 2 <= smallest_positive (format_of t))%Q).
Proof.
  intros c u t o s s0 neg ip fp e rest G SA N EB HM.
  destruct (float_number c u t o s s0 neg ip fp e rest (good_text_ok _ _ _ _ G) SA N) as (b & x & E & NR & OE).
  { destruct EB; [right|left]; assumption. }
  destruct (number_digits _ _ _ _ _ _ _ N) as (AI & AF & _).
  pose proof (digits_value_range (ip ++ fp) ltac:(apply Forall_app; split; assumption)) as (W0 & _).
  pose proof (number_value_dec ip fp e) as EV.
  set (W := digits_value (ip ++ fp)) in *. set (q := e - Z.of_nat (length fp)) in *.
  set (v := number_value ip fp e) in *.
  pose proof (near_comp _ _ _ _ (Qeq_sym _ _ EV) NR) as NV.
  assert (V0 : (0 <= v)%Q) by (rewrite EV; apply dec_nonneg; exact W0).
  destruct (near_error t v b V0 HM NV) as (RB & ER).
  pose proof (code_finite c t W q b x W0 NR (proj2 RB) OE) as CX.
  exists b, x. split; [exact E|]. rewrite inf_inf. split; [exact RB|].
  assert (PV : 0 < W <-> (0 < v)%Q).
  { unfold W, v. symmetry. apply number_value_pos. }
  split; [|split; [|split]].
  - rewrite CX. destruct (Z.ltb_spec 0 W) as [A|A]; cbn [andb]; [destruct (Z.eqb_spec b 0) as [B|B]|].
    + split; [intros _|reflexivity]. split; [apply PV; exact A|exact B].
    + split; [discriminate|]. intros (_ & B2). contradiction.
    + split; [discriminate|]. intros (B1 & _). apply PV in B1. lia.
  - rewrite CX. intros H. destruct ((0 <? W) && (b =? 0)); [contradiction H; reflexivity|reflexivity].
  - intros H. rewrite frac_mb. destruct ER as [ER|[_ ER]]; [exact ER|]. exfalso. lra.
  - intros H.
    assert (SP : (smallest_positive (format_of t) == ulp0 t)%Q).
    { unfold smallest_positive. rewrite magnitude_units by lia. pose proof (mb_range t).
      rewrite fp_units_sub by (pose proof (pow2_pos (mant_bits t)); lia). change [1]q with 1%Q. ring. }
    rewrite SP. destruct ER as [ER|[ER _]]; [|exact ER].
    assert (SN : (smallest_normal (format_of t) == [2 ^ mant_bits t]q * ulp0 t)%Q).
    { unfold smallest_normal. rewrite frac_mb, magnitude_units by (apply Z.pow_nonneg; lia).
      pose proof (mb_range t). pose proof (pow2_pos (mant_bits t)). rewrite fp_units_sub by lia. reflexivity. }
    rewrite SN in H. pose proof (mb_range t). rewrite pow2_S, inject_Z_mult in ER by lia. change [2]q with 2%Q in ER.
    assert (PT : (0 < [2 ^ mant_bits t]q)%Q) by (apply (proj1 (q_pos _)); apply pow2_pos; lia).
    set (D := Qabs (v - magnitude (format_of t) b)) in *. clearbody D. set (T := [2 ^ mant_bits t]q) in *. clearbody T.
    assert (H2 : ((D * 2) * T <= ulp0 t * T)%Q) by lra. apply Qmult_le_r in H2; [exact H2|exact PT].
Qed.
Print Assumptions from_chars_error_bound.

(** A decimal of at most [digits10] significant digits survives: rounding the
    result to the same decimal place gives it back. *)
Theorem from_chars_digits10 :
  forall (c : cfg) (u : uc) (t : ftype) (o : options) (s s0 : list Z)
         (neg : bool) (ip fp : list Z) (e : Z) (rest : list Z) (w q : Z),
  good_text c u o s -> starts_at c o s s0 ->
  number (rules_of c o) s0 neg ip fp e rest -> exponent_bounded s e ->
  (number_value ip fp e == decimal w q)%Q -> 0 < w < 10 ^ digits10 (format_of t) ->
  (smallest_normal (format_of t) <= decimal w q <= largest_finite (format_of t))%Q ->
  exists b, from_chars_float_advanced c u t s o =
      Ok {| r_ptr := rest; r_ec := Success; r_value := Some (with_sign (format_of t) neg b) |} /\
    0 < b < infinity (format_of t) /\
    (Qabs (decimal w q - magnitude (format_of t) b) < (1 # 2) * Qpower 10 q)%Q.
Proof.
  intros c u t o s s0 neg ip fp e rest w q G SA N EB EV HW (L1 & L2).
  rewrite <- EV in L1, L2.
  destruct (from_chars_error_bound c u t o s s0 neg ip fp e rest G SA N EB L2) as (b & x & E & RB & RX & SX & EN & _).
  specialize (EN L1). cbv zeta in EN. pose proof (Qpower_10_pos q) as P.
  assert (ERR : (Qabs (decimal w q - magnitude (format_of t) b) < (1 # 2) * Qpower 10 q)%Q).
  { rewrite <- EV. set (D := Qabs (number_value ip fp e - magnitude (format_of t) b)) in *.
    rewrite EV in EN. unfold decimal in EN. clearbody D. set (Z10 := Qpower 10 q) in *. clearbody Z10.
    assert (WB : (inject_Z w * 2 < inject_Z (2 ^ (frac_bits (format_of t) + 1)))%Q).
    { change 2%Q with (inject_Z 2). rewrite <- inject_Z_mult. apply -> q_lt.
      destruct t; cbn [format_of digits10 frac_bits binary64 binary32 binary16 bfloat16] in *; lia. }
    set (T := inject_Z (2 ^ (frac_bits (format_of t) + 1))) in *. clearbody T.
    assert (WP : (0 < inject_Z w)%Q) by (apply (proj1 (q_pos _)); lia).
    assert (PT : (0 < T)%Q) by lra.
    assert (W2 : (inject_Z w * 2 * Z10 < T * Z10)%Q) by (apply Qmult_lt_r; assumption).
    assert (H : (D * T < (1 # 2) * Z10 * T)%Q) by lra.
    apply Qmult_lt_r in H; assumption. }
  assert (B0 : 0 < b).
  { destruct (Z.eq_dec b 0) as [->|]; [exfalso|lia].
    assert (M0 : (magnitude (format_of t) 0 == 0)%Q) by (clear; destruct t; vm_compute; reflexivity).
    rewrite M0 in ERR. unfold decimal in ERR. set (Z10 := Qpower 10 q) in *. clearbody Z10.
    assert (W1 : (1 <= inject_Z w)%Q) by (change 1%Q with (inject_Z 1); rewrite <- Zle_Qle; lia).
    assert (W2 : (1 * Z10 <= inject_Z w * Z10)%Q) by (apply Qmult_le_compat_r; lra).
    rewrite Qabs_pos in ERR by lra. lra. }
  exists b. split; [|split; [lia|exact ERR]].
  rewrite E. do 2 f_equal. apply SX. intros OX. apply RX in OX. lia.
Qed.
Print Assumptions from_chars_digits10.

(** Nearby numbers of few decimal digits are further apart than their errors. *)
Lemma half_of e K T P : (e * T <= K * P)%Q -> (2 * K < T)%Q -> (0 < K)%Q -> (0 < P)%Q -> (2 * e < P)%Q.
Proof.
  intros A B C D. assert (T0 : (0 < T)%Q) by lra.
  assert (H : (2 * K * P < T * P)%Q) by (apply Qmult_lt_r; assumption).
  assert (G : (2 * e * T < P * T)%Q) by lra. apply Qmult_lt_r in G; assumption.
Qed.

Lemma sep_of w1 w2 q1 q2 : q2 <= q1 -> (inject_Z w1 * Qpower 10 q1 < inject_Z w2 * Qpower 10 q2)%Q ->
  (inject_Z w1 * Qpower 10 q1 + Qpower 10 q2 <= inject_Z w2 * Qpower 10 q2)%Q.
Proof.
  intros Q LT. pose proof (Qpower_10_pos q2) as P2.
  assert (EP : (Qpower 10 q1 == inject_Z (10 ^ (q1 - q2)) * Qpower 10 q2)%Q).
  { replace q1 with (q1 - q2 + q2) at 1 by lia. rewrite Qpower_plus by discriminate.
    rewrite Zpower_Qpower by lia. reflexivity. }
  rewrite EP in LT |- *. set (P := Qpower 10 q2) in *. clearbody P.
  assert (L2 : (inject_Z (w1 * 10 ^ (q1 - q2)) * P < inject_Z w2 * P)%Q) by (rewrite inject_Z_mult; lra).
  apply Qmult_lt_r in L2; [|exact P2]. rewrite <- Zlt_Qlt in L2.
  assert (L3 : w1 * 10 ^ (q1 - q2) + 1 <= w2) by lia. rewrite Zle_Qle, inject_Z_plus, inject_Z_mult in L3.
  change (inject_Z 1) with 1%Q in L3.
  assert (L4 : ((inject_Z w1 * inject_Z (10 ^ (q1 - q2)) + 1) * P <= inject_Z w2 * P)%Q) by (apply Qmult_le_compat_r; lra).
  lra.
Qed.

Lemma sep_of' w1 w2 q1 q2 : q1 <= q2 -> (inject_Z w1 * Qpower 10 q1 < inject_Z w2 * Qpower 10 q2)%Q ->
  (inject_Z w1 * Qpower 10 q1 + Qpower 10 q1 <= inject_Z w2 * Qpower 10 q2)%Q.
Proof.
  intros Q LT. pose proof (Qpower_10_pos q1) as P2.
  assert (EP : (Qpower 10 q2 == inject_Z (10 ^ (q2 - q1)) * Qpower 10 q1)%Q).
  { replace q2 with (q2 - q1 + q1) at 1 by lia. rewrite Qpower_plus by discriminate.
    rewrite Zpower_Qpower by lia. reflexivity. }
  rewrite EP in LT |- *. set (P := Qpower 10 q1) in *. clearbody P.
  assert (L2 : (inject_Z w1 * P < inject_Z (w2 * 10 ^ (q2 - q1)) * P)%Q) by (rewrite inject_Z_mult; lra).
  apply Qmult_lt_r in L2; [|exact P2]. rewrite <- Zlt_Qlt in L2.
  assert (L3 : w1 + 1 <= w2 * 10 ^ (q2 - q1)) by lia. rewrite Zle_Qle, inject_Z_plus, inject_Z_mult in L3.
  change (inject_Z 1) with 1%Q in L3.
  assert (L4 : ((inject_Z w1 + 1) * P <= (inject_Z w2 * inject_Z (10 ^ (q2 - q1))) * P)%Q) by (apply Qmult_le_compat_r; lra).
  lra.
Qed.

Lemma digits_order (T K w1 w2 q1 q2 : Z) (m1 m2 : Q) :
  2 * K < T -> 0 < w1 < K -> 0 < w2 < K ->
  (inject_Z w1 * Qpower 10 q1 < inject_Z w2 * Qpower 10 q2)%Q ->
  (Qabs (inject_Z w1 * Qpower 10 q1 - m1) * inject_Z T <= inject_Z w1 * Qpower 10 q1)%Q ->
  (Qabs (inject_Z w2 * Qpower 10 q2 - m2) * inject_Z T <= inject_Z w2 * Qpower 10 q2)%Q ->
  (m1 < m2)%Q.
Proof.
  intros KT W1 W2 LT A1 A2. pose proof (Qpower_10_pos q1) as P1. pose proof (Qpower_10_pos q2) as P2.
  assert (KT' : (2 * inject_Z K < inject_Z T)%Q) by (change 2%Q with (inject_Z 2); rewrite <- inject_Z_mult, <- Zlt_Qlt; exact KT).
  assert (K0 : (0 < inject_Z K)%Q) by (change 0%Q with (inject_Z 0); rewrite <- Zlt_Qlt; lia).
  assert (B1 : (inject_Z w1 * Qpower 10 q1 + Qpower 10 q1 <= inject_Z K * Qpower 10 q1)%Q).
  { assert (L3 : w1 + 1 <= K) by lia. rewrite Zle_Qle, inject_Z_plus in L3. change (inject_Z 1) with 1%Q in L3.
    assert (L4 : ((inject_Z w1 + 1) * Qpower 10 q1 <= inject_Z K * Qpower 10 q1)%Q) by (apply Qmult_le_compat_r; lra). lra. }
  assert (B2 : (inject_Z w2 * Qpower 10 q2 <= inject_Z K * Qpower 10 q2)%Q).
  { apply Qmult_le_compat_r; [|lra]. rewrite <- Zle_Qle. lia. }
  pose proof (Qle_Qabs (inject_Z w2 * Qpower 10 q2 - m2)) as D2.
  pose proof (Qle_Qabs (m1 - inject_Z w1 * Qpower 10 q1)) as D1. rewrite Qabs_Qminus in D1.
  destruct (Z_le_gt_dec q2 q1) as [Q|Q].
  - pose proof (sep_of w1 w2 q1 q2 Q LT) as SEP.
    set (E1 := Qabs (inject_Z w1 * Qpower 10 q1 - m1)) in *. set (E2 := Qabs (inject_Z w2 * Qpower 10 q2 - m2)) in *.
    pose proof (half_of E1 (inject_Z K) (inject_Z T) (Qpower 10 q2) ltac:(lra) KT' K0 P2) as H1.
    pose proof (half_of E2 (inject_Z K) (inject_Z T) (Qpower 10 q2) ltac:(lra) KT' K0 P2) as H2.
    lra.
  - pose proof (sep_of' w1 w2 q1 q2 ltac:(lia) LT) as SEP.
    set (E1 := Qabs (inject_Z w1 * Qpower 10 q1 - m1)) in *. set (E2 := Qabs (inject_Z w2 * Qpower 10 q2 - m2)) in *.
    pose proof (half_of E1 (inject_Z K) (inject_Z T) (Qpower 10 q1) ltac:(lra) KT' K0 P1) as H1.
    set (v1 := (inject_Z w1 * Qpower 10 q1)%Q) in *. set (v2 := (inject_Z w2 * Qpower 10 q2)%Q) in *.
    destruct (Qlt_le_dec (inject_Z K * Qpower 10 q1) v2) as [C|C].
    + set (P := Qpower 10 q1) in *. clearbody E1 E2 v1 v2 P. set (k := inject_Z K) in *. set (tt := inject_Z T) in *. clearbody k.
      assert (G1 : (2 * k * P < tt * P)%Q) by (apply Qmult_lt_r; assumption).
      assert (T1 : (0 < tt)%Q) by lra.
      assert (T2 : (1 <= tt)%Q).
      { unfold tt. clear - KT W1. change 1%Q with (inject_Z 1). rewrite <- Zle_Qle. lia. }
      assert (G2 : (k * P * (tt - 1) <= v2 * (tt - 1))%Q) by (apply Qmult_le_compat_r; lra).
      assert (G3 : ((v2 - m2) * tt <= E2 * tt)%Q) by (apply Qmult_le_compat_r; lra).
      assert (G4 : ((2 * (k * P) - P) * tt < 2 * m2 * tt)%Q) by lra.
      apply Qmult_lt_r in G4; [|exact T1]. lra.
    + pose proof (half_of E2 (inject_Z K) (inject_Z T) (Qpower 10 q1) ltac:(lra) KT' K0 P1) as H2. lra.
Qed.

(** Different decimals of at most [digits10] digits stay different, and in order. *)
Theorem from_chars_digits10_order :
  forall (c1 c2 : cfg) (u1 u2 : uc) (t : ftype) (o1 o2 : options) (s1 s2 s01 s02 : list Z)
         (n1 n2 : bool) (ip1 ip2 fp1 fp2 : list Z) (e1 e2 : Z) (rest1 rest2 : list Z) (w1 w2 q1 q2 : Z),
  good_text c1 u1 o1 s1 -> starts_at c1 o1 s1 s01 ->
  number (rules_of c1 o1) s01 n1 ip1 fp1 e1 rest1 -> exponent_bounded s1 e1 ->
  good_text c2 u2 o2 s2 -> starts_at c2 o2 s2 s02 ->
  number (rules_of c2 o2) s02 n2 ip2 fp2 e2 rest2 -> exponent_bounded s2 e2 ->
  (number_value ip1 fp1 e1 == decimal w1 q1)%Q -> 0 < w1 < 10 ^ digits10 (format_of t) ->
  (number_value ip2 fp2 e2 == decimal w2 q2)%Q -> 0 < w2 < 10 ^ digits10 (format_of t) ->
  (smallest_normal (format_of t) <= decimal w1 q1)%Q -> (decimal w1 q1 < decimal w2 q2)%Q ->
  (decimal w2 q2 <= largest_finite (format_of t))%Q ->
  exists b1 b2,
    from_chars_float_advanced c1 u1 t s1 o1 =
      Ok {| r_ptr := rest1; r_ec := Success; r_value := Some (with_sign (format_of t) n1 b1) |} /\
    from_chars_float_advanced c2 u2 t s2 o2 =
      Ok {| r_ptr := rest2; r_ec := Success; r_value := Some (with_sign (format_of t) n2 b2) |} /\
    0 < b1 < b2 /\ b2 < infinity (format_of t).
Proof.
  intros c1 c2 u1 u2 t o1 o2 s1 s2 s01 s02 n1 n2 ip1 ip2 fp1 fp2 e1 e2 rest1 rest2 w1 w2 q1 q2
    G1 SA1 N1 EB1 G2 SA2 N2 EB2 EV1 HW1 EV2 HW2 LO LT HI.
  destruct (from_chars_digits10 c1 u1 t o1 s1 s01 n1 ip1 fp1 e1 rest1 w1 q1 G1 SA1 N1 EB1 EV1 HW1) as (b1 & E1 & B1 & R1).
  { split; [exact LO|]. apply Qlt_le_weak. eapply Qlt_le_trans; [exact LT|exact HI]. }
  destruct (from_chars_digits10 c2 u2 t o2 s2 s02 n2 ip2 fp2 e2 rest2 w2 q2 G2 SA2 N2 EB2 EV2 HW2) as (b2 & E2 & B2 & R2).
  { split; [|exact HI]. apply Qlt_le_weak. eapply Qle_lt_trans; [exact LO|exact LT]. }
  assert (EN : forall c u o s s0 n ip fp e rest w q b,
    good_text c u o s -> starts_at c o s s0 -> number (rules_of c o) s0 n ip fp e rest -> exponent_bounded s e ->
    (number_value ip fp e == decimal w q)%Q ->
    (smallest_normal (format_of t) <= decimal w q)%Q -> (decimal w q <= largest_finite (format_of t))%Q ->
    from_chars_float_advanced c u t s o = Ok {| r_ptr := rest; r_ec := Success; r_value := Some (with_sign (format_of t) n b) |} ->
    (Qabs (decimal w q - magnitude (format_of t) b) * inject_Z (2 ^ (frac_bits (format_of t) + 1)) <= decimal w q)%Q).
  { clear. intros c u o s s0 n ip fp e rest w q b2 G SA N EB EV LO HI E2.
    destruct (from_chars_error_bound c u t o s s0 n ip fp e rest G SA N EB ltac:(rewrite EV; exact HI))
      as (b & x & E & RB & _ & _ & EN & _).
    rewrite E2 in E.
    assert (EQ : with_sign (format_of t) n b2 = with_sign (format_of t) n b) by congruence.
    unfold with_sign in EQ. assert (b2 = b) by lia. subst b. rewrite <- EV. apply EN. rewrite EV. exact LO. }
  pose proof (EN _ _ _ _ _ _ _ _ _ _ _ _ _ G1 SA1 N1 EB1 EV1 LO ltac:(lra) E1) as EN1.
  pose proof (EN _ _ _ _ _ _ _ _ _ _ _ _ _ G2 SA2 N2 EB2 EV2 ltac:(lra) HI E2) as EN2.
  exists b1, b2. split; [exact E1|]. split; [exact E2|]. split; [|lia]. split; [lia|].
  destruct (Z_lt_le_dec b1 b2) as [H|H]; [exact H|exfalso].
  pose proof (magnitude_le t b2 b1 ltac:(lia)) as MM.
  assert (D10 : 2 * 10 ^ digits10 (format_of t) < 2 ^ (frac_bits (format_of t) + 1)) by (clear; destruct t; vm_compute; reflexivity).
  pose proof (digits_order _ _ w1 w2 q1 q2 _ _ D10 HW1 HW2 LT EN1 EN2) as ML. lra.
Qed.
Print Assumptions from_chars_digits10_order.

(** Not so with one digit more. *)
Definition text_of_digits (l : list Z) : list Z := map (fun d => d + 48) l.
Example digits10_sharp :
  (* 9007199254740992 and 9007199254740993 as double *)
  from_chars_float cfg_x86_64 Char_s F64 (text_of_digits [9;0;0;7;1;9;9;2;5;4;7;4;0;9;9;2]) 5 =
  from_chars_float cfg_x86_64 Char_s F64 (text_of_digits [9;0;0;7;1;9;9;2;5;4;7;4;0;9;9;3]) 5 /\
  (* 8589973e3 and 8589974e3 as float *)
  from_chars_float cfg_x86_64 Char_s F32 (text_of_digits [8;5;8;9;9;7;3] ++ [101; 51]) 5 =
  from_chars_float cfg_x86_64 Char_s F32 (text_of_digits [8;5;8;9;9;7;4] ++ [101; 51]) 5 /\
  (* 4097 and 4096 as float16 *)
  from_chars_float cfg_x86_64 Char_s F16 (text_of_digits [4;0;9;6]) 5 =
  from_chars_float cfg_x86_64 Char_s F16 (text_of_digits [4;0;9;7]) 5 /\
  (* 512 and 513 as bfloat16 *)
  from_chars_float cfg_x86_64 Char_s BF16 (text_of_digits [5;1;2]) 5 =
  from_chars_float cfg_x86_64 Char_s BF16 (text_of_digits [5;1;3]) 5.
Proof. repeat split; vm_compute; reflexivity. Qed.

(** The hypotheses of the three theorems are met by "1.1" and "1.2". *)
Lemma number_1_d d : 48 <= d <= 57 -> number (rules_of cfg_x86_64 general) [49; 46; d] false [49] [d] 0 [].
Proof.
  intros D. assert (DD : digit d = true) by (unfold digit; lia).
  exists [49; 46; d], [46; d], true, []. split; [apply signed_none; cbn; lia|].
  split; [split; [reflexivity|split; [repeat constructor|cbn; discriminate]]|].
  split; [apply (fraction_some (rules_of cfg_x86_64 general)); split; [reflexivity|split; [repeat constructor; exact DD|exact I]]|].
  split; [discriminate|]. apply exponent_none; [intros s1 H; inversion H|right; reflexivity].
Qed.

Example digits10_example : forall (t : ftype),
  let s1 := [49; 46; 49] in let s2 := [49; 46; 50] in
  good_text cfg_x86_64 Char_s general s1 /\ starts_at cfg_x86_64 general s1 s1 /\
  number (rules_of cfg_x86_64 general) s1 false [49] [49] 0 [] /\ exponent_bounded s1 0 /\
  Qeq (number_value [49] [49] 0) (decimal 11 (-1)) /\ 0 < 11 < 10 ^ digits10 (format_of t) /\
  (smallest_normal (format_of t) <= decimal 11 (-1) <= largest_finite (format_of t))%Q /\
  good_text cfg_x86_64 Char_s general s2 /\ starts_at cfg_x86_64 general s2 s2 /\
  number (rules_of cfg_x86_64 general) s2 false [49] [50] 0 [] /\ exponent_bounded s2 0 /\
  Qeq (number_value [49] [50] 0) (decimal 12 (-1)) /\ 0 < 12 < 10 ^ digits10 (format_of t) /\
  (decimal 11 (-1) < decimal 12 (-1))%Q /\ (decimal 12 (-1) <= largest_finite (format_of t))%Q.
Proof.
  intros t s1 s2.
  assert (G : forall d, 48 <= d <= 57 -> good_text cfg_x86_64 Char_s general [49; 46; d]).
  { intros d D. split; [repeat constructor; cbn; lia|]. split; [discriminate|]. split; [|reflexivity].
    vm_compute. discriminate. }
  split; [apply G; lia|]. split; [reflexivity|]. split; [apply number_1_d; lia|]. split; [right; reflexivity|].
  split; [reflexivity|]. split; [destruct t; vm_compute; split; reflexivity|].
  split; [destruct t; vm_compute; split; discriminate|].
  split; [apply G; lia|]. split; [reflexivity|]. split; [apply number_1_d; lia|]. split; [right; reflexivity|].
  split; [reflexivity|]. split; [destruct t; vm_compute; split; reflexivity|].
  split; [reflexivity|]. destruct t; vm_compute; discriminate.
Qed.
