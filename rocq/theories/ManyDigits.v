(** Numbers with more than 19 significant digits: the truncated significand, its
    successor, and the exact comparison (parse_number.h:266-281). *)
From Verif Require Import Machine Config Chars Format FastTable ParseNumber Bigint DecToBin DigitComp
  FromChars WordLemmas EiselTable EiselLemire Rounding ComputeFloat SpecFloat FloatBridge SpecGrammar Scan
  BigintSpec MantissaSpec RoundSpec ErrorSpec DigitCompSpec SlowPath.
From Coq Require Import QArith Lqa.
Open Scope Z_scope.

Lemma am_code_inf t am : am_ok t am -> am_code t am = inf_code t ->
  am = {| am_mantissa := 0; am_power2 := inf_power t |}.
Proof.
  pose proof (mb_range t) as Hmb. pose proof (pow2_pos (mant_bits t) ltac:(lia)) as P.
  assert (I : 2 <= inf_power t) by (destruct t; cbn; lia).
  destruct am as [m p]. intros [(H1 & H2 & H3)|(H1 & H2)] E; cbn [am_mantissa am_power2] in *.
  - rewrite am_code_norm in E by lia. unfold inf_code in E.
    assert (p = inf_power t) by nia. subst p. rewrite (H3 eq_refl). reflexivity.
  - subst. rewrite am_code_top in E. unfold inf_code in E. nia.
Qed.

Lemma am_neq_false a b : am_neq a b = false -> a = b.
Proof.
  unfold am_neq. destruct a, b; cbn. destruct (Z.eqb_spec am_mantissa am_mantissa0); [|discriminate].
  destruct (Z.eqb_spec am_power2 am_power0); [|discriminate]. intros _. congruence.
Qed.
Lemma am_neq_refl a : am_neq a a = false.
Proof. unfold am_neq. rewrite !Z.eqb_refl. reflexivity. Qed.

Lemma sub_tie_comp t x y b : (x == y)%Q -> sub_tie t x b -> sub_tie t y b.
Proof. intros E (A & B & C). split; [exact A|]. split; [exact B|]. rewrite <- (units_comp t x y E). exact C. Qed.

(** Codes in the subnormal range are values. *)
Lemma sub_mid t b : 0 <= b < 2 ^ mant_bits t -> mid2 (mant_bits t) b = 2 * b + 1.
Proof.
  intros H. pose proof (mb_range t) as Hmb. unfold mid2.
  assert (C : forall x, 0 <= x <= 2 ^ mant_bits t -> fp_units (mant_bits t) x = x).
  { intros x Hx. replace x with (0 * 2 ^ mant_bits t + x) at 1 by lia. rewrite U_enc; [lia|lia|].
    unfold canon. rewrite pow2_S by lia. lia. }
  rewrite !C by lia. lia.
Qed.

Lemma sub_lt_inf t : 2 ^ mant_bits t < inf_code t.
Proof. destruct t; reflexivity. Qed.

(** If both ends of an interval round to the same code so does what lies between. *)
Lemma squeeze t x y v b : (0 <= v)%Q -> (x <= v)%Q -> (v < y)%Q ->
  (rounds t x b \/ sub_tie t x b) -> (rounds t y b \/ sub_tie t y b) ->
  (rounds t v b \/ sub_tie t v b).
Proof.
  intros V0 L U HX HY. pose proof (mb_range t) as Hmb. pose proof (sub_lt_inf t) as SI.
  pose proof (units_le t _ _ L) as UL. pose proof (units_lt t _ _ U) as UU.
  pose proof (units_nonneg t v V0) as UV.
  destruct HX as [HX|HX].
  - destruct HY as [HY|HY].
    + left. destruct (rne_exists (mant_bits t) (inf_code t) (units t v) ltac:(lia) UV) as [b' HV].
      pose proof (rne_mono (mant_bits t) (inf_code t) _ _ _ _ ltac:(lia) UL HX HV).
      pose proof (rne_mono (mant_bits t) (inf_code t) _ _ _ _ ltac:(lia) (Qlt_le_weak _ _ UU) HV HY).
      replace b with b' by lia. exact HV.
    + exfalso. destruct HY as (_ & HB & HT). destruct HX as (b' & (B0 & B1 & B2) & B3).
      assert (b' = b) by lia. subst b'. specialize (B2 ltac:(lia)).
      rewrite sub_mid in B2 by lia. replace (2 * (b - 1) + 1) with (2 * b - 1) in B2 by lia.
      destruct B2 as [B2|[B2 _]]; lra.
  - destruct (Qlt_le_dec x v) as [LS|LE].
    2:{ right. apply sub_tie_comp with x; [|exact HX]. apply Qle_antisym; assumption. }
    left. pose proof (units_lt t _ _ LS) as ULS.
    destruct HX as (TF & HB & HT).
    destruct HY as [HY|(_ & _ & HT2)]; [|exfalso; lra].
    destruct HY as (b' & (B0 & B1 & B2) & B3). assert (b' = b) by lia. subst b'.
    exists b. split; [|lia]. split; [lia|]. split.
    + left. destruct B1 as [B1|[B1 _]]; lra.
    + intros _. left. rewrite sub_mid by lia. replace (2 * (b - 1) + 1) with (2 * b - 1) by lia. lra.
Qed.

Lemma overflow_am c t q w am : 1 <= w < 2 ^ 64 ->
  ([fp_units (mant_bits t) (inf_code t)]q <= units t (dec w q))%Q ->
  compute_float c t q w = Ok am -> am = {| am_mantissa := 0; am_power2 := inf_power t |}.
Proof.
  intros Hw H E. destruct (compute_float_spec c t q w ltac:(lia)) as (am' & E' & OK & R).
  rewrite E' in E. injection E as <-. apply am_code_inf; [exact OK|].
  pose proof (mb_range t) as Hmb. pose proof (inf_code_pos t) as IP. pose proof (sub_lt_inf t) as SI.
  assert (LT := U_lt (mant_bits t) (inf_code t - 1) (inf_code t) ltac:(lia) ltac:(lia)).
  destruct R as [R|(_ & HB & HT)].
  - refine (rne_unique (mant_bits t) (inf_code t) _ _ _ ltac:(lia) R _).
    apply rne_overflow; [lia|lia|apply inf_code_even|].
    apply Qle_trans with [2 * fp_units (mant_bits t) (inf_code t)]q.
    + apply -> q_le. unfold mid2. replace (inf_code t - 1 + 1) with (inf_code t) by lia. lia.
    + rewrite inject_Z_mult. change [2]q with 2%Q. apply Qmult_le_l; [reflexivity|exact H].
  - exfalso.
    assert (X : 2 ^ mant_bits t <= fp_units (mant_bits t) (inf_code t)).
    { pose proof (U_le (mant_bits t) (2 ^ mant_bits t) (inf_code t) ltac:(lia)
        ltac:(pose proof (pow2_pos (mant_bits t)); lia)) as UL.
      replace (2 ^ mant_bits t) with (0 * 2 ^ mant_bits t + 2 ^ mant_bits t) in UL at 1 by lia.
      rewrite U_enc in UL; [lia|lia|]. unfold canon. rewrite pow2_S by lia. pose proof (pow2_pos (mant_bits t)). lia. }
    assert (Y : 2 * am_code t am' - 1 < 2 * fp_units (mant_bits t) (inf_code t)) by lia.
    apply q_lt in Y. rewrite (inject_Z_mult 2 (fp_units _ _)) in Y. change [2]q with 2%Q in Y. lra.
Qed.

(** Lines 266-281 on a truncated significand. *)
Definition many_digits (c : cfg) (u : uc) (t : ftype) (pns : parsed) : res adjusted_mantissa :=
  let* am := compute_float c t (pn_exponent pns) (pn_mantissa pns) in
  let* am := (if 0 <=? am_power2 am then
                let* am2 := compute_float c t (pn_exponent pns) (u64 (pn_mantissa pns + 1)) in
                if am_neq am am2 then compute_error c t (pn_exponent pns) (pn_mantissa pns)
                else Ok am
              else Ok am) in
  if am_power2 am <? 0 then digit_comp c u t pns am else Ok am.

Lemma am_ok_power t am : am_ok t am -> 0 <= am_power2 am.
Proof. intros [(_ & H & _)|(_ & H)]; lia. Qed.

Theorem many_digits_cases c u t num ip fp w kk r q :
  pn_integer num = Some ip -> span_list (pn_fraction num) = fp -> all_digits ip -> all_digits fp ->
  pn_mantissa num = w -> pn_exponent num = q ->
  digits_value (ip ++ fp) = w * 10 ^ kk + r -> 1 <= kk -> 0 <= r < 10 ^ kk -> 10 ^ 18 <= w < 10 ^ 19 ->
  exists a, many_digits c u t num = Ok a /\ am_ok t a /\
    (rounds t (dec (digits_value (ip ++ fp)) (q - kk)) (am_code t a) \/
     (sub_tie t (dec (digits_value (ip ++ fp)) (q - kk)) (am_code t a) /\ compute_float c t q w = Ok a)).
Proof.
  intros HI HF AI AF EM EQ EW Hkk Hr Hw. unfold many_digits. rewrite EM, EQ.
  rewrite u64_small by lia.
  destruct (compute_float_spec c t q w ltac:(lia)) as (am1 & E1 & O1 & R1).
  destruct (compute_float_spec c t q (w + 1) ltac:(lia)) as (am2 & E2 & O2 & R2).
  rewrite E1, E2, !bind_Ok.
  pose proof (am_ok_power t am1 O1) as P1. destruct (Z.leb_spec 0 (am_power2 am1)); [|lia].
  set (W := digits_value (ip ++ fp)) in *.
  assert (VL : (dec w q <= dec W (q - kk))%Q).
  { rewrite <- (dec_shift w q kk) by lia. apply decimal_le. lia. }
  assert (VU : (dec W (q - kk) < dec (w + 1) q)%Q).
  { rewrite <- (dec_shift (w + 1) q kk) by lia. apply decimal_lt. lia. }
  destruct (am_neq am1 am2) eqn:NE.
  - (* exact comparison *)
    assert (QR : smallest_power_of_ten t <= q <= largest_power_of_ten t).
    { unfold compute_float in E1, E2.
      destruct (Z.eqb_spec w 0); [lia|]. destruct (Z.eqb_spec (w + 1) 0); [lia|]. cbn [orb] in E1, E2.
      destruct (Z.ltb_spec q (smallest_power_of_ten t)).
      { exfalso. injection E1 as <-. injection E2 as <-. rewrite am_neq_refl in NE. discriminate. }
      destruct (Z.ltb_spec (largest_power_of_ten t) q).
      { exfalso. injection E1 as <-. injection E2 as <-. rewrite am_neq_refl in NE. discriminate. }
      lia. }
    destruct (compute_error_spec c t q w ltac:(lia) QR) as (m & p2 & EC & Hm & Hp & FB).
    rewrite EC, bind_Ok. cbn [am_power2].
    destruct (Z.ltb_spec (p2 + invalid_am_bias) 0) as [_|G]; [|unfold invalid_am_bias in G; lia].
    assert (RI : rfloor t m p2 < inf_code t).
    { destruct (Z_lt_le_dec (rfloor t m p2) (inf_code t)) as [G|G]; [exact G|exfalso].
      pose proof (mb_range t) as Hmb. pose proof (inf_code_pos t) as IP.
      destruct FB as [FL FU].
      destruct (rfloor_bounds t m p2 (units t (dec w q)) Hm FL FU) as [YL _].
      destruct (rfloor_units t m p2 Hm) as (_ & U1 & _). cbv zeta in YL, U1. rewrite <- U1 in YL.
      assert (OV : ([fp_units (mant_bits t) (inf_code t)]q <= units t (dec w q))%Q).
      { eapply Qle_trans; [|exact YL]. apply -> q_le. apply U_le; lia. }
      assert (OV2 : ([fp_units (mant_bits t) (inf_code t)]q <= units t (dec (w + 1) q))%Q).
      { eapply Qle_trans; [exact OV|]. apply units_le, decimal_le. lia. }
      apply (overflow_am c t q w am1 ltac:(lia) OV) in E1.
      apply (overflow_am c t q (w + 1) am2 ltac:(lia) OV2) in E2.
      subst. rewrite am_neq_refl in NE. discriminate. }
    destruct (digit_comp_spec c u t num ip fp w kk r q m p2 HI HF AI AF EM EQ EW Hkk Hr Hw QR Hm Hp FB RI)
      as (a & EA & OA & RA).
    exists a. split; [exact EA|]. split; [exact OA|]. left. exact RA.
  - apply am_neq_false in NE. subst am2. rewrite bind_Ok.
    destruct (Z.ltb_spec (am_power2 am1) 0); [lia|].
    exists am1. split; [reflexivity|]. split; [exact O1|].
    destruct (squeeze t (dec w q) (dec (w + 1) q) (dec W (q - kk)) (am_code t am1)) as [SQ|SQ]; try assumption.
    + apply dec_nonneg. pose proof (Z.pow_pos_nonneg 10 kk). nia.
    + left. exact SQ.
    + right. split; [exact SQ|reflexivity].
Qed.

Theorem many_digits_spec c u t num ip fp w kk r q :
  pn_integer num = Some ip -> span_list (pn_fraction num) = fp -> all_digits ip -> all_digits fp ->
  pn_mantissa num = w -> pn_exponent num = q ->
  digits_value (ip ++ fp) = w * 10 ^ kk + r -> 1 <= kk -> 0 <= r < 10 ^ kk -> 10 ^ 18 <= w < 10 ^ 19 ->
  exists a, many_digits c u t num = Ok a /\ am_ok t a /\
    (rounds t (dec (digits_value (ip ++ fp)) (q - kk)) (am_code t a) \/
     sub_tie t (dec (digits_value (ip ++ fp)) (q - kk)) (am_code t a)).
Proof.
  intros H1 H2 H3 H4 H5 H6 H7 H8 H9 H10.
  destruct (many_digits_cases c u t num ip fp w kk r q H1 H2 H3 H4 H5 H6 H7 H8 H9 H10) as (a & E & O & [R|[R _]]);
    exists a; auto.
Qed.

(** ** Exactly what happens to binary16 subnormal ties *)

(** Values with at most 19 significant digits. *)
Definition short (x : Q) : Prop := exists w q, 0 <= w < 10 ^ 19 /\ (x == dec w q)%Q.

(** A tie between subnormal binary16 numbers goes up if its decimal expansion
    has at most 19 significant digits; everything else goes to nearest even. *)
Definition fc_rounds (t : ftype) (x : Q) (b : Z) : Prop :=
  (short x /\ sub_tie t x b) \/ (~ (short x /\ exists b', sub_tie t x b') /\ rounds t x b).

Lemma short_comp x y : (x == y)%Q -> short x -> short y.
Proof. intros E (w & q & H & X). exists w, q. split; [exact H|]. rewrite <- E. exact X. Qed.

Lemma fc_rounds_comp t x y b : (x == y)%Q -> fc_rounds t x b -> fc_rounds t y b.
Proof.
  intros E [[S T]|[N R]].
  - left. split; [eapply short_comp; eassumption|eapply sub_tie_comp; eassumption].
  - right. split; [|eapply rounds_comp; eassumption].
    intros [S (b' & T)]. apply N. symmetry in E. split; [eapply short_comp; eassumption|exists b'; eapply sub_tie_comp; eassumption].
Qed.

Lemma fc_rounds_near t x b : fc_rounds t x b -> rounds t x b \/ sub_tie t x b.
Proof. intros [[_ T]|[_ R]]; [right|left]; assumption. Qed.

Lemma fc_rounds_unique t x b1 b2 : fc_rounds t x b1 -> fc_rounds t x b2 -> b1 = b2.
Proof.
  intros [[S1 T1]|[N1 R1]] [[S2 T2]|[N2 R2]].
  - eapply sub_tie_unique; eassumption.
  - exfalso. apply N2. split; [exact S1|exists b1; exact T1].
  - exfalso. apply N1. split; [exact S2|exists b2; exact T2].
  - eapply rne_unique; [apply mb_range|exact R1|exact R2].
Qed.

Lemma cf_short t x b : short x -> cf_rounds t x b -> fc_rounds t x b.
Proof.
  intros S [T|[N R]]; [left; split; assumption|]. right. split; [|exact R].
  intros [_ (b' & T)]. exact (N b' T).
Qed.

Lemma not_short W w k r q : 1 <= k -> 10 ^ 18 <= w -> 0 < r < 10 ^ k -> W = w * 10 ^ k + r ->
  ~ short (dec W (q - k)).
Proof.
  intros Hk Hw Hr EW (w' & q' & Hw' & E). set (p := q - k) in *.
  assert (PK : 0 < 10 ^ k) by (apply Z.pow_pos_nonneg; lia).
  assert (WL : 10 ^ (18 + k) <= W).
  { rewrite Z.pow_add_r by lia. nia. }
  destruct (Z_le_gt_dec p q') as [L|G].
  - rewrite <- (dec_shift w' q' (q' - p)) in E by lia. replace (q' - (q' - p)) with p in E by lia.
    assert (EW2 : W = w' * 10 ^ (q' - p)).
    { unfold dec in E. apply Qmult_inj_r in E; [|apply qpow_nz; lia]. apply q_eq in E. exact E. }
    destruct (Z_le_gt_dec k (q' - p)) as [LK|GK].
    + assert (D : (10 ^ k | r)).
      { exists (w' * 10 ^ (q' - p - k) - w). 
        replace (q' - p) with ((q' - p - k) + k) in EW2 by lia. rewrite Z.pow_add_r in EW2 by lia. nia. }
      apply Z.divide_pos_le in D; lia.
    + assert (10 ^ (19 + (q' - p)) <= 10 ^ (18 + k)) by (apply Z.pow_le_mono_r; lia).
      rewrite (Z.pow_add_r 10 19) in * by lia.
      assert (0 < 10 ^ (q' - p)) by (apply Z.pow_pos_nonneg; lia). nia.
  - rewrite <- (dec_shift W p (p - q')) in E by lia. replace (p - (p - q')) with q' in E by lia.
    unfold dec in E. apply Qmult_inj_r in E; [|apply qpow_nz; lia]. apply q_eq in E.
    assert (10 ^ 19 <= 10 ^ (18 + k)) by (apply Z.pow_le_mono_r; lia).
    assert (0 < 10 ^ (p - q')) by (apply Z.pow_pos_nonneg; lia). nia.
Qed.

Lemma am_sub_eq t a1 a2 : am_ok t a1 -> am_ok t a2 -> am_mantissa a1 = am_code t a1 -> am_mantissa a2 = am_code t a2 ->
  am_code t a1 = am_code t a2 -> a1 = a2.
Proof.
  assert (P : forall a, am_ok t a -> am_mantissa a = am_code t a ->
            am_power2 a = if am_code t a <? 2 ^ mant_bits t then 0 else 1).
  { pose proof (pow2_pos (mant_bits t) ltac:(pose proof (mb_range t); lia)) as PB.
    intros a [(H1 & H2 & H3)|(H1 & H2)] E.
    - destruct a as [m p]. cbn [am_mantissa am_power2] in *. rewrite am_code_norm in E by lia.
      rewrite am_code_norm by lia. destruct (Z.ltb_spec (p * 2 ^ mant_bits t + m) (2 ^ mant_bits t)); nia.
    - rewrite <- E, H1, H2. rewrite Z.ltb_irrefl. reflexivity. }
  intros O1 O2 E1 E2 E. pose proof (P a1 O1 E1) as P1. pose proof (P a2 O2 E2) as P2.
  rewrite E in E1, P1. rewrite <- E2 in E1. rewrite <- P2 in P1.
  destruct a1, a2. cbn in E1, P1. congruence.
Qed.

(** At a subnormal tie the successor significand rounds to the same number. *)
Lemma tie_next t w q b : 10 ^ 18 <= w -> sub_tie t (dec w q) b ->
  (2 * units t (dec (w + 1) q) < [2 * b]q)%Q.
Proof.
  intros Hw (-> & HB & HT). change (2 ^ mant_bits F16) with 1024 in HB.
  assert (Pw : (0 < [w]q)%Q) by (apply (proj1 (q_pos _)); lia).
  apply Qmult_lt_l with [w]q; [exact Pw|].
  setoid_replace ([w]q * (2 * units F16 (dec (w + 1) q)))%Q with ([w + 1]q * (2 * units F16 (dec w q)))%Q
    by (pose proof (dec_units_scale F16 w (w + 1) q) as DS;
        setoid_replace ([w]q * (2 * units F16 (dec (w + 1) q)))%Q with (2 * ([w]q * units F16 (dec (w + 1) q)))%Q by ring;
        rewrite DS; ring).
  rewrite HT, <- !inject_Z_mult. apply -> q_lt. change (10 ^ 18) with 1000000000000000000 in Hw. nia.
Qed.

Theorem many_digits_exact c u t num ip fp w kk r q :
  pn_integer num = Some ip -> span_list (pn_fraction num) = fp -> all_digits ip -> all_digits fp ->
  pn_mantissa num = w -> pn_exponent num = q ->
  digits_value (ip ++ fp) = w * 10 ^ kk + r -> 1 <= kk -> 0 <= r < 10 ^ kk -> 10 ^ 18 <= w < 10 ^ 19 ->
  exists a, many_digits c u t num = Ok a /\ am_ok t a /\
    fc_rounds t (dec (digits_value (ip ++ fp)) (q - kk)) (am_code t a).
Proof.
  intros HI HF AI AF EM EQ EW Hkk Hr Hw.
  destruct (many_digits_cases c u t num ip fp w kk r q HI HF AI AF EM EQ EW Hkk Hr Hw) as (a & EA & OA & NR).
  exists a. split; [exact EA|]. split; [exact OA|].
  set (W := digits_value (ip ++ fp)) in *. clearbody W.
  destruct (Z.eq_dec r 0) as [R0|R0].
  - (* short *)
    assert (EX : (dec W (q - kk) == dec w q)%Q).
    { rewrite EW, R0, Z.add_0_r. apply dec_shift. lia. }
    apply fc_rounds_comp with (dec w q); [symmetry; exact EX|].
    assert (SH : short (dec w q)) by (exists w, q; split; [lia|reflexivity]).
    assert (NR' : rounds t (dec w q) (am_code t a) \/ sub_tie t (dec w q) (am_code t a)).
    { destruct NR as [NR|[NR _]]; [left; eapply rounds_comp|right; eapply sub_tie_comp]; eassumption. }
    destruct (compute_float_exact c t q w ltac:(lia)) as (am1 & E1 & O1 & R1 & C1).
    destruct R1 as [T1|[N1 R1]].
    + (* tie *)
      destruct (compute_float_exact c t q (w + 1) ltac:(lia)) as (am2 & E2 & O2 & R2 & C2).
      pose proof (tie_next t w q _ (proj1 Hw) T1) as TN.
      destruct T1 as (TF & HB & HT).
      pose proof (mb_range t) as Hmb.
      assert (S1 : (2 * units t (dec w q) < [2 ^ (mant_bits t + 1)]q)%Q).
      { rewrite HT. apply -> q_lt. rewrite pow2_S by lia. lia. }
      assert (S2 : (2 * units t (dec (w + 1) q) < [2 ^ (mant_bits t + 1)]q)%Q).
      { eapply Qlt_le_trans; [exact TN|]. apply -> q_le. rewrite pow2_S by lia. lia. }
      assert (LT : (2 * units t (dec w q) < 2 * units t (dec (w + 1) q))%Q).
      { apply Qmult_lt_l; [reflexivity|]. apply units_lt, decimal_lt. lia. }
      assert (C : am_code t am2 = am_code t am1).
      { destruct R2 as [(_ & HB2 & HT2)|[_ (b' & (B0 & B1 & B2) & B3)]].
        - exfalso. rewrite HT in LT. rewrite HT2 in LT, TN. apply q_lt in LT. apply q_lt in TN. lia.
        - pose proof (sub_lt_inf t) as SI.
          assert (b' = am_code t am1); [|lia].
          destruct (Z_lt_ge_dec b' (am_code t am1)) as [G|G].
          + exfalso. rewrite sub_mid in B1 by lia.
            assert (2 * b' + 1 <= 2 * am_code t am1 - 1) by lia. apply q_le in H. rewrite HT in LT.
            destruct B1 as [B1|[B1 _]]; lra.
          + destruct (Z.eq_dec b' (am_code t am1)) as [|N]; [assumption|exfalso].
            specialize (B2 ltac:(lia)).
            assert (M : 2 * am_code t am1 <= mid2 (mant_bits t) (b' - 1)).
            { apply Z.le_trans with (mid2 (mant_bits t) (am_code t am1)).
              - unfold mid2. rewrite (fp_units_sub (mant_bits t) (am_code t am1)) by lia.
                pose proof (U_lt (mant_bits t) (am_code t am1) (am_code t am1 + 1) ltac:(lia) ltac:(lia)) as UL.
                rewrite (fp_units_sub (mant_bits t) (am_code t am1)) in UL by lia. lia.
              - destruct (Z.eq_dec (am_code t am1) (b' - 1)) as [->|NE]; [lia|]. apply Z.lt_le_incl, mid2_lt; lia. }
            apply q_le in M. destruct B2 as [B2|[B2 _]]; lra. }
      assert (EA12 : am1 = am2).
      { apply (am_sub_eq t); try assumption; [apply C1; exact S1|apply C2; exact S2|symmetry; exact C]. }
      assert (EAA : a = am1).
      { unfold many_digits in EA. rewrite EM, EQ, E1, bind_Ok in EA. rewrite u64_small in EA by lia.
        pose proof (am_ok_power t am1 O1). destruct (Z.leb_spec 0 (am_power2 am1)); [|lia].
        rewrite E2, bind_Ok, <- EA12, am_neq_refl, bind_Ok in EA.
        destruct (Z.ltb_spec (am_power2 am1) 0); [lia|]. congruence. }
      rewrite EAA. left. split; [exact SH|]. repeat split; try assumption; lia.
    + destruct NR' as [NR'|NR']; [|destruct (N1 _ NR')]. right. split; [|exact NR'].
      intros [_ (b' & T)]. exact (N1 _ T).
  - (* not short *)
    assert (NS : ~ short (dec W (q - kk))) by (eapply not_short; [| | |exact EW]; lia).
    right. split; [intros [S _]; contradiction|].
    destruct NR as [NR|[NR EC]]; [exact NR|]. exfalso.
    destruct (compute_float_spec c t q w ltac:(lia)) as (am1 & E1 & O1 & R1).
    rewrite EC in E1. injection E1 as <-.
    assert (VL : (dec w q < dec W (q - kk))%Q).
    { rewrite <- (dec_shift w q kk) by lia. apply decimal_lt. lia. }
    apply (units_lt t) in VL. destruct NR as (_ & HB & HT). pose proof (sub_lt_inf t) as SI.
    destruct R1 as [(b' & (B0 & B1 & B2) & B3)|(_ & HB2 & HT2)]; [|lra].
    assert (b' = am_code t a) by lia. subst b'. specialize (B2 ltac:(lia)). rewrite sub_mid in B2 by lia.
    replace (2 * (am_code t a - 1) + 1) with (2 * am_code t a - 1) in B2 by lia.
    destruct B2 as [B2|[B2 _]]; lra.
Qed.
