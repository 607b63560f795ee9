(** digit_comp (digit_comparison.h:431-450) on a number with more than 19 digits. *)
From Verif Require Import Machine Config Chars Format FastTable ParseNumber Bigint DecToBin DigitComp
  WordLemmas EiselTable EiselLemire Rounding ComputeFloat SpecFloat FloatBridge SpecGrammar Scan
  BigintSpec MantissaSpec RoundSpec ErrorSpec DigitCompSpec.
From Coq Require Import QArith Lqa.
Open Scope Z_scope.

Lemma dec_shift a q j : 0 <= j -> (dec (a * 10 ^ j) (q - j) == dec a q)%Q.
Proof.
  intros Hj. unfold dec. rewrite inject_Z_mult, <- qpow_Z by lia.
  rewrite <- Qmult_assoc, <- qpow_add by lia. replace (j + (q - j)) with q by lia. reflexivity.
Qed.
Lemma decimal_le a b q : a <= b -> (dec a q <= dec b q)%Q.
Proof.
  intros H. unfold dec. apply Qmult_le_compat_r; [apply -> q_le; exact H|].
  apply Qlt_le_weak, qpow_pos; lia.
Qed.
Lemma decimal_lt a b q : a < b -> (dec a q < dec b q)%Q.
Proof.
  intros H. unfold dec. apply Qmult_lt_r; [apply qpow_pos; lia|]. apply -> q_lt. exact H.
Qed.
Lemma units_le t x y : (x <= y)%Q -> (units t x <= units t y)%Q.
Proof. intros H. unfold units. apply Qmult_le_compat_r; [exact H|]. apply Qlt_le_weak, qpow_pos; lia. Qed.
Lemma units_lt t x y : (x < y)%Q -> (units t x < units t y)%Q.
Proof. intros H. unfold units. apply Qmult_lt_r; [apply qpow_pos; lia|exact H]. Qed.
Lemma units_comp t x y : (x == y)%Q -> (units t x == units t y)%Q.
Proof. intros H. unfold units. rewrite H. reflexivity. Qed.
Lemma rounds_comp t x y b : (x == y)%Q -> rounds t x b -> rounds t y b.
Proof. intros H. apply rne_comp, units_comp, H. Qed.
Lemma dec_units_scale t a b q : ([a]q * units t (dec b q) == [b]q * units t (dec a q))%Q.
Proof. unfold units, dec. ring. Qed.
Lemma halfway_bit_comp x y f k i : (x == y)%Q -> halfway_bit x f k i -> halfway_bit y f k i.
Proof. intros E. unfold halfway_bit. rewrite E. auto. Qed.

(** Per-format numeric facts. *)
Lemma facts t :
  largest_power_of_ten t + 1 < max_digits t /\ 22 <= max_digits t <= 769 /\
  2 * 10 ^ (max_digits t + 1) * 2 ^ (mant_bits t - min_exp t) < 2 ^ 3968 /\
  2 ^ (mant_bits t + 2) * 10 ^ (max_digits t - 18 - smallest_power_of_ten t) < 2 ^ 3968 /\
  2 ^ (mant_bits t + 2) * 5 ^ (mant_bits t - min_exp t) < 10 ^ max_digits t /\
  10 ^ (largest_power_of_ten t + 1) < 2 ^ 3968.
Proof. destruct t; vm_compute; repeat split; congruence. Qed.

Lemma inf_units t : ([fp_units (mant_bits t) (inf_code t)]q <= units t (dec 1 (largest_power_of_ten t + 1)))%Q.
Proof.
  unfold units, dec. rewrite !qpow_Z by (destruct t; cbn; lia). rewrite <- !inject_Z_mult. apply -> q_le.
  destruct t; vm_compute; discriminate.
Qed.

(** A value below infinity has a bounded decimal exponent. *)
Lemma exp_bound t w q : 10 ^ 18 <= w ->
  (units t (dec w q) < [fp_units (mant_bits t) (inf_code t)]q)%Q -> q + 18 <= largest_power_of_ten t.
Proof.
  intros Hw H. destruct (Z_le_gt_dec (q + 18) (largest_power_of_ten t)) as [G|G]; [exact G|exfalso].
  apply Qlt_not_le in H. apply H. eapply Qle_trans; [apply inf_units|]. apply units_le.
  apply Qle_trans with (dec 1 (q + 18)).
  - unfold dec. apply Qmult_le_compat_nonneg; split; try discriminate; try apply Qle_refl.
    + apply Qlt_le_weak, qpow_pos; lia.
    + apply qpow_le; lia.
  - rewrite <- (dec_shift 1 (q + 18) 18) by lia. replace (q + 18 - 18) with q by lia.
    apply decimal_le. lia.
Qed.

(** Truncating the digits does not change the comparison with a halfway point. *)
Lemma truncated_halfway t D e f k (V : Q) i : e < 0 -> 0 <= k -> 0 <= f < 2 ^ (mant_bits t + 1) ->
  10 ^ (max_digits t - 1) <= D ->
  (dec (10 * D) e < V)%Q -> (V < dec (10 * D + 10) e)%Q ->
  halfway_bit (units t (dec (D * 10 + 1) e)) f k i -> halfway_bit (units t V) f k i.
Proof.
  intros He Hk Hf HD VL VU.
  pose proof (mb_range t) as Hmb. pose proof (min_exp_range t) as Hme.
  destruct (halfway_scale t (- e) k ltac:(lia)) as (a & PA & S1 & S2).
  replace (- - e) with e in S1 by lia.
  set (bias := mant_bits t - min_exp t) in *. set (p := k - bias + - e) in *.
  assert (EH : ([(2 * f + 1) * 2 ^ k]q == [2 * f + 1]q * qpow 2 k)%Q).
  { rewrite inject_Z_mult, <- qpow_Z by lia. reflexivity. }
  unfold halfway_bit. rewrite EH. specialize (S2 (2 * f + 1)).
  apply (units_lt t) in VL, VU.
  assert (B1 : (2 * units t (dec (10 * D) e) * a < 2 * units t V * a)%Q).
  { apply Qmult_lt_r; [exact PA|]. apply Qmult_lt_l; [reflexivity|exact VL]. }
  assert (B2 : (2 * units t V * a < 2 * units t (dec (10 * D + 10) e) * a)%Q).
  { apply Qmult_lt_r; [exact PA|]. apply Qmult_lt_l; [reflexivity|exact VU]. }
  rewrite S1 in B1, B2.
  pose proof (S1 (D * 10 + 1)) as S3. clear S1.
  set (H := (2 * f + 1) * 5 ^ (- e) * 2 ^ Z.max p 0) in *.
  assert (PX : 0 < 2 ^ Z.max (- p) 0) by (apply pow2_pos; lia).
  assert (CL : H <= 10 * D * 2 ^ Z.max (- p) 0 \/ (10 * D + 10) * 2 ^ Z.max (- p) 0 <= H).
  { destruct (Z_le_gt_dec p 0) as [P|P].
    - left. unfold H. rewrite (Z.max_r p) by lia. rewrite Z.pow_0_r, Z.mul_1_r.
      destruct (facts t) as (_ & MD & _ & _ & FC & _).
      apply Z.le_trans with (10 * D).
      2:{ rewrite <- (Z.mul_1_r (10 * D)) at 1. apply Z.mul_le_mono_nonneg_l; [|lia].
          pose proof (Z.pow_pos_nonneg 10 (max_digits t - 1)). lia. }
      apply Z.le_trans with (10 ^ max_digits t).
      2:{ replace (max_digits t) with (Z.succ (max_digits t - 1)) by lia. rewrite Z.pow_succ_r by lia. lia. }
      apply Z.lt_le_incl. eapply Z.le_lt_trans; [|exact FC].
      apply Z.mul_le_mono_nonneg; [lia| |apply Z.pow_nonneg; lia|].
      + replace (mant_bits t + 2) with (mant_bits t + 1 + 1) by lia. rewrite (pow2_S (mant_bits t + 1)) by lia. lia.
      + apply Z.pow_le_mono_r; [lia|]. unfold p, bias in *. lia.
    - rewrite (Z.max_r (- p)) by lia. rewrite Z.pow_0_r, !Z.mul_1_r.
      assert (T : exists h, H = 10 * h).
      { exists ((2 * f + 1) * 5 ^ (- e - 1) * 2 ^ (p - 1)). unfold H. rewrite Z.max_l by lia.
        replace (- e) with (Z.succ (- e - 1)) at 1 by lia. rewrite Z.pow_succ_r by lia.
        replace p with (Z.succ (p - 1)) at 1 by lia. rewrite Z.pow_succ_r by lia. ring. }
      destruct T as [h ->]. lia. }
  clearbody H p.
  assert (Flip : forall x y : Q, (x * a < y * a)%Q -> (x < y)%Q) by (intros x y; apply Qmult_lt_r; exact PA).
  destruct CL as [CL|CL]; apply q_le in CL.
  - assert (Y1 : ([2 * f + 1]q * qpow 2 k < 2 * units t V)%Q).
    { apply Flip. rewrite S2. eapply Qle_lt_trans; [exact CL|exact B1]. }
    assert (Y2 : ([2 * f + 1]q * qpow 2 k < 2 * units t (dec (D * 10 + 1) e))%Q).
    { apply Flip. rewrite S2, S3. eapply Qle_lt_trans; [exact CL|]. apply -> q_lt.
      apply Z.mul_lt_mono_pos_r; lia. }
    intros [[G _]|[[_ I]|[G _]]]; [exfalso; lra|right; left; split; [exact Y1|exact I]|exfalso; lra].
  - assert (Y1 : (2 * units t V < [2 * f + 1]q * qpow 2 k)%Q).
    { apply Flip. rewrite S2. eapply Qlt_le_trans; [exact B2|exact CL]. }
    assert (Y2 : (2 * units t (dec (D * 10 + 1) e) < [2 * f + 1]q * qpow 2 k)%Q).
    { apply Flip. rewrite S2, S3. eapply Qlt_le_trans; [|exact CL]. apply -> q_lt.
      apply Z.mul_lt_mono_pos_r; lia. }
    intros [[_ I]|[[G _]|[G _]]]; [left; split; [exact Y1|exact I]|exfalso; lra|exfalso; lra].
Qed.

Lemma read_div W n md : 0 < md < n -> 10 ^ (n - 1) <= W < 10 ^ n ->
  10 ^ (md - 1) <= W / 10 ^ (n - md) < 10 ^ md.
Proof.
  intros H WR. apply div_between; [apply Z.pow_pos_nonneg; lia|]. rewrite <- !Z.pow_add_r by lia.
  replace (md - 1 + (n - md)) with (n - 1) by lia. replace (md + (n - md)) with n by lia. exact WR.
Qed.

Lemma read_range md W n B d : 0 < md -> 0 < n -> 10 ^ (n - 1) <= W < 10 ^ n -> mantissa_read md W n B d ->
  0 < B < 10 ^ (md + 1).
Proof.
  intros Hmd Hn WR MR. rewrite (Z.pow_add_r 10 md 1) by lia. change (10 ^ 1) with 10.
  destruct MR as [(A & B0 & ->)|(A & MR)].
  - assert (0 < 10 ^ (n - 1)) by (apply Z.pow_pos_nonneg; lia).
    assert (10 ^ n <= 10 ^ md) by (apply Z.pow_le_mono_r; lia).
    assert (0 < 10 ^ md) by (apply Z.pow_pos_nonneg; lia). lia.
  - pose proof (read_div W n md ltac:(lia) WR) as DB.
    assert (0 < 10 ^ (md - 1)) by (apply Z.pow_pos_nonneg; lia).
    cbv zeta in MR. set (D := W / 10 ^ (n - md)) in *. clearbody D.
    destruct MR as [(_ & _ & ->)|(_ & _ & ->)]; lia.
Qed.

(** The halfway decision taken on what parse_mantissa read is the one for the number itself. *)
Lemma read_halfway t W n B d x e f k i : 0 < n -> 10 ^ (n - 1) <= W < 10 ^ n ->
  mantissa_read (max_digits t) W n B d -> e = x + n - d -> e < 0 ->
  0 <= k -> 0 <= f < 2 ^ (mant_bits t + 1) ->
  halfway_bit (units t (dec B e)) f k i -> halfway_bit (units t (dec W x)) f k i.
Proof.
  intros Hn WR MR Ee He Hk Hf HB.
  assert (Hmd : 0 < max_digits t) by (destruct t; reflexivity).
  set (md := max_digits t) in *.
  destruct MR as [(A & B0 & ->)|(A & MR)].
  { subst d. replace x with e by lia. exact HB. }
  pose proof (read_div W n md ltac:(lia) WR) as DB.
  assert (PJ : 0 < 10 ^ (n - md)) by (apply Z.pow_pos_nonneg; lia).
  pose proof (Z.div_mod W (10 ^ (n - md)) ltac:(lia)) as DM.
  pose proof (Z.mod_pos_bound W (10 ^ (n - md)) PJ) as MB. cbv zeta in MR.
  set (D := W / 10 ^ (n - md)) in *. clearbody D.
  destruct MR as [(R0 & B0 & ->)|(R0 & B0 & ->)].
  - eapply halfway_bit_comp; [|exact HB]. apply units_comp.
    assert (EWD : W = D * 10 ^ (n - md)) by lia. rewrite EWD.
    replace x with (e - (n - md)) by lia. symmetry. apply dec_shift. lia.
  - apply (truncated_halfway t D e f k (dec W x) i); [exact He|exact Hk|exact Hf|fold md; lia| | |exact HB].
    + rewrite (Z.mul_comm 10 D).
      replace (dec (D * 10) e) with (dec (D * 10 ^ 1) (e + 1 - 1)) by (f_equal; lia).
      rewrite dec_shift by lia. rewrite <- (dec_shift D (e + 1) (n - md)) by lia.
      replace (e + 1 - (n - md)) with x by lia. apply decimal_lt. lia.
    + replace (dec (10 * D + 10) e) with (dec ((D + 1) * 10 ^ 1) (e + 1 - 1)) by (f_equal; lia).
      rewrite dec_shift by lia. rewrite <- (dec_shift (D + 1) (e + 1) (n - md)) by lia.
      replace (e + 1 - (n - md)) with x by lia. apply decimal_lt. lia.
Qed.

(** The scaled halfway point fits. *)
Lemma theor_fits c t f k w q d : canon (mant_bits t) k f -> f < 2 ^ (mant_bits t + 1) ->
  ([f * 2 ^ k]q <= units t (dec w q))%Q -> 0 <= w <= 10 ^ 19 -> 19 <= d <= max_digits t + 1 ->
  smallest_power_of_ten t <= q ->
  let e := q + 19 - d in let p := k - (mant_bits t - min_exp t) - e in
  e < 0 -> (2 * f + 1) * 5 ^ (- e) * 2 ^ Z.max p 0 < top c.
Proof.
  intros (Hk & Hf & Hc) CL YL Hw Hd Hq e p NE.
  pose proof (mb_range t) as Hmb. pose proof (min_exp_range t) as Hme.
  destruct (facts t) as (_ & M2 & M3 & M4 & _). eapply Z.lt_le_trans; [|apply top_big].
  set (BIG := 2 ^ 3968) in *. clearbody BIG.
  set (n := - e). assert (Hn : 0 < n) by (unfold n; lia).
  assert (HnM : n <= max_digits t - 18 - smallest_power_of_ten t) by (unfold n, e; lia).
  set (md := max_digits t) in *. set (sm := smallest_power_of_ten t) in *.
  assert (P5n : 0 < 5 ^ n) by (apply Z.pow_pos_nonneg; lia).
  assert (N10 : 10 ^ n <= 10 ^ (md - 18 - sm)) by (apply Z.pow_le_mono_r; lia).
  assert (N5 : 5 ^ n <= 10 ^ n) by (apply Z.pow_le_mono_l; lia).
  assert (F2 : 2 * f + 1 <= 2 ^ (mant_bits t + 2)).
  { replace (mant_bits t + 2) with (mant_bits t + 1 + 1) by lia. rewrite (pow2_S (mant_bits t + 1)) by lia. lia. }
  destruct (Z_le_gt_dec p 0) as [P0|P0].
  { rewrite Z.max_r by lia. rewrite Z.pow_0_r, Z.mul_1_r.
    eapply Z.le_lt_trans; [|exact M4]. clear - F2 N10 N5 P5n Hf. apply Z.mul_le_mono_nonneg; lia. }
  destruct (Z.eq_dec f 0) as [Z0|NZ].
  - assert (K0 : k = 0).
    { destruct Hc as [K|K]; [exact K|]. pose proof (pow2_pos (mant_bits t)). lia. }
    rewrite Z0, Z.mul_0_r, Z.add_0_l, Z.mul_1_l, Z.max_l by lia.
    eapply Z.le_lt_trans; [|exact M4].
    apply Z.le_trans with (1 * 10 ^ n).
    * rewrite Z.mul_1_l. change 10 with (5 * 2) at 1. rewrite Z.pow_mul_l.
      apply Z.mul_le_mono_nonneg_l; [clear - P5n; lia|]. apply Z.pow_le_mono_r; [lia|]. unfold p, n in *; lia.
    * apply Z.mul_le_mono_nonneg; [lia|pose proof (pow2_pos (mant_bits t + 2)); lia|apply Z.pow_nonneg; lia|exact N10].
  - destruct (halfway_scale t n k ltac:(lia)) as (a0 & PA & S1 & S2).
    replace (- n) with e in S1 by (unfold n; lia).
    replace (k - (mant_bits t - min_exp t) + n) with p in S1, S2 by (unfold p, n; lia).
    assert (X : f * (2 * (5 ^ n * 2 ^ Z.max p 0)) <= 10 ^ (md + 1)).
    { replace (f * (2 * (5 ^ n * 2 ^ Z.max p 0))) with (2 * f * 5 ^ n * 2 ^ Z.max p 0) by ring.
      apply Z.le_trans with (w * 10 ^ (d - 19) * 2 ^ Z.max (- p) 0).
      - apply q_le. rewrite <- S1, <- S2. apply Qmult_le_r; [exact PA|].
        rewrite inject_Z_mult, <- Qmult_assoc. apply Qmult_le_l; [reflexivity|].
        rewrite qpow_Z, <- inject_Z_mult by lia. eapply Qle_trans; [exact YL|].
        apply units_le. rewrite <- (dec_shift w q (d - 19)) by lia.
        replace (q - (d - 19)) with e by (unfold e; lia). apply Qle_refl.
      - rewrite (Z.max_r (- p)) by lia. rewrite Z.pow_0_r, Z.mul_1_r.
        apply Z.le_trans with (10 ^ 19 * 10 ^ (d - 19)).
        + apply Z.mul_le_mono_nonneg_r; [apply Z.pow_nonneg; lia|lia].
        + rewrite <- Z.pow_add_r by lia. apply Z.pow_le_mono_r; lia. }
    assert (PZ : 0 < 5 ^ n * 2 ^ Z.max p 0).
    { apply Z.mul_pos_pos; [exact P5n|apply pow2_pos; lia]. }
    rewrite <- Z.mul_assoc. eapply Z.le_lt_trans; [|exact M3].
    apply Z.le_trans with (2 * 10 ^ (md + 1) * 1).
    * set (z := 5 ^ n * 2 ^ Z.max p 0) in *. clearbody z. set (T := 10 ^ (md + 1)) in *. clearbody T.
      clear - X PZ NZ Hf. nia.
    * apply Z.mul_le_mono_nonneg_l; [pose proof (Z.pow_nonneg 10 (md + 1)); lia|].
      pose proof (pow2_pos (mant_bits t - min_exp t)). lia.
Qed.

Lemma real_fits c t k e B : 0 <= k -> e < 0 -> 0 < B < 10 ^ (max_digits t + 1) ->
  let p := k - (mant_bits t - min_exp t) - e in B * 2 ^ Z.max (- p) 0 < top c.
Proof.
  intros Hk He BB p. pose proof (mb_range t) as Hmb. pose proof (min_exp_range t) as Hme.
  destruct (facts t) as (_ & M2 & M3 & _). eapply Z.lt_le_trans; [|apply top_big].
  set (BIG := 2 ^ 3968) in *. clearbody BIG.
  eapply Z.le_lt_trans; [|exact M3].
  apply Z.mul_le_mono_nonneg; [lia|lia|apply Z.pow_nonneg; lia|].
  apply Z.pow_le_mono_r; [lia|]. unfold p. lia.
Qed.

(** One unit in the last place of the 19-digit prefix is far below half a step. *)
Lemma next_mid t w q f k : 2 * f + 2 <= w -> 0 <= f -> 0 <= k ->
  (units t (dec w q) < [(f + 1) * 2 ^ k]q)%Q -> (2 * units t (dec (w + 1) q) < [(2 * f + 3) * 2 ^ k]q)%Q.
Proof.
  intros FW F0 Hk YU.
  assert (Pw : (0 < [w]q)%Q) by (apply (proj1 (q_pos _)); lia).
  assert (Pw1 : (0 < [w + 1]q)%Q) by (apply (proj1 (q_pos _)); lia).
  apply Qmult_lt_l with [w]q; [exact Pw|].
  setoid_replace ([w]q * (2 * units t (dec (w + 1) q)))%Q with (2 * ([w + 1]q * units t (dec w q)))%Q
    by (rewrite <- (dec_units_scale t w (w + 1) q); ring).
  apply Qlt_le_trans with (2 * ([w + 1]q * [(f + 1) * 2 ^ k]q))%Q.
  { apply Qmult_lt_l; [reflexivity|]. apply Qmult_lt_l; [exact Pw1|exact YU]. }
  change 2%Q with [2]q. rewrite <- !inject_Z_mult. apply -> q_le.
  replace (2 * ((w + 1) * ((f + 1) * 2 ^ k))) with ((2 * (w + 1) * (f + 1)) * 2 ^ k) by ring.
  replace (w * ((2 * f + 3) * 2 ^ k)) with ((w * (2 * f + 3)) * 2 ^ k) by ring.
  apply Z.mul_le_mono_nonneg_r; [apply Z.pow_nonneg; lia|]. nia.
Qed.

Theorem digit_comp_spec c u t num ip fp w kk r q m p2 :
  pn_integer num = Some ip -> span_list (pn_fraction num) = fp -> all_digits ip -> all_digits fp ->
  pn_mantissa num = w -> pn_exponent num = q ->
  digits_value (ip ++ fp) = w * 10 ^ kk + r -> 1 <= kk -> 0 <= r < 10 ^ kk -> 10 ^ 18 <= w < 10 ^ 19 ->
  smallest_power_of_ten t <= q <= largest_power_of_ten t ->
  2 ^ 63 <= m < 2 ^ 64 -> -3000 <= p2 <= 3000 ->
  (let F := m / 2 ^ (63 - mant_bits t) in
   ([F]q * qpow 2 (rg t p2 - 1) <= units t (dec w q))%Q /\
   (units t (dec w q) < [F + 1]q * qpow 2 (rg t p2 - 1))%Q) ->
  rfloor t m p2 < inf_code t ->
  exists a, digit_comp c u t num {| am_mantissa := m; am_power2 := p2 + invalid_am_bias |} = Ok a /\
    am_ok t a /\ rounds t (dec (digits_value (ip ++ fp)) (q - kk)) (am_code t a).
Proof.
  intros HI HF AI AF EM EQ EW Hkk Hr Hw Hq Hm Hp [FL FU] RI.
  pose proof (mb_range t) as Hmb. pose proof (min_exp_range t) as Hme. pose proof (pow10_range t) as Hpr.
  assert (M1 : largest_power_of_ten t + 1 < max_digits t) by (destruct t; reflexivity).
  assert (M2 : 22 <= max_digits t <= 769) by (destruct t; cbn; lia).
  destruct (rfloor_bounds t m p2 (units t (dec w q)) Hm FL FU) as [YL YU]. clear FL FU.
  destruct (rfloor_units t m p2 Hm) as (U0 & U1 & U2 & U3 & U4).
  destruct (rfloor_canon t m p2 Hm) as [CC CL]. cbv zeta in *.
  set (f := m / 2 ^ rsh t p2) in *. set (k := rk t p2) in *.
  assert (Q18 : q + 18 <= largest_power_of_ten t).
  { apply (exp_bound t w); [lia|]. eapply Qlt_le_trans; [exact YU|]. rewrite <- U2. apply -> q_le.
    apply U_le; lia. }
  set (W := digits_value (ip ++ fp)) in *.
  set (V := dec W (q - kk)).
  assert (P10k : 0 < 10 ^ kk) by (apply Z.pow_pos_nonneg; lia).
  assert (WR : 10 ^ (19 + kk - 1) <= W < 10 ^ (19 + kk)).
  { clear - EW Hw Hr P10k Hkk. replace (19 + kk - 1) with (18 + kk) by lia. rewrite !Z.pow_add_r by lia. rewrite EW.
    split; [apply Z.le_trans with (w * 10 ^ kk); [apply Z.mul_le_mono_nonneg_r; lia|lia]|].
    apply Z.lt_le_trans with ((w + 1) * 10 ^ kk); [lia|]. apply Z.mul_le_mono_nonneg_r; lia. }
  assert (VL : (dec w q <= V)%Q).
  { unfold V. rewrite <- (dec_shift w q kk) by (clear - Hkk; lia). apply decimal_le. clear - EW Hr; lia. }
  assert (VU : (V < dec (w + 1) q)%Q).
  { unfold V. rewrite <- (dec_shift (w + 1) q kk) by (clear - Hkk; lia). apply decimal_lt. clear - EW Hr; lia. }
  assert (TM : 10 ^ (max_digits t + 1) < top c).
  {
    destruct (facts t) as (_ & _ & M3 & _). eapply Z.lt_le_trans; [|apply top_big].
    eapply Z.le_lt_trans; [|exact M3]. clear - Hmb Hme.
    rewrite <- (Z.mul_1_r (10 ^ _)) at 1.
    pose proof (pow2_pos (mant_bits t - min_exp t) ltac:(lia)).
    apply Z.mul_le_mono_nonneg; try lia; pose proof (Z.pow_nonneg 10 (max_digits t + 1)); lia. }
  unfold digit_comp. cbn [am_power2 am_mantissa].
  replace (p2 + invalid_am_bias - invalid_am_bias) with p2 by (clear; lia).
  rewrite chk32_Ok, bind_Ok by (clear - Hp; lia). rewrite EM, EQ.
  rewrite (to_signed_small 32) by (change (2 ^ (32 - 1)) with 2147483648; clear - Hq Hpr; lia).
  rewrite scientific_exponent_spec, bind_Ok by (clear - Hq Hpr Hw; lia).
  destruct (parse_mantissa_spec c u num (max_digits t) ip fp (19 + kk) ltac:(lia) TM HI HF AI AF WR ltac:(clear - Hkk; lia))
    as (big & d & -> & LB & NB & MR). rewrite bind_Ok.
  fold W in MR. clearbody W.
  assert (DR : 20 <= d <= max_digits t + 1 /\ d <= 19 + kk).
  { clear - MR M2 Hkk. destruct MR as [(A & B & _)|(A & MR)]; [lia|].
    destruct MR as [(_ & B & _)|(_ & B & _)]; lia. }
  assert (BB := read_range (max_digits t) W (19 + kk) (bv c big) d ltac:(clear - M2; lia) ltac:(clear - Hkk; lia) WR MR).
  clear AI AF HI HF EW Hr P10k.
  rewrite chk32_Ok, bind_Ok by (clear - Hq Hpr; lia). rewrite chk32_Ok, bind_Ok by (clear - Hq Hpr DR M2; lia).
  replace (q + 18 + 1 - d) with (q + 19 - d) by (clear; lia).
  set (e := q + 19 - d).
  destruct (Z.leb_spec 0 e) as [PE|NE].
  - (* exact integer *)
    destruct MR as [(A & B & C)|(A & MR)].
    2:{ exfalso. clear - MR PE Q18 M1 A. destruct MR as [(_ & B & _)|(_ & B & _)]; unfold e in PE; lia. }
    assert (Ee : e = q - kk) by (unfold e; clear - B; lia).
    destruct (positive_digit_comp_spec c t big e LB NB ltac:(clear - BB; lia)) as (a & EA & OA & RA).
    { clear - PE Hq Hpr DR e. unfold e in *; lia. }
    { rewrite C. eapply Z.lt_le_trans; [|apply top_big].
      destruct (facts t) as (_ & _ & _ & _ & _ & M6). eapply Z.lt_trans; [|exact M6].
      apply Z.lt_le_trans with (10 ^ (19 + kk) * 10 ^ e).
      - apply Z.mul_lt_mono_pos_r; [apply Z.pow_pos_nonneg; clear - PE; lia|clear - WR; lia].
      - rewrite <- Z.pow_add_r by (clear - PE Hkk; lia). apply Z.pow_le_mono_r; [lia|]. clear - Ee Q18. lia. }
    exists a. split; [exact EA|]. split; [exact OA|]. unfold V. rewrite <- Ee, <- C. exact RA.
  - (* comparison with the halfway point *)
    assert (Hk : 0 <= k) by apply rk_nonneg.
    assert (F0 : 0 <= f) by (destruct CC as (_ & CC & _); clear - CC; lia).
    assert (T1 := theor_fits c t f k w q d CC CL YL ltac:(clear - Hw; lia) ltac:(clear - DR; lia) (proj1 Hq) NE).
    assert (T2 := real_fits c t k e (bv c big) Hk NE BB). cbv zeta in T1, T2. fold e in T1.
    destruct (negative_digit_comp_spec c t big m p2 e LB NB (proj1 BB) Hm Hp
                ltac:(unfold e in *; clear - NE Hq Hpr DR M2; lia) RI T1 T2)
      as (a & i & EA & OA & CA & HB). fold f k in HB.
    exists a. split; [exact EA|]. split; [exact OA|].
    assert (HV : halfway_bit (units t V) f k i).
    { refine (read_halfway t W (19 + kk) (bv c big) d (q - kk) e f k i _ WR MR _ NE Hk (conj F0 CL) HB);
        unfold e; clear - Hkk; lia. }
    clear HB T1 T2 MR EA OA. exists (rfloor t m p2 + Z.b2z i). split; [|exact CA].
    fold V. apply rneu_pick'; [clear - Hmb; lia|exact U0| | |].
    + rewrite U1. eapply Qle_trans; [exact YL|]. apply units_le. exact VL.
    + apply Qlt_le_trans with [(2 * f + 3) * 2 ^ k]q.
      2:{ apply -> q_le. unfold rfloor. fold f k. apply mid2_next; [clear - Hmb; lia|exact CC|exact CL]. }
      apply Qle_lt_trans with (2 * units t (dec (w + 1) q))%Q.
      { apply Qmult_le_l; [reflexivity|]. apply units_le, Qlt_le_weak, VU. }
      apply next_mid; [|exact F0|exact Hk|exact YU].
      assert (2 ^ (mant_bits t + 1) <= 2 ^ 53) by (apply Z.pow_le_mono_r; clear - Hmb; lia).
      clear - H CL Hw. lia.
    + rewrite U3, <- (Z.negb_even (rfloor t m p2)), U4, Z.negb_even. exact HV.
Qed.
