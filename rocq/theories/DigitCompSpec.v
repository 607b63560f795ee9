(** The slow path (digit_comparison.h) rounds correctly. *)
From Verif Require Import Machine Config Chars Format FastTable ParseNumber Bigint DecToBin DigitComp
  WordLemmas EiselTable EiselLemire Rounding ComputeFloat SpecFloat FloatBridge SpecGrammar Scan
  BigintSpec MantissaSpec RoundSpec ErrorSpec.
From Coq Require Import QArith Lqa.
Open Scope Z_scope.

(** ** scientific_exponent *)
Lemma sci_step n by_ st m e : by_ <= m -> -2000000 <= e <= 2000000 -> 0 <= st <= 4 ->
  sci_loop (S n) by_ st m e = sci_loop n by_ st (m / by_) (e + st).
Proof.
  intros H He Hs. cbn [sci_loop]. destruct (Z.leb_spec by_ m); [|lia].
  rewrite chk32_Ok by lia. reflexivity.
Qed.
Lemma sci_stop n by_ st m e : m < by_ -> sci_loop (S n) by_ st m e = Ok (m, e).
Proof. intros H. cbn [sci_loop]. destruct (Z.leb_spec by_ m); [lia|reflexivity]. Qed.

Lemma div_between a b m d : 0 < d -> a * d <= m < b * d -> a <= m / d < b.
Proof.
  intros Hd [L U]. split; [apply Z.div_le_lower_bound; lia|apply Z.div_lt_upper_bound; lia].
Qed.

Lemma scientific_exponent_spec w e : 10 ^ 18 <= w < 10 ^ 19 -> -1000000 <= e <= 1000000 ->
  scientific_exponent w e = Ok (e + 18).
Proof.
  intros Hw He. unfold scientific_exponent.
  rewrite sci_step by lia.
  pose proof (div_between (10 ^ 14) (10 ^ 15) w 10000 ltac:(lia) ltac:(lia)) as H1.
  set (w1 := w / 10000) in *. clearbody w1. rewrite sci_step by lia.
  pose proof (div_between (10 ^ 10) (10 ^ 11) w1 10000 ltac:(lia) ltac:(lia)) as H2.
  set (w2 := w1 / 10000) in *. clearbody w2. rewrite sci_step by lia.
  pose proof (div_between (10 ^ 6) (10 ^ 7) w2 10000 ltac:(lia) ltac:(lia)) as H3.
  set (w3 := w2 / 10000) in *. clearbody w3. rewrite sci_step by lia.
  pose proof (div_between 100 1000 w3 10000 ltac:(lia) ltac:(lia)) as H4.
  set (w4 := w3 / 10000) in *. clearbody w4. rewrite sci_stop by lia. cbn [bind].
  rewrite sci_step by lia.
  pose proof (div_between 1 10 w4 100 ltac:(lia) ltac:(lia)) as H5.
  set (w5 := w4 / 100) in *. clearbody w5. rewrite sci_stop by lia. cbn [bind].
  rewrite sci_stop by lia. cbn [bind]. f_equal. lia.
Qed.

(** ** to_extended *)
Lemma masks t : exponent_mask t = inf_power t * 2 ^ mant_bits t /\
  mantissa_mask t = 2 ^ mant_bits t - 1 /\ hidden_bit_mask t = 2 ^ mant_bits t /\
  exists j, 0 <= j /\ inf_power t = 2 ^ j - 1.
Proof.
  destruct t; (split; [reflexivity|split; [reflexivity|split; [reflexivity|]]]);
    [exists 11|exists 8|exists 5|exists 8]; split; try lia; reflexivity.
Qed.

Lemma land_exponent t b : 0 <= b < inf_code t ->
  Z.land b (exponent_mask t) = b / 2 ^ mant_bits t * 2 ^ mant_bits t.
Proof.
  intros Hb. pose proof (mb_range t) as Hmb. pose proof (pow2_pos (mant_bits t) ltac:(lia)) as P.
  destruct (masks t) as (E & _ & _ & j & Hj & EJ). rewrite E.
  pose proof (Z.div_mod b (2 ^ mant_bits t) ltac:(lia)) as D.
  pose proof (Z.mod_pos_bound b (2 ^ mant_bits t) P) as M.
  assert (Q : 0 <= b / 2 ^ mant_bits t < inf_power t).
  { split; [apply Z.div_pos; lia|apply Z.div_lt_upper_bound; [lia|]]. unfold inf_code in Hb. lia. }
  rewrite <- Z.shiftl_mul_pow2, <- (Z.shiftl_mul_pow2 (b / _)) by lia.
  apply Z.bits_inj'. intros n Hn. rewrite Z.land_spec.
  destruct (Z_lt_le_dec n (mant_bits t)) as [L|L].
  - rewrite !(Z.shiftl_spec_low _ (mant_bits t) n) by lia. apply andb_false_r.
  - rewrite !Z.shiftl_spec_high by lia. rewrite <- Z.shiftr_div_pow2 by lia.
    rewrite Z.shiftr_spec by lia. replace (n - mant_bits t + mant_bits t) with n by lia.
    rewrite EJ. rewrite Z.sub_1_r, <- Z.ones_equiv.
    destruct (Z_lt_le_dec (n - mant_bits t) j) as [L2|L2].
    + rewrite Z.ones_spec_low by lia. apply andb_true_r.
    + rewrite Z.ones_spec_high by lia. rewrite andb_false_r. symmetry.
      replace n with ((n - mant_bits t) + mant_bits t) by lia.
      rewrite <- Z.shiftr_spec by lia. rewrite Z.shiftr_div_pow2 by lia.
      set (x := b / 2 ^ mant_bits t) in *.
      destruct (Z.eq_dec x 0) as [->|NX]; [apply Z.bits_0|].
      apply Z.bits_above_log2; [lia|]. apply Z.lt_le_trans with j; [|lia].
      apply Z.log2_lt_pow2; lia.
Qed.

Lemma to_extended_spec t k f : canon (mant_bits t) k f -> f < 2 ^ (mant_bits t + 1) ->
  k * 2 ^ mant_bits t + f < inf_code t ->
  to_extended t (k * 2 ^ mant_bits t + f) =
    {| am_mantissa := f; am_power2 := k + 1 - (mant_bits t - min_exp t) |}.
Proof.
  intros (Hk & Hf & Hc) L I. pose proof (mb_range t) as Hmb.
  pose proof (pow2_pos (mant_bits t) ltac:(lia)) as P. rewrite pow2_S in L, Hf by lia.
  unfold to_extended. set (b := k * 2 ^ mant_bits t + f) in *.
  assert (B0 : 0 <= b) by (unfold b; pose proof (Z.mul_nonneg_nonneg k (2 ^ mant_bits t)); lia).
  rewrite land_exponent by lia. destruct (masks t) as (_ & -> & -> & _).
  rewrite land_ones_mod by lia.
  destruct (Z_lt_le_dec f (2 ^ mant_bits t)) as [S|S].
  - assert (K0 : k = 0) by lia. unfold b. subst k. rewrite Z.mul_0_l, Z.add_0_l.
    rewrite Z.div_small, Z.mod_small by lia. reflexivity.
  - assert (ED : b / 2 ^ mant_bits t = k + 1 /\ b mod 2 ^ mant_bits t = f - 2 ^ mant_bits t).
    { unfold b. replace (k * 2 ^ mant_bits t + f) with ((f - 2 ^ mant_bits t) + (k + 1) * 2 ^ mant_bits t) by lia.
      rewrite Z.div_add, Z.mod_add by lia. rewrite Z.div_small, Z.mod_small by lia. lia. }
    destruct ED as [-> ->].
    destruct (Z.eqb_spec ((k + 1) * 2 ^ mant_bits t) 0) as [Z0|_]; [nia|].
    f_equal.
    + replace (2 ^ mant_bits t) with (1 * 2 ^ mant_bits t) at 2 by lia.
      rewrite lor_add_disjoint by lia. lia.
    + rewrite Z.shiftr_div_pow2 by lia. rewrite Z.div_mul by lia. reflexivity.
Qed.

Lemma to_extended_halfway_spec t k f : canon (mant_bits t) k f -> f < 2 ^ (mant_bits t + 1) ->
  k * 2 ^ mant_bits t + f < inf_code t ->
  to_extended_halfway t (k * 2 ^ mant_bits t + f) =
    {| am_mantissa := 2 * f + 1; am_power2 := k - (mant_bits t - min_exp t) |}.
Proof.
  intros C L I. unfold to_extended_halfway. rewrite to_extended_spec by assumption.
  cbn [am_mantissa am_power2]. pose proof (mb_range t) as Hmb. destruct C as (Hk & Hf & _).
  assert (2 ^ (mant_bits t + 1) <= 2 ^ 53) by (apply Z.pow_le_mono_r; lia).
  rewrite Z.shiftl_mul_pow2 by lia. change (2 ^ 1) with 2.
  rewrite (u64_small (f * 2)) by lia. rewrite u64_small by lia. f_equal; lia.
Qed.

(** ** positive_digit_comp: the big integer itself is rounded *)
Lemma top_big c : 2 ^ 3968 <= top c.
Proof.
  unfold top. apply Z.pow_le_mono_r; [lia|].
  destruct (lb_cases c) as [(_ & -> & ->)|(_ & -> & ->)]; lia.
Qed.
Lemma top_exp c : top c <= 2 ^ 4000.
Proof.
  unfold top. apply Z.pow_le_mono_r; [lia|].
  destruct (lb_cases c) as [(_ & -> & ->)|(_ & -> & ->)]; lia.
Qed.

(** The rounding decision on a truncated 64-bit significand. *)
Lemma nearest_bits f s m (x : Q) (tr : bool) : 1 <= s -> f = m / 2 ^ s -> 0 <= m ->
  ([m]q <= x)%Q -> (x < [m + 1]q)%Q -> (tr = true <-> ([m]q < x)%Q) ->
  let above := 2 ^ (s - 1) <? m mod 2 ^ s in
  let half := m mod 2 ^ s =? 2 ^ (s - 1) in
  let i := above || (half && tr) || (Z.odd f && half) in
  (2 * x < [(2 * f + 1) * 2 ^ s]q)%Q /\ i = false \/
  ([(2 * f + 1) * 2 ^ s]q < 2 * x)%Q /\ i = true \/
  (2 * x == [(2 * f + 1) * 2 ^ s]q)%Q /\ i = Z.odd f.
Proof.
  intros Hs Ef Hm L U T above half i.
  pose proof (pow2_pos s ltac:(lia)) as P. pose proof (pow2_pos (s - 1) ltac:(lia)) as P1.
  assert (PS : 2 ^ s = 2 * 2 ^ (s - 1)) by (rewrite <- pow2_S by lia; f_equal; lia).
  pose proof (Z.div_mod m (2 ^ s) ltac:(lia)) as D. rewrite <- Ef in D.
  pose proof (Z.mod_pos_bound m (2 ^ s) P) as M.
  set (r := m mod 2 ^ s) in *. set (h := 2 ^ (s - 1)) in *.
  rewrite PS in D, M. rewrite PS.
  assert (Two : forall z, (2 * [z]q == [2 * z]q)%Q) by (intros; rewrite inject_Z_mult; reflexivity).
  unfold i, above, half. clear i above half.
  destruct (Z.ltb_spec h r) as [A|A].
  - right; left. cbn [orb]. split; [|reflexivity].
    apply Qlt_le_trans with [2 * m]q; [apply -> q_lt; nia|]. rewrite <- Two. lra.
  - cbn [orb]. destruct (Z.eqb_spec r h) as [E|E].
    + rewrite andb_true_l, andb_true_r. destruct tr; cbn [orb].
      * right; left. split; [|reflexivity]. apply Qle_lt_trans with [2 * m]q.
        { apply -> q_le. nia. } rewrite <- Two. pose proof (proj1 T eq_refl). lra.
      * right; right. split; [|reflexivity].
        assert (XE : (x == [m]q)%Q).
        { destruct (Qlt_le_dec [m]q x) as [G|G]; [apply T in G; discriminate|lra]. }
        rewrite XE, Two. assert (EE : 2 * m = (2 * f + 1) * (2 * h)) by nia. rewrite EE. reflexivity.
    + left. rewrite andb_false_l, andb_false_r. split; [|reflexivity].
      apply Qlt_le_trans with [2 * (m + 1)]q; [rewrite <- Two; lra|]. apply -> q_le. nia.
Qed.

Lemma min_exp_range t : -1023 <= min_exp t <= -15.
Proof. destruct t; cbn; lia. Qed.

Theorem positive_digit_comp_spec c t big e : limbs c big -> norm c big -> 0 < bv c big -> 0 <= e < 2 ^ 32 ->
  bv c big * 10 ^ e < top c ->
  exists a, positive_digit_comp c t big e = Ok a /\ am_ok t a /\
    rounds t (dec (bv c big) e) (am_code t a).
Proof.
  intros LB NB PB He HT. unfold positive_digit_comp.
  rewrite u32_small by lia.
  destruct (big_pow10_spec c big e LB NB PB ltac:(lia) HT) as (r & -> & LR & NR & ER).
  rewrite bind_Ok, assert_true.
  assert (PR : 0 < bv c r).
  { rewrite ER. apply Z.mul_pos_pos; [exact PB|apply Z.pow_pos_nonneg; lia]. }
  rewrite <- ER in HT.
  destruct (hi64_spec c r LR NR PR HT) as (m & tr & bl & -> & HO & -> & EB). cbn [bind].
  set (N := bv c r) in *.
  assert (LN : 0 <= Z.log2 N < 4000).
  { split; [apply Z.log2_nonneg|]. apply Z.log2_lt_pow2; [exact PR|].
    pose proof (top_exp c). lia. }
  pose proof (mb_range t) as Hmb. pose proof (min_exp_range t) as Hme.
  rewrite chk32_Ok by lia. cbn [bind].
  destruct HO as (Hm & HB & HTR).
  set (L := Z.log2 N + 1) in *. rewrite EB.
  set (p2 := L - 64 + (mant_bits t - min_exp t)).
  assert (G : 1 <= rg t p2) by (unfold rg, p2; lia).
  assert (Esh : rsh t p2 = 63 - mant_bits t).
  { unfold rsh. destruct (Z.leb_spec (rg t p2) 0); lia. }
  set (s := 63 - mant_bits t) in *. set (f := m / 2 ^ s).
  set (x := ([N]q * qpow 2 (64 - L))%Q).
  pose proof (qpow_pos 2 (64 - L) ltac:(lia)) as PQ.
  pose proof (qpow_pos 2 L ltac:(lia)) as PQ2.
  assert (X1 : (x * [2 ^ L]q == [N * 2 ^ 64]q)%Q).
  { unfold x. rewrite inject_Z_mult, <- !qpow_Z by lia. rewrite <- Qmult_assoc, <- qpow_add by lia.
    replace (64 - L + L) with 64 by lia. reflexivity. }
  assert (PL : (0 < [2 ^ L]q)%Q) by (apply (proj1 (q_pos _)); apply pow2_pos; lia).
  assert (XL : ([m]q <= x)%Q).
  { apply Qmult_le_r with [2 ^ L]q; [exact PL|]. rewrite X1, <- inject_Z_mult. apply -> q_le. lia. }
  assert (XU : (x < [m + 1]q)%Q).
  { apply Qmult_lt_r with [2 ^ L]q; [exact PL|]. rewrite X1, <- inject_Z_mult. apply -> q_lt. lia. }
  assert (XT : tr = true <-> ([m]q < x)%Q).
  { rewrite HTR. rewrite q_lt, <- X1, inject_Z_mult. apply Qmult_lt_r. exact PL. }
  pose proof (nearest_bits f s m x tr ltac:(lia) eq_refl ltac:(lia) XL XU XT) as NB3. cbv zeta in NB3.
  set (cb := fun is_odd is_halfway is_above : bool =>
       is_above || (is_halfway && tr) || (is_odd && is_halfway)).
  set (i := (2 ^ (s - 1) <? m mod 2 ^ s) || (m mod 2 ^ s =? 2 ^ (s - 1)) && tr
           || Z.odd f && (m mod 2 ^ s =? 2 ^ (s - 1))) in *.
  destruct (round_spec t m p2 (round_nearest_tie_even cb) (Z.b2z i) Hm ltac:(unfold p2; lia)
              ltac:(destruct i; cbn; lia)) as (a & EA & OA & CA).
  { rewrite rnte_spec; [|lia|unfold p2; lia|lia]. rewrite Esh. reflexivity. }
  exists a. split; [exact EA|]. split; [exact OA|]. rewrite CA.
  destruct (rfloor_units t m p2 Hm) as (U0 & U1 & U2 & U3 & U4). cbv zeta in U1, U2, U3, U4.
  destruct (rfloor_canon t m p2 Hm) as [CC CL].
  rewrite Esh in U1, U2, U3, U4, CC, CL. fold f in U1, U2, U3, U4, CC, CL.
  set (k := rk t p2) in *. assert (Hk : 0 <= k) by apply rk_nonneg.
  set (y := units t (dec (bv c big) e)).
  assert (Y : (y * [2 ^ s]q == x * [2 ^ k]q)%Q).
  { unfold y, x, units, dec. rewrite (qpow_Z 10 e) by lia. rewrite <- inject_Z_mult, <- ER. fold N.
    rewrite <- !qpow_Z by lia. rewrite <- !Qmult_assoc, <- !qpow_add by lia.
    replace (mant_bits t - 1 - min_exp t + s) with (64 - L + k) by (unfold s, k, rk, rg, p2 in *; lia).
    reflexivity. }
  assert (Ps : (0 < [2 ^ s]q)%Q) by (apply (proj1 (q_pos _)); apply pow2_pos; lia).
  assert (Pk : (0 < [2 ^ k]q)%Q) by (apply (proj1 (q_pos _)); apply pow2_pos; lia).
  pose proof (Z.div_mod m (2 ^ s) ltac:(pose proof (pow2_pos s); lia)) as D. fold f in D.
  pose proof (Z.mod_pos_bound m (2 ^ s) ltac:(apply pow2_pos; lia)) as M.
  exists (rfloor t m p2 + Z.b2z i). split; [|reflexivity].
  fold y. apply rneu_pick'; [lia|exact U0| | |].
  - rewrite U1, inject_Z_mult.
    apply Qmult_le_r with [2 ^ s]q; [exact Ps|]. rewrite Y.
    setoid_replace ([f]q * [2 ^ k]q * [2 ^ s]q)%Q with ([f]q * [2 ^ s]q * [2 ^ k]q)%Q by ring.
    apply Qmult_le_r; [exact Pk|]. rewrite <- inject_Z_mult.
    eapply Qle_trans; [|exact XL]. apply -> q_le. lia.
  - apply Qlt_le_trans with [(2 * f + 3) * 2 ^ k]q.
    2:{ apply -> q_le. unfold rfloor. rewrite Esh. fold f k. apply mid2_next; [lia|exact CC|exact CL]. }
    rewrite inject_Z_mult. apply Qmult_lt_r with [2 ^ s]q; [exact Ps|].
    rewrite <- (Qmult_assoc 2), Y.
    setoid_replace ([2 * f + 3]q * [2 ^ k]q * [2 ^ s]q)%Q with (([2 * f + 3]q * [2 ^ s]q) * [2 ^ k]q)%Q by ring.
    rewrite Qmult_assoc. apply Qmult_lt_r; [exact Pk|].
    apply Qlt_le_trans with [2 * (m + 1)]q.
    + rewrite inject_Z_mult. change [2]q with 2%Q. apply Qmult_lt_l; [reflexivity|exact XU].
    + rewrite <- inject_Z_mult. apply -> q_le. lia.
  - rewrite U3, <- (Z.negb_even (rfloor t m p2)), U4, Z.negb_even.
    assert (CMP : forall z, (2 * y * [2 ^ s]q == 2 * x * [2 ^ k]q)%Q /\
       ([z * 2 ^ k]q * [2 ^ s]q == [z * 2 ^ s]q * [2 ^ k]q)%Q).
    { intros z. rewrite <- !(Qmult_assoc 2), Y, !inject_Z_mult. split; ring. }
    destruct (CMP (2 * f + 1)) as [C1 C2].
    destruct NB3 as [[A B]|[[A B]|[A B]]].
    + left. split; [|exact B]. apply Qmult_lt_r with [2 ^ s]q; [exact Ps|]. rewrite C1, C2.
      apply Qmult_lt_r; assumption.
    + right; left. split; [|exact B]. apply Qmult_lt_r with [2 ^ s]q; [exact Ps|]. rewrite C1, C2.
      apply Qmult_lt_r; assumption.
    + right; right. split; [|exact B].
      apply Qmult_inj_r with [2 ^ s]q; [intros E0; rewrite E0 in Ps; inversion Ps|].
      rewrite C1, C2, A. reflexivity.
Qed.

(** ** negative_digit_comp: the digits are compared with the halfway point *)
Definition halfway_bit (y : Q) (f k : Z) (i : bool) : Prop :=
  (2 * y < [(2 * f + 1) * 2 ^ k]q)%Q /\ i = false \/
  ([(2 * f + 1) * 2 ^ k]q < 2 * y)%Q /\ i = true \/
  (2 * y == [(2 * f + 1) * 2 ^ k]q)%Q /\ i = Z.odd f.

(** Comparing 2 * units (D * 10^-n) with H * 2^k, multiplied by 10^n / 2^bias. *)
Lemma halfway_scale t n k : 0 <= n ->
  let bias := mant_bits t - min_exp t in
  let p := k - bias + n in
  exists a : Q, (0 < a)%Q /\
    (forall D, 2 * units t (dec D (- n)) * a == [D * 2 ^ Z.max (- p) 0]q)%Q /\
    (forall h, ([h]q * qpow 2 k) * a == [h * 5 ^ n * 2 ^ Z.max p 0]q)%Q.
Proof.
  intros Hn bias p. exists (qpow 10 n * qpow 2 (- bias) * qpow 2 (Z.max (- p) 0))%Q.
  split.
  { apply Qmult_lt_0_compat; [apply Qmult_lt_0_compat|]; apply qpow_pos; lia. }
  split.
  - intros D. unfold units, dec. rewrite inject_Z_mult, <- (qpow_Z 2 (Z.max (- p) 0)) by lia.
    pose proof (qpow_opp 10 n ltac:(lia)) as O.
    replace (mant_bits t - 1 - min_exp t) with (bias + (- 1)) by (unfold bias; lia).
    rewrite (qpow_add 2 bias) by lia.
    pose proof (qpow_opp 2 bias ltac:(lia)) as O2.
    pose proof (qpow_opp 2 1 ltac:(lia)) as O1. rewrite (qpow_Z 2 1) in O1 by lia. change [2 ^ 1]q with 2%Q in O1.
    transitivity ([D]q * (qpow 10 (- n) * qpow 10 n) * (qpow 2 (- bias) * qpow 2 bias) * (qpow 2 (-1) * 2) * qpow 2 (Z.max (- p) 0))%Q; [ring|].
    rewrite O, O2, O1. ring.
  - intros h. rewrite !inject_Z_mult, <- (qpow_Z 2 (Z.max p 0)), <- (qpow_Z 5 n) by lia.
    rewrite qpow_10.
    transitivity ([h]q * qpow 5 n * (qpow 2 k * qpow 2 n * qpow 2 (- bias) * qpow 2 (Z.max (- p) 0)))%Q; [ring|].
    rewrite <- !qpow_add by lia. replace (k + n + - bias + Z.max (- p) 0) with (Z.max p 0) by (unfold p; lia).
    reflexivity.
Qed.

Theorem negative_digit_comp_spec c t big m p2 e : limbs c big -> norm c big -> 0 < bv c big ->
  2 ^ 63 <= m < 2 ^ 64 -> -3000 <= p2 <= 3000 -> -10000 <= e < 0 ->
  let f := m / 2 ^ rsh t p2 in let k := rk t p2 in
  let p := k - (mant_bits t - min_exp t) - e in
  rfloor t m p2 < inf_code t ->
  (2 * f + 1) * 5 ^ (- e) * 2 ^ Z.max p 0 < top c ->
  bv c big * 2 ^ Z.max (- p) 0 < top c ->
  exists a i, negative_digit_comp c t big {| am_mantissa := m; am_power2 := p2 |} e = Ok a /\
    am_ok t a /\ am_code t a = Z.min (rfloor t m p2 + Z.b2z i) (inf_code t) /\
    halfway_bit (units t (dec (bv c big) e)) f k i.
Proof.
  intros LB NB PB Hm Hp He f k p RI T1 T2. unfold negative_digit_comp.
  pose proof (mb_range t) as Hmb. pose proof (min_exp_range t) as Hme.
  pose proof (rsh_range t p2) as Hsh.
  destruct (rfloor_units t m p2 Hm) as (U0 & _).
  destruct (rfloor_canon t m p2 Hm) as [CC CL]. fold f in CC, CL. fold k in CC.
  destruct (round_spec t m p2 round_down 0 Hm ltac:(lia) ltac:(lia)) as (ab & -> & OAB & CAB).
  { rewrite Z.add_0_r. apply round_down_spec; lia. }
  rewrite bind_Ok. rewrite to_float_spec by exact OAB. rewrite bind_Ok.
  rewrite with_sign_eq. rewrite CAB, Z.add_0_r, Z.min_l by lia.
  unfold rfloor. fold f k.
  rewrite ?Z.add_0_r. rewrite to_extended_halfway_spec; [|exact CC|exact CL|exact RI].
  cbn [am_mantissa am_power2].
  assert (Kr : 0 <= k <= 3100) by (unfold k, rk, rg; lia).
  assert (F2 : 0 < 2 * f + 1 < 2 ^ 64).
  { destruct CC as (_ & C2 & _). assert (2 ^ (mant_bits t + 1) <= 2 ^ 53) by (apply Z.pow_le_mono_r; lia). lia. }
  destruct (bigint_of_u64_spec c (2 * f + 1) ltac:(lia)) as (th & -> & LT & NT & ET). rewrite bind_Ok.
  rewrite chk32_Ok by lia. rewrite bind_Ok. rewrite chk32_Ok by lia. rewrite bind_Ok.
  rewrite u32_small by lia.
  destruct (Z.eqb_spec (- e) 0) as [E0|_]; [lia|]. cbn [negb].
  assert (P5 : 0 < 5 ^ (- e)) by (apply Z.pow_pos_nonneg; lia).
  assert (PM : 0 < 2 ^ Z.max p 0) by (apply pow2_pos; lia).
  destruct (big_pow5_spec c th (- e) LT NT ltac:(lia) ltac:(lia)) as (th5 & -> & L5 & N5 & E5).
  { rewrite ET. eapply Z.le_lt_trans; [|exact T1].
    rewrite <- (Z.mul_1_r ((2 * f + 1) * 5 ^ (- e))) at 1. apply Z.mul_le_mono_nonneg_l; [|lia].
    apply Z.mul_nonneg_nonneg; lia. }
  rewrite bind_Ok, assert_true. rewrite ET in E5.
  fold p.
  assert (P5' : 0 < bv c th5) by (rewrite E5; apply Z.mul_pos_pos; lia).
  assert (X : exists re th2, (if 0 <? p
    then let* '(ok, th0) := big_pow2 c th5 (u32 p) in let* _ := assert_that c ok in Ok (big, th0)
    else if p <? 0
         then let* np := chk 32 (- p) in let* '(ok, re) := big_pow2 c big (u32 np) in let* _ := assert_that c ok in Ok (re, th5)
         else Ok (big, th5)) = Ok (re, th2) /\ limbs c re /\ norm c re /\ limbs c th2 /\ norm c th2 /\
     bv c re = bv c big * 2 ^ Z.max (- p) 0 /\ bv c th2 = (2 * f + 1) * 5 ^ (- e) * 2 ^ Z.max p 0).
  { assert (PR : -20000 <= p <= 20000) by (unfold p; lia).
    rewrite <- E5 in T1 |- *.
    destruct (Z.ltb_spec 0 p) as [A|A].
    - rewrite (Z.max_l p 0) in T1 |- * by lia. rewrite (Z.max_r (- p)) by lia.
      rewrite u32_small by lia.
      destruct (big_pow2_spec c th5 p L5 N5 P5' ltac:(lia) T1) as (r & -> & R1 & R2 & R3).
      exists big, r. rewrite bind_Ok, assert_true, Z.pow_0_r, Z.mul_1_r. repeat split; assumption || reflexivity.
    - rewrite (Z.max_r p) in T1 |- * by lia. rewrite Z.pow_0_r, Z.mul_1_r.
      destruct (Z.ltb_spec p 0) as [B|B].
      + rewrite Z.max_l in T2 |- * by lia. rewrite chk32_Ok, bind_Ok by lia. rewrite u32_small by lia.
        destruct (big_pow2_spec c big (- p) LB NB PB ltac:(lia) T2) as (r & -> & R1 & R2 & R3).
        exists r, th5. rewrite bind_Ok, assert_true. repeat split; assumption || reflexivity.
      + rewrite Z.max_r by lia. rewrite Z.pow_0_r, Z.mul_1_r. exists big, th5. repeat split; assumption || reflexivity. }
  destruct X as (re & th2 & -> & LR & NR & L2 & N2 & ER & E2). rewrite bind_Ok.
  pose proof (big_compare_spec c re th2 LR L2 NR N2) as CMP.
  set (ord := big_compare re th2) in *. clearbody ord.
  set (i := if 0 <? ord then true else if ord <? 0 then false else Z.odd f).
  set (cb := fun is_odd _ _ : bool => if 0 <? ord then true else if ord <? 0 then false else is_odd).
  destruct (round_spec t m p2 (round_nearest_tie_even cb) (Z.b2z i) Hm ltac:(lia)
              ltac:(destruct i; cbn; lia)) as (a & EA & OA & CA).
  { rewrite rnte_spec by lia. reflexivity. }
  exists a, i. split; [exact EA|]. split; [exact OA|].
  split; [rewrite CA; unfold rfloor; fold f k; reflexivity|].
  destruct (halfway_scale t (- e) k ltac:(lia)) as (w & PW & S1 & S2). specialize (S1 (bv c big)).
  replace (- - e) with e in S1 by lia.
  replace (k - (mant_bits t - min_exp t) + - e) with p in S1, S2 by (unfold p; lia).
  specialize (S2 (2 * f + 1)). rewrite <- ER in S1. rewrite <- E2 in S2.
  assert (EH : ([(2 * f + 1) * 2 ^ k]q == [2 * f + 1]q * qpow 2 k)%Q).
  { rewrite inject_Z_mult, <- qpow_Z by lia. reflexivity. }
  unfold halfway_bit. rewrite EH. unfold i. clear i cb EA CA.
  destruct CMP as [[-> C]|[[-> C]|[-> C]]].
  - right; left. split; [|reflexivity]. apply Qmult_lt_r with w; [exact PW|]. rewrite S1, S2. apply -> q_lt. exact C.
  - left. split; [|reflexivity]. apply Qmult_lt_r with w; [exact PW|]. rewrite S1, S2. apply -> q_lt. exact C.
  - right; right. split; [|reflexivity].
    apply Qmult_inj_r with w; [intros E0; rewrite E0 in PW; inversion PW|].
    rewrite S1, S2, C. reflexivity.
Qed.
