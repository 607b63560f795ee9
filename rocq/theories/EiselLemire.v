(** Correctness of the Eisel-Lemire kernel: the truncated 128-bit product
    determines the top bits of the exact product, and exact ties are detected
    exactly. *)
From Verif Require Import Machine Config Chars Format FastTable DecToBin WordLemmas EiselTable.
From Coq Require Import Znumtheory Zpow_facts.

(** What compute_product_approximation returns: either the high word alone
    (its low bits are not all ones), or the top of the full product. *)
Definition prod_rel (mb Th Tl w lo hi : Z) : Prop :=
  (hi mod 2 ^ (61 - mb) <> 2 ^ (61 - mb) - 1 /\ hi * 2 ^ 64 + lo = w * Th) \/
  hi * 2 ^ 64 + lo = (w * (Th * 2 ^ 64 + Tl)) / 2 ^ 64.

Lemma cpa_spec c mb q w Th Tl :
  0 < mb <= 52 -> -342 <= q <= 308 -> 0 <= w < 2 ^ 64 ->
  0 <= Th < 2 ^ 64 -> 0 <= Tl < 2 ^ 64 ->
  nth_res power_of_five_128 (2 * (q + 342)) = Ok Th ->
  nth_res power_of_five_128 (2 * (q + 342) + 1) = Ok Tl ->
  exists lo hi, compute_product_approximation c (mb + 3) q w = Ok (lo, hi) /\
    0 <= lo < 2 ^ 64 /\ 0 <= hi < 2 ^ 64 /\ prod_rel mb Th Tl w lo hi.
Proof.
  intros Hmb Hq Hw HTh HTl N1 N2.
  unfold compute_product_approximation, smallest_power_of_five, smallest_power_of_ten.
  replace (q - -342) with (q + 342) by lia.
  rewrite (to_signed_small 32) by (change (2 ^ (32 - 1)) with 2147483648; lia).
  rewrite chk32_Ok by lia. rewrite bind_Ok, N1, bind_Ok.
  rewrite full_multiplication_spec by assumption.
  destruct (Z.ltb_spec (mb + 3) 64); [|lia].
  assert (EM : Z.shiftr 0xFFFFFFFFFFFFFFFF (mb + 3) = 2 ^ (61 - mb) - 1).
  { rewrite Z.shiftr_div_pow2 by lia. symmetry.
    assert (EP : 2 ^ 64 = 2 ^ (mb + 3) * 2 ^ (61 - mb)) by (rewrite <- Z.pow_add_r by lia; f_equal; lia).
    pose proof (Z.pow_pos_nonneg 2 (mb + 3) ltac:(lia) ltac:(lia)).
    apply Z.div_unique with (2 ^ (mb + 3) - 1); [lia|].
    change 0xFFFFFFFFFFFFFFFF with (2 ^ 64 - 1). lia. }
  rewrite EM, land_ones_mod by lia.
  pose proof (Z.div_mod (w * Th) (2 ^ 64) ltac:(lia)) as D1.
  pose proof (Z.mod_pos_bound (w * Th) (2 ^ 64) ltac:(lia)) as M1.
  assert (H1 : 0 <= (w * Th) / 2 ^ 64 < 2 ^ 64).
  { split; [apply Z.div_pos; nia|apply Z.div_lt_upper_bound; nia]. }
  set (lo := (w * Th) mod 2 ^ 64) in *. set (hi := w * Th / 2 ^ 64) in *.
  destruct (Z.eqb_spec (hi mod 2 ^ (61 - mb)) (2 ^ (61 - mb) - 1)) as [E|E].
  - rewrite N2, bind_Ok. rewrite full_multiplication_spec by assumption.
    pose proof (Z.div_mod (w * Tl) (2 ^ 64) ltac:(lia)) as D2.
    pose proof (Z.mod_pos_bound (w * Tl) (2 ^ 64) ltac:(lia)) as M2.
    assert (H2 : 0 <= (w * Tl) / 2 ^ 64 < 2 ^ 64).
    { split; [apply Z.div_pos; nia|apply Z.div_lt_upper_bound; nia]. }
    set (shi := w * Tl / 2 ^ 64) in *. set (slo := (w * Tl) mod 2 ^ 64) in *.
    assert (EQ : (w * (Th * 2 ^ 64 + Tl)) / 2 ^ 64 = w * Th + shi).
    { symmetry. apply Z.div_unique with slo; lia. }
    assert (BND : w * Th + shi < 2 ^ 64 * 2 ^ 64).
    { assert (w * Th <= (2 ^ 64 - 1) * (2 ^ 64 - 1)) by nia. lia. }
    clearbody lo hi shi slo.
    unfold u64.
    destruct (Z_lt_ge_dec (lo + shi) (2 ^ 64)) as [L|G].
    + rewrite (Z.mod_small (lo + shi)) by lia.
      destruct (Z.ltb_spec (lo + shi) shi); [lia|].
      exists (lo + shi), hi. split; [reflexivity|]. split; [lia|]. split; [lia|].
      right. rewrite EQ. lia.
    + assert (EL : (lo + shi) mod 2 ^ 64 = lo + shi - 2 ^ 64).
      { symmetry; apply Z.mod_unique with 1; lia. }
      rewrite EL. destruct (Z.ltb_spec (lo + shi - 2 ^ 64) shi); [|lia].
      assert (hi + 1 < 2 ^ 64) by lia.
      rewrite (Z.mod_small (hi + 1)) by lia.
      exists (lo + shi - 2 ^ 64), (hi + 1). split; [reflexivity|]. split; [lia|]. split; [lia|].
      right. rewrite EQ. lia.
  - exists lo, hi. split; [reflexivity|]. split; [lia|]. split; [lia|].
    left. split; [exact E|lia].
Qed.

Lemma te_E_bounds q : -342 <= q <= 308 -> (q < 0 -> 127 <= te_E q) /\ -600 <= te_E q <= 1000.
Proof.
  intros H. unfold te_E, te_pw. rewrite Z.shiftr_div_pow2 by lia. change (2 ^ 16) with 65536.
  pose proof (Z.div_mod (217706 * q) 65536 ltac:(lia)).
  pose proof (Z.mod_pos_bound (217706 * q) 65536 ltac:(lia)). lia.
Qed.

Lemma te_B_pos q : 0 < te_B q.
Proof.
  unfold te_B. apply Z.mul_pos_pos; apply Z.pow_pos_nonneg; lia.
Qed.

Lemma te_A_pos q : 0 < te_A q.
Proof.
  unfold te_A. apply Z.mul_pos_pos; apply Z.pow_pos_nonneg; lia.
Qed.

Lemma odd_rel_prime x n : Z.odd x = true -> 0 <= n -> rel_prime x (2 ^ n).
Proof.
  intros H Hn. apply rel_prime_Zpower_r; [exact Hn|]. apply rel_prime_sym.
  apply prime_rel_prime; [apply prime_2|]. intros [k E].
  rewrite E, Z.odd_mul in H. rewrite andb_false_r in H. discriminate.
Qed.

Lemma odd_pow5 n : 0 <= n -> Z.odd (5 ^ n) = true.
Proof.
  intros H. destruct (Z.eq_dec n 0) as [->|N]; [reflexivity|].
  rewrite <- Z.negb_even, Z.even_pow by lia. reflexivity.
Qed.

Lemma pow5_27 n : 0 <= n <= 27 -> 5 ^ n < 2 ^ 63.
Proof.
  intros H. apply Z.le_lt_trans with (5 ^ 27); [apply Z.pow_le_mono_r; lia|reflexivity].
Qed.

Section Core.
Set Default Proof Using "All".
Variables (mb q Th Tl w lo hi : Z).
Hypothesis Hmb : 0 < mb <= 52.
Hypothesis Hq : -342 <= q <= 308.
Hypothesis Hw : 2 ^ 63 <= w < 2 ^ 64.
Hypothesis HE : entry_ok q Th Tl.
Hypothesis Hlo : 0 <= lo < 2 ^ 64.
Hypothesis Hhi : 0 <= hi < 2 ^ 64.
Hypothesis HP : prod_rel mb Th Tl w lo hi.

Let T := Th * 2 ^ 64 + Tl.
Let A := te_A q.
Let B := te_B q.
Let ub := hi / 2 ^ 63.
Let shift := 61 - mb + ub.
Let s := shift + 128.
Let K := hi / 2 ^ shift.

Lemma core_hi : 2 ^ 62 <= hi.
Proof.
  destruct HP as [[_ E]|E].
  - pose proof (eo_Th _ _ _ HE). nia.
  - pose proof (eo_Th _ _ _ HE). pose proof (eo_Tl _ _ _ HE).
    assert (2 ^ 126 <= w * (Th * 2 ^ 64 + Tl) / 2 ^ 64).
    { apply Z.div_le_lower_bound; [lia|]. nia. }
    nia.
Qed.

Lemma core_ub : 0 <= ub <= 1.
Proof.
  unfold ub. split; [apply Z.div_pos; lia|].
  assert (hi / 2 ^ 63 < 2) by (apply Z.div_lt_upper_bound; lia). lia.
Qed.

Lemma core_shift_pos : 0 < 2 ^ shift.
Proof. apply Z.pow_pos_nonneg; unfold shift; pose proof core_ub; lia. Qed.

Lemma core_K : 2 ^ (mb + 1) <= K < 2 ^ (mb + 2).
Proof.
  unfold K, shift. pose proof core_hi. pose proof core_ub. pose proof core_shift_pos as P. unfold shift in P.
  assert (C : (ub = 0 /\ 2 ^ 62 <= hi < 2 ^ 63) \/ (ub = 1 /\ 2 ^ 63 <= hi < 2 ^ 64)).
  { pose proof (Z.div_mod hi (2 ^ 63) ltac:(lia)). fold ub in H1.
    pose proof (Z.mod_pos_bound hi (2 ^ 63) ltac:(lia)). lia. }
  destruct C as [[E L]|[E L]]; rewrite E in *.
  - assert (2 ^ 62 = 2 ^ (61 - mb + 0) * 2 ^ (mb + 1)) by (rewrite <- Z.pow_add_r by lia; f_equal; lia).
    assert (2 ^ 63 = 2 ^ (61 - mb + 0) * 2 ^ (mb + 2)) by (rewrite <- Z.pow_add_r by lia; f_equal; lia).
    split; [apply Z.div_le_lower_bound; lia|apply Z.div_lt_upper_bound; lia].
  - assert (2 ^ 63 = 2 ^ (61 - mb + 1) * 2 ^ (mb + 1)) by (rewrite <- Z.pow_add_r by lia; f_equal; lia).
    assert (2 ^ 64 = 2 ^ (61 - mb + 1) * 2 ^ (mb + 2)) by (rewrite <- Z.pow_add_r by lia; f_equal; lia).
    split; [apply Z.div_le_lower_bound; lia|apply Z.div_lt_upper_bound; lia].
Qed.

Lemma core_hiK : K * 2 ^ shift <= hi < (K + 1) * 2 ^ shift.
Proof.
  pose proof core_shift_pos as P.
  pose proof (Z.div_mod hi (2 ^ shift) ltac:(lia)) as D. fold K in D.
  pose proof (Z.mod_pos_bound hi (2 ^ shift) P). lia.
Qed.

Lemma core_s : 2 ^ s = 2 ^ shift * 2 ^ 128.
Proof. unfold s. pose proof core_ub. apply Z.pow_add_r; unfold shift; lia. Qed.

(** The entry brackets the exact power. *)
Lemma core_Th : Th * 2 ^ 64 * B <= A < (Th + 1) * 2 ^ 64 * B.
Proof.
  pose proof (te_B_pos q) as PB. fold B in PB. pose proof (eo_Tl _ _ _ HE) as L.
  assert (C : 0 <= q <= 55 \/ -27 <= q < 0 \/ (q < -27 \/ 55 < q)) by lia.
  destruct C as [C|[C|C]].
  - pose proof (eo_exact _ _ _ HE C) as X. fold A B in X. nia.
  - destruct (eo_up _ _ _ HE C) as (X & Y & _). fold A B in X. nia.
  - destruct (eo_trunc _ _ _ HE C) as (X & _). fold A B in X. nia.
Qed.

Lemma core_caseA :
  hi mod 2 ^ (61 - mb) <> 2 ^ (61 - mb) - 1 -> hi * 2 ^ 64 + lo = w * Th ->
  K * 2 ^ s * B <= w * A < (K + 1) * 2 ^ s * B.
Proof.
  intros HM HX. rewrite core_s. pose proof core_hiK as HK. pose proof core_shift_pos as PS.
  pose proof (te_B_pos q) as PB. fold B in PB. pose proof core_Th as [L U].
  assert (G : hi + 2 <= (K + 1) * 2 ^ shift).
  { destruct (Z.eq_dec (hi + 1) ((K + 1) * 2 ^ shift)) as [E|N]; [exfalso|lia].
    apply HM. pose proof core_ub.
    assert (E2 : 2 ^ shift = 2 ^ (61 - mb) * 2 ^ ub).
    { unfold shift. rewrite Z.pow_add_r by lia. lia. }
    rewrite E2 in E. pose proof (Z.pow_pos_nonneg 2 (61 - mb) ltac:(lia) ltac:(lia)).
    symmetry. apply Z.mod_unique with ((K + 1) * 2 ^ ub - 1); nia. }
  split.
  - apply Z.le_trans with (hi * 2 ^ 128 * B); [nia|].
    apply Z.le_trans with (w * (Th * 2 ^ 64 * B)); [|nia].
    replace (w * (Th * 2 ^ 64 * B)) with ((w * Th) * 2 ^ 64 * B) by ring. rewrite <- HX. nia.
  - apply Z.lt_le_trans with (w * ((Th + 1) * 2 ^ 64 * B)); [nia|].
    replace (w * ((Th + 1) * 2 ^ 64 * B)) with ((w * Th + w) * 2 ^ 64 * B) by ring. rewrite <- HX.
    apply Z.le_trans with ((hi + 2) * 2 ^ 128 * B); [nia|]. nia.
Qed.

(** Divisibility argument shared by the rounded-up entries. *)
Lemma core_up_div d : -27 <= q < 0 -> 0 <= d ->
  d * 5 ^ (- q) < 2 ^ 130 ->
  K * 2 ^ s * B - w * A < d * B -> w * A - K * 2 ^ s * B < d * B ->
  w * A = K * 2 ^ s * B.
Proof.
  intros Hr Hd Hb H1 H2.
  destruct (eo_up _ _ _ HE Hr) as (_ & _ & HE130).
  pose proof core_ub as HU.
  assert (EB : B = 5 ^ (- q)).
  { unfold B, te_B. rewrite Z.max_l by lia. rewrite Z.max_r by lia. lia. }
  assert (EA : A = 2 ^ (te_E q)).
  { unfold A, te_A. rewrite Z.max_r by lia. rewrite Z.max_l by lia. lia. }
  assert (S1 : 2 ^ s = 2 ^ (s - 130) * 2 ^ 130).
  { rewrite <- Z.pow_add_r by (unfold s, shift; lia). f_equal; lia. }
  assert (S2 : 2 ^ te_E q = 2 ^ (te_E q - 130) * 2 ^ 130).
  { rewrite <- Z.pow_add_r by lia. f_equal; lia. }
  rewrite EA, EB in *. rewrite S1, S2 in *.
  set (X := w * 2 ^ (te_E q - 130)) in *.
  set (Y := K * 2 ^ (s - 130) * 5 ^ (- q)) in *.
  replace (w * (2 ^ (te_E q - 130) * 2 ^ 130)) with (X * 2 ^ 130) in * by (unfold X; ring).
  replace (K * (2 ^ (s - 130) * 2 ^ 130) * 5 ^ (- q)) with (Y * 2 ^ 130) in * by (unfold Y; ring).
  clearbody X Y. assert (X = Y) by lia. lia.
Qed.


Lemma core_caseB_K : hi * 2 ^ 64 + lo = (w * T) / 2 ^ 64 ->
  K * 2 ^ s <= w * T < (K + 1) * 2 ^ s.
Proof.
  intros HX. rewrite core_s. pose proof core_hiK as HK. pose proof core_shift_pos as PS.
  pose proof (Z.div_mod (w * T) (2 ^ 64) ltac:(lia)) as D.
  pose proof (Z.mod_pos_bound (w * T) (2 ^ 64) ltac:(lia)) as M.
  rewrite <- HX in D.
  assert (hi * 2 ^ 128 <= w * T < (hi + 1) * 2 ^ 128) by nia. nia.
Qed.

Lemma core_caseB :
  hi * 2 ^ 64 + lo = (w * T) / 2 ^ 64 ->
  K * 2 ^ s * B <= w * A < (K + 1) * 2 ^ s * B.
Proof.
  intros HX. pose proof (core_caseB_K HX) as HK.
  pose proof (te_B_pos q) as PB. fold B in PB. pose proof core_ub as HU.
  assert (C : 0 <= q <= 55 \/ -27 <= q < 0 \/ (q < -27 \/ 55 < q)) by lia.
  destruct C as [C|[C|C]].
  - pose proof (eo_exact _ _ _ HE C) as X. fold A B T in X. rewrite <- X. nia.
  - destruct (eo_up _ _ _ HE C) as ([X1 X2] & Y & _). fold A B T in X1, X2.
    assert (U : w * A < w * T * B) by nia.
    assert (L : w * T * B - w * B < w * A) by nia.
    split; [|nia].
    destruct (Z_le_gt_dec (K * 2 ^ s * B) (w * A)) as [G|G]; [exact G|exfalso].
    assert (w * A = K * 2 ^ s * B); [|lia].
    apply (core_up_div w); [exact C|lia| |nia|nia].
    pose proof (pow5_27 (- q) ltac:(lia)).
    pose proof (Z.pow_pos_nonneg 5 (- q) ltac:(lia) ltac:(lia)). nia.
  - destruct (eo_trunc _ _ _ HE C) as ([X1 X2] & Y). fold A B T in X1, X2, Y.
    specialize (Y w ltac:(lia)).
    split; [nia|].
    assert (G : w * T + 2 ^ 64 <= (K + 1) * 2 ^ s).
    { assert (ES : 2 ^ s = 2 ^ 137 * 2 ^ (s - 137)).
      { rewrite <- Z.pow_add_r by (unfold s, shift; lia). f_equal; lia. }
      rewrite ES in *.
      pose proof (Z.div_mod (w * T) (2 ^ 137) ltac:(lia)) as D.
      set (j := w * T / 2 ^ 137) in *. set (r := (w * T) mod 2 ^ 137) in *.
      set (jj := (K + 1) * 2 ^ (s - 137)).
      replace ((K + 1) * (2 ^ 137 * 2 ^ (s - 137))) with (jj * 2 ^ 137) in * by (unfold jj; ring).
      assert (0 <= r < 2 ^ 137) by (apply Z.mod_pos_bound; lia).
      clearbody j r jj. assert (j < jj) by lia. lia. }
    apply Z.lt_le_trans with ((w * T + w) * B); [nia|]. nia.
Qed.

(** The top bits are those of the exact product. *)
Lemma core_bounds : K * 2 ^ s * B <= w * A < (K + 1) * 2 ^ s * B.
Proof. destruct HP as [[H1 H2]|H]; [apply core_caseA|apply core_caseB]; assumption. Qed.

(** ** Exact ties *)



Lemma tie_size : Z.odd K = true -> w * A = K * 2 ^ s * B ->
  (0 <= q -> 5 ^ q < 2 ^ (mb + 2)) /\ (q < 0 -> 5 ^ (- q) < 2 ^ (63 - mb)).
Proof.
  intros HO HT. pose proof core_K as HK. pose proof core_ub as HU.
  assert (HS : 0 <= s) by (unfold s, shift; lia).
  split; intros Hs.
  - assert (D : (5 ^ q | K * (2 ^ s * 2 ^ Z.max (- te_E q) 0))).
    { exists (w * 2 ^ Z.max (te_E q) 0).
      unfold A, B, te_A, te_B in HT. rewrite Z.max_l in HT by lia.
      rewrite (Z.max_r (- q) 0) in HT by lia. change (5 ^ 0) with 1 in HT.
      rewrite Z.mul_1_l in HT. rewrite <- !Z.mul_assoc in HT. rewrite (Z.mul_comm (5 ^ q)) in HT.
      rewrite <- HT. ring. }
    assert (R : rel_prime (5 ^ q) (2 ^ s * 2 ^ Z.max (- te_E q) 0)).
    { rewrite <- Z.pow_add_r by lia. apply odd_rel_prime; [apply odd_pow5; lia|lia]. }
    rewrite Z.mul_comm in D. apply Gauss in D; [|exact R].
    apply Z.divide_pos_le in D; [lia|]. pose proof (Z.pow_pos_nonneg 2 (mb + 1)). lia.
  - pose proof (te_E_bounds q Hq) as [HEb _]. specialize (HEb Hs).
    assert (D : (K * 5 ^ (- q) | w * 2 ^ te_E q)).
    { exists (2 ^ s). unfold A, B, te_A, te_B in HT. rewrite Z.max_r in HT by lia.
      rewrite (Z.max_l (te_E q)) in HT by lia. rewrite (Z.max_l (- q)) in HT by lia.
      rewrite (Z.max_r (- te_E q)) in HT by lia. change (5 ^ 0) with 1 in HT.
      change (2 ^ 0) with 1 in HT.
      rewrite Z.mul_1_l, Z.mul_1_r in HT. rewrite HT. ring. }
    assert (R : rel_prime (K * 5 ^ (- q)) (2 ^ te_E q)).
    { apply odd_rel_prime; [|lia]. rewrite Z.odd_mul, HO, odd_pow5 by lia. reflexivity. }
    rewrite (Z.mul_comm w) in D. apply Gauss in D; [|exact R].
    apply Z.divide_pos_le in D; [|lia].
    assert (E : 2 ^ 64 = 2 ^ (mb + 1) * 2 ^ (63 - mb)) by (rewrite <- Z.pow_add_r by lia; f_equal; lia).
    pose proof (Z.pow_pos_nonneg 2 (mb + 1) ltac:(lia) ltac:(lia)).
    pose proof (Z.pow_pos_nonneg 5 (- q) ltac:(lia) ltac:(lia)). nia.
Qed.

(** Completeness of the tie test. *)
Lemma tie_complete : -27 <= q <= 27 -> w * A = K * 2 ^ s * B ->
  lo <= 1 /\ hi = K * 2 ^ shift.
Proof.
  intros Hr HT. pose proof core_hiK as HK. pose proof core_shift_pos as PS.
  pose proof (te_B_pos q) as PB. fold B in PB.
  destruct (Z_le_gt_dec 0 q) as [Q|Q].
  - pose proof (eo_Tl0 _ _ _ HE ltac:(lia)) as TL. pose proof (eo_exact _ _ _ HE ltac:(lia)) as X.
    fold A B in X. rewrite TL, Z.add_0_r in X.
    assert (F : hi * 2 ^ 64 + lo = w * Th).
    { destruct HP as [[_ H]|H]; [exact H|]. rewrite TL in H.
      rewrite Z.add_0_r, Z.mul_assoc, Z.div_mul in H by lia. exact H. }
    rewrite core_s in HT. rewrite <- X in HT.
    assert (G : w * Th * 2 ^ 64 = K * (2 ^ shift * 2 ^ 128)).
    { apply Z.mul_reg_r with B; [lia|]. lia. }
    rewrite <- F in G. lia.
  - destruct (eo_up _ _ _ HE ltac:(lia)) as ([X1 X2] & Y & _). fold A B T in X1, X2.
    rewrite core_s in HT.
    destruct HP as [[_ H]|H].
    + exfalso.
      assert (w * Th * 2 ^ 64 < K * (2 ^ shift * 2 ^ 128)).
      { apply Z.mul_lt_mono_pos_r with B; [lia|].
        replace (K * (2 ^ shift * 2 ^ 128) * B) with (w * A) by lia.
        replace (w * Th * 2 ^ 64 * B) with (w * (Th * 2 ^ 64 * B)) by ring.
        apply Z.mul_lt_mono_pos_l; [lia|]. unfold T in X1. nia. }
      rewrite <- H in *. lia.
    + assert (L : K * (2 ^ shift * 2 ^ 128) <= w * T).
      { apply Z.lt_le_incl. apply Z.mul_lt_mono_pos_r with B; [lia|]. nia. }
      assert (U : w * T < K * (2 ^ shift * 2 ^ 128) + 2 ^ 64).
      { apply Z.mul_lt_mono_pos_r with B; [lia|]. nia. }
      assert (E : w * T / 2 ^ 64 = K * 2 ^ shift * 2 ^ 64).
      { symmetry. apply Z.div_unique with (w * T - K * (2 ^ shift * 2 ^ 128)); lia. }
      fold T in H. rewrite E in H. lia.
Qed.

(** Soundness of the tie test. *)
Lemma tie_sound : -24 <= q <= 23 -> lo <= 1 -> hi = K * 2 ^ shift ->
  w * A = K * 2 ^ s * B.
Proof.
  intros Hr HL HH. pose proof core_shift_pos as PS. pose proof core_ub as HU.
  pose proof (te_B_pos q) as PB. fold B in PB.
  destruct (Z_le_gt_dec 0 q) as [Q|Q].
  - pose proof (eo_Tl0 _ _ _ HE ltac:(lia)) as TL. pose proof (eo_exact _ _ _ HE ltac:(lia)) as X.
    fold A B in X. rewrite TL, Z.add_0_r in X.
    assert (F : hi * 2 ^ 64 + lo = w * Th).
    { destruct HP as [[_ H]|H]; [exact H|]. rewrite TL in H.
      rewrite Z.add_0_r, Z.mul_assoc, Z.div_mul in H by lia. exact H. }
    assert (lo = 0).
    { pose proof (eo_Theven _ _ _ HE ltac:(lia)) as EV.
      apply Z.even_spec in EV. destruct EV as [h EV].
      assert (lo <> 1); [|lia]. intros L1. rewrite EV, L1 in F. lia. }
    rewrite core_s, <- X. rewrite HH in F. nia.
  - destruct (eo_up _ _ _ HE ltac:(lia)) as ([X1 X2] & Y & _). fold A B T in X1, X2.
    destruct HP as [[_ H]|H].
    + exfalso.
      destruct (eo_inv _ _ _ HE ltac:(lia)) as [M I].
      assert (ES : 2 ^ shift * 2 ^ 64 = 2 ^ 73 * 2 ^ (shift - 9)).
      { rewrite <- !Z.pow_add_r by (unfold shift; lia). f_equal; lia. }
      assert (F : w * Th = (K * 2 ^ (shift - 9)) * 2 ^ 73 + lo).
      { rewrite <- H, HH. rewrite <- Z.mul_assoc, ES. ring. }
      set (k := K * 2 ^ (shift - 9)) in *. clearbody k.
      assert (C : lo = 0 \/ lo = 1) by lia. destruct C as [C|C]; rewrite C in F.
      * (* 2^73 | w * Th with 0 < w < 2^64: then 2^10 | Th *)
        apply M. clear - F Hw.
        assert (D : (2 ^ 73 | w * Th)) by (exists k; lia).
        assert (G : forall n v x, 0 < x < 2 ^ (Z.of_nat n) -> (2 ^ (Z.of_nat n + 9) | x * v) -> (2 ^ 10 | v)).
        { induction n as [|n IH]; intros v x Hx Dv.
          - cbn in Hx. lia.
          - rewrite Nat2Z.inj_succ, <- Z.add_1_r in *.
            destruct (Z.Even_or_Odd x) as [[y Ey]|[y Ey]].
            + apply (IH v y).
              * rewrite Z.pow_add_r in Hx by lia. lia.
              * destruct Dv as [z Dv]. exists z.
                replace (Z.of_nat n + 1 + 9) with ((Z.of_nat n + 9) + 1) in Dv by lia.
                rewrite Z.pow_add_r in Dv by lia. rewrite Ey in Dv.
                apply Z.mul_reg_l with 2; [lia|]. lia.
            + assert (OD : Z.odd x = true) by (apply Z.odd_spec; exists y; exact Ey).
              assert (D2 : (2 ^ 10 | x * v)).
              { eapply Z.divide_trans; [|exact Dv].
                exists (2 ^ Z.of_nat n). rewrite <- Z.pow_add_r by lia. f_equal; lia. }
              apply Gauss with x; [exact D2|]. apply rel_prime_sym. apply odd_rel_prime; [exact OD|lia]. }
        destruct (G 64%nat Th w) as [z Ez]; [cbn; lia|exact D|].
        rewrite Ez. apply Z.mod_mul. discriminate.
      * destruct I as [EV|(i & Hi & Ei)].
        { apply Z.even_spec in EV. destruct EV as [h EV]. rewrite EV in F. lia. }
        (* w = i mod 2^73 *)
        assert (W : w = i).
        { pose proof (Z.div_mod (Th * i) (2 ^ 73) ltac:(lia)) as DM. rewrite Ei in DM.
          set (j := Th * i / 2 ^ 73) in *. clearbody j.
          assert (E : w - i = (k * i - w * j) * 2 ^ 73).
          { assert (w * (Th * i) = w * (2 ^ 73 * j + 1)) by (rewrite DM; reflexivity).
            assert (w * Th * i = (k * 2 ^ 73 + 1) * i) by (rewrite F; reflexivity). lia. }
          set (z := k * i - w * j) in *. clearbody z. lia. }
        lia.
    + fold T in H.
      pose proof (Z.div_mod (w * T) (2 ^ 64) ltac:(lia)) as D.
      pose proof (Z.mod_pos_bound (w * T) (2 ^ 64) ltac:(lia)) as Mo.
      rewrite <- H in D. rewrite HH in D.
      assert (L : K * 2 ^ s <= w * T < K * 2 ^ s + 2 * 2 ^ 64) by (rewrite core_s; lia).
      apply (core_up_div (2 ^ 65)); try lia.
      * assert (5 ^ (- q) <= 5 ^ 24) by (apply Z.pow_le_mono_r; lia).
        assert (2 ^ 65 * 5 ^ 24 < 2 ^ 130) by reflexivity. nia.
      * nia.
      * nia.
Qed.

End Core.
