(** Elementary lemmas about machine words. *)
From Verif Require Import Machine Config Chars.
From Coq Require Import ZifyBool ZifyNat.

Lemma bind_Ok {A B} (a : A) (k : A -> res B) : bind (Ok a) k = k a.
Proof. reflexivity. Qed.

Lemma u64_small x : 0 <= x < 2 ^ 64 -> u64 x = x.
Proof. intros H; unfold u64; apply Z.mod_small; exact H. Qed.
Lemma u32_small x : 0 <= x < 2 ^ 32 -> u32 x = x.
Proof. intros H; unfold u32; apply Z.mod_small; exact H. Qed.
Lemma u16_small x : 0 <= x < 2 ^ 16 -> u16 x = x.
Proof. intros H; unfold u16; apply Z.mod_small; exact H. Qed.
Lemma u8_small x : 0 <= x < 2 ^ 8 -> u8 x = x.
Proof. intros H; unfold u8; apply Z.mod_small; exact H. Qed.
Lemma u64_range x : 0 <= u64 x < 2 ^ 64.
Proof. apply Z.mod_pos_bound; lia. Qed.
Lemma u32_range x : 0 <= u32 x < 2 ^ 32.
Proof. apply Z.mod_pos_bound; lia. Qed.
Lemma u16_range x : 0 <= u16 x < 2 ^ 16.
Proof. apply Z.mod_pos_bound; lia. Qed.
Lemma u8_range x : 0 <= u8 x < 2 ^ 8.
Proof. apply Z.mod_pos_bound; lia. Qed.

Lemma to_signed_small n x :
  0 < n -> - 2 ^ (n - 1) <= x < 2 ^ (n - 1) -> to_signed n x = x.
Proof.
  intros Hn H; unfold to_signed.
  assert (E : 2 ^ n = 2 * 2 ^ (n - 1)).
  { rewrite <- Z.pow_succ_r by lia; f_equal; lia. }
  assert (P : 0 < 2 ^ (n - 1)) by (apply Z.pow_pos_nonneg; lia).
  destruct (Z_lt_ge_dec x 0) as [Hx|Hx].
  - assert (M : x mod 2 ^ n = x + 2 ^ n).
    { symmetry; apply Z.mod_unique with (-1); lia. }
    rewrite M. destruct (Z.ltb_spec (x + 2 ^ n) (2 ^ (n - 1))); lia.
  - rewrite Z.mod_small by lia.
    destruct (Z.ltb_spec x (2 ^ (n - 1))); lia.
Qed.

Lemma chk_Ok n x : - 2 ^ (n - 1) <= x < 2 ^ (n - 1) -> chk n x = Ok x.
Proof.
  intros H; unfold chk.
  destruct (Z.leb_spec (- 2 ^ (n - 1)) x); [|lia].
  destruct (Z.ltb_spec x (2 ^ (n - 1))); [|lia]. reflexivity.
Qed.
Lemma chk32_Ok x : -2147483648 <= x < 2147483648 -> chk 32 x = Ok x.
Proof. intros H; apply chk_Ok; change (2 ^ (32 - 1)) with 2147483648; lia. Qed.
Lemma chk64_Ok x : -9223372036854775808 <= x < 9223372036854775808 -> chk 64 x = Ok x.
Proof. intros H; apply chk_Ok; change (2 ^ (64 - 1)) with 9223372036854775808; lia. Qed.

Lemma shl_Ok n x k : 0 <= k < n -> shl n x k = Ok ((x * 2 ^ k) mod 2 ^ n).
Proof.
  intros H; unfold shl.
  destruct (Z.leb_spec 0 k); [|lia]. destruct (Z.ltb_spec k n); [|lia].
  cbn [andb]. rewrite Z.shiftl_mul_pow2 by lia. reflexivity.
Qed.
Lemma shl_small n x k : 0 <= k < n -> 0 <= x * 2 ^ k < 2 ^ n -> shl n x k = Ok (x * 2 ^ k).
Proof. intros H H'; rewrite shl_Ok by lia; rewrite Z.mod_small by lia; reflexivity. Qed.
Lemma shr_Ok n x k : 0 <= k < n -> shr n x k = Ok (x / 2 ^ k).
Proof.
  intros H; unfold shr.
  destruct (Z.leb_spec 0 k); [|lia]. destruct (Z.ltb_spec k n); [|lia].
  cbn [andb]. rewrite Z.shiftr_div_pow2 by lia. reflexivity.
Qed.

Lemma nth_res_Ok {A} (l : list A) i a :
  0 <= i -> nth_error l (Z.to_nat i) = Some a -> nth_res l i = Ok a.
Proof.
  intros Hi H; unfold nth_res. destruct (Z.ltb_spec i 0); [lia|]. rewrite H. reflexivity.
Qed.

(** land with a mask of low bits *)
Lemma land_ones_mod x k : 0 <= k -> Z.land x (2 ^ k - 1) = x mod 2 ^ k.
Proof. intros H; rewrite <- Z.land_ones by lia; rewrite Z.ones_equiv; f_equal; lia. Qed.

Lemma land1_mod x : Z.land x 1 = x mod 2.
Proof. change 1 with (2 ^ 1 - 1); rewrite land_ones_mod by lia; reflexivity. Qed.
Lemma land3_mod x : Z.land x 3 = x mod 4.
Proof. change 3 with (2 ^ 2 - 1); rewrite land_ones_mod by lia; reflexivity. Qed.

(** disjoint or is addition *)
Lemma lor_add_disjoint x y k :
  0 <= k -> 0 <= x < 2 ^ k -> Z.lor x (y * 2 ^ k) = x + y * 2 ^ k.
Proof.
  intros Hk Hx.
  assert (D : Z.land x (y * 2 ^ k) = 0).
  { apply Z.bits_inj'; intros n Hn. rewrite Z.land_spec, Z.bits_0.
    destruct (Z_lt_ge_dec n k) as [L|G].
    - rewrite Z.mul_pow2_bits_low by lia. apply andb_false_r.
    - rewrite <- (Z.mod_small x (2 ^ k)) by lia.
      rewrite Z.mod_pow2_bits_high by lia. reflexivity. }
  rewrite Z.add_nocarry_lxor by exact D.
  rewrite Z.lxor_lor by exact D. reflexivity.
Qed.

(** land splits along a power of two *)
Lemma land_split x y m n k :
  0 <= k -> 0 <= x < 2 ^ k -> 0 <= m < 2 ^ k ->
  Z.land (x + y * 2 ^ k) (m + n * 2 ^ k) = Z.land x m + Z.land y n * 2 ^ k.
Proof.
  intros Hk Hx Hm.
  assert (B : 0 <= Z.land x m < 2 ^ k).
  { rewrite <- (Z.mod_small x (2 ^ k)) by lia. rewrite <- Z.land_ones by lia.
    rewrite <- Z.land_assoc, (Z.land_comm (Z.ones k)), Z.land_assoc, Z.land_ones by lia.
    apply Z.mod_pos_bound; lia. }
  rewrite <- !lor_add_disjoint by assumption.
  rewrite <- !Z.shiftl_mul_pow2 by lia.
  apply Z.bits_inj'; intros i Hi.
  rewrite !Z.land_spec, !Z.lor_spec, !Z.land_spec.
  destruct (Z_lt_ge_dec i k) as [L|G].
  - rewrite !Z.shiftl_spec_low by lia. rewrite !orb_false_r. reflexivity.
  - assert (Hx0 : Z.testbit x i = false).
    { rewrite <- (Z.mod_small x (2 ^ k)) by lia. apply Z.mod_pow2_bits_high; lia. }
    assert (Hm0 : Z.testbit m i = false).
    { rewrite <- (Z.mod_small m (2 ^ k)) by lia. apply Z.mod_pow2_bits_high; lia. }
    rewrite Hx0, Hm0, !Z.shiftl_spec_high, Z.land_spec by lia. reflexivity.
Qed.

Lemma lor_split x y m n k :
  0 <= k -> 0 <= x < 2 ^ k -> 0 <= m < 2 ^ k ->
  Z.lor (x + y * 2 ^ k) (m + n * 2 ^ k) = Z.lor x m + Z.lor y n * 2 ^ k.
Proof.
  intros Hk Hx Hm.
  assert (T : forall z i, 0 <= z < 2 ^ k -> k <= i -> Z.testbit z i = false).
  { intros z i Hz Hi. rewrite <- (Z.mod_small z (2 ^ k)) by lia. apply Z.mod_pow2_bits_high; lia. }
  assert (B : 0 <= Z.lor x m < 2 ^ k).
  { assert (E : Z.lor x m = Z.lor x m mod 2 ^ k).
    { apply Z.bits_inj'; intros i Hi.
      destruct (Z_lt_ge_dec i k) as [L|G].
      - rewrite Z.mod_pow2_bits_low by lia. reflexivity.
      - rewrite Z.mod_pow2_bits_high, Z.lor_spec, !T by lia. reflexivity. }
    rewrite E. apply Z.mod_pos_bound; lia. }
  rewrite <- !lor_add_disjoint by assumption.
  rewrite <- !Z.shiftl_mul_pow2 by lia.
  apply Z.bits_inj'; intros i Hi. rewrite !Z.lor_spec.
  destruct (Z_lt_ge_dec i k) as [L|G].
  - rewrite !Z.shiftl_spec_low by lia. rewrite !orb_false_r. reflexivity.
  - rewrite !Z.shiftl_spec_high by lia. rewrite !(T _ i) by lia. rewrite Z.lor_spec. reflexivity.
Qed.

(** Clearing one bit: x & ~(1 << k) in 64 bits *)
Lemma land_clear_bit k m h :
  0 <= k < 64 -> 0 <= m < 2 ^ k -> 0 <= h < 2 ->
  Z.land (m + h * 2 ^ k) (2 ^ 64 - 1 - 2 ^ k) = m.
Proof.
  intros Hk Hm Hh.
  assert (P : 0 < 2 ^ k) by (apply Z.pow_pos_nonneg; lia).
  assert (E : 2 ^ 64 = 2 ^ k * (2 * 2 ^ (63 - k))).
  { rewrite <- Z.pow_succ_r by lia. rewrite <- Z.pow_add_r by lia. f_equal; lia. }
  replace (2 ^ 64 - 1 - 2 ^ k) with ((2 ^ k - 1) + (2 ^ (63 - k) * 2 - 2) * 2 ^ k) by lia.
  rewrite land_split by lia.
  rewrite land_ones_mod by lia. rewrite Z.mod_small by lia.
  assert (Z0 : Z.land h (2 ^ (63 - k) * 2 - 2) = 0).
  { replace (2 ^ (63 - k) * 2 - 2) with (0 + (2 ^ (63 - k) - 1) * 2 ^ 1) by lia.
    replace h with (h + 0 * 2 ^ 1) by lia.
    rewrite land_split by lia. rewrite Z.land_0_r, Z.land_0_l. reflexivity. }
  rewrite Z0. lia.
Qed.

(** ** leading_zeroes *)
Lemma log2_range x k : 0 <= k -> 2 ^ k <= x < 2 ^ (k + 1) -> Z.log2 x = k.
Proof. intros Hk H; apply Z.log2_unique; [lia|]. rewrite <- Z.add_1_r. exact H. Qed.

Lemma land_high_zero x k n :
  0 <= k -> k <= n -> 0 <= x < 2 ^ n ->
  (Z.land x (2 ^ n - 2 ^ k) =? 0) = (x <? 2 ^ k).
Proof.
  intros Hk Hkn Hx.
  assert (P : 0 < 2 ^ k) by (apply Z.pow_pos_nonneg; lia).
  pose proof (Z.div_mod x (2 ^ k) ltac:(lia)) as DM.
  pose proof (Z.mod_pos_bound x (2 ^ k) P) as MB.
  assert (E : 2 ^ n = 2 ^ k * 2 ^ (n - k)) by (rewrite <- Z.pow_add_r by lia; f_equal; lia).
  replace (2 ^ n - 2 ^ k) with (0 + (2 ^ (n - k) - 1) * 2 ^ k) by lia.
  replace x with (x mod 2 ^ k + x / 2 ^ k * 2 ^ k) at 1 by lia.
  rewrite land_split by lia.
  rewrite Z.land_0_r, land_ones_mod by lia.
  rewrite Z.mod_small; cycle 1.
  { split; [apply Z.div_pos; lia|]. apply Z.div_lt_upper_bound; lia. }
  pose proof (Z.div_pos x (2 ^ k) ltac:(lia) ltac:(lia)) as DP.
  destruct (Z.ltb_spec x (2 ^ k)) as [L|G].
  - rewrite Z.div_small by lia. reflexivity.
  - assert (1 <= x / 2 ^ k) by (apply Z.div_le_lower_bound; lia).
    apply Z.eqb_neq. nia.
Qed.

Lemma lor_bit_add last k : last mod 2 ^ (k + 1) = 0 -> 0 <= k -> Z.lor last (2 ^ k) = last + 2 ^ k.
Proof.
  intros H Hk.
  assert (E : last = (last / 2 ^ (k + 1)) * 2 ^ (k + 1)).
  { pose proof (Z.div_mod last (2 ^ (k + 1)) ltac:(pose proof (Z.pow_pos_nonneg 2 (k + 1)); lia)). lia. }
  rewrite Z.lor_comm. rewrite E at 1. rewrite lor_add_disjoint; [lia|lia|].
  split; [apply Z.pow_nonneg; lia|]. apply Z.pow_lt_mono_r; lia.
Qed.

Lemma lz_step x j k n last :
  0 <= j -> k = 2 ^ j -> n = 2 * k -> 0 < x < 2 ^ n -> last mod 2 ^ (j + 1) = 0 ->
  exists x' last',
    (if Z.land x (2 ^ n - 2 ^ k) =? 0 then (x, last)
     else (Z.shiftr x k, Z.lor last k)) = (x', last') /\
    0 < x' < 2 ^ k /\ Z.log2 x' + last' = Z.log2 x + last /\ last' mod 2 ^ j = 0.
Proof.
  intros Hj Hkj Hn Hx Hl.
  assert (Hk : 0 < k) by (subst k; apply Z.pow_pos_nonneg; lia).
  rewrite land_high_zero by lia.
  assert (P : 0 < 2 ^ k) by (apply Z.pow_pos_nonneg; lia).
  assert (Hl2 : last mod 2 ^ j = 0).
  { rewrite Z.pow_add_r in Hl by lia. change (2 ^ 1) with 2 in Hl.
    rewrite <- Hkj in *. pose proof (Z.div_mod last (k * 2) ltac:(lia)) as D.
    rewrite Hl in D. rewrite D. rewrite Z.add_0_r, <- Z.mul_assoc, Z.mul_comm.
    apply Z.mod_mul. lia. }
  destruct (Z.ltb_spec x (2 ^ k)) as [L|G].
  - exists x, last. repeat split; try reflexivity; try lia.
  - exists (Z.shiftr x k), (Z.lor last k). split; [reflexivity|].
    rewrite Z.log2_shiftr by lia.
    rewrite Z.shiftr_div_pow2 by lia.
    assert (E : 2 ^ n = 2 ^ k * 2 ^ k) by (rewrite <- Z.pow_add_r by lia; f_equal; lia).
    assert (1 <= x / 2 ^ k) by (apply Z.div_le_lower_bound; lia).
    assert (x / 2 ^ k < 2 ^ k) by (apply Z.div_lt_upper_bound; lia).
    assert (k <= Z.log2 x) by (apply Z.log2_le_pow2; lia).
    assert (EL : Z.lor last k = last + k) by (rewrite Hkj; apply lor_bit_add; assumption).
    rewrite EL. split; [lia|]. split; [rewrite Z.max_r by lia; lia|].
    rewrite <- Hkj in *.
    rewrite <- (Z.mul_1_l k) at 1. rewrite Z.mod_add by lia. exact Hl2.
Qed.

Lemma leading_zeroes_generic_spec x :
  0 < x < 2 ^ 64 -> leading_zeroes_generic x = 63 - Z.log2 x.
Proof.
  intros Hx. unfold leading_zeroes_generic.
  change 0xffffffff00000000 with (2 ^ 64 - 2 ^ 32).
  change 0xffff0000 with (2 ^ 32 - 2 ^ 16).
  change 0xff00 with (2 ^ 16 - 2 ^ 8).
  change 0xf0 with (2 ^ 8 - 2 ^ 4).
  change 0xc with (2 ^ 4 - 2 ^ 2).
  destruct (lz_step x 5 32 64 0 ltac:(lia) eq_refl eq_refl Hx eq_refl) as (x1 & l1 & E1 & R1 & S1 & M1).
  rewrite E1; clear E1.
  destruct (lz_step x1 4 16 32 l1 ltac:(lia) eq_refl eq_refl R1 M1) as (x2 & l2 & E2 & R2 & S2 & M2).
  rewrite E2; clear E2.
  destruct (lz_step x2 3 8 16 l2 ltac:(lia) eq_refl eq_refl R2 M2) as (x3 & l3 & E3 & R3 & S3 & M3).
  rewrite E3; clear E3.
  destruct (lz_step x3 2 4 8 l3 ltac:(lia) eq_refl eq_refl R3 M3) as (x4 & l4 & E4 & R4 & S4 & M4).
  rewrite E4; clear E4.
  destruct (lz_step x4 1 2 4 l4 ltac:(lia) eq_refl eq_refl R4 M4) as (x5 & l5 & E5 & R5 & S5 & M5).
  rewrite E5; clear E5.
  assert (L : Z.lor l5 1 = l5 + 1) by (apply (lor_bit_add l5 0); [exact M5|lia]).
  assert (C : x5 = 1 \/ x5 = 2 \/ x5 = 3) by lia.
  destruct C as [C|[C|C]]; subst x5;
    [change (Z.log2 1) with 0 in S5|change (Z.log2 2) with 1 in S5|change (Z.log2 3) with 1 in S5];
    match goal with |- context [Z.land ?a 2 =? 0] =>
      let v := eval vm_compute in (Z.land a 2 =? 0) in change (Z.land a 2 =? 0) with v end;
    cbv iota; lia.
Qed.

Lemma leading_zeroes_spec c x :
  0 < x < 2 ^ 64 -> leading_zeroes c x = Ok (63 - Z.log2 x).
Proof.
  intros Hx; unfold leading_zeroes.
  destruct (Z.eqb_spec x 0); [lia|].
  destruct (in_constexpr c || negb (clz_builtin c)); [|reflexivity].
  rewrite leading_zeroes_generic_spec by exact Hx. reflexivity.
Qed.

(** Normalising shift. *)
Lemma lz_normalise x :
  0 < x < 2 ^ 64 ->
  let lz := 63 - Z.log2 x in
  0 <= lz <= 63 /\ 2 ^ 63 <= x * 2 ^ lz < 2 ^ 64.
Proof.
  intros Hx lz.
  pose proof (Z.log2_spec x ltac:(lia)) as [L U].
  assert (Z.log2 x < 64) by (apply Z.log2_lt_pow2; lia).
  pose proof (Z.log2_nonneg x).
  unfold lz; split; [lia|].
  assert (P : 0 < 2 ^ (63 - Z.log2 x)) by (apply Z.pow_pos_nonneg; lia).
  assert (E1 : 2 ^ 63 = 2 ^ Z.log2 x * 2 ^ (63 - Z.log2 x))
    by (rewrite <- Z.pow_add_r by lia; f_equal; lia).
  assert (E2 : 2 ^ 64 = 2 ^ Z.succ (Z.log2 x) * 2 ^ (63 - Z.log2 x))
    by (rewrite <- Z.pow_add_r by lia; f_equal; lia).
  split; [rewrite E1|rewrite E2]; nia.
Qed.

(** ** full_multiplication *)
Lemma umul128_generic_spec a b :
  0 <= a < 2 ^ 64 -> 0 <= b < 2 ^ 64 ->
  umul128_generic a b = ((a * b) mod 2 ^ 64, (a * b) / 2 ^ 64).
Proof.
  intros Ha Hb. unfold umul128_generic.
  rewrite !Z.shiftr_div_pow2, !Z.shiftl_mul_pow2 by lia.
  rewrite (u32_small (a / 2 ^ 32)) by (split; [apply Z.div_pos; lia|apply Z.div_lt_upper_bound; lia]).
  rewrite (u32_small (b / 2 ^ 32)) by (split; [apply Z.div_pos; lia|apply Z.div_lt_upper_bound; lia]).
  unfold u32.
  pose proof (Z.div_mod a (2 ^ 32) ltac:(lia)) as Ea.
  pose proof (Z.div_mod b (2 ^ 32) ltac:(lia)) as Eb.
  pose proof (Z.mod_pos_bound a (2 ^ 32) ltac:(lia)) as Ba.
  pose proof (Z.mod_pos_bound b (2 ^ 32) ltac:(lia)) as Bb.
  assert (Ca : 0 <= a / 2 ^ 32 < 2 ^ 32) by (split; [apply Z.div_pos; lia|apply Z.div_lt_upper_bound; lia]).
  assert (Cb : 0 <= b / 2 ^ 32 < 2 ^ 32) by (split; [apply Z.div_pos; lia|apply Z.div_lt_upper_bound; lia]).
  set (a1 := a / 2 ^ 32) in *. set (a0 := a mod 2 ^ 32) in *.
  set (b1 := b / 2 ^ 32) in *. set (b0 := b mod 2 ^ 32) in *.
  clearbody a1 a0 b1 b0.
  assert (B11 : 0 <= a1 * b1 <= (2 ^ 32 - 1) * (2 ^ 32 - 1)) by nia.
  assert (B10 : 0 <= a1 * b0 <= (2 ^ 32 - 1) * (2 ^ 32 - 1)) by nia.
  assert (B01 : 0 <= a0 * b1 <= (2 ^ 32 - 1) * (2 ^ 32 - 1)) by nia.
  assert (B00 : 0 <= a0 * b0 <= (2 ^ 32 - 1) * (2 ^ 32 - 1)) by nia.
  assert (PE : a * b = a1 * b1 * 2 ^ 64 + (a1 * b0 + a0 * b1) * 2 ^ 32 + a0 * b0) by nia.
  rewrite PE.
  set (m11 := a1 * b1) in *. set (m10 := a1 * b0) in *.
  set (m01 := a0 * b1) in *. set (m00 := a0 * b0) in *.
  clearbody m11 m10 m01 m00. clear PE Ea Eb Ba Bb Ca Cb a1 a0 b1 b0 Ha Hb a b.
  set (adbc := u64 (m10 + m01)).
  assert (HC : exists cy, (cy = 0 \/ cy = 1) /\ m10 + m01 = adbc + cy * 2 ^ 64 /\
               (if adbc <? m10 then 1 else 0) = cy /\ 0 <= adbc < 2 ^ 64).
  { unfold adbc, u64.
    pose proof (Z.div_mod (m10 + m01) (2 ^ 64) ltac:(lia)) as D.
    pose proof (Z.mod_pos_bound (m10 + m01) (2 ^ 64) ltac:(lia)) as M.
    exists ((m10 + m01) / 2 ^ 64).
    assert (0 <= (m10 + m01) / 2 ^ 64 < 2)
      by (split; [apply Z.div_pos; lia|apply Z.div_lt_upper_bound; lia]).
    destruct (Z.ltb_spec ((m10 + m01) mod 2 ^ 64) m10); lia. }
  destruct HC as (cy & Hcy & HE & Hcarry & Hadbc).
  rewrite Hcarry. clearbody adbc.
  pose proof (Z.div_mod adbc (2 ^ 32) ltac:(lia)) as Dad.
  pose proof (Z.mod_pos_bound adbc (2 ^ 32) ltac:(lia)) as Mad.
  assert (Cad : 0 <= adbc / 2 ^ 32 < 2 ^ 32)
    by (split; [apply Z.div_pos; lia|apply Z.div_lt_upper_bound; lia]).
  set (h := adbc / 2 ^ 32) in *. set (l := adbc mod 2 ^ 32) in *.
  assert (Hsh : u64 (adbc * 2 ^ 32) = l * 2 ^ 32).
  { unfold u64. symmetry. apply Z.mod_unique with h; lia. }
  rewrite Hsh.
  set (lo := u64 (m00 + l * 2 ^ 32)).
  assert (HL : exists c2, (c2 = 0 \/ c2 = 1) /\ m00 + l * 2 ^ 32 = lo + c2 * 2 ^ 64 /\
               (if lo <? m00 then 1 else 0) = c2 /\ 0 <= lo < 2 ^ 64).
  { unfold lo, u64.
    pose proof (Z.div_mod (m00 + l * 2 ^ 32) (2 ^ 64) ltac:(lia)) as D.
    pose proof (Z.mod_pos_bound (m00 + l * 2 ^ 32) (2 ^ 64) ltac:(lia)) as M.
    exists ((m00 + l * 2 ^ 32) / 2 ^ 64).
    assert (0 <= (m00 + l * 2 ^ 32) / 2 ^ 64 < 2)
      by (split; [apply Z.div_pos; lia|apply Z.div_lt_upper_bound; lia]).
    destruct (Z.ltb_spec ((m00 + l * 2 ^ 32) mod 2 ^ 64) m00); lia. }
  destruct HL as (c2 & Hc2 & HE2 & Hcarry2 & Hlo).
  rewrite Hcarry2. clearbody lo.
  assert (TOT : m11 * 2 ^ 64 + (m10 + m01) * 2 ^ 32 + m00
                = (m11 + h + cy * 2 ^ 32 + c2) * 2 ^ 64 + lo) by lia.
  assert (BND : 0 <= m11 + h + cy * 2 ^ 32 + c2 < 2 ^ 64).
  { split; [lia|].
    assert ((m11 + h + cy * 2 ^ 32 + c2) * 2 ^ 64 <= m11 * 2 ^ 64 + (m10 + m01) * 2 ^ 32 + m00) by lia.
    assert (m11 * 2 ^ 64 + (m10 + m01) * 2 ^ 32 + m00 < 2 ^ 64 * 2 ^ 64) by lia.
    lia. }
  rewrite TOT.
  rewrite (u64_small (m11 + h)) by lia.
  rewrite (u64_small (m11 + h + cy * 2 ^ 32)) by lia.
  rewrite (u64_small (m11 + h + cy * 2 ^ 32 + c2)) by lia.
  f_equal.
  - apply Z.mod_unique with (m11 + h + cy * 2 ^ 32 + c2); lia.
  - apply Z.div_unique with lo; lia.
Qed.

Lemma full_multiplication_spec c a b :
  0 <= a < 2 ^ 64 -> 0 <= b < 2 ^ 64 ->
  full_multiplication c a b = ((a * b) mod 2 ^ 64, (a * b) / 2 ^ 64).
Proof.
  intros Ha Hb; unfold full_multiplication.
  destruct (in_constexpr c || is_32bit c || negb (int128 c)).
  - apply umul128_generic_spec; assumption.
  - rewrite Z.shiftr_div_pow2 by lia. unfold u64. f_equal.
    apply Z.mod_small. split; [apply Z.div_pos; nia|].
    apply Z.div_lt_upper_bound; nia.
Qed.
