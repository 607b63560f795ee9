(** Exponents beyond the saturation point of the parser (parse_number.h /
    ascii_number.h: the written exponent stops growing at 2^28), and the range
    of values the floating-point fast path can produce. *)
From Verif Require Import Machine Config Format DecToBin FromChars WordLemmas EiselTable Rounding
  ComputeFloat SpecFloat FloatBridge FpArith Clinger SpecGrammar ParseSpec SlowPath ManyDigits.
From Coq Require Import QArith Lqa.
Open Scope Z_scope.

(** Rounded to nearest even, or an upward-resolved binary16 subnormal tie. *)
Definition near0 (t : ftype) (x : Q) (b : Z) : Prop := rounds t x b \/ sub_tie t x b.
(** The same with the choice made precise. *)
Definition near (t : ftype) (x : Q) (b : Z) : Prop := fc_rounds t x b.

Lemma near_near0 t x b : near t x b -> near0 t x b.
Proof. apply fc_rounds_near. Qed.
Lemma near_unique t x b1 b2 : near t x b1 -> near t x b2 -> b1 = b2.
Proof. apply fc_rounds_unique. Qed.
Lemma near_intro t x b : (forall b', ~ sub_tie t x b') -> rounds t x b -> near t x b.
Proof. intros N R. right. split; [intros [_ (b' & T)]; exact (N b' T)|exact R]. Qed.

Lemma near_comp t x y b : (x == y)%Q -> near t x b -> near t y b.
Proof. apply fc_rounds_comp. Qed.

Lemma near_range t x b : near t x b -> 0 <= b <= inf_code t.
Proof.
  intros H. apply near_near0 in H. destruct H as [H|H]; [eapply rounds_range; exact H|]. destruct H as (_ & H & _). pose proof (sub_lt_inf t). lia.
Qed.

Lemma near_spec t x b : near t x b -> nearest_but_subnormal_ties (format_of t) x b.
Proof. intros H. apply rounds_or_tie_spec, near_near0, H. Qed.

Lemma near_not_F16 t x b : t <> F16 -> near t x b -> rounds t x b.
Proof. intros N H. apply near_near0 in H. destruct H as [H|(H & _)]; [exact H|contradiction]. Qed.

(** Values from 10^(largest+1) on are infinite. *)
Lemma huge_near t x b : (dec 1 (largest_power_of_ten t + 1) <= x)%Q -> near0 t x b -> b = inf_code t.
Proof.
  intros L H. pose proof (mb_range t) as Hmb. pose proof (inf_code_pos t) as IP.
  destruct H as [H|(_ & HB & HT)].
  - pose proof (rounds_range t x b H) as RB.
    pose proof (rne_mono _ _ _ _ _ _ (proj1 Hmb) (units_le t _ _ L) (huge_rounds t 1 _ ltac:(lia) (Z.lt_succ_diag_r _)) H).
    lia.
  - exfalso. pose proof (inf_units t) as I. apply (units_le t) in L.
    pose proof (sub_lt_inf t) as SI.
    assert (U : fp_units (mant_bits t) (inf_code t) >= 2 ^ mant_bits t).
    { rewrite <- (fp_units_sub (mant_bits t) (2 ^ mant_bits t)) by lia. apply Z.le_ge, U_le; lia. }
    assert (Q1 : ([2 ^ mant_bits t]q <= [fp_units (mant_bits t) (inf_code t)]q)%Q) by (apply -> q_le; lia).
    assert (Q2 : ([2 * b - 1]q <= [2 * 2 ^ mant_bits t - 1]q)%Q) by (apply -> q_le; lia).
    unfold Z.sub in Q2 at 2. rewrite inject_Z_plus, inject_Z_mult in Q2. change [2]q with 2%Q in Q2. change [-(1)]q with (-(1))%Q in Q2.
    lra.
Qed.

Lemma huge_near_intro t x : (dec 1 (largest_power_of_ten t + 1) <= x)%Q -> rounds t x (inf_code t).
Proof.
  intros L. destruct (rne_exists (mant_bits t) (inf_code t) (units t x)) as [b Hb].
  - apply mb_range.
  - apply units_nonneg. eapply Qle_trans; [|exact L]. apply dec_nonneg. lia.
  - replace (inf_code t) with b; [exact Hb|]. eapply huge_near; [exact L|left; exact Hb].
Qed.

(** Values below 10^(smallest-1) are zero. *)
Lemma tiny_near t x b : (0 <= x)%Q -> (x <= dec 1 (smallest_power_of_ten t - 1))%Q -> near0 t x b -> b = 0.
Proof.
  intros X0 L H. pose proof (mb_range t) as Hmb.
  pose proof (tiny_rounds t 2 (smallest_power_of_ten t - 1) ltac:(lia) ltac:(lia)) as T2.
  assert (L2 : (x < dec 2 (smallest_power_of_ten t - 1))%Q).
  { eapply Qle_lt_trans; [exact L|]. apply decimal_lt. lia. }
  pose proof (units_lt t _ _ L2) as U2.
  destruct H as [H|(_ & HB & HT)].
  - pose proof (rounds_range t x b H) as RB.
    pose proof (rne_mono _ _ _ _ _ _ (proj1 Hmb) (Qlt_le_weak _ _ U2) H T2). lia.
  - exfalso. destruct T2 as (b' & (B0 & B1 & _) & B3). pose proof (inf_code_pos t).
    assert (b' = 0) by lia. subst b'. rewrite sub_mid in B1 by (pose proof (pow2_pos (mant_bits t)); lia).
    change [2 * 0 + 1]q with 1%Q in B1.
    assert (Q1 : ([1]q <= [2 * b - 1]q)%Q) by (apply -> q_le; lia). change [1]q with 1%Q in Q1.
    destruct B1 as [B1|[B1 _]]; lra.
Qed.

Lemma tiny_near_intro t x : (0 <= x)%Q -> (x <= dec 1 (smallest_power_of_ten t - 1))%Q -> rounds t x 0.
Proof.
  intros X0 L. destruct (rne_exists (mant_bits t) (inf_code t) (units t x)) as [b Hb].
  - apply mb_range.
  - apply units_nonneg, X0.
  - replace 0 with b; [exact Hb|]. eapply tiny_near; [exact X0|exact L|left; exact Hb].
Qed.

Lemma dec_ge_pow W q k : 1 <= W -> k <= q -> (dec 1 k <= dec W q)%Q.
Proof.
  intros HW Hk. apply Qle_trans with (dec 1 q); [|apply decimal_le; exact HW].
  unfold dec. apply Qmult_le_l; [reflexivity|]. apply qpow_le; lia.
Qed.

Lemma dec_le_pow W q n k : 0 <= W <= 10 ^ n -> 0 <= n -> n + q <= k -> (dec W q <= dec 1 k)%Q.
Proof.
  intros HW Hn Hk. apply Qle_trans with (dec (10 ^ n) q); [apply decimal_le; lia|].
  replace q with (n + q - n) at 1 by lia. rewrite <- (Z.mul_1_l (10 ^ n)), dec_shift by lia.
  unfold dec. apply Qmult_le_l; [reflexivity|]. apply qpow_le; lia.
Qed.

Lemma power_bounds t : -400 <= smallest_power_of_ten t /\ largest_power_of_ten t <= 400.
Proof. destruct t; cbn; lia. Qed.

(** The clamped exponent gives the same rounded result as the written one. *)
Lemma saturate t W L F e e' b : 0 <= W < 10 ^ L -> 0 <= F <= L -> clamp e e' ->
  Z.abs e < 2 ^ 28 \/ L < 268000000 ->
  near t (dec W (e' - F)) b -> near t (dec W (e - F)) b.
Proof.
  intros HW HF ([->|C] & _) HL H; [exact H|].
  pose proof (power_bounds t) as PB.
  assert (L1 : L < 268000000) by lia. clear HL.
  destruct (Z.eq_dec W 0) as [->|NZ].
  { eapply near_comp; [|exact H]. unfold dec. change [0]q with 0%Q. ring. }
  destruct C as [C|C].
  - assert (B1 : b = inf_code t).
    { eapply huge_near; [|apply near_near0; exact H]. apply dec_ge_pow; lia. }
    subst b. apply near_intro; [|apply huge_near_intro, dec_ge_pow; lia].
    intros b' T. assert (B2 : b' = inf_code t).
    { eapply huge_near; [|right; exact T]. apply dec_ge_pow; lia. }
    destruct T as (_ & T & _). pose proof (sub_lt_inf t). lia.
  - assert (B1 : b = 0).
    { apply (tiny_near t (dec W (e' - F))); [apply dec_nonneg; lia| |apply near_near0; exact H]. apply (dec_le_pow W (e' - F) L); lia. }
    subst b. apply near_intro.
    { intros b' T. assert (B2 : b' = 0).
      { apply (tiny_near t (dec W (e - F))); [apply dec_nonneg; lia| |right; exact T]. apply (dec_le_pow W (e - F) L); lia. }
      destruct T as (_ & T & _). lia. }
    apply tiny_near_intro; [apply dec_nonneg; lia|]. apply (dec_le_pow W (e - F) L); lia.
Qed.

(** ** Range of the fast path *)
Lemma clinger_range c t m e neg v : 0 <= m -> clinger_fast_path_impl c t m e neg = Ok (Some v) ->
  m <= 2 ^ (mant_bits t + 1) /\ min_exponent_fast_path c t <= e <= max_exponent_fast_path t.
Proof.
  intros Hm. unfold clinger_fast_path_impl.
  destruct (Z.leb_spec (min_exponent_fast_path c t) e) as [L1|L1]; [|discriminate].
  destruct (Z.leb_spec e (max_exponent_fast_path t)) as [L2|L2]; [|discriminate].
  cbn [andb]. destruct (negb (in_constexpr c) && rounds_to_nearest c).
  - rewrite max_mantissa_eq. destruct (Z.leb_spec m (2 ^ (mant_bits t + 1))) as [LM|LM]; [|discriminate]. lia.
  - destruct (Z.leb_spec 0 e) as [N|N]; [|discriminate].
    destruct (max_mantissa_pow_spec t e ltac:(lia)) as (mm & -> & HMM & HMT). cbn [bind].
    destruct (Z.leb_spec m mm) as [LM|LM]; [|discriminate]. intros _.
    pose proof (Z.pow_pos_nonneg 5 e ltac:(lia) ltac:(lia)) as P5. nia.
Qed.

(** The fast path never produces zero from a non-zero significand, and never
    infinity except in binary16. *)
Lemma clinger_nonzero c t m e b : 1 <= m -> min_exponent_fast_path c t <= e -> rounds t (dec m e) b -> 1 <= b.
Proof.
  intros Hm He H. pose proof (mb_range t) as Hmb. pose proof (inf_code_pos t).
  assert (R1 : rounds t (dec 1 (min_exponent_fast_path c t)) 1 \/
    exists b1, rounds t (dec 1 (min_exponent_fast_path c t)) b1 /\ 1 <= b1).
  { right. destruct (rne_exists (mant_bits t) (inf_code t) (units t (dec 1 (min_exponent_fast_path c t)))) as [b1 H1].
    - lia.
    - apply units_nonneg, dec_nonneg; lia.
    - exists b1. split; [exact H1|]. destruct (Z_le_gt_dec 1 b1) as [G|G]; [exact G|exfalso].
      pose proof (rounds_range t _ _ H1). assert (b1 = 0) by lia. subst b1.
      destruct H1 as (b' & (B0 & B1 & _) & B3). assert (b' = 0) by lia. subst b'.
      rewrite sub_mid in B1 by (pose proof (pow2_pos (mant_bits t)); lia).
      assert (B2 : (2 * units t (dec 1 (min_exponent_fast_path c t)) <= 1)%Q).
      { change [2 * 0 + 1]q with 1%Q in B1. destruct B1 as [B1|[B1 _]]; lra. }
      clear - B2. revert B2. apply Qlt_not_le.
      assert (M : - 22 <= min_exponent_fast_path c t /\ (t = F16 -> min_exponent_fast_path c t = 0) /\ (t = F32 -> -10 <= min_exponent_fast_path c t) /\ (t = BF16 -> min_exponent_fast_path c t = 0)).
      { unfold min_exponent_fast_path. destruct t; destruct (eval c); cbn; repeat split; try lia; discriminate. }
      assert (LL : (units t (dec 1 (match t with F64 => -22 | F32 => -10 | _ => 0 end)) <= units t (dec 1 (min_exponent_fast_path c t)))%Q).
      { apply units_le. apply dec_ge_pow; [lia|]. destruct M as (M1 & M2 & M3 & M4).
        destruct t; try rewrite M2 by reflexivity; try rewrite M4 by reflexivity; try lia. }
      assert (BB : (1 < 2 * units t (dec 1 (match t with F64 => -22 | F32 => -10 | _ => 0 end)))%Q).
      { Transparent qpow. destruct t; vm_compute; reflexivity. Opaque qpow. }
      lra. }
  destruct R1 as [R1|(b1 & R1 & R2)].
  - apply (rne_mono _ _ _ _ _ _ (proj1 Hmb) (units_le t _ _ (dec_ge_pow m e _ Hm He)) R1 H).
  - pose proof (rne_mono _ _ _ _ _ _ (proj1 Hmb) (units_le t _ _ (dec_ge_pow m e _ Hm He)) R1 H). lia.
Qed.

Lemma clinger_finite t m e b : t <> F16 -> 0 <= m <= 2 ^ (mant_bits t + 1) -> e <= max_exponent_fast_path t ->
  rounds t (dec m e) b -> b < inf_code t.
Proof.
  intros NT Hm He H. pose proof (mb_range t) as Hmb. pose proof (inf_code_pos t).
  destruct (Z_lt_le_dec b (inf_code t)) as [G|G]; [exact G|exfalso].
  destruct H as (b' & (B0 & _ & B2) & B3).
  assert (ML : mid2 (mant_bits t) (inf_code t - 1) <= mid2 (mant_bits t) (b' - 1)).
  { destruct (Z.eq_dec b' (inf_code t)) as [->|N]; [lia|]. apply Z.lt_le_incl, mid2_lt; lia. }
  apply q_le in ML.
  assert (B4 : ([mid2 (mant_bits t) (inf_code t - 1)]q <= 2 * units t (dec m e))%Q).
  { destruct (B2 ltac:(lia)) as [B|[B _]]; lra. }
  revert B4. apply Qlt_not_le.
  assert (LL : (dec m e <= dec (2 ^ (mant_bits t + 1)) (max_exponent_fast_path t))%Q).
  { apply Qle_trans with (dec (2 ^ (mant_bits t + 1)) e); [apply decimal_le; lia|].
    unfold dec. apply Qmult_le_l; [|apply qpow_le; lia]. apply (proj1 (q_pos _)). apply Z.pow_pos_nonneg; lia. }
  apply (units_le t) in LL.
  assert (BB : (2 * units t (dec (2 ^ (mant_bits t + 1)) (max_exponent_fast_path t)) < [mid2 (mant_bits t) (inf_code t - 1)]q)%Q).
  { Transparent qpow. destruct t; [| |congruence|]; vm_compute; reflexivity. Opaque qpow. }
  lra.
Qed.

(** The fast path never sees a subnormal tie. *)
Lemma clinger_no_tie c t m e neg v : 0 <= m -> clinger_fast_path_impl c t m e neg = Ok (Some v) ->
  forall b, ~ sub_tie t (dec m e) b.
Proof.
  intros Hm EC b T. destruct (clinger_range c t m e neg v Hm EC) as (_ & LE & _). pose proof T as (-> & _ & _).
  assert (E0 : 0 <= e) by (unfold min_exponent_fast_path in LE; destruct (eval c); cbn in LE; lia).
  revert T. destruct (Z.eq_dec m 0) as [->|NZ].
  - apply no_sub_small. unfold units, dec. change [0]q with 0%Q. ring_simplify. reflexivity.
  - apply no_sub_big. apply Qle_trans with (2 * units F16 (dec 1 0))%Q.
    + Transparent qpow. vm_compute. discriminate. Opaque qpow.
    + apply Qmult_le_l; [reflexivity|]. apply units_le. apply dec_ge_pow; lia.
Qed.
