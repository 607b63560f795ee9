(** round<T> and its callbacks (digit_comparison.h:104-168). *)
From Verif Require Import Machine Config Chars Format DigitComp WordLemmas Rounding ComputeFloat.
From Coq Require Import QArith Lqa.
Open Scope Z_scope.

(** Exponent field, shift and binade used by [round] for a 64-bit significand. *)
Definition rg (t : ftype) (p2 : Z) : Z := p2 + 63 - mant_bits t.
Definition rsh (t : ftype) (p2 : Z) : Z :=
  if rg t p2 <=? 0 then Z.min 64 (64 - mant_bits t - rg t p2) else 63 - mant_bits t.
Definition rk (t : ftype) (p2 : Z) : Z := Z.max (rg t p2) 1 - 1.
(** Code of the significand truncated to the precision of the format. *)
Definition rfloor (t : ftype) (m p2 : Z) : Z := rk t p2 * 2 ^ mant_bits t + m / 2 ^ rsh t p2.

Lemma rsh_range t p2 : 1 <= rsh t p2 <= 64.
Proof.
  pose proof (mb_range t). unfold rsh. destruct (Z.leb_spec (rg t p2) 0); lia.
Qed.

Lemma rk_nonneg t p2 : 0 <= rk t p2.
Proof. unfold rk. lia. Qed.

Lemma shifted t m p2 : 2 ^ 63 <= m < 2 ^ 64 ->
  (rg t p2 <= 0 -> 0 <= m / 2 ^ rsh t p2 < 2 ^ mant_bits t) /\
  (1 <= rg t p2 -> 2 ^ mant_bits t <= m / 2 ^ rsh t p2 < 2 ^ (mant_bits t + 1)).
Proof.
  intros Hm. pose proof (mb_range t) as Hmb. pose proof (rsh_range t p2) as Hs.
  pose proof (pow2_pos (rsh t p2) ltac:(lia)) as P.
  split; intros G.
  - split; [apply Z.div_pos; lia|]. apply Z.div_lt_upper_bound; [lia|].
    rewrite <- Z.pow_add_r by lia. apply Z.lt_le_trans with (2 ^ 64); [lia|].
    apply Z.pow_le_mono_r; [lia|]. unfold rsh in *. destruct (Z.leb_spec (rg t p2) 0); lia.
  - assert (E : rsh t p2 = 63 - mant_bits t).
    { unfold rsh. destruct (Z.leb_spec (rg t p2) 0); lia. }
    rewrite E in *. split.
    + apply Z.div_le_lower_bound; [lia|]. rewrite <- Z.pow_add_r by lia.
      replace (63 - mant_bits t + mant_bits t) with 63 by lia. lia.
    + apply Z.div_lt_upper_bound; [lia|]. rewrite <- Z.pow_add_r by lia.
      replace (63 - mant_bits t + (mant_bits t + 1)) with 64 by lia. lia.
Qed.

Lemma rfloor_canon t m p2 : 2 ^ 63 <= m < 2 ^ 64 ->
  canon (mant_bits t) (rk t p2) (m / 2 ^ rsh t p2) /\ m / 2 ^ rsh t p2 < 2 ^ (mant_bits t + 1).
Proof.
  intros Hm. destruct (shifted t m p2 Hm) as [A B]. pose proof (mb_range t) as Hmb.
  pose proof (pow2_pos (mant_bits t) ltac:(lia)) as P.
  unfold canon. rewrite pow2_S in * by lia.
  pose proof (rk_nonneg t p2).
  destruct (Z_le_gt_dec (rg t p2) 0) as [G|G].
  - specialize (A G). repeat split; try lia. left. unfold rk. lia.
  - specialize (B ltac:(lia)). repeat split; try lia.
Qed.

Lemma rfloor_units t m p2 : 2 ^ 63 <= m < 2 ^ 64 ->
  let f := m / 2 ^ rsh t p2 in let k := rk t p2 in
  0 <= rfloor t m p2 /\
  fp_units (mant_bits t) (rfloor t m p2) = f * 2 ^ k /\
  fp_units (mant_bits t) (rfloor t m p2 + 1) = (f + 1) * 2 ^ k /\
  mid2 (mant_bits t) (rfloor t m p2) = (2 * f + 1) * 2 ^ k /\
  Z.even (rfloor t m p2) = Z.even f.
Proof.
  intros Hm f k. destruct (rfloor_canon t m p2 Hm) as [C L]. pose proof (mb_range t) as Hmb.
  fold f k in C, L. unfold rfloor. fold f k.
  assert (E1 := U_enc (mant_bits t) k f ltac:(lia) C).
  assert (E2 := U_succ (mant_bits t) k f ltac:(lia) C L).
  pose proof (pow2_pos (mant_bits t) ltac:(lia)) as P.
  destruct C as (C1 & C2 & C3).
  split; [pose proof (Z.mul_nonneg_nonneg k (2 ^ mant_bits t)); lia|].
  split; [exact E1|]. split; [exact E2|]. split; [unfold mid2; rewrite E1, E2; ring|].
  rewrite Z.even_add, Z.even_mul. rewrite Z.even_pow by lia. cbn [Z.even]. rewrite orb_true_r.
  destruct (Z.even f); reflexivity.
Qed.

Theorem round_spec t m p2 cb i : 2 ^ 63 <= m < 2 ^ 64 -> -100000 <= p2 <= 100000 -> 0 <= i <= 1 ->
  cb {| am_mantissa := m; am_power2 := p2 |} (rsh t p2) =
    Ok {| am_mantissa := m / 2 ^ rsh t p2 + i; am_power2 := p2 + rsh t p2 |} ->
  exists a, round t {| am_mantissa := m; am_power2 := p2 |} cb = Ok a /\ am_ok t a /\
    am_code t a = Z.min (rfloor t m p2 + i) (inf_code t).
Proof.
  intros Hm Hp Hi HC. pose proof (mb_range t) as Hmb.
  pose proof (pow2_pos (mant_bits t) ltac:(lia)) as P.
  assert (P52 : 2 ^ mant_bits t <= 2 ^ 52) by (apply Z.pow_le_mono_r; lia).
  assert (IP : 2 <= inf_power t) by (destruct t; cbn; lia).
  destruct (shifted t m p2 Hm) as [A B].
  unfold round. cbn [am_power2]. rewrite !shl_small by lia. rewrite !bind_Ok.
  rewrite chk32_Ok, bind_Ok by lia. rewrite Z.mul_1_l.
  replace (64 - mant_bits t - 1) with (63 - mant_bits t) by lia.
  unfold rfloor.
  destruct (Z.leb_spec (63 - mant_bits t) (- p2)) as [S|S].
  - assert (G : rg t p2 <= 0) by (unfold rg; lia). specialize (A G). clear B.
    rewrite chk32_Ok, bind_Ok by lia.
    replace (if - p2 + 1 <? 64 then - p2 + 1 else 64) with (rsh t p2).
    2:{ unfold rsh, rg in *. destruct (Z.leb_spec (p2 + 63 - mant_bits t) 0); [|lia].
        destruct (Z.ltb_spec (- p2 + 1) 64); lia. }
    rewrite HC, bind_Ok. cbn [am_mantissa].
    set (f := m / 2 ^ rsh t p2) in *. clearbody f.
    replace (rk t p2) with 0 by (unfold rk; lia).
    eexists. split; [reflexivity|].
    assert (IC : 2 * 2 ^ mant_bits t <= inf_code t).
    { unfold inf_code. apply Z.mul_le_mono_nonneg_r; lia. }
    unfold am_ok. cbn [am_mantissa am_power2].
    destruct (Z.ltb_spec (f + i) (2 ^ mant_bits t)).
    + split; [left; lia|]. rewrite am_code_norm by lia. lia.
    + split; [right; lia|]. replace (f + i) with (2 ^ mant_bits t) by lia. rewrite am_code_top. lia.
  - assert (G : 1 <= rg t p2) by (unfold rg; lia). specialize (B G). clear A.
    replace (63 - mant_bits t) with (rsh t p2).
    2:{ unfold rsh. destruct (Z.leb_spec (rg t p2) 0); lia. }
    rewrite HC, bind_Ok. cbn [am_mantissa am_power2].
    replace (p2 + rsh t p2) with (rg t p2).
    2:{ unfold rsh. destruct (Z.leb_spec (rg t p2) 0); [lia|]. unfold rg. lia. }
    replace (rk t p2) with (rg t p2 - 1) by (unfold rk; lia).
    set (f := m / 2 ^ rsh t p2) in *. clearbody f. assert (GR : rg t p2 <= 100063) by (unfold rg; lia). set (g := rg t p2) in *. clearbody g. clear HC S.
    rewrite pow2_S in B by lia.
    destruct (Z.leb_spec (2 * 2 ^ mant_bits t) (f + i)) as [OV|NO].
    + rewrite chk32_Ok by lia. rewrite !bind_Ok.
      replace (Z.land (2 ^ mant_bits t) (2 ^ 64 - 1 - 2 ^ mant_bits t)) with 0.
      2:{ symmetry. replace (2 ^ mant_bits t) with (0 + 1 * 2 ^ mant_bits t) at 1 by lia.
          apply land_clear_bit; lia. }
      destruct (Z.leb_spec (inf_power t) (g + 1)) as [I|I].
      * eexists. split; [reflexivity|]. split; [left; cbn [am_mantissa am_power2]; lia|].
        pose proof (Z.mul_le_mono_nonneg_r (inf_power t) (g + 1) (2 ^ mant_bits t) ltac:(lia) I) as MM.
        rewrite am_code_norm by lia. rewrite Z.min_r by (unfold inf_code; lia).
        unfold inf_code. lia.
      * eexists. split; [reflexivity|]. split; [left; cbn [am_mantissa am_power2]; lia|].
        pose proof (Z.mul_le_mono_nonneg_r (g + 1) (inf_power t) (2 ^ mant_bits t) ltac:(lia) ltac:(lia)) as MM.
        rewrite am_code_norm by lia. rewrite Z.min_l by (unfold inf_code; lia).
        lia.
    + rewrite !bind_Ok.
      replace (Z.land (f + i) (2 ^ 64 - 1 - 2 ^ mant_bits t)) with (f + i - 2 ^ mant_bits t).
      2:{ symmetry. replace (f + i) with ((f + i - 2 ^ mant_bits t) + 1 * 2 ^ mant_bits t) at 1 by lia.
          apply land_clear_bit; lia. }
      destruct (Z.leb_spec (inf_power t) g) as [I|I].
      * eexists. split; [reflexivity|]. split; [left; cbn [am_mantissa am_power2]; lia|].
        pose proof (Z.mul_le_mono_nonneg_r (inf_power t) g (2 ^ mant_bits t) ltac:(lia) I) as MM.
        rewrite am_code_norm by lia. rewrite Z.min_r by (unfold inf_code; lia).
        unfold inf_code. lia.
      * eexists. split; [reflexivity|]. split; [left; cbn [am_mantissa am_power2]; lia|].
        pose proof (Z.mul_le_mono_nonneg_r (g + 1) (inf_power t) (2 ^ mant_bits t) ltac:(lia) ltac:(lia)) as MM.
        rewrite am_code_norm by lia. rewrite Z.min_l by (unfold inf_code; lia).
        lia.
Qed.

Lemma round_down_spec m p2 s : 0 <= m < 2 ^ 64 -> -100000 <= p2 <= 100000 -> 1 <= s <= 64 ->
  round_down {| am_mantissa := m; am_power2 := p2 |} s =
    Ok {| am_mantissa := m / 2 ^ s; am_power2 := p2 + s |}.
Proof.
  intros Hm Hp Hs. unfold round_down. cbn [am_mantissa am_power2].
  rewrite chk32_Ok by lia.
  destruct (Z.eqb_spec s 64) as [->|N].
  - rewrite !bind_Ok, Z.div_small by exact Hm. reflexivity.
  - rewrite shr_Ok by lia. rewrite !bind_Ok. reflexivity.
Qed.

Lemma rnte_spec cb m p2 s : 0 <= m < 2 ^ 64 -> -100000 <= p2 <= 100000 -> 1 <= s <= 64 ->
  round_nearest_tie_even cb {| am_mantissa := m; am_power2 := p2 |} s =
    Ok {| am_mantissa := m / 2 ^ s +
            Z.b2z (cb (Z.odd (m / 2 ^ s)) (m mod 2 ^ s =? 2 ^ (s - 1)) (2 ^ (s - 1) <? m mod 2 ^ s));
          am_power2 := p2 + s |}.
Proof.
  intros Hm Hp Hs. unfold round_nearest_tie_even. cbn [am_mantissa am_power2].
  rewrite chk32_Ok by lia.
  pose proof (pow2_pos s ltac:(lia)) as P. pose proof (pow2_pos (s - 1) ltac:(lia)) as P1.
  assert (PS : 2 ^ s = 2 * 2 ^ (s - 1)) by (rewrite <- pow2_S by lia; f_equal; lia).
  assert (P64 : 2 ^ s <= 2 ^ 64) by (apply Z.pow_le_mono_r; lia).
  replace (if s =? 64 then Ok (2 ^ 64 - 1) else let* x := shl 64 1 s in Ok (u64 (x - 1)))
    with (Ok (2 ^ s - 1)).
  2:{ destruct (Z.eqb_spec s 64) as [->|N]; [reflexivity|].
      assert (2 ^ s <= 2 ^ 63) by (apply Z.pow_le_mono_r; lia).
      rewrite shl_small, bind_Ok by lia. rewrite u64_small by lia. f_equal. lia. }
  rewrite bind_Ok.
  destruct (Z.eqb_spec s 0) as [Z0|_]; [lia|].
  rewrite shl_small, bind_Ok by lia. rewrite Z.mul_1_l.
  replace (if s =? 64 then Ok 0 else shr 64 m s) with (Ok (m / 2 ^ s)).
  2:{ destruct (Z.eqb_spec s 64) as [->|N]; [rewrite Z.div_small by lia; reflexivity|].
      rewrite shr_Ok by lia. reflexivity. }
  rewrite !bind_Ok. rewrite land_ones_mod by lia.
  assert (EO : (Z.land (m / 2 ^ s) 1 =? 1) = Z.odd (m / 2 ^ s)).
  { rewrite land1_mod, Zmod_odd. destruct (Z.odd (m / 2 ^ s)); reflexivity. }
  rewrite EO.
  assert (R : 0 <= m / 2 ^ s < 2 ^ 63).
  { split; [apply Z.div_pos; lia|]. apply Z.div_lt_upper_bound; [lia|].
    assert (2 <= 2 ^ s) by lia.
    apply Z.lt_le_trans with (2 * 2 ^ 63); [lia|]. apply Z.mul_le_mono_nonneg_r; lia. }
  destruct (cb _ _ _); cbn [Z.b2z]; rewrite u64_small by lia; reflexivity.
Qed.

(** If the significand is the truncation of y, the code is the truncation of y. *)
Lemma rfloor_bounds t m p2 (y : Q) : 2 ^ 63 <= m < 2 ^ 64 ->
  let F := m / 2 ^ (63 - mant_bits t) in
  ([F]q * qpow 2 (rg t p2 - 1) <= y)%Q -> (y < [F + 1]q * qpow 2 (rg t p2 - 1))%Q ->
  let f := m / 2 ^ rsh t p2 in let k := rk t p2 in
  ([f * 2 ^ k]q <= y)%Q /\ (y < [(f + 1) * 2 ^ k]q)%Q.
Proof.
  intros Hm F L U f k. pose proof (mb_range t) as Hmb.
  unfold f, k. clear f k.
  destruct (Z_le_gt_dec (rg t p2) 0) as [G|G].
  - assert (K0 : rk t p2 = 0) by (unfold rk; lia). rewrite K0. change (2 ^ 0) with 1. rewrite !Z.mul_1_r.
    set (n := 1 - rg t p2). assert (Hn : 1 <= n) by (unfold n; lia).
    pose proof (pow2_pos n ltac:(lia)) as Pn.
    assert (EF : m / 2 ^ rsh t p2 = F / 2 ^ n).
    { unfold F. rewrite Z.div_div by (pose proof (pow2_pos (63 - mant_bits t)); lia).
      rewrite <- Z.pow_add_r by lia. unfold rsh. destruct (Z.leb_spec (rg t p2) 0); [|lia].
      destruct (Z.min_spec 64 (64 - mant_bits t - rg t p2)) as [[A ->]|[A ->]].
      - rewrite !Z.div_small; [reflexivity| |lia]. split; [lia|].
        apply Z.lt_le_trans with (2 ^ 64); [lia|]. apply Z.pow_le_mono_r; unfold n; lia.
      - f_equal. f_equal. unfold n. lia. }
    rewrite EF. set (f := F / 2 ^ n).
    pose proof (Z.div_mod F (2 ^ n) ltac:(lia)) as DM. fold f in DM.
    pose proof (Z.mod_pos_bound F (2 ^ n) Pn) as MB.
    assert (Q1 : (qpow 2 (rg t p2 - 1) * [2 ^ n]q == 1)%Q).
    { rewrite <- qpow_Z by lia. replace (rg t p2 - 1) with (- n) by (unfold n; lia).
      apply qpow_opp. lia. }
    pose proof (qpow_pos 2 (rg t p2 - 1) ltac:(lia)) as Pq.
    set (a := qpow 2 (rg t p2 - 1)) in *. clearbody a.
    assert (FL : ([f]q * [2 ^ n]q <= [F]q)%Q) by (rewrite <- inject_Z_mult; apply -> q_le; lia).
    assert (FU : ([F + 1]q <= [f + 1]q * [2 ^ n]q)%Q) by (rewrite <- inject_Z_mult; apply -> q_le; lia).
    split.
    + apply Qle_trans with ([F]q * a)%Q; [|exact L].
      apply Qle_trans with ([f]q * [2 ^ n]q * a)%Q.
      * setoid_replace ([f]q * [2 ^ n]q * a)%Q with ([f]q * (a * [2 ^ n]q))%Q by ring.
        rewrite Q1. rewrite Qmult_1_r. apply Qle_refl.
      * apply Qmult_le_r; assumption.
    + apply Qlt_le_trans with ([F + 1]q * a)%Q; [exact U|].
      apply Qle_trans with ([f + 1]q * [2 ^ n]q * a)%Q.
      * apply Qmult_le_r; assumption.
      * setoid_replace ([f + 1]q * [2 ^ n]q * a)%Q with ([f + 1]q * (a * [2 ^ n]q))%Q by ring.
        rewrite Q1. rewrite Qmult_1_r. apply Qle_refl.
  - replace (rk t p2) with (rg t p2 - 1) by (unfold rk; lia).
    replace (rsh t p2) with (63 - mant_bits t).
    2:{ unfold rsh. destruct (Z.leb_spec (rg t p2) 0); lia. }
    fold F. rewrite !inject_Z_mult, <- qpow_Z by lia. split; assumption.
Qed.

(** Rounding from a code at or below y, when y is below the midpoint above the next code. *)
Lemma rneu_pick' mb y b (i : bool) : 0 < mb -> 0 <= b ->
  ([fp_units mb b]q <= y)%Q -> (2 * y < [mid2 mb (b + 1)]q)%Q ->
  ((2 * y < [mid2 mb b]q)%Q /\ i = false \/ ([mid2 mb b]q < 2 * y)%Q /\ i = true \/
   (2 * y == [mid2 mb b]q)%Q /\ i = Z.odd b) ->
  rneu mb y (b + Z.b2z i).
Proof.
  intros Hmb Hb L U H.
  assert (LO : 0 < b -> ([mid2 mb (b - 1)]q < 2 * y)%Q).
  { intros Hp. assert (X : mid2 mb (b - 1) < 2 * fp_units mb b).
    { unfold mid2. replace (b - 1 + 1) with b by lia.
      pose proof (U_lt mb (b - 1) b Hmb ltac:(lia)). lia. }
    apply q_lt in X. rewrite inject_Z_mult in X. change [2]q with 2%Q in X. lra. }
  assert (OE : forall x, Z.even x = negb (Z.odd x)) by (intros; symmetry; apply Z.negb_odd).
  destruct H as [[H ->]|[[H ->]|[H Hi]]]; cbn [Z.b2z]; rewrite ?Z.add_0_r.
  - split; [exact Hb|]. split; [left; exact H|]. intros Hp. left. apply LO, Hp.
  - split; [lia|]. split; [left; exact U|]. intros _. left. replace (b + 1 - 1) with b by lia. exact H.
  - destruct (Z.odd b) eqn:O; subst i; cbn [Z.b2z]; rewrite ?Z.add_0_r.
    + split; [lia|]. split; [left; exact U|]. intros _. right.
      replace (b + 1 - 1) with b by lia. split; [exact H|].
      rewrite Z.even_add, OE, O. reflexivity.
    + split; [exact Hb|]. split; [right; split; [exact H|rewrite OE, O; reflexivity]|].
      intros Hp. left. apply LO, Hp.
Qed.

(** Codes are at least as widely spaced above as below. *)
Lemma mid2_next mb k f : 0 < mb -> canon mb k f -> f < 2 ^ (mb + 1) ->
  (2 * f + 3) * 2 ^ k <= mid2 mb (k * 2 ^ mb + f + 1).
Proof.
  intros Hmb C L. unfold mid2. rewrite U_succ by assumption.
  destruct C as (Hk & Hf & Hc). pose proof (pow2_pos k Hk) as Pk. pose proof (pow2_pos mb ltac:(lia)) as P.
  assert (X : (f + 2) * 2 ^ k <= fp_units mb (k * 2 ^ mb + f + 1 + 1)).
  { rewrite pow2_S in L, Hf by lia.
    destruct (Z.eq_dec (f + 1) (2 * 2 ^ mb)) as [E|E].
    - replace (k * 2 ^ mb + f + 1 + 1) with ((k + 1) * 2 ^ mb + (2 ^ mb + 1)) by lia.
      rewrite U_enc; [|lia|unfold canon; rewrite pow2_S by lia; lia].
      rewrite pow2_S by lia. nia.
    - replace (k * 2 ^ mb + f + 1 + 1) with (k * 2 ^ mb + (f + 2)) by lia.
      rewrite U_enc; [lia|lia|unfold canon; rewrite pow2_S by lia; lia]. }
  lia.
Qed.
