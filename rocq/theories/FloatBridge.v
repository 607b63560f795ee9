(** The internal rounding predicate is the specification's. *)
From Verif Require Import Machine Config Format WordLemmas Rounding ComputeFloat SpecFloat.
From Coq Require Import QArith Qabs Qpower Lqa.
Open Scope Z_scope.

Definition format_of (t : ftype) : format :=
  match t with F64 => binary64 | F32 => binary32 | F16 => binary16 | BF16 => bfloat16 end.

Lemma frac_mb t : frac_bits (format_of t) = mant_bits t.
Proof. destruct t; reflexivity. Qed.
Lemma bias_me t : bias (format_of t) = - min_exp t.
Proof. destruct t; reflexivity. Qed.
Lemma inf_inf t : infinity (format_of t) = inf_code t.
Proof. destruct t; reflexivity. Qed.

Lemma qpow_Qpower e : (Qpower 2 e == qpow 2 e)%Q.
Proof. Transparent qpow. reflexivity. Opaque qpow. Qed.
Lemma qpow_Qpower10 e : (Qpower 10 e == qpow 10 e)%Q.
Proof. Transparent qpow. reflexivity. Opaque qpow. Qed.

Lemma decimal_dec w q : (decimal w q == dec w q)%Q.
Proof. unfold decimal, dec. rewrite qpow_Qpower10. reflexivity. Qed.

Definition ulp0 (t : ftype) : Q := qpow 2 (min_exp t + 1 - mant_bits t).

Lemma ulp0_pos t : (0 < ulp0 t)%Q.
Proof. apply qpow_pos. lia. Qed.

Lemma units_ulp0 t x : (x == units t x * ulp0 t)%Q.
Proof.
  unfold units, ulp0. rewrite <- Qmult_assoc, <- qpow_add by lia.
  replace (mant_bits t - 1 - min_exp t + (min_exp t + 1 - mant_bits t)) with 0 by lia.
  rewrite qpow_0. ring.
Qed.

Lemma magnitude_units t b : 0 <= b ->
  (magnitude (format_of t) b == [fp_units (mant_bits t) b]q * ulp0 t)%Q.
Proof.
  intros Hb. unfold magnitude, fp_units, ulp0. rewrite frac_mb, bias_me.
  pose proof (mb_range t) as Hmb. pose proof (pow2_pos (mant_bits t) ltac:(lia)) as P.
  destruct (Z.eqb_spec (b / 2 ^ mant_bits t) 0) as [E|E].
  - rewrite qpow_Qpower. replace (1 - - min_exp t - mant_bits t) with (min_exp t + 1 - mant_bits t) by lia.
    reflexivity.
  - pose proof (Z.div_pos b (2 ^ mant_bits t) Hb P).
    rewrite inject_Z_mult, <- qpow_Z, qpow_Qpower by lia.
    rewrite <- Qmult_assoc, <- qpow_add by lia.
    rewrite (Z.add_comm (b mod 2 ^ mant_bits t)).
    replace (b / 2 ^ mant_bits t - - min_exp t - mant_bits t)
      with (b / 2 ^ mant_bits t - 1 + (min_exp t + 1 - mant_bits t)) by lia.
    reflexivity.
Qed.

Lemma dist_scale t x b : 0 <= b ->
  (Qabs (x - magnitude (format_of t) b) == Qabs (units t x - [fp_units (mant_bits t) b]q) * ulp0 t)%Q.
Proof.
  intros Hb. rewrite magnitude_units by exact Hb.
  setoid_replace (x - [fp_units (mant_bits t) b]q * ulp0 t)%Q
    with ((units t x - [fp_units (mant_bits t) b]q) * ulp0 t)%Q.
  - rewrite Qabs_Qmult. rewrite (Qabs_pos (ulp0 t)); [reflexivity|apply Qlt_le_weak, ulp0_pos].
  - rewrite (units_ulp0 t x) at 1. ring.
Qed.

Lemma dist_lt t x b b' : 0 <= b -> 0 <= b' ->
  ((Qabs (x - magnitude (format_of t) b) < Qabs (x - magnitude (format_of t) b'))%Q <->
   (Qabs (units t x - [fp_units (mant_bits t) b]q) < Qabs (units t x - [fp_units (mant_bits t) b']q))%Q).
Proof. intros H H'. rewrite !dist_scale by assumption. apply Qmult_lt_r, ulp0_pos. Qed.

Lemma dist_eq t x b b' : 0 <= b -> 0 <= b' ->
  ((Qabs (x - magnitude (format_of t) b) == Qabs (x - magnitude (format_of t) b'))%Q <->
   (Qabs (units t x - [fp_units (mant_bits t) b]q) == Qabs (units t x - [fp_units (mant_bits t) b']q))%Q).
Proof.
  intros H H'. rewrite !dist_scale by assumption. pose proof (ulp0_pos t) as P. split; intros E.
  - apply Qmult_inj_r in E; [exact E|]. intros Z. rewrite Z in P. inversion P.
  - rewrite E. reflexivity.
Qed.

Ltac qabs := repeat match goal with
  |- context [Qabs ?a] => let H := fresh in
     destruct (Qlt_le_dec a 0) as [H|H];
     [rewrite (Qabs_neg a) by (apply Qlt_le_weak; exact H)|rewrite (Qabs_pos a) by exact H] end.

Lemma closer_below (y u v m2 : Q) : (m2 == u + v)%Q -> (u < v)%Q -> (2 * y < m2)%Q ->
  (Qabs (y - u) < Qabs (y - v))%Q.
Proof. intros E L H. qabs; lra. Qed.
Lemma closer_above (y u v m2 : Q) : (m2 == u + v)%Q -> (u < v)%Q -> (m2 < 2 * y)%Q ->
  (Qabs (y - v) < Qabs (y - u))%Q.
Proof. intros E L H. qabs; lra. Qed.
Lemma equal_mid (y u v m2 : Q) : (m2 == u + v)%Q -> (u < v)%Q -> (m2 == 2 * y)%Q ->
  (Qabs (y - v) == Qabs (y - u))%Q.
Proof. intros E L H. qabs; lra. Qed.

Lemma rounds_nearest_even t x b : rounds t x b -> nearest_even (format_of t) x b.
Proof.
  intros (c & (C0 & CU & CD) & E). pose proof (mb_range t) as Hmb.
  pose proof (inf_code_pos t) as Hi. split; [rewrite inf_inf; lia|].
  rewrite inf_inf. intros b' Hb'.
  rewrite dist_lt, dist_eq by lia. set (y := units t x) in *. set (mb := mant_bits t) in *.
  destruct (Z.eq_dec b b') as [<-|N].
  { right. split; [reflexivity|left; reflexivity]. }
  destruct (Z_lt_ge_dec b b') as [L|G].
  - assert (b = c) by lia. subst c.
    pose proof (U_lt mb b b' ltac:(lia) ltac:(lia)) as UL. apply q_lt in UL.
    pose proof (U_le mb (b + 1) b' ltac:(lia) ltac:(lia)) as UL2.
    assert (M : mid2 mb b <= fp_units mb b + fp_units mb b') by (unfold mid2; lia).
    apply q_le in M.
    assert (EM : ([fp_units mb b + fp_units mb b']q == [fp_units mb b]q + [fp_units mb b']q)%Q)
      by (rewrite inject_Z_plus; reflexivity).
    destruct (Qlt_le_dec (2 * y) [fp_units mb b + fp_units mb b']q) as [A|A].
    + left. eapply closer_below; eassumption.
    + right. destruct CU as [CU|[CU EV]]; [exfalso; lra|]. split; [|right; exact EV].
      symmetry. eapply equal_mid; try eassumption. lra.
  - pose proof (U_lt mb b' b ltac:(lia) ltac:(lia)) as UL. apply q_lt in UL.
    assert (M : fp_units mb b' + fp_units mb b <= mid2 mb (b - 1)).
    { unfold mid2. replace (b - 1 + 1) with b by lia.
      pose proof (U_le mb b' (b - 1) ltac:(lia) ltac:(lia)). lia. }
    assert (EM : ([fp_units mb b' + fp_units mb b]q == [fp_units mb b']q + [fp_units mb b]q)%Q)
      by (rewrite inject_Z_plus; reflexivity).
    specialize (CD ltac:(lia)).
    destruct (Z.eq_dec b c) as [->|NC].
    + apply q_le in M.
      destruct (Qlt_le_dec [fp_units mb b' + fp_units mb c]q (2 * y)) as [A|A].
      * left. eapply closer_above; eassumption.
      * right. destruct CD as [CD|[CD EV]]; [exfalso; lra|]. split; [|right; exact EV].
        eapply equal_mid; try eassumption. lra.
    + left. assert (M2 : mid2 mb (b - 1) < mid2 mb (c - 1)) by (apply mid2_lt; lia).
      assert (M3 : fp_units mb b' + fp_units mb b < mid2 mb (c - 1)) by lia. apply q_lt in M3.
      eapply closer_above; [eassumption|eassumption|]. destruct CD as [CD|[CD _]]; lra.
Qed.

Lemma three_points (y u v w : Q) : (u < v)%Q -> (v < w)%Q ->
  (Qabs (y - u) == Qabs (y - w))%Q -> (Qabs (y - u) <= Qabs (y - v))%Q -> False.
Proof.
  intros L1 L2 EQ A4.
  assert (T : (2 * y == u + w)%Q).
  { revert EQ. qabs; intros; lra. }
  clear EQ. revert A4. qabs; intros; lra.
Qed.

Lemma tie_both (d1 d2 : Q) (P R : Prop) :
  (d1 < d2)%Q \/ ((d1 == d2)%Q /\ P) -> (d2 < d1)%Q \/ ((d2 == d1)%Q /\ R) -> (d1 == d2)%Q /\ P /\ R.
Proof. intros [A|[A B]] [C|[C D]]; try (exfalso; lra); auto. Qed.

Lemma dist_or t x b b' (P : Prop) : 0 <= b -> 0 <= b' ->
  (Qabs (x - magnitude (format_of t) b) < Qabs (x - magnitude (format_of t) b'))%Q \/
  ((Qabs (x - magnitude (format_of t) b) == Qabs (x - magnitude (format_of t) b'))%Q /\ P) ->
  (Qabs (units t x - [fp_units (mant_bits t) b]q) < Qabs (units t x - [fp_units (mant_bits t) b']q))%Q \/
  ((Qabs (units t x - [fp_units (mant_bits t) b]q) == Qabs (units t x - [fp_units (mant_bits t) b']q))%Q /\ P).
Proof.
  intros H H' [A|[A B]]; [left; apply (proj1 (dist_lt t x b b' H H')); exact A|].
  right. split; [apply (proj1 (dist_eq t x b b' H H')); exact A|exact B].
Qed.

Lemma nearest_even_unique t x b1 b2 :
  nearest_even (format_of t) x b1 -> nearest_even (format_of t) x b2 -> b1 = b2.
Proof.
  revert b1 b2.
  assert (W : forall b1 b2, b1 < b2 ->
     nearest_even (format_of t) x b1 -> nearest_even (format_of t) x b2 -> False).
  { intros b1 b2 L [R1 H1] [R2 H2]. pose proof (mb_range t) as Hmb.
    assert (R0 : 0 <= b1 /\ 0 <= b2 /\ 0 <= b1 + 1 <= infinity (format_of t)) by (clear - R1 R2 L; lia).
    destruct R0 as (P1 & P2 & P3).
    pose proof (dist_or t x b1 b2 _ P1 P2 (H1 b2 R2)) as A1.
    pose proof (dist_or t x b2 b1 _ P2 P1 (H2 b1 R1)) as A2.
    pose proof (dist_or t x b1 (b1 + 1) _ P1 (proj1 P3) (H1 (b1 + 1) P3)) as A3.
    clear H1 H2. 
    assert (EV : Z.even b1 = true /\ Z.even b2 = true /\
      (Qabs (units t x - [fp_units (mant_bits t) b1]q) == Qabs (units t x - [fp_units (mant_bits t) b2]q))%Q).
    { destruct (tie_both _ _ _ _ A1 A2) as (T & B1 & B2).
      destruct B1 as [B1|B1]; [exfalso; clear - B1 L; lia|].
      destruct B2 as [B2|B2]; [exfalso; clear - B2 L; lia|]. exact (conj B1 (conj B2 T)). }
    destruct EV as (E1 & E2 & EQ).
    assert (b1 + 1 < b2).
    { destruct (Z.eq_dec (b1 + 1) b2) as [<-|]; [|lia]. rewrite Z.even_add, E1 in E2. discriminate. }
    pose proof (U_lt (mant_bits t) b1 (b1 + 1) ltac:(lia) ltac:(lia)) as U1.
    pose proof (U_lt (mant_bits t) (b1 + 1) b2 ltac:(lia) ltac:(lia)) as U2.
    apply q_lt in U1, U2.
    refine (three_points _ _ _ _ U1 U2 EQ _).
    destruct A3 as [A3|[A3 _]]; [apply Qlt_le_weak; exact A3|rewrite A3; apply Qle_refl]. }
  intros b1 b2 H1 H2. destruct (Z.lt_trichotomy b1 b2) as [L|[E|L]]; [|exact E|].
  - exfalso. exact (W b1 b2 L H1 H2).
  - exfalso. exact (W b2 b1 L H2 H1).
Qed.

Lemma nearest_even_rounds t x b : (0 <= x)%Q -> nearest_even (format_of t) x b -> rounds t x b.
Proof.
  intros Hx H. destruct (rne_exists (mant_bits t) (inf_code t) (units t x)) as [b' Hb'].
  - pose proof (mb_range t); lia.
  - apply units_nonneg. exact Hx.
  - rewrite (nearest_even_unique t x b b' H); [exact Hb'|]. apply rounds_nearest_even. exact Hb'.
Qed.

(** ** Packing *)

Definition sign_bits (t : ftype) : Z := 2 ^ sign_index t.

Lemma sign_index_bits t : frac_bits (format_of t) + exp_bits (format_of t) = sign_index t.
Proof. destruct t; reflexivity. Qed.

Lemma with_sign_eq t neg b : with_sign (format_of t) neg b = b + (if neg then 2 ^ sign_index t else 0).
Proof. unfold with_sign. rewrite sign_index_bits. reflexivity. Qed.

Lemma am_ok_code_range t am : am_ok t am -> 0 <= am_code t am <= inf_code t.
Proof.
  pose proof (mb_range t) as Hmb. pose proof (pow2_pos (mant_bits t) ltac:(lia)) as P.
  assert (I : 2 <= inf_power t) by (destruct t; cbn; lia).
  destruct am as [m p]. intros [(H1 & H2 & H3)|(H1 & H2)]; cbn [am_mantissa am_power2] in *.
  - rewrite am_code_norm by lia. unfold inf_code.
    destruct (Z.eq_dec p (inf_power t)) as [E|N]; [rewrite (H3 E); subst p; lia|]. nia.
  - subst. rewrite am_code_top. unfold inf_code. nia.
Qed.

Lemma to_float_spec t neg am : am_ok t am ->
  to_float t neg am = Ok (with_sign (format_of t) neg (am_code t am)).
Proof.
  intros H. pose proof (am_ok_code_range t am H) as R. rewrite with_sign_eq.
  unfold to_float.
  assert (HM : 0 <= am_mantissa am < 2 ^ equiv_bits t /\ 0 <= am_power2 am <= inf_power t).
  { destruct H as [H|H]; destruct t; cbn in *; lia. }
  rewrite (Z.mod_small (am_mantissa am)) by lia.
  assert (E1 : equiv_shl t (am_power2 am) (mant_bits t) = Ok (am_power2 am * 2 ^ mant_bits t)).
  { destruct HM as [_ HM]. unfold equiv_shl.
    destruct t; cbn [inf_power mant_bits] in *.
    - rewrite u64_small by lia. apply shl_small; lia.
    - rewrite u32_small by lia. apply shl_small; lia.
    - rewrite u16_small by lia. rewrite shl_small by lia. rewrite bind_Ok. apply chk32_Ok. lia.
    - rewrite u16_small by lia. rewrite shl_small by lia. rewrite bind_Ok. apply chk32_Ok. lia. }
  rewrite E1, bind_Ok. fold (am_code t am).
  assert (IS : inf_code t < 2 ^ sign_index t) by (destruct t; reflexivity).
  assert (ES : 2 ^ equiv_bits t = 2 * 2 ^ sign_index t) by (destruct t; reflexivity).
  rewrite (Z.mod_small (am_code t am)) by lia.
  assert (E2 : equiv_shl t (if neg then 1 else 0) (sign_index t) = Ok (if neg then 2 ^ sign_index t else 0)).
  { destruct t; destruct neg; reflexivity. }
  rewrite E2, bind_Ok. f_equal.
  destruct neg.
  - rewrite <- (Z.mul_1_l (2 ^ sign_index t)) at 1. rewrite lor_add_disjoint by (destruct t; cbn in *; lia).
    rewrite Z.mod_small; lia.
  - rewrite Z.lor_0_r, Z.mod_small; lia.
Qed.

Lemma fp_neg_sign t b : 0 <= b <= inf_code t + 2 ^ (mant_bits t - 1) ->
  fp_neg t b = with_sign (format_of t) true b.
Proof.
  intros H. rewrite with_sign_eq. unfold fp_neg. rewrite Z.shiftl_mul_pow2, Z.mul_1_l by (destruct t; cbn; lia).
  assert (L : b < 2 ^ sign_index t).
  { eapply Z.le_lt_trans; [apply H|]. destruct t; reflexivity. }
  assert (D : Z.land b (1 * 2 ^ sign_index t) = 0).
  { apply Z.bits_inj'; intros n Hn. rewrite Z.land_spec, Z.bits_0.
    destruct (Z_lt_ge_dec n (sign_index t)) as [A|A].
    - rewrite Z.mul_pow2_bits_low by lia. apply andb_false_r.
    - rewrite <- (Z.mod_small b (2 ^ sign_index t)) by lia.
      rewrite Z.mod_pow2_bits_high by (destruct t; cbn in *; lia). reflexivity. }
  rewrite Z.mul_1_l in D. rewrite <- Z.add_nocarry_lxor by exact D. reflexivity.
Qed.

(** ** Rounding with the float16 exception *)

Lemma nearest_even_nearest f x b : nearest_even f x b -> nearest f x b.
Proof.
  intros [R H]. split; [exact R|]. intros b' Hb'. destruct (H b' Hb') as [L|[E _]].
  - apply Qlt_le_weak. exact L.
  - rewrite E. apply Qle_refl.
Qed.

Lemma half_int_dist (y : Q) (a b : Z) : (2 * y == [2 * a - 1]q)%Q ->
  (Qabs (y - [a]q) <= Qabs (y - [b]q))%Q.
Proof.
  intros E. unfold Z.sub in E. rewrite inject_Z_plus, inject_Z_mult in E. change [2]q with 2%Q in E. change [-(1)]q with (-(1))%Q in E.
  destruct (Z_le_gt_dec a b) as [L|G].
  - apply q_le in L. qabs; lra.
  - assert (H : b <= a - 1) by lia. apply q_le in H. unfold Z.sub in H. rewrite inject_Z_plus in H.
    change [-(1)]q with (-(1))%Q in H. qabs; lra.
Qed.

Lemma fp_units_sub mb b : 0 < mb -> 0 <= b <= 2 ^ mb -> fp_units mb b = b.
Proof.
  intros Hmb Hb. pose proof (U_enc mb 0 b Hmb) as E.
  rewrite Z.mul_0_l, Z.add_0_l, Z.mul_1_r in E. apply E. unfold canon. rewrite pow2_S by lia. lia.
Qed.

Lemma sub_tie_spec t x b : sub_tie t x b -> nearest_but_subnormal_ties (format_of t) x b.
Proof.
  intros (_ & Hb & E). pose proof (mb_range t) as Hmb. 
  assert (HI : b <= inf_code t).
  { eapply Z.le_trans; [apply Hb|]. destruct t; vm_compute; discriminate. }
  split; [split|right; split].
  - rewrite inf_inf. lia.
  - intros b' Hb'. rewrite inf_inf in Hb'. rewrite !dist_scale by lia.
    apply Qmult_le_r; [apply ulp0_pos|]. rewrite (fp_units_sub (mant_bits t) b) by lia.
    apply half_int_dist. exact E.
  - rewrite frac_mb. exact Hb.
  - rewrite !magnitude_units by lia. rewrite (fp_units_sub (mant_bits t) b), (fp_units_sub (mant_bits t) (b - 1)) by lia.
    rewrite (units_ulp0 t x) at 1. rewrite Qmult_assoc, E.
    setoid_replace ([2 * b - 1]q) with ([b - 1]q + [b]q)%Q; [ring|]. rewrite <- inject_Z_plus. apply -> q_eq. lia.
Qed.

Lemma rounds_or_tie_spec t x b : rounds t x b \/ sub_tie t x b -> nearest_but_subnormal_ties (format_of t) x b.
Proof.
  intros [H|H]; [|apply sub_tie_spec; exact H].
  apply rounds_nearest_even in H. split; [apply nearest_even_nearest; exact H|left; exact H].
Qed.
