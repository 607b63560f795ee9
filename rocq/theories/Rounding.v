(** Internal theory of round-to-nearest, ties-to-even on magnitude codes, in
    units of the smallest subnormal.  Axiom-free (rationals only). *)
From Verif Require Import Machine Config Format.
From Coq Require Import QArith Qpower Qround Lqa.
Open Scope Z_scope.

(** ** Integers as rationals *)
Notation "[ z ]q" := (inject_Z z) (at level 0, z at level 200, format "[ z ]q").

Lemma q_le a b : a <= b <-> ([a]q <= [b]q)%Q.
Proof. rewrite Zle_Qle. reflexivity. Qed.
Lemma q_lt a b : a < b <-> ([a]q < [b]q)%Q.
Proof. rewrite Zlt_Qlt. reflexivity. Qed.
Lemma q_eq a b : a = b <-> ([a]q == [b]q)%Q.
Proof. split; [intros ->; reflexivity|]. intros H. apply Z.le_antisymm; apply q_le; rewrite H; apply Qle_refl. Qed.
Lemma q_pos a : 0 < a <-> (0 < [a]q)%Q.
Proof. apply (q_lt 0 a). Qed.
Lemma q_nonneg a : 0 <= a <-> (0 <= [a]q)%Q.
Proof. apply (q_le 0 a). Qed.

(** Powers of a positive integer with any integer exponent. *)
Definition qpow (a e : Z) : Q := Qpower [a]q e.

Lemma qpow_pos a e : 0 < a -> (0 < qpow a e)%Q.
Proof.
  intros H. apply q_pos in H. unfold qpow. apply Qpower_0_lt. exact H.
Qed.

Lemma qpow_nz a e : 0 < a -> ~ (qpow a e == 0)%Q.
Proof. intros H E. pose proof (qpow_pos a e H). rewrite E in *. inversion H0. Qed.

Lemma qpow_0 a : (qpow a 0 == 1)%Q.
Proof. reflexivity. Qed.

Lemma qpow_add a m n : 0 < a -> (qpow a (m + n) == qpow a m * qpow a n)%Q.
Proof.
  intros H. unfold qpow. apply Qpower_plus. intros E. apply q_pos in H. rewrite E in H. inversion H.
Qed.

Lemma qpow_Z a e : 0 <= e -> (qpow a e == [a ^ e]q)%Q.
Proof. intros H. unfold qpow. symmetry. apply Zpower_Qpower. exact H. Qed.

Lemma qpow_opp a e : 0 < a -> (qpow a (- e) * qpow a e == 1)%Q.
Proof. intros H. rewrite <- qpow_add by exact H. rewrite Z.add_opp_diag_l. reflexivity. Qed.

Lemma qpow_mul a b e : (qpow (a * b) e == qpow a e * qpow b e)%Q.
Proof. unfold qpow. rewrite inject_Z_mult. apply Qmult_power. Qed.

Lemma qpow_10 e : (qpow 10 e == qpow 2 e * qpow 5 e)%Q.
Proof. apply (qpow_mul 2 5 e). Qed.

Lemma qpow_le a m n : 1 <= a -> m <= n -> (qpow a m <= qpow a n)%Q.
Proof. intros H L. apply Qpower_le_compat_l; [exact L|]. apply (q_le 1 a). exact H. Qed.

Global Opaque qpow.

Lemma Qmult_lt_cancel (a b c : Q) : (0 < c)%Q -> (a * c < b * c)%Q -> (a < b)%Q.
Proof. intros H. apply Qmult_lt_r. exact H. Qed.

(** ** Codes and their values *)

Lemma pow2_pos k : 0 <= k -> 0 < 2 ^ k.
Proof. intros; apply Z.pow_pos_nonneg; lia. Qed.

Lemma pow2_S k : 0 <= k -> 2 ^ (k + 1) = 2 * 2 ^ k.
Proof. intros; rewrite Z.pow_add_r by lia; lia. Qed.

(** Canonical decomposition of a code: significand [m], binade [k]. *)
Definition canon (mb k m : Z) : Prop :=
  0 <= k /\ 0 <= m <= 2 ^ (mb + 1) /\ (k = 0 \/ 2 ^ mb <= m).

Lemma U_enc mb k m : 0 < mb -> canon mb k m -> fp_units mb (k * 2 ^ mb + m) = m * 2 ^ k.
Proof.
  intros Hmb (Hk & Hm & Hc). rewrite pow2_S in Hm by lia.
  pose proof (pow2_pos mb ltac:(lia)) as P.
  unfold fp_units.
  assert (C : m < 2 ^ mb \/ 2 ^ mb <= m < 2 * 2 ^ mb \/ m = 2 * 2 ^ mb) by lia.
  destruct C as [C|[C|C]].
  - assert (k = 0) by lia. subst k.
    rewrite Z.mul_0_l, Z.add_0_l. rewrite Z.div_small, Z.mod_small by lia. cbn. lia.
  - replace (k * 2 ^ mb + m) with ((m - 2 ^ mb) + (k + 1) * 2 ^ mb) by lia.
    rewrite Z.div_add, Z.mod_add by lia. rewrite Z.div_small, Z.mod_small by lia.
    destruct (Z.eqb_spec (0 + (k + 1)) 0); [lia|].
    replace (0 + (k + 1) - 1) with k by lia. f_equal; lia.
  - subst m. replace (k * 2 ^ mb + 2 * 2 ^ mb) with (0 + (k + 2) * 2 ^ mb) by lia.
    rewrite Z.div_add, Z.mod_add by lia. rewrite Z.div_small, Z.mod_small by lia.
    destruct (Z.eqb_spec (0 + (k + 2)) 0); [lia|].
    replace (0 + (k + 2) - 1) with (k + 1) by lia. rewrite pow2_S by lia. lia.
Qed.

Lemma U_dec mb b : 0 < mb -> 0 <= b ->
  exists k m, b = k * 2 ^ mb + m /\ canon mb k m /\ m < 2 ^ (mb + 1).
Proof.
  intros Hmb Hb. pose proof (pow2_pos mb ltac:(lia)) as P.
  pose proof (Z.div_mod b (2 ^ mb) ltac:(lia)) as D.
  pose proof (Z.mod_pos_bound b (2 ^ mb) P) as M.
  pose proof (Z.div_pos b (2 ^ mb) Hb P) as DP.
  unfold canon. rewrite pow2_S by lia.
  destruct (Z.eq_dec (b / 2 ^ mb) 0) as [E|E].
  - exists 0, (b mod 2 ^ mb). rewrite E in D. lia.
  - exists (b / 2 ^ mb - 1), (b mod 2 ^ mb + 2 ^ mb). lia.
Qed.

Lemma U_succ mb k m : 0 < mb -> canon mb k m -> m < 2 ^ (mb + 1) ->
  fp_units mb (k * 2 ^ mb + m + 1) = (m + 1) * 2 ^ k.
Proof.
  intros Hmb (Hk & Hm & Hc) L. rewrite <- Z.add_assoc. apply U_enc; [exact Hmb|].
  unfold canon; lia.
Qed.

Lemma U_lt_succ mb b : 0 < mb -> 0 <= b -> fp_units mb b < fp_units mb (b + 1).
Proof.
  intros Hmb Hb. destruct (U_dec mb b Hmb Hb) as (k & m & E & C & L). rewrite E.
  rewrite U_succ, U_enc by assumption.
  pose proof (pow2_pos k ltac:(destruct C; lia)). nia.
Qed.

Lemma U_lt mb a b : 0 < mb -> 0 <= a < b -> fp_units mb a < fp_units mb b.
Proof.
  intros Hmb [Ha Hab].
  replace b with (a + 1 + (b - a - 1)) by lia.
  assert (H : 0 <= b - a - 1) by lia. revert H.
  generalize (b - a - 1). intros n Hn. pattern n. apply natlike_ind; [| |exact Hn].
  - rewrite Z.add_0_r. apply U_lt_succ; lia.
  - intros x Hx IH. replace (a + 1 + Z.succ x) with (a + 1 + x + 1) by lia.
    pose proof (U_lt_succ mb (a + 1 + x) Hmb ltac:(lia)). lia.
Qed.

Lemma U_le mb a b : 0 < mb -> 0 <= a <= b -> fp_units mb a <= fp_units mb b.
Proof.
  intros Hmb H. destruct (Z.eq_dec a b) as [->|N]; [lia|].
  pose proof (U_lt mb a b Hmb ltac:(lia)). lia.
Qed.

Lemma U_0 mb : 0 < mb -> fp_units mb 0 = 0.
Proof. intros H. unfold fp_units. rewrite Z.div_0_l, Z.mod_0_l; cbn; try reflexivity;
  pose proof (pow2_pos mb); lia. Qed.

Lemma U_nonneg mb b : 0 < mb -> 0 <= b -> 0 <= fp_units mb b.
Proof. intros H Hb. rewrite <- (U_0 mb H). apply U_le; lia. Qed.

(** Twice the midpoint above code [b]. *)
Definition mid2 (mb b : Z) : Z := fp_units mb b + fp_units mb (b + 1).

Lemma mid2_lt mb a b : 0 < mb -> 0 <= a < b -> mid2 mb a < mid2 mb b.
Proof.
  intros H L. unfold mid2. pose proof (U_lt mb a b H L).
  pose proof (U_lt mb (a + 1) (b + 1) H ltac:(lia)). lia.
Qed.
Lemma mid2_le mb a b : 0 < mb -> 0 <= a <= b -> mid2 mb a <= mid2 mb b.
Proof. intros H L. destruct (Z.eq_dec a b) as [->|N]; [lia|]. pose proof (mid2_lt mb a b H). lia. Qed.

(** ** Round to nearest, ties to even, without an upper bound on the exponent *)

Definition rneu (mb : Z) (y : Q) (b : Z) : Prop :=
  0 <= b /\
  ((2 * y < [mid2 mb b]q)%Q \/ ((2 * y == [mid2 mb b]q)%Q /\ Z.even b = true)) /\
  (0 < b -> ([mid2 mb (b - 1)]q < 2 * y)%Q \/
            ((2 * y == [mid2 mb (b - 1)]q)%Q /\ Z.even b = true)).

(** With infinity at code [inf]. *)
Definition rne (mb inf : Z) (y : Q) (b : Z) : Prop :=
  exists b', rneu mb y b' /\ b = Z.min b' inf.

Lemma rneu_comp mb y y' b : (y == y')%Q -> rneu mb y b -> rneu mb y' b.
Proof. intros E H. unfold rneu in *. rewrite <- E. exact H. Qed.
Lemma rne_comp mb inf y y' b : (y == y')%Q -> rne mb inf y b -> rne mb inf y' b.
Proof. intros E (b' & H & M). exists b'. split; [|exact M]. eapply rneu_comp; eassumption. Qed.

Lemma rneu_mono mb y1 y2 b1 b2 :
  0 < mb -> (y1 <= y2)%Q -> rneu mb y1 b1 -> rneu mb y2 b2 -> b1 <= b2.
Proof.
  intros Hmb L (P1 & _ & D1) (P2 & U2 & _).
  destruct (Z_le_gt_dec b1 b2) as [G|G]; [exact G|exfalso].
  specialize (D1 ltac:(lia)).
  assert (M : mid2 mb b2 <= mid2 mb (b1 - 1)) by (apply mid2_le; lia).
  apply q_le in M.
  assert (T : (2 * y1 == [mid2 mb (b1 - 1)]q)%Q /\ Z.even b1 = true /\
              (2 * y2 == [mid2 mb b2]q)%Q /\ Z.even b2 = true /\ ([mid2 mb b2]q == [mid2 mb (b1 - 1)]q)%Q).
  { destruct D1 as [D1|[D1 E1]]; destruct U2 as [U2|[U2 E2]]; try lra.
    repeat split; auto; lra. }
  destruct T as (_ & E1 & _ & E2 & E).
  apply q_eq in E.
  destruct (Z.eq_dec b2 (b1 - 1)) as [->|N].
  - rewrite Z.even_sub in E2. rewrite E1 in E2. discriminate.
  - pose proof (mid2_lt mb b2 (b1 - 1) Hmb ltac:(lia)). lia.
Qed.

Lemma rneu_unique mb y b1 b2 : 0 < mb -> rneu mb y b1 -> rneu mb y b2 -> b1 = b2.
Proof.
  intros Hmb H1 H2. apply Z.le_antisymm; eapply rneu_mono; try eassumption; apply Qle_refl.
Qed.

Lemma rne_mono mb inf y1 y2 b1 b2 :
  0 < mb -> (y1 <= y2)%Q -> rne mb inf y1 b1 -> rne mb inf y2 b2 -> b1 <= b2.
Proof.
  intros Hmb L (c1 & H1 & E1) (c2 & H2 & E2). pose proof (rneu_mono _ _ _ _ _ Hmb L H1 H2). lia.
Qed.

Lemma rne_unique mb inf y b1 b2 : 0 < mb -> rne mb inf y b1 -> rne mb inf y b2 -> b1 = b2.
Proof.
  intros Hmb (c1 & H1 & E1) (c2 & H2 & E2). pose proof (rneu_unique _ _ _ _ Hmb H1 H2). lia.
Qed.

Lemma rne_range mb inf y b : 0 <= inf -> rne mb inf y b -> 0 <= b <= inf.
Proof. intros Hi (c & (P & _) & E). lia. Qed.

(** Introduction: [m] is the integer nearest to y / 2^k (ties to even). *)
Lemma rneu_intro mb y k m :
  0 < mb -> canon mb k m ->
  ((2 * y < [(2 * m + 1) * 2 ^ k]q)%Q \/
   ((2 * y == [(2 * m + 1) * 2 ^ k]q)%Q /\ Z.even m = true)) ->
  (([(2 * m - 1) * 2 ^ k]q < 2 * y)%Q \/
   ((2 * y == [(2 * m - 1) * 2 ^ k]q)%Q /\ Z.even m = true)) ->
  (k = 0 \/ ([2 ^ mb * 2 ^ k]q <= y)%Q) ->
  rneu mb y (k * 2 ^ mb + m).
Proof.
  intros Hmb C Hup Hdn Hlow.
  pose proof C as (Hk & Hm & Hc).
  pose proof (pow2_pos mb ltac:(lia)) as P. pose proof (pow2_pos k Hk) as Pk.
  assert (EV : Z.even (k * 2 ^ mb + m) = Z.even m).
  { rewrite Z.even_add, Z.even_mul, Z.even_pow by lia. cbn. rewrite orb_true_r.
    destruct (Z.even m); reflexivity. }
  unfold rneu. rewrite EV. split; [nia|].
  split.
  - assert (UB : (2 * m + 1) * 2 ^ k <= mid2 mb (k * 2 ^ mb + m)).
    { unfold mid2. rewrite U_enc by assumption.
      destruct (Z.eq_dec m (2 ^ (mb + 1))) as [E|N].
      - assert (EE : k * 2 ^ mb + m + 1 = (k + 1) * 2 ^ mb + (2 ^ mb + 1)).
        { rewrite E, pow2_S by lia. lia. }
        rewrite EE, U_enc; [|lia|].
        + rewrite pow2_S by lia. rewrite E. rewrite pow2_S by lia. nia.
        + unfold canon. rewrite pow2_S by lia. lia.
      - rewrite U_succ; [lia|lia|assumption|lia]. }
    assert (UB2 : m < 2 ^ (mb + 1) -> (2 * m + 1) * 2 ^ k = mid2 mb (k * 2 ^ mb + m)).
    { intros L. unfold mid2. rewrite U_enc, U_succ by assumption. lia. }
    destruct Hup as [Hup|[Hup E]].
    + left. apply q_le in UB. lra.
    + destruct (Z_lt_ge_dec m (2 ^ (mb + 1))) as [L|G].
      * right. rewrite <- UB2 by exact L. split; assumption.
      * apply q_le in UB. destruct (Qlt_le_dec (2 * y) [mid2 mb (k * 2 ^ mb + m)]q) as [A|A];
        [left; exact A|right; split; [lra|exact E]].
  - intros Hb.
    destruct (Z_le_gt_dec m (2 ^ mb)) as [L|G]; [destruct (Z.eq_dec k 0) as [K0|K0]|].
    + subst k. assert (0 < m) by lia.
      assert (E : mid2 mb (0 * 2 ^ mb + m - 1) = (2 * m - 1) * 2 ^ 0).
      { unfold mid2. replace (0 * 2 ^ mb + m - 1 + 1) with (0 * 2 ^ mb + m) by lia.
        replace (0 * 2 ^ mb + m - 1) with (0 * 2 ^ mb + (m - 1)) by lia.
        rewrite !U_enc; unfold canon; try lia. }
      rewrite E. exact Hdn.
    + assert (m = 2 ^ mb) by lia.
      destruct Hlow as [Hlow|Hlow]; [lia|].
      left.
      assert (LT : mid2 mb (k * 2 ^ mb + m - 1) < 2 * (2 ^ mb * 2 ^ k)).
      { unfold mid2. replace (k * 2 ^ mb + m - 1 + 1) with (k * 2 ^ mb + m) by lia.
        pose proof (U_lt_succ mb (k * 2 ^ mb + m - 1) Hmb ltac:(lia)) as LS.
        replace (k * 2 ^ mb + m - 1 + 1) with (k * 2 ^ mb + m) in LS by lia.
        rewrite U_enc in * by assumption. subst m. lia. }
      apply q_lt in LT. rewrite inject_Z_mult in LT. change [2]q with 2%Q in LT. lra.
    + assert (E : mid2 mb (k * 2 ^ mb + m - 1) = (2 * m - 1) * 2 ^ k).
      { unfold mid2. replace (k * 2 ^ mb + m - 1 + 1) with (k * 2 ^ mb + m) by lia.
        replace (k * 2 ^ mb + m - 1) with (k * 2 ^ mb + (m - 1)) by lia.
        rewrite !U_enc; unfold canon; try lia. }
      rewrite E. exact Hdn.
Qed.

(** ** Existence *)

Lemma floor_code_spec mb q : 0 < mb -> 0 <= q ->
  0 <= fp_floor_code mb q /\
  fp_units mb (fp_floor_code mb q) <= q < fp_units mb (fp_floor_code mb q + 1).
Proof.
  intros Hmb Hq. unfold fp_floor_code. set (k := Z.max 0 (Z.log2 q - mb)).
  assert (Hk : 0 <= k) by lia. pose proof (pow2_pos k Hk) as Pk.
  pose proof (pow2_pos mb ltac:(lia)) as P.
  rewrite Z.shiftr_div_pow2 by lia.
  pose proof (Z.div_mod q (2 ^ k) ltac:(lia)) as D.
  pose proof (Z.mod_pos_bound q (2 ^ k) Pk) as M.
  assert (C : canon mb k (q / 2 ^ k) /\ q / 2 ^ k < 2 ^ (mb + 1)).
  { unfold canon. destruct (Z.eq_dec q 0) as [->|N].
    { rewrite Z.div_0_l by lia. assert (k = 0) by (unfold k; cbn; lia). rewrite pow2_S by lia. lia. }
    pose proof (Z.log2_spec q ltac:(lia)) as [L1 L2].
    destruct (Z_le_gt_dec (Z.log2 q) mb) as [L|G].
    - assert (k = 0) by (unfold k; lia). rewrite H in *. change (2 ^ 0) with 1 in *.
      rewrite Z.div_1_r in *.
      assert (2 ^ Z.succ (Z.log2 q) <= 2 ^ (mb + 1)) by (apply Z.pow_le_mono_r; lia). lia.
    - assert (E : k = Z.log2 q - mb) by (unfold k; lia).
      assert (E1 : 2 ^ Z.log2 q = 2 ^ k * 2 ^ mb) by (rewrite <- Z.pow_add_r by lia; f_equal; lia).
      assert (E2 : 2 ^ Z.succ (Z.log2 q) = 2 ^ k * 2 ^ (mb + 1)) by (rewrite <- Z.pow_add_r by lia; f_equal; lia).
      assert (2 ^ mb <= q / 2 ^ k) by (apply Z.div_le_lower_bound; lia).
      assert (q / 2 ^ k < 2 ^ (mb + 1)) by (apply Z.div_lt_upper_bound; lia). lia. }
  destruct C as [C L].
  rewrite U_succ, U_enc by assumption.
  pose proof (Z.div_pos q (2 ^ k) Hq Pk). split; [nia|]. lia.
Qed.

(** Rounding between two adjacent codes. *)
Lemma rneu_pick mb y b :
  0 < mb -> 0 <= b -> ([fp_units mb b]q <= y)%Q -> (y <= [fp_units mb (b + 1)]q)%Q ->
  (((2 * y < [mid2 mb b]q)%Q \/ ((2 * y == [mid2 mb b]q)%Q /\ Z.even b = true)) -> rneu mb y b) /\
  ((([mid2 mb b]q < 2 * y)%Q \/ ((2 * y == [mid2 mb b]q)%Q /\ Z.even b = false)) -> rneu mb y (b + 1)).
Proof.
  intros Hmb Hb L U. split; intros H.
  - split; [exact Hb|]. split; [exact H|]. intros Hp. left.
    assert (X : mid2 mb (b - 1) < 2 * fp_units mb b).
    { unfold mid2. replace (b - 1 + 1) with b by lia.
      pose proof (U_lt mb (b - 1) b Hmb ltac:(lia)). lia. }
    apply q_lt in X. rewrite inject_Z_mult in X. change [2]q with 2%Q in X. lra.
  - assert (E : Z.even (b + 1) = negb (Z.even b)) by (rewrite Z.even_add; destruct (Z.even b); reflexivity).
    split; [lia|]. split.
    + left. assert (X : 2 * fp_units mb (b + 1) < mid2 mb (b + 1)).
      { unfold mid2. pose proof (U_lt mb (b + 1) (b + 1 + 1) Hmb ltac:(lia)). lia. }
      apply q_lt in X. rewrite inject_Z_mult in X. change [2]q with 2%Q in X. lra.
    + intros _. replace (b + 1 - 1) with b by lia. rewrite E.
      destruct H as [H|[H1 H2]]; [left; exact H|right; split; [exact H1|rewrite H2; reflexivity]].
Qed.

Lemma Qfloor_bounds y : ([Qfloor y]q <= y)%Q /\ (y < [Qfloor y + 1]q)%Q.
Proof. split; [apply Qfloor_le|apply Qlt_floor]. Qed.

Lemma rneu_exists mb y : 0 < mb -> (0 <= y)%Q -> exists b, rneu mb y b.
Proof.
  intros Hmb Hy. destruct (Qfloor_bounds y) as [F1 F2].
  assert (H0 : 0 <= Qfloor y).
  { change 0 with (Qfloor 0). apply Qfloor_resp_le. exact Hy. }
  destruct (floor_code_spec mb _ Hmb H0) as (B0 & B1 & B2).
  set (b := fp_floor_code mb (Qfloor y)) in *.
  apply q_le in B1. assert (B3 : Qfloor y + 1 <= fp_units mb (b + 1)) by lia.
  apply q_le in B3.
  destruct (rneu_pick mb y b Hmb B0 ltac:(lra) ltac:(lra)) as [P1 P2].
  destruct (Qlt_le_dec (2 * y) [mid2 mb b]q) as [L|G]; [exists b; apply P1; left; exact L|].
  destruct (Qlt_le_dec [mid2 mb b]q (2 * y)) as [L|G']; [exists (b + 1); apply P2; left; exact L|].
  destruct (Z.even b) eqn:E; [exists b; apply P1|exists (b + 1); apply P2]; right; split; auto; lra.
Qed.

Lemma rne_exists mb inf y : 0 < mb -> (0 <= y)%Q -> exists b, rne mb inf y b.
Proof. intros H1 H2. destruct (rneu_exists mb y H1 H2) as [b Hb]. exists (Z.min b inf), b. auto. Qed.

(** Large values round to infinity. *)
Lemma rne_overflow mb inf y : 0 < mb -> 0 < inf -> Z.even inf = true ->
  ([mid2 mb (inf - 1)]q <= 2 * y)%Q -> rne mb inf y inf.
Proof.
  intros Hmb Hi He H.
  assert (Hy : (0 <= y)%Q).
  { assert (0 <= mid2 mb (inf - 1)).
    { unfold mid2. pose proof (U_nonneg mb (inf - 1) Hmb ltac:(lia)).
      pose proof (U_nonneg mb (inf - 1 + 1) Hmb ltac:(lia)). lia. }
    apply q_nonneg in H0. lra. }
  destruct (rneu_exists mb y Hmb Hy) as [b Hb]. exists b. split; [exact Hb|].
  destruct (Z_le_gt_dec inf b) as [L|G]; [lia|exfalso].
  destruct Hb as (B0 & B1 & _).
  assert (M : mid2 mb b <= mid2 mb (inf - 1)) by (apply mid2_le; lia).
  apply q_le in M.
  destruct B1 as [B1|[B1 B2]]; [lra|].
  assert (E : ([mid2 mb b]q == [mid2 mb (inf - 1)]q)%Q) by lra. apply q_eq in E.
  destruct (Z.eq_dec b (inf - 1)) as [->|N].
  - rewrite Z.even_sub, He in B2. discriminate.
  - pose proof (mid2_lt mb b (inf - 1) Hmb ltac:(lia)). lia.
Qed.

Lemma rne_zero mb inf y : 0 < mb -> 0 <= inf -> (0 <= y)%Q -> (2 * y <= 1)%Q -> rne mb inf y 0.
Proof.
  intros Hmb Hi H0 H1. exists 0. split; [|lia].
  split; [lia|]. split; [|lia].
  assert (E : mid2 mb 0 = 1).
  { unfold mid2. rewrite U_0 by exact Hmb. cbn [Z.add].
    replace 1 with (0 * 2 ^ mb + 1) at 1 by lia. rewrite U_enc; [reflexivity|lia|].
    unfold canon. rewrite pow2_S by lia. pose proof (pow2_pos mb). lia. }
  rewrite E. change [1]q with 1%Q.
  destruct (Qlt_le_dec (2 * y) 1) as [L|G]; [left; exact L|right; split; [lra|reflexivity]].
Qed.
