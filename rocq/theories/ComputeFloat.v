(** compute_float returns the correctly rounded value of w * 10^q. *)
From Verif Require Import Machine Config Chars Format FastTable DecToBin WordLemmas EiselTable
  EiselLemire Rounding.
From Coq Require Import QArith Qpower Lqa.
Open Scope Z_scope.

(** Code of infinity, value in units of the smallest subnormal, decimal value. *)
Definition inf_code (t : ftype) : Z := inf_power t * 2 ^ mant_bits t.
Definition units (t : ftype) (x : Q) : Q := (x * qpow 2 (mant_bits t - 1 - min_exp t))%Q.
Definition dec (w q : Z) : Q := ([w]q * qpow 10 q)%Q.

(** [b] is the code of the correctly rounded (nearest, ties to even) value of [x]. *)
Definition rounds (t : ftype) (x : Q) (b : Z) : Prop :=
  rne (mant_bits t) (inf_code t) (units t x) b.

(** The exception: a tie in the subnormal range of float16, rounded up. *)
Definition sub_tie (t : ftype) (x : Q) (b : Z) : Prop :=
  t = F16 /\ 1 <= b <= 2 ^ mant_bits t /\ (2 * units t x == [2 * b - 1]q)%Q.

Definition am_ok (t : ftype) (am : adjusted_mantissa) : Prop :=
  (0 <= am_mantissa am < 2 ^ mant_bits t /\ 0 <= am_power2 am <= inf_power t /\
   (am_power2 am = inf_power t -> am_mantissa am = 0)) \/
  (am_mantissa am = 2 ^ mant_bits t /\ am_power2 am = 1).

Definition am_code (t : ftype) (am : adjusted_mantissa) : Z :=
  Z.lor (am_mantissa am) (am_power2 am * 2 ^ mant_bits t).

Lemma mb_range t : 0 < mant_bits t <= 52.
Proof. destruct t; cbn; lia. Qed.
Lemma inf_code_pos t : 0 < inf_code t.
Proof. destruct t; reflexivity. Qed.
Lemma inf_code_even t : Z.even (inf_code t) = true.
Proof. destruct t; reflexivity. Qed.

Lemma am_code_norm t m p : 0 <= m < 2 ^ mant_bits t ->
  am_code t {| am_mantissa := m; am_power2 := p |} = p * 2 ^ mant_bits t + m.
Proof.
  intros H. unfold am_code. cbn [am_mantissa am_power2].
  rewrite lor_add_disjoint; [lia| pose proof (mb_range t); lia|exact H].
Qed.
Lemma am_code_top t : am_code t {| am_mantissa := 2 ^ mant_bits t; am_power2 := 1 |} = 2 ^ mant_bits t.
Proof. destruct t; reflexivity. Qed.

Lemma pow_max_q a e : 0 < a -> ([a ^ Z.max e 0]q == qpow a e * [a ^ Z.max (- e) 0]q)%Q.
Proof.
  intros Ha. rewrite <- !qpow_Z by lia. rewrite <- qpow_add by exact Ha.
  replace (e + Z.max (- e) 0) with (Z.max e 0) by lia. reflexivity.
Qed.

Lemma te_AB q : ([te_A q]q == qpow 5 q * qpow 2 (te_E q) * [te_B q]q)%Q.
Proof.
  unfold te_A, te_B. rewrite !inject_Z_mult, (pow_max_q 5 q), (pow_max_q 2 (te_E q)) by lia. ring.
Qed.

Lemma units_nonneg t x : (0 <= x)%Q -> (0 <= units t x)%Q.
Proof.
  intros H. unfold units. apply Qmult_le_0_compat; [exact H|].
  apply Qlt_le_weak, qpow_pos. lia.
Qed.
Lemma dec_nonneg w q : 0 <= w -> (0 <= dec w q)%Q.
Proof.
  intros H. unfold dec. apply Qmult_le_0_compat; [apply (proj1 (q_nonneg _)); exact H|].
  apply Qlt_le_weak, qpow_pos. lia.
Qed.

(** Tiny and huge exponents. *)
Lemma tiny_strict t w q : 0 <= w < 2 ^ 64 -> q < smallest_power_of_ten t ->
  (2 * units t (dec w q) < 1)%Q.
Proof.
  intros Hw Hq. pose proof (mb_range t). pose proof (inf_code_pos t).
  unfold units, dec.
  set (N := 1 - smallest_power_of_ten t).
  assert (A : (qpow 10 q <= qpow 10 (- N))%Q) by (apply qpow_le; unfold N; lia).
  assert (B : (2 * [w]q * qpow 2 (mant_bits t - 1 - min_exp t) < qpow 10 N)%Q).
  { rewrite !qpow_Z by (unfold N; destruct t; cbn; lia).
    change (2%Q) with [2]q. rewrite <- !inject_Z_mult. apply -> q_lt.
    apply Z.lt_le_trans with (2 * 2 ^ 64 * 2 ^ (mant_bits t - 1 - min_exp t)).
    - assert (0 < 2 ^ (mant_bits t - 1 - min_exp t)) by (apply Z.pow_pos_nonneg; destruct t; cbn; lia). nia.
    - unfold N. clear. destruct t; vm_compute; discriminate. }
  pose proof (qpow_opp 10 N ltac:(lia)) as C.
  pose proof (qpow_pos 10 q ltac:(lia)). pose proof (qpow_pos 10 N ltac:(lia)).
  pose proof (qpow_pos 2 (mant_bits t - 1 - min_exp t) ltac:(lia)).
  pose proof (qpow_pos 10 (- N) ltac:(lia)).
  assert (W : (0 <= [w]q)%Q) by (apply (proj1 (q_nonneg _)); lia).
  set (a := qpow 10 q) in *. set (b := qpow 10 N) in *. set (bi := qpow 10 (- N)) in *.
  set (e := qpow 2 (mant_bits t - 1 - min_exp t)) in *. set (x := [w]q) in *.
  clearbody a b bi e x.
  setoid_replace (2 * (x * a * e))%Q with (a * (2 * x * e))%Q by ring.
  apply Qlt_le_trans with (a * b)%Q; [apply Qmult_lt_l; assumption|].
  rewrite <- C. apply Qmult_le_r; assumption.
Qed.

Lemma tiny_rounds t w q : 0 <= w < 2 ^ 64 -> q < smallest_power_of_ten t ->
  rounds t (dec w q) 0.
Proof.
  intros Hw Hq. pose proof (mb_range t). pose proof (inf_code_pos t).
  apply rne_zero; [lia|lia|apply units_nonneg, dec_nonneg; lia|].
  apply Qlt_le_weak, tiny_strict; assumption.
Qed.

Lemma huge_rounds t w q : 1 <= w -> largest_power_of_ten t < q ->
  rounds t (dec w q) (inf_code t).
Proof.
  intros Hw Hq. pose proof (mb_range t). pose proof (inf_code_pos t).
  apply rne_overflow; [lia|lia|apply inf_code_even|].
  unfold units, dec.
  set (N := largest_power_of_ten t + 1).
  assert (A : (qpow 10 N <= qpow 10 q)%Q) by (apply qpow_le; unfold N; lia).
  assert (B : ([mid2 (mant_bits t) (inf_code t - 1)]q <= 2 * (qpow 10 N * qpow 2 (mant_bits t - 1 - min_exp t)))%Q).
  { rewrite !qpow_Z by (unfold N; destruct t; cbn; lia).
    change (2%Q) with [2]q. rewrite <- !inject_Z_mult. apply -> q_le.
    unfold N. clear. destruct t; vm_compute; discriminate. }
  pose proof (qpow_pos 10 q ltac:(lia)).
  pose proof (qpow_pos 2 (mant_bits t - 1 - min_exp t) ltac:(lia)).
  assert (W : (1 <= [w]q)%Q) by (apply (q_le 1 w); lia).
  eapply Qle_trans; [exact B|].
  set (a := qpow 10 q) in *. set (b := qpow 10 N) in *.
  set (e := qpow 2 (mant_bits t - 1 - min_exp t)) in *. set (x := [w]q) in *.
  clearbody a b e x.
  apply Qmult_le_l; [reflexivity|]. apply Qmult_le_r; [assumption|].
  apply Qle_trans with a; [exact A|]. setoid_replace a with (1 * a)%Q at 1 by ring.
  apply Qmult_le_r; assumption.
Qed.

(** The scaled exact product, between K and K+1. *)
Section Scaled.
Variables (t : ftype) (q w lz ub : Z).
Let mb := mant_bits t.
Let s := 61 - mb + ub + 128.
Let w' := w * 2 ^ lz.
Let p2 := te_pw q + ub - lz - min_exp t.
Let z : Q := ([w']q * qpow 5 q * qpow 2 (te_E q) * qpow 2 (- s))%Q.

Lemma scaled_units : 0 <= lz -> (2 * units t (dec w q) == z * qpow 2 (p2 - 1))%Q.
Proof.
  intros Hlz. unfold z, units, dec, w'. rewrite inject_Z_mult, <- qpow_Z by lia.
  rewrite qpow_10. change 2%Q with [2]q.
  rewrite <- (Z.pow_1_r 2) at 1. rewrite <- (qpow_Z 2 1) by lia.
  transitivity ([w]q * qpow 5 q * (qpow 2 1 * qpow 2 q * qpow 2 (mant_bits t - 1 - min_exp t)))%Q; [ring|].
  transitivity ([w]q * qpow 5 q * (qpow 2 lz * qpow 2 (te_E q) * qpow 2 (- s) * qpow 2 (p2 - 1)))%Q; [|ring].
  rewrite <- !qpow_add by lia. unfold te_E, p2, s, mb.
  match goal with |- (_ * qpow 2 ?a == _ * qpow 2 ?b)%Q => replace a with b by lia end.
  reflexivity.
Qed.

Lemma scaled_bounds K : 0 <= s ->
  K * 2 ^ s * te_B q <= w' * te_A q < (K + 1) * 2 ^ s * te_B q ->
  ([K]q <= z)%Q /\ (z < [K + 1]q)%Q.
Proof.
  intros Hs [L U]. apply q_le in L. apply q_lt in U.
  pose proof (te_B_pos q) as PB. apply q_pos in PB.
  rewrite !inject_Z_mult in L, U. rewrite te_AB in L, U. rewrite <- (qpow_Z 2 s) in L, U by lia.
  assert (P : (0 < qpow 2 s * [te_B q]q)%Q).
  { apply Qmult_lt_0_compat; [apply qpow_pos; lia|exact PB]. }
  pose proof (qpow_opp 2 s ltac:(lia)) as O.
  assert (Z : (z * (qpow 2 s * [te_B q]q) == [w']q * (qpow 5 q * qpow 2 (te_E q) * [te_B q]q))%Q).
  { unfold z. transitivity ([w']q * qpow 5 q * qpow 2 (te_E q) * [te_B q]q * (qpow 2 (- s) * qpow 2 s))%Q; [ring|].
    rewrite O. ring. }
  split.
  - apply Qmult_le_r with (qpow 2 s * [te_B q]q)%Q; [exact P|]. rewrite Z, (Qmult_assoc [K]q). exact L.
  - apply Qmult_lt_r with (qpow 2 s * [te_B q]q)%Q; [exact P|]. rewrite Z, (Qmult_assoc [K + 1]q). exact U.
Qed.

Lemma scaled_tie K : 0 <= s -> (w' * te_A q = K * 2 ^ s * te_B q <-> (z == [K]q)%Q).
Proof.
  intros Hs.
  pose proof (te_B_pos q) as PB. apply q_pos in PB.
  assert (P : (0 < qpow 2 s * [te_B q]q)%Q).
  { apply Qmult_lt_0_compat; [apply qpow_pos; lia|exact PB]. }
  pose proof (qpow_opp 2 s ltac:(lia)) as O.
  assert (Z : (z * (qpow 2 s * [te_B q]q) == [w']q * (qpow 5 q * qpow 2 (te_E q) * [te_B q]q))%Q).
  { unfold z. transitivity ([w']q * qpow 5 q * qpow 2 (te_E q) * [te_B q]q * (qpow 2 (- s) * qpow 2 s))%Q; [ring|].
    rewrite O. ring. }
  rewrite q_eq, !inject_Z_mult, te_AB, <- (qpow_Z 2 s) by lia. rewrite <- Z.
  rewrite <- Qmult_assoc. split.
  - intros H. apply Qmult_inj_r in H; [exact H|]. intros E. rewrite E in P. inversion P.
  - intros H. rewrite H. reflexivity.
Qed.
End Scaled.

(** Rounding in the normal range. *)
Lemma round_normal mb y (z : Q) k K m :
  0 < mb -> 0 <= k -> (2 * y == z * [2 ^ k]q)%Q ->
  2 ^ (mb + 1) <= K < 2 ^ (mb + 2) -> ([K]q <= z)%Q -> (z < [K + 1]q)%Q ->
  (K = 2 * m \/ (K = 2 * m - 1 /\ (~ (z == [K]q)%Q \/ K mod 4 = 3)) \/
   (K = 2 * m + 1 /\ K mod 4 = 1 /\ (z == [K]q)%Q)) ->
  rneu mb y (k * 2 ^ mb + m) /\ 2 ^ mb <= m <= 2 ^ (mb + 1).
Proof.
  intros Hmb Hk Hy HK L U H.
  replace (mb + 2) with (mb + 1 + 1) in HK by lia. rewrite !pow2_S in HK by lia.
  pose proof (pow2_pos mb ltac:(lia)) as P.
  pose proof (pow2_pos k Hk) as Pk. pose proof Pk as Pk'. apply q_pos in Pk'.
  assert (M : 2 ^ mb <= m <= 2 ^ (mb + 1)) by (rewrite pow2_S by lia; lia).
  split; [|exact M].
  assert (EV : K mod 4 = 3 /\ K = 2 * m - 1 \/ K mod 4 = 1 /\ K = 2 * m + 1 -> Z.even m = true).
  { intros X. apply Z.even_spec. exists (m / 2).
    pose proof (Z.div_mod K 4 ltac:(lia)). pose proof (Z.div_mod m 2 ltac:(lia)).
    pose proof (Z.mod_pos_bound m 2 ltac:(lia)). lia. }
  apply rneu_intro; [exact Hmb|unfold canon; lia| | |].
  - rewrite inject_Z_mult, Hy.
    assert (X : (z < [2 * m + 1]q)%Q \/ (z == [2 * m + 1]q)%Q /\ Z.even m = true).
    { destruct H as [H|[[H _]|(H & H4 & HT)]].
      - left. rewrite <- H. exact U.
      - left. apply Qlt_le_trans with [K + 1]q; [exact U|]. apply -> q_le. lia.
      - right. split; [rewrite <- H; exact HT|]. apply EV; right; auto. }
    destruct X as [X|[X E]]; [left; apply Qmult_lt_r; assumption|right; split; [rewrite X; reflexivity|exact E]].
  - rewrite inject_Z_mult, Hy.
    assert (X : ([2 * m - 1]q < z)%Q \/ (z == [2 * m - 1]q)%Q /\ Z.even m = true).
    { destruct H as [H|[[H HH]|(H & H4 & HT)]].
      - left. apply Qlt_le_trans with [K]q; [apply -> q_lt; lia|exact L].
      - destruct (Qlt_le_dec [K]q z) as [A|A]; [left; rewrite <- H; exact A|].
        right. assert (ZE : (z == [K]q)%Q) by lra. split; [rewrite <- H; exact ZE|].
        destruct HH as [HH|HH]; [contradiction|]. apply EV; left; auto.
      - left. apply Qlt_le_trans with [K]q; [apply -> q_lt; lia|exact L]. }
    destruct X as [X|[X E]]; [left; apply Qmult_lt_r; assumption|right; split; [rewrite X; reflexivity|exact E]].
  - right. rewrite inject_Z_mult.
    assert (G : ([2 * 2 ^ mb]q <= z)%Q) by (apply Qle_trans with [K]q; [apply -> q_le; lia|exact L]).
    rewrite inject_Z_mult in G. change [2]q with 2%Q in G.
    apply Qmult_le_l with 2%Q; [reflexivity|]. rewrite Hy, Qmult_assoc.
    apply Qmult_le_r; assumption.
Qed.

(** Rounding in the subnormal range (half up; [notie] excludes ties). *)
Lemma round_subnormal mb y M :
  0 < mb -> 0 <= M <= 2 ^ (mb + 1) -> ([M]q <= 2 * y)%Q -> (2 * y < [M + 1]q)%Q ->
  let m := (M + M mod 2) / 2 in
  (M mod 2 = 0 \/ ~ (2 * y == [M]q)%Q -> rneu mb y m) /\ 0 <= m <= 2 ^ mb /\
  (M mod 2 = 1 -> M = 2 * m - 1).
Proof.
  intros Hmb HM L U m. rewrite pow2_S in HM by lia. pose proof (pow2_pos mb ltac:(lia)) as P.
  assert (C : (M mod 2 = 0 /\ M = 2 * m) \/ (M mod 2 = 1 /\ M = 2 * m - 1)).
  { unfold m. pose proof (Z.div_mod M 2 ltac:(lia)). pose proof (Z.mod_pos_bound M 2 ltac:(lia)).
    pose proof (Z.div_mod (M + M mod 2) 2 ltac:(lia)). pose proof (Z.mod_pos_bound (M + M mod 2) 2 ltac:(lia)). lia. }
  clearbody m. split; [|lia].
  intros H. replace m with (0 * 2 ^ mb + m) by lia.
  apply rneu_intro; [exact Hmb|unfold canon; rewrite pow2_S by lia; lia| | |left; reflexivity];
  change (2 ^ 0) with 1; rewrite Z.mul_1_r.
  - left. eapply Qlt_le_trans; [exact U|]. apply -> q_le. lia.
  - left. destruct C as [[C1 C2]|[C1 C2]].
    + eapply Qlt_le_trans; [|exact L]. apply -> q_lt. lia.
    + destruct H as [H|H]; [lia|]. rewrite <- C2.
      destruct (Qlt_le_dec [M]q (2 * y)) as [A|A]; [exact A|]. exfalso. apply H. lra.
Qed.

Lemma odd_divides_pow2 (a b n : Z) : Z.odd a = true -> 0 <= n -> (a | b * 2 ^ n) -> (a | b).
Proof.
  intros Ho Hn D. rewrite Z.mul_comm in D. eapply Znumtheory.Gauss; [exact D|].
  apply odd_rel_prime; assumption.
Qed.

(** No subnormal ties for double, float and bfloat16. *)
Lemma no_subnormal_tie t w q M : t <> F16 -> 0 < w < 2 ^ 64 -> Z.odd M = true ->
  ~ (2 * units t (dec w q) == [M]q)%Q.
Proof.
  intros Ht Hw HM E.
  set (g := mant_bits t - min_exp t).
  assert (Hg : 134 <= g) by (unfold g; destruct t; cbn; try lia; congruence).
  assert (E2 : ([w]q * qpow 10 q * qpow 2 g == [M]q)%Q).
  { rewrite <- E. unfold units, dec. replace g with (1 + (mant_bits t - 1 - min_exp t)) by (unfold g; lia).
    rewrite qpow_add by lia. rewrite (qpow_Z 2 1) by lia. change [2 ^ 1]q with 2%Q. ring. }
  destruct (Z_le_gt_dec 0 q) as [Q|Q].
  - rewrite !qpow_Z, <- !inject_Z_mult in E2 by lia. apply q_eq in E2.
    rewrite <- E2, Z.odd_mul in HM. apply andb_prop in HM. destruct HM as [_ HM].
    rewrite <- Z.negb_even, Z.even_pow in HM by lia. discriminate.
  - set (n := - q) in *. assert (Hn : 0 < n) by (unfold n; lia).
    assert (E3 : (([w]q * qpow 2 g) == [M]q * qpow 10 n)%Q).
    { rewrite <- E2. pose proof (qpow_opp 10 n ltac:(lia)) as O.
      replace q with (- n) by (unfold n; lia).
      transitivity ([w]q * qpow 2 g * (qpow 10 (- n) * qpow 10 n))%Q; [rewrite O; ring|ring]. }
    rewrite !qpow_Z, <- !inject_Z_mult in E3 by lia. apply q_eq in E3.
    change 10 with (5 * 2) in E3. rewrite Z.pow_mul_l in E3.
    assert (D : (5 ^ n | w * 2 ^ g)) by (exists (M * 2 ^ n); rewrite E3; ring).
    assert (O5 : Z.odd (5 ^ n) = true) by (apply odd_pow5; lia).
    pose proof (odd_divides_pow2 _ w g O5 ltac:(lia) D) as D'. clear D. rename D' into D.
    apply Z.divide_pos_le in D; [|lia].
    assert (n <= 27).
    { destruct (Z_le_gt_dec n 27) as [G|G]; [exact G|exfalso].
      assert (5 ^ 28 <= 5 ^ n) by (apply Z.pow_le_mono_r; lia).
      assert (2 ^ 64 < 5 ^ 28) by reflexivity. lia. }
    replace g with ((g - n - 1) + 1 + n) in E3 by lia.
    rewrite (Z.pow_add_r 2 (g - n - 1 + 1)), (Z.pow_add_r 2 (g - n - 1)) in E3 by lia.
    assert (E4 : M * 5 ^ n = 2 * (w * 2 ^ (g - n - 1))).
    { apply Z.mul_reg_r with (2 ^ n); [pose proof (Z.pow_pos_nonneg 2 n); lia|]. lia. }
    assert (X : Z.odd (M * 5 ^ n) = true) by (rewrite Z.odd_mul, HM, odd_pow5 by lia; reflexivity).
    rewrite E4, Z.odd_mul in X. discriminate.
Qed.

(** The evaluation of compute_float past the early exits. *)
Lemma te_pw_power q : -342 <= q <= 308 -> power (to_signed 32 q) = Ok (te_pw q) /\ -1200 <= te_pw q <= 1200.
Proof.
  intros H. rewrite (to_signed_small 32) by (change (2 ^ (32 - 1)) with 2147483648; lia).
  unfold power, te_pw. change (152170 + 65536) with 217706.
  rewrite chk32_Ok by lia. rewrite bind_Ok.
  rewrite Z.shiftr_div_pow2 by lia. change (2 ^ 16) with 65536.
  pose proof (Z.div_mod (217706 * q) 65536 ltac:(lia)).
  pose proof (Z.mod_pos_bound (217706 * q) 65536 ltac:(lia)).
  split; [apply chk32_Ok|]; lia.
Qed.

Lemma pow10_range t : -342 <= smallest_power_of_ten t /\ largest_power_of_ten t <= 308.
Proof. destruct t; cbn; lia. Qed.

Lemma land_m2 m : 0 <= m < 2 ^ 64 -> m mod 4 = 1 -> Z.land m (2 ^ 64 - 1 - 1) = m - 1.
Proof.
  intros Hm H4.
  pose proof (Z.div_mod m 2 ltac:(lia)) as D. pose proof (Z.div_mod m 4 ltac:(lia)) as D4.
  assert (M : m mod 2 = 1). { pose proof (Z.mod_pos_bound m 2 ltac:(lia)). lia. }
  rewrite M in D.
  replace m with (1 + (m / 2) * 2 ^ 1) at 1 by lia.
  replace (2 ^ 64 - 1 - 1) with (0 + (2 ^ 63 - 1) * 2 ^ 1) by lia.
  rewrite land_split by lia. rewrite land_ones_mod by lia.
  rewrite Z.mod_small; [cbn; lia|]. split; [apply Z.div_pos; lia|apply Z.div_lt_upper_bound; lia].
Qed.

Lemma round_even_bits t q : 
  (0 <= q -> 5 ^ q < 2 ^ (mant_bits t + 2) -> q <= max_exponent_round_to_even t) /\
  (q < 0 -> 5 ^ (- q) < 2 ^ (63 - mant_bits t) -> min_exponent_round_to_even t <= q) /\
  -24 <= min_exponent_round_to_even t <= 0 /\ 0 <= max_exponent_round_to_even t <= 23.
Proof.
  split; [|split; [|destruct t; cbn; lia]].
  - intros H0 H. destruct (Z_le_gt_dec q (max_exponent_round_to_even t)) as [L|G]; [exact L|exfalso].
    assert (5 ^ (max_exponent_round_to_even t + 1) <= 5 ^ q) by (apply Z.pow_le_mono_r; lia).
    assert (2 ^ (mant_bits t + 2) <= 5 ^ (max_exponent_round_to_even t + 1)) by (destruct t; vm_compute; discriminate).
    lia.
  - intros H0 H. destruct (Z_le_gt_dec (min_exponent_round_to_even t) q) as [L|G]; [exact L|exfalso].
    assert (5 ^ (1 - min_exponent_round_to_even t) <= 5 ^ (- q)) by (apply Z.pow_le_mono_r; lia).
    assert (2 ^ (63 - mant_bits t) <= 5 ^ (1 - min_exponent_round_to_even t)) by (destruct t; vm_compute; discriminate).
    lia.
Qed.

Lemma ftype_F16_dec (t : ftype) : {t = F16} + {t <> F16}.
Proof. destruct t; (left; reflexivity) || (right; discriminate). Qed.

Lemma half_cases K m0 (tie : Prop) : 0 <= K ->
  (K mod 4 = 1 /\ tie /\ m0 = K - 1) \/ (m0 = K /\ (K mod 4 = 1 -> ~ tie)) ->
  let m := (m0 + m0 mod 2) / 2 in
  K = 2 * m \/ (K = 2 * m - 1 /\ (~ tie \/ K mod 4 = 3)) \/ (K = 2 * m + 1 /\ K mod 4 = 1 /\ tie).
Proof.
  intros HK M0 m.
  pose proof (Z.mod_pos_bound m0 2 ltac:(lia)) as M02.
  pose proof (Z.div_mod m0 2 ltac:(lia)) as D02.
  pose proof (Z.div_mod K 4 ltac:(lia)) as DK4.
  pose proof (Z.mod_pos_bound K 4 ltac:(lia)) as MK4.
  assert (DM : 2 * m = m0 + m0 mod 2).
  { unfold m. pose proof (Z.div_mod (m0 + m0 mod 2) 2 ltac:(lia)).
    pose proof (Z.mod_pos_bound (m0 + m0 mod 2) 2 ltac:(lia)). lia. }
  clearbody m.
  destruct M0 as [(K4 & ZE & E0)|[E0 NT]].
  - right; right. split; [lia|]. auto.
  - destruct (Z.eq_dec (m0 mod 2) 0) as [E2|E2]; [left; lia|right; left].
    split; [lia|]. assert (C4 : K mod 4 = 1 \/ K mod 4 = 3) by lia.
    destruct C4; [left; auto|right; auto].
Qed.

Lemma normal_pack t p2 m0 : 0 <= m0 < 2 ^ 54 ->
  2 ^ mant_bits t <= (m0 + m0 mod 2) / 2 <= 2 ^ (mant_bits t + 1) -> 1 <= p2 ->
  exists am,
    (let m := u64 (m0 + m0 mod 2) in
     let m := Z.shiftr m 1 in
     let* two := shl 64 2 (mant_bits t) in
     let* one := shl 64 1 (mant_bits t) in
     let '(m, p2) := if two <=? m then (one, p2 + 1) else (m, p2) in
     let m := Z.land m (2 ^ 64 - 1 - one) in
     if inf_power t <=? p2 then Ok {| am_mantissa := 0; am_power2 := inf_power t |}
     else Ok {| am_mantissa := m; am_power2 := p2 |}) = Ok am /\ am_ok t am /\
    am_code t am = Z.min ((p2 - 1) * 2 ^ mant_bits t + (m0 + m0 mod 2) / 2) (inf_code t).
Proof.
  intros M0R RM Hp. cbv zeta. pose proof (mb_range t) as Hmb.
  pose proof (pow2_pos (mant_bits t) ltac:(lia)) as Pmb.
  pose proof (Z.mod_pos_bound m0 2 ltac:(lia)) as M02.
  rewrite u64_small by lia. rewrite Z.shiftr_div_pow2 by lia. change (2 ^ 1) with 2.
  set (m := (m0 + m0 mod 2) / 2) in *. clearbody m. clear M0R M02 m0.
  rewrite pow2_S in RM by lia.
  assert (P52 : 2 ^ mant_bits t <= 2 ^ 52) by (apply Z.pow_le_mono_r; lia).
  rewrite !shl_small by lia. rewrite !bind_Ok. rewrite Z.mul_1_l.
  assert (IP : 1 <= inf_power t) by (destruct t; cbn; lia).
  destruct (Z.leb_spec (2 * 2 ^ mant_bits t) m) as [OV|NO].
  + replace (Z.land (2 ^ mant_bits t) (2 ^ 64 - 1 - 2 ^ mant_bits t)) with 0.
    2:{ symmetry. replace (2 ^ mant_bits t) with (0 + 1 * 2 ^ mant_bits t) at 1 by lia.
        apply land_clear_bit; lia. }
    destruct (Z.leb_spec (inf_power t) (p2 + 1)) as [I|I].
    * eexists. split; [reflexivity|]. split; [left; cbn [am_mantissa am_power2]; lia|].
      pose proof (Z.mul_le_mono_nonneg_r (inf_power t) (p2 + 1) (2 ^ mant_bits t) ltac:(lia) I) as MM.
      rewrite am_code_norm by lia. rewrite Z.min_r by (unfold inf_code; lia).
      unfold inf_code. lia.
    * eexists. split; [reflexivity|]. split; [left; cbn [am_mantissa am_power2]; lia|].
      pose proof (Z.mul_le_mono_nonneg_r (p2 + 1) (inf_power t) (2 ^ mant_bits t) ltac:(lia) ltac:(lia)) as MM.
      rewrite am_code_norm by lia. rewrite Z.min_l by (unfold inf_code; lia).
      lia.
  + replace (Z.land m (2 ^ 64 - 1 - 2 ^ mant_bits t)) with (m - 2 ^ mant_bits t).
    2:{ symmetry. replace m with ((m - 2 ^ mant_bits t) + 1 * 2 ^ mant_bits t) at 1 by lia.
        apply land_clear_bit; lia. }
    destruct (Z.leb_spec (inf_power t) p2) as [I|I].
    * eexists. split; [reflexivity|]. split; [left; cbn [am_mantissa am_power2]; lia|].
      pose proof (Z.mul_le_mono_nonneg_r (inf_power t) p2 (2 ^ mant_bits t) ltac:(lia) I) as MM.
      rewrite am_code_norm by lia. rewrite Z.min_r by (unfold inf_code; lia).
      unfold inf_code. lia.
    * eexists. split; [reflexivity|]. split; [left; cbn [am_mantissa am_power2]; lia|].
      pose proof (Z.mul_le_mono_nonneg_r (p2 + 1) (inf_power t) (2 ^ mant_bits t) ltac:(lia) ltac:(lia)) as MM.
      rewrite am_code_norm by lia. rewrite Z.min_l by (unfold inf_code; lia).
      lia.
Qed.

(** Exactly what the approximation algorithm does: a tie in the subnormal range
    of float16 goes up, everything else to nearest even. *)
Definition cf_rounds (t : ftype) (x : Q) (b : Z) : Prop :=
  sub_tie t x b \/ ((forall b', ~ sub_tie t x b') /\ rounds t x b).

Lemma no_sub_small t x : (2 * units t x < 1)%Q -> forall b, ~ sub_tie t x b.
Proof.
  intros H b (_ & HB & HT). assert (Q1 : ([1]q <= [2 * b - 1]q)%Q) by (apply -> q_le; lia).
  change [1]q with 1%Q in Q1. lra.
Qed.
Lemma no_sub_big t x : ([2 ^ (mant_bits t + 1)]q <= 2 * units t x)%Q -> forall b, ~ sub_tie t x b.
Proof.
  intros H b (_ & HB & HT).
  assert (Q1 : ([2 * b - 1]q < [2 ^ (mant_bits t + 1)]q)%Q).
  { apply -> q_lt. rewrite pow2_S by (pose proof (mb_range t); lia). lia. }
  lra.
Qed.
Lemma sub_tie_unique t x b1 b2 : sub_tie t x b1 -> sub_tie t x b2 -> b1 = b2.
Proof.
  intros (_ & _ & H1) (_ & _ & H2). rewrite H1 in H2. apply q_eq in H2. lia.
Qed.

Lemma inf_units_1 t : ([2 ^ (mant_bits t + 1)]q <= 2 * units t (dec 1 (largest_power_of_ten t + 1)))%Q.
Proof.
  unfold units, dec. rewrite !qpow_Z by (destruct t; cbn; lia). change 2%Q with [2]q. rewrite <- !inject_Z_mult. apply -> q_le.
  destruct t; vm_compute; discriminate.
Qed.

Theorem compute_float_exact c t q w : 0 <= w < 2 ^ 64 ->
  exists am, compute_float c t q w = Ok am /\ am_ok t am /\ cf_rounds t (dec w q) (am_code t am) /\
    ((2 * units t (dec w q) < [2 ^ (mant_bits t + 1)]q)%Q -> am_mantissa am = am_code t am).
Proof.
  intros Hw. unfold compute_float.
  pose proof (mb_range t) as Hmb. pose proof (pow10_range t) as Hpr.
  destruct (Z.eqb_spec w 0) as [W0|W0].
  { cbn [orb]. eexists. split; [reflexivity|]. split; [left; cbn; destruct t; cbn; lia|].
    split; [|intros _; rewrite am_code_norm by (pose proof (pow2_pos (mant_bits t)); lia); reflexivity].
    right. subst w. split.
    { apply no_sub_small. unfold units, dec. change [0]q with 0%Q. ring_simplify. reflexivity. }
    rewrite am_code_norm by (pose proof (pow2_pos (mant_bits t)); lia).
    apply rne_zero; [lia|pose proof (inf_code_pos t); lia| |].
    - apply units_nonneg, dec_nonneg. lia.
    - unfold units, dec. change [0]q with 0%Q. lra. }
  destruct (Z.ltb_spec q (smallest_power_of_ten t)) as [Qs|Qs].
  { cbn [orb]. eexists. split; [reflexivity|]. split; [left; cbn; destruct t; cbn; lia|].
    split; [|intros _; rewrite am_code_norm by (pose proof (pow2_pos (mant_bits t)); lia); reflexivity].
    right. split; [apply no_sub_small, tiny_strict; assumption|].
    rewrite am_code_norm by (pose proof (pow2_pos (mant_bits t)); lia).
    rewrite Z.mul_0_l. apply tiny_rounds; assumption. }
  cbn [orb].
  destruct (Z.ltb_spec (largest_power_of_ten t) q) as [Ql|Ql].
  { eexists. split; [reflexivity|]. split; [left; cbn; destruct t; cbn; lia|].
    assert (BIGU : ([2 ^ (mant_bits t + 1)]q <= 2 * units t (dec w q))%Q).
    { eapply Qle_trans; [apply inf_units_1|].
      apply Qmult_le_l; [reflexivity|]. unfold units. apply Qmult_le_compat_r; [|apply Qlt_le_weak, qpow_pos; lia].
      unfold dec. apply Qmult_le_compat_nonneg; split; try discriminate.
      - apply -> q_le. lia.
      - apply Qlt_le_weak, qpow_pos; lia.
      - apply qpow_le; lia. }
    split; [|intros SM; exfalso; apply Qlt_not_le in SM; exact (SM BIGU)].
    right. split; [apply no_sub_big; exact BIGU|].
    rewrite am_code_norm by (pose proof (pow2_pos (mant_bits t)); lia).
    rewrite Z.add_0_r. apply huge_rounds; lia. }
  assert (Hq : -342 <= q <= 308) by lia.
  rewrite leading_zeroes_spec, bind_Ok by lia.
  pose proof (lz_normalise w ltac:(lia)) as [Hlz Hw']. set (lz := 63 - Z.log2 w) in *.
  rewrite shl_small, bind_Ok by lia.
  destruct (table_entry q Hq) as (Th & Tl & N1 & N2 & HE).
  pose proof (eo_Th _ _ _ HE) as BTh. pose proof (eo_Tl _ _ _ HE) as BTl.
  destruct (cpa_spec c (mant_bits t) q (w * 2 ^ lz) Th Tl Hmb Hq ltac:(lia) ltac:(lia) BTl N1 N2)
    as (lo & hi & EC & Hlo & Hhi & HP).
  rewrite EC, bind_Ok.
  pose proof (core_hi _ _ _ _ _ _ _ Hmb Hq Hw' HE Hlo Hhi HP) as Hhi62.
  pose proof (core_ub _ _ _ _ _ _ _ Hmb Hq Hw' HE Hlo Hhi HP) as Hub.
  pose proof (core_K _ _ _ _ _ _ _ Hmb Hq Hw' HE Hlo Hhi HP) as HK.
  pose proof (core_hiK _ _ _ _ _ _ _ Hmb Hq Hw' HE Hlo Hhi HP) as HhK.
  pose proof (core_bounds _ _ _ _ _ _ _ Hmb Hq Hw' HE Hlo Hhi HP) as HB.
  cbv zeta in *.
  rewrite (Z.shiftr_div_pow2 hi 63) by lia.
  set (ub := hi / 2 ^ 63) in *.
  replace (ub + 64 - mant_bits t - 3) with (61 - mant_bits t + ub) by lia.
  rewrite shr_Ok, bind_Ok by lia.
  set (K := hi / 2 ^ (61 - mant_bits t + ub)) in *.
  destruct (te_pw_power q Hq) as [EP Bpw]. rewrite EP, bind_Ok.
  assert (Bme : -1100 <= min_exp t <= 0) by (destruct t; cbn; lia).
  rewrite chk32_Ok, bind_Ok by lia.
  set (p2 := te_pw q + ub - lz - min_exp t).
  assert (Hs : 0 <= 61 - mant_bits t + ub + 128) by lia.
  pose proof (scaled_bounds t q w lz ub K Hs HB) as [ZL ZU].
  pose proof (scaled_units t q w lz ub (proj1 Hlz)) as ZY.
  pose proof (scaled_tie t q w lz ub K Hs) as ZT. cbv zeta in ZL, ZU, ZY, ZT.
  fold p2 in ZY.
  set (z := ([w * 2 ^ lz]q * qpow 5 q * qpow 2 (te_E q) * qpow 2 (- (61 - mant_bits t + ub + 128)))%Q) in *.
  set (y := units t (dec w q)) in *.
  pose proof (pow2_pos (mant_bits t) ltac:(lia)) as Pmb.
  assert (HK64 : K < 2 ^ 54).
  { assert (2 ^ (mant_bits t + 2) <= 2 ^ 54) by (apply Z.pow_le_mono_r; lia). lia. }
  assert (HK0 : 0 < K) by (pose proof (pow2_pos (mant_bits t + 1)); lia).
  destruct (Z.leb_spec p2 0) as [S|S].
  - (* subnormal *)
    destruct (Z.leb_spec 64 (- p2 + 1)) as [Far|Near].
    + eexists. split; [reflexivity|]. split; [left; cbn; destruct t; cbn; lia|].
      assert (FAR : (2 * y <= qpow 2 (-1))%Q).
      { rewrite ZY.
        apply Qle_trans with (z * qpow 2 (-64))%Q.
        { rewrite !(Qmult_comm z). apply Qmult_le_compat_r; [apply qpow_le; lia|].
          apply q_pos in HK0. lra. }
        apply Qle_trans with ([2 ^ 54]q * qpow 2 (-64))%Q.
        { apply Qmult_le_compat_r; [|apply Qlt_le_weak, qpow_pos; lia].
          apply Qlt_le_weak. eapply Qlt_le_trans; [exact ZU|]. apply -> q_le. lia. }
        rewrite <- qpow_Z, <- qpow_add by lia.
        apply qpow_le; lia. }
      assert (FAR1 : (2 * y < 1)%Q).
      { eapply Qle_lt_trans; [exact FAR|]. Transparent qpow. reflexivity. Opaque qpow. }
      split; [|intros _; rewrite am_code_norm by lia; reflexivity].
      right. split; [apply no_sub_small; exact FAR1|].
      rewrite am_code_norm by lia.
      apply rne_zero; [lia|pose proof (inf_code_pos t); lia| |].
      * apply units_nonneg, dec_nonneg; lia.
      * apply Qlt_le_weak. exact FAR1.
    + rewrite shr_Ok, bind_Ok by lia.
      set (n := - p2 + 1) in *. set (M := K / 2 ^ n).
      pose proof (pow2_pos n ltac:(lia)) as Pn. pose proof Pn as Pnq. apply q_pos in Pnq.
      assert (HY : (2 * y * [2 ^ n]q == z)%Q).
      { rewrite ZY, <- qpow_Z by lia. rewrite <- Qmult_assoc, <- qpow_add by lia.
        replace (p2 - 1 + n) with 0 by (unfold n; lia). rewrite qpow_0. ring. }
      pose proof (Z.div_mod K (2 ^ n) ltac:(lia)) as DM. fold M in DM.
      pose proof (Z.mod_pos_bound K (2 ^ n) Pn) as MB.
      assert (ML : ([M]q <= 2 * y)%Q).
      { apply Qmult_le_r with [2 ^ n]q; [exact Pnq|]. rewrite HY, <- inject_Z_mult.
        eapply Qle_trans; [|exact ZL]. apply -> q_le. lia. }
      assert (MU : (2 * y < [M + 1]q)%Q).
      { apply Qmult_lt_r with [2 ^ n]q; [exact Pnq|]. rewrite HY, <- inject_Z_mult.
        eapply Qlt_le_trans; [exact ZU|]. apply -> q_le. lia. }
      assert (MR : 0 <= M <= 2 ^ (mant_bits t + 1)).
      { split; [apply Z.div_pos; lia|].
        apply Z.lt_le_incl, Z.div_lt_upper_bound; [lia|].
        assert (2 ^ 1 <= 2 ^ n) by (apply Z.pow_le_mono_r; unfold n; lia).
        replace (mant_bits t + 2) with (mant_bits t + 1 + 1) in HK by lia.
        rewrite !pow2_S in * by lia. nia. }
      destruct (round_subnormal (mant_bits t) y M ltac:(lia) MR ML MU) as (R1 & R2 & R3).
      rewrite land1_mod.
      assert (2 ^ (mant_bits t + 1) <= 2 ^ 53) by (apply Z.pow_le_mono_r; lia).
      pose proof (Z.mod_pos_bound M 2 ltac:(lia)) as M2.
      rewrite u64_small by lia. rewrite (Z.shiftr_div_pow2 (M + M mod 2) 1) by lia.
      change (2 ^ 1) with 2. cbv zeta in R1, R2, R3.
      set (m := (M + M mod 2) / 2) in *.
      assert (P52 : 2 ^ mant_bits t <= 2 ^ 52) by (apply Z.pow_le_mono_r; lia).
      rewrite shl_small; [|lia|lia]. rewrite bind_Ok.
      rewrite Z.mul_1_l.
      eexists. split; [reflexivity|].
      assert (IB : 2 <= inf_power t) by (destruct t; cbn; lia).
      set (am := {| am_mantissa := m; am_power2 := if m <? 2 ^ mant_bits t then 0 else 1 |}).
      assert (CODE : am_code t am = m).
      { unfold am. destruct (Z.ltb_spec m (2 ^ mant_bits t)).
        - rewrite am_code_norm by lia. lia.
        - replace m with (2 ^ mant_bits t) by lia. apply am_code_top. }
      split.
      { unfold am_ok, am. cbn [am_mantissa am_power2].
        destruct (Z.ltb_spec m (2 ^ mant_bits t)); [left|right]; lia. }
      split; [|intros _; symmetry; exact CODE].
      rewrite CODE.
      assert (MI : m <= inf_code t).
      { unfold inf_code. pose proof (Z.mul_le_mono_nonneg_r 1 (inf_power t) (2 ^ mant_bits t)). lia. }
      assert (NST : M mod 2 = 0 \/ ~ (2 * y == [M]q)%Q -> forall b', ~ sub_tie t (dec w q) b').
      { intros OR b' (_ & HB' & HT'). fold y in HT'. rewrite HT' in ML, MU.
        apply q_le in ML. apply q_lt in MU. assert (EM : M = 2 * b' - 1) by lia.
        destruct OR as [OR|OR].
        - rewrite EM in OR. replace (2 * b' - 1) with (1 + (b' - 1) * 2) in OR by lia. rewrite Z.mod_add in OR by lia. discriminate OR.
        - apply OR. rewrite HT', EM. reflexivity. }
      destruct (Z.eq_dec (M mod 2) 0) as [Ev|Od].
      { right. split; [apply NST; left; exact Ev|]. exists m. split; [apply R1; left; exact Ev|lia]. }
      assert (OM : Z.odd M = true).
      { rewrite Zmod_odd in Od. destruct (Z.odd M); [reflexivity|lia]. }
      destruct (Qeq_dec (2 * y) [M]q) as [TIE|NT].
      * left. destruct (ftype_F16_dec t) as [F|F].
        { split; [exact F|]. split; [lia|]. fold y. rewrite TIE. rewrite (R3 ltac:(lia)). reflexivity. }
        { exfalso. exact (no_subnormal_tie t w q M F ltac:(lia) OM TIE). }
      * right. split; [apply NST; right; exact NT|]. exists m. split; [apply R1; right; exact NT|lia].
  - (* normal *)
    rewrite shl_small; [|lia|lia]. rewrite bind_Ok.
    rewrite (land3_mod K).
    set (cond := (lo <=? 1) && (min_exponent_round_to_even t <=? q)
                && (q <=? max_exponent_round_to_even t)
                && (K mod 4 =? 1) && (K * 2 ^ (61 - mant_bits t + ub) =? hi)).
    pose proof (round_even_bits t q) as (RE1 & RE2 & RE3 & RE4).
    assert (CT : K mod 4 = 1 -> (cond = true <-> (z == [K]q)%Q)).
    { intros K4. rewrite <- ZT.
      assert (OK : Z.odd K = true).
      { rewrite (Z.div_mod K 4) by lia. rewrite K4. rewrite Z.odd_add, Z.odd_mul. reflexivity. }
      unfold cond. rewrite !andb_true_iff, !Z.leb_le, !Z.eqb_eq. split.
      - intros ((((C1 & C2) & C3) & C4) & C5).
        apply (tie_sound _ _ _ _ _ _ _ Hmb Hq Hw' HE Hlo Hhi HP); fold ub; fold K; lia.
      - intros TIE.
        destruct (tie_size _ _ _ _ _ _ _ Hmb Hq Hw' HE Hlo Hhi HP OK TIE) as [T1 T2].
        destruct (tie_complete _ _ _ _ _ _ _ Hmb Hq Hw' HE Hlo Hhi HP) as [C1 C2]; [|exact TIE|fold ub in C2; fold K in C2].
        + destruct (Z_le_gt_dec 0 q); [specialize (RE1 ltac:(lia) (T1 ltac:(lia)))|
                                       specialize (RE2 ltac:(lia) (T2 ltac:(lia)))]; lia.
        + repeat split; try lia.
          all: destruct (Z_le_gt_dec 0 q);
            first [lia | apply RE2; [lia|apply T2; lia] | apply RE1; [lia|apply T1; lia]]. }
    set (m0 := if cond then Z.land K (2 ^ 64 - 1 - 1) else K).
    assert (M0 : (cond = true /\ K mod 4 = 1 /\ (z == [K]q)%Q /\ m0 = K - 1) \/
                 (m0 = K /\ (K mod 4 = 1 -> ~ (z == [K]q)%Q))).
    { unfold m0. destruct cond eqn:EC2.
      - left. assert (K4 : K mod 4 = 1).
        { unfold cond in EC2. rewrite !andb_true_iff, !Z.eqb_eq in EC2. tauto. }
        repeat split; auto. { apply CT; auto. } apply land_m2; [lia|exact K4].
      - right. split; [reflexivity|]. intros K4 ZE. apply (CT K4) in ZE. discriminate. }
    clearbody m0. rewrite land1_mod.
    assert (MH := half_cases K m0 (z == [K]q)%Q ltac:(lia)
                    ltac:(destruct M0 as [(_ & A & B & C)|A]; [left; auto|right; exact A])).
    assert (M0R : 0 <= m0 < 2 ^ 54) by (clear - M0 HK0 HK64; lia).
    clear M0 CT cond HP HE HB ZT.
    assert (HY : (2 * y == z * [2 ^ (p2 - 1)]q)%Q) by (rewrite ZY, qpow_Z by (clear - S; lia); reflexivity).
    cbv zeta in MH.
    destruct (round_normal (mant_bits t) y z (p2 - 1) K _ ltac:(lia) ltac:(lia) HY HK ZL ZU MH) as [RN RM].
    destruct (normal_pack t p2 m0 M0R RM ltac:(clear - S; lia)) as (am & E1 & E2 & E3).
    exists am. split; [exact E1|]. split; [exact E2|].
    assert (BIGU : ([2 ^ (mant_bits t + 1)]q <= 2 * y)%Q).
    { rewrite HY. clear - ZL HK S.
      apply Qle_trans with ([K]q * 1)%Q; [rewrite Qmult_1_r; apply -> q_le; lia|].
      apply Qmult_le_compat_nonneg; split; try discriminate; try exact ZL.
      - apply (proj1 (q_nonneg _)). pose proof (Z.pow_nonneg 2 (mant_bits t + 1)). lia.
      - change 1%Q with [1]q. apply -> q_le. apply (proj2 (Z.le_succ_l 0 (2 ^ (p2 - 1)))). apply Z.pow_pos_nonneg; [lia|clear - S; lia]. }
    split; [|intros SM; exfalso; apply Qlt_not_le in SM; exact (SM BIGU)].
    right. split; [apply no_sub_big; exact BIGU|].
    rewrite E3.
    exists ((p2 - 1) * 2 ^ mant_bits t + (m0 + m0 mod 2) / 2). split; [exact RN|reflexivity].
Qed.

Theorem compute_float_spec c t q w : 0 <= w < 2 ^ 64 ->
  exists am, compute_float c t q w = Ok am /\ am_ok t am /\
    (rounds t (dec w q) (am_code t am) \/ sub_tie t (dec w q) (am_code t am)).
Proof.
  intros H. destruct (compute_float_exact c t q w H) as (am & E & A & [S|[_ S]] & _); exists am; auto.
Qed.
