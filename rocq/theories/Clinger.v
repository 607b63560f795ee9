(** Clinger's fast path: one correctly rounded operation on exact operands. *)
From Verif Require Import Machine Config Chars Format ParseNumber DecToBin FromChars WordLemmas Rounding ComputeFloat
  SpecFloat FloatBridge FpArith.
From Coq Require Import QArith Qpower Qround Lqa.
Open Scope Z_scope.

(** ** Exact operands *)

Lemma pow10_split k : 0 <= k -> 10 ^ k = 5 ^ k * 2 ^ k.
Proof. intros H. change 10 with (5 * 2). apply Z.pow_mul_l. Qed.

Lemma pow10_exact_code t k : 0 <= k < powers_of_ten_count t -> exists b, exact_code t [10 ^ k]q b.
Proof.
  intros H. rewrite pow10_split by lia. apply exact_code_int; try lia.
  - split; [apply Z.pow_nonneg; lia|].
    apply Z.le_trans with (5 ^ (powers_of_ten_count t - 1)); [apply Z.pow_le_mono_r; lia|].
    destruct t; vm_compute; discriminate.
  - rewrite <- pow10_split by lia.
    apply Z.le_lt_trans with (10 ^ (powers_of_ten_count t - 1)); [apply Z.pow_le_mono_r; lia|].
    destruct t; vm_compute; reflexivity.
Qed.

Lemma exact_power_of_ten_spec t k : 0 <= k < powers_of_ten_count t ->
  exists b, exact_power_of_ten t k = Ok b /\ exact_code t [10 ^ k]q b.
Proof.
  intros H. destruct (pow10_exact_code t k H) as (b & Hb). exists b. split; [|exact Hb].
  unfold exact_power_of_ten. destruct (Z.leb_spec 0 k), (Z.ltb_spec k (powers_of_ten_count t)); try lia.
  cbn [andb]. f_equal. destruct Hb as [B E]. rewrite infinity_bits_eq. apply ieee_round_exact; try lia.
  - pose proof (mb_range t); lia.
  - rewrite <- E. unfold units.
    replace (- (min_exp t + 1 - mant_bits t)) with (mant_bits t - 1 - min_exp t) by lia.
    change [1]q with 1%Q. field.
Qed.

Lemma small_exact_code t m : 0 <= m <= 2 ^ (mant_bits t + 1) -> exists b, exact_code t [m]q b.
Proof.
  intros H. destruct (exact_code_int t m 0) as (b & Hb); try lia.
  - rewrite Z.mul_1_r. eapply Z.le_lt_trans; [apply H|]. destruct t; vm_compute; reflexivity.
  - exists b. rewrite Z.mul_1_r in Hb. exact Hb.
Qed.

(** ** The rounding-mode probe *)

Lemma rounds_to_nearest_spec c :
  rounds_to_nearest c = true <-> (rmode c = ToNearest /\ (eval c = Eval0 \/ eval c = Eval1)).
Proof.
  unfold rounds_to_nearest, eval_format.
  assert (C32 : eval c = Eval0 -> converts_back c F32 = false)
    by (intros E; unfold converts_back; rewrite E, Bool.andb_false_r; reflexivity).
  destruct (eval c); [rewrite (C32 eq_refl)|..]; clear C32; destruct (rmode c); cbv zeta;
    match goal with |- ?b = true <-> _ => let v := eval vm_compute in b in change b with v end;
    split; (intros H; (discriminate H || (destruct H as [H [H'|H']]; congruence) || (split; [congruence|tauto]))).
Qed.

(** ** One operation *)

Lemma via_exact_nearest w c t num den x wb : converts_back c t = true ->
  eval_format c t = (mant_bits w, min_exp w, infinity_bits w) -> rmode c = ToNearest ->
  0 <= num -> 0 < den -> ([num]q / [den]q == x)%Q -> exact_code w x wb ->
  rounds t x (fp_result c t num den).
Proof.
  intros CB EF R Hn Hd E HW. unfold fp_result. rewrite CB, EF, R. cbv beta iota zeta.
  pose proof (mb_range w) as Hw.
  assert (RW : ieee_round ToNearest (mant_bits w) (min_exp w) (infinity_bits w) num den = wb).
  { destruct HW as [B EW]. rewrite infinity_bits_eq. apply ieee_round_exact; try lia.
    rewrite E, <- EW. unfold units.
    replace (- (min_exp w + 1 - mant_bits w)) with (mant_bits w - 1 - min_exp w) by lia. reflexivity. }
  rewrite RW. rewrite (infinity_bits_eq w).
  destruct (Z.leb_spec (inf_code w) wb) as [L|L]; [destruct HW as [[_ B] _]; lia|].
  rewrite infinity_bits_eq. pose proof (mb_range t). pose proof (inf_code_pos t).
  eapply rne_comp; [|apply ieee_round_nearest; try lia].
  - rewrite fp_num_units, (units_inv _ _ _ HW). unfold units.
    replace (- (min_exp t + 1 - mant_bits t)) with (mant_bits t - 1 - min_exp t) by lia.
    pose proof (fp_den_pos w) as P. apply q_pos in P. field. lra.
  - rewrite fp_num_units. apply U_nonneg; [lia|destruct HW as [B _]; lia].
  - apply fp_den_pos.
Qed.

Lemma eval1_exact_nearest c t num den x wb : eval c = Eval1 -> rmode c = ToNearest ->
  0 <= num -> 0 < den -> ([num]q / [den]q == x)%Q -> exact_code F64 x wb ->
  rounds t x (fp_result c t num den).
Proof.
  intros E1. apply (via_exact_nearest F64); unfold converts_back, eval_format; rewrite E1; reflexivity.
Qed.

Lemma f64_nearest c num den x : (eval c = Eval0 \/ eval c = Eval1) -> rmode c = ToNearest ->
  0 <= num -> 0 < den -> ([num]q / [den]q == x)%Q -> rounds F64 x (fp_result c F64 num den).
Proof.
  intros E R Hn Hd EX. destruct E as [EE|EE].
  - apply own_nearest; try assumption. unfold converts_back. rewrite EE, Bool.andb_false_r. reflexivity.
  - unfold fp_result, eval_format, converts_back. rewrite EE, R. cbv beta iota zeta. rewrite infinity_bits_eq.
    set (r := ieee_round ToNearest (mant_bits F64) (min_exp F64) (inf_code F64) num den).
    assert (RR : rounds F64 x r).
    { eapply rne_comp; [|apply ieee_round_nearest; try assumption; reflexivity].
      rewrite EX. unfold units. change (- (min_exp F64 + 1 - mant_bits F64)) with (mant_bits F64 - 1 - min_exp F64). reflexivity. }
    pose proof (rne_range _ _ _ _ (Z.lt_le_incl _ _ (inf_code_pos F64)) RR) as RG.
    destruct (Z.leb_spec (inf_code F64) r) as [L|L].
    + replace (inf_code F64) with r by lia. exact RR.
    + assert (ID : ieee_round ToNearest (mant_bits F64) (min_exp F64) (inf_code F64)
         (fp_num (mant_bits F64) (min_exp F64) r) (fp_den (mant_bits F64) (min_exp F64)) = r).
      { apply ieee_round_exact; try lia; try reflexivity.
        - rewrite fp_num_units. apply U_nonneg; [reflexivity|lia].
        - rewrite fp_num_units, fp_den_units. rewrite <- qpow_Z by (pose proof (u_neg F64); lia).
          field. apply qpow_nz. lia. }
      rewrite ID. exact RR.
Qed.

(** ** Double rounding through double is harmless for short quotients *)

Lemma rneu_transfer mb x y b : rneu mb y b ->
  (forall b', 0 <= b' -> ((2 * x < [mid2 mb b']q)%Q -> (2 * y < [mid2 mb b']q)%Q) /\
     (([mid2 mb b']q < 2 * x)%Q -> ([mid2 mb b']q < 2 * y)%Q) /\
     ((2 * x == [mid2 mb b']q)%Q -> (2 * y == [mid2 mb b']q)%Q)) ->
  rneu mb x b.
Proof.
  intros (B0 & BU & BD) H. split; [exact B0|]. split.
  - destruct (H b B0) as (H1 & H2 & H3).
    destruct (Q_dec (2 * x) [mid2 mb b]q) as [[L|G]|E]; [left; exact L| |].
    + specialize (H2 G). destruct BU as [U|[U V]]; exfalso; lra.
    + specialize (H3 E). destruct BU as [U|[U V]]; [exfalso; lra|]. right. auto.
  - intros Pb. specialize (BD Pb). destruct (H (b - 1) ltac:(lia)) as (H1 & H2 & H3).
    destruct (Q_dec (2 * x) [mid2 mb (b - 1)]q) as [[L|G]|E]; [|left; exact G|].
    + specialize (H1 L). destruct BD as [U|[U V]]; exfalso; lra.
    + specialize (H3 E). destruct BD as [U|[U V]]; [exfalso; lra|]. right. auto.
Qed.

Lemma abs_lower A B d x y : 0 < d -> A = d * x -> B = d * y -> A <> B -> d <= Z.abs (A - B).
Proof. intros Hd -> -> N. assert (x <> y) by congruence. nia. Qed.

Lemma gap_int m k K P :
  1 <= m <= 2 ^ 24 -> 0 <= k <= 10 -> 0 <= K -> 0 <= P <= 2 ^ 26 ->
  m * 2 ^ 150 <> P * 2 ^ K * 10 ^ k ->
  m * 2 ^ 150 <= 2 * (P * 2 ^ K * 10 ^ k) ->
  m * 2 ^ 150 <= 2 ^ 51 * Z.abs (m * 2 ^ 150 - P * 2 ^ K * 10 ^ k).
Proof.
  intros Hm Hk HK HP N L.
  assert (EB : P * 2 ^ K * 10 ^ k = 2 ^ (K + k) * (P * 5 ^ k)).
  { rewrite pow10_split, Z.pow_add_r by lia. ring. }
  destruct (Z_le_gt_dec (K + k) 150) as [C|C].
  - assert (EA : m * 2 ^ 150 = 2 ^ (K + k) * (m * 2 ^ (150 - (K + k)))).
    { replace 150 with ((K + k) + (150 - (K + k))) at 1 by lia. rewrite Z.pow_add_r by lia. ring. }
    pose proof (abs_lower _ _ _ _ _ (pow2_pos (K + k) ltac:(lia)) EA EB N) as G.
    assert (H5 : 5 ^ k <= 2 ^ 24).
    { apply Z.le_trans with (5 ^ 10); [apply Z.pow_le_mono_r; lia|vm_compute; discriminate]. }
    pose proof (Z.pow_pos_nonneg 5 k ltac:(lia) ltac:(lia)) as H50.
    assert (P * 5 ^ k <= 2 ^ 26 * 2 ^ 24) by (apply Z.mul_le_mono_nonneg; lia).
    rewrite EB in L at 1.
    pose proof (pow2_pos (K + k) ltac:(lia)) as PP.
    set (G1 := Z.abs (m * 2 ^ 150 - P * 2 ^ K * 10 ^ k)) in *. set (A := m * 2 ^ 150) in *.
    set (D := 2 ^ (K + k)) in *. set (Y := P * 5 ^ k) in *. clearbody G1 A D Y.
    clear - L H G PP. assert (D * Y <= D * 2 ^ 50) by (apply Z.mul_le_mono_nonneg_l; lia). lia.
  - assert (EA : m * 2 ^ 150 = 2 ^ 150 * m) by ring.
    assert (EB' : P * 2 ^ K * 10 ^ k = 2 ^ 150 * (2 ^ (K + k - 150) * (P * 5 ^ k))).
    { rewrite EB. replace (K + k) with (150 + (K + k - 150)) at 1 by lia. rewrite Z.pow_add_r by lia. ring. }
    pose proof (abs_lower _ _ _ _ _ (pow2_pos 150 ltac:(lia)) EA EB' N) as G.
    assert (m * 2 ^ 150 <= 2 ^ 24 * 2 ^ 150) by (apply Z.mul_le_mono_nonneg_r; lia).
    lia.
Qed.

Lemma mid2_form mb b : 0 < mb -> 0 <= b ->
  exists K P, 0 <= K /\ 0 <= P <= 2 * 2 ^ (mb + 1) /\ mid2 mb b = P * 2 ^ K.
Proof.
  intros Hmb Hb. destruct (U_dec mb b Hmb Hb) as (K & M & E & C & L).
  exists K, (2 * M + 1). pose proof C as (C1 & C2 & C3). split; [exact C1|]. split; [lia|].
  unfold mid2. rewrite E, U_succ, U_enc by assumption. ring.
Qed.

(** Relative error of a rounding in the normal range. *)
Lemma U_pred mb K M : 0 < mb -> canon mb K M -> 2 ^ mb <= M -> 1 <= M ->
  (M - 1) * 2 ^ K <= fp_units mb (K * 2 ^ mb + M - 1).
Proof.
  intros Hmb (C1 & C2 & C3) L L1. pose proof (pow2_pos mb ltac:(lia)) as PB.
  rewrite pow2_S in C2 by lia.
  destruct (Z_lt_le_dec (2 ^ mb) M) as [G|G].
  - rewrite <- Z.add_sub_assoc, U_enc; [lia|exact Hmb|]. unfold canon. rewrite pow2_S by lia. lia.
  - assert (M = 2 ^ mb) by lia. destruct (Z.eq_dec K 0) as [->|NK].
    + rewrite <- Z.add_sub_assoc, U_enc; [lia|exact Hmb|]. unfold canon. rewrite pow2_S by lia. lia.
    + replace (K * 2 ^ mb + M - 1) with ((K - 1) * 2 ^ mb + (2 * 2 ^ mb - 1)) by (subst M; ring).
      rewrite U_enc; [|exact Hmb|unfold canon; rewrite pow2_S by lia; lia].
      replace K with (K - 1 + 1) at 1 by lia. rewrite pow2_S by lia.
      pose proof (pow2_pos (K - 1) ltac:(lia)). subst M. nia.
Qed.

Lemma rneu_relerr mb X r : 0 < mb -> rneu mb X r -> 2 ^ mb <= r ->
  ([2 ^ (mb + 1)]q * ([fp_units mb r]q - X) <= [fp_units mb r]q)%Q /\
  ([2 ^ (mb + 1)]q * (X - [fp_units mb r]q) <= [fp_units mb r]q)%Q.
Proof.
  intros Hmb (R0 & RU & RD) L. pose proof (pow2_pos mb ltac:(lia)) as PB.
  assert (RD' : ([mid2 mb (r - 1)]q <= 2 * X)%Q) by (destruct (RD ltac:(lia)) as [D|[D _]]; lra). clear RD.
  assert (RU' : (2 * X <= [mid2 mb r]q)%Q) by (destruct RU as [D|[D _]]; lra). clear RU.
  destruct (U_dec mb r Hmb ltac:(lia)) as (K & M & E & C & LM).
  pose proof C as (C1 & C2 & C3).
  assert (LMb : 2 ^ mb <= M) by (destruct C3 as [->|]; lia).
  pose proof (pow2_pos K C1) as PK.
  pose proof (U_pred mb K M Hmb C LMb ltac:(lia)) as UP. rewrite <- E in UP.
  pose proof (U_succ mb K M Hmb C LM) as US. rewrite <- E in US.
  pose proof (U_enc mb K M Hmb C) as UE. rewrite <- E in UE.
  unfold mid2 in RD', RU'. replace (r - 1 + 1) with r in RD' by lia.
  rewrite US in RU'. rewrite UE in *.
  assert (RD2 : ([2 * M * 2 ^ K - 2 ^ K]q <= 2 * X)%Q).
  { eapply Qle_trans; [|exact RD']. apply -> q_le. lia. }
  assert (RU2 : (2 * X <= [2 * M * 2 ^ K + 2 ^ K]q)%Q).
  { eapply Qle_trans; [exact RU'|]. apply -> q_le. lia. }
  assert (QK : ([2 ^ mb]q * [2 ^ K]q <= [M * 2 ^ K]q)%Q).
  { rewrite <- inject_Z_mult. apply -> q_le. nia. }
  assert (Q0 : (0 <= [2 ^ mb]q)%Q) by (apply (proj1 (q_nonneg _)); lia).
  rewrite pow2_S by lia. rewrite !inject_Z_mult in *. 
  unfold Z.sub in RD2. rewrite !inject_Z_plus, ?inject_Z_opp, !inject_Z_mult in *.
  change [2]q with 2%Q in *.
  set (a := [2 ^ mb]q) in *. set (k := [2 ^ K]q) in *. set (m := [M]q) in *. clearbody a k m.
  clear - QK Q0 RD2 RU2.
  assert (D1 : (a * (2 * X) <= a * (2 * m * k + k))%Q) by nra.
  assert (D2 : (a * (2 * m * k + - k) <= a * (2 * X))%Q) by nra.
  split; nra.
Qed.

Lemma short_quotient_order m k y b :
  1 <= m <= 2 ^ 24 -> 0 <= k <= 10 -> 0 <= b ->
  let x := ([m]q / [10 ^ k]q)%Q in
  ([2 ^ 53]q * (y - x) <= y)%Q -> ([2 ^ 53]q * (x - y) <= y)%Q ->
  ((2 * units F32 x < [mid2 23 b]q)%Q -> (2 * units F32 y < [mid2 23 b]q)%Q) /\
  (([mid2 23 b]q < 2 * units F32 x)%Q -> ([mid2 23 b]q < 2 * units F32 y)%Q).
Proof.
  intros Hm Hk Hb x HY1 HY2.
  destruct (mid2_form 23 b ltac:(lia) Hb) as (K & P & HK & HP & EM). change (2 * 2 ^ (23 + 1)) with (2 ^ 25) in HP.
  assert (P10 : 0 < 10 ^ k) by (apply Z.pow_pos_nonneg; lia).
  pose proof (gap_int m k K P Hm Hk HK ltac:(lia)) as G. rewrite <- EM in G.
  set (B := mid2 23 b) in *. clearbody B. clear EM HP HK P K Hb.
  assert (UX : forall v, (2 * units F32 v == v * [2 ^ 150]q)%Q).
  { intros v. unfold units. change (mant_bits F32 - 1 - min_exp F32) with 149. rewrite qpow_Z by lia.
    change (2 ^ 150) with (2 * 2 ^ 149). rewrite inject_Z_mult. change [2]q with 2%Q. ring. }
  rewrite !UX. clear UX.
  assert (EX : (x * [10 ^ k]q == [m]q)%Q).
  { unfold x. apply q_pos in P10. field. lra. }
  assert (X0 : (0 < x)%Q).
  { unfold x. apply Qlt_shift_div_l; [apply q_pos in P10; exact P10|]. rewrite Qmult_0_l. apply (proj1 (q_pos _)). lia. }
  clearbody x.
  set (T := 10 ^ k) in *. clearbody T. 
  assert (PT : (0 < [T]q)%Q) by (apply (proj1 (q_pos _)); exact P10).
  assert (P150 : (0 < [2 ^ 150]q)%Q) by reflexivity.
  (* value-level gap *)
  assert (YX : (y <= 2 * x)%Q) by (change [2 ^ 53]q with 9007199254740992%Q in *; lra).
  assert (E1 : (2251799813685248 * (y - x) < x)%Q) by (change [2 ^ 53]q with 9007199254740992%Q in *; lra).
  assert (E2 : (2251799813685248 * (x - y) < x)%Q) by (change [2 ^ 53]q with 9007199254740992%Q in *; lra).
  clear HY1 HY2 YX.
  set (s := [2 ^ 150]q) in *.
  assert (EA : ([m * 2 ^ 150]q == x * s * [T]q)%Q) by (rewrite inject_Z_mult, <- EX; unfold s; ring).
  assert (EB : ([B * T]q == [B]q * [T]q)%Q) by (rewrite inject_Z_mult; reflexivity).
  split; intros H.
  - assert (LT : m * 2 ^ 150 < B * T).
    { apply q_lt. rewrite EA, EB. apply Qmult_lt_r; assumption. }
    specialize (G ltac:(lia) ltac:(lia)). rewrite Z.abs_neq in G by lia.
    assert (G' : 2 ^ 51 * (m * 2 ^ 150) + m * 2 ^ 150 <= 2 ^ 51 * (B * T)) by lia.
    apply q_le in G'. rewrite inject_Z_plus, (inject_Z_mult _ (B * T)), (inject_Z_mult _ (m * 2 ^ 150)), EA, EB in G'.
    assert (G2 : ([2 ^ 51]q * (x * s) + x * s <= [2 ^ 51]q * [B]q)%Q).
    { apply Qmult_le_r with [T]q; [exact PT|]. lra. }
    change [2 ^ 51]q with 2251799813685248%Q in G2.
    assert (F : (2251799813685248 * (y - x) * s < x * s)%Q) by (apply Qmult_lt_r; assumption).
    lra.
  - assert (LT : B * T < m * 2 ^ 150).
    { apply q_lt. rewrite EA, EB. apply Qmult_lt_r; assumption. }
    assert (F : (2251799813685248 * (x - y) * s < x * s)%Q) by (apply Qmult_lt_r; assumption).
    assert (XS : (0 < x * s)%Q) by (apply Qmult_lt_0_compat; assumption).
    destruct (Z_le_gt_dec (m * 2 ^ 150) (2 * (B * T))) as [C|C].
    + specialize (G ltac:(lia) C). rewrite Z.abs_eq in G by lia.
      assert (G' : 2 ^ 51 * (B * T) + m * 2 ^ 150 <= 2 ^ 51 * (m * 2 ^ 150)) by lia.
      apply q_le in G'. rewrite inject_Z_plus, (inject_Z_mult _ (B * T)), (inject_Z_mult _ (m * 2 ^ 150)), EA, EB in G'.
      assert (G2 : ([2 ^ 51]q * [B]q + x * s <= [2 ^ 51]q * (x * s))%Q).
      { apply Qmult_le_r with [T]q; [exact PT|]. lra. }
      change [2 ^ 51]q with 2251799813685248%Q in G2. lra.
    + assert (G' : 2 * (B * T) <= m * 2 ^ 150) by lia.
      apply q_le in G'. rewrite (inject_Z_mult _ (B * T)), EA, EB in G'.
      assert (G2 : ([2]q * [B]q <= x * s)%Q).
      { apply Qmult_le_r with [T]q; [exact PT|]. lra. }
      change [2]q with 2%Q in G2. lra.
Qed.

Lemma rneu_exact mb b : 0 < mb -> 0 <= b -> rneu mb [fp_units mb b]q b.
Proof.
  intros Hmb Hb. pose proof (U_lt mb b (b + 1) Hmb ltac:(lia)).
  apply rneu_pick; try assumption.
  - apply Qle_refl.
  - apply -> q_le. lia.
  - left. change 2%Q with [2]q. rewrite <- inject_Z_mult. apply -> q_lt. unfold mid2. lia.
Qed.

Lemma f32_div_eval1 c m k : eval c = Eval1 -> rmode c = ToNearest ->
  0 <= m <= 2 ^ 24 -> 0 <= k <= 10 -> forall num den, 0 <= num -> 0 < den ->
  ([num]q / [den]q == [m]q / [10 ^ k]q)%Q ->
  rounds F32 ([m]q / [10 ^ k]q) (fp_result c F32 num den).
Proof.
  intros E1 R Hm Hk num den Hn Hd E.
  destruct (Z.eq_dec m 0) as [->|NZ].
  { destruct (small_exact_code F64 0 ltac:(split; [lia|apply Z.pow_nonneg; lia])) as (wb & Hwb).
    apply eval1_exact_nearest with wb; try assumption.
    destruct Hwb as [B EW]. split; [exact B|]. rewrite <- EW. unfold units.
    change [0]q with 0%Q. unfold Qdiv. ring. }
  unfold fp_result, eval_format, converts_back. rewrite E1, R. cbv beta iota zeta. rewrite !infinity_bits_eq.
  set (r := ieee_round ToNearest (mant_bits F64) (min_exp F64) (inf_code F64) num den).
  set (x := ([m]q / [10 ^ k]q)%Q) in *.
  assert (P10 : 0 < 10 ^ k) by (apply Z.pow_pos_nonneg; lia).
  assert (T10 : 10 ^ k <= 10 ^ 10) by (apply Z.pow_le_mono_r; lia).
  assert (RR : rounds F64 x r).
  { eapply rne_comp; [|apply ieee_round_nearest; try assumption; reflexivity]. rewrite E. reflexivity. }
  (* bounds of x *)
  assert (XL : ([m]q <= x * [10 ^ 10]q)%Q).
  { unfold x. setoid_replace ([m]q / [10 ^ k]q * [10 ^ 10]q)%Q with (([m]q * [10 ^ 10]q) / [10 ^ k]q)%Q
      by (field; apply q_pos in P10; lra).
    apply Qle_shift_div_l; [apply (proj1 (q_pos _)); exact P10|]. rewrite <- !inject_Z_mult. apply -> q_le. nia. }
  assert (XU : (x <= [m]q)%Q).
  { unfold x. apply Qle_shift_div_r; [apply (proj1 (q_pos _)); exact P10|]. rewrite <- inject_Z_mult. apply -> q_le. nia. }
  destruct RR as (r' & RR & Er).
  assert (U64 : (units F64 x == x * [2 ^ 1074]q)%Q).
  { unfold units. change (mant_bits F64 - 1 - min_exp F64) with 1074. rewrite qpow_Z by lia. reflexivity. }
  assert (M1 : ([1]q <= [m]q)%Q) by (apply -> q_le; lia).
  assert (M2 : ([m]q <= [2 ^ 24]q)%Q) by (apply -> q_le; lia).
  assert (PQ : (0 < [2 ^ 1074]q)%Q) by reflexivity.
  assert (LOW : ([2 ^ 53]q <= units F64 x)%Q).
  { rewrite U64. apply Qmult_le_r with [10 ^ 10]q; [reflexivity|].
    apply Qle_trans with ([1]q * [2 ^ 1074]q)%Q; [rewrite <- !inject_Z_mult; apply -> q_le; vm_compute; discriminate|].
    setoid_replace (x * [2 ^ 1074]q * [10 ^ 10]q)%Q with (x * [10 ^ 10]q * [2 ^ 1074]q)%Q by ring.
    apply Qmult_le_r; [exact PQ|]. lra. }
  assert (HIGH : (units F64 x <= [2 ^ 24 * 2 ^ 1074]q)%Q).
  { rewrite U64, inject_Z_mult. apply Qmult_le_r; [exact PQ|]. lra. }
  assert (R1 : 2 ^ 52 <= r').
  { apply (rneu_mono 52 [fp_units 52 (2 ^ 52)]q (units F64 x) _ r'); [lia| | |exact RR].
    - eapply Qle_trans; [|exact LOW]. apply -> q_le. vm_compute; discriminate.
    - apply rneu_exact; [lia|vm_compute; discriminate]. }
  assert (R2 : r' < inf_code F64).
  { apply Z.le_lt_trans with (1047 * 2 ^ 52); [|reflexivity].
    apply (rneu_mono 52 (units F64 x) [fp_units 52 (1047 * 2 ^ 52)]q r' _); [lia| |exact RR|].
    - eapply Qle_trans; [exact HIGH|]. apply -> q_le. vm_compute; discriminate.
    - apply rneu_exact; [lia|vm_compute; discriminate]. }
  assert (Er' : r = r') by lia.
  destruct (Z.leb_spec (inf_code F64) r) as [L|L]; [lia|].
  set (y := ([fp_num (mant_bits F64) (min_exp F64) r]q / [fp_den (mant_bits F64) (min_exp F64)]q)%Q).
  assert (YU : (y * [2 ^ 1074]q == [fp_units 52 r]q)%Q).
  { unfold y. rewrite fp_num_units, fp_den_units. change (- (min_exp F64 + 1 - mant_bits F64)) with 1074.
    change (mant_bits F64) with 52. field. intros Z0. rewrite Z0 in PQ. inversion PQ. }
  destruct (rneu_relerr 52 (units F64 x) r' ltac:(lia) RR R1) as [A1 A2]. rewrite <- Er' in A1, A2.
  rewrite U64, <- YU in A1, A2. change (52 + 1) with 53 in A1, A2.
  assert (A1' : ([2 ^ 53]q * (y - x) <= y)%Q).
  { apply Qmult_le_r with [2 ^ 1074]q; [exact PQ|]. lra. }
  assert (A2' : ([2 ^ 53]q * (x - y) <= y)%Q).
  { apply Qmult_le_r with [2 ^ 1074]q; [exact PQ|]. lra. }
  assert (IR : rounds F32 y (ieee_round ToNearest (mant_bits F32) (min_exp F32) (inf_code F32)
     (fp_num (mant_bits F64) (min_exp F64) r) (fp_den (mant_bits F64) (min_exp F64)))).
  { eapply rne_comp; [|apply ieee_round_nearest].
    - unfold units, y. change (- (min_exp F32 + 1 - mant_bits F32)) with (mant_bits F32 - 1 - min_exp F32). reflexivity.
    - reflexivity.
    - apply inf_code_pos.
    - rewrite fp_num_units. apply U_nonneg; [reflexivity|]. change (2 ^ 52) with 4503599627370496 in R1. lia.
    - apply fp_den_pos. }
  destruct IR as (b' & Hb' & Eb'). exists b'. split; [|exact Eb'].
  apply rneu_transfer with (units F32 y); [exact Hb'|].
  intros b Hb. destruct (short_quotient_order m k y b ltac:(lia) Hk Hb A1' A2') as [O1 O2].
  split; [exact O1|]. split; [exact O2|].
  intros EQ.
  destruct (mid2_form 23 b ltac:(lia) Hb) as (K & P & HK & HP & EM). change (2 * 2 ^ (23 + 1)) with (2 ^ 25) in HP.
  destruct (rep_exists 52 P (K + 924) ltac:(lia)) as (b2 & B0 & B1); [|lia|].
  { split; [lia|]. apply Z.le_trans with (2 ^ 25); [lia|vm_compute; discriminate]. }
  change (mant_bits F32) with 23 in *. rewrite EM in *.
  assert (XV : (units F64 x == [fp_units 52 b2]q)%Q).
  { rewrite U64, B1, Z.pow_add_r by lia. rewrite Z.mul_assoc, inject_Z_mult, <- EQ. unfold units.
    change (mant_bits F32 - 1 - min_exp F32) with 149. rewrite qpow_Z by lia.
    replace 1074 with (1 + 149 + 924) by reflexivity. rewrite !Z.pow_add_r, !inject_Z_mult by lia.
    change [2 ^ 1]q with 2%Q. ring. }
  assert (r = b2).
  { rewrite Er'. apply (rneu_unique 52 (units F64 x)); [lia|exact RR|].
    apply rneu_comp with [fp_units 52 b2]q; [symmetry; exact XV|]. apply rneu_exact; lia. }
  assert (YX : (y == x)%Q).
  { apply (Qmult_inj_r _ _ [2 ^ 1074]q); [intros Z0; rewrite Z0 in PQ; inversion PQ|].
    rewrite YU, <- U64, XV, H. reflexivity. }
  rewrite <- EQ. unfold units. rewrite YX. reflexivity.
Qed.

(** ** The fast path *)

Lemma max_mantissa_eq t : max_mantissa_fast_path t = 2 ^ (mant_bits t + 1).
Proof. destruct t; reflexivity. Qed.

Lemma max_exp_count t : max_exponent_fast_path t < powers_of_ten_count t.
Proof. destruct t; reflexivity. Qed.

Lemma min_exp_count c t : - powers_of_ten_count t < min_exponent_fast_path c t <= 0.
Proof. unfold min_exponent_fast_path. destruct t; destruct (eval c); cbn; lia. Qed.

Lemma dec_pos w q : 0 <= q -> (dec w q == [w * 10 ^ q]q)%Q.
Proof. intros H. unfold dec. rewrite qpow_Z, inject_Z_mult by exact H. reflexivity. Qed.
Lemma dec_neg w q : q < 0 -> (dec w q == [w]q / [10 ^ (- q)]q)%Q.
Proof.
  intros H. unfold dec, Qdiv. rewrite <- qpow_Z by lia. apply Qmult_comp; [reflexivity|].
  pose proof (qpow_opp 10 q ltac:(lia)) as O. pose proof (qpow_nz 10 (- q) ltac:(lia)) as N.
  apply (Qmult_inj_r _ _ (qpow 10 (- q))); [exact N|]. rewrite Qmult_comm, O. field. exact N.
Qed.

Lemma ftype_F64 t : t = F64 \/ t <> F64.
Proof. destruct t; [left; reflexivity|right; discriminate..]. Qed.

Lemma mul_nearest c t m k a b : (eval c = Eval0 \/ eval c = Eval1) -> rmode c = ToNearest ->
  0 <= m <= 2 ^ (mant_bits t + 1) -> 0 <= k < powers_of_ten_count t ->
  exact_code t [m]q a -> exact_code t [10 ^ k]q b ->
  rounds t (dec m k) (ieee_mul c t a b).
Proof.
  intros E R Hm Hk HA HB. unfold ieee_mul.
  pose proof (mul_value t _ _ _ _ HA HB) as V. rewrite <- inject_Z_mult, <- dec_pos in V by lia.
  assert (N0 : 0 <= fp_num (mant_bits t) (min_exp t) a * fp_num (mant_bits t) (min_exp t) b).
  { rewrite !fp_num_units. pose proof (mb_range t).
    apply Z.mul_nonneg_nonneg; (apply U_nonneg; [lia|]); [destruct HA as [HA _]|destruct HB as [HB _]]; lia. }
  assert (D0 : 0 < fp_den (mant_bits t) (min_exp t) * fp_den (mant_bits t) (min_exp t)).
  { pose proof (fp_den_pos t). apply Z.mul_pos_pos; assumption. }
  destruct (converts_back c t) eqn:CB; [|apply own_nearest; assumption].
  destruct (ftype_F64 t) as [->|NT].
  - apply f64_nearest; assumption.
  - assert (EF : exists w, eval_format c t = (mant_bits w, min_exp w, infinity_bits w) /\
      2 ^ (mant_bits t + 1) * 5 ^ (powers_of_ten_count t - 1) <= 2 ^ (mant_bits w + 1) /\
      2 ^ (mant_bits t + 1) * 10 ^ (powers_of_ten_count t - 1) < 2 ^ (- min_exp w)).
    { unfold eval_format. destruct E as [EE|EE].
      - exists F32. rewrite CB. unfold converts_back in CB. rewrite EE in CB |- *. split; [reflexivity|].
        destruct t; try (rewrite Bool.andb_false_r in CB; discriminate CB); split; vm_compute; congruence.
      - exists F64. rewrite EE. split; [reflexivity|]. destruct t; try congruence; split; vm_compute; congruence. }
    destruct EF as (w & EF & W1 & W2).
    assert (X : exists wb, exact_code w [(m * 5 ^ k) * 2 ^ k]q wb).
    { assert (H5 : 5 ^ k <= 5 ^ (powers_of_ten_count t - 1)) by (apply Z.pow_le_mono_r; lia).
      pose proof (Z.pow_pos_nonneg 5 k ltac:(lia) ltac:(lia)) as P5.
      assert (H10 : 10 ^ k <= 10 ^ (powers_of_ten_count t - 1)) by (apply Z.pow_le_mono_r; lia).
      pose proof (Z.pow_pos_nonneg 10 k ltac:(lia) ltac:(lia)) as P10.
      apply exact_code_int; [split; [apply Z.mul_nonneg_nonneg; lia|]|lia|].
      - apply Z.le_trans with (2 ^ (mant_bits t + 1) * 5 ^ (powers_of_ten_count t - 1)).
        + apply Z.mul_le_mono_nonneg; lia.
        + exact W1.
      - rewrite <- Z.mul_assoc, <- pow10_split by lia.
        apply Z.le_lt_trans with (2 ^ (mant_bits t + 1) * 10 ^ (powers_of_ten_count t - 1)).
        + apply Z.mul_le_mono_nonneg; lia.
        + exact W2. }
    destruct X as (wb & Hwb). apply (via_exact_nearest w) with wb; try assumption.
    destruct Hwb as [B EW]. split; [exact B|]. rewrite <- EW. unfold units. rewrite dec_pos by lia.
    rewrite <- Z.mul_assoc, <- pow10_split by lia. reflexivity.
Qed.

Lemma div_nearest c t m k a b : (eval c = Eval0 \/ eval c = Eval1) -> rmode c = ToNearest ->
  0 <= m <= 2 ^ (mant_bits t + 1) -> 0 < k <= - min_exponent_fast_path c t ->
  exact_code t [m]q a -> exact_code t [10 ^ k]q b ->
  rounds t (dec m (- k)) (ieee_div c t a b).
Proof.
  intros E R Hm Hk HA HB. unfold ieee_div.
  assert (P10 : (0 < [10 ^ k]q)%Q) by (apply (proj1 (q_pos _)); apply Z.pow_pos_nonneg; lia).
  pose proof (div_value t _ _ _ _ HA HB P10) as V.
  assert (EV : (dec m (- k) == [m]q / [10 ^ k]q)%Q).
  { rewrite dec_neg by lia. rewrite Z.opp_involutive. reflexivity. }
  pose proof (mb_range t) as Hmb.
  assert (N0 : 0 <= fp_num (mant_bits t) (min_exp t) a).
  { rewrite !fp_num_units. apply U_nonneg; [lia|]. destruct HA as [HA _]; lia. }
  assert (D0 : 0 < fp_num (mant_bits t) (min_exp t) b).
  { rewrite fp_num_units. apply q_pos. rewrite (units_inv _ _ _ HB). apply Qmult_lt_0_compat; [exact P10|].
    apply (proj1 (q_pos _)). apply fp_den_pos. }
  rewrite <- EV in V.
  destruct (converts_back c t) eqn:CB; [|apply own_nearest; assumption].
  destruct t; try (unfold min_exponent_fast_path in Hk; lia).
  - apply f64_nearest; assumption.
  - assert (EE : eval c = Eval1).
    { destruct E as [EE|EE]; [|exact EE]. unfold converts_back in CB.
      rewrite EE, Bool.andb_false_r in CB. discriminate CB. }
    unfold min_exponent_fast_path in Hk. rewrite EE in Hk.
    eapply rne_comp; [|apply (f32_div_eval1 c m k)]; try assumption; try lia.
    + unfold units. rewrite EV. reflexivity.
    + rewrite V. exact EV.
Qed.

Lemma mul_exact c t m k a b :
  0 <= m -> m * 5 ^ k <= 2 ^ (mant_bits t + 1) -> m * 10 ^ k < 2 ^ (- min_exp t) -> 0 <= k ->
  exact_code t [m]q a -> exact_code t [10 ^ k]q b ->
  exact_code t (dec m k) (ieee_mul c t a b).
Proof.
  intros Hm H5 H10 Hk HA HB. unfold ieee_mul.
  pose proof (mul_value t _ _ _ _ HA HB) as V. rewrite <- inject_Z_mult, <- dec_pos in V by lia.
  assert (N0 : 0 <= fp_num (mant_bits t) (min_exp t) a * fp_num (mant_bits t) (min_exp t) b).
  { rewrite !fp_num_units. pose proof (mb_range t).
    apply Z.mul_nonneg_nonneg; (apply U_nonneg; [lia|]); [destruct HA as [HA _]|destruct HB as [HB _]]; lia. }
  assert (D0 : 0 < fp_den (mant_bits t) (min_exp t) * fp_den (mant_bits t) (min_exp t)).
  { pose proof (fp_den_pos t). apply Z.mul_pos_pos; assumption. }
  assert (M5 : 0 <= m * 5 ^ k <= 2 ^ (mant_bits t + 1)).
  { split; [|exact H5]. apply Z.mul_nonneg_nonneg; [exact Hm|]. apply Z.pow_nonneg; lia. }
  assert (EE : m * 10 ^ k = m * 5 ^ k * 2 ^ k) by (rewrite pow10_split by lia; ring).
  rewrite EE in H10.
  destruct (exact_code_int t _ _ M5 Hk H10) as (x & HX).
  assert (EX : exact_code t (dec m k) x).
  { destruct HX as [B EW]. split; [exact B|]. rewrite <- EW. unfold units. rewrite dec_pos, EE by lia. reflexivity. }
  rewrite (eval_exact c t _ _ (dec m k) x N0 D0 V EX); [exact EX|].
  destruct (wide_exact c t _ _ M5 Hk H10) as (wb & W1 & W2). exists wb. split; [exact W1|].
  rewrite <- W2. rewrite dec_pos, EE by lia. reflexivity.
Qed.

Lemma max_mantissa_pow_spec t e : 0 <= e <= max_exponent_fast_path t ->
  exists mm, max_mantissa_fast_path_pow t e = Ok mm /\ mm * 5 ^ e <= 2 ^ (mant_bits t + 1) /\
    mm * 10 ^ e < 2 ^ (- min_exp t).
Proof.
  intros H. unfold max_mantissa_fast_path_pow.
  assert (Z.of_nat (Z.to_nat e) = e) by lia.
  assert (L : (Z.to_nat e < 24)%nat) by (destruct t; cbn in H; lia).
  revert H. rewrite <- H0. generalize (Z.to_nat e) L. clear. intros n L H.
  destruct t; cbn [max_exponent_fast_path] in H;
  do 24 (destruct n as [|n]; [first [lia | eexists; split; [vm_compute; reflexivity|split; vm_compute; (discriminate || reflexivity)]]|]); lia.
Qed.

Lemma rounds_range t x b : rounds t x b -> 0 <= b <= inf_code t.
Proof. intros H. apply (rne_range _ _ _ _ (Z.lt_le_incl _ _ (inf_code_pos t)) H). Qed.

Lemma apply_sign_spec t (neg : bool) b : 0 <= b <= inf_code t ->
  (if neg then fp_neg t b else b) = with_sign (format_of t) neg b.
Proof.
  intros H. destruct neg.
  - apply fp_neg_sign. pose proof (mb_range t). pose proof (pow2_pos (mant_bits t - 1)). lia.
  - rewrite with_sign_eq. lia.
Qed.

Lemma zero_rounds t k : rounds t (dec 0 k) 0.
Proof.
  pose proof (mb_range t). pose proof (inf_code_pos t).
  assert (E : (units t (dec 0 k) == 0)%Q) by (unfold units, dec; change [0]q with 0%Q; ring).
  apply rne_zero; try lia; rewrite E; [apply Qle_refl|]. discriminate.
Qed.

(** ** Denormals-are-zero and flush-to-zero have nothing to act on *)
Lemma normal_code t x b : (qpow 2 (min_exp t + 1) <= x)%Q -> rounds t x b -> 2 ^ mant_bits t <= b.
Proof.
  intros Hx H. pose proof (mb_range t) as Hmb.
  assert (R : rounds t (qpow 2 (min_exp t + 1)) (2 ^ mant_bits t)).
  { apply exact_rounds. Transparent qpow. destruct t; split; vm_compute; (reflexivity || (split; congruence)). Opaque qpow. }
  exact (rne_mono _ _ _ _ _ _ (proj1 Hmb) (Qmult_le_compat_r _ _ _ Hx (Qlt_le_weak _ _ (qpow_pos 2 _ ltac:(lia)))) R H).
Qed.

Lemma flushed_id c t b : b = 0 \/ 2 ^ mant_bits t <= b -> flushed c t b = b.
Proof.
  intros H. unfold flushed. destruct (flush c); [|reflexivity]. cbn [andb].
  destruct (Z.ltb_spec b (2 ^ mant_bits t)); [|reflexivity]. lia.
Qed.

Lemma flushed_dec c t m e b : 0 <= m -> min_exponent_fast_path c t <= e -> rounds t (dec m e) b -> flushed c t b = b.
Proof.
  intros Hm He H. apply flushed_id. destruct (Z.eq_dec m 0) as [->|NZ].
  - left. exact (rne_unique _ _ _ _ _ (proj1 (mb_range t)) H (zero_rounds t e)).
  - right. apply (normal_code t (dec m e)); [|exact H].
    apply Qle_trans with (dec 1 (min_exponent_fast_path c t)).
    + clear. unfold min_exponent_fast_path. Transparent qpow. destruct t, (eval c); vm_compute; congruence. Opaque qpow.
    + unfold dec. apply Qmult_le_compat_nonneg; (split; [|]).
      * discriminate.
      * apply -> q_le. lia.
      * apply Qlt_le_weak, qpow_pos; lia.
      * apply qpow_le; lia.
Qed.

Lemma flushed_int c t m b : 0 <= m -> exact_code t [m]q b -> flushed c t b = b.
Proof.
  intros Hm H. apply (flushed_dec c t m 0); [exact Hm| |].
  - unfold min_exponent_fast_path. destruct t, (eval c); cbn; lia.
  - apply exact_rounds. destruct H as [A B]. split; [exact A|]. rewrite <- B. unfold units. rewrite dec_pos by lia.
    rewrite Z.mul_1_r. reflexivity.
Qed.

(** Whenever the fast path answers, the answer is the correctly rounded value. *)
Theorem clinger_spec c t m e neg : 0 <= m -> 
  clinger_fast_path_impl c t m e neg = Ok None \/
  exists b, clinger_fast_path_impl c t m e neg = Ok (Some (with_sign (format_of t) neg b)) /\
            rounds t (dec m e) b.
Proof.
  intros Hm. unfold clinger_fast_path_impl.
  destruct (Z.leb_spec (min_exponent_fast_path c t) e) as [L1|L1]; [|left; reflexivity].
  destruct (Z.leb_spec e (max_exponent_fast_path t)) as [L2|L2]; [|left; reflexivity].
  cbn [andb]. pose proof (max_exp_count t) as MC. pose proof (min_exp_count c t) as NC.
  assert (G : forall b, rounds t (dec m e) b ->
    exists b0, Ok (Some (if neg then fp_neg t b else b)) = Ok (Some (with_sign (format_of t) neg b0)) /\ rounds t (dec m e) b0).
  { intros b Hb. exists b. split; [|exact Hb]. rewrite apply_sign_spec; [reflexivity|]. eapply rounds_range; exact Hb. }
  destruct (negb (in_constexpr c) && rounds_to_nearest c) eqn:RN.
  - apply andb_true_iff in RN. destruct RN as [_ RN]. apply rounds_to_nearest_spec in RN. destruct RN as [R E].
    rewrite max_mantissa_eq. destruct (Z.leb_spec m (2 ^ (mant_bits t + 1))) as [LM|LM]; [|left; reflexivity].
    destruct (small_exact_code t m ltac:(lia)) as (a & HA). rewrite (fp_of_u64_exact c t m a Hm HA).
    destruct (Z.ltb_spec e 0) as [N|N].
    + destruct (exact_power_of_ten_spec t (- e) ltac:(lia)) as (b & -> & HB). cbn [bind]. right. apply G.
      unfold fp_div. rewrite (flushed_int c t m a Hm HA), (flushed_int c t (10 ^ - e) b) by (exact HB || (apply Z.pow_nonneg; lia)).
      assert (RD : rounds t (dec m e) (ieee_div c t a b)).
      { replace e with (- - e) at 1 by lia. apply (div_nearest c t m (- e)); try assumption; lia. }
      rewrite (flushed_dec c t m e _ Hm L1 RD). exact RD.
    + destruct (exact_power_of_ten_spec t e ltac:(lia)) as (b & -> & HB). cbn [bind]. right. apply G.
      unfold fp_mul. rewrite (flushed_int c t m a Hm HA), (flushed_int c t (10 ^ e) b) by (exact HB || (apply Z.pow_nonneg; lia)).
      assert (RM : rounds t (dec m e) (ieee_mul c t a b)) by (apply mul_nearest; try assumption; lia).
      rewrite (flushed_dec c t m e _ Hm L1 RM). exact RM.
  - clear RN. destruct (Z.leb_spec 0 e) as [N|N]; [|left; reflexivity].
    destruct (max_mantissa_pow_spec t e ltac:(lia)) as (mm & -> & HMM & HMT). cbn [bind].
    destruct (Z.leb_spec m mm) as [LM|LM]; [|left; reflexivity].
    destruct ((is_clang c || is_32bit c) && (m =? 0)) eqn:CZ.
    + right. apply andb_true_iff in CZ. destruct CZ as [_ CZ]. apply Z.eqb_eq in CZ. subst m. apply G. apply zero_rounds.
    + clear CZ.
      pose proof (Z.pow_pos_nonneg 5 e ltac:(lia) ltac:(lia)) as P5.
      assert (H5 : m * 5 ^ e <= 2 ^ (mant_bits t + 1)) by nia.
      destruct (small_exact_code t m ltac:(nia)) as (a & HA). rewrite (fp_of_u64_exact c t m a Hm HA).
      destruct (exact_power_of_ten_spec t e ltac:(lia)) as (b & -> & HB). cbn [bind]. right. apply G.
      unfold fp_mul. rewrite (flushed_int c t m a Hm HA), (flushed_int c t (10 ^ e) b) by (exact HB || (apply Z.pow_nonneg; lia)).
      assert (RM : rounds t (dec m e) (ieee_mul c t a b)).
      { apply exact_rounds. apply mul_exact; try assumption; try lia.
        pose proof (Z.pow_pos_nonneg 10 e ltac:(lia) ltac:(lia)).
        eapply Z.le_lt_trans; [|exact HMT]. apply Z.mul_le_mono_nonneg_r; lia. }
      rewrite (flushed_dec c t m e _ Hm L1 RM). exact RM.
Qed.
