(** The generator's loops end, and what they compute. *)
From Coq Require Import ZArith List Lia.
From Verif Require Import Machine Config FastTable DecToBin WordLemmas EiselTable TableScript.
Import ListNotations.
Open Scope Z_scope.

(** ** The loops *)
Lemma shl1 k : Z.shiftl 1 k = 2 ^ k.
Proof. apply Z.shiftl_1_l. Qed.

(** The smallest power of two that reaches p *)
Lemma raise_z_spec p n : 1 < p <= 2 ^ (Z.of_nat n) -> forall fuel z,
  0 <= z <= Z.of_nat n -> 2 ^ z < 2 * p -> (Z.of_nat n < Z.of_nat fuel + z) ->
  exists z', raise_z fuel p z = Some z' /\ z <= z' <= Z.of_nat n /\ p <= 2 ^ z' < 2 * p.
Proof.
  intros Hp. induction fuel as [|fuel IH]; intros z Hz Hlt Hf; [lia|].
  cbn [raise_z]. rewrite shl1. destruct (Z.ltb_spec (2 ^ z) p) as [L|G].
  - assert (z < Z.of_nat n).
    { destruct (Z.eq_dec z (Z.of_nat n)) as [->|]; lia. }
    destruct (IH (z + 1)) as (z' & H1 & H2 & H3); try lia.
    + rewrite Z.pow_add_r, Z.pow_1_r by lia. lia.
    + exists z'. split; [exact H1|]. split; [lia|exact H3].
  - exists z. split; [reflexivity|]. split; [lia|split; lia].
Qed.

Lemma truncate_spec : forall fuel c n,
  0 <= c < 2 ^ (128 + Z.of_nat n) -> (n < fuel)%nat ->
  exists a, 0 <= a /\ truncate fuel c = Some (c / 2 ^ a) /\ c / 2 ^ a < 2 ^ 128 /\
    (a = 0 \/ 2 ^ 127 <= c / 2 ^ a).
Proof.
  induction fuel as [|fuel IH]; intros c n Hc Hf; [lia|].
  cbn [truncate]. rewrite shl1. destruct (Z.leb_spec (2 ^ 128) c) as [G|L].
  - destruct n as [|n]; [change (128 + Z.of_nat 0) with 128 in Hc; lia|].
    destruct (IH (c / 2) n) as (a & A0 & A1 & A2 & A3).
    + split; [apply Z.div_pos; lia|]. apply Z.div_lt_upper_bound; [lia|].
      replace (128 + Z.of_nat (S n)) with (Z.succ (128 + Z.of_nat n)) in Hc by lia.
      rewrite Z.pow_succ_r in Hc by lia. lia.
    + lia.
    + rewrite Z.div_div in A1, A2, A3 by (try (apply Z.pow_nonzero; lia); try (apply Z.pow_pos_nonneg; lia); lia).
      replace (2 * 2 ^ a) with (2 ^ (a + 1)) in A1, A2, A3 by (rewrite Z.pow_add_r by lia; lia).
      exists (a + 1). split; [lia|]. split; [exact A1|]. split; [exact A2|]. right.
      destruct A3 as [->|A3]; [|exact A3].
      change (2 ^ (0 + 1)) with 2. apply Z.div_le_lower_bound; lia.
  - exists 0. change (2 ^ 0) with 1. rewrite Z.div_1_r. split; [lia|]. auto.
Qed.

Lemma normalise_spec : forall fuel p n,
  0 < p -> 2 ^ 127 <= p * 2 ^ (Z.of_nat n) -> (n < fuel)%nat ->
  exists b, 0 <= b <= Z.of_nat n /\ normalise fuel p = Some (p * 2 ^ b) /\ 2 ^ 127 <= p * 2 ^ b /\
    (b = 0 \/ p * 2 ^ b < 2 ^ 128).
Proof.
  induction fuel as [|fuel IH]; intros p n Hp Hn Hf; [lia|].
  cbn [normalise]. rewrite shl1. destruct (Z.ltb_spec p (2 ^ 127)) as [L|G].
  - destruct n as [|n]; [change (2 ^ Z.of_nat 0) with 1 in Hn; lia|].
    destruct (IH (p * 2) n) as (b & B0 & B1 & B2 & B3); [lia| |lia|].
    + rewrite <- Z.mul_assoc, <- Z.pow_succ_r, <- Nat2Z.inj_succ by lia. exact Hn.
    + rewrite <- Z.mul_assoc, <- Z.pow_succ_r in B1, B2, B3 by lia.
      exists (Z.succ b). split; [lia|]. split; [exact B1|]. split; [exact B2|]. right.
      destruct B3 as [->|B3]; [|exact B3]. change (2 ^ Z.succ 0) with 2. lia.
  - exists 0. change (2 ^ 0) with 1. rewrite Z.mul_1_r. split; [lia|]. auto.
Qed.

(** ** What they compute: T is the integer part of (P/D) 2^(b-a), normalised *)
Definition cut_at (P D a b T : Z) : Prop :=
  0 <= a /\ 0 <= b /\ 2 ^ 127 <= T < 2 ^ 128 /\ T * D * 2 ^ a <= P * 2 ^ b < (T + 1) * D * 2 ^ a.

Lemma cut_at_unique P D a b T a' b' T' : 0 < D -> 0 < P ->
  cut_at P D a b T -> cut_at P D a' b' T' -> b - a = b' - a' /\ T = T'.
Proof.
  intros HD HP.
  assert (W : forall a b T a' b' T', cut_at P D a b T -> cut_at P D a' b' T' -> b' - a' <= b - a).
  { clear a b T a' b' T'. intros a b T a' b' T' (A0 & B0 & R & L & U) (A0' & B0' & R' & L' & U').
    destruct (Z_le_gt_dec (b' - a') (b - a)) as [|G]; [assumption|exfalso].
    assert (E1 : 2 ^ 127 * D * 2 ^ (a + a') <= P * 2 ^ (b + a')).
    { rewrite !Z.pow_add_r by lia. transitivity (T * D * 2 ^ a * 2 ^ a').
      - pose proof (Z.pow_pos_nonneg 2 a ltac:(lia) ltac:(lia)).
        pose proof (Z.pow_pos_nonneg 2 a' ltac:(lia) ltac:(lia)).
        rewrite Z.mul_assoc. apply Z.mul_le_mono_nonneg_r; [lia|].
        apply Z.mul_le_mono_nonneg_r; [lia|]. apply Z.mul_le_mono_nonneg_r; lia.
      - rewrite Z.mul_assoc. apply Z.mul_le_mono_nonneg_r; [apply Z.pow_nonneg; lia|exact L]. }
    assert (E2 : P * 2 ^ (b' + a) < 2 ^ 128 * D * 2 ^ (a + a')).
    { rewrite (Z.add_comm a a'), !Z.pow_add_r by lia. rewrite !Z.mul_assoc.
      apply Z.mul_lt_mono_pos_r; [apply Z.pow_pos_nonneg; lia|].
      eapply Z.lt_le_trans; [exact U'|]. apply Z.mul_le_mono_nonneg_r; [apply Z.pow_nonneg; lia|].
      apply Z.mul_le_mono_nonneg_r; lia. }
    assert (E3 : 2 * (P * 2 ^ (b + a')) <= P * 2 ^ (b' + a)).
    { replace (2 * (P * 2 ^ (b + a'))) with (P * 2 ^ Z.succ (b + a')) by (rewrite Z.pow_succ_r by lia; ring).
      apply Z.mul_le_mono_nonneg_l; [lia|]. apply Z.pow_le_mono_r; lia. }
    assert (2 ^ 128 = 2 * 2 ^ 127) by reflexivity.
    set (M := 2 ^ 127) in *. set (N := 2 ^ 128) in *. clearbody M N. subst N.
    rewrite <- !Z.mul_assoc in E1, E2. set (X := D * 2 ^ (a + a')) in *. lia. }
  intros H H'. assert (E : b - a = b' - a').
  { pose proof (W _ _ _ _ _ _ H H'). pose proof (W _ _ _ _ _ _ H' H). lia. }
  split; [exact E|].
  destruct H as (A0 & B0 & R & L & U). destruct H' as (A0' & B0' & R' & L' & U').
  assert (EB : b + a' = b' + a) by lia.
  assert (P1 : 0 < 2 ^ a) by (apply Z.pow_pos_nonneg; lia).
  assert (P2 : 0 < 2 ^ a') by (apply Z.pow_pos_nonneg; lia).
  assert (EP : P * 2 ^ b * 2 ^ a' = P * 2 ^ b' * 2 ^ a)
    by (rewrite <- !Z.mul_assoc, <- !Z.pow_add_r by lia; congruence).
  set (x := 2 ^ a) in *. set (y := 2 ^ a') in *. set (u := P * 2 ^ b) in *. set (v := P * 2 ^ b') in *.
  clearbody x y u v.
  assert (PD : 0 < D * x * y) by (apply Z.mul_pos_pos; [apply Z.mul_pos_pos|]; assumption).
  assert (Q1 : T * (D * x * y) <= u * y) by (replace (T * (D * x * y)) with (T * D * x * y) by ring; apply Z.mul_le_mono_nonneg_r; lia).
  assert (Q2 : u * y < (T + 1) * (D * x * y)) by (replace ((T + 1) * (D * x * y)) with ((T + 1) * D * x * y) by ring; apply Z.mul_lt_mono_pos_r; lia).
  assert (Q3 : T' * (D * x * y) <= v * x) by (replace (T' * (D * x * y)) with (T' * D * y * x) by ring; apply Z.mul_le_mono_nonneg_r; lia).
  assert (Q4 : v * x < (T' + 1) * (D * x * y)) by (replace ((T' + 1) * (D * x * y)) with ((T' + 1) * D * y * x) by ring; apply Z.mul_lt_mono_pos_r; lia).
  rewrite EP in Q1, Q2.
  assert (T < T' + 1) by (apply (Z.mul_lt_mono_pos_r (D * x * y)); lia).
  assert (T' < T + 1) by (apply (Z.mul_lt_mono_pos_r (D * x * y)); lia).
  lia.
Qed.

Lemma pow5_odd k : 0 <= k -> Z.odd (5 ^ k) = true.
Proof.
  intros. destruct (Z.eq_dec k 0) as [->|]; [reflexivity|]. rewrite Z.odd_pow by lia. reflexivity.
Qed.

(** Positive exponents *)
Lemma script_entry_pos fuel q : 0 <= q -> 3 * q < Z.of_nat fuel -> 127 < Z.of_nat fuel ->
  exists T a b, script_entry fuel q = Some T /\ cut_at (5 ^ q) 1 a b T.
Proof.
  intros Hq F1 F2. unfold script_entry. destruct (Z.ltb_spec q 0); [lia|].
  assert (P5 : 0 < 5 ^ q) by (apply Z.pow_pos_nonneg; lia).
  destruct (normalise_spec fuel (5 ^ q) 127 P5) as (b & B0 & B1 & B2 & B3).
  { change (Z.of_nat 127) with 127. set (M := 2 ^ 127). assert (0 < M) by reflexivity. clearbody M. nia. }
  { lia. }
  rewrite B1.
  destruct (truncate_spec fuel (5 ^ q * 2 ^ b) (Z.to_nat (3 * q))) as (a & A0 & A1 & A2 & A3).
  { split; [lia|]. rewrite Z2Nat.id by lia. destruct B3 as [->|B3].
    - rewrite Z.mul_1_r. apply Z.le_lt_trans with (8 ^ q).
      + apply Z.pow_le_mono_l. lia.
      + change 8 with (2 ^ 3). rewrite <- Z.pow_mul_r by lia. apply Z.pow_lt_mono_r; lia.
    - eapply Z.lt_le_trans; [exact B3|]. apply Z.pow_le_mono_r; lia. }
  { lia. }
  rewrite A1. exists (5 ^ q * 2 ^ b / 2 ^ a), a, b. split; [reflexivity|].
  split; [exact A0|]. split; [lia|]. split.
  - split; [|exact A2]. destruct A3 as [->|A3]; [|exact A3].
    change (2 ^ 0) with 1. rewrite Z.div_1_r. exact B2.
  - rewrite !Z.mul_1_r.
    assert (0 < 2 ^ a) by (apply Z.pow_pos_nonneg; lia).
    pose proof (Z.div_mod (5 ^ q * 2 ^ b) (2 ^ a) ltac:(lia)) as D.
    pose proof (Z.mod_pos_bound (5 ^ q * 2 ^ b) (2 ^ a) ltac:(lia)).
    set (x := 5 ^ q * 2 ^ b) in *. set (y := 2 ^ a) in *. set (d := x / y) in *.
    rewrite Z.mul_add_distr_r. rewrite (Z.mul_comm d y). lia.
Qed.

Lemma raise_pow5 fuel k : 0 < k -> 3 * k < Z.of_nat fuel ->
  exists z, raise_z fuel (5 ^ k) 0 = Some z /\ 0 < z <= 3 * k /\ 5 ^ k < 2 ^ z < 2 * 5 ^ k.
Proof.
  intros Hk F.
  assert (O : Z.odd (5 ^ k) = true) by (apply pow5_odd; lia).
  assert (P5 : 5 <= 5 ^ k) by (change 5 with (5 ^ 1) at 1; apply Z.pow_le_mono_r; lia).
  destruct (raise_z_spec (5 ^ k) (Z.to_nat (3 * k))) with (fuel := fuel) (z := 0) as (z & H1 & H2 & H3 & H4).
  - rewrite Z2Nat.id by lia. split; [lia|]. rewrite Z.pow_mul_r by lia. apply Z.pow_le_mono_l. lia.
  - lia.
  - change (2 ^ 0) with 1. lia.
  - lia.
  - rewrite Z2Nat.id in H2 by lia. exists z. split; [exact H1|].
    assert (z <> 0) by (intros ->; change (2 ^ 0) with 1 in H3; lia).
    split; [lia|]. split; [|exact H4].
    assert (5 ^ k <> 2 ^ z); [|lia].
    intros E. rewrite E, Z.odd_pow in O by lia. discriminate O.
Qed.

(** Slightly negative exponents *)
Lemma script_entry_up fuel q : -27 <= q < 0 -> 81 < Z.of_nat fuel ->
  exists T b, script_entry fuel q = Some T /\ cut_at 1 (5 ^ (- q)) 0 b (T - 1) /\
    2 ^ b < T * 5 ^ (- q).
Proof.
  intros Hq F. unfold script_entry. destruct (Z.ltb_spec q 0); [|lia].
  destruct (raise_pow5 fuel (- q)) as (z & E & Hz & L & U); [lia|lia|]. rewrite E.
  destruct (Z.leb_spec (-27) q); [|lia].
  set (p := 5 ^ (- q)) in *. assert (P : 0 < p) by (apply Z.pow_pos_nonneg; lia).
  pose proof (Z.div_mod (2 ^ (z + 127)) p ltac:(lia)) as D.
  pose proof (Z.mod_pos_bound (2 ^ (z + 127)) p P) as M.
  set (t := 2 ^ (z + 127) / p) in *. exists (t + 1), (z + 127). split; [reflexivity|].
  assert (E2 : 2 ^ (z + 127) = 2 ^ z * 2 ^ 127) by (rewrite Z.pow_add_r by lia; reflexivity).
  set (K := 2 ^ 127) in *. assert (K2 : 2 ^ 128 = 2 * K) by reflexivity.
  set (r := 2 ^ (z + 127) mod p) in *. assert (0 < K) by reflexivity.
  assert (T1 : K <= t).
  { unfold t. apply Z.div_le_lower_bound; [lia|]. rewrite E2. apply Z.mul_le_mono_nonneg_r; lia. }
  assert (T2 : t < 2 * K).
  { unfold t. apply Z.div_lt_upper_bound; [lia|]. rewrite E2.
    replace (p * (2 * K)) with (2 * p * K) by ring. apply Z.mul_lt_mono_pos_r; lia. }
  clearbody t r. replace (t + 1 - 1) with t by lia. split.
  - split; [lia|]. split; [lia|]. split; [unfold cut_at; fold K; rewrite K2; lia|].
    change (2 ^ 0) with 1. rewrite D. split; [rewrite Z.mul_1_r, (Z.mul_comm t p); lia|].
    rewrite !Z.mul_1_l, Z.mul_1_r, (Z.mul_comm _ p). lia.
  - rewrite D, (Z.mul_comm _ p). lia.
Qed.

(** Very negative exponents: adding one before truncating changes nothing *)
Lemma script_entry_neg fuel q : q < -27 -> 6 * (- q) + 2 < Z.of_nat fuel ->
  exists T a b, script_entry fuel q = Some T /\ cut_at 1 (5 ^ (- q)) a b T.
Proof.
  intros Hq F. unfold script_entry. destruct (Z.ltb_spec q 0); [|lia].
  destruct (raise_pow5 fuel (- q)) as (z & E & Hz & L & U); [lia|lia|]. rewrite E.
  destruct (Z.leb_spec (-27) q); [lia|].
  set (p := 5 ^ (- q)) in *. assert (P : 0 < p) by (apply Z.pow_pos_nonneg; lia).
  change (2 * z + 2 * 64) with (2 * z + 128). set (b := 2 * z + 128).
  assert (B0 : 0 <= b) by (unfold b; lia).
  pose proof (Z.div_mod (2 ^ b) p ltac:(lia)) as D.
  pose proof (Z.mod_pos_bound (2 ^ b) p P) as M.
  set (t := 2 ^ b / p) in *. set (r := 2 ^ b mod p) in *.
  assert (E2 : 2 ^ b = 2 ^ z * 2 ^ (z + 128)) by (rewrite <- Z.pow_add_r by lia; f_equal; unfold b; lia).
  assert (T1 : 2 ^ (z + 128) <= t).
  { unfold t. apply Z.div_le_lower_bound; [lia|]. rewrite E2. apply Z.mul_le_mono_nonneg_r; [apply Z.pow_nonneg; lia|lia]. }
  assert (PB : 0 < 2 ^ b) by (apply Z.pow_pos_nonneg; lia).
  assert (TB : t <= 2 ^ b) by (unfold t; apply Z.div_le_upper_bound; [lia|nia]).
  destruct (truncate_spec fuel (t + 1) (Z.to_nat (2 * z + 1))) as (a & A0 & A1 & A2 & A3).
  { assert (0 <= t) by (unfold t; apply Z.div_pos; lia). split; [lia|]. rewrite Z2Nat.id by lia.
    replace (128 + (2 * z + 1)) with (Z.succ b) by (unfold b; lia).
    rewrite Z.pow_succ_r by lia.
    assert (1 < 2 ^ b) by (apply Z.pow_gt_1; unfold b; lia). lia. }
  { lia. }
  rewrite A1. exists ((t + 1) / 2 ^ a), a, b. split; [reflexivity|].
  pose proof (Z.div_mod (t + 1) (2 ^ a) ltac:(apply Z.pow_nonzero; lia)) as D2.
  assert (PA : 0 < 2 ^ a) by (apply Z.pow_pos_nonneg; lia).
  pose proof (Z.mod_pos_bound (t + 1) (2 ^ a) PA) as M2.
  set (T := (t + 1) / 2 ^ a) in *. set (s := (t + 1) mod 2 ^ a) in *.
  assert (AZ : z < a).
  { destruct (Z_lt_ge_dec z a) as [|G]; [assumption|exfalso].
    assert (2 ^ (z + 128) <= 2 ^ 128 * 2 ^ a - 1).
    { assert (2 ^ 128 * 2 ^ a >= t + 1 + 1); [|lia].
      assert ((T + 1) * 2 ^ a <= 2 ^ 128 * 2 ^ a) by (apply Z.mul_le_mono_nonneg_r; lia).
      rewrite Z.mul_add_distr_r in H1. rewrite (Z.mul_comm T) in H1. lia. }
    rewrite <- Z.pow_add_r in H1 by lia.
    assert (2 ^ (128 + a) <= 2 ^ (z + 128)) by (apply Z.pow_le_mono_r; lia). lia. }
  assert (AP : p < 2 ^ a).
  { eapply Z.lt_trans; [exact L|]. apply Z.pow_lt_mono_r; lia. }
  split; [exact A0|]. split; [exact B0|]. split.
  { split; [|exact A2]. destruct A3; [lia|assumption]. }
  rewrite Z.mul_1_l.
  assert (AB : a <= b).
  { apply Z.nlt_ge. intros G.
    assert (2 ^ b < 2 ^ a) by (apply Z.pow_lt_mono_r; lia).
    assert (1 <= T).
    { destruct A3 as [|A3]; [lia|]. eapply Z.le_trans; [|exact A3]. lia. }
    assert (HT : 1 * 2 ^ a <= T * 2 ^ a) by (apply Z.mul_le_mono_nonneg_r; lia).
    rewrite (Z.mul_comm T) in HT.
    assert (t + 1 <= 2 ^ b); [|lia].
    assert (t * p <= 2 ^ b) by (rewrite (Z.mul_comm t p); lia).
    assert (t * 2 <= t * p).
    { apply Z.mul_le_mono_nonneg_l; [unfold t; apply Z.div_pos; lia|].
      change 2 with (2 ^ 1). unfold p. assert (5 ^ 1 <= 5 ^ (- q)) by (apply Z.pow_le_mono_r; lia). lia. }
    assert (1 <= t); [|lia]. eapply Z.le_trans; [|exact T1].
    assert (0 < 2 ^ (z + 128)) by (apply Z.pow_pos_nonneg; lia). lia. }
  assert (EB : 2 ^ b = 2 ^ (b - a) * 2 ^ a) by (rewrite <- Z.pow_add_r by lia; f_equal; lia).
  set (x := 2 ^ a) in *. set (y := 2 ^ (b - a)) in *.
  assert (E1 : T * x = t + 1 - s) by (rewrite (Z.mul_comm T x); lia).
  split.
  - replace (T * p * x) with (T * x * p) by ring.
    destruct (Z.eq_dec s 0) as [S0|S0].
    + (* a multiple of 2^a within p of 2^b *)
      destruct (Z_le_gt_dec (T * x * p) (2 ^ b)) as [|G]; [assumption|exfalso].
      assert (G2 : T * x * p <= 2 ^ b + p).
      { rewrite E1, S0. replace ((t + 1 - 0) * p) with (p * t + p) by ring. lia. }
      rewrite EB in G, G2. replace (T * x * p) with (T * p * x) in G, G2 by ring.
      assert (y < T * p) by (apply (Z.mul_lt_mono_pos_r x); lia).
      assert (HY : (y + 1) * x <= T * p * x) by (apply Z.mul_le_mono_nonneg_r; lia).
      rewrite Z.mul_add_distr_r in HY. lia.
    + assert (T * x <= t) by lia. transitivity (t * p); [apply Z.mul_le_mono_nonneg_r; lia|].
      rewrite (Z.mul_comm t p). lia.
  - replace ((T + 1) * p * x) with ((T * x + x) * p) by ring.
    apply Z.lt_le_trans with ((t + 1) * p); [rewrite Z.mul_add_distr_r, (Z.mul_comm t p); lia|].
    apply Z.mul_le_mono_nonneg_r; lia.
Qed.
