(** Property C13, the primitives: counting zeros and multiplying words give the same exact
    answer with and without compiler intrinsics, on every build. *)
From Verif Require Import Machine Config Chars WordLemmas.
From Coq Require Import ZifyBool.
Open Scope Z_scope.

(** Every positive number is a power of two times an odd number. *)
Lemma odd_part p : exists k m, 0 <= k /\ 0 <= m /\ Zpos p = 2 ^ k * (2 * m + 1) /\ ctz_pos p = k.
Proof.
  induction p as [p IH|p IH|]; [exists 0, (Zpos p)| |exists 0, 0]; cbn [ctz_pos]; try lia.
  destruct IH as (k & m & K & M & E & C). exists (1 + k), m. repeat split; try lia.
  rewrite Pos2Z.inj_xO, E, Z.pow_add_r by lia. change (2 ^ 1) with 2. ring.
Qed.

Lemma generic_odd k m : 0 <= m -> 0 <= k < 32 -> countr_zero_generic_32 (2 ^ k * (2 * m + 1)) = k.
Proof.
  intros M K.
  assert (C : forall P : Z -> Prop, (forall i : nat, (i < 32)%nat -> P (Z.of_nat i)) -> P k).
  { intros P H. rewrite <- (Z2Nat.id k) by lia. apply H. lia. }
  revert k K C. enough (H : forall i : nat, (i < 32)%nat -> countr_zero_generic_32 (2 ^ Z.of_nat i * (2 * m + 1)) = Z.of_nat i).
  { intros k K C. apply C. exact H. }
  assert (T : forall x n, 0 <= n -> Z.land x (2 ^ n - 1) = x mod 2 ^ n).
  { intros x n N. rewrite <- Z.land_ones by exact N. rewrite Z.ones_equiv. f_equal; lia. }
  assert (T16 : forall x, Z.land x 0x0000FFFF = x mod 65536) by (intros x; apply (T x 16); lia).
  assert (T8 : forall x, Z.land x 0x00FF = x mod 256) by (intros x; apply (T x 8); lia).
  assert (T4 : forall x, Z.land x 0x0F = x mod 16) by (intros x; apply (T x 4); lia).
  assert (T2 : forall x, Z.land x 0x3 = x mod 4) by (intros x; apply (T x 2); lia).
  assert (T1 : forall x, Z.land x 0x1 = x mod 2) by (intros x; apply (T x 1); lia).
  assert (S16 : forall x, Z.shiftr x 16 = x / 65536) by (intros x; apply Z.shiftr_div_pow2; lia).
  assert (S8 : forall x, Z.shiftr x 8 = x / 256) by (intros x; apply Z.shiftr_div_pow2; lia).
  assert (S4 : forall x, Z.shiftr x 4 = x / 16) by (intros x; apply Z.shiftr_div_pow2; lia).
  assert (S2 : forall x, Z.shiftr x 2 = x / 4) by (intros x; apply Z.shiftr_div_pow2; lia).
  clear T. intros i I. unfold countr_zero_generic_32.
  do 32 (destruct i as [|i];
    [clear I; match goal with |- context [2 ^ Z.of_nat ?n] => let v := eval vm_compute in (2 ^ Z.of_nat n) in change (2 ^ Z.of_nat n) with v end;
     match goal with |- context [if ?a =? 0 then 32 else _] => set (x0 := a); assert (X0 : x0 = a) by reflexivity; clearbody x0 end;
     destruct (Z.eqb_spec x0 0) as [Q|_]; [exfalso; lia|];
     rewrite T16; destruct (Z.eqb_spec (x0 mod 65536) 0) as [Q|Q]; [rewrite S16; set (x1 := x0 / 65536); assert (X1 : x1 = x0 / 65536) by reflexivity; clearbody x1|set (x1 := x0); assert (X1 : x1 = x0) by reflexivity; clearbody x1]; try (exfalso; lia);
     rewrite T8; destruct (Z.eqb_spec (x1 mod 256) 0) as [Q1|Q1]; [rewrite S8; set (x2 := x1 / 256); assert (X2 : x2 = x1 / 256) by reflexivity; clearbody x2|set (x2 := x1); assert (X2 : x2 = x1) by reflexivity; clearbody x2]; try (exfalso; lia);
     rewrite T4; destruct (Z.eqb_spec (x2 mod 16) 0) as [Q2|Q2]; [rewrite S4; set (x3 := x2 / 16); assert (X3 : x3 = x2 / 16) by reflexivity; clearbody x3|set (x3 := x2); assert (X3 : x3 = x2) by reflexivity; clearbody x3]; try (exfalso; lia);
     rewrite T2; destruct (Z.eqb_spec (x3 mod 4) 0) as [Q3|Q3]; [rewrite S2; set (x4 := x3 / 4); assert (X4 : x4 = x3 / 4) by reflexivity; clearbody x4|set (x4 := x3); assert (X4 : x4 = x3) by reflexivity; clearbody x4]; try (exfalso; lia);
     rewrite T1; destruct (Z.eqb_spec (x4 mod 2) 0) as [Q4|Q4]; try (exfalso; lia); reflexivity|]).
  lia.
Qed.

(** C13: on every build, at compile time and at run time: the trailing zeros of a 32-bit
    word are those of its largest power-of-two divisor (32 for zero), the leading zeros of a
    nonzero 64-bit word are those in front of its highest bit, and the product of two
    64-bit words is exact. *)
Theorem primitives_exact :
  forall c : cfg,
  countr_zero_32 c 0 = 32 /\
  (forall x, 0 < x < 2 ^ 32 -> exists m, 0 <= countr_zero_32 c x < 32 /\ x = 2 ^ countr_zero_32 c x * (2 * m + 1)) /\
  (forall x, 0 < x < 2 ^ 64 -> exists k, leading_zeroes c x = Ok k /\ 0 <= k < 64 /\ 2 ^ (63 - k) <= x < 2 ^ (64 - k)) /\
  (forall a b, 0 <= a < 2 ^ 64 -> 0 <= b < 2 ^ 64 ->
     exists lo hi, full_multiplication c a b = (lo, hi) /\ 0 <= lo < 2 ^ 64 /\ 0 <= hi < 2 ^ 64 /\ a * b = hi * 2 ^ 64 + lo).
Proof.
  intros c. split; [|split; [|split]].
  - unfold countr_zero_32. destruct (in_constexpr c || negb (clz_builtin c)); reflexivity.
  - intros [|p|p] X; try lia. destruct (odd_part p) as (k & m & K & M & E & C).
    assert (K32 : k < 32).
    { assert (2 ^ k < 2 ^ 32); [|apply (Z.pow_lt_mono_r_iff 2); lia]. pose proof (Z.pow_pos_nonneg 2 k ltac:(lia) K). nia. }
    exists m. assert (Q : countr_zero_32 c (Zpos p) = k).
    { unfold countr_zero_32. destruct (in_constexpr c || negb (clz_builtin c)); [rewrite E; apply generic_odd; lia|exact C]. }
    rewrite Q. split; [lia|exact E].
  - intros x X. exists (63 - Z.log2 x). split; [apply leading_zeroes_spec; exact X|].
    pose proof (Z.log2_spec x ltac:(lia)) as L. pose proof (Z.log2_nonneg x).
    assert (Z.log2 x < 64) by (apply Z.log2_lt_pow2; lia). split; [lia|].
    replace (63 - (63 - Z.log2 x)) with (Z.log2 x) by lia. replace (64 - (63 - Z.log2 x)) with (Z.succ (Z.log2 x)) by lia. exact L.
  - intros a b A B. exists (a * b mod 2 ^ 64), (a * b / 2 ^ 64). split; [apply full_multiplication_spec; assumption|].
    split; [apply Z.mod_pos_bound; lia|]. split; [|rewrite (Z.mul_comm (_ / _)); apply Z.div_mod; lia].
    split; [apply Z.div_pos; nia|apply Z.div_lt_upper_bound; nia].
Qed.
Print Assumptions primitives_exact.
