(** Word-at-a-time digit recognition and conversion. *)
From Verif Require Import Machine Config Chars WordLemmas SpecGrammar.
Open Scope Z_scope.

Definition byte (x : Z) : Prop := 0 <= x < 256.

(** [rep n x]: the word whose n bytes are all x. *)
Fixpoint rep (n : nat) (x : Z) : Z := match n with O => 0 | S n => x + rep n x * 2 ^ 8 end.

Lemma le_word_cons x l : le_word 8 (x :: l) = x + le_word 8 l * 2 ^ 8.
Proof. cbn [le_word]. lia. Qed.

Lemma le_word_range l : Forall byte l -> 0 <= le_word 8 l < 2 ^ (8 * Z.of_nat (length l)).
Proof.
  induction 1 as [|x l Hx Hl IH]; [cbn; lia|]. rewrite le_word_cons.
  replace (8 * Z.of_nat (length (x :: l))) with (8 + 8 * Z.of_nat (length l)) by (cbn [length]; lia).
  rewrite Z.pow_add_r by lia. unfold byte in Hx. lia.
Qed.

Lemma bytes_high (x : Z) : byte x ->
  Z.land (Z.lor ((x + 70) mod 256) ((x - 48) mod 256)) 128 = 0 <-> digit x = true.
Proof.
  intros H. unfold byte in H.
  assert (L : forallb (fun x => Bool.eqb (Z.land (Z.lor ((x + 70) mod 256) ((x - 48) mod 256)) 128 =? 0) (digit x))
    (map Z.of_nat (seq 0 256)) = true) by (vm_compute; reflexivity).
  rewrite forallb_forall in L. specialize (L x). rewrite in_map_iff in L.
  assert (I : exists n, Z.of_nat n = x /\ In n (seq 0 256)).
  { exists (Z.to_nat x). rewrite in_seq. lia. }
  specialize (L I). apply Bool.eqb_prop in L. rewrite <- L. symmetry. apply Z.eqb_eq.
Qed.

Lemma land_range a m k : 0 <= k -> 0 <= m < 2 ^ k -> 0 <= Z.land a m < 2 ^ k.
Proof.
  intros Hk Hm. assert (N : 0 <= Z.land a m) by (apply Z.land_nonneg; lia). split; [exact N|].
  rewrite <- (Z.mod_small m (2 ^ k) Hm), <- land_ones_mod by lia.
  rewrite Z.land_assoc, land_ones_mod by lia. apply Z.mod_pos_bound. lia.
Qed.

Lemma div_mod_256 x : x = x mod 256 + (x / 256) * 2 ^ 8.
Proof. pose proof (Z.div_mod x 256 ltac:(lia)). change (2 ^ 8) with 256. lia. Qed.

Lemma swar_digits l : Forall byte l ->
  Z.land (Z.lor (le_word 8 l + rep (length l) 70) (le_word 8 l - rep (length l) 48)) (rep (length l) 128) = 0
  <-> all_digits l.
Proof.
  induction 1 as [|x l Hx Hl IH]; [split; [constructor|reflexivity]|].
  rewrite le_word_cons. cbn [length rep].
  set (W := le_word 8 l) in *. set (n := length l) in *. pose proof (bytes_high x Hx) as BH.
  replace (x + W * 2 ^ 8 + (70 + rep n 70 * 2 ^ 8)) with ((x + 70) mod 256 + ((x + 70) / 256 + (W + rep n 70)) * 2 ^ 8)
    by (pose proof (div_mod_256 (x + 70)); lia).
  replace (x + W * 2 ^ 8 - (48 + rep n 48 * 2 ^ 8)) with ((x - 48) mod 256 + ((x - 48) / 256 + (W - rep n 48)) * 2 ^ 8)
    by (pose proof (div_mod_256 (x - 48)); lia).
  pose proof (Z.mod_pos_bound (x + 70) 256 ltac:(lia)). pose proof (Z.mod_pos_bound (x - 48) 256 ltac:(lia)).
  rewrite lor_split by (try change (2 ^ 8) with 256; lia).
  assert (LR : 0 <= Z.lor ((x + 70) mod 256) ((x - 48) mod 256) < 2 ^ 8).
  { split; [apply Z.lor_nonneg; lia|].
    destruct (Z.eq_dec (Z.lor ((x + 70) mod 256) ((x - 48) mod 256)) 0) as [->|N]; [lia|].
    apply Z.log2_lt_pow2; [assert (0 <= Z.lor ((x + 70) mod 256) ((x - 48) mod 256)) by (apply Z.lor_nonneg; lia); lia|].
    rewrite Z.log2_lor by lia. apply Z.max_lub_lt.
    - destruct (Z.eq_dec ((x + 70) mod 256) 0) as [->|]; [cbn; lia|]. apply Z.log2_lt_pow2; change (2 ^ 8) with 256; lia.
    - destruct (Z.eq_dec ((x - 48) mod 256) 0) as [->|]; [cbn; lia|]. apply Z.log2_lt_pow2; change (2 ^ 8) with 256; lia. }
  rewrite land_split by (try change (2 ^ 8) with 256 in *; lia).
  set (lo := Z.land (Z.lor ((x + 70) mod 256) ((x - 48) mod 256)) 128) in *.
  assert (LO : 0 <= lo) by (apply Z.land_nonneg; lia).
  split.
  - intros E.
    assert (DX : digit x = true).
    { apply BH. assert (0 <= lo < 256); [|change (2 ^ 8) with 256 in E; lia].
      apply (land_range _ 128 8); lia. }
    constructor; [exact DX|]. apply IH.
    assert (L0 : lo = 0) by (apply BH; exact DX).
    unfold digit in DX. apply andb_true_iff in DX. destruct DX as [D1 D2]. apply Z.leb_le in D1, D2.
    rewrite (Z.div_small (x + 70) 256), (Z.div_small (x - 48) 256), !Z.add_0_l in E by lia.
    rewrite L0 in E. change (2 ^ 8) with 256 in E. lia.
  - intros A. inversion A as [|? ? DX DL]; subst. apply BH in DX as L0. rewrite L0.
    apply IH in DL. unfold digit in DX. apply andb_true_iff in DX. destruct DX as [D1 D2]. apply Z.leb_le in D1, D2.
    rewrite (Z.div_small (x + 70) 256), (Z.div_small (x - 48) 256), !Z.add_0_l by lia. rewrite DL. reflexivity.
Qed.

Lemma land_mod_mask x m k : 0 <= k -> 0 <= m < 2 ^ k -> Z.land (x mod 2 ^ k) m = Z.land x m.
Proof.
  intros Hk Hm. rewrite <- land_ones_mod by lia. rewrite <- Z.land_assoc. f_equal.
  rewrite Z.land_comm, land_ones_mod by lia. apply Z.mod_small. exact Hm.
Qed.

Lemma land_lor_mod x y m k : 0 <= k -> 0 <= m < 2 ^ k ->
  Z.land (Z.lor (x mod 2 ^ k) (y mod 2 ^ k)) m = Z.land (Z.lor x y) m.
Proof.
  intros Hk Hm. rewrite !Z.land_lor_distr_l, !land_mod_mask by assumption. reflexivity.
Qed.

Lemma eight_digits_spec l : length l = 8%nat -> Forall byte l ->
  is_made_of_eight_digits_fast (le_word 8 l) = true <-> all_digits l.
Proof.
  intros L B. unfold is_made_of_eight_digits_fast, u64. rewrite Z.eqb_eq.
  rewrite land_lor_mod by (vm_compute; intuition discriminate).
  pose proof (swar_digits l B) as S. rewrite L in S. exact S.
Qed.

Lemma four_digits_spec l : length l = 4%nat -> Forall byte l ->
  is_made_of_four_digits_fast (le_word 8 l) = true <-> all_digits l.
Proof.
  intros L B. unfold is_made_of_four_digits_fast, u32. rewrite Z.eqb_eq.
  rewrite land_lor_mod by (vm_compute; intuition discriminate).
  pose proof (swar_digits l B) as S. rewrite L in S. exact S.
Qed.

(** ** Conversion of eight and four digits *)

Lemma digit_range x : digit x = true -> 48 <= x <= 57.
Proof. unfold digit. rewrite andb_true_iff, !Z.leb_le. lia. Qed.

Lemma land_bytes04 b0 b1 r : 0 <= b0 < 256 -> 0 <= b1 < 256 -> forall y0 y1, 0 <= y0 < 2 ^ 24 -> 0 <= y1 < 2 ^ 24 ->
  Z.land (b0 + (y0 + (b1 + (y1 + r * 2 ^ 24) * 2 ^ 8) * 2 ^ 24) * 2 ^ 8) 0x000000FF000000FF = b0 + b1 * 2 ^ 32.
Proof.
  intros H0 H1 y0 y1 Y0 Y1.
  change 0x000000FF000000FF with (255 + (0 + (255 + (0 + 0 * 2 ^ 24) * 2 ^ 8) * 2 ^ 24) * 2 ^ 8).
  rewrite !land_split by (try change (2 ^ 8) with 256; lia). rewrite !Z.land_0_r.
  change 255 with (2 ^ 8 - 1). rewrite !land_ones_mod by lia. rewrite !Z.mod_small by (change (2 ^ 8) with 256; lia). lia.
Qed.

Lemma parse_eight_spec d0 d1 d2 d3 d4 d5 d6 d7 :
  all_digits [d0; d1; d2; d3; d4; d5; d6; d7] ->
  parse_eight_digits_unrolled_val (le_word 8 [d0; d1; d2; d3; d4; d5; d6; d7]) =
  digits_value [d0; d1; d2; d3; d4; d5; d6; d7].
Proof.
  intros A.
  repeat match goal with H : all_digits (_ :: _) |- _ => inversion H; clear H; subst
    | H : Forall _ (_ :: _) |- _ => inversion H; clear H; subst end.
  repeat match goal with H : digit _ = true |- _ => apply digit_range in H end.
  unfold digits_value. cbn [fold_left]. unfold parse_eight_digits_unrolled_val.
  set (a0 := d0 - 48) in *. set (a1 := d1 - 48) in *. set (a2 := d2 - 48) in *. set (a3 := d3 - 48) in *.
  set (a4 := d4 - 48) in *. set (a5 := d5 - 48) in *. set (a6 := d6 - 48) in *. set (a7 := d7 - 48) in *.
  assert (R : 0 <= a0 <= 9 /\ 0 <= a1 <= 9 /\ 0 <= a2 <= 9 /\ 0 <= a3 <= 9 /\ 0 <= a4 <= 9 /\ 0 <= a5 <= 9 /\ 0 <= a6 <= 9 /\ 0 <= a7 <= 9)
    by (unfold a0, a1, a2, a3, a4, a5, a6, a7; lia).
  assert (E0 : u64 (le_word 8 [d0; d1; d2; d3; d4; d5; d6; d7] - 0x3030303030303030) =
     a0 + a1 * 2 ^ 8 + a2 * 2 ^ 16 + a3 * 2 ^ 24 + a4 * 2 ^ 32 + a5 * 2 ^ 40 + a6 * 2 ^ 48 + a7 * 2 ^ 56).
  { rewrite u64_small; cbn [le_word]; unfold a0, a1, a2, a3, a4, a5, a6, a7; lia. }
  rewrite E0. clear E0. clearbody a0 a1 a2 a3 a4 a5 a6 a7.
  set (v := a0 + a1 * 2 ^ 8 + a2 * 2 ^ 16 + a3 * 2 ^ 24 + a4 * 2 ^ 32 + a5 * 2 ^ 40 + a6 * 2 ^ 48 + a7 * 2 ^ 56).
  assert (E1 : Z.shiftr v 8 = a1 + a2 * 2 ^ 8 + a3 * 2 ^ 16 + a4 * 2 ^ 24 + a5 * 2 ^ 32 + a6 * 2 ^ 40 + a7 * 2 ^ 48).
  { rewrite Z.shiftr_div_pow2 by lia. symmetry. apply (Z.div_unique_pos v (2 ^ 8) _ a0); unfold v; lia. }
  rewrite E1. rewrite (u64_small (v * 10)) by (unfold v; lia).
  set (b0 := 10 * a0 + a1). set (b1 := 10 * a1 + a2). set (b2 := 10 * a2 + a3). set (b3 := 10 * a3 + a4).
  set (b4 := 10 * a4 + a5). set (b5 := 10 * a5 + a6). set (b6 := 10 * a6 + a7). set (b7 := 10 * a7).
  assert (E2 : u64 (v * 10 + (a1 + a2 * 2 ^ 8 + a3 * 2 ^ 16 + a4 * 2 ^ 24 + a5 * 2 ^ 32 + a6 * 2 ^ 40 + a7 * 2 ^ 48)) =
    b0 + b1 * 2 ^ 8 + b2 * 2 ^ 16 + b3 * 2 ^ 24 + b4 * 2 ^ 32 + b5 * 2 ^ 40 + b6 * 2 ^ 48 + b7 * 2 ^ 56).
  { rewrite u64_small; unfold v, b0, b1, b2, b3, b4, b5, b6, b7; lia. }
  rewrite E2. clear E2 E1.
  set (w := b0 + b1 * 2 ^ 8 + b2 * 2 ^ 16 + b3 * 2 ^ 24 + b4 * 2 ^ 32 + b5 * 2 ^ 40 + b6 * 2 ^ 48 + b7 * 2 ^ 56).
  assert (RB : 0 <= b0 <= 99 /\ 0 <= b1 <= 99 /\ 0 <= b2 <= 99 /\ 0 <= b3 <= 99 /\ 0 <= b4 <= 99 /\ 0 <= b5 <= 99 /\ 0 <= b6 <= 99 /\ 0 <= b7 <= 99)
    by (unfold b0, b1, b2, b3, b4, b5, b6, b7; lia).
  assert (M1 : Z.land w 0x000000FF000000FF = b0 + b4 * 2 ^ 32).
  { rewrite <- (land_bytes04 b0 b4 0 ltac:(lia) ltac:(lia) (b1 + b2 * 2 ^ 8 + b3 * 2 ^ 16) (b5 + b6 * 2 ^ 8 + b7 * 2 ^ 16)) by lia.
    f_equal. unfold w. lia. }
  assert (M2 : Z.land (Z.shiftr w 16) 0x000000FF000000FF = b2 + b6 * 2 ^ 32).
  { replace (Z.shiftr w 16) with (b2 + b3 * 2 ^ 8 + b4 * 2 ^ 16 + b5 * 2 ^ 24 + b6 * 2 ^ 32 + b7 * 2 ^ 40).
    2:{ rewrite Z.shiftr_div_pow2 by lia. apply (Z.div_unique_pos w (2 ^ 16) _ (b0 + b1 * 2 ^ 8)); unfold w; lia. }
    rewrite <- (land_bytes04 b2 b6 0 ltac:(lia) ltac:(lia) (b3 + b4 * 2 ^ 8 + b5 * 2 ^ 16) b7) by lia.
    f_equal. lia. }
  rewrite M1, M2. clear M1 M2.
  assert (P1 : u64 ((b0 + b4 * 2 ^ 32) * 0x000F424000000064) = 100 * b0 + (1000000 * b0 + 100 * b4) * 2 ^ 32).
  { unfold u64. symmetry. apply (Z.mod_unique_pos _ _ (1000000 * b4)); lia. }
  assert (P2 : u64 ((b2 + b6 * 2 ^ 32) * 0x0000271000000001) = b2 + (10000 * b2 + b6) * 2 ^ 32).
  { unfold u64. symmetry. apply (Z.mod_unique_pos _ _ (10000 * b6)); lia. }
  rewrite P1, P2. rewrite u64_small by lia. rewrite Z.shiftr_div_pow2 by lia.
  rewrite <- (Z.div_unique_pos (100 * b0 + (1000000 * b0 + 100 * b4) * 2 ^ 32 + (b2 + (10000 * b2 + b6) * 2 ^ 32)) (2 ^ 32)
    (1000000 * b0 + 100 * b4 + 10000 * b2 + b6) (100 * b0 + b2)) by lia.
  rewrite u32_small by lia. unfold b0, b2, b4, b6. lia.
Qed.

Lemma parse_four_spec d0 d1 d2 d3 :
  all_digits [d0; d1; d2; d3] ->
  parse_four_digits_unrolled (le_word 8 [d0; d1; d2; d3]) = digits_value [d0; d1; d2; d3].
Proof.
  intros A.
  repeat match goal with H : all_digits (_ :: _) |- _ => inversion H; clear H; subst
    | H : Forall _ (_ :: _) |- _ => inversion H; clear H; subst end.
  repeat match goal with H : digit _ = true |- _ => apply digit_range in H end.
  unfold digits_value. cbn [fold_left]. unfold parse_four_digits_unrolled.
  set (a0 := d0 - 48) in *. set (a1 := d1 - 48) in *. set (a2 := d2 - 48) in *. set (a3 := d3 - 48) in *.
  assert (R : 0 <= a0 <= 9 /\ 0 <= a1 <= 9 /\ 0 <= a2 <= 9 /\ 0 <= a3 <= 9)
    by (unfold a0, a1, a2, a3; lia).
  assert (E0 : u32 (le_word 8 [d0; d1; d2; d3] - 0x30303030) = a0 + a1 * 2 ^ 8 + a2 * 2 ^ 16 + a3 * 2 ^ 24).
  { rewrite u32_small; cbn [le_word]; unfold a0, a1, a2, a3; lia. }
  rewrite E0. clear E0. clearbody a0 a1 a2 a3.
  set (v := a0 + a1 * 2 ^ 8 + a2 * 2 ^ 16 + a3 * 2 ^ 24).
  assert (E1 : Z.shiftr v 8 = a1 + a2 * 2 ^ 8 + a3 * 2 ^ 16).
  { rewrite Z.shiftr_div_pow2 by lia. symmetry. apply (Z.div_unique_pos v (2 ^ 8) _ a0); unfold v; lia. }
  rewrite E1. rewrite (u32_small (v * 10)) by (unfold v; lia).
  set (b0 := 10 * a0 + a1). set (b1 := 10 * a1 + a2). set (b2 := 10 * a2 + a3). set (b3 := 10 * a3).
  assert (E2 : u32 (v * 10 + (a1 + a2 * 2 ^ 8 + a3 * 2 ^ 16)) = b0 + b1 * 2 ^ 8 + b2 * 2 ^ 16 + b3 * 2 ^ 24).
  { rewrite u32_small; unfold v, b0, b1, b2, b3; lia. }
  rewrite E2. clear E2 E1.
  assert (RB : 0 <= b0 <= 99 /\ 0 <= b1 <= 99 /\ 0 <= b2 <= 99 /\ 0 <= b3 <= 99)
    by (unfold b0, b1, b2, b3; lia).
  assert (M1 : Z.land (b0 + b1 * 2 ^ 8 + b2 * 2 ^ 16 + b3 * 2 ^ 24) 0x00FF00FF = b0 + b2 * 2 ^ 16).
  { replace (b0 + b1 * 2 ^ 8 + b2 * 2 ^ 16 + b3 * 2 ^ 24) with (b0 + (b1 + (b2 + b3 * 2 ^ 8) * 2 ^ 8) * 2 ^ 8) by lia.
    change 0x00FF00FF with (255 + (0 + (255 + 0 * 2 ^ 8) * 2 ^ 8) * 2 ^ 8).
    rewrite !land_split by (try change (2 ^ 8) with 256; lia). rewrite !Z.land_0_r.
    change 255 with (2 ^ 8 - 1). rewrite !land_ones_mod by lia. rewrite !Z.mod_small by (change (2 ^ 8) with 256; lia). lia. }
  rewrite M1.
  assert (P1 : u32 ((b0 + b2 * 2 ^ 16) * 0x00640001) = b0 + (100 * b0 + b2) * 2 ^ 16).
  { unfold u32. symmetry. apply (Z.mod_unique_pos _ _ (100 * b2)); lia. }
  rewrite P1. rewrite Z.shiftr_div_pow2 by lia.
  rewrite <- (Z.div_unique_pos (b0 + (100 * b0 + b2) * 2 ^ 16) (2 ^ 16) (100 * b0 + b2) b0) by lia.
  change 0xFFFF with (2 ^ 16 - 1). rewrite land_ones_mod by lia. rewrite Z.mod_small by lia.
  unfold b0, b2. lia.
Qed.
