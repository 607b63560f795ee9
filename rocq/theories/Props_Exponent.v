(** Property C28, without a bound on the text: what is computed when the
    exponent is larger than the library reads, and when that is exact. *)
From Verif Require Import Machine Config Chars Format ParseNumber DecToBin FromChars WordLemmas
  Rounding ComputeFloat SpecFloat FloatBridge SpecGrammar SpecApi Scan ParseSpec Special
  SlowPath ManyDigits Saturate FloatMaster FloatApi FloatRel Defined Pow10 Props_Pow10 Props_Float Props_Relations Props_Texts.
From Coq Require Import QArith Lqa.
Open Scope Z_scope.

Lemma clamp_read e e' : clamp e e' -> exponent_read e e'.
Proof.
  intros (C & _ & (k & K0 & E & K1 & K2)).
  assert (NB : Z.abs e' < 10 * 2 ^ 28) by (pose proof (Z.div_mod (Z.abs e') 10 ltac:(lia)); pose proof (Z.mod_pos_bound (Z.abs e') 10 ltac:(lia)); lia).
  destruct (Z_lt_le_dec (Z.abs e) (2 ^ 28)) as [S|S].
  - left. split; [exact S|]. lia.
  - right. exists k. split; [exact K0|].
    assert (B : 2 ^ 28 <= Z.abs e'). { destruct K1 as [->|K1]; [rewrite Z.div_1_r in E; lia|exact K1]. }
    rewrite <- E. split; [|split; assumption]. clear - C S B. destruct (Z.sgn_spec e) as [[? ->]|[[? ->]|[? ->]]]; lia.
Qed.

Lemma read_unique e a b : exponent_read e a -> exponent_read e b -> a = b.
Proof.
  assert (G : forall n i j, 0 <= i -> i < j -> n / 10 ^ i < 10 * 2 ^ 28 -> 2 ^ 28 <= n / 10 ^ j -> False).
  { intros n i j I0 IJ A B.
    pose proof (Z.pow_pos_nonneg 10 i ltac:(lia) I0) as P. pose proof (Z.pow_pos_nonneg 10 (j - i - 1) ltac:(lia) ltac:(lia)) as P'.
    replace (10 ^ j) with (10 ^ i * 10 * 10 ^ (j - i - 1)) in B.
    2:{ rewrite <- (Z.pow_1_r 10) at 2. rewrite <- !Z.pow_add_r by lia. f_equal. lia. }
    rewrite <- !Z.div_div in B by lia. revert A B P'. generalize (n / 10 ^ i) (10 ^ (j - i - 1)). clear. intros x p A B P.
    assert (X : x / 10 < 2 ^ 28) by (apply Z.div_lt_upper_bound; lia).
    destruct (Z_lt_le_dec (x / 10) 0) as [N|N].
    - pose proof (Z.div_lt_upper_bound (x / 10) p 0 P ltac:(lia)). lia.
    - pose proof (Z.div_le_upper_bound (x / 10) p (x / 10) P ltac:(nia)). lia. }
  intros [(A & ->)|(k & K0 & -> & K)] [(B & ->)|(l & L0 & -> & L)].
  - reflexivity.
  - exfalso. pose proof (Z.pow_pos_nonneg 10 l ltac:(lia) L0).
    pose proof (Z.div_le_upper_bound (Z.abs e) (10 ^ l) (Z.abs e) ltac:(lia) ltac:(nia)). lia.
  - exfalso. pose proof (Z.pow_pos_nonneg 10 k ltac:(lia) K0).
    pose proof (Z.div_le_upper_bound (Z.abs e) (10 ^ k) (Z.abs e) ltac:(lia) ltac:(nia)). lia.
  - f_equal. destruct (Z.lt_trichotomy k l) as [H|[->|H]]; [exfalso|reflexivity|exfalso].
    + apply (G (Z.abs e) k l); lia.
    + apply (G (Z.abs e) l k); lia.
Qed.

Lemma read_exists e : exists e', exponent_read e e'.
Proof.
  destruct (Z_lt_le_dec (Z.abs e) (2 ^ 28)) as [S|S]; [exists e; left; split; [exact S|reflexivity]|].
  assert (X : forall n, 0 <= n -> forall m, 2 ^ 28 <= m -> m < 10 ^ n * 2 ^ 28 -> exists k, 0 <= k /\ 2 ^ 28 <= m / 10 ^ k < 10 * 2 ^ 28).
  { apply (natlike_ind (fun n => forall m, 2 ^ 28 <= m -> m < 10 ^ n * 2 ^ 28 -> exists k, 0 <= k /\ 2 ^ 28 <= m / 10 ^ k < 10 * 2 ^ 28)).
    - intros m A B. rewrite Z.pow_0_r in B. lia.
    - intros n N0 IH m A B. destruct (Z_lt_le_dec m (10 * 2 ^ 28)) as [H|H].
      + exists 0. rewrite Z.pow_0_r, Z.div_1_r. lia.
      + destruct (IH (m / 10)) as (k & K0 & K).
        * apply Z.div_le_lower_bound; lia.
        * apply Z.div_lt_upper_bound; [lia|]. rewrite Z.pow_succ_r in B by exact N0. lia.
        * exists (Z.succ k). split; [lia|]. rewrite Z.pow_succ_r by exact K0. pose proof (Z.pow_pos_nonneg 10 k ltac:(lia) K0).
          rewrite <- Z.div_div by lia. exact K. }
  destruct (X (Z.abs e) ltac:(lia) (Z.abs e) S) as (k & K0 & K).
  { pose proof (Z.pow_gt_lin_r 10 (Z.abs e) ltac:(lia) ltac:(lia)). lia. }
  exists (Z.sgn e * (Z.abs e / 10 ^ k)). right. exists k. auto.
Qed.

(** The exponent read is determined by the exponent written. *)
Theorem exponent_read_function : forall e, exists! e', exponent_read e e'.
Proof.
  intros e. destruct (read_exists e) as (e' & H). exists e'. split; [exact H|]. intros x Hx. exact (read_unique e e' x H Hx).
Qed.
Print Assumptions exponent_read_function.

(** *** C28: no bound on the text, no bound on the exponent *)
Theorem from_chars_any_exponent :
  forall (c : cfg) (u : uc) (t : ftype) (o : options) (s s0 : list Z)
         (neg : bool) (ip fp : list Z) (e : Z) (rest : list Z) (e' : Z),
  good_text c u o s -> starts_at c o s s0 ->
  number (rules_of c o) s0 neg ip fp e rest -> exponent_read e e' ->
  exists b x,
    from_chars_float_advanced c u t s o =
      Ok {| r_ptr := rest; r_ec := x; r_value := Some (with_sign (format_of t) neg b) |} /\
    nearest_but_subnormal_ties (format_of t) (number_value ip fp e') b /\
    (t <> F16 -> nearest_even (format_of t) (number_value ip fp e') b) /\
    (t <> F16 \/ ~ silent_float16_overflow c ip fp e' -> range_rule (format_of t) (number_value ip fp e') b x) /\
    (t = F16 -> silent_float16_overflow c ip fp e' -> x = Success).
Proof.
  intros c u t o s s0 neg ip fp e rest e' G SA N RD.
  destruct (float_number_clamped c u t o s s0 neg ip fp e rest (good_text_ok _ _ _ _ G) SA N) as (e1 & b & x & CL & E & NR & (O1 & O2)).
  rewrite (read_unique e e' e1 RD (clamp_read e e1 CL)). clear e' RD.
  exists b, x. split; [exact E|]. split; [|split; [|split]].
  - apply near_spec. eapply near_comp; [symmetry; apply number_value_dec|exact NR].
  - intros NT. eapply nearest_even_comp; [symmetry; apply number_value_dec|].
    apply rounds_nearest_even. apply near_not_F16; assumption.
  - intros NQ. apply range_code_rule with (digits_value (ip ++ fp)); [apply number_value_pos|].
    apply O2. intros (Q & Q'). destruct NQ as [NQ|NQ]; [contradiction|]. apply NQ. exact Q'.
  - intros T SQ. apply O1. split; [exact T|exact SQ].
Qed.
Print Assumptions from_chars_any_exponent.

(** An exponent of twelve digits is cut after nine: "1e-999999999999" is read
    as 1e-999999999. *)
Example any_exponent_example :
  exponent_read (-999999999999) (-999999999) /\
  let s := 49 :: 101 :: 45 :: repeat 57 12 in
  good_text cfg_x86_64 Char_s general s /\ starts_at cfg_x86_64 general s s /\
  number (rules_of cfg_x86_64 general) s false [49] [] (-999999999999) [] /\
  from_chars_float_advanced cfg_x86_64 Char_s F64 s general = Ok {| r_ptr := []; r_ec := OutOfRange; r_value := Some 0 |}.
Proof.
  split; [right; exists 3; vm_compute; repeat split; discriminate|].
  intros s. split; [apply ascii_good; [repeat constructor; lia|vm_compute; discriminate|reflexivity]|]. split; [reflexivity|]. split.
  { exists s, (tl s), false, (tl s). split; [apply signed_none; cbn; lia|].
    split; [split; [reflexivity|]; split; [repeat constructor|]; cbn; discriminate|].
    split; [apply fraction_none; cbn; lia|]. split; [cbn; discriminate|].
    apply (exponent_some _ _ (45 :: repeat 57 12) true (repeat 57 12) (repeat 57 12)).
    - apply mark_e; [reflexivity|left; reflexivity].
    - apply exp_minus.
    - split; [reflexivity|]. split; [repeat constructor|exact I].
    - discriminate. }
  vm_compute. reflexivity.
Qed.

(** The text of [from_chars_huge_exponent_refuted], for which no other theorem
    applies, meets the hypotheses: its exponent 9999999999 is read as 999999999. *)
Example giant_exponent_example : forall n : nat,
  exponent_read 9999999999 999999999 /\
  number (rules_of cfg_x86_64 general) (giant_text n) false [48] (repeat 48 n ++ [49]) 9999999999 [] /\
  (268000000 <= Z.of_nat n -> ~ exponent_bounded (giant_text n) 9999999999).
Proof.
  intros n. split; [right; exists 1; vm_compute; repeat split; discriminate|]. split; [apply giant_number|].
  intros L [H|H]; [|vm_compute in H; discriminate].
  unfold giant_text in H. cbn [length] in H. rewrite app_length, app_length, repeat_length in H. lia.
Qed.
