(** Property C53: printed numbers are read back. *)
From Verif Require Import Machine Config Chars Format ParseNumber DecToBin FromChars Ints WordLemmas
  Rounding ComputeFloat SpecFloat FloatBridge Pow10 SpecGrammar SpecInt SpecApi SpecIntApi SpecText SpecRel SpecPrint
  Scan ParseSpec Special IntSpec
  SlowPath ManyDigits Saturate FloatMaster FloatApi FloatRel IntApi Props_Pow10 Props_Float Props_Relations Props_Texts
  Props_Grammar Props_Spelling Props_Ints Props_IntMore.
From Coq Require Import QArith Qabs Qpower Qround Lqa.
Open Scope Z_scope.

(** ** Integers *)
Lemma digit_char_of up d : 0 <= d < 36 -> digit_of (digit_char up d) = Some d.
Proof.
  intros D. unfold digit_of, digit_char. destruct (Z.ltb_spec d 10).
  - replace ((48 <=? 48 + d) && (48 + d <=? 57)) with true by (symmetry; apply andb_true_intro; split; apply Z.leb_le; lia). f_equal. lia.
  - destruct up.
    + replace ((48 <=? 55 + d) && (55 + d <=? 57)) with false by (symmetry; apply andb_false_iff; right; apply Z.leb_gt; lia).
      replace ((97 <=? 55 + d) && (55 + d <=? 122)) with false by (symmetry; apply andb_false_iff; left; apply Z.leb_gt; lia).
      replace ((65 <=? 55 + d) && (55 + d <=? 90)) with true by (symmetry; apply andb_true_intro; split; apply Z.leb_le; lia). f_equal. lia.
    + replace ((48 <=? 87 + d) && (87 + d <=? 57)) with false by (symmetry; apply andb_false_iff; right; apply Z.leb_gt; lia).
      replace ((97 <=? 87 + d) && (87 + d <=? 122)) with true by (symmetry; apply andb_true_intro; split; apply Z.leb_le; lia). f_equal. lia.
Qed.

Lemma base_digits_spec up base : 2 <= base <= 36 -> forall fuel n acc, 0 <= n < 2 ^ (Z.of_nat fuel + 1) ->
  exists ds, base_digits up base (S fuel) n acc = ds ++ acc /\ ds <> [] /\ Forall (base_digit base) ds /\ base_value base ds = n.
Proof.
  intros B.
  assert (ST : forall n, 0 <= n -> 0 <= n mod base < base /\ base_digit base (digit_char up (n mod base)) /\
    base_value base [digit_char up (n mod base)] = n mod base).
  { intros n N. assert (M : 0 <= n mod base < base) by (apply Z.mod_pos_bound; lia). split; [exact M|]. split.
    - exists (n mod base). split; [apply digit_char_of; lia|lia].
    - unfold base_value. cbn [fold_left]. rewrite digit_char_of by lia. lia. }
  assert (SM : forall n acc, 0 <= n < base ->
    exists ds, digit_char up (n mod base) :: acc = ds ++ acc /\ ds <> [] /\ Forall (base_digit base) ds /\ base_value base ds = n).
  { intros n acc N. destruct (ST n ltac:(lia)) as (M & DD & DV). exists [digit_char up (n mod base)].
    split; [reflexivity|]. split; [discriminate|]. split; [constructor; [exact DD|constructor]|]. rewrite DV. apply Z.mod_small. lia. }
  induction fuel as [|f IH]; intros n acc N.
  - change (2 ^ (Z.of_nat 0 + 1)) with 2 in N. cbn [base_digits]. destruct (Z.ltb_spec n base); [|lia]. apply SM. lia.
  - remember (S f) as f' eqn:F. cbn [base_digits]. destruct (Z.ltb_spec n base) as [L|L]; [apply SM; lia|]. subst f'.
    assert (Q : 0 <= n / base < 2 ^ (Z.of_nat f + 1)).
    { split; [apply Z.div_pos; lia|]. apply Z.div_lt_upper_bound; [lia|].
      rewrite Nat2Z.inj_succ in N. replace (Z.succ (Z.of_nat f) + 1) with (Z.succ (Z.of_nat f + 1)) in N by lia.
      rewrite Z.pow_succ_r in N by lia. pose proof (Z.pow_nonneg 2 (Z.of_nat f + 1)). nia. }
    destruct (ST n ltac:(lia)) as (M & DD & DV).
    destruct (IH (n / base) (digit_char up (n mod base) :: acc) Q) as (ds & E & NE & FA & V).
    exists (ds ++ [digit_char up (n mod base)]). rewrite E, <- app_assoc. split; [reflexivity|].
    split; [destruct ds; discriminate|]. split; [apply Forall_app; split; [exact FA|constructor; [exact DD|constructor]]|].
    rewrite base_value_app, V, DV. cbn [length]. change (Z.of_nat 1) with 1. rewrite Z.pow_1_r, Z.mul_comm.
    symmetry. apply Z.div_mod. lia.
Qed.

Lemma print_natural_spec up base n : 2 <= base <= 36 -> 0 <= n ->
  print_natural up base n <> [] /\ Forall (base_digit base) (print_natural up base n) /\ base_value base (print_natural up base n) = n.
Proof.
  intros B N. unfold print_natural. destruct (base_digits_spec up base B (Z.to_nat (Z.log2 n)) n []) as (ds & E & H).
  { pose proof (Z.log2_nonneg n). rewrite Z2Nat.id by lia. split; [exact N|].
    destruct (Z.eq_dec n 0) as [->|]; [cbn; lia|]. apply Z.log2_spec. lia. }
  rewrite app_nil_r in E. rewrite E. exact H.
Qed.

(** ** C53: every value of every integer type, printed in any base, is read back. *)
Theorem from_chars_printed_integer :
  forall (c : cfg) (u : uc) (T : ity) (o : options) (upper : bool) (v : Z) (rest : list Z),
  int_type T -> 2 <= o_base o <= 36 -> in_int_range (i_signed T) (i_bits T) v ->
  good_int_text c u o (print_integer upper (o_base o) v ++ rest) -> not_at (base_digit (o_base o)) rest ->
  from_chars_int_advanced c u T (print_integer upper (o_base o) v ++ rest) o =
    Ok {| r_ptr := rest; r_ec := Success; r_value := Some v |}.
Proof.
  intros c u T o up v rest IT B R G NR.
  assert (D : forall n, 0 <= n -> exists ch l, print_natural up (o_base o) n = ch :: l /\ base_digit (o_base o) ch).
  { intros n N. destruct (print_natural_spec up _ n B N) as (A1 & A2 & _).
    destruct (print_natural up (o_base o) n) as [|ch l]; [congruence|]. inversion A2. eauto. }
  assert (DS : forall ch, base_digit (o_base o) ch -> space ch = false /\ ch <> 45 /\ ch <> 43).
  { intros ch (k & K & _). unfold digit_of in K.
    assert (48 <= ch).
    { repeat (match type of K with (if ?b then _ else _) = _ => destruct b eqn:?; [lia|] end). discriminate K. }
    split; [|lia]. destruct (space ch) eqn:E; [apply space_cases in E; lia|reflexivity]. }
  unfold print_integer in *. destruct (Z.ltb_spec v 0) as [L|L].
  - destruct (print_natural_spec up _ (- v) B ltac:(lia)) as (A1 & A2 & A3).
    set (ds := print_natural up (o_base o) (- v)) in *.
    assert (SG : i_signed T = true) by (unfold in_int_range in R; destruct (i_signed T); [reflexivity|lia]).
    rewrite (from_chars_int64_in_range c u T o _ ((45 :: ds) ++ rest) true ds rest IT G); try assumption.
    + unfold int_value. rewrite A3. do 3 f_equal. lia.
    + unfold starts_at. destruct (skips_space c o); [|reflexivity]. exists []. split; [reflexivity|]. split; [constructor|]. cbn. discriminate.
    + exists (ds ++ rest). split; [cbn [app]; apply int_minus; exact SG|]. split; [reflexivity|]. split; assumption.
    + unfold int_value. rewrite A3, Z.opp_involutive. exact R.
  - destruct (print_natural_spec up _ v B ltac:(lia)) as (A1 & A2 & A3). destruct (D v L) as (ch & l & E & DC).
    set (ds := print_natural up (o_base o) v) in *. destruct (DS ch DC) as (S1 & S2 & S3).
    rewrite (from_chars_int64_in_range c u T o _ (ds ++ rest) false ds rest IT G); try assumption.
    + unfold int_value. rewrite A3. reflexivity.
    + unfold starts_at. destruct (skips_space c o); [|reflexivity]. exists []. split; [reflexivity|]. split; [constructor|].
      rewrite E. cbn. congruence.
    + exists (ds ++ rest). split; [apply int_unsigned; rewrite E; cbn; lia|]. split; [reflexivity|]. split; assumption.
    + unfold int_value. rewrite A3. exact R.
Qed.
Print Assumptions from_chars_printed_integer.

(** The extreme values, in decimal and in base 36. *)
Example printed_integer_example :
  print_integer false 10 (- 2 ^ 63) = [45;57;50;50;51;51;55;50;48;51;54;56;53;52;55;55;53;56;48;56] /\
  print_integer true 36 (2 ^ 64 - 1) = [51;87;53;69;49;49;50;54;52;83;71;83;70] /\
  in_int_range true 64 (- 2 ^ 63) /\ in_int_range false 64 (2 ^ 64 - 1) /\ int_type int64_type /\
  from_chars_int cfg_x86_64 Char_s uint64_type (print_integer true 36 (2 ^ 64 - 1)) 36 =
    Ok {| r_ptr := []; r_ec := Success; r_value := Some (2 ^ 64 - 1) |}.
Proof.
  split; [reflexivity|]. split; [reflexivity|]. split; [cbn; lia|]. split; [cbn; lia|]. split; [|vm_compute; reflexivity].
  unfold int_type. cbn. repeat split; try discriminate. tauto.
Qed.

(** ** Floating-point numbers *)
Lemma last_digits_spec n : forall w, 0 <= w ->
  length (last_digits n w) = n /\ all_digits (last_digits n w) /\ digits_value (last_digits n w) = w mod 10 ^ Z.of_nat n.
Proof.
  induction n as [|n IH]; intros w W; cbn [last_digits].
  - split; [reflexivity|]. split; [constructor|]. cbn. rewrite Z.mod_1_r. reflexivity.
  - assert (M : 0 <= w mod 10 < 10) by (apply Z.mod_pos_bound; lia).
    destruct (IH (w / 10) ltac:(apply Z.div_pos; lia)) as (L & A & V).
    split; [rewrite app_length, L; cbn; lia|]. split.
    + apply Forall_app. split; [exact A|]. constructor; [unfold digit; lia|constructor].
    + rewrite digits_value_app, V. cbn [length]. unfold digits_value. cbn [fold_left]. change (Z.of_nat 1) with 1.
      rewrite Nat2Z.inj_succ, Z.pow_succ_r by lia. rewrite Z.rem_mul_r by (try lia; apply Z.pow_pos_nonneg; lia). lia.
Qed.

Lemma printed_of_rounded n v w k : rounded_digits n v w k ->
  printed (Z.of_nat n + 1) v (inject_Z w * Qpower 10 (k - Z.of_nat n)).
Proof.
  intros (_ & [((A & _) & B)|(_ & (A & _) & B)]).
  - exists k. split; [exact A|]. replace (k + 1 - (Z.of_nat n + 1)) with (k - Z.of_nat n) by lia. exact B.
  - exists (k - 1). split; [exact A|]. replace (k - 1 + 1 - (Z.of_nat n + 1)) with (k - 1 - Z.of_nat n) by lia. exact B.
Qed.

Lemma printed_more n m v x : m <= n -> printed n v x -> printed m v x.
Proof.
  intros L (k & K1 & K2). exists k. split; [exact K1|]. eapply Qle_trans; [exact K2|].
  apply Qmult_le_l; [reflexivity|]. apply Qpower_le_compat_l; [lia|discriminate].
Qed.

Lemma natural_digits n : 0 <= n -> all_digits (print_natural false 10 n) /\ print_natural false 10 n <> [] /\
  digits_value (print_natural false 10 n) = n.
Proof.
  intros N. destruct (print_natural_spec false 10 n ltac:(lia) N) as (A & B & C).
  assert (D : all_digits (print_natural false 10 n)).
  { revert B. apply Forall_impl. intros ch (k & K & L). unfold digit_of in K. unfold digit.
    destruct ((48 <=? ch) && (ch <=? 57)); [reflexivity|exfalso].
    destruct ((97 <=? ch) && (ch <=? 122)) eqn:E1; [injection K as <-; lia|].
    destruct ((65 <=? ch) && (ch <=? 90)) eqn:E2; [injection K as <-; lia|discriminate]. }
  split; [exact D|]. split; [exact A|]. rewrite <- base_value_ten by exact D. exact C.
Qed.

Lemma scientific_number R pt n w k neg rest : scientific R = true -> point R = pt -> digit pt = false -> (0 < n)%nat ->
  10 ^ Z.of_nat n <= w < 10 ^ (Z.of_nat n + 1) -> not_at_digit rest ->
  exists ip fp, number R ((if neg : bool then [45] else []) ++ print_scientific pt n w k ++ rest) neg ip fp k rest /\
    digits_value (ip ++ fp) = w /\ length fp = n.
Proof.
  intros SC PT DP NP W ND. assert (P10 : 0 < 10 ^ Z.of_nat n) by (apply Z.pow_pos_nonneg; lia).
  assert (D1 : 1 <= w / 10 ^ Z.of_nat n < 10).
  { split; [apply Z.div_le_lower_bound; lia|]. apply Z.div_lt_upper_bound; [lia|].
    replace (Z.of_nat n + 1) with (Z.succ (Z.of_nat n)) in W by lia. rewrite Z.pow_succ_r in W by lia. lia. }
  destruct (last_digits_spec n w ltac:(lia)) as (LL & LA & LV).
  destruct (natural_digits (Z.abs k) ltac:(lia)) as (NA & NN & NV).
  set (d := 48 + w / 10 ^ Z.of_nat n) in *. set (fp := last_digits n w) in *.
  set (z := if Z.abs k <? 10 then [48] else []). set (es := print_natural false 10 (Z.abs k)) in *.
  assert (DD : digit d = true) by (unfold digit, d; lia).
  exists [d], fp. split; [|split; [|exact LL]].
  - unfold print_scientific. fold d fp z es. rewrite <- PT in *.
    set (sg := if k <? 0 then 45 else 43).
    replace (((d :: point R :: fp ++ 101 :: sg :: z ++ es) ++ rest)) with
      ([d] ++ point R :: fp ++ 101 :: sg :: (z ++ es) ++ rest) by (cbn [app]; rewrite <- !app_assoc; cbn [app]; rewrite <- !app_assoc; reflexivity).
    exists ([d] ++ point R :: fp ++ 101 :: sg :: (z ++ es) ++ rest), (point R :: fp ++ 101 :: sg :: (z ++ es) ++ rest), true,
      (101 :: sg :: (z ++ es) ++ rest).
    split; [|split; [|split; [|split]]].
    + destruct neg; [apply signed_minus|]. apply signed_none. cbn [app not_at]. intros [H|(H & _)]; unfold d in H; clear - H D1; lia.
    + split; [reflexivity|]. split; [constructor; [exact DD|constructor]|]. cbn. congruence.
    + apply fraction_some. split; [reflexivity|]. split; [exact LA|]. cbn. discriminate.
    + unfold mantissa_ok. destruct (json R); [|discriminate]. split; [discriminate|]. split.
      * intros l E. injection E as E1 E2. congruence.
      * intros _ E. rewrite E in LL. cbn in LL. lia.
    + assert (AE : all_digits (z ++ es)).
      { apply Forall_app. split; [|exact NA]. unfold z. destruct (Z.abs k <? 10); repeat constructor. }
      assert (VE : digits_value (z ++ es) = Z.abs k).
      { rewrite digits_value_app, NV. unfold z. destruct (Z.abs k <? 10); cbn; lia. }
      replace k with (if k <? 0 then - digits_value (z ++ es) else digits_value (z ++ es)) at 1
        by (rewrite VE; destruct (Z.ltb_spec k 0); lia).
      apply (exponent_some R _ (sg :: (z ++ es) ++ rest) (k <? 0) ((z ++ es) ++ rest) (z ++ es) rest).
      * apply mark_e; [exact SC|left; reflexivity].
      * unfold sg. destruct (k <? 0); constructor.
      * split; [reflexivity|]. split; [exact AE|exact ND].
      * intros E. apply app_eq_nil in E. tauto.
  - change ([d] ++ fp) with (d :: fp). rewrite digits_value_cons, LV, LL. unfold d.
    pose proof (Z.div_mod w (10 ^ Z.of_nat n)). lia.
Qed.

(** ** C53: a finite nonzero number of the type, printed with 17, 9, 5, 4 or more
    significant digits in scientific notation, is read back. *)
Theorem from_chars_printed_float :
  forall (c : cfg) (u : uc) (t : ftype) (o : options) (neg : bool) (b w k : Z) (n : nat) (rest : list Z),
  let text := (if neg then [45] else []) ++ print_scientific (o_decimal_point o) n w k in
  good_text c u o (text ++ rest) -> scientific (rules_of c o) = true -> not_at_digit rest ->
  0 < b < infinity (format_of t) -> max_digits10 (format_of t) <= Z.of_nat n + 1 ->
  rounded_digits n (magnitude (format_of t) b) w k ->
  from_chars_float_advanced c u t (text ++ rest) o =
    Ok {| r_ptr := rest; r_ec := Success; r_value := Some (with_sign (format_of t) neg b) |}.
Proof.
  intros c u t o neg b w k n rest text G SC ND RB MD RD.
  assert (DP : digit (o_decimal_point o) = false) by apply G.
  assert (NP : (0 < n)%nat) by (destruct t; cbn in MD; lia).
  destruct (scientific_number (rules_of c o) (o_decimal_point o) n w k neg rest SC eq_refl DP NP (proj1 RD) ND) as (ip & fp & N & V & L).
  unfold text in *. rewrite <- app_assoc in *.
  set (s := (if neg then [45] else []) ++ print_scientific (o_decimal_point o) n w k ++ rest) in *.
  assert (SA : starts_at c o s s).
  { unfold starts_at. destruct (skips_space c o); [|reflexivity]. exists []. split; [reflexivity|]. split; [constructor|].
    assert (0 <= w / 10 ^ Z.of_nat n).
    { destruct RD as (W & _). assert (0 < 10 ^ Z.of_nat n) by (apply Z.pow_pos_nonneg; lia). apply Z.div_pos; lia. }
    unfold s. destruct neg; cbn [app print_scientific not_at]; intros SP; apply space_cases in SP; lia. }
  assert (EB : exponent_bounded s k).
  { right. pose proof (magnitude_le t 1 b ltac:(lia)) as M1. rewrite inf_inf in RB.
    pose proof (magnitude_lt t b (inf_code t) ltac:(lia)) as M2.
    assert (C1 : (Qpower 10 (-400) < magnitude (format_of t) 1)%Q) by (clear; destruct t; vm_compute; reflexivity).
    assert (C2 : (magnitude (format_of t) (inf_code t) < Qpower 10 400)%Q) by (clear; destruct t; vm_compute; reflexivity).
    assert (KK : exists j, k - 1 <= j <= k /\ (Qpower 10 j <= magnitude (format_of t) b < Qpower 10 (j + 1))%Q).
    { destruct RD as (_ & [(A & _)|(_ & A & _)]); [exists k|exists (k - 1)]; (split; [lia|]); [exact A|].
      replace (k - 1 + 1) with k by lia. exact A. }
    destruct KK as (j & J & J1 & J2).
    assert (U : j < 400).
    { apply (Qpower_lt_compat_l_inv 10); [|reflexivity]. eapply Qle_lt_trans; [exact J1|]. eapply Qlt_trans; [exact M2|exact C2]. }
    assert (D : -400 < j + 1).
    { apply (Qpower_lt_compat_l_inv 10); [|reflexivity]. eapply Qlt_trans; [exact C1|]. eapply Qle_lt_trans; [exact M1|exact J2]. }
    clear - U D J. lia. }
  apply (from_chars_round_trip c u t o s s neg ip fp k rest b G SA N EB RB).
  apply (printed_more (Z.of_nat n + 1)); [exact MD|]. unfold number_value. rewrite V, L.
  exact (printed_of_rounded n _ w k RD).
Qed.
Print Assumptions from_chars_printed_float.

(** Every positive number has such digits. *)
Lemma power_bracket v : (0 < v)%Q -> exists k, (Qpower 10 k <= v < Qpower 10 (k + 1))%Q.
Proof.
  intros V.
  assert (UP : exists m, 0 <= m /\ (v < Qpower 10 m)%Q).
  { exists (Z.max 0 (Qceiling v + 1)). split; [lia|]. eapply Qle_lt_trans; [apply Qle_ceiling|].
    set (m := Z.max 0 (Qceiling v + 1)). assert (H : Qceiling v < 10 ^ m).
    { assert (0 <= m) by (unfold m; lia). pose proof (Z.pow_gt_lin_r 10 m ltac:(lia) H). unfold m in *. lia. }
    rewrite Zlt_Qlt in H. eapply Qlt_le_trans; [exact H|]. rewrite Zpower_Qpower by (unfold m; lia). apply Qle_refl. }
  assert (DN : exists m, 0 <= m /\ (Qpower 10 (- m) <= v)%Q).
  { destruct v as [a d]. assert (A : 0 < a) by (unfold Qlt in V; cbn in V; lia).
    exists (Z.pos d). split; [lia|].
    assert (H : Z.pos d <= 10 ^ Z.pos d) by (pose proof (Z.pow_gt_lin_r 10 (Z.pos d)); lia).
    rewrite Qpower_opp. rewrite <- (Zpower_Qpower 10) by lia.
    set (P := 10 ^ Z.pos d) in *. assert (0 < P) by lia. clearbody P. destruct P as [|P|P]; try lia.
    unfold Qle, Qinv. cbn. nia. }
  destruct UP as (m & M0 & M). destruct DN as (l & L0 & L).
  assert (IND : forall n : nat, (v < Qpower 10 (- l + Z.of_nat n))%Q -> exists k, (Qpower 10 k <= v < Qpower 10 (k + 1))%Q).
  { induction n as [|n IH]; intros H.
    - rewrite Z.add_0_r in H. exfalso. exact (Qlt_not_le _ _ H L).
    - destruct (Qlt_le_dec v (Qpower 10 (- l + Z.of_nat n))) as [C|C]; [exact (IH C)|].
      exists (- l + Z.of_nat n). split; [exact C|]. replace (- l + Z.of_nat n + 1) with (- l + Z.of_nat (S n)) by lia. exact H. }
  apply (IND (Z.to_nat (m + l))). replace (- l + Z.of_nat (Z.to_nat (m + l))) with m by lia. exact M.
Qed.

(** The digits of [v] where 10^k <= v < 10^(k+1): v / 10^(k-n) to the nearest integer. *)
Definition decimal_digits (n : nat) (v : Q) (k : Z) : Z * Z :=
  let w := Qfloor (v / Qpower 10 (k - Z.of_nat n) + (1 # 2)) in
  if w =? 10 ^ (Z.of_nat n + 1) then (10 ^ Z.of_nat n, k + 1) else (w, k).

Lemma decimal_digits_spec n v k : (Qpower 10 k <= v < Qpower 10 (k + 1))%Q ->
  rounded_digits n v (fst (decimal_digits n v k)) (snd (decimal_digits n v k)).
Proof.
  intros (K1 & K2). unfold decimal_digits. cbv zeta.
  set (P := Qpower 10 (k - Z.of_nat n)). assert (PP : (0 < P)%Q) by apply Qpower_10_pos.
  set (y := (v / P)%Q). assert (EY : (v == y * P)%Q) by (unfold y; field; lra).
  set (w := Qfloor (y + (1 # 2))).
  pose proof (Qfloor_le (y + (1 # 2))) as F1. pose proof (Qlt_floor (y + (1 # 2))) as F2. fold w in F1, F2.
  rewrite inject_Z_plus in F2. change (inject_Z 1) with 1%Q in F2.
  assert (N0 : 0 <= Z.of_nat n) by lia.
  assert (EK : (Qpower 10 k == inject_Z (10 ^ Z.of_nat n) * P)%Q).
  { unfold P. rewrite Zpower_Qpower by exact N0. rewrite <- Qpower_plus by discriminate. replace (Z.of_nat n + (k - Z.of_nat n)) with k by lia. reflexivity. }
  assert (EK1 : (Qpower 10 (k + 1) == inject_Z (10 ^ (Z.of_nat n + 1)) * P)%Q).
  { unfold P. rewrite Zpower_Qpower by lia. rewrite <- Qpower_plus by discriminate. replace (Z.of_nat n + 1 + (k - Z.of_nat n)) with (k + 1) by lia. reflexivity. }
  assert (Y1 : (inject_Z (10 ^ Z.of_nat n) <= y)%Q).
  { rewrite EK, EY in K1. apply Qmult_le_r in K1; assumption. }
  assert (Y2 : (y < inject_Z (10 ^ (Z.of_nat n + 1)))%Q).
  { rewrite EK1, EY in K2. apply Qmult_lt_r in K2; assumption. }
  assert (W1 : 10 ^ Z.of_nat n <= w).
  { unfold w. rewrite <- (Qfloor_Z (10 ^ Z.of_nat n)). apply Qfloor_resp_le. lra. }
  assert (W2 : w <= 10 ^ (Z.of_nat n + 1)).
  { assert (H : (inject_Z w < inject_Z (10 ^ (Z.of_nat n + 1) + 1))%Q) by (rewrite inject_Z_plus; change (inject_Z 1) with 1%Q; lra).
    rewrite <- Zlt_Qlt in H. lia. }
  assert (ER : (Qabs (inject_Z w - y) <= 1 # 2)%Q) by (apply Qabs_case; intros; lra).
  assert (ERP : (Qabs (inject_Z w * P - v) <= (1 # 2) * P)%Q).
  { setoid_replace (inject_Z w * P - v)%Q with ((inject_Z w - y) * P)%Q by (rewrite EY; ring).
    rewrite Qabs_Qmult, (Qabs_pos P) by lra. apply Qmult_le_compat_r; lra. }
  fold P y w. destruct (Z.eqb_spec w (10 ^ (Z.of_nat n + 1))) as [E|NE]; cbn [fst snd].
  - split; [split; [lia|apply Z.pow_lt_mono_r; lia]|]. right. split; [reflexivity|].
    replace (k + 1 - 1) with k by lia. split; [split; assumption|]. fold P.
    assert (E2 : (inject_Z (10 ^ Z.of_nat n) * Qpower 10 (k + 1 - Z.of_nat n) == inject_Z w * P)%Q).
    { rewrite E, <- EK1. rewrite Zpower_Qpower by exact N0. rewrite <- Qpower_plus by discriminate.
      replace (Z.of_nat n + (k + 1 - Z.of_nat n)) with (k + 1) by lia. reflexivity. }
    rewrite E2. exact ERP.
  - split; [lia|]. left. split; [split; assumption|exact ERP].
Qed.

Theorem rounded_digits_exist :
  forall (n : nat) (v : Q), (0 < v)%Q -> exists w k, rounded_digits n v w k.
Proof.
  intros n v V. destruct (power_bracket v V) as (k & K). eexists. eexists. exact (decimal_digits_spec n v k K).
Qed.
Print Assumptions rounded_digits_exist.

(** The largest double, the smallest positive one and 0.1 (-0.1) with 17 digits. *)
Example printed_float_example :
  print_scientific 46 16 17976931348623157 308 =
    [49;46;55;57;55;54;57;51;49;51;52;56;54;50;51;49;53;55;101;43;51;48;56] /\
  rounded_digits 16 (magnitude binary64 (infinity binary64 - 1)) 17976931348623157 308 /\
  print_scientific 46 16 49406564584124654 (-324) =
    [52;46;57;52;48;54;53;54;52;53;56;52;49;50;52;54;53;52;101;45;51;50;52] /\
  rounded_digits 16 (magnitude binary64 1) 49406564584124654 (-324) /\
  from_chars_float cfg_x86_64 Char_s F64 (45 :: print_scientific 46 16 10000000000000001 (-1)) 5 =
    Ok {| r_ptr := []; r_ec := Success; r_value := Some (2 ^ 63 + 4591870180066957722) |}.
Proof.
  split; [reflexivity|]. split.
  { unfold rounded_digits. cbv zeta. split; [split; vm_compute; [discriminate|reflexivity]|]. left. split; [split; vm_compute; [discriminate|reflexivity]|vm_compute; discriminate]. }
  split; [reflexivity|]. split.
  { unfold rounded_digits. cbv zeta. split; [split; vm_compute; [discriminate|reflexivity]|]. left. split; [split; vm_compute; [discriminate|reflexivity]|vm_compute; discriminate]. }
  vm_compute. reflexivity.
Qed.
