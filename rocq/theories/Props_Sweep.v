(** Property C65: the programs that print numbers and read them back (exhaustive32,
    exhaustive32_64, exhaustive32_midpoint, random64 and their long variants) are
    right about the library, for every printf, number of threads and schedule. *)
From Verif Require Import Machine Config Chars Format ParseNumber DecToBin FromChars RandomText Sweep SweepLemmas WordLemmas
  Rounding FpArith ComputeFloat SpecFloat FloatBridge SpecGrammar SpecText SpecApi SpecRel SpecPrint SpecPrintf Scan Special
  FloatApi FloatRel TextSpec
  Props_Pow10 Props_Float Props_Relations Props_Grammar Props_Json Props_Texts Props_Special Props_FindMax Props_RandomText Props_Print.
From Coq Require Import QArith Qabs Qpower Lqa.
Open Scope Z_scope.

(** *** Bit patterns *)
Lemma word_parts t v : 0 <= v < 2 ^ (sign_index t + 1) ->
  exists neg b, v = with_sign (format_of t) neg b /\ 0 <= b < 2 ^ sign_index t.
Proof.
  intros V. assert (P : 2 ^ (sign_index t + 1) = 2 * 2 ^ sign_index t) by (destruct t; reflexivity).
  exists (2 ^ sign_index t <=? v), (v mod 2 ^ sign_index t).
  assert (S : 0 < 2 ^ sign_index t) by (destruct t; reflexivity). set (s := 2 ^ sign_index t) in *.
  split; [|apply Z.mod_pos_bound; exact S]. rewrite with_sign_eq. fold s. destruct (Z.leb_spec s v) as [L|L].
  - replace (v mod s) with (v - s); [lia|]. apply Z.mod_unique with 1; lia.
  - rewrite Z.mod_small by lia. lia.
Qed.

Lemma sign_mod t (neg : bool) b : 0 <= b < 2 ^ sign_index t -> with_sign (format_of t) neg b mod 2 ^ sign_index t = b.
Proof.
  intros B. rewrite with_sign_eq. set (s := 2 ^ sign_index t) in *. destruct neg; [|rewrite Z.add_0_r; apply Z.mod_small; exact B].
  rewrite <- (Z.mul_1_l s) at 1. rewrite Z.mod_add by lia. apply Z.mod_small. exact B.
Qed.

Lemma nan_spec t neg b : 0 <= b < 2 ^ sign_index t -> fp_nan t (with_sign (format_of t) neg b) = (infinity (format_of t) <? b).
Proof. intros B. unfold fp_nan. rewrite sign_mod, infinity_eq by exact B. reflexivity. Qed.
Lemma finite_spec t neg b : 0 <= b < 2 ^ sign_index t -> fp_finite t (with_sign (format_of t) neg b) = (b <? infinity (format_of t)).
Proof. intros B. unfold fp_finite. rewrite sign_mod, infinity_eq by exact B. reflexivity. Qed.
Lemma negative_spec t neg b : 0 <= b < 2 ^ sign_index t -> fp_negative t (with_sign (format_of t) neg b) = neg.
Proof.
  intros B. unfold fp_negative. rewrite with_sign_eq. set (s := 2 ^ sign_index t) in *.
  destruct neg; [apply Z.leb_le|apply Z.leb_gt]; lia.
Qed.

(** *** Printed numbers as texts *)
Lemma minus_if_app neg s : minus_if neg s = (if neg then [45] else []) ++ s.
Proof. destruct neg; reflexivity. Qed.

Lemma repeat_digits n : all_digits (repeat 48 n) /\ digits_value (48 :: repeat 48 n) = 0.
Proof.
  induction n as [|n (IH1 & IH2)]; [split; [constructor|reflexivity]|]. cbn [repeat]. split; [constructor; [reflexivity|exact IH1]|].
  rewrite digits_value_cons, IH2. cbn [length]. lia.
Qed.

Lemma zero_json n neg : (0 < n)%nat ->
  json_number (minus_if neg (48 :: 46 :: repeat 48 n ++ [101; 43; 48; 48])) neg [48] (repeat 48 n) 0.
Proof.
  intros N. rewrite minus_if_app. exists (46 :: repeat 48 n), [101; 43; 48; 48]. split; [reflexivity|].
  split; [left; reflexivity|]. split.
  - right. split; [destruct n; [lia|discriminate]|]. split; [apply repeat_digits|reflexivity].
  - right. exists 101, [43], [48; 48]. split; [reflexivity|]. split; [left; reflexivity|]. split; [discriminate|].
    split; [repeat constructor|]. right. split; [right; reflexivity|reflexivity].
Qed.

Lemma scientific_json n m k neg : (0 < n)%nat -> 10 ^ Z.of_nat n <= m < 10 ^ (Z.of_nat n + 1) ->
  exists ip fp, json_number (minus_if neg (print_scientific 46 n m k)) neg ip fp k /\
    digits_value (ip ++ fp) = m /\ length fp = n.
Proof.
  intros NP M. assert (P10 : 0 < 10 ^ Z.of_nat n) by (apply Z.pow_pos_nonneg; lia).
  assert (D1 : 1 <= m / 10 ^ Z.of_nat n < 10).
  { split; [apply Z.div_le_lower_bound; lia|]. apply Z.div_lt_upper_bound; [lia|].
    replace (Z.of_nat n + 1) with (Z.succ (Z.of_nat n)) in M by lia. rewrite Z.pow_succ_r in M by lia. lia. }
  destruct (last_digits_spec n m ltac:(lia)) as (LL & LA & LV).
  destruct (natural_digits (Z.abs k) ltac:(lia)) as (NA & NN & NV).
  exists [48 + m / 10 ^ Z.of_nat n], (last_digits n m). split; [|split; [|exact LL]].
  - rewrite minus_if_app. unfold print_scientific.
    exists (46 :: last_digits n m), (101 :: [if k <? 0 then 45 else 43] ++ (if Z.abs k <? 10 then [48] else []) ++ print_natural false 10 (Z.abs k)).
    split; [reflexivity|]. split; [right; exists (48 + m / 10 ^ Z.of_nat n), []; split; [reflexivity|]; split; [lia|constructor]|]. split.
    + right. split; [intros E; rewrite E in LL; cbn in LL; lia|]. split; [exact LA|reflexivity].
    + right. exists 101, [if k <? 0 then 45 else 43], ((if Z.abs k <? 10 then [48] else []) ++ print_natural false 10 (Z.abs k)).
      assert (V : digits_value ((if Z.abs k <? 10 then [48] else []) ++ print_natural false 10 (Z.abs k)) = Z.abs k).
      { rewrite digits_value_app, NV. destruct (Z.abs k <? 10); cbn; lia. }
      split; [reflexivity|]. split; [left; reflexivity|].
      split; [intros E; apply app_eq_nil in E; tauto|].
      split; [apply Forall_app; split; [destruct (Z.abs k <? 10); repeat constructor|exact NA]|].
      rewrite V. destruct (Z.ltb_spec k 0); [left|right]; (split; [auto|lia]).
  - cbn [app]. rewrite digits_value_cons, LV, LL. pose proof (Z.div_mod m (10 ^ Z.of_nat n)). lia.
Qed.

Lemma exponent_small t n b m k : 0 < b < infinity (format_of t) -> rounded_digits n (magnitude (format_of t) b) m k -> Z.abs k < 1000.
Proof.
  intros RB RD. pose proof (magnitude_le t 1 b ltac:(lia)) as M1. rewrite inf_inf in RB.
  pose proof (magnitude_lt t b (inf_code t) ltac:(lia)) as M2.
  assert (C1 : (Qpower 10 (-400) < magnitude (format_of t) 1)%Q) by (clear; destruct t; vm_compute; reflexivity).
  assert (C2 : (magnitude (format_of t) (inf_code t) < Qpower 10 400)%Q) by (clear; destruct t; vm_compute; reflexivity).
  assert (KK : exists j, k - 1 <= j <= k /\ (Qpower 10 j <= magnitude (format_of t) b < Qpower 10 (j + 1))%Q).
  { destruct RD as (_ & [(A & _)|(_ & A & _)]); [exists k|exists (k - 1)]; (split; [lia|]); [exact A|].
    replace (k - 1 + 1) with k by lia. exact A. }
  destruct KK as (j & J & J1 & J2).
  assert (U : j < 400).
  { apply (Qpower_lt_compat_l_inv 10); [|reflexivity]. eapply Qle_lt_trans; [exact J1|]. eapply Qlt_trans; [exact M2|exact C2]. }
  assert (D : -400 < j + 1).
  { apply (Qpower_lt_compat_l_inv 10); [|reflexivity]. eapply Qlt_trans; [exact C1|]. eapply Qle_lt_trans; [exact M1|exact J2]. }
  clear - U D J. lia.
Qed.

Lemma natural_length k : 0 <= k < 1000 -> (length (print_natural false 10 k) <= 3)%nat.
Proof.
  intros K. assert (H : forallb (fun k => Nat.leb (length (print_natural false 10 k)) 3) (map Z.of_nat (seq 0 1000)) = true)
    by (vm_compute; reflexivity).
  rewrite forallb_forall in H. apply Nat.leb_le. apply H. apply in_map_iff. exists (Z.to_nat k).
  split; [lia|]. apply in_seq. lia.
Qed.

(** The texts fit into the buffers: 24 characters for 17 digits, 72 for 65. *)
Lemma printf_length t n neg b text : printf_e (format_of t) n neg b text -> (length text <= Nat.max (n + 9) 46)%nat.
Proof.
  intros PR. destruct PR as [neg|neg b m k B RD|neg|neg|neg b s I|neg b s l I F L]; try destruct neg; try destruct s;
    cbn [minus_if length app]; rewrite ?app_length, ?repeat_length; cbn [length]; try lia.
  all: unfold print_scientific; cbn [length]; rewrite app_length; cbn [length]; rewrite app_length.
  all: pose proof (exponent_small t n b m k B RD) as K; pose proof (natural_length (Z.abs k) ltac:(lia)) as NL.
  all: assert (LL : length (last_digits n m) = n) by
    (apply last_digits_spec; destruct RD as (R & _); pose proof (Z.pow_nonneg 10 (Z.of_nat n)); lia).
  all: rewrite LL; destruct (Z.ltb_spec (Z.abs k) 10) as [S|S]; cbn [length]; lia.
Qed.

(** *** Reading *)
Lemma general_scientific c : scientific (rules_of c general) = true.
Proof. reflexivity. Qed.

Lemma visible_starts c p : Forall (fun ch => 33 <= ch < 128) p -> starts_at c general p p.
Proof.
  intros A. unfold starts_at. destruct (skips_space c general); [|reflexivity]. exists []. split; [reflexivity|]. split; [constructor|].
  destruct p as [|ch p]; [exact I|]. inversion A as [|? ? R _]; subst. cbn [not_at]. unfold space. intros S.
  rewrite orb_true_iff, andb_true_iff, !Z.leb_le, Z.eqb_eq in S. lia.
Qed.

Lemma visible_good c u p : Forall (fun ch => 33 <= ch < 128) p -> Z.of_nat (length p) <= 2 ^ 59 -> good_text c u general p.
Proof. intros A L. apply ascii_good; [eapply Forall_impl; [|exact A]; intros; cbv beta in *; lia|exact L|reflexivity]. Qed.

Lemma nchar_visible l : Forall (fun ch => nchar ch = true) l -> Forall (fun ch => 33 <= ch < 128) l.
Proof.
  apply Forall_impl. intros ch H. unfold nchar, digit in H.
  rewrite !orb_true_iff, !andb_true_iff, !Z.leb_le, Z.eqb_eq in H. lia.
Qed.

Lemma special_read c u t text neg k : Forall (fun ch => 33 <= ch < 128) text -> Z.of_nat (length text) <= 2 ^ 59 ->
  (forall plus, special plus text neg k []) ->
  exists b, from_chars_float c u t text f_general =
    Ok {| r_ptr := []; r_ec := Success; r_value := Some (with_sign (format_of t) neg b) |} /\ is_special (format_of t) k b.
Proof.
  intros A L S. exact (from_chars_special c u t general text text [] neg k (visible_good c u text A L) (visible_starts c text A) eq_refl (S _)).
Qed.

(** C65: a number, infinity or NaN printed with max_digits10 significant digits or
    more is read completely and successfully; what is stored is the same bit pattern,
    or a NaN for a NaN. *)
Theorem printf_read_back :
  forall (c : cfg) (u : uc) (t : ftype) (n : nat) (neg : bool) (b : Z) (text : list Z),
  max_digits10 (format_of t) <= Z.of_nat n + 1 -> Z.of_nat n <= 2 ^ 32 -> printf_e (format_of t) n neg b text ->
  exists neg' b',
    from_chars_float c u t text f_general =
      Ok {| r_ptr := []; r_ec := Success; r_value := Some (with_sign (format_of t) neg' b') |} /\
    (b <= infinity (format_of t) -> neg' = neg /\ b' = b) /\
    (infinity (format_of t) < b -> is_quiet_nan (format_of t) b').
Proof.
  intros c u t n neg b text MD NL PR. pose proof (printf_length t n neg b text PR) as LEN.
  assert (LT : Z.of_nat (length text) <= 2 ^ 59) by lia. pose proof (sign_room t) as SR.
  assert (NP : (0 < n)%nat) by (destruct t; cbn in MD; lia).
  destruct PR as [neg|neg b m k B RD|neg|neg|neg b s I|neg b s l I F L].
  - exists neg, 0. split; [|split; [auto|lia]]. pose proof (zero_json n neg NP) as J.
    set (text := minus_if neg _) in *.
    apply (from_chars_zero c u t general text text neg [48] (repeat 48 n) 0 []).
    + apply visible_good; [exact (json_ascii _ _ _ _ _ J)|exact LT].
    + apply visible_starts. exact (json_ascii _ _ _ _ _ J).
    + apply json_is_number. exact J.
    + apply repeat_digits.
  - exists neg, b. split; [|split; [auto|lia]].
    destruct (scientific_json n m k neg NP (proj1 RD)) as (ip & fp & J & _). pose proof (json_ascii _ _ _ _ _ J) as A.
    rewrite minus_if_app in *. pose proof (from_chars_printed_float c u t general neg b m k n []) as H. cbv zeta in H. rewrite !app_nil_r in H.
    apply H; [apply visible_good; assumption|reflexivity|exact I|exact B|exact MD|exact RD].
  - destruct (special_read c u t (minus_if neg [105; 110; 102]) neg Inf) as (b & E & S).
    + destruct neg; repeat (constructor; [lia|]); constructor.
    + exact LT.
    + intros plus. apply (special_inf plus _ neg [105; 110; 102] []).
      * destruct neg; [apply ssign_minus|apply ssign_none; cbn; lia].
      * repeat (constructor; [left; reflexivity|]). constructor.
      * intros r H. inversion H.
    + cbn in S. subst b. exists neg, (infinity (format_of t)). split; [exact E|]. split; [auto|lia].
  - destruct (special_read c u t (minus_if neg [105; 110; 102; 105; 110; 105; 116; 121]) neg Inf) as (b & E & S).
    + destruct neg; repeat (constructor; [lia|]); constructor.
    + exact LT.
    + intros plus. apply (special_infinity plus _ neg [105; 110; 102; 105; 110; 105; 116; 121] [105; 110; 105; 116; 121] []).
      * destruct neg; [apply ssign_minus|apply ssign_none; cbn; lia].
      * repeat (constructor; [left; reflexivity|]). constructor.
      * repeat (constructor; [left; reflexivity|]). constructor.
    + cbn in S. subst b. exists neg, (infinity (format_of t)). split; [exact E|]. split; [auto|lia].
  - destruct (special_read c u t (minus_if s [110; 97; 110]) s Nan) as (b' & E & S).
    + destruct s; repeat (constructor; [lia|]); constructor.
    + exact LT.
    + intros plus. apply (special_nan plus _ s [110; 97; 110] [] []).
      * destruct s; [apply ssign_minus|apply ssign_none; cbn; lia].
      * repeat (constructor; [left; reflexivity|]). constructor.
      * apply payload_none. discriminate.
    + exists s, b'. split; [exact E|]. split; [lia|]. intros _. exact S.
  - destruct (special_read c u t (minus_if s ([110; 97; 110; 40] ++ l ++ [41])) s Nan) as (b' & E & S).
    + assert (A : Forall (fun ch => 33 <= ch < 128) ([110; 97; 110; 40] ++ l ++ [41])).
      { cbn [app]. repeat (constructor; [lia|]). apply Forall_app. split; [apply nchar_visible; exact F|]. constructor; [lia|constructor]. }
      destruct s; [constructor; [lia|]|]; exact A.
    + exact LT.
    + intros plus. apply (special_nan plus _ s ([110; 97; 110; 40] ++ l ++ [41]) (40 :: l ++ [41]) []).
      * destruct s; [apply ssign_minus|apply ssign_none; cbn; lia].
      * cbn [app]. repeat (constructor; [left; reflexivity|]). constructor.
      * apply payload_some. exact F.
    + exists s, b'. split; [exact E|]. split; [lia|]. intros _. exact S.
Qed.
Print Assumptions printf_read_back.

(** A printf: the power of ten is searched for. *)
Definition find_power (v : Q) : Z :=
  match find (fun k => Qle_bool (Qpower 10 k) v && negb (Qle_bool (Qpower 10 (k + 1)) v)) (map (fun i => Z.of_nat i - 400) (seq 0 801)) with
  | Some k => k
  | None => 0
  end.

Definition printf_function (t : ftype) (n : nat) (v : Z) : list Z :=
  let neg := fp_negative t v in
  let b := v mod 2 ^ sign_index t in
  minus_if neg
    (if b =? 0 then 48 :: 46 :: repeat 48 n ++ [101; 43; 48; 48]
     else if b <? infinity (format_of t) then
       let d := decimal_digits n (magnitude (format_of t) b) (find_power (magnitude (format_of t) b)) in
       print_scientific 46 n (fst d) (snd d)
     else if b =? infinity (format_of t) then [105; 110; 102]
     else [110; 97; 110]).

Lemma find_power_spec t b : 0 < b < infinity (format_of t) ->
  let v := magnitude (format_of t) b in (Qpower 10 (find_power v) <= v < Qpower 10 (find_power v + 1))%Q.
Proof.
  intros B v. assert (V : (0 < v)%Q).
  { pose proof (magnitude_lt t 0 b ltac:(lia)) as H. assert (E : (magnitude (format_of t) 0 == 0)%Q) by (clear; destruct t; reflexivity).
    rewrite E in H. exact H. }
  destruct (power_bracket v V) as (k & K1 & K2).
  assert (RD : rounded_digits 1 v (fst (decimal_digits 1 v k)) (snd (decimal_digits 1 v k))) by (apply decimal_digits_spec; split; assumption).
  assert (KB : -400 <= k <= 400).
  { pose proof (magnitude_le t 1 b ltac:(lia)) as M1. rewrite inf_inf in B.
    pose proof (magnitude_lt t b (inf_code t) ltac:(lia)) as M2. fold v in M1, M2.
    assert (C1 : (Qpower 10 (-400) < magnitude (format_of t) 1)%Q) by (clear; destruct t; vm_compute; reflexivity).
    assert (C2 : (magnitude (format_of t) (inf_code t) < Qpower 10 400)%Q) by (clear; destruct t; vm_compute; reflexivity).
    assert (U : k < 400).
    { apply (Qpower_lt_compat_l_inv 10); [|reflexivity]. eapply Qle_lt_trans; [exact K1|]. eapply Qlt_trans; [exact M2|exact C2]. }
    assert (D : -400 < k + 1).
    { apply (Qpower_lt_compat_l_inv 10); [|reflexivity]. eapply Qlt_trans; [exact C1|]. eapply Qle_lt_trans; [exact M1|exact K2]. }
    clear - U D. lia. }
  unfold find_power. destruct (find _ _) as [j|] eqn:F.
  - apply find_some in F. destruct F as (_ & F). apply andb_true_iff in F. destruct F as (F1 & F2).
    split; [apply Qle_bool_iff; exact F1|]. apply Qnot_le_lt. intros H. apply Qle_bool_iff in H. rewrite H in F2. discriminate.
  - exfalso. eapply find_none in F.
    + apply andb_false_iff in F. destruct F as [F|F].
      * apply Qle_bool_iff in K1. rewrite K1 in F. discriminate.
      * apply negb_false_iff, Qle_bool_iff in F. exact (Qlt_not_le _ _ K2 F).
    + apply in_map_iff. exists (Z.to_nat (k + 400)). split; [lia|]. apply in_seq. lia.
Qed.

Lemma printf_function_correct t n : correct_printf (format_of t) n (printf_function t n).
Proof.
  intros neg b B. rewrite sign_index_bits in B. unfold printf_function. rewrite negative_spec, sign_mod by exact B. cbv zeta.
  destruct (Z.eqb_spec b 0) as [->|N0]; [apply printf_zero|].
  destruct (Z.ltb_spec b (infinity (format_of t))) as [L|L].
  - apply printf_finite; [lia|]. apply decimal_digits_spec. apply find_power_spec. lia.
  - destruct (Z.eqb_spec b (infinity (format_of t))) as [->|NI]; [apply printf_inf|]. apply printf_nan. lia.
Qed.

(** *** One number *)
Definition is_nan (t : ftype) (v : Z) : Prop := infinity (format_of t) < v mod 2 ^ (frac_bits (format_of t) + exp_bits (format_of t)).

(** [read] makes the bit pattern [v] - or a NaN, if [v] is one - of [text]. *)
Definition reads_back (t : ftype) (read : list Z -> res result) (v : Z) (text : list Z) : Prop :=
  exists r x, read text = Ok r /\ r_ec r <> InvalidArgument /\ r_value r = Some x /\ (x = v \/ (is_nan t v /\ is_nan t x)).

Lemma fp_nan_iff t v : fp_nan t v = true <-> is_nan t v.
Proof. unfold fp_nan, is_nan. rewrite infinity_eq, sign_index_bits. apply Z.ltb_lt. Qed.

Lemma compare_word_match t read v text : compare_word t read v text = Done Match <-> reads_back t read v text.
Proof.
  unfold compare_word, reads_back. destruct (read text) as [r|]; cbn [lift andthen].
  2:{ split; [discriminate|]. intros (r & x & H & _). discriminate H. }
  assert (BODY : forall x, (if fp_nan t v then Done (if fp_nan t x then Match else NotNan)
      else if negb (Bool.eqb (fp_negative t x) (fp_negative t v)) then Done WrongSign
      else if negb (fp_equal t x v) then Done Mismatch else Done Match) = Done Match <->
      (x = v \/ (is_nan t v /\ is_nan t x))).
  { intros x. destruct (fp_nan t v) eqn:NV.
    - pose proof (proj1 (fp_nan_iff t v) NV) as NV'. destruct (fp_nan t x) eqn:NX.
      + split; [|reflexivity]. intros _. right. split; [exact NV'|apply fp_nan_iff; exact NX].
      + split; [discriminate|]. intros [->|(_ & H)]; [congruence|]. apply fp_nan_iff in H. congruence.
    - assert (NV' : ~ is_nan t v) by (rewrite <- fp_nan_iff; congruence).
      destruct (Bool.eqb (fp_negative t x) (fp_negative t v)) eqn:SG; cbn [negb].
      2:{ split; [discriminate|]. intros [->|(H & _)]; [|tauto]. rewrite Bool.eqb_reflx in SG. discriminate. }
      apply Bool.eqb_prop in SG. unfold fp_negative in SG. unfold fp_equal. fold (fp_nan t x) (fp_nan t v). rewrite NV.
      destruct (fp_nan t x) eqn:NX; cbn [negb andb].
      { split; [discriminate|]. intros [->|(H & _)]; [congruence|tauto]. }
      rewrite SG. destruct (2 ^ sign_index t <=? v).
      + destruct (Z.eqb_spec (- (x - 2 ^ sign_index t)) (- (v - 2 ^ sign_index t))) as [E|E]; cbn [negb].
        * split; [intros _; left; lia|reflexivity].
        * split; [discriminate|]. intros [->|(H & _)]; [congruence|tauto].
      + destruct (Z.eqb_spec x v) as [E|E]; cbn [negb].
        * split; [intros _; left; lia|reflexivity].
        * split; [discriminate|]. intros [->|(H & _)]; [congruence|tauto]. }
  destruct (r_ec r) eqn:EC.
  2:{ split; [discriminate|]. intros (r' & x & H & H' & _). injection H as <-. congruence. }
  all: destruct (r_value r) as [x|] eqn:EV.
  2,4: split; [discriminate|]; intros (r' & x & H & _ & H' & _); injection H as <-; congruence.
  all: rewrite BODY; split;
    [intros H; exists r, x; repeat split; [congruence|assumption|exact H]
    |intros (r' & x' & H1 & _ & H3 & H4); injection H1 as <-; rewrite EV in H3; injection H3 as <-; exact H4].
Qed.

Definition fits (size : Z) (text : list Z) : Prop := Z.of_nat (length text) < size.

Lemma to_string_spec size text : (to_string size text = Done text /\ fits size text) \/ (to_string size text = Undefined /\ ~ fits size text).
Proof. unfold to_string, fits. destruct (Z.ltb_spec (Z.of_nat (length text)) size); [left|right]; (split; [reflexivity|lia]). Qed.

Lemma check_good t size read v text bad : bad <> Good ->
  outcome_answer (do* text := to_string size text in do* f := compare_word t read v text in Done (match f with Match => Good | _ => bad end)) = Good <->
  fits size text /\ reads_back t read v text.
Proof.
  intros BG. destruct (to_string_spec size text) as [(-> & F)|(-> & F)]; cbn [andthen]; [|cbn; split; [discriminate|tauto]].
  rewrite <- compare_word_match. destruct (compare_word t read v text) as [f| |]; cbn [andthen outcome_answer].
  - destruct f; split; try tauto; try (intros H; congruence); intros (_ & H); discriminate H.
  - split; [discriminate|]. intros (_ & H). discriminate H.
  - split; [discriminate|]. intros (_ & H). discriminate H.
Qed.

(** *** Whole programs *)
(** Whatever the schedule: the program comes to an end after a bounded number of
    steps, it never gets stuck before, and its exit status is EXIT_SUCCESS exactly
    if [success] holds. *)
Definition always_exits (P : program) (check : Z -> outcome answer) (hardware_concurrency : Z) (success : Prop) : Prop :=
  let check w := outcome_answer (check w) in
  let n := thread_count hardware_concurrency in
  (exists k s b, steps P check n k (start n) s /\ exit_status P s = Some b) /\
  forall k s, steps P check n k (start n) s ->
    Z.of_nat k <= n * (2 ^ 33 + 1) /\
    match exit_status P s with
    | None => exists s', step P check n s s'
    | Some b => b = true <-> success
    end.

(** An unsigned int. *)
Definition unsigned_int (v : Z) : Prop := 0 <= v < 2 ^ 32.

Lemma thread_count_range hc : unsigned_int hc -> 1 <= thread_count hc < 2 ^ 32.
Proof. intros H. unfold thread_count, unsigned_int in *. destruct (Z.eqb_spec hc 0); lia. Qed.

(** C65: every schedule of the threads: the program ends, and it says EXIT_SUCCESS
    exactly if the check succeeds for every one of the 2^32 words. *)
Theorem every_schedule_exact :
  forall (P : program) (check : Z -> outcome answer) (hardware_concurrency : Z),
  unsigned_int hardware_concurrency -> (reports P = true \/ forall w, outcome_answer (check w) <> Bad) ->
  always_exits P check hardware_concurrency (forall w, 0 <= w < 2 ^ 32 -> outcome_answer (check w) = Good).
Proof.
  intros P check hc HC R. pose proof (thread_count_range hc HC) as N. split.
  - exact (complete_run P _ _ N).
  - intros k s ST. destruct (threads_bound P _ _ N k s ST) as (B & PR). split; [exact B|].
    destruct (exit_status P s) as [b|] eqn:E; [|apply PR; reflexivity]. exact (threads_exact P _ _ N k s b ST R E).
Qed.
Print Assumptions every_schedule_exact.

Lemma always_exits_iff P check hc A B : (A <-> B) -> always_exits P check hc A -> always_exits P check hc B.
Proof.
  intros AB (E & H). split; [exact E|]. intros k s ST. destruct (H k s ST) as (K & X). split; [exact K|].
  destruct (exit_status P s); [|exact X]. rewrite <- AB. exact X.
Qed.

Lemma forall_iff (A B : Z -> Prop) : (forall w, A w <-> B w) -> ((forall w, 0 <= w < 2 ^ 32 -> A w) <-> (forall w, 0 <= w < 2 ^ 32 -> B w)).
Proof. intros H. split; intros X w W; apply H; apply X; exact W. Qed.

Lemma answer_not_bad size t read v text :
  outcome_answer (do* text := to_string size text in do* f := compare_word t read v text in Done (match f with Match => Good | _ => Crash end)) <> Bad.
Proof.
  destruct (to_string_spec size text) as [(-> & F)|(-> & F)]; cbn [andthen]; [|discriminate].
  destruct (compare_word t read v text) as [f| |]; cbn [andthen outcome_answer]; [destruct f|..]; discriminate.
Qed.

(** C65: exhaustive32.cpp (and long_exhaustive32.cpp) with any printf and any reader:
    EXIT_SUCCESS exactly if every float, as printed, is read back. *)
Theorem exhaustive32_exact :
  forall (size : Z) (print : Z -> list Z) (read : list Z -> res result) (hardware_concurrency : Z),
  unsigned_int hardware_concurrency ->
  always_exits exhaustive32 (check_word size print read) hardware_concurrency
    (forall w, 0 <= w < 2 ^ 32 -> fits size (print w) /\ reads_back F32 read w (print w)).
Proof.
  intros size print read hc HC. eapply always_exits_iff; [|apply every_schedule_exact; [exact HC|right; intros w; apply answer_not_bad]].
  apply forall_iff. intros w. apply check_good. discriminate.
Qed.
Print Assumptions exhaustive32_exact.

(** C65: the same of long_exhaustive32_64.cpp: every float, as a double. *)
Theorem long_exhaustive32_64_exact :
  forall (print : Z -> list Z) (read : list Z -> res result) (hardware_concurrency : Z),
  unsigned_int hardware_concurrency ->
  always_exits exhaustive32 (check_widened_long print read) hardware_concurrency
    (forall w, 0 <= w < 2 ^ 32 -> fits 128 (print (widen w)) /\ reads_back F64 read (widen w) (print (widen w))).
Proof.
  intros print read hc HC. eapply always_exits_iff; [|apply every_schedule_exact; [exact HC|right; intros w; apply answer_not_bad]].
  apply forall_iff. intros w. apply check_good. discriminate.
Qed.
Print Assumptions long_exhaustive32_64_exact.

(** *** The library passes *)
Definition library (c : cfg) (u : uc) (t : ftype) (text : list Z) : res result := from_chars_float c u t text f_general.

Lemma library_reads c u t n print size v : max_digits10 (format_of t) <= Z.of_nat n + 1 -> Z.of_nat n + 9 < size -> 46 < size -> size < 2 ^ 32 ->
  correct_printf (format_of t) n print -> 0 <= v < 2 ^ (sign_index t + 1) ->
  fits size (print v) /\ reads_back t (library c u t) v (print v).
Proof.
  intros MD S1 S2 S3 CP V. destruct (word_parts t v V) as (neg & b & -> & B).
  specialize (CP neg b). rewrite sign_index_bits in CP. specialize (CP B). split.
  - pose proof (printf_length t n neg b _ CP). unfold fits. lia.
  - destruct (printf_read_back c u t n neg b _ MD ltac:(lia) CP) as (neg' & b' & E & LO & HI).
    eexists. eexists. split; [exact E|]. split; [discriminate|]. split; [reflexivity|].
    destruct (Z.le_gt_cases b (infinity (format_of t))) as [L|L].
    + left. destruct (LO L) as (-> & ->). reflexivity.
    + right. unfold is_nan. rewrite sign_index_bits. destruct (HI L) as (m & -> & M).
      assert (R : 0 <= infinity (format_of t) + m < 2 ^ sign_index t).
      { assert (IF : infinity (format_of t) + 2 ^ frac_bits (format_of t) = 2 ^ sign_index t) by (clear; destruct t; reflexivity).
        assert (0 < infinity (format_of t)) by (clear; destruct t; reflexivity).
        clear - M IF H. lia. }
      rewrite !sign_mod by assumption. split; [exact L|].
      assert (0 < 2 ^ (frac_bits (format_of t) - 1)) by (clear; destruct t; reflexivity). lia.
Qed.

(** C65: exhaustive32.cpp and long_exhaustive32.cpp succeed: every build, every
    correct printf, every number of threads, every schedule. *)
Theorem exhaustive32_passes :
  forall (c : cfg) (u : uc) (print : Z -> list Z) (hardware_concurrency : Z), unsigned_int hardware_concurrency ->
  (correct_printf binary32 8 print ->
     always_exits exhaustive32 (check_word 64 print (library c u F32)) hardware_concurrency True) /\
  (correct_printf binary32 64 print ->
     always_exits exhaustive32 (check_word 128 print (library c u F32)) hardware_concurrency True).
Proof.
  intros c u print hc HC. split; intros CP; (eapply always_exits_iff; [|apply exhaustive32_exact; exact HC]); (split; [auto|]); intros _ w W.
  - apply (library_reads c u F32 8); try exact CP; cbn; lia.
  - apply (library_reads c u F32 64); try exact CP; cbn; lia.
Qed.
Print Assumptions exhaustive32_passes.

(** *** Floats as doubles *)
Lemma widen_spec neg a : 0 <= a < 2 ^ 31 ->
  exists b, widen (with_sign binary32 neg a) = with_sign binary64 neg b /\ 0 <= b < 2 ^ 63 /\
    (a < infinity binary32 -> b < infinity binary64 /\ fp_units 52 b = fp_units 23 a * 2 ^ 925) /\
    (a = infinity binary32 -> b = infinity binary64) /\ (infinity binary32 < a -> infinity binary64 < b).
Proof.
  intros A. unfold widen. pose proof (negative_spec F32 neg a A) as NS. cbn [format_of] in NS. rewrite NS.
  pose proof (sign_mod F32 neg a A) as SM. cbn [format_of] in SM. change (2 ^ sign_index F32) with (2 ^ 31) in SM. rewrite SM. cbv zeta.
  assert (SG : forall b, (if neg then 2 ^ 63 else 0) + b = with_sign binary64 neg b).
  { intros b. unfold with_sign. cbn [frac_bits exp_bits binary64]. change (52 + 11) with 63. destruct neg; lia. }
  pose proof (Z.div_mod a (2 ^ 23) ltac:(lia)) as DM. pose proof (Z.mod_pos_bound a (2 ^ 23) ltac:(lia)) as MB.
  assert (EB : 0 <= a / 2 ^ 23 < 256) by (split; [apply Z.div_pos; lia|apply Z.div_lt_upper_bound; lia]).
  change (infinity binary32) with (255 * 2 ^ 23). change (infinity binary64) with (2047 * 2 ^ 52).
  assert (UA : fp_units 23 a = if a / 2 ^ 23 =? 0 then a mod 2 ^ 23 else (a mod 2 ^ 23 + 2 ^ 23) * 2 ^ (a / 2 ^ 23 - 1)) by reflexivity.
  set (e := a / 2 ^ 23) in *. set (m := a mod 2 ^ 23) in *. clearbody e m.
  rewrite SG. eexists. split; [reflexivity|]. destruct (Z.eqb_spec e 255) as [E|E].
  - assert (LOR : m <> 0 -> 0 < Z.lor (2 ^ 51) (m * 2 ^ 29) < 2 ^ 52).
    { intros M. assert (0 <= Z.lor (2 ^ 51) (m * 2 ^ 29)) by (apply Z.lor_nonneg; lia).
      assert (NZ : Z.lor (2 ^ 51) (m * 2 ^ 29) <> 0) by (intros H0; apply Z.lor_eq_0_iff in H0; destruct H0; discriminate).
      split; [lia|]. apply Z.log2_lt_pow2; [lia|]. rewrite Z.log2_lor by lia. apply Z.max_lub_lt; [reflexivity|].
      apply Z.log2_lt_pow2; lia. }
    destruct (Z.eqb_spec m 0) as [M|M]; [|specialize (LOR M)]; (split; [lia|]); (split; [intros; lia|]); (split; [intros; lia|intros; lia]).
  - assert (AI : a < 255 * 2 ^ 23) by lia. destruct (Z.eqb_spec e 0) as [E0|E0].
    + destruct (Z.eqb_spec m 0) as [M|M].
      * split; [lia|]. split; [|split; intros; lia]. intros _. split; [lia|]. rewrite UA, M. reflexivity.
      * pose proof (Z.log2_spec m ltac:(lia)) as LS. pose proof (Z.log2_nonneg m) as LN.
        assert (LU : Z.log2 m < 23) by (apply Z.log2_lt_pow2; lia). set (k := Z.log2 m) in *. clearbody k.
        replace (Z.succ k) with (k + 1) in LS by lia. rewrite pow2_S in LS by exact LN.
        assert (P52 : 2 ^ 52 = 2 ^ k * 2 ^ (52 - k)) by (rewrite <- Z.pow_add_r by lia; f_equal; lia).
        assert (PP : 0 < 2 ^ (52 - k)) by (apply pow2_pos; lia).
        replace ((k - 149 + 1023) * 2 ^ 52 + (m - 2 ^ k) * 2 ^ (52 - k)) with ((k + 873) * 2 ^ 52 + m * 2 ^ (52 - k))
          by (rewrite P52; ring).
        assert (MR : 2 ^ 52 <= m * 2 ^ (52 - k) < 2 * 2 ^ 52) by (rewrite P52; nia).
        split; [lia|]. split; [|split; intros; lia]. intros _. split; [lia|].
        rewrite U_enc; [|lia|unfold canon; rewrite pow2_S by lia; lia]. rewrite UA.
        rewrite <- Z.mul_assoc, <- Z.pow_add_r by lia. do 2 f_equal. lia.
    + split; [lia|]. split; [|split; intros; lia]. intros _. split; [lia|].
      replace ((e - 127 + 1023) * 2 ^ 52 + m * 2 ^ 29) with ((e + 895) * 2 ^ 52 + (m + 2 ^ 23) * 2 ^ 29) by ring.
      rewrite U_enc; [|lia|unfold canon; rewrite pow2_S by lia; lia].
      rewrite UA, <- !Z.mul_assoc, <- !Z.pow_add_r by lia. do 2 f_equal. lia.
Qed.

Lemma widen_range w : 0 <= w < 2 ^ 32 -> 0 <= widen w < 2 ^ 64.
Proof.
  intros W. destruct (word_parts F32 w W) as (neg & a & -> & A). cbn [format_of] in *.
  destruct (widen_spec neg a A) as (b & -> & B & _). unfold with_sign. cbn [frac_bits exp_bits binary64]. destruct neg; lia.
Qed.

(** C65: long_exhaustive32_64.cpp succeeds. *)
Theorem long_exhaustive32_64_passes :
  forall (c : cfg) (u : uc) (print : Z -> list Z) (hardware_concurrency : Z), unsigned_int hardware_concurrency ->
  correct_printf binary64 64 print ->
  always_exits exhaustive32 (check_widened_long print (library c u F64)) hardware_concurrency True.
Proof.
  intros c u print hc HC CP. eapply always_exits_iff; [|apply long_exhaustive32_64_exact; exact HC]. split; [auto|]. intros _ w W.
  pose proof (widen_range w W). apply (library_reads c u F64 64); try exact CP; cbn; lia.
Qed.
Print Assumptions long_exhaustive32_64_passes.

(** A reader that has no undefined behaviour and stores a value where it reports none
    or a range error. *)
Definition defined_reader (read : list Z -> res result) : Prop :=
  forall text, exists r, read text = Ok r /\ (r_ec r <> InvalidArgument -> r_value r <> None).

(** C65: exhaustive32_64.cpp says EXIT_SUCCESS whatever reader it tests ... *)
Theorem exhaustive32_64_always_succeeds :
  forall (print : Z -> list Z) (read : list Z -> res result) (hardware_concurrency : Z),
  unsigned_int hardware_concurrency -> (forall v, fits 64 (print v)) -> defined_reader read ->
  always_exits exhaustive32_64 (check_widened print read) hardware_concurrency True.
Proof.
  intros print read hc HC FT DR. pose proof (thread_count_range hc HC) as N.
  assert (NC : forall w, outcome_answer (check_widened print read w) <> Crash).
  { intros w. unfold check_widened. destruct (to_string_spec 64 (print (widen w))) as [(-> & _)|(_ & F)]; [|destruct (F (FT _))].
    cbn [andthen]. unfold compare_word. destruct (DR (print (widen w))) as (r & -> & RV). cbn [lift andthen].
    destruct (r_ec r); cbn [andthen]; [|discriminate|]; (destruct (r_value r) as [x|]; [|exfalso; apply RV; [discriminate|reflexivity]]);
      repeat (match goal with |- context [if ?b then _ else _] => destruct b end); cbn; discriminate. }
  split; [exact (complete_run _ _ _ N)|]. intros k s ST. destruct (threads_bound _ _ _ N k s ST) as (B & PR). split; [exact B|].
  destruct (exit_status exhaustive32_64 s) as [b|] eqn:E; [|apply PR; reflexivity].
  rewrite (threads_blind _ _ _ N k s b ST eq_refl (fun w _ => NC w) E). tauto.
Qed.
Print Assumptions exhaustive32_64_always_succeeds.

(** ... so that "it says EXIT_SUCCESS exactly if every float, as a double, is read
    back" is refuted: by a reader that rejects every text. *)
Theorem exhaustive32_64_refuted :
  exists (print : Z -> list Z) (read : list Z -> res result),
  correct_printf binary64 16 print /\ defined_reader read /\
  (forall w, ~ reads_back F64 read (widen w) (print (widen w))) /\
  forall hardware_concurrency, unsigned_int hardware_concurrency ->
    always_exits exhaustive32_64 (check_widened print read) hardware_concurrency True.
Proof.
  set (read := fun p : list Z => Ok {| r_ptr := p; r_ec := InvalidArgument; r_value := None |}).
  set (print := fun v => printf_function F64 16 (v mod 2 ^ 64)).
  assert (CP : correct_printf binary64 16 print).
  { intros neg b B. unfold print. rewrite Z.mod_small.
    - exact (printf_function_correct F64 16 neg b B).
    - change (frac_bits binary64 + exp_bits binary64) with 63 in B. unfold with_sign. change (frac_bits binary64 + exp_bits binary64) with 63.
      destruct neg; lia. }
  assert (DR : defined_reader read) by (intros p; eexists; split; [reflexivity|cbn; congruence]).
  exists print, read. split; [exact CP|]. split; [exact DR|]. split.
  - intros w (r & x & E & NI & _). injection E as <-. apply NI. reflexivity.
  - intros hc HC. apply exhaustive32_64_always_succeeds; [exact HC| |exact DR].
    intros v. assert (V : 0 <= v mod 2 ^ 64 < 2 ^ 64) by (apply Z.mod_pos_bound; lia).
    destruct (word_parts F64 (v mod 2 ^ 64) V) as (neg & b & E & B). unfold print. rewrite E. unfold fits.
    pose proof (printf_length F64 16 neg b _ (printf_function_correct F64 16 neg b B)). lia.
Qed.
Print Assumptions exhaustive32_64_refuted.

(** What is true: it says EXIT_SUCCESS, and that every float, as a double, is read
    back is nevertheless true of the library. *)
Theorem exhaustive32_64_passes :
  forall (c : cfg) (u : uc) (print : Z -> list Z) (hardware_concurrency : Z), unsigned_int hardware_concurrency ->
  correct_printf binary64 16 print ->
  always_exits exhaustive32_64 (check_widened print (library c u F64)) hardware_concurrency True /\
  forall w, 0 <= w < 2 ^ 32 -> check_widened print (library c u F64) w = Done Good.
Proof.
  intros c u print hc HC CP.
  assert (G : forall w, 0 <= w < 2 ^ 32 -> check_widened print (library c u F64) w = Done Good).
  { intros w W. pose proof (widen_range w W) as R.
    destruct (library_reads c u F64 16 print 64 (widen w) ltac:(cbn; lia) ltac:(cbn; lia) ltac:(lia) ltac:(lia) CP R) as (F & RB).
    unfold check_widened. destruct (to_string_spec 64 (print (widen w))) as [(-> & _)|(_ & NF)]; [|destruct (NF F)]. cbn [andthen].
    apply compare_word_match in RB. rewrite RB. reflexivity. }
  split; [|exact G]. pose proof (thread_count_range hc HC) as N.
  split; [exact (complete_run _ _ _ N)|]. intros k s ST. destruct (threads_bound _ _ _ N k s ST) as (B & PR). split; [exact B|].
  destruct (exit_status exhaustive32_64 s) as [b|] eqn:E; [|apply PR; reflexivity]. split; [tauto|]. intros _.
  apply (threads_blind _ _ _ N k s b ST eq_refl); [|exact E]. intros w W. rewrite (G w W). discriminate.
Qed.
Print Assumptions exhaustive32_64_passes.
