(** Property C54: where a number becomes infinite and where it becomes zero, as
    explicit numbers.  Statements use the entry points, SpecFloat, SpecGrammar
    and SpecApi only; the thresholds are written out here. *)
From Verif Require Import Machine Config Chars Format ParseNumber DecToBin FromChars WordLemmas
  Rounding ComputeFloat SpecFloat FloatBridge Pow10 SpecGrammar SpecApi Scan ParseSpec Special
  SlowPath ManyDigits Saturate FloatMaster FloatApi FloatRel Props_Pow10 Props_Float Props_Relations Props_Texts.
From Coq Require Import QArith Qabs Lqa.
Open Scope Z_scope.

(** From here on (this number included) the result is infinite: the largest
    finite number plus half the distance to the next power of two. *)
Definition infinite_from (t : ftype) : Q :=
  match t with
  | F64 => inject_Z (2 ^ 1024 - 2 ^ 970)
  | F32 => inject_Z (2 ^ 128 - 2 ^ 103)
  | F16 => 65520
  | BF16 => inject_Z (2 ^ 128 - 2 ^ 119)
  end.

(** Half the smallest positive number. *)
Definition half_smallest (t : ftype) : Q :=
  match t with
  | F64 => / inject_Z (2 ^ 1075)
  | F32 => / inject_Z (2 ^ 150)
  | F16 => / inject_Z (2 ^ 25)
  | BF16 => / inject_Z (2 ^ 134)
  end.

(** The result is zero up to half the smallest positive number; this number
    itself is a tie, which float16 rounds up (C02). *)
Definition vanishes (t : ftype) (x : Q) : Prop :=
  match t with F16 => (x < half_smallest F16)%Q | _ => (x <= half_smallest t)%Q end.

Lemma infinite_from_mid t :
  (2 * infinite_from t == magnitude (format_of t) (inf_code t - 1) + magnitude (format_of t) (inf_code t))%Q.
Proof. destruct t; vm_compute; reflexivity. Qed.

Lemma half_smallest_mid t : (2 * half_smallest t == magnitude (format_of t) 1)%Q.
Proof. destruct t; vm_compute; reflexivity. Qed.

Lemma close_infinite t x b : (0 <= x)%Q -> nearest_but_subnormal_ties (format_of t) x b ->
  (b = inf_code t <-> (infinite_from t <= x)%Q).
Proof.
  intros Hx ((RB & NE) & NS). pose proof (inf_code_pos t) as PI. rewrite inf_inf in NE, RB.
  pose proof (infinite_from_mid t) as MID.
  pose proof (magnitude_lt t (inf_code t - 1) (inf_code t) ltac:(lia)) as ML.
  split.
  - intros ->. specialize (NE (inf_code t - 1) ltac:(lia)).
    destruct (Qlt_le_dec x (infinite_from t)) as [L|L]; [exfalso|exact L].
    revert NE. apply Qabs_case; intros H1; apply Qabs_case; intros H2; intros NE; lra.
  - intros L. destruct (Z.eq_dec b (inf_code t)) as [E|E]; [exact E|exfalso].
    destruct NS as [(_ & NS)|(R & T)].
    + specialize (NS (inf_code t)). rewrite inf_inf in NS. specialize (NS ltac:(lia)).
      assert (MB : (magnitude (format_of t) b <= magnitude (format_of t) (inf_code t - 1))%Q) by (apply magnitude_le; lia).
      assert (D : (Qabs (x - magnitude (format_of t) (inf_code t)) <= x - magnitude (format_of t) (inf_code t - 1))%Q)
        by (apply Qabs_case; intros; lra).
      rewrite (Qabs_pos (x - magnitude (format_of t) b)) in NS by lra.
      destruct NS as [NS|(NS & [F|EV])]; [lra|lia|].
      destruct (Z.eq_dec b (inf_code t - 1)) as [->|NB].
      * clear - EV. destruct t; vm_compute in EV; discriminate EV.
      * pose proof (magnitude_lt t b (inf_code t - 1) ltac:(lia)). lra.
    + assert (2 ^ frac_bits (format_of t) <= inf_code t - 1) by (clear; destruct t; vm_compute; discriminate).
      pose proof (magnitude_le t b (inf_code t - 1) ltac:(lia)). pose proof (magnitude_le t (b - 1) b ltac:(lia)). lra.
Qed.

Lemma close_vanishes t x b : (0 <= x)%Q -> nearest (format_of t) x b ->
  (t <> F16 -> nearest_even (format_of t) x b) -> (t = F16 -> (x == half_smallest F16)%Q -> b = 1) ->
  (b = 0 <-> vanishes t x).
Proof.
  intros Hx (RB & NE) HE HO. pose proof (inf_code_pos t) as PI. rewrite inf_inf in NE, RB.
  pose proof (half_smallest_mid t) as MID. pose proof (magnitude_0 t) as M0.
  pose proof (magnitude_lt t 0 1 ltac:(lia)) as M1.
  assert (ZL : b = 0 -> (x <= half_smallest t)%Q).
  { intros ->. specialize (NE 1 ltac:(lia)). destruct (Qlt_le_dec (half_smallest t) x) as [L|L]; [exfalso|exact L].
    revert NE. rewrite M0. apply Qabs_case; intros H1; apply Qabs_case; intros H2; intros NE; lra. }
  assert (LZ : (x < half_smallest t)%Q -> b = 0).
  { intros L. destruct (Z.eq_dec b 0) as [E|E]; [exact E|exfalso].
    pose proof (magnitude_le t 1 b ltac:(lia)). specialize (NE 0 ltac:(lia)).
    revert NE. rewrite M0. apply Qabs_case; intros H1; apply Qabs_case; intros H2; intros NE; lra. }
  assert (F : t = F16 \/ t <> F16) by (destruct t; (left; reflexivity) || (right; discriminate)).
  destruct F as [->|NT].
  - cbn [vanishes]. split; [|exact LZ]. intros B0. specialize (ZL B0).
    destruct (Qle_lt_or_eq _ _ ZL) as [L|EQ]; [exact L|exfalso].
    specialize (HO eq_refl EQ). lia.
  - assert (V : vanishes t x <-> (x <= half_smallest t)%Q) by (destruct t; [| |congruence|]; reflexivity).
    rewrite V. split; [exact ZL|]. intros L. destruct (Qle_lt_or_eq _ _ L) as [L'|EQ]; [exact (LZ L')|].
    destruct (HE NT) as (_ & EV). rewrite inf_inf in EV.
    destruct (Z.eq_dec b 0) as [E|E]; [exact E|exfalso].
    specialize (EV 0 ltac:(lia)). rewrite M0 in EV. rewrite (Qabs_pos (x - 0)) in EV by lra.
    destruct (Z.eq_dec b 1) as [->|B1].
    + rewrite Qabs_neg in EV by lra. destruct EV as [EV|(_ & [EV|EV])]; [lra|lia|discriminate EV].
    + pose proof (magnitude_lt t 1 b ltac:(lia)) as MM. rewrite Qabs_neg in EV by lra.
      destruct EV as [EV|(EV & _)]; lra.
Qed.

Lemma half_tie x : (x == half_smallest F16)%Q -> subnormal_tie binary16 x 1.
Proof. intros EQ. split; [vm_compute; split; discriminate|]. rewrite EQ. vm_compute. reflexivity. Qed.

Lemma near_infinite t x b : (0 <= x)%Q -> near t x b -> (b = inf_code t <-> (infinite_from t <= x)%Q).
Proof. intros Hx N. apply close_infinite; [exact Hx|apply near_spec, N]. Qed.

Lemma near_vanishes t x b : (0 <= x)%Q -> near t x b -> (b = 0 <-> vanishes t x).
Proof.
  intros Hx N. apply close_vanishes; [exact Hx|apply nearest_of, N| |].
  - intros NT. apply rounds_nearest_even, near_not_F16; assumption.
  - intros -> EQ. pose proof (near_F16_spec x b N) as (_ & TIE & _). apply TIE; [|apply half_tie, EQ].
    exists 298023223876953125, (-25). split; [lia|]. rewrite EQ. vm_compute. reflexivity.
Qed.

(** ** The thresholds of from_chars.  [r] is the value the text denotes. *)
Theorem from_chars_thresholds :
  forall (c : cfg) (u : uc) (t : ftype) (o : options) (s s0 : list Z)
         (neg : bool) (ip fp : list Z) (e : Z) (rest : list Z),
  good_text c u o s -> starts_at c o s s0 ->
  number (rules_of c o) s0 neg ip fp e rest -> exponent_bounded s e ->
  let r := number_value ip fp e in
  exists b x,
    from_chars_float_advanced c u t s o =
      Ok {| r_ptr := rest; r_ec := x; r_value := Some (with_sign (format_of t) neg b) |} /\
    0 <= b <= infinity (format_of t) /\
    (b = infinity (format_of t) <-> (infinite_from t <= r)%Q) /\
    (b = 0 <-> vanishes t r) /\
    (t <> F16 \/ ~ silent_float16_overflow c ip fp e ->
       (x = OutOfRange <-> (infinite_from t <= r)%Q \/ ((0 < r)%Q /\ vanishes t r)) /\
       (x = Success <-> ~ ((infinite_from t <= r)%Q \/ ((0 < r)%Q /\ vanishes t r)))).
Proof.
  intros c u t o s s0 neg ip fp e rest G SA N EB r.
  pose proof (number_value_nonneg _ _ _ _ _ _ _ N) as P.
  destruct (number_near c u t o s s0 neg ip fp e rest G SA N EB) as (b & x & E & R).
  exists b, x. split; [exact E|]. rewrite inf_inf. split; [exact (near_range t _ b R)|].
  pose proof (near_infinite t _ b P R) as I1. pose proof (near_vanishes t _ b P R) as I2. fold r in I1, I2, P, R.
  split; [exact I1|]. split; [exact I2|]. intros HT.
  assert (OR : (x = OutOfRange <-> ((0 < r)%Q /\ b = 0) \/ b = inf_code t) /\ (x <> OutOfRange -> x = Success)).
  { assert (F : t = F16 \/ t <> F16) by (destruct t; (left; reflexivity) || (right; discriminate)).
    destruct F as [->|NT].
    - destruct HT as [HT|HT]; [congruence|].
      destruct (number_main_F16 c u o s s0 neg ip fp e rest G SA N EB) as (b' & x' & E' & _ & R1 & _).
      assert (b' = b /\ x' = x) as (-> & ->).
      { rewrite E in E'. clear - E'. unfold with_sign in E'. change binary16 with (format_of F16) in E'.
        assert (A : forall p1 x1 v1 p2 x2 v2,
          Ok {| r_ptr := p1; r_ec := x1; r_value := Some v1 |} = Ok {| r_ptr := p2; r_ec := x2; r_value := Some v2 |} ->
          x1 = x2 /\ v1 = v2) by (intros; split; congruence).
        apply A in E'. destruct E' as (-> & E'). split; [lia|reflexivity]. }
      specialize (R1 HT). destruct R1 as (R1 & R2). rewrite <- (inf_inf F16). split; [exact R2|]. intros NX. destruct R1; [assumption|contradiction].
    - destruct (number_main c u t o s s0 neg ip fp e rest NT G SA N EB) as (b' & x' & E' & _ & (R1 & R2)).
      assert (b' = b /\ x' = x) as (-> & ->).
      { rewrite E in E'. clear - E'. unfold with_sign in E'.
        assert (A : forall p1 x1 v1 p2 x2 v2,
          Ok {| r_ptr := p1; r_ec := x1; r_value := Some v1 |} = Ok {| r_ptr := p2; r_ec := x2; r_value := Some v2 |} ->
          x1 = x2 /\ v1 = v2) by (intros; split; congruence).
        apply A in E'. destruct E' as (-> & E'). split; [lia|reflexivity]. }
      rewrite <- (inf_inf t). split; [exact R2|]. intros NX. destruct R1; [assumption|contradiction]. }
  destruct OR as (O1 & O2).
  assert (O3 : x = OutOfRange <-> (infinite_from t <= r)%Q \/ (0 < r)%Q /\ vanishes t r).
  { rewrite O1, I1, I2. tauto. }
  split; [exact O3|]. split.
  - intros -> H. apply O3 in H. discriminate H.
  - intros H. apply O2. intros H'. apply H, O3, H'.
Qed.
Print Assumptions from_chars_thresholds.

(** "1.7976931348623158e308" is below the threshold of double, 1.7976931348623159e308
    above; 2.4703282292062327e-324 is below half the smallest positive double,
    2.4703282292062328e-324 above. *)
Definition spelled (d : Z) (ds : list Z) (es : list Z) : list Z :=
  48 + d :: 46 :: map (fun k => 48 + k) ds ++ 101 :: es.
Example threshold_examples :
  let parse s := from_chars_float cfg_x86_64 Char_s F64 s 5 in
  parse (spelled 1 [7;9;7;6;9;3;1;3;4;8;6;2;3;1;5;8] [51;48;56]) =
    Ok {| r_ptr := []; r_ec := Success; r_value := Some (infinity binary64 - 1) |} /\
  parse (spelled 1 [7;9;7;6;9;3;1;3;4;8;6;2;3;1;5;9] [51;48;56]) =
    Ok {| r_ptr := []; r_ec := OutOfRange; r_value := Some (infinity binary64) |} /\
  parse (spelled 2 [4;7;0;3;2;8;2;2;9;2;0;6;2;3;2;7] [45;51;50;52]) =
    Ok {| r_ptr := []; r_ec := OutOfRange; r_value := Some 0 |} /\
  parse (spelled 2 [4;7;0;3;2;8;2;2;9;2;0;6;2;3;2;8] [45;51;50;52]) =
    Ok {| r_ptr := []; r_ec := Success; r_value := Some 1 |} /\
  Qlt (decimal 17976931348623158 292) (infinite_from F64) /\ Qle (infinite_from F64) (decimal 17976931348623159 292) /\
  vanishes F64 (decimal 24703282292062327 (-340)) /\ ~ vanishes F64 (decimal 24703282292062328 (-340)).
Proof.
  intros parse. do 4 (split; [vm_compute; reflexivity|]). split; [vm_compute; reflexivity|].
  split; [vm_compute; discriminate|]. split; [vm_compute; discriminate|]. intros H. vm_compute in H. apply H. reflexivity.
Qed.

(** The hypotheses: "1e999" and "1e-999" (Props_Float). *)
Example threshold_hypotheses : forall n,
  good_text cfg_x86_64 Char_s general (text_1e999 n) /\ starts_at cfg_x86_64 general (text_1e999 n) (text_1e999 n) /\
  number (rules_of cfg_x86_64 general) (text_1e999 n) false [49] [] (if n then -999 else 999) [] /\
  exponent_bounded (text_1e999 n) (if n then -999 else 999).
Proof.
  intros n. split; [apply good_1e999|]. split; [reflexivity|]. split; [apply number_1e999|]. right. destruct n; reflexivity.
Qed.

(** ** The thresholds of integer_times_pow10 are the same, in both directions and
    with no exception. *)
Theorem integer_times_pow10_thresholds :
  forall (c : cfg) (t : ftype) (m e : Z), 0 <= m < 2 ^ 64 ->
  exists b, integer_times_pow10_u c t m e = Ok b /\ 0 <= b <= infinity (format_of t) /\
    (b = infinity (format_of t) <-> (infinite_from t <= decimal m e)%Q) /\
    (b = 0 <-> vanishes t (decimal m e)).
Proof.
  intros c t m e Hm.
  assert (P : (0 <= decimal m e)%Q) by (rewrite decimal_dec; apply dec_nonneg; lia).
  assert (F : t = F16 \/ t <> F16) by (destruct t; (left; reflexivity) || (right; discriminate)).
  destruct F as [->|NT].
  - destruct (integer_times_pow10_float16_exact c m e Hm) as (b & E & N & T & NE).
    exists b. split; [exact E|]. split; [exact (proj1 N)|].
    assert (NB : nearest_but_subnormal_ties binary16 (decimal m e) b).
    { destruct (integer_times_pow10_float16_partial c m e Hm) as (b' & E' & NB). rewrite E in E'.
      assert (b = b') by congruence. subst b'. exact NB. }
    split; [rewrite (inf_inf F16); apply (close_infinite F16); assumption|].
    apply (close_vanishes F16); try assumption; [congruence|]. intros _ EQ. apply T, half_tie, EQ.
  - destruct (integer_times_pow10_correct c t m e NT Hm) as (b & E & N).
    exists b. split; [exact E|]. split; [exact (proj1 N)|].
    pose proof (nearest_even_nearest _ _ _ N) as N0.
    split; [rewrite inf_inf; apply close_infinite; [exact P|split; [exact N0|left; exact N]]|].
    apply close_vanishes; [exact P|exact N0|intros _; exact N|intros; contradiction].
Qed.
Print Assumptions integer_times_pow10_thresholds.

Example pow10_thresholds_example :
  integer_times_pow10_u cfg_x86_64 F64 17976931348623159 292 = Ok (infinity binary64) /\
  integer_times_pow10_u cfg_x86_64 F64 17976931348623158 292 = Ok (infinity binary64 - 1) /\
  integer_times_pow10_u cfg_x86_64 F32 1 (-46) = Ok 0 /\ integer_times_pow10_u cfg_x86_64 F32 1 (-45) = Ok 1.
Proof. repeat split; vm_compute; reflexivity. Qed.
