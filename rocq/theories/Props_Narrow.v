(** Property C57: reading into a wider type and converting the result to a
    narrower one gives what reading into the narrower type gives, unless the
    wider result falls exactly half-way between two numbers of the narrower. *)
From Verif Require Import Machine Config Chars Format ParseNumber DecToBin FromChars WordLemmas
  Rounding ComputeFloat SpecFloat FloatBridge Clinger Pow10 SpecGrammar SpecApi SpecRel Scan ParseSpec Special
  SlowPath ManyDigits Saturate FloatMaster FloatApi FloatRel Props_Pow10 Props_Types.
From Coq Require Import QArith Qabs Lqa.
Open Scope Z_scope.

(** [y] is half-way between two neighbouring numbers of [f] (between the
    largest number and the first power of two beyond it included). *)
Definition half_way (f : format) (y : Q) : Prop :=
  exists k, 0 <= k < infinity f /\ Qeq (2 * y) (magnitude f k + magnitude f (k + 1)).

(** Every integer with few significant bits is the value of a code. *)
Lemma code_of_units mb : 0 < mb -> forall j n, 0 <= j -> 0 <= n <= 2 ^ (mb + 1) ->
  exists a, 0 <= a /\ fp_units mb a = n * 2 ^ j.
Proof.
  intros Hmb j n Hj. revert n. pattern j. apply natlike_ind; [| |exact Hj]; clear j Hj.
  - intros n Hn. exists (0 * 2 ^ mb + n). split; [lia|]. apply U_enc; [exact Hmb|]. unfold canon. lia.
  - intros j Hj IH n Hn. destruct (Z_le_gt_dec (2 ^ mb) n) as [L|L].
    + exists (Z.succ j * 2 ^ mb + n). split; [pose proof (pow2_pos mb); nia|]. apply U_enc; [exact Hmb|]. unfold canon. lia.
    + destruct (IH (2 * n)) as (a & A1 & A2); [rewrite pow2_S by lia; lia|].
      exists a. split; [exact A1|]. rewrite A2, Z.pow_succ_r by exact Hj. ring.
Qed.

(** Half-way points of the narrower type are numbers of the wider. *)
Lemma half_way_code t t' y : wider t t' -> half_way (format_of t') y ->
  exists a, 0 <= a <= infinity (format_of t) /\ Qeq (magnitude (format_of t) a) y.
Proof.
  intros W (k & HK & HY). pose proof (mb_range t) as MB. pose proof (mb_range t') as MB'.
  destruct (U_dec (mant_bits t') k ltac:(lia) ltac:(lia)) as (e & m & E & C & L).
  assert (H2 : Qeq (2 * y) ([(2 * m + 1) * 2 ^ e]q * ulp0 t')).
  { rewrite HY, !magnitude_units by lia. rewrite E. rewrite U_succ, U_enc by (try exact C; lia).
    rewrite !inject_Z_mult, !inject_Z_plus, inject_Z_mult. ring. }
  destruct C as (C1 & C2 & C3).
  assert (D : exists d, 0 <= d /\ Qeq (ulp0 t') (2 * [2 ^ d]q * ulp0 t) /\ mant_bits t' + 2 <= mant_bits t + 1).
  { exists (min_exp t' + 1 - mant_bits t' - (min_exp t + 1 - mant_bits t) - 1).
    destruct t, t'; try contradiction; vm_compute; repeat split; try discriminate; reflexivity. }
  destruct D as (d & D0 & D1 & D2).
  destruct (code_of_units (mant_bits t) ltac:(lia) (e + d) (2 * m + 1)) as (a & A0 & A1); [lia| |].
  { rewrite pow2_S in L by lia. split; [lia|].
    transitivity (2 ^ (mant_bits t' + 2)); [|apply Z.pow_le_mono_r; lia].
    replace (mant_bits t' + 2) with (mant_bits t' + 1 + 1) by lia. rewrite !pow2_S by lia. lia. }
  assert (Y : Qeq (magnitude (format_of t) a) y).
  { rewrite magnitude_units by exact A0. rewrite A1.
    assert (H3 : Qeq (2 * y) (2 * ([(2 * m + 1) * 2 ^ (e + d)]q * ulp0 t))).
    { rewrite H2, D1. rewrite Z.pow_add_r, !inject_Z_mult by lia. ring. }
    clear - H3. lra. }
  exists a. split; [|exact Y]. split; [exact A0|].
  destruct (Z_le_gt_dec a (infinity (format_of t))) as [G|G]; [exact G|exfalso].
  rewrite inf_inf in *.
  assert (I0 : 0 <= inf_code t) by (destruct t; vm_compute; discriminate).
  assert (I0' : 0 <= inf_code t') by (destruct t'; vm_compute; discriminate).
  pose proof (magnitude_lt t (inf_code t) a ltac:(lia)) as G1.
  pose proof (magnitude_le t' k (inf_code t') ltac:(lia)) as G2.
  pose proof (magnitude_le t' (k + 1) (inf_code t') ltac:(lia)) as G3.
  assert (MW : Qle (magnitude (format_of t') (inf_code t')) (magnitude (format_of t) (inf_code t)))
    by (destruct t, t'; try contradiction; vm_compute; discriminate).
  clear - HY Y G1 G2 G3 MW. lra.
Qed.

(** A half-way point separates [x] and the wider result in the same way. *)
Lemma same_side t t' x b z : wider t t' -> nearest (format_of t) x b -> half_way (format_of t') z ->
  (Qle x z -> Qle (magnitude (format_of t) b) z) /\ (Qle z x -> Qle z (magnitude (format_of t) b)).
Proof.
  intros W (_ & N) H. destruct (half_way_code t t' z W H) as (a & A & E). specialize (N a A). rewrite E in N.
  set (y := magnitude (format_of t) b) in *. clearbody y. clear - N.
  revert N. do 2 apply Qabs_case; intros; split; intros; lra.
Qed.

Lemma narrow_steps t t' x b b' : wider t t' -> near t x b -> near t' x b' ->
  (b' < infinity (format_of t') ->
     Qle (2 * magnitude (format_of t) b) (magnitude (format_of t') b' + magnitude (format_of t') (b' + 1))) /\
  (1 <= b' -> Qle (magnitude (format_of t') (b' - 1) + magnitude (format_of t') b') (2 * magnitude (format_of t) b)).
Proof.
  intros W N N'. apply nearest_of in N. apply nearest_of in N'. destruct N' as (R' & N').
  split; intros L.
  - pose proof (closer_low _ _ _ (magnitude_lt t' b' (b' + 1) ltac:(lia)) (N' (b' + 1) ltac:(lia))) as C.
    set (S := Qplus (magnitude (format_of t') b') (magnitude (format_of t') (b' + 1))) in *.
    destruct (same_side t t' x b (S * (1 # 2)) W N) as (A & _).
    { exists b'. split; [lia|]. fold S. clearbody S. ring. }
    assert (A' := A ltac:(clearbody S; lra)). clearbody S. lra.
  - pose proof (closer_high _ _ _ (magnitude_lt t' (b' - 1) b' ltac:(lia)) (N' (b' - 1) ltac:(lia))) as C.
    set (S := Qplus (magnitude (format_of t') (b' - 1)) (magnitude (format_of t') b')) in *.
    destruct (same_side t t' x b (S * (1 # 2)) W N) as (_ & A).
    { exists (b' - 1). split; [lia|]. replace (b' - 1 + 1) with b' by lia. fold S. clearbody S. ring. }
    assert (A' := A ltac:(clearbody S; lra)). clearbody S. lra.
Qed.

(** Not past either half-way point is nearest; strictly between is nearest with no tie. *)
Lemma between_nearest t y b : 0 <= b <= infinity (format_of t) ->
  (b < infinity (format_of t) -> Qle (2 * y) (magnitude (format_of t) b + magnitude (format_of t) (b + 1))) ->
  (1 <= b -> Qle (magnitude (format_of t) (b - 1) + magnitude (format_of t) b) (2 * y)) ->
  nearest (format_of t) y b.
Proof.
  intros RB U L. split; [exact RB|]. intros b' RB'. set (M := magnitude (format_of t)) in *.
  destruct (Z.lt_total b' b) as [G|[->|G]]; [|apply Qle_refl|].
  - specialize (L ltac:(lia)). pose proof (magnitude_le t b' (b - 1) ltac:(lia)) as M1. fold M in M1.
    pose proof (magnitude_lt t b' b ltac:(lia)) as M2. fold M in M2.
    clear - L M1 M2. do 2 apply Qabs_case; intros; lra.
  - specialize (U ltac:(lia)). pose proof (magnitude_le t (b + 1) b' ltac:(lia)) as M1. fold M in M1.
    pose proof (magnitude_lt t b b' ltac:(lia)) as M2. fold M in M2.
    clear - U M1 M2. do 2 apply Qabs_case; intros; lra.
Qed.

Lemma nearest_no_tie t y b : nearest (format_of t) y b -> ~ half_way (format_of t) y -> nearest_even (format_of t) y b.
Proof.
  intros (RB & N) NH. split; [exact RB|]. intros b' RB'.
  destruct (Z.eq_dec b b') as [->|NE]; [right; split; [reflexivity|left; reflexivity]|left].
  specialize (N b' RB') as NB. apply Qle_lteq in NB. destruct NB as [LT|EQ]; [exact LT|exfalso].
  apply NH. set (M := magnitude (format_of t)) in *.
  destruct (Z.lt_total b' b) as [G|[->|G]]; [|contradiction|].
  - exists (b - 1). split; [lia|]. replace (b - 1 + 1) with b by lia. fold M.
    pose proof (magnitude_lt t b' b ltac:(lia)) as M2. fold M in M2.
    pose proof (magnitude_le t b' (b - 1) ltac:(lia)) as M1. fold M in M1.
    pose proof (magnitude_lt t (b - 1) b ltac:(lia)) as M3. fold M in M3.
    pose proof (closer_high _ _ _ M3 (N (b - 1) ltac:(lia))) as C.
    clear - EQ M1 M2 C. revert EQ. do 2 apply Qabs_case; intros; lra.
  - exists b. split; [lia|]. fold M.
    pose proof (magnitude_lt t b b' ltac:(lia)) as M2. fold M in M2.
    pose proof (magnitude_le t (b + 1) b' ltac:(lia)) as M1. fold M in M1.
    pose proof (magnitude_lt t b (b + 1) ltac:(lia)) as M3. fold M in M3.
    pose proof (closer_low _ _ _ M3 (N (b + 1) ltac:(lia))) as C.
    clear - EQ M1 M2 C. revert EQ. do 2 apply Qabs_case; intros; lra.
Qed.

Lemma near_narrow t t' x b b' : wider t t' -> near t x b -> near t' x b' ->
  nearest (format_of t') (magnitude (format_of t) b) b'.
Proof.
  intros W N N'. destruct (narrow_steps t t' x b b' W N N') as (U & L).
  apply between_nearest; [apply (nearest_of t' x b' N')|exact U|exact L].
Qed.

(** C57: what the narrower type gets is always a nearest number to what the
    wider type gets, and the one IEEE-754 conversion picks (nearest, ties to
    even) whenever the wider result is not half-way. *)
Theorem from_chars_narrowing :
  forall (c : cfg) (u : uc) (t t' : ftype) (o : options) (s : list Z) (r r' : result) (neg : bool) (b : Z),
  good_text c u o s -> wider t t' ->
  from_chars_float_advanced c u t s o = Ok r -> from_chars_float_advanced c u t' s o = Ok r' ->
  r_value r = Some (with_sign (format_of t) neg b) -> 0 <= b <= infinity (format_of t) ->
  exists b', r_value r' = Some (with_sign (format_of t') neg b') /\
    nearest (format_of t') (magnitude (format_of t) b) b' /\
    (~ half_way (format_of t') (magnitude (format_of t) b) ->
     nearest_even (format_of t') (magnitude (format_of t) b) b').
Proof.
  intros c u t t' o s r r' neg0 b0 G W ER ER' V0 RB0. destruct (starts_exists c o s) as (s0 & SA).
  assert (WS : forall a b n m, with_sign (format_of t) n a = with_sign (format_of t) m b ->
    0 <= a < 2 ^ (frac_bits (format_of t) + exp_bits (format_of t)) ->
    0 <= b < 2 ^ (frac_bits (format_of t) + exp_bits (format_of t)) -> n = m /\ a = b).
  { intros a b n m. unfold with_sign. set (K := 2 ^ _). clearbody K. destruct n, m; intros; split; (reflexivity || lia). }
  pose proof (code_small t b0 ltac:(rewrite <- inf_inf; exact RB0)) as B0.
  destruct (number_or_not c u o s s0 G SA) as [(neg & ip & fp & e & rest & N)|NN].
  - destruct (float_number_clamped c u t o s s0 neg ip fp e rest (good_text_ok _ _ _ _ G) SA N) as (e1 & b1 & x1 & CL1 & E1 & R1 & _).
    destruct (float_number_clamped c u t' o s s0 neg ip fp e rest (good_text_ok _ _ _ _ G) SA N) as (e2 & b2 & x2 & CL2 & E2 & R2 & _).
    pose proof (clamp_unique _ _ _ CL1 CL2). subst e2. rewrite E1 in ER. rewrite E2 in ER'.
    assert (Er : r = {| r_ptr := rest; r_ec := x1; r_value := Some (with_sign (format_of t) neg b1) |}) by congruence.
    assert (Er' : r' = {| r_ptr := rest; r_ec := x2; r_value := Some (with_sign (format_of t') neg b2) |}) by congruence.
    subst r r'. clear ER ER' E1 E2. cbn [r_ec r_value] in *.
    assert (X' : with_sign (format_of t) neg b1 = with_sign (format_of t) neg0 b0) by congruence.
    destruct (WS _ _ _ _ X' (code_small t b1 (near_range _ _ _ R1)) B0) as (<- & <-).
    exists b2. split; [reflexivity|]. pose proof (near_narrow t t' _ b1 b2 W R1 R2) as NN.
    split; [exact NN|]. intros NH. apply nearest_no_tie; assumption.
  - destruct (other_main c u t o s s0 G SA NN) as [(A1 & E1)|[(A1 & NS1 & E1)|(n1 & k1 & r1 & A1 & SP1 & E1)]];
    destruct (other_main c u t' o s s0 G SA NN) as [(A2 & E2)|[(A2 & NS2 & E2)|(n2 & k2 & r2 & A2 & SP2 & E2)]];
      try congruence; rewrite E1 in ER; rewrite E2 in ER'.
    1,2: assert (Er : r = {| r_ptr := s0; r_ec := InvalidArgument; r_value := None |}) by congruence;
      subst r; discriminate V0.
    + exfalso. exact (NS1 _ _ _ SP2).
    + exfalso. exact (NS2 _ _ _ SP1).
    + destruct (special_unique _ _ _ _ _ _ _ _ SP1 SP2) as (<- & <- & <-).
      assert (Er : r = {| r_ptr := r1; r_ec := Success; r_value := Some (with_sign (format_of t) n1 (special_code t k1)) |}) by congruence.
      assert (Er' : r' = {| r_ptr := r1; r_ec := Success; r_value := Some (with_sign (format_of t') n1 (special_code t' k1)) |}) by congruence.
      subst r r'. cbn [r_value] in *.
      assert (X' : with_sign (format_of t) n1 (special_code t k1) = with_sign (format_of t) neg0 b0) by congruence.
      destruct (WS _ _ _ _ X' (special_small _ _) B0) as (<- & <-).
      destruct k1; [|exfalso; clear - RB0; destruct t; vm_compute in RB0; destruct RB0 as (_ & RB0); apply RB0; reflexivity].
      exists (special_code t' Inf). split; [reflexivity|].
      assert (NN' : nearest (format_of t') (magnitude (format_of t) (special_code t Inf)) (special_code t' Inf)).
      { replace (special_code t' Inf) with (infinity (format_of t')) by (destruct t'; reflexivity).
        apply between_nearest; [rewrite inf_inf; split; [destruct t'; vm_compute; discriminate|apply Z.le_refl]|lia|].
        intros _. destruct t, t'; try contradiction; vm_compute; discriminate. }
      split; [exact NN'|]. intros NH. apply nearest_no_tie; assumption.
Qed.
Print Assumptions from_chars_narrowing.

(** The text 1.00000017881393432617187499: a hair below half-way between the
    floats with codes 0x3f800001 and 0x3f800002.  As a double it is exactly
    half-way, and converting that double goes to the even neighbour, while the
    direct reading keeps the correct one. *)
Definition twice_rounded : list Z :=
  [49; 46; 48; 48; 48; 48; 48; 48; 49; 55; 56; 56; 49; 51; 57; 51; 52; 51; 50; 54; 49; 55; 49; 56; 55; 52; 57; 57].

Lemma twice_rounded_results :
  from_chars_float_advanced cfg_x86_64 Char_s F64 twice_rounded general =
    Ok {| r_ptr := []; r_ec := Success; r_value := Some 0x3ff0000030000000 |} /\
  from_chars_float_advanced cfg_x86_64 Char_s F32 twice_rounded general =
    Ok {| r_ptr := []; r_ec := Success; r_value := Some 0x3f800001 |}.
Proof. split; vm_compute; reflexivity. Qed.

Lemma twice_rounded_good : good_text cfg_x86_64 Char_s general twice_rounded.
Proof. split; [repeat constructor; vm_compute; intuition congruence|]. split; [discriminate|]. split; [vm_compute; discriminate|reflexivity]. Qed.

(** C57, without the exception, is false: converting the wider result is not
    the same as reading into the narrower type. *)
Theorem narrowing_without_exception_refuted :
  ~ (forall (c : cfg) (u : uc) (t t' : ftype) (o : options) (s : list Z) (r r' : result) (neg : bool) (b b' : Z),
     good_text c u o s -> wider t t' ->
     from_chars_float_advanced c u t s o = Ok r -> from_chars_float_advanced c u t' s o = Ok r' ->
     r_value r = Some (with_sign (format_of t) neg b) -> 0 <= b <= infinity (format_of t) ->
     r_value r' = Some (with_sign (format_of t') neg b') ->
     nearest_even (format_of t') (magnitude (format_of t) b) b').
Proof.
  intros H. destruct twice_rounded_results as (E1 & E2).
  pose proof (H cfg_x86_64 Char_s F64 F32 general twice_rounded _ _ false 0x3ff0000030000000 0x3f800001
    twice_rounded_good I E1 E2 ltac:(reflexivity) ltac:(vm_compute; split; discriminate) ltac:(reflexivity)) as (_ & N).
  destruct (N 0x3f800002 ltac:(vm_compute; split; discriminate)) as [X|(_ & [X|X])];
    [vm_compute in X; discriminate X|discriminate X|discriminate X].
Qed.
Print Assumptions narrowing_without_exception_refuted.

(** The hypotheses are met, exception or not: 0.1 is nowhere near half-way. *)
Example narrowing_example :
  good_text cfg_x86_64 Char_s general [45; 48; 46; 49] /\ wider F64 F32 /\
  from_chars_float_advanced cfg_x86_64 Char_s F64 [45; 48; 46; 49] general =
    Ok {| r_ptr := []; r_ec := Success; r_value := Some (with_sign binary64 true 0x3fb999999999999a) |} /\
  from_chars_float_advanced cfg_x86_64 Char_s F32 [45; 48; 46; 49] general =
    Ok {| r_ptr := []; r_ec := Success; r_value := Some (with_sign binary32 true 0x3dcccccd) |} /\
  half_way binary32 (magnitude binary64 0x3ff0000030000000) /\
  ~ half_way binary32 (magnitude binary64 0x3fb999999999999a).
Proof.
  split; [split; [repeat constructor; vm_compute; intuition congruence|]; split; [discriminate|]; split; [vm_compute; discriminate|reflexivity]|].
  split; [exact I|]. split; [vm_compute; reflexivity|]. split; [vm_compute; reflexivity|]. split.
  - exists 0x3f800001. split; vm_compute; [split; [discriminate|reflexivity]|reflexivity].
  - intros (k & K & E). change binary32 with (format_of F32) in *.
    destruct (Z_le_gt_dec k 0x3dcccccc) as [L|L].
    + pose proof (magnitude_le F32 k 0x3dcccccc ltac:(lia)) as M1.
      pose proof (magnitude_le F32 (k + 1) 0x3dcccccd ltac:(lia)) as M2.
      assert (X : Qlt (magnitude (format_of F32) 0x3dcccccc + magnitude (format_of F32) 0x3dcccccd) (2 * magnitude binary64 0x3fb999999999999a))
        by (vm_compute; reflexivity).
      rewrite E in X. set (m := magnitude (format_of F32)) in *. clearbody m. clear - M1 M2 X. lra.
    + pose proof (magnitude_le F32 0x3dcccccd k ltac:(lia)) as M1.
      pose proof (magnitude_le F32 0x3dccccce (k + 1) ltac:(lia)) as M2.
      assert (X : Qlt (2 * magnitude binary64 0x3fb999999999999a) (magnitude (format_of F32) 0x3dcccccd + magnitude (format_of F32) 0x3dccccce))
        by (vm_compute; reflexivity).
      rewrite E in X. set (m := magnitude (format_of F32)) in *. clearbody m. clear - M1 M2 X. lra.
Qed.
